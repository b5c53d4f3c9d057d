(** Finite trigonometric sums and the exact discrete Fourier transform. *)
From Coq Require Import Reals Lra Lia Psatz.
From Verif Require Import Base Num RNum P_Score P_R.
Open Scope R_scope.

Definition Sg (n : nat) (f : nat -> R) : R := Rsum (map f (seq 0 n)).
Lemma Sg_S n f : Sg (S n) f = Sg n f + f n.
Proof. unfold Sg. rewrite seq_S, map_app, Rsum_app. cbn [map Nat.add]. rewrite Rsum_cons. cbn. ring. Qed.
Lemma Sg_0 f : Sg 0 f = 0. Proof. reflexivity. Qed.
Lemma Sg_ext n f g : (forall k, (k < n)%nat -> f k = g k) -> Sg n f = Sg n g.
Proof. intros H. unfold Sg. f_equal. apply map_ext_in. intros k Hk. apply in_seq in Hk. apply H. lia. Qed.
Lemma Sg_plus n f g : Sg n (fun k => f k + g k) = Sg n f + Sg n g.
Proof. induction n; [cbn; ring|]. rewrite !Sg_S, IHn. ring. Qed.
Lemma Sg_minus n f g : Sg n (fun k => f k - g k) = Sg n f - Sg n g.
Proof. induction n; [cbn; ring|]. rewrite !Sg_S, IHn. ring. Qed.
Lemma Sg_scal n c f : Sg n (fun k => c * f k) = c * Sg n f.
Proof. induction n; [cbn; ring|]. rewrite !Sg_S, IHn. ring. Qed.
Lemma Sg_scal_r n c f : Sg n (fun k => f k * c) = Sg n f * c.
Proof. induction n; [cbn; ring|]. rewrite !Sg_S, IHn. ring. Qed.
Lemma Sg_zero n f : (forall k, (k < n)%nat -> f k = 0) -> Sg n f = 0.
Proof. intros H. rewrite (Sg_ext n f (fun _ => 0 * 0)) by (intros; rewrite H by auto; ring). rewrite Sg_scal. ring. Qed.
Lemma Sg_const n c : Sg n (fun _ => c) = INR n * c.
Proof. induction n; [cbn; ring|]. rewrite Sg_S, IHn, S_INR. ring. Qed.
Lemma Sg_swap n m f : Sg n (fun i => Sg m (fun j => f i j)) = Sg m (fun j => Sg n (fun i => f i j)).
Proof.
  induction n; [cbn; rewrite Sg_zero; auto|]. rewrite Sg_S, IHn, <- Sg_plus. apply Sg_ext. intros. rewrite Sg_S. reflexivity.
Qed.
Lemma Sg_one n j f : (j < n)%nat -> (forall k, (k < n)%nat -> k <> j -> f k = 0) -> Sg n f = f j.
Proof.
  induction n as [|n IH]; intros Hj H; [lia|]. rewrite Sg_S. destruct (Nat.eq_dec j n) as [->|D].
  - rewrite Sg_zero; [ring|]. intros. apply H; lia.
  - rewrite IH by (auto; try lia; intros; apply H; lia). rewrite (H n) by lia. ring.
Qed.
Lemma Sg_add n m f : Sg (n + m) f = Sg n f + Sg m (fun k => f (n + k)%nat).
Proof. induction m; [rewrite Nat.add_0_r; cbn; ring|]. rewrite Nat.add_succ_r, !Sg_S, IHm. ring. Qed.
Lemma Sg_rev n f : Sg n f = Sg n (fun k => f (n - 1 - k)%nat).
Proof.
  induction n as [|n IH]; [reflexivity|]. rewrite Sg_S, IH.
  change (Sg (S n) (fun k => f (S n - 1 - k)%nat)) with (Sg (1 + n) (fun k => f (S n - 1 - k)%nat)). rewrite Sg_add.
  replace (Sg 1 (fun k => f (S n - 1 - k)%nat)) with (f n). 2:{ rewrite Sg_S, Sg_0. replace (S n - 1 - 0)%nat with n by lia. ring. }
  rewrite (Sg_ext n (fun k => f (S n - 1 - (1 + k))%nat) (fun k => f (n - 1 - k)%nat)) by (intros; f_equal; lia). ring.
Qed.
Lemma Sg_le n f g : (forall k, (k < n)%nat -> f k <= g k) -> Sg n f <= Sg n g.
Proof. induction n as [|n IH]; intros H; [cbn; lra|]. rewrite !Sg_S. apply Rplus_le_compat; auto. Qed.

(** ** Sums of cosines over the n-th roots of unity *)
Definition ang (n : nat) (d : Z) : R := 2 * PI * IZR d / INR n.
Lemma cos_sum_tele th n : 2 * sin (th / 2) * Sg n (fun k => cos (INR k * th)) = sin ((INR n - / 2) * th) + sin (th / 2).
Proof.
  induction n as [|n IH].
  - rewrite Sg_0. cbn [INR]. replace ((0 - / 2) * th) with (- (th / 2)) by field. rewrite sin_neg. ring.
  - rewrite Sg_S, Rmult_plus_distr_l, IH, S_INR.
    replace ((INR n + 1 - / 2) * th) with (INR n * th + th / 2) by field.
    replace ((INR n - / 2) * th) with (INR n * th - th / 2) by field. rewrite sin_plus, sin_minus. ring.
Qed.
Lemma cos_2kpi x k : cos (x + 2 * PI * IZR k) = cos x.
Proof.
  assert (P : forall n y, cos (y + 2 * PI * INR n) = cos y).
  { intros n y. rewrite <- (cos_period y n). f_equal. ring. }
  destruct (Z_le_gt_dec 0 k) as [H|H].
  - rewrite <- (Z2Nat.id k H), <- INR_IZR_INZ. apply P.
  - rewrite <- (P (Z.to_nat (- k)) (x + 2 * PI * IZR k)). rewrite INR_IZR_INZ, Z2Nat.id by lia. rewrite opp_IZR. f_equal. ring.
Qed.
Lemma sin_2kpi x k : sin (x + 2 * PI * IZR k) = sin x.
Proof. rewrite <- !(cos_shift). replace (PI / 2 - (x + 2 * PI * IZR k)) with ((PI / 2 - x) + 2 * PI * IZR (- k)) by (rewrite opp_IZR; ring). apply cos_2kpi. Qed.
Lemma cos_ang_mod n d q k : (0 < n)%nat -> cos (INR k * ang n (d + q * Z.of_nat n)) = cos (INR k * ang n d).
Proof.
  intros Hn. assert (0 < INR n) by (apply lt_0_INR; auto).
  rewrite <- (cos_2kpi (INR k * ang n d) (Z.of_nat k * q)). f_equal. unfold ang. rewrite plus_IZR, !mult_IZR, <- !INR_IZR_INZ. field. lra.
Qed.
Lemma cos_sum n d : (0 < n)%nat ->
  Sg n (fun k => cos (INR k * ang n d)) = if (d mod Z.of_nat n =? 0)%Z then INR n else 0.
Proof.
  intros Hn. assert (Pn : 0 < INR n) by (apply lt_0_INR; auto).
  destruct (Z.eqb_spec (d mod Z.of_nat n) 0) as [E|E].
  - apply Z.mod_divide in E; [|lia]. destruct E as [q ->].
    rewrite (Sg_ext _ _ (fun _ => 1)). { rewrite Sg_const. ring. }
    intros k _. replace (q * Z.of_nat n)%Z with (0 + q * Z.of_nat n)%Z by lia. rewrite cos_ang_mod by auto.
    unfold ang. rewrite <- cos_0. f_equal. field. lra.
  - assert (T := cos_sum_tele (ang n d) n).
    assert (S1 : sin ((INR n - / 2) * ang n d) = - sin (ang n d / 2)).
    { replace ((INR n - / 2) * ang n d) with (- (ang n d / 2) + 2 * PI * IZR d) by (unfold ang; field; lra).
      rewrite sin_2kpi. apply sin_neg. }
    rewrite S1 in T. assert (NZ : sin (ang n d / 2) <> 0).
    { intros Z. apply sin_eq_0_0 in Z. destruct Z as [k Hk]. apply E. apply Z.mod_divide; [lia|]. exists k.
      apply eq_IZR. rewrite mult_IZR, <- INR_IZR_INZ. unfold ang in Hk.
      apply Rmult_eq_reg_l with (PI / INR n); [|apply Rgt_not_eq; apply Rdiv_lt_0_compat; [apply PI_RGT_0|auto]].
      transitivity (2 * PI * IZR d / INR n / 2); [field; lra|]. rewrite Hk. field. lra. }
    apply Rmult_eq_reg_l with (2 * sin (ang n d / 2)); [lra|]. apply Rmult_integral_contrapositive_currified; [lra|auto].
Qed.

(** ** The transform *)
Lemma list_tab {A} (l : list A) d : l = map (fun i => nth i l d) (seq 0 (List.length l)).
Proof.
  induction l as [|x t IH]; [reflexivity|]. cbn [List.length seq map]. rewrite <- seq_shift, map_map. cbn [nth]. rewrite <- IH. reflexivity.
Qed.
Lemma combine_tab {A} (g : nat -> A) (n : nat) : forall s, combine (seq s n) (map g (seq s n)) = map (fun j => (j, g j)) (seq s n).
Proof. induction n as [|n IH]; intros s; [reflexivity|]. cbn [seq map combine]. rewrite IH. reflexivity. Qed.
Lemma combine_tab2 {A B} (f : nat -> A) (g : nat -> B) (n : nat) : forall s, combine (map f (seq s n)) (map g (seq s n)) = map (fun j => (f j, g j)) (seq s n).
Proof. induction n as [|n IH]; intros s; [reflexivity|]. cbn [seq map combine]. rewrite IH. reflexivity. Qed.
Definition dft_re (inv : bool) (n : nat) (g : nat -> R * R) (k : nat) : R :=
  Sg n (fun j => fst (g j) * cos (INR j * ang n (Z.of_nat k)) + (if inv then -1 else 1) * snd (g j) * sin (INR j * ang n (Z.of_nat k))).
Definition dft_im (inv : bool) (n : nat) (g : nat -> R * R) (k : nat) : R :=
  Sg n (fun j => (if inv then 1 else -1) * fst (g j) * sin (INR j * ang n (Z.of_nat k)) + snd (g j) * cos (INR j * ang n (Z.of_nat k))).
Lemma dft_tab inv n g : dft inv (map g (seq 0 n)) = map (fun k => (dft_re inv n g k, dft_im inv n g k)) (seq 0 n).
Proof.
  unfold dft. rewrite map_length, seq_length, combine_tab. apply map_ext. intros k. rewrite map_map. cbn [fst snd].
  unfold Csum. rewrite !map_map. unfold dft_re, dft_im, Sg.
  assert (A : forall j, 2 * PI * INR (j * k) / INR n = INR j * ang n (Z.of_nat k)).
  { intros j. unfold ang. rewrite mult_INR, <- INR_IZR_INZ. unfold Rdiv. ring. }
  f_equal; f_equal; apply map_ext; intros j; unfold dft_term, Cmul, cis; cbn [fst snd]; rewrite A; destruct inv;
    rewrite ?cos_neg, ?sin_neg; ring.
Qed.
Lemma dft_tab_length inv (l : list (R * R)) : List.length (dft inv l) = List.length l.
Proof. unfold dft. rewrite map_length, seq_length. reflexivity. Qed.

(** Real parts of the inverse transform of a spectrum scaled by [s]. *)
Lemma filtered n (x : nat -> R) (s : nat -> R) (m : nat) :
  dft_re true n (fun k => (dft_re false n (fun j => (x j, 0)) k * s k, dft_im false n (fun j => (x j, 0)) k * s k)) m =
  Sg n (fun a => x a * Sg n (fun k => s k * cos (INR k * ang n (Z.of_nat m - Z.of_nat a)))).
Proof.
  unfold dft_re at 1, dft_re, dft_im. cbn [fst snd].
  transitivity (Sg n (fun k => Sg n (fun a => x a * (s k * cos (INR k * ang n (Z.of_nat m - Z.of_nat a)))))).
  - apply Sg_ext. intros k Hk. rewrite <- !Sg_scal_r.
    rewrite <- Sg_scal. rewrite <- Sg_scal_r. rewrite <- Sg_plus. apply Sg_ext. intros a Ha.
    replace (INR k * ang n (Z.of_nat m - Z.of_nat a)) with (INR k * ang n (Z.of_nat m) - INR a * ang n (Z.of_nat k)).
    + rewrite cos_minus. ring.
    + unfold ang. rewrite minus_IZR, <- !INR_IZR_INZ. unfold Rdiv. ring.
  - rewrite Sg_swap. apply Sg_ext. intros a Ha. rewrite Sg_scal. reflexivity.
Qed.

(** Real parts of the inverse transform of a product X * conj Y: circular
    cross-correlation. *)
Lemma product_inverse n (x y : nat -> R) (m : nat) : (0 < n)%nat ->
  let X := dft_re false n (fun j => (x j, 0)) in let X' := dft_im false n (fun j => (x j, 0)) in
  let Y := dft_re false n (fun j => (y j, 0)) in let Y' := dft_im false n (fun j => (y j, 0)) in
  dft_re true n (fun k => (X k * Y k - X' k * - Y' k, X k * - Y' k + X' k * Y k)) m =
  INR n * Sg n (fun a => Sg n (fun b => if ((Z.of_nat m - Z.of_nat a + Z.of_nat b) mod Z.of_nat n =? 0)%Z then x a * y b else 0)).
Proof.
  intros Hn X X' Y Y'. unfold dft_re at 1. cbn [fst snd].
  transitivity (Sg n (fun k => Sg n (fun a => Sg n (fun b => x a * y b * cos (INR k * ang n (Z.of_nat m - Z.of_nat a + Z.of_nat b)))))).
  - apply Sg_ext. intros k Hk. unfold X, X', Y, Y', dft_re, dft_im. cbn [fst snd].
    set (c1 := cos (INR k * ang n (Z.of_nat m))). set (s1 := sin (INR k * ang n (Z.of_nat m))).
    set (A := Sg n (fun j => x j * cos (INR j * ang n (Z.of_nat k)) + 1 * 0 * sin (INR j * ang n (Z.of_nat k)))).
    set (B := Sg n (fun j => -1 * x j * sin (INR j * ang n (Z.of_nat k)) + 0 * cos (INR j * ang n (Z.of_nat k)))).
    set (C := Sg n (fun j => y j * cos (INR j * ang n (Z.of_nat k)) + 1 * 0 * sin (INR j * ang n (Z.of_nat k)))).
    set (D := Sg n (fun j => -1 * y j * sin (INR j * ang n (Z.of_nat k)) + 0 * cos (INR j * ang n (Z.of_nat k)))).
    transitivity (Sg n (fun a => x a * cos (INR a * ang n (Z.of_nat k)) * (C * c1 + D * s1) + x a * sin (INR a * ang n (Z.of_nat k)) * (C * s1 - D * c1))).
    + rewrite Sg_plus, !Sg_scal_r.
      replace (Sg n (fun k0 => x k0 * cos (INR k0 * ang n (Z.of_nat k)))) with A by (apply Sg_ext; intros; ring).
      replace (Sg n (fun k0 => x k0 * sin (INR k0 * ang n (Z.of_nat k)))) with (- B).
      2:{ unfold B. replace (- Sg n (fun j => -1 * x j * sin (INR j * ang n (Z.of_nat k)) + 0 * cos (INR j * ang n (Z.of_nat k))))
            with (-1 * Sg n (fun j => -1 * x j * sin (INR j * ang n (Z.of_nat k)) + 0 * cos (INR j * ang n (Z.of_nat k)))) by ring.
          rewrite <- Sg_scal. apply Sg_ext. intros. ring. }
      ring.
    + apply Sg_ext. intros a Ha.
      transitivity (Sg n (fun b => y b * cos (INR b * ang n (Z.of_nat k)) * (x a * (cos (INR a * ang n (Z.of_nat k)) * c1 + sin (INR a * ang n (Z.of_nat k)) * s1))
                                 + y b * sin (INR b * ang n (Z.of_nat k)) * (x a * (sin (INR a * ang n (Z.of_nat k)) * c1 - cos (INR a * ang n (Z.of_nat k)) * s1)))).
      * rewrite Sg_plus, !Sg_scal_r.
        replace (Sg n (fun k0 => y k0 * cos (INR k0 * ang n (Z.of_nat k)))) with C by (apply Sg_ext; intros; ring).
        replace (Sg n (fun k0 => y k0 * sin (INR k0 * ang n (Z.of_nat k)))) with (- D).
        2:{ unfold D. replace (- Sg n (fun j => -1 * y j * sin (INR j * ang n (Z.of_nat k)) + 0 * cos (INR j * ang n (Z.of_nat k))))
              with (-1 * Sg n (fun j => -1 * y j * sin (INR j * ang n (Z.of_nat k)) + 0 * cos (INR j * ang n (Z.of_nat k)))) by ring.
            rewrite <- Sg_scal. apply Sg_ext. intros. ring. }
        ring.
      * apply Sg_ext. intros b Hb.
        replace (INR k * ang n (Z.of_nat m - Z.of_nat a + Z.of_nat b)) with (INR k * ang n (Z.of_nat m) - INR a * ang n (Z.of_nat k) + INR b * ang n (Z.of_nat k)).
        -- rewrite cos_plus, cos_minus, sin_minus. fold c1 s1. ring.
        -- unfold ang. rewrite plus_IZR, minus_IZR, <- !INR_IZR_INZ. unfold Rdiv. ring.
  - rewrite Sg_swap, <- Sg_scal. apply Sg_ext. intros a Ha. rewrite Sg_swap, <- Sg_scal. apply Sg_ext. intros b Hb.
    rewrite Sg_scal, cos_sum by auto. destruct (_ =? _)%Z; ring.
Qed.
