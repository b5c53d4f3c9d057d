(** Bounds of the predictions of the shipped model (C65): Taylor polynomials with
    remainder and computations in integers. *)
From Coq Require Import Reals Lra Lia Psatz ZArith List Bool.
From Coquelicot Require Import Coquelicot.
From Verif Require Import Base Num RNum M_Visqol M_SvrData M_Svr P_Exp.
Import ListNotations.
Open Scope R_scope.

(** ** The exponential *)
Lemma texp_sum n y : texp n y = sum_f_R0 (fun m => y ^ m / INR (fact m)) n.
Proof. induction n; cbn [texp sum_f_R0]; [cbn; field|rewrite IHn; reflexivity]. Qed.
Lemma exp_scaled m y t : is_derive_n (fun t => exp (y * t)) m t (y ^ m * exp (y * t)).
Proof.
  revert t. induction m as [|m IH]; intros t; [cbn; ring|].
  cbn [is_derive_n]. apply (is_derive_ext (fun t => y ^ m * exp (y * t))).
  - intros s. symmetry. apply is_derive_n_unique, IH.
  - auto_derive; [auto|]. cbn [pow]. ring.
Qed.
Lemma exp_taylor n y : exists e, 0 < e <= exp (Rabs y) /\ exp y = texp n y + y ^ S n / INR (fact (S n)) * e.
Proof.
  destruct (Taylor_Lagrange (fun t => exp (y * t)) n 0 1) as (z & Hz & E); [lra| |].
  - intros t _ k _. destruct k; [exact I|]. exact (ex_intro _ _ (exp_scaled (S k) y t)).
  - exists (exp (y * z)). split.
    + split; [apply exp_pos|]. destruct (Rle_lt_dec (Rabs y) (y * z)) as [H|H]; [|left; apply exp_increasing, H].
      assert (y * z <= Rabs y * z) by (apply Rmult_le_compat_r; [lra|apply RRle_abs]).
      assert (Rabs y * z <= Rabs y * 1) by (apply Rmult_le_compat_l; [apply Rabs_pos|lra]).
      right. f_equal. lra.
    + rewrite Rmult_1_r in E. rewrite E, texp_sum, (is_derive_n_unique _ _ _ _ (exp_scaled (S n) y z)).
      rewrite Rminus_0_r, pow1. unfold Rdiv. f_equal; [|ring].
      apply sum_eq. intros i _. rewrite (is_derive_n_unique _ _ _ _ (exp_scaled i y 0)), Rmult_0_r, exp_0, pow1. field. apply INR_fact_neq_0.
Qed.
Lemma exp_lip a b : 0 <= a -> 0 <= b -> Rabs (exp (- a) - exp (- b)) <= Rabs (a - b).
Proof.
  assert (G : forall a b, 0 <= a -> a <= b -> 0 <= exp (- a) - exp (- b) <= b - a).
  { clear. intros a b Ha H. replace (exp (- b)) with (exp (- a) * exp (- (b - a))) by (rewrite <- exp_plus; f_equal; ring).
    pose proof (exp_ineq1_le (- (b - a))). pose proof (exp_pos (- a)).
    assert (exp (- a) <= 1) by (rewrite <- exp_0; destruct (Req_dec a 0) as [->|]; [rewrite Ropp_0; lra|left; apply exp_increasing; lra]).
    assert (exp (- (b - a)) <= 1) by (rewrite <- exp_0; destruct (Req_dec (b - a) 0) as [->|]; [rewrite Ropp_0; lra|left; apply exp_increasing; lra]).
    split; nra. }
  intros Ha Hb. destruct (Rle_lt_dec a b) as [H|H].
  - pose proof (G a b Ha H). rewrite (Rabs_left1 (a - b)) by lra. rewrite Rabs_pos_eq by lra. lra.
  - pose proof (G b a Hb ltac:(lra)). rewrite (Rabs_pos_eq (a - b)) by lra. rewrite Rabs_left1 by lra. lra.
Qed.
Lemma exp_le_inv y : 0 <= y < 1 -> exp y <= / (1 - y).
Proof.
  intros H. pose proof (exp_ineq1_le (- y)). rewrite exp_Ropp in H0. pose proof (exp_pos y).
  rewrite <- (Rinv_inv (exp y)). apply Rinv_le_contravar; lra.
Qed.

Lemma exp_neg_le1 a : 0 <= a -> exp (- a) <= 1.
Proof. intros H. rewrite <- exp_0. destruct H as [H|<-]; [left; apply exp_increasing; lra|rewrite Ropp_0; lra]. Qed.

(** Integer approximations: the Taylor polynomial of degree [n] at k / s in units of
    1 / s. *)
Fixpoint ez (s k : Z) (n : nat) : Z :=
  match n with O => 1%Z | S m => (ez s k m * (Z.of_nat (S m) * s) + k ^ Z.of_nat (S m))%Z end.
Fixpoint ezp (s k : Z) (n : nat) : Z * Z :=
  match n with
  | O => (1, 1)
  | S m => let '(e, p) := ezp s k m in let q := p * k in (e * (Z.of_nat (S m) * s) + q, q)
  end%Z.
Lemma ezp_ez s k n : ezp s k n = (ez s k n, (k ^ Z.of_nat n)%Z).
Proof.
  induction n as [|n IH]; [reflexivity|]. cbn [ezp ez]. rewrite IH.
  replace (k ^ Z.of_nat n * k)%Z with (k ^ Z.of_nat (S n))%Z by (rewrite Nat2Z.inj_succ, Z.pow_succ_r; lia). reflexivity.
Qed.
Definition exp_fix (s k : Z) (n : nat) : Z := (fst (ezp s k n) * s / (zfact n * s ^ Z.of_nat n))%Z.
Lemma zfact_pos n : (0 < zfact n)%Z.
Proof. induction n; [reflexivity|]. cbn [zfact]. lia. Qed.
Lemma ez_texp s k n : (0 < s)%Z -> texp n (IZR k / IZR s) = IZR (ez s k n) / IZR (zfact n * s ^ Z.of_nat n).
Proof.
  intros Hs. assert (0 < IZR s) by (apply IZR_lt; lia).
  rewrite texp_texpz. induction n as [|n IH].
  - cbn. field.
  - cbn [texpz ez]. rewrite IH. change (zfact (S n)) with (Z.of_nat (S n) * zfact n)%Z.
    rewrite plus_IZR, !mult_IZR, !Nat2Z.inj_succ, !Z.pow_succ_r by lia. rewrite !mult_IZR, <- !Nat2Z.inj_succ.
    rewrite <- !pow_IZR. unfold Rdiv. rewrite Rpow_mult_distr, pow_inv.
    assert (0 < IZR (Z.of_nat (S n))) by (apply IZR_lt; lia).
    assert (0 < IZR (zfact n)) by (apply IZR_lt, zfact_pos).
    assert (0 < IZR s ^ n) by (apply pow_lt; auto).
    cbn [pow]. field. lra.
Qed.
Lemma floor_div a b : (0 < b)%Z -> IZR (a / b) <= IZR a / IZR b < IZR (a / b) + 1.
Proof.
  intros Hb. assert (B : 0 < IZR b) by (apply IZR_lt; lia).
  pose proof (Z.mul_div_le a b Hb). pose proof (Z.mul_succ_div_gt a b Hb).
  split.
  - apply Rmult_le_reg_r with (IZR b); [lra|]. unfold Rdiv. rewrite Rmult_assoc, Rinv_l, Rmult_1_r by lra. rewrite <- mult_IZR. apply IZR_le. lia.
  - apply Rmult_lt_reg_r with (IZR b); [lra|]. unfold Rdiv. rewrite Rmult_assoc, Rinv_l, Rmult_1_r by lra. rewrite <- (plus_IZR _ 1), <- mult_IZR. apply IZR_lt. lia.
Qed.
Lemma exp_fix_close s k n : (0 < s)%Z -> Rabs (IZR k / IZR s) <= 1 / 3 ->
  Rabs (exp (IZR k / IZR s) - IZR (exp_fix s k n) / IZR s) <= / IZR s + (1 / 3) ^ S n / INR (fact (S n)) * (3 / 2).
Proof.
  intros Hs Hy. assert (S : 0 < IZR s) by (apply IZR_lt; lia). set (y := IZR k / IZR s) in *.
  destruct (exp_taylor n y) as (e & [E1 E2] & E).
  assert (E3 : e <= 3 / 2).
  { eapply Rle_trans; [exact E2|]. eapply Rle_trans; [apply exp_le_inv; split; [apply Rabs_pos|lra]|].
    replace (3 / 2) with (/ (2 / 3)) by field. apply Rinv_le_contravar; lra. }
  assert (D : (0 < zfact n * s ^ Z.of_nat n)%Z) by (pose proof (zfact_pos n); pose proof (Z.pow_pos_nonneg s (Z.of_nat n)); nia).
  pose proof (floor_div (ez s k n * s) (zfact n * s ^ Z.of_nat n) D) as F. change (ez s k n) with (fst (ez s k n, (k ^ Z.of_nat n)%Z)) in F. rewrite <- ezp_ez in F. fold (exp_fix s k n) in F. rewrite ezp_ez in F. cbn [fst] in F.
  rewrite mult_IZR in F. unfold Rdiv in F. replace (IZR (ez s k n) * IZR s * / IZR (zfact n * s ^ Z.of_nat n)) with (texp n y * IZR s) in F
    by (unfold y; rewrite (ez_texp s k n Hs); field; apply not_0_IZR; lia).
  assert (A : Rabs (texp n y - IZR (exp_fix s k n) / IZR s) <= / IZR s).
  { replace (texp n y - IZR (exp_fix s k n) / IZR s) with ((texp n y * IZR s - IZR (exp_fix s k n)) * / IZR s) by (field; lra).
    rewrite Rabs_mult, (Rabs_pos_eq (/ IZR s)) by (left; apply Rinv_0_lt_compat; lra).
    assert (0 < / IZR s) by (apply Rinv_0_lt_compat; lra).
    rewrite Rabs_pos_eq by lra. nra. }
  assert (P : 0 < / INR (fact (Datatypes.S n))) by (apply Rinv_0_lt_compat, INR_fact_lt_0).
  assert (B : Rabs (y ^ Datatypes.S n / INR (fact (Datatypes.S n)) * e) <= (1 / 3) ^ Datatypes.S n / INR (fact (Datatypes.S n)) * (3 / 2)).
  { rewrite Rabs_mult, (Rabs_pos_eq e) by lra. unfold Rdiv at 1. rewrite Rabs_mult, <- RPow_abs, (Rabs_pos_eq (/ _)) by lra.
    assert (0 <= Rabs y ^ Datatypes.S n <= (1 / 3) ^ Datatypes.S n) by (split; [apply pow_le, Rabs_pos|apply pow_incr; split; [apply Rabs_pos|exact Hy]]).
    apply Rmult_le_compat; [|lra| |lra]; [apply Rmult_le_pos; lra|]. apply Rmult_le_compat_r; lra. }
  rewrite E. replace (texp n y + y ^ Datatypes.S n / INR (fact (Datatypes.S n)) * e - IZR (exp_fix s k n) / IZR s)
    with ((texp n y - IZR (exp_fix s k n) / IZR s) + y ^ Datatypes.S n / INR (fact (Datatypes.S n)) * e) by ring.
  eapply Rle_trans; [apply Rabs_triang|lra].
Qed.

(** ** Sums and products of integer vectors *)
Fixpoint dot (v : list R) (l : list Z) : R :=
  match v, l with a :: v, x :: l => a * IZR x + dot v l | _, _ => 0 end.
Fixpoint zadd (l m : list Z) : list Z :=
  match l, m with [], _ => m | _, [] => l | x :: l, y :: m => (x + y)%Z :: zadd l m end.
Fixpoint madd (a b : list (list Z)) : list (list Z) :=
  match a, b with [], _ => b | _, [] => a | x :: a, y :: b => zadd x y :: madd a b end.
Definition scale (a : Z) (l : list Z) : list Z := map (fun x => (x * a)%Z) l.
(** a * (t t^T) as a triangular matrix: the entries left of the diagonal are doubled. *)
Fixpoint outer (a : Z) (before t : list Z) : list (list Z) :=
  match t with [] => [] | x :: t => let y := (a * x)%Z in (scale (2 * y) before ++ [x * y])%Z :: outer a (before ++ [x]) t end.
Fixpoint quad (vs v : list R) (m : list (list Z)) : R :=
  match vs, m with a :: vs, r :: m => a * dot v r + quad vs v m | _, _ => 0 end.
Lemma dot_nil v : dot v [] = 0.
Proof. destruct v; reflexivity. Qed.
Lemma quad_nil vs v : quad vs v [] = 0.
Proof. destruct vs; reflexivity. Qed.
Lemma dot_zadd v : forall l m, dot v (zadd l m) = dot v l + dot v m.
Proof.
  induction v as [|a v IH]; intros [|x l] [|y m]; cbn [dot zadd]; try ring.
  rewrite IH, plus_IZR. ring.
Qed.
Lemma dot_scale v a : forall l, dot v (scale a l) = IZR a * dot v l.
Proof. unfold scale. induction v as [|b v IH]; intros [|x l]; cbn [dot map]; try ring. rewrite IH, mult_IZR. ring. Qed.
Lemma quad_madd vs v : forall a b, quad vs v (madd a b) = quad vs v a + quad vs v b.
Proof. induction vs as [|c vs IH]; intros [|x a] [|y b]; cbn [quad madd]; try ring. rewrite IH, dot_zadd. ring. Qed.
Lemma dot_app u : forall l v m, List.length u = List.length l -> dot (u ++ v) (l ++ m) = dot u l + dot v m.
Proof. induction u as [|a u IH]; intros [|x l] v m L; try discriminate; cbn [dot app]; [ring|]. injection L as L. rewrite IH by exact L. ring. Qed.
Lemma quad_outer a t : forall u l vs, List.length u = List.length l ->
  quad vs (u ++ vs) (outer a l t) = IZR a * (2 * dot u l * dot vs t + dot vs t ^ 2).
Proof.
  induction t as [|x t IH]; intros u l vs L; [cbn [outer]; rewrite quad_nil, dot_nil; ring|].
  destruct vs as [|c vs]; [cbn; ring|]. cbn [outer quad dot].
  rewrite dot_app by (unfold scale; rewrite map_length; exact L). rewrite dot_scale.
  specialize (IH (u ++ [c]) (l ++ [x]) vs). rewrite <- app_assoc in IH. cbn [app] in IH. rewrite IH by (rewrite !app_length; cbn; lia).
  rewrite (dot_app u l [c] [x] L). cbn [dot]. rewrite dot_nil, !mult_IZR. ring.
Qed.

(** Upper bounds for entries of [v] between 0 and 2. *)
Fixpoint pos (l : list Z) : Z := match l with [] => 0 | x :: l => Z.max 0 x + pos l end%Z.
Fixpoint slack (b : list Z) (m : list (list Z)) : Z :=
  match b, m with
  | x :: b, r :: m => Z.max 0 (x + 2 * pos r) + slack b m
  | x :: b, [] => Z.max 0 x + slack b []
  | [], r :: m => 2 * pos r + (fix go m := match m with [] => 0 | r :: m => 2 * pos r + go m end) m
  | [], [] => 0
  end%Z.
Definition in02 (v : list R) : Prop := Forall (fun a => 0 <= a <= 2) v.
Lemma pos_nonneg l : (0 <= pos l)%Z.
Proof. induction l; cbn [pos]; lia. Qed.
Lemma dot_pos v : in02 v -> forall l, dot v l <= 2 * IZR (pos l).
Proof.
  induction 1 as [|a v H _ IH]; intros [|x l]; cbn [dot pos]; try (rewrite plus_IZR; pose proof (pos_nonneg l) as P; apply IZR_le in P).
  - lra.
  - pose proof (Z.le_max_l 0 x) as Q. apply IZR_le in Q. lra.
  - lra.
  - pose proof (Z.le_max_l 0 x) as Q1. pose proof (Z.le_max_r 0 x) as Q2. apply IZR_le in Q1, Q2. specialize (IH l). nra.
Qed.
Lemma slack_bound v (Hv : in02 v) vs : in02 vs -> forall b m, dot vs b + quad vs v m <= 2 * IZR (slack b m).
Proof.
  assert (G : forall m, (0 <= (fix go m := match m with [] => 0 | r :: m => 2 * pos r + go m end) m)%Z)
    by (intros m; induction m as [|r m IH]; [lia|pose proof (pos_nonneg r); lia]).
  assert (NN : forall b m, (0 <= slack b m)%Z).
  { intros b. induction b as [|x b IH]; intros [|r m]; cbn [slack]; try lia.
    - pose proof (pos_nonneg r). specialize (G m). lia.
    - specialize (IH []). lia.
    - specialize (IH m). lia. }
  induction 1 as [|a vs Ha _ IH]; intros b m.
  - cbn [dot quad]. specialize (NN b m). apply IZR_le in NN. lra.
  - destruct b as [|x b], m as [|r m]; cbn [dot quad slack].
    + lra.
    + specialize (IH [] m). rewrite dot_nil in IH. pose proof (dot_pos v Hv r).
      assert (E : slack [] m = (fix go m := match m with [] => 0 | r :: m => 2 * pos r + go m end)%Z m) by (destruct m; reflexivity).
      rewrite <- E, plus_IZR, mult_IZR. pose proof (pos_nonneg r) as P. apply IZR_le in P. nra.
    + specialize (IH b []). rewrite quad_nil in IH. rewrite plus_IZR.
      pose proof (Z.le_max_l 0 x) as Q1. pose proof (Z.le_max_r 0 x) as Q2. apply IZR_le in Q1, Q2. nra.
    + specialize (IH b m). rewrite plus_IZR. pose proof (dot_pos v Hv r).
      pose proof (Z.le_max_l 0 (x + 2 * pos r)) as Q1. pose proof (Z.le_max_r 0 (x + 2 * pos r)) as Q2. apply IZR_le in Q1, Q2.
      rewrite plus_IZR, mult_IZR in Q2. nra.
Qed.

(** ** The prediction as a sum *)
Fixpoint sq (l : list Z) (x : list R) : R :=
  match l, x with s :: l, a :: x => (IZR s / 100000000000 - a) ^ 2 + sq l x | _, _ => 0 end.
Definition term (x : list R) (row : Z * list Z) : R := IZR (fst row) / 1000000000000000000 * exp (- (1 / 100 * sq (snd row) x)).
Fixpoint total (f : Z * list Z -> R) (rows : list (Z * list Z)) : R :=
  match rows with [] => 0 | r :: rows => f r + total f rows end.

Lemma sq_RN l : forall x, List.length x = List.length l ->
  squared_distance (N:=RN) (map (fun s => nlit RN s 11) l) x = sq l x.
Proof.
  induction l as [|s l IH]; intros [|a x] L; try discriminate; [reflexivity|].
  cbn [map squared_distance sq tl]. rewrite IH by (injection L as L; exact L).
  change (nlit RN s 11) with (IZR s / 100000000000).
  change (nadd RN) with Rplus. change (nmul RN) with Rmult. change (nsub RN) with Rminus. change (num RN) with R. cbn [pow]. ring.
Qed.
Definition row_len (row : Z * list Z) : bool := Nat.eqb (List.length (snd row)) 32.
Lemma prediction_total rows x : forallb row_len rows = true -> List.length x = 32%nat ->
  svr_prediction (N:=RN) {| gamma := nlit RN 1 2; rho := nlit RN (-36816207123583506) 16;
    support_vectors := map (fun sv => (nlit RN (fst sv) 18, map (fun s => nlit RN s 11) (snd sv))) rows |} x
  = total (term x) rows + 36816207123583506 / 10000000000000000.
Proof.
  intros H Lx. unfold svr_prediction. cbn [gamma rho support_vectors].
  change (nsub RN) with Rminus. change (nlit RN (-36816207123583506) 16) with (IZR (-36816207123583506) / IZR (10 ^ 16)).
  assert (S : forall a, fold_left (nadd RN) (map (fun sv => nmul RN (fst sv) (nexp RN (nneg RN (nmul RN (nlit RN 1 2) (squared_distance (N:=RN) (snd sv) x)))))
     (map (fun sv => (nlit RN (fst sv) 18, map (fun s => nlit RN s 11) (snd sv))) rows)) a = a + total (term x) rows).
  { revert H. induction rows as [|r rows IH]; intros H a; [cbn [map fold_left total]; change (nadd RN) with Rplus; change (num RN) with R in *; ring|].
    cbn [forallb] in H. apply andb_prop in H. destruct H as [Hr H].
    cbn [map fold_left total fst snd]. rewrite IH by exact H. apply Nat.eqb_eq in Hr.
    rewrite sq_RN by congruence. unfold term.
    change (nlit RN (fst r) 18) with (IZR (fst r) / 1000000000000000000). change (nlit RN 1 2) with (1 / 100).
    change (nadd RN) with Rplus. change (nmul RN) with Rmult. change (nexp RN) with exp. change (nneg RN) with Ropp. change (num RN) with R. ring. }
  unfold seq_sum. rewrite S. change (nofZ RN 0) with 0. change (10 ^ 16)%Z with 10000000000000000%Z.
  change (-36816207123583506)%Z with (- (36816207123583506))%Z. rewrite opp_IZR. unfold Rdiv. change (num RN) with R. ring.
Qed.

(** ** Rounding the data to five digits *)
Definition rt (l : list Z) : list Z := map (fun s => ((100000000000 - s) / 1000000)%Z) l.
Definition rc (c : Z) : Z := (c / 10000000000000)%Z.
Fixpoint sqt (t : list Z) (v : list R) : R :=
  match t, v with s :: t, a :: v => (IZR s / 100000 - a) ^ 2 + sqt t v | _, _ => 0 end.
Definition termt (v : list R) (row : Z * list Z) : R := IZR (rc (fst row)) / 100000 * exp (- (1 / 100 * sqt (rt (snd row)) v)).
Definition flip1 (x : list R) : list R := map (fun a => 1 - a) x.
Definition unit_entry (s : Z) : bool := (-100000000000 <=? s)%Z && (s <=? 100000000000)%Z.

Lemma sq_close l : forallb unit_entry l = true -> forall x, Forall (fun a => -1 <= a <= 1) x ->
  Rabs (sq l x - sqt (rt l) (flip1 x)) <= 4 / 100000 * IZR (Z.of_nat (List.length l)).
Proof.
  induction l as [|s l IH]; intros H x Hx; [cbn; rewrite Rminus_0_r, Rabs_R0; lra|].
  cbn [forallb] in H. apply andb_prop in H. destruct H as [Hs H].
  assert (N : 0 <= IZR (Z.of_nat (List.length l))) by (apply IZR_le; lia).
  cbn [List.length]. rewrite Nat2Z.inj_succ, succ_IZR.
  destruct Hx as [|a x Ha Hx]; [cbn; rewrite Rminus_0_r, Rabs_R0; lra|].
  cbn [sq rt map flip1 sqt]. specialize (IH H x Hx). unfold rt, flip1 in IH.
  unfold unit_entry in Hs. apply andb_prop in Hs. destruct Hs as [H1 H2]. apply Z.leb_le in H1, H2.
  assert (P : (0 <= (100000000000 - s) / 1000000)%Z) by (apply Z.div_pos; lia). apply IZR_le in P. apply IZR_le in H1, H2.
  pose proof (floor_div (100000000000 - s) 1000000 ltac:(lia)) as F. rewrite minus_IZR in F.
  set (q := IZR ((100000000000 - s) / 1000000)) in *. set (si := IZR s) in *.
  match goal with |- Rabs (?A + ?B - (?C + ?D)) <= _ => replace (A + B - (C + D)) with ((A - C) + (B - D)) by ring end.
  eapply Rle_trans; [apply Rabs_triang|].
  enough (Rabs ((si / 100000000000 - a) ^ 2 - (q / 100000 - (1 - a)) ^ 2) <= 4 / 100000) by lra.
  replace ((si / 100000000000 - a) ^ 2 - (q / 100000 - (1 - a)) ^ 2)
    with ((1 - si / 100000000000 - q / 100000) * (1 - si / 100000000000 + q / 100000 - 2 * (1 - a))) by ring.
  assert (Q1 : 0 <= 1 - si / 100000000000 - q / 100000 <= 1 / 100000) by lra.
  assert (Q2 : -4 <= 1 - si / 100000000000 + q / 100000 - 2 * (1 - a) <= 4) by lra.
  apply Rabs_le. split; nra.
Qed.
Lemma sq_nonneg l : forall x, 0 <= sq l x.
Proof. induction l as [|s l IH]; intros [|a x]; cbn [sq]; try lra. specialize (IH x). pose proof (pow2_ge_0 (IZR s / 100000000000 - a)). lra. Qed.
Lemma sqt_nonneg l : forall x, 0 <= sqt l x.
Proof. induction l as [|s l IH]; intros [|a x]; cbn [sqt]; try lra. specialize (IH x). pose proof (pow2_ge_0 (IZR s / 100000 - a)). lra. Qed.
Definition unit_coef (c : Z) : bool := (-1000000000000000000 <=? c)%Z && (c <=? 1000000000000000000)%Z.
Lemma term_close row x : unit_coef (fst row) = true -> forallb unit_entry (snd row) = true -> List.length (snd row) = 32%nat ->
  Forall (fun a => -1 <= a <= 1) x -> Rabs (term x row - termt (flip1 x) row) <= 23 / 1000000.
Proof.
  destruct row as [c l]. cbn [fst snd]. intros Hc Hl L Hx. unfold term, termt. cbn [fst snd].
  pose proof (sq_close l Hl x Hx) as D. rewrite L in D. change (IZR (Z.of_nat 32)) with 32 in D.
  unfold unit_coef in Hc. apply andb_prop in Hc. destruct Hc as [H1 H2]. apply Z.leb_le in H1, H2.
  pose proof (floor_div c 10000000000000 ltac:(lia)) as F. fold (rc c) in F.
  assert (R1 : (-100000 <= rc c <= 100000)%Z) by (unfold rc; split; [apply Z.div_le_lower_bound; lia|apply Z.div_le_upper_bound; lia]).
  destruct R1 as [R1 R2]. apply IZR_le in R1, R2. apply IZR_le in H1, H2.
  pose proof (sq_nonneg l x). pose proof (sqt_nonneg (rt l) (flip1 x)).
  pose proof (exp_lip (1 / 100 * sq l x) (1 / 100 * sqt (rt l) (flip1 x)) ltac:(lra) ltac:(lra)) as E.
  rewrite <- Rmult_minus_distr_l, Rabs_mult, (Rabs_pos_eq (1 / 100)) in E by lra.
  set (ea := exp (- (1 / 100 * sq l x))) in *. set (eb := exp (- (1 / 100 * sqt (rt l) (flip1 x)))) in *.
  assert (A1 : 0 < ea <= 1).
  { unfold ea. split; [apply exp_pos|]. apply exp_neg_le1. lra. }
  set (ci := IZR c) in *. set (q := IZR (rc c)) in *.
  replace (ci / 1000000000000000000 * ea - q / 100000 * eb) with ((ci / 1000000000000000000 - q / 100000) * ea + q / 100000 * (ea - eb)) by ring.
  eapply Rle_trans; [apply Rabs_triang|]. rewrite !Rabs_mult.
  assert (B1 : Rabs (ci / 1000000000000000000 - q / 100000) <= 1 / 100000) by (apply Rabs_le; lra).
  assert (B2 : Rabs (q / 100000) <= 1) by (apply Rabs_le; lra).
  assert (B3 : Rabs ea <= 1) by (apply Rabs_le; lra).
  assert (B4 : Rabs (ea - eb) <= 128 / 10000000) by lra.
  pose proof (Rabs_pos (ci / 1000000000000000000 - q / 100000)). pose proof (Rabs_pos (q / 100000)). pose proof (Rabs_pos ea). pose proof (Rabs_pos (ea - eb)).
  nra.
Qed.

(** ** One support vector *)
Definition ksum (t : list Z) : Z := fold_right (fun x s => (2 * x * 100000 - x * x + s)%Z) 0%Z t.
Definition ssum (t : list Z) : Z := fold_right (fun x s => (2 * x + s)%Z) 0%Z t.
Definition weight (c : Z) (t : list Z) : Z := (c * exp_fix 1000000 (ksum t / 1000000) 6 / 100000)%Z.
Fixpoint vsq (v : list R) : R := match v with [] => 0 | a :: v => a ^ 2 + vsq v end.
Lemma vsq_nonneg v : 0 <= vsq v.
Proof. induction v; cbn [vsq]; [lra|]. pose proof (pow2_ge_0 a). lra. Qed.

Lemma sqt_split t : forall v, List.length v = List.length t ->
  - (1 / 100 * sqt t v) = - (1 / 100 * vsq v) + IZR (ksum t) / 1000000000000 + (2 / 10000000 * dot v t - IZR (ssum t) / 10000000).
Proof.
  induction t as [|s t IH]; intros [|a v] L; try discriminate; [cbn; field|].
  injection L as L. specialize (IH v L). cbn [sqt vsq ksum ssum fold_right dot].
  fold (ksum t). fold (ssum t). rewrite !plus_IZR, minus_IZR, !mult_IZR. lra.
Qed.
Lemma dot_range t : forallb (Z.leb 0) t = true -> forall v, in02 v -> 0 <= dot v t <= IZR (ssum t).
Proof.
  induction t as [|s t IH]; intros H v Hv; [cbn; destruct v; cbn; lra|].
  cbn [forallb] in H. apply andb_prop in H. destruct H as [Hs H]. apply Z.leb_le in Hs. apply IZR_le in Hs.
  cbn [ssum fold_right]. fold (ssum t). rewrite plus_IZR, mult_IZR.
  destruct Hv as [|a v Ha Hv].
  - cbn [dot]. specialize (IH H [] (Forall_nil _)). cbn [dot] in IH. lra.
  - cbn [dot]. specialize (IH H v Hv). nra.
Qed.
Lemma weight_close c t : (-100000 <= c <= 100000)%Z -> (0 <= ksum t <= 333000000000)%Z ->
  Rabs (IZR c / 100000 * exp (IZR (ksum t) / 1000000000000) - IZR (weight c t) / 1000000) <= 4 / 1000000.
Proof.
  intros Hc Hk. set (k := (ksum t / 1000000)%Z).
  pose proof (floor_div (ksum t) 1000000 ltac:(lia)) as F. fold k in F.
  assert (K : (0 <= k <= 333000)%Z) by (unfold k; split; [apply Z.div_le_lower_bound; lia|apply Z.div_le_upper_bound; lia]).
  destruct K as [K1 K2]. apply IZR_le in K1, K2.
  pose proof (exp_fix_close 1000000 k 6 ltac:(lia) ltac:(apply Rabs_le; lra)) as E.
  replace (/ 1000000 + (1 / 3) ^ 7 / INR (fact 7) * (3 / 2)) with (/ 1000000 + (1 / 3) ^ 7 / 5040 * (3 / 2)) in E by (f_equal; f_equal; f_equal; rewrite INR_IZR_INZ; reflexivity).
  set (e1 := exp_fix 1000000 k 6) in *.
  pose proof (floor_div (c * e1) 100000 ltac:(lia)) as G. change (c * e1 / 100000)%Z with (weight c t) in G. rewrite mult_IZR in G.
  set (ka := IZR (ksum t) / 1000000000000) in *. set (kb := IZR k / 1000000) in *.
  assert (D : 0 <= exp ka - exp kb <= 3 / 2 * (1 / 1000000)).
  { assert (H : 0 <= ka - kb <= 1 / 1000000) by (unfold ka, kb; lra).
    assert (X : exp ka <= 3 / 2).
    { eapply Rle_trans; [apply exp_le_inv; unfold ka; destruct Hk as [Hk1 Hk2]; apply IZR_le in Hk1, Hk2; lra|].
      replace (3 / 2) with (/ (2 / 3)) by field. destruct Hk as [Hk1 Hk2]; apply IZR_le in Hk1, Hk2. apply Rinv_le_contravar; unfold ka; lra. }
    replace (exp kb) with (exp ka * exp (- (ka - kb))) by (rewrite <- exp_plus; f_equal; ring).
    pose proof (exp_ineq1_le (- (ka - kb))). pose proof (exp_pos ka).
    assert (exp (- (ka - kb)) <= 1) by (apply exp_neg_le1; lra).
    split; nra. }
  destruct Hc as [C1 C2]. apply IZR_le in C1, C2.
  assert (E' : Rabs (exp ka - IZR e1 / 1000000) <= 27 / 10000000).
  { replace (exp ka - IZR e1 / 1000000) with ((exp ka - exp kb) + (exp kb - IZR e1 / 1000000)) by ring.
    eapply Rle_trans; [apply Rabs_triang|]. rewrite (Rabs_pos_eq (exp ka - exp kb)) by lra. lra. }
  set (ci := IZR c) in *.
  replace (ci / 100000 * exp ka - IZR (weight c t) / 1000000)
    with (ci / 100000 * (exp ka - IZR e1 / 1000000) + (ci * IZR e1 / 100000 - IZR (weight c t)) / 1000000) by field.
  eapply Rle_trans; [apply Rabs_triang|]. rewrite Rabs_mult.
  assert (B1 : Rabs (ci / 100000) <= 1) by (apply Rabs_le; lra).
  assert (B2 : Rabs ((ci * IZR e1 / 100000 - IZR (weight c t)) / 1000000) <= 1 / 1000000) by (apply Rabs_le; lra).
  pose proof (Rabs_pos (ci / 100000)). pose proof (Rabs_pos (exp ka - IZR e1 / 1000000)). nra.
Qed.
Lemma exp2_close z b : Rabs z <= b -> 0 <= b <= 2849 / 10000 -> Rabs (exp z - (1 + z + z ^ 2 / 2)) <= b ^ 3 / 6 * (7 / 5) /\ exp z <= 7 / 5.
Proof.
  intros Hz Hb. destruct (exp_taylor 2 z) as (e & [E1 E2] & E).
  assert (X : exp (Rabs z) <= 7 / 5).
  { eapply Rle_trans; [apply exp_le_inv; split; [apply Rabs_pos|lra]|].
    replace (7 / 5) with (/ (5 / 7)) by field. apply Rinv_le_contravar; lra. }
  split.
  - replace (exp z - (1 + z + z ^ 2 / 2)) with (z ^ 3 / 6 * e).
    + unfold Rdiv. rewrite !Rabs_mult, <- RPow_abs, (Rabs_pos_eq e), (Rabs_pos_eq (/ 6)) by lra.
      assert (0 <= Rabs z ^ 3 <= b ^ 3) by (split; [apply pow_le, Rabs_pos|apply pow_incr; split; [apply Rabs_pos|exact Hz]]).
      nra.
    + rewrite E. change (INR (fact 3)) with (INR 6). replace (INR 6) with 6 by (cbn; ring).
      cbn [texp]. change (INR (fact 2)) with (INR 2). change (INR (fact 1)) with (INR 1). replace (INR 2) with 2 by reflexivity. replace (INR 1) with 1 by reflexivity. field.
  - eapply Rle_trans; [|exact X]. destruct (Rle_lt_dec (Rabs z) z) as [H|H]; [right; f_equal; pose proof (RRle_abs z); lra|left; apply exp_increasing; exact H].
Qed.

(** What a support vector contributes to the coefficients of the bounding polynomial. *)
Record acc : Type := { acc_a : Z; acc_r : Z; acc_b : list Z; acc_h : list (list Z) }.
Definition acc0 : acc := {| acc_a := 0; acc_r := 0; acc_b := []; acc_h := [] |}.
Definition acc_row (row : Z * list Z) (s : acc) : acc :=
  let t := rt (snd row) in let w := weight (rc (fst row)) t in let z := ssum t in
  {| acc_a := w * (200000000000000 - 2 * z * 10000000 + z * z) + acc_a s;
     acc_r := Z.abs w * z ^ 3 + acc_r s;
     acc_b := zadd (scale (w * (10000000 - z)) t) (acc_b s);
     acc_h := madd (outer w [] t) (acc_h s) |}%Z.
Definition poly (v : list R) (s : acc) : R :=
  IZR (acc_a s) / 200000000000000000000 + 2 / 100000000000000000000 * (dot v (acc_b s) + quad v v (acc_h s))
  + IZR (acc_r s) * 7 / (30 * 10 ^ 27).
Definition row_ok (row : Z * list Z) : bool :=
  let t := rt (snd row) in
  row_len row && unit_coef (fst row) && forallb unit_entry (snd row) && forallb (Z.leb 0) t &&
  (0 <=? ksum t)%Z && (ksum t <=? 333000000000)%Z && (ssum t <=? 2849000)%Z.

Lemma poly_row v row s : poly v (acc_row row s) =
  (let t := rt (snd row) in let w := IZR (weight (rc (fst row)) t) / 1000000 in
   let z := 2 / 10000000 * dot v t - IZR (ssum t) / 10000000 in
   w * (1 + z + z ^ 2 / 2) + Rabs w * ((IZR (ssum t) / 10000000) ^ 3 / 6 * (7 / 5))) + poly v s.
Proof.
  cbv zeta. unfold poly, acc_row. cbn [acc_a acc_r acc_b acc_h].
  rewrite dot_zadd, dot_scale, quad_madd, (quad_outer _ _ [] [] v eq_refl : quad v v _ = _). change (dot [] []) with 0.
  set (t := rt (snd row)). set (w := weight (rc (fst row)) t). set (z := ssum t).
  assert (Z3 : IZR (z ^ 3) = IZR z ^ 3) by (rewrite (pow_IZR z 3); reflexivity).
  assert (W : Rabs (IZR w / 1000000) = Rabs (IZR w) / 1000000) by (unfold Rdiv; rewrite Rabs_mult, (Rabs_pos_eq (/ 1000000)) by lra; reflexivity).
  rewrite W, !plus_IZR, !mult_IZR, plus_IZR, minus_IZR, !mult_IZR, minus_IZR, abs_IZR, Z3. clear W Z3.
  set (g := dot v t). set (wr := IZR w). set (zr := IZR z). set (b := dot v (acc_b s)). set (q := quad v v (acc_h s)). set (aw := Rabs wr). field.
Qed.
Lemma row_ok_spec row : row_ok row = true ->
  List.length (snd row) = 32%nat /\ unit_coef (fst row) = true /\ forallb unit_entry (snd row) = true /\
  forallb (Z.leb 0) (rt (snd row)) = true /\ (0 <= ksum (rt (snd row)) <= 333000000000)%Z /\ (ssum (rt (snd row)) <= 2849000)%Z.
Proof.
  unfold row_ok, row_len. rewrite !andb_true_iff, !Z.leb_le, Nat.eqb_eq. tauto.
Qed.
(** The term of one support vector, apart from the factor common to all. *)
Lemma row_bound row v : row_ok row = true -> in02 v -> List.length v = 32%nat ->
  let t := rt (snd row) in
  let w := IZR (weight (rc (fst row)) t) / 1000000 in
  let z := 2 / 10000000 * dot v t - IZR (ssum t) / 10000000 in
  termt v row <= exp (- (1 / 100 * vsq v)) *
    (w * (1 + z + z ^ 2 / 2) + Rabs w * ((IZR (ssum t) / 10000000) ^ 3 / 6 * (7 / 5)) + 56 / 10000000).
Proof.
  intros H Hv Lv t w z. destruct (row_ok_spec row H) as (L & Hc & _ & Ht & Hk & Hs). fold t in Ht, Hk, Hs.
  unfold termt. fold t. rewrite (sqt_split t v) by (unfold t, rt; rewrite map_length; congruence).
  fold z. rewrite !exp_plus.
  pose proof (dot_range t Ht v Hv) as D.
  assert (Rc : (-100000 <= rc (fst row) <= 100000)%Z).
  { unfold unit_coef in Hc. apply andb_prop in Hc. destruct Hc as [H1 H2]. apply Z.leb_le in H1, H2.
    unfold rc; split; [apply Z.div_le_lower_bound; lia|apply Z.div_le_upper_bound; lia]. }
  pose proof (weight_close (rc (fst row)) t Rc Hk) as W. fold w in W. apply IZR_le in Hs.
  destruct (exp2_close z (IZR (ssum t) / 10000000)) as [E1 E2]; [apply Rabs_le; unfold z; lra|lra|].
  set (k := IZR (rc (fst row)) / 100000 * exp (IZR (ksum t) / 1000000000000)) in *.
  replace (IZR (rc (fst row)) / 100000 * (exp (- (1 / 100 * vsq v)) * exp (IZR (ksum t) / 1000000000000) * exp z))
    with (exp (- (1 / 100 * vsq v)) * (k * exp z)) by (unfold k; ring).
  apply Rmult_le_compat_l; [left; apply exp_pos|].
  set (p := 1 + z + z ^ 2 / 2) in *. set (r := (IZR (ssum t) / 10000000) ^ 3 / 6 * (7 / 5)) in *.
  replace (k * exp z) with (w * p + w * (exp z - p) + (k - w) * exp z) by ring.
  assert (w * (exp z - p) <= Rabs w * r).
  { eapply Rle_trans; [apply RRle_abs|]. rewrite Rabs_mult. apply Rmult_le_compat_l; [apply Rabs_pos|exact E1]. }
  assert ((k - w) * exp z <= 4 / 1000000 * (7 / 5)).
  { eapply Rle_trans; [apply RRle_abs|]. rewrite Rabs_mult, (Rabs_pos_eq (exp z)) by (left; apply exp_pos).
    apply Rmult_le_compat; [apply Rabs_pos|left; apply exp_pos|exact W|exact E2]. }
  lra.
Qed.
Lemma rows_bound rows v : forallb row_ok rows = true -> in02 v -> List.length v = 32%nat ->
  total (termt v) rows <= exp (- (1 / 100 * vsq v)) *
    (poly v (fold_right acc_row acc0 rows) + 56 / 10000000 * IZR (Z.of_nat (List.length rows))).
Proof.
  intros H Hv Lv. induction rows as [|row rows IH].
  - cbn [total fold_right List.length]. unfold poly, acc0. cbn [acc_a acc_b acc_h acc_r]. rewrite dot_nil, quad_nil.
    right. change (IZR (Z.of_nat 0)) with 0. field.
  - cbn [forallb] in H. apply andb_prop in H. destruct H as [Hr H]. specialize (IH H).
    cbn [total fold_right List.length]. rewrite poly_row, Nat2Z.inj_succ, succ_IZR.
    pose proof (row_bound row v Hr Hv Lv) as B. cbv zeta in *.
    eapply Rle_trans; [apply Rplus_le_compat; [exact B|exact IH]|]. right. ring.
Qed.
Lemma rows_close rows x : forallb row_ok rows = true -> Forall (fun a => -1 <= a <= 1) x ->
  Rabs (total (term x) rows - total (termt (flip1 x)) rows) <= 23 / 1000000 * IZR (Z.of_nat (List.length rows)).
Proof.
  intros H Hx. induction rows as [|row rows IH]; [cbn; rewrite Rminus_0_r, Rabs_R0; lra|].
  cbn [forallb] in H. apply andb_prop in H. destruct H as [Hr H]. specialize (IH H).
  destruct (row_ok_spec row Hr) as (L & Hc & Hl & _). pose proof (term_close row x Hc Hl L Hx) as T.
  cbn [total List.length]. rewrite Nat2Z.inj_succ, succ_IZR.
  match goal with |- Rabs (?A + ?B - (?C + ?D)) <= _ => replace (A + B - (C + D)) with ((A - C) + (B - D)) by ring end.
  eapply Rle_trans; [apply Rabs_triang|]. lra.
Qed.

(** 1.2080 bounds the polynomial on the whole cube. *)
Definition check_cube (rows : list (Z * list Z)) : bool :=
  let s := fold_right acc_row acc0 rows in
  forallb row_ok rows && Nat.eqb (List.length rows) 317 &&
  (acc_a s * 150000000 + slack (acc_b s) (acc_h s) * 1200000000 + 7 * acc_r s <=? 36240000000000000000000000000)%Z.
Lemma cube_bound rows x : check_cube rows = true -> Forall (fun a => -1 <= a <= 1) x -> List.length x = 32%nat ->
  total (term x) rows <= 12171 / 10000.
Proof.
  unfold check_cube. cbv zeta. set (s := fold_right acc_row acc0 rows). rewrite !andb_true_iff, Nat.eqb_eq, Z.leb_le.
  intros [[H L] C] Hx Lx. pose proof (rows_close rows x H Hx) as D. rewrite L in D. change (IZR (Z.of_nat 317)) with 317 in D.
  assert (Hv : in02 (flip1 x)) by (unfold in02, flip1; apply Forall_map; eapply Forall_impl; [|exact Hx]; cbn; intros; lra).
  assert (Lv : List.length (flip1 x) = 32%nat) by (unfold flip1; rewrite map_length; exact Lx).
  pose proof (rows_bound rows (flip1 x) H Hv Lv) as B. fold s in B. rewrite L in B. change (IZR (Z.of_nat 317)) with 317 in B.
  pose proof (slack_bound (flip1 x) Hv (flip1 x) Hv (acc_b s) (acc_h s)) as S.
  assert (P : poly (flip1 x) s <= 1208 / 1000).
  { apply IZR_le in C. rewrite !plus_IZR, !mult_IZR in C. unfold poly. lra. }
  assert (E : 0 < exp (- (1 / 100 * vsq (flip1 x))) <= 1) by (split; [apply exp_pos|apply exp_neg_le1; pose proof (vsq_nonneg (flip1 x)); lra]).
  apply Rcomplements.Rabs_le_between in D.
  assert (total (termt (flip1 x)) rows <= 1208 / 1000 + 56 / 10000000 * 317).
  { eapply Rle_trans; [exact B|]. destruct (Rle_lt_dec 0 (poly (flip1 x) s + 56 / 10000000 * 317)); nra. }
  lra.
Qed.
Lemma shipped_cube : check_cube SUPPORT_VECTORS = true.
Proof. vm_cast_no_check (@eq_refl bool true). Qed.

(** ** Values at points *)
Fixpoint zsq (l x : list Z) : Z :=
  match l, x with s :: l, a :: x => let d := s - a * 1000000000 in d * d + zsq l x | _, _ => 0 end%Z.
Definition value_row (x : list Z) (row : Z * list Z) : Z := (fst row * exp_fix 10000000 (- (zsq (snd row) x / 100000000000000000)) 6)%Z.
Definition value (x : list Z) (rows : list (Z * list Z)) : Z := fold_right (fun row s => (value_row x row + s)%Z) 0%Z rows.
Definition point (x : list Z) : list R := map (fun a => IZR a / 100) x.
Lemma sq_point l : forall x, sq l (point x) = IZR (zsq l x) / 10000000000000000000000.
Proof.
  unfold point. induction l as [|s l IH]; intros [|a x]; cbn [sq zsq map]; cbv zeta; try (unfold Rdiv; ring).
  rewrite IH, plus_IZR. assert (Q : IZR ((s - a * 1000000000) * (s - a * 1000000000)) = (IZR s - IZR a * 1000000000) ^ 2) by (rewrite mult_IZR, minus_IZR, mult_IZR; ring).
  rewrite Q. field.
Qed.
Lemma zsq_nonneg l : forall x, (0 <= zsq l x)%Z.
Proof. induction l as [|s l IH]; intros [|a x]; cbn [zsq]; try lia. specialize (IH x). pose proof (Z.square_nonneg (s - a * 1000000000)). cbv zeta. lia. Qed.
Lemma value_close x row : unit_coef (fst row) = true -> (zsq (snd row) x <= 333000000000000000000000)%Z ->
  Rabs (term (point x) row - IZR (value_row x row) / 10 ^ 25) <= 35 / 10 ^ 8.
Proof.
  intros Hc Hd. unfold term, value_row. rewrite sq_point, mult_IZR.
  pose proof (zsq_nonneg (snd row) x) as P. set (d := zsq (snd row) x) in *. set (k := (d / 100000000000000000)%Z).
  pose proof (floor_div d 100000000000000000 ltac:(lia)) as F. fold k in F.
  assert (K : (0 <= k <= 3330000)%Z) by (unfold k; split; [apply Z.div_le_lower_bound; lia|apply Z.div_le_upper_bound; lia]).
  destruct K as [K1 K2]. apply IZR_le in K1, K2.
  pose proof (exp_fix_close 10000000 (- k) 6 ltac:(lia)) as E. rewrite opp_IZR in E. specialize (E ltac:(apply Rabs_le; lra)).
  replace (/ 10000000 + (1 / 3) ^ 7 / INR (fact 7) * (3 / 2)) with (/ 10000000 + (1 / 3) ^ 7 / 5040 * (3 / 2)) in E
    by (f_equal; f_equal; f_equal; rewrite fact_zfact; reflexivity).
  set (e1 := exp_fix 10000000 (- k) 6) in *.
  pose proof (exp_lip (IZR d / 1000000000000000000000000) (IZR k / 10000000) ltac:(apply IZR_le in P; lra) ltac:(lra)) as G.
  replace (- (1 / 100 * (IZR d / 10000000000000000000000))) with (- (IZR d / 1000000000000000000000000)) by field.
  replace (- IZR k / 10000000) with (- (IZR k / 10000000)) in E by field.
  rewrite (Rabs_pos_eq (IZR d / 1000000000000000000000000 - IZR k / 10000000)) in G by lra.
  set (ea := exp (- (IZR d / 1000000000000000000000000))) in *. set (eb := exp (- (IZR k / 10000000))) in *.
  unfold unit_coef in Hc. apply andb_prop in Hc. destruct Hc as [H1 H2]. apply Z.leb_le in H1, H2. apply IZR_le in H1, H2.
  set (c := IZR (fst row)) in *.
  replace (c / 1000000000000000000 * ea - c * IZR e1 / 10 ^ 25) with (c / 1000000000000000000 * ((ea - eb) + (eb - IZR e1 / 10000000))) by field.
  rewrite Rabs_mult. assert (B1 : Rabs (c / 1000000000000000000) <= 1) by (apply Rabs_le; lra).
  assert (B2 : Rabs ((ea - eb) + (eb - IZR e1 / 10000000)) <= 35 / 10 ^ 8) by (eapply Rle_trans; [apply Rabs_triang|lra]).
  pose proof (Rabs_pos (c / 1000000000000000000)). pose proof (Rabs_pos ((ea - eb) + (eb - IZR e1 / 10000000))). nra.
Qed.
Definition point_ok (x : list Z) (rows : list (Z * list Z)) : bool :=
  forallb (fun row => unit_coef (fst row) && (zsq (snd row) x <=? 333000000000000000000000)%Z) rows && Nat.eqb (List.length rows) 317.
Lemma values_close x rows : point_ok x rows = true -> Rabs (total (term (point x)) rows - IZR (value x rows) / 10 ^ 25) <= 12 / 10 ^ 5.
Proof.
  unfold point_ok. rewrite andb_true_iff, Nat.eqb_eq. intros [H L].
  enough (Rabs (total (term (point x)) rows - IZR (value x rows) / 10 ^ 25) <= 35 / 10 ^ 8 * IZR (Z.of_nat (List.length rows)))
    by (rewrite L in *; change (IZR (Z.of_nat 317)) with 317 in *; lra).
  clear L. induction rows as [|row rows IH]; [cbn; unfold Rdiv; rewrite Rmult_0_l, Rminus_0_r, Rabs_R0; lra|].
  cbn [forallb] in H. apply andb_prop in H. destruct H as [Hr H]. specialize (IH H). apply andb_prop in Hr. destruct Hr as [Hc Hd]. apply Z.leb_le in Hd.
  pose proof (value_close x row Hc Hd) as V. cbn [total value fold_right List.length]. fold (value x rows). rewrite plus_IZR, Nat2Z.inj_succ, succ_IZR.
  match goal with |- Rabs (?A + ?B - (?C + ?D) / ?E) <= _ => replace (A + B - (C + D) / E) with ((A - C / E) + (B - D / E)) by (unfold Rdiv; ring) end.
  eapply Rle_trans; [apply Rabs_triang|]. lra.
Qed.
(** [check_point]: the sum at a point lies between [lo] and [hi], in units of 10^-5. *)
Definition check_point (x : list Z) (lo hi : Z) (rows : list (Z * list Z)) : bool :=
  point_ok x rows && ((lo + 12) * 10 ^ 20 <=? value x rows)%Z && (value x rows <=? (hi - 12) * 10 ^ 20)%Z.
Lemma point_bounds x lo hi rows : check_point x lo hi rows = true ->
  IZR lo / 100000 <= total (term (point x)) rows <= IZR hi / 100000.
Proof.
  unfold check_point. rewrite !andb_true_iff, !Z.leb_le. intros [[P H1] H2]. pose proof (values_close x rows P) as V.
  apply IZR_le in H1, H2. rewrite mult_IZR in H1, H2. rewrite plus_IZR in H1. rewrite minus_IZR in H2.
  change (IZR (10 ^ 20)) with 100000000000000000000 in *. apply Rcomplements.Rabs_le_between in V. lra.
Qed.
Definition ones : list Z := repeat 100%Z 32.
Definition dip : list Z := [100; 100; 45]%Z ++ repeat 100%Z 29.
Lemma shipped_ones : check_point ones 105032 105064 SUPPORT_VECTORS = true.
Proof. vm_cast_no_check (@eq_refl bool true). Qed.
Lemma shipped_dip : check_point dip 105334 105369 SUPPORT_VECTORS = true.
Proof. vm_cast_no_check (@eq_refl bool true). Qed.
