(** C53: the similarity index in binary64. *)
From Coq Require Import Reals Lra Psatz.
From Flocq Require Import Core IEEE754.BinarySingleNaN.
From Verif Require Import Base Num Mat F64 M_Audio M_Nsim Spec Spec2 P_Base P_Mat P_F64 P_Win P_Audio P_Conv P_Nsim Spec4.
Open Scope R_scope.

(** ** The square root of a rounded square *)
Lemma near_round x t e : (-1074 <= e)%Z -> generic_format radix2 fexp64 x ->
  bpow radix2 (e + 52) <= x < bpow radix2 (e + 53) -> bpow radix2 (e + 52) <= t ->
  Rabs (t - x) < bpow radix2 (e - 1) -> rnd t = x.
Proof.
  intros He Gx Hx Ht Hd.
  assert (Mx : mag radix2 x = (e + 53)%Z :> Z).
  { apply mag_unique_pos. replace (e + 53 - 1)%Z with (e + 52)%Z by lia. exact Hx. }
  assert (Cx : Generic_fmt.cexp radix2 fexp64 x = e).
  { unfold Generic_fmt.cexp. rewrite Mx. unfold SpecFloat.fexp, SpecFloat.emin. lia. }
  pose proof (scaled_mantissa_generic radix2 fexp64 x Gx) as Sx. unfold scaled_mantissa in Sx. rewrite Cx in Sx.
  set (m := Ztrunc (x * bpow radix2 (- e))) in *.
  assert (Ex : x = IZR m * bpow radix2 e).
  { rewrite <- Sx, Rmult_assoc, <- bpow_plus. replace (- e + e)%Z with 0%Z by lia. cbn [bpow]. lra. }
  assert (Hm : (m <= 2 ^ 53 - 1)%Z).
  { assert (IZR m < IZR (2 ^ 53)); [|apply lt_IZR in H; lia].
    apply Rmult_lt_reg_r with (bpow radix2 e); [apply bpow_gt_0|]. rewrite <- Ex.
    change (IZR (2 ^ 53)) with (bpow radix2 53). rewrite <- bpow_plus. replace (53 + e)%Z with (e + 53)%Z by lia. apply Hx. }
  assert (Pe : bpow radix2 (e - 1) = bpow radix2 e / 2).
  { unfold Zminus. rewrite bpow_plus. change (bpow radix2 (- (1))) with (/ 2). lra. }
  pose proof (bpow_gt_0 radix2 e) as P0.
  assert (Tu : t < bpow radix2 (e + 53)).
  { apply Rabs_def2 in Hd.
    replace (bpow radix2 (e + 53)) with ((IZR (2 ^ 53 - 1) + 1) * bpow radix2 e).
    - apply Rlt_le_trans with (IZR m * bpow radix2 e + bpow radix2 e); [lra|].
      apply IZR_le in Hm. rewrite Rmult_plus_distr_r, Rmult_1_l. apply Rplus_le_compat_r. apply Rmult_le_compat_r; lra.
    - rewrite <- plus_IZR. change (IZR (2 ^ 53 - 1 + 1)) with (bpow radix2 53). rewrite <- bpow_plus. f_equal. lia. }
  assert (Ct : Generic_fmt.cexp radix2 fexp64 t = e).
  { unfold Generic_fmt.cexp. rewrite (mag_unique_pos radix2 t (e + 53)).
    - unfold SpecFloat.fexp, SpecFloat.emin. lia.
    - replace (e + 53 - 1)%Z with (e + 52)%Z by lia. lra. }
  unfold round, scaled_mantissa. rewrite Ct.
  replace (ZnearestE (t * bpow radix2 (- e))) with m.
  - unfold F2R. cbn [Fnum Fexp]. symmetry. exact Ex.
  - symmetry. apply Znearest_imp.
    replace (t * bpow radix2 (- e) - IZR m) with ((t - x) * bpow radix2 (- e)).
    + rewrite Rabs_mult, (Rabs_right (bpow radix2 (- e))) by (apply Rle_ge, bpow_ge_0).
      apply Rlt_le_trans with (bpow radix2 (e - 1) * bpow radix2 (- e)).
      * apply Rmult_lt_compat_r; auto. apply bpow_gt_0.
      * rewrite <- bpow_plus. replace (e - 1 + - e)%Z with (-1)%Z by lia. change (bpow radix2 (-1)) with (/ 2). lra.
    + rewrite Rmult_minus_distr_r, <- Sx. reflexivity.
Qed.

Lemma sqrt_sq x : generic_format radix2 fexp64 x -> bpow radix2 (-400) <= x <= bpow radix2 400 ->
  rnd (sqrt (rnd (x * x))) = x.
Proof.
  intros Gx Hx. pose proof (bpow_gt_0 radix2 (-400)).
  destruct (mag radix2 x) as [k Hk]. specialize (Hk ltac:(lra)). rewrite Rabs_right in Hk by lra.
  set (e := (k - 53)%Z).
  assert (K1 : (-400 < k)%Z) by (apply (lt_bpow radix2); lra).
  assert (K2 : (k <= 401)%Z) by (assert (k - 1 <= 400)%Z by (apply (le_bpow radix2); lra); lia).
  set (b := bpow radix2 e). assert (Pb : 0 < b) by apply bpow_gt_0.
  assert (Hb : bpow radix2 (k - 1) = 4503599627370496 * b).
  { replace (k - 1)%Z with (52 + e)%Z by (unfold e; lia). rewrite bpow_plus. rewrite (bp 52 4503599627370496) by (reflexivity || lia). reflexivity. }
  assert (Hb' : bpow radix2 k = 9007199254740992 * b).
  { replace k with (53 + e)%Z by (unfold e; lia). rewrite bpow_plus. rewrite (bp 53 9007199254740992) by (reflexivity || lia). reflexivity. }
  rewrite Hb, Hb' in Hk.
  set (y := rnd (x * x)).
  (* lower bound of the root *)
  assert (Yl : (4503599627370496 * b) * (4503599627370496 * b) <= y).
  { rewrite <- Hb, <- bpow_plus. rewrite <- (rnd_id (bpow radix2 (k - 1 + (k - 1)))).
    - apply rnd_le. rewrite bpow_plus, Hb. apply Rmult_le_compat; lra.
    - apply generic_format_bpow. unfold SpecFloat.fexp, SpecFloat.emin. lia. }
  assert (Rl : 4503599627370496 * b <= sqrt y).
  { rewrite <- (sqrt_square (4503599627370496 * b)) by lra. apply sqrt_le_1_alt. exact Yl. }
  assert (Y0 : 0 <= y) by (apply rnd_sign; nra).
  (* distance *)
  assert (D : Rabs (y - x * x) * 2 < b * (sqrt y + x)).
  { assert (B2 : bpow radix2 (2 * e) = b * b) by (unfold b; rewrite <- bpow_plus; f_equal; lia).
    destruct (Rle_or_lt (bpow radix2 (105 + 2 * e)) (x * x)) as [C|C].
    - assert (E1 : Rabs (y - x * x) <= bpow radix2 (106 + 2 * e - 53)).
      { apply rnd_err; [unfold e; lia|]. rewrite Rabs_right by nra. rewrite bpow_plus, B2.
        rewrite (bp 106 (9007199254740992 * 9007199254740992)) by (reflexivity || lia). rewrite mult_IZR. nra. }
      replace (106 + 2 * e - 53)%Z with (53 + 2 * e)%Z in E1 by lia.
      assert (E2 : Rabs (y - x * x) <= bpow radix2 (52 + 2 * e)).
      { eapply Rle_trans; [apply error_le_half_ulp; auto with typeclass_instances|].
        assert (M : mag radix2 (x * x) = (106 + 2 * e)%Z :> Z).
        { apply mag_unique_pos. split; [replace (106 + 2 * e - 1)%Z with (105 + 2 * e)%Z by lia; exact C|].
          rewrite bpow_plus, B2. rewrite (bp 106 (9007199254740992 * 9007199254740992)) by (reflexivity || lia). rewrite mult_IZR. nra. }
        rewrite ulp_neq_0 by nra. unfold Generic_fmt.cexp. rewrite M.
        replace (fexp64 (106 + 2 * e)) with (1 + (52 + 2 * e))%Z by (unfold SpecFloat.fexp, SpecFloat.emin, e; lia).
        rewrite bpow_plus. change (bpow radix2 1) with 2. pose proof (bpow_gt_0 radix2 (52 + 2 * e)). lra. }
      rewrite bpow_plus, B2 in E2. rewrite (bp 52 4503599627370496) in E2 by (reflexivity || lia).
      rewrite bpow_plus, B2 in C. rewrite (bp 105 (2 * 4503599627370496 * 4503599627370496)) in C by (reflexivity || lia).
      rewrite !mult_IZR in C.
      assert (X1 : 6300000000000000 * b <= x).
      { destruct (Rle_or_lt (6300000000000000 * b) x); auto. exfalso.
        assert (x * x <= (6300000000000000 * b) * (6300000000000000 * b)) by (apply Rmult_le_compat; lra).
        assert (0 < b * b) by nra. nra. }
      apply Rle_lt_trans with (2 * (4503599627370496 * (b * b))); [lra|].
      apply Rlt_le_trans with (b * (4503599627370496 * b + 6300000000000000 * b)); [|apply Rmult_le_compat_l; lra].
      assert (0 < b * b) by nra. nra.
    - assert (E1 : Rabs (y - x * x) <= bpow radix2 (105 + 2 * e - 53)).
      { apply rnd_err; [unfold e; lia|]. rewrite Rabs_right by nra. lra. }
      assert (E2 : Rabs (y - x * x) <= bpow radix2 (51 + 2 * e)).
      { eapply Rle_trans; [apply error_le_half_ulp; auto with typeclass_instances|].
        assert (M : mag radix2 (x * x) = (105 + 2 * e)%Z :> Z).
        { apply mag_unique_pos. split; [|exact C]. replace (105 + 2 * e - 1)%Z with (104 + 2 * e)%Z by lia.
          rewrite bpow_plus, B2. rewrite (bp 104 (4503599627370496 * 4503599627370496)) by (reflexivity || lia). rewrite mult_IZR. nra. }
        rewrite ulp_neq_0 by nra. unfold Generic_fmt.cexp. rewrite M.
        replace (fexp64 (105 + 2 * e)) with (1 + (51 + 2 * e))%Z by (unfold SpecFloat.fexp, SpecFloat.emin, e; lia).
        rewrite bpow_plus. change (bpow radix2 1) with 2. pose proof (bpow_gt_0 radix2 (51 + 2 * e)). lra. }
      rewrite bpow_plus, B2 in E2. rewrite (bp 51 2251799813685248) in E2 by (reflexivity || lia).
      apply Rle_lt_trans with (2 * (2251799813685248 * (b * b))); [lra|].
      apply Rlt_le_trans with (b * (4503599627370496 * b + 4503599627370496 * b)); [|apply Rmult_le_compat_l; lra].
      assert (0 < b * b) by nra. nra. }
  apply (near_round x _ e); auto.
  - unfold e; lia.
  - replace (e + 52)%Z with (k - 1)%Z by (unfold e; lia). replace (e + 53)%Z with k by (unfold e; lia). rewrite Hb, Hb'. exact Hk.
  - replace (e + 52)%Z with (k - 1)%Z by (unfold e; lia). rewrite Hb. exact Rl.
  - replace (sqrt y - x) with ((y - x * x) / (sqrt y + x)).
    + unfold Rdiv. rewrite Rabs_mult, (Rabs_right (/ _)) by (apply Rle_ge, Rlt_le, Rinv_0_lt_compat; lra).
      apply Rmult_lt_reg_r with (sqrt y + x); [lra|]. rewrite Rmult_assoc, Rinv_l by lra. rewrite Rmult_1_r.
      unfold Zminus. rewrite bpow_plus. change (bpow radix2 (- (1))) with (/ 2). fold b. lra.
    + field_simplify_eq; [|lra]. rewrite pow2_sqrt by auto. ring.
Qed.

(** ** Values known up to an error *)
Definition ap (x : f64) (v e : R) : Prop := is_finite x = true /\ Rabs (B2R x - v) <= e.
Lemma ap_rnd z v e k : (-900 <= k <= 1000)%Z -> Rabs (z - v) <= e -> Rabs v + e <= bpow radix2 k ->
  Rabs (rnd z) < big /\ Rabs (rnd z - v) <= e + bpow radix2 (k - 53).
Proof.
  intros Hk H1 H2. assert (Z : Rabs z <= bpow radix2 k).
  { replace z with (v + (z - v)) by ring. eapply Rle_trans; [apply Rabs_triang|]. lra. }
  split.
  - apply (bpow_1000_big _ k); [lia|]. apply rnd_abs_bpow; [lia|auto].
  - replace (rnd z - v) with ((rnd z - z) + (z - v)) by ring. eapply Rle_trans; [apply Rabs_triang|].
    pose proof (rnd_err z k ltac:(lia) Z). lra.
Qed.
Lemma ap_self (x : f64) : is_finite x = true -> ap x (B2R x) 0.
Proof. intros F. split; auto. rewrite Rminus_diag_eq by auto. rewrite Rabs_R0. lra. Qed.
Lemma ap_plus x y v w e f k : (-900 <= k <= 1000)%Z -> ap x v e -> ap y w f -> Rabs v + Rabs w + e + f <= bpow radix2 k ->
  ap (Bplus mode_NE x y) (v + w) (e + f + bpow radix2 (k - 53)).
Proof.
  intros Hk [Fx Hx] [Fy Hy] H.
  destruct (ap_rnd (B2R x + B2R y) (v + w) (e + f) k Hk) as [A B].
  - replace (B2R x + B2R y - (v + w)) with ((B2R x - v) + (B2R y - w)) by ring. eapply Rle_trans; [apply Rabs_triang|]. lra.
  - pose proof (Rabs_triang v w). lra.
  - destruct (Bplus_fin x y Fx Fy A) as [F E]. split; auto. rewrite E. exact B.
Qed.
Lemma ap_minus x y v w e f k : (-900 <= k <= 1000)%Z -> ap x v e -> ap y w f -> Rabs v + Rabs w + e + f <= bpow radix2 k ->
  ap (Bminus mode_NE x y) (v - w) (e + f + bpow radix2 (k - 53)).
Proof.
  intros Hk [Fx Hx] [Fy Hy] H.
  destruct (ap_rnd (B2R x - B2R y) (v - w) (e + f) k Hk) as [A B].
  - replace (B2R x - B2R y - (v - w)) with ((B2R x - v) + - (B2R y - w)) by ring. eapply Rle_trans; [apply Rabs_triang|]. rewrite Rabs_Ropp. lra.
  - pose proof (Rabs_triang v (- w)). rewrite Rabs_Ropp in H0. replace (v - w) with (v + - w) by ring. lra.
  - destruct (Bminus_fin x y Fx Fy A) as [F E]. split; auto. rewrite E. exact B.
Qed.
Lemma ap_mult x y v w e f V W k : (-900 <= k <= 1000)%Z -> ap x v e -> ap y w f -> Rabs v <= V -> Rabs w <= W ->
  (V + e) * (W + f) <= bpow radix2 k ->
  ap (Bmult mode_NE x y) (v * w) (V * f + W * e + e * f + bpow radix2 (k - 53)).
Proof.
  intros Hk [Fx Hx] [Fy Hy] Hv Hw H.
  pose proof (Rabs_pos (B2R x - v)). pose proof (Rabs_pos (B2R y - w)). pose proof (Rabs_pos v). pose proof (Rabs_pos w).
  destruct (ap_rnd (B2R x * B2R y) (v * w) (V * f + W * e + e * f) k Hk) as [A B].
  - replace (B2R x * B2R y - v * w) with (v * (B2R y - w) + (w * (B2R x - v) + (B2R x - v) * (B2R y - w))) by ring.
    eapply Rle_trans; [apply Rabs_triang|]. rewrite Rabs_mult.
    assert (Rabs v * Rabs (B2R y - w) <= V * f) by (apply Rmult_le_compat; lra).
    assert (Rabs (w * (B2R x - v) + (B2R x - v) * (B2R y - w)) <= W * e + e * f); [|lra].
    eapply Rle_trans; [apply Rabs_triang|]. rewrite !Rabs_mult.
    apply Rplus_le_compat; apply Rmult_le_compat; lra.
  - rewrite Rabs_mult. assert (Rabs v * Rabs w <= V * W) by (apply Rmult_le_compat; lra). lra.
  - destruct (Bmult_fin x y Fx Fy A) as [F E]. split; auto. rewrite E. exact B.
Qed.
Lemma ap_weaken x v e f : ap x v e -> e <= f -> ap x v f.
Proof. intros [F H] L. split; auto. lra. Qed.
Lemma ap_move x v w e f : ap x v e -> Rabs (v - w) <= f -> ap x w (e + f).
Proof.
  intros [F H] L. split; auto. replace (B2R x - w) with ((B2R x - v) + (v - w)) by ring.
  eapply Rle_trans; [apply Rabs_triang|]. lra.
Qed.

Fixpoint rsum (l : list R) : R := match l with [] => 0 | x :: t => x + rsum t end.
Lemma fold_ap k ep : (-900 <= k <= 1000)%Z -> 0 <= ep -> forall xs vs acc s e, Forall2 (fun x v => ap x v ep) xs vs -> 0 <= e -> ap acc s e ->
  Rabs s + rsum (map Rabs vs) + e + INR (List.length xs) * (ep + bpow radix2 (k - 53)) <= bpow radix2 k ->
  ap (fold_left (Bplus mode_NE) xs acc) (s + rsum vs) (e + INR (List.length xs) * (ep + bpow radix2 (k - 53))).
Proof.
  intros Hk Hep. pose proof (bpow_gt_0 radix2 (k - 53)) as P. induction xs as [|x xs IH]; intros vs acc s e F He Ha HB; inversion F; subst.
  - cbn [fold_left rsum List.length INR]. rewrite Rplus_0_r, Rmult_0_l, Rplus_0_r. exact Ha.
  - cbn [fold_left rsum]. cbn [List.length map rsum] in HB. rewrite S_INR in HB. cbn [List.length]. rewrite S_INR.
    pose proof (pos_INR (List.length xs)) as PI.
    assert (RS : 0 <= rsum (map Rabs l')).
    { clear. induction l' as [|a t IH]; cbn; [lra|]. pose proof (Rabs_pos a). lra. }
    assert (PM : 0 <= INR (List.length xs) * (ep + bpow radix2 (k - 53))) by (apply Rmult_le_pos; lra).
    replace (s + (y + rsum l')) with ((s + y) + rsum l') by ring.
    replace (e + (INR (List.length xs) + 1) * (ep + bpow radix2 (k - 53))) with
      ((e + ep + bpow radix2 (k - 53)) + INR (List.length xs) * (ep + bpow radix2 (k - 53))) by ring.
    apply IH; auto; try lra.
    + apply ap_plus; auto. lra.
    + pose proof (Rabs_triang s y). lra.
Qed.

(** ** The weights *)
Notation Wc := (f64_lit 113033910173052 16).
Notation We := (f64_lit 838251475442633 16).
Notation Wm := (f64_lit 619485845753726 15).
Definition wc : R := B2R Wc.
Definition we : R := B2R We.
Definition wm : R := B2R Wm.
Lemma B2R_SF (x : f64) m e : B2SF x = SpecFloat.S754_finite false m e -> is_finite x = true /\ B2R x = F2R (Float radix2 (Z.pos m) e).
Proof. destruct x; try discriminate. cbn [B2SF]. intros H. injection H as -> -> ->. split; reflexivity. Qed.
Lemma wc_val : is_finite Wc = true /\ wc = 6515961289415515 / 576460752303423488.
Proof.
  destruct (B2R_SF Wc 6515961289415515 (-59)) as [F E]; [vm_compute; reflexivity|]. split; [exact F|exact E].
Qed.
Lemma we_val : is_finite We = true /\ we = 6040238451913937 / 72057594037927936.
Proof.
  destruct (B2R_SF We 6040238451913937 (-56)) as [F E]; [vm_compute; reflexivity|]. split; [exact F|exact E].
Qed.
Lemma wm_val : is_finite Wm = true /\ wm = 5579832448195554 / 9007199254740992.
Proof.
  destruct (B2R_SF Wm 5579832448195554 (-53)) as [F E]; [vm_compute; reflexivity|]. split; [exact F|exact E].
Qed.
Definition wavg (f : nat -> nat -> R) : R :=
  f 0%nat 0%nat * wc + (f 1%nat 0%nat * we + (f 2%nat 0%nat * wc + (f 0%nat 1%nat * we + (f 1%nat 1%nat * wm + (f 2%nat 1%nat * we
  + (f 0%nat 2%nat * wc + (f 1%nat 2%nat * we + (f 2%nat 2%nat * wc + 0)))))))).
Lemma b50 : bpow radix2 (-50) = / 1125899906842624. Proof. apply (bpn 50); reflexivity || lia. Qed.
Definition wt : R := 4 * wc + 4 * we + wm.
Lemma wt_val : 0 < wc < 1 /\ 0 < we < 1 /\ 0 < wm < 1 /\ Rabs (wt - 1) <= bpow radix2 (-50).
Proof.
  unfold wt. rewrite (proj2 wc_val), (proj2 we_val), (proj2 wm_val).
  rewrite b50. repeat split; try lra. apply Rabs_le. lra.
Qed.
Lemma wavg_bound f g B : (forall a b, (a < 3)%nat -> (b < 3)%nat -> Rabs (f a b - g a b) <= B) -> Rabs (wavg f - wavg g) <= B * wt.
Proof.
  intros H. destruct wt_val as (P1 & P2 & P3 & _).
  assert (G : forall a b w, (a < 3)%nat -> (b < 3)%nat -> 0 < w -> - (B * w) <= f a b * w - g a b * w <= B * w).
  { intros a b w Ha Hb Hw. specialize (H a b Ha Hb). apply Rabs_le_inv in H. rewrite <- Rmult_minus_distr_r.
    split; [rewrite <- Ropp_mult_distr_l_reverse|]; apply Rmult_le_compat_r; lra. }
  unfold wavg, wt. apply Rabs_le.
  pose proof (G 0 0 wc ltac:(lia) ltac:(lia) (proj1 P1))%nat. pose proof (G 1 0 we ltac:(lia) ltac:(lia) (proj1 P2))%nat.
  pose proof (G 2 0 wc ltac:(lia) ltac:(lia) (proj1 P1))%nat. pose proof (G 0 1 we ltac:(lia) ltac:(lia) (proj1 P2))%nat.
  pose proof (G 1 1 wm ltac:(lia) ltac:(lia) (proj1 P3))%nat. pose proof (G 2 1 we ltac:(lia) ltac:(lia) (proj1 P2))%nat.
  pose proof (G 0 2 wc ltac:(lia) ltac:(lia) (proj1 P1))%nat. pose proof (G 1 2 we ltac:(lia) ltac:(lia) (proj1 P2))%nat.
  pose proof (G 2 2 wc ltac:(lia) ltac:(lia) (proj1 P1))%nat. lra.
Qed.
Lemma wavg_abs f B : (forall a b, (a < 3)%nat -> (b < 3)%nat -> Rabs (f a b) <= B) -> Rabs (wavg f) <= B * wt.
Proof.
  intros H. replace (wavg f) with (wavg f - wavg (fun _ _ => 0)) by (unfold wavg; ring).
  apply wavg_bound. intros. rewrite Rminus_0_r. auto.
Qed.
Lemma wavg_var f : wavg (fun a b => f a b * f a b) - wavg f * wavg f >= (1 - wt) * (wavg f * wavg f).
Proof.
  destruct wt_val as (P1 & P2 & P3 & _). set (u := wavg f).
  assert (Q : 0 <= wavg (fun a b => (f a b - u) * (f a b - u))).
  { assert (S : forall x w, 0 < w -> 0 <= x * x * w) by (intros x w Hw; apply Rmult_le_pos; [apply Rle_0_sqr|lra]).
    unfold wavg. repeat (apply Rplus_le_le_0_compat; [apply S; lra|]). lra. }
  assert (E : wavg (fun a b => (f a b - u) * (f a b - u)) = wavg (fun a b => f a b * f a b) - 2 * u * wavg f + u * u * wt).
  { unfold wavg, wt. ring. }
  rewrite E in Q. fold u in Q. nra.
Qed.

(** One entry of the convolution of a matrix with entries of size at most [2 ^ k]. *)
Lemma conv_ap lm (m : mat (F64 lm)) k i j : (-800 <= k <= 900)%Z ->
  (forall a b, (a < 3)%nat -> (b < 3)%nat -> is_finite (near m i a j b : f64) = true /\ Rabs (B2R (near m i a j b : f64)) <= bpow radix2 k) ->
  ap (conv3 nsim_window m i j) (wavg (fun a b => B2R (near m i a j b : f64))) (27 * bpow radix2 (k - 53)).
Proof.
  intros Hk H. unfold conv3. cbn [map fst snd]. cbn [nadd nmul nofZ F64].
  change (2 - 0)%nat with 2%nat. change (2 - 1)%nat with 1%nat. change (2 - 2)%nat with 0%nat.
  change (mget (nsim_window (N:=F64 lm)) 0 0) with Wc. change (mget (nsim_window (N:=F64 lm)) 0 1) with We. change (mget (nsim_window (N:=F64 lm)) 0 2) with Wc.
  change (mget (nsim_window (N:=F64 lm)) 1 0) with We. change (mget (nsim_window (N:=F64 lm)) 1 1) with Wm. change (mget (nsim_window (N:=F64 lm)) 1 2) with We.
  change (mget (nsim_window (N:=F64 lm)) 2 0) with Wc. change (mget (nsim_window (N:=F64 lm)) 2 1) with We. change (mget (nsim_window (N:=F64 lm)) 2 2) with Wc.
  destruct wt_val as (P1 & P2 & P3 & P4). destruct wc_val as [Fc _]. destruct we_val as [Fe _]. destruct wm_val as [Fm _].
  pose proof (bpow_gt_0 radix2 k) as Pk.
  assert (TM : forall a b (w : f64), (a < 3)%nat -> (b < 3)%nat -> is_finite w = true -> 0 < B2R w < 1 ->
    ap (Bmult mode_NE (near m i a j b : f64) w) (B2R (near m i a j b : f64) * B2R w) (bpow radix2 (k - 53))).
  { intros a b w Ha Hb Fw Hw. destruct (H a b Ha Hb) as [Fa Ba].
    eapply ap_weaken; [apply (ap_mult _ _ _ _ 0 0 (bpow radix2 k) 1 k); auto using ap_self; try lia|].
    - rewrite Rabs_right; lra.
    - lra.
    - lra. }
  set (s1 := bpow radix2 (k - 53)) in *. pose proof (bpow_gt_0 radix2 (k - 53)) as Ps. fold s1 in Ps.
  assert (E1 : bpow radix2 (k + 1) = 2 * bpow radix2 k) by (rewrite bpow_plus; change (bpow radix2 1) with 2; ring).
  assert (E2 : bpow radix2 (k + 1 - 53) = 2 * s1).
  { unfold s1. replace (k + 1 - 53)%Z with (1 + (k - 53))%Z by lia. rewrite bpow_plus. change (bpow radix2 1) with 2. ring. }
  assert (E3 : s1 = bpow radix2 k * / 9007199254740992).
  { unfold s1, Zminus. rewrite bpow_plus. f_equal. }
  match goal with |- ap (fold_left _ ?xs _) _ _ => set (l := xs) end.
  pose (f := fun a b => B2R (near m i a j b : f64)).
  pose (vs := [f 0%nat 0%nat * wc; f 1%nat 0%nat * we; f 2%nat 0%nat * wc; f 0%nat 1%nat * we; f 1%nat 1%nat * wm; f 2%nat 1%nat * we;
     f 0%nat 2%nat * wc; f 1%nat 2%nat * we; f 2%nat 2%nat * wc]).
  eapply ap_weaken.
  - replace (wavg _) with (0 + rsum vs) by (unfold wavg, vs, f; cbn [rsum]; ring).
    apply (fold_ap (k + 1) s1 ltac:(lia) ltac:(lra) l vs (f64_ofZ 0) 0 0).
    + unfold l, vs, f. repeat (apply Forall2_cons; [apply TM; auto; lia|]). apply Forall2_nil.
    + lra.
    + pose proof (ap_self (f64_ofZ 0) eq_refl) as A. rewrite (ofZ_B2R 0) in A by lia. exact A.
    + change (INR (List.length l)) with (INR 9). rewrite E1, E2. unfold vs. cbn [map rsum]. rewrite !Rabs_mult.
      assert (AB : forall a b w, (a < 3)%nat -> (b < 3)%nat -> 0 < w < 1 -> Rabs (f a b) * Rabs w <= bpow radix2 k * w).
      { intros a b w Ha Hb Hw. rewrite (Rabs_right w) by lra. apply Rmult_le_compat_r; [lra|]. apply H; auto. }
      pose proof (AB 0 0 wc ltac:(lia) ltac:(lia) P1)%nat. pose proof (AB 1 0 we ltac:(lia) ltac:(lia) P2)%nat.
      pose proof (AB 2 0 wc ltac:(lia) ltac:(lia) P1)%nat. pose proof (AB 0 1 we ltac:(lia) ltac:(lia) P2)%nat.
      pose proof (AB 1 1 wm ltac:(lia) ltac:(lia) P3)%nat. pose proof (AB 2 1 we ltac:(lia) ltac:(lia) P2)%nat.
      pose proof (AB 0 2 wc ltac:(lia) ltac:(lia) P1)%nat. pose proof (AB 1 2 we ltac:(lia) ltac:(lia) P2)%nat.
      pose proof (AB 2 2 wc ltac:(lia) ltac:(lia) P1)%nat.
      assert (WT : bpow radix2 k * wt <= bpow radix2 k * (1 + / 1125899906842624)).
      { apply Rmult_le_compat_l; [lra|]. apply Rabs_le_inv in P4. rewrite b50 in P4. lra. }
      unfold wt in WT. rewrite Rabs_R0. replace (INR 9) with 9 by (cbn; lra). rewrite E3. lra.
  - change (INR (List.length l)) with (INR 9). replace (INR 9) with 9 by (cbn; lra). rewrite E2. lra.
Qed.

(** ** Local covariances *)
Lemma b46 : bpow radix2 (7 - 53) = / 70368744177664. Proof. apply (bpn 46); reflexivity || lia. Qed.
Lemma b39 : bpow radix2 (14 - 53) = / 549755813888. Proof. apply (bpn 39); reflexivity || lia. Qed.
Lemma b38 : bpow radix2 (15 - 53) = / 274877906944. Proof. apply (bpn 38); reflexivity || lia. Qed.
Lemma b37 : bpow radix2 (16 - 53) = / 137438953472. Proof. apply (bpn 37); reflexivity || lia. Qed.
Lemma b7 : bpow radix2 7 = 128. Proof. reflexivity. Qed.
Lemma b14 : bpow radix2 14 = 16384. Proof. reflexivity. Qed.
Lemma b15 : bpow radix2 15 = 32768. Proof. reflexivity. Qed.
Lemma b16 : bpow radix2 16 = 65536. Proof. reflexivity. Qed.
Definition small_mat {lm} (m : mat (F64 lm)) : Prop :=
  forall i j, (i < mrows m)%nat -> (j < mcols m)%nat -> is_finite (mget m i j : f64) = true /\ Rabs (B2R (mget m i j : f64)) <= 128.
Definition nearR {lm} (m : mat (F64 lm)) (i j a b : nat) : R := B2R (near m i a j b : f64).
Lemma near_prod lm (r d : mat (F64 lm)) i a j b : (1 <= mrows r)%nat -> (1 <= mcols r)%nat -> mrows d = mrows r -> mcols d = mcols r ->
  near (prod r d) i a j b = Bmult mode_NE (near r i a j b : f64) (near d i a j b : f64).
Proof.
  intros R1 C1 Hr Hc. unfold near. unfold prod at 1. rewrite mget_mbuild.
  - rewrite Hr, Hc. reflexivity.
  - unfold prod. cbn [mrows mbuild]. lia.
  - unfold prod. cbn [mcols mbuild]. lia.
Qed.
Section Cov.
Variable lm : Libm.
Variables r d : mat (F64 lm).
Hypotheses (R1 : (1 <= mrows r)%nat) (C1 : (1 <= mcols r)%nat) (Hr : mrows d = mrows r) (Hc : mcols d = mcols r).
Hypotheses (Sr : small_mat r) (Sd : small_mat d).
Variables i j : nat.
Let f := nearR r i j.
Let g := nearR d i j.
Lemma near_small_r a b : is_finite (near r i a j b : f64) = true /\ Rabs (f a b) <= 128.
Proof. apply Sr; lia. Qed.
Lemma near_small_d a b : is_finite (near d i a j b : f64) = true /\ Rabs (g a b) <= 128.
Proof. apply Sd; lia. Qed.
Lemma mean_ap_r : ap (conv3 nsim_window r i j) (wavg f) (27 * / 70368744177664).
Proof. rewrite <- b46. apply conv_ap; [lia|]. intros a b _ _. rewrite b7. apply near_small_r. Qed.
Lemma mean_ap_d : ap (conv3 nsim_window d i j) (wavg g) (27 * / 70368744177664).
Proof. rewrite <- b46. apply conv_ap; [lia|]. intros a b _ _. rewrite b7. apply near_small_d. Qed.
Lemma wt_bnd : 1 - / 1125899906842624 <= wt <= 1 + / 1125899906842624.
Proof. destruct wt_val as (_ & _ & _ & P4). rewrite b50 in P4. apply Rabs_le_inv in P4. lra. Qed.
Lemma mean_bnd_r : Rabs (wavg f) <= 129.
Proof. pose proof wt_bnd. eapply Rle_trans; [apply (wavg_abs f 128); intros; apply near_small_r|]. lra. Qed.
Lemma mean_bnd_d : Rabs (wavg g) <= 129.
Proof. pose proof wt_bnd. eapply Rle_trans; [apply (wavg_abs g 128); intros; apply near_small_d|]. lra. Qed.
Lemma mul_bnd x y X Y : Rabs x <= X -> Rabs y <= Y -> Rabs (x * y) <= X * Y.
Proof. intros. rewrite Rabs_mult. apply Rmult_le_compat; auto using Rabs_pos. Qed.
Definition cov_val : R := wavg (fun a b => f a b * g a b) - wavg f * wavg g.
Lemma cov_bnd : Rabs (wavg (fun a b => f a b * g a b)) <= 16385 /\ Rabs (wavg f * wavg g) <= 16641.
Proof.
  pose proof wt_bnd. split.
  - eapply Rle_trans; [apply (wavg_abs _ 16384); intros|lra].
    replace 16384 with (128 * 128) by lra. apply mul_bnd; [apply near_small_r|apply near_small_d].
  - replace 16641 with (129 * 129) by lra. apply mul_bnd; [apply mean_bnd_r|apply mean_bnd_d].
Qed.
Lemma cov_ap : ap (Bminus mode_NE (conv3 nsim_window (prod r d) i j : f64) (Bmult mode_NE (conv3 nsim_window r i j : f64) (conv3 nsim_window d i j : f64)))
  cov_val (/ 4294967296).
Proof.
  pose proof wt_bnd as W. pose proof cov_bnd as [B1 B2].
  assert (A1 : ap (Bmult mode_NE (conv3 nsim_window r i j : f64) (conv3 nsim_window d i j : f64)) (wavg f * wavg g)
     (129 * (27 * / 70368744177664) + 129 * (27 * / 70368744177664) + (27 * / 70368744177664) * (27 * / 70368744177664) + / 274877906944)).
  { rewrite <- b38. apply ap_mult; [lia|apply mean_ap_r|apply mean_ap_d|apply mean_bnd_r|apply mean_bnd_d|]. rewrite b15. lra. }
  assert (A2 : ap (conv3 nsim_window (prod r d) i j) (wavg (fun a b => f a b * g a b)) (27 * / 549755813888 + / 549755813888 * wt)).
  { assert (Q : forall a b, is_finite (near (prod r d) i a j b : f64) = true /\ Rabs (B2R (near (prod r d) i a j b : f64)) <= 16384 /\
      Rabs (B2R (near (prod r d) i a j b : f64) - f a b * g a b) <= / 549755813888).
    { intros a b. rewrite near_prod by auto. destruct (near_small_r a b) as [Fr Br]. destruct (near_small_d a b) as [Fd Bd].
      assert (P : Rabs (f a b * g a b) <= bpow radix2 14) by (rewrite b14; replace 16384 with (128 * 128) by lra; apply mul_bnd; auto).
      destruct (Bmult_fin _ _ Fr Fd) as [F E].
      { apply (bpow_1000_big _ 14); [lia|]. apply rnd_abs_bpow; [lia|]. exact P. }
      split; [exact F|]. rewrite E. rewrite <- b39, <- b14. split.
      - apply rnd_abs_bpow; [lia|]. exact P.
      - apply rnd_err; [lia|]. exact P. }
    eapply ap_move.
    - rewrite <- b39. apply conv_ap; [lia|]. intros a b _ _. rewrite b14. split; apply Q.
    - apply wavg_bound. intros. apply Q. }
  unfold cov_val. eapply ap_weaken; [apply (ap_minus _ _ _ _ _ _ 16 ltac:(lia) A2 A1)|]; [rewrite b16|rewrite b37]; lra.
Qed.
End Cov.

Definition c1 lm : f64 := nsim_c1 (N:=F64 lm).
Definition c3 lm : f64 := nsim_c3 (N:=F64 lm).
Definition consts_ok lm : Prop := is_finite (c1 lm) = true /\ / 16384 <= B2R (c1 lm) <= 1 /\ is_finite (c3 lm) = true /\ / 4096 <= B2R (c3 lm) <= 1.

Lemma Bsqrt_fin (x : f64) : is_finite x = true -> 0 <= B2R x -> is_finite (Bsqrt mode_NE x) = true /\ B2R (Bsqrt mode_NE x) = rnd (sqrt (B2R x)).
Proof.
  intros F P. destruct (Bsqrt_correct 53 1024 _ _ mode_NE x) as (A & B & _). cbn [round_mode] in A. split; auto.
  rewrite B. destruct x as [s| | |s m e b]; try discriminate; auto.
  destruct s; auto. cbn in P. exfalso. assert (F2R (Float radix2 (Z.neg m) e) < 0) by (apply F2R_lt_0; reflexivity). lra.
Qed.
Lemma rnd_add_tiny x t : generic_format radix2 fexp64 x -> / 4096 <= x <= 1 -> 0 <= t <= bpow radix2 (-300) -> rnd (t + x) = x.
Proof.
  intros Gx Hx Ht. destruct (mag radix2 x) as [k Hk]. specialize (Hk ltac:(lra)). rewrite Rabs_right in Hk by lra.
  assert (K1 : (-12 < k)%Z). { apply (lt_bpow radix2). change (bpow radix2 (-12)) with (/ 4096). lra. }
  apply (near_round x _ (k - 53)); auto; try lia.
  - replace (k - 53 + 52)%Z with (k - 1)%Z by lia. replace (k - 53 + 53)%Z with k by lia. lra.
  - replace (k - 53 + 52)%Z with (k - 1)%Z by lia. lra.
  - replace (t + x - x) with t by ring. rewrite Rabs_right by lra. eapply Rle_lt_trans; [apply Ht|]. apply bpow_lt. lia.
Qed.
(** The root of the rounded square: the number itself, unless both are tiny. *)
Lemma root_sq s : generic_format radix2 fexp64 s -> Rabs s <= 65536 ->
  rnd (sqrt (rnd (s * s))) = Rabs s \/ (Rabs s <= bpow radix2 (-300) /\ 0 <= rnd (sqrt (rnd (s * s))) <= bpow radix2 (-300)).
Proof.
  intros G H. assert (E : s * s = Rabs s * Rabs s) by (unfold Rabs; destruct (Rcase_abs s); ring). rewrite E.
  pose proof (Rabs_pos s) as P. set (x := Rabs s) in *.
  assert (Gx : generic_format radix2 fexp64 x) by (apply generic_format_abs; auto).
  destruct (Rle_or_lt (bpow radix2 (-400)) x) as [C|C].
  - left. apply sqrt_sq; auto. split; auto. eapply Rle_trans; [exact H|]. rewrite <- b16. apply bpow_le; lia.
  - right. assert (L : bpow radix2 (-400) <= bpow radix2 (-300)) by (apply bpow_le; lia). split; [lra|].
    assert (Y : 0 <= rnd (x * x) <= bpow radix2 (-800)).
    { split; [apply rnd_sign; nra|].
      rewrite <- (rnd_id (bpow radix2 (-800))); [|apply generic_format_bpow; unfold SpecFloat.fexp, SpecFloat.emin; lia].
      apply rnd_le. change (-800)%Z with (-400 + -400)%Z. rewrite bpow_plus. apply Rmult_le_compat; lra. }
    split; [apply rnd_sign, sqrt_pos|].
    rewrite <- (rnd_id (bpow radix2 (-300))); [|apply generic_format_bpow; unfold SpecFloat.fexp, SpecFloat.emin; lia].
    apply rnd_le. eapply Rle_trans; [|exact L].
    rewrite <- (sqrt_square (bpow radix2 (-400))) by apply bpow_ge_0. rewrite <- bpow_plus. apply sqrt_le_1_alt. apply Y.
Qed.

(** ** One entry of the map for identical patches *)
Definition Lo : R := 1 - / 131072.
Lemma Lo_fmt j : (0 <= j <= 2 ^ 34)%Z -> generic_format radix2 fexp64 (IZR j * Lo).
Proof.
  intros Hj. apply (generic_format_FLT radix2 (-1074) 53). exists (Float radix2 (j * 131071) (-17)).
  - unfold F2R, Lo. cbn [Fnum Fexp]. rewrite mult_IZR. change (bpow radix2 (-17)) with (/ 131072). lra.
  - cbn [Fnum]. change (Zpower radix2 53) with (2 ^ 53)%Z. lia.
  - cbn [Fexp]. lia.
Qed.
Lemma rnd_one_sided x : Lo <= x <= 1 -> Lo <= rnd x <= 1.
Proof.
  intros H. split.
  - rewrite <- (rnd_id Lo); [apply rnd_le; lra|]. replace Lo with (IZR 1 * Lo) by lra. apply Lo_fmt. lia.
  - rewrite <- (rnd_IZR 1) by lia. apply rnd_le. lra.
Qed.
Lemma struct_same lm (s : f64) : consts_ok lm -> is_finite s = true -> - / 2147483648 <= B2R s <= 65536 ->
  let p := Bmult mode_NE s s in
  let den := if Bltb p (f64_ofZ 0) then c3 lm else Bplus mode_NE (Bsqrt mode_NE p) (c3 lm) in
  let q := Bdiv mode_NE (Bplus mode_NE s (c3 lm)) den in
  is_finite q = true /\ Lo <= B2R q <= 1.
Proof.
  intros (_ & _ & F3 & H3) Fs Hs p den q. set (x := B2R s) in *. set (c := B2R (c3 lm)) in *.
  assert (Ax : Rabs x <= 65536) by (apply Rabs_le; lra).
  pose proof (gf_B2R s) as Gx. fold x in Gx. pose proof (gf_B2R (c3 lm)) as Gc. fold c in Gc.
  assert (Px : 0 <= x * x <= bpow radix2 32).
  { split; [nra|]. change (bpow radix2 32) with 4294967296. apply Rabs_le_inv in Ax. nra. }
  destruct (Bmult_fin s s Fs Fs) as [Fp Ep].
  { apply (bpow_1000_big _ 32); [lia|]. apply rnd_abs_bpow; [lia|]. fold x. rewrite Rabs_right; lra. }
  fold p in Fp, Ep. fold x in Ep.
  assert (Pp : 0 <= B2R p) by (rewrite Ep; apply rnd_sign; lra).
  assert (D1 : Bltb p (f64_ofZ 0) = false).
  { apply Bltb_false_iff; [apply is_nan_finite; auto|apply ofZ_nan; lia|]. rewrite ofZ_ext by lia. rewrite ext_finite by auto. exact Pp. }
  unfold q, den. clear q den. rewrite D1. set (q := Bdiv mode_NE _ _).
  destruct (Bsqrt_fin p Fp Pp) as [Ft Et]. rewrite Ep in Et. set (t := B2R (Bsqrt mode_NE p)) in *.
  assert (Tb : Rabs x <= 65536 -> (t = Rabs x \/ (Rabs x <= bpow radix2 (-300) /\ 0 <= t <= bpow radix2 (-300)))).
  { intros. rewrite Et. apply root_sq; auto. }
  specialize (Tb Ax).
  assert (tiny : bpow radix2 (-300) <= / 2147483648).
  { apply Rle_trans with (bpow radix2 (-31)); [apply bpow_le; lia|]. right. apply (bpn 31); reflexivity || lia. }
  pose proof (bpow_gt_0 radix2 (-300)) as tpos. pose proof (Rabs_pos x) as Ax0.
  assert (T0 : 0 <= t <= 65536) by (destruct Tb as [-> |]; lra).
  destruct (Bplus_fin s (c3 lm) Fs F3) as [Fn En].
  { apply (bpow_1000_big _ 17); [lia|]. apply rnd_abs_bpow; [lia|]. fold x c. change (bpow radix2 17) with 131072. apply Rabs_le. lra. }
  destruct (Bplus_fin (Bsqrt mode_NE p) (c3 lm) Ft F3) as [Fd Ed].
  { apply (bpow_1000_big _ 17); [lia|]. apply rnd_abs_bpow; [lia|]. fold t c. change (bpow radix2 17) with 131072. apply Rabs_le. lra. }
  fold x c in En. fold t c in Ed. set (n := B2R (Bplus mode_NE s (c3 lm))) in *. set (dd := B2R (Bplus mode_NE (Bsqrt mode_NE p) (c3 lm))) in *.
  assert (Dpos : / 4096 <= dd).
  { rewrite Ed. apply Rle_trans with c; [lra|]. rewrite <- (rnd_id c) at 1 by auto. apply rnd_le. lra. }
  assert (Q : Lo <= n / dd <= 1).
  { destruct (Rle_or_lt 0 x) as [X|X].
    - assert (E : n = dd).
      { rewrite (Rabs_right x) in Tb by lra. destruct Tb as [Tb|[T1 T2]].
        - rewrite En, Ed, Tb. reflexivity.
        - rewrite En, Ed. rewrite !rnd_add_tiny by (auto; lra). reflexivity. }
      rewrite E. unfold Lo. unfold Rdiv. rewrite Rinv_r by lra. lra.
    - rewrite (Rabs_left x) in Tb by lra.
      assert (Tx : 0 <= t <= / 2147483648) by (destruct Tb; lra).
      assert (B52 : bpow radix2 (1 - 53) = / 4503599627370496) by (apply (bpn 52); reflexivity || lia).
      assert (N1 : Rabs (n - (x + c)) <= / 4503599627370496).
      { rewrite En, <- B52. apply rnd_err; [lia|]. change (bpow radix2 1) with 2. apply Rabs_le. lra. }
      assert (N2 : Rabs (dd - (t + c)) <= / 4503599627370496).
      { rewrite Ed, <- B52. apply rnd_err; [lia|]. change (bpow radix2 1) with 2. apply Rabs_le. lra. }
      assert (N3 : n <= dd) by (rewrite En, Ed; apply rnd_le; lra).
      apply Rabs_le_inv in N1. apply Rabs_le_inv in N2.
      split; apply Rmult_le_reg_r with dd; try lra; unfold Rdiv; rewrite Rmult_assoc, Rinv_l, Rmult_1_r by lra.
      + unfold Lo. lra.
      + lra. }
  destruct (Bdiv_fin (Bplus mode_NE s (c3 lm)) (Bplus mode_NE (Bsqrt mode_NE p) (c3 lm)) Fn Fd) as [Fq Eq].
  - fold dd. lra.
  - fold n dd. pose proof (rnd_one_sided _ Q). apply (bpow_1000_big _ 0); [lia|]. cbn [bpow]. apply Rabs_le. unfold Lo in *. lra.
  - fold q in Fq, Eq. fold n dd in Eq. split; auto. rewrite Eq. apply rnd_one_sided. exact Q.
Qed.
Lemma intens_same lm (mu : f64) v e : consts_ok lm -> ap mu v e -> Rabs v + e <= 256 ->
  let rr := Bmult mode_NE mu mu in
  let q := Bdiv mode_NE (Bplus mode_NE (Bmult mode_NE rr (f64_ofZ 2)) (c1 lm)) (Bplus mode_NE (Bplus mode_NE rr rr) (c1 lm)) in
  is_finite q = true /\ B2R q = 1.
Proof.
  intros (F1 & H1 & _) [Fm Am] Hv rr q. set (x := B2R mu) in *. set (c := B2R (c1 lm)) in *.
  assert (Ax : Rabs x <= 256).
  { replace x with (v + (x - v)) by ring. eapply Rle_trans; [apply Rabs_triang|]. lra. }
  apply Rabs_le_inv in Ax.
  assert (Px : 0 <= x * x <= bpow radix2 16) by (rewrite b16; split; nra).
  destruct (Bmult_fin mu mu Fm Fm) as [Fr Er].
  { apply (bpow_1000_big _ 16); [lia|]. apply rnd_abs_bpow; [lia|]. fold x. rewrite Rabs_right; lra. }
  fold rr in Fr, Er. fold x in Er.
  assert (Pr : 0 <= B2R rr <= 65536).
  { rewrite Er. split; [apply rnd_sign; lra|]. pose proof (rnd_abs_bpow (x * x) 16 ltac:(lia)) as G. rewrite (Rabs_right (x * x)) in G by lra.
    specialize (G (proj2 Px)). rewrite b16 in G. apply Rabs_le_inv in G. lra. }
  destruct (ofZ_exact 2 ltac:(lia)) as [F2 E2].
  destruct (Bmult_fin rr (f64_ofZ 2) Fr F2) as [Fa Ea].
  { rewrite E2. apply (bpow_1000_big _ 17); [lia|]. apply rnd_abs_bpow; [lia|]. change (bpow radix2 17) with 131072. rewrite Rabs_right; lra. }
  destruct (Bplus_fin rr rr Fr Fr) as [Fb Eb].
  { apply (bpow_1000_big _ 17); [lia|]. apply rnd_abs_bpow; [lia|]. change (bpow radix2 17) with 131072. rewrite Rabs_right; lra. }
  rewrite E2 in Ea. replace (B2R rr * 2) with (B2R rr + B2R rr) in Ea by ring. rewrite <- Eb in Ea.
  set (y := B2R (Bplus mode_NE rr rr)) in *.
  assert (Y : 0 <= y <= 131072).
  { rewrite Eb. split; [apply rnd_sign; lra|]. pose proof (rnd_abs_bpow (B2R rr + B2R rr) 17 ltac:(lia)) as G. rewrite (Rabs_right (B2R rr + B2R rr)) in G by lra.
    change (bpow radix2 17) with 131072 in G. specialize (G ltac:(lra)). apply Rabs_le_inv in G. lra. }
  assert (YB : Rabs (rnd (y + c)) < big).
  { apply (bpow_1000_big _ 18); [lia|]. apply rnd_abs_bpow; [lia|]. change (bpow radix2 18) with 262144. rewrite Rabs_right; lra. }
  destruct (Bplus_fin (Bmult mode_NE rr (f64_ofZ 2)) (c1 lm) Fa F1) as [Fn En]; [rewrite Ea; exact YB|].
  destruct (Bplus_fin (Bplus mode_NE rr rr) (c1 lm) Fb F1) as [Fd Ed]; [exact YB|].
  rewrite Ea in En. fold c in En, Ed. fold y in Ed.
  assert (P : 0 < rnd (y + c)).
  { apply Rlt_le_trans with c; [lra|]. rewrite <- (rnd_id c) at 1 by apply gf_B2R. apply rnd_le. lra. }
  assert (D : rnd (y + c) / rnd (y + c) = 1) by (unfold Rdiv; apply Rinv_r; lra).
  destruct (Bdiv_fin _ _ Fn Fd) as [Fq Eq].
  - rewrite Ed. lra.
  - rewrite En, Ed, D. rewrite rnd_IZR by lia. rewrite Rabs_right by lra. apply Rlt_le_trans with (bpow radix2 1); [change (bpow radix2 1) with 2; lra|apply bpow_le; lia].
  - fold q in Fq, Eq. split; auto. rewrite Eq, En, Ed, D. apply (rnd_IZR 1). lia.
Qed.
Lemma entry_same lm (r : mat (F64 lm)) i j : consts_ok lm -> (1 <= mrows r)%nat -> (1 <= mcols r)%nat -> small_mat r ->
  is_finite (nsim_entry r r i j : f64) = true /\ Lo <= B2R (nsim_entry r r i j : f64) <= 1.
Proof.
  intros CO R1 C1 Sr. unfold nsim_entry, entry_of. cbv zeta.
  pose proof (mean_ap_r lm r r R1 C1 eq_refl eq_refl Sr i j) as M. pose proof (mean_bnd_r lm r r R1 C1 eq_refl eq_refl Sr i j) as MB.
  pose proof (cov_ap lm r r R1 C1 eq_refl eq_refl Sr Sr i j) as V.
  pose proof (wavg_var (nearR r i j)) as VP. pose proof (cov_bnd lm r r R1 C1 eq_refl eq_refl Sr Sr i j) as [V1 V2].
  pose proof wt_bnd as W.
  set (mu := conv3 nsim_window r i j : f64) in *. set (crr := conv3 nsim_window (prod r r) i j : f64) in *.
  destruct (intens_same lm mu _ _ CO M ltac:(lra)) as [Fi Ei].
  set (s := Bminus mode_NE crr (Bmult mode_NE mu mu)) in *.
  assert (SB : is_finite s = true /\ - / 2147483648 <= B2R s <= 65536).
  { destruct V as [Fs Hs]. split; auto. apply Rabs_le_inv in Hs. unfold cov_val in Hs.
    set (u := wavg (nearR r i j)) in *. set (w := wavg (fun a b => nearR r i j a b * nearR r i j a b)) in *.
    apply Rabs_le_inv in V1. apply Rabs_le_inv in V2.
    assert (- / 1125899906842624 * 16641 <= (1 - wt) * (u * u)).
    { pose proof (Rle_0_sqr u) as U. unfold Rsqr in U.
      apply Rle_trans with (- / 1125899906842624 * (u * u)); [nra|]. apply Rmult_le_compat_r; lra. }
    lra. }
  destruct SB as [Fs Hs]. destruct (struct_same lm s CO Fs Hs) as [Fq Hq].
  change (nsim_c1 (N:=F64 lm)) with (c1 lm). change (nsim_c3 (N:=F64 lm)) with (c3 lm).
  cbn [nmul nadd ndiv nsub nsqrt nltb nofZ F64]. fold s.
  set (a := Bdiv mode_NE _ _) in Fi, Ei. set (b := Bdiv mode_NE _ _) in Fq, Hq.
  assert (Eb : rnd (B2R a * B2R b) = B2R b) by (rewrite Ei, Rmult_1_l; apply rnd_id, gf_B2R).
  destruct (Bmult_fin a b Fi Fq) as [F E].
  - rewrite Eb. apply Rabs_def1; pose proof (finite_lt_big b); lra.
  - rewrite Eb in E. split; [exact F|]. change (Lo <= B2R (Bmult mode_NE a b) <= 1). rewrite E. exact Hq.
Qed.

(** ** Means *)
Definition Pm (j : Z) (x : f64) : Prop := is_finite x = true /\ IZR j * Lo <= B2R x <= IZR j.
Lemma Pm_plus j k x y : (0 <= j)%Z -> (0 <= k)%Z -> (j + k <= 2 ^ 33)%Z -> Pm j x -> Pm k y -> Pm (j + k) (Bplus mode_NE x y).
Proof.
  intros Hj Hk H [Fx Hx] [Fy Hy].
  assert (J : 0 <= IZR j) by (apply IZR_le; auto). assert (K : 0 <= IZR k) by (apply IZR_le; auto).
  assert (S : IZR (j + k) * Lo <= rnd (B2R x + B2R y) <= IZR (j + k)).
  { split.
    - rewrite <- (rnd_id (IZR (j + k) * Lo)) by (apply Lo_fmt; lia). apply rnd_le. rewrite plus_IZR. lra.
    - rewrite <- (rnd_IZR (j + k)) by lia. apply rnd_le. rewrite plus_IZR. lra. }
  destruct (Bplus_fin x y Fx Fy) as [F E].
  - apply (bpow_1000_big _ 40); [lia|]. assert (IZR (j + k) <= IZR (2 ^ 40)) by (apply IZR_le; lia).
    change (bpow radix2 40) with (IZR (2 ^ 40)). rewrite plus_IZR in *. unfold Lo in *. apply Rabs_le. split; [|lra].
    assert (0 <= IZR (2 ^ 40)) by (apply IZR_le; lia). lra.
  - split; auto. rewrite E. exact S.
Qed.
Lemma Pm_div n x : (1 <= n <= 2 ^ 33)%Z -> Pm n x -> Pm 1 (Bdiv mode_NE x (f64_ofZ n)).
Proof.
  intros Hn [Fx Hx]. destruct (ofZ_exact n ltac:(lia)) as [Fn En]. assert (N1 : 1 <= IZR n) by (apply IZR_le; lia).
  assert (Q : Lo <= B2R x / IZR n <= 1).
  { split; apply Rmult_le_reg_r with (IZR n); try lra; unfold Rdiv; rewrite Rmult_assoc, Rinv_l, Rmult_1_r by lra; lra. }
  pose proof (rnd_one_sided _ Q) as Q'.
  destruct (Bdiv_fin x (f64_ofZ n) Fx Fn) as [F E].
  - rewrite En. lra.
  - rewrite En. apply (bpow_1000_big _ 0); [lia|]. cbn [bpow]. apply Rabs_le. unfold Lo in *. lra.
  - split; auto. rewrite E, En. lra.
Qed.
Lemma same_range lm (r : mat (F64 lm)) : consts_ok lm -> mat_wf r -> (1 <= mrows r)%nat -> (1 <= mcols r)%nat ->
  (Z.of_nat (mrows r) <= 2 ^ 32)%Z -> (Z.of_nat (mcols r) <= 2 ^ 32)%Z -> small_mat r ->
  exists p, measure_patch_similarity r r = Ok p /\
    Forall (fun x : f64 => is_finite x = true /\ Lo <= B2R x <= 1) (freq_band_means p) /\
    is_finite (similarity p : f64) = true /\ Lo <= B2R (similarity p : f64) <= 1.
Proof.
  intros CO Wr R1 C1 HR HC Sr.
  destruct (measure_ok r r Wr Wr eq_refl eq_refl R1 C1) as (means & stds & energy & Em & _ & _ & Nm & ->).
  eexists. split; [reflexivity|]. cbn [freq_band_means similarity new_patch_sim].
  unfold mean_axis1_f in Em. cbn [mcols mbuild mdata] in Em. destruct (Nat.eqb_spec (mcols r) 0); [lia|].
  assert (E : means = map (fun row => Bdiv mode_NE (seq_sum (N:=F64 lm) row : f64) (f64_ofZ (Z.of_nat (mcols r))))
     (map (fun i => map (nsim_entry r r i) (seq 0 (mcols r))) (seq 0 (mrows r)))) by (injection Em as <-; reflexivity).
  clear Em.
  assert (ZERO : Pm 0 (f64_ofZ 0)) by (split; [reflexivity|rewrite (ofZ_B2R 0) by lia; lra]).
  assert (FM : Forall (Pm 1) means).
  { rewrite E. apply Forall_forall. intros x Hx. apply in_map_iff in Hx as (row & <- & Hrow). apply in_map_iff in Hrow as (i & <- & _).
    apply Pm_div; [lia|].
    assert (Lr : zlen (map (nsim_entry r r i) (seq 0 (mcols r))) = Z.of_nat (mcols r)) by (unfold zlen; rewrite map_length, seq_length; reflexivity).
    rewrite <- Lr at 1. replace (zlen _) with (0 + zlen (map (nsim_entry r r i) (seq 0 (mcols r))))%Z by lia.
    apply (fold_closed (N:=F64 lm) Pm (2 ^ 33) Pm_plus); [lia|exact ZERO| |lia].
    apply Forall_forall. intros x Hx. apply in_map_iff in Hx as (j & <- & _). destruct (entry_same lm r i j CO R1 C1 Sr) as [F B]. split; [exact F|].
    rewrite Rmult_1_l. exact B. }
  assert (LM : zlen means = Z.of_nat (mrows r)) by (rewrite E; unfold zlen; rewrite !map_length, seq_length; reflexivity).
  split.
  - eapply Forall_impl; [|exact FM]. intros x [F B]. rewrite Rmult_1_l in B. auto.
  - assert (Q : Pm 1 (Bdiv mode_NE (nd_sum (N:=F64 lm) means : f64) (f64_ofZ (zlen means)))).
    { apply Pm_div; [lia|]. apply (nd_sum_closed (N:=F64 lm) Pm (2 ^ 33) Pm_plus ZERO); [exact FM|]. rewrite LM. lia. }
    destruct Q as [F B]. rewrite Rmult_1_l in B. auto.
Qed.

(** ** Finiteness for any two patches *)
Lemma bnd_minus x y e : (-900 <= e < 1000)%Z -> bnd x e -> bnd y e -> bnd (Bminus mode_NE x y) (e + 1).
Proof. intros He Hx Hy. rewrite Bminus_opp. apply bnd_plus; auto using bnd_opp. Qed.
Lemma bnd_mono x e f : (e <= f)%Z -> bnd x e -> bnd x f.
Proof. intros H [F B]. split; auto. eapply Rle_trans; [exact B|apply bpow_le; auto]. Qed.
Lemma bnd_div x y e f : (-900 <= e - f <= 1000)%Z -> bnd x e -> is_finite y = true -> bpow radix2 f <= B2R y -> bnd (Bdiv mode_NE x y) (e - f).
Proof.
  intros He [Fx Hx] Fy Hy. pose proof (bpow_gt_0 radix2 f) as P.
  assert (S : Rabs (rnd (B2R x / B2R y)) <= bpow radix2 (e - f)).
  { apply rnd_abs_bpow; [lia|]. unfold Rdiv. rewrite Rabs_mult, (Rabs_right (/ _)) by (apply Rle_ge, Rlt_le, Rinv_0_lt_compat; lra).
    unfold Zminus. rewrite bpow_plus, bpow_opp. apply Rmult_le_compat; [apply Rabs_pos|apply Rlt_le, Rinv_0_lt_compat; lra|auto|]. apply Rinv_le; auto. }
  destruct (Bdiv_fin x y Fx Fy) as [F E]; [lra|apply (bpow_1000_big _ (e - f)); auto; lia|]. split; auto. rewrite E. auto.
Qed.
Lemma plus_ge (x c : f64) e lo : (-900 <= e < 1000)%Z -> bnd x e -> bnd c e -> 0 <= B2R x -> lo <= B2R c -> lo <= B2R (Bplus mode_NE x c).
Proof.
  intros He [Fx Hx] [Fc Hc] Px Lc. destruct (Bplus_fin x c Fx Fc) as [F E].
  - apply (bpow_1000_big _ (e + 1)); [lia|]. apply rnd_abs_bpow; [lia|]. eapply Rle_trans; [apply Rabs_triang|].
    rewrite bpow_plus. change (bpow radix2 1) with 2. lra.
  - rewrite E. apply Rle_trans with (B2R c); auto. rewrite <- (rnd_id (B2R c)) at 1 by apply gf_B2R. apply rnd_le. lra.
Qed.
Lemma sq_ge (x : f64) e : (-400 <= e <= 400)%Z -> bnd x e -> 0 <= B2R (Bmult mode_NE x x).
Proof.
  intros He [Fx Hx]. destruct (Bmult_fin x x Fx Fx) as [F E].
  - apply (bpow_1000_big _ (e + e)); [lia|]. apply rnd_abs_bpow; [lia|]. rewrite Rabs_mult, bpow_plus. apply Rmult_le_compat; auto using Rabs_pos.
  - rewrite E. apply rnd_sign. pose proof (Rle_0_sqr (B2R x)). exact H.
Qed.
Lemma plus_ge0 (x y : f64) e : (-900 <= e < 1000)%Z -> bnd x e -> bnd y e -> 0 <= B2R x -> 0 <= B2R y -> 0 <= B2R (Bplus mode_NE x y).
Proof. intros. apply (plus_ge x y e); auto. Qed.
Lemma ap_bnd x v e k : ap x v e -> Rabs v + e <= bpow radix2 k -> bnd x k.
Proof.
  intros [F H] B. split; auto. replace (B2R x) with (v + (B2R x - v)) by ring. eapply Rle_trans; [apply Rabs_triang|]. lra.
Qed.
Lemma entry_fin lm (r d : mat (F64 lm)) i j : consts_ok lm -> (1 <= mrows r)%nat -> (1 <= mcols r)%nat -> mrows d = mrows r -> mcols d = mcols r ->
  small_mat r -> small_mat d -> bnd (nsim_entry r d i j : f64) 61.
Proof.
  intros (F1 & H1 & F3 & H3) R1 C1 Hr Hc Sr Sd. unfold nsim_entry, entry_of. cbv zeta.
  pose proof (ap_bnd _ _ _ 8 (mean_ap_r lm r r R1 C1 eq_refl eq_refl Sr i j)) as Mr.
  pose proof (ap_bnd _ _ _ 8 (mean_ap_r lm d d ltac:(lia) ltac:(lia) eq_refl eq_refl Sd i j)) as Md.
  pose proof (mean_bnd_r lm r r R1 C1 eq_refl eq_refl Sr i j) as MBr. pose proof (mean_bnd_r lm d d ltac:(lia) ltac:(lia) eq_refl eq_refl Sd i j) as MBd.
  change (bpow radix2 8) with 256 in Mr, Md. specialize (Mr ltac:(lra)). specialize (Md ltac:(lra)).
  assert (CB : forall a b : mat (F64 lm), (1 <= mrows a)%nat -> (1 <= mcols a)%nat -> mrows b = mrows a -> mcols b = mcols a -> small_mat a -> small_mat b ->
    bnd (Bminus mode_NE (conv3 nsim_window (prod a b) i j : f64) (Bmult mode_NE (conv3 nsim_window a i j : f64) (conv3 nsim_window b i j : f64))) 16).
  { intros a b A1 A2 A3 A4 Sa Sb. pose proof (cov_bnd lm a b A1 A2 A3 A4 Sa Sb i j) as [B1 B2].
    eapply ap_bnd; [apply (cov_ap lm a b A1 A2 A3 A4 Sa Sb i j)|]. rewrite b16. unfold cov_val.
    apply Rabs_le_inv in B1. apply Rabs_le_inv in B2.
    match goal with |- Rabs ?z + _ <= _ => assert (Rabs z <= 40000) by (apply Rabs_le; lra) end. lra. }
  pose proof (CB r r R1 C1 eq_refl eq_refl Sr Sr) as Vr. pose proof (CB d d ltac:(lia) ltac:(lia) eq_refl eq_refl Sd Sd) as Vd.
  pose proof (CB r d R1 C1 Hr Hc Sr Sd) as Vrd.
  change (nsim_c1 (N:=F64 lm)) with (c1 lm). change (nsim_c3 (N:=F64 lm)) with (c3 lm).
  cbn [nmul nadd ndiv nsub nsqrt nltb nofZ F64].
  set (mr := conv3 nsim_window r i j : f64) in *. set (md := conv3 nsim_window d i j : f64) in *.
  set (s := Bminus mode_NE (conv3 nsim_window (prod r d) i j : f64) (Bmult mode_NE mr md)) in *.
  set (sr := Bminus mode_NE (conv3 nsim_window (prod r r) i j : f64) (Bmult mode_NE mr mr)) in *.
  set (sd := Bminus mode_NE (conv3 nsim_window (prod d d) i j : f64) (Bmult mode_NE md md)) in *.
  clearbody mr md s sr sd.
  assert (K1 : forall e, (0 <= e)%Z -> bnd (c1 lm) e).
  { intros e He. split; auto. rewrite Rabs_right by lra. apply Rle_trans with 1; [lra|]. apply (bpow_le radix2 0 e). lia. }
  assert (K3 : forall e, (0 <= e)%Z -> bnd (c3 lm) e).
  { intros e He. split; auto. rewrite Rabs_right by lra. apply Rle_trans with 1; [lra|]. apply (bpow_le radix2 0 e). lia. }
  assert (Brr : bnd (Bmult mode_NE mr mr) 16) by (apply (bnd_mult _ _ 8 8); auto; lia).
  assert (Bdd : bnd (Bmult mode_NE md md) 16) by (apply (bnd_mult _ _ 8 8); auto; lia).
  assert (Brd : bnd (Bmult mode_NE mr md) 16) by (apply (bnd_mult _ _ 8 8); auto; lia).
  assert (B2 : bnd (f64_ofZ 2) 1) by (apply bnd_ofZ; lia).
  assert (I1 : bnd (Bplus mode_NE (Bmult mode_NE (Bmult mode_NE mr md) (f64_ofZ 2)) (c1 lm)) 18).
  { apply (bnd_plus _ _ 17); [lia| |apply K1; lia]. apply (bnd_mult _ _ 16 1); auto; lia. }
  assert (I2 : bnd (Bplus mode_NE (Bmult mode_NE mr mr) (Bmult mode_NE md md)) 17) by (apply (bnd_plus _ _ 16); auto; lia).
  assert (I3 : bnd (Bplus mode_NE (Bplus mode_NE (Bmult mode_NE mr mr) (Bmult mode_NE md md)) (c1 lm)) 18).
  { apply (bnd_plus _ _ 17); [lia|auto|apply K1; lia]. }
  assert (I4 : bpow radix2 (-14) <= B2R (Bplus mode_NE (Bplus mode_NE (Bmult mode_NE mr mr) (Bmult mode_NE md md)) (c1 lm))).
  { apply (plus_ge _ _ 17); auto; [lia|apply K1; lia| |change (bpow radix2 (-14)) with (/ 16384); lra].
    apply (plus_ge0 _ _ 16); auto; [lia|apply (sq_ge _ 8); auto; lia|apply (sq_ge _ 8); auto; lia]. }
  pose proof (bnd_div _ _ 18 (-14) ltac:(lia) I1 (proj1 I3) I4) as BI. change (18 - -14)%Z with 32%Z in BI.
  assert (S1 : bnd (Bplus mode_NE s (c3 lm)) 17) by (apply (bnd_plus _ _ 16); [lia|auto|apply K3; lia]).
  assert (P : bnd (Bmult mode_NE sr sd) 32) by (apply (bnd_mult _ _ 16 16); auto; lia).
  set (den := if Bltb (Bmult mode_NE sr sd) (f64_ofZ 0) then c3 lm else Bplus mode_NE (Bsqrt mode_NE (Bmult mode_NE sr sd)) (c3 lm)).
  assert (D : is_finite den = true /\ bpow radix2 (-12) <= B2R den).
  { change (bpow radix2 (-12)) with (/ 4096). unfold den. destruct (Bltb _ _) eqn:E; [split; [auto|lra]|].
    apply Bltb_false in E; [|apply is_nan_finite, P|apply ofZ_nan; lia].
    rewrite ofZ_ext in E by lia. rewrite ext_finite in E by apply P.
    destruct (Bsqrt_fin _ (proj1 P) E) as [Fq Eq].
    assert (BQ : bnd (Bsqrt mode_NE (Bmult mode_NE sr sd)) 32).
    { split; auto. rewrite Eq. apply rnd_abs_bpow; [lia|]. rewrite Rabs_right by (apply Rle_ge, sqrt_pos).
      destruct P as [_ P]. rewrite Rabs_right in P by lra.
      apply Rle_trans with (sqrt (bpow radix2 32 * bpow radix2 32)); [|rewrite sqrt_square by apply bpow_ge_0; lra].
      apply sqrt_le_1_alt. eapply Rle_trans; [exact P|]. assert (1 <= bpow radix2 32) by (apply (bpow_le radix2 0 32); lia). nra. }
    split; [apply (bnd_plus _ _ 32); auto; [lia|apply K3; lia]|]. apply (plus_ge _ _ 32); auto; [lia|apply K3; lia| |lra].
    rewrite Eq. apply rnd_sign, sqrt_pos. }
  pose proof (bnd_div _ _ 17 (-12) ltac:(lia) S1 (proj1 D) (proj2 D)) as BS. change (17 - -12)%Z with 29%Z in BS.
  exact (bnd_mult _ _ 32 29 ltac:(lia) BI BS).
Qed.

Lemma measure_fin lm (r d : mat (F64 lm)) : consts_ok lm -> mat_wf r -> mat_wf d -> mrows d = mrows r -> mcols d = mcols r ->
  (1 <= mrows r)%nat -> (1 <= mcols r)%nat -> (Z.of_nat (mrows r) <= 2 ^ 32)%Z -> (Z.of_nat (mcols r) <= 2 ^ 32)%Z -> small_mat r -> small_mat d ->
  exists p, measure_patch_similarity r d = Ok p /\
    Forall (fun x : f64 => is_finite x = true) (freq_band_means p) /\ is_finite (similarity p : f64) = true.
Proof.
  intros CO Wr Wd Hr Hc R1 C1 HR HC Sr Sd.
  destruct (measure_ok r d Wr Wd Hr Hc R1 C1) as (means & stds & energy & Em & _ & _ & Nm & ->).
  eexists. split; [reflexivity|]. cbn [freq_band_means similarity new_patch_sim].
  unfold mean_axis1_f in Em. cbn [mcols mbuild mdata] in Em. destruct (Nat.eqb_spec (mcols r) 0); [lia|].
  assert (E : means = map (fun row => Bdiv mode_NE (seq_sum (N:=F64 lm) row : f64) (f64_ofZ (Z.of_nat (mcols r))))
     (map (fun i => map (nsim_entry r d i) (seq 0 (mcols r))) (seq 0 (mrows r)))) by (injection Em as <-; reflexivity).
  clear Em.
  pose (P := fun (j : Z) (x : f64) => is_finite x = true /\ Rabs (B2R x) <= IZR j * bpow radix2 61).
  assert (FMT : forall j, (0 <= j <= 2 ^ 33)%Z -> rnd (IZR j * bpow radix2 61) = IZR j * bpow radix2 61 /\ IZR j * bpow radix2 61 <= bpow radix2 100).
  { intros j Hj. split.
    - apply rnd_id. apply (generic_format_FLT radix2 (-1074) 53). exists (Float radix2 j 61); [reflexivity| |cbn; lia].
      cbn [Fnum]. change (Zpower radix2 53) with (2 ^ 53)%Z. lia.
    - change (bpow radix2 100) with (bpow radix2 (39 + 61)). rewrite bpow_plus. apply Rmult_le_compat_r; [apply bpow_ge_0|].
      change (bpow radix2 39) with (IZR (2 ^ 39)). apply IZR_le. lia. }
  assert (PP : forall j k x y, (0 <= j)%Z -> (0 <= k)%Z -> (j + k <= 2 ^ 33)%Z -> P j x -> P k y -> P (j + k)%Z (Bplus mode_NE x y)).
  { intros j k x y Hj Hk H [Fx Hx] [Fy Hy]. destruct (FMT (j + k)%Z ltac:(lia)) as [G1 G2].
    assert (S : Rabs (rnd (B2R x + B2R y)) <= IZR (j + k) * bpow radix2 61).
    { assert (T : Rabs (B2R x + B2R y) <= IZR (j + k) * bpow radix2 61) by (eapply Rle_trans; [apply Rabs_triang|]; rewrite plus_IZR; lra).
      apply Rabs_le_inv in T. apply Rabs_le. split.
      - rewrite <- G1, <- round_NE_opp. apply rnd_le. lra.
      - rewrite <- G1. apply rnd_le. lra. }
    destruct (Bplus_fin x y Fx Fy) as [F Ee]; [apply (bpow_1000_big _ 100); [lia|lra]|]. split; auto. rewrite Ee. exact S. }
  assert (PD : forall n x, (1 <= n <= 2 ^ 33)%Z -> P n x -> P 1%Z (Bdiv mode_NE x (f64_ofZ n))).
  { intros n0 x Hn [Fx Hx]. destruct (ofZ_exact n0 ltac:(lia)) as [Fn En]. assert (N1 : 1 <= IZR n0) by (apply IZR_le; lia).
    assert (S : Rabs (rnd (B2R x / B2R (f64_ofZ n0))) <= bpow radix2 61).
    { apply rnd_abs_bpow; [lia|]. rewrite En. unfold Rdiv. rewrite Rabs_mult, (Rabs_right (/ _)) by (apply Rle_ge, Rlt_le, Rinv_0_lt_compat; lra).
      apply Rmult_le_reg_r with (IZR n0); [lra|]. rewrite Rmult_assoc, Rinv_l, Rmult_1_r by lra. lra. }
    destruct (Bdiv_fin x (f64_ofZ n0) Fx Fn) as [F Ee]; [rewrite En; lra|apply (bpow_1000_big _ 61); auto; lia|].
    split; auto. rewrite Ee, Rmult_1_l. exact S. }
  assert (ZERO : P 0%Z (f64_ofZ 0)) by (split; [reflexivity|rewrite (ofZ_B2R 0) by lia; rewrite Rabs_R0; lra]).
  assert (FM : Forall (P 1%Z) means).
  { rewrite E. apply Forall_forall. intros x Hx. apply in_map_iff in Hx as (row & <- & Hrow). apply in_map_iff in Hrow as (i & <- & _).
    apply PD; [lia|].
    assert (Lr : zlen (map (nsim_entry r d i) (seq 0 (mcols r))) = Z.of_nat (mcols r)) by (unfold zlen; rewrite map_length, seq_length; reflexivity).
    rewrite <- Lr at 1. replace (zlen _) with (0 + zlen (map (nsim_entry r d i) (seq 0 (mcols r))))%Z by lia.
    apply (fold_closed (N:=F64 lm) P (2 ^ 33) PP); [lia|exact ZERO| |lia].
    apply Forall_forall. intros x Hx. apply in_map_iff in Hx as (j & <- & _). destruct (entry_fin lm r d i j CO R1 C1 Hr Hc Sr Sd) as [F B]. split; [exact F|].
    rewrite Rmult_1_l. exact B. }
  assert (LM : zlen means = Z.of_nat (mrows r)) by (rewrite E; unfold zlen; rewrite !map_length, seq_length; reflexivity).
  split.
  - eapply Forall_impl; [|exact FM]. intros x [F B]. exact F.
  - assert (Q : P 1%Z (Bdiv mode_NE (nd_sum (N:=F64 lm) means : f64) (f64_ofZ (zlen means)))).
    { apply PD; [lia|]. apply (nd_sum_closed (N:=F64 lm) P (2 ^ 33) PP ZERO); [exact FM|]. rewrite LM. lia. }
    apply Q.
Qed.

Lemma lit_times_one (x : f64) : is_finite x = true -> Bmult mode_NE x (f64_ofZ 1) = x.
Proof.
  intros F. destruct (ofZ_exact 1 ltac:(lia)) as [F1 E1].
  assert (R : rnd (B2R x * B2R (f64_ofZ 1)) = B2R x) by (rewrite E1, Rmult_1_r; apply rnd_id, gf_B2R).
  pose proof (Bmult_correct 53 1024 _ _ mode_NE x (f64_ofZ 1)) as C. cbn [round_mode] in C. rewrite R in C.
  rewrite Rlt_bool_true in C by (apply abs_B2R_lt_emax). destruct C as (A & B & S).
  rewrite F, F1 in B. apply B2R_Bsign_inj; auto. rewrite S by (apply is_nan_finite; auto).
  replace (Bsign (f64_ofZ 1)) with false by reflexivity. apply Bool.xorb_false_r.
Qed.
Lemma sane_consts lm : squares_sane lm -> consts_ok lm.
Proof.
  intros [[F1 H1] [F3 H3]]. unfold consts_ok, c1, c3, nsim_c1, nsim_c3, INTENSITY_RANGE. cbn [npowf nmul ndiv nlit nofZ F64].
  rewrite !lit_times_one by (vm_compute; reflexivity).
  set (p1 := lm_powf lm (f64_lit 1 2) (f64_ofZ 2)) in *. set (p3 := lm_powf lm (f64_lit 3 2) (f64_ofZ 2)) in *.
  destruct (ofZ_exact 2 ltac:(lia)) as [F2 E2].
  assert (Q : / 4096 <= rnd (B2R p3 / 2) <= 1).
  { split.
    - change (/ 4096) with (bpow radix2 (-12)). rewrite <- (rnd_id (bpow radix2 (-12))).
      + apply rnd_le. change (bpow radix2 (-12)) with (/ 4096). lra.
      + apply generic_format_bpow. unfold SpecFloat.fexp, SpecFloat.emin. lia.
    - rewrite <- (rnd_IZR 1) by lia. apply rnd_le. lra. }
  destruct (Bdiv_fin p3 (f64_ofZ 2) F3 F2) as [F E].
  - rewrite E2. lra.
  - rewrite E2. apply (bpow_1000_big _ 0); [lia|]. cbn [bpow]. apply Rabs_le. lra.
  - rewrite E2 in E. split; [exact F1|]. split; [exact H1|]. split; [exact F|].
    change (/ 4096 <= B2R (Bdiv mode_NE p3 (f64_ofZ 2)) <= 1). rewrite E. exact Q.
Qed.
Lemma range_small lm (m : mat (F64 lm)) : mat_wf m -> patch_in_range m -> small_mat m.
Proof.
  intros [W1 W2] H i j Hi Hj. unfold patch_in_range in H. rewrite Forall_forall in H, W2. unfold mget.
  assert (I1 : In (nth i (mdata m) []) (mdata m)) by (apply nth_In; lia).
  specialize (H _ I1). specialize (W2 _ I1). rewrite Forall_forall in H.
  destruct (H (nth j (nth i (mdata m) []) (nofZ (F64 lm) 0))) as [F B]; [apply nth_In; lia|].
  split; [exact F|]. apply Rabs_le. lra.
Qed.
Lemma C53_identical_l lm (r : mat (F64 lm)) : squares_sane lm -> mat_wf r -> (1 <= mrows r)%nat -> (1 <= mcols r)%nat ->
  (Z.of_nat (mrows r) <= 2 ^ 32)%Z -> (Z.of_nat (mcols r) <= 2 ^ 32)%Z -> patch_in_range r ->
  exists p, measure_patch_similarity r r = Ok p /\
    Forall (within (1 - / 131072) 1) (freq_band_means p) /\ within (1 - / 131072) 1 (similarity p).
Proof.
  intros SS W R1 C1 HR HC PR. destruct (same_range lm r (sane_consts lm SS) W R1 C1 HR HC (range_small lm r W PR)) as (p & E & A & B).
  exists p. split; [exact E|]. split; [exact A|exact B].
Qed.
Lemma C53_finite_l lm (r d : mat (F64 lm)) : squares_sane lm -> mat_wf r -> mat_wf d -> mrows d = mrows r -> mcols d = mcols r ->
  (1 <= mrows r)%nat -> (1 <= mcols r)%nat -> (Z.of_nat (mrows r) <= 2 ^ 32)%Z -> (Z.of_nat (mcols r) <= 2 ^ 32)%Z ->
  patch_in_range r -> patch_in_range d ->
  exists p, measure_patch_similarity r d = Ok p /\
    Forall (fun x : f64 => is_finite x = true) (freq_band_means p) /\ is_finite (similarity p : f64) = true.
Proof.
  intros SS Wr Wd Hr Hc R1 C1 HR HC Pr Pd. apply measure_fin; auto using sane_consts, range_small.
Qed.
