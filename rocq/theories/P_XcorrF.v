(** The correlation search in binary64 (C13). *)
From Coq Require Import Reals Lra Lia Psatz.
From Flocq Require Import Core IEEE754.BinarySingleNaN.
From Verif Require Import Base Num F64 RNum M_Audio M_Align P_Base P_F64 P_Audio P_Score P_R P_Dft P_Win P_LevelF Spec3 Spec15 P_Xcorr.
Open Scope R_scope.

Definition hh : R := bpow radix2 (-950).
Definition dd : R := bpow radix2 (-44).
Lemma dd_val : dd = / 17592186044416. Proof. apply (bpn 44); reflexivity || lia. Qed.
Lemma hh_pos : 0 < hh. Proof. apply bpow_gt_0. Qed.
Lemma hh_tiny : hh <= / 1152921504606846976.
Proof. replace (/ 1152921504606846976) with (bpow radix2 (-60)) by (apply (bpn 60); reflexivity || lia). apply bpow_le. lia. Qed.
Lemma rnd_any x : Rabs (rnd x - x) <= uu * Rabs x + hh.
Proof.
  pose proof hh_pos. assert (0 < uu) by apply bpow_gt_0. pose proof (Rabs_pos x).
  destruct (Rle_lt_dec (bpow radix2 (-900)) (Rabs x)) as [L|L].
  - pose proof (P_Win.rnd_rel x L) as Q. fold uu in Q. lra.
  - assert (Q : Rabs (rnd x - x) <= bpow radix2 (-900 - 53)) by (apply rnd_err; [lia|lra]).
    assert (bpow radix2 (-900 - 53) <= hh) by (apply bpow_le; lia). nra.
Qed.
Lemma no_over x : Rabs x <= bpow radix2 1000 -> Rabs (rnd x) < big.
Proof. intros H. apply small_lt_big. eapply Rle_trans; [exact H|]. apply bpow_le. lia. Qed.

(** ** The size of the transform *)
Lemma ln_ge t : 0 <= t -> t / (1 + t) <= ln (1 + t).
Proof.
  intros H. replace (ln (1 + t)) with (- ln (/ (1 + t))) by (rewrite ln_Rinv by lra; ring).
  assert (P : 0 < / (1 + t)) by (apply Rinv_0_lt_compat; lra).
  assert (Q : ln (/ (1 + t)) <= / (1 + t) - 1).
  { destruct (Req_dec (/ (1 + t)) 1) as [->|D]; [rewrite ln_1; lra|].
    pose proof (exp_ineq1 (ln (/ (1 + t)))) as X. rewrite exp_ln in X by exact P.
    assert (N : ln (/ (1 + t)) <> 0). { intros N. apply D. rewrite <- (exp_ln (/ (1 + t))) by exact P. rewrite N. apply exp_0. }
    specialize (X N). lra. }
  replace (t / (1 + t)) with (1 - / (1 + t)) by (field; lra). lra.
Qed.
Lemma ln2_bnd : / 2 <= ln 2 <= 1.
Proof.
  split.
  - pose proof (ln_ge 1 ltac:(lra)). replace (1 + 1) with 2 in H by ring. lra.
  - pose proof (exp_ineq1 1 ltac:(lra)). rewrite <- (ln_exp 1). left. apply ln_increasing; lra.
Qed.
Lemma log2_gap n : (3 <= n < 2 ^ 31)%Z -> Z.odd n = true ->
  IZR (Z.log2 n) + bpow radix2 (-32) <= ln (IZR n) / ln 2 <= IZR (Z.log2 n) + 1 - bpow radix2 (-32).
Proof.
  intros H O. destruct (Z.log2_spec n ltac:(lia)) as [A B]. set (k := Z.log2 n) in *.
  assert (K : (1 <= k < 31)%Z). { unfold k. split; [apply Z.log2_le_pow2; lia|apply Z.log2_lt_pow2; lia]. }
  clearbody k. pose proof ln2_bnd as L2.
  assert (B32 : bpow radix2 (-32) = / 4294967296) by (apply (bpn 32); reflexivity || lia).
  assert (E : exists j, n = (2 ^ k + j)%Z /\ (1 <= j <= 2 ^ k - 1)%Z).
  { exists (n - 2 ^ k)%Z. split; [ring|]. rewrite Z.pow_succ_r in B by lia. assert (n <> 2 ^ k)%Z; [|lia].
    intros E. rewrite E in O. replace k with (Z.succ (k - 1)) in O by lia. rewrite Z.pow_succ_r in O by lia. rewrite Z.odd_mul in O. discriminate. }
  assert (PK : (2 <= 2 ^ k <= 2 ^ 30)%Z) by (split; [change 2%Z with (2 ^ 1)%Z at 1|]; apply Z.pow_le_mono_r; lia).
  set (p := IZR (2 ^ k)). assert (PP : 2 <= p <= 1073741824) by (unfold p; split; [apply (IZR_le 2)|apply (IZR_le _ (2 ^ 30))]; lia).
  destruct E as (j & -> & J). rewrite plus_IZR. fold p.
  assert (J1 : 1 <= IZR j) by (apply (IZR_le 1); lia). assert (J2 : IZR j <= p - 1) by (unfold p; rewrite <- minus_IZR; apply IZR_le; lia).
  assert (LP : ln p = IZR k * ln 2) by (unfold p; apply ln_pow2; lia).
  assert (I1 : / 1073741824 <= / p) by (apply Rinv_le_contravar; lra).
  assert (I0 : 0 < / p) by (apply Rinv_0_lt_compat; lra).
  assert (IP : p * / p = 1) by (apply Rinv_r; lra).
  split.
  - apply Rmult_le_reg_r with (ln 2); [lra|]. unfold Rdiv. rewrite Rmult_assoc, Rinv_l, Rmult_1_r by lra.
    apply Rle_trans with (ln p + / 4294967296); [rewrite LP, B32; nra|].
    replace (p + IZR j) with (p * (1 + IZR j * / p)) by (rewrite Rmult_plus_distr_l, <- Rmult_assoc, (Rmult_comm p (IZR j)), Rmult_assoc, IP; ring).
    assert (T : / p <= IZR j * / p) by nra.
    rewrite ln_mult by nra. pose proof (ln_ge (IZR j * / p) ltac:(nra)) as G.
    assert (T2 : IZR j * / p <= 1) by nra.
    assert (G2 : / p / 2 <= IZR j * / p / (1 + IZR j * / p)).
    { apply Rmult_le_reg_r with (1 + IZR j * / p); [lra|]. unfold Rdiv at 2. rewrite Rmult_assoc, Rinv_l, Rmult_1_r by lra. nra. }
    lra.
  - apply Rmult_le_reg_r with (ln 2); [lra|]. unfold Rdiv. rewrite Rmult_assoc, Rinv_l, Rmult_1_r by lra.
    apply Rle_trans with (ln (2 * p) - / 4294967296); [|rewrite ln_mult by lra; rewrite LP, B32; nra].
    set (q := p + IZR j). assert (Q : 2 * p = q * (1 + (2 * p - q) / q)) by (field; unfold q; lra).
    assert (Q0 : 0 < q) by (unfold q; lra).
    assert (T : / p / 2 <= (2 * p - q) / q).
    { apply Rmult_le_reg_r with q; [lra|]. unfold Rdiv at 2. rewrite Rmult_assoc, Rinv_l, Rmult_1_r by lra. unfold q. nra. }
    assert (T1 : (2 * p - q) / q <= 1).
    { apply Rmult_le_reg_r with q; [lra|]. unfold Rdiv. rewrite Rmult_assoc, Rinv_l, Rmult_1_r by lra. unfold q. nra. }
    rewrite Q, ln_mult by nra. pose proof (ln_ge ((2 * p - q) / q) ltac:(lra)) as G. set (t := (2 * p - q) / q) in *.
    assert (G2 : / p / 4 <= t / (1 + t)).
    { apply Rmult_le_reg_r with (1 + t); [lra|]. unfold Rdiv at 2. rewrite Rmult_assoc, Rinv_l, Rmult_1_r by lra. nra. }
    lra.
Qed.
Lemma frexp_F lm n : log2_close lm -> (3 <= n < 2 ^ 31)%Z -> Z.odd n = true -> frexp_exp (N:=F64 lm) (f64_ofZ n) = (Z.log2 n + 1)%Z.
Proof.
  intros LC H O. pose proof (log2_gap n H O) as G. destruct (ofZ_exact n ltac:(lia)) as [F E].
  assert (K : (0 <= Z.log2 n < 31)%Z) by (split; [apply Z.log2_nonneg|apply Z.log2_lt_pow2; lia]).
  unfold frexp_exp. cbn [F64 neqb nofZ nfloor nlog2 nabs nadd].
  assert (NE : Beqb (f64_ofZ 0) (f64_ofZ n) = false).
  { destruct (Beqb (f64_ofZ 0) (f64_ofZ n)) eqn:Q; auto. apply Beqb_true in Q as (_ & _ & Q). rewrite !ext_finite in Q by (exact F || apply ofZ_fin; lia).
    rewrite E, ofZ_B2R in Q by lia. apply eq_IZR in Q. lia. }
  rewrite NE.
  assert (FA : is_finite (Babs (f64_ofZ n)) = true) by (rewrite is_finite_Babs; exact F).
  assert (EA : B2R (Babs (f64_ofZ n)) = IZR n) by (rewrite B2R_Babs, E; apply Rabs_pos_eq; apply IZR_le; lia).
  destruct (LC (Babs (f64_ofZ n)) FA) as [FL EL].
  { rewrite EA. split; [apply (IZR_le 1); lia|]. rewrite (bp 32 (2 ^ 32)) by (reflexivity || lia). apply IZR_le. lia. }
  rewrite EA in EL. set (v := lm_log2 lm (Babs (f64_ofZ n))) in *.
  assert (B32 : bpow radix2 (-40) < bpow radix2 (-32)) by (apply bpow_lt; lia). apply Rabs_le_inv in EL.
  destruct (nearbyint_fin mode_DN v FL) as [F1 E1]. cbn [round_mode] in E1.
  rewrite (Zfloor_imp (Z.log2 n)) in E1 by (rewrite plus_IZR; lra).
  assert (RR : rnd (B2R (Bnearbyint mode_DN v) + B2R (f64_ofZ 1)) = IZR (Z.log2 n + 1)) by (rewrite E1, ofZ_B2R by lia; rewrite <- plus_IZR; apply rnd_IZR; lia).
  assert (BB : Rabs (rnd (B2R (Bnearbyint mode_DN v) + B2R (f64_ofZ 1))) < big).
  { rewrite RR. apply Rle_lt_trans with (bpow radix2 53); [apply IZR_le_bpow; lia|apply bpow_lt; lia]. }
  destruct (Bplus_fin _ _ F1 (ofZ_fin 1 ltac:(lia)) BB) as [F2 E2]. unfold as_i32. cbn [F64 ncast]. rewrite cast_fin by exact F2. rewrite E2, RR, Ztrunc_IZR. lia.
Qed.

(** ** Lists as tables *)
Lemma nth_rep {A} (z : A) k m : nth m (repeat z k) z = z.
Proof. revert m. induction k; destruct m; cbn [repeat nth]; auto. Qed.
Lemma nth_resize_any {A} (z : A) (l : list A) n i : (Z.of_nat i < n)%Z -> nth i (resize l n z) z = nth i l z.
Proof.
  intros Hi. unfold resize. destruct (Nat.lt_ge_cases i (List.length l)) as [L|L].
  - rewrite app_nth1 by (rewrite firstn_length; lia).
    rewrite <- (firstn_skipn (Z.to_nat n) l) at 2. rewrite app_nth1 by (rewrite firstn_length; lia). reflexivity.
  - rewrite app_nth2 by (rewrite firstn_length; lia). rewrite (nth_overflow l) by lia. apply nth_rep.
Qed.
Lemma nth_pad_any {A} (z : A) (l : list A) k i : nth i (l ++ repeat z k) z = nth i l z.
Proof.
  destruct (Nat.lt_ge_cases i (List.length l)) as [L|L]; [rewrite app_nth1 by auto; reflexivity|].
  rewrite app_nth2, (nth_overflow l) by auto. apply nth_rep.
Qed.
Lemma tab_any {A} (z : A) (l : list A) (f : nat -> A) n : List.length l = n -> (forall i, (i < n)%nat -> nth i l z = f i) -> l = map f (seq 0 n).
Proof. intros L H. rewrite (list_tab l z), L. apply map_ext_in. intros i Hi. apply in_seq in Hi. apply H. lia. Qed.
Lemma nth_tab_any {A} (z : A) (f : nat -> A) n i : (i < n)%nat -> nth i (map f (seq 0 n)) z = f i.
Proof. intros H. rewrite (nth_indep _ z (f O)) by (rewrite map_length, seq_length; auto). rewrite map_nth, seq_nth; auto. Qed.
Lemma nth_exact (s : list f64) i : nth i (values s) 0 = B2R (nth i s (f64_ofZ 0)).
Proof. unfold values. change 0 with (B2R (f64_ofZ 0)) at 1. apply (map_nth (fun x : f64 => B2R x)). Qed.
Lemma zlen_exact s : zlen (values s) = zlen s.
Proof. unfold values, zlen. rewrite map_length. reflexivity. Qed.
Lemma sum_tab (s : list f64) n : (List.length s <= n)%nat -> Sg n (fun i => Rabs (B2R (nth i s (f64_ofZ 0)))) = magnitude s.
Proof.
  intros H. replace n with (List.length s + (n - List.length s))%nat by lia. rewrite Sg_add.
  rewrite (Sg_zero (n - _)); [|intros k Hk; rewrite nth_overflow by lia; rewrite ofZ_B2R by lia; apply Rabs_R0].
  unfold Sg, magnitude. rewrite Rplus_0_r. transitivity (Rsum (map (fun x : f64 => Rabs (B2R x)) (map (fun i => nth i s (f64_ofZ 0)) (seq 0 (List.length s))))); [rewrite map_map; reflexivity|]. rewrite <- list_tab. reflexivity.
Qed.
Lemma magnitude_pos s : 0 <= magnitude s.
Proof. unfold magnitude. induction s as [|x t IH]; [cbn; unfold Rsum; cbn; lra|]. cbn [map]. rewrite Rsum_cons. pose proof (Rabs_pos (B2R x)). lra. Qed.
Lemma Sg_abs n f : Rabs (Sg n f) <= Sg n (fun k => Rabs (f k)).
Proof. induction n; [rewrite !Sg_0, Rabs_R0; lra|]. rewrite !Sg_S. eapply Rle_trans; [apply Rabs_triang|]. lra. Qed.
Lemma term_bnd a b x : Rabs (a * cos x + b * sin x) <= Rabs a + Rabs b.
Proof.
  eapply Rle_trans; [apply Rabs_triang|]. rewrite !Rabs_mult. pose proof (COS_bound x). pose proof (SIN_bound x).
  assert (Rabs (cos x) <= 1) by (apply Rabs_le; lra). assert (Rabs (sin x) <= 1) by (apply Rabs_le; lra). pose proof (Rabs_pos a). pose proof (Rabs_pos b). nra.
Qed.
Lemma dft_bnd inv n g k : Rabs (dft_re inv n g k) <= Sg n (fun j => Rabs (fst (g j)) + Rabs (snd (g j))) /\
  Rabs (dft_im inv n g k) <= Sg n (fun j => Rabs (fst (g j)) + Rabs (snd (g j))).
Proof.
  split; (eapply Rle_trans; [apply Sg_abs|]; apply Sg_le; intros j Hj).
  - eapply Rle_trans; [apply term_bnd|]. rewrite (Rabs_mult _ (snd (g j))). assert (Q : Rabs (if inv then -1 else 1) = 1) by (destruct inv; unfold Rabs; destruct Rcase_abs; lra). rewrite Q. lra.
  - rewrite Rplus_comm. eapply Rle_trans; [apply term_bnd|]. rewrite (Rabs_mult _ (fst (g j))). assert (Q : Rabs (if inv then 1 else -1) = 1) by (destruct inv; unfold Rabs; destruct Rcase_abs; lra). rewrite Q. lra.
Qed.
Lemma dft_diff inv n g g' k e : (forall j, (j < n)%nat -> Rabs (fst (g j) - fst (g' j)) <= e /\ Rabs (snd (g j) - snd (g' j)) <= e) ->
  Rabs (dft_re inv n g k - dft_re inv n g' k) <= INR n * (2 * e).
Proof.
  intros H. replace (dft_re inv n g k - dft_re inv n g' k) with (dft_re inv n (fun j => (fst (g j) - fst (g' j), snd (g j) - snd (g' j))) k).
  - eapply Rle_trans; [apply (dft_bnd inv n _ k)|]. rewrite <- Sg_const. apply Sg_le. intros j Hj. cbn [fst snd]. destruct (H j Hj). lra.
  - unfold dft_re. rewrite <- Sg_minus. apply Sg_ext. intros j Hj. cbn [fst snd]. ring.
Qed.

Lemma dft_re_ext inv n g g' k : (forall j, g j = g' j) -> dft_re inv n g k = dft_re inv n g' k.
Proof. intros H. unfold dft_re. apply Sg_ext. intros j _. rewrite H. reflexivity. Qed.

(** ** One product *)
Section Prod.
Variables (S1 S2 : R).
Hypotheses (P1 : 0 <= S1 <= bpow radix2 50) (P2 : 0 <= S2 <= bpow radix2 50).
Notation T := (S1 * S2).
Definition near1 (S : R) (x : f64) (X : R) : Prop := is_finite x = true /\ Rabs X <= S /\ Rabs (B2R x - X) <= dd * S + hh.
Lemma b50 : bpow radix2 50 = 1125899906842624. Proof. apply (bp 50); reflexivity || lia. Qed.
Lemma T_bnd : 0 <= T <= bpow radix2 100.
Proof.
  change 100%Z with (50 + 50)%Z. rewrite bpow_plus. split; [nra|]. apply Rmult_le_compat; lra.
Qed.
Definition E1 : R := 4 * dd * T + 18014398509481984 * hh.
Definition E2 : R := 9 * dd * T + 72057594037927936 * hh.
Lemma mult_near x y X Y : near1 S1 x X -> near1 S2 y Y ->
  is_finite (Bmult mode_NE x y) = true /\ Rabs (X * Y) <= T /\ Rabs (B2R (Bmult mode_NE x y) - X * Y) <= E1.
Proof.
  intros (Fx & Bx & Ex) (Fy & By & Ey). pose proof hh_pos as H0. pose proof hh_tiny as H1. pose proof T_bnd as TB. rewrite b50 in P1, P2.
  pose proof dd_val as DV. pose proof uu_val as UV.
  assert (XY : Rabs (X * Y) <= T) by (rewrite Rabs_mult; apply Rmult_le_compat; auto; apply Rabs_pos).
  set (ex := B2R x - X) in *. set (ey := B2R y - Y) in *.
  assert (D : Rabs (B2R x * B2R y - X * Y) <= 3 * dd * T + 9007199254740992 * hh).
  { replace (B2R x * B2R y - X * Y) with (ex * Y + ex * ey + X * ey) by (unfold ex, ey; ring).
    eapply Rle_trans; [apply Rabs_triang|]. eapply Rle_trans; [apply Rplus_le_compat_r, Rabs_triang|]. rewrite !Rabs_mult.
    pose proof (Rabs_pos ex). pose proof (Rabs_pos ey). pose proof (Rabs_pos X). pose proof (Rabs_pos Y).
    assert (A1 : Rabs ex * Rabs Y <= (dd * S1 + hh) * S2) by (apply Rmult_le_compat; auto).
    assert (A2 : Rabs ex * Rabs ey <= (dd * S1 + hh) * (dd * S2 + hh)) by (apply Rmult_le_compat; auto).
    assert (A3 : Rabs X * Rabs ey <= S1 * (dd * S2 + hh)) by (apply Rmult_le_compat; auto).
    assert (A4 : (dd * S1 + hh) * (dd * S2 + hh) <= dd * T + hh * (S1 + S2 + 1)).
    { replace ((dd * S1 + hh) * (dd * S2 + hh)) with (dd * dd * T + hh * (dd * S1 + dd * S2 + hh)) by ring. apply Rplus_le_compat.
      - apply Rmult_le_compat_r; [lra|]. rewrite DV. lra.
      - apply Rmult_le_compat_l; [lra|]. rewrite DV. lra. }
    assert (A5 : hh * (S1 + S2 + 1) <= hh * 2251799813685249) by (apply Rmult_le_compat_l; lra).
    assert (A6 : hh * S2 <= hh * 1125899906842624) by (apply Rmult_le_compat_l; lra).
    assert (A7 : S1 * hh <= hh * 1125899906842624) by (rewrite Rmult_comm; apply Rmult_le_compat_l; lra).
    nra. }
  assert (MB : Rabs (B2R x * B2R y) <= T + (3 * dd * T + 9007199254740992 * hh)).
  { replace (B2R x * B2R y) with (X * Y + (B2R x * B2R y - X * Y)) by ring. eapply Rle_trans; [apply Rabs_triang|]. lra. }
  destruct (Bmult_fin x y Fx Fy) as [F E].
  { apply no_over. eapply Rle_trans; [exact MB|]. apply Rle_trans with (2 * bpow radix2 100 + 1); [rewrite DV; lra|].
    apply Rle_trans with (bpow radix2 102); [change 102%Z with (2 + 100)%Z; rewrite bpow_plus; change (bpow radix2 2) with 4; pose proof (bpow_le radix2 0 100 ltac:(lia)); change (bpow radix2 0) with 1 in *; lra|apply bpow_le; lia]. }
  split; [exact F|]. split; [exact XY|]. rewrite E. pose proof (rnd_any (B2R x * B2R y)) as RA.
  replace (rnd (B2R x * B2R y) - X * Y) with ((rnd (B2R x * B2R y) - B2R x * B2R y) + (B2R x * B2R y - X * Y)) by ring.
  eapply Rle_trans; [apply Rabs_triang|]. unfold E1. rewrite DV, UV in *. lra.
Qed.
Lemma plus_near x y X Y : is_finite x = true -> is_finite y = true -> Rabs X <= T -> Rabs Y <= T -> Rabs (B2R x - X) <= E1 -> Rabs (B2R y - Y) <= E1 ->
  is_finite (Bplus mode_NE x y) = true /\ Rabs (X + Y) <= 2 * T /\ Rabs (B2R (Bplus mode_NE x y) - (X + Y)) <= E2.
Proof.
  intros Fx Fy BX BY Ex Ey. pose proof hh_pos as H0. pose proof hh_tiny as H1. pose proof T_bnd as TB. pose proof dd_val as DV. pose proof uu_val as UV.
  assert (S : Rabs (X + Y) <= 2 * T) by (eapply Rle_trans; [apply Rabs_triang|]; lra).
  assert (D : Rabs (B2R x + B2R y - (X + Y)) <= 2 * E1).
  { replace (B2R x + B2R y - (X + Y)) with ((B2R x - X) + (B2R y - Y)) by ring. eapply Rle_trans; [apply Rabs_triang|]. lra. }
  assert (MB : Rabs (B2R x + B2R y) <= 2 * T + 2 * E1).
  { replace (B2R x + B2R y) with ((X + Y) + (B2R x + B2R y - (X + Y))) by ring. eapply Rle_trans; [apply Rabs_triang|]. lra. }
  destruct (Bplus_fin x y Fx Fy) as [F E].
  { apply no_over. eapply Rle_trans; [exact MB|]. unfold E1. apply Rle_trans with (3 * bpow radix2 100 + 1); [rewrite DV; lra|].
    apply Rle_trans with (bpow radix2 102); [change 102%Z with (2 + 100)%Z; rewrite bpow_plus; change (bpow radix2 2) with 4; pose proof (bpow_le radix2 0 100 ltac:(lia)); change (bpow radix2 0) with 1 in *; lra|apply bpow_le; lia]. }
  split; [exact F|]. split; [exact S|]. rewrite E. pose proof (rnd_any (B2R x + B2R y)) as RA.
  replace (rnd (B2R x + B2R y) - (X + Y)) with ((rnd (B2R x + B2R y) - (B2R x + B2R y)) + (B2R x + B2R y - (X + Y))) by ring.
  eapply Rle_trans; [apply Rabs_triang|]. unfold E2, E1 in *. rewrite DV, UV in *. lra.
Qed.
Lemma minus_near x y X Y : is_finite x = true -> is_finite y = true -> Rabs X <= T -> Rabs Y <= T -> Rabs (B2R x - X) <= E1 -> Rabs (B2R y - Y) <= E1 ->
  is_finite (Bminus mode_NE x y) = true /\ Rabs (X - Y) <= 2 * T /\ Rabs (B2R (Bminus mode_NE x y) - (X - Y)) <= E2.
Proof.
  intros Fx Fy BX BY Ex Ey. rewrite Bminus_opp. apply plus_near; auto.
  - rewrite is_finite_Bopp. exact Fy.
  - rewrite Rabs_Ropp. exact BY.
  - rewrite B2R_Bopp. replace (- B2R y - - Y) with (- (B2R y - Y)) by ring. rewrite Rabs_Ropp. exact Ey.
Qed.
Lemma cmul_near lm a b c d A B C D : near1 S1 a A -> near1 S1 b B -> near1 S2 c C -> near1 S2 d D ->
  let z := cmul (N:=F64 lm) (a, b) (cconj (N:=F64 lm) (c, d)) in
  is_finite (fst z : f64) = true /\ is_finite (snd z : f64) = true /\
  Rabs (A * C - B * - D) <= 2 * T /\ Rabs (A * - D + B * C) <= 2 * T /\
  Rabs (B2R (fst z : f64) - (A * C - B * - D)) <= E2 /\ Rabs (B2R (snd z : f64) - (A * - D + B * C)) <= E2.
Proof.
  intros Ha Hb Hc Hd z. assert (Hd' : near1 S2 (Bopp d) (- D)).
  { destruct Hd as (F & B1 & E). split; [rewrite is_finite_Bopp; exact F|]. split; [rewrite Rabs_Ropp; exact B1|]. rewrite B2R_Bopp. replace (- B2R d - - D) with (- (B2R d - D)) by ring. rewrite Rabs_Ropp. exact E. }
  destruct (mult_near a c A C Ha Hc) as (F1 & M1 & N1). destruct (mult_near b (Bopp d) B (- D) Hb Hd') as (F2 & M2 & N2).
  destruct (mult_near a (Bopp d) A (- D) Ha Hd') as (F3 & M3 & N3). destruct (mult_near b c B C Hb Hc) as (F4 & M4 & N4).
  destruct (minus_near _ _ _ _ F1 F2 M1 M2 N1 N2) as (G1 & K1 & Q1). destruct (plus_near _ _ _ _ F3 F4 M3 M4 N3 N4) as (G2 & K2 & Q2).
  cbn in z. subst z. cbn [fst snd]. repeat split; assumption.
Qed.
End Prod.

(** ** The transforms *)
Definition zz : f64 := f64_ofZ 0.
Lemma zz0 : B2R zz = 0. Proof. apply ofZ_B2R. lia. Qed.
Lemma forward_F lm (m : FftManager (F64 lm)) (s : list f64) points :
  (zlen s <= points <= fft_size m)%Z ->
  forward_1d_from_points m s points = Ok (lm_fft lm false (map (fun i => (nth i s zz, zz)) (seq 0 (Z.to_nat (fft_size m))))).
Proof.
  intros H. unfold forward_1d_from_points. change (num (F64 lm)) with f64. destruct (Z.leb_spec (zlen s) points); [|lia].
  unfold forward_1d_from_matrix, freq_from_time_domain. cbn [F64 nfft nofZ]. do 2 f_equal. unfold to_complex.
  assert (E : resize (s ++ repeat zz (Z.to_nat (points - zlen s))) (fft_size m) zz = map (fun i => nth i s zz) (seq 0 (Z.to_nat (fft_size m)))).
  { apply (tab_any zz).
    - assert (G := resize_length (s ++ repeat zz (Z.to_nat (points - zlen s))) (fft_size m) zz). pose proof (zlen_nonneg s). unfold zlen in *. lia.
    - intros i Hi. rewrite nth_resize_any by lia. apply nth_pad_any. }
  fold zz. change (num (F64 lm)) with f64. rewrite E, map_map. reflexivity.
Qed.
Definition sqf (s : list f64) (j : nat) : R * R := (B2R (nth j s zz), 0).
Lemma fft_near lm (s : list f64) n k : fft_close lm -> (List.length s <= n)%nat -> (1 <= Z.of_nat n <= 2 ^ 32)%Z ->
  Forall (fun x => is_finite x = true) s -> magnitude s <= bpow radix2 50 ->
  let f := lm_fft lm false (map (fun i => (nth i s zz, zz)) (seq 0 n)) in
  List.length f = n /\ ((k < n)%nat ->
  near1 (magnitude s) (fst (nth k f (zz, zz))) (dft_re false n (sqf s) k) /\ near1 (magnitude s) (snd (nth k f (zz, zz))) (dft_im false n (sqf s) k)).
Proof.
  intros FC L N HF HM f. set (l := map (fun i => (nth i s zz, zz)) (seq 0 n)) in *.
  assert (LL : List.length l = n) by (unfold l; rewrite map_length, seq_length; reflexivity).
  assert (SZ : size1 l = magnitude s).
  { rewrite <- (sum_tab s n L). unfold size1, l. rewrite map_map. cbn [fst snd]. unfold Sg. f_equal. apply map_ext. intros i. rewrite zz0, Rabs_R0. fold zz. ring. }
  destruct (FC false l) as [FL FK].
  { assert (ZL : zlen l = Z.of_nat n) by (rewrite <- LL; reflexivity). rewrite ZL. exact N. }
  { apply Forall_forall. intros z Hz. unfold l in Hz. apply in_map_iff in Hz as (i & <- & _). cbn [fst snd]. split; [|apply ofZ_fin; lia].
    destruct (Nat.lt_ge_cases i (List.length s)) as [I|I]; [rewrite Forall_forall in HF; apply HF, nth_In; exact I|rewrite nth_overflow by exact I; apply ofZ_fin; lia]. }
  { rewrite SZ. eapply Rle_trans; [exact HM|]. apply bpow_le. lia. }
  split; [unfold f; rewrite FL; exact LL|]. intros Hk. rewrite LL in FK. specialize (FK k Hk). cbv zeta in FK. fold f zz in FK.
  assert (CV : map cval l = map (sqf s) (seq 0 n)).
  { unfold l. rewrite map_map. apply map_ext. intros i. unfold cval, sqf. cbn [fst snd]. rewrite zz0. reflexivity. }
  rewrite CV, dft_tab, nth_tab_any in FK by exact Hk. cbn [fst snd] in FK. rewrite SZ in FK. destruct FK as (F1 & F2 & D1 & D2).
  destruct (dft_bnd false n (sqf s) k) as [B1 B2].
  assert (SS : Sg n (fun j => Rabs (fst (sqf s j)) + Rabs (snd (sqf s j))) = magnitude s).
  { rewrite <- (sum_tab s n L). apply Sg_ext. intros j _. unfold sqf. cbn [fst snd]. rewrite Rabs_R0. fold zz. ring. }
  rewrite SS in B1, B2. split; (split; [assumption|]; split; assumption).
Qed.
Lemma circ_bnd n (s1 s2 : list f64) m : (List.length s1 <= n)%nat -> (List.length s2 <= n)%nat ->
  Rabs (circ n (values s1) (values s2) m) <= magnitude s1 * magnitude s2.
Proof.
  intros L1 L2. unfold circ. rewrite <- (sum_tab s1 n L1), <- (sum_tab s2 n L2). rewrite <- Sg_scal_r.
  eapply Rle_trans; [apply Sg_abs|]. apply Sg_le. intros a Ha. rewrite <- Sg_scal. eapply Rle_trans; [apply Sg_abs|]. apply Sg_le. intros b Hb.
  rewrite !nth_exact. pose proof (Rabs_pos (B2R (nth a s1 (f64_ofZ 0)))). pose proof (Rabs_pos (B2R (nth b s2 (f64_ofZ 0)))).
  destruct (_ =? 0)%Z; [rewrite Rabs_mult; lra|rewrite Rabs_R0; nra].
Qed.
Definition EE (T : R) : R := 24 * dd * T + 1152921504606846976 * hh.
Lemma nth_firstn {A} (z : A) : forall (l : list A) k j, (j < k)%nat -> nth j (firstn k l) z = nth j l z.
Proof. induction l; intros [|k] [|j] H; cbn; auto; try lia. apply IHl. lia. Qed.
Lemma nth_skipn {A} (z : A) : forall (l : list A) k j, nth j (skipn k l) z = nth (k + j) l z.
Proof. induction l; intros [|k] j; cbn; auto. destruct j; auto. Qed.
Lemma pointwise_F pf lm (s1 s2 : list f64) : fft_close lm -> log2_close lm ->
  Forall (fun x => is_finite x = true) s1 -> Forall (fun x => is_finite x = true) s2 ->
  magnitude s1 <= bpow radix2 50 -> magnitude s2 <= bpow radix2 50 ->
  let L := Z.max (zlen s1) (zlen s2) in (2 <= L <= 2 ^ 30)%Z ->
  let e := (Z.log2 (2 * L - 1) + 1)%Z in let w := Z.to_nat (2 ^ e) in let n := Z.to_nat (2 ^ Z.max e 5) in
  exists pw : list f64, calculate_inverse_fft_pointwise_product (N:=F64 lm) pf s1 s2 = Ok pw /\ List.length pw = w /\
    forall m, (m < w)%nat -> is_finite (nth m pw zz) = true /\
      Rabs (B2R (nth m pw zz) - circ n (values s1) (values s2) m) <= EE (magnitude s1 * magnitude s2).
Proof.
  intros FC LC F1 F2 M1 M2 L HL e w n. unfold calculate_inverse_fft_pointwise_product. change (num (F64 lm)) with f64. fold L.
  assert (B1 : (zlen s1 <= L)%Z) by (unfold L; lia). assert (B2 : (zlen s2 <= L)%Z) by (unfold L; lia).
  assert (R1 := resize_length s1 L zz ltac:(lia)). assert (R2 := resize_length s2 L zz ltac:(lia)).
  change (nofZ (F64 lm) 0) with zz. rewrite R1. rewrite usub_ok by lia. cbn [bind].
  replace (L * 2 - 1)%Z with (2 * L - 1)%Z by ring.
  change (nofZ (F64 lm) (2 * L - 1)) with (f64_ofZ (2 * L - 1)).
  assert (OD : Z.odd (2 * L - 1) = true) by (rewrite Z.odd_sub, Z.odd_mul; reflexivity).
  rewrite frexp_F by (auto; lia). fold e.
  assert (He : (1 <= e < 32)%Z).
  { unfold e. assert (Z.log2 (2 * L - 1) < 31)%Z by (apply Z.log2_lt_pow2; lia). pose proof (Z.log2_nonneg (2 * L - 1)). lia. }
  assert (He2 : (2 * L - 1 < 2 ^ e)%Z). { unfold e. rewrite Z.add_1_r. apply Z.log2_spec. lia. }
  set (f := Z.max e 5) in *. assert (P32 : (2 ^ 5 <= 2 ^ f <= 2 ^ 31)%Z) by (split; apply Z.pow_le_mono_r; lia).
  assert (EF : (2 ^ e <= 2 ^ f)%Z) by (apply Z.pow_le_mono_r; lia).
  assert (E0 : (1 <= 2 ^ e)%Z) by (change 1%Z with (2 ^ 0)%Z; apply Z.pow_le_mono_r; lia).
  assert (MX : Z.max (2 ^ e) 32 = (2 ^ f)%Z) by (unfold f; destruct (Z.max_spec e 5) as [[A ->]|[A ->]]; [assert (2 ^ e <= 2 ^ 5)%Z by (apply Z.pow_le_mono_r; lia); lia|assert (2 ^ 5 <= 2 ^ e)%Z by (apply Z.pow_le_mono_r; lia); lia]).
  destruct (Z.leb_spec 0 e); [|lia]. destruct (Z.ltb_spec e 64); [|lia]. cbn [andb].
  unfold new_fft. rewrite npt_pow by lia. cbn [bind]. unfold MIN_FFT_SIZE. rewrite MX.
  set (M := @Build_FftManager (F64 lm) (2 ^ f) (ndiv (F64 lm) (nofZ (F64 lm) 1) (nofZ (F64 lm) (2 ^ f))) (2 ^ e)).
  unfold calculate_fft_pointwise_product.
  rewrite !forward_F by (cbn [M fft_size]; rewrite ?R1, ?R2; lia). cbn [bind]. change (fft_size M) with (2 ^ f)%Z. fold n.
  assert (TT : forall s, (zlen s <= L)%Z -> map (fun i => (nth i (resize s L zz) zz, zz)) (seq 0 n) = map (fun i => (nth i s zz, zz)) (seq 0 n)).
  { intros s Hs. apply map_ext. intros j. f_equal. destruct (Z_lt_ge_dec (Z.of_nat j) L); [apply nth_resize_any; lia|].
    rewrite (nth_overflow s) by (unfold zlen in Hs; lia). apply nth_overflow. assert (G := resize_length s L zz ltac:(lia)). unfold zlen in G. lia. }
  rewrite !TT by auto.
  assert (NN : Z.of_nat n = (2 ^ f)%Z) by (unfold n; lia).
  assert (L1 : (List.length s1 <= n)%nat) by (unfold zlen in B1; lia). assert (L2 : (List.length s2 <= n)%nat) by (unfold zlen in B2; lia).
  set (f1 := lm_fft lm false (map (fun i => (nth i s1 zz, zz)) (seq 0 n))). set (f2 := lm_fft lm false (map (fun i => (nth i s2 zz, zz)) (seq 0 n))).
  assert (LF1 : List.length f1 = n) by exact (proj1 (fft_near lm s1 n 0 FC L1 ltac:(lia) F1 M1)).
  assert (LF2 : List.length f2 = n) by exact (proj1 (fft_near lm s2 n 0 FC L2 ltac:(lia) F2 M2)).
  assert (PX : exists P : list (f64 * f64), P = map (fun k => (cmul (N:=F64 lm) (nth k f1 (zz, zz)) (cconj (N:=F64 lm) (nth k f2 (zz, zz))) : f64 * f64)) (seq 0 n)) by eauto.
  destruct PX as [P PT].
  match goal with |- context [inverse_1d_conj_sym M ?q] => assert (PQ : q = P) end.
  { rewrite PT. rewrite (list_tab f1 (zz, zz)) at 1. rewrite (list_tab f2 (zz, zz)) at 1. rewrite LF1, LF2, map_map. change (num (F64 lm)) with f64.
    rewrite (combine_tab2 (fun i => nth i f1 (zz, zz)) (fun i => cconj (N:=F64 lm) (nth i f2 (zz, zz)))), map_map. reflexivity. }
  rewrite PQ. clear PQ.
  assert (PL : List.length P = n) by (rewrite PT, map_length, seq_length; reflexivity).
  set (T := magnitude s1 * magnitude s2). pose proof (magnitude_pos s1) as MP1. pose proof (magnitude_pos s2) as MP2.
  set (X := dft_re false n (sqf s1)). set (X' := dft_im false n (sqf s1)). set (Y := dft_re false n (sqf s2)). set (Y' := dft_im false n (sqf s2)).
  set (g' := fun k => (X k * Y k - X' k * - Y' k, X k * - Y' k + X' k * Y k)).
  set (g := fun k => cval (nth k P (zz, zz))).
  assert (G : forall k, (k < n)%nat -> is_finite (fst (nth k P (zz, zz))) = true /\ is_finite (snd (nth k P (zz, zz))) = true /\
     Rabs (fst (g' k)) <= 2 * T /\ Rabs (snd (g' k)) <= 2 * T /\ Rabs (fst (g k) - fst (g' k)) <= E2 (magnitude s1) (magnitude s2) /\ Rabs (snd (g k) - snd (g' k)) <= E2 (magnitude s1) (magnitude s2)).
  { intros k Hk. destruct (fft_near lm s1 n k FC L1 ltac:(lia) F1 M1) as [_ A]. destruct (A Hk) as [A1 A2]. destruct (fft_near lm s2 n k FC L2 ltac:(lia) F2 M2) as [_ C]. destruct (C Hk) as [C1 C2].
    fold f1 in A1, A2. fold f2 in C1, C2.
    pose proof (cmul_near (magnitude s1) (magnitude s2) (conj MP1 M1) (conj MP2 M2) lm _ _ _ _ _ _ _ _ A1 A2 C1 C2) as Q. cbv zeta in Q.
    unfold g, cval. rewrite PT. rewrite (nth_tab_any (zz, zz)) by exact Hk. cbn [fst snd]. rewrite <- !surjective_pairing in Q. exact Q. }
  pose proof (T_bnd (magnitude s1) (magnitude s2) (conj MP1 M1) (conj MP2 M2)) as TB. fold T in TB.
  pose proof hh_pos as HP. pose proof hh_tiny as HT. pose proof dd_val as DV. pose proof uu_val as UV.
  assert (E2V : E2 (magnitude s1) (magnitude s2) = 9 * dd * T + 72057594037927936 * hh) by reflexivity.
  assert (IN : 32 <= INR n <= 2147483648). { rewrite INR_IZR_INZ, NN. split; [apply (IZR_le 32)|apply (IZR_le _ (2 ^ 31))]; lia. }
  assert (PS : size1 P <= INR n * (5 * T + 288230376151711744 * hh)).
  { unfold size1. rewrite (list_tab P (zz, zz)), PL, map_map. fold (Sg n (fun k => Rabs (B2R (fst (nth k P (zz, zz)))) + Rabs (B2R (snd (nth k P (zz, zz)))))).
    rewrite <- Sg_const. apply Sg_le. intros k Hk. destruct (G k Hk) as (_ & _ & Q1 & Q2 & Q3 & Q4). change (fst (g k)) with (B2R (fst (nth k P (zz, zz)))) in Q3. change (snd (g k)) with (B2R (snd (nth k P (zz, zz)))) in Q4.
    rewrite E2V, DV in Q3, Q4.
    pose proof (Rabs_triang (fst (g' k)) (B2R (fst (nth k P (zz, zz))) - fst (g' k))) as V1. pose proof (Rabs_triang (snd (g' k)) (B2R (snd (nth k P (zz, zz))) - snd (g' k))) as V2.
    replace (fst (g' k) + (B2R (fst (nth k P (zz, zz))) - fst (g' k))) with (B2R (fst (nth k P (zz, zz)))) in V1 by ring.
    replace (snd (g' k) + (B2R (snd (nth k P (zz, zz))) - snd (g' k))) with (B2R (snd (nth k P (zz, zz)))) in V2 by ring.
    eapply Rle_trans; [apply Rplus_le_compat; [exact (Rle_trans _ _ _ V1 (Rplus_le_compat _ _ _ _ Q1 Q3))|exact (Rle_trans _ _ _ V2 (Rplus_le_compat _ _ _ _ Q2 Q4))]|]. lra. }
  assert (B100 : 1 <= bpow radix2 100) by (change 1 with (bpow radix2 0); apply bpow_le; lia).
  destruct (FC true P) as [FL FK].
  { assert (ZL : zlen P = Z.of_nat n) by (rewrite <- PL; reflexivity). rewrite ZL. lia. }
  { apply Forall_forall. intros z Hz. apply (In_nth _ _ (zz, zz)) in Hz as (k & Hk & <-). rewrite PL in Hk. destruct (G k Hk) as (Q1 & Q2 & _). split; assumption. }
  { eapply Rle_trans; [exact PS|]. apply Rle_trans with (bpow radix2 31 * (8 * bpow radix2 100)).
    - apply Rmult_le_compat; [lra|lra|rewrite (bp 31 (2 ^ 31)) by (reflexivity || lia); apply IN|lra].
    - change 8 with (bpow radix2 3). rewrite <- !bpow_plus. apply bpow_le. lia. }
  rewrite PL in FL, FK.
  unfold inverse_1d_conj_sym, inverse_1d, time_from_freq_domain. change (fft_size M) with (2 ^ f)%Z.
  assert (ZP : zlen P = (2 ^ f)%Z) by (unfold zlen; rewrite PL; exact NN). change (num (F64 lm)) with f64 in *.
  change (cplx (F64 lm)) with (f64 * f64)%type. rewrite ZP, Z.eqb_refl. cbn [bind]. unfold apply_reverse_fft_scaling.
  set (sc := inverse_fft_scale M). change (nfft (F64 lm) true P) with (lm_fft lm true P). change (samples_per_channel M) with (2 ^ e)%Z.
  assert (OX : exists out : list f64, out = map (fun x : f64 * f64 => Bmult mode_NE (fst x) sc) (lm_fft lm true P)) by eauto.
  destruct OX as [out OT].
  match goal with |- context [zslice ?q 0 (2 ^ e)] => assert (OQ : q = out) by (rewrite OT; unfold real_parts; rewrite map_map; reflexivity) end.
  rewrite OQ. clear OQ.
  assert (LO : List.length out = n) by (rewrite OT, map_length; exact FL).
  assert (ZS : zslice out 0 (2 ^ e) = Ok (firstn w out)).
  { apply zslice_ok. split; [unfold zlen; rewrite LO; lia|]. rewrite Z.sub_0_r. reflexivity. }
  rewrite ZS. cbn [bind]. exists (firstn w out). split; [f_equal; unfold real_parts, to_complex; rewrite map_map; cbn [fst]; apply map_id|].
  assert (WN : (w <= n)%nat) by (unfold w, n; lia). split; [rewrite firstn_length, LO; lia|].
  (* the scale is exact *)
  assert (SC : is_finite (sc : f64) = true /\ B2R (sc : f64) = / INR n).
  { unfold sc, M. cbn [inverse_fft_scale F64 ndiv nofZ]. 
    destruct (ofZ_exact (2 ^ f) ltac:(lia)) as [Fe Ee]. destruct (ofZ_exact 1 ltac:(lia)) as [Fo Eo].
    assert (V : B2R (f64_ofZ 1) / B2R (f64_ofZ (2 ^ f)) = bpow radix2 (- f)).
    { rewrite Eo, Ee. rewrite bpow_opp. rewrite <- (bp f (2 ^ f)) by (reflexivity || lia). unfold Rdiv. ring. }
    assert (GF : rnd (bpow radix2 (- f)) = bpow radix2 (- f)).
    { apply rnd_id. apply generic_format_bpow. unfold SpecFloat.fexp, SpecFloat.emin. lia. }
    destruct (Bdiv_fin (f64_ofZ 1) (f64_ofZ (2 ^ f)) Fo Fe) as [Fd Ed].
    - rewrite Ee. apply not_0_IZR. lia.
    - rewrite V, GF. rewrite Rabs_pos_eq by apply bpow_ge_0. apply bpow_lt. lia.
    - split; [exact Fd|]. rewrite Ed, V, GF. rewrite bpow_opp, (bp f (2 ^ f)) by (reflexivity || lia). rewrite INR_IZR_INZ, NN. reflexivity. }
  destruct SC as [FS ES].
  intros m Hw. assert (Hm : (m < n)%nat) by lia. rewrite nth_firstn by exact Hw. specialize (FK m Hm). cbv zeta in FK. fold zz in FK. destruct FK as (K1 & _ & K2 & _).
  assert (CV : map cval P = map g (seq 0 n)).
  { rewrite (list_tab P (zz, zz)) at 1. rewrite PL, map_map. reflexivity. }
  rewrite CV, dft_tab, nth_tab_any in K2 by exact Hm. cbn [fst] in K2.
  assert (NO : nth m out zz = Bmult mode_NE (fst (nth m (lm_fft lm true P) (zz, zz))) sc).
  { rewrite OT. rewrite (nth_indep _ zz (Bmult mode_NE (fst (zz, zz)) sc)) by (rewrite map_length, FL; exact Hm).
    rewrite (map_nth (fun x : f64 * f64 => Bmult mode_NE (fst x) sc)). reflexivity. }
  rewrite NO. set (o := fst (nth m (lm_fft lm true P) (zz, zz))) in *.
  pose proof (dft_diff true n g g' m _ (fun j Hj => proj2 (proj2 (proj2 (proj2 (G j Hj)))))) as DD.
  assert (CI : dft_re true n g' m = INR n * circ n (values s1) (values s2) m).
  { pose proof (product_inverse n (fun j => nth j (values s1) 0) (fun j => nth j (values s2) 0) m ltac:(lia)) as Q. cbv zeta in Q.
    unfold circ. rewrite <- Q. apply dft_re_ext. intros j.
    assert (W : forall s k, dft_re false n (fun i => (nth i (values s) 0, 0)) k = dft_re false n (sqf s) k) by (intros s k; unfold dft_re; apply Sg_ext; intros i _; unfold sqf; cbn [fst snd]; rewrite nth_exact; reflexivity).
    assert (W' : forall s k, dft_im false n (fun i => (nth i (values s) 0, 0)) k = dft_im false n (sqf s) k) by (intros s k; unfold dft_im; apply Sg_ext; intros i _; unfold sqf; cbn [fst snd]; rewrite nth_exact; reflexivity).
    rewrite !W, !W'. reflexivity. }
  set (c := circ n (values s1) (values s2) m) in *. pose proof (circ_bnd n s1 s2 m L1 L2) as CB. fold c T in CB.
  assert (I1 : INR n * / INR n = 1) by (apply Rinv_r; lra). assert (I2 : 0 < / INR n) by (apply Rinv_0_lt_compat; lra).
  assert (OE : Rabs (B2R o - INR n * c) <= INR n * (23 * dd * T + 576460752303423488 * hh)).
  { rewrite <- CI. replace (B2R o - dft_re true n g' m) with ((B2R o - dft_re true n g m) + (dft_re true n g m - dft_re true n g' m)) by ring.
    eapply Rle_trans; [apply Rabs_triang|]. fold dd hh in K2. rewrite E2V in DD.
    assert (dd * size1 P <= dd * (INR n * (5 * T + 288230376151711744 * hh))) by (apply Rmult_le_compat_l; [rewrite DV; lra|exact PS]).
    assert (hh <= INR n * hh) by nra.
    assert (Z : dd * (INR n * (5 * T + 288230376151711744 * hh)) <= INR n * (5 * dd * T + 262144 * hh)).
    { replace (dd * (INR n * (5 * T + 288230376151711744 * hh))) with (INR n * (5 * dd * T + dd * 288230376151711744 * hh)) by ring.
      apply Rmult_le_compat_l; [lra|]. apply Rplus_le_compat_l. rewrite DV. lra. }
    replace (INR n * (23 * dd * T + 576460752303423488 * hh)) with (INR n * (5 * dd * T + 262144 * hh) + INR n * hh + INR n * (2 * (9 * dd * T + 72057594037927936 * hh)) + INR n * (432345564227305471 * hh)) by ring.
    assert (0 <= INR n * (432345564227305471 * hh)) by (apply Rmult_le_pos; lra). lra. }
  assert (VE : Rabs (B2R o * B2R (sc : f64) - c) <= 23 * dd * T + 576460752303423488 * hh).
  { rewrite ES. replace (B2R o * / INR n - c) with ((B2R o - INR n * c) * / INR n) by (rewrite Rmult_minus_distr_r; rewrite (Rmult_comm (INR n) c), Rmult_assoc, I1; ring).
    rewrite Rabs_mult, (Rabs_pos_eq (/ INR n)) by lra.
    apply Rmult_le_reg_l with (INR n); [lra|]. rewrite (Rmult_comm (Rabs _) (/ INR n)), <- Rmult_assoc, I1, Rmult_1_l. exact OE. }
  assert (VB : Rabs (B2R o * B2R (sc : f64)) <= T + (23 * dd * T + 576460752303423488 * hh)).
  { replace (B2R o * B2R (sc : f64)) with (c + (B2R o * B2R (sc : f64) - c)) by ring. eapply Rle_trans; [apply Rabs_triang|]. lra. }
  destruct (Bmult_fin o sc K1 FS) as [FO EO].
  { apply no_over. eapply Rle_trans; [exact VB|]. apply Rle_trans with (4 * bpow radix2 100); [rewrite DV; lra|]. change 4 with (bpow radix2 2). rewrite <- bpow_plus. apply bpow_le. lia. }
  split; [exact FO|]. rewrite EO. pose proof (rnd_any (B2R o * B2R (sc : f64))) as RA.
  replace (rnd (B2R o * B2R (sc : f64)) - c) with ((rnd (B2R o * B2R (sc : f64)) - B2R o * B2R (sc : f64)) + (B2R o * B2R (sc : f64) - c)) by ring.
  eapply Rle_trans; [apply Rabs_triang|]. unfold EE. rewrite DV, UV in *. lra.
Qed.

(** ** The search *)
Lemma fin_ltb (x y : f64) : is_finite x = true -> is_finite y = true -> Bltb x y = Rltb (B2R x) (B2R y).
Proof.
  intros Fx Fy. pose proof (is_nan_finite x Fx) as Nx. pose proof (is_nan_finite y Fy) as Ny. destruct (Bltb x y) eqn:E.
  - apply Bltb_true in E as (_ & _ & E). rewrite !ext_finite in E by auto. destruct (Rltb_spec (B2R x) (B2R y)); [reflexivity|contradiction].
  - apply Bltb_false in E; auto. rewrite !ext_finite in E by auto. destruct (Rltb_spec (B2R x) (B2R y)); [lra|reflexivity].
Qed.
Lemma fin_eqb (x y : f64) : is_finite x = true -> is_finite y = true -> Beqb x y = Reqb (B2R x) (B2R y).
Proof.
  intros Fx Fy. pose proof (is_nan_finite x Fx) as Nx. pose proof (is_nan_finite y Fy) as Ny.
  rewrite Beqb_cmp, Bcompare_ext by auto. rewrite !ext_finite by auto. destruct (Rcompare_spec (B2R x) (B2R y)); destruct (Reqb_spec (B2R x) (B2R y)); try reflexivity; lra.
Qed.
Lemma max_by_abs_F lm (l : list f64) : Forall (fun x => is_finite x = true) l -> forall acc : f64, is_finite acc = true ->
  exists b : f64, max_by_abs (N:=F64 lm) acc l = Ok b /\ In b (acc :: l) /\ forall x, In x (acc :: l) -> Rabs (B2R x) <= Rabs (B2R b).
Proof.
  induction 1 as [|y t Fy Ft IH]; intros acc Fa.
  - exists acc. split; [reflexivity|]. split; [left; auto|]. intros x [<-|[]]. lra.
  - cbn [max_by_abs]. unfold ncmp. cbn [F64 nltb nabs neqb].
    assert (FA : is_finite (Babs acc) = true) by (rewrite is_finite_Babs; exact Fa). assert (FY : is_finite (Babs y) = true) by (rewrite is_finite_Babs; exact Fy).
    rewrite !fin_ltb, fin_eqb by auto. rewrite !B2R_Babs.
    assert (C : exists b, max_by_abs (N:=F64 lm) (if Rltb (Rabs (B2R y)) (Rabs (B2R acc)) then acc else y) t = Ok b /\ In b (acc :: y :: t) /\
                forall x, In x (acc :: y :: t) -> Rabs (B2R x) <= Rabs (B2R b)).
    { destruct (Rltb_spec (Rabs (B2R y)) (Rabs (B2R acc))) as [L|L].
      - destruct (IH acc Fa) as (b & E & I & M). exists b. split; auto. split; [destruct I; [left; auto|right; right; auto]|].
        intros x [<-|[<-|Hx]]; [apply M; left; auto| |apply M; right; auto]. assert (Rabs (B2R acc) <= Rabs (B2R b)) by (apply M; left; auto). lra.
      - destruct (IH y Fy) as (b & E & I & M). exists b. split; auto. split; [right; auto|].
        intros x [<-|[<-|Hx]]; [|apply M; left; auto|apply M; right; auto]. assert (Rabs (B2R y) <= Rabs (B2R b)) by (apply M; left; auto). lra. }
    destruct C as (b & E & I & M). exists b. split; auto.
    destruct (Rltb_spec (Rabs (B2R acc)) (Rabs (B2R y))) as [L|L].
    + destruct (Rltb_spec (Rabs (B2R y)) (Rabs (B2R acc))); [lra|]. exact E.
    + destruct (Rltb_spec (Rabs (B2R y)) (Rabs (B2R acc))); [exact E|]. destruct (Reqb_spec (Rabs (B2R acc)) (Rabs (B2R y))); [exact E|lra].
Qed.
Lemma position_F lm (l : list f64) v : Forall (fun x => is_finite x = true) l -> forall i, In v l -> exists k, position_eq (N:=F64 lm) l v i = Some (i + Z.of_nat k)%Z /\
  (k < List.length l)%nat /\ B2R (nth k l zz) = B2R v.
Proof.
  intros HF. assert (Fv : In v l -> is_finite v = true) by (rewrite Forall_forall in HF; apply HF). revert Fv.
  induction HF as [|x t Fx Ft IH]; intros Fv i H; [destruct H|]. specialize (Fv H). cbn [position_eq F64 neqb]. rewrite fin_eqb by auto.
  destruct (Reqb_spec (B2R x) (B2R v)) as [E|D].
  - exists O. cbn [List.length nth]. split; [f_equal; lia|]. split; [lia|]. exact E.
  - destruct H as [->|H]; [congruence|]. destruct (IH (fun _ => Fv) (i + 1)%Z H) as (k & E & Hk & N). exists (S k).
    rewrite E. cbn [List.length nth]. split; [f_equal; lia|]. split; [lia|]. exact N.
Qed.
Lemma search_F pf lm (s1 s2 : list f64) : fft_close lm -> log2_close lm ->
  Forall (fun x => is_finite x = true) s1 -> Forall (fun x => is_finite x = true) s2 ->
  magnitude s1 <= bpow radix2 50 -> magnitude s2 <= bpow radix2 50 ->
  let L := Z.max (zlen s1) (zlen s2) in (2 <= L <= 2 ^ 30)%Z ->
  let e := (Z.log2 (2 * L - 1) + 1)%Z in let n := Z.to_nat (2 ^ Z.max e 5) in
  exists lag, calculate_best_lag (N:=F64 lm) pf s1 s2 = Ok (Some lag) /\ (- (L - 1) <= lag <= L - 1)%Z /\
    forall k, (- (L - 1) <= k <= L - 1)%Z ->
      Rabs (circ n (values s1) (values s2) (Z.to_nat (if (k <? 0)%Z then 2 ^ e + k else k))) <=
      Rabs (circ n (values s1) (values s2) (Z.to_nat (if (lag <? 0)%Z then 2 ^ e + lag else lag))) + (bpow radix2 (-38) * (magnitude s1 * magnitude s2) + bpow radix2 (-880)).
Proof.
  intros FC LC F1 F2 M1 M2 L HL e n. destruct (pointwise_F pf lm s1 s2 FC LC F1 F2 M1 M2 HL) as (pw & EP & LP & HP). fold L in EP, LP, HP.
  fold e in LP, HP. fold n in HP. set (w := Z.to_nat (2 ^ e)) in *.
  assert (He2 : (2 * L - 1 < 2 ^ e)%Z). { unfold e. rewrite Z.add_1_r. apply Z.log2_spec. lia. }
  assert (En : Z.of_nat w = (2 ^ e)%Z) by (unfold w; lia).
  unfold calculate_best_lag. change (num (F64 lm)) with f64. fold L. destruct (Z.eqb_spec L 0); [lia|]. rewrite EP. cbn [bind].
  assert (PL : zlen pw = (2 ^ e)%Z) by (unfold zlen; rewrite LP; exact En).
  change (num (F64 lm)) with f64. rewrite PL.
  rewrite (proj2 (zslice_ok pw (2 ^ e - (L - 1)) (2 ^ e) _)) by (split; [rewrite PL; lia|reflexivity]). cbn [bind].
  rewrite (proj2 (zslice_ok pw 0 (L - 1 + 1) _)) by (split; [rewrite PL; lia|reflexivity]). cbn [bind].
  set (neg := firstn _ (skipn (Z.to_nat (2 ^ e - (L - 1))) pw)). set (pos := firstn _ (skipn (Z.to_nat 0) pw)).
  assert (LN : List.length neg = Z.to_nat (L - 1)). { unfold neg. rewrite firstn_length, skipn_length. lia. }
  assert (LQ : List.length pos = Z.to_nat L). { unfold pos. rewrite firstn_length, skipn_length. lia. }
  set (T := magnitude s1 * magnitude s2) in *.
  set (val := fun k => circ n (values s1) (values s2) (Z.to_nat (if (k <? 0)%Z then 2 ^ e + k else k))).
  assert (NV : forall i, (i < Z.to_nat (2 * L - 1))%nat -> is_finite (nth i (neg ++ pos) zz) = true /\
     Rabs (B2R (nth i (neg ++ pos) zz) - val (Z.of_nat i - (L - 1))%Z) <= EE T).
  { intros i Hi. unfold val.
    assert (IX : let k := (Z.of_nat i - (L - 1))%Z in let j := Z.to_nat (if (k <? 0)%Z then 2 ^ e + k else k) in (j < w)%nat /\ nth i (neg ++ pos) zz = nth j pw zz).
    { cbv zeta. destruct (Z.ltb_spec (Z.of_nat i - (L - 1)) 0) as [A|A].
      - split; [lia|]. rewrite app_nth1 by lia. unfold neg. rewrite nth_firstn by lia. rewrite nth_skipn. f_equal. lia.
      - split; [lia|]. rewrite app_nth2 by lia. rewrite LN. unfold pos. rewrite nth_firstn by lia. rewrite nth_skipn. f_equal. lia. }
    cbv zeta in IX. destruct IX as [Hj ->]. apply HP. exact Hj. }
  assert (LL : List.length (neg ++ pos) = Z.to_nat (2 * L - 1)) by (rewrite app_length, LN, LQ; lia).
  assert (AF : Forall (fun x => is_finite x = true) (neg ++ pos)).
  { apply Forall_forall. intros x Hx. apply (In_nth _ _ zz) in Hx as (i & Hi & <-). rewrite LL in Hi. apply NV. exact Hi. }
  destruct (neg ++ pos) as [|c t] eqn:EL; [cbn [List.length] in LL; lia|].
  destruct (max_by_abs_F lm t (Forall_inv_tail AF) c (Forall_inv AF)) as (b & E & I & M). rewrite E. cbn [bind].
  destruct (position_F lm (c :: t) b AF 0 I) as (k & EK & HK & NK). rewrite EK.
  exists (Z.of_nat k - (L - 1))%Z. split; [f_equal; f_equal; lia|]. split; [lia|].
  intros j Hj. destruct (NV k ltac:(lia)) as [_ VK]. destruct (NV (Z.to_nat (j + (L - 1))) ltac:(lia)) as [_ VJ].
  replace (Z.of_nat (Z.to_nat (j + (L - 1))) - (L - 1))%Z with j in VJ by lia.
  assert (MM : Rabs (B2R (nth (Z.to_nat (j + (L - 1))) (c :: t) zz)) <= Rabs (B2R (nth k (c :: t) zz))).
  { rewrite NK. apply M. apply nth_In. lia. }
  set (u := B2R (nth (Z.to_nat (j + (L - 1))) (c :: t) zz)) in *. set (v := B2R (nth k (c :: t) zz)) in *.
  change (Rabs (val j) <= Rabs (val (Z.of_nat k - (L - 1))%Z) + (bpow radix2 (-38) * T + bpow radix2 (-880))).
  set (cj := val j) in *. set (ck := val (Z.of_nat k - (L - 1))%Z) in *.
  pose proof (Rabs_triang (cj - u) u) as T1. replace (cj - u + u) with cj in T1 by ring. rewrite (Rabs_minus_sym cj u) in T1.
  pose proof (Rabs_triang (v - ck) ck) as T2. replace (v - ck + ck) with v in T2 by ring.
  assert (FE : 2 * EE T <= bpow radix2 (-38) * T + bpow radix2 (-880)).
  { unfold EE. rewrite dd_val. replace (bpow radix2 (-38)) with (/ 274877906944) by (symmetry; apply (bpn 38); reflexivity || lia).
    assert (HH : 2305843009213693952 * hh <= bpow radix2 (-880)).
    { change 2305843009213693952 with (IZR (2 ^ 61)). rewrite <- (bp 61 (2 ^ 61)) by (reflexivity || lia). unfold hh. rewrite <- bpow_plus. apply bpow_le. lia. }
    assert (0 <= T) by (apply Rmult_le_pos; apply magnitude_pos). lra. }
  lra.
Qed.
Lemma best_lag_F pf lm (s1 s2 : list f64) : fft_close lm -> log2_close lm ->
  Forall (fun x => is_finite x = true) s1 -> Forall (fun x => is_finite x = true) s2 ->
  magnitude s1 <= bpow radix2 50 -> magnitude s2 <= bpow radix2 50 ->
  let L := Z.max (zlen s1) (zlen s2) in (9 <= L <= 2 ^ 30)%Z ->
  exists lag, calculate_best_lag (N:=F64 lm) pf s1 s2 = Ok (Some lag) /\ (- (L - 1) <= lag <= L - 1)%Z /\
    forall k, (- (L - 1) <= k <= L - 1)%Z ->
      Rabs (correlation (values s1) (values s2) k) <= Rabs (correlation (values s1) (values s2) lag) + (bpow radix2 (-38) * (magnitude s1 * magnitude s2) + bpow radix2 (-880)).
Proof.
  intros FC LC F1 F2 M1 M2 L HL. destruct (search_F pf lm s1 s2 FC LC F1 F2 M1 M2 ltac:(fold L; lia)) as (lag & E & Hr & M). fold L in E, Hr, M.
  set (e := (Z.log2 (2 * L - 1) + 1)%Z) in *. set (n := Z.to_nat (2 ^ Z.max e 5)) in *.
  assert (He2 : (2 * L - 1 < 2 ^ e)%Z). { unfold e. rewrite Z.add_1_r. apply Z.log2_spec. lia. }
  assert (He5 : (5 <= e)%Z). { unfold e. assert (4 <= Z.log2 (2 * L - 1))%Z by (apply Z.log2_le_pow2; lia). lia. }
  assert (En : Z.of_nat n = (2 ^ e)%Z) by (unfold n; rewrite Z.max_l by lia; lia).
  assert (V : forall k, (- (L - 1) <= k <= L - 1)%Z -> circ n (values s1) (values s2) (Z.to_nat (if (k <? 0)%Z then 2 ^ e + k else k)) = correlation (values s1) (values s2) k).
  { intros k Hk. apply (circ_corr n _ _ L); rewrite ?zlen_exact; try (unfold L; lia); try lia.
    destruct (Z.ltb_spec k 0); rewrite Z2Nat.id by lia.
    - replace (2 ^ e + k - k)%Z with (1 * Z.of_nat n)%Z by lia. apply Z.mod_mul. lia.
    - rewrite Z.sub_diag. apply Z.mod_0_l. lia. }
  exists lag. split; [exact E|]. split; [exact Hr|]. intros k Hk. rewrite <- !V by lia. exact (M k Hk).
Qed.
Lemma short_lag_F pf lm (s1 s2 : list f64) : fft_close lm -> log2_close lm ->
  Forall (fun x => is_finite x = true) s1 -> Forall (fun x => is_finite x = true) s2 ->
  magnitude s1 <= bpow radix2 50 -> magnitude s2 <= bpow radix2 50 ->
  let L := Z.max (zlen s1) (zlen s2) in (2 <= L <= 8)%Z ->
  exists lag, calculate_best_lag (N:=F64 lm) pf s1 s2 = Ok (Some lag) /\ (- (L - 1) <= lag <= L - 1)%Z /\
    forall k, (0 <= k <= L - 1)%Z ->
      Rabs (correlation (values s1) (values s2) k) <= (if (0 <=? lag)%Z then Rabs (correlation (values s1) (values s2) lag) else 0) +
        (bpow radix2 (-38) * (magnitude s1 * magnitude s2) + bpow radix2 (-880)).
Proof.
  intros FC LC F1 F2 M1 M2 L HL. destruct (search_F pf lm s1 s2 FC LC F1 F2 M1 M2 ltac:(fold L; lia)) as (lag & E & Hr & M). fold L in E, Hr, M.
  set (e := (Z.log2 (2 * L - 1) + 1)%Z) in *. set (n := Z.to_nat (2 ^ Z.max e 5)) in *.
  assert (He2 : (2 * L - 1 < 2 ^ e)%Z). { unfold e. rewrite Z.add_1_r. apply Z.log2_spec. lia. }
  assert (He5 : (1 <= e <= 4)%Z). { unfold e. assert (Z.log2 (2 * L - 1) < 4)%Z by (apply Z.log2_lt_pow2; lia). pose proof (Z.log2_nonneg (2 * L - 1)). lia. }
  assert (P32 : (2 ^ e <= 2 ^ 4)%Z) by (apply Z.pow_le_mono_r; lia).
  assert (En : Z.of_nat n = 32%Z) by (unfold n; rewrite Z.max_r by lia; reflexivity).
  assert (VN : forall k, (- (L - 1) <= k < 0)%Z -> circ n (values s1) (values s2) (Z.to_nat (if (k <? 0)%Z then 2 ^ e + k else k)) = 0).
  { intros k Hk. rewrite <- (corr_out (values s1) (values s2) (2 ^ e + k)) by (rewrite ?zlen_exact; unfold L in *; lia).
    apply (circ_corr n _ _ L); rewrite ?zlen_exact; try (unfold L; lia); try lia.
    destruct (Z.ltb_spec k 0); [|lia]. rewrite Z2Nat.id by lia. rewrite Z.sub_diag. apply Z.mod_0_l. lia. }
  assert (VP : forall k, (0 <= k <= L - 1)%Z -> circ n (values s1) (values s2) (Z.to_nat (if (k <? 0)%Z then 2 ^ e + k else k)) = correlation (values s1) (values s2) k).
  { intros k Hk. apply (circ_corr n _ _ L); rewrite ?zlen_exact; try (unfold L; lia); try lia.
    destruct (Z.ltb_spec k 0); [lia|]. rewrite Z2Nat.id by lia. rewrite Z.sub_diag. apply Z.mod_0_l. lia. }
  exists lag. split; [exact E|]. split; [exact Hr|]. intros k Hk. specialize (M k ltac:(lia)). rewrite VP in M by lia.
  destruct (Z.leb_spec 0 lag) as [A|A]; [rewrite VP in M by lia; exact M|]. rewrite VN in M by lia. rewrite Rabs_R0 in M. exact M.
Qed.
Lemma unique_lag_F pf lm (s1 s2 : list f64) k : fft_close lm -> log2_close lm ->
  Forall (fun x => is_finite x = true) s1 -> Forall (fun x => is_finite x = true) s2 ->
  magnitude s1 <= bpow radix2 50 -> magnitude s2 <= bpow radix2 50 ->
  let L := Z.max (zlen s1) (zlen s2) in (9 <= L <= 2 ^ 30)%Z -> (- (L - 1) <= k <= L - 1)%Z ->
  (forall j, (- (L - 1) <= j <= L - 1)%Z -> j <> k ->
    Rabs (correlation (values s1) (values s2) j) + (bpow radix2 (-38) * (magnitude s1 * magnitude s2) + bpow radix2 (-880)) < Rabs (correlation (values s1) (values s2) k)) ->
  calculate_best_lag (N:=F64 lm) pf s1 s2 = Ok (Some k).
Proof.
  intros FC LC F1 F2 M1 M2 L HL Hk H. destruct (best_lag_F pf lm s1 s2 FC LC F1 F2 M1 M2 HL) as (lag & E & R & M). fold L in R, M.
  destruct (Z.eq_dec lag k) as [->|D]; [exact E|]. specialize (H lag R D). specialize (M k Hk). lra.
Qed.
Lemma short_lag_witness_F : exists s1 s2 : list f64,
  Forall (fun x => is_finite x = true) s1 /\ Forall (fun x => is_finite x = true) s2 /\ zlen s1 = 2%Z /\ zlen s2 = 2%Z /\
  forall pf lm, fft_close lm -> log2_close lm ->
    calculate_best_lag (N:=F64 lm) pf s1 s2 = Ok (Some 0%Z) /\
    Rabs (correlation (values s1) (values s2) 0) = 1 /\ Rabs (correlation (values s1) (values s2) (-1)) = 2.
Proof.
  exists (map f64_ofZ [1; 0]%Z), (map f64_ofZ [1; 2]%Z).
  assert (F1 : Forall (fun x : f64 => is_finite x = true) (map f64_ofZ [1; 0]%Z)) by (repeat constructor).
  assert (F2 : Forall (fun x : f64 => is_finite x = true) (map f64_ofZ [1; 2]%Z)) by (repeat constructor).
  split; [exact F1|]. split; [exact F2|]. split; [reflexivity|]. split; [reflexivity|]. intros pf lm FC LC.
  assert (X1 : values (map f64_ofZ [1; 0]%Z) = [1; 0]) by (unfold values; cbn [map]; rewrite !ofZ_B2R by lia; reflexivity).
  assert (X2 : values (map f64_ofZ [1; 2]%Z) = [1; 2]) by (unfold values; cbn [map]; rewrite !ofZ_B2R by lia; reflexivity).
  assert (M1 : magnitude (map f64_ofZ [1; 0]%Z) = 1) by (unfold magnitude; cbn [map]; rewrite !ofZ_B2R by lia; rewrite Rabs_R0, (Rabs_pos_eq 1) by lra; cbv - [Rplus IZR]; ring).
  assert (M2 : magnitude (map f64_ofZ [1; 2]%Z) = 3) by (unfold magnitude; cbn [map]; rewrite !ofZ_B2R by lia; rewrite (Rabs_pos_eq 1), (Rabs_pos_eq 2) by lra; cbv - [Rplus IZR]; ring).
  assert (B50 : 3 <= bpow radix2 50) by (rewrite (bp 50 (2 ^ 50)) by (reflexivity || lia); apply (IZR_le 3); lia).
  assert (B34 : bpow radix2 (-38) = / 274877906944) by (apply (bpn 38); reflexivity || lia).
  assert (B88 : bpow radix2 (-880) <= / 274877906944) by (rewrite <- B34; apply bpow_le; lia).
  assert (V0 : correlation [1; 0] [1; 2] 0 = 1) by (cbv - [Rplus Rmult IZR]; lra).
  assert (V1 : correlation [1; 0] [1; 2] 1 = 0) by (cbv - [Rplus Rmult IZR]; lra).
  assert (VM : correlation [1; 0] [1; 2] (-1) = 2) by (cbv - [Rplus Rmult IZR]; lra).
  destruct (short_lag_F pf lm (map f64_ofZ [1; 0]%Z) (map f64_ofZ [1; 2]%Z) FC LC F1 F2) as (lag & E & Hr & M); [lra|lra|change (Z.max _ _) with 2%Z; lia|].
  change (Z.max _ _) with 2%Z in *. rewrite X1, X2, M1, M2 in *. specialize (M 0%Z ltac:(lia)). rewrite V0, Rabs_R1, B34 in M.
  rewrite V0, VM, Rabs_R1, Rabs_pos_eq by lra. split; [|split; reflexivity]. rewrite E. do 2 f_equal.
  assert (lag = -1 \/ lag = 0 \/ lag = 1)%Z as [-> |[-> | ->]] by lia; [| reflexivity |]; exfalso.
  - cbn [Z.leb Z.compare] in M. lra.
  - cbn [Z.leb Z.compare] in M. rewrite V1, Rabs_R0 in M. lra.
Qed.
