(** C71 in binary64: the stretches of the reference that the reported patches cover. *)
From Coq Require Import Reals Lra Lia Psatz.
From Flocq Require Import Core IEEE754.BinarySingleNaN.
From Verif Require Import Base Num Mat RNum F64 M_Audio M_Align M_Spectro M_Patch M_Nsim M_Selector M_Visqol Spec Spec2.
From Verif Require Import P_Base P_Mat P_Audio P_Manager P_Run P_Spectro P_Times P_Slice P_F64 P_Win P_Segment P_Agg P_Score P_Patch P_Vad P_Same P_Same2 P_Nsim P_SilRef P_Compare P_Order P_LevelF.
Open Scope R_scope.

Definition ut : R := / 8388608.
Lemma rnd_abs z : Rabs (rnd z - z) <= uu * (Rabs z + bpow radix2 (-700)).
Proof.
  assert (U : 0 < uu) by apply bpow_gt_0. assert (B : 0 < bpow radix2 (-700)) by apply bpow_gt_0.
  destruct (Rle_lt_dec (bpow radix2 (-900)) (Rabs z)) as [H|H].
  - eapply Rle_trans; [apply P_LevelF.rnd_rel; right; eapply Rle_trans; [|exact H]; apply bpow_le; lia|]. apply Rmult_le_compat_l; lra.
  - assert (S : Rabs (rnd z) <= bpow radix2 (-900)) by (apply rnd_abs_bpow; [lia|lra]).
    assert (T : 2 * bpow radix2 (-900) <= uu * bpow radix2 (-700)).
    { unfold uu. rewrite <- bpow_plus. replace (2 * bpow radix2 (-900)) with (bpow radix2 (-899)) by (change (-899)%Z with (1 + -900)%Z; rewrite bpow_plus, bpow_1; change (IZR radix2) with 2; ring). apply bpow_le. lia. }
    pose proof (Rabs_pos z). apply Rabs_le_inv in S. apply Rabs_def2 in H. apply Rabs_le. nra.
Qed.

Section Clock.
Variable rate : Z.
Hypothesis Hrate : (1 <= rate < 2 ^ 32)%Z.
Let Ia : 1 <= IZR rate <= 4294967296.
Proof. split; apply IZR_le; lia. Qed.

(** The time [t], in samples, is [v] up to [e]. *)
Definition sm (t : f64) (v e : R) : Prop := is_finite t = true /\ Rabs (B2R t * IZR rate - v) <= e.
Lemma sm_mono t v e f : e <= f -> sm t v e -> sm t v f. Proof. intros H [F E]. split; auto. lra. Qed.

(** One rounding of a time of at most 2^36 samples. *)
Lemma sm_rnd z v e : Rabs (z * IZR rate - v) <= e -> Rabs v <= 68719476736 -> 0 <= e <= 1 ->
  Rabs (rnd z) < big /\ Rabs (rnd z * IZR rate - v) <= e + ut * 128.
Proof.
  intros H V He. assert (UV : uu = / 9007199254740992) by apply uu_val.
  assert (Z1 : Rabs (z * IZR rate) <= 68719476737).
  { replace (z * IZR rate) with (v + (z * IZR rate - v)) by ring. eapply Rle_trans; [apply Rabs_triang|]. lra. }
  assert (Z2 : Rabs z <= 68719476737).
  { rewrite Rabs_mult, (Rabs_pos_eq (IZR rate)) in Z1 by lra. pose proof (Rabs_pos z). nra. }
  pose proof (rnd_abs z) as R. assert (B : bpow radix2 (-700) <= / 4294967296).
  { replace (/ 4294967296) with (bpow radix2 (-32)) by (apply (bpn 32); reflexivity || lia). apply bpow_le. lia. }
  split.
  - apply small_lt_big. apply Rle_trans with (bpow radix2 41); [|apply bpow_le; lia]. replace (bpow radix2 41) with 2199023255552 by (symmetry; apply (bp 41); reflexivity || lia). lra.
  - replace (rnd z * IZR rate - v) with ((rnd z - z) * IZR rate + (z * IZR rate - v)) by ring. eapply Rle_trans; [apply Rabs_triang|].
    assert (X : Rabs ((rnd z - z) * IZR rate) <= uu * (68719476737 + 1)); [|rewrite UV in X; unfold ut; lra].
    rewrite Rabs_mult, (Rabs_pos_eq (IZR rate)) by lra. rewrite Rabs_mult, (Rabs_pos_eq (IZR rate)) in Z1 by lra.
    apply Rle_trans with (uu * (Rabs z + bpow radix2 (-700)) * IZR rate); [apply Rmult_le_compat_r; [lra|exact R]|].
    rewrite Rmult_assoc. apply Rmult_le_compat_l; [rewrite UV; lra|]. rewrite Rmult_plus_distr_r.
    assert (0 < bpow radix2 (-700)) by apply bpow_gt_0. nra.
Qed.
Lemma sm_plus x y v w e f : sm x v e -> sm y w f -> Rabs (v + w) <= 68719476736 -> 0 <= e -> 0 <= f -> e + f <= 1 ->
  sm (Bplus mode_NE x y) (v + w) (e + f + ut * 128).
Proof.
  intros [Fx Ex] [Fy Ey] V He Hf H. destruct (sm_rnd (B2R x + B2R y) (v + w) (e + f)) as [A B]; auto; [|lra|].
  { replace ((B2R x + B2R y) * IZR rate - (v + w)) with ((B2R x * IZR rate - v) + (B2R y * IZR rate - w)) by ring. eapply Rle_trans; [apply Rabs_triang|]. lra. }
  destruct (Bplus_fin x y Fx Fy A) as [F E]. split; [exact F|]. rewrite E. exact B.
Qed.
Lemma sm_minus x y v w e f : sm x v e -> sm y w f -> Rabs (v - w) <= 68719476736 -> 0 <= e -> 0 <= f -> e + f <= 1 ->
  sm (Bminus mode_NE x y) (v - w) (e + f + ut * 128).
Proof.
  intros [Fx Ex] [Fy Ey] V He Hf H. destruct (sm_rnd (B2R x - B2R y) (v - w) (e + f)) as [A B]; auto; [|lra|].
  { replace ((B2R x - B2R y) * IZR rate - (v - w)) with ((B2R x * IZR rate - v) - (B2R y * IZR rate - w)) by ring. eapply Rle_trans; [apply Rabs_triang|]. rewrite Rabs_Ropp. lra. }
  destruct (Bminus_fin x y Fx Fy A) as [F E]. split; [exact F|]. rewrite E. exact B.
Qed.
(** A whole number of samples as a time. *)
Lemma sm_div q k : is_finite q = true -> B2R q = IZR k -> (Z.abs k <= 2 ^ 36)%Z -> sm (Bdiv mode_NE q (f64_ofZ rate)) (IZR k) (uu * (Rabs (IZR k) + 1)).
Proof.
  intros Fq Eq Hk. destruct (ofZ_exact rate ltac:(lia)) as [Fa Ea].
  assert (K : Rabs (IZR k) <= 68719476736) by (rewrite <- abs_IZR; apply IZR_le; exact Hk).
  assert (X : IZR k / IZR rate * IZR rate = IZR k) by (field; lra).
  assert (S : Rabs (IZR k / IZR rate * IZR rate - IZR k) <= 0) by (rewrite X, Rminus_eq_0, Rabs_R0; lra).
  destruct (sm_rnd _ _ 0 S K ltac:(lra)) as [A _].
  destruct (Bdiv_fin q (f64_ofZ rate) Fq Fa) as [F E]; [rewrite Ea; lra|rewrite Eq, Ea; exact A|].
  split; [exact F|]. rewrite E, Eq, Ea. set (z := IZR k / IZR rate) in *. rewrite <- X at 1. rewrite <- Rmult_minus_distr_r, Rabs_mult, (Rabs_pos_eq (IZR rate)) by lra.
  apply Rle_trans with (uu * (Rabs z + bpow radix2 (-700)) * IZR rate); [apply Rmult_le_compat_r; [lra|apply rnd_abs]|].
  rewrite Rmult_assoc. apply Rmult_le_compat_l; [apply bpow_ge_0|]. rewrite Rmult_plus_distr_r. rewrite <- X, Rabs_mult, (Rabs_pos_eq (IZR rate)) by lra.
  assert (B : bpow radix2 (-700) <= / 4294967296).
  { replace (/ 4294967296) with (bpow radix2 (-32)) by (apply (bpn 32); reflexivity || lia). apply bpow_le. lia. }
  assert (0 < bpow radix2 (-700)) by apply bpow_gt_0. nra.
Qed.
Lemma sm_whole k : (Z.abs k <= 2 ^ 36)%Z -> sm (Bdiv mode_NE (f64_ofZ k) (f64_ofZ rate)) (IZR k) (ut * 128).
Proof.
  intros H. destruct (ofZ_exact k ltac:(lia)) as [F E]. eapply sm_mono; [|apply (sm_div _ _ F E H)].
  assert (K : Rabs (IZR k) <= 68719476736) by (rewrite <- abs_IZR; apply IZR_le; exact H). rewrite uu_val. unfold ut. lra.
Qed.
(** A whole number of hops as a time. *)
Lemma sm_hops q h r : is_finite q = true -> B2R q = IZR h -> (1 <= h)%Z -> (0 <= r)%Z -> (r * h <= 2 ^ 36)%Z -> (h <= 2 ^ 36)%Z ->
  let fd := Bdiv mode_NE q (f64_ofZ rate) in
  sm (Bmult mode_NE (f64_ofZ r) fd) (IZR (r * h)) (ut * 256) /\ sm (Bmult mode_NE fd (f64_ofZ r)) (IZR (r * h)) (ut * 256) /\ 0 <= B2R (Bmult mode_NE (f64_ofZ r) fd).
Proof.
  intros Fq Eq Hh Hr H1 H2 fd. assert (Hr2 : (r <= 2 ^ 36)%Z) by nia.
  destruct (sm_div q h Fq Eq ltac:(lia)) as [Ff Ef]. fold fd in Ff, Ef. destruct (ofZ_exact r ltac:(lia)) as [Fr Er].
  assert (Ih : 1 <= IZR h <= 68719476736) by (split; apply IZR_le; lia). assert (Ir : 0 <= IZR r <= 68719476736) by (split; apply IZR_le; lia).
  assert (Irh : 0 <= IZR r * IZR h <= 68719476736) by (rewrite <- mult_IZR; split; apply IZR_le; nia).
  rewrite (Rabs_pos_eq (IZR h)) in Ef by lra.
  assert (D : Rabs (IZR r * B2R fd * IZR rate - IZR (r * h)) <= ut * 128).
  { replace (IZR r * B2R fd * IZR rate - IZR (r * h)) with (IZR r * (B2R fd * IZR rate - IZR h)) by (rewrite mult_IZR; ring). rewrite Rabs_mult, Rabs_pos_eq by lra.
    apply Rle_trans with (IZR r * (uu * (IZR h + 1))); [apply Rmult_le_compat_l; lra|]. replace (IZR r * (uu * (IZR h + 1))) with (uu * (IZR r * IZR h + IZR r)) by ring. rewrite uu_val. unfold ut. lra. }
  assert (V : Rabs (IZR (r * h)) <= 68719476736) by (rewrite mult_IZR, Rabs_pos_eq; lra).
  assert (U : ut * 128 <= 1) by (unfold ut; lra). assert (U0 : 0 < ut) by (unfold ut; lra).
  destruct (sm_rnd _ _ _ D V ltac:(lra)) as [A B].
  assert (P : 0 <= B2R fd) by (apply Rabs_le_inv in Ef; rewrite uu_val in Ef; nra).
  destruct (Bmult_fin (f64_ofZ r) fd Fr Ff) as [F1 E1]; [rewrite Er; exact A|]. destruct (Bmult_fin fd (f64_ofZ r) Ff Fr) as [F2 E2]; [rewrite Er, Rmult_comm; exact A|].
  rewrite Er in E1, E2. rewrite (Rmult_comm (B2R fd)) in E2.
  split; [|split; [|rewrite E1; apply rnd_sign; nra]]; (split; [assumption|]); [rewrite E1|rewrite E2]; lra.
Qed.
(** Back to samples. *)
Lemma usz (x : f64) k : (k < 2 ^ 62)%Z -> is_finite x = true -> Rabs (B2R x - IZR k) <= / 64 ->
  (Z.max 0 (k - 1) <= f64_cast 0 (2 ^ 64 - 1) x <= Z.max 0 k)%Z.
Proof.
  intros Hk F H. rewrite cast_fin by auto. apply Rabs_le_inv in H. destruct (Z_le_gt_dec k 0) as [K|K].
  - assert (IZR k <= 0) by (apply (IZR_le k 0); exact K). assert (Ztrunc (B2R x) <= 0)%Z; [|lia]. apply Z.le_trans with (Ztrunc (/ 2)); [apply Ztrunc_le; lra|].
    rewrite Ztrunc_floor by lra. replace (Zfloor (/ 2)) with 0%Z; [lia|]. symmetry. apply Zfloor_imp. simpl. lra.
  - assert (K1 : 1 <= IZR k) by (apply IZR_le; lia). rewrite Ztrunc_floor by lra.
    assert (A : (k - 1 <= Zfloor (B2R x))%Z) by (apply Zfloor_lub; rewrite minus_IZR; lra).
    assert (B : (Zfloor (B2R x) < k + 1)%Z) by (apply lt_IZR; eapply Rle_lt_trans; [apply Zfloor_lb|]; rewrite plus_IZR; lra). lia.
Qed.
Lemma to_samples t v e : sm t v e -> Rabs v <= 68719476736 -> 0 <= e <= / 128 ->
  is_finite (Bmult mode_NE t (f64_ofZ rate)) = true /\ Rabs (B2R (Bmult mode_NE t (f64_ofZ rate)) - v) <= e + ut * 256.
Proof.
  intros [F E] V He. destruct (ofZ_exact rate ltac:(lia)) as [Fa Ea].
  assert (Z1 : Rabs (B2R t * IZR rate) <= 68719476737).
  { replace (B2R t * IZR rate) with (v + (B2R t * IZR rate - v)) by ring. eapply Rle_trans; [apply Rabs_triang|]. lra. }
  pose proof (rnd_abs (B2R t * IZR rate)) as R. assert (B : bpow radix2 (-700) <= 1) by (apply (bpow_le radix2 _ 0); lia).
  assert (P : 0 < bpow radix2 (-700)) by apply bpow_gt_0.
  destruct (Bmult_fin t (f64_ofZ rate) F Fa) as [G K].
  { rewrite Ea. apply small_lt_big. apply Rle_trans with (bpow radix2 41); [|apply bpow_le; lia]. replace (bpow radix2 41) with 2199023255552 by (symmetry; apply (bp 41); reflexivity || lia). lra. }
  split; [exact G|]. rewrite K, Ea. set (x := B2R t * IZR rate) in *.
  replace (rnd x - v) with ((rnd x - x) + (x - v)) by ring. eapply Rle_trans; [apply Rabs_triang|]. rewrite uu_val in R. unfold ut.
  assert (Rabs (rnd x - x) <= / 9007199254740992 * (68719476737 + 1)) by (eapply Rle_trans; [exact R|apply Rmult_le_compat_l; lra]). lra.
Qed.
Lemma usize_sm lm t k e : sm t (IZR k) e -> (Z.abs k <= 2 ^ 36)%Z -> 0 <= e <= / 128 ->
  (Z.max 0 (k - 1) <= as_usize (N:=F64 lm) (nmul (F64 lm) t (nofZ (F64 lm) rate)) <= Z.max 0 k)%Z.
Proof.
  intros S K He. destruct (to_samples t _ _ S ltac:(rewrite <- abs_IZR; apply IZR_le; exact K) He) as [F D].
  unfold as_usize. apply usz; [lia|exact F|]. eapply Rle_trans; [exact D|]. unfold ut. lra.
Qed.

(** ** The segments *)
Lemma slice_F_len lm (s seg : AudioSignal (F64 lm)) t0 t1 a b e f : sample_rate s = rate -> sm t0 (IZR a) e -> sm t1 (IZR b) f -> 0 <= B2R t0 ->
  (0 <= a <= b)%Z -> (b <= 2 ^ 36)%Z -> (sig_len s <= 2 ^ 36)%Z -> 0 <= e <= / 256 -> 0 <= f <= / 256 ->
  slice s t0 t1 = Ok seg -> sample_rate seg = rate /\ (b - a - 1 <= sig_len seg <= b - a + 1)%Z.
Proof.
  intros HR S0 S1 P0 Hab Hb HL He Hf H. pose proof (zlen_nonneg (data_matrix s)) as L0. change (zlen (data_matrix s)) with (sig_len s) in L0.
  unfold slice in H. cbv zeta in H. rewrite HR in H. inv_do H.
  pose proof (usize_sm lm t0 a e S0 ltac:(lia) ltac:(lra)) as I0. pose proof (usize_sm lm t1 b f S1 ltac:(lia) ltac:(lra)) as I1.
  assert (I2 : (Z.max 0 (b - sig_len s - 1) <= as_usize (N:=F64 lm) (nsub (F64 lm) (nmul (F64 lm) t1 (nofZ (F64 lm) rate)) (nofZ (F64 lm) (sig_len s))) <= Z.max 0 (b - sig_len s))%Z).
  { destruct (to_samples t1 _ _ S1 ltac:(rewrite <- abs_IZR; apply IZR_le; lia) ltac:(lra)) as [F D].
    destruct (ofZ_exact (sig_len s) ltac:(lia)) as [Fl El]. set (p := Bmult mode_NE t1 (f64_ofZ rate)) in *.
    assert (Ib : 0 <= IZR b <= 68719476736) by (split; apply IZR_le; lia). assert (Il : 0 <= IZR (sig_len s) <= 68719476736) by (split; apply IZR_le; lia).
    apply Rabs_le_inv in D. assert (U : ut * 256 <= / 1024) by (unfold ut; lra).
    assert (Z1 : Rabs (B2R p - IZR (sig_len s)) <= 68719476737) by (apply Rabs_le; lra).
    pose proof (rnd_abs (B2R p - IZR (sig_len s))) as R. assert (B : bpow radix2 (-700) <= 1) by (apply (bpow_le radix2 _ 0); lia). assert (P : 0 < bpow radix2 (-700)) by apply bpow_gt_0.
    destruct (Bminus_fin p (f64_ofZ (sig_len s)) F Fl) as [G K].
    { rewrite El. apply small_lt_big. apply Rle_trans with (bpow radix2 41); [|apply bpow_le; lia]. replace (bpow radix2 41) with 2199023255552 by (symmetry; apply (bp 41); reflexivity || lia). lra. }
    replace (b - sig_len s - 1)%Z with ((b - sig_len s) - 1)%Z by lia. unfold as_usize. apply usz; [lia|exact G|]. 
    change (nsub (F64 lm) (nmul (F64 lm) t1 (nofZ (F64 lm) rate)) (nofZ (F64 lm) (sig_len s))) with (Bminus mode_NE p (f64_ofZ (sig_len s))).
    rewrite K, El. rewrite minus_IZR. rewrite uu_val in R.
    assert (R' : Rabs (rnd (B2R p - IZR (sig_len s)) - (B2R p - IZR (sig_len s))) <= / 9007199254740992 * (68719476737 + 1)) by (eapply Rle_trans; [exact R|apply Rmult_le_compat_l; lra]).
    apply Rabs_le_inv in R'. apply Rabs_le. lra. }
  assert (Nn : nltb (F64 lm) t0 (nofZ (F64 lm) 0) = false).
  { cbn [nltb F64 nofZ]. destruct S0 as [F0 _]. apply Bltb_false_iff; [apply is_nan_finite; exact F0|vm_compute; reflexivity|]. rewrite (ext_finite t0) by exact F0. rewrite ofZ_ext by lia. exact P0. }
  rewrite Nn in Hk. pose proof (zslice_len _ _ _ _ Hv) as Lv.
  set (i0 := as_usize (nmul (F64 lm) t0 (nofZ (F64 lm) rate))) in *. set (i1 := as_usize (nmul (F64 lm) t1 (nofZ (F64 lm) rate))) in *.
  set (i2 := as_usize (nsub (F64 lm) (nmul (F64 lm) t1 (nofZ (F64 lm) rate)) (nofZ (F64 lm) (sig_len s)))) in *.
  match type of Hk with Ok ?x = _ => assert (E : seg = x) by congruence end. split; [rewrite E; reflexivity|]. change (sig_len seg) with (zlen (data_matrix seg)). rewrite E. cbn [data_matrix].
  clearbody i0 i1 i2. destruct (Z.ltb_spec 0 i2).
  - unfold zlen in *. rewrite app_length, repeat_length. lia.
  - lia.
Qed.

(** ** The shift of fine alignment *)
Lemma trunc_shift_F lm pf (rs ds r d : AudioSignal (F64 lm)) lag : sample_rate rs = rate -> sample_rate ds = rate -> (Z.abs (sig_len ds - sig_len rs) <= 2)%Z -> (sig_len rs <= 2 ^ 35)%Z ->
  align_and_truncate pf rs ds = Ok (Some (r, d, lag)) ->
  sample_rate r = rate /\ sample_rate d = rate /\ sig_len d = sig_len r /\
  exists k, (0 <= k)%Z /\ (2 * k <= sig_len rs)%Z /\ (sig_len rs - 4 <= 2 * sig_len r)%Z /\ (sig_len r <= sig_len rs)%Z /\
    ((sm lag (- IZR k) (ut * 128) /\ B2R lag <= 0 /\ (k + sig_len r <= sig_len ds)%Z) \/
     (sm lag (IZR k) (ut * 128) /\ 0 < B2R lag /\ (k + sig_len r <= sig_len rs + 2)%Z)).
Proof.
  intros HR HD HL HB H. pose proof (C11_all pf rs ds r d lag ltac:(congruence) H) as (EQ & R1 & R2 & _). split; [congruence|]. split; [congruence|]. split; [symmetry; exact EQ|].
  unfold align_and_truncate in H. step H as o E0. destruct o as [[al lg]|]; [|discriminate]. step H as v E.
  assert (E1 : fst v = data_matrix r) by exact (f_equal (fun x : res (option (AudioSignal (F64 lm) * AudioSignal (F64 lm) * f64)) => match x with Ok (Some (a, _, _)) => data_matrix a | _ => fst v end) H).
  assert (E3 : lg = lag) by exact (f_equal (fun x : res (option (AudioSignal (F64 lm) * AudioSignal (F64 lm) * f64)) => match x with Ok (Some (_, _, c)) => c | _ => lg end) H).
  clear H. subst lg. destruct (C10_shift _ _ _ _ _ E0) as [_ S]. clear E0.
  assert (Hd : (sig_len rs / 2 * 2 <= sig_len rs)%Z) by (rewrite Z.mul_comm; apply Z.mul_div_le; lia).
  pose proof (zlen_nonneg (data_matrix rs)) as L0. pose proof (zlen_nonneg (data_matrix ds)) as L1.
  rewrite HD in S. rewrite HR, HD in E. unfold sig_len in *. rewrite <- E1.
  set (lr := zlen (data_matrix rs)) in *. set (ld := zlen (data_matrix ds)) in *.
  assert (SL : (data_matrix al = data_matrix ds /\ lag = nofZ (F64 lm) 0) \/
    (exists k, (1 <= k <= lr / 2)%Z /\ (k <= ld)%Z /\ data_matrix al = skipn (Z.to_nat k) (data_matrix ds) /\ lag = ndiv (F64 lm) (nofZ (F64 lm) (- k)) (nofZ (F64 lm) rate)) \/
    (exists k, (1 <= k <= lr / 2)%Z /\ data_matrix al = repeat (nofZ (F64 lm) 0) (Z.to_nat k) ++ data_matrix ds /\ lag = ndiv (F64 lm) (nofZ (F64 lm) k) (nofZ (F64 lm) rate))).
  { clear - S. destruct S as [|k Hk Hk2|k Hk]; [left; split; reflexivity|right; left; exists k; auto|right; right; exists k; auto]. }
  assert (U0 : 0 < ut) by (unfold ut; lra). assert (U1 : ut * 128 <= / 1024) by (unfold ut; lra).
  assert (CUT : forall k, (0 <= k <= lr / 2)%Z -> zlen (data_matrix al) = (ld - k)%Z -> sm lag (- IZR k) (ut * 128) -> B2R (lag : f64) <= 0 ->
     zlen (fst v) = Z.min lr (ld - k)).
  { intros k Hk Za SM SG. rewrite Za in E.
    destruct (Z.ltb_spec lr (ld - k)).
    - pose proof (usize_sm lm lag (- k) (ut * 128) ltac:(rewrite opp_IZR; exact SM) ltac:(lia) ltac:(lra)) as U. 
      step E as x Ex. step E as y Ey. injection E as <-. pose proof (zslice_len _ _ _ _ Ex) as L2. cbn [fst].
      set (i := as_usize (nmul (F64 lm) lag (nofZ (F64 lm) rate))) in *. clearbody i. lia.
    - destruct (Z.ltb_spec (ld - k) lr).
      + step E as x Ex. injection E as <-. pose proof (zslice_len _ _ _ _ Ex) as L2. cbn [fst]. lia.
      + injection E as <-. cbn [fst]. fold lr. lia. }
  clear S. destruct SL as [[SA SB]|[(k & Hk & Hk2 & SA & SB)|(k & Hk & SA & SB)]].
  - assert (SM : sm lag (- IZR 0) (ut * 128)).
    { rewrite SB. split; [reflexivity|]. change (B2R (nofZ (F64 lm) 0 : f64)) with 0. rewrite Rmult_0_l, Ropp_0, Rminus_0_r, Rabs_R0. lra. }
    assert (SG : B2R (lag : f64) <= 0) by (rewrite SB; cbn; lra).
    pose proof (CUT 0%Z ltac:(lia) ltac:(rewrite SA; fold ld; lia) SM SG) as C. exists 0%Z. split; [lia|]. split; [lia|]. split; [lia|]. split; [lia|]. left. split; [exact SM|]. split; [exact SG|]. lia.
  - pose proof (sm_whole (- k) ltac:(lia)) as SM. change (Bdiv mode_NE (f64_ofZ (- k)) (f64_ofZ rate)) with (ndiv (F64 lm) (nofZ (F64 lm) (- k)) (nofZ (F64 lm) rate) : f64) in SM.
    rewrite <- SB in SM. rewrite opp_IZR in SM. assert (K1 : 1 <= IZR k) by (apply IZR_le; lia).
    assert (SG : B2R (lag : f64) <= 0) by (destruct SM as [_ D]; apply Rabs_le_inv in D; nra).
    pose proof (CUT k ltac:(lia) ltac:(rewrite SA; unfold ld, zlen in *; rewrite skipn_length; lia) SM SG) as C. exists k. split; [lia|]. split; [lia|]. split; [lia|]. split; [lia|]. left. split; [exact SM|]. split; [exact SG|]. lia.
  - pose proof (sm_whole k ltac:(lia)) as SM. change (Bdiv mode_NE (f64_ofZ k) (f64_ofZ rate)) with (ndiv (F64 lm) (nofZ (F64 lm) k) (nofZ (F64 lm) rate) : f64) in SM.
    rewrite <- SB in SM. assert (K1 : 1 <= IZR k) by (apply IZR_le; lia).
    assert (SG : 0 < B2R (lag : f64)) by (destruct SM as [_ D]; apply Rabs_le_inv in D; nra).
    assert (Za : zlen (data_matrix al) = (ld + k)%Z) by (rewrite SA; unfold ld, zlen in *; rewrite app_length, repeat_length; lia).
    rewrite Za in E. exists k.
    assert (LV : (lr - k <= zlen (fst v) <= lr)%Z /\ (k + zlen (fst v) <= lr + 2)%Z).
    { destruct (Z.ltb_spec lr (ld + k)).
      - pose proof (usize_sm lm lag k (ut * 128) SM ltac:(lia) ltac:(lra)) as U. 
        step E as x Ex. step E as y Ey. injection E as <-. pose proof (zslice_len _ _ _ _ Ex) as L2. cbn [fst].
        set (i := as_usize (nmul (F64 lm) lag (nofZ (F64 lm) rate))) in *. clearbody i. lia.
      - destruct (Z.ltb_spec (ld + k) lr).
        + step E as x Ex. injection E as <-. pose proof (zslice_len _ _ _ _ Ex) as L2. cbn [fst]. lia.
        + injection E as <-. cbn [fst]. fold lr. lia. }
    split; [lia|]. split; [lia|]. split; [lia|]. split; [lia|]. right. split; [exact SM|]. split; [exact SG|]. lia.
Qed.
End Clock.

(** ** One patch *)
Definition spansF lm (rate h fp r off : Z) (p : PatchSim (F64 lm)) : Prop :=
  let n := (fp * h)%Z in
  exists i len, (0 <= i)%Z /\ (2 * i <= n + 1)%Z /\ (n - 5 <= 2 * len)%Z /\ (len <= n + 1)%Z /\ (i + len <= n + 3)%Z /\
    sm rate (ref_patch_start_time p) (IZR (r * h + i)) (/ 256) /\ sm rate (ref_patch_end_time p) (IZR (r * h + i + len)) (/ 256) /\ 0 <= B2R (ref_patch_start_time p : f64) /\
    ((B2R (deg_patch_start_time p : f64) = 0 /\ B2R (deg_patch_end_time p : f64) = 0 /\ i = 0%Z /\ len = n) \/
     exists j, (0 <= j)%Z /\ (2 * j <= n + 1)%Z /\ sm rate (deg_patch_start_time p) (IZR (off * h + j)) (/ 256) /\ sm rate (deg_patch_end_time p) (IZR (off * h + j + len)) (/ 256) /\
       0 <= B2R (deg_patch_start_time p : f64)).
Lemma realign_span_F lm pf nb (rs ds : AudioSignal (F64 lm)) w (f f' : Filterbank (F64 lm)) old p sim lost off r fp rate (q : f64) h :
  (1 <= rate < 2 ^ 32)%Z -> sample_rate rs = rate -> sample_rate ds = rate -> is_finite q = true -> B2R q = IZR h ->
  (1 <= h)%Z -> (20 <= fp <= 30)%Z -> (0 <= r)%Z -> (0 <= off)%Z -> ((r + fp) * h <= 2 ^ 34)%Z -> ((off + fp) * h <= 2 ^ 34)%Z -> (sig_len rs <= 2 ^ 34)%Z -> (sig_len ds <= 2 ^ 34)%Z ->
  let fd := ndiv (F64 lm) q (nofZ (F64 lm) rate) in
  old = set_times (N:=F64 lm) sim lost off r fd (nmul (F64 lm) fd (nofZ (F64 lm) fp)) -> realign_patch pf nb rs ds w f old = (f', Ok p) -> spansF lm rate h fp r off p.
Proof.
  intros Hrate HR HD Fq Eq Hh Hfp Hr Ho B1 B2 L1 L2 fd Eold H.
  assert (U0 : 0 < ut) by (unfold ut; lra). assert (U1 : ut * 2048 <= / 1024) by (unfold ut; lra).
  destruct (sm_hops rate Hrate q h r Fq Eq Hh Hr ltac:(nia) ltac:(nia)) as (Sr & _ & Pr).
  destruct (sm_hops rate Hrate q h off Fq Eq Hh Ho ltac:(nia) ltac:(nia)) as (So & _ & Po).
  destruct (sm_hops rate Hrate q h fp Fq Eq Hh ltac:(lia) ltac:(nia) ltac:(nia)) as (_ & Sp & _).
  change (Bdiv mode_NE q (f64_ofZ rate)) with (fd : f64) in *.
  set (n := (fp * h)%Z) in *. assert (Hn : (20 <= n)%Z) by (unfold n; nia).
  assert (AB : forall z, (0 <= z <= 2 ^ 36)%Z -> Rabs (IZR z) <= 68719476736) by (intros z Hz; rewrite <- abs_IZR; apply IZR_le; lia).
  assert (Sre : sm rate (Bplus mode_NE (Bmult mode_NE (f64_ofZ r) fd) (Bmult mode_NE fd (f64_ofZ fp))) (IZR (r * h + n)) (ut * 640)).
  { rewrite plus_IZR. eapply sm_mono; [|apply (sm_plus rate Hrate _ _ _ _ _ _ Sr Sp); [rewrite <- plus_IZR; apply AB; unfold n; nia|lra|lra|lra]]. lra. }
  assert (Soe : sm rate (Bplus mode_NE (Bmult mode_NE (f64_ofZ off) fd) (Bmult mode_NE fd (f64_ofZ fp))) (IZR (off * h + n)) (ut * 640)).
  { rewrite plus_IZR. eapply sm_mono; [|apply (sm_plus rate Hrate _ _ _ _ _ _ So Sp); [rewrite <- plus_IZR; apply AB; unfold n; nia|lra|lra|lra]]. lra. }
  assert (RST : ref_patch_start_time old = Bmult mode_NE (f64_ofZ r) fd) by (rewrite Eold; reflexivity).
  assert (REN : ref_patch_end_time old = Bplus mode_NE (Bmult mode_NE (f64_ofZ r) fd) (Bmult mode_NE fd (f64_ofZ fp))) by (rewrite Eold; reflexivity).
  assert (OLD : p = old -> spansF lm rate h fp r off p).
  { intros ->. unfold spansF. fold n. exists 0%Z, n. split; [lia|]. split; [lia|]. split; [lia|]. split; [lia|]. split; [lia|]. rewrite Z.add_0_r, RST, REN.
    split; [eapply sm_mono; [|exact Sr]; lra|]. split; [eapply sm_mono; [|exact Sre]; lra|]. split; [exact Pr|].
    rewrite Eold. destruct lost; cbn [set_times deg_patch_start_time deg_patch_end_time].
    - left. split; [reflexivity|]. split; [reflexivity|]. auto.
    - right. exists 0%Z. split; [lia|]. split; [lia|]. rewrite Z.add_0_r. split; [eapply sm_mono; [|exact So]; lra|]. split; [eapply sm_mono; [|exact Soe]; lra|exact Po]. }
  destruct lost.
  { apply OLD. unfold realign_patch in H. assert (L : is_lost old = true) by (rewrite Eold; reflexivity).
    rewrite L in H. congruence. }
  assert (DST : deg_patch_start_time old = Bmult mode_NE (f64_ofZ off) fd) by (rewrite Eold; reflexivity).
  assert (DEN : deg_patch_end_time old = Bplus mode_NE (Bmult mode_NE (f64_ofZ off) fd) (Bmult mode_NE fd (f64_ofZ fp))) by (rewrite Eold; reflexivity).
  clear Eold.
  apply realign_inv in H as [-> |(ra & da & ra' & da' & lag & fb1 & rspec & fb2 & dspec & rp & dp & new & S1 & S2 & AL & _ & _ & _ & _ & NL & ->)]; [apply OLD; reflexivity|].
  clear OLD. rewrite RST, REN in S1. rewrite DST, DEN in S2.
  apply (slice_F_len rate Hrate lm rs ra _ _ _ _ _ _ HR Sr Sre Pr) in S1; [|nia|unfold n; nia|lia|lra|lra].
  apply (slice_F_len rate Hrate lm ds da _ _ _ _ _ _ HD So Soe Po) in S2; [|nia|unfold n; nia|lia|lra|lra].
  destruct S1 as [RR LR]. destruct S2 as [RD LD].
  assert (Hn34 : (n <= 2 ^ 34)%Z) by (unfold n; nia).
  apply (trunc_shift_F rate Hrate lm pf ra da ra' da' lag RR RD) in AL; [|lia|lia].
  destruct AL as (R1 & R2 & EL & k & K0 & K1 & K2 & K3 & KL).
  set (len := sig_len ra') in *.
  pose proof (zlen_nonneg (data_matrix ra')) as LP. change (zlen (data_matrix ra')) with len in LP.
  pose proof (sm_whole rate Hrate len ltac:(lia)) as SD.
  assert (GD : get_duration ra' = Bdiv mode_NE (f64_ofZ len) (f64_ofZ rate)) by (unfold get_duration; rewrite R1; reflexivity).
  assert (GD' : get_duration da' = Bdiv mode_NE (f64_ofZ len) (f64_ofZ rate)) by (unfold get_duration; rewrite R2, EL; reflexivity).
  unfold spansF, choose_result. rewrite NL. cbn [ref_patch_end_time ref_patch_start_time deg_patch_start_time deg_patch_end_time]. rewrite GD, GD', RST, DST. fold n. clear RST DST REN DEN GD GD' NL.
  destruct KL as [(SM & SG & KK)|(SM & SG & KK)].
  - assert (LT : nltb (F64 lm) (nofZ (F64 lm) 0) lag = false).
    { cbn [nltb F64 nofZ]. destruct SM as [F0 _]. apply Bltb_false_iff; [vm_compute; reflexivity|apply is_nan_finite; exact F0|]. rewrite (ext_finite lag) by exact F0. rewrite ofZ_ext by lia. exact SG. }
    rewrite LT. exists 0%Z, len. split; [lia|]. split; [lia|]. split; [lia|]. split; [lia|]. split; [lia|]. rewrite Z.add_0_r.
    split; [eapply sm_mono; [|exact Sr]; lra|].
    split; [rewrite plus_IZR; eapply sm_mono; [|apply (sm_plus rate Hrate _ _ _ _ _ _ Sr SD); [rewrite <- plus_IZR; apply AB; nia|lra|lra|lra]]; lra|].
    split; [exact Pr|]. right. exists k. split; [lia|]. split; [lia|].
    assert (SDS : sm rate (Bminus mode_NE (Bmult mode_NE (f64_ofZ off) fd) lag) (IZR (off * h + k)) (ut * 512)).
    { replace (IZR (off * h + k)) with (IZR (off * h) - (- IZR k)) by (rewrite plus_IZR; ring). eapply sm_mono; [|apply (sm_minus rate Hrate _ _ _ _ _ _ So SM)]; try lra.
      replace (IZR (off * h) - (- IZR k)) with (IZR (off * h + k)) by (rewrite plus_IZR; ring). apply AB. nia. }
    split; [eapply sm_mono; [|exact SDS]; lra|].
    split; [rewrite (plus_IZR (off * h + k)); eapply sm_mono; [|apply (sm_plus rate Hrate _ _ _ _ _ _ SDS SD); [rewrite <- plus_IZR; apply AB; nia|lra|lra|lra]]; lra|].
    destruct SDS as [F0 _]. destruct So as [Fo Eo]. destruct SM as [Fl El].
    destruct (Bminus_fin (Bmult mode_NE (f64_ofZ off) fd) lag Fo Fl) as [_ E].
    { destruct (sm_rnd rate Hrate (B2R (Bmult mode_NE (f64_ofZ off) fd) - B2R (lag : f64)) (IZR (off * h) - - IZR k) (ut * 384)) as [A _]; [| |lra|exact A].
      - apply Rabs_le_inv in Eo, El. apply Rabs_le. lra.
      - replace (IZR (off * h) - (- IZR k)) with (IZR (off * h + k)) by (rewrite plus_IZR; ring). apply AB. nia. }
    change (B2R (Bminus mode_NE (Bmult mode_NE (f64_ofZ off) fd) lag)) with (B2R (nsub (F64 lm) (Bmult mode_NE (f64_ofZ off) fd) lag : f64)) in E. rewrite E. apply rnd_sign. lra.
  - assert (LT : nltb (F64 lm) (nofZ (F64 lm) 0) lag = true).
    { cbn [nltb F64 nofZ]. destruct SM as [F0 _]. destruct (Bltb (f64_ofZ 0) lag) eqn:EB; [reflexivity|]. apply Bltb_false_iff in EB; [|vm_compute; reflexivity|apply is_nan_finite; exact F0].
      rewrite (ext_finite lag) in EB by exact F0. rewrite ofZ_ext in EB by lia. exfalso. lra. }
    rewrite LT. exists k, len. split; [lia|]. split; [lia|]. split; [lia|]. split; [lia|]. split; [lia|].
    assert (SRS : sm rate (Bplus mode_NE (Bmult mode_NE (f64_ofZ r) fd) lag) (IZR (r * h + k)) (ut * 512)).
    { rewrite plus_IZR. eapply sm_mono; [|apply (sm_plus rate Hrate _ _ _ _ _ _ Sr SM); [rewrite <- plus_IZR; apply AB; nia|lra|lra|lra]]. lra. }
    split; [eapply sm_mono; [|exact SRS]; lra|].
    split; [rewrite (plus_IZR (r * h + k)); eapply sm_mono; [|apply (sm_plus rate Hrate _ _ _ _ _ _ SRS SD); [rewrite <- plus_IZR; apply AB; nia|lra|lra|lra]]; lra|].
    split.
    { destruct Sr as [Fo Eo]. destruct SM as [Fl El]. destruct (Bplus_fin (Bmult mode_NE (f64_ofZ r) fd) lag Fo Fl) as [_ E].
      { destruct (sm_rnd rate Hrate (B2R (Bmult mode_NE (f64_ofZ r) fd) + B2R (lag : f64)) (IZR (r * h + k)) (ut * 384)) as [A _]; [|apply AB; nia|lra|exact A].
        rewrite plus_IZR. apply Rabs_le_inv in Eo, El. apply Rabs_le. lra. }
      change (B2R (Bplus mode_NE (Bmult mode_NE (f64_ofZ r) fd) lag)) with (B2R (nadd (F64 lm) (Bmult mode_NE (f64_ofZ r) fd) lag : f64)) in E. rewrite E. apply rnd_sign. lra. }
    right. exists 0%Z. split; [lia|]. split; [lia|]. rewrite Z.add_0_r. split; [eapply sm_mono; [|exact So]; lra|].
    split; [|exact Po]. rewrite plus_IZR. eapply sm_mono; [|apply (sm_plus rate Hrate _ _ _ _ _ _ So SD); [rewrite <- plus_IZR; apply AB; nia|lra|lra|lra]]. lra.
Qed.

(** ** The run *)
Lemma order_all_F lm pf nb v ws (m m' : Manager (F64 lm)) calls files a b (rs ds : AudioSignal (F64 lm)) r :
  new_manager nb v ws = Ok m -> load_as_mono (files a) = Ok rs -> load_as_mono (files b) = Ok ds ->
  (1 <= sample_rate rs < 2 ^ 32)%Z -> (sig_len rs <= 2 ^ 32)%Z -> (sig_len ds <= 2 ^ 32)%Z ->
  let rate := sample_rate rs in let W := ((4 * rate + 25) / 50)%Z in
  let fp := match v with Wideband _ => 30%Z | Fullband _ => 20%Z end in
  (W mod 4 = 0)%Z ->
  run pf nb files (after_calls pf nb m calls) a b = (m', Ok r) ->
  exists idx, (List.length (patch_sims r) <= List.length idx)%nat /\ (1 <= W / 4)%Z /\
    (forall k, (S k < List.length idx)%nat -> (nth k idx 0 + fp <= nth (S k) idx 0)%Z) /\
    (forall k, (k < List.length idx)%nat -> (0 <= nth k idx 0)%Z /\ ((nth k idx 0 + fp) * (W / 4) <= sig_len rs)%Z) /\
    (forall k p, nth_error (patch_sims r) k = Some p -> exists off, (0 <= off)%Z /\ spansF lm rate (W / 4) fp (nth k idx 0%Z) off p) /\
    match v with
    | Wideband _ => exists (mm : mat (F64 lm)) pts, Z.of_nat (mcols mm) = (1 + (sig_len rs - W) / (W / 4))%Z /\
        create_ref_patch_indices pf (VadPatchCreator 30) mm rs (new_window rate OVERLAP WINDOW_DURATION) = Ok idx /\ create_patches_from_indices 30 mm idx = Ok pts /\
        (forall i0 rest, idx = i0 :: rest -> (0 <= i0 < 15)%Z -> (forall s, In s rest -> (15 <= s)%Z) -> (2 <= List.length (patch_sims r))%nat)
    | Fullband _ => (2 <= List.length (patch_sims r))%nat /\ (forall k, (k < List.length idx)%nat -> nth k idx 0%Z = (9 + 20 * Z.of_nat k)%Z)
    end.
Proof.
  intros Hm La Lb Hrate L1 L2 rate W fp W4 H.
  set (m1 := after_calls pf nb m calls) in *. destruct (after_same pf nb calls m) as (Sw & Cr & Mp & _). fold m1 in Sw, Cr, Mp.
  assert (Hps : creator_patch_size (mg_creator m) = fp).
  { unfold new_manager in Hm. unfold fp. destruct v as [u|[s|]]; cbn [bind] in Hm; try discriminate; inversion Hm; auto. }
  assert (Him : match v with Wideband _ => exists z, mg_creator m = VadPatchCreator z | Fullband _ => exists z, mg_creator m = ImagePatchCreator z end).
  { unfold new_manager in Hm. destruct v as [u|[s|]]; cbn [bind] in Hm; try discriminate; injection Hm as <-; eexists; reflexivity. }
  assert (Hfp : (20 <= fp <= 30)%Z) by (unfold fp; destruct v; lia).
  apply run_parts in H. destruct H as (rs' & ds' & al & lag & fb1 & fb2 & fb3 & rspec & dspec & rp & dp & idx & pts & info & H).
  cbv zeta in H. destruct H as (LA & LB & RR & GA & B1 & B2 & PR & CI & PT & FD & FA & _).
  assert (rs' = rs) by congruence. assert (ds' = ds) by congruence. subst rs' ds'.
  rewrite Cr in CI, PT. rewrite Hps in PT.
  set (w := new_window (N:=F64 lm) (sample_rate rs) OVERLAP WINDOW_DURATION) in *.
  assert (EW : win_size w = W) by (apply window_exact; lia).
  assert (W0 : (0 <= W <= 2 ^ 32)%Z) by (unfold W; split; [apply Z.div_pos; lia|apply Z.div_le_upper_bound; lia]).
  assert (EH : hop_size w = (W / 4)%Z) by (rewrite <- EW; apply hop_quarter; fold w; rewrite EW; lia).
  assert (H4 : (0 <= W / 4)%Z) by (apply Z.div_pos; lia).
  assert (Hh : (0 < W / 4)%Z) by (apply build_inv in B1; lia).
  assert (HW : (W <= sig_len rs)%Z) by (rewrite <- EW; apply build_inv in B1; apply B1).
  assert (EWh : W = (4 * (W / 4))%Z) by (pose proof (Z.div_mod W 4 ltac:(lia)); lia).
  set (h := (W / 4)%Z) in *.
  pose proof (build_cols _ _ _ _ _ _ ltac:(rewrite EH; exact Hh) B1) as C1. change (zlen (data_matrix rs)) with (sig_len rs) in C1. rewrite EW, EH in C1.
  pose proof (prepare_shape _ _ _ _ PR) as ((_ & _ & K1 & _) & (_ & _ & K2 & _)).
  destruct (patches_self fp _ _ _ ltac:(lia) PT) as [PL PS].
  pose proof (find_order _ _ _ _ _ _ _ FD) as (p0 & E0 & LO & CP).
  assert (P0 : Z.of_nat (mcols p0) = fp) by (apply patches_cols in PT; [|lia]; apply PT; eapply nth_error_In; eauto).
  apply C10_shift in GA. destruct GA as (RA & SH).
  assert (AL : (sig_len al <= sig_len ds + 2 ^ 32)%Z).
  { pose proof (Z.div_le_upper_bound (sig_len rs) 2 (2 ^ 32)). unfold sig_len in *. 
    destruct SH; unfold zlen in *; rewrite ?app_length, ?repeat_length, ?skipn_length; lia. }
  set (scaled := scale_to_match_sound_pressure_level rs al) in *.
  assert (Rsc : sample_rate scaled = sample_rate rs) by (change (sample_rate scaled) with (sample_rate al); congruence).
  assert (Ls : sig_len scaled = sig_len al) by (unfold sig_len, scaled, scale_to_match_sound_pressure_level; cbn [data_matrix]; apply zlen_map).
  pose proof (build_cols _ _ _ _ _ _ ltac:(rewrite EH; exact Hh) B2) as C2. change (zlen (data_matrix scaled)) with (sig_len scaled) in C2. rewrite EW, EH in C2.
  assert (C2' : (Z.of_nat (mcols (sp_data dspec)) * h <= 2 ^ 33)%Z).
  { rewrite C2. pose proof (Z.mul_div_le (sig_len scaled - W) h ltac:(lia)). nia. }
  assert (C2n : (Z.of_nat (mcols (sp_data dspec)) <= 2 ^ 33)%Z) by nia.
  pose proof (finely_len _ _ _ _ _ _ _ _ _ FA) as FL. pose proof (fine_each _ _ _ _ _ _ _ _ _ FA) as FE.
  assert (IR : forall k, (k < List.length idx)%nat -> (0 <= nth k idx 0)%Z /\ ((nth k idx 0 + fp) * h <= sig_len rs)%Z).
  { intros k Hk. destruct (PS k Hk) as (P1 & P2 & _). split; [exact P1|]. rewrite K1, C1 in P2.
    pose proof (Z.mul_div_le (sig_len rs - W) h ltac:(lia)). nia. }
  destruct (quarter_exact lm W ltac:(lia) W4) as [Fq Eq]. cbv zeta in Fq, Eq. fold h in Eq.
  exists idx. split; [rewrite FL; exact LO|]. split; [lia|]. split.
  { rewrite <- Hps. apply (idx_gap pf (mg_creator m) _ _ _ _ ltac:(lia) CI). }
  split; [exact IR|]. split.
  - intros k p Hk. destruct (F2_nth _ _ _ FE k p Hk) as (old & Hold & g & g' & RE).
    destruct (CP k old Hold) as (sim & lost & off & Eo & Hoff). rewrite P0 in Eo.
    assert (Hki : (k < List.length idx)%nat) by (apply Nat.lt_le_trans with (List.length info); [apply nth_error_Some; congruence|exact LO]).
    destruct (IR k Hki) as (P1 & P2).
    exists off. split; [lia|].
    assert (HO : ((off + fp) * h <= 2 ^ 34)%Z).
    { rewrite K2 in Hoff. set (c := Z.of_nat (mcols (sp_data dspec))) in *. clearbody c h. clear - Hoff C2' P1 P2 L1 Hfp Hh.
      assert (off * h <= c * h)%Z by (apply Z.mul_le_mono_nonneg_r; lia). assert (0 <= nth k idx 0%Z * h)%Z by (apply Z.mul_nonneg_nonneg; lia).
      rewrite Z.mul_add_distr_r in P2 |- *. lia. }
    rewrite EW in Eo.
    exact (realign_span_F lm pf nb rs scaled w g g' old p sim lost off (nth k idx 0%Z) fp rate (nmul (F64 lm) (nofZ (F64 lm) W) OVERLAP) h
      Hrate eq_refl Rsc Fq Eq ltac:(lia) Hfp P1 ltac:(lia) ltac:(lia) HO ltac:(lia) ltac:(lia) Eo RE).
  - assert (TWO : forall i0 rest, idx = i0 :: rest -> (0 <= i0 < fp / 2)%Z -> (forall s, In s rest -> (fp / 2 <= s)%Z) -> (2 <= List.length (patch_sims r))%nat).
    { intros i0 rest EI I0 IR'. rewrite FL. rewrite EI in FD. destruct pts as [|pp rest']; [discriminate E0|]. injection E0 as ->.
      assert (X : (2 <= zlen info <= zlen (i0 :: rest))%Z); [|unfold zlen in X; lia]. rewrite <- P0 in I0, IR'.
      apply (C24_kept pf p0 rest' i0 rest (sp_data dp) _ _ info I0 ltac:(lia) ltac:(lia) IR' FD). }
    destruct v as [u|s].
    { destruct Him as (z & Ez). rewrite Ez in Hps, CI. cbn [creator_patch_size] in Hps. unfold fp in *. subst z. exists (sp_data rp), pts. rewrite K1, C1. auto. }
    destruct Him as (z & Ez). unfold fp in *. rewrite Ez in *. cbn [creator_patch_size] in Hps. subst z. cbn [create_ref_patch_indices] in CI.
    destruct (Z.ltb_spec (Z.of_nat (mcols (sp_data rp))) (20 + 20 / 2)) as [Hl|Hl].
    { unfold image_patch_indices in CI. destruct (Z.ltb_spec (Z.of_nat (mcols (sp_data rp))) (20 + 20 / 2)); [discriminate|lia]. }
    destruct (C17_grid pf 20 (Z.of_nat (mcols (sp_data rp))) ltac:(lia) Hl) as (q & Q1 & E & _). rewrite CI in E.
    assert (EI : idx = map (fun k : Z => (20 / 2 - 1 + 20 * k)%Z) (zrange 0 q)) by congruence.
    assert (NTH : forall k, (k < List.length idx)%nat -> nth k idx 0%Z = (9 + 20 * Z.of_nat k)%Z).
    { intros k Hk. rewrite EI in Hk |- *. rewrite map_length, zrange_length in Hk.
      rewrite (nth_indep _ 0%Z ((fun k : Z => (20 / 2 - 1 + 20 * k)%Z) 0%Z)) by (rewrite map_length, zrange_length; lia).
      rewrite (map_nth (fun k : Z => (20 / 2 - 1 + 20 * k)%Z)). erewrite (nth_error_nth (zrange 0 q) k) by (apply nth_error_zrange; lia). change (20 / 2)%Z with 10%Z. lia. }
    split; [|exact NTH]. destruct idx as [|i0 rest]; [rewrite zrange_cons in EI by lia; discriminate|].
    apply (TWO i0 rest eq_refl).
    + specialize (NTH 0%nat ltac:(cbn; lia)). cbn [nth] in NTH. change (20 / 2)%Z with 10%Z. lia.
    + intros s0 Hs. apply (In_nth _ _ 0%Z) in Hs as (k & Hk & <-). specialize (NTH (S k) ltac:(cbn; lia)). cbn [nth] in NTH. change (20 / 2)%Z with 10%Z. lia.
Qed.

Lemma sm_time rate t k e : (1 <= rate)%Z -> sm rate t (IZR k) e -> IZR k * (1 / IZR rate) - e * (1 / IZR rate) <= B2R t <= IZR k * (1 / IZR rate) + e * (1 / IZR rate).
Proof.
  intros H [_ E]. assert (A : 1 <= IZR rate) by (apply IZR_le; exact H). assert (P : 0 < 1 / IZR rate) by (apply Rdiv_lt_0_compat; lra).
  assert (X : B2R t = B2R t * IZR rate * (1 / IZR rate)) by (field; lra). apply Rabs_le_inv in E. rewrite X. set (y := B2R t * IZR rate) in *. nra.
Qed.
Lemma C71_f64 lm pf nb v ws (m m' : Manager (F64 lm)) calls files a b (rs ds : AudioSignal (F64 lm)) r :
  new_manager nb v ws = Ok m -> load_as_mono (files a) = Ok rs -> load_as_mono (files b) = Ok ds ->
  (1 <= sample_rate rs < 2 ^ 32)%Z -> (sig_len rs <= 2 ^ 32)%Z -> (sig_len ds <= 2 ^ 32)%Z ->
  let rate := sample_rate rs in let W := ((4 * rate + 25) / 50)%Z in
  let fp := match v with Wideband _ => 30%Z | Fullband _ => 20%Z end in
  let sample := 1 / IZR rate in let hop := IZR (W / 4) * sample in let pd := IZR fp * hop in
  (W mod 4 = 0)%Z ->
  run pf nb files (after_calls pf nb m calls) a b = (m', Ok r) ->
  (forall i j p q, (i < j)%nat -> nth_error (patch_sims r) i = Some p -> nth_error (patch_sims r) j = Some q ->
     B2R (ref_patch_end_time p : f64) <= B2R (ref_patch_start_time q : f64) + 4 * sample) /\
  (forall p : PatchSim (F64 lm), In p (patch_sims r) ->
     let rdur := B2R (ref_patch_end_time p : f64) - B2R (ref_patch_start_time p : f64) in
     let ddur := B2R (deg_patch_end_time p : f64) - B2R (deg_patch_start_time p : f64) in
     0 <= B2R (ref_patch_start_time p : f64) /\ pd / 2 - 3 * sample <= rdur <= pd + 2 * sample /\
     (B2R (deg_patch_start_time p : f64) = 0 /\ B2R (deg_patch_end_time p : f64) = 0 /\ Rabs (rdur - pd) <= / 64 * sample \/
      0 <= B2R (deg_patch_start_time p : f64) /\ Rabs (ddur - rdur) <= / 64 * sample) /\
     B2R (ref_patch_end_time p : f64) <= (IZR (sig_len rs) + 4) * sample) /\
  match v with
  | Wideband _ => True
  | Fullband _ => (2 <= List.length (patch_sims r))%nat /\
      forall k p, nth_error (patch_sims r) k = Some p ->
        (9 + 20 * INR k) * hop - sample <= B2R (ref_patch_start_time p : f64) /\ B2R (ref_patch_end_time p : f64) <= (29 + 20 * INR k) * hop + 4 * sample
  end.
Proof.
  intros Hm La Lb Hr L1 L2 rate W fp sample hop pd W4 H.
  destruct (order_all_F lm pf nb v ws m m' calls files a b rs ds r Hm La Lb Hr L1 L2 W4 H) as (idx & LI & Hh & GAP & RG & SP & FB).
  fold rate in Hh, GAP, RG, SP, FB. fold W in Hh, GAP, RG, SP, FB. fold fp in GAP, RG, SP, FB.
  assert (Hrate : (1 <= rate)%Z) by (unfold rate; lia). assert (PS : 0 < sample) by (apply Rdiv_lt_0_compat; [lra|apply (IZR_lt 0); lia]).
  set (h := (W / 4)%Z) in *. assert (Hfp : (20 <= fp)%Z) by (unfold fp; destruct v; lia).
  assert (EPD : pd = IZR (fp * h) * sample) by (unfold pd, hop; rewrite mult_IZR; ring).
  assert (ONE : forall k (p : PatchSim (F64 lm)), nth_error (patch_sims r) k = Some p -> (k < List.length idx)%nat /\
     let rdur := B2R (ref_patch_end_time p : f64) - B2R (ref_patch_start_time p : f64) in
     let ddur := B2R (deg_patch_end_time p : f64) - B2R (deg_patch_start_time p : f64) in
     (IZR (nth k idx 0%Z * h) - / 256) * sample <= B2R (ref_patch_start_time p : f64) /\ B2R (ref_patch_end_time p : f64) <= (IZR ((nth k idx 0%Z + fp) * h) + 3 + / 256) * sample /\
     0 <= B2R (ref_patch_start_time p : f64) /\ pd / 2 - 3 * sample <= rdur <= pd + 2 * sample /\
     (B2R (deg_patch_start_time p : f64) = 0 /\ B2R (deg_patch_end_time p : f64) = 0 /\ Rabs (rdur - pd) <= / 64 * sample \/
      0 <= B2R (deg_patch_start_time p : f64) /\ Rabs (ddur - rdur) <= / 64 * sample)).
  { intros k p Hk. assert (Hki : (k < List.length idx)%nat) by (apply Nat.lt_le_trans with (List.length (patch_sims r)); [apply nth_error_Some; congruence|exact LI]).
    split; [exact Hki|]. cbv zeta. destruct (SP k p Hk) as (off & Ho & i & len & A1 & A2 & A3 & A4 & A5 & A6 & A7 & A8 & A9).
    apply (sm_time rate _ _ _ Hrate) in A6. apply (sm_time rate _ _ _ Hrate) in A7. fold sample in A6, A7.
    rewrite !plus_IZR in A6. rewrite !plus_IZR in A7.
    replace ((nth k idx 0%Z + fp) * h)%Z with (nth k idx 0%Z * h + fp * h)%Z by ring. rewrite plus_IZR, EPD.
    set (R0 := IZR (nth k idx 0%Z * h)) in *. set (n := (fp * h)%Z) in *.
    assert (I1 : 0 <= IZR i) by (apply (IZR_le 0); exact A1).
    assert (I2 : IZR i + IZR len <= IZR n + 3) by (rewrite <- !plus_IZR; apply IZR_le; lia).
    assert (I3 : IZR n - 5 <= 2 * IZR len) by (rewrite <- mult_IZR, <- minus_IZR; apply IZR_le; lia).
    assert (I4 : IZR len <= IZR n + 1) by (rewrite <- plus_IZR; apply IZR_le; lia).
    split; [nra|]. split; [nra|]. split; [exact A8|]. split; [split; nra|].
    destruct A9 as [(D1 & D2 & D3 & D4)|(j & J1 & J2 & J3 & J4 & J5)].
    - left. split; [exact D1|]. split; [exact D2|]. subst i. rewrite D4 in *. apply Rabs_le. split; nra.
    - right. split; [exact J5|]. apply (sm_time rate _ _ _ Hrate) in J3. apply (sm_time rate _ _ _ Hrate) in J4. fold sample in J3, J4.
      rewrite !plus_IZR in J3. rewrite !plus_IZR in J4. apply Rabs_le. split; nra. }
  split; [|split].
  - intros i j p q Hij Hp Hq. destruct (ONE i p Hp) as (I1 & _ & I2 & _). destruct (ONE j q Hq) as (J1 & J2 & _).
    pose proof (gap_le idx fp ltac:(lia) GAP j i ltac:(lia)) as G.
    assert (IZR ((nth i idx 0%Z + fp) * h) <= IZR (nth j idx 0%Z * h)) by (apply IZR_le; nia). nra.
  - intros p Hp rdur ddur. apply In_nth_error in Hp as (k & Hk). destruct (ONE k p Hk) as (K1 & K2 & K3 & K4 & K5 & K6). destruct (RG k K1) as [R0 R1].
    split; [exact K4|]. split; [exact K5|]. split; [exact K6|]. apply IZR_le in R1. nra.
  - destruct v as [u|s]; [exact I|]. destruct FB as [F1 F2]. split; [exact F1|]. intros k p Hk. destruct (ONE k p Hk) as (K1 & K2 & K3 & _).
    rewrite (F2 k K1) in K2, K3. unfold fp in K3. rewrite INR_IZR_INZ. unfold hop.
    rewrite !mult_IZR, !plus_IZR, !mult_IZR in K2. rewrite !mult_IZR, !plus_IZR, !mult_IZR in K3. split; nra.
Qed.
