(** C50: where the segments cut out for fine alignment start. *)
From Coq Require Import Reals Lra Lia.
From Flocq Require Import Core IEEE754.BinarySingleNaN.
From Verif Require Import Base Num Mat F64 RNum M_Audio M_Nsim M_Selector M_Visqol P_Base P_F64 P_Win P_Slice.
Open Scope R_scope.

(** One rounded step with relative error. *)
Lemma rel_step x y e : 0 <= e <= 1 -> bpow radix2 (-800) <= x -> Rabs (y - x) <= e * x ->
  Rabs (rnd y - x) <= (e + / 4503599627370496) * x.
Proof.
  intros He Hx H. assert (P : 0 < bpow radix2 (-800)) by apply bpow_gt_0. apply Rabs_le_inv in H.
  destruct (Rlt_le_dec (Rabs y) (bpow radix2 (-900))) as [Hs|Hb].
  - assert (S : Rabs (rnd y) <= bpow radix2 (-900)) by (apply rnd_abs_bpow; [lia|lra]).
    assert (T : bpow radix2 (-900) <= / 9007199254740992 * bpow radix2 (-800)).
    { replace (/ 9007199254740992) with (bpow radix2 (-53)) by (apply (bpn 53); [lia|reflexivity]). rewrite <- bpow_plus. apply bpow_le. lia. }
    assert (Y : Rabs (rnd y - y) <= 2 * bpow radix2 (-900)). { apply Rabs_le_inv in S. apply Rabs_def2 in Hs. apply Rabs_le. lra. }
    apply Rabs_le_inv in Y. apply Rabs_le. lra.
  - pose proof (rnd_rel y Hb) as R. replace (bpow radix2 (-53)) with (/ 9007199254740992) in R by (symmetry; apply (bpn 53); [lia|reflexivity]).
    assert (A : Rabs y <= 2 * x) by (apply Rabs_le; nra).
    apply Rabs_le_inv in R. apply Rabs_le. lra.
Qed.
Lemma rel_bound x y e : 0 <= e <= 1 -> 0 <= x -> Rabs (y - x) <= e * x -> 0 <= y <= 2 * x.
Proof. intros He Hx H. apply Rabs_le_inv in H. nra. Qed.

Lemma quarter_exact lm W : (0 <= W <= 2 ^ 50)%Z -> W mod 4 = 0%Z ->
  let q := nmul (F64 lm) (nofZ (F64 lm) W) OVERLAP in is_finite (q : f64) = true /\ B2R (q : f64) = IZR (W / 4).
Proof.
  intros HW H4 q. assert (Fo : is_finite (OVERLAP (N:=F64 lm) : f64) = true) by (vm_compute; reflexivity).
  assert (Eo : B2R (OVERLAP (N:=F64 lm) : f64) = 1 / 4).
  { assert (B2SF (OVERLAP (N:=F64 lm) : f64) = SpecFloat.S754_finite false 4503599627370496 (-54)) by (vm_compute; reflexivity).
    rewrite <- SF2R_B2SF, H. unfold SF2R, F2R. cbn [Fnum Fexp cond_Zopp]. replace (bpow radix2 (-54)) with (/ 18014398509481984) by (symmetry; apply (bpn 54); [lia|reflexivity]). lra. }
  destruct (ofZ_exact W ltac:(lia)) as [Fw Ew].
  assert (X : IZR W * (1 / 4) = IZR (W / 4)). { assert (W = 4 * (W / 4))%Z as E by (pose proof (Z.div_mod W 4); lia). rewrite E at 1. rewrite mult_IZR. lra. }
  destruct (Bmult_fin (f64_ofZ W) (OVERLAP (N:=F64 lm)) Fw Fo) as [F E].
  { rewrite Ew, Eo, X. apply small_lt_big. apply Rle_trans with (bpow radix2 53); [apply IZR_le_bpow; lia|apply bpow_le; lia]. }
  split; [exact F|]. etransitivity; [exact E|]. rewrite Ew, Eo, X. apply rnd_IZR. lia.
Qed.

(** Time of frame [r] and back to samples. *)
Lemma frame_sample (q : f64) h rate r : is_finite q = true -> B2R q = IZR h -> (1 <= h)%Z -> (0 <= r)%Z -> (r * h <= 2 ^ 40)%Z -> (h <= 2 ^ 40)%Z -> (1 <= rate <= 2 ^ 32)%Z ->
  let fd := Bdiv mode_NE q (f64_ofZ rate) in
  let t := Bmult mode_NE (f64_ofZ r) fd in
  let p := Bmult mode_NE t (f64_ofZ rate) in
  is_finite t = true /\ 0 <= B2R t /\ is_finite p = true /\ 0 <= B2R p /\ Rabs (B2R p - IZR (r * h)) <= / 1024.
Proof.
  intros Fq Eq Hh Hr Hrh Hh2 Hrate fd t p.
  assert (Hr2 : (r <= 2 ^ 40)%Z) by nia.
  destruct (ofZ_exact r ltac:(lia)) as [Fr Er]. destruct (ofZ_exact rate ltac:(lia)) as [Fa Ea].
  assert (B40 : bpow radix2 40 = 1099511627776) by (apply (bp 40); reflexivity || lia).
  assert (Ih : 1 <= IZR h <= 1099511627776) by (split; apply IZR_le; lia).
  assert (Ir : 0 <= IZR r <= 1099511627776) by (split; apply IZR_le; lia).
  assert (Ia : 1 <= IZR rate <= 4294967296) by (split; apply IZR_le; lia).
  assert (Irh : 0 <= IZR r * IZR h <= 1099511627776) by (rewrite <- mult_IZR; split; apply IZR_le; nia).
  assert (Q0 : 0 < / IZR rate) by (apply Rinv_0_lt_compat; lra).
  assert (Q1 : / IZR rate <= 1) by (rewrite <- Rinv_1; apply Rinv_le; lra).
  assert (Q2 : / 4294967296 <= / IZR rate) by (apply Rinv_le; lra).
  assert (S32 : bpow radix2 (-800) <= / 4294967296).
  { replace (/ 4294967296) with (bpow radix2 (-32)) by (apply (bpn 32); reflexivity || lia). apply bpow_le. lia. }
  assert (Big : forall x, Rabs x <= 1099511627776 * 2 -> Rabs (rnd x) < big).
  { intros x Hx. apply small_lt_big. apply Rle_trans with (bpow radix2 41); [|apply bpow_le; lia]. replace (bpow radix2 41) with 2199023255552 by (symmetry; apply (bp 41); reflexivity || lia). lra. }
  set (u := / 4503599627370496) in *. assert (Hu : u = / 4503599627370496) by reflexivity. clearbody u.
  set (x1 := IZR h / IZR rate). assert (X1 : / 4294967296 <= x1 <= 1099511627776).
  { unfold x1, Rdiv. split; [apply Rle_trans with (1 * / IZR rate); [lra|apply Rmult_le_compat_r; lra]|].
    apply Rle_trans with (1099511627776 * 1); [apply Rmult_le_compat; lra|lra]. }
  destruct (Bdiv_fin q (f64_ofZ rate) Fq Fa) as [Ffd Efd]; [rewrite Ea; lra| |].
  { rewrite Eq, Ea. apply Big. fold x1. rewrite Rabs_pos_eq; lra. }
  fold fd in Ffd, Efd. rewrite Eq, Ea in Efd. fold x1 in Efd.
  assert (D1 : Rabs (B2R fd - x1) <= u * x1).
  { rewrite Efd. replace u with (0 + / 4503599627370496) by (rewrite Hu; ring). apply rel_step; try lra. rewrite Rminus_eq_0, Rabs_R0. lra. }
  assert (P1 : 0 <= B2R fd <= 2 * x1) by (apply (rel_bound x1 _ u); try lra; rewrite Hu; lra).
  assert (X2 : IZR r * x1 = IZR r * IZR h / IZR rate) by (unfold x1; field; lra).
  assert (X2b : 0 <= IZR r * x1 <= 1099511627776).
  { rewrite X2. unfold Rdiv. split; [apply Rmult_le_pos; lra|]. apply Rle_trans with (1099511627776 * 1); [apply Rmult_le_compat; lra|lra]. }
  assert (D2 : Rabs (IZR r * B2R fd - IZR r * x1) <= u * (IZR r * x1)).
  { rewrite <- Rmult_minus_distr_l, Rabs_mult, Rabs_pos_eq by lra. replace (u * (IZR r * x1)) with (IZR r * (u * x1)) by ring. apply Rmult_le_compat_l; lra. }
  assert (P2 : 0 <= IZR r * B2R fd <= 2 * (IZR r * x1)) by (apply (rel_bound _ _ u); try lra; rewrite Hu; lra).
  destruct (Bmult_fin (f64_ofZ r) fd Fr Ffd) as [Ft Et].
  { rewrite Er. apply Big. rewrite Rabs_pos_eq; lra. }
  fold t in Ft, Et. rewrite Er in Et.
  assert (Pt : 0 <= B2R t) by (rewrite Et; apply rnd_sign; lra).
  destruct (Z.eq_dec r 0) as [-> |Nr].
  - assert (Zt : B2R t = 0). { rewrite Et, Rmult_0_l. apply round_0. auto with typeclass_instances. }
    destruct (Bmult_fin t (f64_ofZ rate) Ft Fa) as [Fp Ep].
    { rewrite Zt, Rmult_0_l. apply Big. rewrite Rabs_R0. lra. }
    fold p in Fp, Ep. rewrite Zt, Rmult_0_l, round_0 in Ep by auto with typeclass_instances. repeat split; auto; [rewrite Ep; lra|]. rewrite Ep. rewrite Rminus_eq_0, Rabs_R0. lra.
  - assert (Ir1 : 1 <= IZR r) by (apply IZR_le; lia).
    assert (D3 : Rabs (B2R t - IZR r * x1) <= (u + u) * (IZR r * x1)).
    { rewrite Et, Hu at 1. rewrite Hu at 1. apply rel_step; try lra; [|rewrite <- Hu; exact D2]. nra. }
    assert (X3 : IZR r * x1 * IZR rate = IZR r * IZR h) by (rewrite X2; field; lra).
    assert (D4 : Rabs (B2R t * IZR rate - IZR r * IZR h) <= (u + u) * (IZR r * IZR h)).
    { rewrite <- X3, <- Rmult_minus_distr_r, Rabs_mult, (Rabs_pos_eq (IZR rate)) by lra.
      replace ((u + u) * (IZR r * x1 * IZR rate)) with ((u + u) * (IZR r * x1) * IZR rate) by ring. apply Rmult_le_compat_r; lra. }
    assert (P4 : 0 <= B2R t * IZR rate <= 2 * (IZR r * IZR h)) by (apply (rel_bound _ _ (u + u)); try lra; rewrite Hu; lra).
    destruct (Bmult_fin t (f64_ofZ rate) Ft Fa) as [Fp Ep].
    { rewrite Ea. apply Big. rewrite Rabs_pos_eq; lra. }
    fold p in Fp, Ep. rewrite Ea in Ep. repeat split; auto; [rewrite Ep; apply rnd_sign; lra|].
    rewrite mult_IZR, Ep. eapply Rle_trans; [apply (rel_step _ _ (u + u)); try exact D4; [rewrite Hu; lra|nra]|].
    rewrite Hu. nra.
Qed.
Lemma near_trunc (p : f64) k : (0 <= k < 2 ^ 63)%Z -> is_finite p = true -> Rabs (B2R p - IZR k) <= / 1024 -> (k = 0%Z -> 0 <= B2R p) ->
  let n := f64_cast 0 (2 ^ 64 - 1) p in n = k \/ (n = k - 1)%Z /\ (1 <= k)%Z.
Proof.
  intros Hk Fp D H0 n. unfold n. rewrite cast_fin by auto. apply Rabs_le_inv in D. set (x := B2R p) in *. clearbody x.
  destruct (Z.eq_dec k 0) as [-> |Nk].
  - left. specialize (H0 eq_refl). rewrite Ztrunc_floor by lra. replace (Zfloor x) with 0%Z; [reflexivity|]. symmetry. apply Zfloor_imp. simpl. lra.
  - assert (K : 1 <= IZR k) by (apply IZR_le; lia). rewrite Ztrunc_floor by lra. destruct (Rle_or_lt (IZR k) x).
    + left. assert (Zfloor x = k) as -> by (apply Zfloor_imp; rewrite plus_IZR; lra). lia.
    + right. assert (Zfloor x = (k - 1)%Z) as -> by (apply Zfloor_imp; rewrite plus_IZR, minus_IZR; lra). lia.
Qed.
Lemma C50_f64 lm (s seg : AudioSignal (F64 lm)) W r e :
  (4 <= W)%Z -> (W mod 4 = 0)%Z -> (0 <= r)%Z -> (r * (W / 4) <= 2 ^ 40)%Z -> (W <= 2 ^ 40)%Z -> (1 <= sample_rate s <= 2 ^ 32)%Z ->
  let fd := calculate_frame_duration (nmul (F64 lm) (nofZ (F64 lm) W) OVERLAP) (sample_rate s) in
  slice s (nmul (F64 lm) (nofZ (F64 lm) r) fd) e = Ok seg ->
  exists k n zeros, (k = r * (W / 4) \/ k = r * (W / 4) - 1)%Z /\ (0 <= k)%Z /\
    data_matrix seg = firstn n (skipn (Z.to_nat k) (data_matrix s)) ++ repeat (f64_ofZ 0) zeros.
Proof.
  intros HW H4 Hr Hrh HW2 Hrate fd H.
  assert (HW4 : (1 <= W / 4 <= 2 ^ 40)%Z) by (split; [apply Z.div_le_lower_bound; lia|apply Z.div_le_upper_bound; lia]).
  destruct (quarter_exact lm W ltac:(lia) H4) as [Fq Eq]. cbv zeta in Fq, Eq.
  destruct (frame_sample (nmul (F64 lm) (nofZ (F64 lm) W) OVERLAP) (W / 4) (sample_rate s) r Fq Eq) as (Ft & Pt & Fp & Pp & D); try lia.
  unfold slice in H. cbv zeta in H. inv_do H.
  set (t := nmul (F64 lm) (nofZ (F64 lm) r) fd) in *.
  set (k := as_usize (nmul (F64 lm) t (nofZ (F64 lm) (sample_rate s)))) in *.
  assert (Kk : k = (r * (W / 4))%Z \/ (k = r * (W / 4) - 1)%Z /\ (1 <= r * (W / 4))%Z).
  { unfold k, as_usize. apply near_trunc; [nia|exact Fp|exact D|]. intros _. exact Pp. }
  assert (Nn : nltb (F64 lm) t (nofZ (F64 lm) 0) = false).
  { cbn [nltb F64 nofZ]. apply Bltb_false_iff; [apply is_nan_finite; exact Ft|vm_compute; reflexivity|]. rewrite (ext_finite t) by exact Ft. rewrite ofZ_ext by lia. exact Pt. }
  rewrite Nn in Hk. apply zslice_ok in Hv as [Hv ->].
  match type of Hk with Ok {| data_matrix := if ?c then ?a ++ repeat _ ?z else _; sample_rate := _ |} = _ =>
    exists k, (Z.to_nat (Z.min (as_usize (nmul (F64 lm) e (nofZ (F64 lm) (sample_rate s)))) (sig_len s) - k)), (if c then z else O) end.
  split; [destruct Kk as [K|[K _]]; [left|right]; exact K|]. split; [lia|].
  match type of Hk with Ok ?a = _ => assert (E : a = seg) by congruence end. rewrite <- E. cbn [data_matrix].
  destruct (0 <? _)%Z; [reflexivity|]. cbn [repeat]. rewrite app_nil_r. reflexivity.
Qed.

(** At 48 kHz frame 29 (the second patch in fullband) starts one sample early. *)
Lemma C50_48k lm (s seg : AudioSignal (F64 lm)) e : sample_rate s = 48000%Z ->
  let w := new_window (N:=F64 lm) 48000 OVERLAP WINDOW_DURATION in
  let fd := calculate_frame_duration (nmul (F64 lm) (nofZ (F64 lm) (win_size w)) (win_overlap w)) 48000 in
  slice s (nmul (F64 lm) (nofZ (F64 lm) 29) fd) e = Ok seg ->
  hop_size w = 960%Z /\
  exists n zeros, data_matrix seg = firstn n (skipn (Z.to_nat (29 * 960 - 1)) (data_matrix s)) ++ repeat (f64_ofZ 0) zeros.
Proof.
  intros Hr w fd H. split; [vm_compute; reflexivity|].
  unfold slice in H. cbv zeta in H. rewrite Hr in H. inv_do H. apply zslice_ok in Hv as [_ ->].
  set (t := nmul (F64 lm) (nofZ (F64 lm) 29) fd) in *.
  assert (K : as_usize (nmul (F64 lm) t (nofZ (F64 lm) 48000)) = (29 * 960 - 1)%Z) by (vm_compute; reflexivity).
  assert (Nn : nltb (F64 lm) t (nofZ (F64 lm) 0) = false) by (vm_compute; reflexivity).
  rewrite Nn, K in Hk.
  match type of Hk with Ok {| data_matrix := if ?c then firstn ?a _ ++ repeat _ ?z else _; sample_rate := _ |} = _ => exists a, (if c then z else O) end.
  match type of Hk with Ok ?a = _ => assert (E : a = seg) by congruence end. rewrite <- E. cbn [data_matrix].
  destruct (0 <? _)%Z; [reflexivity|]. cbn [repeat]. rewrite app_nil_r. reflexivity.
Qed.

(** ** Exact arithmetic *)
Lemma R_dur (w : AnalysisWindow RN) rate : win_overlap w = OVERLAP -> calculate_frame_duration (nmul RN (nofZ RN (win_size w)) (win_overlap w)) rate = frame_dur (win_size w) rate.
Proof. intros ->. reflexivity. Qed.
Lemma start_drift W r : (0 <= r)%Z -> (r * W / 4 = r * (W / 4) + r * (W mod 4) / 4)%Z.
Proof.
  intros Hr. pose proof (Z.div_mod W 4 ltac:(lia)) as E. rewrite E at 1. rewrite Z.mul_add_distr_l.
  replace (r * (4 * (W / 4)))%Z with (r * (W / 4) * 4)%Z by ring. rewrite Z.div_add_l by lia. reflexivity.
Qed.
Lemma C50_exact (s : AudioSignal RN) w r fp : win_overlap w = OVERLAP -> (1 <= sample_rate s)%Z -> (0 <= win_size w)%Z -> (0 <= r)%Z -> (0 <= fp)%Z ->
  ((r + fp) * win_size w < 2 ^ 66)%Z -> (sig_len s < 2 ^ 62)%Z ->
  let fd := calculate_frame_duration (nmul RN (nofZ RN (win_size w)) (win_overlap w)) (sample_rate s) in
  let start := (r * (win_size w / 4) + r * (win_size w mod 4) / 4)%Z in
  let stop := ((r + fp) * (win_size w / 4) + (r + fp) * (win_size w mod 4) / 4)%Z in
  slice s (IZR r * fd) (IZR r * fd + fd * IZR fp) =
  if (start <=? sig_len s)%Z
  then Ok {| data_matrix := firstn (Z.to_nat (stop - start)) (skipn (Z.to_nat start) (data_matrix s)) ++ repeat (0 : num RN) (Z.to_nat (stop - sig_len s)); sample_rate := sample_rate s |}
  else Panic PIndex.
Proof.
  intros Hw Hrate HW Hr Hfp Hb Hl fd start stop. unfold fd. rewrite R_dur by auto.
  pose proof (slice_R s (win_size w) r fp Hrate HW Hr Hfp Hb Hl) as E. cbv zeta in E.
  rewrite (start_drift (win_size w) r Hr), (start_drift (win_size w) (r + fp)) in E by lia. exact E.
Qed.
Lemma C50_panics pf nb (rs ds : AudioSignal RN) w fb (old : PatchSim RN) r fp : win_overlap w = OVERLAP -> (1 <= sample_rate rs)%Z -> (0 <= win_size w)%Z -> (0 <= r)%Z -> (0 <= fp)%Z ->
  ((r + fp) * win_size w < 2 ^ 66)%Z -> (sig_len rs < 2 ^ 62)%Z ->
  let fd := calculate_frame_duration (nmul RN (nofZ RN (win_size w)) (win_overlap w)) (sample_rate rs) in
  ref_patch_start_time old = IZR r * fd -> ref_patch_end_time old = IZR r * fd + fd * IZR fp -> deg_patch_start_time old <> deg_patch_end_time old ->
  (sig_len rs < r * (win_size w / 4) + r * (win_size w mod 4) / 4)%Z ->
  realign_patch pf nb rs ds w fb old = (fb, Panic PIndex).
Proof.
  intros Hw Hrate HW Hr Hfp Hb Hl fd E1 E2 Hd Hs. unfold realign_patch.
  assert (L : is_lost old = false).
  { unfold is_lost. cbn [neqb RN]. unfold Reqb. destruct (Req_EM_T (deg_patch_start_time old) (deg_patch_end_time old)); [contradiction|reflexivity]. }
  rewrite L, E1, E2. pose proof (C50_exact rs w r fp Hw Hrate HW Hr Hfp Hb Hl) as S. cbv zeta in S. fold fd in S. rewrite S.
  destruct (Z.leb_spec (r * (win_size w / 4) + r * (win_size w mod 4) / 4) (sig_len rs)); [lia|reflexivity].
Qed.
