(** C77 in binary64: what the reported similarities were measured on. *)
From Coq Require Import Reals Lra Lia Psatz.
From Flocq Require Import Core IEEE754.BinarySingleNaN.
From Verif Require Import Base Num Mat RNum F64 M_Audio M_Align M_Spectro M_Patch M_Nsim M_Selector M_Visqol Spec Spec2 Spec16 Spec17.
From Verif Require Import P_Base P_Mat P_Audio P_Manager P_Run P_Spectro P_Times P_Slice P_F64 P_Win P_Segment P_Agg P_Score P_Patch P_Vad P_Same P_Same2 P_Nsim P_SilRef P_Compare P_Order P_LevelF P_OrderF P_Prov.
Open Scope R_scope.

Section Clock.
Variable rate : Z.
Hypothesis Hrate : (1 <= rate < 2 ^ 32)%Z.

(** ** The segments *)
Lemma slice_F_what lm (s seg : AudioSignal (F64 lm)) t0 t1 a b e f : sample_rate s = rate -> sm rate t0 (IZR a) e -> sm rate t1 (IZR b) f -> 0 <= B2R t0 ->
  (0 <= a <= b)%Z -> (b <= 2 ^ 36)%Z -> (sig_len s <= 2 ^ 36)%Z -> 0 <= e <= / 256 -> 0 <= f <= / 256 ->
  slice s t0 t1 = Ok seg -> exists a' n, (Z.max 0 (a - 1) <= a' <= a)%Z /\ (0 <= n)%Z /\ (b - a - 1 <= n <= b - a + 1)%Z /\
    seg = {| data_matrix := stretch (nofZ (F64 lm) 0) (data_matrix s) a' n; sample_rate := rate |}.
Proof.
  intros HR S0 S1 P0 Hab Hb HL He Hf H. pose proof (zlen_nonneg (data_matrix s)) as L0. change (zlen (data_matrix s)) with (sig_len s) in L0.
  pose proof (slice_F_len rate Hrate lm s seg t0 t1 a b e f HR S0 S1 P0 Hab Hb HL He Hf H) as [SR SL].
  unfold slice in H. cbv zeta in H. rewrite HR in H. inv_do H.
  pose proof (usize_sm rate Hrate lm t0 a e S0 ltac:(lia) ltac:(lra)) as I0. pose proof (usize_sm rate Hrate lm t1 b f S1 ltac:(lia) ltac:(lra)) as I1.
  assert (I2 : (as_usize (N:=F64 lm) (nsub (F64 lm) (nmul (F64 lm) t1 (nofZ (F64 lm) rate)) (nofZ (F64 lm) (sig_len s))) <= Z.max 0 (b - sig_len s))%Z).
  { destruct (to_samples rate Hrate t1 _ _ S1 ltac:(rewrite <- abs_IZR; apply IZR_le; lia) ltac:(lra)) as [F D].
    destruct (ofZ_exact (sig_len s) ltac:(lia)) as [Fl El]. set (p := Bmult mode_NE t1 (f64_ofZ rate)) in *.
    assert (Ib : 0 <= IZR b <= 68719476736) by (split; apply IZR_le; lia). assert (Il : 0 <= IZR (sig_len s) <= 68719476736) by (split; apply IZR_le; lia).
    apply Rabs_le_inv in D. assert (U : ut * 256 <= / 1024) by (unfold ut; lra).
    assert (Z1 : Rabs (B2R p - IZR (sig_len s)) <= 68719476737) by (apply Rabs_le; lra).
    pose proof (rnd_abs (B2R p - IZR (sig_len s))) as R. assert (B : bpow radix2 (-700) <= 1) by (apply (bpow_le radix2 _ 0); lia). assert (P : 0 < bpow radix2 (-700)) by apply bpow_gt_0.
    destruct (Bminus_fin p (f64_ofZ (sig_len s)) F Fl) as [G K].
    { rewrite El. apply small_lt_big. apply Rle_trans with (bpow radix2 41); [|apply bpow_le; lia]. replace (bpow radix2 41) with 2199023255552 by (symmetry; apply (bp 41); reflexivity || lia). lra. }
    unfold as_usize. apply (usz _ (b - sig_len s)); [lia|exact G|]. 
    change (nsub (F64 lm) (nmul (F64 lm) t1 (nofZ (F64 lm) rate)) (nofZ (F64 lm) (sig_len s))) with (Bminus mode_NE p (f64_ofZ (sig_len s))).
    rewrite K, El. rewrite minus_IZR. rewrite uu_val in R.
    assert (R' : Rabs (rnd (B2R p - IZR (sig_len s)) - (B2R p - IZR (sig_len s))) <= / 9007199254740992 * (68719476737 + 1)) by (eapply Rle_trans; [exact R|apply Rmult_le_compat_l; lra]).
    apply Rabs_le_inv in R'. apply Rabs_le. lra. }
  assert (Nn : nltb (F64 lm) t0 (nofZ (F64 lm) 0) = false).
  { cbn [nltb F64 nofZ]. destruct S0 as [F0 _]. apply Bltb_false_iff; [apply is_nan_finite; exact F0|vm_compute; reflexivity|]. rewrite (ext_finite t0) by exact F0. rewrite ofZ_ext by lia. exact P0. }
  rewrite Nn in Hk.
  set (i0 := as_usize (nmul (F64 lm) t0 (nofZ (F64 lm) rate))) in *. set (i1 := as_usize (nmul (F64 lm) t1 (nofZ (F64 lm) rate))) in *.
  set (i2 := as_usize (nsub (F64 lm) (nmul (F64 lm) t1 (nofZ (F64 lm) rate)) (nofZ (F64 lm) (sig_len s)))) in *.
  match type of Hk with Ok ?x = _ => assert (E : seg = x) by congruence end. clear Hk.
  assert (I2p : (0 <= i2)%Z) by (unfold i2, as_usize; apply cast_range; lia).
  clearbody i0 i1 i2. apply zslice_ok in Hv. destruct Hv as [[V1 V2] EV]. change (zlen (data_matrix s)) with (sig_len s) in V2.
  set (top := Z.min i1 (sig_len s)) in *.
  exists i0, (top - i0 + i2)%Z. split; [lia|]. split; [lia|].
  assert (D : data_matrix seg = stretch (nofZ (F64 lm) 0) (data_matrix s) i0 (top - i0 + i2)).
  { rewrite E. cbn [data_matrix]. assert (EB : (if (0 <? i2)%Z then v ++ repeat (nofZ (F64 lm) 0) (Z.to_nat i2) else v) = v ++ repeat (nofZ (F64 lm) 0) (Z.to_nat i2)).
    { destruct (Z.ltb_spec 0 i2); [reflexivity|]. replace (Z.to_nat i2) with 0%nat by lia. cbn [repeat]. rewrite app_nil_r. reflexivity. }
    rewrite EB, EV. destruct (Z.eq_dec i2 0) as [Z2|Z2].
    - pose proof (slice_stretch (nofZ (F64 lm) 0) (data_matrix s) i0 top ltac:(lia) ltac:(unfold sig_len in *; lia)) as SS. rewrite Z2 in *. replace (top - i0 + 0)%Z with (top - i0)%Z by lia. rewrite <- SS.
      do 2 f_equal. unfold sig_len in *. lia.
    - assert (T : top = sig_len s) by lia. pose proof (slice_stretch (nofZ (F64 lm) 0) (data_matrix s) i0 (top + i2) ltac:(lia) ltac:(unfold sig_len in *; lia)) as SS.
      replace (top - i0 + i2)%Z with (top + i2 - i0)%Z by lia. rewrite <- SS. f_equal; [|f_equal; unfold sig_len in *; lia].
      rewrite !firstn_all2; [reflexivity| |]; rewrite skipn_length; unfold sig_len, zlen in *; lia. }
  split.
  - assert (LL : sig_len seg = (top - i0 + i2)%Z) by (unfold sig_len; rewrite D; apply stretch_len; lia). lia.
  - destruct seg as [dm sr]. cbn [data_matrix sample_rate] in D, SR. rewrite D, SR. reflexivity.
Qed.

(** ** The parts fine alignment keeps *)
Lemma trunc_what_F lm pf (rs ds r d : AudioSignal (F64 lm)) lag : sample_rate rs = rate -> sample_rate ds = rate -> (Z.abs (sig_len ds - sig_len rs) <= 2)%Z -> (sig_len rs <= 2 ^ 35)%Z ->
  align_and_truncate pf rs ds = Ok (Some (r, d, lag)) ->
  sample_rate r = rate /\ sample_rate d = rate /\
  exists k z m, (0 <= k)%Z /\ (2 * k <= sig_len rs)%Z /\ (0 <= z <= 2)%Z /\ (0 <= m)%Z /\
    ((sm rate lag (- IZR k) (ut * 128) /\ B2R lag <= 0 /\ z = 0%Z /\ (k + m <= sig_len ds)%Z /\ (m <= sig_len rs)%Z /\
      data_matrix r = firstn (Z.to_nat m) (data_matrix rs) /\ data_matrix d = firstn (Z.to_nat m) (skipn (Z.to_nat k) (data_matrix ds))) \/
     (sm rate lag (IZR k) (ut * 128) /\ 0 < B2R lag /\ (z <= k)%Z /\ (k + m <= sig_len rs)%Z /\ (m <= sig_len ds)%Z /\
      data_matrix r = firstn (Z.to_nat (z + m)) (skipn (Z.to_nat (k - z)) (data_matrix rs)) /\ data_matrix d = repeat (nofZ (F64 lm) 0) (Z.to_nat z) ++ firstn (Z.to_nat m) (data_matrix ds))).
Proof.
  intros HR HD HL HB H. pose proof (C11_all pf rs ds r d lag ltac:(congruence) H) as (EQ & R1 & R2 & _). split; [congruence|]. split; [congruence|]. clear EQ R1 R2.
  unfold align_and_truncate in H. step H as o E0. destruct o as [[al lg]|]; [|discriminate]. step H as v E.
  assert (E1 : fst v = data_matrix r) by exact (f_equal (fun x : res (option (AudioSignal (F64 lm) * AudioSignal (F64 lm) * f64)) => match x with Ok (Some (a, _, _)) => data_matrix a | _ => fst v end) H).
  assert (E2 : snd v = data_matrix d) by exact (f_equal (fun x : res (option (AudioSignal (F64 lm) * AudioSignal (F64 lm) * f64)) => match x with Ok (Some (_, a, _)) => data_matrix a | _ => snd v end) H).
  assert (E3 : lg = lag) by exact (f_equal (fun x : res (option (AudioSignal (F64 lm) * AudioSignal (F64 lm) * f64)) => match x with Ok (Some (_, _, c)) => c | _ => lg end) H).
  clear H. subst lg. destruct (C10_shift _ _ _ _ _ E0) as [_ S]. clear E0.
  assert (Hd : (sig_len rs / 2 * 2 <= sig_len rs)%Z) by (rewrite Z.mul_comm; apply Z.mul_div_le; lia).
  pose proof (zlen_nonneg (data_matrix rs)) as L0. pose proof (zlen_nonneg (data_matrix ds)) as L1.
  rewrite HD in S. rewrite HR, HD in E. unfold sig_len in *. rewrite <- E1, <- E2.
  set (lr := zlen (data_matrix rs)) in *. set (ld := zlen (data_matrix ds)) in *.
  assert (SL : (data_matrix al = data_matrix ds /\ lag = nofZ (F64 lm) 0) \/
    (exists k, (1 <= k <= lr / 2)%Z /\ (k <= ld)%Z /\ data_matrix al = skipn (Z.to_nat k) (data_matrix ds) /\ lag = ndiv (F64 lm) (nofZ (F64 lm) (- k)) (nofZ (F64 lm) rate)) \/
    (exists k, (1 <= k <= lr / 2)%Z /\ data_matrix al = repeat (nofZ (F64 lm) 0) (Z.to_nat k) ++ data_matrix ds /\ lag = ndiv (F64 lm) (nofZ (F64 lm) k) (nofZ (F64 lm) rate))).
  { clear - S. destruct S as [|k Hk Hk2|k Hk]; [left; split; reflexivity|right; left; exists k; auto|right; right; exists k; auto]. }
  assert (U0 : 0 < ut) by (unfold ut; lra). assert (U1 : ut * 128 <= / 1024) by (unfold ut; lra).
  assert (FA : forall (l : list (num (F64 lm))) m, (zlen l <= m)%Z -> l = firstn (Z.to_nat m) l).
  { intros l m Hl. symmetry. apply firstn_all2. unfold zlen in Hl. lia. }
  assert (CUT : forall k, (0 <= k <= lr / 2)%Z -> (k <= ld)%Z -> data_matrix al = skipn (Z.to_nat k) (data_matrix ds) -> sm rate lag (- IZR k) (ut * 128) -> B2R (lag : f64) <= 0 ->
     exists m, (0 <= m)%Z /\ (k + m <= ld)%Z /\ (m <= lr)%Z /\ fst v = firstn (Z.to_nat m) (data_matrix rs) /\ snd v = firstn (Z.to_nat m) (skipn (Z.to_nat k) (data_matrix ds))).
  { intros k Hk Hkd SA SM SG. assert (Za : zlen (data_matrix al) = (ld - k)%Z) by (rewrite SA; unfold ld, zlen in *; rewrite skipn_length; lia). rewrite <- SA. rewrite Za in E.
    exists (Z.min lr (ld - k)). split; [lia|]. split; [lia|]. split; [lia|].
    destruct (Z.ltb_spec lr (ld - k)).
    - pose proof (usize_sm rate Hrate lm lag (- k) (ut * 128) ltac:(rewrite opp_IZR; exact SM) ltac:(lia) ltac:(lra)) as U. 
      step E as x Ex. step E as y Ey. injection E as <-. cbn [fst snd].
      set (i := as_usize (nmul (F64 lm) lag (nofZ (F64 lm) rate))) in *. assert (I0 : i = 0%Z) by lia. clearbody i. subst i.
      apply zslice_ok in Ex, Ey. destruct Ex as [_ ->], Ey as [_ ->]. cbn [Z.to_nat skipn]. rewrite Z.sub_0_r. split; f_equal; lia.
    - destruct (Z.ltb_spec (ld - k) lr).
      + step E as x Ex. injection E as <-. apply zslice_ok in Ex. destruct Ex as [_ ->]. cbn [fst snd Z.to_nat skipn]. rewrite Z.sub_0_r. split; [f_equal; lia|]. apply FA. lia.
      + injection E as <-. cbn [fst snd]. split; apply FA; fold lr; lia. }
  clear S. destruct SL as [[SA SB]|[(k & Hk & Hk2 & SA & SB)|(k & Hk & SA & SB)]].
  - assert (SM : sm rate lag (- IZR 0) (ut * 128)).
    { rewrite SB. split; [reflexivity|]. change (B2R (nofZ (F64 lm) 0 : f64)) with 0. rewrite Rmult_0_l, Ropp_0, Rminus_0_r, Rabs_R0. lra. }
    assert (SG : B2R (lag : f64) <= 0) by (rewrite SB; cbn; lra).
    destruct (CUT 0%Z ltac:(lia) ltac:(lia) SA SM SG) as (m & M0 & M1 & M2 & M3 & M4). exists 0%Z, 0%Z, m. split; [lia|]. split; [lia|]. split; [lia|]. split; [lia|]. left. auto 8.
  - pose proof (sm_whole rate Hrate (- k) ltac:(lia)) as SM. change (Bdiv mode_NE (f64_ofZ (- k)) (f64_ofZ rate)) with (ndiv (F64 lm) (nofZ (F64 lm) (- k)) (nofZ (F64 lm) rate) : f64) in SM.
    rewrite <- SB in SM. rewrite opp_IZR in SM. assert (K1 : 1 <= IZR k) by (apply IZR_le; lia). assert (RP : 1 <= IZR rate) by (apply IZR_le; lia).
    assert (SG : B2R (lag : f64) <= 0) by (destruct SM as [_ D]; apply Rabs_le_inv in D; nra).
    destruct (CUT k ltac:(lia) ltac:(lia) SA SM SG) as (m & M0 & M1 & M2 & M3 & M4). exists k, 0%Z, m. split; [lia|]. split; [lia|]. split; [lia|]. split; [lia|]. left. auto 8.
  - pose proof (sm_whole rate Hrate k ltac:(lia)) as SM. change (Bdiv mode_NE (f64_ofZ k) (f64_ofZ rate)) with (ndiv (F64 lm) (nofZ (F64 lm) k) (nofZ (F64 lm) rate) : f64) in SM.
    rewrite <- SB in SM. assert (K1 : 1 <= IZR k) by (apply IZR_le; lia). assert (RP : 1 <= IZR rate) by (apply IZR_le; lia).
    assert (SG : 0 < B2R (lag : f64)) by (destruct SM as [_ D]; apply Rabs_le_inv in D; nra).
    assert (Za : zlen (data_matrix al) = (ld + k)%Z) by (rewrite SA; unfold ld, zlen in *; rewrite app_length, repeat_length; lia).
    rewrite Za in E. exists k.
    assert (LV : exists z m, (0 <= z <= 2)%Z /\ (0 <= m)%Z /\ (z <= k)%Z /\ (k + m <= lr)%Z /\ (m <= ld)%Z /\
      fst v = firstn (Z.to_nat (z + m)) (skipn (Z.to_nat (k - z)) (data_matrix rs)) /\ snd v = repeat (nofZ (F64 lm) 0) (Z.to_nat z) ++ firstn (Z.to_nat m) (data_matrix ds)).
    { destruct (Z.ltb_spec lr (ld + k)).
      - pose proof (usize_sm rate Hrate lm lag k (ut * 128) SM ltac:(lia) ltac:(lra)) as U. 
        step E as x Ex. step E as y Ey. injection E as <-. cbn [fst snd].
        set (i := as_usize (nmul (F64 lm) lag (nofZ (F64 lm) rate))) in *. clearbody i. apply zslice_ok in Ex, Ey. destruct Ex as [_ ->], Ey as [_ ->].
        exists (k - i)%Z, (lr - k)%Z. split; [lia|]. split; [lia|]. split; [lia|]. split; [lia|]. split; [lia|]. split; [f_equal; [lia|f_equal; lia]|].
        rewrite SA, skipn_app, firstn_app, repeat_length, skipn_length, repeat_length. replace (Z.to_nat i - Z.to_nat k)%nat with 0%nat by lia. cbn [skipn].
        assert (RS : forall a b, skipn a (repeat (nofZ (F64 lm) 0) (a + b)) = repeat (nofZ (F64 lm) 0) b) by (clear; intros a b; induction a; [reflexivity|exact IHa]).
        replace (Z.to_nat k) with (Z.to_nat i + Z.to_nat (k - i))%nat at 1 by lia. rewrite RS. rewrite firstn_all2 by (rewrite repeat_length; lia). f_equal. f_equal. lia.
      - destruct (Z.ltb_spec (ld + k) lr).
        + step E as x Ex. injection E as <-. apply zslice_ok in Ex. destruct Ex as [_ ->]. cbn [fst snd].
          exists k, ld. split; [lia|]. split; [lia|]. split; [lia|]. split; [lia|]. split; [lia|]. rewrite Z.sub_diag. cbn [Z.to_nat skipn]. split; [f_equal; lia|]. rewrite SA. f_equal. apply FA. unfold ld. lia.
        + injection E as <-. cbn [fst snd]. exists k, ld. split; [lia|]. split; [lia|]. split; [lia|]. split; [lia|]. split; [lia|]. rewrite Z.sub_diag. cbn [Z.to_nat skipn].
          split; [apply FA; fold lr; lia|]. rewrite SA. f_equal. apply FA. unfold ld. lia. }
    destruct LV as (z & m & Z0 & M0 & Z1 & M1 & M2 & M3 & M4). exists z, m. split; [lia|]. split; [lia|]. split; [lia|]. split; [lia|]. right. auto 8.
Qed.
End Clock.

(** ** One patch *)
Definition whatF lm nb rate (xs ys : list f64) (PX PY : mat (F64 lm)) h fp (r : Z) (p : PatchSim (F64 lm)) : Prop :=
  exists i len, (0 <= i)%Z /\ (0 <= len)%Z /\ near_sample rate (B2R (ref_patch_start_time p : f64)) i (/ 256) /\
    Rabs ((B2R (ref_patch_end_time p : f64) - B2R (ref_patch_start_time p : f64)) * IZR rate - IZR len) <= / 128 /\
    ((deg_patch_start_time p = f64_ofZ 0 /\ deg_patch_end_time p = f64_ofZ 0 /\ similarity p = f64_ofZ 0 /\ Forall (fun x : f64 => x = f64_ofZ 0) (freq_band_means p)) \/
     exists j q z, (0 <= j)%Z /\ (0 <= z <= 2)%Z /\ (z <= i)%Z /\ (z <= len)%Z /\ near_sample rate (B2R (deg_patch_start_time p : f64)) j (/ 256) /\
       Rabs ((B2R (deg_patch_end_time p : f64) - B2R (deg_patch_start_time p : f64)) * IZR rate - IZR len) <= / 128 /\ reports p q /\
       (compared (N:=F64 lm) nb rate (stretch (f64_ofZ 0) xs (i - z) len) (repeat (f64_ofZ 0) (Z.to_nat z) ++ stretch (f64_ofZ 0) ys j (len - z)) q \/
        exists b, i = (r * h)%Z /\ j = (b * h)%Z /\ len = (fp * h)%Z /\ z = 0%Z /\ (0 <= b)%Z /\
          measure_patch_similarity (patch_at PX r (Z.to_nat fp)) (patch_at PY b (Z.to_nat fp)) = Ok q)).
Lemma near_sm rate t v e i : sm rate t (IZR v) e -> e <= / 256 -> (v - 1 <= i <= v)%Z -> near_sample rate (B2R t) i (/ 256).
Proof.
  intros [_ H] He [Hi1 Hi2]. apply IZR_le in Hi1, Hi2. rewrite minus_IZR in Hi1. apply Rabs_le_inv in H. unfold near_sample. lra.
Qed.
Lemma dur_sm rate s t v len e f : sm rate s (IZR v) e -> sm rate t (IZR (v + len)) f -> e <= / 256 -> f <= / 256 ->
  Rabs ((B2R t - B2R s) * IZR rate - IZR len) <= / 128.
Proof.
  intros [_ H] [_ K] He Hf. rewrite plus_IZR in K. apply Rabs_le_inv in H, K. apply Rabs_le. lra.
Qed.
Lemma realign_what_F lm pf nb (rs ds : AudioSignal (F64 lm)) w (f f' : Filterbank (F64 lm)) old p sim lost off r fp rate (q : f64) h (PX PY : mat (F64 lm)) :
  (1 <= rate < 2 ^ 32)%Z -> w = new_window rate OVERLAP WINDOW_DURATION -> fb_min_freq f = MINIMUM_FREQ ->
  sample_rate rs = rate -> sample_rate ds = rate -> is_finite q = true -> B2R q = IZR h ->
  (1 <= h)%Z -> (20 <= fp <= 30)%Z -> (0 <= r)%Z -> (0 <= off)%Z -> ((r + fp) * h <= 2 ^ 34)%Z -> ((off + fp) * h <= 2 ^ 34)%Z -> (sig_len rs <= 2 ^ 34)%Z -> (sig_len ds <= 2 ^ 34)%Z ->
  let fd := ndiv (F64 lm) q (nofZ (F64 lm) rate) in
  measure_patch_similarity (patch_at PX r (Z.to_nat fp)) (patch_at PY off (Z.to_nat fp)) = Ok sim ->
  old = set_times (N:=F64 lm) sim lost off r fd (nmul (F64 lm) fd (nofZ (F64 lm) fp)) -> realign_patch pf nb rs ds w f old = (f', Ok p) ->
  whatF lm nb rate (data_matrix rs) (data_matrix ds) PX PY h fp r p.
Proof.
  intros Hrate Ew FM HR HD Fq Eq Hh Hfp Hr Ho B1 B2 L1 L2 fd ME Eold H.
  assert (U0 : 0 < ut) by (unfold ut; lra). assert (U1 : ut * 2048 <= / 1024) by (unfold ut; lra).
  destruct (sm_hops rate Hrate q h r Fq Eq Hh Hr ltac:(nia) ltac:(nia)) as (Sr & _ & Pr).
  destruct (sm_hops rate Hrate q h off Fq Eq Hh Ho ltac:(nia) ltac:(nia)) as (So & _ & Po).
  destruct (sm_hops rate Hrate q h fp Fq Eq Hh ltac:(lia) ltac:(nia) ltac:(nia)) as (_ & Sp & _).
  change (Bdiv mode_NE q (f64_ofZ rate)) with (fd : f64) in *.
  set (n := (fp * h)%Z) in *. assert (Hn : (20 <= n)%Z) by (unfold n; nia).
  assert (AB : forall z, (0 <= z <= 2 ^ 36)%Z -> Rabs (IZR z) <= 68719476736) by (intros z Hz; rewrite <- abs_IZR; apply IZR_le; lia).
  assert (Sre : sm rate (Bplus mode_NE (Bmult mode_NE (f64_ofZ r) fd) (Bmult mode_NE fd (f64_ofZ fp))) (IZR (r * h + n)) (ut * 640)).
  { rewrite plus_IZR. eapply sm_mono; [|apply (sm_plus rate Hrate _ _ _ _ _ _ Sr Sp); [rewrite <- plus_IZR; apply AB; unfold n; nia|lra|lra|lra]]. lra. }
  assert (Soe : sm rate (Bplus mode_NE (Bmult mode_NE (f64_ofZ off) fd) (Bmult mode_NE fd (f64_ofZ fp))) (IZR (off * h + n)) (ut * 640)).
  { rewrite plus_IZR. eapply sm_mono; [|apply (sm_plus rate Hrate _ _ _ _ _ _ So Sp); [rewrite <- plus_IZR; apply AB; unfold n; nia|lra|lra|lra]]. lra. }
  assert (RST : ref_patch_start_time old = Bmult mode_NE (f64_ofZ r) fd) by (rewrite Eold; reflexivity).
  assert (REN : ref_patch_end_time old = Bplus mode_NE (Bmult mode_NE (f64_ofZ r) fd) (Bmult mode_NE fd (f64_ofZ fp))) by (rewrite Eold; reflexivity).
  assert (OLD : p = old -> whatF lm nb rate (data_matrix rs) (data_matrix ds) PX PY h fp r p).
  { intros ->. exists (r * h)%Z, n. split; [nia|]. split; [lia|]. rewrite RST, REN.
    split; [eapply near_sm; [exact Sr|lra|lia]|]. split; [eapply dur_sm; [exact Sr|exact Sre|lra|lra]|].
    rewrite Eold. unfold reports. destruct lost; cbn [set_times ref_patch_start_time ref_patch_end_time deg_patch_start_time deg_patch_end_time similarity freq_band_means freq_band_stddevs freq_band_deg_energy]; [left|right].
    - split; [reflexivity|]. split; [reflexivity|]. split; [reflexivity|]. apply Forall_forall. intros x Hx. apply repeat_spec in Hx. exact Hx.
    - exists (off * h)%Z, sim, 0%Z. split; [nia|]. split; [lia|]. split; [nia|]. split; [lia|]. split; [eapply near_sm; [exact So|lra|lia]|].
      split; [eapply dur_sm; [exact So|exact Soe|lra|lra]|]. split; [auto|]. right. exists off. auto 8. }
  destruct lost.
  { apply OLD. unfold realign_patch in H. assert (L : is_lost old = true) by (rewrite Eold; reflexivity).
    rewrite L in H. congruence. }
  assert (DST : deg_patch_start_time old = Bmult mode_NE (f64_ofZ off) fd) by (rewrite Eold; reflexivity).
  assert (DEN : deg_patch_end_time old = Bplus mode_NE (Bmult mode_NE (f64_ofZ off) fd) (Bmult mode_NE fd (f64_ofZ fp))) by (rewrite Eold; reflexivity).
  clear Eold ME.
  apply realign_inv in H as [-> |(ra & da & ra' & da' & lag & fb1 & rspec & fb2 & dspec & rp & dp & new & S1 & S2 & AL & BU1 & BU2 & PR & MS & NL & ->)]; [apply OLD; reflexivity|].
  clear OLD. rewrite RST, REN in S1. rewrite DST, DEN in S2.
  apply (slice_F_what rate Hrate lm rs ra _ _ _ _ _ _ HR Sr Sre Pr) in S1; [|nia|unfold n; nia|lia|lra|lra].
  apply (slice_F_what rate Hrate lm ds da _ _ _ _ _ _ HD So Soe Po) in S2; [|nia|unfold n; nia|lia|lra|lra].
  destruct S1 as (a1 & n1 & A1 & N1 & N1' & ->). destruct S2 as (b1 & n2 & A2 & N2 & N2' & ->).
  set (xs := data_matrix rs) in *. set (ys := data_matrix ds) in *.
  assert (Hn34 : (n <= 2 ^ 34)%Z) by (unfold n; nia).
  assert (PA : (0 <= r * h)%Z) by nia. assert (PB : (0 <= off * h)%Z) by nia.
  assert (QA : (r * h <= 2 ^ 34)%Z) by nia. assert (QB : (off * h <= 2 ^ 34)%Z) by nia.
  apply (trunc_what_F rate Hrate lm pf) in AL; [|reflexivity|reflexivity|unfold sig_len; cbn [data_matrix]; rewrite !stretch_len by lia; lia|unfold sig_len; cbn [data_matrix]; rewrite stretch_len by lia; lia].
  destruct AL as (R1 & R2 & k & z & m & K0 & K1 & Z0 & M0 & KL). unfold sig_len in K1, KL. cbn [data_matrix] in K1, KL. rewrite stretch_len in K1 by lia. rewrite !stretch_len in KL by lia.
  assert (CMP : forall u v, ra' = @Build_AudioSignal (F64 lm) u rate -> da' = @Build_AudioSignal (F64 lm) v rate -> compared (N:=F64 lm) nb rate u v new).
  { intros u v -> ->. exists rspec, dspec, rp, dp. rewrite Ew in BU1, BU2. split; [exists f, fb1; auto|]. split; [|auto]. exists fb1, fb2. split; [|exact BU2].
    pose proof (build_min nb f (@Build_AudioSignal (F64 lm) u rate) (new_window rate OVERLAP WINDOW_DURATION)) as Q. rewrite BU1 in Q. cbn [fst] in Q. congruence. }
  assert (SIG : forall (s : AudioSignal (F64 lm)) u, data_matrix s = u -> sample_rate s = rate -> s = @Build_AudioSignal (F64 lm) u rate).
  { intros [dm sr] u. cbn [data_matrix sample_rate]. intros -> ->. reflexivity. }
  clear BU1 BU2 PR MS.
  assert (GD : forall (s : AudioSignal (F64 lm)) c, sample_rate s = rate -> zlen (data_matrix s) = c -> get_duration s = Bdiv mode_NE (f64_ofZ c) (f64_ofZ rate)).
  { intros s c E1 <-. unfold get_duration. rewrite E1. reflexivity. }
  unfold whatF, reports, choose_result. rewrite NL. cbn [ref_patch_end_time ref_patch_start_time deg_patch_start_time deg_patch_end_time similarity freq_band_means freq_band_stddevs freq_band_deg_energy].
  rewrite RST, DST. clear RST DST REN DEN NL.
  destruct KL as [(SM & SG & -> & KK & KM & DR & DD)|(SM & SG & KZ & KK & KM & DR & DD)].
  - assert (LT : nltb (F64 lm) (nofZ (F64 lm) 0) lag = false).
    { cbn [nltb F64 nofZ]. destruct SM as [F0 _]. apply Bltb_false_iff; [vm_compute; reflexivity|apply is_nan_finite; exact F0|]. rewrite (ext_finite lag) by exact F0. rewrite ofZ_ext by lia. exact SG. }
    rewrite LT. pose proof (part_stretch (nofZ (F64 lm) 0) xs a1 n1 0 m ltac:(lia) ltac:(lia) ltac:(lia) ltac:(lia)) as X1. cbn [Z.to_nat skipn] in X1. rewrite X1 in DR. clear X1.
    rewrite (part_stretch (nofZ (F64 lm) 0) ys b1 n2 k m) in DD by lia. rewrite Z.add_0_r in DR.
    pose proof (sm_whole rate Hrate m ltac:(lia)) as SD.
    rewrite (GD ra' m R1) by (rewrite DR; apply stretch_len; lia). rewrite (GD da' m R2) by (rewrite DD; apply stretch_len; lia).
    exists a1, m. split; [lia|]. split; [lia|]. split; [eapply near_sm; [exact Sr|lra|lia]|].
    split.
    { eapply dur_sm; [exact Sr| |lra|]; [rewrite plus_IZR; apply (sm_plus rate Hrate _ _ _ _ _ _ Sr SD); [rewrite <- plus_IZR; apply AB; lia|lra|lra|lra]|lra]. }
    right. exists (b1 + k)%Z, new, 0%Z. split; [lia|]. split; [lia|]. split; [lia|]. split; [lia|].
    assert (SDS : sm rate (Bminus mode_NE (Bmult mode_NE (f64_ofZ off) fd) lag) (IZR (off * h + k)) (ut * 512)).
    { replace (IZR (off * h + k)) with (IZR (off * h) - (- IZR k)) by (rewrite plus_IZR; ring). eapply sm_mono; [|apply (sm_minus rate Hrate _ _ _ _ _ _ So SM)]; try lra.
      replace (IZR (off * h) - (- IZR k)) with (IZR (off * h + k)) by (rewrite plus_IZR; ring). apply AB. lia. }
    split; [eapply near_sm; [exact SDS|lra|lia]|].
    split.
    { eapply dur_sm; [exact SDS| |lra|]; [rewrite (plus_IZR (off * h + k)); apply (sm_plus rate Hrate _ _ _ _ _ _ SDS SD); [rewrite <- plus_IZR; apply AB; lia|lra|lra|lra]|lra]. }
    split; [auto|]. left. rewrite !Z.sub_0_r. cbn [Z.to_nat repeat app]. apply CMP; apply SIG; auto.
  - assert (LT : nltb (F64 lm) (nofZ (F64 lm) 0) lag = true).
    { cbn [nltb F64 nofZ]. destruct SM as [F0 _]. destruct (Bltb (f64_ofZ 0) lag) eqn:EB; [reflexivity|]. apply Bltb_false_iff in EB; [|vm_compute; reflexivity|apply is_nan_finite; exact F0].
      rewrite (ext_finite lag) in EB by exact F0. rewrite ofZ_ext in EB by lia. exfalso. lra. }
    rewrite LT. rewrite (part_stretch (nofZ (F64 lm) 0) xs a1 n1 (k - z) (z + m)) in DR by lia.
    pose proof (part_stretch (nofZ (F64 lm) 0) ys b1 n2 0 m ltac:(lia) ltac:(lia) ltac:(lia) ltac:(lia)) as X1. cbn [Z.to_nat skipn] in X1. rewrite X1 in DD. clear X1. rewrite Z.add_0_r in DD.
    pose proof (sm_whole rate Hrate (z + m) ltac:(lia)) as SD.
    rewrite (GD ra' (z + m)%Z R1) by (rewrite DR; apply stretch_len; lia). 
    rewrite (GD da' (z + m)%Z R2) by (rewrite DD; pose proof (stretch_len (nofZ (F64 lm) 0) ys b1 m M0) as Q; unfold zlen in *; rewrite app_length, repeat_length; lia).
    assert (SRS : sm rate (Bplus mode_NE (Bmult mode_NE (f64_ofZ r) fd) lag) (IZR (r * h + k)) (ut * 512)).
    { rewrite plus_IZR. eapply sm_mono; [|apply (sm_plus rate Hrate _ _ _ _ _ _ Sr SM); [rewrite <- plus_IZR; apply AB; lia|lra|lra|lra]]. lra. }
    exists (a1 + k)%Z, (z + m)%Z. split; [lia|]. split; [lia|]. split; [eapply near_sm; [exact SRS|lra|lia]|].
    split.
    { eapply dur_sm; [exact SRS| |lra|]; [rewrite (plus_IZR (r * h + k)); apply (sm_plus rate Hrate _ _ _ _ _ _ SRS SD); [rewrite <- plus_IZR; apply AB; lia|lra|lra|lra]|lra]. }
    right. exists b1, new, z. split; [lia|]. split; [lia|]. split; [lia|]. split; [lia|].
    split; [eapply near_sm; [exact So|lra|lia]|].
    split.
    { eapply dur_sm; [exact So| |lra|]; [rewrite plus_IZR; apply (sm_plus rate Hrate _ _ _ _ _ _ So SD); [rewrite <- plus_IZR; apply AB; lia|lra|lra|lra]|lra]. }
    split; [auto|]. left. replace (z + m - z)%Z with m by lia. replace (a1 + k - z)%Z with (a1 + (k - z))%Z by lia. apply CMP; apply SIG; auto.
Qed.

(** ** The run *)
Lemma prov_all_F lm pf nb v ws (m m' : Manager (F64 lm)) calls files a b (rs ds : AudioSignal (F64 lm)) r :
  new_manager nb v ws = Ok m -> load_as_mono (files a) = Ok rs -> load_as_mono (files b) = Ok ds ->
  (1 <= sample_rate rs < 2 ^ 32)%Z -> (sig_len rs <= 2 ^ 32)%Z -> (sig_len ds <= 2 ^ 32)%Z ->
  let rate := sample_rate rs in let W := ((4 * rate + 25) / 50)%Z in let h := (W / 4)%Z in
  let fp := match v with Wideband _ => 30%Z | Fullband _ => 20%Z end in
  let xs : list f64 := data_matrix rs in
  (W mod 4 = 0)%Z ->
  run pf nb files (after_calls pf nb m calls) a b = (m', Ok r) ->
  exists shift lag gain, let M : list f64 := moved (f64_ofZ 0) shift (data_matrix ds) in let ys := map (fun y => Bmult mode_NE y gain) M in
    (Z.abs shift <= sig_len rs / 2)%Z /\ globally_align pf rs ds = Ok (Some (@Build_AudioSignal (F64 lm) M rate, lag)) /\
    scale_to_match_sound_pressure_level rs (@Build_AudioSignal (F64 lm) M rate) = @Build_AudioSignal (F64 lm) ys rate /\
    exists X Y X' Y' : Spectrogram (F64 lm), spectrogram_of (N:=F64 lm) nb rate xs X /\ spectrogram_of (N:=F64 lm) nb rate ys Y /\ prepare_spectrograms_for_comparison X Y = Ok (X', Y') /\
    forall p, In p (patch_sims r) -> exists c, (0 <= c)%Z /\ whatF lm nb rate xs ys (sp_data X') (sp_data Y') h fp c p.
Proof.
  intros Hm La Lb Hrate L1 L2 rate W h0 fp xs W4 H.
  set (m1 := after_calls pf nb m calls) in *. destruct (after_same pf nb calls m) as (Sw & Cr & Mp & Fm). fold m1 in Sw, Cr, Mp, Fm.
  assert (Hps : creator_patch_size (mg_creator m) = fp).
  { unfold new_manager in Hm. unfold fp. destruct v as [u|[s|]]; cbn [bind] in Hm; try discriminate; inversion Hm; auto. }
  assert (HM : fb_min_freq (mg_filterbank m1) = MINIMUM_FREQ).
  { rewrite Fm. unfold new_manager in Hm. destruct v as [u|[s|]]; cbn [bind] in Hm; try discriminate; inversion Hm; reflexivity. }
  clearbody m1.
  assert (Hfp : (20 <= fp <= 30)%Z) by (unfold fp; destruct v; lia).
  apply run_parts in H. destruct H as (rs' & ds' & al & lag & fb1 & fb2 & fb3 & rspec & dspec & rp & dp & idx & pts & info & H).
  cbv zeta in H. destruct H as (LA & LB & RR & GA & B1 & B2 & PR & CI & PT & FD & FA & _).
  assert (rs' = rs) by congruence. assert (ds' = ds) by congruence. subst rs' ds'. clear LA LB.
  rewrite Cr in CI, PT. rewrite Hps in PT.
  set (w := new_window (N:=F64 lm) (sample_rate rs) OVERLAP WINDOW_DURATION) in *.
  assert (EW : win_size w = W) by (apply window_exact; lia).
  assert (W0 : (0 <= W <= 2 ^ 32)%Z) by (unfold W; split; [apply Z.div_pos; lia|apply Z.div_le_upper_bound; lia]).
  assert (EH : hop_size w = (W / 4)%Z) by (rewrite <- EW; apply hop_quarter; fold w; rewrite EW; lia).
  assert (H4 : (0 <= W / 4)%Z) by (apply Z.div_pos; lia).
  assert (Hh : (0 < W / 4)%Z) by (apply build_inv in B1; lia).
  assert (HW : (W <= sig_len rs)%Z) by (rewrite <- EW; apply build_inv in B1; apply B1).
  assert (EWh : W = (4 * (W / 4))%Z) by (pose proof (Z.div_mod W 4 ltac:(lia)); lia).
  unfold h0. clear h0. set (h := (W / 4)%Z) in *.
  pose proof (build_cols _ _ _ _ _ _ ltac:(rewrite EH; exact Hh) B1) as C1. change (zlen (data_matrix rs)) with (sig_len rs) in C1. rewrite EW, EH in C1.
  pose proof (prepare_shape _ _ _ _ PR) as ((_ & _ & K1 & _) & (_ & _ & K2 & _)).
  destruct (patches_self fp _ _ _ ltac:(lia) PT) as [PL PS].
  pose proof (C10_shift _ _ _ _ _ GA) as (RA & SH). rewrite <- RR in SH. fold rate in SH.
  assert (AL : (sig_len al <= sig_len ds + 2 ^ 32)%Z).
  { pose proof (Z.div_le_upper_bound (sig_len rs) 2 (2 ^ 32)). unfold sig_len in *. 
    destruct SH; unfold zlen in *; rewrite ?app_length, ?repeat_length, ?skipn_length; lia. }
  assert (MV : exists shift, (Z.abs shift <= sig_len rs / 2)%Z /\ data_matrix al = moved (nofZ (F64 lm) 0) shift (data_matrix ds)).
  { assert (0 <= sig_len rs / 2)%Z by (apply Z.div_pos; lia). clear - SH H. destruct SH as [|k Hk Hk2|k Hk].
    - exists 0%Z. split; [exact H|]. reflexivity.
    - exists (- k)%Z. split; [lia|]. unfold moved. destruct (Z.ltb_spec (- k) 0); [|lia]. rewrite Z.opp_involutive. reflexivity.
    - exists k. split; [lia|]. unfold moved. destruct (Z.ltb_spec k 0); [lia|reflexivity]. }
  destruct MV as (shift & SB & EM). clear SH.
  assert (EAL : al = @Build_AudioSignal (F64 lm) (moved (f64_ofZ 0) shift (data_matrix ds)) rate).
  { destruct al as [dm sr]. cbn [data_matrix sample_rate] in EM, RA. subst dm. f_equal. unfold rate. congruence. }
  set (scaled := scale_to_match_sound_pressure_level rs al) in *.
  assert (GN : exists gain, scaled = @Build_AudioSignal (F64 lm) (map (fun y => Bmult mode_NE y gain) (moved (f64_ofZ 0) shift (data_matrix ds))) rate).
  { eexists. unfold scaled, scale_to_match_sound_pressure_level. cbv zeta. rewrite EAL. cbn [data_matrix sample_rate]. reflexivity. }
  destruct GN as (gain & ES).
  assert (Rsc : sample_rate scaled = sample_rate rs) by (change (sample_rate scaled) with (sample_rate al); congruence).
  assert (Ls : sig_len scaled = sig_len al) by (unfold sig_len, scaled, scale_to_match_sound_pressure_level; cbn [data_matrix]; apply zlen_map).
  pose proof (build_cols _ _ _ _ _ _ ltac:(rewrite EH; exact Hh) B2) as C2. change (zlen (data_matrix scaled)) with (sig_len scaled) in C2. rewrite EW, EH in C2.
  assert (C2' : (Z.of_nat (mcols (sp_data dspec)) * h <= 2 ^ 33)%Z).
  { rewrite C2. pose proof (Z.mul_div_le (sig_len scaled - W) h ltac:(lia)). nia. }
  assert (C2n : (Z.of_nat (mcols (sp_data dspec)) <= 2 ^ 33)%Z) by nia.
  assert (PC : forall q, In q pts -> mcols q = Z.to_nat fp) by (intros q Hq; apply patches_cols in PT; [|lia]; destruct PT as [_ PT]; specialize (PT q Hq); lia).
  pose proof (find_what pf pts idx (sp_data dp) _ _ _ ltac:(lia) ltac:(intros q Hq; rewrite (PC q Hq); lia) FD) as (p0 & E0 & CP).
  assert (P0 : Z.of_nat (mcols p0) = fp) by (rewrite (PC p0 (nth_error_In _ _ E0)); lia).
  assert (HM1 : fb_min_freq fb1 = MINIMUM_FREQ) by (pose proof (build_min nb (mg_filterbank m1) rs w) as Q; rewrite B1 in Q; cbn [fst] in Q; rewrite Q; exact HM).
  assert (HM2 : fb_min_freq fb2 = MINIMUM_FREQ) by (pose proof (build_min nb fb1 scaled w) as Q; rewrite B2 in Q; cbn [fst] in Q; rewrite Q; exact HM1).
  pose proof (fine_each_min _ _ _ _ _ _ _ _ _ FA) as FE.
  destruct (quarter_exact lm W ltac:(lia) W4) as [Fq Eq]. cbv zeta in Fq, Eq. fold h in Eq.
  exists shift, lag, gain. cbv zeta. rewrite <- EAL. split; [exact SB|]. split; [exact GA|]. fold scaled. split; [exact ES|].
  exists rspec, dspec, rp, dp.
  split; [exists (mg_filterbank m1), fb1; split; [exact HM|]; destruct rs; exact B1|].
  split. { exists fb1, fb2. split; [exact HM1|]. change (@num (F64 lm)) with f64. rewrite <- ES. exact B2. }
  split; [exact PR|].
  intros p Hp. apply In_nth_error in Hp as (k & Hk). destruct (P_Order.F2_nth _ _ _ FE k p Hk) as (old & Hold & g & g' & GM & RE).
  destruct (CP k old Hold) as (q & sim & lost & off & Eo & Hoff & Hq & MS). rewrite P0 in Eo. rewrite (PC q (nth_error_In _ _ Hq)) in MS.
  assert (Hki : (k < List.length idx)%nat) by (rewrite <- PL; apply nth_error_Some; congruence).
  destruct (PS k Hki) as (P1 & P2 & P3). rewrite Hq in P3. injection P3 as ->.
  exists (nth k idx 0%Z). split; [exact P1|].
  assert (P2' : ((nth k idx 0%Z + fp) * h <= sig_len rs)%Z).
  { rewrite K1, C1 in P2. pose proof (Z.mul_div_le (sig_len rs - W) h ltac:(lia)). nia. }
  assert (HO : ((off + fp) * h <= 2 ^ 34)%Z).
  { rewrite K2 in Hoff. set (c := Z.of_nat (mcols (sp_data dspec))) in *. clearbody c h. clear - Hoff C2' P1 P2' L1 Hfp Hh.
    assert (off * h <= c * h)%Z by (apply Z.mul_le_mono_nonneg_r; lia). assert (0 <= nth k idx 0%Z * h)%Z by (apply Z.mul_nonneg_nonneg; lia).
    rewrite Z.mul_add_distr_r in P2' |- *. lia. }
  rewrite EW in Eo.
  pose proof (realign_what_F lm pf nb rs scaled w g g' old p sim lost off (nth k idx 0%Z) fp rate (nmul (F64 lm) (nofZ (F64 lm) W) OVERLAP) h (sp_data rp) (sp_data dp)
      Hrate eq_refl ltac:(congruence) eq_refl Rsc Fq Eq ltac:(lia) Hfp P1 ltac:(lia) ltac:(lia) HO ltac:(lia) ltac:(lia) MS Eo RE) as Q.
  assert (ED : data_matrix scaled = map (fun y => Bmult mode_NE y gain) (moved (f64_ofZ 0) shift (data_matrix ds))) by (rewrite ES; reflexivity).
  rewrite ED in Q. exact Q.
Qed.

Lemma C77_f64 : forall lm pf nb v ws (m m' : Manager (F64 lm)) calls files a b (rs ds : AudioSignal (F64 lm)) r,
  new_manager nb v ws = Ok m -> load_as_mono (files a) = Ok rs -> load_as_mono (files b) = Ok ds ->
  (1 <= sample_rate rs < 2 ^ 32)%Z -> (sig_len rs <= 2 ^ 32)%Z -> (sig_len ds <= 2 ^ 32)%Z ->
  let rate := sample_rate rs in
  let W := ((4 * rate + 25) / 50)%Z in
  let h := (W / 4)%Z in
  let fp := match v with Wideband _ => 30%Z | Fullband _ => 20%Z end in
  let silence := f64_ofZ 0 in
  let xs : list f64 := data_matrix rs in
  (W mod 4 = 0)%Z ->
  run pf nb files (after_calls pf nb m calls) a b = (m', Ok r) ->
  exists shift lag gain,
    let M : list f64 := moved silence shift (data_matrix ds) in
    let ys := map (fun y => Bmult mode_NE y gain) M in
    (Z.abs shift <= sig_len rs / 2)%Z /\
    globally_align pf rs ds = Ok (Some (@Build_AudioSignal (F64 lm) M rate, lag)) /\
    scale_to_match_sound_pressure_level rs (@Build_AudioSignal (F64 lm) M rate) = @Build_AudioSignal (F64 lm) ys rate /\
    exists X Y X' Y' : Spectrogram (F64 lm),
      spectrogram_of (N:=F64 lm) nb rate xs X /\ spectrogram_of (N:=F64 lm) nb rate ys Y /\
      prepare_spectrograms_for_comparison X Y = Ok (X', Y') /\
      forall p, In p (patch_sims r) ->
      let rstart := B2R (ref_patch_start_time p : f64) in
      let rend := B2R (ref_patch_end_time p : f64) in
      let dstart := B2R (deg_patch_start_time p : f64) in
      let dend := B2R (deg_patch_end_time p : f64) in
      exists i len, (0 <= i)%Z /\ (0 <= len)%Z /\
        near_sample rate rstart i (/ 256) /\ Rabs ((rend - rstart) * IZR rate - IZR len) <= / 128 /\
        ((deg_patch_start_time p = f64_ofZ 0 /\ deg_patch_end_time p = f64_ofZ 0 /\
          similarity p = f64_ofZ 0 /\ Forall (fun x : f64 => x = f64_ofZ 0) (freq_band_means p)) \/
         exists j q z, (0 <= j)%Z /\ (0 <= z <= 2)%Z /\ (z <= i)%Z /\ (z <= len)%Z /\
           near_sample rate dstart j (/ 256) /\ Rabs ((dend - dstart) * IZR rate - IZR len) <= / 128 /\
           reports p q /\
           (compared (N:=F64 lm) nb rate (stretch silence xs (i - z) len) (repeat silence (Z.to_nat z) ++ stretch silence ys j (len - z)) q \/
            exists c d, i = (c * h)%Z /\ j = (d * h)%Z /\ len = (fp * h)%Z /\ (0 <= c)%Z /\ (0 <= d)%Z /\
              measure_patch_similarity (patch_at (sp_data X') c (Z.to_nat fp)) (patch_at (sp_data Y') d (Z.to_nat fp)) = Ok q)).
Proof.
  intros lm pf nb v ws m m' calls files a b rs ds r Hm La Lb Hr L1 L2 rate W h fp silence xs W4 H.
  destruct (prov_all_F lm pf nb v ws m m' calls files a b rs ds r Hm La Lb Hr L1 L2 W4 H) as (shift & lag & gain & SB & GA & SC & X & Y & X' & Y' & SX & SY & PR & P).
  exists shift, lag, gain. split; [exact SB|]. split; [exact GA|]. split; [exact SC|]. exists X, Y, X', Y'. split; [exact SX|]. split; [exact SY|]. split; [exact PR|].
  intros p Hp. cbv zeta. destruct (P p Hp) as (c & C0 & i & len & I0 & N0 & A & B & D). exists i, len. split; [exact I0|]. split; [exact N0|]. split; [exact A|]. split; [exact B|].
  destruct D as [D|(j & q & z & J0 & Z0 & Z1 & Z2 & A' & B' & RQ & D)]; [left; exact D|right]. exists j, q, z. split; [exact J0|]. split; [exact Z0|]. split; [exact Z1|]. split; [exact Z2|]. split; [exact A'|]. split; [exact B'|]. split; [exact RQ|].
  destruct D as [D|(d & D1 & D2 & D3 & _ & D4 & D5)]; [left; exact D|right]. exists c, d. split; [exact D1|]. split; [exact D2|]. split; [exact D3|]. split; [exact C0|]. split; [exact D4|exact D5].
Qed.
