(** C77: what the reported similarities were measured on. *)
From Coq Require Import Reals Lra Lia Psatz.
From Verif Require Import Base Num Mat RNum M_Audio M_Align M_Spectro M_Patch M_Nsim M_Selector M_Visqol Spec Spec2 F64 Spec16 Spec17.
From Verif Require Import P_Base P_Mat P_Audio P_Manager P_Run P_Spectro P_Times P_Slice P_R P_Agg P_Score P_Patch P_Vad P_Dp P_Same P_Same2 P_Win P_Nsim P_TruncF P_Order P_Audio2 P_Level.
Open Scope Z_scope.

(** ** The coarse results *)
Section Coarse.
Context {N : NumOps}.
Lemma backtrace_what pf (refs : list (mat N)) idx (deg : mat N) bt fd pd k : Z.of_nat (mcols deg) < 2 ^ 62 -> (forall q, In q refs -> Z.of_nat (mcols q) < 2 ^ 62) ->
  forall s acc out,
  backtrace_loop pf refs idx deg bt fd pd k s acc = Ok out ->
  exists pre, out = pre ++ acc /\ List.length pre = k /\
    forall j e, nth_error pre j = Some e -> exists rp sim lost off, e = set_times sim lost off (nth j idx 0) fd pd /\ 0 <= off <= Z.of_nat (mcols deg) /\
      nth_error refs j = Some rp /\ measure_patch_similarity rp (patch_at deg off (mcols rp)) = Ok sim.
Proof.
  intros BD BR. induction k as [|k IH]; intros s acc out H; cbn [backtrace_loop] in H.
  { injection H as <-. exists []. split; [reflexivity|]. split; [reflexivity|]. intros [|j] e; discriminate. }
  do 3 (inv_do H; match goal with H2 : _ = Ok out |- _ => rename H2 into H end).
  do 4 (inv_do H; match goal with H2 : _ = Ok out |- _ => rename H2 into H end).
  apply IH in H as (pre & E & L & P). exists (pre ++ [set_times v2 (s =? v4) s v5 fd pd]). split; [rewrite E, <- app_assoc; reflexivity|].
  split; [rewrite app_length; cbn; lia|]. apply zget_ok in Hv5. destruct Hv5 as [_ Hv5]. rewrite Nat2Z.id in Hv5.
  apply zget_ok in Hv. destruct Hv as [_ Hv]. rewrite Nat2Z.id in Hv.
  intros j e Hj. destruct (Nat.lt_ge_cases j k) as [G|G].
  - rewrite nth_error_app1 in Hj by lia. eauto.
  - rewrite nth_error_app2 in Hj by lia. rewrite L in Hj. destruct (j - k)%nat as [|q] eqn:D; [|destruct q; discriminate].
    injection Hj as <-. assert (j = k) by lia. subst j. pose proof (BR v (nth_error_In _ _ Hv)) as BV.
    assert (S1 : 0 <= s <= Z.of_nat (mcols deg)) by (unfold build_degraded_patch in Hv1; inv_do Hv1; apply mslice_ok in Hv6; lia).
    rewrite uadd_ok in Hv0 by (unfold usize_mod; lia). injection Hv0 as <-. rewrite build_ok in Hv1 by exact S1. injection Hv1 as <-.
    exists v, v2, (s =? v4), s. split; [erewrite (nth_error_nth idx k 0); [reflexivity|exact Hv5]|]. auto.
Qed.
Lemma find_what pf (refs : list (mat N)) idx (deg : mat N) fd radius out : Z.of_nat (mcols deg) < 2 ^ 62 -> (forall q, In q refs -> Z.of_nat (mcols q) < 2 ^ 62) ->
  find_most_optimal_deg_patches pf refs idx deg fd radius = Ok out ->
  exists p0, nth_error refs 0 = Some p0 /\
    forall j e, nth_error out j = Some e -> exists rp sim lost off, e = set_times sim lost off (nth j idx 0) fd (nmul N fd (nofZ N (Z.of_nat (mcols p0)))) /\
      0 <= off <= Z.of_nat (mcols deg) /\ nth_error refs j = Some rp /\ measure_patch_similarity rp (patch_at deg off (mcols rp)) = Ok sim.
Proof.
  intros BD BR H. unfold find_most_optimal_deg_patches in H.
  do 3 (inv_do H; match goal with H2 : _ = Ok out |- _ => rename H2 into H end).
  destruct (Z.eqb_spec v1 0); [discriminate|].
  do 2 (inv_do H; match goal with H2 : _ = Ok out |- _ => rename H2 into H end).
  destruct v3 as [dp bt].
  do 6 (inv_do H; match goal with H2 : _ = Ok out |- _ => rename H2 into H end).
  apply backtrace_what in H; auto. destruct H as (pre & E & L & P). rewrite app_nil_r in E. subst pre.
  apply zget_ok in Hv. destruct Hv as [_ Hv]. exists v. split; [exact Hv|exact P].
Qed.
Lemma fine_each_min pf nb rs ds w (l : list (PatchSim N)) : forall (f f' : Filterbank N) out,
  finely_align_and_recreate_patches pf nb rs ds w f l = (f', Ok out) ->
  Forall2 (fun old p => exists g g', fb_min_freq g = fb_min_freq f /\ realign_patch pf nb rs ds w g old = (g', Ok p)) l out.
Proof.
  induction l as [|old t IH]; intros f f' out; cbn [finely_align_and_recreate_patches].
  { intros [= _ <-]. constructor. }
  destruct (realign_patch pf nb rs ds w f old) as [fb1 r] eqn:E.
  pose proof (realign_same pf nb rs ds w f f old eq_refl) as (_ & M & _). rewrite E in M. cbn [fst] in M.
  destruct r as [p| |]; try discriminate.
  destruct (finely_align_and_recreate_patches pf nb rs ds w fb1 t) as [fb2 rest] eqn:F. intros [= -> H].
  destruct rest as [rest| |]; try discriminate. injection H as <-. constructor; [eauto|].
  rewrite <- M. eapply IH; eauto.
Qed.
End Coarse.

(** ** Stretches *)
Section Stretch.
Context {A : Type} (z : A).
Notation stretch := (stretch z).
Lemma stretch_len l i n : (0 <= n)%Z -> zlen (stretch l i n) = n.
Proof. intros H. unfold zlen, Spec17.stretch. rewrite map_length, seq_length. lia. Qed.
Lemma list_ext (l k : list A) : List.length l = List.length k -> (forall i, (i < List.length l)%nat -> nth i l z = nth i k z) -> l = k.
Proof. intros L H. apply (nth_ext _ _ z z); auto. Qed.
Lemma stretch_nth l i n k : (k < Z.to_nat n)%nat -> nth k (stretch l i n) z = nth (Z.to_nat i + k) l z.
Proof.
  intros H. unfold Spec17.stretch. rewrite (nth_indep _ z ((fun k => nth (Z.to_nat i + k) l z) 0%nat)) by (rewrite map_length, seq_length; exact H).
  rewrite (map_nth (fun k => nth (Z.to_nat i + k) l z)). rewrite seq_nth by exact H. reflexivity.
Qed.
Lemma slice_stretch (l : list A) a b : (0 <= a <= b)%Z -> (a <= zlen l)%Z ->
  firstn (Z.to_nat (b - a)) (skipn (Z.to_nat a) l) ++ repeat z (Z.to_nat (b - zlen l)) = stretch l a (b - a).
Proof.
  intros H1 H2. unfold zlen in *. assert (LF : List.length (firstn (Z.to_nat (b - a)) (skipn (Z.to_nat a) l)) = Nat.min (Z.to_nat (b - a)) (List.length l - Z.to_nat a)) by (rewrite firstn_length, skipn_length; reflexivity).
  assert (LS : List.length (stretch l a (b - a)) = Z.to_nat (b - a)) by (unfold Spec17.stretch; rewrite map_length, seq_length; reflexivity).
  apply list_ext; [rewrite app_length, repeat_length, LF, LS; lia|].
  intros i Hi. rewrite app_length, repeat_length, LF in Hi. rewrite stretch_nth by lia.
  destruct (Nat.lt_ge_cases i (List.length (firstn (Z.to_nat (b - a)) (skipn (Z.to_nat a) l)))) as [G|G].
  - rewrite app_nth1 by exact G. rewrite LF in G. rewrite nth_firstn_lt by lia. rewrite nth_skipn. reflexivity.
  - rewrite app_nth2 by exact G. rewrite nth_repeat. rewrite LF in G. symmetry. apply nth_overflow. lia.
Qed.
Lemma part_stretch l i n k m : (0 <= i)%Z -> (0 <= k)%Z -> (0 <= m)%Z -> (k + m <= n)%Z ->
  firstn (Z.to_nat m) (skipn (Z.to_nat k) (stretch l i n)) = stretch l (i + k) m.
Proof.
  intros Hi Hk Hm H.
  apply list_ext; [rewrite firstn_length, skipn_length; unfold Spec17.stretch; rewrite !map_length, !seq_length; lia|].
  intros j Hj. rewrite firstn_length, skipn_length in Hj. unfold Spec17.stretch in Hj at 1. rewrite map_length, seq_length in Hj.
  rewrite nth_firstn_lt by lia. rewrite nth_skipn. rewrite !stretch_nth by lia. f_equal. lia.
Qed.
Lemma overlap1_stretch l i n k : (0 <= i)%Z -> (Z.abs k <= n)%Z -> overlap1 k (stretch l i n) = stretch l (i + Z.max k 0) (n - Z.abs k).
Proof. intros Hi Hk. unfold overlap1. rewrite stretch_len by lia. replace (Z.to_nat k) with (Z.to_nat (Z.max k 0)) by lia. apply part_stretch; lia. Qed.
Lemma overlap2_stretch l i n k : (0 <= i)%Z -> (Z.abs k <= n)%Z -> overlap2 k (stretch l i n) = stretch l (i + Z.max (- k) 0) (n - Z.abs k).
Proof. intros Hi Hk. unfold overlap2. rewrite stretch_len by lia. replace (Z.to_nat (- k)) with (Z.to_nat (Z.max (- k) 0)) by lia. apply part_stretch; lia. Qed.
End Stretch.
Open Scope R_scope.

(** ** One patch *)
Definition what nb rate (xs ys : list R) (PX PY : mat RN) W fp n (r : Z) (p : PatchSim RN) : Prop :=
  exists i len, (0 <= i)%Z /\ (0 <= len)%Z /\ on_sample rate (ref_patch_start_time p) i /\
    ((W mod 4 = 0)%Z -> ref_patch_start_time p = IZR i / IZR rate) /\
    ref_patch_end_time p = ref_patch_start_time p + IZR len / IZR rate /\
    ((deg_patch_start_time p = 0 /\ deg_patch_end_time p = 0 /\ similarity p = 0 /\ Forall (fun x : R => x = 0) (freq_band_means p)) \/
     exists j q, (0 <= j)%Z /\ on_sample rate (deg_patch_start_time p) j /\
       ((W mod 4 = 0)%Z -> deg_patch_start_time p = IZR j / IZR rate) /\
       deg_patch_end_time p = deg_patch_start_time p + IZR len / IZR rate /\ reports p q /\
       (compared (N:=RN) nb rate (stretch 0 xs i len) (stretch 0 ys j len) q \/
        exists b, i = (r * W / 4)%Z /\ j = (b * W / 4)%Z /\ len = n /\ (0 <= b)%Z /\
          measure_patch_similarity (patch_at PX r (Z.to_nat fp)) (patch_at PY b (Z.to_nat fp)) = Ok q)).
Lemma on_frame W rate r : (1 <= rate)%Z -> (0 <= W)%Z -> (0 <= r)%Z ->
  on_sample rate (IZR r * frame_dur W rate) (r * W / 4) /\ ((W mod 4 = 0)%Z -> IZR r * frame_dur W rate = IZR (r * W / 4) / IZR rate).
Proof.
  intros HP HW Hr. pose proof (dur_times W rate r HP) as D. assert (HPR : IZR rate <> 0) by (apply not_0_IZR; lia). unfold on_sample. rewrite D.
  pose proof (Z.div_mod (r * W) 4 ltac:(lia)) as E. pose proof (Z.mod_pos_bound (r * W) 4 ltac:(lia)) as B.
  assert (ER : IZR (r * W) = 4 * IZR (r * W / 4) + IZR (r * W mod 4)) by (rewrite E at 1; rewrite plus_IZR, mult_IZR; reflexivity).
  assert (B0 : 0 <= IZR (r * W mod 4)) by (apply (IZR_le 0); lia). assert (B1 : IZR (r * W mod 4) <= 3) by (apply IZR_le; lia).
  split; [lra|]. intros M. assert (Z0 : (r * W mod 4 = 0)%Z) by (rewrite Z.mul_mod, M, Z.mul_0_r by lia; reflexivity).
  rewrite Z0 in ER. apply (Rmult_eq_reg_r (IZR rate)); [|exact HPR]. rewrite D. replace (IZR (r * W / 4) / IZR rate * IZR rate) with (IZR (r * W / 4)) by (field; exact HPR). lra.
Qed.
Lemma on_shift rate t i k : (1 <= rate)%Z -> on_sample rate t i -> on_sample rate (t + IZR k / IZR rate) (i + k).
Proof.
  intros HP H. assert (HPR : IZR rate <> 0) by (apply not_0_IZR; lia). unfold on_sample in *. rewrite plus_IZR.
  replace ((t + IZR k / IZR rate) * IZR rate) with (t * IZR rate + IZR k) by (field; exact HPR). lra.
Qed.
Lemma eq_shift rate t i k : (1 <= rate)%Z -> t = IZR i / IZR rate -> t + IZR k / IZR rate = IZR (i + k) / IZR rate.
Proof. intros HP ->. assert (HPR : IZR rate <> 0) by (apply not_0_IZR; lia). rewrite plus_IZR. field. exact HPR. Qed.
Lemma on_eq rate t t' i i' : t = t' -> i = i' -> on_sample rate t i -> on_sample rate t' i'. Proof. intros -> ->. auto. Qed.

Lemma realign_what pf nb (rs ds : AudioSignal RN) w (f f' : Filterbank RN) old p sim lost off r fp n (PX PY : mat RN) :
  let W := win_size w in let rate := sample_rate rs in let fd := frame_dur W rate in
  w = new_window rate OVERLAP WINDOW_DURATION -> fb_min_freq f = MINIMUM_FREQ ->
  sample_rate ds = rate -> (1 <= rate)%Z -> (0 <= W)%Z -> (0 <= fp)%Z -> (0 <= r)%Z -> (0 <= off)%Z -> (fp * W = 4 * n)%Z -> (9 <= n < 2 ^ 62)%Z ->
  ((r + fp) * W < 2 ^ 66)%Z -> ((off + fp) * W < 2 ^ 66)%Z -> (sig_len rs < 2 ^ 62)%Z -> (sig_len ds < 2 ^ 62)%Z ->
  measure_patch_similarity (patch_at PX r (Z.to_nat fp)) (patch_at PY off (Z.to_nat fp)) = Ok sim ->
  old = set_times (N:=RN) sim lost off r fd (fd * IZR fp) -> realign_patch pf nb rs ds w f old = (f', Ok p) ->
  what nb rate (data_matrix rs) (data_matrix ds) PX PY W fp n r p.
Proof.
  intros W rate fd Ew FM HR HP HW Hfp Hr Ho E4 Hn B1 B2 L1 L2 ME Eold H.
  assert (HPR : IZR rate <> 0) by (apply not_0_IZR; lia).
  pose proof (dur_n W rate fp n HP E4) as DN. fold fd in DN.
  destruct (on_frame W rate r HP HW Hr) as [OR1 OR2]. destruct (on_frame W rate off HP HW Ho) as [OD1 OD2]. fold fd in OR1, OR2, OD1, OD2.
  assert (A0 : (0 <= r * W / 4)%Z) by (apply Z.div_pos; nia). assert (A1 : (0 <= off * W / 4)%Z) by (apply Z.div_pos; nia).
  assert (OLD : p = old -> what nb rate (data_matrix rs) (data_matrix ds) PX PY W fp n r p).
  { intros ->. exists (r * W / 4)%Z, n. split; [exact A0|]. split; [lia|]. rewrite Eold. unfold reports. cbn [set_times ref_patch_start_time ref_patch_end_time deg_patch_start_time deg_patch_end_time similarity freq_band_means freq_band_stddevs freq_band_deg_energy nmul nadd nofZ RN].
    split; [exact OR1|]. split; [exact OR2|]. split; [rewrite DN; reflexivity|].
    destruct lost; [left|right].
    - split; [reflexivity|]. split; [reflexivity|]. split; [reflexivity|]. apply Forall_forall. intros x Hx. apply repeat_spec in Hx. exact Hx.
    - exists (off * W / 4)%Z, sim. split; [exact A1|]. split; [exact OD1|]. split; [exact OD2|]. split; [rewrite DN; reflexivity|]. split; [auto|].
      right. exists off. auto. }
  destruct lost.
  { apply OLD. unfold realign_patch in H. assert (L : is_lost old = true).
    { rewrite Eold. unfold is_lost. cbn [set_times deg_patch_start_time deg_patch_end_time]. cbn [neqb nofZ RN]. rewrite !Reqb_refl. reflexivity. }
    rewrite L in H. congruence. }
  apply realign_inv in H as [-> |(ra & da & ra' & da' & lag & fb1 & rspec & fb2 & dspec & rp & dp & new & S1 & S2 & AL & BU1 & BU2 & PR & MS & NL & ->)]; [apply OLD; reflexivity|].
  assert (S1' : slice rs (IZR r * fd) (IZR r * fd + fd * IZR fp) = Ok ra) by (rewrite Eold in S1; exact S1).
  assert (S2' : slice ds (IZR off * fd) (IZR off * fd + fd * IZR fp) = Ok da) by (rewrite Eold in S2; exact S2). clear S1 S2.
  assert (ER : ra = @Build_AudioSignal RN (stretch 0 (data_matrix rs) (r * W / 4) n) rate).
  { pose proof (slice_R rs W r fp HP HW Hr Hfp B1 L1) as E. cbv zeta in E. fold rate fd in E. rewrite S1' in E.
    destruct (Z.leb_spec (r * W / 4) (sig_len rs)) as [G|]; [|discriminate]. injection E as ->. f_equal.
    pose proof (slice_stretch 0 (data_matrix rs) (r * W / 4) ((r + fp) * W / 4)) as SS. rewrite (span_quarter r fp W n E4) in SS |- *. apply SS; [|exact G]. pose proof (span_quarter r fp W n E4). lia. }
  assert (ED : da = @Build_AudioSignal RN (stretch 0 (data_matrix ds) (off * W / 4) n) rate).
  { pose proof (slice_R ds W off fp ltac:(lia) HW Ho Hfp B2 L2) as E. cbv zeta in E. rewrite HR in E. fold fd in E. rewrite S2' in E.
    destruct (Z.leb_spec (off * W / 4) (sig_len ds)) as [G|]; [|discriminate]. injection E as ->. f_equal.
    pose proof (slice_stretch 0 (data_matrix ds) (off * W / 4) ((off + fp) * W / 4)) as SS. rewrite (span_quarter off fp W n E4) in SS |- *. apply SS; [|exact G]. pose proof (span_quarter off fp W n E4). lia. }
  clear S1' S2'. subst ra da.
  set (xs := data_matrix rs) in *. set (ys := data_matrix ds) in *. set (i0 := (r * W / 4)%Z) in *. set (j0 := (off * W / 4)%Z) in *.
  destruct (npt_bounds pf n 62 ltac:(lia) ltac:(lia) ltac:(lia)) as (q & NP & _).
  destruct (truncate_R pf (@Build_AudioSignal RN (stretch 0 xs i0 n) rate) (@Build_AudioSignal RN (stretch 0 ys j0 n) rate) q) as (k & KB & _ & T);
    cbn [data_matrix sample_rate]; rewrite ?stretch_len by lia; auto; try lia.
  cbn [data_matrix sample_rate] in KB, T. rewrite stretch_len in KB, T by lia. rewrite T in AL. clear T.
  assert (FIN : exists k', (Z.abs k' <= n)%Z /\ ra' = @Build_AudioSignal RN (stretch 0 xs (i0 + Z.max k' 0) (n - Z.abs k')) rate /\
      da' = @Build_AudioSignal RN (stretch 0 ys (j0 + Z.max (- k') 0) (n - Z.abs k')) rate /\ lag = IZR k' / IZR rate).
  { destruct (followed n k); injection AL as <- <- <-.
    - exists k. split; [lia|]. rewrite overlap1_stretch, overlap2_stretch by lia. auto.
    - exists 0%Z. split; [lia|]. cbn [Z.abs Z.max Z.opp]. rewrite !Z.add_0_r, !Z.sub_0_r. split; [reflexivity|]. split; [reflexivity|]. unfold Rdiv. rewrite Rmult_0_l. reflexivity. }
  destruct FIN as (k' & K1 & -> & -> & EL). clear AL KB k.
  assert (CMP : compared (N:=RN) nb rate (stretch 0 xs (i0 + Z.max k' 0) (n - Z.abs k')) (stretch 0 ys (j0 + Z.max (- k') 0) (n - Z.abs k')) new).
  { exists rspec, dspec, rp, dp. rewrite Ew in BU1, BU2. split; [exists f, fb1; auto|]. split; [|auto]. exists fb1, fb2. split; [|exact BU2].
    pose proof (build_min nb f (@Build_AudioSignal RN (stretch 0 xs (i0 + Z.max k' 0) (n - Z.abs k')) rate) (new_window rate OVERLAP WINDOW_DURATION)) as Q. rewrite BU1 in Q. cbn [fst] in Q. congruence. }
  assert (G0 : (0 <? k')%Z = Rltb 0 lag).
  { rewrite EL. assert (I0 : 0 < / IZR rate) by (apply Rinv_0_lt_compat, (IZR_lt 0); lia). unfold Rdiv.
    destruct (Z.ltb_spec 0 k') as [G|G], (Rltb 0 (IZR k' * / IZR rate)) eqn:ER; auto.
    - apply Rltb_false in ER. apply IZR_lt in G. pose proof (Rmult_lt_0_compat _ _ G I0). lra.
    - apply Rltb_true in ER. apply IZR_le in G. pose proof (Rmult_le_compat_r _ _ _ (Rlt_le _ _ I0) G). lra. }
  exists (i0 + Z.max k' 0)%Z, (n - Z.abs k')%Z. split; [lia|]. split; [lia|].
  unfold choose_result. rewrite NL. unfold reports. cbn [ref_patch_end_time ref_patch_start_time deg_patch_start_time deg_patch_end_time similarity freq_band_means freq_band_stddevs freq_band_deg_energy].
  unfold get_duration, sig_len. cbn [data_matrix sample_rate]. rewrite !stretch_len by lia.
  rewrite Eold. cbn [set_times ref_patch_start_time ref_patch_end_time deg_patch_start_time deg_patch_end_time]. cbn [nltb nmul nadd nsub ndiv nofZ RN]. rewrite <- G0.
  assert (T1 : (if (0 <? k')%Z then IZR r * fd + lag else IZR r * fd) = IZR r * fd + IZR (Z.max k' 0) / IZR rate).
  { rewrite EL. destruct (Z.ltb_spec 0 k'); [rewrite Z.max_l by lia; reflexivity|]. rewrite Z.max_r by lia. unfold Rdiv. rewrite Rmult_0_l, Rplus_0_r. reflexivity. }
  assert (T2 : (if (0 <? k')%Z then IZR off * fd else IZR off * fd - lag) = IZR off * fd + IZR (Z.max (- k') 0) / IZR rate).
  { rewrite EL. destruct (Z.ltb_spec 0 k'); [rewrite Z.max_r by lia; unfold Rdiv; rewrite Rmult_0_l, Rplus_0_r; reflexivity|]. rewrite Z.max_l by lia. rewrite opp_IZR. unfold Rdiv. lra. }
  change (num RN) with R in *. rewrite T1, T2.
  split; [apply on_shift; auto|]. split; [intros M; apply eq_shift; auto|]. split; [reflexivity|].
  right. exists (j0 + Z.max (- k') 0)%Z, new. split; [lia|]. split; [apply on_shift; auto|]. split; [intros M; apply eq_shift; auto|]. split; [reflexivity|]. split; [auto|].
  left. exact CMP.
Qed.

(** ** The run *)
Lemma silent_dec (l : list R) : not_silent l \/ ~ not_silent l.
Proof.
  induction l as [|x l IH]; [right; intros (y & [] & _)|]. destruct (Req_dec x 0) as [->|N0]; [|left; exists x; split; [left; reflexivity|exact N0]].
  destruct IH as [(y & Hy & Ny)|IH]; [left; exists y; split; [right; exact Hy|exact Ny]|right]. intros (y & [<-|Hy] & Ny); [lra|]. apply IH. exists y. auto.
Qed.
Lemma classic_silent (l k : list R) : (not_silent l /\ not_silent k) \/ ~ (not_silent l /\ not_silent k).
Proof. destruct (silent_dec l), (silent_dec k); tauto. Qed.
Lemma prov_all pf nb v ws (m m' : Manager RN) calls files a b (rs ds : AudioSignal RN) r :
  new_manager nb v ws = Ok m -> load_as_mono (files a) = Ok rs -> load_as_mono (files b) = Ok ds ->
  (1 <= sample_rate rs < 2 ^ 32)%Z -> (sig_len rs <= 2 ^ 32)%Z -> (sig_len ds <= 2 ^ 32)%Z ->
  let rate := sample_rate rs in let W := ((4 * rate + 25) / 50)%Z in
  let fp := match v with Wideband _ => 30%Z | Fullband _ => 20%Z end in
  let xs : list R := data_matrix rs in
  (fp * W mod 4 = 0)%Z ->
  run pf nb files (after_calls pf nb m calls) a b = (m', Ok r) ->
  exists shift gain, let M : list R := moved 0 shift (data_matrix ds) in let ys := map (Rmult gain) M in
    (Z.abs shift <= sig_len rs / 2)%Z /\ globally_align pf rs ds = Ok (Some (@Build_AudioSignal RN M rate, IZR shift / IZR rate)) /\
    (not_silent xs -> not_silent M -> 0 < gain /\ rms ys = rms xs) /\
    exists X Y X' Y' : Spectrogram RN, spectrogram_of (N:=RN) nb rate xs X /\ spectrogram_of (N:=RN) nb rate ys Y /\ prepare_spectrograms_for_comparison X Y = Ok (X', Y') /\
    forall p, In p (patch_sims r) ->
    exists i len, (0 <= i)%Z /\ (0 <= len)%Z /\ on_sample rate (ref_patch_start_time p) i /\
      ((W mod 4 = 0)%Z -> ref_patch_start_time p = IZR i / IZR rate) /\
      ref_patch_end_time p = ref_patch_start_time p + IZR len / IZR rate /\
      ((deg_patch_start_time p = 0 /\ deg_patch_end_time p = 0 /\ similarity p = 0 /\ Forall (fun x : R => x = 0) (freq_band_means p)) \/
       exists j q, (0 <= j)%Z /\ on_sample rate (deg_patch_start_time p) j /\
         ((W mod 4 = 0)%Z -> deg_patch_start_time p = IZR j / IZR rate) /\
         deg_patch_end_time p = deg_patch_start_time p + IZR len / IZR rate /\ reports p q /\
         (compared (N:=RN) nb rate (stretch 0 xs i len) (stretch 0 ys j len) q \/
          exists c d, i = (c * W / 4)%Z /\ j = (d * W / 4)%Z /\ len = (fp * W / 4)%Z /\ (0 <= c)%Z /\ (0 <= d)%Z /\
            measure_patch_similarity (patch_at (sp_data X') c (Z.to_nat fp)) (patch_at (sp_data Y') d (Z.to_nat fp)) = Ok q)).
Proof.
  intros Hm La Lb Hrate L1 L2 rate W fp xs M4 H.
  set (n := (fp * W / 4)%Z). assert (E4 : (fp * W = 4 * n)%Z) by (unfold n; pose proof (Z.div_mod (fp * W) 4 ltac:(lia)); lia). clearbody n.
  set (m1 := after_calls pf nb m calls) in *. destruct (after_same pf nb calls m) as (Sw & Cr & Mp & Fm). fold m1 in Sw, Cr, Mp, Fm.
  assert (Hps : creator_patch_size (mg_creator m) = fp).
  { unfold new_manager in Hm. unfold fp. destruct v as [u|[s|]]; cbn [bind] in Hm; try discriminate; inversion Hm; auto. }
  assert (HM : fb_min_freq (mg_filterbank m1) = MINIMUM_FREQ).
  { rewrite Fm. unfold new_manager in Hm. destruct v as [u|[s|]]; cbn [bind] in Hm; try discriminate; inversion Hm; reflexivity. }
  clearbody m1.
  assert (Hfp : (20 <= fp <= 30)%Z) by (unfold fp; destruct v; lia).
  apply run_parts in H. destruct H as (rs' & ds' & al & lag & fb1 & fb2 & fb3 & rspec & dspec & rp & dp & idx & pts & info & H).
  cbv zeta in H. destruct H as (LA & LB & RR & GA & B1 & B2 & PR & CI & PT & FD & FA & _).
  assert (rs' = rs) by congruence. assert (ds' = ds) by congruence. subst rs' ds'. clear LA LB.
  rewrite Cr in CI, PT. rewrite Hps in PT.
  set (w := new_window (sample_rate rs) OVERLAP WINDOW_DURATION) in *.
  assert (EW : win_size w = W) by (apply window_R; lia).
  assert (EH : hop_size w = (W / 4)%Z) by (apply hop_R; lia).
  assert (W0 : (0 <= W <= 2 ^ 32)%Z) by (unfold W; split; [apply Z.div_pos; lia|apply Z.div_le_upper_bound; lia]).
  assert (H4 : (0 <= W / 4)%Z) by (apply Z.div_pos; lia).
  assert (Hh : (0 < W / 4)%Z) by (apply build_inv in B1; lia).
  assert (N9 : (9 <= n)%Z) by (pose proof (Z.mul_div_le W 4 ltac:(lia)); nia).
  assert (NB : (n < 2 ^ 62)%Z) by nia.
  assert (HW : (W <= sig_len rs)%Z) by (rewrite <- EW; apply build_inv in B1; apply B1).
  pose proof (build_cols _ _ _ _ _ _ ltac:(rewrite EH; exact Hh) B1) as C1. change (zlen (data_matrix rs)) with (sig_len rs) in C1. rewrite EW, EH in C1.
  pose proof (prepare_shape _ _ _ _ PR) as ((_ & _ & K1 & _) & (_ & _ & K2 & _)).
  destruct (patches_self fp _ _ _ ltac:(lia) PT) as [PL PS].
  pose proof (C10_shift _ _ _ _ _ GA) as (RA & SH). rewrite <- RR in SH. fold rate in SH.
  assert (AL : (sig_len al <= sig_len ds + 2 ^ 32)%Z).
  { pose proof (Z.div_le_upper_bound (sig_len rs) 2 (2 ^ 32)). unfold sig_len in *. 
    destruct SH; unfold zlen in *; rewrite ?app_length, ?repeat_length, ?skipn_length; lia. }
  assert (MV : exists shift, (Z.abs shift <= sig_len rs / 2)%Z /\ data_matrix al = moved (nofZ RN 0) shift (data_matrix ds) /\ lag = IZR shift / IZR rate).
  { assert (0 <= sig_len rs / 2)%Z by (apply Z.div_pos; lia). clear - SH H. destruct SH as [|k Hk Hk2|k Hk].
    - exists 0%Z. split; [exact H|]. split; [reflexivity|]. cbn [nofZ RN]. unfold Rdiv. rewrite Rmult_0_l. reflexivity.
    - exists (- k)%Z. split; [lia|]. split; [|reflexivity]. unfold moved. destruct (Z.ltb_spec (- k) 0); [|lia]. rewrite Z.opp_involutive. reflexivity.
    - exists k. split; [lia|]. split; [|reflexivity]. unfold moved. destruct (Z.ltb_spec k 0); [lia|reflexivity]. }
  destruct MV as (shift & SB & EM & EL).
  set (scaled := scale_to_match_sound_pressure_level rs al) in *.
  assert (GN : exists gain, data_matrix scaled = map (Rmult gain) (moved 0 shift (data_matrix ds)) /\
     (not_silent xs -> not_silent (moved 0 shift (data_matrix ds)) -> 0 < gain /\ rms (map (Rmult gain) (moved 0 shift (data_matrix ds))) = rms xs)).
  { destruct (classic_silent xs (moved 0 shift (data_matrix ds))) as [[S1 S2]|NS].
    - assert (S2' : not_silent (data_matrix al)) by (rewrite EM; exact S2).
      destruct (C37_multiple rs al S1 S2') as (g & G0 & EG). pose proof (C37_rms rs al S1 S2') as RM. fold scaled in EG, RM. exists g. rewrite EG in RM |- *. cbn [data_matrix] in RM |- *. rewrite EM in RM |- *. auto.
    - exists (npowf RN (nofZ RN 10) (ndiv RN (nsub RN (calculate_sound_pressure_level rs) (calculate_sound_pressure_level al)) (nofZ RN 20))).
      split; [|intros; exfalso; tauto]. unfold scaled, scale_to_match_sound_pressure_level. cbv zeta. cbn [data_matrix]. rewrite EM. apply map_ext. intros x. apply Rmult_comm. }
  destruct GN as (gain & EG & GL).
  assert (Rsc : sample_rate scaled = sample_rate rs) by (change (sample_rate scaled) with (sample_rate al); congruence).
  assert (Ls : sig_len scaled = sig_len al) by (unfold sig_len, scaled, scale_to_match_sound_pressure_level; cbn [data_matrix]; apply zlen_map).
  pose proof (build_cols _ _ _ _ _ _ ltac:(rewrite EH; exact Hh) B2) as C2. change (zlen (data_matrix scaled)) with (sig_len scaled) in C2. rewrite EW, EH in C2.
  assert (C1' : (Z.of_nat (mcols (sp_data rspec)) <= 2 ^ 34)%Z).
  { rewrite C1. pose proof (Z.div_le_upper_bound (sig_len rs - W) (W / 4) (2 ^ 32)). nia. }
  assert (C2' : (Z.of_nat (mcols (sp_data dspec)) <= 2 ^ 34)%Z).
  { rewrite C2. pose proof (Z.div_le_upper_bound (sig_len scaled - W) (W / 4) (2 ^ 33)). nia. }
  assert (PC : forall q, In q pts -> mcols q = Z.to_nat fp) by (intros q Hq; apply patches_cols in PT; [|lia]; destruct PT as [_ PT]; specialize (PT q Hq); lia).
  pose proof (find_what pf pts idx (sp_data dp) _ _ _ ltac:(lia) ltac:(intros q Hq; rewrite (PC q Hq); lia) FD) as (p0 & E0 & CP).
  assert (P0 : Z.of_nat (mcols p0) = fp) by (rewrite (PC p0 (nth_error_In _ _ E0)); lia).
  assert (HM1 : fb_min_freq fb1 = MINIMUM_FREQ) by (pose proof (build_min nb (mg_filterbank m1) rs w) as Q; rewrite B1 in Q; cbn [fst] in Q; rewrite Q; exact HM).
  assert (HM2 : fb_min_freq fb2 = MINIMUM_FREQ) by (pose proof (build_min nb fb1 scaled w) as Q; rewrite B2 in Q; cbn [fst] in Q; rewrite Q; exact HM1).
  pose proof (fine_each_min _ _ _ _ _ _ _ _ _ FA) as FE.
  exists shift, gain. split; [exact SB|].
  split.
  { assert (Q : forall z : AudioSignal RN, data_matrix z = moved (nofZ RN 0) shift (data_matrix ds) -> sample_rate z = rate -> z = @Build_AudioSignal RN (moved 0 shift (data_matrix ds)) rate).
    { intros [dm sr]. cbn [data_matrix sample_rate]. intros -> ->. reflexivity. }
    rewrite <- EL. rewrite GA. rewrite (Q al EM); [reflexivity|]. unfold rate. rewrite RA, RR. reflexivity. }
  split; [exact GL|].
  exists rspec, dspec, rp, dp.
  split; [exists (mg_filterbank m1), fb1; split; [exact HM|]; destruct rs; exact B1|].
  split. { exists fb1, fb2. split; [exact HM1|]. rewrite <- EG. unfold rate. rewrite <- Rsc at 1. destruct scaled; exact B2. }
  split; [exact PR|].
  intros p Hp. apply In_nth_error in Hp as (k & Hk). destruct (P_Order.F2_nth _ _ _ FE k p Hk) as (old & Ho & g & g' & GM & RE).
  destruct (CP k old Ho) as (q & sim & lost & off & Eo & Hoff & Hq & MS). rewrite P0 in Eo. rewrite (PC q (nth_error_In _ _ Hq)) in MS.
  assert (Hki : (k < List.length idx)%nat) by (rewrite <- PL; apply nth_error_Some; congruence).
  destruct (PS k Hki) as (P1 & P2 & P3). rewrite Hq in P3. injection P3 as ->.
  pose proof (realign_what pf nb rs scaled w g g' old p sim lost off (nth k idx 0%Z) fp n (sp_data rp) (sp_data dp)) as RW. cbv zeta in RW. rewrite EW in RW. fold rate xs in RW.
  rewrite EG in RW. 
  assert (RW' : what nb rate xs (map (Rmult gain) (moved 0 shift (data_matrix ds))) (sp_data rp) (sp_data dp) W fp n (nth k idx 0%Z) p).
  { apply RW; [reflexivity|congruence|exact Rsc|lia|lia|lia|lia|lia|exact E4|split; [exact N9|exact NB]|nia|nia|lia|lia|exact MS|rewrite <- EW; exact Eo|exact RE]. }
  clear RW. destruct RW' as (i & len & R1 & R2 & R3 & R4 & R5 & R6).
  exists i, len. split; [exact R1|]. split; [exact R2|]. split; [exact R3|]. split; [exact R4|]. split; [exact R5|]. destruct R6 as [R6|(j & q' & J1 & J2 & J3 & J4 & J5 & J6)]; [left; exact R6|right]. exists j, q'. split; [exact J1|]. split; [exact J2|]. split; [exact J3|]. split; [exact J4|]. split; [exact J5|].
  destruct J6 as [J6|(d & D1 & D2 & D3 & D4 & D5)]; [left; exact J6|right]. exists (nth k idx 0%Z), d. split; [exact D1|]. split; [exact D2|]. split; [exact D3|]. split; [exact P1|]. split; [exact D4|exact D5].
Qed.
