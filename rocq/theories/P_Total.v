(** C48: a comparison succeeds, in exact arithmetic. *)
From Coq Require Import Sorting.Sorted.
From Coq Require Import Reals Lra Lia.
From Flocq Require Import Core.
From Verif Require Import Base Num Mat RNum M_Audio M_Align M_Spectro M_Patch M_Nsim M_Selector M_Visqol.
From Verif Require Import P_Base P_Mat P_R P_Level P_Audio P_Manager P_Score P_Patch Spec Spec2 Spec3 P_Conv P_Nsim P_Spectro P_Prep P_Dp P_Dp2 P_Dp3 P_Times P_Agg P_Run P_Xcorr P_Env P_Self P_Slice P_Same P_Same2.
Open Scope R_scope.

(** ** Alignment *)
Lemma zlen_pos {A} (l : list A) : (0 <= zlen l)%Z. Proof. unfold zlen. lia. Qed.
Lemma pad_len {A} (x : A) l k : (0 <= k)%Z -> zlen (repeat x (Z.to_nat k) ++ l) = (k + zlen l)%Z.
Proof. intros. unfold zlen. rewrite app_length, repeat_length. lia. Qed.
Lemma skip_len {A} (l : list A) k : (0 <= k <= zlen l)%Z -> zlen (skipn (Z.to_nat k) l) = (zlen l - k)%Z.
Proof. unfold zlen. rewrite skipn_length. lia. Qed.
Lemma cut_len {A} (l : list A) a b : (0 <= a <= b)%Z -> (b <= zlen l)%Z -> zlen (firstn (Z.to_nat (b - a)) (skipn (Z.to_nat a) l)) = (b - a)%Z.
Proof. unfold zlen. rewrite firstn_length, skipn_length. lia. Qed.
Lemma each_total {A B} (f : A -> res B) l : (forall a, In a l -> exists b, f a = Ok b) -> exists bs, mapM f l = Ok bs.
Proof.
  induction l as [|a t IH]; intros H; [exists []; reflexivity|]. destruct (H a (or_introl eq_refl)) as (b & E). destruct IH as (bs & Et); [intros; apply H; right; auto|].
  exists (b :: bs). cbn [mapM]. rewrite E. cbn [bind]. rewrite Et. reflexivity.
Qed.
(** The result of the global alignment: the degraded signal as it is, with
    silence in front, or without its beginning. *)
Definition aligned_as (rs ds al : AudioSignal RN) (lag : R) : Prop :=
  sample_rate al = sample_rate ds /\
  (al = ds /\ lag = 0 \/
   exists k, (0 < k <= sig_len rs / 2)%Z /\
     (data_matrix al = repeat 0 (Z.to_nat k) ++ data_matrix ds /\ lag = IZR k / IZR (sample_rate ds) \/
      (k < sig_len ds)%Z /\ data_matrix al = skipn (Z.to_nat k) (data_matrix ds) /\ lag = IZR (- k) / IZR (sample_rate ds))).
Lemma align_total pf (rs ds : AudioSignal RN) : (1 <= sig_len rs <= 2 ^ 62)%Z -> (1 <= sig_len ds <= 2 ^ 62)%Z ->
  (9 <= Z.max (sig_len rs) (sig_len ds))%Z -> exists al lag, globally_align pf rs ds = Ok (Some (al, lag)) /\ aligned_as rs ds al lag.
Proof.
  intros HL HD H9. unfold globally_align.
  destruct (C15_all pf (data_matrix rs) HL) as (_ & e1 & _ & E1 & L1 & _). destruct (C15_all pf (data_matrix ds) HD) as (_ & e2 & _ & E2 & L2 & _).
  assert (Z1 : (@zlen R e1 = sig_len rs)%Z) by exact (f_equal Z.of_nat L1).
  assert (Z2 : (@zlen R e2 = sig_len ds)%Z) by exact (f_equal Z.of_nat L2).
  rewrite E1. cbn [bind]. rewrite E2. cbn [bind].
  assert (HG : (9 <= longest e1 e2 <= 2 ^ 62)%Z) by (unfold longest; change (num RN) with R in *; lia).
  destruct (C13_all pf e1 e2 HG) as (lag & E3 & B & M & F). rewrite E3. cbn [bind].
  assert (LG : longest e1 e2 = Z.max (sig_len rs) (sig_len ds)) by (unfold longest; change (num RN) with R in *; lia).
  rewrite LG in *.
  destruct (Z.eqb_spec lag 0); [eexists; eexists; split; [reflexivity|split; auto]|].
  destruct (Z.ltb_spec (sig_len rs / 2) (Z.abs lag)); [eexists; eexists; split; [reflexivity|split; auto]|]. cbn [orb].
  destruct (Z.ltb_spec lag 0).
  - assert (Hk : (Z.abs lag < sig_len ds)%Z).
    { destruct (Z_lt_le_dec (Z.abs lag) (sig_len ds)); auto. exfalso.
      assert (C0 : correlation e1 e2 lag = 0) by (apply corr_out; change (num RN) with R in *; lia).
      assert (A0 : forall k, (- (Z.max (sig_len rs) (sig_len ds) - 1) <= k <= Z.max (sig_len rs) (sig_len ds) - 1)%Z -> correlation e1 e2 k = 0).
      { intros k Hk. specialize (M k Hk). rewrite C0, Rabs_R0 in M. pose proof (Rabs_pos (correlation e1 e2 k)). destruct (Req_dec (correlation e1 e2 k) 0); auto. exfalso. apply Rabs_pos_lt in H2. lra. }
      assert (Hx : (lag = - (Z.max (sig_len rs) (sig_len ds) - 1))%Z).
      { destruct (Z.eq_dec lag (- (Z.max (sig_len rs) (sig_len ds) - 1))); auto. exfalso. apply (F (- (Z.max (sig_len rs) (sig_len ds) - 1))%Z); [lia|]. rewrite !A0 by lia. auto. }
      assert (sig_len rs / 2 * 2 <= sig_len rs)%Z by (rewrite Z.mul_comm; apply Z.mul_div_le; lia). lia. }
    change (sig_len ds) with (zlen (data_matrix ds)) in Hk |- *. rewrite zslice_in by lia. cbn [bind]. eexists; eexists. split; [reflexivity|]. split; [reflexivity|].
    right. exists (Z.abs lag). split; [lia|]. right. split; [exact Hk|]. cbn [data_matrix]. split.
    + apply firstn_all2. rewrite skipn_length. unfold zlen in *. lia.
    + cbn [ndiv nofZ RN]. do 2 f_equal. lia.
  - cbn [bind]. eexists; eexists. split; [reflexivity|]. split; [reflexivity|]. right. exists lag. split; [lia|]. left. split; auto.
Qed.
Lemma trunc_total pf (rs ds : AudioSignal RN) : (9 <= sig_len rs <= 2 ^ 62)%Z -> sig_len ds = sig_len rs ->
  sample_rate ds = sample_rate rs -> (1 <= sample_rate rs)%Z ->
  exists r d lag, align_and_truncate pf rs ds = Ok (Some (r, d, lag)) /\ sample_rate r = sample_rate rs /\ sample_rate d = sample_rate rs /\
    sig_len r = sig_len d /\ (sig_len rs <= 2 * sig_len r)%Z /\ (sig_len r <= sig_len rs)%Z.
Proof.
  intros HL HE HR HP. unfold align_and_truncate.
  destruct (align_total pf rs ds) as (al & lag & E & RA & A); [lia|lia|lia|]. rewrite E. cbn [bind].
  assert (HPR : IZR (sample_rate rs) <> 0) by (apply not_0_IZR; lia).
  assert (Hd : (sig_len rs / 2 * 2 <= sig_len rs)%Z) by (rewrite Z.mul_comm; apply Z.mul_div_le; lia).
  destruct A as [[-> ->]|(k & Hk & [(D & ->)|(Hk2 & D & ->)])].
  - change (zlen (data_matrix rs)) with (sig_len rs). change (zlen (data_matrix ds)) with (sig_len ds). rewrite HE, Z.ltb_irrefl. cbn [bind fst snd].
    do 3 eexists. split; [reflexivity|]. cbn [sample_rate sig_len data_matrix]. unfold sig_len in *. cbn [data_matrix]. repeat split; auto; lia.
  - assert (Za : zlen (data_matrix al) = (k + sig_len rs)%Z) by (rewrite D; etransitivity; [apply pad_len; lia|]; unfold sig_len in *; lia).
    rewrite Za. change (zlen (data_matrix rs)) with (sig_len rs). destruct (Z.ltb_spec (sig_len rs) (k + sig_len rs)); [|lia].
    assert (U : as_usize (N:=RN) (nmul RN (IZR k / IZR (sample_rate ds)) (nofZ RN (sample_rate rs))) = k).
    { cbn [nmul nofZ RN]. rewrite HR. replace (IZR k / IZR (sample_rate rs) * IZR (sample_rate rs)) with (IZR k) by (field; auto). apply usize_int. lia. }
    rewrite HR in *. rewrite U.
    rewrite (zslice_in (data_matrix rs)) by (unfold sig_len in *; lia). cbn [bind]. rewrite (zslice_in (data_matrix al)) by lia. cbn [bind fst snd].
    do 3 eexists. split; [reflexivity|]. cbn [sample_rate]. unfold sig_len in *. cbn [data_matrix]. rewrite !cut_len by lia. repeat split; auto; lia.
  - assert (Za : zlen (data_matrix al) = (sig_len rs - k)%Z) by (rewrite D; etransitivity; [apply skip_len; unfold sig_len in *; lia|]; unfold sig_len in *; lia).
    rewrite Za. change (zlen (data_matrix rs)) with (sig_len rs). destruct (Z.ltb_spec (sig_len rs) (sig_len rs - k)); [lia|]. destruct (Z.ltb_spec (sig_len rs - k) (sig_len rs)); [|lia].
    rewrite (zslice_in (data_matrix rs)) by (unfold sig_len in *; lia). cbn [bind fst snd].
    do 3 eexists. split; [reflexivity|]. cbn [sample_rate]. unfold sig_len in *. cbn [data_matrix]. rewrite cut_len by lia. rewrite Za. repeat split; auto; lia.
Qed.

(** ** Spectrograms *)
Lemma build_total nb (f : Filterbank RN) s w : (1 <= win_size w)%Z -> (0 < hop_size w)%Z -> (win_size w <= sig_len s)%Z ->
  exists f' sp, build nb f s w = (f', Ok sp) /\ mat_wf (sp_data sp) /\ mrows (sp_data sp) = nb /\
    Z.of_nat (mcols (sp_data sp)) = (1 + (sig_len s - win_size w) / hop_size w)%Z.
Proof.
  intros H1 H2 H3. destruct (C30_total nb f s w H1 H2 H3) as (sp & E & A & B & C & _).
  { apply Forall_forall. intros x _. apply R_nis_nan. }
  destruct (build nb f s w) as [f' x]. cbn [snd] in E. subst x. eauto 8.
Qed.
Lemma R_num_max (l : list R) : l <> [] -> exists m, nd_max (N:=RN) l = Some m.
Proof. intros H. destruct (nd_max_ok (N:=RN) _ _ _ R_num_order l H) as (m & E & _); [apply Forall_forall; intros; exact I|]. eauto. Qed.
Lemma R_num_min (l : list R) : l <> [] -> exists m, nd_min (N:=RN) l = Some m.
Proof. intros H. destruct (nd_min_ok (N:=RN) _ _ _ R_num_order l H) as (m & E & _); [apply Forall_forall; intros; exact I|]. eauto. Qed.
Lemma flat_ne {N : NumOps} (r c : nat) (f : nat -> nat -> num N) : (1 <= r)%nat -> (1 <= c)%nat -> mflat (mbuild (N:=N) r c f) <> [].
Proof. intros Hr Hc. destruct r; [lia|]. destruct c; [lia|]. unfold mflat, mbuild. cbn. discriminate. Qed.
Lemma col_ne {N : NumOps} (m : mat N) j : (1 <= mrows m)%nat -> mcol m j <> [].
Proof. unfold mcol. destruct (mrows m); [lia|discriminate]. Qed.
Lemma prep_total (a b : Spectrogram RN) : (1 <= mrows (sp_data a))%nat -> (1 <= mrows (sp_data b))%nat ->
  (1 <= mcols (sp_data a))%nat -> (1 <= mcols (sp_data b))%nat -> exists x y, prepare_spectrograms_for_comparison a b = Ok (x, y).
Proof.
  intros R1 R2 C1 C2. unfold prepare_spectrograms_for_comparison, raise_floor_per_frame. cbv zeta.
  match goal with |- context [mapM ?f ?l] => assert (F : exists fl, mapM f l = Ok fl) end.
  { apply each_total. intros j Hj. unfold frame_floor.
    match goal with |- context [nd_max (mcol ?m j)] => destruct (R_num_max (mcol m j)) as (m1 & E1) end.
    { apply (col_ne (N:=RN)). exact R1. }
    rewrite E1. cbn [bind].
    match goal with |- context [nd_max (mcol ?m j)] => destruct (R_num_max (mcol m j)) as (m2 & E2) end.
    { apply (col_ne (N:=RN)). exact R2. }
    rewrite E2. cbn [bind]. eauto. }
  destruct F as (fl & ->). cbn [bind]. unfold get_minimum. cbn [with_data sp_data].
  match goal with |- context [nd_min ?l] => destruct (R_num_min l) as (m1 & ->) end; [apply (flat_ne (N:=RN)); cbn [with_data sp_data raise_floor convert_to_db mmap mrows mcols]; auto|]. cbn [bind].
  match goal with |- context [nd_min ?l] => destruct (R_num_min l) as (m2 & ->) end; [apply (flat_ne (N:=RN)); cbn [with_data sp_data raise_floor convert_to_db mmap mrows mcols]; auto|]. cbn [bind].
  eauto.
Qed.

(** ** The search *)
Lemma calc_total pf idx n half : (2 <= List.length idx)%nat -> (forall k, (S k < List.length idx)%nat -> (nth k idx 0 < nth (S k) idx 0)%Z) ->
  (half <= nth 1 idx 0 <= n + half)%Z -> forall k, (2 <= k <= List.length idx)%nat -> exists P, calc_max_loop pf idx n half k = Ok (Z.of_nat P).
Proof.
  intros HM HI H1 k. induction k as [|k IH]; intros Hk; [lia|]. cbn [calc_max_loop].
  rewrite (zget_in idx _ 0%Z) by (unfold zlen; lia). cbn [bind]. rewrite Nat2Z.id.
  assert (G : forall j, (1 <= j < List.length idx)%nat -> (nth 1 idx 0 <= nth j idx 0)%Z).
  { induction j as [|j IHj]; intros Hj; [lia|]. destruct (Nat.eq_dec j 0) as [-> |]; [lia|]. specialize (IHj ltac:(lia)). specialize (HI j ltac:(lia)). lia. }
  specialize (G k ltac:(lia)). rewrite usub_ok by lia. cbn [bind]. destruct (Z.ltb_spec n (nth k idx 0 - half)%Z); [|exists (S k); reflexivity].
  apply IH. destruct (Nat.eq_dec k 1) as [-> |]; [lia|lia].
Qed.
Section Find.
Variable pf : profile.
Variable refs : list (mat RN).
Variable idx : list Z.
Variable deg : mat RN.
Variable radius : Z.
Variable fp : nat.
Hypothesis SI : search_in refs idx deg radius fp.
Notation sw := (radius * Z.of_nat fp)%Z.
Notation c := (Z.of_nat (mcols deg)).
Notation M := (List.length idx).
Hypothesis Hc : (c < 2 ^ 53)%Z.
Hypothesis HM53 : (Z.of_nat M < 2 ^ 53)%Z.
Hypothesis Hincr : forall k, (S k < M)%nat -> (nth k idx 0 < nth (S k) idx 0)%Z.
Hypothesis HM : (2 <= M)%nat.
Hypothesis Hone : (Z.of_nat fp / 2 <= nth 1 idx 0 <= c + Z.of_nat fp / 2)%Z.
Hypothesis Hfar : forall r, In r idx -> (r - sw <= c)%Z.

Lemma sims_range k s : (k < M)%nat -> -1 <= sim_at (N:=RN) refs deg k s <= 1.
Proof.
  intros Hk. unfold sim_at. destruct SI as [S1 S2 S3 S4 S5 S6 S7 S8].
  destruct (nth_error refs k) as [rp|] eqn:E; [|apply nth_error_None in E; lia].
  destruct (S3 rp (nth_error_In _ _ E)) as (Wf & R1 & C1). rewrite C1.
  destruct (measure_patch_similarity _ _) eqn:Em; try (change (nofZ RN 0) with 0; lra).
  eapply C36_bounds in Em; [apply Em| | | | | |]; try apply patch_at_wf; cbn [patch_at mbuild mrows mcols]; auto; lia.
Qed.
Lemma find_total fd : exists out, find_most_optimal_deg_patches pf refs idx deg fd radius = Ok out /\ out <> [] /\ Forall (sim_shape (mrows deg)) out.
Proof.
  pose proof SI as [S1 S2 S3 S4 S5 S6 S7 S8].
  destruct (calc_total pf idx c (Z.of_nat fp / 2) HM Hincr Hone M ltac:(lia)) as (P & HP0).
  assert (HP : calc_max_num_patches pf idx c (Z.of_nat fp) = Ok (Z.of_nat P)).
  { unfold calc_max_num_patches. destruct idx; [cbn in HM; lia|]. exact HP0. }
  destruct (find_tables pf refs idx deg radius fp SI P fd HP Hfar) as (dp & bt & TR & HPM & EQ).
  rewrite EQ. clear EQ.
  assert (Hrange : forall k s, (k < M)%nat -> (0 <= s < c)%Z -> -1 <= sim_at (N:=RN) refs deg k s <= 1) by (intros; apply sims_range; auto).
  pose proof (B_range _ _ _ _ _ _ _ _ TR eq_refl Hrange HM53) as BR.
  pose proof TR as (I1 & I2 & I3 & I4 & I5).
  unfold best_last_offset.
  set (last := (P - 1)%nat) in *.
  assert (GZ : forall s, (0 <= s < c)%Z -> zget (nth last dp []) s = Ok (tcell 0 dp last s : num RN)).
  { intros s Hs. apply zget_in. unfold zlen. pose proof (proj1 (I3 last ltac:(lia))) as L. match goal with |- (_ <= _ < Z.of_nat ?n)%Z => replace n with (mcols deg) by (symmetry; exact L) end. lia. }
  rewrite (scan_fold (N:=RN) (nth last dp []) (fun s => tcell 0 dp last s)).
  2: { intros s Hs. apply in_zrange in Hs. apply GZ. unfold lo in Hs. lia. }
  cbn [bind].
  match goal with |- context [fold_left ?f ?l _] => pose proof (scan_spec (N:=RN) _ _ _ R_order (fun s => tcell 0 dp last s) l (nmin_value RN) 0%Z I (fun _ _ => I)) as SS end.
  cbv beta in SS. destruct (fold_left _ _ _) as [hv o]. destruct SS as (_ & _ & _ & G3). cbn [snd].
  assert (Ho : (0 <= o < c)%Z).
  { destruct G3 as [[_ G3]|(G3 & _)]; [subst; lia|]. apply in_zrange in G3. unfold lo in G3. lia. }
  assert (BT : forall pd k, (k <= M)%nat -> forall s acc, (k = 0%nat \/ (0 <= s < c)%Z) -> Forall (sim_shape (mrows deg)) acc ->
    exists out, backtrace_loop pf refs idx deg bt fd pd k s acc = Ok out /\ List.length out = (k + List.length acc)%nat /\ Forall (sim_shape (mrows deg)) out).
  { intros pd k. induction k as [|k IH]; intros Hk s acc Hs Ha.
    - exists acc. auto.
    - destruct Hs as [Hs|Hs]; [lia|].
      destruct (back_step pf refs idx deg radius fp SI bt fd pd k s acc Hk I2 (fun j Hj => proj2 (I3 j Hj)) ltac:(lia) Hs) as (rp & p & Er & Ep & Eb).
      rewrite Eb. destruct (S3 rp (nth_error_In _ _ Er)) as (Wf & R1 & C1). apply measure_shape in Ep; [|apply patch_at_wf]. rewrite R1 in Ep.
      destruct (IH ltac:(lia) (tcell 0%Z bt k s) (set_times p (s =? tcell 0 bt k s)%Z s (nth k idx 0%Z) fd pd :: acc)) as (out & E1 & E2 & E3).
      { destruct k as [|k]; [left; auto|right]. apply BR; auto. }
      { constructor; [|auto]. destruct Ep as (Q1 & Q2 & Q3). unfold sim_shape, set_times. cbn [freq_band_means freq_band_stddevs freq_band_deg_energy]. destruct (_ =? _)%Z; rewrite ?repeat_length; auto. }
      exists out. split; [exact E1|]. split; [rewrite E2; cbn [List.length]; lia|exact E3]. }
  destruct (BT (nmul RN fd (nofZ RN (Z.of_nat fp))) P ltac:(lia) o [] (or_intror Ho) (Forall_nil _)) as (out & E1 & E2 & E3).
  exists out. split; [exact E1|]. split; [|exact E3]. intros ->. cbn in E2. lia.
Qed.
End Find.

(** ** Fine alignment *)
Lemma ceil_at_least x : 1 <= x -> (1 <= as_usize (N:=RN) (nceil RN x))%Z.
Proof.
  intros H. unfold as_usize. cbn [ncast nceil RN]. rewrite Ztrunc_IZR.
  assert (1 <= Zceil x)%Z; [|lia]. apply le_IZR. eapply Rle_trans; [exact H|]. apply Zceil_ub.
Qed.
Lemma hop_slice (s : AudioSignal RN) hop r fp : (1 <= sample_rate s)%Z -> (1 <= hop)%Z -> (0 <= r)%Z -> (1 <= fp)%Z -> ((r + fp) * (4 * hop) < 2 ^ 66)%Z ->
  (sig_len s < 2 ^ 62)%Z -> (r * hop <= sig_len s)%Z -> let fd := frame_dur (4 * hop) (sample_rate s) in
  exists s', slice s (IZR r * fd) (IZR r * fd + fd * IZR fp) = Ok s' /\ sample_rate s' = sample_rate s /\ sig_len s' = (fp * hop)%Z.
Proof.
  intros H1 H2 H3 H4 H5 H6 H7 fd. pose proof (slice_R s (4 * hop) r fp H1 ltac:(lia) H3 ltac:(lia) H5 H6) as E. cbv zeta in E. fold fd in E.
  replace (r * (4 * hop) / 4)%Z with (r * hop)%Z in E by (replace (r * (4 * hop))%Z with (r * hop * 4)%Z by ring; rewrite Z.div_mul; lia).
  destruct (Z.leb_spec (r * hop) (sig_len s)); [|lia]. eexists. split; [exact E|].
  destruct (slice_R_len s _ (4 * hop) r fp H1 ltac:(lia) H3 ltac:(lia) H5 H6 E) as [A B]. split; [exact A|]. rewrite B.
  replace (r * (4 * hop))%Z with (r * hop * 4)%Z by ring. replace ((r + fp) * (4 * hop))%Z with ((r + fp) * hop * 4)%Z by ring. rewrite !Z.div_mul by lia. ring.
Qed.
Lemma realign_total pf nb rs ds w (f : Filterbank RN) old idx c hop fp :
  let fd := frame_dur (win_size w) (sample_rate rs) in
  (1 <= nb)%nat -> sample_rate ds = sample_rate rs -> (1 <= sample_rate rs)%Z -> win_size w = (4 * hop)%Z -> hop_size w = hop -> (1 <= hop)%Z -> (10 <= fp)%Z ->
  (sig_len rs < 2 ^ 62)%Z -> (sig_len ds < 2 ^ 62)%Z -> (fp * hop < 2 ^ 62)%Z ->
  (forall r, In r idx -> (0 <= r)%Z /\ ((r + fp) * win_size w < 2 ^ 66)%Z /\ (r * hop <= sig_len rs)%Z) ->
  (c * hop <= sig_len ds)%Z -> ((c + fp) * win_size w < 2 ^ 66)%Z ->
  sim_shape nb old -> coarse_patch (N:=RN) idx c fd (fd * IZR fp) old ->
  exists f' p, realign_patch pf nb rs ds w f old = (f', Ok p) /\ sim_shape nb p /\ (1 <= frame_count (N:=RN) fd p)%Z.
Proof.
  intros fd Hnb HR Hrate HW HH Hhop Hfp HL HD Hb Hidx Hcd Hcb Hsh (sim & lost & off & r & Eold & Hoff & Hr).
  destruct (Hidx r Hr) as (Hr0 & Hr1 & Hr2).
  assert (HRne : 0 < IZR (sample_rate rs)) by (apply IZR_lt; lia).
  assert (Fd : fd = IZR hop / IZR (sample_rate rs)).
  { unfold fd, frame_dur. rewrite HW, (mult_IZR 4). change (10 ^ 2)%Z with 100%Z. field. lra. }
  assert (Fpos : 0 < fd). { rewrite Fd. apply Rdiv_lt_0_compat; auto. apply IZR_lt. lia. }
  assert (FC : (1 <= frame_count (N:=RN) fd old)%Z).
  { rewrite Eold. unfold frame_count. apply ceil_at_least. cbn [set_times ref_patch_end_time ref_patch_start_time nsub nadd nmul nofZ ndiv RN].
    match goal with |- _ <= ?x => replace x with (IZR fp) by (realeq; field; lra) end. apply IZR_le. lia. }
  assert (IL : is_lost old = lost).
  { rewrite Eold. unfold is_lost. cbn [set_times deg_patch_start_time deg_patch_end_time]. destruct lost; cbn [neqb nofZ nadd nmul RN].
    - rewrite !Reqb_refl. reflexivity.
    - rewrite (proj2 (Reqb_false _ _)); [reflexivity|]. assert (0 < fd * IZR fp) by (apply Rmult_lt_0_compat; auto; apply IZR_lt; lia).
      intros E. revert H. match type of E with ?a = ?a + ?b => assert (E' : (b : R) = 0) by (change (num RN) with R in *; lra); change (0 < b -> False); lra end. }
  unfold realign_patch. rewrite IL. destruct lost; [exists f, old; auto|].
  rewrite Eold. cbn [set_times ref_patch_end_time ref_patch_start_time deg_patch_start_time deg_patch_end_time].
  assert (Fd4 : frame_dur (4 * hop) (sample_rate rs) = fd) by (unfold fd; rewrite HW; reflexivity). rewrite HW in Hr1, Hcb.
  destruct (hop_slice rs hop r fp Hrate Hhop Hr0 ltac:(lia) Hr1 HL Hr2) as (ra & S1 & R1 & L1).
  destruct (hop_slice ds hop off fp ltac:(lia) Hhop ltac:(lia) ltac:(lia) ltac:(nia) HD ltac:(nia)) as (da & S2 & R2 & L2).
  rewrite HR in S2. rewrite Fd4 in S1, S2.
  match goal with |- context [slice rs ?a ?b] => replace (slice rs a b) with (@Ok (AudioSignal RN) ra) by (symmetry; exact S1) end.
  match goal with |- context [slice ds ?a ?b] => replace (slice ds a b) with (@Ok (AudioSignal RN) da) by (symmetry; exact S2) end.
  destruct (trunc_total pf ra da) as (ra' & da' & lag & AL & R3 & R4 & L3 & L4 & L5); [nia|lia|congruence|lia|].
  rewrite AL.
  assert (Hlen : (4 * hop <= sig_len ra')%Z) by nia.
  destruct (build_total nb f ra' w) as (f1 & s1 & B1 & W1 & Rw1 & C1); [lia|lia|lia|].
  destruct (build_total nb f1 da' w) as (f2 & s2 & B2 & W2 & Rw2 & C2); [lia|lia|lia|].
  rewrite B1, B2. cbn [bind].
  assert (CP : (1 <= Z.of_nat (mcols (sp_data s1)))%Z).
  { rewrite C1. assert (0 <= (sig_len ra' - win_size w) / hop_size w)%Z by (apply Z.div_pos; lia). lia. }
  assert (CE : mcols (sp_data s2) = mcols (sp_data s1)) by (apply Nat2Z.inj; rewrite C1, C2, L3; reflexivity).
  destruct (prep_total s1 s2) as (x & y & PR); [lia|lia|lia|lia|]. rewrite PR. cbn [bind].
  pose proof (prepare_shape _ _ _ _ PR) as ((Wx & Rx & Cx & _) & (Wy & Ry & Cy & _)).
  destruct (measure_ok (sp_data x) (sp_data y) Wx Wy) as (mm & ss & ee & _ & _ & _ & _ & ME); [lia|lia|lia|lia|].
  cbn [fst snd]. rewrite ME. cbn [bind]. eexists. eexists. split; [reflexivity|].
  apply measure_shape in ME; auto. rewrite Rx, Rw1 in ME.
  unfold choose_result. destruct (nltb RN _ _).
  - rewrite <- Eold. split; auto.
  - split; [exact ME|]. unfold frame_count. cbn [ref_patch_end_time ref_patch_start_time]. apply ceil_at_least.
    unfold get_duration. rewrite R3, R1. cbn [nsub nadd nmul nofZ ndiv RN].
    match goal with |- 1 <= (?s + ?d - ?s) / fd => replace ((s + d - s) / fd) with (d / fd) by (unfold Rdiv; realeq; ring) end.
    apply Rmult_le_reg_r with fd; auto. unfold Rdiv at 1. rewrite Rmult_assoc, Rinv_l, Rmult_1_r, Rmult_1_l by lra. rewrite Fd.
    apply Rmult_le_compat_r; [left; apply Rinv_0_lt_compat; auto|]. apply IZR_le. lia.
Qed.
Lemma finely_total pf nb rs ds w idx c hop fp :
  let fd := frame_dur (win_size w) (sample_rate rs) in
  (1 <= nb)%nat -> sample_rate ds = sample_rate rs -> (1 <= sample_rate rs)%Z -> win_size w = (4 * hop)%Z -> hop_size w = hop -> (1 <= hop)%Z -> (10 <= fp)%Z ->
  (sig_len rs < 2 ^ 62)%Z -> (sig_len ds < 2 ^ 62)%Z -> (fp * hop < 2 ^ 62)%Z ->
  (forall r, In r idx -> (0 <= r)%Z /\ ((r + fp) * win_size w < 2 ^ 66)%Z /\ (r * hop <= sig_len rs)%Z) ->
  (c * hop <= sig_len ds)%Z -> ((c + fp) * win_size w < 2 ^ 66)%Z ->
  forall l (f : Filterbank RN), Forall (sim_shape nb) l -> Forall (coarse_patch (N:=RN) idx c fd (fd * IZR fp)) l ->
  exists f' out, finely_align_and_recreate_patches pf nb rs ds w f l = (f', Ok out) /\ Forall (fun p => sim_shape nb p /\ (1 <= frame_count (N:=RN) fd p)%Z) out.
Proof.
  intros fd Hnb HR Hrate HW HH Hhop Hfp HL HD Hb Hidx Hcd Hcb l. induction l as [|old t IH]; intros f Hsh Hco; cbn [finely_align_and_recreate_patches].
  { exists f, []. auto. }
  inversion Hsh; inversion Hco; subst.
  destruct (realign_total pf nb rs ds w f old idx c (hop_size w) fp) as (f1 & p & E & Sp & Fp); auto. rewrite E.
  destruct (IH f1) as (f2 & out & E2 & F2); auto. rewrite E2. cbn [bind]. exists f2, (p :: out). auto.
Qed.

(** ** Averages *)
Lemma add_total {N : NumOps} (a v : list (num N)) : List.length a = List.length v -> exists c, add_into a v = Ok c /\ List.length c = List.length a.
Proof.
  revert v. induction a as [|x a IH]; intros [|y v]; try discriminate; cbn [add_into]; [eauto|]. intros Hl.
  destruct (IH v) as (c & -> & Lc); [exact (eq_add_S _ _ Hl)|]. cbn [bind]. eexists. split; [reflexivity|]. exact (f_equal S Lc).
Qed.
Lemma sums_total {N : NumOps} (g : PatchSim N -> list (num N)) nb info : (forall p, In p info -> List.length (g p) = nb) -> forall acc, List.length acc = nb ->
  exists s, foldM (fun acc p => add_into acc (g p)) acc info = Ok s /\ List.length s = nb.
Proof.
  induction info as [|p t IH]; intros Lm acc Ha; cbn [foldM]; [eauto|].
  destruct (add_total acc (g p)) as (c & -> & Lc); [rewrite Lm by (left; auto); auto|]. cbn [bind]. apply IH; [intros; apply Lm; right; auto|congruence].
Qed.
Lemma bands_total {N : NumOps} nb (info : list (PatchSim N)) : Forall (sim_shape nb) info -> info <> [] -> num_bands_of info = Ok nb.
Proof. intros F NE. destruct info as [|p t]; [tauto|]. inversion F as [|? ? (A & _) _]; subst. reflexivity. Qed.
Lemma means_total {N : NumOps} nb (info : list (PatchSim N)) : Forall (sim_shape nb) info -> info <> [] ->
  exists fv, calc_per_patch_mean_freq_band_means info = Ok fv /\ List.length fv = nb.
Proof.
  intros F NE. unfold calc_per_patch_mean_freq_band_means. rewrite (bands_total nb) by auto. cbn [bind].
  destruct (sums_total freq_band_means nb info) with (acc := repeat (nofZ N 0) nb) as (s & -> & L); [rewrite Forall_forall in F; intros p Hp; apply F; auto|apply repeat_length|].
  cbn [bind]. eexists. split; [reflexivity|]. rewrite map_length. auto.
Qed.
Lemma energies_total {N : NumOps} nb (info : list (PatchSim N)) : Forall (sim_shape nb) info -> info <> [] ->
  exists fv, calc_per_patch_mean_freq_band_degraded_energy info = Ok fv.
Proof.
  intros F NE. unfold calc_per_patch_mean_freq_band_degraded_energy. rewrite (bands_total nb) by auto. cbn [bind].
  destruct (sums_total freq_band_deg_energy nb info) with (acc := repeat (nofZ N 0) nb) as (s & -> & L); [rewrite Forall_forall in F; intros p Hp; apply F; auto|apply repeat_length|].
  cbn [bind]. eauto.
Qed.
Lemma contrib_total {N : NumOps} pf fc (acc devs means : list (num N)) : (1 <= fc)%Z -> List.length devs = List.length acc -> List.length means = List.length acc ->
  exists out, add_contribution pf fc acc devs means = Ok out /\ List.length out = List.length acc.
Proof.
  intros Hf. revert devs means. induction acc as [|a t IH]; intros [|dv devs] [|mn means]; try discriminate; [exists []; auto|].
  intros H1 H2. destruct (IH devs means (eq_add_S _ _ H1) (eq_add_S _ _ H2)) as (o & A & B).
  cbn [add_contribution]. rewrite usub_ok by auto. cbn [bind]. rewrite A. cbn [bind]. eexists. split; [reflexivity|]. exact (f_equal S B).
Qed.
Lemma stds_total {N : NumOps} pf fd nb K (info : list (PatchSim N)) : Forall (sim_shape nb) info -> info <> [] ->
  (forall p, In p info -> (1 <= frame_count fd p <= K)%Z) -> (K * Z.of_nat (List.length info) < usize_mod)%Z ->
  exists out, calc_per_patch_mean_freq_band_std_devs pf info fd = Ok out.
Proof.
  intros F NE HC HB. unfold calc_per_patch_mean_freq_band_std_devs. destruct (means_total nb info F NE) as (fv & -> & _). cbn [bind].
  rewrite (bands_total nb) by auto. cbn [bind].
  assert (G : forall l acc tot, (forall p, In p l -> In p info) -> List.length acc = nb -> (0 <= tot)%Z -> (tot + K * Z.of_nat (List.length l) < usize_mod)%Z ->
    exists st, foldM (fun (st : list (num N) * Z) p =>
             let '(contribution, total) := st in
             let fc := frame_count fd p in
             do total' <- uadd pf total fc;
             do c' <- add_contribution pf fc contribution (freq_band_stddevs p) (freq_band_means p);
             Ok (c', total')) (acc, tot) l = Ok st).
  { induction l as [|p t IH]; intros acc tot Hin Ha Ht Hb; cbn [foldM]; [eauto|]. cbv zeta.
    assert (Hp : In p info) by (apply Hin; left; auto). destruct (HC p Hp) as [F1 F2]. cbn [List.length] in Hb.
    rewrite uadd_ok by nia. cbn [bind]. rewrite Forall_forall in F. destruct (F p Hp) as (L1 & L2 & _).
    destruct (contrib_total pf (frame_count fd p) acc (freq_band_stddevs p) (freq_band_means p) F1) as (o & -> & Lo); [congruence|congruence|]. cbn [bind].
    apply IH; [intros; apply Hin; right; auto|congruence|lia|lia]. }
  assert (G0 := G info (repeat (nofZ N 0) nb) 0%Z ltac:(auto) (repeat_length _ _) ltac:(lia) ltac:(lia)).
  match goal with |- context [foldM ?f ?a info] => assert (G1 : exists st, foldM f a info = Ok st) by exact G0; destruct G1 as (st & ->) end.
  cbn [bind]. destruct st. eauto.
Qed.

(** ** A comparison *)
Lemma mean_total (l : list R) : l <> [] -> exists x, nd_mean (N:=RN) l = Some x.
Proof. destruct l; [tauto|]. intros _. eexists. reflexivity. Qed.
Lemma patches_total {N : NumOps} ps (sp : mat N) idx : (0 <= ps)%Z -> (forall i, In i idx -> (0 <= i)%Z /\ (i + ps <= Z.of_nat (mcols sp))%Z) ->
  exists p, create_patches_from_indices ps sp idx = Ok p.
Proof.
  intros Hp Hi. apply each_total. intros i Ii. destruct (Hi i Ii) as [A B]. unfold mslice_cols.
  destruct (Z.leb_spec 0 i); [|lia]. destruct (Z.leb_spec i (i + ps)); [|lia]. destruct (Z.leb_spec (i + ps) (Z.of_nat (mcols sp))); [|lia]. cbn [andb]. eauto.
Qed.
Lemma sorted_small idx n : (0 <= n)%Z -> (forall k, (S k < List.length idx)%nat -> (nth k idx 0 < nth (S k) idx 0)%Z) -> (forall i, In i idx -> (0 <= i < n)%Z) ->
  (Z.of_nat (List.length idx) <= n)%Z.
Proof.
  intros Hn HI H.
  assert (G : forall k, (k < List.length idx)%nat -> (Z.of_nat k <= nth k idx 0)%Z).
  { induction k as [|k IH]; intros Hk; [apply H; apply nth_In; auto|]. specialize (IH ltac:(lia)). specialize (HI k Hk). lia. }
  destruct (List.length idx) as [|m] eqn:E; [lia|]. specialize (G m ltac:(lia)). assert (I : In (nth m idx 0%Z) idx) by (apply nth_In; lia). specialize (H _ I). lia.
Qed.
Lemma sim_total pf nb (rs al : AudioSignal RN) (f : Filterbank RN) w cr mapper ws hop idx :
  let ps := creator_patch_size cr in
  let c := (1 + (sig_len rs - 4 * hop) / hop)%Z in
  let d := (1 + (sig_len al - 4 * hop) / hop)%Z in
  (1 <= nb)%nat -> sample_rate al = sample_rate rs -> (1 <= sample_rate rs)%Z ->
  win_size w = (4 * hop)%Z -> hop_size w = hop -> win_overlap w = OVERLAP -> (1 <= hop)%Z ->
  (ps = 20 \/ ps = 30)%Z -> (0 <= ws <= 2 ^ 20)%Z ->
  (4 * hop <= sig_len rs <= 2 ^ 31)%Z -> (4 * hop <= sig_len al <= 2 ^ 31)%Z -> (c + ws * ps < 2 ^ 31)%Z ->
  (forall m : mat RN, Z.of_nat (mcols m) = c -> create_ref_patch_indices pf cr m rs w = Ok idx) ->
  (2 <= List.length idx)%nat -> (forall i, In i idx -> (0 <= i)%Z /\ (i + ps <= c)%Z) ->
  (ps / 2 <= nth 1 idx 0 <= d + ps / 2)%Z -> (forall i, In i idx -> (i - ws * ps <= d)%Z) ->
  (forall fv, List.length fv = nb -> exists q, predict_quality mapper fv = Ok q) ->
  exists f' r, calculate_similarity pf nb rs al f w cr mapper ws = (f', Ok r).
Proof.
  intros ps c d Hnb HR Hrate HW HH HO Hhop Hps Hws HL HD Hcw HI HM Hin Hone Hfar Hq.
  assert (Hc : (1 <= c <= 2 ^ 31)%Z). { unfold c. pose proof (Z.div_pos (sig_len rs - 4 * hop) hop ltac:(lia) ltac:(lia)). pose proof (Z.div_le_upper_bound (sig_len rs - 4 * hop) hop (sig_len rs - 4) ltac:(lia) ltac:(nia)). lia. }
  assert (Hd : (1 <= d <= 2 ^ 31)%Z). { unfold d. pose proof (Z.div_pos (sig_len al - 4 * hop) hop ltac:(lia) ltac:(lia)). pose proof (Z.div_le_upper_bound (sig_len al - 4 * hop) hop (sig_len al - 4) ltac:(lia) ltac:(nia)). lia. }
  assert (Hch : (c * hop <= sig_len rs)%Z). { unfold c. pose proof (Z.mul_div_le (sig_len rs - 4 * hop) hop ltac:(lia)). lia. }
  assert (Hdh : (d * hop <= sig_len al)%Z). { unfold d. pose proof (Z.mul_div_le (sig_len al - 4 * hop) hop ltac:(lia)). lia. }
  unfold calculate_similarity. cbv zeta. set (sc := scale_to_match_sound_pressure_level rs al).
  assert (Sl : sig_len sc = sig_len al). { unfold sc, sig_len, scale_to_match_sound_pressure_level, zlen. cbn [data_matrix]. rewrite map_length. reflexivity. }
  assert (Sr : sample_rate sc = sample_rate al) by reflexivity.
  destruct (build_total nb f rs w) as (f1 & rspec & E1 & W1 & R1 & C1); [lia|lia|lia|]. rewrite E1.
  destruct (build_total nb f1 sc w) as (f2 & dspec & E2 & W2 & R2 & C2); [lia|lia|lia|]. rewrite E2.
  rewrite HW, HH in C1, C2. rewrite Sl in C2. fold c in C1. fold d in C2.
  destruct (prep_total rspec dspec) as (x & y & E3); try lia. rewrite E3. cbn [bind].
  pose proof (prepare_shape _ _ _ _ E3) as ((Wx & Rx & Kx & _) & (Wy & Ry & Ky & _)).
  rewrite HI by lia. cbn [bind].
  destruct (patches_total ps (sp_data x) idx) as (pts & PT); [lia| |].
  { intros i Ii. specialize (Hin i Ii). lia. }
  fold ps. rewrite PT. cbn [bind]. rewrite wrap_i32_id by lia.
  assert (SO : StronglySorted Z.lt idx). { apply (idx_sorted pf cr (sp_data x) rs w idx); [fold ps; lia|]. apply HI. lia. }
  assert (HIn := sorted_nth _ SO).
  destruct (patches_self ps _ _ _ ltac:(lia) PT) as [PL PS].
  pose proof (sorted_small idx c ltac:(lia) HIn) as HMc. specialize (HMc ltac:(intros i Ii; specialize (Hin i Ii); lia)).
  assert (SI : search_in pts idx (sp_data y) ws (Z.to_nat ps)).
  { assert (Hwp : (0 <= ws * ps < 2 ^ 31)%Z) by (clear - Hws Hps Hcw Hc; split; [apply Z.mul_nonneg_nonneg; lia|lia]).
    constructor; try (rewrite ?Z2Nat.id by lia; lia); try lia.
    - destruct pts; [cbn in PL; lia|discriminate].
    - intros q0 Iq. apply In_nth_error in Iq as (k & Hk). assert (Hlt : (k < List.length idx)%nat) by (rewrite <- PL; apply nth_error_Some; congruence).
      destruct (PS k Hlt) as (_ & _ & E). rewrite E in Hk. injection Hk as <-. split; [apply patch_at_wf|]. cbn [patch_at mbuild mrows mcols]. split; [congruence|auto].
    - intros i Ii. destruct (Hin i Ii). rewrite Z2Nat.id by lia. lia. }
  set (fd := calculate_frame_duration (N:=RN) (nmul RN (nofZ RN (win_size w)) (win_overlap w)) (sample_rate rs)).
  destruct (find_total pf pts idx (sp_data y) ws (Z.to_nat ps) SI) with (fd := fd) as (info & FD & NE & SH); try (rewrite ?Z2Nat.id by lia; lia).
  { exact HIn. }
  { rewrite Z2Nat.id by lia. intros r Hr. rewrite Ky, C2. apply Hfar. auto. }
  fold fd. rewrite FD.
  rewrite Ry, R2 in SH.
  pose proof (find_times _ _ _ _ _ _ _ FD) as (p0 & P0 & CP).
  assert (P1 : Z.of_nat (mcols p0) = ps) by (apply patches_cols in PT; [|lia]; apply PT; eapply nth_error_In; eauto).
  assert (Efd : fd = frame_dur (win_size w) (sample_rate rs)) by (unfold fd; rewrite HO; reflexivity).
  rewrite P1, Ky, C2, Efd in CP.
  destruct (finely_total pf nb rs sc w idx d hop ps) with (l := info) (f := f2) as (f3 & out & FA & OK); auto; try lia.
  { intros r Hr. destruct (Hin r Hr). rewrite HW. clear - H H0 Hch Hps Hhop HL Hc. repeat split; [lia|nia|nia]. }
  rewrite FA.
  assert (OS : Forall (sim_shape nb) out) by (eapply Forall_impl; [|exact OK]; cbv beta; tauto).
  assert (ON : out <> []). { intros ->. apply finely_len in FA. destruct info; [tauto|discriminate]. }
  destruct (means_total nb out OS ON) as (fv & Em & Lf).
  destruct (energies_total nb out OS ON) as (fe & Ee).
  destruct (stds_total pf fd nb 34 out OS ON) as (fs & Es).
  { intros p Hp. rewrite Forall_forall in OK. destruct (OK p Hp) as [_ F1]. rewrite Efd. split; [exact F1|].
    destruct (fine_src _ _ _ _ _ _ _ _ _ _ FA Hp) as (old & g & g' & Io & RA).
    rewrite Forall_forall in CP. specialize (CP old Io).
    pose proof (count_bound pf nb rs sc w g g' old p idx d ps ltac:(congruence) Hrate ltac:(lia) ltac:(lia) ltac:(lia)) as CB. cbv zeta in CB.
    specialize (CB ltac:(intros r Hr; destruct (Hin r Hr); rewrite HW; clear - H H0 Hch Hps Hhop HL Hc; split; [lia|nia]) CP RA). lia. }
  { rewrite (finely_len _ _ _ _ _ _ _ _ _ FA). assert (Hi0 : idx <> []) by (intros ->; cbn in HM; lia).
    pose proof (find_len _ _ _ _ _ _ _ Hi0 FD). unfold zlen in *. unfold usize_mod. lia. }
  destruct (Hq fv Lf) as (q & Eq).
  destruct (mean_total fv) as (vn & Ev). { intros ->. cbn in Lf. lia. }
  exists f3. eexists. cbn [bind]. rewrite Em. cbn [bind]. rewrite Es. cbn [bind]. rewrite Ee. cbn [bind]. rewrite Eq. cbn [bind].
  rewrite Ev. cbn [bind]. reflexivity.
Qed.

(** ** Window sizes at rates that are multiples of 50 Hz *)
Lemma cast_exact z : (0 <= z < usize_mod)%Z -> as_usize (N:=RN) (IZR z) = z.
Proof. intros H. unfold as_usize. cbn [ncast RN]. rewrite Ztrunc_IZR. unfold usize_mod in *. lia. Qed.
Lemma window_50 h : (0 <= h < 2 ^ 60)%Z -> let w := new_window (N:=RN) (50 * h) OVERLAP WINDOW_DURATION in
  win_size w = (4 * h)%Z /\ hop_size w = h /\ win_overlap w = OVERLAP.
Proof.
  intros Hh w. assert (E : win_size w = (4 * h)%Z).
  { unfold w, new_window. cbn [win_size nroundZ RN].
    replace (Rround _) with (4 * h)%Z; [apply cast_exact; unfold usize_mod; lia|].
    change (nmul RN (nofZ RN (50 * h)) WINDOW_DURATION) with (IZR (50 * h) * (IZR 8 / IZR (10 ^ 2))).
    assert (X : IZR (50 * h) * (IZR 8 / IZR (10 ^ 2)) = IZR (4 * h)). { rewrite !mult_IZR. change (10 ^ 2)%Z with 100%Z. field. }
    rewrite X. unfold Rround. destruct (Rle_dec 0 (IZR (4 * h))) as [_|NO]; [|exfalso; apply NO; apply IZR_le; lia].
    symmetry. apply Zfloor_imp. rewrite plus_IZR. lra. }
  split; [exact E|]. split; [|reflexivity]. unfold hop_size. rewrite E.
  replace (nmul RN (nofZ RN (4 * h)) (win_overlap w)) with (IZR h); [apply cast_exact; unfold usize_mod; lia|].
  change (IZR h = IZR (4 * h) * (IZR 25 / IZR (10 ^ 2))). rewrite mult_IZR. change (10 ^ 2)%Z with 100%Z. field.
Qed.

(** ** A run *)
Lemma run_total pf nb v ws (m : Manager RN) calls files a b (rs ds : AudioSignal RN) idx h :
  let ps := creator_patch_size (mg_creator m) in
  let L := sig_len rs in let D := sig_len ds in
  new_manager nb v ws = Ok m -> (0 <= ws <= 2 ^ 20)%Z -> (1 <= nb)%nat ->
  load_as_mono (files a) = Ok rs -> load_as_mono (files b) = Ok ds ->
  sample_rate rs = (50 * h)%Z -> sample_rate ds = (50 * h)%Z -> (1 <= h)%Z ->
  (4 * h <= L <= 2 ^ 30)%Z -> (D <= 2 ^ 30)%Z -> (9 <= L)%Z ->
  (4 * h + L / 2 <= D)%Z ->
  (forall mt : mat RN, Z.of_nat (mcols mt) = (1 + (L - 4 * h) / h)%Z -> create_ref_patch_indices pf (mg_creator m) mt rs (new_window (50 * h) OVERLAP WINDOW_DURATION) = Ok idx) ->
  (2 <= List.length idx)%nat -> (forall i, In i idx -> (0 <= i)%Z /\ (i + ps <= 1 + (L - 4 * h) / h)%Z) ->
  (ps / 2 <= nth 1 idx 0)%Z ->
  ((nth 1 idx 0 - ps / 2 + 3) * h <= D - L / 2)%Z ->
  (forall i, In i idx -> (i - ws * ps + 3) * h <= D - L / 2)%Z ->
  (forall fv, List.length fv = nb -> exists q, predict_quality (mg_mapper m) fv = Ok q) ->
  exists m' r, run pf nb files (after_calls pf nb m calls) a b = (m', Ok r).
Proof.
  intros ps L D Hm Hws Hnb La Lb Ra Rb Hh HL HD H9 HLD HI HM Hin H1 H2 H3 Hq.
  destruct (after_same pf nb calls m) as (Sw & Cr & Mp & _).
  assert (Hsw : mg_search_window m = ws) by (unfold new_manager in Hm; destruct v as [u|[s|]]; cbn [bind] in Hm; try discriminate; inversion Hm; reflexivity).
  assert (Hps : ps = 20%Z \/ ps = 30%Z).
  { unfold ps, new_manager in *. destruct v as [u|[s|]]; cbn [bind] in Hm; try discriminate; inversion Hm; auto. }
  unfold run. rewrite La, Lb. unfold validate_input_audio. rewrite Ra, Rb, Z.eqb_refl. cbn [negb].
  unfold compute_results.
  assert (HL2 : (0 <= L / 2)%Z) by (apply Z.div_pos; lia).
  destruct (align_total pf rs ds) as (al & lag & EA & RA & AL); [fold L; lia|fold D; lia|fold L; lia|]. rewrite EA.
  assert (HA : (D - L / 2 <= sig_len al <= D + L / 2)%Z).
  { destruct AL as [[-> _]|(k & Hk & [[E _]|(Hk2 & E & _)])]; try fold L in Hk; try fold D.
    - lia.
    - unfold sig_len. rewrite E. rewrite (@pad_len R) by lia. change (@zlen R (data_matrix ds)) with D. lia.
    - assert (X := @skip_len R (data_matrix ds) k). change (@zlen R (data_matrix ds)) with D in X. specialize (X ltac:(lia)). assert (Y : sig_len al = (D - k)%Z) by (unfold sig_len; rewrite E; exact X). lia. }
  rewrite Ra. destruct (window_50 h ltac:(lia)) as (W1 & W2 & W3).
  set (w := new_window (50 * h) OVERLAP WINDOW_DURATION) in *.
  rewrite Sw, Cr, Mp, Hsw.
  assert (HL2' : (L / 2 <= L)%Z) by (apply Z.div_le_upper_bound; lia).
  set (d := (1 + (sig_len al - 4 * h) / h)%Z).
  assert (Hd : forall i, ((i + 3) * h <= D - L / 2 -> i <= d)%Z).
  { intros i Hi. unfold d. assert ((i - 1 <= (sig_len al - 4 * h) / h)%Z); [|lia]. apply Z.div_le_lower_bound; [lia|]. lia. }
  destruct (sim_total pf nb rs al (mg_filterbank (after_calls pf nb m calls)) w (mg_creator m) (mg_mapper m) ws h idx) as (f' & r & E);
    fold ps; fold L; auto; try lia.
  { pose proof (Z.div_le_upper_bound (L - 4 * h) h L ltac:(lia) ltac:(nia)). assert (ws * ps <= 2 ^ 20 * 30)%Z by nia. lia. }
  { split; [auto|]. specialize (Hd (nth 1 idx 0 - ps / 2)%Z). fold d. lia. }
  rewrite E. eauto.
Qed.
