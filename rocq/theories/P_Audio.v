(** Loading, FFT sizes, alignment and slicing, for every number type. *)
From Verif Require Import Base Num M_Audio M_Align M_Selector P_Base P_Vad Spec.
Open Scope Z_scope.

(** Take the first step [x] (with equation [Hx]) off a successful [do] chain [H]. *)
Tactic Notation "step" hyp(H) "as" ident(x) ident(Hx) :=
  let H' := fresh in
  apply bind_ok in H; destruct H as (x & Hx & H'); cbv beta in H'; rename H' into H.

(** ** next_pow_two (C09) *)
Lemma lor_shift_ge v k : 0 <= v -> v <= Z.lor v (Z.shiftr v k).
Proof.
  intros H. assert (0 <= Z.shiftr v k) by (apply Z.shiftr_nonneg; auto).
  rewrite <- (Z.lor_0_r v) at 1.
  assert (E : Z.lor v (Z.shiftr v k) = v + Z.land (Z.shiftr v k) (Z.lnot v)).
  { rewrite Z.add_nocarry_lxor.
    - apply Z.bits_inj'. intros n Hn. rewrite Z.lor_spec, Z.lxor_spec, Z.land_spec, Z.lnot_spec by auto.
      destruct (Z.testbit v n), (Z.testbit (Z.shiftr v k) n); auto.
    - apply Z.bits_inj'. intros n Hn. rewrite Z.land_spec, Z.land_spec, Z.lnot_spec, Z.bits_0 by auto.
      destruct (Z.testbit v n), (Z.testbit (Z.shiftr v k) n); auto. }
  rewrite E, Z.lor_0_r. assert (0 <= Z.land (Z.shiftr v k) (Z.lnot v)) by (apply Z.land_nonneg; auto). lia.
Qed.
Lemma lor_shift_lt v k m : 0 <= v -> 0 <= k -> 0 <= m -> v < 2 ^ m -> Z.lor v (Z.shiftr v k) < 2 ^ m.
Proof.
  intros H Hk Hm B. assert (S : 0 <= Z.shiftr v k) by (apply Z.shiftr_nonneg; auto).
  destruct (Z.eq_dec (Z.lor v (Z.shiftr v k)) 0) as [->|NZ]; [lia|].
  assert (P : 0 < Z.lor v (Z.shiftr v k)) by (pose proof (lor_shift_ge v k H); lia).
  apply Z.log2_lt_pow2; auto. rewrite Z.log2_lor by auto.
  assert (V : v <> 0) by (intros ->; rewrite Z.shiftr_0_l in NZ; auto).
  assert (L : Z.log2 v < m) by (apply Z.log2_lt_pow2; auto; lia).
  destruct (Z.eq_dec (Z.shiftr v k) 0) as [->|N2]; [change (Z.log2 0) with 0; pose proof (Z.log2_nonneg v); lia|].
  rewrite Z.log2_shiftr by lia. pose proof (Z.log2_nonneg v). lia.
Qed.
Lemma npt_bounds pf n m : 1 <= n -> 0 <= m < 64 -> n <= 2 ^ m -> exists r, next_pow_two pf n = Ok r /\ n <= r <= 2 ^ m.
Proof.
  intros Hn Hm B. unfold next_pow_two. rewrite usub_ok by lia. cbn [bind].
  assert (Step : forall v k, 0 <= k -> n - 1 <= v < 2 ^ m -> n - 1 <= Z.lor v (Z.shiftr v k) < 2 ^ m).
  { intros v k Hk [V1 V2]. pose proof (lor_shift_ge v k ltac:(lia)).
    pose proof (lor_shift_lt v k m ltac:(lia) Hk ltac:(lia) V2). lia. }
  cbv zeta.
  set (v0 := n - 1). assert (V0 : n - 1 <= v0 < 2 ^ m) by (unfold v0; lia). clearbody v0.
  pose proof (Step v0 1 ltac:(lia) V0) as V1. set (v1 := Z.lor v0 (Z.shiftr v0 1)) in *. clearbody v1.
  pose proof (Step v1 2 ltac:(lia) V1) as V2. set (v2 := Z.lor v1 (Z.shiftr v1 2)) in *. clearbody v2.
  pose proof (Step v2 4 ltac:(lia) V2) as V3. set (v3 := Z.lor v2 (Z.shiftr v2 4)) in *. clearbody v3.
  pose proof (Step v3 1 ltac:(lia) V3) as V4. set (v4 := Z.lor v3 (Z.shiftr v3 1)) in *. clearbody v4.
  pose proof (Step v4 16 ltac:(lia) V4) as V5. set (v5 := Z.lor v4 (Z.shiftr v4 16)) in *. clearbody v5.
  assert (P : 2 ^ m <= 2 ^ 63) by (apply Z.pow_le_mono_r; lia).
  rewrite uadd_ok by (unfold usize_mod; lia). exists (v5 + 1). split; auto. lia.
Qed.
Lemma npt_next pf n p : 1 <= n -> is_next_pow2 p n -> p < 2 ^ 64 -> exists r, next_pow_two pf n = Ok r /\ n <= r <= p.
Proof.
  intros Hn (m & Hm & -> & H & _) B. apply npt_bounds; auto. split; auto.
  destruct (Z.lt_ge_cases m 64) as [|G]; auto. assert (2 ^ 64 <= 2 ^ m) by (apply Z.pow_le_mono_r; lia). lia.
Qed.
Lemma npt_pow pf m : 0 <= m < 64 -> next_pow_two pf (2 ^ m) = Ok (2 ^ m).
Proof.
  intros Hm. assert (0 < 2 ^ m) by (apply Z.pow_pos_nonneg; lia).
  destruct (npt_bounds pf (2 ^ m) m ltac:(lia) Hm ltac:(lia)) as (r & E & B). rewrite E. f_equal. lia.
Qed.
Lemma next_pow2_log n : 1 <= n -> is_next_pow2 (2 ^ Z.log2_up n) n.
Proof.
  intros H. exists (Z.log2_up n). split; [apply Z.log2_up_nonneg|]. split; auto.
  assert (U : n <= 2 ^ Z.log2_up n).
  { destruct (Z.eq_dec n 1) as [->|]; [reflexivity|]. apply Z.log2_up_spec. lia. }
  split; auto. intros m Hm B. apply Z.pow_le_mono_r; [lia|]. apply Z.log2_up_le_pow2; auto; lia.
Qed.
Lemma next_pow2_unique p q n : is_next_pow2 p n -> is_next_pow2 q n -> p = q.
Proof.
  intros (m & Hm & -> & A & B) (m' & Hm' & -> & A' & B'). pose proof (B m' Hm' A'). pose proof (B' m Hm A). lia.
Qed.
Lemma npt_small pf n p : 1 <= n <= 512 -> is_next_pow2 p n -> next_pow_two pf n = Ok p.
Proof.
  intros H P. assert (p = 2 ^ Z.log2_up n) as -> by (eapply next_pow2_unique; [exact P|apply next_pow2_log; lia]).
  assert (A : forallb (fun k => match next_pow_two Debug k, next_pow_two Release k with
                Ok a, Ok b => (a =? 2 ^ Z.log2_up k) && (b =? 2 ^ Z.log2_up k) | _, _ => false end) (zrange 1 513) = true)
    by (vm_compute; reflexivity).
  rewrite forallb_forall in A. specialize (A n). rewrite in_zrange in A. specialize (A ltac:(lia)). cbv beta in A.
  destruct (next_pow_two Debug n) eqn:E1; try discriminate. destruct (next_pow_two Release n) eqn:E2; try discriminate.
  apply andb_true_iff in A. destruct A as [A1 A2]. apply Z.eqb_eq in A1, A2. destruct pf; rewrite ?E1, ?E2; congruence.
Qed.

Section Gen.
Context {N : NumOps}.
Notation T := (num N).

(** ** Global alignment (C10, C11) *)
Lemma C10_shift pf (rs ds al : AudioSignal N) lag :
  globally_align pf rs ds = Ok (Some (al, lag)) ->
  sample_rate al = sample_rate ds /\
  shifted (sample_rate ds) (sig_len rs / 2) (data_matrix ds) (data_matrix al) lag.
Proof.
  unfold globally_align. intros H. step H as o E1. destruct o as [renv|]; [|discriminate].
  step H as o E2. destruct o as [denv|]; [|discriminate]. step H as o E3. destruct o as [k|]; [|discriminate].
  destruct (_ || _) eqn:Z0.
  - injection H as <- <-. split; auto. constructor.
  - apply orb_false_iff in Z0. destruct Z0 as [Z1 Z2]. apply Z.eqb_neq in Z1. apply Z.ltb_ge in Z2.
    step H as d E4. injection H as <- <-. cbn [sample_rate data_matrix]. split; auto.
    destruct (Z.ltb_spec k 0).
    + apply zslice_ok in E4. destruct E4 as ((A & C) & ->).
      unfold sig_len. rewrite firstn_all2 by (rewrite skipn_length; unfold zlen in *; lia).
      replace k with (- Z.abs k) at 2 by lia. apply shift_cut; unfold sig_len in *; lia.
    + injection E4 as <-. apply shift_pad. lia.
Qed.
Lemma C10_empty_ref pf (rs ds : AudioSignal N) : data_matrix rs = [] -> globally_align pf rs ds = Ok None.
Proof. intros H. unfold globally_align. rewrite H. reflexivity. Qed.

Lemma zslice_part {A} (l : list A) a b s : zslice l a b = Ok s -> part_of s l.
Proof.
  intros H. apply zslice_ok in H. destruct H as (A1 & ->).
  exists (firstn (Z.to_nat a) l), (skipn (Z.to_nat (b - a)) (skipn (Z.to_nat a) l)).
  rewrite firstn_skipn, firstn_skipn. auto.
Qed.
Lemma part_refl {A} (l : list A) : part_of l l. Proof. exists [], []. rewrite app_nil_r. auto. Qed.
Lemma C11_all pf (rs ds r d : AudioSignal N) lag :
  sample_rate rs = sample_rate ds ->
  align_and_truncate pf rs ds = Ok (Some (r, d, lag)) ->
  zlen (data_matrix r) = zlen (data_matrix d) /\
  sample_rate r = sample_rate rs /\ sample_rate d = sample_rate ds /\
  part_of (data_matrix r) (data_matrix rs) /\
  exists l, shifted (sample_rate ds) (sig_len rs / 2) (data_matrix ds) l lag /\ part_of (data_matrix d) l.
Proof.
  unfold align_and_truncate. intros RR H. step H as o E0. destruct o as [[al lg]|]; [|discriminate].
  step H as v E. injection H as <- <- <-. cbn [data_matrix sample_rate].
  destruct (C10_shift _ _ _ _ _ E0) as [R S].
  assert (P : zlen (fst v) = zlen (snd v) /\ part_of (fst v) (data_matrix rs) /\ part_of (snd v) (data_matrix al)).
  { destruct (Z.ltb_spec (zlen (data_matrix rs)) (zlen (data_matrix al))).
    - step E as x E1. step E as y E2. injection E as <-. cbn [fst snd].
      pose proof (zslice_len _ _ _ _ E1) as L1. pose proof (zslice_len _ _ _ _ E2) as L2.
      rewrite RR in L1. split; [lia|]. split; [apply zslice_part in E1|apply zslice_part in E2]; auto.
    - destruct (Z.ltb_spec (zlen (data_matrix al)) (zlen (data_matrix rs))).
      + step E as x E1. injection E as <-. cbn [fst snd]. pose proof (zslice_len _ _ _ _ E1) as L1. apply zslice_part in E1.
        repeat split; auto using part_refl. lia.
      + injection E as <-. cbn [fst snd]. repeat split; auto using part_refl. lia. }
  destruct P as (P1 & P2 & P3). repeat split; auto. eauto.
Qed.

(** ** The envelope exists for every signal that fits in memory *)
Lemma resize_length {A} (l : list A) n x : 0 <= n -> zlen (resize l n x) = n.
Proof. intros H. unfold zlen, resize. rewrite app_length, firstn_length, repeat_length. lia. Qed.
Lemma new_fft_ok pf n : 1 <= n <= 2 ^ 62 -> exists m, new_fft (N:=N) pf n = Ok m /\
  n <= fft_size m /\ 32 <= fft_size m <= 2 ^ 62 /\ samples_per_channel m = n /\
  inverse_fft_scale m = ndiv N (nofZ N 1) (nofZ N (fft_size m)).
Proof.
  intros H. unfold new_fft. destruct (npt_bounds pf n 62) as (p & E & B); try lia.
  rewrite E. cbn [bind]. eexists. split; [reflexivity|]. cbn [fft_size samples_per_channel inverse_fft_scale].
  unfold MIN_FFT_SIZE. split; [lia|]. split; [lia|]. auto.
Qed.
Lemma scaling_ok len nf : 1 <= len <= nf -> 32 <= nf -> exists sc : list T, hilbert_scaling (N:=N) len nf = Ok sc /\ zlen sc = nf.
Proof.
  intros H1 H2. unfold hilbert_scaling. cbv zeta.
  assert (L0 : zlen (repeat (nofZ N 0) (Z.to_nat nf)) = nf) by (rewrite zlen_repeat; lia).
  rewrite zset_in by lia. cbn [bind]. set (s0 := upd _ _ _).
  assert (L1 : zlen s0 = nf) by (unfold s0; rewrite zlen_upd; auto).
  destruct (Z.eqb_spec len 0); [lia|]. cbn [negb]. rewrite !andb_true_r.
  set (odd := len mod 2 =? 1).
  assert (S1 : exists s1 : list T, (if negb odd then zset s0 (len / 2) (nofZ N 1) else if odd then zset s0 (len / 2) (nofZ N 2) else Ok s0) = Ok s1
      /\ zlen s1 = nf).
  { destruct odd; cbn [negb]; rewrite zset_in by lia; eexists; (split; [reflexivity|]); rewrite zlen_upd; auto. }
  destruct S1 as (s1 & -> & L2). cbn [bind].
  match goal with |- context [(1 <=? ?e) && _] => set (nn := e) end. assert (Hn : 1 <= nn <= nf) by (unfold nn; destruct odd; lia). clearbody nn.
  destruct (Z.leb_spec 1 nn); [|lia]. destruct (Z.leb_spec nn nf); [|lia]. cbn [andb].
  eexists. split; [reflexivity|]. unfold zlen in *. rewrite !app_length, firstn_length, repeat_length, skipn_length. lia.
Qed.
Lemma inverse_ok (m : FftManager N) (f : list (cplx N)) : fft_keeps_length N -> zlen f = fft_size m ->
  0 <= samples_per_channel m <= fft_size m -> exists h, inverse_1d m f = Ok h /\ zlen h = samples_per_channel m.
Proof.
  intros FL E H. unfold inverse_1d, time_from_freq_domain. rewrite E, Z.eqb_refl. cbn [bind].
  assert (L : forall (x : list T), zlen x = fft_size m -> zlen (apply_reverse_fft_scaling m x) = fft_size m)
    by (intros; unfold apply_reverse_fft_scaling; rewrite zlen_map; auto).
  assert (L2 : zlen (real_parts (nfft N true f)) = fft_size m).
  { unfold real_parts. rewrite zlen_map. unfold zlen. rewrite FL. exact E. }
  specialize (L _ L2). rewrite zslice_in; [|lia|etransitivity; [apply (proj2 H)|apply Z.eq_le_incl; symmetry; exact L]]. cbn [bind]. eexists. split; [reflexivity|].
  unfold to_complex. rewrite zlen_map. unfold zlen in *. rewrite firstn_length, skipn_length. lia.
Qed.
Lemma hilbert_ok pf (l : list T) : fft_keeps_length N -> 1 <= zlen l <= 2 ^ 62 ->
  exists h, calculate_hilbert pf l = Ok h /\ zlen h = zlen l.
Proof.
  intros FL H. unfold calculate_hilbert. destruct (new_fft_ok pf (zlen l) H) as (m & -> & A & B & C & _). cbn [bind].
  unfold forward_1d_from_matrix, freq_from_time_domain.
  match goal with |- context [hilbert_scaling (zlen l) (zlen ?f)] => set (freq := f) end.
  match goal with |- context [hilbert_scaling (zlen l) ?nf] => assert (LF : nf = fft_size m) end.
  { unfold freq, zlen. rewrite FL. unfold to_complex. rewrite map_length. apply resize_length. lia. }
  rewrite LF. destruct (scaling_ok (zlen l) (fft_size m)) as (sc & -> & LS); try lia. cbn [bind].
  match goal with |- context [inverse_1d m ?z] => assert (LP : zlen z = fft_size m) end.
  { rewrite zlen_map. unfold zlen in *. rewrite combine_length. rewrite Nat.min_l; [exact LF|].
    apply Nat2Z.inj_le. etransitivity; [apply Z.eq_le_incl; exact LF|lia]. }
  destruct (inverse_ok m _ FL LP) as (h & -> & L); [lia|]. cbn [bind]. eexists. split; [reflexivity|].
  rewrite zlen_map. lia.
Qed.
Lemma env_ok pf (l : list T) : fft_keeps_length N -> 1 <= zlen l <= 2 ^ 62 ->
  exists env, calculate_upper_env pf l = Ok (Some env) /\ zlen env = zlen l.
Proof.
  intros FL H. unfold calculate_upper_env. destruct (nd_mean l) as [mean|] eqn:E.
  - destruct (hilbert_ok pf (map (fun x => nsub N x mean) l) FL) as (h & -> & L); [rewrite zlen_map; auto|].
    cbn [bind]. eexists. split; [reflexivity|]. rewrite zlen_map, L, zlen_map. auto.
  - destruct l; [rewrite zlen_nil in H; lia|discriminate].
Qed.
Lemma C10_empty_deg pf (rs ds : AudioSignal N) : fft_keeps_length N -> 1 <= sig_len rs <= 2 ^ 62 ->
  data_matrix ds = [] -> globally_align pf rs ds = Ok None.
Proof.
  intros FL H E. unfold globally_align. destruct (env_ok pf (data_matrix rs) FL H) as (env & -> & _).
  cbn [bind]. rewrite E. reflexivity.
Qed.

(** ** Loading (C08) *)
Lemma chunk_spec c fuel : forall (l : list T) n, (1 <= c)%nat -> List.length l = (n * c)%nat -> (n <= fuel)%nat ->
  chunk fuel c l = map (fun i => firstn c (skipn (i * c) l)) (seq 0 n).
Proof.
  induction fuel as [|f IH]; intros l n Hc L Hf.
  - assert (n = 0)%nat as -> by lia. reflexivity.
  - cbn [chunk]. destruct n as [|n].
    + destruct l; [reflexivity|discriminate].
    + destruct l as [|x t] eqn:El; [cbn [List.length] in L; lia|]. rewrite <- El in *. clear El x t.
      cbn [seq map]. change (0 * c)%nat with 0%nat. rewrite skipn_O. f_equal.
      rewrite (IH (skipn c l) n) by (rewrite ?skipn_length; lia).
      rewrite <- seq_shift, map_map. apply map_ext. intros i. rewrite skipn_skipn. f_equal.
Qed.

Lemma mapM_some (vs : list Z) :
  mapM (fun o => match o with Some z => Ok z | None => Panic PExpect end) (map Some vs) = Ok vs.
Proof. induction vs as [|v t IH]; [reflexivity|]. cbn [map mapM bind]. rewrite IH. reflexivity. Qed.
Lemma wrap_id v : - 32768 <= v <= 32767 -> wrap_i16 v = v.
Proof. intros H. unfold wrap_i16. lia. Qed.
Lemma load_ok c rate vs n : (1 <= c)%nat -> List.length vs = (n * c)%nat -> Forall (fun v => -32768 <= v <= 32767) vs ->
  load_as_mono (N:=N) (WavOk (Z.of_nat c) rate 16 (map Some vs)) =
  Ok {| data_matrix := map (fun i => ndiv N (nd_sum (map (fun v => ndiv N (nofZ N v) (nofZ N 32767)) (firstn c (skipn (i * c) vs))))
                                      (nofZ N (Z.of_nat c))) (seq 0 n);
        sample_rate := rate |}.
Proof.
  intros Hc L F. unfold load_as_mono, wav_open. cbn [Z.eqb negb Pos.eqb]. rewrite mapM_some. cbn [bind num_channels wav_rate wav_samples].
  rewrite (map_ext_in wrap_i16 (fun v => v)), map_id by (intros v Hv; apply wrap_id; rewrite Forall_forall in F; auto).
  unfold extract_multichannel, normalize_int16_to_double, to_mono_matrix.
  destruct (Z.eqb_spec (Z.of_nat c) 0); [lia|].
  rewrite zlen_map. unfold zlen. rewrite L, Nat2Z.inj_mul, Z.mod_mul by lia. cbn [Z.eqb bind].
  rewrite Nat2Z.id, map_length, L, (chunk_spec c _ _ n) by (rewrite ?map_length; nia).
  rewrite !map_map. do 2 f_equal. apply map_ext. intros i. rewrite <- firstn_map, <- skipn_map. reflexivity.
Qed.
Lemma load_nth c rate vs n s : (1 <= c)%nat -> List.length vs = (n * c)%nat -> Forall (fun v => -32768 <= v <= 32767) vs ->
  load_as_mono (N:=N) (WavOk (Z.of_nat c) rate 16 (map Some vs)) = Ok s ->
  List.length (data_matrix s) = n /\ sample_rate s = rate /\
  forall i, (i < n)%nat -> nth_error (data_matrix s) i =
    Some (ndiv N (nd_sum (map (fun v => ndiv N (nofZ N v) (nofZ N 32767)) (firstn c (skipn (i * c) vs)))) (nofZ N (Z.of_nat c))).
Proof.
  intros Hc L F H. rewrite (load_ok c rate vs n) in H by auto. injection H as <-. cbn [data_matrix sample_rate].
  split; [rewrite map_length, seq_length; auto|]. split; auto. intros i Hi.
  rewrite nth_error_map. rewrite (nth_error_nth' _ 0%nat) by (rewrite seq_length; auto).
  rewrite seq_nth by auto. reflexivity.
Qed.
Lemma load_ragged c rate vs : (1 <= c)%nat -> zlen vs mod (Z.of_nat c) <> 0 ->
  load_as_mono (N:=N) (WavOk (Z.of_nat c) rate 16 (map Some vs)) = Panic PAssert.
Proof.
  intros Hc L. unfold load_as_mono, wav_open. cbn [Z.eqb negb Pos.eqb]. rewrite mapM_some. cbn [bind num_channels wav_rate wav_samples].
  unfold extract_multichannel, normalize_int16_to_double, to_mono_matrix.
  destruct (Z.eqb_spec (Z.of_nat c) 0); [lia|]. rewrite !zlen_map.
  destruct (Z.eqb_spec (zlen vs mod Z.of_nat c) 0); [lia|reflexivity].
Qed.
(** a predicate closed under addition passes from the entries to [nd_sum] *)
Lemma fold_closed (P : Z -> T -> Prop) M : (forall j k x y, 0 <= j -> 0 <= k -> j + k <= M -> P j x -> P k y -> P (j + k) (nadd N x y)) ->
  forall l j a, 0 <= j -> P j a -> Forall (P 1) l -> j + zlen l <= M -> P (j + zlen l) (fold_left (nadd N) l a).
Proof.
  intros HP l. induction l as [|x t IH]; intros j a Hj Ha F HM; cbn [fold_left].
  - rewrite zlen_nil, Z.add_0_r. auto.
  - apply Forall_cons_iff in F as [Fx Ft]. rewrite zlen_cons in *. pose proof (zlen_nonneg t).
    replace (j + (zlen t + 1)) with ((j + 1) + zlen t) by lia. apply IH; try lia; auto. apply HP; auto; lia.
Qed.
Lemma unroll_closed (P : Z -> T -> Prop) M : (forall j k x y, 0 <= j -> 0 <= k -> j + k <= M -> P j x -> P k y -> P (j + k) (nadd N x y)) ->
  forall fuel l p0 p1 p2 p3 p4 p5 p6 p7 n, 0 <= n -> P n p0 -> P n p1 -> P n p2 -> P n p3 -> P n p4 -> P n p5 -> P n p6 -> P n p7 ->
  Forall (P 1) l -> 8 * n + zlen l <= M ->
  exists m q0 q1 q2 q3 q4 q5 q6 q7 r, unroll8 fuel (p0,p1,p2,p3,p4,p5,p6,p7) l = ((q0,q1,q2,q3,q4,q5,q6,q7), r) /\
    0 <= m /\ P m q0 /\ P m q1 /\ P m q2 /\ P m q3 /\ P m q4 /\ P m q5 /\ P m q6 /\ P m q7 /\ Forall (P 1) r /\ 8 * m + zlen r = 8 * n + zlen l.
Proof.
  intros HP fuel. induction fuel as [|f IH]; intros l p0 p1 p2 p3 p4 p5 p6 p7 n Hn H0 H1 H2 H3 H4 H5 H6 H7 F HM.
  - exists n. do 9 eexists. split; [reflexivity|]. repeat (split; [assumption|]). reflexivity.
  - cbn [unroll8].
    destruct l as [|x0 [|x1 [|x2 [|x3 [|x4 [|x5 [|x6 [|x7 t]]]]]]]];
      try (exists n; do 9 eexists; split; [reflexivity|]; repeat (split; [assumption|]); reflexivity).
    repeat match goal with H : Forall _ (_ :: _) |- _ => apply Forall_cons_iff in H as [? H] end.
    rewrite !zlen_cons in HM. pose proof (zlen_nonneg t).
    destruct (IH t (nadd N p0 x0) (nadd N p1 x1) (nadd N p2 x2) (nadd N p3 x3) (nadd N p4 x4) (nadd N p5 x5) (nadd N p6 x6) (nadd N p7 x7) (n + 1))
      as (m & q0 & q1 & q2 & q3 & q4 & q5 & q6 & q7 & r & E & Q); try (apply HP; auto; lia); try lia; auto.
    exists m, q0, q1, q2, q3, q4, q5, q6, q7, r. split; [exact E|]. decompose [and] Q. repeat (split; [assumption|]).
    rewrite !zlen_cons. lia.
Qed.
Lemma nd_sum_closed (P : Z -> T -> Prop) M : (forall j k x y, 0 <= j -> 0 <= k -> j + k <= M -> P j x -> P k y -> P (j + k) (nadd N x y)) ->
  P 0 (nofZ N 0) -> forall l, Forall (P 1) l -> zlen l <= M -> P (zlen l) (nd_sum l).
Proof.
  intros HP HZ l F HM. unfold nd_sum.
  destruct (unroll_closed P M HP (List.length l) l (nofZ N 0) (nofZ N 0) (nofZ N 0) (nofZ N 0) (nofZ N 0) (nofZ N 0) (nofZ N 0) (nofZ N 0) 0)
    as (m & q0 & q1 & q2 & q3 & q4 & q5 & q6 & q7 & r & E & Q); try assumption; try lia.
  rewrite E. decompose [and] Q. clear Q E. pose proof (zlen_nonneg r).
  replace (zlen l) with ((0 + (m + m) + (m + m) + (m + m) + (m + m)) + zlen r) by lia.
  apply (fold_closed P M HP); auto; try lia.
  repeat (apply HP; try lia); auto.
Qed.
End Gen.

Lemma fft_size_bounds (N : NumOps) pf n p : 1 <= n -> is_next_pow2 p n -> p < 2 ^ 64 ->
  exists m, new_fft (N:=N) pf n = Ok m /\ Z.max n 32 <= fft_size m <= Z.max p 32 /\
    samples_per_channel m = n /\ inverse_fft_scale m = ndiv N (nofZ N 1) (nofZ N (fft_size m)).
Proof.
  intros Hn Hp Hb. destruct (npt_next pf n p Hn Hp Hb) as (r & E & Hr). unfold new_fft. rewrite E. cbn [bind].
  eexists. split; [reflexivity|]. cbn [fft_size samples_per_channel inverse_fft_scale]. unfold MIN_FFT_SIZE. repeat split; lia.
Qed.
