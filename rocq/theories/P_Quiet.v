(** C73: recordings too quiet to rise above the absolute floor, in exact arithmetic. *)
From Coq Require Import Reals Lra Lia Sorted.
From Flocq Require Import Core.
From Verif Require Import Base Num Mat RNum M_Audio M_Align M_Spectro M_Patch M_Nsim M_Selector M_Visqol.
From Verif Require Import P_Base P_Mat P_R P_Level P_Audio P_Audio2 P_Manager P_Score P_Patch Spec Spec2 Spec3 P_Conv P_Nsim P_Spectro P_Vad P_Dp P_Dp2 P_Dp3 P_Times P_Agg P_Run P_Self P_Slice P_Prep P_Same P_Same2 P_Volume P_Xcorr P_Env P_Stable P_Copy P_SilRef P_Total P_Total2.
Open Scope R_scope.

(** ** Preparing two spectrograms below the floor *)
Definition flatR (c : R) (m : mat RN) : Prop := forall i j, (i < mrows m)%nat -> (j < mcols m)%nat -> (mget m i j : R) = c.
Lemma flatR_col c (m : mat RN) j : flatR c m -> (j < mcols m)%nat -> Forall (fun x : R => x = c) (mcol m j).
Proof. intros H Hj. apply Forall_forall. intros x Hx. apply in_map_iff in Hx as (i & <- & Hi). apply in_seq in Hi. apply H; auto. lia. Qed.
Lemma flatR_all c (m : mat RN) : mat_wf m -> flatR c m -> Forall (fun x : R => x = c) (mflat m).
Proof.
  intros [W1 W2] H. apply Forall_forall. intros x Hx. unfold mflat in Hx. apply in_concat in Hx as (row & Hr & Hx).
  apply In_nth with (d := []) in Hr as (i & Hi & Er). rewrite Forall_forall in W2. assert (In row (mdata m)) by (rewrite <- Er; apply nth_In; auto).
  pose proof (W2 _ H0) as L. apply In_nth with (d := nofZ RN 0) in Hx as (j & Hj & Ex). rewrite L in Hj. rewrite W1 in Hi.
  rewrite <- (H i j Hi Hj). unfold mget. rewrite Er. symmetry. exact Ex.
Qed.
Lemma cmp_selfR (c : R) : ncmp (N:=RN) c c = Some Eq.
Proof.
  unfold ncmp. cbn [nltb neqb RN]. assert (L : Rltb c c = false) by (apply Rltb_false; lra). rewrite L.
  unfold Reqb. destruct (Req_EM_T c c); [reflexivity|tauto].
Qed.
Lemma max_constR_from (c : R) (l : list R) : Forall (fun x => x = c) l -> nd_max_from (N:=RN) c l = Some c.
Proof. intros H. induction H as [|x t -> _ IH]; cbn [nd_max_from]; auto. rewrite cmp_selfR. exact IH. Qed.
Lemma min_constR_from (c : R) (l : list R) : Forall (fun x => x = c) l -> nd_min_from (N:=RN) c l = Some c.
Proof. intros H. induction H as [|x t -> _ IH]; cbn [nd_min_from]; auto. rewrite cmp_selfR. exact IH. Qed.
Lemma max_constR (c m : R) (l : list R) : Forall (fun x => x = c) l -> nd_max (N:=RN) l = Some m -> m = c.
Proof.
  intros H E. unfold nd_max in E. destruct l as [|x t]; [discriminate|]. pose proof (Forall_inv H) as Hx. cbv beta in Hx. subst x.
  pose proof (max_constR_from c (c :: t) H) as Q. assert (X : Some c = Some m) by (etransitivity; [symmetry; exact Q|exact E]). congruence.
Qed.
Lemma min_constR (c m : R) (l : list R) : Forall (fun x => x = c) l -> nd_min (N:=RN) l = Some m -> m = c.
Proof.
  intros H E. unfold nd_min in E. destruct l as [|x t]; [discriminate|]. pose proof (Forall_inv H) as Hx. cbv beta in Hx. subst x.
  pose proof (min_constR_from c (c :: t) H) as Q. assert (X : Some c = Some m) by (etransitivity; [symmetry; exact Q|exact E]). congruence.
Qed.
(** The magnitude of -45 dB. *)
Definition floor_amp : R := exp (-9 / 2 * ln 10).
Lemma level_low x : Rabs x <= floor_amp -> level x = -45.
Proof.
  intros H. unfold level. destruct (Req_EM_T x 0) as [|E]; auto. apply Rmax_left.
  pose proof ln10_pos as L. assert (P : 0 < Rabs x) by (apply Rabs_pos_lt; auto).
  assert (ln (Rabs x) <= -9 / 2 * ln 10). { rewrite <- (ln_exp (-9 / 2 * ln 10)). apply ln_le; auto. }
  assert (ln (Rabs x) / ln 10 <= -9 / 2); [|lra]. apply (Rmult_le_reg_r (ln 10)); auto. unfold Rdiv at 1. rewrite Rmult_assoc, Rinv_l by lra. lra.
Qed.
Lemma prep_quiet (r d r' d' : Spectrogram RN) :
  (forall i j, (i < mrows (sp_data r))%nat -> (j < mcols (sp_data r))%nat -> Rabs (mget (sp_data r) i j) <= floor_amp) ->
  (forall i j, (i < mrows (sp_data d))%nat -> (j < mcols (sp_data d))%nat -> Rabs (mget (sp_data d) i j) <= floor_amp) ->
  prepare_spectrograms_for_comparison r d = Ok (r', d') -> flatR 0 (sp_data r') /\ flatR 0 (sp_data d').
Proof.
  intros Zr Zd H.
  unfold prepare_spectrograms_for_comparison in H. cbv zeta in H. step H as rd E. destruct rd as [r2 d2].
  set (r1 := raise_floor (convert_to_db r) _) in *. set (d1 := raise_floor (convert_to_db d) _) in *.
  assert (G : forall s : Spectrogram RN, (forall i j, (i < mrows (sp_data s))%nat -> (j < mcols (sp_data s))%nat -> Rabs (mget (sp_data s) i j) <= floor_amp) ->
     flatR (-45) (sp_data (raise_floor (convert_to_db s) NOISE_FLOOR_ABSOLUTE_DB))).
  { intros s Zs i j Hi Hj. cbn [raise_floor convert_to_db with_data sp_data mmap mrows mcols mbuild] in *.
    unfold mmap at 1. cbn [mrows mcols mbuild]. rewrite mget_mbuild by auto. unfold mmap. rewrite mget_mbuild by auto.
    change (nmax (N:=RN) NOISE_FLOOR_ABSOLUTE_DB (sample_to_db (mget (sp_data s) i j))) with (lev (sp_data s) i j).
    rewrite lev_level. apply level_low, Zs; auto. }
  assert (F1 : flatR (-45) (sp_data r1)) by (apply G; exact Zr). assert (F2 : flatR (-45) (sp_data d1)) by (apply G; exact Zd). clear G.
  clearbody r1 d1. unfold raise_floor_per_frame in E. cbv zeta in E. step E as floors EF. injection E as <- <-.
  assert (FL : forall j fl, nth_error floors j = Some fl -> (fl : R) = -90).
  { intros j fl Hf.
    assert (Lf : List.length floors = Nat.min (mcols (sp_data r1)) (mcols (sp_data d1))) by (apply mapM_length in EF; rewrite seq_length in EF; exact EF).
    assert (Hj : (j < Nat.min (mcols (sp_data r1)) (mcols (sp_data d1)))%nat) by (rewrite <- Lf; apply nth_error_Some; congruence).
    destruct (mapM_nth _ _ _ j j EF) as (y & Hy & Ey).
    { rewrite nth_error_nth' with (d := 0%nat) by (rewrite seq_length; auto). rewrite seq_nth by auto. reflexivity. }
    assert (y = fl) by congruence. subst y. unfold frame_floor in Ey. step Ey as m1 E1. step Ey as m2 E2.
    destruct (nd_max (mcol (sp_data r1) j)) as [q1|] eqn:Q1; [|discriminate]. destruct (nd_max (mcol (sp_data d1) j)) as [q2|] eqn:Q2; [|discriminate].
    apply (max_constR (-45)) in Q1; [|apply flatR_col; [exact F1|lia]]. apply (max_constR (-45)) in Q2; [|apply flatR_col; [exact F2|lia]].
    assert (q1 = m1) by congruence. assert (q2 = m2) by congruence. subst m1 m2.
    match type of Ey with Ok ?x = _ => assert (EE : x = fl) by congruence end. rewrite <- EE, Q1, Q2.
    change (nmax (N:=RN) (-45) (-45) - IZR 45 = -90). replace (nmax (N:=RN) (-45) (-45)) with (Rmax (-45) (-45)) by (symmetry; apply R_nmax). rewrite Rmax_left; lra. }
  match type of H with context [with_data r1 ?x] => set (R2 := x) in * end. match type of H with context [with_data d1 ?x] => set (D2 := x) in * end.
  assert (G : forall m : mat RN, flatR (-45) m -> flatR (-45) (mbuild (mrows m) (mcols m) (fun i j => match nth_error floors j with
                  | Some fl => nmax fl (mget m i j) | None => mget m i j end))).
  { intros m Fm i j Hi Hj. cbn [mbuild mrows mcols] in Hi, Hj. rewrite mget_mbuild by auto.
    destruct (nth_error floors j) as [fl|] eqn:Ef; [|apply Fm; auto]. apply FL in Ef. rewrite Ef, (Fm i j Hi Hj). etransitivity; [apply R_nmax|]. apply Rmax_right. lra. }
  assert (F3 : flatR (-45) R2) by (apply G; exact F1). assert (F4 : flatR (-45) D2) by (apply G; exact F2).
  assert (W3 : mat_wf R2) by apply mbuild_wf. assert (W4 : mat_wf D2) by apply mbuild_wf. clearbody R2 D2. clear G FL.
  step H as lo1 L1. step H as lo2 L2. unfold get_minimum in L1, L2. cbn [with_data sp_data] in L1, L2.
  destruct (nd_min (mflat R2)) as [q1|] eqn:Q1; [|discriminate]. destruct (nd_min (mflat D2)) as [q2|] eqn:Q2; [|discriminate].
  apply (min_constR (-45)) in Q1; [|apply flatR_all; auto]. apply (min_constR (-45)) in Q2; [|apply flatR_all; auto].
  assert (q1 = lo1) by congruence. assert (q2 = lo2) by congruence. subst lo1 lo2. rewrite Q1, Q2 in H.
  assert (MN : nmin (N:=RN) (-45) (-45) = -45) by (unfold nmin; destruct (nis_nan _); auto; destruct (nltb _ _ _); auto).
  assert (MN' : nmin (N:=RN) (-45 : num RN) (-45 : num RN) = (-45)) by exact MN.
  injection H as <- <-.
  split; intros i j Hi Hj; cbn [subtract_floor with_data sp_data mmap mbuild mrows mcols] in *; unfold mmap; rewrite mget_mbuild by auto.
  - rewrite (F3 i j Hi Hj), MN'. change (-45 - -45 = 0). ring.
  - rewrite (F4 i j Hi Hj), MN'. change (-45 - -45 = 0). ring.
Qed.

(** ** Searching among patches of zeros *)
Lemma patch_flatR (deg : mat RN) s w : flatR 0 deg -> flatR 0 (patch_at deg s w).
Proof.
  intros F i j Hi Hj. unfold patch_at in *. cbn [mbuild mrows mcols] in Hi, Hj. rewrite mget_mbuild by auto.
  destruct (Nat.ltb_spec (Z.to_nat s + j) (mcols deg)); [apply F; auto|reflexivity].
Qed.
Lemma flat_ext (a b : mat RN) : mat_wf a -> mat_wf b -> mrows b = mrows a -> mcols b = mcols a -> flatR 0 a -> flatR 0 b -> a = b.
Proof.
  intros Wa Wb Hr Hc Fa Fb. destruct a as [ra ca da], b as [rb cb db]. cbn [mrows mcols] in *. subst rb cb. f_equal.
  destruct Wa as [A1 A2], Wb as [B1 B2]. cbn [mdata mrows mcols] in *. apply (nth_ext _ _ [] []); [congruence|]. intros i Hi.
  rewrite Forall_forall in A2, B2. assert (La : List.length (nth i da []) = ca) by (apply A2, nth_In; auto).
  assert (Lb : List.length (nth i db []) = ca) by (apply B2, nth_In; lia).
  apply (nth_ext _ _ (nofZ RN 0) (nofZ RN 0)); [congruence|]. intros j Hj. rewrite A1 in Hi. rewrite La in Hj.
  etransitivity; [exact (Fa i j Hi Hj)|symmetry; exact (Fb i j Hi Hj)].
Qed.
Lemma total_freshR (sim : nat -> Z -> R) offs : forall k prev acc,
  (forall i, (i < List.length offs)%nat -> sim (k + i)%nat (nth i offs 0%Z) = 1) ->
  total_from (N:=RN) sim k prev acc offs = acc + IZR (fresh prev offs).
Proof.
  induction offs as [|o t IH]; intros k prev acc HS; cbn [total_from fresh]; [symmetry; apply Rplus_0_r|].
  assert (HT : forall i, (i < List.length t)%nat -> sim (S k + i)%nat (nth i t 0%Z) = 1).
  { intros i Hi. specialize (HS (S i)). cbn [List.length nth] in HS. replace (k + S i)%nat with (S k + i)%nat in HS by lia. apply HS. lia. }
  specialize (HS 0%nat). cbn [List.length nth] in HS. replace (k + 0)%nat with k in HS by lia. specialize (HS ltac:(lia)).
  rewrite plus_IZR. destruct (o =? prev)%Z.
  - etransitivity; [apply IH; auto|]. realeq. ring.
  - etransitivity; [apply IH; auto|]. cbn [nadd RN]. change (num RN) with R in *. rewrite HS. ring.
Qed.
Lemma search_quiet pf (refs : list (mat RN)) idx (deg : mat RN) fd radius fp out : search_input refs idx deg radius fp -> (4 <= fp)%nat ->
  (forall k, (S k < List.length idx)%nat -> (nth k idx 0 + Z.of_nat fp <= nth (S k) idx 0)%Z) ->
  (forall rp, In rp refs -> flatR 0 rp) -> flatR 0 deg ->
  find_most_optimal_deg_patches pf refs idx deg fd radius = Ok out -> Forall (perfect (mrows deg)) out.
Proof.
  intros SI Hfp HG FR FD H. pose proof SI as [S1 S2 S3 S4 S5 S6 S7 S8 S9].
  destruct (find_parts _ _ _ _ _ _ _ _ SI H) as [Hc Hf].
  assert (Hidx : idx <> []) by (intros ->; destruct refs; [tauto|discriminate]).
  destruct (calc_max_last _ _ _ _ _ Hc Hidx) as [HP HL]. replace (Z.to_nat (Z.of_nat (List.length out) - 1)) with (List.length out - 1)%nat in HL by lia.
  set (n := List.length out) in *. set (c := Z.of_nat (mcols deg)) in *. set (h := (Z.of_nat fp / 2)%Z) in *.
  assert (Hh : (2 * h <= Z.of_nat fp /\ h + 2 <= Z.of_nat fp)%Z) by (unfold h; pose proof (Z.div_mod (Z.of_nat fp) 2 ltac:(lia)); pose proof (Z.mod_pos_bound (Z.of_nat fp) 2 ltac:(lia)); lia).
  assert (Hc1 : (1 <= c)%Z) by (unfold c; lia).
  assert (Hh0 : (0 <= h)%Z) by (apply Z.div_pos; lia).
  assert (I0 : forall r, In r idx -> (0 <= r)%Z) by (intros r Hr; apply S8; auto). unfold zlen in HP.
  assert (SIM : forall k s, (k < n)%nat -> exists rp p, nth_error refs k = Some rp /\ measure_patch_similarity rp (patch_at deg s (mcols rp)) = Ok p /\ perfect (mrows deg) p).
  { intros k s Hk. destruct (nth_error refs k) as [rp|] eqn:Er; [|apply nth_error_None in Er; lia].
    pose proof (nth_error_In _ _ Er) as Ir. destruct (S3 rp Ir) as (W1 & R1 & K1).
    assert (E : patch_at deg s (mcols rp) = rp).
    { symmetry. apply flat_ext; auto; [apply patch_at_wf|apply patch_flatR; exact FD]. }
    destruct (C36_same rp W1) as (p & Ep & E1 & _); [lia|lia|].
    exists rp, p. split; [reflexivity|]. rewrite E. split; [exact Ep|]. rewrite <- R1. apply (measure_perfect rp rp); auto; try lia. rewrite E1. lra. }
  assert (ONE : forall k s, (k < n)%nat -> (sim_at refs deg k s : R) = 1).
  { intros k s Hk. destruct (SIM k s Hk) as (rp & p & E1 & E2 & E3 & _). unfold sim_at. rewrite E1, E2. exact E3. }
  destruct (C25_R pf refs idx deg fd radius fp out SI) as (offs & (AL & AW & AM) & DE & OP); [|exact H|].
  { intros k s Hk _. rewrite ONE by auto. lra. }
  fold n c in AL, AW, AM, OP, DE.
  set (offs' := map (fun r => Z.max 0 (r - h - 1)) (firstn n idx)).
  assert (L' : List.length offs' = n) by (unfold offs'; rewrite map_length, firstn_length; lia).
  assert (E' : forall k, (k < n)%nat -> nth k offs' 0%Z = Z.max 0 (nth k idx 0%Z - h - 1)).
  { intros k Hk. unfold offs'. rewrite (nth_indep _ 0%Z (Z.max 0 (0 - h - 1))) by (fold offs'; lia).
    rewrite (map_nth (fun r => Z.max 0 (r - h - 1)) (firstn n idx) 0%Z k). rewrite nth_firstn_lt by auto. reflexivity. }
  assert (UP : forall k, (k < n)%nat -> (nth k idx 0 - h - 1 < c)%Z).
  { intros k Hk. assert (nth k idx 0 <= nth (n - 1) idx 0)%Z; [|lia].
    assert (G : forall j, (k <= j < List.length idx)%nat -> (nth k idx 0 <= nth j idx 0)%Z).
    { induction j as [|j IH]; intros Hj; [replace k with O by lia; lia|]. destruct (Nat.eq_dec k (S j)) as [->|]; [lia|].
      specialize (IH ltac:(lia)). specialize (HG j ltac:(lia)). lia. }
    apply G. lia. }
  assert (STR : forall k, (S k < n)%nat -> (nth k offs' 0 < nth (S k) offs' 0)%Z).
  { intros k Hk. rewrite !E' by lia. pose proof (HG k ltac:(lia)). assert (0 <= nth k idx 0)%Z by (apply I0, nth_In; lia). lia. }
  assert (AD : admissible (radius * Z.of_nat fp) c idx n offs').
  { split; [exact L'|]. split; [|intros k Hk; pose proof (STR k Hk); lia]. intros k Hk. rewrite E' by auto. specialize (UP k Hk). unfold in_window.
    assert (0 <= nth k idx 0)%Z by (apply I0, nth_In; lia). split; [lia|]. nia. }
  specialize (OP offs' AD).
  assert (TOT : forall o, List.length o = n -> match o with [] => True | x :: t => total (sim_at refs deg) o = 1 + IZR (fresh x t) end).
  { intros o Lo. destruct o as [|x t]; auto. cbn [total]. cbn [List.length] in Lo.
    etransitivity; [apply (total_freshR (sim_at (N:=RN) refs deg)); intros i Hi; apply ONE; lia|]. rewrite ONE by lia. reflexivity. }
  pose proof (TOT offs AL) as T1. pose proof (TOT offs' L') as T2. destruct offs as [|x t]; [cbn in AL; lia|]. clear TOT.
  destruct offs' as [|x' t'] eqn:Eo; [cbn in L'; lia|]. cbn [List.length] in AL, L'.
  assert (FU : fresh x' t' = zlen t').
  { apply fresh_strict. intros k Hk. specialize (STR k ltac:(lia)). cbn [nth] in STR. destruct k; cbn [nth] in STR; lia. }
  assert (FL : fresh x t = zlen t).
  { pose proof (fresh_range t x). assert (LE : IZR (fresh x' t') <= IZR (fresh x t)) by (change (num RN) with R in *; lra).
    apply le_IZR in LE. unfold zlen in *. lia. }
  pose proof (fresh_full t x FL) as NL.
  apply Forall_forall. intros e He. apply In_nth_error in He as (k & Hk).
  assert (Kn : (k < n)%nat) by (apply nth_error_Some; congruence).
  destruct (DE k e Hk) as (rp & p & E1 & E2 & Q3 & _ & _ & _ & E3).
  assert (LK : lost_at (x :: t) k = false).
  { unfold lost_at. destruct k as [|k]; auto. specialize (NL k ltac:(lia)). cbn [nth]. apply Z.eqb_neq. destruct k; exact NL. }
  rewrite LK in E3. destruct E3 as (Q1 & Q2 & _). destruct (SIM k (nth k (x :: t) 0%Z) Kn) as (rp' & p' & G1 & G2 & G3).
  assert (rp' = rp) by congruence. subst rp'. assert (p' = p) by congruence. subst p'. unfold perfect in *. rewrite Q1, Q2, Q3. exact G3.
Qed.

(** ** A comparison of two signals *)
Lemma direct_parts {N} pf nb (m m' : Manager N) (rs ds : AudioSignal N) r :
  compute_results pf nb m rs ds = (m', Ok r) ->
  exists al lag fb1 fb2 fb3 f' rspec dspec rprep dprep idx patches info,
    let w := new_window (sample_rate rs) OVERLAP WINDOW_DURATION in
    let scaled := scale_to_match_sound_pressure_level rs al in
    let fd := calculate_frame_duration (nmul N (nofZ N (win_size w)) (win_overlap w)) (sample_rate rs) in
    globally_align pf rs ds = Ok (Some (al, lag)) /\
    build nb (mg_filterbank m) rs w = (fb1, Ok rspec) /\
    build nb fb1 scaled w = (fb2, Ok dspec) /\
    prepare_spectrograms_for_comparison rspec dspec = Ok (rprep, dprep) /\
    create_ref_patch_indices pf (mg_creator m) (sp_data rprep) rs w = Ok idx /\
    create_patches_from_indices (creator_patch_size (mg_creator m)) (sp_data rprep) idx = Ok patches /\
    find_most_optimal_deg_patches pf patches idx (sp_data dprep) fd (wrap_i32 (mg_search_window m)) = Ok info /\
    finely_align_and_recreate_patches pf nb rs scaled w fb2 info = (fb3, Ok (patch_sims r)) /\
    calc_per_patch_mean_freq_band_means (patch_sims r) = Ok (fvnsim r) /\
    calc_per_patch_mean_freq_band_std_devs pf (patch_sims r) fd = Ok (fstdnsim r) /\
    calculate_similarity pf nb rs al (mg_filterbank m) w (mg_creator m) (mg_mapper m) (mg_search_window m) = (f', Ok r).
Proof.
  unfold compute_results. destruct (globally_align pf rs ds) as [[[al lag]|]| |] eqn:A4; try discriminate.
  destruct (calculate_similarity _ _ _ _ _ _ _ _ _) as [f' x] eqn:E0. intros H. assert (x = Ok r) by congruence. subst x. clear H. pose proof E0 as H.
  unfold calculate_similarity in H; cbv zeta in H.
  destruct (build nb (mg_filterbank m) rs _) as [fb1 [rspec| |]] eqn:E1; [|discriminate|discriminate].
  match goal with H : context [build nb fb1 ?s ?w] |- _ =>
    destruct (build nb fb1 s w) as [fb2 [dspec| |]] eqn:E2 end; [|discriminate|discriminate].
  match type of H with context [match ?x with Ok _ => _ | Err _ => _ | Panic _ => _ end] =>
    destruct x as [info|e1|] eqn:E3 end; [|discriminate|discriminate].
  match type of H with context [finely_align_and_recreate_patches pf nb rs ?d ?w fb2 ?i] =>
    destruct (finely_align_and_recreate_patches pf nb rs d w fb2 i) as [fb3 r3] eqn:E4 end.
  injection H as _ H.
  do 5 (inv_do H; match goal with H2 : _ = Ok r |- _ => rename H2 into H end).
  destruct (nd_mean v0) eqn:Em; [|discriminate]. cbn [bind] in H. injection H as <-.
  cbn [moslqo vnsim fvnsim fstdnsim fvdegenergy res_center_freq_bands patch_sims] in *.
  subst r3.
  inv_do E3. destruct v4 as [rs' ds']. inv_do Hk. inv_do Hk0.
  exists al, lag, fb1, fb2, fb3, f', rspec, dspec, rs', ds'. do 3 eexists. cbv zeta.
  repeat (split; [first [reflexivity|eassumption]|]). exact E0.
Qed.

(** ** Loudness bounds every sample *)
Lemma sample_energy (l : list R) a : In a l -> a * a <= energy l.
Proof.
  induction l as [|x t IH]; intros Ha; [destruct Ha|]. rewrite energy_cons. destruct Ha as [->|H].
  - pose proof (energy_nonneg t). lra.
  - specialize (IH H). pose proof (Rle_0_sqr x) as Q. unfold Rsqr in Q. lra.
Qed.
Lemma energy_rms (l : list R) : l <> [] -> energy l = IZR (zlen l) * (rms l * rms l).
Proof.
  intros H. unfold rms. assert (0 < IZR (zlen l)) by (apply IZR_lt; unfold zlen; destruct l; [tauto|cbn; lia]).
  rewrite sqrt_def; [field; lra|]. apply Rmult_le_pos; [apply energy_nonneg|]. left. apply Rinv_0_lt_compat. auto.
Qed.
Lemma rms_nonneg (l : list R) : 0 <= rms l. Proof. apply sqrt_pos. Qed.
Lemma peak_rms (l : list R) n L : (zlen l <= n)%Z -> rms l * sqrt (IZR n) <= L -> forall a, In a l -> Rabs a <= L.
Proof.
  intros Hn HL a Ha. assert (Hne : l <> []) by (intros ->; destruct Ha).
  assert (Hp : 0 <= IZR n) by (apply IZR_le; unfold zlen in Hn; lia).
  eapply Rle_trans; [|exact HL]. pose proof (rms_nonneg l) as R0. pose proof (sqrt_pos (IZR n)) as S0.
  apply Rsqr_incr_0; [|apply Rabs_pos|apply Rmult_le_pos; auto]. unfold Rsqr. rewrite Rabs_mult_self.
  eapply Rle_trans; [apply sample_energy; exact Ha|]. rewrite energy_rms by auto.
  replace (rms l * sqrt (IZR n) * (rms l * sqrt (IZR n))) with (sqrt (IZR n) * sqrt (IZR n) * (rms l * rms l)) by ring. rewrite sqrt_def by auto.
  apply Rmult_le_compat_r; [apply Rmult_le_pos; auto|]. apply IZR_le. exact Hn.
Qed.

Lemma silent_dec (l : list R) : not_silent l \/ forall a, In a l -> a = 0.
Proof.
  induction l as [|x t [IH|IH]]; [right; intros a []| |].
  - left. destruct IH as (y & Hy & N0). exists y. split; [right; auto|auto].
  - destruct (Req_dec x 0) as [E|E]; [right; intros a [<-|Ha]; auto|left; exists x; split; [left; auto|auto]].
Qed.
(** The matched recording is as quiet as the reference. *)
Lemma scaled_peak (rs al : AudioSignal RN) n L : not_silent (data_matrix rs) -> (sig_len al <= n)%Z -> 0 <= L ->
  rms (data_matrix rs) * sqrt (IZR n) <= L ->
  forall a, In a (data_matrix (scale_to_match_sound_pressure_level rs al)) -> Rabs a <= L.
Proof.
  intros NS Hn L0 HL. destruct (silent_dec (data_matrix al)) as [NA|ZA].
  - apply (peak_rms _ n); [|].
    + cbn [scale_to_match_sound_pressure_level data_matrix]. unfold zlen. rewrite map_length. exact Hn.
    + pose proof (C37_rms rs al NS NA) as E. rewrite E. exact HL.
  - intros a Ha. cbn [scale_to_match_sound_pressure_level data_matrix] in Ha. apply in_map_iff in Ha as (x & <- & Hx). rewrite (ZA x Hx).
    cbn [nmul RN]. rewrite Rmult_0_l, Rabs_R0. exact L0.
Qed.

Lemma quiet_all nb rate : (1 <= nb)%nat -> (102 <= rate)%Z ->
  exists L, 0 < L /\ forall pf v ws (m m' : Manager RN) calls (rs ds : AudioSignal RN) r,
  new_manager nb v ws = Ok m -> (1 <= ws <= 2 ^ 20)%Z ->
  sample_rate rs = rate -> sample_rate ds = rate -> (sig_len rs <= 2 ^ 30)%Z -> not_silent (data_matrix rs) ->
  rms (data_matrix rs) * sqrt (IZR (sig_len rs + sig_len ds)) <= L ->
  compute_results pf nb (after_calls pf nb m calls) rs ds = (m', Ok r) ->
  fvnsim r = repeat 1 nb /\ vnsim r = 1 /\ fstdnsim r = repeat 0 nb /\
  (forall p, In p (patch_sims r) -> similarity p = 1 /\ freq_band_means p = repeat 1 nb /\ freq_band_stddevs p = repeat 0 nb) /\
  predict_quality (mg_mapper m) (repeat 1 nb) = Ok (moslqo r).
Proof.
  intros Hnb Hrate.
  destruct (C63_spectrogram nb rate 50 Hnb ltac:(lra)) as (K & K0 & HK).
  { apply Rmin_glb_lt.
    - destruct (Nat.eqb nb 21); [lra|]. apply (IZR_lt 50). pose proof (Z.div_mod rate 2 ltac:(lia)). pose proof (Z.mod_pos_bound rate 2 ltac:(lia)). lia.
    - pose proof (IZR_le 102 rate Hrate). lra. }
  assert (F0 : 0 < floor_amp) by apply exp_pos.
  exists (floor_amp / (K + 1)). split; [apply Rdiv_lt_0_compat; lra|].
  intros pf v ws m m' calls rs ds r Hm Hws Rr Rd Hlen NS HL H. set (L := floor_amp / (K + 1)) in *.
  assert (L0 : 0 < L) by (apply Rdiv_lt_0_compat; lra).
  assert (KL : K * L <= floor_amp).
  { unfold L. replace (K * (floor_amp / (K + 1))) with (floor_amp * (K / (K + 1))) by (field; lra).
    rewrite <- (Rmult_1_r floor_amp) at 2. apply Rmult_le_compat_l; [lra|]. apply (Rmult_le_reg_r (K + 1)); [lra|]. unfold Rdiv. rewrite Rmult_assoc, Rinv_l by lra. lra. }
  set (m1 := after_calls pf nb m calls) in *. destruct (after_same pf nb calls m) as (Sw & Cr & Mp & Fm). fold m1 in Sw, Cr, Mp, Fm.
  assert (Hsw : mg_search_window m = ws) by (unfold new_manager in Hm; destruct v as [u|[s|]]; cbn [bind] in Hm; try discriminate; inversion Hm; reflexivity).
  assert (Hps : creator_patch_size (mg_creator m) = 20%Z \/ creator_patch_size (mg_creator m) = 30%Z).
  { unfold new_manager in Hm. destruct v as [u|[s|]]; cbn [bind] in Hm; try discriminate; inversion Hm; auto. }
  assert (HM : fb_min_freq (mg_filterbank m1) = MINIMUM_FREQ).
  { rewrite Fm. unfold new_manager in Hm. destruct v as [u|[s|]]; cbn [bind] in Hm; try discriminate; inversion Hm; reflexivity. }
  clearbody m1.
  apply direct_parts in H. destruct H as (al & lag & fb1 & fb2 & fb3 & f' & rspec & dspec & rp & dp & idx & pts & info & H).
  cbv zeta in H. destruct H as (GA & B1 & B2 & PR & CI & PT & FD & FA & ME & SD & H0).
  apply calculate_ok in H0. destruct H0 as (L1 & L2 & _ & _ & SH & NE & VN & (q & PQ & MQ) & _).
  apply C10_shift in GA. destruct GA as (RA & SHF).
  assert (AL : (sig_len al <= sig_len rs + sig_len ds)%Z).
  { assert (0 <= zlen (data_matrix rs) /\ 0 <= zlen (data_matrix ds))%Z by (unfold zlen; lia). unfold sig_len in *.
    pose proof (Z.div_le_upper_bound (zlen (data_matrix rs)) 2 (zlen (data_matrix rs)) ltac:(lia) ltac:(lia)) as D2.
    destruct SHF; unfold zlen in *; rewrite ?app_length, ?repeat_length, ?skipn_length; lia. }
  set (scaled := scale_to_match_sound_pressure_level rs al) in *.
  assert (Hsr : sample_rate scaled = sample_rate rs) by (change (sample_rate scaled) with (sample_rate al); congruence).
  rewrite Cr in CI, PT. set (ps := creator_patch_size (mg_creator m)) in *.
  set (w := new_window (sample_rate rs) OVERLAP WINDOW_DURATION) in *.
  assert (W0 : (0 <= win_size w)%Z) by apply usize_pos.
  assert (Hh : (0 < hop_size w)%Z) by (apply build_inv in B1; assert (0 <= hop_size w)%Z by apply usize_pos; lia).
  assert (W1' : (1 <= win_size w)%Z) by (apply hop_win; auto).
  assert (HW : (win_size w <= sig_len rs)%Z) by (apply build_inv in B1; apply B1).
  pose proof (build_cols _ _ _ _ _ _ Hh B1) as C1. change (zlen (data_matrix rs)) with (sig_len rs) in C1.
  pose proof (prepare_shape _ _ _ _ PR) as ((Wr & R1 & K1 & _) & (Wd & R2 & K2 & _)).
  pose proof (build_shape _ _ _ _ _ _ B1) as (_ & Rn & _). pose proof (build_shape _ _ _ _ _ _ B2) as (_ & Rn2 & _).
  pose proof (build_cols _ _ _ _ _ _ Hh B2) as C2.
  assert (HM1 : fb_min_freq fb1 = MINIMUM_FREQ) by (pose proof (build_min nb (mg_filterbank m1) rs w) as Q; rewrite B1 in Q; cbn [fst] in Q; rewrite Q; exact HM).
  assert (ZP : (0 <= sig_len ds)%Z) by (unfold sig_len, zlen; lia).
  destruct (prep_quiet rspec dspec rp dp) as [F1 F2]; auto.
  { intros i j Hi Hj. rewrite Rn in Hi. destruct (HK (mg_filterbank m1) fb1 rs w rspec L i j HM Rr W1' Hh B1) as [Q1 Q2]; auto.
    - apply (peak_rms _ (sig_len rs + sig_len ds)); [change (sig_len rs <= sig_len rs + sig_len ds)%Z; lia|exact HL].
    - rewrite Rabs_pos_eq by exact Q1. lra. }
  { intros i j Hi Hj. rewrite Rn2 in Hi. destruct (HK fb1 fb2 scaled w dspec L i j HM1 ltac:(congruence) W1' Hh B2) as [Q1 Q2]; auto.
    - apply (scaled_peak rs al (sig_len rs + sig_len ds)); auto. lra.
    - rewrite Rabs_pos_eq by exact Q1. lra. }
  destruct (patches_self ps _ _ _ ltac:(lia) PT) as [PL PS].
  pose proof (find_times _ _ _ _ _ _ _ FD) as (p0 & E0 & CP).
  assert (Hidx : idx <> []) by (destruct pts; [discriminate|]; destruct idx; [cbn in PL; lia|discriminate]).
  assert (Cc : (Z.of_nat (mcols (sp_data rp)) <= 1 + sig_len rs /\ 20 <= Z.of_nat (mcols (sp_data rp)))%Z).
  { split.
    - rewrite K1, C1. pose proof (Z.div_le_upper_bound (sig_len rs - win_size w) (hop_size w) (sig_len rs)). nia.
    - destruct idx as [|i t]; [tauto|]. destruct (PS 0%nat ltac:(cbn; lia)) as (P1 & P2 & _). cbn [nth] in *. lia. }
  rewrite Sw, Hsw, wrap_i32_id in FD by lia.
  assert (C4 : (1 <= Z.of_nat (mcols (sp_data dspec)))%Z).
  { rewrite C2. pose proof (build_inv _ _ _ _ _ _ B2) as (Q & _). pose proof (Z.div_pos (zlen (data_matrix scaled) - win_size w) (hop_size w)). lia. }
  assert (SI : search_input pts idx (sp_data dp) ws (Z.to_nat ps)).
  { constructor; try (rewrite ?Z2Nat.id by lia; lia).
    - destruct pts; [discriminate|discriminate].
    - intros q0 Hq. apply In_nth_error in Hq as (k & Hk). assert (Hlt : (k < List.length idx)%nat) by (rewrite <- PL; apply nth_error_Some; congruence).
      destruct (PS k Hlt) as (_ & _ & E). rewrite E in Hk. injection Hk as <-. split; [apply patch_at_wf|]. cbn [patch_at mbuild mrows mcols]. split; [congruence|reflexivity].
    - intros i Hi. apply (In_nth _ _ 0%Z) in Hi as (k & Hk & <-). destruct (PS k Hk) as (P1 & P2 & _). rewrite Z2Nat.id by lia. nia.
    - intros k Hk. pose proof (sorted_nth _ (idx_sorted pf (mg_creator m) _ _ _ _ ltac:(lia) CI) k Hk). lia. }
  assert (PF : Forall (perfect nb) info).
  { assert (X : mrows (sp_data dp) = nb) by congruence. rewrite <- X.
    apply (search_quiet pf pts idx (sp_data dp) (calculate_frame_duration (nmul RN (nofZ RN (win_size w)) (win_overlap w)) (sample_rate rs)) ws (Z.to_nat ps)); auto.
    - lia.
    - intros k Hk. rewrite Z2Nat.id by lia. apply (idx_gap pf (mg_creator m) _ _ _ _ ltac:(lia) CI k Hk).
    - intros q0 Hq. apply In_nth_error in Hq as (k & Hk). assert (Hlt : (k < List.length idx)%nat) by (rewrite <- PL; apply nth_error_Some; congruence).
      destruct (PS k Hlt) as (_ & _ & E). rewrite E in Hk. injection Hk as <-. apply patch_flatR. exact F1. }
  pose proof (finely_perfect _ _ _ _ _ _ _ _ _ PF FA) as PP.
  assert (FV : fvnsim r = repeat 1 nb) by (eapply means_perfect; eauto).
  assert (VV : vnsim r = 1).
  { rewrite FV in VN. destruct nb as [|n]; [lia|].
    assert (MB : 1 <= mean_of (repeat 1 (S n)) <= 1).
    { apply mean_of_bound; [discriminate|]. apply Forall_forall. intros z Hz. apply repeat_spec in Hz. subst. lra. }
    assert (EV : mean_of (repeat 1 (S n)) = vnsim r).
    { assert (E : ndiv RN (nd_sum (N:=RN) (repeat 1 (S n))) (nofZ RN (@zlen R (repeat 1 (S n)))) = vnsim r) by exact (f_equal (fun o : option R => match o with Some z => z | None => 0 end) VN).
      rewrite <- E. unfold mean_of. rewrite INR_IZR_INZ. cbn [ndiv nofZ RN]. symmetry. apply (f_equal2 Rdiv (R_nd_sum (repeat 1 (S n))) eq_refl). }
    rewrite <- EV. lra. }
  split; [exact FV|]. split; [exact VV|]. split; [|split].
  - apply (stds_perfect pf (calculate_frame_duration (N:=RN) (nmul RN (nofZ RN (win_size w)) (win_overlap w)) (sample_rate rs)) nb 34 (patch_sims r) (fvnsim r)); auto; [lia| |].
    + intros p Hp. destruct (fine_src _ _ _ _ _ _ _ _ _ _ FA Hp) as (old & g & g' & Io & RAl).
      rewrite Forall_forall in CP. specialize (CP old Io).
      assert (P0 : Z.of_nat (mcols p0) = ps) by (apply patches_cols in PT; [|lia]; apply PT; eapply nth_error_In; eauto).
      rewrite P0 in CP.
      assert (CB := fun X Y => count_bound pf nb rs scaled w g g' old p idx _ ps (eq_sym Hsr) ltac:(lia) W0 X ltac:(lia) Y CP RAl).
      assert (0 <= frame_count (N:=RN) (frame_dur (win_size w) (sample_rate rs)) p <= ps + 4)%Z as FC; [|clear - FC Hps; change (frame_count _ p) with (frame_count (N:=RN) (frame_dur (win_size w) (sample_rate rs)) p); lia].
      apply CB; [lia|]. intros i Hi. apply (In_nth _ _ 0%Z) in Hi as (k & Hk & <-). destruct (PS k Hk) as (P1 & P2 & _). split; [lia|]. nia.
    + rewrite (finely_len _ _ _ _ _ _ _ _ _ FA).
      pose proof (find_len _ _ _ _ _ _ _ Hidx FD) as FL. assert (zlen idx <= Z.of_nat (mcols (sp_data rp)))%Z.
      { unfold zlen. pose proof (idx_sorted pf (mg_creator m) _ _ _ _ ltac:(lia) CI) as SO.
        assert (G : forall k, (k < List.length idx)%nat -> (Z.of_nat k <= nth k idx 0)%Z).
        { induction k as [|k IHk]; intros Hk; [destruct (PS 0%nat Hk); lia|]. specialize (IHk ltac:(lia)). pose proof (sorted_nth _ SO k Hk). lia. }
        destruct (List.length idx) as [|n] eqn:En; [lia|]. specialize (G n ltac:(lia)). destruct (PS n ltac:(lia)) as (_ & P2 & _). lia. }
      unfold usize_mod. lia.
  - rewrite Forall_forall in PP. exact PP.
  - rewrite MQ. unfold alter_for_similarity_extremes. rewrite Mp in PQ. rewrite FV in PQ. rewrite VV.
    assert (E : nltb RN 1 (nlit RN 15 2) = false). { cbn [nltb nlit RN]. apply Rltb_false. change (IZR 15 / IZR (10 ^ 2) <= 1). change (10 ^ 2)%Z with 100%Z. lra. }
    rewrite E. exact PQ.
Qed.

(** ** Turning two recordings down *)
Definition turned (g : R) (s : AudioSignal RN) : AudioSignal RN := @Build_AudioSignal RN (map (Rmult g) (data_matrix s)) (sample_rate s).
Lemma turned_len g s : sig_len (turned g s) = sig_len s.
Proof. unfold sig_len, zlen, turned. cbn [data_matrix]. rewrite map_length. reflexivity. Qed.
Lemma turned_down nb rate (rs ds : AudioSignal RN) : (1 <= nb)%nat -> (102 <= rate)%Z ->
  sample_rate rs = rate -> sample_rate ds = rate -> (sig_len rs <= 2 ^ 30)%Z -> not_silent (data_matrix rs) ->
  exists g0, 0 < g0 /\ forall g, 0 < g <= g0 -> forall pf v ws (m m' : Manager RN) calls r,
  new_manager nb v ws = Ok m -> (1 <= ws <= 2 ^ 20)%Z ->
  compute_results pf nb (after_calls pf nb m calls) (turned g rs) (turned g ds) = (m', Ok r) ->
  fvnsim r = repeat 1 nb /\ vnsim r = 1 /\ fstdnsim r = repeat 0 nb /\
  (forall p, In p (patch_sims r) -> similarity p = 1 /\ freq_band_means p = repeat 1 nb /\ freq_band_stddevs p = repeat 0 nb) /\
  predict_quality (mg_mapper m) (repeat 1 nb) = Ok (moslqo r).
Proof.
  intros Hnb Hrate Rr Rd Hlen NS. destruct (quiet_all nb rate Hnb Hrate) as (L & L0 & Q).
  set (e := rms (data_matrix rs) * sqrt (IZR (sig_len rs + sig_len ds))).
  assert (E0 : 0 <= e) by (apply Rmult_le_pos; [apply rms_nonneg|apply sqrt_pos]).
  exists (L / (e + 1)). split; [apply Rdiv_lt_0_compat; lra|]. intros g [G0 G1] pf v ws m m' calls r Hm Hws H.
  apply (Q pf v ws m m' calls (turned g rs) (turned g ds)); auto; rewrite ?turned_len; auto.
  - apply not_silent_gain; [lra|exact NS].
  - cbn [turned data_matrix]. eapply Rle_trans; [right; exact (f_equal (fun x => x * sqrt (IZR (sig_len rs + sig_len ds))) (rms_gain g (data_matrix rs)))|].
    rewrite Rabs_pos_eq by lra. rewrite Rmult_assoc. fold e. apply Rle_trans with (L / (e + 1) * e); [apply Rmult_le_compat_r; lra|].
    replace (L / (e + 1) * e) with (L * (e / (e + 1))) by (field; lra). rewrite <- (Rmult_1_r L) at 2. apply Rmult_le_compat_l; [lra|].
    apply (Rmult_le_reg_r (e + 1)); [lra|]. unfold Rdiv. rewrite Rmult_assoc, Rinv_l by lra. lra.
Qed.

(** ** A comparison of two signals succeeds under the conditions of C48 *)
Lemma direct_total pf nb v ws (m : Manager RN) calls (rs ds : AudioSignal RN) idx h :
  let ps := creator_patch_size (mg_creator m) in
  let L := sig_len rs in let D := sig_len ds in
  new_manager nb v ws = Ok m -> (0 <= ws <= 2 ^ 20)%Z -> (1 <= nb)%nat ->
  sample_rate rs = (50 * h)%Z -> sample_rate ds = (50 * h)%Z -> (1 <= h)%Z ->
  (4 * h <= L <= 2 ^ 30)%Z -> (D <= 2 ^ 30)%Z -> (9 <= L)%Z ->
  (4 * h + L / 2 <= D)%Z ->
  (forall mt : mat RN, Z.of_nat (mcols mt) = (1 + (L - 4 * h) / h)%Z -> create_ref_patch_indices pf (mg_creator m) mt rs (new_window (50 * h) OVERLAP WINDOW_DURATION) = Ok idx) ->
  (2 <= List.length idx)%nat -> (forall i, In i idx -> (0 <= i)%Z /\ (i + ps <= 1 + (L - 4 * h) / h)%Z) ->
  (ps / 2 <= nth 1 idx 0)%Z ->
  ((nth 1 idx 0 - ps / 2 + 3) * h <= D - L / 2)%Z ->
  (forall i, In i idx -> (i - ws * ps + 3) * h <= D - L / 2)%Z ->
  (forall fv, List.length fv = nb -> exists q, predict_quality (mg_mapper m) fv = Ok q) ->
  exists m' r, compute_results pf nb (after_calls pf nb m calls) rs ds = (m', Ok r).
Proof.
  intros ps L D Hm Hws Hnb Ra Rb Hh HL HD H9 HLD HI HM Hin H1 H2 H3 Hq.
  destruct (after_same pf nb calls m) as (Sw & Cr & Mp & _).
  assert (Hsw : mg_search_window m = ws) by (unfold new_manager in Hm; destruct v as [u|[s|]]; cbn [bind] in Hm; try discriminate; inversion Hm; reflexivity).
  assert (Hps : ps = 20%Z \/ ps = 30%Z).
  { unfold ps, new_manager in *. destruct v as [u|[s|]]; cbn [bind] in Hm; try discriminate; inversion Hm; auto. }
  unfold compute_results.
  assert (HL2 : (0 <= L / 2)%Z) by (apply Z.div_pos; lia).
  destruct (align_total pf rs ds) as (al & lag & EA & RA & AL); [fold L; lia|fold D; lia|fold L; lia|]. rewrite EA.
  assert (HA : (D - L / 2 <= sig_len al <= D + L / 2)%Z).
  { destruct AL as [[-> _]|(k & Hk & [[E _]|(Hk2 & E & _)])]; try fold L in Hk; try fold D.
    - lia.
    - unfold sig_len. rewrite E. rewrite (@pad_len R) by lia. change (@zlen R (data_matrix ds)) with D. lia.
    - assert (X := @skip_len R (data_matrix ds) k). change (@zlen R (data_matrix ds)) with D in X. specialize (X ltac:(lia)). assert (Y : sig_len al = (D - k)%Z) by (unfold sig_len; rewrite E; exact X). lia. }
  rewrite Ra. destruct (window_50 h ltac:(lia)) as (W1 & W2 & W3).
  set (w := new_window (50 * h) OVERLAP WINDOW_DURATION) in *.
  rewrite Sw, Cr, Mp, Hsw.
  assert (HL2' : (L / 2 <= L)%Z) by (apply Z.div_le_upper_bound; lia).
  set (d := (1 + (sig_len al - 4 * h) / h)%Z).
  assert (Hd : forall i, ((i + 3) * h <= D - L / 2 -> i <= d)%Z).
  { intros i Hi. unfold d. assert ((i - 1 <= (sig_len al - 4 * h) / h)%Z); [|lia]. apply Z.div_le_lower_bound; [lia|]. lia. }
  destruct (sim_total pf nb rs al (mg_filterbank (after_calls pf nb m calls)) w (mg_creator m) (mg_mapper m) ws h idx) as (f' & r & E);
    fold ps; fold L; auto; try lia.
  { pose proof (Z.div_le_upper_bound (L - 4 * h) h L ltac:(lia) ltac:(nia)). assert (ws * ps <= 2 ^ 20 * 30)%Z by nia. lia. }
  { split; [auto|]. specialize (Hd (nth 1 idx 0 - ps / 2)%Z). fold d. lia. }
  rewrite E. eauto.
Qed.
Lemma direct_full pf nb model ws (m : Manager RN) calls (rs ds : AudioSignal RN) h :
  let L := sig_len rs in let D := sig_len ds in
  new_manager nb (Fullband (Some model)) ws = Ok m -> (0 <= ws <= 2 ^ 20)%Z -> (1 <= nb)%nat ->
  (forall fv, List.length fv = nb -> exists q, svr_predict model fv = Ok q) ->
  sample_rate rs = (50 * h)%Z -> sample_rate ds = (50 * h)%Z -> (1 <= h)%Z ->
  (54 * h <= L <= 2 ^ 30)%Z -> (D <= 2 ^ 30)%Z -> (22 * h + L / 2 <= D)%Z ->
  (L - (20 * ws + 20) * h <= D - L / 2)%Z ->
  exists m' r, compute_results pf nb (after_calls pf nb m calls) rs ds = (m', Ok r).
Proof.
  intros L D Hm Hws Hnb HS Ra Rb Hh HL HD HLD H3.
  assert (Hc : mg_creator m = ImagePatchCreator 20) by (unfold new_manager in Hm; cbn [bind] in Hm; inversion Hm; reflexivity).
  set (frames := (1 + (L - 4 * h) / h)%Z).
  assert (F51 : (51 <= frames)%Z). { unfold frames. assert (50 <= (L - 4 * h) / h)%Z by (apply Z.div_le_lower_bound; lia). lia. }
  destruct (C17_grid pf 20 frames ltac:(lia) ltac:(change (20 / 2)%Z with 10%Z; lia)) as (n & Hn & E & G & F). change (20 / 2)%Z with 10%Z in *.
  assert (N2 : (2 <= n)%Z) by (assert (0 <= 1 < n)%Z; [apply G; lia|lia]).
  set (idx := map (fun k => (10 - 1 + 20 * k)%Z) (zrange 0 n)) in *.
  assert (LI : List.length idx = Z.to_nat n) by (unfold idx, zrange; rewrite !map_length, seq_length; lia).
  assert (N1 : nth 1 idx 0%Z = 29%Z).
  { unfold idx. rewrite !zrange_cons by lia. reflexivity. }
  assert (Hr : forall x, In x idx -> (0 <= x)%Z /\ (x + 20 <= frames)%Z).
  { intros x Hx. apply in_map_iff in Hx as (k & <- & Hk). apply in_zrange in Hk. apply F. lia. }
  apply (direct_total pf nb (Fullband (Some model)) ws m calls rs ds idx h); rewrite ?Hc; auto; cbn [creator_patch_size]; fold L D; fold frames; try lia.
  - intros mt Hmt. cbn [create_ref_patch_indices]. rewrite Hmt. exact E.
  - intros i Hi. destruct (Hr i Hi). pose proof (frames_bound L h frames i 20 Hh eq_refl ltac:(lia)). lia.
  - intros fv Hf. unfold new_manager in Hm. cbn [bind] in Hm. inversion Hm. cbn [mg_mapper snd predict_quality]. destruct (HS fv Hf) as (q & ->). cbn [bind]. eauto.
Qed.

(** ** The relative floor below 0 dB *)
Lemma level_le0 x : Rabs x <= 1 -> level x <= 0.
Proof.
  intros H. unfold level. destruct (Req_EM_T x 0) as [|E]; [lra|]. apply Rmax_lub; [lra|].
  pose proof ln10_pos as L. assert (P : 0 < Rabs x) by (apply Rabs_pos_lt; auto).
  assert (ln (Rabs x) <= 0) by (rewrite <- ln_1; apply ln_le; auto).
  assert (0 <= - (ln (Rabs x)) / ln 10) by (apply Rmult_le_pos; [lra|left; apply Rinv_0_lt_compat; auto]). lra.
Qed.
Lemma level_ge x : -45 <= level x.
Proof. unfold level. destruct (Req_EM_T x 0); [lra|apply Rmax_l]. Qed.
Lemma relative_idle (r d r' d' : Spectrogram RN) :
  mcols (sp_data d) = mcols (sp_data r) -> (1 <= mrows (sp_data r))%nat -> (1 <= mrows (sp_data d))%nat -> (1 <= mcols (sp_data r))%nat ->
  let both := [(r, r'); (d, d')] in
  (forall s s' i j x, In (s, s') both -> value_at s i j x -> Rabs x <= 1) ->
  prepare_spectrograms_for_comparison r d = Ok (r', d') ->
  exists low, (exists s s' i j x, In (s, s') both /\ value_at s i j x /\ level x = low) /\
    forall s s' i j x, In (s, s') both -> value_at s i j x -> low <= level x /\ value_at s' i j (level x - low).
Proof.
  intros HC H1 H2 H3 both HB H. destruct (C29_R r d HC H1 H2 H3) as (r2 & d2 & peak & low & E & _ & V & P & _ & LO & LB).
  cbv zeta in V, P, LO, LB. rewrite H in E. injection E as <- <-. fold both in V, P, LO, LB.
  assert (RL : forall s s' i j x, In (s, s') both -> value_at s i j x -> Rmax (peak j - 45) (level x) = level x).
  { intros s s' i j x Hs Hx. apply Rmax_right. pose proof (level_ge x).
    assert (Hj : (j < mcols (sp_data r))%nat). { destruct Hx as (_ & Hj & _). destruct Hs as [Q|[Q|[]]]; injection Q as <- <-; lia. }
    destruct (P j Hj) as (t & t' & k & y & Ht & Hy & <-). pose proof (level_le0 y (HB t t' k j y Ht Hy)). lra. }
  exists low. split.
  - destruct LO as (s & s' & i & j & x & Hs & Hx & El). exists s, s', i, j, x. split; [exact Hs|]. split; [exact Hx|]. rewrite <- El. symmetry. eapply RL; eauto.
  - intros s s' i j x Hs Hx. pose proof (RL s s' i j x Hs Hx) as Q. rewrite <- Q at 1. split; [eapply LB; eauto|]. rewrite <- Q. apply (V s s'); auto.
Qed.
