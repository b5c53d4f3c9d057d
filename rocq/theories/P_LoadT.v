(** C56, C57: whole runs and witnesses. *)
From Coq Require Import Reals.
From Flocq Require Import Core IEEE754.BinarySingleNaN.
From Verif Require Import Base Num F64 RNum M_Audio M_Align M_Spectro M_Visqol Witness P_Base P_Manager P_Run P_Load.
Open Scope Z_scope.

Lemma C56_run lm pf nb (m : Manager (F64 lm)) files files' r d rate rate' l l' :
  Forall (fun v => -32768 <= v <= 32767) l -> Forall (fun v => -32768 <= v <= 32767) l' ->
  files r = WavOk 2 rate 16 (map Some (flat_map (fun v => [v; v]) l)) ->
  files d = WavOk 2 rate' 16 (map Some (flat_map (fun v => [v; v]) l')) ->
  files' r = WavOk 1 rate 16 (map Some l) -> files' d = WavOk 1 rate' 16 (map Some l') ->
  run pf nb files m r d = run pf nb files' m r d.
Proof.
  intros F F' E1 E2 E3 E4. apply run_loads; rewrite ?E1, ?E2, ?E3, ?E4; apply C56_double_load; auto.
Qed.
Lemma C57_never N pf nb (m : Manager N) rs ds x y : snd (compute_results pf nb m rs ds) <> Err (DifferentSampleRates x y).
Proof.
  intros H. destruct (compute_results pf nb m rs ds) as [m' r] eqn:E. cbn in H. subst r. apply compute_err in E.
  cbv zeta in E. decompose [and or ex] E; discriminate.
Qed.

Definition w_sig (rate : Z) : AudioSignal (F64 lm_ex) :=
  match load_as_mono (w_files "ref.wav") with
  | Ok s => {| data_matrix := data_matrix s; sample_rate := rate |}
  | _ => {| data_matrix := []; sample_rate := rate |}
  end.
Definition w_below (r : res (SimilarityResult (F64 lm_ex))) : bool :=
  match r with Ok r => Bltb (vnsim r : f64) (f64_lit 6 1) | _ => false end.
Definition w_shape (r : res (SimilarityResult (F64 lm_ex))) : bool :=
  match r with Panic PShape => true | _ => false end.
Lemma w_rates_ok : w_below (snd (compute_results Release 1 (w_manager (Wideband false)) (w_sig 100) (w_sig 110))) = true.
Proof. vm_cast_no_check (@eq_refl bool true). Qed.
Lemma w_rates_panic : w_shape (snd (compute_results Release 1 (w_manager (Wideband false)) (w_sig 100) (w_sig 200))) = true.
Proof. vm_cast_no_check (@eq_refl bool true). Qed.
Lemma w_below_ok (x : Manager (F64 lm_ex) * res (SimilarityResult (F64 lm_ex))) : w_below (snd x) = true ->
  exists m' r, x = (m', Ok r) /\ Bltb (vnsim r : f64) (f64_lit 6 1) = true.
Proof. destruct x as [m' [r| |]]; cbn; try discriminate. eauto. Qed.
Lemma w_shape_ok (x : Manager (F64 lm_ex) * res (SimilarityResult (F64 lm_ex))) : w_shape (snd x) = true -> snd x = Panic PShape.
Proof. destruct x as [m' [r| |[]]]; cbn; try discriminate. auto. Qed.
Lemma w_sig_data a b : data_matrix (w_sig a) = data_matrix (w_sig b).
Proof. unfold w_sig. destruct (load_as_mono _); reflexivity. Qed.
Lemma w_sig_rate a : sample_rate (w_sig a) = a.
Proof. unfold w_sig. destruct (load_as_mono _); reflexivity. Qed.
Lemma w_manager_ok v m : new_manager 1 v 0 = Ok m -> new_manager 1 v 0 = Ok (w_manager v).
Proof. unfold w_manager. intros ->. reflexivity. Qed.
Lemma C57_witness : exists (m : Manager (F64 lm_ex)) (rs ds dp : AudioSignal (F64 lm_ex)) m' r,
  new_manager 1 (Wideband false) 0 = Ok m /\
  data_matrix rs = data_matrix ds /\ sample_rate rs = 100 /\ sample_rate ds = 110 /\
  compute_results Release 1 m rs ds = (m', Ok r) /\ Bltb (vnsim r : f64) (f64_lit 6 1) = true /\
  data_matrix rs = data_matrix dp /\ sample_rate dp = 200 /\
  snd (compute_results Release 1 m rs dp) = Panic PShape.
Proof.
  destruct (w_below_ok _ w_rates_ok) as (m' & r & E & B).
  exists (w_manager (Wideband false)), (w_sig 100), (w_sig 110), (w_sig 200), m', r.
  split; [eapply w_manager_ok; cbn [new_manager]; reflexivity|].
  split; [apply w_sig_data|]. split; [apply w_sig_rate|]. split; [apply w_sig_rate|]. split; [exact E|]. split; [exact B|].
  split; [apply w_sig_data|]. split; [apply w_sig_rate|]. exact (w_shape_ok _ w_rates_panic).
Qed.
