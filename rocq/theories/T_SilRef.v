(** C70: with a silent reference every degraded recording is rated perfect. *)
From Coq Require Import Reals Lra.
From Flocq Require Import Core IEEE754.BinarySingleNaN.
From Verif Require Import Base Num F64 M_Audio M_Align M_Nsim M_Selector M_Visqol Spec Spec4 Spec10 Spec11 P_F64 P_NsimF Witness P_SilRef T_NsimF T_Silent.
Open Scope Z_scope.

(** C70: zeros as the reference, anything audible after the first half of the
    reference's length as the degraded recording.  If the comparison returns a result,
    every patch and every band has the similarity 1 and the score is the one for a
    perfect copy. *)
Theorem C70_silent_reference : forall lm pf nb v ws files (m m' : Manager (F64 lm)) calls a b r (rs ds : AudioSignal (F64 lm)),
  libm_limits lm -> log10_finite lm -> squares_sane lm -> filters_finite lm nb (sample_rate rs) -> new_manager nb v ws = Ok m ->
  1 <= ws <= 2 ^ 20 -> Z.of_nat nb <= 2 ^ 53 ->
  load_as_mono (files a) = Ok rs -> load_as_mono (files b) = Ok ds ->
  Forall (fun x : f64 => is_finite x = true /\ B2R x = 0%R) (data_matrix rs) ->
  audible (data_matrix ds) -> audible (skipn (Z.to_nat (sig_len rs / 2)) (data_matrix ds)) ->
  1 <= sample_rate rs <= 2 ^ 20 -> sig_len rs <= 2 ^ 30 -> sig_len ds <= 2 ^ 30 ->
  run pf nb files (after_calls pf nb m calls) a b = (m', Ok r) ->
  fvnsim r = repeat (f64_ofZ 1) nb /\ (vnsim r : f64) = f64_ofZ 1 /\
  (forall p, In p (patch_sims r) -> (similarity p : f64) = f64_ofZ 1 /\ freq_band_means p = repeat (f64_ofZ 1) nb) /\
  predict_quality (mg_mapper m) (repeat (f64_ofZ 1) nb) = Ok (moslqo r).
Proof. exact silent_ref. Qed.
Print Assumptions C70_silent_reference.

(** C70: the same for mono 16-bit files. *)
Theorem C70_silent_reference_file : forall lm pf nb v ws files (m m' : Manager (F64 lm)) calls a b r rate n vs,
  libm_limits lm -> log10_finite lm -> squares_sane lm -> filters_finite lm nb rate -> new_manager nb v ws = Ok m ->
  1 <= ws <= 2 ^ 20 -> Z.of_nat nb <= 2 ^ 53 -> 1 <= rate <= 2 ^ 20 ->
  files a = WavOk 1 rate 16 (map Some (repeat 0 n)) -> Z.of_nat n <= 2 ^ 30 ->
  files b = WavOk 1 rate 16 (map Some vs) -> Forall i16_range vs -> zlen vs <= 2 ^ 30 -> Exists (fun x => x <> 0) (skipn (n / 2) vs) ->
  run pf nb files (after_calls pf nb m calls) a b = (m', Ok r) ->
  fvnsim r = repeat (f64_ofZ 1) nb /\ (vnsim r : f64) = f64_ofZ 1 /\
  (forall p, In p (patch_sims r) -> (similarity p : f64) = f64_ofZ 1 /\ freq_band_means p = repeat (f64_ofZ 1) nb) /\
  predict_quality (mg_mapper m) (repeat (f64_ofZ 1) nb) = Ok (moslqo r).
Proof. exact silent_ref_files. Qed.
Print Assumptions C70_silent_reference_file.

(** C70: so two silent references cannot tell any two degraded recordings apart. *)
Theorem C70_all_rated_alike : forall lm pf nb v ws files1 files2 (m m1 m2 : Manager (F64 lm)) calls1 calls2 a1 b1 a2 b2 r1 r2 rate n1 n2 vs1 vs2,
  libm_limits lm -> log10_finite lm -> squares_sane lm -> filters_finite lm nb rate -> new_manager nb v ws = Ok m ->
  1 <= ws <= 2 ^ 20 -> Z.of_nat nb <= 2 ^ 53 -> 1 <= rate <= 2 ^ 20 ->
  files1 a1 = WavOk 1 rate 16 (map Some (repeat 0 n1)) -> Z.of_nat n1 <= 2 ^ 30 ->
  files1 b1 = WavOk 1 rate 16 (map Some vs1) -> Forall i16_range vs1 -> zlen vs1 <= 2 ^ 30 -> Exists (fun x => x <> 0) (skipn (n1 / 2) vs1) ->
  files2 a2 = WavOk 1 rate 16 (map Some (repeat 0 n2)) -> Z.of_nat n2 <= 2 ^ 30 ->
  files2 b2 = WavOk 1 rate 16 (map Some vs2) -> Forall i16_range vs2 -> zlen vs2 <= 2 ^ 30 -> Exists (fun x => x <> 0) (skipn (n2 / 2) vs2) ->
  run pf nb files1 (after_calls pf nb m calls1) a1 b1 = (m1, Ok r1) ->
  run pf nb files2 (after_calls pf nb m calls2) a2 b2 = (m2, Ok r2) ->
  moslqo r1 = moslqo r2 /\ vnsim r1 = vnsim r2 /\ fvnsim r1 = fvnsim r2.
Proof. exact silent_ref_alike. Qed.
Print Assumptions C70_all_rated_alike.

(** Fifty-six zeros against noise: the comparison returns two patches. *)
Definition mute_vs : list Z := firstn 30 sil_vs.
Definition mute_files (path : string) : wav :=
  if String.eqb path "ref.wav" then WavOk 1 50 16 (map Some (repeat 0 56)) else WavOk 1 50 16 (map Some mute_vs).
Lemma mute_run : sil_summary (snd (run Debug 1 mute_files (sil_manager 1) "ref.wav" "deg.wav")) = Some 2%nat.
Proof. vm_cast_no_check (@eq_refl (option nat) (Some 2%nat)). Qed.
Example C70_example :
  squares_sane lm_sil /\ filters_finite lm_sil 1 50 /\ Forall i16_range mute_vs /\ Exists (fun x => x <> 0) (skipn (56 / 2) mute_vs) /\
  new_manager 1 (Fullband (Some sil_svr)) 1 = Ok (sil_manager 1) /\
  exists m' r, run Debug 1 mute_files (sil_manager 1) "ref.wav" "deg.wav" = (m', Ok r) /\ List.length (patch_sims r) = 2%nat /\
    (vnsim r : f64) = f64_ofZ 1.
Proof.
  assert (SQ : squares_sane lm_sil) by exact (proj1 C53_example).
  assert (FF : filters_finite lm_sil 1 50).
  { intros row Hrow. set (rows := fst _) in Hrow.
    assert (C : forallb (fun row : list f64 => forallb (fun k => is_finite (nth k row (f64_ofZ 0))) (seq 0 9) &&
       forallb (fun k => is_finite (Bdiv mode_NE (nth k row (f64_ofZ 0)) (nth 9 row (f64_ofZ 0)))) [0; 1; 5]%nat)%bool rows = true) by (vm_compute; reflexivity).
    rewrite forallb_forall in C. apply C, andb_prop in Hrow as [C1 C2]. rewrite forallb_forall in C1, C2. split.
    - intros k Hk. apply C1. apply in_seq. lia.
    - exact C2. }
  assert (HI : Forall i16_range mute_vs) by (repeat (constructor; [unfold i16_range; split; vm_compute; discriminate|]); constructor). split; [exact SQ|]. split; [exact FF|]. split; [exact HI|].
  assert (HE : Exists (fun x => x <> 0) (skipn (56 / 2) mute_vs)) by (apply Exists_exists; exists (-8389); split; [vm_compute; left; reflexivity|lia]).
  split; [exact HE|]. split; [reflexivity|].
  destruct (sil_some _ _ mute_run) as (m' & r & E & L). exists m', r. split; [exact E|]. split; [exact L|].
  destruct C42_library as (A & B & _).
  apply (C70_silent_reference_file lm_sil Debug 1 (Fullband (Some sil_svr)) 1 mute_files (sil_manager 1) m' [] "ref.wav" "deg.wav" r 50 56 mute_vs A B SQ FF
    eq_refl ltac:(lia) ltac:(lia) ltac:(lia) eq_refl ltac:(lia) eq_refl HI ltac:(vm_compute; discriminate) HE E).
Qed.
