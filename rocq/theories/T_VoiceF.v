(** C72 in binary64. *)
From Coq Require Import Reals Lra Lia Sorting.Sorted.
From Flocq Require Import Core IEEE754.BinarySingleNaN.
From Verif Require Import Base Num Mat F64 M_Audio M_Align M_Spectro M_Patch M_Nsim M_Selector M_Visqol Spec Spec2 Spec18 Witness T_OrderF P_VoiceF.
Open Scope R_scope.

(** C72: which stretches of the reference a speech-mode comparison reports, with rounding.
    The selected stretches are those of exact arithmetic, with the samples divided by the
    largest one in binary64.  A reported patch lies in its stretch up to 1/256 of a sample
    at the start and four samples at the end. *)
Theorem C72_selected_stretches_f64 : forall lm pf nb u ws (m m' : Manager (F64 lm)) calls files a b (rs ds : AudioSignal (F64 lm)) h r,
  new_manager nb (Wideband u) ws = Ok m -> load_as_mono (files a) = Ok rs -> load_as_mono (files b) = Ok ds ->
  sample_rate rs = (50 * h)%Z -> (1 <= h <= 2 ^ 20)%Z -> (sig_len rs <= 2 ^ 32)%Z -> (sig_len ds <= 2 ^ 32)%Z ->
  Forall (fun x : f64 => is_nan x = false) (data_matrix rs) ->
  run pf nb files (after_calls pf nb m calls) a b = (m', Ok r) ->
  (47 * h <= sig_len rs)%Z /\
  exists peak starts, is_largest peak (data_matrix rs) /\ StronglySorted Z.lt starts /\
    (forall x, In x starts <-> exists j, (0 <= j)%Z /\ x = (14 + 30 * j)%Z /\ ((x + 33) * h <= sig_len rs)%Z /\
       exists t, (30 * j <= Z.of_nat t < 30 * j + 30)%Z /\ voiced_f64 (data_matrix rs) peak 14 h t) /\
    (2 <= List.length (patch_sims r) <= List.length starts)%nat /\
    (forall k p, nth_error (patch_sims r) k = Some p ->
       IZR (nth k starts 0%Z * h) - / 256 <= B2R (ref_patch_start_time p : f64) * IZR (50 * h) /\
       B2R (ref_patch_end_time p : f64) * IZR (50 * h) <= IZR ((nth k starts 0%Z + 30) * h) + 3 + / 256).
Proof. exact voice_all_F. Qed.
Print Assumptions C72_selected_stretches_f64.

(** C72: so also with rounding, sound between sample 60 h + 14 and hop 74 of an otherwise
    silent reference is never compared. *)
Theorem C72_sound_skipped_f64 : forall lm pf nb u ws (m m' : Manager (F64 lm)) calls files a b (rs ds : AudioSignal (F64 lm)) h r,
  new_manager nb (Wideband u) ws = Ok m -> load_as_mono (files a) = Ok rs -> load_as_mono (files b) = Ok ds ->
  sample_rate rs = (50 * h)%Z -> (1 <= h <= 2 ^ 20)%Z -> (sig_len rs <= 2 ^ 32)%Z -> (sig_len ds <= 2 ^ 32)%Z ->
  Forall (fun x : f64 => is_nan x = false) (data_matrix rs) ->
  (forall n, (Z.of_nat n < 60 * h + 14)%Z \/ (74 * h <= Z.of_nat n)%Z -> nth n (data_matrix rs) (f64_ofZ 0) = f64_ofZ 0) ->
  run pf nb files (after_calls pf nb m calls) a b = (m', Ok r) ->
  forall p n, In p (patch_sims r) ->
    B2R (ref_patch_start_time p : f64) <= INR n / IZR (sample_rate rs) < B2R (ref_patch_end_time p : f64) + 3 / 50 ->
    nth n (data_matrix rs) (f64_ofZ 0) = f64_ofZ 0.
Proof. exact gap_all_F. Qed.
Print Assumptions C72_sound_skipped_f64.

(** Noise of 1.6 s at 100 Hz in speech mode: two patches, the first starts at hop 14. *)
Lemma w_numbers : exists s, load_as_mono (N:=F64 lm_ex) (w_files "ref.wav") = Ok s /\ Forall (fun x : f64 => is_nan x = false) (data_matrix s).
Proof.
  destruct w_load_ref as (s & E & _). exists s. split; [exact E|].
  assert (B : match load_as_mono (N:=F64 lm_ex) (w_files "ref.wav") with Ok s => forallb (fun x : f64 => negb (is_nan x)) (data_matrix s) | _ => false end = true) by (vm_compute; reflexivity).
  rewrite E in B. apply Forall_forall. intros x Hx. apply (proj1 (forallb_forall _ _) B) in Hx. apply Bool.negb_true_iff. exact Hx.
Qed.
Lemma first_stretch lm pf nb (m m' : Manager (F64 lm)) files a b (rs ds : AudioSignal (F64 lm)) r :
  new_manager nb (Wideband false) 0 = Ok m -> load_as_mono (files a) = Ok rs -> load_as_mono (files b) = Ok ds ->
  sample_rate rs = 100%Z -> sig_len rs = 160%Z -> sig_len ds = 158%Z -> Forall (fun x : f64 => is_nan x = false) (data_matrix rs) ->
  run pf nb files m a b = (m', Ok r) -> List.length (patch_sims r) = 2%nat ->
  exists p q, patch_sims r = [p; q] /\ 28 - / 256 <= B2R (ref_patch_start_time p : f64) * 100 /\ B2R (ref_patch_end_time p : f64) * 100 <= 91 + / 256.
Proof.
  intros Hm La Lb Rr L1 L2 HN E L.
  destruct (C72_selected_stretches_f64 lm pf nb false 0 m m' [] files a b rs ds 2 r Hm La Lb) as (_ & peak & st & _ & SS & IN & LS & P);
    try (rewrite ?Rr, ?L1, ?L2; lia); [exact HN|exact E|].
  destruct (patch_sims r) as [|p [|q [|]]] eqn:Eps; try discriminate L. exists p, q. split; [reflexivity|].
  assert (E0 : nth 0 st 0%Z = 14%Z).
  { assert (I14 : In 14%Z st) by (apply IN; exists 0%Z; split; [lia|]; split; [reflexivity|]; split; [lia|]; exists 0%nat; split; [lia|]; left; lia).
    destruct st as [|x st]; [destruct I14|]. cbn [nth]. assert (Ix : In x (x :: st)) by (left; reflexivity). apply IN in Ix as (j & J & Ej & _).
    apply StronglySorted_inv in SS as [_ F]. rewrite Forall_forall in F. destruct I14 as [I|I]; [exact I|]. apply F in I. lia. }
  destruct (P 0%nat p eq_refl) as [P1 P2]. rewrite E0 in P1, P2. change (14 * 2)%Z with 28%Z in P1. change ((14 + 30) * 2)%Z with 88%Z in P2. change (50 * 2)%Z with 100%Z in P1, P2. lra.
Qed.
Example C72_f64_example : exists m' r p q,
  run Debug 1 w_files (w_manager (Wideband false)) "ref.wav" "deg.wav" = (m', Ok r) /\ patch_sims r = [p; q] /\
  28 - / 256 <= B2R (ref_patch_start_time p : f64) * 100 /\ B2R (ref_patch_end_time p : f64) * 100 <= 91 + / 256.
Proof.
  destruct (w_summary_some _ _ w_run_wideband) as (m' & r & E & HL). assert (L : List.length (patch_sims r) = 2%nat) by exact (eq_sym (f_equal snd HL)). clear HL.
  destruct w_load_ref as (rs & La & Rr & L1). destruct w_load_deg as (ds & Lb & _ & L2). destruct w_numbers as (rs' & La' & HN). assert (X : rs' = rs) by congruence. subst rs'.
  assert (M : new_manager 1 (Wideband false) 0 = Ok (w_manager (Wideband false))) by (unfold w_manager, new_manager; cbn [bind]; reflexivity).
  destruct (first_stretch lm_ex Debug 1 _ m' w_files _ _ rs ds r M La Lb Rr L1 L2 HN E L) as (p & q & Y). exists m', r, p, q. split; [exact E|exact Y].
Qed.
