(** C29: preparing two spectrograms for comparison. *)
From Coq Require Import Reals.
From Flocq Require Import Core IEEE754.BinarySingleNaN.
From Verif Require Import Base Num Mat F64 RNum M_Audio M_Align M_Spectro.
From Verif Require Import Spec Spec2 P_Prep P_Prep2.
Open Scope R_scope.

(** Exact arithmetic: every value becomes max(peak - 45, level) - low where peak is the
    largest level of the frame in both spectrograms and low the smallest raised level. *)
Theorem C29_formula : forall r d : Spectrogram RN,
  mcols (sp_data d) = mcols (sp_data r) ->
  (1 <= mrows (sp_data r))%nat -> (1 <= mrows (sp_data d))%nat -> (1 <= mcols (sp_data r))%nat ->
  exists r' d' (peak : nat -> R) (low : R),
    prepare_spectrograms_for_comparison r d = Ok (r', d') /\
    let both := [(r, r'); (d, d')] in
    let raised j x := Rmax (peak j - 45) (level x) in
    (forall s s', In (s, s') both -> mat_wf (sp_data s') /\ mrows (sp_data s') = mrows (sp_data s) /\
       mcols (sp_data s') = mcols (sp_data s) /\ center_freq_bands s' = center_freq_bands s) /\
    (forall s s' i j x, In (s, s') both -> value_at s i j x -> value_at s' i j (raised j x - low)) /\
    (forall j, (j < mcols (sp_data r))%nat -> exists s s' i x, In (s, s') both /\ value_at s i j x /\ level x = peak j) /\
    (forall s s' i j x, In (s, s') both -> value_at s i j x -> level x <= peak j) /\
    (exists s s' i j x, In (s, s') both /\ value_at s i j x /\ raised j x = low) /\
    (forall s s' i j x, In (s, s') both -> value_at s i j x -> low <= raised j x).
Proof. exact C29_R. Qed.
Print Assumptions C29_formula.

(** Hence no value is negative, one is 0, two values of a frame differ by at most
    45 dB, and a larger magnitude never gets a smaller value. *)
Theorem C29_range_and_order : forall r d r' d' : Spectrogram RN,
  mcols (sp_data d) = mcols (sp_data r) ->
  (1 <= mrows (sp_data r))%nat -> (1 <= mrows (sp_data d))%nat -> (1 <= mcols (sp_data r))%nat ->
  prepare_spectrograms_for_comparison r d = Ok (r', d') ->
  let both := [(r, r'); (d, d')] in
  (forall s s' i j y, In (s, s') both -> value_at s' i j y -> 0 <= y) /\
  (exists s s' i j, In (s, s') both /\ value_at s' i j (0 : R)) /\
  (forall s s' i y t t' k z j, In (s, s') both -> In (t, t') both ->
     value_at s' i j y -> value_at t' k j z -> y <= z + 45) /\
  (forall s s' i x y t t' k u v j, In (s, s') both -> In (t, t') both ->
     value_at s i j x -> value_at s' i j y -> value_at t k j u -> value_at t' k j v ->
     Rabs x <= Rabs u -> y <= v).
Proof. exact C29_R_props. Qed.
Print Assumptions C29_range_and_order.

Example C29_example : exists r' d', prepare_spectrograms_for_comparison prep_r prep_d = Ok (r', d') /\
  value_at r' 0 0 (35 : R) /\ value_at r' 1 0 (0 : R) /\ value_at d' 0 0 (45 : R) /\ value_at d' 1 0 (25 : R).
Proof. exact prep_small. Qed.

(** The same in f64, for finite values. *)
Theorem C29_f64_range_and_order : forall lm (r d : Spectrogram (F64 lm)),
  log10_finite lm ->
  mcols (sp_data d) = mcols (sp_data r) ->
  (1 <= mrows (sp_data r))%nat -> (1 <= mrows (sp_data d))%nat -> (1 <= mcols (sp_data r))%nat ->
  (forall s i j (x : f64), In s [r; d] -> value_at s i j x -> is_finite x = true) ->
  exists r' d',
  prepare_spectrograms_for_comparison r d = Ok (r', d') /\
  let both := [(r, r'); (d, d')] in
  (forall s s', In (s, s') both -> mat_wf (sp_data s') /\ mrows (sp_data s') = mrows (sp_data s) /\
     mcols (sp_data s') = mcols (sp_data s) /\ center_freq_bands s' = center_freq_bands s) /\
  (forall s s' i j (y : f64), In (s, s') both -> value_at s' i j y -> is_finite y = true /\ 0 <= B2R y) /\
  (exists s s' i j (y : f64), In (s, s') both /\ value_at s' i j y /\ B2R y = 0) /\
  (forall s s' i (y : f64) t t' k (z : f64) j, In (s, s') both -> In (t, t') both ->
     value_at s' i j y -> value_at t' k j z -> B2R y <= B2R z + 45 + bpow radix2 (-35)) /\
  (forall s s' i (x y : f64) t t' k (u v : f64) j, In (s, s') both -> In (t, t') both ->
     value_at s i j x -> value_at s' i j y -> value_at t k j u -> value_at t' k j v ->
     Bleb (level_f64 lm x) (level_f64 lm u) = true -> Bleb y v = true).
Proof. exact C29_f64. Qed.
Print Assumptions C29_f64_range_and_order.

Example C29_f64_example : log10_finite lm_step /\
  (forall s i j (x : f64), In s [stp_r; stp_d] -> value_at s i j x -> is_finite x = true) /\
  match prepare_spectrograms_for_comparison stp_r stp_d with
  | Ok (r', d') => map (map (f64_cast 0 100)) (mdata (sp_data r')) = [[35]; [0]]%Z /\
                   map (map (f64_cast 0 100)) (mdata (sp_data d')) = [[45]; [35]]%Z
  | _ => False
  end.
Proof. exact stp_small. Qed.
