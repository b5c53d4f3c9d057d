(** C29 in binary64: the formula up to rounding. *)
From Coq Require Import Reals Lra Lia.
From Flocq Require Import Core IEEE754.BinarySingleNaN.
From Verif Require Import Base Num Mat F64 M_Audio M_Spectro Spec Spec2 Spec14 P_Mat P_F64 P_Prep2 P_Libm P_PrepF.
Open Scope R_scope.

(** C29: if the library's logarithm is accurate, every value is max(peak - 45, level) less the
    smallest such number over both spectrograms, up to 2^-35. *)
Theorem C29_formula_f64 : forall lm, log10_accurate lm -> forall r d : Spectrogram (F64 lm),
  mcols (sp_data d) = mcols (sp_data r) ->
  (1 <= mrows (sp_data r))%nat -> (1 <= mrows (sp_data d))%nat -> (1 <= mcols (sp_data r))%nat ->
  (forall (s : Spectrogram (F64 lm)) i j (x : f64), In s [r; d] -> value_at s i j x -> is_finite x = true) ->
  exists r' d' (peak : nat -> R) (low : R),
    prepare_spectrograms_for_comparison r d = Ok (r', d') /\
    let both := [(r, r'); (d, d')] in
    let raised j x := Rmax (peak j - 45) (level x) in
    (forall s s' i j (x : f64), In (s, s') both -> value_at s i j x ->
       exists y : f64, value_at s' i j y /\ is_finite y = true /\ Rabs (B2R y - (raised j (B2R x) - low)) <= bpow radix2 (-35)) /\
    (forall j, (j < mcols (sp_data r))%nat -> exists s s' i (x : f64), In (s, s') both /\ value_at s i j x /\ level (B2R x) = peak j) /\
    (forall s s' i j (x : f64), In (s, s') both -> value_at s i j x -> level (B2R x) <= peak j) /\
    (exists s s' i j (x : f64), In (s, s') both /\ value_at s i j x /\ raised j (B2R x) = low) /\
    (forall s s' i j (x : f64), In (s, s') both -> value_at s i j x -> low <= raised j (B2R x)).
Proof. exact formula_f64. Qed.
Print Assumptions C29_formula_f64.

(** A library with an accurate logarithm, and two one-frame spectrograms: a value of 0 and
    one of 1 against 10 and 0.5. *)
Example C29_formula_f64_example : log10_accurate lm_true /\
  let m (a b : f64) : Spectrogram (F64 lm_true) := {| sp_data := mbuild (N:=F64 lm_true) 2 1 (fun i _ => if Nat.eqb i 0 then a else b); center_freq_bands := [] |} in
  let r := m (f64_ofZ 0) (f64_ofZ 1) in let d := m (f64_ofZ 10) (f64_lit 5 1) in
  (forall (s : Spectrogram (F64 lm_true)) i j (x : f64), In s [r; d] -> value_at s i j x -> is_finite x = true) /\
  exists r' d', prepare_spectrograms_for_comparison r d = Ok (r', d').
Proof.
  split; [exact true_log10_all|]. intros m r d.
  assert (HF : forall (s : Spectrogram (F64 lm_true)) i j (x : f64), In s [r; d] -> value_at s i j x -> is_finite x = true).
  { assert (G : forall (a b : f64) i j (x : f64), is_finite a = true -> is_finite b = true -> value_at (m a b) i j x -> is_finite x = true).
    { intros a b i j x Fa Fb (Hi & Hj & <-). cbn [m sp_data] in Hi, Hj |- *. rewrite mget_mbuild by auto. destruct (Nat.eqb i 0); assumption. }
    intros s i j x [<-|[<-|[]]]; apply G; try (apply ofZ_fin; lia). apply lit_fin; lia. }
  split; [exact HF|]. destruct (C29_formula_f64 lm_true true_log10_all r d eq_refl) as (r' & d' & _ & _ & E & _); try (cbn; lia); [exact HF|].
  exists r', d'. exact E.
Qed.
