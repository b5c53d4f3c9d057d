(** C76: alignment with truncation keeps exactly what overlaps at the best lag. *)
From Coq Require Import Reals Lra Lia List ZArith.
From Flocq Require Import Core IEEE754.BinarySingleNaN.
From Verif Require Import Base Num F64 RNum M_Audio M_Align Spec3 Spec15 Spec16 P_F64 P_TruncF T_AlignF.
Import ListNotations.
Open Scope R_scope.

(** C76: in exact arithmetic two recordings of equal length are cut to their overlap at a
    lag at which their envelopes correlate most, or left alone if it is zero or too large. *)
Theorem C76_overlap : forall pf (rs ds : AudioSignal RN) p,
  let x1 : list R := data_matrix rs in let x2 : list R := data_matrix ds in let n := zlen x1 in
  sample_rate rs = sample_rate ds -> (1 <= sample_rate ds)%Z -> zlen x2 = n -> (9 <= n <= 2 ^ 62)%Z -> next_pow_two pf n = Ok p ->
  let E1 := envelope (Z.max p 32) x1 in let E2 := envelope (Z.max p 32) x2 in
  exists lag, (- (n - 1) <= lag <= n - 1)%Z /\
    (forall k, (- (n - 1) <= k <= n - 1)%Z -> Rabs (correlation E1 E2 k) <= Rabs (correlation E1 E2 lag)) /\
    align_and_truncate pf rs ds = Ok (Some (if followed n lag
      then (@Build_AudioSignal RN (overlap1 lag x1) (sample_rate rs), @Build_AudioSignal RN (overlap2 lag x2) (sample_rate ds), IZR lag / IZR (sample_rate ds))
      else (rs, ds, 0))).
Proof. exact truncate_R. Qed.
Print Assumptions C76_overlap.

(** C76: in binary64, with an accurate library, the lag is the best up to rounding, and for a
    positive lag the cut may come one sample early: one sample of the reference, against a
    zero, is then kept in front of the overlap. *)
Theorem C76_overlap_f64 : forall pf lm (rs ds : AudioSignal (F64 lm)) p,
  fft_close lm -> log2_close lm -> hypot_close lm ->
  let x1 : list f64 := data_matrix rs in let x2 : list f64 := data_matrix ds in let n := zlen x1 in
  Forall (fun v => is_finite v = true /\ Rabs (B2R v) <= 1) x1 -> Forall (fun v => is_finite v = true /\ Rabs (B2R v) <= 1) x2 ->
  sample_rate rs = sample_rate ds -> (1 <= sample_rate ds <= 2 ^ 32)%Z -> zlen x2 = n -> (9 <= n <= 2 ^ 20)%Z -> next_pow_two pf n = Ok p ->
  let E1 := envelope (Z.max p 32) (values x1) in let E2 := envelope (Z.max p 32) (values x2) in
  exists lag early, (- (n - 1) <= lag <= n - 1)%Z /\ (early = 0 \/ early = 1 /\ 0 < lag)%Z /\
    (forall k, (- (n - 1) <= k <= n - 1)%Z ->
      Rabs (correlation E1 E2 k) <= Rabs (correlation E1 E2 lag) + bpow radix2 (-29) * (IZR n * IZR n)) /\
    align_and_truncate pf rs ds = Ok (Some (if followed n lag
      then (@Build_AudioSignal (F64 lm) (firstn (Z.to_nat early) (skipn (Z.to_nat (lag - early)) x1) ++ overlap1 lag x1) (sample_rate rs),
            @Build_AudioSignal (F64 lm) (repeat (f64_ofZ 0) (Z.to_nat early) ++ overlap2 lag x2) (sample_rate ds),
            Bdiv mode_NE (f64_ofZ lag) (f64_ofZ (sample_rate ds)))
      else (rs, ds, f64_ofZ 0))).
Proof. exact truncate_F. Qed.
Print Assumptions C76_overlap_f64.

(** The delayed click of [C75_example]: with every accurate library both recordings are cut
    to the click. *)
Example C76_example : forall pf lm rate, fft_close lm -> log2_close lm -> hypot_close lm ->
  align_and_truncate pf (@Build_AudioSignal (F64 lm) (click300 ++ repeat (f64_ofZ 0) 100) rate)
      (@Build_AudioSignal (F64 lm) (repeat (f64_ofZ 0) 100 ++ click300) rate) =
    Ok (Some (@Build_AudioSignal (F64 lm) click300 rate, @Build_AudioSignal (F64 lm) click300 rate, Bdiv mode_NE (f64_ofZ (-100)) (f64_ofZ rate))).
Proof.
  intros pf lm rate FC LC HC. destruct C75_example as (_ & _ & _ & G). specialize (G pf lm rate FC LC HC).
  match type of G with globally_align _ ?r ?d = _ => set (rs := r) in *; set (ds := d) in * end.
  assert (F : followed (zlen (data_matrix rs)) (-100) = true) by reflexivity.
  etransitivity; [exact (truncate_outcome (F64 lm) pf rs ds (-100) 0 _ eq_refl eq_refl F G (fun H => ltac:(discriminate)))|]. reflexivity.
Qed.
