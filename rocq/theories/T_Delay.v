(** C55: delays and the global alignment, in exact arithmetic. *)
From Coq Require Import Reals Lra Lia.
From Verif Require Import Base Num RNum M_Audio M_Align P_R Spec3 P_Xcorr P_Delay P_DelayT.
Open Scope R_scope.

(** A delay is found exactly and undone.  Let one recording be the samples [y] followed
    by [k] zeros and the other [k] zeros followed by [y], [k] at most half of the total
    length [L].  Assume that [y] has neither an offset nor a component at half the sample
    rate (sum and alternating sum are zero), that the transform has an even size, that no
    sample is strictly between 0 and 1e-6, and that one has a magnitude of at least 2e-6
    times the root of [L].  Then the alignment cuts the [k] zeros off a late degraded
    recording and puts [k] zeros in front of an early one, and reports minus or plus [k]
    samples as lag. *)
Theorem C55_delay_is_undone : forall pf (y : list R) (k : nat) L f v rate,
  (9 <= L <= 2 ^ 62)%Z -> next_pow_two pf L = Ok f -> Z.even (Z.max f 32) = true ->
  (zlen y + Z.of_nat k = L)%Z -> (1 <= Z.of_nat k <= L / 2)%Z ->
  Rsum y = 0 -> alternating y = 0 -> Forall (fun x => x <= 0 \/ 1 / 1000000 <= x) y ->
  In v y -> 1 / 500000 * R_sqrt.sqrt (IZR L) <= Rabs v ->
  let early := @Build_AudioSignal RN (y ++ repeat 0 k) rate in
  let late := @Build_AudioSignal RN (repeat 0 k ++ y) rate in
  globally_align pf early late = Ok (Some (@Build_AudioSignal RN y rate, - INR k / IZR rate)) /\
  globally_align pf late early =
    Ok (Some (@Build_AudioSignal RN (repeat 0 k ++ y ++ repeat 0 k) rate, INR k / IZR rate)).
Proof. exact C55_any. Qed.
Print Assumptions C55_delay_is_undone.

Example C55_example : forall pf, exists (y : list R) (k : nat) v,
  next_pow_two pf 700 = Ok 1024%Z /\ (zlen y + Z.of_nat k = 700)%Z /\ (1 <= Z.of_nat k <= 700 / 2)%Z /\
  Rsum y = 0 /\ alternating y = 0 /\ Forall (fun x => x <= 0 \/ 1 / 1000000 <= x) y /\
  In v y /\ 1 / 500000 * R_sqrt.sqrt (IZR 700) <= Rabs v.
Proof. exact C55_ex. Qed.

(** If [L] is a power of two the alternating sum does not matter. *)
Theorem C55_power_of_two : forall pf (y : list R) (k : nat) m v rate,
  (5 <= m <= 62)%Z -> (zlen y + Z.of_nat k = 2 ^ m)%Z -> (1 <= Z.of_nat k <= 2 ^ m / 2)%Z ->
  Rsum y = 0 -> Forall (fun x => x <= 0 \/ 1 / 1000000 <= x) y ->
  In v y -> 1 / 500000 * R_sqrt.sqrt (IZR (2 ^ m)) <= Rabs v ->
  let early := @Build_AudioSignal RN (y ++ repeat 0 k) rate in
  let late := @Build_AudioSignal RN (repeat 0 k ++ y) rate in
  globally_align pf early late = Ok (Some (@Build_AudioSignal RN y rate, - INR k / IZR rate)) /\
  globally_align pf late early =
    Ok (Some (@Build_AudioSignal RN (repeat 0 k ++ y ++ repeat 0 k) rate, INR k / IZR rate)).
Proof. exact C55_pow2. Qed.
Print Assumptions C55_power_of_two.

Example C55_power_of_two_example : exists (y : list R) (k : nat) v,
  (zlen y + Z.of_nat k = 2 ^ 5)%Z /\ (1 <= Z.of_nat k <= 2 ^ 5 / 2)%Z /\
  Rsum y = 0 /\ Forall (fun x => x <= 0 \/ 1 / 1000000 <= x) y /\
  In v y /\ 1 / 500000 * R_sqrt.sqrt (IZR (2 ^ 5)) <= Rabs v.
Proof. exact C55_ex2. Qed.

(** Without the hypothesis on the sum this is false: a constant offset hides the delay. *)
Theorem C55_offset_refuted : exists (y : list R) (k : nat) v,
  (zlen y + Z.of_nat k = 2 ^ 5)%Z /\ (1 <= Z.of_nat k <= 2 ^ 5 / 2)%Z /\
  Forall (fun x => x <= 0 \/ 1 / 1000000 <= x) y /\
  In v y /\ 1 / 500000 * R_sqrt.sqrt (IZR (2 ^ 5)) <= Rabs v /\
  forall pf rate, rate <> 0%Z -> exists al lag,
    globally_align pf (@Build_AudioSignal RN (y ++ repeat 0 k) rate)
      (@Build_AudioSignal RN (repeat 0 k ++ y) rate) = Ok (Some (al, lag)) /\
    lag <> - INR k / IZR rate.
Proof. exact C55_refuted. Qed.
Print Assumptions C55_offset_refuted.
