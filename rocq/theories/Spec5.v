(** Vocabulary of C59: what kind of outcome a comparison has, from lengths alone.
    [h] is a fiftieth of the sample rate, the hop in samples; a window has 4 hops. *)
From Verif Require Import Base.
Open Scope Z_scope.

Inductive outcome : Type := Succeeds | Fails (e : verr) | Panics.
Definition kind {A} (r : res A) : outcome :=
  match r with Ok _ => Succeeds | Err e => Fails e | Panic _ => Panics end.

(** Number of whole windows of 4 hops, one hop apart, in [n] samples. *)
Definition frames (h n : Z) : Z := (n - 4 * h) / h + 1.

(** [L] samples of reference and [A] samples of aligned degraded recording.
    The patches start at frames 9, 29, 49, ..., and each is followed by two more
    frames; [last] is the last of these starts. *)
Definition fullband_outcome (h ws L A : Z) : outcome :=
  let c := frames h L in
  let d := frames h A in
  let last := 9 + 20 * ((c - 31) / 20) in
  if L <? 4 * h then Fails (TooFewSamples L (4 * h))
  else if A <? 4 * h then Fails (TooFewSamples A (4 * h))
  else if c <? 30 then Fails (ReferenceSpectrogramTooSmall c 10)
  else if c <? 51 then Panics                  (* one patch *)
  else if d <? 19 then Panics                  (* the second patch is out of reach *)
  else if d <? last - 20 * ws then Panics      (* the last search starts past the end *)
  else Succeeds.

(** The same in wideband mode, where [starts] are the starts of the patches with voice
    activity, in order. *)
Definition wideband_outcome (h ws L A : Z) (starts : list Z) : outcome :=
  let c := frames h L in
  let d := frames h A in
  if L <? 4 * h then Fails (TooFewSamples L (4 * h))
  else if A <? 4 * h then Fails (TooFewSamples A (4 * h))
  else if c <? 44 then Panics
  else match starts with
    | _ :: second :: _ =>
      if d <? second - 15 then Panics
      else if d <? List.last starts 0 - 30 * ws then Panics
      else Succeeds
    | _ => Panics
    end.
