(** Control and container vocabulary shared by the whole model.

    [res] is the outcome of a Rust computation: a value, an [Err] value returned
    by the function, or a panic.  [usize] values are [Z] in [0, 2^64). *)
From Coq Require Export ZArith List Bool String Lia.
Export ListNotations.
Open Scope Z_scope.

(** Why a computation panicked. *)
Inductive panic : Type :=
| POverflow              (* arithmetic overflow, debug profile *)
| PIndex                 (* slice or index out of bounds *)
| PDivZero               (* integer division by zero *)
| PExpect                (* failed expect / unwrap *)
| PAssert                (* failed assert! *)
| PAlloc                 (* allocation that no machine can satisfy *)
| PShape.                (* ndarray shape mismatch *)

(** Error values: visqol-rs/src/visqol_error.rs:4-36, plus the errors of the
    crates used to read files, which [Box<dyn Error>] also carries. *)
Inductive verr : Type :=
| DifferentSampleRates (reference degraded : Z)
| TooFewSamples (found minimum_required : Z)
| ReferenceSpectrogramTooSmall (spectrogram_length minimum_required : Z)
| SignalsTooDifferent
| FailedToAlignSignals
| FailedToComputeVad
| InvalidBitsPerSample (bits_per_sample : Z)
| WavError (code : Z)    (* error value produced by hound when opening the file *)
| CsvError (code : Z).   (* error value produced by the csv reader *)

Inductive res (A : Type) : Type :=
| Ok (a : A)
| Err (e : verr)
| Panic (p : panic).
Arguments Ok {A} a.
Arguments Err {A} e.
Arguments Panic {A} p.

Definition bind {A B} (x : res A) (f : A -> res B) : res B :=
  match x with Ok a => f a | Err e => Err e | Panic p => Panic p end.

Notation "'do' x <- e ; k" := (bind e (fun x => k))
  (at level 200, x pattern, e at level 100, k at level 200, right associativity).

Definition is_panic {A} (r : res A) : Prop := exists p, r = Panic p.

(** Build profile: overflow checks on (debug) or off (release). *)
Inductive profile := Debug | Release.

Definition usize_mod : Z := 2 ^ 64.

(** [a - b] on usize. *)
Definition usub (pf : profile) (a b : Z) : res Z :=
  if b <=? a then Ok (a - b)
  else match pf with
       | Debug => Panic POverflow
       | Release => Ok (a - b + usize_mod)
       end.

(** [a + b] on usize. *)
Definition uadd (pf : profile) (a b : Z) : res Z :=
  if a + b <? usize_mod then Ok (a + b)
  else match pf with
       | Debug => Panic POverflow
       | Release => Ok ((a + b) mod usize_mod)
       end.

(** [a * b] on usize. *)
Definition umul (pf : profile) (a b : Z) : res Z :=
  if a * b <? usize_mod then Ok (a * b)
  else match pf with
       | Debug => Panic POverflow
       | Release => Ok ((a * b) mod usize_mod)
       end.

(** [a / b] on usize. *)
Definition udiv (a b : Z) : res Z :=
  if b =? 0 then Panic PDivZero else Ok (a / b).

(** [Vec::with_capacity(n)] for 8-byte elements.  A request above 2^47 bytes (the
    user address space of the supported platforms) aborts the process. *)
Definition alloc8 (n : Z) : res unit :=
  if 8 * n <=? 2 ^ 47 then Ok tt else Panic PAlloc.

(** Rust's [as] casts between integers: reduction to the target width. *)
Definition wrap_i32 (z : Z) : Z := (z + 2 ^ 31) mod 2 ^ 32 - 2 ^ 31.
Definition wrap_i16 (z : Z) : Z := (z + 2 ^ 15) mod 2 ^ 16 - 2 ^ 15.

(** i32 arithmetic: overflow panics in debug and wraps in release. *)
Definition i32_op (pf : profile) (z : Z) : res Z :=
  if (- 2 ^ 31 <=? z) && (z <? 2 ^ 31) then Ok z
  else match pf with
       | Debug => Panic POverflow
       | Release => Ok (wrap_i32 z)
       end.

Definition zlen {A} (l : list A) : Z := Z.of_nat (List.length l).

(** [l[i]] with bounds check. *)
Definition zget {A} (l : list A) (i : Z) : res A :=
  if i <? 0 then Panic PIndex
  else match nth_error l (Z.to_nat i) with
       | Some a => Ok a
       | None => Panic PIndex
       end.

(** [&l[a..b]] with bounds check. *)
Definition zslice {A} (l : list A) (a b : Z) : res (list A) :=
  if (0 <=? a) && (a <=? b) && (b <=? zlen l)
  then Ok (firstn (Z.to_nat (b - a)) (skipn (Z.to_nat a) l))
  else Panic PIndex.

(** [a, a+1, ..., b-1]. *)
Definition zrange (a b : Z) : list Z :=
  map (fun k => a + Z.of_nat k) (seq 0 (Z.to_nat (b - a))).

(** [vec.resize(n, x)]. *)
Definition resize {A} (l : list A) (n : Z) (x : A) : list A :=
  firstn (Z.to_nat n) l ++ repeat x (Z.to_nat n - List.length l).

(** Overwrite position [i]; out of range leaves the list unchanged (callers check bounds). *)
Fixpoint upd {A} (l : list A) (i : nat) (x : A) : list A :=
  match l, i with
  | [], _ => []
  | _ :: t, O => x :: t
  | h :: t, S k => h :: upd t k x
  end.

(** [l[i] = x] with bounds check. *)
Definition zset {A} (l : list A) (i : Z) (x : A) : res (list A) :=
  if (0 <=? i) && (i <? zlen l) then Ok (upd l (Z.to_nat i) x) else Panic PIndex.

(** Loop with early exit on the first error or panic, collecting results in order. *)
Fixpoint mapM {A B} (f : A -> res B) (l : list A) : res (list B) :=
  match l with
  | [] => Ok []
  | a :: t => do b <- f a; do bs <- mapM f t; Ok (b :: bs)
  end.

Fixpoint foldM {A S} (f : S -> A -> res S) (s : S) (l : list A) : res S :=
  match l with
  | [] => Ok s
  | a :: t => do s' <- f s a; foldM f s' t
  end.
