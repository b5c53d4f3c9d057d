(** Two-dimensional arrays (ndarray::Array2<f64>) as a record of dimensions and
    row lists, with the operations the code uses. *)
From Verif Require Import Base Num.

Section Mat.
Context {N : NumOps}.
Open Scope num_scope.
Notation T := (num N).

(** Invariant [mat_wf]: [mdata] has [mrows] rows of length [mcols]. *)
Record mat : Type := { mrows : nat; mcols : nat; mdata : list (list T) }.

Definition mat_wf (m : mat) : Prop :=
  List.length (mdata m) = mrows m /\ Forall (fun r => List.length r = mcols m) (mdata m).

(** Array2 built entry by entry. *)
Definition mbuild (r c : nat) (f : nat -> nat -> T) : mat :=
  {| mrows := r; mcols := c;
     mdata := map (fun i => map (f i) (seq 0 c)) (seq 0 r) |}.

(** [m[(i, j)]]; only used at positions inside the array. *)
Definition mget (m : mat) (i j : nat) : T := nth j (nth i (mdata m) []) #0.

Definition mrow (m : mat) (i : nat) : list T := nth i (mdata m) [].
Definition mcol (m : mat) (j : nat) : list T := map (fun i => mget m i j) (seq 0 (mrows m)).

(** mapv: apply a function to every entry. *)
Definition mmap (f : T -> T) (m : mat) : mat :=
  mbuild (mrows m) (mcols m) (fun i j => f (mget m i j)).

(** Elementwise binary operation on two arrays.  ndarray panics if the shapes
    cannot be broadcast together; broadcasting of length-one axes is not
    modelled (any difference in shape is a panic). *)
Definition mzip (f : T -> T -> T) (a b : mat) : res mat :=
  if (Nat.eqb (mrows a) (mrows b)) && (Nat.eqb (mcols a) (mcols b))
  then Ok (mbuild (mrows a) (mcols a) (fun i j => f (mget a i j) (mget b i j)))
  else Panic PShape.

(** [m.slice(s![.., a..b])]: panics unless a <= b <= ncols. *)
Definition mslice_cols (m : mat) (a b : Z) : res mat :=
  if (0 <=? a)%Z && (a <=? b)%Z && (b <=? Z.of_nat (mcols m))%Z
  then Ok (mbuild (mrows m) (Z.to_nat (b - a))
             (fun i j => mget m i (Z.to_nat a + j)))
  else Panic PIndex.

(** All entries in row-major order. *)
Definition mflat (m : mat) : list T := List.concat (mdata m).

(** [m.mean_axis(Axis(1))] for an array in row-major memory layout: each row is
    summed with the unrolled sum.  [None] if there are no columns. *)
Definition mean_axis1_c (m : mat) : option (list T) :=
  if Nat.eqb (mcols m) 0 then None
  else Some (map (fun r => nd_sum r [/] # (Z.of_nat (mcols m))) (mdata m)).

(** [m.mean_axis(Axis(1))] for an array in column-major memory layout: the
    columns are added one after the other. *)
Definition mean_axis1_f (m : mat) : option (list T) :=
  if Nat.eqb (mcols m) 0 then None
  else Some (map (fun r => seq_sum r [/] # (Z.of_nat (mcols m))) (mdata m)).

(** One row of ndarray's var_axis (Welford's recurrence): running count, mean
    and sum of squares. *)
Fixpoint welford (k : Z) (mean sumsq : T) (l : list T) : T :=
  match l with
  | [] => sumsq
  | x :: t =>
    let delta := x [-] mean in
    let mean' := mean [+] delta [/] # k in
    let sumsq' := nfma N (x [-] mean') delta sumsq in
    welford (k + 1) mean' sumsq' t
  end.

(** [m.std_axis(Axis(1), 1.0)]: asserts that ddof = 1.0 is not larger than the
    number of columns. *)
Definition std_axis1 (m : mat) : res (list T) :=
  if Nat.eqb (mcols m) 0 then Panic PAssert
  else Ok (map (fun r => nsqrt N (welford 1 #0 #0 r
                                  [/] (# (Z.of_nat (mcols m)) [-] #1))) (mdata m)).
End Mat.

Arguments mat N : clear implicits.
