(** The numeric platform the code runs on, as a record of operations.

    [num] is the type the Rust code calls [f64].  Two instances are used:
    binary64 floating point ([F64.v]) and exact real arithmetic ([RNum.v]). *)
From Verif Require Import Base.

Record NumOps : Type := {
  num : Type;
  nofZ : Z -> num;                     (* integer [as f64] *)
  nlit : Z -> Z -> num;                (* decimal literal m * 10^-k, k >= 0 *)
  nadd : num -> num -> num;
  nsub : num -> num -> num;
  nmul : num -> num -> num;
  ndiv : num -> num -> num;
  nfma : num -> num -> num -> num;     (* x.mul_add(y, z) = x * y + z, rounded once *)
  nneg : num -> num;
  nabs : num -> num;
  nsqrt : num -> num;
  nltb : num -> num -> bool;           (* x < y  (false if a NaN is involved) *)
  nleb : num -> num -> bool;           (* x <= y (false if a NaN is involved) *)
  neqb : num -> num -> bool;           (* x == y (false if a NaN is involved) *)
  nroundZ : num -> num;                (* f64::round, half away from zero *)
  nceil : num -> num;
  nfloor : num -> num;
  ncast : Z -> Z -> num -> Z;          (* saturating [as] cast into lo..=hi, NaN to 0 *)
  nmin_value : num;                    (* f64::MIN *)
  nepsilon : num;                      (* f64::EPSILON *)
  npi : num;                           (* std::f64::consts::PI *)
  nexp : num -> num;
  nln : num -> num;
  nlog10 : num -> num;
  nlog2 : num -> num;
  nsin : num -> num;
  ncos : num -> num;
  nsinh : num -> num;
  ncosh : num -> num;
  npowf : num -> num -> num;
  nhypot : num -> num -> num;
  natan2 : num -> num -> num;
  nfft : bool -> list (num * num) -> list (num * num)
                                       (* rustfft; [true] is the inverse transform, unscaled *)
}.

Declare Scope num_scope.
Delimit Scope num_scope with num.
Notation "x [+] y" := (nadd _ x y) (at level 50, left associativity) : num_scope.
Notation "x [-] y" := (nsub _ x y) (at level 50, left associativity) : num_scope.
Notation "x [*] y" := (nmul _ x y) (at level 40, left associativity) : num_scope.
Notation "x [/] y" := (ndiv _ x y) (at level 40, left associativity) : num_scope.
Notation "x [<] y" := (nltb _ x y) (at level 70, no associativity) : num_scope.
Notation "x [<=] y" := (nleb _ x y) (at level 70, no associativity) : num_scope.
Notation "x [==] y" := (neqb _ x y) (at level 70, no associativity) : num_scope.
Notation "# z" := (nofZ _ z) (at level 1, format "# z") : num_scope.

Section Derived.
Context {N : NumOps}.
Open Scope num_scope.
Notation T := (num N).

Definition nis_nan (x : T) : bool := negb (x [==] x).

(** f64::max / f64::min: a NaN operand is ignored. *)
Definition nmax (x y : T) : T :=
  if nis_nan x then y else if nis_nan y then x else if x [<] y then y else x.
Definition nmin (x y : T) : T :=
  if nis_nan x then y else if nis_nan y then x else if y [<] x then y else x.

(** f64::clamp with lo <= hi: a NaN stays NaN. *)
Definition nclamp (x lo hi : T) : T :=
  let x1 := if x [<] lo then lo else x in
  if hi [<] x1 then hi else x1.

(** f64::partial_cmp. *)
Definition ncmp (x y : T) : option comparison :=
  if x [<] y then Some Lt else if y [<] x then Some Gt
  else if x [==] y then Some Eq else None.

Definition as_usize (x : T) : Z := ncast N 0 (2 ^ 64 - 1) x.
Definition as_i16 (x : T) : Z := ncast N (- 2 ^ 15) (2 ^ 15 - 1) x.
Definition as_i32 (x : T) : Z := ncast N (- 2 ^ 31) (2 ^ 31 - 1) x.

(** Iterator::sum on f64: sequential. *)
Definition seq_sum (l : list T) : T := fold_left (nadd N) l #0.

(** ndarray 0.16 numeric_util::unrolled_fold, used by Array::sum on contiguous
    data: eight partial sums, combined pairwise, then the remaining (fewer than
    eight) elements one after the other. *)
Fixpoint unroll8 (fuel : nat) (p : T*T*T*T*T*T*T*T) (l : list T) {struct fuel}
  : T*T*T*T*T*T*T*T * list T :=
  match fuel with
  | O => (p, l)
  | S f =>
    match l with
    | x0::x1::x2::x3::x4::x5::x6::x7::t =>
      let '(p0,p1,p2,p3,p4,p5,p6,p7) := p in
      unroll8 f (p0[+]x0, p1[+]x1, p2[+]x2, p3[+]x3, p4[+]x4, p5[+]x5, p6[+]x6, p7[+]x7) t
    | _ => (p, l)
    end
  end.

Definition nd_sum (l : list T) : T :=
  let '((p0,p1,p2,p3,p4,p5,p6,p7), rest) :=
    unroll8 (List.length l) (#0,#0,#0,#0,#0,#0,#0,#0) l in
  let acc := #0 [+] (p0 [+] p4) [+] (p1 [+] p5) [+] (p2 [+] p6) [+] (p3 [+] p7) in
  fold_left (nadd N) rest acc.

(** ArrayBase::mean: None for an empty array. *)
Definition nd_mean (l : list T) : option T :=
  match l with
  | [] => None
  | _ => Some (nd_sum l [/] # (zlen l))
  end.

(** ndarray-stats QuantileExt::max / min on f64: an error (here [None]) for an
    empty array or if a NaN makes the order undefined. *)
Fixpoint nd_max_from (acc : T) (l : list T) : option T :=
  match l with
  | [] => Some acc
  | x :: t => match ncmp x acc with
              | None => None
              | Some Gt => nd_max_from x t
              | Some _ => nd_max_from acc t
              end
  end.
Definition nd_max (l : list T) : option T :=
  match l with [] => None | x :: _ => nd_max_from x l end.

Fixpoint nd_min_from (acc : T) (l : list T) : option T :=
  match l with
  | [] => Some acc
  | x :: t => match ncmp x acc with
              | None => None
              | Some Lt => nd_min_from x t
              | Some _ => nd_min_from acc t
              end
  end.
Definition nd_min (l : list T) : option T :=
  match l with [] => None | x :: _ => nd_min_from x l end.

(** num_complex::Complex<f64>. *)
Definition cplx : Type := (T * T)%type.
Definition cadd (a b : cplx) : cplx := (fst a [+] fst b, snd a [+] snd b).
Definition csub (a b : cplx) : cplx := (fst a [-] fst b, snd a [-] snd b).
Definition cmul (a b : cplx) : cplx :=
  (fst a [*] fst b [-] snd a [*] snd b, fst a [*] snd b [+] snd a [*] fst b).
Definition cdiv (a b : cplx) : cplx :=
  let n := fst b [*] fst b [+] snd b [*] snd b in
  ((fst a [*] fst b [+] snd a [*] snd b) [/] n,
   (snd a [*] fst b [-] fst a [*] snd b) [/] n).
Definition cneg (a : cplx) : cplx := (nneg N (fst a), nneg N (snd a)).
Definition cconj (a : cplx) : cplx := (fst a, nneg N (snd a)).
Definition cnorm (a : cplx) : T := nhypot N (fst a) (snd a).
(** complex op real, and real op complex *)
Definition cscale (a : cplx) (s : T) : cplx := (fst a [*] s, snd a [*] s).
Definition rscale (s : T) (a : cplx) : cplx := (s [*] fst a, s [*] snd a).
Definition cdivr (a : cplx) (s : T) : cplx := (fst a [/] s, snd a [/] s).
Definition rdivc (s : T) (a : cplx) : cplx :=
  let n := fst a [*] fst a [+] snd a [*] snd a in
  (s [*] fst a [/] n, nneg N s [*] snd a [/] n).
Definition caddr (a : cplx) (s : T) : cplx := (fst a [+] s, snd a).
Definition raddc (s : T) (a : cplx) : cplx := (s [+] fst a, snd a).
Definition csubr (a : cplx) (s : T) : cplx := (fst a [-] s, snd a).
(** num_complex 0.4: Complex::exp, cos, sin, powf (finite arguments) *)
Definition from_polar (r theta : T) : cplx := (r [*] ncos N theta, r [*] nsin N theta).
Definition cexp (a : cplx) : cplx := from_polar (nexp N (fst a)) (snd a).
Definition ccos (a : cplx) : cplx :=
  (ncos N (fst a) [*] ncosh N (snd a), nneg N (nsin N (fst a)) [*] nsinh N (snd a)).
Definition csin (a : cplx) : cplx :=
  (nsin N (fst a) [*] ncosh N (snd a), ncos N (fst a) [*] nsinh N (snd a)).
Definition cpowf (a : cplx) (e : T) : cplx :=
  if e [==] #0 then (#1, #0)
  else from_polar (npowf N (cnorm a) e) (natan2 N (snd a) (fst a) [*] e).
End Derived.
Arguments cplx N : clear implicits.
