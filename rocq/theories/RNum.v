(** The exact instance of [NumOps]: real numbers, exact functions, exact discrete
    Fourier transform.  There is no NaN and no infinity. *)
From Coq Require Import Reals.
From Flocq Require Import Core.
From Verif Require Import Base Num.
Open Scope R_scope.

Definition Rltb (x y : R) : bool := if Rlt_dec x y then true else false.
Definition Rleb (x y : R) : bool := if Rle_dec x y then true else false.
Definition Reqb (x y : R) : bool := if Req_EM_T x y then true else false.

(** Round half away from zero. *)
Definition Rround (x : R) : Z :=
  if Rle_dec 0 x then Zfloor (x + / 2) else Zceil (x - / 2).

Definition Ratan2 (y x : R) : R :=
  if Rlt_dec 0 x then atan (y / x)
  else if Rlt_dec x 0 then (if Rle_dec 0 y then atan (y / x) + PI else atan (y / x) - PI)
  else if Rlt_dec 0 y then PI / 2 else if Rlt_dec y 0 then - (PI / 2) else 0.

(** x^y for x >= 0 (0^y = 0 for y <> 0). *)
Definition Rpowf (x y : R) : R :=
  if Req_EM_T x 0 then (if Req_EM_T y 0 then 1 else 0) else Rpower x y.

Definition Rsum (l : list R) : R := fold_right Rplus 0 l.

(** exp(i * theta) as a pair. *)
Definition cis (theta : R) : R * R := (cos theta, sin theta).
Definition Cmul (a b : R * R) : R * R :=
  (fst a * fst b - snd a * snd b, fst a * snd b + snd a * fst b).
Definition Csum (l : list (R * R)) : R * R := (Rsum (map fst l), Rsum (map snd l)).

(** DFT of length n = length l: X_k = sum_j x_j exp(-+ 2 pi i j k / n). *)
Definition dft_term (inverse : bool) (n k j : nat) (x : R * R) : R * R :=
  let th := 2 * PI * INR (j * k) / INR n in
  Cmul x (cis (if inverse then th else - th)).
Definition dft (inverse : bool) (l : list (R * R)) : list (R * R) :=
  let n := List.length l in
  map (fun k => Csum (map (fun jx => dft_term inverse n k (fst jx) (snd jx))
                          (combine (seq 0 n) l)))
      (seq 0 n).

Definition Rlog (b x : R) : R := ln x / ln b.

Definition RN : NumOps := {|
  num := R;
  nofZ := IZR;
  nlit := fun m k => IZR m / IZR (10 ^ k);
  nadd := Rplus;
  nsub := Rminus;
  nmul := Rmult;
  ndiv := Rdiv;
  nfma := fun x y z => x * y + z;
  nneg := Ropp;
  nabs := Rabs;
  nsqrt := R_sqrt.sqrt;
  nltb := Rltb;
  nleb := Rleb;
  neqb := Reqb;
  nroundZ := fun x => IZR (Rround x);
  nceil := fun x => IZR (Zceil x);
  nfloor := fun x => IZR (Zfloor x);
  ncast := fun lo hi x => Z.max lo (Z.min hi (Ztrunc x));
  nmin_value := - (IZR (2 ^ 53 - 1) * bpow radix2 971);
  nepsilon := bpow radix2 (-52);
  npi := PI;
  nexp := exp;
  nln := ln;
  nlog10 := Rlog 10;
  nlog2 := Rlog 2;
  nsin := sin;
  ncos := cos;
  nsinh := sinh;
  ncosh := cosh;
  npowf := Rpowf;
  nhypot := fun x y => R_sqrt.sqrt (x * x + y * y);
  natan2 := Ratan2;
  nfft := dft
|}.
