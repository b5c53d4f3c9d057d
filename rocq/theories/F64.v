(** The binary64 instance of [NumOps]: IEEE-754 double precision with round to
    nearest even (Flocq).  The functions of the C math library and the FFT are
    fields of a record, over which theorems quantify. *)
From Flocq Require Import Core IEEE754.BinarySingleNaN.
From Verif Require Import Base Num.

Definition f64 : Type := binary_float 53 1024.
#[global] Instance Hprec : Prec_gt_0 53 := eq_refl.
#[global] Instance Hemax : Prec_lt_emax 53 1024 := eq_refl.

(** Functions whose results the code takes from libm, and the FFT (rustfft). *)
Record Libm : Type := {
  lm_exp : f64 -> f64;
  lm_ln : f64 -> f64;
  lm_log10 : f64 -> f64;
  lm_log2 : f64 -> f64;
  lm_sin : f64 -> f64;
  lm_cos : f64 -> f64;
  lm_sinh : f64 -> f64;
  lm_cosh : f64 -> f64;
  lm_powf : f64 -> f64 -> f64;
  lm_hypot : f64 -> f64 -> f64;
  lm_atan2 : f64 -> f64 -> f64;
  lm_fft : bool -> list (f64 * f64) -> list (f64 * f64)
}.

Definition f64_ofZ (z : Z) : f64 := binary_normalize 53 1024 _ _ mode_NE z 0 false.

(** m * 10^-k: the quotient of two integers; correctly rounded when both are
    exactly representable, which holds for every literal used in the model. *)
Definition f64_lit (m k : Z) : f64 := Bdiv mode_NE (f64_ofZ m) (f64_ofZ (10 ^ k)).

(** Rust's saturating cast to an integer range. *)
Definition f64_cast (lo hi : Z) (x : f64) : Z :=
  match x with
  | B754_nan => 0
  | B754_infinity true => lo
  | B754_infinity false => hi
  | _ => Z.max lo (Z.min hi (Btrunc x))
  end.

Definition f64_min_value : f64 := binary_normalize 53 1024 _ _ mode_NE (- (2 ^ 53 - 1)) 971 false.
Definition f64_epsilon : f64 := binary_normalize 53 1024 _ _ mode_NE 1 (-52) false.
Definition f64_pi : f64 := binary_normalize 53 1024 _ _ mode_NE 884279719003555 (-48) false.

Definition F64 (lm : Libm) : NumOps := {|
  num := f64;
  nofZ := f64_ofZ;
  nlit := f64_lit;
  nadd := Bplus mode_NE;
  nsub := Bminus mode_NE;
  nmul := Bmult mode_NE;
  ndiv := Bdiv mode_NE;
  nfma := Bfma mode_NE;
  nneg := Bopp;
  nabs := Babs;
  nsqrt := Bsqrt mode_NE;
  nltb := Bltb;
  nleb := Bleb;
  neqb := Beqb;
  nroundZ := Bnearbyint mode_NA;
  nceil := Bnearbyint mode_UP;
  nfloor := Bnearbyint mode_DN;
  ncast := f64_cast;
  nmin_value := f64_min_value;
  nepsilon := f64_epsilon;
  npi := f64_pi;
  nexp := lm_exp lm;
  nln := lm_ln lm;
  nlog10 := lm_log10 lm;
  nlog2 := lm_log2 lm;
  nsin := lm_sin lm;
  ncos := lm_cos lm;
  nsinh := lm_sinh lm;
  ncosh := lm_cosh lm;
  npowf := lm_powf lm;
  nhypot := lm_hypot lm;
  natan2 := lm_atan2 lm;
  nfft := lm_fft lm
|}.

(** A concrete math library, used only in examples: every function is the
    identity on its (first) argument. *)
Definition lm_id : Libm := {|
  lm_exp := fun x => x; lm_ln := fun x => x; lm_log10 := fun x => x; lm_log2 := fun x => x;
  lm_sin := fun x => x; lm_cos := fun x => x; lm_sinh := fun x => x; lm_cosh := fun x => x;
  lm_powf := fun x _ => x; lm_hypot := fun x _ => x; lm_atan2 := fun x _ => x;
  lm_fft := fun _ l => l
|}.
