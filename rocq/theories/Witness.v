(** Concrete inputs used by the examples that stand beside the theorems: a crude
    math library, a few wav files, and the outcome of complete comparisons of
    them, computed by the kernel. *)
From Flocq Require Import Core IEEE754.BinarySingleNaN.
From Verif Require Import Base Num Mat M_Audio M_Align M_Spectro M_Patch M_Nsim M_Selector M_Visqol F64.

Definition w_add (x y : f64) : f64 := Bplus mode_NE x y.
Definition w_mul (x y : f64) : f64 := Bmult mode_NE x y.
Definition w_log2 (x : f64) : f64 := f64_ofZ (snd (Bfrexp x) - 1).

(** Low order approximations of the elementary functions; the transform is the
    identity (the theorems about f64 hold for every transform). *)
Definition lm_ex : Libm := {|
  lm_exp := fun x => w_add (f64_ofZ 1) (w_add x (w_mul (f64_lit 5 1) (w_mul x x)));
  lm_ln := fun x => w_mul (w_log2 x) (f64_lit 693 3);
  lm_log10 := fun x => w_mul (w_log2 x) (f64_lit 301 3);
  lm_log2 := w_log2;
  lm_sin := fun x => x;
  lm_cos := fun x => Bminus mode_NE (f64_ofZ 1) (w_mul (f64_lit 5 1) (w_mul x x));
  lm_sinh := fun x => x;
  lm_cosh := fun x => f64_ofZ 1;
  lm_powf := fun x y => if Beqb y (f64_ofZ 2) then w_mul x x
                        else if Beqb y (f64_ofZ 4) then w_mul (w_mul x x) (w_mul x x)
                        else if Beqb y (f64_ofZ 1) then x
                        else if Beqb y (f64_lit 15 1) then f64_lit 2828 3 else f64_ofZ 1;
  lm_hypot := fun x y => Bsqrt mode_NE (w_add (w_mul x x) (w_mul y y));
  lm_atan2 := fun x _ => f64_ofZ 0;
  lm_fft := fun _ l => l
|}.

(** Pseudo random 16-bit samples. *)
Definition noise (mul : Z) (n : nat) : list (option Z) :=
  map (fun k => Some ((Z.of_nat k * mul) mod 20011 - 10000)) (seq 0 n).
(** The same with a gap (samples 70 to 100 are zero). *)
Definition gap (n : nat) : list (option Z) :=
  map (fun k => Some (if (70 <=? Z.of_nat k) && (Z.of_nat k <? 100) then 0
                      else (Z.of_nat k * 7919) mod 20011 - 10000)) (seq 0 n).

Definition w_files (path : string) : wav :=
  if String.eqb path "ref.wav" then WavOk 1 100 16 (noise 7919 160)
  else if String.eqb path "deg.wav" then WavOk 1 100 16 (gap 158)
  else if String.eqb path "click.wav" then WavOk 1 100 16 (Some 10000 :: repeat (Some 0) 159)
  else if String.eqb path "other_rate.wav" then WavOk 1 200 16 (noise 7919 160)
  else if String.eqb path "24bit.wav" then WavOk 1 100 24 (noise 7919 160)
  else if String.eqb path "short.wav" then WavOk 1 100 16 (noise 7919 7)
  else if String.eqb path "stereo.wav" then WavOk 2 100 16 (noise 7919 160)
  else if String.eqb path "empty.wav" then WavOk 1 100 16 []
  else WavBad 2.

Definition w_svr : SvrModel (F64 lm_ex) :=
  {| svr_features := 1; svr_value := fun l => hd_error l |}.

Definition w_manager (v : Variant (F64 lm_ex)) : Manager (F64 lm_ex) :=
  match new_manager 1 v 0 with
  | Ok m => m
  | _ => {| mg_search_window := 0; mg_creator := VadPatchCreator 0; mg_mapper := SpeechMapper false;
            mg_filterbank := new_filterbank (N:=F64 lm_ex) 0 (f64_ofZ 0) |}
  end.

(** Score, mean similarity and number of patches of an outcome. *)
Definition w_summary (r : res (SimilarityResult (F64 lm_ex)))
  : option (SpecFloat.spec_float * SpecFloat.spec_float * nat) :=
  match r with
  | Ok r => Some (B2SF (moslqo r : f64), B2SF (vnsim r : f64), List.length (patch_sims r))
  | _ => None
  end.

(** Wideband: mean similarity 0.6325, score 2.078, two patches. *)
Lemma w_run_wideband :
  w_summary (snd (run Debug 1 w_files (w_manager (Wideband false)) "ref.wav" "deg.wav")) =
  Some (SpecFloat.S754_finite false 4678765203245476 (-51),
        SpecFloat.S754_finite false 5697293656853916 (-53), 2%nat).
Proof.
  vm_cast_no_check (@eq_refl (option (SpecFloat.spec_float * SpecFloat.spec_float * nat))
    (Some (SpecFloat.S754_finite false 4678765203245476 (-51),
           SpecFloat.S754_finite false 5697293656853916 (-53), 2%nat))).
Qed.

(** Wideband, almost silent degraded file: mean similarity 0.0999, score 1. *)
Lemma w_run_low :
  w_summary (snd (run Debug 1 w_files (w_manager (Wideband false)) "ref.wav" "click.wav")) =
  Some (SpecFloat.S754_finite false 4503599627370496 (-52),
        SpecFloat.S754_finite false 7198853186850266 (-56), 2%nat).
Proof.
  vm_cast_no_check (@eq_refl (option (SpecFloat.spec_float * SpecFloat.spec_float * nat))
    (Some (SpecFloat.S754_finite false 4503599627370496 (-52),
           SpecFloat.S754_finite false 7198853186850266 (-56), 2%nat))).
Qed.

(** Fullband: three patches. *)
Lemma w_run_fullband :
  w_summary (snd (run Release 1 w_files (w_manager (Fullband (Some w_svr))) "ref.wav" "deg.wav")) =
  Some (SpecFloat.S754_finite false 4503599627370496 (-52),
        SpecFloat.S754_finite false 5618946711905528 (-53), 3%nat).
Proof.
  vm_cast_no_check (@eq_refl (option (SpecFloat.spec_float * SpecFloat.spec_float * nat))
    (Some (SpecFloat.S754_finite false 4503599627370496 (-52),
           SpecFloat.S754_finite false 5618946711905528 (-53), 3%nat))).
Qed.

Lemma w_summary_some (r : Manager (F64 lm_ex) * res (SimilarityResult (F64 lm_ex))) x : w_summary (snd r) = Some x -> exists m' s, r = (m', Ok s) /\
  x = (B2SF (moslqo s : f64), B2SF (vnsim s : f64), List.length (patch_sims s)).
Proof. destruct r as [m' [s| |]]; simpl; try discriminate. intros [= <-]. eauto. Qed.
