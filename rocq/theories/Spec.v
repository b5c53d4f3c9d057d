(** Specifications used in the statements of the properties.  Nothing here is
    taken from the proofs; the only things used from the model are the type of
    results, files and managers. *)
From Coq Require Import Reals.
From Flocq Require Import Core IEEE754.BinarySingleNaN.
From Verif Require Import Base Num F64 RNum M_Audio M_Spectro M_Visqol.
Open Scope R_scope.

(** ** f64 numbers *)

(** 1.0 and 5.0 included; neither NaN nor infinite. *)
Definition f64_in (lo hi : R) (x : f64) : Prop := is_finite x = true /\ lo <= B2R x <= hi.

(** Clamp to 1..5, leaving NaN alone. *)
Definition clamp_1_5 (x : f64) : f64 :=
  if is_nan x then x
  else if Bltb x (f64_ofZ 1) then f64_ofZ 1
  else if Bltb (f64_ofZ 5) x then f64_ofZ 5
  else x.

(** Arithmetic mean as computed in f64: sum from left to right, one division. *)
Definition mean_f64 (v : list f64) : f64 :=
  Bdiv mode_NE (fold_left (Bplus mode_NE) v (f64_ofZ 0)) (f64_ofZ (zlen v)).

(** The fitted curve a + exp(b * (x - x0)), a = 1.1559455, b = 4.6851153,
    x0 = 0.7655232, times 1.2031409 if scaled. *)
Definition speech_curve_f64 (lm : Libm) (scaled : bool) (x : f64) : f64 :=
  Bmult mode_NE
    (Bplus mode_NE (f64_lit 11559455 7)
       (lm_exp lm (Bmult mode_NE (f64_lit 46851153 7) (Bminus mode_NE x (f64_lit 7655232 7)))))
    (if scaled then f64_lit 12031409 7 else f64_ofZ 1).

(** The same curve over the reals. *)
Definition speech_curve (scaled : bool) (x : R) : R :=
  (1.1559455 + exp (4.6851153 * (x - 0.7655232))) * (if scaled then 1.2031409 else 1).

(** A math library whose exp is monotone (in particular never NaN on numbers). *)
Definition monotone_exp (lm : Libm) : Prop :=
  forall x y, Bleb x y = true -> Bleb (lm_exp lm x) (lm_exp lm y) = true.

(** What a variant's mapping gives for a similarity vector, before clamping. *)
Definition mapped_raw (lm : Libm) (v : Variant (F64 lm)) (sims : list f64) (q : f64) : Prop :=
  match v with
  | Wideband unscaled => q = speech_curve_f64 lm (negb unscaled) (mean_f64 sims)
  | Fullband (Some model) => svr_value model sims = Some q
  | Fullband None => False
  end.

(** ** Real numbers *)
Definition mean_R (v : list R) : R := Rsum v / IZR (zlen v).

(** ** Histories of a manager *)

(** A call of run: the state of the file system at that time and the two paths. *)
Definition call : Type := ((string -> wav) * string * string)%type.

(** The manager after a sequence of calls (a call may succeed, fail or panic and
    be caught). *)
Definition after_calls {N} (pf : profile) (nb : nat) (m : Manager N) (calls : list call)
  : Manager N :=
  fold_left (fun m c => fst (run pf nb (fst (fst c)) m (snd (fst c)) (snd c))) calls m.

(** ** Files *)

(** A 16-bit file that can be read to the end and whose samples form whole frames. *)
Definition readable16 (w : wav) (rate : Z) : Prop :=
  exists (channels : Z) (values : list Z),
    w = WavOk channels rate 16 (map Some values) /\
    (1 <= channels)%Z /\ (channels | zlen values)%Z.

(** ** Output of the command line tool *)
From Verif Require Import M_Nsim M_Selector M_Visqol M_Cli.

Section Output.
Context {N : NumOps}.

(** The scores printed, in order. *)
Fixpoint scores_printed (ev : list (event N)) : list (num N) :=
  match ev with
  | [] => []
  | EMos x :: t => x :: scores_printed t
  | _ :: t => scores_printed t
  end.

(** Reference and degraded paths printed (verbose mode), in order. *)
Fixpoint paths_printed (ev : list (event N)) : list string :=
  match ev with
  | [] => []
  | EReference p :: t => p :: paths_printed t
  | EDegraded p :: t => p :: paths_printed t
  | _ :: t => paths_printed t
  end.

(** Contents of a JSON file (a sequence of results) after the events, when it
    held [before]: writing replaces the contents. *)
Definition json_after (path : string) (before : list (SimilarityResult N)) (ev : list (event N))
  : list (SimilarityResult N) :=
  fold_left (fun c e => match e with
                        | EJson p x => if String.eqb p path
                                       then match x with Some r => [r] | None => [] end else c
                        | _ => c
                        end) ev before.

(** Rows of a CSV file after the events. *)
Definition csv_after (path : string) (before : list (list (num N))) (ev : list (event N))
  : list (list (num N)) :=
  fold_left (fun c e => match e with
                        | ECsv p rows => if String.eqb p path then rows else c
                        | _ => c
                        end) ev before.

(** A row of the results file: the numbers of a result one after the other. *)
Definition result_row (r : SimilarityResult N) : list (num N) :=
  moslqo r :: vnsim r :: fvnsim r ++ fstdnsim r ++ fvdegenergy r ++ res_center_freq_bands r ++
  flat_map (fun p => freq_band_means p ++ freq_band_stddevs p ++ freq_band_deg_energy p ++
     [similarity p; ref_patch_start_time p; ref_patch_end_time p;
      deg_patch_start_time p; deg_patch_end_time p]) (patch_sims r).

(** The pairs of a batch file, in order.  The first row does not count; every other row
    has as many fields as the first, at least two, and fields after these are ignored. *)
Definition batch_pairs (rows : list csv_line) (pairs : list (string * string)) : Prop :=
  match rows with
  | [] => pairs = []
  | CsvBad _ :: _ => False
  | header :: lines =>
    Forall2 (fun row p => exists rest, row = CsvRecord (fst p :: snd p :: rest) /\
               columns header = (2 + List.length rest)%nat) lines pairs
  end.

(** The pairs the arguments select. *)
Definition selects (w : World N) (args : CommandLineArgs) (pairs : list (string * string)) : Prop :=
  match reference_file args, degraded_file args with
  | Some r, Some d => pairs = [(r, d)]
  | _, _ => match batch_input_csv args with
            | Some f => exists rows, w_csv w f = Some rows /\ batch_pairs rows pairs
            | None => pairs = []
            end
  end.

(** The number of bands and the mode that go with the subcommand. *)
Definition tool_bands (args : CommandLineArgs) : nat :=
  match subcommand args with CmdWideband _ => 21%nat | CmdFullband _ => 32%nat end.
Definition tool_mode (w : World N) (args : CommandLineArgs) : Variant N :=
  match subcommand args with CmdWideband unscaled => Wideband unscaled | CmdFullband model => Fullband (w_model w model) end.

(** [results] are the outcomes of comparing each pair with a fresh manager. *)
Definition compared (pf : profile) (w : World N) (args : CommandLineArgs) (m : Manager N)
    (pairs : list (string * string)) (results : list (SimilarityResult N)) : Prop :=
  Forall2 (fun p r => snd (run pf (tool_bands args) (w_wav w) m (fst p) (snd p)) = Ok r) pairs results.

(** The manager the tool creates. *)
Definition tool_manager (w : World N) (args : CommandLineArgs) (m : Manager N) : Prop :=
  new_manager (tool_bands args) (tool_mode w args) (search_window_radius args) = Ok m.
End Output.

(** ** Voice activity *)

Definition sum_squares (c : list Z) : Z := fold_right (fun e s => (e * e + s)%Z) 0%Z c.

Definition i16_range (z : Z) : Prop := (- 32768 <= z <= 32767)%Z.

(** The root mean square of integer samples, computed in f64, is below 5000.0. *)
Definition rms_below (c : list Z) : Prop :=
  Bltb (Bsqrt mode_NE (Bdiv mode_NE (f64_ofZ (sum_squares c)) (f64_ofZ (zlen c)))) (f64_ofZ 5000)
  = true.

(** The same in integer arithmetic. *)
Definition quiet (c : list Z) : Prop := (sum_squares c < 25000000 * zlen c)%Z.

(** Chunk number [t] and the two before it are all below the threshold. *)
Definition reported_silent (chunks : list (list Z)) (t : nat) : Prop :=
  (2 <= t)%nat /\ forall k, (t - 2 <= k <= t)%nat ->
    exists c, nth_error chunks k = Some c /\ rms_below c.

(** A sample as 16-bit integer: times 32768, truncated, saturated. *)
Definition sample_i16 (x : f64) : Z :=
  f64_cast (- 32768) 32767 (Bmult mode_NE x (f64_ofZ 32768)).

(** Frame number [t] of [hop] samples, counted from sample [start]. *)
Definition vad_frame (samples : list f64) (start hop : Z) (t : nat) : list Z :=
  map sample_i16 (firstn (Z.to_nat hop) (skipn (Z.to_nat start + t * Z.to_nat hop) samples)).

(** The first [n] frames. *)
Definition vad_frames (samples : list f64) (start hop : Z) (n : nat) : list (list Z) :=
  map (vad_frame samples start hop) (seq 0 n).

(** [m] is a largest of the samples. *)
Definition is_largest (m : f64) (samples : list f64) : Prop :=
  In m samples /\ Forall (fun x => Bleb x m = true) samples.

(** ** Math library *)

(** exp of a number is not NaN; ln of a positive finite number is a number of
    magnitude at most 1000 (the true values are below 746). *)
Definition sane_libm (lm : Libm) : Prop :=
  (forall x, is_finite x = true -> is_nan (lm_exp lm x) = false) /\
  (forall x, is_finite x = true -> 0 < B2R x -> f64_in (-1000) 1000 (lm_ln lm x)).

(** ** Filters *)
Section Filters.
Context {N : NumOps}.

(** The four second-order sections of one band applied one after the other, all
    starting from zero conditions.  [row] is [a0; a11; a12; a13; a14; a2; b0; b1;
    b2; gain]; the gain divides the first section's numerator. *)
Definition cascade (row x : list (num N)) : list (num N) :=
  let c i := nth i row (nofZ N 0) in
  let den := (c 6%nat, c 7%nat, c 8%nat) in
  let zero := (nofZ N 0, nofZ N 0) in
  let g := c 9%nat in
  let y1 := fst (M_Spectro.filter_signal
                   (ndiv N (c 0%nat) g, ndiv N (c 1%nat) g, ndiv N (c 5%nat) g) den x zero) in
  let y2 := fst (M_Spectro.filter_signal (c 0%nat, c 2%nat, c 5%nat) den y1 zero) in
  let y3 := fst (M_Spectro.filter_signal (c 0%nat, c 3%nat, c 5%nat) den y2 zero) in
  fst (M_Spectro.filter_signal (c 0%nat, c 4%nat, c 5%nat) den y3 zero).

(** Frame [j] of a signal: [size] samples from sample [j * hop]. *)
Definition frame (l : list (num N)) (size hop : Z) (j : nat) : list (num N) :=
  firstn (Z.to_nat size) (skipn (Z.to_nat (hop * Z.of_nat j)) l).
End Filters.

(** ** Sizes *)

(** [p] is the least power of two that is at least [n]. *)
Definition is_next_pow2 (p n : Z) : Prop :=
  exists m, (0 <= m)%Z /\ p = (2 ^ m)%Z /\ (n <= p)%Z /\
    forall m', (0 <= m')%Z -> (n <= 2 ^ m')%Z -> (p <= 2 ^ m')%Z.

(** ** Alignment *)

(** A transform that returns as many bins as it is given. *)
Definition fft_keeps_length (N : NumOps) : Prop :=
  forall inverse l, List.length (nfft N inverse l) = List.length l.

(** [part] is a contiguous part of [whole]. *)
Definition part_of {A} (part whole : list A) : Prop :=
  exists before after, whole = before ++ part ++ after.

Section Shift.
Context {N : NumOps}.
(** [l'] is [l] unchanged, without its first [k] samples, or with [k] zeros in
    front; [k] is at most [most]; [lag] is the shift in seconds. *)
Inductive shifted (rate most : Z) (l : list (num N)) : list (num N) -> num N -> Prop :=
| shift_none : shifted rate most l l (nofZ N 0)
| shift_cut k : (1 <= k <= most)%Z -> (k <= zlen l)%Z ->
    shifted rate most l (skipn (Z.to_nat k) l) (ndiv N (nofZ N (- k)) (nofZ N rate))
| shift_pad k : (1 <= k <= most)%Z ->
    shifted rate most l (repeat (nofZ N 0) (Z.to_nat k) ++ l) (ndiv N (nofZ N k) (nofZ N rate)).
End Shift.

(** ** Time slices *)

(** The binary64 number nearest to a real number (ties to even), overflow aside. *)
Definition fl (x : R) : R := round radix2 (FLT_exp (-1074) 53) ZnearestE x.

(** The sample number at time [t]: the product with the rate is rounded, then cut. *)
Definition sample_at (t : f64) (rate : Z) : Z := Ztrunc (fl (B2R t * IZR rate)).

(** [out] is [l] from index [i] to [j] (exclusive), read as zero past its end. *)
Definition window_of {A} (zero : A) (l : list A) (i j : Z) (out : list A) : Prop :=
  zlen out = (j - i)%Z /\
  forall k, (0 <= k < j - i)%Z -> nth_error out (Z.to_nat k) = Some (nth (Z.to_nat (i + k)) l zero).

(** ** Loudness *)
Definition energy (l : list R) : R := Rsum (map (fun x => x * x) l).
Definition rms (l : list R) : R := R_sqrt.sqrt (energy l / IZR (zlen l)).
Definition not_silent (l : list R) : Prop := exists x, In x l /\ x <> 0.

(** What the math library returns at zero and at infinity. *)
Definition libm_limits (lm : Libm) : Prop :=
  (forall s, lm_log10 lm (B754_zero s) = B754_infinity true) /\
  lm_powf lm (f64_ofZ 10) (B754_infinity false) = B754_infinity false /\
  lm_powf lm (f64_ofZ 10) (B754_infinity true) = B754_zero false.

(** The logarithm of a positive finite number is finite. *)
Definition log10_finite (lm : Libm) : Prop :=
  forall x, is_finite x = true -> 0 < B2R x -> is_finite (lm_log10 lm x) = true /\ Rabs (B2R (lm_log10 lm x)) <= 1000.

(** Samples of a usual recording: finite, of magnitude at most 2, and one of them
    of magnitude at least 2^-40. *)
Definition audible (l : list f64) : Prop :=
  Forall (fun x => is_finite x = true /\ Rabs (B2R x) <= 2) l /\
  Exists (fun x => bpow radix2 (-40) <= Rabs (B2R x)) l.
