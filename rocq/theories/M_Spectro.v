(** Model of signal_filter.rs, equivalent_rectangular_bandwidth.rs,
    gammatone_filterbank.rs, gammatone_spectrogram_builder.rs, spectrogram.rs and
    the spectrogram part of audio_utils.rs. *)
From Verif Require Import Base Num Mat M_Audio.

Section Spectro.
Context {N : NumOps}.
Open Scope num_scope.
Notation T := (num N).

(** ** signal_filter.rs *)

(** signal_filter.rs:13-37: direct form II transposed biquad.  [nc], [dc] are the
    three numerator and denominator coefficients (dc[0] is not used), [c0], [c1]
    the filter conditions.  Result: output and final conditions. *)
Definition coeff3 : Type := (T * T * T)%type.

Fixpoint filter_signal (nc dc : coeff3) (signal : list T) (cond : T * T)
  : list T * (T * T) :=
  match signal with
  | [] => ([], cond)
  | x :: t =>
    let '(n0, n1, n2) := nc in
    let '(_, d1, d2) := dc in
    let '(c0, c1) := cond in
    let y := n0 [*] x [+] c0 in
    let c0' := n1 [*] x [+] c1 [-] d1 [*] y in
    let c1' := n2 [*] x [-] d2 [*] y in
    let '(ys, cf) := filter_signal nc dc t (c0', c1') in
    (y :: ys, cf)
  end.

(** ** equivalent_rectangular_bandwidth.rs *)

(** equivalent_rectangular_bandwidth.rs:9-11 *)
Definition EAR_Q : T := nlit N 926449 5.
Definition MIN_BW : T := nlit N 247 1.
Definition ERB_ORDER : T := #1.

(** equivalent_rectangular_bandwidth.rs:211-228 *)
Definition calculate_uniform_center_freqs (nb : nat) (low high : T) : list T :=
  let a := nneg N (EAR_Q [*] MIN_BW) in
  let b := nneg N (nln N (high [+] EAR_Q [*] MIN_BW)) in
  let c := nln N (low [+] EAR_Q [*] MIN_BW) in
  let d := high [+] EAR_Q [*] MIN_BW in
  let e := (b [+] c) [/] # (Z.of_nat nb) in
  map (fun i => a [+] nexp N ((# (Z.of_nat i) [+] #1) [*] e) [*] d) (seq 0 nb).

(** equivalent_rectangular_bandwidth.rs:30-204, for one band: the row
    [A0; A11; A12; A13; A14; A2; B0; B1; B2; gain] of the coefficient matrix for
    the centre frequency [cf0] (the code runs each stage over all bands; bands do
    not interact). *)
Definition erb_row (sample_rate : Z) (cf0 : T) : list T :=
  let cf : cplx N := (cf0, #0) in
  let pi := npi N in
  (* lines 33-37 *)
  let erb := cpowf (caddr (cpowf (cdivr cf EAR_Q) ERB_ORDER) (npowf N MIN_BW ERB_ORDER))
                   (#1 [/] ERB_ORDER) in
  let B := rscale (nlit N 1019 3 [*] #2 [*] pi) erb in
  (* line 38 *)
  let t := #1 [/] # sample_rate in
  (* lines 42-44 *)
  let exp_bt := cexp (cscale B t) in
  (* lines 46-49 *)
  let B1 := cdiv (rscale (nneg N #2) (ccos (cscale (cscale (rscale #2 cf) pi) t))) exp_bt in
  (* lines 52-54 *)
  let B2 := cexp (cscale (cscale B t) (nneg N #2)) in
  (* lines 57-71 *)
  let w := cscale (cscale (cscale cf #2) pi) t in
  let b1 := cscale (csin w) t in
  let p15 := npowf N #2 (nlit N 15 1) in
  let bPos := cscale (cscale b1 #2) (nsqrt N (#3 [+] p15)) in
  let bNeg := cscale (cscale b1 #2) (nsqrt N (#3 [+] nneg N p15)) in
  let a := cscale (cscale (ccos w) #2) t in
  (* lines 73-91 *)
  let A11 := cdivr (cneg (cadd (cdiv a exp_bt) (cdiv bPos exp_bt))) #2 in
  let A12 := cdivr (cneg (csub (cdiv a exp_bt) (cdiv bPos exp_bt))) #2 in
  let A13 := cdivr (cneg (cadd (cdiv a exp_bt) (cdiv bNeg exp_bt))) #2 in
  let A14 := cdivr (cneg (csub (cdiv a exp_bt) (cdiv bNeg exp_bt))) #2 in
  (* lines 94-100 *)
  let i : cplx N := (#0, #1) in
  let p1 := npowf N #2 (#3 [/] #2) in
  let s1 := nsqrt N (#3 [-] p1) in
  let s2 := nsqrt N (#3 [+] p1) in
  let xExp := cexp (cscale (cscale (cmul (rscale #4 i) cf) pi) t) in
  (* lines 102-116 *)
  let x01 := cscale (rscale (nneg N #2) xExp) t in
  let x02 := cscale (rscale #2 (cexp (cadd (cneg (cscale B t))
                (cscale (cscale (cmul (rscale #2 i) cf) pi) t)))) t in
  let xcos := ccos (cscale (cscale (rscale #2 cf) pi) t) in
  let xsin := csin (cscale (cscale (rscale #2 cf) pi) t) in
  (* lines 119-169 *)
  let x1 := cadd x01 (cmul x02 (csub xcos (rscale s1 xsin))) in
  let x2 := cadd x01 (cmul x02 (cadd xcos (rscale s1 xsin))) in
  let x3 := cadd x01 (cmul x02 (csub xcos (rscale s2 xsin))) in
  let x4 := cadd x01 (cmul x02 (cadd xcos (rscale s2 xsin))) in
  (* lines 171-177 *)
  let x5 := cadd (csub (rdivc (nneg N #2) (cexp (cscale (rscale #2 B) t))) (rscale #2 xExp))
                 (cdiv (rscale #2 (raddc #1 xExp)) (cexp (cscale B t))) in
  (* lines 183-186 *)
  let gain := cnorm (cdiv (cmul (cmul (cmul x1 x2) x3) x4) (cpowf x5 #4)) in
  (* lines 188-204 *)
  [t; fst A11; fst A12; fst A13; fst A14; #0; #1; fst B1; fst B2; gain].

(** equivalent_rectangular_bandwidth.rs:14-207: coefficient matrix (one row per
    band) and centre frequencies.  The upper frequency is cut to half the rate. *)
Definition make_filters (nb : nat) (sample_rate : Z) (low high : T)
  : list (list T) * list T :=
  let half := # sample_rate [/] #2 in
  let high := if half [<] high then half else high in
  let cf := calculate_uniform_center_freqs nb low high in
  (map (erb_row sample_rate) cf, cf).

(** ** gammatone_filterbank.rs *)

(** gammatone_filterbank.rs:5-23.  The ten coefficient vectors are kept as the
    ten columns they are copied from; the four condition arrays hold a pair per
    band. *)
Record Filterbank : Type := {
  fb_min_freq : T;
  fb_cond1 : list (T * T);
  fb_cond2 : list (T * T);
  fb_cond3 : list (T * T);
  fb_cond4 : list (T * T);
  fb_coeffs : list (list T)           (* a0 a11 a12 a13 a14 a2 b0 b1 b2 gain *)
}.

(** gammatone_filterbank.rs:27-45 *)
Definition new_filterbank (nb : nat) (min_freq : T) : Filterbank :=
  {| fb_min_freq := min_freq;
     fb_cond1 := repeat (#0, #0) nb; fb_cond2 := repeat (#0, #0) nb;
     fb_cond3 := repeat (#0, #0) nb; fb_cond4 := repeat (#0, #0) nb;
     fb_coeffs := repeat [] 10 |}.

(** gammatone_filterbank.rs:48-53 *)
Definition reset_filter_conditions (nb : nat) (fb : Filterbank) : Filterbank :=
  {| fb_min_freq := fb_min_freq fb;
     fb_cond1 := repeat (#0, #0) nb; fb_cond2 := repeat (#0, #0) nb;
     fb_cond3 := repeat (#0, #0) nb; fb_cond4 := repeat (#0, #0) nb;
     fb_coeffs := fb_coeffs fb |}.

(** gammatone_filterbank.rs:56-67; [rows] is the (inverted) coefficient matrix *)
Definition set_filter_coefficients (rows : list (list T)) (fb : Filterbank) : Filterbank :=
  {| fb_min_freq := fb_min_freq fb;
     fb_cond1 := fb_cond1 fb; fb_cond2 := fb_cond2 fb;
     fb_cond3 := fb_cond3 fb; fb_cond4 := fb_cond4 fb;
     fb_coeffs := map (fun c => map (fun r => nth c r #0) rows) (seq 0 10) |}.

(** [self.filter_coeff_xx[band]] *)
Definition coeff (fb : Filterbank) (c : nat) (band : Z) : res T :=
  zget (nth c (fb_coeffs fb) []) band.

(** gammatone_filterbank.rs:79-139: the body of the loop over bands: four biquads
    in cascade.  Result: output row and the four new condition pairs. *)
Definition apply_band (fb : Filterbank) (input : list T) (band : Z)
  : res (list T * ((T*T) * (T*T) * (T*T) * (T*T))) :=
  do a0 <- coeff fb 0 band; do gain <- coeff fb 9 band;
  do a11 <- coeff fb 1 band; do a2 <- coeff fb 5 band;
  do a12 <- coeff fb 2 band; do a13 <- coeff fb 3 band; do a14 <- coeff fb 4 band;
  do b0 <- coeff fb 6 band; do b1 <- coeff fb 7 band; do b2 <- coeff fb 8 band;
  do c1 <- zget (fb_cond1 fb) band; do c2 <- zget (fb_cond2 fb) band;
  do c3 <- zget (fb_cond3 fb) band; do c4 <- zget (fb_cond4 fb) band;
  let b := (b0, b1, b2) in
  let '(y1, e1) := filter_signal (a0 [/] gain, a11 [/] gain, a2 [/] gain) b input c1 in
  let '(y2, e2) := filter_signal (a0, a12, a2) b y1 c2 in
  let '(y3, e3) := filter_signal (a0, a13, a2) b y2 c3 in
  let '(y4, e4) := filter_signal (a0, a14, a2) b y3 c4 in
  Ok (y4, (e1, e2, e3, e4)).

(** gammatone_filterbank.rs:71-141.  Bands only touch their own conditions, so
    the loop is a map over the bands. *)
Definition apply_filter (nb : nat) (fb : Filterbank) (input : list T)
  : res (Filterbank * mat N) :=
  do outs <- mapM (fun b => apply_band fb input (Z.of_nat b)) (seq 0 nb);
  Ok ({| fb_min_freq := fb_min_freq fb;
         fb_cond1 := map (fun o => fst (fst (fst (snd o)))) outs;
         fb_cond2 := map (fun o => snd (fst (fst (snd o)))) outs;
         fb_cond3 := map (fun o => snd (fst (snd o))) outs;
         fb_cond4 := map (fun o => snd (snd o)) outs;
         fb_coeffs := fb_coeffs fb |},
      {| mrows := nb; mcols := List.length input; mdata := map fst outs |}).

(** ** spectrogram.rs *)

(** spectrogram.rs:5-10 *)
Record Spectrogram : Type := { sp_data : mat N; center_freq_bands : list T }.

Definition with_data (s : Spectrogram) (d : mat N) : Spectrogram :=
  {| sp_data := d; center_freq_bands := center_freq_bands s |}.

(** spectrogram.rs:22-32 *)
Definition sample_to_db (x : T) : T :=
  let sample := if x [==] #0 then nepsilon N else nabs N x in
  #10 [*] nlog10 N sample.
Definition convert_to_db (s : Spectrogram) : Spectrogram :=
  with_data s (mmap sample_to_db (sp_data s)).

(** spectrogram.rs:35-40 *)
Definition get_minimum (s : Spectrogram) : res T :=
  match nd_min (mflat (sp_data s)) with Some m => Ok m | None => Panic PExpect end.

(** spectrogram.rs:43 *)
Definition subtract_floor (s : Spectrogram) (floor : T) : Spectrogram :=
  with_data s (mmap (fun x => x [-] floor) (sp_data s)).

(** spectrogram.rs:46-48 *)
Definition raise_floor (s : Spectrogram) (new_floor : T) : Spectrogram :=
  with_data s (mmap (fun x => nmax new_floor x) (sp_data s)).

(** spectrogram.rs:57-64: the floor of frame [j] *)
Definition frame_floor (threshold : T) (a b : mat N) (j : nat) : res T :=
  do m1 <- (match nd_max (mcol a j) with Some m => Ok m | None => Panic PExpect end);
  do m2 <- (match nd_max (mcol b j) with Some m => Ok m | None => Panic PExpect end);
  Ok (nmax m1 m2 [-] threshold).

(** spectrogram.rs:51-68: both spectrograms are raised column by column, for the
    columns they have in common. *)
Definition raise_floor_per_frame (s : Spectrogram) (threshold : T) (other : Spectrogram)
  : res (Spectrogram * Spectrogram) :=
  let a := sp_data s in
  let b := sp_data other in
  do floors <- mapM (frame_floor threshold a b) (seq 0 (Nat.min (mcols a) (mcols b)));
  let raise (m : mat N) :=
    mbuild (mrows m) (mcols m)
      (fun i j => match nth_error floors j with
                  | Some fl => nmax fl (mget m i j)
                  | None => mget m i j
                  end) in
  Ok (with_data s (raise a), with_data other (raise b)).

(** audio_utils.rs:13-14 *)
Definition NOISE_FLOOR_RELATIVE_TO_PEAK_DB : T := #45.
Definition NOISE_FLOOR_ABSOLUTE_DB : T := nneg N #45.

(** audio_utils.rs:75-93 *)
Definition prepare_spectrograms_for_comparison (reference degraded : Spectrogram)
  : res (Spectrogram * Spectrogram) :=
  let r := raise_floor (convert_to_db reference) NOISE_FLOOR_ABSOLUTE_DB in
  let d := raise_floor (convert_to_db degraded) NOISE_FLOOR_ABSOLUTE_DB in
  do rd <- raise_floor_per_frame r NOISE_FLOOR_RELATIVE_TO_PEAK_DB d;
  let '(r, d) := rd in
  do ref_floor <- get_minimum r;
  do deg_floor <- get_minimum d;
  let lowest := nmin ref_floor deg_floor in
  Ok (subtract_floor r lowest, subtract_floor d lowest).

(** ** gammatone_spectrogram_builder.rs *)

(** gammatone_spectrogram_builder.rs:80-83: sort_by(partial_cmp): comparing a NaN
    panics; a vector of fewer than two elements is not compared. *)
Fixpoint insert_num (x : T) (l : list T) : list T :=
  match l with
  | [] => [x]
  | y :: t => if x [<=] y then x :: l else y :: insert_num x t
  end.
Definition sort_num (l : list T) : res (list T) :=
  if (2 <=? zlen l)%Z && existsb nis_nan l then Panic PExpect
  else Ok (fold_right insert_num [] l).

(** gammatone_spectrogram_builder.rs:89 *)
Definition SPEECH_MODE_MAX_FREQ : Z := 8000.

(** gammatone_spectrogram_builder.rs:23-27 *)
Definition max_freq (nb : nat) (rate : Z) : Z :=
  if Nat.eqb nb NUM_BANDS_SPEECH then SPEECH_MODE_MAX_FREQ else rate / 2.

(** gammatone_spectrogram_builder.rs:58-77: one frame: reset, filter, square, mean
    over the frame, square root.  Result: new filter bank and the column. *)
Definition frame_column (nb : nat) (fb : Filterbank) (frame : list T)
  : res (Filterbank * list T) :=
  do fo <- apply_filter nb (reset_filter_conditions nb fb) frame;
  let '(fb', out) := fo in
  match mean_axis1_c (mmap (fun e => e [*] e) out) with
  | None => Panic PExpect
  | Some means => Ok (fb', map (nsqrt N) means)
  end.

(** gammatone_spectrogram_builder.rs:52-78: the loop over frames *)
Fixpoint frame_loop (nb : nat) (fb : Filterbank) (frames : list (list T))
  : res (Filterbank * list (list T)) :=
  match frames with
  | [] => Ok (fb, [])
  | f :: t =>
    do fc <- frame_column nb fb f;
    let '(fb1, col) := fc in
    do rest <- frame_loop nb fb1 t;
    let '(fb2, cols) := rest in
    Ok (fb2, col :: cols)
  end.

(** gammatone_spectrogram_builder.rs:52-56: windows(size).step_by(hop) *)
Definition frames_of (l : list T) (size hop : Z) : list (list T) :=
  map (fun j => firstn (Z.to_nat size) (skipn (Z.to_nat (hop * Z.of_nat j)) l))
      (seq 0 (Z.to_nat (1 + (zlen l - size) / hop))).

(** gammatone_spectrogram_builder.rs:16-85.  Returns the filter bank as it is
    after the call, also when the call returns an error.  (After a panic the state
    given here is the one before the frame loop.)  Coefficients are set in
    reversed band order (invert_axis, line 36). *)
Definition build (nb : nat) (fb : Filterbank) (signal : AudioSignal N) (window : AnalysisWindow N)
  : Filterbank * res Spectrogram :=
  let rate := sample_rate signal in
  let l := data_matrix signal in
  let '(coeffs, cfs) := make_filters nb rate (fb_min_freq fb) (# (max_freq nb rate)) in
  let fb1 := reset_filter_conditions nb (set_filter_coefficients (rev coeffs) fb) in
  let hop := hop_size window in
  if (zlen l <? win_size window)%Z
  then (fb1, Err (TooFewSamples (zlen l) (win_size window)))
  else if (hop =? 0)%Z then (fb1, Panic PDivZero)
  else
    match frame_loop nb fb1 (frames_of l (win_size window) hop) with
    | Err e => (fb1, Err e)
    | Panic p => (fb1, Panic p)
    | Ok (fb2, cols) =>
      (fb2,
       do cfs' <- sort_num cfs;
       Ok {| sp_data := mbuild nb (List.length cols) (fun i j => nth i (nth j cols []) #0);
             center_freq_bands := cfs' |})
    end.
End Spectro.

Arguments Filterbank N : clear implicits.
Arguments Spectrogram N : clear implicits.
