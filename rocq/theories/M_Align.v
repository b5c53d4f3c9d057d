(** Model of fft_manager.rs, fast_fourier_transform.rs, envelope.rs, xcorr.rs and
    alignment.rs.  An [Option] result of the Rust code is an [option] here. *)
From Verif Require Import Base Num M_Audio.

Section Align.
Context {N : NumOps}.
Open Scope num_scope.
Notation T := (num N).

(** fft_manager.rs:8 *)
Definition MIN_FFT_SIZE : Z := 32.

(** fft_manager.rs:11-20, without the planner *)
Record FftManager : Type := {
  fft_size : Z;
  inverse_fft_scale : T;
  samples_per_channel : Z
}.

(** fft_manager.rs:24-33 *)
Definition new_fft (pf : profile) (samples : Z) : res FftManager :=
  do p <- next_pow_two pf samples;
  let sz := Z.max p MIN_FFT_SIZE in
  Ok {| fft_size := sz; inverse_fft_scale := #1 [/] # sz; samples_per_channel := samples |}.

(** audio_utils.rs:96-107 and 109-120 *)
Definition to_complex (l : list T) : list (cplx N) := map (fun x => (x, #0)) l.
Definition real_parts (l : list (cplx N)) : list T := map fst l.

(** fft_manager.rs:36-64: both branches transform the channel padded with zeros
    (or cut) to [fft_size]. *)
Definition freq_from_time_domain (m : FftManager) (time : list T) : list (cplx N) :=
  nfft N false (to_complex (resize time (fft_size m) #0)).

(** fft_manager.rs:67-96: rustfft panics unless the frequency channel has
    [fft_size] entries; only the real parts of the result are kept. *)
Definition time_from_freq_domain (m : FftManager) (freq : list (cplx N)) : res (list T) :=
  if zlen freq =? fft_size m then Ok (real_parts (nfft N true freq)) else Panic PShape.

(** fft_manager.rs:99-103 *)
Definition apply_reverse_fft_scaling (m : FftManager) (time : list T) : list T :=
  map (fun x => x [*] inverse_fft_scale m) time.

(** fast_fourier_transform.rs:7-17 *)
Definition forward_1d_from_matrix (m : FftManager) (input : list T) : list (cplx N) :=
  freq_from_time_domain m input.

(** fast_fourier_transform.rs:19-29.  If the input is longer than the number of
    points the subtraction at line 24 panics in debug; in release it wraps and
    the vector of line 26 cannot be allocated. *)
Definition forward_1d_from_points (m : FftManager) (input : list T) (points : Z)
  : res (list (cplx N)) :=
  if zlen input <=? points
  then Ok (forward_1d_from_matrix m (input ++ repeat #0 (Z.to_nat (points - zlen input))))
  else Panic POverflow.

(** fast_fourier_transform.rs:31-43: the result has [samples_per_channel] entries
    with imaginary part zero. *)
Definition inverse_1d (m : FftManager) (input : list (cplx N)) : res (list (cplx N)) :=
  do time <- time_from_freq_domain m input;
  let time := apply_reverse_fft_scaling m time in
  do t <- zslice time 0 (samples_per_channel m);
  Ok (to_complex t).

(** fast_fourier_transform.rs:46-50 *)
Definition inverse_1d_conj_sym (m : FftManager) (input : list (cplx N)) : res (list T) :=
  do inv <- inverse_1d m input; Ok (real_parts inv).

(** envelope.rs:30-46: the scaling vector, for a signal of length [len] and
    [nf] frequency bins. *)
Definition hilbert_scaling (len nf : Z) : res (list T) :=
  let is_odd := len mod 2 =? 1 in
  let is_non_empty := negb (len =? 0) in
  do s0 <- zset (repeat #0 (Z.to_nat nf)) 0 #1;
  do s1 <- (if negb is_odd && is_non_empty then zset s0 (len / 2) #1
            else if is_odd && is_non_empty then zset s0 (len / 2) #2
            else Ok s0);
  let n := if is_odd then (nf + 1) / 2 else nf / 2 in
  if (1 <=? n) && (n <=? nf)
  then Ok (firstn 1 s1 ++ repeat #2 (Z.to_nat (n - 1)) ++ skipn (Z.to_nat n) s1)
  else Panic PIndex.

(** envelope.rs:22-60 *)
Definition calculate_hilbert (pf : profile) (signal : list T) : res (list (cplx N)) :=
  do m <- new_fft pf (zlen signal);
  let freq := forward_1d_from_matrix m signal in
  do scaling <- hilbert_scaling (zlen signal) (zlen freq);
  let product := map (fun p => cscale (fst p) (snd p)) (combine freq scaling) in
  do h <- inverse_1d m product;
  Ok (map (fun z => csubr (cscale z #2) (nlit N 1 6)) h).

(** envelope.rs:7-19 *)
Definition calculate_upper_env (pf : profile) (signal : list T) : res (option (list T)) :=
  match nd_mean signal with
  | None => Ok None
  | Some mean =>
    let centered := map (fun x => x [-] mean) signal in
    do h <- calculate_hilbert pf centered;
    Ok (Some (map (fun z => cnorm z [+] mean) h))
  end.

(** xcorr.rs:79-88: the exponent part of the result (the mantissa is unused) *)
Definition frexp_exp (s : T) : Z :=
  if #0 [==] s then 0
  else as_i32 (nfloor N (nlog2 N (nabs N s)) [+] #1).

(** xcorr.rs:56-75 *)
Definition calculate_fft_pointwise_product (m : FftManager) (s1 s2 : list T) (points : Z)
  : res (list (cplx N)) :=
  do f2 <- forward_1d_from_points m s2 points;
  let f2c := map cconj f2 in
  do f1 <- forward_1d_from_points m s1 points;
  Ok (map (fun p => cmul (fst p) (snd p)) (combine f1 f2c)).

(** xcorr.rs:31-53.  2usize.pow overflows from exponent 64 on (and a negative
    exponent becomes a huge u32). *)
Definition calculate_inverse_fft_pointwise_product (pf : profile) (s1 s2 : list T)
  : res (list T) :=
  let big := Z.max (zlen s1) (zlen s2) in
  let s1 := resize s1 big #0 in
  let s2 := resize s2 big #0 in
  do n <- usub pf (zlen s1 * 2) 1;
  let e := frexp_exp (# n) in
  if (0 <=? e) && (e <? 64) then
    let points := 2 ^ e in
    do m <- new_fft pf points;
    do prod <- calculate_fft_pointwise_product m s1 s2 points;
    inverse_1d_conj_sym m prod
  else Panic POverflow.

(** xcorr.rs:19-23, Iterator::max_by with |x| <= |y| comparison: the last
    maximal element; comparing with a NaN panics. *)
Fixpoint max_by_abs (acc : T) (l : list T) : res T :=
  match l with
  | [] => Ok acc
  | y :: t => match ncmp (nabs N acc) (nabs N y) with
              | None => Panic PExpect
              | Some Gt => max_by_abs acc t
              | Some _ => max_by_abs y t
              end
  end.

(** xcorr.rs:25, Iterator::position *)
Fixpoint position_eq (l : list T) (v : T) (i : Z) : option Z :=
  match l with
  | [] => None
  | x :: t => if x [==] v then Some i else position_eq t v (i + 1)
  end.

(** xcorr.rs:6-28.  With both signals empty the subtraction at line 7 panics in
    debug (and a later slice panics in release). *)
Definition calculate_best_lag (pf : profile) (s1 s2 : list T) : res (option Z) :=
  let big := Z.max (zlen s1) (zlen s2) in
  if big =? 0 then Panic POverflow
  else
    let max_lag := big - 1 in
    do pw <- calculate_inverse_fft_pointwise_product pf s1 s2;
    do neg <- zslice pw (zlen pw - max_lag) (zlen pw);
    do pos <- zslice pw 0 (max_lag + 1);
    match neg ++ pos with
    | [] => Ok None
    | c :: t =>
      do best <- max_by_abs c t;
      match position_eq (c :: t) best 0 with
      | None => Ok None
      | Some i => Ok (Some (i - max_lag))
      end
    end.

(** alignment.rs:47-88 *)
Definition globally_align (pf : profile) (rs ds : AudioSignal N)
  : res (option (AudioSignal N * T)) :=
  do renv <- calculate_upper_env pf (data_matrix rs);
  match renv with None => Ok None | Some renv =>
  do denv <- calculate_upper_env pf (data_matrix ds);
  match denv with None => Ok None | Some denv =>
  do lag <- calculate_best_lag pf renv denv;
  match lag with None => Ok None | Some best_lag =>
    if (best_lag =? 0) || (sig_len rs / 2 <? Z.abs best_lag)
    then Ok (Some (ds, #0))
    else
      do d <- (if best_lag <? 0
               then zslice (data_matrix ds) (Z.abs best_lag) (sig_len ds)
               else Ok (repeat #0 (Z.to_nat best_lag) ++ data_matrix ds));
      Ok (Some ({| data_matrix := d; sample_rate := sample_rate ds |},
                # best_lag [/] # (sample_rate ds)))
  end end end.

(** alignment.rs:9-43 *)
Definition align_and_truncate (pf : profile) (rs ds : AudioSignal N)
  : res (option (AudioSignal N * AudioSignal N * T)) :=
  do g <- globally_align pf rs ds;
  match g with None => Ok None | Some (aligned, lag) =>
    let r := data_matrix rs in
    let d := data_matrix aligned in
    do rd <- (if zlen r <? zlen d then
                do r' <- zslice r (as_usize (lag [*] # (sample_rate rs))) (sig_len rs);
                do d' <- zslice d (as_usize (lag [*] # (sample_rate ds))) (sig_len rs);
                Ok (r', d')
              else if zlen d <? zlen r then
                do r' <- zslice r 0 (zlen d); Ok (r', d)
              else Ok (r, d));
    Ok (Some ({| data_matrix := fst rd; sample_rate := sample_rate rs |},
              {| data_matrix := snd rd; sample_rate := sample_rate ds |},
              lag))
  end.
End Align.

Arguments FftManager N : clear implicits.
