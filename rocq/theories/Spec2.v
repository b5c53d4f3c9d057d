(** More specifications used in the statements of the properties. *)
From Coq Require Import Reals.
From Flocq Require Import Core IEEE754.BinarySingleNaN.
From Verif Require Import Base Num Mat F64 RNum M_Audio M_Spectro M_Nsim M_Selector M_Visqol Spec.
Open Scope R_scope.

(** ** Convolution *)
Section Conv3.
Context {N : NumOps}.
(** Entry of [m] at ([i] + [a] - 1, [j] + [b] - 1), coordinates outside the matrix
    replaced by the nearest inside. *)
Definition near (m : mat N) (i a j b : nat) : num N :=
  mget m (Nat.min (i + a - 1) (mrows m - 1)) (Nat.min (j + b - 1) (mcols m - 1)).
(** Weighted sum of the 3 x 3 neighbourhood, added column by column; the weight of
    the neighbour ([a], [b]) is kernel entry (2 - [b], 2 - [a]). *)
Definition conv3 (k m : mat N) (i j : nat) : num N :=
  fold_left (nadd N)
    (map (fun ab => nmul N (near m i (fst ab) j (snd ab)) (mget k (2 - snd ab) (2 - fst ab)))
       [(0, 0); (1, 0); (2, 0); (0, 1); (1, 1); (2, 1); (0, 2); (1, 2); (2, 2)]%nat)
    (nofZ N 0).
End Conv3.

(** The textbook convolution over the reals: kernel entry (2 - a, 2 - b) weighs the
    neighbour (a, b). *)
Definition true_conv (k m : mat RN) (i j : nat) : R :=
  Rsum (map (fun ab => mget k (2 - fst ab) (2 - snd ab) * near m i (fst ab) j (snd ab))
    [(0, 0); (0, 1); (0, 2); (1, 0); (1, 1); (1, 2); (2, 0); (2, 1); (2, 2)]%nat).


(** ** The similarity index in textbook form (exact arithmetic) *)
(** The 3x3 window: centre, edges and corners. *)
Definition window_weight (ab : nat * nat) : R :=
  match ab with
  | (1, 1)%nat => 619485845753726 / 1000000000000000
  | (1, _)%nat | (_, 1)%nat => 838251475442633 / 10000000000000000
  | _ => 113033910173052 / 10000000000000000
  end.
Definition window_cells : list (nat * nat) :=
  [(0, 0); (1, 0); (2, 0); (0, 1); (1, 1); (2, 1); (0, 2); (1, 2); (2, 2)]%nat.
(** The weighted mean of [x] over the window. *)
Definition wmean (x : nat * nat -> R) : R := Rsum (map (fun ab => window_weight ab * x ab) window_cells).
(** The weighted covariance: mean of the product of the deviations. *)
Definition wcov (x y : nat * nat -> R) : R := wmean (fun ab => (x ab - wmean x) * (y ab - wmean y)).
(** Patch values around (i, j), coordinates outside clamped to the border. *)
Definition around (m : mat RN) (i j : nat) (ab : nat * nat) : R := near m i (fst ab) j (snd ab).
(** Intensity term times structure term, C1 = 0.01^2, C3 = 0.03^2 / 2. *)
Definition nsim_at (r d : mat RN) (i j : nat) : R :=
  let x := around r i j in let y := around d i j in
  (2 * wmean x * wmean y + 1 / 10000) / (wmean x * wmean x + wmean y * wmean y + 1 / 10000) *
  ((wcov x y + 9 / 20000) / (R_sqrt.sqrt (wcov x x) * R_sqrt.sqrt (wcov y y) + 9 / 20000)).
(** Mean and sample standard deviation (divisor n - 1) of a list. *)
Definition mean_of (l : list R) : R := Rsum l / INR (List.length l).
Definition sqdev (l : list R) : R := Rsum (map (fun x => (x - mean_of l) * (x - mean_of l)) l).
Definition sample_std (l : list R) : R := R_sqrt.sqrt (sqdev l / (INR (List.length l) - 1)).

(** A patch whose band statistics are those of the similarity values [rows] (one
    row of [n] values per band) and which lasts [n] frames of length [fd]. *)
Definition pooled_patch (fd : R) (nbands n : nat) (p : PatchSim RN) (rows : list (list R)) : Prop :=
  List.length rows = nbands /\ Forall (fun row => List.length row = n) rows /\
  freq_band_means p = map mean_of rows /\ freq_band_stddevs p = map sample_std rows /\
  ref_patch_end_time p - ref_patch_start_time p = INR n * fd.

(** ** Matching reference patches with degraded patches *)
Section Matching.
Open Scope Z_scope.
Context {N : NumOps}.
Notation T := (num N).
(** The degraded patch of [w] frames that starts at frame [s]; frames after the end are
    zero. *)
Definition patch_at (deg : mat N) (s : Z) (w : nat) : mat N :=
  mbuild (mrows deg) w (fun i j =>
    if (Z.to_nat s + j <? mcols deg)%nat then mget deg i (Z.to_nat s + j) else nofZ N 0).
(** Similarity of reference patch [k] and the degraded patch starting at [s]. *)
Definition sim_at (refs : list (mat N)) (deg : mat N) (k : nat) (s : Z) : T :=
  match nth_error refs k with
  | Some rp => match measure_patch_similarity rp (patch_at deg s (mcols rp)) with
               | Ok p => similarity p | _ => nofZ N 0 end
  | None => nofZ N 0
  end.
(** Frame [s] lies in a degraded spectrogram of [c] frames and at most [sw] frames from
    the reference start [r]. *)
Definition in_window (sw c r s : Z) : Prop := 0 <= s < c /\ r - sw <= s <= r + sw.
(** Start frames for the first [n] reference patches: inside the windows, never
    decreasing.  A patch with the same start as its predecessor is lost. *)
Definition admissible (sw c : Z) (idx : list Z) (n : nat) (offs : list Z) : Prop :=
  List.length offs = n /\
  (forall k, (k < n)%nat -> in_window sw c (nth k idx 0) (nth k offs 0)) /\
  (forall k, (S k < n)%nat -> nth k offs 0 <= nth (S k) offs 0).
(** Total similarity of the matched patches, added in patch order. *)
Fixpoint total_from (sim : nat -> Z -> T) (k : nat) (prev : Z) (acc : T) (offs : list Z) : T :=
  match offs with
  | [] => acc
  | o :: t => total_from sim (S k) o (if o =? prev then acc else nadd N (sim k o) acc) t
  end.
Definition total (sim : nat -> Z -> T) (offs : list Z) : T :=
  match offs with [] => nofZ N 0 | o :: t => total_from sim 1 o (sim O o) t end.
(** Patch [k] is lost. *)
Definition lost_at (offs : list Z) (k : nat) : bool :=
  match k with O => false | S k' => nth k offs 0 =? nth k' offs 0 end.
End Matching.

(** ** Result entries of the patch search *)
(** Entry [e] describes reference patch [k] (starting at frame [r]) matched with the
    degraded patch starting at frame [o], or lost. *)
Definition describes {N : NumOps} (refs : list (mat N)) (deg : mat N) (idx : list Z) (fd pd : num N)
    (offs : list Z) (k : nat) (e : PatchSim N) : Prop :=
  exists rp p, nth_error refs k = Some rp /\
    measure_patch_similarity rp (patch_at deg (nth k offs 0%Z) (mcols rp)) = Ok p /\
    freq_band_stddevs e = freq_band_stddevs p /\
    freq_band_deg_energy e = freq_band_deg_energy p /\
    ref_patch_start_time e = nmul N (nofZ N (nth k idx 0%Z)) fd /\
    ref_patch_end_time e = nadd N (ref_patch_start_time e) pd /\
    (if lost_at offs k
     then similarity e = nofZ N 0 /\
          freq_band_means e = map (fun _ => nofZ N 0) (freq_band_means p) /\
          deg_patch_start_time e = nofZ N 0 /\ deg_patch_end_time e = nofZ N 0
     else similarity e = similarity p /\ freq_band_means e = freq_band_means p /\
          deg_patch_start_time e = nmul N (nofZ N (nth k offs 0%Z)) fd /\
          deg_patch_end_time e = nadd N (deg_patch_start_time e) pd).

(** What the search is given: patches of the same shape as the degraded spectrogram, sorted
    reference frames, numbers inside the i32 range. *)
Record search_input {N : NumOps} (refs : list (mat N)) (idx : list Z) (deg : mat N) (radius : Z) (fp : nat) : Prop := {
  si_len : List.length refs = List.length idx;
  si_ne : refs <> [];
  si_refs : forall rp, In rp refs -> mat_wf rp /\ mrows rp = mrows deg /\ mcols rp = fp;
  si_fp : (1 <= fp)%nat /\ (Z.of_nat fp < 2 ^ 31)%Z;
  si_rows : (1 <= mrows deg)%nat; si_cols : (1 <= mcols deg)%nat;
  si_radius : (1 <= radius /\ radius * Z.of_nat fp < 2 ^ 31)%Z;
  si_idx : forall r, In r idx -> (0 <= r /\ r + radius * Z.of_nat fp < 2 ^ 31)%Z;
  si_sorted : forall k, (S k < List.length idx)%nat -> (nth k idx 0 <= nth (S k) idx 0)%Z
}.

(** ** Prepared spectrograms *)
(** Level in decibel of a spectrogram value, at least -45 dB; zero counts as silence. *)
Definition level (x : R) : R :=
  (if Req_EM_T x 0 then -45 else Rmax (-45) (10 * (ln (Rabs x) / ln 10)))%R.
(** The same in f64: a zero is replaced by the machine epsilon. *)
Definition level_f64 (lm : Libm) (x : f64) : f64 :=
  let y := if Beqb x (f64_ofZ 0) then f64_epsilon else Babs x in
  let l := Bmult mode_NE (f64_ofZ 10) (lm_log10 lm y) in
  if Bltb (f64_ofZ (-45)) l then l else f64_ofZ (-45).
(** [s] has value [x] in frame [j] (band [i]). *)
Definition value_at {N : NumOps} (s : Spectrogram N) (i j : nat) (x : num N) : Prop :=
  (i < mrows (sp_data s))%nat /\ (j < mcols (sp_data s))%nat /\ mget (sp_data s) i j = x.
