(** C50: which samples fine alignment looks at. *)
From Coq Require Import Reals Lra Lia.
From Flocq Require Import Core IEEE754.BinarySingleNaN.
From Verif Require Import Base Num Mat F64 RNum M_Audio M_Nsim M_Selector M_Visqol Witness P_Segment.
Open Scope R_scope.

(** C50: the segment cut out for a patch of [fp] frames from frame [r] on is, in
    exact arithmetic, the samples from [r * hop] to [(r + fp) * hop] (zeros past the
    end of the signal), except that both ends drift by a quarter sample per frame
    for every sample by which the window exceeds a multiple of four.  If the start
    is past the end of the signal it panics. *)
Theorem C50_segment_exact : forall (s : AudioSignal RN) w r fp,
  win_overlap w = OVERLAP -> (1 <= sample_rate s)%Z -> (0 <= win_size w)%Z -> (0 <= r)%Z -> (0 <= fp)%Z ->
  ((r + fp) * win_size w < 2 ^ 66)%Z -> (sig_len s < 2 ^ 62)%Z ->
  let fd := calculate_frame_duration (nmul RN (nofZ RN (win_size w)) (win_overlap w)) (sample_rate s) in
  let start := (r * (win_size w / 4) + r * (win_size w mod 4) / 4)%Z in
  let stop := ((r + fp) * (win_size w / 4) + (r + fp) * (win_size w mod 4) / 4)%Z in
  slice s (IZR r * fd) (IZR r * fd + fd * IZR fp) =
  if (start <=? sig_len s)%Z
  then Ok {| data_matrix := firstn (Z.to_nat (stop - start)) (skipn (Z.to_nat start) (data_matrix s)) ++
                            repeat (0 : num RN) (Z.to_nat (stop - sig_len s));
             sample_rate := sample_rate s |}
  else Panic PIndex.
Proof. exact C50_exact. Qed.
Print Assumptions C50_segment_exact.

(** In f64, for a window that is a multiple of four, the segment starts at sample
    [r * hop] or one sample earlier. *)
Theorem C50_at_most_one_early : forall lm (s seg : AudioSignal (F64 lm)) W r e,
  (4 <= W)%Z -> (W mod 4 = 0)%Z -> (0 <= r)%Z -> (r * (W / 4) <= 2 ^ 40)%Z -> (W <= 2 ^ 40)%Z ->
  (1 <= sample_rate s <= 2 ^ 32)%Z ->
  let fd := calculate_frame_duration (nmul (F64 lm) (nofZ (F64 lm) W) OVERLAP) (sample_rate s) in
  slice s (nmul (F64 lm) (nofZ (F64 lm) r) fd) e = Ok seg ->
  exists k n zeros, (k = r * (W / 4) \/ k = r * (W / 4) - 1)%Z /\ (0 <= k)%Z /\
    data_matrix seg = firstn n (skipn (Z.to_nat k) (data_matrix s)) ++ repeat (f64_ofZ 0) zeros.
Proof. exact C50_f64. Qed.
Print Assumptions C50_at_most_one_early.

(** It is one sample early for every signal at 48 kHz and frame 29, the second
    patch of every fullband comparison. *)
Theorem C50_start_at_frame_refuted : forall lm (s seg : AudioSignal (F64 lm)) e,
  sample_rate s = 48000%Z ->
  let w := new_window (N:=F64 lm) 48000 OVERLAP WINDOW_DURATION in
  let fd := calculate_frame_duration (nmul (F64 lm) (nofZ (F64 lm) (win_size w)) (win_overlap w)) 48000 in
  slice s (nmul (F64 lm) (nofZ (F64 lm) 29) fd) e = Ok seg ->
  hop_size w = 960%Z /\
  exists n zeros, data_matrix seg =
    firstn n (skipn (Z.to_nat (29 * 960 - 1)) (data_matrix s)) ++ repeat (f64_ofZ 0) zeros.
Proof. exact C50_48k. Qed.
Print Assumptions C50_start_at_frame_refuted.

(** The drift makes fine alignment panic on a patch whose drifted start is past the
    end of the reference. *)
Theorem C50_drift_panics : forall pf nb (rs ds : AudioSignal RN) w fb (old : PatchSim RN) r fp,
  win_overlap w = OVERLAP -> (1 <= sample_rate rs)%Z -> (0 <= win_size w)%Z -> (0 <= r)%Z -> (0 <= fp)%Z ->
  ((r + fp) * win_size w < 2 ^ 66)%Z -> (sig_len rs < 2 ^ 62)%Z ->
  let fd := calculate_frame_duration (nmul RN (nofZ RN (win_size w)) (win_overlap w)) (sample_rate rs) in
  ref_patch_start_time old = IZR r * fd -> ref_patch_end_time old = IZR r * fd + fd * IZR fp ->
  deg_patch_start_time old <> deg_patch_end_time old ->
  (sig_len rs < r * (win_size w / 4) + r * (win_size w mod 4) / 4)%Z ->
  realign_patch pf nb rs ds w fb old = (fb, Panic PIndex).
Proof. exact C50_panics. Qed.
Print Assumptions C50_drift_panics.

(** A ramp at 100 Hz: window 8, hop 2; frames 3 to 7 are samples 6 to 13. *)
Example C50_f64_example :
  let s := @Build_AudioSignal (F64 lm_ex) (map f64_ofZ [0; 1; 2; 3; 4; 5; 6; 7; 8; 9; 10; 11]%Z) 100 in
  let fd := calculate_frame_duration (nmul (F64 lm_ex) (nofZ (F64 lm_ex) 8) OVERLAP) 100 in
  match slice s (nmul (F64 lm_ex) (nofZ (F64 lm_ex) 3) fd)
          (nadd (F64 lm_ex) (nmul (F64 lm_ex) (nofZ (F64 lm_ex) 3) fd) (nmul (F64 lm_ex) fd (nofZ (F64 lm_ex) 4))) with
  | Ok seg => map (f64_cast 0 100) (data_matrix seg) = [6; 7; 8; 9; 10; 11; 0; 0]%Z
  | _ => False end.
Proof. vm_compute. reflexivity. Qed.
Example C50_48k_example :
  let s := @Build_AudioSignal (F64 lm_ex) (repeat (f64_ofZ 1) (Z.to_nat 28000)) 48000 in
  let w := new_window (N:=F64 lm_ex) 48000 OVERLAP WINDOW_DURATION in
  let fd := calculate_frame_duration (nmul (F64 lm_ex) (nofZ (F64 lm_ex) (win_size w)) (win_overlap w)) 48000 in
  match slice s (nmul (F64 lm_ex) (nofZ (F64 lm_ex) 29) fd) (nmul (F64 lm_ex) (nofZ (F64 lm_ex) 49) fd) with
  | Ok seg => zlen (data_matrix seg) = 19201%Z | _ => False end.
Proof. vm_compute. reflexivity. Qed.
(** At 11025 Hz (window 882 = 4 * 220 + 2) frame 15929 starts a fullband patch (its
    index is 9 + 20 * 796) of a file of 3511780 samples (5.3 minutes, 15959 frames) and
    its drifted start is past the end. *)
Example C50_drift_example :
  let len := 3511780%Z in let frames := (1 + (len - 882) / 220)%Z in
  frames = 15959%Z /\ (15929 = 9 + 20 * 796)%Z /\ (15929 + 20 <= frames)%Z /\ (len < 15929 * (882 / 4) + 15929 * (882 mod 4) / 4)%Z.
Proof. vm_compute. repeat split; congruence. Qed.
Example C50_exact_example :
  let s := @Build_AudioSignal RN [0; 1; 2; 3; 4; 5; 6; 7; 8; 9; 10; 11] 100 in
  let w := @Build_AnalysisWindow RN 8 OVERLAP in
  let fd := calculate_frame_duration (nmul RN (nofZ RN (win_size w)) (win_overlap w)) 100 in
  slice s (IZR 3 * fd) (IZR 3 * fd + fd * IZR 4) = Ok (@Build_AudioSignal RN [6; 7; 8; 9; 10; 11; 0; 0] 100).
Proof.
  intros s w fd. etransitivity; [apply (C50_segment_exact s w 3 4); try reflexivity; try (cbn; lia)|]. reflexivity.
Qed.
Example C50_drift_panics_example : forall pf nb ds fb,
  let rs := @Build_AudioSignal RN (repeat 0 (Z.to_nat 3511780)) 11025 in
  let w := @Build_AnalysisWindow RN 882 OVERLAP in
  let fd := calculate_frame_duration (nmul RN (nofZ RN (win_size w)) (win_overlap w)) 11025 in
  let old := @Build_PatchSim RN [] [] [] 0 (IZR 15929 * fd) (IZR 15929 * fd + fd * IZR 20) 1 2 in
  realign_patch pf nb rs ds w fb old = (fb, Panic PIndex).
Proof.
  intros pf nb ds fb rs w fd old.
  assert (L : sig_len rs = 3511780%Z) by (unfold sig_len, rs, zlen; cbn [data_matrix]; rewrite repeat_length, Z2Nat.id by lia; reflexivity).
  apply (C50_drift_panics pf nb rs ds w fb old 15929 20); try rewrite L; try reflexivity; try (cbn; lia).
  cbn. intro H. apply (eq_IZR 1 2) in H. discriminate.
Qed.
