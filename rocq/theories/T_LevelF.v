(** C37 in binary64. *)
From Coq Require Import Reals Lra Lia.
From Flocq Require Import Core IEEE754.BinarySingleNaN.
From Verif Require Import Base Num F64 M_Audio Spec Spec13 P_Base P_F64 P_Win P_LevelF P_Libm T_Audio.
Open Scope R_scope.

(** C37: in binary64, with a math library whose logarithms and powers of ten are
    correct to 2^-40, up to 2^30 samples per recording: the matched signal is as loud as the
    reference up to one part in 2^21. *)
Theorem C37_same_loudness_f64 : forall lm (rs ds : AudioSignal (F64 lm)),
  log10_close lm -> pow10_close lm -> recorded (data_matrix rs) -> recorded (data_matrix ds) ->
  (sig_len rs <= 2 ^ 30)%Z -> (sig_len ds <= 2 ^ 30)%Z ->
  let loudness (l : list f64) := rms (map (fun x : f64 => B2R x) l) in
  Rabs (loudness (data_matrix (scale_to_match_sound_pressure_level rs ds)) - loudness (data_matrix rs)) <= / 2097152 * loudness (data_matrix rs).
Proof. exact @loud_f64. Qed.
Print Assumptions C37_same_loudness_f64.

(** Every mono file that is not all zeros is such a recording. *)
Theorem C37_files_qualify : forall lm rate vs s, Forall i16 vs -> Exists (fun v => v <> 0%Z) vs ->
  load_as_mono (N:=F64 lm) (WavOk 1 rate 16 (map Some vs)) = Ok s -> recorded (data_matrix s).
Proof. exact files_qualify. Qed.
Print Assumptions C37_files_qualify.

(** A correctly rounded library exists, and a file with one sample of the lowest level
    against one with a full-scale sample meets the hypotheses. *)
Example C37_f64_example : log10_close lm_true /\ pow10_close lm_true /\
  exists rs ds : AudioSignal (F64 lm_true), load_as_mono (WavOk 1 8000 16 (map Some [0; 1]%Z)) = Ok rs /\ load_as_mono (WavOk 1 8000 16 (map Some [-32768; 0; 0]%Z)) = Ok ds /\
    recorded (data_matrix rs) /\ recorded (data_matrix ds) /\ sig_len rs = 2%Z /\ sig_len ds = 3%Z.
Proof.
  split; [exact true_log10|]. split; [exact true_pow10|].
  assert (I1 : Forall i16 [0; 1]%Z) by (repeat constructor; unfold i16; lia). assert (I2 : Forall i16 [-32768; 0; 0]%Z) by (repeat constructor; unfold i16; lia).
  destruct (C08_frames (F64 lm_true) 1 8000 [0; 1]%Z 2 ltac:(lia) eq_refl I1) as (rs & L1 & N1 & _).
  destruct (C08_frames (F64 lm_true) 1 8000 [-32768; 0; 0]%Z 3 ltac:(lia) eq_refl I2) as (ds & L2 & N2 & _).
  exists rs, ds. split; [exact L1|]. split; [exact L2|].
  split; [apply (C37_files_qualify lm_true 8000 [0; 1]%Z); [exact I1|apply Exists_cons_tl, Exists_cons_hd; lia|exact L1]|].
  split; [apply (C37_files_qualify lm_true 8000 [-32768; 0; 0]%Z); [exact I2|apply Exists_cons_hd; lia|exact L2]|].
  unfold sig_len, zlen. rewrite N1, N2. auto.
Qed.
