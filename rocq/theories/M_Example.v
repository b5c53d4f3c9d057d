(** Model of examples/compute_score_on_speech_file.rs and of the program in the
    documentation of the crate (lib.rs:3-27). *)
From Verif Require Import Base Num M_Audio M_Visqol.

Section Example_.
Context {N : NumOps}.
Notation T := (num N).

(** compute_score_on_speech_file.rs:9-10, lib.rs:10-11 *)
Definition path_to_reference_file : string := "./test_data/clean_speech/reference_signal.wav".
Definition path_to_degraded_file : string := "./test_data/clean_speech/degraded_signal.wav".

(** compute_score_on_speech_file.rs:8-27: what is printed (path and score) and how the
    program ends; the ? of line 19 hands an error on. *)
Definition example_main (pf : profile) (files : string -> wav) : list (string * T) * res unit :=
  match new_manager NUM_BANDS_SPEECH (Wideband false) DEFAULT_WINDOW_SIZE with
  | Err e => ([], Err e)
  | Panic p => ([], Panic p)
  | Ok m =>
    match snd (run pf NUM_BANDS_SPEECH files m path_to_reference_file path_to_degraded_file) with
    | Err e => ([], Err e)
    | Panic p => ([], Panic p)
    | Ok r => ([(path_to_degraded_file, moslqo r)], Ok tt)
    end
  end.

(** lib.rs:10-26: the same with the other mapping; unwrap turns an error into a panic *)
Definition documented_main (pf : profile) (files : string -> wav) : list (string * T) * res unit :=
  match new_manager NUM_BANDS_SPEECH (Wideband true) DEFAULT_WINDOW_SIZE with
  | Err e => ([], Err e)
  | Panic p => ([], Panic p)
  | Ok m =>
    match snd (run pf NUM_BANDS_SPEECH files m path_to_reference_file path_to_degraded_file) with
    | Err _ => ([], Panic PExpect)
    | Panic p => ([], Panic p)
    | Ok r => ([(path_to_degraded_file, moslqo r)], Ok tt)
    end
  end.
End Example_.
