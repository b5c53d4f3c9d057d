(** Vocabulary of C66. *)
From Verif Require Import Base Num M_Audio M_Visqol M_Cli Spec.

Section Again.
Context {N : NumOps}.

(** The paths the arguments make the tool read: the batch file (unless both recordings
    are given), the model of fullband, and the recordings of the selected pairs. *)
Definition reads (w : World N) (args : CommandLineArgs) (p : string) : Prop :=
  ((reference_file args = None \/ degraded_file args = None) /\ batch_input_csv args = Some p) \/
  subcommand args = CmdFullband p \/
  exists pairs r d, selects w args pairs /\ In (r, d) pairs /\ (p = r \/ p = d).
(** The paths it may write. *)
Definition writes (args : CommandLineArgs) (p : string) : Prop :=
  output_debug args = Some p \/ results_csv args = Some p.
(** The same contents at a path. *)
Definition same_contents (w w' : World N) (p : string) : Prop :=
  w_wav w' p = w_wav w p /\ w_model w' p = w_model w p /\ w_csv w' p = w_csv w p.
(** The files that were replaced. *)
Definition replaced (ev : list (event N)) (p : string) : Prop :=
  (exists c, In (EJson p c) ev) \/ (exists rows, In (ECsv p rows) ev).
(** [w'] is the world after the events: only replaced files may be different, and what
    could be written can still be written. *)
Definition world_after (ev : list (event N)) (w w' : World N) : Prop :=
  (forall p, ~ replaced ev p -> same_contents w w' p) /\ (forall p, w_writable w' p = w_writable w p).

(** The same arguments for a single pair and without output files. *)
Definition alone (args : CommandLineArgs) (r d : string) : CommandLineArgs := {|
  subcommand := subcommand args; batch_input_csv := None; reference_file := Some r; degraded_file := Some d;
  results_csv := None; verbose := verbose args; output_debug := None; search_window_radius := search_window_radius args |}.
(** What goes to the terminal. *)
Definition on_terminal (e : event N) : bool :=
  match e with EJson _ _ | ECsv _ _ => false | _ => true end.
End Again.
