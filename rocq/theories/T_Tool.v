(** C60: the whole output of the command line tool, for every arithmetic [N]. *)
From Verif Require Import Base Num M_Audio M_Visqol M_Cli Spec Spec6 WitnessZ P_Cli P_Tool T_Cli.

(** Everything a successful invocation writes, in order: the version, the files asked
    for, then for every pair its report; the tables have a row for each of the 21
    (wideband) or 32 (fullband) bands and for each patch. *)
Theorem C60_whole_output : forall N pf (w : World N) args ev, main pf w args = (ev, Ok tt) ->
  exists pairs m results reports, selects w args pairs /\ tool_manager w args m /\ compared pf w args m pairs results /\
    ev = EVersion :: files_written (output_debug args) (results_csv args) results (map result_row results) ++ List.concat reports /\
    Forall2 (fun pr e => reported (verbose args) (match subcommand args with CmdWideband _ => 21%nat | CmdFullband _ => 32%nat end)
                           (fst (fst pr)) (snd (fst pr)) (snd pr) e) (combine pairs results) reports.
Proof. exact @C60_all. Qed.
Print Assumptions C60_whole_output.

(** If the debug file cannot be written the tool panics after all the comparisons and
    nothing but the version is output. *)
Theorem C60_unwritable_debug_file : forall N pf (w : World N) args pairs m results path,
  selects w args pairs -> tool_manager w args m -> compared pf w args m pairs results ->
  output_debug args = Some path -> w_writable w path = false -> exists p, main pf w args = ([EVersion], Panic p).
Proof. exact @C60_json. Qed.
Print Assumptions C60_unwritable_debug_file.

(** If the results file cannot be written, the debug file is written and no score is
    printed. *)
Theorem C60_unwritable_results_file : forall N pf (w : World N) args pairs m results path,
  selects w args pairs -> tool_manager w args m -> compared pf w args m pairs results ->
  match output_debug args with Some p => w_writable w p = true | None => True end ->
  results_csv args = Some path -> w_writable w path = false ->
  exists p, main pf w args = (EVersion :: files_written (output_debug args) None results [], Panic p).
Proof. exact @C60_csv. Qed.
Print Assumptions C60_unwritable_results_file.

(** The two pairs of [mixed], with --verbose, and on a disk where nothing can be
    written. *)
Definition loud : CommandLineArgs := {|
  subcommand := CmdWideband false; batch_input_csv := Some "mixed.csv"%string; reference_file := None; degraded_file := None;
  results_csv := None; verbose := true; output_debug := None; search_window_radius := 0 |}.
Definition full_disk : World ZN := {| w_wav := w_wav z_world; w_model := w_model z_world; w_csv := w_csv z_world; w_writable := fun _ => false |}.
Example C60_example : exists ev, main Debug z_world loud = (ev, Ok tt) /\ List.length (paths_printed ev) = 4%nat.
Proof.
  destruct (mixed_case None) as (S & T & r1 & r2 & C & _).
  rewrite (main_run Debug z_world loud mixed_pairs z_manager [r1; r2] S T C). eexists; split; reflexivity.
Qed.
Example C60_unwritable_example : exists r1 r2 p,
  compared Debug full_disk (mixed None) z_manager mixed_pairs [r1; r2] /\ main Debug full_disk (mixed None) = ([EVersion], Panic p).
Proof.
  destruct (mixed_case None) as (S & T & r1 & r2 & C & _).
  destruct (C60_unwritable_debug_file ZN Debug full_disk (mixed None) mixed_pairs z_manager [r1; r2] "debug.json" S T C eq_refl eq_refl) as (p & E).
  exists r1, r2, p. split; [exact C|exact E].
Qed.
