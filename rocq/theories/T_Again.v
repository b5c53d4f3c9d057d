(** C66: what the tool's output depends on, for every arithmetic [N]. *)
From Verif Require Import Base Num M_Audio M_Visqol M_Cli Spec Spec7 WitnessZ P_Cli P_Again T_Cli.

(** Two worlds with the same contents of the files that are read, in which the same
    output files can be written, give the same output. *)
Theorem C66_only_named_files_matter : forall N pf (w w' : World N) args,
  (forall p, reads w args p -> same_contents w w' p) -> (forall p, writes args p -> w_writable w' p = w_writable w p) ->
  main pf w' args = main pf w args.
Proof. exact @C66_frame_lemma. Qed.
Print Assumptions C66_only_named_files_matter.

(** No other file than the two output files is touched, however the tool ends. *)
Theorem C66_only_outputs_are_touched : forall N pf (w : World N) args p,
  replaced (fst (main pf w args)) p -> writes args p.
Proof. exact @main_replaces. Qed.
Print Assumptions C66_only_outputs_are_touched.

(** Repeating an invocation repeats its output, if no output file is also an input. *)
Theorem C66_repeatable : forall N pf (w w' : World N) args ev o,
  main pf w args = (ev, o) -> world_after ev w w' -> (forall p, writes args p -> ~ reads w args p) ->
  main pf w' args = (ev, o).
Proof. exact @C66_again_lemma. Qed.
Print Assumptions C66_repeatable.

(** Otherwise it need not: the tool replaces a recording it was told to compare. *)
Theorem C66_repeatable_refuted : exists (w w' : World ZN) args ev, main Debug w args = (ev, Ok tt) /\ world_after ev w w' /\
  main Debug w' args <> (ev, Ok tt).
Proof. exact C66_refuted_lemma. Qed.
Print Assumptions C66_repeatable_refuted.

(** A batch is the tool run on each pair alone: it succeeds if and only if each of these
    runs does, and prints what they print, one after the other ... *)
Theorem C66_batch_is_single_runs : forall N pf (w : World N) args m pairs ev,
  selects w args pairs -> tool_manager w args m -> output_debug args = None -> results_csv args = None ->
  main pf w args = (ev, Ok tt) <->
  exists reports, Forall2 (fun p e => main pf w (alone args (fst p) (snd p)) = (EVersion :: e, Ok tt)) pairs reports /\
    ev = EVersion :: List.concat reports.
Proof. exact @C66_batch_lemma. Qed.
Print Assumptions C66_batch_is_single_runs.

(** ... and the output files do not change what is printed. *)
Theorem C66_terminal_output : forall N pf (w : World N) args ev, main pf w args = (ev, Ok tt) ->
  exists pairs reports, selects w args pairs /\
    Forall2 (fun p e => main pf w (alone args (fst p) (snd p)) = (EVersion :: e, Ok tt)) pairs reports /\
    filter on_terminal ev = EVersion :: List.concat reports.
Proof. exact @C66_terminal_lemma. Qed.
Print Assumptions C66_terminal_output.

(** The batch [mixed]: two pairs, a debug file, no results file. *)
Example C66_example : exists ev, main Debug z_world (mixed None) = (ev, Ok tt) /\ world_after ev z_world z_world /\
  (forall p, writes (mixed None) p -> ~ reads z_world (mixed None) p) /\ replaced ev "debug.json".
Proof.
  destruct (mixed_case None) as (S & T & r1 & r2 & C & _). eexists.
  split; [rewrite (main_run _ _ _ _ _ _ S T C); reflexivity|]. split; [split; [intros; repeat split|]; reflexivity|]. split.
  - intros p [[= <-]|H]; [|discriminate H]. intros [(_ & [= E])|[E|(pairs & r & d & Hs & Hi & E)]]; try discriminate E.
    apply build_pairs in Hs. apply build_pairs in S. rewrite S in Hs. injection Hs as <-.
    destruct Hi as [[= <- <-]|[[= <- <-]|[]]]; destruct E as [E|E]; discriminate E.
  - left. eexists. right. left. reflexivity.
Qed.
