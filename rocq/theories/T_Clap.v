(** C69: which command lines the tool accepts, for every arithmetic [N]. *)
From Verif Require Import Base Num M_Audio M_Visqol M_Cli M_Clap Spec Spec6 Spec9 WitnessZ P_Clap.

(** A release build runs exactly the usable command lines, with the arguments given and
    the documented defaults; all others end with a usage message. *)
Theorem C69_accepted : forall N (w : World N) g,
  (usable g -> exists args, arguments_of g args /\ tool Release w g = Ran (main Release w args)) /\
  (~ usable g -> tool Release w g = Refused).
Proof. exact C69_release. Qed.
Print Assumptions C69_accepted.

(** The demand that the two recordings are given together is not enforced: with one of
    them, or none, nothing is compared, the files asked for are emptied and the tool
    reports success. *)
Theorem C69_intended_refuted : forall N (w : World N) g args m,
  usable g -> g_batch g = None -> (g_reference g = None \/ g_degraded g = None) ->
  arguments_of g args -> tool_manager w args m ->
  (forall p, g_debug g = Some p \/ g_results g = Some p -> w_writable w p = true) ->
  tool Release w g = Ran (EVersion :: files_written (g_debug g) (g_results g) [] [], Ok tt).
Proof. exact C69_half. Qed.
Print Assumptions C69_intended_refuted.

(** A debug build (with clap's checks of the declarations) never starts: the two
    requirements name options that do not exist. *)
Theorem C69_debug_build_starts_refuted : forall N (w : World N) g, tool Debug w g = Crashed.
Proof. exact C69_debug. Qed.
Print Assumptions C69_debug_build_starts_refuted.

(** Only a reference; a batch and a reference; two recordings. *)
Definition line b r d : Given := {|
  g_subcommand := Some (GivenWideband false); g_batch := b; g_reference := r; g_degraded := d; g_results := None;
  g_verbose := false; g_debug := None; g_radius := Some (Some 0) |}.
Example C69_example :
  let a := Some "a.wav"%string in
  ~ intended (line None a None) /\ tool Release z_world (line None a None) = Ran ([EVersion], Ok tt) /\
  tool Release z_world (line (Some "batch.csv"%string) a None) = Refused /\
  exists args, arguments_of (line None a a) args /\ tool Release z_world (line None a a) = Ran (main Release z_world args).
Proof.
  cbv zeta. split; [|split; [|split]].
  - intros [_ [_ H]]. specialize (H eq_refl). discriminate.
  - eapply (C69_intended_refuted ZN z_world (line None (Some "a.wav"%string) None)
      {| subcommand := CmdWideband false; batch_input_csv := None; reference_file := Some "a.wav"%string; degraded_file := None;
         results_csv := None; verbose := false; output_debug := None; search_window_radius := 0 |} z_manager).
    + split; [discriminate|]. split; [cbn; lia|]. auto.
    + reflexivity.
    + right. reflexivity.
    + repeat split.
    + reflexivity.
    + intros p [H|H]; discriminate H.
  - apply (proj2 (C69_accepted ZN z_world _)). intros (_ & _ & [H|[H _]]); discriminate H.
  - apply (proj1 (C69_accepted ZN z_world _)). split; [discriminate|]. split; [cbn; lia|]. auto.
Qed.
