(** C74: the example programs and the tool. *)
From Verif Require Import Base Num M_Audio M_Visqol M_Cli M_Clap M_Example Spec Spec9 P_Clap.
Open Scope Z_scope.

Section Ex.
Context {N : NumOps}.
Definition one_pair (u : bool) (radius : Z) (r d : string) : CommandLineArgs := {|
  subcommand := CmdWideband u; batch_input_csv := None; reference_file := Some r; degraded_file := Some d;
  results_csv := None; verbose := false; output_debug := None; search_window_radius := radius |}.
Lemma main_one pf (w : World N) u radius r d :
  main pf w (one_pair u radius r d) =
  match new_manager 21 (Wideband u) radius with
  | Err e => ([], Err e)
  | Panic p => ([], Panic p)
  | Ok m => match snd (run pf 21 (w_wav w) m r d) with
            | Err e => ([], Err e)
            | Panic p => ([], Panic p)
            | Ok x => ([EVersion; EMos (moslqo x)], Ok tt)
            end
  end.
Proof.
  unfold main. cbn [build_file_pair_paths reference_file degraded_file one_pair bind].
  change (bands_of (one_pair u radius r d)) with 21%nat. change (variant_of w (one_pair u radius r d)) with (Wideband (N:=N) u).
  change (search_window_radius (one_pair u radius r d)) with radius.
  destruct (new_manager 21 (Wideband u) radius) as [m|e|p]; [|reflexivity|reflexivity]. cbn [bind run_all].
  destruct (run pf 21 (w_wav w) m r d) as [m' x]. destruct x as [x|e|p]; reflexivity.
Qed.
Lemma tool_one (w : World N) u radius r d : 0 <= radius < 2 ^ 64 ->
  tool Release w {| g_subcommand := Some (GivenWideband u); g_batch := None; g_reference := Some r; g_degraded := Some d;
    g_results := None; g_verbose := false; g_debug := None; g_radius := Some (Some radius) |} =
  Ran (main Release w (one_pair u radius r d)).
Proof.
  intros H. set (g := Build_Given _ _ _ _ _ _ _ _).
  assert (U : usable g) by (split; [discriminate|]; split; [exact H|left; reflexivity]).
  destruct (proj1 (C69_release N w g) U) as (args & A & ->). f_equal. f_equal.
  destruct args as [a1 a2 a3 a4 a5 a6 a7 a8]. unfold arguments_of in A. cbn in A.
  destruct A as (-> & -> & -> & -> & -> & -> & -> & ->). reflexivity.
Qed.

Lemma example_tool (w : World N) : let line := {| g_subcommand := Some (GivenWideband false); g_batch := None;
    g_reference := Some "./test_data/clean_speech/reference_signal.wav"%string;
    g_degraded := Some "./test_data/clean_speech/degraded_signal.wav"%string;
    g_results := None; g_verbose := false; g_debug := None; g_radius := Some (Some 32) |} in
  (forall path s, example_main (N:=N) Release (w_wav w) = ([(path, s)], Ok tt) <->
     path = "./test_data/clean_speech/degraded_signal.wav"%string /\ tool Release w line = Ran ([EVersion; EMos s], Ok tt)) /\
  (forall e, example_main (N:=N) Release (w_wav w) = ([], Err e) <-> tool Release w line = Ran ([], Err e)) /\
  (forall p, example_main (N:=N) Release (w_wav w) = ([], Panic p) <-> tool Release w line = Ran ([], Panic p)).
Proof.
  intros line. unfold line. rewrite tool_one by lia. rewrite main_one. unfold example_main.
  change NUM_BANDS_SPEECH with 21%nat. change DEFAULT_WINDOW_SIZE with 32.
  change path_to_reference_file with "./test_data/clean_speech/reference_signal.wav"%string.
  change path_to_degraded_file with "./test_data/clean_speech/degraded_signal.wav"%string.
  destruct (new_manager 21 (Wideband false) 32) as [m|e|p].
  2,3: repeat split; intros; repeat match goal with H : _ /\ _ |- _ => destruct H end; congruence.
  destruct (snd (run Release 21 (w_wav w) m _ _)) as [x|e|p]; repeat split; intros; repeat match goal with H : _ /\ _ |- _ => destruct H end; congruence.
Qed.
Lemma documented_tool (w : World N) : let line := {| g_subcommand := Some (GivenWideband true); g_batch := None;
    g_reference := Some "./test_data/clean_speech/reference_signal.wav"%string;
    g_degraded := Some "./test_data/clean_speech/degraded_signal.wav"%string;
    g_results := None; g_verbose := false; g_debug := None; g_radius := Some (Some 32) |} in
  (forall path s, documented_main (N:=N) Release (w_wav w) = ([(path, s)], Ok tt) <->
     path = "./test_data/clean_speech/degraded_signal.wav"%string /\ tool Release w line = Ran ([EVersion; EMos s], Ok tt)) /\
  ((exists p, documented_main (N:=N) Release (w_wav w) = ([], Panic p)) <->
     (exists e, tool Release w line = Ran ([], Err e)) \/ (exists p, tool Release w line = Ran ([], Panic p))) /\
  (forall e, documented_main (N:=N) Release (w_wav w) <> ([], Err e)).
Proof.
  intros line. unfold line. rewrite tool_one by lia. rewrite main_one. unfold documented_main.
  change NUM_BANDS_SPEECH with 21%nat. change DEFAULT_WINDOW_SIZE with 32.
  change path_to_reference_file with "./test_data/clean_speech/reference_signal.wav"%string.
  change path_to_degraded_file with "./test_data/clean_speech/degraded_signal.wav"%string.
  assert (NM : exists m, new_manager (N:=N) 21 (Wideband true) 32 = Ok m) by (eexists; reflexivity). destruct NM as (m & ->).
  destruct (snd (run Release 21 (w_wav w) m _ _)) as [x|e|p]; repeat split; intros;
    repeat match goal with H : _ /\ _ |- _ => destruct H | H : ex _ |- _ => destruct H | H : _ \/ _ |- _ => destruct H end; try congruence; eauto.
Qed.
End Ex.
