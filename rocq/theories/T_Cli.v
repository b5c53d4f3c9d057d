(** C44-C47: the command line tool, for every arithmetic [N]. *)
From Verif Require Import Base Num M_Audio M_Visqol M_Cli Spec WitnessZ P_Cli.

(** C44: the printed scores (and paths, if verbose) are those of the selected
    pairs in order, every pair compared by a fresh manager. *)
Theorem C44_order : forall N pf (w : World N) args ev,
  main pf w args = (ev, Ok tt) ->
  exists pairs m results, selects w args pairs /\ tool_manager w args m /\
    compared pf w args m pairs results /\ scores_printed ev = map moslqo results /\
    (verbose args = true -> paths_printed ev = List.concat (map (fun p => [fst p; snd p]) pairs)).
Proof. exact @C44_ok. Qed.
Print Assumptions C44_order.

(** C44: the first failing pair decides how the tool ends; nothing is written. *)
Theorem C44_first_failure : forall N pf (w : World N) args pre r d post m results,
  selects w args (pre ++ (r, d) :: post) -> tool_manager w args m -> compared pf w args m pre results ->
  (forall e, snd (run pf (tool_bands args) (w_wav w) m r d) = Err e -> main pf w args = ([], Err e)) /\
  (forall p, snd (run pf (tool_bands args) (w_wav w) m r d) = Panic p -> main pf w args = ([], Panic p)).
Proof. exact @C44_fail. Qed.
Print Assumptions C44_first_failure.

(** A batch of two pairs whose results have two and three patches. *)
Definition mixed csv := z_args csv (Some "mixed.csv"%string) None None.
Definition mixed_pairs : list (string * string) :=
  [("a.wav", "a.wav"); ("long.wav", "long.wav")]%string.
Example mixed_case csv : selects z_world (mixed csv) mixed_pairs /\ tool_manager z_world (mixed csv) z_manager /\
  exists r1 r2, compared Debug z_world (mixed csv) z_manager mixed_pairs [r1; r2] /\
    List.length (patch_sims r1) = 2%nat /\ List.length (patch_sims r2) = 3%nat.
Proof.
  split; [|split; [reflexivity|]].
  - eexists; split; [reflexivity|]. unfold batch_pairs. repeat (apply Forall2_cons; [eexists; split; reflexivity|]). apply Forall2_nil.
  - destruct (z_patches_some _ _ z_run_a) as (r1 & E1 & L1). destruct (z_patches_some _ _ z_run_long) as (r2 & E2 & L2).
    exists r1, r2. split; auto. exact (Forall2_cons (_, _) _ E1 (Forall2_cons (_, _) _ E2 (Forall2_nil _))).
Qed.
Example C44_example : exists ev, main Debug z_world (mixed None) = (ev, Ok tt) /\
  List.length (scores_printed ev) = 2%nat.
Proof.
  destruct (mixed_case None) as (S & T & r1 & r2 & C & _).
  rewrite (main_run _ _ _ _ _ _ S T C). eexists; split; reflexivity.
Qed.

(** The second of three pairs fails (different sample rates); so would the third. *)
Example C44_failure_example :
  main Debug z_world (z_args None (Some "bad.csv"%string) None None) =
    ([], Err (DifferentSampleRates 1 2)).
Proof.
  destruct (z_patches_some _ _ z_run_a) as (r1 & E1 & _).
  eapply (C44_first_failure ZN Debug z_world (z_args None (Some "bad.csv"%string) None None)
    [("a.wav", "a.wav")]%string "a.wav" "other.wav" [("missing.wav", "a.wav")]%string z_manager [r1]).
  - eexists; split; [reflexivity|]. unfold batch_pairs. repeat (apply Forall2_cons; [eexists; split; reflexivity|]). apply Forall2_nil.
  - reflexivity.
  - exact (Forall2_cons (_, _) _ E1 (Forall2_nil _)).
  - reflexivity.
Qed.

(** C45: afterwards the JSON file holds the last result only, whatever it held. *)
Theorem C45_last_result_only : forall N pf (w : World N) args ev path before,
  main pf w args = (ev, Ok tt) -> output_debug args = Some path ->
  exists pairs m results, selects w args pairs /\ tool_manager w args m /\
    compared pf w args m pairs results /\
    json_after path before ev = match rev results with [] => [] | r :: _ => [r] end.
Proof. exact @C45_json. Qed.
Print Assumptions C45_last_result_only.

(** C45: so it is never the documented one (the previous contents followed by the
    results) when there was previous contents or more than one result. *)
Theorem C45_appended_refuted : forall N pf (w : World N) args ev path before pairs m results,
  main pf w args = (ev, Ok tt) -> output_debug args = Some path ->
  selects w args pairs -> tool_manager w args m -> compared pf w args m pairs results ->
  (before <> [] \/ (2 <= List.length results)%nat) ->
  json_after path before ev <> before ++ results.
Proof. exact @C45_not_appended. Qed.
Print Assumptions C45_appended_refuted.

Example C45_example : exists ev r1 r2, main Debug z_world (mixed None) = (ev, Ok tt) /\
  output_debug (mixed None) = Some "debug.json"%string /\ r1 <> r2 /\
  compared Debug z_world (mixed None) z_manager mixed_pairs [r1; r2] /\
  json_after "debug.json" [r1] ev = [r2].
Proof.
  destruct (mixed_case None) as (S & T & r1 & r2 & C & L1 & L2).
  rewrite (main_run _ _ _ _ _ _ S T C). eexists _, r1, r2.
  split; [reflexivity|]. split; [reflexivity|]. split; [congruence|]. split; [auto|]. reflexivity.
Qed.

(** C46: the results file consists of one row per result, with the numbers of that
    result: no header, no paths. *)
Theorem C46_no_header_no_paths : forall N pf (w : World N) args ev path before,
  main pf w args = (ev, Ok tt) -> results_csv args = Some path ->
  exists pairs m results, selects w args pairs /\ tool_manager w args m /\
    compared pf w args m pairs results /\ csv_after path before ev = map result_row results.
Proof. exact @C46_rows. Qed.
Print Assumptions C46_no_header_no_paths.

(** C46: if a result has another number of patches than those before it the tool
    panics; the file then holds the rows before it and no score is printed. *)
Theorem C46_patch_counts_panic : forall N pf (w : World N) args path before pairs m pre r post n,
  results_csv args = Some path -> w_writable w path = true ->
  match output_debug args with Some p => w_writable w p = true | None => True end ->
  selects w args pairs -> tool_manager w args m -> compared pf w args m pairs (pre ++ r :: post) ->
  pre <> [] -> Forall (fun x => List.length (patch_sims x) = n) pre -> List.length (patch_sims r) <> n ->
  exists ev p, main pf w args = (ev, Panic p) /\ scores_printed ev = [] /\
    csv_after path before ev = map result_row pre.
Proof. exact @C46_panic. Qed.
Print Assumptions C46_patch_counts_panic.

Definition single csv := z_args csv None (Some "a.wav"%string) (Some "a.wav"%string).
Example C46_example : exists ev, main Debug z_world (single (Some "out.csv"%string)) = (ev, Ok tt).
Proof.
  destruct (z_patches_some _ _ z_run_a) as (r1 & E1 & _).
  erewrite (main_run _ _ (single _) [("a.wav", "a.wav")]%string z_manager [r1]).
  - eexists; reflexivity.
  - reflexivity.
  - reflexivity.
  - exact (Forall2_cons (_, _) _ E1 (Forall2_nil _)).
Qed.
Example C46_panic_example : exists r1 r2,
  let args := mixed (Some "out.csv"%string) in
  selects z_world args mixed_pairs /\ tool_manager z_world args z_manager /\
  compared Debug z_world args z_manager mixed_pairs ([r1] ++ r2 :: []) /\
  Forall (fun x => List.length (patch_sims x) = 2%nat) [r1] /\ List.length (patch_sims r2) <> 2%nat.
Proof.
  destruct (mixed_case (Some "out.csv"%string)) as (S & T & r1 & r2 & C & L1 & L2).
  exists r1, r2. cbv zeta. repeat split; auto. congruence.
Qed.

(** C47: both file arguments given: that pair, whatever the batch argument is. *)
Theorem C47_files_take_precedence : forall N pf (w : World N) args r d m,
  reference_file args = Some r -> degraded_file args = Some d -> tool_manager w args m ->
  (forall x, snd (run pf (tool_bands args) (w_wav w) m r d) = Ok x ->
     main pf w args = write_results w args [x] [(r, d)]) /\
  (forall e, snd (run pf (tool_bands args) (w_wav w) m r d) = Err e -> main pf w args = ([], Err e)) /\
  (forall p, snd (run pf (tool_bands args) (w_wav w) m r d) = Panic p -> main pf w args = ([], Panic p)).
Proof. exact @C47_single. Qed.
Print Assumptions C47_files_take_precedence.

(** C47: otherwise the rows of the batch file, in order, or nothing. *)
Theorem C47_batch : forall N (w : World N) args pairs,
  (reference_file args = None \/ degraded_file args = None) ->
  build_file_pair_paths w args = Ok pairs <->
  match batch_input_csv args with
  | Some f => exists rows, w_csv w f = Some rows /\ batch_pairs rows pairs
  | None => pairs = []
  end.
Proof. exact @C47_rows. Qed.
Print Assumptions C47_batch.

(** C47: the outcome of the tool on any selected pairs. *)
Theorem C47_compares_selected : forall N pf (w : World N) args pairs m results,
  selects w args pairs -> tool_manager w args m -> compared pf w args m pairs results ->
  main pf w args = write_results w args results pairs.
Proof. exact @main_run. Qed.
Print Assumptions C47_compares_selected.

Example C47_example :
  let args := z_args None (Some "mixed.csv"%string) (Some "a.wav"%string) (Some "other.wav"%string) in
  main Debug z_world args = ([], Err (DifferentSampleRates 1 2)).
Proof. reflexivity. Qed.
Example C47_batch_example :
  build_file_pair_paths z_world (z_args None (Some "mixed.csv"%string) None (Some "x.wav"%string)) = Ok mixed_pairs.
Proof. reflexivity. Qed.
