(** Proofs for C69. *)
From Verif Require Import Base Num M_Audio M_Visqol M_Cli M_Clap Spec Spec6 Spec9 P_Cli P_Batch.

Lemma conflict_is g : conflicting declared g = is_some (g_batch g) && (is_some (g_reference g) || is_some (g_degraded g)).
Proof.
  unfold conflicting, declared. cbn [existsb arg_id arg_conflicts].
  cbv [known declared existsb arg_id present String.eqb Ascii.eqb Bool.eqb orb].
  destruct (g_batch g), (g_reference g), (g_degraded g), (g_results g), (g_verbose g), (g_debug g), (g_radius g); reflexivity.
Qed.
Lemma missing_is g : missing declared g = false.
Proof.
  unfold missing, declared. cbn [existsb arg_id arg_requires].
  cbv [known declared existsb arg_id present String.eqb Ascii.eqb Bool.eqb orb].
  destruct (g_batch g), (g_reference g), (g_degraded g), (g_results g), (g_verbose g), (g_debug g), (g_radius g); reflexivity.
Qed.
Lemma not_well_declared : well_declared declared = false.
Proof. reflexivity. Qed.

Lemma C69_debug (N : NumOps) (w : World N) g : tool Debug w g = Crashed.
Proof. unfold tool, parse. rewrite not_well_declared. reflexivity. Qed.

Lemma C69_release (N : NumOps) (w : World N) g :
  (usable g -> exists args, arguments_of g args /\ tool Release w g = Ran (main Release w args)) /\
  (~ usable g -> tool Release w g = Refused).
Proof.
  unfold tool, parse. rewrite missing_is, conflict_is, Bool.orb_false_r.
  destruct g as [sub b r d res v deb rad]; unfold usable, arguments_of, radius_of;
    cbn [g_subcommand g_batch g_reference g_degraded g_results g_verbose g_debug g_radius].
  split.
  - intros (S & R & C). destruct sub as [sub|]; [|congruence].
    assert (E : is_some b && (is_some r || is_some d) = false).
    { destruct C as [-> |[-> ->]]; [reflexivity|]. destruct b; reflexivity. }
    destruct rad as [[z|]|]; [| contradiction |].
    + destruct (Z.leb_spec 0 z); [|lia]. destruct (Z.ltb_spec z (2 ^ 64)); [|lia]. cbn [andb]. rewrite E.
      eexists. split; [|reflexivity]. cbn [subcommand batch_input_csv reference_file degraded_file results_csv verbose output_debug search_window_radius].
      repeat split. destruct sub as [|[p|]]; reflexivity.
    + rewrite E. eexists. split; [|reflexivity]. cbn [subcommand batch_input_csv reference_file degraded_file results_csv verbose output_debug search_window_radius].
      repeat split. destruct sub as [|[p|]]; reflexivity.
  - intros U. destruct sub as [sub|]; [|reflexivity].
    destruct (is_some b && (is_some r || is_some d)) eqn:E.
    + destruct rad as [[z|]|]; [destruct ((0 <=? z) && (z <? 2 ^ 64))|..]; reflexivity.
    + destruct rad as [[z|]|]; [|reflexivity|].
      * destruct (Z.leb_spec 0 z); [|reflexivity]. destruct (Z.ltb_spec z (2 ^ 64)); [|reflexivity].
        exfalso. apply U. split; [discriminate|]. split; [lia|]. destruct b, r, d; try discriminate; auto.
      * exfalso. apply U. split; [discriminate|]. split; [exact I|]. destruct b, r, d; try discriminate; auto.
Qed.

Lemma C69_half (N : NumOps) (w : World N) g args m : usable g -> g_batch g = None -> (g_reference g = None \/ g_degraded g = None) ->
  arguments_of g args -> tool_manager w args m ->
  (forall p, g_debug g = Some p \/ g_results g = Some p -> w_writable w p = true) ->
  tool Release w g = Ran (EVersion :: files_written (g_debug g) (g_results g) [] [], Ok tt).
Proof.
  intros U B H A T W. destruct (proj1 (C69_release N w g) U) as (args' & A' & ->). f_equal.
  assert (args' = args) as ->.
  { destruct A as (A0 & A1 & A2 & A3 & A4 & A5 & A6 & A7), A' as (B0 & B1 & B2 & B3 & B4 & B5 & B6 & B7).
    destruct args, args'; cbn in *. f_equal; try congruence.
    - destruct (g_subcommand g) as [[|[]]|]; congruence || contradiction.
    - destruct (g_radius g) as [[]|]; congruence || contradiction. }
  destruct A as (A0 & A1 & A2 & A3 & A4 & A5 & A6 & A7). rewrite <- A4, <- A6.
  apply (C64_nothing Release w args m); auto.
  - unfold selects. rewrite A1, A2, A3, B. destruct H as [-> | ->]; [|destruct (g_reference g)]; reflexivity.
  - rewrite A4, A6. exact W.
Qed.
