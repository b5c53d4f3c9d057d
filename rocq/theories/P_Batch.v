(** Proofs of C64: the batch file. *)
From Coq Require Import Lia.
From Verif Require Import Base Num M_Audio M_Visqol M_Cli Spec Spec6 P_Base P_Run P_Cli.

Section Batch.
Context {N : NumOps}.

Lemma build_batch (w : World N) args f : (reference_file args = None \/ degraded_file args = None) -> batch_input_csv args = Some f ->
  build_file_pair_paths w args = read_files_to_compare w f.
Proof.
  intros H E. unfold build_file_pair_paths. rewrite E.
  destruct (reference_file args); [|reflexivity]. destruct (degraded_file args); [|reflexivity]. destruct H; discriminate.
Qed.
Lemma main_ext pf (w w' : World N) args : build_file_pair_paths w args = build_file_pair_paths w' args ->
  w_wav w = w_wav w' -> w_model w = w_model w' -> w_writable w = w_writable w' -> main pf w args = main pf w' args.
Proof.
  intros E1 E2 E3 E4. unfold main, variant_of, write_results, write_debug_json, write_results_to_csv. rewrite E1, E2, E3, E4. reflexivity.
Qed.
Lemma read_readable (w : World N) f header lines : readable header -> w_csv w f = Some (header :: lines) ->
  read_files_to_compare w f = mapM (read_line (columns header)) lines.
Proof. intros R E. unfold read_files_to_compare. rewrite E. destruct header; [destruct R|reflexivity..]. Qed.

Lemma C64_first_row pf (w w' : World N) args f h h' lines :
  (reference_file args = None \/ degraded_file args = None) -> batch_input_csv args = Some f ->
  w_csv w f = Some (h :: lines) -> w_csv w' f = Some (h' :: lines) -> readable h -> readable h' -> columns h = columns h' ->
  w_wav w = w_wav w' -> w_model w = w_model w' -> w_writable w = w_writable w' -> main pf w args = main pf w' args.
Proof.
  intros A B E E' R R' C. apply main_ext. rewrite !(build_batch _ _ _ A B), (read_readable _ _ _ _ R E), (read_readable _ _ _ _ R' E'), C. reflexivity.
Qed.

Lemma mapM_app_err {A B} (g : A -> res B) l1 x l2 bs : mapM g l1 = Ok bs ->
  (forall e, g x = Err e -> mapM g (l1 ++ x :: l2) = Err e) /\ (forall p, g x = Panic p -> mapM g (l1 ++ x :: l2) = Panic p).
Proof.
  revert bs. induction l1 as [|a l IH]; intros bs H.
  - split; intros ? E; cbn; rewrite E; reflexivity.
  - cbn in H. destruct (g a) as [b| |] eqn:Ea; try discriminate. cbn in H. destruct (mapM g l) as [bs'| |] eqn:El; try discriminate.
    destruct (IH bs' eq_refl) as [I1 I2]. cbn. rewrite Ea. cbn. split; intros ? E; [rewrite (I1 _ E)|rewrite (I2 _ E)]; reflexivity.
Qed.
Lemma build_fail pf (w : World N) args :
  (forall e, build_file_pair_paths w args = Err e -> main pf w args = ([], Err e)) /\
  (forall p, build_file_pair_paths w args = Panic p -> main pf w args = ([], Panic p)).
Proof. unfold main. split; intros ? E; rewrite E; reflexivity. Qed.

Lemma C64_bad_row pf (w : World N) args f h good bad more pairs :
  (reference_file args = None \/ degraded_file args = None) -> batch_input_csv args = Some f ->
  w_csv w f = Some (h :: good ++ bad :: more) -> batch_pairs (h :: good) pairs ->
  columns bad <> columns h \/ (forall fields, bad <> CsvRecord fields) ->
  exists code, main pf w args = ([], Err (CsvError code)).
Proof.
  intros A B E P Bad.
  assert (R : readable h) by (destruct h; [destruct P|exact I|exact I]).
  assert (G : mapM (read_line (columns h)) good = Ok pairs) by (apply read_lines_ok; destruct h; [destruct P|exact P|exact P]).
  destruct (mapM_app_err (read_line (columns h)) good bad more pairs G) as [F _].
  assert (X : exists code, read_line (columns h) bad = Err (CsvError code)).
  { unfold read_line. destruct bad as [c|k|fields]; [eauto| |]; destruct (Nat.eqb_spec (columns (CsvNotText k)) (columns h)) as [Q|Q] || destruct (Nat.eqb_spec (columns (CsvRecord fields)) (columns h)) as [Q|Q];
      cbn [negb]; eauto.
    destruct Bad as [Bad|Bad]; [contradiction|]. destruct (Bad fields eq_refl). }
  destruct X as (code & X). exists code. apply build_fail. rewrite (build_batch _ _ _ A B), (read_readable _ _ _ _ R E). apply F, X.
Qed.
Lemma C64_one_column pf (w : World N) args f h field more :
  (reference_file args = None \/ degraded_file args = None) -> batch_input_csv args = Some f ->
  w_csv w f = Some (h :: CsvRecord [field] :: more) -> columns h = 1%nat -> exists p, main pf w args = ([], Panic p).
Proof.
  intros A B E C. eexists. apply build_fail.
  assert (R : readable h) by (destruct h; [discriminate C|exact I|exact I]).
  rewrite (build_batch _ _ _ A B), (read_readable _ _ _ _ R E), C. reflexivity.
Qed.
Lemma C64_no_file pf (w : World N) args f :
  (reference_file args = None \/ degraded_file args = None) -> batch_input_csv args = Some f ->
  w_csv w f = None -> exists p, main pf w args = ([], Panic p).
Proof. intros A B E. eexists. apply build_fail. rewrite (build_batch _ _ _ A B). unfold read_files_to_compare. rewrite E. reflexivity. Qed.
Lemma C64_unreadable pf (w : World N) args f c more :
  (reference_file args = None \/ degraded_file args = None) -> batch_input_csv args = Some f ->
  w_csv w f = Some (CsvBad c :: more) -> main pf w args = ([], Err (CsvError c)).
Proof. intros A B E. apply build_fail. rewrite (build_batch _ _ _ A B). unfold read_files_to_compare. rewrite E. reflexivity. Qed.
Lemma C64_nothing pf (w : World N) args m : selects w args [] -> tool_manager w args m ->
  (forall p, output_debug args = Some p \/ results_csv args = Some p -> w_writable w p = true) ->
  main pf w args = (EVersion :: files_written (output_debug args) (results_csv args) [] [], Ok tt).
Proof.
  intros S M W. rewrite (main_run pf w args [] m [] S M (Forall2_nil _)).
  unfold write_results, write_debug_json, write_results_to_csv, files_written.
  destruct (output_debug args) as [p|]; [rewrite (W p (or_introl eq_refl))|]; (destruct (results_csv args) as [q|]; [rewrite (W q (or_intror eq_refl))|]); reflexivity.
Qed.
End Batch.
