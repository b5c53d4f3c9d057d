(** C64: the batch file, for every arithmetic [N]. *)
From Verif Require Import Base Num M_Audio M_Visqol M_Cli Spec Spec6 WitnessZ P_Cli P_Batch T_Cli.

(** The first row is never compared and its text has no effect at all: files that
    differ in their first row only, with equally many fields, give the same output. *)
Theorem C64_first_row_is_ignored : forall N pf (w w' : World N) args f first first' lines,
  (reference_file args = None \/ degraded_file args = None) -> batch_input_csv args = Some f ->
  w_csv w f = Some (first :: lines) -> w_csv w' f = Some (first' :: lines) ->
  readable first -> readable first' -> columns first = columns first' ->
  w_wav w = w_wav w' -> w_model w = w_model w' -> w_writable w = w_writable w' -> main pf w args = main pf w' args.
Proof. exact @C64_first_row. Qed.
Print Assumptions C64_first_row_is_ignored.

(** A row with another number of fields than the first row, or one that is not UTF-8 or
    cannot be read: an error, and none of the rows before it is compared. *)
Theorem C64_bad_row_is_an_error : forall N pf (w : World N) args f first good bad more pairs,
  (reference_file args = None \/ degraded_file args = None) -> batch_input_csv args = Some f ->
  w_csv w f = Some (first :: good ++ bad :: more) -> batch_pairs (first :: good) pairs ->
  columns bad <> columns first \/ (forall fields, bad <> CsvRecord fields) ->
  exists code, main pf w args = ([], Err (CsvError code)).
Proof. exact @C64_bad_row. Qed.
Print Assumptions C64_bad_row_is_an_error.

(** The same if the first row cannot be read. *)
Theorem C64_unreadable_first_row : forall N pf (w : World N) args f code more,
  (reference_file args = None \/ degraded_file args = None) -> batch_input_csv args = Some f ->
  w_csv w f = Some (CsvBad code :: more) -> main pf w args = ([], Err (CsvError code)).
Proof. exact @C64_unreadable. Qed.
Print Assumptions C64_unreadable_first_row.

(** A file with a single column (another separator, say) is a panic, not an error. *)
Theorem C64_one_column_panics : forall N pf (w : World N) args f first field more,
  (reference_file args = None \/ degraded_file args = None) -> batch_input_csv args = Some f ->
  w_csv w f = Some (first :: CsvRecord [field] :: more) -> columns first = 1%nat -> exists p, main pf w args = ([], Panic p).
Proof. exact @C64_one_column. Qed.
Print Assumptions C64_one_column_panics.

(** So is a file that cannot be opened. *)
Theorem C64_missing_file_panics : forall N pf (w : World N) args f,
  (reference_file args = None \/ degraded_file args = None) -> batch_input_csv args = Some f ->
  w_csv w f = None -> exists p, main pf w args = ([], Panic p).
Proof. exact @C64_no_file. Qed.
Print Assumptions C64_missing_file_panics.

(** With no pair selected the tool succeeds: it prints the version and empties the files
    asked for. *)
Theorem C64_nothing_to_compare : forall N pf (w : World N) args m, selects w args [] -> tool_manager w args m ->
  (forall p, output_debug args = Some p \/ results_csv args = Some p -> w_writable w p = true) ->
  main pf w args = (EVersion :: files_written (output_debug args) (results_csv args) [] [], Ok tt).
Proof. exact @C64_nothing. Qed.
Print Assumptions C64_nothing_to_compare.

(** The world of [z_world] with [rows] in every batch file. *)
Definition batch_world rows : World ZN := {| w_wav := w_wav z_world; w_model := w_model z_world; w_csv := fun _ => Some rows; w_writable := fun _ => true |}.

(** Without a header row the first pair is lost: it could as well be missing files. *)
Example C64_no_header_example :
  let lines := [CsvRecord ["long.wav"; "long.wav"]]%string in
  main Debug (batch_world (CsvRecord ["a.wav"; "a.wav"]%string :: lines)) (mixed None) =
  main Debug (batch_world (CsvRecord ["missing.wav"; "missing.wav"]%string :: lines)) (mixed None) /\
  selects (batch_world (CsvRecord ["a.wav"; "a.wav"]%string :: lines)) (mixed None) [("long.wav", "long.wav")]%string.
Proof.
  split.
  - eapply (C64_first_row_is_ignored ZN Debug _ _ (mixed None) "mixed.csv"); try reflexivity; try exact I. left; reflexivity.
  - eexists. split; [reflexivity|]. constructor; [|constructor]. eexists. split; reflexivity.
Qed.
(** Swapped column names do not swap the files. *)
Example C64_swapped_names_example :
  selects (batch_world [CsvRecord ["degraded"; "reference"]; CsvRecord ["a.wav"; "b.wav"]]%string) (mixed None) [("a.wav", "b.wav")]%string.
Proof. eexists. split; [reflexivity|]. constructor; [|constructor]. eexists. split; reflexivity. Qed.
(** A stray comma in the second pair: the first is not compared either. *)
Example C64_bad_row_example : exists code,
  main Debug (batch_world [CsvRecord ["reference"; "degraded"]; CsvRecord ["a.wav"; "a.wav"]; CsvRecord ["a.wav"; "a.wav"; ""]]%string) (mixed None) =
  ([], Err (CsvError code)).
Proof.
  eapply (C64_bad_row_is_an_error ZN Debug _ (mixed None) "mixed.csv" _ [CsvRecord ["a.wav"; "a.wav"]%string] _ [] [("a.wav", "a.wav")]%string);
    [left; reflexivity|reflexivity|reflexivity| |left; cbn; discriminate].
  constructor; [|constructor]. eexists. split; reflexivity.
Qed.
Example C64_nothing_example :
  main Debug (batch_world [CsvRecord ["a.wav"; "a.wav"]]%string) (mixed None) = ([EVersion; EJson "debug.json" None], Ok tt).
Proof.
  apply (C64_nothing_to_compare ZN Debug _ (mixed None) z_manager); [|reflexivity|reflexivity].
  eexists. split; [reflexivity|]. constructor.
Qed.
