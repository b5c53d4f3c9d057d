(** C68: the files written by the tool can be read back. *)
From Flocq Require Import Core BinarySingleNaN.
From Verif Require Import Base Num F64 M_Audio M_Nsim M_Visqol M_Cli M_Text Spec Spec8 WitnessZ P_Cli P_Text P_Text2 T_Cli.

(** The debug file is a JSON document with the documented fields of the last result;
    every finite number is there in decimal, every other number as null.  If nothing
    was compared the file is empty.  (For every arithmetic and every printer of numbers
    whose output is a JSON number standing for the number.) *)
Theorem C68_debug_file_is_json : forall N finite reads fmt pf (w : World N) args ev path before,
  prints_numbers finite reads fmt ->
  main pf w args = (ev, Ok tt) -> output_debug args = Some path -> results_csv args <> Some path ->
  exists pairs m results, selects w args pairs /\ tool_manager w args m /\ compared pf w args m pairs results /\
    match rev results with
    | [] => text_after finite fmt path before ev = ""%string
    | last :: _ => exists j, read_json (text_after finite fmt path before ev) = Some j /\ shows_result finite reads j last
    end.
Proof. exact @C68_json. Qed.
Print Assumptions C68_debug_file_is_json.

(** So after comparing nothing the debug file is not a JSON document. *)
Theorem C68_always_json_refuted : forall N finite fmt pf (w : World N) args ev path before,
  main pf w args = (ev, Ok tt) -> output_debug args = Some path -> results_csv args <> Some path -> selects w args [] ->
  read_json (text_after finite fmt path before ev) = None.
Proof. exact @C68_empty. Qed.
Print Assumptions C68_always_json_refuted.

(** Reading the document back gives the result to the last bit, if all its numbers are
    finite: binary64 results with the same debug text are equal. *)
Theorem C68_nothing_lost : forall lm fmt (r1 r2 : SimilarityResult (F64 lm)),
  prints_numbers (N:=F64 lm) (@is_finite 53 1024) reads_as fmt ->
  finite_result (N:=F64 lm) (@is_finite 53 1024) r1 -> finite_result (N:=F64 lm) (@is_finite 53 1024) r2 ->
  json_text (N:=F64 lm) (@is_finite 53 1024) fmt (Some r1) = json_text (N:=F64 lm) (@is_finite 53 1024) fmt (Some r2) ->
  r1 = r2.
Proof. exact C68_injective. Qed.
Print Assumptions C68_nothing_lost.

(** Without that condition it does not: NaN and infinity are both null. *)
Theorem C68_not_finite_refuted : forall lm, exists r1 r2 : SimilarityResult (F64 lm),
  r1 <> r2 /\ forall fmt, json_text (N:=F64 lm) (@is_finite 53 1024) fmt (Some r1) = json_text (N:=F64 lm) (@is_finite 53 1024) fmt (Some r2).
Proof. exact C68_nan_inf. Qed.
Print Assumptions C68_not_finite_refuted.

(** The results file has one line per result, with the numbers of that result separated
    by commas (also if the debug file was written to the same path before). *)
Theorem C68_results_file : forall N finite reads fmt pf (w : World N) args ev path before,
  prints_numbers finite reads fmt ->
  main pf w args = (ev, Ok tt) -> results_csv args = Some path ->
  exists pairs m results, selects w args pairs /\ tool_manager w args m /\ compared pf w args m pairs results /\
    Forall2 (Forall2 (cell_shows finite reads)) (read_csv (text_after finite fmt path before ev)) (map result_row results).
Proof. exact @C68_csv. Qed.
Print Assumptions C68_results_file.

(** A printer of binary64 numbers with these properties, and one for the integers of
    the example of C44, whose second result has three patches. *)
Example C68_printer : forall lm, prints_numbers (N:=F64 lm) (@is_finite 53 1024) reads_as exact_text.
Proof. exact exact_prints. Qed.
Example C68_example : exists ev j, main Debug z_world (mixed None) = (ev, Ok tt) /\
  read_json (text_after (N:=ZN) (fun _ => true) z_text "debug.json" "old" ev) = Some j /\
  match j with JObj m => map fst m = ["moslqo"; "vnsim"; "fvnsim"; "fstdnsim"; "fvdegenergy"; "center_freq_bands"; "patch_sims"]%string /\
    match last (map snd m) JNull with JArr ps => List.length ps = 3%nat | _ => False end | _ => False end.
Proof.
  destruct (mixed_case None) as (S & T & r1 & r2 & C & L1 & L2).
  assert (H : exists ev, main Debug z_world (mixed None) = (ev, Ok tt)) by (rewrite (main_run _ _ _ _ _ _ S T C); eexists; reflexivity).
  destruct H as (ev & H). exists ev.
  edestruct (C68_debug_file_is_json ZN (fun _ => true) z_reads z_text) as (pairs & m & results & S' & T' & C' & J); [exact z_prints|exact H|reflexivity|discriminate|].
  assert (results = [r1; r2]) as -> by exact (compared_same Debug z_world (mixed None) mixed_pairs pairs z_manager m [r1; r2] results S T C S' T' C').
  cbn [rev app] in J. destruct J as (j & E & Sh). exists j. split; [exact H|]. split; [exact E|].
  destruct Sh as (a & b & c & d & e & f & ps & -> & _ & _ & _ & _ & _ & _ & P). split; [reflexivity|].
  cbn [map snd last]. rewrite (F2_len _ _ _ P). exact L2.
Qed.
