(** Proofs of C60: the whole output of the tool. *)
From Coq Require Import Lia.
From Verif Require Import Base Num Mat M_Audio M_Nsim M_Visqol M_Cli Spec Spec6 P_Base P_Run P_Cli.

Section Tool.
Context {N : NumOps}.

Lemma bands_table (r : SimilarityResult N) n : List.length (fvnsim r) = n -> List.length (res_center_freq_bands r) = n -> band_rows n r (fvnsim_table r).
Proof.
  intros H1 H2. unfold band_rows, fvnsim_table. split; [rewrite combine_length; lia|].
  intros i [a b] E. cbn [fst snd].
  assert (G : forall (l k : list (num N)) i a b, nth_error (combine l k) i = Some (a, b) -> nth_error l i = Some a /\ nth_error k i = Some b).
  { clear. intros l. induction l as [|x l IH]; intros [|y k] [|i] a b E; try discriminate; cbn in *; [injection E as <- <-; auto|eauto]. }
  eauto.
Qed.
Lemma patches_table (r : SimilarityResult N) : patch_rows r (patch_table r).
Proof.
  unfold patch_rows, patch_table. split; [rewrite map_length, combine_length, seq_length; lia|].
  intros i p E. rewrite nth_error_map.
  assert (G : forall (l : list (PatchSim N)) s i p, nth_error l i = Some p -> nth_error (combine (seq s (List.length l)) l) i = Some ((s + i)%nat, p)).
  { clear. intros l. induction l as [|x l IH]; intros s [|i] p E; try discriminate; cbn in *.
    - injection E as <-. rewrite Nat.add_0_r. reflexivity.
    - rewrite (IH (S s) i p E). f_equal. f_equal. lia. }
  rewrite (G _ 0%nat i p E). reflexivity.
Qed.
Lemma console_report args n results pairs : Forall2 (fun (p : string * string) r => List.length (fvnsim r) = n /\ List.length (res_center_freq_bands r) = n) pairs results ->
  exists reports, console (N:=N) args results pairs = List.concat reports /\
    Forall2 (fun pr ev => reported (verbose args) n (fst (fst pr)) (snd (fst pr)) (snd pr) ev) (combine pairs results) reports.
Proof.
  induction 1 as [|p r ps rs [H1 H2] F IH]; [exists []; split; [reflexivity|constructor]|].
  destruct IH as (reports & E & G). exists (write_to_console args r p :: reports). split.
  - unfold console in *. cbn [combine map List.concat fst snd]. rewrite E. reflexivity.
  - cbn [combine]. constructor; [|exact G]. cbn [fst snd]. unfold reported, write_to_console. destruct (verbose args); [|reflexivity].
    exists (fvnsim_table r), (patch_table r). split; [apply bands_table; auto|]. split; [apply patches_table|reflexivity].
Qed.
Lemma F2_impl {A B} (P Q : A -> B -> Prop) l k : (forall a b, P a b -> Q a b) -> Forall2 P l k -> Forall2 Q l k.
Proof. induction 2; constructor; auto. Qed.

Lemma compared_shape pf (w : World N) args m pairs results : compared pf w args m pairs results ->
  Forall2 (fun (p : string * string) r => List.length (fvnsim r) = tool_bands args /\ List.length (res_center_freq_bands r) = tool_bands args) pairs results.
Proof.
  apply F2_impl. intros p r H. destruct (run pf (tool_bands args) (w_wav w) m (fst p) (snd p)) as [m' x] eqn:E. cbn [snd] in H. subst x.
  apply C39_shape in E. tauto.
Qed.
Lemma bands_number args : tool_bands args = match subcommand args with CmdWideband _ => 21%nat | CmdFullband _ => 32%nat end.
Proof. reflexivity. Qed.

Lemma C60_all pf (w : World N) args ev : main pf w args = (ev, Ok tt) ->
  exists pairs m results reports, selects w args pairs /\ tool_manager w args m /\ compared pf w args m pairs results /\
    ev = EVersion :: files_written (output_debug args) (results_csv args) results (map result_row results) ++ List.concat reports /\
    Forall2 (fun pr e => reported (verbose args) (match subcommand args with CmdWideband _ => 21%nat | CmdFullband _ => 32%nat end)
                           (fst (fst pr)) (snd (fst pr)) (snd pr) e) (combine pairs results) reports.
Proof.
  intros H. apply main_ok in H. destruct H as (pairs & m & results & H1 & H2 & H3 & H4).
  apply write_ok in H4. destruct H4 as (ej & ec & -> & -> & ->).
  destruct (console_report args _ results pairs (compared_shape _ _ _ _ _ _ H3)) as (reports & E & G).
  exists pairs, m, results, reports. repeat (split; [assumption|]). split; [|exact G].
  rewrite E. unfold files_written. rewrite <- app_assoc. rewrite json_content_last, rows_spec. reflexivity.
Qed.
(** A file that cannot be written. *)
Lemma C60_json pf (w : World N) args pairs m results path : selects w args pairs -> tool_manager w args m -> compared pf w args m pairs results ->
  output_debug args = Some path -> w_writable w path = false -> exists p, main pf w args = ([EVersion], Panic p).
Proof.
  intros H1 H2 H3 HO HW. rewrite (main_run _ _ _ _ _ _ H1 H2 H3). unfold write_results, andthen, write_debug_json. rewrite HO, HW. cbn [fst snd app]. eauto.
Qed.
Lemma C60_csv pf (w : World N) args pairs m results path : selects w args pairs -> tool_manager w args m -> compared pf w args m pairs results ->
  match output_debug args with Some p => w_writable w p = true | None => True end ->
  results_csv args = Some path -> w_writable w path = false ->
  exists p, main pf w args = (EVersion :: files_written (output_debug args) None results [], Panic p).
Proof.
  intros H1 H2 H3 HD HO HW. rewrite (main_run _ _ _ _ _ _ H1 H2 H3). unfold write_results, andthen, write_debug_json, write_results_to_csv, files_written. rewrite HO, HW.
  rewrite app_nil_r, <- json_content_last. destruct (output_debug args) as [q|]; [rewrite HD|]; cbn [fst snd app]; eauto.
Qed.
End Tool.
