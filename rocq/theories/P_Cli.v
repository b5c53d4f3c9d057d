(** Proofs about the command line tool. *)
From Verif Require Import Base Num Mat M_Audio M_Align M_Spectro M_Patch M_Nsim M_Selector M_Visqol M_Cli.
From Verif Require Import P_Base P_Manager P_Run Spec.

Section Cli.
Context {N : NumOps}.

Lemma read_line_ok n l p : read_line n l = Ok p <-> exists rest, l = CsvRecord (fst p :: snd p :: rest) /\ n = (2 + List.length rest)%nat.
Proof.
  unfold read_line. destruct l as [c|k|[|r [|d l]]]; cbn [columns List.length]; split; try discriminate; try (intros (rest & E & _); discriminate);
    match goal with |- context [Nat.eqb ?a ?b] => destruct (Nat.eqb_spec a b) as [<-|NE]; cbn [negb]; try discriminate | _ => idtac end.
  - intros [= <-]. eauto.
  - intros (rest & [= -> -> ->] & _). destruct p; auto.
  - intros (rest & [= -> -> ->] & E). destruct NE. symmetry. exact E.
Qed.
Lemma read_lines_ok n lines pairs : mapM (read_line n) lines = Ok pairs <->
  Forall2 (fun row p => exists rest, row = CsvRecord (fst p :: snd p :: rest) /\ n = (2 + List.length rest)%nat) lines pairs.
Proof.
  rewrite mapM_ok. split; intros H; induction H; constructor; auto; apply read_line_ok; auto.
Qed.
Lemma build_pairs (w : World N) args pairs : build_file_pair_paths w args = Ok pairs <-> selects w args pairs.
Proof.
  unfold build_file_pair_paths, selects.
  assert (H : match batch_input_csv args with Some f => read_files_to_compare w f | None => Ok [] end = Ok pairs <->
    match batch_input_csv args with
            | Some f => exists rows, w_csv w f = Some rows /\ batch_pairs rows pairs
            | None => pairs = []
            end).
  { destruct (batch_input_csv args) as [f|].
    - unfold read_files_to_compare. destruct (w_csv w f) as [rows|].
      + unfold batch_pairs. destruct rows as [|[c|k|fields] lines].
        * split; [intros [= <-]; eexists; split; reflexivity|intros (rows' & [= <-] & ->); auto].
        * split; [discriminate|intros (rows' & [= <-] & [])].
        * rewrite read_lines_ok. split; [intros H; eexists; split; [reflexivity|exact H]|intros (rows' & [= <-] & H); exact H].
        * rewrite read_lines_ok. split; [intros H; eexists; split; [reflexivity|exact H]|intros (rows' & [= <-] & H); exact H].
      + split; [discriminate|intros (r & E & _); discriminate].
    - split; [intros [= <-]|intros ->]; auto. }
  destruct (reference_file args); auto. destruct (degraded_file args); auto.
  split; [intros [= <-]|intros ->]; auto.
Qed.

Lemma run_all_ok pf nb files pairs : forall (m m0 : Manager N) results, same_config m m0 ->
  run_all pf nb files m pairs = Ok results <->
  Forall2 (fun p r => snd (run pf nb files m0 (fst p) (snd p)) = Ok r) pairs results.
Proof.
  induction pairs as [|[r d] t IH]; intros m m0 results E; cbn [run_all].
  - split; [intros [= <-]; constructor|intros H; inversion H; auto].
  - destruct (run pf nb files m r d) as [m' x] eqn:Er.
    destruct (run_same pf nb files m m0 r d E) as [E1 E2]. rewrite Er in E1, E2. cbn [fst snd] in E1, E2.
    assert (E3 : same_config m' m0) by (eapply same_trans; eauto).
    split.
    + intros H. destruct x as [x| |]; cbn [bind] in H; try discriminate. inv_do H. injection Hk as <-.
      constructor; [cbn; auto|]. apply (IH m' m0); auto.
    + intros H. inversion H as [|? y ? l' H2 H4]; subst results. cbn [fst snd] in H2. assert (Hx : x = Ok y) by congruence. rewrite Hx. cbn [bind].
      apply (IH m' m0) in H4; auto. rewrite H4. reflexivity.
Qed.

Lemma run_all_fail pf nb files pre : forall (m m0 : Manager N) results r d post, same_config m m0 ->
  Forall2 (fun p r => snd (run pf nb files m0 (fst p) (snd p)) = Ok r) pre results ->
  (forall e, snd (run pf nb files m0 r d) = Err e ->
     run_all pf nb files m (pre ++ (r, d) :: post) = Err e) /\
  (forall p, snd (run pf nb files m0 r d) = Panic p ->
     run_all pf nb files m (pre ++ (r, d) :: post) = Panic p).
Proof.
  induction pre as [|[r0 d0] t IH]; intros m m0 results r d post E H; cbn [app run_all].
  - destruct (run pf nb files m r d) as [m' x] eqn:Er.
    destruct (run_same pf nb files m m0 r d E) as [E1 E2]. rewrite Er in E1. cbn [snd] in E1.
    split; intros e He; rewrite He in E1; subst x; reflexivity.
  - destruct (run pf nb files m r0 d0) as [m' x] eqn:Er.
    destruct (run_same pf nb files m m0 r0 d0 E) as [E1 E2]. rewrite Er in E1, E2. cbn [fst snd] in E1, E2.
    inversion H as [|? y ? l' H2 H4]; subst results. cbn [fst snd] in H2. assert (Hx : x = Ok y) by congruence. rewrite Hx. cbn [bind].
    destruct (IH m' m0 l' r d post) as [A B]; [eapply same_trans; eauto|auto|].
    split; intros e He; [rewrite (A e He)|rewrite (B e He)]; reflexivity.
Qed.

Lemma main_ok pf (w : World N) args ev : main pf w args = (ev, Ok tt) ->
  exists pairs m results, selects w args pairs /\ tool_manager w args m /\
    compared pf w args m pairs results /\ write_results w args results pairs = (ev, Ok tt).
Proof.
  unfold main. change (bands_of args) with (tool_bands args). change (variant_of w args) with (tool_mode w args). intros H.
  destruct (build_file_pair_paths w args) as [pairs| |] eqn:E1; try discriminate. cbn [bind] in H.
  destruct (new_manager _ _ _) as [m| |] eqn:E2; try discriminate. cbn [bind] in H.
  destruct (run_all _ _ _ _ _) as [results| |] eqn:E3; try discriminate. cbn [bind] in H.
  exists pairs, m, results. repeat split; auto.
  - apply build_pairs; auto.
  - apply (run_all_ok pf _ _ _ m m); [apply same_refl|auto].
Qed.
Lemma main_run pf (w : World N) args pairs m results :
  selects w args pairs -> tool_manager w args m -> compared pf w args m pairs results ->
  main pf w args = write_results w args results pairs.
Proof.
  intros H1 H2 H3. unfold main. change (bands_of args) with (tool_bands args). change (variant_of w args) with (tool_mode w args). apply build_pairs in H1. rewrite H1. cbn [bind].
  unfold tool_manager in H2. rewrite H2. cbn [bind].
  apply (run_all_ok pf _ _ _ m m) in H3; [|apply same_refl]. rewrite H3. reflexivity.
Qed.
Lemma main_fail pf (w : World N) args pre r d post m results :
  selects w args (pre ++ (r, d) :: post) -> tool_manager w args m -> compared pf w args m pre results ->
  (forall e, snd (run pf (tool_bands args) (w_wav w) m r d) = Err e -> main pf w args = ([], Err e)) /\
  (forall p, snd (run pf (tool_bands args) (w_wav w) m r d) = Panic p -> main pf w args = ([], Panic p)).
Proof.
  intros H1 H2 H3. unfold main. change (bands_of args) with (tool_bands args). change (variant_of w args) with (tool_mode w args). apply build_pairs in H1. rewrite H1. cbn [bind].
  unfold tool_manager in H2. rewrite H2. cbn [bind].
  destruct (run_all_fail pf (tool_bands args) (w_wav w) pre m m results r d post (same_refl m) H3) as [A B].
  split; intros e He; [rewrite (A e He)|rewrite (B e He)]; reflexivity.
Qed.

(** ** Events *)
Lemma scores_app (a b : list (event N)) : scores_printed (a ++ b) = scores_printed a ++ scores_printed b.
Proof. induction a as [|[] a IH]; simpl; auto. rewrite IH; auto. Qed.
Lemma paths_app (a b : list (event N)) : paths_printed (a ++ b) = paths_printed a ++ paths_printed b.
Proof. induction a as [|[] a IH]; simpl; auto; rewrite IH; auto. Qed.
Lemma json_app p c (a b : list (event N)) : json_after p c (a ++ b) = json_after p (json_after p c a) b.
Proof. apply fold_left_app. Qed.
Lemma csv_app p c (a b : list (event N)) : csv_after p c (a ++ b) = csv_after p (csv_after p c a) b.
Proof. apply fold_left_app. Qed.

Definition console (args : CommandLineArgs) (results : list (SimilarityResult N)) pairs :=
  List.concat (map (fun rp => write_to_console args (fst rp) (snd rp)) (combine results pairs)).
Lemma console_scores args results pairs : List.length results = List.length pairs ->
  scores_printed (console args results pairs) = map moslqo results.
Proof.
  revert pairs; induction results as [|r t IH]; intros [|p ps]; simpl; intros H; try discriminate; auto.
  injection H as H. unfold console in *. cbn [combine map List.concat]. rewrite scores_app, IH by auto.
  unfold write_to_console. destruct (verbose args); reflexivity.
Qed.
Lemma console_paths args results pairs : List.length results = List.length pairs -> verbose args = true ->
  paths_printed (console args results pairs) = List.concat (map (fun p => [fst p; snd p]) pairs).
Proof.
  intros H V. revert pairs H; induction results as [|r t IH]; intros [|p ps]; simpl; intros H; try discriminate; auto.
  injection H as H. unfold console in *. cbn [combine map List.concat]. rewrite paths_app, IH by auto.
  unfold write_to_console. rewrite V. reflexivity.
Qed.
Lemma console_files args results pairs p c d :
  json_after p c (console args results pairs) = c /\ csv_after p d (console args results pairs) = d.
Proof.
  revert pairs; induction results as [|r t IH]; intros [|q ps]; auto.
  unfold console in *. cbn [combine map List.concat]. rewrite json_app, csv_app.
  assert (json_after p c (write_to_console args (fst (r, q)) (snd (r, q))) = c /\
          csv_after p d (write_to_console args (fst (r, q)) (snd (r, q))) = d) as [-> ->]
    by (unfold write_to_console; destruct (verbose args); auto).
  apply IH.
Qed.

Lemma write_ok (w : World N) args results pairs ev :
  write_results w args results pairs = (ev, Ok tt) ->
  exists ej ec, ev = EVersion :: ej ++ ec ++ console args results pairs /\
   ej = match output_debug args with Some p => [EJson p (json_content results)] | None => [] end /\
   ec = match results_csv args with Some p => [ECsv p (map csv_row results)] | None => [] end.
Proof.
  unfold write_results, andthen, write_debug_json, write_results_to_csv. cbn [fst snd].
  fold (console args results pairs).
  assert (CA : forall rows f acc, csv_accept (N:=N) f rows = (acc, true) -> acc = rows).
  { induction rows as [|r t IH]; intros f acc; cbn [csv_accept]; [intros [= <-]; auto|].
    destruct f as [n|].
    - destruct (Nat.eqb _ _); [|discriminate]. destruct (csv_accept (Some n) t) as [a ok] eqn:E.
      intros [= <- ->]. f_equal. eauto.
    - destruct (csv_accept (Some _) t) as [a ok] eqn:E. intros [= <- ->]. f_equal. eauto. }
  destruct (output_debug args) as [pj|].
  - destruct (w_writable w pj); cbn [fst snd]; [|discriminate].
    destruct (results_csv args) as [pc|]; cbn [fst snd].
    + destruct (w_writable w pc); cbn [fst snd]; [|discriminate].
      destruct (csv_accept None (map csv_row results)) as [rows [|]] eqn:E; cbn [fst snd]; [|discriminate].
      intros [= <-]. apply CA in E. subst. do 2 eexists. split; [|split; reflexivity]. reflexivity.
    + intros [= <-]. do 2 eexists. split; [|split; reflexivity]. reflexivity.
  - cbn [fst snd]. destruct (results_csv args) as [pc|]; cbn [fst snd].
    + destruct (w_writable w pc); cbn [fst snd]; [|discriminate].
      destruct (csv_accept None (map csv_row results)) as [rows [|]] eqn:E; cbn [fst snd]; [|discriminate].
      intros [= <-]. apply CA in E. subst. do 2 eexists. split; [|split; reflexivity]. reflexivity.
    + intros [= <-]. do 2 eexists. split; [|split; reflexivity]. reflexivity.
Qed.
Lemma json_content_last (l : list (SimilarityResult N)) :
  json_content l = match rev l with [] => None | r :: _ => Some r end.
Proof.
  unfold json_content. destruct l as [|x l] using rev_ind; auto.
  rewrite fold_left_app, rev_app_distr. reflexivity.
Qed.

Lemma F2_len {A B} (P : A -> B -> Prop) l k : Forall2 P l k -> List.length l = List.length k.
Proof. induction 1; simpl; auto. Qed.

Lemma C44_ok pf (w : World N) args ev : main pf w args = (ev, Ok tt) ->
  exists pairs m results, selects w args pairs /\ tool_manager w args m /\
    compared pf w args m pairs results /\ scores_printed ev = map moslqo results /\
    (verbose args = true -> paths_printed ev = List.concat (map (fun p => [fst p; snd p]) pairs)).
Proof.
  intros H. apply main_ok in H. destruct H as (pairs & m & results & H1 & H2 & H3 & H4).
  exists pairs, m, results. apply write_ok in H4. destruct H4 as (ej & ec & -> & Ej & Ec).
  pose proof (F2_len _ _ _ H3) as L. symmetry in L.
  repeat split; auto.
  - cbn [scores_printed]. rewrite !scores_app, console_scores by auto.
    subst. destruct (output_debug args), (results_csv args); reflexivity.
  - intros V. cbn [paths_printed]. rewrite !paths_app, console_paths by auto.
    subst. destruct (output_debug args), (results_csv args); reflexivity.
Qed.

Lemma C44_fail pf (w : World N) args pre r d post m results :
  selects w args (pre ++ (r, d) :: post) -> tool_manager w args m -> compared pf w args m pre results ->
  (forall e, snd (run pf (tool_bands args) (w_wav w) m r d) = Err e -> main pf w args = ([], Err e)) /\
  (forall p, snd (run pf (tool_bands args) (w_wav w) m r d) = Panic p -> main pf w args = ([], Panic p)).
Proof. apply main_fail. Qed.

Lemma C45_json pf (w : World N) args ev path before :
  main pf w args = (ev, Ok tt) -> output_debug args = Some path ->
  exists pairs m results, selects w args pairs /\ tool_manager w args m /\
    compared pf w args m pairs results /\
    json_after path before ev = match rev results with [] => [] | r :: _ => [r] end.
Proof.
  intros H Hp. apply main_ok in H. destruct H as (pairs & m & results & H1 & H2 & H3 & H4).
  exists pairs, m, results. apply write_ok in H4. destruct H4 as (ej & ec & -> & Ej & Ec).
  repeat split; auto. rewrite Hp in Ej. subst ej.
  change (EVersion :: [EJson path (json_content results)] ++ ec ++ console args results pairs)
    with ([EVersion; EJson path (json_content results)] ++ ec ++ console args results pairs).
  rewrite !json_app. rewrite (proj1 (console_files _ _ _ _ _ [])).
  rewrite json_content_last.
  assert (E : forall c, json_after path c ec = c) by (subst; destruct (results_csv args); reflexivity).
  rewrite E. unfold json_after. cbn [fold_left]. rewrite String.eqb_refl.
  destruct (rev results); auto.
Qed.
Lemma C45_not_appended pf (w : World N) args ev path before pairs m results :
  main pf w args = (ev, Ok tt) -> output_debug args = Some path ->
  selects w args pairs -> tool_manager w args m -> compared pf w args m pairs results ->
  (before <> [] \/ (2 <= List.length results)%nat) ->
  json_after path before ev <> before ++ results.
Proof.
  intros H Hp H1 H2 H3 HB E. pose proof H as H0.
  rewrite (main_run _ _ _ _ _ _ H1 H2 H3) in H0.
  apply (C45_json pf w args ev path before) in H; auto.
  destruct H as (pairs' & m' & results' & H1' & H2' & H3' & E').
  apply build_pairs in H1. apply build_pairs in H1'. assert (pairs' = pairs) by congruence. subst pairs'.
  unfold tool_manager in *. assert (m' = m) by congruence. subst m'.
  assert (results' = results).
  { apply (run_all_ok pf _ _ _ m m) in H3; [|apply same_refl]. apply (run_all_ok pf _ _ _ m m) in H3'; [|apply same_refl].
    congruence. }
  subst results'. rewrite E in E'.
  apply (f_equal (@List.length _)) in E'. rewrite app_length in E'.
  destruct (rev results) eqn:R.
  - destruct results; [|apply (f_equal (@List.length _)) in R; rewrite rev_length in R; discriminate].
    simpl in E'. destruct HB as [HB|HB]; [destruct before; [congruence|discriminate]|simpl in HB; lia].
  - apply (f_equal (@List.length _)) in R. rewrite rev_length in R. simpl in R, E'.
    destruct HB as [HB|HB]; [destruct before; [congruence|simpl in E'; lia]|lia].
Qed.

Lemma row_spec (r : SimilarityResult N) : csv_row r = result_row r.
Proof. unfold csv_row, result_row. rewrite flat_map_concat_map. reflexivity. Qed.
Lemma rows_spec (l : list (SimilarityResult N)) : map csv_row l = map result_row l.
Proof. apply map_ext, row_spec. Qed.

Lemma C46_rows pf (w : World N) args ev path before :
  main pf w args = (ev, Ok tt) -> results_csv args = Some path ->
  exists pairs m results, selects w args pairs /\ tool_manager w args m /\
    compared pf w args m pairs results /\ csv_after path before ev = map result_row results.
Proof.
  intros H Hp. apply main_ok in H. destruct H as (pairs & m & results & H1 & H2 & H3 & H4).
  exists pairs, m, results. apply write_ok in H4. destruct H4 as (ej & ec & -> & Ej & Ec).
  repeat split; auto. rewrite Hp in Ec. subst ec.
  change (EVersion :: ej ++ [ECsv path (map csv_row results)] ++ console args results pairs)
    with ([EVersion] ++ ej ++ [ECsv path (map csv_row results)] ++ console args results pairs).
  rewrite !csv_app. rewrite (proj2 (console_files _ _ _ _ [] _)).
  unfold csv_after at 1. cbn [fold_left]. rewrite String.eqb_refl. apply rows_spec.
Qed.

Lemma csv_accept_prefix (pre : list (list (num N))) : forall n r post,
  Forall (fun x => List.length x = n) pre -> List.length r <> n ->
  csv_accept (Some n) (pre ++ r :: post) = (pre, false).
Proof.
  induction pre as [|x t IH]; intros n r post F L; cbn [app csv_accept].
  - destruct (Nat.eqb_spec (List.length r) n); auto. contradiction.
  - inversion F; subst. rewrite Nat.eqb_refl, IH; auto.
Qed.

(** Number of fields of a row, from the shape of a result. *)
Lemma row_length pf nb files (m : Manager N) a b r : snd (run pf nb files m a b) = Ok r ->
  List.length (csv_row r) = (2 + 4 * nb + List.length (patch_sims r) * (3 * nb + 5))%nat.
Proof.
  intros H. destruct (run pf nb files m a b) as [m' x] eqn:E. cbn [snd] in H. subst x.
  apply C39_shape in E. destruct E as (A & B & C & D & _ & F).
  unfold csv_row. rewrite !app_length, A, B, C, D. cbn [List.length].
  assert (L : List.length (List.concat (map patch_fields (patch_sims r))) =
              (List.length (patch_sims r) * (3 * nb + 5))%nat).
  { induction F as [|p l (P1 & P2 & P3) F IH]; auto. cbn [map List.concat]. rewrite app_length, IH.
    unfold patch_fields at 1. rewrite !app_length, P1, P2, P3. cbn [List.length]. lia. }
  rewrite L. lia.
Qed.

Lemma C46_panic pf (w : World N) args path before pairs m pre r post n :
  results_csv args = Some path -> w_writable w path = true ->
  match output_debug args with Some p => w_writable w p = true | None => True end ->
  selects w args pairs -> tool_manager w args m -> compared pf w args m pairs (pre ++ r :: post) ->
  pre <> [] -> Forall (fun x => List.length (patch_sims x) = n) pre -> List.length (patch_sims r) <> n ->
  exists ev p, main pf w args = (ev, Panic p) /\ scores_printed ev = [] /\
    csv_after path before ev = map result_row pre.
Proof.
  intros Hp Hw Hj H1 H2 H3 NE F NR. rewrite (main_run _ _ _ _ _ _ H1 H2 H3).
  set (k := (2 + 4 * tool_bands args + n * (3 * tool_bands args + 5))%nat).
  assert (L : Forall (fun x => List.length (csv_row x) =
     (2 + 4 * tool_bands args + List.length (patch_sims x) * (3 * tool_bands args + 5))%nat) (pre ++ r :: post)).
  { unfold compared in H3. clear - H3. induction H3; constructor; auto. eapply row_length; eauto. }
  assert (A : csv_accept None (map csv_row (pre ++ r :: post)) = (map csv_row pre, false)).
  { apply Forall_app in L. destruct L as [L1 L2]. inversion L2 as [|? ? L3 L4]; subst.
    destruct pre as [|x t]; [congruence|]. cbn [map app csv_accept].
    inversion F as [|? ? F1 F2]; subst. inversion L1 as [|? ? L5 L6]; subst.
    rewrite map_app. cbn [map]. rewrite csv_accept_prefix; auto.
    - clear - F2 L5 L6. induction L6; constructor; inversion F2; subst; auto.
      rewrite H, L5, H2. auto.
    - rewrite L3, L5. intros E. apply NR. nia. }
  unfold write_results, andthen, write_debug_json, write_results_to_csv. rewrite Hp, Hw, A. cbn [fst snd].
  assert (C : forall e, csv_after path before [EVersion; e; ECsv path (map csv_row pre)] = map result_row pre).
  { intros e. unfold csv_after. cbn [fold_left]. rewrite String.eqb_refl. apply rows_spec. }
  destruct (output_debug args) as [pj|].
  - rewrite Hj. cbn [fst snd]. do 2 eexists; split; [reflexivity|]. split; auto. apply C.
  - cbn [fst snd]. do 2 eexists; split; [reflexivity|]. split; auto. apply (C EVersion).
Qed.

Lemma C47_single pf (w : World N) args r d m :
  reference_file args = Some r -> degraded_file args = Some d -> tool_manager w args m ->
  (forall x, snd (run pf (tool_bands args) (w_wav w) m r d) = Ok x ->
     main pf w args = write_results w args [x] [(r, d)]) /\
  (forall e, snd (run pf (tool_bands args) (w_wav w) m r d) = Err e -> main pf w args = ([], Err e)) /\
  (forall p, snd (run pf (tool_bands args) (w_wav w) m r d) = Panic p -> main pf w args = ([], Panic p)).
Proof.
  intros Hr Hd Hm.
  assert (S : selects w args ([] ++ [(r, d)])) by (unfold selects; rewrite Hr, Hd; auto).
  split.
  - intros x Hx. apply (main_run pf w args [(r, d)] m); auto. constructor; auto.
  - eapply (main_fail pf w args [] r d [] m []); auto. constructor.
Qed.
Lemma C47_rows (w : World N) args pairs :
  (reference_file args = None \/ degraded_file args = None) ->
  build_file_pair_paths w args = Ok pairs <->
  match batch_input_csv args with
  | Some f => exists rows, w_csv w f = Some rows /\ batch_pairs rows pairs
  | None => pairs = []
  end.
Proof.
  intros H. rewrite build_pairs. unfold selects.
  destruct (reference_file args); [|tauto]. destruct (degraded_file args); [|tauto].
  destruct H; discriminate.
Qed.
End Cli.
