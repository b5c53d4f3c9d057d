(** Proofs of C66. *)
From Verif Require Import Base Num M_Audio M_Visqol M_Cli Spec Spec7 WitnessZ P_Cli T_Cli.

Section Again.
Context {N : NumOps}.

Lemma run_ext pf nb f f' (m : Manager N) a b : f' a = f a -> f' b = f b -> run pf nb f' m a b = run pf nb f m a b.
Proof. intros Ha Hb. unfold run. rewrite Ha, Hb. reflexivity. Qed.
Lemma run_all_ext pf nb f f' pairs : forall m : Manager N,
  (forall r d, In (r, d) pairs -> f' r = f r /\ f' d = f d) -> run_all pf nb f' m pairs = run_all pf nb f m pairs.
Proof.
  induction pairs as [|[r d] t IH]; intros m H; auto. cbn [run_all].
  destruct (H r d) as [Hr Hd]; [left; auto|]. rewrite (run_ext pf nb f f' m r d Hr Hd).
  destruct (run pf nb f m r d) as [m' [x| |]]; auto. cbn [bind]. rewrite IH; auto. intros. apply H. right; auto.
Qed.
Lemma write_ext (w w' : World N) args results pairs : (forall p, writes args p -> w_writable w' p = w_writable w p) ->
  write_results w' args results pairs = write_results w args results pairs.
Proof.
  intros H. unfold write_results, writes in *.
  assert (E1 : match output_debug args with Some p => write_debug_json w' p results | None => ([], Ok tt) end =
               match output_debug args with Some p => write_debug_json w p results | None => ([], Ok tt) end).
  { destruct (output_debug args) as [p|]; auto. unfold write_debug_json. rewrite H; auto. }
  assert (E2 : match results_csv args with Some p => write_results_to_csv w' p results | None => ([], Ok tt) end =
               match results_csv args with Some p => write_results_to_csv w p results | None => ([], Ok tt) end).
  { destruct (results_csv args) as [p|]; auto. unfold write_results_to_csv. rewrite H; auto. }
  rewrite E1, E2. reflexivity.
Qed.
Lemma build_ext (w w' : World N) args : (forall p, reads w args p -> same_contents w w' p) ->
  build_file_pair_paths w' args = build_file_pair_paths w args.
Proof.
  intros H. unfold build_file_pair_paths.
  assert (E : (reference_file args = None \/ degraded_file args = None) ->
    match batch_input_csv args with Some f => read_files_to_compare w' f | None => Ok [] end =
    match batch_input_csv args with Some f => read_files_to_compare w f | None => Ok [] end).
  { intros Hn. destruct (batch_input_csv args) as [f|] eqn:Ef; auto.
    assert (S : same_contents w w' f) by (apply H; left; auto).
    unfold read_files_to_compare. destruct S as (_ & _ & ->). reflexivity. }
  destruct (reference_file args); [destruct (degraded_file args)|]; auto.
Qed.
Lemma C66_frame_lemma pf (w w' : World N) args :
  (forall p, reads w args p -> same_contents w w' p) -> (forall p, writes args p -> w_writable w' p = w_writable w p) ->
  main pf w' args = main pf w args.
Proof.
  intros H Hw. unfold main. rewrite (build_ext w w' args H).
  destruct (build_file_pair_paths w args) as [pairs| |] eqn:Eb; auto. cbn [bind].
  assert (V : variant_of w' args = variant_of w args).
  { unfold variant_of. destruct (subcommand args) as [u|p] eqn:Es; auto.
    destruct (H p) as (_ & -> & _); auto. right; left; auto. }
  rewrite V. destruct (new_manager _ _ _) as [m| |]; auto. cbn [bind].
  rewrite (run_all_ext pf (bands_of args) (w_wav w) (w_wav w') pairs m).
  2:{ intros r d Hi. apply build_pairs in Eb.
      split; [destruct (H r) as (E & _)|destruct (H d) as (E & _)]; auto; right; right; eauto 8. }
  destruct (run_all _ _ _ _ _) as [results| |]; auto. cbn [bind]. apply write_ext. exact Hw.
Qed.

Lemma console_not_replaced args results pairs p : ~ replaced (console (N:=N) args results pairs) p.
Proof.
  assert (E : forall e, In e (console args results pairs) -> on_terminal e = true).
  { unfold console. intros e He. apply in_concat in He. destruct He as (l & Hl & He). apply in_map_iff in Hl.
    destruct Hl as ((r, q) & <- & _). unfold write_to_console in He. destruct (verbose args); cbn in He; intuition (subst; reflexivity). }
  intros [(c & Hc)|(rows & Hr)]; [apply E in Hc|apply E in Hr]; discriminate.
Qed.
Lemma main_replaces pf (w : World N) args p : replaced (fst (main pf w args)) p -> writes args p.
Proof.
  assert (K : forall results pairs, replaced (fst (write_results w args results pairs)) p -> writes args p).
  { intros results pairs. unfold write_results, writes, andthen, write_debug_json, write_results_to_csv. cbn [fst snd].
    fold (console args results pairs). pose proof (console_not_replaced args results pairs p) as C. unfold replaced in *.
    destruct (output_debug args) as [q|]; destruct (results_csv args) as [q'|];
      repeat match goal with
             | |- context [if w_writable w ?x then _ else _] => destruct (w_writable w x)
             | |- context [csv_accept ?a ?b] => destruct (csv_accept a b) as [? []]
             end; cbn [fst snd app In];
      repeat match goal with |- context [In _ (_ :: _)] => cbn [In app] end;
      intros [(c & Hc)|(rows & Hr)];
      try (destruct C; eauto; fail);
      repeat match goal with
             | H : _ \/ _ |- _ => destruct H as [H|H]
             | H : In _ (_ ++ _) |- _ => apply in_app_iff in H
             | H : _ = EJson _ _ |- _ => try discriminate H; injection H as <- <-
             | H : _ = ECsv _ _ |- _ => try discriminate H; injection H as <- <-
             | H : False |- _ => destruct H
             end; auto; destruct C; eauto. }
  unfold main. match goal with |- context [match ?x with Ok _ => _ | Err _ => _ | Panic _ => _ end] => destruct x as [(pairs, results)| |] end.
  - apply K.
  - cbn. intros [(c & [])|(rows & [])].
  - cbn. intros [(c & [])|(rows & [])].
Qed.
Lemma C66_again_lemma pf (w w' : World N) args ev o : main pf w args = (ev, o) -> world_after ev w w' ->
  (forall p, writes args p -> ~ reads w args p) -> main pf w' args = (ev, o).
Proof.
  intros H [Hs Hw] Hd. rewrite <- H. apply C66_frame_lemma; auto.
  intros p Hp. apply Hs. intros Hr. apply (Hd p); auto. apply (main_replaces pf w args p). rewrite H. exact Hr.
Qed.

Lemma single_run pf (w : World N) args m r d : tool_manager w args m ->
  forall ev, main pf w (alone args r d) = (ev, Ok tt) <->
  exists x, snd (run pf (tool_bands args) (w_wav w) m r d) = Ok x /\ ev = EVersion :: write_to_console args x (r, d).
Proof.
  intros Hm ev.
  assert (Hm' : tool_manager w (alone args r d) m) by exact Hm.
  assert (Hs : selects w (alone args r d) [(r, d)]) by reflexivity.
  assert (W : forall x, write_results w (alone args r d) [x] [(r, d)] = (EVersion :: write_to_console args x (r, d), Ok tt)).
  { intros x. unfold write_results, andthen. cbn [alone output_debug results_csv fst snd combine map List.concat app].
    rewrite app_nil_r. reflexivity. }
  split.
  - intros H. apply main_ok in H. destruct H as (pairs & m' & results & H1 & H2 & H3 & H4).
    unfold selects in H1. cbn [alone reference_file degraded_file] in H1. subst pairs.
    unfold tool_manager in Hm, H2. change (tool_bands (alone args r d)) with (tool_bands args) in H2.
    change (tool_mode w (alone args r d)) with (tool_mode w args) in H2.
    cbn [alone search_window_radius] in H2. rewrite Hm in H2. injection H2 as <-.
    inversion H3 as [|p x ps xs Hx Hxs]; subst. inversion Hxs; subst. exists x. split; [exact Hx|].
    rewrite W in H4. injection H4 as <-. reflexivity.
  - intros (x & Hx & ->). rewrite (main_run pf w _ _ m [x] Hs Hm'); [apply W|]. constructor; [exact Hx|constructor].
Qed.
Lemma C66_batch_lemma pf (w : World N) args m pairs ev : selects w args pairs -> tool_manager w args m ->
  output_debug args = None -> results_csv args = None ->
  main pf w args = (ev, Ok tt) <->
  exists reports, Forall2 (fun p e => main pf w (alone args (fst p) (snd p)) = (EVersion :: e, Ok tt)) pairs reports /\
    ev = EVersion :: List.concat reports.
Proof.
  intros Hs Hm Hd Hc.
  assert (W : forall results, write_results w args results pairs = (EVersion :: console args results pairs, Ok tt)).
  { intros. unfold write_results, andthen. rewrite Hd, Hc. reflexivity. }
  split.
  - intros H. apply main_ok in H. destruct H as (pairs' & m' & results & H1 & H2 & H3 & H4).
    apply build_pairs in H1. apply build_pairs in Hs. rewrite Hs in H1. injection H1 as <-.
    unfold tool_manager in Hm, H2. rewrite Hm in H2. injection H2 as <-.
    rewrite W in H4. injection H4 as <-.
    exists (map (fun rp => write_to_console args (fst rp) (snd rp)) (combine results pairs)). split; [|reflexivity].
    clear Hs W. induction H3 as [|[r d] x ps xs Hx Hxs IH]; cbn [combine map]; constructor; auto.
    cbn [fst snd] in *. apply (single_run pf w args m r d Hm). eauto.
  - intros (reports & HF & ->).
    assert (R : exists results, compared pf w args m pairs results /\ console args results pairs = List.concat reports).
    { clear Hs W. induction HF as [|[r d] e ps es He Hes IH]; [exists []; split; [constructor|reflexivity]|].
      destruct IH as (results & HR & HC). cbn [fst snd] in He. apply (single_run pf w args m r d Hm) in He.
      destruct He as (x & Hx & [= ->]). exists (x :: results). split; [constructor; auto|].
      unfold console in *. cbn [combine map List.concat fst snd]. rewrite HC. reflexivity. }
    destruct R as (results & HR & HC). rewrite (main_run pf w args pairs m results Hs Hm HR), W, HC. reflexivity.
Qed.
Lemma C66_terminal_lemma pf (w : World N) args ev : main pf w args = (ev, Ok tt) ->
  exists pairs reports, selects w args pairs /\
    Forall2 (fun p e => main pf w (alone args (fst p) (snd p)) = (EVersion :: e, Ok tt)) pairs reports /\
    filter on_terminal ev = EVersion :: List.concat reports.
Proof.
  intros H. apply main_ok in H. destruct H as (pairs & m & results & H1 & H2 & H3 & H4).
  apply write_ok in H4. destruct H4 as (ej & ec & -> & -> & ->).
  exists pairs, (map (fun rp => write_to_console args (fst rp) (snd rp)) (combine results pairs)).
  split; [exact H1|]. split.
  - clear H1. induction H3 as [|[r d] x ps xs Hx Hxs IH]; cbn [combine map]; constructor; auto.
    cbn [fst snd] in *. apply (single_run pf w args m r d H2). eauto.
  - cbn [filter on_terminal]. f_equal. rewrite !filter_app.
    assert (F : forall l : list (SimilarityResult N), filter on_terminal (console args l pairs) = console args l pairs).
    { intros l. unfold console. match goal with |- context [map ?f ?x] => induction x as [|[r q] t IH] end; [reflexivity|]. cbn [map List.concat]. rewrite filter_app, IH.
      f_equal. unfold write_to_console. destruct (verbose args); reflexivity. }
    rewrite F. destruct (output_debug args), (results_csv args); reflexivity.
Qed.
End Again.

Lemma C66_refuted_lemma : exists (w w' : World ZN) args ev, main Debug w args = (ev, Ok tt) /\ world_after ev w w' /\
  main Debug w' args <> (ev, Ok tt).
Proof.
  exists z_world, {| w_wav := fun p => if String.eqb p "a.wav" then WavBad 2 else w_wav z_world p;
    w_model := w_model z_world; w_csv := w_csv z_world; w_writable := w_writable z_world |}, (single (Some "a.wav"%string)).
  destruct (z_patches_some _ _ z_run_a) as (r1 & E1 & _).
  assert (H : exists ev, main Debug z_world (single (Some "a.wav"%string)) = (ev, Ok tt) /\ replaced ev "a.wav").
  { erewrite (main_run _ _ (single _) [("a.wav", "a.wav")]%string z_manager [r1]).
    - eexists. split; [reflexivity|]. right. eexists. right; right; left. reflexivity.
    - reflexivity.
    - reflexivity.
    - exact (Forall2_cons (_, _) _ E1 (Forall2_nil _)). }
  destruct H as (ev & H & Hr). exists ev. split; [exact H|]. split; [split|].
  - intros p Hp. unfold same_contents. cbn [w_wav w_model w_csv]. destruct (String.eqb_spec p "a.wav"); subst; auto. destruct (Hp Hr).
  - reflexivity.
  - assert (E : forall w', w_wav w' "a.wav"%string = WavBad 2 -> w_model w' = w_model z_world -> w_csv w' = w_csv z_world ->
      main Debug w' (single (Some "a.wav"%string)) = ([], Err (WavError 2))).
    { intros w' Ha _ _. unfold main, single. cbn [build_file_pair_paths z_args reference_file degraded_file bind run_all].
      unfold run. rewrite Ha. reflexivity. }
    rewrite E by reflexivity. intros E'. injection E' as _ E'. discriminate E'.
Qed.
