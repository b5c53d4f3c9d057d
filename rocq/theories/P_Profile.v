(** C51: the two build profiles agree unless the debug build panics. *)
From Verif Require Import Base Num Mat M_Audio M_Align M_Spectro M_Patch M_Nsim M_Selector M_Visqol M_Cli.
From Verif Require Import P_Base.

Definition agr {A} (d r : res A) : Prop := d = r \/ is_panic d.
Definition agr2 {F A} (d r : F * res A) : Prop := d = r \/ is_panic (snd d).

Lemma agr_refl {A} (d : res A) : agr d d. Proof. left. reflexivity. Qed.
Lemma agr_panic {A} p (r : res A) : agr (Panic p) r. Proof. right. exists p. reflexivity. Qed.
Lemma agr_bind {A B} (x y : res A) (f g : A -> res B) : agr x y -> (forall a, agr (f a) (g a)) -> agr (bind x f) (bind y g).
Proof. intros [-> |[p ->]] H; [|right; exists p; reflexivity]. destruct y; cbn [bind]; auto using agr_refl. Qed.
Lemma agr_mapM {A B} (f g : A -> res B) l : (forall a, agr (f a) (g a)) -> agr (mapM f l) (mapM g l).
Proof.
  intros H. induction l as [|a t IH]; cbn [mapM]; [apply agr_refl|]. apply agr_bind; auto. intros b. apply agr_bind; auto. intros. apply agr_refl.
Qed.
Lemma agr_foldM {A S} (f g : S -> A -> res S) l : (forall s a, agr (f s a) (g s a)) -> forall s, agr (foldM f s l) (foldM g s l).
Proof.
  intros H. induction l as [|a t IH]; intros s; cbn [foldM]; [apply agr_refl|]. apply agr_bind; auto.
Qed.
Lemma agr_usub a b : agr (usub Debug a b) (usub Release a b).
Proof. unfold usub. destruct (b <=? a); [apply agr_refl|apply agr_panic]. Qed.
Lemma agr_uadd a b : agr (uadd Debug a b) (uadd Release a b).
Proof. unfold uadd. destruct (_ <? _); [apply agr_refl|apply agr_panic]. Qed.
Lemma agr_umul a b : agr (umul Debug a b) (umul Release a b).
Proof. unfold umul. destruct (_ <? _); [apply agr_refl|apply agr_panic]. Qed.
Lemma agr_i32 z : agr (i32_op Debug z) (i32_op Release z).
Proof. unfold i32_op. destruct (_ && _); [apply agr_refl|apply agr_panic]. Qed.
Create HintDb prof.
#[export] Hint Resolve agr_refl agr_panic agr_usub agr_uadd agr_umul agr_i32 : prof.

Ltac agr_step :=
  match goal with
  | |- agr ?x ?x => apply agr_refl
  | |- agr (Panic _) _ => apply agr_panic
  | |- agr (bind _ _) (bind _ _) => apply agr_bind; [|intros ?]
  | |- agr (mapM _ _) (mapM _ _) => apply agr_mapM; intros ?
  | |- agr (foldM _ _ _) (foldM _ _ _) => apply agr_foldM; intros ? ?
  | |- agr (if ?b then _ else _) (if ?b then _ else _) => destruct b
  | |- agr (match ?x with _ => _ end) (match ?x with _ => _ end) => destruct x
  | |- agr (let '(_, _) := ?x in _) _ => destruct x
  | |- _ => solve [auto with prof]
  end.
Ltac agrees := cbv zeta; repeat (agr_step; cbv zeta).

Lemma agr_pow z : agr (next_pow_two Debug z) (next_pow_two Release z).
Proof. unfold next_pow_two. agrees. Qed.
#[export] Hint Resolve agr_pow : prof.

Section Agree.
Context {N : NumOps}.

Lemma agr_fft z : agr (new_fft (N:=N) Debug z) (new_fft Release z).
Proof. unfold new_fft. agrees. Qed.
#[local] Hint Resolve agr_fft : prof.
Lemma agr_env (s : list (num N)) : agr (calculate_upper_env Debug s) (calculate_upper_env Release s).
Proof. unfold calculate_upper_env, calculate_hilbert. agrees. Qed.
#[local] Hint Resolve agr_env : prof.
Lemma agr_prod (s t : list (num N)) : agr (calculate_inverse_fft_pointwise_product Debug s t) (calculate_inverse_fft_pointwise_product Release s t).
Proof. unfold calculate_inverse_fft_pointwise_product. agrees. Qed.
#[local] Hint Resolve agr_prod : prof.
Lemma agr_lag (s t : list (num N)) : agr (calculate_best_lag Debug s t) (calculate_best_lag Release s t).
Proof. unfold calculate_best_lag. agrees. Qed.
#[local] Hint Resolve agr_lag : prof.
Lemma agr_align (r d : AudioSignal N) : agr (globally_align Debug r d) (globally_align Release r d).
Proof. unfold globally_align. agrees. Qed.
#[local] Hint Resolve agr_align : prof.
Lemma agr_trunc (r d : AudioSignal N) : agr (align_and_truncate Debug r d) (align_and_truncate Release r d).
Proof. unfold align_and_truncate. agrees. Qed.
#[local] Hint Resolve agr_trunc : prof.
Lemma agr_indices cr (m : mat N) s w : agr (create_ref_patch_indices Debug cr m s w) (create_ref_patch_indices Release cr m s w).
Proof.
  destruct cr; cbn [create_ref_patch_indices]; [unfold vad_patch_indices, get_voice_activity|unfold image_patch_indices, image_grid]; agrees.
Qed.
#[local] Hint Resolve agr_indices : prof.
Lemma agr_loop idx n h k : agr (calc_max_loop Debug idx n h k) (calc_max_loop Release idx n h k).
Proof. induction k as [|k IH]; cbn [calc_max_loop]; [apply agr_panic|]. agrees. Qed.
#[local] Hint Resolve agr_loop : prof.
Lemma agr_max idx n h : agr (calc_max_num_patches Debug idx n h) (calc_max_num_patches Release idx n h).
Proof. unfold calc_max_num_patches. agrees. Qed.
#[local] Hint Resolve agr_max : prof.
Lemma agr_patch (f : Z -> res (num N)) n tb idx k sw : agr (find_most_optimal_deg_patch Debug f n tb idx k sw) (find_most_optimal_deg_patch Release f n tb idx k sw).
Proof. unfold find_most_optimal_deg_patch. destruct tb. agrees. Qed.
#[local] Hint Resolve agr_patch : prof.
Lemma agr_back rp idx (deg : mat N) bt fd pd k : forall o acc, agr (backtrace_loop Debug rp idx deg bt fd pd k o acc) (backtrace_loop Release rp idx deg bt fd pd k o acc).
Proof. induction k as [|k IH]; intros o acc; cbn [backtrace_loop]; agrees. Qed.
#[local] Hint Resolve agr_back : prof.
Lemma agr_find rp idx (deg : mat N) fd sw : agr (find_most_optimal_deg_patches Debug rp idx deg fd sw) (find_most_optimal_deg_patches Release rp idx deg fd sw).
Proof. unfold find_most_optimal_deg_patches. agrees. Qed.
#[local] Hint Resolve agr_find : prof.
Lemma agr_contrib fc (acc : list (num N)) : forall devs means, agr (add_contribution Debug fc acc devs means) (add_contribution Release fc acc devs means).
Proof. induction acc as [|a t IH]; intros [|x devs] [|y means]; cbn [add_contribution]; agrees. Qed.
#[local] Hint Resolve agr_contrib : prof.
Lemma agr_stds (info : list (PatchSim N)) fd : agr (calc_per_patch_mean_freq_band_std_devs Debug info fd) (calc_per_patch_mean_freq_band_std_devs Release info fd).
Proof. unfold calc_per_patch_mean_freq_band_std_devs. agrees. Qed.
#[local] Hint Resolve agr_stds : prof.

Lemma agr_realign nb rs ds w (f : Filterbank N) old : agr2 (realign_patch Debug nb rs ds w f old) (realign_patch Release nb rs ds w f old).
Proof.
  unfold realign_patch. destruct (is_lost old); [left; auto|]. destruct (slice rs _ _); [|left; auto|left; auto]. destruct (slice ds _ _); [|left; auto|left; auto].
  destruct (agr_trunc a a0) as [-> |[p ->]]; [left; auto|right; exists p; reflexivity].
Qed.
Lemma agr_fine nb rs ds w l : forall f : Filterbank N, agr2 (finely_align_and_recreate_patches Debug nb rs ds w f l) (finely_align_and_recreate_patches Release nb rs ds w f l).
Proof.
  induction l as [|old t IH]; intros f; cbn [finely_align_and_recreate_patches]; [left; auto|].
  destruct (agr_realign nb rs ds w f old) as [E|[p E]].
  - rewrite E. destruct (realign_patch Release nb rs ds w f old) as [f1 [p|e|q]]; [|left; auto|left; auto].
    destruct (IH f1) as [E2|[q E2]]; [rewrite E2; left; auto|]. right.
    destruct (finely_align_and_recreate_patches Debug nb rs ds w f1 t) as [f2 x]. cbn [snd] in *. subst x. exists q. reflexivity.
  - right. destruct (realign_patch Debug nb rs ds w f old) as [f1 x]. cbn [snd] in E. subst x. exists p. reflexivity.
Qed.
Lemma agr_similarity nb rs ds (f : Filterbank N) w cr mp sw : agr2 (calculate_similarity Debug nb rs ds f w cr mp sw) (calculate_similarity Release nb rs ds f w cr mp sw).
Proof.
  unfold calculate_similarity. cbv zeta. destruct (build nb f rs w) as [f1 [rsp|e|p]]; [|left; auto|left; auto].
  destruct (build nb f1 _ w) as [f2 [dsp|e|p]]; [|left; auto|left; auto].
  match goal with |- agr2 (match ?x with _ => _ end) (match ?y with _ => _ end) => assert (C : agr x y) by agrees; destruct C as [-> |[p ->]]; [destruct y as [info|e|p]; [|left; auto|left; auto]|right; exists p; reflexivity] end.
  destruct (agr_fine nb rs (scale_to_match_sound_pressure_level rs ds) w info f2) as [E|[p E]].
  - rewrite E. destruct (finely_align_and_recreate_patches Release _ _ _ _ _ _) as [f3 out].
    match goal with |- agr2 (_, ?x) (_, ?y) => assert (C : agr x y) by agrees; destruct C as [-> |C]; [left; auto|right; exact C] end.
  - right. destruct (finely_align_and_recreate_patches Debug _ _ _ _ _ _) as [f3 x]. cbn [snd] in *. subst x. exists p. reflexivity.
Qed.
Lemma agr_results nb (m : Manager N) rs ds : agr2 (compute_results Debug nb m rs ds) (compute_results Release nb m rs ds).
Proof.
  unfold compute_results. destruct (agr_align rs ds) as [-> |[p ->]]; [|right; exists p; reflexivity].
  destruct (globally_align Release rs ds) as [[[al lag]|]|e|p]; [|left; auto|left; auto|left; auto]. cbv zeta.
  destruct (agr_similarity nb rs al (mg_filterbank m) (new_window (sample_rate rs) OVERLAP WINDOW_DURATION) (mg_creator m) (mg_mapper m) (mg_search_window m)) as [-> |[p E]]; [left; auto|].
  right. destruct (calculate_similarity Debug _ _ _ _ _ _ _ _) as [f x]. cbn [snd] in *. subst x. exists p. reflexivity.
Qed.
Lemma C51_run nb files (m : Manager N) a b m' x : run Debug nb files m a b = (m', x) -> ~ is_panic x -> run Release nb files m a b = (m', x).
Proof.
  unfold run. intros H NP. destruct (load_as_mono (files a)); auto. destruct (load_as_mono (files b)); auto. destruct (validate_input_audio _ _); auto.
  destruct (agr_results nb m a0 a1) as [E|E]; [congruence|]. rewrite H in E. contradiction.
Qed.
End Agree.

Section AgreeCli.
Context {N : NumOps}.
Lemma agr_all nb files pairs : forall m : Manager N, agr (run_all Debug nb files m pairs) (run_all Release nb files m pairs).
Proof.
  induction pairs as [|[a b] t IH]; intros m; cbn [run_all]; [apply agr_refl|].
  destruct (run Debug nb files m a b) as [m' x] eqn:E. destruct x as [x|e|p]; [| |apply agr_panic].
  - rewrite (C51_run _ _ _ _ _ _ _ E); [|intros [p Hp]; discriminate]. apply agr_bind; [apply agr_refl|]. intros y. apply agr_bind; [apply IH|]. intros. apply agr_refl.
  - rewrite (C51_run _ _ _ _ _ _ _ E); [|intros [p Hp]; discriminate]. apply agr_refl.
Qed.
Lemma C51_main (w : World N) args out x : main Debug w args = (out, x) -> ~ is_panic x -> main Release w args = (out, x).
Proof.
  unfold main. intros H NP. revert H.
  match goal with |- (match ?d with _ => _ end = _) -> (match ?r with _ => _ end = _) => assert (C : agr d r); [|destruct C as [-> |[p ->]]; [auto|intros [= <- <-]; exfalso; apply NP; exists p; reflexivity]] end.
  apply agr_bind; [apply agr_refl|]. intros pairs. apply agr_bind; [apply agr_refl|]. intros m. apply agr_bind; [apply agr_all|]. intros. apply agr_refl.
Qed.
End AgreeCli.

Lemma release_wrap z : i32_op Release z = Ok (wrap_i32 z).
Proof. unfold i32_op. destruct (_ && _) eqn:E; auto. apply andb_prop in E as [A B]. apply Z.leb_le in A. apply Z.ltb_lt in B. rewrite wrap_i32_id; auto. Qed.
Lemma radius_wrap x y : x mod 2 ^ 32 = y mod 2 ^ 32 -> i32_op Release x = i32_op Release y.
Proof. intros H. rewrite !release_wrap. unfold wrap_i32. rewrite (Z.add_mod x), (Z.add_mod y), H by lia. reflexivity. Qed.

(** In release the search radius counts only modulo 2^32 / frames per patch. *)
Lemma C51_radius {N : NumOps} (p0 : mat N) rp idx (deg : mat N) fd r1 r2 : Z.of_nat (mcols p0) < 2 ^ 31 ->
  (r1 * Z.of_nat (mcols p0)) mod 2 ^ 32 = (r2 * Z.of_nat (mcols p0)) mod 2 ^ 32 ->
  find_most_optimal_deg_patches Release (p0 :: rp) idx deg fd r1 = find_most_optimal_deg_patches Release (p0 :: rp) idx deg fd r2.
Proof.
  intros Hw H. unfold find_most_optimal_deg_patches. change (zget (p0 :: rp) 0) with (Ok (A:=mat N) p0). cbn [bind]. cbv zeta.
  rewrite (wrap_i32_id (Z.of_nat (mcols p0))) by lia. rewrite (radius_wrap _ _ H). reflexivity.
Qed.
