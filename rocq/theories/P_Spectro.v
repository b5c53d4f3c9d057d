(** Proofs about the filters and the spectrogram builder, for every number type. *)
From Verif Require Import Base Num Mat M_Audio M_Align M_Spectro P_Base P_Mat P_Manager.

Section Spectro.
Context {N : NumOps}.
Open Scope num_scope.
Notation T := (num N).

(** ** filter_signal *)
Lemma filter_length nc dc (l : list T) : forall c, List.length (fst (filter_signal nc dc l c)) = List.length l.
Proof.
  destruct nc as [[n0 n1] n2], dc as [[d0 d1] d2].
  induction l as [|x t IH]; intros [c0 c1]; cbn [filter_signal]; auto.
  match goal with |- context [filter_signal _ _ t ?c] => specialize (IH c); destruct (filter_signal (n0,n1,n2) (d0,d1,d2) t c) end.
  cbn [fst List.length] in *. congruence.
Qed.
Lemma filter_app nc dc (a b : list T) : forall c,
  filter_signal nc dc (a ++ b) c =
  let '(ya, ca) := filter_signal nc dc a c in
  let '(yb, cb) := filter_signal nc dc b ca in (ya ++ yb, cb).
Proof.
  destruct nc as [[n0 n1] n2], dc as [[d0 d1] d2].
  induction a as [|x t IH]; intros [c0 c1]; cbn [filter_signal app].
  - destruct (filter_signal _ _ b _); auto.
  - rewrite IH. match goal with |- context [filter_signal _ _ t ?c] => destruct (filter_signal (n0,n1,n2) (d0,d1,d2) t c) as [ya ca] end.
    destruct (filter_signal _ _ b ca); auto.
Qed.
Lemma filter_causal nc dc (a b : list T) k : forall c, firstn k a = firstn k b ->
  firstn k (fst (filter_signal nc dc a c)) = firstn k (fst (filter_signal nc dc b c)).
Proof.
  destruct nc as [[n0 n1] n2], dc as [[d0 d1] d2].
  revert a b. induction k as [|k IH]; intros a b [c0 c1] H; [reflexivity|].
  destruct a as [|x a], b as [|y b]; cbn [firstn] in H; try discriminate; auto.
  injection H as -> H. cbn [filter_signal].
  match goal with |- context [filter_signal _ _ a ?c] => specialize (IH a b c H);
    destruct (filter_signal (n0,n1,n2) (d0,d1,d2) a c), (filter_signal (n0,n1,n2) (d0,d1,d2) b c) end.
  cbn [fst firstn] in *. congruence.
Qed.

(** ** The filter bank *)
Definition fb_ok (nb : nat) (fb : Filterbank N) : Prop :=
  (forall c, (c < 10)%nat -> List.length (nth c (fb_coeffs fb) []) = nb).

Lemma apply_band_ok nb (fb : Filterbank N) input b : fb_ok nb fb -> (b < nb)%nat ->
  exists y e, apply_band (reset_filter_conditions nb fb) input (Z.of_nat b) = Ok (y, e) /\
    List.length y = List.length input.
Proof.
  intros H Hb. unfold apply_band.
  assert (G : forall c, (c < 10)%nat -> coeff (reset_filter_conditions nb fb) c (Z.of_nat b) =
      Ok (nth b (nth c (fb_coeffs fb) []) #0)).
  { intros c Hc. unfold coeff. cbn [fb_coeffs reset_filter_conditions].
    rewrite (zget_in _ _ #0) by (unfold zlen; rewrite H by auto; lia). rewrite Nat2Z.id. auto. }
  assert (G2 : zget (repeat ((#0 : T), (#0 : T)) nb) (Z.of_nat b) = Ok ((#0 : T), (#0 : T))).
  { rewrite (zget_in _ _ (#0, #0)) by (rewrite zlen_repeat; lia). rewrite Nat2Z.id, nth_repeat. auto. }
  rewrite !G by lia. cbn [bind reset_filter_conditions fb_cond1 fb_cond2 fb_cond3 fb_cond4].
  rewrite G2. cbn [bind].
  repeat match goal with |- context [filter_signal ?a ?b ?i ?c] =>
    let E := fresh "L" in pose proof (filter_length a b i c) as E; destruct (filter_signal a b i c);
    cbn [fst] in E end.
  do 2 eexists; split; [reflexivity|]. congruence.
Qed.

Lemma apply_filter_ok nb (fb : Filterbank N) input : fb_ok nb fb ->
  exists fb' out, apply_filter nb (reset_filter_conditions nb fb) input = Ok (fb', out) /\
    fb_coeffs fb' = fb_coeffs fb /\ fb_min_freq fb' = fb_min_freq fb /\
    mat_wf out /\ mrows out = nb /\ mcols out = List.length input.
Proof.
  intros H. unfold apply_filter.
  assert (G : exists outs, mapM (fun b => apply_band (reset_filter_conditions nb fb) input (Z.of_nat b)) (seq 0 nb) = Ok outs
    /\ List.length outs = nb /\ Forall (fun o => List.length (fst o) = List.length input) outs).
  { assert (A : forall l, (forall b, In b l -> (b < nb)%nat) -> exists outs,
      mapM (fun b => apply_band (reset_filter_conditions nb fb) input (Z.of_nat b)) l = Ok outs
      /\ List.length outs = List.length l /\ Forall (fun o => List.length (fst o) = List.length input) outs).
    { induction l as [|b l IH]; intros Hl; [exists []; repeat split; auto|].
      destruct (apply_band_ok nb fb input b H) as (y & e & E & L); [apply Hl; left; auto|].
      destruct IH as (outs & E2 & L2 & F2); [intros; apply Hl; right; auto|].
      cbn [mapM]. rewrite E. cbn [bind]. rewrite E2. cbn [bind]. eexists; split; [reflexivity|].
      split; [cbn [List.length]; auto|]. constructor; auto. }
    destruct (A (seq 0 nb)) as (outs & E & L & F); [intros b Hb; apply in_seq in Hb; lia|].
    rewrite seq_length in L. eauto. }
  destruct G as (outs & E & L & F). rewrite E. cbn [bind].
  do 2 eexists; split; [reflexivity|]. cbn [fb_coeffs fb_min_freq mrows mcols]. repeat split; auto.
  - cbn [mdata mrows]. rewrite map_length; auto.
  - cbn [mdata mcols]. rewrite Forall_map. exact F.
Qed.

Lemma column_ok nb (fb : Filterbank N) frame : fb_ok nb fb -> frame <> [] ->
  exists fb' col, frame_column nb fb frame = Ok (fb', col) /\ List.length col = nb /\
    fb_coeffs fb' = fb_coeffs fb /\ fb_min_freq fb' = fb_min_freq fb.
Proof.
  intros H Hf. unfold frame_column.
  destruct (apply_filter_ok nb fb frame H) as (fb' & out & E & C & M & W & R & K).
  rewrite E. cbn [bind]. unfold mean_axis1_c, mmap. cbn [mbuild mcols].
  destruct (Nat.eqb_spec (mcols out) 0) as [Z|Z]; [rewrite K in Z; destruct frame; [tauto|discriminate]|].
  do 2 eexists; split; [reflexivity|]. rewrite !map_length. cbn [mdata mbuild]. rewrite map_length, seq_length. auto.
Qed.
Lemma column_same nb (f1 f2 : Filterbank N) frame :
  fb_coeffs f1 = fb_coeffs f2 -> fb_min_freq f1 = fb_min_freq f2 ->
  frame_column nb f1 frame = frame_column nb f2 frame.
Proof.
  intros E1 E2. unfold frame_column, reset_filter_conditions. rewrite E1, E2. auto.
Qed.
Lemma column_keeps nb (f f' : Filterbank N) frame col : frame_column nb f frame = Ok (f', col) ->
  fb_coeffs f' = fb_coeffs f /\ fb_min_freq f' = fb_min_freq f.
Proof.
  unfold frame_column, apply_filter; intros H. inv_do H. destruct v as [f1 out].
  inv_do Hv. injection Hk0 as <- <-. destruct (mean_axis1_c _); [|discriminate].
  injection Hk as <- <-. auto.
Qed.
Lemma loop_ok nb frames : forall fb : Filterbank N, fb_ok nb fb -> Forall (fun f => f <> []) frames ->
  exists fb' cols, frame_loop nb fb frames = Ok (fb', cols) /\ List.length cols = List.length frames.
Proof.
  induction frames as [|f t IH]; intros fb H HF; cbn [frame_loop]; [eauto|].
  inversion HF; subst. destruct (column_ok nb fb f H H2) as (fb1 & col & E & L & C & M).
  rewrite E. cbn [bind]. destruct (IH fb1) as (fb2 & cols & E2 & L2); auto.
  { unfold fb_ok. rewrite C. auto. }
  rewrite E2. cbn [bind]. do 2 eexists; split; [reflexivity|]. cbn [List.length]. auto.
Qed.
Lemma F2_impl {A B} (P Q : A -> B -> Prop) l k : (forall a b, P a b -> Q a b) -> Forall2 P l k -> Forall2 Q l k.
Proof. intros H F. induction F; constructor; auto. Qed.
Lemma F2_length {A B} (P : A -> B -> Prop) l k : Forall2 P l k -> List.length l = List.length k.
Proof. intros F. induction F; cbn [List.length]; auto. Qed.
Lemma F2_nth {A B} (P : A -> B -> Prop) l k j a : Forall2 P l k -> nth_error l j = Some a ->
  exists b, nth_error k j = Some b /\ P a b.
Proof.
  intros F. revert j. induction F; intros [|j] E; cbn [nth_error] in *; try discriminate; eauto.
  injection E as <-. eauto.
Qed.
Lemma loop_cols nb frames : forall (fb fb' : Filterbank N) cols, frame_loop nb fb frames = Ok (fb', cols) ->
  Forall2 (fun f c => exists fb1, frame_column nb fb f = Ok (fb1, c)) frames cols.
Proof.
  induction frames as [|f t IH]; intros fb fb' cols H; cbn [frame_loop] in H.
  - injection H as <- <-. constructor.
  - inv_do H. destruct v as [fb1 col]. inv_do Hk. destruct v as [fb2 cs]. injection Hk0 as <- <-.
    constructor; [eauto|]. apply IH in Hv0. apply column_keeps in Hv. destruct Hv as [E1 E2].
    eapply F2_impl; [|exact Hv0]. cbv beta. intros a b (x & Hx). exists x.
    rewrite <- Hx. apply column_same; auto.
Qed.

(** ** The builder *)
Definition bank (nb : nat) (rate : Z) (minf : T) : Filterbank N :=
  {| fb_min_freq := minf;
     fb_cond1 := repeat (#0, #0) nb; fb_cond2 := repeat (#0, #0) nb;
     fb_cond3 := repeat (#0, #0) nb; fb_cond4 := repeat (#0, #0) nb;
     fb_coeffs := map (fun c => map (fun r => nth c r #0)
        (rev (fst (make_filters nb rate minf (# (max_freq nb rate)))))) (seq 0 10) |}.
Lemma bank_ok nb rate minf : fb_ok nb (bank nb rate minf).
Proof.
  intros c Hc. unfold bank. cbn [fb_coeffs].
  assert (E : forall (f : nat -> list T), nth c (map f (seq 0 10)) [] = f c).
  { intros f. apply nth_map_seq. auto. }
  rewrite E. rewrite map_length, rev_length. unfold make_filters. cbv zeta. cbn [fst].
  rewrite map_length. unfold calculate_uniform_center_freqs. cbv zeta. rewrite map_length, seq_length. auto.
Qed.
Lemma frames_length (l : list T) size hop : (size <= zlen l)%Z -> (0 < hop)%Z ->
  Z.of_nat (List.length (frames_of l size hop)) = (1 + (zlen l - size) / hop)%Z.
Proof.
  intros H1 H2. unfold frames_of. rewrite map_length, seq_length, Z2Nat.id; auto.
  assert (0 <= (zlen l - size) / hop)%Z by (apply Z.div_pos; lia). lia.
Qed.
Lemma frame_at (l : list T) size hop j : (0 <= size <= zlen l)%Z -> (0 < hop)%Z ->
  (Z.of_nat j < 1 + (zlen l - size) / hop)%Z ->
  (hop * Z.of_nat j + size <= zlen l)%Z /\
  nth_error (frames_of l size hop) j = Some (firstn (Z.to_nat size) (skipn (Z.to_nat (hop * Z.of_nat j)) l)).
Proof.
  intros H1 H2 H3. split.
  - assert (hop * ((zlen l - size) / hop) <= zlen l - size)%Z by (apply Z.mul_div_le; lia).
    assert (hop * Z.of_nat j <= hop * ((zlen l - size) / hop))%Z by (apply Z.mul_le_mono_nonneg_l; lia).
    lia.
  - unfold frames_of. rewrite nth_error_map, nth_error_nth' with (d := 0%nat) by (rewrite seq_length; lia).
    rewrite seq_nth by lia. reflexivity.
Qed.

Lemma build_eq nb (fb : Filterbank N) s w : build nb fb s w =
  let l := data_matrix s in let hop := hop_size w in
  let fb1 := bank nb (sample_rate s) (fb_min_freq fb) in
  if (zlen l <? win_size w)%Z then (fb1, Err (TooFewSamples (zlen l) (win_size w)))
  else if (hop =? 0)%Z then (fb1, Panic PDivZero)
  else match frame_loop nb fb1 (frames_of l (win_size w) hop) with
    | Err e => (fb1, Err e)
    | Panic p => (fb1, Panic p)
    | Ok (fb2, cols) =>
      (fb2,
       do cfs' <- sort_num (snd (make_filters nb (sample_rate s) (fb_min_freq fb) (# (max_freq nb (sample_rate s)))));
       Ok {| sp_data := mbuild nb (List.length cols) (fun i j => nth i (nth j cols []) #0);
             center_freq_bands := cfs' |})
    end.
Proof. reflexivity. Qed.

Lemma build_inv nb (f f' : Filterbank N) s w sp : build nb f s w = (f', Ok sp) ->
  (win_size w <= zlen (data_matrix s))%Z /\ (hop_size w <> 0)%Z /\
  exists cols, Forall2 (fun fr c => exists fb1, frame_column nb (bank nb (sample_rate s) (fb_min_freq f)) fr = Ok (fb1, c))
      (frames_of (data_matrix s) (win_size w) (hop_size w)) cols /\
    sp_data sp = mbuild nb (List.length cols) (fun i j => nth i (nth j cols []) #0) /\
    sort_num (snd (make_filters nb (sample_rate s) (fb_min_freq f) (# (max_freq nb (sample_rate s))))) =
      Ok (center_freq_bands sp).
Proof.
  rewrite build_eq. cbv zeta.
  destruct (Z.ltb_spec (zlen (data_matrix s)) (win_size w)); [discriminate|].
  destruct (Z.eqb_spec (hop_size w) 0); [discriminate|].
  match goal with |- context [frame_loop ?a ?b ?c] => destruct (frame_loop a b c) as [[f1 c1]| |] eqn:E end;
    try discriminate.
  intros [= _ HS]. inv_do HS. injection Hk as <-. cbn [sp_data center_freq_bands].
  repeat split; auto. exists c1. repeat split; auto. eapply loop_cols; eauto.
Qed.

Lemma build_cols nb (f f' : Filterbank N) s w sp : (0 < hop_size w)%Z ->
  build nb f s w = (f', Ok sp) ->
  Z.of_nat (mcols (sp_data sp)) = (1 + (zlen (data_matrix s) - win_size w) / hop_size w)%Z.
Proof.
  intros Hh H. apply build_inv in H. destruct H as (A & B & cols & F & E & _).
  rewrite E. cbn [mbuild mcols]. apply F2_length in F. rewrite <- F. apply frames_length; auto.
Qed.

Lemma C30_total nb (f : Filterbank N) s w : (1 <= win_size w)%Z -> (0 < hop_size w)%Z ->
  (win_size w <= zlen (data_matrix s))%Z ->
  Forall (fun c => nis_nan c = false)
    (snd (make_filters nb (sample_rate s) (fb_min_freq f) (# (max_freq nb (sample_rate s))))) ->
  exists sp, snd (build nb f s w) = Ok sp /\ mat_wf (sp_data sp) /\ mrows (sp_data sp) = nb /\
    Z.of_nat (mcols (sp_data sp)) = (1 + (zlen (data_matrix s) - win_size w) / hop_size w)%Z /\
    List.length (center_freq_bands sp) = nb.
Proof.
  intros H1 H2 H3 H4.
  assert (E : exists f' sp, build nb f s w = (f', Ok sp)).
  { rewrite build_eq. cbv zeta. destruct (Z.ltb_spec (zlen (data_matrix s)) (win_size w)); [lia|].
    destruct (Z.eqb_spec (hop_size w) 0); [lia|].
    destruct (loop_ok nb (frames_of (data_matrix s) (win_size w) (hop_size w))
      (bank nb (sample_rate s) (fb_min_freq f))) as (f2 & cols & E & L).
    - apply bank_ok.
    - apply Forall_forall. intros fr Hfr. apply In_nth_error in Hfr. destruct Hfr as (j & Hj).
      assert (Hj' : (j < List.length (frames_of (data_matrix s) (win_size w) (hop_size w)))%nat)
        by (apply nth_error_Some; congruence).
      assert (Hj'' : (Z.of_nat j < 1 + (zlen (data_matrix s) - win_size w) / hop_size w)%Z)
        by (rewrite <- frames_length; auto; lia).
      destruct (frame_at (data_matrix s) (win_size w) (hop_size w) j) as [A B]; [lia|lia|auto|].
      rewrite B in Hj. injection Hj as <-. intros C.
      apply (f_equal (@List.length _)) in C. rewrite firstn_length, skipn_length in C.
      unfold zlen in A. cbn [List.length] in C. lia.
    - rewrite E. unfold sort_num.
      assert (X : existsb nis_nan (snd (make_filters nb (sample_rate s) (fb_min_freq f) (# (max_freq nb (sample_rate s))))) = false).
      { clear - H4. induction H4; cbn [existsb]; auto. rewrite H, IHForall. auto. }
      rewrite X, andb_false_r. cbn [bind]. eauto. }
  destruct E as (f' & sp & E). exists sp. rewrite E. split; auto.
  destruct (build_shape nb f f' s w sp E) as (A & B & C). repeat split; auto.
  - apply A.
  - apply A.
  - eapply build_cols; eauto.
Qed.

Lemma C30_too_few nb (f : Filterbank N) s w :
  snd (build nb f s w) = Err (TooFewSamples (sig_len s) (win_size w)) <-> (sig_len s < win_size w)%Z.
Proof.
  split.
  - intros H. destruct (build nb f s w) as [f' r] eqn:E. cbn [snd] in H. subst r.
    apply build_err in E. tauto.
  - intros H. rewrite build_eq. cbv zeta. unfold sig_len in *.
    destruct (Z.ltb_spec (zlen (data_matrix s)) (win_size w)); [reflexivity|lia].
Qed.

Lemma C31_local nb (f1 f2 : Filterbank N) s1 s2 w f1' f2' sp1 sp2 j1 j2 :
  (0 < hop_size w)%Z -> (0 <= win_size w)%Z ->
  sample_rate s1 = sample_rate s2 -> fb_min_freq f1 = fb_min_freq f2 ->
  build nb f1 s1 w = (f1', Ok sp1) -> build nb f2 s2 w = (f2', Ok sp2) ->
  (j1 < mcols (sp_data sp1))%nat -> (j2 < mcols (sp_data sp2))%nat ->
  firstn (Z.to_nat (win_size w)) (skipn (Z.to_nat (hop_size w * Z.of_nat j1)) (data_matrix s1)) =
  firstn (Z.to_nat (win_size w)) (skipn (Z.to_nat (hop_size w * Z.of_nat j2)) (data_matrix s2)) ->
  mcol (sp_data sp1) j1 = mcol (sp_data sp2) j2.
Proof.
  intros Hh Hw Hr Hm B1 B2 J1 J2 HF.
  pose proof (build_cols _ _ _ _ _ _ Hh B1) as K1. pose proof (build_cols _ _ _ _ _ _ Hh B2) as K2.
  apply build_inv in B1, B2. destruct B1 as (A1 & _ & cols1 & F1 & E1 & _), B2 as (A2 & _ & cols2 & F2 & E2 & _).
  destruct (frame_at (data_matrix s1) (win_size w) (hop_size w) j1) as [_ N1]; [lia|lia|lia|].
  destruct (frame_at (data_matrix s2) (win_size w) (hop_size w) j2) as [_ N2]; [lia|lia|lia|].
  rewrite E1 in *. rewrite E2 in *. cbn [mbuild mcols] in *.
  rewrite !mcol_mbuild by auto.
  destruct (F2_nth _ _ _ _ _ F1 N1) as (c1 & X1 & (b1 & Y1)). destruct (F2_nth _ _ _ _ _ F2 N2) as (c2 & X2 & (b2 & Y2)).
  rewrite (nth_error_nth _ _ _ X1), (nth_error_nth _ _ _ X2).
  rewrite HF, Hr, Hm in Y1. rewrite Y1 in Y2. injection Y2 as _ <-. auto.
Qed.

(** Entry [b, j] is the root of the mean of the squares of a filter output. *)
Lemma C31_entry nb (f : Filterbank N) s w f' sp b j :
  (0 < hop_size w)%Z -> (1 <= win_size w)%Z ->
  build nb f s w = (f', Ok sp) -> (b < nb)%nat -> (j < mcols (sp_data sp))%nat ->
  exists x y e, x = firstn (Z.to_nat (win_size w)) (skipn (Z.to_nat (hop_size w * Z.of_nat j)) (data_matrix s)) /\
    apply_band (bank nb (sample_rate s) (fb_min_freq f)) x (Z.of_nat b) = Ok (y, e) /\
    zlen y = win_size w /\
    mget (sp_data sp) b j = nsqrt N (nd_sum (map (fun v => v [*] v) y) [/] # (win_size w)).
Proof.
  intros Hh Hw B Hb J.
  pose proof (build_cols _ _ _ _ _ _ Hh B) as K.
  apply build_inv in B. destruct B as (A & _ & cols & F & E & _).
  destruct (frame_at (data_matrix s) (win_size w) (hop_size w) j) as [IN N1]; [lia|lia|lia|].
  rewrite E in *. cbn [mbuild mcols] in *. rewrite mget_mbuild by auto.
  destruct (F2_nth _ _ _ _ _ F N1) as (c & X & (b1 & Y)). rewrite (nth_error_nth _ _ _ X).
  set (x := firstn _ _) in *. unfold frame_column in Y.
  replace (reset_filter_conditions nb (bank nb (sample_rate s) (fb_min_freq f))) with
    (bank nb (sample_rate s) (fb_min_freq f)) in Y by reflexivity.
  inv_do Y. destruct v as [fb2 out].
  assert (LX : List.length x = Z.to_nat (win_size w)).
  { unfold x. rewrite firstn_length, skipn_length. unfold zlen in *. lia. }
  unfold apply_filter in Hv. inv_do Hv. injection Hk0 as <- <-.
  unfold mean_axis1_c in Hk. cbn [mmap mbuild mcols] in Hk.
  destruct (Nat.eqb_spec (List.length x) 0) as [Z0|Z0]; [lia|]. injection Hk as _ <-.
  cbn [mdata mrows mbuild mmap mcols].
  assert (V : exists o, nth_error v b = Some o /\ apply_band (bank nb (sample_rate s) (fb_min_freq f)) x (Z.of_nat b) = Ok o).
  { apply mapM_nth with (i := b) (a := b) in Hv0.
    - destruct Hv0 as (o & O1 & O2). eauto.
    - rewrite nth_error_nth' with (d := 0%nat) by (rewrite seq_length; auto). rewrite seq_nth by auto. auto. }
  destruct V as ([y e] & V1 & V2).
  assert (LY : List.length y = List.length x).
  { destruct (apply_band_ok nb (bank nb (sample_rate s) (fb_min_freq f)) x b (bank_ok _ _ _) Hb) as (y' & e' & U1 & U2).
    replace (reset_filter_conditions nb (bank nb (sample_rate s) (fb_min_freq f))) with
      (bank nb (sample_rate s) (fb_min_freq f)) in U1 by reflexivity.
    rewrite V2 in U1. injection U1 as -> _. auto. }
  exists x, y, e. split; auto. split; auto.
  split; [unfold zlen; lia|].
  assert (EQ : forall (g : nat -> list T) d, nth b (map (nsqrt N) (map (fun r => nd_sum r [/] # (Z.of_nat (List.length x))) (map g (seq 0 nb)))) d =
     nsqrt N (nd_sum (g b) [/] # (Z.of_nat (List.length x)))).
  { intros g d. rewrite !map_map. rewrite nth_map_seq by auto. auto. }
  rewrite EQ. rewrite LX, Z2Nat.id by lia. do 3 f_equal.
  unfold mget, mrow. cbn [mdata].
  assert (R : nth b (map fst v) [] = y).
  { apply nth_error_nth. rewrite nth_error_map, V1. auto. }
  rewrite R. rewrite <- LX, <- LY. 
  rewrite (list_map_nth y #0) at 2. rewrite map_map. auto.
Qed.
End Spectro.
