(** Lemmas about matrices (Mat.v), for every numeric instance. *)
From Verif Require Import Base Num Mat P_Base.

Section MatLemmas.
Context {N : NumOps}.
Notation T := (num N).

Lemma nth_map_seq {A} (f : nat -> A) n i d : (i < n)%nat -> nth i (map f (seq 0 n)) d = f i.
Proof.
  intros H. rewrite (nth_indep _ d (f O)) by (rewrite map_length, seq_length; auto).
  rewrite map_nth, seq_nth; auto.
Qed.

Lemma mbuild_wf r c (f : nat -> nat -> T) : mat_wf (mbuild r c f).
Proof.
  split; cbn [mbuild mrows mcols mdata].
  - rewrite map_length, seq_length; auto.
  - apply Forall_forall; intros x H. apply in_map_iff in H; destruct H as (i & <- & _).
    rewrite map_length, seq_length; auto.
Qed.
Lemma mget_mbuild r c (f : nat -> nat -> T) i j : (i < r)%nat -> (j < c)%nat ->
  mget (mbuild r c f) i j = f i j.
Proof.
  intros Hi Hj. unfold mget; cbn [mbuild mdata].
  rewrite nth_map_seq by auto. rewrite nth_map_seq by auto. auto.
Qed.
Lemma mrow_mbuild r c (f : nat -> nat -> T) i : (i < r)%nat ->
  mrow (mbuild r c f) i = map (f i) (seq 0 c).
Proof. intros; unfold mrow; cbn [mbuild mdata]; rewrite nth_map_seq; auto. Qed.
Lemma mcol_mbuild r c (f : nat -> nat -> T) j : (j < c)%nat ->
  mcol (mbuild r c f) j = map (fun i => f i j) (seq 0 r).
Proof.
  intros; unfold mcol; cbn [mbuild mrows]. apply map_ext_in; intros i Hi.
  apply in_seq in Hi; apply (mget_mbuild r c f i j); auto; lia.
Qed.
Lemma mrow_length (m : mat N) i : mat_wf m -> (i < mrows m)%nat ->
  List.length (mrow m i) = mcols m.
Proof.
  intros [H1 H2] Hi. rewrite Forall_forall in H2. apply H2. apply nth_In. lia.
Qed.
Lemma mbuild_ext r c (f g : nat -> nat -> T) :
  (forall i j, (i < r)%nat -> (j < c)%nat -> f i j = g i j) -> mbuild r c f = mbuild r c g.
Proof.
  intros H; unfold mbuild; f_equal. apply map_ext_in; intros i Hi.
  apply map_ext_in; intros j Hj. apply in_seq in Hi; apply in_seq in Hj. apply H; lia.
Qed.
Lemma list_map_nth {A} (l : list A) d : l = map (fun i => nth i l d) (seq 0 (List.length l)).
Proof.
  induction l as [|a l IH]; simpl; auto. f_equal. rewrite <- seq_shift, map_map. exact IH.
Qed.
Lemma mat_eta (m : mat N) : mat_wf m -> m = mbuild (mrows m) (mcols m) (mget m).
Proof.
  intros [H1 H2]. destruct m as [r c d]; cbn [mrows mcols mdata] in *; unfold mbuild; f_equal.
  rewrite (list_map_nth d []) at 1. rewrite H1. apply map_ext_in; intros i Hi.
  apply in_seq in Hi. unfold mget; cbn [mdata].
  rewrite (list_map_nth (nth i d []) (nofZ N 0)) at 1. f_equal. f_equal.
  rewrite Forall_forall in H2. apply H2. apply nth_In; lia.
Qed.
Lemma mat_ext (a b : mat N) : mat_wf a -> mat_wf b -> mrows a = mrows b -> mcols a = mcols b ->
  (forall i j, (i < mrows a)%nat -> (j < mcols a)%nat -> mget a i j = mget b i j) -> a = b.
Proof.
  intros Ha Hb E1 E2 H. rewrite (mat_eta a Ha), (mat_eta b Hb), <- E1, <- E2.
  apply mbuild_ext; auto.
Qed.

Lemma mzip_ok (f : T -> T -> T) a b m :
  mzip f a b = Ok m <->
  mrows a = mrows b /\ mcols a = mcols b /\
  m = mbuild (mrows a) (mcols a) (fun i j => f (mget a i j) (mget b i j)).
Proof.
  unfold mzip. destruct (Nat.eqb_spec (mrows a) (mrows b)); simpl.
  - destruct (Nat.eqb_spec (mcols a) (mcols b)); simpl.
    + split; [intros [= <-]; auto|intros (_ & _ & ->); auto].
    + split; [discriminate|tauto].
  - split; [discriminate|tauto].
Qed.
Lemma mzip_same (f : T -> T -> T) a b : mrows a = mrows b -> mcols a = mcols b ->
  mzip f a b = Ok (mbuild (mrows a) (mcols a) (fun i j => f (mget a i j) (mget b i j))).
Proof. intros; apply mzip_ok; auto. Qed.
Lemma mslice_ok (m : mat N) a b s :
  mslice_cols m a b = Ok s <->
  0 <= a <= b /\ b <= Z.of_nat (mcols m) /\
  s = mbuild (mrows m) (Z.to_nat (b - a)) (fun i j => mget m i (Z.to_nat a + j)).
Proof.
  unfold mslice_cols. destruct ((0 <=? a) && (a <=? b) && (b <=? Z.of_nat (mcols m))) eqn:E.
  - split; [intros [= <-]; repeat split; auto; lia|intros (_ & _ & ->); auto].
  - split; [discriminate|intros (? & ? & _); lia].
Qed.
Lemma mslice_no_err (m : mat N) a b e : mslice_cols m a b <> Err e.
Proof. unfold mslice_cols; destruct (_ && _); discriminate. Qed.

Lemma mean_axis1_c_len (m : mat N) l : mat_wf m -> mean_axis1_c m = Some l ->
  List.length l = mrows m.
Proof.
  intros [H _]; unfold mean_axis1_c; destruct (Nat.eqb _ _); [discriminate|].
  intros [= <-]. rewrite map_length; auto.
Qed.
Lemma mean_axis1_f_len (m : mat N) l : mat_wf m -> mean_axis1_f m = Some l ->
  List.length l = mrows m.
Proof.
  intros [H _]; unfold mean_axis1_f; destruct (Nat.eqb _ _); [discriminate|].
  intros [= <-]. rewrite map_length; auto.
Qed.
Lemma std_axis1_len (m : mat N) l : mat_wf m -> std_axis1 m = Ok l ->
  List.length l = mrows m.
Proof.
  intros [H _]; unfold std_axis1; destruct (Nat.eqb _ _); [discriminate|].
  intros [= <-]. rewrite map_length; auto.
Qed.
End MatLemmas.
