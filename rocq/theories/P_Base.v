(** Lemmas about the vocabulary of Base.v. *)
From Verif Require Import Base.
From Coq Require Export ZifyBool ZifyNat.
Ltac Zify.zify_post_hook ::= Z.div_mod_to_equations.

Lemma bind_ok {A B} (x : res A) (f : A -> res B) b :
  bind x f = Ok b -> exists a, x = Ok a /\ f a = Ok b.
Proof. destruct x; simpl; intros H; try discriminate; eauto. Qed.

Lemma bind_panic {A B} (x : res A) (f : A -> res B) p :
  bind x f = Panic p -> x = Panic p \/ exists a, x = Ok a /\ f a = Panic p.
Proof. destruct x; simpl; intros H; try discriminate; eauto. injection H as ->; auto. Qed.

Lemma bind_err {A B} (x : res A) (f : A -> res B) e :
  bind x f = Err e -> x = Err e \/ exists a, x = Ok a /\ f a = Err e.
Proof. destruct x; simpl; intros H; try discriminate; eauto. injection H as ->; auto. Qed.

(** Invert a successful [do] chain in hypothesis [H]. *)
Ltac inv_do H :=
  let a := fresh "v" in let H1 := fresh "Hv" in let H2 := fresh "Hk" in
  apply bind_ok in H; destruct H as (a & H1 & H2); cbv beta in H2.

Lemma zlen_nonneg {A} (l : list A) : 0 <= zlen l.
Proof. unfold zlen; lia. Qed.
Lemma zlen_app {A} (l k : list A) : zlen (l ++ k) = zlen l + zlen k.
Proof. unfold zlen; rewrite app_length; lia. Qed.
Lemma zlen_map {A B} (f : A -> B) l : zlen (map f l) = zlen l.
Proof. unfold zlen; rewrite map_length; lia. Qed.
Lemma zlen_repeat {A} (x : A) n : zlen (repeat x n) = Z.of_nat n.
Proof. unfold zlen; rewrite repeat_length; lia. Qed.
Lemma zlen_nil {A} : zlen (@nil A) = 0. Proof. reflexivity. Qed.
Lemma zlen_cons {A} (x : A) l : zlen (x :: l) = zlen l + 1.
Proof. unfold zlen; cbn [List.length]; lia. Qed.

Lemma zget_ok {A} (l : list A) i a :
  zget l i = Ok a <-> 0 <= i < zlen l /\ nth_error l (Z.to_nat i) = Some a.
Proof.
  unfold zget, zlen; destruct (Z.ltb_spec i 0).
  - split; [discriminate|lia].
  - destruct (nth_error l (Z.to_nat i)) eqn:E.
    + assert (Z.to_nat i < List.length l)%nat by (apply nth_error_Some; congruence).
      split; [intros [= ->]; split; [lia|auto]|intros [_ [= ->]]; auto].
    + split; [discriminate|intros [_ ?]; discriminate].
Qed.
Lemma zget_in {A} (l : list A) i d :
  0 <= i < zlen l -> zget l i = Ok (nth (Z.to_nat i) l d).
Proof.
  unfold zlen; intros H. apply zget_ok; split; [unfold zlen; lia|].
  apply nth_error_nth'; lia.
Qed.
Lemma zget_out {A} (l : list A) i : i < 0 \/ zlen l <= i -> zget l i = Panic PIndex.
Proof.
  unfold zget, zlen; intros H; destruct (Z.ltb_spec i 0); auto.
  rewrite (proj2 (nth_error_None l (Z.to_nat i))); auto; lia.
Qed.
Lemma zget_cases {A} (l : list A) i :
  (exists a, zget l i = Ok a /\ 0 <= i < zlen l) \/
  (zget l i = Panic PIndex /\ ~ (0 <= i < zlen l)).
Proof.
  destruct (Z.ltb_spec i 0); [right; split; [apply zget_out|]; lia|].
  destruct (Z.ltb_spec i (zlen l)); [|right; split; [apply zget_out|]; lia].
  left. destruct (nth_error l (Z.to_nat i)) eqn:E.
  - exists a; split; [apply zget_ok|]; auto with zarith.
  - apply nth_error_None in E; unfold zlen in *; lia.
Qed.

Lemma zslice_ok {A} (l : list A) a b s :
  zslice l a b = Ok s <->
  (0 <= a <= b /\ b <= zlen l) /\ s = firstn (Z.to_nat (b - a)) (skipn (Z.to_nat a) l).
Proof.
  unfold zslice.
  destruct ((0 <=? a) && (a <=? b) && (b <=? zlen l)) eqn:E.
  - split; [intros [= <-]; split; [lia|auto]|intros [_ ->]; auto].
  - split; [discriminate|intros; lia].
Qed.
Lemma zslice_in {A} (l : list A) a b :
  0 <= a <= b -> b <= zlen l ->
  zslice l a b = Ok (firstn (Z.to_nat (b - a)) (skipn (Z.to_nat a) l)).
Proof. intros; apply zslice_ok; auto. Qed.
Lemma zslice_out {A} (l : list A) a b :
  ~ (0 <= a <= b /\ b <= zlen l) -> zslice l a b = Panic PIndex.
Proof.
  unfold zslice; intros; destruct ((0 <=? a) && (a <=? b) && (b <=? zlen l)) eqn:E; auto; lia.
Qed.
Lemma zslice_len {A} (l : list A) a b s : zslice l a b = Ok s -> zlen s = b - a.
Proof.
  intros H; apply zslice_ok in H; destruct H as [H ->]; unfold zlen in *.
  rewrite firstn_length, skipn_length; lia.
Qed.
Lemma zslice_all {A} (l : list A) : zslice l 0 (zlen l) = Ok l.
Proof.
  rewrite zslice_in by (unfold zlen; lia). f_equal; cbn [Z.to_nat skipn].
  rewrite Z.sub_0_r; unfold zlen; rewrite Nat2Z.id; apply firstn_all.
Qed.

Lemma nth_error_zslice {A} (l : list A) a b s i :
  zslice l a b = Ok s -> (i < Z.to_nat (b - a))%nat ->
  nth_error s i = nth_error l (Z.to_nat a + i).
Proof.
  intros H Hi; apply zslice_ok in H; destruct H as [_ ->].
  revert Hi; generalize (Z.to_nat (b - a)) as n; generalize (Z.to_nat a) as m.
  intros m n Hi.
  assert (E : forall (k : list A) n i, (i < n)%nat -> nth_error (firstn n k) i = nth_error k i).
  { induction k; intros [|n'] [|i']; simpl; intros; auto; try lia. apply IHk; lia. }
  rewrite E by auto. clear.
  revert m; induction l; intros [|m]; simpl; auto. destruct i; auto.
Qed.

Lemma zrange_length a b : List.length (zrange a b) = Z.to_nat (b - a).
Proof. unfold zrange; rewrite map_length, seq_length; auto. Qed.
Lemma zlen_zrange a b : zlen (zrange a b) = Z.max 0 (b - a).
Proof. unfold zlen; rewrite zrange_length; lia. Qed.
Lemma in_zrange a b x : In x (zrange a b) <-> a <= x < b.
Proof.
  unfold zrange; rewrite in_map_iff; split.
  - intros (k & <- & H); apply in_seq in H; lia.
  - intros H; exists (Z.to_nat (x - a)); split; [lia|]. apply in_seq; lia.
Qed.
Lemma zrange_empty a b : b <= a -> zrange a b = [].
Proof. intros; unfold zrange; replace (Z.to_nat (b - a)) with O by lia; auto. Qed.
Lemma zrange_cons a b : a < b -> zrange a b = a :: zrange (a + 1) b.
Proof.
  intros; unfold zrange. replace (Z.to_nat (b - a)) with (S (Z.to_nat (b - (a + 1)))) by lia.
  cbn [seq map]. f_equal; [lia|]. rewrite <- seq_shift, map_map. apply map_ext; intros; lia.
Qed.
Lemma zrange_snoc a b : a <= b -> zrange a (b + 1) = zrange a b ++ [b].
Proof.
  intros; unfold zrange. replace (Z.to_nat (b + 1 - a)) with (S (Z.to_nat (b - a))) by lia.
  rewrite seq_S, map_app; cbn [map]. do 2 f_equal; lia.
Qed.
Lemma zrange_app a b c : a <= b <= c -> zrange a c = zrange a b ++ zrange b c.
Proof.
  intros [H1 H2]. revert c H2. apply Zlt_lower_bound_ind with (z := b).
  intros c IH Hc. destruct (Z.eq_dec c b) as [->|].
  - rewrite (zrange_empty b b) by lia; rewrite app_nil_r; auto.
  - replace c with ((c - 1) + 1) by lia. rewrite !zrange_snoc by lia.
    rewrite IH by lia. rewrite app_assoc; auto.
Qed.
Lemma nth_error_zrange a b i : (i < Z.to_nat (b - a))%nat ->
  nth_error (zrange a b) i = Some (a + Z.of_nat i).
Proof.
  intros; unfold zrange. rewrite nth_error_map.
  rewrite (nth_error_nth' _ O) by (rewrite seq_length; auto).
  rewrite seq_nth by auto. reflexivity.
Qed.

Lemma zset_ok {A} (l : list A) i x l' :
  zset l i x = Ok l' <-> 0 <= i < zlen l /\ l' = upd l (Z.to_nat i) x.
Proof.
  unfold zset; destruct ((0 <=? i) && (i <? zlen l)) eqn:E.
  - split; [intros [= <-]; split; [lia|auto]|intros [_ ->]; auto].
  - split; [discriminate|intros; lia].
Qed.
Lemma zset_in {A} (l : list A) i x : 0 <= i < zlen l -> zset l i x = Ok (upd l (Z.to_nat i) x).
Proof. intros; apply zset_ok; auto. Qed.
Lemma upd_length {A} (l : list A) i x : List.length (upd l i x) = List.length l.
Proof. revert i; induction l; intros [|i]; simpl; auto. Qed.
Lemma zlen_upd {A} (l : list A) i x : zlen (upd l i x) = zlen l.
Proof. unfold zlen; rewrite upd_length; auto. Qed.
Lemma nth_error_upd_eq {A} (l : list A) i x : (i < List.length l)%nat ->
  nth_error (upd l i x) i = Some x.
Proof. revert i; induction l; intros [|i]; simpl; intros; auto; try lia. apply IHl; lia. Qed.
Lemma nth_error_upd_ne {A} (l : list A) i j x : i <> j ->
  nth_error (upd l i x) j = nth_error l j.
Proof. revert i j; induction l; intros [|i] [|j]; simpl; intros; auto; try lia. Qed.
Lemma zget_upd_eq {A} (l : list A) i x : 0 <= i < zlen l -> zget (upd l (Z.to_nat i) x) i = Ok x.
Proof.
  intros; apply zget_ok; rewrite zlen_upd; split; auto.
  apply nth_error_upd_eq; unfold zlen in *; lia.
Qed.
Lemma zget_upd_ne {A} (l : list A) i j x : 0 <= i -> i <> j ->
  zget (upd l (Z.to_nat i) x) j = zget l j.
Proof.
  intros; unfold zget; destruct (Z.ltb_spec j 0); auto.
  rewrite nth_error_upd_ne by lia; auto.
Qed.

Lemma mapM_ok {A B} (f : A -> res B) l bs :
  mapM f l = Ok bs <-> Forall2 (fun a b => f a = Ok b) l bs.
Proof.
  revert bs; induction l as [|a l IH]; intros bs; simpl.
  - split; [intros [= <-]; constructor|intros H; inversion H; auto].
  - split.
    + intros H; inv_do H. inv_do Hk. injection Hk0 as <-. constructor; auto. apply IH; auto.
    + intros H; inversion H; subst. rewrite H2; simpl. apply IH in H4; rewrite H4; auto.
Qed.
Lemma mapM_length {A B} (f : A -> res B) l bs : mapM f l = Ok bs -> List.length bs = List.length l.
Proof. intros H; apply mapM_ok in H; induction H; simpl; auto. Qed.
Lemma mapM_total {A B} (f : A -> res B) (g : A -> B) l :
  (forall a, In a l -> f a = Ok (g a)) -> mapM f l = Ok (map g l).
Proof.
  induction l; simpl; intros H; auto. rewrite H by auto; simpl. rewrite IHl by auto; auto.
Qed.
Lemma mapM_nth {A B} (f : A -> res B) l bs i a :
  mapM f l = Ok bs -> nth_error l i = Some a -> exists b, nth_error bs i = Some b /\ f a = Ok b.
Proof.
  intros H; apply mapM_ok in H. revert i; induction H; intros [|i]; simpl; intros E; try discriminate.
  - injection E as ->; eauto.
  - eauto.
Qed.
Lemma mapM_ext {A B} (f g : A -> res B) l :
  (forall a, In a l -> f a = g a) -> mapM f l = mapM g l.
Proof. induction l; simpl; intros H; auto. rewrite H by auto. rewrite IHl; auto. Qed.
Lemma mapM_no_err {A B} (f : A -> res B) l e :
  (forall a e, In a l -> f a <> Err e) -> mapM f l <> Err e.
Proof.
  induction l; simpl; intros H; [discriminate|]. intros E.
  apply bind_err in E; destruct E as [E|(b & _ & E)]; [eapply H; eauto|].
  apply bind_err in E; destruct E as [E|(c & _ & E)]; [|discriminate].
  apply IHl in E; auto.
Qed.
Lemma mapM_no_panic {A B} (f : A -> res B) l :
  (forall a, In a l -> ~ is_panic (f a)) -> ~ is_panic (mapM f l).
Proof.
  induction l; simpl; intros H [p E]; [discriminate|].
  apply bind_panic in E; destruct E as [E|(b & _ & E)]; [eapply H; [left; eauto|exists p; auto]|].
  apply bind_panic in E; destruct E as [E|(c & _ & E)]; [|discriminate].
  apply IHl; auto. exists p; auto.
Qed.

Lemma foldM_app {A S} (f : S -> A -> res S) s l k :
  foldM f s (l ++ k) = do s' <- foldM f s l; foldM f s' k.
Proof. revert s; induction l; intros s; simpl; auto. destruct (f s a); simpl; auto. Qed.
Lemma foldM_inv {A S} (P : S -> Prop) (f : S -> A -> res S) l s s' :
  P s -> (forall s a s', In a l -> P s -> f s a = Ok s' -> P s') ->
  foldM f s l = Ok s' -> P s'.
Proof.
  revert s; induction l; simpl; intros s H0 Hs H; [injection H as <-; auto|].
  inv_do H. eapply (IHl v); eauto.
Qed.
Lemma foldM_total {A S} (P : S -> Prop) (f : S -> A -> res S) l s :
  P s -> (forall s a, In a l -> P s -> exists s', f s a = Ok s' /\ P s') ->
  exists s', foldM f s l = Ok s' /\ P s'.
Proof.
  revert s; induction l; simpl; intros s H0 Hs; [eauto|].
  destruct (Hs s a) as (s1 & -> & H1); auto. simpl. apply IHl; auto.
Qed.

Lemma usub_ok pf a b : b <= a -> usub pf a b = Ok (a - b).
Proof. unfold usub; intros; destruct (Z.leb_spec b a); auto; lia. Qed.
Lemma uadd_ok pf a b : a + b < usize_mod -> uadd pf a b = Ok (a + b).
Proof. unfold uadd; intros; destruct (Z.ltb_spec (a + b) usize_mod); auto; lia. Qed.
Lemma umul_ok pf a b : a * b < usize_mod -> umul pf a b = Ok (a * b).
Proof. unfold umul; intros; destruct (Z.ltb_spec (a * b) usize_mod); auto; lia. Qed.
Lemma wrap_i32_id z : - 2 ^ 31 <= z < 2 ^ 31 -> wrap_i32 z = z.
Proof. unfold wrap_i32; intros; rewrite Z.mod_small; lia. Qed.
Lemma wrap_i16_id z : - 2 ^ 15 <= z < 2 ^ 15 -> wrap_i16 z = z.
Proof. unfold wrap_i16; intros; rewrite Z.mod_small; lia. Qed.
Lemma wrap_i16_range z : - 2 ^ 15 <= wrap_i16 z < 2 ^ 15.
Proof. unfold wrap_i16; pose proof (Z.mod_pos_bound (z + 2^15) (2^16)); lia. Qed.
Lemma i32_ok pf z : - 2 ^ 31 <= z < 2 ^ 31 -> i32_op pf z = Ok z.
Proof.
  unfold i32_op; intros. destruct ((- 2 ^ 31 <=? z) && (z <? 2 ^ 31)) eqn:E; auto; lia.
Qed.

Lemma repeat_nth_error {A} (x : A) n i : (i < n)%nat -> nth_error (repeat x n) i = Some x.
Proof. revert i; induction n; intros [|i]; simpl; intros; auto; try lia. apply IHn; lia. Qed.

Lemma list_eq_nth_error {A} (l k : list A) :
  (forall i, nth_error l i = nth_error k i) -> l = k.
Proof.
  revert k; induction l as [|a l IH]; intros [|b k] H; auto.
  - specialize (H O); discriminate.
  - specialize (H O); discriminate.
  - pose proof (H O) as H0; injection H0 as ->. f_equal. apply IH. intros i; apply (H (S i)).
Qed.
