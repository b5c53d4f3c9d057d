(** Facts about the exact instance: sums, and the filters and spectrograms over
    the reals. *)
From Coq Require Import Reals Lra.
From Verif Require Import Base Num Mat RNum M_Audio M_Align M_Spectro P_Base P_Mat P_Spectro P_Score Spec.
Open Scope R_scope.

(** ** Sums *)
Lemma Rsum_app a b : Rsum (a ++ b) = Rsum a + Rsum b.
Proof. unfold Rsum. rewrite fold_right_app. induction a; cbn [fold_right]; [lra|rewrite IHa; lra]. Qed.
Lemma Rsum_cons x l : Rsum (x :: l) = x + Rsum l. Proof. reflexivity. Qed.
Lemma Rsum_scale c l : Rsum (map (fun x => c * x) l) = c * Rsum l.
Proof. induction l; cbn [map]; rewrite ?Rsum_cons; [unfold Rsum; simpl; lra|rewrite IHl; lra]. Qed.
Lemma Rsum_scale_r c l : Rsum (map (fun x => x * c) l) = Rsum l * c.
Proof. induction l; cbn [map]; rewrite ?Rsum_cons; [unfold Rsum; simpl; lra|rewrite IHl; lra]. Qed.
Lemma Rsum_div c l : Rsum (map (fun x => x / c) l) = Rsum l / c.
Proof. unfold Rdiv. apply Rsum_scale_r. Qed.
Lemma Rsum_plus {A} (f g : A -> R) l : Rsum (map (fun x => f x + g x) l) = Rsum (map f l) + Rsum (map g l).
Proof. induction l; cbn [map]; rewrite ?Rsum_cons; [unfold Rsum; simpl; lra|rewrite IHl; lra]. Qed.
Lemma Rsum_minus {A} (f g : A -> R) l : Rsum (map (fun x => f x - g x) l) = Rsum (map f l) - Rsum (map g l).
Proof. induction l; cbn [map]; rewrite ?Rsum_cons; [unfold Rsum; simpl; lra|rewrite IHl; lra]. Qed.
Lemma Rsum_const c n : Rsum (repeat c n) = INR n * c.
Proof. induction n; cbn [repeat]; [unfold Rsum; simpl; lra|]. rewrite Rsum_cons, IHn, S_INR. lra. Qed.
Lemma Rsum_map_const {A} c (l : list A) : Rsum (map (fun _ => c) l) = INR (List.length l) * c.
Proof. induction l; cbn [map List.length]; [unfold Rsum; simpl; lra|]. rewrite Rsum_cons, IHl, S_INR. lra. Qed.
Lemma Rsum_nonneg l : Forall (fun x => 0 <= x) l -> 0 <= Rsum l.
Proof. intros H. induction H; [unfold Rsum; simpl; lra|rewrite Rsum_cons; lra]. Qed.
Lemma Rsum_le l k : Forall2 Rle l k -> Rsum l <= Rsum k.
Proof. intros H. induction H; rewrite ?Rsum_cons; [lra|lra]. Qed.
Lemma Rsum_0 l : Forall (fun x => x = 0) l -> Rsum l = 0.
Proof. intros H. induction H; [reflexivity|rewrite Rsum_cons; lra]. Qed.

Definition sum8 (p : R*R*R*R*R*R*R*R) : R :=
  let '(p0,p1,p2,p3,p4,p5,p6,p7) := p in p0+p1+p2+p3+p4+p5+p6+p7.
Lemma unroll8_sum fuel : forall p l, let '(p', r) := unroll8 (N:=RN) fuel p l in
  sum8 p' + Rsum r = sum8 p + Rsum l.
Proof.
  induction fuel as [|f IH]; intros p l; cbn [unroll8]; auto.
  do 8 (destruct l as [|? l]; [auto|]).
  destruct p as [[[[[[[p0 p1] p2] p3] p4] p5] p6] p7].
  match goal with |- context [unroll8 f ?q l] => specialize (IH q l); destruct (unroll8 f q l) as [p' r'] end.
  rewrite IH. unfold sum8. rewrite !Rsum_cons. cbn [RN nadd]. lra.
Qed.
Lemma R_nd_sum (l : list R) : nd_sum (N:=RN) l = Rsum l.
Proof.
  unfold nd_sum. match goal with |- context [unroll8 ?f ?q l] => pose proof (unroll8_sum f q l) as H; destruct (unroll8 f q l) as [p' r'] end.
  destruct p' as [[[[[[[p0 p1] p2] p3] p4] p5] p6] p7]. unfold sum8 in H. cbn [RN nadd nofZ] in *.
  assert (G : forall k acc, fold_left Rplus k acc = acc + Rsum k).
  { clear. induction k; intros acc; cbn [fold_left]; [unfold Rsum; simpl; lra|rewrite IHk, Rsum_cons; lra]. }
  rewrite G. lra.
Qed.
Lemma R_nd_mean (l : list R) : l <> [] -> nd_mean (N:=RN) l = Some (Rsum l / IZR (zlen l)).
Proof. intros H. unfold nd_mean. destruct l; [tauto|]. rewrite R_nd_sum. reflexivity. Qed.

(** ** The biquad *)
Notation fR := (filter_signal (N:=RN)).
Lemma filter_eqn n0 n1 n2 d0 d1 d2 (x : list R) : forall c0 c1 y,
  y = fst (fR (n0, n1, n2) (d0, d1, d2) x (c0, c1)) ->
  (forall x0, nth_error x 0 = Some x0 -> nth_error y 0 = Some (n0 * x0 + c0)) /\
  (forall x0 x1 y0, nth_error x 0 = Some x0 -> nth_error x 1 = Some x1 -> nth_error y 0 = Some y0 ->
     nth_error y 1 = Some (n0 * x1 + n1 * x0 - d1 * y0 + c1)) /\
  (forall n x0 x1 x2 y0 y1, nth_error x n = Some x0 -> nth_error x (S n) = Some x1 -> nth_error x (S (S n)) = Some x2 ->
     nth_error y n = Some y0 -> nth_error y (S n) = Some y1 ->
     nth_error y (S (S n)) = Some (n0 * x2 + n1 * x1 + n2 * x0 - d1 * y1 - d2 * y0)).
Proof.
  induction x as [|a x IH]; intros c0 c1 y ->.
  { repeat split; intros; try (destruct n); discriminate. }
  cbn [filter_signal].
  set (z := nadd RN (nmul RN n0 a) c0).
  set (e0 := nsub RN _ _). set (e1 := nsub RN _ _).
  specialize (IH e0 e1 _ eq_refl). destruct (fR (n0,n1,n2) (d0,d1,d2) x (e0,e1)) as [ys cf].
  cbn [fst] in *. destruct IH as (A & B & C). repeat split.
  - intros x0 [= <-]. reflexivity.
  - intros x0 x1 y0 [= <-] H1 [= <-]. cbn [nth_error] in *. rewrite (A x1 H1). f_equal.
    unfold e0, z. cbn [RN nadd nsub nmul]. lra.
  - intros n x0 x1 x2 y0 y1 H0 H1 H2 H3 H4. destruct n as [|n].
    + cbn [nth_error] in *. injection H0 as <-. injection H3 as <-.
      rewrite (B x1 x2 y1 H1 H2 H4). f_equal. unfold e1, z. cbn [RN nadd nsub nmul]. lra.
    + cbn [nth_error] in *. eapply C; eauto.
Qed.

Fixpoint lin (a b : R) (x x' : list R) : list R :=
  match x, x' with
  | u :: t, v :: t' => (a * u + b * v) :: lin a b t t'
  | _, _ => []
  end.
Lemma filter_cons n0 n1 n2 d0 d1 d2 (u c0 c1 : R) (x : list R) :
  fst (fR (n0, n1, n2) (d0, d1, d2) (u :: x) (c0, c1)) =
  (n0 * u + c0) :: fst (fR (n0, n1, n2) (d0, d1, d2) x
    (n1 * u + c1 - d1 * (n0 * u + c0), n2 * u - d2 * (n0 * u + c0))).
Proof. cbn [filter_signal RN nadd nsub nmul]. destruct (fR _ _ x _). reflexivity. Qed.
Lemma filter_linear nc dc a b (x : list R) : forall x' c0 c1 c0' c1', List.length x = List.length x' ->
  fst (fR nc dc (lin a b x x') (a * c0 + b * c0', a * c1 + b * c1')) =
  lin a b (fst (fR nc dc x (c0, c1))) (fst (fR nc dc x' (c0', c1'))).
Proof.
  destruct nc as [[n0 n1] n2], dc as [[d0 d1] d2]. change R in n0, n1, n2, d0, d1, d2.
  induction x as [|u x IH]; intros [|v x'] c0 c1 c0' c1' H; try discriminate; [reflexivity|].
  cbn [lin]. rewrite !filter_cons. cbn [lin]. f_equal; [ring|].
  rewrite <- IH by (cbn [List.length] in H; lia). do 2 f_equal. f_equal; ring.
Qed.

(** ** Spectrogram entries *)
Lemma R_nis_nan (x : R) : nis_nan (N:=RN) x = false.
Proof. unfold nis_nan. cbn [RN neqb]. rewrite Reqb_refl. auto. Qed.
Lemma C30_R nb (f : Filterbank RN) s w : (1 <= win_size w)%Z -> (0 < hop_size w)%Z ->
  (win_size w <= zlen (data_matrix s))%Z ->
  exists sp, snd (build nb f s w) = Ok sp /\ mat_wf (sp_data sp) /\ mrows (sp_data sp) = nb /\
    Z.of_nat (mcols (sp_data sp)) = (1 + (zlen (data_matrix s) - win_size w) / hop_size w)%Z /\
    List.length (center_freq_bands sp) = nb.
Proof.
  intros H1 H2 H3. apply C30_total; auto. apply Forall_forall. intros x _. apply R_nis_nan.
Qed.
Lemma C31_R nb (f : Filterbank RN) s w f' sp b j :
  (0 < hop_size w)%Z -> (1 <= win_size w)%Z ->
  build nb f s w = (f', Ok sp) -> (b < nb)%nat -> (j < mcols (sp_data sp))%nat ->
  exists y e, apply_band (bank nb (sample_rate s) (fb_min_freq f))
      (firstn (Z.to_nat (win_size w)) (skipn (Z.to_nat (hop_size w * Z.of_nat j)) (data_matrix s))) (Z.of_nat b) = Ok (y, e) /\
    zlen y = win_size w /\
    mget (sp_data sp) b j = R_sqrt.sqrt (Rsum (map (fun v => v * v) y) / IZR (win_size w)).
Proof.
  intros H1 H2 H3 H4 H5. destruct (C31_entry nb f s w f' sp b j H1 H2 H3 H4 H5) as (x & y & e & -> & A & B & C).
  exists y, e. split; auto. split; auto. rewrite C. rewrite R_nd_sum. reflexivity.
Qed.
