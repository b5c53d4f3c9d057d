(** Rational bounds of the exponential, by Taylor polynomials. *)
From Coq Require Import ssreflect Reals Lra Psatz.
From Coquelicot Require Import Coquelicot.
Open Scope R_scope.

(** ** A rational bound of exp at the point used for perfect similarity *)
Fixpoint texp (n : nat) (x : R) : R :=
  match n with O => 1 | S k => texp k x + x ^ S k / INR (fact (S k)) end.
Lemma pow_term_deriv m c (x : R) :
  is_derive (fun x => x ^ m * c) x (INR m * x ^ Init.Nat.pred m * c).
Proof. auto_derive; auto. ring. Qed.
Lemma fact_step n z : INR (S n) * z * / INR (fact (S n)) = z / INR (fact n).
Proof.
  rewrite fact_simpl mult_INR. field. split; [apply INR_fact_neq_0|apply not_0_INR; lia].
Qed.
Lemma texp_deriv n x : is_derive (texp (S n)) x (texp n x).
Proof.
  induction n.
  - apply (is_derive_ext (fun x => 1 + x)). { intros; simpl; field. }
    simpl. auto_derive; auto.
  - change (texp (S (S n))) with (fun x => texp (S n) x + x ^ S (S n) / INR (fact (S (S n)))).
    change (texp (S n) x) with (texp n x + x ^ S n / INR (fact (S n))).
    apply: (is_derive_plus (texp (S n))); [exact IHn|].
    rewrite -(fact_step (S n) (x ^ S n)). apply (pow_term_deriv (S (S n))).
Qed.
Lemma texp_0 n : texp n 0 = 1.
Proof. induction n; simpl; auto. rewrite IHn. unfold Rdiv. rewrite !Rmult_0_l. ring. Qed.
Lemma incr_from_0 (f f' : R -> R) :
  (forall x, 0 <= x -> is_derive f x (f' x)) -> (forall x, 0 <= x -> 0 <= f' x) ->
  forall x, 0 <= x -> f 0 <= f x.
Proof.
  intros D P x Hx. destruct (Req_dec x 0) as [->|Hn]; [lra|].
  destruct (MVT_gen f 0 x f') as (c & Hc & E).
  - intros y Hy. apply D. rewrite Rmin_left in Hy; try lra.
  - intros y Hy. rewrite Rmin_left in Hy;try lra.
    apply continuity_pt_filterlim. apply (ex_derive_continuous (V:=R_NormedModule)).
    eexists; apply D; lra.
  - rewrite Rmin_left ?Rmax_right in Hc; try lra.
    assert (0 <= f' c) by (apply P; lra). nra.
Qed.
Lemma texp_le n : forall x, 0 <= x -> texp n x <= exp x.
Proof.
  induction n; intros x Hx.
  - simpl. rewrite -exp_0. destruct (Req_dec x 0); [subst; lra|]. left; apply exp_increasing; lra.
  - assert (H : exp 0 - texp (S n) 0 <= exp x - texp (S n) x).
    { apply (incr_from_0 (fun x => exp x - texp (S n) x) (fun x => exp x - texp n x)); auto.
      - intros y _. apply: is_derive_minus; [|apply texp_deriv]. apply is_derive_exp.
      - intros y Hy. specialize (IHn y Hy). lra. }
    rewrite texp_0 exp_0 in H. lra.
Qed.
(** upper bound: exp x <= texp n x + x^(n+1)/(n+1)! * K for exp <= K on [0, x] *)
Lemma texp_ge n K x0 : (forall x, 0 <= x <= x0 -> exp x <= K) ->
  forall x, 0 <= x <= x0 -> exp x <= texp n x + K * x ^ S n / INR (fact (S n)).
Proof.
  intros HK. induction n; intros x Hx.
  - simpl. 
    assert (H : (1 + K * 0 - exp 0) <= 1 + K * x - exp x).
    { destruct (Req_dec x 0) as [->|Hn]; [lra|].
      destruct (MVT_gen (fun x => 1 + K * x - exp x) 0 x (fun x => K - exp x)) as (c & Hc & E).
      - intros y Hy. auto_derive; auto. ring.
      - intros y Hy. apply continuity_pt_filterlim. apply (ex_derive_continuous (V:=R_NormedModule) (fun x => 1 + K * x - exp x)).
        exists (K - exp y). auto_derive; auto. ring.
      - rewrite Rmin_left ?Rmax_right in Hc; try lra.
        assert (exp c <= K) by (apply HK; lra). nra. }
    rewrite exp_0 in H. lra.
  - set (g := fun x => texp (S n) x + K * x ^ S (S n) / INR (fact (S (S n))) - exp x).
    set (g' := fun x => texp n x + K * x ^ S n / INR (fact (S n)) - exp x).
    assert (D : forall y, is_derive g y (g' y)).
    { intros y. unfold g, g'.
      apply: (is_derive_minus (fun x => texp (S n) x + K * x ^ S (S n) / INR (fact (S (S n)))));
        [|apply is_derive_exp].
      apply: (is_derive_plus (texp (S n))); [apply texp_deriv|].
      rewrite -(fact_step (S n) (K * y ^ S n)).
      replace (INR (S (S n)) * (K * y ^ S n) * / INR (fact (S (S n))))
        with (INR (S (S n)) * y ^ S n * (K * / INR (fact (S (S n))))) by ring.
      apply (is_derive_ext (fun y => y ^ S (S n) * (K * / INR (fact (S (S n)))))).
      { intros t. change (t ^ S (S n) * (K * / INR (fact (S (S n)))) = K * t ^ S (S n) / INR (fact (S (S n)))). unfold Rdiv. ring. }
      apply (pow_term_deriv (S (S n))). }
    assert (H : g 0 <= g x).
    { destruct (Req_dec x 0) as [->|Hn]; [lra|].
      destruct (MVT_gen g 0 x g') as (c & Hc & E).
      - intros y Hy. apply D.
      - intros y Hy. apply continuity_pt_filterlim. apply (ex_derive_continuous (V:=R_NormedModule)).
        eexists; apply D.
      - rewrite Rmin_left ?Rmax_right in Hc; try lra.
        assert (0 <= g' c). { unfold g'. specialize (IHn c). lra. }
        nra. }
    unfold g in H. rewrite texp_0 exp_0 in H.
    replace (K * 0 ^ S (S n) / INR (fact (S (S n)))) with 0 in H
      by (rewrite pow_ne_zero; [unfold Rdiv; ring|lia]).
    lra.
Qed.

Definition tpt : R := 46851153 / 10000000 * (1 - 7655232 / 10000000).
Lemma exp_le_4 : forall x, 0 <= x <= tpt -> exp x <= 4.
Proof.
  (* exp (-x/4) >= 1 - x/4 >= 0.72 and 0.72^-4 < 4 *)
  intros x Hx. unfold tpt in Hx. 
  assert (A : 1 - x / 4 <= exp (- (x / 4))).
  { pose proof (exp_ineq1_le (- (x / 4))). lra. }
  assert (B : exp x * (exp (- (x / 4)) * exp (- (x / 4)) * (exp (- (x / 4)) * exp (- (x / 4)))) = 1).
  { rewrite -!exp_plus. rewrite -exp_0. f_equal. field. }
  set (e := exp (- (x / 4))) in *. assert (0.725 <= e);try lra.
  pose proof (exp_pos x).
  assert (0.725 * 0.725 <= e * e) by nra.
  assert (0.25 <= e * e * (e * e)) by nra.
  nra.
Qed.
Fixpoint zfact (n : nat) : Z := match n with O => 1%Z | S k => (Z.of_nat (S k) * zfact k)%Z end.
Lemma fact_zfact n : INR (fact n) = IZR (zfact n).
Proof.
  induction n; auto. rewrite fact_simpl mult_INR IHn.
  change (zfact (S n)) with (Z.of_nat (S n) * zfact n)%Z. rewrite mult_IZR -INR_IZR_INZ. reflexivity.
Qed.
Fixpoint texpz (n : nat) (x : R) : R :=
  match n with O => 1 | S k => texpz k x + x ^ S k / IZR (zfact (S k)) end.
Lemma texp_texpz n x : texp n x = texpz n x.
Proof.
  induction n; auto.
  change (texp (S n) x) with (texp n x + x ^ S n / INR (fact (S n))).
  rewrite IHn (fact_zfact (S n)). reflexivity.
Qed.
Lemma texp_upper n K x0 : (forall x, 0 <= x <= x0 -> exp x <= K) ->
  forall x, 0 <= x <= x0 -> exp x <= texpz n x + K * x ^ S n / IZR (zfact (S n)).
Proof. intros H x Hx. rewrite -texp_texpz -fact_zfact. apply (texp_ge n K x0 H x Hx). Qed.
Lemma texp_lower n x : 0 <= x -> texpz n x <= exp x.
Proof. rewrite -texp_texpz. apply texp_le. Qed.
Ltac zfacts := cbv [texpz];
  repeat match goal with |- context [zfact ?z] =>
    let y := eval vm_compute in (zfact z) in change (zfact z) with y end.
Lemma exp_tpt : 299981 / 100000 <= exp tpt <= 299982 / 100000.
Proof.
  split.
  - apply Rle_trans with (texpz 12 tpt).
    + zfacts. unfold tpt. lra.
    + apply texp_lower. unfold tpt; lra.
  - apply Rle_trans with (texpz 12 tpt + 4 * tpt ^ 13 / IZR (zfact 13)).
    + apply (texp_upper 12 4 tpt exp_le_4). unfold tpt; lra.
    + zfacts. unfold tpt. lra.
Qed.
