(** C34: a tone at the centre frequency comes out of the band with its own amplitude. *)
From Coq Require Import Reals Lra Lia Psatz Nsatz.
From Verif Require Import Base Num Mat RNum M_Audio M_Spectro P_Score Spec P_Gain.
Open Scope R_scope.

(** ** A section as a map of sequences *)
Section Stage.
Variables n0 n1 n2 d0 d1 d2 : R.
Definition next (c : R * R) (x : R) : R * R :=
  (n1 * x + snd c - d1 * (n0 * x + fst c), n2 * x - d2 * (n0 * x + fst c)).
Fixpoint st (x : nat -> R) (n : nat) : R * R := match n with O => (0, 0) | S m => next (st x m) (x m) end.
Definition stage (x : nat -> R) (n : nat) : R := n0 * x n + fst (st x n).
Lemma filter_cons x (l : list R) c :
  fst (filter_signal (N:=RN) (n0, n1, n2) (d0, d1, d2) (x :: l) c) =
  (n0 * x + fst c) :: fst (filter_signal (N:=RN) (n0, n1, n2) (d0, d1, d2) l (next c x)).
Proof.
  destruct c as [a b]. unfold next. cbn [filter_signal fst snd RN nmul nadd nsub].
  match goal with |- fst (let '(_, _) := ?t in _) = _ :: fst ?q => change q with t; destruct t end. reflexivity.
Qed.
Lemma stage_list (x : nat -> R) len : forall s,
  fst (filter_signal (N:=RN) (n0, n1, n2) (d0, d1, d2) (map x (seq s len)) (st x s)) = map (stage x) (seq s len).
Proof.
  induction len as [|len IH]; intros s; [reflexivity|].
  cbn [seq map]. rewrite filter_cons. change (next (st x s) (x s)) with (st x (S s)). rewrite IH. reflexivity.
Qed.
Lemma stage_eqn (x : nat -> R) n : n2 = 0 ->
  stage x (S (S n)) + d1 * stage x (S n) + d2 * stage x n = n0 * x (S (S n)) + n1 * x (S n).
Proof.
  intros H. unfold stage. cbn [st]. unfold next. cbn [fst snd]. rewrite H. ring.
Qed.
End Stage.

(** ** Sequences that vanish *)
Definition vanishes (u : nat -> R) : Prop :=
  forall eps, 0 < eps -> exists n0, forall n, (n0 <= n)%nat -> Rabs (u n) < eps.
Lemma van_ext u v : (forall n, u n = v n) -> vanishes u -> vanishes v.
Proof. intros H V eps He. destruct (V eps He) as [n0 P]. exists n0. intros n L. rewrite <- H. auto. Qed.
Lemma van_shift u : vanishes u -> vanishes (fun n => u (S n)).
Proof. intros V eps He. destruct (V eps He) as [n0 P]. exists n0. intros n L. apply P. lia. Qed.
Lemma van_unshift u : vanishes (fun n => u (S n)) -> vanishes u.
Proof. intros V eps He. destruct (V eps He) as [n0 P]. exists (S n0). intros [|n] L; [lia|]. apply P. lia. Qed.
Lemma van_scal k u : vanishes u -> vanishes (fun n => k * u n).
Proof.
  intros V eps He. assert (K : 0 < Rabs k + 1) by (pose proof (Rabs_pos k); lra).
  destruct (V (eps / (Rabs k + 1))) as [n0 P]. { apply Rdiv_lt_0_compat; auto. }
  exists n0. intros n L. specialize (P n L). rewrite Rabs_mult.
  apply Rle_lt_trans with ((Rabs k + 1) * Rabs (u n)). { pose proof (Rabs_pos (u n)). nra. }
  apply Rmult_lt_reg_r with (/ (Rabs k + 1)); [apply Rinv_0_lt_compat; auto|]. unfold Rdiv in P.
  replace ((Rabs k + 1) * Rabs (u n) * / (Rabs k + 1)) with (Rabs (u n)) by (field; lra). exact P.
Qed.
Lemma van_plus u v : vanishes u -> vanishes v -> vanishes (fun n => u n + v n).
Proof.
  intros U V eps He. destruct (U (eps / 2)) as [a P]; [lra|]. destruct (V (eps / 2)) as [b Q]; [lra|].
  exists (Nat.max a b). intros n L. specialize (P n ltac:(lia)). specialize (Q n ltac:(lia)).
  pose proof (Rabs_triang (u n) (v n)). lra.
Qed.
Lemma van_abs u : vanishes u -> vanishes (fun n => Rabs (u n)).
Proof. intros V eps He. destruct (V eps He) as [n0 P]. exists n0. intros n L. rewrite Rabs_Rabsolu. auto. Qed.
Lemma van_contract (r : R) a b : 0 <= r < 1 -> (forall n, 0 <= a n) -> (forall n, a (S n) <= r * a n + b n) ->
  vanishes b -> vanishes a.
Proof.
  intros Hr Ha H V eps He.
  destruct (V (eps * (1 - r) / 2)) as [n0 P]. { assert (0 < eps * (1 - r)) by (apply Rmult_lt_0_compat; lra). lra. }
  assert (I : forall k, a (n0 + k)%nat <= r ^ k * a n0 + eps / 2).
  { induction k as [|k IH]; [rewrite Nat.add_0_r; change (r ^ 0) with 1; lra|].
    replace (n0 + S k)%nat with (S (n0 + k)) by lia.
    specialize (H (n0 + k)%nat). specialize (P (n0 + k)%nat ltac:(lia)). apply Rabs_def2 in P. change (r ^ S k) with (r * r ^ k).
    assert (r * a (n0 + k)%nat <= r * (r ^ k * a n0 + eps / 2)) by (apply Rmult_le_compat_l; [lra|exact IH]). set (p := r ^ k) in *. clearbody p. lra. }
  assert (Q : 0 < eps / 2 / (a n0 + 1)). { specialize (Ha n0). apply Rdiv_lt_0_compat; lra. }
  destruct (pow_lt_1_zero r) with (y := eps / 2 / (a n0 + 1)) as [m M]; auto. { rewrite Rabs_pos_eq; lra. }
  exists (n0 + m)%nat. intros n L. specialize (M (n - n0)%nat ltac:(lia)). specialize (I (n - n0)%nat).
  replace (n0 + (n - n0))%nat with n in I by lia. rewrite Rabs_pos_eq by auto.
  rewrite Rabs_pos_eq in M by (apply pow_le; lra).
  set (p := r ^ (n - n0)) in *. assert (p * (a n0 + 1) < eps / 2).
  { apply Rmult_lt_reg_r with (/ (a n0 + 1)); [apply Rinv_0_lt_compat; specialize (Ha n0); lra|].
    replace (p * (a n0 + 1) * / (a n0 + 1)) with p by (field; specialize (Ha n0); lra). exact M. }
  assert (0 <= p) by (apply pow_le; lra). specialize (Ha n0). nra.
Qed.

(** ** The damped recursion *)
Lemma nm_tri a b u : nm (a + u, b) <= nm (a, b) + Rabs u.
Proof.
  unfold nm. cbn [fst snd]. set (q := a * a + b * b). assert (Q : 0 <= q) by apply sq2_pos.
  assert (S := sqrt_sqrt q Q). assert (SP := sqrt_pos q). set (s := R_sqrt.sqrt q) in *.
  assert (U := Rabs_pos u). assert (UU : Rabs u * Rabs u = u * u) by (rewrite <- Rabs_mult; apply Rabs_pos_eq; apply Rle_0_sqr).
  assert (A : Rabs a <= s). { apply Rsqr_incr_0_var; auto. rewrite <- Rsqr_abs. unfold Rsqr. rewrite S. unfold q. pose proof (Rle_0_sqr b) as B. unfold Rsqr in B. lra. }
  rewrite <- (sqrt_square (s + Rabs u)) by lra. apply sqrt_le_1_alt.
  assert (a * u <= s * Rabs u). { apply Rle_trans with (Rabs (a * u)); [apply Rle_abs|]. rewrite Rabs_mult. apply Rmult_le_compat_r; auto. }
  unfold q in S. nra.
Qed.
Lemma nm_re a b : Rabs a <= nm (a, b).
Proof.
  unfold nm. cbn [fst snd]. rewrite <- (sqrt_Rsqr_abs a). apply sqrt_le_1_alt. unfold Rsqr. pose proof (Rle_0_sqr b) as B. unfold Rsqr in B. lra.
Qed.
Lemma damped (r w : R) e u : 0 <= r < 1 -> (forall n : nat, e (S (S n)) + - 2 * r * cos w * e (S n) + r * r * e n = u n) ->
  vanishes u -> vanishes e.
Proof.
  intros Hr H V. assert (P := sin2_cos2 w). unfold Rsqr in P.
  set (v := fun n => nm (e (S n) - r * cos w * e n, r * sin w * e n)).
  assert (VV : vanishes v).
  { apply (van_contract r v (fun n => Rabs (u n))); auto.
    - intros n. apply nm_pos.
    - intros n. unfold v.
      replace (e (S (S n)) - r * cos w * e (S n)) with
        (r * (cos w * (e (S n) - r * cos w * e n) - sin w * (r * sin w * e n)) + u n).
      2:{ rewrite <- H. nsatz. }
      eapply Rle_trans; [apply nm_tri|]. apply Rplus_le_compat_r. right.
      transitivity (nm (r, 0) * nm (cmul (N:=RN) (cos w, sin w) (e (S n) - r * cos w * e n, r * sin w * e n))).
      + rewrite <- (nm_mul (cx r 0)). f_equal. unfold cmul. cbn [fst snd RN nmul nadd nsub]. change (num RN) with R. f_equal; ring.
      + rewrite (nm_mul (cx (cos w) (sin w))).
        replace (nm (r, 0)) with r by (unfold nm; cbn [fst snd]; rewrite Rmult_0_l, Rplus_0_r, sqrt_square; lra).
        replace (nm (cx (cos w) (sin w))) with 1; [change (num RN) with R; ring|]. unfold nm; cbn [fst snd]. replace (cos w * cos w + sin w * sin w) with 1 by lra. symmetry. apply sqrt_1.
    - apply van_abs; auto. }
  intros eps He. destruct (van_contract r (fun n => Rabs (e n)) v) with (eps := eps) as [n0 N]; auto.
  - intros. apply Rabs_pos.
  - intros n. replace (e (S n)) with (r * cos w * e n + (e (S n) - r * cos w * e n)) by ring.
    eapply Rle_trans; [apply Rabs_triang|]. apply Rplus_le_compat; [|apply nm_re].
    rewrite !Rabs_mult, (Rabs_pos_eq r) by lra. assert (Rabs (cos w) <= 1) by (apply Rabs_le; apply COS_bound).
    pose proof (Rabs_pos (e n)). pose proof (Rabs_pos (cos w)). assert (r * Rabs (cos w) <= r) by nra. nra.
  - exists n0. intros n L. specialize (N n L). rewrite Rabs_Rabsolu in N. auto.
Qed.

(** ** Polar form *)
Lemma polar (h : R * R) : exists phi, fst h = nm h * cos phi /\ snd h = nm h * sin phi.
Proof.
  destruct h as [x y]. cbn [fst snd]. set (m := nm (x, y)).
  assert (M : m * m = x * x + y * y) by apply (nm_sq (x, y)). assert (MP : 0 <= m) by apply nm_pos.
  destruct (Req_dec m 0) as [Z|Z]. { exists 0. rewrite Z in *. split; nra. }
  assert (X : Rabs x <= m) by apply nm_re.
  assert (B : -1 <= x / m <= 1).
  { assert (X1 := Rle_abs x). assert (X2 := Rle_abs (-x)). rewrite Rabs_Ropp in X2. split.
    - apply Rmult_le_reg_r with m; [lra|]. replace (x / m * m) with x by (field; auto). lra.
    - apply Rmult_le_reg_r with m; [lra|]. replace (x / m * m) with x by (field; auto). lra. }
  assert (S : m * R_sqrt.sqrt (1 - (x / m)²) = Rabs y).
  { rewrite <- (sqrt_Rsqr_abs y). rewrite <- (sqrt_square m) at 1 by auto. rewrite <- sqrt_mult_alt by nra. f_equal.
    unfold Rsqr. replace (m * m * (1 - x / m * (x / m))) with (m * m - x * x) by (field; auto). lra. }
  destruct (Rle_dec 0 y) as [Y|Y].
  - exists (acos (x / m)). rewrite cos_acos, sin_acos by auto. rewrite S, Rabs_pos_eq by auto. split; [field; auto|auto].
  - exists (- acos (x / m)). rewrite cos_neg, sin_neg, cos_acos, sin_acos by auto.
    rewrite Ropp_mult_distr_r_reverse, S, Rabs_left by lra. split; [field; auto|lra].
Qed.

(** ** One section on a tone *)
Definition tends_to_tone (w : R) (x : nat -> R) (a th : R) : Prop := vanishes (fun n => x n - a * cos (w * INR n + th)).
Definition num_of (w n0 n1 : R) : R * R := (n0 + n1 * cos w, - n1 * sin w).
Lemma stage_tone E w n0 n1 : 1 < E -> exists phi, forall x a th, tends_to_tone w x a th ->
  tends_to_tone w (stage n0 n1 0 (-2 * cos w / E) (/ (E * E)) x) (nm (num_of w n0 n1) / nm (pole_of E w) * a) (th + phi).
Proof.
  intros HE. assert (PN := pole_nz E w HE). assert (PP := nm_nz _ PN). 
  set (h := cdiv (N:=RN) (num_of w n0 n1) (pole_of E w)).
  assert (HM : nm h = nm (num_of w n0 n1) / nm (pole_of E w)) by (apply nm_div; auto).
  assert (PH := polar h). change (num RN) with R in PH. destruct PH as [phi [P1 P2]]. exists phi. intros x a th HX. rewrite <- HM.
  assert (HH : fst h * fst (pole_of E w) - snd h * snd (pole_of E w) = n0 + n1 * cos w /\
               fst h * snd (pole_of E w) + snd h * fst (pole_of E w) = - n1 * sin w).
  { pose proof (nm_sq (pole_of E w)) as Q. assert (Q0 : 0 < nm (pole_of E w) * nm (pole_of E w)) by nra. rewrite Q in Q0.
    unfold h, cdiv, num_of. set (p := pole_of E w) in *. destruct p as [pr pi]. cbn [fst snd RN nmul nadd nsub ndiv] in *. change (num RN) with R in *.
    assert (pr * pr + pi * pi <> 0) by lra. split; field; auto. }
  destruct HH as [H1 H2]. set (hr := fst h) in *. set (hi := snd h) in *.
  set (z := fun n => nm h * a * cos (w * INR n + (th + phi))).
  assert (Z : forall n, z n = a * (hr * cos (w * INR n + th) - hi * sin (w * INR n + th))).
  { intros n. unfold z. replace hr with (nm h * cos phi) by (symmetry; exact P1). replace hi with (nm h * sin phi) by (symmetry; exact P2). replace (w * INR n + (th + phi)) with ((w * INR n + th) + phi) by ring. rewrite cos_plus. ring. }
  set (r := / E). assert (Hr : 0 <= r < 1).
  { unfold r. split; [left; apply Rinv_0_lt_compat; lra|]. rewrite <- Rinv_1. apply Rinv_lt_contravar; lra. }
  set (X := fun n => a * cos (w * INR n + th)).
  set (y := stage n0 n1 0 (-2 * cos w / E) (/ (E * E)) x).
  assert (ZE : forall n, z (S (S n)) + -2 * r * cos w * z (S n) + r * r * z n = n0 * X (S (S n)) + n1 * X (S n)).
  { intros n. rewrite !Z. unfold X. rewrite !S_INR.
    replace (w * (INR n + 1) + th) with ((w * (INR n + 1 + 1) + th) - w) by ring.
    replace (w * INR n + th) with ((w * (INR n + 1 + 1) + th) - 2 * w) by ring.
    set (al := w * (INR n + 1 + 1) + th). rewrite !cos_minus, !sin_minus.
    unfold pole_of in H1, H2. cbn [fst snd] in H1, H2.
    assert (I1 : forall q, q / E = q * r) by (intros; reflexivity). assert (I2 : forall q, q / (E * E) = q * (r * r)).
    { intros q. unfold Rdiv, r. rewrite Rinv_mult. reflexivity. }
    rewrite !I1, !I2 in H1, H2. clear I1 I2 Z P1 P2. clearbody hr hi r al.
    assert (C2 : cos (2 * w) = 2 * cos w * cos w - 1) by apply cos_2a_cos. assert (S2 : sin (2 * w) = 2 * sin w * cos w) by apply sin_2a.
    pose proof (sin2_cos2 w) as Q. unfold Rsqr in Q.
    generalize dependent (cos (2 * w)). generalize dependent (sin (2 * w)). generalize dependent (cos w). generalize dependent (sin w).
    generalize (cos al) (sin al). intros ca sa s c Q s2 S2 c2 H1 H2 C2. nsatz. }
  assert (YE : forall n, y (S (S n)) + -2 * r * cos w * y (S n) + r * r * y n = n0 * x (S (S n)) + n1 * x (S n)).
  { intros n. rewrite <- (stage_eqn n0 n1 0 (-2 * cos w / E) (/ (E * E)) x n eq_refl). fold y. unfold r. rewrite Rinv_mult. unfold Rdiv. ring. }
  unfold tends_to_tone.
  apply (damped r w _ (fun n => n0 * (x (S (S n)) - X (S (S n))) + n1 * (x (S n) - X (S n)))); auto.
  - intros n. specialize (YE n). specialize (ZE n).
    change (nm h * a * cos (w * INR (S (S n)) + (th + phi))) with (z (S (S n))).
    change (nm h * a * cos (w * INR (S n) + (th + phi))) with (z (S n)).
    change (nm h * a * cos (w * INR n + (th + phi))) with (z n). lra.
  - unfold tends_to_tone in HX. apply van_plus; apply van_scal.
    + apply (van_shift (fun n => x (S n) - X (S n))). apply (van_shift (fun n => x n - X n)). exact HX.
    + apply (van_shift (fun n => x n - X n)). exact HX.
Qed.

Lemma num_zero t E w k : E <> 0 -> num_of w t (- (k * t / E)) = zero_of t E w k.
Proof. intros. unfold num_of, zero_of. f_equal; field; auto. Qed.
Lemma num_div w n0 n1 g : 0 < g -> nm (num_of w (n0 / g) (n1 / g)) = nm (num_of w n0 n1) / g.
Proof.
  intros. transitivity (nm (/ g, 0) * nm (num_of w n0 n1)).
  - rewrite <- (nm_mul (cx (/ g) 0)). f_equal. unfold num_of, cmul. cbn [fst snd RN nmul nadd nsub]. change (num RN) with R. f_equal; field; lra.
  - unfold nm at 1; cbn [fst snd]. rewrite Rmult_0_l, Rplus_0_r, sqrt_square; [field; lra|]. left. apply Rinv_0_lt_compat; auto.
Qed.

Theorem unit_gain rate f : (0 < rate)%Z -> 0 <= f -> exists phi, forall a th eps, 0 < eps ->
  exists settled : nat, forall len k, (settled <= k < len)%nat ->
  Rabs (nth k (cascade (N:=RN) (erb_row (N:=RN) rate f) (map (fun n => a * cos (2 * PI * f / IZR rate * INR n + th)) (seq 0 len))) 0
        - a * cos (2 * PI * f / IZR rate * INR k + th + phi)) < eps.
Proof.
  intros Hr Hf. destruct (erb_row_of rate f Hr Hf) as (E & u & v & HE & ->).
  set (w := 2 * PI * f / IZR rate). set (t := / IZR rate).
  assert (Ht : 0 < t) by (apply Rinv_0_lt_compat; apply IZR_lt; auto).
  set (g := gain_of t E w u v).
  assert (PN := nm_nz _ (pole_nz E w HE)).
  assert (N1 := nm_nz _ (zero_nz t E w u Ht HE)). assert (N2 := nm_nz _ (zero_nz t E w (-u) Ht HE)).
  assert (N3 := nm_nz _ (zero_nz t E w v Ht HE)). assert (N4 := nm_nz _ (zero_nz t E w (-v) Ht HE)).
  assert (G : 0 < g).
  { unfold g, gain_of. apply Rdiv_lt_0_compat; repeat apply Rmult_lt_0_compat; auto. }
  destruct (stage_tone E w (t / g) (- (k_of w u * t / E) / g) HE) as [p1 S1].
  destruct (stage_tone E w t (- (k_of w (-u) * t / E)) HE) as [p2 S2].
  destruct (stage_tone E w t (- (k_of w v * t / E)) HE) as [p3 S3].
  destruct (stage_tone E w t (- (k_of w (-v) * t / E)) HE) as [p4 S4].
  exists (p1 + p2 + p3 + p4). intros a th eps He.
  set (x := fun n => a * cos (w * INR n + th)).
  assert (T0 : tends_to_tone w x a th).
  { intros e Pe. exists O. intros n _. unfold x. rewrite Rminus_eq_0, Rabs_R0. auto. }
  apply S1, S2, S3, S4 in T0. rewrite num_div, !num_zero in T0 by (auto; lra).
  match type of T0 with tends_to_tone w ?y ?aa ?tt => set (y4 := y) in *; replace aa with a in T0; [replace tt with (th + (p1 + p2 + p3 + p4)) in T0 by ring|] end.
  2:{ unfold g, gain_of. field. repeat split; lra. }
  destruct (T0 eps He) as [n0 P]. exists n0. intros len k L.
  assert (C : cascade (N:=RN) (row_of t E w u v g) (map x (seq 0 len)) = map y4 (seq 0 len)).
  { unfold cascade. cbn [row_of nth RN ndiv nofZ]. change (num RN) with R. replace (0 / g) with 0 by (field; lra).
    change (0, 0) with (st (t / g) (- (k_of w u * t / E) / g) 0 (-2 * cos w / E) (/ (E * E)) x 0) at 1.
    rewrite (stage_list (t / g) _ 0 1 _ _ x len 0).
    set (y1 := stage _ _ _ _ _ x).
    change (0, 0) with (st t (- (k_of w (-u) * t / E)) 0 (-2 * cos w / E) (/ (E * E)) y1 0) at 1.
    rewrite (stage_list t _ 0 1 _ _ y1 len 0).
    set (y2 := stage _ _ _ _ _ y1).
    change (0, 0) with (st t (- (k_of w v * t / E)) 0 (-2 * cos w / E) (/ (E * E)) y2 0) at 1.
    rewrite (stage_list t _ 0 1 _ _ y2 len 0).
    set (y3 := stage _ _ _ _ _ y2).
    change (0, 0) with (st t (- (k_of w (-v) * t / E)) 0 (-2 * cos w / E) (/ (E * E)) y3 0) at 1.
    rewrite (stage_list t _ 0 1 _ _ y3 len 0). reflexivity. }
  fold x. rewrite C. rewrite (nth_indep _ 0 (y4 0%nat)) by (rewrite map_length, seq_length; lia).
  rewrite map_nth, seq_nth by lia. cbn [Nat.add].
  replace (w * INR k + th + (p1 + p2 + p3 + p4)) with (w * INR k + (th + (p1 + p2 + p3 + p4))) by ring.
  apply P. lia.
Qed.
