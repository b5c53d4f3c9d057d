(** C34: unit gain of a band at its centre frequency, exact arithmetic. *)
From Coq Require Import Reals Lra Lia Psatz Nsatz.
From Verif Require Import Base Num Mat RNum M_Audio M_Spectro P_Score Spec.
Open Scope R_scope.

(** ** Complex numbers as pairs *)
Notation CC := (cplx RN).
Notation cx := (@pair (num RN) (num RN)).
Definition nm (z : R * R) : R := R_sqrt.sqrt (fst z * fst z + snd z * snd z).
Lemma cnorm_nm (z : CC) : cnorm z = nm z. Proof. reflexivity. Qed.
Lemma sq2_pos x y : 0 <= x * x + y * y. Proof. nra. Qed.
Lemma nm_mul (a b : CC) : nm (cmul a b) = nm a * nm b.
Proof.
  destruct a as [a1 a2], b as [b1 b2]. unfold nm, cmul. cbn [fst snd RN nmul nsub nadd].
  rewrite <- sqrt_mult by apply sq2_pos. f_equal. ring.
Qed.
Lemma nm_pos z : 0 <= nm z. Proof. apply sqrt_pos. Qed.
Lemma nm_sq z : nm z * nm z = fst z * fst z + snd z * snd z.
Proof. unfold nm. apply sqrt_sqrt. apply sq2_pos. Qed.
Lemma nm_nz z : z <> (0, 0) -> 0 < nm z.
Proof.
  intros H. apply sqrt_lt_R0. destruct z as [x y]; cbn [fst snd]. destruct (Req_dec x 0) as [->|], (Req_dec y 0) as [->|]; try tauto; nra.
Qed.
Lemma nm_div (a b : CC) : b <> (0, 0) -> nm (cdiv a b) = nm a / nm b.
Proof.
  intros Hb. pose proof (nm_nz b Hb) as Pb. pose proof (nm_sq b) as Sb.
  assert (E : a = cmul (cdiv a b) b).
  { destruct a as [a1 a2], b as [b1 b2]. unfold cmul, cdiv. cbn [fst snd RN nmul nsub nadd ndiv] in *. change (num RN) with R in *. assert (b1 * b1 + b2 * b2 <> 0) by nra. f_equal; field; auto. }
  rewrite E at 2. rewrite nm_mul. field. lra.
Qed.
Lemma nm_polar r th : 0 <= r -> nm (from_polar (N:=RN) r th) = r.
Proof.
  intros H. unfold nm, from_polar. cbn [fst snd RN nmul ncos nsin]. pose proof (sin2_cos2 th) as P. unfold Rsqr in P.
  replace (r * cos th * (r * cos th) + r * sin th * (r * sin th)) with (r * r) by nra. apply sqrt_square. auto.
Qed.
Lemma nm_pow4 (a : CC) : nm (cpowf a (IZR 4)) = nm a * nm a * (nm a * nm a).
Proof.
  unfold cpowf. cbn [RN neqb nofZ]. destruct (Reqb 4 0) eqn:E; [apply Reqb_true in E; lra|].
  change (cnorm a) with (nm a). cbn [RN npowf]. unfold Rpowf. pose proof (nm_pos a). destruct (Req_EM_T (nm a) 0) as [Z|Z].
  - destruct (Req_EM_T 4 0); [lra|]. rewrite nm_polar by lra. rewrite Z. ring.
  - assert (P : Rpower (nm a) 4 = nm a * nm a * (nm a * nm a)).
    { replace 4 with (INR 4) by (cbn; ring). rewrite Rpower_pow by lra. cbn. ring. }
    rewrite P. apply nm_polar. nra.
Qed.

(** ** The coefficient row *)
Lemma cexp_re x : cexp (N:=RN) (cx x 0) = cx (exp x) 0.
Proof. unfold cexp, from_polar. cbn [fst snd RN nexp ncos nsin nmul]. rewrite cos_0, sin_0. change (num RN) with R; f_equal; ring. Qed.
Lemma ccos_re x : ccos (N:=RN) (cx x 0) = cx (cos x) 0.
Proof. unfold ccos. cbn [fst snd RN ncos nsin nmul ncosh nsinh nneg]. rewrite cosh_0, sinh_0. change (num RN) with R; f_equal; ring. Qed.
Lemma csin_re x : csin (N:=RN) (cx x 0) = cx (sin x) 0.
Proof. unfold csin. cbn [fst snd RN ncos nsin nmul ncosh nsinh nneg]. rewrite cosh_0, sinh_0. change (num RN) with R; f_equal; ring. Qed.
Lemma cpowf_1 x e : 0 <= x -> e = 1 -> cpowf (N:=RN) (cx x 0) e = cx x 0.
Proof.
  intros Hx ->. unfold cpowf. cbn [RN neqb nofZ]. destruct (Reqb 1 0) eqn:E; [apply Reqb_true in E; lra|].
  change (cnorm (N:=RN) (cx x 0)) with (nm (x, 0)). unfold nm. cbn [fst snd RN npowf natan2 nmul]. replace (x * x + 0 * 0) with (x * x) by ring. rewrite sqrt_square by auto.
  unfold from_polar. cbn [RN nmul ncos nsin]. unfold Rpowf, Ratan2.
  destruct (Rlt_dec 0 x).
  - destruct (Req_EM_T x 0); [lra|]. rewrite Rpower_1 by auto. unfold Rdiv. rewrite Rmult_0_l, atan_0, Rmult_0_l, cos_0, sin_0. change (num RN) with R; f_equal; ring.
  - assert (x = 0) by lra. subst x. destruct (Req_EM_T 0 0); [|lra]. destruct (Req_EM_T 1 0); [lra|]. change (num RN) with R; f_equal; ring.
Qed.
Lemma cdiv_re x y : y <> 0 -> cdiv (N:=RN) (cx x 0) (y, 0) = (x / y, 0).
Proof. intros H. unfold cdiv. cbn [fst snd RN nmul nadd nsub ndiv]. change (num RN) with R in *. f_equal; field; lra. Qed.

(** The magnitude data of one band: [E] = exp(B t), [t] the sample period, [w] the angle
    of the centre frequency per sample. *)
Definition zero_of (t E w k : R) : R * R := (t - k * t * cos w / E, k * t * sin w / E).
Definition pole_of (E w : R) : R * R :=
  (1 - 2 * cos w * cos w / E + cos (2 * w) / (E * E), 2 * cos w * sin w / E - sin (2 * w) / (E * E)).
Definition turn (w : R) : R * R := (-2 * cos (2 * w), -2 * sin (2 * w)).
Lemma turn_nm w : nm (turn w) = 2.
Proof.
  unfold nm, turn. cbn [fst snd]. pose proof (sin2_cos2 (2 * w)) as P. unfold Rsqr in P.
  replace (-2 * cos (2 * w) * (-2 * cos (2 * w)) + -2 * sin (2 * w) * (-2 * sin (2 * w))) with (2 * 2) by nra. apply sqrt_square. lra.
Qed.
Lemma back1 w : cos (2 * w) * cos w + sin (2 * w) * sin w = cos w.
Proof. rewrite <- cos_minus. f_equal. ring. Qed.
Lemma back2 w : sin (2 * w) * cos w - cos (2 * w) * sin w = sin w.
Proof. rewrite <- sin_minus. f_equal. ring. Qed.
Lemma zero_turn t E w k : 0 < E -> cmul (N:=RN) (turn w) (zero_of t E w k) =
  (-2 * cos (2 * w) * t + 2 * k * t * cos w / E, -2 * sin (2 * w) * t + 2 * k * t * sin w / E).
Proof.
  intros HE. unfold cmul, turn, zero_of. cbn [fst snd RN nmul nadd nsub].
  pose proof (back1 w) as B1. pose proof (back2 w) as B2. change (num RN) with R in *. unfold Rdiv.
  generalize dependent (cos (2 * w)). generalize dependent (sin (2 * w)). generalize dependent (cos w). generalize dependent (sin w).
  intros s c s2 c2 B1 B2. f_equal; nsatz.
Qed.
Lemma pole_turn E w : 0 < E -> cmul (N:=RN) (turn w) (pole_of E w) =
  (-2 / (E * E) - 2 * cos (2 * w) + 2 * (1 + cos (2 * w)) / E, - 2 * sin (2 * w) + 2 * sin (2 * w) / E).
Proof.
  intros HE. unfold cmul, turn, pole_of. cbn [fst snd RN nmul nadd nsub]. pose proof (sin2_cos2 (2 * w)) as P. unfold Rsqr in P.
  pose proof (back1 w) as B1. pose proof (back2 w) as B2. pose proof (sin2_cos2 w) as Q. unfold Rsqr in Q.
  assert (C2 : cos (2 * w) = 2 * cos w * cos w - 1) by apply cos_2a_cos. assert (S2 : sin (2 * w) = 2 * sin w * cos w) by apply sin_2a.
  change (num RN) with R in *. unfold Rdiv. rewrite Rinv_mult.
  generalize dependent (cos (2 * w)). generalize dependent (sin (2 * w)). generalize dependent (cos w). generalize dependent (sin w).
  generalize (/ E).
  intros i s c Q s2 c2 P B1 B2 C2 S2. f_equal; nsatz.
Qed.

Lemma lit_pos m k : (0 < m)%Z -> (0 <= k)%Z -> 0 < nlit RN m k.
Proof.
  intros. change (nlit RN m k) with (IZR m / IZR (10 ^ k)). apply Rdiv_lt_0_compat; apply IZR_lt; auto. apply Z.pow_pos_nonneg; lia.
Qed.
Lemma erb_val f : 0 <= f -> exists b, 0 < b /\
  cpowf (caddr (cpowf (cdivr (N:=RN) (cx f (nofZ RN 0)) (EAR_Q (N:=RN))) ERB_ORDER) (npowf RN MIN_BW ERB_ORDER)) (ndiv RN (nofZ RN 1) ERB_ORDER) = cx b 0.
Proof.
  intros Hf. unfold ERB_ORDER.
  assert (Q : 0 < EAR_Q (N:=RN)) by (apply lit_pos; lia).
  assert (M : 0 < MIN_BW (N:=RN)) by (apply lit_pos; lia).
  set (q := EAR_Q (N:=RN)) in *. set (m := MIN_BW (N:=RN)) in *. clearbody q m. change (num RN) with R in *.
  exists (f / q + m). assert (0 <= f / q) by (apply Rmult_le_pos; [lra|left; apply Rinv_0_lt_compat; auto]).
  split; [lra|].
  unfold cdivr. cbn [fst snd RN ndiv nofZ]. change (num RN) with R in *. replace (0 / q) with 0 by (field; lra).
  rewrite (cpowf_1 (f / q)) by (auto; lra). unfold caddr. cbn [fst snd RN nadd npowf].
  replace (Rpowf m 1) with m by (unfold Rpowf; destruct (Req_EM_T m 0); [lra|]; rewrite Rpower_1; auto).
  rewrite cpowf_1; auto; lra.
Qed.
Lemma cexp_im y : cexp (N:=RN) (cx 0 y) = cx (cos y) (sin y).
Proof. unfold cexp, from_polar. cbn [fst snd RN nexp ncos nsin nmul]. rewrite exp_0. change (num RN) with R; f_equal; ring. Qed.
Lemma cexp_gen x y : cexp (N:=RN) (cx x y) = cx (exp x * cos y) (exp x * sin y).
Proof. reflexivity. Qed.

Definition k_of (w s : R) : R := cos w + s * sin w.
Definition row_of (t E w u v g : R) : list R :=
  [t; - (k_of w u * t / E); - (k_of w (-u) * t / E); - (k_of w v * t / E); - (k_of w (-v) * t / E); 0; 1;
   -2 * cos w / E; / (E * E); g].
Definition gain_of (t E w u v : R) : R :=
  nm (zero_of t E w (k_of w u)) * nm (zero_of t E w (k_of w (-u))) * nm (zero_of t E w (k_of w v)) * nm (zero_of t E w (k_of w (-v)))
  / (nm (pole_of E w) * nm (pole_of E w) * (nm (pole_of E w) * nm (pole_of E w))).

Lemma pole_nz E w : 1 < E -> pole_of E w <> (0, 0).
Proof.
  intros HE H. unfold pole_of in H. injection H as H1 H2.
  rewrite cos_2a_cos in H1. rewrite sin_2a in H2.
  assert (HP := sin2_cos2 w). unfold Rsqr in HP.
  set (c := cos w) in *. set (s := sin w) in *. clearbody c s.
  assert (A : s * c * (1 - / E) = 0).
  { apply Rmult_eq_reg_l with (2 / E); [|apply Rgt_not_eq; apply Rdiv_lt_0_compat; lra]. rewrite Rmult_0_r, <- H2. field. lra. }
  assert (B : 1 - 2 * c * c / E + (2 * c * c - 1) / (E * E) = (1 - / E) * (1 - (2 * c * c - 1) / E)) by (field; lra).
  rewrite B in H1.
  assert (I : / E < 1) by (rewrite <- Rinv_1; apply Rinv_lt_contravar; lra).
  assert (I0 : 0 < / E) by (apply Rinv_0_lt_compat; lra).
  assert (C : 1 - (2 * c * c - 1) / E = 0) by (apply Rmult_eq_reg_l with (1 - / E); lra).
  unfold Rdiv in C. nra.
Qed.
Lemma zero_nz t E w s : 0 < t -> 1 < E -> zero_of t E w (k_of w s) <> (0, 0).
Proof.
  intros Ht HE H. unfold zero_of, k_of in H. injection H as H1 H2.
  assert (HP := sin2_cos2 w). unfold Rsqr in HP.
  set (c := cos w) in *. set (z := sin w) in *. clearbody c z.
  assert (A : (c + s * z) * z = 0).
  { apply Rmult_eq_reg_l with (t / E); [|apply Rgt_not_eq; apply Rdiv_lt_0_compat; lra]. rewrite Rmult_0_r, <- H2. field. lra. }
  assert (B : (c + s * z) * c = E).
  { apply Rmult_eq_reg_l with (t / E); [|apply Rgt_not_eq; apply Rdiv_lt_0_compat; lra].
    transitivity ((c + s * z) * t * c / E); [field; lra|]. transitivity t; [lra|field; lra]. }
  apply Rmult_integral in A. destruct A as [A|A]; [rewrite A in B; lra|]. subst z. nra.
Qed.

Lemma erb_row_of rate f : (0 < rate)%Z -> 0 <= f ->
  exists E u v, 1 < E /\
  erb_row (N:=RN) rate f = row_of (/ IZR rate) E (2 * PI * f / IZR rate) u v (gain_of (/ IZR rate) E (2 * PI * f / IZR rate) u v).
Proof.
  intros Hr Hf. destruct (erb_val f Hf) as (b0 & Pb & Eb). set (b := b0 : R) in *; clearbody b; clear b0.
  assert (Hr' : 0 < IZR rate) by (apply IZR_lt; auto).
  set (t := / IZR rate). assert (Ht : 0 < t) by (apply Rinv_0_lt_compat; auto).
  set (B := 1019 / 1000 * 2 * PI * b).
  assert (PB : 0 < B). { unfold B. pose proof PI_RGT_0. assert (0 < b) by exact Pb. apply Rmult_lt_0_compat; [|assumption]. apply Rmult_lt_0_compat; lra. }
  set (w := 2 * PI * f / IZR rate).
  exists (exp (B * t)), (R_sqrt.sqrt (3 + Rpowf 2 (3 / 2))), (R_sqrt.sqrt (3 - Rpowf 2 (3 / 2))).
  assert (HE : 1 < exp (B * t)). { rewrite <- exp_0. apply exp_increasing. apply Rmult_lt_0_compat; auto. }
  split; auto.
  unfold erb_row. cbv zeta. rewrite Eb.
  replace (rscale (N:=RN) (nmul RN (nmul RN (nlit RN 1019 3) (nofZ RN 2)) (npi RN)) (cx b 0)) with (cx B 0).
  2:{ unfold rscale. cbn [RN nmul nlit npi nofZ fst snd]. change (num RN) with R. unfold B. f_equal; ring. }
  replace (ndiv RN (nofZ RN 1) (nofZ RN rate)) with t.
  2:{ unfold t. cbn [RN ndiv nofZ]. change (num RN) with R. field. lra. }
  replace (nlit RN 15 1) with (3 / 2) by (cbn [RN nlit]; change (10 ^ 1)%Z with 10%Z; field).
  assert (W1 : cscale (cscale (rscale (N:=RN) (nofZ RN 2) (cx f (nofZ RN 0))) (npi RN)) t = cx w 0).
  { unfold cscale, rscale. cbn [RN nmul npi nofZ fst snd]. change (num RN) with R. unfold w, t. f_equal; field; lra. }
  assert (W2 : cscale (cscale (cscale (N:=RN) (cx f (nofZ RN 0)) (nofZ RN 2)) (npi RN)) t = cx w 0).
  { unfold cscale, rscale. cbn [RN nmul npi nofZ fst snd]. change (num RN) with R. unfold w, t. f_equal; field; lra. }
  rewrite W1, W2. clear W1 W2.
  assert (W3 : cscale (cscale (cmul (rscale (N:=RN) (nofZ RN 4) (cx (nofZ RN 0) (nofZ RN 1))) (cx f (nofZ RN 0))) (npi RN)) t = cx 0 (2 * w)).
  { unfold cscale, rscale, cmul. cbn [RN nmul nadd nsub npi nofZ fst snd]. change (num RN) with R. unfold w, t. f_equal; field; lra. }
  assert (W4 : cscale (cscale (cmul (rscale (N:=RN) (nofZ RN 2) (cx (nofZ RN 0) (nofZ RN 1))) (cx f (nofZ RN 0))) (npi RN)) t = cx 0 w).
  { unfold cscale, rscale, cmul. cbn [RN nmul nadd nsub npi nofZ fst snd]. change (num RN) with R. unfold w, t. f_equal; field; lra. }
  rewrite W3, W4. clear W3 W4.
  assert (W5 : cscale (N:=RN) (cx B 0) t = cx (B * t) 0).
  { unfold cscale. cbn [RN nmul fst snd]. change (num RN) with R. f_equal; ring. }
  rewrite W5.
  assert (W6 : cscale (N:=RN) (cx (B * t) 0) (nneg RN (nofZ RN 2)) = cx (- (B * t + B * t)) 0).
  { unfold cscale. cbn [RN nmul nneg nofZ fst snd]. change (num RN) with R. f_equal; ring. }
  assert (W7 : cscale (rscale (N:=RN) (nofZ RN 2) (cx B 0)) t = cx (B * t + B * t) 0).
  { unfold cscale, rscale. cbn [RN nmul nofZ fst snd]. change (num RN) with R. f_equal; ring. }
  assert (W8 : cadd (cneg (N:=RN) (cx (B * t) 0)) (cx 0 w) = cx (- (B * t)) w).
  { unfold cadd, cneg. cbn [RN nadd nneg fst snd]. change (num RN) with R. f_equal; ring. }
  rewrite W6, W7, W8. clear W5 W6 W7 W8. rewrite !cexp_re, ccos_re, csin_re, cexp_im, cexp_gen.
  rewrite !exp_Ropp, exp_plus.
  set (E := exp (B * t)) in *. clearbody E t w. clear Eb PB Pb B b.
  change (nsqrt RN) with R_sqrt.sqrt. change (npowf RN) with Rpowf. change (nofZ RN) with IZR. change (ndiv RN) with Rdiv.
  change (nadd RN) with Rplus. change (nsub RN) with Rminus. change (nneg RN) with Ropp.
  change (Rplus 3 (Ropp (Rpowf 2 (3 / 2)))) with (3 - Rpowf 2 (3 / 2)).
  set (u := R_sqrt.sqrt (3 + Rpowf 2 (3 / 2))). set (v := R_sqrt.sqrt (3 - Rpowf 2 (3 / 2))). clearbody u v.
  assert (E0 : E <> 0) by lra.
  unfold row_of.
  assert (X : forall s (x : CC), x = cx (cos w + s * sin w) 0 ->
     cadd (cscale (rscale (N:=RN) (- 2) (cx (cos (2 * w)) (sin (2 * w)))) t)
       (cmul (cscale (rscale (N:=RN) 2 (cx (/ E * cos w) (/ E * sin w))) t) x) = cmul (N:=RN) (turn w) (zero_of t E w (k_of w s))).
  { intros s x ->. rewrite zero_turn by lra. unfold cadd, cscale, rscale, cmul, k_of. cbn [RN nmul nadd nsub npi nofZ fst snd].
    change (num RN) with R. f_equal; field; auto. }
  rewrite (X (-v)), (X v), (X (-u)), (X u).
  2-5: unfold csub, cadd, rscale; cbn [RN nmul nadd nsub fst snd]; change (num RN) with R; f_equal; ring.
  match goal with |- context [cpowf ?x _] => replace x with (cmul (N:=RN) (turn w) (pole_of E w)) end.
  2:{ rewrite pole_turn by lra. unfold cadd, csub, rdivc, raddc, rscale, cdiv. cbn [RN nmul nadd nsub ndiv nneg fst snd]. change (num RN) with R.
      f_equal; field; auto. }
  assert (PZ := pole_nz E w HE).
  assert (PP := nm_nz _ PZ).
  rewrite cnorm_nm.
  match goal with |- context [nm (cdiv ?x ?y)] => rewrite (nm_div x y) end.
  2:{ intros Z. apply (f_equal nm) in Z. rewrite (nm_pow4 (cmul (N:=RN) (turn w) (pole_of E w))), nm_mul, turn_nm in Z. unfold nm at 5 in Z. cbn [fst snd] in Z.
      replace (0 * 0 + 0 * 0) with 0 in Z by ring. rewrite sqrt_0 in Z. set (q := nm (pole_of E w)) in *. assert (Q : 0 < 2 * q) by lra.
      assert (Q2 := Rmult_lt_0_compat _ _ Q Q). assert (Q4 := Rmult_lt_0_compat _ _ Q2 Q2). lra. }
  rewrite (nm_pow4 (cmul (N:=RN) (turn w) (pole_of E w))), !nm_mul, turn_nm.
  unfold gain_of. 
  unfold cdivr, cneg, cadd, csub, cdiv, cscale, rscale. cbn [RN nmul nadd nsub ndiv nneg nofZ fst snd].
  change (num RN) with R in *. unfold k_of.
  repeat (match goal with |- _ :: _ = _ :: _ => f_equal end); try (field; auto); try reflexivity.
  lra.
Qed.
