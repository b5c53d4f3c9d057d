(** C37 in binary64: level matching up to rounding. *)
From Coq Require Import Reals Lra Psatz.
From Flocq Require Import Core BinarySingleNaN Relative.
From Verif Require Import Base Num M_Audio F64 RNum P_Base P_Mat P_F64 P_R P_Win Spec Spec13 P_Audio P_Audio2 P_Level P_NsimF.
Open Scope R_scope.

(** ** Relative errors *)
Definition uu : R := bpow radix2 (-53).
Lemma uu_val : uu = / 9007199254740992. Proof. apply (bpn 53); reflexivity || lia. Qed.
Lemma rnd_rel x : x = 0 \/ bpow radix2 (-1000) <= Rabs x -> Rabs (rnd x - x) <= uu * Rabs x.
Proof.
  intros [->|H].
  - rewrite (rnd_IZR 0) by (cbn; lia). rewrite Rminus_0_r, Rabs_R0. lra.
  - pose proof (relative_error_N_FLT radix2 (-1074) 53 ltac:(lia) (fun n => negb (Z.even n)) x) as E.
    unfold uu. replace (bpow radix2 (-53)) with (/ 2 * bpow radix2 (-53 + 1)) by (rewrite bpow_plus, bpow_1; change (IZR radix2) with 2; lra).
    apply E. eapply Rle_trans; [|exact H]. apply bpow_le. lia.
Qed.
Definition mid (v : R) : Prop := bpow radix2 (-900) <= v <= bpow radix2 900.
(** [x] is [v] up to the relative error [e]. *)
Definition rl (x : f64) (v e : R) : Prop := is_finite x = true /\ Rabs (B2R x - v) <= e * v.
Lemma mid_pos v : mid v -> 0 < v. Proof. intros [H _]. eapply Rlt_le_trans; [apply bpow_gt_0|exact H]. Qed.
Lemma rl_rnd z v e : mid v -> 0 <= e <= / 4 -> Rabs (z - v) <= e * v -> Rabs (rnd z) < big /\ Rabs (rnd z - v) <= (e + 5 / 4 * uu) * v.
Proof.
  intros M He H. pose proof (mid_pos v M) as P. destruct M as [M1 M2].
  assert (A : 3 / 4 * v <= z <= 5 / 4 * v) by (apply Rabs_le_inv in H; nra).
  assert (Z : Rabs (rnd z - z) <= uu * Rabs z).
  { apply rnd_rel. right. rewrite Rabs_pos_eq by lra. apply Rle_trans with (3 / 4 * bpow radix2 (-900)); [|lra].
    replace (-1000)%Z with (-100 + -900)%Z by lia. rewrite bpow_plus. apply Rmult_le_compat_r; [apply bpow_ge_0|]. apply Rle_trans with (bpow radix2 (-1)); [apply bpow_le; lia|]. change (bpow radix2 (-1)) with (/ 2). lra. }
  split.
  - apply small_lt_big. rewrite Rabs_pos_eq by lra. apply Rle_trans with (2 * bpow radix2 900); [lra|]. change 2 with (bpow radix2 1). rewrite <- bpow_plus. apply bpow_le. lia.
  - rewrite (Rabs_pos_eq z) in Z by lra. replace (rnd z - v) with ((rnd z - z) + (z - v)) by ring. eapply Rle_trans; [apply Rabs_triang|].
    assert (0 < uu) by apply bpow_gt_0. nra.
Qed.
Lemma rl_mono x v e f : 0 <= v -> e <= f -> rl x v e -> rl x v f.
Proof. intros P H [F E]. split; auto. nra. Qed.
Lemma rl_pos x v e : 0 < v -> e < 1 -> rl x v e -> 0 < B2R x.
Proof. intros P H [F E]. apply Rabs_le_inv in E. nra. Qed.
Lemma rl_div x y v w e f : mid (v / w) -> 0 < w -> 0 < v -> 0 <= e -> 0 <= f -> e + f <= / 32 -> rl x v e -> rl y w f ->
  rl (Bdiv mode_NE x y) (v / w) (17 / 16 * (e + f) + 5 / 4 * uu).
Proof.
  intros M W V He Hf H [Fx Ex] [Fy Ey]. apply Rabs_le_inv in Ex, Ey.
  assert (YP : 0 < B2R y) by nra.
  assert (D : Rabs (B2R x / B2R y - v / w) <= 17 / 16 * (e + f) * (v / w)).
  { replace (B2R x / B2R y - v / w) with (((B2R x - v) * w + v * (w - B2R y)) / (B2R y * w)) by (field; lra).
    unfold Rdiv at 1. rewrite Rabs_mult. rewrite (Rabs_pos_eq (/ _)) by (left; apply Rinv_0_lt_compat; nra).
    apply Rmult_le_reg_r with (B2R y * w); [nra|]. rewrite Rmult_assoc, Rinv_l, Rmult_1_r by nra.
    apply Rle_trans with ((e + f) * v * w).
    - apply Rabs_le. split; nra.
    - replace (17 / 16 * (e + f) * (v / w) * (B2R y * w)) with ((e + f) * v * (17 / 16 * B2R y)) by (field; lra). apply Rmult_le_compat_l; [apply Rmult_le_pos; lra|]. nra. }
  destruct (rl_rnd (B2R x / B2R y) (v / w) (17 / 16 * (e + f)) M ltac:(lra) D) as [A B].
  destruct (Bdiv_fin x y Fx Fy ltac:(lra) A) as [F E]. split; auto. rewrite E. exact B.
Qed.
Lemma sqrt_rel x v e : 0 < v -> 0 <= x -> 0 <= e -> Rabs (x - v) <= e * v -> Rabs (sqrt x - sqrt v) <= e * sqrt v.
Proof.
  intros V X He H. assert (SV : 0 < sqrt v) by (apply sqrt_lt_R0; exact V). pose proof (sqrt_pos x) as SX.
  pose proof (sqrt_sqrt x X) as EX. pose proof (sqrt_sqrt v ltac:(lra)) as EV.
  apply Rmult_le_reg_r with (sqrt x + sqrt v); [lra|].
  assert (K : Rabs (sqrt x - sqrt v) * (sqrt x + sqrt v) = Rabs (x - v)).
  { rewrite <- (Rabs_pos_eq (sqrt x + sqrt v)) by lra. rewrite <- Rabs_mult. f_equal. nra. }
  rewrite K. eapply Rle_trans; [exact H|]. rewrite <- EV at 1. rewrite Rmult_assoc. apply Rmult_le_compat_l; [exact He|]. nra.
Qed.
Lemma rl_sqrt x v e : mid (sqrt v) -> 0 < v -> 0 <= e <= / 4 -> rl x v e -> rl (Bsqrt mode_NE x) (sqrt v) (e + 5 / 4 * uu).
Proof.
  intros M V He [F E]. assert (X : 0 <= B2R x) by (apply Rabs_le_inv in E; nra).
  destruct (Bsqrt_fin x F X) as [G K]. split; auto. rewrite K. apply (rl_rnd _ _ e M He). apply sqrt_rel; auto. lra.
Qed.
Lemma rl_plus x y v w e f : 0 <= v -> 0 <= w -> v + w = 0 \/ mid (v + w) -> 0 <= f <= e -> e <= / 4 -> rl x v e -> rl y w f ->
  rl (Bplus mode_NE x y) (v + w) (e + 5 / 4 * uu).
Proof.
  intros V W M Hf He [Fx Ex] [Fy Ey]. assert (UP : 0 < uu) by apply bpow_gt_0.
  assert (D : Rabs (B2R x + B2R y - (v + w)) <= e * (v + w)).
  { replace (B2R x + B2R y - (v + w)) with ((B2R x - v) + (B2R y - w)) by ring. eapply Rle_trans; [apply Rabs_triang|]. nra. }
  destruct M as [Z|M].
  - assert (v = 0 /\ w = 0) as [-> ->] by lra. rewrite Rmult_0_r in Ex, Ey.
    assert (X0 : B2R x = 0) by (apply Rabs_le_inv in Ex; lra). assert (Y0 : B2R y = 0) by (apply Rabs_le_inv in Ey; lra).
    destruct (Bplus_fin x y Fx Fy) as [F E].
    + rewrite X0, Y0, Rplus_0_r, (rnd_IZR 0), Rabs_R0 by (cbn; lia). apply big_pos.
    + split; auto. rewrite E, X0, Y0, Rplus_0_r, (rnd_IZR 0) by (cbn; lia). rewrite Rminus_0_r, Rabs_R0. lra.
  - destruct (rl_rnd _ _ e M ltac:(lra) D) as [A B]. destruct (Bplus_fin x y Fx Fy A) as [F E]. split; auto. rewrite E. exact B.
Qed.

(** ** Energy *)
Definition fine (x : f64) : Prop := is_finite x = true /\ Rabs (B2R x) <= 2 /\ (B2R x = 0 \/ bpow radix2 (-100) <= Rabs (B2R x)).
Lemma b_100 : bpow radix2 (-100) * bpow radix2 (-100) = bpow radix2 (-200). Proof. rewrite <- bpow_plus. reflexivity. Qed.
Lemma sq_rl (x : f64) : fine x -> rl (Bmult mode_NE x x) (B2R x * B2R x) (5 / 4 * uu) /\ (B2R x * B2R x = 0 \/ bpow radix2 (-200) <= B2R x * B2R x) /\ 0 <= B2R x * B2R x <= 4.
Proof.
  intros (F & H2 & H). assert (UP : 0 < uu) by apply bpow_gt_0.
  assert (S4 : 0 <= B2R x * B2R x <= 4) by (apply Rabs_le_inv in H2; nra).
  assert (SL : B2R x * B2R x = 0 \/ bpow radix2 (-200) <= B2R x * B2R x).
  { destruct H as [E|H]; [left; rewrite E; ring|right]. rewrite <- b_100, <- (Rabs_mult_self (B2R x)). apply Rmult_le_compat; try apply bpow_ge_0; exact H. }
  split; [|auto].
  assert (Z : Rabs (rnd (B2R x * B2R x) - B2R x * B2R x) <= uu * Rabs (B2R x * B2R x)).
  { apply rnd_rel. destruct SL as [E|L]; [left; exact E|right]. rewrite Rabs_pos_eq by lra. eapply Rle_trans; [|exact L]. apply bpow_le. lia. }
  rewrite (Rabs_pos_eq (B2R x * B2R x)) in Z by lra.
  destruct (Bmult_fin x x F F) as [G E].
  - apply small_lt_big. rewrite Rabs_pos_eq by lra. apply Rle_trans with (bpow radix2 2); [cbn; lra|apply bpow_le; lia].
  - split; auto. rewrite E. nra.
Qed.
Lemma energy_rl (l : list f64) : forall (acc : f64) k S, Forall fine l -> (0 <= k)%Z -> (k + zlen l <= 2 ^ 30)%Z ->
  0 <= S <= 4 * IZR k -> S = 0 \/ bpow radix2 (-200) <= S -> rl acc S (5 / 4 * uu * IZR (k + 1)) ->
  rl (fold_left (fun a x => Bplus mode_NE a x) (map (fun x => Bmult mode_NE x x) l) acc) (S + energy (map (fun x : f64 => B2R x) l)) (5 / 4 * uu * IZR (k + zlen l + 1)).
Proof.
  induction l as [|x l IH]; intros acc k S HF Hk Hl HS HM HA.
  { cbn [map fold_left]. unfold energy. cbn [map Rsum fold_right]. change (zlen (@nil f64)) with 0%Z. rewrite Z.add_0_r, Rplus_0_r. exact HA. }
  inversion HF as [|? ? Fx HF']; subst. rewrite zlen_cons in Hl. pose proof (zlen_nonneg l) as L0. cbn [map fold_left]. rewrite energy_cons.
  destruct (sq_rl x Fx) as (A & B & C). rewrite <- Rplus_assoc.
  assert (UP : 0 < uu) by apply bpow_gt_0.
  assert (KB : 1 <= IZR (k + 1) <= 1073741824) by (split; [apply (IZR_le 1)|apply (IZR_le _ 1073741824)]; lia).
  replace (k + zlen (x :: l) + 1)%Z with (k + 1 + zlen l + 1)%Z by (rewrite zlen_cons; lia).
  apply IH; auto; try lia.
  - rewrite plus_IZR. lra.
  - destruct HM as [->|HM]; [destruct B as [->|B]; [left; ring|right; lra]|right; lra].
  - replace (IZR (k + 1 + 1)) with (IZR (k + 1) + 1) by (rewrite (plus_IZR (k + 1)); reflexivity).
    replace (5 / 4 * uu * (IZR (k + 1) + 1)) with (5 / 4 * uu * IZR (k + 1) + 5 / 4 * uu) by ring.
    apply (rl_plus _ _ _ _ _ (5 / 4 * uu)); try lra; auto; try nra.
    + destruct HM as [->|HM]; [destruct B as [->|B]; [left; ring|]|]; right; (split; [eapply Rle_trans; [apply (bpow_le radix2 _ (-200)); lia|lra]|]);
        (apply Rle_trans with (bpow radix2 40); [|apply bpow_le; lia]); change (bpow radix2 40) with 1099511627776; rewrite plus_IZR in KB; lra.
    + rewrite uu_val. lra.
Qed.

(** ** Root mean square *)
Lemma mid_in a b v : (-900 <= a)%Z -> (b <= 900)%Z -> bpow radix2 a <= v <= bpow radix2 b -> mid v.
Proof. intros Ha Hb [H1 H2]. split; [eapply Rle_trans; [|exact H1]|eapply Rle_trans; [exact H2|]]; apply bpow_le; lia. Qed.
Lemma energy_low (l : list R) x : In x l -> x * x <= energy l.
Proof. induction l as [|y l IH]; [contradiction|]. rewrite energy_cons. pose proof (energy_nonneg l) as P. intros [->|H]; [lra|]. apply IH in H. nra. Qed.
Lemma energy_high (l : list R) : Forall (fun x => Rabs x <= 2) l -> energy l <= 4 * IZR (zlen l).
Proof.
  induction 1 as [|x l H F IH]; [cbn; lra|]. rewrite energy_cons, zlen_cons, plus_IZR. apply Rabs_le_inv in H. nra.
Qed.
Definition rF (l : list f64) : R := rms (map (fun x : f64 => B2R x) l).
Definition E1 : R := 3 / 2 * / 8388608.
Section Levels.
Context {lm : Libm}.
Notation N := (F64 lm).
Definition pressure (s : AudioSignal N) : f64 :=
  Bdiv mode_NE (Bsqrt mode_NE (Bdiv mode_NE (fold_left (fun a x => Bplus mode_NE a x) (map (fun x : f64 => Bmult mode_NE x x) (data_matrix s)) (f64_ofZ 0)) (f64_ofZ (sig_len s)))) (f64_lit 2 5).
Lemma spl_pressure (s : AudioSignal N) : (calculate_sound_pressure_level s : f64) = Bmult mode_NE (f64_ofZ 20) (lm_log10 lm (pressure s)).
Proof. reflexivity. Qed.
Lemma pressure_rl (s : AudioSignal N) : recorded (data_matrix s) -> (sig_len s <= 2 ^ 30)%Z ->
  bpow radix2 (-55) <= rF (data_matrix s) <= 2 /\ rl (pressure s) (rF (data_matrix s) / (2 / 100000)) E1.
Proof.
  intros [FA EX] HL. set (d := data_matrix s) in *.
  assert (L1 : (1 <= sig_len s)%Z).
  { apply Exists_exists in EX as (x & Hx & _). assert (0 < sig_len s)%Z by (apply lt_IZR; exact (zlen_pos_in _ _ Hx)). lia. }
  assert (EL : sig_len s = zlen (A:=f64) d) by reflexivity.
  set (n := sig_len s) in *. assert (N1 : 1 <= IZR n <= 1073741824) by (split; [apply (IZR_le 1)|apply (IZR_le _ 1073741824)]; lia).
  set (dr := map (fun x : f64 => B2R x) d).
  assert (LN : zlen dr = n) by (unfold dr; rewrite zlen_map; symmetry; exact EL).
  assert (EN : energy dr <= 4 * IZR n).
  { rewrite <- LN. apply energy_high. apply Forall_forall. intros y Hy. apply in_map_iff in Hy as (x & <- & Hx). rewrite Forall_forall in FA. apply (FA x Hx). }
  assert (EM : bpow radix2 (-80) <= energy dr).
  { apply Exists_exists in EX as (x & Hx & B). eapply Rle_trans; [|apply (energy_low dr (B2R x)); apply in_map; exact Hx].
    rewrite <- (Rabs_mult_self (B2R x)). change (-80)%Z with (-40 + -40)%Z. rewrite bpow_plus. apply Rmult_le_compat; try apply bpow_ge_0; exact B. }
  assert (UV := uu_val). assert (UP : 0 < uu) by apply bpow_gt_0.
  assert (A1 : rl (fold_left (fun a x => Bplus mode_NE a x) (map (fun x : f64 => Bmult mode_NE x x) d) (f64_ofZ 0)) (energy dr) (5 / 4 * uu * IZR (n + 1))).
  { pose proof (energy_rl d (f64_ofZ 0) 0 0 FA ltac:(lia) ltac:(rewrite <- EL; lia) ltac:(lra) (or_introl eq_refl)) as K. rewrite Rplus_0_l, Z.add_0_l, <- EL in K. apply K.
    split; [apply ofZ_fin; lia|]. rewrite ofZ_B2R by lia. rewrite Rminus_0_r, Rabs_R0. lra. }
  set (e0 := 5 / 4 * uu * IZR (n + 1)) in A1.
  assert (H0 : 0 <= e0 <= 13 / 10 * / 8388608). { unfold e0. rewrite plus_IZR. rewrite UV. lra. }
  assert (D1 : bpow radix2 (-110) <= energy dr / IZR n <= 4).
  { split.
    - apply Rmult_le_reg_r with (IZR n); [lra|]. unfold Rdiv. rewrite Rmult_assoc, Rinv_l, Rmult_1_r by lra. eapply Rle_trans; [|exact EM].
      change (-80)%Z with (-110 + 30)%Z. rewrite bpow_plus. apply Rmult_le_compat_l; [apply bpow_ge_0|]. change (bpow radix2 30) with 1073741824. lra.
    - apply Rmult_le_reg_r with (IZR n); [lra|]. unfold Rdiv. rewrite Rmult_assoc, Rinv_l, Rmult_1_r by lra. lra. }
  assert (EP : 0 < energy dr) by (eapply Rlt_le_trans; [apply bpow_gt_0|exact EM]).
  assert (AN : rl (f64_ofZ n) (IZR n) 0) by (split; [apply ofZ_fin; lia|]; rewrite ofZ_B2R by lia; rewrite Rminus_diag_eq by reflexivity; rewrite Rabs_R0; lra).
  assert (M4 : bpow radix2 2 = 4) by reflexivity.
  assert (A2 := rl_div _ _ _ _ _ _ (mid_in (-110) 2 _ ltac:(lia) ltac:(lia) ltac:(rewrite M4; exact D1)) ltac:(lra) EP (proj1 H0) (Rle_refl 0) ltac:(lra) A1 AN).
  rewrite Rplus_0_r in A2. set (e1 := 17 / 16 * e0 + 5 / 4 * uu) in A2.
  assert (H1 : 0 <= e1 <= 139 / 100 * / 8388608) by (unfold e1; rewrite UV; lra).
  assert (RB : bpow radix2 (-55) <= sqrt (energy dr / IZR n) <= 2).
  { split.
    - replace (bpow radix2 (-55)) with (sqrt (bpow radix2 (-110))); [apply sqrt_le_1_alt; apply D1|]. change (-110)%Z with (-55 + -55)%Z. rewrite bpow_plus. apply sqrt_square. apply bpow_ge_0.
    - rewrite <- (sqrt_square 2) by lra. apply sqrt_le_1_alt. lra. }
  assert (DP : 0 < energy dr / IZR n) by (eapply Rlt_le_trans; [apply bpow_gt_0|apply D1]).
  assert (RM : mid (sqrt (energy dr / IZR n))) by (apply (mid_in (-55) 1); [lia|lia|exact RB]).
  assert (A3 := rl_sqrt _ _ e1 RM DP ltac:(lra) A2). set (e2 := e1 + 5 / 4 * uu) in A3.
  assert (EQ : rF d = sqrt (energy dr / IZR n)) by (unfold rF, rms; fold dr; rewrite LN; reflexivity).
  rewrite EQ. split; [exact RB|]. set (rr := sqrt (energy dr / IZR n)) in *. pose proof (mid_pos _ RM) as RP.
  assert (AL : rl (f64_lit 2 5) (2 / 100000) (2 * uu)).
  { destruct (lit_fin 2 5 ltac:(lia) ltac:(lia)) as [F E]. split; auto. rewrite E. change (IZR (10 ^ 5)) with 100000.
    pose proof (rnd_rel (2 / 100000)) as K. rewrite (Rabs_pos_eq (2 / 100000)) in K by lra. eapply Rle_trans; [apply K|nra].
    right. apply Rle_trans with (bpow radix2 (-20)); [apply bpow_le; lia|]. change (bpow radix2 (-20)) with (/ 1048576). lra. }
  assert (M5 : mid (rr / (2 / 100000))).
  { apply (mid_in (-55) 20); [lia|lia|]. change (bpow radix2 20) with 1048576. replace (rr / (2 / 100000)) with (50000 * rr) by field. pose proof (bpow_gt_0 radix2 (-55)). lra. }
  assert (A4 := rl_div _ _ _ _ e2 (2 * uu) M5 ltac:(lra) RP ltac:(unfold e2; lra) ltac:(lra) ltac:(unfold e2; rewrite UV; lra) A3 AL).
  unfold pressure. fold d n. eapply rl_mono; [| |exact A4]; [apply Rlt_le, mid_pos; exact M5|]. unfold e2, E1. rewrite UV. lra.
Qed.
End Levels.

(** ** The factor *)
Lemma exp_near t : Rabs t <= / 2 -> Rabs (exp t - 1) <= 2 * Rabs t.
Proof.
  intros H. pose proof (exp_ineq1_le t) as A. pose proof (exp_ineq1_le (- t)) as B. pose proof (exp_pos t) as P.
  rewrite exp_Ropp in B. assert (M : (1 + - t) * exp t <= 1).
  { apply Rmult_le_reg_r with (/ exp t); [apply Rinv_0_lt_compat; exact P|]. rewrite Rmult_assoc, Rinv_r by lra. lra. }
  destruct (Rle_dec 0 t) as [T|T].
  - rewrite (Rabs_pos_eq t) in * by lra. apply Rabs_le. split; [lra|]. nra.
  - rewrite (Rabs_left t) in * by lra. apply Rabs_le. split; [lra|]. nra.
Qed.
Lemma ln10_bnd : 1 < ln 10 < 9.
Proof.
  split.
  - assert (E : exp 1 < 10) by (pose proof exp_le_3; lra). rewrite <- (ln_exp 1). apply ln_increasing; [apply exp_pos|exact E].
  - pose proof (exp_ineq1 9 ltac:(lra)) as E. rewrite <- (ln_exp 9). apply ln_increasing; lra.
Qed.
Lemma log_bnd a : bpow radix2 (-45) <= a <= bpow radix2 45 -> Rabs (ln a / ln 10) <= 15.
Proof.
  intros [H1 H2]. pose proof ln10_bnd as L. assert (P : 0 < a) by (eapply Rlt_le_trans; [apply bpow_gt_0|exact H1]).
  assert (T : bpow radix2 45 <= 10 ^ 15) by (change (bpow radix2 45) with 35184372088832; lra).
  assert (E : ln (10 ^ 15) = 15 * ln 10) by (rewrite ln_pow by lra; cbn [INR]; ring).
  assert (U : ln a <= 15 * ln 10). { rewrite <- E. destruct (Rle_lt_or_eq_dec a (10 ^ 15) ltac:(lra)) as [K|K]; [left; apply ln_increasing; auto|rewrite K; lra]. }
  assert (W : - (15 * ln 10) <= ln a).
  { rewrite <- E. rewrite <- ln_Rinv by lra. assert (I : / 10 ^ 15 <= a).
    { eapply Rle_trans; [|exact H1]. change (-45)%Z with (- (45))%Z. rewrite bpow_opp. apply Rinv_le_contravar; [apply bpow_gt_0|exact T]. }
    destruct (Rle_lt_or_eq_dec _ _ I) as [K|K]; [left; apply ln_increasing; [apply Rinv_0_lt_compat; lra|exact K]|rewrite K; lra]. }
  apply Rabs_le. split; apply Rmult_le_reg_r with (ln 10); try lra; unfold Rdiv; rewrite ?Rmult_assoc, ?Rinv_l, ?Rmult_1_r by lra; lra.
Qed.
Lemma bm40 : bpow radix2 (-40) = / 1099511627776. Proof. apply (bpn 40); reflexivity || lia. Qed.
Section Factor.
Context {lm : Libm}.
Notation N := (F64 lm).
Definition factor (rs ds : AudioSignal N) : f64 :=
  lm_powf lm (f64_ofZ 10) (Bdiv mode_NE (Bminus mode_NE (calculate_sound_pressure_level rs) (calculate_sound_pressure_level ds)) (f64_ofZ 20)).
Lemma scale_factor_eq (rs ds : AudioSignal N) : data_matrix (scale_to_match_sound_pressure_level rs ds) = map (fun x : f64 => Bmult mode_NE x (factor rs ds)) (data_matrix ds).
Proof. reflexivity. Qed.
Lemma spl_ap (s : AudioSignal N) : log10_close lm -> recorded (data_matrix s) -> (sig_len s <= 2 ^ 30)%Z ->
  0 < B2R (pressure s) /\ Rabs (ln (B2R (pressure s)) / ln 10) <= 15 /\
  ap (calculate_sound_pressure_level s) (20 * (ln (B2R (pressure s)) / ln 10)) (21 * / 1099511627776).
Proof.
  intros LG RC HL. destruct (pressure_rl s RC HL) as [RB [FP EP]]. set (r := rF (data_matrix s)) in *. set (p := pressure s) in *.
  assert (V : r / (2 / 100000) = 50000 * r) by field. rewrite V in EP. apply Rabs_le_inv in EP. unfold E1 in EP.
  assert (B0 := bpow_gt_0 radix2 (-55)). assert (R0 : 0 < r) by lra.
  assert (PB : bpow radix2 (-45) <= B2R p <= bpow radix2 45).
  { split.
    - apply Rle_trans with (bpow radix2 10 * bpow radix2 (-55)); [rewrite <- bpow_plus; apply bpow_le; lia|]. change (bpow radix2 10) with 1024. lra.
    - change (bpow radix2 45) with 35184372088832. lra. }
  split; [lra|]. pose proof (log_bnd _ PB) as LB. split; [exact LB|].
  destruct (LG p FP) as [FL EL]. { split; (eapply Rle_trans; [|apply PB]) || (eapply Rle_trans; [apply PB|]); apply bpow_le; lia. }
  assert (A20 : ap (f64_ofZ 20) 20 0) by (split; [apply ofZ_fin; lia|]; rewrite ofZ_B2R by lia; rewrite Rminus_diag_eq by reflexivity; rewrite Rabs_R0; lra).
  assert (AL : ap (lm_log10 lm p) (ln (B2R p) / ln 10) (bpow radix2 (-40))) by (split; assumption).
  assert (AM := ap_mult _ _ _ _ _ _ 20 15 9 ltac:(lia) A20 AL ltac:(rewrite Rabs_pos_eq by lra; lra) LB ltac:(rewrite bm40; change (bpow radix2 9) with 512; lra)).
  change (calculate_sound_pressure_level s) with (Bmult mode_NE (f64_ofZ 20) (lm_log10 lm p)).
  eapply ap_weaken; [exact AM|]. rewrite bm40. replace (bpow radix2 (9 - 53)) with (/ 17592186044416) by (symmetry; apply (bpn 44); reflexivity || lia). lra.
Qed.
Lemma factor_rl (rs ds : AudioSignal N) : log10_close lm -> pow10_close lm -> recorded (data_matrix rs) -> recorded (data_matrix ds) ->
  (sig_len rs <= 2 ^ 30)%Z -> (sig_len ds <= 2 ^ 30)%Z ->
  rl (factor rs ds) (rF (data_matrix rs) / rF (data_matrix ds)) (33 / 10 * / 8388608).
Proof.
  intros LG PW R1 R2 L1 L2.
  destruct (pressure_rl rs R1 L1) as [B1 [F1 P1]]. destruct (pressure_rl ds R2 L2) as [B2 [F2 P2]].
  destruct (spl_ap rs LG R1 L1) as (Q1 & K1 & S1). destruct (spl_ap ds LG R2 L2) as (Q2 & K2 & S2).
  unfold factor.
  generalize dependent (calculate_sound_pressure_level rs). intros s1 S1. generalize dependent (calculate_sound_pressure_level ds). intros s2 S2.
  set (v1 := rF (data_matrix rs)) in *. set (v2 := rF (data_matrix ds)) in *. set (a := B2R (pressure rs)) in *. set (b := B2R (pressure ds)) in *.
  assert (B0 := bpow_gt_0 radix2 (-55)). assert (V1 : 0 < v1) by lra. assert (V2 : 0 < v2) by lra.
  pose proof ln10_bnd as LN.
  set (la := ln a / ln 10) in *. set (lb := ln b / ln 10) in *.
  assert (A1 : ap (Bminus mode_NE s1 s2) (20 * la - 20 * lb) (43 * / 1099511627776)).
  { eapply ap_weaken; [apply (ap_minus _ _ _ _ _ _ 10 ltac:(lia) S1 S2)|].
    - rewrite !Rabs_mult, (Rabs_pos_eq 20) by lra. change (bpow radix2 10) with 1024. lra.
    - replace (bpow radix2 (10 - 53)) with (/ 8796093022208) by (symmetry; apply (bpn 43); reflexivity || lia). lra. }
  destruct A1 as [FM EM]. set (df := Bminus mode_NE s1 s2) in *.
  assert (F20 : is_finite (f64_ofZ 20) = true) by (apply ofZ_fin; lia). assert (E20 : B2R (f64_ofZ 20) = 20) by (apply ofZ_B2R; lia).
  assert (DZ : Rabs (B2R df / 20 - (la - lb)) <= 3 * / 1099511627776).
  { apply Rabs_le_inv in EM. apply Rabs_le. lra. }
  destruct (ap_rnd (B2R df / 20) (la - lb) (3 * / 1099511627776) 6 ltac:(lia) DZ) as [G1 G2].
  { apply Rabs_le_inv in K1, K2. change (bpow radix2 6) with 64. assert (Rabs (la - lb) <= 30) by (apply Rabs_le; lra). lra. }
  destruct (Bdiv_fin df (f64_ofZ 20) FM F20 ltac:(rewrite E20; lra) ltac:(rewrite E20; exact G1)) as [FY EY]. rewrite E20 in EY.
  set (y := Bdiv mode_NE df (f64_ofZ 20)) in *.
  assert (YE : Rabs (B2R y - (la - lb)) <= 4 * / 1099511627776).
  { rewrite EY. eapply Rle_trans; [exact G2|]. replace (bpow radix2 (6 - 53)) with (/ 140737488355328) by (symmetry; apply (bpn 47); reflexivity || lia). lra. }
  destruct (PW y FY) as [FS ES]. { apply Rabs_le_inv in K1, K2, YE. apply Rabs_le. lra. }
  split; [exact FS|].
  set (t := (B2R y - (la - lb)) * ln 10).
  assert (TB : Rabs t <= 36 * / 1099511627776). { unfold t. rewrite Rabs_mult, (Rabs_pos_eq (ln 10)) by lra. pose proof (Rabs_pos (B2R y - (la - lb))). nra. }
  assert (EE : exp (B2R y * ln 10) = a / b * exp t).
  { replace (B2R y * ln 10) with (ln a + - ln b + t) by (unfold t, la, lb; field; lra). rewrite !exp_plus, exp_Ropp, !exp_ln by auto. reflexivity. }
  rewrite EE in ES. clear EE. set (s := lm_powf lm (f64_ofZ 10) y) in *.
  pose proof (exp_near t ltac:(lra)) as XN. assert (XB : Rabs (exp t - 1) <= 72 * / 1099511627776) by lra. clear XN. apply Rabs_le_inv in XB. rewrite bm40 in ES.
  assert (AB : 0 < a / b) by (apply Rdiv_lt_0_compat; lra). set (q := a / b) in *. set (x := exp t) in *.
  apply Rabs_le_inv in ES. assert (SQ : Rabs (B2R s - q) <= 74 * / 1099511627776 * q) by (apply Rabs_le; split; nra).
  assert (QV : Rabs (q - v1 / v2) <= 32 / 10 * / 8388608 * (v1 / v2)).
  { replace (v1 / (2 / 100000)) with (50000 * v1) in P1 by field. replace (v2 / (2 / 100000)) with (50000 * v2) in P2 by field. fold a in P1. fold b in P2.
    apply Rabs_le_inv in P1, P2. unfold E1 in P1, P2.
    unfold q. replace (a / b - v1 / v2) with ((a * v2 - b * v1) / (b * v2)) by (field; lra). unfold Rdiv at 1. rewrite Rabs_mult, (Rabs_pos_eq (/ _)) by (left; apply Rinv_0_lt_compat; nra).
    apply Rmult_le_reg_r with (b * v2); [nra|]. rewrite Rmult_assoc, Rinv_l, Rmult_1_r by nra.
    replace (32 / 10 * / 8388608 * (v1 / v2) * (b * v2)) with (32 / 10 * / 8388608 * (v1 * b)) by (field; lra).
    assert (VV : 0 < v1 * v2) by nra.
    assert (C1 : 50000 * (v1 * v2) * (1 - 3 / 2 * / 8388608) <= a * v2 <= 50000 * (v1 * v2) * (1 + 3 / 2 * / 8388608)) by nra.
    assert (C2 : 50000 * (v1 * v2) * (1 - 3 / 2 * / 8388608) <= b * v1 <= 50000 * (v1 * v2) * (1 + 3 / 2 * / 8388608)) by nra.
    rewrite (Rmult_comm v1 b). apply Rabs_le. set (w := v1 * v2) in *. clearbody w. lra. }
  assert (VP : 0 < v1 / v2) by (apply Rdiv_lt_0_compat; lra). set (g := v1 / v2) in *. apply Rabs_le_inv in SQ, QV. apply Rabs_le. split; nra.
Qed.

(** ** The matched signal *)
Lemma energy_between (f : f64 -> R) lo hi (l : list f64) : 0 <= lo -> (forall x, In x l -> lo * Rabs (B2R x) <= Rabs (f x) <= hi * Rabs (B2R x)) ->
  lo * lo * energy (map (fun x : f64 => B2R x) l) <= energy (map f l) <= hi * hi * energy (map (fun x : f64 => B2R x) l).
Proof.
  intros L. induction l as [|x l IH]; intros H; [unfold energy; cbn; lra|]. cbn [map]. rewrite !energy_cons.
  destruct (H x (or_introl eq_refl)) as [H1 H2]. destruct IH as [I1 I2]; [intros z Hz; apply H; right; exact Hz|].
  rewrite <- (Rabs_mult_self (B2R x)), <- (Rabs_mult_self (f x)). pose proof (Rabs_pos (B2R x)). pose proof (Rabs_pos (f x)).
  assert (0 <= lo * Rabs (B2R x)) by nra.
  assert (lo * Rabs (B2R x) * (lo * Rabs (B2R x)) <= Rabs (f x) * Rabs (f x)) by (apply Rmult_le_compat; lra).
  assert (Rabs (f x) * Rabs (f x) <= hi * Rabs (B2R x) * (hi * Rabs (B2R x))) by (apply Rmult_le_compat; lra).
  split; nra.
Qed.
Lemma rms_between (f : f64 -> R) lo hi (l : list f64) : 0 <= lo -> 0 <= hi -> l <> [] -> (forall x, In x l -> lo * Rabs (B2R x) <= Rabs (f x) <= hi * Rabs (B2R x)) ->
  lo * rF l <= rms (map f l) <= hi * rF l.
Proof.
  intros L H0 NE H. destruct (energy_between f lo hi l L H) as [E1 E2].
  assert (P : 0 < IZR (zlen l)) by (destruct l as [|x l]; [tauto|]; apply (zlen_pos_in _ x); left; reflexivity).
  unfold rF, rms. rewrite !zlen_map. pose proof (energy_nonneg (map (fun x : f64 => B2R x) l)) as EN.
  assert (I : 0 < / IZR (zlen l)) by (apply Rinv_0_lt_compat; exact P).
  split.
  - replace (lo * _) with (sqrt (lo * lo * (energy (map (fun x : f64 => B2R x) l) / IZR (zlen l)))).
    + apply sqrt_le_1_alt. unfold Rdiv. rewrite <- Rmult_assoc. apply Rmult_le_compat_r; lra.
    + rewrite sqrt_mult_alt by nra. rewrite sqrt_square by exact L. reflexivity.
  - replace (hi * _) with (sqrt (hi * hi * (energy (map (fun x : f64 => B2R x) l) / IZR (zlen l)))).
    + apply sqrt_le_1_alt. unfold Rdiv. rewrite <- Rmult_assoc. apply Rmult_le_compat_r; lra.
    + rewrite sqrt_mult_alt by nra. rewrite sqrt_square by exact H0. reflexivity.
Qed.
Lemma loud_f64 (rs ds : AudioSignal N) : log10_close lm -> pow10_close lm -> recorded (data_matrix rs) -> recorded (data_matrix ds) ->
  (sig_len rs <= 2 ^ 30)%Z -> (sig_len ds <= 2 ^ 30)%Z ->
  Rabs (rms (map (fun x : f64 => B2R x) (data_matrix (scale_to_match_sound_pressure_level rs ds))) - rms (map (fun x : f64 => B2R x) (data_matrix rs)))
    <= / 2097152 * rms (map (fun x : f64 => B2R x) (data_matrix rs)).
Proof.
  intros LG PW R1 R2 L1 L2. destruct (factor_rl rs ds LG PW R1 R2 L1 L2) as [FS ES].
  destruct (pressure_rl rs R1 L1) as [B1 _]. destruct (pressure_rl ds R2 L2) as [B2 _].
  rewrite scale_factor_eq, map_map. fold (rF (data_matrix rs)).
  set (v1 := rF (data_matrix rs)) in *. set (v2 := rF (data_matrix ds)) in *. set (s := factor rs ds) in *.
  assert (B0 := bpow_gt_0 radix2 (-55)). assert (V1 : 0 < v1) by lra. assert (V2 : 0 < v2) by lra.
  assert (VP : 0 < v1 / v2) by (apply Rdiv_lt_0_compat; lra). set (g := v1 / v2) in *.
  assert (GB : bpow radix2 (-56) <= g <= bpow radix2 56).
  { unfold g. split; apply Rmult_le_reg_r with v2; auto; unfold Rdiv; rewrite Rmult_assoc, Rinv_l, Rmult_1_r by lra.
    - apply Rle_trans with (bpow radix2 (-56) * bpow radix2 1); [apply Rmult_le_compat_l; [apply bpow_ge_0|]; change (bpow radix2 1) with 2; lra|]. rewrite <- bpow_plus. change (-56 + 1)%Z with (-55)%Z. lra.
    - apply Rle_trans with (bpow radix2 56 * bpow radix2 (-55)); [rewrite <- bpow_plus; change (56 + -55)%Z with 1%Z; change (bpow radix2 1) with 2; lra|]. apply Rmult_le_compat_l; [apply bpow_ge_0|]. lra. }
  apply Rabs_le_inv in ES. assert (UV := uu_val).
  assert (SP : g / 2 <= B2R s <= 2 * g) by lra.
  assert (SB : bpow radix2 (-57) <= B2R s <= bpow radix2 57).
  { change (-57)%Z with (-56 + -1)%Z. change 57%Z with (56 + 1)%Z. rewrite !bpow_plus. change (bpow radix2 (-1)) with (/ 2). change (bpow radix2 1) with 2. lra. }
  assert (SPP : 0 < B2R s) by lra.
  assert (NE : data_matrix ds <> []) by (destruct R2 as [_ EX]; intros E; rewrite E in EX; inversion EX).
  assert (RB := rms_between (fun x : f64 => B2R (Bmult mode_NE x s)) (B2R s * (1 - uu)) (B2R s * (1 + uu)) (data_matrix ds) ltac:(rewrite UV; nra) ltac:(rewrite UV; nra) NE).
  destruct RB as [C1 C2].
  { intros x Hx. destruct R2 as [FA _]. rewrite Forall_forall in FA. destruct (FA x Hx) as (Fx & X2 & XS).
    assert (Z : Rabs (rnd (B2R x * B2R s) - B2R x * B2R s) <= uu * Rabs (B2R x * B2R s)).
    { apply rnd_rel. destruct XS as [E|L]; [left; rewrite E; ring|right]. rewrite Rabs_mult, (Rabs_pos_eq (B2R s)) by lra.
      apply Rle_trans with (bpow radix2 (-100) * bpow radix2 (-57)); [rewrite <- bpow_plus; apply bpow_le; lia|]. apply Rmult_le_compat; try apply bpow_ge_0; [exact L|lra]. }
    destruct (Bmult_fin x s Fx FS) as [G E].
    { apply small_lt_big. rewrite Rabs_mult, (Rabs_pos_eq (B2R s)) by lra. apply Rle_trans with (bpow radix2 1 * bpow radix2 57); [apply Rmult_le_compat; [apply Rabs_pos|lra|exact X2|lra]|]. rewrite <- bpow_plus. apply bpow_le. lia. }
    rewrite E. rewrite Rabs_mult, (Rabs_pos_eq (B2R s)) in Z by lra.
    assert (T1 := Rabs_triang (rnd (B2R x * B2R s) - B2R x * B2R s) (B2R x * B2R s)). replace (rnd (B2R x * B2R s) - B2R x * B2R s + B2R x * B2R s) with (rnd (B2R x * B2R s)) in T1 by ring.
    assert (T2 := Rabs_triang_inv (B2R x * B2R s) (B2R x * B2R s - rnd (B2R x * B2R s))). replace (B2R x * B2R s - (B2R x * B2R s - rnd (B2R x * B2R s))) with (rnd (B2R x * B2R s)) in T2 by ring.
    rewrite (Rabs_minus_sym (B2R x * B2R s)) in T2. rewrite (Rabs_mult (B2R x) (B2R s)), (Rabs_pos_eq (B2R s)) in T1, T2 by lra. split; nra. }
  fold v2 in C1, C2.
  match type of C1 with _ <= ?t => set (z := t) in * end.
  assert (GV : g * v2 = v1) by (unfold g; field; lra).
  assert (D1 : (1 - 35 / 10 * / 8388608) * v1 <= B2R s * (1 - uu) * v2).
  { replace ((1 - 35 / 10 * / 8388608) * v1) with ((1 - 35 / 10 * / 8388608) * g * v2) by (rewrite <- GV; ring). apply Rmult_le_compat_r; [lra|]. rewrite UV. lra. }
  assert (D2 : B2R s * (1 + uu) * v2 <= (1 + 35 / 10 * / 8388608) * v1).
  { replace ((1 + 35 / 10 * / 8388608) * v1) with ((1 + 35 / 10 * / 8388608) * g * v2) by (rewrite <- GV; ring). apply Rmult_le_compat_r; [lra|]. rewrite UV. lra. }
  apply Rabs_le. lra.
Qed.
End Factor.
