(** Window and hop sizes in f64, and spectrogram facts specific to f64. *)
From Coq Require Import Reals Lra Psatz.
From Flocq Require Import Core IEEE754.BinarySingleNaN.
From Flocq Require Import Relative.
From Verif Require Import Base Num Mat F64 M_Audio M_Spectro P_Base P_F64 P_Mat P_Spectro.
Open Scope R_scope.

(** ** Rounding errors *)
Lemma rnd_err x e : (-900 <= e)%Z -> Rabs x <= bpow radix2 e -> Rabs (rnd x - x) <= bpow radix2 (e - 53).
Proof.
  intros He H. eapply Rle_trans; [apply error_le_half_ulp; auto with typeclass_instances|].
  apply Rle_trans with (/ 2 * ulp radix2 fexp64 (bpow radix2 e)).
  - apply Rmult_le_compat_l; [lra|]. apply ulp_le; auto with typeclass_instances.
    rewrite (Rabs_right (bpow radix2 e)); auto. apply Rle_ge, bpow_ge_0.
  - rewrite ulp_bpow. replace (fexp64 (e + 1)) with (e - 53 + 1)%Z.
    + rewrite bpow_plus. simpl (bpow radix2 1). pose proof (bpow_gt_0 radix2 (e - 53)). lra.
    + unfold SpecFloat.fexp, SpecFloat.emin. lia.
Qed.
Lemma rnd_rel x : bpow radix2 (-900) <= Rabs x -> Rabs (rnd x - x) <= bpow radix2 (-53) * Rabs x.
Proof.
  intros H. assert (E : bpow radix2 (-53) = / 2 * bpow radix2 (- (53) + 1)).
  { change (- (53) + 1)%Z with (1 + -53)%Z. rewrite bpow_plus. change (bpow radix2 1) with 2. lra. }
  rewrite E.
  apply (relative_error_N_FLT radix2 (-1074) 53).
  - reflexivity.
  - eapply Rle_trans; [|exact H]. apply bpow_le; lia.
Qed.

Lemma lit_err m k q : (Z.abs m <= 2 ^ 53)%Z -> (0 <= k <= 15)%Z -> IZR m / IZR (10 ^ k) = q ->
  Rabs q <= 1 -> Rabs (B2R (f64_lit m k) - q) <= bpow radix2 (-53).
Proof.
  intros H1 H2 E Hq. destruct (lit_fin m k H1 H2) as [_ ->]. rewrite E.
  apply (rnd_err q 0); [lia|exact Hq].
Qed.

(** C40 *)
Lemma bp e z : (0 <= e)%Z -> (2 ^ e)%Z = z -> bpow radix2 e = IZR z.
Proof. intros H <-. symmetry. apply (IZR_Zpower radix2). auto. Qed.
Lemma bpn e z : (0 <= e)%Z -> (2 ^ e)%Z = z -> bpow radix2 (- e) = / IZR z.
Proof. intros H E. rewrite bpow_opp. rewrite (bp e z); auto. Qed.

Lemma round_away_near x z : Rabs (x - IZR z) < / 2 -> ZnearestA x = z.
Proof. apply Znearest_imp. Qed.

Lemma window_exact lm rate (o : num (F64 lm)) : (0 <= rate < 2 ^ 32)%Z ->
  win_size (new_window (N:=F64 lm) rate o WINDOW_DURATION) = ((4 * rate + 25) / 50)%Z.
Proof.
  intros Hr. cbn [new_window win_size]. unfold as_usize.
  set (d := WINDOW_DURATION).
  assert (Fd : is_finite (d : f64) = true) by (vm_compute; reflexivity).
  assert (Ed : Rabs (B2R (d : f64) - 8 / 100) <= bpow radix2 (-53)).
  { apply (lit_err 8 2); try lia; [simpl; lra|]. rewrite Rabs_right; lra. }
  assert (B1 : bpow radix2 (-53) = / 9007199254740992) by (apply (bpn 53); reflexivity || lia).
  assert (B2 : bpow radix2 32 = 4294967296) by (apply (bp 32); reflexivity || lia).
  assert (B3 : bpow radix2 (-21) = / 2097152) by (apply (bpn 21); reflexivity || lia).
  destruct (ofZ_exact rate ltac:(lia)) as [Fr Er].
  assert (R0 : 0 <= IZR rate <= 4294967296) by (split; apply IZR_le; lia).
  set (p := Bmult mode_NE (f64_ofZ rate) (d : f64)).
  assert (P : Rabs (IZR rate * B2R (d : f64) - IZR rate * (8 / 100)) <= / 2097152).
  { replace (IZR rate * B2R (d : f64) - IZR rate * (8 / 100)) with (IZR rate * (B2R (d : f64) - 8 / 100)) by ring.
    rewrite Rabs_mult, (Rabs_right (IZR rate)) by lra. rewrite B1 in Ed.
    pose proof (Rabs_pos (B2R (d : f64) - 8 / 100)).
    apply Rle_trans with (4294967296 * / 9007199254740992); [|lra]. apply Rmult_le_compat; lra. }
  assert (P2 : Rabs (IZR rate * B2R (d : f64)) <= bpow radix2 32).
  { rewrite B2. apply Rabs_le.
    assert (- / 2097152 <= IZR rate * B2R (d : f64) - IZR rate * (8 / 100) <= / 2097152) by (apply Rabs_le_inv; auto).
    lra. }
  destruct (Bmult_fin (f64_ofZ rate) (d : f64) Fr Fd) as [Fp Ep].
  { rewrite Er. apply small_lt_big. eapply Rle_trans; [exact P2|apply bpow_le; lia]. }
  fold p in Fp, Ep. rewrite Er in Ep.
  pose proof (rnd_err (IZR rate * B2R (d : f64)) 32 ltac:(lia) P2) as P3. change (32 - 53)%Z with (-21)%Z in P3.
  rewrite B3, <- Ep in P3.
  apply Rabs_le_inv in P3. apply Rabs_le_inv in P.
  set (z := ((4 * rate + 25) / 50)%Z).
  assert (Hz : (50 * z <= 4 * rate + 24 /\ 4 * rate + 26 <= 50 * z + 50)%Z) by (unfold z; lia).
  assert (Hz1 : 50 * IZR z <= 4 * IZR rate + 24) by (rewrite <- !mult_IZR, <- plus_IZR; apply IZR_le; lia).
  assert (Hz2 : 4 * IZR rate + 26 <= 50 * IZR z + 50) by (rewrite <- !mult_IZR, <- !plus_IZR; apply IZR_le; lia).
  destruct (nearbyint_fin mode_NA p Fp) as [Fn En].
  assert (Q : round_mode mode_NA (B2R p) = z).
  { cbn [round_mode]. apply round_away_near. apply Rabs_def1; lra. }
  etransitivity; [exact (cast_fin 0 (2 ^ 64 - 1) _ Fn)|]. rewrite En, Q. rewrite Ztrunc_IZR. lia.
Qed.

(** C12: seconds and back. *)
Lemma lag_back k rate : (1 <= k <= 2 ^ 31)%Z -> (1 <= rate <= 2 ^ 32)%Z ->
  let s := Bdiv mode_NE (f64_ofZ k) (f64_ofZ rate) in
  let p := Bmult mode_NE s (f64_ofZ rate) in
  is_finite s = true /\ is_finite p = true /\
  Rabs (B2R p - IZR k) <= / 1048576.
Proof.
  intros Hk Hr s p.
  destruct (ofZ_exact k ltac:(lia)) as [Fk Ek]. destruct (ofZ_exact rate ltac:(lia)) as [Fr Er].
  assert (K : 1 <= IZR k <= 2147483648) by (split; apply IZR_le; lia).
  assert (R1 : 1 <= IZR rate <= 4294967296) by (split; apply IZR_le; lia).
  assert (B1 : bpow radix2 (-53) = / 9007199254740992) by (apply (bpn 53); reflexivity || lia).
  assert (B2 : bpow radix2 32 = 4294967296) by (apply (bp 32); reflexivity || lia).
  assert (B3 : bpow radix2 (-21) = / 2097152) by (apply (bpn 21); reflexivity || lia).
  assert (Q0 : 0 < / IZR rate) by (apply Rinv_0_lt_compat; lra).
  assert (Q1 : / IZR rate <= 1) by (rewrite <- Rinv_1; apply Rinv_le; lra).
  assert (Q2 : / 4294967296 <= / IZR rate) by (apply Rinv_le; lra).
  assert (Q : / 4294967296 <= IZR k / IZR rate <= 2147483648).
  { unfold Rdiv. split.
    - apply Rle_trans with (1 * / IZR rate); [lra|]. apply Rmult_le_compat_r; lra.
    - apply Rle_trans with (2147483648 * 1); [|lra]. apply Rmult_le_compat; lra. }
  destruct (Bdiv_fin (f64_ofZ k) (f64_ofZ rate) Fk Fr) as [Fs Es].
  { rewrite Er; lra. }
  { rewrite Ek, Er. apply small_lt_big. rewrite Rabs_right by lra.
    apply Rle_trans with (bpow radix2 32); [rewrite B2; lra|apply bpow_le; lia]. }
  fold s in Fs, Es. rewrite Ek, Er in Es.
  assert (D : Rabs (B2R s - IZR k / IZR rate) <= / 9007199254740992 * (IZR k / IZR rate)).
  { rewrite Es, <- B1. rewrite <- (Rabs_right (IZR k / IZR rate)) at 3 by lra. apply rnd_rel.
    rewrite Rabs_right by lra. apply Rle_trans with (bpow radix2 (-32)); [apply bpow_le; lia|].
    replace (bpow radix2 (-32)) with (/ 4294967296) by (symmetry; apply (bpn 32); reflexivity || lia). lra. }
  assert (D2 : Rabs (B2R s * IZR rate - IZR k) <= / 4194304).
  { replace (B2R s * IZR rate - IZR k) with ((B2R s - IZR k / IZR rate) * IZR rate) by (field; lra).
    rewrite Rabs_mult, (Rabs_right (IZR rate)) by lra.
    apply Rle_trans with (/ 9007199254740992 * (IZR k / IZR rate) * IZR rate).
    - apply Rmult_le_compat_r; lra.
    - replace (/ 9007199254740992 * (IZR k / IZR rate) * IZR rate) with (/ 9007199254740992 * IZR k) by (field; lra).
      lra. }
  assert (D3 : Rabs (B2R s * IZR rate) <= bpow radix2 32).
  { apply Rabs_le_inv in D2. rewrite B2. apply Rabs_le. lra. }
  destruct (Bmult_fin s (f64_ofZ rate) Fs Fr) as [Fp Ep].
  { rewrite Er. apply small_lt_big. eapply Rle_trans; [exact D3|apply bpow_le; lia]. }
  fold p in Fp, Ep. rewrite Er in Ep. split; auto. split; auto.
  pose proof (rnd_err _ 32 ltac:(lia) D3) as D4. change (32 - 53)%Z with (-21)%Z in D4.
  rewrite B3, <- Ep in D4. apply Rabs_le_inv in D2. apply Rabs_le_inv in D4. apply Rabs_le. lra.
Qed.
Lemma lag_trunc k rate : (0 <= k <= 2 ^ 31)%Z -> (1 <= rate <= 2 ^ 32)%Z ->
  let n := f64_cast 0 (2 ^ 64 - 1) (Bmult mode_NE (Bdiv mode_NE (f64_ofZ k) (f64_ofZ rate)) (f64_ofZ rate)) in
  n = k \/ n = (k - 1)%Z /\ (1 <= k)%Z.
Proof.
  intros Hk Hr n. destruct (Z.eq_dec k 0) as [->|Hk0].
  - left. unfold n. destruct (ofZ_exact 0 ltac:(lia)) as [Fk Ek]. destruct (ofZ_exact rate ltac:(lia)) as [Fr Er].
    assert (R1 : 1 <= IZR rate) by (apply IZR_le; lia).
    destruct (Bdiv_fin (f64_ofZ 0) (f64_ofZ rate) Fk Fr) as [Fs Es].
    { rewrite Er; lra. }
    { rewrite Ek. unfold Rdiv. rewrite Rmult_0_l. apply small_lt_big. rewrite Rabs_R0. apply bpow_ge_0. }
    rewrite Ek in Es. unfold Rdiv in Es. rewrite Rmult_0_l, round_0 in Es by auto with typeclass_instances.
    destruct (Bmult_fin _ (f64_ofZ rate) Fs Fr) as [Fp Ep].
    { rewrite Es, Rmult_0_l. apply small_lt_big. rewrite Rabs_R0. apply bpow_ge_0. }
    rewrite Es, Rmult_0_l, round_0 in Ep by auto with typeclass_instances.
    rewrite cast_fin by auto. rewrite Ep. rewrite (Ztrunc_IZR 0). reflexivity.
  - destruct (lag_back k rate ltac:(lia) Hr) as (_ & Fp & D). unfold n. rewrite cast_fin by auto.
    set (p := B2R _) in *. apply Rabs_le_inv in D.
    assert (K : 1 <= IZR k) by (apply IZR_le; lia).
    rewrite Ztrunc_floor by lra.
    destruct (Rle_or_lt (IZR k) p).
    + left. assert (Zfloor p = k) as ->. { apply Zfloor_imp. rewrite plus_IZR. lra. } lia.
    + right. assert (Zfloor p = (k - 1)%Z) as ->. { apply Zfloor_imp. rewrite plus_IZR, minus_IZR. lra. } lia.
Qed.

(** ** Spectrogram entries are not negative *)
Lemma Bsqrt_not_neg (x : f64) : Bltb (Bsqrt mode_NE x) (f64_ofZ 0) = false.
Proof.
  destruct (Bltb (Bsqrt mode_NE x) (f64_ofZ 0)) eqn:E; auto. apply Bltb_true in E.
  destruct E as (N1 & _ & E). rewrite ofZ_ext in E by lia.
  destruct (Bsqrt_correct 53 1024 _ _ mode_NE x) as (A & B & _). cbn [round_mode] in A.
  destruct x as [s|[]| |[] m e He].
  - simpl in E. lra.
  - discriminate N1.
  - simpl in E. pose proof big_pos. lra.
  - discriminate N1.
  - rewrite B in N1 || idtac. exfalso. revert N1. unfold Bsqrt. discriminate.
  - rewrite ext_finite in E by auto. rewrite A in E.
    pose proof (rnd_sign (R_sqrt.sqrt (B2R (B754_finite false m e He : f64))) (R_sqrt.sqrt_pos _)). lra.
Qed.

(** ** Centre frequencies are numbers *)
Lemma small_sum x y bx by' : Rabs x <= bx -> Rabs y <= by' -> bx + by' <= bpow radix2 1023 ->
  Rabs (rnd (x + y)) < big.
Proof.
  intros. apply small_lt_big. eapply Rle_trans; [apply Rabs_triang|]. lra.
Qed.
Lemma Bmult_not_nan (x y : f64) : is_nan x = false -> is_finite y = true -> B2R y <> 0 ->
  is_nan (Bmult mode_NE x y) = false.
Proof.
  intros Nx Fy Hy. destruct (is_finite x) eqn:Fx; [apply (Bmult_ext x y); auto|].
  destruct x; try discriminate. destruct y; try discriminate; [simpl in Hy; lra|reflexivity].
Qed.
Lemma Bplus_not_nan (x y : f64) : is_finite x = true -> is_nan y = false -> is_nan (Bplus mode_NE x y) = false.
Proof.
  intros Fx Ny. destruct (is_finite y) eqn:Fy; [apply (Bplus_ext x y); auto|].
  destruct y; try discriminate. destruct x; try discriminate; reflexivity.
Qed.
Lemma rnd_abs_bpow x e : (-900 <= e <= 1000)%Z -> Rabs x <= bpow radix2 e -> Rabs (rnd x) <= bpow radix2 e.
Proof.
  intros He H. apply abs_round_le_generic; auto with typeclass_instances.
  apply generic_format_bpow. unfold SpecFloat.fexp, SpecFloat.emin; lia.
Qed.
Lemma bpow_1000_big x e : (e <= 1000)%Z -> Rabs x <= bpow radix2 e -> Rabs x < big.
Proof. intros He H. eapply Rle_lt_trans; [exact H|apply bpow_lt; lia]. Qed.
Definition bnd (x : f64) (e : Z) : Prop := is_finite x = true /\ Rabs (B2R x) <= bpow radix2 e.
Lemma bnd_plus x y e : (-900 <= e < 1000)%Z -> bnd x e -> bnd y e -> bnd (Bplus mode_NE x y) (e + 1).
Proof.
  intros He [Fx Hx] [Fy Hy].
  assert (S : Rabs (rnd (B2R x + B2R y)) <= bpow radix2 (e + 1)).
  { apply rnd_abs_bpow; [lia|]. eapply Rle_trans; [apply Rabs_triang|].
    rewrite bpow_plus. change (bpow radix2 1) with 2. lra. }
  destruct (Bplus_fin x y Fx Fy) as [F E]; [apply (bpow_1000_big _ (e + 1)); auto; lia|].
  split; auto. rewrite E. auto.
Qed.
Lemma bnd_mult x y e f : (-900 <= e + f <= 1000)%Z -> bnd x e -> bnd y f -> bnd (Bmult mode_NE x y) (e + f).
Proof.
  intros He [Fx Hx] [Fy Hy].
  assert (S : Rabs (rnd (B2R x * B2R y)) <= bpow radix2 (e + f)).
  { apply rnd_abs_bpow; [lia|]. rewrite Rabs_mult, bpow_plus. apply Rmult_le_compat; auto using Rabs_pos. }
  destruct (Bmult_fin x y Fx Fy) as [F E]; [apply (bpow_1000_big _ (e + f)); auto; lia|].
  split; auto. rewrite E. auto.
Qed.
Lemma bnd_divZ x z e : (-900 <= e <= 1000)%Z -> (1 <= z <= 2 ^ 53)%Z -> bnd x e -> bnd (Bdiv mode_NE x (f64_ofZ z)) e.
Proof.
  intros He Hz [Fx Hx]. destruct (ofZ_exact z ltac:(lia)) as [Fz Ez].
  assert (Z1 : 1 <= IZR z) by (apply IZR_le; lia).
  assert (S : Rabs (rnd (B2R x / B2R (f64_ofZ z))) <= bpow radix2 e).
  { apply rnd_abs_bpow; [lia|]. rewrite Ez. unfold Rdiv. rewrite Rabs_mult.
    apply Rle_trans with (Rabs (B2R x) * 1); [|lra]. apply Rmult_le_compat_l; [apply Rabs_pos|].
    rewrite Rabs_right by (apply Rle_ge, Rlt_le, Rinv_0_lt_compat; lra). rewrite <- Rinv_1. apply Rinv_le; lra. }
  destruct (Bdiv_fin x (f64_ofZ z) Fx Fz) as [F E]; [rewrite Ez; lra|apply (bpow_1000_big _ e); auto; lia|].
  split; auto. rewrite E. auto.
Qed.
Lemma bnd_ofZ z e : (0 <= e)%Z -> (Z.abs z <= 2 ^ e)%Z -> (Z.abs z <= 2 ^ 53)%Z -> bnd (f64_ofZ z) e.
Proof. intros He H1 H2. destruct (ofZ_exact z H2) as [F E]. split; auto. rewrite E. apply IZR_le_bpow; auto. Qed.
Lemma bnd_opp x e : bnd x e -> bnd (Bopp x) e.
Proof. intros [F H]. split; [rewrite is_finite_Bopp; auto|]. rewrite B2R_Bopp, Rabs_Ropp. auto. Qed.

Section CF.
Variable lm : Libm.
Hypothesis SL : (forall x, is_finite x = true -> is_nan (lm_exp lm x) = false) /\
  (forall x, is_finite x = true -> 0 < B2R x -> is_finite (lm_ln lm x) = true /\ -1000 <= B2R (lm_ln lm x) <= 1000).
Notation N := (F64 lm).
Lemma bnd_ln x : is_finite x = true -> 0 < B2R x -> bnd (lm_ln lm x) 10.
Proof.
  intros F P. destruct (proj2 SL x F P) as [A B]. split; auto.
  rewrite (bp 10 1024) by (reflexivity || lia). apply Rabs_le. lra.
Qed.
Lemma cf_not_nan nb (low high : f64) : (1 <= nb <= 1000)%nat -> bnd low 40 -> bnd high 40 ->
  0 <= B2R low -> 0 <= B2R high ->
  Forall (fun c => nis_nan (N:=N) c = false) (calculate_uniform_center_freqs (N:=N) nb low high).
Proof.
  intros Hn Bl Bh Pl Ph. unfold calculate_uniform_center_freqs. cbv zeta.
  set (q := nmul N EAR_Q MIN_BW).
  assert (Q : bnd (q : f64) 40 /\ 1 <= B2R (q : f64)).
  { assert (E : B2SF (q : f64) = SpecFloat.S754_finite false 8051342005319600 (-45)).
    { vm_compute. reflexivity. }
    assert (E' : B2R (q : f64) = 8051342005319600 * / 35184372088832).
    { rewrite <- SF2R_B2SF, E. cbn [SF2R]. unfold F2R. cbn [Fnum Fexp cond_Zopp].
      change (bpow radix2 (-45)) with (bpow radix2 (- (45))). rewrite (bpn 45 35184372088832) by (reflexivity || lia). reflexivity. }
    assert (F : is_finite (q : f64) = true) by (rewrite <- is_finite_SF_B2SF, E; reflexivity).
    split; [split; auto|]; rewrite E'; [|lra].
    rewrite (bp 40 1099511627776) by (reflexivity || lia). rewrite Rabs_right; lra. }
  destruct Q as [Bq Q1].
  assert (PP : forall x : f64, bnd x 40 -> 0 <= B2R x -> bnd (Bplus mode_NE x (q : f64)) 41 /\ 0 < B2R (Bplus mode_NE x (q : f64))).
  { intros x Bx Px. pose proof (bnd_plus x q 40 ltac:(lia) Bx Bq) as B. split; auto.
    destruct Bx as [Fx Hx], Bq as [Fq Hq]. destruct (Bplus_fin x q Fx Fq) as [_ E].
    - apply (bpow_1000_big _ 41); [lia|]. apply rnd_abs_bpow; [lia|].
      eapply Rle_trans; [apply Rabs_triang|]. change 41%Z with (40 + 1)%Z. rewrite bpow_plus. change (bpow radix2 1) with 2. lra.
    - rewrite E. apply Rlt_le_trans with (rnd (IZR 1)); [rewrite rnd_IZR by lia; lra|]. apply rnd_le. lra. }
  destruct (PP high Bh Ph) as [Bd Pd]. destruct (PP low Bl Pl) as [Bc Pc].
  apply Forall_forall. intros x Hx. apply in_map_iff in Hx. destruct Hx as (i & <- & Hi). apply in_seq in Hi.
  set (e := ndiv N _ _).
  assert (Be : bnd (e : f64) 11).
  { apply (bnd_divZ _ (Z.of_nat nb) 11); try lia.
    apply (bnd_plus _ _ 10); [lia| |].
    - apply bnd_opp. apply bnd_ln; [apply Bd|exact Pd].
    - apply bnd_ln; [apply Bc|exact Pc]. }
  unfold nis_nan. cbn [F64 neqb]. rewrite Beqb_refl_nan, negb_involutive.
  apply Bplus_not_nan.
  - cbn [F64 nneg]. rewrite is_finite_Bopp. apply Bq.
  - apply Bmult_not_nan.
    + apply (proj1 SL). apply (bnd_mult _ _ 12 11); [lia| |exact Be].
      apply (bnd_plus _ _ 11); [lia|apply bnd_ofZ; lia|apply bnd_ofZ; lia].
    + apply Bd.
    + apply Rgt_not_eq. exact Pd.
Qed.
Lemma filters_not_nan nb rate : (1 <= nb <= 1000)%nat -> (0 <= rate < 2 ^ 32)%Z ->
  Forall (fun c => nis_nan (N:=N) c = false) (snd (make_filters (N:=N) nb rate MINIMUM_FREQ (nofZ N (max_freq nb rate)))).
Proof.
  intros Hn Hr. unfold make_filters. cbv zeta. cbn [snd].
  assert (M : (0 <= max_freq nb rate <= 2 ^ 33)%Z) by (unfold max_freq, SPEECH_MODE_MAX_FREQ; destruct (Nat.eqb _ _); lia).
  assert (H1 : bnd (f64_ofZ (max_freq nb rate)) 40 /\ 0 <= B2R (f64_ofZ (max_freq nb rate))).
  { split; [apply bnd_ofZ; lia|]. rewrite ofZ_B2R by lia. apply (IZR_le 0); lia. }
  assert (H2 : bnd (Bdiv mode_NE (f64_ofZ rate) (f64_ofZ 2)) 40 /\ 0 <= B2R (Bdiv mode_NE (f64_ofZ rate) (f64_ofZ 2))).
  { split; [apply bnd_divZ; try lia; apply bnd_ofZ; lia|].
    assert (0 <= IZR rate <= 4294967296) by (split; apply IZR_le; lia).
    destruct (Bdiv_fin (f64_ofZ rate) (f64_ofZ 2)) as [_ E].
    - apply ofZ_fin; lia.
    - apply ofZ_fin; lia.
    - rewrite ofZ_B2R by lia. lra.
    - rewrite !ofZ_B2R by lia. apply (bpow_1000_big _ 40); [lia|]. apply rnd_abs_bpow; [lia|].
      rewrite (bp 40 1099511627776) by (reflexivity || lia). rewrite Rabs_right; lra.
    - rewrite E. apply rnd_sign. rewrite !ofZ_B2R by lia. lra. }
  apply cf_not_nan; auto.
  - apply bnd_ofZ; lia.
  - destruct (nltb N _ _); [apply H2|apply H1].
  - unfold MINIMUM_FREQ. cbn [F64 nofZ]. rewrite ofZ_B2R by lia. lra.
  - destruct (nltb N _ _); [apply H2|apply H1].
Qed.
Lemma C30_F64 nb (f : Filterbank N) s w : (1 <= nb <= 1000)%nat -> (0 <= sample_rate s < 2 ^ 32)%Z ->
  fb_min_freq f = MINIMUM_FREQ ->
  (1 <= win_size w)%Z -> (0 < hop_size w)%Z -> (win_size w <= zlen (data_matrix s))%Z ->
  exists sp, snd (build nb f s w) = Ok sp /\ mat_wf (sp_data sp) /\ mrows (sp_data sp) = nb /\
    Z.of_nat (mcols (sp_data sp)) = (1 + (zlen (data_matrix s) - win_size w) / hop_size w)%Z /\
    List.length (center_freq_bands sp) = nb.
Proof. intros H1 H2 H3 H4 H5 H6. apply C30_total; auto. rewrite H3. apply filters_not_nan; auto. Qed.
End CF.
