(** Lemmas about the binary64 instance.  [ext] reads a float as a real number,
    the infinities as plus/minus 2^1024, so that comparisons of non-NaN floats are
    comparisons of reals. *)
From Coq Require Import Reals Lra Psatz.
From Flocq Require Import Core IEEE754.BinarySingleNaN.
From Verif Require Import Base Num F64 P_Base.
Open Scope R_scope.

Notation fexp64 := (SpecFloat.fexp 53 1024).
Notation rnd := (round radix2 fexp64 ZnearestE).
Definition big : R := bpow radix2 1024.
Definition ext (x : f64) : R :=
  match x with B754_infinity true => - big | B754_infinity false => big | _ => B2R x end.

#[global] Instance fexp64_valid : Valid_exp fexp64 := fexp_correct 53 1024 Hprec.
#[global] Instance fexp64_mono : Monotone_exp fexp64 := fexp_monotone 53 1024.

Lemma fexp64_FLT : forall e, fexp64 e = FLT_exp (-1074) 53 e.
Proof. intros; reflexivity. Qed.

Lemma big_pos : 0 < big. Proof. apply bpow_gt_0. Qed.

Lemma ext_finite x : is_finite x = true -> ext x = B2R x.
Proof. destruct x; simpl; auto; discriminate. Qed.
Lemma finite_lt_big (x : f64) : - big < B2R x < big.
Proof. pose proof (abs_B2R_lt_emax 53 1024 x) as H. apply Rabs_def2 in H. exact (conj (proj2 H) (proj1 H)). Qed.
Lemma ext_bound x : - big <= ext x <= big.
Proof.
  pose proof big_pos. pose proof (finite_lt_big x). destruct x as [| [] | |]; simpl in *; lra.
Qed.
Lemma is_nan_finite (x : f64) : is_finite x = true -> is_nan x = false.
Proof. destruct x; simpl; auto; discriminate. Qed.
Lemma ext_inner_finite x : is_nan x = false -> - big < ext x < big -> is_finite x = true.
Proof. destruct x as [| [] | |]; simpl; auto; try discriminate; intros; lra. Qed.

Lemma Bcompare_ext (x y : f64) : is_nan x = false -> is_nan y = false ->
  Bcompare x y = Some (Rcompare (ext x) (ext y)).
Proof.
  intros Hx Hy. pose proof big_pos as Hb.
  destruct (is_finite x) eqn:Fx; destruct (is_finite y) eqn:Fy.
  - rewrite !ext_finite by auto. apply Bcompare_correct; auto.
  - pose proof (finite_lt_big x). rewrite (ext_finite x) by auto.
    destruct y as [| [] | |]; try discriminate.
    + rewrite Rcompare_Gt by (simpl; lra). destruct x as [| [] | |[]]; try discriminate; reflexivity.
    + rewrite Rcompare_Lt by (simpl; lra). destruct x as [| [] | |[]]; try discriminate; reflexivity.
  - pose proof (finite_lt_big y). rewrite (ext_finite y) by auto.
    destruct x as [| [] | |]; try discriminate.
    + rewrite Rcompare_Lt by (simpl; lra). destruct y as [| [] | |[]]; try discriminate; reflexivity.
    + rewrite Rcompare_Gt by (simpl; lra). destruct y as [| [] | |[]]; try discriminate; reflexivity.
  - destruct x as [| [] | |]; try discriminate; destruct y as [| [] | |]; try discriminate; simpl ext.
    + rewrite Rcompare_Eq; auto.
    + rewrite Rcompare_Lt; auto; lra.
    + rewrite Rcompare_Gt; auto; lra.
    + rewrite Rcompare_Eq; auto.
Qed.

Lemma Bcompare_nan_l (x y : f64) : is_nan x = true -> Bcompare x y = None.
Proof. destruct x; try discriminate; destruct y; reflexivity. Qed.
Lemma Bcompare_nan_r (x y : f64) : is_nan y = true -> Bcompare x y = None.
Proof. destruct y; try discriminate; destruct x as [| | |[]]; reflexivity. Qed.

Lemma Bltb_cmp (x y : f64) : Bltb x y = match Bcompare x y with Some Lt => true | _ => false end.
Proof. reflexivity. Qed.
Lemma Bleb_cmp (x y : f64) : Bleb x y = match Bcompare x y with Some Gt | None => false | _ => true end.
Proof. unfold Bleb, SpecFloat.SFleb, Bcompare. destruct (SpecFloat.SFcompare _ _) as [[]|]; auto. Qed.
Lemma Beqb_cmp (x y : f64) : Beqb x y = match Bcompare x y with Some Eq => true | _ => false end.
Proof. reflexivity. Qed.

Lemma Bltb_true (x y : f64) :
  Bltb x y = true <-> is_nan x = false /\ is_nan y = false /\ ext x < ext y.
Proof.
  rewrite Bltb_cmp. destruct (is_nan x) eqn:Nx; [rewrite Bcompare_nan_l by auto; intuition discriminate|].
  destruct (is_nan y) eqn:Ny; [rewrite Bcompare_nan_r by auto; intuition discriminate|].
  rewrite Bcompare_ext by auto. destruct (Rcompare_spec (ext x) (ext y)); intuition; try discriminate; lra.
Qed.
Lemma Bleb_true (x y : f64) :
  Bleb x y = true <-> is_nan x = false /\ is_nan y = false /\ ext x <= ext y.
Proof.
  rewrite Bleb_cmp. destruct (is_nan x) eqn:Nx; [rewrite Bcompare_nan_l by auto; intuition discriminate|].
  destruct (is_nan y) eqn:Ny; [rewrite Bcompare_nan_r by auto; intuition discriminate|].
  rewrite Bcompare_ext by auto. destruct (Rcompare_spec (ext x) (ext y)); intuition; try discriminate; lra.
Qed.
Lemma Beqb_true (x y : f64) :
  Beqb x y = true <-> is_nan x = false /\ is_nan y = false /\ ext x = ext y.
Proof.
  rewrite Beqb_cmp. destruct (is_nan x) eqn:Nx; [rewrite Bcompare_nan_l by auto; intuition discriminate|].
  destruct (is_nan y) eqn:Ny; [rewrite Bcompare_nan_r by auto; intuition discriminate|].
  rewrite Bcompare_ext by auto. destruct (Rcompare_spec (ext x) (ext y)); intuition; try discriminate; lra.
Qed.
Lemma Bltb_false (x y : f64) : is_nan x = false -> is_nan y = false ->
  Bltb x y = false -> ext y <= ext x.
Proof.
  intros Nx Ny H. destruct (Rle_or_lt (ext y) (ext x)); auto.
  assert (Bltb x y = true) by (apply Bltb_true; auto). congruence.
Qed.
Lemma Bltb_false_iff (x y : f64) : is_nan x = false -> is_nan y = false ->
  (Bltb x y = false <-> ext y <= ext x).
Proof.
  intros Nx Ny; split; [apply Bltb_false; auto|]. intros H.
  destruct (Bltb x y) eqn:E; auto. apply Bltb_true in E. lra.
Qed.
Lemma Beqb_refl_nan (x : f64) : Beqb x x = negb (is_nan x).
Proof.
  destruct (is_nan x) eqn:E.
  - rewrite Beqb_cmp, Bcompare_nan_l; auto.
  - apply Beqb_true; auto.
Qed.

(** ** Integers *)
Lemma generic_format_IZR z : (Z.abs z <= 2 ^ 53)%Z -> generic_format radix2 fexp64 (IZR z).
Proof.
  intros H.
  destruct (Z.eq_dec (Z.abs z) (2 ^ 53)) as [E|E].
  - apply generic_format_abs_inv. rewrite <- abs_IZR, E.
    change (2 ^ 53)%Z with (Zpower radix2 53). rewrite IZR_Zpower by lia.
    apply generic_format_bpow. unfold SpecFloat.fexp, SpecFloat.emin; lia.
  - apply (generic_format_FLT radix2 (-1074) 53). exists (Float radix2 z 0).
    + unfold F2R; simpl; ring.
    + simpl; lia.
    + simpl; lia.
Qed.
Lemma rnd_id x : generic_format radix2 fexp64 x -> rnd x = x.
Proof. apply round_generic; auto with typeclass_instances. Qed.
Lemma rnd_le x y : x <= y -> rnd x <= rnd y.
Proof. apply round_le; auto with typeclass_instances. Qed.
Lemma rnd_IZR z : (Z.abs z <= 2 ^ 53)%Z -> rnd (IZR z) = IZR z.
Proof. intros; apply rnd_id, generic_format_IZR; auto. Qed.
Lemma gf_B2R (x : f64) : generic_format radix2 fexp64 (B2R x).
Proof. apply generic_format_B2R. Qed.

Lemma bpow_big e : (e <= 1024)%Z -> bpow radix2 e <= big.
Proof. intros; apply bpow_le; auto. Qed.

Lemma small_lt_big x : Rabs x <= bpow radix2 1023 -> Rabs (rnd x) < big.
Proof.
  intros H. apply Rle_lt_trans with (bpow radix2 1023).
  - apply abs_round_le_generic; auto with typeclass_instances.
    apply generic_format_bpow. unfold SpecFloat.fexp, SpecFloat.emin; lia.
  - apply bpow_lt; lia.
Qed.

Lemma ofZ_gen z : Rabs (IZR z) <= bpow radix2 1023 ->
  is_finite (f64_ofZ z) = true /\ B2R (f64_ofZ z) = rnd (IZR z) /\
  Bsign (f64_ofZ z) = (z <? 0)%Z.
Proof.
  intros H. pose proof (binary_normalize_correct 53 1024 _ _ mode_NE z 0 false) as C.
  cbv zeta in C. replace (F2R {| Fnum := z; Fexp := 0 |}) with (IZR z) in C
    by (unfold F2R; simpl; ring). cbn [round_mode] in C.
  rewrite Rlt_bool_true in C by (apply small_lt_big; auto).
  destruct C as (C1 & C2 & C3). unfold f64_ofZ. rewrite C1, C2, C3. repeat split; auto.
  destruct (Z.ltb_spec z 0).
  - rewrite Rcompare_Lt; auto. apply (IZR_lt z 0); auto.
  - destruct (Z.eq_dec z 0) as [->|].
    + rewrite Rcompare_Eq; auto.
    + rewrite Rcompare_Gt; auto. apply (IZR_lt 0 z). lia.
Qed.
Lemma IZR_le_bpow z e : (0 <= e)%Z -> (Z.abs z <= 2 ^ e)%Z -> Rabs (IZR z) <= bpow radix2 e.
Proof.
  intros He H. rewrite <- abs_IZR. rewrite <- IZR_Zpower by auto. apply IZR_le; exact H.
Qed.
Lemma ofZ_exact z : (Z.abs z <= 2 ^ 53)%Z ->
  is_finite (f64_ofZ z) = true /\ B2R (f64_ofZ z) = IZR z.
Proof.
  intros H. destruct (ofZ_gen z) as (A & B & _).
  - apply Rle_trans with (bpow radix2 53); [apply IZR_le_bpow; auto; lia|apply bpow_le; lia].
  - split; auto. rewrite B. apply rnd_IZR; auto.
Qed.
Lemma ofZ_B2R z : (Z.abs z <= 2 ^ 53)%Z -> B2R (f64_ofZ z) = IZR z.
Proof. intros; apply ofZ_exact; auto. Qed.
Lemma ofZ_fin z : (Z.abs z <= 2 ^ 53)%Z -> is_finite (f64_ofZ z) = true.
Proof. intros; apply ofZ_exact; auto. Qed.
Lemma ofZ_ext z : (Z.abs z <= 2 ^ 53)%Z -> ext (f64_ofZ z) = IZR z.
Proof. intros; rewrite ext_finite by (apply ofZ_fin; auto). apply ofZ_B2R; auto. Qed.
Lemma ofZ_nan z : (Z.abs z <= 2 ^ 53)%Z -> is_nan (f64_ofZ z) = false.
Proof. intros; apply is_nan_finite, ofZ_fin; auto. Qed.

(** ** Clipped rounding *)
Definition clip (r : R) : R := Rmax (- big) (Rmin big r).
Lemma clip_le x y : x <= y -> clip x <= clip y.
Proof.
  intros; unfold clip. apply Rle_max_compat_l. apply Rle_min_compat_l; auto.
Qed.
Lemma clip_id x : - big <= x <= big -> clip x = x.
Proof. intros; unfold clip. rewrite Rmin_right, Rmax_right; lra. Qed.
Lemma clip_hi x : big <= x -> clip x = big.
Proof. intros; pose proof big_pos; unfold clip. rewrite Rmin_left, Rmax_right; lra. Qed.
Lemma clip_lo x : x <= - big -> clip x = - big.
Proof. intros; pose proof big_pos; unfold clip. rewrite Rmin_right, Rmax_left; lra. Qed.

Lemma B2SF_inf (x : f64) s : B2SF x = SpecFloat.S754_infinity s -> x = B754_infinity s.
Proof. destruct x; simpl; try discriminate. intros [= ->]; auto. Qed.
Lemma overflow_inf (x : f64) s :
  B2SF x = binary_overflow 53 1024 mode_NE s -> x = B754_infinity s.
Proof. intros H; apply B2SF_inf. rewrite H. reflexivity. Qed.

Lemma rnd_sign x : 0 <= x -> 0 <= rnd x.
Proof. intros; apply round_ge_generic; auto with typeclass_instances. apply generic_format_0. Qed.
Lemma rnd_sign_neg x : x <= 0 -> rnd x <= 0.
Proof. intros; apply round_le_generic; auto with typeclass_instances. apply generic_format_0. Qed.

Lemma Rabs_big_cases r : ~ (Rabs r < big) -> big <= r \/ r <= - big.
Proof. intros H. unfold Rabs in H. destruct (Rcase_abs r); lra. Qed.

Lemma Bplus_ext (x y : f64) : is_finite x = true -> is_finite y = true ->
  is_nan (Bplus mode_NE x y) = false /\
  ext (Bplus mode_NE x y) = clip (rnd (B2R x + B2R y)) /\
  (Rabs (rnd (B2R x + B2R y)) < big -> is_finite (Bplus mode_NE x y) = true).
Proof.
  intros Fx Fy. pose proof (Bplus_correct 53 1024 _ _ mode_NE x y Fx Fy) as C. cbn [round_mode] in C.
  fold big in C. destruct (Rlt_bool_spec (Rabs (rnd (B2R x + B2R y))) big) as [H|H].
  - destruct C as (C1 & C2 & _). rewrite (ext_finite _ C2), C1. repeat split; auto.
    + apply is_nan_finite; auto.
    + rewrite clip_id; auto. apply Rabs_def2 in H; lra.
  - destruct C as (C1 & C2). apply overflow_inf in C1. rewrite C1. repeat split; auto; [|intros; lra].
    (* sign of the sum *)
    assert (S : (Bsign x = false -> 0 <= B2R x) /\ (Bsign x = true -> B2R x <= 0)).
    { destruct x as [| | |s m e b]; try discriminate; simpl; split; try lra; intros ->; cbn.
      - apply F2R_ge_0; simpl; lia.
      - apply F2R_le_0; simpl; lia. }
    assert (S' : (Bsign y = false -> 0 <= B2R y) /\ (Bsign y = true -> B2R y <= 0)).
    { destruct y as [| | |s m e b]; try discriminate; simpl; split; try lra; intros ->; cbn.
      - apply F2R_ge_0; simpl; lia.
      - apply F2R_le_0; simpl; lia. }
    destruct S as [S1 S2], S' as [S1' S2']. rewrite <- C2 in *. pose proof big_pos.
    destruct (Bsign x); simpl ext.
    + assert (rnd (B2R x + B2R y) <= 0).
      { apply rnd_sign_neg. specialize (S2 eq_refl); specialize (S2' eq_refl); lra. }
      rewrite Rabs_left1 in H by auto. rewrite clip_lo; lra.
    + assert (0 <= rnd (B2R x + B2R y)).
      { apply rnd_sign. specialize (S1 eq_refl); specialize (S1' eq_refl); lra. }
      rewrite Rabs_right in H by lra. rewrite clip_hi; lra.
Qed.

Lemma Bminus_opp (x y : f64) : Bminus mode_NE x y = Bplus mode_NE x (Bopp y).
Proof. destruct x, y; reflexivity. Qed.
Lemma Bminus_ext (x y : f64) : is_finite x = true -> is_finite y = true ->
  is_nan (Bminus mode_NE x y) = false /\
  ext (Bminus mode_NE x y) = clip (rnd (B2R x - B2R y)) /\
  (Rabs (rnd (B2R x - B2R y)) < big -> is_finite (Bminus mode_NE x y) = true).
Proof.
  intros Fx Fy. rewrite Bminus_opp. replace (B2R x - B2R y) with (B2R x + B2R (Bopp y)).
  - apply Bplus_ext; auto. rewrite is_finite_Bopp; auto.
  - rewrite B2R_Bopp. reflexivity.
Qed.

Lemma Bsign_B2R (x : f64) : is_finite x = true ->
  (Bsign x = false -> 0 <= B2R x) /\ (Bsign x = true -> B2R x <= 0).
Proof.
  intros Fx. destruct x as [| | |s m e b]; try discriminate; simpl; split; try lra; intros ->; cbn.
  - apply F2R_ge_0; simpl; lia.
  - apply F2R_le_0; simpl; lia.
Qed.

Lemma Bmult_ext (x y : f64) : is_finite x = true -> is_finite y = true ->
  is_nan (Bmult mode_NE x y) = false /\
  ext (Bmult mode_NE x y) = clip (rnd (B2R x * B2R y)) /\
  (Rabs (rnd (B2R x * B2R y)) < big -> is_finite (Bmult mode_NE x y) = true).
Proof.
  intros Fx Fy. pose proof (Bmult_correct 53 1024 _ _ mode_NE x y) as C. cbn [round_mode] in C.
  fold big in C. destruct (Rlt_bool_spec (Rabs (rnd (B2R x * B2R y))) big) as [H|H].
  - destruct C as (C1 & C2 & _). rewrite Fx, Fy in C2. rewrite (ext_finite _ C2), C1. repeat split; auto.
    + apply is_nan_finite; auto.
    + rewrite clip_id; auto. apply Rabs_def2 in H; lra.
  - apply overflow_inf in C. rewrite C. repeat split; auto; [|intros; lra].
    destruct (Bsign_B2R x Fx) as [S1 S2]. destruct (Bsign_B2R y Fy) as [S1' S2'].
    pose proof big_pos.
    destruct (Bsign x), (Bsign y); simpl ext.
    all: try specialize (S1 eq_refl); try specialize (S2 eq_refl);
         try specialize (S1' eq_refl); try specialize (S2' eq_refl).
    + assert (0 <= rnd (B2R x * B2R y)) by (apply rnd_sign; nra).
      rewrite Rabs_right in H by lra. rewrite clip_hi; lra.
    + assert (rnd (B2R x * B2R y) <= 0) by (apply rnd_sign_neg; nra).
      rewrite Rabs_left1 in H by lra. rewrite clip_lo; lra.
    + assert (rnd (B2R x * B2R y) <= 0) by (apply rnd_sign_neg; nra).
      rewrite Rabs_left1 in H by lra. rewrite clip_lo; lra.
    + assert (0 <= rnd (B2R x * B2R y)) by (apply rnd_sign; nra).
      rewrite Rabs_right in H by lra. rewrite clip_hi; lra.
Qed.

(** No-overflow forms. *)
Lemma Bplus_fin (x y : f64) : is_finite x = true -> is_finite y = true ->
  Rabs (rnd (B2R x + B2R y)) < big ->
  is_finite (Bplus mode_NE x y) = true /\ B2R (Bplus mode_NE x y) = rnd (B2R x + B2R y).
Proof.
  intros Fx Fy H. pose proof (Bplus_correct 53 1024 _ _ mode_NE x y Fx Fy) as C. cbn [round_mode] in C.
  fold big in C. rewrite Rlt_bool_true in C by auto. tauto.
Qed.
Lemma Bminus_fin (x y : f64) : is_finite x = true -> is_finite y = true ->
  Rabs (rnd (B2R x - B2R y)) < big ->
  is_finite (Bminus mode_NE x y) = true /\ B2R (Bminus mode_NE x y) = rnd (B2R x - B2R y).
Proof.
  intros Fx Fy H. pose proof (Bminus_correct 53 1024 _ _ mode_NE x y Fx Fy) as C. cbn [round_mode] in C.
  fold big in C. rewrite Rlt_bool_true in C by auto. tauto.
Qed.
Lemma Bmult_fin (x y : f64) : is_finite x = true -> is_finite y = true ->
  Rabs (rnd (B2R x * B2R y)) < big ->
  is_finite (Bmult mode_NE x y) = true /\ B2R (Bmult mode_NE x y) = rnd (B2R x * B2R y).
Proof.
  intros Fx Fy H. pose proof (Bmult_correct 53 1024 _ _ mode_NE x y) as C. cbn [round_mode] in C.
  fold big in C. rewrite Rlt_bool_true in C by auto. rewrite Fx, Fy in C. tauto.
Qed.
Lemma Bdiv_fin (x y : f64) : is_finite x = true -> is_finite y = true -> B2R y <> 0 ->
  Rabs (rnd (B2R x / B2R y)) < big ->
  is_finite (Bdiv mode_NE x y) = true /\ B2R (Bdiv mode_NE x y) = rnd (B2R x / B2R y).
Proof.
  intros Fx Fy Hy H. pose proof (Bdiv_correct 53 1024 _ _ mode_NE x y Hy) as C. cbn [round_mode] in C.
  fold big in C. rewrite Rlt_bool_true in C by auto. rewrite Fx in C. tauto.
Qed.

Lemma Bdiv_ext (x y : f64) : is_finite x = true -> is_finite y = true -> B2R y <> 0 ->
  is_nan (Bdiv mode_NE x y) = false /\
  ext (Bdiv mode_NE x y) = clip (rnd (B2R x / B2R y)) /\
  (Rabs (rnd (B2R x / B2R y)) < big -> is_finite (Bdiv mode_NE x y) = true).
Proof.
  intros Fx Fy Hy. pose proof (Bdiv_correct 53 1024 _ _ mode_NE x y Hy) as C. cbn [round_mode] in C.
  fold big in C. destruct (Rlt_bool_spec (Rabs (rnd (B2R x / B2R y))) big) as [H|H].
  - destruct C as (C1 & C2 & _). rewrite Fx in C2. rewrite (ext_finite _ C2), C1. repeat split; auto.
    + apply is_nan_finite; auto.
    + rewrite clip_id; auto. apply Rabs_def2 in H; lra.
  - apply overflow_inf in C. rewrite C. repeat split; auto; [|intros; lra].
    destruct (Bsign_B2R x Fx) as [S1 S2]. destruct (Bsign_B2R y Fy) as [S1' S2'].
    pose proof big_pos. unfold Rdiv in *.
    assert (I : (Bsign y = false -> 0 < / B2R y) /\ (Bsign y = true -> / B2R y < 0)).
    { split; intros E.
      - apply Rinv_0_lt_compat. specialize (S1' E); lra.
      - apply Rinv_lt_0_compat. specialize (S2' E); lra. }
    destruct I as [I1 I2].
    destruct (Bsign x), (Bsign y); simpl ext.
    all: try specialize (S1 eq_refl); try specialize (S2 eq_refl);
         try specialize (I1 eq_refl); try specialize (I2 eq_refl).
    + assert (0 <= rnd (B2R x * / B2R y)) by (apply rnd_sign; nra).
      rewrite Rabs_right in H by lra. rewrite clip_hi; lra.
    + assert (rnd (B2R x * / B2R y) <= 0) by (apply rnd_sign_neg; nra).
      rewrite Rabs_left1 in H by lra. rewrite clip_lo; lra.
    + assert (rnd (B2R x * / B2R y) <= 0) by (apply rnd_sign_neg; nra).
      rewrite Rabs_left1 in H by lra. rewrite clip_lo; lra.
    + assert (0 <= rnd (B2R x * / B2R y)) by (apply rnd_sign; nra).
      rewrite Rabs_right in H by lra. rewrite clip_hi; lra.
Qed.

(** Literals: 10^k is exact up to 10^15 and the quotient is rounded once. *)
Lemma lit_fin m k : (Z.abs m <= 2 ^ 53)%Z -> (0 <= k <= 15)%Z ->
  is_finite (f64_lit m k) = true /\ B2R (f64_lit m k) = rnd (IZR m / IZR (10 ^ k)).
Proof.
  intros Hm Hk. unfold f64_lit.
  assert (P : (1 <= 10 ^ k <= 2 ^ 53)%Z).
  { split; [apply Z.pow_le_mono_r with (b := 0%Z) (a := 10%Z); lia|].
    apply Z.le_trans with (10 ^ 15)%Z; [apply Z.pow_le_mono_r; lia|]. vm_compute; discriminate. }
  destruct (ofZ_exact m Hm) as [F1 E1]. destruct (ofZ_exact (10 ^ k)) as [F2 E2]; [lia|].
  assert (1 <= IZR (10 ^ k)) by (apply IZR_le; lia).
  rewrite <- E1, <- E2. apply Bdiv_fin; auto.
  - rewrite E2; lra.
  - apply small_lt_big. rewrite E1, E2. unfold Rdiv. rewrite Rabs_mult.
    apply Rle_trans with (Rabs (IZR m) * 1).
    + apply Rmult_le_compat_l; [apply Rabs_pos|]. rewrite Rabs_right.
      * rewrite <- Rinv_1. apply Rinv_le; lra.
      * apply Rle_ge, Rlt_le, Rinv_0_lt_compat; lra.
    + rewrite Rmult_1_r. apply Rle_trans with (bpow radix2 53); [apply IZR_le_bpow; auto; lia|apply bpow_le; lia].
Qed.

(** Truncation *)
Lemma Btrunc_Z (x : f64) : Btrunc x = Ztrunc (B2R x).
Proof.
  apply eq_IZR. rewrite Btrunc_correct by exact Hemax.
  unfold round, F2R, scaled_mantissa, cexp, FIX_exp; simpl. rewrite !Rmult_1_r; auto.
Qed.
Lemma cast_fin lo hi x : is_finite x = true ->
  f64_cast lo hi x = Z.max lo (Z.min hi (Ztrunc (B2R x))).
Proof. intros F. rewrite <- Btrunc_Z. destruct x as [| | |]; try discriminate; reflexivity. Qed.
Lemma nearbyint_fin md (x : f64) : is_finite x = true ->
  is_finite (Bnearbyint md x) = true /\ B2R (Bnearbyint md x) = IZR (round_mode md (B2R x)).
Proof.
  intros F. destruct (Bnearbyint_correct 53 1024 _ md x) as (A & B & _).
  split; [congruence|]. rewrite A.
  unfold round, F2R, scaled_mantissa, cexp, FIX_exp; simpl. rewrite !Rmult_1_r; auto.
Qed.
