(** C37 and C42: level matching. *)
From Coq Require Import Reals Lra Psatz.
From Flocq Require Import Core BinarySingleNaN.
From Verif Require Import Base Num M_Audio F64 RNum P_Base P_Mat P_F64 P_R P_Win Spec P_Audio P_Audio2.
Open Scope R_scope.

(** ** C37, exact arithmetic *)
Lemma R_seq_sum (l : list R) : seq_sum (N:=RN) l = Rsum l.
Proof.
  unfold seq_sum. cbn [nadd RN nofZ].
  assert (G : forall l a, fold_left Rplus l a = a + Rsum l).
  { clear. intros l. induction l as [|x t IH]; intros a; cbn [fold_left]; [cbn; ring|]. rewrite IH, Rsum_cons. ring. }
  etransitivity; [apply G|]. apply Rplus_0_l.
Qed.
Lemma energy_nonneg l : 0 <= energy l.
Proof. apply Rsum_nonneg. apply Forall_forall. intros x Hx. apply in_map_iff in Hx as (y & <- & _). nra. Qed.
Lemma energy_cons x l : energy (x :: l) = x * x + energy l. Proof. reflexivity. Qed.
Lemma energy_pos l : not_silent l -> 0 < energy l.
Proof.
  intros (x & Hx & Nx). induction l as [|y t IH]; [contradiction|]. rewrite energy_cons. pose proof (energy_nonneg t).
  destruct Hx as [->|Hx]; [nra|]. specialize (IH Hx). nra.
Qed.
Lemma zlen_pos_in {A} (l : list A) x : In x l -> 0 < IZR (zlen l).
Proof. intros H. apply IZR_lt. destruct l; [contradiction|]. rewrite zlen_cons. pose proof (zlen_nonneg l). lia. Qed.
Lemma rms_pos l : not_silent l -> 0 < rms l.
Proof.
  intros H. unfold rms. apply sqrt_lt_R0. apply Rdiv_lt_0_compat; [apply energy_pos; auto|].
  destruct H as (x & Hx & _). eapply zlen_pos_in; eauto.
Qed.
Lemma energy_scale g l : energy (map (fun x => x * g) l) = g * g * energy l.
Proof.
  unfold energy. rewrite map_map. rewrite <- Rsum_scale, map_map. f_equal. apply map_ext. intros. ring.
Qed.
Lemma rms_scale g l : 0 <= g -> rms (map (fun x => x * g) l) = g * rms l.
Proof.
  intros Hg. unfold rms. rewrite energy_scale, zlen_map. unfold Rdiv. rewrite Rmult_assoc.
  rewrite sqrt_mult_alt by nra. rewrite sqrt_square by auto. reflexivity.
Qed.
Lemma spl_R (s : AudioSignal RN) : calculate_sound_pressure_level s = 20 * Rlog 10 (rms (data_matrix s) / (2 / 100000)).
Proof.
  unfold calculate_sound_pressure_level. cbv zeta. rewrite R_seq_sum. reflexivity.
Qed.
Lemma Rpow_logs a b : 0 < a -> 0 < b -> Rpowf 10 ((20 * Rlog 10 a - 20 * Rlog 10 b) / 20) = a / b.
Proof.
  intros Ha Hb. unfold Rpowf. destruct (Req_EM_T 10 0); [lra|]. unfold Rpower, Rlog.
  assert (L : 0 < ln 10) by (rewrite <- ln_1; apply ln_increasing; lra).
  replace ((20 * (ln a / ln 10) - 20 * (ln b / ln 10)) / 20 * ln 10) with (ln a + - ln b) by (field; lra).
  rewrite exp_plus, exp_Ropp, !exp_ln by auto. reflexivity.
Qed.
Lemma factor_R (rs ds : AudioSignal RN) : not_silent (data_matrix rs) -> not_silent (data_matrix ds) ->
  data_matrix (scale_to_match_sound_pressure_level rs ds) =
  map (fun x => x * (rms (data_matrix rs) / rms (data_matrix ds))) (data_matrix ds).
Proof.
  intros Hr Hd. unfold scale_to_match_sound_pressure_level. cbv zeta. cbn [data_matrix]. rewrite !spl_R.
  pose proof (rms_pos _ Hr) as Pr. pose proof (rms_pos _ Hd) as Pd.
  set (a := rms (data_matrix rs)) in *. set (b := rms (data_matrix ds)) in *.
  assert (E : Rpowf 10 ((20 * Rlog 10 (a / (2 / 100000)) - 20 * Rlog 10 (b / (2 / 100000))) / 20) = a / b).
  { rewrite Rpow_logs by (apply Rdiv_lt_0_compat; lra). field. lra. }
  apply map_ext. intros x. etransitivity; [|exact (f_equal (Rmult x) E)]. reflexivity.
Qed.
Lemma C37_rms (rs ds : AudioSignal RN) : not_silent (data_matrix rs) -> not_silent (data_matrix ds) ->
  rms (data_matrix (scale_to_match_sound_pressure_level rs ds)) = rms (data_matrix rs).
Proof.
  intros Hr Hd. rewrite factor_R by auto. pose proof (rms_pos _ Hr) as Pr. pose proof (rms_pos _ Hd) as Pd.
  rewrite rms_scale; [field; lra|]. apply Rlt_le, Rdiv_lt_0_compat; auto.
Qed.
Lemma C37_multiple (rs ds : AudioSignal RN) : not_silent (data_matrix rs) -> not_silent (data_matrix ds) ->
  exists g, 0 < g /\ scale_to_match_sound_pressure_level rs ds =
    {| data_matrix := map (Rmult g) (data_matrix ds) : list (num RN); sample_rate := sample_rate ds |}.
Proof.
  intros Hr Hd. pose proof (factor_R rs ds Hr Hd) as E.
  exists (rms (data_matrix rs) / rms (data_matrix ds)). split; [apply Rdiv_lt_0_compat; apply rms_pos; auto|].
  unfold scale_to_match_sound_pressure_level in *. cbv zeta in *. cbn [data_matrix] in E. rewrite E. f_equal.
  apply map_ext. intros. apply Rmult_comm.
Qed.
Lemma not_silent_gain g l : g <> 0 -> not_silent l -> not_silent (map (Rmult g) l).
Proof. intros Hg (x & Hx & Nx). exists (g * x). split; [apply in_map; auto|]. apply Rmult_integral_contrapositive; auto. Qed.
Lemma C37_gain (rs : AudioSignal RN) l rate g : 0 < g -> not_silent (data_matrix rs) -> not_silent l ->
  scale_to_match_sound_pressure_level rs (@Build_AudioSignal RN (map (Rmult g) l) rate) =
  scale_to_match_sound_pressure_level rs (@Build_AudioSignal RN l rate).
Proof.
  intros Hg Hr Hl.
  assert (E : data_matrix (scale_to_match_sound_pressure_level rs (@Build_AudioSignal RN (map (Rmult g) l) rate)) =
              data_matrix (scale_to_match_sound_pressure_level rs (@Build_AudioSignal RN l rate))).
  { rewrite !factor_R; auto; [|apply not_silent_gain; auto; lra]. cbn [data_matrix].
    assert (M : rms (map (Rmult g) l) = g * rms l).
    { rewrite <- rms_scale by lra. f_equal. apply map_ext; intros; apply Rmult_comm. }
    pose proof (rms_pos _ Hl). etransitivity; [apply map_map|]. apply map_ext. intros x.
    etransitivity; [exact (f_equal (fun r => g * x * (rms (data_matrix rs) / r)) M)|].
    cbn [num RN] in *. field. lra. }
  unfold scale_to_match_sound_pressure_level in *. cbv zeta in *. cbn [data_matrix sample_rate] in *. rewrite E. reflexivity.
Qed.

(** ** C42, binary64 *)
Definition btw (x : f64) (lo hi : Z) : Prop := is_finite x = true /\ bpow radix2 lo <= B2R x <= bpow radix2 hi.
Lemma rnd_btw x lo hi : (-900 <= lo)%Z -> (hi <= 1000)%Z -> bpow radix2 lo <= x <= bpow radix2 hi ->
  bpow radix2 lo <= rnd x <= bpow radix2 hi /\ Rabs (rnd x) < big.
Proof.
  intros Hlo Hhi [H1 H2].
  assert (A : bpow radix2 lo <= bpow radix2 hi) by lra. apply le_bpow in A.
  assert (G : forall e, (-900 <= e <= 1000)%Z -> generic_format radix2 fexp64 (bpow radix2 e)).
  { intros e He. apply generic_format_bpow. rewrite fexp64_FLT. unfold FLT_exp. lia. }
  assert (bpow radix2 lo <= rnd x <= bpow radix2 hi).
  { split; [rewrite <- (rnd_id (bpow radix2 lo)) by (apply G; lia)|rewrite <- (rnd_id (bpow radix2 hi)) by (apply G; lia)];
      apply rnd_le; auto. }
  split; auto. apply (bpow_1000_big _ hi); auto. pose proof (bpow_gt_0 radix2 lo). apply Rabs_le. lra.
Qed.
Lemma btw_div x y a b c d : (-900 <= a - d)%Z -> (b - c <= 1000)%Z -> btw x a b -> btw y c d -> btw (Bdiv mode_NE x y) (a - d) (b - c).
Proof.
  intros H1 H2 [Fx [X1 X2]] [Fy [Y1 Y2]].
  pose proof (bpow_gt_0 radix2 a). pose proof (bpow_gt_0 radix2 c). pose proof (bpow_gt_0 radix2 d). pose proof (bpow_gt_0 radix2 b).
  assert (Q : bpow radix2 (a - d) <= B2R x / B2R y <= bpow radix2 (b - c)).
  { unfold Z.sub. rewrite !bpow_plus, !bpow_opp. split.
    - unfold Rdiv. apply Rmult_le_compat; try lra; [apply Rlt_le, Rinv_0_lt_compat; auto|]. apply Rinv_le; lra.
    - unfold Rdiv. apply Rmult_le_compat; try lra; [apply Rlt_le, Rinv_0_lt_compat; lra|]. apply Rinv_le; lra. }
  destruct (rnd_btw _ _ _ H1 H2 Q) as [A B].
  destruct (Bdiv_fin x y Fx Fy) as [F E]; [lra|auto|]. split; auto. rewrite E. auto.
Qed.
Lemma btw_sqrt x a b : (-900 <= 2 * a)%Z -> (2 * b <= 1000)%Z -> btw x (2 * a) (2 * b) -> btw (Bsqrt mode_NE x) a b.
Proof.
  intros H1 H2 [F [X1 X2]].
  pose proof (bpow_gt_0 radix2 a). pose proof (bpow_gt_0 radix2 b). pose proof (bpow_gt_0 radix2 (2 * a)).
  assert (S : forall e, R_sqrt.sqrt (bpow radix2 (2 * e)) = bpow radix2 e).
  { intros e. replace (2 * e)%Z with (e + e)%Z by lia. rewrite bpow_plus. apply sqrt_square. apply bpow_ge_0. }
  assert (Q : bpow radix2 a <= R_sqrt.sqrt (B2R x) <= bpow radix2 b).
  { rewrite <- (S a), <- (S b). split; apply sqrt_le_1_alt; auto. }
  assert (A1 : bpow radix2 a <= bpow radix2 b) by lra. apply le_bpow in A1.
  destruct (rnd_btw _ a b ltac:(lia) ltac:(lia) Q) as [A B].
  pose proof (Bsqrt_correct 53 1024 Hprec Hemax mode_NE x) as C. cbn [round_mode] in C. destruct C as (C1 & C2 & _).
  split; [|rewrite C1; auto]. rewrite C2. destruct x as [s|s| |s m e w]; try discriminate; auto. destruct s; auto.
  exfalso. assert (B2R (B754_finite true m e w : f64) < 0) by (cbn [B2R]; apply F2R_lt_0; cbn; lia). lra.
Qed.
Lemma btw_ofZ z e : (0 <= e <= 53)%Z -> (1 <= z <= 2 ^ e)%Z -> btw (f64_ofZ z) 0 e.
Proof.
  intros He Hz. assert (2 ^ e <= 2 ^ 53)%Z by (apply Z.pow_le_mono_r; lia). split; [apply ofZ_fin; lia|]. rewrite ofZ_B2R by lia. split.
  - change (bpow radix2 0) with (IZR 1). apply IZR_le; lia.
  - rewrite <- IZR_Zpower by lia. apply IZR_le. apply Hz.
Qed.
Lemma Rabs_mult_self x : Rabs x * Rabs x = x * x.
Proof. rewrite <- Rabs_mult. apply Rabs_pos_eq. nra. Qed.
Lemma sq_btw (x : f64) : is_finite x = true -> Rabs (B2R x) <= 2 ->
  is_finite (Bmult mode_NE x x) = true /\ 0 <= B2R (Bmult mode_NE x x) <= 4 /\
  (bpow radix2 (-40) <= Rabs (B2R x) -> bpow radix2 (-80) <= B2R (Bmult mode_NE x x)).
Proof.
  intros F H. assert (Q : 0 <= B2R x * B2R x <= 4).
  { rewrite <- (Rabs_mult_self (B2R x)). pose proof (Rabs_pos (B2R x)). nra. }
  assert (R4 : rnd 4 = 4) by (apply (rnd_IZR 4); lia).
  destruct (Bmult_fin x x F F) as [F' E].
  - apply (bpow_1000_big _ 2); [lia|]. apply rnd_abs_bpow; [lia|]. change (bpow radix2 2) with 4. apply Rabs_le; lra.
  - split; auto. rewrite E. split; [split; [apply rnd_sign; lra|rewrite <- R4; apply rnd_le; lra]|].
    intros L. assert (bpow radix2 (-80) <= B2R x * B2R x).
    { change (-80)%Z with (-40 + -40)%Z. rewrite bpow_plus, <- (Rabs_mult_self (B2R x)).
      pose proof (bpow_gt_0 radix2 (-40)). nra. }
    rewrite <- (rnd_id (bpow radix2 (-80))); [apply rnd_le; auto|]. apply generic_format_bpow. rewrite fexp64_FLT. unfold FLT_exp. lia.
Qed.
Section C42.
Variable lm : Libm.
Notation N := (F64 lm).
Lemma fold_squares (l : list f64) : forall (acc : f64) k, (0 <= k)%Z -> (k + zlen l <= 2 ^ 50)%Z ->
  Forall (fun x : f64 => is_finite x = true /\ Rabs (B2R x) <= 2) l ->
  is_finite acc = true -> 0 <= B2R acc <= 4 * IZR k ->
  let r := fold_left (Bplus (prec_lt_emax_:=Hemax) mode_NE) (map (fun x => Bmult (prec_lt_emax_:=Hemax) mode_NE x x) l) acc in
  is_finite r = true /\ B2R acc <= B2R r <= 4 * IZR (k + zlen l) /\
  (Exists (fun x : f64 => bpow radix2 (-40) <= Rabs (B2R x)) l -> bpow radix2 (-80) <= B2R r).
Proof.
  induction l as [|x t IH]; intros acc k Hk HM F Fa Ba; cbn [map fold_left]; cbv zeta.
  - rewrite zlen_nil, Z.add_0_r. repeat split; try lra; auto. intros E. inversion E.
  - apply Forall_cons_iff in F as [[Fx Bx] Ft]. rewrite zlen_cons in *. pose proof (zlen_nonneg t).
    destruct (sq_btw x Fx Bx) as (Fq & Bq & Lq). set (q := Bmult mode_NE x x) in *.
    assert (P4 : forall z, (0 <= z <= 2 ^ 50)%Z -> rnd (4 * IZR z) = 4 * IZR z).
    { intros z Hz. change 4 with (IZR 4). rewrite <- mult_IZR. apply rnd_IZR. lia. }
    assert (U : rnd (B2R acc + B2R q) <= 4 * IZR (k + 1)).
    { rewrite <- P4 by lia. apply rnd_le. rewrite plus_IZR. lra. }
    assert (L : B2R acc <= rnd (B2R acc + B2R q)).
    { rewrite <- (rnd_id (B2R acc)) at 1 by apply gf_B2R. apply rnd_le. lra. }
    assert (L2 : B2R q <= rnd (B2R acc + B2R q)).
    { rewrite <- (rnd_id (B2R q)) at 1 by apply gf_B2R. apply rnd_le. lra. }
    assert (Hbig : 4 * IZR (k + 1) <= bpow radix2 52).
    { change 4 with (IZR 4). rewrite <- mult_IZR. rewrite <- (IZR_Zpower radix2) by lia. apply IZR_le. change (radix2 ^ 52)%Z with (2 ^ 52)%Z. lia. }
    destruct (Bplus_fin acc q Fa Fq) as [Fn En].
    { apply (bpow_1000_big _ 52); [lia|]. apply Rabs_le. lra. }
    specialize (IH (Bplus mode_NE acc q) (k + 1)%Z ltac:(lia) ltac:(lia) Ft Fn). rewrite En in IH.
    specialize (IH ltac:(lra)). cbv zeta in IH. destruct IH as (I1 & I2 & I3).
    replace (k + (zlen t + 1))%Z with (k + 1 + zlen t)%Z by lia.
    split; [exact I1|]. split; [lra|]. intros E. apply Exists_cons in E as [E|E]; [|auto].
    specialize (Lq E). lra.
Qed.
Lemma spl_finite (s : AudioSignal N) : log10_finite lm -> audible (data_matrix s) -> (sig_len s <= 2 ^ 50)%Z ->
  is_finite (calculate_sound_pressure_level s : f64) = true.
Proof.
  intros LG [FA EX] HL. unfold calculate_sound_pressure_level. cbv zeta.
  assert (L1 : (1 <= sig_len s)%Z).
  { apply Exists_exists in EX as (x & Hx & _). assert (0 < sig_len s)%Z by (apply lt_IZR; exact (zlen_pos_in _ _ Hx)). lia. }
  set (d := data_matrix s) in *.
  assert (Z0 : is_finite (f64_ofZ 0) = true /\ B2R (f64_ofZ 0) = 0) by (split; [apply ofZ_fin; lia|apply ofZ_B2R; lia]).
  destruct Z0 as [F0 E0].
  destruct (fold_squares d (f64_ofZ 0) 0 ltac:(lia) HL FA F0 ltac:(rewrite E0; lra)) as (F1 & B1 & M1).
  specialize (M1 EX).
  match type of M1 with _ <= B2R ?e => set (en := e) in * end.
  assert (Be : btw en (-80) 52).
  { split; auto. split; auto. eapply Rle_trans; [apply B1|]. change 4 with (IZR 4). rewrite <- mult_IZR.
    rewrite <- (IZR_Zpower radix2) by lia. apply IZR_le. change (radix2 ^ 52)%Z with (2 ^ 52)%Z. unfold sig_len in HL. fold d in HL.
    change (zlen (A:=num N) d) with (zlen (A:=f64) d) in HL. lia. }
  pose proof (btw_ofZ (sig_len s) 50 ltac:(lia) ltac:(lia)) as Bn.
  assert (B2 : btw (Bdiv mode_NE en (f64_ofZ (sig_len s))) (2 * -65) (2 * 26)) by (apply (btw_div _ _ (-80) 52 0 50); auto; lia).
  apply btw_sqrt in B2; try lia.
  assert (B3 : btw (f64_lit 2 5) (-16) (-15)).
  { destruct (lit_fin 2 5 ltac:(lia) ltac:(lia)) as [F E]. split; auto. rewrite E. apply rnd_btw; try lia.
    change (bpow radix2 (-16)) with (/ 65536). change (bpow radix2 (-15)) with (/ 32768). change (IZR (10 ^ 5)) with 100000. lra. }
  assert (B4 := btw_div _ _ (-65) 26 (-16) (-15) ltac:(lia) ltac:(lia) B2 B3).
  destruct B4 as [F4 B4]. pose proof (bpow_gt_0 radix2 (-65 - -15)) as PP.
  destruct (LG _ F4 ltac:(lra)) as [F5 B5].
  change (is_finite (Bmult mode_NE (f64_ofZ 20) (lm_log10 lm (Bdiv mode_NE (Bsqrt mode_NE (Bdiv mode_NE en (f64_ofZ (sig_len s)))) (f64_lit 2 5)))) = true).
  set (lg := lm_log10 lm _) in *.
  pose proof (ofZ_fin 20 ltac:(lia)) as F20. pose proof (ofZ_B2R 20 ltac:(lia)) as E20.
  refine (proj1 (Bmult_fin (f64_ofZ 20) lg F20 F5 _)). rewrite E20.
  apply (bpow_1000_big _ 20); [lia|]. apply rnd_abs_bpow; [lia|]. change (bpow radix2 20) with 1048576.
  rewrite Rabs_mult, (Rabs_pos_eq 20) by lra. lra.
Qed.
Lemma zero_of (x : f64) : is_finite x = true -> B2R x = 0 -> exists s, x = B754_zero s.
Proof.
  destruct x as [s|s| |s m e w]; try discriminate; intros _ H; [eauto|]. exfalso. cbn [B2R] in H. apply eq_0_F2R in H. destruct s; discriminate H.
Qed.
Lemma fold_zero (l : list f64) : forall acc : f64, (exists s, acc = B754_zero s) -> Forall (fun x : f64 => exists s, x = B754_zero s) l ->
  exists s, fold_left (Bplus (prec_lt_emax_:=Hemax) mode_NE) (map (fun x => Bmult (prec_lt_emax_:=Hemax) mode_NE x x) l) acc = B754_zero s.
Proof.
  induction l as [|x t IH]; intros acc (s & ->) F; cbn [map fold_left]; [eauto|].
  apply Forall_cons_iff in F as [(s' & ->) Ft]. apply IH; auto.
  destruct s, s'; cbn; eauto.
Qed.
Lemma Bdiv_zero s (y : f64) : is_finite y = true -> B2R y <> 0 -> exists s', Bdiv mode_NE (B754_zero s) y = B754_zero s'.
Proof. destruct y as [z|z| |z m e w]; intros F H; try discriminate F; [cbn [B2R] in H; lra|]. cbn; eauto. Qed.
Lemma spl_silent (s : AudioSignal N) : libm_limits lm -> (1 <= sig_len s <= 2 ^ 50)%Z ->
  Forall (fun x : f64 => exists g, x = B754_zero g) (data_matrix s) ->
  calculate_sound_pressure_level s = (B754_infinity true : f64).
Proof.
  intros (LL & _) HL F. unfold calculate_sound_pressure_level. cbv zeta.
  destruct (fold_zero (data_matrix s) (f64_ofZ 0)) as [s1 E1]; [exists false; apply B2SF_inj; vm_compute; reflexivity|exact F|].
  pose proof (btw_ofZ (sig_len s) 50 ltac:(lia) ltac:(lia)) as [Fn Bn]. pose proof (bpow_gt_0 radix2 0).
  destruct (Bdiv_zero s1 (f64_ofZ (sig_len s)) Fn ltac:(lra)) as [s2 E2].
  destruct (lit_fin 2 5 ltac:(lia) ltac:(lia)) as [Fl El].
  assert (Nl : B2R (f64_lit 2 5) <> 0).
  { rewrite El. assert (Q := rnd_btw (2 / 100000) (-16) (-15) ltac:(lia) ltac:(lia)).
    change (bpow radix2 (-16)) with (/ 65536) in Q. change (bpow radix2 (-15)) with (/ 32768) in Q. change (IZR (10 ^ 5)) with 100000.
    destruct Q as [Q _]; lra. }
  destruct (Bdiv_zero s2 (f64_lit 2 5) Fl Nl) as [s3 E3].
  assert (E : lm_log10 lm (Bdiv mode_NE (Bsqrt mode_NE (Bdiv mode_NE
     (fold_left (Bplus (prec_lt_emax_:=Hemax) mode_NE) (map (fun x => Bmult (prec_lt_emax_:=Hemax) mode_NE x x) (data_matrix s)) (f64_ofZ 0))
     (f64_ofZ (sig_len s)))) (f64_lit 2 5)) = B754_infinity true).
  { rewrite E1, E2. change (Bsqrt mode_NE (B754_zero s2 : f64)) with (B754_zero s2 : f64). rewrite E3. apply LL. }
  etransitivity; [exact (f_equal (Bmult mode_NE (f64_ofZ 20)) E)|]. apply B2SF_inj; vm_compute; reflexivity.
Qed.
Lemma C42_nan (rs ds : AudioSignal N) : libm_limits lm -> log10_finite lm -> audible (data_matrix rs) -> (sig_len rs <= 2 ^ 50)%Z ->
  (sig_len ds <= 2 ^ 50)%Z -> Forall (fun x : f64 => is_finite x = true /\ B2R x = 0) (data_matrix ds) ->
  Forall (fun x : f64 => is_nan x = true) (data_matrix (scale_to_match_sound_pressure_level rs ds)).
Proof.
  intros LL LG Ar Lr Ld Zd.
  assert (Zd' : Forall (fun x : f64 => exists g, x = B754_zero g) (data_matrix ds)).
  { eapply Forall_impl; [|exact Zd]. intros x [F E]. apply zero_of; auto. }
  destruct (Z.eq_dec (sig_len ds) 0) as [E0|N0].
  { unfold scale_to_match_sound_pressure_level. cbv zeta. cbn [data_matrix]. unfold sig_len in E0.
    destruct (data_matrix ds); [constructor|]. rewrite zlen_cons in E0. pose proof (zlen_nonneg l). lia. }
  pose proof (zlen_nonneg (data_matrix ds)) as L0.
  pose proof (spl_finite rs LG Ar Lr) as Fr.
  pose proof (spl_silent ds LL ltac:(unfold sig_len in *; lia) Zd') as Es.
  unfold scale_to_match_sound_pressure_level. cbv zeta. cbn [data_matrix].
  assert (Ef : lm_powf lm (f64_ofZ 10) (Bdiv mode_NE (Bminus mode_NE (calculate_sound_pressure_level rs) (calculate_sound_pressure_level ds)) (f64_ofZ 20)) = B754_infinity false).
  { rewrite Es. assert (Q : Bminus mode_NE (calculate_sound_pressure_level rs : f64) (B754_infinity true) = B754_infinity false).
    { destruct (calculate_sound_pressure_level rs); try discriminate; reflexivity. }
    rewrite Q. assert (Q2 : Bdiv mode_NE (B754_infinity false) (f64_ofZ 20) = B754_infinity false) by (apply B2SF_inj; vm_compute; reflexivity).
    rewrite Q2. apply LL. }
  apply Forall_forall. intros y Hy. apply in_map_iff in Hy as (x & <- & Hx).
  rewrite Forall_forall in Zd'. destruct (Zd' x Hx) as [g ->].
  change (is_nan (Bmult mode_NE (B754_zero g) (lm_powf lm (f64_ofZ 10) (Bdiv mode_NE (Bminus mode_NE (calculate_sound_pressure_level rs) (calculate_sound_pressure_level ds)) (f64_ofZ 20)))) = true).
  rewrite Ef. reflexivity.
Qed.
Lemma C42_zero (rs ds : AudioSignal N) : libm_limits lm -> log10_finite lm -> audible (data_matrix ds) -> (sig_len ds <= 2 ^ 50)%Z ->
  (1 <= sig_len rs <= 2 ^ 50)%Z -> Forall (fun x : f64 => is_finite x = true /\ B2R x = 0) (data_matrix rs) ->
  Forall (fun x : f64 => is_finite x = true /\ B2R x = 0) (data_matrix (scale_to_match_sound_pressure_level rs ds)).
Proof.
  intros LL LG Ad Ld Lr Zr.
  assert (Zr' : Forall (fun x : f64 => exists g, x = B754_zero g) (data_matrix rs)).
  { eapply Forall_impl; [|exact Zr]. intros x [F E]. apply zero_of; auto. }
  pose proof (spl_finite ds LG Ad Ld) as Fd.
  pose proof (spl_silent rs LL Lr Zr') as Es.
  unfold scale_to_match_sound_pressure_level. cbv zeta. cbn [data_matrix].
  assert (Ef : lm_powf lm (f64_ofZ 10) (Bdiv mode_NE (Bminus mode_NE (calculate_sound_pressure_level rs) (calculate_sound_pressure_level ds)) (f64_ofZ 20)) = B754_zero false).
  { rewrite Es. assert (Q : Bminus mode_NE (B754_infinity true) (calculate_sound_pressure_level ds : f64) = B754_infinity true).
    { destruct (calculate_sound_pressure_level ds); try discriminate; reflexivity. }
    rewrite Q. assert (Q2 : Bdiv mode_NE (B754_infinity true) (f64_ofZ 20) = B754_infinity true) by (apply B2SF_inj; vm_compute; reflexivity).
    rewrite Q2. apply LL. }
  apply Forall_forall. intros y Hy. apply in_map_iff in Hy as (x & <- & Hx).
  destruct Ad as [Fa _]. rewrite Forall_forall in Fa. destruct (Fa x Hx) as [Fx _].
  match goal with |- is_finite ?t = true /\ _ => change t with (Bmult mode_NE x (lm_powf lm (f64_ofZ 10) (Bdiv mode_NE (Bminus mode_NE (calculate_sound_pressure_level rs) (calculate_sound_pressure_level ds)) (f64_ofZ 20)))) end.
  rewrite Ef. destruct (x : f64); try discriminate; split; reflexivity.
Qed.
End C42.
