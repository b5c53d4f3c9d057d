(** Averages and wideband scores in binary64, up to rounding. *)
From Coq Require Import Reals Lra Psatz.
From Flocq Require Import Core BinarySingleNaN Relative.
From Verif Require Import Base Num Mat M_Audio M_Align M_Spectro M_Patch M_Nsim M_Visqol F64 RNum P_Base P_Mat P_F64 P_R P_Win Spec Spec14 P_Audio P_Level P_NsimF P_LevelF P_Score P_Run P_Agg P_Exp P_Mapping.
Open Scope R_scope.

Lemma rnd_rel1 z : Rabs (rnd z - z) <= uu * (Rabs z + 1).
Proof.
  destruct (Rle_lt_dec 1 (Rabs z)) as [H|H].
  - eapply Rle_trans; [apply rnd_rel; right; eapply Rle_trans; [apply (bpow_le radix2 _ 0); lia|exact H]|].
    assert (0 < uu) by apply bpow_gt_0. nra.
  - pose proof (rnd_err z 0 ltac:(lia) ltac:(cbn; lra)) as E. change (0 - 53)%Z with (-53)%Z in E. fold uu in E.
    assert (0 < uu) by apply bpow_gt_0. pose proof (Rabs_pos z). nra.
Qed.
(** [x] is the sum [v] of [k] numbers of magnitude up to 2. *)
Definition cnt (x : f64) (v : R) (k : Z) : Prop := is_finite x = true /\ Rabs v <= 2 * IZR k /\ Rabs (B2R x - v) <= 4 * uu * (IZR k * IZR k).
Lemma cnt_0 : cnt (f64_ofZ 0) 0 0.
Proof. split; [apply ofZ_fin; lia|]. rewrite ofZ_B2R by lia. rewrite Rminus_0_r, Rabs_R0. lra. Qed.
Lemma cnt_1 x : similarity_like x -> cnt x (B2R x) 1.
Proof. intros [F H]. split; [exact F|]. split; [lra|]. rewrite Rminus_diag_eq, Rabs_R0 by reflexivity. pose proof (bpow_gt_0 radix2 (-53)). unfold uu. lra. Qed.
Lemma cnt_add x y v w k j : (0 <= k)%Z -> (0 <= j)%Z -> (k + j <= 2 ^ 20)%Z -> cnt x v k -> cnt y w j -> cnt (Bplus mode_NE x y) (v + w) (k + j).
Proof.
  intros Hk Hj HB (Fx & Vx & Ex) (Fy & Vy & Ey). unfold cnt. rewrite plus_IZR.
  assert (VS : Rabs (v + w) <= 2 * (IZR k + IZR j)) by (eapply Rle_trans; [apply Rabs_triang|lra]).
  assert (UP : 0 < uu) by apply bpow_gt_0.
  assert (K0 : 0 <= IZR k) by (apply (IZR_le 0); lia). assert (J0 : 0 <= IZR j) by (apply (IZR_le 0); lia).
  assert (KJ : IZR k + IZR j <= 1048576) by (rewrite <- plus_IZR; apply (IZR_le _ 1048576); lia).
  assert (D : Rabs (B2R x + B2R y - (v + w)) <= 4 * uu * (IZR k * IZR k + IZR j * IZR j)).
  { replace (B2R x + B2R y - (v + w)) with ((B2R x - v) + (B2R y - w)) by ring. eapply Rle_trans; [apply Rabs_triang|]. lra. }
  assert (SQ : IZR k * IZR k + IZR j * IZR j <= 1048576 * 1048576) by nra.
  assert (D1 : Rabs (B2R x + B2R y - (v + w)) <= 1) by (rewrite uu_val in D; lra).
  set (z := B2R x + B2R y) in *.
  assert (Z : Rabs z <= 2 * (IZR k + IZR j) + 1). { replace z with ((v + w) + (z - (v + w))) by ring. eapply Rle_trans; [apply Rabs_triang|]. lra. }
  assert (RB : Rabs (rnd z) < big).
  { apply (bpow_1000_big _ 30 ltac:(lia)). apply rnd_abs_bpow; [lia|]. change (bpow radix2 30) with 1073741824. lra. }
  destruct (Bplus_fin x y Fx Fy RB) as [F E]. split; [exact F|]. split; [exact VS|]. rewrite E. fold z.
  destruct (Z.eq_dec k 0) as [->|NK].
  { rewrite Rmult_0_r in Vx. assert (v = 0) as -> by (apply Rabs_le_inv in Vx; lra).
    assert (X0 : B2R x = 0) by (apply Rabs_le_inv in Ex; lra). unfold z. rewrite X0, !Rplus_0_l, rnd_id by apply generic_format_B2R. lra. }
  destruct (Z.eq_dec j 0) as [->|NJ].
  { rewrite Rmult_0_r in Vy. assert (w = 0) as -> by (apply Rabs_le_inv in Vy; lra).
    assert (X0 : B2R y = 0) by (apply Rabs_le_inv in Ey; lra). unfold z. rewrite X0, !Rplus_0_r, rnd_id by apply generic_format_B2R. lra. }
  assert (K1 : 1 <= IZR k) by (apply (IZR_le 1); lia). assert (J1 : 1 <= IZR j) by (apply (IZR_le 1); lia).
  replace (rnd z - (v + w)) with ((rnd z - z) + (z - (v + w))) by ring. eapply Rle_trans; [apply Rabs_triang|].
  pose proof (rnd_rel1 z) as RZ.
  assert (P : Rabs z + 1 <= 8 * (IZR k * IZR j)) by nra.
  assert (uu * (Rabs z + 1) <= uu * (8 * (IZR k * IZR j))) by (apply Rmult_le_compat_l; lra).
  replace (4 * uu * ((IZR k + IZR j) * (IZR k + IZR j))) with (uu * (8 * (IZR k * IZR j)) + 4 * uu * (IZR k * IZR k + IZR j * IZR j)) by ring. lra.
Qed.

(** Sequential sum. *)
Lemma fold_cnt (l : list f64) : forall acc v k, Forall similarity_like l -> (0 <= k)%Z -> (k + zlen l <= 2 ^ 20)%Z -> cnt acc v k ->
  cnt (fold_left (Bplus mode_NE) l acc) (v + Rsum (map (fun x : f64 => B2R x) l)) (k + zlen l).
Proof.
  induction l as [|x l IH]; intros acc v k HF Hk Hl HA.
  { cbn [map fold_left Rsum fold_right]. change (zlen (@nil f64)) with 0%Z. rewrite Z.add_0_r, Rplus_0_r. exact HA. }
  inversion HF; subst. rewrite zlen_cons in *. pose proof (zlen_nonneg l). cbn [map fold_left]. rewrite Rsum_cons.
  replace (v + (B2R x + Rsum (map (fun x0 : f64 => B2R x0) l))) with ((v + B2R x) + Rsum (map (fun x0 : f64 => B2R x0) l)) by ring.
  replace (k + (zlen l + 1))%Z with ((k + 1) + zlen l)%Z by lia.
  apply IH; auto; try lia. apply cnt_add; try lia; auto. apply cnt_1. assumption.
Qed.

(** Eightfold unrolled sum. *)
Section Unrolled.
Variable lm : Libm.
Let N := F64 lm.
Definition p8 (A : Type) : Type := (A * A * A * A * A * A * A * A)%type.
Definition cnt8 (p : p8 f64) (v : p8 R) (k : Z) : Prop :=
  let '(p0,p1,p2,p3,p4,p5,p6,p7) := p in let '(v0,v1,v2,v3,v4,v5,v6,v7) := v in
  cnt p0 v0 k /\ cnt p1 v1 k /\ cnt p2 v2 k /\ cnt p3 v3 k /\ cnt p4 v4 k /\ cnt p5 v5 k /\ cnt p6 v6 k /\ cnt p7 v7 k.
Definition tot8 (v : p8 R) : R := let '(v0,v1,v2,v3,v4,v5,v6,v7) := v in v0 + v1 + v2 + v3 + v4 + v5 + v6 + v7.
Lemma unroll_cnt fuel : forall (p : p8 f64) v k (l : list f64), Forall similarity_like l -> (0 <= k)%Z -> (8 * k + zlen l <= 2 ^ 20)%Z -> cnt8 p v k ->
  exists v' k', (0 <= k')%Z /\ cnt8 (fst (unroll8 (N:=N) fuel p l)) v' k' /\ Forall similarity_like (snd (unroll8 (N:=N) fuel p l)) /\
    (8 * k' + zlen (snd (unroll8 (N:=N) fuel p l)) = 8 * k + zlen l)%Z /\
    tot8 v' + Rsum (map (fun x : f64 => B2R x) (snd (unroll8 (N:=N) fuel p l))) = tot8 v + Rsum (map (fun x : f64 => B2R x) l).
Proof.
  induction fuel as [|f IH]; intros p v k l HF Hk Hl HP; cbn [unroll8].
  { exists v, k. cbn [fst snd]. auto. }
  assert (STOP : exists v' k', (0 <= k')%Z /\ cnt8 (fst (p, l)) v' k' /\ Forall similarity_like (snd (p, l)) /\ (8 * k' + zlen (snd (p, l)) = 8 * k + zlen l)%Z /\
    tot8 v' + Rsum (map (fun x : f64 => B2R x) (snd (p, l))) = tot8 v + Rsum (map (fun x : f64 => B2R x) l)) by (exists v, k; cbn [fst snd]; auto).
  do 8 (destruct l as [|? l]; [exact STOP|]). clear STOP.
  destruct p as [[[[[[[p0 p1] p2] p3] p4] p5] p6] p7]. destruct v as [[[[[[[v0 v1] v2] v3] v4] v5] v6] v7].
  cbn [cnt8] in HP. destruct HP as (P0 & P1 & P2 & P3 & P4 & P5 & P6 & P7).
  repeat match goal with H : Forall similarity_like (_ :: _) |- _ => inversion H; clear H; subst end.
  rewrite !zlen_cons in Hl. pose proof (zlen_nonneg l).
  match goal with |- context [unroll8 f ?q l] => specialize (IH q (v0 + B2R f0, v1 + B2R f1, v2 + B2R f2, v3 + B2R f3, v4 + B2R f4, v5 + B2R f5, v6 + B2R f6, v7 + B2R f7) (k + 1)%Z l) end.
  destruct IH as (v' & k' & A & B & C & D & E); auto; try lia.
  { cbn [cnt8]. do 7 (split; [apply cnt_add; [lia|lia|lia|assumption|apply cnt_1; assumption]|]). apply cnt_add; [lia|lia|lia|assumption|apply cnt_1; assumption]. }
  exists v', k'. split; [exact A|]. split; [exact B|]. split; [exact C|]. split; [rewrite !zlen_cons; rewrite D; lia|].
  rewrite E. cbn [map]. rewrite !Rsum_cons. unfold tot8. ring.
Qed.
Lemma nd_sum_cnt (l : list f64) : Forall similarity_like l -> (zlen l <= 2 ^ 20)%Z -> cnt (nd_sum (N:=N) l) (Rsum (map (fun x : f64 => B2R x) l)) (zlen l).
Proof.
  intros HF Hl. unfold nd_sum.
  pose proof (unroll_cnt (List.length l) (f64_ofZ 0, f64_ofZ 0, f64_ofZ 0, f64_ofZ 0, f64_ofZ 0, f64_ofZ 0, f64_ofZ 0, f64_ofZ 0) (0, 0, 0, 0, 0, 0, 0, 0) 0 l HF ltac:(lia) ltac:(lia)) as U.
  change (nofZ N 0) with (f64_ofZ 0).
  destruct U as (v & k & Hk & C8 & FR & LR & SR). { pose proof cnt_0. cbn [cnt8]. tauto. }
  destruct (unroll8 _ _ _) as [p rest]. cbn [fst snd] in *. destruct p as [[[[[[[p0 p1] p2] p3] p4] p5] p6] p7]. destruct v as [[[[[[[v0 v1] v2] v3] v4] v5] v6] v7].
  cbn [cnt8] in C8. destruct C8 as (P0 & P1 & P2 & P3 & P4 & P5 & P6 & P7). change (num N) with f64 in *. pose proof (zlen_nonneg rest).
  change (nadd N) with (Bplus mode_NE). cbn [tot8] in SR.
  replace (Rsum (map (fun x : f64 => B2R x) l)) with ((0 + (v0 + v4) + (v1 + v5) + (v2 + v6) + (v3 + v7)) + Rsum (map (fun x : f64 => B2R x) rest)) by lra.
  replace (zlen l) with ((0 + (k + k) + (k + k) + (k + k) + (k + k)) + zlen rest)%Z by lia.
  apply fold_cnt; auto; try lia. repeat (apply cnt_add; try lia; auto). apply cnt_0.
Qed.
End Unrolled.

(** ** Means *)
Lemma cnt_mean x v n : (1 <= n <= 2 ^ 20)%Z -> cnt x v n -> ap (Bdiv mode_NE x (f64_ofZ n)) (v / IZR n) (uu * (4 * IZR n + 4)) /\ Rabs (v / IZR n) <= 2.
Proof.
  intros Hn (F & V & E). assert (N1 : 1 <= IZR n <= 1048576) by (split; [apply (IZR_le 1)|apply (IZR_le _ 1048576)]; lia).
  assert (UP : 0 < uu) by apply bpow_gt_0. assert (I0 : 0 < / IZR n) by (apply Rinv_0_lt_compat; lra).
  assert (VM : Rabs (v / IZR n) <= 2).
  { unfold Rdiv. rewrite Rabs_mult, (Rabs_pos_eq (/ IZR n)) by lra. apply Rmult_le_reg_r with (IZR n); [lra|]. rewrite Rmult_assoc, Rinv_l, Rmult_1_r by lra. lra. }
  split; [|exact VM].
  destruct (ofZ_exact n ltac:(lia)) as [FN EN].
  assert (D : Rabs (B2R x / IZR n - v / IZR n) <= 4 * uu * IZR n).
  { replace (B2R x / IZR n - v / IZR n) with ((B2R x - v) * / IZR n) by (unfold Rdiv; ring). rewrite Rabs_mult, (Rabs_pos_eq (/ IZR n)) by lra.
    apply Rmult_le_reg_r with (IZR n); [lra|]. rewrite Rmult_assoc, Rinv_l, Rmult_1_r by lra. nra. }
  assert (D1 : 4 * uu * IZR n <= / 1024) by (rewrite uu_val; lra).
  set (z := B2R x / IZR n) in *.
  assert (Z : Rabs z <= 2 + / 1024). { replace z with (v / IZR n + (z - v / IZR n)) by ring. eapply Rle_trans; [apply Rabs_triang|]. lra. }
  assert (RB : Rabs (rnd z) < big). { apply (bpow_1000_big _ 2 ltac:(lia)). apply rnd_abs_bpow; [lia|]. change (bpow radix2 2) with 4. lra. }
  destruct (Bdiv_fin x (f64_ofZ n) F FN ltac:(rewrite EN; lra) ltac:(rewrite EN; exact RB)) as [FD ED]. split; [exact FD|]. rewrite ED, EN. fold z.
  replace (rnd z - v / IZR n) with ((rnd z - z) + (z - v / IZR n)) by ring. eapply Rle_trans; [apply Rabs_triang|]. pose proof (rnd_rel1 z). nra.
Qed.
Lemma seq_mean_ap (l : list f64) : Forall similarity_like l -> (1 <= zlen l <= 2 ^ 20)%Z ->
  ap (mean_f64 l) (mean_R (map (fun x : f64 => B2R x) l)) (uu * (4 * IZR (zlen l) + 4)) /\ Rabs (mean_R (map (fun x : f64 => B2R x) l)) <= 2.
Proof.
  intros HF Hl. unfold mean_f64, mean_R. replace (zlen (map (fun x : f64 => B2R x) l)) with (zlen l) by (unfold zlen; rewrite map_length; reflexivity).
  apply cnt_mean; [lia|]. pose proof (fold_cnt l (f64_ofZ 0) 0 0 HF ltac:(lia) ltac:(lia) cnt_0) as H. rewrite Rplus_0_l in H. exact H.
Qed.
Lemma nd_mean_ap lm (l : list f64) : Forall similarity_like l -> (1 <= zlen l <= 2 ^ 20)%Z ->
  ap (Bdiv mode_NE (nd_sum (N:=F64 lm) l) (f64_ofZ (zlen l))) (mean_R (map (fun x : f64 => B2R x) l)) (uu * (4 * IZR (zlen l) + 4)).
Proof.
  intros HF Hl. unfold mean_R. replace (zlen (map (fun x : f64 => B2R x) l)) with (zlen l) by (unfold zlen; rewrite map_length; reflexivity).
  apply cnt_mean; [lia|]. apply nd_sum_cnt; [exact HF|lia].
Qed.

(** ** The curve *)
Lemma lit_ap m k q j : (Z.abs m <= 2 ^ 53)%Z -> (0 <= k <= 15)%Z -> (0 <= j <= 900)%Z -> IZR m / IZR (10 ^ k) = q -> Rabs q <= bpow radix2 j -> ap (f64_lit m k) q (bpow radix2 (j - 53)).
Proof.
  intros H1 H2 Hj E Hq. destruct (lit_fin m k H1 H2) as [F EB]. split; [exact F|]. rewrite EB, E. apply (rnd_err q j); [lia|exact Hq].
Qed.
Lemma exp6 : exp 6 <= 729.
Proof.
  replace 6 with (1 + 1 + 1 + 1 + 1 + 1) by ring. rewrite !exp_plus. pose proof exp_le_3 as H. pose proof (exp_pos 1) as P.
  assert (exp 1 * exp 1 <= 9) by nra. assert (0 < exp 1 * exp 1) by nra. replace (exp 1 * exp 1 * exp 1 * exp 1 * exp 1 * exp 1) with ((exp 1 * exp 1) * (exp 1 * exp 1) * (exp 1 * exp 1)) by ring. set (s := exp 1 * exp 1) in *. assert (s * s <= 81) by nra. assert (0 < s * s) by nra. nra.
Qed.
Lemma curve_ap lm (scaled : bool) (x : f64) v : exp_close lm -> ap x v (bpow radix2 (-39)) -> Rabs v <= 2.001 ->
  ap (speech_curve_f64 lm scaled x) (speech_curve scaled v) (bpow radix2 (-24)).
Proof.
  intros HE HX HV. unfold speech_curve_f64, speech_curve.
  pose proof (lit_ap 11559455 7 1.1559455 1 ltac:(lia) ltac:(lia) ltac:(lia) ltac:(cbn; lra) ltac:(rewrite Rabs_pos_eq by lra; cbn; lra)) as LA.
  pose proof (lit_ap 46851153 7 4.6851153 3 ltac:(lia) ltac:(lia) ltac:(lia) ltac:(cbn; lra) ltac:(rewrite Rabs_pos_eq by lra; cbn; lra)) as LB.
  pose proof (lit_ap 7655232 7 0.7655232 0 ltac:(lia) ltac:(lia) ltac:(lia) ltac:(cbn; lra) ltac:(rewrite Rabs_pos_eq by lra; cbn; lra)) as LC.
  assert (LS : ap (if scaled then f64_lit 12031409 7 else f64_ofZ 1) (if scaled then 1.2031409 else 1) (bpow radix2 (-52))).
  { destruct scaled; [apply (lit_ap 12031409 7 1.2031409 1); try lia; [cbn; lra|rewrite Rabs_pos_eq by lra; cbn; lra]|].
    split; [apply ofZ_fin; lia|]. rewrite ofZ_B2R by lia. rewrite Rminus_diag_eq, Rabs_R0 by reflexivity. apply bpow_ge_0. }
  assert (B39 : bpow radix2 (-39) = / 549755813888) by (apply (bpn 39); reflexivity || lia).
  assert (B52 : bpow radix2 (-52) = / 4503599627370496) by (apply (bpn 52); reflexivity || lia).
  assert (B50 : bpow radix2 (-50) = / 1125899906842624) by (apply (bpn 50); reflexivity || lia).
  assert (B53 : bpow radix2 (-53) = / 9007199254740992) by (apply (bpn 53); reflexivity || lia).
  assert (B24 : bpow radix2 (-24) = / 16777216) by (apply (bpn 24); reflexivity || lia).
  assert (B40 : bpow radix2 (-40) = / 1099511627776) by (apply (bpn 40); reflexivity || lia).
  pose proof (ap_minus x _ v 0.7655232 _ _ 2 ltac:(lia) HX LC) as A1.
  match type of A1 with ?P -> _ => assert (Q : P); [|specialize (A1 Q); clear Q] end.
  { rewrite (Rabs_pos_eq 0.7655232) by lra. change (0 - 53)%Z with (-53)%Z. rewrite B39, B53. change (bpow radix2 2) with 4. lra. }
  change (0 - 53)%Z with (-53)%Z in A1. change (2 - 53)%Z with (-51)%Z in A1.
  assert (B51 : bpow radix2 (-51) = / 2251799813685248) by (apply (bpn 51); reflexivity || lia).
  apply (ap_weaken _ _ _ (2 * / 549755813888 - / 549755813888 * 63 / 64)) in A1; [|rewrite B39, B53, B51; lra].
  change (3 - 53)%Z with (-50)%Z in LB. rewrite B50 in LB.
  assert (VD : Rabs (v - 0.7655232) <= 2.8) by (apply Rabs_le_inv in HV; apply Rabs_le; lra).
  pose proof (ap_mult _ _ _ _ _ _ 4.6851153 2.8 4 ltac:(lia) LB A1 ltac:(rewrite Rabs_pos_eq by lra; lra) VD) as A2.
  match type of A2 with ?P -> _ => assert (Q : P); [|specialize (A2 Q); clear Q] end.
  { change (bpow radix2 4) with 16. lra. }
  change (4 - 53)%Z with (-49)%Z in A2. assert (B49 : bpow radix2 (-49) = / 562949953421312) by (apply (bpn 49); reflexivity || lia).
  apply (ap_weaken _ _ _ (6 * / 549755813888)) in A2; [|rewrite B49; lra].
  set (y := Bmult mode_NE _ (Bminus mode_NE x _)) in *. set (t := 4.6851153 * (v - 0.7655232)) in *.
  assert (T : Rabs t <= 13.2). { unfold t. rewrite Rabs_mult, (Rabs_pos_eq 4.6851153) by lra. lra. }
  assert (T6 : t <= 6) by (unfold t; apply Rabs_le_inv in HV; lra).
  destruct A2 as [Fy Ey].
  assert (Y : Rabs (B2R y) <= 16). { replace (B2R y) with (t + (B2R y - t)) by ring. eapply Rle_trans; [apply Rabs_triang|]. lra. }
  destruct (HE y Fy Y) as [Fe Ee]. rewrite B40 in Ee.
  assert (ET : 0 < exp t <= 729). { split; [apply exp_pos|]. eapply Rle_trans; [|exact exp6]. destruct (Rle_lt_or_eq_dec _ _ T6) as [K|K]; [left; apply exp_increasing; exact K|rewrite K; lra]. }
  assert (NE : Rabs (exp (B2R y) - exp t) <= exp t * (12 * / 549755813888)).
  { replace (exp (B2R y)) with (exp t * exp (B2R y - t)) by (rewrite <- exp_plus; f_equal; ring).
    replace (exp t * exp (B2R y - t) - exp t) with (exp t * (exp (B2R y - t) - 1)) by ring. rewrite Rabs_mult, (Rabs_pos_eq (exp t)) by lra.
    apply Rmult_le_compat_l; [lra|]. eapply Rle_trans; [apply exp_near; lra|]. lra. }
  assert (A3 : ap (lm_exp lm y) (exp t) (13 * 729 * / 549755813888)).
  { split; [exact Fe|]. replace (B2R (lm_exp lm y) - exp t) with ((B2R (lm_exp lm y) - exp (B2R y)) + (exp (B2R y) - exp t)) by ring. eapply Rle_trans; [apply Rabs_triang|].
    assert (exp (B2R y) <= 2 * exp t) by (apply Rabs_le_inv in NE; lra). lra. }
  change (1 - 53)%Z with (-52)%Z in LA. rewrite B52 in LA, LS.
  pose proof (ap_plus _ _ _ _ _ _ 10 ltac:(lia) LA A3) as A4.
  match type of A4 with ?P -> _ => assert (Q : P); [|specialize (A4 Q); clear Q] end.
  { rewrite (Rabs_pos_eq 1.1559455), (Rabs_pos_eq (exp t)) by lra. change (bpow radix2 10) with 1024. lra. }
  change (10 - 53)%Z with (-43)%Z in A4. assert (B43 : bpow radix2 (-43) = / 8796093022208) by (apply (bpn 43); reflexivity || lia).
  apply (ap_weaken _ _ _ (14 * 729 * / 549755813888)) in A4; [|rewrite B43; lra].
  pose proof (ap_mult _ _ _ _ _ _ 731 1.2031409 10 ltac:(lia) A4 LS) as A5.
  match type of A5 with ?P -> _ => assert (Q : P); [|specialize (A5 Q); clear Q] end.
  { rewrite Rabs_pos_eq by lra. lra. }
  match type of A5 with ?P -> _ => assert (Q : P); [|specialize (A5 Q); clear Q] end.
  { destruct scaled; rewrite Rabs_pos_eq; lra. }
  match type of A5 with ?P -> _ => assert (Q : P); [|specialize (A5 Q); clear Q] end.
  { change (bpow radix2 10) with 1024. lra. }
  change (10 - 53)%Z with (-43)%Z in A5. eapply ap_weaken; [exact A5|]. rewrite B43, B24. lra.
Qed.

(** ** Results *)
Lemma averages_f64 pf lm nb files (m m' : Manager (F64 lm)) a b r : run pf nb files m a b = (m', Ok r) ->
  (1 <= nb <= 1024)%nat -> (zlen (patch_sims r) <= 2 ^ 20)%Z ->
  Forall (fun p : PatchSim (F64 lm) => Forall similarity_like (freq_band_means p)) (patch_sims r) ->
  (forall k d, (k < nb)%nat -> is_finite (nth k (fvnsim r) d : f64) = true /\
     Rabs (B2R (nth k (fvnsim r) d : f64) - mean_R (map (fun p : PatchSim (F64 lm) => B2R (nth k (freq_band_means p) d : f64)) (patch_sims r))) <= bpow radix2 (-30)).
Proof.
  intros H Hnb Hp HF k d Hk. pose proof (C38_run _ _ _ _ _ _ _ _ H) as (_ & _ & A & _). pose proof (C39_shape _ _ _ _ _ _ _ _ H) as (_ & _ & _ & _ & NE & SH).
  rewrite (A k d Hk).
  set (l := map (fun p : PatchSim (F64 lm) => nth k (freq_band_means p) d : f64) (patch_sims r)).
  assert (L : zlen l = zlen (patch_sims r)) by (unfold zlen, l; rewrite map_length; reflexivity).
  assert (L1 : (1 <= zlen l)%Z). { rewrite L. destruct (patch_sims r); [congruence|]. rewrite zlen_cons. pose proof (zlen_nonneg l0). lia. }
  assert (FL : Forall similarity_like l).
  { unfold l. rewrite Forall_map. rewrite Forall_forall in *. intros p Hp'. specialize (HF p Hp'). specialize (SH p Hp'). rewrite Forall_forall in HF. apply HF. apply nth_In. destruct SH as (-> & _). exact Hk. }
  destruct (seq_mean_ap l FL ltac:(lia)) as [[F E] _]. unfold mean_f64 in F, E. rewrite L in F, E.
  split; [exact F|]. unfold l in E at 2. rewrite map_map in E. eapply Rle_trans; [exact E|].
  assert (B : IZR (zlen (patch_sims r)) <= 1048576) by (apply (IZR_le _ 1048576); lia). rewrite uu_val.
  assert (B30 : bpow radix2 (-30) = / 1073741824) by (apply (bpn 30); reflexivity || lia). rewrite B30. lra.
Qed.
Lemma overall_f64 pf lm nb files (m m' : Manager (F64 lm)) a b r : run pf nb files m a b = (m', Ok r) ->
  (1 <= nb <= 1024)%nat -> Forall similarity_like (fvnsim r) ->
  ap (vnsim r : f64) (mean_R (map (fun x : f64 => B2R x) (fvnsim r))) (bpow radix2 (-40)) /\
  ap (mean_f64 (fvnsim r)) (mean_R (map (fun x : f64 => B2R x) (fvnsim r))) (bpow radix2 (-40)) /\ Rabs (mean_R (map (fun x : f64 => B2R x) (fvnsim r))) <= 2.
Proof.
  intros H Hnb HF. pose proof (C38_run _ _ _ _ _ _ _ _ H) as (LN & _ & _ & _ & V).
  assert (L : zlen (fvnsim r) = Z.of_nat nb) by (unfold zlen; rewrite LN; reflexivity).
  assert (B : uu * (4 * IZR (zlen (fvnsim r)) + 4) <= bpow radix2 (-40)).
  { rewrite L, bm40, uu_val. assert (IZR (Z.of_nat nb) <= 1024) by (apply (IZR_le _ 1024); lia). lra. }
  destruct (seq_mean_ap (fvnsim r) HF) as [A C]; [change (num (F64 lm)) with f64 in *; lia|].
  pose proof (nd_mean_ap lm (fvnsim r) HF) as D.
  match type of D with ?P -> _ => assert (Q : P) by (change (num (F64 lm)) with f64 in *; lia); specialize (D Q) end.
  split; [|split; [eapply ap_weaken; [exact A|exact B]|exact C]].
  eapply ap_weaken; [|exact B]. rewrite V, <- L. exact D.
Qed.
Lemma score_f64 pf lm nb u w files (m m' : Manager (F64 lm)) calls a b r : exp_close lm -> new_manager nb (Wideband u) w = Ok m ->
  run pf nb files (after_calls pf nb m calls) a b = (m', Ok r) -> (1 <= nb <= 1024)%nat -> Forall similarity_like (fvnsim r) ->
  is_finite (moslqo r : f64) = true /\ is_finite (vnsim r : f64) = true /\
  if Bltb (vnsim r) (f64_lit 15 2) then B2R (moslqo r : f64) = 1
  else Rabs (B2R (moslqo r : f64) - wideband_score (negb u) (B2R (vnsim r : f64))) <= bpow radix2 (-24).
Proof.
  intros HE Hm H Hnb HF. destruct (overall_f64 _ _ _ _ _ _ _ _ _ H Hnb HF) as ((FV & EV) & (FM & EM) & B2).
  destruct (C02_all _ _ _ _ _ _ _ _ _ _ _ _ Hm H) as [LO HI].
  destruct (Bltb (vnsim r) (f64_lit 15 2)).
  { rewrite (LO eq_refl). split; [apply ofZ_fin; lia|]. split; [exact FV|]. apply ofZ_B2R. lia. }
  destruct (HI eq_refl) as (q & Hq & ->). cbn [mapped_raw] in Hq. subst q.
  assert (B40 : bpow radix2 (-40) = / 1099511627776) by apply bm40.
  assert (B39 : bpow radix2 (-39) = / 549755813888) by (apply (bpn 39); reflexivity || lia).
  destruct (curve_ap lm (negb u) (mean_f64 (fvnsim r)) (B2R (vnsim r : f64)) HE) as [FC EC].
  { split; [exact FM|]. rewrite B39. rewrite B40 in *. apply Rabs_le_inv in EV, EM. apply Rabs_le. lra. }
  { rewrite B40 in *. apply Rabs_le_inv in EV, B2. apply Rabs_le. lra. }
  assert (NN : is_nan (speech_curve_f64 lm (negb u) (mean_f64 (fvnsim r))) = false) by (revert FC; clear; destruct (speech_curve_f64 _ _ _); cbn; congruence).
  rewrite <- (clamp_spec lm). destruct (clamp_ext lm _ NN) as [F E]. split; [exact F|]. split; [exact FV|].
  rewrite E, (ext_finite _ FC). unfold wideband_score.
  apply Rabs_le_inv in EC. apply Rabs_le. set (p := B2R _) in *. set (q := speech_curve _ _) in *.
  unfold Rmin, Rmax. destruct (Rle_dec 1 p), (Rle_dec 1 q); repeat destruct (Rle_dec _ _); pose proof (bpow_gt_0 radix2 (-24)); lra.
Qed.
Lemma map_f64 lm (scaled : bool) (v : list f64) : exp_close lm -> (1 <= zlen v <= 1024)%Z -> Forall similarity_like v ->
  exists q : f64, predict_quality (N:=F64 lm) (SpeechMapper scaled) v = Ok q /\ is_finite q = true /\
    Rabs (B2R q - wideband_score scaled (mean_R (map (fun x : f64 => B2R x) v))) <= bpow radix2 (-24).
Proof.
  intros HE Hl HF. eexists. split; [reflexivity|].
  destruct (seq_mean_ap v HF ltac:(lia)) as [[FM EM] B2].
  assert (B39 : bpow radix2 (-39) = / 549755813888) by (apply (bpn 39); reflexivity || lia).
  assert (BL : IZR (zlen v) <= 1024) by (apply (IZR_le _ 1024); lia).
  destruct (curve_ap lm scaled (mean_f64 v) (mean_R (map (fun x : f64 => B2R x) v)) HE) as [FC EC].
  { split; [exact FM|]. eapply Rle_trans; [exact EM|]. rewrite B39, uu_val. lra. }
  { lra. }
  assert (NN : is_nan (speech_curve_f64 lm scaled (mean_f64 v)) = false) by (revert FC; clear; destruct (speech_curve_f64 _ _ _); cbn; congruence).
  change (speech_predict_quality (N:=F64 lm) scaled v) with (nclamp (N:=F64 lm) (speech_curve_f64 lm scaled (mean_f64 v)) (f64_ofZ 1) (f64_ofZ 5)).
  destruct (clamp_ext lm _ NN) as [F E]. split; [exact F|].
  rewrite E, (ext_finite _ FC). unfold wideband_score.
  apply Rabs_le_inv in EC. apply Rabs_le. set (p := B2R _) in *. set (q := speech_curve _ _) in *.
  unfold Rmin, Rmax. destruct (Rle_dec 1 p), (Rle_dec 1 q); repeat destruct (Rle_dec _ _); pose proof (bpow_gt_0 radix2 (-24)); lra.
Qed.
Lemma curve_low (scaled : bool) (x : R) : 0.149999 <= x -> (if scaled then 1.4505 else 1.2105 : R) < speech_curve scaled x.
Proof.
  intros H. assert (R0 : 1.2109 < r_raw false x).
  { eapply Rlt_le_trans; [|apply (raw_le false 0.149999 x H)]. pose proof raw_low as L. unfold r_raw in *.
    replace (46851153 / 10000000 * (0.149999 - 7655232 / 10000000)) with (46851153 / 10000000 * (0.15 - 7655232 / 10000000) + - (0.0000046851153)) by lra.
    rewrite exp_plus. set (e := exp (46851153 / 10000000 * (0.15 - 7655232 / 10000000))) in *. pose proof (exp_ineq1_le (- (0.0000046851153))) as E. nra. }
  rewrite curve_raw. destruct scaled; [rewrite raw_scale|]; lra.
Qed.
Lemma gap_hi pf lm nb u w files (m m' : Manager (F64 lm)) calls a b r : exp_close lm -> new_manager nb (Wideband u) w = Ok m ->
  run pf nb files (after_calls pf nb m calls) a b = (m', Ok r) -> (1 <= nb <= 1024)%nat -> Forall similarity_like (fvnsim r) ->
  Bltb (vnsim r) (f64_lit 15 2) = false -> (if u then 1.21 else 1.45) < B2R (moslqo r : f64).
Proof.
  intros HE Hm H Hnb HF L. destruct (score_f64 _ _ _ _ _ _ _ _ _ _ _ _ HE Hm H Hnb HF) as (F & FV & S).
  rewrite L in S.
  destruct (lit_ap 15 2 0.15 0 ltac:(lia) ltac:(lia) ltac:(lia) ltac:(cbn; lra) ltac:(rewrite Rabs_pos_eq by lra; cbn; lra)) as [FL EL].
  assert (G : B2R (f64_lit 15 2) <= B2R (vnsim r : f64)).
  { assert (NF : forall z : f64, is_finite z = true -> is_nan z = false) by (intros [| | |]; cbn; congruence).
    pose proof (Bltb_false _ _ (NF _ FV) (NF _ FL) L) as C. rewrite !ext_finite in C by assumption. exact C. }
  assert (B53 : bpow radix2 (0 - 53) = / 9007199254740992) by (apply (bpn 53); reflexivity || lia). rewrite B53 in EL. apply Rabs_le_inv in EL.
  pose proof (curve_low (negb u) (B2R (vnsim r : f64)) ltac:(lra)) as CL.
  assert (B24 : bpow radix2 (-24) = / 16777216) by (apply (bpn 24); reflexivity || lia). rewrite B24 in S. apply Rabs_le_inv in S.
  assert (W : (if negb u then 1.4505 else 1.2105) <= wideband_score (negb u) (B2R (vnsim r : f64))).
  { unfold wideband_score. apply Rmin_glb; [destruct u; cbn [negb]; lra|]. eapply Rle_trans; [|apply Rmax_r]. lra. }
  destruct u; cbn [negb] in *; lra.
Qed.
Lemma gap_f64 pf lm nb u w files (m m' : Manager (F64 lm)) calls a b r : exp_close lm -> new_manager nb (Wideband u) w = Ok m ->
  run pf nb files (after_calls pf nb m calls) a b = (m', Ok r) -> (1 <= nb <= 1024)%nat -> Forall similarity_like (fvnsim r) ->
  B2R (moslqo r : f64) = 1 \/ (if u then 1.21 else 1.45) < B2R (moslqo r : f64).
Proof.
  intros HE Hm H Hnb HF. destruct (Bltb (vnsim r) (f64_lit 15 2)) eqn:L; [left|right; exact (gap_hi _ _ _ _ _ _ _ _ _ _ _ _ HE Hm H Hnb HF L)].
  destruct (score_f64 _ _ _ _ _ _ _ _ _ _ _ _ HE Hm H Hnb HF) as (_ & _ & S). rewrite L in S. exact S.
Qed.
Lemma top_f64 lm (scaled : bool) (v : list f64) q : exp_close lm -> (1 <= zlen v <= 1024)%Z -> Forall similarity_like v -> mean_R (map (fun x : f64 => B2R x) v) = 1 ->
  predict_quality (N:=F64 lm) (SpeechMapper scaled) v = Ok q -> if scaled then 4.999 < B2R (q : f64) < 5 else 4.1 < B2R (q : f64) < 4.2.
Proof.
  intros HE Hl HF HM HQ. destruct (map_f64 lm scaled v HE Hl HF) as (q' & E & _ & S). rewrite E in HQ. injection HQ as <-. rewrite HM in S.
  assert (B24 : bpow radix2 (-24) = / 16777216) by (apply (bpn 24); reflexivity || lia). rewrite B24 in S. apply Rabs_le_inv in S.
  unfold wideband_score in S. rewrite curve_raw, r_raw_1 in S. pose proof exp_tpt as T. pose proof raw_top as RT. rewrite r_raw_1 in RT.
  destruct scaled; (rewrite Rmax_right, Rmin_right in S; [lra|try rewrite Rmax_right; lra|lra]).
Qed.

(** ** The correctly rounded exponential *)
From Verif Require Import P_Libm.
Lemma true_exp : exp_close lm_true.
Proof.
  intros x F H. cbn [lm_exp lm_true]. apply Rabs_le_inv in H. set (r := exp (B2R x)).
  assert (E16 : exp 16 <= bpow radix2 32).
  { apply Rle_trans with (exp (6 + 6 + 6)); [left; apply exp_increasing; lra|]. rewrite !exp_plus. pose proof exp6 as E6. pose proof (exp_pos 6).
    change (bpow radix2 32) with 4294967296. assert (exp 6 * exp 6 <= 729 * 729) by nra. assert (0 < exp 6 * exp 6) by nra. nra. }
  assert (M1 : r <= exp 16). { unfold r. destruct (Rle_lt_or_eq_dec (B2R x) 16 ltac:(lra)) as [K|K]; [left; apply exp_increasing; exact K|rewrite K; lra]. }
  assert (M2 : / exp 16 <= r). { rewrite <- exp_Ropp. unfold r. destruct (Rle_lt_or_eq_dec (- (16)) (B2R x) ltac:(lra)) as [K|K]; [left; apply exp_increasing; exact K|rewrite K; lra]. }
  assert (MB : bpow radix2 (-32) <= r <= bpow radix2 32).
  { split; [|lra]. eapply Rle_trans; [|exact M2]. change (-32)%Z with (- (32))%Z. rewrite bpow_opp. apply Rinv_le_contravar; [apply exp_pos|exact E16]. }
  assert (P : 0 < r) by apply exp_pos.
  destruct (rl_rnd r r 0 (mid_in (-32) 32 _ ltac:(lia) ltac:(lia) MB) ltac:(lra)) as [A B]; [rewrite Rminus_diag_eq, Rabs_R0 by reflexivity; lra|].
  destruct (toF_ok r A) as [G E]. split; [exact G|]. rewrite E. eapply Rle_trans; [exact B|]. apply Rmult_le_compat_r; [lra|]. rewrite bm40, uu_val. lra.
Qed.
