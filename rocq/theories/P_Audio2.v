(** C08, C16, C37 and C42: loading, time slices and level matching in exact and
    in binary64 arithmetic. *)
From Coq Require Import Reals Lra Psatz.
From Flocq Require Import Core BinarySingleNaN.
From Verif Require Import Base Num M_Audio M_Align M_Selector F64 RNum P_Base P_Mat P_F64 P_R P_Win Spec P_Audio.
Open Scope R_scope.

Lemma gf_FLT x : FLT_format radix2 (-1074) 53 x -> generic_format radix2 fexp64 x.
Proof.
  intros H. apply generic_format_FLT in H. unfold generic_format, scaled_mantissa, Generic_fmt.cexp in *.
  rewrite fexp64_FLT. exact H.
Qed.
Lemma In_firstn {A} (l : list A) n x : In x (firstn n l) -> In x l.
Proof. intros H. rewrite <- (firstn_skipn n l). apply in_or_app; auto. Qed.
Lemma In_skipn {A} (l : list A) n x : In x (skipn n l) -> In x l.
Proof. intros H. rewrite <- (firstn_skipn n l). apply in_or_app; auto. Qed.

Lemma nth_firstn_lt {A} (l : list A) d : forall n k, (k < n)%nat -> nth k (firstn n l) d = nth k l d.
Proof.
  induction l as [|x t IH]; intros [|n] [|k] H; try lia; cbn [firstn nth]; auto. apply IH; lia.
Qed.
Lemma nth_skipn {A} (l : list A) d : forall n k, nth k (skipn n l) d = nth (n + k) l d.
Proof.
  induction l as [|x t IH]; intros [|n] k; cbn [skipn nth Nat.add]; auto. destruct k; auto.
Qed.

Lemma Some_inj {A} (a b : A) : Some a = Some b -> a = b. Proof. congruence. Qed.
Lemma nth_map_seq0 {A} (f : nat -> A) d n k : (k < n)%nat -> nth k (map f (seq 0 n)) d = f k.
Proof.
  intros H. rewrite (nth_indep _ d (f 0%nat)) by (rewrite map_length, seq_length; auto).
  rewrite map_nth, seq_nth by auto. reflexivity.
Qed.
(** ** C08 *)
Definition mixb (k : Z) (x : f64) : Prop :=
  is_finite x = true /\ - (IZR k * (1 + bpow radix2 (-14))) <= B2R x <= IZR k.
Lemma mix_lo_format k : (0 <= k <= 65535)%Z -> generic_format radix2 fexp64 (IZR k * (1 + bpow radix2 (-14))).
Proof.
  intros Hk. replace (IZR k * (1 + bpow radix2 (-14))) with (F2R (Float radix2 (k * 16385) (-14))).
  2:{ unfold F2R; cbn [Fnum Fexp]. rewrite mult_IZR. change (bpow radix2 (-14)) with (/ 16384). lra. }
  apply gf_FLT. exists (Float radix2 (k * 16385) (-14)); [reflexivity| |]; cbn [Fnum Fexp]; [|lia].
  rewrite Z.abs_eq by lia. change (radix2 ^ 53)%Z with 9007199254740992%Z. lia.
Qed.
Lemma mix_big k : (0 <= k <= 65535)%Z -> IZR k * (1 + bpow radix2 (-14)) <= bpow radix2 20.
Proof.
  intros H. change (bpow radix2 (-14)) with (/ 16384). change (bpow radix2 20) with 1048576.
  assert (IZR k <= 65535) by (apply IZR_le; lia). assert (0 <= IZR k) by (apply IZR_le; lia). lra.
Qed.
Lemma mix_round k x : (0 <= k <= 65535)%Z -> - (IZR k * (1 + bpow radix2 (-14))) <= x <= IZR k ->
  - (IZR k * (1 + bpow radix2 (-14))) <= rnd x <= IZR k /\ Rabs (rnd x) < big.
Proof.
  intros Hk [H1 H2]. assert (A : - (IZR k * (1 + bpow radix2 (-14))) <= rnd x <= IZR k).
  { split.
    - rewrite <- (rnd_id (- (IZR k * (1 + bpow radix2 (-14))))); [apply rnd_le; auto|].
      apply generic_format_opp, mix_lo_format; auto.
    - rewrite <- (rnd_IZR k) by lia. apply rnd_le; auto. }
  split; auto. apply (bpow_1000_big _ 20); [lia|]. pose proof (mix_big k Hk).
  assert (IZR k <= IZR k * (1 + bpow radix2 (-14))).
  { assert (0 <= IZR k) by (apply IZR_le; lia). change (bpow radix2 (-14)) with (/ 16384). lra. }
  apply Rabs_le. lra.
Qed.
Lemma mix_add j k x y : (0 <= j)%Z -> (0 <= k)%Z -> (j + k <= 65535)%Z -> mixb j x -> mixb k y -> mixb (j + k) (Bplus mode_NE x y).
Proof.
  intros Hj Hk H [Fx Bx] [Fy By].
  destruct (mix_round (j + k) (B2R x + B2R y)) as [A B]; [lia| |].
  { rewrite plus_IZR. lra. }
  destruct (Bplus_fin x y Fx Fy B) as [F E]. split; auto. rewrite E. auto.
Qed.
Lemma sample_fin v : (-32768 <= v <= 32767)%Z ->
  is_finite (Bdiv mode_NE (f64_ofZ v) (f64_ofZ 32767)) = true /\ B2R (Bdiv mode_NE (f64_ofZ v) (f64_ofZ 32767)) = rnd (IZR v / 32767).
Proof.
  intros H. pose proof (ofZ_fin v ltac:(lia)) as Fv. pose proof (ofZ_B2R v ltac:(lia)) as Ev.
  pose proof (ofZ_fin 32767 ltac:(lia)) as Fc. pose proof (ofZ_B2R 32767 ltac:(lia)) as Ec.
  destruct (Bdiv_fin (f64_ofZ v) (f64_ofZ 32767) Fv Fc) as [F E].
  - rewrite Ec. lra.
  - rewrite Ev, Ec. apply (bpow_1000_big _ 20); [lia|]. apply rnd_abs_bpow; [lia|].
    change (bpow radix2 20) with 1048576. assert (-32768 <= IZR v <= 32767) by (split; apply IZR_le; lia).
    apply Rabs_le. lra.
  - rewrite Ev, Ec in E. auto.
Qed.
Lemma sample_mix v : (-32768 <= v <= 32767)%Z -> mixb 1 (Bdiv mode_NE (f64_ofZ v) (f64_ofZ 32767)).
Proof.
  intros H. destruct (sample_fin v H) as [F E]. split; auto. rewrite E. apply mix_round; [lia|].
  assert (-32768 <= IZR v <= 32767) by (split; apply IZR_le; lia). change (bpow radix2 (-14)) with (/ 16384). lra.
Qed.
Lemma mix_div c x : (1 <= c <= 65535)%Z -> mixb c x -> mixb 1 (Bdiv mode_NE x (f64_ofZ c)).
Proof.
  intros Hc [F B]. pose proof (ofZ_fin c ltac:(lia)) as Fc. pose proof (ofZ_B2R c ltac:(lia)) as Ec.
  assert (P : 0 < IZR c) by (apply IZR_lt; lia).
  destruct (mix_round 1 (B2R x / IZR c)) as [A A']; [lia| |].
  { split.
    - apply (Rmult_le_reg_r (IZR c)); auto. unfold Rdiv. rewrite Rmult_assoc, Rinv_l, Rmult_1_r by lra. lra.
    - apply (Rmult_le_reg_r (IZR c)); auto. unfold Rdiv. rewrite Rmult_assoc, Rinv_l, Rmult_1_r by lra. lra. }
  destruct (Bdiv_fin x (f64_ofZ c) F Fc) as [F' E]; [rewrite Ec; lra|rewrite Ec; auto|].
  rewrite Ec in E. split; auto. rewrite E. auto.
Qed.
Lemma C08_range lm c rate vs n s : (1 <= Z.of_nat c <= 65535)%Z -> List.length vs = (n * c)%nat ->
  Forall (fun v => -32768 <= v <= 32767)%Z vs ->
  load_as_mono (N:=F64 lm) (WavOk (Z.of_nat c) rate 16 (map Some vs)) = Ok s ->
  Forall (fun x : f64 => is_finite x = true /\ - (1 + bpow radix2 (-14)) <= B2R x <= 1) (data_matrix s).
Proof.
  intros Hc L F H. destruct (load_nth c rate vs n s ltac:(lia) L F H) as (L1 & _ & E1). clear H.
  apply Forall_forall. intros x Hx. apply In_nth_error in Hx as [i Hi].
  assert (Hin : (i < n)%nat) by (rewrite <- L1; apply nth_error_Some; intros Q; pose proof (eq_trans (eq_sym Hi) Q); discriminate).
  pose proof (Some_inj _ _ (eq_trans (eq_sym (E1 i Hin)) Hi)) as Q. rewrite <- Q. clear E1 Hi Q.
  set (fr := map (fun v => ndiv (F64 lm) (nofZ (F64 lm) v) (nofZ (F64 lm) 32767)) (firstn c (skipn (i * c) vs))).
  assert (LF : zlen fr = Z.of_nat c).
  { unfold zlen, fr. rewrite map_length, firstn_length, skipn_length, L. nia. }
  assert (M : mixb (Z.of_nat c) (nd_sum fr)).
  { rewrite <- LF. apply (nd_sum_closed (N:=F64 lm) mixb 65535).
    - intros. apply mix_add; auto.
    - split; [reflexivity|]. change (B2R (nofZ (F64 lm) 0)) with (B2R (f64_ofZ 0)). rewrite ofZ_B2R by lia. change (bpow radix2 (-14)) with (/ 16384). lra.
    - unfold fr. apply Forall_forall. intros y Hy. apply in_map_iff in Hy as (v & <- & Hv). apply sample_mix.
      rewrite Forall_forall in F. apply F. apply In_firstn in Hv. apply In_skipn in Hv. auto.
    - rewrite LF. lia. }
  destruct (mix_div _ _ Hc M) as [A B]. split; [exact A|].
  rewrite Rmult_1_l in B. exact B.
Qed.
Lemma firstn1_skipn (vs : list Z) : forall i, (i < List.length vs)%nat -> firstn 1 (skipn (i * 1) vs) = [nth i vs 0%Z].
Proof.
  intros i. rewrite Nat.mul_1_r. revert i. induction vs as [|v t IH]; intros [|i] H; cbn [List.length] in H; try lia; [reflexivity|].
  cbn [skipn nth]. apply IH. lia.
Qed.
Lemma Bplus_0_fin (z x : f64) : is_finite z = true -> B2R z = 0 -> is_finite x = true ->
  is_finite (Bplus mode_NE z x) = true /\ B2R (Bplus mode_NE z x) = B2R x.
Proof.
  intros Fz Ez Fx. assert (E : rnd (B2R z + B2R x) = B2R x) by (rewrite Ez, Rplus_0_l; apply rnd_id, gf_B2R).
  destruct (Bplus_fin z x Fz Fx) as [A B].
  - rewrite E. pose proof (finite_lt_big x). apply Rabs_def1; lra.
  - rewrite E in B. auto.
Qed.
Lemma Bdiv_1_fin (x : f64) : is_finite x = true ->
  is_finite (Bdiv mode_NE x (f64_ofZ 1)) = true /\ B2R (Bdiv mode_NE x (f64_ofZ 1)) = B2R x.
Proof.
  intros Fx. pose proof (ofZ_fin 1 ltac:(lia)) as F1. pose proof (ofZ_B2R 1 ltac:(lia)) as E1.
  assert (E : rnd (B2R x / B2R (f64_ofZ 1)) = B2R x) by (rewrite E1; unfold Rdiv; rewrite Rinv_1, Rmult_1_r; apply rnd_id, gf_B2R).
  destruct (Bdiv_fin x (f64_ofZ 1) Fx F1) as [A B].
  - rewrite E1. lra.
  - rewrite E. pose proof (finite_lt_big x). apply Rabs_def1; lra.
  - rewrite E in B. auto.
Qed.
Lemma C08_mono lm rate vs s : Forall (fun v => -32768 <= v <= 32767)%Z vs ->
  load_as_mono (N:=F64 lm) (WavOk 1 rate 16 (map Some vs)) = Ok s ->
  List.length (data_matrix s) = List.length vs /\
  forall i, (i < List.length vs)%nat -> exists x : f64, nth_error (data_matrix s) i = Some x /\
    is_finite x = true /\ B2R x = rnd (IZR (nth i vs 0%Z) / 32767).
Proof.
  intros F H. change 1%Z with (Z.of_nat 1) in H.
  destruct (load_nth 1 rate vs (List.length vs) s ltac:(lia) ltac:(lia) F H) as (L1 & _ & E1). clear H.
  split; auto. intros i Hi. eexists. split; [exact (E1 i Hi)|]. clear E1. rewrite firstn1_skipn by auto. cbn [map].
  set (v := nth i vs 0%Z). assert (Hv : (-32768 <= v <= 32767)%Z).
  { rewrite Forall_forall in F. apply F. apply nth_In. auto. }
  destruct (sample_fin v Hv) as [F1 E1]. change (nofZ (F64 lm)) with f64_ofZ. change (ndiv (F64 lm)) with (Bdiv (prec_lt_emax_:=Hemax) mode_NE).
  unfold nd_sum. cbn [List.length unroll8 fold_left].
  set (z := nadd (F64 lm) _ _) at 2.
  assert (Fz : is_finite z = true /\ B2R z = 0).
  { unfold z.
    assert (Z0 : is_finite (f64_ofZ 0) = true /\ B2R (f64_ofZ 0) = 0) by (split; [apply ofZ_fin; lia|apply ofZ_B2R; lia]).
    assert (ZZ : forall a b : f64, is_finite a = true /\ B2R a = 0 -> is_finite b = true /\ B2R b = 0 ->
       is_finite (Bplus mode_NE a b) = true /\ B2R (Bplus mode_NE a b) = 0).
    { intros a b [Fa Ea] [Fb Eb]. destruct (Bplus_0_fin a b Fa Ea Fb) as [P Q]. rewrite Q. auto. }
    repeat (apply ZZ; [|repeat apply ZZ; exact Z0]). exact Z0. }
  destruct Fz as [Fz Ez].
  destruct (Bplus_0_fin z _ Fz Ez F1) as [F2 E2].
  destruct (Bdiv_1_fin _ F2) as [F3 E3].
  split; [exact F3|]. etransitivity; [exact E3|]. etransitivity; [exact E2|]. exact E1.
Qed.
Lemma C08_R c rate vs n s i : (1 <= c)%nat -> List.length vs = (n * c)%nat ->
  Forall (fun v => -32768 <= v <= 32767)%Z vs ->
  load_as_mono (N:=RN) (WavOk (Z.of_nat c) rate 16 (map Some vs)) = Ok s -> (i < n)%nat ->
  nth_error (data_matrix s) i = Some (Rsum (map (fun j => IZR (nth (i * c + j) vs 0%Z) / 32767) (seq 0 c)) / INR c).
Proof.
  intros Hc L F H Hi. destruct (load_nth c rate vs n s Hc L F H) as (L1 & _ & E1).
  etransitivity; [exact (E1 i Hi)|]. clear E1 H. f_equal. rewrite R_nd_sum.
  assert (E : firstn c (skipn (i * c) vs) = map (fun j => nth (i * c + j) vs 0%Z) (seq 0 c)).
  { apply (nth_ext _ _ 0%Z 0%Z).
    - rewrite firstn_length, skipn_length, map_length, seq_length. nia.
    - intros k Hk. rewrite firstn_length, skipn_length in Hk.
      rewrite nth_firstn_lt by lia. rewrite nth_skipn.
      rewrite nth_map_seq0 by lia. reflexivity. }
  rewrite E, map_map. rewrite INR_IZR_INZ. reflexivity.
Qed.

(** ** C16 *)
Lemma minus_int_format x n : generic_format radix2 fexp64 x -> (0 <= n)%Z -> IZR n <= x -> x < bpow radix2 53 ->
  generic_format radix2 fexp64 (x - IZR n).
Proof.
  intros G Hn H1 H2. destruct (Req_dec x 0) as [Z0|NZ].
  { assert (IZR n <= 0) by lra. apply le_IZR in H. assert (n = 0%Z) by lia. subst n. rewrite Rminus_0_r. auto. }
  assert (P : 0 < x). { assert (0 <= IZR n) by (apply IZR_le; auto). lra. }
  set (e := Generic_fmt.cexp radix2 fexp64 x). set (m := Ztrunc (scaled_mantissa radix2 fexp64 x)).
  assert (Ex : x = IZR m * bpow radix2 e) by (apply G).
  assert (Mg : (mag radix2 x <= 53)%Z) by (apply mag_le_bpow; auto; rewrite Rabs_pos_eq; lra).
  assert (He : (e <= 0)%Z) by (unfold e, Generic_fmt.cexp; rewrite fexp64_FLT; unfold FLT_exp; lia).
  assert (He2 : (-1074 <= e)%Z) by (unfold e, Generic_fmt.cexp; rewrite fexp64_FLT; unfold FLT_exp; lia).
  assert (Hm : (0 <= m < 2 ^ 53)%Z).
  { split; [apply le_IZR; apply (Rmult_le_reg_r (bpow radix2 e)); [apply bpow_gt_0|]; lra|].
    apply lt_IZR. change (2 ^ 53)%Z with (Zpower radix2 53). rewrite IZR_Zpower by lia.
    apply (Rmult_lt_reg_r (bpow radix2 e)); [apply bpow_gt_0|]. rewrite <- Ex, <- bpow_plus.
    destruct (mag radix2 x) as [mg Hmg]. cbn in Mg. specialize (Hmg NZ). rewrite Rabs_pos_eq in Hmg by lra.
    eapply Rlt_le_trans; [apply Hmg|]. apply bpow_le.
    assert (Generic_fmt.cexp radix2 fexp64 x = fexp64 mg) by (unfold Generic_fmt.cexp; rewrite (mag_unique_pos radix2 x mg); auto; lra).
    unfold e. rewrite H, fexp64_FLT. unfold FLT_exp. lia. }
  apply gf_FLT. exists (Float radix2 (m - n * 2 ^ (- e)) e); cbn [Fnum Fexp]; auto.
  - unfold F2R; cbn [Fnum Fexp]. rewrite minus_IZR, mult_IZR.
    change (2 ^ (- e))%Z with (Zpower radix2 (- e)). rewrite IZR_Zpower by lia.
    rewrite Rmult_minus_distr_r, Rmult_assoc, <- bpow_plus. replace (- e + e)%Z with 0%Z by lia. cbn [bpow]. rewrite <- Ex. ring.
  - assert (0 <= n * 2 ^ (- e))%Z by (apply Z.mul_nonneg_nonneg; [lia|apply Z.pow_nonneg; lia]).
    assert (n * 2 ^ (- e) <= m)%Z.
    { apply le_IZR. rewrite mult_IZR. change (2 ^ (- e))%Z with (Zpower radix2 (- e)). rewrite IZR_Zpower by lia.
      apply (Rmult_le_reg_r (bpow radix2 e)); [apply bpow_gt_0|]. rewrite Rmult_assoc, <- bpow_plus.
      replace (- e + e)%Z with 0%Z by lia. cbn [bpow]. lra. }
    rewrite Z.abs_eq by lia. change (radix2 ^ 53)%Z with (2 ^ 53)%Z. lia.
Qed.
Lemma Ztrunc_minus_int x n : (0 <= n)%Z -> IZR n <= x -> Ztrunc (x - IZR n) = (Ztrunc x - n)%Z.
Proof.
  intros Hn H. assert (0 <= IZR n) by (apply IZR_le; auto).
  rewrite !Ztrunc_floor by lra. apply Zfloor_imp. rewrite plus_IZR, minus_IZR.
  pose proof (Zfloor_lb x). pose proof (Zfloor_ub x). lra.
Qed.
Lemma nth_error_repeat_lt {A} (x : A) n k : (k < n)%nat -> nth_error (repeat x n) k = Some x.
Proof. revert k. induction n as [|n IH]; intros [|k] H; cbn [repeat nth_error]; try lia; auto. apply IH; lia. Qed.
Lemma window_padded {A} (zero : A) (d : list A) i j : (0 <= i <= j)%Z -> (i <= zlen d)%Z ->
  window_of zero d i j (firstn (Z.to_nat (Z.min j (zlen d) - i)) (skipn (Z.to_nat i) d) ++ repeat zero (Z.to_nat (j - zlen d))).
Proof.
  intros Hi Hd. pose proof (zlen_nonneg d) as L0.
  assert (LB : List.length (firstn (Z.to_nat (Z.min j (zlen d) - i)) (skipn (Z.to_nat i) d)) = Z.to_nat (Z.min j (zlen d) - i)).
  { rewrite firstn_length, skipn_length. unfold zlen in *. lia. }
  split.
  - unfold zlen in *. rewrite app_length, LB, repeat_length. lia.
  - intros k Hk. destruct (Z_lt_dec k (Z.min j (zlen d) - i)) as [Hlt|Hge].
    + rewrite nth_error_app1 by (rewrite LB; lia).
      rewrite (nth_error_nth' _ zero) by (rewrite LB; lia). f_equal. rewrite nth_firstn_lt by lia. rewrite nth_skipn.
      f_equal. lia.
    + rewrite nth_error_app2 by (rewrite LB; lia). rewrite LB.
      rewrite nth_error_repeat_lt by lia. f_equal. symmetry. apply nth_overflow. unfold zlen in *. lia.
Qed.
Section C16.
Variable lm : Libm.
Notation N := (F64 lm).
Lemma prod_fin (t : f64) rate : (0 <= rate <= 2 ^ 53)%Z -> is_finite t = true -> Rabs (rnd (B2R t * IZR rate)) < bpow radix2 53 ->
  is_finite (Bmult mode_NE t (f64_ofZ rate)) = true /\ B2R (Bmult mode_NE t (f64_ofZ rate)) = rnd (B2R t * IZR rate).
Proof.
  intros Hr Ft H. pose proof (ofZ_fin rate ltac:(lia)) as Fr. pose proof (ofZ_B2R rate ltac:(lia)) as Er.
  rewrite <- Er in *. apply Bmult_fin; auto. eapply Rlt_trans; [exact H|]. apply bpow_lt. lia.
Qed.
Lemma usize_fin (x : f64) : is_finite x = true -> B2R x < bpow radix2 53 -> as_usize (N:=N) x = Z.max 0 (Ztrunc (B2R x)).
Proof.
  intros F H. unfold as_usize. etransitivity; [apply (cast_fin 0 (2 ^ 64 - 1) x F)|].
  assert (Ztrunc (B2R x) < 2 ^ 53 + 1)%Z; [|lia].
  apply Z.lt_succ_r. rewrite <- (Ztrunc_IZR (2 ^ 53)). apply Ztrunc_le.
  change (2 ^ 53)%Z with (Zpower radix2 53). rewrite IZR_Zpower by lia. lra.
Qed.
Lemma Ztrunc_neg_le0 x : x <= 0 -> (Ztrunc x <= 0)%Z.
Proof. intros H. apply Z.le_trans with (Ztrunc (IZR 0)); [apply Ztrunc_le; exact H|rewrite Ztrunc_IZR; lia]. Qed.
Lemma Ztrunc_pos_ge0 x : 0 <= x -> (0 <= Ztrunc x)%Z.
Proof. intros H. apply Z.le_trans with (Ztrunc (IZR 0)); [rewrite Ztrunc_IZR; lia|apply Ztrunc_le; exact H]. Qed.
Lemma slice_shape (s : AudioSignal N) (a b : f64) i j z :
  (0 <= sample_rate s <= 2 ^ 53)%Z -> (sig_len s <= 2 ^ 53)%Z -> is_finite a = true -> is_finite b = true ->
  Rabs (fl (B2R a * IZR (sample_rate s))) < bpow radix2 53 -> Rabs (fl (B2R b * IZR (sample_rate s))) < bpow radix2 53 ->
  i = Z.max 0 (sample_at a (sample_rate s)) -> j = Z.max 0 (sample_at b (sample_rate s)) ->
  z = Z.max 0 (- sample_at a (sample_rate s)) ->
  slice s a b = (do body <- zslice (data_matrix s) i (Z.min j (sig_len s));
     Ok {| data_matrix := repeat (f64_ofZ 0 : num N) (Z.to_nat z) ++ body ++ repeat (f64_ofZ 0 : num N) (Z.to_nat (j - sig_len s));
           sample_rate := sample_rate s |}).
Proof.
  intros Hr Hl Fa Fb Ba Bb Ei Ej Ez. set (rate := sample_rate s) in *.
  destruct (prod_fin a rate Hr Fa Ba) as [Fpa Epa]. destruct (prod_fin b rate Hr Fb Bb) as [Fpb Epb].
  change (fl (B2R a * IZR rate)) with (rnd (B2R a * IZR rate)) in *. change (fl (B2R b * IZR rate)) with (rnd (B2R b * IZR rate)) in *.
  apply Rabs_def2 in Ba, Bb.
  assert (Ua : as_usize (N:=N) (Bmult mode_NE a (f64_ofZ rate)) = i) by (rewrite usize_fin, Epa by (auto; rewrite Epa; lra); auto).
  assert (Ub : as_usize (N:=N) (Bmult mode_NE b (f64_ofZ rate)) = j) by (rewrite usize_fin, Epb by (auto; rewrite Epb; lra); auto).
  pose proof (zlen_nonneg (data_matrix s)) as L0. fold (sig_len s) in L0.
  set (len := sig_len s) in *.
  pose proof (ofZ_fin len ltac:(lia)) as Fl. pose proof (ofZ_B2R len ltac:(lia)) as El.
  assert (HL : 0 <= IZR len <= bpow radix2 53).
  { split; [apply IZR_le; auto|]. change (bpow radix2 53) with (IZR (2 ^ 53)). apply IZR_le; auto. }
  assert (Ud : as_usize (N:=N) (Bminus mode_NE (Bmult mode_NE b (f64_ofZ rate)) (f64_ofZ len)) = Z.max 0 (j - len)).
  { destruct (Bminus_fin (Bmult mode_NE b (f64_ofZ rate)) (f64_ofZ len) Fpb Fl) as [F E].
    { apply (bpow_1000_big _ 54); [lia|]. apply rnd_abs_bpow; [lia|]. rewrite Epb, El.
      replace (bpow radix2 54) with (2 * bpow radix2 53) by (change 54%Z with (1 + 53)%Z; rewrite bpow_plus; reflexivity).
      apply Rabs_le; lra. }
    rewrite Epb, El in E. set (pb := rnd (B2R b * IZR rate)) in *.
    destruct (Rle_dec (IZR len) pb) as [Hle|Hgt].
    - rewrite (rnd_id (pb - IZR len)) in E by (apply minus_int_format; auto; try lra; rewrite <- Epb; apply gf_B2R).
      rewrite usize_fin, E by (auto; rewrite E; lra). rewrite Ztrunc_minus_int by auto.
      rewrite Ej. unfold sample_at. change (fl (B2R b * IZR rate)) with pb. pose proof (Ztrunc_pos_ge0 pb). lia || (assert (0 <= pb) by lra; lia).
    - assert (rnd (pb - IZR len) <= 0) by (apply rnd_sign_neg; lra).
      rewrite usize_fin, E by (auto; rewrite E; lra). pose proof (Ztrunc_neg_le0 _ H).
      assert (Ztrunc pb <= len)%Z.
      { rewrite <- (Ztrunc_IZR len). apply Ztrunc_le. lra. }
      rewrite Ej. unfold sample_at. change (fl (B2R b * IZR rate)) with pb. lia. }
  assert (Neg : (if nltb N a (nofZ N 0) then repeat (nofZ N 0) (Z.to_nat (as_usize (nmul N (nneg N a) (nofZ N rate)))) else [])
                = repeat (f64_ofZ 0 : num N) (Z.to_nat z)).
  { assert (Fna : is_finite (Bopp a) = true) by (rewrite is_finite_Bopp; auto).
    assert (Enp : rnd (B2R (Bopp a) * IZR rate) = - rnd (B2R a * IZR rate)).
    { rewrite B2R_Bopp, Ropp_mult_distr_l_reverse. apply round_NE_opp. }
    destruct (prod_fin (Bopp a) rate Hr Fna) as [Fn En].
    { rewrite Enp, Rabs_Ropp. apply Rabs_def1; lra. }
    assert (Un : as_usize (N:=N) (Bmult mode_NE (Bopp a) (f64_ofZ rate)) = z).
    { rewrite usize_fin by (auto; rewrite En, Enp; lra). rewrite En, Enp, Ztrunc_opp. auto. }
    change (nmul N (nneg N a) (nofZ N rate)) with (Bmult mode_NE (Bopp a) (f64_ofZ rate)).
    change (nltb N a (nofZ N 0)) with (Bltb a (f64_ofZ 0)). rewrite Un.
    destruct (Bltb a (f64_ofZ 0)) eqn:Lt; auto.
    assert (0 <= B2R a).
    { assert (Na : is_nan a = false) by (apply is_nan_finite; auto).
      pose proof (proj1 (Bltb_false_iff a (f64_ofZ 0) Na (ofZ_nan 0 ltac:(lia))) Lt) as Q.
      rewrite ofZ_ext, ext_finite in Q by (auto; lia). auto. }
    assert (z = 0%Z).
    { rewrite Ez. unfold sample_at. change (fl (B2R a * IZR rate)) with (rnd (B2R a * IZR rate)).
      assert (0 <= rnd (B2R a * IZR rate)) by (apply rnd_sign; apply Rmult_le_pos; auto; apply IZR_le; lia).
      pose proof (Ztrunc_pos_ge0 _ H0). lia. }
    rewrite H0. reflexivity. }
  unfold slice. cbv zeta.
  change (nmul N a (nofZ N (sample_rate s))) with (Bmult mode_NE a (f64_ofZ rate)).
  change (nmul N b (nofZ N (sample_rate s))) with (Bmult mode_NE b (f64_ofZ rate)).
  change (nsub N (Bmult mode_NE b (f64_ofZ rate)) (nofZ N (sig_len s))) with (Bminus mode_NE (Bmult mode_NE b (f64_ofZ rate)) (f64_ofZ len)).
  rewrite Ua, Ub, Ud. fold len. fold rate in Neg. 
  destruct (zslice (data_matrix s) i (Z.min j len)) as [body| |]; cbn [bind]; auto.
  f_equal. f_equal. fold rate. rewrite <- Neg.
  assert (Tail : (if (0 <? Z.max 0 (j - len))%Z then body ++ repeat (nofZ N 0) (Z.to_nat (Z.max 0 (j - len))) else body)
            = body ++ repeat (f64_ofZ 0 : num N) (Z.to_nat (j - len))).
  { destruct (Z.ltb_spec 0 (Z.max 0 (j - len))).
    - rewrite Z.max_r by lia. reflexivity.
    - replace (Z.to_nat (j - len)) with 0%nat by lia. cbn [repeat]. rewrite app_nil_r. auto. }
  etransitivity; [|rewrite <- Tail; reflexivity].
  destruct (nltb N a (nofZ N 0)); reflexivity.
Qed.
Lemma C16_ok (s : AudioSignal N) (a b : f64) i j z :
  (0 <= sample_rate s <= 2 ^ 53)%Z -> (sig_len s <= 2 ^ 53)%Z -> is_finite a = true -> is_finite b = true ->
  Rabs (fl (B2R a * IZR (sample_rate s))) < bpow radix2 53 -> Rabs (fl (B2R b * IZR (sample_rate s))) < bpow radix2 53 ->
  i = Z.max 0 (sample_at a (sample_rate s)) -> j = Z.max 0 (sample_at b (sample_rate s)) ->
  z = Z.max 0 (- sample_at a (sample_rate s)) -> (i <= j)%Z -> (i <= sig_len s)%Z ->
  exists s' w, slice s a b = Ok s' /\ sample_rate s' = sample_rate s /\
    data_matrix s' = repeat (f64_ofZ 0) (Z.to_nat z) ++ w /\ window_of (f64_ofZ 0) (data_matrix s) i j w.
Proof.
  intros Hr Hl Fa Fb Ba Bb Ei Ej Ez Hij Hil. rewrite (slice_shape s a b i j z) by auto.
  pose proof (zlen_nonneg (data_matrix s)) as L0.
  rewrite zslice_in; [|lia|unfold sig_len; lia]. cbn [bind].
  eexists. eexists. split; [reflexivity|]. split; [reflexivity|]. split; [reflexivity|].
  apply window_padded; [lia|exact Hil].
Qed.
Lemma C16_panic (s : AudioSignal N) (a b : f64) :
  (0 <= sample_rate s <= 2 ^ 53)%Z -> (sig_len s <= 2 ^ 53)%Z -> is_finite a = true -> is_finite b = true ->
  Rabs (fl (B2R a * IZR (sample_rate s))) < bpow radix2 53 -> Rabs (fl (B2R b * IZR (sample_rate s))) < bpow radix2 53 ->
  (sig_len s < sample_at a (sample_rate s))%Z -> slice s a b = Panic PIndex.
Proof.
  intros Hr Hl Fa Fb Ba Bb H. erewrite slice_shape; eauto. pose proof (zlen_nonneg (data_matrix s)) as L0.
  unfold zslice. match goal with |- bind (if ?c then _ else _) _ = _ => destruct c eqn:E end; [|reflexivity].
  exfalso. unfold sig_len in *. apply andb_prop in E as [E1 E2]. apply andb_prop in E1 as [E0 E1] || idtac. lia.
Qed.
End C16.

(** ** C12 *)
Lemma skipn_zslice_tail {A} (l : list A) a : (0 <= a <= zlen l)%Z -> zslice l a (zlen l) = Ok (skipn (Z.to_nat a) l).
Proof.
  intros H. rewrite zslice_in by lia. f_equal. apply firstn_all2. rewrite skipn_length. unfold zlen in *. lia.
Qed.
Lemma C12_cut lm pf (rs ds al : AudioSignal (F64 lm)) k k' :
  globally_align pf rs ds = Ok (Some (al, Bdiv mode_NE (f64_ofZ k) (f64_ofZ (sample_rate ds)) : num (F64 lm))) ->
  sample_rate rs = sample_rate ds -> (0 <= k' <= k)%Z -> (k <= sig_len rs)%Z -> (sig_len rs < sig_len al)%Z ->
  f64_cast 0 (2 ^ 64 - 1) (Bmult mode_NE (Bdiv mode_NE (f64_ofZ k) (f64_ofZ (sample_rate ds))) (f64_ofZ (sample_rate ds))) = k' ->
  exists lag, align_and_truncate pf rs ds = Ok (Some
      (@Build_AudioSignal (F64 lm) (skipn (Z.to_nat k') (data_matrix rs)) (sample_rate rs),
       @Build_AudioSignal (F64 lm) (firstn (Z.to_nat (sig_len rs - k')) (skipn (Z.to_nat k') (data_matrix al))) (sample_rate ds),
       lag)).
Proof.
  intros G Er Hk Hr Hl E. unfold align_and_truncate. rewrite G. cbn [bind].
  destruct (Z.ltb_spec (zlen (data_matrix rs)) (zlen (data_matrix al))) as [_|Q]; [|exfalso; unfold sig_len in *; apply (Z.lt_irrefl (zlen (data_matrix rs))); eapply Z.lt_le_trans; [exact Hl|exact Q]].
  rewrite Er.
  assert (U : as_usize (N:=F64 lm) (nmul (F64 lm) (Bdiv mode_NE (f64_ofZ k) (f64_ofZ (sample_rate ds))) (nofZ (F64 lm) (sample_rate ds))) = k') by exact E.
  rewrite U. unfold sig_len in *. rewrite skipn_zslice_tail by lia. cbn [bind].
  rewrite zslice_in by lia. cbn [bind fst snd]. eexists. reflexivity.
Qed.
Lemma C12_align lm pf (rs ds al : AudioSignal (F64 lm)) k :
  globally_align pf rs ds = Ok (Some (al, Bdiv mode_NE (f64_ofZ k) (f64_ofZ (sample_rate ds)) : num (F64 lm))) ->
  sample_rate rs = sample_rate ds -> (1 <= sample_rate ds <= 2 ^ 32)%Z -> (1 <= k <= 2 ^ 31)%Z -> (k <= sig_len rs)%Z -> (sig_len rs < sig_len al)%Z ->
  exists k' lag, (k' = k \/ k' = (k - 1)%Z) /\ align_and_truncate pf rs ds = Ok (Some
      (@Build_AudioSignal (F64 lm) (skipn (Z.to_nat k') (data_matrix rs)) (sample_rate rs),
       @Build_AudioSignal (F64 lm) (firstn (Z.to_nat (sig_len rs - k')) (skipn (Z.to_nat k') (data_matrix al))) (sample_rate ds),
       lag)).
Proof.
  intros G Er Hr Hk Hl Ha. pose proof (lag_trunc k (sample_rate ds) ltac:(lia) ltac:(lia)) as Q. cbv zeta in Q.
  destruct Q as [Q|[Q _]].
  - destruct (C12_cut lm pf rs ds al k k G Er ltac:(lia) Hl Ha Q) as [lag E]. exists k, lag. auto.
  - destruct (C12_cut lm pf rs ds al k (k - 1) G Er ltac:(lia) Hl Ha Q) as [lag E]. exists (k - 1)%Z, lag. auto.
Qed.
Lemma C12_refuted : exists k rate, (1 <= k <= 2 ^ 31)%Z /\ (rate = 44100)%Z /\
    f64_cast 0 (2 ^ 64 - 1) (Bmult mode_NE (Bdiv mode_NE (f64_ofZ k) (f64_ofZ rate)) (f64_ofZ rate)) <> k.
Proof.
  exists 15%Z, 44100%Z. split; [lia|]. split; auto.
  assert (E : f64_cast 0 (2 ^ 64 - 1) (Bmult mode_NE (Bdiv mode_NE (f64_ofZ 15) (f64_ofZ 44100)) (f64_ofZ 44100)) = 14%Z) by (vm_compute; reflexivity).
  rewrite E. discriminate.
Qed.
Lemma C08_gen N c rate vs n : (1 <= c)%nat -> List.length vs = (n * c)%nat -> Forall (fun v => -32768 <= v <= 32767)%Z vs ->
  exists s : AudioSignal N, load_as_mono (WavOk (Z.of_nat c) rate 16 (map Some vs)) = Ok s /\
    List.length (data_matrix s) = n /\ sample_rate s = rate.
Proof.
  intros Hc L F. eexists. split; [apply load_ok; eauto|]. split; [|reflexivity]. cbn [data_matrix]. rewrite map_length, seq_length. auto.
Qed.
Lemma npt_refuted : exists n p, (1 <= n)%Z /\ is_next_pow2 p n /\ forall pf, next_pow_two pf n <> Ok p.
Proof.
  exists 513%Z, 1024%Z. split; [lia|]. split; [exact (next_pow2_log 513 ltac:(lia))|]. intros [|]; vm_compute; discriminate.
Qed.
Lemma npt_zero : next_pow_two Debug 0 = Panic POverflow /\ next_pow_two Release 0 = Ok 0%Z.
Proof. vm_compute. auto. Qed.
