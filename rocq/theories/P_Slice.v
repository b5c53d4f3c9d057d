(** The parts of a signal that fine alignment cuts out, in exact arithmetic. *)
From Coq Require Import Reals Lra Lia.
From Flocq Require Import Core.
From Verif Require Import Base Num RNum M_Audio M_Align M_Selector M_Visqol P_Base P_Score.
Open Scope R_scope.

Lemma usize_quarter a : (0 <= a < 2 ^ 66)%Z -> as_usize (N:=RN) (IZR a / 4) = (a / 4)%Z.
Proof.
  intros H. unfold as_usize. cbn [ncast RN]. rewrite Ztrunc_floor.
  - rewrite (Zfloor_div a 4) by lia. assert (0 <= a / 4 < 2 ^ 64)%Z; [|lia].
    split; [apply Z.div_pos; lia|apply Z.div_lt_upper_bound; lia].
  - apply Rmult_le_pos; [apply IZR_le; lia|lra].
Qed.
Lemma usize_neg x : x <= 0 -> as_usize (N:=RN) x = 0%Z.
Proof.
  intros H. unfold as_usize. cbn [ncast RN]. assert (Ztrunc x <= 0)%Z; [|lia].
  rewrite Ztrunc_ceil by auto. apply Zceil_glb. auto.
Qed.
Lemma usize_int a : (0 <= a < 2 ^ 64)%Z -> as_usize (N:=RN) (IZR a) = a.
Proof. intros H. unfold as_usize. cbn [ncast RN]. rewrite Ztrunc_IZR. lia. Qed.

(** The frame duration of a window of [W] samples. *)
Definition frame_dur (W rate : Z) : R := IZR W * (IZR 25 / IZR (10 ^ 2)) / IZR rate.
Lemma dur_times W rate r : (1 <= rate)%Z -> IZR r * frame_dur W rate * IZR rate = IZR (r * W) / 4.
Proof. intros H. unfold frame_dur. change (10 ^ 2)%Z with 100%Z. rewrite mult_IZR. assert (IZR rate <> 0) by (apply not_0_IZR; lia). field. auto. Qed.

Lemma slice_R (s : AudioSignal RN) W r fp : (1 <= sample_rate s)%Z -> (0 <= W)%Z -> (0 <= r)%Z -> (0 <= fp)%Z -> ((r + fp) * W < 2 ^ 66)%Z ->
  (sig_len s < 2 ^ 62)%Z ->
  let fd := frame_dur W (sample_rate s) in
  let a := (r * W / 4)%Z in let b := ((r + fp) * W / 4)%Z in
  slice s (IZR r * fd) (IZR r * fd + fd * IZR fp) =
  if (a <=? sig_len s)%Z
  then Ok {| data_matrix := firstn (Z.to_nat (b - a)) (skipn (Z.to_nat a) (data_matrix s)) ++ repeat 0 (Z.to_nat (b - sig_len s)); sample_rate := sample_rate s |}
  else Panic PIndex.
Proof.
  intros Hrate HW Hr Hfp Hbig Hlen fd a b. unfold slice. cbv zeta.
  assert (Hfd : 0 <= fd). { unfold fd, frame_dur. change (10 ^ 2)%Z with 100%Z. apply Rmult_le_pos; [apply Rmult_le_pos; [apply IZR_le; lia|lra]|]. left. apply Rinv_0_lt_compat. apply IZR_lt. lia. }
  assert (E1 : nmul RN (IZR r * fd) (nofZ RN (sample_rate s)) = IZR (r * W) / 4) by (apply dur_times; auto).
  assert (E2 : nmul RN (IZR r * fd + fd * IZR fp) (nofZ RN (sample_rate s)) = IZR ((r + fp) * W) / 4).
  { rewrite <- (dur_times W (sample_rate s) (r + fp)) by auto. fold fd. rewrite plus_IZR. change ((IZR r * fd + fd * IZR fp) * IZR (sample_rate s) = (IZR r + IZR fp) * fd * IZR (sample_rate s)). ring. }
  rewrite E1, E2. rewrite !usize_quarter by nia. fold a b.
  assert (E3 : as_usize (N:=RN) (nsub RN (IZR ((r + fp) * W) / 4) (nofZ RN (sig_len s))) = Z.max 0 (b - sig_len s)).
  { cbn [nsub nofZ RN]. replace (IZR ((r + fp) * W) / 4 - IZR (sig_len s)) with (IZR ((r + fp) * W - 4 * sig_len s) / 4) by (rewrite minus_IZR, (mult_IZR 4); field).
    assert (ED : (((r + fp) * W - 4 * sig_len s) / 4 = b - sig_len s)%Z). { unfold b. replace ((r + fp) * W - 4 * sig_len s)%Z with ((r + fp) * W + (- sig_len s) * 4)%Z by lia. rewrite Z.div_add by lia. lia. }
    destruct (Z_le_gt_dec 0 ((r + fp) * W - 4 * sig_len s)).
    - rewrite usize_quarter by (unfold sig_len, zlen in *; lia). rewrite ED. assert (0 <= b - sig_len s)%Z by (rewrite <- ED; apply Z.div_pos; lia). lia.
    - rewrite usize_neg. 2: { assert (IZR ((r + fp) * W - 4 * sig_len s) <= 0) by (apply IZR_le; lia). lra. }
      assert (b - sig_len s < 0)%Z by (rewrite <- ED; apply Z.div_lt_upper_bound; lia). lia. }
  rewrite E3.
  assert (Hneg : nltb RN (IZR r * fd) (nofZ RN 0) = false).
  { cbn [nltb nofZ RN]. apply Rltb_false. apply Rmult_le_pos; auto. apply IZR_le. lia. }
  rewrite Hneg.
  assert (Hab : (0 <= a <= b)%Z). { unfold a, b. split; [apply Z.div_pos; nia|]. apply Z.div_le_mono; nia. }
  assert (HL0 : (0 <= sig_len s)%Z) by (unfold sig_len, zlen; lia).
  destruct (Z.leb_spec a (sig_len s)).
  - rewrite zslice_in by (change (zlen (data_matrix s)) with (sig_len s); lia). cbn [bind].
    assert (EF : firstn (Z.to_nat (Z.min b (sig_len s) - a)) (skipn (Z.to_nat a) (data_matrix s)) = firstn (Z.to_nat (b - a)) (skipn (Z.to_nat a) (data_matrix s))).
    { destruct (Z.leb_spec b (sig_len s)); [do 2 f_equal; lia|]. rewrite !firstn_all2; auto; rewrite skipn_length; unfold sig_len, zlen in *; lia. }
    rewrite EF. destruct (Z.ltb_spec 0 (Z.max 0 (b - sig_len s))).
    + do 4 f_equal. lia.
    + replace (Z.to_nat (b - sig_len s)) with O by lia. cbn [repeat]. rewrite app_nil_r. reflexivity.
  - rewrite zslice_out by lia. reflexivity.
Qed.
Lemma slice_R_len (s s' : AudioSignal RN) W r fp : (1 <= sample_rate s)%Z -> (0 <= W)%Z -> (0 <= r)%Z -> (0 <= fp)%Z -> ((r + fp) * W < 2 ^ 66)%Z ->
  (sig_len s < 2 ^ 62)%Z -> let fd := frame_dur W (sample_rate s) in
  slice s (IZR r * fd) (IZR r * fd + fd * IZR fp) = Ok s' ->
  sample_rate s' = sample_rate s /\ sig_len s' = ((r + fp) * W / 4 - r * W / 4)%Z.
Proof.
  intros Hrate HW Hr Hfp Hbig Hlen fd H. pose proof (slice_R s W r fp Hrate HW Hr Hfp Hbig Hlen) as E. cbv zeta in E. fold fd in E. rewrite H in E.
  destruct (Z.leb_spec (r * W / 4) (sig_len s)); [|discriminate]. assert (E' : forall x y : AudioSignal RN, Ok x = Ok y -> x = y) by (intros; congruence). apply E' in E. subst s'.
  cbn [sample_rate]. split; auto. unfold sig_len in *. cbn [data_matrix]. unfold zlen in *. rewrite app_length, repeat_length, firstn_length, skipn_length.
  assert (0 <= r * W / 4 <= (r + fp) * W / 4)%Z by (split; [apply Z.div_pos; nia|apply Z.div_le_mono; nia]). lia.
Qed.
