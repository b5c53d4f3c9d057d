(** The statements used in T_Delay. *)
From Coq Require Import Reals Lra Lia.
From Verif Require Import Base Num RNum M_Audio M_Align P_Audio P_R Spec3 P_Xcorr P_Delay.
Open Scope R_scope.

Lemma C55_any pf (y : list R) (k : nat) L f v rate :
  (9 <= L <= 2 ^ 62)%Z -> next_pow_two pf L = Ok f -> Z.even (Z.max f 32) = true ->
  (zlen y + Z.of_nat k = L)%Z -> (1 <= Z.of_nat k <= L / 2)%Z ->
  Rsum y = 0 -> alternating y = 0 -> Forall (fun x => x <= 0 \/ 1 / 1000000 <= x) y ->
  In v y -> 1 / 500000 * R_sqrt.sqrt (IZR L) <= Rabs v ->
  let early := @Build_AudioSignal RN (y ++ repeat 0 k) rate in
  let late := @Build_AudioSignal RN (repeat 0 k ++ y) rate in
  globally_align pf early late = Ok (Some (@Build_AudioSignal RN y rate, - INR k / IZR rate)) /\
  globally_align pf late early = Ok (Some (@Build_AudioSignal RN (repeat 0 k ++ y ++ repeat 0 k) rate, INR k / IZR rate)).
Proof. intros. apply (C55_delay_gen pf y k L f v rate); auto. apply no_middle_alt; auto. Qed.
Lemma C55_pow2 pf (y : list R) (k : nat) m v rate :
  (5 <= m <= 62)%Z -> (zlen y + Z.of_nat k = 2 ^ m)%Z -> (1 <= Z.of_nat k <= 2 ^ m / 2)%Z ->
  Rsum y = 0 -> Forall (fun x => x <= 0 \/ 1 / 1000000 <= x) y ->
  In v y -> 1 / 500000 * R_sqrt.sqrt (IZR (2 ^ m)) <= Rabs v ->
  let early := @Build_AudioSignal RN (y ++ repeat 0 k) rate in
  let late := @Build_AudioSignal RN (repeat 0 k ++ y) rate in
  globally_align pf early late = Ok (Some (@Build_AudioSignal RN y rate, - INR k / IZR rate)) /\
  globally_align pf late early = Ok (Some (@Build_AudioSignal RN (repeat 0 k ++ y ++ repeat 0 k) rate, INR k / IZR rate)).
Proof.
  intros Hm. intros.
  assert (M32 : (32 <= 2 ^ m)%Z) by (change 32%Z with (2 ^ 5)%Z; apply Z.pow_le_mono_r; lia).
  assert (M62 : (2 ^ m <= 2 ^ 62)%Z) by (apply Z.pow_le_mono_r; lia).
  apply (C55_delay_gen pf y k (2 ^ m) (2 ^ m) v rate); auto; [lia|apply npt_pow; lia|].
  apply no_middle_deficit. unfold deficit. rewrite Z.max_l by lia.
  replace m with (Z.succ (m - 1)) by lia. rewrite Z.pow_succ_r by lia. rewrite Z.even_mul. cbn [Z.even orb]. rewrite Z.eqb_refl. reflexivity.
Qed.
Lemma root_le (z : Z) (r : R) : 0 <= r -> IZR z <= r * r -> (0 <= z)%Z -> R_sqrt.sqrt (IZR z) <= r.
Proof. intros H1 H2 H3. rewrite <- (sqrt_Rsqr r) by auto. apply sqrt_le_1; unfold Rsqr; auto; [apply IZR_le; auto|nra]. Qed.
Lemma alternating_zeros n : alternating (repeat 0 n) = 0.
Proof. rewrite <- (app_nil_r (repeat 0 n)). apply alternating_front. reflexivity. Qed.
Lemma C55_ex pf : exists (y : list R) (k : nat) v,
  next_pow_two pf 700 = Ok 1024%Z /\ (zlen y + Z.of_nat k = 700)%Z /\ (1 <= Z.of_nat k <= 700 / 2)%Z /\
  Rsum y = 0 /\ alternating y = 0 /\ Forall (fun x => x <= 0 \/ 1 / 1000000 <= x) y /\
  In v y /\ 1 / 500000 * R_sqrt.sqrt (IZR 700) <= Rabs v.
Proof.
  exists ([1 / 2; - (3 / 4); - (1 / 4); 1 / 2; - (1 / 4); 1 / 4] ++ repeat 0 594), 100%nat, (- (3 / 4)).
  split; [destruct pf; reflexivity|]. split; [unfold zlen; rewrite app_length, repeat_length; reflexivity|].
  split; [cbn; lia|]. split; [rewrite Rsum_app, Rsum_zeros; unfold Rsum; cbn [fold_right]; lra|].
  split; [cbn [app]; rewrite !alternating_cons, alternating_zeros; lra|].
  split. { apply Forall_app. split; [repeat constructor; lra|]. apply Forall_forall. intros x Hx. apply repeat_spec in Hx. lra. }
  split; [right; left; reflexivity|]. rewrite Rabs_left by lra. assert (R_sqrt.sqrt (IZR 700) <= 30) by (apply root_le; lra || lia). lra.
Qed.
Lemma C55_ex2 : exists (y : list R) (k : nat) v,
  (zlen y + Z.of_nat k = 2 ^ 5)%Z /\ (1 <= Z.of_nat k <= 2 ^ 5 / 2)%Z /\
  Rsum y = 0 /\ Forall (fun x => x <= 0 \/ 1 / 1000000 <= x) y /\
  In v y /\ 1 / 500000 * R_sqrt.sqrt (IZR (2 ^ 5)) <= Rabs v.
Proof.
  exists ([1 / 2; - (3 / 4); 1 / 4; 0] ++ repeat 0 23), 5%nat, (- (3 / 4)).
  split; [reflexivity|]. split; [cbn; lia|]. split; [rewrite Rsum_app, Rsum_zeros; unfold Rsum; cbn [fold_right]; lra|].
  split. { apply Forall_app. split; [repeat constructor; lra|]. apply Forall_forall. intros x Hx. apply repeat_spec in Hx. lra. }
  split; [right; left; reflexivity|]. rewrite Rabs_left by lra. assert (R_sqrt.sqrt (IZR (2 ^ 5)) <= 6) by (change (2 ^ 5)%Z with 32%Z; apply root_le; lra || lia). lra.
Qed.
Lemma C55_refuted : exists (y : list R) (k : nat) v,
  (zlen y + Z.of_nat k = 2 ^ 5)%Z /\ (1 <= Z.of_nat k <= 2 ^ 5 / 2)%Z /\
  Forall (fun x => x <= 0 \/ 1 / 1000000 <= x) y /\
  In v y /\ 1 / 500000 * R_sqrt.sqrt (IZR (2 ^ 5)) <= Rabs v /\
  forall pf rate, rate <> 0%Z -> exists al lag,
    globally_align pf (@Build_AudioSignal RN (y ++ repeat 0 k) rate) (@Build_AudioSignal RN (repeat 0 k ++ y) rate) = Ok (Some (al, lag)) /\
    lag <> - INR k / IZR rate.
Proof.
  exists flat28, 4%nat, (1 / 2). split; [reflexivity|]. split; [cbn; lia|].
  split. { apply Forall_forall. intros x Hx. apply repeat_spec in Hx. lra. }
  split; [left; reflexivity|]. split; [|exact C55_offset]. rewrite Rabs_pos_eq by lra.
  assert (R_sqrt.sqrt (IZR (2 ^ 5)) <= 6) by (change (2 ^ 5)%Z with 32%Z; apply root_le; lra || lia). lra.
Qed.
