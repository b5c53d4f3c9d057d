(** A signal compared with itself: the global alignment leaves it alone. *)
From Coq Require Import Reals Lra Lia.
From Verif Require Import Base Num RNum M_Audio M_Align Spec Spec3 P_Base P_R P_Score P_Level P_Xcorr P_Env.
Open Scope R_scope.

Lemma Rsum_zero l : Forall (fun x => 0 <= x) l -> Rsum l <= 0 -> forall x, In x l -> x = 0.
Proof.
  induction 1 as [|y t Hy Ht IH]; [contradiction|]. rewrite Rsum_cons. intros Hs x Hx. assert (P := Rsum_nonneg _ Ht).
  destruct Hx as [<-|Hx]; [lra|]. apply IH; auto. lra.
Qed.
Lemma energy_app a b : energy (a ++ b) = energy a + energy b.
Proof. unfold energy. rewrite map_app. apply Rsum_app. Qed.
Lemma energy_zeros n : energy (repeat 0 n) = 0.
Proof. apply Rsum_0. apply Forall_forall. intros x Hx. apply in_map_iff in Hx as (y & <- & Hy). apply repeat_spec in Hy. subst. ring. Qed.
Lemma nth_skip {A} (l : list A) d : forall k n, nth n (skipn k l) d = nth (k + n) l d.
Proof. induction l as [|x t IH]; intros [|k] n; cbn [skipn Nat.add nth]; auto. destruct n; auto. Qed.
Lemma nth_first {A} (l : list A) d : forall k n, (n < k)%nat -> nth n (firstn k l) d = nth n l d.
Proof. induction l as [|x t IH]; intros [|k] [|n] H; cbn; auto; try lia. apply IH. lia. Qed.
Lemma nth_map_seq (f : nat -> R) L n : (n < L)%nat -> nth n (map f (seq 0 L)) 0 = f n.
Proof. intros H. rewrite (nth_indep _ 0 (f O)) by (rewrite map_length, seq_length; auto). rewrite map_nth, seq_nth by auto. reflexivity. Qed.

Definition shifted (e : list R) (k : Z) : list R := map (fun n => at0 e (Z.of_nat n + k)) (seq 0 (List.length e)).
Lemma shifted_energy e k : energy (shifted e k) <= energy e.
Proof.
  set (L := List.length e). set (q := Nat.min (Z.to_nat (Z.abs k)) L).
  destruct (Z_le_gt_dec 0 k) as [Hk|Hk].
  - assert (E : shifted e k = skipn q e ++ repeat 0 q).
    { apply (nth_ext _ _ 0 0).
      - unfold shifted. rewrite app_length, skipn_length, repeat_length, map_length, seq_length. fold L. lia.
      - intros n Hn. unfold shifted in *. rewrite map_length, seq_length in Hn. fold L in Hn |- *. rewrite nth_map_seq by auto.
        destruct (Nat.lt_ge_cases n (L - q)).
        + rewrite app_nth1 by (rewrite skipn_length; fold L; lia). rewrite nth_skip. unfold at0. destruct (Z.ltb_spec (Z.of_nat n + k) 0); [lia|]. f_equal. lia.
        + rewrite app_nth2 by (rewrite skipn_length; fold L; lia). rewrite nth_repeat. apply at0_out. unfold zlen. fold L. lia. }
    rewrite E, energy_app, energy_zeros. rewrite <- (firstn_skipn q e) at 2. rewrite energy_app. pose proof (energy_nonneg (firstn q e)). lra.
  - assert (E : shifted e k = repeat 0 q ++ firstn (L - q) e).
    { apply (nth_ext _ _ 0 0).
      - unfold shifted. rewrite app_length, firstn_length, repeat_length, map_length, seq_length. fold L. lia.
      - intros n Hn. unfold shifted in *. rewrite map_length, seq_length in Hn. fold L in Hn |- *. rewrite nth_map_seq by auto.
        destruct (Nat.lt_ge_cases n q).
        + rewrite app_nth1 by (rewrite repeat_length; lia). rewrite nth_repeat. apply at0_out. lia.
        + rewrite app_nth2 by (rewrite repeat_length; lia). rewrite repeat_length. rewrite nth_first by lia.
          unfold at0. destruct (Z.ltb_spec (Z.of_nat n + k) 0); [lia|]. f_equal. lia. }
    rewrite E, energy_app, energy_zeros. rewrite <- (firstn_skipn (L - q) e) at 2. rewrite energy_app. pose proof (energy_nonneg (skipn (L - q) e)). lra.
Qed.
Lemma map_nth_seq (e : list R) : map (fun n => at0 e (Z.of_nat n)) (seq 0 (List.length e)) = e.
Proof.
  apply (nth_ext _ _ 0 0); rewrite map_length, seq_length; auto. intros n Hn. rewrite nth_map_seq by auto. apply at0_nat.
Qed.
Lemma corr_0 e : correlation e e 0 = energy e.
Proof.
  unfold correlation. replace (energy e) with (energy (map (fun n => at0 e (Z.of_nat n)) (seq 0 (List.length e)))) by (rewrite map_nth_seq; auto). unfold energy. rewrite map_map. f_equal. apply map_ext. intros n. rewrite Z.add_0_r. auto.
Qed.
(** The autocorrelation is largest at zero, and only there unless the signal vanishes. *)
Lemma corr_strict e k : k <> 0%Z -> energy e <= Rabs (correlation e e k) -> forall n, nth n e 0 = 0.
Proof.
  intros Hk H. set (s := if Rle_dec 0 (correlation e e k) then 1 else -1).
  assert (Hs : s * correlation e e k = Rabs (correlation e e k) /\ s * s = 1).
  { unfold s. destruct (Rle_dec 0 (correlation e e k)); [rewrite Rabs_pos_eq|rewrite Rabs_left]; lra. }
  assert (D : Rsum (map (fun n => (at0 e (Z.of_nat n) - s * at0 e (Z.of_nat n + k)) * (at0 e (Z.of_nat n) - s * at0 e (Z.of_nat n + k))) (seq 0 (List.length e)))
    = energy e + energy (shifted e k) - 2 * Rabs (correlation e e k)).
  { transitivity (Rsum (map (fun n => (at0 e (Z.of_nat n) * at0 e (Z.of_nat n) + at0 e (Z.of_nat n + k) * at0 e (Z.of_nat n + k)) - (2 * s) * (at0 e (Z.of_nat n + k) * at0 e (Z.of_nat n))) (seq 0 (List.length e)))).
    - f_equal. apply map_ext. intros n. destruct Hs as [_ Hs]. set (u := at0 e (Z.of_nat n)). set (v := at0 e (Z.of_nat n + k)).
      replace ((u - s * v) * (u - s * v)) with (u * u + (s * s) * (v * v) - 2 * s * (v * u)) by ring. rewrite Hs. ring.
    - rewrite (Rsum_minus _ (fun n => (2 * s) * (at0 e (Z.of_nat n + k) * at0 e (Z.of_nat n)))), Rsum_plus. f_equal; [f_equal|].
      + replace (energy e) with (energy (map (fun n => at0 e (Z.of_nat n)) (seq 0 (List.length e)))) by (rewrite map_nth_seq; auto). unfold energy. rewrite map_map. reflexivity.
      + unfold energy, shifted. rewrite map_map. reflexivity.
      + rewrite <- (map_map (fun n => at0 e (Z.of_nat n + k) * at0 e (Z.of_nat n)) (fun x => (2 * s) * x)), Rsum_scale.
        change (Rsum (map (fun n => at0 e (Z.of_nat n + k) * at0 e (Z.of_nat n)) (seq 0 (List.length e)))) with (correlation e e k). destruct Hs as [<- _]. ring. }
  assert (B := shifted_energy e k).
  assert (A : forall n, (n < List.length e)%nat -> at0 e (Z.of_nat n + k) = 0 -> nth n e 0 = 0).
  { intros n Hn Hz. assert (Z0 : (at0 e (Z.of_nat n) - s * at0 e (Z.of_nat n + k)) * (at0 e (Z.of_nat n) - s * at0 e (Z.of_nat n + k)) = 0).
    { apply (Rsum_zero (map (fun n => (at0 e (Z.of_nat n) - s * at0 e (Z.of_nat n + k)) * (at0 e (Z.of_nat n) - s * at0 e (Z.of_nat n + k))) (seq 0 (List.length e)))).
      - apply Forall_forall. intros x Hx. apply in_map_iff in Hx as (m & <- & _). apply Rle_0_sqr.
      - rewrite D. lra.
      - apply in_map_iff. exists n. split; auto. apply in_seq. lia. }
    rewrite Hz in Z0. rewrite at0_nat in Z0. assert (X : nth n e 0 * nth n e 0 = 0) by lra. apply Rmult_integral in X. tauto. }
  assert (O : forall n, (List.length e <= n)%nat -> nth n e 0 = 0) by (intros; apply nth_overflow; auto).
  assert (T : forall i, (forall n, Z.of_nat n = i -> nth n e 0 = 0) -> at0 e i = 0).
  { intros i Hi. unfold at0. destruct (Z.ltb_spec i 0); auto. apply Hi. lia. }
  destruct (Z_lt_le_dec k 0).
  - intros n. induction n as [n IH] using lt_wf_ind. destruct (Nat.lt_ge_cases n (List.length e)); [|auto]. apply A; auto. apply T. intros m Hm. apply IH. lia.
  - assert (G : forall q n, (List.length e <= n + q)%nat -> nth n e 0 = 0).
    { induction q as [|q IH]; intros n Hn; [apply O; lia|]. destruct (Nat.lt_ge_cases n (List.length e)); [|auto]. apply A; auto. apply T. intros m Hm. apply IH. lia. }
    intros n. apply (G (List.length e)). lia.
Qed.
Lemma self_lag pf (e : list R) lag : (9 <= zlen e <= 2 ^ 62)%Z -> calculate_best_lag (N:=RN) pf e e = Ok (Some lag) ->
  lag = 0%Z \/ (lag = - (zlen e - 1))%Z.
Proof.
  intros HL H. assert (EL : longest e e = zlen e) by (unfold longest; lia).
  destruct (C13_all pf e e ltac:(lia)) as (l & E & Hr & M & F). rewrite H in E. assert (l = lag) by congruence. subst l. rewrite EL in *.
  destruct (Z.eq_dec lag 0) as [|N0]; auto. right.
  assert (Z0 : forall n, nth n e 0 = 0).
  { apply (corr_strict e lag N0). rewrite <- corr_0. eapply Rle_trans; [apply Rle_abs|]. apply M. lia. }
  assert (C0 : forall k, correlation e e k = 0).
  { intros k. apply Rsum_0. apply Forall_forall. intros x Hx. apply in_map_iff in Hx as (n & <- & _). rewrite at0_nat, Z0. ring. }
  destruct (Z_lt_le_dec (- (zlen e - 1)) lag); [|lia]. exfalso. apply (F (- (zlen e - 1))%Z); [lia|]. rewrite !C0. auto.
Qed.
Lemma self_search pf (x : list R) : (9 <= zlen x <= 2 ^ 62)%Z ->
  exists env lag, calculate_upper_env (N:=RN) pf x = Ok (Some env) /\ calculate_best_lag (N:=RN) pf env env = Ok (Some lag) /\
    ((lag =? 0) || (zlen x / 2 <? Z.abs lag))%Z = true.
Proof.
  intros HL. destruct (C15_all pf x) as (p & env & _ & E & Le & _); [lia|].
  assert (HE : (@zlen R env = @zlen R x)%Z) by (unfold zlen; f_equal; exact Le).
  assert (HL2 : (9 <= longest env env <= 2 ^ 62)%Z) by (unfold longest; change (num RN) with R in *; lia).
  destruct (C13_all pf env env HL2) as (lag & El & _). exists env, lag. split; [exact E|]. split; [exact El|].
  assert (HL3 : (9 <= @zlen R env <= 2 ^ 62)%Z) by lia. change (@zlen R x) with (zlen x) in *.
  destruct (self_lag pf env lag HL3 El) as [-> | ->]; [reflexivity|].
  change (num RN) with R in *. rewrite HE.
  destruct (Z.ltb_spec (zlen x / 2) (Z.abs (- (zlen x - 1)))); [rewrite Bool.orb_true_r; reflexivity|].
  exfalso. assert (zlen x / 2 * 2 <= zlen x)%Z by (rewrite Z.mul_comm; apply Z.mul_div_le; lia). lia.
Qed.
Lemma self_align pf (s : AudioSignal RN) : (9 <= sig_len s <= 2 ^ 62)%Z -> globally_align pf s s = Ok (Some (s, 0)).
Proof.
  intros HL. destruct (self_search pf (data_matrix s) HL) as (env & lag & E1 & E2 & E3).
  unfold globally_align. rewrite E1. cbn [bind]. rewrite E2. cbn [bind].
  change (sig_len s) with (@zlen R (data_matrix s)). rewrite E3. reflexivity.
Qed.
(** The level of the signal already matches. *)
Lemma self_scale (s : AudioSignal RN) : scale_to_match_sound_pressure_level s s = s.
Proof.
  unfold scale_to_match_sound_pressure_level. set (l := calculate_sound_pressure_level s).
  assert (E : npowf RN (nofZ RN 10) (ndiv RN (nsub RN l l) (nofZ RN 20)) = 1).
  { change (Rpowf 10 ((l - l) / 20) = 1). replace ((l - l) / 20) with 0 by field. unfold Rpowf. destruct (Req_EM_T 10 0); [lra|]. apply Rpower_O. lra. }
  rewrite E. destruct s as [d r]. cbn [data_matrix sample_rate]. f_equal. rewrite <- (map_id d) at 2. apply map_ext. intros x. apply Rmult_1_r.
Qed.
