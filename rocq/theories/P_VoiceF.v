(** C72 in binary64. *)
From Coq Require Import Reals Lra Lia Psatz Sorting.Sorted.
From Flocq Require Import Core IEEE754.BinarySingleNaN.
From Verif Require Import Base Num Mat RNum F64 M_Audio M_Align M_Spectro M_Patch M_Nsim M_Selector M_Visqol Spec Spec2 Spec18.
From Verif Require Import P_Base P_Mat P_Audio P_Audio2 P_Win P_Segment P_Compare P_Vad P_Order P_OrderF.
Open Scope R_scope.

Lemma i16_in x : i16_range (sample_i16 x).
Proof. unfold i16_range, sample_i16. apply cast_range. lia. Qed.
Lemma frame_i16 l start hop k : Forall i16_range (vad_frame l start hop k).
Proof. apply Forall_forall. intros x Hx. unfold vad_frame in Hx. apply in_map_iff in Hx as (y & <- & _). apply i16_in. Qed.
Lemma quiet_dec c : quiet c \/ ~ quiet c.
Proof. unfold quiet. lia. Qed.
Lemma frames_nth l start hop n k : (k < n)%nat -> nth_error (vad_frames l start hop n) k = Some (vad_frame l start hop k).
Proof.
  intros H. unfold vad_frames. rewrite nth_error_map.
  assert (E : nth_error (seq 0 n) k = Some k) by (rewrite (nth_error_nth' _ 0%nat) by (rewrite seq_length; exact H); rewrite seq_nth by exact H; reflexivity).
  rewrite E. reflexivity.
Qed.
Lemma silent_voiced l peak start hop n t : (1 <= hop <= 2 ^ 20)%Z -> (0 <= start)%Z -> (t < n)%nat -> (start + Z.of_nat n * hop <= zlen l)%Z ->
  ~ reported_silent (vad_frames (map (fun v => Bdiv mode_NE v peak) l) start hop n) t <-> voiced_f64 l peak start hop t.
Proof.
  intros Hh H0 Ht Hl. set (m := map (fun v => Bdiv mode_NE v peak) l).
  assert (BQ : forall k, (k <= t)%nat -> rms_below (vad_frame m start hop k) <-> quiet (vad_frame m start hop k)).
  { intros k Hk. apply C20_exact; [apply frame_i16|]. unfold vad_frame. rewrite zlen_map. unfold zlen in *. rewrite firstn_length, skipn_length. unfold m. rewrite map_length.
    assert (K : (Z.of_nat k * hop + hop <= Z.of_nat n * hop)%Z) by nia.
    assert (K2 : (Z.to_nat start + k * Z.to_nat hop + Z.to_nat hop <= List.length l)%nat) by nia. lia. }
  split.
  - intros NS. destruct (Nat.lt_ge_cases t 2) as [T|T]; [left; exact T|right].
    assert (D : (exists k, (t - 2 <= k <= t)%nat /\ ~ quiet (vad_frame m start hop k)) \/ (forall k, (t - 2 <= k <= t)%nat -> quiet (vad_frame m start hop k))).
    { destruct (quiet_dec (vad_frame m start hop t)) as [Q0|Q0]; [|left; exists t; split; [lia|exact Q0]].
      destruct (quiet_dec (vad_frame m start hop (t - 1))) as [Q1|Q1]; [|left; exists (t - 1)%nat; split; [lia|exact Q1]].
      destruct (quiet_dec (vad_frame m start hop (t - 2))) as [Q2|Q2]; [|left; exists (t - 2)%nat; split; [lia|exact Q2]].
      right. intros k Hk. assert (C : k = t \/ k = (t - 1)%nat \/ k = (t - 2)%nat) by lia. destruct C as [-> |[-> | ->]]; assumption. }
    destruct D as [D|D]; [exact D|]. exfalso. apply NS. split; [exact T|]. intros k Hk. exists (vad_frame m start hop k). split; [apply frames_nth; lia|]. apply BQ; [lia|]. apply D. exact Hk.
  - intros [T|(k & Hk & NQ)] [T2 RS]; [lia|]. destruct (RS k Hk) as (c & E & B). rewrite frames_nth in E by lia. injection E as <-. apply NQ. apply BQ; [lia|exact B].
Qed.

(** ** The run *)
Lemma voice_all_F lm pf nb u ws (m m' : Manager (F64 lm)) calls files a b (rs ds : AudioSignal (F64 lm)) h r :
  new_manager nb (Wideband u) ws = Ok m -> load_as_mono (files a) = Ok rs -> load_as_mono (files b) = Ok ds ->
  sample_rate rs = (50 * h)%Z -> (1 <= h <= 2 ^ 20)%Z -> (sig_len rs <= 2 ^ 32)%Z -> (sig_len ds <= 2 ^ 32)%Z ->
  Forall (fun x : f64 => is_nan x = false) (data_matrix rs) ->
  run pf nb files (after_calls pf nb m calls) a b = (m', Ok r) ->
  (47 * h <= sig_len rs)%Z /\
  exists peak starts, is_largest peak (data_matrix rs) /\ StronglySorted Z.lt starts /\
    (forall x, In x starts <-> exists j, (0 <= j)%Z /\ x = (14 + 30 * j)%Z /\ ((x + 33) * h <= sig_len rs)%Z /\
       exists t, (30 * j <= Z.of_nat t < 30 * j + 30)%Z /\ voiced_f64 (data_matrix rs) peak 14 h t) /\
    (2 <= List.length (patch_sims r) <= List.length starts)%nat /\
    (forall k p, nth_error (patch_sims r) k = Some p ->
       IZR (nth k starts 0%Z * h) - / 256 <= B2R (ref_patch_start_time p : f64) * IZR (50 * h) /\
       B2R (ref_patch_end_time p : f64) * IZR (50 * h) <= IZR ((nth k starts 0%Z + 30) * h) + 3 + / 256).
Proof.
  intros Hm La Lb Hr Hh L1 L2 HN H.
  assert (EW : ((4 * sample_rate rs + 25) / 50 = 4 * h)%Z) by (rewrite Hr; replace (4 * (50 * h) + 25)%Z with (25 + 4 * h * 50)%Z by ring; rewrite Z.div_add by lia; reflexivity).
  assert (E4 : (4 * h / 4 = h)%Z) by (rewrite Z.mul_comm; apply Z.div_mul; lia).
  destruct (order_all_F lm pf nb (Wideband u) ws m m' calls files a b rs ds r Hm La Lb ltac:(lia) L1 L2 ltac:(rewrite EW; rewrite Z.mul_comm; apply Z.mod_mul; lia) H)
    as (idx & LI & _ & _ & RG & SP & mm & pts & EC & V & PT & TWO).
  rewrite EW in RG, SP, EC. rewrite E4 in RG, SP, EC.
  set (win := new_window (N:=F64 lm) (sample_rate rs) OVERLAP WINDOW_DURATION) in V.
  assert (EH : hop_size win = h).
  { assert (X : win_size win = (4 * h)%Z) by (rewrite <- EW; apply window_exact; lia). rewrite <- E4, <- X. apply hop_quarter. fold win. rewrite X. lia. }
  set (w := Z.of_nat (mcols mm)) in *.
  assert (Wm : ((w - 1) * h <= sig_len rs - 4 * h)%Z) by (rewrite EC; rewrite Z.mul_comm; replace (1 + (sig_len rs - 4 * h) / h - 1)%Z with ((sig_len rs - 4 * h) / h)%Z by ring; apply Z.mul_div_le; lia).
  assert (Wu : (sig_len rs - 4 * h < w * h)%Z) by (rewrite EC; pose proof (Z.mul_succ_div_gt (sig_len rs - 4 * h) h ltac:(lia)) as K; rewrite <- Z.add_1_r in K; rewrite (Z.mul_comm (1 + _)), (Z.add_comm 1); exact K).
  assert (W44 : (44 <= w)%Z).
  { destruct (Z.lt_ge_cases w 44) as [K|K]; [|exact K]. exfalso.
    destruct (C22_creator lm pf 30 mm rs win ltac:(lia)) as (msg & C); [change (30 / 2 - 1 + 30)%Z with 44%Z; exact K|]. rewrite V in C. cbn [bind] in C. rewrite PT in C. discriminate C. }
  split; [nia|].
  destruct (C21_indices lm pf 30 w rs win) as (peak & idx' & PK & V' & SS & IN); rewrite ?EH; try lia; try exact HN.
  assert (idx' = idx) by (cbn [create_ref_patch_indices] in V; fold w in V; congruence). subst idx'. rewrite EH in IN. change (30 / 2 - 1)%Z with 14%Z in IN.
  assert (IN' : forall x, In x idx <-> exists j, (0 <= j)%Z /\ x = (14 + 30 * j)%Z /\ ((x + 33) * h <= sig_len rs)%Z /\
       exists t, (30 * j <= Z.of_nat t < 30 * j + 30)%Z /\ voiced_f64 (data_matrix rs) peak 14 h t).
  { intros x. rewrite IN. 
    assert (SV : forall t, (Z.of_nat t < w - 14)%Z -> ~ reported_silent (vad_frames (map (fun v => Bdiv mode_NE v peak) (data_matrix rs)) 14 h (Z.to_nat (w - 14))) t <-> voiced_f64 (data_matrix rs) peak 14 h t).
    { intros t Ht. apply silent_voiced; [lia|lia|lia|]. change (zlen (data_matrix rs)) with (sig_len rs). rewrite Z2Nat.id by lia. nia. }
    split; intros (j & J0 & E & B & t & T & VO); exists j; (split; [exact J0|]); (split; [exact E|]).
    - split; [nia|]. exists t. split; [lia|]. apply SV; [lia|exact VO].
    - assert (B' : (x + 30 <= w)%Z) by nia. split; [exact B'|]. exists t. split; [lia|]. apply SV; [lia|exact VO]. }
  exists peak, idx. split; [exact PK|]. split; [exact SS|]. split; [exact IN'|]. split; [split; [|exact LI]|].
  - assert (I14 : In 14%Z idx) by (apply IN'; exists 0%Z; split; [lia|]; split; [reflexivity|]; split; [nia|]; exists 0%nat; split; [lia|]; left; lia).
    destruct idx as [|i0 rest]; [destruct I14|]. apply StronglySorted_inv in SS as [_ F]. rewrite Forall_forall in F.
    assert (E0 : i0 = 14%Z).
    { destruct I14 as [E|I]; [exact E|]. apply F in I. assert (I0 : In i0 (i0 :: rest)) by (left; reflexivity). apply IN' in I0 as (j & J0 & E & _). lia. }
    subst i0. apply (TWO 14%Z rest eq_refl); [lia|]. intros s Hs. apply F in Hs. lia.
  - intros k p Hk. destruct (SP k p Hk) as (off & _ & i & len & I0 & _ & _ & _ & IL & [_ S1] & [_ S2] & _). rewrite Hr in S1, S2. apply Rabs_le_inv in S1, S2.
    assert (A1 : IZR (nth k idx 0%Z * h) <= IZR (nth k idx 0%Z * h + i)) by (apply IZR_le; lia).
    assert (A2 : IZR (nth k idx 0%Z * h + i + len) <= IZR ((nth k idx 0%Z + 30) * h) + 3) by (rewrite <- plus_IZR; apply IZR_le; nia).
    lra.
Qed.

(** ** Sound that no patch covers *)
Lemma zero_level peak : sample_i16 (Bdiv mode_NE (f64_ofZ 0) peak) = 0%Z.
Proof. change (f64_ofZ 0) with (B754_zero false : f64). destruct peak as [s|s| |s m e B]; [reflexivity|destruct s; reflexivity|reflexivity|destruct s; reflexivity]. Qed.
Lemma list_ext_Z (l k : list Z) : List.length l = List.length k -> (forall i, (i < List.length l)%nat -> nth i l 0%Z = nth i k 0%Z) -> l = k.
Proof. intros L H. apply (nth_ext _ _ 0%Z 0%Z); auto. Qed.
Lemma zeros_are_quiet n : (1 <= n)%nat -> quiet (repeat 0%Z n).
Proof.
  intros H. unfold quiet, zlen. rewrite repeat_length. assert (E : sum_squares (repeat 0%Z n) = 0%Z) by (clear; induction n; [reflexivity|cbn [repeat sum_squares fold_right]; exact IHn]). rewrite E. lia.
Qed.
Lemma min_aux a b L : (a + b <= L)%nat -> Nat.min b (L - a) = b.
Proof. lia. Qed.
Lemma zeros_quiet_F samples peak h k : (1 <= h)%Z -> (14 + (Z.of_nat k + 1) * h <= zlen samples)%Z -> (forall n, (Z.of_nat n < 60 * h + 14)%Z \/ (74 * h <= Z.of_nat n)%Z -> nth n samples (f64_ofZ 0) = f64_ofZ 0) ->
  ~ quiet (vad_frame (map (fun x => Bdiv mode_NE x peak) samples) 14 h k) -> (60 <= k < 74)%nat.
Proof.
  intros Hh HL HZ NQ. assert (HK : (14 + k * Z.to_nat h + Z.to_nat h <= List.length samples)%nat) by (unfold zlen in HL; nia).
  destruct (Nat.lt_ge_cases k 60) as [K|K]; [|destruct (Nat.lt_ge_cases k 74) as [K2|K2]; [lia|]]; exfalso; apply NQ; clear NQ.
  all: assert (E : vad_frame (map (fun x => Bdiv mode_NE x peak) samples) 14 h k = repeat 0%Z (Z.to_nat h)).
  1,3: unfold zlen in HL; unfold vad_frame; rewrite skipn_map, firstn_map, map_map; apply (list_ext_Z _ _); [rewrite map_length, firstn_length, skipn_length, repeat_length; change (Z.to_nat 14) with 14%nat; apply min_aux; exact HK|];
    intros i Hi; rewrite map_length, firstn_length, skipn_length in Hi; rewrite nth_repeat;
    rewrite (nth_indep _ 0%Z (sample_i16 (Bdiv mode_NE (f64_ofZ 0) peak))) by (rewrite map_length, firstn_length, skipn_length; lia);
    rewrite (map_nth (fun x => sample_i16 (Bdiv mode_NE x peak))); rewrite nth_firstn_lt by lia; rewrite nth_skipn; rewrite HZ; [apply zero_level|]; change (Z.to_nat 14) with 14%nat.
  - left. assert (k * Z.to_nat h <= 59 * Z.to_nat h)%nat by (apply Nat.mul_le_mono_r; lia). lia.
  - right. assert (74 * Z.to_nat h <= k * Z.to_nat h)%nat by (apply Nat.mul_le_mono_r; lia). lia.
  - rewrite E. apply zeros_are_quiet. lia.
  - rewrite E. apply zeros_are_quiet. lia.
Qed.
Lemma gap_all_F lm pf nb u ws (m m' : Manager (F64 lm)) calls files a b (rs ds : AudioSignal (F64 lm)) h r :
  new_manager nb (Wideband u) ws = Ok m -> load_as_mono (files a) = Ok rs -> load_as_mono (files b) = Ok ds ->
  sample_rate rs = (50 * h)%Z -> (1 <= h <= 2 ^ 20)%Z -> (sig_len rs <= 2 ^ 32)%Z -> (sig_len ds <= 2 ^ 32)%Z ->
  Forall (fun x : f64 => is_nan x = false) (data_matrix rs) ->
  (forall n, (Z.of_nat n < 60 * h + 14)%Z \/ (74 * h <= Z.of_nat n)%Z -> nth n (data_matrix rs) (f64_ofZ 0) = f64_ofZ 0) ->
  run pf nb files (after_calls pf nb m calls) a b = (m', Ok r) ->
  forall p n, In p (patch_sims r) -> B2R (ref_patch_start_time p : f64) <= INR n / IZR (sample_rate rs) < B2R (ref_patch_end_time p : f64) + 3 / 50 -> nth n (data_matrix rs) (f64_ofZ 0) = f64_ofZ 0.
Proof.
  intros Hm La Lb Hr Hh L1 L2 HN HZ H p n Hp Hn.
  destruct (voice_all_F lm pf nb u ws m m' calls files a b rs ds h r Hm La Lb Hr Hh L1 L2 HN H) as (_ & peak & st & _ & _ & IN & [_ LE] & SP).
  apply In_nth_error in Hp as (k & Hk). destruct (SP k p Hk) as [S1 S2].
  assert (KL : (k < List.length st)%nat) by (apply Nat.lt_le_trans with (List.length (patch_sims r)); [apply nth_error_Some; rewrite Hk; discriminate|exact LE]).
  pose proof (nth_In st 0%Z KL) as I. apply IN in I as (j & J0 & E & B & t & T & VO).
  assert (J : j = 0%Z \/ j = 2%Z).
  { destruct VO as [V|(q & Q & V)]; [left; lia|]. apply zeros_quiet_F in V; [lia|lia| |exact HZ]. change (zlen (data_matrix rs)) with (sig_len rs). nia. }
  assert (HR : 0 < IZR h) by (apply (IZR_lt 0); lia).
  assert (EN : INR n = 50 * IZR h * (INR n / IZR (sample_rate rs))) by (rewrite Hr, mult_IZR; field; lra).
  set (y := INR n / IZR (sample_rate rs)) in *. rewrite (mult_IZR 50) in S1, S2.
  assert (CC : IZR (nth k st 0%Z * h) - / 256 <= IZR (Z.of_nat n) /\ IZR (Z.of_nat n) < IZR ((nth k st 0%Z + 33) * h) + 3 + / 256).
  { rewrite <- INR_IZR_INZ, EN. replace ((nth k st 0%Z + 33) * h)%Z with ((nth k st 0%Z + 30) * h + 3 * h)%Z by ring. rewrite (plus_IZR _ (3 * h)), (mult_IZR 3). nra. }
  destruct CC as [C1 C2].
  assert (D1 : (nth k st 0%Z * h <= Z.of_nat n)%Z) by (apply Z.lt_succ_r, lt_IZR; rewrite succ_IZR; lra).
  assert (D2 : (Z.of_nat n < (nth k st 0%Z + 33) * h + 4)%Z) by (apply lt_IZR; rewrite plus_IZR; lra).
  apply HZ. rewrite E in D1, D2. destruct J; subst j; lia.
Qed.
