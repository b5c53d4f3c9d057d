(** The global alignment in binary64. *)
From Coq Require Import Reals Lra Lia List ZArith.
From Flocq Require Import Core IEEE754.BinarySingleNaN.
From Verif Require Import P_R P_Delay.
From Verif Require Import Base Num F64 RNum M_Audio M_Align Spec3 Spec8 Spec15 Spec16 P_F64 P_Win P_Audio P_Base P_Dft P_Xcorr P_Env P_LevelF P_RangeF P_XcorrF P_EnvF.
Import ListNotations.
Open Scope R_scope.

Lemma envelope_length f x : List.length (envelope f x) = List.length x.
Proof. unfold envelope. rewrite map_length, seq_length. reflexivity. Qed.
Lemma envelope_nth f x i : (i < List.length x)%nat ->
  nth i (envelope f x) 0 = Rabs (2 * (centred x i - deficit f (zlen x) * middle_bin f x i) - 1 / 1000000) + mean_signal x.
Proof.
  intros H. unfold envelope. set (g := fun i0 : nat => _ + mean_signal x). rewrite (nth_indep _ 0 (g 0%nat)) by (rewrite map_length, seq_length; exact H).
  rewrite map_nth, seq_nth by exact H. reflexivity.
Qed.
Lemma mean_bound x : x <> [] -> Forall (fun v => Rabs v <= 1) x -> Rabs (mean_signal x) <= 1.
Proof. intros N H. rewrite mean_eq. apply mean_R_bound; assumption. Qed.
Lemma centred_bound x i : x <> [] -> Forall (fun v => Rabs v <= 1) x -> (i < List.length x)%nat -> Rabs (centred x i) <= 2.
Proof.
  intros N H Hi. unfold centred. pose proof (mean_bound x N H) as M. rewrite Forall_forall in H. pose proof (H _ (nth_In x 0 Hi)) as V.
  eapply Rle_trans; [apply Rabs_minus_tri|]. lra.
Qed.
Lemma envelope_bound f x i : x <> [] -> Forall (fun v => Rabs v <= 1) x -> (zlen x <= f)%Z -> (i < List.length x)%nat -> Rabs (nth i (envelope f x) 0) <= 14.
Proof.
  intros N H Hf Hi. rewrite envelope_nth by exact Hi. pose proof (mean_bound x N H) as M. pose proof (centred_bound x i N H Hi) as C.
  assert (LX : (1 <= zlen x)%Z) by (unfold zlen; lia).
  assert (B : Rabs (middle_bin f x i) <= 2).
  { set (c := map (centred x) (seq 0 (List.length x))).
    assert (LC : List.length c = List.length x) by (unfold c; rewrite map_length, seq_length; reflexivity).
    assert (NC : forall a, (a < List.length x)%nat -> nth a c 0 = centred x a) by (intros a Ha; unfold c; apply nth_tab_any; exact Ha).
    assert (MM : middle_bin f x i = mb f c i).
    { unfold middle_bin, mb. rewrite LC. f_equal. unfold Sg. f_equal. apply map_ext_in. intros a Ha. apply in_seq in Ha. rewrite NC by lia. reflexivity. }
    assert (ZE : mb f (repeat 0 (List.length c)) i = 0).
    { unfold mb. rewrite Sg_zero; [unfold Rdiv; ring|]. intros a Ha. rewrite nth_repeat. ring. }
    rewrite MM, <- (Rminus_0_r (mb f c i)), <- ZE. apply mb_diff; [rewrite repeat_length; reflexivity|unfold zlen in *; rewrite LC; lia|].
    intros a Ha. rewrite LC in Ha. rewrite nth_repeat, Rminus_0_r, NC by exact Ha. apply centred_bound; assumption. }
  pose proof (deficit_bnd f (zlen x)) as DB. set (q := deficit f (zlen x)) in *. set (b := middle_bin f x i) in *. set (c := centred x i) in *.
  eapply Rle_trans; [apply Rabs_triang|]. rewrite Rabs_Rabsolu.
  assert (QB : q * Rabs b <= 2 * 2) by (apply Rmult_le_compat; try lra; apply Rabs_pos).
  pose proof (Rabs_minus_tri (2 * (c - q * b)) (1 / 1000000)) as T1. rewrite Rabs_mult, (Rabs_pos_eq 2), (Rabs_pos_eq (1 / 1000000)) in T1 by lra.
  pose proof (Rabs_minus_tri c (q * b)) as T2. rewrite Rabs_mult, (Rabs_pos_eq q) in T2 by lra. lra.
Qed.

Lemma at0_pair (s t : list R) (P : R -> R -> Prop) i : List.length s = List.length t -> P 0 0 ->
  (forall a, (a < List.length s)%nat -> P (nth a s 0) (nth a t 0)) -> P (at0 s i) (at0 t i).
Proof.
  intros L Z H. unfold at0. destruct (i <? 0)%Z; [exact Z|]. destruct (lt_dec (Z.to_nat i) (List.length s)) as [D|D]; [auto|].
  rewrite !nth_overflow by lia. exact Z.
Qed.
Lemma correlation_diff s1 t1 s2 t2 e B k : List.length s1 = List.length t1 -> List.length s2 = List.length t2 -> 0 <= e -> 0 <= B ->
  (forall a, (a < List.length s1)%nat -> Rabs (nth a s1 0 - nth a t1 0) <= e /\ Rabs (nth a s1 0) <= B) ->
  (forall a, (a < List.length s2)%nat -> Rabs (nth a s2 0 - nth a t2 0) <= e /\ Rabs (nth a t2 0) <= B) ->
  Rabs (correlation s1 s2 k - correlation t1 t2 k) <= INR (List.length s2) * (2 * (B * e)).
Proof.
  intros L1 L2 He HB H1 H2. unfold correlation. rewrite <- L2. change (Rabs (Sg (List.length s2) (fun n => at0 s1 (Z.of_nat n + k) * at0 s2 (Z.of_nat n)) - Sg (List.length s2) (fun n => at0 t1 (Z.of_nat n + k) * at0 t2 (Z.of_nat n))) <= INR (List.length s2) * (2 * (B * e))).
  rewrite <- Sg_minus. eapply Rle_trans; [apply Sg_abs|]. rewrite <- Sg_const. apply Sg_le. intros n Hn.
  assert (Q1 : Rabs (at0 s1 (Z.of_nat n + k) - at0 t1 (Z.of_nat n + k)) <= e /\ Rabs (at0 s1 (Z.of_nat n + k)) <= B).
  { apply (at0_pair s1 t1 (fun u v => Rabs (u - v) <= e /\ Rabs u <= B)); auto. rewrite Rminus_0_r, Rabs_R0. auto. }
  assert (Q2 : Rabs (at0 s2 (Z.of_nat n) - at0 t2 (Z.of_nat n)) <= e /\ Rabs (at0 t2 (Z.of_nat n)) <= B).
  { apply (at0_pair s2 t2 (fun u v => Rabs (u - v) <= e /\ Rabs v <= B)); auto. rewrite Rminus_0_r, Rabs_R0. auto. }
  set (a := at0 s1 (Z.of_nat n + k)) in *. set (a' := at0 t1 (Z.of_nat n + k)) in *. set (b := at0 s2 (Z.of_nat n)) in *. set (b' := at0 t2 (Z.of_nat n)) in *.
  replace (a * b - a' * b') with (a * (b - b') + (a - a') * b') by ring. eapply Rle_trans; [apply Rabs_triang|]. rewrite !Rabs_mult.
  assert (Rabs a * Rabs (b - b') <= B * e) by (apply Rmult_le_compat; try apply Rabs_pos; tauto).
  assert (Rabs (a - a') * Rabs b' <= e * B) by (apply Rmult_le_compat; try apply Rabs_pos; tauto). lra.
Qed.

(** The envelope of a recording, with what the search needs to know about it. *)
Lemma envelope_facts pf lm (x : list f64) p : fft_close lm -> hypot_close lm ->
  Forall (fun v => is_finite v = true /\ Rabs (B2R v) <= 1) x -> (2 <= zlen x <= 2 ^ 20)%Z -> next_pow_two pf (zlen x) = Ok p ->
  exists env, calculate_upper_env (N:=F64 lm) pf x = Ok (Some env) /\ List.length env = List.length x /\
    Forall (fun v => is_finite v = true) env /\ magnitude env <= IZR (zlen x) * 15 /\
    let E := envelope (Z.max p 32) (values x) in
    forall i, (i < List.length x)%nat -> Rabs (nth i (values env) 0 - nth i E 0) <= bpow radix2 (-37) * IZR (zlen x) /\
      Rabs (nth i (values env) 0) <= 15 /\ Rabs (nth i E 0) <= 14.
Proof.
  intros FC HC HX HN EP. destruct (envelope_F pf lm x FC HC HX HN) as (p' & env & P & E & LE & V). rewrite EP in P. apply ok_inj in P. subst p'.
  change (num (F64 lm)) with f64 in *.
  exists env. split; [exact E|]. split; [exact LE|]. cbv zeta in V |- *.
  assert (XN : values x <> []) by (destruct x; [cbn in HN; lia|discriminate]).
  assert (LV : List.length (values x) = List.length x) by apply map_length.
  assert (HV : Forall (fun v => Rabs v <= 1) (values x)). { unfold values. apply Forall_map. eapply Forall_impl; [|exact HX]. intros v [_ B]. exact B. }
  assert (PB : (zlen (values x) <= Z.max p 32)%Z).
  { rewrite zlen_exact. destruct (npt_bounds pf (zlen x) 20) as (q & EQ & B); try lia. rewrite EP in EQ. apply ok_inj in EQ. lia. }
  assert (B37 : bpow radix2 (-37) = / 137438953472) by (apply (bpn 37); reflexivity || lia).
  assert (NB : 2 <= IZR (zlen x) <= 1048576) by (split; [apply (IZR_le 2)|apply (IZR_le _ (2 ^ 20))]; lia).
  assert (Q : forall i, (i < List.length x)%nat -> Rabs (nth i (values env) 0 - nth i (envelope (Z.max p 32) (values x)) 0) <= bpow radix2 (-37) * IZR (zlen x) /\
      Rabs (nth i (values env) 0) <= 15 /\ Rabs (nth i (envelope (Z.max p 32) (values x)) 0) <= 14).
  { intros i Hi. destruct (V i Hi) as [_ D]. assert (BE : Rabs (nth i (envelope (Z.max p 32) (values x)) 0) <= 14) by (apply envelope_bound; try assumption; rewrite LV; exact Hi).
    rewrite envelope_nth in * by (rewrite LV; exact Hi). rewrite zlen_exact in *. rewrite nth_exact. fold zz. set (w := _ + mean_signal _) in *.
    split; [exact D|]. split; [|exact BE]. set (g := B2R (nth i env zz)) in *. change (Rabs g <= 15). replace g with (w + (g - w)) by ring. eapply Rle_trans; [apply Rabs_triang|]. rewrite B37 in D. lra. }
  split; [|split; [|exact Q]].
  - apply Forall_forall. intros v Hv. apply (In_nth _ _ zz) in Hv. destruct Hv as (i & Hi & <-). apply V. rewrite <- LE. exact Hi.
  - assert (ZE : zlen env = zlen x) by (unfold zlen; rewrite LE; reflexivity). rewrite <- ZE. apply magnitude_le. apply Forall_forall. intros v Hv.
    apply (In_nth _ _ zz) in Hv. destruct Hv as (i & Hi & <-). rewrite LE in Hi. destruct (Q i Hi) as (_ & B & _). rewrite nth_exact in B. exact B.
Qed.

Lemma align_search pf lm (x1 x2 : list f64) p1 p2 : fft_close lm -> log2_close lm -> hypot_close lm ->
  Forall (fun v => is_finite v = true /\ Rabs (B2R v) <= 1) x1 -> Forall (fun v => is_finite v = true /\ Rabs (B2R v) <= 1) x2 ->
  (2 <= zlen x1 <= 2 ^ 20)%Z -> (2 <= zlen x2 <= 2 ^ 20)%Z ->
  next_pow_two pf (zlen x1) = Ok p1 -> next_pow_two pf (zlen x2) = Ok p2 ->
  let L := Z.max (zlen x1) (zlen x2) in (9 <= L)%Z ->
  let E1 := envelope (Z.max p1 32) (values x1) in let E2 := envelope (Z.max p2 32) (values x2) in
  exists e1 e2 lag, calculate_upper_env (N:=F64 lm) pf x1 = Ok (Some e1) /\ calculate_upper_env (N:=F64 lm) pf x2 = Ok (Some e2) /\
    calculate_best_lag (N:=F64 lm) pf e1 e2 = Ok (Some lag) /\ (- (L - 1) <= lag <= L - 1)%Z /\
    forall k, (- (L - 1) <= k <= L - 1)%Z -> Rabs (correlation E1 E2 k) <= Rabs (correlation E1 E2 lag) + bpow radix2 (-29) * (IZR L * IZR L).
Proof.
  intros FC LC HC H1 H2 N1 N2 P1 P2 L HL E1 E2.
  destruct (envelope_facts pf lm x1 p1 FC HC H1 N1 P1) as (e1 & C1 & L1 & F1 & M1 & V1). destruct (envelope_facts pf lm x2 p2 FC HC H2 N2 P2) as (e2 & C2 & L2 & F2 & M2 & V2).
  change (num (F64 lm)) with f64 in *. cbv zeta in V1, V2. fold E1 in V1. fold E2 in V2.
  assert (Z1 : zlen e1 = zlen x1) by (unfold zlen; rewrite L1; reflexivity). assert (Z2 : zlen e2 = zlen x2) by (unfold zlen; rewrite L2; reflexivity).
  set (N := IZR L). assert (A1 : 2 <= IZR (zlen x1) <= N) by (unfold N, L; split; [apply (IZR_le 2)|apply IZR_le]; lia).
  assert (A2 : 2 <= IZR (zlen x2) <= N) by (unfold N, L; split; [apply (IZR_le 2)|apply IZR_le]; lia).
  assert (AN : 9 <= N <= 1048576) by (unfold N, L in *; split; [apply (IZR_le 9)|apply (IZR_le _ (2 ^ 20))]; lia).
  pose proof b50 as B50'. assert (B50 : 1048576 * 15 <= bpow radix2 50) by (rewrite (bp 50 (2 ^ 50)) by (reflexivity || lia); rewrite <- mult_IZR; apply IZR_le; lia).
  destruct (best_lag_F pf lm e1 e2 FC LC F1 F2) as (lag & EL & R & M); [lra|lra|rewrite Z1, Z2; fold L; unfold L in *; lia|].
  rewrite Z1, Z2 in R, M. fold L in R, M. exists e1, e2, lag. split; [exact C1|]. split; [exact C2|]. split; [exact EL|]. split; [exact R|].
  assert (D : forall j, Rabs (correlation (values e1) (values e2) j - correlation E1 E2 j) <= N * (2 * (15 * (bpow radix2 (-37) * N)))).
  { intros j. assert (LV1 : List.length (values e1) = List.length x1) by (unfold values; rewrite map_length; exact L1).
    assert (LV2 : List.length (values e2) = List.length x2) by (unfold values; rewrite map_length; exact L2).
    assert (X1 : List.length E1 = List.length x1) by (unfold E1; rewrite envelope_length; apply map_length).
    assert (X2 : List.length E2 = List.length x2) by (unfold E2; rewrite envelope_length; apply map_length).
    pose proof (bpow_gt_0 radix2 (-37)) as BP. set (u := bpow radix2 (-37)) in *.
    assert (U0 : 0 <= u * N) by (apply Rmult_le_pos; lra).
    eapply Rle_trans; [apply (correlation_diff _ _ _ _ (u * N) 15)|]; try lra; try (rewrite LV1, X1; reflexivity); try (rewrite LV2, X2; reflexivity).
    - intros a Ha. rewrite LV1 in Ha. destruct (V1 a Ha) as (Q & B & _). split; [|exact B]. eapply Rle_trans; [exact Q|]. apply Rmult_le_compat_l; lra.
    - intros a Ha. rewrite LV2 in Ha. destruct (V2 a Ha) as (Q & _ & B). split; [|lra]. eapply Rle_trans; [exact Q|]. apply Rmult_le_compat_l; lra.
    - rewrite LV2. apply Rmult_le_compat_r; [apply Rmult_le_pos; [lra|apply Rmult_le_pos; lra]|]. rewrite INR_IZR_INZ. fold (zlen x2). lra. }
  intros k Hk. specialize (M k Hk). pose proof (D k) as DK. pose proof (D lag) as DL.
  set (ck := correlation (values e1) (values e2) k) in *. set (cl := correlation (values e1) (values e2) lag) in *.
  assert (T1 : Rabs (correlation E1 E2 k) <= Rabs ck + Rabs (ck - correlation E1 E2 k)).
  { replace (correlation E1 E2 k) with (ck - (ck - correlation E1 E2 k)) at 1 by ring. apply Rabs_minus_tri. }
  assert (T2 : Rabs cl <= Rabs (correlation E1 E2 lag) + Rabs (cl - correlation E1 E2 lag)).
  { replace cl with (correlation E1 E2 lag + (cl - correlation E1 E2 lag)) at 1 by ring. apply Rabs_triang. }
  pose proof (magnitude_pos e1) as MP1. pose proof (magnitude_pos e2) as MP2.
  assert (MM : magnitude e1 * magnitude e2 <= (N * 15) * (N * 15)) by (apply Rmult_le_compat; lra).
  assert (B38 : bpow radix2 (-38) = / 274877906944) by (apply (bpn 38); reflexivity || lia).
  assert (B37 : bpow radix2 (-37) = / 137438953472) by (apply (bpn 37); reflexivity || lia).
  assert (B29 : bpow radix2 (-29) = / 536870912) by (apply (bpn 29); reflexivity || lia).
  assert (B88 : bpow radix2 (-880) <= / 274877906944) by (rewrite <- B38; apply bpow_le; lia).
  rewrite B38 in M. rewrite B37 in *. rewrite B29. assert (NN : 81 <= N * N) by nra.
  assert (/ 274877906944 * (magnitude e1 * magnitude e2) <= / 274877906944 * ((N * 15) * (N * 15))) by (apply Rmult_le_compat_l; lra).
  replace (N * (2 * (15 * (/ 137438953472 * N)))) with (30 / 137438953472 * (N * N)) in * by field.
  replace ((N * 15) * (N * 15)) with (225 * (N * N)) in * by ring. set (q := N * N) in *. lra.
Qed.

(** ** What follows from the lag *)
Lemma align_outcome (N : NumOps) pf (rs ds : AudioSignal N) e1 e2 lag :
  calculate_upper_env pf (data_matrix rs) = Ok (Some e1) -> calculate_upper_env pf (data_matrix ds) = Ok (Some e2) ->
  calculate_best_lag pf e1 e2 = Ok (Some lag) -> (followed (sig_len rs) lag = true -> - sig_len ds <= lag)%Z ->
  globally_align pf rs ds = Ok (Some (if followed (sig_len rs) lag
    then ({| data_matrix := moved (nofZ N 0) lag (data_matrix ds); sample_rate := sample_rate ds |}, ndiv N (nofZ N lag) (nofZ N (sample_rate ds)))
    else (ds, nofZ N 0))).
Proof.
  intros C1 C2 CL H. unfold globally_align. rewrite C1. cbn [bind]. rewrite C2. cbn [bind]. rewrite CL. cbn [bind].
  assert (F : followed (sig_len rs) lag = negb ((lag =? 0) || (sig_len rs / 2 <? Z.abs lag))%Z).
  { unfold followed. rewrite Bool.negb_orb. f_equal. apply Z.leb_antisym. }
  rewrite F in H |- *. destruct ((lag =? 0) || (sig_len rs / 2 <? Z.abs lag))%Z; cbn [negb]; [reflexivity|]. specialize (H eq_refl).
  unfold moved. destruct (Z.ltb_spec lag 0) as [D|D]; [|reflexivity].
  assert (E : zslice (data_matrix ds) (Z.abs lag) (sig_len ds) = Ok (skipn (Z.to_nat (- lag)) (data_matrix ds))).
  { apply zslice_ok. unfold sig_len in *. split; [lia|]. replace (Z.abs lag) with (- lag)%Z by lia. symmetry. apply firstn_all2. rewrite skipn_length. unfold zlen. lia. }
  rewrite E. reflexivity.
Qed.

Lemma align_F pf lm (rs ds : AudioSignal (F64 lm)) p1 p2 : fft_close lm -> log2_close lm -> hypot_close lm ->
  let x1 : list f64 := data_matrix rs in let x2 : list f64 := data_matrix ds in
  Forall (fun v => is_finite v = true /\ Rabs (B2R v) <= 1) x1 -> Forall (fun v => is_finite v = true /\ Rabs (B2R v) <= 1) x2 ->
  (2 <= zlen x1 <= 2 ^ 20)%Z -> (2 <= zlen x2 <= 2 ^ 20)%Z -> (zlen x1 / 2 <= zlen x2)%Z ->
  next_pow_two pf (zlen x1) = Ok p1 -> next_pow_two pf (zlen x2) = Ok p2 ->
  let L := Z.max (zlen x1) (zlen x2) in (9 <= L)%Z ->
  let E1 := envelope (Z.max p1 32) (values x1) in let E2 := envelope (Z.max p2 32) (values x2) in
  exists lag, (- (L - 1) <= lag <= L - 1)%Z /\
    (forall k, (- (L - 1) <= k <= L - 1)%Z -> Rabs (correlation E1 E2 k) <= Rabs (correlation E1 E2 lag) + bpow radix2 (-29) * (IZR L * IZR L)) /\
    globally_align pf rs ds = Ok (Some (if followed (zlen x1) lag
      then (@Build_AudioSignal (F64 lm) (moved (f64_ofZ 0) lag x2) (sample_rate ds), Bdiv mode_NE (f64_ofZ lag) (f64_ofZ (sample_rate ds)))
      else (ds, f64_ofZ 0))).
Proof.
  intros FC LC HC x1 x2 H1 H2 N1 N2 NN P1 P2 L HL E1 E2.
  destruct (align_search pf lm x1 x2 p1 p2 FC LC HC H1 H2 N1 N2 P1 P2 HL) as (e1 & e2 & lag & C1 & C2 & CL & R & M).
  exists lag. split; [exact R|]. split; [exact M|]. apply (align_outcome (F64 lm) pf rs ds e1 e2 lag C1 C2 CL).
  unfold followed. intros F. apply andb_prop in F. destruct F as [_ F]. apply Z.leb_le in F. change (sig_len rs) with (zlen x1) in F. change (sig_len ds) with (zlen x2). lia.
Qed.

Lemma align_clear_F pf lm (rs ds : AudioSignal (F64 lm)) p1 p2 k : fft_close lm -> log2_close lm -> hypot_close lm ->
  let x1 : list f64 := data_matrix rs in let x2 : list f64 := data_matrix ds in
  Forall (fun v => is_finite v = true /\ Rabs (B2R v) <= 1) x1 -> Forall (fun v => is_finite v = true /\ Rabs (B2R v) <= 1) x2 ->
  (2 <= zlen x1 <= 2 ^ 20)%Z -> (2 <= zlen x2 <= 2 ^ 20)%Z ->
  next_pow_two pf (zlen x1) = Ok p1 -> next_pow_two pf (zlen x2) = Ok p2 ->
  let L := Z.max (zlen x1) (zlen x2) in (9 <= L)%Z -> (- zlen x2 < k < zlen x1)%Z ->
  let E1 := envelope (Z.max p1 32) (values x1) in let E2 := envelope (Z.max p2 32) (values x2) in
  (forall j, (- (L - 1) <= j <= L - 1)%Z -> j <> k ->
    Rabs (correlation E1 E2 j) + bpow radix2 (-29) * (IZR L * IZR L) < Rabs (correlation E1 E2 k)) ->
  globally_align pf rs ds = Ok (Some (if followed (zlen x1) k
    then (@Build_AudioSignal (F64 lm) (moved (f64_ofZ 0) k x2) (sample_rate ds), Bdiv mode_NE (f64_ofZ k) (f64_ofZ (sample_rate ds)))
    else (ds, f64_ofZ 0))).
Proof.
  intros FC LC HC x1 x2 H1 H2 N1 N2 P1 P2 L HL Hk E1 E2 HP.
  destruct (align_search pf lm x1 x2 p1 p2 FC LC HC H1 H2 N1 N2 P1 P2 HL) as (e1 & e2 & lag & C1 & C2 & CL & R & M). fold L E1 E2 in R, M.
  assert (lag = k) as ->.
  { destruct (Z.eq_dec lag k) as [e|D]; [exact e|]. specialize (HP lag R D). specialize (M k ltac:(unfold L; lia)). lra. }
  apply (align_outcome (F64 lm) pf rs ds e1 e2 k C1 C2 CL). intros _. change (sig_len ds) with (zlen x2). lia.
Qed.

(** ** In exact arithmetic *)
Lemma align_R pf (rs ds : AudioSignal RN) p1 p2 :
  let x1 : list R := data_matrix rs in let x2 : list R := data_matrix ds in
  (1 <= zlen x1 <= 2 ^ 62)%Z -> (1 <= zlen x2 <= 2 ^ 62)%Z ->
  next_pow_two pf (zlen x1) = Ok p1 -> next_pow_two pf (zlen x2) = Ok p2 ->
  let L := Z.max (zlen x1) (zlen x2) in (9 <= L)%Z ->
  let E1 := envelope (Z.max p1 32) x1 in let E2 := envelope (Z.max p2 32) x2 in
  exists lag, (- (L - 1) <= lag <= L - 1)%Z /\
    (forall k, (- (L - 1) <= k <= L - 1)%Z -> Rabs (correlation E1 E2 k) <= Rabs (correlation E1 E2 lag)) /\
    (forall k, (- (L - 1) <= k < lag)%Z -> correlation E1 E2 k <> correlation E1 E2 lag) /\
    globally_align pf rs ds = Ok (Some (if followed (zlen x1) lag
      then (@Build_AudioSignal RN (moved 0 lag x2) (sample_rate ds), IZR lag / IZR (sample_rate ds))
      else (ds, 0))).
Proof.
  intros x1 x2 N1 N2 P1 P2 L HL E1 E2.
  assert (EE : forall x p, (1 <= zlen x <= 2 ^ 62)%Z -> next_pow_two pf (zlen x) = Ok p -> calculate_upper_env (N:=RN) pf x = Ok (Some (envelope (Z.max p 32) x))).
  { intros x p HN HP. destruct (C15_all pf x HN) as (q & env & Q & E & LE & V). change (num RN) with R in *. rewrite HP in Q. apply ok_inj in Q. subst q. rewrite E. do 2 f_equal.
    apply nth_ext with (d := 0) (d' := 0); [rewrite envelope_length; exact LE|]. intros i Hi. change (num RN) with R in *. rewrite LE in Hi. rewrite envelope_nth by exact Hi. apply V. exact Hi. }
  assert (Z1 : zlen E1 = zlen x1) by (unfold zlen, E1; rewrite envelope_length; reflexivity).
  assert (Z2 : zlen E2 = zlen x2) by (unfold zlen, E2; rewrite envelope_length; reflexivity).
  destruct (C13_all pf E1 E2) as (lag & CL & R & M & S); [unfold longest; rewrite Z1, Z2; unfold L in HL; lia|].
  unfold longest in R, M, S. rewrite Z1, Z2 in R, M, S. fold L in R, M, S. exists lag. split; [exact R|]. split; [exact M|]. split; [exact S|].
  apply (align_outcome RN pf rs ds E1 E2 lag (EE x1 p1 N1 P1) (EE x2 p2 N2 P2) CL).
  unfold followed. intros F. apply andb_prop in F. destruct F as [_ F]. apply Z.leb_le in F. change (sig_len rs) with (zlen x1) in F. change (sig_len ds) with (zlen x2).
  destruct (Z_lt_ge_dec lag (- zlen x2)) as [D|D]; [exfalso|lia].
  assert (Q : forall j, (j <= - zlen x2)%Z -> correlation E1 E2 j = 0).
  { intros j Hj. unfold correlation. change (Sg (List.length E2) (fun n => at0 E1 (Z.of_nat n + j) * at0 E2 (Z.of_nat n)) = 0). apply Sg_zero. intros n Hn.
    rewrite at0_out; [ring|]. unfold zlen in Z2, Hj. lia. }
  apply (S (- (L - 1))%Z); [lia|]. rewrite !Q by lia. reflexivity.
Qed.

(** ** A delayed copy *)
Lemma delay_F pf lm (y : list f64) (k : nat) L f v rate : fft_close lm -> log2_close lm -> hypot_close lm ->
  (9 <= L <= 2 ^ 20)%Z -> next_pow_two pf L = Ok f -> no_middle f L (values y) k ->
  (zlen y + Z.of_nat k = L)%Z -> (1 <= Z.of_nat k <= L / 2)%Z ->
  Forall (fun v => is_finite v = true /\ Rabs (B2R v) <= 1) y -> Rsum (values y) = 0 ->
  Forall (fun x => x <= 0 \/ 1 / 1000000 <= x) (values y) -> In v (values y) -> bpow radix2 (-28) * (IZR L * IZR L * IZR L) <= v * v ->
  let early := @Build_AudioSignal (F64 lm) (y ++ repeat (f64_ofZ 0) k) rate in
  let late := @Build_AudioSignal (F64 lm) (repeat (f64_ofZ 0) k ++ y) rate in
  globally_align pf early late = Ok (Some (@Build_AudioSignal (F64 lm) y rate, Bdiv mode_NE (f64_ofZ (- Z.of_nat k)) (f64_ofZ rate))) /\
  globally_align pf late early =
    Ok (Some (@Build_AudioSignal (F64 lm) (repeat (f64_ofZ 0) k ++ y ++ repeat (f64_ofZ 0) k) rate, Bdiv mode_NE (f64_ofZ (Z.of_nat k)) (f64_ofZ rate))).
Proof.
  intros FC LC HC HL HF HD HY Hk BY Hs Hy Hv Hp early late.
  set (x1 := (y ++ repeat (f64_ofZ 0) k)%list). set (x2 := (repeat (f64_ofZ 0) k ++ y)%list).
  assert (Z1 : zlen x1 = L) by (unfold x1, zlen in *; rewrite app_length, repeat_length; lia).
  assert (Z2 : zlen x2 = L) by (unfold x2, zlen in *; rewrite app_length, repeat_length; lia).
  assert (ZB : forall n, Forall (fun v => is_finite v = true /\ Rabs (B2R v) <= 1) (repeat (f64_ofZ 0) n)).
  { intros n. apply Forall_forall. intros w Hw. apply repeat_spec in Hw. subst w. destruct (ofZ_exact 0 ltac:(lia)) as [F E]. split; [exact F|]. rewrite E, Rabs_R0. lra. }
  assert (B1 : Forall (fun v => is_finite v = true /\ Rabs (B2R v) <= 1) x1) by (apply Forall_app; split; auto).
  assert (B2 : Forall (fun v => is_finite v = true /\ Rabs (B2R v) <= 1) x2) by (apply Forall_app; split; auto).
  assert (VR : forall n, values (repeat (f64_ofZ 0) n) = repeat 0 n).
  { intros n. unfold values. induction n; cbn [repeat map]; [reflexivity|]. rewrite IHn. rewrite ofZ_B2R by lia. reflexivity. }
  assert (V1 : values x1 = values y ++ repeat 0 k) by (unfold x1, values; rewrite map_app; fold (values y); fold (values (repeat (f64_ofZ 0) k)); rewrite VR; reflexivity).
  assert (V2 : values x2 = repeat 0 k ++ values y) by (unfold x2, values; rewrite map_app; fold (values y); fold (values (repeat (f64_ofZ 0) k)); rewrite VR; reflexivity).
  set (E1 := envelope (Z.max f 32) (values x1)). set (E2 := envelope (Z.max f 32) (values x2)).
  assert (M1 : mean_signal (values x1) = 0) by (rewrite V1; unfold mean_signal; rewrite Rsum_app, Rsum_zeros, Hs; unfold Rdiv; ring).
  assert (M2 : mean_signal (values x2) = 0) by (rewrite V2; unfold mean_signal; rewrite Rsum_app, Rsum_zeros, Hs; unfold Rdiv; ring).
  assert (LE1 : zlen E1 = L) by (unfold E1, zlen; rewrite envelope_length; fold (zlen (values x1)); rewrite zlen_exact; exact Z1).
  assert (LE2 : zlen E2 = L) by (unfold E2, zlen; rewrite envelope_length; fold (zlen (values x2)); rewrite zlen_exact; exact Z2).
  assert (Hin : forall z, at0 (values y) z = 0 \/ In (at0 (values y) z) (values y)).
  { intros z. destruct (Z_lt_ge_dec z 0); [left; apply at0_out; lia|]. destruct (Z_lt_ge_dec z (zlen (values y))) as [H|H]; [|left; apply at0_out; lia].
    right. unfold zlen in H. replace z with (Z.of_nat (Z.to_nat z)) by lia. rewrite at0_nat. apply nth_In. lia. }
  destruct (In_nth _ _ 0 Hv) as (p & Pp & Pv). set (m := bpow radix2 (-29) * (IZR L * IZR L)).
  assert (B28 : bpow radix2 (-28) = 2 * bpow radix2 (-29)) by (change 2 with (bpow radix2 1); rewrite <- bpow_plus; reflexivity).
  assert (B29 : bpow radix2 (-29) = / 536870912) by (apply (bpn 29); reflexivity || lia).
  assert (NL : 9 <= IZR L) by (apply (IZR_le 9); lia). assert (NN : 81 <= IZR L * IZR L) by nra.
  assert (M0 : 0 <= m) by (unfold m; rewrite B29; lra).
  destruct (copy_margin (fun z => P_Delay.hh (at0 (values y) z)) eps6 L (Z.of_nat k) (Z.of_nat p) m E1 E2) as (C0 & CS & CM); try assumption; try lia.
  - intros z. apply P_Delay.hh_pos. destruct (Hin z) as [E|E]; [left; lra|]. rewrite Forall_forall in Hy. exact (Hy _ E).
  - intros z Hz. rewrite at0_out; [apply hh0|]. rewrite zlen_exact. lia.
  - unfold eps6. lra.
  - rewrite at0_nat, Pv. pose proof (hh_ge v) as G. fold m in M0. rewrite B28 in Hp. replace (2 * bpow radix2 (-29) * (IZR L * IZR L * IZR L)) with (2 * m * IZR L) in Hp by (unfold m; ring).
    assert (ME : 10000 * (eps6 * eps6) <= m) by (unfold m, eps6; rewrite B29; lra).
    assert (VV : Rabs v * Rabs v = v * v) by (rewrite <- Rabs_mult; apply Rabs_pos_eq; nra).
    pose proof (Rabs_pos v) as AP. set (a := Rabs v) in *. assert (E0 : 0 < eps6) by (unfold eps6; lra). set (e := eps6) in *. rewrite <- VV in Hp.
    assert (A1 : 400 * e <= a). { apply Rsqr_incr_0_var; [|exact AP]. unfold Rsqr. nra. }
    assert (HG : (199 / 100 * a) * (199 / 100 * a) <= P_Delay.hh v * P_Delay.hh v) by (apply Rmult_le_compat; lra).
    assert (0 < m) by nra. nra.
  - intros i Hi. unfold E1. rewrite envelope_nth by (unfold E1 in Hi; rewrite envelope_length in Hi; exact Hi). rewrite zlen_exact, Z1, M1. unfold centred. rewrite M1, V1. rewrite (proj1 (HD i)).
    rewrite nth_pad, at0_nat. unfold P_Delay.hh, eps6. rewrite !Rminus_0_r. ring.
  - intros i Hi. unfold E2. rewrite envelope_nth by (unfold E2 in Hi; rewrite envelope_length in Hi; exact Hi). rewrite zlen_exact, Z2, M2. unfold centred. rewrite M2, V2. rewrite (proj2 (HD i)).
    rewrite nth_back. unfold P_Delay.hh, eps6. rewrite !Rminus_0_r. ring.
  - assert (FO : followed L (- Z.of_nat k) = true /\ followed L (Z.of_nat k) = true).
    { unfold followed. rewrite Z.abs_opp, Z.abs_eq by lia. destruct (Z.eqb_spec (- Z.of_nat k) 0); [lia|]. destruct (Z.eqb_spec (Z.of_nat k) 0); [lia|].
      destruct (Z.leb_spec (Z.of_nat k) (L / 2)); [auto|lia]. }
    assert (KL : (Z.of_nat k < L)%Z) by (pose proof (Z.div_lt L 2); lia).
    split.
    + etransitivity; [apply (align_clear_F pf lm early late f f (- Z.of_nat k) FC LC HC B1 B2)|]; change (data_matrix early) with x1; change (data_matrix late) with x2; rewrite ?Z1, ?Z2; auto; try lia.
      * rewrite Z.max_id. intros j Hj D. fold E1 E2 m. rewrite !Rabs_pos_eq by auto. apply CM; assumption.
      * rewrite (proj1 FO). do 3 f_equal. unfold late. cbn [sample_rate]. f_equal. unfold moved. destruct (Z.ltb_spec (- Z.of_nat k) 0); [|lia].
        rewrite Z.opp_involutive, Nat2Z.id. unfold x2. rewrite <- (repeat_length (f64_ofZ 0) k) at 1. rewrite skipn_app, skipn_all, Nat.sub_diag. reflexivity.
    + etransitivity; [apply (align_clear_F pf lm late early f f (Z.of_nat k) FC LC HC B2 B1)|]; change (data_matrix early) with x1; change (data_matrix late) with x2; rewrite ?Z1, ?Z2; auto; try lia.
      * rewrite Z.max_id. intros j Hj D. fold E1 E2 m. replace j with (- - j)%Z by lia. replace (correlation E2 E1 (Z.of_nat k)) with (correlation E2 E1 (- - Z.of_nat k)) by (f_equal; lia).
        rewrite !CS, !Rabs_pos_eq by auto. apply CM; lia.
      * rewrite (proj2 FO). do 3 f_equal. unfold early. cbn [sample_rate]. f_equal. unfold moved. destruct (Z.ltb_spec (Z.of_nat k) 0); [lia|].
        rewrite Nat2Z.id. reflexivity.
Qed.
Lemma delay_any_F pf lm (y : list f64) (k : nat) L f v rate : fft_close lm -> log2_close lm -> hypot_close lm ->
  (9 <= L <= 2 ^ 20)%Z -> next_pow_two pf L = Ok f -> Z.even (Z.max f 32) = true ->
  (zlen y + Z.of_nat k = L)%Z -> (1 <= Z.of_nat k <= L / 2)%Z ->
  Forall (fun v => is_finite v = true /\ Rabs (B2R v) <= 1) y ->
  Rsum (values y) = 0 -> alternating (values y) = 0 -> Forall (fun x => x <= 0 \/ 1 / 1000000 <= x) (values y) ->
  In v (values y) -> bpow radix2 (-28) * (IZR L * IZR L * IZR L) <= v * v ->
  let early := @Build_AudioSignal (F64 lm) (y ++ repeat (f64_ofZ 0) k) rate in
  let late := @Build_AudioSignal (F64 lm) (repeat (f64_ofZ 0) k ++ y) rate in
  globally_align pf early late = Ok (Some (@Build_AudioSignal (F64 lm) y rate, Bdiv mode_NE (f64_ofZ (- Z.of_nat k)) (f64_ofZ rate))) /\
  globally_align pf late early =
    Ok (Some (@Build_AudioSignal (F64 lm) (repeat (f64_ofZ 0) k ++ y ++ repeat (f64_ofZ 0) k) rate, Bdiv mode_NE (f64_ofZ (Z.of_nat k)) (f64_ofZ rate))).
Proof. intros. apply (delay_F pf lm y k L f v rate); auto. apply no_middle_alt; auto. Qed.
