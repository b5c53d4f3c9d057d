(** C71: the stretches of the reference that the reported patches cover. *)
From Coq Require Import Reals Lra Lia Psatz.
From Verif Require Import Base Num Mat RNum M_Audio M_Align M_Spectro M_Patch M_Nsim M_Selector M_Visqol Spec Spec2 F64.
From Verif Require Import P_Base P_Mat P_Audio P_Manager P_Run P_Spectro P_Times P_Slice P_R P_Agg P_Score P_Patch P_Vad P_Same P_Same2 P_Win P_Nsim P_SilRef.
Open Scope Z_scope.

(** ** Patches come back in the order of the reference *)
Section Order.
Context {N : NumOps}.
Lemma backtrace_order pf (refs : list (mat N)) idx (deg : mat N) bt fd pd k : forall s acc out,
  backtrace_loop pf refs idx deg bt fd pd k s acc = Ok out ->
  exists pre, out = pre ++ acc /\ List.length pre = k /\ (k <= List.length idx)%nat /\
    forall j e, nth_error pre j = Some e -> exists sim lost off, e = set_times sim lost off (nth j idx 0) fd pd /\ 0 <= off <= Z.of_nat (mcols deg).
Proof.
  induction k as [|k IH]; intros s acc out H; cbn [backtrace_loop] in H.
  { injection H as <-. exists []. split; [reflexivity|]. split; [reflexivity|]. split; [lia|]. intros [|j] e; discriminate. }
  do 3 (inv_do H; match goal with H2 : _ = Ok out |- _ => rename H2 into H end).
  do 4 (inv_do H; match goal with H2 : _ = Ok out |- _ => rename H2 into H end).
  apply IH in H as (pre & E & L & LI & P). exists (pre ++ [set_times v2 (s =? v4) s v5 fd pd]). split; [rewrite E, <- app_assoc; reflexivity|].
  split; [rewrite app_length; cbn; lia|]. apply zget_ok in Hv5. destruct Hv5 as [_ Hv5]. rewrite Nat2Z.id in Hv5.
  split; [assert (k < List.length idx)%nat by (apply nth_error_Some; congruence); lia|].
  intros j e Hj. destruct (Nat.lt_ge_cases j k) as [G|G].
  - rewrite nth_error_app1 in Hj by lia. eauto.
  - rewrite nth_error_app2 in Hj by lia. rewrite L in Hj. destruct (j - k)%nat as [|q] eqn:D; [|destruct q; discriminate].
    injection Hj as <-. assert (j = k) by lia. subst j. do 3 eexists. split; [|].
    + erewrite (nth_error_nth idx k 0); [reflexivity|exact Hv5].
    + unfold build_degraded_patch in Hv1. inv_do Hv1. apply mslice_ok in Hv6. lia.
Qed.
Lemma find_order pf (refs : list (mat N)) idx (deg : mat N) fd radius out :
  find_most_optimal_deg_patches pf refs idx deg fd radius = Ok out ->
  exists p0, nth_error refs 0 = Some p0 /\ (List.length out <= List.length idx)%nat /\
    forall j e, nth_error out j = Some e -> exists sim lost off, e = set_times sim lost off (nth j idx 0) fd (nmul N fd (nofZ N (Z.of_nat (mcols p0)))) /\
      0 <= off <= Z.of_nat (mcols deg).
Proof.
  intros H. unfold find_most_optimal_deg_patches in H.
  do 3 (inv_do H; match goal with H2 : _ = Ok out |- _ => rename H2 into H end).
  destruct (Z.eqb_spec v1 0); [discriminate|].
  do 2 (inv_do H; match goal with H2 : _ = Ok out |- _ => rename H2 into H end).
  destruct v3 as [dp bt].
  do 6 (inv_do H; match goal with H2 : _ = Ok out |- _ => rename H2 into H end).
  apply backtrace_order in H as (pre & E & L & LI & P). rewrite app_nil_r in E. subst pre.
  apply zget_ok in Hv. destruct Hv as [_ Hv]. exists v. split; [exact Hv|]. split; [lia|exact P].
Qed.
End Order.

(** ** The shift of fine alignment, in exact arithmetic *)
Open Scope R_scope.
Lemma trunc_shift pf (rs ds r d : AudioSignal RN) lag : sig_len ds = sig_len rs -> sample_rate ds = sample_rate rs -> (1 <= sample_rate rs)%Z -> (sig_len rs < 2 ^ 62)%Z ->
  align_and_truncate pf rs ds = Ok (Some (r, d, lag)) ->
  sample_rate r = sample_rate rs /\ sample_rate d = sample_rate rs /\
  exists k, (0 <= k)%Z /\ (2 * k <= sig_len rs)%Z /\ sig_len r = (sig_len rs - k)%Z /\ sig_len d = (sig_len rs - k)%Z /\
    (lag = IZR k / IZR (sample_rate rs) \/ lag = - (IZR k / IZR (sample_rate rs))).
Proof.
  intros HL HR HP HB H. pose proof (C11_all pf rs ds r d lag (eq_sym HR) H) as (EQ & R1 & R2 & _). split; [exact R1|]. split; [congruence|].
  unfold align_and_truncate in H. step H as o E0. destruct o as [[al lg]|]; [|discriminate]. step H as v E.
  assert (E1 : fst v = data_matrix r) by exact (f_equal (fun x : res (option (AudioSignal RN * AudioSignal RN * R)) => match x with Ok (Some (a, _, _)) => data_matrix a | _ => fst v end) H).
  assert (E3 : lg = lag) by exact (f_equal (fun x : res (option (AudioSignal RN * AudioSignal RN * R)) => match x with Ok (Some (_, _, c)) => c | _ => lg end) H).
  clear H. subst lg. destruct (C10_shift _ _ _ _ _ E0) as [_ S]. clear E0.
  assert (HPR : IZR (sample_rate rs) <> 0) by (apply not_0_IZR; lia).
  assert (Hd : (sig_len rs / 2 * 2 <= sig_len rs)%Z) by (rewrite Z.mul_comm; apply Z.mul_div_le; lia).
  unfold sig_len in *. rewrite <- EQ, <- E1.
  assert (G : forall k : Z, (0 <= k)%Z -> (2 * k <= zlen (data_matrix rs))%Z -> zlen (fst v) = (zlen (data_matrix rs) - k)%Z ->
     (lag = IZR k / IZR (sample_rate rs) \/ lag = - (IZR k / IZR (sample_rate rs))) ->
     exists k0 : Z, (0 <= k0)%Z /\ (2 * k0 <= zlen (data_matrix rs))%Z /\ zlen (fst v) = (zlen (data_matrix rs) - k0)%Z /\ zlen (fst v) = (zlen (data_matrix rs) - k0)%Z /\
       (lag = IZR k0 / IZR (sample_rate rs) \/ lag = - (IZR k0 / IZR (sample_rate rs)))) by (intros k A B C D; exists k; auto).
  assert (SL : (data_matrix al = data_matrix ds /\ lag = nofZ RN 0) \/
    (exists k, (1 <= k <= zlen (data_matrix rs) / 2)%Z /\ (k <= zlen (data_matrix ds))%Z /\ data_matrix al = skipn (Z.to_nat k) (data_matrix ds) /\ lag = ndiv RN (nofZ RN (- k)) (nofZ RN (sample_rate ds))) \/
    (exists k, (1 <= k <= zlen (data_matrix rs) / 2)%Z /\ data_matrix al = repeat (nofZ RN 0) (Z.to_nat k) ++ data_matrix ds /\ lag = ndiv RN (nofZ RN k) (nofZ RN (sample_rate ds)))).
  { clear - S. destruct S as [|k Hk Hk2|k Hk]; [left; split; reflexivity|right; left; exists k; auto|right; right; exists k; auto]. }
  clear S. destruct SL as [[SA SB]|[(k & Hk & Hk2 & SA & SB)|(k & Hk & SA & SB)]].
  - rewrite SA in E. rewrite HL, Z.ltb_irrefl in E. injection E as <-. apply (G 0%Z); cbn [fst]; [lia|pose proof (zlen_nonneg (data_matrix rs)); lia|lia|].
    left. rewrite SB. cbn [nofZ RN]. unfold Rdiv. rewrite Rmult_0_l. reflexivity.
  - assert (Za : zlen (data_matrix al) = (zlen (data_matrix rs) - k)%Z) by (rewrite SA; unfold zlen in *; rewrite skipn_length; lia).
    rewrite Za in E. destruct (Z.ltb_spec (zlen (data_matrix rs)) (zlen (data_matrix rs) - k)); [lia|].
    destruct (Z.ltb_spec (zlen (data_matrix rs) - k) (zlen (data_matrix rs))); [|lia].
    step E as x Ex. injection E as <-. pose proof (zslice_len _ _ _ _ Ex) as L1. apply (G k); cbn [fst]; [lia|lia|lia|].
    right. rewrite SB. cbn [ndiv nofZ RN]. rewrite HR, opp_IZR. realeq. field. exact HPR.
  - assert (Za : zlen (data_matrix al) = (zlen (data_matrix rs) + k)%Z) by (rewrite SA; unfold zlen in *; rewrite app_length, repeat_length; lia).
    rewrite Za in E. destruct (Z.ltb_spec (zlen (data_matrix rs)) (zlen (data_matrix rs) + k)); [|lia].
    step E as x Ex. step E as y Ey. injection E as <-. pose proof (zslice_len _ _ _ _ Ex) as L1.
    assert (U : as_usize (N:=RN) (nmul RN lag (nofZ RN (sample_rate rs))) = k).
    { rewrite SB. cbn [ndiv nmul nofZ RN]. rewrite HR. replace (IZR k / IZR (sample_rate rs) * IZR (sample_rate rs)) with (IZR k) by (field; auto). apply usize_int. lia. }
    rewrite U in L1. apply (G k); cbn [fst]; [lia|lia|unfold sig_len in L1; lia|].
    left. rewrite SB. cbn [ndiv nofZ RN]. rewrite HR. reflexivity.
Qed.
Lemma dur_n W rate fp n : (1 <= rate)%Z -> (fp * W = 4 * n)%Z -> frame_dur W rate * IZR fp = IZR n / IZR rate.
Proof.
  intros H E. pose proof (dur_times W rate fp H) as D. assert (HP : IZR rate <> 0) by (apply not_0_IZR; lia).
  apply (Rmult_eq_reg_r (IZR rate)); [|exact HP]. replace (IZR n / IZR rate * IZR rate) with (IZR n) by (field; exact HP).
  rewrite (Rmult_comm (frame_dur W rate)), D, E, mult_IZR. lra.
Qed.
Lemma span_quarter r fp W n : (fp * W = 4 * n)%Z -> ((r + fp) * W / 4 - r * W / 4 = n)%Z.
Proof. intros E. replace ((r + fp) * W)%Z with (r * W + n * 4)%Z by lia. rewrite Z.div_add by lia. lia. Qed.
Definition spans (W rate fp n r off : Z) (p : PatchSim RN) : Prop :=
  exists i len, (0 <= i)%Z /\ (2 * i <= n)%Z /\ (n <= 2 * len)%Z /\ (i + len <= n)%Z /\
    ref_patch_start_time p = IZR r * frame_dur W rate + IZR i / IZR rate /\ ref_patch_end_time p = ref_patch_start_time p + IZR len / IZR rate /\
    ((deg_patch_start_time p = 0 /\ deg_patch_end_time p = 0 /\ len = n) \/
     exists j, (0 <= j)%Z /\ (2 * j <= n)%Z /\ (j + len <= n)%Z /\
       deg_patch_start_time p = IZR off * frame_dur W rate + IZR j / IZR rate /\ deg_patch_end_time p = deg_patch_start_time p + IZR len / IZR rate).
Lemma realign_span pf nb (rs ds : AudioSignal RN) w (f f' : Filterbank RN) old p sim lost off r fp n :
  let W := win_size w in let rate := sample_rate rs in let fd := frame_dur W rate in
  sample_rate ds = rate -> (1 <= rate)%Z -> (0 <= W)%Z -> (0 <= fp)%Z -> (0 <= r)%Z -> (0 <= off)%Z -> (fp * W = 4 * n)%Z -> (n < 2 ^ 62)%Z ->
  ((r + fp) * W < 2 ^ 66)%Z -> ((off + fp) * W < 2 ^ 66)%Z -> (sig_len rs < 2 ^ 62)%Z -> (sig_len ds < 2 ^ 62)%Z ->
  old = set_times (N:=RN) sim lost off r fd (fd * IZR fp) -> realign_patch pf nb rs ds w f old = (f', Ok p) -> spans W rate fp n r off p.
Proof.
  intros W rate fd HR HP HW Hfp Hr Ho E4 Hn B1 B2 L1 L2 Eold H.
  assert (HPR : IZR rate <> 0) by (apply not_0_IZR; lia).
  assert (Hn0 : (0 <= n)%Z) by nia.
  pose proof (dur_n W rate fp n HP E4) as DN. fold fd in DN.
  assert (OLD : p = old -> spans W rate fp n r off p).
  { intros ->. exists 0%Z, n. split; [lia|]. split; [lia|]. split; [lia|]. split; [lia|]. rewrite Eold. cbn [set_times ref_patch_start_time ref_patch_end_time deg_patch_start_time deg_patch_end_time nmul nadd nofZ RN].
    split; [fold fd; unfold Rdiv; rewrite Rmult_0_l, Rplus_0_r; reflexivity|]. split; [rewrite DN; reflexivity|].
    destruct lost; [left; auto|right]. exists 0%Z. split; [lia|]. split; [lia|]. split; [lia|]. split; [fold fd; unfold Rdiv; rewrite Rmult_0_l, Rplus_0_r; reflexivity|rewrite DN; reflexivity]. }
  destruct lost.
  { apply OLD. unfold realign_patch in H. assert (L : is_lost old = true).
    { rewrite Eold. unfold is_lost. cbn [set_times deg_patch_start_time deg_patch_end_time]. cbn [neqb nofZ RN]. rewrite !Reqb_refl. reflexivity. }
    rewrite L in H. congruence. }
  apply realign_inv in H as [-> |(ra & da & ra' & da' & lag & fb1 & rspec & fb2 & dspec & rp & dp & new & S1 & S2 & AL & _ & _ & _ & _ & NL & ->)]; [apply OLD; reflexivity|].
  assert (S1' : slice rs (IZR r * fd) (IZR r * fd + fd * IZR fp) = Ok ra) by (rewrite Eold in S1; exact S1).
  assert (S2' : slice ds (IZR off * fd) (IZR off * fd + fd * IZR fp) = Ok da) by (rewrite Eold in S2; exact S2).
  apply slice_R_len in S1'; auto. destruct S1' as [RR LR]. fold W in LR. rewrite (span_quarter r fp W n E4) in LR.
  unfold fd in S2'. rewrite <- HR in S2'. apply slice_R_len in S2'; auto; [|lia]. destruct S2' as [RD LD]. rewrite (span_quarter off fp W n E4) in LD.
  apply trunc_shift in AL; [|rewrite LR, LD; reflexivity|rewrite RR, RD; exact HR|rewrite RR; exact HP|rewrite LR; lia]. destruct AL as (R1 & R2 & k & K0 & K1 & K2 & K3 & KL).
  rewrite RR in R1, R2, KL. fold rate in R1, R2, KL. rewrite LR in K1, K2, K3.
  assert (KP : 0 <= IZR k / IZR rate). { apply Rmult_le_pos; [apply (IZR_le 0); lia|]. left. apply Rinv_0_lt_compat. apply (IZR_lt 0). lia. }
  unfold spans, choose_result. rewrite NL. cbn [ref_patch_end_time ref_patch_start_time deg_patch_start_time deg_patch_end_time]. unfold get_duration. rewrite K2, K3, R1, R2.
  rewrite Eold. cbn [set_times ref_patch_start_time ref_patch_end_time deg_patch_start_time deg_patch_end_time]. cbn [nltb nmul nadd nsub ndiv nofZ RN]. fold fd.
  destruct (Rltb 0 lag) eqn:EL; [apply Rltb_true in EL|apply Rltb_false in EL].
  - assert (lag = IZR k / IZR rate) as -> by (destruct KL as [->| ->]; [reflexivity|lra]).
    exists k, (n - k)%Z. split; [lia|]. split; [lia|]. split; [lia|]. split; [lia|]. split; [reflexivity|]. split; [reflexivity|].
    right. exists 0%Z. split; [lia|]. split; [lia|]. split; [lia|]. split; [unfold Rdiv; rewrite Rmult_0_l, Rplus_0_r; reflexivity|reflexivity].
  - assert (EN : - lag = IZR k / IZR rate) by (destruct KL as [->| ->]; lra).
    exists 0%Z, (n - k)%Z. split; [lia|]. split; [lia|]. split; [lia|]. split; [lia|]. split; [unfold Rdiv; rewrite Rmult_0_l, Rplus_0_r; reflexivity|]. split; [reflexivity|].
    right. exists k. split; [lia|]. split; [lia|]. split; [lia|]. split; [rewrite <- EN; reflexivity|reflexivity].
Qed.

(** ** The run *)
Lemma window_R rate o : (0 <= rate < 2 ^ 60)%Z -> win_size (new_window (N:=RN) rate o WINDOW_DURATION) = ((4 * rate + 25) / 50)%Z.
Proof.
  intros H. unfold new_window. cbn [win_size nroundZ RN].
  replace (Rround _) with ((4 * rate + 25) / 50)%Z; [rewrite usize_int; [reflexivity|split; [apply Z.div_pos; lia|]; assert ((4 * rate + 25) / 50 <= 2 ^ 60)%Z by (apply Z.div_le_upper_bound; lia); lia]|].
  change (nmul RN (nofZ RN rate) WINDOW_DURATION) with (IZR rate * (IZR 8 / IZR (10 ^ 2))).
  change (10 ^ 2)%Z with 100%Z. unfold Rround. assert (0 <= IZR rate) by (apply (IZR_le 0); lia).
  destruct (Rle_dec 0 (IZR rate * (8 / 100))) as [_|NO]; [|exfalso; apply NO; lra].
  symmetry. apply Raux.Zfloor_imp. pose proof (Z.div_mod (4 * rate + 25) 50 ltac:(lia)) as D. pose proof (Z.mod_pos_bound (4 * rate + 25) 50 ltac:(lia)) as B.
  set (q := ((4 * rate + 25) / 50)%Z) in *. set (t := ((4 * rate + 25) mod 50)%Z) in *.
  assert (E : 4 * IZR rate + 25 = 50 * IZR q + IZR t) by (rewrite <- !mult_IZR, <- !plus_IZR; f_equal; exact D).
  assert (0 <= IZR t <= 49) by (split; apply IZR_le; lia). rewrite plus_IZR. lra.
Qed.
Lemma usize_quarter z : (0 <= z < 2 ^ 62)%Z -> as_usize (N:=RN) (IZR z * (IZR 25 / IZR (10 ^ 2))) = (z / 4)%Z.
Proof.
  intros H. unfold as_usize. cbn [ncast RN]. replace (Raux.Ztrunc _) with (z / 4)%Z.
  { assert (0 <= z / 4 <= z)%Z by (split; [apply Z.div_pos; lia|apply Z.div_le_upper_bound; lia]). unfold usize_mod. lia. }
  change (10 ^ 2)%Z with 100%Z. assert (0 <= IZR z) by (apply (IZR_le 0); lia). rewrite Raux.Ztrunc_floor by lra. symmetry. apply Raux.Zfloor_imp.
  pose proof (Z.div_mod z 4 ltac:(lia)) as D. pose proof (Z.mod_pos_bound z 4 ltac:(lia)) as B.
  assert (E : IZR z = 4 * IZR (z / 4) + IZR (z mod 4)) by (rewrite <- mult_IZR, <- plus_IZR; f_equal; exact D).
  assert (0 <= IZR (z mod 4) <= 3) by (split; apply IZR_le; lia). rewrite plus_IZR. lra.
Qed.
Lemma hop_R rate : (0 <= rate < 2 ^ 60)%Z -> hop_size (new_window (N:=RN) rate OVERLAP WINDOW_DURATION) = ((4 * rate + 25) / 50 / 4)%Z.
Proof.
  intros H. unfold hop_size. rewrite window_R by auto. apply usize_quarter. split; [apply Z.div_pos; lia|].
  assert ((4 * rate + 25) / 50 <= 2 ^ 60)%Z by (apply Z.div_le_upper_bound; lia). lia.
Qed.
Lemma F2_nth {A B} (P : A -> B -> Prop) l l' : Forall2 P l l' -> forall k y, nth_error l' k = Some y -> exists x, nth_error l k = Some x /\ P x y.
Proof. induction 1 as [|x y l l' HP F IH]; intros [|k] z Hk; try discriminate; [injection Hk as <-; exists x; auto|exact (IH k z Hk)]. Qed.
Lemma gap_le l ps : (0 <= ps)%Z -> (forall k, (S k < List.length l)%nat -> (nth k l 0 + ps <= nth (S k) l 0)%Z) ->
  forall j i, (i < j < List.length l)%nat -> (nth i l 0 + ps <= nth j l 0)%Z.
Proof.
  intros Hp G. induction j as [|j IH]; intros i H; [lia|]. specialize (G j ltac:(lia)). destruct (Nat.eq_dec i j) as [-> |]; [exact G|].
  specialize (IH i ltac:(lia)). lia.
Qed.
Lemma order_all pf nb v ws (m m' : Manager RN) calls files a b (rs ds : AudioSignal RN) r :
  new_manager nb v ws = Ok m -> load_as_mono (files a) = Ok rs -> load_as_mono (files b) = Ok ds ->
  (1 <= sample_rate rs < 2 ^ 32)%Z -> (sig_len rs <= 2 ^ 32)%Z -> (sig_len ds <= 2 ^ 32)%Z ->
  let rate := sample_rate rs in let W := ((4 * rate + 25) / 50)%Z in
  let fp := match v with Wideband _ => 30%Z | Fullband _ => 20%Z end in
  forall n, (fp * W = 4 * n)%Z ->
  run pf nb files (after_calls pf nb m calls) a b = (m', Ok r) ->
  exists idx, (List.length (patch_sims r) <= List.length idx)%nat /\
    (forall k, (S k < List.length idx)%nat -> (nth k idx 0 + fp <= nth (S k) idx 0)%Z) /\
    (forall k, (k < List.length idx)%nat -> (0 <= nth k idx 0)%Z /\ ((nth k idx 0 + fp - 1) * (W / 4) + W <= sig_len rs)%Z) /\
    (forall k p, nth_error (patch_sims r) k = Some p -> exists off, (0 <= off)%Z /\ spans W rate fp n (nth k idx 0%Z) off p) /\
    (forall i0 rest, idx = i0 :: rest -> (0 <= i0 < fp / 2)%Z -> (forall s, In s rest -> (fp / 2 <= s)%Z) -> (2 <= List.length (patch_sims r))%nat) /\
    match v with
    | Wideband _ => vad_patch_indices pf 30 (1 + (sig_len rs - W) / (W / 4)) rs (new_window (sample_rate rs) OVERLAP WINDOW_DURATION) = Ok idx
    | Fullband _ => (2 <= List.length (patch_sims r))%nat /\ (forall k, (k < List.length idx)%nat -> nth k idx 0%Z = (9 + 20 * Z.of_nat k)%Z)
    end.
Proof.
  intros Hm La Lb Hrate L1 L2 rate W fp n E4 H.
  set (m1 := after_calls pf nb m calls) in *. destruct (after_same pf nb calls m) as (Sw & Cr & Mp & _). fold m1 in Sw, Cr, Mp.
  assert (Hps : creator_patch_size (mg_creator m) = fp).
  { unfold new_manager in Hm. unfold fp. destruct v as [u|[s|]]; cbn [bind] in Hm; try discriminate; inversion Hm; auto. }
  assert (Him : match v with Wideband _ => exists z, mg_creator m = VadPatchCreator z | Fullband _ => exists z, mg_creator m = ImagePatchCreator z end).
  { unfold new_manager in Hm. destruct v as [u|[s|]]; cbn [bind] in Hm; try discriminate; injection Hm as <-; eexists; reflexivity. }
  assert (Hfp : (20 <= fp <= 30)%Z) by (unfold fp; destruct v; lia).
  apply run_parts in H. destruct H as (rs' & ds' & al & lag & fb1 & fb2 & fb3 & rspec & dspec & rp & dp & idx & pts & info & H).
  cbv zeta in H. destruct H as (LA & LB & RR & GA & B1 & B2 & PR & CI & PT & FD & FA & _).
  assert (rs' = rs) by congruence. assert (ds' = ds) by congruence. subst rs' ds'.
  rewrite Cr in CI, PT. rewrite Hps in PT.
  set (w := new_window (sample_rate rs) OVERLAP WINDOW_DURATION) in *.
  assert (EW : win_size w = W) by (apply window_R; lia).
  assert (EH : hop_size w = (W / 4)%Z) by (apply hop_R; lia).
  assert (W0 : (0 <= W <= 2 ^ 32)%Z) by (unfold W; split; [apply Z.div_pos; lia|apply Z.div_le_upper_bound; lia]).
  assert (H4 : (0 <= W / 4)%Z) by (apply Z.div_pos; lia).
  assert (Hh : (0 < W / 4)%Z) by (apply build_inv in B1; lia).
  assert (HW : (W <= sig_len rs)%Z) by (rewrite <- EW; apply build_inv in B1; apply B1).
  pose proof (build_cols _ _ _ _ _ _ ltac:(rewrite EH; exact Hh) B1) as C1. change (zlen (data_matrix rs)) with (sig_len rs) in C1. rewrite EW, EH in C1.
  pose proof (prepare_shape _ _ _ _ PR) as ((_ & _ & K1 & _) & (_ & _ & K2 & _)).
  destruct (patches_self fp _ _ _ ltac:(lia) PT) as [PL PS].
  pose proof (find_order _ _ _ _ _ _ _ FD) as (p0 & E0 & LO & CP).
  assert (P0 : Z.of_nat (mcols p0) = fp) by (apply patches_cols in PT; [|lia]; apply PT; eapply nth_error_In; eauto).
  apply C10_shift in GA. destruct GA as (RA & SH).
  assert (AL : (sig_len al <= sig_len ds + 2 ^ 32)%Z).
  { pose proof (Z.div_le_upper_bound (sig_len rs) 2 (2 ^ 32)). unfold sig_len in *. 
    destruct SH; unfold zlen in *; rewrite ?app_length, ?repeat_length, ?skipn_length; lia. }
  set (scaled := scale_to_match_sound_pressure_level rs al) in *.
  assert (Rsc : sample_rate scaled = sample_rate rs) by (change (sample_rate scaled) with (sample_rate al); congruence).
  assert (Ls : sig_len scaled = sig_len al) by (unfold sig_len, scaled, scale_to_match_sound_pressure_level; cbn [data_matrix]; apply zlen_map).
  pose proof (build_cols _ _ _ _ _ _ ltac:(rewrite EH; exact Hh) B2) as C2. change (zlen (data_matrix scaled)) with (sig_len scaled) in C2. rewrite EW, EH in C2.
  assert (C1' : (Z.of_nat (mcols (sp_data rspec)) <= 2 ^ 34)%Z).
  { rewrite C1. pose proof (Z.div_le_upper_bound (sig_len rs - W) (W / 4) (2 ^ 32)). nia. }
  assert (C2' : (Z.of_nat (mcols (sp_data dspec)) <= 2 ^ 34)%Z).
  { rewrite C2. pose proof (Z.div_le_upper_bound (sig_len scaled - W) (W / 4) (2 ^ 33)). nia. }
  pose proof (finely_len _ _ _ _ _ _ _ _ _ FA) as FL. pose proof (fine_each _ _ _ _ _ _ _ _ _ FA) as FE.
  assert (IR : forall k, (k < List.length idx)%nat -> (0 <= nth k idx 0)%Z /\ ((nth k idx 0 + fp - 1) * (W / 4) + W <= sig_len rs)%Z).
  { intros k Hk. destruct (PS k Hk) as (P1 & P2 & _). split; [exact P1|]. rewrite K1, C1 in P2.
    pose proof (Z.mul_div_le (sig_len rs - W) (W / 4) ltac:(lia)). nia. }
  exists idx. split; [rewrite FL; exact LO|]. split.
  { rewrite <- Hps. apply (idx_gap pf (mg_creator m) _ _ _ _ ltac:(lia) CI). }
  split; [exact IR|]. split.
  - intros k p Hk. destruct (F2_nth _ _ _ FE k p Hk) as (old & Ho & g & g' & RE).
    destruct (CP k old Ho) as (sim & lost & off & Eo & Hoff). rewrite P0 in Eo.
    assert (Hki : (k < List.length idx)%nat) by (apply Nat.lt_le_trans with (List.length info); [apply nth_error_Some; congruence|exact LO]).
    destruct (PS k Hki) as (P1 & P2 & _).
    exists off. split; [lia|]. unfold W, rate. rewrite <- (window_R (sample_rate rs) (OVERLAP (N:=RN))) by lia. fold w.
    apply (realign_span pf nb rs scaled w g g' old p sim lost off (nth k idx 0%Z) fp n); auto; try rewrite EW; try lia; try nia.
  - assert (TWO : forall i0 rest, idx = i0 :: rest -> (0 <= i0 < fp / 2)%Z -> (forall s, In s rest -> (fp / 2 <= s)%Z) -> (2 <= List.length (patch_sims r))%nat).
    { intros i0 rest EI I0 IR'. rewrite FL. rewrite EI in FD. destruct pts as [|pp rest']; [discriminate E0|]. injection E0 as ->.
      assert (X : (2 <= zlen info <= zlen (i0 :: rest))%Z); [|unfold zlen in X; lia]. rewrite <- P0 in I0, IR'.
      apply (C24_kept pf p0 rest' i0 rest (sp_data dp) _ _ info I0 ltac:(lia) ltac:(lia) IR' FD). }
    split; [exact TWO|]. destruct v as [u|s].
    { destruct Him as (z & Ez). rewrite Ez in CI, Hps. cbn [creator_patch_size] in Hps. unfold fp in Hps. subst z. cbn [create_ref_patch_indices] in CI. rewrite K1, C1 in CI. exact CI. }
    destruct Him as (z & Ez). unfold fp in *. rewrite Ez in *. cbn [creator_patch_size] in Hps. subst z. cbn [create_ref_patch_indices] in CI.
    destruct (Z.ltb_spec (Z.of_nat (mcols (sp_data rp))) (20 + 20 / 2)) as [Hl|Hl].
    { unfold image_patch_indices in CI. destruct (Z.ltb_spec (Z.of_nat (mcols (sp_data rp))) (20 + 20 / 2)); [discriminate|lia]. }
    destruct (C17_grid pf 20 (Z.of_nat (mcols (sp_data rp))) ltac:(lia) Hl) as (q & Q1 & E & _). rewrite CI in E.
    assert (EI : idx = map (fun k : Z => (20 / 2 - 1 + 20 * k)%Z) (zrange 0 q)) by congruence.
    assert (NTH : forall k, (k < List.length idx)%nat -> nth k idx 0%Z = (9 + 20 * Z.of_nat k)%Z).
    { intros k Hk. rewrite EI in Hk |- *. rewrite map_length, zrange_length in Hk.
      rewrite (nth_indep _ 0%Z ((fun k : Z => (20 / 2 - 1 + 20 * k)%Z) 0%Z)) by (rewrite map_length, zrange_length; lia).
      rewrite (map_nth (fun k : Z => (20 / 2 - 1 + 20 * k)%Z)). erewrite (nth_error_nth (zrange 0 q) k) by (apply nth_error_zrange; lia). change (20 / 2)%Z with 10%Z. lia. }
    split; [|exact NTH]. destruct idx as [|i0 rest]; [rewrite zrange_cons in EI by lia; discriminate|].
    apply (TWO i0 rest eq_refl).
    + specialize (NTH 0%nat ltac:(cbn; lia)). cbn [nth] in NTH. change (20 / 2)%Z with 10%Z. lia.
    + intros s0 Hs. apply (In_nth _ _ 0%Z) in Hs as (k & Hk & <-). specialize (NTH (S k) ltac:(cbn; lia)). cbn [nth] in NTH. change (20 / 2)%Z with 10%Z. lia.
Qed.
Lemma fd_n W rate fp n i : (1 <= rate)%Z -> (fp * W = 4 * n)%Z -> IZR (i + fp) * frame_dur W rate = IZR i * frame_dur W rate + IZR n / IZR rate.
Proof. intros H E. rewrite <- (dur_n W rate fp n H E), plus_IZR. ring. Qed.
Lemma fd_pos W rate : (1 <= rate)%Z -> (0 <= W)%Z -> 0 <= frame_dur W rate.
Proof.
  intros H HW. unfold frame_dur. change (10 ^ 2)%Z with 100%Z. assert (0 <= IZR W) by (apply (IZR_le 0); lia). assert (0 < / IZR rate) by (apply Rinv_0_lt_compat, (IZR_lt 0); lia).
  unfold Rdiv at 1. apply Rmult_le_pos; lra.
Qed.
Lemma fd_quarter W rate : (1 <= rate)%Z -> frame_dur W rate = IZR W / 4 / IZR rate.
Proof. intros H. unfold frame_dur. change (10 ^ 2)%Z with 100%Z. assert (IZR rate <> 0) by (apply not_0_IZR; lia). field. auto. Qed.
Lemma div_rate a b rate : (1 <= rate)%Z -> (a <= b)%Z -> IZR a / IZR rate <= IZR b / IZR rate.
Proof. intros H L. apply Rmult_le_compat_r; [left; apply Rinv_0_lt_compat, (IZR_lt 0); lia|apply IZR_le; exact L]. Qed.
Lemma C71_all pf nb v ws (m m' : Manager RN) calls files a b (rs ds : AudioSignal RN) r :
  new_manager nb v ws = Ok m -> load_as_mono (files a) = Ok rs -> load_as_mono (files b) = Ok ds ->
  (1 <= sample_rate rs < 2 ^ 32)%Z -> (sig_len rs <= 2 ^ 32)%Z -> (sig_len ds <= 2 ^ 32)%Z ->
  let rate := sample_rate rs in let W := ((4 * rate + 25) / 50)%Z in
  let fp := match v with Wideband _ => 30%Z | Fullband _ => 20%Z end in
  let hop := IZR W / 4 / IZR rate in let pd := IZR fp * hop in
  (fp * W mod 4 = 0)%Z ->
  run pf nb files (after_calls pf nb m calls) a b = (m', Ok r) ->
  (forall i j p q, (i < j)%nat -> nth_error (patch_sims r) i = Some p -> nth_error (patch_sims r) j = Some q ->
     ref_patch_end_time p <= ref_patch_start_time q) /\
  (forall p, In p (patch_sims r) ->
     0 <= ref_patch_start_time p /\ pd / 2 <= ref_patch_end_time p - ref_patch_start_time p <= pd /\
     (deg_patch_start_time p = 0 /\ deg_patch_end_time p = 0 /\ ref_patch_end_time p - ref_patch_start_time p = pd \/
      0 <= deg_patch_start_time p /\ deg_patch_end_time p - deg_patch_start_time p = ref_patch_end_time p - ref_patch_start_time p) /\
     ((W mod 4 = 0)%Z -> ref_patch_end_time p <= IZR (sig_len rs) / IZR rate)) /\
  match v with
  | Wideband _ => True
  | Fullband _ => (2 <= List.length (patch_sims r))%nat /\
      forall k p, nth_error (patch_sims r) k = Some p ->
        (9 + 20 * INR k) * hop <= ref_patch_start_time p /\ ref_patch_end_time p <= (29 + 20 * INR k) * hop
  end.
Proof.
  intros Hm La Lb Hr L1 L2 rate W fp hop pd D4 H.
  pose proof (Z.div_mod (fp * W) 4 ltac:(lia)) as E4. rewrite D4, Z.add_0_r in E4.
  assert (Hrate : (1 <= rate)%Z) by (unfold rate; lia).
  assert (W0 : (0 <= W)%Z) by (unfold W; apply Z.div_pos; lia).
  assert (EH : hop = frame_dur W rate) by (symmetry; apply fd_quarter; exact Hrate).
  set (n := (fp * W / 4)%Z) in *.
  destruct (order_all pf nb v ws m m' calls files a b rs ds r Hm La Lb Hr L1 L2 n E4 H) as (idx & LI & GAP & RG & SP & _ & FB).
  fold rate W fp in LI, GAP, RG, SP, FB.
  pose proof (fd_pos W rate Hrate W0) as FP. pose proof (dur_n W rate fp n Hrate E4) as DN.
  assert (Hfp : (20 <= fp)%Z) by (unfold fp; destruct v; lia).
  assert (EP : pd = IZR n / IZR rate) by (unfold pd; rewrite EH, <- DN; ring).
  assert (ONE : forall k p, nth_error (patch_sims r) k = Some p -> (k < List.length idx)%nat /\
     IZR (nth k idx 0%Z) * hop <= ref_patch_start_time p /\ ref_patch_end_time p <= IZR (nth k idx 0%Z + fp) * hop /\
     pd / 2 <= ref_patch_end_time p - ref_patch_start_time p <= pd /\
     (deg_patch_start_time p = 0 /\ deg_patch_end_time p = 0 /\ ref_patch_end_time p - ref_patch_start_time p = pd \/
      0 <= deg_patch_start_time p /\ deg_patch_end_time p - deg_patch_start_time p = ref_patch_end_time p - ref_patch_start_time p)).
  { intros k p Hk. assert (Hki : (k < List.length idx)%nat) by (apply Nat.lt_le_trans with (List.length (patch_sims r)); [apply nth_error_Some; congruence|exact LI]).
    destruct (SP k p Hk) as (off & Ho & i & len & A1 & A2 & A3 & A4 & A5 & A6 & A7). rewrite EH.
    rewrite (fd_n W rate fp n (nth k idx 0%Z) Hrate E4). rewrite <- ?EH in *.
    pose proof (div_rate 0 i rate Hrate A1) as Q1. pose proof (div_rate (i + len) n rate Hrate A4) as Q2. pose proof (div_rate n (2 * len) rate Hrate A3) as Q3. pose proof (div_rate len n rate Hrate ltac:(lia)) as Q4.
    unfold Rdiv in *. rewrite plus_IZR in Q2. rewrite mult_IZR in Q3. rewrite Rmult_plus_distr_r in Q2. rewrite Rmult_0_l in Q1.
    assert (0 <= IZR off * hop) by (apply Rmult_le_pos; [apply (IZR_le 0); exact Ho|exact FP]).
    split; [exact Hki|]. split; [lra|]. split; [lra|]. split; [rewrite EP; lra|].
    destruct A7 as [(D1 & D2 & D3)|(j & J1 & J2 & J3 & J4 & J5)].
    - left. split; [exact D1|]. split; [exact D2|]. rewrite EP, <- D3. lra.
    - right. pose proof (div_rate 0 j rate Hrate J1) as Q5. unfold Rdiv in Q5. rewrite Rmult_0_l in Q5. split; lra. }
  assert (HP : 0 <= hop) by (rewrite EH; exact FP).
  split; [|split].
  - intros i j p q Hij Hp Hq. destruct (ONE i p Hp) as (I1 & _ & I2 & _). destruct (ONE j q Hq) as (J1 & J2 & _).
    pose proof (gap_le idx fp ltac:(lia) GAP j i ltac:(lia)) as G. apply Rle_trans with (IZR (nth i idx 0%Z + fp) * hop); [exact I2|].
    apply Rle_trans with (IZR (nth j idx 0%Z) * hop); [|exact J2]. apply Rmult_le_compat_r; [exact HP|apply IZR_le; exact G].
  - intros p Hp. apply In_nth_error in Hp as (k & Hk). destruct (ONE k p Hk) as (K1 & K2 & K3 & K4 & K5). destruct (RG k K1) as [R0 R1].
    split; [apply Rle_trans with (IZR (nth k idx 0%Z) * hop); [apply Rmult_le_pos; [apply (IZR_le 0); exact R0|exact HP]|exact K2]|].
    split; [exact K4|]. split; [exact K5|]. intros M4.
    apply Rle_trans with (1 := K3). pose proof (Z.div_mod W 4 ltac:(lia)) as DW. rewrite M4, Z.add_0_r in DW.
    assert (EQ : hop = IZR (W / 4) / IZR rate). { unfold hop. rewrite DW at 1. rewrite mult_IZR. field. apply not_0_IZR; lia. }
    rewrite EQ. replace (IZR (nth k idx 0%Z + fp) * (IZR (W / 4) / IZR rate)) with (IZR ((nth k idx 0%Z + fp) * (W / 4)) / IZR rate) by (rewrite mult_IZR; unfold Rdiv; ring).
    apply div_rate; [exact Hrate|]. nia.
  - destruct v as [u|s]; [exact I|]. destruct FB as [F1 F2]. split; [exact F1|]. intros k p Hk. destruct (ONE k p Hk) as (K1 & K2 & K3 & _).
    rewrite (F2 k K1) in K2, K3. unfold fp in K3. rewrite INR_IZR_INZ.
    replace (IZR (9 + 20 * Z.of_nat k)) with (9 + 20 * IZR (Z.of_nat k)) in K2 by (rewrite plus_IZR, mult_IZR; reflexivity).
    replace (IZR (9 + 20 * Z.of_nat k + 20)) with (29 + 20 * IZR (Z.of_nat k)) in K3 by (rewrite !plus_IZR, mult_IZR; lra). split; [exact K2|exact K3].
Qed.
