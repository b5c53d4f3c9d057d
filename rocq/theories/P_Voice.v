(** C72: which stretches of the reference the voice activity detector selects. *)
From Coq Require Import Reals Lra Lia Sorting.Sorted.
From Flocq Require Import Core.
From Verif Require Import Base Num Mat RNum M_Audio M_Align M_Spectro M_Patch M_Nsim M_Selector M_Visqol.
From Verif Require Import P_Base P_Mat P_R P_Level P_Audio P_Audio2 P_Manager P_Score P_Patch Spec Spec2 Spec3 Spec12 P_Conv P_Nsim P_Spectro P_Prep P_Vad P_Run P_Total P_Total2 P_Total3 P_Slice P_SilRef P_Order.
Open Scope R_scope.

(** ** Generic copies *)
Lemma g_chunks {N : NumOps} ps n : forall fuel (l : list (num N)), (1 <= ps)%nat -> List.length l = (n * ps)%nat ->
  (n <= fuel)%nat -> chunks (N:=N) fuel ps l = map (fun j => firstn ps (skipn (j * ps) l)) (seq 0 n).
Proof.
  induction n as [|n IH]; intros fuel l Hp Hl Hf.
  - destruct l; [|discriminate]. destruct fuel; reflexivity.
  - destruct fuel; [lia|]. destruct l as [|x l]; [simpl in Hl; lia|].
    cbn [chunks seq map]. rewrite Nat.mul_0_l. f_equal.
    assert (K : List.length (skipn ps (x :: l)) = (n * ps)%nat) by (rewrite skipn_length; cbn [Nat.mul] in Hl; lia).
    rewrite IH; [|auto|exact K|lia].
    rewrite <- seq_shift, map_map. apply map_ext. intros j. f_equal. rewrite skipn_skipn. f_equal.
Qed.
Lemma g_collect {N : NumOps} ps cs : forall i x, (0 < ps)%Z ->
  In x (collect_active (N:=N) ps i cs) <->
  exists j c, nth_error cs j = Some c /\ x = (i + ps * Z.of_nat j)%Z /\ nleb N (nofZ N 1) (seq_sum (N:=N) c) = true.
Proof.
  induction cs as [|c t IH]; intros i x Hp; cbn [collect_active].
  - split; [contradiction|]. intros (j & c & H & _). destruct j; discriminate.
  - specialize (IH (i + ps)%Z x Hp).
    assert (E : (exists j c0, nth_error (c :: t) j = Some c0 /\ x = (i + ps * Z.of_nat j)%Z /\
        nleb N (nofZ N 1) (seq_sum (N:=N) c0) = true) <->
      (x = i /\ nleb N (nofZ N 1) (seq_sum (N:=N) c) = true) \/ In x (collect_active (N:=N) ps (i + ps) t)).
    { rewrite IH. split.
      - intros ([|j] & c0 & H1 & H2 & H3); cbn [nth_error] in H1.
        + injection H1 as <-. left. split; auto. lia.
        + right. exists j, c0. repeat split; auto. lia.
      - intros [(-> & H)|(j & c0 & H1 & H2 & H3)].
        + exists 0%nat, c. repeat split; auto. lia.
        + exists (S j), c0. repeat split; auto. lia. }
    rewrite E. destruct (nleb N (nofZ N 1) (seq_sum (N:=N) c)); cbn [In].
    + split; [intros [->|]; auto|intros [[-> _]|]; auto].
    + split; [auto|intros [[_ ?]|]; [discriminate|auto]].
Qed.

(** ** Flags *)
Lemma lvl_iff c : c <> [] -> lvl c = 1 <-> (25000000 * zlen c <= sum_squares c)%Z.
Proof.
  intros Hc. split; [|apply loud_one; exact Hc]. unfold lvl, calc_root_mean_square. rewrite fold_squares, Z.add_0_l.
  assert (L : (1 <= zlen c)%Z) by (destruct c; [tauto|]; rewrite zlen_cons; pose proof (zlen_nonneg c); lia).
  assert (P : 0 < IZR (zlen c)) by (apply IZR_lt; lia).
  cbn [nsqrt ndiv nofZ RN]. destruct (Rltb _ _) eqn:E; [lra|]. intros _. apply Rltb_false in E.
  apply le_IZR. rewrite mult_IZR. apply Rnot_lt_le. intros NO. apply (Rlt_irrefl 5000). apply Rle_lt_trans with (1 := E).
  rewrite <- (sqrt_square 5000) by lra. apply sqrt_lt_1_alt. split.
  - apply Rmult_le_pos; [|left; apply Rinv_0_lt_compat; exact P]. apply (IZR_le 0).
    clear. induction c as [|x c IH]; [cbn; lia|]. change (sum_squares (x :: c)) with (x * x + sum_squares c)%Z. nia.
  - apply Rmult_lt_reg_r with (IZR (zlen c)); [exact P|].
    replace (IZR (sum_squares c) / IZR (zlen c) * IZR (zlen c)) with (IZR (sum_squares c)) by (field; lra). lra.
Qed.
Lemma g_vad_exact (rs : list R) : flagged rs -> (2 <= List.length rs)%nat ->
  exists vad : list R, get_vad_results (N:=RN) rs = Ok vad /\ List.length vad = List.length rs /\ flagged vad /\
  (forall t, (t < List.length rs)%nat -> nth t vad 0 = 1 <-> (t < 2)%nat \/ exists k, (t - 2 <= k <= t)%nat /\ nth k rs 0 = 1).
Proof.
  intros HF H2. unfold get_vad_results, SILENT_CHUNK_COUNT.
  set (s := fun i : Z => forallb (fun r : R => negb (Reqb r 1)) (map (fun j => nth (Z.to_nat (i - j)) rs 0) (zrange 1 3))).
  set (g := fun i : Z => if (Reqb (nth (Z.to_nat i) rs 0) 0) && s i then 0 else 1).
  match goal with |- context [mapM ?f ?l] => assert (M : mapM f l = Ok (map g l)) end.
  { apply mapM_total. intros i Hi. apply in_zrange in Hi. rewrite (zget_in _ _ (0 : num RN)) by lia. cbn [bind].
    unfold check_previous_chunks_for_silence, SILENT_CHUNK_COUNT.
    rewrite (mapM_total _ (fun j => nth (Z.to_nat (i - j)) rs 0)); [reflexivity|].
    intros j Hj. apply in_zrange in Hj. apply (zget_in rs (i - j) 0). change (num RN) with R in *. lia. }
  rewrite M. cbn [bind]. eexists. split; [reflexivity|].
  change (Z.to_nat (3 - 1)) with 2%nat. change (nofZ RN 1) with 1.
  assert (G01 : forall i, g i = 0 \/ g i = 1) by (intros i; unfold g; destruct (_ && _); auto).
  split; [|split].
  - cbn [repeat app List.length]. rewrite map_length, zrange_length. unfold zlen. change (num RN) with R in *. lia.
  - apply Forall_app. split; [constructor; [right; reflexivity|constructor; [right; reflexivity|constructor]]|]. apply Forall_forall. intros x Hx. apply in_map_iff in Hx as (i & <- & _). auto.
  - intros t Hlt. destruct t as [|[|t]]; [split; [left; lia|reflexivity]|split; [left; lia|reflexivity]|]. cbn [repeat app nth].
    rewrite (nth_indep _ 0 (g 0%Z)) by (rewrite map_length, zrange_length; unfold zlen; change (num RN) with R in *; lia).
    rewrite map_nth. unfold zrange.
    rewrite (nth_indep _ 0%Z ((fun k => (3 - 1 + Z.of_nat k)%Z) 0%nat)) by (rewrite map_length, seq_length; unfold zlen; change (num RN) with R in *; lia).
    rewrite (map_nth (fun k => (3 - 1 + Z.of_nat k)%Z)). rewrite seq_nth by (unfold zlen; change (num RN) with R in *; lia).
    unfold g, s. replace (Z.to_nat (3 - 1 + Z.of_nat (0 + t))) with (S (S t)) by lia.
    change (zrange 1 3) with [1%Z; 2%Z]. cbn [map forallb].
    replace (Z.to_nat (3 - 1 + Z.of_nat (0 + t) - 1)) with (S t) by lia. replace (Z.to_nat (3 - 1 + Z.of_nat (0 + t) - 2)) with t by lia.
    assert (FL : forall k, nth k rs 0 = 0 \/ nth k rs 0 = 1).
    { intros k. destruct (Nat.lt_ge_cases k (List.length rs)) as [Hk|Hk]; [|left; apply nth_overflow; exact Hk]. unfold flagged in HF. rewrite Forall_forall in HF. apply HF. apply nth_In. exact Hk. }
    assert (Q0 : Reqb 0 0 = true) by (apply Reqb_true; reflexivity). assert (Q1 : Reqb 1 1 = true) by (apply Reqb_true; reflexivity).
    assert (Q2 : Reqb 0 1 = false) by (apply Reqb_false; lra). assert (Q3 : Reqb 1 0 = false) by (apply Reqb_false; lra).
    split.
    + intros H. right. destruct (FL (S (S t))) as [A|A]; [|exists (S (S t)); split; [lia|exact A]]. destruct (FL (S t)) as [B|B]; [|exists (S t); split; [lia|exact B]].
      destruct (FL t) as [C|C]; [|exists t; split; [lia|exact C]]. exfalso. rewrite A, B, C, Q0, Q2 in H. cbn [negb andb] in H. lra.
    + intros [H|(k & Hk & E)]; [lia|].
      assert (K : k = S (S t) \/ k = S t \/ k = t) by lia.
      destruct K as [-> |[-> | ->]]; rewrite E.
      * rewrite Q3. reflexivity.
      * destruct (FL (S (S t))) as [A|A]; rewrite A, ?Q0, ?Q3, ?Q1; reflexivity.
      * destruct (FL (S (S t))) as [A|A]; rewrite A, ?Q0, ?Q3, ?Q1; cbn [negb andb]; [|reflexivity]. rewrite andb_false_r. reflexivity.
Qed.
Lemma active_iff (l : list R) : flagged l -> Rleb 1 (seq_sum (N:=RN) l) = true <-> In 1 l.
Proof.
  intros HF. split; [|apply active_chunk; exact HF]. intros H.
  destruct (in_dec Req_EM_T 1 l) as [I|I]; [exact I|]. exfalso.
  assert (Z : forall a, fold_left Rplus l a = a).
  { clear H. induction HF as [|x l Hx HF IH]; intros a; [reflexivity|]. cbn [fold_left]. rewrite IH; [|intros K; apply I; right; exact K].
    destruct Hx as [-> | ->]; [lra|exfalso; apply I; left; reflexivity]. }
  unfold Rleb in H. destruct (Rle_dec _ _) as [L|]; [|discriminate]. change (seq_sum (N:=RN) l) with (fold_left Rplus l 0) in L. rewrite Z in L. lra.
Qed.
Lemma in_sub (l : list R) a n : (a + n <= List.length l)%nat -> In 1 (firstn n (skipn a l)) <-> exists t, (a <= t < a + n)%nat /\ nth t l 0 = 1.
Proof.
  intros HL. split; [|intros (t & Ht & E); exact (one_in l a n t Ht E)]. intros H. apply (In_nth _ _ 0) in H as (k & Hk & E).
  rewrite firstn_length, skipn_length in Hk. exists (a + k)%nat. split; [lia|]. rewrite nth_firstn_lt in E by lia. rewrite nth_skipn in E. exact E.
Qed.

(** ** Which stretches are selected *)
Lemma vad_all pf ps w (s : AudioSignal RN) win peak : let fp := (ps / 2 - 1)%Z in let h := hop_size win in
  (2 <= ps <= 2 ^ 16)%Z -> (1 <= h)%Z -> (w * h <= sig_len s)%Z -> (sig_len s <= 2 ^ 44)%Z ->
  (fp + ps <= w)%Z -> is_peak peak (data_matrix s) ->
  exists idx, vad_patch_indices pf ps w s win = Ok idx /\
    StronglySorted (fun a b => (a + ps <= b)%Z) idx /\
    forall x, In x idx <-> exists j, (0 <= j)%Z /\ x = (fp + ps * j)%Z /\ (x + ps <= w)%Z /\
      exists t, (ps * j <= Z.of_nat t < ps * (j + 1))%Z /\ voiced (data_matrix s) peak fp h t.
Proof.
  intros fp h Hps Hh Hw Hs Hpw HP.
  assert (P1 : (1 <= ps / 2)%Z) by (apply Z.div_le_lower_bound; lia).
  assert (W1 : (w <= 2 ^ 44)%Z) by nia. assert (H1 : (h <= 2 ^ 44)%Z) by nia.
  unfold vad_patch_indices. cbv zeta. fold h. unfold normalize_signal, get_max. rewrite (peak_max _ _ HP). cbn [bind].
  rewrite umul_ok by (unfold usize_mod; nia). cbn [bind]. rewrite usub_ok by lia. cbn [bind]. fold fp.
  rewrite usub_ok by lia. cbn [bind]. unfold udiv. destruct (Z.eqb_spec ps 0) as [|_]; [lia|]. cbn [bind].
  set (pc := ((w - fp) / ps)%Z).
  assert (Pc : (1 <= pc)%Z) by (apply Z.div_le_lower_bound; lia).
  assert (Pm : (ps * pc <= w - fp)%Z) by (apply Z.mul_div_le; lia).
  assert (Pu : (w - fp < ps * (pc + 1))%Z) by (pose proof (Z.mul_succ_div_gt (w - fp) ps ltac:(lia)); fold pc in H; lia).
  assert (F0 : (0 <= fp)%Z) by (unfold fp; lia).
  assert (B : (pc * (ps * h) <= (w - fp) * h)%Z) by (replace (pc * (ps * h))%Z with (ps * pc * h)%Z by ring; apply Z.mul_le_mono_nonneg_r; lia).
  assert (FH : (fp * 1 <= fp * h)%Z) by (apply Z.mul_le_mono_nonneg_l; lia).
  assert (B2 : (fp + pc * (ps * h) <= sig_len s)%Z) by (rewrite Z.mul_sub_distr_r in B; lia).
  assert (PW : (pc <= 2 ^ 44)%Z) by (assert (2 * pc <= ps * pc)%Z by (apply Z.mul_le_mono_nonneg_r; lia); lia).
  assert (PH : (0 <= pc * (ps * h))%Z) by (apply Z.mul_nonneg_nonneg; [lia|apply Z.mul_nonneg_nonneg; lia]).
  assert (PP : (1 * ps <= pc * ps)%Z) by (apply Z.mul_le_mono_nonneg_r; lia).
  rewrite umul_ok by (unfold usize_mod; lia). cbn [bind].
  unfold alloc8 at 1. destruct (Z.leb_spec (8 * pc) (2 ^ 47)); [|lia]. cbn [bind].
  unfold get_voice_activity. rewrite uadd_ok by (unfold usize_mod; lia). cbn [bind].
  set (norm := map (fun x : R => x / peak) (data_matrix s)).
  assert (Ln : zlen norm = sig_len s) by (unfold norm; rewrite zlen_map; reflexivity).
  match goal with |- context [zslice ?l ?a ?b] => change (zslice l a b) with (zslice norm a b) end.
  rewrite zslice_in by (rewrite ?Ln; lia). cbn [bind].
  unfold alloc8. destruct (Z.leb_spec (8 * h) (2 ^ 47)); [|lia]. cbn [bind].
  set (patch := firstn (Z.to_nat (fp + pc * (ps * h) - fp)) (skipn (Z.to_nat fp) norm)).
  set (n := Z.to_nat (pc * ps)). set (L := Z.to_nat h).
  assert (LP : List.length patch = (n * L)%nat).
  { unfold patch. rewrite firstn_length, skipn_length. unfold zlen in Ln. unfold n, L. rewrite <- Z2Nat.inj_mul by lia. replace (pc * ps * h)%Z with (pc * (ps * h))%Z by ring. lia. }
  assert (EL : vad_loop (N:=RN) h [] [] patch = map lvl (map (fun t => quant (N:=RN) (firstn L (skipn (t * L) patch))) (seq 0 n))).
  { replace h with (Z.of_nat L) at 1 by (unfold L; lia). rewrite (g_frames (N:=RN) L n patch []) by (auto; unfold L; lia). rewrite g_fold. reflexivity. }
  match goal with |- context [get_vad_results ?x] => change (get_vad_results x) with (get_vad_results (N:=RN) (vad_loop (N:=RN) h [] [] patch)) end.
  rewrite EL. clear EL.
  set (frs := map (fun t => quant (N:=RN) (firstn L (skipn (t * L) patch))) (seq 0 n)).
  assert (Lf : List.length (map lvl frs) = n) by (rewrite map_length; unfold frs; rewrite map_length, seq_length; reflexivity).
  destruct (g_vad_exact (map lvl frs) (lvl_flag _)) as (vad & EV & LV & FV & VT); [rewrite Lf; unfold n; lia|]. rewrite EV. cbn [bind].
  rewrite Lf in LV, VT.
  assert (NL : (n * L = Z.to_nat (pc * (ps * h)))%nat) by (unfold n, L; rewrite <- Z2Nat.inj_mul by lia; f_equal; ring).
  assert (LD : forall t, (t < n)%nat -> nth t (map lvl frs) 0 = 1 <-> loud_frame (data_matrix s) peak fp h t).
  { intros t Tn. assert (TL : (t * L + L <= n * L)%nat) by (replace (t * L + L)%nat with (S t * L)%nat by lia; apply Nat.mul_le_mono_r; lia).
    rewrite (nth_indep _ 0 (lvl [])) by (rewrite Lf; exact Tn). rewrite map_nth.
    unfold frs. rewrite (nth_indep _ [] (quant (N:=RN) (firstn L (skipn (0 * L) patch)))) by (rewrite map_length, seq_length; auto).
    rewrite (map_nth (fun t => quant (N:=RN) (firstn L (skipn (t * L) patch)))), seq_nth by auto. cbn [Nat.add].
    assert (EQ : quant (N:=RN) (firstn L (skipn (t * L) patch)) = map (sample_level peak) (firstn L (skipn (Z.to_nat fp + t * L) (data_matrix s)))).
    { unfold patch. rewrite firstn_skipn_sub by lia. unfold norm. rewrite skipn_map, firstn_map. unfold quant. rewrite map_map. apply map_ext. intros x. apply quant_level. }
    assert (FLn : List.length (firstn L (skipn (Z.to_nat fp + t * L) (data_matrix s))) = L).
    { rewrite firstn_length, skipn_length. unfold sig_len, zlen in *. change (num RN) with R in *. lia. }
    rewrite EQ. rewrite lvl_iff.
    - unfold loud_frame. fold L. rewrite zlen_map. unfold zlen. change (num RN) with R in *. rewrite FLn. unfold sum_squares. replace (Z.of_nat L) with h by (unfold L; lia). reflexivity.
    - intros E0. apply (f_equal (@List.length Z)) in E0. rewrite map_length in E0. change (num RN) with R in *. rewrite FLn in E0. cbn [List.length] in E0. assert (1 <= L)%nat by (unfold L; lia). lia. }
  eexists. split; [reflexivity|].
  set (p := Z.to_nat ps). assert (Np : n = (Z.to_nat pc * p)%nat) by (unfold n, p; rewrite Z2Nat.inj_mul by lia; reflexivity).
  match goal with |- context [collect_active ps fp ?q] => assert (CH : q = map (fun j => firstn p (skipn (j * p) vad)) (seq 0 (Z.to_nat pc))) end.
  { apply (g_chunks (N:=RN)); [unfold p; lia|change (num RN) with R in *; rewrite LV; exact Np|change (num RN) with R in *; rewrite LV, Np; assert (1 <= p)%nat by (unfold p; lia); nia]. }
  rewrite CH. split; [apply (collect_gap (M:=RN)); lia|].
  intros x. rewrite (g_collect (N:=RN)) by lia.
  assert (ACT : forall j, (j < Z.to_nat pc)%nat -> nleb RN (nofZ RN 1) (seq_sum (N:=RN) (firstn p (skipn (j * p) vad))) = true <->
    exists t, (j * p <= t < j * p + p)%nat /\ voiced (data_matrix s) peak fp h t).
  { intros j Hj. assert (JP : (j * p + p <= n)%nat) by (rewrite Np; replace (j * p + p)%nat with (S j * p)%nat by lia; apply Nat.mul_le_mono_r; lia).
    change (nleb RN (nofZ RN 1) (seq_sum (N:=RN) (firstn p (skipn (j * p) vad)))) with (Rleb 1 (seq_sum (N:=RN) (firstn p (skipn (j * p) vad)))).
    rewrite active_iff by (apply flagged_sub; exact FV). rewrite in_sub by (rewrite LV; exact JP).
    split; intros (t & Ht & E); exists t; (split; [exact Ht|]); assert (Tn : (t < n)%nat) by lia.
    - apply (VT t Tn) in E. destruct E as [E|(k & Hk & E)]; [left; exact E|]. right. exists k. split; [exact Hk|]. apply LD; [lia|exact E].
    - apply (VT t Tn). destruct E as [E|(k & Hk & E)]; [left; exact E|]. right. exists k. split; [exact Hk|]. apply LD; [lia|exact E]. }
  split.
  - intros (j & c & Hc & -> & A). change (num RN) with R in Hc.
    assert (Hj : (j < Z.to_nat pc)%nat) by (assert (K : (j < List.length (map (fun j => firstn p (skipn (j * p) vad)) (seq 0 (Z.to_nat pc))))%nat) by (apply nth_error_Some; rewrite Hc; discriminate); rewrite map_length, seq_length in K; exact K).
    rewrite nth_error_map, (nth_error_nth' (seq 0 (Z.to_nat pc)) 0%nat) in Hc by (rewrite seq_length; exact Hj). rewrite seq_nth in Hc by exact Hj. cbn [option_map Nat.add] in Hc.
    assert (Ec : firstn p (skipn (j * p) vad) = c) by (injection Hc as Ec; exact Ec). rewrite <- Ec in A. apply (ACT j Hj) in A. destruct A as (t & Ht & E).
    exists (Z.of_nat j). split; [lia|]. split; [reflexivity|].
    assert (JP : (ps * (Z.of_nat j + 1) <= ps * pc)%Z) by (apply Z.mul_le_mono_nonneg_l; lia).
    assert (TP : (ps * Z.of_nat j <= Z.of_nat t < ps * (Z.of_nat j + 1))%Z).
    { clear - Ht Hps. unfold p in Ht. assert (Z.of_nat (j * Z.to_nat ps) = ps * Z.of_nat j)%Z by (rewrite Nat2Z.inj_mul, Z2Nat.id by lia; ring). lia. }
    split; [lia|]. exists t. split; [exact TP|exact E].
  - intros (j & Hj & -> & Hx & t & Ht & E).
    assert (Jp : (j < pc)%Z). { clear - Hx Pu Hps Hj. apply Z.nle_gt. intros K. assert (ps * (pc + 1) <= ps * (j + 1))%Z by (apply Z.mul_le_mono_nonneg_l; lia). lia. }
    exists (Z.to_nat j), (firstn p (skipn (Z.to_nat j * p) vad)). split; [|split].
    + rewrite nth_error_map, (nth_error_nth' (seq 0 (Z.to_nat pc)) 0%nat) by (rewrite seq_length; lia). rewrite seq_nth by lia. reflexivity.
    + rewrite Z2Nat.id by lia. reflexivity.
    + apply ACT; [lia|]. exists t. split; [|exact E].
      clear - Ht Hps Hj. unfold p. assert (Z.of_nat (Z.to_nat j * Z.to_nat ps) = ps * j)%Z by (rewrite Nat2Z.inj_mul, !Z2Nat.id by lia; ring). lia.
Qed.

(** With fewer windows than the first stretch needs, that stretch is selected nevertheless. *)
Lemma vad_small pf ps w (s : AudioSignal RN) win idx : let fp := (ps / 2 - 1)%Z in
  (2 <= ps <= 2 ^ 16)%Z -> (0 <= hop_size win < 2 ^ 40)%Z -> (w < fp + ps)%Z -> (0 <= w < 2 ^ 44)%Z ->
  vad_patch_indices pf ps w s win = Ok idx -> idx = [fp] \/ (w < fp)%Z.
Proof.
  intros fp Hps Hh Hw W0 H. destruct (Z.lt_ge_cases w fp) as [K|K]; [right; exact K|left].
  assert (P1 : (1 <= ps / 2)%Z) by (apply Z.div_le_lower_bound; lia).
  unfold vad_patch_indices in H. cbv zeta in H. step H as norm Hn.
  rewrite umul_ok in H by (unfold usize_mod; nia). cbn [bind] in H. rewrite usub_ok in H by lia. cbn [bind] in H. fold fp in H.
  rewrite usub_ok in H by (unfold usize_mod; lia). cbn [bind] in H. unfold udiv in H. destruct (Z.eqb_spec ps 0) as [|_]; [lia|]. cbn [bind] in H.
  rewrite Z.div_small in H by lia. rewrite umul_ok in H by (unfold usize_mod; lia). cbn [bind Z.mul] in H. step H as u Hu. step H as vad Hvad.
  unfold get_voice_activity in Hvad. step Hvad as e He. step Hvad as patch Hp. step Hvad as u2 Hu2.
  assert (E : e = fp). { rewrite uadd_ok in He by (unfold usize_mod, fp; assert (ps / 2 <= ps)%Z by (apply Z.div_le_upper_bound; lia); lia). rewrite Z.add_0_r in He. congruence. }
  subst e. apply zslice_len in Hp. assert (patch = []) by (destruct patch; [reflexivity|rewrite zlen_cons in Hp; pose proof (zlen_nonneg patch); lia]). subst patch.
  cbn [vad_loop] in Hvad.
  assert (V : vad = [1; 1]). { unfold get_vad_results in Hvad. change (zlen (@nil (num RN))) with 0%Z in Hvad. cbn [mapM bind] in Hvad. injection Hvad as <-. reflexivity. }
  subst vad. assert (E2 : collect_active (N:=RN) ps fp (chunks (N:=RN) 2 (Z.to_nat ps) [1; 1]) = [fp]).
  { replace (Z.to_nat ps) with (S (S (Z.to_nat (ps - 2)))) by lia. cbn [chunks firstn skipn]. rewrite firstn_nil, skipn_nil. cbn [chunks collect_active].
    change (nleb RN (nofZ RN 1) (seq_sum (N:=RN) [1; 1])) with (Rleb 1 (0 + 1 + 1)). replace (Rleb 1 (0 + 1 + 1)) with true; [reflexivity|].
    symmetry. unfold Rleb. destruct (Rle_dec _ _); [reflexivity|lra]. }
  change (List.length (A:=num RN) [1; 1]) with 2%nat in H. rewrite E2 in H. congruence.
Qed.

Lemma vad_tiny pf w (s : AudioSignal RN) win idx : (0 <= hop_size win < 2 ^ 40)%Z -> (- 2 ^ 40 < w < 14)%Z -> vad_patch_indices pf 30 w s win <> Ok idx.
Proof.
  intros Hh Hw H. unfold vad_patch_indices in H. cbv zeta in H. step H as norm Hn.
  rewrite umul_ok in H by (unfold usize_mod; lia). cbn [bind] in H. change (30 / 2)%Z with 15%Z in H. rewrite usub_ok in H by lia. cbn [bind] in H.
  step H as d Hd. step H as pc Hpc. step H as tot Ht. step H as u Hu.
  assert (D : (2 ^ 60 <= d)%Z).
  { unfold usub in Hd. destruct (Z.leb_spec (15 - 1) w); [lia|]. destruct pf; [discriminate|]. injection Hd as <-. unfold usize_mod. lia. }
  assert (P : (2 ^ 50 <= pc)%Z) by (unfold udiv in Hpc; cbn [Z.eqb] in Hpc; injection Hpc as <-; apply Z.div_le_lower_bound; lia).
  unfold alloc8 in Hu. destruct (Z.leb_spec (8 * pc) (2 ^ 47)); [lia|discriminate].
Qed.

(** ** The run *)
Lemma voice_all pf nb u ws (m m' : Manager RN) calls files a b (rs ds : AudioSignal RN) h peak r :
  new_manager nb (Wideband u) ws = Ok m -> load_as_mono (files a) = Ok rs -> load_as_mono (files b) = Ok ds ->
  sample_rate rs = (50 * h)%Z -> (1 <= h <= 2 ^ 26)%Z -> (sig_len rs <= 2 ^ 32)%Z -> (sig_len ds <= 2 ^ 32)%Z ->
  is_peak peak (data_matrix rs) ->
  run pf nb files (after_calls pf nb m calls) a b = (m', Ok r) ->
  (47 * h <= sig_len rs)%Z /\
  exists starts, StronglySorted Z.lt starts /\
    (forall x, In x starts <-> exists j, (0 <= j)%Z /\ x = (14 + 30 * j)%Z /\ ((x + 33) * h <= sig_len rs)%Z /\
       exists t, (30 * j <= Z.of_nat t < 30 * j + 30)%Z /\ voiced (data_matrix rs) peak 14 h t) /\
    (2 <= List.length (patch_sims r) <= List.length starts)%nat /\
    (forall k p, nth_error (patch_sims r) k = Some p ->
       IZR (nth k starts 0%Z) / 50 <= ref_patch_start_time p /\ ref_patch_end_time p <= IZR (nth k starts 0%Z + 30) / 50).
Proof.
  intros Hm La Lb Hr Hh L1 L2 HP H.
  assert (EW : ((4 * sample_rate rs + 25) / 50 = 4 * h)%Z) by (rewrite Hr; replace (4 * (50 * h) + 25)%Z with (25 + 4 * h * 50)%Z by ring; rewrite Z.div_add by lia; reflexivity).
  assert (E4 : (4 * h / 4 = h)%Z) by (rewrite Z.mul_comm; apply Z.div_mul; lia).
  destruct (order_all pf nb (Wideband u) ws m m' calls files a b rs ds r Hm La Lb ltac:(lia) L1 L2 (30 * h) ltac:(rewrite EW; ring) H) as (idx & LI & _ & RG & SP & TWO & V).
  rewrite EW in RG, SP, V. rewrite E4 in RG, V.
  set (win := new_window (sample_rate rs) OVERLAP WINDOW_DURATION) in V.
  assert (EH : hop_size win = h) by (unfold win; rewrite hop_R by lia; rewrite EW; exact E4).
  set (w := (1 + (sig_len rs - 4 * h) / h)%Z) in V.
  assert (Wm : ((w - 1) * h <= sig_len rs - 4 * h)%Z) by (unfold w; rewrite Z.mul_comm; replace (1 + (sig_len rs - 4 * h) / h - 1)%Z with ((sig_len rs - 4 * h) / h)%Z by ring; apply Z.mul_div_le; lia).
  assert (Wu : (sig_len rs - 4 * h < w * h)%Z) by (unfold w; pose proof (Z.mul_succ_div_gt (sig_len rs - 4 * h) h ltac:(lia)) as K; rewrite <- Z.add_1_r in K; rewrite (Z.mul_comm (1 + _)), (Z.add_comm 1); exact K).
  assert (S0 : (0 <= sig_len rs)%Z) by apply zlen_nonneg.
  assert (L47 : (47 * h <= sig_len rs)%Z).
  { destruct (Z.lt_ge_cases w 44) as [K|K]; [|nia]. destruct (Z.lt_ge_cases w 14) as [K0|K0].
    - exfalso. apply (vad_tiny pf w rs win idx); [lia| |exact V]. split; [|exact K0]. assert (-4 * h < w * h)%Z by lia. nia.
    - destruct (vad_small pf 30 w rs win idx ltac:(lia) ltac:(lia) ltac:(change (30 / 2)%Z with 15%Z; lia) ltac:(lia) V) as [E|E].
      + rewrite E in RG. specialize (RG 0%nat ltac:(cbn; lia)). cbn [nth] in RG. change (30 / 2 - 1)%Z with 14%Z in RG. lia.
      + exfalso. change (30 / 2 - 1)%Z with 14%Z in E. lia. }
  split; [exact L47|].
  assert (W44 : (44 <= w)%Z) by nia.
  destruct (vad_all pf 30 w rs win peak) as (idx' & V' & SS & IN); rewrite ?EH; try lia; try exact HP.
  assert (idx' = idx) by congruence. subst idx'. rewrite EH in IN. change (30 / 2 - 1)%Z with 14%Z in IN.
  exists idx. split; [|split; [|split; [split; [|exact LI]|]]].
  - clear - SS. induction SS as [|x l S IH F]; constructor; [exact IH|]. eapply Forall_impl; [|exact F]. cbn beta. intros y Hy. lia.
  - intros x. rewrite IN. split; intros (j & J0 & E & B & t & T & VO); exists j; (split; [exact J0|]); (split; [exact E|]); (split; [nia|]); exists t; (split; [lia|exact VO]).
  - assert (I14 : In 14%Z idx) by (apply IN; exists 0%Z; split; [lia|]; split; [reflexivity|]; split; [lia|]; exists 0%nat; split; [lia|]; left; lia).
    destruct idx as [|i0 rest]; [destruct I14|]. apply StronglySorted_inv in SS as [_ F]. rewrite Forall_forall in F.
    assert (E0 : i0 = 14%Z).
    { destruct I14 as [E|I]; [exact E|]. apply F in I. assert (I0 : In i0 (i0 :: rest)) by (left; reflexivity). apply IN in I0 as (j & J0 & E & _). lia. }
    subst i0. apply (TWO 14%Z rest eq_refl); change (30 / 2)%Z with 15%Z; [lia|]. intros s Hs. apply F in Hs. lia.
  - intros k p Hk. destruct (SP k p Hk) as (off & _ & i & len & I0 & _ & _ & IL & ES & EE & _).
    assert (RP : (1 <= sample_rate rs)%Z) by lia.
    rewrite fd_quarter in ES by exact RP.
    assert (HQ : IZR (4 * h) / 4 / IZR (sample_rate rs) = 1 / 50). { rewrite Hr, !mult_IZR. field. apply not_0_IZR. lia. }
    rewrite HQ in ES. rewrite EE, ES.
    assert (A1 : 0 <= IZR i / IZR (sample_rate rs)) by (replace 0 with (IZR 0 / IZR (sample_rate rs)) by (unfold Rdiv; ring); apply div_rate; lia).
    assert (A2 : IZR (i + len) / IZR (sample_rate rs) <= IZR (30 * h) / IZR (sample_rate rs)) by (apply div_rate; lia).
    rewrite (mult_IZR 30), Hr, (mult_IZR 50) in A2. replace (30 * IZR h / (50 * IZR h)) with (30 / 50) in A2 by (field; apply not_0_IZR; lia).
    rewrite <- mult_IZR, <- Hr, plus_IZR in A2. rewrite plus_IZR. unfold Rdiv in *. lra.
Qed.

(** ** Sound that no patch covers *)
Lemma zeros_quiet samples peak h k : (1 <= h)%Z -> (forall n, (Z.of_nat n < 60 * h + 14)%Z \/ (74 * h <= Z.of_nat n)%Z -> nth n samples 0 = 0) ->
  loud_frame samples peak 14 h k -> (60 <= k < 74)%nat.
Proof.
  intros Hh HZ HL. destruct (Nat.lt_ge_cases k 60) as [K|K]; [|destruct (Nat.lt_ge_cases k 74) as [K2|K2]; [lia|]]; exfalso.
  all: assert (A : forall l, Forall (fun x => x = 0) l -> fold_right (fun e s => (e * e + s)%Z) 0%Z (map (sample_level peak) l) = 0%Z).
  1,3: intros l F; induction F as [|x l E F IH]; [reflexivity|]; cbn [map fold_right]; rewrite IH; subst x; unfold sample_level; replace (0 / peak * 32768) with 0 by (unfold Rdiv; ring); rewrite Ztrunc_IZR; reflexivity.
  all: unfold loud_frame in HL; rewrite A in HL; [lia|]; apply Forall_forall; intros x Hx; apply (In_nth _ _ 0) in Hx as (i & Hi & <-);
    rewrite firstn_length in Hi; rewrite nth_firstn_lt by lia; rewrite nth_skipn; apply HZ.
  - left. change (Z.to_nat 14) with 14%nat. assert (k * Z.to_nat h <= 59 * Z.to_nat h)%nat by (apply Nat.mul_le_mono_r; lia). lia.
  - right. change (Z.to_nat 14) with 14%nat. assert (74 * Z.to_nat h <= k * Z.to_nat h)%nat by (apply Nat.mul_le_mono_r; lia). lia.
Qed.
Lemma gap_all pf nb u ws (m m' : Manager RN) calls files a b (rs ds : AudioSignal RN) h peak r :
  new_manager nb (Wideband u) ws = Ok m -> load_as_mono (files a) = Ok rs -> load_as_mono (files b) = Ok ds ->
  sample_rate rs = (50 * h)%Z -> (1 <= h <= 2 ^ 26)%Z -> (sig_len rs <= 2 ^ 32)%Z -> (sig_len ds <= 2 ^ 32)%Z ->
  is_peak peak (data_matrix rs) ->
  (forall n, (Z.of_nat n < 60 * h + 14)%Z \/ (74 * h <= Z.of_nat n)%Z -> nth n (data_matrix rs) 0 = 0) ->
  run pf nb files (after_calls pf nb m calls) a b = (m', Ok r) ->
  forall p n, In p (patch_sims r) -> ref_patch_start_time p <= INR n / IZR (sample_rate rs) < ref_patch_end_time p + 3 / 50 -> nth n (data_matrix rs) 0 = 0.
Proof.
  intros Hm La Lb Hr Hh L1 L2 HP HZ H p n Hp Hn.
  destruct (voice_all pf nb u ws m m' calls files a b rs ds h peak r Hm La Lb Hr Hh L1 L2 HP H) as (_ & st & _ & IN & [_ LE] & SP).
  apply In_nth_error in Hp as (k & Hk). destruct (SP k p Hk) as [S1 S2].
  assert (KL : (k < List.length st)%nat) by (apply Nat.lt_le_trans with (List.length (patch_sims r)); [apply nth_error_Some; rewrite Hk; discriminate|exact LE]).
  pose proof (nth_In st 0%Z KL) as I. apply IN in I as (j & J0 & E & _ & t & T & VO).
  assert (J : j = 0%Z \/ j = 2%Z).
  { destruct VO as [V|(q & Q & V)]; [left; lia|]. apply zeros_quiet in V; [|lia|exact HZ]. lia. }
  assert (HR : 0 < IZR h) by (apply (IZR_lt 0); lia).
  assert (EN : INR n = 50 * IZR h * (INR n / IZR (sample_rate rs))) by (rewrite Hr, mult_IZR; field; lra).
  set (y := INR n / IZR (sample_rate rs)) in *.
  assert (BB : IZR (nth k st 0%Z) / 50 <= y < IZR (nth k st 0%Z + 33) / 50) by (rewrite plus_IZR in *; lra).
  assert (CC : IZR (nth k st 0%Z * h) <= IZR (Z.of_nat n) < IZR ((nth k st 0%Z + 33) * h)).
  { rewrite <- INR_IZR_INZ, EN, !mult_IZR. nra. }
  destruct CC as [C1 C2]. apply le_IZR in C1. apply lt_IZR in C2. apply HZ. rewrite E in C1, C2. destruct J; subst j; lia.
Qed.

(** The indices for such a reference whose 60th frame is loud. *)
Lemma gap_idx pf w (s : AudioSignal RN) win peak h : hop_size win = h -> (1 <= h)%Z -> (w * h <= sig_len s)%Z -> (sig_len s <= 2 ^ 44)%Z ->
  (104 <= w)%Z -> is_peak peak (data_matrix s) ->
  (forall n, (Z.of_nat n < 60 * h + 14)%Z \/ (74 * h <= Z.of_nat n)%Z -> nth n (data_matrix s) 0 = 0) -> loud_frame (data_matrix s) peak 14 h 60 ->
  exists idx, vad_patch_indices pf 30 w s win = Ok idx /\ (2 <= List.length idx)%nat /\ nth 1 idx 0%Z = 74%Z.
Proof.
  intros EH Hh Hw HS H104 HP HZ HL.
  destruct (vad_all pf 30 w s win peak) as (idx & V & SS & IN); rewrite ?EH; try lia; try exact HP.
  rewrite EH in IN. change (30 / 2 - 1)%Z with 14%Z in IN. exists idx. split; [exact V|].
  assert (ONLY : forall x, In x idx -> x = 14%Z \/ x = 74%Z).
  { intros x Hx. apply IN in Hx as (j & J0 & -> & _ & t & T & [VO|(q & Q & VO)]); [left; lia|]. apply zeros_quiet in VO; [|lia|exact HZ]. lia. }
  assert (I0 : In 14%Z idx) by (apply IN; exists 0%Z; split; [lia|]; split; [reflexivity|]; split; [lia|]; exists 0%nat; split; [lia|]; left; lia).
  assert (I1 : In 74%Z idx) by (apply IN; exists 2%Z; split; [lia|]; split; [reflexivity|]; split; [lia|]; exists 60%nat; split; [lia|]; right; exists 60%nat; split; [lia|exact HL]).
  clear - SS ONLY I0 I1. destruct idx as [|x [|y l]]; [destruct I0|destruct I0 as [-> |[]]; destruct I1 as [I1|[]]; discriminate|].
  split; [cbn; lia|]. cbn [nth]. apply StronglySorted_inv in SS as [_ F]. apply Forall_inv in F.
  destruct (ONLY x (or_introl eq_refl)); destruct (ONLY y (or_intror (or_introl eq_refl))); lia.
Qed.
