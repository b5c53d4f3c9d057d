(** C48: voice activity in exact arithmetic. *)
From Coq Require Import Reals Lra Lia Sorting.Sorted.
From Flocq Require Import Core.
From Verif Require Import Base Num Mat RNum M_Audio M_Align M_Spectro M_Patch M_Nsim M_Selector M_Visqol.
From Verif Require Import P_Base P_Mat P_R P_Level P_Audio P_Audio2 P_Manager P_Score P_Patch Spec Spec2 Spec3 P_Conv P_Nsim P_Spectro P_Prep P_Vad P_Run P_Total P_Total2.
Open Scope R_scope.

(** ** Frames *)
Definition quant {N : NumOps} (l : list (num N)) : list Z := map quantize_sample l.
Lemma g_consume {N : NumOps} L (a b : list (num N)) : forall f rs, (0 < List.length a)%nat ->
  (zlen f + zlen a = L)%Z ->
  vad_loop (N:=N) L f rs (a ++ b) = vad_loop (N:=N) L [] (process_chunk (N:=N) rs (f ++ quant a)) b.
Proof.
  induction a as [|x a IH]; intros f rs Ha HL; [simpl in Ha; lia|].
  cbn [app vad_loop]. rewrite zlen_app, zlen_cons, zlen_nil. rewrite zlen_cons in HL.
  destruct a as [|y a]; [rewrite zlen_nil in HL|].
  - destruct (Z.eqb_spec (zlen f + (0 + 1)) L); [|lia]. reflexivity.
  - destruct (Z.eqb_spec (zlen f + (0 + 1)) L) as [E|E].
    + rewrite zlen_cons in HL. pose proof (zlen_nonneg a). lia.
    + rewrite IH; [|simpl; lia|rewrite zlen_app, !zlen_cons, zlen_nil in *; lia].
      rewrite <- app_assoc. reflexivity.
Qed.
Lemma g_frames {N : NumOps} L n : forall (l : list (num N)) rs, (1 <= L)%nat -> List.length l = (n * L)%nat ->
  vad_loop (N:=N) (Z.of_nat L) [] rs l =
  fold_left (process_chunk (N:=N)) (map (fun t => quant (firstn L (skipn (t * L) l))) (seq 0 n)) rs.
Proof.
  induction n as [|n IH]; intros l rs HL Hl.
  - destruct l; [reflexivity|discriminate].
  - rewrite <- (firstn_skipn L l) at 1.
    assert (A : List.length (firstn L l) = L) by (rewrite firstn_length; lia).
    rewrite g_consume; [|lia|unfold zlen; rewrite A; simpl; lia].
    cbn [seq map fold_left]. rewrite Nat.mul_0_l. cbn [skipn app].
    rewrite IH; [|auto|rewrite skipn_length; lia].
    f_equal. rewrite <- seq_shift, map_map. apply map_ext. intros t. f_equal.
    rewrite skipn_skipn. f_equal.
Qed.

(** ** Flags *)
Definition lvl (c : list Z) : R := if Rltb (calc_root_mean_square (N:=RN) c) 5000 then 0 else 1.
Lemma g_fold (cs : list (list Z)) : forall rs, fold_left (process_chunk (N:=RN)) cs rs = rs ++ map lvl cs.
Proof.
  induction cs as [|c t IH]; intros rs; cbn [fold_left map]; [rewrite app_nil_r; auto|].
  rewrite IH. unfold process_chunk. rewrite <- app_assoc. reflexivity.
Qed.
Definition flagged (l : list R) : Prop := Forall (fun x => x = 0 \/ x = 1) l.
Lemma lvl_flag cs : flagged (map lvl cs).
Proof. apply Forall_forall. intros x Hx. apply in_map_iff in Hx as (c & <- & _). unfold lvl. destruct (Rltb _ _); auto. Qed.
Lemma loud_one c : c <> [] -> (25000000 * zlen c <= sum_squares c)%Z -> lvl c = 1.
Proof.
  intros Hc H. unfold lvl, calc_root_mean_square. rewrite fold_squares, Z.add_0_l.
  assert (L : (1 <= zlen c)%Z) by (destruct c; [tauto|]; rewrite zlen_cons; pose proof (zlen_nonneg c); lia).
  assert (P : 0 < IZR (zlen c)) by (apply IZR_lt; lia).
  cbn [nsqrt ndiv nofZ RN].
  assert (S : 5000 <= R_sqrt.sqrt (IZR (sum_squares c) / IZR (zlen c))).
  { rewrite <- (sqrt_square 5000) by lra. apply sqrt_le_1_alt. apply Rmult_le_reg_r with (IZR (zlen c)); [auto|].
    replace (IZR (sum_squares c) / IZR (zlen c) * IZR (zlen c)) with (IZR (sum_squares c)) by (field; lra). replace (5000 * 5000) with (IZR 25000000) by lra. rewrite <- mult_IZR. apply IZR_le. auto. }
  destruct (Rltb _ _) eqn:E; auto. apply Rltb_true in E. lra.
Qed.

Lemma g_vad (rs : list R) : flagged rs -> exists vad : list R, get_vad_results (N:=RN) rs = Ok vad /\ zlen vad = Z.max 2 (zlen rs) /\ flagged vad /\
  nth 0 vad 0 = 1 /\ (forall t, nth t rs 0 = 1 -> nth t vad 0 = 1).
Proof.
  intros HF. unfold get_vad_results, SILENT_CHUNK_COUNT.
  set (s := fun i : Z => forallb (fun r : R => negb (Reqb r 1)) (map (fun j => nth (Z.to_nat (i - j)) rs 0) (zrange 1 3))).
  set (g := fun i : Z => if (Reqb (nth (Z.to_nat i) rs 0) 0) && s i then 0 else 1).
  match goal with |- context [mapM ?f ?l] => assert (M : mapM f l = Ok (map g l)) end.
  { apply mapM_total. intros i Hi. apply in_zrange in Hi. rewrite (zget_in _ _ (0 : num RN)) by lia. cbn [bind].
    unfold check_previous_chunks_for_silence, SILENT_CHUNK_COUNT.
    rewrite (mapM_total _ (fun j => nth (Z.to_nat (i - j)) rs 0)); [reflexivity|].
    intros j Hj. apply in_zrange in Hj. apply (zget_in rs (i - j) 0). change (num RN) with R in *. lia. }
  rewrite M. cbn [bind]. eexists. split; [reflexivity|].
  change (Z.to_nat (3 - 1)) with 2%nat. change (nofZ RN 1) with 1.
  assert (G01 : forall i, g i = 0 \/ g i = 1) by (intros i; unfold g; destruct (_ && _); auto).
  split; [|split; [|split]].
  - cbn [repeat app]. rewrite !zlen_cons, zlen_map, zlen_zrange. change (num RN) with R in *. pose proof (zlen_nonneg rs). lia.
  - apply Forall_app. split; [constructor; [right; reflexivity|constructor; [right; reflexivity|constructor]]|]. apply Forall_forall. intros x Hx. apply in_map_iff in Hx as (i & <- & _). auto.
  - reflexivity.
  - intros t Ht. destruct t as [|[|t]]; [reflexivity|reflexivity|]. cbn [repeat app nth].
    assert (Hlt : (S (S t) < List.length rs)%nat). { destruct (Nat.lt_ge_cases (S (S t)) (List.length rs)); auto. rewrite nth_overflow in Ht by auto. lra. }
    rewrite (nth_indep _ 0 (g 0%Z)) by (rewrite map_length, zrange_length; unfold zlen; change (num RN) with R in *; lia).
    rewrite map_nth. unfold zrange.
    rewrite (nth_indep _ 0%Z ((fun k => (3 - 1 + Z.of_nat k)%Z) 0%nat)) by (rewrite map_length, seq_length; unfold zlen; change (num RN) with R in *; lia).
    rewrite (map_nth (fun k => (3 - 1 + Z.of_nat k)%Z)). rewrite seq_nth by (unfold zlen; change (num RN) with R in *; lia).
    unfold g. replace (Z.to_nat (3 - 1 + Z.of_nat (0 + t))) with (S (S t)) by lia. rewrite Ht.
    destruct (Reqb 1 0) eqn:E; [|reflexivity]. unfold Reqb in E. destruct (Req_EM_T 1 0); [lra|discriminate].
Qed.

Lemma sum_flagged (l : list R) : flagged l -> forall a, 0 <= a -> a <= fold_left Rplus l a /\ (In 1 l -> a + 1 <= fold_left Rplus l a).
Proof.
  induction 1 as [|x l Hx HF IH]; intros a Ha; cbn [fold_left]; [split; [lra|intros []]|].
  destruct (IH (a + x)) as [I1 I2]; [destruct Hx; lra|]. split; [destruct Hx; lra|]. intros [-> |Hi]; [lra|]. specialize (I2 Hi). destruct Hx; lra.
Qed.
Lemma active_chunk (l : list R) : flagged l -> In 1 l -> Rleb 1 (seq_sum (N:=RN) l) = true.
Proof.
  intros HF Hi. destruct (sum_flagged l HF 0 ltac:(lra)) as [_ H]. specialize (H Hi). unfold Rleb. destruct (Rle_dec _ _) as [|NO]; auto. exfalso. apply NO.
  change (seq_sum (N:=RN) l) with (fold_left Rplus l 0). lra.
Qed.

(** ** Quantisation and the peak *)
Lemma quant_level (x peak : R) : quantize_sample (N:=RN) (x / peak) = sample_level peak x.
Proof.
  unfold quantize_sample, sample_level. cbv zeta.
  change (as_i16 (N:=RN) (nmul RN (x / peak) (nofZ RN (2 ^ 15)))) with (Z.max (- 32768) (Z.min 32767 (Ztrunc (x / peak * 32768)))).
  set (z := Z.max (- 32768) (Z.min 32767 (Ztrunc (x / peak * 32768)))). assert (Hz : (- 32768 <= z <= 32767)%Z) by lia. clearbody z.
  assert (E : nmin (N:=RN) (nmax (N:=RN) (nofZ RN (- 2 ^ 15)) (nmul RN (nofZ RN 1) (nofZ RN (2 ^ 15 - 1)))) (nofZ RN z) = IZR z).
  { unfold nmin, nmax. cbn [nltb nis_nan nmul nofZ RN]. change (- 2 ^ 15)%Z with (- 32768)%Z. change (2 ^ 15 - 1)%Z with 32767%Z.
    assert (Z1 : - 32768 <= IZR z) by (apply (IZR_le (- 32768)); lia). assert (Z2 : IZR z <= 32767) by (apply IZR_le; lia).
    repeat match goal with |- context [nis_nan ?y] => rewrite (R_nis_nan y) end.
    unfold Rltb. repeat (destruct (Rlt_dec _ _)); lra. }
  rewrite E. unfold as_i16. cbn [ncast RN]. rewrite Ztrunc_IZR. lia.
Qed.
Lemma peak_max (l : list R) peak : is_peak peak l -> nd_max (N:=RN) l = Some peak.
Proof.
  intros [Hi HF]. destruct (nd_max_ok (N:=RN) _ _ _ R_num_order l) as (m & E & I & F); [intros ->; destruct Hi|apply Forall_forall; intros; exact Logic.I|].
  rewrite E. f_equal. rewrite Forall_forall in *. specialize (HF m I). specialize (F peak Hi). cbv beta in F. change (peak <= m) in F. change (m = peak). lra.
Qed.
Lemma firstn_map {A B} (f : A -> B) l n : firstn n (map f l) = map f (firstn n l).
Proof. revert l. induction n; intros [|x l]; cbn; congruence. Qed.
Lemma skipn_map {A B} (f : A -> B) l n : skipn n (map f l) = map f (skipn n l).
Proof. revert l. induction n; intros [|x l]; cbn; auto. Qed.
Lemma one_in (l : list R) a n t : (a <= t < a + n)%nat -> nth t l 0 = 1 -> In 1 (firstn n (skipn a l)).
Proof.
  intros Ht E. assert (Hl : (t < List.length l)%nat). { destruct (Nat.lt_ge_cases t (List.length l)); auto. rewrite nth_overflow in E by auto. lra. }
  rewrite <- E. replace t with (a + (t - a))%nat by lia. rewrite <- nth_skipn. rewrite <- (nth_firstn_lt (skipn a l) 0 n) by lia. apply nth_In. rewrite firstn_length, skipn_length. lia.
Qed.
Lemma flagged_sub (l : list R) a n : flagged l -> flagged (firstn n (skipn a l)).
Proof.
  intros H. unfold flagged in *. rewrite Forall_forall in *. intros x Hx. apply H.
  assert (In x (skipn a l)) by (rewrite <- (firstn_skipn n (skipn a l)); apply in_or_app; auto). rewrite <- (firstn_skipn a l). apply in_or_app. auto.
Qed.
Lemma chunk_two {N : NumOps} fuel p (l : list (num N)) : (2 <= fuel)%nat -> (p < List.length l)%nat ->
  exists cs, chunks fuel p l = firstn p l :: firstn p (skipn p l) :: cs.
Proof.
  intros Hf Hl. destruct fuel as [|[|f]]; [lia|lia|]. cbn [chunks]. destruct l as [|x l]; [cbn in Hl; lia|].
  destruct (skipn p (x :: l)) as [|y z] eqn:E; [|eauto]. apply (f_equal (@List.length _)) in E. rewrite skipn_length in E. cbn [List.length] in *. lia.
Qed.
Lemma vad_second pf ps w (s : AudioSignal RN) win peak t : let fp := (ps / 2 - 1)%Z in let h := hop_size win in
  (2 <= ps <= 2 ^ 16)%Z -> (1 <= h)%Z -> (w * h <= sig_len s)%Z -> (sig_len s <= 2 ^ 44)%Z ->
  (fp + 2 * ps <= w)%Z -> is_peak peak (data_matrix s) -> (ps <= Z.of_nat t < 2 * ps)%Z -> loud_frame (data_matrix s) peak fp h t ->
  exists rest, vad_patch_indices pf ps w s win = Ok (fp :: (fp + ps)%Z :: rest).
Proof.
  intros fp h Hps Hh Hw Hs Hpw HP Ht HLoud.
  assert (P1 : (1 <= ps / 2)%Z) by (apply Z.div_le_lower_bound; lia).
  assert (W1 : (w <= 2 ^ 44)%Z) by nia. assert (H1 : (h <= 2 ^ 44)%Z) by nia.
  unfold vad_patch_indices. cbv zeta. fold h. unfold normalize_signal, get_max. rewrite (peak_max _ _ HP). cbn [bind].
  rewrite umul_ok by (unfold usize_mod; nia). cbn [bind]. rewrite usub_ok by lia. cbn [bind]. fold fp.
  rewrite usub_ok by lia. cbn [bind]. unfold udiv. destruct (Z.eqb_spec ps 0) as [|_]; [lia|]. cbn [bind].
  set (pc := ((w - fp) / ps)%Z).
  assert (Pc : (2 <= pc)%Z) by (apply Z.div_le_lower_bound; lia).
  assert (Pm : (ps * pc <= w - fp)%Z) by (apply Z.mul_div_le; lia).
  assert (F0 : (0 <= fp)%Z) by (unfold fp; lia).
  assert (B : (pc * (ps * h) <= (w - fp) * h)%Z) by (replace (pc * (ps * h))%Z with (ps * pc * h)%Z by ring; apply Z.mul_le_mono_nonneg_r; lia).
  assert (FH : (fp * 1 <= fp * h)%Z) by (apply Z.mul_le_mono_nonneg_l; lia).
  assert (B2 : (fp + pc * (ps * h) <= sig_len s)%Z) by (rewrite Z.mul_sub_distr_r in B; lia).
  assert (PW : (pc <= 2 ^ 44)%Z) by (assert (2 * pc <= ps * pc)%Z by (apply Z.mul_le_mono_nonneg_r; lia); lia).
  assert (PH : (0 <= pc * (ps * h))%Z) by (apply Z.mul_nonneg_nonneg; [lia|apply Z.mul_nonneg_nonneg; lia]).
  assert (PP : (2 * ps <= pc * ps)%Z) by (apply Z.mul_le_mono_nonneg_r; lia).
  rewrite umul_ok by (unfold usize_mod; lia). cbn [bind].
  unfold alloc8 at 1. destruct (Z.leb_spec (8 * pc) (2 ^ 47)); [|lia]. cbn [bind].
  unfold get_voice_activity. rewrite uadd_ok by (unfold usize_mod; lia). cbn [bind].
  set (norm := map (fun x : R => x / peak) (data_matrix s)).
  assert (Ln : zlen norm = sig_len s) by (unfold norm; rewrite zlen_map; reflexivity).
  match goal with |- context [zslice ?l ?a ?b] => change (zslice l a b) with (zslice norm a b) end.
  rewrite zslice_in by (rewrite ?Ln; lia). cbn [bind].
  unfold alloc8. destruct (Z.leb_spec (8 * h) (2 ^ 47)); [|lia]. cbn [bind].
  set (patch := firstn (Z.to_nat (fp + pc * (ps * h) - fp)) (skipn (Z.to_nat fp) norm)).
  set (n := Z.to_nat (pc * ps)). set (L := Z.to_nat h).
  assert (LP : List.length patch = (n * L)%nat).
  { unfold patch. rewrite firstn_length, skipn_length. unfold zlen in Ln. unfold n, L. rewrite <- Z2Nat.inj_mul by lia. replace (pc * ps * h)%Z with (pc * (ps * h))%Z by ring. lia. }
  assert (EL : vad_loop (N:=RN) h [] [] patch = map lvl (map (fun t => quant (N:=RN) (firstn L (skipn (t * L) patch))) (seq 0 n))).
  { replace h with (Z.of_nat L) at 1 by (unfold L; lia). rewrite (g_frames (N:=RN) L n patch []) by (auto; unfold L; lia). rewrite g_fold. reflexivity. }
  match goal with |- context [get_vad_results ?x] => change (get_vad_results x) with (get_vad_results (N:=RN) (vad_loop (N:=RN) h [] [] patch)) end.
  rewrite EL. clear EL.
  set (frs := map (fun t => quant (N:=RN) (firstn L (skipn (t * L) patch))) (seq 0 n)).
  destruct (g_vad (map lvl frs) (lvl_flag _)) as (vad & EV & LV & FV & V0 & VT). rewrite EV. cbn [bind].
  assert (Lf : zlen (map lvl frs) = (pc * ps)%Z). { rewrite zlen_map. unfold frs. unfold zlen. rewrite map_length, seq_length. unfold n. lia. }
  rewrite Lf in LV.
  assert (LV2 : List.length vad = n). { unfold n. unfold zlen in LV. lia. }
  assert (Tn : (t < n)%nat) by (unfold n; lia).
  assert (TL : (t * L + L <= n * L)%nat) by (replace (t * L + L)%nat with (S t * L)%nat by lia; apply Nat.mul_le_mono_r; lia).
  assert (NL : (n * L = Z.to_nat (pc * (ps * h)))%nat) by (unfold n, L; rewrite <- Z2Nat.inj_mul by lia; f_equal; ring).
  assert (VL : nth t vad 0 = 1).
  { apply VT. rewrite (nth_indep _ 0 (lvl [])) by (rewrite map_length; unfold frs; rewrite map_length, seq_length; auto). rewrite map_nth.
    unfold frs. rewrite (nth_indep _ [] (quant (N:=RN) (firstn L (skipn (0 * L) patch)))) by (rewrite map_length, seq_length; auto).
    rewrite (map_nth (fun t => quant (N:=RN) (firstn L (skipn (t * L) patch)))), seq_nth by auto. cbn [Nat.add].
    assert (EQ : quant (N:=RN) (firstn L (skipn (t * L) patch)) = map (sample_level peak) (firstn L (skipn (Z.to_nat fp + t * L) (data_matrix s)))).
    { unfold patch. rewrite firstn_skipn_sub by lia. unfold norm. rewrite skipn_map, firstn_map. unfold quant. rewrite map_map. apply map_ext. intros x. apply quant_level. }
    rewrite EQ. apply loud_one.
    - intros E0. apply (f_equal (@List.length Z)) in E0. rewrite map_length, firstn_length, skipn_length in E0. cbn [List.length] in E0. unfold sig_len, zlen in *. change (num RN) with R in *. assert (1 <= L)%nat by (unfold L; lia). lia.
    - unfold loud_frame in HLoud. fold L in HLoud. fold (sum_squares (map (sample_level peak) (firstn L (skipn (Z.to_nat fp + t * L) (data_matrix s))))) in HLoud.
      refine (Z.le_trans _ _ _ _ HLoud). rewrite zlen_map. unfold zlen. rewrite firstn_length. unfold L. lia. }
  set (p := Z.to_nat ps). assert (N2 : (2 * p <= n)%nat) by (unfold p, n; lia).
  destruct (chunk_two (N:=RN) (List.length vad) p vad) as (cs & CH); [rewrite LV2; unfold p in *; lia|change (num RN) with R; lia|].
  match goal with |- context [collect_active ps fp ?q] => assert (CH2 : q = firstn p vad :: firstn p (skipn p vad) :: cs) by exact CH; rewrite CH2 end.
  cbn [collect_active].
  assert (A0 : Rleb 1 (seq_sum (N:=RN) (firstn p vad)) = true).
  { apply active_chunk; [apply (flagged_sub vad 0); auto|]. apply (one_in vad 0 p 0); [unfold p; lia|exact V0]. }
  assert (A1 : Rleb 1 (seq_sum (N:=RN) (firstn p (skipn p vad))) = true).
  { apply active_chunk; [apply flagged_sub; auto|]. apply (one_in vad p p t); [unfold p; lia|exact VL]. }
  cbn [nleb RN]. change (nofZ RN 1) with 1. rewrite A0, A1. eauto.
Qed.

(** ** Mono files *)
Lemma chunk_one {N : NumOps} (l : list (num N)) : forall fuel, (List.length l <= fuel)%nat -> chunk fuel 1 l = map (fun x => [x]) l.
Proof. induction l as [|x l IH]; intros [|f] H; cbn in H; try lia; cbn [chunk map]; auto. cbn [firstn skipn]. f_equal. apply IH. lia. Qed.
Lemma load_mono rate zs : Forall (fun z => (- 2 ^ 15 <= z < 2 ^ 15)%Z) zs ->
  load_as_mono (N:=RN) (WavOk 1 rate 16 (map Some zs)) = Ok {| data_matrix := map (fun z => IZR z / 32767) zs : list (num RN); sample_rate := rate |}.
Proof.
  intros H. unfold load_as_mono, wav_open. cbn [negb Z.eqb Pos.eqb].
  assert (M : mapM (fun o : option Z => match o with Some z => Ok z | None => Panic PExpect end) (map Some zs) = Ok zs).
  { clear. induction zs as [|z t IH]; [reflexivity|]. cbn [map mapM]. cbn [bind]. rewrite IH. reflexivity. }
  rewrite M. cbn [bind num_channels wav_samples wav_rate].
  assert (W : map wrap_i16 zs = zs). { clear M. induction H; [reflexivity|]. cbn [map]. rewrite wrap_i16_id by auto. congruence. }
  rewrite W. unfold extract_multichannel. rewrite Z.mod_1_r. cbn [Z.eqb bind].
  change (Z.to_nat 1) with 1%nat. rewrite chunk_one by auto. unfold to_mono_matrix, normalize_int16_to_double. rewrite !map_map. do 2 f_equal.
  apply map_ext. intros z. change (nd_sum (N:=RN) [IZR z / 32767] / 1 = IZR z / 32767). rewrite R_nd_sum. unfold Rsum. cbn [fold_right]. field.
Qed.
Lemma wide_loud pf nb u ws (m : Manager RN) calls files a b (rs ds : AudioSignal RN) h peak t :
  let L := sig_len rs in let D := sig_len ds in
  new_manager nb (Wideband u) ws = Ok m -> (0 <= ws <= 2 ^ 20)%Z -> (1 <= nb)%nat ->
  load_as_mono (files a) = Ok rs -> load_as_mono (files b) = Ok ds ->
  sample_rate rs = (50 * h)%Z -> sample_rate ds = (50 * h)%Z -> (1 <= h)%Z ->
  (77 * h <= L <= 2 ^ 30)%Z -> (D <= 2 ^ 30)%Z ->
  is_peak peak (data_matrix rs) -> (30 <= t < 60)%nat -> loud_frame (data_matrix rs) peak 14 h t ->
  (32 * h + L / 2 <= D)%Z -> (L - (30 * ws + 30) * h <= D - L / 2)%Z ->
  exists m' r, run pf nb files (after_calls pf nb m calls) a b = (m', Ok r).
Proof.
  intros L D Hm Hws Hnb La Lb Ra Rb Hh HL HD HP Ht HLo H2 H3.
  destruct (window_50 h ltac:(lia)) as (W1 & W2 & W3). set (frames := (1 + (L - 4 * h) / h)%Z).
  assert (F74 : (74 <= frames)%Z). { unfold frames. assert (73 <= (L - 4 * h) / h)%Z by (apply Z.div_le_lower_bound; lia). lia. }
  destruct (vad_second pf 30 frames rs (new_window (50 * h) OVERLAP WINDOW_DURATION) peak t) as (rest & E); rewrite ?W2; auto; try lia.
  change (30 / 2 - 1)%Z with 14%Z in E.
  apply (wide_total pf nb u ws m calls files a b rs ds (14 :: (14 + 30) :: rest)%Z h); fold L D; fold frames; auto; try lia.
  - cbn [List.length]. lia.
  - cbn [nth]. lia.
Qed.
