(** The tables of the patch search as a recurrence, without any condition on the
    similarities; totality of the search in exact arithmetic (C48) and the search for
    patches of the spectrogram in itself (C41). *)
From Coq Require Import Reals Lra.
From Verif Require Import Base Num Mat RNum M_Audio M_Align M_Spectro M_Patch M_Nsim M_Selector.
From Verif Require Import P_Base P_Mat P_Manager P_Score P_Patch Spec Spec2 P_Conv P_Nsim P_Dp P_Dp2.
Open Scope Z_scope.

Section Tables.
Context {N : NumOps}.
Notation T := (num N).
Variable sim : nat -> Z -> T.
Variable idx : list Z.
Variable sw c : Z.
Variable cn M : nat.
Hypothesis Hcn : c = Z.of_nat cn.
Hypothesis Hsw : 0 <= sw.
Hypothesis HM : List.length idx = M.
Notation r k := (nth k idx 0).
Hypothesis Hbig : forall k, (k < M)%nat -> 0 <= r k /\ r k + sw < 2 ^ 31 /\ r k - sw <= c.
Notation W k s := (in_window sw c (r k) s).
Definition prev_of (dp : list (list T)) (k : nat) : option (list T * Z) :=
  match k with O => None | S k' => Some (nth k' dp [], lo idx sw k') end.
Definition tabrec (j : nat) (t : list (list T) * list (list Z)) : Prop :=
  let '(dp, bt) := t in
  List.length dp = M /\ List.length bt = M /\
  (forall k, (k < M)%nat -> List.length (nth k dp []) = cn /\ List.length (nth k bt []) = cn) /\
  (forall k s, (k < M)%nat -> 0 <= s < c -> (j <= k)%nat \/ ~ W k s -> tcell (nofZ N 0) dp k s = nofZ N 0 /\ tcell 0 bt k s = 0) /\
  (forall k s, (k < j)%nat -> W k s -> dp_cell (sim k s) (prev_of dp k) s = Ok (tcell (nofZ N 0) dp k s, tcell 0 bt k s)).
Lemma tabrec_0 : tabrec 0 (repeat (repeat (nofZ N 0) cn) M, repeat (repeat 0 cn) M).
Proof.
  unfold tabrec. rewrite !repeat_length. split; auto. split; auto. split; [|split].
  - intros k Hk. rewrite !nth_repeat_lt by auto. rewrite !repeat_length. auto.
  - intros k s Hk Hs _. unfold tcell. rewrite !nth_repeat_lt by lia. auto.
  - intros; lia.
Qed.
Lemma tabrec_S pf simf k t : (k < M)%nat -> (forall s, 0 <= s < c -> simf s = Ok (sim k s)) -> tabrec k t ->
  exists t', find_most_optimal_deg_patch pf simf c t idx (Z.of_nat k) sw = Ok t' /\ tabrec (S k) t'.
Proof.
  intros Hk Hf. destruct t as [dp bt]. intros (I1 & I2 & I3 & I4 & I5).
  destruct (Hbig k Hk) as (B0 & B1 & B2). unfold find_most_optimal_deg_patch.
  rewrite (zget_in idx (Z.of_nat k) 0) by (unfold zlen; lia). cbn [bind]. rewrite Nat2Z.id.
  rewrite wrap_i32_id by lia. rewrite !i32_ok by lia. cbn [bind].
  destruct (Z.ltb_spec (r k + sw) (Z.max 0 (r k - sw))); [lia|].
  destruct (Z.ltb_spec c (Z.max 0 (r k - sw))); [lia|].
  set (prev := prev_of dp k).
  assert (Hprev : (if 0 <? Z.of_nat k then do r' <- zget idx (Z.of_nat k - 1); do lower <- i32_op pf (wrap_i32 r' - sw); do prow <- zget dp (Z.of_nat k - 1); Ok (Some (prow, Z.max lower 0)) else Ok None) = Ok prev).
  { unfold prev, prev_of. destruct k as [|k']; [reflexivity|]. destruct (Z.ltb_spec 0 (Z.of_nat (S k'))); [|lia].
    rewrite (zget_in idx _ 0), (zget_in dp _ []) by (unfold zlen; lia). cbn [bind]. replace (Z.to_nat (Z.of_nat (S k') - 1)) with k' by lia.
    destruct (Hbig k' ltac:(lia)) as (B0' & B1' & B2'). rewrite wrap_i32_id by lia. rewrite i32_ok by lia. cbn [bind].
    unfold lo. rewrite Z.max_comm. reflexivity. }
  rewrite Hprev. cbn [bind]. rewrite (zget_in dp _ []), (zget_in bt _ []) by (unfold zlen; lia). cbn [bind]. rewrite Nat2Z.id.
  set (a := Z.max 0 (r k - sw)). set (e := Z.min (r k + sw + 1) c).
  assert (Ha0 : 0 <= a) by (subst a; lia). assert (He0 : a <= e <= c) by (clear - Hcn B0 B1 B2 Hsw; subst a e; lia).
  assert (Hae : e = a + Z.of_nat (Z.to_nat (e - a))) by (clear - He0; lia).
  rewrite Hae. fold (row_step simf prev). set (n := Z.to_nat (e - a)) in *.
  destruct (I3 k Hk) as [L1 L2].
  destruct (row_fold (fun _ : T => True) sim idx sw c 0 ltac:(lia) ltac:(lia) ltac:(lia) ltac:(lia) cn Hcn simf (sim k) prev a (nth k dp []) (nth k bt []) L1 L2 Ha0 n ltac:(lia)) as (d' & b' & E & M1 & M2 & C1 & C2).
  { intros s Hs. rewrite <- Hae in Hs. split; [apply Hf; lia|]. unfold prev, prev_of. destruct k as [|k']; [cbn [dp_cell]; eauto|].
    apply (dp_cell_total (fun _ : T => True) sim idx sw c 0 ltac:(lia) ltac:(lia) ltac:(lia) ltac:(lia) cn Hcn); [apply I3; lia|unfold lo; lia|lia]. }
  match goal with |- context [foldM ?f ?x ?l] => change f with (row_step simf prev) end. rewrite E. cbn [bind].
  rewrite !zset_in by (unfold zlen; lia). cbn [bind]. rewrite Nat2Z.id. eexists. split; [reflexivity|].
  unfold tabrec. rewrite !upd_length. split; auto. split; auto. rewrite <- Hae in C1, C2.
  assert (HW : forall s, 0 <= s < c -> (W k s <-> a <= s < e)) by (intros s Hs; unfold in_window; subst a e; lia).
  split; [|split].
  - intros j Hj. destruct (Nat.eq_dec k j) as [->|NE]; [rewrite !nth_upd_eq by lia; auto|rewrite !nth_upd_ne by auto; auto].
  - intros j s Hj Hs D. destruct (Nat.eq_dec j k) as [->|NE].
    + destruct D as [D|D]; [lia|]. rewrite !tcell_upd_eq by lia. rewrite HW in D by auto. destruct (C2 s Hs D) as [-> ->].
      apply I4; auto.
    + rewrite !tcell_upd_ne by lia. apply I4; auto. destruct D; [left; lia|auto].
  - intros j s Hj Hw.
    assert (P : prev_of (upd dp k d') j = prev_of dp j).
    { unfold prev_of. destruct j; auto. rewrite nth_upd_ne by lia. auto. }
    rewrite P. destruct (Nat.eq_dec j k) as [->|NE].
    + rewrite !tcell_upd_eq by lia. apply C1. apply HW; auto. destruct Hw; lia.
    + rewrite !tcell_upd_ne by lia. apply I5; auto. lia.
Qed.
Lemma tabrec_all pf simf n : (n <= M)%nat -> (forall k s, (k < M)%nat -> 0 <= s < c -> simf (Z.of_nat k) s = Ok (sim k s)) -> forall t, tabrec 0 t ->
  exists t', foldM (fun t k => find_most_optimal_deg_patch pf (simf k) c t idx k sw) t (zrange 0 (Z.of_nat n)) = Ok t' /\ tabrec n t'.
Proof.
  intros Hn Hf t Ht. induction n as [|n IH]; [exists t; split; auto; rewrite zrange_empty by lia; auto|].
  destruct IH as (t1 & E & I1); [lia|]. replace (Z.of_nat (S n)) with (Z.of_nat n + 1) by lia. rewrite zrange_snoc by lia. rewrite foldM_app, E. cbn [bind foldM].
  destruct (tabrec_S pf (simf (Z.of_nat n)) n t1) as (t2 & E2 & I2); [lia|auto|auto|].
  rewrite E2. cbn [bind]. eauto.
Qed.
End Tables.

(** The search input, allowing a zero search window. *)
Record search_in {N : NumOps} (refs : list (mat N)) (idx : list Z) (deg : mat N) (radius : Z) (fp : nat) : Prop := {
  sn_len : List.length refs = List.length idx;
  sn_ne : refs <> [];
  sn_refs : forall rp, In rp refs -> mat_wf rp /\ mrows rp = mrows deg /\ mcols rp = fp;
  sn_fp : (1 <= fp)%nat /\ (Z.of_nat fp < 2 ^ 31)%Z;
  sn_rows : (1 <= mrows deg)%nat; sn_cols : (1 <= mcols deg)%nat;
  sn_radius : 0 <= radius /\ radius * Z.of_nat fp < 2 ^ 31;
  sn_idx : forall r, In r idx -> 0 <= r /\ r + radius * Z.of_nat fp < 2 ^ 31
}.

Section Find.
Context {N : NumOps}.
Notation T := (num N).
Variable pf : profile.
Variable refs : list (mat N).
Variable idx : list Z.
Variable deg : mat N.
Variable radius : Z.
Variable fp : nat.
Hypothesis SI : search_in refs idx deg radius fp.
Notation sw := (radius * Z.of_nat fp).
Notation c := (Z.of_nat (mcols deg)).
Notation M := (List.length idx).
(** Everything up to walking back. *)
Lemma find_tables P fd : calc_max_num_patches pf idx c (Z.of_nat fp) = Ok (Z.of_nat P) ->
  (forall r, In r idx -> r - sw <= c) ->
  exists dp bt, tabrec (sim_at refs deg) idx sw c (mcols deg) M M (dp, bt) /\ (1 <= P <= M)%nat /\
  find_most_optimal_deg_patches pf refs idx deg fd radius =
    do o <- best_last_offset (nth (P - 1) dp []) (lo idx sw (P - 1)) (nth (P - 1) idx 0 + sw + 1) c;
    backtrace_loop pf refs idx deg bt fd (nmul N fd (nofZ N (Z.of_nat fp))) P o [].
Proof.
  intros Hcalc Hfar. destruct SI as [S1 S2 S3 S4 S5 S6 S7 S8].
  assert (idx <> []) by (intros ->; destruct refs; [tauto|discriminate]).
  destruct (calc_max_last _ _ _ _ _ Hcalc H) as [HP HPlast]. unfold zlen in HP.
  assert (Hsw : 0 <= sw) by nia.
  assert (Hbig : forall k, (k < M)%nat -> 0 <= nth k idx 0 /\ nth k idx 0 + sw < 2 ^ 31 /\ nth k idx 0 - sw <= c).
  { intros k Hk. assert (I := nth_In idx 0 Hk). destruct (S8 _ I). split; auto. }
  unfold find_most_optimal_deg_patches.
  destruct refs as [|p0 rt] eqn:Er; [tauto|]. rewrite <- Er in *. assert (Z0 : zget refs 0 = Ok p0) by (rewrite Er; reflexivity).
  assert (F0 : mcols p0 = fp) by (apply S3; rewrite Er; left; auto).
  rewrite Z0. cbn [bind]. rewrite F0. rewrite wrap_i32_id by lia. rewrite i32_ok by lia. cbn [bind]. rewrite Hcalc. cbn [bind].
  destruct (Z.eqb_spec (Z.of_nat P) 0); [lia|].
  rewrite (mapM_total _ (fun s => patch_at deg s fp)) by (intros s Hs; apply in_zrange in Hs; apply build_ok; lia). cbn [bind].
  set (dps := map (fun s => patch_at deg s fp) (zrange 0 c)).
  assert (Hdps : forall s, 0 <= s < c -> zget dps s = Ok (patch_at deg s fp)).
  { intros s Hs. apply zget_ok. unfold dps, zlen. rewrite map_length, zrange_length. split; [lia|].
    rewrite nth_error_map, nth_error_zrange by lia. cbn. do 2 f_equal. lia. }
  assert (Hsim : forall k s, (k < M)%nat -> 0 <= s < c -> simf refs dps (Z.of_nat k) s = Ok (sim_at refs deg k s)).
  { intros k s Hk Hs. unfold simf, sim_at. destruct (nth_error refs k) as [rp|] eqn:E; [|apply nth_error_None in E; lia].
    rewrite (proj2 (zget_ok refs (Z.of_nat k) rp)) by (unfold zlen; rewrite Nat2Z.id; split; [lia|auto]). cbn [bind]. rewrite Hdps by auto. cbn [bind].
    destruct (S3 rp (nth_error_In _ _ E)) as (_ & _ & Hc). rewrite Hc.
    destruct (meas_ok refs deg fp (proj1 S4) S5 S3 rp s (nth_error_In _ _ E)) as (p & Ep). rewrite Ep. reflexivity. }
  assert (Hfold : forall t, foldM (fun tables k => do rp <- zget refs k; find_most_optimal_deg_patch pf (fun s => do dpat <- zget dps s; do m <- measure_patch_similarity rp dpat; Ok (similarity m)) c tables idx k sw) t (zrange 0 (zlen refs))
      = foldM (fun t k => find_most_optimal_deg_patch pf (simf refs dps k) c t idx k sw) t (zrange 0 (Z.of_nat M))).
  { intros t. unfold zlen. rewrite S1.
    assert (G : forall l, (forall k, In k l -> 0 <= k < zlen refs) -> forall t, foldM (fun tables k => do rp <- zget refs k; find_most_optimal_deg_patch pf (fun s => do dpat <- zget dps s; do m <- measure_patch_similarity rp dpat; Ok (similarity m)) c tables idx k sw) t l
      = foldM (fun t k => find_most_optimal_deg_patch pf (simf refs dps k) c t idx k sw) t l).
    { induction l as [|k l IHl]; intros Hl t'; cbn [foldM]; auto. unfold simf at 1. rewrite (zget_in refs k p0) by (apply Hl; left; auto). cbn [bind].
      destruct (find_most_optimal_deg_patch _ _ _ _ _ _ _); cbn [bind]; auto. apply IHl. intros; apply Hl; right; auto. }
    apply G. intros k Hk. apply in_zrange in Hk. unfold zlen. lia. }
  rewrite Hfold.
  destruct (tabrec_all (sim_at refs deg) idx sw c (mcols deg) M eq_refl Hsw eq_refl Hbig pf (simf refs dps) M (le_n _) Hsim _ (tabrec_0 (sim_at refs deg) idx sw c (mcols deg) M eq_refl eq_refl Hbig)) as ([dp bt] & Et & It).
  exists dp, bt. split; auto. split; [lia|].
  match goal with |- context [foldM ?f ?x ?l] => replace (foldM f x l) with (@Ok (list (list T) * list (list Z)) (dp, bt)) by (symmetry; exact Et) end. cbn [bind].
  destruct It as (I1 & I2 & I3 & _ & I5).
  rewrite (zget_in idx _ 0) by (unfold zlen; lia). cbn [bind]. replace (Z.to_nat (Z.of_nat P - 1)) with (P - 1)%nat by lia.
  destruct (Hbig (P - 1)%nat ltac:(lia)) as (B0 & B1 & B2).
  rewrite wrap_i32_id by lia. rewrite i32_ok by lia. cbn [bind].
  rewrite Z.mod_small by (unfold usize_mod; lia). rewrite uadd_ok by (unfold usize_mod; lia). cbn [bind]. rewrite uadd_ok by (unfold usize_mod; lia). cbn [bind].
  rewrite (zget_in dp _ []) by (unfold zlen; lia). cbn [bind]. replace (Z.to_nat (Z.of_nat P - 1)) with (P - 1)%nat by lia.
  rewrite Nat2Z.id. reflexivity.
Qed.

(** One step of walking back. *)
Lemma back_step bt fd pd k s acc : (k < M)%nat -> List.length bt = M -> (forall j, (j < M)%nat -> List.length (nth j bt []) = mcols deg) ->
  c < 2 ^ 63 -> 0 <= s < c -> exists rp p, nth_error refs k = Some rp /\ measure_patch_similarity rp (patch_at deg s fp) = Ok p /\
  backtrace_loop pf refs idx deg bt fd pd (S k) s acc =
  backtrace_loop pf refs idx deg bt fd pd k (tcell 0 bt k s) (set_times p (s =? tcell 0 bt k s) s (nth k idx 0) fd pd :: acc).
Proof.
  intros Hk Lb Lr Hc Hs. destruct SI as [S1 S2 S3 S4 S5 S6 S7 S8]. cbn [backtrace_loop].
  destruct (nth_error refs k) as [rp|] eqn:Erp; [|apply nth_error_None in Erp; lia].
  assert (Zr : zget refs (Z.of_nat k) = Ok rp) by (apply zget_ok; unfold zlen; rewrite Nat2Z.id; split; [lia|auto]).
  rewrite Zr. cbn [bind].
  assert (Hin := nth_error_In _ _ Erp). destruct (S3 rp Hin) as (Wf & R1 & C1).
  rewrite uadd_ok by (unfold usize_mod; lia). cbn [bind]. rewrite build_ok by lia. cbn [bind].
  destruct (meas_ok refs deg fp (proj1 S4) S5 S3 rp s Hin) as (p & Ep). exists rp, p. rewrite C1, Ep. cbn [bind].
  rewrite (zget_in bt _ []) by (unfold zlen; lia). cbn [bind]. rewrite Nat2Z.id.
  rewrite (zget_in _ s 0) by (unfold zlen; rewrite Lr by lia; lia). cbn [bind].
  rewrite (zget_in idx _ 0) by (unfold zlen; lia). cbn [bind]. rewrite Nat2Z.id. auto.
Qed.
End Find.

(** ** Exact arithmetic *)
Lemma Rltb_cases x y : BoolSpec (x < y)%R (y <= x)%R (Rltb x y).
Proof. unfold Rltb. destruct (Rlt_dec x y); constructor; lra. Qed.
Open Scope R_scope.
Lemma min_small : nmin_value RN <= - IZR (2 ^ 54).
Proof.
  cbn [nmin_value RN]. assert (A : 4 <= Raux.bpow Zaux.radix2 971) by (change 4 with (Raux.bpow Zaux.radix2 2); apply Raux.bpow_le; lia).
  assert (Bb : IZR (2 ^ 54) = 2 * IZR (2 ^ 53)) by (rewrite <- mult_IZR; reflexivity). rewrite Bb.
  assert (E : IZR (2 ^ 53 - 1) = IZR (2 ^ 53) - 1) by (rewrite minus_IZR; reflexivity). rewrite E.
  assert (P : 2 <= IZR (2 ^ 53)) by (apply IZR_le; lia).
  set (b := Raux.bpow Zaux.radix2 971) in *. set (p := IZR (2 ^ 53)) in *. nra.
Qed.
Section Exact.
Variable sim : nat -> Z -> R.
Variable idx : list Z.
Variable sw c : Z.
Variable cn M : nat.
Variable dp : list (list R).
Variable bt : list (list Z).
Hypothesis TR : tabrec (N:=RN) sim idx sw c cn M M (dp, bt).
Hypothesis Hcn : c = Z.of_nat cn.
Hypothesis Hrange : forall k s, (k < M)%nat -> (0 <= s < c)%Z -> -1 <= sim k s <= 1.
Notation r k := (nth k idx 0%Z).
Notation W k s := (in_window sw c (r k) s).
Notation D k s := (tcell (0 : R) dp k s).
Notation B k s := (tcell 0%Z bt k s).
Hypothesis HMsmall : (Z.of_nat M < 2 ^ 53)%Z.

Lemma W_range k s : W k s -> (0 <= s < c)%Z.
Proof. unfold in_window. lia. Qed.

(** One cell: the first patch, or a stay, or a step from an earlier offset. *)
Lemma cell_S k s : (S k < M)%nat -> W (S k) s -> (forall b, (0 <= b < c)%Z -> - INR (S k) <= D k b <= INR (S k)) ->
  (D (S k) s = D k s /\ B (S k) s = s) \/
  (exists b, (lo idx sw k <= b < s)%Z /\ B (S k) s = b /\ D (S k) s = sim (S k) s + D k b /\ D k s <= D (S k) s).
Proof.
  intros Hk Hw Hb. destruct TR as (I1 & I2 & I3 & I4 & I5). pose proof (I5 (S k) s Hk Hw) as H. assert (Hs := W_range _ _ Hw).
  cbn [prev_of dp_cell] in H. unfold best_previous in H.
  assert (G : forall b, (0 <= b < c)%Z -> zget (nth k dp []) b = Ok (D k b : num RN)).
  { intros b Hb'. apply zget_in. unfold zlen. pose proof (proj1 (I3 k ltac:(lia))) as L. match goal with |- (_ <= _ < Z.of_nat ?n)%Z => replace n with cn by (symmetry; exact L) end. lia. }
  rewrite (scan_fold (N:=RN) (nth k dp []) (fun b => D k b)) in H.
  2: { intros b Hb'. apply in_rev, in_zrange in Hb'. apply G. unfold lo in Hb'. lia. }
  cbn [bind] in H.
  pose proof (scan_spec (N:=RN) _ _ _ R_order (fun b => D k b) (rev (zrange (lo idx sw k) s)) (nmin_value RN) (-1)%Z I (fun _ _ => I)) as SS.
  cbv beta in SS. destruct (fold_left _ _ _) as [hv past]. destruct SS as (_ & _ & _ & G3).
  rewrite G in H by auto. cbn [bind] in H. pose proof min_small as MS. cbn [nltb nadd RN num] in *.
  assert (LM : INR (S (S k)) < IZR (2 ^ 53)) by (rewrite INR_IZR_INZ; apply IZR_lt; lia). rewrite S_INR in LM.
  assert (BB : IZR (2 ^ 54) = 2 * IZR (2 ^ 53)) by (rewrite <- mult_IZR; reflexivity).
  assert (Sm := Hrange (S k) s Hk Hs). assert (P1 := Hb s Hs).
  destruct (Rltb_cases (sim (S k) s + hv) (D k s)) as [LT|GE].
  - left. injection H as E1 E2. split; symmetry; [exact E1|exact E2].
  - destruct G3 as [[-> ->]|(Hin & -> & _)].
    + exfalso. assert (0 <= INR (S k)) by apply pos_INR. lra.
    + right. apply in_rev, in_zrange in Hin. exists past. destruct (Z.ltb_spec past 0); [unfold lo in Hin; lia|].
      injection H as E1 E2. split; [lia|]. split; [symmetry; exact E2|]. split; [symmetry; exact E1|]. eapply Rle_trans; [exact GE|right; exact E1].
Qed.
Lemma cell_0 s : (0 < M)%nat -> W 0 s -> D 0 s = sim 0 s.
Proof.
  intros HM0 Hw. destruct TR as (I1 & I2 & I3 & I4 & I5). pose proof (I5 0%nat s HM0 Hw) as H. cbn [prev_of dp_cell] in H. injection H as H _. symmetry; exact H.
Qed.
Lemma W_dec k s : W k s \/ ~ W k s.
Proof. unfold in_window. lia. Qed.
Lemma D_out k s : (k < M)%nat -> (0 <= s < c)%Z -> ~ W k s -> D k s = 0 /\ B k s = 0%Z.
Proof. intros Hk Hs Hw. destruct TR as (I1 & I2 & I3 & I4 & I5). apply I4; auto. Qed.
Lemma D_bound k : (k < M)%nat -> forall s, (0 <= s < c)%Z -> - INR (S k) <= D k s <= INR (S k).
Proof.
  induction k as [|k IH]; intros Hk s Hs.
  - destruct (W_dec 0 s) as [Hw|Hw]; [rewrite cell_0 by auto; apply Hrange; auto|destruct (D_out 0 s Hk Hs Hw) as [-> _]; cbn; lra].
  - specialize (IH ltac:(lia)). assert (P0 : 0 <= INR (S k)) by apply pos_INR. rewrite S_INR.
    destruct (W_dec (S k) s) as [Hw|Hw].
    + destruct (cell_S k s Hk Hw IH) as [[-> _]|(b & Hb & _ & -> & _)]; [destruct (IH s Hs); lra|].
      unfold lo in Hb. destruct (IH b ltac:(lia)). destruct (Hrange (S k) s Hk Hs). lra.
    + destruct (D_out (S k) s Hk Hs Hw) as [-> _]. lra.
Qed.
(** Walking back stays inside the degraded signal. *)
Lemma B_range k s : (S k < M)%nat -> (0 <= s < c)%Z -> (0 <= B (S k) s < c)%Z.
Proof.
  intros Hk Hs. destruct (W_dec (S k) s) as [Hw|Hw].
  - destruct (cell_S k s Hk Hw (D_bound k ltac:(lia))) as [[_ ->]|(b & Hb & -> & _)]; [auto|unfold lo in Hb; lia].
  - destruct (D_out (S k) s Hk Hs Hw) as [_ ->]. lia.
Qed.

Lemma full_cell k s : (k < M)%nat -> (0 <= s < c)%Z -> D k s = INR (S k) ->
  sim k s = 1 /\ (forall k', k = S k' -> (0 <= B k s < s)%Z /\ D k' (B k s) = INR k).
Proof.
  intros Hk Hs Hd. assert (P0 : 0 <= INR k) by apply pos_INR.
  destruct (W_dec k s) as [Hw|Hw]; [|destruct (D_out k s Hk Hs Hw) as [E _]; rewrite E, S_INR in Hd; lra].
  destruct k as [|k].
  - rewrite cell_0 in Hd by auto. split; [cbn in Hd; lra|intros; discriminate].
  - assert (DB := D_bound k ltac:(lia)). rewrite (S_INR (S k)) in Hd.
    destruct (cell_S k s Hk Hw DB) as [[E _]|(b & Hb & EB & E & _)].
    + destruct (DB s Hs). lra.
    + unfold lo in Hb. destruct (DB b ltac:(lia)). destruct (Hrange (S k) s Hk Hs). split; [lra|].
      intros k' [= <-]. rewrite EB. split; [lia|lra].
Qed.

(** ** Perfect matches on the diagonal *)
Hypothesis Hdiag : forall k, (k < M)%nat -> (0 <= r k < c)%Z /\ sim k (r k) = 1.
Hypothesis Hincr : forall k, (S k < M)%nat -> (r k < r (S k))%Z.
Hypothesis Hsw : (0 <= sw)%Z.
Lemma W_diag k : (k < M)%nat -> W k (r k).
Proof. intros Hk. destruct (Hdiag k Hk). unfold in_window. lia. Qed.
Lemma D_diag k : (k < M)%nat -> D k (r k) = INR (S k).
Proof.
  induction k as [|k IH]; intros Hk.
  - rewrite cell_0 by (auto using W_diag). apply Hdiag. auto.
  - specialize (IH ltac:(lia)). assert (Hw := W_diag (S k) Hk). assert (Hs := W_range _ _ Hw).
    pose proof (D_bound k ltac:(lia)) as DB.
    destruct TR as (I1 & I2 & I3 & I4 & I5). pose proof (I5 (S k) _ Hk Hw) as H.
    cbn [prev_of dp_cell] in H. unfold best_previous in H.
    assert (G : forall b, (0 <= b < c)%Z -> zget (nth k dp []) b = Ok (D k b : num RN)).
    { intros b Hb'. apply zget_in. unfold zlen. pose proof (proj1 (I3 k ltac:(lia))) as L. match goal with |- (_ <= _ < Z.of_nat ?n)%Z => replace n with cn by (symmetry; exact L) end. lia. }
    rewrite (scan_fold (N:=RN) (nth k dp []) (fun b => D k b)) in H.
    2: { intros b Hb'. apply in_rev, in_zrange in Hb'. apply G. unfold lo in Hb'. lia. }
    cbn [bind] in H.
    pose proof (scan_spec (N:=RN) _ _ _ R_order (fun b => D k b) (rev (zrange (lo idx sw k) (r (S k)))) (nmin_value RN) (-1)%Z I (fun _ _ => I)) as SS.
    cbv beta in SS. destruct (fold_left _ _ _) as [hv past]. destruct SS as (_ & _ & G2 & _).
    rewrite G in H by auto. cbn [bind] in H. cbn [nltb nadd RN num] in *.
    assert (Hh : INR (S k) <= hv).
    { rewrite <- IH. apply (G2 (r k)). apply -> in_rev. apply in_zrange. destruct (Hdiag k ltac:(lia)). unfold lo. specialize (Hincr k Hk). lia. }
    assert (Hd : sim (S k) (r (S k)) = 1) by (apply Hdiag; auto). rewrite Hd in H. destruct (DB (r (S k)) Hs) as [_ D1].
    destruct (Rltb_cases (1 + hv) (D k (r (S k)))) as [LT|GE]; [lra|].
    assert (E2 : 1 + hv = D (S k) (r (S k))) by exact (f_equal (fun x : res (R * Z) => match x with Ok (v, _) => v | _ => 0 end) H).
    assert (UB := D_bound (S k) Hk _ Hs). rewrite (S_INR (S k)) in *. lra.
Qed.
End Exact.
