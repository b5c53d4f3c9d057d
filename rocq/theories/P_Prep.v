(** C29: preparing two spectrograms for comparison. *)
From Coq Require Import Reals Lra.
From Flocq Require Import Core IEEE754.BinarySingleNaN.
From Verif Require Import Base Num Mat F64 RNum M_Audio M_Align M_Spectro.
From Verif Require Import P_Base P_Mat P_F64 P_Score Spec Spec2.
Open Scope R_scope.

Record num_order (N : NumOps) (val : num N -> R) (good fin : num N -> Prop) : Prop := {
  no_lt : forall x y, good x -> good y -> (nltb N x y = true <-> val x < val y);
  no_eq : forall x y, good x -> good y -> (neqb N x y = true <-> val x = val y);
  no_nan : forall x, nis_nan x = false <-> good x;
  no_fin : forall x, fin x -> good x;
  no_sub : forall x y, fin x -> fin y -> good (nsub N x y);
  no_sub_mono : forall x y z, fin x -> fin y -> fin z -> val x <= val y -> val (nsub N x z) <= val (nsub N y z);
  no_sub_self : forall x, fin x -> val (nsub N x x) = 0;
  no_m45 : fin (nneg N (nofZ N 45));
  no_45 : forall x, fin x -> val (nneg N (nofZ N 45)) <= val x -> fin (nsub N x (nofZ N 45))
}.

Section Prep.
Context {N : NumOps}.
Notation T := (num N).
Variable val : T -> R.
Variable good fin : T -> Prop.
Hypothesis OD : num_order N val good fin.

Lemma nlt_false x y : good x -> good y -> nltb N x y = false -> val y <= val x.
Proof.
  intros Gx Gy H. pose proof (no_lt _ _ _ _ OD x y Gx Gy) as E. destruct (Rle_or_lt (val y) (val x)); auto.
  assert (nltb N x y = true) by tauto. congruence.
Qed.
Lemma nmax_spec x y : good x -> good y -> (nmax x y = x \/ nmax x y = y) /\ good (nmax x y) /\ val (nmax x y) = Rmax (val x) (val y).
Proof.
  intros Gx Gy. unfold nmax. rewrite (proj2 (no_nan _ _ _ _ OD x) Gx), (proj2 (no_nan _ _ _ _ OD y) Gy).
  destruct (nltb N x y) eqn:E.
  - apply (no_lt _ _ _ _ OD) in E; auto. split; auto. split; auto. rewrite Rmax_right; auto; lra.
  - apply nlt_false in E; auto. split; auto. split; auto. rewrite Rmax_left; auto.
Qed.
Lemma nmin_spec x y : good x -> good y -> (nmin x y = x \/ nmin x y = y) /\ val (nmin x y) = Rmin (val x) (val y).
Proof.
  intros Gx Gy. unfold nmin. rewrite (proj2 (no_nan _ _ _ _ OD x) Gx), (proj2 (no_nan _ _ _ _ OD y) Gy).
  destruct (nltb N y x) eqn:E.
  - apply (no_lt _ _ _ _ OD) in E; auto. split; auto. rewrite Rmin_right; auto; lra.
  - apply nlt_false in E; auto. split; auto. rewrite Rmin_left; auto.
Qed.
Lemma nmax_floor_good x y : good x -> good (nmax x y).
Proof.
  intros Gx. destruct (nis_nan y) eqn:E.
  - unfold nmax. rewrite (proj2 (no_nan _ _ _ _ OD x) Gx), E. auto.
  - apply no_nan with (1 := OD) in E. apply nmax_spec; auto.
Qed.
Lemma ncmp_spec x y : good x -> good y -> ncmp x y = Some (Rcompare (val x) (val y)).
Proof.
  intros Gx Gy. unfold ncmp. pose proof (no_lt _ _ _ _ OD x y Gx Gy). pose proof (no_lt _ _ _ _ OD y x Gy Gx). pose proof (no_eq _ _ _ _ OD x y Gx Gy).
  destruct (Rcompare_spec (val x) (val y)) as [L|L|L].
  - rewrite (proj2 H L). auto.
  - destruct (nltb N x y); [assert (val x < val y) by tauto; lra|]. destruct (nltb N y x); [assert (val y < val x) by tauto; lra|].
    rewrite (proj2 H1 L). auto.
  - destruct (nltb N x y); [assert (val x < val y) by tauto; lra|]. rewrite (proj2 H0 L). auto.
Qed.
Lemma nd_max_from_ok l : forall acc, good acc -> Forall good l -> exists m, nd_max_from acc l = Some m /\ (m = acc \/ In m l) /\ val acc <= val m /\ Forall (fun x => val x <= val m) l.
Proof.
  induction l as [|x t IH]; intros acc Ga HF; cbn [nd_max_from].
  - exists acc. repeat split; auto. lra.
  - inversion HF as [|? ? Gx Gt]; subst. rewrite ncmp_spec by auto. destruct (Rcompare_spec (val x) (val acc)).
    1,2: destruct (IH acc Ga Gt) as (m & E & I & L & F); exists m; split; auto; split; [destruct I; auto; right; right; auto|]; split; auto; constructor; auto; lra.
    destruct (IH x Gx Gt) as (m & E & I & L & F). exists m. split; auto. split; [right; destruct I; [left|right]; auto|]. split; [lra|]. constructor; auto.
Qed.
Lemma nd_max_ok l : l <> [] -> Forall good l -> exists m, nd_max l = Some m /\ In m l /\ Forall (fun x => val x <= val m) l.
Proof.
  intros NE HF. destruct l as [|x t]; [tauto|]. unfold nd_max. assert (good x) by (inversion HF; auto).
  destruct (nd_max_from_ok (x :: t) x H HF) as (m & E & I & L & F). exists m. split; auto. split; auto. destruct I; [left; auto|auto].
Qed.
Lemma nd_min_from_ok l : forall acc, good acc -> Forall good l -> exists m, nd_min_from acc l = Some m /\ (m = acc \/ In m l) /\ val m <= val acc /\ Forall (fun x => val m <= val x) l.
Proof.
  induction l as [|x t IH]; intros acc Ga HF; cbn [nd_min_from].
  - exists acc. repeat split; auto. lra.
  - inversion HF as [|? ? Gx Gt]; subst. rewrite ncmp_spec by auto. destruct (Rcompare_spec (val x) (val acc)).
    2,3: destruct (IH acc Ga Gt) as (m & E & I & L & F); exists m; split; auto; split; [destruct I; auto; right; right; auto|]; split; auto; constructor; auto; lra.
    destruct (IH x Gx Gt) as (m & E & I & L & F). exists m. split; auto. split; [right; destruct I; [left|right]; auto|]. split; [lra|]. constructor; auto.
Qed.
Lemma nd_min_ok l : l <> [] -> Forall good l -> exists m, nd_min l = Some m /\ In m l /\ Forall (fun x => val m <= val x) l.
Proof.
  intros NE HF. destruct l as [|x t]; [tauto|]. unfold nd_min. assert (good x) by (inversion HF; auto).
  destruct (nd_min_from_ok (x :: t) x H HF) as (m & E & I & L & F). exists m. split; auto. split; auto. destruct I; [left; auto|auto].
Qed.

(** Entries of a built matrix. *)
Lemma in_flat r c (f : nat -> nat -> T) x : In x (mflat (mbuild r c f)) <-> exists i j, (i < r)%nat /\ (j < c)%nat /\ x = f i j.
Proof.
  unfold mflat, mbuild; cbn [mdata]. rewrite in_concat. split.
  - intros (l & Hl & Hx). apply in_map_iff in Hl as (i & <- & Hi). apply in_map_iff in Hx as (j & <- & Hj). apply in_seq in Hi, Hj. exists i, j. repeat split; auto; lia.
  - intros (i & j & Hi & Hj & ->). exists (map (f i) (seq 0 c)). split; apply in_map_iff; [exists i|exists j]; split; auto; apply in_seq; lia.
Qed.
Lemma in_col r c (f : nat -> nat -> T) j x : (j < c)%nat -> (In x (mcol (mbuild r c f) j) <-> exists i, (i < r)%nat /\ x = f i j).
Proof.
  intros Hj. rewrite mcol_mbuild by auto. rewrite in_map_iff. split.
  - intros (i & <- & Hi). apply in_seq in Hi. exists i. split; auto. lia.
  - intros (i & Hi & ->). exists i. split; auto. apply in_seq. lia.
Qed.

Definition lev (m : mat N) (i j : nat) : T := nmax (nneg N (nofZ N 45)) (sample_to_db (mget m i j)).

Variable r d : Spectrogram N.
Notation R1 := (mrows (sp_data r)).
Notation R2 := (mrows (sp_data d)).
Notation C := (mcols (sp_data r)).
Hypothesis HC : mcols (sp_data d) = C.
Hypothesis Hn : (1 <= R1)%nat /\ (1 <= R2)%nat /\ (1 <= C)%nat.
Hypothesis Hfr : forall i j, (i < R1)%nat -> (j < C)%nat -> fin (lev (sp_data r) i j).
Hypothesis Hfd : forall i j, (i < R2)%nat -> (j < C)%nat -> fin (lev (sp_data d) i j).

Lemma lev_ge m i j : fin (lev m i j) -> val (nneg N (nofZ N 45)) <= val (lev m i j).
Proof.
  intros _. unfold lev. assert (G := no_fin _ _ _ _ OD _ (no_m45 _ _ _ _ OD)). set (f := nneg N (nofZ N 45)) in *.
  set (x := sample_to_db _). destruct (nis_nan x) eqn:E.
  - unfold nmax. rewrite (proj2 (no_nan _ _ _ _ OD f) G), E. lra.
  - apply no_nan with (1 := OD) in E. destruct (nmax_spec f x G E) as (_ & _ & V). rewrite V. apply Rmax_l.
Qed.

Lemma prep_gen : exists (pk L : nat -> T) (low : T) (r' d' : Spectrogram N),
  prepare_spectrograms_for_comparison r d = Ok (r', d') /\
  r' = with_data r (mbuild R1 C (fun i j => nsub N (nmax (L j) (lev (sp_data r) i j)) low)) /\
  d' = with_data d (mbuild R2 C (fun i j => nsub N (nmax (L j) (lev (sp_data d) i j)) low)) /\
  (forall j, (j < C)%nat -> L j = nsub N (pk j) (nofZ N 45) /\ fin (L j) /\ fin (pk j) /\
     ((exists i, (i < R1)%nat /\ pk j = lev (sp_data r) i j) \/ (exists i, (i < R2)%nat /\ pk j = lev (sp_data d) i j)) /\
     (forall i, (i < R1)%nat -> val (lev (sp_data r) i j) <= val (pk j)) /\
     (forall i, (i < R2)%nat -> val (lev (sp_data d) i j) <= val (pk j))) /\
  fin low /\
  ((exists i j, (i < R1)%nat /\ (j < C)%nat /\ low = nmax (L j) (lev (sp_data r) i j)) \/
   (exists i j, (i < R2)%nat /\ (j < C)%nat /\ low = nmax (L j) (lev (sp_data d) i j))) /\
  (forall i j, (i < R1)%nat -> (j < C)%nat -> fin (nmax (L j) (lev (sp_data r) i j)) /\ val low <= val (nmax (L j) (lev (sp_data r) i j))) /\
  (forall i j, (i < R2)%nat -> (j < C)%nat -> fin (nmax (L j) (lev (sp_data d) i j)) /\ val low <= val (nmax (L j) (lev (sp_data d) i j))).
Proof.
  unfold prepare_spectrograms_for_comparison, raise_floor_per_frame. cbv zeta.
  assert (A : forall s : Spectrogram N, sp_data (raise_floor (convert_to_db s) NOISE_FLOOR_ABSOLUTE_DB) = mbuild (mrows (sp_data s)) (mcols (sp_data s)) (lev (sp_data s))).
  { intros s. unfold raise_floor, convert_to_db, with_data, mmap; cbn [sp_data mbuild mrows mcols]. apply mbuild_ext. intros i j Hi Hj.
    rewrite mget_mbuild by auto. reflexivity. }
  rewrite !A. set (a := mbuild R1 C (lev (sp_data r))) in *. set (b := mbuild R2 (mcols (sp_data d)) (lev (sp_data d))) in *.
  set (pk := fun j => match nd_max (mcol a j), nd_max (mcol b j) with Some x, Some y => nmax x y | _, _ => nofZ N 0 end).
  assert (FF : forall j, (j < C)%nat -> frame_floor NOISE_FLOOR_RELATIVE_TO_PEAK_DB a b j = Ok (nsub N (pk j) (nofZ N 45)) /\
     fin (nsub N (pk j) (nofZ N 45)) /\ fin (pk j) /\
     ((exists i, (i < R1)%nat /\ pk j = lev (sp_data r) i j) \/ (exists i, (i < R2)%nat /\ pk j = lev (sp_data d) i j)) /\
     (forall i, (i < R1)%nat -> val (lev (sp_data r) i j) <= val (pk j)) /\
     (forall i, (i < R2)%nat -> val (lev (sp_data d) i j) <= val (pk j))).
  { intros j Hj. unfold frame_floor, pk.
    destruct (nd_max_ok (mcol a j)) as (m1 & E1 & I1 & F1).
    { unfold a. rewrite mcol_mbuild by auto. destruct (mrows (sp_data r)); [lia|discriminate]. }
    { apply Forall_forall. intros x Hx. unfold a in Hx. apply in_col in Hx; auto. destruct Hx as (i & Hi & ->). apply (no_fin _ _ _ _ OD). auto. }
    destruct (nd_max_ok (mcol b j)) as (m2 & E2 & I2 & F2).
    { unfold b. rewrite mcol_mbuild by lia. destruct (mrows (sp_data d)); [lia|discriminate]. }
    { apply Forall_forall. intros x Hx. unfold b in Hx. apply in_col in Hx; [|lia]. destruct Hx as (i & Hi & ->). apply (no_fin _ _ _ _ OD). auto. }
    rewrite E1, E2. cbn [bind]. rewrite Forall_forall in F1, F2.
    unfold a in I1. apply in_col in I1; auto. destruct I1 as (i1 & Hi1 & X1).
    unfold b in I2. apply in_col in I2; [|lia]. destruct I2 as (i2 & Hi2 & X2).
    assert (G1 : fin m1) by (rewrite X1; auto). assert (G2 : fin m2) by (rewrite X2; auto).
    destruct (nmax_spec m1 m2 (no_fin _ _ _ _ OD _ G1) (no_fin _ _ _ _ OD _ G2)) as (Ch & _ & V).
    assert (Gp : fin (nmax m1 m2)) by (destruct Ch as [-> | ->]; auto).
    split; [reflexivity|]. split.
    { apply (no_45 _ _ _ _ OD); auto. rewrite V. apply Rle_trans with (val m1); [|apply Rmax_l]. rewrite X1. apply lev_ge. auto. }
    split; auto. split.
    { destruct Ch as [-> | ->]; [left; eauto|right; eauto]. }
    split; intros i Hi; rewrite V.
    - apply Rle_trans with (val m1); [|apply Rmax_l]. apply F1. unfold a. apply in_col; eauto.
    - apply Rle_trans with (val m2); [|apply Rmax_r]. apply F2. unfold b. apply in_col; eauto; lia. }
  set (flr := fun j => nsub N (pk j) (nofZ N 45)).
  assert (Ec : Nat.min (mcols a) (mcols b) = C) by (unfold a, b; cbn [mbuild mcols]; lia).
  rewrite Ec. rewrite (mapM_total _ flr) by (intros j Hj; apply in_seq in Hj; apply FF; lia). cbn [bind].
  assert (Hnth : forall j, (j < C)%nat -> nth_error (map flr (seq 0 C)) j = Some (flr j)).
  { intros j Hj. rewrite nth_error_map. rewrite (nth_error_nth' _ 0%nat) by (rewrite seq_length; auto). rewrite seq_nth by auto. reflexivity. }
  set (up := fun (m : mat N) i j => nmax (flr j) (lev m i j)).
  assert (EA : mbuild (mrows a) (mcols a) (fun i j => match nth_error (map flr (seq 0 C)) j with Some fl => nmax fl (mget a i j) | None => mget a i j end) = mbuild R1 C (up (sp_data r))).
  { unfold a at 1 2. cbn [mbuild mrows mcols]. apply mbuild_ext. intros i j Hi Hj. rewrite Hnth by auto. unfold a. rewrite mget_mbuild by auto. auto. }
  assert (EB : mbuild (mrows b) (mcols b) (fun i j => match nth_error (map flr (seq 0 C)) j with Some fl => nmax fl (mget b i j) | None => mget b i j end) = mbuild R2 C (up (sp_data d))).
  { unfold b at 1 2. cbn [mbuild mrows mcols]. rewrite HC. apply mbuild_ext. intros i j Hi Hj. rewrite Hnth by auto. unfold b. rewrite mget_mbuild by lia. auto. }
  rewrite EA, EB. unfold get_minimum. cbn [with_data sp_data].
  assert (UR : forall i j, (i < R1)%nat -> (j < C)%nat -> fin (up (sp_data r) i j)).
  { intros i j Hi Hj. destruct (FF j Hj) as (_ & Ff & _). destruct (nmax_spec (flr j) (lev (sp_data r) i j)) as ([E|E] & _); try (apply (no_fin _ _ _ _ OD); auto); unfold up; rewrite E; auto. }
  assert (UD : forall i j, (i < R2)%nat -> (j < C)%nat -> fin (up (sp_data d) i j)).
  { intros i j Hi Hj. destruct (FF j Hj) as (_ & Ff & _). destruct (nmax_spec (flr j) (lev (sp_data d) i j)) as ([E|E] & _); try (apply (no_fin _ _ _ _ OD); auto); unfold up; rewrite E; auto. }
  destruct (nd_min_ok (mflat (mbuild R1 C (up (sp_data r))))) as (l1 & E1 & I1 & F1).
  { intros E. assert (I : In (up (sp_data r) O O) (mflat (mbuild R1 C (up (sp_data r))))) by (apply in_flat; exists O, O; repeat split; auto; lia). rewrite E in I. destruct I. }
  { apply Forall_forall. intros x Hx. apply in_flat in Hx as (i & j & Hi & Hj & ->). apply (no_fin _ _ _ _ OD). auto. }
  destruct (nd_min_ok (mflat (mbuild R2 C (up (sp_data d))))) as (l2 & E2 & I2 & F2).
  { intros E. assert (I : In (up (sp_data d) O O) (mflat (mbuild R2 C (up (sp_data d))))) by (apply in_flat; exists O, O; repeat split; auto; lia). rewrite E in I. destruct I. }
  { apply Forall_forall. intros x Hx. apply in_flat in Hx as (i & j & Hi & Hj & ->). apply (no_fin _ _ _ _ OD). auto. }
  rewrite E1, E2. cbn [bind]. apply in_flat in I1 as (i1 & j1 & Hi1 & Hj1 & X1). apply in_flat in I2 as (i2 & j2 & Hi2 & Hj2 & X2).
  assert (G1 : fin l1) by (rewrite X1; auto). assert (G2 : fin l2) by (rewrite X2; auto).
  destruct (nmin_spec l1 l2 (no_fin _ _ _ _ OD _ G1) (no_fin _ _ _ _ OD _ G2)) as (Ch & V).
  rewrite Forall_forall in F1, F2.
  exists pk, flr, (nmin l1 l2). do 2 eexists. split; [reflexivity|].
  split; [unfold subtract_floor, with_data, mmap; cbn [sp_data center_freq_bands mbuild mrows mcols]; f_equal; apply mbuild_ext; intros; rewrite mget_mbuild by auto; reflexivity|].
  split; [unfold subtract_floor, with_data, mmap; cbn [sp_data center_freq_bands mbuild mrows mcols]; f_equal; apply mbuild_ext; intros; rewrite mget_mbuild by auto; reflexivity|].
  split; [intros j Hj; split; [reflexivity|apply FF; auto]|].
  split; [destruct Ch as [-> | ->]; auto|].
  split; [destruct Ch as [-> | ->]; [left|right]; [exists i1, j1|exists i2, j2]; auto|].
  split; intros i j Hi Hj; (split; [apply UR || apply UD; auto|]); rewrite V.
  - apply Rle_trans with (val l1); [apply Rmin_l|]. apply (F1 (up (sp_data r) i j)). apply in_flat. exists i, j; auto.
  - apply Rle_trans with (val l2); [apply Rmin_r|]. apply (F2 (up (sp_data d) i j)). apply in_flat. exists i, j; auto.
Qed.
End Prep.

(** ** Exact arithmetic *)
Lemma R_num_order : num_order RN (fun x => x) (fun _ => True) (fun _ => True).
Proof.
  constructor; auto.
  - intros x y _ _. apply Rltb_true.
  - intros x y _ _. apply Reqb_true.
  - intros x. unfold nis_nan. cbn [neqb RN]. rewrite Reqb_refl. cbn. tauto.
  - intros x y z _ _ _ H. change (x - z <= y - z). lra.
  - intros x _. change (x - x = 0). ring.
Qed.
Lemma ln10_pos : 0 < ln 10. Proof. rewrite <- ln_1. apply ln_increasing; lra. Qed.
Lemma ln_le x y : 0 < x -> x <= y -> ln x <= ln y.
Proof. intros H [L| ->]; [left; apply ln_increasing; auto|lra]. Qed.
Lemma R_nmax (x y : R) : nmax (N:=RN) x y = Rmax x y.
Proof. destruct (nmax_spec (N:=RN) _ _ _ R_num_order x y I I) as (_ & _ & H). exact H. Qed.
Lemma R_m45 : nneg RN (nofZ RN 45) = -45. Proof. change (- IZR 45 = -45). lra. Qed.
Lemma lev_level (m : mat RN) i j : lev m i j = level (mget m i j).
Proof.
  unfold lev. etransitivity; [apply R_nmax|]. rewrite R_m45. unfold sample_to_db, level.
  change (neqb RN (mget m i j) (nofZ RN 0)) with (Reqb (mget m i j) 0). unfold Reqb.
  destruct (Req_EM_T (mget m i j) 0) as [E|E].
  - change (Rmax (-45) (10 * (ln (bpow radix2 (-52)) / ln 10)) = -45). apply Rmax_left.
    pose proof ln10_pos as L. assert (H : ln (bpow radix2 (-52)) <= -5 * ln 10).
    { replace (-5 * ln 10) with (ln (/ 10 ^ 5)).
      - apply ln_le; [apply bpow_gt_0|]. cbn [bpow]. apply Rinv_le; [lra|]. change (Z.pow_pos radix2 52) with (2 ^ 52)%Z. replace (10 ^ 5) with 100000 by ring. apply IZR_le. lia.
      - rewrite ln_Rinv by (apply pow_lt; lra). rewrite ln_pow by lra. cbn [INR]. ring. }
    assert (ln (bpow radix2 (-52)) / ln 10 <= -5) by (apply Rmult_le_reg_r with (ln 10); auto; unfold Rdiv; rewrite Rmult_assoc, Rinv_l by lra; lra). lra.
  - reflexivity.
Qed.
Lemma level_mono x y : Rabs x <= Rabs y -> level x <= level y.
Proof.
  intros H. unfold level. destruct (Req_EM_T y 0) as [->|Ny].
  - rewrite Rabs_R0 in H. destruct (Req_EM_T x 0); [lra|]. pose proof (Rabs_pos_lt x n). lra.
  - destruct (Req_EM_T x 0); [apply Rmax_l|]. apply Rle_max_compat_l.
    pose proof ln10_pos. assert (ln (Rabs x) <= ln (Rabs y)) by (apply ln_le; auto; apply Rabs_pos_lt; auto).
    apply Rmult_le_compat_l; [lra|]. unfold Rdiv. apply Rmult_le_compat_r; auto. left. apply Rinv_0_lt_compat; auto.
Qed.
Lemma C29_R (r d : Spectrogram RN) :
  mcols (sp_data d) = mcols (sp_data r) ->
  (1 <= mrows (sp_data r))%nat -> (1 <= mrows (sp_data d))%nat -> (1 <= mcols (sp_data r))%nat ->
  exists r' d' (peak : nat -> R) (low : R),
    prepare_spectrograms_for_comparison r d = Ok (r', d') /\
    let both := [(r, r'); (d, d')] in
    let raised j x := Rmax (peak j - 45) (level x) in
    (forall s s', In (s, s') both -> mat_wf (sp_data s') /\ mrows (sp_data s') = mrows (sp_data s) /\
       mcols (sp_data s') = mcols (sp_data s) /\ center_freq_bands s' = center_freq_bands s) /\
    (forall s s' i j x, In (s, s') both -> value_at s i j x -> value_at s' i j (raised j x - low)) /\
    (forall j, (j < mcols (sp_data r))%nat -> exists s s' i x, In (s, s') both /\ value_at s i j x /\ level x = peak j) /\
    (forall s s' i j x, In (s, s') both -> value_at s i j x -> level x <= peak j) /\
    (exists s s' i j x, In (s, s') both /\ value_at s i j x /\ raised j x = low) /\
    (forall s s' i j x, In (s, s') both -> value_at s i j x -> low <= raised j x).
Proof.
  intros HC H1 H2 H3. destruct (prep_gen (N:=RN) _ _ _ R_num_order r d HC (conj H1 (conj H2 H3)) (fun _ _ _ _ => I) (fun _ _ _ _ => I)) as (pk & L & low & r' & d' & E & Er & Ed & HL & _ & Hlow & Hr & Hd).
  exists r', d', pk, low. split; auto. cbv zeta.
  assert (RL : forall j m i, (j < mcols (sp_data r))%nat -> nmax (N:=RN) (L j) (lev m i j) = Rmax (pk j - 45) (level (mget m i j))).
  { intros j m i Hj. etransitivity; [apply R_nmax|]. rewrite lev_level. destruct (HL j Hj) as (-> & _). reflexivity. }
  split.
  { intros s s' [X|[X|[]]]; injection X as <- <-; [rewrite Er|rewrite Ed]; cbn [with_data sp_data center_freq_bands mbuild mrows mcols]; repeat split; auto; try apply mbuild_wf. }
  split.
  { intros s s' i j x [X|[X|[]]] (A & B & C); injection X as <- <-; unfold value_at; [rewrite Er|rewrite Ed]; cbn [with_data sp_data].
    - split; [exact A|]. split; [exact B|]. rewrite mget_mbuild by auto. change (nsub RN ?a ?b) with (a - b). rewrite <- C. f_equal. apply RL. auto.
    - rewrite HC in B. split; [exact A|]. split; [exact B|]. rewrite mget_mbuild by auto. change (nsub RN ?a ?b) with (a - b). rewrite <- C. f_equal. apply RL. auto. }
  split.
  { intros j Hj. destruct (HL j Hj) as (_ & _ & _ & [(i & Hi & X)|(i & Hi & X)] & _).
    - exists r, r', i, (mget (sp_data r) i j). split; [left; auto|]. split; [repeat split; auto|]. rewrite X. symmetry. apply lev_level.
    - exists d, d', i, (mget (sp_data d) i j). split; [right; left; auto|]. split; [repeat split; auto; lia|]. rewrite X. symmetry. apply lev_level. }
  split.
  { intros s s' i j x [X|[X|[]]] (A & B & C); injection X as <- <-; rewrite <- C, <- lev_level.
    - destruct (HL j B) as (_ & _ & _ & _ & M1 & _). apply M1. auto.
    - rewrite HC in B. destruct (HL j B) as (_ & _ & _ & _ & _ & M2). apply M2. auto. }
  split.
  { destruct Hlow as [(i & j & Hi & Hj & X)|(i & j & Hi & Hj & X)].
    - exists r, r', i, j, (mget (sp_data r) i j). split; [left; auto|]. split; [repeat split; auto|]. rewrite X. symmetry. apply RL. auto.
    - exists d, d', i, j, (mget (sp_data d) i j). split; [right; left; auto|]. split; [repeat split; auto; lia|]. rewrite X. symmetry. apply RL. auto. }
  intros s s' i j x [X|[X|[]]] (A & B & C); injection X as <- <-; rewrite <- C.
  - rewrite <- RL by auto. apply Hr; auto.
  - rewrite HC in B. rewrite <- RL by auto. apply Hd; auto.
Qed.
