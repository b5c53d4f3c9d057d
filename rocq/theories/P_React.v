(** Proofs of C67. *)
From Coq Require Import Reals Lra Lia.
From Verif Require Import Base Num RNum M_Audio M_Visqol M_SvrData M_Svr Spec P_Exp P_Manager P_Score P_Range P_Same P_Same2 P_Run P_Mapping P_Svr P_Svr2.
Open Scope R_scope.

Lemma exp_lip_up a b k : a <= k -> b <= k -> Rabs (exp a - exp b) <= exp k * Rabs (a - b).
Proof.
  assert (W : forall a b, a <= b -> b <= k -> exp b - exp a <= exp k * (b - a)).
  { clear. intros a b H K. replace a with (b + (a - b)) at 1 by ring. rewrite exp_plus.
    pose proof (exp_ineq1_le (a - b)). pose proof (exp_pos b). assert (exp b <= exp k) by (destruct K as [K| ->]; [left; apply exp_increasing|]; lra). nra. }
  intros Ha Hb. destruct (Rle_lt_dec a b) as [L|L].
  - specialize (W a b L Hb). assert (exp a <= exp b) by (destruct L as [L| ->]; [left; apply exp_increasing|]; lra).
    rewrite (Rabs_left1 (a - b)), (Rabs_left1 (exp a - exp b)) by lra. lra.
  - specialize (W b a ltac:(lra) Ha). assert (exp b < exp a) by (apply exp_increasing; lra).
    rewrite (Rabs_pos_eq (a - b)), (Rabs_pos_eq (exp a - exp b)) by lra. lra.
Qed.
Lemma raw_lip s x y : x <= 1 -> y <= 1 -> Rabs (r_raw s x - r_raw s y) <= (if s then 17 else 14.1) * Rabs (x - y).
Proof.
  intros Hx Hy. set (c := 46851153 / 10000000). set (z := 7655232 / 10000000).
  assert (E : Rabs (exp (c * (x - z)) - exp (c * (y - z))) <= 14.055 * Rabs (x - y)).
  { eapply Rle_trans; [apply (exp_lip_up _ _ tpt); unfold tpt, c, z; nra|].
    replace (c * (x - z) - c * (y - z)) with (c * (x - y)) by ring. rewrite Rabs_mult, (Rabs_pos_eq c) by (unfold c; lra).
    pose proof exp_tpt. pose proof (Rabs_pos (x - y)). assert (exp tpt * c <= 14.055) by (unfold c; lra). nra. }
  assert (F : Rabs (r_raw false x - r_raw false y) <= 14.055 * Rabs (x - y)).
  { unfold r_raw. fold c z. eapply Rle_trans; [|exact E]. right. f_equal. ring. }
  pose proof (Rabs_pos (x - y)). destruct s; [|lra].
  rewrite !raw_scale, <- Rmult_minus_distr_l, Rabs_mult, Rabs_pos_eq by lra. lra.
Qed.
Lemma C67_wide nb u w (m m1 m2 : Manager RN) calls1 calls2 pf files1 files2 a b c d r s : new_manager nb (Wideband u) w = Ok m ->
  run pf nb files1 (after_calls pf nb m calls1) a b = (m1, Ok r) -> run pf nb files2 (after_calls pf nb m calls2) c d = (m2, Ok s) ->
  0.15 <= vnsim r -> 0.15 <= vnsim s -> Rabs (moslqo r - moslqo s) <= (if u then 14.1 else 17) * Rabs (vnsim r - vnsim s).
Proof.
  intros HM H K Vr Vs. pose proof (C54_all _ _ _ _ _ _ _ _ H) as (_ & Br & _). pose proof (C54_all _ _ _ _ _ _ _ _ K) as (_ & Bs & _).
  rewrite (wide_score _ _ _ _ _ _ _ _ _ _ _ HM H), (wide_score _ _ _ _ _ _ _ _ _ _ _ HM K).
  change (num RN) with R in *. destruct (Rlt_dec (vnsim r) 0.15); [lra|]. destruct (Rlt_dec (vnsim s) 0.15); [lra|].
  pose proof (raw_lip (negb u) (vnsim r) (vnsim s) ltac:(lra) ltac:(lra)). destruct u; assumption.
Qed.
Lemma C67_jump_lemma nb u w (m m1 m2 : Manager RN) calls1 calls2 pf files1 files2 a b c d r s : new_manager nb (Wideband u) w = Ok m ->
  run pf nb files1 (after_calls pf nb m calls1) a b = (m1, Ok r) -> run pf nb files2 (after_calls pf nb m calls2) c d = (m2, Ok s) ->
  vnsim r < 0.15 <= vnsim s -> (if u then 0.211 else 0.456) < moslqo s - moslqo r.
Proof.
  intros HM H K V. pose proof (C61_gap_all _ _ _ _ _ _ _ _ _ _ _ HM H). pose proof (C61_gap_all _ _ _ _ _ _ _ _ _ _ _ HM K).
  change (num RN) with R in *. destruct u; lra.
Qed.

(** ** Fullband *)
Fixpoint l1 (x y : list R) : R := match x, y with a :: x, b :: y => Rabs (a - b) + l1 x y | _, _ => 0 end.
Lemma l1_nonneg x : forall y, 0 <= l1 x y.
Proof. induction x as [|a x IH]; intros [|b y]; cbn [l1]; try lra. specialize (IH y). pose proof (Rabs_pos (a - b)). lra. Qed.
Definition unit_all (x : list R) : Prop := Forall (fun a => -1 <= a <= 1) x.
Lemma sq_lip l : forallb unit_entry l = true -> forall x y, unit_all x -> unit_all y -> List.length x = List.length y ->
  Rabs (sq l x - sq l y) <= 4 * l1 x y.
Proof.
  induction l as [|s l IH]; intros H x y Hx Hy L; [cbn [sq]; rewrite Rminus_0_r, Rabs_R0; pose proof (l1_nonneg x y); lra|].
  cbn [forallb] in H. apply andb_prop in H. destruct H as [Hs H].
  destruct Hx as [|a x Ha Hx], Hy as [|b y Hb Hy]; try discriminate L; [cbn [sq l1]; rewrite Rminus_0_r, Rabs_R0; lra|].
  injection L as L. specialize (IH H x y Hx Hy L). cbn [sq l1].
  unfold unit_entry in Hs. apply andb_prop in Hs. destruct Hs as [H1 H2]. apply Z.leb_le in H1, H2. apply IZR_le in H1, H2.
  set (t := IZR s / 100000000000). assert (T : -1 <= t <= 1) by (unfold t; lra). clearbody t.
  replace ((t - a) ^ 2 + sq l x - ((t - b) ^ 2 + sq l y)) with ((a - b) * (a + b - 2 * t) + (sq l x - sq l y)) by ring.
  eapply Rle_trans; [apply Rabs_triang|]. rewrite Rabs_mult.
  assert (Rabs (a + b - 2 * t) <= 4) by (apply Rabs_le; lra). pose proof (Rabs_pos (a - b)). nra.
Qed.
Definition lip_row (row : Z * list Z) : bool := forallb unit_entry (snd row).
Lemma term_lip row x y : lip_row row = true -> unit_all x -> unit_all y -> List.length x = List.length y ->
  Rabs (term x row - term y row) <= IZR (Z.abs (fst row)) / 1000000000000000000 * (4 / 100 * l1 x y).
Proof.
  intros H Hx Hy L. unfold term. rewrite <- Rmult_minus_distr_l, Rabs_mult.
  assert (C : Rabs (IZR (fst row) / 1000000000000000000) = IZR (Z.abs (fst row)) / 1000000000000000000).
  { unfold Rdiv. rewrite Rabs_mult, abs_IZR, (Rabs_pos_eq (/ _)) by lra. reflexivity. }
  rewrite C. apply Rmult_le_compat_l; [apply (Rmult_le_pos _ _ (IZR_le _ _ (Z.abs_nonneg (fst row)))); lra|].
  pose proof (sq_nonneg (snd row) x). pose proof (sq_nonneg (snd row) y).
  eapply Rle_trans; [apply exp_lip; lra|]. rewrite <- Rmult_minus_distr_l, Rabs_mult, (Rabs_pos_eq (1 / 100)) by lra.
  pose proof (sq_lip (snd row) H x y Hx Hy L). lra.
Qed.
Definition weights (rows : list (Z * list Z)) : Z := fold_right (fun row s => (Z.abs (fst row) + s)%Z) 0%Z rows.
Lemma total_lip x y : unit_all x -> unit_all y -> List.length x = List.length y -> forall rows, forallb lip_row rows = true ->
  Rabs (total (term x) rows - total (term y) rows) <= IZR (weights rows) / 1000000000000000000 * (4 / 100 * l1 x y).
Proof.
  intros Hx Hy L. induction rows as [|row rows IH]; intros H; [cbn [total weights fold_right]; rewrite Rminus_0_r, Rabs_R0; lra|].
  cbn [forallb] in H. apply andb_prop in H. destruct H as [Hr H]. specialize (IH H). pose proof (term_lip row x y Hr Hx Hy L) as T.
  cbn [total weights fold_right]. fold (weights rows). rewrite plus_IZR.
  replace (term x row + total (term x) rows - (term y row + total (term y) rows))
    with ((term x row - term y row) + (total (term x) rows - total (term y) rows)) by ring.
  eapply Rle_trans; [apply Rabs_triang|]. lra.
Qed.
Definition lip_check (rows : list (Z * list Z)) : bool := forallb lip_row rows && (weights rows <=? 312200000000000000000)%Z.
Lemma lip_check_spec rows : lip_check rows = true -> forallb lip_row rows = true /\ (weights rows <= 312200000000000000000)%Z.
Proof. unfold lip_check. rewrite andb_true_iff, Z.leb_le. auto. Qed.
Lemma shipped_lip : lip_check SUPPORT_VECTORS = true.
Proof. vm_cast_no_check (@eq_refl bool true). Qed.
Lemma clamp_lip s t : Rabs (Rmin 5 (Rmax 1 s) - Rmin 5 (Rmax 1 t)) <= Rabs (s - t).
Proof.
  unfold Rmax. destruct (Rle_dec 1 s), (Rle_dec 1 t); unfold Rmin;
    repeat (match goal with |- context [Rle_dec ?a ?b] => destruct (Rle_dec a b) end);
    apply Rabs_le; unfold Rabs; destruct (Rcase_abs _); split; lra.
Qed.
Lemma clamp_total_lip rows x y c : lip_check rows = true -> unit_all x -> unit_all y -> List.length x = List.length y ->
  Rabs (Rmin 5 (Rmax 1 (total (term x) rows + c)) - Rmin 5 (Rmax 1 (total (term y) rows + c))) <= 12.5 * l1 x y.
Proof.
  intros H Hx Hy L. destruct (lip_check_spec rows H) as [C1 C2]. apply IZR_le in C2.
  pose proof (total_lip x y Hx Hy L rows C1) as T. eapply Rle_trans; [apply clamp_lip|].
  replace (total (term x) rows + c - (total (term y) rows + c)) with (total (term x) rows - total (term y) rows) by ring.
  pose proof (l1_nonneg x y). nra.
Qed.
Lemma quality_lip x y qx qy : unit_all x -> unit_all y -> List.length x = 32%nat -> List.length y = 32%nat ->
  predict_quality (N:=RN) (SvrMapper shipped_model) x = Ok qx -> predict_quality (N:=RN) (SvrMapper shipped_model) y = Ok qy ->
  Rabs (qx - qy) <= 12.5 * l1 x y.
Proof.
  intros Hx Hy Lx Ly Qx Qy. rewrite (shipped_quality x Lx) in Qx. rewrite (shipped_quality y Ly) in Qy.
  pose proof (clamp_total_lip SUPPORT_VECTORS x y (36816207123583506 / 10000000000000000) shipped_lip Hx Hy (eq_trans Lx (eq_sym Ly))) as T.
  revert Qx Qy T. generalize (total (term x) SUPPORT_VECTORS) (total (term y) SUPPORT_VECTORS). intros s t Qx Qy T.
  injection Qx as <-. injection Qy as <-. exact T.
Qed.
Lemma C67_full ws (m m1 m2 : Manager RN) calls1 calls2 pf files1 files2 a b c d r s : new_manager 32 (Fullband (Some shipped_model)) ws = Ok m ->
  run pf 32 files1 (after_calls pf 32 m calls1) a b = (m1, Ok r) -> run pf 32 files2 (after_calls pf 32 m calls2) c d = (m2, Ok s) ->
  0.15 <= vnsim r -> 0.15 <= vnsim s ->
  Rabs (moslqo r - moslqo s) <= 12.5 * Rsum (map (fun xy => Rabs (fst xy - snd xy)) (combine (fvnsim r) (fvnsim s))).
Proof.
  intros HM H K Vr Vs.
  assert (E : forall x y, Rsum (map (fun xy => Rabs (fst xy - snd xy)) (combine x y)) = l1 x y).
  { induction x as [|u x IH]; intros [|v y]; auto. cbn [combine map Rsum fold_right l1 fst snd]. f_equal. apply IH. }
  change (num RN) with R in *. rewrite E.
  pose proof (C54_all _ _ _ _ _ _ _ _ H) as (_ & _ & Fr & _). destruct (C39_shape _ _ _ _ _ _ _ _ H) as (Lr & _).
  pose proof (C54_all _ _ _ _ _ _ _ _ K) as (_ & _ & Fs & _). destruct (C39_shape _ _ _ _ _ _ _ _ K) as (Ls & _).
  destruct (run_score _ _ _ _ _ _ _ _ H) as (q & PQ & MO). rewrite (shipped_mapper _ _ _ _ _ HM) in PQ.
  destruct (run_score _ _ _ _ _ _ _ _ K) as (q' & PQ' & MO'). rewrite (shipped_mapper _ _ _ _ _ HM) in PQ'.
  assert (N : forall v : R, 0.15 <= v -> nltb RN v (nlit RN 15 2) = false) by (intros v Hv; change (Rltb v (15 / 100) = false); apply Rltb_false; lra).
  rewrite (N _ Vr) in MO. rewrite (N _ Vs) in MO'. rewrite MO, MO'. apply (quality_lip (fvnsim r) (fvnsim s) q q' Fr Fs Lr Ls PQ PQ').
Qed.
