(** C28: the times of the reported patches. *)
From Coq Require Import Reals Lra Lia.
From Flocq Require Import Core IEEE754.BinarySingleNaN.
From Verif Require Import Base Num Mat M_Audio M_Align M_Spectro M_Patch M_Nsim M_Selector M_Visqol.
From Verif Require Import F64 P_Base P_Manager P_Run P_Vad P_Compare P_Mat P_F64 P_Score P_Win P_Spectro P_Audio P_Agg Spec Spec2.
Open Scope Z_scope.

Section Gen.
Context {N : NumOps}.
Notation T := (num N).
Definition coarse_patch (idx : list Z) (c : Z) (fd pd : T) (p : PatchSim N) : Prop :=
  exists sim lost off r, p = set_times sim lost off r fd pd /\ 0 <= off <= c /\ In r idx.
Lemma backtrace_times pf (refs : list (mat N)) idx (deg : mat N) bt fd pd k : forall s acc out,
  backtrace_loop pf refs idx deg bt fd pd k s acc = Ok out ->
  Forall (coarse_patch idx (Z.of_nat (mcols deg)) fd pd) acc ->
  Forall (coarse_patch idx (Z.of_nat (mcols deg)) fd pd) out.
Proof.
  induction k; intros s acc out H HA; cbn [backtrace_loop] in H; [injection H as <-; auto|].
  do 3 (inv_do H; match goal with H2 : _ = Ok out |- _ => rename H2 into H end).
  do 4 (inv_do H; match goal with H2 : _ = Ok out |- _ => rename H2 into H end).
  eapply IHk; [exact H|]. constructor; auto. do 4 eexists. split; [reflexivity|]. split.
  - unfold build_degraded_patch in Hv1. inv_do Hv1. apply mslice_ok in Hv6. lia.
  - apply zget_ok in Hv5. eapply nth_error_In. apply Hv5.
Qed.
Lemma find_times pf (refs : list (mat N)) idx (deg : mat N) fd radius out :
  find_most_optimal_deg_patches pf refs idx deg fd radius = Ok out ->
  exists p0, nth_error refs 0 = Some p0 /\
    Forall (coarse_patch idx (Z.of_nat (mcols deg)) fd (nmul N fd (nofZ N (Z.of_nat (mcols p0))))) out.
Proof.
  intros H. unfold find_most_optimal_deg_patches in H.
  do 3 (inv_do H; match goal with H2 : _ = Ok out |- _ => rename H2 into H end).
  destruct (Z.eqb_spec v1 0); [discriminate|].
  do 2 (inv_do H; match goal with H2 : _ = Ok out |- _ => rename H2 into H end).
  destruct v3 as [dp bt].
  do 6 (inv_do H; match goal with H2 : _ = Ok out |- _ => rename H2 into H end).
  exists v. split; [destruct refs; [discriminate|]; injection Hv as <-; reflexivity|].
  eapply backtrace_times; eauto.
Qed.
Lemma patches_cols ps (sp : mat N) idx patches : create_patches_from_indices ps sp idx = Ok patches ->
  0 <= ps -> (forall r, In r idx -> 0 <= r /\ r + ps <= Z.of_nat (mcols sp)) /\
  (forall p, In p patches -> Z.of_nat (mcols p) = ps).
Proof.
  unfold create_patches_from_indices. revert patches. induction idx as [|i t IH]; intros patches H Hps; cbn [mapM] in H.
  - injection H as <-. split; intros ? [].
  - inv_do H. inv_do Hk. injection Hk0 as <-. apply mslice_ok in Hv. destruct Hv as (A & B & C).
    destruct (IH _ Hv0 Hps) as (D & E). split.
    + intros r [<-|HI]; auto. lia.
    + intros p [<-|HI]; auto. rewrite C. cbn [mbuild mcols]. lia.
Qed.
Lemma slice_len (s s' : AudioSignal N) a b :
  (forall x : T, 0 <= as_usize x <= 2 ^ 64) ->
  slice s a b = Ok s' -> sample_rate s' = sample_rate s /\ 0 <= sig_len s' <= sig_len s + 2 ^ 66.
Proof.
  intros HU H. unfold slice in H. cbv zeta in H. inv_do H. injection Hk as <-. cbn [sample_rate data_matrix sig_len]. split; auto.
  assert (L : 0 <= zlen v <= sig_len s).
  { unfold sig_len. apply zslice_part in Hv. destruct Hv as (x & y & ->). unfold zlen. rewrite !app_length. lia. }
  unfold sig_len in *. cbn [data_matrix]. 
  pose proof (HU (nsub N (nmul N b (nofZ N (sample_rate s))) (nofZ N (zlen (data_matrix s))))) as U1.
  pose proof (HU (nmul N (nneg N a) (nofZ N (sample_rate s)))) as U2.
  destruct (0 <? _); destruct (nltb N a _); unfold zlen in *; rewrite ?app_length, ?repeat_length; lia.
Qed.
Lemma realign_times pf nb rs ds w (f f' : Filterbank N) old p :
  sample_rate rs = sample_rate ds ->
  (forall x : T, 0 <= as_usize x <= 2 ^ 64) ->
  realign_patch pf nb rs ds w f old = (f', Ok p) ->
  p = old \/ (is_lost old = false /\ exists new lag n k, p = choose_result old new lag (ndiv N (nofZ N n) (nofZ N (sample_rate rs))) (ndiv N (nofZ N n) (nofZ N (sample_rate rs))) /\
    0 <= n <= sig_len rs + 2 ^ 66 /\ (lag = nofZ N 0 \/ lag = ndiv N (nofZ N k) (nofZ N (sample_rate rs))) /\ Z.abs k <= sig_len rs + 2 ^ 66 /\ nltb N (similarity new) (similarity old) = false).
Proof.
  intros HR HU. unfold realign_patch. destruct (is_lost old) eqn:L; [intros [= _ <-]; auto|].
  destruct (slice rs _ _) as [ra| |] eqn:S1; try discriminate. destruct (slice ds _ _) as [da| |] eqn:S2; try discriminate.
  destruct (align_and_truncate pf ra da) as [[[[ra' da'] lag]|]| |] eqn:AL; try discriminate.
  destruct (build nb f ra' w) as [fb1 [rspec| |]]; try discriminate.
  destruct (build nb fb1 da' w) as [fb2 dspec]. intros [= _ H]. inv_do H. inv_do Hk. inv_do Hk0. injection Hk as <-.
  destruct (nltb N (similarity v1) (similarity old)) eqn:E; [left; unfold choose_result; rewrite E; auto|]. right. split; auto.
  apply slice_len in S1; auto. apply slice_len in S2; auto. destruct S1 as (R1 & L1). destruct S2 as (R2 & L2).
  pose proof AL as AL'. apply C11_all in AL; [|congruence]. destruct AL as (A1 & A2 & A3 & A4 & l & SH & _).
  assert (G : get_duration da' = get_duration ra') by (unfold get_duration, sig_len; rewrite <- A1, A2, A3; f_equal; f_equal; congruence).
  exists v1, lag, (sig_len ra'). 
  assert (K : exists k, (lag = nofZ N 0 \/ lag = ndiv N (nofZ N k) (nofZ N (sample_rate rs))) /\ Z.abs k <= sig_len rs + 2 ^ 66).
  { pose proof (Z.div_le_upper_bound (sig_len ra) 2 (sig_len ra)). destruct SH as [|k Hk1 _|k Hk1].
    - exists 0. split; auto. unfold sig_len, zlen in *. lia.
    - exists (-k). split; [right; congruence|]. lia.
    - exists k. split; [right; congruence|]. lia. }
  destruct K as (k & K1 & K2). exists k.
  assert (P : choose_result old v1 lag (get_duration ra') (get_duration da') = choose_result old v1 lag (ndiv N (nofZ N (sig_len ra')) (nofZ N (sample_rate rs))) (ndiv N (nofZ N (sig_len ra')) (nofZ N (sample_rate rs)))).
  { rewrite G. unfold get_duration. rewrite A2, R1. reflexivity. }
  split; [exact P|]. split; [|split; [exact K1|split; [exact K2|exact E]]].
  destruct A4 as (x & y & Ex). unfold sig_len, zlen in *. rewrite Ex, !app_length in L1. lia.
Qed.
End Gen.

(** ** f64 *)
Open Scope R_scope.
Section F.
Variable lm : Libm.
Notation N := (F64 lm).
Lemma usize_bound (x : num N) : (0 <= as_usize x <= 2 ^ 64)%Z.
Proof. pose proof (cast_range 0 (2 ^ 64 - 1) x ltac:(lia)). unfold as_usize. change (ncast N 0 (2 ^ 64 - 1) x) with (f64_cast 0 (2 ^ 64 - 1) x). lia. Qed.
(** Finite, not negative, at most 2^e. *)
Definition tpos (x : f64) (e : Z) : Prop := bnd x e /\ 0 <= B2R x.
Lemma bnd_mono x e f : (e <= f)%Z -> bnd x e -> bnd x f.
Proof. intros H (A & B). split; auto. eapply Rle_trans; [exact B|]. apply bpow_le. auto. Qed.
Lemma tpos_mono x e f : (e <= f)%Z -> tpos x e -> tpos x f.
Proof. intros H (A & B). split; auto. eapply bnd_mono; eauto. Qed.
Lemma bnd_big z e : (0 <= e <= 1000)%Z -> (Z.abs z <= 2 ^ e)%Z -> bnd (f64_ofZ z) e.
Proof.
  intros He H. destruct (ofZ_gen z) as (A & B & _).
  { eapply Rle_trans; [apply (IZR_le_bpow z e); lia|]. apply bpow_le. lia. }
  split; auto. rewrite B. apply rnd_abs_bpow; [lia|]. apply IZR_le_bpow; lia.
Qed.
Lemma tpos_ofZ z e : (0 <= e <= 1000)%Z -> (0 <= z <= 2 ^ e)%Z -> tpos (f64_ofZ z) e.
Proof.
  intros He H. split; [apply bnd_big; lia|]. destruct (ofZ_gen z) as (_ & B & _).
  { eapply Rle_trans; [apply (IZR_le_bpow z e); lia|]. apply bpow_le. lia. }
  rewrite B. apply rnd_sign. apply IZR_le. lia.
Qed.
Lemma tpos_mult x y e f : (-900 <= e + f <= 1000)%Z -> tpos x e -> tpos y f -> tpos (Bmult mode_NE x y) (e + f).
Proof.
  intros He (Bx & Px) (By & Py). pose proof (bnd_mult x y e f He Bx By) as B. split; auto.
  destruct Bx as (Fx & Hx), By as (Fy & Hy).
  assert (S : Rabs (rnd (B2R x * B2R y)) <= bpow radix2 (e + f)).
  { apply rnd_abs_bpow; [lia|]. rewrite Rabs_mult, bpow_plus. apply Rmult_le_compat; auto using Rabs_pos. }
  destruct (Bmult_fin x y Fx Fy) as [F E]; [apply (bpow_1000_big _ (e + f)); auto; lia|].
  rewrite E. apply rnd_sign. apply Rmult_le_pos; auto.
Qed.
Lemma div_val x z e : (-900 <= e <= 1000)%Z -> (1 <= z <= 2 ^ 53)%Z -> bnd x e -> B2R (Bdiv mode_NE x (f64_ofZ z)) = rnd (B2R x / IZR z).
Proof.
  intros He Hz [Fx Hx]. destruct (ofZ_exact z ltac:(lia)) as [Fz Ez].
  assert (Z1 : 1 <= IZR z) by (apply IZR_le; lia).
  assert (S : Rabs (rnd (B2R x / B2R (f64_ofZ z))) <= bpow radix2 e).
  { apply rnd_abs_bpow; [lia|]. rewrite Ez. unfold Rdiv. rewrite Rabs_mult.
    apply Rle_trans with (Rabs (B2R x) * 1); [|lra]. apply Rmult_le_compat_l; [apply Rabs_pos|].
    rewrite Rabs_right by (apply Rle_ge, Rlt_le, Rinv_0_lt_compat; lra). rewrite <- Rinv_1. apply Rinv_le; lra. }
  destruct (Bdiv_fin x (f64_ofZ z) Fx Fz) as [F E]; [rewrite Ez; lra|apply (bpow_1000_big _ e); auto; lia|].
  rewrite E, Ez. reflexivity.
Qed.
Lemma tpos_divZ x z e : (-900 <= e <= 1000)%Z -> (1 <= z <= 2 ^ 53)%Z -> tpos x e -> tpos (Bdiv mode_NE x (f64_ofZ z)) e.
Proof.
  intros He Hz (B & P). split; [apply bnd_divZ; auto|]. rewrite (div_val x z e) by auto. apply rnd_sign.
  apply Rmult_le_pos; auto. left. apply Rinv_0_lt_compat. apply IZR_lt. lia.
Qed.
Lemma plus_up x d e : (-900 <= e < 1000)%Z -> tpos x e -> tpos d e -> tpos (Bplus mode_NE x d) (e + 1) /\ B2R x <= B2R (Bplus mode_NE x d).
Proof.
  intros He (Bx & Px) (Bd & Pd). pose proof (bnd_plus x d e He Bx Bd) as B.
  destruct Bx as (Fx & Hx), Bd as (Fd & Hd).
  assert (S : Rabs (rnd (B2R x + B2R d)) <= bpow radix2 (e + 1)).
  { apply rnd_abs_bpow; [lia|]. eapply Rle_trans; [apply Rabs_triang|]. rewrite bpow_plus. change (bpow radix2 1) with 2. lra. }
  destruct (Bplus_fin x d Fx Fd) as [F E]; [apply (bpow_1000_big _ (e + 1)); auto; lia|].
  assert (U : B2R x <= B2R (Bplus mode_NE x d)).
  { rewrite E. rewrite <- (rnd_id (B2R x)) at 1 by apply gf_B2R. apply rnd_le. lra. }
  split; auto. split; auto. lra.
Qed.
Lemma minus_up x d e : (-900 <= e < 1000)%Z -> tpos x e -> bnd d e -> B2R d <= 0 -> tpos (Bminus mode_NE x d) (e + 1).
Proof.
  intros He T B H. rewrite Bminus_opp. apply (plus_up x (Bopp d) e He T).
  split; [apply bnd_opp; auto|]. rewrite B2R_Bopp. lra.
Qed.

Definition times_ok (p : PatchSim N) : Prop :=
  (tpos (ref_patch_start_time p) 300 /\ tpos (ref_patch_end_time p) 300 /\ B2R (ref_patch_start_time p) <= B2R (ref_patch_end_time p)) /\
  (tpos (deg_patch_start_time p) 300 /\ tpos (deg_patch_end_time p) 300 /\ B2R (deg_patch_start_time p) <= B2R (deg_patch_end_time p)).
Lemma coarse_times idx c (fd pd : f64) (p : PatchSim N) : (forall r, In r idx -> (0 <= r <= 2 ^ 100)%Z) -> (c <= 2 ^ 100)%Z ->
  tpos fd 100 -> tpos pd 200 -> coarse_patch (N:=N) idx c fd pd p ->
  (tpos (ref_patch_start_time p) 200 /\ tpos (deg_patch_start_time p) 200) /\ times_ok p.
Proof.
  intros Hi Hc Hfd Hpd (sim & lost & off & r & -> & Ho & Hr). unfold times_ok, set_times. cbn [ref_patch_start_time ref_patch_end_time deg_patch_start_time deg_patch_end_time].
  change (nmul N ?x ?y) with (Bmult mode_NE x y). change (nadd N ?x ?y) with (Bplus mode_NE x y). change (nofZ N ?x) with (f64_ofZ x).
  assert (A : forall z, (0 <= z <= 2 ^ 100)%Z -> tpos (Bmult mode_NE (f64_ofZ z) fd) 200).
  { intros z Hz. apply (tpos_mult _ _ 100 100); [lia| |exact Hfd]. apply tpos_ofZ; lia. }
  assert (Z0 : tpos (f64_ofZ 0) 200) by (apply tpos_ofZ; lia).
  destruct (plus_up (Bmult mode_NE (f64_ofZ r) fd) pd 200) as (B1 & B2); auto; [lia|].
  destruct (plus_up (Bmult mode_NE (f64_ofZ off) fd) pd 200) as (C1 & C2); auto; [lia|apply A; lia|].
  assert (A1 := A r (Hi r Hr)). assert (A2 := A off ltac:(lia)).
  destruct lost.
  - split; [split; auto|]. split; split; try (apply (tpos_mono _ 200); auto; lia); split; auto; try lra; try (apply (tpos_mono _ 201); auto; lia); try (apply (tpos_mono _ 200); auto; lia).
  - split; [split; auto|]. split; split; try (apply (tpos_mono _ 200); auto; lia); split; auto; try lra; try (apply (tpos_mono _ 201); auto; lia).
Qed.
Lemma choose_times (old new : PatchSim N) (lag : f64) n k rate : (1 <= rate <= 2 ^ 53)%Z -> (0 <= n <= 2 ^ 100)%Z -> (Z.abs k <= 2 ^ 100)%Z ->
  tpos (ref_patch_start_time old) 200 -> tpos (deg_patch_start_time old) 200 ->
  (lag = f64_ofZ 0 \/ lag = Bdiv mode_NE (f64_ofZ k) (f64_ofZ rate)) ->
  Bltb (similarity new) (similarity old) = false ->
  let d := Bdiv mode_NE (f64_ofZ n) (f64_ofZ rate) in
  let p := choose_result (N:=N) old new lag d d in
  times_ok p /\ ref_patch_end_time p = Bplus mode_NE (ref_patch_start_time p) d /\ deg_patch_end_time p = Bplus mode_NE (deg_patch_start_time p) d.
Proof.
  intros Hr Hn Hk A B HL HS d p.
  assert (D : tpos d 200) by (apply tpos_divZ; try lia; apply tpos_ofZ; lia).
  assert (BL : bnd lag 200) by (destruct HL as [->| ->]; [apply bnd_big; lia|apply bnd_divZ; try lia; apply bnd_big; lia]).
  unfold p, choose_result. change (nltb N ?x ?y) with (Bltb x y). rewrite HS. unfold times_ok.
  cbn [ref_patch_start_time ref_patch_end_time deg_patch_start_time deg_patch_end_time].
  change (nsub N ?x ?y) with (Bminus mode_NE x y). change (nadd N ?x ?y) with (Bplus mode_NE x y). change (nofZ N ?x) with (f64_ofZ x).
  assert (RS : tpos (if Bltb (f64_ofZ 0) lag then Bplus mode_NE (ref_patch_start_time old) lag else ref_patch_start_time old) 201 /\
               tpos (if Bltb (f64_ofZ 0) lag then deg_patch_start_time old else Bminus mode_NE (deg_patch_start_time old) lag) 201).
  { destruct (Bltb (f64_ofZ 0) lag) eqn:E.
    - apply Bltb_true in E. destruct E as (_ & _ & E). rewrite ofZ_ext, ext_finite in E by (try lia; apply BL).
      split; [|apply (tpos_mono _ 200); auto; lia]. apply (plus_up _ _ 200); auto; [lia|]. split; auto. lra.
    - rewrite Bltb_false_iff in E by (try apply ofZ_nan; try lia; apply is_nan_finite, BL). rewrite ofZ_ext, ext_finite in E by (try lia; apply BL).
      split; [apply (tpos_mono _ 200); auto; lia|]. apply (minus_up _ _ 200); auto; lia. }
  destruct RS as (R1 & R2). assert (D' : tpos d 201) by (apply (tpos_mono _ 200); auto; lia).
  destruct (plus_up _ d 201 ltac:(lia) R1 D') as (E1 & E2). destruct (plus_up _ d 201 ltac:(lia) R2 D') as (E3 & E4).
  split; [|split; reflexivity]. split; split; try (apply (tpos_mono _ 201); auto; lia); split; auto; apply (tpos_mono _ 202); auto; lia.
Qed.

Lemma fine_times pf nb rs ds w (l : list (PatchSim N)) : forall (f f' : Filterbank N) out,
  finely_align_and_recreate_patches pf nb rs ds w f l = (f', Ok out) ->
  Forall2 (fun old p => exists g g', realign_patch pf nb rs ds w g old = (g', Ok p)) l out.
Proof.
  induction l as [|old t IH]; intros f f' out; cbn [finely_align_and_recreate_patches].
  { intros [= _ <-]. constructor. }
  destruct (realign_patch pf nb rs ds w f old) as [fb1 r] eqn:E.
  destruct r as [p| |]; try discriminate.
  destruct (finely_align_and_recreate_patches pf nb rs ds w fb1 t) as [fb2 rest] eqn:E2.
  intros [= _ H]. inv_do H. injection Hk as <-. constructor; [eauto|]. eapply IH. rewrite E2, Hv. reflexivity.
Qed.
Lemma overlap_pos : tpos (OVERLAP (N:=N)) 0.
Proof.
  destruct (lit_fin 25 2) as (A & B); try lia. change (OVERLAP (N:=N)) with (f64_lit 25 2).
  assert (Q : 0 <= IZR 25 / IZR (10 ^ 2) <= 1) by (change (IZR (10 ^ 2)) with 100; lra).
  split; [split; auto|]; rewrite B; [|apply rnd_sign; lra]. apply rnd_abs_bpow; [lia|]. apply Rabs_le. change (bpow radix2 0) with 1. lra.
Qed.
Lemma build_cols_le nb (f f' : Filterbank N) s w sp : (0 <= win_size w)%Z -> build nb f s w = (f', Ok sp) -> (Z.of_nat (mcols (sp_data sp)) <= 1 + sig_len s)%Z.
Proof.
  intros Hw H. pose proof H as H'. apply build_inv in H'. destruct H' as (A & B & _).
  assert (HB : (0 <= hop_size w)%Z) by (unfold hop_size; apply usize_bound).
  apply build_cols in H; [|lia]. rewrite H. unfold sig_len.
  pose proof (Z.div_le_upper_bound (zlen (data_matrix s) - win_size w) (hop_size w) (zlen (data_matrix s))). nia.
Qed.
Lemma C28_f64 pf nb v ws (m m' : Manager N) calls files a b r :
  new_manager nb v ws = Ok m ->
  (forall p s, In p [a; b] -> load_as_mono (N:=N) (files p) = Ok s -> (1 <= sample_rate s < 2 ^ 32 /\ sig_len s <= 2 ^ 62)%Z) ->
  run pf nb files (after_calls pf nb m calls) a b = (m', Ok r) ->
  exists rate fd pd, 
    (forall s, load_as_mono (N:=N) (files a) = Ok s -> sample_rate s = rate) /\
    (fd : f64) = Bdiv mode_NE (Bmult mode_NE (f64_ofZ (win_size (new_window (N:=N) rate OVERLAP WINDOW_DURATION))) (f64_lit 25 2)) (f64_ofZ rate) /\
    pd = Bmult mode_NE fd (f64_ofZ (match v with Wideband _ => 30 | Fullband _ => 20 end)) /\
    forall p, In p (patch_sims r) ->
      (is_finite (ref_patch_start_time p : f64) = true /\ is_finite (ref_patch_end_time p : f64) = true /\
       0 <= B2R (ref_patch_start_time p) <= B2R (ref_patch_end_time p)) /\
      (is_finite (deg_patch_start_time p : f64) = true /\ is_finite (deg_patch_end_time p : f64) = true /\
       0 <= B2R (deg_patch_start_time p) <= B2R (deg_patch_end_time p)) /\
      ((ref_patch_end_time p = Bplus mode_NE (ref_patch_start_time p) pd /\
        (deg_patch_end_time p = Bplus mode_NE (deg_patch_start_time p) pd \/
         deg_patch_start_time p = f64_ofZ 0 /\ deg_patch_end_time p = f64_ofZ 0)) \/
       exists n, (0 <= n)%Z /\
         ref_patch_end_time p = Bplus mode_NE (ref_patch_start_time p) (Bdiv mode_NE (f64_ofZ n) (f64_ofZ rate)) /\
         deg_patch_end_time p = Bplus mode_NE (deg_patch_start_time p) (Bdiv mode_NE (f64_ofZ n) (f64_ofZ rate))).
Proof.
  intros Hm HF H. set (m1 := after_calls pf nb m calls) in *.
  assert (Hc : mg_creator m1 = mg_creator m) by apply after_creator. clearbody m1.
  set (ps := match v with Wideband _ => 30%Z | Fullband _ => 20%Z end).
  assert (Hps : creator_patch_size (mg_creator m1) = ps).
  { rewrite Hc. unfold new_manager in Hm. unfold ps. destruct v as [u|[s|]]; cbn [bind] in Hm; try discriminate; inversion Hm; reflexivity. }
  assert (Hps2 : (0 <= ps <= 30)%Z) by (unfold ps; destruct v; lia). clearbody ps.
  apply run_parts in H. destruct H as (rs & ds & al & lag & fb1 & fb2 & fb3 & rspec & dspec & rp & dp & idx & pts & info & H).
  cbv zeta in H. destruct H as (L1 & L2 & RT & GA & B1 & B2 & PR & _ & PT & FD & FA & _).
  destruct (HF a rs) as (R1 & S1); [left; auto|auto|]. destruct (HF b ds) as (R2 & S2); [right; left; auto|auto|].
  set (w := new_window (sample_rate rs) OVERLAP WINDOW_DURATION) in *.
  set (fd := calculate_frame_duration _ _) in FD.
  exists (sample_rate rs), fd, (Bmult mode_NE fd (f64_ofZ ps)).
  split; [intros s Hs; congruence|]. split; [reflexivity|]. split; [reflexivity|].
  assert (W0 : (0 <= win_size w <= 2 ^ 64)%Z) by (apply usize_bound).
  assert (FDP : tpos fd 64).
  { unfold fd, calculate_frame_duration. change (tpos (Bdiv mode_NE (Bmult mode_NE (f64_ofZ (win_size w)) (OVERLAP (N:=N))) (f64_ofZ (sample_rate rs))) 64).
    apply tpos_divZ; try lia. apply (tpos_mult _ _ 64 0); [lia| |apply overlap_pos]. apply tpos_ofZ; lia. }
  assert (PDP : tpos (Bmult mode_NE fd (f64_ofZ ps)) 200).
  { apply (tpos_mono _ (64 + 10)); [lia|]. apply tpos_mult; auto; [lia|]. apply tpos_ofZ; lia. }
  pose proof (build_cols_le _ _ _ _ _ _ (proj1 W0) B1) as C1. pose proof (build_cols_le _ _ _ _ _ _ (proj1 W0) B2) as C2.
  apply prepare_shape in PR. destruct PR as ((_ & _ & PC1 & _) & (_ & _ & PC2 & _)).
  apply C10_shift in GA. destruct GA as (RA & SH).
  assert (AL : (sig_len al <= sig_len ds + sig_len rs)%Z).
  { unfold sig_len in *. assert (0 <= zlen (data_matrix rs))%Z by (unfold zlen; lia).
    pose proof (Z.div_le_upper_bound (zlen (data_matrix rs)) 2 (zlen (data_matrix rs))).
    destruct SH; unfold zlen in *; rewrite ?app_length, ?repeat_length, ?skipn_length; lia. }
  rewrite scale_len in C2.
  apply patches_cols in PT; [|lia]. destruct PT as (PI & PP).
  apply find_times in FD. destruct FD as (p0 & E0 & FD). apply nth_error_In in E0. apply PP in E0. rewrite E0, Hps in FD.
  apply fine_times in FA. intros p Hp.
  assert (Q : exists old, In old info /\ exists g g', realign_patch pf nb rs (scale_to_match_sound_pressure_level rs al) w g old = (g', Ok p)).
  { clear - FA Hp. revert Hp. induction FA; intros HI; [destruct HI|]. destruct HI as [<-|HI].
    - eexists. split; [left; reflexivity|]. exact H.
    - destruct (IHFA HI) as (o & O1 & O2). exists o. split; [right; exact O1|exact O2]. }
  destruct Q as (old & Io & g & g' & RP).
  rewrite Forall_forall in FD. specialize (FD old Io).
  assert (CT := coarse_times idx (Z.of_nat (mcols (sp_data dp))) fd (Bmult mode_NE fd (f64_ofZ ps)) old).
  destruct CT as ((T1 & T2) & TO).
  { intros q Hq. apply PI in Hq. lia. }
  { lia. }
  { apply (tpos_mono _ 64); auto. lia. }
  { exact PDP. }
  { exact FD. }
  assert (FIN : forall q : PatchSim N, times_ok q ->
      (is_finite (ref_patch_start_time q : f64) = true /\ is_finite (ref_patch_end_time q : f64) = true /\
       0 <= B2R (ref_patch_start_time q) <= B2R (ref_patch_end_time q)) /\
      (is_finite (deg_patch_start_time q : f64) = true /\ is_finite (deg_patch_end_time q : f64) = true /\
       0 <= B2R (deg_patch_start_time q) <= B2R (deg_patch_end_time q))).
  { intros q ((((F1 & _) & P1) & ((F2 & _) & P2) & O1) & (((F3 & _) & P3) & ((F4 & _) & P4) & O2)). auto 10. }
  apply realign_times in RP; [|cbn [scale_to_match_sound_pressure_level sample_rate]; congruence|apply usize_bound].
  destruct RP as [->|(_ & new & lg & n & k & EP & Hn & HL & Hk & HS)].
  - destruct (FIN _ TO) as (A & B). split; [exact A|]. split; [exact B|]. left.
    destruct FD as (sim & lost & off & rr & -> & _). cbn [set_times ref_patch_end_time ref_patch_start_time deg_patch_end_time deg_patch_start_time].
    split; [reflexivity|]. destruct lost; [right; split; reflexivity|left; reflexivity].
  - destruct (choose_times old new lg n k (sample_rate rs)) as (TP & E1 & E2); auto; try lia.
    replace p with (choose_result (N:=N) old new lg (Bdiv mode_NE (f64_ofZ n) (f64_ofZ (sample_rate rs))) (Bdiv mode_NE (f64_ofZ n) (f64_ofZ (sample_rate rs)))) by (symmetry; exact EP).
    destruct (FIN _ TP) as (A & B). split; [exact A|]. split; [exact B|]. right. exists n. split; [lia|]. split; [exact E1|exact E2].
Qed.
End F.

(** A run with two patches. *)
From Verif Require Import Witness.
Lemma w_load p : match load_as_mono (N:=F64 lm_ex) (w_files p) with Ok s => (sample_rate s, sig_len s) | _ => (100, 100)%Z end =
  (if String.eqb p "other_rate.wav" then 200 else 100,
   if String.eqb p "ref.wav" then 160 else if String.eqb p "deg.wav" then 158 else if String.eqb p "click.wav" then 160
   else if String.eqb p "other_rate.wav" then 160 else if String.eqb p "24bit.wav" then 100 else if String.eqb p "short.wav" then 7
   else if String.eqb p "stereo.wav" then 80 else if String.eqb p "empty.wav" then 0 else 100)%Z.
Proof.
  unfold w_files.
  repeat match goal with |- context [String.eqb p ?s] => destruct (String.eqb_spec p s) as [->|]; [vm_compute; reflexivity|] end.
  vm_compute. reflexivity.
Qed.
Lemma C28_ex : exists m' r,
  new_manager 1 (Wideband false) 0 = Ok (w_manager (Wideband false)) /\
  (forall p s, In p ["ref.wav"; "deg.wav"]%string -> load_as_mono (N:=F64 lm_ex) (w_files p) = Ok s -> (1 <= sample_rate s < 2 ^ 32 /\ sig_len s <= 2 ^ 62)%Z) /\
  run Debug 1 w_files (after_calls Debug 1 (w_manager (Wideband false)) []) "ref.wav" "deg.wav" = (m', Ok r) /\
  List.length (patch_sims r) = 2%nat.
Proof.
  destruct (w_summary_some _ _ w_run_wideband) as (m' & r & H & L). exists m', r. split; [reflexivity|]. split; [|split; [exact H|]].
  - intros p s [<-|[<-|[]]] E; pose proof (w_load "ref.wav") as A; pose proof (w_load "deg.wav") as B; rewrite E in *;
    [change (String.eqb "ref.wav" "ref.wav") with true in A|change (String.eqb "deg.wav" "deg.wav") with true in B].
    + inversion A as [[A1 A2]]. rewrite A1, A2. cbn. lia.
    + inversion B as [[B1 B2]]. rewrite B1, B2. cbn. lia.
  - apply (f_equal snd) in L. cbn [snd] in L. symmetry. exact L.
Qed.
