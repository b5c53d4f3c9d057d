(** C25, C26: the search in f64 and in exact arithmetic. *)
From Coq Require Import Reals Lra.
From Flocq Require Import Core IEEE754.BinarySingleNaN.
From Verif Require Import Base Num Mat F64 RNum M_Audio M_Align M_Spectro M_Patch M_Nsim M_Selector.
From Verif Require Import P_Base P_Mat P_Manager P_F64 P_Score P_Patch Spec Spec2 Witness P_Conv P_Nsim P_Dp.
Open Scope Z_scope.

Definition fgood (x : f64) : Prop := is_nan x = false.
Definition fpos (x : f64) : Prop := is_finite x = true /\ (0 < ext x)%R.
Lemma f64_zero_ext : ext (f64_ofZ 0) = 0%R. Proof. reflexivity. Qed.
Lemma f64_min_ext : (ext f64_min_value < 0)%R.
Proof.
  assert (H : Bltb f64_min_value (f64_ofZ 0) = true) by (vm_compute; reflexivity).
  apply Bltb_true in H. destruct H as (_ & _ & H). rewrite f64_zero_ext in H. exact H.
Qed.
Lemma f64_min_R : B2R f64_min_value = (- (bpow radix2 1024 - bpow radix2 (1024 - 53)))%R.
Proof.
  rewrite <- SF2R_B2SF. replace (B2SF f64_min_value) with (SpecFloat.S754_finite true 9007199254740991 971) by (vm_compute; reflexivity).
  cbn [SF2R cond_Zopp]. unfold F2R; cbn [Fnum Fexp]. replace 1024 with (53 + 971) by lia. rewrite bpow_plus. change (53 + 971 - 53) with 971.
  replace (bpow radix2 53) with (IZR 9007199254740992) by reflexivity.
  replace (IZR (- (9007199254740991))) with (1 - IZR 9007199254740992)%R by (rewrite <- minus_IZR; reflexivity). ring.
Qed.
Lemma f64_order lm : dp_order (F64 lm) ext fgood fpos.
Proof.
  assert (Hs0 : forall s : f64, fpos s -> Bleb (f64_ofZ 0) s = true).
  { intros s [Fs Ps]. apply Bleb_true. rewrite f64_zero_ext. split; auto. split; [apply is_nan_finite; auto|lra]. }
  constructor.
  - intros x y Gx Gy. change (nltb (F64 lm) x y) with (Bltb x y). rewrite Bltb_true. unfold fgood in *. tauto.
  - reflexivity.
  - reflexivity.
  - reflexivity.
  - exact f64_min_ext.
  - intros x [F H]. split; [apply is_nan_finite; auto|auto].
  - intros s x [Fs Ps] Gx Px. change (nadd (F64 lm) s x) with (Bplus mode_NE s x).
    assert (H : Bleb (f64_ofZ 0) x = true) by (apply Bleb_true; rewrite f64_zero_ext; split; auto; split; auto; lra).
    pose proof (Bplus_mono _ _ s Fs H) as H1.
    assert (E : ext (Bplus mode_NE s (f64_ofZ 0)) = ext s).
    { destruct (Bplus_ext s (f64_ofZ 0) Fs eq_refl) as (_ & E & _). rewrite E.
      replace (B2R s + B2R (f64_ofZ 0))%R with (B2R s) by (cbn; ring). rewrite rnd_id by apply generic_format_B2R.
      rewrite clip_id by (pose proof (finite_lt_big s); lra). rewrite ext_finite; auto. }
    apply Bleb_true in H1. destruct H1 as (_ & N1 & H1). split; [exact N1|]. rewrite E in H1. lra.
  - intros s x y [Fs Ps] Gx Gy Px Hxy. pose proof (Bplus_mono x y s Fs ltac:(apply Bleb_true; auto)) as H. apply Bleb_true in H. apply H.
  - intros s [Fs Ps]. change (nadd (F64 lm) s (nmin_value (F64 lm))) with (Bplus mode_NE s f64_min_value).
    destruct (Bplus_ext s f64_min_value Fs eq_refl) as (Nn & E & _). split; [exact Nn|]. rewrite E.
    assert (Hm : (B2R s + B2R f64_min_value <= 0)%R).
    { pose proof (abs_B2R_le_emax_minus_prec 53 1024 Hprec s) as H. apply Rabs_le_inv in H. rewrite f64_min_R. lra. }
    assert (R0 : (rnd (B2R s + B2R f64_min_value) <= 0)%R) by (rewrite <- (rnd_id 0) by apply generic_format_0; apply rnd_le; auto).
    apply Rle_trans with (clip 0); [apply clip_le; auto|]. rewrite clip_id by (pose proof big_pos; lra). lra.
Qed.

Lemma R_order : dp_order RN (fun x => x) (fun _ => True) (fun x => (0 < x <= 1)%R).
Proof.
  assert (Hm : (nmin_value RN <= -1)%R).
  { cbn [nmin_value RN]. assert (1 <= bpow radix2 971)%R by (rewrite <- (bpow_powerRZ radix2 0) || idtac; change 1%R with (bpow radix2 0); apply bpow_le; lia).
    assert (IZR (2 ^ 53 - 1) >= 1)%R by (change 1%R with (IZR 1); apply Rle_ge, IZR_le; lia). nra. }
  constructor; auto.
  - intros x y _ _. change (nltb RN x y) with (Rltb x y). apply Rltb_true.
  - change (nmin_value RN < 0)%R. lra.
  - intros x H. split; auto. lra.
  - intros s x H _ Hx. split; auto. change (0 < s + x)%R. lra.
  - intros s x y H _ _ _ Hxy. change (s + x <= s + y)%R. lra.
  - intros s H. split; auto. change (s + nmin_value RN <= 0)%R. lra.
Qed.

(** From a successful search. *)
Section FromOk.
Context {N : NumOps}.
Lemma backtrace_len pf (refs : list (mat N)) idx deg bt fd pd k : forall s acc out,
  backtrace_loop pf refs idx deg bt fd pd k s acc = Ok out -> List.length out = (k + List.length acc)%nat.
Proof.
  induction k as [|k IH]; intros s acc out H; cbn [backtrace_loop] in H; [injection H as <-; auto|].
  repeat (let v := fresh in let Hv := fresh in let Hk := fresh in apply bind_ok in H; destruct H as (v & Hv & H)).
  apply IH in H. cbn [List.length] in H. lia.
Qed.
Lemma find_parts pf (refs : list (mat N)) idx deg fd radius fp out : search_input refs idx deg radius fp ->
  find_most_optimal_deg_patches pf refs idx deg fd radius = Ok out ->
  calc_max_num_patches pf idx (Z.of_nat (mcols deg)) (Z.of_nat fp) = Ok (Z.of_nat (List.length out)) /\
  (forall r, In r idx -> r - radius * Z.of_nat fp <= Z.of_nat (mcols deg)).
Proof.
  intros SI H. pose proof SI as [S1 S2 S3 S4 S5 S6 S7 S8 S9]. unfold find_most_optimal_deg_patches in H.
  apply bind_ok in H. destruct H as (p0 & H0 & H). assert (Hc : mcols p0 = fp) by (apply S3; apply zget_ok in H0; eapply nth_error_In; apply H0).
  rewrite Hc in H. rewrite wrap_i32_id, i32_ok in H by lia. cbn [bind] in H.
  apply bind_ok in H. destruct H as (z & Hz & H). destruct (Z.eqb_spec z 0); [discriminate|].
  apply bind_ok in H. destruct H as (dps & _ & H). apply bind_ok in H. destruct H as ([dp bt] & Ht & H).
  apply bind_ok in H. destruct H as (rl & _ & H). apply bind_ok in H. destruct H as (lo & _ & H).
  apply bind_ok in H. destruct H as (up & _ & H). apply bind_ok in H. destruct H as (up1 & _ & H).
  apply bind_ok in H. destruct H as (lr & _ & H). apply bind_ok in H. destruct H as (lo' & _ & H).
  apply backtrace_len in H. cbn [List.length] in H.
  assert (idx <> []) by (intros ->; destruct refs; [tauto|discriminate]).
  destruct (calc_max_last _ _ _ _ _ Hz H1) as [HP _].
  split; [rewrite Hz; f_equal; lia|].
  intros r Hr. destruct (In_nth idx r 0 Hr) as (k & Hk & <-).
  destruct (foldM_each _ _ _ _ Ht (Z.of_nat k) ltac:(apply in_zrange; unfold zlen; lia)) as (x & y & E).
  apply bind_ok in E. destruct E as (rp & _ & E). unfold find_most_optimal_deg_patch in E. destruct x as [dp' bt'].
  rewrite (zget_in idx _ 0) in E by (unfold zlen; lia). cbn [bind] in E. rewrite Nat2Z.id in E.
  destruct (S8 _ (nth_In idx 0 Hk)). rewrite wrap_i32_id in E by lia. rewrite !i32_ok in E by lia. cbn [bind] in E.
  destruct (Z.ltb_spec (nth k idx 0 + radius * Z.of_nat fp) (Z.max 0 (nth k idx 0 - radius * Z.of_nat fp))); [nia|].
  destruct (Z.ltb_spec (Z.of_nat (mcols deg)) (Z.max 0 (nth k idx 0 - radius * Z.of_nat fp))); [discriminate|]. lia.
Qed.
End FromOk.

Lemma C25_f64 lm pf (refs : list (mat (F64 lm))) idx deg fd radius fp out :
  search_input refs idx deg radius fp ->
  let sw := radius * Z.of_nat fp in
  let c := Z.of_nat (mcols deg) in
  (forall k s, (k < List.length out)%nat -> in_window sw c (nth k idx 0) s ->
     is_finite (sim_at refs deg k s : f64) = true /\ Bltb (f64_ofZ 0) (sim_at refs deg k s) = true) ->
  find_most_optimal_deg_patches pf refs idx deg fd radius = Ok out ->
  exists offs, admissible sw c idx (List.length out) offs /\
    (forall k e, nth_error out k = Some e ->
       describes refs deg idx fd (nmul (F64 lm) fd (nofZ (F64 lm) (Z.of_nat fp))) offs k e) /\
    (forall offs', admissible sw c idx (List.length out) offs' ->
       Bleb (total (sim_at refs deg) offs' : f64) (total (sim_at refs deg) offs) = true).
Proof.
  intros SI sw c Hs H. destruct (find_parts _ _ _ _ _ _ _ _ SI H) as [Hc Hf].
  assert (HP : forall k s, (k < List.length out)%nat -> in_window sw c (nth k idx 0) s -> fpos (sim_at refs deg k s)).
  { intros k s Hk Hw. destruct (Hs k s Hk Hw) as [F L]. split; auto. apply Bltb_true in L. destruct L as (_ & _ & L). rewrite f64_zero_ext in L. exact L. }
  destruct (@find_ok (F64 lm) ext fgood fpos (f64_order lm) pf refs idx deg radius fp SI _ fd Hc Hf HP) as (out' & offs & E & _ & A & D & O).
  rewrite H in E. assert (out' = out) by congruence. subst out'. exists offs. split; auto. split; auto.
  intros offs' Ha. destruct (O offs' Ha) as [G1 L]. destruct (O offs A) as [G2 _].
  apply Bleb_true. split; [auto|]. split; auto.
Qed.
Lemma C25_R pf (refs : list (mat RN)) idx deg fd radius fp out :
  search_input refs idx deg radius fp ->
  let sw := radius * Z.of_nat fp in
  let c := Z.of_nat (mcols deg) in
  (forall k s, (k < List.length out)%nat -> in_window sw c (nth k idx 0) s -> (0 < sim_at refs deg k s)%R) ->
  find_most_optimal_deg_patches pf refs idx deg fd radius = Ok out ->
  exists offs, admissible sw c idx (List.length out) offs /\
    (forall k e, nth_error out k = Some e -> describes refs deg idx fd (fd * IZR (Z.of_nat fp))%R offs k e) /\
    (forall offs', admissible sw c idx (List.length out) offs' ->
       (total (sim_at refs deg) offs' <= total (sim_at refs deg) offs)%R).
Proof.
  intros SI sw c Hs H. destruct (find_parts _ _ _ _ _ _ _ _ SI H) as [Hc Hf].
  assert (HP : forall k s, (k < List.length out)%nat -> in_window sw c (nth k idx 0) s -> (0 < sim_at refs deg k s <= 1)%R).
  { intros k s Hk Hw. split; [apply (Hs k s Hk Hw)|]. unfold sim_at. destruct (nth_error refs k) as [rp|] eqn:E; [|change (0 <= 1)%R; lra].
    destruct (measure_patch_similarity rp _) as [p| |] eqn:Ep; try (change (0 <= 1)%R; lra).
    destruct SI as [S1 S2 S3 S4 S5 S6 S7 S8 S9]. destruct (S3 rp (nth_error_In _ _ E)) as (W1 & W2 & W3).
    destruct (C36_le_1 rp _ p W1 (patch_at_wf deg s (mcols rp)) ltac:(cbn; lia) ltac:(cbn; lia) ltac:(cbn; lia) ltac:(cbn; lia) Ep) as (_ & _ & B). apply B. }
  destruct (@find_ok RN (fun x => x) (fun _ => True) _ R_order pf refs idx deg radius fp SI _ fd Hc Hf HP) as (out' & offs & E & _ & A & D & O).
  rewrite H in E. assert (out' = out) by congruence. subst out'. exists offs. split; auto. split; auto. intros offs' Ha. apply (O offs' Ha).
Qed.
Lemma lost_iff offs k : lost_at offs k = false -> (1 <= k)%nat -> nth k offs 0 <> nth (k - 1) offs 0.
Proof. destruct k; [lia|]. unfold lost_at. replace (S k - 1)%nat with k by lia. intros H _. apply Z.eqb_neq. auto. Qed.
(** Matched patches have distinct starts. *)
Lemma matched_distinct sw c idx n offs : admissible sw c idx n offs -> forall j k, (j < k < n)%nat -> lost_at offs k = false -> nth j offs 0 < nth k offs 0.
Proof.
  intros (L & _ & Mo) j k Hjk Hl.
  assert (forall m, (j <= m < n)%nat -> nth j offs 0 <= nth m offs 0).
  { induction m as [|m IH]; intros Hm; [replace j with O by lia; lia|]. destruct (Nat.eq_dec j (S m)) as [->|]; [lia|].
    specialize (IH ltac:(lia)). specialize (Mo m ltac:(lia)). lia. }
  pose proof (lost_iff _ _ Hl ltac:(lia)). specialize (H (k - 1)%nat ltac:(lia)). specialize (Mo (k - 1)%nat ltac:(lia)).
  replace (S (k - 1)) with k in Mo by lia. lia.
Qed.

Lemma C26_f64 lm pf (refs : list (mat (F64 lm))) idx deg fd radius fp out :
  search_input refs idx deg radius fp ->
  let sw := radius * Z.of_nat fp in
  let c := Z.of_nat (mcols deg) in
  let pd := nmul (F64 lm) fd (nofZ (F64 lm) (Z.of_nat fp)) in
  (forall k s, (k < List.length out)%nat -> in_window sw c (nth k idx 0) s ->
     is_finite (sim_at refs deg k s : f64) = true /\ Bltb (f64_ofZ 0) (sim_at refs deg k s) = true) ->
  find_most_optimal_deg_patches pf refs idx deg fd radius = Ok out ->
  exists (offs : list Z) (lost : nat -> bool),
    List.length offs = List.length out /\
    (forall k, (S k < List.length out)%nat -> nth k offs 0 <= nth (S k) offs 0) /\
    (forall k, (k < List.length out)%nat ->
       0 <= nth k offs 0 < c /\ Z.abs (nth k offs 0 - nth k idx 0) <= sw) /\
    lost O = false /\
    (forall j k, (j < k < List.length out)%nat -> lost k = false -> nth j offs 0 <> nth k offs 0) /\
    (forall k e, nth_error out k = Some e ->
       ref_patch_start_time e = nmul (F64 lm) (nofZ (F64 lm) (nth k idx 0)) fd /\
       ref_patch_end_time e = nadd (F64 lm) (ref_patch_start_time e) pd /\
       if lost k
       then deg_patch_start_time e = f64_ofZ 0 /\ deg_patch_end_time e = f64_ofZ 0 /\
            similarity e = f64_ofZ 0 /\ Forall (fun m => m = f64_ofZ 0) (freq_band_means e)
       else similarity e = sim_at refs deg k (nth k offs 0) /\
            deg_patch_start_time e = nmul (F64 lm) (nofZ (F64 lm) (nth k offs 0)) fd /\
            deg_patch_end_time e = nadd (F64 lm) (deg_patch_start_time e) pd).
Proof.
  intros SI sw c pd Hs H. destruct (C25_f64 lm pf refs idx deg fd radius fp out SI Hs H) as (offs & A & D & _).
  exists offs, (lost_at offs). pose proof A as (L & Wi & Mo). split; auto. split; auto. split.
  { intros k Hk. destruct (Wi k Hk). split; [auto|]. subst sw c. lia. }
  split; auto. split. { intros j k Hjk Hl. pose proof (matched_distinct _ _ _ _ _ A j k Hjk Hl). lia. }
  intros k e He. destruct (D k e He) as (rp & p & E1 & E2 & _ & _ & E3 & E4 & E5). split; auto. split; auto.
  destruct (lost_at offs k).
  - destruct E5 as (A1 & A2 & A3 & A4). split; auto. split; auto. split; auto. rewrite A2. apply Forall_forall. intros x Hx. apply in_map_iff in Hx as (y & <- & _). reflexivity.
  - destruct E5 as (A1 & A2 & A3 & A4). split; auto. unfold sim_at. rewrite E1, E2. auto.
Qed.

(** ** Small cases *)
Definition zm lm (r c : nat) (l : list (list Z)) : mat (F64 lm) := @Build_mat (F64 lm) r c (map (map f64_ofZ) l).
Definition dp_refs := [zm lm_ex 2 1 [[10]; [0]]; zm lm_ex 2 1 [[0]; [10]]].
Definition dp_deg := zm lm_ex 2 8 [[10; 10; 10; 0; 0; 0; 1; 2]; [0; 0; 3; 4; 10; 10; 10; 0]].
Definition dp_deg_bad := zm lm_ex 2 8 [[0; 0; 0; 0; 0; 0; 0; 0]; [10; 10; 10; 10; 10; 10; 10; 10]].
Definition eq_f (x y : f64) : bool := Beqb x y.
Lemma dp_input d idx : (idx = [1; 5] \/ idx = [0; 5]) -> mrows d = 2%nat -> mcols d = 8%nat -> search_input dp_refs idx d 1 1.
Proof.
  intros Hi R C. constructor.
  - destruct Hi as [->| ->]; reflexivity.
  - discriminate.
  - intros rp [<-|[<-|[]]]; rewrite R; (split; [split; [reflexivity|repeat constructor]|split; reflexivity]).
  - cbn. lia.
  - lia.
  - lia.
  - cbn. lia.
  - intros r. destruct Hi as [->| ->]; cbn; intros [<-|[<-|[]]]; lia.
  - intros [|[|k]] Hk; destruct Hi as [->| ->]; cbn in *; lia.
Qed.
Lemma dp_sims : forallb (fun ks : nat * Z => is_finite (sim_at dp_refs dp_deg (fst ks) (snd ks) : f64) && Bltb (f64_ofZ 0) (sim_at dp_refs dp_deg (fst ks) (snd ks)))
  [(0%nat, 0); (0%nat, 1); (0%nat, 2); (1%nat, 4); (1%nat, 5); (1%nat, 6)] = true.
Proof. vm_compute. reflexivity. Qed.
Lemma dp_run : match find_most_optimal_deg_patches Debug dp_refs [1; 5] dp_deg (f64_ofZ 1) 1 with
  | Ok l => map (fun p : PatchSim (F64 lm_ex) => (f64_cast (-9) 9 (deg_patch_start_time p), f64_cast (-9) 9 (deg_patch_end_time p))) l = [(1, 2); (4, 5)] | _ => False end.
Proof. vm_compute. reflexivity. Qed.
Lemma C25_ex : exists out, search_input dp_refs [1; 5] dp_deg 1 1 /\
  find_most_optimal_deg_patches Debug dp_refs [1; 5] dp_deg (f64_ofZ 1) 1 = Ok out /\ List.length out = 2%nat /\
  (forall k s, (k < List.length out)%nat -> in_window 1 8 (nth k [1; 5] 0) s ->
     is_finite (sim_at dp_refs dp_deg k s : f64) = true /\ Bltb (f64_ofZ 0) (sim_at dp_refs dp_deg k s) = true).
Proof.
  pose proof dp_run as H. destruct (find_most_optimal_deg_patches Debug dp_refs [1; 5] dp_deg (f64_ofZ 1) 1) as [out| |]; [|contradiction|contradiction].
  apply (f_equal (@List.length _)) in H. rewrite map_length in H. exists out. split; [apply dp_input; auto|]. split; auto. split; auto.
  intros k s Hk [Hs Hw]. pose proof dp_sims as F. rewrite forallb_forall in F.
  assert (I : In (k, s) [(0%nat, 0); (0%nat, 1); (0%nat, 2); (1%nat, 4); (1%nat, 5); (1%nat, 6)]).
  { rewrite H in Hk. destruct k as [|[|k]]; [| |cbn in Hk; lia]; cbn [nth] in Hw; cbn [In].
    - assert (s = 0 \/ s = 1 \/ s = 2) as [->|[->| ->]] by lia; auto 7.
    - assert (s = 4 \/ s = 5 \/ s = 6) as [->|[->| ->]] by lia; auto 9. }
  specialize (F _ I). cbn [fst snd] in F. apply andb_true_iff in F. exact F.
Qed.
Lemma dp_bad : match find_most_optimal_deg_patches Debug dp_refs [0; 5] dp_deg_bad (f64_ofZ 1) 1 with
  | Ok l => map (fun p : PatchSim (F64 lm_ex) => (f64_cast (-9) 9 (deg_patch_start_time p), f64_cast (-9) 9 (deg_patch_end_time p))) l = [(3, 4); (4, 5)] | _ => False end.
Proof. vm_compute. reflexivity. Qed.
Lemma C26_bad : exists out, search_input dp_refs [0; 5] dp_deg_bad 1 1 /\
  find_most_optimal_deg_patches Debug dp_refs [0; 5] dp_deg_bad (f64_ofZ 1) 1 = Ok out /\ List.length out = 2%nat /\
  forall offs, admissible 1 8 [0; 5] 2 offs -> exists k e, nth_error out k = Some e /\ ~ describes dp_refs dp_deg_bad [0; 5] (f64_ofZ 1) (f64_ofZ 1) offs k e.
Proof.
  pose proof dp_bad as H. destruct (find_most_optimal_deg_patches Debug dp_refs [0; 5] dp_deg_bad (f64_ofZ 1) 1) as [out| |]; [|contradiction|contradiction].
  exists out. split; [apply dp_input; auto|]. split; auto.
  assert (L := f_equal (@List.length _) H). rewrite map_length in L. split; auto.
  intros offs (Lo & Wi & _). destruct out as [|e t]; [discriminate|]. exists O, e. split; auto.
  intros (rp & p & _ & _ & _ & _ & _ & _ & D). cbn [lost_at] in D. destruct D as (_ & _ & D & _).
  cbn [map] in H. assert (Hd : f64_cast (-9) 9 (deg_patch_start_time e) = 3) by congruence.
  rewrite D in Hd. specialize (Wi O ltac:(lia)). cbn [nth] in Wi. destruct Wi as [W1 W2].
  assert (nth 0 offs 0 = 0 \/ nth 0 offs 0 = 1) as [E|E] by lia; rewrite E in Hd; vm_compute in Hd; discriminate.
Qed.
