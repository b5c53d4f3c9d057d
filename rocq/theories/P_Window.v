(** Proofs of C62: a larger search window is never worse. *)
From Coq Require Import Reals Lra Lia.
From Flocq Require Import Core IEEE754.BinarySingleNaN.
From Verif Require Import Base Num Mat F64 RNum M_Audio M_Align M_Spectro M_Patch M_Nsim M_Selector M_Visqol.
From Verif Require Import Spec Spec2 Spec6 P_Base P_Mat P_F64 P_Score Witness P_Nsim P_Dp P_Dp2.
Open Scope Z_scope.

Section Snoc.
Context {N : NumOps}.
Notation T := (num N).
Lemma tot_from_snoc (sim : nat -> Z -> T) k prev acc l o : total_from sim k prev acc (l ++ [o]) =
  let a := total_from sim k prev acc l in if o =? last l prev then a else nadd N (sim (k + List.length l)%nat o) a.
Proof.
  revert k prev acc. induction l as [|x t IH]; intros k prev acc; cbn [app total_from].
  - cbn [last List.length]. rewrite Nat.add_0_r. reflexivity.
  - rewrite IH. cbv zeta. replace (S k + List.length t)%nat with (k + List.length (x :: t))%nat by (cbn; lia). rewrite last_cons. reflexivity.
Qed.
Lemma tot_snoc (sim : nat -> Z -> T) l o : l <> [] -> total sim (l ++ [o]) = if o =? last l 0 then total sim l else nadd N (sim (List.length l) o) (total sim l).
Proof. destruct l as [|x t]; [tauto|]. intros _. cbn [app total]. rewrite tot_from_snoc. cbv zeta. rewrite last_cons. reflexivity. Qed.
Lemma firstn_snoc {A} (l : list A) d n : (n < List.length l)%nat -> firstn (S n) l = firstn n l ++ [nth n l d].
Proof. revert n. induction l as [|x l IH]; intros n H; [cbn in H; lia|]. destruct n; [reflexivity|]. cbn [firstn app nth]. f_equal. apply IH. cbn in H. lia. Qed.

End Snoc.

Section Sum.
Context {N : NumOps}.
Notation T := (num N).
Variable neutral : T -> Prop.
Hypothesis NL : forall x, neutral x -> nadd N (nofZ N 0) x = x.
Hypothesis NR : forall x, neutral x -> nadd N x (nofZ N 0) = x.

(** The results of a search add up to the total of its start frames. *)
Lemma found_total_eq (refs : list (mat N)) deg idx fd pd offs out : List.length out = List.length offs -> out <> [] ->
  (forall k e, nth_error out k = Some e -> describes refs deg idx fd pd offs k e) ->
  (forall n, (1 <= n <= List.length offs)%nat -> neutral (total (sim_at refs deg) (firstn n offs))) ->
  found_total out = total (sim_at refs deg) offs.
Proof.
  intros L NE D G.
  assert (S : forall k e, nth_error out k = Some e -> similarity e = if lost_at offs k then nofZ N 0 else sim_at refs deg k (nth k offs 0)).
  { intros k e E. destruct (D k e E) as (rp & p & E1 & E2 & _ & _ & _ & _ & H). unfold sim_at. rewrite E1, E2.
    destruct (lost_at offs k); apply H. }
  clear D. assert (I : forall n, (1 <= n <= List.length offs)%nat -> found_total (firstn n out) = total (sim_at refs deg) (firstn n offs)).
  { induction n as [|n IH]; [lia|]. intros Hn.
    destruct (nth_error out n) as [e|] eqn:E; [|apply nth_error_None in E; lia].
    rewrite (firstn_snoc out e) by lia. rewrite (nth_error_nth _ _ e E). rewrite (firstn_snoc offs 0) by lia.
    specialize (S n e E). destruct n as [|n].
    - cbn [firstn app found_total fold_left total total_from]. unfold found_total. cbn [fold_left]. rewrite S. cbn [lost_at].
      specialize (G 1%nat ltac:(lia)). destruct offs as [|o offs]; [cbn in Hn; lia|]. cbn [firstn total total_from nth] in *. apply NR, G.
    - unfold found_total in *. rewrite fold_left_app. cbn [fold_left]. rewrite IH by lia.
      assert (FE : firstn (Datatypes.S n) offs <> []) by (destruct offs; [cbn in Hn; lia|discriminate]).
      rewrite tot_snoc by exact FE.
      assert (LF : List.length (firstn (Datatypes.S n) offs) = Datatypes.S n) by (rewrite firstn_length; lia).
      rewrite last_nth, LF. replace (Datatypes.S n - 1)%nat with n by lia.
      assert (NF : nth n (firstn (Datatypes.S n) offs) 0 = nth n offs 0).
      { rewrite <- (firstn_skipn (Datatypes.S n) offs) at 2. rewrite app_nth1 by (rewrite LF; lia). reflexivity. }
      rewrite NF, S. cbn [lost_at]. destruct (nth (Datatypes.S n) offs 0 =? nth n offs 0); [apply NL, G; lia|reflexivity]. }
  specialize (I (List.length offs)). rewrite firstn_all, <- L, firstn_all in I. apply I. destruct out; [tauto|cbn; lia].
Qed.
End Sum.

Lemma admissible_firstn sw c idx n offs k : admissible sw c idx n offs -> (k <= n)%nat -> admissible sw c idx k (firstn k offs).
Proof.
  intros (L & A & B) H. assert (NF : forall i, (i < k)%nat -> nth i (firstn k offs) 0 = nth i offs 0).
  { intros i Hi. rewrite <- (firstn_skipn k offs) at 2. rewrite app_nth1 by (rewrite firstn_length; lia). reflexivity. }
  split; [rewrite firstn_length; lia|]. split; intros i Hi; [rewrite NF by lia; apply A; lia|rewrite !NF by lia; apply B; lia].
Qed.
Lemma window_mono sw sw' c r s : sw <= sw' -> in_window sw c r s -> in_window sw' c r s.
Proof. unfold in_window. lia. Qed.
Lemma admissible_mono sw sw' c idx n offs : sw <= sw' -> admissible sw c idx n offs -> admissible sw' c idx n offs.
Proof. intros H (L & A & B). split; auto. split; auto. intros k Hk. eapply window_mono; eauto. Qed.
Lemma input_mono {N} (refs : list (mat N)) idx deg r1 r2 fp : search_input refs idx deg r2 fp -> 1 <= r1 <= r2 -> search_input refs idx deg r1 fp.
Proof.
  intros [S1 S2 S3 S4 S5 S6 S7 S8 S9] H. assert (r1 * Z.of_nat fp <= r2 * Z.of_nat fp) by (apply Z.mul_le_mono_nonneg_r; lia).
  constructor; auto; [lia|]. intros r Hr. specialize (S8 r Hr). lia.
Qed.
Lemma same_length {N} pf (refs : list (mat N)) idx deg fd r1 r2 fp out1 out2 : search_input refs idx deg r2 fp -> 1 <= r1 <= r2 ->
  find_most_optimal_deg_patches pf refs idx deg fd r1 = Ok out1 -> find_most_optimal_deg_patches pf refs idx deg fd r2 = Ok out2 ->
  List.length out1 = List.length out2 /\ out2 <> [].
Proof.
  intros SI H E1 E2. destruct (find_parts _ _ _ _ _ _ _ _ (input_mono _ _ _ _ _ _ SI H) E1) as [C1 _]. destruct (find_parts _ _ _ _ _ _ _ _ SI E2) as [C2 _].
  rewrite C1 in C2. injection C2 as C2. apply Nat2Z.inj in C2. split; auto. intros ->. rewrite C2 in C1.
  assert (idx <> []) by (destruct SI; intros ->; destruct refs; [tauto|discriminate]). apply calc_max_last in C1; auto. cbn in C1. lia.
Qed.

Section Generic.
Context {N : NumOps} (val : num N -> R) (good psim : num N -> Prop) (OD : dp_order N val good psim).
Hypothesis NL : forall x, pos val good x -> nadd N (nofZ N 0) x = x.
Hypothesis NR : forall x, pos val good x -> nadd N x (nofZ N 0) = x.
Lemma found_eq pf (refs : list (mat N)) idx deg fd radius fp out : search_input refs idx deg radius fp ->
  (forall k s, (k < List.length out)%nat -> in_window (radius * Z.of_nat fp) (Z.of_nat (mcols deg)) (nth k idx 0) s -> psim (sim_at refs deg k s)) ->
  find_most_optimal_deg_patches pf refs idx deg fd radius = Ok out -> out <> [] ->
  exists offs, admissible (radius * Z.of_nat fp) (Z.of_nat (mcols deg)) idx (List.length out) offs /\ found_total out = total (sim_at refs deg) offs /\
    forall offs', admissible (radius * Z.of_nat fp) (Z.of_nat (mcols deg)) idx (List.length out) offs' ->
      good (total (sim_at refs deg) offs') /\ (val (total (sim_at refs deg) offs') <= val (total (sim_at refs deg) offs))%R.
Proof.
  intros SI HP H NE. destruct (find_parts _ _ _ _ _ _ _ _ SI H) as [Hc Hf].
  destruct (find_ok val good psim OD pf refs idx deg radius fp SI _ fd Hc Hf HP) as (out' & offs & E & _ & A & D & O).
  rewrite H in E. assert (out' = out) by congruence. subst out'. exists offs. split; auto. split; [|exact O].
  apply (found_total_eq (pos val good) NL NR _ _ idx fd (nmul N fd (nofZ N (Z.of_nat fp)))); auto; [symmetry; apply A|].
  assert (LO : List.length offs = List.length out) by apply A.
  assert (PS : forall k, (k < List.length out)%nat -> psim (sim_at refs deg k (nth k offs 0))) by (intros k Hk; apply HP; auto; apply A; auto).
  intros n Hn. induction n as [|n IH]; [lia|]. rewrite (firstn_snoc offs 0) by lia. destruct n as [|n].
  - cbn [firstn app total total_from]. apply (do_psim _ _ _ _ OD), PS. lia.
  - assert (LF : List.length (firstn (S n) offs) = S n) by (rewrite firstn_length; lia).
    rewrite tot_snoc by (intros Q; rewrite Q in LF; discriminate). specialize (IH ltac:(lia)). rewrite LF. destruct (_ =? _); auto.
    destruct IH. apply (do_add _ _ _ _ OD); auto. apply PS. lia.
Qed.
Lemma larger pf (refs : list (mat N)) idx deg fd r1 r2 fp out1 out2 : search_input refs idx deg r2 fp -> 1 <= r1 <= r2 ->
  (forall k s, (k < List.length out2)%nat -> in_window (r2 * Z.of_nat fp) (Z.of_nat (mcols deg)) (nth k idx 0) s -> psim (sim_at refs deg k s)) ->
  find_most_optimal_deg_patches pf refs idx deg fd r1 = Ok out1 -> find_most_optimal_deg_patches pf refs idx deg fd r2 = Ok out2 ->
  List.length out1 = List.length out2 /\ good (found_total out1) /\ good (found_total out2) /\ (val (found_total out1) <= val (found_total out2))%R.
Proof.
  intros SI Hr HP E1 E2. destruct (same_length _ _ _ _ _ _ _ _ _ _ SI Hr E1 E2) as [L NE].
  assert (M : r1 * Z.of_nat fp <= r2 * Z.of_nat fp) by (apply Z.mul_le_mono_nonneg_r; lia).
  destruct (found_eq pf refs idx deg fd r2 fp out2 SI HP E2 NE) as (o2 & A2 & T2 & O2).
  destruct (found_eq pf refs idx deg fd r1 fp out1 (input_mono _ _ _ _ _ _ SI Hr)) as (o1 & A1 & T1 & O1); auto.
  { intros k s Hk Hw. apply HP; [lia|]. eapply window_mono; eauto. }
  { intros ->. destruct out2; [tauto|discriminate]. }
  rewrite L in A1. pose proof (admissible_mono _ _ _ _ _ _ M A1) as A1'. destruct (O2 o1 A1') as [G V]. destruct (O2 o2 A2) as [G2 _].
  rewrite T1, T2. auto.
Qed.
End Generic.

Lemma sim_at_le1 (refs : list (mat RN)) idx deg radius fp k s : search_input refs idx deg radius fp -> (sim_at refs deg k s <= 1)%R.
Proof.
  intros SI. unfold sim_at. destruct (nth_error refs k) as [rp|] eqn:E; [|change (0 <= 1)%R; lra].
  destruct (measure_patch_similarity rp _) as [p| |] eqn:Ep; try (change (0 <= 1)%R; lra).
  destruct SI as [S1 S2 S3 S4 S5 S6 S7 S8 S9]. destruct (S3 rp (nth_error_In _ _ E)) as (W1 & W2 & W3).
  destruct (C36_le_1 rp _ p W1 (patch_at_wf deg s (mcols rp)) ltac:(cbn; lia) ltac:(cbn; lia) ltac:(cbn; lia) ltac:(cbn; lia) Ep) as (_ & _ & B). apply B.
Qed.
Lemma C62_R pf (refs : list (mat RN)) idx deg fd r1 r2 fp out1 out2 : search_input refs idx deg r2 fp -> 1 <= r1 <= r2 ->
  (forall k s, (k < List.length out2)%nat -> in_window (r2 * Z.of_nat fp) (Z.of_nat (mcols deg)) (nth k idx 0) s -> (0 < sim_at refs deg k s)%R) ->
  find_most_optimal_deg_patches pf refs idx deg fd r1 = Ok out1 -> find_most_optimal_deg_patches pf refs idx deg fd r2 = Ok out2 ->
  List.length out1 = List.length out2 /\ (found_total out1 <= found_total out2)%R.
Proof.
  intros SI Hr Hs E1 E2.
  destruct (larger (N:=RN) (fun x => x) (fun _ => True) _ R_order) with (6 := E1) (7 := E2) (fp := fp) as (A & _ & _ & B); auto.
  - intros x _. change (0 + x = x)%R. lra.
  - intros x _. change (x + 0 = x)%R. lra.
  - intros k s Hk Hw. split; [apply (Hs k s Hk Hw)|]. apply (sim_at_le1 refs idx deg r2 fp k s SI).
Qed.
Lemma C62_f64 lm pf (refs : list (mat (F64 lm))) idx deg fd r1 r2 fp out1 out2 : search_input refs idx deg r2 fp -> 1 <= r1 <= r2 ->
  (forall k s, (k < List.length out2)%nat -> in_window (r2 * Z.of_nat fp) (Z.of_nat (mcols deg)) (nth k idx 0) s ->
     is_finite (sim_at refs deg k s : f64) = true /\ Bltb (f64_ofZ 0) (sim_at refs deg k s) = true) ->
  find_most_optimal_deg_patches pf refs idx deg fd r1 = Ok out1 -> find_most_optimal_deg_patches pf refs idx deg fd r2 = Ok out2 ->
  List.length out1 = List.length out2 /\ Bleb (found_total out1 : f64) (found_total out2) = true.
Proof.
  intros SI Hr Hs E1 E2.
  assert (Z : forall x : f64, pos (N:=F64 lm) ext fgood x -> Bplus mode_NE (f64_ofZ 0) x = x /\ Bplus mode_NE x (f64_ofZ 0) = x).
  { intros x [G P]. change (f64_ofZ 0) with (@B754_zero 53 1024 false). destruct x as [s|s| |s m e B]; [|split; reflexivity|discriminate|split; reflexivity].
    exfalso. unfold ext in P. cbn in P. lra. }
  destruct (larger (N:=F64 lm) ext fgood fpos (f64_order lm)) with (6 := E1) (7 := E2) (fp := fp) as (A & G1 & G2 & B); auto.
  - intros x H. apply Z, H.
  - intros x H. apply Z, H.
  - intros k s Hk Hw. destruct (Hs k s Hk Hw) as [F L]. split; auto. apply Bltb_true in L. destruct L as (_ & _ & L). rewrite f64_zero_ext in L. exact L.
  - split; auto. apply Bleb_true. auto.
Qed.

(** ** A small case: the best match of the first patch is two frames away *)
Definition far_deg := zm lm_ex 2 8 [[9; 9; 9; 10; 4; 4; 4; 0]; [3; 3; 3; 0; 9; 9; 9; 10]].
Lemma far_input : search_input dp_refs [1; 6] far_deg 2 1.
Proof.
  constructor.
  - reflexivity.
  - discriminate.
  - intros rp [<-|[<-|[]]]; (split; [split; [reflexivity|repeat constructor]|split; reflexivity]).
  - cbn. lia.
  - cbn. lia.
  - cbn. lia.
  - cbn. lia.
  - intros r. cbn. intros [<-|[<-|[]]]; lia.
  - intros [|[|k]] Hk; cbn in *; lia.
Qed.
Lemma far_sims : forallb (fun ks : nat * Z => is_finite (sim_at dp_refs far_deg (fst ks) (snd ks) : f64) && Bltb (f64_ofZ 0) (sim_at dp_refs far_deg (fst ks) (snd ks)))
  [(0%nat, 0); (0%nat, 1); (0%nat, 2); (0%nat, 3); (1%nat, 4); (1%nat, 5); (1%nat, 6); (1%nat, 7)] = true.
Proof. vm_compute. reflexivity. Qed.
Lemma far_run : match find_most_optimal_deg_patches Debug dp_refs [1; 6] far_deg (f64_ofZ 1) 1, find_most_optimal_deg_patches Debug dp_refs [1; 6] far_deg (f64_ofZ 1) 2 with
  | Ok l, Ok l' => (List.length l' =? 2)%nat && Bltb (found_total l : f64) (found_total l') = true | _, _ => False end.
Proof. vm_compute. reflexivity. Qed.
Lemma C62_ex : exists out1 out2, search_input dp_refs [1; 6] far_deg 2 1 /\
  find_most_optimal_deg_patches Debug dp_refs [1; 6] far_deg (f64_ofZ 1) 1 = Ok out1 /\
  find_most_optimal_deg_patches Debug dp_refs [1; 6] far_deg (f64_ofZ 1) 2 = Ok out2 /\
  (forall k s, (k < List.length out2)%nat -> in_window 2 8 (nth k [1; 6] 0) s ->
     is_finite (sim_at dp_refs far_deg k s : f64) = true /\ Bltb (f64_ofZ 0) (sim_at dp_refs far_deg k s) = true) /\
  Bltb (found_total out1 : f64) (found_total out2) = true.
Proof.
  pose proof far_run as H. destruct (find_most_optimal_deg_patches Debug dp_refs [1; 6] far_deg (f64_ofZ 1) 1) as [o1| |]; [|contradiction|contradiction].
  destruct (find_most_optimal_deg_patches Debug dp_refs [1; 6] far_deg (f64_ofZ 1) 2) as [o2| |]; [|contradiction|contradiction].
  apply andb_true_iff in H. destruct H as [L H]. apply Nat.eqb_eq in L. exists o1, o2. split; [exact far_input|]. split; [auto|]. split; [auto|]. split; [|exact H].
  intros k s Hk [Hs Hw]. pose proof far_sims as F. rewrite forallb_forall in F.
  assert (I : In (k, s) [(0%nat, 0); (0%nat, 1); (0%nat, 2); (0%nat, 3); (1%nat, 4); (1%nat, 5); (1%nat, 6); (1%nat, 7)]).
  { rewrite L in Hk. destruct k as [|[|k]]; [| |cbn in Hk; lia]; cbn [nth] in Hw; cbn [In].
    - assert (s = 0 \/ s = 1 \/ s = 2 \/ s = 3) as [->|[->|[->| ->]]] by lia; auto 9.
    - assert (s = 4 \/ s = 5 \/ s = 6 \/ s = 7) as [->|[->|[->| ->]]] by lia; auto 11. }
  specialize (F _ I). cbn [fst snd] in F. apply andb_true_iff in F. exact F.
Qed.
