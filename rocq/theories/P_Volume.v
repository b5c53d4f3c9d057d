(** C52: the volume and the polarity of the degraded recording. *)
From Coq Require Import Reals Lra Lia.
From Verif Require Import Base Num Mat RNum M_Audio M_Align M_Spectro M_Patch M_Nsim M_Selector M_Visqol.
From Verif Require Import Spec P_Base P_Mat P_R P_Spectro P_Bands P_Level P_Slice.
Open Scope R_scope.

Lemma similarity_gain pf nb (rs : AudioSignal RN) l rate g fb w cr mp sw : 0 < g ->
  not_silent (data_matrix rs) -> not_silent l ->
  calculate_similarity pf nb rs (@Build_AudioSignal RN (map (Rmult g) l) rate) fb w cr mp sw =
  calculate_similarity pf nb rs (@Build_AudioSignal RN l rate) fb w cr mp sw.
Proof. intros Hg Hr Hl. unfold calculate_similarity. rewrite C37_gain by auto. reflexivity. Qed.

(** ** The cascade is homogeneous *)
Lemma lin_scale g (l l' : list R) : List.length l = List.length l' -> lin g 0 l l' = map (Rmult g) l.
Proof. revert l'. induction l as [|x t IH]; intros [|y t'] H; try discriminate; auto. cbn [lin map]. rewrite IH by (cbn in H; lia). f_equal. ring. Qed.
Lemma filter_len nc dc (x : list R) : forall c, List.length (fst (filter_signal (N:=RN) nc dc x c)) = List.length x.
Proof.
  destruct nc as [[n0 n1] n2], dc as [[d0 d1] d2]. induction x as [|a t IH]; intros [c0 c1]; auto. rewrite filter_cons. cbn [List.length]. rewrite IH. reflexivity.
Qed.
Lemma filter_gain nc dc g (x : list R) : fst (filter_signal (N:=RN) nc dc (map (Rmult g) x) (0, 0)) = map (Rmult g) (fst (filter_signal (N:=RN) nc dc x (0, 0))).
Proof.
  pose proof (filter_linear nc dc g 0 x x 0 0 0 0 eq_refl) as H. rewrite !lin_scale in H by (rewrite ?filter_len; auto).
  rewrite <- H. do 2 f_equal. f_equal; ring.
Qed.
Lemma cascade_gain row g (x : list R) : cascade (N:=RN) row (map (Rmult g) x) = map (Rmult g) (cascade (N:=RN) row x).
Proof.
  unfold cascade. cbv zeta. change (nofZ RN 0) with 0. change (num RN) with R. rewrite !filter_gain. reflexivity.
Qed.
Lemma frame_gain g (l : list R) size hop j : frame (N:=RN) (map (Rmult g) l) size hop j = map (Rmult g) (frame (N:=RN) l size hop j).
Proof. unfold frame. rewrite <- firstn_map. f_equal. apply skipn_map. Qed.
Lemma rms_gain g (y : list R) (n : R) : 0 < n ->
  R_sqrt.sqrt (Rsum (map (fun v => v * v) (map (Rmult g) y)) / n) = Rabs g * R_sqrt.sqrt (Rsum (map (fun v => v * v) y) / n).
Proof.
  intros Hn. rewrite map_map. rewrite (map_ext _ (fun v => g * g * (v * v))) by (intros; ring).
  rewrite <- (map_map (fun v => v * v) (fun x => g * g * x)), Rsum_scale. unfold Rdiv. rewrite Rmult_assoc. rewrite sqrt_mult_alt by (apply Rle_0_sqr).
  change (g * g) with (Rsqr g). rewrite sqrt_Rsqr_abs. reflexivity.
Qed.
Lemma C52_entries nb (f1 f2 f1' f2' : Filterbank RN) l rate g w sp1 sp2 b j :
  fb_min_freq f1 = fb_min_freq f2 -> (1 <= win_size w)%Z -> (0 < hop_size w)%Z ->
  build nb f1 (@Build_AudioSignal RN l rate) w = (f1', Ok sp1) ->
  build nb f2 (@Build_AudioSignal RN (map (Rmult g) l) rate) w = (f2', Ok sp2) ->
  (b < nb)%nat -> (j < mcols (sp_data sp1))%nat -> (j < mcols (sp_data sp2))%nat ->
  mget (sp_data sp2) b j = Rabs g * mget (sp_data sp1) b j.
Proof.
  intros Hf Hw Hh B1 B2 Hb J1 J2.
  destruct (entry_cascade nb f1 _ w f1' sp1 b j Hh Hw B1 Hb J1) as [_ E1].
  destruct (entry_cascade nb f2 _ w f2' sp2 b j Hh Hw B2 Hb J2) as [_ E2].
  rewrite E1, E2. cbn [data_matrix sample_rate]. rewrite !R_nd_sum. rewrite <- Hf.
  set (row := erb_row _ _).
  assert (E : cascade (N:=RN) row (frame (N:=RN) (map (Rmult g) l) (win_size w) (hop_size w) j) = map (Rmult g) (cascade (N:=RN) row (frame (N:=RN) l (win_size w) (hop_size w) j))).
  { etransitivity; [|apply cascade_gain]. f_equal. apply frame_gain. }
  etransitivity; [exact (f_equal (fun y : list R => R_sqrt.sqrt (Rsum (map (fun v => v * v) y) / IZR (win_size w))) E)|].
  apply (rms_gain g). apply IZR_lt. lia.
Qed.
Lemma C52_same_size nb (f1 f2 f1' f2' : Filterbank RN) l rate g w sp1 sp2 : (1 <= win_size w)%Z -> (0 < hop_size w)%Z ->
  build nb f1 (@Build_AudioSignal RN l rate) w = (f1', Ok sp1) ->
  build nb f2 (@Build_AudioSignal RN (map (Rmult g) l) rate) w = (f2', Ok sp2) ->
  mcols (sp_data sp1) = mcols (sp_data sp2) /\ mrows (sp_data sp1) = nb /\ mrows (sp_data sp2) = nb.
Proof.
  intros Hw Hh B1 B2. assert (zlen (map (Rmult g) l) = zlen l) by apply zlen_map.
  pose proof (C30_R nb f1 (@Build_AudioSignal RN l rate) w Hw Hh) as C1. pose proof (C30_R nb f2 (@Build_AudioSignal RN (map (Rmult g) l) rate) w Hw Hh) as C2.
  pose proof (C30_too_few nb f1 (@Build_AudioSignal RN l rate) w) as F1.
  cbn [data_matrix] in *. change (@zlen (num RN)) with (@zlen R) in *.
  rewrite B1 in *. rewrite B2 in *. cbn [snd] in *.
  destruct (Z_lt_le_dec (zlen l) (win_size w)) as [Hs|Hs]; [apply F1 in Hs; discriminate|].
  destruct (C1 Hs) as (s1 & [= <-] & _ & R1 & M1 & _). assert (Hs2 : (win_size w <= @zlen R (map (Rmult g) l))%Z) by (rewrite H; exact Hs). destruct (C2 Hs2) as (s2 & [= <-] & _ & R2 & M2 & _).
  repeat split; auto. apply Nat2Z.inj. etransitivity; [exact M1|]. symmetry. etransitivity; [exact M2|]. exact (f_equal (fun z => (1 + (z - win_size w) / hop_size w)%Z) H).
Qed.

(** ** Whole comparisons *)
Lemma not_silent_dec (l : list R) : not_silent l \/ Forall (fun x => x = 0) l.
Proof.
  induction l as [|x t [(y & Hy & Ny)|IH]]; [right; constructor| |].
  - left. exists y. split; [right|]; auto.
  - destruct (Req_EM_T x 0); [right; constructor; auto|left; exists x; split; [left|]; auto].
Qed.
Lemma silent_gain g (l : list R) : Forall (fun x => x = 0) l -> map (Rmult g) l = l.
Proof. induction 1 as [|x t -> _ IH]; auto. cbn [map]. rewrite IH. f_equal. ring. Qed.
Lemma similarity_gain' pf nb (rs : AudioSignal RN) l rate g fb w cr mp sw : 0 < g -> not_silent (data_matrix rs) ->
  calculate_similarity pf nb rs (@Build_AudioSignal RN (map (Rmult g) l) rate) fb w cr mp sw =
  calculate_similarity pf nb rs (@Build_AudioSignal RN l rate) fb w cr mp sw.
Proof. intros Hg Hr. destruct (not_silent_dec l) as [Hl|Hl]; [apply similarity_gain; auto|]. rewrite (silent_gain g l Hl). reflexivity. Qed.

Lemma align_gain pf (rs : AudioSignal RN) l rate g al lag al' : (1 <= rate)%Z ->
  globally_align pf rs (@Build_AudioSignal RN l rate) = Ok (Some (al, lag)) ->
  globally_align pf rs (@Build_AudioSignal RN (map (Rmult g) l) rate) = Ok (Some (al', lag)) ->
  al' = @Build_AudioSignal RN (map (Rmult g) (data_matrix al)) rate /\ sample_rate al = rate.
Proof.
  intros Hrate. unfold globally_align. destruct (calculate_upper_env pf (data_matrix rs)) as [[renv|]| |]; cbn [bind]; try discriminate.
  cbn [data_matrix sample_rate].
  destruct (calculate_upper_env pf l) as [[e1|]| |]; cbn [bind]; try discriminate.
  destruct (calculate_upper_env (N:=RN) pf (map (Rmult g) l)) as [[e2|]| |]; cbn [bind]; try discriminate.
  destruct (calculate_best_lag pf renv e1) as [[l1|]| |]; cbn [bind]; try discriminate.
  destruct (calculate_best_lag pf renv e2) as [[l2|]| |]; cbn [bind]; try discriminate.
  assert (Q : forall k, k <> 0%Z -> IZR k / IZR rate <> 0).
  { intros k Hk. apply Rmult_integral_contrapositive. split; [apply not_0_IZR; auto|]. apply Rinv_neq_0_compat. apply not_0_IZR. lia. }
  assert (I : forall a b, IZR a / IZR rate = IZR b / IZR rate -> a = b).
  { intros a b E. apply eq_IZR. apply (Rmult_eq_reg_r (/ IZR rate)); auto. apply Rinv_neq_0_compat. apply not_0_IZR. lia. }
  intros H1 H2.
  destruct ((l1 =? 0)%Z || (sig_len rs / 2 <? Z.abs l1)%Z) eqn:C1; destruct ((l2 =? 0)%Z || (sig_len rs / 2 <? Z.abs l2)%Z) eqn:C2.
  - injection H1 as <- <-. injection H2 as <-. auto.
  - apply Bool.orb_false_iff in C2 as [C2 _]. apply Z.eqb_neq in C2. injection H1 as <- <-. exfalso.
    match type of H2 with (bind ?q _ = _) => destruct q; try discriminate end. cbn [bind] in H2. injection H2 as _ H2. exact (Q l2 C2 H2).
  - apply Bool.orb_false_iff in C1 as [C1 _]. apply Z.eqb_neq in C1. injection H2 as <- <-. exfalso.
    match type of H1 with (bind ?q _ = _) => destruct q; try discriminate end. cbn [bind] in H1. injection H1 as _ H1. exact (Q l1 C1 H1).
  - match type of H1 with (bind ?q _ = _) => destruct q as [q1| |] eqn:D1; try discriminate end. cbn [bind] in H1. injection H1 as <- <-.
    match type of H2 with (bind ?q _ = _) => destruct q as [q2| |] eqn:D2; try discriminate end. cbn [bind] in H2. injection H2 as <- E.
    apply I in E. subst l2. cbn [data_matrix sample_rate]. split; auto. f_equal.
    destruct (l1 <? 0)%Z.
    + unfold sig_len in *. cbn [data_matrix] in *.
      unfold zslice in *. change (@zlen (num RN)) with (@zlen R) in *. assert (Z : zlen (map (Rmult g) l) = zlen l) by apply zlen_map. rewrite Z in D2.
      match type of D1 with (if ?c then _ else _) = _ => destruct c; try discriminate end. match type of D2 with (if ?c then _ else _) = _ => destruct c; try discriminate end.
      apply (f_equal (fun r : res (list R) => match r with Ok x => x | _ => [] end)) in D1, D2. rewrite <- D1, <- D2. etransitivity; [|exact (firstn_map (Rmult g) _ _)]. f_equal. exact (skipn_map (Rmult g) _ _).
    + apply (f_equal (fun r : res (list R) => match r with Ok x => x | _ => [] end)) in D1, D2. rewrite <- D1, <- D2. change (num RN) with R. etransitivity; [|symmetry; apply (map_app (Rmult g))]. f_equal. clear. induction (Z.to_nat l1) as [|k IH]; auto. cbn [repeat map]. rewrite <- IH. f_equal. change (0 = g * 0). ring.
Qed.
Lemma C52_run pf nb (m : Manager RN) files a b b' (rs : AudioSignal RN) l rate g al al' lag :
  0 < g -> (1 <= rate)%Z -> load_as_mono (files a) = Ok rs ->
  load_as_mono (files b) = Ok (@Build_AudioSignal RN l rate) ->
  load_as_mono (files b') = Ok (@Build_AudioSignal RN (map (Rmult g) l) rate) ->
  globally_align pf rs (@Build_AudioSignal RN l rate) = Ok (Some (al, lag)) ->
  globally_align pf rs (@Build_AudioSignal RN (map (Rmult g) l) rate) = Ok (Some (al', lag)) ->
  not_silent (data_matrix rs) ->
  run pf nb files m a b' = run pf nb files m a b.
Proof.
  intros Hg Hrate La Lb Lb' G G' Hr. unfold run. rewrite La, Lb, Lb'. unfold validate_input_audio. cbn [sample_rate]. destruct (negb _); auto.
  unfold compute_results. rewrite G, G'. destruct (align_gain _ _ _ _ _ _ _ _ Hrate G G') as [-> Er]. destruct al as [d r]. cbn [data_matrix sample_rate] in *. subst r.
  cbv zeta. rewrite similarity_gain' by auto. reflexivity.
Qed.
Lemma C52_homogeneous nb (f1 f2 f1' f2' : Filterbank RN) l rate g w sp1 sp2 :
  fb_min_freq f1 = fb_min_freq f2 -> (1 <= win_size w)%Z -> (0 < hop_size w)%Z ->
  build nb f1 (@Build_AudioSignal RN l rate) w = (f1', Ok sp1) ->
  build nb f2 (@Build_AudioSignal RN (map (Rmult g) l) rate) w = (f2', Ok sp2) ->
  mcols (sp_data sp1) = mcols (sp_data sp2) /\ mrows (sp_data sp1) = nb /\ mrows (sp_data sp2) = nb /\
  forall b j, (b < nb)%nat -> (j < mcols (sp_data sp1))%nat ->
    mget (sp_data sp2) b j = Rabs g * mget (sp_data sp1) b j.
Proof.
  intros Hf Hw Hh B1 B2. destruct (C52_same_size nb f1 f2 f1' f2' l rate g w sp1 sp2 Hw Hh B1 B2) as (A & B & C). repeat split; auto.
  intros b j Hb Hj. eapply (C52_entries nb f1 f2 f1' f2' l rate g w sp1 sp2); eauto. rewrite <- A. auto.
Qed.
