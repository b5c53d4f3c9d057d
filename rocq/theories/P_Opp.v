(** C56, C70: stereo files whose channels cancel. *)
From Coq Require Import Reals Lra.
From Flocq Require Import Core IEEE754.BinarySingleNaN.
From Verif Require Import Base Num F64 RNum M_Audio M_Align M_Nsim M_Selector M_Visqol Spec Spec4 Spec10 Spec11 P_Base P_F64 P_NsimF P_Audio P_Audio2 P_Load P_SilRef.
Open Scope R_scope.

Lemma smp_opp v : (-32767 <= v <= 32767)%Z -> B2R (smp (- v)) = - B2R (smp v).
Proof.
  intros H. destruct (sample_fin v ltac:(lia)) as [_ E]. destruct (sample_fin (- v) ltac:(lia)) as [_ E'].
  unfold smp. rewrite E, E'. rewrite opp_IZR. replace (- IZR v / 32767) with (- (IZR v / 32767)) by lra. apply round_NE_opp.
Qed.
Lemma cancel v : (-32767 <= v <= 32767)%Z -> Bplus mode_NE (smp v) (smp (- v)) = B754_zero false.
Proof.
  intros H. assert (A : (-32768 <= v <= 32767)%Z) by lia. assert (B : (-32768 <= - v <= 32767)%Z) by lia.
  destruct (nz_plus _ _ (smp_nz v A) (smp_nz _ B) (smp_sum_fin v (- v) A B)) as [[_ Z0] E].
  apply Z0. rewrite E, smp_opp by auto. replace (B2R (smp v) + - B2R (smp v)) with 0 by lra. apply round_0. apply valid_rnd_N.
Qed.
Lemma map_repeat_0 {A B} (f : A -> B) l c : (forall x, In x l -> f x = c) -> map f l = repeat c (List.length l).
Proof.
  induction l as [|a t IH]; intros H; [reflexivity|]. cbn [map List.length repeat]. rewrite (H a) by (left; auto).
  f_equal. apply IH. intros x Hx. apply H. right; auto.
Qed.
Lemma opposite_load lm rate vs : Forall (fun v => -32767 <= v <= 32767)%Z vs ->
  load_as_mono (N:=F64 lm) (WavOk 2 rate 16 (map Some (flat_map (fun v => [v; - v]%Z) vs))) =
  load_as_mono (N:=F64 lm) (WavOk 1 rate 16 (map Some (repeat 0%Z (List.length vs)))).
Proof.
  intros F. replace (flat_map (fun v => [v; - v]%Z) vs) with (two (map (fun v => (v, - v)%Z) vs)).
  2:{ unfold two. rewrite flat_map_concat_map, map_map, <- flat_map_concat_map. reflexivity. }
  rewrite load_two. 2:{ apply Forall_map. eapply Forall_impl; [|exact F]. cbn. lia. }
  rewrite load_one. 2:{ apply Forall_forall. intros x Hx. apply repeat_spec in Hx. lia. }
  do 2 f_equal. rewrite map_map.
  rewrite (map_repeat_0 _ vs (B754_zero false)).
  2:{ intros v Hv. cbn [fst snd]. rewrite Forall_forall in F. rewrite (cancel v (F v Hv)). reflexivity. }
  rewrite (map_repeat_0 _ (repeat 0%Z (List.length vs)) (B754_zero false)), repeat_length; [reflexivity|].
  intros v Hv. apply repeat_spec in Hv as ->. apply B2SF_inj. vm_compute. reflexivity.
Qed.
Lemma opposite_run lm pf nb (m : Manager (F64 lm)) files files' r d rate l :
  Forall (fun v => -32767 <= v <= 32767)%Z l -> files' d = files d ->
  files r = WavOk 2 rate 16 (map Some (flat_map (fun v => [v; - v]%Z) l)) ->
  files' r = WavOk 1 rate 16 (map Some (repeat 0%Z (List.length l))) ->
  run pf nb files m r d = run pf nb files' m r d /\ run pf nb files m d r = run pf nb files' m d r.
Proof.
  intros F E1 E2 E3. assert (L : load_as_mono (N:=F64 lm) (files r) = load_as_mono (files' r)) by (rewrite E2, E3; apply opposite_load; auto).
  assert (L' : load_as_mono (N:=F64 lm) (files d) = load_as_mono (files' d)) by (rewrite E1; reflexivity).
  split; apply run_loads; auto.
Qed.
Lemma opposite_ref lm pf nb v ws files (m m' : Manager (F64 lm)) calls a b r rate us vs :
  libm_limits lm -> log10_finite lm -> squares_sane lm -> filters_finite lm nb rate -> new_manager nb v ws = Ok m ->
  (1 <= ws <= 2 ^ 20 -> Z.of_nat nb <= 2 ^ 53 -> 1 <= rate <= 2 ^ 20 ->
  files a = WavOk 2 rate 16 (map Some (flat_map (fun x => [x; - x]) us)) -> Forall (fun x => -32767 <= x <= 32767) us -> zlen us <= 2 ^ 30 ->
  files b = WavOk 1 rate 16 (map Some vs) -> Forall i16_range vs -> zlen vs <= 2 ^ 30 -> Exists (fun x => x <> 0) (skipn (List.length us / 2) vs) ->
  run pf nb files (after_calls pf nb m calls) a b = (m', Ok r) ->
  fvnsim r = repeat (f64_ofZ 1) nb /\ (vnsim r : f64) = f64_ofZ 1 /\
  predict_quality (mg_mapper m) (repeat (f64_ofZ 1) nb) = Ok (moslqo r))%Z.
Proof.
  intros H1 H2 H3 H4 H5 H6 H7 H8 Ea Fu Hu Eb Fv Hv Ex R.
  set (files' := fun p => if String.eqb p a then WavOk 1 rate 16 (map Some (repeat 0%Z (List.length us))) else files p).
  assert (AB : b <> a).
  { intros ->. rewrite Ea in Eb. discriminate. }
  assert (E : run pf nb files (after_calls pf nb m calls) a b = run pf nb files' (after_calls pf nb m calls) a b).
  { apply (opposite_run lm pf nb _ files files' a b rate us); auto; unfold files'.
    - apply String.eqb_neq in AB. rewrite AB. reflexivity.
    - rewrite String.eqb_refl. reflexivity. }
  rewrite E in R.
  destruct (silent_ref_files lm pf nb v ws files' m m' calls a b r rate (List.length us) vs) as (A & B & _ & D); auto.
  - unfold files'. rewrite String.eqb_refl. reflexivity.
  - unfold files'. apply String.eqb_neq in AB. rewrite AB. exact Eb.
Qed.
