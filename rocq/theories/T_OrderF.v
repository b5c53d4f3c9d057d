(** C71 in binary64. *)
From Coq Require Import Reals Lra Lia.
From Flocq Require Import Core IEEE754.BinarySingleNaN.
From Verif Require Import Base Num Mat F64 M_Audio M_Align M_Spectro M_Patch M_Nsim M_Selector M_Visqol Spec Spec2 Witness P_OrderF.
Open Scope R_scope.

(** In binary64, for signals of at most 2^32 samples at less than 2^32 Hz, if a hop is a
    whole number of samples: the order of the patches, their durations and where they lie are
    those of exact arithmetic up to four samples.  The segments cut for fine alignment start
    and end up to a sample early (C50), and a shift may be cut a sample short.  No patch
    starts before the recording.  The duration in the degraded signal is that in the
    reference up to 1/64 sample. *)
Theorem C71_patches_in_order_f64 : forall lm pf nb v ws (m m' : Manager (F64 lm)) calls files a b (rs ds : AudioSignal (F64 lm)) r,
  new_manager nb v ws = Ok m -> load_as_mono (files a) = Ok rs -> load_as_mono (files b) = Ok ds ->
  (1 <= sample_rate rs < 2 ^ 32)%Z -> (sig_len rs <= 2 ^ 32)%Z -> (sig_len ds <= 2 ^ 32)%Z ->
  let rate := sample_rate rs in
  let W := ((4 * rate + 25) / 50)%Z in
  let fp := match v with Wideband _ => 30%Z | Fullband _ => 20%Z end in
  let sample := 1 / IZR rate in
  let hop := IZR (W / 4) * sample in
  let pd := IZR fp * hop in
  (W mod 4 = 0)%Z ->
  run pf nb files (after_calls pf nb m calls) a b = (m', Ok r) ->
  (forall i j p q, (i < j)%nat -> nth_error (patch_sims r) i = Some p -> nth_error (patch_sims r) j = Some q ->
     B2R (ref_patch_end_time p : f64) <= B2R (ref_patch_start_time q : f64) + 4 * sample) /\
  (forall p : PatchSim (F64 lm), In p (patch_sims r) ->
     let rdur := B2R (ref_patch_end_time p : f64) - B2R (ref_patch_start_time p : f64) in
     let ddur := B2R (deg_patch_end_time p : f64) - B2R (deg_patch_start_time p : f64) in
     0 <= B2R (ref_patch_start_time p : f64) /\
     pd / 2 - 3 * sample <= rdur <= pd + 2 * sample /\
     (B2R (deg_patch_start_time p : f64) = 0 /\ B2R (deg_patch_end_time p : f64) = 0 /\
      Rabs (rdur - pd) <= / 64 * sample \/
      0 <= B2R (deg_patch_start_time p : f64) /\ Rabs (ddur - rdur) <= / 64 * sample) /\
     B2R (ref_patch_end_time p : f64) <= (IZR (sig_len rs) + 4) * sample) /\
  match v with
  | Wideband _ => True
  | Fullband _ => (2 <= List.length (patch_sims r))%nat /\
      forall k p, nth_error (patch_sims r) k = Some p ->
        (9 + 20 * INR k) * hop - sample <= B2R (ref_patch_start_time p : f64) /\
        B2R (ref_patch_end_time p : f64) <= (29 + 20 * INR k) * hop + 4 * sample
  end.
Proof. exact C71_f64. Qed.
Print Assumptions C71_patches_in_order_f64.

Lemma w_load_one (x : res (AudioSignal (F64 lm_ex))) a b : match x with Ok s => (sample_rate s, sig_len s) | _ => (0, 0)%Z end = (a, b) -> (0 < a)%Z ->
  exists s, x = Ok s /\ sample_rate s = a /\ sig_len s = b.
Proof. destruct x as [s| |]; intros H P; try (injection H as H1 H2; subst; lia). injection H as H1 H2. exists s. auto. Qed.
Lemma w_load_ref : exists s, load_as_mono (N:=F64 lm_ex) (w_files "ref.wav") = Ok s /\ sample_rate s = 100%Z /\ sig_len s = 160%Z.
Proof. apply w_load_one; [vm_compute; reflexivity|lia]. Qed.
Lemma w_load_deg : exists s, load_as_mono (N:=F64 lm_ex) (w_files "deg.wav") = Ok s /\ sample_rate s = 100%Z /\ sig_len s = 158%Z.
Proof. apply w_load_one; [vm_compute; reflexivity|lia]. Qed.
Lemma three_patches lm (svr : SvrModel (F64 lm)) pf nb (m m' : Manager (F64 lm)) files a b (rs ds : AudioSignal (F64 lm)) r :
  new_manager nb (Fullband (Some svr)) 0 = Ok m -> load_as_mono (files a) = Ok rs -> load_as_mono (files b) = Ok ds ->
  sample_rate rs = 100%Z -> sig_len rs = 160%Z -> sig_len ds = 158%Z -> run pf nb files m a b = (m', Ok r) -> List.length (patch_sims r) = 3%nat ->
  exists p q t, patch_sims r = [p; q; t] /\
    57 / 100 <= B2R (ref_patch_start_time q : f64) /\ B2R (ref_patch_end_time q : f64) <= 102 / 100 /\
    B2R (ref_patch_end_time p : f64) <= B2R (ref_patch_start_time q : f64) + 4 / 100 /\
    B2R (ref_patch_end_time q : f64) <= B2R (ref_patch_start_time t : f64) + 4 / 100.
Proof.
  intros Hm La Lb Rr L1 L2 E L.
  destruct (C71_patches_in_order_f64 lm pf nb (Fullband (Some svr)) 0 m m' [] files a b rs ds r Hm La Lb) as (O & _ & _ & G);
    try (rewrite ?Rr, ?L1, ?L2; lia); [exact E|].
  rewrite Rr in O, G. change ((4 * 100 + 25) / 50 / 4)%Z with 2%Z in G.
  destruct (patch_sims r) as [|p [|q [|t [|]]]] eqn:Eps; try discriminate L. exists p, q, t. split; [reflexivity|].
  destruct (G 1%nat q eq_refl) as [G1 G2]. pose proof (O 0%nat 1%nat p q ltac:(lia) eq_refl eq_refl). pose proof (O 1%nat 2%nat q t ltac:(lia) eq_refl eq_refl).
  cbn [INR] in G1, G2. repeat split; lra.
Qed.
(** Noise of 1.6 s at 100 Hz with a gap, in fullband mode: of the three patches, the second
    starts at 0.57 s or later and ends at 1.02 s or earlier. *)
Example C71_f64_example : exists m' r p q t,
  run Release 1 w_files (w_manager (Fullband (Some w_svr))) "ref.wav" "deg.wav" = (m', Ok r) /\ patch_sims r = [p; q; t] /\
  57 / 100 <= B2R (ref_patch_start_time q : f64) /\ B2R (ref_patch_end_time q : f64) <= 102 / 100 /\
  B2R (ref_patch_end_time p : f64) <= B2R (ref_patch_start_time q : f64) + 4 / 100 /\
  B2R (ref_patch_end_time q : f64) <= B2R (ref_patch_start_time t : f64) + 4 / 100.
Proof.
  destruct (w_summary_some _ _ w_run_fullband) as (m' & r & E & HL). assert (L : List.length (patch_sims r) = 3%nat) by exact (eq_sym (f_equal snd HL)). clear HL.
  destruct w_load_ref as (rs & La & Rr & L1). destruct w_load_deg as (ds & Lb & _ & L2).
  assert (M : new_manager 1 (Fullband (Some w_svr)) 0 = Ok (w_manager (Fullband (Some w_svr)))) by (unfold w_manager, new_manager; cbn [bind]; reflexivity).
  destruct (three_patches lm_ex w_svr Release 1 _ m' w_files _ _ rs ds r M La Lb Rr L1 L2 E L) as (p & q & t & X). exists m', r, p, q, t. split; [exact E|exact X].
Qed.
