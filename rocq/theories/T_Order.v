(** C71: the stretches of the reference that the reported patches cover. *)
From Coq Require Import Reals Lra Lia.
From Verif Require Import Base Num Mat RNum M_Audio M_Align M_Spectro M_Patch M_Nsim M_Selector M_Visqol Spec Spec2 T_Same P_Order.
Open Scope R_scope.

(** In exact arithmetic: the window [W] is 0.08 s of samples, rounded to the nearest;
    a hop is a quarter of it and a patch 30 (wideband) or 20 (fullband) hops.  If that is a
    whole number of samples, the patches are reported in the order of the reference
    and do not overlap there.  Each covers between half and the whole of the nominal
    duration, as long in the degraded signal (whose times are zero if the patch is lost,
    and only then the duration must be the nominal one).  If a hop is a whole number of
    samples, no patch ends after the reference.  In fullband mode there are at least two
    patches, and patch [k] lies in the [k]-th of the consecutive stretches of 20 hops from
    hop 9 on. *)
Theorem C71_patches_in_order : forall pf nb v ws (m m' : Manager RN) calls files a b (rs ds : AudioSignal RN) r,
  new_manager nb v ws = Ok m -> load_as_mono (files a) = Ok rs -> load_as_mono (files b) = Ok ds ->
  (1 <= sample_rate rs < 2 ^ 32)%Z -> (sig_len rs <= 2 ^ 32)%Z -> (sig_len ds <= 2 ^ 32)%Z ->
  let rate := sample_rate rs in
  let W := ((4 * rate + 25) / 50)%Z in
  let fp := match v with Wideband _ => 30%Z | Fullband _ => 20%Z end in
  let hop := IZR W / 4 / IZR rate in
  let pd := IZR fp * hop in
  (fp * W mod 4 = 0)%Z ->
  run pf nb files (after_calls pf nb m calls) a b = (m', Ok r) ->
  (forall i j p q, (i < j)%nat -> nth_error (patch_sims r) i = Some p -> nth_error (patch_sims r) j = Some q ->
     ref_patch_end_time p <= ref_patch_start_time q) /\
  (forall p, In p (patch_sims r) ->
     0 <= ref_patch_start_time p /\ pd / 2 <= ref_patch_end_time p - ref_patch_start_time p <= pd /\
     (deg_patch_start_time p = 0 /\ deg_patch_end_time p = 0 /\ ref_patch_end_time p - ref_patch_start_time p = pd \/
      0 <= deg_patch_start_time p /\
      deg_patch_end_time p - deg_patch_start_time p = ref_patch_end_time p - ref_patch_start_time p) /\
     ((W mod 4 = 0)%Z -> ref_patch_end_time p <= IZR (sig_len rs) / IZR rate)) /\
  match v with
  | Wideband _ => True
  | Fullband _ => (2 <= List.length (patch_sims r))%nat /\
      forall k p, nth_error (patch_sims r) k = Some p ->
        (9 + 20 * INR k) * hop <= ref_patch_start_time p /\ ref_patch_end_time p <= (29 + 20 * INR k) * hop
  end.
Proof. exact C71_all. Qed.
Print Assumptions C71_patches_in_order.

(** The tone of C41 against itself, in fullband mode: the first patch lies between 0.18 s
    and 0.58 s, the second between 0.58 s and 0.98 s. *)
Example C71_example : forall pf calls, exists m, new_manager (N:=RN) 32 (Fullband (Some flat_model)) 60 = Ok m /\
  exists m' r p q rest, run pf 32 tone_world (after_calls pf 32 m calls) "ref.wav" "deg.wav" = (m', Ok r) /\
    patch_sims r = p :: q :: rest /\
    18 / 100 <= ref_patch_start_time p < ref_patch_end_time p /\ ref_patch_end_time p <= 58 / 100 /\
    58 / 100 <= ref_patch_start_time q < ref_patch_end_time q /\ ref_patch_end_time q <= 98 / 100.
Proof.
  intros pf calls. destruct (C48_fullband_example pf calls) as (m & Hm & m' & r & H). exists m. split; [exact Hm|].
  destruct (C71_patches_in_order pf 32 (Fullband (Some flat_model)) 60 m m' calls tone_world "ref.wav" "deg.wav" tone_signal tone_signal r Hm) as (_ & P & L & G);
    try (apply tone_load; auto); try (rewrite tone_len; lia); try (cbn [sample_rate tone_signal]; lia); [exact H|].
  destruct (patch_sims r) as [|p [|q rest]] eqn:E; [cbn in L; lia|cbn in L; lia|]. exists m', r, p, q, rest.
  split; [exact H|]. split; [exact E|].
  destruct (G 0%nat p eq_refl) as [G1 G2]. destruct (G 1%nat q eq_refl) as [G3 G4].
  destruct (P p (or_introl eq_refl)) as (_ & P1 & _). destruct (P q (or_intror (or_introl eq_refl))) as (_ & P2 & _).
  change (sample_rate tone_signal) with 50%Z in *. change ((4 * 50 + 25) / 50)%Z with 4%Z in *. cbn [INR] in *. lra.
Qed.
