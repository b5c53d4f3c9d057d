(** C59: what kind of outcome a comparison has follows from the lengths of the two
    recordings, in exact arithmetic.  [fullband_outcome] and [wideband_outcome] are in
    Spec5.v; they mention numbers of samples and frames only. *)
From Coq Require Import Reals Lra Lia String.
From Verif Require Import Base Num Mat RNum M_Audio M_Align M_Spectro M_Patch M_Visqol Spec Spec5 P_Run P_R P_Level P_Total3 T_Same P_Outcome.
Open Scope R_scope.

(** Fullband: [h] is a fiftieth of the common sample rate.  The aligned degraded
    recording is the one global alignment returns; its length is within half the length
    of the reference of the original length. *)
Theorem C59_fullband_outcome : forall pf nb model ws (m : Manager RN) calls files a b (rs ds : AudioSignal RN) h,
  let L := sig_len rs in let D := sig_len ds in
  new_manager nb (Fullband (Some model)) ws = Ok m -> (0 <= ws <= 2 ^ 20)%Z -> (1 <= nb)%nat ->
  (forall fv, List.length fv = nb -> exists q, svr_predict model fv = Ok q) ->
  load_as_mono (files a) = Ok rs -> load_as_mono (files b) = Ok ds ->
  sample_rate rs = (50 * h)%Z -> sample_rate ds = (50 * h)%Z -> (1 <= h)%Z -> (50 * h < 2 ^ 32)%Z ->
  (L <= 2 ^ 30)%Z -> (D <= 2 ^ 30)%Z ->
  let k := kind (snd (run pf nb files (after_calls pf nb m calls) a b)) in
  ((L = 0 \/ D = 0)%Z -> k = Fails FailedToAlignSignals) /\
  ((1 <= L)%Z -> (1 <= D)%Z -> exists al lag, globally_align pf rs ds = Ok (Some (al, lag)) /\
     (D - L / 2 <= sig_len al <= D + L / 2)%Z /\ k = fullband_outcome h ws L (sig_len al)).
Proof. exact C59_full. Qed.
Print Assumptions C59_fullband_outcome.

(** Wideband: moreover the starts of the patches with voice activity matter, once the
    reference has the 44 frames below which every comparison panics. *)
Theorem C59_wideband_outcome : forall pf nb u ws (m : Manager RN) calls files a b (rs ds : AudioSignal RN) h,
  let L := sig_len rs in let D := sig_len ds in
  new_manager nb (Wideband u) ws = Ok m -> (0 <= ws <= 2 ^ 20)%Z -> (1 <= nb)%nat ->
  load_as_mono (files a) = Ok rs -> load_as_mono (files b) = Ok ds ->
  sample_rate rs = (50 * h)%Z -> sample_rate ds = (50 * h)%Z -> (1 <= h)%Z -> (50 * h < 2 ^ 32)%Z ->
  (L <= 2 ^ 30)%Z -> (D <= 2 ^ 30)%Z ->
  let k := kind (snd (run pf nb files (after_calls pf nb m calls) a b)) in
  ((L = 0 \/ D = 0)%Z -> k = Fails FailedToAlignSignals) /\
  ((1 <= L)%Z -> (1 <= D)%Z -> exists al lag starts, globally_align pf rs ds = Ok (Some (al, lag)) /\
     (D - L / 2 <= sig_len al <= D + L / 2)%Z /\
     ((44 <= frames h L)%Z -> vad_patch_indices pf 30 (frames h L) rs (new_window (50 * h) OVERLAP WINDOW_DURATION) = Ok starts) /\
     k = wideband_outcome h ws L (sig_len al) starts).
Proof. exact C59_wide. Qed.
Print Assumptions C59_wideband_outcome.

(** Failure to align is reported exactly for a recording without samples. *)
Theorem C59_alignment_error_iff_empty : forall pf nb v ws (m : Manager RN) calls files a b (rs ds : AudioSignal RN) h,
  new_manager nb v ws = Ok m -> (0 <= ws <= 2 ^ 20)%Z -> (1 <= nb)%nat ->
  (forall model, v = Fullband (Some model) -> forall fv, List.length fv = nb -> exists q, svr_predict model fv = Ok q) ->
  load_as_mono (files a) = Ok rs -> load_as_mono (files b) = Ok ds ->
  sample_rate rs = (50 * h)%Z -> sample_rate ds = (50 * h)%Z -> (1 <= h)%Z -> (50 * h < 2 ^ 32)%Z ->
  (sig_len rs <= 2 ^ 30)%Z -> (sig_len ds <= 2 ^ 30)%Z ->
  (snd (run pf nb files (after_calls pf nb m calls) a b) = Err FailedToAlignSignals <-> sig_len rs = 0%Z \/ sig_len ds = 0%Z).
Proof. exact C59_align. Qed.
Print Assumptions C59_alignment_error_iff_empty.

(** Recordings at 50 Hz of 0, 10, 40 and 60 samples, each compared to itself in
    fullband mode: an alignment error, a too small reference, a panic, a result. *)
Definition step_world (p : string) : wav :=
  if (p =? "none.wav")%string then WavOk 1 50 16 []
  else if (p =? "ten.wav")%string then WavOk 1 50 16 (map Some (repeat 700%Z 10))
  else if (p =? "forty.wav")%string then WavOk 1 50 16 (map Some (repeat 700%Z 40))
  else WavOk 1 50 16 (map Some (repeat 700%Z 60)).
Lemma step_load n : load_as_mono (N:=RN) (WavOk 1 50 16 (map Some (repeat 700%Z n))) = Ok (@Build_AudioSignal RN (map (fun v => IZR v / 32767) (repeat 700%Z n)) 50).
Proof. etransitivity; [apply load_mono; apply Forall_forall; intros z Hz; apply repeat_spec in Hz; lia|]. reflexivity. Qed.
Lemma step_len n : sig_len (@Build_AudioSignal RN (map (fun v => IZR v / 32767) (repeat 700%Z n)) 50) = Z.of_nat n.
Proof. unfold sig_len, zlen. cbn [data_matrix]. rewrite map_length, repeat_length. reflexivity. Qed.
Example C59_fullband_example : forall pf calls, exists m, new_manager (N:=RN) 32 (Fullband (Some flat_model)) 60 = Ok m /\
  let k p := kind (snd (run pf 32 step_world (after_calls pf 32 m calls) p p)) in
  k "none.wav"%string = Fails FailedToAlignSignals /\
  k "ten.wav"%string = Fails (ReferenceSpectrogramTooSmall 7 10) /\
  k "forty.wav"%string = Panics /\ k "sixty.wav"%string = Succeeds.
Proof.
  intros pf calls. eexists. split; [reflexivity|]. set (m := Build_Manager _ _ _ _) in *.
  assert (H : forall p n, step_world p = WavOk 1 50 16 (map Some (repeat 700%Z n)) -> (n <= 1000)%nat ->
    let k := kind (snd (run pf 32 step_world (after_calls pf 32 m calls) p p)) in
    (n = 0%nat -> k = Fails FailedToAlignSignals) /\
    ((1 <= n)%nat -> exists A, (Z.of_nat n - Z.of_nat n / 2 <= A <= Z.of_nat n + Z.of_nat n / 2)%Z /\ k = fullband_outcome 1 60 (Z.of_nat n) A)).
  { intros p n E Hn k.
    pose proof (step_load n) as LD. rewrite <- E in LD.
    destruct (C59_fullband_outcome pf 32 flat_model 60 m calls step_world p p _ _ 1 eq_refl ltac:(lia) ltac:(lia)
      ltac:(intros fv Hf; exists 3; unfold svr_predict; cbn [svr_features flat_model svr_value]; unfold zlen; rewrite Hf; reflexivity) LD LD eq_refl eq_refl) as (X & Y);
      rewrite ?step_len in *; try lia.
    fold k in X, Y. split; [intros ->; apply X; lia|].
    intros H1. destruct Y as (al & lag & _ & B & K); try lia. exists (sig_len al). auto. }
  split; [apply (H "none.wav"%string 0%nat eq_refl ltac:(lia)); reflexivity|]. split; [|split].
  - destruct (proj2 (H "ten.wav"%string 10%nat eq_refl ltac:(lia)) ltac:(lia)) as (A & B & ->). change (Z.of_nat 10) with 10%Z in *.
    unfold fullband_outcome. cbv zeta. destruct (Z.ltb_spec A (4 * 1)); [lia|]. reflexivity.
  - destruct (proj2 (H "forty.wav"%string 40%nat eq_refl ltac:(lia)) ltac:(lia)) as (A & B & ->). change (Z.of_nat 40) with 40%Z in *.
    unfold fullband_outcome. cbv zeta. destruct (Z.ltb_spec A (4 * 1)); [lia|]. reflexivity.
  - destruct (proj2 (H "sixty.wav"%string 60%nat eq_refl ltac:(lia)) ltac:(lia)) as (A & B & ->). change (Z.of_nat 60) with 60%Z in *. change (60 / 2)%Z with 30%Z in B.
    unfold fullband_outcome. cbv zeta. unfold frames. rewrite !Z.mul_1_r, !Z.div_1_r.
    destruct (Z.ltb_spec A 4); [lia|]. change (60 <? 4)%Z with false. change (60 - 4 + 1 <? 30)%Z with false. change (60 - 4 + 1 <? 51)%Z with false. cbn iota.
    destruct (Z.ltb_spec (A - 4 + 1) 19); [lia|]. change ((60 - 4 + 1 - 31) / 20)%Z with 1%Z. destruct (Z.ltb_spec (A - 4 + 1) (9 + 20 - 20 * 60)); [lia|]. reflexivity.
Qed.
Print Assumptions C59_fullband_example.

(** The two recordings do not play the same part: exchanging them can turn one outcome
    into another.  With the ten samples as the reference the reference is too small for
    a patch; with the sixty as the reference that error cannot come up. *)
Theorem C59_exchange_refuted : exists (files : string -> wav) (f1 f2 : string), forall pf calls, exists m,
  new_manager (N:=RN) 32 (Fullband (Some flat_model)) 60 = Ok m /\
  let k p q := kind (snd (run pf 32 files (after_calls pf 32 m calls) p q)) in
  k f1 f2 = Fails (ReferenceSpectrogramTooSmall 7 10) /\
  forall c n, k f2 f1 <> Fails (ReferenceSpectrogramTooSmall c n).
Proof.
  exists step_world, "ten.wav"%string, "sixty.wav"%string.
  intros pf calls. eexists. split; [reflexivity|]. set (m := Build_Manager _ _ _ _) in *.
  assert (H : forall p q n d, step_world p = WavOk 1 50 16 (map Some (repeat 700%Z n)) -> step_world q = WavOk 1 50 16 (map Some (repeat 700%Z d)) ->
    (1 <= n <= 1000)%nat -> (1 <= d <= 1000)%nat ->
    exists A, (Z.of_nat d - Z.of_nat n / 2 <= A <= Z.of_nat d + Z.of_nat n / 2)%Z /\
      kind (snd (run pf 32 step_world (after_calls pf 32 m calls) p q)) = fullband_outcome 1 60 (Z.of_nat n) A).
  { intros p q n d E E' Hn Hd.
    pose proof (step_load n) as LD. rewrite <- E in LD. pose proof (step_load d) as LD'. rewrite <- E' in LD'.
    destruct (C59_fullband_outcome pf 32 flat_model 60 m calls step_world p q _ _ 1 eq_refl ltac:(lia) ltac:(lia)
      ltac:(intros fv Hf; exists 3; unfold svr_predict; cbn [svr_features flat_model svr_value]; unfold zlen; rewrite Hf; reflexivity) LD LD' eq_refl eq_refl) as (X & Y);
      rewrite ?step_len in *; try lia.
    destruct Y as (al & lag & _ & B & K); try lia. exists (sig_len al). auto. }
  split.
  - destruct (H "ten.wav"%string "sixty.wav"%string 10%nat 60%nat eq_refl eq_refl ltac:(lia) ltac:(lia)) as (A & B & ->).
    change (Z.of_nat 10) with 10%Z in *. change (10 / 2)%Z with 5%Z in *.
    unfold fullband_outcome. cbv zeta. destruct (Z.ltb_spec A (4 * 1)); [lia|]. reflexivity.
  - intros c n0. destruct (H "sixty.wav"%string "ten.wav"%string 60%nat 10%nat eq_refl eq_refl ltac:(lia) ltac:(lia)) as (A & B & ->).
    change (Z.of_nat 60) with 60%Z in *. unfold fullband_outcome. cbv zeta. unfold frames. rewrite !Z.mul_1_r, !Z.div_1_r.
    change (60 <? 4)%Z with false. change (60 - 4 + 1 <? 30)%Z with false. change (60 - 4 + 1 <? 51)%Z with false. cbn iota.
    repeat (match goal with |- (if ?b then _ else _) <> _ => destruct b end; [discriminate|]). discriminate.
Qed.
Print Assumptions C59_exchange_refuted.

(** The same recordings in wideband mode: the third is too short for one patch. *)
Example C59_wideband_example : forall pf calls, exists m, new_manager (N:=RN) 21 (Wideband true) 60 = Ok m /\
  kind (snd (run pf 21 step_world (after_calls pf 21 m calls) "none.wav" "ten.wav")) = Fails FailedToAlignSignals /\
  kind (snd (run pf 21 step_world (after_calls pf 21 m calls) "forty.wav" "forty.wav")) = Panics.
Proof.
  intros pf calls. eexists. split; [reflexivity|]. set (m := Build_Manager _ _ _ _) in *.
  destruct (C59_wideband_outcome pf 21 true 60 m calls step_world "none.wav" "ten.wav" _ _ 1 eq_refl ltac:(lia) ltac:(lia) (step_load 0) (step_load 10) eq_refl eq_refl) as (X & _);
    rewrite ?step_len in *; try lia.
  destruct (C59_wideband_outcome pf 21 true 60 m calls step_world "forty.wav" "forty.wav" _ _ 1 eq_refl ltac:(lia) ltac:(lia) (step_load 40) (step_load 40) eq_refl eq_refl) as (_ & Y);
    rewrite ?step_len in *; try lia.
  split; [apply X; lia|]. destruct Y as (al & lag & starts & _ & B & _ & K); try lia. rewrite K. change (Z.of_nat 40) with 40%Z in *. change (40 / 2)%Z with 20%Z in B.
  unfold wideband_outcome. cbv zeta. destruct (Z.ltb_spec (sig_len al) (4 * 1)); [lia|]. reflexivity.
Qed.
