(** C32: the centre frequencies a comparison reports. *)
From Coq Require Import Reals Lra Lia.
From Verif Require Import Base Num Mat RNum M_Audio M_Align M_Spectro M_Patch M_Nsim M_Selector M_Visqol Spec Spec2 T_Same P_Total3 P_Bands2.
Open Scope R_scope.

(** In exact arithmetic, for every comparison that returns a result: there are [nb]
    frequencies, the first is 50 Hz, they increase, and all are below half the sample rate
    (and 8000 Hz, for 21 bands).  They are equally spaced on the scale ln (f + q), where q
    is 9.26449 * 24.7, from 50 Hz to that limit (which is itself not reported). *)
Theorem C32_reported_frequencies : forall pf nb v ws (m m' : Manager RN) calls files a b (rs : AudioSignal RN) r,
  new_manager nb v ws = Ok m -> load_as_mono (files a) = Ok rs -> (102 <= sample_rate rs)%Z ->
  run pf nb files (after_calls pf nb m calls) a b = (m', Ok r) ->
  let rate := sample_rate rs in
  let upper := Rmin (IZR (if Nat.eqb nb 21 then 8000 else rate / 2)) (IZR rate / 2) in
  let q := 926449 / 100000 * (247 / 10) in
  let c := res_center_freq_bands r in
  List.length c = nb /\ nth 0 c 0 = 50 /\
  (forall i j, (i < j < nb)%nat -> nth i c 0 < nth j c 0) /\
  (forall i, (i < nb)%nat -> nth i c 0 < upper) /\
  (forall k, (k < nb)%nat -> ln (nth k c 0 + q) = ln (50 + q) + INR k / INR nb * (ln (upper + q) - ln (50 + q))).
Proof. exact C32_run. Qed.
Print Assumptions C32_reported_frequencies.

(** A second or so of a constant at 16 kHz, against itself. *)
Definition hum_len : nat := 320 * 60.
Definition hum_world (p : string) : wav := WavOk 1 16000 16 (map Some (repeat 1000%Z hum_len)).
Example C32_reported_example : forall pf calls, exists m, new_manager (N:=RN) 32 (Fullband (Some flat_model)) 60 = Ok m /\
  exists m' r, run pf 32 hum_world (after_calls pf 32 m calls) "ref.wav" "deg.wav" = (m', Ok r) /\
    nth 0 (res_center_freq_bands r) 0 = 50 /\ nth 31 (res_center_freq_bands r) 0 < 8000.
Proof.
  intros pf calls. eexists. split; [reflexivity|]. match goal with |- context [after_calls pf 32 ?x calls] => set (m := x) end.
  set (sg := {| data_matrix := map (fun z => IZR z / 32767) (repeat 1000%Z hum_len) : list (num RN); sample_rate := 16000 |} : AudioSignal RN).
  assert (LD : forall p, load_as_mono (N:=RN) (hum_world p) = Ok sg).
  { intros p. apply load_mono. apply Forall_forall. intros z Hz. apply repeat_spec in Hz. lia. }
  assert (SL : sig_len sg = 19200%Z) by (unfold sig_len, zlen, sg; cbn [data_matrix]; rewrite map_length, repeat_length; unfold hum_len; lia).
  destruct (C48_fullband_succeeds pf 32 flat_model 60 m calls hum_world "ref.wav" "deg.wav" sg sg 320) as (m' & r & H);
    rewrite ?SL; try apply LD; try reflexivity; try lia.
  { intros fv Hf. exists 3. unfold svr_predict. cbn [svr_features flat_model svr_value]. unfold zlen. rewrite Hf. reflexivity. }
  exists m', r. split; [exact H|].
  destruct (C32_reported_frequencies pf 32 (Fullband (Some flat_model)) 60 m m' calls hum_world "ref.wav" "deg.wav" sg r eq_refl (LD _) ltac:(cbn [sample_rate sg]; lia) H) as (_ & F & _ & U & _).
  split; [exact F|]. specialize (U 31%nat ltac:(lia)). cbn [sample_rate sg Nat.eqb] in U. eapply Rlt_le_trans; [exact U|]. eapply Rle_trans; [apply Rmin_r|]. lra.
Qed.
