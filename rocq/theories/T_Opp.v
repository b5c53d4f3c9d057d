(** C56, C70: stereo files whose channels cancel are silent. *)
From Flocq Require Import Core IEEE754.BinarySingleNaN.
From Verif Require Import Base Num F64 M_Audio M_Align M_Nsim M_Selector M_Visqol Spec Spec4 Spec10 Spec11 P_NsimF Witness P_Opp T_NsimF T_Silent T_SilRef.
Open Scope Z_scope.

(** C56: a stereo file whose right channel is the left one with its polarity changed
    loads as silence, bit for bit ... *)
Theorem C56_opposite_channels : forall lm rate (l : list Z), Forall (fun v => -32767 <= v <= 32767) l ->
  load_as_mono (N:=F64 lm) (WavOk 2 rate 16 (map Some (flat_map (fun v => [v; - v]) l))) =
  load_as_mono (N:=F64 lm) (WavOk 1 rate 16 (map Some (repeat 0 (List.length l)))).
Proof. exact opposite_load. Qed.
Print Assumptions C56_opposite_channels.

(** ... so as reference or as degraded file it is treated as a silent one. *)
Theorem C56_opposite_channels_run : forall lm pf nb (m : Manager (F64 lm)) files files' r d rate l,
  Forall (fun v => -32767 <= v <= 32767) l -> files' d = files d ->
  files r = WavOk 2 rate 16 (map Some (flat_map (fun v => [v; - v]) l)) ->
  files' r = WavOk 1 rate 16 (map Some (repeat 0 (List.length l))) ->
  run pf nb files m r d = run pf nb files' m r d /\ run pf nb files m d r = run pf nb files' m d r.
Proof. exact opposite_run. Qed.
Print Assumptions C56_opposite_channels_run.

(** C70: a reference of any sound in opposite polarities rates every recording it is
    compared with as a perfect copy. *)
Theorem C70_opposite_channels : forall lm pf nb v ws files (m m' : Manager (F64 lm)) calls a b r rate us vs,
  libm_limits lm -> log10_finite lm -> squares_sane lm -> filters_finite lm nb rate -> new_manager nb v ws = Ok m ->
  1 <= ws <= 2 ^ 20 -> Z.of_nat nb <= 2 ^ 53 -> 1 <= rate <= 2 ^ 20 ->
  files a = WavOk 2 rate 16 (map Some (flat_map (fun x => [x; - x]) us)) -> Forall (fun x => -32767 <= x <= 32767) us -> zlen us <= 2 ^ 30 ->
  files b = WavOk 1 rate 16 (map Some vs) -> Forall i16_range vs -> zlen vs <= 2 ^ 30 ->
  Exists (fun x => x <> 0) (skipn (List.length us / 2) vs) ->
  run pf nb files (after_calls pf nb m calls) a b = (m', Ok r) ->
  fvnsim r = repeat (f64_ofZ 1) nb /\ (vnsim r : f64) = f64_ofZ 1 /\
  predict_quality (mg_mapper m) (repeat (f64_ofZ 1) nb) = Ok (moslqo r).
Proof. exact opposite_ref. Qed.
Print Assumptions C70_opposite_channels.

(** Fifty-six frames of a loud sawtooth, inverted on the right, against noise. *)
Definition saw_us : list Z := map (fun k => Z.of_nat k * 1000 - 28000) (seq 0 56).
Definition saw_files (path : string) : wav :=
  if String.eqb path "ref.wav" then WavOk 2 50 16 (map Some (flat_map (fun x => [x; - x]) saw_us))
  else WavOk 1 50 16 (map Some mute_vs).
Example C70_opposite_example :
  Forall (fun x => -32767 <= x <= 32767) saw_us /\ nth 0 saw_us 0 = -28000 /\
  exists m' r, run Debug 1 saw_files (sil_manager 1) "ref.wav" "deg.wav" = (m', Ok r) /\
    List.length (patch_sims r) = 2%nat /\ (vnsim r : f64) = f64_ofZ 1.
Proof.
  assert (F : Forall (fun x => -32767 <= x <= 32767) saw_us).
  { apply Forall_forall. intros x Hx. apply in_map_iff in Hx as (k & <- & Hk). apply in_seq in Hk. lia. }
  split; [exact F|]. split; [reflexivity|].
  destruct C70_example as (_ & _ & _ & _ & _ & m' & r & E & L & V). exists m', r. split; [|split; [exact L|exact V]].
  rewrite <- E. exact (proj1 (C56_opposite_channels_run lm_sil Debug 1 (sil_manager 1) saw_files mute_files "ref.wav" "deg.wav" 50 saw_us F eq_refl eq_refl eq_refl)).
Qed.
