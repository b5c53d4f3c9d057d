(** C54: ranges and mutual consistency of the reported numbers. *)
From Coq Require Import Reals Lra.
From Verif Require Import Base Num RNum M_Audio M_Nsim M_Visqol Spec Spec2 Spec3 P_Range T_Same.
Open Scope R_scope.

(** In exact arithmetic, for every successful comparison: the score is in [1, 5];
    the overall similarity and those of the bands are in [-1, 1]; no deviation and no
    energy is negative. *)
Theorem C54_ranges : forall pf nb files (m m' : Manager RN) a b r,
  run pf nb files m a b = (m', Ok r) ->
  1 <= moslqo r <= 5 /\ -1 <= vnsim r <= 1 /\
  Forall (fun x => -1 <= x <= 1) (fvnsim r) /\
  Forall (fun x => 0 <= x) (fstdnsim r) /\
  Forall (fun x => 0 <= x) (fvdegenergy r).
Proof. intros pf nb files m m' a b r H. destruct (C54_all _ _ _ _ _ _ _ _ H) as (A & B & C & D & E & _). auto. Qed.
Print Assumptions C54_ranges.

(** The same for every reported patch; the similarity of a patch is the mean of its
    bands. *)
Theorem C54_patch_ranges : forall pf nb files (m m' : Manager RN) a b r p,
  run pf nb files m a b = (m', Ok r) -> In p (patch_sims r) ->
  List.length (freq_band_means p) = nb /\ List.length (freq_band_stddevs p) = nb /\
  List.length (freq_band_deg_energy p) = nb /\
  Forall (fun x => -1 <= x <= 1) (freq_band_means p) /\
  Forall (fun x => 0 <= x) (freq_band_stddevs p) /\
  Forall (fun x => 0 <= x) (freq_band_deg_energy p) /\
  -1 <= similarity p <= 1 /\ similarity p = mean_of (freq_band_means p).
Proof.
  intros pf nb files m m' a b r p H Hp. destruct (C54_all _ _ _ _ _ _ _ _ H) as (_ & _ & _ & _ & _ & F & _).
  rewrite Forall_forall in F. exact (F p Hp).
Qed.
Print Assumptions C54_patch_ranges.

(** The overall similarity is the mean of the similarities of the patches. *)
Theorem C54_overall_is_patch_mean : forall pf nb files (m m' : Manager RN) a b r,
  run pf nb files m a b = (m', Ok r) ->
  vnsim r = mean_of (map (similarity (N:=RN)) (patch_sims r)).
Proof. intros pf nb files m m' a b r H. destruct (C54_all _ _ _ _ _ _ _ _ H) as (_ & _ & _ & _ & _ & _ & F). exact F. Qed.
Print Assumptions C54_overall_is_patch_mean.

(** A run that meets the hypothesis, with a patch. *)
Example C54_example : forall pf calls, exists (m m' : Manager RN) (r : SimilarityResult RN) p,
  run pf 21 tone_world (after_calls pf 21 m calls) "ref.wav" "deg.wav" = (m', Ok r) /\ vnsim r = 1 /\
  In p (patch_sims r).
Proof.
  intros pf calls. destruct (C41_example pf calls) as (m & _ & m' & r & H & V & _).
  destruct (patch_sims r) as [|p l] eqn:E.
  - exfalso. pose proof (C54_overall_is_patch_mean _ _ _ _ _ _ _ _ H) as Q. rewrite V, E in Q. unfold mean_of in Q. cbn in Q. unfold Rsum in Q. cbn in Q. lra.
  - exists m, m', r, p. split; auto. split; auto. rewrite E. left. auto.
Qed.
