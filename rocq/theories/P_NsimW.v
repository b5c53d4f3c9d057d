(** Concrete patches for C53. *)
From Coq Require Import Reals Lra.
From Flocq Require Import Core IEEE754.BinarySingleNaN.
From Verif Require Import Base Num Mat F64 M_Audio M_Nsim.
From Verif Require Import Spec Spec4 Witness P_Base P_Mat P_F64 P_NsimF.
Open Scope R_scope.

Notation M := (F64 lm_ex).
Definition iz (z : Z) : f64 := f64_ofZ z.
(** 3.0 everywhere *)
Definition threes : mat M := {| mrows := 2; mcols := 2; mdata := ([[iz 3; iz 3]; [iz 3; iz 3]] : list (list (num M))) |}.
(** 92 dB with a ripple of 2^-18 dB, and 92 dB with a ripple of 64 dB *)
Definition bump : f64 := Bdiv mode_NE (iz (92 * 2 ^ 18 + 1)) (iz (2 ^ 18)).
Definition faint : mat M := {| mrows := 2; mcols := 2; mdata := ([[bump; iz 92]; [iz 92; bump]] : list (list (num M))) |}.
Definition strong : mat M := {| mrows := 2; mcols := 2; mdata := ([[iz 124; iz 60]; [iz 60; iz 124]] : list (list (num M))) |}.

Lemma within_dec lo hi x (zl zh : Z) : is_finite x = true -> lo = IZR zl -> hi = IZR zh -> (Z.abs zl <= 2 ^ 53)%Z -> (Z.abs zh <= 2 ^ 53)%Z ->
  Bleb (f64_ofZ zl) x = true -> Bleb x (f64_ofZ zh) = true -> within lo hi x.
Proof.
  intros F -> -> Hl Hh L H. split; auto. apply Bleb_true in L as (_ & _ & L). apply Bleb_true in H as (_ & _ & H).
  rewrite ofZ_ext, ext_finite in L by auto. rewrite ofZ_ext, ext_finite in H by auto. lra.
Qed.
Ltac rows := repeat (first [apply Forall_nil | apply Forall_cons]).
Ltac in_range := rows; (apply (within_dec _ _ _ (-128) 128); [vm_compute; reflexivity|lra|lra|lia|lia|vm_compute; reflexivity|vm_compute; reflexivity]).
Lemma sane_ex : squares_sane lm_ex.
Proof.
  assert (G : forall x m e lo, B2SF x = SpecFloat.S754_finite false m e -> lo <= F2R (Float radix2 (Z.pos m) e) <= 1 -> within lo 1 x).
  { intros x m e lo E B. destruct (B2R_SF x m e E) as [F V]. split; auto. rewrite V. exact B. }
  split.
  - eapply G; [vm_compute; reflexivity|]. unfold F2R. cbn [Fnum Fexp bpow]. cbv [Z.pow_pos Pos.iter radix2 radix_val Z.mul Pos.mul]. lra.
  - eapply G; [vm_compute; reflexivity|]. unfold F2R. cbn [Fnum Fexp bpow]. cbv [Z.pow_pos Pos.iter radix2 radix_val Z.mul Pos.mul]. lra.
Qed.
Lemma threes_run : match measure_patch_similarity threes threes with Ok p => Bltb (similarity p) (iz 1) = true /\ is_finite (similarity p : f64) = true | _ => False end.
Proof. vm_compute. auto. Qed.
Lemma faint_run : match measure_patch_similarity faint strong with Ok p => Bltb (f64_lit 105 2) (similarity p) = true /\ is_finite (similarity p : f64) = true | _ => False end.
Proof. vm_compute. auto. Qed.

Lemma C53_identical_one_refuted_l : exists lm (r : mat (F64 lm)) p,
  squares_sane lm /\ mat_wf r /\ mrows r = 2%nat /\ mcols r = 2%nat /\ Forall (Forall (fun x : f64 => B2R x = 3)) (mdata r) /\
  measure_patch_similarity r r = Ok p /\ B2R (similarity p : f64) < 1.
Proof.
  pose proof threes_run as H. destruct (measure_patch_similarity threes threes) as [p| |] eqn:E; try contradiction.
  exists lm_ex, threes, p. split; [apply sane_ex|]. split; [split; [reflexivity|repeat constructor]|]. split; [reflexivity|]. split; [reflexivity|].
  split; [repeat constructor; apply (ofZ_B2R 3); lia|]. split; [exact E|].
  destruct H as [H F]. apply Bltb_true in H as (_ & _ & H). rewrite ext_finite in H by exact F. unfold iz in H. rewrite ofZ_ext in H by lia. exact H.
Qed.
Lemma C53_at_most_one_refuted_l : exists lm (r d : mat (F64 lm)) p,
  squares_sane lm /\ mat_wf r /\ mat_wf d /\ mrows r = 2%nat /\ mcols r = 2%nat /\ mrows d = 2%nat /\ mcols d = 2%nat /\
  Forall (Forall (within 0 128)) (mdata r) /\ Forall (Forall (within 0 128)) (mdata d) /\
  measure_patch_similarity r d = Ok p /\ B2R (similarity p : f64) > 1.
Proof.
  pose proof faint_run as H. destruct (measure_patch_similarity faint strong) as [p| |] eqn:E; try contradiction.
  exists lm_ex, faint, strong, p. split; [apply sane_ex|]. do 2 (split; [split; [reflexivity|repeat constructor]|]). do 4 (split; [reflexivity|]).
  split; [rows; (apply (within_dec _ _ _ 0 128); [vm_compute; reflexivity|lra|lra|lia|lia|vm_compute; reflexivity|vm_compute; reflexivity])|].
  split; [rows; (apply (within_dec _ _ _ 0 128); [vm_compute; reflexivity|lra|lra|lia|lia|vm_compute; reflexivity|vm_compute; reflexivity])|].
  split; [exact E|].
  destruct H as [H F]. apply Bltb_true in H as (_ & _ & H). rewrite (ext_finite (similarity p)) in H by exact F.
  assert (L : ext (f64_lit 105 2) >= 1).
  { assert (B : Bleb (f64_ofZ 1) (f64_lit 105 2) = true) by (vm_compute; reflexivity).
    apply Bleb_true in B as (_ & _ & B). rewrite ofZ_ext in B by lia. lra. }
  lra.
Qed.
