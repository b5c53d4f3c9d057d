(** C15: the upper envelope. *)
From Coq Require Import Reals Lra Lia.
From Verif Require Import Base Num RNum M_Audio M_Align Spec3 P_R P_Score P_Audio P_Env.
Open Scope R_scope.

(** C15: the envelope of every non-empty signal, in closed form: twice the
    centred sample less its component in the middle bin of the transform (which
    is counted [2 - deficit] times instead of twice), less 1e-6, in absolute
    value, plus the mean. *)
Theorem C15_envelope : forall pf (x : list R),
  (1 <= zlen x <= 2 ^ 62)%Z ->
  exists p env, next_pow_two pf (zlen x) = Ok p /\
    calculate_upper_env (N:=RN) pf x = Ok (Some env) /\
    List.length env = List.length x /\
    let f := Z.max p 32 in
    forall i, (i < List.length x)%nat ->
      nth i env 0 = Rabs (2 * (centred x i - deficit f (zlen x) * middle_bin f x i) - 1 / 1000000) + mean_signal x.
Proof. exact C15_all. Qed.
Print Assumptions C15_envelope.

(** Three samples in a transform of 32 points. *)
Example C15_example : forall pf, (1 <= zlen [3; 0; 0] <= 2 ^ 62)%Z /\
  exists env, calculate_upper_env (N:=RN) pf [3; 0; 0] = Ok (Some env) /\ nth 0 env 0 = 39 / 8 - 1 / 1000000.
Proof.
  intros pf. split; [cbn; lia|].
  destruct (C15_envelope pf [3; 0; 0]) as (p & env & P & E & L & V); [cbn; lia|]. exists env. split; auto. cbv zeta in V.
  assert (p = 4)%Z by (destruct pf; vm_compute in P; congruence). subst p. change (Z.max 4 32) with 32%Z in V.
  specialize (V O ltac:(cbn; lia)). change (nth 0 env 0 = Rabs (2 * (centred [3; 0; 0] 0 - 1 * middle_bin 32 [3; 0; 0] 0) - 1 / 1000000) + mean_signal [3; 0; 0]) in V. rewrite V.
  assert (M : mean_signal [3; 0; 0] = 1) by (unfold mean_signal, Rsum; cbn; field).
  assert (B : middle_bin 32 [3; 0; 0] 0 = 1 / 16).
  { unfold middle_bin, centred. rewrite M. change (32 / 2)%Z with 16%Z. unfold Rsum. cbn [List.length seq map fold_right nth INR].
    replace (2 * PI * 16 * (0 - 0) / 32) with 0 by field. replace (2 * PI * 16 * (0 - 1) / 32) with (- PI) by field.
    replace (2 * PI * 16 * (0 - (1 + 1)) / 32) with (- (2 * PI)) by field. rewrite !cos_neg, cos_0, cos_PI, cos_2PI. field. }
  rewrite B, M. unfold centred. rewrite M. cbn [nth]. rewrite Rabs_pos_eq; lra.
Qed.

(** If the number of samples is a power of two (from 32 on), each value of the
    envelope depends on the sample at its own position and the mean only. *)
Theorem C15_pointwise : forall pf (x : list R) m, (5 <= m <= 62)%Z -> zlen x = (2 ^ m)%Z ->
  exists env, calculate_upper_env (N:=RN) pf x = Ok (Some env) /\ List.length env = List.length x /\
    forall i, (i < List.length x)%nat ->
      nth i env 0 = Rabs (2 * (nth i x 0 - mean_signal x) - 1 / 1000000) + mean_signal x.
Proof. exact C15_pow2. Qed.
Print Assumptions C15_pointwise.
Example C15_pointwise_example : (5 <= 5 <= 62)%Z /\ zlen (map INR (seq 0 32)) = (2 ^ 5)%Z.
Proof. split; [lia|reflexivity]. Qed.

(** So it is not the modulus of an analytic signal: a tone whose analytic signal
    has modulus 1 everywhere gets the values 1.999999 and 0.000001. *)
Theorem C15_hilbert_refuted : exists x z,
  List.length x = 32%nat /\ analytic z x /\ (forall i, (i < 32)%nat -> modulus (nth i z (0, 0)) = 1) /\
  forall pf, exists env, calculate_upper_env (N:=RN) pf x = Ok (Some env) /\
    nth 0 env 0 = 2 - 1 / 1000000 /\ nth 1 env 0 = 1 / 1000000.
Proof. exact C15_witness. Qed.
Print Assumptions C15_hilbert_refuted.
