(** C56: what the loader does with more than one channel, in binary64. *)
From Coq Require Import Reals Lra Psatz.
From Flocq Require Import Core BinarySingleNaN Plus_error Relative.
From Verif Require Import Base Num M_Audio M_Visqol F64 RNum P_Base P_Mat P_F64 P_R P_Win Spec P_Audio P_Audio2.
Open Scope R_scope.

(** ** Finite values that are not minus zero are determined by their real value *)
Definition nz (x : f64) : Prop := is_finite x = true /\ (B2R x = 0 -> x = B754_zero false).
Lemma nz_eq x y : nz x -> nz y -> B2R x = B2R y -> x = y.
Proof.
  intros [Fx Zx] [Fy Zy] E. destruct (Req_dec (B2R x) 0) as [H|H].
  - rewrite (Zx H), (Zy (eq_trans (eq_sym E) H)). reflexivity.
  - assert (S : forall z : f64, is_finite z = true -> B2R z <> 0 -> is_finite_strict z = true)
      by (intros [| | |] Fz Nz; cbn in *; congruence).
    apply B2R_inj; auto. apply S; congruence.
Qed.
Lemma zero_sign (x : f64) : is_finite x = true -> B2R x = 0 -> Bsign x = false -> x = B754_zero false.
Proof.
  intros F E S. destruct x as [s| | |s m e b]; cbn in *; try discriminate; [congruence|].
  exfalso. apply eq_0_F2R in E. destruct s; discriminate.
Qed.
Lemma nz_plus x y : nz x -> nz y -> Rabs (rnd (B2R x + B2R y)) < big ->
  nz (Bplus mode_NE x y) /\ B2R (Bplus mode_NE x y) = rnd (B2R x + B2R y).
Proof.
  intros [Fx Zx] [Fy Zy] H. destruct (Bplus_fin x y Fx Fy H) as [F E]. split; auto. split; auto. intros Z0.
  apply zero_sign; auto.
  pose proof (Bplus_correct 53 1024 _ _ mode_NE x y Fx Fy) as C. cbn [round_mode] in C.
  fold big in C. rewrite Rlt_bool_true in C by auto. destruct C as (_ & _ & S). rewrite S. clear S.
  assert (E0 : B2R x + B2R y = 0).
  { rewrite E in Z0. destruct (Req_dec (B2R x + B2R y) 0) as [Q|Q]; auto. exfalso. revert Z0. unfold rnd.
    apply (round_plus_neq_0 radix2 fexp64 ZnearestE); auto; apply gf_B2R. }
  rewrite Rcompare_Eq by auto. cbn [Bsign].
  destruct (Req_dec (B2R x) 0) as [Q|Q].
  - rewrite (Zx Q). reflexivity.
  - destruct (Bsign x) eqn:Sx; [|reflexivity]. destruct (Bsign y) eqn:Sy; [|reflexivity]. exfalso.
    pose proof (proj2 (Bsign_B2R x Fx) Sx). pose proof (proj2 (Bsign_B2R y Fy) Sy). lra.
Qed.

(** ** Samples *)
Definition smp (v : Z) : f64 := Bdiv mode_NE (f64_ofZ v) (f64_ofZ 32767).
Lemma smp_nonzero v : (-32768 <= v <= 32767)%Z -> v <> 0%Z -> B2R (smp v) <> 0.
Proof.
  intros H N0. destruct (sample_fin v H) as [_ E]. unfold smp. rewrite E.
  assert (I : rnd (bpow radix2 (-15)) = bpow radix2 (-15)) by (apply rnd_id, generic_format_bpow; vm_compute; discriminate).
  assert (I' : rnd (- bpow radix2 (-15)) = - bpow radix2 (-15)) by (apply rnd_id, generic_format_opp, generic_format_bpow; vm_compute; discriminate).
  change (bpow radix2 (-15)) with (/ 32768) in *.
  assert (C : (v <= -1 \/ 1 <= v)%Z) by lia. destruct C as [C|C]; apply IZR_le in C.
  - pose proof (rnd_le (IZR v / 32767) (- / 32768) ltac:(lra)). lra.
  - pose proof (rnd_le (/ 32768) (IZR v / 32767) ltac:(lra)). lra.
Qed.
Lemma smp_nz v : (-32768 <= v <= 32767)%Z -> nz (smp v).
Proof.
  intros H. split; [apply sample_fin; auto|]. intros E. destruct (Z.eq_dec v 0) as [->|N0].
  - apply B2SF_inj. vm_compute. reflexivity.
  - exfalso. exact (smp_nonzero v H N0 E).
Qed.
Lemma plus0_nz x : nz x -> Bplus mode_NE (B754_zero false) x = x.
Proof.
  intros [F Z0]. destruct x as [[|]| | |s m e b]; try discriminate; try reflexivity.
  exact (eq_sym (Z0 eq_refl)).
Qed.
Lemma sum1 lm x : nz x -> (nd_sum (N:=F64 lm) [x] : f64) = x.
Proof.
  intros H. unfold nd_sum. cbn [List.length unroll8 fold_left].
  set (z := nadd (F64 lm) _ _) at 2. assert (E : z = B754_zero false) by (unfold z; apply B2SF_inj; vm_compute; reflexivity).
  rewrite E. exact (plus0_nz x H).
Qed.
Lemma sum2 lm x y : nz x -> (nd_sum (N:=F64 lm) [x; y] : f64) = Bplus mode_NE x y.
Proof.
  intros H. unfold nd_sum. cbn [List.length unroll8 fold_left].
  set (z := nadd (F64 lm) (nadd (F64 lm) (nadd (F64 lm) _ _) _) (nadd (F64 lm) (nofZ (F64 lm) 0) (nofZ (F64 lm) 0))).
  assert (E : z = B754_zero false) by (unfold z; apply B2SF_inj; vm_compute; reflexivity).
  rewrite E. exact (f_equal (fun a => Bplus mode_NE a y) (plus0_nz x H)).
Qed.
Lemma smp_sum_fin a b : (-32768 <= a <= 32767)%Z -> (-32768 <= b <= 32767)%Z -> Rabs (rnd (B2R (smp a) + B2R (smp b))) < big.
Proof.
  intros Ha Hb. apply (mix_round 2); [lia|]. destruct (sample_mix a Ha) as [_ A], (sample_mix b Hb) as [_ B].
  fold (smp a) in A. fold (smp b) in B. lra.
Qed.
Lemma smp_comm a b : (-32768 <= a <= 32767)%Z -> (-32768 <= b <= 32767)%Z ->
  Bplus mode_NE (smp a) (smp b) = Bplus mode_NE (smp b) (smp a).
Proof.
  intros Ha Hb. destruct (nz_plus _ _ (smp_nz a Ha) (smp_nz b Hb) (smp_sum_fin a b Ha Hb)) as [N1 E1].
  destruct (nz_plus _ _ (smp_nz b Hb) (smp_nz a Ha) (smp_sum_fin b a Hb Ha)) as [N2 E2].
  apply nz_eq; auto. rewrite E1, E2, Rplus_comm. reflexivity.
Qed.
Lemma B2R_double x : generic_format radix2 fexp64 (B2R x) -> generic_format radix2 fexp64 (2 * B2R (x : f64)).
Proof.
  intros H. destruct (Req_dec (B2R x) 0) as [->|N0]; [rewrite Rmult_0_r; apply generic_format_0|].
  unfold generic_format in H. rewrite H at 1. unfold F2R. cbn [Fnum Fexp].
  apply gf_FLT. exists (Float radix2 (Ztrunc (scaled_mantissa radix2 fexp64 (B2R x))) (Generic_fmt.cexp radix2 fexp64 (B2R x) + 1)).
  - unfold F2R. cbn [Fnum Fexp]. rewrite bpow_plus, bpow_1. change (IZR radix2) with 2. lra.
  - cbn [Fnum]. pose proof (FLT_format_generic radix2 (-1074) 53 (B2R x)).
    assert (G : Rabs (scaled_mantissa radix2 fexp64 (B2R x)) < bpow radix2 53).
    { pose proof (scaled_mantissa_lt_bpow radix2 fexp64 (B2R x)) as Q. eapply Rlt_le_trans; [exact Q|]. apply bpow_le.
      unfold Generic_fmt.cexp. rewrite fexp64_FLT. unfold FLT_exp. lia. }
    rewrite scaled_mantissa_generic in G by apply gf_B2R. rewrite <- abs_IZR in G.
    change (bpow radix2 53) with (IZR (2 ^ 53)) in G. apply lt_IZR in G. exact G.
  - cbn [Fexp]. unfold Generic_fmt.cexp. rewrite fexp64_FLT. unfold FLT_exp. lia.
Qed.
Lemma half_double v : (-32768 <= v <= 32767)%Z ->
  Bdiv mode_NE (Bplus mode_NE (smp v) (smp v)) (f64_ofZ 2) = Bdiv mode_NE (smp v) (f64_ofZ 1).
Proof.
  intros H. destruct (Z.eq_dec v 0) as [->|N0]; [apply B2SF_inj; vm_compute; reflexivity|].
  destruct (nz_plus _ _ (smp_nz v H) (smp_nz v H) (smp_sum_fin v v H H)) as [[F1 _] E1].
  assert (D : rnd (B2R (smp v) + B2R (smp v)) = 2 * B2R (smp v)).
  { replace (B2R (smp v) + B2R (smp v)) with (2 * B2R (smp v)) by lra. apply rnd_id, B2R_double, gf_B2R. }
  rewrite D in E1. pose proof (ofZ_fin 2 ltac:(lia)) as F2. pose proof (ofZ_B2R 2 ltac:(lia)) as E2.
  assert (Q : rnd (B2R (Bplus mode_NE (smp v) (smp v)) / B2R (f64_ofZ 2)) = B2R (smp v)).
  { rewrite E1, E2. replace (2 * B2R (smp v) / 2) with (B2R (smp v)) by lra. apply rnd_id, gf_B2R. }
  destruct (Bdiv_fin _ (f64_ofZ 2) F1 F2) as [F3 E3]; [rewrite E2; lra| |].
  { rewrite Q. pose proof (finite_lt_big (smp v)). apply Rabs_def1; lra. }
  rewrite Q in E3. destruct (Bdiv_1_fin (smp v) (proj1 (smp_nz v H))) as [F4 E4].
  apply nz_eq; [split|split|congruence]; auto; intros Z0; exfalso; apply (smp_nonzero v H N0); congruence.
Qed.

(** ** Whole files *)
Definition two (l : list (Z * Z)) : list Z := flat_map (fun p => [fst p; snd p]) l.
Lemma two_length l : List.length (two l) = (List.length l * 2)%nat.
Proof. unfold two. induction l as [|[a b] t IH]; cbn [flat_map app List.length] in *; lia. Qed.
Lemma two_frame l : forall i d, (i < List.length l)%nat ->
  firstn 2 (skipn (i * 2) (two l)) = [fst (nth i l d); snd (nth i l d)].
Proof.
  induction l as [|[a b] t IH]; intros [|i] d H; cbn [List.length] in H; try lia; [reflexivity|].
  cbn [Nat.mul Nat.add two flat_map app fst snd skipn nth]. apply IH. lia.
Qed.
Lemma two_i16 l : Forall (fun p => (-32768 <= fst p <= 32767)%Z /\ (-32768 <= snd p <= 32767)%Z) l ->
  Forall (fun v => -32768 <= v <= 32767)%Z (two l).
Proof. induction 1 as [|[a b] t [H1 H2] _ IH]; [constructor|]. cbn in *. auto. Qed.
Lemma nth_map_lt {A B} (g : A -> B) l d e i : (i < List.length l)%nat -> nth i (map g l) d = g (nth i l e).
Proof. intros H. rewrite (nth_indep _ d (g e)) by (rewrite map_length; auto). apply map_nth. Qed.
Lemma load_two lm rate l : Forall (fun p => (-32768 <= fst p <= 32767)%Z /\ (-32768 <= snd p <= 32767)%Z) l ->
  load_as_mono (N:=F64 lm) (WavOk 2 rate 16 (map Some (two l))) =
  Ok (@Build_AudioSignal (F64 lm) (map (fun p => Bdiv mode_NE (Bplus mode_NE (smp (fst p)) (smp (snd p))) (f64_ofZ 2)) l) rate).
Proof.
  intros F. change 2%Z with (Z.of_nat 2) at 1. rewrite (load_ok 2 rate (two l) (List.length l)) by (auto using two_i16, two_length; lia).
  do 2 f_equal. apply (nth_ext _ _ (f64_ofZ 0) (f64_ofZ 0)); [rewrite !map_length, seq_length; reflexivity|].
  intros i Hi. rewrite map_length, seq_length in Hi. rewrite nth_map_seq0 by auto.
  rewrite (two_frame l i (0, 0)%Z) by auto. cbn [map].
  rewrite Forall_forall in F. destruct (F (nth i l (0, 0)%Z) (nth_In _ _ Hi)) as [Ha Hb].
  etransitivity; [|symmetry; exact (nth_map_lt (fun p => Bdiv mode_NE (Bplus mode_NE (smp (fst p)) (smp (snd p))) (f64_ofZ 2)) l (f64_ofZ 0) (0, 0)%Z i Hi)].
  exact (f_equal (fun x => Bdiv mode_NE x (f64_ofZ 2)) (sum2 lm _ _ (smp_nz _ Ha))).
Qed.
Lemma load_one lm rate vs : Forall (fun v => -32768 <= v <= 32767)%Z vs ->
  load_as_mono (N:=F64 lm) (WavOk 1 rate 16 (map Some vs)) =
  Ok (@Build_AudioSignal (F64 lm) (map (fun v => Bdiv mode_NE (smp v) (f64_ofZ 1)) vs) rate).
Proof.
  intros F. change 1%Z with (Z.of_nat 1) at 1. rewrite (load_ok 1 rate vs (List.length vs)) by (auto; lia).
  do 2 f_equal. apply (nth_ext _ _ (f64_ofZ 0) (f64_ofZ 0)); [rewrite !map_length, seq_length; reflexivity|].
  intros i Hi. rewrite map_length, seq_length in Hi. rewrite nth_map_seq0 by auto.
  rewrite firstn1_skipn by auto. cbn [map].
  rewrite Forall_forall in F. pose proof (F (nth i vs 0%Z) (nth_In _ _ Hi)) as Ha.
  etransitivity; [|symmetry; exact (nth_map_lt (fun v => Bdiv mode_NE (smp v) (f64_ofZ 1)) vs (f64_ofZ 0) 0%Z i Hi)].
  exact (f_equal (fun x => Bdiv mode_NE x (f64_ofZ 1)) (sum1 lm _ (smp_nz _ Ha))).
Qed.
Lemma C56_swap_load lm rate l : Forall (fun p => (-32768 <= fst p <= 32767)%Z /\ (-32768 <= snd p <= 32767)%Z) l ->
  load_as_mono (N:=F64 lm) (WavOk 2 rate 16 (map Some (flat_map (fun p => [snd p; fst p]) l))) =
  load_as_mono (N:=F64 lm) (WavOk 2 rate 16 (map Some (flat_map (fun p => [fst p; snd p]) l))).
Proof.
  intros F. fold (two l). rewrite load_two by auto.
  replace (flat_map (fun p => [snd p; fst p]) l) with (two (map (fun p => (snd p, fst p)) l)).
  2:{ unfold two. rewrite flat_map_concat_map, map_map, <- flat_map_concat_map. reflexivity. }
  rewrite load_two. 2:{ apply Forall_map. eapply Forall_impl; [|exact F]. cbn. tauto. }
  rewrite map_map. do 2 f_equal. apply map_ext_in. intros p Hp. cbn [fst snd].
  rewrite Forall_forall in F. destruct (F p Hp). rewrite (smp_comm (snd p) (fst p)) by auto. reflexivity.
Qed.
Lemma C56_double_load lm rate vs : Forall (fun v => -32768 <= v <= 32767)%Z vs ->
  load_as_mono (N:=F64 lm) (WavOk 2 rate 16 (map Some (flat_map (fun v => [v; v]) vs))) =
  load_as_mono (N:=F64 lm) (WavOk 1 rate 16 (map Some vs)).
Proof.
  intros F. replace (flat_map (fun v => [v; v]) vs) with (two (map (fun v => (v, v)) vs)).
  2:{ unfold two. rewrite flat_map_concat_map, map_map, <- flat_map_concat_map. reflexivity. }
  rewrite load_two. 2:{ apply Forall_map. eapply Forall_impl; [|exact F]. cbn. tauto. }
  rewrite load_one by auto. rewrite map_map. do 2 f_equal. apply map_ext_in. intros v Hv. cbn [fst snd].
  rewrite Forall_forall in F. apply half_double; auto.
Qed.

(** ** Accuracy for any number of channels *)
Section Rel.
Context (N1 N2 : NumOps) (P : Z -> num N1 -> num N2 -> Prop) (M : Z).
Hypothesis HP : forall j k x y x' y', (0 <= j)%Z -> (0 <= k)%Z -> (j + k <= M)%Z -> P j x x' -> P k y y' -> P (j + k) (nadd N1 x y) (nadd N2 x' y').
Lemma fold_rel l l' : Forall2 (P 1) l l' -> forall j a a', (0 <= j)%Z -> P j a a' -> (j + zlen l <= M)%Z ->
  P (j + zlen l) (fold_left (nadd N1) l a) (fold_left (nadd N2) l' a').
Proof.
  induction 1 as [|x x' t t' Hx F IH]; intros j a a' Hj Ha HM; cbn [fold_left].
  - rewrite zlen_nil, Z.add_0_r. auto.
  - rewrite zlen_cons in *. pose proof (zlen_nonneg t).
    replace (j + (zlen t + 1))%Z with ((j + 1) + zlen t)%Z by lia. apply IH; try lia; auto. apply HP; auto; lia.
Qed.
Lemma unroll_rel : forall fuel l l' p0 p1 p2 p3 p4 p5 p6 p7 p0' p1' p2' p3' p4' p5' p6' p7' n, (0 <= n)%Z ->
  P n p0 p0' -> P n p1 p1' -> P n p2 p2' -> P n p3 p3' -> P n p4 p4' -> P n p5 p5' -> P n p6 p6' -> P n p7 p7' ->
  Forall2 (P 1) l l' -> (8 * n + zlen l <= M)%Z ->
  exists m q0 q1 q2 q3 q4 q5 q6 q7 r q0' q1' q2' q3' q4' q5' q6' q7' r',
    unroll8 fuel (p0,p1,p2,p3,p4,p5,p6,p7) l = ((q0,q1,q2,q3,q4,q5,q6,q7), r) /\
    unroll8 fuel (p0',p1',p2',p3',p4',p5',p6',p7') l' = ((q0',q1',q2',q3',q4',q5',q6',q7'), r') /\
    (0 <= m)%Z /\ P m q0 q0' /\ P m q1 q1' /\ P m q2 q2' /\ P m q3 q3' /\ P m q4 q4' /\ P m q5 q5' /\ P m q6 q6' /\ P m q7 q7' /\
    Forall2 (P 1) r r' /\ (8 * m + zlen r = 8 * n + zlen l)%Z.
Proof.
  induction fuel as [|f IH]; intros l l' p0 p1 p2 p3 p4 p5 p6 p7 p0' p1' p2' p3' p4' p5' p6' p7' n Hn H0 H1 H2 H3 H4 H5 H6 H7 F HM.
  - exists n. do 18 eexists. split; [reflexivity|]. split; [reflexivity|]. repeat (split; [assumption|]). reflexivity.
  - cbn [unroll8].
    do 8 (destruct F as [|? ? ? ? ? F];
      [exists n; do 18 eexists; split; [reflexivity|]; split; [reflexivity|]; repeat (split; [solve [assumption | repeat constructor; assumption]|]); reflexivity|]).
    rewrite !zlen_cons in HM. rewrite !zlen_cons.
    match goal with F : Forall2 _ ?t ?t' |- _ => pose proof (zlen_nonneg t);
      match goal with |- context [unroll8 f (?a0,?a1,?a2,?a3,?a4,?a5,?a6,?a7) t] =>
      match goal with |- context [unroll8 f (?b0,?b1,?b2,?b3,?b4,?b5,?b6,?b7) t'] =>
      destruct (IH t t' a0 a1 a2 a3 a4 a5 a6 a7 b0 b1 b2 b3 b4 b5 b6 b7 (n + 1)%Z)
      as (m & q0 & q1 & q2 & q3 & q4 & q5 & q6 & q7 & r & q0' & q1' & q2' & q3' & q4' & q5' & q6' & q7' & r' & E & E' & Q) end end end;
      try (apply HP; auto; lia); try lia; auto.
    exists m, q0, q1, q2, q3, q4, q5, q6, q7, r, q0', q1', q2', q3', q4', q5', q6', q7', r'.
    split; [exact E|]. split; [exact E'|]. decompose [and] Q. repeat (split; [assumption|]). lia.
Qed.
Lemma nd_sum_rel l l' : P 0 (nofZ N1 0) (nofZ N2 0) -> Forall2 (P 1) l l' -> (zlen l <= M)%Z -> P (zlen l) (nd_sum l) (nd_sum l').
Proof.
  intros HZ F HM. assert (L : List.length l = List.length l') by (clear - F; induction F; cbn [List.length]; congruence). unfold nd_sum. rewrite <- L.
  destruct (unroll_rel (List.length l) l l' (nofZ N1 0) (nofZ N1 0) (nofZ N1 0) (nofZ N1 0) (nofZ N1 0) (nofZ N1 0) (nofZ N1 0) (nofZ N1 0)
    (nofZ N2 0) (nofZ N2 0) (nofZ N2 0) (nofZ N2 0) (nofZ N2 0) (nofZ N2 0) (nofZ N2 0) (nofZ N2 0) 0)
    as (m & q0 & q1 & q2 & q3 & q4 & q5 & q6 & q7 & r & q0' & q1' & q2' & q3' & q4' & q5' & q6' & q7' & r' & E & E' & Q); try assumption; try lia.
  rewrite E, E'. decompose [and] Q. clear Q E E'. pose proof (zlen_nonneg r).
  replace (zlen l) with ((0 + (m + m) + (m + m) + (m + m) + (m + m)) + zlen r)%Z by lia.
  apply fold_rel; auto; try lia.
  repeat (apply HP; try lia); auto.
Qed.
End Rel.

Definition C14 : R := 1 + bpow radix2 (-14).
Definition u53 : R := bpow radix2 (-53).
Definition acc (k : Z) (x : f64) (r : R) : Prop :=
  mixb k x /\ ((k = 0)%Z -> B2R x = 0 /\ r = 0) /\ Rabs (B2R x - r) <= IZR (k * k) * (C14 * u53).
Lemma C14_pos : 1 <= C14. Proof. unfold C14. pose proof (bpow_ge_0 radix2 (-14)). lra. Qed.
Lemma u53_pos : 0 < u53. Proof. apply bpow_gt_0. Qed.
Lemma rel_err x : x = 0 \/ / 32768 <= Rabs x -> Rabs (rnd x - x) <= u53 * Rabs x.
Proof.
  intros [->|H]; [rewrite rnd_id by apply generic_format_0; unfold Rminus; rewrite Rplus_opp_r, Rabs_R0; lra|].
  pose proof (relative_error_N_FLT radix2 (-1074) 53 ltac:(lia) (fun n => negb (Z.even n)) x) as E.
  unfold u53. replace (bpow radix2 (-53)) with (/ 2 * bpow radix2 (-53 + 1)) by (rewrite bpow_plus, bpow_1; change (IZR radix2) with 2; lra).
  apply E. apply Rle_trans with (bpow radix2 (-15)); [apply bpow_le; lia|]. change (bpow radix2 (-15)) with (/ 32768). auto.
Qed.
Lemma plus_err (x y : f64) : Rabs (rnd (B2R x + B2R y) - (B2R x + B2R y)) <= u53 * Rabs (B2R x + B2R y).
Proof.
  destruct (FLT_plus_error_N_ex radix2 (-1074) 53 (fun n => negb (Z.even n)) (B2R x) (B2R y) (gf_B2R x) (gf_B2R y)) as (eps & He & E).
  assert (He' : Rabs eps <= u53).
  { assert (U : Relative.u_ro radix2 53 = u53) by (change (u_ro radix2 53) with (/ 2 * bpow radix2 (-53 + 1)); rewrite bpow_plus, bpow_1; change (IZR radix2) with 2; unfold u53; lra).
    rewrite U in He. eapply Rle_trans; [exact He|]. pose proof u53_pos.
    apply (Rmult_le_reg_r (1 + u53)); [lra|]. unfold Rdiv. rewrite Rmult_assoc, Rinv_l by lra. nra. }
  change (rnd (B2R x + B2R y)) with (round radix2 (FLT_exp (-1074) 53) (Znearest (fun n => negb (Z.even n))) (B2R x + B2R y)).
  rewrite E. replace ((B2R x + B2R y) * (1 + eps) - (B2R x + B2R y)) with (eps * (B2R x + B2R y)) by ring.
  rewrite Rabs_mult. apply Rmult_le_compat_r; auto. apply Rabs_pos.
Qed.
Lemma mixb_abs k x : (0 <= k)%Z -> mixb k x -> Rabs (B2R x) <= IZR k * C14.
Proof.
  intros Hk [_ [H1 H2]]. apply IZR_le in Hk. fold C14 in H1. pose proof C14_pos. apply Rabs_le. split; nra.
Qed.
Lemma acc_add j k x y r q : (0 <= j)%Z -> (0 <= k)%Z -> (j + k <= 65535)%Z -> acc j x r -> acc k y q ->
  acc (j + k) (Bplus mode_NE x y) (r + q).
Proof.
  intros Hj Hk H (Mx & Zx & Ex) (My & Zy & Ey). pose proof (mix_add j k x y Hj Hk H Mx My) as M.
  destruct (mix_round (j + k) (B2R x + B2R y)) as [_ B]; [lia|destruct Mx as [_ Bx], My as [_ By]; rewrite plus_IZR; lra|].
  destruct (Bplus_fin x y (proj1 Mx) (proj1 My) B) as [F E].
  pose proof C14_pos as PC. pose proof u53_pos as PU. assert (PP : 0 <= C14 * u53) by nra.
  split; auto. destruct (Z.eq_dec j 0) as [J0|J0]; [|destruct (Z.eq_dec k 0) as [K0|K0]].
  - destruct (Zx J0) as [X0 R0]. subst j. rewrite E, X0, R0, !Rplus_0_l, Z.add_0_l. rewrite rnd_id by apply gf_B2R. auto.
  - destruct (Zy K0) as [Y0 Q0]. subst k. rewrite E, Y0, Q0, !Rplus_0_r, Z.add_0_r. rewrite rnd_id by apply gf_B2R. auto.
  - split; [intros; lia|]. rewrite E.
    replace (rnd (B2R x + B2R y) - (r + q)) with ((rnd (B2R x + B2R y) - (B2R x + B2R y)) + ((B2R x - r) + (B2R y - q))) by ring.
    eapply Rle_trans; [apply Rabs_triang|]. pose proof (plus_err x y) as PE.
    pose proof (Rabs_triang (B2R x - r) (B2R y - q)). pose proof (Rabs_triang (B2R x) (B2R y)).
    pose proof (mixb_abs j x Hj Mx) as Ax. pose proof (mixb_abs k y Hk My) as Ay.
    assert (S : u53 * Rabs (B2R x + B2R y) <= IZR (j + k) * (C14 * u53)).
    { rewrite plus_IZR. apply Rle_trans with (u53 * (IZR j * C14 + IZR k * C14)); [apply Rmult_le_compat_l; lra|]. lra. }
    assert (I : (j * j + k * k + (j + k) <= (j + k) * (j + k))%Z) by nia. apply IZR_le in I. rewrite !plus_IZR in *. 
    assert (IZR (j * j) * (C14 * u53) + IZR (k * k) * (C14 * u53) + (IZR j + IZR k) * (C14 * u53) <= IZR ((j + k) * (j + k)) * (C14 * u53)) by nra.
    lra.
Qed.
Lemma acc_sample v : (-32768 <= v <= 32767)%Z -> acc 1 (smp v) (IZR v / 32767).
Proof.
  intros H. split; [apply sample_mix; auto|]. split; [discriminate|]. destruct (sample_fin v H) as [_ E]. unfold smp. rewrite E.
  assert (B : Rabs (IZR v / 32767) <= C14).
  { unfold C14. change (bpow radix2 (-14)) with (/ 16384). assert (-32768 <= IZR v <= 32767) by (split; apply IZR_le; lia). apply Rabs_le. lra. }
  eapply Rle_trans; [apply rel_err|].
  - destruct (Z.eq_dec v 0) as [->|N0]; [left; lra|right].
    assert (C : (v <= -1 \/ 1 <= v)%Z) by lia. destruct C as [C|C]; apply IZR_le in C; [rewrite Rabs_left|rewrite Rabs_right]; lra.
  - pose proof u53_pos. change (1 * 1)%Z with 1%Z. nra.
Qed.
Lemma C56_accuracy_all lm c rate vs n (s : AudioSignal (F64 lm)) i : (1 <= Z.of_nat c <= 65535)%Z -> List.length vs = (n * c)%nat ->
  Forall (fun v => -32768 <= v <= 32767)%Z vs ->
  load_as_mono (N:=F64 lm) (WavOk (Z.of_nat c) rate 16 (map Some vs)) = Ok s -> (i < n)%nat ->
  exists x : f64, nth_error (data_matrix s) i = Some x /\ is_finite x = true /\
    Rabs (B2R x - Rsum (map (fun j => IZR (nth (i * c + j) vs 0%Z) / 32767) (seq 0 c)) / INR c) <= (INR c + 2) * bpow radix2 (-52).
Proof.
  intros Hc L F H Hi. destruct (load_nth c rate vs n s ltac:(lia) L F H) as (_ & _ & E1). clear H.
  set (fr := map (fun v => ndiv (F64 lm) (nofZ (F64 lm) v) (nofZ (F64 lm) 32767)) (firstn c (skipn (i * c) vs))).
  exists (Bdiv mode_NE (nd_sum fr : f64) (f64_ofZ (Z.of_nat c))). split; [exact (E1 i Hi)|]. clear E1.
  set (ex := map (fun v => IZR v / 32767) (firstn c (skipn (i * c) vs))).
  assert (LF : zlen fr = Z.of_nat c).
  { unfold zlen, fr. rewrite map_length, firstn_length, skipn_length, L. nia. }
  assert (A : acc (Z.of_nat c) (nd_sum fr) (nd_sum (N:=RN) ex)).
  { rewrite <- LF. apply (nd_sum_rel (F64 lm) RN acc 65535).
    - intros. apply acc_add; auto.
    - split; [|split; [intros _|]].
      + split; [reflexivity|]. change (B2R (nofZ (F64 lm) 0)) with (B2R (f64_ofZ 0)). rewrite ofZ_B2R by lia. change (bpow radix2 (-14)) with (/ 16384). lra.
      + split; [change (B2R (f64_ofZ 0) = 0); rewrite ofZ_B2R by lia; reflexivity|reflexivity].
      + change (Rabs (B2R (f64_ofZ 0) - 0) <= IZR (0 * 0) * (C14 * u53)). rewrite ofZ_B2R by lia. rewrite Rminus_0_r, Rabs_R0. change (0 * 0)%Z with 0%Z. lra.
    - unfold fr, ex. assert (F' : Forall (fun v => -32768 <= v <= 32767)%Z (firstn c (skipn (i * c) vs))).
      { rewrite Forall_forall in *. intros v Hv. apply F. apply In_firstn in Hv. apply In_skipn in Hv. auto. }
      clear - F'. induction F' as [|v t Hv _ IH]; cbn [map]; constructor; auto. apply acc_sample; auto.
    - rewrite LF. lia. }
  rewrite R_nd_sum in A.
  assert (EX : ex = map (fun j => IZR (nth (i * c + j) vs 0%Z) / 32767) (seq 0 c)).
  { unfold ex. assert (E : firstn c (skipn (i * c) vs) = map (fun j => nth (i * c + j) vs 0%Z) (seq 0 c)).
    { apply (nth_ext _ _ 0%Z 0%Z).
      - rewrite map_length, seq_length, firstn_length, skipn_length, L. nia.
      - intros k Hk. rewrite firstn_length, skipn_length, L in Hk. rewrite nth_firstn_lt by lia. rewrite nth_skipn, nth_map_seq0 by lia. reflexivity. }
    rewrite E, map_map. reflexivity. }
  rewrite <- EX. clear EX. destruct A as (M & _ & A). set (r := Rsum ex) in *. set (sm := nd_sum fr : f64) in *.
  pose proof (ofZ_fin (Z.of_nat c) ltac:(lia)) as Fc. pose proof (ofZ_B2R (Z.of_nat c) ltac:(lia)) as Ec.
  assert (P : 1 <= IZR (Z.of_nat c)) by (apply IZR_le; lia). rewrite INR_IZR_INZ. set (cc := IZR (Z.of_nat c)) in *.
  assert (Bq : Rabs (B2R sm / cc) <= C14).
  { unfold Rdiv. rewrite Rabs_mult, (Rabs_right (/ cc)) by (apply Rle_ge, Rlt_le, Rinv_0_lt_compat; lra).
    pose proof (mixb_abs (Z.of_nat c) _ ltac:(lia) M) as Q. fold cc in Q. apply (Rmult_le_reg_r cc); [lra|]. rewrite Rmult_assoc, Rinv_l by lra. lra. }
  assert (C2 : C14 <= bpow radix2 1) by (unfold C14; change (bpow radix2 (-14)) with (/ 16384); change (bpow radix2 1) with 2; lra).
  destruct (Bdiv_fin sm (f64_ofZ (Z.of_nat c)) (proj1 M) Fc) as [F' E'].
  - rewrite Ec. fold cc. lra.
  - rewrite Ec. fold cc. apply small_lt_big. eapply Rle_trans; [exact Bq|]. eapply Rle_trans; [exact C2|]. apply bpow_le. lia.
  - split; auto. rewrite E', Ec. fold cc.
    replace (rnd (B2R sm / cc) - r / cc) with ((rnd (B2R sm / cc) - B2R sm / cc) + (B2R sm - r) / cc) by (field; lra).
    eapply Rle_trans; [apply Rabs_triang|].
    pose proof (rnd_err (B2R sm / cc) 1 ltac:(lia) ltac:(lra)) as R1. change (1 - 53)%Z with (-52)%Z in R1.
    assert (R2 : Rabs ((B2R sm - r) / cc) <= cc * (C14 * u53)).
    { unfold Rdiv. rewrite Rabs_mult, (Rabs_right (/ cc)) by (apply Rle_ge, Rlt_le, Rinv_0_lt_compat; lra).
      rewrite mult_IZR in A. fold cc in A. apply (Rmult_le_reg_r cc); [lra|]. rewrite Rmult_assoc, Rinv_l by lra. lra. }
    assert (U : bpow radix2 (-52) = 2 * u53) by (unfold u53; change (-52)%Z with (1 + (-53))%Z; rewrite bpow_plus; reflexivity).
    rewrite U in *. change (bpow radix2 1) with 2 in C2. pose proof u53_pos.
    assert (cc * (C14 * u53) <= cc * (2 * u53)) by (apply Rmult_le_compat_l; [lra|]; apply Rmult_le_compat_r; lra). lra.
Qed.

(** ** Three channels *)
Definition probe {lm} (r : res (AudioSignal (F64 lm))) : option SpecFloat.spec_float :=
  match r with Ok s => match data_matrix s with [x] => Some (B2SF (x : f64)) | _ => None end | _ => None end.
Lemma C56_order3 : exists a b c, (0 <= a <= 200 /\ 0 <= b <= 200 /\ 0 <= c <= 200)%Z /\
  forall lm rate, load_as_mono (N:=F64 lm) (WavOk 3 rate 16 (map Some [a; b; c])) <>
                  load_as_mono (N:=F64 lm) (WavOk 3 rate 16 (map Some [c; b; a])).
Proof.
  exists 1%Z, 128%Z, 129%Z. split; [lia|]. intros lm rate H. apply (f_equal probe) in H. revert H. vm_compute. discriminate.
Qed.
Lemma C56_same3 : exists a, (0 <= a <= 200)%Z /\
  forall lm rate, load_as_mono (N:=F64 lm) (WavOk 3 rate 16 (map Some [a; a; a])) <>
                  load_as_mono (N:=F64 lm) (WavOk 1 rate 16 (map Some [a])).
Proof.
  exists 87%Z. split; [lia|]. intros lm rate H. apply (f_equal probe) in H. revert H. vm_compute. discriminate.
Qed.

(** ** Whole runs only see what is loaded *)
Lemma run_loads (N : NumOps) pf nb (m : Manager N) files files' r d :
  load_as_mono (N:=N) (files r) = load_as_mono (files' r) -> load_as_mono (N:=N) (files d) = load_as_mono (files' d) ->
  run pf nb files m r d = run pf nb files' m r d.
Proof. intros H1 H2. unfold run. rewrite H1, H2. reflexivity. Qed.

(** ** C57 *)
Lemma run_ok_loads (N : NumOps) pf nb (m : Manager N) files r d rs ds :
  load_as_mono (files r) = Ok rs -> load_as_mono (files d) = Ok ds ->
  run pf nb files m r d =
  if (sample_rate rs =? sample_rate ds)%Z then compute_results pf nb m rs ds
  else (m, Err (DifferentSampleRates (sample_rate rs) (sample_rate ds))).
Proof.
  intros H1 H2. unfold run. rewrite H1, H2. unfold validate_input_audio. destruct (sample_rate rs =? sample_rate ds)%Z; reflexivity.
Qed.
