(** Proofs about voice activity detection and the wideband patch creator (C19-C22). *)
From Coq Require Import Reals Lra Sorted.
From Flocq Require Import Core IEEE754.BinarySingleNaN.
From Verif Require Import Base Num Mat F64 M_Audio M_Align M_Spectro M_Patch M_Nsim M_Selector M_Visqol.
From Verif Require Import P_Base P_Mat P_Manager P_F64 P_Patch P_Spectro Spec.
Open Scope R_scope.

(** ** The RMS decision *)
Lemma fold_squares c : forall a, fold_left (fun acc e => (acc + e * e)%Z) c a = (a + sum_squares c)%Z.
Proof.
  unfold sum_squares. induction c as [|e c IH]; intros a; cbn [fold_left fold_right].
  - lia.
  - rewrite IH. lia.
Qed.
Lemma rms_spec lm (c : list Z) :
  nltb (F64 lm) (calc_root_mean_square (N:=F64 lm) c) RMS_THRESHOLD = true <-> rms_below c.
Proof.
  unfold calc_root_mean_square, RMS_THRESHOLD, rms_below. rewrite fold_squares. reflexivity.
Qed.
Lemma squares_bound c : Forall i16_range c -> (0 <= sum_squares c <= 1073741824 * zlen c)%Z.
Proof.
  unfold sum_squares. induction 1 as [|e c H F IH]; cbn [fold_right].
  - unfold zlen; simpl; lia.
  - rewrite zlen_cons. unfold i16_range in H. nia.
Qed.
Lemma Bsqrt_fin (x : f64) : is_finite x = true -> 0 <= B2R x ->
  is_finite (Bsqrt mode_NE x) = true /\ B2R (Bsqrt mode_NE x) = rnd (sqrt (B2R x)).
Proof.
  intros F H. destruct (Bsqrt_correct 53 1024 _ _ mode_NE x) as (A & B & _).
  split; auto. rewrite B. destruct x as [s|s| |s m e He]; try discriminate; auto.
  destruct s; auto. exfalso. simpl in H.
  assert (F2R (Float radix2 (Z.neg m) e) < 0) by (apply F2R_lt_0; reflexivity). lra.
Qed.
Lemma format_25M : generic_format radix2 fexp64 (25000000 - / 1048576).
Proof.
  apply (generic_format_FLT radix2 (-1074) 53). exists (Float radix2 (25000000 * 1048576 - 1) (-20)).
  - unfold F2R. cbn [Fnum Fexp]. change (bpow radix2 (-20)) with (/ 1048576).
    rewrite minus_IZR, mult_IZR. field.
  - simpl; lia.
  - simpl; lia.
Qed.
Lemma format_5000 : generic_format radix2 fexp64 (5000 - / 1099511627776).
Proof.
  apply (generic_format_FLT radix2 (-1074) 53). exists (Float radix2 (5000 * 1099511627776 - 1) (-40)).
  - unfold F2R. cbn [Fnum Fexp]. change (bpow radix2 (-40)) with (/ 1099511627776).
    rewrite minus_IZR, mult_IZR. field.
  - simpl; lia.
  - simpl; lia.
Qed.

Lemma C20_exact c : Forall i16_range c -> (1 <= zlen c <= 2 ^ 20)%Z -> rms_below c <-> quiet c.
Proof.
  intros HF HL. pose proof (squares_bound c HF) as HS. unfold rms_below, quiet.
  set (S := sum_squares c) in *. set (n := zlen c) in *. clearbody S n. clear HF c.
  destruct (ofZ_exact S) as [FS ES]; [lia|]. destruct (ofZ_exact n) as [Fn En]; [lia|].
  destruct (ofZ_exact 5000) as [F5 E5]; [lia|].
  assert (Pn : 1 <= IZR n) by (apply IZR_le; lia).
  assert (PS : 0 <= IZR S) by (apply IZR_le; lia).
  assert (UB : IZR S / IZR n <= 1073741824).
  { apply Rmult_le_reg_r with (IZR n); [lra|]. unfold Rdiv. rewrite Rmult_assoc, Rinv_l by lra.
    rewrite Rmult_1_r, <- mult_IZR. apply IZR_le. lia. }
  assert (LB : 0 <= IZR S / IZR n) by (apply Rmult_le_pos; [lra|]; apply Rlt_le, Rinv_0_lt_compat; lra).
  destruct (Bdiv_fin (f64_ofZ S) (f64_ofZ n)) as [Fq Eq]; auto.
  - rewrite En; lra.
  - rewrite ES, En. apply small_lt_big. rewrite Rabs_right by lra.
    apply Rle_trans with (bpow radix2 30); [exact UB|apply bpow_le; lia].
  - rewrite ES, En in Eq.
    set (q := Bdiv mode_NE (f64_ofZ S) (f64_ofZ n)) in *.
    assert (Pq : 0 <= B2R q) by (rewrite Eq; apply rnd_sign; lra).
    destruct (Bsqrt_fin q Fq Pq) as [Fr Er].
    set (r := Bsqrt mode_NE q) in *. rewrite Bltb_true.
    rewrite (ext_finite r Fr), (ext_finite _ F5), E5, Er.
    destruct (Z.lt_ge_cases S (25000000 * n)) as [L|L].
    + split; auto. intros _. split; [apply is_nan_finite; auto|]. split; [apply is_nan_finite; auto|].
      assert (Q : B2R q <= 25000000 - / 1048576).
      { rewrite Eq. rewrite <- (rnd_id _ format_25M). apply rnd_le.
        apply Rmult_le_reg_r with (IZR n); [lra|]. unfold Rdiv. rewrite Rmult_assoc, Rinv_l by lra.
        rewrite Rmult_1_r. assert (IZR S <= 25000000 * IZR n - 1).
        { rewrite <- mult_IZR, <- minus_IZR. apply IZR_le. lia. }
        assert (IZR n <= 1048576) by (apply IZR_le; lia). nra. }
      apply Rle_lt_trans with (5000 - / 1099511627776); [|lra].
      rewrite <- (rnd_id _ format_5000). apply rnd_le.
      rewrite <- (sqrt_square (5000 - / 1099511627776)) by lra. apply sqrt_le_1_alt. lra.
    + split; [|lia]. intros (_ & _ & C). exfalso.
      assert (Q : 25000000 <= B2R q).
      { rewrite Eq. rewrite <- (rnd_IZR 25000000) by lia. apply rnd_le.
        apply Rmult_le_reg_r with (IZR n); [lra|]. unfold Rdiv. rewrite Rmult_assoc, Rinv_l by lra.
        rewrite Rmult_1_r, <- mult_IZR. apply IZR_le. lia. }
      assert (5000 <= rnd (sqrt (B2R q))); [|lra].
      rewrite <- (rnd_IZR 5000) by lia. apply rnd_le.
      rewrite <- (sqrt_square 5000) by lra. apply sqrt_le_1_alt. lra.
Qed.

(** ** Smoothing *)
Section Smooth.
Variable lm : Libm.
Let N := F64 lm.

Definition flag (silent : bool) : f64 := if silent then f64_ofZ 0 else f64_ofZ 1.
Definition below (c : list Z) : bool :=
  nltb N (calc_root_mean_square (N:=N) c) RMS_THRESHOLD.

Lemma process_all chunks : forall rs,
  fold_left (process_chunk (N:=N)) chunks rs = rs ++ map (fun c => flag (below c)) chunks.
Proof.
  induction chunks as [|c t IH]; intros rs; cbn [fold_left map].
  - rewrite app_nil_r. auto.
  - rewrite IH. unfold process_chunk. rewrite <- app_assoc. reflexivity.
Qed.
Lemma eqb_flag0 b : neqb N (flag b) (f64_ofZ 0) = b.
Proof. destruct b; vm_compute; reflexivity. Qed.
Lemma eqb_flag1 b : neqb N (flag b) (f64_ofZ 1) = negb b.
Proof. destruct b; vm_compute; reflexivity. Qed.

(** The flag of position [i] from the per-chunk decisions. *)
Definition smooth (bs : list bool) (i : nat) : bool :=
  (2 <=? i)%nat && nth i bs false && nth (i - 1) bs false && nth (i - 2) bs false.

Lemma get_vad bs : get_vad_results (N:=N) (map flag bs) =
  Ok (map (fun i => flag (smooth bs i)) (seq 0 (Nat.max 2 (List.length bs)))).
Proof.
  unfold get_vad_results, SILENT_CHUNK_COUNT.
  match goal with |- bind ?x _ = _ => assert (M : x =
     Ok (map (fun i => flag (smooth bs (Z.to_nat i))) (zrange (3 - 1) (zlen (map flag bs))))) end.
  { apply mapM_total. intros i Hi. apply in_zrange in Hi. rewrite zlen_map in Hi.
    assert (G : forall j, (0 <= j < zlen bs)%Z -> zget (map flag bs) j = Ok (flag (nth (Z.to_nat j) bs false))).
    { intros j Hj. rewrite (zget_in _ _ (flag false)) by (rewrite zlen_map; auto). rewrite map_nth. auto. }
    rewrite G by lia. cbn [bind]. unfold check_previous_chunks_for_silence, SILENT_CHUNK_COUNT.
    change (zrange 1 3) with [1; 2]%Z. cbn [mapM]. rewrite !G by lia. cbn [bind forallb].
    change (nofZ N 0) with (f64_ofZ 0). change (nofZ N 1) with (f64_ofZ 1).
    rewrite eqb_flag0, !eqb_flag1, !negb_involutive.
    unfold smooth. replace (Z.to_nat i - 1)%nat with (Z.to_nat (i - 1)) by lia.
    replace (Z.to_nat i - 2)%nat with (Z.to_nat (i - 2)) by lia.
    destruct (Nat.leb_spec 2 (Z.to_nat i)); [|lia].
    destruct (nth (Z.to_nat i) bs false), (nth (Z.to_nat (i - 1)) bs false), (nth (Z.to_nat (i - 2)) bs false); reflexivity. }
  rewrite M. cbn [bind]. f_equal.
  change (Z.to_nat (3 - 1)) with 2%nat.
  assert (E : seq 0 (Nat.max 2 (List.length bs)) = seq 0 2 ++ seq 2 (List.length bs - 2)).
  { rewrite <- seq_app. f_equal. lia. }
  rewrite E, map_app. f_equal.
  rewrite zlen_map. unfold zrange, zlen. rewrite !map_map.
  replace (Z.to_nat (Z.of_nat (List.length bs) - (3 - 1))) with (List.length bs - 2)%nat by lia.
  rewrite <- (seq_shift _ 1), <- (seq_shift _ 0), !map_map.
  apply map_ext. intros k. do 2 f_equal. lia.
Qed.

Lemma smooth_spec chunks i : (i < List.length chunks)%nat ->
  smooth (map below chunks) i = true <-> reported_silent chunks i.
Proof.
  intros Hi. unfold smooth, reported_silent. rewrite !andb_true_iff, Nat.leb_le.
  assert (B : forall k, (k < List.length chunks)%nat ->
    nth k (map below chunks) false = true <-> exists c, nth_error chunks k = Some c /\ rms_below c).
  { intros k Hk. destruct (nth_error chunks k) as [c|] eqn:E; [|apply nth_error_None in E; lia].
    assert (nth k (map below chunks) false = below c) as ->.
    { apply nth_error_nth. rewrite nth_error_map, E. reflexivity. }
    split.
    - intros H. exists c. split; auto. apply (rms_spec lm). exact H.
    - intros (c' & [= <-] & H). apply (rms_spec lm). exact H. }
  split.
  - intros (((H1 & H2) & H3) & H4). split; auto. intros k Hk. apply B; [lia|].
    assert (k = i \/ k = i - 1 \/ k = i - 2)%nat as [->|[->| ->]] by lia; auto.
  - intros (H1 & H2). repeat split; auto; apply B; try lia; apply H2; lia.
Qed.

Lemma C19_smoothing chunks : (2 <= List.length chunks)%nat ->
  exists flags, get_vad_results (N:=N) (fold_left (process_chunk (N:=N)) chunks []) = Ok flags /\
    List.length flags = List.length chunks /\
    forall t, (t < List.length chunks)%nat ->
      (reported_silent chunks t -> nth_error flags t = Some (f64_ofZ 0)) /\
      (~ reported_silent chunks t -> nth_error flags t = Some (f64_ofZ 1)).
Proof.
  intros H. rewrite process_all. cbn [app].
  rewrite <- (map_map below flag). rewrite get_vad.
  eexists; split; [reflexivity|]. rewrite map_length, seq_length, map_length.
  replace (Nat.max 2 (List.length chunks)) with (List.length chunks) by lia.
  split; auto. intros t Ht.
  assert (E : nth_error (map (fun i => flag (smooth (map below chunks) i)) (seq 0 (List.length chunks))) t =
              Some (flag (smooth (map below chunks) t))).
  { rewrite nth_error_map, nth_error_nth' with (d := 0%nat) by (rewrite seq_length; auto).
    rewrite seq_nth by auto. reflexivity. }
  pose proof (smooth_spec chunks t Ht) as S.
  change (num N) with f64 in *. rewrite E. split; intros HS.
  - apply S in HS. rewrite HS. reflexivity.
  - destruct (smooth (map below chunks) t); [tauto|reflexivity].
Qed.
End Smooth.

Lemma nth_error_Some_len {A} (l : list A) i x : nth_error l i = Some x -> (i < List.length l)%nat.
Proof. intros H. apply nth_error_Some. congruence. Qed.

(** ** Quantisation and framing *)
Section Frames.
Variable lm : Libm.
Let N := F64 lm.

Lemma cast_range lo hi x : (lo <= 0 <= hi)%Z -> (lo <= f64_cast lo hi x <= hi)%Z.
Proof. intros H. destruct x as [s|[|]| |s m e He]; cbn [f64_cast]; lia. Qed.
Lemma cast_ofZ lo hi z : (lo <= z <= hi)%Z -> (Z.abs z <= 2 ^ 53)%Z -> f64_cast lo hi (f64_ofZ z) = z.
Proof.
  intros H1 H2. destruct (ofZ_exact z H2) as [F E]. rewrite cast_fin, E, Ztrunc_IZR by auto. lia.
Qed.
Lemma quantize_spec (x : f64) : quantize_sample (N:=N) x = sample_i16 x.
Proof.
  unfold quantize_sample. cbv zeta.
  change (as_i16 (nmul N x (nofZ N (2 ^ 15)))) with (sample_i16 x).
  set (z := sample_i16 x). assert (R : (- 32768 <= z <= 32767)%Z) by (apply cast_range; lia). clearbody z.
  change (as_i16 (N:=N)) with (f64_cast (- 32768) 32767).
  assert (M : nmax (N:=N) (nofZ N (- 2 ^ 15)) (nmul N (nofZ N 1) (nofZ N (2 ^ 15 - 1))) = f64_ofZ 32767)
    by (apply B2SF_inj; vm_compute; reflexivity).
  rewrite M.
  assert (E : nmin (N:=N) (f64_ofZ 32767) (nofZ N z) = f64_ofZ z).
  { unfold nmin, nis_nan. change (neqb N) with (@Beqb 53 1024). change (nltb N) with (@Bltb 53 1024).
    change (nofZ N) with f64_ofZ. rewrite !Beqb_refl_nan, !ofZ_nan, !negb_involutive by lia.
    destruct (Bltb (f64_ofZ z) (f64_ofZ 32767)) eqn:L; auto.
    apply Bltb_false in L; try (apply ofZ_nan; lia). rewrite !ofZ_ext in L by lia. apply le_IZR in L.
    assert (z = 32767)%Z by lia. subst z. auto. }
  rewrite E. apply cast_ofZ; lia.
Qed.

Definition qmap (l : list f64) : list Z := map sample_i16 l.

Lemma vad_consume L (a b : list f64) : forall f rs, (0 < List.length a)%nat ->
  (zlen f + zlen a = L)%Z ->
  vad_loop (N:=N) L f rs (a ++ b) = vad_loop (N:=N) L [] (process_chunk (N:=N) rs (f ++ qmap a)) b.
Proof.
  induction a as [|x a IH]; intros f rs Ha HL; [simpl in Ha; lia|].
  cbn [app vad_loop]. rewrite quantize_spec. rewrite zlen_app, zlen_cons, zlen_nil. rewrite zlen_cons in HL.
  destruct a as [|y a]; [rewrite zlen_nil in HL|].
  - destruct (Z.eqb_spec (zlen f + (0 + 1)) L); [|lia]. reflexivity.
  - destruct (Z.eqb_spec (zlen f + (0 + 1)) L) as [E|E].
    + rewrite zlen_cons in HL. pose proof (zlen_nonneg a). lia.
    + rewrite IH; [|simpl; lia|rewrite zlen_app, !zlen_cons, zlen_nil in *; lia].
      rewrite <- app_assoc. reflexivity.
Qed.

Lemma skipn_skipn {A} (l : list A) a b : skipn a (skipn b l) = skipn (b + a) l.
Proof.
  revert l. induction b as [|b IH]; intros l; [reflexivity|]. destruct l; [rewrite !skipn_nil; auto|].
  cbn [skipn Nat.add]. apply IH.
Qed.
Lemma vad_frames_eq L n : forall (l : list f64) rs, (1 <= L)%nat -> List.length l = (n * L)%nat ->
  vad_loop (N:=N) (Z.of_nat L) [] rs l =
  fold_left (process_chunk (N:=N)) (map (fun t => qmap (firstn L (skipn (t * L) l))) (seq 0 n)) rs.
Proof.
  induction n as [|n IH]; intros l rs HL Hl.
  - destruct l; [reflexivity|discriminate].
  - rewrite <- (firstn_skipn L l) at 1.
    assert (A : List.length (firstn L l) = L) by (rewrite firstn_length; lia).
    rewrite vad_consume; [|lia|unfold zlen; rewrite A; simpl; lia].
    cbn [seq map fold_left]. rewrite Nat.mul_0_l. cbn [skipn app].
    rewrite IH; [|auto|rewrite skipn_length; lia].
    f_equal. rewrite <- seq_shift, map_map. apply map_ext. intros t. f_equal.
    rewrite skipn_skipn. f_equal.
Qed.

Lemma firstn_skipn_sub {A} (l : list A) a n m k : (k + n <= m)%nat ->
  firstn n (skipn k (firstn m (skipn a l))) = firstn n (skipn (a + k) l).
Proof.
  intros H. rewrite skipn_firstn_comm, firstn_firstn, skipn_skipn. f_equal. lia.
Qed.

(** ** Grouping the flags *)
Lemma chunks_eq ps n : forall fuel (l : list f64), (1 <= ps)%nat -> List.length l = (n * ps)%nat ->
  (n <= fuel)%nat ->
  chunks (N:=N) fuel ps l = map (fun j => firstn ps (skipn (j * ps) l)) (seq 0 n).
Proof.
  induction n as [|n IH]; intros fuel l Hp Hl Hf.
  - destruct l; [|discriminate]. destruct fuel; reflexivity.
  - destruct fuel; [lia|]. destruct l as [|x l]; [simpl in Hl; lia|].
    cbn [chunks seq map]. rewrite Nat.mul_0_l. f_equal.
    assert (K : List.length (skipn ps (x :: l)) = (n * ps)%nat) by (rewrite skipn_length; cbn [Nat.mul] in Hl; lia).
    rewrite IH; [|auto|exact K|lia].
    rewrite <- seq_shift, map_map. apply map_ext. intros j. f_equal.
    rewrite skipn_skipn. f_equal. 
Qed.

(** Sum of flags *)
Lemma sum_flags bs : forall a, (0 <= a)%Z -> (a + zlen bs <= 2 ^ 53)%Z ->
  fold_left (nadd N) (map flag bs) (f64_ofZ a) =
  f64_ofZ (a + Z.of_nat (List.length (filter negb bs))).
Proof.
  induction bs as [|b bs IH]; intros a Ha Hl; cbn [map fold_left filter].
  - rewrite Z.add_0_r. auto.
  - rewrite zlen_cons in Hl. pose proof (zlen_nonneg bs).
    assert (E : nadd N (f64_ofZ a) (flag b) = f64_ofZ (a + (if b then 0 else 1))).
    { assert (HZ : forall z, (0 <= z <= 1)%Z -> Bplus mode_NE (f64_ofZ a) (f64_ofZ z) = f64_ofZ (a + z)).
      { intros z Hz. destruct (ofZ_exact a) as [F1 E1]; [lia|]. destruct (ofZ_exact z) as [F2 E2]; [lia|].
        destruct (ofZ_exact (a + z)) as [F3 E3]; [lia|].
        destruct (ofZ_gen (a + z)) as (_ & _ & S3).
        { apply Rle_trans with (bpow radix2 53); [apply IZR_le_bpow; lia|apply bpow_le; lia]. }
        destruct (ofZ_gen a) as (_ & _ & S1).
        { apply Rle_trans with (bpow radix2 53); [apply IZR_le_bpow; lia|apply bpow_le; lia]. }
        destruct (ofZ_gen z) as (_ & _ & S2).
        { apply Rle_trans with (bpow radix2 53); [apply IZR_le_bpow; lia|apply bpow_le; lia]. }
        pose proof (Bplus_correct 53 1024 _ _ mode_NE (f64_ofZ a) (f64_ofZ z) F1 F2) as C.
        cbn [round_mode] in C. rewrite E1, E2, <- plus_IZR in C.
        rewrite rnd_IZR in C by lia. fold big in C.
        rewrite Rlt_bool_true in C.
        - destruct C as (C1 & C2 & C3). apply B2R_Bsign_inj; auto.
          + rewrite C1, E3. auto.
          + rewrite C3, S3, S1, S2. destruct (Rcompare_spec (IZR (a + z)) 0) as [K|K|K].
            * apply lt_IZR in K. lia.
            * apply eq_IZR in K. destruct (Z.ltb_spec a 0), (Z.ltb_spec z 0), (Z.ltb_spec (a + z) 0); try lia; auto.
            * apply lt_IZR in K. destruct (Z.ltb_spec (a + z) 0); auto; lia.
        - apply Rle_lt_trans with (bpow radix2 53); [apply IZR_le_bpow; lia|]. apply bpow_lt. lia. }
      destruct b; apply HZ; lia. }
    change (num N) with f64 in *. rewrite E. destruct b; cbn [negb filter].
    + rewrite IH by lia. f_equal. lia.
    + rewrite IH by lia. f_equal. cbn [List.length]. lia.
Qed.
Lemma flags_active bs : (zlen bs <= 2 ^ 53)%Z ->
  nleb N (nofZ N 1) (seq_sum (N:=N) (map flag bs)) = true <-> exists k, nth_error bs k = Some false.
Proof.
  intros H. unfold seq_sum. change (nofZ N 0) with (f64_ofZ 0).
  rewrite sum_flags by lia.
  assert (B : (0 <= Z.of_nat (List.length (filter negb bs)) <= 2 ^ 53)%Z).
  { assert (List.length (filter negb bs) <= List.length bs)%nat by (clear; induction bs as [|b t]; cbn [filter List.length]; [lia|destruct (negb b); cbn [List.length]; lia]).
    unfold zlen in H. lia. }
  change (nleb N) with (@Bleb 53 1024). change (nofZ N 1) with (f64_ofZ 1).
  rewrite Bleb_true, !ofZ_ext by lia. rewrite !ofZ_nan by lia.
  assert (E : (1 <= List.length (filter negb bs))%nat <-> exists k, nth_error bs k = Some false).
  { split.
    - intros L. destruct (filter negb bs) as [|b t] eqn:F; [simpl in L; lia|].
      assert (I : In b (filter negb bs)) by (rewrite F; left; auto).
      apply filter_In in I. destruct I as [I1 I2]. destruct b; [discriminate|].
      apply In_nth_error in I1. auto.
    - intros (k & Hk). apply nth_error_In in Hk.
      assert (I : In false (filter negb bs)) by (apply filter_In; auto).
      destruct (filter negb bs); [contradiction|simpl; lia]. }
  rewrite <- E. split.
  - intros (_ & _ & L). apply le_IZR in L. lia.
  - intros L. repeat split; auto. apply IZR_le. lia.
Qed.

(** ** collect_active *)
Lemma collect_spec ps cs : forall i x, (0 < ps)%Z ->
  In x (collect_active (N:=N) ps i cs) <->
  exists j c, nth_error cs j = Some c /\ x = (i + ps * Z.of_nat j)%Z /\
     nleb N (nofZ N 1) (seq_sum (N:=N) c) = true.
Proof.
  induction cs as [|c t IH]; intros i x Hp; cbn [collect_active].
  - split; [contradiction|]. intros (j & c & H & _). destruct j; discriminate.
  - specialize (IH (i + ps)%Z x Hp).
    assert (E : (exists j c0, nth_error (c :: t) j = Some c0 /\ x = (i + ps * Z.of_nat j)%Z /\
        nleb N (nofZ N 1) (seq_sum (N:=N) c0) = true) <->
      (x = i /\ nleb N (nofZ N 1) (seq_sum (N:=N) c) = true) \/ In x (collect_active (N:=N) ps (i + ps) t)).
    { rewrite IH. split.
      - intros ([|j] & c0 & H1 & H2 & H3); cbn [nth_error] in H1.
        + injection H1 as <-. left. split; auto. lia.
        + right. exists j, c0. repeat split; auto. lia.
      - intros [(-> & H)|(j & c0 & H1 & H2 & H3)].
        + exists 0%nat, c. repeat split; auto. lia.
        + exists (S j), c0. repeat split; auto. lia. }
    rewrite E. destruct (nleb N (nofZ N 1) (seq_sum (N:=N) c)); cbn [In].
    + split; [intros [->|]; auto|intros [[-> _]|]; auto].
    + split; [auto|intros [[_ ?]|]; [discriminate|auto]].
Qed.
Lemma collect_sorted ps cs : forall i, (0 < ps)%Z ->
  StronglySorted Z.lt (collect_active (N:=N) ps i cs) /\
  Forall (fun x => (i <= x)%Z) (collect_active (N:=N) ps i cs).
Proof.
  induction cs as [|c t IH]; intros i Hp; cbn [collect_active]; [split; constructor|].
  destruct (IH (i + ps)%Z Hp) as [A B].
  assert (B' : Forall (fun x => (i < x)%Z) (collect_active (N:=N) ps (i + ps) t)).
  { eapply Forall_impl; [|exact B]. cbv beta. lia. }
  assert (B'' : Forall (fun x => (i <= x)%Z) (collect_active (N:=N) ps (i + ps) t)).
  { eapply Forall_impl; [|exact B]. cbv beta. lia. }
  destruct (nleb N (nofZ N 1) (seq_sum (N:=N) c)); split; auto; constructor; auto. lia.
Qed.
End Frames.

(** ** Which grid points are kept *)
Section Indices.
Variable lm : Libm.
Let N := F64 lm.

Lemma ncmp_le (x y : f64) : is_nan x = false -> is_nan y = false ->
  (ncmp (N:=N) x y = Some Gt /\ Bleb y x = true) \/
  ((ncmp (N:=N) x y = Some Lt \/ ncmp (N:=N) x y = Some Eq) /\ Bleb x y = true).
Proof.
  intros Hx Hy. unfold ncmp. change (nltb N) with (@Bltb 53 1024). change (neqb N) with (@Beqb 53 1024).
  destruct (Bltb x y) eqn:A.
  - right. split; auto. apply Bltb_true in A. apply Bleb_true. intuition lra.
  - apply Bltb_false in A; auto. destruct (Bltb y x) eqn:B.
    + left. split; auto. apply Bltb_true in B. apply Bleb_true. intuition lra.
    + apply Bltb_false in B; auto. right. assert (E : Beqb x y = true) by (apply Beqb_true; repeat split; auto; lra).
      rewrite E. split; auto. apply Bleb_true. intuition lra.
Qed.
Lemma Bleb_refl (x : f64) : is_nan x = false -> Bleb x x = true.
Proof. intros. apply Bleb_true. intuition lra. Qed.
Lemma Bleb_trans (x y z : f64) : Bleb x y = true -> Bleb y z = true -> Bleb x z = true.
Proof. rewrite !Bleb_true. intuition lra. Qed.
Lemma nd_max_from_spec (l : list f64) : forall acc, is_nan acc = false -> Forall (fun x => is_nan x = false) l ->
  exists m, nd_max_from (N:=N) acc l = Some m /\ (m = acc \/ In m l) /\ Bleb acc m = true /\
    Forall (fun x => Bleb x m = true) l.
Proof.
  induction l as [|x t IH]; intros acc Ha Hl; cbn [nd_max_from].
  - exists acc. repeat split; auto. apply Bleb_refl; auto.
  - inversion Hl; subst. destruct (ncmp_le x acc) as [[E L]|[E L]]; auto.
    + rewrite E. destruct (IH x) as (m & A & B & C & D); auto. exists m. repeat split; auto.
      * right. destruct B; [left; auto|right; auto].
      * eapply Bleb_trans; eauto.
    + destruct (IH acc) as (m & A & B & C & D); auto. exists m. repeat split.
      * destruct E as [-> | ->]; auto.
      * destruct B; auto. right. right. auto.
      * auto.
      * constructor; auto. eapply Bleb_trans; eauto.
Qed.
Lemma normalize_spec (l : list f64) : l <> [] -> Forall (fun x => is_nan x = false) l ->
  exists m, is_largest m l /\ normalize_signal (N:=N) l = Ok (map (fun x => Bdiv mode_NE x m) l).
Proof.
  intros Hl HF. destruct l as [|x t]; [tauto|].
  destruct (nd_max_from_spec (x :: t) x) as (m & A & B & C & D); [inversion HF; auto|auto|].
  exists m. split.
  - split; auto. destruct B as [->|]; auto. left; auto.
  - unfold normalize_signal, get_max, nd_max. rewrite A. reflexivity.
Qed.

Lemma seq_sub (g : nat -> f64) n a k : (a + k <= n)%nat ->
  firstn k (skipn a (map g (seq 0 n))) = map g (seq a k).
Proof.
  intros H. replace n with (a + (k + (n - a - k)))%nat by lia. rewrite seq_app, map_app.
  rewrite skipn_app, skipn_all2 by (rewrite map_length, seq_length; lia).
  rewrite map_length, seq_length, Nat.sub_diag. cbn [skipn app Nat.add].
  rewrite seq_app, map_app. rewrite firstn_app, firstn_all2 by (rewrite map_length, seq_length; lia).
  rewrite map_length, seq_length, Nat.sub_diag. cbn [firstn]. rewrite app_nil_r. auto.
Qed.

Lemma smooth_len chunks i : smooth (map (below lm) chunks) i = true -> (i < List.length chunks)%nat.
Proof.
  unfold smooth. rewrite !andb_true_iff. intros (((_ & H) & _) & _).
  destruct (Nat.lt_ge_cases i (List.length chunks)); auto.
  rewrite nth_overflow in H by (rewrite map_length; auto). discriminate.
Qed.

Lemma activity pf (norm : list f64) start hop n : (0 <= start)%Z -> (1 <= hop)%Z -> (hop <= 2 ^ 44)%Z ->
  (2 <= n)%nat -> (start + Z.of_nat n * hop <= zlen norm)%Z -> (zlen norm <= 2 ^ 44)%Z ->
  get_voice_activity (N:=N) pf norm start (Z.of_nat n * hop) hop =
  Ok (map (fun i => flag (smooth (map (below lm) (vad_frames norm start hop n)) i)) (seq 0 n)).
Proof.
  intros Hs Hh Hh2 Hn Hl Hl2. unfold get_voice_activity.
  rewrite uadd_ok by (unfold usize_mod; lia). cbn [bind].
  assert (0 <= Z.of_nat n * hop)%Z by nia.
  rewrite zslice_in by (change (num N) with f64; lia). cbn [bind]. unfold alloc8. destruct (Z.leb_spec (8 * hop) (2 ^ 47)); [|lia]. cbn [bind].
  replace (start + Z.of_nat n * hop - start)%Z with (Z.of_nat n * hop)%Z by lia.
  replace (Z.to_nat (Z.of_nat n * hop)) with (n * Z.to_nat hop)%nat by lia.
  set (l := firstn _ _).
  assert (L : List.length l = (n * Z.to_nat hop)%nat).
  { unfold l. rewrite firstn_length, skipn_length. unfold zlen in Hl. change (num N) with f64 in *. assert (Z.of_nat (n * Z.to_nat hop) = Z.of_nat n * hop)%Z by nia. lia. }
  replace hop with (Z.of_nat (Z.to_nat hop)) at 1 by lia.
  assert (E : vad_loop (N:=N) (Z.of_nat (Z.to_nat hop)) [] [] l =
     map (fun c => flag (below lm c)) (vad_frames norm start hop n)).
  { etransitivity; [apply (vad_frames_eq lm (Z.to_nat hop) n l []); [lia|exact L]|].
    rewrite (process_all lm). cbn [app]. unfold vad_frames. rewrite !map_map. apply map_ext_in.
    intros t Ht. apply in_seq in Ht. unfold vad_frame, qmap. do 3 f_equal. unfold l.
    apply firstn_skipn_sub. nia. }
  match goal with |- get_vad_results ?x = _ => assert (M : x = map flag (map (below lm) (vad_frames norm start hop n))) end.
  { rewrite E, map_map. reflexivity. }
  rewrite M, (get_vad lm). do 3 f_equal. unfold vad_frames. rewrite !map_length, seq_length. lia.
Qed.

Definition first_patch (ps : Z) : Z := (ps / 2 - 1)%Z.

Lemma vad_arith ps hop w fp pc len : (2 <= ps)%Z -> (1 <= hop)%Z -> (0 <= fp)%Z -> (w * hop <= len)%Z ->
  (1 <= pc)%Z -> (ps * pc <= w - fp)%Z ->
  (fp + pc * ps * hop <= len /\ 2 <= pc * ps /\ pc <= w /\ w <= len /\ hop <= len /\ 0 <= pc * ps * hop)%Z.
Proof.
  intros H1 H2 H3 H4 H5 H6.
  assert (A : (pc * ps * hop <= (w - fp) * hop)%Z) by (apply Z.mul_le_mono_nonneg_r; lia).
  assert (B : (fp * 1 <= fp * hop)%Z) by (apply Z.mul_le_mono_nonneg_l; lia).
  assert (C : (1 * 2 <= pc * ps)%Z) by (apply Z.mul_le_mono_nonneg; lia).
  assert (D : (pc * 1 <= pc * ps)%Z) by (apply Z.mul_le_mono_nonneg_l; lia).
  assert (E : (w * 1 <= w * hop)%Z) by (apply Z.mul_le_mono_nonneg_l; lia).
  assert (F : (1 * hop <= w * hop)%Z) by (apply Z.mul_le_mono_nonneg_r; lia).
  assert (G : (0 * hop <= pc * ps * hop)%Z) by (apply Z.mul_le_mono_nonneg_r; lia).
  repeat split; lia.
Qed.
Lemma grid_arith ps pc j : (0 < ps)%Z -> (0 <= j < pc)%Z -> (ps * j + ps <= pc * ps)%Z.
Proof. intros H1 H2. replace (ps * j + ps)%Z with ((j + 1) * ps)%Z by ring. apply Z.mul_le_mono_nonneg_r; lia. Qed.

Lemma C21_indices pf ps w (s : AudioSignal N) (win : AnalysisWindow N) :
  (2 <= ps)%Z -> (1 <= hop_size win)%Z -> (ps <= 2 ^ 16)%Z ->
  (w * hop_size win <= sig_len s)%Z -> (sig_len s <= 2 ^ 44)%Z ->
  (ps / 2 - 1 + ps <= w)%Z ->
  Forall (fun x : f64 => is_nan x = false) (data_matrix s) ->
  exists peak idx, is_largest peak (data_matrix s) /\
    vad_patch_indices (N:=N) pf ps w s win = Ok idx /\
    StronglySorted Z.lt idx /\
    (forall x, In x idx <-> exists j, (0 <= j)%Z /\ x = (ps / 2 - 1 + ps * j)%Z /\ (x + ps <= w)%Z /\
        exists t, (ps * j <= Z.of_nat t < ps * (j + 1))%Z /\
          ~ reported_silent (vad_frames (map (fun v => Bdiv mode_NE v peak) (data_matrix s))
               (ps / 2 - 1) (hop_size win) (Z.to_nat (w - (ps / 2 - 1)))) t).
Proof.
  intros Hp Hh Hp2 Hw Hl Hpw HF. unfold sig_len in *.
  set (l := data_matrix s) in *. set (hop := hop_size win) in *. set (fp := (ps / 2 - 1)%Z).
  assert (Hfp : (0 <= fp)%Z) by (unfold fp; assert (1 <= ps / 2)%Z by (apply Z.div_le_lower_bound; lia); lia).
  assert (Hlne : l <> []) by (intros C; rewrite C, zlen_nil in *; nia).
  destruct (normalize_spec l Hlne HF) as (m & Hm & En). exists m.
  unfold vad_patch_indices. fold l hop. change (num N) with f64 in *. rewrite En. cbn [bind].
  set (norm := map (fun x => Bdiv mode_NE x m) l) in *.
  assert (Ln : zlen norm = zlen l) by apply zlen_map.
  set (pc := ((w - fp) / ps)%Z).
  assert (Hpc1 : (1 <= pc)%Z) by (apply Z.div_le_lower_bound; fold fp in Hpw; lia).
  assert (Hpc2 : (ps * pc <= w - fp)%Z) by (apply Z.mul_div_le; lia).
  assert (Hpc3 : (w - fp < ps * (pc + 1))%Z).
  { unfold pc. pose proof (Z.div_mod (w - fp) ps ltac:(lia)). pose proof (Z.mod_pos_bound (w - fp) ps ltac:(lia)). lia. }
  destruct (vad_arith ps hop w fp pc (zlen l)) as (Htot & Hn2 & Hpcw & Hwl & Hhl & Hp0); auto.
  assert (Hph : (ps * hop <= 2 ^ 16 * 2 ^ 44)%Z) by (apply Z.mul_le_mono_nonneg; lia).
  rewrite umul_ok by (unfold usize_mod; lia). cbn [bind].
  rewrite usub_ok by (unfold fp in Hfp; lia). cbn [bind]. fold fp.
  rewrite usub_ok by (fold fp in Hpw; lia). cbn [bind]. unfold udiv.
  destruct (Z.eqb_spec ps 0) as [|PNZ]; [lia|]. cbn [bind]. fold pc.
  assert (AS : (pc * (ps * hop) = pc * ps * hop)%Z) by ring.
  rewrite umul_ok by (rewrite AS; unfold usize_mod; lia). cbn [bind].
  unfold alloc8 at 1. destruct (Z.leb_spec (8 * pc) (2 ^ 47)); [|lia]. cbn [bind].
  set (n := Z.to_nat (pc * ps)).
  assert (Hn : Z.of_nat n = (pc * ps)%Z) by (unfold n; lia). clearbody n.
  replace (pc * (ps * hop))%Z with (Z.of_nat n * hop)%Z by (rewrite Hn; ring).
  change (num N) with f64 in *.
  assert (Htot' : (fp + Z.of_nat n * hop <= @zlen f64 norm)%Z) by (rewrite Hn; apply (Z.le_trans _ _ _ Htot); apply Z.eq_le_incl; symmetry; exact Ln).
  assert (Hl' : (@zlen f64 norm <= 2 ^ 44)%Z) by (apply (Z.le_trans _ _ _ (Z.eq_le_incl _ _ Ln)); exact Hl).
  rewrite (activity pf norm fp hop n); [|lia|lia|lia|lia|exact Htot'|exact Hl'].
  cbn [bind].
  assert (Hn3 : n = (Z.to_nat pc * Z.to_nat ps)%nat) by (apply Nat2Z.inj; rewrite Nat2Z.inj_mul; lia).
  assert (Hps : Z.of_nat (Z.to_nat ps) = ps) by lia.
  assert (Hgr : forall j, (j < Z.to_nat pc)%nat -> (j * Z.to_nat ps + Z.to_nat ps <= n)%nat).
  { intros j Hj. pose proof (grid_arith ps pc (Z.of_nat j) ltac:(lia) ltac:(lia)). apply Nat2Z.inj_le.
    rewrite Nat2Z.inj_add, Nat2Z.inj_mul. lia. }
  set (frames := vad_frames norm fp hop n).
  set (frames' := vad_frames norm fp hop (Z.to_nat (w - fp))).
  assert (RS : forall t, (t < n)%nat -> reported_silent frames t <-> reported_silent frames' t).
  { intros t Ht. unfold reported_silent.
    assert (X : forall k, (k <= t)%nat -> nth_error frames k = nth_error frames' k).
    { intros k Hk. unfold frames, frames', vad_frames. rewrite !nth_error_map.
      rewrite !nth_error_nth' with (d := 0%nat) by (rewrite seq_length; lia).
      rewrite !seq_nth by lia. auto. }
    split; intros (A & B); split; auto; intros k Hk; destruct (B k Hk) as (c & C1 & C2); exists c; split; auto;
      [rewrite <- X by lia|rewrite X by lia]; auto. }
  eexists. split; [exact Hm|]. split; [reflexivity|].
  match goal with |- context [chunks ?a ?b ?c] => set (vad := c) end.
  assert (CE : chunks (N:=N) (List.length vad) (Z.to_nat ps) vad =
    map (fun j => map flag (map (smooth (map (below lm) frames)) (seq (j * Z.to_nat ps) (Z.to_nat ps)))) (seq 0 (Z.to_nat pc))).
  { unfold vad. rewrite (chunks_eq lm (Z.to_nat ps) (Z.to_nat pc)); [|lia|rewrite map_length, seq_length; exact Hn3|rewrite map_length, seq_length; lia].
    apply map_ext_in. intros j Hj. apply in_seq in Hj. rewrite seq_sub by (apply Hgr; lia). rewrite map_map. auto. }
  change (num N) with f64 in *. rewrite CE.
  split; [apply (collect_sorted lm); lia|].
  intros x. eapply iff_trans; [apply (collect_spec lm); lia|].
  split.
  - intros (j & c & C1 & C2 & C3). exists (Z.of_nat j).
    assert (Hj : (j < Z.to_nat pc)%nat).
    { apply nth_error_Some_len in C1. rewrite map_length, seq_length in C1. auto. }
    rewrite nth_error_map, nth_error_nth' with (d := 0%nat) in C1 by (rewrite seq_length; auto).
    rewrite seq_nth in C1 by auto. cbn [option_map Nat.add] in C1. injection C1 as <-.
    apply (flags_active lm) in C3; [|rewrite zlen_map; unfold zlen; rewrite seq_length; lia].
    destruct C3 as (k & Hk). rewrite nth_error_map in Hk.
    destruct (nth_error (seq (j * Z.to_nat ps) (Z.to_nat ps)) k) as [t|] eqn:Et; [|discriminate].
    assert (Hk2 : (k < Z.to_nat ps)%nat) by (apply nth_error_Some_len in Et; rewrite seq_length in Et; auto).
    rewrite nth_error_nth' with (d := 0%nat) in Et by (rewrite seq_length; auto). rewrite seq_nth in Et by auto.
    injection Et as <-. cbn [option_map] in Hk. injection Hk as Hk.
    pose proof (grid_arith ps pc (Z.of_nat j) ltac:(lia) ltac:(lia)) as GA. specialize (Hgr j Hj).
    assert (ZM : Z.of_nat (j * Z.to_nat ps) = (ps * Z.of_nat j)%Z) by (rewrite Nat2Z.inj_mul, Hps; ring).
    split; [lia|]. split; [auto|]. split; [subst x; lia|]. exists (j * Z.to_nat ps + k)%nat. split; [lia|].
    fold fp. fold norm. fold frames'. rewrite <- RS by lia. intros HS.
    apply (smooth_spec lm) in HS; [congruence|]. unfold frames, vad_frames. rewrite map_length, seq_length. lia.
  - intros (j & J0 & -> & Hx & t & Ht & HS). exists (Z.to_nat j).
    assert (Hj : (j < pc)%Z).
    { destruct (Z.lt_ge_cases j pc) as [|GE]; auto.
      assert ((pc + 1) * ps <= (j + 1) * ps)%Z by (apply Z.mul_le_mono_nonneg_r; lia). unfold fp in *. lia. }
    pose proof (grid_arith ps pc j ltac:(lia) ltac:(lia)) as GA.
    assert (ZM : (Z.to_nat j * Z.to_nat ps)%nat = Z.to_nat (ps * j)) by (rewrite Z2Nat.inj_mul by lia; lia).
    eexists. split; [|split].
    + rewrite nth_error_map, nth_error_nth' with (d := 0%nat) by (rewrite seq_length; lia).
      rewrite seq_nth by lia. reflexivity.
    + unfold fp. lia.
    + apply (flags_active lm); [rewrite zlen_map; unfold zlen; rewrite seq_length; lia|].
      exists (t - Z.to_nat (ps * j))%nat. cbn [Nat.add].
      rewrite nth_error_map, nth_error_nth' with (d := 0%nat) by (rewrite seq_length; lia).
      rewrite seq_nth by lia. cbn [option_map]. f_equal. rewrite ZM.
      replace (Z.to_nat (ps * j) + (t - Z.to_nat (ps * j)))%nat with t by lia.
      destruct (smooth (map (below lm) frames) t) eqn:ES; auto. exfalso. apply HS.
      fold fp. fold norm. fold frames'. rewrite <- RS by lia. apply (smooth_spec lm); auto.
      apply smooth_len in ES. auto.
Qed.

Lemma C21_first pf ps w (s : AudioSignal N) (win : AnalysisWindow N) idx :
  (2 <= ps)%Z -> (1 <= hop_size win)%Z -> (ps <= 2 ^ 16)%Z ->
  (w * hop_size win <= sig_len s)%Z -> (sig_len s <= 2 ^ 44)%Z ->
  (ps / 2 - 1 + ps <= w)%Z ->
  Forall (fun x : f64 => is_nan x = false) (data_matrix s) ->
  vad_patch_indices (N:=N) pf ps w s win = Ok idx -> In (ps / 2 - 1)%Z idx.
Proof.
  intros H1 H2 H3 H4 H5 H6 H7 H. destruct (C21_indices pf ps w s win H1 H2 H3 H4 H5 H6 H7) as (pk & idx' & _ & E & _ & I).
  rewrite H in E. injection E as <-. apply I. exists 0%Z. repeat split; try lia. exists 0%nat. split; [lia|].
  intros (C & _). lia.
Qed.

(** ** Too short references *)
Lemma C22_creator pf ps (m : mat N) (s : AudioSignal N) (win : AnalysisWindow N) :
  (2 <= ps <= 2 ^ 16)%Z -> (Z.of_nat (mcols m) < ps / 2 - 1 + ps)%Z ->
  is_panic (do idx <- create_ref_patch_indices (N:=N) pf (VadPatchCreator ps) m s win;
            create_patches_from_indices (N:=N) ps m idx).
Proof.
  intros Hp Hm. cbn [create_ref_patch_indices]. set (w := Z.of_nat (mcols m)) in *.
  set (fp := (ps / 2 - 1)%Z) in *.
  assert (Hfp : (0 <= fp)%Z) by (unfold fp; assert (1 <= ps / 2)%Z by (apply Z.div_le_lower_bound; lia); lia).
  assert (Hfp2 : (fp < 2 ^ 16)%Z) by (unfold fp; assert (ps / 2 < ps)%Z by (apply Z.div_lt; lia); lia).
  assert (Hh : (0 <= hop_size win)%Z) by (unfold hop_size, as_usize; apply cast_range; lia).
  apply panic_bind'; [apply ne_vad|]. intros idx HI. unfold vad_patch_indices in HI.
  inv_do HI. inv_do Hk. inv_do Hk0.
  rewrite usub_ok in Hv1 by (unfold fp in Hfp; lia). injection Hv1 as <-. fold fp in Hk.
  inv_do Hk. inv_do Hk0. unfold udiv in Hv2. destruct (Z.eqb_spec ps 0); [lia|]. injection Hv2 as <-.
  inv_do Hk. inv_do Hk0. inv_do Hk. injection Hk0 as <-.
  destruct (Z.le_gt_cases fp w) as [L|L].
  - rewrite usub_ok in Hv1 by auto. injection Hv1 as <-.
    assert (P0 : ((w - fp) / ps = 0)%Z) by (apply Z.div_small; lia). rewrite P0 in *.
    rewrite umul_ok in Hv2 by (unfold usize_mod; lia). injection Hv2 as <-.
    unfold get_voice_activity in Hv4. rewrite uadd_ok in Hv4 by (unfold usize_mod; lia). cbn [bind] in Hv4.
    inv_do Hv4. inv_do Hk. apply zslice_ok in Hv1. destruct Hv1 as (_ & ->).
    replace (Z.to_nat (fp + 0 - fp)) with 0%nat in Hk0 by lia. cbn [firstn vad_loop] in Hk0.
    pose proof (get_vad lm []) as G. cbn [map] in G. assert (G2 : Ok _ = Ok _) by exact (eq_trans (eq_sym G) Hk0). injection G2 as <-.
    cbn [map seq List.length Nat.max].
    assert (Cx : forall x y : f64, chunks (N:=N) 2 (Z.to_nat ps) [x; y] = [[x; y]]).
    { intros x y. cbn [chunks]. destruct (Z.to_nat ps) as [|[|k]] eqn:K; try lia. cbn [firstn skipn]. rewrite firstn_nil, skipn_nil. auto. }
    change (num N) with f64 in *. rewrite Cx. cbn [collect_active].
    match goal with |- context [if ?b then _ else _] => assert (S2 : b = true) by (vm_compute; reflexivity); rewrite S2 end.
    unfold create_patches_from_indices. cbn [mapM].
    apply panic_bind. unfold mslice_cols. fold w.
    destruct (Z.leb_spec (fp + ps) w); [lia|]. rewrite andb_false_r. exists PIndex; auto.
  - unfold usub in Hv1. destruct (Z.leb_spec fp w); [lia|]. destruct pf; [discriminate|].
    injection Hv1 as <-. exfalso. unfold alloc8 in Hv3.
    assert ((2 ^ 47) <= (w - fp + usize_mod) / ps)%Z.
    { apply Z.div_le_lower_bound; [lia|]. unfold usize_mod. nia. }
    destruct (Z.leb_spec (8 * ((w - fp + usize_mod) / ps)) (2 ^ 47)); [lia|discriminate].
Qed.
End Indices.

Lemma C20_process lm rs c : Forall i16_range c -> (1 <= zlen c <= 2 ^ 20)%Z ->
  process_chunk (N:=F64 lm) rs c = rs ++ [f64_ofZ 0] <-> quiet c.
Proof.
  intros H1 H2. rewrite <- (C20_exact c H1 H2). rewrite <- (rms_spec lm c). unfold process_chunk.
  destruct (nltb (F64 lm) _ _); split; intros H; auto; try discriminate.
  apply app_inv_head in H. exfalso. injection H as H. apply (f_equal B2SF) in H. vm_compute in H. discriminate H.
Qed.
Lemma C20_process_loud lm rs c : Forall i16_range c -> (1 <= zlen c <= 2 ^ 20)%Z ->
  process_chunk (N:=F64 lm) rs c = rs ++ [f64_ofZ 1] <-> ~ quiet c.
Proof.
  intros H1 H2. rewrite <- (C20_exact c H1 H2). rewrite <- (rms_spec lm c). unfold process_chunk.
  destruct (nltb (F64 lm) _ _); split; intros H; auto; try discriminate.
  - apply app_inv_head in H. exfalso. injection H as H. apply (f_equal B2SF) in H. vm_compute in H. discriminate H.
  - congruence.
Qed.
