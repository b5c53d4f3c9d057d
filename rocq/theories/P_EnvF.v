(** The upper envelope in binary64 (C15). *)
From Coq Require Import Reals Lra Lia Psatz.
From Flocq Require Import Core IEEE754.BinarySingleNaN.
From Verif Require Import Base Num F64 RNum M_Audio M_Align P_Base P_F64 P_Audio P_Score P_R P_Dft P_Win P_NsimF P_LevelF Spec Spec3 Spec14 Spec15 P_Xcorr P_Env P_XcorrF P_AggF P_RangeF.
Open Scope R_scope.

(** ** The closed form *)
Definition mb (f : Z) (c : list R) (i : nat) : R :=
  Sg (List.length c) (fun a => nth a c 0 * cos (2 * PI * IZR (f / 2) * (INR i - INR a) / IZR f)) / IZR f.
Lemma kernel_val (c : list R) f i : (2 <= zlen c <= f)%Z -> (32 <= f)%Z -> (i < List.length c)%nat ->
  let nf := Z.to_nat f in
  Sg nf (fun a => nth a c 0 * Sg nf (fun k => scl1 (List.length c) nf (sigma f (zlen c)) k * cos (INR k * ang nf (Z.of_nat i - Z.of_nat a)))) =
  INR nf * (nth i c 0 - deficit f (zlen c) * mb f c i).
Proof.
  intros H H32 Hi nf. assert (Pf : (0 < nf)%nat) by lia.
  assert (If : IZR f = INR nf) by (rewrite INR_IZR_INZ; f_equal; unfold nf; lia).
  assert (Pf' : 0 < INR nf) by (apply lt_0_INR; auto).
  assert (Len : (2 <= List.length c <= nf)%nat) by (unfold nf, zlen in *; lia).
  assert (NO : forall a, (List.length c <= a)%nat -> nth a c 0 = 0) by (intros a Ha; apply nth_overflow; lia).
  assert (S1 : forall a, (a < nf)%nat -> nth a c 0 * Sg nf (fun k => scl1 (List.length c) nf (sigma f (zlen c)) k * cos (INR k * ang nf (Z.of_nat i - Z.of_nat a))) =
     (if (a =? i)%nat then INR nf * nth a c 0 else 0) - deficit f (zlen c) * (nth a c 0 * cos (2 * PI * IZR (f / 2) * (INR i - INR a) / IZR f))).
  { intros a Ha. rewrite (Sg_ext nf _ (fun k => scl nf (sigma f (zlen c)) k * cos (INR k * ang nf (Z.of_nat i - Z.of_nat a)))).
    2:{ intros k _. unfold scl1. destruct (Nat.eqb_spec (List.length c) 1); [lia|]. reflexivity. }
    rewrite scl_kernel by lia. rewrite (deficit_sigma f) by lia. fold nf.
    replace (INR (nf / 2) * ang nf (Z.of_nat i - Z.of_nat a)) with (2 * PI * IZR (f / 2) * (INR i - INR a) / IZR f).
    2:{ unfold ang. rewrite If. rewrite minus_IZR, <- !INR_IZR_INZ. replace (IZR (f / 2)) with (INR (nf / 2)).
        - unfold Rdiv. ring.
        - rewrite INR_IZR_INZ. f_equal. rewrite Nat2Z.inj_div. unfold nf. lia. }
    replace (((Z.of_nat i - Z.of_nat a) mod Z.of_nat nf =? 0)%Z) with (a =? i)%nat.
    - destruct (a =? i)%nat; ring.
    - destruct (Nat.eqb_spec a i) as [->|D].
      + rewrite Z.sub_diag, Z.mod_0_l by lia. reflexivity.
      + symmetry. apply Z.eqb_neq. intros Q. apply Z.mod_divide in Q; [|lia]. destruct Q as [q Hq]. assert (q = 0)%Z by nia. nia. }
  rewrite (Sg_ext nf _ _ S1). rewrite Sg_minus, Sg_scal.
  rewrite (Sg_one nf i) by first [lia | intros k Hk D; destruct (Nat.eqb_spec k i); [lia|reflexivity]].
  rewrite Nat.eqb_refl.
  assert (S2 : Sg nf (fun a => nth a c 0 * cos (2 * PI * IZR (f / 2) * (INR i - INR a) / IZR f)) = INR nf * mb f c i).
  { unfold mb. rewrite If. transitivity (Sg (List.length c) (fun a => nth a c 0 * cos (2 * PI * IZR (f / 2) * (INR i - INR a) / INR nf))); [|field; lra].
    replace (Sg nf) with (Sg (List.length c + (nf - List.length c))) by (f_equal; lia). rewrite Sg_add.
    rewrite (Sg_zero (nf - _)). 2:{ intros k Hk. rewrite NO by lia. ring. }
    rewrite Rplus_0_r. reflexivity. }
  rewrite S2. ring.
Qed.
Lemma mb_diff f (c c' : list R) i e : List.length c = List.length c' -> (1 <= zlen c <= f)%Z -> (forall a, (a < List.length c)%nat -> Rabs (nth a c 0 - nth a c' 0) <= e) ->
  Rabs (mb f c i - mb f c' i) <= e.
Proof.
  intros L H D. unfold mb. rewrite <- L. unfold Rdiv. rewrite <- Rmult_minus_distr_r, <- Sg_minus.
  assert (PF : 1 <= IZR f) by (apply (IZR_le 1); lia). assert (0 < / IZR f) by (apply Rinv_0_lt_compat; lra).
  rewrite Rabs_mult, (Rabs_pos_eq (/ IZR f)) by lra. apply Rmult_le_reg_r with (IZR f); [lra|]. rewrite Rmult_assoc, Rinv_l, Rmult_1_r by lra.
  eapply Rle_trans; [apply Sg_abs|]. apply Rle_trans with (Sg (List.length c) (fun _ => e)).
  - apply Sg_le. intros a Ha. rewrite <- Rmult_minus_distr_r, Rabs_mult. specialize (D a Ha).
    match goal with |- _ * Rabs (cos ?x) <= _ => pose proof (COS_bound x) as CB; assert (Rabs (cos x) <= 1) by (apply Rabs_le; lra); pose proof (Rabs_pos (cos x)) end.
    pose proof (Rabs_pos (nth a c 0 - nth a c' 0)). nra.
  - rewrite Sg_const. assert (E0 : 0 <= e) by (eapply Rle_trans; [apply Rabs_pos|apply (D O); unfold zlen in H; lia]).
    rewrite Rmult_comm. apply Rmult_le_compat_l; [exact E0|]. rewrite INR_IZR_INZ. apply IZR_le. unfold zlen in H. lia.
Qed.

(** ** The scaling vector holds integers *)
Definition scalZ (len nf : Z) : res (list Z) :=
  let is_odd := (len mod 2 =? 1)%Z in
  let is_non_empty := negb (len =? 0)%Z in
  do s0 <- zset (repeat 0%Z (Z.to_nat nf)) 0 1%Z;
  do s1 <- (if negb is_odd && is_non_empty then zset s0 (len / 2) 1%Z
            else if is_odd && is_non_empty then zset s0 (len / 2) 2%Z
            else Ok s0);
  let n := if is_odd then ((nf + 1) / 2)%Z else (nf / 2)%Z in
  if ((1 <=? n) && (n <=? nf))%Z
  then Ok (firstn 1 s1 ++ repeat 2%Z (Z.to_nat (n - 1)) ++ skipn (Z.to_nat n) s1)%list
  else Panic PIndex.
Definition rmap {A B} (g : A -> B) (r : res A) : res B := do x <- r; Ok (g x).
Lemma map_upd {A B} (g : A -> B) (l : list A) k x : map g (upd l k x) = upd (map g l) k (g x).
Proof. revert k. induction l as [|y l IH]; intros [|k]; cbn [upd map]; auto. rewrite IH. reflexivity. Qed.
Lemma zset_map {A B} (g : A -> B) (l : list A) k x : zset (map g l) k (g x) = rmap (map g) (zset l k x).
Proof. unfold zset, zlen. rewrite map_length. destruct (_ && _); [|reflexivity]. cbn [rmap bind]. rewrite map_upd. reflexivity. Qed.
Lemma map_rep {A B} (g : A -> B) x k : map g (repeat x k) = repeat (g x) k.
Proof. induction k; cbn [repeat map]; congruence. Qed.
Lemma scaling_gen (N : NumOps) len nf : hilbert_scaling (N:=N) len nf = rmap (map (nofZ N)) (scalZ len nf).
Proof.
  unfold hilbert_scaling, scalZ. rewrite <- (map_rep (nofZ N)), (zset_map (nofZ N)).
  destruct (zset _ 0 1%Z) as [s0| |]; cbn [bind rmap]; auto.
  match goal with |- bind ?a _ = rmap _ (bind ?b _) => assert (E : a = rmap (map (nofZ N)) b) end.
  { destruct (_ && _); [apply (zset_map (nofZ N))|]. destruct (_ && _); [apply (zset_map (nofZ N))|reflexivity]. }
  rewrite E. match goal with |- bind (rmap _ ?b) _ = _ => destruct b as [s1| |] end; cbn [bind rmap]; auto.
  set (n := if (len mod 2 =? 1)%Z then _ else _). destruct ((1 <=? n) && (n <=? nf))%Z; [|reflexivity]. unfold rmap. cbn [bind]. rewrite !map_app, firstn_map, skipn_map, map_rep. reflexivity.
Qed.
Lemma scaling_F lm len f : (1 <= len <= f)%Z -> (32 <= f)%Z ->
  exists zs : list Z, hilbert_scaling (N:=F64 lm) len f = Ok (map f64_ofZ zs) /\ List.length zs = Z.to_nat f /\
    forall k, (k < Z.to_nat f)%nat -> (0 <= nth k zs 0 <= 2)%Z /\ IZR (nth k zs 0%Z) = scl1 (Z.to_nat len) (Z.to_nat f) (sigma f len) k.
Proof.
  intros H1 H2. pose proof (scaling_R len f H1 H2) as R. rewrite scaling_gen in R. rewrite scaling_gen.
  destruct (scalZ len f) as [zs| |]; try discriminate. cbn [rmap bind] in *. apply ok_inj in R. exists zs. split; [reflexivity|].
  assert (L : List.length zs = Z.to_nat f). { rewrite <- (map_length (nofZ RN) zs), R, map_length, seq_length. reflexivity. }
  split; [exact L|]. intros k Hk.
  assert (V : IZR (nth k zs 0%Z) = scl1 (Z.to_nat len) (Z.to_nat f) (sigma f len) k).
  { rewrite <- (nth_tab_any 0 (scl1 (Z.to_nat len) (Z.to_nat f) (sigma f len)) (Z.to_nat f) k Hk), <- R. symmetry. apply (map_nth IZR). }
  split; [|exact V].
  assert (C : In (IZR (nth k zs 0%Z)) [IZR 0; IZR 1; IZR 2]).
  { rewrite V. unfold scl1, scl, sigma. repeat match goal with |- context [if ?b then _ else _] => destruct b end; cbn [In]; auto. }
  destruct C as [C|[C|[C|[]]]]; apply eq_IZR in C; lia.
Qed.

(** ** The filter *)
Lemma forward_matrix_F lm (m : FftManager (F64 lm)) (s : list f64) : (zlen s <= fft_size m)%Z ->
  forward_1d_from_matrix m s = lm_fft lm false (map (fun i => (nth i s zz, zz)) (seq 0 (Z.to_nat (fft_size m)))).
Proof.
  intros H. pose proof (forward_F lm m s (zlen s) ltac:(lia)) as E. unfold forward_1d_from_points in E. change (num (F64 lm)) with f64 in *.
  destruct (Z.leb_spec (zlen s) (zlen s)); [|lia]. rewrite Z.sub_diag in E. change (repeat _ (Z.to_nat 0)) with (@nil f64) in E. rewrite app_nil_r in E. apply ok_inj in E. exact E.
Qed.
Lemma near_mult x y X Y a e s : is_finite x = true -> is_finite y = true -> Rabs (B2R x - X) <= a -> Rabs X <= s -> 0 <= e ->
  Rabs (B2R y - Y) <= e * Rabs Y -> (s + a) * (Rabs Y * (1 + e)) <= bpow radix2 1000 ->
  is_finite (Bmult mode_NE x y) = true /\ Rabs (B2R (Bmult mode_NE x y) - X * Y) <= Rabs Y * (a * (1 + e) + s * e) + uu * ((s + a) * (Rabs Y * (1 + e))) + hh.
Proof.
  intros Fx Fy Ex Bx He Ey BB. pose proof (Rabs_pos (B2R x - X)). pose proof (Rabs_pos X). pose proof (Rabs_pos Y).
  assert (MX : Rabs (B2R x) <= s + a). { replace (B2R x) with (X + (B2R x - X)) by ring. eapply Rle_trans; [apply Rabs_triang|]. lra. }
  assert (MY : Rabs (B2R y) <= Rabs Y * (1 + e)). { replace (B2R y) with (Y + (B2R y - Y)) by ring. eapply Rle_trans; [apply Rabs_triang|]. lra. }
  assert (MP : Rabs (B2R x * B2R y) <= (s + a) * (Rabs Y * (1 + e))) by (rewrite Rabs_mult; apply Rmult_le_compat; auto using Rabs_pos).
  destruct (Bmult_fin x y Fx Fy) as [F E]; [apply no_over; lra|]. split; [exact F|]. rewrite E. pose proof (rnd_any (B2R x * B2R y)) as RA.
  assert (UP : 0 < uu) by apply bpow_gt_0.
  assert (D : Rabs (B2R x * B2R y - X * Y) <= Rabs Y * (a * (1 + e) + s * e)).
  { replace (B2R x * B2R y - X * Y) with ((B2R x - X) * B2R y + X * (B2R y - Y)) by ring. eapply Rle_trans; [apply Rabs_triang|]. rewrite !Rabs_mult.
    assert (Rabs (B2R x - X) * Rabs (B2R y) <= a * (Rabs Y * (1 + e))) by (apply Rmult_le_compat; auto using Rabs_pos).
    assert (Rabs X * Rabs (B2R y - Y) <= s * (e * Rabs Y)) by (apply Rmult_le_compat; auto using Rabs_pos). lra. }
  replace (rnd (B2R x * B2R y) - X * Y) with ((rnd (B2R x * B2R y) - B2R x * B2R y) + (B2R x * B2R y - X * Y)) by ring.
  eapply Rle_trans; [apply Rabs_triang|]. assert (uu * Rabs (B2R x * B2R y) <= uu * ((s + a) * (Rabs Y * (1 + e)))) by (apply Rmult_le_compat_l; lra). lra.
Qed.
Lemma Rabs_minus_tri a b : Rabs (a - b) <= Rabs a + Rabs b.
Proof. unfold Rminus. eapply Rle_trans; [apply Rabs_triang|]. rewrite Rabs_Ropp. lra. Qed.
Lemma two30 : bpow radix2 40 = 1099511627776. Proof. apply (bp 40); reflexivity || lia. Qed.
Lemma le_1000 x : x <= bpow radix2 100 -> x <= bpow radix2 1000.
Proof. intros H. eapply Rle_trans; [exact H|]. apply bpow_le. lia. Qed.
Lemma big100 : 1152921504606846976 * 1152921504606846976 / 2 <= bpow radix2 120 /\ 1152921504606846976 <= bpow radix2 100.
Proof.
  split.
  - replace (bpow radix2 120) with (bpow radix2 60 * bpow radix2 60) by (rewrite <- bpow_plus; reflexivity). rewrite (bp 60 (2 ^ 60)) by (reflexivity || lia). change (IZR (2 ^ 60)) with 1152921504606846976. lra.
  - rewrite <- (bp 60 1152921504606846976) by (reflexivity || lia). apply bpow_le. lia.
Qed.
Lemma hilbert_F pf lm (c : list f64) F : fft_close lm -> Forall (fun x => is_finite x = true) c -> magnitude c <= bpow radix2 40 ->
  (2 <= zlen c <= F)%Z -> (32 <= F <= 2 ^ 31)%Z -> (do p <- next_pow_two pf (zlen c); Ok (Z.max p 32)) = Ok F ->
  exists H : list (f64 * f64), calculate_hilbert (N:=F64 lm) pf c = Ok H /\ List.length H = List.length c /\
    forall i, (i < List.length c)%nat ->
      let z := nth i H (zz, zz) in let G := nth i (values c) 0 - deficit F (zlen c) * mb F (values c) i in
      is_finite (fst z) = true /\ is_finite (snd z) = true /\ B2R (snd z) = 0 /\ Rabs G <= 4 * magnitude c /\
      Rabs (B2R (fst z) - (2 * G - 1 / 1000000)) <= 26 * dd * magnitude c + bpow radix2 (-50).
Proof.
  intros FC HF HM H1 H2 HFF. set (S := magnitude c) in *. pose proof (magnitude_pos c) as SP. fold S in SP. rewrite two30 in HM.
  pose proof hh_pos as HP. pose proof hh_tiny as HT. pose proof dd_val as DV. pose proof uu_val as UV. destruct big100 as [_ B100].
  unfold calculate_hilbert, new_fft. change (num (F64 lm)) with f64.
  inv_do HFF. apply ok_inj in Hk. rename Hk into EF. rename v into pp. rewrite Hv. cbn [bind]. change MIN_FFT_SIZE with 32%Z. rewrite EF.
  set (M := @Build_FftManager (F64 lm) F (ndiv (F64 lm) (nofZ (F64 lm) 1) (nofZ (F64 lm) F)) (zlen c)).
  rewrite (forward_matrix_F lm M c) by (cbn [M fft_size]; lia). change (fft_size M) with F.
  set (n := Z.to_nat F). assert (NN : Z.of_nat n = F) by (unfold n; lia).
  assert (LC : (List.length c <= n)%nat) by (unfold zlen in H1; lia).
  set (f1 := lm_fft lm false (map (fun i => (nth i c zz, zz)) (seq 0 n))).
  assert (HM50 : magnitude c <= bpow radix2 50) by (fold S; rewrite b50; lra).
  assert (LF : List.length f1 = n) by exact (proj1 (fft_near lm c n 0 FC LC ltac:(lia) HF HM50)).
  assert (ZF : zlen f1 = F) by (unfold zlen; rewrite LF; exact NN). change (cplx (F64 lm)) with (f64 * f64)%type in *. change (num (F64 lm)) with f64 in *. rewrite ZF.
  destruct (scaling_F lm (zlen c) F ltac:(lia) ltac:(lia)) as (zs & ES & LZ & VZ). rewrite ES. cbn [bind]. fold n in LZ, VZ.
  replace (Z.to_nat (zlen c)) with (List.length c) in VZ by (unfold zlen; lia).
  set (sg := scl1 (List.length c) n (sigma F (zlen c))) in *.
  assert (PX : exists P : list (f64 * f64), P = map (fun k => (Bmult mode_NE (fst (nth k f1 (zz, zz))) (f64_ofZ (nth k zs 0%Z)), Bmult mode_NE (snd (nth k f1 (zz, zz))) (f64_ofZ (nth k zs 0%Z)))) (seq 0 n)) by eauto.
  destruct PX as [P PT].
  match goal with |- context [inverse_1d M ?q] => assert (PQ : q = P) end.
  { rewrite PT. rewrite (list_tab f1 (zz, zz)) at 1. rewrite (list_tab zs 0%Z) at 1. rewrite LF, LZ, map_map. change (num (F64 lm)) with f64.
    rewrite (combine_tab2 (fun i => nth i f1 (zz, zz)) (fun i => f64_ofZ (nth i zs 0%Z))), map_map. reflexivity. }
  rewrite PQ. clear PQ.
  assert (PL : List.length P = n) by (rewrite PT, map_length, seq_length; reflexivity).
  set (X := dft_re false n (sqf c)). set (X' := dft_im false n (sqf c)).
  set (g' := fun k => (X k * sg k, X' k * sg k)). set (g := fun k => cval (nth k P (zz, zz))).
  assert (IN : 32 <= INR n <= 2147483648). { rewrite INR_IZR_INZ, NN. split; [apply (IZR_le 32)|apply (IZR_le _ (2 ^ 31))]; lia. }
  assert (ONE : forall x XX v, near1 S x XX -> (0 <= v <= 2)%Z -> is_finite (Bmult mode_NE x (f64_ofZ v)) = true /\ Rabs (XX * IZR v) <= 2 * S /\ Rabs (B2R (Bmult mode_NE x (f64_ofZ v)) - XX * IZR v) <= 3 * dd * S + 4 * hh).
  { intros x XX v (Fx & Bx & Ex) Hv2. destruct (ofZ_exact v ltac:(lia)) as [Fv Ev]. assert (V2 : 0 <= IZR v <= 2) by (split; [apply (IZR_le 0)|apply (IZR_le _ 2)]; lia).
    assert (AV : Rabs (IZR v) = IZR v) by (apply Rabs_pos_eq; lra).
    assert (D0 : 0 <= dd * S) by (apply Rmult_le_pos; [rewrite DV; lra|lra]).
    assert (Q1 : IZR v * (dd * S + hh) <= 2 * (dd * S + hh)) by (apply Rmult_le_compat_r; lra).
    assert (Q2 : (S + (dd * S + hh)) * IZR v <= (S + (dd * S + hh)) * 2) by (apply Rmult_le_compat_l; lra).
    destruct (near_mult x (f64_ofZ v) XX (IZR v) (dd * S + hh) 0 S Fx Fv Ex Bx ltac:(lra)) as [A B].
    - rewrite Ev, Rminus_diag_eq, Rabs_R0 by reflexivity. lra.
    - apply le_1000. rewrite AV. replace (IZR v * (1 + 0)) with (IZR v) by ring. rewrite DV in *. lra.
    - split; [exact A|]. split; [rewrite Rabs_mult, AV; pose proof (Rabs_pos XX); nra|]. eapply Rle_trans; [exact B|]. rewrite AV.
      replace (IZR v * ((dd * S + hh) * (1 + 0) + S * 0)) with (IZR v * (dd * S + hh)) by ring. replace (IZR v * (1 + 0)) with (IZR v) by ring.
      assert (UQ : uu * ((S + (dd * S + hh)) * IZR v) <= uu * ((S + (dd * S + hh)) * 2)) by (apply Rmult_le_compat_l; [rewrite UV; lra|exact Q2]). rewrite DV, UV in *. lra. }
  assert (G : forall k, (k < n)%nat -> is_finite (fst (nth k P (zz, zz))) = true /\ is_finite (snd (nth k P (zz, zz))) = true /\
     Rabs (fst (g' k)) <= 2 * S /\ Rabs (snd (g' k)) <= 2 * S /\ Rabs (fst (g k) - fst (g' k)) <= 3 * dd * S + 4 * hh /\ Rabs (snd (g k) - snd (g' k)) <= 3 * dd * S + 4 * hh).
  { intros k Hk. destruct (fft_near lm c n k FC LC ltac:(lia) HF HM50) as [_ A]. destruct (A Hk) as [A1 A2]. fold f1 S X X' in A1, A2.
    destruct (VZ k Hk) as [V1 V2]. unfold g, g', cval. rewrite PT, (nth_tab_any (zz, zz)) by exact Hk. cbn [fst snd]. rewrite <- V2.
    destruct (ONE _ _ _ A1 V1) as (Q1 & Q2 & Q3). destruct (ONE _ _ _ A2 V1) as (Q4 & Q5 & Q6). repeat split; assumption. }
  assert (PS : size1 P <= INR n * (5 * S + 8 * hh)).
  { unfold size1. rewrite (list_tab P (zz, zz)), PL, map_map. fold (Sg n (fun k => Rabs (B2R (fst (nth k P (zz, zz)))) + Rabs (B2R (snd (nth k P (zz, zz)))))).
    rewrite <- Sg_const. apply Sg_le. intros k Hk. destruct (G k Hk) as (_ & _ & Q1 & Q2 & Q3 & Q4). change (fst (g k)) with (B2R (fst (nth k P (zz, zz)))) in Q3. change (snd (g k)) with (B2R (snd (nth k P (zz, zz)))) in Q4.
    pose proof (Rabs_triang (fst (g' k)) (B2R (fst (nth k P (zz, zz))) - fst (g' k))) as V1. pose proof (Rabs_triang (snd (g' k)) (B2R (snd (nth k P (zz, zz))) - snd (g' k))) as V2.
    replace (fst (g' k) + (B2R (fst (nth k P (zz, zz))) - fst (g' k))) with (B2R (fst (nth k P (zz, zz)))) in V1 by ring.
    replace (snd (g' k) + (B2R (snd (nth k P (zz, zz))) - snd (g' k))) with (B2R (snd (nth k P (zz, zz)))) in V2 by ring.
    eapply Rle_trans; [apply Rplus_le_compat; [exact (Rle_trans _ _ _ V1 (Rplus_le_compat _ _ _ _ Q1 Q3))|exact (Rle_trans _ _ _ V2 (Rplus_le_compat _ _ _ _ Q2 Q4))]|]. rewrite DV. lra. }
  destruct (FC true P) as [FL FK].
  { assert (ZL : zlen P = Z.of_nat n) by (rewrite <- PL; reflexivity). rewrite ZL. lia. }
  { apply Forall_forall. intros z Hz. apply (In_nth _ _ (zz, zz)) in Hz as (k & Hk & <-). rewrite PL in Hk. destruct (G k Hk) as (Q1 & Q2 & _). split; assumption. }
  { eapply Rle_trans; [exact PS|]. apply Rle_trans with (bpow radix2 31 * bpow radix2 100).
    - apply Rmult_le_compat; [lra|lra|rewrite (bp 31 (2 ^ 31)) by (reflexivity || lia); apply IN|lra].
    - rewrite <- !bpow_plus. apply bpow_le. lia. }
  rewrite PL in FL, FK.
  unfold inverse_1d, time_from_freq_domain. change (fft_size M) with F.
  assert (ZP : zlen P = F) by (unfold zlen; rewrite PL; exact NN). change (num (F64 lm)) with f64 in *.
  change (cplx (F64 lm)) with (f64 * f64)%type. rewrite ZP, Z.eqb_refl. cbn [bind]. unfold apply_reverse_fft_scaling.
  set (sc := inverse_fft_scale M). change (nfft (F64 lm) true P) with (lm_fft lm true P). change (samples_per_channel M) with (zlen c).
  assert (OX : exists out : list f64, out = map (fun x : f64 * f64 => Bmult mode_NE (fst x) sc) (lm_fft lm true P)) by eauto.
  destruct OX as [out OT].
  match goal with |- context [zslice ?q 0 (zlen c)] => assert (OQ : q = out) by (rewrite OT; unfold real_parts; rewrite map_map; reflexivity) end.
  rewrite OQ. clear OQ.
  assert (LO : List.length out = n) by (rewrite OT, map_length; exact FL).
  set (w := List.length c) in *.
  assert (ZS : zslice out 0 (zlen c) = Ok (firstn w out)).
  { apply zslice_ok. split; [unfold zlen in *; rewrite LO; lia|]. rewrite Z.sub_0_r. unfold zlen. rewrite Nat2Z.id. reflexivity. }
  rewrite ZS. cbn [bind]. unfold to_complex. rewrite map_map. unfold csubr, cscale. cbn [fst snd F64 nsub nmul nofZ nlit].
  set (hf := fun x : f64 => (Bminus mode_NE (Bmult mode_NE x (f64_ofZ 2)) (f64_lit 1 6), Bmult mode_NE (f64_ofZ 0) (f64_ofZ 2))).
  assert (HX : exists H : list (f64 * f64), H = map hf (firstn w out)) by eauto. destruct HX as [H HE].
  assert (NHH : forall i, (i < w)%nat -> nth i H (zz, zz) = hf (nth i out zz)).
  { intros i Hi. rewrite HE. rewrite (nth_indep _ (zz, zz) (hf zz)) by (rewrite map_length, firstn_length; lia). rewrite map_nth, nth_firstn by exact Hi. reflexivity. }
  exists H. split; [rewrite HE; reflexivity|]. split; [rewrite HE, map_length, firstn_length, LO; lia|].
  intros i Hi. assert (Hin : (i < n)%nat) by lia. cbv zeta. rewrite (NHH i Hi). unfold hf. cbn [fst snd].
  (* the scale *)
  assert (SC : is_finite (sc : f64) = true /\ Rabs (B2R (sc : f64) - / INR n) <= uu * Rabs (/ INR n)).
  { unfold sc, M. cbn [inverse_fft_scale F64 ndiv nofZ].
    destruct (ofZ_exact F ltac:(lia)) as [Fe Ee]. destruct (ofZ_exact 1 ltac:(lia)) as [Fo Eo].
    assert (V : B2R (f64_ofZ 1) / B2R (f64_ofZ F) = / INR n) by (rewrite Eo, Ee, INR_IZR_INZ, NN; unfold Rdiv; ring).
    assert (I1 : / 2147483648 <= / INR n) by (apply Rinv_le_contravar; lra). assert (I2 : / INR n <= / 32) by (apply Rinv_le_contravar; lra).
    assert (AB : Rabs (/ INR n) = / INR n) by (apply Rabs_pos_eq; lra).
    destruct (Bdiv_fin (f64_ofZ 1) (f64_ofZ F) Fo Fe) as [Fd Ed].
    - rewrite Ee. apply not_0_IZR. lia.
    - rewrite V. apply no_over. rewrite AB. apply le_1000. lra.
    - split; [exact Fd|]. rewrite Ed, V. apply P_Win.rnd_rel. rewrite AB. eapply Rle_trans; [|exact I1].
      replace (/ 2147483648) with (bpow radix2 (-31)) by (apply (bpn 31); reflexivity || lia). apply bpow_le. lia. }
  destruct SC as [FS ESc].
  specialize (FK i Hin). cbv zeta in FK. fold zz in FK. destruct FK as (K1 & _ & K2 & _).
  assert (CV : map cval P = map g (seq 0 n)).
  { rewrite (list_tab P (zz, zz)) at 1. rewrite PL, map_map. reflexivity. }
  rewrite CV, dft_tab, nth_tab_any in K2 by exact Hin. cbn [fst] in K2.
  assert (NO : nth i out zz = Bmult mode_NE (fst (nth i (lm_fft lm true P) (zz, zz))) sc).
  { rewrite OT. rewrite (nth_indep _ zz (Bmult mode_NE (fst (zz, zz)) sc)) by (rewrite map_length, FL; exact Hin).
    rewrite (map_nth (fun x : f64 * f64 => Bmult mode_NE (fst x) sc)). reflexivity. }
  rewrite NO. set (o := fst (nth i (lm_fft lm true P) (zz, zz))) in *.
  pose proof (dft_diff true n g g' i _ (fun j Hj => proj2 (proj2 (proj2 (proj2 (G j Hj)))))) as DD.
  set (GG := nth i (values c) 0 - deficit F (zlen c) * mb F (values c) i).
  assert (CI : dft_re true n g' i = INR n * GG).
  { assert (LVc : List.length (values c) = w) by (unfold values; apply map_length).
    pose proof (kernel_val (values c) F i) as KV. cbv zeta in KV. rewrite zlen_exact, LVc in KV. fold n sg GG in KV. rewrite <- KV by (unfold w in *; lia).
    rewrite <- (filtered n (fun j => nth j (values c) 0)). apply dft_re_ext. intros j. unfold g'. 
    assert (W : dft_re false n (fun i => (nth i (values c) 0, 0)) j = X j) by (unfold X, dft_re; apply Sg_ext; intros k _; unfold sqf; cbn [fst snd]; rewrite nth_exact; reflexivity).
    assert (W' : dft_im false n (fun i => (nth i (values c) 0, 0)) j = X' j) by (unfold X', dft_im; apply Sg_ext; intros k _; unfold sqf; cbn [fst snd]; rewrite nth_exact; reflexivity).
    rewrite W, W'. reflexivity. }
  assert (I1 : INR n * / INR n = 1) by (apply Rinv_r; lra). assert (I2 : 0 < / INR n) by (apply Rinv_0_lt_compat; lra).
  assert (AB : Rabs (/ INR n) = / INR n) by (apply Rabs_pos_eq; lra).
  assert (GB : Rabs (INR n * GG) <= INR n * (4 * S)).
  { rewrite <- CI. eapply Rle_trans; [apply (dft_bnd true n g' i)|]. rewrite <- Sg_const. apply Sg_le. intros k Hk. destruct (G k Hk) as (_ & _ & Q1 & Q2 & _). lra. }
  assert (GB1 : Rabs GG <= 4 * S). { rewrite Rabs_mult, (Rabs_pos_eq (INR n)) in GB by lra. apply Rmult_le_reg_l with (INR n); lra. }
  assert (D0 : 0 <= dd * S) by (apply Rmult_le_pos; [rewrite DV; lra|lra]).
  assert (OE : Rabs (B2R o - INR n * GG) <= INR n * (11 * dd * S + 20 * hh)).
  { rewrite <- CI. replace (B2R o - dft_re true n g' i) with ((B2R o - dft_re true n g i) + (dft_re true n g i - dft_re true n g' i)) by ring.
    eapply Rle_trans; [apply Rabs_triang|]. fold dd hh in K2.
    assert (dd * size1 P <= dd * (INR n * (5 * S + 8 * hh))) by (apply Rmult_le_compat_l; [rewrite DV; lra|exact PS]).
    assert (hh <= INR n * hh) by nra.
    assert (Z : dd * (INR n * (5 * S + 8 * hh)) <= INR n * (5 * dd * S + hh)).
    { replace (dd * (INR n * (5 * S + 8 * hh))) with (INR n * (5 * dd * S + dd * 8 * hh)) by ring.
      apply Rmult_le_compat_l; [lra|]. apply Rplus_le_compat_l. rewrite DV. lra. }
    replace (INR n * (11 * dd * S + 20 * hh)) with (INR n * (5 * dd * S + hh) + INR n * hh + INR n * (2 * (3 * dd * S + 4 * hh)) + INR n * (10 * hh)) by ring.
    assert (0 <= INR n * (10 * hh)) by (apply Rmult_le_pos; lra). lra. }
  assert (UP : 0 < uu < / 1000000) by (rewrite UV; lra).
  (* scaled *)
  assert (R1 : is_finite (Bmult mode_NE o sc) = true /\ Rabs (B2R (Bmult mode_NE o sc) - GG) <= 12 * dd * S + 22 * hh).
  { assert (EQ : (INR n * (4 * S) + INR n * (11 * dd * S + 20 * hh)) * (Rabs (/ INR n) * (1 + uu)) = (4 * S + 11 * dd * S + 20 * hh) * (1 + uu)) by (rewrite AB; field; lra).
    destruct (near_mult o sc (INR n * GG) (/ INR n) _ uu _ K1 FS OE GB ltac:(lra) ESc) as [A B].
    - rewrite EQ. apply le_1000. rewrite DV in *. apply Rle_trans with (100 * S + 1); [nra|lra].
    - split; [exact A|]. replace (INR n * GG * / INR n) with GG in B by (field; lra). eapply Rle_trans; [exact B|]. rewrite EQ. rewrite AB.
      replace (/ INR n * (INR n * (11 * dd * S + 20 * hh) * (1 + uu) + INR n * (4 * S) * uu)) with ((11 * dd * S + 20 * hh) * (1 + uu) + 4 * S * uu) by (field; lra).
      rewrite DV, UV in *. lra. }
  destruct R1 as [FR ER]. set (r := Bmult mode_NE o sc) in *.
  assert (R2 : is_finite (Bmult mode_NE r (f64_ofZ 2)) = true /\ Rabs (B2R (Bmult mode_NE r (f64_ofZ 2)) - GG * 2) <= 25 * dd * S + 46 * hh).
  { destruct (ofZ_exact 2 ltac:(lia)) as [F2 E2]. assert (A2 : Rabs 2 = 2) by (apply Rabs_pos_eq; lra).
    destruct (near_mult r (f64_ofZ 2) GG 2 _ 0 _ FR F2 ER GB1 ltac:(lra)) as [A B].
    - rewrite E2, Rminus_diag_eq, Rabs_R0 by reflexivity. lra.
    - rewrite A2. apply le_1000. rewrite DV. lra.
    - split; [exact A|]. eapply Rle_trans; [exact B|]. rewrite A2. rewrite DV, UV. lra. }
  destruct R2 as [FR2 ER2].
  destruct (lit_ap 1 6 (1 / 1000000) 0) as [FLt ELt]; [lia|lia|lia|reflexivity|change (bpow radix2 0) with 1; rewrite Rabs_pos_eq; lra|].
  assert (L53 : bpow radix2 (0 - 53) = / 9007199254740992) by (apply (bpn 53); reflexivity || lia). rewrite L53 in ELt.
  assert (B50 : bpow radix2 (-50) = / 1125899906842624) by (apply (bpn 50); reflexivity || lia).
  set (r2 := Bmult mode_NE r (f64_ofZ 2)) in *. set (lt := f64_lit 1 6) in *.
  assert (DF : Rabs (B2R r2 - B2R lt - (2 * GG - 1 / 1000000)) <= 25 * dd * S + 46 * hh + / 9007199254740992).
  { replace (B2R r2 - B2R lt - (2 * GG - 1 / 1000000)) with ((B2R r2 - GG * 2) - (B2R lt - 1 / 1000000)) by ring. eapply Rle_trans; [apply Rabs_minus_tri|]. lra. }
  assert (MG : Rabs (B2R r2 - B2R lt) <= 9 * S + 1).
  { replace (B2R r2 - B2R lt) with ((2 * GG - 1 / 1000000) + (B2R r2 - B2R lt - (2 * GG - 1 / 1000000))) by ring. eapply Rle_trans; [apply Rabs_triang|].
    assert (Rabs (2 * GG - 1 / 1000000) <= 8 * S + 1 / 1000000). { eapply Rle_trans; [apply Rabs_minus_tri|]. rewrite Rabs_mult, (Rabs_pos_eq 2), (Rabs_pos_eq (1 / 1000000)) by lra. lra. }
    rewrite DV in *. lra. }
  destruct (Bminus_fin r2 lt FR2 FLt) as [FM EM]. { apply no_over, le_1000. lra. }
  split; [exact FM|]. split; [reflexivity|]. split; [reflexivity|]. split; [exact GB1|].
  rewrite EM. pose proof (rnd_any (B2R r2 - B2R lt)) as RA.
  replace (rnd (B2R r2 - B2R lt) - (2 * GG - 1 / 1000000)) with ((rnd (B2R r2 - B2R lt) - (B2R r2 - B2R lt)) + (B2R r2 - B2R lt - (2 * GG - 1 / 1000000))) by ring.
  eapply Rle_trans; [apply Rabs_triang|]. rewrite B50. rewrite DV, UV in *. lra.
Qed.

(** ** The envelope *)
Lemma magnitude_le (s : list f64) B : Forall (fun x => Rabs (B2R x) <= B) s -> magnitude s <= IZR (zlen s) * B.
Proof.
  intros H. unfold magnitude. induction H as [|x t Hx Ht IH]; [cbn; unfold Rsum; cbn; lra|].
  cbn [map]. rewrite Rsum_cons, zlen_cons, plus_IZR. lra.
Qed.
Lemma mean_eq (l : list R) : mean_signal l = mean_R l.
Proof. unfold mean_signal, mean_R, zlen. rewrite INR_IZR_INZ. reflexivity. Qed.
Lemma deficit_bnd f len : 0 <= deficit f len <= 2.
Proof. unfold deficit. repeat match goal with |- context [if ?b then _ else _] => destruct b end; lra. Qed.
Lemma envelope_F pf lm (x : list f64) : fft_close lm -> hypot_close lm ->
  Forall (fun v => is_finite v = true /\ Rabs (B2R v) <= 1) x -> (2 <= zlen x <= 2 ^ 20)%Z ->
  exists p env, next_pow_two pf (zlen x) = Ok p /\ calculate_upper_env (N:=F64 lm) pf x = Ok (Some env) /\
    List.length env = List.length x /\
    let f := Z.max p 32 in let xs := values x in
    forall i, (i < List.length x)%nat ->
      is_finite (nth i env zz) = true /\
      Rabs (B2R (nth i env zz) - (Rabs (2 * (centred xs i - deficit f (zlen x) * middle_bin f xs i) - 1 / 1000000) + mean_signal xs)) <= bpow radix2 (-37) * IZR (zlen x).
Proof.
  intros FC HC HX HN. destruct (npt_bounds pf (zlen x) 20) as (p & EP & PB); try lia.
  pose proof hh_pos as HP. pose proof hh_tiny as HT. pose proof dd_val as DV. pose proof uu_val as UV. destruct big100 as [_ B100].
  set (N := IZR (zlen x)). assert (NB : 2 <= N <= 1048576) by (unfold N; split; [apply (IZR_le 2)|apply (IZR_le _ (2 ^ 20))]; lia).
  set (m := mean_signal (values x)).
  assert (HX2 : Forall similarity_like x) by (eapply Forall_impl; [|exact HX]; intros v [V1 V2]; split; [exact V1|lra]).
  pose proof (nd_mean_ap lm x HX2 ltac:(lia)) as [FM EM]. fold N in EM. fold (values x) in EM. rewrite <- mean_eq in EM. fold m in EM.
  set (mu := Bdiv mode_NE (nd_sum (N:=F64 lm) x) (f64_ofZ (zlen x))) in *. set (em := uu * (4 * N + 4)) in *.
  assert (XN : x <> []) by (intros ->; cbn in HN; lia).
  assert (MB : Rabs m <= 1).
  { unfold m. rewrite mean_eq. apply mean_R_bound; [unfold values; destruct x; [congruence|discriminate]|].
    unfold values. apply Forall_map. eapply Forall_impl; [|exact HX]. intros v [_ V]. exact V. }
  assert (EMB : 0 <= em <= / 1000000) by (unfold em; rewrite UV; lra).
  set (ec := em + 8 * uu).
  assert (ECB : 0 <= ec <= / 500000) by (unfold ec; rewrite UV; lra).
  assert (MU : Rabs (B2R mu) <= 1 + em). { replace (B2R mu) with (m + (B2R mu - m)) by ring. eapply Rle_trans; [apply Rabs_triang|]. lra. }
  assert (SUB : forall v : f64, is_finite v = true -> Rabs (B2R v) <= 1 -> is_finite (Bminus mode_NE v mu) = true /\ Rabs (B2R (Bminus mode_NE v mu) - (B2R v - m)) <= ec).
  { intros v Fv Bv. assert (MV : Rabs (B2R v - B2R mu) <= 5) by (eapply Rle_trans; [apply Rabs_minus_tri|]; lra).
    destruct (Bminus_fin v mu Fv FM) as [F E]; [apply no_over, le_1000; lra|]. split; [exact F|]. rewrite E.
    replace (rnd (B2R v - B2R mu) - (B2R v - m)) with ((rnd (B2R v - B2R mu) - (B2R v - B2R mu)) - (B2R mu - m)) by ring.
    eapply Rle_trans; [apply Rabs_minus_tri|]. pose proof (rnd_any (B2R v - B2R mu)) as RA.
    assert (UM : uu * Rabs (B2R v - B2R mu) <= uu * 5) by (apply Rmult_le_compat_l; [rewrite UV; lra|exact MV]). unfold ec.
    assert (HU : hh <= uu). { unfold hh, uu. apply bpow_le. lia. } lra. }
  assert (CX : exists c : list f64, c = map (fun v => Bminus mode_NE v mu) x) by eauto. destruct CX as [c CE].
  assert (LC : List.length c = List.length x) by (rewrite CE; apply map_length).
  assert (ZC : zlen c = zlen x) by (unfold zlen; rewrite LC; reflexivity).
  assert (FCc : Forall (fun v => is_finite v = true) c).
  { rewrite CE. apply Forall_map. eapply Forall_impl; [|exact HX]. intros v [V1 V2]. apply SUB; assumption. }
  assert (NC : forall a, (a < List.length x)%nat -> Rabs (nth a (values c) 0 - centred (values x) a) <= ec).
  { intros a Ha. rewrite nth_exact, CE. rewrite (nth_indep _ (f64_ofZ 0) ((fun v => Bminus mode_NE v mu) (f64_ofZ 0))) by (rewrite map_length; exact Ha).
    rewrite (map_nth (fun v => Bminus mode_NE v mu)). unfold centred. rewrite nth_exact. rewrite Forall_forall in HX.
    destruct (HX (nth a x (f64_ofZ 0)) (nth_In _ _ Ha)) as [V1 V2]. apply SUB; assumption. }
  assert (MC : magnitude c <= N * (2 + / 1000)).
  { unfold N. rewrite <- ZC. apply magnitude_le. rewrite CE. apply Forall_map. eapply Forall_impl; [|exact HX]. intros v [V1 V2].
    destruct (SUB v V1 V2) as [_ E]. set (b := B2R (Bminus mode_NE v mu)) in *. replace b with ((B2R v - m) + (b - (B2R v - m))) by ring.
    eapply Rle_trans; [apply Rabs_triang|]. pose proof (Rabs_minus_tri (B2R v) m). lra. }
  pose proof (magnitude_pos c) as SP. set (S := magnitude c) in *.
  destruct (hilbert_F pf lm c (Z.max p 32) FC FCc) as (H & EH & LH & VH).
  { fold S. rewrite two30. lra. }
  { rewrite ZC. lia. } { lia. } { rewrite ZC, EP. reflexivity. }
  assert (EX : exists env : list f64, env = map (fun z : f64 * f64 => Bplus mode_NE (lm_hypot lm (fst z) (snd z)) mu) H) by eauto. destruct EX as [env EE'].
  exists p, env. split; [exact EP|]. split.
  { unfold calculate_upper_env. assert (M : nd_mean (N:=F64 lm) x = Some mu) by (destruct x; [congruence|reflexivity]).
    change (num (F64 lm)) with f64. rewrite M. cbn [F64 nsub]. rewrite CE in EH.
    etransitivity; [apply (f_equal (fun r => bind r _) EH)|]. cbn [bind]. rewrite EE'. reflexivity. }
  assert (LE : List.length env = List.length x) by (rewrite EE', map_length, LH; exact LC).
  split; [exact LE|]. cbv zeta. set (f := Z.max p 32) in *. intros i Hi.
  rewrite EE'. rewrite (nth_indep _ zz ((fun z : f64 * f64 => Bplus mode_NE (lm_hypot lm (fst z) (snd z)) mu) (zz, zz))) by (rewrite map_length, LH, LC; exact Hi).
  rewrite (map_nth (fun z : f64 * f64 => Bplus mode_NE (lm_hypot lm (fst z) (snd z)) mu)).
  specialize (VH i ltac:(rewrite LC; exact Hi)). cbv zeta in VH. fold S in VH. rewrite ZC in VH. destruct VH as (F1 & F2 & Z2 & GB & EG).
  set (z := nth i H (zz, zz)) in *. set (G' := nth i (values c) 0 - deficit f (zlen x) * mb f (values c) i) in *.
  set (G := centred (values x) i - deficit f (zlen x) * middle_bin f (values x) i).
  assert (DG : Rabs (G' - G) <= 3 * ec).
  { set (cx := map (centred (values x)) (seq 0 (List.length x))).
    assert (NX : forall a, (a < List.length x)%nat -> nth a cx 0 = centred (values x) a) by (intros a Ha; unfold cx; apply nth_tab_any; exact Ha).
    assert (LX : List.length cx = List.length x) by (unfold cx; rewrite map_length, seq_length; reflexivity).
    assert (MM : middle_bin f (values x) i = mb f cx i).
    { unfold middle_bin, mb. rewrite LX. f_equal. unfold values. rewrite map_length. fold (values x). unfold Sg. f_equal. apply map_ext_in. intros a Ha. apply in_seq in Ha. rewrite NX by lia. reflexivity. }
    assert (LV : List.length (values c) = List.length x) by (unfold values; rewrite map_length; exact LC).
    assert (DM : Rabs (mb f (values c) i - mb f cx i) <= ec).
    { apply mb_diff; [rewrite LV, LX; reflexivity|rewrite zlen_exact, ZC; lia|]. intros a Ha. rewrite LV in Ha. rewrite NX by exact Ha. apply NC. exact Ha. }
    unfold G', G. rewrite MM. pose proof (deficit_bnd f (zlen x)) as DB. set (q := deficit f (zlen x)) in *.
    replace (nth i (values c) 0 - q * mb f (values c) i - (centred (values x) i - q * mb f cx i)) with ((nth i (values c) 0 - centred (values x) i) - q * (mb f (values c) i - mb f cx i)) by ring.
    eapply Rle_trans; [apply Rabs_minus_tri|]. rewrite Rabs_mult, (Rabs_pos_eq q) by lra. specialize (NC i Hi).
    assert (q * Rabs (mb f (values c) i - mb f cx i) <= 2 * ec) by (apply Rmult_le_compat; try lra; apply Rabs_pos). lra. }
  assert (B50 : bpow radix2 (-50) = / 1125899906842624) by (apply (bpn 50); reflexivity || lia).
  assert (B32 : bpow radix2 (-37) = 128 * dd) by (unfold dd; change 128 with (bpow radix2 7); rewrite <- bpow_plus; reflexivity).
  assert (D0 : 0 <= dd * S) by (apply Rmult_le_pos; [rewrite DV; lra|lra]).
  set (h := B2R (fst z)) in *. rewrite B50 in EG.
  assert (HE : Rabs (h - (2 * G - 1 / 1000000)) <= 26 * dd * S + / 1125899906842624 + 6 * ec).
  { replace (h - (2 * G - 1 / 1000000)) with ((h - (2 * G' - 1 / 1000000)) + 2 * (G' - G)) by ring. eapply Rle_trans; [apply Rabs_triang|]. rewrite Rabs_mult, (Rabs_pos_eq 2) by lra. lra. }
  assert (HA : Rabs h <= 9 * S + 1).
  { replace h with ((2 * G' - 1 / 1000000) + (h - (2 * G' - 1 / 1000000))) by ring. eapply Rle_trans; [apply Rabs_triang|].
    pose proof (Rabs_minus_tri (2 * G') (1 / 1000000)) as T1. rewrite Rabs_mult, (Rabs_pos_eq 2), (Rabs_pos_eq (1 / 1000000)) in T1 by lra. rewrite DV in *. lra. }
  destruct (HC (fst z) (snd z) F1 F2) as [FH EHy].
  { rewrite Z2, Rabs_R0. fold h. eapply Rle_trans; [|apply (bpow_le radix2 100 900); lia]. lra. }
  rewrite Z2, Rabs_R0 in EHy. fold h in EHy. replace (h * h + 0 * 0) with (Rsqr h) in EHy by (unfold Rsqr; ring). rewrite sqrt_Rsqr_abs in EHy.
  fold dd hh in EHy. set (v := lm_hypot lm (fst z) (snd z)) in *.
  set (w := Rabs (2 * G - 1 / 1000000)).
  assert (VW : Rabs (B2R v - w) <= 36 * dd * S + / 1125899906842624 + 6 * ec + dd + hh).
  { replace (B2R v - w) with ((B2R v - Rabs h) + (Rabs h - w)) by ring. eapply Rle_trans; [apply Rabs_triang|].
    pose proof (Rabs_triang_inv2 h (2 * G - 1 / 1000000)) as T. fold w in T.
    assert (dd * (Rabs h + 0) <= dd * (9 * S + 1)) by (apply Rmult_le_compat_l; [rewrite DV; lra|lra]). lra. }
  assert (VB : Rabs (B2R v) <= 10 * S + 2).
  { replace (B2R v) with (Rabs h + (B2R v - Rabs h)) by ring. eapply Rle_trans; [apply Rabs_triang|]. rewrite (Rabs_pos_eq (Rabs h)) by apply Rabs_pos. rewrite DV in *. lra. }
  assert (SB : Rabs (B2R v + B2R mu) <= 10 * S + 5) by (eapply Rle_trans; [apply Rabs_triang|]; lra).
  destruct (Bplus_fin v mu FH FM) as [FE E]; [apply no_over, le_1000; lra|]. split; [exact FE|]. rewrite E.
  fold m G. fold w.
  replace (rnd (B2R v + B2R mu) - (w + m)) with ((rnd (B2R v + B2R mu) - (B2R v + B2R mu)) + ((B2R v - w) + (B2R mu - m))) by ring.
  eapply Rle_trans; [apply Rabs_triang|]. pose proof (Rabs_triang (B2R v - w) (B2R mu - m)) as T3. pose proof (rnd_any (B2R v + B2R mu)) as RA.
  assert (uu * Rabs (B2R v + B2R mu) <= uu * (10 * S + 5)) by (apply Rmult_le_compat_l; [rewrite UV; lra|exact SB]).
  assert (DS : dd * S <= dd * (N * (2 + / 1000))) by (apply Rmult_le_compat_l; [rewrite DV; lra|exact MC]).
  fold N. rewrite B32. unfold ec, em in *. rewrite DV, UV in *. lra.
Qed.

Lemma envelope_pow2_F pf lm (x : list f64) k : fft_close lm -> hypot_close lm ->
  Forall (fun v => is_finite v = true /\ Rabs (B2R v) <= 1) x -> (5 <= k <= 20)%Z -> zlen x = (2 ^ k)%Z ->
  exists env, calculate_upper_env (N:=F64 lm) pf x = Ok (Some env) /\ List.length env = List.length x /\
    forall i, (i < List.length x)%nat -> is_finite (nth i env zz) = true /\
      Rabs (B2R (nth i env zz) - (Rabs (2 * (nth i (values x) 0 - mean_signal (values x)) - 1 / 1000000) + mean_signal (values x))) <= bpow radix2 (-37) * IZR (zlen x).
Proof.
  intros FC HC HX Hm L. assert (2 ^ k <= 2 ^ 20)%Z by (apply Z.pow_le_mono_r; lia). assert (2 ^ 5 <= 2 ^ k)%Z by (apply Z.pow_le_mono_r; lia).
  destruct (envelope_F pf lm x FC HC HX) as (p & env & P & E & LE & V); [lia|]. exists env. split; auto. split; auto. cbv zeta in V. intros i Hi. specialize (V i Hi).
  rewrite L, npt_pow in P by lia. apply ok_inj in P. subst p. rewrite L in V. replace (Z.max (2 ^ k) 32) with (2 ^ k)%Z in V by lia. rewrite L.
  unfold deficit in V. assert (Ev : Z.even (2 ^ k) = true) by (rewrite Z.even_pow by lia; reflexivity).
  rewrite Ev, Z.eqb_refl in V. unfold centred in V. rewrite Rmult_0_l, Rminus_0_r in V. exact V.
Qed.
Lemma tone_per i : tone (4 + i) = tone i.
Proof.
  unfold tone, ang. replace (INR (4 + i) * (2 * PI * 8 / INR 32)) with (INR i * (2 * PI * 8 / INR 32) + 2 * PI * IZR 1); [apply cos_2kpi|].
  rewrite plus_INR. rewrite !INR_IZR_INZ. change (Z.of_nat 32) with 32%Z. change (Z.of_nat 4) with 4%Z. field.
Qed.
Lemma tone_2 : tone 2 = -1.
Proof.
  unfold tone, ang. replace (INR 2 * (2 * PI * 8 / INR 32)) with PI; [apply cos_PI|].
  rewrite !INR_IZR_INZ. change (Z.of_nat 32) with 32%Z. change (Z.of_nat 2) with 2%Z. field.
Qed.
Lemma tone_3 : tone 3 = 0.
Proof.
  unfold tone, ang. replace (INR 3 * (2 * PI * 8 / INR 32)) with (3 * (PI / 2)); [apply cos_3PI2|].
  rewrite !INR_IZR_INZ. change (Z.of_nat 32) with 32%Z. change (Z.of_nat 3) with 3%Z. field.
Qed.
Definition tone_f64 : list f64 := map f64_ofZ (List.concat (repeat [1; 0; -1; 0]%Z 8)).
Lemma tone_values : values tone_f64 = map tone (seq 0 32).
Proof.
  assert (P : forall r, tone (S (S (S (S r)))) = tone r) by exact tone_per.
  unfold values, tone_f64. cbn [List.concat repeat app map seq]. rewrite !P, tone_0, tone_1, tone_2, tone_3. rewrite !ofZ_B2R by lia. reflexivity.
Qed.
Lemma tone_witness_F : exists (x : list f64) z, zlen x = 32%Z /\ analytic z (values x) /\ (forall i, (i < 32)%nat -> modulus (nth i z (0, 0)) = 1) /\
  forall pf lm, fft_close lm -> hypot_close lm -> exists env, calculate_upper_env (N:=F64 lm) pf x = Ok (Some env) /\
    Rabs (B2R (nth 0 env zz) - 2) <= / 100000 /\ Rabs (B2R (nth 1 env zz)) <= / 100000.
Proof.
  exists tone_f64, (map (fun i => (tone i, quad i)) (seq 0 32)). rewrite tone_values.
  assert (LX : List.length (map tone (seq 0 32)) = 32%nat) by (rewrite map_length, seq_length; reflexivity).
  split; [reflexivity|]. split; [|split].
  - split; [rewrite map_map; reflexivity|]. rewrite LX. intros k H2 Hk. rewrite dft_tab, nth_tab by auto.
    destruct (quad_dft k) as [-> ->]; auto. lia.
  - intros i Hi. rewrite nth_tab by auto. unfold modulus. cbn [fst snd]. unfold tone, quad.
    assert (Q := sin2_cos2 (INR i * ang 32 8)). unfold Rsqr in Q.
    replace (_ + _) with 1 by lra. apply sqrt_1.
  - intros pf lm FC HC. destruct (envelope_pow2_F pf lm tone_f64 5 FC HC) as (env & E & L & V); [|lia|reflexivity|].
    { unfold tone_f64. apply Forall_map. apply Forall_forall. intros v Hv. assert (B : (Z.abs v <= 1)%Z).
      { cbn [List.concat repeat app] in Hv. repeat (destruct Hv as [<- |Hv]; [lia|]). destruct Hv. }
      destruct (ofZ_exact v ltac:(lia)) as [F EV]. split; [exact F|]. rewrite EV, <- abs_IZR. apply (IZR_le _ 1). lia. }
    exists env. split; [exact E|]. rewrite tone_values, tone_mean in V. change (IZR (zlen tone_f64)) with 32 in V.
    assert (B32 : bpow radix2 (-37) = / 137438953472) by (apply (bpn 37); reflexivity || lia). rewrite B32 in V.
    destruct (V 0%nat) as [_ V0]; [cbn; lia|]. destruct (V 1%nat) as [_ V1]; [cbn; lia|].
    rewrite nth_tab, tone_0 in V0 by lia. rewrite nth_tab, tone_1 in V1 by lia.
    rewrite (Rabs_pos_eq (2 * (1 - 0) - 1 / 1000000)) in V0 by lra. rewrite (Rabs_left (2 * (0 - 0) - 1 / 1000000)) in V1 by lra.
    apply Rabs_le_inv in V0, V1. split; apply Rabs_le; lra.
Qed.
