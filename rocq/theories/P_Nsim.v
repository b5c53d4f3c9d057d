(** C36: the similarity map. *)
From Coq Require Import Reals Lra Psatz.
From Flocq Require Import Core BinarySingleNaN.
From Verif Require Import Base Num Mat M_Audio M_Nsim F64 RNum P_Base P_Mat P_F64 P_R Spec Spec2 P_Conv.

Section Gen.
Context {N : NumOps}.
Notation T := (num N).
Definition prod (a b : mat N) : mat N := mbuild (mrows a) (mcols a) (fun i j => nmul N (mget a i j) (mget b i j)).
Definition entry_of (mr md crr cdd crd : T) : T :=
  let rr := nmul N mr mr in let dd := nmul N md md in let rd := nmul N mr md in
  let p := nmul N (nsub N crr rr) (nsub N cdd dd) in
  nmul N (ndiv N (nadd N (nmul N rd (nofZ N 2)) nsim_c1) (nadd N (nadd N rr dd) nsim_c1))
         (ndiv N (nadd N (nsub N crd rd) nsim_c3) (if nltb N p (nofZ N 0) then nsim_c3 else nadd N (nsqrt N p) nsim_c3)).
Definition nsim_entry (r d : mat N) (i j : nat) : T :=
  entry_of (conv3 nsim_window r i j) (conv3 nsim_window d i j) (conv3 nsim_window (prod r r) i j)
    (conv3 nsim_window (prod d d) i j) (conv3 nsim_window (prod r d) i j).
Lemma window_wf : mat_wf (nsim_window (N:=N)). Proof. split; [reflexivity|]. repeat constructor. Qed.
Lemma prod_wf a b : mat_wf (prod a b). Proof. apply mbuild_wf. Qed.
Lemma nsim_map_ok (r d : mat N) : mat_wf r -> mat_wf d -> mrows d = mrows r -> mcols d = mcols r -> (1 <= mrows r)%nat -> (1 <= mcols r)%nat ->
  nsim_map r d = Ok (mbuild (mrows r) (mcols r) (nsim_entry r d)).
Proof.
  intros Wr Wd Hr Hc R1 C1. unfold nsim_map. cbv zeta.
  assert (CV : forall m : mat N, mat_wf m -> mrows m = mrows r -> mcols m = mcols r -> exists o, perform_valid_2d_conv_with_boundary nsim_window m = Ok o /\
     mat_wf o /\ mrows o = mrows r /\ mcols o = mcols r /\ forall i j, (i < mrows r)%nat -> (j < mcols r)%nat -> mget o i j = conv3 nsim_window m i j).
  { intros m Wm Er Ec. destruct (C35_gen nsim_window m window_wf eq_refl eq_refl Wm ltac:(lia) ltac:(lia)) as (o & E1 & E2 & E3 & E4 & E5).
    exists o. rewrite <- Er, <- Ec. auto. }
  destruct (CV r Wr eq_refl eq_refl) as (mr & -> & _ & Rmr & Cmr & Emr).
  destruct (CV d Wd Hr Hc) as (md & -> & _ & Rmd & Cmd & Emd). cbn [bind].
  rewrite !mzip_same by lia. cbn [bind].
  rewrite !mzip_same by (cbn [mrows mcols mbuild]; lia). cbn [bind].
  change (mbuild (mrows r) (mcols r) (fun i j => nmul N (mget r i j) (mget r i j))) with (prod r r).
  change (mbuild (mrows d) (mcols d) (fun i j => nmul N (mget d i j) (mget d i j))) with (prod d d).
  change (mbuild (mrows r) (mcols r) (fun i j => nmul N (mget r i j) (mget d i j))) with (prod r d).
  destruct (CV (prod r r) (prod_wf _ _) eq_refl eq_refl) as (crr & -> & _ & Rcrr & Ccrr & Ecrr). cbn [bind].
  rewrite !mzip_same by (cbn [mrows mcols mbuild]; lia). cbn [bind].
  destruct (CV (prod d d) (prod_wf _ _) Hr Hc) as (cdd & -> & _ & Rcdd & Ccdd & Ecdd). cbn [bind].
  rewrite !mzip_same by (cbn [mrows mcols mbuild]; lia). cbn [bind].
  destruct (CV (prod r d) (prod_wf _ _) eq_refl eq_refl) as (crd & -> & _ & Rcrd & Ccrd & Ecrd). cbn [bind].
  repeat (rewrite mzip_same by (unfold mmap; cbn [mrows mcols mbuild]; lia); cbn [bind]).
  f_equal. cbn [mmap mrows mcols mbuild]. rewrite Rmr, Cmr.
  apply mbuild_ext. intros i j Hi Hj.
  unfold mmap. cbn [mrows mcols]. 
  repeat (rewrite mget_mbuild by (cbn [mrows mcols mbuild]; lia)).
  rewrite Emr, Emd, Ecrr, Ecdd, Ecrd by lia. reflexivity.
Qed.
End Gen.

(** ** Commutativity of binary64 addition and multiplication *)
Lemma Bmult_comm (x y : f64) : Bmult mode_NE x y = Bmult mode_NE y x.
Proof.
  destruct (is_finite x) eqn:Fx; [destruct (is_finite y) eqn:Fy|].
  - pose proof (Bmult_correct 53 1024 _ _ mode_NE x y) as C1. pose proof (Bmult_correct 53 1024 _ _ mode_NE y x) as C2.
    rewrite (Rmult_comm (B2R y)) in C2. rewrite (Bool.xorb_comm (Bsign y)) in C2.
    destruct (Rlt_bool _ _).
    + destruct C1 as (A1 & B1 & S1). destruct C2 as (A2 & B2 & S2). rewrite Fx, Fy in *.
      apply B2R_Bsign_inj; auto; [congruence|].
      rewrite S1, S2; auto.
      * destruct (Bmult mode_NE y x); auto; discriminate.
      * destruct (Bmult mode_NE x y); auto; discriminate.
    + apply B2SF_inj. congruence.
  - destruct x, y; try discriminate; auto; cbn; rewrite ?(Bool.xorb_comm s); auto.
  - destruct x, y; try discriminate; auto; cbn; rewrite ?(Bool.xorb_comm s); auto.
Qed.
Lemma Bplus_comm (x y : f64) : Bplus mode_NE x y = Bplus mode_NE y x.
Proof.
  destruct (is_finite x) eqn:Fx; [destruct (is_finite y) eqn:Fy|].
  - pose proof (Bplus_correct 53 1024 _ _ mode_NE x y Fx Fy) as C1. pose proof (Bplus_correct 53 1024 _ _ mode_NE y x Fy Fx) as C2.
    rewrite (Rplus_comm (B2R y)) in C2. destruct (Rlt_bool _ _).
    + destruct C1 as (A1 & B1 & S1). destruct C2 as (A2 & B2 & S2).
      apply B2R_Bsign_inj; auto; [congruence|]. rewrite S1, S2.
      destruct (Rcompare _ 0); auto. cbn. destruct (Bsign x), (Bsign y); auto.
    + destruct C1 as [C1 D1]. destruct C2 as [C2 D2]. apply B2SF_inj. rewrite C1, C2, D1. auto.
  - destruct x, y; try discriminate; auto; cbn; destruct s, s0; auto.
  - destruct x, y; try discriminate; auto; cbn; destruct s, s0; auto.
Qed.

Section Sym.
Context {N : NumOps}.
Notation T := (num N).
Hypothesis mulC : forall x y : T, nmul N x y = nmul N y x.
Hypothesis addC : forall x y : T, nadd N x y = nadd N y x.
Lemma entry_sym mr md crr cdd crd : entry_of (N:=N) md mr cdd crr crd = entry_of mr md crr cdd crd.
Proof.
  unfold entry_of. cbv zeta. rewrite (mulC md mr). rewrite (addC (nmul N md md)).
  rewrite (mulC (nsub N cdd _)). reflexivity.
Qed.
Lemma nsim_sym (r d : mat N) i j : mrows d = mrows r -> mcols d = mcols r -> nsim_entry d r i j = nsim_entry r d i j.
Proof.
  intros Hr Hc. unfold nsim_entry. assert (E : prod d r = prod r d).
  { unfold prod. rewrite Hr, Hc. apply mbuild_ext. intros. apply mulC. }
  rewrite E. apply entry_sym.
Qed.
End Sym.
Section Meas.
Context {N : NumOps}.
Notation T := (num N).
Lemma measure_ok (r d : mat N) : mat_wf r -> mat_wf d -> mrows d = mrows r -> mcols d = mcols r -> (1 <= mrows r)%nat -> (1 <= mcols r)%nat ->
  let m := mbuild (mrows r) (mcols r) (nsim_entry r d) in
  exists means stds energy, mean_axis1_f m = Some means /\ std_axis1 m = Ok stds /\ mean_axis1_c d = Some energy /\
    means <> [] /\
    measure_patch_similarity r d = Ok (new_patch_sim means stds energy (ndiv N (nd_sum means) (nofZ N (zlen means)))).
Proof.
  intros Wr Wd Hr Hc R1 C1 m. unfold measure_patch_similarity. rewrite nsim_map_ok by auto. fold m. cbn [bind].
  unfold mean_axis1_c at 2. destruct (Nat.eqb_spec (mcols d) 0); [lia|]. cbn [bind].
  assert (Em : exists means, mean_axis1_f m = Some means /\ means <> []).
  { unfold mean_axis1_f. destruct (Nat.eqb_spec (mcols m) 0) as [E|_]; [cbn [m mcols mbuild] in E; lia|].
    eexists. split; [reflexivity|]. cbn [m mdata mbuild]. destruct (mrows r); [lia|]. discriminate. }
  destruct Em as (means & Em & Nm). rewrite Em. cbn [bind].
  assert (Es : exists stds, std_axis1 m = Ok stds).
  { unfold std_axis1. destruct (Nat.eqb_spec (mcols m) 0) as [E|_]; [cbn [m mcols mbuild] in E; lia|]. eauto. }
  destruct Es as (stds & Es). rewrite Es. cbn [bind].
  unfold nd_mean. destruct means as [|x t]; [congruence|]. cbn [bind].
  exists (x :: t), stds. eexists. repeat split; auto.
  unfold mean_axis1_c. destruct (Nat.eqb_spec (mcols d) 0); [lia|]. reflexivity.
Qed.
Lemma C36_sym (r d : mat N) (mulC : forall x y : T, nmul N x y = nmul N y x) (addC : forall x y : T, nadd N x y = nadd N y x) :
  mat_wf r -> mat_wf d -> mrows d = mrows r -> mcols d = mcols r -> (1 <= mrows r)%nat -> (1 <= mcols r)%nat ->
  exists p q, measure_patch_similarity r d = Ok p /\ measure_patch_similarity d r = Ok q /\
    freq_band_means p = freq_band_means q /\ freq_band_stddevs p = freq_band_stddevs q /\ similarity p = similarity q.
Proof.
  intros Wr Wd Hr Hc R1 C1.
  destruct (measure_ok r d Wr Wd Hr Hc R1 C1) as (m1 & s1 & e1 & A1 & A2 & A3 & A4 & A5).
  destruct (measure_ok d r Wd Wr ltac:(lia) ltac:(lia) ltac:(lia) ltac:(lia)) as (m2 & s2 & e2 & B1 & B2 & B3 & B4 & B5).
  assert (E : mbuild (mrows d) (mcols d) (nsim_entry d r) = mbuild (mrows r) (mcols r) (nsim_entry r d)).
  { rewrite Hr, Hc. apply mbuild_ext. intros. apply nsim_sym; auto. }
  rewrite E in *. rewrite A1 in B1. injection B1 as <-. rewrite A2 in B2. injection B2 as <-.
  eexists. eexists. split; [exact A5|]. split; [exact B5|]. cbn. auto.
Qed.
End Meas.
Lemma C36_sym_f64 lm (r d : mat (F64 lm)) :
  mat_wf r -> mat_wf d -> mrows d = mrows r -> mcols d = mcols r -> (1 <= mrows r)%nat -> (1 <= mcols r)%nat ->
  exists p q, measure_patch_similarity r d = Ok p /\ measure_patch_similarity d r = Ok q /\
    freq_band_means p = freq_band_means q /\ freq_band_stddevs p = freq_band_stddevs q /\ similarity p = similarity q.
Proof. apply (C36_sym (N:=F64 lm)); [exact Bmult_comm|exact Bplus_comm]. Qed.

(** ** Exact arithmetic *)
Open Scope R_scope.
Lemma C35_sym (k m : mat RN) i j : (forall a b, (a < 3)%nat -> (b < 3)%nat -> mget k a b = mget k b a) ->
  conv3 k m i j = true_conv k m i j.
Proof.
  intros Hs. unfold conv3, true_conv. cbn [map fold_left fst snd]. unfold Rsum. cbn [fold_right].
  change (2 - 0)%nat with 2%nat. change (2 - 1)%nat with 1%nat. change (2 - 2)%nat with 0%nat.
  rewrite (Hs 1 0)%nat, (Hs 2 0)%nat, (Hs 2 1)%nat by lia. cbn [nadd nmul nofZ RN].
  match goal with |- @eq _ ?a ?b => change (@eq R a b) end. ring.
Qed.
Definition kx : mat RN := @Build_mat RN 3 3 [[0; 1; 0]; [0; 0; 0]; [0; 0; 0]].
Definition mx : mat RN := @Build_mat RN 2 2 [[1; 2]; [3; 4]].
Lemma kx_wf : mat_wf kx. Proof. split; [reflexivity|repeat constructor]. Qed.
Lemma mx_wf : mat_wf mx. Proof. split; [reflexivity|repeat constructor]. Qed.
Lemma C35_ref : exists o, perform_valid_2d_conv_with_boundary kx mx = Ok o /\ mget o 0 0 = 2 /\ true_conv kx mx 0 0 = 3.
Proof.
  destruct (C35_gen kx mx kx_wf eq_refl eq_refl mx_wf ltac:(cbn; lia) ltac:(cbn; lia)) as (o & E & _ & _ & _ & H).
  exists o. split; auto. split.
  - etransitivity; [apply H; cbn; lia|]. unfold conv3, near, mget, kx, mx. cbn. lra.
  - unfold true_conv, near, mget, kx, mx, Rsum. cbn. lra.
Qed.
Lemma cauchy {A} (w u v : A -> R) (L : list A) : (forall a, 0 <= w a) ->
  0 <= Rsum (map (fun a => w a * (u a * u a)) L) /\ 0 <= Rsum (map (fun a => w a * (v a * v a)) L) /\
  Rsum (map (fun a => w a * (u a * v a)) L) * Rsum (map (fun a => w a * (u a * v a)) L) <=
  Rsum (map (fun a => w a * (u a * u a)) L) * Rsum (map (fun a => w a * (v a * v a)) L).
Proof.
  intros Hw. induction L as [|a L (IB & IC & IA)]; cbn [map]; [rewrite ?Rsum_cons; cbn; lra|].
  rewrite !Rsum_cons. set (A0 := Rsum (map (fun a => w a * (u a * v a)) L)) in *.
  set (B := Rsum (map (fun a => w a * (u a * u a)) L)) in *. set (C := Rsum (map (fun a => w a * (v a * v a)) L)) in *.
  specialize (Hw a). set (W := w a) in *. set (x := u a) in *. set (y := v a) in *. clearbody A0 B C W x y.
  assert (0 <= x * x) by apply Rle_0_sqr. assert (0 <= y * y) by apply Rle_0_sqr.
  split; [nra|]. split; [nra|].
  assert (P : 0 <= B * (y * y) + C * (x * x)) by nra.
  assert (Q : (2 * A0 * x * y) * (2 * A0 * x * y) <= (B * (y * y) + C * (x * x)) * (B * (y * y) + C * (x * x))).
  { assert (E : (B * (y * y) + C * (x * x)) * (B * (y * y) + C * (x * x)) - 4 * (B * C) * ((x * x) * (y * y)) =
       (B * (y * y) - C * (x * x)) * (B * (y * y) - C * (x * x))) by ring.
    assert (0 <= (B * (y * y) - C * (x * x)) * (B * (y * y) - C * (x * x))) by apply Rle_0_sqr.
    assert (F : A0 * A0 * ((x * x) * (y * y)) <= B * C * ((x * x) * (y * y))) by (apply Rmult_le_compat_r; [apply Rmult_le_pos; auto|auto]).
    replace ((2 * A0 * x * y) * (2 * A0 * x * y)) with (4 * (A0 * A0 * ((x * x) * (y * y)))) by ring. lra. }
  assert (Z : 2 * A0 * x * y <= B * (y * y) + C * (x * x)).
  { destruct (Rle_dec (2 * A0 * x * y) 0); [lra|]. apply Rsqr_incr_0; unfold Rsqr; lra. }
  replace ((W * (x * y) + A0) * (W * (x * y) + A0)) with (W * W * (x * x) * (y * y) + W * (2 * A0 * x * y) + A0 * A0) by ring.
  replace ((W * (x * x) + B) * (W * (y * y) + C)) with (W * W * (x * x) * (y * y) + W * (B * (y * y) + C * (x * x)) + B * C) by ring.
  assert (W * (2 * A0 * x * y) <= W * (B * (y * y) + C * (x * x))) by (apply Rmult_le_compat_l; auto). lra.
Qed.

Notation cells := window_cells (only parsing).
Notation wt := window_weight (only parsing).
Notation wsum := wmean (only parsing).
Notation nb := around (only parsing).
Lemma wt_nonneg ab : 0 <= wt ab.
Proof. unfold window_weight. destruct ab as [[|[|a]] [|[|b]]]; lra. Qed.
Lemma wsum_1 : Rsum (map wt cells) = 1.
Proof. unfold window_cells, window_weight, Rsum. cbn [map fold_right]. lra. Qed.
Lemma wsum_plus x y : wsum (fun ab => x ab + y ab) = wsum x + wsum y.
Proof. unfold wmean. rewrite <- Rsum_plus. f_equal. apply map_ext. intros; ring. Qed.
Lemma wsum_scale c x : wsum (fun ab => c * x ab) = c * wsum x.
Proof. unfold wmean. rewrite <- Rsum_scale, map_map. f_equal. apply map_ext. intros; ring. Qed.
Lemma wsum_const c : wsum (fun _ => c) = c.
Proof.
  unfold wmean. transitivity (c * Rsum (map wt cells)); [|rewrite wsum_1; ring].
  rewrite <- Rsum_scale, map_map. f_equal. apply map_ext. intros; ring.
Qed.
Lemma wsum_ext x y : (forall ab, x ab = y ab) -> wsum x = wsum y.
Proof. intros H. unfold wmean. f_equal. apply map_ext. intros. rewrite H. auto. Qed.
Definition cov (x y : nat * nat -> R) : R := wsum (fun ab => x ab * y ab) - wsum x * wsum y.
Lemma cov_eq x y : cov x y = Rsum (map (fun ab => wt ab * ((x ab - wsum x) * (y ab - wsum y))) cells).
Proof.
  set (a := wsum x) in *. set (b := wsum y) in *.
  change (cov x y = wsum (fun ab => (x ab - a) * (y ab - b))).
  rewrite (wsum_ext _ (fun ab => (x ab * y ab + (- b) * x ab) + ((- a) * y ab + a * b))) by (intros; ring).
  rewrite wsum_plus, wsum_plus, wsum_plus, !wsum_scale, wsum_const. unfold cov. fold a b. ring.
Qed.
Lemma cov_cs x y : 0 <= cov x x /\ 0 <= cov y y /\ cov x y * cov x y <= cov x x * cov y y.
Proof. rewrite !cov_eq. apply (cauchy wt (fun ab => x ab - wsum x) (fun ab => y ab - wsum y)). apply wt_nonneg. Qed.

Lemma conv_wsum (m : mat RN) i j : conv3 nsim_window m i j = wsum (nb m i j).
Proof.
  unfold conv3, wmean, around, window_cells. set (f := fun a b => near m i a j b).
  assert (E : forall (l : list R) (a : R), fold_left Rplus l a = a + Rsum l).
  { intros l. induction l as [|x t IH]; intros a; cbn [fold_left]; [cbn; ring|]. rewrite IH, Rsum_cons. ring. }
  unfold seq_sum. etransitivity; [apply E|]. change (nofZ RN 0) with 0. rewrite Rplus_0_l. cbn [map fst snd].
  change (near m i 0 j 0) with (f 0 0)%nat. change (near m i 1 j 0) with (f 1 0)%nat. change (near m i 2 j 0) with (f 2 0)%nat.
  change (near m i 0 j 1) with (f 0 1)%nat. change (near m i 1 j 1) with (f 1 1)%nat. change (near m i 2 j 1) with (f 2 1)%nat.
  change (near m i 0 j 2) with (f 0 2)%nat. change (near m i 1 j 2) with (f 1 2)%nat. change (near m i 2 j 2) with (f 2 2)%nat.
  clearbody f. unfold Rsum, window_weight. cbn [map fold_right]. cbn -[IZR Z.pow]. change (10 ^ 16)%Z with 10000000000000000%Z. change (10 ^ 15)%Z with 1000000000000000%Z.
  ring.
Qed.
Lemma near_prod (a b : mat RN) i j ab : mrows a = mrows b -> mcols a = mcols b -> (1 <= mrows a)%nat -> (1 <= mcols a)%nat ->
  nb (prod a b) i j ab = nb a i j ab * nb b i j ab.
Proof.
  intros Hr Hc R1 C1. unfold around, near, prod. cbn [mrows mcols mbuild].
  etransitivity; [apply (@mget_mbuild RN); lia|]. rewrite Hr, Hc. reflexivity.
Qed.
Lemma c1_pos : 0 < nsim_c1 (N:=RN).
Proof. unfold nsim_c1. cbn -[IZR]. unfold Rpowf. destruct (Req_EM_T _ 0) as [E|_]; [exfalso; change (Z.pow_pos 10 2) with 100%Z in E; lra|]. apply exp_pos. Qed.
Lemma c3_pos : 0 < nsim_c3 (N:=RN).
Proof.
  unfold nsim_c3. apply Rdiv_lt_0_compat; [|cbn; lra]. cbn -[IZR]. unfold Rpowf.
  destruct (Req_EM_T _ 0) as [E|_]; [exfalso; change (Z.pow_pos 10 2) with 100%Z in E; lra|]. apply exp_pos.
Qed.
Lemma entry_cov (r d : mat RN) i j : mrows d = mrows r -> mcols d = mcols r -> (1 <= mrows r)%nat -> (1 <= mcols r)%nat ->
  let x := nb r i j in let y := nb d i j in
  nsim_entry r d i j =
  (wsum x * wsum y * 2 + nsim_c1 (N:=RN)) / (wsum x * wsum x + wsum y * wsum y + nsim_c1 (N:=RN)) *
  ((cov x y + nsim_c3 (N:=RN)) / (R_sqrt.sqrt (cov x x * cov y y) + nsim_c3 (N:=RN))).
Proof.
  intros Hr Hc R1 C1 x y. unfold nsim_entry, entry_of. cbv zeta. rewrite !conv_wsum.
  rewrite (wsum_ext (nb (prod r r) i j) (fun ab => x ab * x ab)) by (intros; apply near_prod; lia).
  rewrite (wsum_ext (nb (prod d d) i j) (fun ab => y ab * y ab)) by (intros; apply near_prod; lia).
  rewrite (wsum_ext (nb (prod r d) i j) (fun ab => x ab * y ab)) by (intros; apply near_prod; lia).
  fold x y.
  change (nsub RN (wsum (fun ab => x ab * x ab)) (nmul RN (wsum x) (wsum x))) with (cov x x).
  change (nsub RN (wsum (fun ab => y ab * y ab)) (nmul RN (wsum y) (wsum y))) with (cov y y).
  change (nsub RN (wsum (fun ab => x ab * y ab)) (nmul RN (wsum x) (wsum y))) with (cov x y).
  destruct (cov_cs x y) as (A & B & _).
  assert (E : nltb RN (nmul RN (cov x x) (cov y y)) (nofZ RN 0) = false).
  { cbn [nltb RN nmul nofZ]. unfold Rltb. destruct (Rlt_dec (cov x x * cov y y) 0); auto. exfalso. nra. }
  rewrite E. reflexivity.
Qed.
Lemma entry_bound (r d : mat RN) i j : mrows d = mrows r -> mcols d = mcols r -> (1 <= mrows r)%nat -> (1 <= mcols r)%nat ->
  -1 <= nsim_entry r d i j <= 1.
Proof.
  intros Hr Hc R1 C1. rewrite entry_cov by auto. set (x := nb r i j). set (y := nb d i j).
  destruct (cov_cs x y) as (A & B & C). pose proof c1_pos as P1. pose proof c3_pos as P3.
  set (c1 := nsim_c1 (N:=RN)) in *. set (c3 := nsim_c3 (N:=RN)) in *. change (num RN) with R in *. clearbody c1 c3.
  set (a := wsum x). set (b := wsum y). set (s := cov x y) in *. set (p := cov x x * cov y y) in *.
  assert (P : 0 <= p) by (unfold p; nra). clearbody a b s p. clear A B x y.
  pose proof (sqrt_pos p) as Q. pose proof (sqrt_sqrt p P) as QQ. set (q := R_sqrt.sqrt p) in *. clearbody q.
  assert (S1 : -q <= s <= q).
  { split; [|apply Rsqr_incr_0_var; unfold Rsqr; lra].
    assert (- s <= q); [|lra]. apply Rsqr_incr_0_var; unfold Rsqr; lra. }
  assert (I : -1 <= (a * b * 2 + c1) / (a * a + b * b + c1) <= 1).
  { pose proof (Rle_0_sqr (a + b)) as H1. pose proof (Rle_0_sqr (a - b)) as H2. pose proof (Rle_0_sqr a) as H3. pose proof (Rle_0_sqr b) as H4.
    unfold Rsqr in *. assert (D : 0 < a * a + b * b + c1) by lra. split.
    - apply (Rmult_le_reg_r (a * a + b * b + c1)); auto. unfold Rdiv. rewrite Rmult_assoc, Rinv_l by lra. lra.
    - apply (Rmult_le_reg_r (a * a + b * b + c1)); auto. unfold Rdiv. rewrite Rmult_assoc, Rinv_l by lra. lra. }
  assert (S : -1 <= (s + c3) / (q + c3) <= 1).
  { assert (D : 0 < q + c3) by lra. split.
    - apply (Rmult_le_reg_r (q + c3)); auto. unfold Rdiv. rewrite Rmult_assoc, Rinv_l by lra. lra.
    - apply (Rmult_le_reg_r (q + c3)); auto. unfold Rdiv. rewrite Rmult_assoc, Rinv_l by lra. lra. }
  revert I S. generalize ((a * b * 2 + c1) / (a * a + b * b + c1)) ((s + c3) / (q + c3)). clear. intros u v U V. split; nra.
Qed.
Lemma entry_same (r : mat RN) i j : (1 <= mrows r)%nat -> (1 <= mcols r)%nat -> nsim_entry r r i j = 1.
Proof.
  intros R1 C1. rewrite entry_cov by auto. set (x := nb r i j).
  destruct (cov_cs x x) as (A & _ & _). pose proof c1_pos as P1. pose proof c3_pos as P3.
  rewrite sqrt_square by auto. change (num RN) with R in *. set (c1 := nsim_c1 (N:=RN)) in *. set (c3 := nsim_c3 (N:=RN)) in *. clearbody c1 c3.
  set (a := wsum x). set (s := cov x x) in *. clearbody a s.
  replace (a * a * 2 + c1) with (a * a + a * a + c1) by ring.
  pose proof (Rle_0_sqr a) as H1. unfold Rsqr in H1. field. lra.
Qed.

Ltac realeq := match goal with |- @eq _ ?a ?b => change (@eq R a b) end.
Lemma powf_2 x : 0 < x -> Rpowf x 2 = x * x.
Proof.
  intros H. unfold Rpowf. destruct (Req_EM_T x 0); [lra|]. replace 2 with (INR 2) by (cbn; lra).
  rewrite Rpower_pow by auto. ring.
Qed.
Lemma c1_val : nsim_c1 (N:=RN) = 1 / 10000.
Proof. unfold nsim_c1. change (Rpowf (1 / 100 * 1) 2 = 1 / 10000). rewrite powf_2 by lra. lra. Qed.
Lemma c3_val : nsim_c3 (N:=RN) = 9 / 20000.
Proof. unfold nsim_c3. change (Rpowf (3 / 100 * 1) 2 / 2 = 9 / 20000). rewrite powf_2 by lra. lra. Qed.
Lemma wcov_cov x y : wcov x y = cov x y.
Proof. symmetry. apply cov_eq. Qed.
Lemma entry_at (r d : mat RN) i j : mrows d = mrows r -> mcols d = mcols r -> (1 <= mrows r)%nat -> (1 <= mcols r)%nat ->
  nsim_entry r d i j = nsim_at r d i j.
Proof.
  intros Hr Hc R1 C1. rewrite entry_cov by auto. unfold nsim_at. cbv zeta. rewrite c1_val, c3_val, !wcov_cov.
  destruct (cov_cs (nb r i j) (nb d i j)) as (A & B & _). rewrite sqrt_mult by auto.
  replace (2 * wsum (nb r i j) * wsum (nb d i j)) with (wsum (nb r i j) * wsum (nb d i j) * 2) by ring. reflexivity.
Qed.
(** Welford's recurrence in exact arithmetic. *)
Lemma welford_R (l : list R) : forall (k : Z) (m s : R), (1 <= k)%Z ->
  welford (N:=RN) k m s l = s + Rsum (map (fun x => x * x) l) + (IZR k - 1) * (m * m)
     - ((IZR k - 1) * m + Rsum l) * ((IZR k - 1) * m + Rsum l) / (IZR k - 1 + INR (List.length l))
  \/ (k = 1%Z /\ l = []).
Proof.
  induction l as [|x t IH]; intros k m s Hk.
  - destruct (Z.eq_dec k 1) as [->|Nk]; [right; auto|left]. cbn [welford map List.length]. unfold Rsum. cbn [fold_right INR].
    assert (2 <= k)%Z as K2 by lia. apply IZR_le in K2. realeq. field. lra.
  - left. cbn [welford]. apply IZR_le in Hk as Hk'.
    set (dl := nsub RN x m). set (m' := nadd RN m (ndiv RN dl (nofZ RN k))).
    destruct (IH (k + 1)%Z m' (nfma RN (nsub RN x m') dl s) ltac:(lia)) as [E|[E _]]; [|lia].
    etransitivity; [exact E|]. clear E IH. cbn [map]. rewrite !Rsum_cons.
    change (List.length (x :: t)) with (S (List.length t)). rewrite S_INR, plus_IZR.
    set (Q := Rsum (map (fun x => x * x) t)). set (P := Rsum t).
    assert (P1 : (IZR k + 1 - 1) * m' + P = (IZR k - 1) * m + (x + P)).
    { unfold m', dl. cbn [RN nadd nsub ndiv nofZ]. field. lra. }
    rewrite P1. unfold m', dl. cbn [RN nadd nsub ndiv nofZ nfma].
    pose proof (pos_INR (List.length t)). realeq. field. lra.
Qed.
Lemma welford_sqdev (l : list R) : l <> [] -> welford (N:=RN) 1 0 0 l = sqdev l.
Proof.
  intros H. destruct (welford_R l 1 0 0 ltac:(lia)) as [E|[_ E]]; [|tauto].
  change (num RN) with R in *. etransitivity; [exact E|]. unfold sqdev, mean_of. set (S0 := Rsum l). set (n := INR (List.length l)).
  assert (Hn : n <> 0) by (unfold n; apply not_0_INR; destruct l; [tauto|discriminate]).
  rewrite (map_ext (fun x => (x - S0 / n) * (x - S0 / n)) (fun x => (x * x + (- (2 * S0 / n)) * x) + S0 / n * (S0 / n))) by (intros; field; auto).
  rewrite (Rsum_plus (fun x => x * x + (- (2 * S0 / n)) * x) (fun _ => S0 / n * (S0 / n))), (Rsum_plus (fun x => x * x) (fun x => (- (2 * S0 / n)) * x)).
  rewrite Rsum_scale, Rsum_map_const. fold S0 n. realeq. field. auto.
Qed.
Lemma seq_sum_R (l : list R) : seq_sum (N:=RN) l = Rsum l.
Proof.
  unfold seq_sum. assert (E : forall (l : list R) (a : R), fold_left Rplus l a = a + Rsum l).
  { clear. intros l. induction l as [|x t IH]; intros a; cbn [fold_left]; [unfold Rsum; cbn; ring|]. rewrite IH, Rsum_cons. ring. }
  etransitivity; [apply E|]. cbn [nofZ RN]. realeq. ring.
Qed.
Definition nsim_row (r d : mat RN) (i : nat) : list R := map (nsim_at r d i) (seq 0 (mcols r)).
Lemma measure_R (r d : mat RN) : mat_wf r -> mat_wf d -> mrows d = mrows r -> mcols d = mcols r -> (1 <= mrows r)%nat -> (1 <= mcols r)%nat ->
  exists p, measure_patch_similarity r d = Ok p /\
    freq_band_means p = map (fun i => mean_of (nsim_row r d i)) (seq 0 (mrows r)) /\
    freq_band_stddevs p = map (fun i => sample_std (nsim_row r d i)) (seq 0 (mrows r)) /\
    freq_band_deg_energy p = map mean_of (mdata d) /\
    similarity p = mean_of (freq_band_means p).
Proof.
  intros Wr Wd Hr Hc R1 C1. destruct (measure_ok r d Wr Wd Hr Hc R1 C1) as (m & s & e & A1 & A2 & A3 & A4 & A5).
  exists (new_patch_sim m s e (ndiv RN (nd_sum m) (nofZ RN (zlen m)))). split; [exact A5|].
  cbn [new_patch_sim freq_band_means freq_band_stddevs freq_band_deg_energy similarity].
  rewrite (mbuild_ext (N:=RN) _ _ _ (nsim_at r d)) in A1, A2 by (intros; apply entry_at; auto).
  set (B := mbuild (N:=RN) (mrows r) (mcols r) (nsim_at r d)) in *.
  assert (Hrow : mdata B = map (nsim_row r d) (seq 0 (mrows r))) by reflexivity.
  assert (Hlen : forall i, List.length (nsim_row r d i) = mcols r) by (intros; unfold nsim_row; rewrite map_length, seq_length; auto).
  unfold mean_axis1_f in A1. unfold std_axis1 in A2. change (mcols B) with (mcols r) in A1, A2.
  destruct (Nat.eqb_spec (mcols r) 0); [lia|]. unfold mean_axis1_c in A3. destruct (Nat.eqb_spec (mcols d) 0); [lia|].
  assert (Some_inj : forall (X : Type) (a b : X), Some a = Some b -> a = b) by congruence. apply Some_inj in A1, A3. assert (Ok_inj : forall (X : Type) (a b : X), Ok a = Ok b -> a = b) by congruence. apply Ok_inj in A2.
  split; [|split; [|split]].
  - rewrite <- A1, Hrow, map_map. apply map_ext. intros i. unfold mean_of. rewrite Hlen, INR_IZR_INZ. cbn [ndiv nofZ RN]. f_equal. apply seq_sum_R.
  - rewrite <- A2, Hrow, map_map. apply map_ext. intros i. unfold sample_std. rewrite Hlen, INR_IZR_INZ. cbn [ndiv nofZ RN nsqrt nsub].
    f_equal. f_equal. apply welford_sqdev. intros E. specialize (Hlen i). rewrite E in Hlen. cbn in Hlen. lia.
  - rewrite <- A3. destruct Wd as [_ Fd]. apply map_ext_in. intros l Hl. rewrite Forall_forall in Fd. unfold mean_of.
    etransitivity; [cbn [ndiv nofZ RN]; apply (f_equal2 Rdiv (R_nd_sum l) eq_refl)|]. rewrite INR_IZR_INZ. exact (f_equal (fun n => Rsum l / IZR (Z.of_nat n)) (eq_sym (Fd l Hl))).
  - unfold mean_of. etransitivity; [cbn [ndiv nofZ RN]; apply (f_equal2 Rdiv (R_nd_sum m) eq_refl)|]. rewrite INR_IZR_INZ. reflexivity.
Qed.
Lemma mean_of_bound l a b : l <> [] -> Forall (fun x => a <= x <= b) l -> a <= mean_of l <= b.
Proof.
  intros Hn H. assert (E : INR (List.length l) * a <= Rsum l <= INR (List.length l) * b).
  { clear Hn. induction H as [|x t Hx Ht IH]; [unfold Rsum; cbn; lra|]. rewrite Rsum_cons. change (List.length (x :: t)) with (S (List.length t)). rewrite S_INR. lra. }
  assert (P : 0 < INR (List.length l)) by (apply lt_0_INR; destruct l; [tauto|cbn; lia]).
  unfold mean_of. split; apply (Rmult_le_reg_r (INR (List.length l))); auto; unfold Rdiv; rewrite Rmult_assoc, Rinv_l; lra.
Qed.
Lemma sample_std_const l c : l <> [] -> Forall (fun x => x = c) l -> sample_std l = 0.
Proof.
  intros Hn H. assert (M : mean_of l = c).
  { destruct (mean_of_bound l c c Hn); [|lra]. eapply Forall_impl; [|exact H]. intros; lra. }
  unfold sample_std, sqdev. rewrite M, Rsum_0; [unfold Rdiv; rewrite Rmult_0_l; apply sqrt_0|].
  apply Forall_forall. intros z Hz. apply in_map_iff in Hz as (x & <- & Hx). rewrite Forall_forall in H. rewrite (H x Hx). ring.
Qed.
Lemma row_bound (r d : mat RN) i : mrows d = mrows r -> mcols d = mcols r -> (1 <= mrows r)%nat -> (1 <= mcols r)%nat ->
  nsim_row r d i <> [] /\ Forall (fun x => -1 <= x <= 1) (nsim_row r d i).
Proof.
  intros Hr Hc R1 C1. split; [unfold nsim_row; destruct (mcols r); [lia|discriminate]|].
  apply Forall_forall. intros x Hx. apply in_map_iff in Hx as (j & <- & _). rewrite <- entry_at by auto. apply entry_bound; auto.
Qed.
Lemma nsim_at_bound (r d : mat RN) i j : mrows d = mrows r -> mcols d = mcols r -> (1 <= mrows r)%nat -> (1 <= mcols r)%nat -> -1 <= nsim_at r d i j <= 1.
Proof. intros. rewrite <- entry_at by auto. apply entry_bound; auto. Qed.
Lemma C36_bounds (r d : mat RN) p : mat_wf r -> mat_wf d -> mrows d = mrows r -> mcols d = mcols r -> (1 <= mrows r)%nat -> (1 <= mcols r)%nat ->
  measure_patch_similarity r d = Ok p ->
  Forall (fun x => -1 <= x <= 1) (freq_band_means p) /\ -1 <= similarity p <= 1.
Proof.
  intros Wr Wd Hr Hc R1 C1 H. destruct (measure_R r d Wr Wd Hr Hc R1 C1) as (q & Q & A & B & C & D). rewrite H in Q. injection Q as <-.
  assert (F : Forall (fun x => -1 <= x <= 1) (freq_band_means p)).
  { rewrite A. apply Forall_forall. intros x Hx. apply in_map_iff in Hx as (i & <- & _). destruct (row_bound r d i Hr Hc R1 C1). apply mean_of_bound; auto. }
  split; auto. rewrite D. apply mean_of_bound; auto. rewrite A. destruct (mrows r); [lia|discriminate].
Qed.
Lemma map_const_seq {A} (c : A) n : forall k, map (fun _ => c) (seq k n) = repeat c n.
Proof. induction n; intros k; cbn [seq map repeat]; [|rewrite IHn]; auto. Qed.
Lemma C36_same (r : mat RN) : mat_wf r -> (1 <= mrows r)%nat -> (1 <= mcols r)%nat ->
  exists p, measure_patch_similarity r r = Ok p /\ similarity p = 1 /\
   freq_band_means p = repeat 1 (mrows r) /\ freq_band_stddevs p = repeat 0 (mrows r).
Proof.
  intros Wr R1 C1. destruct (measure_R r r Wr Wr eq_refl eq_refl R1 C1) as (p & Q & A & B & C & D).
  assert (F : forall i, nsim_row r r i <> [] /\ Forall (fun x => x = 1) (nsim_row r r i)).
  { intros i. split; [apply row_bound; auto|]. apply Forall_forall. intros x Hx. apply in_map_iff in Hx as (j & <- & _). rewrite <- entry_at by auto. apply entry_same; auto. }
  assert (M : forall i, mean_of (nsim_row r r i) = 1).
  { intros i. destruct (F i) as [F1 F2]. destruct (mean_of_bound (nsim_row r r i) 1 1 F1); [|lra]. eapply Forall_impl; [|exact F2]. intros; lra. }
  assert (G : freq_band_means p = repeat 1 (mrows r)).
  { rewrite A. rewrite (map_ext _ (fun _ => 1)) by auto. apply map_const_seq. }
  exists p. split; auto. split; [|split; auto].
  - rewrite D, G. destruct (mean_of_bound (repeat 1 (mrows r)) 1 1); [destruct (mrows r); [lia|discriminate]| |lra].
    apply Forall_forall. intros x Hx. apply repeat_spec in Hx. lra.
  - rewrite B. rewrite (map_ext _ (fun _ => 0)) by (intros i; apply (sample_std_const _ 1); apply F).
    apply map_const_seq.
Qed.
Lemma C35_symmetric (k m o : mat RN) :
  mat_wf k -> mrows k = 3%nat -> mcols k = 3%nat -> mat_wf m -> (1 <= mrows m)%nat -> (1 <= mcols m)%nat ->
  (forall a b, (a < 3)%nat -> (b < 3)%nat -> mget k a b = mget k b a) ->
  perform_valid_2d_conv_with_boundary k m = Ok o ->
  forall i j, (i < mrows m)%nat -> (j < mcols m)%nat -> mget o i j = true_conv k m i j.
Proof.
  intros Wk Kr Kc Wm R1 C1 Hs H i j Hi Hj. destruct (C35_gen k m Wk Kr Kc Wm R1 C1) as (o' & E & _ & _ & _ & G).
  rewrite E in H. injection H as <-. rewrite G by auto. apply C35_sym; auto.
Qed.
Lemma C35_refuted : exists (k m o : mat RN),
  mat_wf k /\ mrows k = 3%nat /\ mcols k = 3%nat /\ mat_wf m /\ mrows m = 2%nat /\ mcols m = 2%nat /\
  perform_valid_2d_conv_with_boundary k m = Ok o /\ mget o 0 0 <> true_conv k m 0 0.
Proof.
  destruct C35_ref as (o & E & A & B). exists kx, mx, o.
  split; [apply kx_wf|]. split; [reflexivity|]. split; [reflexivity|]. split; [apply mx_wf|]. split; [reflexivity|]. split; [reflexivity|].
  split; auto. change (num RN) with R in *. rewrite B, A. lra.
Qed.
Lemma C36_le_1 (r d : mat RN) p :
  mat_wf r -> mat_wf d -> mrows d = mrows r -> mcols d = mcols r -> (1 <= mrows r)%nat -> (1 <= mcols r)%nat ->
  measure_patch_similarity r d = Ok p ->
  (forall i j, -1 <= nsim_at r d i j <= 1) /\
  Forall (fun x => -1 <= x <= 1) (freq_band_means p) /\ -1 <= similarity p <= 1.
Proof. intros. split; [intros; apply nsim_at_bound; auto|]. eapply C36_bounds with (r := r) (d := d); auto. Qed.
Definition mx0 : mat RN := @Build_mat RN 2 2 [[0; 0]; [0; 0]].
Lemma mx0_wf : mat_wf mx0. Proof. split; [reflexivity|repeat constructor]. Qed.
Lemma C36_ex : mat_wf mx /\ mat_wf mx0 /\ mrows mx0 = mrows mx /\ mcols mx0 = mcols mx /\ nsim_at mx mx0 0 0 < 1.
Proof.
  split; [apply mx_wf|]. split; [apply mx0_wf|]. split; [reflexivity|]. split; [reflexivity|].
  set (x := around mx 0 0). set (y := around mx0 0 0).
  assert (Y : forall ab, y ab = 0).
  { intros [a b]. unfold y, around, near, mget. cbn [fst snd mrows mcols mdata mx0].
    set (u := Nat.min _ _). set (v := Nat.min _ _). assert (u < 2)%nat by (unfold u; lia). assert (v < 2)%nat by (unfold v; lia).
    destruct u as [|[|u]]; [| |lia]; (destruct v as [|[|v]]; [| |lia]); reflexivity. }
  assert (W : wmean y = 0). { rewrite (wsum_ext y (fun _ => 0)) by auto. apply wsum_const. }
  assert (C : forall z, wcov z y = 0).
  { intros z. unfold wcov. rewrite W. rewrite (wsum_ext _ (fun _ => 0)); [apply wsum_const|]. intros. rewrite Y. ring. }
  unfold nsim_at. fold x y. cbv zeta. rewrite W, !C, sqrt_0.
  assert (X : 1 <= wmean x).
  { unfold x, wmean, around, near, mget, mx, Rsum. cbn -[IZR]. unfold window_weight. lra. }
  assert (X2 : 1 <= wmean x * wmean x) by nra. set (w := wmean x * wmean x) in *.
  replace (2 * wmean x * 0 + 1 / 10000) with (1 / 10000) by ring.
  replace ((0 + 9 / 20000) / (R_sqrt.sqrt (wcov x x) * 0 + 9 / 20000)) with 1 by (field; lra).
  rewrite Rmult_1_r. apply (Rmult_lt_reg_r (w + 0 * 0 + 1 / 10000)); [lra|]. unfold Rdiv at 1. rewrite Rmult_assoc, Rinv_l; lra.
Qed.
