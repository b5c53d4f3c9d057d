(** C42 for whole comparisons: with a silent degraded recording no patch can be aligned. *)
From Coq Require Import Reals Lra Lia.
From Flocq Require Import Core IEEE754.BinarySingleNaN.
From Verif Require Import Base Num Mat F64 M_Audio M_Align M_Spectro M_Patch M_Nsim M_Selector M_Visqol.
From Verif Require Import P_Base P_Mat P_F64 P_Manager P_Run P_Audio P_Audio2 P_Win P_Spectro P_Times P_Segment P_Compare P_Level P_Load P_Agg P_Score Spec Spec2 Spec10.
Open Scope Z_scope.

(** ** NaN goes through the arithmetic *)
Lemma nan_plus (x y : f64) : is_nan x = true \/ is_nan y = true -> is_nan (Bplus mode_NE x y) = true.
Proof. intros [H|H]; destruct x, y; try discriminate; reflexivity. Qed.
Lemma nan_minus (x y : f64) : is_nan x = true \/ is_nan y = true -> is_nan (Bminus mode_NE x y) = true.
Proof. intros [H|H]; destruct x, y; try discriminate; reflexivity. Qed.
Lemma nan_mult (x y : f64) : is_nan x = true \/ is_nan y = true -> is_nan (Bmult mode_NE x y) = true.
Proof. intros [H|H]; destruct x, y; try discriminate; reflexivity. Qed.
Lemma nan_div (x y : f64) : is_nan x = true -> is_nan (Bdiv mode_NE x y) = true.
Proof. intros H; destruct x, y; try discriminate; reflexivity. Qed.
Lemma nan_opp (x : f64) : is_nan x = true -> is_nan (Bopp x) = true.
Proof. destruct x; try discriminate; reflexivity. Qed.
Lemma nan_abs (x : f64) : is_nan x = true -> is_nan (Babs x) = true.
Proof. destruct x; try discriminate; reflexivity. Qed.
Lemma nan_cmp lm (x y : f64) : is_nan x = true -> ncmp (N:=F64 lm) x y = None.
Proof. intros H; destruct x; try discriminate. unfold ncmp. cbn [nltb neqb F64]. destruct y; reflexivity. Qed.
Lemma nan_eq (x y : f64) : is_nan x = true -> Beqb x y = false.
Proof. intros H; destruct x; try discriminate. destruct y; reflexivity. Qed.

Lemma resize_hd {A} (x : A) l n z : 1 <= n -> exists t, resize (x :: l) n z = x :: t.
Proof. intros H. unfold resize. destruct (Z.to_nat n) as [|q] eqn:E; [lia|]. cbn [firstn app]. eauto. Qed.

Section Nan.
Variable lm : Libm.
Notation N := (F64 lm).
Lemma nan_fold (l : list f64) : forall acc : f64, is_nan acc = true \/ Exists (fun x : f64 => is_nan x = true) l ->
  is_nan (fold_left (nadd N) l acc : f64) = true.
Proof.
  induction l as [|x t IH]; intros acc H; cbn [fold_left]; [destruct H as [H|H]; [auto|inversion H]|].
  apply IH. destruct H as [H|H]; [left; apply nan_plus; auto|]. apply Exists_cons in H as [H|H]; [left; apply nan_plus; auto|right; auto].
Qed.
Definition some8 (p : f64*f64*f64*f64*f64*f64*f64*f64) : Prop :=
  let '(p0,p1,p2,p3,p4,p5,p6,p7) := p in
  is_nan p0 = true \/ is_nan p1 = true \/ is_nan p2 = true \/ is_nan p3 = true \/
  is_nan p4 = true \/ is_nan p5 = true \/ is_nan p6 = true \/ is_nan p7 = true.
Lemma nan_unroll f : forall p (l : list f64), some8 p \/ Exists (fun x : f64 => is_nan x = true) l ->
  some8 (fst (unroll8 (N:=N) f p l)) \/ Exists (fun x : f64 => is_nan x = true) (snd (unroll8 (N:=N) f p l)).
Proof.
  induction f as [|f IH]; intros p l H; [exact H|].
  destruct l as [|x0 [|x1 [|x2 [|x3 [|x4 [|x5 [|x6 [|x7 t]]]]]]]]; try exact H.
  destruct p as [[[[[[[p0 p1] p2] p3] p4] p5] p6] p7].
  assert (G : some8 (Bplus mode_NE p0 x0, Bplus mode_NE p1 x1, Bplus mode_NE p2 x2, Bplus mode_NE p3 x3, Bplus mode_NE p4 x4, Bplus mode_NE p5 x5, Bplus mode_NE p6 x6, Bplus mode_NE p7 x7) \/ Exists (fun x : f64 => is_nan x = true) t).
  { destruct H as [H|H].
    - left. cbn [some8] in *. repeat (destruct H as [H|H]; [rewrite (nan_plus _ _ (or_introl H)); tauto|]). rewrite (nan_plus _ _ (or_introl H)); tauto.
    - repeat (apply Exists_cons in H as [H|H]; [left; cbn [some8]; rewrite (nan_plus _ _ (or_intror H)); tauto|]). right; auto. }
  exact (IH _ t G).
Qed.
Lemma nan_sum (l : list f64) : Exists (fun x : f64 => is_nan x = true) l -> is_nan (nd_sum (N:=N) l : f64) = true.
Proof.
  intros H. unfold nd_sum.
  match goal with |- context [unroll8 ?f ?z l] => pose proof (nan_unroll f z l (or_intror H)) as G;
    destruct (unroll8 f z l) as [[[[[[[[p0 p1] p2] p3] p4] p5] p6] p7] rest] end. cbn [fst snd some8] in G.
  apply nan_fold. destruct G as [G|G]; [left|right; auto].
  cbn [nadd F64].
  repeat (destruct G as [G|G]; [solve [repeat (first [apply nan_plus; left; solve [repeat (first [exact G|apply nan_plus; left; exact G|apply nan_plus; right; exact G])] | apply nan_plus; right; solve [repeat (first [exact G|apply nan_plus; left; exact G|apply nan_plus; right; exact G])] | apply nan_plus; left])]|]).
  apply nan_plus; right. apply nan_plus; right. exact G.
Qed.
Lemma nan_mean (l : list f64) m : Exists (fun x : f64 => is_nan x = true) l -> nd_mean (N:=N) l = Some m -> is_nan (m : f64) = true.
Proof.
  intros H E. unfold nd_mean in E. destruct l as [|x t]; [discriminate|].
  assert (E' : Bdiv mode_NE (nd_sum (N:=N) (x :: t) : f64) (f64_ofZ (zlen (x :: t))) = m) by (injection E as <-; reflexivity).
  rewrite <- E'. apply nan_div, nan_sum, H.
Qed.
Lemma nan_env pf (l : list f64) e : Exists (fun x : f64 => is_nan x = true) l ->
  calculate_upper_env (N:=N) pf l = Ok (Some e) -> Forall (fun x : f64 => is_nan x = true) e.
Proof.
  intros H E. unfold calculate_upper_env in E. destruct (nd_mean (N:=N) l) as [m|] eqn:Em; [|discriminate].
  apply nan_mean in Em; auto. inv_do E. injection Hk as <-. apply Forall_forall. intros y Hy. apply in_map_iff in Hy as (z & <- & _).
  apply nan_plus. auto.
Qed.
Lemma env_length pf (l : list f64) e : calculate_upper_env (N:=N) pf l = Ok (Some e) -> zlen e = zlen l.
Proof.
  intros E. unfold calculate_upper_env in E. destruct (nd_mean (N:=N) l) as [m|] eqn:Em; [|discriminate].
  step E as h Eh. assert (L : zlen e = zlen h) by (injection E as <-; unfold zlen; rewrite map_length; auto).
  rewrite L. clear L E. unfold calculate_hilbert in Eh. step Eh as m0 E0. step Eh as sc E1. step Eh as h2 E2.
  match type of Eh with Ok ?x = _ => assert (EE : x = h) by congruence end. rewrite <- EE. clear EE Eh.
  unfold inverse_1d in E2. step E2 as ti E3. step E2 as t2 E4.
  match type of E2 with Ok ?x = _ => assert (EE : x = h2) by congruence end. rewrite <- EE. clear EE E2. unfold to_complex. rewrite !zlen_map.
  apply zslice_ok in E4 as [E4 ->].
  assert (S : samples_per_channel m0 = zlen l).
  { unfold new_fft in E0. step E0 as q Eq. match type of E0 with Ok ?x = _ => assert (EE : x = m0) by congruence end. rewrite <- EE. cbn [samples_per_channel]. apply zlen_map. }
  unfold zlen in *. rewrite firstn_length, skipn_length. lia.
Qed.

(** Whichever element is compared first, a list of at least two NaNs has no maximum. *)
Lemma nan_best pf (a b : list f64) k : fft_spreads_nan lm -> Forall (fun x : f64 => is_nan x = true) b -> b <> [] ->
  calculate_best_lag (N:=N) pf a b <> Ok (Some k).
Proof.
  intros [F1 F2] Hb Nb H. unfold calculate_best_lag in H. cbv zeta in H.
  match type of H with (if ?c then _ else _) = _ => destruct c; [discriminate|] end. step H as pw Epw. step H as neg En. step H as pos Ep.
  assert (Pw : Forall (fun x : f64 => is_nan x = true) pw).
  { unfold calculate_inverse_fft_pointwise_product in Epw. cbv zeta in Epw. step Epw as n2 En2.
    match type of Epw with (if ?c then _ else _) = _ => destruct c; [|discriminate] end.
    step Epw as m0 Em0. step Epw as pr Epr. unfold inverse_1d_conj_sym in Epw. step Epw as iv Eiv.
    match type of Epw with Ok ?x = _ => assert (EE : x = pw) by congruence end. rewrite <- EE. clear EE Epw.
    unfold inverse_1d in Eiv. step Eiv as ti Eti. step Eiv as t2 Et2.
    match type of Eiv with Ok ?x = _ => assert (EE : x = iv) by congruence end. rewrite <- EE. clear EE Eiv.
    unfold real_parts, to_complex. rewrite map_map. cbn [fst]. rewrite map_id.
    apply zslice_ok in Et2 as [_ ->].
    assert (P : Forall (fun z : f64 * f64 => is_nan (fst z) = true /\ is_nan (snd z) = true) pr).
    { unfold calculate_fft_pointwise_product in Epr. step Epr as f2 Ef2. step Epr as f1 Ef1.
      match type of Epr with Ok ?x = _ => assert (EE : x = pr) by congruence end. rewrite <- EE. clear EE Epr.
      assert (Fq : Forall (fun z : f64 * f64 => is_nan (fst z) = true \/ is_nan (snd z) = true) f2).
      { unfold forward_1d_from_points in Ef2. match type of Ef2 with (if ?c then _ else _) = _ => destruct c; [|discriminate] end.
        match type of Ef2 with Ok ?x = _ => assert (E : x = f2) by congruence end. rewrite <- E. clear E Ef2.
        unfold forward_1d_from_matrix, freq_from_time_domain. cbn [nfft F64]. apply F1.
        destruct b as [|b0 bt]; [congruence|]. exists (b0, f64_ofZ 0). split; [|left; apply Forall_inv in Hb; exact Hb].
        unfold to_complex. apply in_map_iff. exists b0. split; auto.
        assert (Fs : (1 <= fft_size m0)%Z). { unfold new_fft in Em0. step Em0 as q Eq. match type of Em0 with Ok ?x = _ => assert (EE : x = m0) by congruence end. rewrite <- EE. cbn [fft_size]. unfold MIN_FFT_SIZE. lia. }
        assert (B1 : (1 <= Z.max (zlen a) (zlen (b0 :: bt)))%Z) by (rewrite zlen_cons in *; pose proof (zlen_nonneg bt); lia).
        match goal with |- context [@resize ?A (b0 :: bt) ?m ?z] => assert (R1 : exists t, @resize A (b0 :: bt) m z = b0 :: t) by exact (resize_hd b0 bt m z B1) end.
        destruct R1 as (t1 & R1).
        match goal with |- In b0 (@resize ?A (?L ++ ?r) ?m ?z) => change (In b0 (@resize A (@resize f64 (b0 :: bt) (Z.max (zlen a) (zlen (b0 :: bt))) (f64_ofZ 0) ++ r) m z)); assert (R2 : exists t, @resize f64 (@resize f64 (b0 :: bt) (Z.max (zlen a) (zlen (b0 :: bt))) (f64_ofZ 0) ++ r) m z = b0 :: t) end.
        { match goal with |- context [@resize f64 (b0 :: bt) ?m ?z] => replace (@resize f64 (b0 :: bt) m z) with (b0 :: t1) by (symmetry; exact R1) end. cbn [app]. apply resize_hd. exact Fs. }
        destruct R2 as (t2 & R2).
        match type of R2 with ?x = _ => match goal with |- In b0 ?y => change (In b0 x) end end. rewrite R2. left; reflexivity. }
      apply Forall_forall. intros z Hz. apply in_map_iff in Hz as ([p q] & <- & Hz). apply in_combine_r in Hz. cbn [fst snd].
      apply in_map_iff in Hz as (w & <- & Hw). rewrite Forall_forall in Fq. specialize (Fq w Hw). unfold cmul, cconj. cbn [fst snd nmul nadd nsub nneg F64].
      destruct Fq as [Fq|Fq]; [|pose proof (nan_opp _ Fq) as Fo]; split; first [apply nan_minus|apply nan_plus];
        try (left; apply nan_mult; right; assumption); right; apply nan_mult; right; assumption. }
    assert (Q : Forall (fun x : f64 => is_nan x = true) ti).
    { unfold time_from_freq_domain in Eti. match type of Eti with (if ?c then _ else _) = _ => destruct c; [|discriminate] end.
      match type of Eti with Ok ?x = _ => assert (E : x = ti) by congruence end. rewrite <- E. clear E Eti.
      unfold real_parts. apply Forall_forall. intros x Hx. apply in_map_iff in Hx as (z & <- & Hz). cbn [nfft F64] in Hz.
      specialize (F2 true pr P). rewrite Forall_forall in F2. apply F2. exact Hz. }
    apply Forall_forall. intros x Hx. apply In_firstn, In_skipn in Hx. unfold apply_reverse_fft_scaling in Hx.
    apply in_map_iff in Hx as (y & <- & Hy). rewrite Forall_forall in Q. apply nan_mult. left. apply Q, Hy. }
  apply zslice_ok in En as [_ ->]. apply zslice_ok in Ep as [_ ->].
  match type of H with match ?l with _ => _ end = _ => set (cl := l) in * end.
  assert (Cl : Forall (fun x : f64 => is_nan x = true) cl).
  { apply Forall_app. split; apply Forall_forall; intros x Hx; apply In_firstn, In_skipn in Hx; rewrite Forall_forall in Pw; auto. }
  destruct cl as [|c t]; [discriminate|]. step H as best Eb.
  apply Forall_cons_iff in Cl as [C1 C2].
  destruct t as [|y t].
  - cbn [max_by_abs] in Eb. injection Eb as <-. cbn [position_eq neqb F64] in H. rewrite (nan_eq c c C1) in H. discriminate.
  - cbn [max_by_abs] in Eb. rewrite nan_cmp in Eb by (apply nan_abs; exact C1). discriminate.
Qed.
Lemma nan_global pf (rs ds : AudioSignal N) x : fft_spreads_nan lm ->
  Exists (fun x : f64 => is_nan x = true) (data_matrix ds) -> globally_align pf rs ds <> Ok (Some x).
Proof.
  intros HF HE H. unfold globally_align in H. inv_do H. destruct v as [renv|]; [|discriminate].
  inv_do Hk. destruct v as [denv|]; [|discriminate]. inv_do Hk0. destruct v as [k|]; [|discriminate].
  revert Hv1. apply nan_best; [exact HF|eapply nan_env; eauto|].
  apply env_length in Hv0. intros ->. destruct (data_matrix ds); [inversion HE|]. rewrite zlen_cons in Hv0. pose proof (zlen_nonneg l). unfold zlen in *. cbn in Hv0. lia.
Qed.
Lemma nan_realign pf nb (rs ds : AudioSignal N) w (fb f' : Filterbank N) old p : fft_spreads_nan lm ->
  (forall seg, slice ds (deg_patch_start_time old) (deg_patch_end_time old) = Ok seg -> Exists (fun x : f64 => is_nan x = true) (data_matrix seg)) ->
  realign_patch pf nb rs ds w fb old = (f', Ok p) -> is_lost old = true /\ p = old.
Proof.
  intros HF HS. unfold realign_patch. destruct (is_lost old); [intros [= _ <-]; auto|].
  destruct (slice rs _ _) as [ra| |]; try discriminate. destruct (slice ds _ _) as [da| |]; try discriminate.
  specialize (HS da eq_refl).
  destruct (align_and_truncate pf ra da) as [[[[ra' da'] lag]|]| |] eqn:AL; try discriminate.
  exfalso. unfold align_and_truncate in AL. inv_do AL. destruct v as [[al lag']|]; [|discriminate]. eapply nan_global; eauto.
Qed.
End Nan.

(** ** Where a segment ends *)
Open Scope R_scope.
Lemma stop_sample (q : f64) h rate r fp : is_finite q = true -> B2R q = IZR h -> (1 <= h <= 2 ^ 40)%Z -> (0 <= r)%Z -> (2 <= fp)%Z ->
  ((r + fp) * h <= 2 ^ 40)%Z -> (1 <= rate <= 2 ^ 32)%Z ->
  let fd := Bdiv mode_NE q (f64_ofZ rate) in
  let t := Bmult mode_NE (f64_ofZ r) fd in
  let pd := Bmult mode_NE fd (f64_ofZ fp) in
  let e := Bplus mode_NE t pd in
  let p := Bmult mode_NE e (f64_ofZ rate) in
  is_finite pd = true /\ 0 < B2R pd /\ is_finite e = true /\ is_finite p = true /\ IZR ((r + fp) * h) - / 1024 <= B2R p <= IZR ((r + fp) * h) + / 1024.
Proof.
  intros Fq Eq Hh Hr Hfp Hrh Hrate fd t pd e p.
  assert (Hr2 : (r <= 2 ^ 40)%Z) by nia. assert (Hf2 : (fp <= 2 ^ 40)%Z) by nia.
  assert (Hrh1 : (r * h <= 2 ^ 40)%Z) by nia. assert (Hfh1 : (fp * h <= 2 ^ 40)%Z) by nia.
  destruct (ofZ_exact r ltac:(lia)) as [Fr Er]. destruct (ofZ_exact rate ltac:(lia)) as [Fa Ea]. destruct (ofZ_exact fp ltac:(lia)) as [Ff Ef].
  assert (Ih : 1 <= IZR h <= 1099511627776) by (split; apply IZR_le; lia).
  assert (Ir : 0 <= IZR r <= 1099511627776) by (split; apply IZR_le; lia).
  assert (If : 2 <= IZR fp <= 1099511627776) by (split; apply IZR_le; lia).
  assert (Ia : 1 <= IZR rate <= 4294967296) by (split; apply IZR_le; lia).
  assert (Irh : 0 <= IZR r * IZR h <= 1099511627776) by (rewrite <- mult_IZR; split; apply IZR_le; nia).
  assert (Ifh : 0 <= IZR fp * IZR h <= 1099511627776) by (rewrite <- mult_IZR; split; apply IZR_le; nia).
  assert (Isum : 0 <= (IZR r + IZR fp) * IZR h <= 1099511627776) by (rewrite <- plus_IZR, <- mult_IZR; split; apply IZR_le; nia).
  assert (Q0 : 0 < / IZR rate) by (apply Rinv_0_lt_compat; lra).
  assert (Q1 : / IZR rate <= 1) by (rewrite <- Rinv_1; apply Rinv_le; lra).
  assert (Q2 : / 4294967296 <= / IZR rate) by (apply Rinv_le; lra).
  assert (S32 : bpow radix2 (-800) <= / 4294967296).
  { replace (/ 4294967296) with (bpow radix2 (-32)) by (apply (bpn 32); reflexivity || lia). apply bpow_le. lia. }
  assert (Big : forall x, Rabs x <= 1099511627776 * 2 -> Rabs (rnd x) < big).
  { intros x Hx. apply small_lt_big. apply Rle_trans with (bpow radix2 41); [|apply bpow_le; lia]. replace (bpow radix2 41) with 2199023255552 by (symmetry; apply (bp 41); reflexivity || lia). lra. }
  set (u := / 4503599627370496) in *. assert (Hu : u = / 4503599627370496) by reflexivity. clearbody u.
  set (x1 := IZR h / IZR rate). assert (X1 : / 4294967296 <= x1 <= 1099511627776).
  { unfold x1, Rdiv. split; [apply Rle_trans with (1 * / IZR rate); [lra|apply Rmult_le_compat_r; lra]|].
    apply Rle_trans with (1099511627776 * 1); [apply Rmult_le_compat; lra|lra]. }
  assert (XX : forall n, 0 <= n * IZR h <= 1099511627776 -> 0 <= n * x1 <= 1099511627776).
  { intros n Hn. replace (n * x1) with (n * IZR h * / IZR rate) by (unfold x1; field; lra). split; [apply Rmult_le_pos; lra|].
    apply Rle_trans with (1099511627776 * 1); [apply Rmult_le_compat; lra|lra]. }
  destruct (Bdiv_fin q (f64_ofZ rate) Fq Fa) as [Ffd Efd]; [rewrite Ea; lra| |].
  { rewrite Eq, Ea. apply Big. fold x1. rewrite Rabs_pos_eq; lra. }
  fold fd in Ffd, Efd. rewrite Eq, Ea in Efd. fold x1 in Efd.
  assert (D1 : Rabs (B2R fd - x1) <= u * x1).
  { rewrite Efd. replace u with (0 + / 4503599627370496) by (rewrite Hu; ring). apply rel_step; try lra. rewrite Rminus_eq_0, Rabs_R0. lra. }
  pose proof (XX (IZR r) Irh) as X2. pose proof (XX (IZR fp) Ifh) as X3. pose proof (XX (IZR r + IZR fp) Isum) as X4.
  assert (Dr : forall n, 0 <= n -> Rabs (n * B2R fd - n * x1) <= u * (n * x1)).
  { intros n Hn. rewrite <- Rmult_minus_distr_l, Rabs_mult, Rabs_pos_eq by lra. replace (u * (n * x1)) with (n * (u * x1)) by ring. apply Rmult_le_compat_l; lra. }
  assert (Pr : forall n, 0 <= n * x1 <= 1099511627776 -> 0 <= n -> Rabs (n * B2R fd) <= 1099511627776 * 2).
  { intros n Hn Hn0. specialize (Dr n Hn0). apply Rabs_le_inv in Dr. rewrite Hu in Dr. apply Rabs_le. lra. }
  destruct (Bmult_fin (f64_ofZ r) fd Fr Ffd) as [Ft Et]; [rewrite Er; apply Big, Pr; lra|]. fold t in Ft, Et. rewrite Er in Et.
  destruct (Bmult_fin fd (f64_ofZ fp) Ffd Ff) as [Fpd Epd]; [rewrite Ef, Rmult_comm; apply Big, Pr; lra|]. fold pd in Fpd, Epd. rewrite Ef, Rmult_comm in Epd.
  assert (Dt : Rabs (B2R t - IZR r * x1) <= (u + u) * (IZR r * x1)).
  { destruct (Z.eq_dec r 0) as [-> |Nr].
    - rewrite Et, Rmult_0_l, round_0 by auto with typeclass_instances. rewrite Rmult_0_l, Rminus_eq_0, Rabs_R0. lra.
    - assert (1 <= IZR r) by (apply IZR_le; lia). rewrite Et, Hu at 1. rewrite Hu at 1. apply rel_step; try lra; [nra|]. rewrite <- Hu. apply Dr; lra. }
  assert (Dp : Rabs (B2R pd - IZR fp * x1) <= (u + u) * (IZR fp * x1)).
  { rewrite Epd, Hu at 1. rewrite Hu at 1. apply rel_step; try lra; [nra|]. rewrite <- Hu. apply Dr; lra. }
  assert (Ds : Rabs (B2R t + B2R pd - (IZR r + IZR fp) * x1) <= (u + u) * ((IZR r + IZR fp) * x1)).
  { apply Rabs_le_inv in Dt. apply Rabs_le_inv in Dp. apply Rabs_le. lra. }
  assert (B4 : / 4294967296 <= (IZR r + IZR fp) * x1) by nra.
  destruct (Bplus_fin t pd Ft Fpd) as [Fe Ee].
  { apply Big. apply Rabs_le_inv in Ds. rewrite Hu in Ds. apply Rabs_le. lra. }
  fold e in Fe, Ee.
  assert (De : Rabs (B2R e - (IZR r + IZR fp) * x1) <= (u + u + u) * ((IZR r + IZR fp) * x1)).
  { rewrite Ee. rewrite Hu at 3. apply rel_step; [rewrite Hu; lra|lra|exact Ds]. }
  assert (X5 : (IZR r + IZR fp) * x1 * IZR rate = (IZR r + IZR fp) * IZR h) by (unfold x1; field; lra).
  assert (Dm : Rabs (B2R e * IZR rate - (IZR r + IZR fp) * IZR h) <= (u + u + u) * ((IZR r + IZR fp) * IZR h)).
  { rewrite <- X5, <- Rmult_minus_distr_r, Rabs_mult, (Rabs_pos_eq (IZR rate)) by lra.
    replace ((u + u + u) * ((IZR r + IZR fp) * x1 * IZR rate)) with ((u + u + u) * ((IZR r + IZR fp) * x1) * IZR rate) by ring. apply Rmult_le_compat_r; lra. }
  destruct (Bmult_fin e (f64_ofZ rate) Fe Fa) as [Fp Ep].
  { rewrite Ea. apply Big. apply Rabs_le_inv in Dm. rewrite Hu in Dm. apply Rabs_le. lra. }
  fold p in Fp, Ep. rewrite Ea in Ep.
  assert (Dq : Rabs (B2R p - (IZR r + IZR fp) * IZR h) <= (u + u + u + u) * ((IZR r + IZR fp) * IZR h)).
  { rewrite Ep. rewrite Hu at 4. apply rel_step; [rewrite Hu; lra|nra|exact Dm]. }
  repeat split; auto.
  - apply Rabs_le_inv in Dp. rewrite Hu in Dp. nra.
  - rewrite mult_IZR, plus_IZR. apply Rabs_le_inv in Dq. rewrite Hu in Dq. lra.
  - rewrite mult_IZR, plus_IZR. apply Rabs_le_inv in Dq. rewrite Hu in Dq. lra.
Qed.

(** ** The first patch is not lost if frame 0 is in its search window *)
Section First.
Open Scope Z_scope.
Context {N : NumOps}.
Notation T := (num N).
Definition row_free (brow : list Z) : Prop := forall i v, zget brow i = Ok v -> v <> i.
Definition row_shape (brow : list Z) : Prop := forall i v, zget brow i = Ok v -> i < usize_mod - 1 /\ (v = usize_mod - 1 \/ v = 0 /\ i <> 0).
Lemma shape_free b : row_shape b -> row_free b.
Proof. intros H i v E. destruct (H i v E) as [A [-> |[-> ?]]]; lia. Qed.
Lemma shape_upd b s : 0 <= s < zlen b -> row_shape b -> row_shape (upd b (Z.to_nat s) (usize_mod - 1)).
Proof.
  intros Hs H i v E. apply zget_ok in E as [E1 E2]. rewrite zlen_upd in E1. destruct (Z.eq_dec i s) as [-> |Ne].
  - rewrite nth_error_upd_eq in E2 by (unfold zlen in *; lia). injection E2 as <-. split; [|auto].
    destruct (nth_error b (Z.to_nat s)) as [x|] eqn:Ex; [|apply nth_error_None in Ex; unfold zlen in *; lia].
    apply (H s x). apply zget_ok. auto.
  - rewrite nth_error_upd_ne in E2 by lia. apply (H i v). apply zget_ok. auto.
Qed.
Lemma first_shape b : zlen b < usize_mod - 1 -> (forall i v, zget b i = Ok v -> v = 0) -> 1 <= zlen b -> row_shape (upd b 0 (usize_mod - 1)).
Proof.
  intros H1 H2 H3 i v E. apply zget_ok in E as [E1 E2]. rewrite zlen_upd in E1. split; [lia|]. destruct (Z.eq_dec i 0) as [-> |Ne].
  - cbn [Z.to_nat] in E2. rewrite nth_error_upd_eq in E2 by (unfold zlen in *; lia). injection E2 as <-. auto.
  - rewrite nth_error_upd_ne in E2 by lia. right. split; auto. apply (H2 i). apply zget_ok. auto.
Qed.
Lemma first_step pf (simf : Z -> res T) c dp bt dp' bt' idx sw r0 :
  zget idx 0 = Ok r0 -> 0 <= r0 <= sw -> r0 + sw < 2 ^ 31 -> 1 <= c < usize_mod - 1 ->
  (forall b, zget bt 0 = Ok b -> zlen b = c /\ forall i v, zget b i = Ok v -> v = 0) ->
  find_most_optimal_deg_patch pf simf c (dp, bt) idx 0 sw = Ok (dp', bt') ->
  forall b, zget bt' 0 = Ok b -> row_free b.
Proof.
  intros H0 Hr Hw Hc Hb H b Eb. unfold find_most_optimal_deg_patch in H. rewrite H0 in H. cbn [bind] in H.
  rewrite wrap_i32_id in H by lia. rewrite !i32_ok in H by lia. cbn [bind] in H.
  destruct (Z.ltb_spec (r0 + sw) (Z.max 0 (r0 - sw))); [lia|].
  destruct (Z.ltb_spec c (Z.max 0 (r0 - sw))); [lia|]. replace (Z.max 0 (r0 - sw)) with 0 in H by lia.
  change (0 <? 0) with false in H. cbn [bind] in H. step H as drow Ed. step H as brow Ebr. step H as rows Er. destruct rows as [d2 b2].
  step H as dp2 Edp. step H as bt2 Ebt. injection H as _ <-. apply zset_ok in Ebt as [Hz ->].
  change 0%nat with (Z.to_nat 0) in Eb. rewrite zget_upd_eq in Eb by lia. injection Eb as <-.
  destruct (Hb brow Ebr) as [Lb Zb].
  rewrite zrange_cons in Er by lia. cbn [foldM] in Er. step Er as st Est. step Est as sim Esim. cbn [dp_cell bind] in Est.
  step Est as d3 Ed3. step Est as b3 Eb3. injection Est as <-. apply zset_ok in Eb3 as [Hz3 ->].
  apply shape_free.
  refine (foldM_inv (fun x : list T * list Z => row_shape (snd x)) _ _ _ _ _ _ Er).
  - cbn [snd]. change (Z.to_nat 0) with 0%nat. apply first_shape; auto; lia.
  - intros [da ba] s [db bb] Is HS E. cbn [snd] in *. step E as sm Esm. cbn [dp_cell bind] in E. step E as d5 Ed5. step E as b5 Eb5. injection E as <- <-.
    apply zset_ok in Eb5 as [Hz5 ->]. apply shape_upd; auto.
Qed.
Lemma later_step pf (simf : Z -> res T) c dp bt dp' bt' idx sw k : k <> 0 ->
  find_most_optimal_deg_patch pf simf c (dp, bt) idx k sw = Ok (dp', bt') -> 0 <= k -> zget bt' 0 = zget bt 0.
Proof.
  intros Hk H Hk0. unfold find_most_optimal_deg_patch in H. step H as r E1. step H as lo E2. step H as hi E3.
  match type of H with (if ?c then _ else _) = _ => destruct c; [injection H as <- <-; reflexivity|] end.
  match type of H with (if ?c then _ else _) = _ => destruct c; [discriminate|] end.
  step H as prev E4. step H as drow E5. step H as brow E6. step H as rows E7. destruct rows as [d2 b2]. step H as dp2 E8. step H as bt2 E9. injection H as <- <-.
  apply zset_ok in E9 as [Hz ->]. unfold zget. change (0 <? 0) with false. cbv iota. change (Z.to_nat 0) with 0%nat. rewrite nth_error_upd_ne by lia. reflexivity.
Qed.
Lemma first_back pf (refs : list (mat N)) idx (deg : mat N) bt fd pd k : (forall b, zget bt 0 = Ok b -> row_free b) -> forall s acc out,
  backtrace_loop pf refs idx deg bt fd pd (S k) s acc = Ok out ->
  exists sim off q t, out = set_times sim false off q fd pd :: t /\ 0 <= off <= Z.of_nat (mcols deg).
Proof.
  intros HB. induction k as [|k IH]; intros s acc out H; cbn [backtrace_loop] in H.
  - step H as rp E1. step H as e E2. step H as dpt E3. step H as sim E4. step H as brow E5. step H as prev E6. step H as q E7. injection H as <-.
    apply HB in E5. apply E5 in E6. destruct (Z.eqb_spec s prev); [congruence|]. do 4 eexists. split; [reflexivity|].
    unfold build_degraded_patch in E3. step E3 as pp E8. apply mslice_ok in E8. lia.
  - step H as rp E1. step H as e E2. step H as dpt E3. step H as sim E4. step H as brow E5. step H as prev E6. step H as q E7. eapply IH. exact H.
Qed.
Lemma first_kept pf (refs : list (mat N)) idx (deg : mat N) fd radius out r0 p0 : nth_error refs 0 = Some p0 ->
  zget idx 0 = Ok r0 -> 0 <= r0 <= radius * Z.of_nat (mcols p0) -> r0 + radius * Z.of_nat (mcols p0) < 2 ^ 31 -> Z.of_nat (mcols p0) < 2 ^ 31 -> 0 <= radius ->
  Z.of_nat (mcols deg) < usize_mod - 1 ->
  find_most_optimal_deg_patches pf refs idx deg fd radius = Ok out ->
  exists sim off q t, out = set_times sim false off q fd (nmul N fd (nofZ N (Z.of_nat (mcols p0)))) :: t /\ 0 <= off <= Z.of_nat (mcols deg).
Proof.
  intros H0 Hi Hr Hs Hp Hrad Hc H. unfold find_most_optimal_deg_patches in H. step H as q0 E0. apply zget_ok in E0 as [L0 E0]. change (Z.to_nat 0) with 0%nat in E0.
  rewrite H0 in E0. injection E0 as <-. rewrite wrap_i32_id in H by lia. rewrite i32_ok in H by lia. cbn [bind] in H.
  step H as np Enp. destruct (Z.eqb_spec np 0); [discriminate|]. step H as dps Ed. step H as tb Et. destruct tb as [dp bt].
  assert (Hne : idx <> []) by (apply zget_ok in Hi as [_ Hi]; intros ->; discriminate).
  pose proof (calc_max_pos _ _ _ _ _ Enp Hne) as Hnp.
  step H as rl E1. step H as lo E2. step H as up E3. step H as up1 E4. step H as lr E5. step H as lof E6.
  destruct (Z.to_nat np) as [|k] eqn:Ek; [lia|]. eapply first_back; [|exact H].
  rewrite zrange_cons in Et by lia. cbn [foldM] in Et. step Et as t1 Et1. step Et1 as rp Erp. destruct t1 as [dp1 bt1].
  destruct (Z.eq_dec (Z.of_nat (mcols deg)) 0) as [Z0|NZ].
  - (* no columns: nothing can be read *)
    intros b Eb i v Ev. exfalso.
    assert (G : forall b, zget bt1 0 = Ok b -> b = []).
    { intros b1 Eb1. unfold find_most_optimal_deg_patch in Et1. rewrite Hi in Et1. cbn [bind] in Et1. rewrite wrap_i32_id in Et1 by lia. rewrite !i32_ok in Et1 by lia. cbn [bind] in Et1.
      assert (M0 : mcols deg = O) by lia. rewrite M0 in *.
      match type of Et1 with (if ?c then _ else _) = _ => destruct c end.
      { injection Et1 as _ <-. apply zget_ok in Eb1 as [_ Eb1]. apply nth_error_In, repeat_spec in Eb1. exact Eb1. }
      match type of Et1 with (if ?c then _ else _) = _ => destruct c; [discriminate|] end.
      change (0 <? 0) with false in Et1. cbn [bind] in Et1. step Et1 as drow F1. step Et1 as brow F2. rewrite zrange_empty in Et1 by lia. cbn [foldM bind] in Et1.
      step Et1 as dp2 F3. step Et1 as bt2 F4. injection Et1 as _ <-. apply zset_ok in F4 as [F4 ->]. change 0%nat with (Z.to_nat 0) in Eb1. rewrite zget_upd_eq in Eb1 by exact F4. injection Eb1 as <-.
      apply zget_ok in F2 as [_ F2]. apply nth_error_In, repeat_spec in F2. exact F2. }
    assert (K : zget bt 0 = zget bt1 0).
    { refine (foldM_inv (fun x : list (list T) * list (list Z) => zget (snd x) 0 = zget bt1 0) _ _ _ _ _ _ Et); [reflexivity|]. intros [da ba] kk [db bb] Ik HS E. cbn [snd] in *. step E as rk Erk. apply in_zrange in Ik.
      assert (kk <> 0) by lia. rewrite (later_step _ _ _ _ _ _ _ _ _ kk ltac:(assumption) E) by lia. exact HS. }
    rewrite K in Eb. apply G in Eb. subst b. apply zget_ok in Ev as [Ev _]. cbn in Ev. lia.
  - intros b Eb.
    assert (K : zget bt 0 = zget bt1 0).
    { refine (foldM_inv (fun x : list (list T) * list (list Z) => zget (snd x) 0 = zget bt1 0) _ _ _ _ _ _ Et); [reflexivity|]. intros [da ba] kk [db bb] Ik HS E. cbn [snd] in *. step E as rk Erk. apply in_zrange in Ik.
      assert (kk <> 0) by lia. rewrite (later_step _ _ _ _ _ _ _ _ _ kk ltac:(assumption) E) by lia. exact HS. }
    rewrite K in Eb. revert b Eb. eapply first_step; [exact Hi|exact Hr|lia| |  |exact Et1]; [lia|].
    intros b Eb. apply zget_ok in Eb as [_ Eb]. apply nth_error_In, repeat_spec in Eb. subst b. split; [unfold zlen; rewrite repeat_length; reflexivity|].
    intros i v Ev. apply zget_ok in Ev as [_ Ev]. apply nth_error_In, repeat_spec in Ev. exact Ev.
Qed.
End First.

Section Lost.
Variable lm : Libm.
Notation N := (F64 lm).
(** A segment of the degraded recording that starts inside it has samples of it. *)
Lemma seg_inside (s seg : AudioSignal N) h r fp : (1 <= h)%Z -> sample_rate s = (50 * h)%Z -> (50 * h < 2 ^ 32)%Z -> (0 <= r)%Z -> (2 <= fp <= 1000)%Z ->
  (r * h < sig_len s)%Z -> (sig_len s <= 2 ^ 35)%Z ->
  let fd := calculate_frame_duration (N:=N) (nmul N (nofZ N (4 * h)) OVERLAP) (50 * h) in
  let t := nmul N (nofZ N r) fd in
  slice s t (nadd N t (nmul N fd (nofZ N fp))) = Ok seg -> exists x, In x (data_matrix s) /\ In x (data_matrix seg).
Proof.
  intros Hh HR Hb Hr Hf Hl Hl2 fd t H.
  destruct (quarter_exact lm (4 * h) ltac:(lia)) as [Fq Eq]; [rewrite Z.mul_comm; apply Z.mod_mul; lia|]. cbv zeta in Fq, Eq.
  replace (4 * h / 4)%Z with h in Eq by (rewrite Z.mul_comm, Z.div_mul; lia).
  destruct (frame_sample (nmul N (nofZ N (4 * h)) OVERLAP) h (50 * h) r Fq Eq) as (Ft & Pt & Fp & Pp & D); try lia.
  destruct (stop_sample (nmul N (nofZ N (4 * h)) OVERLAP) h (50 * h) r fp Fq Eq) as (_ & _ & _ & Fs & Ds); try lia; [nia|].
  unfold slice in H. cbv zeta in H. step H as body Eb.
  rewrite HR in Eb.
  assert (Kk : as_usize (nmul N t (nofZ N (50 * h))) = (r * h)%Z \/ (as_usize (nmul N t (nofZ N (50 * h))) = r * h - 1)%Z /\ (1 <= r * h)%Z).
  { unfold as_usize. apply near_trunc; [nia|exact Fp|exact D|]. intros _. exact Pp. }
  assert (Ke : (r * h + 1 <= as_usize (nmul N (nadd N t (nmul N fd (nofZ N fp))) (nofZ N (50 * h))))%Z).
  { unfold as_usize. match goal with |- (_ <= ncast N _ _ ?p)%Z => change (ncast N 0 (2 ^ 64 - 1) p) with (f64_cast 0 (2 ^ 64 - 1) p) end.
    rewrite cast_fin by exact Fs. match type of Ds with _ <= B2R ?p <= _ => set (x := B2R p) in * end.
    match goal with |- context [Ztrunc ?y] => change y with x end.
    assert (T : (r * h + 1 <= Ztrunc x)%Z).
    { apply Zfloor_lub in Ds || idtac. rewrite Ztrunc_floor.
      - apply Zfloor_lub. apply Rle_trans with (IZR ((r + fp) * h) - / 1024); [|apply Ds].
        assert (IZR (r * h + 1) + 1 <= IZR ((r + fp) * h)) by (rewrite <- plus_IZR; apply IZR_le; nia). lra.
      - apply Rle_trans with (IZR ((r + fp) * h) - / 1024); [|apply Ds]. assert (2 <= IZR ((r + fp) * h)) by (apply IZR_le; nia). lra. }
    assert (T2 : (Ztrunc x <= 2 ^ 41)%Z).
    { rewrite Ztrunc_floor. - apply le_IZR. apply Rle_trans with x; [apply Zfloor_lb|]. apply Rle_trans with (IZR ((r + fp) * h) + / 1024); [apply Ds|].
        assert (IZR ((r + fp) * h) + 1 <= IZR (2 ^ 41)) by (rewrite <- plus_IZR; apply IZR_le; nia). lra.
      - apply Rle_trans with (IZR ((r + fp) * h) - / 1024); [|apply Ds]. assert (2 <= IZR ((r + fp) * h)) by (apply IZR_le; nia). lra. }
    lia. }
  apply zslice_ok in Eb as [Eb ->].
  set (k := as_usize (nmul N t (nofZ N (50 * h)))) in *. set (e := as_usize (nmul N (nadd N t (nmul N fd (nofZ N fp))) (nofZ N (50 * h)))) in *.
  assert (Kb : (0 <= k <= r * h)%Z) by lia. clearbody k e.
  destruct (nth_error (data_matrix s) (Z.to_nat k)) as [x|] eqn:Ex; [|apply nth_error_None in Ex; unfold sig_len, zlen in *; lia].
  exists x. split; [eapply nth_error_In; eauto|].
  assert (Ib : In x (firstn (Z.to_nat (Z.min e (sig_len s) - k)) (skipn (Z.to_nat k) (data_matrix s)))).
  { destruct (Z.to_nat (Z.min e (sig_len s) - k)) as [|n] eqn:En; [lia|].
    assert (G : forall n (l : list (num N)), nth_error l n = Some x -> exists t, skipn n l = x :: t).
    { clear. induction n; intros [|y l] H; cbn in *; try discriminate; [injection H as ->; eauto|auto]. }
    destruct (G _ _ Ex) as (tl & ->). left; reflexivity. }
  match type of H with Ok ?a = _ => assert (E : a = seg) by congruence end. rewrite <- E. cbn [data_matrix].
  destruct (0 <? _)%Z; destruct (nltb N _ _); repeat (apply in_or_app; first [left; exact Ib|right]); exact Ib.
Qed.

(** A patch that is not lost ends after time 0. *)
Lemma not_lost (sim : PatchSim N) h r off fp : (1 <= h)%Z -> (50 * h < 2 ^ 32)%Z -> (0 <= off)%Z -> (2 <= fp <= 1000)%Z -> (off * h <= 2 ^ 35)%Z ->
  let fd := calculate_frame_duration (N:=N) (nmul N (nofZ N (4 * h)) OVERLAP) (50 * h) in
  is_lost (set_times sim false off r fd (nmul N fd (nofZ N fp))) = false.
Proof.
  intros Hh Hb Hr Hf Hl fd.
  destruct (quarter_exact lm (4 * h) ltac:(lia)) as [Fq Eq]; [rewrite Z.mul_comm; apply Z.mod_mul; lia|]. cbv zeta in Fq, Eq.
  replace (4 * h / 4)%Z with h in Eq by (rewrite Z.mul_comm, Z.div_mul; lia).
  destruct (frame_sample (nmul N (nofZ N (4 * h)) OVERLAP) h (50 * h) off Fq Eq) as (Ft & Pt & _); try lia.
  destruct (stop_sample (nmul N (nofZ N (4 * h)) OVERLAP) h (50 * h) off fp Fq Eq) as (Fd & Dd & Fe & Fs & Ds); try lia; [nia|].
  unfold is_lost. cbn [set_times deg_patch_start_time deg_patch_end_time].
  destruct (neqb N (nmul N (nofZ N off) fd) (nadd N (nmul N (nofZ N off) fd) (nmul N fd (nofZ N fp)))) eqn:E1; [|reflexivity].
  destruct (neqb N (nmul N (nofZ N off) fd) (nofZ N 0)) eqn:E2; [|reflexivity]. exfalso.
  cbn [neqb nmul nadd nofZ F64] in E1, E2.
  match type of E2 with Beqb ?x _ = _ => set (t := x) in * end. match type of E1 with Beqb _ ?x = _ => set (e := x) in * end.
  assert (F0 : is_finite (f64_ofZ 0) = true) by (apply ofZ_fin; lia). assert (B0 : B2R (f64_ofZ 0) = 0) by (apply ofZ_B2R; lia).
  rewrite Beqb_correct in E2 by (exact Ft || exact F0). rewrite Beqb_correct in E1 by (exact Ft || exact Fe).
  revert E1; case Req_bool_spec; intros E1 D1; [|discriminate D1].
  revert E2; case Req_bool_spec; intros E2 D2; [|discriminate D2].
  assert (Ze : B2R e = 0) by lra.
  match type of Ds with _ <= B2R ?p <= _ => assert (Zp : B2R p = 0) end.
  { destruct (zero_of e Fe Ze) as [s Es].
    match goal with |- B2R (Bmult _ ?x ?y) = 0 => change x with e; destruct (ofZ_exact (50 * h) ltac:(lia)) as [Fy Ey]; rewrite Es; destruct y; try discriminate Fy; reflexivity end. }
  rewrite Zp in Ds. assert (2 <= IZR ((off + fp) * h)) by (apply IZR_le; nia). lra.
Qed.

(** Sums and means of zeros. *)
Definition isz (x : f64) : Prop := exists s, x = B754_zero s.
Lemma isz_plus x y : isz x -> isz y -> isz (Bplus mode_NE x y).
Proof. intros [s ->] [t ->]. destruct s, t; cbn; eexists; reflexivity. Qed.
Lemma isz_0 : isz (f64_ofZ 0). Proof. exists false. apply B2SF_inj. vm_compute. reflexivity. Qed.
Lemma ofZ_div0 n : (1 <= n)%Z -> forall s, isz (Bdiv mode_NE (B754_zero s) (f64_ofZ n)).
Proof.
  intros Hn s. unfold f64_ofZ.
  pose proof (binary_normalize_correct 53 1024 Hprec Hemax mode_NE n 0 false) as C. cbv zeta in C.
  match type of C with if Rlt_bool ?u ?v then _ else _ => destruct (Rlt_bool_spec u v) as [L|L] end.
  - destruct C as (E & F & _).
    assert (P : 1 <= B2R (binary_normalize 53 1024 Hprec Hemax mode_NE n 0 false)).
    { rewrite E. apply round_ge_generic; auto with typeclass_instances.
      - change 1 with (bpow radix2 0). apply generic_format_bpow. unfold SpecFloat.fexp, SpecFloat.emin. cbn. lia.
      - unfold F2R. cbn [Fnum Fexp bpow]. rewrite Rmult_1_r. apply IZR_le; lia. }
    apply Bdiv_zero; [exact F|]. intros Q. apply Rle_not_lt in P. apply P. apply Rle_lt_trans with 0; [right; exact Q|lra].
  - match type of C with B2SF ?x = _ => assert (G : exists t, x = B754_infinity t) by (destruct x; cbn in C; try discriminate C; eauto) end.
    destruct G as [t ->]. cbn. eexists; reflexivity.
Qed.
Lemma isz_div x n : isz x -> (1 <= n)%Z -> isz (Bdiv mode_NE x (f64_ofZ n)).
Proof. intros [s ->] Hn. apply ofZ_div0; auto. Qed.
Definition all8 (p : f64*f64*f64*f64*f64*f64*f64*f64) : Prop :=
  let '(p0,p1,p2,p3,p4,p5,p6,p7) := p in isz p0 /\ isz p1 /\ isz p2 /\ isz p3 /\ isz p4 /\ isz p5 /\ isz p6 /\ isz p7.
Lemma isz_unroll f : forall p (l : list f64), all8 p -> Forall isz l ->
  all8 (fst (unroll8 (N:=N) f p l)) /\ Forall isz (snd (unroll8 (N:=N) f p l)).
Proof.
  induction f as [|f IH]; intros p l HP HL; [split; [exact HP|exact HL]|].
  destruct l as [|x0 [|x1 [|x2 [|x3 [|x4 [|x5 [|x6 [|x7 t]]]]]]]]; try (split; [exact HP|exact HL]).
  destruct p as [[[[[[[p0 p1] p2] p3] p4] p5] p6] p7]. cbn [all8] in HP.
  repeat match goal with H : Forall isz (_ :: _) |- _ => apply Forall_cons_iff in H as [? ?] end.
  assert (G : all8 (Bplus mode_NE p0 x0, Bplus mode_NE p1 x1, Bplus mode_NE p2 x2, Bplus mode_NE p3 x3, Bplus mode_NE p4 x4, Bplus mode_NE p5 x5, Bplus mode_NE p6 x6, Bplus mode_NE p7 x7)).
  { cbn [all8]. repeat split; apply isz_plus; tauto. }
  exact (IH _ t G ltac:(assumption)).
Qed.
Lemma isz_fold (l : list f64) : forall acc, isz acc -> Forall isz l -> isz (fold_left (nadd N) l acc : f64).
Proof. induction l as [|x t IH]; intros acc HA F; cbn [fold_left]; auto. apply Forall_cons_iff in F as [Fx Ft]. apply IH; auto. apply isz_plus; auto. Qed.
Lemma isz_sum (l : list f64) : Forall isz l -> isz (nd_sum (N:=N) l : f64).
Proof.
  intros H. unfold nd_sum.
  match goal with |- context [unroll8 ?f ?z l] => assert (Z8 : all8 z) by (cbn [all8]; repeat split; apply isz_0); pose proof (isz_unroll f z l Z8 H) as G;
    destruct (unroll8 f z l) as [[[[[[[[p0 p1] p2] p3] p4] p5] p6] p7] rest] end. cbn [fst snd all8] in G.
  destruct G as ((G0 & G1 & G2 & G3 & G4 & G5 & G6 & G7) & GR). apply isz_fold; auto. cbn [nadd F64].
  repeat (apply isz_plus; auto). apply isz_0.
Qed.
Lemma isz_mean (l : list f64) x : Forall isz l -> nd_mean (N:=N) l = Some x -> isz x.
Proof.
  intros H E. destruct l as [|y t]; [discriminate|].
  assert (E' : Bdiv mode_NE (nd_sum (N:=N) (y :: t) : f64) (f64_ofZ (zlen (y :: t))) = x) by (injection E as <-; reflexivity).
  rewrite <- E'. apply isz_div; [apply isz_sum, H|]. rewrite zlen_cons in *. pose proof (zlen_nonneg t). lia.
Qed.
Lemma add_into_zero : forall (a b c : list f64), add_into (N:=N) a b = Ok c -> Forall isz a -> Forall isz b -> Forall isz c.
Proof.
  induction a as [|x a IH]; intros [|y b] c H HA HB; cbn [add_into] in H; try discriminate; try (injection H as <-; constructor).
  step H as t Et. match type of H with Ok ?z = _ => assert (E : z = c) by congruence end. rewrite <- E.
  apply Forall_cons_iff in HA as [? ?]. apply Forall_cons_iff in HB as [? ?]. constructor; [apply isz_plus; auto|eapply IH; eauto].
Qed.
Lemma means_zero (l : list (PatchSim N)) (out : list f64) : Forall (fun p : PatchSim N => Forall isz (freq_band_means p)) l ->
  calc_per_patch_mean_freq_band_means l = Ok out -> Forall isz out.
Proof.
  intros HF H. unfold calc_per_patch_mean_freq_band_means in H. step H as n En. step H as s Es.
  match type of H with Ok ?z = _ => assert (E : z = out) by congruence end. rewrite <- E. clear E H.
  assert (L1 : (1 <= zlen l)%Z).
  { unfold num_bands_of in En. step En as p0 Ep. apply zget_ok in Ep. destruct Ep as [_ Ep]. destruct l; [discriminate|]. rewrite zlen_cons. pose proof (zlen_nonneg l). lia. }
  assert (S : Forall isz s).
  { assert (G : forall (k : list (PatchSim N)) a, Forall (fun p : PatchSim N => Forall isz (freq_band_means p)) k -> Forall isz a ->
       foldM (fun (acc : list (num N)) (p : PatchSim N) => add_into acc (freq_band_means p)) a k = Ok s -> Forall isz s).
    { induction k as [|p k IH]; intros a Hk Ha Hs; cbn [foldM] in Hs; [injection Hs as <-; auto|].
      step Hs as a2 Ea. apply Forall_cons_iff in Hk as [? ?]. eapply IH; [eassumption| |exact Hs]. eapply add_into_zero; eauto. }
    eapply G; [exact HF| |exact Es]. apply Forall_forall. intros x Hx. apply repeat_spec in Hx. subst x. apply isz_0. }
  apply Forall_forall. intros x Hx. apply in_map_iff in Hx as (y & <- & Hy). rewrite Forall_forall in S. apply isz_div; [apply S, Hy|lia].
Qed.

(** A comparison with a silent degraded recording that returns has lost every patch. *)
Definition silent (s : AudioSignal N) : Prop := Forall (fun x : f64 => is_finite x = true /\ B2R x = 0) (data_matrix s).
Lemma silent_shift rate most (l out : list f64) lag : Forall (fun x : f64 => is_finite x = true /\ B2R x = 0) l ->
  shifted (N:=N) rate most l out lag -> Forall (fun x : f64 => is_finite x = true /\ B2R x = 0) out.
Proof.
  intros H S. destruct S; auto.
  - apply Forall_forall. intros x Hx. apply In_skipn in Hx. rewrite Forall_forall in H. auto.
  - apply Forall_app. split; auto. apply Forall_forall. intros x Hx. apply repeat_spec in Hx. subst x.
    split; [apply (ofZ_fin 0); lia|apply (ofZ_B2R 0); lia].
Qed.
Lemma all_lost pf nb files (m m' : Manager N) a b r (rs ds : AudioSignal N) h :
  libm_limits lm -> log10_finite lm -> fft_spreads_nan lm ->
  (2 <= creator_patch_size (mg_creator m) <= 1000)%Z ->
  load_as_mono (files a) = Ok rs -> load_as_mono (files b) = Ok ds ->
  audible (data_matrix rs) -> silent ds ->
  (1 <= h)%Z -> sample_rate rs = (50 * h)%Z -> (50 * h < 2 ^ 32)%Z -> (sig_len rs <= 2 ^ 34)%Z -> (sig_len ds <= 2 ^ 34)%Z ->
  run pf nb files m a b = (m', Ok r) ->
  exists rspec dspec idx pts fd pd,
    Z.of_nat (mcols rspec) = (1 + (sig_len rs - 4 * h) / h)%Z /\ (Z.of_nat (mcols dspec) * h <= 2 ^ 35)%Z /\
    create_ref_patch_indices pf (mg_creator m) rspec rs (new_window (N:=N) (sample_rate rs) OVERLAP WINDOW_DURATION) = Ok idx /\
    create_patches_from_indices (creator_patch_size (mg_creator m)) rspec idx = Ok pts /\
    find_most_optimal_deg_patches pf pts idx dspec fd (wrap_i32 (mg_search_window m)) = Ok (patch_sims r) /\
    (fd : num N) = calculate_frame_duration (N:=N) (nmul N (nofZ N (4 * h)) OVERLAP) (50 * h) /\
    (pd : num N) = nmul N fd (nofZ N (creator_patch_size (mg_creator m))) /\
    (forall sim off q, (0 <= off)%Z -> (off * h <= 2 ^ 35)%Z -> is_lost (set_times sim false off q fd pd) = false) /\
    Forall (fun p => is_lost p = true /\ exists sim off q, p = set_times sim true off q fd pd) (patch_sims r).
Proof.
  intros LL LG FN HP L1 L2 HA HS Hh HR Hb S1 S2 H.
  apply run_parts in H. destruct H as (rs' & ds' & al & lag & fb1 & fb2 & fb3 & rspec & dspec & rp & dp & idx & pts & info & H).
  cbv zeta in H. destruct H as (L1' & L2' & RT & GA & B1 & B2 & PR & CI & PT & FD & FA & _).
  assert (rs' = rs) by congruence. assert (ds' = ds) by congruence. subst rs' ds'. clear L1' L2'.
  set (w := new_window (sample_rate rs) OVERLAP WINDOW_DURATION) in *.
  assert (Hw : win_size w = (4 * h)%Z).
  { unfold w. rewrite window_exact by lia. rewrite HR. replace (4 * (50 * h) + 25)%Z with (25 + (4 * h) * 50)%Z by ring. rewrite Z.div_add by lia. change (25 / 50)%Z with 0%Z. lia. }
  assert (Hh2 : hop_size w = h).
  { pose proof (hop_quarter lm (sample_rate rs)) as HQ. cbv zeta in HQ. fold w in HQ. rewrite HQ by lia. rewrite Hw, Z.mul_comm, Z.div_mul; lia. }
  assert (HH : (0 < hop_size w)%Z) by lia.
  pose proof (build_cols _ _ _ _ _ _ HH B1) as C1. pose proof (build_cols _ _ _ _ _ _ HH B2) as C2.
  match type of C2 with _ = (1 + (?x - _) / _)%Z => change x with (sig_len (scale_to_match_sound_pressure_level rs al)) in C2 end.
  rewrite scale_len, Hw, Hh2 in C2. rewrite Hw, Hh2 in C1.
  match type of C1 with _ = (1 + (?x - _) / _)%Z => change x with (sig_len rs) in C1 end.
  apply C10_shift in GA. destruct GA as (RA & SH).
  assert (SA : silent al) by (eapply silent_shift; eauto).
  assert (AL : (sig_len al <= sig_len ds + sig_len rs)%Z).
  { unfold sig_len in *. assert (0 <= zlen (data_matrix rs))%Z by (unfold zlen; lia).
    pose proof (Z.div_le_upper_bound (zlen (data_matrix rs)) 2 (zlen (data_matrix rs))).
    destruct SH; unfold zlen in *; rewrite ?app_length, ?repeat_length, ?skipn_length; lia. }
  set (scaled := scale_to_match_sound_pressure_level rs al) in *.
  assert (NS : Forall (fun x : f64 => is_nan x = true) (data_matrix scaled)).
  { apply C42_nan; auto; lia. }
  assert (SL : sig_len scaled = sig_len al) by apply scale_len.
  assert (SR : sample_rate scaled = (50 * h)%Z) by (unfold scaled; cbn [scale_to_match_sound_pressure_level sample_rate]; congruence).
  pose proof (prepare_shape _ _ _ _ PR) as ((_ & _ & PC1 & _) & (_ & _ & PC2 & _)).
  pose proof (patches_cols _ _ _ _ PT ltac:(lia)) as (PI & PP).
  set (fd := calculate_frame_duration _ _) in FD.
  assert (Efd : fd = calculate_frame_duration (N:=N) (nmul N (nofZ N (4 * h)) OVERLAP) (50 * h)) by (unfold fd; rewrite Hw, HR; reflexivity).
  clearbody fd. set (ps := creator_patch_size (mg_creator m)) in *.
  set (pd := nmul N fd (nofZ N ps)).
  assert (NL : forall sim off q, (0 <= off)%Z -> (off * h <= 2 ^ 35)%Z -> is_lost (set_times sim false off q fd pd) = false).
  { intros sim off q Ho1 Ho2. unfold pd. rewrite Efd. apply not_lost; auto. }
  pose proof (find_times _ _ _ _ _ _ _ FD) as (p0 & E0 & FT). apply nth_error_In in E0. apply PP in E0. rewrite E0 in FT. fold pd in FT.
  assert (OFF : forall off, (0 <= off <= Z.of_nat (mcols (sp_data dp)))%Z -> (off * h < sig_len al)%Z \/ Z.of_nat (mcols (sp_data dp)) = 0%Z /\ off = 0%Z).
  { intros off Ho. rewrite PC2, C2 in Ho. rewrite PC2, C2. destruct (Z.eq_dec off 0) as [-> |No].
    - destruct (Z.lt_ge_cases 0 (sig_len al)); [left; lia|]. exfalso.
      assert (sig_len al = 0)%Z by (unfold sig_len, zlen in *; lia).
      apply build_inv in B2. destruct B2 as (B2 & _). rewrite Hw in B2. match type of B2 with (_ <= ?x)%Z => change x with (sig_len scaled) in B2 end. lia.
    - left. pose proof (Z.mul_div_le (sig_len al - 4 * h) h ltac:(lia)). nia. }
  assert (LEN0 : (4 * h <= sig_len al)%Z).
  { apply build_inv in B2. destruct B2 as (B2 & _). rewrite Hw in B2. match type of B2 with (_ <= ?x)%Z => change x with (sig_len scaled) in B2 end. lia. }
  assert (OFF2 : forall off, (0 <= off <= Z.of_nat (mcols (sp_data dp)))%Z -> (off * h < sig_len al)%Z).
  { intros off Ho. destruct (OFF off Ho) as [?|[_ ->]]; lia. }
  assert (COLS : (Z.of_nat (mcols (sp_data dp)) * h <= 2 ^ 35)%Z) by (specialize (OFF2 (Z.of_nat (mcols (sp_data dp))) ltac:(lia)); lia).
  apply fine_times in FA.
  assert (Q : Forall2 (fun old p => p = old /\ is_lost old = true) info (patch_sims r)).
  { clear - FA FT OFF2 NS SL SR FN Efd Hh Hb AL S1 S2 HP.
    induction FA as [|old p info out (g & g' & RP) FA IH]; constructor.
    - apply Forall_cons_iff in FT as [FT _]. destruct FT as (sim & lost & off & q & -> & Ho & _).
      destruct lost.
      + unfold realign_patch in RP.
        assert (IL : is_lost (set_times sim true off q fd pd) = true).
        { unfold is_lost. cbn [set_times deg_patch_start_time deg_patch_end_time]. apply andb_true_intro. split; vm_compute; reflexivity. }
        rewrite IL in RP. injection RP as _ <-. auto.
      + destruct (nan_realign lm pf nb rs scaled w g g' (set_times sim false off q fd pd) p FN) as [A B]; auto.
        intros seg Hs. cbn [set_times deg_patch_start_time deg_patch_end_time] in Hs.
        unfold pd in Hs. rewrite Efd in Hs. specialize (OFF2 off Ho).
        destruct (seg_inside scaled seg h off ps Hh SR Hb ltac:(lia) HP ltac:(lia) ltac:(lia) Hs) as (x & I1 & I2).
        apply Exists_exists. exists x. split; [exact I2|]. rewrite Forall_forall in NS. apply NS, I1.
    - apply Forall_cons_iff in FT as [_ FT]. apply IH; auto. }
  assert (EQ : patch_sims r = info).
  { clear - Q. induction Q as [|x y l l' [E _] Q IH]; [reflexivity|]. rewrite E, IH. reflexivity. }
  exists (sp_data rp), (sp_data dp), idx, pts, fd, pd.
  split; [rewrite PC1; exact C1|]. split; [exact COLS|]. split; [exact CI|]. split; [exact PT|]. rewrite EQ. split; [exact FD|]. split; [exact Efd|]. split; [reflexivity|]. split; [exact NL|].
  rewrite EQ in Q. clear - Q FT NL OFF2 AL S1 S2.
  assert (G : forall p, In p info -> is_lost p = true).
  { clear - Q. revert Q. generalize info at 1 3. intros l Q. induction Q as [|x y l l' [E I] Q IH]; intros p Hp; [destruct Hp|]. destruct Hp as [<-|Hp]; auto. }
  rewrite Forall_forall in *. intros p Hp. split; [auto|]. specialize (FT p Hp). destruct FT as (sim & lost & off & q & -> & Ho & _). exists sim, off, q.
  destruct lost; [reflexivity|]. specialize (G _ Hp). rewrite NL in G; [discriminate|lia|]. specialize (OFF2 off Ho). lia.
Qed.

(** What such a result looks like. *)
Lemma silent_result pf nb v ws files (m m' : Manager N) calls a b r (rs ds : AudioSignal N) h :
  libm_limits lm -> log10_finite lm -> fft_spreads_nan lm -> new_manager nb v ws = Ok m ->
  load_as_mono (files a) = Ok rs -> load_as_mono (files b) = Ok ds ->
  audible (data_matrix rs) -> silent ds ->
  (1 <= h)%Z -> sample_rate rs = (50 * h)%Z -> (50 * h < 2 ^ 32)%Z -> (sig_len rs <= 2 ^ 34)%Z -> (sig_len ds <= 2 ^ 34)%Z ->
  run pf nb files (after_calls pf nb m calls) a b = (m', Ok r) ->
  (moslqo r : f64) = f64_ofZ 1 /\ is_finite (vnsim r : f64) = true /\ B2R (vnsim r) = 0 /\
  Forall (fun p : PatchSim N => similarity p = f64_ofZ 0 /\ Forall (fun x : f64 => x = f64_ofZ 0) (freq_band_means p) /\
     deg_patch_start_time p = f64_ofZ 0 /\ deg_patch_end_time p = f64_ofZ 0) (patch_sims r).
Proof.
  intros LL LG FN Hm L1 L2 HA HS Hh HR Hb S1 S2 H. set (m1 := after_calls pf nb m calls) in *.
  assert (Hc : mg_creator m1 = mg_creator m) by apply after_creator.
  assert (Hps : (2 <= creator_patch_size (mg_creator m1) <= 1000)%Z).
  { rewrite Hc. unfold new_manager in Hm. destruct v as [u|[s|]]; cbn [bind] in Hm; try discriminate; inversion Hm; cbn [mg_creator creator_patch_size fst]; unfold PATCH_SIZE_AUDIO, PATCH_SIZE_SPEECH; lia. }
  clearbody m1.
  destruct (all_lost pf nb files m1 m' a b r rs ds h) as (rspec & dspec & idx & pts & fd & pd & _ & _ & _ & PT & FD & _ & _ & _ & AL); auto.
  assert (P : Forall (fun p : PatchSim N => similarity p = f64_ofZ 0 /\ Forall (fun x : f64 => x = f64_ofZ 0) (freq_band_means p) /\
     deg_patch_start_time p = f64_ofZ 0 /\ deg_patch_end_time p = f64_ofZ 0) (patch_sims r)).
  { eapply Forall_impl; [|exact AL]. intros p (_ & sim & off & q & ->). cbn [set_times similarity freq_band_means deg_patch_start_time deg_patch_end_time].
    split; [reflexivity|]. split; [|split; reflexivity]. apply Forall_forall. intros x Hx. apply repeat_spec in Hx. exact Hx. }
  apply run_ok in H. destruct H as (rs' & ds' & al & lag & f' & A1 & A2 & A3 & A4 & H).
  apply calculate_ok in H. destruct H as (LF & _ & _ & _ & _ & _ & VM & (q & _ & MQ) & CM & _).
  assert (ZP : Forall isz (fvnsim r)).
  { eapply means_zero; [|exact CM]. eapply Forall_impl; [|exact P]. intros p (_ & Q & _). eapply Forall_impl; [|exact Q]. intros x ->. apply isz_0. }
  assert (ZV : isz (vnsim r)).
  { eapply isz_mean; [exact ZP|exact VM]. }
  split; [|split; [|split]]; auto.
  - rewrite MQ. unfold alter_for_similarity_extremes.
    assert (E : nltb N (vnsim r) (nlit N 15 2) = true).
    { destruct ZV as [s ->]. destruct s; vm_compute; reflexivity. }
    rewrite E. reflexivity.
  - destruct ZV as [s ->]. reflexivity.
  - destruct ZV as [s ->]. reflexivity.
Qed.

(** If frame 0 is in the search window of the first patch, there is no result. *)
Lemma silent_never pf nb v ws files (m : Manager N) calls a b (rs ds : AudioSignal N) h :
  libm_limits lm -> log10_finite lm -> fft_spreads_nan lm -> new_manager nb v ws = Ok m ->
  load_as_mono (files a) = Ok rs -> load_as_mono (files b) = Ok ds ->
  audible (data_matrix rs) -> silent ds ->
  (1 <= h)%Z -> sample_rate rs = (50 * h)%Z -> (50 * h < 2 ^ 32)%Z -> (sig_len rs <= 2 ^ 34)%Z -> (sig_len ds <= 2 ^ 34)%Z ->
  (1 <= ws <= 2 ^ 20)%Z -> match v with Wideband _ => (sig_len rs <= 30 * ws * h)%Z | Fullband _ => True end ->
  forall r, snd (run pf nb files (after_calls pf nb m calls) a b) <> Ok r.
Proof.
  intros LL LG FN Hm L1 L2 HA HS Hh HR Hb S1 S2 Hws Hv r H. set (m1 := after_calls pf nb m calls) in *.
  assert (Hc : mg_creator m1 = mg_creator m) by apply after_creator.
  assert (Hsw : mg_search_window m1 = ws).
  { unfold m1. replace (mg_search_window (after_calls pf nb m calls)) with (mg_search_window m) by (symmetry; apply after_same).
    unfold new_manager in Hm. destruct v as [u|[s|]]; cbn [bind] in Hm; try discriminate; inversion Hm; reflexivity. }
  assert (Hcr : mg_creator m1 = match v with Wideband _ => VadPatchCreator 30 | Fullband _ => ImagePatchCreator 20 end).
  { rewrite Hc. unfold new_manager in Hm. destruct v as [u|[s|]]; cbn [bind] in Hm; try discriminate; inversion Hm; reflexivity. }
  clearbody m1. destruct (run pf nb files m1 a b) as [m' x] eqn:R. cbn [snd] in H. subst x.
  destruct (all_lost pf nb files m1 m' a b r rs ds h) as (rspec & dspec & idx & pts & fd & pd & C1 & C2 & CI & PT & FD & Efd & Epd & NL & AL); auto.
  { rewrite Hcr. destruct v; cbn [creator_patch_size]; lia. }
  rewrite Hsw, wrap_i32_id in FD by lia.
  pose proof (find_times _ _ _ _ _ _ _ FD) as (p0 & E0 & _).
  assert (PS : (0 <= creator_patch_size (mg_creator m1))%Z) by (rewrite Hcr; destruct v; cbn [creator_patch_size]; lia).
  pose proof (patches_cols _ _ _ _ PT PS) as (PI & PP).
  assert (M0 : Z.of_nat (mcols p0) = creator_patch_size (mg_creator m1)) by (apply PP; eapply nth_error_In; eauto).
  destruct idx as [|r0 idx]; [cbn in PT; injection PT as <-; discriminate E0|].
  destruct (PI r0 ltac:(left; reflexivity)) as [P1 P2].
  assert (RW : (r0 <= ws * creator_patch_size (mg_creator m1) /\ r0 <= 2 ^ 26)%Z).
  { destruct v as [u|s]; rewrite Hcr in *; cbn [creator_patch_size] in *.
    - rewrite C1 in P2. assert ((sig_len rs - 4 * h) / h <= 30 * ws)%Z by (apply Z.div_le_upper_bound; nia). lia.
    - cbn [create_ref_patch_indices] in CI. unfold image_patch_indices in CI.
      match type of CI with (if ?c then _ else _) = _ => destruct c; [discriminate|] end.
      change (20 =? 0)%Z with false in CI. cbv iota in CI. unfold image_grid in CI.
      match type of CI with mapM _ (zrange 0 ?n) = _ => destruct (Z.lt_ge_cases 0 n) as [G|G]; [rewrite (zrange_cons 0 n) in CI by exact G|rewrite zrange_empty in CI by exact G; discriminate] end.
      cbn [mapM] in CI. step CI as i0 E1. step CI as rest E2. injection CI as -> _.
      rewrite usub_ok in E1 by (change (20 / 2)%Z with 10%Z; lia). injection E1 as <-. change (20 / 2)%Z with 10%Z. lia. }
  destruct (first_kept pf pts (r0 :: idx) dspec fd ws (patch_sims r) r0 p0) as (sim & off & q & t & E & Ho); auto; try (rewrite M0; rewrite Hcr in *; destruct v; cbn [creator_patch_size] in *; lia).
  { lia. }
  { unfold usize_mod. nia. }
  rewrite E in AL. apply Forall_inv in AL. destruct AL as [AL _]. rewrite M0, <- Epd in AL. rewrite NL in AL; [discriminate|lia|nia].
Qed.

(** The same for mono files. *)
Lemma mono_audible (vs : list Z) rate (s : AudioSignal N) : Forall i16_range vs -> Exists (fun v => v <> 0%Z) vs ->
  load_as_mono (WavOk 1 rate 16 (map Some vs)) = Ok s -> audible (data_matrix s).
Proof.
  intros HI HE HL. destruct (C08_mono lm rate vs s HI HL) as [L E].
  assert (V : forall v, i16_range v -> Rabs (IZR v / 32767) <= 2).
  { intros v [A B]. unfold Rdiv. rewrite Rabs_mult, (Rabs_pos_eq (/ 32767)) by lra. assert (Rabs (IZR v) <= 32768) by (rewrite <- abs_IZR; apply IZR_le; lia). lra. }
  assert (G2 : generic_format radix2 (FLT_exp (-1074) 53) 2) by (change 2 with (bpow radix2 1); apply generic_format_bpow; unfold FLT_exp; lia).
  assert (G3 : generic_format radix2 (FLT_exp (-1074) 53) (bpow radix2 (-40))) by (apply generic_format_bpow; unfold FLT_exp; lia).
  assert (B40 : bpow radix2 (-40) <= / 32767) by (change (bpow radix2 (-40)) with (/ 1099511627776); apply Rinv_le; lra).
  split.
  - apply Forall_forall. intros x Hx. apply In_nth_error in Hx as (i & Hi).
    assert (Li : (i < List.length vs)%nat) by (rewrite <- L; apply nth_error_Some; intros QQ; pose proof (eq_trans (eq_sym QQ) Hi) as Q2; discriminate Q2).
    destruct (E i Li) as (x' & E1 & F & B). assert (EX : x' = x) by exact (f_equal (fun o => match o with Some y => y | None => x end) (eq_trans (eq_sym E1) Hi)). rewrite EX in *. clear x' EX E1. split; auto. rewrite B.
    apply abs_round_le_generic; auto with typeclass_instances. apply V. rewrite Forall_forall in HI. apply HI, nth_In, Li.
  - apply Exists_exists in HE as (v & Iv & Nv). apply In_nth with (d := 0%Z) in Iv as (i & Li & Ev).
    destruct (E i Li) as (x & E1 & F & B). apply Exists_exists. exists x. split; [eapply nth_error_In; eauto|]. rewrite B, Ev.
    apply abs_round_ge_generic; auto with typeclass_instances. unfold Rdiv. rewrite Rabs_mult, (Rabs_pos_eq (/ 32767)) by lra.
    assert (1 <= Rabs (IZR v)) by (rewrite <- abs_IZR; apply IZR_le; lia). nra.
Qed.
Lemma mono_silent n rate (s : AudioSignal N) : load_as_mono (WavOk 1 rate 16 (map Some (repeat 0%Z n))) = Ok s -> silent s.
Proof.
  intros HL. destruct (C08_mono lm rate (repeat 0%Z n) s) as [L E]; auto.
  { apply Forall_forall. intros x Hx. apply repeat_spec in Hx. subst x. unfold i16_range. lia. }
  apply Forall_forall. intros x Hx. apply In_nth_error in Hx as (i & Hi).
  assert (Li : (i < List.length (repeat 0%Z n))%nat) by (rewrite <- L; apply nth_error_Some; intros QQ; pose proof (eq_trans (eq_sym QQ) Hi) as Q2; discriminate Q2).
  destruct (E i Li) as (x' & E1 & F & B). assert (EX : x' = x) by exact (f_equal (fun o => match o with Some y => y | None => x end) (eq_trans (eq_sym E1) Hi)). rewrite EX in *. clear x' EX E1. split; auto. rewrite B.
  rewrite nth_repeat. unfold Rdiv. rewrite Rmult_0_l. apply round_0. auto with typeclass_instances.
Qed.
Lemma silent_files pf nb v ws files (m : Manager N) calls a b h vs n :
  libm_limits lm -> log10_finite lm -> fft_spreads_nan lm -> new_manager nb v ws = Ok m ->
  (1 <= h)%Z -> (50 * h < 2 ^ 32)%Z ->
  files a = WavOk 1 (50 * h) 16 (map Some vs) -> Forall i16_range vs -> Exists (fun x => x <> 0%Z) vs -> (zlen vs <= 2 ^ 34)%Z ->
  files b = WavOk 1 (50 * h) 16 (map Some (repeat 0%Z n)) -> (Z.of_nat n <= 2 ^ 34)%Z ->
  (1 <= ws <= 2 ^ 20)%Z -> match v with Wideband _ => (zlen vs <= 30 * ws * h)%Z | Fullband _ => True end ->
  forall r, snd (run pf nb files (after_calls pf nb m calls) a b) <> Ok r.
Proof.
  intros LL LG FN Hm Hh Hb Ea HI HE Hl Eb Hn Hws Hv r.
  destruct (C08_gen N 1 (50 * h) vs (List.length vs)) as (rs & L1 & N1 & R1); auto; [lia|].
  destruct (C08_gen N 1 (50 * h) (repeat 0%Z n) n) as (ds & L2 & N2 & R2); auto.
  { rewrite repeat_length. lia. }
  { apply Forall_forall. intros x Hx. apply repeat_spec in Hx. subst x. unfold i16_range. lia. }
  change (Z.of_nat 1) with 1%Z in L1, L2.
  apply (silent_never pf nb v ws files m calls a b rs ds h); auto.
  - rewrite Ea. exact L1.
  - rewrite Eb. exact L2.
  - eapply mono_audible; eauto.
  - eapply mono_silent; eauto.
  - unfold sig_len, zlen in *. rewrite N1. exact Hl.
  - unfold sig_len, zlen in *. rewrite N2. exact Hn.
  - unfold sig_len, zlen in *. rewrite N1. exact Hv.
Qed.
End Lost.
