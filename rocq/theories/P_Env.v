(** The upper envelope in exact arithmetic (C15). *)
From Coq Require Import Reals Lra Lia Psatz.
From Verif Require Import Base Num RNum M_Audio M_Align P_Base P_Audio P_Score P_R P_Dft P_Xcorr Spec3.
Open Scope R_scope.

Lemma cos_refl n d k : (k <= n)%nat -> (0 < n)%nat -> cos (INR (n - k) * ang n d) = cos (INR k * ang n d).
Proof.
  intros H Hn. assert (0 < INR n) by (apply lt_0_INR; auto).
  replace (INR (n - k) * ang n d) with (- (INR k * ang n d) + 2 * PI * IZR d) by (rewrite minus_INR by auto; unfold ang; field; lra).
  rewrite cos_2kpi. apply cos_neg.
Qed.
Definition odd1 (f : nat) : nat := (f mod 2)%nat.
Lemma half_sum f d : (2 <= f)%nat -> let h := (f / 2)%nat in
  Sg f (fun k => cos (INR k * ang f d)) =
  1 + 2 * Sg (h - 1) (fun k => cos (INR (S k) * ang f d)) + INR (1 + odd1 f) * cos (INR h * ang f d).
Proof.
  intros Hf h. assert (M := Nat.div_mod f 2 ltac:(lia)). fold h (odd1 f) in M.
  assert (O : (odd1 f < 2)%nat) by (apply Nat.mod_upper_bound; lia).
  assert (C0 : cos (INR 0 * ang f d) = 1) by (cbn [INR]; rewrite Rmult_0_l; apply cos_0).
  assert (T : forall m, Sg (1 + m) (fun k => cos (INR k * ang f d)) = 1 + Sg m (fun k => cos (INR (S k) * ang f d))).
  { intros m. rewrite Sg_add, Sg_S, Sg_0, C0. cbn [plus]. ring. }
  assert (U : Sg (h - 1) (fun k => cos (INR (f - 1 - k) * ang f d)) = Sg (h - 1) (fun k => cos (INR (S k) * ang f d))).
  { apply Sg_ext. intros k Hk. replace (f - 1 - k)%nat with (f - S k)%nat by lia. apply cos_refl; lia. }
  assert (V : Sg (h - 1) (fun k => cos (INR (f - (h - 1) + k) * ang f d)) = Sg (h - 1) (fun k => cos (INR (S k) * ang f d))).
  { rewrite Sg_rev. rewrite <- U. apply Sg_ext. intros k Hk. do 3 f_equal. lia. }
  replace f with ((f - (h - 1)) + (h - 1))%nat at 1 by lia. rewrite Sg_add, V.
  destruct (odd1 f) as [|[|o]]; [| |lia].
  - replace (f - (h - 1))%nat with (S (1 + (h - 1)))%nat by lia. rewrite Sg_S, T. replace (1 + (h - 1))%nat with h by lia. cbn [plus INR]. ring.
  - replace (f - (h - 1))%nat with (S (S (1 + (h - 1))))%nat by lia. rewrite Sg_S, Sg_S, T. 
    replace (S (1 + (h - 1))) with (f - h)%nat by lia. rewrite cos_refl by lia. replace (1 + (h - 1))%nat with h by lia. cbn [plus INR]. ring.
Qed.

(** The scaling vector. *)
Definition scl (f : nat) (s : R) (k : nat) : R :=
  if (k =? 0)%nat then 1 else if (k <? f / 2)%nat then 2 else if (k =? f / 2)%nat then s else 0.
Lemma scl_kernel f s d : (2 <= f)%nat ->
  Sg f (fun k => scl f s k * cos (INR k * ang f d)) =
  (if (d mod Z.of_nat f =? 0)%Z then INR f else 0) - (INR (1 + odd1 f) - s) * cos (INR (f / 2) * ang f d).
Proof.
  intros Hf. rewrite <- cos_sum by lia. rewrite half_sum by auto. set (h := (f / 2)%nat).
  assert (M := Nat.div_mod f 2 ltac:(lia)). fold h in M.
  assert (O : (f mod 2 < 2)%nat) by (apply Nat.mod_upper_bound; lia).
  replace f with (1 + ((h - 1) + (1 + (f - h - 1))))%nat at 1 by lia.
  rewrite !Sg_add, !Sg_S, !Sg_0. cbn [plus].
  rewrite (Sg_ext (h - 1) _ (fun k => 2 * cos (INR (S k) * ang f d))).
  2:{ intros k Hk. unfold scl. fold h. destruct (Nat.eqb_spec (S k) 0); [lia|]. destruct (Nat.ltb_spec (S k) h); [reflexivity|lia]. }
  rewrite Sg_scal. rewrite (Sg_zero (f - h - 1)).
  2:{ intros k Hk. unfold scl. fold h. destruct (Nat.eqb_spec (S (h - 1 + S k)) 0); [lia|]. destruct (Nat.ltb_spec (S (h - 1 + S k)) h); [lia|].
      destruct (Nat.eqb_spec (S (h - 1 + S k)) h); [lia|]. ring. }
  unfold scl. fold h. replace (S (h - 1 + 0)) with h by lia. destruct (Nat.eqb_spec 0 0); [|lia]. destruct (Nat.eqb_spec h 0); [lia|].
  rewrite Nat.ltb_irrefl, Nat.eqb_refl. cbn [INR]. rewrite Rmult_0_l, cos_0. ring.
Qed.

Lemma nth_upd_R (l : list R) k x j : (k < List.length l)%nat -> nth j (upd l k x) 0 = if (j =? k)%nat then x else nth j l 0.
Proof.
  revert k j. induction l as [|y l IH]; intros k j H; [cbn in H; lia|]. destruct k as [|k]; destruct j as [|j]; try reflexivity.
  cbn [upd nth Nat.eqb]. apply IH. cbn in H. lia.
Qed.
Lemma repeat0_nth k j : nth j (repeat 0 k) 0 = 0.
Proof. revert j. induction k; destruct j; cbn; auto. Qed.

Definition sigma (f len : Z) : R :=
  if Z.even f then (if (len =? f)%Z then 1 else 0)
  else if Z.odd len then 2 else if (len =? f - 1)%Z then 1 else 0.
Lemma deficit_sigma f len : (0 <= f)%Z -> deficit f len = INR (1 + odd1 (Z.to_nat f)) - sigma f len.
Proof.
  intros H. unfold deficit, sigma, odd1.
  assert (E : (Z.to_nat f mod 2 = if Z.even f then 0 else 1)%nat).
  { assert (Z.of_nat (Z.to_nat f mod 2) = f mod 2)%Z by (rewrite Nat2Z.inj_mod; lia).
    rewrite Zmod_even in H0. destruct (Z.even f); lia. }
  rewrite E. destruct (Z.even f); [destruct (len =? f)%Z; cbn; ring|].
  destruct (Z.odd len); [cbn; ring|]. destruct (len =? f - 1)%Z; cbn; ring.
Qed.
(** For one sample the first entry differs (2 instead of 1). *)
Definition scl1 (len f : nat) (s : R) (k : nat) : R := if ((len =? 1) && (k =? 0))%nat then 2 else scl f s k.
Lemma ok_inj {A} (a b : A) : Ok a = Ok b -> a = b. Proof. congruence. Qed.
Lemma scaling_R len f : (1 <= len <= f)%Z -> (32 <= f)%Z ->
  hilbert_scaling (N:=RN) len f = Ok (map (scl1 (Z.to_nat len) (Z.to_nat f) (sigma f len)) (seq 0 (Z.to_nat f))).
Proof.
  intros H1 H2. destruct (@scaling_ok RN len f H1 H2) as (sc & E & L). rewrite E. f_equal.
  unfold hilbert_scaling in E. cbv zeta in E. cbn [RN nofZ] in E. change (num RN) with R in *.
  assert (L0 : zlen (repeat 0 (Z.to_nat f)) = f) by (unfold zlen; rewrite repeat_length; lia).
  rewrite zset_in in E by lia. cbn [bind] in E. set (s0 := upd _ _ _) in E.
  assert (L1 : List.length s0 = Z.to_nat f) by (assert (zlen s0 = f) by (unfold s0; rewrite zlen_upd; auto); unfold zlen in *; lia).
  assert (N0 : forall j, nth j s0 0 = if (j =? 0)%nat then 1 else 0).
  { intros j. unfold s0. rewrite nth_upd_R by (rewrite repeat_length; lia). change (Z.to_nat 0) with O. rewrite repeat0_nth. reflexivity. }
  destruct (Z.eqb_spec len 0) as [?|_]; [lia|]. cbn [negb] in E. rewrite !andb_true_r in E.
  set (odd := (len mod 2 =? 1)%Z) in *.
  assert (OD : Z.odd len = odd). { unfold odd. rewrite Zmod_odd. destruct (Z.odd len); reflexivity. }
  set (v := if odd then 2 else 1).
  assert (S1 : (if negb odd then zset s0 (len / 2) 1 else if odd then zset s0 (len / 2) 2 else Ok s0) = Ok (upd s0 (Z.to_nat (len / 2)) v)).
  { unfold v. destruct odd; cbn [negb]; rewrite zset_in by (unfold zlen; lia); reflexivity. }
  rewrite S1 in E. cbn [bind] in E. set (s1 := upd s0 _ v) in *.
  assert (L2 : List.length s1 = Z.to_nat f). { assert (zlen s1 = zlen s0) by (apply zlen_upd). unfold zlen in *. lia. }
  assert (N1 : forall j, nth j s1 0 = if (j =? Z.to_nat (len / 2))%nat then v else if (j =? 0)%nat then 1 else 0).
  { intros j. unfold s1. rewrite nth_upd_R by lia. rewrite N0. reflexivity. }
  set (n := if odd then ((f + 1) / 2)%Z else (f / 2)%Z) in *.
  assert (Hn : (1 <= n <= f)%Z) by (unfold n; destruct odd; lia).
  destruct (Z.leb_spec 1 n); [|lia]. destruct (Z.leb_spec n f); [|lia]. cbn [andb] in E. apply ok_inj in E. change (num RN) with R in *.
  apply tab_ext; [unfold zlen in L; lia|]. intros i Hi. rewrite <- E.
  assert (G : forall (l : list R) k j, nth j (skipn k l) 0 = nth (k + j) l 0).
  { clear. induction l; intros [|k] j; cbn; auto. destruct j; auto. }
  assert (RP : forall k j, (j < k)%nat -> nth j (repeat 2 k) 0 = 2).
  { clear. induction k; intros j H; [lia|]. destruct j; cbn; auto. apply IHk. lia. }
  assert (FE : (f = 2 * (f / 2) + f mod 2)%Z) by (apply Z.div_mod; lia). assert (FM := Z.mod_pos_bound f 2 ltac:(lia)).
  assert (LE : (len = 2 * (len / 2) + len mod 2)%Z) by (apply Z.div_mod; lia). assert (LM := Z.mod_pos_bound len 2 ltac:(lia)).
  assert (HH : (Z.to_nat f / 2)%nat = Z.to_nat (f / 2)). { apply Nat2Z.inj. rewrite Nat2Z.inj_div. lia. }
  destruct i as [|i].
  { rewrite app_nth1 by (change (num RN) with R; rewrite firstn_length; lia).
    assert (Q : nth 0 (firstn 1 s1) 0 = nth 0 s1 0) by (destruct s1; reflexivity).
    change (num RN) with R in *. rewrite Q, N1. unfold scl1, scl, v. rewrite (Nat.eqb_refl 0), andb_true_r.
    destruct (Nat.eqb_spec 0 (Z.to_nat (len / 2))) as [Z0|Z0].
    - assert (len = 1)%Z by lia. subst len. reflexivity.
    - destruct (Nat.eqb_spec (Z.to_nat len) 1); [|reflexivity]. assert (len = 1)%Z by lia. subst len. elim Z0. reflexivity. }
  assert (F1 : List.length (firstn 1 s1) = 1%nat) by (rewrite firstn_length; lia).
  rewrite app_nth2 by (change (num RN) with R in *; lia). change (num RN) with R in *. rewrite F1.
  replace (S i - 1)%nat with i by lia. unfold scl1. replace (S i =? 0)%nat with false by reflexivity. rewrite andb_false_r. unfold scl. replace (S i =? 0)%nat with false by reflexivity.
  rewrite HH.
  destruct (Z_lt_ge_dec (Z.of_nat (S i)) n) as [A|A].
  - rewrite app_nth1 by (rewrite repeat_length; lia). rewrite RP by lia.
    destruct (Nat.ltb_spec (S i) (Z.to_nat (f / 2))); auto.
    destruct (Nat.eqb_spec (S i) (Z.to_nat (f / 2))) as [K|K].
    + unfold sigma. rewrite OD. unfold n in A. destruct odd eqn:Eo; [|lia]. rewrite Zeven_mod.
      destruct (Zeq_bool (f mod 2) 0) eqn:Ez; [|reflexivity]. apply Zeq_bool_eq in Ez. lia.
    + exfalso. unfold n in A. destruct odd; lia.
  - rewrite app_nth2 by (rewrite repeat_length; lia). rewrite repeat_length, G.
    replace (Z.to_nat n + (i - Z.to_nat (n - 1)))%nat with (S i) by lia. rewrite N1. replace (S i =? 0)%nat with false by reflexivity.
    destruct (Nat.ltb_spec (S i) (Z.to_nat (f / 2))); [unfold n in A; destruct odd; lia|].
    assert (Eo : odd = true -> (len mod 2 = 1)%Z) by (unfold odd; intros X; apply Z.eqb_eq in X; auto).
    assert (En : odd = false -> (len mod 2 = 0)%Z) by (unfold odd; intros X; apply Z.eqb_neq in X; lia).
    destruct (Nat.eqb_spec (S i) (Z.to_nat (f / 2))) as [K|K].
    + unfold sigma, v. rewrite OD, Zeven_mod. destruct (Zeq_bool (f mod 2) 0) eqn:Ez.
      * apply Zeq_bool_eq in Ez. destruct (Nat.eqb_spec (S i) (Z.to_nat (len / 2))) as [K2|K2].
        -- destruct odd; [specialize (Eo eq_refl); lia|]. specialize (En eq_refl). destruct (Z.eqb_spec len f); [reflexivity|lia].
        -- destruct (Z.eqb_spec len f) as [Elf|]; [rewrite Elf in *; lia|reflexivity].
      * apply Zeq_bool_neq in Ez. destruct odd.
        -- unfold n in A. lia.
        -- specialize (En eq_refl). destruct (Nat.eqb_spec (S i) (Z.to_nat (len / 2))) as [K2|K2];
             destruct (Z.eqb_spec len (f - 1)); try reflexivity; lia.
    + destruct (Nat.eqb_spec (S i) (Z.to_nat (len / 2))) as [K2|K2]; [lia|reflexivity].
Qed.

Lemma hilbert_R pf (c : list R) F : (1 <= zlen c <= F)%Z -> (32 <= F)%Z ->
  (do p <- next_pow_two pf (zlen c); Ok (Z.max p 32)) = Ok F ->
  calculate_hilbert (N:=RN) pf c = Ok (map (fun i =>
    (2 * (Sg (Z.to_nat F) (fun a => nth a c 0 * Sg (Z.to_nat F) (fun k => scl1 (List.length c) (Z.to_nat F) (sigma F (zlen c)) k *
       cos (INR k * ang (Z.to_nat F) (Z.of_nat i - Z.of_nat a)))) / IZR F) - 1 / 1000000, 0)) (seq 0 (List.length c))).
Proof.
  intros H1 H2 HF. unfold calculate_hilbert, new_fft. change (num RN) with R.
  inv_do HF. apply ok_inj in Hk. rename Hk into HF. rewrite Hv. cbn [bind]. change MIN_FFT_SIZE with 32%Z. rewrite HF.
  unfold forward_1d_from_matrix, freq_from_time_domain. cbn [RN nfft nofZ fft_size].
  set (f := Z.to_nat F). set (n := List.length c).
  assert (E : resize c F 0 = map (fun i => nth i c 0) (seq 0 f)).
  { apply tab_ext; [assert (G := resize_length c F 0 ltac:(lia)); unfold zlen in G; unfold f; lia|]. intros i Hi. apply nth_resize; unfold f in *; lia. }
  unfold to_complex. change (num RN) with R. rewrite E, map_map, dft_tab.
  assert (LF : forall (g : nat -> R * R), zlen (map g (seq 0 f)) = F) by (intros; unfold zlen; rewrite map_length, seq_length; unfold f; lia).
  rewrite LF. rewrite scaling_R by auto. cbn [bind]. fold f.
  replace (Z.to_nat (zlen c)) with n by (unfold n, zlen; lia).
  rewrite combine_tab2, map_map. cbn [fst snd]. unfold cscale. cbn [fst snd RN nmul].
  unfold inverse_1d, time_from_freq_domain. cbn [fft_size samples_per_channel]. change (num RN) with R. rewrite LF, Z.eqb_refl. cbn [bind RN nfft].
  unfold real_parts, apply_reverse_fft_scaling. cbn [inverse_fft_scale RN nmul ndiv nofZ]. change (num RN) with R.
  rewrite dft_tab, !map_map. cbn [fst].
  match goal with |- context [zslice (map ?g _) _ _] => set (gg := g) end.
  assert (Z1 : zslice (map gg (seq 0 f)) 0 (zlen c) = Ok (map gg (seq 0 n))).
  { apply zslice_ok. split; [split; [lia|]; unfold zlen in *; rewrite map_length, seq_length; unfold f; lia|].
    rewrite Z.sub_0_r. cbn [Z.to_nat skipn]. symmetry. unfold zlen. rewrite Nat2Z.id. fold n. apply tab_firstn. unfold n, f, zlen in *. lia. }
  rewrite Z1. cbn [bind]. f_equal. unfold to_complex. rewrite !map_map. apply map_ext. intros i.
  unfold csubr, cscale. cbn [fst snd RN nsub nmul nofZ nlit]. change (10 ^ 6)%Z with 1000000%Z.
  unfold gg. f_equal; [|ring]. f_equal. rewrite Rmult_comm. f_equal.
  rewrite (filtered f (fun j => nth j c 0)). fold n. unfold Rdiv. ring.
Qed.

Lemma C15_all pf (x : list R) : (1 <= zlen x <= 2 ^ 62)%Z ->
  exists p env, next_pow_two pf (zlen x) = Ok p /\ calculate_upper_env (N:=RN) pf x = Ok (Some env) /\
    List.length env = List.length x /\
    let f := Z.max p 32 in
    forall i, (i < List.length x)%nat ->
      nth i env 0 = Rabs (2 * (centred x i - deficit f (zlen x) * middle_bin f x i) - 1 / 1000000) + mean_signal x.
Proof.
  intros H. destruct (npt_bounds pf (zlen x) 62) as (p & E & B); try lia.
  set (mu := mean_signal x). set (c := map (fun v => v - mu) x).
  assert (Lc : List.length c = List.length x) by (unfold c; apply map_length).
  assert (Zc : zlen c = zlen x) by (unfold zlen; rewrite Lc; auto).
  set (f := Z.max p 32).
  assert (HB := hilbert_R pf c f). rewrite Zc in HB. specialize (HB ltac:(lia) ltac:(lia)). rewrite E in HB. specialize (HB eq_refl).
  rewrite Lc in HB.
  match type of HB with _ = Ok (map ?g _) => set (gg := g) in HB end.
  exists p, (map (fun i => Rabs (fst (gg i)) + mu) (seq 0 (List.length x))). split; auto. split.
  - unfold calculate_upper_env. 
    assert (M : nd_mean (N:=RN) x = Some mu).
    { unfold nd_mean. destruct x as [|x0 x']; [cbn in H; lia|]. f_equal. rewrite R_nd_sum. unfold mu, mean_signal. cbn [ndiv nofZ RN]. rewrite INR_IZR_INZ. reflexivity. }
    rewrite M. cbn [RN nsub]. change (num RN) with R. fold c.
    etransitivity; [apply (f_equal (fun r => bind r _) HB)|]. cbn [bind]. do 2 f_equal.
    rewrite map_map. apply map_ext. intros i. unfold cnorm. cbn [RN nadd nhypot]. f_equal.
    change (snd (gg i)) with 0. rewrite Rmult_0_l, Rplus_0_r. apply sqrt_Rsqr_abs.
  - split; [rewrite map_length, seq_length; auto|]. cbv zeta. fold f. intros i Hi.
    etransitivity; [exact (tab_nth (fun i => Rabs (fst (gg i)) + mu) _ _ Hi)|]. cbv beta. f_equal. unfold gg at 1. cbn [fst]. do 2 f_equal. apply f_equal.
    assert (Pf : (0 < Z.to_nat f)%nat) by lia. set (nf := Z.to_nat f) in *.
    assert (If : IZR f = INR nf) by (rewrite INR_IZR_INZ; f_equal; unfold nf; lia).
    assert (Pf' : 0 < INR nf) by (apply lt_0_INR; auto).
    assert (Len : (List.length x <= nf)%nat) by (unfold nf, zlen in *; lia).
    assert (NC : forall a, (a < List.length x)%nat -> nth a c 0 = centred x a).
    { intros a Ha. unfold c, centred. rewrite (nth_indep _ 0 ((fun v => v - mu) 0)) by (rewrite map_length; auto). rewrite (map_nth (fun v => v - mu)). reflexivity. }
    assert (NO : forall a, (List.length x <= a)%nat -> nth a c 0 = 0) by (intros a Ha; apply nth_overflow; lia).
    assert (S1 : forall a, (a < nf)%nat -> nth a c 0 * Sg nf (fun k => scl1 (List.length x) nf (sigma f (zlen x)) k * cos (INR k * ang nf (Z.of_nat i - Z.of_nat a))) =
       (if (a =? i)%nat then INR nf * nth a c 0 else 0) - deficit f (zlen x) * (nth a c 0 * cos (2 * PI * IZR (f / 2) * (INR i - INR a) / IZR f))).
    { intros a Ha. destruct (Nat.eq_dec (List.length x) 1) as [L1|L1].
      { assert (nth a c 0 = 0) as ->.
        { destruct a as [|a]; [|apply NO; lia]. rewrite NC by lia. unfold centred, mean_signal. destruct x as [|x0 [|x1 x']]; cbn in L1; try lia.
          cbn. field. }
        destruct (a =? i)%nat; ring. }
      rewrite (Sg_ext nf _ (fun k => scl nf (sigma f (zlen x)) k * cos (INR k * ang nf (Z.of_nat i - Z.of_nat a)))).
      2:{ intros k _. unfold scl1. destruct (Nat.eqb_spec (List.length x) 1); [lia|]. reflexivity. }
      rewrite scl_kernel by lia. rewrite (deficit_sigma f) by lia. fold nf.
      replace (INR (nf / 2) * ang nf (Z.of_nat i - Z.of_nat a)) with (2 * PI * IZR (f / 2) * (INR i - INR a) / IZR f).
      2:{ unfold ang. rewrite If. rewrite minus_IZR, <- !INR_IZR_INZ. replace (IZR (f / 2)) with (INR (nf / 2)).
          - unfold Rdiv. ring.
          - rewrite INR_IZR_INZ. f_equal. rewrite Nat2Z.inj_div. unfold nf. lia. }
      replace (((Z.of_nat i - Z.of_nat a) mod Z.of_nat nf =? 0)%Z) with (a =? i)%nat.
      - destruct (a =? i)%nat; ring.
      - destruct (Nat.eqb_spec a i) as [->|D].
        + rewrite Z.sub_diag, Z.mod_0_l by lia. reflexivity.
        + symmetry. apply Z.eqb_neq. intros Q. apply Z.mod_divide in Q; [|lia]. destruct Q as [q Hq]. assert (q = 0)%Z by nia. nia. }
    rewrite (Sg_ext nf _ _ S1). rewrite Sg_minus, Sg_scal.
    rewrite (Sg_one nf i) by first [lia | intros k Hk D; destruct (Nat.eqb_spec k i); [lia|reflexivity]].
    rewrite Nat.eqb_refl, NC by auto.
    assert (S2 : Sg nf (fun a => nth a c 0 * cos (2 * PI * IZR (f / 2) * (INR i - INR a) / IZR f)) / IZR f = middle_bin f x i).
    { unfold middle_bin. f_equal. fold (Sg (List.length x) (fun a => centred x a * cos (2 * PI * IZR (f / 2) * (INR i - INR a) / IZR f))).
      replace nf with (List.length x + (nf - List.length x))%nat by lia. rewrite Sg_add.
      rewrite (Sg_zero (nf - _)). 2:{ intros k Hk. rewrite NO by lia. ring. }
      rewrite Rplus_0_r. apply Sg_ext. intros k Hk. rewrite NC by auto. reflexivity. }
    rewrite <- S2, If. field. lra.
Qed.

Lemma C15_pow2 pf (x : list R) m : (5 <= m <= 62)%Z -> zlen x = (2 ^ m)%Z ->
  exists env, calculate_upper_env (N:=RN) pf x = Ok (Some env) /\ List.length env = List.length x /\
    forall i, (i < List.length x)%nat -> nth i env 0 = Rabs (2 * (nth i x 0 - mean_signal x) - 1 / 1000000) + mean_signal x.
Proof.
  intros Hm L. assert (1 <= 2 ^ m)%Z by (assert (0 < 2 ^ m)%Z by (apply Z.pow_pos_nonneg; lia); lia).
  assert (2 ^ m <= 2 ^ 62)%Z by (apply Z.pow_le_mono_r; lia). assert (2 ^ 5 <= 2 ^ m)%Z by (apply Z.pow_le_mono_r; lia).
  destruct (C15_all pf x) as (p & env & P & E & LE & V); [lia|]. exists env. split; auto. split; auto. cbv zeta in V. intros i Hi. rewrite V by auto.
  rewrite L, npt_pow in P by lia. apply ok_inj in P. subst p. rewrite L. replace (Z.max (2 ^ m) 32) with (2 ^ m)%Z by lia.
  unfold deficit. assert (Ev : Z.even (2 ^ m) = true).
  { rewrite Z.even_pow by lia. reflexivity. }
  rewrite Ev, Z.eqb_refl. unfold centred. do 3 f_equal. ring.
Qed.

Lemma sin_refl n d k : (k <= n)%nat -> (0 < n)%nat -> sin (INR (n - k) * ang n d) = - sin (INR k * ang n d).
Proof.
  intros H Hn. assert (0 < INR n) by (apply lt_0_INR; auto).
  replace (INR (n - k) * ang n d) with (- (INR k * ang n d) + 2 * PI * IZR d) by (rewrite minus_INR by auto; unfold ang; field; lra).
  rewrite sin_2kpi. apply sin_neg.
Qed.
Lemma sin_sum n d : (0 < n)%nat -> Sg n (fun k => sin (INR k * ang n d)) = 0.
Proof.
  intros H. replace n with (1 + (n - 1))%nat at 1 by lia. rewrite Sg_add, Sg_S, Sg_0.
  replace (INR 0) with 0 by reflexivity. rewrite Rmult_0_l, sin_0. set (Q := Sg (n - 1) _).
  assert (E : Q = - Q).
  { unfold Q at 1. rewrite Sg_rev. transitivity (Sg (n - 1) (fun k => -1 * sin (INR (1 + k) * ang n d))).
    - apply Sg_ext. intros k Hk. replace (1 + (n - 1 - 1 - k))%nat with (n - (1 + k))%nat by lia. rewrite sin_refl by lia. ring.
    - rewrite Sg_scal. fold Q. ring. }
  lra.
Qed.

Definition tone (i : nat) : R := cos (INR i * ang 32 8).
Definition quad (i : nat) : R := sin (INR i * ang 32 8).
Lemma tone_mean : mean_signal (map tone (seq 0 32)) = 0.
Proof.
  unfold mean_signal. fold (Sg 32 tone). unfold tone. rewrite cos_sum by lia. change ((8 mod Z.of_nat 32 =? 0)%Z) with false. unfold Rdiv. ring.
Qed.
Lemma tone_0 : tone 0 = 1. Proof. unfold tone. replace (INR 0) with 0 by reflexivity. rewrite Rmult_0_l. apply cos_0. Qed.
Lemma tone_1 : tone 1 = 0.
Proof.
  unfold tone, ang. replace (INR 1 * (2 * PI * 8 / INR 32)) with (PI / 2); [apply cos_PI2|].
  rewrite !INR_IZR_INZ. change (Z.of_nat 32) with 32%Z. change (Z.of_nat 1) with 1%Z. field.
Qed.
Lemma quad_dft k : (k < 32)%nat -> k <> 8%nat -> dft_re false 32 (fun i => (tone i, quad i)) k = 0 /\ dft_im false 32 (fun i => (tone i, quad i)) k = 0.
Proof.
  intros Hk D. assert (A : forall j, INR j * ang 32 (8 - Z.of_nat k) = INR j * ang 32 8 - INR j * ang 32 (Z.of_nat k)).
  { intros j. unfold ang. rewrite minus_IZR. unfold Rdiv. ring. }
  unfold dft_re, dft_im. cbn [fst snd]. split.
  - transitivity (Sg 32 (fun j => cos (INR j * ang 32 (8 - Z.of_nat k)))).
    + apply Sg_ext. intros j _. rewrite A, cos_minus. unfold tone, quad. ring.
    + rewrite cos_sum by lia. destruct (Z.eqb_spec ((8 - Z.of_nat k) mod Z.of_nat 32) 0) as [E|E]; auto.
      apply Z.mod_divide in E; [|lia]. destruct E as [q Hq]. lia.
  - transitivity (Sg 32 (fun j => sin (INR j * ang 32 (8 - Z.of_nat k)))).
    + apply Sg_ext. intros j _. rewrite A, sin_minus. unfold tone, quad. ring.
    + apply sin_sum. lia.
Qed.
Lemma nth_tab {A} (f : nat -> A) n i d : (i < n)%nat -> nth i (map f (seq 0 n)) d = f i.
Proof. intros H. rewrite (nth_indep _ d (f O)) by (rewrite map_length, seq_length; auto). rewrite map_nth, seq_nth; auto. Qed.
Lemma C15_witness : exists x z, List.length x = 32%nat /\ analytic z x /\ (forall i, (i < 32)%nat -> modulus (nth i z (0, 0)) = 1) /\
  forall pf, exists env, calculate_upper_env (N:=RN) pf x = Ok (Some env) /\ nth 0 env 0 = 2 - 1 / 1000000 /\ nth 1 env 0 = 1 / 1000000.
Proof.
  exists (map tone (seq 0 32)), (map (fun i => (tone i, quad i)) (seq 0 32)).
  assert (LX : List.length (map tone (seq 0 32)) = 32%nat) by (rewrite map_length, seq_length; reflexivity).
  split; [auto|]. split; [|split].
  - split; [rewrite map_map; reflexivity|]. rewrite LX. intros k H2 Hk. rewrite dft_tab, nth_tab by auto.
    destruct (quad_dft k) as [-> ->]; auto. lia.
  - intros i Hi. rewrite nth_tab by auto. unfold modulus. cbn [fst snd]. unfold tone, quad.
    assert (Q := sin2_cos2 (INR i * ang 32 8)). unfold Rsqr in Q.
    replace (_ + _) with 1 by lra. apply sqrt_1.
  - intros pf. destruct (C15_pow2 pf (map tone (seq 0 32)) 5) as (env & E & L & V); [lia|unfold zlen; rewrite LX; reflexivity|].
    exists env. split; auto. rewrite LX in V. rewrite !V by lia. rewrite tone_mean, !nth_tab, tone_0, tone_1 by lia. split.
    + rewrite Rabs_pos_eq; lra.
    + rewrite Rabs_left; lra.
Qed.
