(** Proofs about patch creation and the number of patches (C17, C18, C22-C24, C43). *)
From Verif Require Import Base Num Mat M_Audio M_Align M_Spectro M_Patch M_Nsim M_Selector M_Visqol.
From Verif Require Import P_Base P_Mat P_Manager.

(** ** Outcome of a computation that cannot return an error *)
Lemma panic_bind {A B} (x : res A) (f : A -> res B) : is_panic x -> is_panic (bind x f).
Proof. intros [p ->]. exists p. reflexivity. Qed.
Lemma panic_bind' {A B} (x : res A) (f : A -> res B) : no_err x ->
  (forall a, x = Ok a -> is_panic (f a)) -> is_panic (bind x f).
Proof.
  intros NE H. destruct x as [a|e|p]; cbn [bind]; auto.
  - destruct (NE e); auto.
  - exists p; auto.
Qed.
Lemma foldM_panic {A S} (f : S -> A -> res S) l a : (forall s b, no_err (f s b)) ->
  In a l -> (forall s, is_panic (f s a)) -> forall s, is_panic (foldM f s l).
Proof.
  intros NE HI HP. induction l as [|b l IH]; [contradiction|]. intros s. cbn [foldM].
  destruct HI as [->|HI].
  - apply panic_bind; auto.
  - apply panic_bind'; auto.
Qed.

(** ** The fixed grid *)
Section Grid.

Lemma image_ok pf ps w : 2 <= ps -> ps + ps / 2 <= w ->
  image_patch_indices pf ps w =
  Ok (map (fun k => ps / 2 - 1 + ps * k)
        (zrange 0 (((if ps / 2 <? w - ps then w - ps else ps / 2 + 1) - ps / 2 + ps - 1) / ps))).
Proof.
  intros H1 H2. unfold image_patch_indices.
  destruct (Z.ltb_spec w (ps + ps / 2)); [lia|]. destruct (Z.eqb_spec ps 0); [lia|].
  unfold image_grid.
  apply mapM_total with (g := fun k => ps / 2 - 1 + ps * k).
  intros k Hk. apply in_zrange in Hk. rewrite usub_ok by nia. f_equal. lia.
Qed.

Lemma C17_grid pf ps w : 2 <= ps -> ps + ps / 2 <= w ->
  exists n, 1 <= n /\
    image_patch_indices pf ps w = Ok (map (fun k => ps / 2 - 1 + ps * k) (zrange 0 n)) /\
    (forall k, 0 <= k < n <-> (k = 0 \/ (0 < k /\ ps / 2 - 1 + ps * k + ps + 2 <= w))) /\
    (forall k, 0 <= k < n -> 0 <= ps / 2 - 1 + ps * k /\ ps / 2 - 1 + ps * k + ps <= w).
Proof.
  intros H1 H2. rewrite image_ok by auto. eexists; split; [|split; [reflexivity|]].
  - destruct (Z.ltb_spec (ps / 2) (w - ps)); apply Z.div_le_lower_bound; lia.
  - set (h := ps / 2) in *. assert (Hh : 0 < h /\ 2 * h <= ps) by (subst h; lia).
    clearbody h. destruct (Z.ltb_spec h (w - ps)) as [L|L].
    + set (n := (w - ps - h + ps - 1) / ps).
      assert (E : forall k, k < n <-> ps * k < w - ps - h).
      { intros k. subst n. split; intros Hk.
        - assert (k + 1 <= (w - ps - h + ps - 1) / ps) by lia.
          assert (ps * (k + 1) <= w - ps - h + ps - 1); [|lia].
          etransitivity; [apply Z.mul_le_mono_nonneg_l; [lia|eassumption]|].
          apply Z.mul_div_le; lia.
        - assert (k + 1 <= (w - ps - h + ps - 1) / ps); [|lia].
          apply Z.div_le_lower_bound; lia. }
      split.
      * intros k. split.
        -- intros [A B]. apply E in B. destruct (Z.eq_dec k 0); [left; lia|right; lia].
        -- intros [->|[A B]]; (split; [lia|]); apply E; lia.
      * intros k [A B]. apply E in B. nia.
    + assert (E : (h + 1 - h + ps - 1) / ps = 1).
      { replace (h + 1 - h + ps - 1) with (1 * ps) by lia. apply Z.div_mul; lia. }
      rewrite E. split.
      * intros k; split; [left; lia|]. intros [->|[A B]]; [lia|]. nia.
      * intros k Hk. assert (k = 0) by lia. subst k. nia.
Qed.

Lemma C17_slices {N : NumOps} pf ps (m : mat N) idx : 2 <= ps -> ps + ps / 2 <= Z.of_nat (mcols m) ->
  image_patch_indices pf ps (Z.of_nat (mcols m)) = Ok idx ->
  exists patches, create_patches_from_indices ps m idx = Ok patches /\
    List.length patches = List.length idx /\
    (forall k s p, nth_error idx k = Some s -> nth_error patches k = Some p ->
       mrows p = mrows m /\ Z.of_nat (mcols p) = ps /\
       forall i j, (i < mrows m)%nat -> (j < mcols p)%nat -> mget p i j = mget m i (Z.to_nat s + j)).
Proof.
  intros H1 H2 H3. destruct (C17_grid pf ps _ H1 H2) as (n & Hn & E & G & F).
  rewrite E in H3. injection H3 as <-.
  set (idx := map (fun k => ps / 2 - 1 + ps * k) (zrange 0 n)) in *.
  assert (B : forall s, In s idx -> 0 <= s /\ s + ps <= Z.of_nat (mcols m)).
  { intros s Hs. apply in_map_iff in Hs. destruct Hs as (k & <- & Hk). apply in_zrange in Hk. auto. }
  set (g := fun s => mbuild (mrows m) (Z.to_nat (s + ps - s)) (fun i j => mget m i (Z.to_nat s + j))).
  assert (M : create_patches_from_indices ps m idx = Ok (map g idx)).
  { apply mapM_total. intros s Hs. apply B in Hs. unfold mslice_cols.
    destruct (Z.leb_spec 0 s), (Z.leb_spec s (s + ps)), (Z.leb_spec (s + ps) (Z.of_nat (mcols m))); try lia.
    reflexivity. }
  exists (map g idx). split; auto. split; [apply map_length|].
  intros k s p Hs Hp. rewrite nth_error_map, Hs in Hp. injection Hp as <-.
  cbn [mbuild mrows mcols g]. split; auto. split; [lia|].
  intros i j Hi Hj. unfold g. rewrite mget_mbuild; auto.
Qed.

Lemma C18_iff pf ps w : 0 < ps -> 
  (w < ps + ps / 2 <-> exists e, image_patch_indices pf ps w = Err e) /\
  (w < ps + ps / 2 -> image_patch_indices pf ps w = Err (ReferenceSpectrogramTooSmall w (ps - ps / 2))).
Proof.
  intros H. assert (E : w < ps + ps / 2 -> image_patch_indices pf ps w = Err (ReferenceSpectrogramTooSmall w (ps - ps / 2))).
  { intros L. unfold image_patch_indices. destruct (Z.ltb_spec w (ps + ps / 2)); auto; lia. }
  split; auto. split; [eauto|]. intros (e & He).
  destruct (Z.ltb_spec w (ps + ps / 2)) as [|L]; auto. exfalso.
  unfold image_patch_indices in He. destruct (Z.ltb_spec w (ps + ps / 2)); [lia|].
  destruct (ps =? 0); [discriminate|]. eapply image_grid_ne; eauto.
Qed.
Lemma C18_reported pf ps w : 2 <= ps -> ps - ps / 2 <= w < ps + ps / 2 ->
  image_patch_indices pf ps w = Err (ReferenceSpectrogramTooSmall w (ps - ps / 2)).
Proof. intros H1 H2. apply C18_iff; lia. Qed.
Lemma C18_min pf ps : 2 <= ps ->
  exists w least, least <= w /\ image_patch_indices pf ps w = Err (ReferenceSpectrogramTooSmall w least).
Proof.
  intros H. assert (1 <= ps / 2) by (apply Z.div_le_lower_bound; lia).
  assert (ps / 2 < ps) by (apply Z.div_lt; lia).
  exists (ps - ps / 2), (ps - ps / 2). split; [lia|]. apply C18_reported; lia.
Qed.
Lemma C18_dropped pf ps w k : 2 <= ps -> 1 <= k ->
  (let last := ps / 2 - 1 + ps * k in w = last + ps \/ w = last + ps + 1) ->
  exists idx, image_patch_indices pf ps w = Ok idx /\ ~ In (ps / 2 - 1 + ps * k) idx /\
              In (ps / 2 - 1 + ps * (k - 1)) idx.
Proof.
  cbv zeta. intros H1 H2 H3.
  assert (ps + ps / 2 <= w) by nia.
  destruct (C17_grid pf ps w H1 H) as (n & Hn & E & G & F).
  eexists; split; [exact E|]. split.
  - intros HI. apply in_map_iff in HI. destruct HI as (j & Hj & HI). apply in_zrange in HI.
    assert (j = k) by nia. subst j. apply G in HI. nia.
  - apply in_map_iff. exists (k - 1). split; auto. apply in_zrange.
    destruct (G (k - 1)) as [_ G2]. assert (0 <= k - 1 < n); [|lia]. apply G2.
    destruct (Z.eq_dec k 1); [left; lia|right]. nia.
Qed.
End Grid.

(** ** Number of matched patches *)
Section Count.
Lemma calc_loop_ge pf idx n h : (forall k s, nth_error idx k = Some s -> h <= s) -> forall m,
  (m <= List.length idx)%nat ->
  (exists k, calc_max_loop pf idx n h m = Ok (Z.of_nat k) /\ (1 <= k <= m)%nat /\
     (exists s, nth_error idx (k - 1) = Some s /\ s - h <= n) /\
     (forall j s, (k <= j < m)%nat -> nth_error idx j = Some s -> n < s - h)) \/
  (is_panic (calc_max_loop pf idx n h m) /\ forall j s, (j < m)%nat -> nth_error idx j = Some s -> n < s - h).
Proof.
  intros HG. induction m as [|m IH]; intros Hm; cbn [calc_max_loop].
  - right. split; [|intros; lia]. destruct pf; eexists; reflexivity.
  - destruct (nth_error idx m) as [s|] eqn:E; [|apply nth_error_None in E; lia].
    assert (Z' : zget idx (Z.of_nat m) = Ok s).
    { apply zget_ok. unfold zlen. rewrite Nat2Z.id. split; auto. lia. }
    rewrite Z'. cbn [bind]. rewrite usub_ok by eauto. cbn [bind].
    destruct (Z.ltb_spec n (s - h)) as [L|L].
    + destruct (IH ltac:(lia)) as [(k & A & B & C & D)|(A & B)].
      * left. exists k. split; auto. split; [lia|]. split; auto.
        intros j s' Hj Hs'. destruct (Nat.eq_dec j m) as [->|]; [congruence|]. eapply D; eauto. lia.
      * right. split; auto. intros j s' Hj Hs'. destruct (Nat.eq_dec j m) as [->|]; [congruence|].
        eapply B; eauto. lia.
    + left. exists (S m). split; auto. split; [lia|]. split.
      * exists s. rewrite Nat.sub_0_r || replace (S m - 1)%nat with m by lia. auto.
      * intros; lia.
Qed.

Lemma C24_count pf idx n fp : idx <> [] -> (forall k s, nth_error idx k = Some s -> fp / 2 <= s) ->
  forall k, calc_max_num_patches pf idx n fp = Ok k <->
    (1 <= k <= zlen idx /\
     (exists s, nth_error idx (Z.to_nat (k - 1)) = Some s /\ s - fp / 2 <= n) /\
     (forall j s, (Z.to_nat k <= j)%nat -> nth_error idx j = Some s -> n < s - fp / 2)).
Proof.
  intros NE HG k. unfold calc_max_num_patches. destruct idx as [|i0 idx]; [congruence|].
  set (l := i0 :: idx) in *.
  assert (U : forall a b : nat, 
    (exists s, nth_error l (a - 1) = Some s /\ s - fp / 2 <= n) -> (1 <= a <= List.length l)%nat ->
    (forall j s, (b <= j)%nat -> nth_error l j = Some s -> n < s - fp / 2) -> (a <= b)%nat).
  { intros a b (s & Hs & Hn) Ha Hb. destruct (le_lt_dec a b); auto.
    specialize (Hb (a - 1)%nat s ltac:(lia) Hs). lia. }
  destruct (calc_loop_ge pf l n (fp / 2) HG (List.length l) (le_n _)) as [(a & A & B & C & D)|([p A] & B)];
    rewrite A.
  - assert (D' : forall j s, (a <= j)%nat -> nth_error l j = Some s -> n < s - fp / 2).
    { intros j s Hj Hs. apply (D j); auto. split; auto. apply nth_error_Some. congruence. }
    split.
    + intros [= <-]. unfold zlen. split; [lia|]. rewrite Nat2Z.id.
      replace (Z.to_nat (Z.of_nat a - 1)) with (a - 1)%nat by lia. auto.
    + intros (K1 & K2 & K3). f_equal. unfold zlen in K1.
      replace (Z.to_nat (k - 1)) with (Z.to_nat k - 1)%nat in K2 by lia.
      assert (a <= Z.to_nat k)%nat by (eapply U; eauto).
      assert (Z.to_nat k <= a)%nat by (eapply U; eauto; lia). lia.
  - split; [discriminate|]. intros (K1 & (s & K2 & K3) & _). unfold zlen in K1.
    assert (n < s - fp / 2); [|lia]. apply (B (Z.to_nat (k - 1)) s); auto. apply nth_error_Some. congruence.
Qed.

Lemma C24_none pf idx n fp : idx <> [] -> (forall k s, nth_error idx k = Some s -> fp / 2 <= s) ->
  (forall k s, nth_error idx k = Some s -> n < s - fp / 2) -> is_panic (calc_max_num_patches pf idx n fp).
Proof.
  intros NE HG HN. unfold calc_max_num_patches. destruct idx as [|i0 idx]; [congruence|].
  set (l := i0 :: idx) in *.
  destruct (calc_loop_ge pf l n (fp / 2) HG (List.length l) (le_n _)) as [(a & A & B & (s & C & C') & D)|(A & B)]; auto.
  specialize (HN _ _ C). lia.
Qed.

(** The first start is below half a patch and all later ones are beyond reach. *)
Lemma calc_first_low pf i0 rest n fp : 0 <= i0 < fp / 2 -> fp < 2 ^ 62 -> n < 2 ^ 63 ->
  (forall s, In s rest -> fp / 2 <= s /\ n < s - fp / 2) ->
  is_panic (calc_max_num_patches pf (i0 :: rest) n fp).
Proof.
  intros H0 Hf Hn HR. unfold calc_max_num_patches. set (l := i0 :: rest).
  assert (G : forall m, (1 <= m <= List.length l)%nat -> is_panic (calc_max_loop pf l n (fp / 2) m)).
  { induction m as [|m IH]; [lia|]. intros Hm. cbn [calc_max_loop].
    destruct m as [|m].
    - assert (Z' : zget l (Z.of_nat 0) = Ok i0) by reflexivity. rewrite Z'. cbn [bind].
      unfold usub. destruct (Z.leb_spec (fp / 2) i0); [lia|]. destruct pf; [eexists; reflexivity|].
      cbn [bind]. destruct (Z.ltb_spec n (i0 - fp / 2 + usize_mod)) as [|L]; [|unfold usize_mod in L; lia].
      cbn [calc_max_loop]. eexists; reflexivity.
    - destruct (nth_error l (S m)) as [s|] eqn:E; [|apply nth_error_None in E; lia].
      assert (Z' : zget l (Z.of_nat (S m)) = Ok s).
      { apply zget_ok. unfold zlen. rewrite Nat2Z.id. split; auto. lia. }
      rewrite Z'. cbn [bind]. cbn [nth_error l] in E. apply nth_error_In, HR in E.
      rewrite usub_ok by lia. cbn [bind].
      destruct (Z.ltb_spec n (s - fp / 2)); [|lia]. apply IH. lia. }
  apply G. subst l. cbn [List.length]. lia.
Qed.

(** The usual case: the first start is below half a patch, the others are not. *)
Lemma calc_loop_low pf i0 rest n h : 0 <= i0 < h -> h < 2 ^ 62 -> n < 2 ^ 63 -> (forall s, In s rest -> h <= s) ->
  let l := i0 :: rest in forall m, (1 <= m <= List.length l)%nat ->
  (exists k, calc_max_loop pf l n h m = Ok (Z.of_nat k) /\ (2 <= k <= m)%nat /\
     (exists s, nth_error l (k - 1) = Some s /\ s - h <= n) /\
     (forall j s, (k <= j < m)%nat -> nth_error l j = Some s -> n < s - h)) \/
  (is_panic (calc_max_loop pf l n h m) /\ forall j s, (1 <= j < m)%nat -> nth_error l j = Some s -> n < s - h).
Proof.
  intros H0 Hf Hn HR l. induction m as [|m IH]; intros Hm; [lia|]. cbn [calc_max_loop].
  destruct m as [|m].
  - right. split; [|intros; lia]. assert (Z' : zget l (Z.of_nat 0) = Ok i0) by reflexivity. rewrite Z'. cbn [bind].
    unfold usub. destruct (Z.leb_spec h i0); [lia|]. destruct pf; [eexists; reflexivity|].
    cbn [bind]. destruct (Z.ltb_spec n (i0 - h + usize_mod)) as [|L]; [|unfold usize_mod in L; lia].
    cbn [calc_max_loop]. eexists; reflexivity.
  - destruct (nth_error l (S m)) as [s|] eqn:E; [|apply nth_error_None in E; lia].
    assert (Z' : zget l (Z.of_nat (S m)) = Ok s).
    { apply zget_ok. unfold zlen. rewrite Nat2Z.id. split; auto. lia. }
    rewrite Z'. cbn [bind]. pose proof E as E'. cbn [nth_error l] in E. apply nth_error_In, HR in E.
    rewrite usub_ok by lia. cbn [bind].
    destruct (Z.ltb_spec n (s - h)) as [L|L].
    + destruct (IH ltac:(lia)) as [(k & A & B & C & D)|(A & B)].
      * left. exists k. split; auto. split; [lia|]. split; auto.
        intros j s' Hj Hs'. destruct (Nat.eq_dec j (S m)) as [->|]; [congruence|]. eapply D; eauto. lia.
      * right. split; auto. intros j s' Hj Hs'. destruct (Nat.eq_dec j (S m)) as [->|]; [congruence|].
        eapply B; eauto. lia.
    + left. exists (S (S m)). split; auto. split; [lia|]. split.
      * exists s. replace (S (S m) - 1)%nat with (S m) by lia. auto.
      * intros; lia.
Qed.
Lemma C24_count_low pf i0 rest n fp : 0 <= i0 < fp / 2 -> fp < 2 ^ 62 -> n < 2 ^ 63 ->
  (forall s, In s rest -> fp / 2 <= s) ->
  forall k, calc_max_num_patches pf (i0 :: rest) n fp = Ok k <->
    (2 <= k <= zlen (i0 :: rest) /\
     (exists s, nth_error (i0 :: rest) (Z.to_nat (k - 1)) = Some s /\ s - fp / 2 <= n) /\
     (forall j s, (Z.to_nat k <= j)%nat -> nth_error (i0 :: rest) j = Some s -> n < s - fp / 2)).
Proof.
  intros H0 Hf Hn HG k. unfold calc_max_num_patches. set (l := i0 :: rest) in *.
  assert (U : forall a b : nat, 
    (exists s, nth_error l (a - 1) = Some s /\ s - fp / 2 <= n) -> (1 <= a <= List.length l)%nat ->
    (forall j s, (b <= j)%nat -> nth_error l j = Some s -> n < s - fp / 2) -> (a <= b)%nat).
  { intros a b (s & Hs & Hn') Ha Hb. destruct (le_lt_dec a b); auto.
    specialize (Hb (a - 1)%nat s ltac:(lia) Hs). lia. }
  assert (Hh : fp / 2 < 2 ^ 62) by (assert (fp / 2 <= fp); [apply Z.div_le_upper_bound; lia|lia]).
  destruct (calc_loop_low pf i0 rest n (fp / 2) H0 Hh Hn HG (List.length l)) as [(a & A & B & C & D)|([p A] & B)];
    [subst l; cbn [List.length]; lia| |]; fold l in A; rewrite A.
  - assert (D' : forall j s, (a <= j)%nat -> nth_error l j = Some s -> n < s - fp / 2).
    { intros j s Hj Hs. apply (D j); auto. split; auto. apply nth_error_Some. congruence. }
    split.
    + intros [= <-]. unfold zlen. split; [lia|]. rewrite Nat2Z.id.
      replace (Z.to_nat (Z.of_nat a - 1)) with (a - 1)%nat by lia. auto.
    + intros (K1 & K2 & K3). f_equal. unfold zlen in K1.
      replace (Z.to_nat (k - 1)) with (Z.to_nat k - 1)%nat in K2 by lia.
      assert (a <= Z.to_nat k)%nat by (eapply U; eauto; lia).
      assert (Z.to_nat k <= a)%nat by (eapply U; eauto; lia). lia.
  - split; [discriminate|]. intros (K1 & (s & K2 & K3) & _). unfold zlen in K1.
    assert (n < s - fp / 2); [|lia]. apply (B (Z.to_nat (k - 1)) s); auto.
    split; [lia|]. apply nth_error_Some. congruence.
Qed.
End Count.

Section Match.
Context {N : NumOps}.
Local Hint Resolve ne_mzip ne_mslice ne_std ne_conv ne_nsim_map ne_measure ne_build_deg
  ne_zget ne_i32 ne_uadd ne_best_last ne_calc_max ne_backtrace : noerr.

Lemma find_panic_count pf (rp : list (mat N)) idx (deg : mat N) fd radius :
  (forall fp, is_panic (calc_max_num_patches pf idx (Z.of_nat (mcols deg)) fp) \/
     forall p0, zget rp 0 = Ok p0 -> Z.of_nat (mcols p0) <> fp) ->
  is_panic (find_most_optimal_deg_patches pf rp idx deg fd radius).
Proof.
  intros H. unfold find_most_optimal_deg_patches.
  apply panic_bind'; [ne|]. intros p0 E0. cbv zeta.
  apply panic_bind'; [ne|]. intros sw _.
  apply panic_bind. destruct (H (Z.of_nat (mcols p0))) as [|C]; auto.
  exfalso. eapply C; eauto.
Qed.

(** C23: a single start frame, at patch_size/2 - 1. *)
Lemma C23_single pf (p0 : mat N) rp i0 (deg : mat N) fd radius :
  0 <= i0 < Z.of_nat (mcols p0) / 2 -> Z.of_nat (mcols p0) < 2 ^ 62 -> Z.of_nat (mcols deg) < 2 ^ 63 ->
  is_panic (find_most_optimal_deg_patches pf (p0 :: rp) [i0] deg fd radius).
Proof.
  intros H1 H2 H3. apply find_panic_count. intros fp.
  destruct (Z.eq_dec (Z.of_nat (mcols p0)) fp) as [E|E].
  - left. rewrite <- E. apply calc_first_low; auto. intros s [].
  - right. intros p E'. injection E' as <-. auto.
Qed.

Lemma C43_short pf (rp : list (mat N)) idx (deg : mat N) fd radius p0 k r :
  zget rp 0 = Ok p0 -> Z.of_nat (mcols p0) < 2 ^ 31 ->
  let sw := radius * Z.of_nat (mcols p0) in
  0 <= radius -> nth_error idx k = Some r -> (k < List.length rp)%nat ->
  0 <= r -> r + sw < 2 ^ 31 -> Z.of_nat (mcols deg) < r - sw ->
  is_panic (find_most_optimal_deg_patches pf rp idx deg fd radius).
Proof.
  intros H0 Hm sw Hr Hk Hl Hr0 Hs Hd. unfold find_most_optimal_deg_patches. rewrite H0. cbn [bind]. cbv zeta.
  assert (W : wrap_i32 (Z.of_nat (mcols p0)) = Z.of_nat (mcols p0)) by (apply wrap_i32_id; lia).
  rewrite W. fold sw. rewrite i32_ok by (subst sw; lia). cbn [bind].
  apply panic_bind'; [ne|]. intros np Hnp.
  apply calc_max_pos in Hnp; [|intros ->; destruct k; discriminate].
  destruct (Z.eqb_spec np 0); [lia|].
  apply panic_bind'; [ne|]. intros dps _.
  apply panic_bind.
  apply foldM_panic with (a := Z.of_nat k).
  - intros s b. ne. apply ne_find1. intros; ne.
  - apply in_zrange. unfold zlen. lia.
  - intros [dp bt]. apply panic_bind'; [ne|]. intros rpk _.
    unfold find_most_optimal_deg_patch.
    assert (Z' : zget idx (Z.of_nat k) = Ok r).
    { apply zget_ok. unfold zlen. rewrite Nat2Z.id. split; auto. split; [lia|].
      assert (k < List.length idx)%nat by (apply nth_error_Some; congruence). lia. }
    rewrite Z'. cbn [bind].
    assert (0 <= sw) by (subst sw; apply Z.mul_nonneg_nonneg; lia).
    rewrite (wrap_i32_id r) by lia.
    rewrite !i32_ok by lia. cbn [bind].
    destruct (Z.ltb_spec (r + sw) (Z.max 0 (r - sw))); [lia|].
    destruct (Z.ltb_spec (Z.of_nat (mcols deg)) (Z.max 0 (r - sw))); [|lia].
    eexists; reflexivity.
Qed.

Lemma backtrace_length pf rp idx (deg : mat N) bt fd pd k : forall lo acc out,
  backtrace_loop (N:=N) pf rp idx deg bt fd pd k lo acc = Ok out ->
  List.length out = (k + List.length acc)%nat.
Proof.
  induction k; cbn [backtrace_loop]; intros lo acc out H; [injection H as <-; auto|].
  do 7 (inv_do H; match goal with H2 : _ = Ok out |- _ => rename H2 into H end).
  apply IHk in H. cbn [List.length] in *; lia.
Qed.
Lemma find_count pf (rp : list (mat N)) idx (deg : mat N) fd r out :
  find_most_optimal_deg_patches pf rp idx deg fd r = Ok out -> idx <> [] ->
  exists p0 rest, rp = p0 :: rest /\
    calc_max_num_patches pf idx (Z.of_nat (mcols deg)) (Z.of_nat (mcols p0)) = Ok (zlen out).
Proof.
  intros H NE. unfold find_most_optimal_deg_patches in H.
  do 3 (inv_do H; match goal with H2 : _ = Ok out |- _ => rename H2 into H end).
  destruct (Z.eqb_spec v1 0); [discriminate|].
  do 2 (inv_do H; match goal with H2 : _ = Ok out |- _ => rename H2 into H end).
  destruct v3 as [dp bt].
  do 6 (inv_do H; match goal with H2 : _ = Ok out |- _ => rename H2 into H end).
  apply backtrace_length in H. destruct rp as [|p0 rest]; [discriminate|].
  injection Hv as <-. exists p0, rest. split; auto. rewrite Hv1. f_equal.
  apply calc_max_pos in Hv1; auto. unfold zlen. cbn [List.length] in H. lia.
Qed.
Lemma C24_kept pf (p0 : mat N) rp i0 rest (deg : mat N) fd r out :
  0 <= i0 < Z.of_nat (mcols p0) / 2 -> Z.of_nat (mcols p0) < 2 ^ 62 -> Z.of_nat (mcols deg) < 2 ^ 63 ->
  (forall s, In s rest -> Z.of_nat (mcols p0) / 2 <= s) ->
  find_most_optimal_deg_patches pf (p0 :: rp) (i0 :: rest) deg fd r = Ok out ->
  2 <= zlen out <= zlen (i0 :: rest) /\
  (exists s, nth_error (i0 :: rest) (Z.to_nat (zlen out - 1)) = Some s /\
             s - Z.of_nat (mcols p0) / 2 <= Z.of_nat (mcols deg)) /\
  (forall j s, (List.length out <= j)%nat -> nth_error (i0 :: rest) j = Some s ->
     Z.of_nat (mcols deg) < s - Z.of_nat (mcols p0) / 2).
Proof.
  intros H1 H2 H3 H4 H. apply find_count in H; [|discriminate].
  destruct H as (p & q & E & C). injection E as <- <-.
  apply C24_count_low in C; auto. destruct C as (A & B & D). split; auto. split; auto.
  intros j s Hj. apply D. unfold zlen. lia.
Qed.
End Match.
