(** The correlation search in exact arithmetic (C13, C14). *)
From Coq Require Import Reals Lra Lia Psatz.
From Flocq Require Import Core.
From Verif Require Import Base Num RNum M_Audio M_Align P_Base P_Audio P_Score P_R P_Dft Spec3.
Open Scope R_scope.

Lemma Rltb_spec x y : reflect (x < y) (Rltb x y).
Proof. unfold Rltb. destruct (Rlt_dec x y); constructor; auto. Qed.
Lemma Reqb_spec x y : reflect (x = y) (Reqb x y).
Proof. unfold Reqb. destruct (Req_EM_T x y); constructor; auto. Qed.

(** ** Sizes *)
Lemma ln2_pos : 0 < ln 2. Proof. rewrite <- ln_1. apply ln_increasing; lra. Qed.
Lemma ln_pow2 k : (0 <= k)%Z -> ln (IZR (2 ^ k)) = IZR k * ln 2.
Proof.
  intros H. replace k with (Z.of_nat (Z.to_nat k)) by lia. generalize (Z.to_nat k) as n. clear. intros n.
  rewrite <- pow_IZR, <- INR_IZR_INZ. apply ln_pow. lra.
Qed.
Lemma floor_log2 n : (1 <= n)%Z -> Zfloor (Rlog 2 (IZR n)) = Z.log2 n.
Proof.
  intros H. destruct (Z.log2_spec n) as [A B]; [lia|]. pose proof ln2_pos. assert (P := Z.log2_nonneg n).
  apply Zfloor_imp. unfold Rlog. split.
  - apply Rmult_le_reg_r with (ln 2); auto. replace (ln (IZR n) / ln 2 * ln 2) with (ln (IZR n)) by (field; lra).
    rewrite <- ln_pow2 by auto. assert (0 < 2 ^ Z.log2 n)%Z by (apply Z.pow_pos_nonneg; lia).
    apply IZR_le in A. apply IZR_lt in H1. destruct (Rle_lt_or_eq_dec _ _ A) as [L|L]; [left; apply ln_increasing; auto|rewrite L; lra].
  - apply Rmult_lt_reg_r with (ln 2); auto. replace (ln (IZR n) / ln 2 * ln 2) with (ln (IZR n)) by (field; lra).
    rewrite <- ln_pow2 by lia. apply ln_increasing; apply IZR_lt; lia.
Qed.
Lemma frexp_R n : (1 <= n < 2 ^ 64)%Z -> frexp_exp (N:=RN) (IZR n) = (Z.log2 n + 1)%Z.
Proof.
  intros H. unfold frexp_exp. cbn [RN neqb nofZ nfloor nlog2 nabs nadd].
  destruct (Reqb_spec 0 (IZR n)) as [E|E]. { apply eq_IZR in E. lia. }
  rewrite Rabs_pos_eq by (apply IZR_le; lia). rewrite floor_log2 by lia.
  unfold as_i32. cbn [RN ncast]. rewrite <- plus_IZR, Ztrunc_IZR.
  assert (Z.log2 n < 64)%Z by (apply Z.log2_lt_pow2; lia). pose proof (Z.log2_nonneg n). lia.
Qed.
Lemma new_fft_pow2 pf e : (0 <= e < 64)%Z -> new_fft (N:=RN) pf (2 ^ e) =
  Ok (@Build_FftManager RN (Z.max (2 ^ e) 32) (1 / IZR (Z.max (2 ^ e) 32)) (2 ^ e)).
Proof. intros H. unfold new_fft. rewrite npt_pow by auto. reflexivity. Qed.

(** ** Lists as tables *)
Lemma tab_ext (l : list R) (f : nat -> R) n : List.length l = n -> (forall i, (i < n)%nat -> nth i l 0 = f i) -> l = map f (seq 0 n).
Proof. intros L H. rewrite (list_tab l 0), L. apply map_ext_in. intros i Hi. apply in_seq in Hi. apply H. lia. Qed.
Lemma nth_resize (l : list R) n i : (0 <= n)%Z -> (Z.of_nat i < n)%Z -> nth i (resize l n 0) 0 = nth i l 0.
Proof.
  intros Hn Hi. unfold resize. destruct (Nat.lt_ge_cases i (List.length l)) as [L|L].
  - rewrite app_nth1 by (rewrite firstn_length; lia).
    rewrite <- (firstn_skipn (Z.to_nat n) l) at 2. rewrite app_nth1 by (rewrite firstn_length; lia). reflexivity.
  - rewrite app_nth2 by (rewrite firstn_length; lia). rewrite (nth_overflow l) by lia. 
    assert (E : forall k m, nth m (repeat (0 : R) k) 0 = 0) by (induction k; destruct m; cbn; auto). apply E.
Qed.
Lemma nth_pad (l : list R) k i : nth i (l ++ repeat 0 k) 0 = nth i l 0.
Proof.
  destruct (Nat.lt_ge_cases i (List.length l)) as [L|L]; [rewrite app_nth1 by auto; reflexivity|].
  rewrite app_nth2, (nth_overflow l) by auto.
  assert (E : forall k m, nth m (repeat (0 : R) k) 0 = 0) by (clear; induction k; destruct m; cbn; auto). apply E.
Qed.
Lemma tab_nth (f : nat -> R) n i : (i < n)%nat -> nth i (map f (seq 0 n)) 0 = f i.
Proof. intros H. rewrite (nth_indep _ 0 (f O)) by (rewrite map_length, seq_length; auto). rewrite map_nth, seq_nth; auto. Qed.
Lemma tab_firstn (f : nat -> R) n k : (k <= n)%nat -> firstn k (map f (seq 0 n)) = map f (seq 0 k).
Proof. intros H. rewrite firstn_map. f_equal. replace n with (k + (n - k))%nat by lia. rewrite seq_app, firstn_app, seq_length, Nat.sub_diag, firstn_O, app_nil_r. rewrite firstn_all2; auto. rewrite seq_length. auto. Qed.

Definition sq (s : list R) (j : nat) : R * R := (nth j s 0, 0).
Lemma forward_R (m : FftManager RN) (s : list R) points :
  (zlen s <= points <= fft_size m)%Z ->
  forward_1d_from_points m s points = Ok (dft false (map (sq s) (seq 0 (Z.to_nat (fft_size m))))).
Proof.
  intros H. unfold forward_1d_from_points. change (num RN) with R. unfold usub. destruct (Z.leb_spec (zlen s) points); [|lia]. cbn [bind].
  unfold forward_1d_from_matrix, freq_from_time_domain. cbn [RN nfft nofZ].
  assert (E : resize (s ++ repeat 0 (Z.to_nat (points - zlen s))) (fft_size m) 0 = map (fun i => nth i s 0) (seq 0 (Z.to_nat (fft_size m)))).
  { unfold zlen in *. apply tab_ext.
    - assert (G := resize_length (s ++ repeat 0 (Z.to_nat (points - Z.of_nat (List.length s)))) (fft_size m) 0). unfold zlen in G. lia.
    - intros i Hi. rewrite nth_resize by lia. apply nth_pad. }
  unfold to_complex. change (num RN) with R. unfold zlen in *. rewrite E, map_map. reflexivity.
Qed.

Definition circ (n : nat) (s1 s2 : list R) (m : nat) : R :=
  Sg n (fun a => Sg n (fun b => if ((Z.of_nat m - Z.of_nat a + Z.of_nat b) mod Z.of_nat n =? 0)%Z then nth a s1 0 * nth b s2 0 else 0)).

Lemma resize_R_nth (l : list R) n i : (zlen l <= n)%Z -> nth i (resize l n 0) 0 = nth i l 0.
Proof.
  intros H. unfold zlen in H. destruct (Z_lt_ge_dec (Z.of_nat i) n). { apply nth_resize; lia. }
  rewrite (nth_overflow l) by lia. apply nth_overflow. assert (G := resize_length l n 0). unfold zlen in G. lia.
Qed.
Lemma pointwise_R pf (s1 s2 : list R) : (1 <= longest s1 s2 <= 2 ^ 62)%Z ->
  let e := (Z.log2 (2 * longest s1 s2 - 1) + 1)%Z in
  let n := Z.to_nat (Z.max (2 ^ e) 32) in
  calculate_inverse_fft_pointwise_product (N:=RN) pf s1 s2 = Ok (map (circ n s1 s2) (seq 0 (Z.to_nat (2 ^ e)))).
Proof.
  intros HL e n. unfold calculate_inverse_fft_pointwise_product.
  change (Z.max (zlen s1) (zlen s2)) with (longest s1 s2). set (L := longest s1 s2) in *.
  assert (B1 : (zlen s1 <= L)%Z) by (unfold L, longest; lia). assert (B2 : (zlen s2 <= L)%Z) by (unfold L, longest; lia).
  assert (R1 := resize_length s1 L (0 : R) ltac:(lia)). assert (R2 := resize_length s2 L (0 : R) ltac:(lia)).
  cbn [RN nofZ] in *. change (num RN) with R in *. rewrite R1. rewrite usub_ok by lia. cbn [bind].
  replace (L * 2 - 1)%Z with (2 * L - 1)%Z by ring.
  assert (LB : (1 <= 2 * L - 1 < 2 ^ 63)%Z) by lia.
  change (nofZ RN (2 * L - 1)) with (IZR (2 * L - 1)).
  rewrite frexp_R by (split; [lia|]; apply Z.lt_trans with (2 ^ 63)%Z; lia). fold e.
  assert (He : (1 <= e < 64)%Z).
  { unfold e. assert (Z.log2 (2 * L - 1) < 63)%Z by (apply Z.log2_lt_pow2; lia). pose proof (Z.log2_nonneg (2 * L - 1)). lia. }
  assert (He2 : (2 * L - 1 < 2 ^ e)%Z). { unfold e. rewrite Z.add_1_r. apply Z.log2_spec. lia. }
  destruct (Z.leb_spec 0 e); [|lia]. destruct (Z.ltb_spec e 64); [|lia]. cbn [andb].
  rewrite new_fft_pow2 by lia. cbn [bind].
  unfold calculate_fft_pointwise_product.
  rewrite !forward_R by (cbn [fft_size]; rewrite ?R1, ?R2; lia). cbn [bind fft_size]. fold n.
  assert (Pn : (0 < n)%nat) by lia.
  assert (T : forall s, (zlen s <= L)%Z -> map (sq (resize s L 0)) (seq 0 n) = map (sq s) (seq 0 n)).
  { intros s Hs. apply map_ext. intros j. unfold sq. rewrite resize_R_nth; auto. }
  rewrite !T by auto. rewrite !dft_tab, map_map. rewrite combine_tab2, map_map. cbn [fst snd].
  unfold inverse_1d_conj_sym, inverse_1d, time_from_freq_domain. cbn [fft_size].
  match goal with |- context [zlen ?l] => set (P := l) end.
  assert (PL : zlen P = Z.of_nat n) by (unfold zlen, P; rewrite map_length, seq_length; reflexivity).
  rewrite PL. replace (Z.of_nat n) with (Z.max (2 ^ e) 32) by (unfold n; lia). rewrite Z.eqb_refl. cbn [bind].
  unfold apply_reverse_fft_scaling. cbn [inverse_fft_scale samples_per_channel].
  assert (V : map (fun x => nmul RN x (1 / IZR (Z.max (2 ^ e) 32))) (real_parts (nfft RN true P)) = map (circ n s1 s2) (seq 0 n)).
  { cbn [RN nfft]. unfold P. unfold real_parts. change (num RN) with R.
    rewrite dft_tab, !map_map. cbn [fst]. apply map_ext. intros m. cbn [nmul].
    assert (Q := product_inverse n (fun j => nth j s1 0) (fun j => nth j s2 0) m Pn). cbv zeta in Q.
    unfold circ. match type of Q with _ = _ * ?y => set (S := y) in * end.
    replace (IZR (Z.max (2 ^ e) 32)) with (INR n) by (rewrite INR_IZR_INZ; f_equal; unfold n; lia).
    transitivity (INR n * S * (1 / INR n)); [|field; apply not_0_INR; lia].
    rewrite <- Q. reflexivity. }
  rewrite V.
  assert (Z1 : zslice (map (circ n s1 s2) (seq 0 n)) 0 (2 ^ e) = Ok (map (circ n s1 s2) (seq 0 (Z.to_nat (2 ^ e))))).
  { apply zslice_ok. split; [split; [lia|]; unfold zlen; rewrite map_length, seq_length; unfold n; lia|].
    rewrite Z.sub_0_r. cbn [Z.to_nat skipn]. symmetry. apply tab_firstn. unfold n. lia. }
  change (num RN) with R in *. rewrite Z1. cbn [bind]. f_equal. unfold real_parts, to_complex. rewrite map_map. cbn [fst]. apply map_id.
Qed.

(** ** Circular and linear correlation *)
Lemma at0_nat s n : at0 s (Z.of_nat n) = nth n s 0.
Proof. unfold at0. destruct (Z.ltb_spec (Z.of_nat n) 0); [lia|]. rewrite Nat2Z.id. reflexivity. Qed.
Lemma at0_out s i : (i < 0 \/ zlen s <= i)%Z -> at0 s i = 0.
Proof. intros H. unfold at0. destruct (Z.ltb_spec i 0); auto. apply nth_overflow. unfold zlen in H. lia. Qed.
Lemma circ_corr n s1 s2 L lag m : (zlen s1 <= L)%Z -> (zlen s2 <= L)%Z -> (1 <= L <= Z.of_nat n)%Z ->
  (Z.abs lag <= Z.of_nat n - L)%Z -> ((Z.of_nat m - lag) mod Z.of_nat n = 0)%Z -> circ n s1 s2 m = correlation s1 s2 lag.
Proof.
  intros H1 H2 HL Hlag Hm. unfold circ. rewrite Sg_swap.
  apply Z.mod_divide in Hm; [|lia]. destruct Hm as [q Hq].
  transitivity (Sg n (fun b => at0 s1 (Z.of_nat b + lag) * at0 s2 (Z.of_nat b))).
  - apply Sg_ext. intros b Hb. rewrite at0_nat.
    destruct (Z_lt_ge_dec (Z.of_nat b) L) as [Lb|Lb].
    2:{ rewrite (nth_overflow s2) by (unfold zlen in *; lia). rewrite Sg_zero; [ring|]. intros a Ha. destruct (_ =? _)%Z; ring. }
    assert (K : forall a, (Z.of_nat a < L)%Z -> ((Z.of_nat m - Z.of_nat a + Z.of_nat b) mod Z.of_nat n = 0 <-> Z.of_nat a = Z.of_nat b + lag)%Z).
    { intros a La. split.
      - intros E. apply Z.mod_divide in E; [|lia]. destruct E as [p Hp]. 
        assert (lag - Z.of_nat a + Z.of_nat b = (p - q) * Z.of_nat n)%Z by lia.
        assert (p - q = 0)%Z by nia. nia.
      - intros E. apply Z.mod_divide; [lia|]. exists q. lia. }
    destruct (Z_lt_ge_dec (Z.of_nat b + lag) 0) as [N|N].
    { rewrite at0_out by auto. rewrite Sg_zero; [ring|]. intros a Ha.
      destruct (Z.eqb_spec ((Z.of_nat m - Z.of_nat a + Z.of_nat b) mod Z.of_nat n) 0) as [E|E]; auto.
      destruct (Z_lt_ge_dec (Z.of_nat a) L) as [La|La]; [apply K in E; lia|]. rewrite (nth_overflow s1) by (unfold zlen in *; lia). ring. }
    destruct (Z_lt_ge_dec (Z.of_nat b + lag) L) as [M|M].
    { rewrite (Sg_one n (Z.to_nat (Z.of_nat b + lag))).
      - rewrite (proj2 (Z.eqb_eq _ _)) by (apply K; lia). unfold at0. destruct (Z.ltb_spec (Z.of_nat b + lag) 0); [lia|]. reflexivity.
      - lia.
      - intros a Ha D. destruct (Z.eqb_spec ((Z.of_nat m - Z.of_nat a + Z.of_nat b) mod Z.of_nat n) 0) as [E|E]; auto.
        destruct (Z_lt_ge_dec (Z.of_nat a) L) as [La|La]; [apply K in E; lia|]. rewrite (nth_overflow s1) by (unfold zlen in *; lia). ring. }
    rewrite at0_out by lia. rewrite Sg_zero; [ring|]. intros a Ha.
    destruct (Z.eqb_spec ((Z.of_nat m - Z.of_nat a + Z.of_nat b) mod Z.of_nat n) 0) as [E|E]; auto.
    destruct (Z_lt_ge_dec (Z.of_nat a) L) as [La|La]; [apply K in E; lia|]. rewrite (nth_overflow s1) by (unfold zlen in *; lia). ring.
  - unfold correlation. fold (Sg (List.length s2) (fun b => at0 s1 (Z.of_nat b + lag) * at0 s2 (Z.of_nat b))).
    replace n with (List.length s2 + (n - List.length s2))%nat by (unfold zlen in *; lia).
    rewrite Sg_add. rewrite (Sg_zero (n - List.length s2)); [ring|]. intros k Hk. rewrite (at0_out s2) by (unfold zlen; lia). ring.
Qed.
Lemma corr_out s1 s2 lag : (zlen s1 <= lag \/ lag <= - zlen s2)%Z -> correlation s1 s2 lag = 0.
Proof.
  intros H. unfold correlation. apply Rsum_0. apply Forall_forall. intros x Hx. apply in_map_iff in Hx. destruct Hx as (n & <- & Hn).
  apply in_seq in Hn. rewrite at0_out; [ring|]. unfold zlen in *. lia.
Qed.

(** ** The search *)
Lemma max_by_abs_R (l : list R) : forall acc : R, exists b : R, max_by_abs (N:=RN) acc l = Ok b /\ In b (acc :: l) /\
  forall x, In x (acc :: l) -> Rabs x <= Rabs b.
Proof.
  induction l as [|y t IH]; intros acc.
  - exists acc. split; [reflexivity|]. split; [left; auto|]. intros x [<-|[]]. lra.
  - cbn [max_by_abs]. unfold ncmp. cbn [RN nltb nabs neqb].
    assert (C : exists b, max_by_abs (N:=RN) (if Rltb (Rabs y) (Rabs acc) then acc else y) t = Ok b /\ In b (acc :: y :: t) /\
                forall x, In x (acc :: y :: t) -> Rabs x <= Rabs b).
    { destruct (Rltb_spec (Rabs y) (Rabs acc)) as [L|L].
      - destruct (IH acc) as (b & E & I & M). exists b. split; auto. split; [destruct I; [left; auto|right; right; auto]|].
        intros x [<-|[<-|Hx]]; [apply M; left; auto| |apply M; right; auto]. assert (Rabs acc <= Rabs b) by (apply M; left; auto). lra.
      - destruct (IH y) as (b & E & I & M). exists b. split; auto. split; [right; auto|].
        intros x [<-|[<-|Hx]]; [|apply M; left; auto|apply M; right; auto]. assert (Rabs y <= Rabs b) by (apply M; left; auto). lra. }
    destruct C as (b & E & I & M). exists b. split; auto.
    destruct (Rltb_spec (Rabs acc) (Rabs y)) as [L|L].
    + destruct (Rltb_spec (Rabs y) (Rabs acc)); [lra|]. exact E.
    + destruct (Rltb_spec (Rabs y) (Rabs acc)); [exact E|]. destruct (Reqb_spec (Rabs acc) (Rabs y)); [exact E|lra].
Qed.
Lemma position_R (l : list R) v : forall i, In v l -> exists k, position_eq (N:=RN) l v i = Some (i + Z.of_nat k)%Z /\
  (k < List.length l)%nat /\ nth k l 0 = v /\ forall j, (j < k)%nat -> nth j l 0 <> v.
Proof.
  induction l as [|x t IH]; intros i H; [destruct H|]. cbn [position_eq RN neqb].
  destruct (Reqb_spec x v) as [->|D].
  - exists O. cbn [List.length]. split; [f_equal; lia|]. split; [lia|]. split; auto. intros; lia.
  - destruct H as [H|H]; [congruence|]. destruct (IH (i + 1)%Z H) as (k & E & Hk & N & M). exists (S k).
    rewrite E. cbn [List.length nth]. split; [f_equal; lia|]. split; [lia|]. split; auto. intros [|j] Hj; cbn [nth]; auto. apply M. lia.
Qed.

Lemma search_R pf (s1 s2 : list R) : (1 <= longest s1 s2 <= 2 ^ 62)%Z ->
  let L := longest s1 s2 in
  let e := (Z.log2 (2 * L - 1) + 1)%Z in
  let n := Z.to_nat (Z.max (2 ^ e) 32) in
  let val lag := circ n s1 s2 (Z.to_nat (if (lag <? 0)%Z then 2 ^ e + lag else lag)) in
  exists lag, calculate_best_lag (N:=RN) pf s1 s2 = Ok (Some lag) /\ (- (L - 1) <= lag <= L - 1)%Z /\
    (forall k, (- (L - 1) <= k <= L - 1)%Z -> Rabs (val k) <= Rabs (val lag)) /\
    (forall k, (- (L - 1) <= k < lag)%Z -> val k <> val lag).
Proof.
  intros HL L e n val. unfold calculate_best_lag. change (num RN) with R. change (Z.max (zlen s1) (zlen s2)) with L.
  destruct (Z.eqb_spec L 0); [lia|]. rewrite pointwise_R by auto. cbn [bind]. fold L e n.
  set (pw := map (circ n s1 s2) (seq 0 (Z.to_nat (2 ^ e)))).
  assert (LB : (1 <= 2 * L - 1)%Z) by lia.
  assert (He2 : (2 * L - 1 < 2 ^ e)%Z). { unfold e. rewrite Z.add_1_r. apply Z.log2_spec. lia. }
  assert (PL : zlen pw = (2 ^ e)%Z) by (unfold pw, zlen; rewrite map_length, seq_length; lia).
  change (num RN) with R in *. rewrite PL.
  rewrite (proj2 (zslice_ok pw (2 ^ e - (L - 1)) (2 ^ e) _)) by (split; [rewrite PL; lia|reflexivity]). cbn [bind].
  rewrite (proj2 (zslice_ok pw 0 (L - 1 + 1) _)) by (split; [rewrite PL; lia|reflexivity]). cbn [bind].
  set (neg := firstn _ (skipn (Z.to_nat (2 ^ e - (L - 1))) pw)). set (pos := firstn _ (skipn (Z.to_nat 0) pw)).
  assert (LN : List.length neg = Z.to_nat (L - 1)). { unfold neg. rewrite firstn_length, skipn_length. unfold zlen in PL. lia. }
  assert (LP : List.length pos = Z.to_nat L). { unfold pos. rewrite firstn_length, skipn_length. unfold zlen in PL. lia. }
  assert (NV : forall i, (i < Z.to_nat (2 * L - 1))%nat -> nth i (neg ++ pos) 0 = val (Z.of_nat i - (L - 1))%Z).
  { intros i Hi. unfold val. destruct (Nat.lt_ge_cases i (Z.to_nat (L - 1))) as [A|A].
    - rewrite app_nth1 by lia. destruct (Z.ltb_spec (Z.of_nat i - (L - 1)) 0); [|lia].
      unfold neg.
      assert (G : forall (l : list R) k j, (j < k)%nat -> nth j (firstn k l) 0 = nth j l 0).
      { clear. induction l; intros [|k] [|j] H; cbn; auto; try lia. apply IHl. lia. }
      rewrite G by lia. assert (G2 : forall (l : list R) k j, nth j (skipn k l) 0 = nth (k + j) l 0).
      { clear. induction l; intros [|k] j; cbn; auto. destruct j; auto. }
      rewrite G2. unfold pw. rewrite tab_nth by lia. f_equal. lia.
    - rewrite app_nth2 by lia. destruct (Z.ltb_spec (Z.of_nat i - (L - 1)) 0); [lia|].
      unfold pos. cbn [Z.to_nat skipn].
      assert (G : forall (l : list R) k j, (j < k)%nat -> nth j (firstn k l) 0 = nth j l 0).
      { clear. induction l; intros [|k] [|j] H; cbn; auto; try lia. apply IHl. lia. }
      rewrite G by lia. unfold pw. rewrite tab_nth by lia. f_equal. lia. }
  assert (LL : List.length (neg ++ pos) = Z.to_nat (2 * L - 1)) by (rewrite app_length, LN, LP; lia).
  destruct (neg ++ pos) as [|c t] eqn:EL; [cbn [List.length] in LL; lia|].
  destruct (max_by_abs_R t c) as (b & E & I & M). rewrite E. cbn [bind].
  destruct (position_R (c :: t) b 0 I) as (k & EK & HK & NK & FK). rewrite EK.
  exists (Z.of_nat k - (L - 1))%Z. split; [f_equal; f_equal; lia|]. split; [lia|]. split.
  - intros j Hj. rewrite <- (NV k) by lia. rewrite NK. apply M.
    replace j with (Z.of_nat (Z.to_nat (j + (L - 1))) - (L - 1))%Z by lia. rewrite <- NV by lia. apply nth_In. lia.
  - intros j Hj. rewrite <- (NV k) by lia. rewrite NK.
    replace j with (Z.of_nat (Z.to_nat (j + (L - 1))) - (L - 1))%Z by lia. rewrite <- NV by lia. apply FK. lia.
Qed.

Lemma C13_all pf (s1 s2 : list R) : (9 <= longest s1 s2 <= 2 ^ 62)%Z ->
  let L := longest s1 s2 in
  exists lag, calculate_best_lag (N:=RN) pf s1 s2 = Ok (Some lag) /\ (- (L - 1) <= lag <= L - 1)%Z /\
    (forall k, (- (L - 1) <= k <= L - 1)%Z -> Rabs (correlation s1 s2 k) <= Rabs (correlation s1 s2 lag)) /\
    (forall k, (- (L - 1) <= k < lag)%Z -> correlation s1 s2 k <> correlation s1 s2 lag).
Proof.
  intros HL L. destruct (search_R pf s1 s2 ltac:(lia)) as (lag & E & Hr & M & F). fold L in E, Hr, M, F.
  set (e := (Z.log2 (2 * L - 1) + 1)%Z) in *. set (n := Z.to_nat (Z.max (2 ^ e) 32)) in *.
  assert (He2 : (2 * L - 1 < 2 ^ e)%Z). { unfold e. rewrite Z.add_1_r. apply Z.log2_spec. lia. }
  assert (He5 : (5 <= e)%Z). { unfold e. assert (4 <= Z.log2 (2 * L - 1))%Z by (apply Z.log2_le_pow2; lia). lia. }
  assert (P32 : (2 ^ 5 <= 2 ^ e)%Z) by (apply Z.pow_le_mono_r; lia).
  assert (En : Z.of_nat n = (2 ^ e)%Z) by (unfold n; lia).
  assert (V : forall k, (- (L - 1) <= k <= L - 1)%Z -> circ n s1 s2 (Z.to_nat (if (k <? 0)%Z then 2 ^ e + k else k)) = correlation s1 s2 k).
  { intros k Hk. apply (circ_corr n s1 s2 L); try (unfold L, longest; lia); try lia.
    destruct (Z.ltb_spec k 0); rewrite Z2Nat.id by lia; [replace (2 ^ e + k - k)%Z with (1 * Z.of_nat n)%Z by lia|replace (k - k)%Z with (0 * Z.of_nat n)%Z by lia]; apply Z.mod_mul; lia. }
  exists lag. split; auto. split; auto. split.
  - intros k Hk. rewrite <- !V by lia. apply M. auto.
  - intros k Hk. rewrite <- !V by lia. apply F. auto.
Qed.

Lemma C14_all pf (s1 s2 : list R) : (1 <= longest s1 s2 <= 8)%Z ->
  let L := longest s1 s2 in
  exists lag, calculate_best_lag (N:=RN) pf s1 s2 = Ok (Some lag) /\
    ((forall k, (0 <= k <= L - 1)%Z -> correlation s1 s2 k = 0) /\ lag = (- (L - 1))%Z \/
     (0 <= lag <= L - 1)%Z /\ correlation s1 s2 lag <> 0 /\
     forall k, (0 <= k <= L - 1)%Z -> Rabs (correlation s1 s2 k) <= Rabs (correlation s1 s2 lag)).
Proof.
  intros HL L. destruct (search_R pf s1 s2 ltac:(lia)) as (lag & E & Hr & M & F). fold L in E, Hr, M, F.
  set (e := (Z.log2 (2 * L - 1) + 1)%Z) in *. set (n := Z.to_nat (Z.max (2 ^ e) 32)) in *.
  assert (He2 : (2 * L - 1 < 2 ^ e)%Z). { unfold e. rewrite Z.add_1_r. apply Z.log2_spec. lia. }
  assert (He5 : (1 <= e <= 4)%Z). { unfold e. assert (Z.log2 (2 * L - 1) < 4)%Z by (apply Z.log2_lt_pow2; lia). pose proof (Z.log2_nonneg (2 * L - 1)). lia. }
  assert (P32 : (2 ^ e <= 2 ^ 4)%Z) by (apply Z.pow_le_mono_r; lia).
  assert (En : Z.of_nat n = 32%Z) by (unfold n; lia).
  assert (VN : forall k, (- (L - 1) <= k < 0)%Z -> circ n s1 s2 (Z.to_nat (if (k <? 0)%Z then 2 ^ e + k else k)) = 0).
  { intros k Hk. rewrite <- (corr_out s1 s2 (2 ^ e + k)) by (unfold L, longest in *; lia).
    apply (circ_corr n s1 s2 L); try (unfold L, longest; lia); try lia.
    destruct (Z.ltb_spec k 0); [|lia]. rewrite Z2Nat.id by lia. rewrite Z.sub_diag. apply Z.mod_0_l. lia. }
  assert (VP : forall k, (0 <= k <= L - 1)%Z -> circ n s1 s2 (Z.to_nat (if (k <? 0)%Z then 2 ^ e + k else k)) = correlation s1 s2 k).
  { intros k Hk. apply (circ_corr n s1 s2 L); try (unfold L, longest; lia); try lia.
    destruct (Z.ltb_spec k 0); [lia|]. rewrite Z2Nat.id by lia. rewrite Z.sub_diag. apply Z.mod_0_l. lia. }
  exists lag. split; auto.
  set (val := fun k => circ n s1 s2 (Z.to_nat (if (k <? 0)%Z then 2 ^ e + k else k))) in *.
  change (forall k, (- (L - 1) <= k < 0)%Z -> val k = 0) in VN. change (forall k, (0 <= k <= L - 1)%Z -> val k = correlation s1 s2 k) in VP.
  change (forall k, (- (L - 1) <= k <= L - 1)%Z -> Rabs (val k) <= Rabs (val lag)) in M.
  change (forall k, (- (L - 1) <= k < lag)%Z -> val k <> val lag) in F.
  destruct (Req_dec (val lag) 0) as [Z|Z].
  - left. assert (ALL : forall k, (- (L - 1) <= k <= L - 1)%Z -> val k = 0).
    { intros k Hk. specialize (M k Hk). rewrite Z, Rabs_R0 in M. pose proof (Rabs_pos (val k)). destruct (Req_dec (val k) 0); auto. apply Rabs_no_R0 in H0. lra. }
    split; [intros k Hk; rewrite <- VP by auto; apply ALL; lia|].
    destruct (Z.eq_dec lag (- (L - 1))); auto. exfalso. apply (F (- (L - 1))%Z); [lia|]. rewrite Z. apply ALL. lia.
  - right. assert (0 <= lag)%Z. { destruct (Z_lt_ge_dec lag 0); [|lia]. elim Z. apply VN. lia. }
    split; [lia|]. rewrite <- VP by lia. split; auto. intros k Hk. rewrite <- VP by auto. apply M. lia.
Qed.

(** Negative lags are lost: the best lag is -1, the search says 0. *)
Lemma C14_witness : exists s1 s2 : list R, longest s1 s2 = 2%Z /\
  forall pf lag, calculate_best_lag (N:=RN) pf s1 s2 = Ok (Some lag) ->
  Rabs (correlation s1 s2 lag) < Rabs (correlation s1 s2 (-1)).
Proof.
  exists [1; 0], [1; 2]. split; [reflexivity|]. intros pf lag H.
  assert (V0 : correlation [1; 0] [1; 2] 0 = 1) by (cbv - [Rplus Rmult IZR]; lra).
  assert (V1 : correlation [1; 0] [1; 2] 1 = 0) by (cbv - [Rplus Rmult IZR]; lra).
  assert (VM : correlation [1; 0] [1; 2] (-1) = 2) by (cbv - [Rplus Rmult IZR]; lra).
  destruct (C14_all pf [1; 0] [1; 2]) as (l & E & D); [cbn; lia|]. rewrite E in H. injection H as ->.
  change (longest [1; 0] [1; 2]) with 2%Z in D. rewrite VM.
  destruct D as [[D _]|(D1 & D2 & D3)].
  - specialize (D 0%Z ltac:(lia)). lra.
  - assert (lag = 0 \/ lag = 1)%Z as [-> | ->] by lia; rewrite ?V0, ?V1 in *; [|lra]. rewrite !Rabs_pos_eq; lra.
Qed.
