(** C55: a delayed copy and the correlation of the envelopes, in exact arithmetic. *)
From Coq Require Import Reals Lra Lia Psatz FinFun.
From Flocq Require Import Core.
From Verif Require Import Base Num RNum M_Audio M_Align P_Base P_Audio P_Score P_R Spec3 P_Xcorr P_Env.
Open Scope R_scope.

(** ** Sums over lists of integers *)
Definition Sz (f : Z -> R) (l : list Z) : R := Rsum (map f l).
Lemma Sz_cons f a l : Sz f (a :: l) = f a + Sz f l. Proof. reflexivity. Qed.
Lemma Sz_app f a b : Sz f (a ++ b) = Sz f a + Sz f b. Proof. unfold Sz. rewrite map_app. apply Rsum_app. Qed.
Lemma Sz_nonneg f l : (forall z, 0 <= f z) -> 0 <= Sz f l.
Proof. intros H. apply Rsum_nonneg, Forall_forall. intros x Hx. apply in_map_iff in Hx as (z & <- & _). auto. Qed.
Lemma Sz_support (f : Z -> R) la : forall lb, (forall z, 0 <= f z) -> NoDup la ->
  (forall z, In z la -> f z <> 0 -> In z lb) -> Sz f la <= Sz f lb.
Proof.
  induction la as [|a t IH]; intros lb Hf Hn Hs; [apply Sz_nonneg; auto|].
  inversion Hn; subst. rewrite Sz_cons. destruct (Req_dec (f a) 0) as [E|E].
  - rewrite E. rewrite Rplus_0_l. apply IH; auto. intros z Hz. apply Hs. right; auto.
  - destruct (in_split a lb) as (l1 & l2 & ->); [apply Hs; [left; auto|auto]|].
    rewrite Sz_app, Sz_cons. assert (Sz f t <= Sz f (l1 ++ l2)); [|rewrite Sz_app in *; lra].
    apply IH; auto. intros z Hz Hz0. assert (In z (l1 ++ a :: l2)) by (apply Hs; [right; auto|auto]).
    apply in_app_iff in H. apply in_app_iff. destruct H as [H|[H|H]]; auto. subst. tauto.
Qed.
Lemma Sz_plus f g l : Sz (fun z => f z + g z) l = Sz f l + Sz g l. Proof. apply Rsum_plus. Qed.
Lemma Sz_scale c f l : Sz (fun z => c * f z) l = c * Sz f l.
Proof. unfold Sz. rewrite <- (map_map f (fun x => c * x)). apply Rsum_scale. Qed.
Lemma Sz_ext f g l : (forall z, In z l -> f z = g z) -> Sz f l = Sz g l.
Proof. intros H. unfold Sz. f_equal. apply map_ext_in. auto. Qed.
Lemma Sz_le f g l : (forall z, In z l -> f z <= g z) -> Sz f l <= Sz g l.
Proof. intros H. induction l; [unfold Sz; cbn; lra|]. rewrite !Sz_cons. assert (f a <= g a) by (apply H; left; auto). assert (Sz f l <= Sz g l) by (apply IHl; intros; apply H; right; auto). lra. Qed.
Lemma Sz_map f (g : Z -> Z) l : Sz f (map g l) = Sz (fun z => f (g z)) l.
Proof. unfold Sz. rewrite map_map. reflexivity. Qed.

(** Cauchy-Schwarz along a chain. *)
Lemma chain_sq (d : Z -> R) l : (Sz d l) * (Sz d l) <= INR (List.length l) * Sz (fun z => d z * d z) l.
Proof.
  induction l as [|a t IH]; [unfold Sz; cbn; lra|]. rewrite !Sz_cons. cbn [List.length]. rewrite S_INR.
  set (S1 := Sz d t) in *. set (S2 := Sz (fun z => d z * d z) t) in *. set (n := INR (List.length t)) in *.
  assert (0 <= n) by apply pos_INR. assert (0 <= S2) by (apply Sz_nonneg; intros; nra).
  assert (2 * d a * S1 <= n * (d a * d a) + S2); [|nra].
  destruct (Req_dec n 0) as [E|E].
  - assert (S1 = 0) by nra. rewrite H1, E. nra.
  - assert (0 < n) by lra. apply Rmult_le_reg_l with n; auto. pose proof (Rle_0_sqr (n * d a - S1)) as Q. unfold Rsqr in Q.
    replace (n * (2 * d a * S1)) with (2 * n * d a * S1) by ring. replace (n * (n * (d a * d a) + S2)) with (n * n * (d a * d a) + n * S2) by ring. lra.
Qed.
Definition chain (p j : Z) (T : nat) : list Z := map (fun t => p + Z.of_nat t * j)%Z (seq 0 T).
Lemma telescope (u : Z -> R) p j T : Sz (fun w => u (w + j)%Z - u w) (chain p j T) = u (p + Z.of_nat T * j)%Z - u p.
Proof.
  unfold chain. induction T as [|T IH].
  - unfold Sz. cbn. replace (p + 0)%Z with p by lia. lra.
  - rewrite seq_S, map_app, Sz_app, IH. cbn [map]. rewrite Sz_cons. unfold Sz at 1. cbn [map]. change (Rsum []) with 0.
    replace (p + Z.of_nat (S T) * j)%Z with (p + Z.of_nat (0 + T) * j + j)%Z by lia. replace (0 + T)%nat with T by lia. ring.
Qed.
Lemma chain_nodup p j T : j <> 0%Z -> NoDup (chain p j T).
Proof. intros H. unfold chain. apply Injective_map_NoDup; [|apply seq_NoDup]. intros a b E. nia. Qed.

(** ** Copies on a constant background *)
Section Copy.
Variables (u : Z -> R) (eps : R) (L k : Z).
Hypothesis U0 : forall z, 0 <= u z.
Hypothesis Us : forall z, (z < 0 \/ L - k <= z)%Z -> u z = 0.
Hypothesis E0 : 0 < eps.
Hypothesis K0 : (0 <= k <= L / 2)%Z.
Hypothesis L0 : (1 <= L)%Z.
Definition ind (z : Z) : R := if ((0 <=? z) && (z <? L))%Z then 1 else 0.
Definition idx : list Z := map Z.of_nat (seq 0 (Z.to_nat L)).
Definition corr (lag : Z) : R := Sz (fun n => (eps * ind (n + lag)%Z + u (n + lag)%Z) * (eps + u (n - k)%Z)) idx.
Lemma idx_in z : In z idx <-> (0 <= z < L)%Z.
Proof.
  unfold idx. rewrite in_map_iff. split.
  - intros (n & <- & H). apply in_seq in H. lia.
  - intros H. exists (Z.to_nat z). split; [lia|]. apply in_seq. lia.
Qed.
Lemma idx_nodup : NoDup idx.
Proof. apply Injective_map_NoDup; [|apply seq_NoDup]. intros a b; lia. Qed.
Lemma shift_nodup c : NoDup (map (fun z => z + c)%Z idx).
Proof. apply Injective_map_NoDup; [|apply idx_nodup]. intros a b; lia. Qed.
Lemma ind01 z : 0 <= ind z <= 1. Proof. unfold ind. destruct (_ && _); lra. Qed.
Lemma Sz_ones l : Sz (fun _ => 1) l = INR (List.length l).
Proof. unfold Sz. rewrite Rsum_map_const. ring. Qed.
Lemma Sz_ind_le (P : Z -> bool) l m : NoDup l -> (forall z, In z l -> P z = true -> In z m) ->
  Sz (fun z => if P z then 1 else 0) l <= INR (List.length m).
Proof.
  intros Hn H. rewrite <- Sz_ones. set (f := fun z => if P z then 1 else 0).
  assert (F0 : forall z, 0 <= f z) by (intros z; unfold f; destruct (P z); lra).
  apply Rle_trans with (Sz f m).
  - apply Sz_support; auto. intros z Hz Hp. apply H; auto. unfold f in Hp. destruct (P z); [reflexivity|lra].
  - apply Sz_le. intros z _. unfold f. destruct (P z); lra.
Qed.
Lemma count_le lag : (Z.abs lag <= L)%Z -> Sz (fun n => ind (n + lag)%Z) idx <= IZR (L - Z.abs lag).
Proof.
  intros H. unfold ind.
  eapply Rle_trans; [apply (Sz_ind_le (fun n => ((0 <=? n + lag) && (n + lag <? L))%Z) idx (map (fun t => Z.of_nat t + Z.max 0 (- lag))%Z (seq 0 (Z.to_nat (L - Z.abs lag))))); [apply idx_nodup|]|].
  - intros z Hz Hp. apply idx_in in Hz. apply andb_prop in Hp as [A B]. apply Z.leb_le in A. apply Z.ltb_lt in B.
    apply in_map_iff. exists (Z.to_nat (z - Z.max 0 (- lag))). split; [lia|]. apply in_seq. lia.
  - rewrite map_length, seq_length, INR_IZR_INZ. apply IZR_le. lia.
Qed.
Lemma count_at : Sz (fun n => ind (n + - k)%Z) idx = IZR (L - k).
Proof.
  apply Rle_antisym.
  - pose proof (count_le (- k) ltac:(lia)). replace (L - Z.abs (- k))%Z with (L - k)%Z in H by lia. exact H.
  - apply Rle_trans with (Sz (fun n => ind (n + - k)%Z) (map (fun t => Z.of_nat t + k)%Z (seq 0 (Z.to_nat (L - k))))).
    + rewrite (Sz_ext _ (fun _ => 1)).
      * rewrite Sz_ones, map_length, seq_length, INR_IZR_INZ. apply IZR_le. lia.
      * intros z Hz. apply in_map_iff in Hz as (t & <- & Ht). apply in_seq in Ht. unfold ind.
        destruct (Z.leb_spec 0 (Z.of_nat t + k + - k)); [|lia]. destruct (Z.ltb_spec (Z.of_nat t + k + - k) L); [|lia]. reflexivity.
    + apply Sz_support.
      * intros z. apply ind01.
      * apply Injective_map_NoDup; [|apply seq_NoDup]. intros a b; lia.
      * intros z Hz _. apply in_map_iff in Hz as (t & <- & Ht). apply in_seq in Ht. apply idx_in. lia.
Qed.
Lemma expand lag : corr lag = eps * eps * Sz (fun n => ind (n + lag)%Z) idx + eps * Sz (fun n => u (n + lag)%Z) idx +
  eps * Sz (fun n => ind (n + lag)%Z * u (n - k)%Z) idx + Sz (fun n => u (n + lag)%Z * u (n - k)%Z) idx.
Proof.
  unfold corr. rewrite <- !Sz_scale, <- !Sz_plus. apply Sz_ext. intros; ring.
Qed.
Definition U1 := Sz (fun n => u (n - k)%Z) idx.
Definition U2 := Sz (fun n => u (n - k)%Z * u (n - k)%Z) idx.
Lemma shifted_le (f : Z -> R) c : (forall z, 0 <= f z) -> (forall z, (z < 0 \/ L - k <= z)%Z -> f z = 0) ->
  Sz (fun n => f (n + c)%Z) idx <= Sz (fun n => f (n - k)%Z) idx.
Proof.
  intros F0 Fs. rewrite <- (Sz_map f (fun z => z + c)%Z), <- (Sz_map f (fun z => z - k)%Z).
  apply Sz_support; auto; [apply shift_nodup|]. intros z Hz Hne. apply in_map_iff. exists (z + k)%Z. split; [lia|]. apply idx_in.
  destruct (Z_lt_ge_dec z 0); [exfalso; apply Hne, Fs; lia|]. destruct (Z_lt_ge_dec z (L - k)); [|exfalso; apply Hne, Fs; lia]. lia.
Qed.
Lemma corr_at : corr (- k) = eps * eps * IZR (L - k) + 2 * eps * U1 + U2.
Proof.
  rewrite expand, count_at.
  replace (Sz (fun n => u (n + - k)%Z) idx) with U1 by reflexivity.
  replace (Sz (fun n => ind (n + - k)%Z * u (n - k)%Z) idx) with U1.
  - replace (Sz (fun n => u (n + - k)%Z * u (n - k)%Z) idx) with U2 by reflexivity. ring.
  - apply Sz_ext. intros z Hz. apply idx_in in Hz. unfold ind.
    destruct (Z.leb_spec 0 (z + - k)); [|rewrite Us by lia; ring].
    destruct (Z.ltb_spec (z + - k) L); [|lia]. cbn [andb]. ring.
Qed.
Lemma product_le lag : Sz (fun n => u (n + lag)%Z * u (n - k)%Z) idx <=
  U2 - / 2 * Sz (fun n => (u (n + lag)%Z - u (n - k)%Z) * (u (n + lag)%Z - u (n - k)%Z)) idx.
Proof.
  assert (A : Sz (fun n => u (n + lag)%Z * u (n + lag)%Z) idx <= U2).
  { apply (shifted_le (fun z => u z * u z)); [intros; nra|]. intros z Hz. rewrite Us by auto. ring. }
  assert (B : Sz (fun n => (u (n + lag)%Z - u (n - k)%Z) * (u (n + lag)%Z - u (n - k)%Z)) idx =
    Sz (fun n => u (n + lag)%Z * u (n + lag)%Z) idx + U2 + -2 * Sz (fun n => u (n + lag)%Z * u (n - k)%Z) idx).
  { unfold U2. rewrite <- Sz_scale, <- !Sz_plus. apply Sz_ext. intros; ring. }
  lra.
Qed.
Lemma corr_le lag : (Z.abs lag <= L)%Z ->
  corr lag <= corr (- k) + eps * eps * IZR (Z.abs (lag + k))
     - / 2 * Sz (fun n => (u (n + lag)%Z - u (n - k)%Z) * (u (n + lag)%Z - u (n - k)%Z)) idx.
Proof.
  intros H. rewrite corr_at, expand. pose proof (product_le lag). pose proof (count_le lag H).
  assert (A : Sz (fun n => u (n + lag)%Z) idx <= U1) by (apply shifted_le; auto).
  assert (B : Sz (fun n => ind (n + lag)%Z * u (n - k)%Z) idx <= U1).
  { apply Sz_le. intros z _. pose proof (ind01 (z + lag)). pose proof (U0 (z - k)). nra. }
  assert (C : IZR (L - Z.abs lag) <= IZR (L - k) + IZR (Z.abs (lag + k))) by (rewrite <- plus_IZR; apply IZR_le; lia).
  assert (0 < eps * eps) by nra.
  assert (eps * eps * Sz (fun n => ind (n + lag)%Z) idx <= eps * eps * IZR (L - k) + eps * eps * IZR (Z.abs (lag + k))) by nra.
  assert (eps * Sz (fun n => u (n + lag)%Z) idx <= eps * U1) by nra.
  assert (eps * Sz (fun n => ind (n + lag)%Z * u (n - k)%Z) idx <= eps * U1) by nra.
  lra.
Qed.
Lemma differs p lag m : 0 <= m -> u p * u p > 6 * (eps * eps + m) * IZR L -> (Z.abs lag < L)%Z -> lag <> (- k)%Z -> corr lag + m < corr (- k).
Proof.
  intros M0 Hp Hlag Hne. set (j := (lag + k)%Z). assert (J0 : j <> 0%Z) by (unfold j; lia).
  assert (E6 : 0 <= 6 * (eps * eps + m) * IZR L) by (apply Rmult_le_pos; [nra|apply IZR_le; lia]).
  assert (P0 : (0 <= p < L - k)%Z).
  { destruct (Z_lt_ge_dec p 0); [rewrite Us in Hp by lia; lra|]. destruct (Z_lt_ge_dec p (L - k)); [lia|rewrite Us in Hp by lia; lra]. }
  assert (CH : exists T : nat, (1 <= T)%nat /\ (Z.of_nat T * Z.abs j <= 3 * L)%Z /\ u (p + Z.of_nat T * j)%Z = 0 /\
     forall t, (t < T)%nat -> (0 <= p + Z.of_nat t * j < L - k)%Z).
  { assert (JB : (Z.abs j <= 2 * L)%Z) by (unfold j; lia).
    destruct (Z_lt_ge_dec j 0) as [N|N].
    - exists (Z.to_nat (p / (- j) + 1)). pose proof (Z.div_mod p (- j) ltac:(lia)). pose proof (Z.mod_pos_bound p (- j) ltac:(lia)).
      set (q := (p / - j)%Z) in *. assert (0 <= q)%Z by (apply Z.div_pos; lia).
      split; [lia|]. split; [nia|]. split; [apply Us; left; nia|]. intros t Ht. assert (Z.of_nat t <= q)%Z by lia. nia.
    - exists (Z.to_nat ((L - k - 1 - p) / j + 1)). pose proof (Z.div_mod (L - k - 1 - p) j ltac:(lia)). pose proof (Z.mod_pos_bound (L - k - 1 - p) j ltac:(lia)).
      set (q := ((L - k - 1 - p) / j)%Z) in *. assert (0 <= q)%Z by (apply Z.div_pos; lia).
      split; [lia|]. split; [nia|]. split; [apply Us; right; nia|]. intros t Ht. assert (Z.of_nat t <= q)%Z by lia. nia. }
  destruct CH as (T & T1 & TJ & UT & CT).
  set (d := fun w => u (w + j)%Z - u w).
  set (D := Sz (fun n => (u (n + lag)%Z - u (n - k)%Z) * (u (n + lag)%Z - u (n - k)%Z)) idx).
  assert (DC : Sz (fun w => d w * d w) (chain p j T) <= D).
  { assert (DE : D = Sz (fun n => (fun w => d w * d w) (n - k)%Z) idx).
    { apply Sz_ext. intros z _. unfold d, j. replace (z - k + (lag + k))%Z with (z + lag)%Z by lia. reflexivity. }
    rewrite DE, <- (Sz_map (fun w => d w * d w) (fun n => n - k)%Z). apply Sz_support; [intros; nra|apply chain_nodup; auto|].
    intros z Hz _. unfold chain in Hz. apply in_map_iff in Hz as (t & <- & Ht). apply in_seq in Ht. specialize (CT t ltac:(lia)).
    apply in_map_iff. exists (p + Z.of_nat t * j + k)%Z. split; [lia|]. apply idx_in. lia. }
  pose proof (chain_sq d (chain p j T)) as CS. rewrite (telescope u p j T : Sz d _ = _) in CS. rewrite UT in CS.
  unfold chain in CS at 1. rewrite map_length, seq_length in CS.
  pose proof (corr_le lag ltac:(lia)) as CL. fold D in CL. fold j in CL.
  assert (TP : 0 < INR T) by (apply lt_0_INR; lia).
  assert (TL : INR T * IZR (Z.abs j) <= 3 * IZR L) by (rewrite INR_IZR_INZ, <- !mult_IZR; apply IZR_le; lia).
  assert (PD : u p * u p <= INR T * D).
  { eapply Rle_trans; [|apply Rmult_le_compat_l; [lra|exact DC]]. lra. }
  assert (J1 : 1 <= IZR (Z.abs j)) by (apply (IZR_le 1); lia).
  assert ((eps * eps + m) * IZR (Z.abs j) < / 2 * D); [|nra].
  apply Rmult_lt_reg_l with (INR T); auto. assert (0 < eps * eps) by nra. nra.
Qed.
End Copy.

(** ** The search on such lists *)
Lemma correlation_Sz s1 s2 lag : correlation s1 s2 lag = Sz (fun z => at0 s1 (z + lag) * at0 s2 z) (map Z.of_nat (seq 0 (List.length s2))).
Proof. unfold correlation, Sz. rewrite map_map. reflexivity. Qed.
Lemma nats_nodup n c : NoDup (map (fun t => Z.of_nat t + c)%Z (seq 0 n)).
Proof. apply Injective_map_NoDup; [|apply seq_NoDup]. intros a b; lia. Qed.
Lemma correlation_sym s1 s2 lag : (forall z, 0 <= at0 s1 z) -> (forall z, 0 <= at0 s2 z) ->
  correlation s2 s1 (- lag) = correlation s1 s2 lag.
Proof.
  intros H1 H2. set (f := fun z => at0 s1 (z + lag)%Z * at0 s2 z).
  assert (A : correlation s1 s2 lag = Sz f (map (fun t => Z.of_nat t + 0)%Z (seq 0 (List.length s2)))).
  { rewrite correlation_Sz. f_equal. apply map_ext. intros; lia. }
  assert (B : correlation s2 s1 (- lag) = Sz f (map (fun t => Z.of_nat t + - lag)%Z (seq 0 (List.length s1)))).
  { rewrite correlation_Sz. unfold Sz. rewrite !map_map. f_equal. apply map_ext. intros a. unfold f.
    replace (Z.of_nat a + - lag + lag)%Z with (Z.of_nat a) by lia. apply Rmult_comm. }
  assert (F0 : forall z, 0 <= f z) by (intros z; unfold f; apply Rmult_le_pos; auto).
  rewrite A, B. apply Rle_antisym; (apply Sz_support; [auto|apply nats_nodup|]); intros z Hz Hne; apply in_map_iff in Hz as (t & <- & Ht); apply in_seq in Ht.
  - destruct (Z_lt_ge_dec (Z.of_nat t + - lag) 0) as [N|N]. { exfalso. apply Hne. unfold f. rewrite (at0_out s2) by lia. ring. }
    destruct (Z_lt_ge_dec (Z.of_nat t + - lag) (zlen s2)) as [N2|N2]. 2:{ exfalso. apply Hne. unfold f. rewrite (at0_out s2) by lia. ring. }
    unfold zlen in N2. apply in_map_iff. exists (Z.to_nat (Z.of_nat t + - lag)). split; [lia|]. apply in_seq. lia.
  - destruct (Z_lt_ge_dec (Z.of_nat t + 0 + lag) 0) as [N|N]. { exfalso. apply Hne. unfold f. rewrite (at0_out s1) by lia. ring. }
    destruct (Z_lt_ge_dec (Z.of_nat t + 0 + lag) (zlen s1)) as [N2|N2]. 2:{ exfalso. apply Hne. unfold f. rewrite (at0_out s1) by lia. ring. }
    unfold zlen in N2. apply in_map_iff. exists (Z.to_nat (Z.of_nat t + 0 + lag)). split; [lia|]. apply in_seq. lia.
Qed.

Lemma copy_margin (u : Z -> R) eps L k p m (e1 e2 : list R) :
  (forall z, 0 <= u z) -> (forall z, (z < 0 \/ L - k <= z)%Z -> u z = 0) -> 0 < eps -> (0 <= k <= L / 2)%Z ->
  (1 <= L)%Z -> 0 <= m -> u p * u p > 6 * (eps * eps + m) * IZR L ->
  zlen e1 = L -> zlen e2 = L ->
  (forall i, (i < List.length e1)%nat -> nth i e1 0 = eps + u (Z.of_nat i)) ->
  (forall i, (i < List.length e2)%nat -> nth i e2 0 = eps + u (Z.of_nat i - k)%Z) ->
  (forall lag, 0 <= correlation e1 e2 lag) /\ (forall lag, correlation e2 e1 (- lag) = correlation e1 e2 lag) /\
  (forall lag, (- (L - 1) <= lag <= L - 1)%Z -> lag <> (- k)%Z -> correlation e1 e2 lag + m < correlation e1 e2 (- k)).
Proof.
  intros U0 Us E0 K0 L0 M0 Hp L1 L2 V1 V2. unfold zlen in L1, L2.
  assert (A1 : forall z, at0 e1 z = eps * ind L z + u z).
  { intros z. unfold ind. destruct (Z.leb_spec 0 z); [|rewrite at0_out, Us by lia; cbn [andb]; ring].
    destruct (Z.ltb_spec z L); [|rewrite at0_out, Us by (unfold zlen; lia); cbn [andb]; ring]. cbn [andb].
    replace z with (Z.of_nat (Z.to_nat z)) by lia. rewrite at0_nat, V1 by lia. ring. }
  assert (A2 : forall z, (0 <= z < L)%Z -> at0 e2 z = eps + u (z - k)%Z).
  { intros z Hz. replace z with (Z.of_nat (Z.to_nat z)) by lia. rewrite at0_nat, V2 by lia. reflexivity. }
  assert (P1 : forall z, 0 <= at0 e1 z). { intros z. rewrite A1. pose proof (ind01 L z). pose proof (U0 z). nra. }
  assert (P2 : forall z, 0 <= at0 e2 z).
  { intros z. destruct (Z_lt_ge_dec z 0); [rewrite at0_out by lia; lra|]. destruct (Z_lt_ge_dec z L); [rewrite A2 by lia; pose proof (U0 (z - k)%Z); lra|].
    rewrite at0_out by (unfold zlen; lia). lra. }
  assert (C : forall lag, correlation e1 e2 lag = corr u eps L k lag).
  { intros lag. rewrite correlation_Sz. unfold corr, idx. replace (Z.to_nat L) with (List.length e2) by lia. apply Sz_ext.
    intros z Hz. apply in_map_iff in Hz as (t & <- & Ht). apply in_seq in Ht. rewrite A1, A2 by lia. reflexivity. }
  assert (C0 : forall lag, 0 <= correlation e1 e2 lag). { intros lag. rewrite correlation_Sz. apply Sz_nonneg. intros z. apply Rmult_le_pos; auto. }
  split; [exact C0|]. split; [intros lag; apply correlation_sym; auto|]. intros lag Hl Hne. rewrite !C.
  apply (differs u eps L k U0 Us E0 K0 L0 p); auto; lia.
Qed.
Lemma copy_lag pf (u : Z -> R) eps L k p (e1 e2 : list R) :
  (forall z, 0 <= u z) -> (forall z, (z < 0 \/ L - k <= z)%Z -> u z = 0) -> 0 < eps -> (0 <= k <= L / 2)%Z ->
  (9 <= L <= 2 ^ 62)%Z -> u p * u p > 6 * (eps * eps) * IZR L ->
  zlen e1 = L -> zlen e2 = L ->
  (forall i, (i < List.length e1)%nat -> nth i e1 0 = eps + u (Z.of_nat i)) ->
  (forall i, (i < List.length e2)%nat -> nth i e2 0 = eps + u (Z.of_nat i - k)%Z) ->
  calculate_best_lag (N:=RN) pf e1 e2 = Ok (Some (- k)%Z) /\ calculate_best_lag (N:=RN) pf e2 e1 = Ok (Some k).
Proof.
  intros U0 Us E0 K0 L0 Hp L1 L2 V1 V2.
  destruct (copy_margin u eps L k p 0 e1 e2) as (C0 & CS & CM); auto; [lia|lra|rewrite Rplus_0_r; auto|].
  assert (BEST : forall lag, (- (L - 1) <= lag <= L - 1)%Z -> correlation e1 e2 (- k) <= correlation e1 e2 lag -> lag = (- k)%Z).
  { intros lag Hl Hc. destruct (Z.eq_dec lag (- k)); auto. exfalso. specialize (CM lag Hl n). lra. }
  assert (LO : longest e1 e2 = L) by (unfold longest; lia). assert (LO' : longest e2 e1 = L) by (unfold longest; lia).
  split.
  - destruct (C13_all pf e1 e2) as (lag & E & Rg & M & _); [rewrite LO; lia|]. rewrite LO in *. rewrite E. do 2 f_equal.
    apply BEST; auto. specialize (M (- k)%Z ltac:(lia)). rewrite !Rabs_pos_eq in M by auto. exact M.
  - destruct (C13_all pf e2 e1) as (lag & E & Rg & M & _); [rewrite LO'; lia|]. rewrite LO' in *. rewrite E. do 2 f_equal.
    specialize (M k ltac:(lia)). replace k with (- - k)%Z in M by lia. replace lag with (- - lag)%Z in M by lia.
    rewrite !CS in M. rewrite !Rabs_pos_eq in M by auto.
    assert (- lag = - k)%Z by (apply BEST; [lia|exact M]). lia.
Qed.

(** ** Delayed signals *)
Definition eps6 : R := 1 / 1000000.
Definition hh (v : R) : R := Rabs (2 * v - eps6) - eps6.
Lemma hh0 : hh 0 = 0. Proof. unfold hh, eps6. rewrite Rabs_left; lra. Qed.
Lemma hh_pos v : v <= 0 \/ eps6 <= v -> 0 <= hh v.
Proof. unfold hh, eps6. intros [H|H]; [rewrite Rabs_left1|rewrite Rabs_pos_eq]; lra. Qed.
Lemma hh_ge v : 2 * Rabs v - 2 * eps6 <= hh v.
Proof. unfold hh, eps6. destruct (Rle_dec 0 v); [rewrite (Rabs_pos_eq v) by auto|rewrite (Rabs_left v) by lra]; unfold Rabs; destruct (Rcase_abs _); lra. Qed.
Lemma nth_back (y : list R) k i : nth i (repeat 0 k ++ y) 0 = at0 y (Z.of_nat i - Z.of_nat k).
Proof.
  destruct (Nat.lt_ge_cases i k) as [H|H].
  - rewrite app_nth1 by (rewrite repeat_length; auto). rewrite at0_out by lia. 
    assert (E : forall k m, nth m (repeat (0 : R) k) 0 = 0) by (clear; induction k; destruct m; cbn; auto). apply E.
  - rewrite app_nth2 by (rewrite repeat_length; auto). rewrite repeat_length. rewrite <- Nat2Z.inj_sub by auto. rewrite at0_nat. reflexivity.
Qed.
Lemma Rsum_zeros k : Rsum (repeat 0 k) = 0. Proof. rewrite Rsum_const. ring. Qed.

Lemma env_pointwise pf (x : list R) f : (1 <= zlen x <= 2 ^ 62)%Z -> next_pow_two pf (zlen x) = Ok f -> (forall i, deficit (Z.max f 32) (zlen x) * middle_bin (Z.max f 32) x i = 0) ->
  exists env, calculate_upper_env (N:=RN) pf x = Ok (Some env) /\ List.length env = List.length x /\
    forall i, (i < List.length x)%nat -> nth i env 0 = Rabs (2 * (nth i x 0 - mean_signal x) - 1 / 1000000) + mean_signal x.
Proof.
  intros HL HP HD. destruct (C15_all pf x HL) as (p & env & P & E & LE & V). assert (p = f) by congruence. subst p.
  exists env. split; auto. split; auto. cbv zeta in V. intros i Hi. rewrite V by auto. rewrite HD. unfold centred. rewrite Rminus_0_r. reflexivity.
Qed.
Definition no_middle (f L : Z) (y : list R) (k : nat) : Prop := forall i,
  deficit (Z.max f 32) L * middle_bin (Z.max f 32) (y ++ repeat 0 k) i = 0 /\
  deficit (Z.max f 32) L * middle_bin (Z.max f 32) (repeat 0 k ++ y) i = 0.
Lemma delay_lags pf (y : list R) (k : nat) L f v :
  (9 <= L <= 2 ^ 62)%Z -> next_pow_two pf L = Ok f -> no_middle f L y k ->
  (zlen y + Z.of_nat k = L)%Z -> (Z.of_nat k <= L / 2)%Z -> Rsum y = 0 ->
  Forall (fun x => x <= 0 \/ 1 / 1000000 <= x) y -> In v y -> 1 / 500000 * R_sqrt.sqrt (IZR (L)) <= Rabs v ->
  exists e1 e2, calculate_upper_env (N:=RN) pf (y ++ repeat 0 k) = Ok (Some e1) /\
    calculate_upper_env (N:=RN) pf (repeat 0 k ++ y) = Ok (Some e2) /\
    calculate_best_lag (N:=RN) pf e1 e2 = Ok (Some (- Z.of_nat k)%Z) /\
    calculate_best_lag (N:=RN) pf e2 e1 = Ok (Some (Z.of_nat k)).
Proof.
  intros Hm HF HD HL Hk Hs Hy Hv Hp. unfold zlen in HL.
  assert (ZL1 : zlen (y ++ repeat 0 k) = L) by (unfold zlen; rewrite app_length, repeat_length; lia).
  assert (ZL2 : zlen (repeat 0 k ++ y) = L) by (unfold zlen; rewrite app_length, repeat_length; lia).
  destruct (env_pointwise pf (y ++ repeat 0 k) f) as (e1 & X1 & L1 & V1); try (rewrite ZL1; auto; lia); [rewrite ZL1; intros i; apply (HD i)|].
  destruct (env_pointwise pf (repeat 0 k ++ y) f) as (e2 & X2 & L2 & V2); try (rewrite ZL2; auto; lia); [rewrite ZL2; intros i; apply (HD i)|].
  change (num RN) with R in *. exists e1, e2. split; auto. split; auto.
  assert (Z1 : mean_signal (y ++ repeat 0 k) = 0) by (unfold mean_signal; rewrite Rsum_app, Rsum_zeros, Hs; unfold Rdiv; ring).
  assert (Z2 : mean_signal (repeat 0 k ++ y) = 0) by (unfold mean_signal; rewrite Rsum_app, Rsum_zeros, Hs; unfold Rdiv; ring).
  rewrite Z1 in V1. rewrite Z2 in V2. rewrite app_length, repeat_length in L1, L2.
  assert (Hin : forall z, at0 y z = 0 \/ In (at0 y z) y).
  { intros z. destruct (Z_lt_ge_dec z 0); [left; apply at0_out; lia|]. destruct (Z_lt_ge_dec z (zlen y)) as [H|H]; [|left; apply at0_out; lia].
    right. unfold zlen in H. replace z with (Z.of_nat (Z.to_nat z)) by lia. rewrite at0_nat. apply nth_In. lia. }
  destruct (In_nth _ _ 0 Hv) as (p & Pp & Pv).
  apply (copy_lag pf (fun z => hh (at0 y z)) eps6 (L) (Z.of_nat k) (Z.of_nat p)); try lia.
  - intros z. apply hh_pos. destruct (Hin z) as [E|E]; [left; lra|]. rewrite Forall_forall in Hy. exact (Hy _ E).
  - intros z Hz. rewrite at0_out; [apply hh0|]. unfold zlen. lia.
  - unfold eps6. lra.
  - rewrite at0_nat, Pv. pose proof (hh_ge v) as G. set (s := R_sqrt.sqrt (IZR (L))) in *.
    assert (S2 : s * s = IZR (L)) by (apply sqrt_sqrt, IZR_le; lia).
    assert (S0 : 0 <= s) by apply sqrt_pos. assert (S5 : 3 <= s).
    { apply Rsqr_incr_0_var; auto. unfold Rsqr. rewrite S2. destruct Hm as [M9 _]. apply (IZR_le 9) in M9. lra. }
    rewrite <- S2. assert (3 * eps6 * s <= hh v) by (unfold eps6 in *; lra).
    assert (0 < eps6) by (unfold eps6; lra). assert (H3 : 3 * eps6 * s * (3 * eps6 * s) <= hh v * hh v) by (apply Rmult_le_compat; nra).
    assert (0 < eps6 * s) by nra. nra.
  - unfold zlen. lia.
  - unfold zlen. lia.
  - intros i Hi. rewrite V1 by (rewrite app_length, repeat_length; lia). rewrite nth_pad, at0_nat. unfold hh, eps6. rewrite Rminus_0_r. ring.
  - intros i Hi. rewrite V2 by (rewrite app_length, repeat_length; lia). rewrite nth_back. unfold hh, eps6. rewrite Rminus_0_r. ring.
Qed.

Lemma C55_delay_gen pf (y : list R) (k : nat) L f v rate :
  (9 <= L <= 2 ^ 62)%Z -> next_pow_two pf L = Ok f -> no_middle f L y k ->
  (zlen y + Z.of_nat k = L)%Z -> (1 <= Z.of_nat k <= L / 2)%Z -> Rsum y = 0 ->
  Forall (fun x => x <= 0 \/ 1 / 1000000 <= x) y -> In v y -> 1 / 500000 * R_sqrt.sqrt (IZR (L)) <= Rabs v ->
  let early := @Build_AudioSignal RN (y ++ repeat 0 k) rate in
  let late := @Build_AudioSignal RN (repeat 0 k ++ y) rate in
  globally_align pf early late = Ok (Some (@Build_AudioSignal RN y rate, - INR k / IZR rate)) /\
  globally_align pf late early = Ok (Some (@Build_AudioSignal RN (repeat 0 k ++ y ++ repeat 0 k) rate, INR k / IZR rate)).
Proof.
  intros Hm HF HD HL Hk Hs Hy Hv Hp early late.
  destruct (delay_lags pf y k L f v) as (e1 & e2 & A1 & A2 & B1 & B2); auto; [lia|].
  assert (S1 : sig_len early = L). { unfold sig_len, early, zlen. cbn [data_matrix]. rewrite app_length, repeat_length. unfold zlen in HL. change (num RN) with R. lia. }
  assert (S2 : sig_len late = L). { unfold sig_len, late, zlen. cbn [data_matrix]. rewrite app_length, repeat_length. unfold zlen in HL. change (num RN) with R. lia. }
  split; unfold globally_align.
  - change (data_matrix early) with (y ++ repeat 0 k). change (data_matrix late) with (repeat 0 k ++ y).
    rewrite A1. cbn [bind]. rewrite A2. cbn [bind]. rewrite B1. cbn [bind]. rewrite S1, S2.
    destruct (Z.eqb_spec (- Z.of_nat k) 0); [lia|]. destruct (Z.ltb_spec (L / 2) (Z.abs (- Z.of_nat k))); [lia|]. cbn [orb].
    destruct (Z.ltb_spec (- Z.of_nat k) 0); [|lia].
    assert (E : zslice (repeat 0 k ++ y) (Z.abs (- Z.of_nat k)) (L) = Ok y).
    { apply zslice_ok. unfold zlen in *. rewrite app_length, repeat_length. split; [lia|].
      replace (Z.to_nat (Z.abs (- Z.of_nat k))) with (List.length (repeat 0 k)) by (rewrite repeat_length; lia). rewrite skipn_app, skipn_all, Nat.sub_diag. cbn [skipn app].
      rewrite firstn_all2; auto. lia. }
    change (num RN) with R in *. rewrite E. cbn [bind]. do 3 f_equal. cbn [ndiv nofZ RN sample_rate late]. rewrite opp_IZR, <- INR_IZR_INZ. reflexivity.
  - change (data_matrix early) with (y ++ repeat 0 k). change (data_matrix late) with (repeat 0 k ++ y).
    rewrite A2. cbn [bind]. rewrite A1. cbn [bind]. rewrite B2. cbn [bind]. rewrite S1, S2.
    destruct (Z.eqb_spec (Z.of_nat k) 0); [lia|]. destruct (Z.ltb_spec (L / 2) (Z.abs (Z.of_nat k))); [lia|]. cbn [orb].
    destruct (Z.ltb_spec (Z.of_nat k) 0); [lia|]. cbn [bind]. rewrite Nat2Z.id. do 3 f_equal. cbn [ndiv nofZ RN sample_rate early]. rewrite <- INR_IZR_INZ. reflexivity.
Qed.

(** ** When the middle bin is empty *)
Lemma no_middle_deficit f L y k : deficit (Z.max f 32) L = 0 -> no_middle f L y k.
Proof. intros H i. rewrite H. split; ring. Qed.
Lemma cos_nPI n : cos (INR n * PI) = (-1) ^ n /\ sin (INR n * PI) = 0.
Proof.
  induction n as [|n [IC IS]]; [cbn [INR]; rewrite Rmult_0_l, cos_0, sin_0; auto|].
  rewrite S_INR. replace ((INR n + 1) * PI) with (INR n * PI + PI) by ring. rewrite neg_cos, neg_sin, IC, IS. cbn [pow]. split; ring.
Qed.
Lemma cos_diff f i a : (0 < f)%Z -> Z.even f = true -> cos (2 * PI * IZR (f / 2) * (INR i - INR a) / IZR f) = (-1) ^ i * (-1) ^ a.
Proof.
  intros Hf He. apply Z.even_spec in He as [q ->]. replace (2 * q / 2)%Z with q by (rewrite Z.mul_comm, Z.div_mul; lia).
  assert (IZR q <> 0) by (apply not_0_IZR; lia).
  replace (2 * PI * IZR q * (INR i - INR a) / IZR (2 * q)) with (INR i * PI - INR a * PI) by (rewrite mult_IZR; field; auto).
  rewrite cos_minus. destruct (cos_nPI i) as [-> ->]. destruct (cos_nPI a) as [-> ->]. ring.
Qed.
Lemma middle_alt f x i : (0 < f)%Z -> Z.even f = true -> mean_signal x = 0 -> middle_bin f x i = (-1) ^ i * alternating x / IZR f.
Proof.
  intros Hf He Hm. unfold middle_bin, alternating. f_equal. rewrite <- Rsum_scale, map_map. f_equal. apply map_ext. intros a.
  unfold centred. rewrite Hm, cos_diff by auto. ring.
Qed.
Lemma alternating_cons a l : alternating (a :: l) = a - alternating l.
Proof.
  unfold alternating. cbn [List.length seq map]. rewrite Rsum_cons. cbn [nth]. rewrite <- seq_shift, map_map.
  replace (Rsum (map _ (seq 0 (List.length l)))) with (-1 * Rsum (map (fun a0 => (-1) ^ a0 * nth a0 l 0) (seq 0 (List.length l)))).
  - cbn [pow]. ring.
  - rewrite <- Rsum_scale, map_map. f_equal. apply map_ext. intros b. cbn [pow nth]. ring.
Qed.
Lemma alternating_front k l : alternating l = 0 -> alternating (repeat 0 k ++ l) = 0.
Proof. intros H. induction k; cbn [repeat app]; auto. rewrite alternating_cons, IHk. ring. Qed.
Lemma alternating_back k l : alternating (l ++ repeat 0 k) = alternating l.
Proof.
  induction l as [|a t IH]; cbn [app].
  - rewrite <- (app_nil_r (repeat 0 k)). rewrite alternating_front; [|reflexivity]. reflexivity.
  - rewrite !alternating_cons, IH. reflexivity.
Qed.
Lemma no_middle_alt f L y k : Z.even (Z.max f 32) = true -> Rsum y = 0 -> alternating y = 0 -> no_middle f L y k.
Proof.
  intros He Hs Ha i.
  assert (Z1 : mean_signal (y ++ repeat 0 k) = 0) by (unfold mean_signal; rewrite Rsum_app, Rsum_zeros, Hs; unfold Rdiv; ring).
  assert (Z2 : mean_signal (repeat 0 k ++ y) = 0) by (unfold mean_signal; rewrite Rsum_app, Rsum_zeros, Hs; unfold Rdiv; ring).
  rewrite !middle_alt by (auto; lia). rewrite alternating_back, alternating_front, Ha by auto. unfold Rdiv. split; ring.
Qed.

(** An offset: half a constant, delayed by four samples. *)
Definition flat28 : list R := repeat (1 / 2) 28.
Lemma C55_offset pf rate : rate <> 0%Z ->
  let early := @Build_AudioSignal RN (flat28 ++ repeat 0 4) rate in
  let late := @Build_AudioSignal RN (repeat 0 4 ++ flat28) rate in
  exists al lag, globally_align pf early late = Ok (Some (al, lag)) /\ lag <> - INR 4 / IZR rate.
Proof.
  intros Hr early late.
  destruct (C15_pow2 pf (flat28 ++ repeat 0 4) 5) as (e1 & X1 & L1 & V1); [lia|reflexivity|].
  destruct (C15_pow2 pf (repeat 0 4 ++ flat28) 5) as (e2 & X2 & L2 & V2); [lia|reflexivity|].
  change (num RN) with R in *.
  assert (Z1 : mean_signal (flat28 ++ repeat 0 4) = 7 / 16).
  { unfold mean_signal. rewrite Rsum_app, Rsum_zeros. unfold flat28. rewrite Rsum_const, app_length, !repeat_length. change (28 + 4)%nat with 32%nat. rewrite !INR_IZR_INZ. change (Z.of_nat 32) with 32%Z. change (Z.of_nat 28) with 28%Z. lra. }
  assert (Z2 : mean_signal (repeat 0 4 ++ flat28) = 7 / 16).
  { unfold mean_signal. rewrite Rsum_app, Rsum_zeros. unfold flat28. rewrite Rsum_const, app_length, !repeat_length. change (4 + 28)%nat with 32%nat. rewrite !INR_IZR_INZ. change (Z.of_nat 32) with 32%Z. change (Z.of_nat 28) with 28%Z. lra. }
  rewrite Z1 in V1. rewrite Z2 in V2. change (List.length (flat28 ++ repeat 0 4)) with 32%nat in *. change (List.length (repeat 0 4 ++ flat28)) with 32%nat in *.
  set (a := Rabs (2 * (1 / 2 - 7 / 16) - 1 / 1000000) + 7 / 16) in *. set (b := Rabs (2 * (0 - 7 / 16) - 1 / 1000000) + 7 / 16) in *.
  assert (Ha : a = 9 / 16 - 1 / 1000000) by (unfold a; rewrite Rabs_pos_eq; lra).
  assert (Hb : b = 21 / 16 + 1 / 1000000) by (unfold b; rewrite Rabs_left; lra).
  assert (E1 : e1 = repeat a 28 ++ repeat b 4).
  { apply nth_ext with (d := 0) (d' := 0); [rewrite L1; reflexivity|]. intros i Hi. rewrite L1 in Hi. rewrite V1 by auto.
    do 32 (destruct i as [|i]; [reflexivity|]). lia. }
  assert (E2 : e2 = repeat b 4 ++ repeat a 28).
  { apply nth_ext with (d := 0) (d' := 0); [rewrite L2; reflexivity|]. intros i Hi. rewrite L2 in Hi. rewrite V2 by auto.
    do 32 (destruct i as [|i]; [reflexivity|]). lia. }
  destruct (C13_all pf e1 e2) as (lag & E & Rg & M & _); [rewrite E1, E2; cbn; lia|].
  assert (LO : longest e1 e2 = 32%Z) by (rewrite E1, E2; reflexivity). rewrite LO in *.
  assert (NE : lag <> (-4)%Z).
  { intros ->. specialize (M 0%Z ltac:(lia)). rewrite E1, E2 in M.
    assert (Q0 : correlation (repeat a 28 ++ repeat b 4) (repeat b 4 ++ repeat a 28) 0 = 8 * (a * b) + 24 * (a * a)).
    { clearbody a b. cbv - [Rplus Rmult IZR]. ring. }
    assert (Q4 : correlation (repeat a 28 ++ repeat b 4) (repeat b 4 ++ repeat a 28) (-4) = 28 * (a * a)).
    { clearbody a b. cbv - [Rplus Rmult IZR]. ring. }
    rewrite Q0, Q4, !Rabs_pos_eq in M by nra. nra. }
  assert (G : globally_align pf early late = if ((lag =? 0) || (16 <? Z.abs lag))%Z then Ok (Some (late, 0)) else
     do d <- (if lag <? 0 then zslice (repeat 0 4 ++ flat28) (Z.abs lag) 32 else Ok (repeat 0 (Z.to_nat lag) ++ repeat 0 4 ++ flat28));
     Ok (Some (@Build_AudioSignal RN d rate, IZR lag / IZR rate))).
  { unfold globally_align. change (data_matrix early) with (flat28 ++ repeat 0 4). change (data_matrix late) with (repeat 0 4 ++ flat28).
    rewrite X1. cbn [bind]. rewrite X2. cbn [bind]. rewrite E. reflexivity. }
  assert (N0 : IZR rate <> 0) by (apply not_0_IZR; auto).
  destruct ((lag =? 0) || (16 <? Z.abs lag))%Z eqn:B.
  - exists late, 0. split; auto. cbn [INR]. intros Q. apply (f_equal (fun x => x * IZR rate)) in Q. field_simplify in Q; [lra|auto].
  - apply orb_false_elim in B as [B1 B2]. apply Z.ltb_ge in B2.
    assert (D : exists d, (if lag <? 0 then zslice (repeat 0 4 ++ flat28) (Z.abs lag) 32 else Ok (repeat 0 (Z.to_nat lag) ++ repeat 0 4 ++ flat28)) = Ok d).
    { destruct (lag <? 0)%Z; [|eauto]. eexists. apply zslice_ok. split; [|reflexivity]. change (zlen (repeat 0 4 ++ flat28)) with 32%Z. lia. }
    destruct D as [d D]. exists (@Build_AudioSignal RN d rate), (IZR lag / IZR rate). split; [rewrite G; change (num RN) with R in *; rewrite D; reflexivity|].
    intros Q. apply (f_equal (fun x => x * IZR rate)) in Q. replace (IZR lag / IZR rate * IZR rate) with (IZR lag) in Q by (field; auto).
    replace (- INR 4 / IZR rate * IZR rate) with (IZR (-4)) in Q by (cbn [INR]; field; auto). apply eq_IZR in Q. auto.
Qed.
