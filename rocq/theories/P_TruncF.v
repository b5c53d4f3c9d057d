(** Alignment and truncation of recordings of equal length. *)
From Coq Require Import Reals Lra Lia List ZArith.
From Flocq Require Import Core IEEE754.BinarySingleNaN.
From Verif Require Import Base Num F64 RNum M_Audio M_Align Spec3 Spec15 Spec16 P_F64 P_Base P_Slice P_Win P_XcorrF P_AlignF.
Import ListNotations.
Open Scope R_scope.

Section Gen.
Context (N : NumOps).
Open Scope Z_scope.
Lemma skip_rep {A} (a : A) c k l : (c <= k)%nat -> skipn c (repeat a k ++ l) = repeat a (k - c) ++ l.
Proof. intros H. rewrite skipn_app, repeat_length. replace (c - k)%nat with 0%nat by lia. cbn [skipn]. f_equal. replace k with (c + (k - c))%nat at 1 by lia. rewrite repeat_app, skipn_app, skipn_all2 by (rewrite repeat_length; lia). rewrite repeat_length, Nat.sub_diag. reflexivity. Qed.

Lemma truncate_outcome pf (rs ds : AudioSignal N) k c lag :
  sample_rate rs = sample_rate ds -> zlen (data_matrix rs) = zlen (data_matrix ds) -> followed (zlen (data_matrix rs)) k = true ->
  globally_align pf rs ds = Ok (Some ({| data_matrix := moved (nofZ N 0) k (data_matrix ds); sample_rate := sample_rate ds |}, lag)) ->
  (0 < k -> as_usize (nmul N lag (nofZ N (sample_rate ds))) = c /\ 0 <= c <= k) ->
  align_and_truncate pf rs ds = Ok (Some (
    {| data_matrix := if 0 <? k then skipn (Z.to_nat c) (data_matrix rs) else overlap1 k (data_matrix rs); sample_rate := sample_rate rs |},
    {| data_matrix := if 0 <? k then repeat (nofZ N 0) (Z.to_nat (k - c)) ++ overlap2 k (data_matrix ds) else overlap2 k (data_matrix ds); sample_rate := sample_rate ds |}, lag)).
Proof.
  intros RR LL F G C. unfold align_and_truncate. rewrite G. cbn [bind data_matrix sample_rate]. set (l1 := data_matrix rs) in *. set (l2 := data_matrix ds) in *.
  unfold sig_len. fold l1. set (n := zlen l1) in *. unfold followed in F. apply andb_prop in F. destruct F as [F1 F2]. apply Bool.negb_true_iff, Z.eqb_neq in F1. apply Z.leb_le in F2.
  assert (N0 : 0 <= n) by (unfold n, zlen; lia). assert (H2 : n / 2 <= n) by (apply Z.div_le_upper_bound; lia).
  unfold moved. destruct (Z.ltb_spec k 0) as [D|D].
  - destruct (Z.ltb_spec 0 k); [lia|].
    assert (ZL : zlen (skipn (Z.to_nat (- k)) l2) = n + k) by (unfold zlen in *; rewrite skipn_length; lia).
    rewrite ZL. destruct (Z.ltb_spec n (n + k)); [lia|]. destruct (Z.ltb_spec (n + k) n); [|lia].
    rewrite zslice_in by (fold n; lia). cbn [bind fst snd].
    assert (O1 : firstn (Z.to_nat (n + k - 0)) (skipn (Z.to_nat 0) l1) = overlap1 k l1).
    { unfold overlap1. fold n. replace (Z.to_nat k) with 0%nat by lia. replace (n - Z.abs k) with (n + k - 0) by lia. reflexivity. }
    assert (O2 : skipn (Z.to_nat (- k)) l2 = overlap2 k l2).
    { unfold overlap2. rewrite <- LL. symmetry. apply firstn_all2. unfold zlen in ZL. lia. }
    rewrite O1, O2. reflexivity.
  - destruct (Z.ltb_spec 0 k) as [K|K]; [|lia]. destruct (C K) as [CU CB].
    assert (ZL : zlen (repeat (nofZ N 0) (Z.to_nat k) ++ l2) = n + k) by (unfold zlen in *; rewrite app_length, repeat_length; lia).
    rewrite ZL. destruct (Z.ltb_spec n (n + k)); [|lia]. rewrite RR, CU.
    assert (SL : forall A (l : list A), n <= zlen l -> zslice l c n = Ok (firstn (Z.to_nat (n - c)) (skipn (Z.to_nat c) l))) by (intros; apply zslice_in; lia).
    rewrite SL by (fold n; lia). cbn [bind]. rewrite SL by lia. cbn [bind fst snd].
    assert (O1 : firstn (Z.to_nat (n - c)) (skipn (Z.to_nat c) l1) = skipn (Z.to_nat c) l1) by (apply firstn_all2; rewrite skipn_length; unfold n, zlen; lia).
    assert (O2 : firstn (Z.to_nat (n - c)) (skipn (Z.to_nat c) (repeat (nofZ N 0) (Z.to_nat k) ++ l2)) = repeat (nofZ N 0) (Z.to_nat (k - c)) ++ overlap2 k l2).
    { rewrite skip_rep by lia. rewrite firstn_app, repeat_length. rewrite firstn_all2 by (rewrite repeat_length; lia). f_equal; [f_equal; lia|].
      unfold overlap2. rewrite <- LL. replace (Z.to_nat (- k)) with 0%nat by lia. cbn [skipn]. f_equal. lia. }
    rewrite O1, O2. reflexivity.
Qed.
Lemma keep_outcome pf (rs ds : AudioSignal N) lag : zlen (data_matrix rs) = zlen (data_matrix ds) ->
  globally_align pf rs ds = Ok (Some (ds, lag)) ->
  align_and_truncate pf rs ds = Ok (Some (rs, ds, lag)).
Proof.
  intros LL G. unfold align_and_truncate. rewrite G. cbn [bind]. rewrite LL, Z.ltb_irrefl. cbn [bind fst snd]. destruct rs, ds. reflexivity.
Qed.
End Gen.

Lemma truncate_R pf (rs ds : AudioSignal RN) p :
  let x1 : list R := data_matrix rs in let x2 : list R := data_matrix ds in let n := zlen x1 in
  sample_rate rs = sample_rate ds -> (1 <= sample_rate ds)%Z -> zlen x2 = n -> (9 <= n <= 2 ^ 62)%Z -> next_pow_two pf n = Ok p ->
  let E1 := envelope (Z.max p 32) x1 in let E2 := envelope (Z.max p 32) x2 in
  exists lag, (- (n - 1) <= lag <= n - 1)%Z /\
    (forall k, (- (n - 1) <= k <= n - 1)%Z -> Rabs (correlation E1 E2 k) <= Rabs (correlation E1 E2 lag)) /\
    align_and_truncate pf rs ds = Ok (Some (if followed n lag
      then (@Build_AudioSignal RN (overlap1 lag x1) (sample_rate rs), @Build_AudioSignal RN (overlap2 lag x2) (sample_rate ds), IZR lag / IZR (sample_rate ds))
      else (rs, ds, 0))).
Proof.
  intros x1 x2 n RR R1 LL HN HP E1 E2.
  destruct (align_R pf rs ds p p) as (lag & B & M & _ & G); fold x1 x2 n; rewrite ?LL; auto; try lia.
  fold x1 x2 n in B, M, G. rewrite LL, Z.max_id in B, M. exists lag. split; [exact B|]. split; [exact M|].
  destruct (followed n lag) eqn:F.
  - assert (RN0 : IZR (sample_rate ds) <> 0) by (apply not_0_IZR; lia).
    assert (FB := F). unfold followed in FB. apply andb_prop in FB. destruct FB as [_ FB]. apply Z.leb_le in FB.
    assert (n / 2 <= n)%Z by (apply Z.div_le_upper_bound; lia).
    pose proof (truncate_outcome RN pf rs ds lag lag (IZR lag / IZR (sample_rate ds)) RR) as T. fold x1 x2 n in T.
    specialize (T (eq_sym LL) F G). rewrite T.
    + do 2 f_equal. destruct (Z.ltb_spec 0 lag) as [K|K]; [|reflexivity]. rewrite Z.sub_diag. cbn [repeat Z.to_nat app].
      assert (O : skipn (Z.to_nat lag) x1 = overlap1 lag x1). { unfold overlap1. symmetry. apply firstn_all2. rewrite skipn_length. unfold n, zlen in *. lia. }
      change (num RN) with R in *. rewrite <- O. reflexivity.
    + intros K. split; [|lia]. cbn [nmul nofZ RN]. replace (IZR lag / IZR (sample_rate ds) * IZR (sample_rate ds)) with (IZR lag) by (field; exact RN0).
      apply usize_int. lia.
  - apply keep_outcome; [symmetry; exact LL|exact G].
Qed.

Lemma truncate_F pf lm (rs ds : AudioSignal (F64 lm)) p : fft_close lm -> log2_close lm -> hypot_close lm ->
  let x1 : list f64 := data_matrix rs in let x2 : list f64 := data_matrix ds in let n := zlen x1 in
  Forall (fun v => is_finite v = true /\ Rabs (B2R v) <= 1) x1 -> Forall (fun v => is_finite v = true /\ Rabs (B2R v) <= 1) x2 ->
  sample_rate rs = sample_rate ds -> (1 <= sample_rate ds <= 2 ^ 32)%Z -> zlen x2 = n -> (9 <= n <= 2 ^ 20)%Z -> next_pow_two pf n = Ok p ->
  let E1 := envelope (Z.max p 32) (values x1) in let E2 := envelope (Z.max p 32) (values x2) in
  exists lag early, (- (n - 1) <= lag <= n - 1)%Z /\ (early = 0 \/ early = 1 /\ 0 < lag)%Z /\
    (forall k, (- (n - 1) <= k <= n - 1)%Z -> Rabs (correlation E1 E2 k) <= Rabs (correlation E1 E2 lag) + bpow radix2 (-29) * (IZR n * IZR n)) /\
    align_and_truncate pf rs ds = Ok (Some (if followed n lag
      then (@Build_AudioSignal (F64 lm) (firstn (Z.to_nat early) (skipn (Z.to_nat (lag - early)) x1) ++ overlap1 lag x1) (sample_rate rs),
            @Build_AudioSignal (F64 lm) (repeat (f64_ofZ 0) (Z.to_nat early) ++ overlap2 lag x2) (sample_rate ds),
            Bdiv mode_NE (f64_ofZ lag) (f64_ofZ (sample_rate ds)))
      else (rs, ds, f64_ofZ 0))).
Proof.
  intros FC LC HC x1 x2 n H1 H2 RR R1 LL HN HP E1 E2.
  assert (n / 2 <= n)%Z by (apply Z.div_le_upper_bound; lia).
  destruct (align_F pf lm rs ds p p FC LC HC) as (lag & B & M & G); fold x1 x2 n; rewrite ?LL; auto; try lia.
  fold x1 x2 n in B, M, G. rewrite LL, Z.max_id in B, M.
  destruct (followed n lag) eqn:F.
  - assert (FB := F). unfold followed in FB. apply andb_prop in FB. destruct FB as [_ FB]. apply Z.leb_le in FB.
    set (t := Bdiv mode_NE (f64_ofZ lag) (f64_ofZ (sample_rate ds))) in *.
    pose proof (truncate_outcome (F64 lm) pf rs ds lag (as_usize (nmul (F64 lm) t (nofZ (F64 lm) (sample_rate ds)))) t RR) as T. fold x1 x2 n in T.
    specialize (T (eq_sym LL) F G). set (c := as_usize (nmul (F64 lm) t (nofZ (F64 lm) (sample_rate ds)))) in *.
    assert (CB : (0 < lag -> c = lag \/ c = lag - 1)%Z).
    { intros K. destruct (lag_trunc lag (sample_rate ds)) as [Q|[Q _]]; [lia|lia|left; exact Q|right; exact Q]. }
    exists lag, (if (0 <? lag)%Z then lag - c else 0)%Z. split; [exact B|]. split; [destruct (Z.ltb_spec 0 lag); lia|]. split; [exact M|].
    rewrite F, T by (intros K; split; [reflexivity|lia]). do 2 f_equal. destruct (Z.ltb_spec 0 lag) as [K|K].
    + replace (lag - (lag - c))%Z with c by lia.
      assert (O : skipn (Z.to_nat c) x1 = firstn (Z.to_nat (lag - c)) (skipn (Z.to_nat c) x1) ++ overlap1 lag x1).
      { rewrite <- (firstn_skipn (Z.to_nat (lag - c)) (skipn (Z.to_nat c) x1)) at 1. f_equal.
        assert (SS : forall (l : list f64) a b, skipn a (skipn b l) = skipn (b + a) l) by (induction l; intros; [rewrite !skipn_nil; reflexivity|destruct b; [reflexivity|apply IHl]]).
        rewrite SS. unfold overlap1. replace (Z.to_nat c + Z.to_nat (lag - c))%nat with (Z.to_nat lag) by lia. symmetry. apply firstn_all2. rewrite skipn_length. unfold n, zlen in *. lia. }
      change (num (F64 lm)) with f64 in *. rewrite <- O. reflexivity.
    + reflexivity.
  - exists lag, 0%Z. split; [exact B|]. split; [left; reflexivity|]. split; [exact M|]. rewrite F. apply keep_outcome; [symmetry; exact LL|exact G].
Qed.
