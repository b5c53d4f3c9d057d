(** C13, C14: the correlation search. *)
From Coq Require Import Reals Lra Lia.
From Verif Require Import Base Num RNum M_Align Spec3 P_R P_Score P_Xcorr.
Open Scope R_scope.

(** C13: from nine samples on, the search returns a lag that maximises the
    magnitude of the linear cross-correlation.  The third clause says which
    of several maximisers it is: the first one carrying that (signed) value. *)
Theorem C13_best_lag : forall pf (s1 s2 : list R),
  (9 <= longest s1 s2 <= 2 ^ 62)%Z ->
  let L := longest s1 s2 in
  exists lag, calculate_best_lag (N:=RN) pf s1 s2 = Ok (Some lag) /\
    (- (L - 1) <= lag <= L - 1)%Z /\
    (forall k, (- (L - 1) <= k <= L - 1)%Z -> Rabs (correlation s1 s2 k) <= Rabs (correlation s1 s2 lag)) /\
    (forall k, (- (L - 1) <= k < lag)%Z -> correlation s1 s2 k <> correlation s1 s2 lag).
Proof. exact C13_all. Qed.
Print Assumptions C13_best_lag.

(** An echo delayed by two samples, in signals of nine samples: the search
    returns exactly that delay (and minus the delay with the signals swapped). *)
Definition echo : list R := [0; 0; 3; 0; 0; 0; 0; 0; 0].
Definition click : list R := [1; 0; 0; 0; 0; 0; 0; 0; 0].
Example C13_example : forall pf,
  (9 <= longest echo click <= 2 ^ 62)%Z /\
  calculate_best_lag (N:=RN) pf echo click = Ok (Some 2%Z) /\
  calculate_best_lag (N:=RN) pf click echo = Ok (Some (-2)%Z).
Proof.
  intros pf. assert (HL : (9 <= longest echo click <= 2 ^ 62)%Z) by (cbn; lia).
  assert (HL' : (9 <= longest click echo <= 2 ^ 62)%Z) by (cbn; lia). split; [auto|].
  assert (V : forall k, (-8 <= k <= 8)%Z -> correlation echo click k = if (k =? 2)%Z then 3 else 0).
  { intros k Hk.
    assert (k = -8 \/ k = -7 \/ k = -6 \/ k = -5 \/ k = -4 \/ k = -3 \/ k = -2 \/ k = -1 \/ k = 0 \/ k = 1 \/ k = 2
            \/ k = 3 \/ k = 4 \/ k = 5 \/ k = 6 \/ k = 7 \/ k = 8)%Z as C by lia.
    repeat destruct C as [-> |C]; try rewrite C; cbv - [Rplus Rmult IZR]; lra. }
  assert (V' : forall k, (-8 <= k <= 8)%Z -> correlation click echo k = if (k =? -2)%Z then 3 else 0).
  { intros k Hk.
    assert (k = -8 \/ k = -7 \/ k = -6 \/ k = -5 \/ k = -4 \/ k = -3 \/ k = -2 \/ k = -1 \/ k = 0 \/ k = 1 \/ k = 2
            \/ k = 3 \/ k = 4 \/ k = 5 \/ k = 6 \/ k = 7 \/ k = 8)%Z as C by lia.
    repeat destruct C as [-> |C]; try rewrite C; cbv - [Rplus Rmult IZR]; lra. }
  split.
  - destruct (C13_best_lag pf echo click HL) as (l & E & R & M & _). rewrite E. do 2 f_equal.
    change (longest echo click) with 9%Z in *. specialize (M 2%Z ltac:(lia)). rewrite !V in M by lia.
    cbn [Z.eqb Pos.eqb] in M. destruct (Z.eqb_spec l 2); auto. rewrite Rabs_R0, Rabs_pos_eq in M; lra.
  - destruct (C13_best_lag pf click echo HL') as (l & E & R & M & _). rewrite E. do 2 f_equal.
    change (longest click echo) with 9%Z in *. specialize (M (-2)%Z ltac:(lia)). rewrite !V' in M by lia.
    cbn [Z.eqb Pos.eqb] in M. destruct (Z.eqb_spec l (-2)); auto. rewrite Rabs_R0, Rabs_pos_eq in M; lra.
Qed.

(** C14: up to eight samples the negative lags are lost.  The search maximises
    over the non-negative lags only; if all of those correlations vanish it
    answers with the most negative lag whatever the signals are. *)
Theorem C14_short_signals : forall pf (s1 s2 : list R),
  (1 <= longest s1 s2 <= 8)%Z ->
  let L := longest s1 s2 in
  exists lag, calculate_best_lag (N:=RN) pf s1 s2 = Ok (Some lag) /\
    ((forall k, (0 <= k <= L - 1)%Z -> correlation s1 s2 k = 0) /\ lag = (- (L - 1))%Z \/
     (0 <= lag <= L - 1)%Z /\ correlation s1 s2 lag <> 0 /\
     forall k, (0 <= k <= L - 1)%Z -> Rabs (correlation s1 s2 k) <= Rabs (correlation s1 s2 lag)).
Proof. exact C14_all. Qed.
Print Assumptions C14_short_signals.

(** So C13 fails without its length hypothesis: the returned lag is not a maximiser. *)
Theorem C14_best_lag_refuted : exists s1 s2 : list R, longest s1 s2 = 2%Z /\
  forall pf lag, calculate_best_lag (N:=RN) pf s1 s2 = Ok (Some lag) ->
  Rabs (correlation s1 s2 lag) < Rabs (correlation s1 s2 (-1)).
Proof. exact C14_witness. Qed.
Print Assumptions C14_best_lag_refuted.
