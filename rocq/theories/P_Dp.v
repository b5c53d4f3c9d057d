(** C25, C26: the search for the best degraded patches. *)
From Coq Require Import Reals Lra.
From Verif Require Import Base Num Mat M_Audio M_Align M_Spectro M_Patch M_Nsim M_Selector.
From Verif Require Import P_Base P_Mat P_Manager P_Patch Spec Spec2 P_Conv P_Nsim.
Open Scope Z_scope.

(** What the search needs to know about the order and the addition. *)
Record dp_order (N : NumOps) (val : num N -> R) (good psim : num N -> Prop) : Prop := {
  do_lt : forall x y, good x -> good y -> (nltb N x y = true <-> (val x < val y)%R);
  do_zero : good (nofZ N 0); do_val0 : val (nofZ N 0) = 0%R;
  do_min : good (nmin_value N); do_valmin : (val (nmin_value N) < 0)%R;
  do_psim : forall x, psim x -> good x /\ (0 < val x)%R;
  do_add : forall s x, psim s -> good x -> (0 < val x)%R -> good (nadd N s x) /\ (0 < val (nadd N s x))%R;
  do_mono : forall s x y, psim s -> good x -> good y -> (0 < val x)%R -> (val x <= val y)%R -> (val (nadd N s x) <= val (nadd N s y))%R;
  do_addmin : forall s, psim s -> good (nadd N s (nmin_value N)) /\ (val (nadd N s (nmin_value N)) <= 0)%R
}.

Lemma last_def (x : Z) t d d' : last (x :: t) d = last (x :: t) d'.
Proof. revert x. induction t as [|y t IH]; intros x; auto. apply (IH y). Qed.
Lemma last_cons (x : Z) t d : last (x :: t) d = last t x.
Proof. destruct t as [|y t]; auto. change (last (y :: t) d = last (y :: t) x). apply last_def. Qed.
Lemma last_nth (l : list Z) : last l 0 = nth (List.length l - 1) l 0.
Proof. induction l as [|a t IH]; auto. destruct t as [|b t]; auto. change (last (a :: b :: t) 0) with (last (b :: t) 0). rewrite IH. cbn [List.length]. replace (S (S (List.length t)) - 1)%nat with (S (S (List.length t) - 1)) by lia. reflexivity. Qed.
Lemma map_const_repeat {A B} (x : B) (l : list A) : map (fun _ => x) l = repeat x (List.length l).
Proof. induction l; cbn; f_equal; auto. Qed.
Lemma nth_upd_eq {A} (l : list A) i x d : (i < List.length l)%nat -> nth i (upd l i x) d = x.
Proof. intros H. apply nth_error_nth. apply nth_error_upd_eq. auto. Qed.
Lemma nth_upd_ne {A} (l : list A) i j x d : i <> j -> nth j (upd l i x) d = nth j l d.
Proof.
  revert i j; induction l; intros [|i] [|j]; cbn; intros; auto; try lia.
Qed.
Lemma nth_repeat_lt {A} (x : A) n i d : (i < n)%nat -> nth i (repeat x n) d = x.
Proof. intros. apply nth_error_nth. apply repeat_nth_error. auto. Qed.

Section PatchAt.
Context {N : NumOps}.
Lemma patch_at_wf (deg : mat N) s w : mat_wf (patch_at deg s w).
Proof. apply mbuild_wf. Qed.
Lemma build_ok (deg : mat N) s w : 0 <= s <= Z.of_nat (mcols deg) -> build_degraded_patch deg s (s + Z.of_nat w) = Ok (patch_at deg s w).
Proof.
  intros Hs. unfold build_degraded_patch, patch_at.
  rewrite (proj2 (mslice_ok deg s (Z.min (s + Z.of_nat w) (Z.of_nat (mcols deg))) _)) by (split; [lia|]; split; [lia|reflexivity]). cbn [bind].
  destruct (Z.ltb_spec (Z.of_nat (mcols deg)) (s + Z.of_nat w)).
  - cbn [mcols mbuild]. f_equal.
    replace (Z.to_nat (Z.min (s + Z.of_nat w) (Z.of_nat (mcols deg)) - s) + Z.to_nat (s + Z.of_nat w - Z.of_nat (mcols deg)))%nat with w by lia.
    apply mbuild_ext. intros i j Hi Hj.
    destruct (Nat.ltb_spec j (Z.to_nat (Z.min (s + Z.of_nat w) (Z.of_nat (mcols deg)) - s))), (Nat.ltb_spec (Z.to_nat s + j) (mcols deg)); try lia; auto.
    rewrite mget_mbuild by auto. auto.
  - f_equal. replace (Z.to_nat (Z.min (s + Z.of_nat w) (Z.of_nat (mcols deg)) - s)) with w by lia.
    apply mbuild_ext. intros i j Hi Hj. destruct (Nat.ltb_spec (Z.to_nat s + j) (mcols deg)); auto. lia.
Qed.


Lemma meas_ok (refs : list (mat N)) (deg : mat N) fp : (1 <= fp)%nat -> (1 <= mrows deg)%nat ->
  (forall rp, In rp refs -> mat_wf rp /\ mrows rp = mrows deg /\ mcols rp = fp) ->
  forall rp s, In rp refs -> exists p, measure_patch_similarity rp (patch_at deg s fp) = Ok p.
Proof.
  intros Hfp Hrows Hrefs rp s Hi. destruct (Hrefs rp Hi) as (Wf & R1 & C1).
  destruct (measure_ok rp (patch_at deg s fp) Wf (patch_at_wf _ _ _)) as (a & b & d & _ & _ & _ & _ & E); cbn [patch_at mbuild mrows mcols]; try lia.
  eauto.
Qed.
End PatchAt.

Section Dp.
Context {N : NumOps}.
Notation T := (num N).
Variable val : T -> R.
Variable good psim : T -> Prop.
Hypothesis OD : dp_order N val good psim.
Definition pos (x : T) : Prop := good x /\ (0 < val x)%R.

Lemma lt_false x y : good x -> good y -> (nltb N x y = false <-> (val y <= val x)%R).
Proof.
  intros Gx Gy. pose proof (do_lt _ _ _ _ OD x y Gx Gy) as H. destruct (nltb N x y).
  - split; [discriminate|]. intros. assert (val x < val y)%R by tauto. lra.
  - split; auto. intros _. destruct (Rle_or_lt (val y) (val x)); auto. assert (false = true) by tauto. discriminate.
Qed.

(** Scan for the first largest cell. *)
Definition scan (cell : Z -> T) (st : T * Z) (b : Z) : T * Z :=
  let '(best, off) := st in if nltb N best (cell b) then (cell b, b) else (best, off).
Lemma scan_spec cell l : forall v o, good v -> (forall b, In b l -> good (cell b)) ->
  let '(v', o') := fold_left (scan cell) l (v, o) in
  good v' /\ (val v <= val v')%R /\ (forall b, In b l -> (val (cell b) <= val v')%R) /\
  ((v' = v /\ o' = o) \/ (In o' l /\ v' = cell o' /\ (val v < val v')%R)).
Proof.
  induction l as [|b t IH]; intros v o Gv Gc; cbn [fold_left].
  { repeat split; auto; try lra. intros b []. }
  unfold scan at 2. assert (Gb : good (cell b)) by (apply Gc; left; auto).
  destruct (nltb N v (cell b)) eqn:E.
  - apply (do_lt _ _ _ _ OD) in E; auto. specialize (IH (cell b) b Gb ltac:(intros; apply Gc; right; auto)).
    destruct (fold_left (scan cell) t (cell b, b)) as [v' o']. destruct IH as (A & B & C & D).
    split; auto. split; [lra|]. split; [intros x [<-|Hx]; auto|].
    right. destruct D as [[-> ->]|(D1 & D2 & D3)]; [split; [left; auto|split; auto]|split; [right; auto|split; auto; lra]].
  - apply lt_false in E; auto. specialize (IH v o Gv ltac:(intros; apply Gc; right; auto)).
    destruct (fold_left (scan cell) t (v, o)) as [v' o']. destruct IH as (A & B & C & D).
    split; auto. split; auto. split; [intros x [<-|Hx]; [lra|auto]|].
    destruct D as [D|(D1 & D2 & D3)]; auto. right. split; [right; auto|]. auto.
Qed.
Lemma scan_fold (row : list T) (cell : Z -> T) l : (forall b, In b l -> zget row b = Ok (cell b)) -> forall st,
  foldM (fun (st : T * Z) b => let '(best, off) := st in do v <- zget row b; Ok (if nltb N best v then (v, b) else (best, off))) st l
  = Ok (fold_left (scan cell) l st).
Proof.
  induction l as [|b t IH]; intros H [v o]; cbn [foldM fold_left]; auto.
  rewrite H by (left; auto). cbn [bind]. rewrite IH by (intros; apply H; right; auto). reflexivity.
Qed.

(** ** The problem *)
Variable sim : nat -> Z -> T.
Variable idx : list Z.
Variable sw c : Z.
Variable P : nat.
Notation r k := (nth k idx 0).
Notation W k s := (in_window sw c (r k) s).
Definition lo k := Z.max 0 (r k - sw).
Definition hi k := Z.min (r k + sw) (c - 1).
Hypothesis Hsw : 0 <= sw.
Hypothesis Hr0 : forall k, (k < P)%nat -> 0 <= r k.
Hypothesis Hsorted : forall k, (S k < P)%nat -> r k <= r (S k).
Hypothesis Hne : forall k, (k < P)%nat -> lo k < c.
Hypothesis Hsim : forall k s, (k < P)%nat -> W k s -> psim (sim k s).

Lemma W_iff k s : (k < P)%nat -> W k s <-> lo k <= s <= hi k.
Proof. intros. unfold in_window, lo, hi. specialize (Hr0 k H). lia. Qed.

Lemma total_from_snoc k prev acc l o : total_from sim k prev acc (l ++ [o]) =
  let a := total_from sim k prev acc l in
  if o =? last l prev then a else nadd N (sim (k + List.length l)%nat o) a.
Proof.
  revert k prev acc. induction l as [|x t IH]; intros k prev acc; cbn [app total_from].
  - cbn [last List.length]. rewrite Nat.add_0_r. reflexivity.
  - rewrite IH. cbv zeta. replace (S k + List.length t)%nat with (k + List.length (x :: t))%nat by (cbn; lia).
    rewrite last_cons. reflexivity.
Qed.
Lemma total_snoc l o : l <> [] -> total sim (l ++ [o]) =
  if o =? last l 0 then total sim l else nadd N (sim (List.length l) o) (total sim l).
Proof.
  destruct l as [|x t]; [tauto|]. intros _. cbn [app total]. rewrite total_from_snoc. cbv zeta.
  rewrite last_cons. reflexivity.
Qed.
Lemma adm_snoc n l o : (1 <= n)%nat -> (admissible sw c idx (S n) (l ++ [o]) <-> admissible sw c idx n l /\ W n o /\ last l 0 <= o).
Proof.
  intros Hn. unfold admissible. rewrite app_length, last_nth. cbn [List.length]. split.
  - intros (L & A & B). assert (List.length l = n) by lia. split; [split; [auto|split]|split].
    + intros k Hk. specialize (A k ltac:(lia)). rewrite app_nth1 in A by lia. auto.
    + intros k Hk. specialize (B k ltac:(lia)). rewrite !app_nth1 in B by lia. auto.
    + specialize (A n ltac:(lia)). rewrite app_nth2, H, Nat.sub_diag in A by lia. auto.
    + specialize (B (n - 1)%nat ltac:(lia)). rewrite app_nth1 in B by lia. rewrite app_nth2 in B by lia.
      replace (S (n - 1) - List.length l)%nat with O in B by lia. rewrite H. exact B.
  - intros ((L & A & B) & Wn & Hl). split; [lia|split].
    + intros k Hk. destruct (Nat.eq_dec k n) as [->|]; [rewrite app_nth2, L, Nat.sub_diag by lia; auto|rewrite app_nth1 by lia; apply A; lia].
    + intros k Hk. destruct (Nat.eq_dec (S k) n) as [E|].
      * rewrite app_nth1 by lia. rewrite (app_nth2 l [o]) by lia. replace (S k - List.length l)%nat with O by lia. cbn [nth].
        replace (List.length l - 1)%nat with k in Hl by lia. auto.
      * rewrite !app_nth1 by lia. apply B. lia.
Qed.
Lemma adm_one o : admissible sw c idx 1 [o] <-> W 0 o.
Proof.
  unfold admissible. split; [intros (_ & A & _); apply (A O); lia|]. intros H. split; auto. split; [|intros; lia].
  intros k Hk. replace k with O by lia. auto.
Qed.
Lemma adm_split n l : admissible sw c idx (S (S n)) l -> exists l' o, l = l' ++ [o] /\ l' <> [].
Proof.
  intros (L & _). destruct (exists_last (l := l)) as (l' & o & E); [intros ->; discriminate|].
  exists l', o. split; auto. intros ->. subst l. discriminate.
Qed.

Lemma total_good n : (n < P)%nat -> forall l, admissible sw c idx (S n) l -> pos (total sim l).
Proof.
  induction n as [|n IH]; intros HP l Ha.
  - assert (L : List.length l = 1%nat) by apply Ha. destruct l as [|x [|y t]]; try discriminate.
    apply adm_one in Ha. apply (do_psim _ _ _ _ OD). apply Hsim; auto.
  - destruct (adm_split _ _ Ha) as (l' & o & -> & NE). apply adm_snoc in Ha; [|lia]. destruct Ha as (Ha & Wo & _).
    rewrite total_snoc by auto. specialize (IH ltac:(lia) l' Ha). destruct (o =? last l' 0); auto.
    replace (List.length l') with (S n) by (symmetry; apply Ha). destruct IH. apply (do_add _ _ _ _ OD); auto.
Qed.

(** Follow the backtrace from patch [k] at [s]. *)
Fixpoint follow (B : nat -> Z -> Z) (k : nat) (s : Z) : list Z :=
  match k with O => [s] | S k' => follow B k' (B k s) ++ [s] end.
Lemma follow_last B k s : last (follow B k s) 0 = s.
Proof. destruct k; cbn [follow]; auto. apply last_last. Qed.
Lemma follow_len B k : forall s, List.length (follow B k s) = S k.
Proof. induction k; intros s; cbn [follow]; auto. rewrite app_length, IHk. cbn. lia. Qed.
Lemma follow_ne B k s : follow B k s <> [].
Proof. intros E. apply (f_equal (@List.length Z)) in E. rewrite follow_len in E. discriminate. Qed.
Lemma follow_ext B B' k : (forall j s, (j <= k)%nat -> B j s = B' j s) -> forall s, follow B k s = follow B' k s.
Proof. induction k; intros H s; cbn [follow]; auto. rewrite H by lia. rewrite IHk; auto. Qed.

(** Row [k] of the tables as functions. *)
Definition rowinv (B : nat -> Z -> Z) (k : nat) (D : Z -> T) : Prop :=
  forall s, 0 <= s < c ->
    (~ W k s -> D s = nofZ N 0) /\
    (W k s -> let offs := follow B k s in
       admissible sw c idx (S k) offs /\ D s = total sim offs /\ pos (D s) /\
       (forall offs', admissible sw c idx (S k) offs' -> last offs' 0 = s -> (val (total sim offs') <= val (D s))%R)) /\
    (W k s -> match k with O => B k s = usize_mod - 1 | S k' => W k' (B k s) /\ B k s <= s end).

(** One cell for a patch with a predecessor. *)
Lemma cell_ok B k D s (row : list T) : (S k < P)%nat -> rowinv B k D -> (forall b, 0 <= b < c -> zget row b = Ok (D b)) -> W (S k) s ->
  exists v b, dp_cell (sim (S k) s) (Some (row, lo k)) s = Ok (v, b) /\ W k b /\ b <= s /\
    v = (if s =? b then D b else nadd N (sim (S k) s) (D b)) /\ pos v /\
    (forall b', W k b' -> b' < s -> (val (nadd N (sim (S k) s) (D b')) <= val v)%R) /\
    (W k s -> (val (D s) <= val v)%R).
Proof.
  intros HP HR HD HW. assert (Ps := Hsim (S k) s HP HW). destruct (do_psim _ _ _ _ OD _ Ps) as [Gs Vs].
  assert (HW' := HW). apply W_iff in HW'; auto. pose proof (Hr0 k ltac:(lia)) as Rk. pose proof (Hsorted k HP) as Sk. pose proof (Hne k ltac:(lia)) as NEk.
  assert (Hlo : lo k <= s < c) by (unfold lo, hi in *; lia). assert (L0 : 0 <= lo k) by (unfold lo; lia).
  assert (GD : forall b, 0 <= b < c -> good (D b)).
  { intros b Hb. destruct (HR b Hb) as (R1 & R2 & _). destruct (Z_le_dec (lo k) b), (Z_le_dec b (hi k)).
    - apply R2. apply W_iff; [lia|auto].
    - rewrite R1; [apply (do_zero _ _ _ _ OD)|]. rewrite W_iff by lia. lia.
    - rewrite R1; [apply (do_zero _ _ _ _ OD)|]. rewrite W_iff by lia. lia.
    - rewrite R1; [apply (do_zero _ _ _ _ OD)|]. rewrite W_iff by lia. lia. }
  unfold dp_cell, best_previous.
  rewrite (scan_fold row D) by (intros b Hb; apply HD; apply in_rev, in_zrange in Hb; lia). cbn [bind].
  pose proof (scan_spec D (rev (zrange (lo k) s)) (nmin_value N) (-1) (do_min _ _ _ _ OD) ltac:(intros b Hb; apply GD; apply in_rev, in_zrange in Hb; lia)) as SS.
  destruct (fold_left (scan D) (rev (zrange (lo k) s)) (nmin_value N, -1)) as [hv past]. destruct SS as (G1 & _ & G2 & G3).
  rewrite HD by lia. cbn [bind].
  destruct (Z.eq_dec s (lo k)) as [E|NE].
  - (* only the same start is left *)
    rewrite E in *. rewrite zrange_empty in * by lia. destruct G3 as [[-> ->]|[[] _]].
    assert (Wk : W k (lo k)) by (apply W_iff; [lia|clear - Rk Hsw NEk; unfold lo, hi in *; lia]).
    destruct (HR (lo k) ltac:(lia)) as (_ & R2 & _). destruct (R2 Wk) as (_ & _ & Pp & _). destruct Pp as [Gp Vp].
    destruct (do_addmin _ _ _ _ OD _ Ps) as [Ga Va].
    rewrite (proj2 (do_lt _ _ _ _ OD _ _ Ga Gp)) by lra. do 2 eexists. split; [reflexivity|]. split; auto. split; [lia|]. rewrite Z.eqb_refl. split; auto. split; [split; auto|].
    split; [|intros; lra]. intros b' Hb' Hlt. apply W_iff in Hb'; lia.
  - (* the scan finds an offset inside the window *)
    set (b0 := lo k). assert (Wb0 : W k b0) by (apply W_iff; [lia|clear - Rk Hsw NEk; unfold b0, lo, hi in *; lia]).
    destruct (HR b0 ltac:(unfold b0; lia)) as (_ & R2 & _). destruct (R2 Wb0) as (_ & _ & (_ & Vb0) & _).
    assert (Hb0 : (val (D b0) <= val hv)%R) by (apply G2; rewrite <- in_rev; apply in_zrange; unfold b0; lia).
    destruct G3 as [[-> ->]|(I & Eh & _)]; [exfalso; pose proof (do_valmin _ _ _ _ OD); lra|].
    rewrite <- in_rev in I. apply in_zrange in I.
    assert (Wp : W k past).
    { destruct (HR past ltac:(lia)) as (R1 & _). apply W_iff; [lia|]. destruct (Z_le_dec past (hi k)); [lia|].
      exfalso. rewrite R1 in Eh by (rewrite W_iff by lia; lia). rewrite Eh, (do_val0 _ _ _ _ OD) in Hb0. lra. }
    destruct (HR past ltac:(lia)) as (_ & R2p & _). destruct (R2p Wp) as (_ & _ & (Gp & Vp) & _).
    rewrite Eh in *. destruct (do_add _ _ _ _ OD _ _ Ps Gp Vp) as [Ga Va].
    destruct (nltb N (nadd N (sim (S k) s) (D past)) (D s)) eqn:EL.
    + apply (do_lt _ _ _ _ OD) in EL; [|auto|apply GD; lia].
      do 2 eexists. split; [reflexivity|].
      assert (Wks : W k s).
      { apply W_iff; [lia|]. destruct (Z_le_dec s (hi k)); [lia|]. exfalso. destruct (HR s ltac:(lia)) as (R1 & _).
        rewrite R1, (do_val0 _ _ _ _ OD) in EL by (rewrite W_iff by lia; lia). lra. }
      split; auto. split; [lia|]. rewrite Z.eqb_refl. split; auto. split; [split; [apply GD; lia|lra]|].
      split; [|intros; lra]. intros b' Hb' Hlt. assert (Hb'' := Hb'). apply W_iff in Hb''; [|lia].
      destruct (HR b' ltac:(lia)) as (_ & R2b & _). destruct (R2b Hb') as (_ & _ & (Gb & Vb) & _).
      apply Rle_trans with (val (nadd N (sim (S k) s) (D past))); [|lra]. apply (do_mono _ _ _ _ OD); auto.
      apply G2. rewrite <- in_rev. apply in_zrange. lia.
    + apply lt_false in EL; [|auto|apply GD; lia].
      destruct (Z.ltb_spec past 0); [lia|]. do 2 eexists. split; [reflexivity|]. split; auto. split; [lia|].
      destruct (Z.eqb_spec s past); [lia|]. split; auto. split; [split; auto|]. split; [|auto].
      intros b' Hb' Hlt. assert (Hb'' := Hb'). apply W_iff in Hb''; [|lia].
      destruct (HR b' ltac:(lia)) as (_ & R2b & _). destruct (R2b Hb') as (_ & _ & (Gb & Vb) & _).
      apply (do_mono _ _ _ _ OD); auto. apply G2. rewrite <- in_rev. apply in_zrange. lia.
Qed.

(** The row obtained cell by cell satisfies the invariant. *)
Lemma rowinv_0 B D : (0 < P)%nat -> (forall s, 0 <= s < c -> ~ W 0 s -> D s = nofZ N 0) -> (forall s, W 0 s -> D s = sim 0 s /\ B O s = usize_mod - 1) -> rowinv B 0 D.
Proof.
  intros HP H1 H2 s Hs. split; [auto|]. split; [|intros Hw; apply H2; auto]. intros Hw. destruct (H2 s Hw) as [E _].
  cbn [follow]. split; [apply adm_one; auto|]. split; [rewrite E; reflexivity|]. split; [rewrite E; apply (do_psim _ _ _ _ OD); auto|].
  intros offs' (L & A & _) Hl. destruct offs' as [|x [|y t]]; try discriminate. cbn [last] in Hl. subst x. rewrite E. cbn [total total_from]. lra.
Qed.
Lemma rowinv_S B k D D' : (S k < P)%nat -> rowinv B k D ->
  (forall s, 0 <= s < c -> ~ W (S k) s -> D' s = nofZ N 0) ->
  (forall s, W (S k) s -> W k (B (S k) s) /\ B (S k) s <= s /\
     D' s = (if s =? B (S k) s then D (B (S k) s) else nadd N (sim (S k) s) (D (B (S k) s))) /\ pos (D' s) /\
    (forall b', W k b' -> b' < s -> (val (nadd N (sim (S k) s) (D b')) <= val (D' s))%R) /\
    (W k s -> (val (D s) <= val (D' s))%R)) ->
  rowinv B (S k) D'.
Proof.
  intros HP HR H1 H2 s Hs. split; [auto|]. split; [|intros Hw; destruct (H2 s Hw) as (A & B0 & _); auto].
  intros Hw. destruct (H2 s Hw) as (Wb & Hb & E & Pv & O1 & O2). cbv zeta. set (b := B (S k) s) in *.
  assert (Hb0 : 0 <= b < c) by (destruct Wb; lia).
  destruct (HR b Hb0) as (_ & R2 & _). destruct (R2 Wb) as (Ad & Et & Pb & _).
  cbn [follow]. fold b. split; [apply adm_snoc; [lia|]; rewrite follow_last; auto|].
  split.
  { rewrite total_snoc by apply follow_ne. rewrite follow_last, follow_len, <- Et. auto. }
  split; auto. intros offs' Ha Hl. destruct (adm_split _ _ Ha) as (l' & o & -> & NE). rewrite last_last in Hl. subst o.
  apply adm_snoc in Ha; [|lia]. destruct Ha as (Ha & _ & Hle). rewrite total_snoc by auto.
  assert (Ll : List.length l' = S k) by apply Ha. rewrite Ll.
  assert (Wl : W k (last l' 0)). { destruct Ha as (_ & A & _). rewrite last_nth, Ll. replace (S k - 1)%nat with k by lia. apply A. lia. }
  assert (Hl0 : 0 <= last l' 0 < c) by (destruct Wl; lia).
  destruct (HR _ Hl0) as (_ & R2l & _). destruct (R2l Wl) as (_ & _ & Pl & Ol). specialize (Ol l' Ha eq_refl).
  destruct (Z.eqb_spec s (last l' 0)) as [Es|Ns].
  - rewrite <- Es in *. apply Rle_trans with (val (D s)); auto.
  - apply Rle_trans with (val (nadd N (sim (S k) s) (D (last l' 0)))).
    + destruct (total_good k ltac:(lia) l' Ha) as [Gt Vt]. apply (do_mono _ _ _ _ OD); auto. apply Pl.
    + apply O1; auto. lia.
Qed.

(** ** Tables *)
Variable cn : nat.
Hypothesis Hcn : c = Z.of_nat cn.
Definition tcell {A} (d : A) (t : list (list A)) (k : nat) (s : Z) : A := nth (Z.to_nat s) (nth k t []) d.


Lemma rowinv_ext B B' k D D' : (k < P)%nat -> (forall j s, (j <= k)%nat -> 0 <= s < c -> B j s = B' j s) -> (forall s, 0 <= s < c -> D s = D' s) ->
  (forall j s, (j < k)%nat -> W (S j) s -> W j (B (S j) s)) ->
  rowinv B k D -> rowinv B' k D'.
Proof.
  intros HP HB HD HC HR s Hs. destruct (HR s Hs) as (R1 & R2 & R3). rewrite <- (HD s Hs).
  assert (F : forall j, (j <= k)%nat -> forall s, W j s -> follow B j s = follow B' j s).
  { clear - HB HC. induction j as [|j IH]; intros Hj s Hw; cbn [follow]; auto. rewrite <- (HB (S j) s) by (auto; destruct Hw; lia). rewrite IH; [auto|lia|]. apply HC; [lia|auto]. }
  split; auto. split.
  - intros Hw. rewrite <- F by auto. apply R2; auto.
  - intros Hw. specialize (R3 Hw). destruct k; rewrite <- HB by auto; auto.
Qed.

(** Filling one row. *)
Definition row_step (simf : Z -> res T) prev (st : list T * list Z) (s : Z) : res (list T * list Z) :=
  let '(drow, brow) := st in
  do sim <- simf s;
  do vb <- dp_cell sim prev s;
  let '(v, b) := vb in
  do drow' <- zset drow s v;
  do brow' <- zset brow s b;
  Ok (drow', brow').
Lemma row_fold simf simv prev a drow brow : List.length drow = cn -> List.length brow = cn -> 0 <= a ->
  forall n, a + Z.of_nat n <= c ->
  (forall s, a <= s < a + Z.of_nat n -> simf s = Ok (simv s) /\ exists v b, dp_cell (simv s) prev s = Ok (v, b)) ->
  exists drow' brow', foldM (row_step simf prev) (drow, brow) (zrange a (a + Z.of_nat n)) = Ok (drow', brow') /\
    List.length drow' = cn /\ List.length brow' = cn /\
    (forall s, a <= s < a + Z.of_nat n -> dp_cell (simv s) prev s = Ok (nth (Z.to_nat s) drow' (nofZ N 0), nth (Z.to_nat s) brow' 0)) /\
    (forall s, 0 <= s < c -> ~ (a <= s < a + Z.of_nat n) -> nth (Z.to_nat s) drow' (nofZ N 0) = nth (Z.to_nat s) drow (nofZ N 0) /\ nth (Z.to_nat s) brow' 0 = nth (Z.to_nat s) brow 0).
Proof.
  intros L1 L2 Ha. induction n as [|n IH]; intros Hn Hs.
  - rewrite zrange_empty by lia. exists drow, brow. cbn [foldM]. repeat split; auto. intros; lia.
  - destruct IH as (d1 & b1 & E & M1 & M2 & C1 & C2); [lia|intros; apply Hs; lia|].
    replace (a + Z.of_nat (S n)) with (a + Z.of_nat n + 1) in * by lia. rewrite zrange_snoc by lia. rewrite foldM_app, E.
    set (s0 := a + Z.of_nat n) in *. destruct (Hs s0 ltac:(lia)) as (S1 & v & b & S2). cbn [bind foldM row_step].
    rewrite S1. cbn [bind]. rewrite S2. cbn [bind]. rewrite !zset_in by (unfold zlen; rewrite ?M1, ?M2; lia). cbn [bind].
    do 2 eexists. split; [reflexivity|]. rewrite !upd_length. split; auto. split; auto. split.
    + intros s Hr. destruct (Z.eq_dec s s0) as [->|NE].
      * rewrite !nth_upd_eq by lia. auto.
      * rewrite !nth_upd_ne by lia. apply C1. lia.
    + intros s Hr Hno. rewrite !nth_upd_ne by lia. apply C2; auto. lia.
Qed.
Lemma dp_cell_total (x : T) (row : list T) lower s : List.length row = cn -> 0 <= lower -> 0 <= s < c -> exists v b, dp_cell x (Some (row, lower)) s = Ok (v, b).
Proof.
  intros L Hl Hs. unfold dp_cell, best_previous.
  rewrite (scan_fold row (fun b => nth (Z.to_nat b) row (nofZ N 0))) by (intros b Hb; apply zget_in; apply in_rev, in_zrange in Hb; unfold zlen; lia). cbn [bind].
  destruct (fold_left _ _ _) as [h p]. rewrite (zget_in row s (nofZ N 0)) by (unfold zlen; lia). cbn [bind].
  destruct (nltb N _ _); eauto.
Qed.

(** The tables after [j] patches. *)
Variable M : nat.
Hypothesis HM : List.length idx = M.
Hypothesis HPM : (P <= M)%nat.
Hypothesis Hbig : forall k, (k < M)%nat -> 0 <= r k /\ r k + sw < 2 ^ 31 /\ r k - sw <= c.
Definition tabinv (j : nat) (t : list (list T) * list (list Z)) : Prop :=
  let '(dp, bt) := t in
  List.length dp = M /\ List.length bt = M /\
  (forall k, (k < M)%nat -> List.length (nth k dp []) = cn /\ List.length (nth k bt []) = cn) /\
  (forall k s, (j <= k < M)%nat -> 0 <= s < c -> tcell (nofZ N 0) dp k s = nofZ N 0) /\
  (forall k, (k < j)%nat -> (k < P)%nat -> rowinv (tcell 0 bt) k (tcell (nofZ N 0) dp k)).

Lemma tcell_upd_ne {A} (d : A) t k row j s : j <> k -> tcell d (upd t k row) j s = tcell d t j s.
Proof. intros. unfold tcell. rewrite nth_upd_ne by auto. auto. Qed.
Lemma tcell_upd_eq {A} (d : A) t k row s : (k < List.length t)%nat -> tcell d (upd t k row) k s = nth (Z.to_nat s) row d.
Proof. intros. unfold tcell. rewrite nth_upd_eq by auto. auto. Qed.

Lemma tab_step pf simf k t : (k < M)%nat -> (forall s, 0 <= s < c -> simf s = Ok (sim k s)) -> tabinv k t ->
  exists t', find_most_optimal_deg_patch pf simf c t idx (Z.of_nat k) sw = Ok t' /\ tabinv (S k) t'.
Proof.
  intros Hk Hf. destruct t as [dp bt]. intros (I1 & I2 & I3 & I4 & I5).
  destruct (Hbig k Hk) as (B0 & B1 & B2). unfold find_most_optimal_deg_patch.
  rewrite (zget_in idx (Z.of_nat k) 0) by (unfold zlen; lia). cbn [bind]. rewrite Nat2Z.id.
  rewrite wrap_i32_id by lia. rewrite !i32_ok by lia. cbn [bind].
  destruct (Z.ltb_spec (r k + sw) (Z.max 0 (r k - sw))); [lia|].
  destruct (Z.ltb_spec c (Z.max 0 (r k - sw))); [lia|].
  set (prev := match k with O => None | S k' => Some (nth k' dp [], lo k') end).
  assert (Hprev : (if 0 <? Z.of_nat k then do r' <- zget idx (Z.of_nat k - 1); do lower <- i32_op pf (wrap_i32 r' - sw); do prow <- zget dp (Z.of_nat k - 1); Ok (Some (prow, Z.max lower 0)) else Ok None) = Ok prev).
  { unfold prev. destruct k as [|k']; [reflexivity|]. destruct (Z.ltb_spec 0 (Z.of_nat (S k'))); [|lia].
    rewrite (zget_in idx _ 0), (zget_in dp _ []) by (unfold zlen; lia). cbn [bind]. replace (Z.to_nat (Z.of_nat (S k') - 1)) with k' by lia.
    destruct (Hbig k' ltac:(lia)) as (B0' & B1' & B2'). rewrite wrap_i32_id by lia. rewrite i32_ok by lia. cbn [bind].
    unfold lo. rewrite Z.max_comm. reflexivity. }
  rewrite Hprev. cbn [bind]. rewrite (zget_in dp _ []), (zget_in bt _ []) by (unfold zlen; lia). cbn [bind]. rewrite Nat2Z.id.
  set (a := Z.max 0 (r k - sw)). set (e := Z.min (r k + sw + 1) c).
  assert (Ha0 : 0 <= a) by (subst a; lia). assert (He0 : a <= e <= c) by (clear - Hcn B0 B1 B2 Hsw; subst a e; lia).
  assert (Hae : e = a + Z.of_nat (Z.to_nat (e - a))) by (clear - He0; lia).
  rewrite Hae. fold (row_step simf prev). set (n := Z.to_nat (e - a)) in *.
  destruct (I3 k Hk) as [L1 L2].
  destruct (row_fold simf (sim k) prev a (nth k dp []) (nth k bt []) L1 L2 Ha0 n ltac:(lia)) as (d' & b' & E & M1 & M2 & C1 & C2).
  { intros s Hs. rewrite <- Hae in Hs. split; [apply Hf; lia|]. unfold prev. destruct k as [|k']; [cbn [dp_cell]; eauto|].
    apply dp_cell_total; [apply I3; lia|unfold lo; lia|lia]. }
  change (foldM (row_step simf prev) (nth k dp [], nth k bt []) (zrange a (a + Z.of_nat n)) = Ok (d', b')) in E.
  match goal with |- context [foldM ?f ?x ?l] => change f with (row_step simf prev) end. rewrite E. cbn [bind].
  rewrite !zset_in by (unfold zlen; lia). cbn [bind]. rewrite Nat2Z.id. eexists. split; [reflexivity|].
  unfold tabinv. rewrite !upd_length. split; auto. split; auto. rewrite <- Hae in C1, C2.
  split; [|split].
  - intros j Hj. destruct (Nat.eq_dec k j) as [->|NE]; [rewrite !nth_upd_eq by lia; auto|rewrite !nth_upd_ne by auto; auto].
  - intros j s Hj Hs. rewrite tcell_upd_ne by lia. apply I4; auto. lia.
  - intros j Hj HjP.
    assert (Hchain : forall i s, (S i < k)%nat -> (S i < P)%nat -> W (S i) s -> W i (tcell 0 bt (S i) s)).
    { intros i s Hi HiP Hw. destruct (I5 (S i) ltac:(lia) HiP s ltac:(destruct Hw; lia)) as (_ & _ & R3). apply R3. auto. }
    destruct (Nat.eq_dec j k) as [->|NE].
    2:{ apply (rowinv_ext (tcell 0 bt) _ j (tcell (nofZ N 0) dp j)); auto.
        - intros i s Hi Hs. rewrite tcell_upd_ne by lia. auto.
        - intros s Hs. rewrite tcell_upd_ne by lia. auto.
        - intros i s Hi Hw. apply Hchain; auto; lia.
        - apply I5; auto. lia. }
    assert (HW : forall s, W k s <-> a <= s < e) by (intros s; rewrite W_iff by auto; unfold lo, hi; subst a e; lia).
    assert (Hout : forall s, 0 <= s < c -> ~ W k s -> tcell (nofZ N 0) (upd dp k d') k s = nofZ N 0).
    { intros s Hs Hn. rewrite HW in Hn. rewrite tcell_upd_eq by lia. rewrite (proj1 (C2 s Hs Hn)). apply I4; auto. }
    destruct k as [|k'].
    + apply rowinv_0; auto. intros s Hw. rewrite !tcell_upd_eq by lia. apply HW in Hw. specialize (C1 s Hw). cbn [prev dp_cell] in C1. injection C1 as <- <-. auto.
    + assert (HR : rowinv (tcell 0 (upd bt (S k') b')) k' (tcell (nofZ N 0) dp k')).
      { apply (rowinv_ext (tcell 0 bt) _ k' (tcell (nofZ N 0) dp k')); auto; [lia| | |apply I5; lia].
        - intros i s Hi Hs. rewrite tcell_upd_ne by lia. auto.
        - intros i s Hi Hw. apply Hchain; auto; lia. }
      apply (rowinv_S _ k' (tcell (nofZ N 0) dp k')); auto.
      intros s Hw. assert (Hw' := Hw). apply HW in Hw'. specialize (C1 s Hw'). unfold prev in C1.
      destruct (cell_ok _ k' (tcell (nofZ N 0) dp k') s (nth k' dp []) HjP HR) as (v & b & E1 & Q); auto.
      { intros x Hx. apply zget_in. unfold zlen. rewrite (proj1 (I3 k' ltac:(lia))). lia. }
      rewrite E1 in C1. assert (Ev : v = nth (Z.to_nat s) d' (nofZ N 0)) by congruence. assert (Eb : b = nth (Z.to_nat s) b' 0) by congruence.
      rewrite !tcell_upd_eq by lia. rewrite <- Ev, <- Eb. exact Q.
Qed.
Lemma tab_all pf simf n : (n <= M)%nat -> (forall k s, (k < M)%nat -> 0 <= s < c -> simf (Z.of_nat k) s = Ok (sim k s)) -> forall t, tabinv 0 t ->
  exists t', foldM (fun t k => find_most_optimal_deg_patch pf (simf k) c t idx k sw) t (zrange 0 (Z.of_nat n)) = Ok t' /\ tabinv n t'.
Proof.
  intros Hn Hf t Ht. induction n as [|n IH]; [exists t; split; auto; rewrite zrange_empty by lia; auto|].
  destruct IH as (t1 & E & I1); [lia|]. replace (Z.of_nat (S n)) with (Z.of_nat n + 1) by lia. rewrite zrange_snoc by lia. rewrite foldM_app, E. cbn [bind foldM].
  destruct (tab_step pf (simf (Z.of_nat n)) n t1) as (t2 & E2 & I2); [lia|auto|auto|].
  rewrite E2. cbn [bind]. eauto.
Qed.
Lemma tab_init : tabinv 0 (repeat (repeat (nofZ N 0) cn) M, repeat (repeat 0 cn) M).
Proof.
  unfold tabinv. rewrite !repeat_length. split; auto. split; auto. split; [|split].
  - intros k Hk. rewrite !nth_repeat_lt by auto. rewrite !repeat_length. auto.
  - intros k s Hk Hs. unfold tcell. rewrite !nth_repeat_lt by lia. auto.
  - intros; lia.
Qed.

Lemma last_ok row : (1 <= P)%nat -> List.length row = cn -> (forall s, W (P - 1) s -> pos (nth (Z.to_nat s) row (nofZ N 0))) ->
  exists o, best_last_offset row (lo (P - 1)) (r (P - 1) + sw + 1) c = Ok o /\ W (P - 1) o /\
    (forall s, W (P - 1) s -> (val (nth (Z.to_nat s) row (nofZ N 0)) <= val (nth (Z.to_nat o) row (nofZ N 0)))%R).
Proof.
  intros HP L Hp. set (k := (P - 1)%nat) in *. assert (Hk : (k < P)%nat) by lia.
  pose proof (Hr0 k Hk) as Rk. pose proof (Hne k Hk) as NEk. pose proof (W_iff k) as WI.
  assert (HW : forall s, W k s <-> In s (zrange (lo k) (Z.min (r k + sw + 1) c))).
  { intros s. rewrite WI by auto. rewrite in_zrange. unfold lo, hi. lia. }
  unfold best_last_offset. set (cell := fun b => nth (Z.to_nat b) row (nofZ N 0)) in *.
  rewrite (scan_fold row cell) by (intros b Hb; apply zget_in; apply HW in Hb; destruct Hb; unfold zlen; lia). cbn [bind].
  pose proof (scan_spec cell (zrange (lo k) (Z.min (r k + sw + 1) c)) (nmin_value N) 0 (do_min _ _ _ _ OD) ltac:(intros b Hb; apply Hp; apply HW; auto)) as SS.
  destruct (fold_left (scan cell) _ _) as [v o]. destruct SS as (_ & _ & G2 & G3). cbn [snd]. exists o. split; auto.
  destruct G3 as [[-> ->]|(I & -> & _)].
  - exfalso. assert (Wl : W k (lo k)) by (apply WI; auto; unfold lo, hi; unfold lo in NEk; lia).
    pose proof (G2 _ (proj1 (HW _) Wl)). destruct (Hp _ Wl). pose proof (do_valmin _ _ _ _ OD). unfold cell in H. lra.
  - split; [apply HW; auto|]. intros s Hs. apply G2. apply HW. auto.
Qed.

(** ** Walking back *)
Variable refs : list (mat N).
Variable deg : mat N.
Variable fp : nat.
Hypothesis Hcols : mcols deg = cn.
Hypothesis Hrl : List.length refs = M.
Hypothesis Hfp : (1 <= fp)%nat /\ Z.of_nat fp < 2 ^ 31.
Hypothesis Hrows : (1 <= mrows deg)%nat.
Hypothesis Hrefs : forall rp, In rp refs -> mat_wf rp /\ mrows rp = mrows deg /\ mcols rp = fp.
Lemma entry_ok pf bt D fd pd k s acc : (k < P)%nat -> List.length bt = M -> (forall j, (j < M)%nat -> List.length (nth j bt []) = cn) ->
  W k s -> rowinv (tcell 0 bt) k D ->
  exists e, backtrace_loop pf refs idx deg bt fd pd (S k) s acc = backtrace_loop pf refs idx deg bt fd pd k (tcell 0 bt k s) (e :: acc) /\
    describes refs deg idx fd pd (follow (tcell 0 bt) k s) k e.
Proof.
  intros HP Lb Lr Hw HR. cbn [backtrace_loop].
  destruct (nth_error refs k) as [rp|] eqn:Erp; [|apply nth_error_None in Erp; lia].
  assert (Zr : zget refs (Z.of_nat k) = Ok rp) by (apply zget_ok; unfold zlen; rewrite Nat2Z.id; split; [lia|auto]).
  rewrite Zr. cbn [bind]. assert (Hs : 0 <= s < c) by (destruct Hw; lia).
  assert (Hin := nth_error_In _ _ Erp). destruct (Hrefs rp Hin) as (Wf & R1 & C1).
  destruct (Hbig k ltac:(lia)) as (B0 & B1 & B2).
  assert (s < 2 ^ 31) by (destruct Hw; lia).
  rewrite uadd_ok by (unfold usize_mod; lia). cbn [bind]. rewrite build_ok by lia. cbn [bind].
  destruct (meas_ok refs deg fp (proj1 Hfp) Hrows Hrefs rp s Hin) as (p & Ep). rewrite C1, Ep. cbn [bind].
  rewrite (zget_in bt _ []) by (unfold zlen; lia). cbn [bind]. rewrite Nat2Z.id.
  rewrite (zget_in _ s 0) by (unfold zlen; rewrite Lr by lia; lia). cbn [bind].
  rewrite (zget_in idx _ 0) by (unfold zlen; lia). cbn [bind]. rewrite Nat2Z.id.
  fold (tcell 0 bt k s). eexists. split; [reflexivity|].
  assert (Hn : nth k (follow (tcell 0 bt) k s) 0 = s) by (rewrite <- (follow_last (tcell 0 bt) k s) at 2; rewrite last_nth, follow_len; f_equal; lia).
  exists rp, p. rewrite Hn. split; auto. rewrite C1. split; auto.
  unfold set_times; cbn [freq_band_stddevs freq_band_deg_energy ref_patch_start_time ref_patch_end_time similarity freq_band_means deg_patch_start_time deg_patch_end_time].
  do 4 (split; [reflexivity|]).
  assert (Hlost : lost_at (follow (tcell 0 bt) k s) k = (s =? tcell 0 bt k s)).
  { destruct (HR s Hs) as (_ & _ & R3). specialize (R3 Hw). unfold lost_at. destruct k as [|k'].
    - rewrite R3. symmetry. apply Z.eqb_neq. unfold usize_mod. lia.
    - rewrite Hn. f_equal. cbn [follow]. rewrite app_nth1 by (rewrite follow_len; lia).
      rewrite <- (follow_last (tcell 0 bt) k' (tcell 0 bt (S k') s)) at 2. rewrite last_nth, follow_len. f_equal. lia. }
  rewrite Hlost. destruct (s =? tcell 0 bt k s); cbn [andb]; auto.
  repeat split; auto. rewrite map_const_repeat. auto.
Qed.
Lemma describes_app offs o fd pd k e : (k < List.length offs)%nat -> describes refs deg idx fd pd offs k e -> describes refs deg idx fd pd (offs ++ [o]) k e.
Proof.
  intros Hk (rp & p & A). exists rp, p. rewrite app_nth1 by auto.
  replace (lost_at (offs ++ [o]) k) with (lost_at offs k); auto. destruct k; auto. unfold lost_at. rewrite !app_nth1 by lia. auto.
Qed.
Lemma back_ok pf bt D fd pd k : (k < P)%nat -> List.length bt = M -> (forall j, (j < M)%nat -> List.length (nth j bt []) = cn) ->
  (forall j, (j <= k)%nat -> rowinv (tcell 0 bt) j (D j)) ->
  forall s acc, W k s -> exists out, backtrace_loop pf refs idx deg bt fd pd (S k) s acc = Ok (out ++ acc) /\ List.length out = S k /\
    forall j e, nth_error out j = Some e -> describes refs deg idx fd pd (follow (tcell 0 bt) k s) j e.
Proof.
  intros HP Lb Lr. revert HP. induction k as [|k IH]; intros HP HR s acc Hw.
  - destruct (entry_ok pf bt (D O) fd pd 0 s acc HP Lb Lr Hw (HR _ (le_n _))) as (e & E & De). rewrite E.
    exists [e]. cbn [backtrace_loop app List.length]. split; auto. split; auto. intros [|[|j]] e' He; cbn in He; try discriminate. injection He as <-. auto.
  - destruct (entry_ok pf bt (D (S k)) fd pd (S k) s acc HP Lb Lr Hw (HR _ (le_n _))) as (e & E & De). rewrite E.
    destruct (HR (S k) (le_n _) s ltac:(destruct Hw; lia)) as (_ & _ & R3). destruct (R3 Hw) as [Wb _].
    destruct (IH ltac:(lia) ltac:(intros; apply HR; lia) (tcell 0 bt (S k) s) (e :: acc) Wb) as (out & E2 & Lo & Dd).
    exists (out ++ [e]). rewrite E2, <- app_assoc. split; auto. rewrite app_length, Lo. split; [cbn; lia|].
    intros j e' He. destruct (Nat.eq_dec j (S k)) as [->|NE].
    + rewrite nth_error_app2, Lo, Nat.sub_diag in He by lia. cbn in He. injection He as <-. auto.
    + assert (j < S k)%nat. { assert (j < List.length (out ++ [e]))%nat by (apply nth_error_Some; congruence). rewrite app_length in H; cbn in H; lia. }
      rewrite nth_error_app1 in He by lia. cbn [follow]. apply describes_app; [rewrite follow_len; auto|]. apply Dd; auto.
Qed.
End Dp.

(** ** The whole search *)
Lemma calc_max_last pf idx n p z : calc_max_num_patches pf idx n p = Ok z -> idx <> [] ->
  1 <= z <= zlen idx /\ nth (Z.to_nat (z - 1)) idx 0 - p / 2 <= n.
Proof.
  intros H Hn. split; [exact (calc_max_pos pf idx n p z H Hn)|]. unfold calc_max_num_patches in H. destruct idx as [|x t]; [tauto|].
  set (l := x :: t) in *. remember (List.length l) as k eqn:Ek. clear Ek Hn. induction k as [|k IH]; cbn [calc_max_loop] in H; [destruct pf; discriminate|].
  inv_do H. inv_do Hk. destruct (Z.ltb_spec n v0) as [L|L]; [apply IH; auto|]. injection Hk0 as <-.
  replace (Z.to_nat (Z.pos (Pos.of_succ_nat k) - 1)) with k by lia. apply zget_ok in Hv. destruct Hv as [_ Hv]. rewrite Nat2Z.id in Hv.
  rewrite (nth_error_nth l k 0 Hv). unfold usub in Hv0. destruct (Z.leb_spec (p / 2) v); [injection Hv0 as <-; lia|].
  destruct pf; [discriminate|]. injection Hv0 as <-. unfold usize_mod in *. lia.
Qed.
Lemma foldM_each {A S} (f : S -> A -> res S) l : forall s s', foldM f s l = Ok s' -> forall a, In a l -> exists x y, f x a = Ok y.
Proof.
  induction l as [|b t IH]; intros s s' H a []; cbn [foldM] in H; inv_do H; [subst; eauto|eauto].
Qed.

Section Find.
Context {N : NumOps}.
Notation T := (num N).
Variable val : T -> R.
Variable good psim : T -> Prop.
Hypothesis OD : dp_order N val good psim.
Variable pf : profile.
Variable refs : list (mat N).
Variable idx : list Z.
Variable deg : mat N.
Variable radius : Z.
Variable fp : nat.
Hypothesis SI : search_input refs idx deg radius fp.
Notation sw := (radius * Z.of_nat fp).
Notation c := (Z.of_nat (mcols deg)).

Lemma idx_nth k : (k < List.length idx)%nat -> 0 <= nth k idx 0 /\ nth k idx 0 + sw < 2 ^ 31.
Proof. intros. apply (si_idx _ _ _ _ _ SI). apply nth_In. auto. Qed.
Lemma sorted_le j k : (j <= k < List.length idx)%nat -> nth j idx 0 <= nth k idx 0.
Proof.
  intros [H1 H2]. induction H1; [lia|]. pose proof (si_sorted _ _ _ _ _ SI m ltac:(lia)). lia.
Qed.
Lemma refs_nth k rp : nth_error refs k = Some rp -> mat_wf rp /\ mrows rp = mrows deg /\ mcols rp = fp.
Proof. intros H. apply (si_refs _ _ _ _ _ SI). eapply nth_error_In; eauto. Qed.

Definition simf (deg_patches : list (mat N)) (k s : Z) : res T :=
  do rp <- zget refs k; do dpat <- zget deg_patches s; do m <- measure_patch_similarity rp dpat; Ok (similarity m).

Theorem find_ok P fd : calc_max_num_patches pf idx c (Z.of_nat fp) = Ok (Z.of_nat P) ->
  (forall r, In r idx -> r - sw <= c) ->
  (forall k s, (k < P)%nat -> in_window sw c (nth k idx 0) s -> psim (sim_at refs deg k s)) ->
  exists out offs, find_most_optimal_deg_patches pf refs idx deg fd radius = Ok out /\
    List.length out = P /\ admissible sw c idx P offs /\
    (forall k e, nth_error out k = Some e -> describes refs deg idx fd (nmul N fd (nofZ N (Z.of_nat fp))) offs k e) /\
    (forall offs', admissible sw c idx P offs' -> good (total (sim_at refs deg) offs') /\ (val (total (sim_at refs deg) offs') <= val (total (sim_at refs deg) offs))%R).
Proof.
  intros Hcalc Hfar Hpos. pose proof SI as [S1 S2 S3 S4 S5 S6 S7 S8 S9].
  assert (idx <> []) by (intros ->; destruct refs; [tauto|discriminate]).
  destruct (calc_max_last _ _ _ _ _ Hcalc H) as [HP HPlast]. unfold zlen in HP.
  assert (Hhalf : Z.of_nat fp / 2 < sw) by (pose proof (Z.div_mod (Z.of_nat fp) 2 ltac:(lia)); pose proof (Z.mod_pos_bound (Z.of_nat fp) 2 ltac:(lia)); nia).
  assert (Hsw : 0 <= sw) by nia.
  assert (Hlo : forall k, (k < P)%nat -> lo idx sw k < c).
  { intros k Hk. unfold lo. pose proof (sorted_le k (P - 1) ltac:(lia)). replace (Z.to_nat (Z.of_nat P - 1)) with (P - 1)%nat in HPlast by lia. lia. }
  assert (Hbig : forall k, (k < List.length idx)%nat -> 0 <= nth k idx 0 /\ nth k idx 0 + sw < 2 ^ 31 /\ nth k idx 0 - sw <= c).
  { intros k Hk. destruct (idx_nth k Hk). split; auto. split; auto. apply Hfar. apply nth_In; auto. }
  unfold find_most_optimal_deg_patches.
  destruct refs as [|p0 rt] eqn:Er; [tauto|]. rewrite <- Er in *. assert (Z0 : zget refs 0 = Ok p0) by (rewrite Er; reflexivity).
  assert (F0 : mcols p0 = fp) by (apply S3; rewrite Er; left; auto).
  rewrite Z0. cbn [bind]. rewrite F0. rewrite wrap_i32_id by lia. rewrite i32_ok by lia. cbn [bind]. rewrite Hcalc. cbn [bind].
  destruct (Z.eqb_spec (Z.of_nat P) 0); [lia|].
  rewrite (mapM_total _ (fun s => patch_at deg s fp)) by (intros s Hs; apply in_zrange in Hs; apply build_ok; lia). cbn [bind].
  set (dps := map (fun s => patch_at deg s fp) (zrange 0 c)).
  assert (Hdps : forall s, 0 <= s < c -> zget dps s = Ok (patch_at deg s fp)).
  { intros s Hs. apply zget_ok. unfold dps, zlen. rewrite map_length, zrange_length. split; [lia|].
    rewrite nth_error_map, nth_error_zrange by lia. cbn. do 2 f_equal. lia. }
  assert (Hsim : forall k s, (k < List.length idx)%nat -> 0 <= s < c -> simf dps (Z.of_nat k) s = Ok (sim_at refs deg k s)).
  { intros k s Hk Hs. unfold simf, sim_at. destruct (nth_error refs k) as [rp|] eqn:E; [|apply nth_error_None in E; lia].
    rewrite (proj2 (zget_ok refs (Z.of_nat k) rp)) by (unfold zlen; rewrite Nat2Z.id; split; [lia|auto]). cbn [bind]. rewrite Hdps by auto. cbn [bind].
    destruct (refs_nth k rp ltac:(congruence)) as (_ & _ & Hc). rewrite Hc.
    destruct (meas_ok refs deg fp (proj1 S4) S5 S3 rp s (nth_error_In _ _ E)) as (p & Ep). rewrite Ep. reflexivity. }
  assert (Hfold : forall t, foldM (fun tables k => do rp <- zget refs k; find_most_optimal_deg_patch pf (fun s => do dpat <- zget dps s; do m <- measure_patch_similarity rp dpat; Ok (similarity m)) c tables idx k sw) t (zrange 0 (zlen refs))
      = foldM (fun t k => find_most_optimal_deg_patch pf (simf dps k) c t idx k sw) t (zrange 0 (Z.of_nat (List.length idx)))).
  { intros t. unfold zlen. rewrite S1.
    assert (G : forall l, (forall k, In k l -> 0 <= k < zlen refs) -> forall t, foldM (fun tables k => do rp <- zget refs k; find_most_optimal_deg_patch pf (fun s => do dpat <- zget dps s; do m <- measure_patch_similarity rp dpat; Ok (similarity m)) c tables idx k sw) t l
      = foldM (fun t k => find_most_optimal_deg_patch pf (simf dps k) c t idx k sw) t l).
    { induction l as [|k l IHl]; intros Hl t'; cbn [foldM]; auto. unfold simf at 1. rewrite (zget_in refs k p0) by (apply Hl; left; auto). cbn [bind].
      destruct (find_most_optimal_deg_patch _ _ _ _ _ _ _); cbn [bind]; auto. apply IHl. intros; apply Hl; right; auto. }
    apply G. intros k Hk. apply in_zrange in Hk. unfold zlen. lia. }
  rewrite Hfold.
  assert (Hr0 : forall k, (k < P)%nat -> 0 <= nth k idx 0) by (intros; apply idx_nth; lia).
  assert (Hso : forall k, (S k < P)%nat -> nth k idx 0 <= nth (S k) idx 0) by (intros; apply S9; lia).
  assert (TI : tabinv val good (sim_at refs deg) idx sw c P (mcols deg) (List.length idx) 0 (repeat (repeat (nofZ N 0) (mcols deg)) (List.length idx), repeat (repeat 0 (mcols deg)) (List.length idx))).
  { eapply tab_init; eauto; try lia. }
  destruct (tab_all val good psim OD (sim_at refs deg) idx sw c P) with (cn := mcols deg) (M := List.length idx) (pf := pf) (simf := simf dps) (n := List.length idx) (t := (repeat (repeat (nofZ N 0) (mcols deg)) (List.length idx), repeat (repeat 0 (mcols deg)) (List.length idx))) as ([dp bt] & Et & It); auto; try lia.
  match goal with |- context [foldM ?f ?x ?l] => replace (foldM f x l) with (@Ok (list (list T) * list (list Z)) (dp, bt)) end. cbn [bind].
  destruct It as (I1 & I2 & I3 & _ & I5).
  rewrite (zget_in idx _ 0) by (unfold zlen; lia). cbn [bind]. replace (Z.to_nat (Z.of_nat P - 1)) with (P - 1)%nat by lia.
  destruct (Hbig (P - 1)%nat ltac:(lia)) as (B0 & B1 & B2).
  rewrite wrap_i32_id by lia. rewrite i32_ok by lia. cbn [bind].
  rewrite Z.mod_small by (unfold usize_mod; lia). rewrite uadd_ok by (unfold usize_mod; lia). cbn [bind]. rewrite uadd_ok by (unfold usize_mod; lia). cbn [bind].
  rewrite (zget_in dp _ []) by (unfold zlen; lia). cbn [bind]. replace (Z.to_nat (Z.of_nat P - 1)) with (P - 1)%nat by lia.
  assert (HRl := I5 (P - 1)%nat ltac:(lia) ltac:(lia)).
  destruct (last_ok val good psim OD (sim_at refs deg) idx sw c P) with (cn := mcols deg) (M := List.length idx) (row := nth (P - 1) dp []) as (o & Eo & Wo & Oo); auto; [lia|lia|apply I3; lia| |].
  { intros s Hs. destruct (HRl s ltac:(destruct Hs; lia)) as (_ & R2 & _). apply R2. auto. }
  unfold lo in Eo. rewrite Eo. cbn [bind]. rewrite Nat2Z.id.
  destruct (back_ok val good psim (sim_at refs deg) idx sw c P) with (cn := mcols deg) (M := List.length idx) (refs := refs) (deg := deg) (fp := fp) (pf := pf) (bt := bt) (D := tcell (nofZ N 0) dp) (fd := fd) (pd := nmul N fd (nofZ N (Z.of_nat fp))) (k := (P - 1)%nat) (s := o) (acc := @nil (PatchSim N)) as (out & E2 & Lo & Dd); auto; [lia|lia|intros; apply I3; auto|intros; apply I5; lia|].
  replace (S (P - 1)) with P in * by lia. rewrite app_nil_r in E2. exists out, (follow (tcell 0 bt) (P - 1) o).
  split; [exact E2|]. split; auto. destruct (HRl o ltac:(destruct Wo; lia)) as (_ & R2 & _). destruct (R2 Wo) as (Ad & Et2 & _ & _).
  replace (S (P - 1)) with P in * by lia. split; auto. split; auto. intros offs' Ha.
  split. { assert (Ha' : admissible sw c idx (S (P - 1)) offs') by (replace (S (P - 1)) with P by lia; auto). eapply (total_good val good psim OD (sim_at refs deg) idx sw c P Hr0 Hso Hlo Hpos (P - 1)); eauto; lia. }
  rewrite <- Et2. assert (Wl : in_window sw c (nth (P - 1) idx 0) (last offs' 0)).
  { destruct Ha as (L & A & _). rewrite last_nth, L. apply A. lia. }
  destruct (HRl (last offs' 0) ltac:(destruct Wl; lia)) as (_ & R2l & _). destruct (R2l Wl) as (_ & _ & _ & Ol).
  replace (S (P - 1)) with P in * by lia. eapply Rle_trans; [apply (Ol offs' Ha eq_refl)|]. apply Oo. auto.
Qed.
End Find.
