(** The centre frequencies a comparison reports. *)
From Coq Require Import Reals Lra Lia Psatz.
From Verif Require Import Base Num Mat RNum M_Audio M_Align M_Spectro M_Patch M_Nsim M_Selector M_Visqol Spec Spec2.
From Verif Require Import P_Base P_Mat P_Manager P_Run P_Spectro P_Score P_R P_Agg P_Bands.
Open Scope R_scope.

Lemma cf_erb nb k low high : (k < nb)%nat -> 0 <= low -> low < high ->
  let q := qR in
  let c := - q + exp ((INR (nb - 1 - k) + 1) * ((- ln (high + q) + ln (low + q)) / INR nb)) * (high + q) in
  ln (c + q) = ln (low + q) + INR k / INR nb * (ln (high + q) - ln (low + q)).
Proof.
  intros Hk Hl Hh q c. pose proof qR_pos. assert (Hn : 0 < INR nb) by (apply lt_0_INR; lia).
  unfold c. replace (- q + exp ((INR (nb - 1 - k) + 1) * ((- ln (high + q) + ln (low + q)) / INR nb)) * (high + q) + q)
    with (exp ((INR (nb - 1 - k) + 1) * ((- ln (high + q) + ln (low + q)) / INR nb)) * (high + q)) by ring.
  rewrite ln_mult; [|apply exp_pos|unfold q; lra]. rewrite ln_exp.
  replace (INR (nb - 1 - k) + 1) with (INR nb - INR k). { field. lra. }
  rewrite minus_INR, minus_INR by lia. cbn [INR]. ring.
Qed.
Lemma bands_build nb (f f' : Filterbank RN) s w sp upper :
  (1 <= nb)%nat -> 0 <= fb_min_freq f ->
  upper = Rmin (IZR (max_freq nb (sample_rate s))) (IZR (sample_rate s) / 2) ->
  fb_min_freq f < upper ->
  build nb f s w = (f', Ok sp) ->
  forall k, (k < nb)%nat -> ln (nth k (center_freq_bands sp) 0 + qR) = ln (fb_min_freq f + qR) + INR k / INR nb * (ln (upper + qR) - ln (fb_min_freq f + qR)).
Proof.
  intros Hn Hl Hu Hh B k Hk.
  assert (U : (if nltb RN (ndiv RN (nofZ RN (sample_rate s)) (nofZ RN 2)) (nofZ RN (max_freq nb (sample_rate s)))
               then ndiv RN (nofZ RN (sample_rate s)) (nofZ RN 2) else nofZ RN (max_freq nb (sample_rate s))) = upper).
  { cbn [RN nltb ndiv nofZ]. rewrite Hu. unfold Rmin. destruct (Rltb _ _) eqn:E.
    - apply Rltb_true in E. destruct (Rle_dec _ _); lra.
    - apply Rltb_false in E. destruct (Rle_dec _ _); lra. }
  pose proof (build_inv nb f f' s w sp B) as (_ & _ & cols & _ & _ & S).
  unfold make_filters in S. cbv zeta in S. cbn [snd] in S. rewrite U in S.
  rewrite cfs_sorted in S by auto. injection S as S.
  assert (E : nth k (center_freq_bands sp) 0 = - qR + exp ((INR (nb - 1 - k) + 1) * ((- ln (upper + qR) + ln (fb_min_freq f + qR)) / INR nb)) * (upper + qR)).
  { rewrite <- S. apply rev_cfs; auto. }
  etransitivity; [exact (f_equal (fun x => ln (x + qR)) E)|]. apply cf_erb; auto.
Qed.
Lemma C32_run pf nb v ws (m m' : Manager RN) calls files a b (rs : AudioSignal RN) r :
  new_manager nb v ws = Ok m -> load_as_mono (files a) = Ok rs -> (102 <= sample_rate rs)%Z ->
  run pf nb files (after_calls pf nb m calls) a b = (m', Ok r) ->
  let rate := sample_rate rs in
  let upper := Rmin (IZR (if Nat.eqb nb 21 then 8000 else rate / 2)) (IZR rate / 2) in
  let q := 926449 / 100000 * (247 / 10) in
  let c := res_center_freq_bands r in
  List.length c = nb /\ nth 0 c 0 = 50 /\
  (forall i j, (i < j < nb)%nat -> nth i c 0 < nth j c 0) /\
  (forall i, (i < nb)%nat -> nth i c 0 < upper) /\
  (forall k, (k < nb)%nat -> ln (nth k c 0 + q) = ln (50 + q) + INR k / INR nb * (ln (upper + q) - ln (50 + q))).
Proof.
  intros Hm La Hr H rate upper q c.
  pose proof H as H0. apply run_ok in H0. destruct H0 as (rs0 & ds0 & al0 & lag0 & f0 & A1 & A2 & _ & A4 & H0).
  apply calculate_ok in H0. destruct H0 as (L1 & L2 & _ & _ & SH & NE & VN & _). clear A1 A2 A4.
  assert (Hnb : (1 <= nb)%nat) by (destruct nb; [|lia]; destruct (fvnsim r); [discriminate VN|discriminate L1]).
  set (m1 := after_calls pf nb m calls) in *. destruct (after_same pf nb calls m) as (_ & _ & _ & FM). fold m1 in FM.
  assert (HM : fb_min_freq (mg_filterbank m1) = 50).
  { rewrite FM. unfold new_manager in Hm. destruct v as [u|[s|]]; cbn [bind] in Hm; try discriminate; injection Hm as <-; reflexivity. }
  apply run_parts in H. destruct H as (rs' & ds' & al & lag & fb1 & fb2 & fb3 & rspec & dspec & rp & dp & idx & pts & info & H).
  cbv zeta in H. destruct H as (LA & _ & _ & _ & B1 & _ & _ & _ & _ & _ & _ & _ & _ & _ & CF).
  assert (rs' = rs) by congruence. subst rs'.
  assert (UP : 50 < upper).
  { unfold upper. apply Rmin_glb_lt.
    - destruct (Nat.eqb nb 21); [lra|]. apply (IZR_lt 50). assert (51 <= rate / 2)%Z by (apply Z.div_le_lower_bound; unfold rate; lia). lia.
    - assert (102 <= IZR rate) by (apply (IZR_le 102); exact Hr). lra. }
  destruct (C32_R nb _ _ _ _ _ upper Hnb ltac:(rewrite HM; lra) eq_refl ltac:(rewrite HM; exact UP) B1) as (C1 & C2 & C3 & C4 & _).
  pose proof (bands_build nb _ _ _ _ _ upper Hnb ltac:(rewrite HM; lra) eq_refl ltac:(rewrite HM; exact UP) B1) as C5.
  unfold c. rewrite CF. rewrite HM in C2, C5. auto.
Qed.
