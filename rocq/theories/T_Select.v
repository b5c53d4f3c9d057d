(** C25, C26: the search for the degraded patches. *)
From Coq Require Import Reals.
From Flocq Require Import Core IEEE754.BinarySingleNaN.
From Verif Require Import Base Num Mat F64 RNum M_Audio M_Align M_Spectro M_Patch M_Nsim M_Selector.
From Verif Require Import Spec Spec2 Witness P_Dp P_Dp2.
Open Scope Z_scope.

(** C25, f64: if all similarities inside the windows are finite and positive, the result
    describes an admissible choice of start frames and no admissible choice has a larger
    total. *)
Theorem C25_optimal : forall lm pf (refs : list (mat (F64 lm))) idx deg fd radius fp out,
  search_input refs idx deg radius fp ->
  let sw := radius * Z.of_nat fp in
  let c := Z.of_nat (mcols deg) in
  (forall k s, (k < List.length out)%nat -> in_window sw c (nth k idx 0) s ->
     is_finite (sim_at refs deg k s : f64) = true /\ Bltb (f64_ofZ 0) (sim_at refs deg k s) = true) ->
  find_most_optimal_deg_patches pf refs idx deg fd radius = Ok out ->
  exists offs, admissible sw c idx (List.length out) offs /\
    (forall k e, nth_error out k = Some e ->
       describes refs deg idx fd (nmul (F64 lm) fd (nofZ (F64 lm) (Z.of_nat fp))) offs k e) /\
    (forall offs', admissible sw c idx (List.length out) offs' ->
       Bleb (total (sim_at refs deg) offs' : f64) (total (sim_at refs deg) offs) = true).
Proof. exact C25_f64. Qed.
Print Assumptions C25_optimal.

(** C25 in exact arithmetic. *)
Theorem C25_optimal_exact : forall pf (refs : list (mat RN)) idx deg fd radius fp out,
  search_input refs idx deg radius fp ->
  let sw := radius * Z.of_nat fp in
  let c := Z.of_nat (mcols deg) in
  (forall k s, (k < List.length out)%nat -> in_window sw c (nth k idx 0) s -> (0 < sim_at refs deg k s)%R) ->
  find_most_optimal_deg_patches pf refs idx deg fd radius = Ok out ->
  exists offs, admissible sw c idx (List.length out) offs /\
    (forall k e, nth_error out k = Some e -> describes refs deg idx fd (fd * IZR (Z.of_nat fp))%R offs k e) /\
    (forall offs', admissible sw c idx (List.length out) offs' ->
       (total (sim_at refs deg) offs' <= total (sim_at refs deg) offs)%R).
Proof. exact C25_R. Qed.
Print Assumptions C25_optimal_exact.

Example C25_example : exists out, search_input dp_refs [1; 5] dp_deg 1 1 /\
  find_most_optimal_deg_patches Debug dp_refs [1; 5] dp_deg (f64_ofZ 1) 1 = Ok out /\ List.length out = 2%nat /\
  (forall k s, (k < List.length out)%nat -> in_window 1 8 (nth k [1; 5] 0) s ->
     is_finite (sim_at dp_refs dp_deg k s : f64) = true /\ Bltb (f64_ofZ 0) (sim_at dp_refs dp_deg k s) = true).
Proof. exact C25_ex. Qed.

(** C26: order, window, distinct starts of matched patches, zeroed lost patches. *)
Theorem C26_order_window_lost : forall lm pf (refs : list (mat (F64 lm))) idx deg fd radius fp out,
  search_input refs idx deg radius fp ->
  let sw := radius * Z.of_nat fp in
  let c := Z.of_nat (mcols deg) in
  let pd := nmul (F64 lm) fd (nofZ (F64 lm) (Z.of_nat fp)) in
  (forall k s, (k < List.length out)%nat -> in_window sw c (nth k idx 0) s ->
     is_finite (sim_at refs deg k s : f64) = true /\ Bltb (f64_ofZ 0) (sim_at refs deg k s) = true) ->
  find_most_optimal_deg_patches pf refs idx deg fd radius = Ok out ->
  exists (offs : list Z) (lost : nat -> bool),
    List.length offs = List.length out /\
    (forall k, (S k < List.length out)%nat -> nth k offs 0 <= nth (S k) offs 0) /\
    (forall k, (k < List.length out)%nat ->
       0 <= nth k offs 0 < c /\ Z.abs (nth k offs 0 - nth k idx 0) <= sw) /\
    lost O = false /\
    (forall j k, (j < k < List.length out)%nat -> lost k = false -> nth j offs 0 <> nth k offs 0) /\
    (forall k e, nth_error out k = Some e ->
       ref_patch_start_time e = nmul (F64 lm) (nofZ (F64 lm) (nth k idx 0)) fd /\
       ref_patch_end_time e = nadd (F64 lm) (ref_patch_start_time e) pd /\
       if lost k
       then deg_patch_start_time e = f64_ofZ 0 /\ deg_patch_end_time e = f64_ofZ 0 /\
            similarity e = f64_ofZ 0 /\ Forall (fun m => m = f64_ofZ 0) (freq_band_means e)
       else similarity e = sim_at refs deg k (nth k offs 0) /\
            deg_patch_start_time e = nmul (F64 lm) (nofZ (F64 lm) (nth k offs 0)) fd /\
            deg_patch_end_time e = nadd (F64 lm) (deg_patch_start_time e) pd).
Proof. exact C26_f64. Qed.
Print Assumptions C26_order_window_lost.

(** Without positive similarities the window claim fails: no admissible choice of start
    frames fits the result. *)
Theorem C26_window_refuted : exists lm (refs : list (mat (F64 lm))) idx deg radius fp out,
  search_input refs idx deg radius fp /\
  find_most_optimal_deg_patches Debug refs idx deg (f64_ofZ 1) radius = Ok out /\ fp = 1%nat /\
  forall offs, admissible (radius * Z.of_nat fp) (Z.of_nat (mcols deg)) idx (List.length out) offs ->
    exists k e, nth_error out k = Some e /\ ~ describes refs deg idx (f64_ofZ 1) (f64_ofZ 1) offs k e.
Proof.
  destruct C26_bad as (out & A & B & C & D). exists lm_ex, dp_refs, [0; 5], dp_deg_bad, 1, 1%nat, out.
  split; [exact A|]. split; [exact B|]. split; [reflexivity|]. rewrite C. exact D.
Qed.
Print Assumptions C26_window_refuted.
