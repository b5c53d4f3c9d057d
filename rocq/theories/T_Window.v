(** C62: searching further never finds a worse match. *)
From Coq Require Import Reals.
From Flocq Require Import IEEE754.BinarySingleNaN.
From Verif Require Import Base Num Mat F64 RNum M_Audio M_Nsim M_Selector Spec2 Spec6 Witness P_Dp2 P_Window.
Open Scope Z_scope.

(** If all similarities inside the larger windows are positive, searching with a larger
    radius gives as many patches and no smaller total similarity: in f64 ... *)
Theorem C62_larger_window : forall lm pf (refs : list (mat (F64 lm))) idx deg fd r1 r2 fp out1 out2,
  search_input refs idx deg r2 fp -> 1 <= r1 <= r2 ->
  (forall k s, (k < List.length out2)%nat -> in_window (r2 * Z.of_nat fp) (Z.of_nat (mcols deg)) (nth k idx 0) s ->
     is_finite (sim_at refs deg k s : f64) = true /\ Bltb (f64_ofZ 0) (sim_at refs deg k s) = true) ->
  find_most_optimal_deg_patches pf refs idx deg fd r1 = Ok out1 -> find_most_optimal_deg_patches pf refs idx deg fd r2 = Ok out2 ->
  List.length out1 = List.length out2 /\ Bleb (found_total out1 : f64) (found_total out2) = true.
Proof. exact C62_f64. Qed.
Print Assumptions C62_larger_window.

(** ... and in exact arithmetic. *)
Theorem C62_larger_window_exact : forall pf (refs : list (mat RN)) idx deg fd r1 r2 fp out1 out2,
  search_input refs idx deg r2 fp -> 1 <= r1 <= r2 ->
  (forall k s, (k < List.length out2)%nat -> in_window (r2 * Z.of_nat fp) (Z.of_nat (mcols deg)) (nth k idx 0) s -> (0 < sim_at refs deg k s)%R) ->
  find_most_optimal_deg_patches pf refs idx deg fd r1 = Ok out1 -> find_most_optimal_deg_patches pf refs idx deg fd r2 = Ok out2 ->
  List.length out1 = List.length out2 /\ (found_total out1 <= found_total out2)%R.
Proof. exact C62_R. Qed.
Print Assumptions C62_larger_window_exact.

(** A case where the larger window is strictly better. *)
Example C62_example : exists out1 out2, search_input dp_refs [1; 6] far_deg 2 1 /\
  find_most_optimal_deg_patches Debug dp_refs [1; 6] far_deg (f64_ofZ 1) 1 = Ok out1 /\
  find_most_optimal_deg_patches Debug dp_refs [1; 6] far_deg (f64_ofZ 1) 2 = Ok out2 /\
  (forall k s, (k < List.length out2)%nat -> in_window 2 8 (nth k [1; 6] 0) s ->
     is_finite (sim_at dp_refs far_deg k s : f64) = true /\ Bltb (f64_ofZ 0) (sim_at dp_refs far_deg k s) = true) /\
  Bltb (found_total out1 : f64) (found_total out2) = true.
Proof. exact C62_ex. Qed.
