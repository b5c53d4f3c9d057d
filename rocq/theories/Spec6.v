(** Vocabulary of C60 to C62. *)
From Verif Require Import Base Num M_Nsim M_Visqol M_Cli.

(** ** C60: what the tool prints for one compared pair *)
Section Report.
Context {N : NumOps}.

(** One row per band: its similarity and its centre frequency. *)
Definition band_rows (n : nat) (r : SimilarityResult N) (rows : list (num N * num N)) : Prop :=
  List.length rows = n /\
  forall i x, nth_error rows i = Some x -> nth_error (fvnsim r) i = Some (fst x) /\
                                           nth_error (res_center_freq_bands r) i = Some (snd x).

(** One row per patch: its number from 0, its similarity, where it is in the reference
    and where in the degraded recording. *)
Definition patch_rows (r : SimilarityResult N) (rows : list (Z * num N * (num N * num N) * (num N * num N))) : Prop :=
  List.length rows = List.length (patch_sims r) /\
  forall i p, nth_error (patch_sims r) i = Some p ->
    nth_error rows i = Some (Z.of_nat i, similarity p, (ref_patch_start_time p, ref_patch_end_time p),
                             (deg_patch_start_time p, deg_patch_end_time p)).

(** What is printed for the result [r] of comparing [ref] and [deg], in [n] bands. *)
Definition reported (loud : bool) (n : nat) (ref deg : string) (r : SimilarityResult N) (ev : list (event N)) : Prop :=
  if loud then exists bands patches, band_rows n r bands /\ patch_rows r patches /\
    ev = [EReference ref; EDegraded deg; EMos (moslqo r); EFvnsimTable bands; EPatchTable patches]
  else ev = [EMos (moslqo r)].

(** The files written before that, in order. *)
Definition files_written (json csv : option string) (results : list (SimilarityResult N)) (rows : list (list (num N))) : list (event N) :=
  match json with Some p => [EJson p (match rev results with [] => None | r :: _ => Some r end)] | None => [] end ++
  match csv with Some p => [ECsv p rows] | None => [] end.
End Report.

(** ** C61: results that differ in the score only *)
Definition same_but_score {N} (r1 r2 : SimilarityResult N) : Prop :=
  vnsim r1 = vnsim r2 /\ fvnsim r1 = fvnsim r2 /\ fstdnsim r1 = fstdnsim r2 /\ fvdegenergy r1 = fvdegenergy r2 /\
  res_center_freq_bands r1 = res_center_freq_bands r2 /\ patch_sims r1 = patch_sims r2.
(** Both wideband or both fullband, whatever the mapping to a score. *)
Definition same_mode {N} (v1 v2 : Variant N) : Prop :=
  match v1, v2 with Wideband _, Wideband _ | Fullband _, Fullband _ => True | _, _ => False end.
(** A model that has fewer inputs than there are bands, or that fails on them. *)
Definition rejects {N} (v : Variant N) (sims : list (num N)) : Prop :=
  exists model, v = Fullband (Some model) /\ (svr_features model < zlen sims \/ svr_value model sims = None)%Z.

(** ** C62: similarities of the results of a search, added in patch order *)
Definition found_total {N} (out : list (PatchSim N)) : num N :=
  fold_left (fun acc e => nadd N (similarity e) acc) out (nofZ N 0).

(** ** C64: a row of a batch file that can be read from the disk *)
Definition readable (row : csv_line) : Prop := match row with CsvBad _ => False | _ => True end.
