(** C61: what depends on the mapping from similarity to a score. *)
From Coq Require Import Reals Lra.
From Verif Require Import Base Num RNum M_Audio M_Visqol Spec Spec6 P_Run P_Mapping T_Same.
Open Scope R_scope.

(** Two managers of the same mode and search window but any two mappings (wideband:
    scaled or not; fullband: any two models), whatever they did before: a comparison
    ends the same way and all reported numbers but the score are equal, unless a model
    rejects the similarities of the bands.  For every arithmetic. *)
Theorem C61_mapping_changes_score_only : forall N pf nb v1 v2 w (m1 m2 : Manager N) calls1 calls2 files a b,
  same_mode v1 v2 -> new_manager nb v1 w = Ok m1 -> new_manager nb v2 w = Ok m2 ->
  match snd (run pf nb files (after_calls pf nb m1 calls1) a b), snd (run pf nb files (after_calls pf nb m2 calls2) a b) with
  | Ok r1, Ok r2 => same_but_score r1 r2
  | Err e1, Err e2 => e1 = e2
  | Panic _, Panic _ => True
  | Ok r, Panic _ => rejects v2 (fvnsim r)
  | Panic _, Ok r => rejects v1 (fvnsim r)
  | _, _ => False
  end.
Proof. exact @C61_all. Qed.
Print Assumptions C61_mapping_changes_score_only.

(** In exact arithmetic the scaled wideband score is the unscaled one times 1.2031409,
    except that both are 1 below a similarity of 0.15. *)
Theorem C61_scaled_is_a_multiple : forall nb w (m1 m2 m1' m2' : Manager RN) calls1 calls2 pf files a b r1 r2,
  new_manager nb (Wideband false) w = Ok m1 -> new_manager nb (Wideband true) w = Ok m2 ->
  run pf nb files (after_calls pf nb m1 calls1) a b = (m1', Ok r1) -> run pf nb files (after_calls pf nb m2 calls2) a b = (m2', Ok r2) ->
  vnsim r1 = vnsim r2 /\ moslqo r1 = if Rlt_dec (vnsim r2) 0.15 then moslqo r2 else 1.2031409 * moslqo r2.
Proof. exact C61_factor_all. Qed.
Print Assumptions C61_scaled_is_a_multiple.

(** Scores of a wideband comparison leave a gap above 1 and, unscaled, end at 4.156. *)
Theorem C61_wideband_scores : forall nb unscaled w (m m' : Manager RN) calls pf files a b r,
  new_manager nb (Wideband unscaled) w = Ok m ->
  run pf nb files (after_calls pf nb m calls) a b = (m', Ok r) ->
  (vnsim r < 0.15 /\ moslqo r = 1) \/
  (0.15 <= vnsim r /\ if unscaled then 1.211 < moslqo r < 4.156 else 1.456 < moslqo r < 5).
Proof. exact C61_gap_all. Qed.
Print Assumptions C61_wideband_scores.

(** Two wideband comparisons are ranked by their similarities, from 0.15 on. *)
Theorem C61_ranking : forall nb unscaled w (m m' m'' : Manager RN) calls calls' pf files a b files' c d r s,
  new_manager nb (Wideband unscaled) w = Ok m ->
  run pf nb files (after_calls pf nb m calls) a b = (m', Ok r) -> run pf nb files' (after_calls pf nb m calls') c d = (m'', Ok s) ->
  (moslqo r < moslqo s <-> vnsim r < vnsim s /\ 0.15 <= vnsim s).
Proof. exact C61_rank_all. Qed.
Print Assumptions C61_ranking.

(** Whether a wideband comparison succeeds does not depend on the mapping. *)
Theorem C61_same_success : forall N pf nb u1 u2 w (m1 m2 m1' : Manager N) calls1 calls2 files a b r1,
  new_manager nb (Wideband u1) w = Ok m1 -> new_manager nb (Wideband u2) w = Ok m2 ->
  run pf nb files (after_calls pf nb m1 calls1) a b = (m1', Ok r1) ->
  exists m2' r2, run pf nb files (after_calls pf nb m2 calls2) a b = (m2', Ok r2) /\ same_but_score r1 r2.
Proof. exact C61_both_all. Qed.
Print Assumptions C61_same_success.

(** A tone against itself under both mappings. *)
Example C61_example : forall pf calls, exists m1 m2 m1' m2' r1 r2,
  new_manager (N:=RN) 21 (Wideband false) 60 = Ok m1 /\ new_manager (N:=RN) 21 (Wideband true) 60 = Ok m2 /\
  run pf 21 tone_world (after_calls pf 21 m1 calls) "ref.wav" "deg.wav" = (m1', Ok r1) /\
  run pf 21 tone_world (after_calls pf 21 m2 calls) "ref.wav" "deg.wav" = (m2', Ok r2) /\ vnsim r2 = 1.
Proof.
  intros pf calls. destruct (C41_example pf calls) as (m1 & H1 & m1' & r1 & E1 & V & _).
  destruct (new_manager (N:=RN) 21 (Wideband true) 60) as [m2| |] eqn:H2; [|discriminate H2|discriminate H2].
  destruct (C61_same_success RN pf 21 false true 60 m1 m2 m1' calls calls tone_world "ref.wav" "deg.wav" r1 H1 H2 E1) as (m2' & r2 & E2 & G & _).
  exists m1, m2, m1', m2', r1, r2. split; [exact H1|]. split; [reflexivity|]. split; [exact E1|]. split; [exact E2|]. rewrite <- G. exact V.
Qed.
