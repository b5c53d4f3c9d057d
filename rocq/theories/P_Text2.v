(** A printer of binary64 numbers that keeps every number, to show that the hypothesis
    of C68 can be met: integer mantissa and decimal exponent, all digits. *)
From Flocq Require Import Core BinarySingleNaN.
From Coq Require Import Ascii Reals Psatz.
From Verif Require Import Base Num F64 M_Nsim M_Visqol M_Cli M_Text Spec Spec8 WitnessZ P_Run P_Cli P_Text.
Local Open Scope string_scope.

Definition digit_char (d : Z) : ascii := ascii_of_nat (Z.to_nat (d + 48)).
Fixpoint dec (fuel : nat) (z : Z) (acc : string) : string :=
  match fuel with
  | O => acc
  | S f => if (z <? 10)%Z then String (digit_char z) acc else dec f (z / 10) (String (digit_char (z mod 10)) acc)
  end.
Definition decimal (z : Z) (acc : string) : string := dec (S (Z.to_nat (Z.log2 z))) z acc.
Definition exact_text (x : f64) : string :=
  match x with
  | B754_zero s => if s then "-0" else "0"
  | B754_infinity s => if s then "-inf" else "inf"
  | B754_nan => "NaN"
  | B754_finite s m e _ =>
    (if s then "-" else "") ++
    (if (0 <=? e)%Z then decimal (Zpos m * 2 ^ e) "" else decimal (Zpos m * 5 ^ (- e)) (String "e" (String "-" (decimal (- e) ""))))
  end.

Lemma digit_digit d : (0 <= d < 10)%Z -> digit (digit_char d) = Some d /\ (d <> 0%Z -> Ascii.eqb (digit_char d) "0" = false) /\
  Ascii.eqb (digit_char d) "-" = false /\ Ascii.eqb (digit_char d) "+" = false.
Proof.
  intros H. assert (C : (d = 0 \/ d = 1 \/ d = 2 \/ d = 3 \/ d = 4 \/ d = 5 \/ d = 6 \/ d = 7 \/ d = 8 \/ d = 9)%Z) by lia.
  repeat (destruct C as [-> |C]; [split; [reflexivity|split; [intros; try lia; reflexivity|split; reflexivity]]|]).
  subst d. split; [reflexivity|split; [intros; try lia; reflexivity|split; reflexivity]].
Qed.
Lemma digits_dec fuel : forall z acc, (0 <= z < 2 ^ Z.of_nat fuel)%Z -> (0 < fuel)%nat ->
  exists k, (0 < k)%Z /\ digits 0 (dec fuel z acc) = (let '(v, n, r) := digits z acc in (v, n + k, r)%Z).
Proof.
  induction fuel as [|f IH]; intros z acc H L; [lia|]. cbn [dec].
  destruct (Z.ltb_spec z 10).
  - exists 1%Z. split; [lia|]. cbn [digits]. rewrite (proj1 (digit_digit z ltac:(lia))). replace (10 * 0 + z)%Z with z by lia. reflexivity.
  - rewrite Nat2Z.inj_succ, Z.pow_succ_r in H by lia.
    assert (Hd : (0 <= z / 10 < 2 ^ Z.of_nat f)%Z).
    { split; [apply Z.div_pos; lia|]. apply Z.div_lt_upper_bound; lia. }
    assert (Hf : (0 < f)%nat). { destruct f; [|lia]. change (2 ^ Z.of_nat 0)%Z with 1%Z in *. lia. }
    destruct (IH (z / 10)%Z (String (digit_char (z mod 10)) acc) Hd Hf) as (k & K & E). rewrite E.
    exists (k + 1)%Z. split; [lia|]. cbn [digits].
    rewrite (proj1 (digit_digit (z mod 10) (Z.mod_pos_bound z 10 ltac:(lia)))).
    rewrite <- (Z.div_mod z 10) by lia.
    destruct (digits z acc) as [[v n] r]. f_equal. f_equal. lia.
Qed.
Lemma dec_head fuel : forall z acc, (1 <= z < 2 ^ Z.of_nat fuel)%Z -> exists d t, (1 <= d < 10)%Z /\ dec fuel z acc = String (digit_char d) t.
Proof.
  induction fuel as [|f IH]; intros z acc H; [cbn in H; lia|]. cbn [dec].
  destruct (Z.ltb_spec z 10); [exists z, acc; split; [lia|reflexivity]|].
  rewrite Nat2Z.inj_succ, Z.pow_succ_r in H by lia. apply IH.
  split; [apply Z.div_le_lower_bound; lia|]. apply Z.div_lt_upper_bound; lia.
Qed.
Lemma fuel_ok z : (1 <= z)%Z -> (1 <= z < 2 ^ Z.of_nat (S (Z.to_nat (Z.log2 z))))%Z.
Proof.
  intros H. pose proof (Z.log2_spec z ltac:(lia)) as [_ L]. pose proof (Z.log2_nonneg z).
  rewrite Nat2Z.inj_succ, Z2Nat.id by lia. lia.
Qed.
Lemma digits_decimal z acc : (1 <= z)%Z -> exists k, (0 < k)%Z /\ digits 0 (decimal z acc) = (let '(v, n, r) := digits z acc in (v, n + k, r)%Z).
Proof. intros H. unfold decimal. apply digits_dec; [|lia]. pose proof (fuel_ok z H). lia. Qed.
Lemma sign_decimal p z acc : (1 <= z)%Z -> sign p (decimal z acc) = (false, decimal z acc) /\ leading_zero (decimal z acc) = false.
Proof.
  intros H. unfold decimal. destruct (dec_head _ z acc (fuel_ok z H)) as (d & t & Hd & ->).
  destruct (digit_digit d ltac:(lia)) as (D0 & D1 & D2 & D3). cbn [sign]. rewrite D2, D3, Bool.andb_false_r. split; auto.
  cbn [leading_zero]. destruct t; auto. rewrite D1 by lia. reflexivity.
Qed.
Lemma exponent_decimal z : (1 <= z)%Z -> exponent (String "e" (String "-" (decimal z ""))) = Some (- z)%Z.
Proof.
  intros H. cbn [exponent]. change (Ascii.eqb "e" "e" || Ascii.eqb "e" "E")%bool with true. cbn iota.
  change (sign true (String "-" (decimal z ""))) with (true, decimal z ""). cbn iota beta.
  destruct (digits_decimal z "" H) as (k & K & ->). cbn [digits].
  destruct (Z.ltb_spec 0 (0 + k)); [reflexivity|lia].
Qed.
Lemma read_plain (b : bool) z : (1 <= z)%Z -> read_number ((if b then "-" else "") ++ decimal z "") = Some (b, z, 0%Z).
Proof.
  intros H. unfold read_number.
  assert (S : sign false ((if b then "-" else "") ++ decimal z "") = (b, decimal z "")) by (destruct b; [reflexivity|apply sign_decimal; auto]).
  rewrite S. rewrite (proj2 (sign_decimal false z "" H)). destruct (digits_decimal z "" H) as (k & K & ->). cbn [digits].
  destruct (Z.leb_spec (0 + k) 0); [lia|reflexivity].
Qed.
Lemma read_exp (b : bool) z y : (1 <= z)%Z -> (1 <= y)%Z ->
  read_number ((if b then "-" else "") ++ decimal z (String "e" (String "-" (decimal y "")))) = Some (b, z, - y)%Z.
Proof.
  intros H Hy. unfold read_number. set (tl := String "e" (String "-" (decimal y ""))).
  assert (S : sign false ((if b then "-" else "") ++ decimal z tl) = (b, decimal z tl)) by (destruct b; [reflexivity|apply sign_decimal; auto]).
  rewrite S. rewrite (proj2 (sign_decimal false z tl H)). destruct (digits_decimal z tl H) as (k & K & ->).
  assert (D : digits z tl = (z, 0%Z, tl)) by reflexivity. rewrite D. destruct (Z.leb_spec (0 + k) 0); [lia|].
  unfold tl at 1. change (Ascii.eqb "e" ".") with false. cbn iota. fold tl. unfold tl. rewrite exponent_decimal by auto. reflexivity.
Qed.

Lemma exact_reads x : is_finite x = true -> reads_as (exact_text x) x.
Proof.
  destruct x as [b|b| |b m e H]; cbn [exact_text]; try discriminate; intros _.
  - destruct b; (eexists _, 0%Z, 0%Z; split; [reflexivity|]; split; [reflexivity|]; split; [reflexivity|]; cbn [B2R]; rewrite Rabs_R0, Rmult_0_l, round_0; [reflexivity|apply valid_rnd_N]).
  - pose proof (generic_format_B2R 53 1024 (B754_finite b m e H)) as G.
    assert (A : Rabs (B2R (B754_finite b m e H)) = (IZR (Zpos m) * bpow radix2 e)%R).
    { cbn [B2R]. rewrite <- F2R_Zabs. unfold F2R. cbn [Fnum Fexp]. f_equal. f_equal. destruct b; reflexivity. }
    assert (R : forall z y, (1 <= z)%Z -> (IZR z * bpow (Build_radix 10 eq_refl) y = IZR (Zpos m) * bpow radix2 e)%R ->
      Rabs (B2R (B754_finite b m e H)) = round radix2 (FLT_exp (-1074) 53) ZnearestE (IZR z * bpow (Build_radix 10 eq_refl) y)).
    { intros z y _ Hz. rewrite Hz, <- A. symmetry. apply round_generic; [apply valid_rnd_N|]. apply generic_format_abs. exact G. }
    destruct (Z.leb_spec 0 e).
    + assert (Z1 : (1 <= Zpos m * 2 ^ e)%Z) by (pose proof (Z.pow_pos_nonneg 2 e ltac:(lia) ltac:(lia)); nia).
      eexists b, _, _. split; [apply read_plain; auto|]. split; [reflexivity|]. split; [reflexivity|]. apply R; auto.
      cbn [bpow]. rewrite Rmult_1_r, mult_IZR. f_equal. rewrite <- (IZR_Zpower radix2) by auto. reflexivity.
    + assert (Z1 : (1 <= Zpos m * 5 ^ (- e))%Z) by (pose proof (Z.pow_pos_nonneg 5 (- e) ltac:(lia) ltac:(lia)); nia).
      eexists b, _, _. split; [apply read_exp; auto; lia|]. split; [reflexivity|]. split; [reflexivity|]. apply R; auto.
      rewrite mult_IZR, Rmult_assoc. f_equal. rewrite Z.opp_involutive.
      replace e with (- (- e))%Z at 2 3 by lia. rewrite (bpow_opp radix2 (- e)), (bpow_opp (Build_radix 10 eq_refl) (- e)).
      rewrite <- (IZR_Zpower radix2 (- e)) by lia. rewrite <- (IZR_Zpower (Build_radix 10 eq_refl) (- e)) by lia. change (radix_val radix2) with 2%Z. change (radix_val (Build_radix 10 eq_refl)) with (5 * 2)%Z.
      rewrite Z.pow_mul_l, mult_IZR.
      assert (IZR (5 ^ (- e)) <> 0)%R by (apply IZR_neq; pose proof (Z.pow_pos_nonneg 5 (- e)); lia).
      assert (IZR (2 ^ (- e)) <> 0)%R by (apply IZR_neq; pose proof (Z.pow_pos_nonneg 2 (- e)); lia).
      field. auto.
Qed.

Lemma exact_prints lm : prints_numbers (N:=F64 lm) (@is_finite 53 1024) reads_as exact_text.
Proof.
  intros x. unfold cell_shows. split.
  - match goal with |- if ?b then _ else _ => destruct b eqn:E end; [apply exact_reads, E|].
    destruct x as [b|b| |b m e H]; try discriminate; [destruct b|]; cbn; auto.
  - intros E. destruct (exact_reads x E) as (a & b & c & -> & _). discriminate.
Qed.

(** ** C68 *)
Lemma C68_json (N : NumOps) finite reads fmt pf (w : World N) args ev path before :
  prints_numbers finite reads fmt ->
  main pf w args = (ev, Ok tt) -> output_debug args = Some path -> results_csv args <> Some path ->
  exists pairs m results, selects w args pairs /\ tool_manager w args m /\ compared pf w args m pairs results /\
    match rev results with
    | [] => text_after finite fmt path before ev = ""%string
    | last :: _ => exists j, read_json (text_after finite fmt path before ev) = Some j /\ shows_result finite reads j last
    end.
Proof.
  intros P H Hp Hc. destruct (tool_json finite fmt pf w args ev path before H Hp Hc) as (pairs & m & results & S & T & C & E).
  exists pairs, m, results. repeat split; auto. rewrite E. destruct (rev results) as [|r t]; [reflexivity|]. apply json_reads, P.
Qed.
Lemma compared_same {N} pf (w : World N) args p1 p2 m1 m2 r1 r2 : selects w args p1 -> tool_manager w args m1 -> compared pf w args m1 p1 r1 ->
  selects w args p2 -> tool_manager w args m2 -> compared pf w args m2 p2 r2 -> r2 = r1.
Proof.
  intros H1 H2 H3 H1' H2' H3'. apply build_pairs in H1. apply build_pairs in H1'. assert (p2 = p1) by congruence. subst p2.
  unfold tool_manager in *. assert (m2 = m1) by congruence. subst m2.
  apply (run_all_ok pf _ _ _ m1 m1) in H3; [|apply same_refl]. apply (run_all_ok pf _ _ _ m1 m1) in H3'; [|apply same_refl].
  congruence.
Qed.
Lemma C68_empty (N : NumOps) finite fmt pf (w : World N) args ev path before :
  main pf w args = (ev, Ok tt) -> output_debug args = Some path -> results_csv args <> Some path -> selects w args [] ->
  read_json (text_after finite fmt path before ev) = None.
Proof.
  intros H Hp Hc S0. destruct (tool_json finite fmt pf w args ev path before H Hp Hc) as (pairs & m & results & S & T & C & E).
  apply build_pairs in S0. apply build_pairs in S. assert (pairs = []) by congruence. subst pairs. inversion C; subst. rewrite E. reflexivity.
Qed.
Lemma C68_injective lm fmt (r1 r2 : SimilarityResult (F64 lm)) :
  prints_numbers (N:=F64 lm) (@is_finite 53 1024) reads_as fmt ->
  finite_result (N:=F64 lm) (@is_finite 53 1024) r1 -> finite_result (N:=F64 lm) (@is_finite 53 1024) r2 ->
  json_text (N:=F64 lm) (@is_finite 53 1024) fmt (Some r1) = json_text (N:=F64 lm) (@is_finite 53 1024) fmt (Some r2) ->
  r1 = r2.
Proof.
  intros P F1 F2 E. destruct (json_reads (N:=F64 lm) _ reads_as fmt P r1) as (j1 & R1 & S1). destruct (json_reads (N:=F64 lm) _ reads_as fmt P r2) as (j2 & R2 & S2).
  rewrite E, R2 in R1. injection R1 as ->. eapply (result_one (N:=F64 lm) _ reads_as reads_one); eauto.
Qed.
Lemma C68_nan_inf lm : exists r1 r2 : SimilarityResult (F64 lm),
  r1 <> r2 /\ forall fmt, json_text (N:=F64 lm) (@is_finite 53 1024) fmt (Some r1) = json_text (N:=F64 lm) (@is_finite 53 1024) fmt (Some r2).
Proof.
  exists (@Build_SimilarityResult (F64 lm) B754_nan B754_nan [] [] [] [] []), (@Build_SimilarityResult (F64 lm) (B754_infinity false) B754_nan [] [] [] [] []).
  split; [|reflexivity]. intros H. apply (f_equal (@moslqo (F64 lm))) in H. cbn in H. discriminate.
Qed.
Lemma C68_csv (N : NumOps) finite reads fmt pf (w : World N) args ev path before :
  prints_numbers finite reads fmt ->
  main pf w args = (ev, Ok tt) -> results_csv args = Some path ->
  exists pairs m results, selects w args pairs /\ tool_manager w args m /\ compared pf w args m pairs results /\
    Forall2 (Forall2 (cell_shows finite reads)) (read_csv (text_after finite fmt path before ev)) (map result_row results).
Proof.
  intros P H Hp. destruct (tool_csv finite fmt pf w args ev path before H Hp) as (pairs & m & results & S & T & C & E).
  exists pairs, m, results. repeat split; auto. rewrite E. apply csv_reads; auto.
  rewrite Forall_map. apply Forall_forall. intros r _. discriminate.
Qed.

(** Integers. *)
Definition z_text (z : Z) : string := match z with Z0 => "0" | Zpos _ => decimal z "" | Zneg p => "-" ++ decimal (Zpos p) "" end.
Definition z_reads (s : string) (z : Z) : Prop := read_number s = Some ((z <? 0)%Z, Z.abs z, 0%Z).
Lemma z_prints : prints_numbers (N:=ZN) (fun _ => true) z_reads z_text.
Proof.
  assert (R : forall z, z_reads (z_text z) z).
  { intros [|p|p]; [reflexivity| |].
    - apply (read_plain false (Zpos p)); lia.
    - apply (read_plain true (Zpos p)); lia. }
  intros z. split; [apply R|]. intros _. rewrite (R z). discriminate.
Qed.
