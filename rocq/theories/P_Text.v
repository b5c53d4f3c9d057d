(** Proofs for C68: the text of the files can be read back. *)
From Flocq Require Import Core BinarySingleNaN.
From Coq Require Import Ascii Reals Psatz.
From Verif Require Import Base Num F64 M_Nsim M_Visqol M_Cli M_Text Spec Spec8 P_Cli.
Local Open Scope string_scope.

Lemma sapp_assoc a b c : ((a ++ b) ++ c)%string = (a ++ (b ++ c))%string.
Proof. induction a; cbn; congruence. Qed.
Lemma sapp_nil a : (a ++ "")%string = a.
Proof. induction a; cbn; congruence. Qed.
Lemma snoc_app a c s : (snoc a c ++ s)%string = (a ++ String c s)%string.
Proof. unfold snoc. rewrite sapp_assoc. reflexivity. Qed.

(** ** Characters of a string *)
Fixpoint all_chars (P : ascii -> bool) (s : string) : bool :=
  match s with EmptyString => true | String c t => (P c && all_chars P t)%bool end.
Lemma all_app P a b : all_chars P (a ++ b)%string = (all_chars P a && all_chars P b)%bool.
Proof. induction a as [|c t IH]; cbn; auto. rewrite IH. apply Bool.andb_assoc. Qed.

(** Characters of numbers. *)
Definition numchar (c : ascii) : bool :=
  (match digit c with Some _ => true | None => false end || Ascii.eqb c "+" || Ascii.eqb c "-" || Ascii.eqb c "." || Ascii.eqb c "e" || Ascii.eqb c "E")%bool.
Definition plain (c : ascii) : bool := negb (blank c || punct c || Ascii.eqb c """")%bool.
Lemma numchar_plain c : numchar c = true -> plain c = true /\ Ascii.eqb c "," = false /\ Ascii.eqb c "010" = false.
Proof. destruct c as [[] [] [] [] [] [] [] []]; vm_compute; intros; try discriminate; auto. Qed.
Lemma all_impl (P Q : ascii -> bool) s : (forall c, P c = true -> Q c = true) -> all_chars P s = true -> all_chars Q s = true.
Proof. intros H. induction s as [|c t IH]; cbn; auto. intros E. apply andb_prop in E. destruct E. rewrite H, IH; auto. Qed.

Lemma digits_rest s : forall acc v n r, digits acc s = (v, n, r) -> all_chars numchar r = true -> all_chars numchar s = true.
Proof.
  induction s as [|c t IH]; cbn [digits all_chars]; intros acc v n r; auto.
  unfold numchar at 2. destruct (digit c) eqn:D.
  - destruct (digits (10 * acc + z) t) as [[v' n'] r'] eqn:E. intros [= <- <- <-] H. cbn [orb andb]. eapply IH; eauto.
  - intros [= <- <- <-] H. cbn [all_chars] in H. unfold numchar in H at 1. rewrite D in H. exact H.
Qed.
Lemma sign_rest plus s b r : sign plus s = (b, r) -> all_chars numchar r = true -> all_chars numchar s = true.
Proof.
  destruct s as [|c t]; cbn [sign]; [intros [= <- <-]; auto|].
  destruct (Ascii.eqb_spec c "-") as [-> |]; [intros [= <- <-]; auto|].
  destruct plus; cbn [andb]; [|intros [= <- <-]; auto].
  destruct (Ascii.eqb_spec c "+") as [-> |]; intros [= <- <-]; auto.
Qed.
Lemma exponent_chars s e : exponent s = Some e -> all_chars numchar s = true.
Proof.
  destruct s as [|c t]; cbn [exponent]; auto.
  destruct (Ascii.eqb c "e" || Ascii.eqb c "E")%bool eqn:C; [|discriminate].
  destruct (sign true t) as [b t1] eqn:S. destruct (digits 0 t1) as [[v n] r] eqn:D. destruct r; [|discriminate]. intros _.
  cbn [all_chars]. replace (numchar c) with true.
  - apply (sign_rest _ _ _ _ S). apply (digits_rest _ _ _ _ _ D). reflexivity.
  - symmetry. unfold numchar. apply Bool.orb_true_iff in C. destruct C as [-> | ->]; rewrite ?Bool.orb_true_r; reflexivity.
Qed.
Lemma number_chars s x : read_number s = Some x -> all_chars numchar s = true /\ s <> "".
Proof.
  intros H. split; [|intros ->; discriminate]. unfold read_number in H.
  destruct (sign false s) as [b s1] eqn:S. apply (sign_rest _ _ _ _ S). clear S.
  destruct (leading_zero s1); [discriminate|].
  destruct (digits 0 s1) as [[v n] s2] eqn:D. destruct (n <=? 0)%Z; [discriminate|].
  apply (digits_rest _ _ _ _ _ D). clear D. destruct s2 as [|c t]; auto.
  destruct (Ascii.eqb_spec c ".") as [-> |].
  - destruct (digits v t) as [[v' k] s3] eqn:D'. destruct (k <=? 0)%Z; [discriminate|].
    destruct (exponent s3) eqn:X; [|discriminate]. apply exponent_chars in X.
    cbn [all_chars]. change (numchar ".") with true. cbn [andb]. apply (digits_rest _ _ _ _ _ D' X).
  - destruct (exponent (String c t)) eqn:X; [|discriminate]. apply (exponent_chars _ _ X).
Qed.

(** ** Scanning *)
Definition ends (s : string) : Prop := match s with EmptyString => True | String c _ => (blank c || punct c)%bool = true end.
Lemma scan_word w : forall a rest, all_chars plain w = true -> ends rest ->
  scanner (InWord a) (w ++ rest) = push (word (a ++ w)) (scanner Between rest).
Proof.
  induction w as [|c t IH]; intros a rest; cbn [all_chars String.append].
  - intros _ E. rewrite sapp_nil. destruct rest as [|c t]; [reflexivity|]. cbn [ends] in E. cbn [scanner].
    destruct (blank c) eqn:B; auto. cbn [orb] in E. rewrite E. reflexivity.
  - intros H E. apply andb_prop in H. destruct H as [H1 H2]. cbn [scanner]. unfold plain in H1.
    apply Bool.negb_true_iff, Bool.orb_false_iff in H1. destruct H1 as [H1 H3]. apply Bool.orb_false_iff in H1. destruct H1 as [H0 H1].
    rewrite H0, H1, H3. rewrite IH by auto. rewrite snoc_app. reflexivity.
Qed.
Lemma scan_first w rest : all_chars plain w = true -> w <> "" -> ends rest ->
  scanner Between (w ++ rest) = push (word w) (scanner Between rest).
Proof.
  destruct w as [|c t]; [congruence|]. cbn [all_chars String.append]. intros H _ E.
  apply andb_prop in H. destruct H as [H1 H2]. cbn [scanner]. unfold plain in H1.
  apply Bool.negb_true_iff, Bool.orb_false_iff in H1. destruct H1 as [H1 H3]. apply Bool.orb_false_iff in H1. destruct H1 as [H0 H1].
  rewrite H0, H1, H3. rewrite scan_word by auto. reflexivity.
Qed.
Lemma scan_number s x rest : read_number s = Some x -> ends rest ->
  scanner Between (s ++ rest) = push (Some (TNum s)) (scanner Between rest).
Proof.
  intros H E. destruct (number_chars _ _ H) as [A B].
  rewrite scan_first; auto; [|apply (all_impl numchar); auto; intros c Hc; apply numchar_plain; auto].
  unfold word. rewrite H. destruct (s =? "null") eqn:Q; auto. apply String.eqb_eq in Q. subst s. discriminate.
Qed.
Lemma scan_null rest : ends rest -> scanner Between ("null" ++ rest) = push (Some TNull) (scanner Between rest).
Proof. intros E. rewrite scan_first; auto. discriminate. Qed.

(** A name: no quote, backslash or control character. *)
Definition namechar (c : ascii) : bool := negb (Ascii.eqb c """" || Ascii.eqb c "\" || (nat_of_ascii c <? 32)%nat)%bool.
Lemma scan_str k : forall a rest, all_chars namechar k = true ->
  scanner (InStr a) (k ++ quote ++ rest) = push (Some (TStr (a ++ k))) (scanner Between rest).
Proof.
  induction k as [|c t IH]; intros a rest; cbn [all_chars String.append].
  - intros _. rewrite sapp_nil. reflexivity.
  - intros H. apply andb_prop in H. destruct H as [H1 H2]. cbn [scanner]. unfold namechar in H1.
    apply Bool.negb_true_iff, Bool.orb_false_iff in H1. destruct H1 as [H1 H3]. apply Bool.orb_false_iff in H1. destruct H1 as [H0 H1].
    rewrite H0, H1, H3. cbn [orb]. rewrite IH by auto. rewrite snoc_app. reflexivity.
Qed.
Lemma scan_name k rest : all_chars namechar k = true ->
  scanner Between (quote ++ k ++ quote ++ rest) = push (Some (TStr k)) (scanner Between rest).
Proof. intros H. change (scanner Between (quote ++ k ++ quote ++ rest)) with (scanner (InStr "") (k ++ quote ++ rest)). rewrite scan_str by auto. reflexivity. Qed.
Lemma scan_indent n rest : scanner Between (newline ++ indent n ++ rest) = scanner Between rest.
Proof.
  transitivity (scanner Between (indent n ++ rest)); [reflexivity|]. induction n as [|n IH]; cbn [indent]; auto.
Qed.

(** ** Trees *)
Section Tree.
Context {N : NumOps}.
Variable finite : num N -> bool.
Variable fmt : num N -> string.
Fixpoint tree (v : @ser N) : json :=
  match v with
  | SNum x => if finite x then JNum (fmt x) else JNull
  | SSeq l => JArr (map tree l)
  | SStruct l => JObj (map (fun f => (fst f, tree (snd f))) l)
  end.

Lemma ser_rect' (P : @ser N -> Prop) : (forall x, P (SNum x)) -> (forall l, Forall P l -> P (SSeq l)) ->
  (forall l, Forall (fun f => P (snd f)) l -> P (SStruct l)) -> forall v, P v.
Proof.
  intros H1 H2 H3. fix IH 1. intros [x|l|l].
  - apply H1.
  - apply H2. induction l as [|y t IHl]; constructor; [apply IH|apply IHl].
  - apply H3. induction l as [|y t IHl]; constructor; [apply IH|apply IHl].
Qed.
End Tree.

Fixpoint toks (j : json) : list token :=
  match j with
  | JNull => [TNull]
  | JNum t => [TNum t]
  | JStr s => [TStr s]
  | JArr l => TPunct "[" :: (fix go l := match l with [] => [] | [v] => toks v | v :: t => toks v ++ TPunct "," :: go t end) l ++ [TPunct "]"]
  | JObj l => TPunct "{" :: (fix go l := match l with [] => [] | [(k, v)] => TStr k :: TPunct ":" :: toks v
                                                      | (k, v) :: t => TStr k :: TPunct ":" :: toks v ++ TPunct "," :: go t end) l ++ [TPunct "}"]
  end%list.
Definition etoks := (fix go l := match l with [] => [] | [v] => toks v | v :: t => toks v ++ TPunct "," :: go t end)%list.
Definition mtoks := (fix go l := match l with [] => [] | [(k, v)] => TStr k :: TPunct ":" :: toks v
                                             | (k, v) :: t => TStr k :: TPunct ":" :: toks v ++ TPunct "," :: go t end)%list.
Lemma toks_arr l : toks (JArr l) = (TPunct "[" :: etoks l ++ [TPunct "]"])%list. Proof. reflexivity. Qed.
Lemma toks_obj l : toks (JObj l) = (TPunct "{" :: mtoks l ++ [TPunct "}"])%list. Proof. reflexivity. Qed.
Lemma etoks_cons v w t : etoks (v :: w :: t) = (toks v ++ TPunct "," :: etoks (w :: t))%list. Proof. reflexivity. Qed.
Lemma mtoks_cons k v w t : mtoks ((k, v) :: w :: t) = (TStr k :: TPunct ":" :: toks v ++ TPunct "," :: mtoks (w :: t))%list. Proof. destruct w. reflexivity. Qed.

Lemma json_rect' (P : json -> Prop) : P JNull -> (forall t, P (JNum t)) -> (forall s, P (JStr s)) ->
  (forall l, Forall P l -> P (JArr l)) -> (forall l, Forall (fun f => P (snd f)) l -> P (JObj l)) -> forall j, P j.
Proof.
  intros H1 H2 H3 H4 H5. fix IH 1. intros [|t|s|l|l]; [apply H1|apply H2|apply H3| |].
  - apply H4. induction l as [|y t IHl]; constructor; [apply IH|apply IHl].
  - apply H5. induction l as [|y t IHl]; constructor; [apply IH|apply IHl].
Qed.

(** What a list of tokens starting a value looks like. *)
Lemma toks_head j : exists t l, toks j = t :: l /\ t <> TPunct "]" /\ t <> TPunct "}".
Proof. destruct j; eexists _, _; (split; [reflexivity|]); split; discriminate. Qed.

Lemma parse_toks j : forall fuel rest, (List.length (toks j) <= fuel)%nat -> value fuel (toks j ++ rest)%list = Some (j, rest).
Proof.
  induction j as [|t|s|l F|l F] using json_rect'; intros [|fuel] rest L; try (cbn in L; lia); try reflexivity.
  - rewrite toks_arr in *. destruct l as [|v l]; [reflexivity|].
    assert (E : forall v l fuel rest, Forall (fun j => forall fuel rest, (List.length (toks j) <= fuel)%nat -> value fuel (toks j ++ rest)%list = Some (j, rest)) (v :: l) ->
      (S (List.length (etoks (v :: l))) <= fuel)%nat -> elements fuel (etoks (v :: l) ++ TPunct "]" :: rest)%list = Some (v :: l, rest)).
    { clear. intros v l. revert v. induction l as [|w l IH]; intros v [|fuel] rest F L; try lia; inversion F as [|? ? F1 F2]; subst.
      - cbn [elements]. change (etoks [v]) with (toks v) in *. rewrite F1 by lia. reflexivity.
      - cbn [elements]. rewrite etoks_cons in *. rewrite app_length in L. cbn [List.length] in L.
        rewrite <- app_assoc. cbn [app]. rewrite F1 by lia. rewrite IH; auto. lia. }
    cbn [app]. rewrite <- app_assoc. cbn [app].
    cbn [List.length] in L. rewrite app_length in L. cbn [List.length] in L.
    specialize (E v l fuel rest F). cbn [value].
    destruct (toks_head v) as (t0 & l0 & Hv & Hn & _).
    assert (Hh : exists l1, etoks (v :: l) = t0 :: l1) by (destruct l; [|rewrite etoks_cons]; [change (etoks [v]) with (toks v)|]; rewrite Hv; eexists; reflexivity).
    destruct Hh as (l1 & Hh). rewrite Hh in *. cbn [app] in *. rewrite E by lia.
    destruct t0 as [[[] [] [] [] [] [] [] []]| | |]; try reflexivity. congruence.
  - rewrite toks_obj in *. destruct l as [|[k v] l]; [reflexivity|].
    assert (E : forall k v l fuel rest, Forall (fun f => forall fuel rest, (List.length (toks (snd f)) <= fuel)%nat -> value fuel (toks (snd f) ++ rest)%list = Some (snd f, rest)) ((k, v) :: l) ->
      (S (List.length (mtoks ((k, v) :: l))) <= fuel)%nat -> members fuel (mtoks ((k, v) :: l) ++ TPunct "}" :: rest)%list = Some ((k, v) :: l, rest)).
    { clear. intros k v l. revert k v. induction l as [|[k' w] l IH]; intros k v [|fuel] rest F L; try lia; inversion F as [|? ? F1 F2]; subst; cbn [snd] in F1.
      - cbn [members]. change (mtoks [(k, v)]) with (TStr k :: TPunct ":" :: toks v) in *. cbn [app List.length] in *. rewrite F1 by lia. reflexivity.
      - cbn [members]. rewrite mtoks_cons in *. cbn [List.length app] in *. rewrite app_length in L. cbn [List.length] in L.
        rewrite <- app_assoc. cbn [app]. rewrite F1 by lia. rewrite IH; auto. lia. }
    cbn [app]. rewrite <- app_assoc. cbn [app].
    cbn [List.length] in L. rewrite app_length in L. cbn [List.length] in L.
    specialize (E k v l fuel rest F). cbn [value].
    assert (Hh : exists l1, mtoks ((k, v) :: l) = TStr k :: l1) by (destruct l; [|rewrite mtoks_cons]; eexists; reflexivity).
    destruct Hh as (l1 & Hh). rewrite Hh in *. cbn [app] in *. rewrite E by lia. reflexivity.
Qed.

(** ** The scanner on a printed tree *)
Definition pushes (l : list token) (o : option (list token)) : option (list token) :=
  match o with Some r => Some (l ++ r)%list | None => None end.
Lemma push_pushes t l o : push (Some t) (pushes l o) = pushes (t :: l) o. Proof. destruct o; reflexivity. Qed.
Lemma pushes_app l1 l2 o : pushes l1 (pushes l2 o) = pushes (l1 ++ l2) o.
Proof. destruct o; cbn; auto. rewrite app_assoc. reflexivity. Qed.
Lemma pushes_one t o : push (Some t) o = pushes [t] o. Proof. destruct o; reflexivity. Qed.
Lemma pushes_none o : pushes [] o = o. Proof. destruct o; reflexivity. Qed.

Section Printed.
Context {N : NumOps}.
Variable finite : num N -> bool.
Variable fmt : num N -> string.
Hypothesis digits_ok : forall x, finite x = true -> exists y, read_number (fmt x) = Some y.

Fixpoint named (v : @ser N) : Prop :=
  match v with
  | SNum _ => True
  | SSeq l => fold_right (fun x P => named x /\ P) True l
  | SStruct l => fold_right (fun f P => (all_chars namechar (fst f) = true /\ named (snd f)) /\ P) True l
  end.

Definition scans (v : @ser N) : Prop := forall n rest, named v -> ends rest ->
  scanner Between (pretty finite fmt n v ++ rest) = pushes (toks (tree finite fmt v)) (scanner Between rest).

Lemma scan_seq n l : forall x rest, Forall scans (x :: l) ->
  fold_right (fun x P => named x /\ P) True (x :: l) -> ends rest ->
  scanner Between (String.concat "," (map (fun x => newline ++ indent n ++ pretty finite fmt n x) (x :: l)) ++ rest)
  = pushes (etoks (map (tree finite fmt) (x :: l))) (scanner Between rest).
Proof.
  induction l as [|y l IH]; intros x rest F Nm E; inversion F as [|? ? F1 F2]; subst; destruct Nm as [N1 N2].
  - cbn [map String.concat]. rewrite !sapp_assoc. rewrite scan_indent. apply (F1 n); auto.
  - cbn [map]. rewrite etoks_cons.
    change (String.concat "," ((newline ++ indent n ++ pretty finite fmt n x) :: (newline ++ indent n ++ pretty finite fmt n y) :: map (fun x => newline ++ indent n ++ pretty finite fmt n x) l))
      with ((newline ++ indent n ++ pretty finite fmt n x) ++ "," ++ String.concat "," (map (fun x => newline ++ indent n ++ pretty finite fmt n x) (y :: l))).
    rewrite !sapp_assoc. rewrite scan_indent. rewrite (F1 n) by (auto; reflexivity).
    match goal with |- context [scanner Between ("," ++ ?s)] => change (scanner Between ("," ++ s)) with (push (Some (TPunct ",")) (scanner Between s)) end.
    rewrite IH by auto. rewrite push_pushes, pushes_app. reflexivity.
Qed.
Lemma scan_fields n l : forall x rest, Forall (fun f => scans (snd f)) (x :: l) ->
  fold_right (fun f P => (all_chars namechar (fst f) = true /\ named (snd f)) /\ P) True (x :: l) -> ends rest ->
  scanner Between (String.concat "," (map (fun f : string * ser => newline ++ indent n ++ quote ++ fst f ++ quote ++ ": " ++ pretty finite fmt n (snd f)) (x :: l)) ++ rest)
  = pushes (mtoks (map (fun f => (fst f, tree finite fmt (snd f))) (x :: l))) (scanner Between rest).
Proof.
  induction l as [|y l IH]; intros x rest F Nm E; inversion F as [|? ? F1 F2]; subst; destruct Nm as [[N0 N1] N2].
  - cbn [map String.concat]. rewrite !sapp_assoc. rewrite scan_indent, scan_name by auto.
    match goal with |- context [scanner Between (": " ++ ?s)] => change (scanner Between (": " ++ s)) with (push (Some (TPunct ":")) (scanner Between s)) end.
    rewrite (F1 n) by auto. rewrite !push_pushes. reflexivity.
  - cbn [map]. rewrite mtoks_cons.
    match goal with |- context [String.concat "," (?a :: ?b :: ?c)] => change (String.concat "," (a :: b :: c)) with (a ++ "," ++ String.concat "," (b :: c)) end.
    rewrite !sapp_assoc. rewrite scan_indent, scan_name by auto.
    match goal with |- context [scanner Between (": " ++ ?s)] => change (scanner Between (": " ++ s)) with (push (Some (TPunct ":")) (scanner Between s)) end.
    rewrite (F1 n) by (auto; reflexivity).
    match goal with |- context [scanner Between ("," ++ ?s)] => change (scanner Between ("," ++ s)) with (push (Some (TPunct ",")) (scanner Between s)) end.
    specialize (IH y rest F2 N2 E). cbn [map] in IH. rewrite IH. rewrite !push_pushes, pushes_app. reflexivity.
Qed.

Lemma scan_pretty v : scans v.
Proof.
  induction v as [x|l F|l F] using ser_rect'; intros n rest Nm E.
  - cbn [pretty tree]. destruct (finite x) eqn:Fx.
    + destruct (digits_ok x Fx) as (y & Hy). rewrite (scan_number _ y) by auto. apply pushes_one.
    + rewrite scan_null by auto. apply pushes_one.
  - destruct l as [|x l].
    + cbn [pretty tree map]. change (toks (JArr [])) with [TPunct "["; TPunct "]"].
      change (scanner Between ("[]" ++ rest)) with (push (Some (TPunct "[")) (push (Some (TPunct "]")) (scanner Between rest))).
      rewrite (pushes_one (TPunct "]")), push_pushes. reflexivity.
    + cbn [tree]. rewrite toks_arr.
      change (pretty finite fmt n (SSeq (x :: l))) with
        ("[" ++ String.concat "," (map (fun x => newline ++ indent (S n) ++ pretty finite fmt (S n) x) (x :: l)) ++ newline ++ indent n ++ "]").
      rewrite !sapp_assoc.
      match goal with |- context [scanner Between ("[" ++ ?s)] => change (scanner Between ("[" ++ s)) with (push (Some (TPunct "[")) (scanner Between s)) end.
      rewrite scan_seq; auto; [|reflexivity]. rewrite scan_indent.
      match goal with |- context [scanner Between ("]" ++ ?s)] => change (scanner Between ("]" ++ s)) with (push (Some (TPunct "]")) (scanner Between s)) end.
      rewrite (pushes_one (TPunct "]")), pushes_app, push_pushes. reflexivity.
  - destruct l as [|x l].
    + cbn [pretty tree map]. change (toks (JObj [])) with [TPunct "{"; TPunct "}"].
      change (scanner Between ("{}" ++ rest)) with (push (Some (TPunct "{")) (push (Some (TPunct "}")) (scanner Between rest))).
      rewrite (pushes_one (TPunct "}")), push_pushes. reflexivity.
    + cbn [tree]. rewrite toks_obj.
      change (pretty finite fmt n (SStruct (x :: l))) with
        ("{" ++ String.concat "," (map (fun f : string * ser => newline ++ indent (S n) ++ quote ++ fst f ++ quote ++ ": " ++ pretty finite fmt (S n) (snd f)) (x :: l)) ++ newline ++ indent n ++ "}").
      rewrite !sapp_assoc.
      match goal with |- context [scanner Between ("{" ++ ?s)] => change (scanner Between ("{" ++ s)) with (push (Some (TPunct "{")) (scanner Between s)) end.
      rewrite scan_fields; auto; [|reflexivity]. rewrite scan_indent.
      match goal with |- context [scanner Between ("}" ++ ?s)] => change (scanner Between ("}" ++ s)) with (push (Some (TPunct "}")) (scanner Between s)) end.
      rewrite (pushes_one (TPunct "}")), pushes_app, push_pushes. reflexivity.
Qed.

Lemma read_pretty v : named v -> read_json (pretty finite fmt 0%nat v) = Some (tree finite fmt v).
Proof.
  intros Nm. unfold read_json. pose proof (scan_pretty v 0%nat "" Nm I) as H. rewrite sapp_nil in H. rewrite H.
  cbn [scanner pushes]. rewrite parse_toks by (rewrite app_length; cbn [List.length]; lia). reflexivity.
Qed.

Lemma named_vec l : named (ser_vec l).
Proof. unfold ser_vec. cbn [named]. induction l; cbn; auto. Qed.
Lemma named_patch (p : PatchSim N) : named (ser_patch p).
Proof.
  unfold ser_patch. cbn [named fold_right fst snd].
  repeat match goal with |- _ /\ _ => split end; try reflexivity; try exact I; apply (named_vec _).
Qed.
Lemma named_result (r : SimilarityResult N) : named (ser_result r).
Proof.
  unfold ser_result. cbn [named fold_right fst snd].
  repeat match goal with |- _ /\ _ => split end; try reflexivity; try exact I; try apply (named_vec _).
  induction (patch_sims r) as [|p t IH]; cbn [map fold_right]; [exact I|]. split; auto. apply named_patch.
Qed.
Lemma read_result r : read_json (json_text finite fmt (Some r)) = Some (tree finite fmt (ser_result r)).
Proof. apply read_pretty, named_result. Qed.
End Printed.

(** ** The tree of a result shows the result *)
Section Shown.
Context {N : NumOps}.
Variable finite : num N -> bool.
Variable reads : string -> num N -> Prop.
Variable fmt : num N -> string.
Hypothesis fmt_ok : prints_numbers finite reads fmt.
Notation tr := (@tree N finite fmt).

Lemma fmt_finite x : finite x = true -> reads (fmt x) x.
Proof. intros H. destruct (fmt_ok x) as [A _]. unfold cell_shows in A. rewrite H in A. exact A. Qed.
Lemma fmt_digits x : finite x = true -> exists y, read_number (fmt x) = Some y.
Proof. intros H. destruct (fmt_ok x) as [_ A]. specialize (A H). destruct (read_number (fmt x)); [eauto|congruence]. Qed.
Lemma shown x : shows finite reads (tr (SNum x)) x.
Proof. cbn [tree]. destruct (finite x) eqn:E; cbn [shows]; auto using fmt_finite. Qed.
Lemma shown_all l : shows_all finite reads (tr (ser_vec l)) l.
Proof. unfold ser_vec. cbn [tree shows_all]. rewrite map_map. induction l; cbn [map]; constructor; auto. apply shown. Qed.
Lemma shown_patch p : shows_patch finite reads (tr (ser_patch p)) p.
Proof.
  unfold shows_patch, ser_patch. cbn [tree map fst snd]. do 8 eexists. split; [reflexivity|].
  repeat match goal with |- _ /\ _ => split end; try apply (shown_all _); apply (shown _).
Qed.
Lemma shown_result r : shows_result finite reads (tr (ser_result r)) r.
Proof.
  unfold shows_result, ser_result. cbn [tree map fst snd]. do 7 eexists. split; [reflexivity|].
  repeat match goal with |- _ /\ _ => split end; try apply (shown_all _); try apply (shown _).
  rewrite map_map. induction (patch_sims r); cbn [map]; constructor; auto. apply shown_patch.
Qed.
Lemma json_reads r : exists j, read_json (json_text finite fmt (Some r)) = Some j /\ shows_result finite reads j r.
Proof. eexists. split; [apply read_result, fmt_digits|apply shown_result]. Qed.
End Shown.

(** ** A text shows one number only *)
Lemma reads_one s x y : reads_as s x -> reads_as s y -> x = y.
Proof.
  intros (n & m & e & E & Fx & Sx & Rx) (n' & m' & e' & E' & Fy & Sy & Ry). rewrite E in E'. injection E' as <- <- <-.
  apply B2R_Bsign_inj; auto; [|congruence]. rewrite <- Ry in Rx.
  assert (S : forall z : f64, is_finite z = true -> if Bsign z then (B2R z <= 0)%R else (0 <= B2R z)%R).
  { intros [s'|s'| |s' mm ee H] Fz; try discriminate; cbn.
    - destruct s'; lra.
    - destruct s'; [apply F2R_le_0|apply F2R_ge_0]; cbn; lia. }
  pose proof (S x Fx) as Px. pose proof (S y Fy) as Py. rewrite Sx in Px. rewrite Sy in Py.
  destruct n.
  - rewrite !Rabs_left1 in Rx by auto. lra.
  - rewrite !Rabs_pos_eq in Rx by auto. lra.
Qed.
Section One.
Context {N : NumOps}.
Variable finite : num N -> bool.
Variable reads : string -> num N -> Prop.
Hypothesis one : forall s x y, reads s x -> reads s y -> x = y.
Lemma shows_one j x y : finite x = true -> finite y = true -> shows finite reads j x -> shows finite reads j y -> x = y.
Proof. destruct j; cbn [shows]; try tauto; try congruence. intros _ _ [_ A] [_ B]. eapply one; eauto. Qed.
Lemma shows_all_one j : forall l l', Forall (fun x => finite x = true) l -> Forall (fun x => finite x = true) l' ->
  shows_all finite reads j l -> shows_all finite reads j l' -> l = l'.
Proof.
  destruct j as [| | |js|]; cbn [shows_all]; try tauto.
  induction js as [|j js IH]; intros l l' F F' S S'; inversion S; inversion S'; subst; auto.
  inversion F; inversion F'; subst. f_equal; eauto using shows_one.
Qed.
Lemma patch_one j (p q : PatchSim N) :
  (let ok := Forall (fun x => finite x = true) in
    ok (freq_band_means p) /\ ok (freq_band_stddevs p) /\ ok (freq_band_deg_energy p) /\
    ok [similarity p; ref_patch_start_time p; ref_patch_end_time p; deg_patch_start_time p; deg_patch_end_time p]) ->
  (let ok := Forall (fun x => finite x = true) in
    ok (freq_band_means q) /\ ok (freq_band_stddevs q) /\ ok (freq_band_deg_energy q) /\
    ok [similarity q; ref_patch_start_time q; ref_patch_end_time q; deg_patch_start_time q; deg_patch_end_time q]) ->
  shows_patch finite reads j p -> shows_patch finite reads j q -> p = q.
Proof.
  cbv zeta. intros (F1 & F2 & F3 & F4) (G1 & G2 & G3 & G4).
  intros (a & b & c & d & e & f & g & h & -> & A & B & C & D & E & F & G & H).
  intros (a' & b' & c' & d' & e' & f' & g' & h' & Q & A' & B' & C' & D' & E' & F' & G' & H').
  injection Q as <- <- <- <- <- <- <- <-.
  inversion F4 as [|? ? X1 Y1]; inversion Y1 as [|? ? X2 Y2]; inversion Y2 as [|? ? X3 Y3]; inversion Y3 as [|? ? X4 Y4]; inversion Y4 as [|? ? X5 Y5].
  inversion G4 as [|? ? X1' Y1']; inversion Y1' as [|? ? X2' Y2']; inversion Y2' as [|? ? X3' Y3']; inversion Y3' as [|? ? X4' Y4']; inversion Y4' as [|? ? X5' Y5'].
  clear F4 G4 Y1 Y2 Y3 Y4 Y5 Y1' Y2' Y3' Y4' Y5'. subst.
  pose proof (shows_all_one _ _ _ F1 G1 A A') as Z1. pose proof (shows_all_one _ _ _ F2 G2 B B') as Z2. pose proof (shows_all_one _ _ _ F3 G3 C C') as Z3.
  pose proof (shows_one _ _ _ X1 X1' D D') as Z4. pose proof (shows_one _ _ _ X2 X2' E E') as Z5. pose proof (shows_one _ _ _ X3 X3' F F') as Z6.
  pose proof (shows_one _ _ _ X4 X4' G G') as Z7. pose proof (shows_one _ _ _ X5 X5' H H') as Z8.
  destruct p, q; cbn in *. congruence.
Qed.
Lemma result_one j (r s : SimilarityResult N) : finite_result finite r -> finite_result finite s ->
  shows_result finite reads j r -> shows_result finite reads j s -> r = s.
Proof.
  unfold finite_result. cbv zeta. intros (F0 & F1 & F2 & F3 & F4 & F5) (G0 & G1 & G2 & G3 & G4 & G5).
  intros (a & b & c & d & e & f & ps & -> & A & B & C & D & E & F & P).
  intros (a' & b' & c' & d' & e' & f' & ps' & Q & A' & B' & C' & D' & E' & F' & P').
  injection Q as <- <- <- <- <- <- <-.
  inversion F0 as [|? ? X1 Y1]; inversion Y1 as [|? ? X2 Y2].
  inversion G0 as [|? ? X1' Y1']; inversion Y1' as [|? ? X2' Y2'].
  clear F0 G0 Y1 Y2 Y1' Y2'. subst.
  pose proof (shows_one _ _ _ X1 X1' A A') as Z1. pose proof (shows_one _ _ _ X2 X2' B B') as Z2.
  pose proof (shows_all_one _ _ _ F1 G1 C C') as Z3. pose proof (shows_all_one _ _ _ F2 G2 D D') as Z4.
  pose proof (shows_all_one _ _ _ F3 G3 E E') as Z5. pose proof (shows_all_one _ _ _ F4 G4 F F') as Z6.
  assert (Z7 : patch_sims r = patch_sims s).
  { clear - one F5 G5 P P'. revert F5 G5 P P'. generalize (patch_sims r) (patch_sims s).
    induction ps as [|j js IH]; intros l l' F F' S S'; inversion S; inversion S'; subst; auto.
    inversion F; inversion F'; subst. f_equal; eauto using patch_one. }
  destruct r, s; cbn in *. congruence.
Qed.
End One.

(** ** CSV *)
Definition cellchar (c : ascii) : bool := negb (Ascii.eqb c "," || Ascii.eqb c "010")%bool.
Lemma split_cell s : forall cell row rest, all_chars cellchar s = true ->
  split_lines cell row (s ++ rest) = split_lines (cell ++ s) row rest.
Proof.
  induction s as [|c t IH]; intros cell row rest; cbn [all_chars String.append].
  - rewrite sapp_nil. reflexivity.
  - intros H. apply andb_prop in H. destruct H as [H1 H2]. cbn [split_lines]. unfold cellchar in H1.
    apply Bool.negb_true_iff, Bool.orb_false_iff in H1. destruct H1 as [-> ->]. rewrite IH by auto. rewrite snoc_app. reflexivity.
Qed.
Lemma split_row cells : forall c row rest, Forall (fun s => all_chars cellchar s = true) (c :: cells) ->
  split_lines "" row (String.concat "," (c :: cells) ++ newline ++ rest) = (row ++ c :: cells)%list :: split_lines "" [] rest.
Proof.
  induction cells as [|d cells IH]; intros c row rest F; inversion F; subst.
  - cbn [String.concat]. rewrite split_cell by auto. reflexivity.
  - change (String.concat "," (c :: d :: cells)) with (c ++ "," ++ String.concat "," (d :: cells)).
    rewrite !sapp_assoc. rewrite split_cell by auto.
    match goal with |- split_lines ?a ?b ("," ++ ?s) = _ => change (split_lines a b ("," ++ s)) with (split_lines "" (b ++ [a])%list s) end.
    rewrite IH by auto. rewrite <- app_assoc. reflexivity.
Qed.
Lemma read_rows (rows : list (list string)) : Forall (fun r => r <> [] /\ Forall (fun s => all_chars cellchar s = true) r) rows ->
  read_csv (String.concat "" (map (fun r => String.concat "," r ++ newline) rows)) = rows.
Proof.
  unfold read_csv. induction rows as [|r rows IH]; intros F; [reflexivity|]. inversion F as [|? ? [F1 F2] F3]; subst.
  destruct r as [|c r]; [congruence|].
  assert (E : String.concat "" (map (fun r => String.concat "," r ++ newline) ((c :: r) :: rows)) =
              String.concat "," (c :: r) ++ newline ++ String.concat "" (map (fun r => String.concat "," r ++ newline) rows)).
  { cbn [map]. destruct rows as [|r' rows]; [cbn [map String.concat]; rewrite sapp_nil; reflexivity|].
    cbn [map]. match goal with |- String.concat "" (?a :: ?b :: ?l) = _ => change (String.concat "" (a :: b :: l)) with (a ++ "" ++ String.concat "" (b :: l)) end.
    rewrite sapp_assoc. reflexivity. }
  rewrite E, split_row by auto. rewrite IH by auto. reflexivity.
Qed.
Lemma csv_reads {N : NumOps} finite reads fmt (rows : list (list (num N))) : prints_numbers finite reads fmt -> Forall (fun r => r <> []) rows ->
  Forall2 (Forall2 (cell_shows finite reads)) (read_csv (csv_text fmt rows)) rows.
Proof.
  intros P F. unfold csv_text.
  replace (map (fun row => String.concat "," (map fmt row) ++ newline) rows)
    with (map (fun r => String.concat "," r ++ newline) (map (map fmt) rows)) by (rewrite map_map; reflexivity).
  rewrite read_rows.
  - clear F. induction rows as [|r rows IH]; cbn [map]; constructor; auto. induction r; cbn [map]; constructor; auto. apply P.
  - rewrite Forall_map. revert F. apply Forall_impl. intros r Hr. split; [destruct r; [congruence|discriminate]|].
    rewrite Forall_map. apply Forall_forall. intros x _. destruct (P x) as [A B]. unfold cell_shows in A. destruct (finite x).
    + destruct (read_number (fmt x)) eqn:E; [|exfalso; apply B; reflexivity]. apply number_chars in E. destruct E as [E _].
      revert E. apply all_impl. intros c Hc. unfold cellchar. destruct (numchar_plain c Hc) as (_ & -> & ->). reflexivity.
    + cbn [In] in A. destruct A as [<- |[<- |[<- |[]]]]; reflexivity.
Qed.

(** ** The tool *)
Section Tool.
Context {N : NumOps}.
Variable finite : num N -> bool.
Variable fmt : num N -> string.
Lemma text_app p c a b : text_after finite fmt p c (a ++ b) = text_after finite fmt p (text_after finite fmt p c a) b.
Proof. apply fold_left_app. Qed.
Lemma console_text args results pairs p c : text_after finite fmt p c (console args results pairs) = c.
Proof.
  revert pairs; induction results as [|r t IH]; intros [|q ps]; auto.
  unfold console in *. cbn [combine map List.concat]. rewrite text_app.
  replace (text_after finite fmt p c (write_to_console args (fst (r, q)) (snd (r, q)))) with c
    by (unfold write_to_console; destruct (verbose args); reflexivity).
  apply IH.
Qed.
Lemma tool_json pf (w : World N) args ev path before :
  main pf w args = (ev, Ok tt) -> output_debug args = Some path -> results_csv args <> Some path ->
  exists pairs m results, selects w args pairs /\ tool_manager w args m /\ compared pf w args m pairs results /\
    text_after finite fmt path before ev = json_text finite fmt (match rev results with [] => None | r :: _ => Some r end).
Proof.
  intros H Hp Hc. apply main_ok in H. destruct H as (pairs & m & results & H1 & H2 & H3 & H4).
  exists pairs, m, results. apply write_ok in H4. destruct H4 as (ej & ec & -> & Ej & Ec).
  repeat split; auto. rewrite Hp in Ej. subst ej.
  change (EVersion :: [EJson path (json_content results)] ++ ec ++ console args results pairs)%list
    with ([EVersion; EJson path (json_content results)] ++ ec ++ console args results pairs)%list.
  rewrite !text_app, console_text.
  assert (E : forall c, text_after finite fmt path c ec = c).
  { subst ec. destruct (results_csv args) as [q|]; auto. intros c. unfold text_after. cbn [fold_left].
    destruct (String.eqb_spec q path); congruence. }
  rewrite E. unfold text_after. cbn [fold_left]. rewrite String.eqb_refl. rewrite json_content_last. destruct (rev results); reflexivity.
Qed.
Lemma tool_csv pf (w : World N) args ev path before :
  main pf w args = (ev, Ok tt) -> results_csv args = Some path ->
  exists pairs m results, selects w args pairs /\ tool_manager w args m /\ compared pf w args m pairs results /\
    text_after finite fmt path before ev = csv_text fmt (map result_row results).
Proof.
  intros H Hp. apply main_ok in H. destruct H as (pairs & m & results & H1 & H2 & H3 & H4).
  exists pairs, m, results. apply write_ok in H4. destruct H4 as (ej & ec & -> & Ej & Ec).
  repeat split; auto. rewrite Hp in Ec. subst ec.
  change (EVersion :: ej ++ [ECsv path (map csv_row results)] ++ console args results pairs)%list
    with ([EVersion] ++ ej ++ [ECsv path (map csv_row results)] ++ console args results pairs)%list.
  rewrite !text_app, console_text.
  unfold text_after at 1. cbn [fold_left]. rewrite String.eqb_refl. rewrite rows_spec. reflexivity.
Qed.
End Tool.
