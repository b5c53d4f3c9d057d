(** Vocabulary of C68: reading JSON, CSV and decimal numbers. *)
From Flocq Require Import Core BinarySingleNaN.
From Coq Require Import Ascii Reals.
From Verif Require Import Base Num F64 M_Nsim M_Visqol.
Local Open Scope string_scope.

(** ** Decimal numbers as in RFC 8259: -? int frac? exp? *)
Definition digit (c : ascii) : option Z :=
  let n := Z.of_nat (nat_of_ascii c) in if ((48 <=? n) && (n <=? 57))%Z then Some (n - 48)%Z else None.
(** Read digits after [acc]: the number, how many digits there were, and the rest. *)
Fixpoint digits (acc : Z) (s : string) : Z * Z * string :=
  match s with
  | String c t => match digit c with
                  | Some d => let '(v, n, r) := digits (10 * acc + d) t in (v, n + 1, r)%Z
                  | None => (acc, 0%Z, s)
                  end
  | EmptyString => (acc, 0%Z, s)
  end.
(** A sign: [true] for minus. *)
Definition sign (plus : bool) (s : string) : bool * string :=
  match s with
  | String c t => if Ascii.eqb c "-" then (true, t) else if (plus && Ascii.eqb c "+")%bool then (false, t) else (false, s)
  | EmptyString => (false, s)
  end.
Definition leading_zero (s : string) : bool :=
  match s with String c (String d _) => (Ascii.eqb c "0" && match digit d with Some _ => true | None => false end)%bool | _ => false end.
(** The exponent, nothing else may follow. *)
Definition exponent (s : string) : option Z :=
  match s with
  | EmptyString => Some 0%Z
  | String c t => if (Ascii.eqb c "e" || Ascii.eqb c "E")%bool then
                    let '(neg, t1) := sign true t in
                    match digits 0 t1 with
                    | (v, n, EmptyString) => if (0 <? n)%Z then Some (if neg then - v else v)%Z else None
                    | _ => None
                    end
                  else None
  end.
(** Sign, mantissa and exponent: the number is (-)mantissa * 10^exponent. *)
Definition read_number (s : string) : option (bool * Z * Z) :=
  let '(neg, s1) := sign false s in
  if leading_zero s1 then None else
  let '(v, n, s2) := digits 0 s1 in
  if (n <=? 0)%Z then None else
  match s2 with
  | String c t =>
    if Ascii.eqb c "." then
      let '(v', k, s3) := digits v t in
      if (k <=? 0)%Z then None
      else match exponent s3 with Some e => Some (neg, v', e - k)%Z | None => None end
    else match exponent s2 with Some e => Some (neg, v, e) | None => None end
  | EmptyString => Some (neg, v, 0%Z)
  end.

(** The text [s] is a JSON number whose nearest binary64 number is [x]. *)
Definition reads_as (s : string) (x : f64) : Prop :=
  exists neg m e, read_number s = Some (neg, m, e) /\ is_finite x = true /\ Bsign x = neg /\
    Rabs (B2R x) = round radix2 (FLT_exp (-1074) 53) ZnearestE (IZR m * bpow (Build_radix 10 eq_refl) e).

(** ** JSON documents *)
Inductive json : Type :=
| JNull
| JNum (text : string)
| JStr (s : string)
| JArr (l : list json)
| JObj (members : list (string * json)).

(** Tokens of a JSON text. *)
Inductive token : Type :=
| TPunct (c : ascii)             (* { } [ ] , : *)
| TStr (s : string)
| TNum (text : string)
| TNull.

Definition blank (c : ascii) : bool :=
  (Ascii.eqb c " " || Ascii.eqb c "009" || Ascii.eqb c "010" || Ascii.eqb c "013")%bool.
Definition punct (c : ascii) : bool :=
  (Ascii.eqb c "{" || Ascii.eqb c "}" || Ascii.eqb c "[" || Ascii.eqb c "]" || Ascii.eqb c "," || Ascii.eqb c ":")%bool.

(** The scanner is between tokens, inside a string or inside a word. *)
Inductive scan : Type := Between | InStr (s : string) | InWord (s : string).
Definition snoc (s : string) (c : ascii) : string := s ++ String c "".
Definition word (s : string) : option token :=
  if s =? "null" then Some TNull else match read_number s with Some _ => Some (TNum s) | None => None end.
Definition push (t : option token) (l : option (list token)) : option (list token) :=
  match t, l with Some t, Some l => Some (t :: l) | _, _ => None end.
(** Strings with escapes and the words true and false are refused: the reader accepts
    fewer texts than JSON allows. *)
Fixpoint scanner (st : scan) (s : string) : option (list token) :=
  match s with
  | EmptyString => match st with Between => Some [] | InStr _ => None | InWord a => push (word a) (Some []) end
  | String c t =>
    match st with
    | InStr a => if Ascii.eqb c """" then push (Some (TStr a)) (scanner Between t)
                 else if (Ascii.eqb c "\" || (nat_of_ascii c <? 32)%nat)%bool then None
                 else scanner (InStr (snoc a c)) t
    | Between => if blank c then scanner Between t
                 else if punct c then push (Some (TPunct c)) (scanner Between t)
                 else if Ascii.eqb c """" then scanner (InStr "") t
                 else scanner (InWord (String c "")) t
    | InWord a => if blank c then push (word a) (scanner Between t)
                  else if punct c then push (word a) (push (Some (TPunct c)) (scanner Between t))
                  else if Ascii.eqb c """" then None
                  else scanner (InWord (snoc a c)) t
    end
  end.

(** One value, elements up to the closing bracket, members up to the closing brace;
    every result comes with the tokens that follow.  [fuel] bounds the recursion. *)
Fixpoint value (fuel : nat) (ts : list token) : option (json * list token) :=
  match fuel with
  | O => None
  | S f =>
    match ts with
    | TNull :: r => Some (JNull, r)
    | TNum t :: r => Some (JNum t, r)
    | TStr s :: r => Some (JStr s, r)
    | TPunct "[" :: TPunct "]" :: r => Some (JArr [], r)
    | TPunct "[" :: r => match elements f r with Some (l, r') => Some (JArr l, r') | None => None end
    | TPunct "{" :: TPunct "}" :: r => Some (JObj [], r)
    | TPunct "{" :: r => match members f r with Some (l, r') => Some (JObj l, r') | None => None end
    | _ => None
    end
  end
with elements (fuel : nat) (ts : list token) : option (list json * list token) :=
  match fuel with
  | O => None
  | S f =>
    match value f ts with
    | Some (v, TPunct "]" :: r) => Some ([v], r)
    | Some (v, TPunct "," :: r) => match elements f r with Some (l, r') => Some (v :: l, r') | None => None end
    | _ => None
    end
  end
with members (fuel : nat) (ts : list token) : option (list (string * json) * list token) :=
  match fuel with
  | O => None
  | S f =>
    match ts with
    | TStr k :: TPunct ":" :: r =>
      match value f r with
      | Some (v, TPunct "}" :: r') => Some ([(k, v)], r')
      | Some (v, TPunct "," :: r') => match members f r' with Some (l, r'') => Some ((k, v) :: l, r'') | None => None end
      | _ => None
      end
    | _ => None
    end
  end.

(** The document a text is, if it is one. *)
Definition read_json (s : string) : option json :=
  match scanner Between s with
  | Some ts => match value (2 * List.length ts + 2) ts with Some (v, []) => Some v | _ => None end
  | None => None
  end.

(** ** What the documents show
    [finite] are the numbers that are neither NaN nor infinite, [reads s x] says that the
    text [s] stands for the number [x]. *)
Section Shows.
Context {N : NumOps}.
Variable finite : num N -> bool.
Variable reads : string -> num N -> Prop.

(** A JSON value shows a number: its decimal text, or null for one that is not finite. *)
Definition shows (j : json) (x : num N) : Prop :=
  match j with
  | JNum t => finite x = true /\ reads t x
  | JNull => finite x = false
  | _ => False
  end.
Definition shows_all (j : json) (l : list (num N)) : Prop :=
  match j with JArr js => Forall2 shows js l | _ => False end.
Definition shows_patch (j : json) (p : PatchSim N) : Prop :=
  exists a b c d e f g h, j = JObj
    [("freq_band_means", a); ("freq_band_stddevs", b); ("freq_band_deg_energy", c); ("similarity", d);
     ("ref_patch_start_time", e); ("ref_patch_end_time", f); ("deg_patch_start_time", g); ("deg_patch_end_time", h)] /\
    shows_all a (freq_band_means p) /\ shows_all b (freq_band_stddevs p) /\ shows_all c (freq_band_deg_energy p) /\
    shows d (similarity p) /\ shows e (ref_patch_start_time p) /\ shows f (ref_patch_end_time p) /\
    shows g (deg_patch_start_time p) /\ shows h (deg_patch_end_time p).
Definition shows_result (j : json) (r : SimilarityResult N) : Prop :=
  exists a b c d e f ps, j = JObj
    [("moslqo", a); ("vnsim", b); ("fvnsim", c); ("fstdnsim", d); ("fvdegenergy", e); ("center_freq_bands", f);
     ("patch_sims", JArr ps)] /\
    shows a (moslqo r) /\ shows b (vnsim r) /\ shows_all c (fvnsim r) /\ shows_all d (fstdnsim r) /\
    shows_all e (fvdegenergy r) /\ shows_all f (res_center_freq_bands r) /\ Forall2 shows_patch ps (patch_sims r).

(** A field of the results file shows a number; NaN and the infinities are words. *)
Definition cell_shows (s : string) (x : num N) : Prop :=
  if finite x then reads s x else In s ["NaN"; "inf"; "-inf"].

(** A printer of numbers as ryu's documentation promises: the text of a finite number is
    a JSON number and stands for that number. *)
Definition prints_numbers (fmt : num N -> string) : Prop :=
  forall x, cell_shows (fmt x) x /\ (finite x = true -> read_number (fmt x) <> None).

(** All numbers of a result are finite. *)
Definition finite_result (r : SimilarityResult N) : Prop :=
  let ok := Forall (fun x => finite x = true) in
  ok [moslqo r; vnsim r] /\ ok (fvnsim r) /\ ok (fstdnsim r) /\ ok (fvdegenergy r) /\ ok (res_center_freq_bands r) /\
  Forall (fun p => ok (freq_band_means p) /\ ok (freq_band_stddevs p) /\ ok (freq_band_deg_energy p) /\
    ok [similarity p; ref_patch_start_time p; ref_patch_end_time p; deg_patch_start_time p; deg_patch_end_time p]) (patch_sims r).
End Shows.

(** ** Comma separated numbers: the fields of every line *)
Fixpoint split_lines (cell : string) (row : list string) (s : string) : list (list string) :=
  match s with
  | EmptyString => match cell, row with EmptyString, [] => [] | _, _ => [(row ++ [cell])%list] end
  | String c t => if Ascii.eqb c "," then split_lines "" (row ++ [cell])%list t
                  else if Ascii.eqb c "010" then (row ++ [cell])%list :: split_lines "" [] t
                  else split_lines (snoc cell c) row t
  end.
Definition read_csv (s : string) : list (list string) := split_lines "" [] s.
