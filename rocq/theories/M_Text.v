(** The text of the files written by the command line tool: output_utils.rs of the
    crate visqol, with the derived Serialize of similarity_result.rs and
    patch_similarity_comparator.rs and the formatters of serde_json and csv it calls.
    The digits of a number come from a function [fmt] (crate ryu, not part of /repo). *)
From Verif Require Import Base Num M_Nsim M_Visqol M_Cli.
From Coq Require Import Ascii.

Section Text.
Context {N : NumOps}.
Notation T := (num N).
Local Open Scope string_scope.

(** What a derived Serialize hands to a serialiser. *)
Inductive ser : Type :=
| SNum (x : T)
| SSeq (l : list ser)
| SStruct (fields : list (string * ser)).

(** Vec<f64> *)
Definition ser_vec (l : list T) : ser := SSeq (map SNum l).

(** patch_similarity_comparator.rs:3-23, derive(Serialize): the fields in the order of
    their declaration, under their names. *)
Definition ser_patch (p : PatchSim N) : ser := SStruct
  [("freq_band_means", ser_vec (freq_band_means p));
   ("freq_band_stddevs", ser_vec (freq_band_stddevs p));
   ("freq_band_deg_energy", ser_vec (freq_band_deg_energy p));
   ("similarity", SNum (similarity p));
   ("ref_patch_start_time", SNum (ref_patch_start_time p));
   ("ref_patch_end_time", SNum (ref_patch_end_time p));
   ("deg_patch_start_time", SNum (deg_patch_start_time p));
   ("deg_patch_end_time", SNum (deg_patch_end_time p))].

(** similarity_result.rs:5-22, derive(Serialize) *)
Definition ser_result (r : SimilarityResult N) : ser := SStruct
  [("moslqo", SNum (moslqo r));
   ("vnsim", SNum (vnsim r));
   ("fvnsim", ser_vec (fvnsim r));
   ("fstdnsim", ser_vec (fstdnsim r));
   ("fvdegenergy", ser_vec (fvdegenergy r));
   ("center_freq_bands", ser_vec (res_center_freq_bands r));
   ("patch_sims", SSeq (map ser_patch (patch_sims r)))].

(** The numbers that are neither NaN nor infinite, and how a number is printed. *)
Variable finite : T -> bool.
Variable fmt : T -> string.

Definition newline : string := String "010"%char "".
Definition quote : string := String """"%char "".
(** serde_json, PrettyFormatter: two blanks per level. *)
Fixpoint indent (n : nat) : string := match n with O => "" | S k => "  " ++ indent k end.

(** serde_json, Serializer with PrettyFormatter at level [n] (called by
    output_utils.rs:51): every element on a line of its own, an empty sequence as [],
    a number that is not finite as null.  The names of the fields need no escaping. *)
Fixpoint pretty (n : nat) (v : ser) {struct v} : string :=
  match v with
  | SNum x => if finite x then fmt x else "null"
  | SSeq [] => "[]"
  | SSeq l => "[" ++ String.concat "," (map (fun x => newline ++ indent (S n) ++ pretty (S n) x) l)
              ++ newline ++ indent n ++ "]"
  | SStruct [] => "{}"
  | SStruct l => "{" ++ String.concat ","
                   (map (fun f => newline ++ indent (S n) ++ quote ++ fst f ++ quote ++ ": " ++ pretty (S n) (snd f)) l)
                 ++ newline ++ indent n ++ "}"
  end.

(** output_utils.rs:49-52: the text handed to std::fs::write; [None] is the empty
    string of line 49. *)
Definition json_text (content : option (SimilarityResult N)) : string :=
  match content with None => "" | Some r => pretty 0 (ser_result r) end.

(** output_utils.rs:59-68: the csv writer puts a comma between fields and a newline
    after every record; no number needs quotes.  Numbers that are not finite are
    printed by ryu as well ("NaN", "inf"). *)
Definition csv_text (rows : list (list T)) : string :=
  String.concat "" (map (fun row => String.concat "," (map fmt row) ++ newline) rows).

(** The contents of the file [path] after the events, [before] being the contents
    before them: std::fs::write and csv's from_path replace the contents. *)
Definition text_after (path : string) (before : string) (ev : list (event N)) : string :=
  fold_left (fun c e => match e with
                        | EJson p x => if (p =? path)%string then json_text x else c
                        | ECsv p rows => if (p =? path)%string then csv_text rows else c
                        | _ => c
                        end) ev before.
End Text.
