(** Model of the command line tool: command_line_utils.rs, path_pair.rs, main.rs and
    output_utils.rs (crate visqol).  Output is modelled as a list of events. *)
From Verif Require Import Base Num Mat M_Audio M_Spectro M_Patch M_Nsim M_Selector M_Visqol.

Section Cli.
Context {N : NumOps}.
Notation T := (num N).

(** command_line_utils.rs:8-31 *)
Inductive Subcommands : Type :=
| CmdWideband (use_unscaled_speech_mos_mapping : bool)
| CmdFullband (similarity_to_quality_model : string).

(** command_line_utils.rs:38-103, after clap has parsed the arguments *)
Record CommandLineArgs : Type := {
  subcommand : Subcommands;
  batch_input_csv : option string;
  reference_file : option string;
  degraded_file : option string;
  results_csv : option string;
  verbose : bool;
  output_debug : option string;
  search_window_radius : Z
}.

(** path_pair.rs:6-9: reference and degraded *)
Definition PathPair : Type := (string * string)%type.

(** A row of a batch file, the first row included: the file cannot be read there, or
    it has so many fields that are not all UTF-8, or these fields. *)
Inductive csv_line : Type :=
| CsvBad (code : Z)
| CsvNotText (columns : nat)
| CsvRecord (fields : list string).

(** The number of fields of a row. *)
Definition columns (l : csv_line) : nat :=
  match l with CsvBad _ => 0 | CsvNotText n => n | CsvRecord fields => List.length fields end.

(** The world outside: wav files, SVR model files, rows of batch files ([None]: cannot be
    opened) and which paths can be written. *)
Record World : Type := {
  w_wav : string -> wav;
  w_model : string -> option (SvrModel N);
  w_csv : string -> option (list csv_line);
  w_writable : string -> bool
}.

(** Codes for the errors of the csv reader that do not come from the file system. *)
Definition CSV_UNEQUAL_LENGTHS : Z := -1.
Definition CSV_NOT_UTF8 : Z := -2.

(** command_line_utils.rs:126-131: the reader (not flexible, [n] fields in the first
    row) refuses a row with another number of fields, then one that is not UTF-8; a
    record with fewer than two fields cannot be deserialised (expect); fields after the
    second are ignored. *)
Definition read_line (n : nat) (l : csv_line) : res PathPair :=
  match l with
  | CsvBad c => Err (CsvError c)
  | _ => if negb (Nat.eqb (columns l) n) then Err (CsvError CSV_UNEQUAL_LENGTHS)
         else match l with
              | CsvRecord (r :: d :: _) => Ok (r, d)
              | CsvRecord _ => Panic PExpect
              | _ => Err (CsvError CSV_NOT_UTF8)
              end
  end.

(** command_line_utils.rs:117-134: the first row is the header row (has_headers) and is
    skipped; its text is not looked at. *)
Definition read_files_to_compare (w : World) (path : string) : res (list PathPair) :=
  match w_csv w path with
  | None => Panic PExpect
  | Some [] => Ok []
  | Some (CsvBad c :: _) => Err (CsvError c)
  | Some (header :: lines) => mapM (read_line (columns header)) lines
  end.

(** command_line_utils.rs:105-115 *)
Definition build_file_pair_paths (w : World) (args : CommandLineArgs) : res (list PathPair) :=
  match reference_file args, degraded_file args with
  | Some r, Some d => Ok [(r, d)]
  | _, _ => match batch_input_csv args with
            | Some f => read_files_to_compare w f
            | None => Ok []
            end
  end.

(** main.rs:19-29 *)
Fixpoint run_all (pf : profile) (nb : nat) (files : string -> wav) (m : Manager N)
    (pairs : list PathPair) : res (list (SimilarityResult N)) :=
  match pairs with
  | [] => Ok []
  | (r, d) :: t =>
    let '(m', x) := run pf nb files m r d in
    do x <- x;
    do rest <- run_all pf nb files m' t;
    Ok (x :: rest)
  end.

(** Observable output of the tool. *)
Inductive event : Type :=
| EVersion
| EJson (path : string) (content : option (SimilarityResult N))
                                           (* file replaced; [None] is an empty file *)
| ECsv (path : string) (rows : list (list T))     (* file replaced by these rows *)
| EReference (path : string)
| EDegraded (path : string)
| EMos (score : T)
| EFvnsimTable (rows : list (T * T))
| EPatchTable (rows : list (Z * T * (T * T) * (T * T))).

(** output_utils.rs:48-55: every result overwrites the string; the file is
    written once. *)
Definition json_content (results : list (SimilarityResult N)) : option (SimilarityResult N) :=
  fold_left (fun _ r => Some r) results None.

Definition write_debug_json (w : World) (path : string) (results : list (SimilarityResult N))
  : list event * res unit :=
  if w_writable w path then ([EJson path (json_content results)], Ok tt)
  else ([], Panic PExpect).

(** The csv serialisation of a SimilarityResult (similarity_result.rs:5-22 and
    patch_similarity_comparator.rs:3-23 derive Serialize): all numbers in field
    order, nested sequences flattened. *)
Definition patch_fields (p : PatchSim N) : list T :=
  freq_band_means p ++ freq_band_stddevs p ++ freq_band_deg_energy p ++
  [similarity p; ref_patch_start_time p; ref_patch_end_time p;
   deg_patch_start_time p; deg_patch_end_time p].
Definition csv_row (r : SimilarityResult N) : list T :=
  [moslqo r; vnsim r] ++ fvnsim r ++ fstdnsim r ++ fvdegenergy r ++ res_center_freq_bands r
  ++ List.concat (map patch_fields (patch_sims r)).

(** The csv writer (not flexible) fails at the first record whose number of
    fields differs from the first record's.  Result: the accepted rows and whether
    all were accepted. *)
Fixpoint csv_accept (first : option nat) (rows : list (list T)) : list (list T) * bool :=
  match rows with
  | [] => ([], true)
  | r :: t =>
    match first with
    | Some n => if Nat.eqb (List.length r) n
                then let '(acc, ok) := csv_accept first t in (r :: acc, ok)
                else ([], false)
    | None => let '(acc, ok) := csv_accept (Some (List.length r)) t in (r :: acc, ok)
    end
  end.

(** output_utils.rs:58-70.  When a record is refused the tool panics; the rows
    accepted before it reach the file (the partial text of the refused record is
    not modelled). *)
Definition write_results_to_csv (w : World) (path : string) (results : list (SimilarityResult N))
  : list event * res unit :=
  if w_writable w path then
    let '(rows, ok) := csv_accept None (map csv_row results) in
    ([ECsv path rows], if ok then Ok tt else Panic PExpect)
  else ([], Panic PExpect).

(** output_utils.rs:73-87 and 90-123: the table rows *)
Definition fvnsim_table (r : SimilarityResult N) : list (T * T) :=
  combine (fvnsim r) (res_center_freq_bands r).
Definition patch_table (r : SimilarityResult N) : list (Z * T * (T * T) * (T * T)) :=
  map (fun ip => let '(i, p) := ip in
        (Z.of_nat i, similarity p, (ref_patch_start_time p, ref_patch_end_time p),
         (deg_patch_start_time p, deg_patch_end_time p)))
      (combine (seq 0 (List.length (patch_sims r))) (patch_sims r)).

(** output_utils.rs:34-46 *)
Definition write_to_console (args : CommandLineArgs) (r : SimilarityResult N) (p : PathPair)
  : list event :=
  (if verbose args then [EReference (fst p); EDegraded (snd p)] else [])
  ++ [EMos (moslqo r)]
  ++ (if verbose args then [EFvnsimTable (fvnsim_table r); EPatchTable (patch_table r)] else []).

(** Run the first step and, if it did not fail, the second; events are collected. *)
Definition andthen (a b : list event * res unit) : list event * res unit :=
  match snd a with
  | Ok _ => (fst a ++ fst b, snd b)
  | _ => a
  end.

(** output_utils.rs:12-31 *)
Definition write_results (w : World) (args : CommandLineArgs) (results : list (SimilarityResult N))
    (pairs : list PathPair) : list event * res unit :=
  andthen ([EVersion], Ok tt)
  (andthen (match output_debug args with
            | Some p => write_debug_json w p results | None => ([], Ok tt) end)
  (andthen (match results_csv args with
            | Some p => write_results_to_csv w p results | None => ([], Ok tt) end)
   (List.concat (map (fun rp => write_to_console args (fst rp) (snd rp)) (combine results pairs)),
    Ok tt))).

(** main.rs:44-68: the manager and number of bands of a subcommand *)
Definition bands_of (args : CommandLineArgs) : nat :=
  match subcommand args with CmdWideband _ => NUM_BANDS_SPEECH | CmdFullband _ => NUM_BANDS_AUDIO end.
Definition variant_of (w : World) (args : CommandLineArgs) : Variant N :=
  match subcommand args with
  | CmdWideband u => Wideband u
  | CmdFullband path => Fullband (w_model w path)
  end.

(** main.rs:30-72, after the logger is set up and the arguments are parsed *)
Definition main (pf : profile) (w : World) (args : CommandLineArgs) : list event * res unit :=
  match (do pairs <- build_file_pair_paths w args;
         do m <- new_manager (bands_of args) (variant_of w args) (search_window_radius args);
         do results <- run_all pf (bands_of args) (w_wav w) m pairs;
         Ok (pairs, results)) with
  | Err e => ([], Err e)
  | Panic p => ([], Panic p)
  | Ok (pairs, results) => write_results w args results pairs
  end.
End Cli.

Arguments World N : clear implicits.
Arguments event N : clear implicits.
