(** Model of the argument declarations of command_line_utils.rs:33-103 and of what clap
    (version 4, not part of /repo) does with them: CommandLineArgs::parse() in main.rs:40.
    Splitting the command line into options is not modelled; a command line is given as
    the options that occur in it, each at most once. *)
From Verif Require Import Base Num M_Audio M_Visqol M_Cli.

(** An option: its id, the ids it requires and the ids it excludes.  With derive the id
    is the name of the field, or what the attribute [name] says. *)
Record ArgDecl : Type := { arg_id : string; arg_requires : list string; arg_conflicts : list string }.

(** command_line_utils.rs:48-102: the attributes of the options, as they are written *)
Definition declared : list ArgDecl := [
  {| arg_id := "batch_input_csv"; arg_requires := []; arg_conflicts := ["reference_file"; "degraded_file"] |};
  {| arg_id := "reference_file"; arg_requires := ["degraded-file"]; arg_conflicts := ["batch_input_csv"] |};
  {| arg_id := "degraded_file"; arg_requires := ["reference-file"]; arg_conflicts := ["batch_input_csv"] |};
  {| arg_id := "results_csv"; arg_requires := []; arg_conflicts := [] |};
  {| arg_id := "verbose"; arg_requires := []; arg_conflicts := [] |};
  {| arg_id := "output_debug"; arg_requires := []; arg_conflicts := [] |};
  {| arg_id := "search_window_radius"; arg_requires := []; arg_conflicts := [] |}
]%string.

(** command_line_utils.rs:8-31: a subcommand with its own option, if that was given *)
Inductive GivenSub : Type :=
| GivenWideband (use_unscaled_speech_mos_mapping : bool)
| GivenFullband (similarity_to_quality_model : option string).

(** The options of a command line.  The radius is [Some None] if its text is not a
    number. *)
Record Given : Type := {
  g_subcommand : option GivenSub;
  g_batch : option string;
  g_reference : option string;
  g_degraded : option string;
  g_results : option string;
  g_verbose : bool;
  g_debug : option string;
  g_radius : option (option Z)
}.

Definition is_some {A} (o : option A) : bool := match o with Some _ => true | None => false end.
(** The ids of the options that occur. *)
Definition present (g : Given) (id : string) : bool :=
  if (id =? "batch_input_csv")%string then is_some (g_batch g)
  else if (id =? "reference_file")%string then is_some (g_reference g)
  else if (id =? "degraded_file")%string then is_some (g_degraded g)
  else if (id =? "results_csv")%string then is_some (g_results g)
  else if (id =? "verbose")%string then g_verbose g
  else if (id =? "output_debug")%string then is_some (g_debug g)
  else if (id =? "search_window_radius")%string then is_some (g_radius g)
  else false.

Definition known (decls : list ArgDecl) (id : string) : bool := existsb (fun a => (arg_id a =? id)%string) decls.

(** clap's check of the declarations themselves (compiled in when debug assertions are
    on): every id that is referred to exists. *)
Definition well_declared (decls : list ArgDecl) : bool :=
  forallb (fun a => forallb (known decls) (arg_requires a ++ arg_conflicts a)) decls.
(** clap's validator: two options that exclude each other occur. *)
Definition conflicting (decls : list ArgDecl) (g : Given) : bool :=
  existsb (fun a => present g (arg_id a) && existsb (fun b => known decls b && present g b) (arg_conflicts a)) decls.
(** clap's validator: an option occurs and one that it requires does not; ids that do
    not exist are passed over. *)
Definition missing (decls : list ArgDecl) (g : Given) : bool :=
  existsb (fun a => present g (arg_id a) && existsb (fun b => known decls b && negb (present g b)) (arg_requires a)) decls.

(** How parse() ends: with arguments, with a usage message and exit code 2, or with a
    panic. *)
Inductive startup : Type := Started (args : CommandLineArgs) | UsageError | StartPanic.

(** A usize in decimal. *)
Definition radius_of (g : Given) : option Z :=
  match g_radius g with
  | None => Some 60
  | Some (Some z) => if (0 <=? z) && (z <? 2 ^ 64) then Some z else None
  | Some None => None
  end.

(** command_line_utils.rs:38-102 and main.rs:40 *)
Definition parse (pf : profile) (g : Given) : startup :=
  if match pf with Debug => negb (well_declared declared) | Release => false end then StartPanic
  else match g_subcommand g, radius_of g with
  | Some sub, Some radius =>
    if conflicting declared g || missing declared g then UsageError
    else Started {|
      subcommand := match sub with
                    | GivenWideband u => CmdWideband u
                    | GivenFullband m => CmdFullband (match m with Some p => p | None => "./model/libsvm_nu_svr_model.txt"%string end)
                    end;
      batch_input_csv := g_batch g; reference_file := g_reference g; degraded_file := g_degraded g;
      results_csv := g_results g; verbose := g_verbose g; output_debug := g_debug g;
      search_window_radius := radius |}
  | _, _ => UsageError
  end.

(** The whole program: main.rs:30-72 *)
Inductive ending (N : NumOps) : Type :=
| Refused                                   (* usage message, exit code 2 *)
| Crashed                                   (* panic while reading the command line *)
| Ran (out : list (event N) * res unit).
Arguments Refused {N}.
Arguments Crashed {N}.
Arguments Ran {N} out.
Definition tool {N : NumOps} (pf : profile) (w : World N) (g : Given) : ending N :=
  match parse pf g with
  | StartPanic => Crashed
  | UsageError => Refused
  | Started args => Ran (main pf w args)
  end.
