(** Vocabulary of C69. *)
From Verif Require Import Base Num M_Cli M_Clap.

(** What a command line must satisfy to be run by a release build: a subcommand, a
    radius that is a number of 64 bits, and not a batch together with a recording. *)
Definition usable (g : Given) : Prop :=
  g_subcommand g <> None /\
  match g_radius g with None => True | Some None => False | Some (Some z) => 0 <= z < 2 ^ 64 end /\
  (g_batch g = None \/ (g_reference g = None /\ g_degraded g = None)).
(** What the declarations are meant to demand: also that both recordings are given or
    none of them. *)
Definition intended (g : Given) : Prop := usable g /\ (g_reference g = None <-> g_degraded g = None).

(** The arguments [args] are those of the command line, with the documented defaults. *)
Definition arguments_of (g : Given) (args : CommandLineArgs) : Prop :=
  match g_subcommand g with
  | Some (GivenWideband u) => subcommand args = CmdWideband u
  | Some (GivenFullband (Some p)) => subcommand args = CmdFullband p
  | Some (GivenFullband None) => subcommand args = CmdFullband "./model/libsvm_nu_svr_model.txt"%string
  | None => False
  end /\
  batch_input_csv args = g_batch g /\ reference_file args = g_reference g /\ degraded_file args = g_degraded g /\
  results_csv args = g_results g /\ verbose args = g_verbose g /\ output_debug args = g_debug g /\
  match g_radius g with None => search_window_radius args = 60 | Some (Some z) => search_window_radius args = z | Some None => False end.
