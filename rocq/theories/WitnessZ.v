(** A toy arithmetic (integers; every decimal literal is 1) on which complete
    runs of the generic model are cheap.  Used only in examples of theorems that
    hold for every arithmetic. *)
From Verif Require Import Base Num Mat M_Audio M_Align M_Spectro M_Patch M_Nsim M_Selector M_Visqol M_Cli.

Definition ZN : NumOps := {|
  num := Z;
  nofZ := fun z => z;
  nlit := fun _ _ => 1;
  nadd := Z.add; nsub := Z.sub; nmul := Z.mul; ndiv := Z.div;
  nfma := fun x y z => x * y + z;
  nneg := Z.opp; nabs := Z.abs; nsqrt := Z.sqrt;
  nltb := Z.ltb; nleb := Z.leb; neqb := Z.eqb;
  nroundZ := fun x => x; nceil := fun x => x; nfloor := fun x => x;
  ncast := fun lo hi x => Z.max lo (Z.min hi x);
  nmin_value := - 2 ^ 60;
  nepsilon := 1; npi := 3;
  nexp := fun x => x; nln := fun x => x; nlog10 := fun x => x; nlog2 := Z.log2;
  nsin := fun x => x; ncos := fun x => x; nsinh := fun x => x; ncosh := fun x => 1;
  npowf := fun x _ => x; nhypot := fun x y => Z.abs x + Z.abs y; natan2 := fun x _ => x;
  nfft := fun _ l => l
|}.

(** Full-scale samples, so that the integer quotient by 32767 is -1, 0 or 1. *)
Definition z_wave (k n : nat) : list (option Z) :=
  map (fun j => Some (if Nat.eqb (j mod k) 0 then 32767 else -32768)) (seq 0 n).

Definition z_world : World ZN := {|
  w_wav := fun p =>
    if String.eqb p "a.wav" then WavOk 1 1 16 (z_wave 2 80)
    else if String.eqb p "b.wav" then WavOk 1 1 16 (z_wave 3 80)
    else if String.eqb p "long.wav" then WavOk 1 1 16 (z_wave 2 120)
    else if String.eqb p "other.wav" then WavOk 1 2 16 (z_wave 2 80)
    else WavBad 2;
  w_model := fun p => if String.eqb p "model"
                      then Some {| svr_features := 32; svr_value := fun l => hd_error l |}
                      else None;
  w_csv := fun p => if String.eqb p "batch.csv"
                    then Some [CsvRecord ["reference"; "degraded"]; CsvRecord ["a.wav"; "a.wav"]; CsvRecord ["b.wav"; "a.wav"]]%string
                    else if String.eqb p "bad.csv"
                    then Some [CsvRecord ["reference"; "degraded"]; CsvRecord ["a.wav"; "a.wav"]; CsvRecord ["a.wav"; "other.wav"];
                               CsvRecord ["missing.wav"; "a.wav"]]%string
                    else if String.eqb p "mixed.csv"
                    then Some [CsvRecord ["reference"; "degraded"]; CsvRecord ["a.wav"; "a.wav"]; CsvRecord ["long.wav"; "long.wav"]]%string
                    else None;
  w_writable := fun _ => true
|}.

Definition z_args (csv batch r d : option string) : CommandLineArgs := {|
  subcommand := CmdWideband false;
  batch_input_csv := batch;
  reference_file := r;
  degraded_file := d;
  results_csv := csv;
  verbose := false;
  output_debug := Some "debug.json"%string;
  search_window_radius := 0
|}.

(** The manager of the tool for [z_args] and two complete runs with it. *)
Definition z_manager : Manager ZN :=
  {| mg_search_window := 0; mg_creator := VadPatchCreator PATCH_SIZE_AUDIO;
     mg_mapper := SpeechMapper true; mg_filterbank := new_filterbank NUM_BANDS_SPEECH MINIMUM_FREQ |}.
Definition z_patches (x : res (SimilarityResult ZN)) : option nat :=
  match x with Ok r => Some (List.length (patch_sims r)) | _ => None end.
Lemma z_patches_some x n : z_patches x = Some n -> exists r, x = Ok r /\ List.length (patch_sims r) = n.
Proof. destruct x; intros [= <-]; eauto. Qed.
Lemma z_run_a :
  z_patches (snd (run Debug NUM_BANDS_SPEECH (w_wav z_world) z_manager "a.wav" "a.wav")) = Some 2%nat.
Proof. vm_cast_no_check (@eq_refl (option nat) (Some 2%nat)). Qed.
Lemma z_run_long :
  z_patches (snd (run Debug NUM_BANDS_SPEECH (w_wav z_world) z_manager "long.wav" "long.wav")) = Some 3%nat.
Proof. vm_cast_no_check (@eq_refl (option nat) (Some 3%nat)). Qed.
