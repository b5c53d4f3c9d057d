(** Vocabulary for what a reported similarity was measured on. *)
From Coq Require Import Reals List ZArith.
From Verif Require Import Base Num Mat M_Audio M_Spectro M_Nsim.
Import ListNotations.

(** [n] samples of a recording from sample [i] on; silence past its end. *)
Definition stretch {A} (silence : A) (l : list A) (i n : Z) : list A :=
  map (fun k => nth (Z.to_nat i + k) l silence) (seq 0 (Z.to_nat n)).

Section Compared.
Context {N : NumOps}.
(** [S] is the spectrogram of a recording with the standard window, whatever the filter
    bank was used for before. *)
Definition spectrogram_of (nb : nat) (rate : Z) (x : list (num N)) (S : Spectrogram N) : Prop :=
  exists fb fb' : Filterbank N, fb_min_freq fb = MINIMUM_FREQ /\
    build nb fb {| data_matrix := x; sample_rate := rate |} (new_window rate OVERLAP WINDOW_DURATION) = (fb', Ok S).

(** [q] is the result of comparing the recording [y] with the reference [x]: both
    spectrograms are made ready for comparison and their similarity is measured. *)
Definition compared (nb : nat) (rate : Z) (x y : list (num N)) (q : PatchSim N) : Prop :=
  exists X Y X' Y' : Spectrogram N, spectrogram_of nb rate x X /\ spectrogram_of nb rate y Y /\
    prepare_spectrograms_for_comparison X Y = Ok (X', Y') /\
    measure_patch_similarity (sp_data X') (sp_data Y') = Ok q.

(** [p] reports the figures of [q]. *)
Definition reports (p q : PatchSim N) : Prop :=
  similarity p = similarity q /\ freq_band_means p = freq_band_means q /\
  freq_band_stddevs p = freq_band_stddevs q /\ freq_band_deg_energy p = freq_band_deg_energy q.
End Compared.

(** Time [t] lies on sample [i] or less than one sample after it; the same up to [e]
    samples. *)
Definition on_sample (rate : Z) (t : R) (i : Z) : Prop := (IZR i <= t * IZR rate < IZR i + 1)%R.
Definition near_sample (rate : Z) (t : R) (i : Z) (e : R) : Prop := (IZR i - e <= t * IZR rate <= IZR i + 1 + e)%R.
