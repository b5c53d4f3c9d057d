(** Model of the fullband predictor with the model file of the repository:
    support_vector_regression_model.rs, the crate ffsvm as far as it is used there, and
    model/libsvm_nu_svr_model.txt. *)
From Verif Require Import Base Num M_Visqol M_SvrData.

Section Svr.
Context {N : NumOps}.
Notation T := (num N).
Open Scope num_scope.

(** A parsed LibSVM file (svm_type nu_svr, kernel_type rbf). *)
Record SvrFile : Type := { gamma : T; rho : T; support_vectors : list (T * list T) }.

(** Squared distance of a support vector and an observation; features that are not set
    (support_vector_regression_model.rs:25-27) are zero. *)
Fixpoint squared_distance (sv obs : list T) : T :=
  match sv with
  | [] => #0
  | s :: sv =>
    let d := s [-] match obs with o :: _ => o | [] => #0 end in
    d [*] d [+] squared_distance sv (tl obs)
  end.

(** support_vector_regression_model.rs:28-30: the prediction of ffsvm.  Simplification:
    ffsvm computes in f32, here everything is computed in [N]. *)
Definition svr_prediction (f : SvrFile) (obs : list T) : T :=
  seq_sum (map (fun sv => fst sv [*] nexp N (nneg N (gamma f [*] squared_distance (snd sv) obs)))
               (support_vectors f)) [-] rho f.

(** model/libsvm_nu_svr_model.txt:3,6,8-324 *)
Definition shipped_file : SvrFile := {|
  gamma := nlit N 1 2;
  rho := nlit N (-36816207123583506) 16;
  support_vectors := map (fun sv => (nlit N (fst sv) 18, map (fun s => nlit N s 11) (snd sv))) SUPPORT_VECTORS
|}.

(** The model --similarity_to_quality_model loads by default
    (command_line_utils.rs:24-29, support_vector_regression_model.rs:12-19). *)
Definition shipped_model : SvrModel N := {|
  svr_features := 32;
  svr_value := fun obs => Some (svr_prediction shipped_file obs)
|}.
End Svr.
