(** The repository's unit tests, run on the model.  These are tests, not proofs: they
    check the reading of the code against the numbers the authors recorded (most of
    them taken from the C++ implementation).  Expected values and tolerances are the
    ones in the Rust tests unless a comment says otherwise.  Tests that need
    recordings and one long case of the patch matching are left out. *)
From Flocq Require Import Core IEEE754.BinarySingleNaN.
From Verif Require Import Base Num Mat M_Audio M_Align M_Spectro M_Patch M_Nsim M_Selector F64.

(** ** A usable math library: series in binary64, accurate to about 1e-12 *)
Local Notation "x [+] y" := (Bplus mode_NE x y) (at level 50, left associativity).
Local Notation "x [-] y" := (Bminus mode_NE x y) (at level 50, left associativity).
Local Notation "x [*] y" := (Bmult mode_NE x y) (at level 40, left associativity).
Local Notation "x [/] y" := (Bdiv mode_NE x y) (at level 40, left associativity).
Definition f (z : Z) : f64 := f64_ofZ z.
Definition pi64 : f64 := npi (F64 {| lm_exp := fun x => x; lm_ln := fun x => x; lm_log10 := fun x => x;
  lm_log2 := fun x => x; lm_sin := fun x => x; lm_cos := fun x => x; lm_sinh := fun x => x; lm_cosh := fun x => x;
  lm_powf := fun x _ => x; lm_hypot := fun x _ => x; lm_atan2 := fun x _ => x; lm_fft := fun _ l => l |}).
Fixpoint series (n : nat) (k : Z) (step : Z -> f64) (term acc : f64) : f64 :=
  match n with O => acc | S m => let t := term [*] step k in series m (k + 1) step t (acc [+] t) end.
Definition reduce (x : f64) : f64 :=
  let p := f 2 [*] pi64 in x [-] Bnearbyint mode_NE (x [/] p) [*] p.
Definition t_sin (x : f64) : f64 :=
  let r := reduce x in let s := Bopp (r [*] r) in series 16 1 (fun k => s [/] f (2 * k * (2 * k + 1))) r r.
Definition t_cos (x : f64) : f64 :=
  let r := reduce x in let s := Bopp (r [*] r) in series 16 1 (fun k => s [/] f ((2 * k - 1) * (2 * k))) (f 1) (f 1).
Definition t_exp (x : f64) : f64 :=
  let r := x [/] f 1024 in
  let y := series 14 1 (fun k => r [/] f k) (f 1) (f 1) in
  Nat.iter 10 (fun z => z [*] z) y.
Definition t_ln2 : f64 := f64_lit 693147180559945 15.
Definition t_ln (x : f64) : f64 :=
  let m := fst (Bfrexp x) in let e := snd (Bfrexp x) in
  let q := (m [-] f 1) [/] (m [+] f 1) in let s := q [*] q in
  let odd := fst (fold_left (fun st k => let '(acc, p) := st in (acc [+] p [/] f (2 * Z.of_nat k + 1), p [*] s)) (seq 0 20) (f 0, q)) in
  f 2 [*] odd [+] f e [*] t_ln2.
Definition t_powf (x y : f64) : f64 :=
  if Beqb y (f 2) then x [*] x else if Beqb y (f 1) then x
  else if Beqb x (f 0) then f 0 else t_exp (y [*] t_ln x).
(** Arc tangent: argument halved three times, then the series. *)
Definition t_atan (x : f64) : f64 :=
  let h := Nat.iter 3 (fun z => z [/] (f 1 [+] Bsqrt mode_NE (f 1 [+] z [*] z))) x in let s := Bopp (h [*] h) in
  f 8 [*] fst (fold_left (fun st k => let '(acc, p) := st in (acc [+] p [/] f (2 * Z.of_nat k + 1), p [*] s)) (seq 0 20) (f 0, h)).
Definition t_atan2 (y x : f64) : f64 :=
  if Bltb (f 0) x then t_atan (y [/] x)
  else if Bltb x (f 0) then (if Bltb y (f 0) then t_atan (y [/] x) [-] pi64 else t_atan (y [/] x) [+] pi64)
  else if Bltb (f 0) y then pi64 [/] f 2 else if Bltb y (f 0) then Bopp (pi64 [/] f 2) else f 0.
(** Fourier transform: decimation in time, length a power of two; [tw] is the table
    of the first half of the roots of unity. *)
Fixpoint evens {A} (l : list A) : list A := match l with x :: _ :: t => x :: evens t | _ => l end.
Definition odds {A} (l : list A) : list A := evens (tl l).
Fixpoint t_fft (depth : nat) (tw : list (f64 * f64)) (l : list (f64 * f64)) : list (f64 * f64) :=
  match depth, l with
  | O, _ | _, [] | _, [_] => l
  | S d, _ =>
    let e := t_fft d (evens tw) (evens l) in let o := t_fft d (evens tw) (odds l) in
    let p := map (fun ab => let '((a, b), (c, s)) := ab in (a [*] c [-] b [*] s, a [*] s [+] b [*] c)) (combine o tw) in
    map (fun x => (fst (fst x) [+] fst (snd x), snd (fst x) [+] snd (snd x))) (combine e p) ++
    map (fun x => (fst (fst x) [-] fst (snd x), snd (fst x) [-] snd (snd x))) (combine e p)
  end.
Definition t_roots (inverse : bool) (n : Z) : list (f64 * f64) :=
  map (fun k => let th := f 2 [*] pi64 [*] f (Z.of_nat k) [/] f n in
                (t_cos th, if inverse then t_sin th else Bopp (t_sin th))) (seq 0 (Z.to_nat (n / 2))).
Definition lm_t : Libm := {|
  lm_exp := t_exp; lm_ln := t_ln; lm_log10 := fun x => t_ln x [/] t_ln (f 10); lm_log2 := fun x => t_ln x [/] t_ln2;
  lm_sin := t_sin; lm_cos := t_cos;
  lm_sinh := fun x => (t_exp x [-] t_exp (Bopp x)) [/] f 2; lm_cosh := fun x => (t_exp x [+] t_exp (Bopp x)) [/] f 2;
  lm_powf := t_powf; lm_hypot := fun x y => Bsqrt mode_NE (x [*] x [+] y [*] y); lm_atan2 := t_atan2;
  lm_fft := fun inverse l => t_fft 20 (t_roots inverse (zlen l)) l |}.
Notation M := (F64 lm_t).

Definition lits (l : list (Z * Z)) : list f64 := map (fun p => f64_lit (fst p) (snd p)) l.
Definition close (eps x y : f64) : bool := Bleb (Babs (x [-] y)) eps.
Definition close_list (eps : f64) (l m : list f64) : bool :=
  (List.length l =? List.length m)%nat && forallb (fun p => close eps (fst p) (snd p)) (combine l m).
(** Relative comparison. *)
Definition near_list (eps : f64) (l m : list f64) : bool :=
  (List.length l =? List.length m)%nat && forallb (fun p => close (eps [*] Babs (snd p)) (fst p) (snd p)) (combine l m).
Definition rows_of {A} (r c : nat) (l : list A) : list (list A) := map (fun i => firstn c (skipn (i * c) l)) (seq 0 r).
Definition row_major (r c : nat) (l : list f64) : mat M := @Build_mat M r c (rows_of r c l).
Definition col_major (r c : nat) (l : list f64) : mat M :=
  @Build_mat M r c (map (fun i => map (fun j => nth (j * r + i) l (f 0)) (seq 0 c)) (seq 0 r)).

(** math_utils.rs:40-49 *)
Example test_next_pow_two :
  map (next_pow_two Debug) [2; 10; 3; 5; 48000; 7; 23; 32]%Z = map Ok [2; 16; 4; 8; 65536; 8; 32; 32]%Z.
Proof. vm_cast_no_check (@eq_refl _ (map Ok [2; 16; 4; 8; 65536; 8; 32; 32]%Z)). Qed.

(** math_utils.rs:52-63 *)
Example test_exponential_from_fit :
  close (f64_lit 1 4) (exponential_from_fit (N:=M) (f64_lit 5 1) (f64_lit 115 2) (f64_lit 468 2) (f64_lit 76 2)) (f64_lit 14461764 7) &&
  close (f64_lit 1 4) (exponential_from_fit (N:=M) (f 1) (f64_lit 115 2) (f64_lit 468 2) (f64_lit 76 2)) (f64_lit 42246776 7) = true.
Proof. vm_cast_no_check (@eq_refl _ (true)). Qed.

(** xcorr.rs:183-188 *)
Example test_frexp :
  frexp_exp (N:=M) (f 27) = 5%Z.
Proof. vm_cast_no_check (@eq_refl _ (5%Z)). Qed.

(** xcorr.rs:97-99 *)
Definition x_ref : list (Z * Z) := [
  (2, 0); (2, 0); (1, 0); (1, 1); (-3, 0); (1, 1); (1, 0); (2, 0); (2, 0); (6, 0); (8, 0); (6, 0); (2, 0);
  (2, 0)].

(** xcorr.rs:96-116 *)
Definition x_deg0 : list (Z * Z) := [
  (12, 1); (1, 1); (-33, 1); (1, 1); (11, 1); (22, 1); (21, 1); (71, 1); (83, 1); (68, 1); (24, 1); (22, 1);
  (22, 1); (21, 1)].

(** xcorr.rs:96-116 *)
Example best_lag_signals_have_equal_length :
  calculate_best_lag (N:=M) Debug (lits x_ref) (lits x_deg0) = Ok (Some (2)%Z).
Proof. vm_cast_no_check (@eq_refl _ (Ok (Some (2)%Z))). Qed.

(** xcorr.rs:119-138 *)
Definition x_deg1 : list (Z * Z) := [
  (12, 1); (1, 1); (-33, 1); (1, 1); (11, 1); (22, 1); (21, 1); (71, 1); (83, 1); (68, 1); (24, 1); (22, 1);
  (22, 1); (21, 1); (2, 0)].

(** xcorr.rs:119-138 *)
Example best_lag_reference_is_shorter_than_degraded :
  calculate_best_lag (N:=M) Debug (lits x_ref) (lits x_deg1) = Ok (Some (2)%Z).
Proof. vm_cast_no_check (@eq_refl _ (Ok (Some (2)%Z))). Qed.

(** xcorr.rs:141-160 *)
Definition x_deg2 : list (Z * Z) := [
  (12, 1); (1, 1); (-33, 1); (1, 1); (11, 1); (22, 1); (21, 1); (71, 1); (83, 1); (68, 1); (24, 1); (22, 1);
  (22, 1)].

(** xcorr.rs:141-160 *)
Example best_lag_reference_is_longer_than_degraded :
  calculate_best_lag (N:=M) Debug (lits x_ref) (lits x_deg2) = Ok (Some (2)%Z).
Proof. vm_cast_no_check (@eq_refl _ (Ok (Some (2)%Z))). Qed.

(** xcorr.rs:162-180 *)
Definition x_deg3 : list (Z * Z) := [
  (2, 0); (2, 0); (2, 0); (2, 0); (1, 0); (1, 1); (-3, 0); (1, 1); (1, 0); (2, 0); (2, 0); (6, 0); (8, 0);
  (6, 0)].

(** xcorr.rs:162-180 *)
Example best_lag_is_negative :
  calculate_best_lag (N:=M) Debug (lits x_ref) (lits x_deg3) = Ok (Some (-2)%Z).
Proof. vm_cast_no_check (@eq_refl _ (Ok (Some (-2)%Z))). Qed.

(** fast_fourier_transform.rs:62-129 *)
Definition fft_samples : list (Z * Z) := [
  (150529, 9); (589739, 10); (-936187, 10); (-936187, 10); (394677, 9); (303122, 9); (-936187, 10);
  (303122, 9); (894924, 10); (150529, 9); (-206314, 11); (-154656, 9); (284554, 10); (272603, 9);
  (-185174, 9); (589739, 10); (364159, 9); (425196, 9); (120011, 9); (589739, 10); (120011, 9); (211566, 9);
  (150529, 9); (284554, 10); (120011, 9); (150529, 9); (894924, 10); (-936187, 10); (242085, 9); (486233, 9);
  (894924, 10); (120011, 9); (894924, 10); (894924, 10); (150529, 9); (-154656, 9); (-206314, 11);
  (284554, 10); (150529, 9); (-325817, 10); (589739, 10); (589739, 10); (-124137, 9); (589739, 10);
  (284554, 10); (181048, 9); (-124137, 9); (-368285, 9); (-936187, 10); (-246211, 9); (-325817, 10);
  (284554, 10); (-631002, 10); (-936187, 10); (-206314, 11); (-206314, 11); (-185174, 9); (-124137, 9);
  (284554, 10); (894924, 10); (-27673, 8); (-631002, 10); (-215693, 9); (425196, 9); (894924, 10)].

(** fast_fourier_transform.rs:132-645, real parts *)
Definition fft_re : list (Z * Z) := [
  (322292904, 11); (301682385173052, 17); (-10327859216389, 16); (-144609203801138, 17);
  (111610613898786, 17); (-318859126372253, 18); (673949619008653, 18); (-349644446093239, 19);
  (339817207812471, 18); (101609221059575, 18); (-586264026928805, 18); (-259248055250948, 17);
  (227097152831817, 18); (-722511594188183, 18); (407311564417282, 18); (-195617316848781, 18);
  (233147810677542, 18); (691246491351084, 18); (755913153376688, 18); (-157770746633928, 17);
  (896182317264214, 18); (-822997471347754, 18); (109713925301471, 17); (868409640532475, 18);
  (535362381861835, 18); (-99414386571284, 17); (128029686672661, 17); (-558399599341835, 18);
  (590345970887055, 18); (12362300073926, 17); (177647225128173, 17); (301793611579363, 17); (124919604, 11);
  (-322728346193144, 18); (-5272399997204, 16); (703316552686529, 18); (-525863898635626, 18);
  (432650139994782, 18); (151305582086382, 18); (-614596442789589, 19); (118869378923226, 17);
  (172206834052672, 18); (-273651726999761, 18); (-113046085098264, 17); (-958346131576863, 18);
  (-253487462883782, 18); (-970643681183129, 18); (-121987061492059, 17); (189986069322458, 18);
  (39131683737656, 18); (364085132964744, 18); (438119142196402, 18); (-619592071135628, 18);
  (128409408020558, 17); (651940026079785, 18); (-378907596869206, 18); (312982109343697, 20);
  (11881919661281, 16); (-236735235269374, 18); (12154096264376, 16); (-254141478622833, 18);
  (102320576458072, 17); (-112262885721622, 17); (267885080182829, 18); (-110072968, 11);
  (267885080182829, 18); (-112262885721622, 17); (102320576458072, 17); (-254141478622833, 18);
  (12154096264376, 16); (-236735235269374, 18); (11881919661281, 16); (312982109343697, 20);
  (-378907596869206, 18); (651940026079785, 18); (128409408020558, 17); (-619592071135628, 18);
  (438119142196402, 18); (364085132964744, 18); (39131683737656, 18); (189986069322458, 18);
  (-121987061492059, 17); (-970643681183129, 18); (-253487462883782, 18); (-958346131576863, 18);
  (-113046085098264, 17); (-273651726999761, 18); (172206834052672, 18); (118869378923226, 17);
  (-614596442789589, 19); (151305582086382, 18); (432650139994782, 18); (-525863898635626, 18);
  (703316552686529, 18); (-5272399997204, 16); (-322728346193144, 18); (124919604, 11);
  (301793611579363, 17); (177647225128173, 17); (12362300073926, 17); (590345970887055, 18);
  (-558399599341835, 18); (128029686672661, 17); (-99414386571284, 17); (535362381861835, 18);
  (868409640532475, 18); (109713925301471, 17); (-822997471347754, 18); (896182317264214, 18);
  (-157770746633928, 17); (755913153376688, 18); (691246491351084, 18); (233147810677542, 18);
  (-195617316848781, 18); (407311564417282, 18); (-722511594188183, 18); (227097152831817, 18);
  (-259248055250948, 17); (-586264026928805, 18); (101609221059575, 18); (339817207812471, 18);
  (-349644446093239, 19); (673949619008653, 18); (-318859126372253, 18); (111610613898786, 17);
  (-144609203801138, 17); (-10327859216389, 16); (301682385173052, 17)].

(** fast_fourier_transform.rs:132-645, imaginary parts *)
Definition fft_im : list (Z * Z) := [
  (0, 0); (-234848985608509, 17); (-340299713362453, 17); (879145244592523, 18); (-30218100237693, 17);
  (-367181194435114, 18); (-310723599151972, 18); (-563954656030864, 18); (-595601799964675, 18);
  (-744744002384681, 18); (-191608882520754, 17); (471875974326385, 18); (110287047767037, 17);
  (313570758095348, 18); (853530053469442, 18); (154945338489743, 18); (734349802916912, 18);
  (556673374244994, 18); (-108748635434686, 17); (3037946530668, 16); (835164328459981, 18);
  (140031434634188, 18); (153219988568366, 17); (-373929386206932, 18); (-461656449099621, 18);
  (213392912383107, 18); (927358696182279, 18); (-596241613983044, 18); (153746054605763, 17);
  (159309107927759, 18); (233356699195329, 17); (-119668950186613, 17); (-161748004, 11);
  (-214236853854895, 17); (360874054041502, 18); (-897998866185932, 18); (-277837377775431, 18);
  (-995533541164137, 19); (-519865718932982, 18); (-78446340461479, 19); (-194024415891887, 18);
  (-166972697788257, 17); (-867166897935699, 18); (-125829455984567, 17); (520388328872528, 18);
  (-41559495335416, 17); (-425544922587714, 19); (551139974883648, 18); (146679520291691, 17);
  (-382684506226442, 19); (119600012367842, 17); (-741712630986012, 18); (114204782699505, 17);
  (424538502147734, 18); (-330701565255067, 18); (-711769960239768, 18); (138106567324306, 17);
  (-672809033262345, 18); (46361019984906, 17); (-589114879992856, 18); (-54491177297858, 18);
  (-954731288479258, 18); (-516904492870956, 18); (-205545255713845, 18); (0, 0); (205545255713845, 18);
  (516904492870956, 18); (954731288479258, 18); (54491177297858, 18); (589114879992856, 18);
  (-46361019984906, 17); (672809033262345, 18); (-138106567324306, 17); (711769960239768, 18);
  (330701565255067, 18); (-424538502147734, 18); (-114204782699505, 17); (741712630986012, 18);
  (-119600012367842, 17); (382684506226442, 19); (-146679520291691, 17); (-551139974883648, 18);
  (425544922587714, 19); (41559495335416, 17); (-520388328872528, 18); (125829455984567, 17);
  (867166897935699, 18); (166972697788257, 17); (194024415891887, 18); (78446340461479, 19);
  (519865718932982, 18); (995533541164137, 19); (277837377775431, 18); (897998866185932, 18);
  (-360874054041502, 18); (214236853854895, 17); (161748004, 11); (119668950186613, 17);
  (-233356699195329, 17); (-159309107927759, 18); (-153746054605763, 17); (596241613983044, 18);
  (-927358696182279, 18); (-213392912383107, 18); (461656449099621, 18); (373929386206932, 18);
  (-153219988568366, 17); (-140031434634188, 18); (-835164328459981, 18); (-3037946530668, 16);
  (108748635434686, 17); (-556673374244994, 18); (-734349802916912, 18); (-154945338489743, 18);
  (-853530053469442, 18); (-313570758095348, 18); (-110287047767037, 17); (-471875974326385, 18);
  (191608882520754, 17); (744744002384681, 18); (595601799964675, 18); (563954656030864, 18);
  (310723599151972, 18); (367181194435114, 18); (30218100237693, 17); (-879145244592523, 18);
  (340299713362453, 17); (234848985608509, 17)].

(** fast_fourier_transform.rs:61-656 *)
Example forward_1d :
  match new_fft (N:=M) Debug (zlen fft_samples) with
  | Ok m => let o := forward_1d_from_matrix m (lits fft_samples) in
            close_list (f64_lit 1 8) (map fst o) (lits fft_re) && close_list (f64_lit 1 8) (map snd o) (lits fft_im)
  | _ => false end = true.
Proof. vm_cast_no_check (@eq_refl _ (true)). Qed.

(** fast_fourier_transform.rs:1260-1343 *)
Example inverse_1d_test :
  match new_fft (N:=M) Debug (zlen fft_samples) with
  | Ok m => match inverse_1d_conj_sym m (forward_1d_from_matrix m (lits fft_samples)) with
            | Ok l => close_list (f64_lit 1 4) l (lits fft_samples) | _ => false end
  | _ => false end = true.
Proof. vm_cast_no_check (@eq_refl _ (true)). Qed.

(** convolution_2d.rs:112-116 *)
Definition conv_m : list (Z * Z) := [
  (400392, 4); (433409, 4); (39527, 3); (411731, 4); (413591, 4); (426852, 4); (452083, 4); (457769, 4);
  (399689, 4); (43619, 3); (410119, 4); (404244, 4); (415932, 4); (436027, 4); (426204, 4); (430624, 4);
  (42261, 3); (424725, 4); (434258, 4); (429079, 4)].

(** convolution_2d.rs:121-125 *)
Definition conv_r : list (Z * Z) := [
  (406634, 4); (428407, 4); (406395, 4); (410129, 4); (415407, 4); (424677, 4); (44276, 3); (442031, 4);
  (412263, 4); (429752, 4); (413784, 4); (412656, 4); (421388, 4); (430366, 4); (428042, 4); (427613, 4);
  (421817, 4); (42459, 3); (432709, 4); (429377, 4)].

(** convolution_2d.rs:98-134 *)
Example convolve_with_window :
  match perform_valid_2d_conv_with_boundary (N:=M) nsim_window (col_major 5 4 (lits conv_m)) with
  | Ok o => (mrows o =? 5)%nat && (mcols o =? 4)%nat && close_list (f64_lit 1 3) (mflat o) (mflat (col_major 5 4 (lits conv_r)))
  | _ => false end = true.
Proof. vm_cast_no_check (@eq_refl _ (true)). Qed.

(** convolution_2d.rs:153-160 *)
Definition pad_r : list (Z * Z) := [
  (400392, 4); (400392, 4); (426852, 4); (410119, 4); (430624, 4); (430624, 4); (400392, 4); (400392, 4);
  (426852, 4); (410119, 4); (430624, 4); (430624, 4); (433409, 4); (433409, 4); (452083, 4); (404244, 4);
  (42261, 3); (42261, 3); (39527, 3); (39527, 3); (457769, 4); (415932, 4); (424725, 4); (424725, 4);
  (411731, 4); (411731, 4); (399689, 4); (436027, 4); (434258, 4); (434258, 4); (413591, 4); (413591, 4);
  (43619, 3); (426204, 4); (429079, 4); (429079, 4); (413591, 4); (413591, 4); (43619, 3); (426204, 4);
  (429079, 4); (429079, 4)].

(** convolution_2d.rs:137-162 *)
Example perform_padding :
  close_list (f 0) (mflat (add_matrix_boundary (N:=M) (col_major 5 4 (lits conv_m)))) (lits pad_r) = true.
Proof. vm_cast_no_check (@eq_refl _ (true)). Qed.

(** convolution_2d.rs:174-180 *)
Definition zeros_r : list (Z * Z) := [
  (0, 0); (0, 0); (0, 0); (0, 0); (0, 0); (0, 0); (0, 0); (400392, 4); (426852, 4); (410119, 4); (430624, 4);
  (0, 0); (0, 0); (433409, 4); (452083, 4); (404244, 4); (42261, 3); (0, 0); (0, 0); (39527, 3); (457769, 4);
  (415932, 4); (424725, 4); (0, 0); (0, 0); (411731, 4); (399689, 4); (436027, 4); (434258, 4); (0, 0);
  (0, 0); (413591, 4); (43619, 3); (426204, 4); (429079, 4); (0, 0); (0, 0); (0, 0); (0, 0); (0, 0); (0, 0);
  (0, 0)].

(** convolution_2d.rs:165-187 *)
Example copy_with_zeros :
  close_list (f 0) (mflat (copy_matrix_within_padding (N:=M) (col_major 5 4 (lits conv_m)) 1 1 1 1)) (lits zeros_r) = true.
Proof. vm_cast_no_check (@eq_refl _ (true)). Qed.

(** neurogram_similiarity_index_measure.rs:120-147 *)
Example test_neurogram_measure :
  match measure_patch_similarity (N:=M) (row_major 3 1 [f 1; f 0; f 0]) (row_major 3 1 [f 0; f 0; f 0]) with
  | Ok p => close_list (f64_lit 1 4) (freq_band_means p) [f64_lit 125225 9; f64_lit 875062 8; f 1]
  | _ => false end = true.
Proof. vm_cast_no_check (@eq_refl _ (true)). Qed.

(** rms_vad.rs:83-85 *)
Definition vad_chunk : list Z := [186; 236; 44; -152; -155; -2; 66; 5; -108; -107; 14; 141; 151; 31; -90]%Z.

(** rms_vad.rs:82-93 *)
Example short_sequence :
  close (f64_lit 1 3) (calc_root_mean_square (N:=M) vad_chunk) (f64_lit 1207736 4) = true.
Proof. vm_cast_no_check (@eq_refl _ (true)). Qed.

(** rms_vad.rs:96-120 *)
Example long_sequence :
  match get_vad_results (N:=M) (fold_left process_chunk [[10000; 10000; 10000; 10000; 10000]; [10; 10; 10; 10; 10]; [10000; 10000; 10000; 10000; 10000]; [10000; 10000; 10000; 10000; 10000]; [10000; 10000; 10000; 10000; 10000]; [10; 10; 10; 10; 10]; [10; 10; 10; 10; 10]; [10000; 10000; 10000; 10000; 10000]; [10000; 10000; 10000; 10000; 10000]; [10; 10; 10; 10; 10]; [10; 10; 10; 10; 10]; [10; 10; 10; 10; 10]; [10000; 10000; 10000; 10000; 10000]; [10; 10; 10; 10; 10]; [10; 10; 10; 10; 10]; [10; 10; 10; 10; 10]; [10; 10; 10; 10; 10]; [10000; 10000; 10000; 10000; 10000]]%Z []) with
  | Ok l => map (f64_cast 0 9) l | _ => [] end = [1; 1; 1; 1; 1; 1; 1; 1; 1; 1; 1; 0; 1; 1; 1; 0; 0; 1]%Z.
Proof. vm_cast_no_check (@eq_refl _ ([1; 1; 1; 1; 1; 1; 1; 1; 1; 1; 1; 0; 1; 1; 1; 0; 0; 1]%Z)). Qed.

(** rms_vad.rs:123-139 *)
Example low_signal_at_start :
  match get_vad_results (N:=M) (fold_left process_chunk [[10; 10; 10; 10; 10]; [10; 10; 10; 10; 10]; [10; 10; 10; 10; 10]; [10; 10; 10; 10; 10]; [10000; 10000; 10000; 10000; 10000]]%Z []) with
  | Ok l => map (f64_cast 0 9) l | _ => [] end = [1; 1; 0; 0; 1]%Z.
Proof. vm_cast_no_check (@eq_refl _ ([1; 1; 0; 0; 1]%Z)). Qed.

(** spectrogram.rs:95-100 *)
Definition sp_in : list (Z * Z) := [
  (1021, 2); (-463, 2); (54, 2); (8798, 2); (65, 3); (0, 0); (-532, 1); (87, 1); (0, 0); (-276, 2)].

(** spectrogram.rs:104-110 *)
Definition sp_db : list (Z * Z) := [
  (100903, 4); (66558, 4); (-26761, 4); (194438, 4); (-118709, 4); (-1565356, 4); (172591, 4); (93952, 4);
  (-1565356, 4); (44091, 4)].

(** spectrogram.rs:94-116 *)
Example convert_to_db_test :
  close_list (f64_lit 1 4) (mflat (sp_data (convert_to_db (@Build_Spectrogram M (row_major 10 1 (lits sp_in)) [])))) (lits sp_db) = true.
Proof. vm_cast_no_check (@eq_refl _ (true)). Qed.

(** spectrogram.rs:119-131 *)
Example minimum_test :
  match get_minimum (@Build_Spectrogram M (row_major 10 1 (lits sp_in)) []) with Ok m => close (f64_lit 1 4) m (f64_lit (-532) 1) | _ => false end = true.
Proof. vm_cast_no_check (@eq_refl _ (true)). Qed.

(** spectrogram.rs:134-164 *)
Example subtract_floor_test :
  close_list (f64_lit 1 4) (mflat (sp_data (subtract_floor (@Build_Spectrogram M (row_major 10 1 (lits sp_in)) []) (f64_lit 1 1)))) (map (fun x => x [-] f64_lit 1 1) (lits sp_in)) = true.
Proof. vm_cast_no_check (@eq_refl _ (true)). Qed.

(** equivalent_rectangular_bandwidth.rs:243-564 *)
Definition erb_exp : list (Z * Z) := [
  (208333, 10); (-210773, 10); (-204216, 10); (-208057, 10); (-206932, 10); (0, 0); (1, 0); (-199194, 5);
  (992003, 6); (366499, 15); (208333, 10); (-213371, 10); (-201347, 10); (-208391, 10); (-206327, 10);
  (0, 0); (1, 0); (-199065, 5); (990811, 6); (209642, 15); (208333, 10); (-216347, 10); (-198045, 10);
  (-208766, 10); (-205626, 10); (0, 0); (1, 0); (-198908, 5); (989443, 6); (12008, 14); (208333, 10);
  (-219753, 10); (-194244, 10); (-209187, 10); (-20481, 9); (0, 0); (1, 0); (-198719, 5); (987872, 6);
  (688196, 16); (208333, 10); (-223648, 10); (-18987, 9); (-209656, 10); (-203861, 10); (0, 0); (1, 0);
  (-198488, 5); (986069, 6); (394549, 16); (208333, 10); (-228097, 10); (-184834, 10); (-210177, 10);
  (-202754, 10); (0, 0); (1, 0); (-198207, 5); (983999, 6); (226268, 16); (208333, 10); (-233175, 10);
  (-179036, 10); (-21075, 9); (-201461, 10); (0, 0); (1, 0); (-197861, 5); (981626, 6); (129804, 16);
  (208333, 10); (-238964, 10); (-17236, 9); (-211376, 10); (-199948, 10); (0, 0); (1, 0); (-197436, 5);
  (978904, 6); (744929, 17); (208333, 10); (-245551, 10); (-164674, 10); (-212051, 10); (-198174, 10);
  (0, 0); (1, 0); (-196908, 5); (975784, 6); (427683, 17); (208333, 10); (-253035, 10); (-155824, 10);
  (-212768, 10); (-19609, 9); (0, 0); (1, 0); (-196252, 5); (972209, 6); (245661, 17); (208333, 10);
  (-261516, 10); (-145634, 10); (-213516, 10); (-193634, 10); (0, 0); (1, 0); (-195432, 5); (968115, 6);
  (141185, 17); (208333, 10); (-271104, 10); (-133906, 10); (-214274, 10); (-190735, 10); (0, 0); (1, 0);
  (-194404, 5); (96343, 5); (811924, 18); (208333, 10); (-281904, 10); (-120411, 10); (-215011, 10);
  (-187303, 10); (0, 0); (1, 0); (-193111, 5); (958071, 6); (467256, 18); (208333, 10); (-294021, 10);
  (-104891, 10); (-215681, 10); (-183232, 10); (0, 0); (1, 0); (-191478, 5); (951946, 6); (269126, 18);
  (208333, 10); (-307545, 10); (-870611, 11); (-216217, 10); (-178388, 10); (0, 0); (1, 0); (-189411, 5);
  (944953, 6); (155156, 18); (208333, 10); (-322539, 10); (-666023, 11); (-216526, 10); (-172615, 10);
  (0, 0); (1, 0); (-186788, 5); (936976, 6); (895482, 19); (208333, 10); (-339024, 10); (-431725, 11);
  (-216478, 10); (-165718, 10); (0, 0); (1, 0); (-183454, 5); (927888, 6); (517476, 19); (208333, 10);
  (-35695, 9); (-164128, 11); (-215895, 10); (-157468, 10); (0, 0); (1, 0); (-179214, 5); (917548, 6);
  (299468, 19); (208333, 10); (-37616, 9); (140338, 11); (-214536, 10); (-14759, 9); (0, 0); (1, 0);
  (-17382, 4); (905802, 6); (173591, 19); (208333, 10); (-396336, 10); (484914, 11); (-212082, 10);
  (-135762, 10); (0, 0); (1, 0); (-166965, 5); (892484, 6); (100816, 19); (208333, 10); (-416933, 10);
  (872003, 11); (-208114, 10); (-121618, 10); (0, 0); (1, 0); (-158272, 5); (877413, 6); (586779, 20);
  (208333, 10); (-437082, 10); (130236, 10); (-202091, 10); (-104755, 10); (0, 0); (1, 0); (-147286, 5);
  (8604, 4); (342376, 20); (208333, 10); (-455475, 10); (177389, 10); (-193334, 10); (-847518, 11); (0, 0);
  (1, 0); (-133481, 5); (841247, 6); (200343, 20); (208333, 10); (-47022, 9); (227984, 10); (-181014, 10);
  (-612215, 11); (0, 0); (1, 0); (-116273, 5); (819753, 6); (117616, 20); (208333, 10); (-478682, 10);
  (280631, 10); (-164164, 10); (-338866, 11); (0, 0); (1, 0); (-950643, 6); (795718, 6); (693091, 21);
  (208333, 10); (-47734, 9); (332893, 10); (-141731, 10); (-271695, 12); (0, 0); (1, 0); (-69335, 5);
  (768954, 6); (410182, 21); (208333, 10); (-461725, 10); (380879, 10); (-112707, 10); (318611, 11); (0, 0);
  (1, 0); (-388059, 6); (739294, 6); (243946, 21); (208333, 10); (-426543, 10); (418827, 10); (-763796, 11);
  (686629, 11); (0, 0); (1, 0); (-370402, 7); (706603, 6); (145896, 21); (208333, 10); (-366218, 10);
  (438804, 10); (-327671, 11); (105353, 10); (0, 0); (1, 0); (348412, 6); (670801, 6); (878132, 22);
  (208333, 10); (-276126, 10); (430861, 10); (167174, 11); (138017, 10); (0, 0); (1, 0); (742727, 6);
  (631875, 6); (532319, 22); (208333, 10); (-154917, 10); (384163, 10); (68377, 10); (160868, 10); (0, 0);
  (1, 0); (110038, 5); (589903, 6); (325068, 22); (208333, 10); (-816567, 12); (289922, 10); (115306, 10);
  (16645, 9); (0, 0); (1, 0); (135243, 5); (545081, 6); (197665, 22)].

(** gammatone_filterbank.rs:157 *)
Definition fb_in : list (Z * Z) := [
  (2, 1); (4, 1); (6, 1); (8, 1); (9, 1); (1, 1); (3, 1); (5, 1); (7, 1); (9, 1)].

(** equivalent_rectangular_bandwidth.rs:236-579 and gammatone_filterbank.rs:152-186, with relative
    tolerances of 2e-5 and 1e-4 instead of an absolute one of 1e-4 (the gains are around 1e-10).
    Every eighth of the 32 bands is checked, and the output of the first. *)
Example erb_coefficients_and_gammatone_filterbank :
  let rows := rev (fst (make_filters (N:=M) 32 48000 (f 50) (f 24000))) in
  let exps := rows_of 32 10 erb_exp in
  forallb (fun k => near_list (f64_lit 2 5) (nth k rows []) (lits (nth k exps []))) [0; 8; 16; 24]%nat &&
  match apply_filter 1 (reset_filter_conditions 1 (set_filter_coefficients [nth 0 rows []] (new_filterbank (N:=M) 1 (f 50)))) (lits fb_in) with
  | Ok (_, o) => (mrows o =? 1)%nat && (mcols o =? 10)%nat &&
       near_list (f64_lit 1 4) (firstn 3 (mflat o)) (lits [(1028, 13); (615143, 15); (214718, 14)]%Z)
  | _ => false end = true.
Proof. vm_cast_no_check (@eq_refl _ (true)). Qed.

(** comparison_patches_selector.rs:407-421 *)
Example num_patches_is_computed_correctly :
  map (fun o => calc_max_num_patches Debug [0; 15; 30; 45; 60]%Z o 30) [45; 44]%Z = [Ok 5%Z; Ok 4%Z].
Proof. vm_cast_no_check (@eq_refl _ ([Ok 5%Z; Ok 4%Z])). Qed.

(** comparison_patches_selector.rs:424-439 *)
Example time_slicing_signal_is_sample_accurate :
  match slice (@Build_AudioSignal M (let o := f 0 in repeat o (Z.to_nat 16000) ++ f 1 :: repeat o (Z.to_nat 31999)) 16000) (f64_lit 5 1) (f64_lit 25 1) with
  | Ok s => (zlen (data_matrix s), map (f64_cast 0 9) (firstn 3 (skipn (Z.to_nat 7999) (data_matrix s)))) | _ => (0%Z, []) end = (32000, [0; 1; 0])%Z.
Proof. vm_cast_no_check (@eq_refl _ ((32000, [0; 1; 0])%Z)). Qed.

(** comparison_patches_selector.rs:443-447 *)
Definition s1_ref : list (Z * Z) := [
  (1, 0); (1, 0); (1, 0); (2, 0); (2, 0); (2, 0); (2, 0); (2, 0); (3, 0); (3, 0); (0, 0); (1, 0); (0, 0);
  (2, 0); (1, 0); (1, 0); (2, 0); (3, 0); (1, 0); (2, 0); (0, 0); (1, 0); (0, 0); (2, 0); (1, 0); (1, 0);
  (2, 0); (3, 0); (1, 0); (2, 0)].

(** comparison_patches_selector.rs:458-464 *)
Definition s1_deg : list (Z * Z) := [
  (0, 0); (0, 0); (0, 0); (0, 0); (0, 0); (0, 0); (1, 0); (2, 0); (1, 0); (0, 0); (0, 0); (0, 0); (0, 0);
  (2, 0); (2, 0); (3, 0); (2, 0); (0, 0); (0, 0); (0, 0); (0, 0); (3, 0); (3, 0); (0, 0); (0, 0); (0, 0);
  (0, 0); (0, 0); (0, 0); (0, 0); (0, 0); (0, 0); (0, 0); (0, 0); (0, 0); (1, 0); (0, 0); (1, 0); (0, 0);
  (0, 0); (0, 0); (0, 0); (0, 0); (2, 0); (1, 0); (2, 0); (3, 0); (0, 0); (0, 0); (0, 0); (0, 0); (1, 0);
  (2, 0); (0, 0); (0, 0); (0, 0); (0, 0); (0, 0); (0, 0); (0, 0); (0, 0); (0, 0); (0, 0); (0, 0); (0, 0);
  (0, 0); (0, 0); (1, 0); (0, 0); (0, 0); (0, 0); (0, 0); (0, 0); (2, 0); (1, 0); (2, 0); (3, 0); (0, 0);
  (0, 0); (0, 0); (0, 0); (1, 0); (2, 0); (0, 0); (0, 0); (0, 0); (0, 0); (0, 0); (0, 0); (0, 0)].

(** comparison_patches_selector.rs:442-488 *)
Example optimal_patches_start_times_are_correct :
  match create_patches_from_indices 1 (row_major 3 10 (lits s1_ref)) [0; 1; 2; 3; 4; 5; 6; 7; 8; 9]%Z with
  | Ok ps => match find_most_optimal_deg_patches Debug ps [0; 1; 2; 3; 4; 5; 6; 7; 8; 9]%Z (row_major 3 30 (lits s1_deg)) (f 1) 8 with
             | Ok l => map (fun p : PatchSim M => f64_cast 0 99 (deg_patch_start_time p)) (firstn 3 (skipn 3 l)) | _ => [] end
  | _ => [] end = [0; 7; 8]%Z.
Proof. vm_cast_no_check (@eq_refl _ ([0; 7; 8]%Z)). Qed.

(** comparison_patches_selector.rs:491-523 *)
Example matches_are_out_of_order :
  match create_patches_from_indices 1 (row_major 3 4 (map f [1; 100; 3; 4; 0; 0; 0; 0; 1; 100; 3; 4]%Z)) [0; 1; 2; 3]%Z with
  | Ok ps => match find_most_optimal_deg_patches Debug ps [0; 1; 2; 3]%Z (row_major 3 4 (map f [100; 1; 3; 4; 0; 0; 0; 0; 100; 1; 3; 4]%Z)) (f 1) 60 with
             | Ok l => map (fun p : PatchSim M => f64_cast 0 99 (deg_patch_start_time p)) l | _ => [] end
  | _ => [] end = [1; 0; 2; 3]%Z.
Proof. vm_cast_no_check (@eq_refl _ ([1; 0; 2; 3]%Z)). Qed.

(** comparison_patches_selector.rs:535-539 *)
Definition s3_deg : list (Z * Z) := [
  (0, 0); (0, 0); (0, 0); (0, 0); (0, 0); (0, 0); (1, 0); (0, 0); (0, 0); (3, 0); (0, 0); (0, 0); (0, 0);
  (0, 0); (0, 0); (0, 0); (0, 0); (0, 0); (0, 0); (0, 0); (0, 0); (0, 0); (0, 0); (1, 0); (0, 0); (0, 0);
  (0, 0); (0, 0); (0, 0); (0, 0); (0, 0); (0, 0); (0, 0); (0, 0); (0, 0); (0, 0); (0, 0); (0, 0); (0, 0);
  (0, 0); (0, 0); (1, 0); (0, 0); (0, 0); (0, 0); (0, 0); (0, 0); (0, 0); (0, 0); (0, 0); (0, 0)].

(** comparison_patches_selector.rs:526-559 *)
Example results_are_different :
  match create_patches_from_indices 1 (row_major 3 1 (map f [1; 1; 0]%Z)) [0]%Z with
  | Ok ps => match find_most_optimal_deg_patches Debug ps [0]%Z (row_major 3 17 (lits s3_deg)) (f 1) 60 with
             | Ok l => map (fun p : PatchSim M => f64_cast 0 99 (deg_patch_start_time p)) l | _ => [] end
  | _ => [] end = [6]%Z.
Proof. vm_cast_no_check (@eq_refl _ ([6]%Z)). Qed.
