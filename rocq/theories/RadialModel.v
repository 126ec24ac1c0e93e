(** * Adaptive radial quadrature (radial_type1_integral.c, radial_type2_integral.c)

    Doubles are exact reals.  The scaled modified Bessel function of
    specfunc_scaled_mod_sph_bessel.c and the C library function erf are arguments
    ([bessel], [erf]).

    Both files contain the same grid code (creation, doubling, adaptive
    summation); it is modelled once.  A grid has the arrays r, w, the potential
    values, the powers r^n (one row for each n) and two families of rows: for
    type 2 these are F1 and F2, for type 1 they are the single row gto_values and
    mod_bessel.  The local type-1 grid arrays of MAX_GRID doubles are the rows
    here; every row is a separate calloc block of MAX_GRID doubles in C and one
    index of a two-dimensional array here, so that an access is out of bounds
    here exactly when it is in C. *)

From Coq Require Import ZArith List Lia Bool Reals.
From Verif Require Import Base BinomModel HeapModel OneElModel ParamsModel.
Import ListNotations.
Open Scope R_scope.

(** MAX_GRID, radial_type1_integral.c 38, radial_type2_integral.c 33 *)
Definition max_grid : Z := 10000.
(** MIN_GRID: radial_type1_integral.c 37, radial_type2_integral.c 32 *)
Definition min_grid_1 : Z := 2047.
Definition min_grid_2 : Z := 31.

Record rgrid := mkGrid {
  g_nr : Z; g_r : arr R; g_w : arr R; g_pot : arr R;
  g_rN : arr R; g_F1 : arr R; g_F2 : arr R }.

(** what the grid is filled with: the potential, the two families of functions,
    and the largest indices n_max, lambda1_max, lambda2_max *)
Record gparams := mkGParams {
  gp_pot : R -> R; gp_f1 : Z -> R -> R; gp_f2 : Z -> R -> R;
  gp_n : Z; gp_l1 : Z; gp_l2 : Z }.

(** radial_type1_integral.c 171-175, 226-230; radial_type2_integral.c 355-359,
    416-420: node and weight number i of a grid of nr points *)
Definition log3_r (i nr : Z) : R :=
  let xi := IZR i / (IZR nr + 1) in
  let xi3 := xi * xi * xi in
  -5 * ln (1 - xi3).
Definition log3_w (i nr : Z) : R :=
  let xi := IZR i / (IZR nr + 1) in
  let xi3 := xi * xi * xi in
  let ln_xi := ln (1 - xi3) in
  3 * (5 * 5 * 5) * xi * xi * ln_xi * ln_xi / ((1 - xi3) * (IZR nr + 1)).

(** radial_type1_integral.c 177-188, 232-245; radial_type2_integral.c 361-373,
    422-438: fill the cells with index idx *)
Definition store_point (gp : gparams) (i nr idx : Z) (g : rgrid) : res rgrid :=
  let ri := log3_r i nr in
  let* r := aset (g_r g) [idx] ri in
  let* w := aset (g_w g) [idx] (log3_w i nr) in
  let* pot := aset (g_pot g) [idx] (gp_pot gp ri) in
  let* rN := for_range 0 (gp_n gp + 1) (fun n a => aset a [n; idx] (ri ^ Z.to_nat n)) (g_rN g) in
  let* F1 := for_range 0 (gp_l1 gp + 1) (fun l a => aset a [l; idx] (gp_f1 gp l ri)) (g_F1 g) in
  let* F2 := for_range 0 (gp_l2 gp + 1) (fun l a => aset a [l; idx] (gp_f2 gp l ri)) (g_F2 g) in
  Ok (mkGrid (g_nr g) r w pot rN F1 F2).

(** radial_type1_integral.c 151-194; radial_type2_integral.c 324-384 *)
Definition create_grid (mn : Z) (gp : gparams) : res rgrid :=
  let g := mkGrid mn (aconst [max_grid] 0) (aconst [max_grid] 0) (aconst [max_grid] 0)
    (aconst [gp_n gp + 1; max_grid]%Z 0) (aconst [gp_l1 gp + 1; max_grid]%Z 0) (aconst [gp_l2 gp + 1; max_grid]%Z 0) in
  for_range 1 (mn + 1) (fun i g => store_point gp i mn (i - 1) g) g.

(** radial_type1_integral.c 209-248; radial_type2_integral.c 390-444; the loop
    over odd i is a loop over j with i = 2 j + 1, and idx = grid->nr + j *)
Definition expand_grid (gp : gparams) (nr : Z) (g : rgrid) : res rgrid :=
  if (nr >? max_grid)%Z then Ok g
  else if (nr <=? g_nr g)%Z then Ok g
  else
    let idx := g_nr g in
    let* g := for_range 0 ((nr + 1) / 2) (fun j g => store_point gp (2 * j + 1) nr (idx + j) g) g in
    Ok (mkGrid nr (g_r g) (g_w g) (g_pot g) (g_rN g) (g_F1 g) (g_F2 g)).

(** radial_type1_integral.c 292-294, 314-316; radial_type2_integral.c 286-288,
    305-307 *)
Definition add_points (g : rgrid) (n l1 l2 lo hi : Z) (sum : R) : res R :=
  for_range lo hi (fun i sum =>
    let* w := aget (g_w g) [i] in
    let* p := aget (g_pot g) [i] in
    let* f1 := aget (g_F1 g) [l1; i] in
    let* f2 := aget (g_F2 g) [l2; i] in
    let* rn := aget (g_rN g) [n; i] in
    Ok (sum + w * p * f1 * f2 * rn)) sum.

(** radial_type1_integral.c 299-323; radial_type2_integral.c 293-316: the do-while
    loop.  [screen] is [Some s] when screening succeeded with the value s (type 2
    only: the type-1 screening is commented out).  The result is the sum, the flag
    [converged] and the grid, which stays expanded for the following integrals.
    [fuel] bounds the number of iterations; running out is a fault. *)
Fixpoint refine (fuel : nat) (gp : gparams) (screen : option R) (tol : R) (n l1 l2 nr : Z) (sum : R) (g : rgrid) : res (R * bool * rgrid) :=
  match fuel with
  | O => Fail NoFuel
  | S fuel =>
    let idx := nr in
    let nr := (2 * nr + 1)%Z in
    if (nr >? max_grid)%Z then Ok (sum, false, g)
    else
      let prev_sum := sum in
      let* g := expand_grid gp nr g in
      let* sum := add_points g n l1 l2 idx nr (0.5 * sum) in
      let suspicious := match screen with
        | Some s => if Rlt_dec (Rabs sum / Rabs s) 0.001 then true else false
        | None => false end in
      if suspicious then refine fuel gp screen tol n l1 l2 nr sum g
      else if Rle_dec (Rabs (sum - prev_sum)) tol then Ok (sum, true, g)
      else refine fuel gp screen tol n l1 l2 nr sum g
  end.

(** radial_type1_integral.c 251-325 (with screen = None);
    radial_type2_integral.c 242-318 *)
Definition calculate_radial (fuel : nat) (mn : Z) (gp : gparams) (screen : option R) (tol : R) (n l1 l2 : Z) (g : rgrid) : res (R * bool * rgrid) :=
  match screen with
  | Some s => if Rlt_dec (Rabs s) tol then Ok (s, true, g)
              else let* sum := add_points g n l1 l2 0 mn 0 in refine fuel gp screen tol n l1 l2 mn sum g
  | None => let* sum := add_points g n l1 l2 0 mn 0 in refine fuel gp screen tol n l1 l2 mn sum g
  end.

(** ** Type 1 *)

(** radial_type1_params_t *)
Record rparams1 := mkRP1 {
  r1_k : R; r1_alpha_A : R; r1_alpha_B : R; r1_CA_2 : R; r1_CB_2 : R; r1_prefactor : R; r1_pot : R -> R }.

(** radial_type1_integral.c 136-148 *)
Definition radial_type1_integrand_fun (p : rparams1) (r : R) : R :=
  let power := r1_k p * r - (r1_alpha_A p + r1_alpha_B p) * r * r - r1_alpha_A p * r1_CA_2 p - r1_alpha_B p * r1_CB_2 p in
  r1_prefactor p * exp power.

Definition gparams1 (bessel : Z -> R -> R) (p : rparams1) (lambda_max n_max : Z) : gparams :=
  mkGParams (r1_pot p) (fun _ r => radial_type1_integrand_fun p r) (fun l r => bessel l (r * r1_k p)) n_max 0 lambda_max.

(** the tables of radial integrals: one block of doubles *)
Record rtable1 := mkRT1 { t1_lambda_max : Z; t1_n_max : Z; t1_data : arr R }.

(** radial_type1_integral.c 73-119 *)
Definition tabulate_radial_type1_integrals (fuel : nat) (par : params) (bessel : Z -> R -> R) (p : rparams1) (lambda_max n_max : Z) : res rtable1 :=
  let tolerance := par_radial par in
  let gp := gparams1 bessel p lambda_max n_max in
  let data := aconst [(lambda_max + 1) * (n_max + 1)]%Z 0 in
  let* g := create_grid min_grid_1 gp in
  let* (data, _) := for_range 0 (lambda_max + 1) (fun lambda => for_range 0 (n_max + 1) (fun n st =>
    let '(data, g) := st in
    let* (Q, _, g) := calculate_radial fuel min_grid_1 gp None tolerance n 0 lambda g in
    let* data := aset data [lambda * (lambda_max + 1) + n]%Z Q in
    Ok (data, g))) (data, g) in
  Ok (mkRT1 lambda_max n_max data).

(** radial_type1_integral.c 129-133 *)
Definition get_radial_type1_integral (t : rtable1) (lambda n : Z) : res R :=
  aget (t1_data t) [lambda * (t1_lambda_max t + 1) + n]%Z.

(** ** Type 2 *)

(** primitives of a contracted function: coefficient and exponent; of a
    potential: power, coefficient, exponent *)
Definition prims := list (R * R).
Definition pprims := list (Z * R * R).

(** shell.c 67-92 at the level of the primitive list: libgrpp_shell_shrink
    followed by libgrpp_shell_mult_normcoef (the heap-level routines are in
    HeapModel.v and NormcoefModel.v; C96 relates them to this list) *)
Definition shrink_norm (L : Z) (l : prims) : prims :=
  map (fun '(c, a) => (c * gaussian_norm_factor L 0 0 a, a))
    (filter (fun '(c, a) => if Rlt_dec (1 / 10 ^ 14) (Rabs c) then true else false) l).
(** potential.c 88-115 *)
Definition shrink_pot (l : pprims) : pprims :=
  filter (fun '(n, c, a) => if Rlt_dec (1 / 10 ^ 14) (Rabs c) then true else false) l.
(** potential.c 70-81 *)
Definition pot_value (l : pprims) (r : R) : R :=
  fold_left (fun v '(n, c, a) => v + c * rpow_int r (n - 2) * exp (- a * (r * r))) l 0.

(** radial_type2_integral.c 465-489: the k values are 2 alpha CA *)
Definition radial_type2_integrand_fun_contracted (bessel : Z -> R -> R) (l : prims) (CA : R) (lambda : Z) (r : R) : R :=
  fold_left (fun F '(c, a) => F + c * exp (- a * ((r - CA) * (r - CA))) * bessel lambda (2 * a * CA * r)) l 0.

(** screening.c 255-265 *)
Definition gaussian_integral (n : Z) (a : R) : res R :=
  if (Z.rem n 2 =? 0)%Z then
    let k := Z.quot n 2 in
    let* d := double_factorial (2 * k - 1) in
    Ok (IZR d / (powerRZ 2 (k + 1) * powerRZ a k) * sqrt (PI / a))
  else
    let k := Z.quot (n - 1) 2 in
    let* f := factorial k in
    Ok (IZR f / (2 * powerRZ a (k + 1))).

(** screening.c 348-378: None stands for NaN (root of a negative number, or a
    quotient of Bessel functions with zero denominator) *)
Definition bessel_ratio (bessel : Z -> R -> R) (lambda : Z) (x : R) : option R :=
  let '(u, v) := if (lambda =? 0)%Z then (bessel 1%Z x, bessel 0%Z x) else (bessel (lambda - 1)%Z x, bessel lambda x) in
  if Req_EM_T v 0 then None else Some (u / v).
Definition screening_type2_equation_for_maximum (bessel : Z -> R -> R) (r : R) (n lambda1 lambda2 : Z) (p k1 k2 : R) : option R :=
  match bessel_ratio bessel lambda1 (k1 * r), bessel_ratio bessel lambda2 (k2 * r) with
  | Some q1, Some q2 =>
    let a := q1 * (k1 * r) + q2 * (k2 * r) + IZR n in
    let a := if (lambda1 >? 0)%Z then a - IZR lambda1 - 1 else a in
    let a := if (lambda2 >? 0)%Z then a - IZR lambda2 - 1 else a in
    if Rlt_dec (a / (2 * p)) 0 then None else Some (sqrt (a / (2 * p)))
  | _, _ => None
  end.

(** outcomes of screening: EXIT_FAILURE, EXIT_SUCCESS with NaN, EXIT_SUCCESS with
    a value *)
Inductive screening := ScrFail | ScrNaN | ScrVal (v : R).

(** screening.c 316-330: at most four evaluations of the equation *)
Fixpoint find_maximum (steps : nat) (eqn : R -> option R) (r0 : R) : screening :=
  match steps with
  | O => ScrFail
  | S steps => match eqn r0 with
    | None => ScrNaN
    | Some r1 => if Rlt_dec (1 / 100) (Rabs (r1 - r0)) then find_maximum steps eqn r1 else ScrVal r1
    end
  end.

(** screening.c 272-342; [erf] is the C library function *)
Definition screening_radial_type2_integral_primitive (bessel : Z -> R -> R) (erf : R -> R)
  (lambda1 lambda2 n : Z) (CA_2 CB_2 alpha_A alpha_B k1 k2 eta : R) : res screening :=
  let small x := if Rle_dec (Rabs x) (1 / 10 ^ 14) then true else false in
  if (lambda1 >=? 1)%Z && small k1 then Ok (ScrVal 0)
  else if (lambda2 >=? 1)%Z && small k2 then Ok (ScrVal 0)
  else
    let p := alpha_A + alpha_B + eta in
    let CA := sqrt CA_2 in
    let CB := sqrt CB_2 in
    if (lambda1 =? 0)%Z && (lambda2 =? 0)%Z && small k1 && small k2 then
      let* g := gaussian_integral n p in
      Ok (ScrVal (exp (- alpha_A * CA * CA - alpha_B * CB * CB) * g))
    else
      match find_maximum 4 (fun r => screening_type2_equation_for_maximum bessel r n lambda1 lambda2 p k1 k2) ((alpha_A * CA + alpha_B * CB) / p) with
      | ScrVal r0 => Ok (ScrVal (sqrt (PI / p) * rpow_int r0 n * bessel lambda1 (k1 * r0) * bessel lambda2 (k2 * r0) *
          exp (- eta * r0 * r0 - alpha_A * (r0 - CA) * (r0 - CA) - alpha_B * (r0 - CB) * (r0 - CB)) * 0.5 * (1 + erf (sqrt p * r0))))
      | s => Ok s
      end.

(** screening.c 193-248: the loops over primitives, as one loop over the list of
    their combinations in the same order; a failure stops the loop *)
Fixpoint screening_loop (prim : (R * R) * (R * R) * (Z * R * R) -> res screening) (l : list ((R * R) * (R * R) * (Z * R * R))) (acc : option R) : res (option R) :=
  match l with
  | [] => Ok acc
  | ((ci, aa), (cj, ab), (ni, ck, eta)) :: l =>
    let* s := prim ((ci, aa), (cj, ab), (ni, ck, eta)) in
    match s with
    | ScrFail => Ok None
    | ScrNaN => screening_loop prim l None
    | ScrVal v => screening_loop prim l (match acc with Some x => Some (x + ci * cj * ck * v) | None => None end)
    end
  end.
(** the result is Some v for EXIT_SUCCESS with a value, None for EXIT_FAILURE or
    NaN: all comparisons of the caller with NaN are false, so that it behaves as
    after EXIT_FAILURE *)
Definition screening_radial_type2 (bessel : Z -> R -> R) (erf : R -> R) (CA_2 CB_2 : R) (bra ket : prims) (pot : pprims) (lambda1 lambda2 n : Z) : res (option R) :=
  let CA := sqrt CA_2 in
  let CB := sqrt CB_2 in
  screening_loop (fun '((ci, aa), (cj, ab), (ni, ck, eta)) =>
    screening_radial_type2_integral_primitive bessel erf lambda1 lambda2 (n + ni) CA_2 CB_2 aa ab (2 * aa * CA) (2 * ab * CB) eta)
    (list_prod (list_prod bra ket) pot) (Some 0).

Record rtable2 := mkRT2 { t2_l1_max : Z; t2_l2_max : Z; t2_n_max : Z; t2_data : arr R }.

(** radial_type2_integral.c 120-153: both functions on the centre of the
    potential; the inner loop adds to table->radial_integrals[n] *)
Definition one_center_table (n_max : Z) (LA LB : Z) (bra ket : prims) (pot : pprims) (data : arr R) : res (arr R) :=
  fold_left (fun d '(ca, aa) =>
    fold_left (fun d '(cb, ab) =>
      fold_left (fun (d : res (arr R)) '(ni, ck, eta) =>
        let* data := d in
        for_range 0 (n_max + 1) (fun n data =>
          let* val := gaussian_integral (ni + n) (aa + ab + eta) in
          let* old := aget data [n] in
          aset data [n] (old + ca * gaussian_norm_factor LA 0 0 aa * (cb * gaussian_norm_factor LB 0 0 ab) * ck * val)) data)
        pot d) ket d) bra (Ok data).

Definition gparams2 (bessel : Z -> R -> R) (bra ket : prims) (pot : pprims) (CA CB : R) (l1_max l2_max n_max : Z) : gparams :=
  mkGParams (pot_value pot) (radial_type2_integrand_fun_contracted bessel bra CA) (radial_type2_integrand_fun_contracted bessel ket CB) n_max l1_max l2_max.

(** radial_type2_integral.c 188: the tolerance is the literal 1e-16; the
    parameter set by the user is not consulted *)
Definition type2_tolerance (par : params) : R := / 10 ^ 16.

(** radial_type2_integral.c 101-207.  The two copies of the shells and the shrunk
    potential that are made and deleted are represented by their primitive lists.
    (A value 0 from screening is below the tolerance, so that the division by
    |screened| in [refine] is never a division by zero.) *)
Definition tabulate_radial_type2_integrals (fuel : nat) (par : params) (bessel : Z -> R -> R) (erf : R -> R)
  (l1_max l2_max n_max : Z) (CA_2 CB_2 : R) (pot : pprims) (LA : Z) (bra : prims) (LB : Z) (ket : prims) : res rtable2 :=
  let data := aconst [(l1_max + 1) * (l2_max + 1) * (n_max + 1)]%Z 0 in
  if (if Rlt_dec CA_2 (1 / 10 ^ 14) then true else false) && (if Rlt_dec CB_2 (1 / 10 ^ 14) then true else false) then
    let* data := one_center_table n_max LA LB bra ket pot data in
    Ok (mkRT2 l1_max l2_max n_max data)
  else
    let CA := sqrt CA_2 in
    let CB := sqrt CB_2 in
    let gp := gparams2 bessel (shrink_norm LA bra) (shrink_norm LB ket) (shrink_pot pot) CA CB l1_max l2_max n_max in
    let* g := create_grid min_grid_2 gp in
    let* (data, _) := for_range 0 (l1_max + 1) (fun l1 => for_range 0 (l2_max + 1) (fun l2 => for_range 0 (n_max + 1) (fun n st =>
      let '(data, g) := st in
      let* screened := screening_radial_type2 bessel erf (CA * CA) (CB * CB) (shrink_norm LA bra) (shrink_norm LB ket) (shrink_pot pot) l1 l2 n in
      let* (Q, _, g) := calculate_radial fuel min_grid_2 gp screened (type2_tolerance par) n l1 l2 g in
      let* data := aset data [(l2_max + 1) * (n_max + 1) * l1 + (n_max + 1) * l2 + n]%Z Q in
      Ok (data, g)))) (data, g) in
    Ok (mkRT2 l1_max l2_max n_max data).

(** radial_type2_integral.c 223-235 *)
Definition get_radial_type2_integral (t : rtable2) (l1 l2 n : Z) : res R :=
  aget (t2_data t) [(t2_l2_max t + 1) * (t2_n_max t + 1) * l1 + (t2_n_max t + 1) * l2 + n]%Z.
