(** * Model of libgrpp/nuclear_models.c and libgrpp/nuclear_attraction.c

    Doubles are exact reals.  The function specfunc_fermi_sk (its tables are
    modelled separately) is a parameter [Sk], and the two routines integrating
    over a pair of primitive shells are a parameter, see [prim_eval]. *)

From Coq Require Import ZArith List Lia Bool Reals.
From Verif Require Import Base OneElModel.
Import ListNotations.
Open Scope R_scope.

(** nuclear_models.c 41-44, 56-59 *)
Definition rms_radius_johnson_1985 (A : Z) : R := 0.836 * Rpower (IZR A) (1 / 3) + 0.570.
Definition rms_radius_golovko_2008 (A : Z) : R := 0.77 * Rpower (IZR A) (1 / 3) + 0.98.

(** nuclear_models.c 68-80: [None] for the return value -1 (c untouched),
    otherwise (c, a) *)
Definition estimate_fermi_model_parameters (R_rms : R) : option (R * R) :=
  let t := 2.3 in
  let a := t / (4 * ln 3) in
  let c2 := 5 / 3 * R_rms * R_rms - 7 / 3 * PI * PI * a * a in
  if Rlt_dec c2 0 then None else Some (sqrt c2, a).

(** nuclear_models.c 92-95 *)
Definition coulomb_potential_point (r Z : R) : R := - Z / r.

(** nuclear_models.c 101-110 *)
Definition charge_density_ball (r Z R_rms : R) : R :=
  let R0 := sqrt (5 / 3) * R_rms in
  if Rle_dec r R0 then 3 * Z / (4 * PI * R0 * R0 * R0) else 0.

(** nuclear_models.c 121-130 *)
Definition coulomb_potential_ball (r Z R_rms : R) : R :=
  let R0 := sqrt (5 / 3) * R_rms in
  if Rle_dec r R0 then - Z / (2 * R0) * (3 - r * r / (R0 * R0)) else - Z / r.

(** nuclear_models.c 136-142 *)
Definition charge_density_gaussian (r Z R_rms : R) : R :=
  let xi := 3 / (2 * R_rms * R_rms) in
  let rho0 := Z * Rpower (xi / PI) 1.5 in
  rho0 * exp (- xi * r * r).

(** nuclear_models.c 153-158; erf of the C library is a parameter *)
Definition coulomb_potential_gaussian (erf : R -> R) (r Z R_rms : R) : R :=
  let xi := 3 / (2 * R_rms * R_rms) in
  - Z / r * erf (sqrt xi * r).

Section Fermi.
  Variable Sk : Z -> R -> R.

  (** nuclear_models.c 231-239 *)
  Definition fermi_model_norm_factor (c a : R) : R :=
    let a2 := a * a in
    let a3 := a * a * a in
    let c2 := c * c in
    let c3 := c * c * c in
    1 + PI * PI * a2 / c2 - 6 * a3 / c3 * Sk 3 (- c / a).

  (** nuclear_models.c 164-171 *)
  Definition charge_density_fermi (r Z c a : R) : R :=
    let N := fermi_model_norm_factor c a in
    let c3 := c * c * c in
    let rho0 := 3 * Z / (4 * PI * c3 * N) in
    rho0 / (1 + exp ((r - c) / a)).

  (** nuclear_models.c 177-191 *)
  Definition rms_radius_fermi (Z : Z) (c a : R) : R :=
    let N := fermi_model_norm_factor c a in
    let c3 := c * c * c in
    let rho0 := 3 * IZR Z / (4 * PI * c3 * N) in
    let r2 := 4 * PI * rho0 / IZR Z * c ^ 5 / 5 *
      (1 + 10 / 3 * a * a * PI * PI / (c * c) + 7 / 3 * PI ^ 4 * a ^ 4 / c ^ 4 - 120 * a ^ 5 / c ^ 5 * Sk 5 (- c / a)) in
    sqrt r2.

  (** nuclear_models.c 203-225 *)
  Definition coulomb_potential_fermi (r Z c a : R) : R :=
    let a2 := a * a in
    let a3 := a * a * a in
    let c3 := c * c * c in
    let N := fermi_model_norm_factor c a in
    if Rlt_dec c r then
      let S2 := Sk 2 ((c - r) / a) in
      let S3 := Sk 3 ((c - r) / a) in
      - Z / (N * r) * (N + 3 * a2 * r / c3 * S2 + 6 * a3 / c3 * S3)
    else
      let P2 := Sk 2 ((r - c) / a) in
      let P3 := Sk 3 ((r - c) / a) in
      let S3 := Sk 3 (- c / a) in
      let r3 := r * r * r in
      - Z / (N * r) * (1.5 * r / c - r3 / (2 * c3) + PI * PI * a2 * r / (2 * c3) - 3 * a2 * r / c3 * P2 +
                       6 * a3 / c3 * (P3 - S3)).

  (** nuclear_models.c 364-380 *)
  Definition fermi_bubble_model_norm_factor (c a k : R) : R :=
    let a2 := a * a in
    let a3 := a * a2 in
    let a4 := a * a3 in
    let a5 := a * a4 in
    let c2 := c * c in
    let c3 := c * c2 in
    let c4 := c * c3 in
    let c5 := c * c4 in
    fermi_model_norm_factor c a + 3 / 5 * k + 2 * PI * PI * a2 * k / c2 + 7 * PI * PI * PI * PI * a4 * k / (5 * c4)
      - 72 * a5 * k / c5 * Sk 5 (- c / a).

  (** nuclear_models.c 245-252 *)
  Definition charge_density_fermi_bubble (r Z c a k : R) : R :=
    let Nk := fermi_bubble_model_norm_factor c a k in
    let c3 := c * c * c in
    let rho0 := 3 * Z / (4 * PI * c3 * Nk) in
    rho0 * (1 + k * (r / c) ^ 2) / (1 + exp ((r - c) / a)).

  (** nuclear_models.c 258-282 *)
  Definition rms_radius_fermi_bubble (Z : Z) (c a k : R) : R :=
    let Nk := fermi_bubble_model_norm_factor c a k in
    let c3 := c * c * c in
    let rho0 := 3 * IZR Z / (4 * PI * c3 * Nk) in
    let part_r4 := c ^ 5 / 5 *
      (1 + 10 / 3 * a * a * PI * PI / (c * c) + 7 / 3 * PI ^ 4 * a ^ 4 / c ^ 4 - 120 * a ^ 5 / c ^ 5 * Sk 5 (- c / a)) in
    let part_r6 := c ^ 7 / 7 *
      (1 + 7 * a * a * PI * PI / (c * c) + 49 / 3 * PI ^ 4 * a ^ 4 / c ^ 4 + 31 / 3 * PI ^ 6 * a ^ 6 / c ^ 6
       - 5040 * a ^ 7 / c ^ 7 * Sk 7 (- c / a)) in
    let r2 := 4 * PI * rho0 / IZR Z * (part_r4 + k / (c * c) * part_r6) in
    sqrt r2.

  (** nuclear_models.c 296-358; the unused rho0 of line 304 is left out *)
  Definition coulomb_potential_fermi_bubble (r Z c a k : R) : R :=
    let Nk := fermi_bubble_model_norm_factor c a k in
    let '(F0, F2) :=
      if Rlt_dec r c then
        let S2 := Sk 2 ((r - c) / a) in
        let S3 := Sk 3 ((r - c) / a) in
        let S4 := Sk 4 ((r - c) / a) in
        let S5 := Sk 5 ((r - c) / a) in
        (- r ^ 3 / 6 - r * a * a * S2 + 2 * a ^ 3 * S3 + r * c * c / 2 + PI * PI / 6 * r * a * a
           - 2 * a ^ 3 * Sk 3 (- c / a),
         - r ^ 5 / 20 - r ^ 3 * a ^ 2 * S2 + 6 * r ^ 2 * a ^ 3 * S3 - 18 * r * a ^ 4 * S4 + 24 * a ^ 5 * S5
           + r * c ^ 4 / 4 + r * PI * PI * c * c * a * a / 2 + r * a ^ 4 * PI ^ 4 * 7 / 60
           - 24 * a ^ 5 * Sk 5 (- c / a))
      else
        let S2 := Sk 2 ((c - r) / a) in
        let S3 := Sk 3 ((c - r) / a) in
        let S4 := Sk 4 ((c - r) / a) in
        let S5 := Sk 5 ((c - r) / a) in
        (c ^ 3 / 3 + PI * PI / 3 * c * a * a - 2 * a ^ 3 * Sk 3 (- c / a) + r * a * a * S2 + 2 * a ^ 3 * S3,
         c ^ 5 / 5 + 2 * c ^ 3 * a * a * PI * PI / 3 + 7 * a ^ 4 * c * PI ^ 4 / 15 - 24 * a ^ 5 * Sk 5 (- c / a)
           + a ^ 2 * r ^ 3 * S2 + 6 * a ^ 3 * r ^ 2 * S3 + 18 * r * a ^ 4 * S4 + 24 * a ^ 5 * S5) in
    - Z / (Nk * r) * 3 / c ^ 3 * (F0 + k / (c * c) * F2).
End Fermi.

(** ** nuclear_attraction.c *)

(** libgrpp.h 247-254 *)
Definition model_point_charge : Z := 0.
Definition model_charged_ball : Z := 1.
Definition model_gaussian : Z := 2.
Definition model_fermi : Z := 3.
Definition model_fermi_bubble : Z := 4.
Definition model_point_charge_numerical : Z := 5.

(** the special functions of the C library and of specfunc_fermi_sk.c *)
Record specfuns := mkSpec { sf_erf : R -> R; sf_sk : Z -> R -> R }.

(** the wrappers nuclear_attraction.c 277-321: unpack [params], then call the
    potential.  The reads happen at every evaluation of the potential; the
    array does not change in between. *)
Definition potential_fun (sf : specfuns) (model : Z) (params : arr R) : res (R -> R) :=
  let* Z := aget params [0%Z] in
  if (model =? model_point_charge_numerical)%Z then Ok (fun r => coulomb_potential_point r Z)
  else if (model =? model_charged_ball)%Z then
    let* R_rms := aget params [1%Z] in Ok (fun r => coulomb_potential_ball r Z R_rms)
  else if (model =? model_gaussian)%Z then
    let* R_rms := aget params [1%Z] in Ok (fun r => coulomb_potential_gaussian (sf_erf sf) r Z R_rms)
  else if (model =? model_fermi)%Z then
    let* c := aget params [1%Z] in
    let* a := aget params [2%Z] in
    Ok (fun r => coulomb_potential_fermi (sf_sk sf) r Z c a)
  else
    let* c := aget params [1%Z] in
    let* a := aget params [2%Z] in
    let* k := aget params [3%Z] in
    Ok (fun r => coulomb_potential_fermi_bubble (sf_sk sf) r Z c a k).

(** the routines called for one pair of primitive shells:
    evaluate_rpp_type1_mmd_n1_primitive_shell_pair (bra, exponent, ket,
    exponent, origin, rpp_alpha, buffer) and
    evaluate_radially_local_potential_integral_primitive_gaussians (bra,
    exponent, ket, exponent, origin, potential, buffer) *)
Record prim_eval := mkEval {
  pe_point : vshell -> R -> vshell -> R -> R * R * R -> R -> arr R -> res (arr R);
  pe_local : vshell -> R -> vshell -> R -> R * R * R -> (R -> R) -> arr R -> res (arr R) }.

(** a read through the caller's pointer model_params, NULL = [None] *)
Definition pget (p : option (arr R)) (i : Z) : res R :=
  match p with None => Fail NullDeref | Some a => aget a [i] end.

(** nuclear_attraction.c 120-145: the local array params[10] *)
Definition local_params (model : Z) (charge : Z) (model_params : option (arr R)) : res (arr R) :=
  let params := aundef [10%Z] in
  let* params := aset params [0%Z] (IZR charge) in
  if (model =? model_point_charge_numerical)%Z then Ok params
  else if (model =? model_charged_ball)%Z || (model =? model_gaussian)%Z then
    let* v := pget model_params 0 in aset params [1%Z] v
  else if (model =? model_fermi)%Z then
    let* v := pget model_params 0 in
    let* params := aset params [1%Z] v in
    let* v := pget model_params 1 in aset params [2%Z] v
  else
    let* v := pget model_params 0 in
    let* params := aset params [1%Z] v in
    let* v := pget model_params 1 in
    let* params := aset params [2%Z] v in
    let* v := pget model_params 2 in aset params [3%Z] v.

(** nuclear_attraction.c 80-170.  [init] = libgrpp_is_initialized(); exit(0) of
    line 161 is the outcome ProcessExit. *)
Definition nuclear_attraction_integrals (sf : specfuns) (ev : prim_eval) (init : bool) (A B : vshell)
    (charge_origin : R * R * R) (charge model : Z) (model_params : option (arr R)) (M : arr R) : res (arr R) :=
  let* _ := massert init in
  let size := (sv_size A * sv_size B)%Z in
  let* M := memset0 size M in
  let* (M, _) :=
    for_range 0 (sv_num A) (fun i st =>
      let* coef_A_i := aget (sv_coef A) [i] in
      for_range 0 (sv_num B) (fun j '(M, buf) =>
        let* coef_B_j := aget (sv_coef B) [j] in
        if Rlt_dec (Rabs (coef_A_i * coef_B_j)) 1e-13 then Ok (M, buf)
        else
          let* buf :=
            if (model =? model_point_charge)%Z then
              let* alpha_A := aget (sv_alpha A) [i] in
              let* alpha_B := aget (sv_alpha B) [j] in
              let* buf := pe_point ev A alpha_A B alpha_B charge_origin 0 buf in
              for_range 0 size (fun k buf =>
                let* v := aget buf [k] in aset buf [k] (v * IZR (-1 * charge))) buf
            else if (model =? model_charged_ball)%Z || (model =? model_gaussian)%Z || (model =? model_fermi)%Z
                 || (model =? model_fermi_bubble)%Z || (model =? model_point_charge_numerical)%Z then
              let* params := local_params model charge model_params in
              let* V := potential_fun sf model params in
              let* alpha_A := aget (sv_alpha A) [i] in
              let* alpha_B := aget (sv_alpha B) [j] in
              pe_local ev A alpha_A B alpha_B charge_origin V buf
            else Fail ProcessExit in
          let* M := daxpy size (coef_A_i * coef_B_j) buf M in
          Ok (M, buf)) st) (M, aconst [size] 0) in
  Ok M.

(** the local array of a convenience wrapper *)
Definition wrapper_params (l : list R) : option (arr R) :=
  Some {| adims := [10%Z]; acell := fun ix => match ix with [i] => if (i <? 0)%Z then None else nth_error l (Z.to_nat i) | _ => None end |}.

(** nuclear_attraction.c 178-184, 194-204, 214-224, 234-245, 256-268 *)
Definition nuclear_attraction_point_charge sf ev init A B o (charge : Z) M :=
  nuclear_attraction_integrals sf ev init A B o charge model_point_charge None M.
Definition nuclear_attraction_charged_ball sf ev init A B o (charge : Z) (r_rms : R) M :=
  nuclear_attraction_integrals sf ev init A B o charge model_charged_ball (wrapper_params [IZR charge; r_rms]) M.
Definition nuclear_attraction_gaussian_model sf ev init A B o (charge : Z) (r_rms : R) M :=
  nuclear_attraction_integrals sf ev init A B o charge model_gaussian (wrapper_params [IZR charge; r_rms]) M.
Definition nuclear_attraction_fermi_model sf ev init A B o (charge : Z) (c a : R) M :=
  nuclear_attraction_integrals sf ev init A B o charge model_fermi (wrapper_params [IZR charge; c; a]) M.
Definition nuclear_attraction_fermi_bubble_model sf ev init A B o (charge : Z) (c a k : R) M :=
  nuclear_attraction_integrals sf ev init A B o charge model_fermi_bubble (wrapper_params [IZR charge; c; a; k]) M.
