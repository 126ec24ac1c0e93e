(** * Model of the outercore integrals (libgrpp/outercore_integrals.c)

    Doubles are exact reals.  Shells and potentials are given as the arrays and
    lists the routine reads ([vshell] of OneElModel.v); the routine
    libgrpp_type1_integrals it calls is an argument ([t1]).  The buffers that are
    allocated and freed inside are local arrays here.  libgrpp_is_initialized is
    assumed (see InitModel.v for the state of initialisation). *)

From Coq Require Import ZArith List Lia Bool Reals.
From Verif Require Import Base BinomModel OneElModel LmatModel SphModel.
Import ListNotations.
Open Scope R_scope.

(** libgrpp_potential_t: L, J and the primitives (power, coefficient, exponent) *)
Record vpot := mkVPot { pv_L : Z; pv_J : Z; pv_prims : list (Z * R * R) }.

(** a routine with the signature of libgrpp_type1_integrals *)
Definition t1_routine := vshell -> vshell -> R * R * R -> vpot -> arr R -> res (arr R).

(** outercore_integrals.c 545-553 *)
Definition ang_norm_factor (lx ly lz : Z) : res R :=
  let L := (lx + ly + lz)%Z in
  let* d := double_factorial (2 * L + 1) in
  Ok (1 / (2 * sqrt PI) * sqrt (IZR d)).

(** outercore_integrals.c 472-500 *)
Definition radial_norm_table : list R := [
  25264751109842587 / 10 ^ 16;
  29173221708553032 / 10 ^ 16;
  26093322745198853 / 10 ^ 16;
  19724697960897537 / 10 ^ 16;
  13149798640598356 / 10 ^ 16;
  79296269381073192 / 10 ^ 17;
  43985656185609934 / 10 ^ 17;
  22714095183849672 / 10 ^ 17;
  11017954545099481 / 10 ^ 17;
  50553842554329785 / 10 ^ 18;
  22063505731056757 / 10 ^ 18;
  92011179391124215 / 10 ^ 19;
  36804471756449694 / 10 ^ 19;
  14166047783978804 / 10 ^ 19;
  52611380677564405 / 10 ^ 20;
  18898565833279173 / 10 ^ 20;
  65796360823633550 / 10 ^ 21;
  22243229718298637 / 10 ^ 21;
  73135288801774484 / 10 ^ 22;
  23422037547660024 / 10 ^ 22 ].
Definition radial_gto_norm_factor (L : Z) (alpha : R) : res R :=
  let* f := aget (aoflist radial_norm_table) [L] in
  Ok (f * Rpower alpha (0.75 + IZR L / 2)).

(** outercore_integrals.c 454-465 *)
Definition analytic_one_center_rpp_integral_primitive (L : Z) (alpha1 alpha2 : R) (n : Z) (zeta : R) : res R :=
  let a := alpha1 + alpha2 + zeta in
  if (Z.rem n 2 =? 0)%Z then
    let k := (L + Z.quot n 2)%Z in
    let* d := double_factorial (2 * k - 1) in
    Ok (IZR d / (powerRZ 2 (k + 1) * powerRZ a k) * sqrt (PI / a))
  else
    let k := (L + Z.quot (n - 1) 2)%Z in
    let* f := factorial k in
    Ok (IZR f / (2 * powerRZ a (k + 1))).

(** the innermost loop of 436-444, over the primitives of the potential *)
Definition sum_potential (L : Z) (ai aj factor : R) (pot : list (Z * R * R)) (sum : R) : res R :=
  fold_left (fun (r : res R) '(n, ck, zeta) =>
    let* sum := r in
    let* u := analytic_one_center_rpp_integral_primitive L ai aj n zeta in
    Ok (sum + factor * ck * u)) pot (Ok sum).

(** outercore_integrals.c 418-447 *)
Definition analytic_one_center_rpp_integral_contracted (bra ket : vshell) (pot : vpot) : res R :=
  let L := pv_L pot in
  for_range 0 (sv_num bra) (fun i sum =>
    let* coef_i := aget (sv_coef bra) [i] in
    let* alpha_i := aget (sv_alpha bra) [i] in
    let* N_i := radial_gto_norm_factor L alpha_i in
    for_range 0 (sv_num ket) (fun j sum =>
      let* coef_j := aget (sv_coef ket) [j] in
      let* alpha_j := aget (sv_alpha ket) [j] in
      let* N_j := radial_gto_norm_factor L alpha_j in
      sum_potential L alpha_i alpha_j (N_i * N_j * coef_i * coef_j) (pv_prims pot) sum) sum) 0.

(** outercore_integrals.c 397-412 *)
Definition calculate_delta_integral (pot1 : vpot) (s1 : vshell) (pot2 : vpot) (s2 : vshell) : res R :=
  if negb (pv_L pot1 =? pv_L pot2)%Z || negb (pv_J pot1 =? pv_J pot2)%Z then Ok 0
  else
    let* U1 := analytic_one_center_rpp_integral_contracted s1 s2 pot1 in
    let* U2 := analytic_one_center_rpp_integral_contracted s1 s2 pot2 in
    Ok (0.5 * (U1 + U2)).

(** outercore_integrals.c 171-180 and 321-330 *)
Definition sph_coefs (L : Z) (s : vshell) : res (arr R) :=
  for_range (- L) (L + 1) (fun m => for_range 0 (sv_size s) (fun icart SC =>
    let* rx := aget (sv_cart s) [3 * icart + 0]%Z in
    let* ry := aget (sv_cart s) [3 * icart + 1]%Z in
    let* rz := aget (sv_cart s) [3 * icart + 2]%Z in
    let* c := spherical_to_cartesian_coef L m rx ry rz in
    let* n := ang_norm_factor rx ry rz in
    aset SC [sv_size s * (m + L) + icart]%Z (c / n))) (aconst [(2 * L + 1) * sv_size s]%Z 0).

(** outercore_integrals.c 508-523 *)
Definition transform_to_sph_basis_ket (dim_bra dim_ket_cart dim_ket_sph : Z) (A_in A_out SC : arr R) : res (arr R) :=
  for_range 0 dim_bra (fun i => for_range 0 dim_ket_sph (fun j A_out =>
    let* s := for_range 0 dim_ket_cart (fun icart s =>
      let* u := aget SC [dim_ket_cart * j + icart]%Z in
      let* a := aget A_in [i * dim_ket_cart + icart]%Z in
      Ok (s + u * a)) 0 in
    aset A_out [i * dim_ket_sph + j]%Z s)) A_out.

(** outercore_integrals.c 526-542 *)
Definition transform_to_sph_basis_bra (dim_bra_cart dim_bra_sph dim_ket : Z) (A_in A_out SC : arr R) : res (arr R) :=
  for_range 0 dim_ket (fun j => for_range 0 dim_bra_sph (fun i A_out =>
    let* s := for_range 0 dim_bra_cart (fun icart s =>
      let* u := aget SC [dim_bra_cart * i + icart]%Z in
      let* a := aget A_in [icart * dim_ket + j]%Z in
      Ok (s + u * a)) 0 in
    aset A_out [i * dim_ket + j]%Z s)) A_out.

(** alloc_zeros_1d, utils.c 25 *)
Definition zeros (n : Z) : arr R := aconst [n] 0.

(** shell with another origin: 166-168, 301-306, 109-111 *)
Definition move_shell (s : vshell) (C : R * R * R) : vshell :=
  mkV (sv_L s) (sv_size s) (sv_cart s) (sv_num s) (sv_coef s) (sv_alpha s) C.

(** (J < L) with J = pot->J / 2.0 *)
Definition j_below (pot : vpot) (L : Z) : bool := if Rlt_dec (IZR (pv_J pot) / 2) (IZR L) then true else false.
(** outercore_integrals.c 229, 364 *)
Definition arep_factor (pot : vpot) (L : Z) : R :=
  if j_below pot L then IZR L / (2 * IZR L + 1) else IZR (L + 1) / (2 * IZR L + 1).
(** outercore_integrals.c 256, 384 *)
Definition esop_factor (pot : vpot) (L : Z) : R :=
  if j_below pot L then - 2 / IZR (2 * L + 1) else 2 / IZR (2 * L + 1).

(** the four output matrices *)
Definition mats := (arr R * arr R * arr R * arr R)%type.

(** the loop body 241-250 for one coordinate; the buffer is handed on to the next *)
Definition so_first (dim size_A size_B : Z) (S_a S_b U_a U_b : arr R) (lk : arr R) (buf so_buf : arr R) : res (arr R * arr R) :=
  let* buf := memset0 (dim * size_B) buf in
  let* buf := multiply_matrices dim size_B dim lk S_b buf in
  let* so_buf := multiply_matrices size_A size_B dim U_a buf so_buf in
  let* buf := memset0 (dim * size_A) buf in
  let* buf := multiply_matrices size_A dim dim S_a lk buf in
  let* so_buf := multiply_matrices size_A size_B dim buf U_b so_buf in
  Ok (buf, so_buf).

(** outercore_integrals.c 147-270 *)
Definition outercore_part_1 (t1 : t1_routine) (A B : vshell) (C : R * R * R) (pot : vpot) (oc : vshell) (out : mats) : res mats :=
  let '(arep, sx, sy, sz) := out in
  let L := sv_L oc in
  let size_A := sv_size A in
  let size_B := sv_size B in
  let size_nlj := sv_size oc in
  let dim := (2 * L + 1)%Z in
  let oc := move_shell oc C in
  let* SC := sph_coefs L oc in
  let* S_b_cart := overlap_integrals oc B (zeros (size_nlj * size_B)) in
  let* S_a_cart := overlap_integrals A oc (zeros (size_A * size_nlj)) in
  let* S_a := transform_to_sph_basis_ket size_A size_nlj dim S_a_cart (zeros (size_A * dim)) SC in
  let* S_b := transform_to_sph_basis_bra size_nlj dim size_B S_b_cart (zeros (dim * size_B)) SC in
  let* U_b_cart := t1 oc B C pot (zeros (size_nlj * size_B)) in
  let* U_a_cart := t1 A oc C pot (zeros (size_A * size_nlj)) in
  let* U_a := transform_to_sph_basis_ket size_A size_nlj dim U_a_cart (zeros (size_A * dim)) SC in
  let* U_b := transform_to_sph_basis_bra size_nlj dim size_B U_b_cart (zeros (dim * size_B)) SC in
  let* buf := multiply_matrices size_A size_B dim S_a U_b (zeros (size_A * size_B)) in
  let* buf := multiply_matrices size_A size_B dim U_a S_b buf in
  let* arep := daxpy (size_A * size_B) (arep_factor pot L) buf arep in
  let* (lx, ly, lz) := construct_matrices_rsh L (zeros (dim * dim), zeros (dim * dim), zeros (dim * dim)) in
  let* (buf, so_x) := so_first dim size_A size_B S_a S_b U_a U_b lx (zeros (dim * Z.max size_A size_B)) (zeros (size_A * size_B)) in
  let* (buf, so_y) := so_first dim size_A size_B S_a S_b U_a U_b ly buf (zeros (size_A * size_B)) in
  let* (_, so_z) := so_first dim size_A size_B S_a S_b U_a U_b lz buf (zeros (size_A * size_B)) in
  let* sx := daxpy (size_A * size_B) (esop_factor pot L) so_x sx in
  let* sy := daxpy (size_A * size_B) (esop_factor pot L) so_y sy in
  let* sz := daxpy (size_A * size_B) (esop_factor pot L) so_z sz in
  Ok (arep, sx, sy, sz).

(** the loop body 373-377 *)
Definition so_second (dim size_A size_B : Z) (S_a S_b : arr R) (lk : arr R) (buf so_buf : arr R) : res (arr R * arr R) :=
  let* buf := memset0 (dim * size_B) buf in
  let* buf := multiply_matrices dim size_B dim lk S_b buf in
  let* so_buf := multiply_matrices size_A size_B dim S_a buf so_buf in
  Ok (buf, so_buf).

(** outercore_integrals.c 277-390 *)
Definition outercore_part_2 (A B : vshell) (C : R * R * R) (pot1 : vpot) (oc1 : vshell) (pot2 : vpot) (oc2 : vshell) (out : mats) : res mats :=
  let '(arep, sx, sy, sz) := out in
  let size_A := sv_size A in
  let size_B := sv_size B in
  if negb (pv_L pot1 =? pv_L pot2)%Z then Ok out
  else if negb (pv_J pot1 =? pv_J pot2)%Z then Ok out
  else
    let oc1 := move_shell oc1 C in
    let oc2 := move_shell oc2 C in
    let L := pv_L pot1 in
    let dim := (2 * L + 1)%Z in
    let size_nlj := sv_size oc1 in
    let* delta := calculate_delta_integral pot1 oc1 pot2 oc2 in
    let* SC := sph_coefs L oc1 in
    let* S_b_cart := overlap_integrals oc2 B (zeros (size_nlj * size_B)) in
    let* S_a_cart := overlap_integrals A oc1 (zeros (size_A * size_nlj)) in
    let* S_a := transform_to_sph_basis_ket size_A size_nlj dim S_a_cart (zeros (size_A * dim)) SC in
    let* S_b := transform_to_sph_basis_bra size_nlj dim size_B S_b_cart (zeros (dim * size_B)) SC in
    let* buf := multiply_matrices size_A size_B dim S_a S_b (zeros (size_A * size_B)) in
    let* arep := daxpy (size_A * size_B) (-1 * delta * arep_factor pot1 L) buf arep in
    let* (lx, ly, lz) := construct_matrices_rsh L (zeros (dim * dim), zeros (dim * dim), zeros (dim * dim)) in
    let* (buf, so_x) := so_second dim size_A size_B S_a S_b lx (zeros (dim * size_B)) (zeros (size_A * size_B)) in
    let* (buf, so_y) := so_second dim size_A size_B S_a S_b ly buf (zeros (size_A * size_B)) in
    let* (_, so_z) := so_second dim size_A size_B S_a S_b lz buf (zeros (size_A * size_B)) in
    let* sx := daxpy (size_A * size_B) (-1 * delta * esop_factor pot1 L) so_x sx in
    let* sy := daxpy (size_A * size_B) (-1 * delta * esop_factor pot1 L) so_y sy in
    let* sz := daxpy (size_A * size_B) (-1 * delta * esop_factor pot1 L) so_z sz in
    Ok (arep, sx, sy, sz).

(** outercore_integrals.c 83-140.  The arrays oc_potentials and oc_shells are one
    list of pairs; the origins of the shells are overwritten (108-112), and the
    shells as they are afterwards are part of the result. *)
Definition outercore_potential_integrals (t1 : t1_routine) (A B : vshell) (C : R * R * R) (ocs : list (vpot * vshell)) (out : mats) : res (mats * list (vpot * vshell)) :=
  let '(arep, sx, sy, sz) := out in
  let size := (sv_size A * sv_size B)%Z in
  let* arep := memset0 size arep in
  let* sx := memset0 size sx in
  let* sy := memset0 size sy in
  let* sz := memset0 size sz in
  let ocs := map (fun '(pot, s) => (pot, move_shell s C)) ocs in
  let* out := fold_left (fun (r : res mats) '(pot, nlj) => let* out := r in outercore_part_1 t1 A B C pot nlj out) ocs (Ok (arep, sx, sy, sz)) in
  let* out := fold_left (fun (r : res mats) '(pot1, nlj1) =>
    fold_left (fun (r : res mats) '(pot2, nlj2) => let* out := r in outercore_part_2 A B C pot1 nlj1 pot2 nlj2 out) ocs r) ocs (Ok out) in
  Ok (out, ocs).
