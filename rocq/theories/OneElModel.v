(** * Model of the overlap, kinetic-energy and momentum integrals.

    Sources: libgrpp/overlap.c 39-138, libgrpp/kinetic.c 38-162,
    libgrpp/momentum.c 44-181, libgrpp/norm_gaussian.c 16-23,
    libgrpp/utils.c 53-58 (libgrpp_daxpy).

    Numbers of type [double] are exact reals; [M_PI] is the real number pi and
    [pow] is [Rpower] (the C [pow] for positive bases).  Arrays are the bounded
    arrays of Base.v: automatic arrays start unwritten and every index is
    checked against its own dimension. *)

From Coq Require Import ZArith List Lia Bool Reals Lra.
From Verif Require Import Base HeapModel.
Import ListNotations.
Open Scope Z_scope.

(** A libgrpp_shell_t (libgrpp.h) as the integral routines see it: the fields
    of the struct with the three pointed-to arrays read in place.  The numeric
    routines only read these fields. *)
Record vshell := mkV {
  sv_L : Z; sv_size : Z; sv_cart : arr Z;
  sv_num : Z; sv_coef : arr R; sv_alpha : arr R;
  sv_org : R * R * R }.

(** the shell object [p] of HeapModel seen by the numeric routines *)
Definition view_shell (h : heap) (p : Z) : res vshell :=
  let* s := load_shell h p in
  let* oc := hload h (sh_cart_list s) in
  let* ocf := hload h (sh_coeffs s) in
  let* oa := hload h (sh_alpha s) in
  match oc, ocf, oa with
  | OInts lc, ODbls lcf, ODbls la =>
      Ok (mkV (sh_L s) (sh_cart_size s) (aoflist lc) (sh_num s) (aoflist lcf) (aoflist la) (sh_origin s))
  | _, _, _ => Fail WrongObject
  end.

(** [double origin[3]] indexed by a coordinate number *)
Definition coord3 (o : R * R * R) (c : Z) : R :=
  let '(x, y, z) := o in if c =? 0 then x else if c =? 1 then y else z.

(** libgrpp.h: LIBGRPP_MAX_BASIS_L *)
Definition max_basis_L : Z := 10.

Open Scope R_scope.

(** norm_gaussian.c 16-23 *)
Definition gaussian_norm_factor (n l m : Z) (alpha : R) : R :=
  Rpower (2 * alpha / PI) 0.75 * Rpower (4 * alpha) (0.5 * IZR (n + l + m)).

(** utils.c 53-58 *)
Definition daxpy (n : Z) (a : R) (x y : arr R) : res (arr R) :=
  for_range 0 n (fun i y =>
    let* yi := aget y [i] in
    let* xi := aget x [i] in
    aset y [i] (yi + a * xi)) y.

(** memset(matrix, 0, n * sizeof(double)) *)
Definition memset0 (n : Z) (y : arr R) : res (arr R) :=
  for_range 0 n (fun i y => aset y [i] 0) y.

(** one assignment of the table loop: overlap.c 99-120, kinetic.c 98-119,
    momentum.c 118-139 (textually the same three times) *)
Definition os_cell (T : arr R) (coord i j : Z) (s00 X_PA X_PB pfac : R) : res (arr R) :=
  if (i + j =? 0)%Z then aset T [coord; 0%Z; 0%Z] s00
  else
    let* S_ij :=
      if (i =? 0)%Z then
        let* a := aget T [coord; i; (j - 1)%Z] in
        let S_ij := 0 + X_PB * a in
        if (0 <? j - 1)%Z then
          let* b := aget T [coord; i; (j - 2)%Z] in
          Ok (S_ij + IZR (j - 1) * pfac * b)
        else Ok S_ij
      else
        let* a := aget T [coord; (i - 1)%Z; j] in
        let S_ij := 0 + X_PA * a in
        let* S_ij :=
          if (0 <? i - 1)%Z then
            let* b := aget T [coord; (i - 2)%Z; j] in
            Ok (S_ij + IZR (i - 1) * pfac * b)
          else Ok S_ij in
        if (0 <? j)%Z then
          let* c := aget T [coord; (i - 1)%Z; (j - 1)%Z] in
          Ok (S_ij + IZR j * pfac * c)
        else Ok S_ij in
    aset T [coord; i; j] S_ij.

(** the table S of the code, here [T]: overlap.c 86-124 (dim = MAX_BASIS_L, bounds L_A, L_B),
    kinetic.c 85-123 (dim = MAX_BASIS_L + 2, bounds L_A + 2, L_B + 2),
    momentum.c 105-143 (dim = MAX_BASIS_L + 1, bounds L_A + 1, L_B + 1).
    One definition with the dimension and the bounds as parameters. *)
Definition os_table (dim imax jmax : Z) (alpha_A alpha_B : R) (A B : R * R * R) : res (arr R) :=
  let p := alpha_A + alpha_B in
  let mu := alpha_A * alpha_B / (alpha_A + alpha_B) in
  for_range 0 3 (fun coord T =>
    let P := (alpha_A * coord3 A coord + alpha_B * coord3 B coord) / p in
    let X_AB := coord3 A coord - coord3 B coord in
    let X_PA := P - coord3 A coord in
    let X_PB := P - coord3 B coord in
    let pfac := 1 / (2 * p) in
    for_range 0 (imax + 1) (fun i =>
    for_range 0 (jmax + 1) (fun j T =>
      os_cell T coord i j (sqrt (PI / p) * exp (- mu * X_AB * X_AB)) X_PA X_PB pfac)) T)
    (aundef [3%Z; dim; dim]).

(** the loop over Cartesian components, overlap.c 126-137, kinetic.c 146-161,
    momentum.c 165-180: [value] computes the assigned entry from the six
    exponents *)
Definition fill_components (A B : vshell)
    (value : Z -> Z -> Z -> Z -> Z -> Z -> res R) (M : arr R) : res (arr R) :=
  for_range 0 (sv_size A) (fun m =>
  for_range 0 (sv_size B) (fun n M =>
    let* n_A := aget (sv_cart A) [(3 * m + 0)%Z] in
    let* l_A := aget (sv_cart A) [(3 * m + 1)%Z] in
    let* m_A := aget (sv_cart A) [(3 * m + 2)%Z] in
    let* n_B := aget (sv_cart B) [(3 * n + 0)%Z] in
    let* l_B := aget (sv_cart B) [(3 * n + 1)%Z] in
    let* m_B := aget (sv_cart B) [(3 * n + 2)%Z] in
    let* v := value n_A l_A m_A n_B l_B m_B in
    aset M [(m * sv_size B + n)%Z] v)) M.

(** overlap.c 66-138 *)
Definition overlap_shell_pair (A B : vshell) (alpha_A alpha_B : R) (M : arr R) : res (arr R) :=
  let N_A := gaussian_norm_factor (sv_L A) 0 0 alpha_A in
  let N_B := gaussian_norm_factor (sv_L B) 0 0 alpha_B in
  let* T := os_table max_basis_L (sv_L A) (sv_L B) alpha_A alpha_B (sv_org A) (sv_org B) in
  fill_components A B (fun n_A l_A m_A n_B l_B m_B =>
    let* s0 := aget T [0%Z; n_A; n_B] in
    let* s1 := aget T [1%Z; l_A; l_B] in
    let* s2 := aget T [2%Z; m_A; m_B] in
    Ok (N_A * N_B * s0 * s1 * s2)) M.

(** overlap.c 39-63; [M] is the caller's matrix *)
Definition overlap_integrals (A B : vshell) (M : arr R) : res (arr R) :=
  let size := (sv_size A * sv_size B)%Z in
  let* M := memset0 size M in
  let* (M, _) :=
    for_range 0 (sv_num A) (fun i =>
    for_range 0 (sv_num B) (fun j '(M, buf) =>
      let* alpha_i := aget (sv_alpha A) [i] in
      let* alpha_j := aget (sv_alpha B) [j] in
      let* coef_A_i := aget (sv_coef A) [i] in
      let* coef_B_j := aget (sv_coef B) [j] in
      let* buf := overlap_shell_pair A B alpha_i alpha_j buf in
      let* M := daxpy size (coef_A_i * coef_B_j) buf M in
      Ok (M, buf))) (M, aconst [size] 0) in
  Ok M.

(** kinetic.c 125-144: the table D2 *)
Definition d2_table (T : arr R) (L_A L_B : Z) (alpha_A : R) : res (arr R) :=
  for_range 0 3 (fun coord =>
  for_range 0 (L_A + 1) (fun i =>
  for_range 0 (L_B + 1) (fun j D2 =>
    let* a := aget T [coord; (i + 2)%Z; j] in
    let D2_ij := 0 + 4 * alpha_A * alpha_A * a in
    let* b := aget T [coord; i; j] in
    let D2_ij := D2_ij - 2 * alpha_A * IZR (2 * i + 1) * b in
    let* D2_ij :=
      if (2 <=? i)%Z then
        let* c := aget T [coord; (i - 2)%Z; j] in
        Ok (D2_ij + IZR (i * (i - 1)) * c)
      else Ok D2_ij in
    aset D2 [coord; i; j] D2_ij)))
    (aundef [3%Z; max_basis_L; max_basis_L]).

(** kinetic.c 65-162 *)
Definition kinetic_shell_pair (A B : vshell) (alpha_A alpha_B : R) (M : arr R) : res (arr R) :=
  let N_A := gaussian_norm_factor (sv_L A) 0 0 alpha_A in
  let N_B := gaussian_norm_factor (sv_L B) 0 0 alpha_B in
  let* T := os_table (max_basis_L + 2) (sv_L A + 2) (sv_L B + 2) alpha_A alpha_B (sv_org A) (sv_org B) in
  let* D2 := d2_table T (sv_L A) (sv_L B) alpha_A in
  fill_components A B (fun n_A l_A m_A n_B l_B m_B =>
    let* d0 := aget D2 [0%Z; n_A; n_B] in
    let* s1 := aget T [1%Z; l_A; l_B] in
    let* s2 := aget T [2%Z; m_A; m_B] in
    let* s0 := aget T [0%Z; n_A; n_B] in
    let* d1 := aget D2 [1%Z; l_A; l_B] in
    let* d2 := aget D2 [2%Z; m_A; m_B] in
    Ok (-0.5 * N_A * N_B * (d0 * s1 * s2 + s0 * d1 * s2 + s0 * s1 * d2))) M.

(** kinetic.c 38-62 *)
Definition kinetic_integrals (A B : vshell) (M : arr R) : res (arr R) :=
  let size := (sv_size A * sv_size B)%Z in
  let* M := memset0 size M in
  let* (M, _) :=
    for_range 0 (sv_num A) (fun i =>
    for_range 0 (sv_num B) (fun j '(M, buf) =>
      let* alpha_i := aget (sv_alpha A) [i] in
      let* alpha_j := aget (sv_alpha B) [j] in
      let* coef_A_i := aget (sv_coef A) [i] in
      let* coef_B_j := aget (sv_coef B) [j] in
      let* buf := kinetic_shell_pair A B alpha_i alpha_j buf in
      let* M := daxpy size (coef_A_i * coef_B_j) buf M in
      Ok (M, buf))) (M, aconst [size] 0) in
  Ok M.

(** momentum.c 145-163: the table D1 *)
Definition d1_table (T : arr R) (L_A L_B : Z) (alpha_A : R) : res (arr R) :=
  for_range 0 3 (fun coord =>
  for_range 0 (L_A + 1) (fun i =>
  for_range 0 (L_B + 1) (fun j D1 =>
    let* a := aget T [coord; (i + 1)%Z; j] in
    let D1_ij := 0 + 2 * alpha_A * a in
    let* D1_ij :=
      if (1 <=? i)%Z then
        let* c := aget T [coord; (i - 1)%Z; j] in
        Ok (D1_ij - IZR i * c)
      else Ok D1_ij in
    aset D1 [coord; i; j] D1_ij)))
    (aundef [3%Z; max_basis_L; max_basis_L]).

(** momentum.c 85-181.  The component loop assigns the three matrices in one
    body; the three assignments go to distinct arrays, so they are written here
    as three loops. *)
Definition momentum_shell_pair (A B : vshell) (alpha_A alpha_B : R)
    (bufs : arr R * arr R * arr R) : res (arr R * arr R * arr R) :=
  let '(bx, by_, bz) := bufs in
  let N_A := gaussian_norm_factor (sv_L A) 0 0 alpha_A in
  let N_B := gaussian_norm_factor (sv_L B) 0 0 alpha_B in
  let* T := os_table (max_basis_L + 1) (sv_L A + 1) (sv_L B + 1) alpha_A alpha_B (sv_org A) (sv_org B) in
  let* D1 := d1_table T (sv_L A) (sv_L B) alpha_A in
  let entry (t0 t1 t2 : arr R) n_A l_A m_A n_B l_B m_B :=
    let* v0 := aget t0 [0%Z; n_A; n_B] in
    let* v1 := aget t1 [1%Z; l_A; l_B] in
    let* v2 := aget t2 [2%Z; m_A; m_B] in
    Ok (- N_A * N_B * v0 * v1 * v2) in
  let* bx := fill_components A B (entry D1 T T) bx in
  let* by_ := fill_components A B (entry T D1 T) by_ in
  let* bz := fill_components A B (entry T T D1) bz in
  Ok (bx, by_, bz).

(** momentum.c 44-82 *)
Definition momentum_integrals (A B : vshell) (Ms : arr R * arr R * arr R) : res (arr R * arr R * arr R) :=
  let '(Mx, My, Mz) := Ms in
  let size := (sv_size A * sv_size B)%Z in
  let* Mx := memset0 size Mx in
  let* My := memset0 size My in
  let* Mz := memset0 size Mz in
  let* (Mx, My, Mz, _) :=
    for_range 0 (sv_num A) (fun i =>
    for_range 0 (sv_num B) (fun j '(Mx, My, Mz, bufs) =>
      let* alpha_i := aget (sv_alpha A) [i] in
      let* alpha_j := aget (sv_alpha B) [j] in
      let* coef_A_i := aget (sv_coef A) [i] in
      let* coef_B_j := aget (sv_coef B) [j] in
      let* (bx, by_, bz) := momentum_shell_pair A B alpha_i alpha_j bufs in
      let* Mx := daxpy size (coef_A_i * coef_B_j) bx Mx in
      let* My := daxpy size (coef_A_i * coef_B_j) by_ My in
      let* Mz := daxpy size (coef_A_i * coef_B_j) bz Mz in
      Ok (Mx, My, Mz, (bx, by_, bz))))
      (Mx, My, Mz, (aconst [size] 0, aconst [size] 0, aconst [size] 0)) in
  Ok (Mx, My, Mz).
