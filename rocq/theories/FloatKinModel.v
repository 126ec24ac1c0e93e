(** * The kinetic energy and momentum integrals in double precision (kinetic.c, momentum.c)

    The routines of OneElModel.v with every floating point operation rounded to double
    precision, in the order of the source, as in FloatOneEl.v; products of integers are exact,
    and so is the change of a sign. *)

From Coq Require Import ZArith List Bool Lia Reals.
From Verif Require Import Base HeapModel OneElModel FloatBase FloatOneEl.
Import ListNotations.
Open Scope R_scope.

(** kinetic.c 131-140 *)
Definition fl_d2_cell (T : arr R) (alpha_A : R) (coord i j : Z) : res R :=
  let* a := aget T [coord; (i + 2)%Z; j] in
  let* t := fl (4 * alpha_A) in
  let* t := fl (t * alpha_A) in
  let* t := fl (t * a) in
  let* D2_ij := fl (0 + t) in
  let* b := aget T [coord; i; j] in
  let* t := fl (2 * alpha_A) in
  let* t := fl (t * IZR (2 * i + 1)) in
  let* t := fl (t * b) in
  let* D2_ij := fl (D2_ij - t) in
  if (2 <=? i)%Z then
    let* c := aget T [coord; (i - 2)%Z; j] in
    let* t := fl (IZR (i * (i - 1)) * c) in
    fl (D2_ij + t)
  else Ok D2_ij.

(** momentum.c 153-160 *)
Definition fl_d1_cell (T : arr R) (alpha_A : R) (coord i j : Z) : res R :=
  let* a := aget T [coord; (i + 1)%Z; j] in
  let* t := fl (2 * alpha_A) in
  let* t := fl (t * a) in
  let* D1_ij := fl (0 + t) in
  if (1 <=? i)%Z then
    let* c := aget T [coord; (i - 1)%Z; j] in
    let* t := fl (IZR i * c) in
    fl (D1_ij - t)
  else Ok D1_ij.

(** kinetic.c 125-144, momentum.c 145-163: the tables D2 and D1 *)
Definition fl_d_table (cell : Z -> Z -> Z -> res R) (L_A L_B : Z) : res (arr R) :=
  for_range 0 3 (fun coord =>
  for_range 0 (L_A + 1) (fun i =>
  for_range 0 (L_B + 1) (fun j D =>
    let* d := cell coord i j in
    aset D [coord; i; j] d)))
    (aundef [3%Z; max_basis_L; max_basis_L]).

Section Libm.
Variable lexp : R -> res R.
Variable lpow : R -> R -> res R.

(** kinetic.c 146-161: one element *)
Definition fl_kin_value (N_A N_B : R) (T D2 : arr R) (n_A l_A m_A n_B l_B m_B : Z) : res R :=
  let* h := fl (- (1 / 2) * N_A) in
  let* h := fl (h * N_B) in
  let* d0 := aget D2 [0%Z; n_A; n_B] in
  let* s1 := aget T [1%Z; l_A; l_B] in
  let* s2 := aget T [2%Z; m_A; m_B] in
  let* s0 := aget T [0%Z; n_A; n_B] in
  let* d1 := aget D2 [1%Z; l_A; l_B] in
  let* d2 := aget D2 [2%Z; m_A; m_B] in
  let* x := fl (d0 * s1) in
  let* x := fl (x * s2) in
  let* y := fl (s0 * d1) in
  let* y := fl (y * s2) in
  let* x := fl (x + y) in
  let* z := fl (s0 * s1) in
  let* z := fl (z * d2) in
  let* x := fl (x + z) in
  fl (h * x).

(** kinetic.c 65-162 *)
Definition fl_kinetic_shell_pair (A B : vshell) (alpha_A alpha_B : R) (M : arr R) : res (arr R) :=
  let* N_A := fl_norm_factor lpow (sv_L A) 0 0 alpha_A in
  let* N_B := fl_norm_factor lpow (sv_L B) 0 0 alpha_B in
  let* T := fl_os_table lexp (max_basis_L + 2) (sv_L A + 2) (sv_L B + 2) alpha_A alpha_B (sv_org A) (sv_org B) in
  let* D2 := fl_d_table (fl_d2_cell T alpha_A) (sv_L A) (sv_L B) in
  fill_components A B (fl_kin_value N_A N_B T D2) M.

(** kinetic.c 38-62 *)
Definition fl_kinetic_integrals (A B : vshell) (M : arr R) : res (arr R) :=
  let size := (sv_size A * sv_size B)%Z in
  let* M := memset0 size M in
  let* (M, _) :=
    for_range 0 (sv_num A) (fun i =>
    for_range 0 (sv_num B) (fun j '(M, buf) =>
      let* alpha_i := aget (sv_alpha A) [i] in
      let* alpha_j := aget (sv_alpha B) [j] in
      let* coef_A_i := aget (sv_coef A) [i] in
      let* coef_B_j := aget (sv_coef B) [j] in
      let* buf := fl_kinetic_shell_pair A B alpha_i alpha_j buf in
      let* c := fl (coef_A_i * coef_B_j) in
      let* M := fl_daxpy size c buf M in
      Ok (M, buf))) (M, aconst [size] 0) in
  Ok M.

(** momentum.c 175-177: one element; t0, t1, t2 are S or D1 *)
Definition fl_mom_value (N_A N_B : R) (t0 t1 t2 : arr R) (n_A l_A m_A n_B l_B m_B : Z) : res R :=
  let* n := fl (- N_A * N_B) in
  let* v0 := aget t0 [0%Z; n_A; n_B] in
  let* v := fl (n * v0) in
  let* v1 := aget t1 [1%Z; l_A; l_B] in
  let* v := fl (v * v1) in
  let* v2 := aget t2 [2%Z; m_A; m_B] in
  fl (v * v2).

(** momentum.c 85-181; as in OneElModel.v the three assignments of the component loop are
    written as three loops *)
Definition fl_momentum_shell_pair (A B : vshell) (alpha_A alpha_B : R)
    (bufs : arr R * arr R * arr R) : res (arr R * arr R * arr R) :=
  let '(bx, by_, bz) := bufs in
  let* N_A := fl_norm_factor lpow (sv_L A) 0 0 alpha_A in
  let* N_B := fl_norm_factor lpow (sv_L B) 0 0 alpha_B in
  let* T := fl_os_table lexp (max_basis_L + 1) (sv_L A + 1) (sv_L B + 1) alpha_A alpha_B (sv_org A) (sv_org B) in
  let* D1 := fl_d_table (fl_d1_cell T alpha_A) (sv_L A) (sv_L B) in
  let* bx := fill_components A B (fl_mom_value N_A N_B D1 T T) bx in
  let* by_ := fill_components A B (fl_mom_value N_A N_B T D1 T) by_ in
  let* bz := fill_components A B (fl_mom_value N_A N_B T T D1) bz in
  Ok (bx, by_, bz).

(** momentum.c 44-82 *)
Definition fl_momentum_integrals (A B : vshell) (Ms : arr R * arr R * arr R) : res (arr R * arr R * arr R) :=
  let '(Mx, My, Mz) := Ms in
  let size := (sv_size A * sv_size B)%Z in
  let* Mx := memset0 size Mx in
  let* My := memset0 size My in
  let* Mz := memset0 size Mz in
  let* (Mx, My, Mz, _) :=
    for_range 0 (sv_num A) (fun i =>
    for_range 0 (sv_num B) (fun j '(Mx, My, Mz, bufs) =>
      let* alpha_i := aget (sv_alpha A) [i] in
      let* alpha_j := aget (sv_alpha B) [j] in
      let* coef_A_i := aget (sv_coef A) [i] in
      let* coef_B_j := aget (sv_coef B) [j] in
      let* (bx, by_, bz) := fl_momentum_shell_pair A B alpha_i alpha_j bufs in
      let* c := fl (coef_A_i * coef_B_j) in
      let* Mx := fl_daxpy size c bx Mx in
      let* c := fl (coef_A_i * coef_B_j) in
      let* My := fl_daxpy size c by_ My in
      let* c := fl (coef_A_i * coef_B_j) in
      let* Mz := fl_daxpy size c bz Mz in
      Ok (Mx, My, Mz, (bx, by_, bz))))
      (Mx, My, Mz, (aconst [size] 0, aconst [size] 0, aconst [size] 0)) in
  Ok (Mx, My, Mz).

End Libm.
