(** * The overlap integrals in double precision (overlap.c, norm_gaussian.c, utils.c)

    The routines of OneElModel.v with every floating point operation rounded to double
    precision, in the order of the source; conversions from int are exact; no contraction of
    a product and a sum into one operation.  [fl PI] stands for M_PI (the double nearest to
    pi) and sqrt is correctly rounded.  [lexp] and [lpow] are the functions exp and pow of the
    C library. *)

From Coq Require Import ZArith List Bool Lia Reals.
From Verif Require Import Base HeapModel OneElModel FloatBase.
Import ListNotations.
Open Scope R_scope.

Section Libm.
Variable lexp : R -> res R.
Variable lpow : R -> R -> res R.

(** norm_gaussian.c 16-23 *)
Definition fl_norm_factor (n l m : Z) (alpha : R) : res R :=
  let* a2 := fl (2 * alpha) in
  let* mpi := fl PI in
  let* q := fl (a2 / mpi) in
  let* f1 := lpow q (3 / 4) in
  let* a4 := fl (4 * alpha) in
  let* h := fl (1 / 2 * IZR (n + l + m)) in
  let* f2 := lpow a4 h in
  fl (f1 * f2).

(** utils.c 53-58 *)
Definition fl_daxpy (n : Z) (a : R) (x y : arr R) : res (arr R) :=
  for_range 0 n (fun i y =>
    let* yi := aget y [i] in
    let* xi := aget x [i] in
    let* t := fl (a * xi) in
    let* s := fl (yi + t) in
    aset y [i] s) y.

(** overlap.c 99-120 *)
Definition fl_os_cell (T : arr R) (coord i j : Z) (p mu X_AB X_PA X_PB pfac : R) : res (arr R) :=
  if (i + j =? 0)%Z then
    let* mpi := fl PI in
    let* q := fl (mpi / p) in
    let* sq := fl (sqrt q) in
    let* t := fl (- mu * X_AB) in
    let* t := fl (t * X_AB) in
    let* e := lexp t in
    let* s00 := fl (sq * e) in
    aset T [coord; 0%Z; 0%Z] s00
  else
    let* S_ij :=
      if (i =? 0)%Z then
        let* a := aget T [coord; i; (j - 1)%Z] in
        let* t := fl (X_PB * a) in
        let* S_ij := fl (0 + t) in
        if (0 <? j - 1)%Z then
          let* b := aget T [coord; i; (j - 2)%Z] in
          let* f := fl (IZR (j - 1) * pfac) in
          let* t := fl (f * b) in
          fl (S_ij + t)
        else Ok S_ij
      else
        let* a := aget T [coord; (i - 1)%Z; j] in
        let* t := fl (X_PA * a) in
        let* S_ij := fl (0 + t) in
        let* S_ij :=
          if (0 <? i - 1)%Z then
            let* b := aget T [coord; (i - 2)%Z; j] in
            let* f := fl (IZR (i - 1) * pfac) in
            let* t := fl (f * b) in
            fl (S_ij + t)
          else Ok S_ij in
        if (0 <? j)%Z then
          let* c := aget T [coord; (i - 1)%Z; (j - 1)%Z] in
          let* f := fl (IZR j * pfac) in
          let* t := fl (f * c) in
          fl (S_ij + t)
        else Ok S_ij in
    aset T [coord; i; j] S_ij.

(** overlap.c 80-124 *)
Definition fl_os_table (dim imax jmax : Z) (alpha_A alpha_B : R) (A B : R * R * R) : res (arr R) :=
  let* p := fl (alpha_A + alpha_B) in
  let* ab := fl (alpha_A * alpha_B) in
  let* s := fl (alpha_A + alpha_B) in
  let* mu := fl (ab / s) in
  for_range 0 3 (fun coord T =>
    let* ta := fl (alpha_A * coord3 A coord) in
    let* tb := fl (alpha_B * coord3 B coord) in
    let* num := fl (ta + tb) in
    let* P := fl (num / p) in
    let* X_AB := fl (coord3 A coord - coord3 B coord) in
    let* X_PA := fl (P - coord3 A coord) in
    let* X_PB := fl (P - coord3 B coord) in
    let* p2 := fl (2 * p) in
    let* pfac := fl (1 / p2) in
    for_range 0 (imax + 1) (fun i =>
    for_range 0 (jmax + 1) (fun j T =>
      fl_os_cell T coord i j p mu X_AB X_PA X_PB pfac)) T)
    (aundef [3%Z; dim; dim]).

(** overlap.c 66-138 *)
Definition fl_overlap_shell_pair (A B : vshell) (alpha_A alpha_B : R) (M : arr R) : res (arr R) :=
  let* N_A := fl_norm_factor (sv_L A) 0 0 alpha_A in
  let* N_B := fl_norm_factor (sv_L B) 0 0 alpha_B in
  let* T := fl_os_table max_basis_L (sv_L A) (sv_L B) alpha_A alpha_B (sv_org A) (sv_org B) in
  fill_components A B (fun n_A l_A m_A n_B l_B m_B =>
    let* n := fl (N_A * N_B) in
    let* s0 := aget T [0%Z; n_A; n_B] in
    let* v := fl (n * s0) in
    let* s1 := aget T [1%Z; l_A; l_B] in
    let* v := fl (v * s1) in
    let* s2 := aget T [2%Z; m_A; m_B] in
    fl (v * s2)) M.

(** overlap.c 39-63; [M] is the caller's matrix *)
Definition fl_overlap_integrals (A B : vshell) (M : arr R) : res (arr R) :=
  let size := (sv_size A * sv_size B)%Z in
  let* M := memset0 size M in
  let* (M, _) :=
    for_range 0 (sv_num A) (fun i =>
    for_range 0 (sv_num B) (fun j '(M, buf) =>
      let* alpha_i := aget (sv_alpha A) [i] in
      let* alpha_j := aget (sv_alpha B) [j] in
      let* coef_A_i := aget (sv_coef A) [i] in
      let* coef_B_j := aget (sv_coef B) [j] in
      let* buf := fl_overlap_shell_pair A B alpha_i alpha_j buf in
      let* c := fl (coef_A_i * coef_B_j) in
      let* M := fl_daxpy size c buf M in
      Ok (M, buf))) (M, aconst [size] 0) in
  Ok M.

End Libm.

(** accuracy of the C library: exp of a number up to 1 and pow of a positive number, as
    long as the result is far from the limits of the format, within one unit in the last
    place (two units of roundoff) *)
Definition libm_exp (lexp : R -> res R) : Prop :=
  forall x, x <= 1 -> exists v, lexp x = Ok v /\ Rabs (v - exp x) <= 2 * ulp1 * exp x + / 2 ^ 1070.
Definition libm_pow (lpow : R -> R -> res R) : Prop :=
  forall x y, 0 < x -> / 2 ^ 1000 <= Rpower x y <= 2 ^ 1000 -> exists v, lpow x y = Ok v /\ Rabs (v - Rpower x y) <= 2 * ulp1 * Rpower x y.
