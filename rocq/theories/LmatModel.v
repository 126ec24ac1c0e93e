(** * Model of the angular momentum matrices and of the small numeric helpers.

    Sources: libgrpp/lmatrix.c 28-141, libgrpp/utils.c 64-107.

    Doubles are exact reals, [double complex] is Coquelicot's [C]. *)

From Coq Require Import ZArith List Lia Bool Reals.
From Coquelicot Require Import Coquelicot.
From Verif Require Import Base OneElModel.
Import ListNotations.
Open Scope R_scope.

(** the int value of a comparison, as in [m2 * (m1 == m2)] *)
Definition b2R (b : bool) : R := if b then 1 else 0.

(** lmatrix.c 92-115.  The three matrices are caller-allocated; the doubled
    assignment of lx (108, 109) is kept. *)
Definition construct_matrices_csh (L : Z) (Ms : arr R * arr R * arr R) : res (arr R * arr R * arr R) :=
  let '(lx_matrix, ly_matrix, lz_matrix) := Ms in
  let dim := (2 * L + 1)%Z in
  let* lx_matrix := memset0 (dim * dim) lx_matrix in
  let* ly_matrix := memset0 (dim * dim) ly_matrix in
  let* lz_matrix := memset0 (dim * dim) lz_matrix in
  for_range (- L) (L + 1) (fun m1 =>
  for_range (- L) (L + 1) (fun m2 '(lx_matrix, ly_matrix, lz_matrix) =>
    let lz := IZR m2 * b2R (m1 =? m2)%Z in
    let lp := sqrt (IZR ((L - m2) * (L + m2 + 1))) * b2R (m1 =? m2 + 1)%Z in
    let lm := sqrt (IZR ((L + m2) * (L - m2 + 1))) * b2R (m1 =? m2 - 1)%Z in
    let lx := 0.5 * (lp + lm) in
    let ly := 0.5 * (lp - lm) in
    let* lx_matrix := aset lx_matrix [((m1 + L) * dim + (m2 + L))%Z] lx in
    let* lx_matrix := aset lx_matrix [((m1 + L) * dim + (m2 + L))%Z] lx in
    let* ly_matrix := aset ly_matrix [((m1 + L) * dim + (m2 + L))%Z] ly in
    let* lz_matrix := aset lz_matrix [((m1 + L) * dim + (m2 + L))%Z] lz in
    Ok (lx_matrix, ly_matrix, lz_matrix))) (lx_matrix, ly_matrix, lz_matrix).

(** lmatrix.c 127-141; pow(-1, k) for an integer k >= 0 *)
Definition transformation_coeffs (m : Z) : C * C :=
  if (m =? 0)%Z then (RtoC 0.5, RtoC 0.5)
  else if (m <? 0)%Z then
    ((RtoC 1 * Ci / RtoC (sqrt 2))%C,
     (RtoC (-1) * Ci / RtoC (sqrt 2) * RtoC (pow (-1) (Z.to_nat (Z.abs m))))%C)
  else
    ((RtoC 1 / RtoC (sqrt 2))%C,
     (RtoC 1 / RtoC (sqrt 2) * RtoC (pow (-1) (Z.to_nat m)))%C).

(** one of the three blocks lmatrix.c 57-73: the entry for (m1, m2) from the
    matrix [X] over complex harmonics *)
Definition rsh_entry (L : Z) (X : arr R) (m1 m2 : Z) : res C :=
  let dim := (2 * L + 1)%Z in
  let '(a1, b1) := transformation_coeffs m1 in
  let '(a2, b2) := transformation_coeffs m2 in
  let m1m := (- Z.abs m1)%Z in
  let m1p := Z.abs m1 in
  let m2m := (- Z.abs m2)%Z in
  let m2p := Z.abs m2 in
  let* x1 := aget X [(dim * (m1m + L) + (m2m + L))%Z] in
  let* x2 := aget X [(dim * (m1m + L) + (m2p + L))%Z] in
  let* x3 := aget X [(dim * (m1p + L) + (m2m + L))%Z] in
  let* x4 := aget X [(dim * (m1p + L) + (m2p + L))%Z] in
  Ok (RtoC 0 + Cconj a1 * a2 * RtoC x1 + Cconj a1 * b2 * RtoC x2 + Cconj b1 * a2 * RtoC x3 + Cconj b1 * b2 * RtoC x4)%C.

(** lmatrix.c 28-84; calloc'ed temporaries, freed at the end *)
Definition construct_matrices_rsh (L : Z) (Ms : arr R * arr R * arr R) : res (arr R * arr R * arr R) :=
  let '(lx_matrix, ly_matrix, lz_matrix) := Ms in
  let dim := (2 * L + 1)%Z in
  let* lx_matrix := memset0 (dim * dim) lx_matrix in
  let* ly_matrix := memset0 (dim * dim) ly_matrix in
  let* lz_matrix := memset0 (dim * dim) lz_matrix in
  let tmp := aconst [(dim * dim)%Z] 0 in
  let* (lx_csh, ly_csh, lz_csh) := construct_matrices_csh L (tmp, tmp, tmp) in
  for_range (- L) (L + 1) (fun m1 =>
  for_range (- L) (L + 1) (fun m2 '(lx_matrix, ly_matrix, lz_matrix) =>
    let* lx := rsh_entry L lx_csh m1 m2 in
    let* ly := rsh_entry L ly_csh m1 m2 in
    let* lz := rsh_entry L lz_csh m1 m2 in
    let* lx_matrix := aset lx_matrix [((m1 + L) * dim + (m2 + L))%Z] (Im lx) in
    let* ly_matrix := aset ly_matrix [((m1 + L) * dim + (m2 + L))%Z] (- Re ly) in
    let* lz_matrix := aset lz_matrix [((m1 + L) * dim + (m2 + L))%Z] (Im lz) in
    Ok (lx_matrix, ly_matrix, lz_matrix))) (lx_matrix, ly_matrix, lz_matrix).

(** ** utils.c *)

(** utils.c 64-75 *)
Definition multiply_matrices (M N K : Z) (A B C : arr R) : res (arr R) :=
  for_range 0 M (fun i =>
  for_range 0 N (fun j C =>
    let* sum := for_range 0 K (fun k sum =>
      let* a := aget A [(i * K + k)%Z] in
      let* b := aget B [(k * N + j)%Z] in
      Ok (sum + a * b)) 0 in
    let* c := aget C [(i * N + j)%Z] in
    aset C [(i * N + j)%Z] (c + sum))) C.

(** utils.c 78-84 *)
Definition distance_squared (A B : R * R * R) : R :=
  let '(a0, a1, a2) := A in let '(b0, b1, b2) := B in
  let dx := a0 - b0 in let dy := a1 - b1 in let dz := a2 - b2 in
  dx * dx + dy * dy + dz * dz.

(** utils.c 87-90 *)
Definition distance (A B : R * R * R) : R := sqrt (distance_squared A B).

(** utils.c 96-107 *)
Definition points_are_equal (a b : R * R * R) : bool :=
  let '(a0, a1, a2) := a in let '(b0, b1, b2) := b in
  let thresh := 1e-12 in
  if Rlt_dec (Rabs (a0 - b0)) thresh then
    if Rlt_dec (Rabs (a1 - b1)) thresh then
      if Rlt_dec (Rabs (a2 - b2)) thresh then true else false
    else false
  else false.
