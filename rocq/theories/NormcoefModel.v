(** * Shells with normalised coefficients (shell.c, radial_type2_integral.c) *)

From Coq Require Import ZArith List Lia Bool Reals.
From Verif Require Import Base CartModel HeapModel OneElModel.
Import ListNotations.
Open Scope Z_scope.

(** shell.c 86-92 *)
Definition shell_mult_normcoef (h : heap) (p : ptr) : res heap :=
  let* s := load_shell h p in
  for_range 0 (sh_num s) (fun i h =>
    let* a := get_dbl h (sh_alpha s) i in
    let norm_factor := gaussian_norm_factor (sh_L s) 0 0 a in
    let* c := get_dbl h (sh_coeffs s) i in
    set_dbl h (sh_coeffs s) i (c * norm_factor)%R) h.

(** radial_type2_integral.c 166-168 (and 170-172): the copy of a shell with which the table of
    radial integrals is computed; deleted again in lines 202-203 *)
Definition working_shell (ord : cart_order) (h : heap) (src : ptr) : res (ptr * heap) :=
  let* (p, h) := shell_deep_copy ord h src in
  let* h := shell_shrink h p in
  let* h := shell_mult_normcoef h p in
  Ok (p, h).

(** radial_type2_integral.c 164-172: the shrunk potential and the two working copies *)
Definition type2_inputs (ord : cart_order) (h : heap) (pot bra ket : ptr) : res (ptr * ptr * ptr * heap) :=
  let* (pp, h) := shrink_potential h pot in
  let* (pb, h) := working_shell ord h bra in
  let* (pk, h) := working_shell ord h ket in
  Ok (pp, pb, pk, h).

(** radial_type2_integral.c 201-203 (the grid of line 204 is in RadialModel.v) *)
Definition type2_cleanup (h : heap) (pp pb pk : ptr) : res heap :=
  let* h := delete_potential h pp in
  let* h := delete_shell h pb in
  delete_shell h pk.
