(** * Normalised coefficients in double precision (shell.c)

    The routine of NormcoefModel.v with every floating point operation rounded to double
    precision, in the order of the source.  [lpow] is pow of the C library. *)

From Coq Require Import ZArith List Bool Lia Reals.
From Verif Require Import Base HeapModel FloatBase FloatOneEl.
Import ListNotations.
Open Scope Z_scope.

(** shell.c 86-92 *)
Definition fl_shell_mult_normcoef (lpow : R -> R -> res R) (h : heap) (p : ptr) : res heap :=
  let* s := load_shell h p in
  for_range 0 (sh_num s) (fun i h =>
    let* a := get_dbl h (sh_alpha s) i in
    let* norm_factor := fl_norm_factor lpow (sh_L s) 0 0 a in
    let* c := get_dbl h (sh_coeffs s) i in
    let* v := fl (c * norm_factor)%R in
    set_dbl h (sh_coeffs s) i v) h.
