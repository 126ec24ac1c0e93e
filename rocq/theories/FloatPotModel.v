(** * The value of a potential in double precision (potential.c)

    The routine of HeapModel.v with every floating point operation rounded to double precision,
    in the order of the source; conversions from int are exact; no contraction of a product and
    a sum into one operation.  [lexp] and [lpow] are exp and pow of the C library. *)

From Coq Require Import ZArith List Bool Lia Reals.
From Verif Require Import Base HeapModel FloatBase.
Import ListNotations.
Open Scope R_scope.

Section Libm.
Variable lexp : R -> res R.
Variable lpow : R -> R -> res R.

(** potential.c 70-81 *)
Definition fl_potential_value (h : heap) (p : ptr) (r : R) : res R :=
  let* x := load_pot h p in
  let* r_2 := fl (r * r) in
  for_range 0 (pot_num x) (fun i val =>
    let* n := get_int h (pot_powers x) i in
    let* c := get_dbl h (pot_coeffs x) i in
    let* pw := lpow r (IZR (n - 2)) in
    let* t := fl (c * pw) in
    let* a := get_dbl h (pot_alpha x) i in
    let* u := fl (- a * r_2) in
    let* e := lexp u in
    let* t := fl (t * e) in
    fl (val + t)) 0.

End Libm.
