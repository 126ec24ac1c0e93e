(** * The Bessel functions in double precision (specfunc_scaled_mod_sph_bessel.c)

    The routines of SpecModel.v with every floating point operation rounded to double
    precision, and every literal rounded to the nearest double.  Operations are performed in
    the order of the source; conversions from int are exact.  No contraction of a product and
    a sum into one operation.  [tab0] holds the exact values of the literals. *)

From Coq Require Import ZArith List Bool Lia Reals.
From Verif Require Import Base SpecModel FloatBase.
Import ListNotations.
Open Scope R_scope.

(** specfunc_scaled_mod_sph_bessel.c 135-156 *)
Definition fl_derivative (tab : arr R) (n lambda ix : Z) : res R :=
  if (n =? 0)%Z then aget tab [ix; lambda; 0]%Z
  else
    let* deriv :=
      if (lambda >? 0)%Z then
        let* l2 := fl (2 * IZR lambda) in
        let* den := fl (l2 + 1) in
        let* q := fl (IZR lambda / den) in
        let* t := aget tab [ix; lambda - 1; n - 1]%Z in
        let* p := fl (q * t) in
        fl (0 + p)
      else Ok 0 in
    let* l1 := fl (IZR lambda + 1) in
    let* l2 := fl (2 * IZR lambda) in
    let* den := fl (l2 + 1) in
    let* q := fl (l1 / den) in
    let* t1 := aget tab [ix; lambda + 1; n - 1]%Z in
    let* p := fl (q * t1) in
    let* deriv := fl (deriv + p) in
    let* t0 := aget tab [ix; lambda; n - 1]%Z in
    fl (deriv - t0).

(** specfunc_scaled_mod_sph_bessel.c 45-61 *)
Definition fl_pretabulate (tab0 tab : arr R) : res (arr R) :=
  for_range 0 1601 (fun i tab =>
    let* tab := for_range 0 60 (fun lam tab =>
      let* v := aget tab0 [i; lam] in
      let* v := fl v in
      aset tab [i; lam; 0]%Z v) tab in
    for_range 1 5 (fun k => for_range 0 55 (fun lam tab =>
      let* v := fl_derivative tab k lam i in
      aset tab [i; lam; k] v)) tab) tab.

(** specfunc_scaled_mod_sph_bessel.c 176-190 *)
Definition fl_asymptotic (n : Z) (x : R) : res R :=
  let* inv_x := fl (1 / x) in
  let* (sum, _) := for_range 0 (n + 1) (fun k '(sum, denom) =>
    let* c := aget rfun_coeffs [n; k] in
    let* c := fl c in
    let* p := fl (c * denom) in
    let* sum := fl (sum + p) in
    let* denom := fl (denom * inv_x) in
    Ok (sum, denom)) (0, 1) in
  Ok sum.

(** specfunc_scaled_mod_sph_bessel.c 67-122; the literal 1e-7 is a double *)
Definition fl_bessel_scaled (tab : arr R) (n : Z) (x : R) : res R :=
  let* small := fl (1 / 10 ^ 7) in
  if Rle_dec x small then
    if (n =? 0)%Z then fl (1 - x)
    else if (n =? 1)%Z then
      let* a := fl (1 - x) in let* a := fl (a * x) in let* third := fl (1 / 3) in fl (a * third)
    else if (n =? 2)%Z then
      let* a := fl (1 - x) in let* a := fl (a * x) in let* a := fl (a * x) in let* c := fl (1 / 15) in fl (a * c)
    else Ok 0
  else if Rle_dec x 16 then
    let* y := fl (x * 100) in
    let* e5 := fl (1 / 10 ^ 5) in
    let* z := fl (IZR (c_round y) + e5) in
    let i0 := c_trunc z in
    let* h := fl (1 / 100) in
    let* x0 := fl (IZR i0 * h) in
    let* dx := fl (x - x0) in
    let* d0 := aget tab [i0; n; 0]%Z in
    let* d1 := aget tab [i0; n; 1]%Z in
    let* d2 := aget tab [i0; n; 2]%Z in
    let* d3 := aget tab [i0; n; 3]%Z in
    let* d4 := aget tab [i0; n; 4]%Z in
    let* dx2 := fl (dx * dx) in
    let* dx3 := fl (dx2 * dx) in
    let* dx4 := fl (dx3 * dx) in
    let* t1 := fl (d1 * dx) in
    let* s := fl (d0 + t1) in
    let* t2 := fl (d2 * dx2) in
    let* t2 := fl (t2 * (1 / 2)) in
    let* s := fl (s + t2) in
    let* t3 := fl (d3 * dx3) in
    let* c3 := fl (1 / 6) in
    let* t3 := fl (t3 * c3) in
    let* s := fl (s + t3) in
    let* t4 := fl (d4 * dx4) in
    let* c4 := fl (1 / 24) in
    let* t4 := fl (t4 * c4) in
    fl (s + t4)
  else
    let* r := fl_asymptotic n (- x) in
    let* d := fl (2 * x) in
    fl (r / d).
