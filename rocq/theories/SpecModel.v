(** * Model of the special functions: Boys function (libgrpp/specfunc_boys.c),
    G function (libgrpp/specfunc_gfun.c), scaled modified spherical Bessel
    functions (libgrpp/specfunc_scaled_mod_sph_bessel.c)

    Doubles are exact reals, decimal literals the rationals they denote, pow, exp
    and sqrt the exact functions.  The Boys table and the table of the asymptotic
    Bessel coefficients are the literal tables; the table bessel_table_0 of
    libgrpp/specfunc_bessel_table.c is an argument. *)

From Coq Require Import ZArith List Lia Bool Reals.
From Verif Require Import Base BinomModel OneElModel DawsonModel BoysTable RfunTable.
Import ListNotations.
Open Scope R_scope.

(** round() to the nearest integer, halves away from zero *)
Definition c_round (x : R) : Z := if Rle_dec 0 x then Int_part (x + 1 / 2) else (- Int_part (- x + 1 / 2))%Z.
(** conversion to int: towards zero *)
Definition c_trunc (x : R) : Z := if Rle_dec 0 x then Int_part x else (- Int_part (- x))%Z.

(** a two-dimensional constant table *)
Definition table2 {T} (n m : Z) (rows : list (list T)) (val : T -> R) (d : T) : arr R :=
  mkArr [n; m] (fun ix => match ix with [i; j] => Some (val (nth (Z.to_nat j) (nth (Z.to_nat i) rows []) d)) | _ => None end).

(** specfunc_boys.c 60- *)
Definition boys_table : arr R := table2 301 40 boys_rows (fun m => IZR m / 10 ^ 31) 0%Z.

(** specfunc_boys.c 21-46 *)
Definition boys_function (n : Z) (x : R) : res R :=
  if Rle_dec x 30 then
    let step := 1 / 10 in
    let idx := c_trunc (IZR (c_round (x / step)) + 1 / 10 ^ 6) in
    let x0 := IZR idx * step in
    let dx := x - x0 in
    let dx2 := dx * dx in
    let dx3 := dx * dx2 in
    let dx4 := dx * dx3 in
    let dx5 := dx * dx4 in
    let dx6 := dx * dx5 in
    let* b0 := aget boys_table [idx; n] in
    let* b1 := aget boys_table [idx; n + 1]%Z in
    let* b2 := aget boys_table [idx; n + 2]%Z in
    let* b3 := aget boys_table [idx; n + 3]%Z in
    let* b4 := aget boys_table [idx; n + 4]%Z in
    let* b5 := aget boys_table [idx; n + 5]%Z in
    let* b6 := aget boys_table [idx; n + 6]%Z in
    Ok (b0 - b1 * dx + b2 * dx2 / 2 - b3 * dx3 / 6 + b4 * dx4 / 24 - b5 * dx5 / 120 + b6 * dx6 / 720)
  else
    let* d := double_factorial (2 * n - 1) in
    Ok (IZR d / powerRZ 2 (n + 1) * sqrt (PI / powerRZ x (2 * n + 1))).

(** specfunc_boys.c 50-57 *)
Definition boys_values (x : R) (nmax : Z) (b : arr R) : res (arr R) :=
  let* b := memset0 (nmax + 1) b in
  for_range 0 (nmax + 1) (fun n b => let* v := boys_function n x in aset b [n] v) b.

(** the loop 77-90 of specfunc_gfun.c from index [k] on, [fuel] rounds left *)
Fixpoint gfun_loop (fuel : nat) (n : Z) (x : R) (k : Z) (sum : R) : res R :=
  match fuel with
  | O => Ok sum
  | S fuel' =>
      let y_exp := exp (- x) in
      let y_pow := powerRZ x k in
      let* f := factorial k in
      let y_fac := IZR f in
      let y_nk1 := 2 * IZR n + 2 * IZR k + 1 in
      let contrib := y_exp * y_pow / y_fac / y_nk1 in
      let sum := sum + contrib in
      if Rlt_dec (Rabs contrib) (1 / 10 ^ 15) then Ok sum
      else gfun_loop fuel' n x (k + 1) sum
  end.

(** specfunc_gfun.c 72-93 *)
Definition gfun_taylor (n : Z) (x : R) : res R := gfun_loop 100 n x 0 0.

(** specfunc_gfun.c 40-65; [daw] is Dawsons_Integral *)
Definition gfun_values (daw : R -> res R) (x : R) (nmax : Z) (g : arr R) : res (arr R) :=
  let* g := memset0 (nmax + 1) g in
  if Rle_dec x 12 then
    let* t := gfun_taylor nmax x in
    let* g := aset g [nmax] t in
    for_down nmax 1 (fun n g =>
      let* gn := aget g [n] in
      aset g [n - 1]%Z ((1 - 2 * x * gn) / (2 * IZR n - 1))) g
  else
    let sqrt_x := sqrt x in
    let* d := daw sqrt_x in
    let* g := aset g [0]%Z (d / sqrt_x) in
    for_range 0 nmax (fun n g =>
      let* gn := aget g [n] in
      aset g [n + 1]%Z ((1 - IZR (2 * n + 1) * gn) / (2 * x))) g.

(** the static array bessel_table[2000][60][10] before pretabulate_bessel (35) *)
Definition bessel_table_init : arr R := aconst [2000; 60; 10]%Z 0.

(** specfunc_scaled_mod_sph_bessel.c 135-156 *)
Definition bessel_derivative (tab : arr R) (n lambda ix : Z) : res R :=
  if (n =? 0)%Z then aget tab [ix; lambda; 0]%Z
  else
    let* deriv :=
      if (lambda >? 0)%Z then
        let* t := aget tab [ix; lambda - 1; n - 1]%Z in
        Ok (IZR lambda / (2 * IZR lambda + 1) * t)
      else Ok 0 in
    let* t1 := aget tab [ix; lambda + 1; n - 1]%Z in
    let* t0 := aget tab [ix; lambda; n - 1]%Z in
    Ok (deriv + (IZR lambda + 1) / (2 * IZR lambda + 1) * t1 - t0).

(** specfunc_scaled_mod_sph_bessel.c 45-61; [tab0] is bessel_table_0 [1601][60] *)
Definition pretabulate_bessel (tab0 tab : arr R) : res (arr R) :=
  for_range 0 1601 (fun i tab =>
    let* tab := for_range 0 60 (fun lam tab =>
      let* v := aget tab0 [i; lam] in
      aset tab [i; lam; 0]%Z v) tab in
    for_range 1 5 (fun k => for_range 0 55 (fun lam tab =>
      let* v := bessel_derivative tab k lam i in
      aset tab [i; lam; k] v)) tab) tab.

(** specfunc_scaled_mod_sph_bessel.c 197-; (m, e) is m 10^e *)
Definition rfun_coeffs : arr R := table2 50 50 rfun_rows (fun '(m, e) => IZR m * powerRZ 10 e) (0, 0)%Z.

(** specfunc_scaled_mod_sph_bessel.c 176-190 *)
Definition bessel_asymptotic (n : Z) (x : R) : res R :=
  let inv_x := 1 / x in
  let* (sum, _) := for_range 0 (n + 1) (fun k '(sum, denom) =>
    let* c := aget rfun_coeffs [n; k] in
    Ok (sum + c * denom, denom * inv_x)) (0, 1) in
  Ok sum.

(** specfunc_scaled_mod_sph_bessel.c 67-122; [tab] is bessel_table *)
Definition modified_bessel_scaled (tab : arr R) (n : Z) (x : R) : res R :=
  if Rle_dec x (1 / 10 ^ 7) then
    Ok (if (n =? 0)%Z then 1 - x
        else if (n =? 1)%Z then (1 - x) * x * (1 / 3)
        else if (n =? 2)%Z then (1 - x) * x * x * (1 / 15)
        else 0)
  else if Rle_dec x 16 then
    let i0 := c_trunc (IZR (c_round (x * 100)) + 1 / 10 ^ 5) in
    let x0 := IZR i0 * (1 / 100) in
    let dx := x - x0 in
    let* d0 := aget tab [i0; n; 0]%Z in
    let* d1 := aget tab [i0; n; 1]%Z in
    let* d2 := aget tab [i0; n; 2]%Z in
    let* d3 := aget tab [i0; n; 3]%Z in
    let* d4 := aget tab [i0; n; 4]%Z in
    let dx2 := dx * dx in
    let dx3 := dx2 * dx in
    let dx4 := dx3 * dx in
    Ok (d0 + d1 * dx + d2 * dx2 * (1 / 2) + d3 * dx3 * (1 / 6) + d4 * dx4 * (1 / 24))
  else
    let* r := bessel_asymptotic n (- x) in
    Ok (r / (2 * x)).
