(** * The Boys function in double precision (specfunc_boys.c)

    The routines of SpecModel.v with every floating point operation rounded to double
    precision, in the order of the source, and every literal rounded to the nearest double;
    conversions from int are exact; no contraction of a product and a sum into one operation.
    [fl PI] stands for M_PI, sqrt is correctly rounded, [lpow] is pow of the C library. *)

From Coq Require Import ZArith List Bool Lia Reals.
From Verif Require Import Base BinomModel OneElModel SpecModel FloatBase.
Import ListNotations.
Open Scope R_scope.

(** specfunc_boys.c 28-40: the powers of dx and the seven terms *)
Definition fl_boys_poly (b0 b1 b2 b3 b4 b5 b6 dx : R) : res R :=
  let* dx2 := fl (dx * dx) in
  let* dx3 := fl (dx * dx2) in
  let* dx4 := fl (dx * dx3) in
  let* dx5 := fl (dx * dx4) in
  let* dx6 := fl (dx * dx5) in
  let* t := fl (b1 * dx) in
  let* s := fl (b0 - t) in
  let* t := fl (b2 * dx2) in
  let* t := fl (t / 2) in
  let* s := fl (s + t) in
  let* t := fl (b3 * dx3) in
  let* t := fl (t / 6) in
  let* s := fl (s - t) in
  let* t := fl (b4 * dx4) in
  let* t := fl (t / 24) in
  let* s := fl (s + t) in
  let* t := fl (b5 * dx5) in
  let* t := fl (t / 120) in
  let* s := fl (s - t) in
  let* t := fl (b6 * dx6) in
  let* t := fl (t / 720) in
  fl (s + t).

(** an entry of the table, as the compiler stores it *)
Definition fl_boys_entry (idx n : Z) : res R := let* b := aget boys_table [idx; n] in fl b.

Section Libm.
Variable lpow : R -> R -> res R.

(** specfunc_boys.c 21-46; factorial.c 105-116 for the double factorial, a 64-bit integer
    converted to double *)
Definition fl_boys_function (n : Z) (x : R) : res R :=
  if Rle_dec x 30 then
    let* step := fl (1 / 10) in
    let* y := fl (x / step) in
    let* e6 := fl (1 / 10 ^ 6) in
    let* z := fl (IZR (c_round y) + e6) in
    let idx := c_trunc z in
    let* x0 := fl (IZR idx * step) in
    let* dx := fl (x - x0) in
    let* b0 := fl_boys_entry idx n in
    let* b1 := fl_boys_entry idx (n + 1) in
    let* b2 := fl_boys_entry idx (n + 2) in
    let* b3 := fl_boys_entry idx (n + 3) in
    let* b4 := fl_boys_entry idx (n + 4) in
    let* b5 := fl_boys_entry idx (n + 5) in
    let* b6 := fl_boys_entry idx (n + 6) in
    fl_boys_poly b0 b1 b2 b3 b4 b5 b6 dx
  else
    let* d := double_factorial (2 * n - 1) in
    let* d := fl (IZR d) in
    let* p2 := lpow 2 (IZR (n + 1)) in
    let* c := fl (d / p2) in
    let* mpi := fl PI in
    let* px := lpow x (IZR (2 * n + 1)) in
    let* q := fl (mpi / px) in
    let* sq := fl (sqrt q) in
    fl (c * sq).

(** specfunc_boys.c 50-57 *)
Definition fl_boys_values (x : R) (nmax : Z) (b : arr R) : res (arr R) :=
  let* b := memset0 (nmax + 1) b in
  for_range 0 (nmax + 1) (fun n b => let* v := fl_boys_function n x in aset b [n] v) b.

End Libm.
