(** * Model of the tabulated function S_k(x) (libgrpp/specfunc_fermi_sk.c)

    Doubles are exact reals, int is Z. *)

From Coq Require Import ZArith List Lia Bool Reals.
From Verif Require Import Base SpecModel FermiTable.
Import ListNotations.
Open Scope R_scope.

(** specfunc_fermi_sk.c 129-12158 *)
Definition fermi_table : arr R := table2 2001 10 fermi_rows (fun m => IZR m / 10 ^ 21) 0%Z.

(** specfunc_fermi_sk.c 42-90; [Int_part] is floor; pow(2, k) with k >= 2 *)
Definition specfunc_fermi_sk (k : Z) (x : R) : res R :=
  let* _ := massert ((2 <=? k)%Z && (k <=? 7)%Z) in
  if Rle_dec x (-30) then
    let d1 := -1 * exp x in
    Ok d1
  else if Rle_dec x (-14) then
    let d1 := -1 * exp x in
    let d2 := 1 * exp (2 * x) / pow 2 (Z.to_nat k) in
    Ok (d1 + d2)
  else if Rle_dec x (-10) then
    let d1 := -1 * exp x in
    let d2 := 1 * exp (2 * x) / pow 2 (Z.to_nat k) in
    let d3 := -1 * exp (3 * x) / pow 3 (Z.to_nat k) in
    Ok (d1 + d2 + d3)
  else
    let i0 := c_trunc (IZR (Int_part ((x + 10) * 200)) + 1 / 10 ^ 10) in
    let x0 := -10 + IZR i0 * (5 / 1000) in
    let dx := x - x0 in
    if (i0 =? 2000)%Z then aget fermi_table [i0; k + 2]%Z
    else
      let* d0 := aget fermi_table [i0; k + 2]%Z in
      let* d1 := aget fermi_table [i0; k + 1]%Z in
      let* d2 := aget fermi_table [i0; k + 0]%Z in
      let* d3 := aget fermi_table [i0; k - 1]%Z in
      let dx2 := dx * dx in
      let dx3 := dx2 * dx in
      Ok (d0 + d1 * dx + d2 * dx2 * (1 / 2) + d3 * dx3 * (1 / 6)).

(** the number returned by a successful call, as used in the formulas of nuclear_models.c;
    0 stands for calls that abort *)
Definition tabulated_sk (k : Z) (x : R) : R := match specfunc_fermi_sk k x with Ok v => v | Fail _ => 0 end.

(** specfunc_fermi_sk.c 106-116: the loop; [i] is the loop variable, [fuel] the number
    of iterations left; returns the flag "converged" and the sum *)
Fixpoint fermi_sum (fuel : nat) (k i : Z) (x prev_sum sum : R) : bool * R :=
  match fuel with
  | O => (false, sum)
  | S f =>
      let d := powerRZ (-1) i * exp (IZR i * x) / powerRZ (IZR i) k in
      let sum1 := sum + d in
      if Rlt_dec (Rabs (sum1 - prev_sum)) (1 / 10 ^ 12) then (true, sum1)
      else fermi_sum f k (i + 1) x sum1 sum1
  end.

(** specfunc_fermi_sk.c 98-126; the message printed without convergence is not modelled *)
Definition fermi_model_Sk (k : Z) (x : R) : bool * R := fermi_sum (Z.to_nat (10000000 - 1)) k 1 x 0 0.
