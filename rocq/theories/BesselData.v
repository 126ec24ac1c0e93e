(** * The table of Bessel functions (libgrpp/specfunc_bessel_table.c) *)

From Coq Require Import ZArith List Reals.
From Verif Require Import Base BesselRow BesselRows1 BesselRows2 BesselRows3 BesselRows4.
Import ListNotations.
Open Scope R_scope.

Definition bessel_rows : list brow := bessel_rows_1 ++ bessel_rows_2 ++ bessel_rows_3 ++ bessel_rows_4.

(** the value of a literal *)
Definition lit (p : Z * Z) : R := IZR (fst p) / 10 ^ Z.to_nat (snd p).

(** the number tabulated for the order l at x = i/100 *)
Definition bessel_entry (i : Z) (l : nat) : R := lit (bnth (nth (Z.to_nat i) bessel_rows bnil) l).

(** bessel_table_0, specfunc_bessel_table.c 27-28846 *)
Definition bessel_table_0 : arr R :=
  mkArr [1601; 60]%Z (fun ix => match ix with [i; l] => Some (bessel_entry i (Z.to_nat l)) | _ => None end).
