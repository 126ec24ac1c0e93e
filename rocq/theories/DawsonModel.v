(** * Model of libgrpp/specfunc_dawson.c (Dawson's integral).

    [long double] and [double] are exact reals; LDBL_EPSILON = 2^-63.  The
    decimal literals are the exact rationals they denote. *)

From Coq Require Import ZArith List Lia Bool Reals.
From Verif Require Import Base DawsonTable.
Import ListNotations.
Open Scope R_scope.

(** a decimal literal *)
Definition dec (c : Z * Z) : R := IZR (fst c) / IZR (10 ^ snd c).

(** specfunc_dawson.c 546-566.  [y] is assigned before it is read because the
    loop header copies it only after the body. *)
Definition chebyshev_series (x : R) (a : arr R) (degree : Z) : res R :=
  let two_x := x + x in
  if (degree <? 0)%Z then Ok 0
  else
    let* (yp1, yp2) :=
      for_down degree 1 (fun k '(yp1, yp2) =>
        let* ak := aget a [k] in
        let y := two_x * yp1 - yp2 + ak in
        Ok (y, yp1)) (0, 0) in
    let* a0 := aget a [0%Z] in
    Ok (x * yp1 - yp2 + a0).

(** the six functions of the same text, specfunc_dawson.c 185-207, 233-255,
    281-303, 329-351, 379-401, 427-449; [degree] is the number of initialisers
    minus one *)
Definition dawson_chebyshev (c : list (Z * Z)) (lower upper : R) (x : R) : res R :=
  let degree := (Z.of_nat (length c) - 1)%Z in
  let midpoint := (upper + lower) / 2 in
  let half_length := (upper - lower) / 2 in
  let* daw := chebyshev_series ((Rabs x - midpoint) / half_length) (aoflist (map dec c)) degree in
  Ok (if Rlt_dec 0 x then daw else - daw).

Definition ldbl_epsilon : R := / 2 ^ 63.

(** the do-while loop of specfunc_dawson.c 151-157; [NoFuel] if it does not end
    within [fuel] iterations *)
Fixpoint dawson_loop (fuel : nat) (two_x2 sum term factorial xn : R) (y : Z) : res R :=
  match fuel with
  | O => Fail NoFuel
  | S fuel' =>
      let sum := sum + term in
      let y := (y + 1)%Z in
      let factorial := factorial * IZR (y + y + 1) in
      let xn := xn * two_x2 in
      let term := xn / factorial in
      if Rlt_dec (ldbl_epsilon / 2 * Rabs sum) (Rabs term)
      then dawson_loop fuel' two_x2 sum term factorial xn y
      else Ok sum
  end.

(** specfunc_dawson.c 140-159 *)
Definition dawson_power_series (fuel : nat) (x : R) : res R :=
  let two_x2 := - 2 * x * x in
  if Req_EM_T x 0 then Ok 0
  else
    let* sum := dawson_loop fuel two_x2 0 1 1 1 0 in
    Ok (x * sum).

Definition asymptotic_cutoff : Z := 50.

(** specfunc_dawson.c 490-495: the loop with [break]; returns the array and
    [n] at exit *)
Fixpoint asym_loop (fuel : nat) (term : arr R) (two_x2 xn factorial : R) (n : Z) : res (arr R * Z) :=
  match fuel with
  | O => Fail NoFuel
  | S fuel' =>
      if (n <=? asymptotic_cutoff)%Z then
        let xn := xn * two_x2 in
        let factorial := factorial * IZR (n + n - 1) in
        let* term := aset term [n] (factorial / xn) in
        let* tn := aget term [n] in
        if Rlt_dec tn (ldbl_epsilon / 2) then Ok (term, n)
        else asym_loop fuel' term two_x2 xn factorial (n + 1)
      else Ok (term, n)
  end.

(** specfunc_dawson.c 477-500 *)
Definition dawson_asymptotic (x : R) : res R :=
  let term := aundef [(asymptotic_cutoff + 1)%Z] in
  let x2 := x * x in
  let two_x := x + x in
  let two_x2 := x2 + x2 in
  let xn := two_x2 in
  let* term := aset term [0%Z] 1 in
  let* term := aset term [1%Z] (1 / xn) in
  let* (term, n) := asym_loop 51 term two_x2 xn 1 2 in
  let n := if (asymptotic_cutoff <? n)%Z then asymptotic_cutoff else n in
  let* Sn := for_down n 0 (fun n Sn => let* t := aget term [n] in Ok (Sn + t)) 0 in
  Ok (Sn / two_x).

(** specfunc_dawson.c 101-113 (and 73-77, the double version calls it).
    [fuel] bounds the power series loop. *)
Definition dawsons_integral (fuel : nat) (x : R) : res R :=
  let abs_x := Rabs x in
  if Rle_dec abs_x 1 then dawson_power_series fuel x
  else if Rle_dec abs_x 1.75 then dawson_chebyshev daw_1_175 1 1.75 x
  else if Rle_dec abs_x 2.5 then dawson_chebyshev daw_175_250 1.75 2.5 x
  else if Rle_dec abs_x 3.25 then dawson_chebyshev daw_250_325 2.5 3.25 x
  else if Rle_dec abs_x 4.25 then dawson_chebyshev daw_325_425 3.25 4.25 x
  else if Rle_dec abs_x 5.5 then dawson_chebyshev daw_425_550 4.25 5.5 x
  else if Rle_dec abs_x 7.25 then dawson_chebyshev daw_550_725 5.5 7.25 x
  else dawson_asymptotic x.
