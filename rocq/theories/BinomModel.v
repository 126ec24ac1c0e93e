(** * Model of binomial.c and factorial.c

    [uint64_t] values are integers in [0, 2^64); every arithmetic result is
    reduced modulo 2^64 ([u64]).  [double] results of factorial.c are exact
    integers / rationals here (see RealFact in later files for the embedding in
    the reals). *)

From Coq Require Import ZArith List Lia Bool.
From Verif Require Import Base.
Import ListNotations.
Open Scope Z_scope.

Definition u64_modulus : Z := 2 ^ 64.
Definition uint64_max : Z := u64_modulus - 1.
(** reduction of an arithmetic result to uint64_t *)
Definition u64 (x : Z) : Z := x mod u64_modulus.

Definition udiv (x y : Z) : res Z := if y =? 0 then Fail DivByZero else Ok (x / y).
Definition umod (x y : Z) : res Z := if y =? 0 then Fail DivByZero else Ok (x mod y).

(** binomial.c 71-75: [while (y > 0) { t = y; y = x % y; x = t; }] *)
Fixpoint gcd_loop (fuel : nat) (x y : Z) : res Z :=
  match fuel with
  | O => Fail NoFuel
  | S fuel' =>
      if y >? 0 then
        let t := y in
        let* y' := umod x y in
        gcd_loop fuel' t y'
      else Ok x
  end.

(** binomial.c 62-77.  130 iterations suffice for 64-bit operands (proved). *)
Definition gcd_ui (x y : Z) : res Z :=
  if y <? x then gcd_loop 131 y x else gcd_loop 131 x y.

(** binomial.c 40-58, one loop iteration per [fuel]; [k - d + 1] iterations
    remain.  Returns early with 0 in the overflow case (line 49). *)
Fixpoint binomial_loop (fuel : nat) (d n r : Z) : res Z :=
  match fuel with
  | O => Ok r
  | S fuel' =>
      let* q := udiv uint64_max n in
      if r >=? q then
        let* g := gcd_ui n d in
        let* nr := udiv n g in
        let* dr := udiv d g in
        let* g2 := gcd_ui r dr in
        let* r1 := udiv r g2 in
        let* dr1 := udiv dr g2 in
        let* q2 := udiv uint64_max nr in
        if r1 >=? q2 then Ok 0
        else
          let r2 := u64 (r1 * nr) in
          let* r3 := udiv r2 dr1 in
          binomial_loop fuel' (u64 (d + 1)) (u64 (n - 1)) r3
      else
        let r2 := u64 (r * n) in
        let* r3 := udiv r2 d in
        binomial_loop fuel' (u64 (d + 1)) (u64 (n - 1)) r3
  end.

(** binomial.c 24-59 *)
Definition binomial (n k : Z) : res Z :=
  if k =? 0 then Ok 1
  else if k =? 1 then Ok n
  else if k >=? n then Ok (if k =? n then 1 else 0)
  else
    let k' := if k >? n / 2 then u64 (n - k) else k in
    binomial_loop (Z.to_nat k') 1 n 1.

(** factorial.c 13-35 *)
Definition pretabulated_factorials : list Z :=
  [1; 1; 2; 6; 24; 120; 720; 5040; 40320; 362880; 3628800; 39916800;
   479001600; 6227020800; 87178291200; 1307674368000; 20922789888000;
   355687428096000; 6402373705728000; 121645100408832000;
   2432902008176640000].

(** factorial.c 37-47; recursion on n, structural through [fuel]:
    [fuel] bounds the recursion depth n - 20. *)
Fixpoint factorial_rec (fuel : nat) (n : Z) : res Z :=
  if n <? 0 then Ok 1
  else if n <=? 20 then aget (aoflist pretabulated_factorials) [n]
  else match fuel with
       | O => Fail NoFuel
       | S fuel' => let* f := factorial_rec fuel' (n - 1) in Ok (n * f)
       end.

Definition factorial (n : Z) : res Z := factorial_rec (Z.to_nat (n - 20)) n.

(** factorial.c 55-69 as an exact fraction (numerator, denominator); the C code
    returns prod or 1.0 / prod. *)
Definition factorial_ratio_prod (n m : Z) : res Z :=
  for_range (m + 1) (n + 1) (fun i prod => Ok (prod * i)) 1.

Definition factorial_ratio (n m : Z) : res (Z * Z) :=
  if n =? m then Ok (1, 1)
  else if n <? m then let* p := factorial_ratio_prod m n in Ok (1, p)
  else let* p := factorial_ratio_prod n m in Ok (p, 1).

(** factorial.c 71-103 *)
Definition pretabulated_double_factorials : list Z :=
  [1; 1; 2; 3; 8; 15; 48; 105; 384; 945; 3840; 10395; 46080; 135135; 645120;
   2027025; 10321920; 34459425; 185794560; 654729075; 3715891200; 13749310575;
   81749606400; 316234143225; 1961990553600; 7905853580625; 51011754393600;
   213458046676875; 1428329123020800; 6190283353629375; 42849873690624000].

(** factorial.c 105-115 (the recursive branch is unreachable behind the assert
    and is therefore not transcribed) *)
Definition double_factorial (n : Z) : res Z :=
  let* _ := massert ((n >=? -1) && (n <=? 30)) in
  if n =? -1 then Ok 1
  else aget (aoflist pretabulated_double_factorials) [n].
