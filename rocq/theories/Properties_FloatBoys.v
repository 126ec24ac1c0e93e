(** * C94: the Boys function in double precision

    [fl_boys_function], [fl_boys_values]: the routines with every floating point operation and
    every literal rounded to double precision (FloatBoysModel.v), an operation whose result does
    not fit into a double being a fault; [libm_pow]: pow of the C library is accurate to one unit
    in the last place.  [boys n x]: the integral of t^(2n) exp(-x t^2) from 0 to 1 (SpecSpec.v). *)

From Coq Require Import ZArith List Lia Bool Reals Lra.
From Verif Require Import Base SpecSpec FloatBase FloatOneEl FloatOneElThms FloatBoysModel FloatBoys.
Import ListNotations.
Open Scope R_scope.

(** C94: computed in double precision the Boys function is accurate to 2e-14 for orders up to 33 on [0,30] and up to 15 beyond,
for arguments up to 1e9. *)
Theorem C94_double_precision : forall lpow n x,
  libm_pow lpow -> (0 <= n <= 33)%Z -> 0 <= x <= 10 ^ 9 -> x <= 30 \/ (n <= 15)%Z -> exists v, fl_boys_function lpow n x = Ok v /\ Rabs (v - boys (Z.to_nat n) x) <= 2 / 10 ^ 14.
Proof. exact fl_boys_thm. Qed.
Print Assumptions C94_double_precision.

(** C94: the same for all orders at once; nothing else of the array is written. *)
Theorem C94_values : forall lpow x nmax sz b,
  libm_pow lpow -> (0 <= nmax <= 33)%Z -> 0 <= x <= 10 ^ 9 -> x <= 30 \/ (nmax <= 15)%Z -> adims b = [sz] -> (nmax < sz)%Z ->
  exists b', fl_boys_values lpow x nmax b = Ok b' /\ adims b' = [sz] /\
    (forall n, (0 <= n <= nmax)%Z -> exists v, aget b' [n] = Ok v /\ Rabs (v - boys (Z.to_nat n) x) <= 2 / 10 ^ 14) /\
    (forall n, (nmax < n)%Z -> aget b' [n] = aget b [n]).
Proof. exact fl_boys_values_thm. Qed.
Print Assumptions C94_values.

(** order 3 at 7/3 and order 15 at 1000, with a library that rounds correctly *)
Example C94_case : libm_pow cr_pow /\
  (exists v, fl_boys_function cr_pow 3 (7 / 3) = Ok v /\ Rabs (v - boys 3 (7 / 3)) <= 2 / 10 ^ 14) /\
  (exists v, fl_boys_function cr_pow 15 1000 = Ok v /\ Rabs (v - boys 15 1000) <= 2 / 10 ^ 14).
Proof.
  split; [exact cr_pow_ok|]. split.
  - exact (fl_boys_thm cr_pow 3 (7 / 3) cr_pow_ok ltac:(lia) ltac:(lra) ltac:(left; lra)).
  - exact (fl_boys_thm cr_pow 15 1000 cr_pow_ok ltac:(lia) ltac:(lra) ltac:(right; lia)).
Qed.
