(** * C74, C75: the tabulated Bessel functions

    [bessK l x] is exp(-x) times the modified spherical Bessel function of the
    first kind and of order l, defined by its integral (SpecSpec.v);
    [bessel_table_0] the table of 1601 x 60 literals, [pretabulate_bessel] the
    routine which fills the working table at start and [modified_bessel_scaled]
    the routine which evaluates a function. *)

From Coq Require Import ZArith List Lia Bool Reals Lra.
From Coquelicot Require Import Coquelicot.
From Verif Require Import Base SpecModel SpecSpec BesselData BesselTabThm BesselUse.
Import ListNotations.
Open Scope R_scope.

(** C74: every one of the 96060 tabulated numbers is the value of the function to 2e-14. *)
Theorem C74_table : forall i l, (0 <= i < 1601)%Z -> (0 <= l < 60)%Z ->
  exists v, aget bessel_table_0 [i; l] = Ok v /\ Rabs (v - bessK (Z.to_nat l) (IZR i / 100)) <= 2 / 10 ^ 14.
Proof. exact bessel_table_thm. Qed.
Print Assumptions C74_table.

(** C74: so the routine of the library, with its own table, is accurate to 1.03e-12 for
    arguments up to 16 and orders up to 51, and to 5.01e-11 for every argument and
    orders up to 20. *)
Theorem C74_routine : exists tab, pretabulate_bessel bessel_table_0 bessel_table_init = Ok tab /\
  (forall n x, (0 <= n <= 51)%Z -> 0 <= x <= 16 -> exists v, modified_bessel_scaled tab n x = Ok v /\ Rabs (v - bessK (Z.to_nat n) x) <= 103 / 10 ^ 14) /\
  (forall n x, (0 <= n <= 20)%Z -> 0 <= x -> exists v, modified_bessel_scaled tab n x = Ok v /\ Rabs (v - bessK (Z.to_nat n) x) <= 501 / 10 ^ 13).
Proof. exact bessel_own_thm. Qed.
Print Assumptions C74_routine.

(** C75: an entry printed with 17 digits of which fewer than 12 are those of the function. *)
Theorem C75_digits_refuted : exists v, aget bessel_table_0 [28; 2]%Z = Ok v /\ 0 < bessK 2 (28 / 100) /\ 1 / 10 ^ 12 * bessK 2 (28 / 100) < Rabs (v - bessK 2 (28 / 100)).
Proof. exact bessel_digits_thm. Qed.
Print Assumptions C75_digits_refuted.

Example C74_case : exists v, aget bessel_table_0 [1600; 59]%Z = Ok v /\ Rabs (v - bessK 59 16) <= 2 / 10 ^ 14.
Proof.
  destruct (bessel_table_thm 1600 59 ltac:(lia) ltac:(lia)) as (v & E & B). exists v. split; [exact E|].
  replace (IZR 1600 / 100) with 16 in B by field. exact B.
Qed.
