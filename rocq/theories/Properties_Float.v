(** * C79: the Bessel functions in double precision

    [fl_pretabulate] and [fl_bessel_scaled] are the routine which fills the table of Bessel
    functions and the routine which evaluates a function, with every floating point
    operation and every literal rounded to double precision (FloatBessel.v); an operation
    whose result does not fit into a double is a fault.  [bessK l x] is exp(-x) times the
    modified spherical Bessel function of the first kind, defined by its integral
    (SpecSpec.v). *)

From Coq Require Import ZArith List Lia Bool Reals Lra.
From Coquelicot Require Import Coquelicot.
From Verif Require Import Base SpecModel SpecSpec BesselData FloatBase FloatBessel FloatBesselAsym.
Import ListNotations.
Open Scope R_scope.

(** C79: the table is filled without overflow, and the values computed in double precision are
    accurate to 1e-12 for arguments up to 16 and orders up to 51, and to 1e-10 for
    arguments up to 1e99 and orders up to 20. *)
Theorem C79_double_precision : exists tab, fl_pretabulate bessel_table_0 bessel_table_init = Ok tab /\
  (forall n x, (0 <= n <= 51)%Z -> 0 <= x <= 16 -> exists v, fl_bessel_scaled tab n x = Ok v /\ Rabs (v - bessK (Z.to_nat n) x) <= 1 / 10 ^ 12) /\
  (forall n x, (0 <= n <= 20)%Z -> 0 <= x <= 10 ^ 99 -> exists v, fl_bessel_scaled tab n x = Ok v /\ Rabs (v - bessK (Z.to_nat n) x) <= 1 / 10 ^ 10).
Proof. exact fl_bessel_thm. Qed.
Print Assumptions C79_double_precision.

Example C79_case : exists tab v, fl_pretabulate bessel_table_0 bessel_table_init = Ok tab /\ fl_bessel_scaled tab 3 (7 / 3) = Ok v /\ Rabs (v - bessK 3 (7 / 3)) <= 1 / 10 ^ 12.
Proof.
  destruct fl_bessel_thm as (tab & E & A & _). destruct (A 3%Z (7 / 3) ltac:(lia) ltac:(lra)) as (v & Ev & Hv). exists tab, v. split; [exact E|]. split; [exact Ev|exact Hv].
Qed.

(** arithmetic does round: one third is not a double *)
Example C79_rounding : exists v, fl (1 / 3) = Ok v /\ v <> 1 / 3.
Proof. exact fl_third. Qed.
