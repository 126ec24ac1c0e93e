(** * C09: destructors called with the null pointer *)

From Coq Require Import ZArith List Lia Bool Reals.
From Verif Require Import Base HeapModel.
Open Scope Z_scope.

(** potential.c 52-55 and grpp.c 64-68 test for NULL, shell.c 107-113 does not *)
Lemma delete_null h : delete_potential h 0 = Ok h /\ delete_grpp h 0 = Ok h /\ delete_shell h 0 = Fail NullDeref.
Proof. split; [reflexivity|]. split; reflexivity. Qed.
