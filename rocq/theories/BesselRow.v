(** * Rows of decimal literals *)

From Coq Require Import ZArith.

(** a row of literals, each with its digits m and its exponent: m 10^(-e) *)
Inductive brow : Set := bnil | bcons (m e : Z) (r : brow).

Fixpoint blen (r : brow) : nat := match r with bnil => O | bcons _ _ r => S (blen r) end.
Fixpoint bnth (r : brow) (l : nat) : Z * Z :=
  match r, l with bnil, _ => (0, 0)%Z | bcons m e _, O => (m, e) | bcons _ _ r, S l => bnth r l end.
