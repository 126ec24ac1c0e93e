(** * Specification of the special functions by their integrals *)

From Coq Require Import Reals Factorial.
From Coquelicot Require Import Coquelicot.
Open Scope R_scope.

(** the Boys function F_n(x) *)
Definition boys (n : nat) (x : R) : R := RInt (fun t => t ^ (2 * n) * exp (- x * t ^ 2)) 0 1.

(** the G function of the 1/r^2 integrals *)
Definition gfun (n : nat) (x : R) : R := RInt (fun t => t ^ (2 * n) * exp (- x * (1 - t ^ 2))) 0 1.

(** the modified spherical Bessel function of the first kind, times exp(-x) *)
Definition bessK (n : nat) (x : R) : R :=
  x ^ n / (2 ^ (n + 1) * INR (fact n)) * RInt (fun t => (1 - t ^ 2) ^ n * exp (x * (t - 1))) (-1) 1.

(** the finite sum R_n(y) of the asymptotic formula *)
Definition rfun (n : nat) (y : R) : R := sum_f_R0 (fun k => INR (fact (n + k)) / (INR (fact k) * INR (fact (n - k)) * 2 ^ k) / y ^ k) n.
