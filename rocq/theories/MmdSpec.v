(** * Specification of the local integrals

    Hermite Gaussians, and integrals over space of F(r) r_C^(-1) and F(r) r_C^(-2)
    written as superpositions of Gaussians. *)

From Coq Require Import ZArith List Lia Bool Reals Lra.
From Coquelicot Require Import Coquelicot.
From Verif Require Import GaussInt GaussProd NucPotSpec.
Open Scope R_scope.

(** the t-th derivative with respect to the centre of exp(-q (x-Q)^2) *)
Definition hermite_gaussian (q Q : R) (t : nat) (x : R) : R := Derive_n (fun Y => exp (- (q * (x - Y) ^ 2))) t Q.

(** squared distance to C *)
Definition rho2 (C : R * R * R) (x y z : R) : R := let '(cx, cy, cz) := C in (x - cx) ^ 2 + (y - cy) ^ 2 + (z - cz) ^ 2.

(** The integral over space of k(r_C) F, for a kernel k that is a superposition of
    Gaussians, k(r) = int_0^oo w(u) exp(-u^2 r^2) du: the integral over u of w(u) times
    the integral over space of F exp(-u^2 r_C^2) *)
Definition kernel_int (w : R -> R) (C : R * R * R) (F : R -> R -> R -> R) (v : R) : Prop :=
  exists I : R -> R, (forall u, 0 < u -> is_int3 (fun x y z => F x y z * exp (- (u ^ 2 * rho2 C x y z))) (I u)) /\
    half_int (fun u => w u * I u) v.

(** the weights of 1/r and of 1/r^2 (see the lemmas one_over_r, one_over_r2) *)
Definition w1 (u : R) : R := 2 / sqrt PI.
Definition w2 (u : R) : R := 2 * u.

(** the integral of F r_C^(n-2) *)
Definition local_int (n : Z) (C : R * R * R) (F : R -> R -> R -> R) (v : R) : Prop :=
  (n = 2%Z /\ is_int3 F v) \/ (n = 1%Z /\ kernel_int w1 C F v) \/ (n = 0%Z /\ kernel_int w2 C F v).
