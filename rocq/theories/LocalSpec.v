(** * Integrals of a radially local potential: specification *)

From Coq Require Import ZArith Reals List.
From Coquelicot Require Import Coquelicot.
From Verif Require Import OneElProofs OneElSpec NucPotSpec SphSpec SpecSpec RadialSpec Type2Spec.
Import ListNotations.
Open Scope R_scope.

(** [s r] is the integral of f over the directions of the sphere of radius r around C *)
Definition angular_part (C : R * R * R) (f : R -> R -> R -> R) (s : R -> R) : Prop :=
  let '(cx, cy, cz) := C in
  forall r, 0 < r -> sphere_int (fun x y z => f (cx + r * x) (cy + r * y) (cz + r * z)) (s r).

(** the integral over space of f(x) U(|x-C|) g(x), in spherical coordinates around C *)
Definition local_integral (U : R -> R) (C : R * R * R) (f g : R -> R -> R -> R) (v : R) : Prop :=
  exists s : R -> R, angular_part C (fun x y z => f x y z * g x y z) s /\ half_int (fun r => r ^ 2 * U r * s r) v.

(** a (C-A) + b (C-B) for two primitives with exponents a, b at A, B *)
Definition pair_vector (a b : R) (A B C : R * R * R) : R * R * R :=
  let '(ax, ay, az) := A in let '(bx, by_, bz) := B in let '(cx, cy, cz) := C in
  (a * (cx - ax) + b * (cx - bx), a * (cy - ay) + b * (cy - by_), a * (cz - az) + b * (cz - bz)).

Definition pair_k (a b : R) (A B C : R * R * R) : R := 2 * separation (0, 0, 0) (pair_vector a b A B C).

(** the radial factor of the product of two s functions with norms NA, NB on the
    sphere of radius r around C; the Bessel function is left out *)
Definition pair_gauss (NA NB a b : R) (A B C : R * R * R) (r : R) : R :=
  4 * PI * NA * NB * exp (pair_k a b A B C * r - (a + b) * r ^ 2 - a * separation A C ^ 2 - b * separation B C ^ 2).

(** the radial integral of r^(n+2) U K_l(k r) times this factor *)
Definition pair_radial (U : R -> R) (NA NB a b : R) (A B C : R * R * R) (l n : nat) (q : R) : Prop :=
  half_int (fun r => r ^ 2 * U r * pair_gauss NA NB a b A B C r * bessK l (pair_k a b A B C * r) * r ^ n) q.

(** potentials that are continuous for r > 0 and not more singular at the origin, and
    not larger far away, than those of charges *)
Definition charge_like (U : R -> R) : Prop :=
  (forall r, 0 < r -> continuous U r) /\ exists K, forall r, 0 < r -> Rabs (r * U r) <= K.

(** the error for a pair of primitives of shells of angular momenta a, b at
    distances DA, DB; radial integrals are at most Qm and known within eps.
    5.4 bounds the angular integrals, 1e-13 and 1e-16 are the thresholds below which
    factors and radial integrals are left out *)
Definition local_error (a b : nat) (DA DB eps Qm : R) : R :=
  (INR (a + b) + 1) * ((1 + DA) ^ a * (1 + DB) ^ b * ((eps + 1 / 10 ^ 16) * (54 / 10)) + 2 ^ (a + b) * (1 / 10 ^ 13 * (Qm * (54 / 10)))).

(** and the size of the element *)
Definition local_size (a b : nat) (DA DB Qm : R) : R := (INR (a + b) + 1) * ((1 + DA) ^ a * (1 + DB) ^ b * (Qm * (54 / 10))).

(** the direction of a (C-A) + b (C-B) is known: the library treats vectors 2 (a (C-A) + b (C-B))
    not longer than 1e-14 as having none *)
Definition pair_direction (a b : R) (A B C : R * R * R) : Prop := pair_vector a b A B C = (0, 0, 0) \/ 1 / 10 ^ 14 < pair_k a b A B C.

(** the radial integrals up to the order [lm] are at most [Qm], and adaptive
    integration with tolerance [tol] and the Bessel function [bessel] gives them within [eps] *)
Definition quadrature_accuracy (bessel : Z -> R -> R) (tol : R) (U : R -> R) (NA NB a b : R) (A B C : R * R * R) (lm : nat) (eps Qm : R) : Prop :=
  forall (l n : nat) v conv Q, (l <= lm)%nat -> (n <= lm)%nat ->
    adaptive 10000 2047 (fun r => U r * pair_gauss NA NB a b A B C r * bessel (Z.of_nat l) (pair_k a b A B C * r) * r ^ n) None tol v conv ->
    pair_radial U NA NB a b A B C l n Q -> Rabs (v - Q) <= eps /\ Rabs Q <= Qm.

(** the scaled Bessel functions without error *)
Definition exact_bessel (l : Z) (x : R) : R := bessK (Z.to_nat l) x.

(** the error of an element of two contracted functions: pairs of primitives with
    a product of coefficients below 1e-13 are left out *)
Definition contracted_error (LA LB : nat) (DA DB : R) (bra ket : list (R * R)) (eps Qm : R -> R -> R) : R :=
  lsum (fun '(cA, aA) => lsum (fun '(cB, aB) =>
    Rabs (cA * cB) * (if Rlt_dec (Rabs (cA * cB)) (1 / 10 ^ 13) then local_size LA LB DA DB (Qm aA aB) else local_error LA LB DA DB (eps aA aB) (Qm aA aB))) ket) bra.
