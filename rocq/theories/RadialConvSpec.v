(** * Convergence of the radial quadrature: specification *)

From Coq Require Import ZArith Reals List.
From Coquelicot Require Import Coquelicot.
From Verif Require Import OneElProofs OneElSpec NucPotSpec RadialSpec Type2Spec.
Import ListNotations.
Open Scope R_scope.

(** the primitives whose coefficients count *)
Definition kept (f : list (R * R)) : list (R * R) := filter (fun '(c, _) => matters c) f.
Definition kept_pot (pot : list (Z * R * R)) : list (Z * R * R) := filter (fun '(_, c, _) => matters c) pot.

(** all coefficients replaced by their absolute values *)
Definition abs_prims (f : list (R * R)) : list (R * R) := map (fun '(c, a) => (Rabs c, a)) f.
Definition abs_pot (pot : list (Z * R * R)) : list (Z * R * R) := map (fun '(n, c, a) => (n, Rabs c, a)) pot.

(** the radial factor with the Bessel function left out *)
Definition bare_factor (N : R -> R) (prims : list (R * R)) (C r : R) : R :=
  lsum (fun '(c, a) => c * N a * exp (- a * ((r - C) * (r - C)))) prims.

(** the integral over the half line of the absolute values of all terms, without the Bessel functions *)
Definition weight_integral (pot : list (Z * R * R)) (NA NB : R -> R) (bra ket : list (R * R)) (CA CB : R) (n : nat) (w : R) : Prop :=
  half_int (fun r => r ^ 2 * radial_potential (abs_pot pot) r * bare_factor NA (abs_prims bra) CA r * bare_factor NB (abs_prims ket) CB r * r ^ n) w.
