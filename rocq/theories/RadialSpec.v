(** * Radial quadrature: specification *)

From Coq Require Import ZArith Reals List.
From Coquelicot Require Import Coquelicot.
From Verif Require Import Sums.
Open Scope R_scope.

(** the substitution r = -R ln(1 - xi^3) of Skylaris et al. with R = 5, and its derivative *)
Definition radius (xi : R) : R := -5 * ln (1 - xi ^ 3).
Definition radius' (xi : R) : R := 15 * xi ^ 2 / (1 - xi ^ 3).

(** rule with n inner points for the integral of g(r) r^2 dr over r > 0: the
    trapezoidal rule in xi for g(r(xi)) r(xi)^2 r'(xi) on [0,1], the end points
    contribute nothing *)
Definition quadrature (g : R -> R) (n : Z) : R :=
  zsum 1 (n + 1) (fun i => let xi := IZR i / IZR (n + 1) in g (radius xi) * radius xi ^ 2 * radius' xi) / IZR (n + 1).

(** number of points after s doublings *)
Fixpoint stage (mn : Z) (s : nat) : Z :=
  match s with O => mn | S s => 2 * stage mn s + 1 end.

(** the estimate of refinement s is accepted: it differs from the previous one by
    no more than the tolerance, and (type 2) it is not suspiciously small compared
    with the value that screening predicts *)
Definition accepted (g : R -> R) (mn : Z) (screen : option R) (tol : R) (s : nat) : Prop :=
  Rabs (quadrature g (stage mn (S s)) - quadrature g (stage mn s)) <= tol /\
  match screen with Some v => 0.001 <= Rabs (quadrature g (stage mn (S s))) / Rabs v | None => True end.

(** adaptive integration: the first accepted refinement, or the finest grid that
    fits into the capacity *)
Definition adaptive (capacity mn : Z) (g : R -> R) (screen : option R) (tol : R) (value : R) (converged : bool) : Prop :=
  exists s : nat, value = quadrature g (stage mn s) /\ (stage mn s <= capacity)%Z /\
    if converged then exists s', s = S s' /\ accepted g mn screen tol s' /\ (forall j, (j < s')%nat -> ~ accepted g mn screen tol j)
    else (capacity < stage mn (S s))%Z /\ (forall j, (j < s)%nat -> ~ accepted g mn screen tol j).

(** ** Integrands *)
From Verif Require Import OneElProofs OneElModel.
Import ListNotations.

(** coefficients that count: the library drops those with |c| <= 1e-14 *)
Definition matters (c : R) : bool := if Rlt_dec (1 / 10 ^ 14) (Rabs c) then true else false.

(** sum of c r^(n-2) exp(-a r^2) over the significant terms *)
Definition rpp (pot : list (Z * R * R)) (r : R) : R :=
  lsum (fun '(n, c, a) => if matters c then c * powerRZ r (n - 2) * exp (- a * (r * r)) else 0) pot.

(** sum of c N_L(a) exp(-a (r-C)^2) K_l(2 a C r) over the significant terms *)
Definition radial_function (bessel : Z -> R -> R) (L : Z) (f : list (R * R)) (C : R) (l : Z) (r : R) : R :=
  lsum (fun '(c, a) => if matters c then c * gaussian_norm_factor L 0 0 a * exp (- a * ((r - C) * (r - C))) * bessel l (2 * a * C * r) else 0) f.

Definition type2_integrand (bessel : Z -> R -> R) (pot : list (Z * R * R)) (LA : Z) (bra : list (R * R)) (CA : R) (LB : Z) (ket : list (R * R)) (CB : R) (l1 l2 n : Z) (r : R) : R :=
  rpp pot r * radial_function bessel LA bra CA l1 r * radial_function bessel LB ket CB l2 r * r ^ Z.to_nat n.

Definition type1_integrand (bessel : Z -> R -> R) (U : R -> R) (k aA aB CA_2 CB_2 D : R) (l n : Z) (r : R) : R :=
  U r * (D * exp (k * r - (aA + aB) * r ^ 2 - aA * CA_2 - aB * CB_2)) * bessel l (k * r) * r ^ Z.to_nat n.

(** the exact one-centre integral of r^(n+ni) exp(-(aA+aB+eta) r^2), summed over
    all primitives; [m n a] is the n-th moment of exp(-a r^2) on the half line *)
Definition one_center (m : Z -> R -> R) (pot : list (Z * R * R)) (LA : Z) (bra : list (R * R)) (LB : Z) (ket : list (R * R)) (n : Z) : R :=
  lsum (fun '(ca, aa) => lsum (fun '(cb, ab) => lsum (fun '(ni, ck, eta) =>
    ca * gaussian_norm_factor LA 0 0 aa * (cb * gaussian_norm_factor LB 0 0 ab) * ck * m (ni + n)%Z (aa + ab + eta)) pot) ket) bra.
