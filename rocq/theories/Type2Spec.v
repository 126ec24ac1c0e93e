(** * Semilocal and spin-orbit operators: specification

    A function on space is projected on the real spherical harmonics around a
    point; the operators act on the projections.  [sphere_int] (SphSpec.v) is the
    integral over the unit sphere, [half_int] (NucPotSpec.v) the one over the half
    line, [real_sph] (SphSpec.v) the real spherical harmonics. *)

From Coq Require Import ZArith Reals List.
From Coquelicot Require Import Coquelicot.
From Verif Require Import Sums OneElProofs NucPotSpec SphSpec SpecSpec.
Open Scope R_scope.

(** [P r] is the projection of [f] on the harmonic (l, m) of the sphere of radius r around C *)
Definition projection (l : nat) (m : Z) (C : R * R * R) (f : R -> R -> R -> R) (P : R -> R) : Prop :=
  let '(cx, cy, cz) := C in
  forall r, 0 < r -> sphere_int (fun x y z => f (cx + r * x) (cy + r * y) (cz + r * z) * real_sph l m x y z) (P r).

(** U(r) = sum of c r^(n-2) exp(-a r^2) *)
Definition radial_potential (pot : list (Z * R * R)) (r : R) : R :=
  lsum (fun '(n, c, a) => c * powerRZ r (n - 2) * exp (- a * (r * r))) pot.

(** < f | sum over m1, m2 of |l m1> W(m1,m2) U(r) <l m2| | g > *)
Definition projected_integral (l : nat) (W : Z -> Z -> R) (U : R -> R) (C : R * R * R) (f g : R -> R -> R -> R) (v : R) : Prop :=
  exists P Q : Z -> R -> R,
    (forall m, (Z.abs m <= Z.of_nat l)%Z -> projection l m C f (P m)) /\
    (forall m, (Z.abs m <= Z.of_nat l)%Z -> projection l m C g (Q m)) /\
    half_int (fun r => r ^ 2 * U r * zsum (- Z.of_nat l) (Z.of_nat l + 1) (fun m1 => zsum (- Z.of_nat l) (Z.of_nat l + 1) (fun m2 => P m1 r * W m1 m2 * Q m2 r))) v.

(** the semilocal term: < f | sum over m of |l m> U(r) <l m| | g > *)
Definition semilocal_integral (l : nat) (U : R -> R) (C : R * R * R) (f g : R -> R -> R -> R) (v : R) : Prop :=
  exists P Q : Z -> R -> R,
    (forall m, (Z.abs m <= Z.of_nat l)%Z -> projection l m C f (P m)) /\
    (forall m, (Z.abs m <= Z.of_nat l)%Z -> projection l m C g (Q m)) /\
    half_int (fun r => r ^ 2 * U r * zsum (- Z.of_nat l) (Z.of_nat l + 1) (fun m => P m r * Q m r)) v.

(** the radial factor of a contracted Gaussian at distance C: sum of
    c N e^(-a (r-C)^2) K_l(2 a C r), where K_l(x) = e^(-x) i_l(x) *)
Definition radial_factor (N : R -> R) (prims : list (R * R)) (C : R) (l : nat) (r : R) : R :=
  lsum (fun '(c, a) => c * N a * exp (- a * ((r - C) * (r - C))) * bessK l (2 * a * C * r)) prims.

(** the radial integral of r^(n+2) U F_l1 F_l2 *)
Definition radial_integral (U : R -> R) (NA NB : R -> R) (bra ket : list (R * R)) (CA CB : R) (l1 l2 n : nat) (q : R) : Prop :=
  half_int (fun r => r ^ 2 * U r * radial_factor NA bra CA l1 r * radial_factor NB ket CB l2 r * r ^ n) q.

(** the distance of two points *)
Definition separation (A C : R * R * R) : R :=
  let '(ax, ay, az) := A in let '(cx, cy, cz) := C in sqrt ((cx - ax) * (cx - ax) + (cy - ay) * (cy - ay) + (cz - az) * (cz - az)).

(** the error of the expansion around the centre of the potential: factors below
    [thF] and radial integrals below [thQ] are left out; angular sums are at most
    [M] and known within [del], radial integrals at most [Qm] and known within
    [eps]; the shells have angular momenta a, b and lie at distances DA, DB *)
Definition expansion_error (thF thQ M del : R) (a b : nat) (DA DB eps Qm : R) : R :=
  16 * PI * PI * ((2 * INR a + 1) * (2 * INR b + 1) *
    ((1 + DA) ^ a * (1 + DB) ^ b * ((eps + thQ) * (M + del) + Qm * del) + 2 ^ (a + b) * (thF * (Qm * M)))).

(** the rotation by the angle t around an axis: 0 is x, 1 is y, 2 is z *)
Definition rotate (k : Z) (t : R) (u : R * R * R) : R * R * R :=
  let '(x, y, z) := u in
  if (k =? 0)%Z then (x, y * cos t - z * sin t, y * sin t + z * cos t)
  else if (k =? 1)%Z then (x * cos t + z * sin t, y, z * cos t - x * sin t)
  else (x * cos t - y * sin t, x * sin t + y * cos t, z).

(** W(m1,m2) is the imaginary part of < l m1 | l_k | l m2 >, where l_k = - i d/dt and
    t is the angle of a rotation around the axis k *)
Definition angular_momentum (l : nat) (k : Z) (W : Z -> Z -> R) : Prop :=
  forall m x y z, (Z.abs m <= Z.of_nat l)%Z -> x * x + y * y + z * z = 1 ->
    is_derive (fun t => let '(a, b, c) := rotate k t (x, y, z) in real_sph l m a b c) 0
      (- zsum (- Z.of_nat l) (Z.of_nat l + 1) (fun p => W p m * real_sph l p x y z)).
