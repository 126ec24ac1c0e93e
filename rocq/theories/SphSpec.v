(** * Specification of real spherical harmonics and of integrals over the unit sphere *)

From Coq Require Import ZArith Reals Lra Lia.
From Coquelicot Require Import Coquelicot.
Open Scope R_scope.

(** real and imaginary part of (x + i y)^n *)
Fixpoint re_im_pow (n : nat) (x y : R) : R * R :=
  match n with
  | O => (1, 0)
  | S n' => let '(a, b) := re_im_pow n' x y in (x * a - y * b, x * b + y * a)
  end.

(** Rodrigues' formula: the n-th derivative of (t^2 - 1)^l *)
Definition rodrigues (l n : nat) (z : R) : R := Derive_n (fun t => (t ^ 2 - 1) ^ l) n z.

(** the real spherical harmonic S_lm at the unit vector (x, y, z) = (sin t cos p, sin t sin p, cos t):
    N P_l^|m|(cos t) times cos(m p) for m >= 0 and sin(|m| p) for m < 0, without the Condon-Shortley phase *)
Definition real_sph (l : nat) (m : Z) (x y z : R) : R :=
  let mu := Z.abs_nat m in
  sqrt ((2 * INR l + 1) / (if (m =? 0)%Z then 4 * PI else 2 * PI) * INR (fact (l - mu)) / INR (fact (l + mu)))
  / (2 ^ l * INR (fact l)) * rodrigues l (l + mu) z
  * (if (m <? 0)%Z then snd (re_im_pow mu x y) else fst (re_im_pow mu x y)).

(** the surface integral over the unit sphere, in spherical coordinates *)
Definition sphere_int (f : R -> R -> R -> R) (v : R) : Prop :=
  exists g : R -> R,
    (forall p, is_RInt (fun t => f (sin t * cos p) (sin t * sin p) (cos t) * sin t) 0 PI (g p)) /\
    is_RInt g 0 (2 * PI) v.

(** twice partially differentiable with vanishing Laplacian *)
Definition harmonic (f : R -> R -> R -> R) : Prop :=
  exists fx fy fz fxx fyy fzz : R -> R -> R -> R, forall x y z,
    is_derive (fun t => f t y z) x (fx x y z) /\ is_derive (fun t => fx t y z) x (fxx x y z) /\
    is_derive (fun t => f x t z) y (fy x y z) /\ is_derive (fun t => fy x t z) y (fyy x y z) /\
    is_derive (fun t => f x y t) z (fz x y z) /\ is_derive (fun t => fz x y t) z (fzz x y z) /\
    fxx x y z + fyy x y z + fzz x y z = 0.
