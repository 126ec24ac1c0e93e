(** * The outercore operator: specification

    The outercore part of a generalised pseudopotential is
      sum_i  w_i ( U_i P_i + P_i U_i )  -  sum_ij  w_i P_i (U_i + U_j)/2 P_j   (i, j of equal L and J)
    with P_i the projector on the 2L+1 orbitals of shell i, and for the spin-orbit
    part the angular momentum matrices inserted. *)

From Coq Require Import ZArith List Lia Bool Reals Lra.
From Coquelicot Require Import Coquelicot.
From Verif Require Import Sums NumSpec GaussProd OneElProofs OneElSpec NucPotSpec GaussMoment HeapShrink SphSpec OutercoreRadial.
Import ListNotations.
Open Scope R_scope.

(** an outercore shell: L, 2J, its potential U and the contraction of its radial function *)
Record oc_data := mkOc { oc_l : nat; oc_J : Z; oc_pot : list (Z * R * R); oc_prims : list (R * R) }.

(** the solid harmonic r^l S_lm *)
Definition solid (l : nat) (m : Z) (x y z : R) : R :=
  let r := sqrt (x ^ 2 + y ^ 2 + z ^ 2) in r ^ l * real_sph l m (x / r) (y / r) (z / r).

(** distance from C *)
Definition from (C : R * R * R) (x y z : R) : R := let '(cx, cy, cz) := C in sqrt ((x - cx) ^ 2 + (y - cy) ^ 2 + (z - cz) ^ 2).

(** the orbital |n L m> at C.  [norm_rad l a] is / sqrt of the integral of r^2 (r^l exp(-a r^2))^2 *)
Definition orbital (o : oc_data) (C : R * R * R) (m : Z) (x y z : R) : R :=
  let '(cx, cy, cz) := C in
  lsum (fun '(c, a) => c * norm_rad (oc_l o) a * exp (- a * from C x y z ^ 2)) (oc_prims o) * solid (oc_l o) m (x - cx) (y - cy) (z - cz).

(** the potential as a function on space *)
Definition oc_U (o : oc_data) (C : R * R * R) (x y z : R) : R := radial_sum (oc_pot o) (from C x y z).

(** radial function *)
Definition oc_radial (o : oc_data) (r : R) : R := radial_fun (oc_l o) (oc_prims o) r.

Definition same_lj (o1 o2 : oc_data) : Prop := oc_l o1 = oc_l o2 /\ oc_J o1 = oc_J o2.
Definition same_ljb (o1 o2 : oc_data) : bool := (oc_l o1 =? oc_l o2)%nat && (oc_J o1 =? oc_J o2)%Z.

(** weights of the averaged and of the spin-orbit part: J = L - 1/2 or L + 1/2 *)
Definition w_arep (o : oc_data) : R := let l := INR (oc_l o) in if (oc_J o <? 2 * Z.of_nat (oc_l o))%Z then l / (2 * l + 1) else (l + 1) / (2 * l + 1).
Definition w_so (o : oc_data) : R := let l := INR (oc_l o) in if (oc_J o <? 2 * Z.of_nat (oc_l o))%Z then - (2 / (2 * l + 1)) else 2 / (2 * l + 1).

(** sum over m of two families of integrals, without and with a matrix in between *)
Definition msum (o : oc_data) (f g : Z -> R) : R := zsum (- Z.of_nat (oc_l o)) (Z.of_nat (oc_l o) + 1) (fun m => f m * g m).
Definition msum2 (o : oc_data) (W : Z -> Z -> R) (f g : Z -> R) : R :=
  zsum (- Z.of_nat (oc_l o)) (Z.of_nat (oc_l o) + 1) (fun m => zsum (- Z.of_nat (oc_l o)) (Z.of_nat (oc_l o) + 1) (fun m' => f m * W m m' * g m')).

(** matrix element of the operator for a pair of functions with overlaps S and integrals U over the orbitals;
    [delta] are the radial integrals *)
Definition arep_value (os : list oc_data) (delta : oc_data -> oc_data -> R) (Sa Sb Ua Ub : oc_data -> Z -> R) : R :=
  lsum (fun o => w_arep o * (msum o (Sa o) (Ub o) + msum o (Ua o) (Sb o))) os
  - lsum (fun o => lsum (fun o' => if same_ljb o o' then w_arep o * delta o o' * msum o (Sa o) (Sb o') else 0) os) os.
Definition so_value (os : list oc_data) (W : nat -> Z -> Z -> R) (delta : oc_data -> oc_data -> R) (Sa Sb Ua Ub : oc_data -> Z -> R) : R :=
  lsum (fun o => w_so o * (msum2 o (W (oc_l o)) (Ua o) (Sb o) + msum2 o (W (oc_l o)) (Sa o) (Ub o))) os
  - lsum (fun o => lsum (fun o' => if same_ljb o o' then w_so o * delta o o' * msum2 o (W (oc_l o)) (Sa o) (Sb o') else 0) os) os.
