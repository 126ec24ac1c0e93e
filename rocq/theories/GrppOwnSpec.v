(** * The GRPP operator: specification for C78

    Written without reference to the integral routines.  [V f g v] says that v is the
    matrix element of an operator between the functions f and g. *)

From Coq Require Import ZArith List Reals.
From Coquelicot Require Import Coquelicot.
From Verif Require Import OutercoreModel GrppModel MmdSpec MmdMain Type2Spec GrppGrad3 GrppLocal.
Import ListNotations.
Open Scope R_scope.

(** a semilocal potential: sum over m of |L m> U(r) <L m| around C *)
Definition semilocal_V (C : R * R * R) (U : vpot) (f g : fn3) (v : R) : Prop :=
  semilocal_integral (Z.to_nat (pv_L U)) (radial_potential (pv_prims U)) C f g v.

(** a spin-orbit potential: the imaginary part of U(r) P_L l_k P_L around C; k = 0, 1, 2 is x, y, z *)
Definition spin_orbit_V (C : R * R * R) (U : vpot) (k : Z) (f g : fn3) (v : R) : Prop :=
  exists W, angular_momentum (Z.to_nat (pv_L U)) k W /\ projected_integral (Z.to_nat (pv_L U)) W (radial_potential (pv_prims U)) C f g v.

(** the sum of the elements of the operators of a list *)
Fixpoint element_sum {T : Type} (V : T -> fn3 -> fn3 -> R -> Prop) (l : list T) (f g : fn3) (v : R) : Prop :=
  match l with
  | [] => v = 0
  | x :: l => exists a b, V x f g a /\ element_sum V l f g b /\ v = a + b
  end.

(** the local potential, if there is one *)
Definition local_part (C : R * R * R) (U : option vpot) (f g : fn3) (v : R) : Prop :=
  match U with None => v = 0 | Some U => local_V C (pv_prims U) f g v end.

(** the operator with the contents gv at C; component -1 is the averaged part,
    components 0, 1, 2 the spin-orbit part; [oc] is the outercore part *)
Definition grpp_V (C : R * R * R) (gv : gview) (oc : Z -> fn3 -> fn3 -> R -> Prop) (k : Z) (f g : fn3) (v : R) : Prop :=
  exists a b, oc k f g b /\ v = a + b /\
    if (k =? -1)%Z then exists u w, local_part C (gv_local gv) f g u /\ element_sum (semilocal_V C) (gv_arep gv) f g w /\ a = u + w
    else element_sum (fun U f g x => exists w, spin_orbit_V C U k f g w /\ x = 2 / (2 * IZR (pv_L U) + 1) * w) (gv_esop gv) f g a.
