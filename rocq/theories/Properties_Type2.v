(** * C64, C65, C66: the semilocal and spin-orbit integrals

    [vshell_is A L o prims comps]: the shell A has angular momentum L, origin o, the
    contraction [prims] and the Cartesian components [comps]; [phi L o prims c] is
    the function of the component c.  [semilocal_integral] and [projected_integral]
    (Type2Spec.v) are the matrix elements of the operators, [angular_momentum] says
    that a matrix is the one of a component of the angular momentum in the real
    spherical harmonics.  [radial_accuracy t … eps Qm]: the radial integrals which
    the library tabulated in t are within eps of the exact ones, which are at most
    Qm.  [ismat], [outside]: the contents of a matrix, and what is not written. *)

From Coq Require Import ZArith List Lia Bool Reals Lra.
From Coquelicot Require Import Coquelicot.
From Verif Require Import Base Sums CartProofs OneElModel OneElPairs OneElInt OneElSpec NumSpec NucPotSpec SphModel SphSpec SphThms SphTables LmatModel RadialModel RadialSpec RadialTables
  OutercoreModel OutercoreProofs OutercoreWitness Type2Model Type2Spec Type2Main Type2Acc SphMomentum Type2So Type2Thms SphAdd SphTri SphPlane.
Import ListNotations.
Open Scope R_scope.

(** C64: every matrix of sufficient size is filled with the semilocal integrals of the two shells; the error is bounded in terms of the error of the radial integrals, and nothing else is written. *)
Theorem C64_semilocal : forall fuel par bessel erf st A B C U (L LA LB : nat) orgA orgB bra ket ca cb,
  (14 <= fuel)%nat -> init_tables st ->
  vshell_is A (Z.of_nat LA) orgA bra ca -> vshell_is B (Z.of_nat LB) orgB ket cb -> ca <> [] -> cb <> [] -> bra <> [] -> ket <> [] -> pv_L U = Z.of_nat L ->
  (L + LA <= 14)%nat -> (L + LB <= 14)%nat ->
  powers_in (pv_prims U) (Z.of_nat LA + Z.of_nat LB) -> exponents_pos bra -> exponents_pos ket -> pot_exponents (pv_prims U) -> direction_known orgA C bra -> direction_known orgB C ket ->
  exists t v, radial_of fuel par bessel erf A B (sub3 C orgA) (sub3 C orgB) U (Z.of_nat LA) (Z.of_nat LB) = Ok t /\
    (forall M sz, adims M = [sz] -> (sv_size A * sv_size B <= sz)%Z ->
      exists M', type2_integrals fuel par bessel erf st true A B C U M = Ok M' /\ ismat M' sz (sv_size A) (sv_size B) v /\ outside (sv_size A * sv_size B) M M') /\
    forall eps Qm, 0 <= eps -> 0 <= Qm -> radial_accuracy t L LA LB (pv_prims U) bra ket (separation orgA C) (separation orgB C) eps Qm ->
      forall i j cA cB, nth_error ca i = Some cA -> nth_error cb j = Some cB ->
        exists w, semilocal_integral L (radial_potential (pv_prims U)) C (phi (Z.of_nat LA) orgA bra cA) (phi (Z.of_nat LB) orgB ket cB) w /\
          Rabs (v (Z.of_nat i) (Z.of_nat j) - w) <= expansion_error (1 / 10 ^ 13) (1 / 10 ^ 16) ((2 * INR L + 1) * (2311 / 1000)) ((2 * INR L + 1) * (1 / 10 ^ 12)) LA LB (separation orgA C) (separation orgB C) eps Qm.
Proof. exact type2_accurate. Qed.
Print Assumptions C64_semilocal.

(** C64: for two shells at the centre of the potential the radial integrals are exact, and only the thresholds of the code remain in the error. *)
Theorem C64_at_the_centre : forall fuel par bessel erf st A B C U (L LA LB : nat) bra ket ca cb Qm,
  (14 <= fuel)%nat -> init_tables st ->
  vshell_is A (Z.of_nat LA) C bra ca -> vshell_is B (Z.of_nat LB) C ket cb -> ca <> [] -> cb <> [] -> bra <> [] -> ket <> [] -> pv_L U = Z.of_nat L ->
  (L + LA <= 14)%nat -> (L + LB <= 14)%nat ->
  powers_in (pv_prims U) (Z.of_nat LA + Z.of_nat LB) -> exponents_pos bra -> exponents_pos ket -> pot_exponents (pv_prims U) -> central_bound U LA LB bra ket Qm ->
  exists v,
    (forall M sz, adims M = [sz] -> (sv_size A * sv_size B <= sz)%Z ->
      exists M', type2_integrals fuel par bessel erf st true A B C U M = Ok M' /\ ismat M' sz (sv_size A) (sv_size B) v /\ outside (sv_size A * sv_size B) M M') /\
    forall i j cA cB, nth_error ca i = Some cA -> nth_error cb j = Some cB ->
      exists w, semilocal_integral L (radial_potential (pv_prims U)) C (phi (Z.of_nat LA) C bra cA) (phi (Z.of_nat LB) C ket cB) w /\
        Rabs (v (Z.of_nat i) (Z.of_nat j) - w) <= expansion_error (1 / 10 ^ 13) (1 / 10 ^ 16) ((2 * INR L + 1) * (2311 / 1000)) ((2 * INR L + 1) * (1 / 10 ^ 12)) LA LB 0 0 0 Qm.
Proof. exact type2_central. Qed.
Print Assumptions C64_at_the_centre.

(** C64: the bound in C64_at_the_centre and C65_at_the_centre exists. *)
Theorem C64_bound_exists : forall U LA LB bra ket,
  exponents_pos bra -> exponents_pos ket -> powers_in (pv_prims U) (Z.of_nat LA + Z.of_nat LB) -> pot_exponents (pv_prims U) ->
  exists Qm, central_bound U LA LB bra ket Qm.
Proof. exact central_bound_exists. Qed.
Print Assumptions C64_bound_exists.

(** C65: the three spin-orbit matrices are those of U(r) P_L l P_L. *)
Theorem C65_spin_orbit : forall fuel par bessel erf st A B C U (L LA LB : nat) orgA orgB bra ket ca cb,
  (14 <= fuel)%nat -> init_tables st ->
  vshell_is A (Z.of_nat LA) orgA bra ca -> vshell_is B (Z.of_nat LB) orgB ket cb -> ca <> [] -> cb <> [] -> bra <> [] -> ket <> [] -> pv_L U = Z.of_nat L ->
  (L + LA <= 14)%nat -> (L + LB <= 14)%nat ->
  powers_in (pv_prims U) (Z.of_nat LA + Z.of_nat LB) -> exponents_pos bra -> exponents_pos ket -> pot_exponents (pv_prims U) -> direction_known orgA C bra -> direction_known orgB C ket ->
  exists t Ws v, radial_of fuel par bessel erf A B (sub3 C orgA) (sub3 C orgB) U (Z.of_nat LA) (Z.of_nat LB) = Ok t /\
    rotation_generators (Z.of_nat L) (pick Ws 0) (pick Ws 1) (pick Ws 2) /\
    (forall k, (0 <= k < 3)%Z -> angular_momentum L k (pick Ws k)) /\
    (forall Ms (sz : Z -> Z), (forall k, (0 <= k < 3)%Z -> adims (pick Ms k) = [sz k]) -> (forall k, (0 <= k < 3)%Z -> sv_size A * sv_size B <= sz k)%Z ->
      exists Ms', spin_orbit_integrals fuel par bessel erf st true A B C U Ms = Ok Ms' /\ is3mat Ms' sz (sv_size A) (sv_size B) v /\ outside3 (sv_size A * sv_size B) Ms Ms') /\
    forall eps Qm, 0 <= eps -> 0 <= Qm -> radial_accuracy t L LA LB (pv_prims U) bra ket (separation orgA C) (separation orgB C) eps Qm ->
      forall k i j cA cB, (0 <= k < 3)%Z -> nth_error ca i = Some cA -> nth_error cb j = Some cB ->
        exists w, projected_integral L (pick Ws k) (radial_potential (pv_prims U)) C (phi (Z.of_nat LA) orgA bra cA) (phi (Z.of_nat LB) orgB ket cB) w /\
          Rabs (v k (Z.of_nat i) (Z.of_nat j) - w) <= expansion_error zero_thresh zero_thresh (so_bound L) (so_delta L) LA LB (separation orgA C) (separation orgB C) eps Qm.
Proof. exact so_accurate. Qed.
Print Assumptions C65_spin_orbit.

(** C65: for two shells at the centre of the potential. *)
Theorem C65_at_the_centre : forall fuel par bessel erf st A B C U (L LA LB : nat) bra ket ca cb Qm,
  (14 <= fuel)%nat -> init_tables st ->
  vshell_is A (Z.of_nat LA) C bra ca -> vshell_is B (Z.of_nat LB) C ket cb -> ca <> [] -> cb <> [] -> bra <> [] -> ket <> [] -> pv_L U = Z.of_nat L ->
  (L + LA <= 14)%nat -> (L + LB <= 14)%nat ->
  powers_in (pv_prims U) (Z.of_nat LA + Z.of_nat LB) -> exponents_pos bra -> exponents_pos ket -> pot_exponents (pv_prims U) -> central_bound U LA LB bra ket Qm ->
  exists Ws v, (forall k, (0 <= k < 3)%Z -> angular_momentum L k (pick Ws k)) /\
    (forall Ms (sz : Z -> Z), (forall k, (0 <= k < 3)%Z -> adims (pick Ms k) = [sz k]) -> (forall k, (0 <= k < 3)%Z -> sv_size A * sv_size B <= sz k)%Z ->
      exists Ms', spin_orbit_integrals fuel par bessel erf st true A B C U Ms = Ok Ms' /\ is3mat Ms' sz (sv_size A) (sv_size B) v /\ outside3 (sv_size A * sv_size B) Ms Ms') /\
    forall k i j cA cB, (0 <= k < 3)%Z -> nth_error ca i = Some cA -> nth_error cb j = Some cB ->
      exists w, projected_integral L (pick Ws k) (radial_potential (pv_prims U)) C (phi (Z.of_nat LA) C bra cA) (phi (Z.of_nat LB) C ket cB) w /\
        Rabs (v k (Z.of_nat i) (Z.of_nat j) - w) <= expansion_error zero_thresh zero_thresh (so_bound L) (so_delta L) LA LB 0 0 0 Qm.
Proof. exact so_central. Qed.
Print Assumptions C65_at_the_centre.

(** C66: the three matrices which the library builds are those of the infinitesimal rotations of the real spherical harmonics. *)
Theorem C66_angular_momentum : forall (l : nat) sz (x0 y0 z0 : arr R),
  ((2 * Z.of_nat l + 1) * (2 * Z.of_nat l + 1) <= sz)%Z -> adims x0 = [sz] -> adims y0 = [sz] -> adims z0 = [sz] ->
  exists x y z X Y Z, construct_matrices_rsh (Z.of_nat l) (x0, y0, z0) = Ok (x, y, z) /\
    entries (Z.of_nat l) x X /\ entries (Z.of_nat l) y Y /\ entries (Z.of_nat l) z Z /\
    angular_momentum l 0 X /\ angular_momentum l 1 Y /\ angular_momentum l 2 Z.
Proof. exact rsh_momentum. Qed.
Print Assumptions C66_angular_momentum.

(** a p-type potential between an s and a d shell on other centres, and two p shells at the centre *)
Definition t_U : vpot := mkVPot 1 3 [(2%Z, 3, 1 / 4); (1%Z, -1, 2)].
Definition t_P (a : R) : vshell := mkV 1 3 (aoflist [0; 0; 1; 0; 1; 0; 1; 0; 0]%Z) 1 (aoflist [1]) (aoflist [a]) (0, 0, 0).

Lemma t_P_is a : vshell_is (t_P a) (Z.of_nat 1) (0, 0, 0) [(1, a)] (w_cart 1).
Proof. apply w_shell; [reflexivity|exact (comps_up 1)|]. change (w_cart 1) with [(0, 0, 1); (0, 1, 0); (1, 0, 0)]%Z. intros i Hi. seven i Hi. Qed.

Lemma t_powers n : (n <= 4)%Z -> powers_in (pv_prims t_U) n.
Proof. intros Hn ni c a [E | [E | []]]; injection E as <- <- <-; lia. Qed.
Lemma t_exps : pot_exponents (pv_prims t_U).
Proof. intros ni c a [E | [E | []]]; injection E as <- <- <-; lra. Qed.
Lemma t_one c a : 0 < a -> exponents_pos [(c, a)].
Proof. intros Ha d b [E|[]]. injection E as <- <-. exact Ha. Qed.

Lemma t_far (x y z c a : R) : 1 <= z * z -> 1 / 2 <= a -> direction_known (x, y, z) (0, 0, 0) [(c, a)].
Proof.
  intros Hz Ha. right. exists c, a, []. split; [reflexivity|]. rewrite len_distance. unfold separation.
  assert (1 <= sqrt ((0 - x) * (0 - x) + (0 - y) * (0 - y) + (0 - z) * (0 - z))).
  { rewrite <- sqrt_1 at 1. apply sqrt_le_1; [lra| |]; pose proof (Rle_0_sqr (0 - x)) as X; pose proof (Rle_0_sqr (0 - y)) as Y; unfold Rsqr in *; replace ((0 - z) * (0 - z)) with (z * z) by ring; lra. }
  assert (1 * 1 <= 2 * a * sqrt ((0 - x) * (0 - x) + (0 - y) * (0 - y) + (0 - z) * (0 - z))) by (apply Rmult_le_compat; lra). lra.
Qed.

Lemma t_comps n : w_cart (S n) <> [].
Proof. intros E. assert (I : In (Z.of_nat (S n), 0, 0)%Z (w_cart (S n))) by (apply in_canon_up; lia). rewrite E in I. destruct I. Qed.
Lemma t_2 : 0 < 2. Proof. lra. Qed.
Lemma t_12 : 0 < 1 / 2. Proof. lra. Qed.
Lemma t_z1 : 1 <= 1 * 1. Proof. lra. Qed.
Lemma t_z2 : 1 <= -1 * -1. Proof. lra. Qed.
Lemma t_a2 : 1 / 2 <= 2. Proof. lra. Qed.
Lemma t_a1 : 1 / 2 <= 1 / 2. Proof. lra. Qed.

Example C64_case par bessel erf : exists st v M', init_tables st /\ type2_integrals 14 par bessel erf st true w_A w_B (0, 0, 0) t_U (aconst [6%Z] 0) = Ok M' /\ ismat M' 6 1 6 v.
Proof.
  destruct init_tables_exist as (st & H).
  destruct (C64_semilocal 14 par bessel erf st w_A w_B (0, 0, 0) t_U 1 0 2 _ _ _ _ _ _ (le_n 14) H w_A_is w_B_is ltac:(discriminate) (t_comps 1) ltac:(discriminate) ltac:(discriminate) eq_refl ltac:(lia) ltac:(lia) (t_powers 2 ltac:(lia)) (t_one _ _ t_2) (t_one _ _ t_12) t_exps (t_far _ _ _ _ _ t_z1 t_a2) (t_far _ _ _ _ _ t_z2 t_a1)) as (t & v & _ & HV & _).
  destruct (HV (aconst [6%Z] 0) 6%Z eq_refl (Z.le_refl 6)) as (M' & E & G & _). exists st, v, M'. auto.
Qed.

Example C64_centre_case par bessel erf : exists st v w Qm, init_tables st /\ central_bound t_U 1 1 [(1, 2)] [(1, 1 / 2)] Qm /\
  semilocal_integral 1 (radial_potential (pv_prims t_U)) (0, 0, 0) (phi 1 (0, 0, 0) [(1, 2)] (0, 1, 0)%Z) (phi 1 (0, 0, 0) [(1, 1 / 2)] (0, 1, 0)%Z) w /\
  (exists M', type2_integrals 14 par bessel erf st true (t_P 2) (t_P (1 / 2)) (0, 0, 0) t_U (aconst [9%Z] 0) = Ok M' /\ ismat M' 9 3 3 v) /\
  Rabs (v 1%Z 1%Z - w) <= expansion_error (1 / 10 ^ 13) (1 / 10 ^ 16) ((2 * INR 1 + 1) * (2311 / 1000)) ((2 * INR 1 + 1) * (1 / 10 ^ 12)) 1 1 0 0 0 Qm.
Proof.
  destruct init_tables_exist as (st & H). assert (P2 : exponents_pos [(1, 2)]) by (apply t_one; lra). assert (P1 : exponents_pos [(1, 1 / 2)]) by (apply t_one; lra).
  destruct (C64_bound_exists t_U 1 1 [(1, 2)] [(1, 1 / 2)] P2 P1 (t_powers 2 ltac:(lia)) t_exps) as (Qm & HQ).
  destruct (C64_at_the_centre 14 par bessel erf st (t_P 2) (t_P (1 / 2)) (0, 0, 0) t_U 1 1 1 _ _ _ _ Qm (le_n 14) H (t_P_is 2) (t_P_is (1 / 2)) (t_comps 0) (t_comps 0) ltac:(discriminate) ltac:(discriminate) eq_refl ltac:(lia) ltac:(lia) (t_powers 2 ltac:(lia)) P2 P1 t_exps HQ) as (v & HV & HW).
  destruct (HW 1%nat 1%nat (0, 1, 0)%Z (0, 1, 0)%Z eq_refl eq_refl) as (w & Hw & Ew).
  destruct (HV (aconst [9%Z] 0) 9%Z eq_refl (Z.le_refl 9)) as (M' & E & G & _). exists st, v, w, Qm. split; [exact H|]. split; [exact HQ|]. split; [exact Hw|]. split; [exists M'; auto|exact Ew].
Qed.

Example C65_case par bessel erf : exists st v Ms', init_tables st /\ spin_orbit_integrals 14 par bessel erf st true w_A w_B (0, 0, 0) t_U (aconst [6%Z] 0, aconst [6%Z] 0, aconst [6%Z] 0) = Ok Ms' /\ is3mat Ms' (fun _ => 6%Z) 1 6 v.
Proof.
  destruct init_tables_exist as (st & H).
  destruct (C65_spin_orbit 14 par bessel erf st w_A w_B (0, 0, 0) t_U 1 0 2 _ _ _ _ _ _ (le_n 14) H w_A_is w_B_is ltac:(discriminate) (t_comps 1) ltac:(discriminate) ltac:(discriminate) eq_refl ltac:(lia) ltac:(lia) (t_powers 2 ltac:(lia)) (t_one _ _ t_2) (t_one _ _ t_12) t_exps (t_far _ _ _ _ _ t_z1 t_a2) (t_far _ _ _ _ _ t_z2 t_a1)) as (t & Ws & v & _ & _ & _ & HV & _).
  destruct (HV (aconst [6%Z] 0, aconst [6%Z] 0, aconst [6%Z] 0) (fun _ => 6%Z) ltac:(apply by3; reflexivity) ltac:(intros k _; apply Z.le_refl)) as (M' & E & G & _). exists st, v, M'. auto.
Qed.

Example C65_centre_case par bessel erf : exists st v Ms', init_tables st /\ spin_orbit_integrals 14 par bessel erf st true (t_P 2) (t_P (1 / 2)) (0, 0, 0) t_U (aconst [9%Z] 0, aconst [9%Z] 0, aconst [9%Z] 0) = Ok Ms' /\ is3mat Ms' (fun _ => 9%Z) 3 3 v.
Proof.
  destruct init_tables_exist as (st & H). assert (P2 : exponents_pos [(1, 2)]) by (apply t_one; lra). assert (P1 : exponents_pos [(1, 1 / 2)]) by (apply t_one; lra).
  destruct (C64_bound_exists t_U 1 1 [(1, 2)] [(1, 1 / 2)] P2 P1 (t_powers 2 ltac:(lia)) t_exps) as (Qm & HQ).
  destruct (C65_at_the_centre 14 par bessel erf st (t_P 2) (t_P (1 / 2)) (0, 0, 0) t_U 1 1 1 _ _ _ _ Qm (le_n 14) H (t_P_is 2) (t_P_is (1 / 2)) (t_comps 0) (t_comps 0) ltac:(discriminate) ltac:(discriminate) eq_refl ltac:(lia) ltac:(lia) (t_powers 2 ltac:(lia)) P2 P1 t_exps HQ) as (Ws & v & _ & HV & _).
  destruct (HV (aconst [9%Z] 0, aconst [9%Z] 0, aconst [9%Z] 0) (fun _ => 9%Z) ltac:(apply by3; reflexivity) ltac:(intros k _; apply Z.le_refl)) as (M' & E & G & _). exists st, v, M'. auto.
Qed.

(** the matrix of l_z of a p shell: rotating y around z gives -x *)
Example C66_case : exists x y z X Y Z, construct_matrices_rsh 1 (aconst [9%Z] 0, aconst [9%Z] 0, aconst [9%Z] 0) = Ok (x, y, z) /\
  entries 1 z Z /\ angular_momentum 1 0 X /\ angular_momentum 1 1 Y /\ angular_momentum 1 2 Z.
Proof.
  destruct (C66_angular_momentum 1 9 (aconst [9%Z] 0) (aconst [9%Z] 0) (aconst [9%Z] 0) ltac:(lia) eq_refl eq_refl eq_refl) as (x & y & z & X & Y & Z & E & _ & _ & H3 & M1 & M2 & M3).
  exists x, y, z, X, Y, Z. auto.
Qed.
