(** * Semilocal and spin-orbit integrals: shells at the centre of the potential *)

From Coq Require Import ZArith Reals Lra Lia List Bool.
From Coquelicot Require Import Coquelicot.
From Verif Require Import Base Loops BinomModel BinomProofs CartModel CartProofs HeapModel OneElModel OneElProofs OneElInt OneElPairs OneElSpec ParamsModel Sums
  SphModel SphSpec SphPoly SphProofs SphTables SphInt SphOrtho SphAngular SphThms LmatModel NumSpec RadialModel RadialSpec PiBounds OutercoreModel OutercoreProofs
  NucPotSpec NucPot GaussMoment RadialTables Type2Model Type2Spec Type2Proj Type2Radial Type2Error Type2Value Type2Main Type2Acc SphMomentum Type2So.
Import ListNotations.
Open Scope R_scope.

(** a bound of the radial integrals of two shells at the centre of the potential *)
Definition central_bound (U : vpot) (LA LB : nat) (bra ket : list (R * R)) (Qm : R) : Prop :=
  0 <= Qm /\ forall (n : nat) Q, (n <= LA + LB)%nat -> radial_integral (radial_potential (pv_prims U)) (norm_L (Z.of_nat LA)) (norm_L (Z.of_nat LB)) bra ket 0 0 0 0 n Q -> Rabs Q <= Qm.

Lemma central_bound_exists U LA LB bra ket : exponents_pos bra -> exponents_pos ket -> powers_in (pv_prims U) (Z.of_nat LA + Z.of_nat LB) -> pot_exponents (pv_prims U) ->
  exists Qm, central_bound U LA LB bra ket Qm.
Proof.
  intros HB HK HP HE. assert (HPE : forall ni c a, In (ni, c, a) (pv_prims U) -> (0 <= ni)%Z /\ 0 <= a) by (intros ni c a Hin; split; [apply (HP ni c a Hin)|apply (HE ni c a Hin)]).
  set (q := fun n : nat => Rabs (one_center (fun n a => gmom (Z.to_nat n) a) (pv_prims U) (Z.of_nat LA) bra (Z.of_nat LB) ket (Z.of_nat n))).
  exists (rsum (S (LA + LB)) q). assert (P : forall n, 0 <= q n) by (intros n; apply Rabs_pos). split.
  - induction (S (LA + LB)); cbn [rsum]; [lra|]. specialize (P n). lra.
  - intros n Q Hn HQ. rewrite <- (half_int_unique _ _ _ (half_one_center (pv_prims U) (Z.of_nat LA) bra (Z.of_nat LB) ket n HB HK HPE) HQ). fold (q n).
    assert (Hn' : (n < S (LA + LB))%nat) by lia. clear Hn HQ. induction (S (LA + LB)) as [|k IH]; [lia|]. cbn [rsum]. assert (0 <= rsum k q) by (clear - P; induction k; cbn [rsum]; [lra|]; specialize (P k); lra).
    destruct (Nat.eq_dec n k) as [-> | N]; [lra|]. specialize (IH ltac:(lia)). specialize (P k). lra.
Qed.

Lemma separation_0 C : separation C C = 0.
Proof. destruct C as [[x y] z]. unfold separation. rewrite !Rminus_eq_0, Rmult_0_l, !Rplus_0_l. apply sqrt_0. Qed.

Lemma type2_central fuel par bessel erf st A B C U (L LA LB : nat) bra ket ca cb Qm : (14 <= fuel)%nat -> init_tables st ->
  vshell_is A (Z.of_nat LA) C bra ca -> vshell_is B (Z.of_nat LB) C ket cb -> ca <> [] -> cb <> [] -> bra <> [] -> ket <> [] -> pv_L U = Z.of_nat L ->
  (L + LA <= 14)%nat -> (L + LB <= 14)%nat ->
  powers_in (pv_prims U) (Z.of_nat LA + Z.of_nat LB) -> exponents_pos bra -> exponents_pos ket -> pot_exponents (pv_prims U) -> central_bound U LA LB bra ket Qm ->
  exists v,
    (forall M sz, adims M = [sz] -> (sv_size A * sv_size B <= sz)%Z ->
      exists M', type2_integrals fuel par bessel erf st true A B C U M = Ok M' /\ ismat M' sz (sv_size A) (sv_size B) v /\ outside (sv_size A * sv_size B) M M') /\
    forall i j cA cB, nth_error ca i = Some cA -> nth_error cb j = Some cB ->
      exists w, semilocal_integral L (radial_potential (pv_prims U)) C (phi (Z.of_nat LA) C bra cA) (phi (Z.of_nat LB) C ket cB) w /\
        Rabs (v (Z.of_nat i) (Z.of_nat j) - w) <= expansion_error (1 / 10 ^ 13) (1 / 10 ^ 16) ((2 * INR L + 1) * (2311 / 1000)) ((2 * INR L + 1) * (1 / 10 ^ 12)) LA LB 0 0 0 Qm.
Proof.
  intros Hf HI HA HB NA NB Na Nb EL LA14 LB14 HP HEb HEk HPE (HQ0 & HQ).
  destruct (type2_accurate fuel par bessel erf st A B C U L LA LB C C bra ket ca cb Hf HI HA HB NA NB Na Nb EL LA14 LB14 HP HEb HEk HPE (or_introl eq_refl) (or_introl eq_refl)) as (t & v & Et & HV & HW).
  exists v. split; [exact HV|]. intros i j cA cB Hi Hj. specialize (HW 0 Qm (Rle_refl 0) HQ0 (one_center_accuracy fuel par bessel erf A B C U L LA LB bra ket ca cb t Qm Hf HA HB EL HP HEb HEk HPE HQ0 HQ Et) i j cA cB Hi Hj).
  rewrite !separation_0 in HW. exact HW.
Qed.

Lemma so_central fuel par bessel erf st A B C U (L LA LB : nat) bra ket ca cb Qm : (14 <= fuel)%nat -> init_tables st ->
  vshell_is A (Z.of_nat LA) C bra ca -> vshell_is B (Z.of_nat LB) C ket cb -> ca <> [] -> cb <> [] -> bra <> [] -> ket <> [] -> pv_L U = Z.of_nat L ->
  (L + LA <= 14)%nat -> (L + LB <= 14)%nat ->
  powers_in (pv_prims U) (Z.of_nat LA + Z.of_nat LB) -> exponents_pos bra -> exponents_pos ket -> pot_exponents (pv_prims U) -> central_bound U LA LB bra ket Qm ->
  exists Ws v, (forall k, (0 <= k < 3)%Z -> angular_momentum L k (pick Ws k)) /\
    (forall Ms (sz : Z -> Z), (forall k, (0 <= k < 3)%Z -> adims (pick Ms k) = [sz k]) -> (forall k, (0 <= k < 3)%Z -> sv_size A * sv_size B <= sz k)%Z ->
      exists Ms', spin_orbit_integrals fuel par bessel erf st true A B C U Ms = Ok Ms' /\ is3mat Ms' sz (sv_size A) (sv_size B) v /\ outside3 (sv_size A * sv_size B) Ms Ms') /\
    forall k i j cA cB, (0 <= k < 3)%Z -> nth_error ca i = Some cA -> nth_error cb j = Some cB ->
      exists w, projected_integral L (pick Ws k) (radial_potential (pv_prims U)) C (phi (Z.of_nat LA) C bra cA) (phi (Z.of_nat LB) C ket cB) w /\
        Rabs (v k (Z.of_nat i) (Z.of_nat j) - w) <= expansion_error zero_thresh zero_thresh (so_bound L) (so_delta L) LA LB 0 0 0 Qm.
Proof.
  intros Hf HI HA HB NA NB Na Nb EL LA14 LB14 HP HEb HEk HPE (HQ0 & HQ).
  destruct (so_accurate fuel par bessel erf st A B C U L LA LB C C bra ket ca cb Hf HI HA HB NA NB Na Nb EL LA14 LB14 HP HEb HEk HPE (or_introl eq_refl) (or_introl eq_refl)) as (t & Ws & v & Et & _ & HM & HV & HW).
  exists Ws, v. split; [exact HM|]. split; [exact HV|]. intros k i j cA cB Hk Hi Hj. specialize (HW 0 Qm (Rle_refl 0) HQ0 (one_center_accuracy fuel par bessel erf A B C U L LA LB bra ket ca cb t Qm Hf HA HB EL HP HEb HEk HPE HQ0 HQ Et) k i j cA cB Hk Hi Hj).
  rewrite !separation_0 in HW. exact HW.
Qed.
