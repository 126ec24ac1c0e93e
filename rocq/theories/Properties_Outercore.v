(** * C49, C50, C51, C59: the outercore integrals

    [oc_data] describes one outercore shell (L, 2J, potential, contraction),
    [orbital o C m] the orbital |n L m> at C, [arep_value] and [so_value] the
    matrix element of the operator
      sum_i w_i (U_i P_i + P_i U_i) - sum_ij w_i P_i (U_i + U_j)/2 P_j
    (i, j of equal L and J) and of its spin-orbit part.  The routine for the
    type-1 integrals is an argument [t1]. *)

From Coq Require Import ZArith List Lia Bool Reals Lra.
From Coquelicot Require Import Coquelicot.
From Verif Require Import Base Sums OneElModel OneElPairs OneElInt OneElSpec GaussProd NumSpec NucPotSpec HeapShrink SphThms OutercoreModel OutercoreProofs OutercoreRadial OutercoreSpec OutercoreMain OutercoreThms OutercoreWitness.
Import ListNotations.
Open Scope R_scope.

(** C59: the four matrices are those of the outercore operator between the functions of A and B, with exact overlaps, exact radial integrals and the generators of rotations of each L, provided the type-1 routine returns exact integrals. The only deviation is the factor [ratio], which comes from the rounded table of radial norms. *)
Theorem C59_operator : forall t1 A B C LA LB oA oB la lb ca cb cart ta tb ocs os out szs,
  vshell_is A LA oA la ca -> vshell_is B LB oB lb cb -> (0 <= LA <= 9)%Z -> (0 <= LB <= 9)%Z -> exps la -> exps lb ->
  (forall l, components_of l (cart l)) -> Forall2 (oc_is cart) ocs os -> List.Forall oc_valid os ->
  Forall2 (oc_t1 t1 A B C ta tb) ocs os ->
  (forall o i c, In o os -> (0 <= i < Z.of_nat (length ca))%Z -> (0 <= c < Z.of_nat (length (cart (oc_l o))))%Z ->
     is_int3 (fun x y z => phi LA oA la (comp ca i) x y z * oc_U o C x y z * phi (Z.of_nat (oc_l o)) C (oc_prims o) (comp (cart (oc_l o)) c) x y z) (ta o i c)) ->
  (forall o c j, In o os -> (0 <= c < Z.of_nat (length (cart (oc_l o))))%Z -> (0 <= j < Z.of_nat (length cb))%Z ->
     is_int3 (fun x y z => phi (Z.of_nat (oc_l o)) C (oc_prims o) (comp (cart (oc_l o)) c) x y z * (oc_U o C x y z * phi LB oB lb (comp cb j) x y z)) (tb o c j)) ->
  fits4 A B out szs ->
  exists out' SA UA SB UB delta ratio W,
    outercore_potential_integrals t1 A B C ocs out = Ok (out', map (fun '(pot, s) => (pot, move_shell s C)) ocs) /\ out4 (sv_size A * sv_size B) out out' /\
    (forall o i m, In o os -> (0 <= i < Z.of_nat (length ca))%Z -> (Z.abs m <= Z.of_nat (oc_l o))%Z ->
       is_int3 (fun x y z => phi LA oA la (comp ca i) x y z * orbital o C m x y z) (SA i o m) /\
       is_int3 (fun x y z => phi LA oA la (comp ca i) x y z * oc_U o C x y z * orbital o C m x y z) (UA i o m)) /\
    (forall o j m, In o os -> (0 <= j < Z.of_nat (length cb))%Z -> (Z.abs m <= Z.of_nat (oc_l o))%Z ->
       is_int3 (fun x y z => orbital o C m x y z * phi LB oB lb (comp cb j) x y z) (SB j o m) /\
       is_int3 (fun x y z => orbital o C m x y z * (oc_U o C x y z * phi LB oB lb (comp cb j) x y z)) (UB j o m)) /\
    (forall o o', In o os -> In o' os -> same_lj o o' ->
       half_int (fun r => oc_radial o r * ((radial_sum (oc_pot o) r + radial_sum (oc_pot o') r) / 2) * oc_radial o' r * r ^ 2) (delta o o')) /\
    (forall l, (l <= 9)%nat -> Rabs (ratio l - 1) <= 2 / 10 ^ 15) /\
    (forall l, rotation_generators (Z.of_nat l) (W 0%Z l) (W 1%Z l) (W 2%Z l)) /\
    four out' szs (sv_size A) (sv_size B) (fun k i j =>
      if (k =? -1)%Z then arep_value os (fun o o' => ratio (oc_l o) ^ 2 * delta o o') (SA i) (SB j) (UA i) (UB j)
      else so_value os (W k) (fun o o' => ratio (oc_l o) ^ 2 * delta o o') (SA i) (SB j) (UA i) (UB j)).
Proof. exact outercore_true. Qed.
Print Assumptions C59_operator.

(** C59: the radial norm is the normalising constant of r^l exp(-a r^2) up to 2e-15. *)
Theorem C59_radial_norm : forall l a,
  (l < 20)%nat -> 0 < a ->
  exists v n, radial_gto_norm_factor (Z.of_nat l) a = Ok v /\ 0 < n /\ half_int (fun r => (n * (r ^ l * exp (- a * r ^ 2))) ^ 2 * r ^ 2) 1 /\ Rabs (v - n) <= 2 / 10 ^ 15 * n.
Proof. exact radial_factor. Qed.
Print Assumptions C59_radial_norm.

(** C49: exchanging bra and ket transposes the averaged matrix and transposes and negates the spin-orbit matrices, when the type-1 routine is symmetric. *)
Theorem C49_exchange : forall t1 A B C LA LB oA oB la lb ca cb cart ta tb ocs os out1 szs1 out2 szs2,
  vshell_is A LA oA la ca -> vshell_is B LB oB lb cb -> (0 <= LA <= 9)%Z -> (0 <= LB <= 9)%Z -> exps la -> exps lb ->
  Forall2 (oc_is cart) ocs os -> List.Forall oc_valid os ->
  Forall2 (oc_t1 t1 A B C ta tb) ocs os -> Forall2 (oc_t1 t1 B A C (transpose tb) (transpose ta)) ocs os ->
  fits4 A B out1 szs1 -> fits4 B A out2 szs2 ->
  exists out1' out2' ocs', outercore_potential_integrals t1 A B C ocs out1 = Ok (out1', ocs') /\ outercore_potential_integrals t1 B A C ocs out2 = Ok (out2', ocs') /\
    forall i j, (0 <= i < sv_size A)%Z -> (0 <= j < sv_size B)%Z ->
      (exists v, elem4 out1' (sv_size B) (-1) i j = Ok v /\ elem4 out2' (sv_size A) (-1) j i = Ok v) /\
      forall k, (0 <= k <= 2)%Z -> exists v, elem4 out1' (sv_size B) k i j = Ok v /\ elem4 out2' (sv_size A) k j i = Ok (- v).
Proof. exact outercore_exchange. Qed.
Print Assumptions C49_exchange.

(** C49: pairs of shells of different L or J do not contribute. *)
Theorem C49_selection : forall A B C pot1 pot2 oc1 oc2 out,
  pv_L pot1 <> pv_L pot2 \/ pv_J pot1 <> pv_J pot2 -> outercore_part_2 A B C pot1 oc1 pot2 oc2 out = Ok out.
Proof. exact pair_rule. Qed.
Print Assumptions C49_selection.

(** C50: the primitive one-centre integral is the integral of r^(2L+n) exp(-a r^2); for even powers above 30 the process is stopped instead. *)
Theorem C50_radial : forall L a1 a2 n zeta,
  (0 <= L)%Z -> (0 <= n)%Z -> 0 < a1 + a2 + zeta ->
  ((2 * L + n <= 31)%Z -> exists v, analytic_one_center_rpp_integral_primitive L a1 a2 n zeta = Ok v /\
     half_int (fun r => r ^ Z.to_nat (2 * L + n) * exp (- (a1 + a2 + zeta) * r ^ 2)) v) /\
  ((32 <= 2 * L + n)%Z -> Z.even n = true -> analytic_one_center_rpp_integral_primitive L a1 a2 n zeta = Fail AssertFailed).
Proof. exact one_center_primitive. Qed.
Print Assumptions C50_radial.

(** C51: the normalisation is memory safe exactly for L <= 19. *)
Theorem C51_limit : forall L,
  (0 <= L)%Z -> (normalisation_safe L <-> (L <= 19)%Z).
Proof. exact normalisation_limit. Qed.
Print Assumptions C51_limit.

(** C51: a call that reads outside the table. *)
Theorem C51_refuted : exists L, (0 <= L)%Z /\ radial_gto_norm_factor L 1 = Fail OutOfBounds.
Proof. exact normalisation_refuted. Qed.
Print Assumptions C51_refuted.

(** three p-type shells with J = 1/2, 3/2, 3/2 on a third centre, between an s and a d shell *)
Example C59_case : exists out' ocs', outercore_potential_integrals w_t1 w_A w_B w_C w_pots (zeros 6, zeros 6, zeros 6, zeros 6) = Ok (out', ocs') /\ length ocs' = 3%nat.
Proof.
  destruct (C59_operator w_t1 w_A w_B w_C 0 2 (0, 0, 1) (1, 0, -1) [(1, 2)] [(1, 1 / 2)] [(0, 0, 0)%Z] (w_cart 2) w_cart w_ta w_tb w_pots w_os _ _
    w_A_is w_B_is ltac:(lia) ltac:(lia) (one_exp 1 2 ltac:(lra)) (one_exp 1 (1 / 2) ltac:(lra)) w_cart_ok w_data w_valid w_t1_ok w_ta_int w_tb_int (proj1 w_fits))
    as (out' & ? & ? & ? & ? & ? & ? & ? & E & _).
  eexists _, _. split; [exact E|reflexivity].
Qed.

Example C49_case : Forall2 (oc_is w_cart) w_pots w_os /\ List.Forall oc_valid w_os /\
  Forall2 (oc_t1 w_t1 w_A w_B w_C w_ta w_tb) w_pots w_os /\ Forall2 (oc_t1 w_t1 w_B w_A w_C (transpose w_tb) (transpose w_ta)) w_pots w_os /\
  same_ljb (w_o 3 2) (w_o 3 (1 / 3)) = true /\ same_ljb (w_o 1 1) (w_o 3 2) = false.
Proof. exact (conj w_data (conj w_valid (conj w_t1_ok (conj w_t1_swapped (conj eq_refl eq_refl))))). Qed.

Example C50_case : (0 <= 9)%Z /\ (0 <= 2)%Z /\ 0 < 1 + 2 + 0 /\ (2 * 9 + 2 <= 31)%Z /\ (32 <= 2 * 15 + 2)%Z.
Proof. repeat split; try lia; lra. Qed.

Example C51_case : normalisation_safe 19 /\ ~ normalisation_safe 20.
Proof. split; [|intros H]; [apply (normalisation_limit 19)|apply (normalisation_limit 20) in H]; lia. Qed.
