(** * C40-C43, C61-C63: local (type-1) integrals in the McMurchie-Davidson scheme

    [local_int n C F v]: v is the integral over space of F r_C^(n-2).  For n = 2 it is
    an iterated improper integral, for n = 1 and n = 0 the power of r_C is written as a
    superposition of Gaussians (see C61_kernels).  [pot_int C terms F v] is the integral
    of F times a potential, the sum over its terms.  [phi_kept v c] is the contracted
    function of component c of the shell v, without the primitives whose coefficient is
    below the documented threshold 1e-14.  The routine for Dawson's integral is an
    argument [daw]. *)

From Coq Require Import ZArith List Lia Bool Reals Lra.
From Coquelicot Require Import Coquelicot.
From Verif Require Import Base Sums GfunThms CartModel CartProofs GaussInt GaussProd NucPotSpec HeapModel HeapProofs HeapShrink HeapSpec NumSpec OneElModel OneElProofs OneElPairs OneElSpec OneElInt OneElThms SpecModel SpecSpec SphProofs SphThms NucModel NucProofs
  OutercoreModel OutercoreProofs OutercoreRadial OutercoreSpec OutercoreMain OutercoreThms OutercoreWitness MmdModel MmdSpec MmdInt MmdD MmdMain MmdThms MmdUser MmdNuc MmdOuter.
Import ListNotations.
Open Scope R_scope.

(** C40: the table E holds, for every axis and every pair of powers, coefficients that expand the product of two Cartesian Gaussians and the Gaussian of the potential in Hermite Gaussians; every cell needed has been written. *)
Theorem C40_expansion : forall a b c A B C L_A L_B,
  0 < a + b + c -> (0 <= L_A <= 9)%Z -> (0 <= L_B <= 9)%Z ->
  exists E, setup_E_array (mmd_geometry a b c A B C) L_A L_B = Ok E /\
    forall k i j, (0 <= k < 3)%Z -> (Z.of_nat i <= L_A)%Z -> (Z.of_nat j <= L_B)%Z ->
      exists e : nat -> R, (forall t, (t <= i + j)%nat -> aget E [k; Z.of_nat i; Z.of_nat j; Z.of_nat t] = Ok (e t)) /\
        forall x, cg a (coord3 A k) i x * cg b (coord3 B k) j x * exp (- (c * ((x - coord3 C k) * (x - coord3 C k)))) =
          rsum (S (i + j)) (fun t => e t * hermite_gaussian (a + b + c) ((a * coord3 A k + b * coord3 B k + c * coord3 C k) / (a + b + c)) t x).
Proof. exact expansion_thm. Qed.
Print Assumptions C40_expansion.

(** C41: potentials whose terms have power 2: the elements are exactly the integrals over space of bra times potential times ket. *)
Theorem C41_gaussian_terms : forall daw h pA pB vA vB ca cb C pot M,
  heap_wf h -> std_shell h pA vA ca -> std_shell h pB vB cb ->
  (v_L vA <= 9)%Z -> (v_L vB <= 9)%Z -> fits M vA vB -> power2 vA vB (pv_prims pot) ->
  exists M', type1_call daw true h pA pB C (Some pot) M = Ok M' /\ only_block M M' vA vB /\
    forall m n cA cB, nth_error ca m = Some cA -> nth_error cb n = Some cB ->
      exists s, elem_at M' vB m n = Ok s /\ is_int3 (fun x y z => phi_kept vA cA x y z * phi_kept vB cB x y z * pot_fun C (pv_prims pot) x y z) s.
Proof. exact gaussian_thm. Qed.
Print Assumptions C41_gaussian_terms.

(** C42: whenever the routine returns, every element is the sum over the terms of the coefficient times the element for that term alone, every power is 0, 1 or 2 and nothing outside the matrix is written. *)
Theorem C42_sum_over_terms : forall daw h pA pB vA vB ca cb C pot M M',
  heap_wf h -> std_shell h pA vA ca -> std_shell h pB vB cb -> fits M vA vB ->
  type1_call daw true h pA pB C (Some pot) M = Ok M' ->
  only_block M M' vA vB /\
  forall k, (0 <= k < v_size vA * v_size vB)%Z -> exists vs,
    Forall2 (fun '(n, cf, al) v => (n = 0 \/ n = 1 \/ n = 2)%Z /\ exists Mt, type1_call daw true h pA pB C (Some (single pot n al)) M = Ok Mt /\ aget Mt [k] = Ok v) (pv_prims pot) vs /\
    aget M' [k] = Ok (lsum (fun '((n, cf, al), v) => cf * v) (combine (pv_prims pot) vs)).
Proof. exact linear_thm. Qed.
Print Assumptions C42_sum_over_terms.

(** C42: without a potential the matrix is zero. *)
Theorem C42_null_potential : forall daw h pA pB vA vB ca cb C M,
  heap_wf h -> std_shell h pA vA ca -> std_shell h pB vB cb -> fits M vA vB ->
  exists M', type1_call daw true h pA pB C None M = Ok M' /\ only_block M M' vA vB /\ forall k, (0 <= k < v_size vA * v_size vB)%Z -> aget M' [k] = Ok 0.
Proof. exact null_thm. Qed.
Print Assumptions C42_null_potential.

(** C42: with a term of another power no matrix is returned. *)
Theorem C42_other_powers : forall daw h pA pB vA vB ca cb C pot M n cf al,
  heap_wf h -> std_shell h pA vA ca -> std_shell h pB vB cb -> fits M vA vB ->
  In (n, cf, al) (pv_prims pot) -> (n < 0 \/ 2 < n)%Z -> forall M', type1_call daw true h pA pB C (Some pot) M <> Ok M'.
Proof. exact power_thm. Qed.
Print Assumptions C42_other_powers.

(** C42: if it is the first term the call stops at the assertion. *)
Theorem C42_other_power_first : forall daw h pA pB vA vB ca cb C L J n cf al rest M,
  heap_wf h -> std_shell h pA vA ca -> std_shell h pB vB cb -> fits M vA vB ->
  (n < 0 \/ 2 < n)%Z -> type1_call daw true h pA pB C (Some (mkVPot L J ((n, cf, al) :: rest))) M = Fail AssertFailed.
Proof. exact power_first_thm. Qed.
Print Assumptions C42_other_power_first.

(** C42: before libgrpp_init the call stops at the assertion. *)
Theorem C42_library_not_initialised : forall daw h pA pB vA vB ca cb C pot M,
  heap_wf h -> std_shell h pA vA ca -> std_shell h pB vB cb ->
  type1_call daw false h pA pB C pot M = Fail AssertFailed.
Proof. exact uninit_thm. Qed.
Print Assumptions C42_library_not_initialised.

(** C43: the array R, filled from exact Boys functions, contains the mixed partial derivatives of F_0(q R^2) at the vector from C to the centre of the product, for all orders up to L_A + L_B. *)
Theorem C43_coulomb_derivatives : forall a b c A B C L_A L_B bs,
  (0 <= L_A <= 9)%Z -> (0 <= L_B <= 9)%Z ->
  (forall n, (0 <= n <= L_A + L_B)%Z -> aget bs [n] = Ok (boys (Z.to_nat n) (pair_arg a b c A B C))) ->
  exists Rr D, setup_R_array (mmd_geometry a b c A B C) bs L_A L_B = Ok Rr /\
    partials (fun X Y Z => boys 0 ((a + b + c) * (X ^ 2 + Y ^ 2 + Z ^ 2))) D /\
    forall t u v, (Z.of_nat t + Z.of_nat u + Z.of_nat v <= L_A + L_B)%Z ->
      aget Rr [Z.of_nat t; Z.of_nat u; Z.of_nat v; 0%Z] = Ok (D t u v (pair_X a b c A B C 0) (pair_X a b c A B C 1) (pair_X a b c A B C 2)).
Proof. exact coulomb_thm. Qed.
Print Assumptions C43_coulomb_derivatives.

(** C43: the same for the array G and the function G_0(q R^2). *)
Theorem C43_inverse_square_derivatives : forall a b c A B C L_A L_B bs,
  (0 <= L_A <= 9)%Z -> (0 <= L_B <= 9)%Z ->
  (forall n, (0 <= n <= L_A + L_B)%Z -> aget bs [n] = Ok (gfun (Z.to_nat n) (pair_arg a b c A B C))) ->
  exists Rr D, setup_G_array (mmd_geometry a b c A B C) bs L_A L_B = Ok Rr /\
    partials (fun X Y Z => gfun 0 ((a + b + c) * (X ^ 2 + Y ^ 2 + Z ^ 2))) D /\
    forall t u v, (Z.of_nat t + Z.of_nat u + Z.of_nat v <= L_A + L_B)%Z ->
      aget Rr [Z.of_nat t; Z.of_nat u; Z.of_nat v; 0%Z] = Ok (D t u v (pair_X a b c A B C 0) (pair_X a b c A B C 1) (pair_X a b c A B C 2)).
Proof. exact coulomb_G_thm. Qed.
Print Assumptions C43_inverse_square_derivatives.

(** C61: the superposition with weight [w1] is 1/r. *)
Theorem C61_kernel_1 : forall rho,
  0 < rho -> half_int (fun u => w1 u * exp (- (u ^ 2 * rho ^ 2))) (1 / rho).
Proof. exact one_over_r. Qed.
Print Assumptions C61_kernel_1.

(** C61: the superposition with weight [w2] is 1/r^2. *)
Theorem C61_kernel_2 : forall rho,
  0 < rho -> half_int (fun u => w2 u * exp (- (u ^ 2 * rho ^ 2))) (1 / rho ^ 2).
Proof. exact one_over_r2. Qed.
Print Assumptions C61_kernel_2.

(** C61: for L_A + L_B <= 15 and a routine for Dawson's integral with error up to 1.5e-9 the elements differ from the integrals of the potential by at most that error times an explicit factor. *)
Theorem C61_local_integrals : forall daw h pA pB vA vB ca cb C pot M,
  heap_wf h -> std_shell h pA vA ca -> std_shell h pB vB cb ->
  (v_L vA <= 9)%Z -> (v_L vB <= 9)%Z -> (v_L vA + v_L vB <= 15)%Z -> exps_pos vA -> exps_pos vB -> fits M vA vB ->
  dawson_accurate daw (15 / 10 ^ 10) -> (forall n cf al, In (n, cf, al) (pv_prims pot) -> (0 <= n <= 2)%Z /\ 0 <= al) ->
  exists M', type1_call daw true h pA pB C (Some pot) M = Ok M' /\ only_block M M' vA vB /\
    forall m n cA cB, nth_error ca m = Some cA -> nth_error cb n = Some cB ->
      exists s v, elem_at M' vB m n = Ok s /\ pot_int C (pv_prims pot) (fun x y z => phi_kept vA cA x y z * phi_kept vB cB x y z) v /\
        Rabs (s - v) <= 15 / 10 ^ 10 * amplification vA vB C (pv_prims pot) cA cB.
Proof. exact local_thm. Qed.
Print Assumptions C61_local_integrals.

(** C61: the same with the exact conditions of the special functions: for every delta that bounds their errors ([within]) the elements are within delta times that factor. *)
Theorem C61_local_integrals_range : forall daw h pA pB vA vB ca cb C pot M delta,
  heap_wf h ->
  std_shell h pA vA ca -> std_shell h pB vB cb -> (v_L vA <= 9)%Z -> (v_L vB <= 9)%Z -> fits M vA vB ->
  0 <= delta -> within daw vA vB C (pv_prims pot) delta ->
  exists M', type1_call daw true h pA pB C (Some pot) M = Ok M' /\ only_block M M' vA vB /\
    forall m n cA cB, nth_error ca m = Some cA -> nth_error cb n = Some cB ->
      exists s v, elem_at M' vB m n = Ok s /\ pot_int C (pv_prims pot) (fun x y z => phi_kept vA cA x y z * phi_kept vB cB x y z) v /\
        Rabs (s - v) <= delta * amplification vA vB C (pv_prims pot) cA cB.
Proof. exact type1_thm. Qed.
Print Assumptions C61_local_integrals_range.

(** C62: the integrals of the attraction to a point charge are -Z times the integrals of 1/r, within 1.5e-14 times |Z| and an explicit factor. *)
Theorem C62_point_charge : forall sf ev h pA pB vA vB ca cb C charge M,
  point_mmd ev -> heap_wf h -> std_shell h pA vA ca -> std_shell h pB vB cb ->
  (v_L vA <= 9)%Z -> (v_L vB <= 9)%Z -> exps_pos vA -> exps_pos vB -> fits M vA vB -> boys_range vA vB C ->
  exists M', conv_call sf ev PointCharge true h pA pB C charge M = Ok M' /\ only_block M M' vA vB /\
    forall m n cA cB, nth_error ca m = Some cA -> nth_error cb n = Some cB ->
      exists s v, elem_at M' vB m n = Ok s /\ kernel_int w1 C (density vA vB cA cB) v /\
        Rabs (s - - IZR charge * v) <= 15 / 10 ^ 15 * Rabs (IZR charge) * coulomb_amplification vA vB C cA cB.
Proof. exact point_integral_thm. Qed.
Print Assumptions C62_point_charge.

(** C63: a 1/r term between shells with L_A + L_B >= 16 aborts when the argument of the Boys function exceeds 30. *)
Theorem C63_coulomb_abort : forall daw h pA pB vA vB ca cb C L J cf al rest c1 a1 r1 c2 a2 r2 M,
  heap_wf h -> std_shell h pA vA ca -> std_shell h pB vB cb -> fits M vA vB ->
  v_prims vA = (c1, a1) :: r1 -> v_prims vB = (c2, a2) :: r2 -> 1 / 10 ^ 14 <= Rabs c1 -> 1 / 10 ^ 14 <= Rabs c2 ->
  (16 <= v_L vA + v_L vB <= 98)%Z -> 30 < pair_arg a1 a2 al (v_origin vA) (v_origin vB) C ->
  type1_call daw true h pA pB C (Some (mkVPot L J ((1%Z, cf, al) :: rest))) M = Fail AssertFailed.
Proof. exact abort_thm. Qed.
Print Assumptions C63_coulomb_abort.

(** C63: the same for the attraction to a point charge. *)
Theorem C63_point_charge_abort : forall sf ev h pA pB vA vB ca cb C charge c1 a1 r1 c2 a2 r2 M,
  point_mmd ev -> heap_wf h -> std_shell h pA vA ca -> std_shell h pB vB cb -> fits M vA vB ->
  v_prims vA = (c1, a1) :: r1 -> v_prims vB = (c2, a2) :: r2 -> 1e-13 <= Rabs (c1 * c2) ->
  (16 <= v_L vA + v_L vB <= 98)%Z -> 30 < pair_arg a1 a2 0 (v_origin vA) (v_origin vB) C ->
  conv_call sf ev PointCharge true h pA pB C charge M = Fail AssertFailed.
Proof. exact point_abort_thm. Qed.
Print Assumptions C63_point_charge_abort.

(** C63: with L_A = 10 no matrix is returned: the table E is overrun. *)
Theorem C63_L10 : forall daw h pA pB vA vB ca cb C L J n cf al rest c1 a1 r1 c2 a2 r2 M,
  heap_wf h -> std_shell h pA vA ca -> std_shell h pB vB cb -> fits M vA vB ->
  v_prims vA = (c1, a1) :: r1 -> v_prims vB = (c2, a2) :: r2 -> 1 / 10 ^ 14 <= Rabs c1 -> 1 / 10 ^ 14 <= Rabs c2 -> (10 <= v_L vA)%Z ->
  forall M', type1_call daw true h pA pB C (Some (mkVPot L J ((n, cf, al) :: rest))) M <> Ok M'.
Proof. exact l10_thm. Qed.
Print Assumptions C63_L10.

(** C63: a call within the documented limits that aborts. *)
Theorem C63_refuted : exists h pA pB vA vB ca cb C pot M,
  heap_wf h /\ std_shell h pA vA ca /\ std_shell h pB vB cb /\ (v_L vA <= 10)%Z /\ (v_L vB <= 10)%Z /\ exps_pos vA /\ exps_pos vB /\ fits M vA vB /\
  (forall n cf al, In (n, cf, al) (pv_prims pot) -> (0 <= n <= 2)%Z /\ 0 <= al) /\
  forall daw, type1_call daw true h pA pB C (Some pot) M = Fail AssertFailed.
Proof. exact no_result_refuted. Qed.
Print Assumptions C63_refuted.

(** C59: the outercore theorem with the library's own type-1 routine, for outercore potentials of power 2: no assumption on the type-1 integrals is left. *)
Theorem C59_with_own_type1 : forall daw A B C LA LB oA oB la lb ca cb cart ocs os out szs,
  vshell_is A LA oA la ca -> vshell_is B LB oB lb cb -> (0 <= LA <= 9)%Z -> (0 <= LB <= 9)%Z -> exps la -> exps lb ->
  none_negligible la -> none_negligible lb ->
  (forall l, components_of l (cart l)) -> Forall2 (oc_is cart) ocs os -> List.Forall oc_valid os ->
  (forall o, In o os -> gaussian_terms (oc_pot o) /\ none_negligible (oc_prims o)) ->
  fits4 A B out szs ->
  exists out' SA UA SB UB delta ratio W,
    outercore_potential_integrals (own_t1 daw) A B C ocs out = Ok (out', map (fun '(pot, s) => (pot, move_shell s C)) ocs) /\ out4 (sv_size A * sv_size B) out out' /\
    (forall o i m, In o os -> (0 <= i < Z.of_nat (length ca))%Z -> (Z.abs m <= Z.of_nat (oc_l o))%Z ->
       is_int3 (fun x y z => phi LA oA la (comp ca i) x y z * orbital o C m x y z) (SA i o m) /\
       is_int3 (fun x y z => phi LA oA la (comp ca i) x y z * oc_U o C x y z * orbital o C m x y z) (UA i o m)) /\
    (forall o j m, In o os -> (0 <= j < Z.of_nat (length cb))%Z -> (Z.abs m <= Z.of_nat (oc_l o))%Z ->
       is_int3 (fun x y z => orbital o C m x y z * phi LB oB lb (comp cb j) x y z) (SB j o m) /\
       is_int3 (fun x y z => orbital o C m x y z * (oc_U o C x y z * phi LB oB lb (comp cb j) x y z)) (UB j o m)) /\
    (forall o o', In o os -> In o' os -> same_lj o o' ->
       half_int (fun r => oc_radial o r * ((radial_sum (oc_pot o) r + radial_sum (oc_pot o') r) / 2) * oc_radial o' r * r ^ 2) (delta o o')) /\
    (forall l, (l <= 9)%nat -> Rabs (ratio l - 1) <= 2 / 10 ^ 15) /\
    (forall l, rotation_generators (Z.of_nat l) (W 0%Z l) (W 1%Z l) (W 2%Z l)) /\
    four out' szs (sv_size A) (sv_size B) (fun k i j =>
      if (k =? -1)%Z then arep_value os (fun o o' => ratio (oc_l o) ^ 2 * delta o o') (SA i) (SB j) (UA i) (UB j)
      else so_value os (W k) (fun o o' => ratio (oc_l o) ^ 2 * delta o o') (SA i) (SB j) (UA i) (UB j)).
Proof. exact outercore_own. Qed.
Print Assumptions C59_with_own_type1.

(** a p and a d shell on different centres, a potential with terms of all three powers *)
Example C61_case : exists h pA pB vA vB ca cb M pot,
  heap_wf h /\ std_shell h pA vA ca /\ std_shell h pB vB cb /\ fits M vA vB /\ v_L vA = 2%Z /\ v_L vB = 1%Z /\ exps_pos vA /\ exps_pos vB /\
  dawson_accurate (fun x => Ok (dawson_int x)) (15 / 10 ^ 10) /\ boys_range vA vB (0, 0, 0) /\
  within (fun x => Ok (dawson_int x)) vA vB (0, 0, 0) (pv_prims pot) (15 / 10 ^ 10) /\
  pv_prims pot = [(0%Z, 1, 1 / 2); (1%Z, -3, 0); (2%Z, 1 / 4, 2)] /\ power2 vA vB [(2%Z, 3, 1 / 2); (2%Z, -1, 0)].
Proof.
  destruct (shells_exist [(2%Z, (0, 0, 1)%R, [(1, 3)%R; (2, 1)%R]); (1%Z, (1, 0, 1)%R, [(1, 2)%R])]) as (h & ps & W & F).
  { intros L o pr [E | [E | []]]; injection E as <- <- <-; lia. }
  inversion F as [|? pA ? ? HA F1]; subst. inversion F1 as [|? pB ? ? HB F2]; subst.
  destruct HA as (vA & ca & SA & LA & OA & PA). destruct HB as (vB & cb & SB & LB & OB & PB).
  exists h, pA, pB, vA, vB, ca, cb, (aundef [18%Z]), (mkVPot 0 0 [(0%Z, 1, 1 / 2); (1%Z, -3, 0); (2%Z, 1 / 4, 2)]). split; [exact W|]. split; [exact SA|]. split; [exact SB|].
  assert (NA := std_length _ _ _ _ SA). assert (NB := std_length _ _ _ _ SB). rewrite LA in NA. rewrite LB in NB.
  change (n_cart 2) with 6%Z in NA. change (n_cart 1) with 3%Z in NB.
  split; [exists 18%Z; split; [reflexivity|]; rewrite (std_size _ _ _ _ SA), (std_size _ _ _ _ SB), NA, NB; lia|].
  assert (XA : exps_pos vA) by (intros c a; rewrite PA; intros [E | [E | []]]; injection E as <- <-; lra).
  assert (XB : exps_pos vB) by (intros c a; rewrite PB; intros [E | []]; injection E as <- <-; lra).
  assert (HD : dawson_accurate (fun x => Ok (dawson_int x)) (15 / 10 ^ 10)) by (intros x _; exists (dawson_int x); split; [reflexivity|]; rewrite Rminus_eq_0, Rabs_R0; lra).
  split; [exact LA|]. split; [exact LB|]. split; [exact XA|]. split; [exact XB|]. split; [exact HD|]. split; [left; lia|]. split; [|split; [reflexivity|]].
  2: { split; [intros n cf al [E | [E | []]]; injection E as <- <- <-; reflexivity|]. intros n cf al cA aA cB aB Hin I1 I2. apply kept_in in I1, I2. pose proof (XA _ _ I1). pose proof (XB _ _ I2).
       destruct Hin as [E | [E | []]]; injection E as <- <- <-; lra. }
  apply within_simple; [lia|exact XA|exact XB|exact HD|]. cbn [pv_prims]. intros n cf al [E | [E | [E | []]]]; injection E as <- <- <-; split; try lia; lra.
Qed.

Example C40_case : 0 < 1 + 2 + 0 /\ (0 <= 9 <= 9)%Z /\ (0 <= 3 <= 9)%Z. Proof. repeat split; try lia; lra. Qed.

Example C59_own_case : exists out' ocs', outercore_potential_integrals (own_t1 (fun _ => Fail NoFuel)) w_A w_B w_C w_pots (zeros 6, zeros 6, zeros 6, zeros 6) = Ok (out', ocs') /\ length ocs' = 3%nat.
Proof.
  assert (N1 : forall a, none_negligible [(1, a)]) by (intros a c b [E | []]; injection E as <- <-; rewrite Rabs_R1; lra).
  assert (G : forall o, In o w_os -> gaussian_terms (oc_pot o) /\ none_negligible (oc_prims o)).
  { intros o [<- | [<- | [<- | []]]]; (split; [intros n cf al [E | []]; injection E as <- <- <-; split; [reflexivity|lra]|apply N1]). }
  destruct (C59_with_own_type1 (fun _ => Fail NoFuel) w_A w_B w_C 0 2 (0, 0, 1) (1, 0, -1) [(1, 2)] [(1, 1 / 2)] [(0, 0, 0)%Z] (w_cart 2) w_cart w_pots w_os _ _
    w_A_is w_B_is ltac:(lia) ltac:(lia) (one_exp 1 2 ltac:(lra)) (one_exp 1 (1 / 2) ltac:(lra)) (N1 _) (N1 _) w_cart_ok w_data w_valid G (proj1 w_fits))
    as (out' & ? & ? & ? & ? & ? & ? & ? & E & _).
  eexists _, _. split; [exact E|reflexivity].
Qed.

Example C43_case : exists bs, forall n, (0 <= n <= 4)%Z -> aget bs [n] = Ok (boys (Z.to_nat n) (pair_arg 1 2 0 (0, 0, 0) (1, 0, 0) (0, 1, 0))).
Proof.
  exists (aoflist (map (fun n => boys n (pair_arg 1 2 0 (0, 0, 0) (1, 0, 0) (0, 1, 0))) [0; 1; 2; 3; 4]%nat)). intros n Hn.
  assert (C : (n = 0 \/ n = 1 \/ n = 2 \/ n = 3 \/ n = 4)%Z) by lia. destruct C as [-> | [-> | [-> | [-> | ->]]]]; reflexivity.
Qed.
