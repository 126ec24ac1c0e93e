(** * C73: Dawson's integral, and the integrals computed with it

    [dawson_int y] is the integral of exp(t^2 - y^2) from 0 to y, [own_dawson] the
    routine of the library.  The vocabulary of C46, C61 and C30 is explained in
    Properties_Spec.v, Properties_Mmd.v and Properties_Grpp.v. *)

From Coq Require Import ZArith List Lia Bool Reals Lra Permutation.
From Coquelicot Require Import Coquelicot.
From Verif Require Import Base Loops Sums CartModel CartProofs GaussInt GaussProd NucPotSpec NucPot HeapModel HeapProofs HeapSpec HeapGrpp OneElModel OneElProofs OneElPairs OneElSpec OneElInt OneElThms
  LmatModel UtilProofs SpecModel SpecSpec SpecBoys BoysThms GfunThms SphProofs OvGradModel OvDeriv OvGradProofs OvGradThms NucModel NucProofs OutercoreModel OutercoreProofs OutercoreMain OutercoreThms
  MmdModel MmdSpec MmdE MmdR MmdInt MmdD MmdProofs MmdMain MmdThms MmdUser MmdNuc MmdOuter GrppModel GrppFull GrppHeap GrppGrad GrppGrad2 GrppThms GrppGrad3 GrppTerm GrppTermGrad GrppLocal
  DawsonModel DawsonTable DawsonProofs DawsonAcc DawsonThms DawsonUse.
Import ListNotations.
Open Scope R_scope.

(** C73: for every real x the routine returns Dawson's integral with an error of at most
    2^-64, half of LDBL_EPSILON. *)
Theorem C73_dawson_accuracy : forall x, exists v, dawsons_integral dawson_fuel x = Ok v /\ Rabs (v - dawson_int x) <= / 2 ^ 64.
Proof. exact dawson_accuracy_thm. Qed.
Print Assumptions C73_dawson_accuracy.

(** C73: so the functions G_n needed for the power 1/r^2 are returned with an error of
    at most 2^-65 for x > 12 and n <= 18, whatever the array contained before. *)
Theorem C73_g_functions : forall x nmax sz g,
  (0 <= nmax <= 18)%Z -> 12 < x -> adims g = [sz] -> (nmax < sz)%Z ->
  exists g', gfun_values own_dawson x nmax g = Ok g' /\
    forall n, (0 <= n <= nmax)%Z -> exists v, aget g' [n] = Ok v /\ Rabs (v - gfun (Z.to_nat n) x) <= / 2 ^ 65.
Proof. exact gfun_own_thm. Qed.
Print Assumptions C73_g_functions.

(** C61: the local integrals computed by the library as a whole, with no assumption on Dawson's integral. *)
Theorem C61_with_own_dawson : forall h pA pB vA vB ca cb C pot M, heap_wf h -> std_shell h pA vA ca -> std_shell h pB vB cb ->
  (v_L vA <= 9)%Z -> (v_L vB <= 9)%Z -> (v_L vA + v_L vB <= 15)%Z -> exps_pos vA -> exps_pos vB -> fits M vA vB ->
  (forall n cf al, In (n, cf, al) (pv_prims pot) -> (0 <= n <= 2)%Z /\ 0 <= al) ->
  exists M', type1_call own_dawson true h pA pB C (Some pot) M = Ok M' /\ only_block M M' vA vB /\
    forall m n cA cB, nth_error ca m = Some cA -> nth_error cb n = Some cB ->
      exists s v, elem_at M' vB m n = Ok s /\ pot_int C (pv_prims pot) (fun x y z => phi_kept vA cA x y z * phi_kept vB cB x y z) v /\
        Rabs (s - v) <= 15 / 10 ^ 10 * amplification vA vB C (pv_prims pot) cA cB.
Proof. exact local_own_dawson. Qed.
Print Assumptions C61_with_own_dawson.

(** C30: the gradient of a local potential, with no assumption on Dawson's integral. *)
Theorem C30_with_own_dawson : forall rt h pA pB C pot U vA vB ca cb e,
  heap_wf h -> rt_init rt = true -> rt_type1 rt = type1_integrals own_dawson true -> std_shell h pA vA ca -> std_shell h pB vB cb -> view_pot h pot = Ok U -> 0 <= e ->
  (v_L vA <= 8)%Z -> (v_L vB <= 8)%Z -> (v_L vA + v_L vB <= 14)%Z -> exps_pos vA -> exps_pos vB -> significant vA -> significant vB ->
  (forall n cf al, In (n, cf, al) (pv_prims U) -> (0 <= n <= 2)%Z /\ 0 <= al) ->
  error_bound vA vB C (pv_prims U) (15 / 10 ^ 10) e ->
  exists bra ket, deriv_close (local_V C (pv_prims U)) vA vB ca cb e bra ket /\
    forall ord oob D grad, may_overread oob vA vB -> told_apart [v_origin vA; v_origin vB; C; D] -> grad_fits grad vA vB ->
      exists h' grad', type1_integrals_gradient ord oob rt h pA pB C pot D grad = Ok (h', grad') /\ heap_wf h' /\ (forall q, hblk h' q = hblk h q) /\
        only_grad grad grad' vA vB /\ holds_gradient grad' vA vB ca cb C D bra ket.
Proof. exact gradient_own_dawson. Qed.
Print Assumptions C30_with_own_dawson.

(** the six decimal expansions and the power series meet at their ends *)
Example C73_case : exists v, own_dawson 1 = Ok v /\ 0.53807950691276 < v < 0.53807950691277.
Proof.
  destruct (dawson_accuracy_thm 1) as (v & E & B). exists v. split; [exact E|]. pose proof dawson_at_1 as A.
  assert (El : exists z, z = laltz (coefs daw_1_175)) by eauto. destruct El as (z & El). rewrite <- El in A. vm_compute in El. change (10 ^ 44)%Z with 100000000000000000000000000000000000000000000%Z in A. subst z.
  apply Rabs_le_between in A. apply Rabs_le_between in B. lra.
Qed.

Example C73_case_g : exists g' v, gfun_values own_dawson 20 6 (aundef [100]%Z) = Ok g' /\ aget g' [6%Z] = Ok v /\ Rabs (v - gfun 6 20) <= / 2 ^ 65.
Proof. destruct (C73_g_functions 20 6 100 (aundef [100]%Z) ltac:(lia) ltac:(lra) eq_refl ltac:(lia)) as (g' & E & P). destruct (P 6%Z ltac:(lia)) as (v & Ev & B). exists g', v. auto. Qed.
