(** * C28-C31: the full GRPP integrals and the gradients

    A GRPP object in the heap is described by a [gview]: the local potential (if any), the
    averaged and spin-orbit potentials, the outercore potentials with their shells.
    The routines for the single parts are given as a record [routines]: whatever they
    compute, the theorems say what the driver makes of it.  The last theorems on C30 take
    the type-1 routine of the library itself.

    [V f g v]: the operator has the matrix element v between the functions f and g.
    [accurate ... e]: the integrals between two shells are these elements up to e.
    [dphi v c k]: derivative of a basis function with respect to coordinate k of its centre.
    Matrix -1 is the averaged (scalar) part, 0, 1, 2 are the spin-orbit parts.
    [told_apart]: points which the library takes for the same one (closer than 1e-12 along
    each axis) are the same.
    The library reads elements outside a matrix and multiplies them with zero (see C31);
    [oob] gives the values read there, [None] stops the run instead. *)

From Coq Require Import ZArith List Lia Bool Reals Lra.
From Coquelicot Require Import Coquelicot.
From Verif Require Import Base Loops Sums CartModel CartProofs HeapModel HeapProofs HeapSpec HeapGrpp OneElModel OneElProofs OneElPairs OneElSpec OneElThms
  GaussProd OneElInt LmatModel LmatProofs NumSpec UtilProofs NucPotSpec NucPot GaussMoment RadialModel RadialTables HeapShrink SphModel SphSpec SphProofs SphThms OvGradModel OvDeriv OvGradProofs OvGradThms OutercoreModel OutercoreProofs OutercoreRadial OutercoreSpec OutercoreMain OutercoreThms
  MmdModel MmdSpec MmdMain MmdThms MmdUser MmdNuc MmdOuter GrppModel GrppFull GrppHeap GrppGrad GrppGrad2 GrppThms GrppGrad3 GrppOver GrppTerm GrppTermGrad GrppLocal GrppOc GrppWitness.
Import ListNotations.
Open Scope Z_scope.

(** C28: the averaged matrix is the sum of the local, the averaged and the outercore contributions, the spin-orbit matrices are the sums of the spin-orbit contributions with weights 2/(2L+1) and the outercore ones; the former contents of the matrices do not matter, nothing else is written and the only change in the heap are the origins of the outercore shells. *)
Theorem C28_sum_of_parts : forall rt h pA pB g gv ocp vA vB ca cb C A B out v1 v2 v3 v4,
  heap_wf h -> rt_init rt = true -> std_shell h pA vA ca -> std_shell h pB vB cb -> grpp_at h g gv ocp -> room4 vA vB out ->
  view_shell h pA = Ok A -> view_shell h pB = Ok B -> component_values rt A B C gv v1 v2 v3 v4 ->
  exists out' h', full_grpp_integrals rt h pA pB g C out = Ok (out', h') /\ only4 vA vB out out' /\
    (forall q, hblk h' q = hblk (moved_heap C ocp h) q) /\
    forall i j, 0 <= i < v_size vA -> 0 <= j < v_size vB ->
      aget (mat_k out' (-1)) [i * v_size vB + j] = Ok (v1 i j + lsum (fun U => v2 U i j) (gv_arep gv) + v4 (-1)%Z i j)%R /\
      forall k, 0 <= k < 3 ->
        aget (mat_k out' k) [i * v_size vB + j] = Ok (lsum (fun U => 2 / (2 * IZR (pv_L U) + 1) * v3 U k i j)%R (gv_esop gv) + v4 k i j)%R.
Proof. exact full_thm. Qed.
Print Assumptions C28_sum_of_parts.

(** C28: without a local potential and without outercore potentials these parts contribute nothing. *)
Theorem C28_missing_parts : forall rt daw h pA pB g gv ocp vA vB ca cb C A B out v2 v3,
  heap_wf h -> rt_init rt = true -> rt_type1 rt = type1_integrals daw true -> std_shell h pA vA ca -> std_shell h pB vB cb -> grpp_at h g gv ocp -> room4 vA vB out ->
  view_shell h pA = Ok A -> view_shell h pB = Ok B -> gv_local gv = None -> gv_oc gv = [] ->
  (forall U, In U (gv_arep gv) -> gives1 (rt_type2 rt A B C U) (sv_size A) (sv_size B) (v2 U)) ->
  (forall U, In U (gv_esop gv) -> gives3 (rt_so rt A B C U) (sv_size A) (sv_size B) (v3 U)) ->
  exists out' h', full_grpp_integrals rt h pA pB g C out = Ok (out', h') /\
    forall i j, 0 <= i < v_size vA -> 0 <= j < v_size vB ->
      aget (mat_k out' (-1)) [i * v_size vB + j] = Ok (lsum (fun U => v2 U i j) (gv_arep gv))%R /\
      forall k, 0 <= k < 3 ->
        aget (mat_k out' k) [i * v_size vB + j] = Ok (lsum (fun U => 2 / (2 * IZR (pv_L U) + 1) * v3 U k i j)%R (gv_esop gv))%R.
Proof. exact full_missing. Qed.
Print Assumptions C28_missing_parts.

(** C28: before libgrpp_init the call stops at the assertion. *)
Theorem C28_library_not_initialised : forall rt h pA pB g C out,
  rt_init rt = false -> full_grpp_integrals rt h pA pB g C out = Fail AssertFailed.
Proof. exact full_uninit. Qed.
Print Assumptions C28_library_not_initialised.

(** C29: there are bra and ket derivatives, close to the matrix elements of the differentiated functions, the same for every point D, such that the gradient with respect to D is the sum of those that belong to centres at D; a centre of the operator counts with the opposite sign for both. *)
Theorem C29_derivatives : forall V rt h pA pB g gv ocp C vA vB ca cb e,
  bilinear V -> setting V rt h pA pB g gv ocp C vA vB ca cb e ->
  exists bra ket : Z -> Z -> nat -> nat -> R,
    (forall k, -1 <= k < 3 -> deriv_close (V k) vA vB ca cb e (bra k) (ket k)) /\
    forall ord oob h1 D grad, may_overread oob vA vB -> reached C ocp h h1 -> told_apart [v_origin vA; v_origin vB; C; D] -> grad_room vA vB grad ->
      exists h2 grad', full_grpp_integrals_gradient ord oob rt h1 pA pB g C D grad = Ok (h2, grad') /\ reached C ocp h h2 /\ only_grad4 grad grad' vA vB /\
        forall k, -1 <= k < 3 -> holds_gradient (mat_k grad' k) vA vB ca cb C D (bra k) (ket k).
Proof. exact gradient_parts. Qed.
Print Assumptions C29_derivatives.

(** C29: the gradient is zero if all three centres coincide or D is at none of them. *)
Theorem C29_zero : forall ord oob rt h pA pB g C D vA vB ca cb grad,
  heap_wf h -> std_shell h pA vA ca -> std_shell h pB vB cb -> grad_room vA vB grad ->
  (points_are_equal (v_origin vA) C = true /\ points_are_equal (v_origin vB) C = true) \/
  (points_are_equal (v_origin vA) D = false /\ points_are_equal (v_origin vB) D = false /\ points_are_equal C D = false) ->
  exists grad', full_grpp_integrals_gradient ord oob rt h pA pB g C D grad = Ok (h, grad') /\ only_grad4 grad grad' vA vB /\
    forall k c i j cA cB, -1 <= k < 3 -> 0 <= c < 3 -> nth_error ca i = Some cA -> nth_error cb j = Some cB -> grad4_at grad' vB k c i j = Ok 0%R.
Proof. exact gradient_zero. Qed.
Print Assumptions C29_zero.

(** C29: the gradients with respect to all distinct centres add up to zero. *)
Theorem C29_translation : forall V rt h pA pB g gv ocp C vA vB ca cb e Ds gs k c i j cA cB,
  bilinear V -> setting V rt h pA pB g gv ocp C vA vB ca cb e ->
  NoDup Ds -> told_apart (v_origin vA :: v_origin vB :: C :: Ds) -> In (v_origin vA) Ds -> In (v_origin vB) Ds -> In C Ds ->
  -1 <= k < 3 -> 0 <= c < 3 -> nth_error ca i = Some cA -> nth_error cb j = Some cB ->
  Forall2 (fun D x => exists ord junk h1 grad h2 grad', reached C ocp h h1 /\ grad_room vA vB grad /\
    full_grpp_integrals_gradient ord (Some junk) rt h1 pA pB g C D grad = Ok (h2, grad') /\ grad4_at grad' vB k c i j = Ok x) Ds gs ->
  lsum (fun x => x) gs = 0%R.
Proof. exact translation_thm. Qed.
Print Assumptions C29_translation.

(** C30: the gradient of a local potential, for any routine that computes its integrals up to e; the heap afterwards has the same blocks as before. *)
Theorem C30_local : forall V rt h pA pB C pot U vA vB ca cb e,
  bilinear1 V -> heap_wf h -> rt_init rt = true -> std_shell h pA vA ca -> std_shell h pB vB cb -> view_pot h pot = Ok U -> (0 <= e)%R ->
  around (accurate1 V (fun A B => rt_type1 rt A B C (Some U)) e) vA vB ->
  exists bra ket, deriv_close V vA vB ca cb e bra ket /\
    forall ord oob D grad, may_overread oob vA vB -> told_apart [v_origin vA; v_origin vB; C; D] -> grad_fits grad vA vB ->
      exists h' grad', type1_integrals_gradient ord oob rt h pA pB C pot D grad = Ok (h', grad') /\ heap_wf h' /\ (forall q, hblk h' q = hblk h q) /\
        only_grad grad grad' vA vB /\ holds_gradient grad' vA vB ca cb C D bra ket.
Proof. exact type1_gradient_thm. Qed.
Print Assumptions C30_local.

(** C30: the same for an averaged potential. *)
Theorem C30_averaged : forall V rt h pA pB C pot U vA vB ca cb e,
  bilinear1 V -> heap_wf h -> rt_init rt = true -> null_is_zero rt -> std_shell h pA vA ca -> std_shell h pB vB cb -> view_pot h pot = Ok U -> (0 <= e)%R ->
  around (accurate1 V (fun A B => rt_type2 rt A B C U) e) vA vB ->
  exists bra ket, deriv_close V vA vB ca cb e bra ket /\
    forall ord oob D grad, may_overread oob vA vB -> told_apart [v_origin vA; v_origin vB; C; D] -> grad_fits grad vA vB ->
      exists h' grad', type2_integrals_gradient ord oob rt h pA pB C pot D grad = Ok (h', grad') /\ heap_wf h' /\ (forall q, hblk h' q = hblk h q) /\
        only_grad grad grad' vA vB /\ holds_gradient grad' vA vB ca cb C D bra ket.
Proof. exact type2_gradient_thm. Qed.
Print Assumptions C30_averaged.

(** C30: the same for a spin-orbit potential; the weight 2/(2L+1) of the full operator is undone, so the error is that of the routine. *)
Theorem C30_spin_orbit : forall V rt h pA pB C pot U vA vB ca cb e,
  (forall k, bilinear1 (V k)) -> heap_wf h -> rt_init rt = true -> null_is_zero rt -> std_shell h pA vA ca -> std_shell h pB vB cb -> view_pot h pot = Ok U -> (0 <= e)%R ->
  around (accurate3 V (fun A B => rt_so rt A B C U) e) vA vB ->
  exists bra ket, (forall k, 0 <= k < 3 -> deriv_close (V k) vA vB ca cb e (bra k) (ket k)) /\
    forall ord oob D grad, may_overread oob vA vB -> told_apart [v_origin vA; v_origin vB; C; D] -> (forall k, 0 <= k < 3 -> grad_fits (pick3 grad k) vA vB) ->
      exists h' grad', spin_orbit_integrals_gradient ord oob rt h pA pB C pot D grad = Ok (h', grad') /\ heap_wf h' /\ (forall q, hblk h' q = hblk h q) /\
        forall k, 0 <= k < 3 -> only_grad (pick3 grad k) (pick3 grad' k) vA vB /\ holds_gradient (pick3 grad' k) vA vB ca cb C D (bra k) (ket k).
Proof. exact spin_orbit_gradient_thm. Qed.
Print Assumptions C30_spin_orbit.

(** C30: the same for outercore potentials; the origins of their shells are moved to C. *)
Theorem C30_outercore : forall V rt h pA pB C ocs l vA vB ca cb e,
  bilinear V -> heap_wf h -> rt_init rt = true -> null_is_zero rt -> std_shell h pA vA ca -> std_shell h pB vB cb ->
  Forall2 (fun p x => view_pot h (fst p) = Ok (fst x) /\ view_shell h (snd p) = Ok (snd x)) ocs l -> (length ocs <= 100)%nat -> ~ In pA (map snd ocs) -> ~ In pB (map snd ocs) ->
  around (accurate4 V (fun A B => outercore_potential_integrals (rt_oc rt) A B C l) e) vA vB ->
  exists bra ket, (forall k, -1 <= k < 3 -> deriv_close (V k) vA vB ca cb e (bra k) (ket k)) /\
    forall ord oob D grad, may_overread oob vA vB -> told_apart [v_origin vA; v_origin vB; C; D] -> grad_room vA vB grad ->
      exists h' grad', outercore_integrals_gradient ord oob rt h pA pB C ocs D grad = Ok (h', grad') /\ reached C (map snd ocs) h h' /\
        only_grad4 grad grad' vA vB /\ forall k, -1 <= k < 3 -> holds_gradient (mat_k grad' k) vA vB ca cb C D (bra k) (ket k).
Proof. exact outercore_gradient_thm. Qed.
Print Assumptions C30_outercore.

(** C30: the gradient of a local potential computed with the routine of the library, powers 0, 1 and 2: the derivatives of the integrals, up to the error of the special functions times an explicit factor. *)
Theorem C30_local_own_routine : forall daw rt h pA pB C pot U vA vB ca cb e,
  heap_wf h -> rt_init rt = true -> rt_type1 rt = type1_integrals daw true -> std_shell h pA vA ca -> std_shell h pB vB cb -> view_pot h pot = Ok U -> (0 <= e)%R ->
  v_L vA <= 8 -> v_L vB <= 8 -> v_L vA + v_L vB <= 14 -> exps_pos vA -> exps_pos vB -> significant vA -> significant vB ->
  dawson_accurate daw (15 / 10 ^ 10) -> (forall n cf al, In (n, cf, al) (pv_prims U) -> 0 <= n <= 2 /\ (0 <= al)%R) ->
  error_bound vA vB C (pv_prims U) (15 / 10 ^ 10) e ->
  exists bra ket, deriv_close (local_V C (pv_prims U)) vA vB ca cb e bra ket /\
    forall ord oob D grad, may_overread oob vA vB -> told_apart [v_origin vA; v_origin vB; C; D] -> grad_fits grad vA vB ->
      exists h' grad', type1_integrals_gradient ord oob rt h pA pB C pot D grad = Ok (h', grad') /\ heap_wf h' /\ (forall q, hblk h' q = hblk h q) /\
        only_grad grad grad' vA vB /\ holds_gradient grad' vA vB ca cb C D bra ket.
Proof. exact local_own_gradient. Qed.
Print Assumptions C30_local_own_routine.

(** C30: potentials with terms of power 2: exactly the integrals over space with the differentiated functions. *)
Theorem C30_local_gaussian : forall daw rt h pA pB C pot U vA vB ca cb,
  heap_wf h -> rt_init rt = true -> rt_type1 rt = type1_integrals daw true -> std_shell h pA vA ca -> std_shell h pB vB cb -> view_pot h pot = Ok U ->
  v_L vA <= 8 -> v_L vB <= 8 -> exps_pos vA -> exps_pos vB -> significant vA -> significant vB -> gaussian_terms (pv_prims U) ->
  exists bra ket, deriv_close (int_V C (pv_prims U)) vA vB ca cb 0 bra ket /\
    forall ord oob D grad, may_overread oob vA vB -> told_apart [v_origin vA; v_origin vB; C; D] -> grad_fits grad vA vB ->
      exists h' grad', type1_integrals_gradient ord oob rt h pA pB C pot D grad = Ok (h', grad') /\ heap_wf h' /\ (forall q, hblk h' q = hblk h q) /\
        only_grad grad grad' vA vB /\ holds_gradient grad' vA vB ca cb C D bra ket.
Proof. exact gaussian_own_gradient. Qed.
Print Assumptions C30_local_gaussian.

(** C30: the gradient of outercore potentials with terms of power 2, computed with the routine of the library: exactly the elements of the outercore operator with the differentiated functions (up to the factor of the tables, see C59). *)
Theorem C30_outercore_own_routine : forall daw rt h pA pB C ocs l os cart vA vB ca cb,
  heap_wf h -> rt_init rt = true -> rt_type1 rt = type1_integrals daw true -> std_shell h pA vA ca -> std_shell h pB vB cb ->
  Forall2 (fun p x => view_pot h (fst p) = Ok (fst x) /\ view_shell h (snd p) = Ok (snd x)) ocs l -> (length ocs <= 100)%nat -> ~ In pA (map snd ocs) -> ~ In pB (map snd ocs) ->
  v_L vA <= 8 -> v_L vB <= 8 -> exps_pos vA -> exps_pos vB -> significant vA -> significant vB ->
  (forall l, components_of l (cart l)) -> Forall2 (oc_is cart) l os -> List.Forall oc_valid os -> (forall o, In o os -> gaussian_terms (oc_pot o) /\ none_negligible (oc_prims o)) ->
  exists delta ratio W,
    (forall o o', In o os -> In o' os -> same_lj o o' ->
       half_int (fun r => oc_radial o r * ((radial_sum (oc_pot o) r + radial_sum (oc_pot o') r) / 2) * oc_radial o' r * r ^ 2)%R (delta o o')) /\
    (forall l, (l <= 9)%nat -> Rabs (ratio l - 1) <= 2 / 10 ^ 15)%R /\
    (forall l, rotation_generators (Z.of_nat l) (W 0 l) (W 1 l) (W 2 l)) /\
    exists bra ket, (forall k, -1 <= k < 3 -> deriv_close (oc_V C os (fun o o' => ratio (oc_l o) ^ 2 * delta o o')%R W k) vA vB ca cb 0 (bra k) (ket k)) /\
      forall ord oob D grad, may_overread oob vA vB -> told_apart [v_origin vA; v_origin vB; C; D] -> grad_room vA vB grad ->
        exists h' grad', outercore_integrals_gradient ord oob rt h pA pB C ocs D grad = Ok (h', grad') /\ reached C (map snd ocs) h h' /\
          only_grad4 grad grad' vA vB /\ forall k, -1 <= k < 3 -> holds_gradient (mat_k grad' k) vA vB ca cb C D (bra k) (ket k).
Proof. exact outercore_own_gradient. Qed.
Print Assumptions C30_outercore_own_routine.

(** C31: with every access checked, the gradient stops with an access outside a matrix exactly if a shell with L > 0 is involved in a derivative; otherwise all reads and writes are inside. *)
Theorem C31_bounds_checked : forall ord rt h pA pB g gv ocp C vA vB ca cb D grad,
  setting0 rt h pA pB g gv ocp C vA vB ca cb -> told_apart [v_origin vA; v_origin vB; C; D] -> grad_room vA vB grad ->
  ((0 < v_L vA /\ one_at (v_origin vA) C D) \/ (0 < v_L vB /\ one_at (v_origin vB) C D) -> full_grpp_integrals_gradient ord None rt h pA pB g C D grad = Fail OutOfBounds) /\
  (~ ((0 < v_L vA /\ one_at (v_origin vA) C D) \/ (0 < v_L vB /\ one_at (v_origin vB) C D)) -> exists h' grad', full_grpp_integrals_gradient ord None rt h pA pB g C D grad = Ok (h', grad') /\
     reached C ocp h h' /\ only_grad4 grad grad' vA vB).
Proof. exact checked_thm. Qed.
Print Assumptions C31_bounds_checked.

(** C31: a p shell and an s shell, D at the centre of the p shell: an element outside a matrix is read. *)
Theorem C31_refuted : exists ord rt h pA pB g gv ocp C vA vB ca cb D grad,
  setting0 rt h pA pB g gv ocp C vA vB ca cb /\ told_apart [v_origin vA; v_origin vB; C; D] /\ grad_room vA vB grad /\ v_L vA = 1 /\ v_L vB = 0 /\
  full_grpp_integrals_gradient ord None rt h pA pB g C D grad = Fail OutOfBounds.
Proof. exact overread_refuted. Qed.
Print Assumptions C31_refuted.

(** ** Cases meeting the hypotheses: a p shell and an s shell at different points, operators at the origin *)

Example C28_case : exists h pA pB g vA vB ca cb A B out v1 v2 v3 v4,
  heap_wf h /\ std_shell h pA vA ca /\ std_shell h pB vB cb /\ grpp_at h g (mkGv (Some wU) [wU] [wU] []) [] /\ room4 vA vB out /\
  view_shell h pA = Ok A /\ view_shell h pB = Ok B /\ component_values (stand_in (fun _ => Ok 0%R)) A B wC (mkGv (Some wU) [wU] [wU] []) v1 v2 v3 v4.
Proof.
  destruct scene_exists as (h & pA & pB & pS & u & g & g3 & vA & vB & ca & cb & S0 & Sc).
  destruct (sc_components_values h pA pB pS u g g3 vA vB ca cb S0 (fun _ => Ok 0%R) Sc) as (A & B & v1 & v2 & v3 & v4 & EA & EB & Cv).
  destruct (sc_sizes h pA pB pS u g g3 vA vB ca cb S0 Sc) as (NA & NB). pose proof Sc as (W & SA & SB & _ & _ & _ & _ & _ & _ & _ & _ & _ & _ & _ & _ & G3).
  exists h, pA, pB, g3, vA, vB, ca, cb, A, B, (aundef [3], aconst [3] 5%R, aundef [4], aundef [3]), v1, v2, v3, v4.
  split; [exact W|]. split; [exact SA|]. split; [exact SB|]. split; [exact G3|]. split; [|split; [exact EA|]; split; [exact EB|exact Cv]].
  unfold room4. split; [exists 3|split; [exists 3|split; [exists 4|exists 3]]]; (split; [reflexivity|rewrite NA, NB; lia]).
Qed.

Example C29_case : exists V h pA pB g gv vA vB ca cb grad,
  bilinear V /\ setting V (stand_in (fun _ => Ok 0%R)) h pA pB g gv [] wC vA vB ca cb 0 /\ may_overread (Some (fun _ => 3%R)) vA vB /\
  told_apart [v_origin vA; v_origin vB; wC; (0, 0, 1)%R] /\ grad_room vA vB grad /\ gv_local gv = Some wU /\ v_L vA = 1.
Proof.
  destruct scene_exists as (h & pA & pB & pS & u & g & g3 & vA & vB & ca & cb & S0 & Sc).
  exists (V_scalar (local_V wC (pv_prims wU))), h, pA, pB, g, (only_local wU), vA, vB, ca, cb. eexists.
  split; [apply bilinear_scalar, bilinear_local|]. split; [exact (sc_setting h pA pB pS u g g3 vA vB ca cb S0 (fun _ => Ok 0%R) Sc)|]. split; [left; discriminate|].
  split; [exact (sc_apart h pA pB pS u g g3 vA vB ca cb S0 Sc (0, 0, 1)%R (or_introl eq_refl))|]. split; [exact (sc_room h pA pB pS u g g3 vA vB ca cb S0 Sc)|]. split; [reflexivity|]. apply Sc.
Qed.

Example C30_case : exists h pA pB u vA vB ca cb,
  heap_wf h /\ null_is_zero (stand_in (fun _ => Ok 0%R)) /\ std_shell h pA vA ca /\ std_shell h pB vB cb /\ view_pot h u = Ok wU /\ exps_pos vA /\ exps_pos vB /\ significant vA /\ significant vB /\
  around (accurate1 (local_V wC (pv_prims wU)) (fun A B => rt_type1 (stand_in (fun _ => Ok 0%R)) A B wC (Some wU)) 0) vA vB /\
  around (accurate1 (local_V wC (pv_prims wU)) (fun A B => rt_type2 (stand_in (fun _ => Ok 0%R)) A B wC wU) 0) vA vB /\
  around (accurate3 (fun _ => local_V wC (pv_prims wU)) (fun A B => rt_so (stand_in (fun _ => Ok 0%R)) A B wC wU) 0) vA vB /\ pv_L wU = 1 /\ v_L vA = 1 /\ v_L vB = 0.
Proof.
  destruct scene_exists as (h & pA & pB & pS & u & g & g3 & vA & vB & ca & cb & S0 & Sc). pose proof Sc as (W & SA & SB & _ & _ & LA & _ & _ & LB & _ & _ & EU & _).
  destruct (sc_exps h pA pB pS u g g3 vA vB ca cb S0 Sc) as (XA & XB). destruct (sc_significant h pA pB pS u g g3 vA vB ca cb S0 Sc) as (YA & YB).
  exists h, pA, pB, u, vA, vB, ca, cb. repeat lazymatch goal with |- _ /\ _ => split end; try assumption.
  - apply sc_null.
  - exact (sc_accurate h pA pB pS u g g3 vA vB ca cb S0 (fun _ => Ok 0%R) Sc).
  - exact (sc_accurate h pA pB pS u g g3 vA vB ca cb S0 (fun _ => Ok 0%R) Sc).
  - exact (sc_accurate3 h pA pB pS u g g3 vA vB ca cb S0 (fun _ => Ok 0%R) Sc).
  - reflexivity.
Qed.

Example C30_outercore_case : exists h pA pB u pS l vA vB ca cb,
  heap_wf h /\ std_shell h pA vA ca /\ std_shell h pB vB cb /\
  Forall2 (fun p x => view_pot h (fst p) = Ok (fst x) /\ view_shell h (snd p) = Ok (snd x)) [(u, pS)] l /\ ~ In pA [pS] /\ ~ In pB [pS] /\
  exps_pos vA /\ exps_pos vB /\ significant vA /\ significant vB /\ Forall2 (oc_is (fun l => canon (Z.of_nat l))) l [wO] /\ List.Forall oc_valid [wO] /\
  (forall o, In o [wO] -> gaussian_terms (oc_pot o) /\ none_negligible (oc_prims o)) /\ v_L vA = 1 /\ v_L vB = 0.
Proof.
  destruct scene_exists as (h & pA & pB & pS & u & g & g3 & vA & vB & ca & cb & S0 & Sc). pose proof Sc as (W & SA & SB & NA & NB & LA & _ & _ & LB & _ & _ & EU & ES & _).
  destruct (sc_exps h pA pB pS u g g3 vA vB ca cb S0 Sc) as (XA & XB). destruct (sc_significant h pA pB pS u g g3 vA vB ca cb S0 Sc) as (YA & YB).
  exists h, pA, pB, u, pS, [(wU, S0)], vA, vB, ca, cb. repeat lazymatch goal with |- _ /\ _ => split end; try assumption.
  - constructor; [split; assumption|constructor].
  - intros [E | []]. congruence.
  - intros [E | []]. congruence.
  - exact (sc_oc_is h pA pB pS u g g3 vA vB ca cb S0 Sc).
  - exact sc_oc_valid.
  - exact sc_oc_gaussian.
Qed.
