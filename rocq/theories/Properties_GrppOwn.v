(** * C78: the GRPP integrals and gradients with the library's own routines

    C28-C31 describe what the driver makes of the integrals of the single parts, whatever the
    routines for these parts compute.  Here the routines are those of the library
    ([own_routines]: type-1, type-2, spin-orbit and outercore integrals as modelled), and the
    result is compared with the operator of the GRPP on functions ([grpp_V] in GrppOwnSpec.v,
    which mentions no routine).

    The error is an explicit function of: the error [e1] of the local part (Dawson's integral
    is accurate to 15e-10, C74), and for every semilocal potential the largest error [eps U]
    and the largest magnitude [Qm U] of the tabulated radial integrals (C77 shows why [eps U]
    cannot be made a constant: the quadrature can accept wrong values).
    [pair_ready], [local_ready], [own_ready]: limits of the tables (L + l <= 14), positive
    exponents, the centre of a shell at C or recognisably apart from it.
    [oc_ready]: outercore potentials with terms of power 2. *)

From Coq Require Import ZArith List Lia Bool Reals Lra.
From Coquelicot Require Import Coquelicot.
From Verif Require Import Base Loops Sums CartModel CartProofs HeapModel HeapProofs HeapSpec HeapGrpp OneElModel OneElProofs OneElPairs OneElSpec OneElThms
  GaussProd OneElInt LmatModel LmatProofs NumSpec NucPotSpec NucPot GaussMoment RadialModel RadialTables HeapShrink SphModel SphSpec SphProofs SphThms UtilProofs OvGradModel OvDeriv OvGradProofs OvGradThms OutercoreModel OutercoreProofs OutercoreRadial OutercoreSpec OutercoreMain OutercoreThms
  MmdModel MmdSpec MmdMain MmdThms MmdUser MmdNuc MmdOuter GrppModel GrppFull GrppHeap GrppGrad GrppGrad2 GrppThms GrppGrad3 GrppTerm GrppTermGrad GrppLocal GrppOc GrppWitness
  ParamsModel Type2Model Type2Spec Type2Proj Type2Radial Type2Main Type2Acc Type2So DawsonUse GrppOwnSpec GrppOwn GrppOwnThms.
Import ListNotations.
Open Scope R_scope.

(** C78: the four matrices hold the matrix elements of the GRPP operator between the contracted functions up to the explicit error; every entry of the matrices proper is written, nothing else, and the only change in the heap are the origins of the outercore shells. *)
Theorem C78_integrals : forall fuel par bessel erf st h pA pB g gv ocp os vA vB ca cb C out e1 eps Qm,
  (14 <= fuel)%nat -> init_tables st -> heap_wf h -> std_shell h pA vA ca -> std_shell h pB vB cb -> grpp_at h g gv ocp -> room4 vA vB out ->
  oc_ready (gv_oc gv) os -> own_ready fuel par bessel erf C gv vA vB e1 eps Qm ->
  exists delta ratio W out' h', oc_numbers os delta ratio W /\
    full_grpp_integrals (own_routines fuel par bessel erf st) h pA pB g C out = Ok (out', h') /\ only4 vA vB out out' /\ (forall q, hblk h' q = hblk (moved_heap C ocp h) q) /\
    forall k i j cA cB, (-1 <= k < 3)%Z -> nth_error ca i = Some cA -> nth_error cb j = Some cB ->
      exists s v, elem_at (mat_k out' k) vB i j = Ok s /\ grpp_V C gv (oc_V C os (fun o o' => ratio (oc_l o) ^ 2 * delta o o') W) k (phi_of vA cA) (phi_of vB cB) v /\
        Rabs (s - v) <= grpp_error C gv vA vB e1 eps Qm k.
Proof. exact grpp_own_thm. Qed.
Print Assumptions C78_integrals.

(** C78: the gradients are those of the matrix elements of this operator: sums of bra and ket derivatives, each within e of the element with the differentiated function. *)
Theorem C78_gradient : forall fuel par bessel erf st h pA pB g gv ocp os vA vB ca cb C e,
  (14 <= fuel)%nat -> init_tables st -> heap_wf h -> std_shell h pA vA ca -> std_shell h pB vB cb -> grpp_at h g gv ocp -> ~ In pA ocp -> ~ In pB ocp ->
  oc_ready (gv_oc gv) os ->
  around (fun x y => exists e1 eps Qm, own_ready fuel par bessel erf C gv x y e1 eps Qm /\ forall k, (-1 <= k < 3)%Z -> grpp_error C gv x y e1 eps Qm k <= e) vA vB ->
  exists delta ratio W, oc_numbers os delta ratio W /\
  exists bra ket : Z -> Z -> nat -> nat -> R,
    (forall k, (-1 <= k < 3)%Z -> deriv_close (grpp_V C gv (oc_V C os (fun o o' => ratio (oc_l o) ^ 2 * delta o o') W) k) vA vB ca cb e (bra k) (ket k)) /\
    forall ord oob h1 D grad, may_overread oob vA vB -> reached C ocp h h1 -> told_apart [v_origin vA; v_origin vB; C; D] -> grad_room vA vB grad ->
      exists h2 grad', full_grpp_integrals_gradient ord oob (own_routines fuel par bessel erf st) h1 pA pB g C D grad = Ok (h2, grad') /\ reached C ocp h h2 /\ only_grad4 grad grad' vA vB /\
        forall k, (-1 <= k < 3)%Z -> holds_gradient (mat_k grad' k) vA vB ca cb C D (bra k) (ket k).
Proof. exact grpp_gradient_thm. Qed.
Print Assumptions C78_gradient.

(** C78: the gradient of the integrals of one averaged potential. *)
Theorem C78_semilocal_gradient : forall fuel par bessel erf st h pA pB C pot U vA vB ca cb e,
  (14 <= fuel)%nat -> init_tables st -> heap_wf h -> std_shell h pA vA ca -> std_shell h pB vB cb -> view_pot h pot = Ok U -> 0 <= e ->
  around (fun x y => pair_ready C U x y /\ exists eps Qm, 0 <= eps /\ 0 <= Qm /\ radial_error fuel par bessel erf C U x y eps Qm /\ semilocal_error C U x y eps Qm <= e) vA vB ->
  exists bra ket, deriv_close (semilocal_V C U) vA vB ca cb e bra ket /\
    forall ord oob D grad, may_overread oob vA vB -> told_apart [v_origin vA; v_origin vB; C; D] -> grad_fits grad vA vB ->
      exists h' grad', type2_integrals_gradient ord oob (own_routines fuel par bessel erf st) h pA pB C pot D grad = Ok (h', grad') /\ heap_wf h' /\ (forall q, hblk h' q = hblk h q) /\
        only_grad grad grad' vA vB /\ holds_gradient grad' vA vB ca cb C D bra ket.
Proof. exact semilocal_gradient_thm. Qed.
Print Assumptions C78_semilocal_gradient.

(** C78: the gradient of the integrals of one spin-orbit potential. *)
Theorem C78_spin_orbit_gradient : forall fuel par bessel erf st h pA pB C pot U vA vB ca cb e,
  (14 <= fuel)%nat -> init_tables st -> heap_wf h -> std_shell h pA vA ca -> std_shell h pB vB cb -> view_pot h pot = Ok U -> 0 <= e ->
  around (fun x y => pair_ready C U x y /\ exists eps Qm, 0 <= eps /\ 0 <= Qm /\ radial_error fuel par bessel erf C U x y eps Qm /\ spin_orbit_error C U x y eps Qm <= e) vA vB ->
  exists bra ket, (forall k, (0 <= k < 3)%Z -> deriv_close (spin_orbit_V C U k) vA vB ca cb e (bra k) (ket k)) /\
    forall ord oob D grad, may_overread oob vA vB -> told_apart [v_origin vA; v_origin vB; C; D] -> (forall k, (0 <= k < 3)%Z -> grad_fits (pick3 grad k) vA vB) ->
      exists h' grad', spin_orbit_integrals_gradient ord oob (own_routines fuel par bessel erf st) h pA pB C pot D grad = Ok (h', grad') /\ heap_wf h' /\ (forall q, hblk h' q = hblk h q) /\
        forall k, (0 <= k < 3)%Z -> only_grad (pick3 grad k) (pick3 grad' k) vA vB /\ holds_gradient (pick3 grad' k) vA vB ca cb C D (bra k) (ket k).
Proof. exact so_gradient_thm. Qed.
Print Assumptions C78_spin_orbit_gradient.

(** C78: the operator is bilinear: its elements are unique, and those of linear combinations are the combinations of the elements. *)
Theorem C78_bilinear : forall C gv oc,
  bilinear oc -> bilinear (grpp_V C gv oc).
Proof. exact bilinear_grpp. Qed.
Print Assumptions C78_bilinear.

(** C78: for shells within the limits there always are errors as the gradient theorem asks for; how large they are depends on the radial integrals only. *)
Theorem C78_errors_exist : forall fuel par bessel erf C gv vA vB,
  shells_ready C gv vA vB ->
  exists e, 0 <= e /\ around (fun x y => exists e1 eps Qm, own_ready fuel par bessel erf C gv x y e1 eps Qm /\ forall k, (-1 <= k < 3)%Z -> grpp_error C gv x y e1 eps Qm k <= e) vA vB.
Proof. exact ready_around. Qed.
Print Assumptions C78_errors_exist.

(** ** Cases meeting the hypotheses: a p shell and an s shell at different points, an operator with
    a local, an averaged and a spin-orbit potential at the origin *)

Example C78_case fuel par bessel erf : exists h pA pB g vA vB ca cb e,
  heap_wf h /\ std_shell h pA vA ca /\ std_shell h pB vB cb /\ grpp_at h g (mkGv (Some wU) [wU] [wU] []) [] /\ shells_ready wC (mkGv (Some wU) [wU] [wU] []) vA vB /\
  around (fun x y => exists e1 eps Qm, own_ready fuel par bessel erf wC (mkGv (Some wU) [wU] [wU] []) x y e1 eps Qm /\
    forall k, (-1 <= k < 3)%Z -> grpp_error wC (mkGv (Some wU) [wU] [wU] []) x y e1 eps Qm k <= e) vA vB /\ oc_ready [] [].
Proof.
  destruct scene_exists as (h & pA & pB & pS & u & g & g3 & vA & vB & ca & cb & S0 & Sc). pose proof (scene_ready h pA pB pS u g g3 vA vB ca cb S0 Sc) as Rd.
  destruct (ready_around fuel par bessel erf wC _ vA vB Rd) as (e & _ & Ar). pose proof Sc as (W & SA & SB & _ & _ & _ & _ & _ & _ & _ & _ & _ & _ & _ & _ & G3).
  exists h, pA, pB, g3, vA, vB, ca, cb, e. do 6 (split; [assumption|]). exists (fun l => canon (Z.of_nat l)). split; [exact sc_components|]. split; [constructor|]. split; [constructor|intros o []].
Qed.

Example C78_outercore_case : exists S0, oc_ready [(wU, S0)] [wO].
Proof.
  destruct scene_exists as (h & pA & pB & pS & u & g & g3 & vA & vB & ca & cb & S0 & Sc). exists S0, (fun l => canon (Z.of_nat l)).
  split; [exact sc_components|]. split; [exact (sc_oc_is h pA pB pS u g g3 vA vB ca cb S0 Sc)|]. split; [exact sc_oc_valid|exact sc_oc_gaussian].
Qed.

Example C78_tables : exists st, init_tables st. Proof. exact init_tables_exist. Qed.
