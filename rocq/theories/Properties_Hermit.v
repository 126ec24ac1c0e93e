(** * C83: the GRPP matrices under exchange of the two shells

    [own_routines]: the routines of the library (see C78); [reached C ocp h h1]: h1 is h, or h after
    calls of the library which moved the outercore shells; [own_ready], [oc_ready], [grpp_error]: as
    in C78.  The two calls compute with different radial tables and different angular sums, and a
    screening threshold is applied to one factor only, so the elements agree up to the two errors and
    not exactly. *)

From Coq Require Import ZArith List Lia Bool Reals Lra.
From Coquelicot Require Import Coquelicot.
From Verif Require Import Base Loops Sums CartModel CartProofs HeapModel HeapProofs HeapSpec HeapGrpp OneElModel OneElProofs OneElPairs OneElSpec OneElThms
  GaussProd OneElInt LmatModel LmatProofs NumSpec NucPotSpec NucPot GaussMoment RadialModel RadialTables HeapShrink SphModel SphSpec SphProofs SphThms UtilProofs OvGradModel OvDeriv OvGradProofs OvGradThms OutercoreModel OutercoreProofs OutercoreRadial OutercoreSpec OutercoreMain OutercoreThms
  MmdModel MmdSpec MmdMain MmdThms MmdUser MmdNuc MmdOuter GrppModel GrppFull GrppHeap GrppGrad GrppGrad2 GrppThms GrppGrad3 GrppTerm GrppTermGrad GrppLocal GrppOc GrppWitness
  ParamsModel Type2Model Type2Spec Type2Proj Type2Radial Type2Main Type2Acc Type2So DawsonUse GrppOwnSpec GrppOwn GrppOwnThms Hermit.
Import ListNotations.
Open Scope R_scope.

(** C83: when the two shells are exchanged, the averaged matrix is transposed and the three spin-orbit
matrices are transposed and change sign, up to the errors of the two calls; both calls return, in
either order, on any heap reached in between. *)
Theorem C83_hermitian : forall fuel par bessel erf st h h1 pA pB g gv ocp os vA vB ca cb C out out1 e1 eps Qm e1' eps' Qm',
  (14 <= fuel)%nat -> init_tables st -> heap_wf h -> std_shell h pA vA ca -> std_shell h pB vB cb -> grpp_at h g gv ocp -> ~ In pA ocp -> ~ In pB ocp -> oc_ready (gv_oc gv) os ->
  own_ready fuel par bessel erf C gv vA vB e1 eps Qm -> own_ready fuel par bessel erf C gv vB vA e1' eps' Qm' ->
  room4 vA vB out -> room4 vB vA out1 -> reached C ocp h h1 ->
  exists X hX Y hY,
    full_grpp_integrals (own_routines fuel par bessel erf st) h pA pB g C out = Ok (X, hX) /\ reached C ocp h hX /\
    full_grpp_integrals (own_routines fuel par bessel erf st) h1 pB pA g C out1 = Ok (Y, hY) /\ reached C ocp h hY /\
    forall k i j, (-1 <= k < 3)%Z -> (i < length ca)%nat -> (j < length cb)%nat ->
      exists s t, elem_at (mat_k X k) vB i j = Ok s /\ elem_at (mat_k Y k) vA j i = Ok t /\
        Rabs (s - (if (k =? -1)%Z then 1 else -1) * t) <= grpp_error C gv vA vB e1 eps Qm k + grpp_error C gv vB vA e1' eps' Qm' k.
Proof. exact hermitian_thm. Qed.
Print Assumptions C83_hermitian.

(** the operator, the p shell and the s shell of C78_case, in both orders *)
Example C83_case fuel par bessel erf : exists h pA pB g vA vB ca cb e1 eps Qm e1' eps' Qm',
  heap_wf h /\ std_shell h pA vA ca /\ std_shell h pB vB cb /\ grpp_at h g (mkGv (Some wU) [wU] [wU] []) [] /\ oc_ready [] [] /\
  own_ready fuel par bessel erf wC (mkGv (Some wU) [wU] [wU] []) vA vB e1 eps Qm /\ own_ready fuel par bessel erf wC (mkGv (Some wU) [wU] [wU] []) vB vA e1' eps' Qm' /\
  length ca = 3%nat /\ length cb = 1%nat /\ reached wC [] h h.
Proof.
  destruct scene_exists as (h & pA & pB & pS & u & g & g3 & vA & vB & ca & cb & S0 & Sc). pose proof (scene_ready h pA pB pS u g g3 vA vB ca cb S0 Sc) as Rd.
  destruct (ready_both fuel par bessel erf wC _ vA vB Rd) as (e1 & eps & Qm & e1' & eps' & Qm' & R1 & R2). pose proof Sc as (W & SA & SB & _ & _ & LA & _ & _ & LB & _ & _ & _ & _ & _ & _ & G3).
  pose proof (std_length _ _ _ _ SA) as NA. pose proof (std_length _ _ _ _ SB) as NB. rewrite LA in NA. rewrite LB in NB. change (n_cart 1) with 3%Z in NA. change (n_cart 0) with 1%Z in NB.
  exists h, pA, pB, g3, vA, vB, ca, cb, e1, eps, Qm, e1', eps', Qm'. do 4 (split; [assumption|]).
  split; [exists (fun l => canon (Z.of_nat l)); split; [exact sc_components|]; split; [constructor|]; split; [constructor|intros o []]|].
  split; [exact R1|]. split; [exact R2|]. split; [lia|]. split; [lia|exact (reached_refl wC [] h W)].
Qed.
