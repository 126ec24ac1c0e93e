(** * C84: the GRPP matrices under rotations, reflections and translations

    [orthogonal O], [moved3 O t], [carried O t f f'], [moved_shell], [rotates_monomials],
    [rotated_sum], [elements]: as in C82 (RigidPoly.v, Rigid.v, RigidThms.v); [det3 O] is the
    determinant; [gpn n f]: f is a sum of polynomials of degree at most n times Gaussians
    (RotProj.v); [gv_fine], [oc_fine]: non-negative exponents and small angular momenta;
    [turned O v k]: v (-1) for the averaged component k = -1, and
    det3 O * (O k 0 * v 0 + O k 1 * v 1 + O k 2 * v 2) for the spin-orbit components
    (RotLocal.v); [grpp_V], [own_ready], [oc_ready], [grpp_error]: as in C78.  The computed
    elements carry the errors of the two calls. *)

From Coq Require Import ZArith List Lia Bool Reals Lra.
From Coquelicot Require Import Coquelicot.
From Verif Require Import Base Loops Sums CartModel CartProofs HeapModel HeapProofs HeapSpec HeapGrpp OneElModel OneElProofs OneElPairs OneElSpec OneElThms
  GaussProd OneElInt LmatModel LmatProofs NumSpec NucPotSpec NucPot GaussMoment RadialModel RadialTables HeapShrink SphModel SphSpec SphProofs SphThms UtilProofs OvGradModel OvDeriv OvGradProofs OvGradThms OutercoreModel OutercoreProofs OutercoreRadial OutercoreSpec OutercoreMain OutercoreThms
  MmdModel MmdSpec MmdMain MmdThms MmdUser MmdNuc MmdOuter GrppModel GrppFull GrppHeap GrppGrad GrppGrad2 GrppThms GrppGrad3 GrppTerm GrppTermGrad GrppLocal GrppOc GrppWitness
  ParamsModel Type2Model Type2Spec Type2Proj Type2Radial Type2Main Type2Acc Type2So DawsonUse GrppOwnSpec GrppOwn GrppOwnThms Hermit RotSphere RotMomentum RotProj RotLocal GrppRigid.
From Verif Require RigidPoly Rigid RigidThms.
From Verif Require Properties_Rigid.
Import ListNotations.
Open Scope R_scope.

(** C84: the averaged part of the operator is a scalar and the three spin-orbit parts form an axial vector:
when the centre and both functions are carried along by a rigid motion, the averaged element stays
and the spin-orbit elements rotate, with the sign of the determinant. *)
Theorem C84_operator : forall O t C gv os delta n f f' g g' (v : Z -> R) k,
  orthogonal O -> gpn n f -> gpn n g -> gv_fine n gv -> oc_fine os -> Rigid.carried O t f f' -> Rigid.carried O t g g' -> (-1 <= k < 3)%Z ->
  (forall j, (-1 <= j < 3)%Z -> grpp_V C gv (oc_V C os delta Wk) j f g (v j)) ->
  grpp_V (Rigid.moved3 O t C) gv (oc_V (Rigid.moved3 O t C) os delta Wk) k f' g' (turned O v k).
Proof. exact grpp_rot. Qed.
Print Assumptions C84_operator.

(** C84: for every orthogonal matrix there is one table D, given by the expansion of rotated monomials in
monomials, such that the four matrices of every pair of shells with every operator are obtained
from those of the moved shells with the moved centre, with D on both sides and the spin-orbit
components rotated as an axial vector, up to the errors of the two calls. *)
Theorem C84_blocks : forall O,
  RigidPoly.orthogonal O -> exists D, RigidThms.rotates_monomials O D /\
  forall fuel par bessel erf st t h h1 pA pB pA' pB' g gv ocp os vA vB vA' vB' ca cb ca' cb' C out out1 e1 eps Qm e1' eps' Qm',
  (14 <= fuel)%nat -> init_tables st -> heap_wf h -> std_shell h pA vA ca -> std_shell h pB vB cb -> std_shell h pA' vA' ca' -> std_shell h pB' vB' cb' ->
  grpp_at h g gv ocp -> ~ In pA ocp -> ~ In pB ocp -> ~ In pA' ocp -> ~ In pB' ocp -> oc_ready (gv_oc gv) os ->
  RigidThms.moved_shell O t vA vA' -> RigidThms.moved_shell O t vB vB' ->
  own_ready fuel par bessel erf C gv vA vB e1 eps Qm -> own_ready fuel par bessel erf (Rigid.moved3 O t C) gv vA' vB' e1' eps' Qm' ->
  room4 vA vB out -> room4 vA' vB' out1 -> reached C ocp h h1 ->
  exists X hX Y hY E E',
    full_grpp_integrals (own_routines fuel par bessel erf st) h pA pB g C out = Ok (X, hX) /\ reached C ocp h hX /\
    full_grpp_integrals (own_routines fuel par bessel erf st) h1 pA' pB' g (Rigid.moved3 O t C) out1 = Ok (Y, hY) /\
    (forall k, (-1 <= k < 3)%Z -> RigidThms.elements (mat_k X k) vB (length ca) (length cb) (E k) /\ RigidThms.elements (mat_k Y k) vB' (length ca') (length cb') (E' k)) /\
    forall k i j, (-1 <= k < 3)%Z -> (i < length ca)%nat -> (j < length cb)%nat ->
      Rabs ((if (k =? -1)%Z then E (-1)%Z i j else det3 O * RigidPoly.sum3 (fun q => O k q * E q i j)) - RigidThms.rotated_sum D ca' cb' (nth i ca (0, 0, 0)%Z) (nth j cb (0, 0, 0)%Z) (E' k))
      <= (if (k =? -1)%Z then grpp_error C gv vA vB e1 eps Qm (-1) else RigidPoly.sum3 (fun q => Rabs (O k q) * grpp_error C gv vA vB e1 eps Qm q))
         + RigidThms.rotated_sum (fun c c' => Rabs (D c c')) ca' cb' (nth i ca (0, 0, 0)%Z) (nth j cb (0, 0, 0)%Z) (fun _ _ => grpp_error (Rigid.moved3 O t C) gv vA' vB' e1' eps' Qm' k).
Proof. exact grpp_block_thm. Qed.
Print Assumptions C84_blocks.

(** C84: the hypotheses of C84_blocks on the accuracy can be met for every pair of shells which is ready, and
the moved pair then is ready too. *)
Theorem C84_errors_exist : forall fuel par bessel erf O t C gv vA vB vA' vB',
  RigidPoly.orthogonal O -> RigidThms.moved_shell O t vA vA' -> RigidThms.moved_shell O t vB vB' -> shells_ready C gv vA vB ->
  exists e1 eps Qm e1' eps' Qm', own_ready fuel par bessel erf C gv vA vB e1 eps Qm /\ own_ready fuel par bessel erf (Rigid.moved3 O t C) gv vA' vB' e1' eps' Qm'.
Proof. exact rigid_errors_thm. Qed.
Print Assumptions C84_errors_exist.

(** the operator, the p shell and the s shell of C78_case with their copies moved by the rotation
with reflection of C82_case *)
Example C84_case fuel par bessel erf : exists h pA pB pA' pB' g vA vB vA' vB' ca cb ca' cb' e1 eps Qm e1' eps' Qm',
  RigidPoly.orthogonal Properties_Rigid.rot345 /\ heap_wf h /\ std_shell h pA vA ca /\ std_shell h pB vB cb /\ std_shell h pA' vA' ca' /\ std_shell h pB' vB' cb' /\ grpp_at h g (mkGv (Some wU) [wU] [wU] []) [] /\ oc_ready [] [] /\
  RigidThms.moved_shell Properties_Rigid.rot345 (1, -2, 3) vA vA' /\ RigidThms.moved_shell Properties_Rigid.rot345 (1, -2, 3) vB vB' /\
  own_ready fuel par bessel erf wC (mkGv (Some wU) [wU] [wU] []) vA vB e1 eps Qm /\ own_ready fuel par bessel erf (Rigid.moved3 Properties_Rigid.rot345 (1, -2, 3) wC) (mkGv (Some wU) [wU] [wU] []) vA' vB' e1' eps' Qm' /\
  length ca = 3%nat /\ length cb = 1%nat /\ reached wC [] h h /\ det3 Properties_Rigid.rot345 = -1.
Proof.
  destruct scene_exists as (h & pA & pB & pS & u & g & g3 & vA & vB & ca & cb & S0 & Sc). pose proof (scene_ready h pA pB pS u g g3 vA vB ca cb S0 Sc) as Rd.
  pose proof Sc as (W & SA & SB & _ & _ & LA & OA & PA & LB & OB & PB & _ & _ & _ & _ & G3).
  destruct (one_more h 1 (Rigid.moved3 Properties_Rigid.rot345 (1, -2, 3) (v_origin vA)) (v_prims vA) W ltac:(lia)) as (h1 & pA' & W1 & K1 & (vA' & ca' & SA' & LA' & OA' & PA')).
  destruct (one_more h1 0 (Rigid.moved3 Properties_Rigid.rot345 (1, -2, 3) (v_origin vB)) (v_prims vB) W1 ltac:(lia)) as (h2 & pB' & W2 & K2 & (vB' & cb' & SB' & LB' & OB' & PB')).
  assert (K : keeps h h2) by (intros q o Hq; apply K2, K1, Hq).
  assert (MA : RigidThms.moved_shell Properties_Rigid.rot345 (1, -2, 3) vA vA') by (split; [congruence|split; [exact PA'|exact OA']]).
  assert (MB : RigidThms.moved_shell Properties_Rigid.rot345 (1, -2, 3) vB vB') by (split; [congruence|split; [exact PB'|exact OB']]).
  destruct (rigid_errors_thm fuel par bessel erf Properties_Rigid.rot345 (1, -2, 3) wC _ vA vB vA' vB' Properties_Rigid.rot345_orthogonal MA MB Rd) as (e1 & eps & Qm & e1' & eps' & Qm' & R1 & R2).
  pose proof (std_length _ _ _ _ SA) as NA. pose proof (std_length _ _ _ _ SB) as NB. rewrite LA in NA. rewrite LB in NB. change (n_cart 1) with 3%Z in NA. change (n_cart 0) with 1%Z in NB.
  exists h2, pA, pB, pA', pB', g3, vA, vB, vA', vB', ca, cb, ca', cb', e1, eps, Qm, e1', eps', Qm'.
  split; [exact Properties_Rigid.rot345_orthogonal|]. split; [exact W2|]. split; [exact (std_old _ _ _ _ _ K SA)|]. split; [exact (std_old _ _ _ _ _ K SB)|]. split; [exact (std_old _ _ _ _ _ K2 SA')|]. split; [exact SB'|].
  split; [exact (grpp_keeps _ _ _ _ _ W K G3)|].
  split; [exists (fun l => canon (Z.of_nat l)); split; [exact sc_components|]; split; [constructor|]; split; [constructor|intros o []]|].
  split; [exact MA|]. split; [exact MB|]. split; [exact R1|]. split; [exact R2|]. split; [lia|]. split; [lia|]. split; [exact (reached_refl wC [] h2 W2)|]. unfold det3, Properties_Rigid.rot345. cbn [Z.eqb Pos.eqb]. lra.
Qed.
