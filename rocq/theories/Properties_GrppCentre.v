(** * C91: functions at the centre of the pseudopotential

    [written ... k t u e], [in_reach], [grpp_error]: as for C90.  [contained L l]: the angular
    momentum l occurs in the Cartesian functions of degree L, that is l = L, L - 2, ...
    [channel gv l r]: the value at distance r of the averaged potential for angular momentum l, U_L
    plus all U_l of this l; [of_degree l us r]: the sum of those potentials of a list which belong to
    l.  [shared C vA vB l]: l is contained in the functions of each of the two shells which is at C.
    [agree k gv gv' l]: the two operators have the same potential for l, the averaged one
    for k = -1 and the spin-orbit one for k = 0, 1, 2. *)

From Coq Require Import ZArith List Lia Bool Reals Lra.
From Coquelicot Require Import Coquelicot.
From Verif Require Import Base CartModel CartProofs HeapModel HeapProofs HeapSpec OneElModel OneElProofs OneElPairs OneElSpec OneElThms
  SphModel SphThms OutercoreModel OutercoreProofs OutercoreSpec OutercoreThms GrppModel GrppHeap GrppGrad GrppThms GrppGrad3 GrppTerm GrppOc
  ParamsModel Type2Model Type2Spec GrppOwnSpec GrppOwn GrppOwnThms GrppWitness Definite GrppOrder GrppCentre.
Import ListNotations.
Open Scope R_scope.

(** C91: if one of the two functions is at the centre, two operators whose potentials agree for every angular momentum
contained in the functions there give the same element, up to the errors, however different they are otherwise. *)
Theorem C91_only_contained_channels_matter : forall fuel par bessel erf st h C g g' gv gv' ocp ocp' os k t u e1 eps Qm e1' eps' Qm' e e',
  (14 <= fuel)%nat -> init_tables st -> heap_wf h -> grpp_at h g gv ocp -> grpp_at h g' gv' ocp' -> oc_ready (gv_oc gv) os -> oc_ready (gv_oc gv') os -> (-1 <= k < 3)%Z ->
  in_reach fuel par bessel erf h C gv ocp e1 eps Qm [t] [u] -> in_reach fuel par bessel erf h C gv' ocp' e1' eps' Qm' [t] [u] ->
  v_origin (b_v t) = C \/ v_origin (b_v u) = C -> (forall l, shared C (b_v t) (b_v u) l -> agree k gv gv' l) ->
  written fuel par bessel erf st h C g ocp k t u e -> written fuel par bessel erf st h C g' ocp' k t u e' ->
  Rabs (e - e') <= grpp_error C gv (b_v t) (b_v u) (e1 t u) (eps t u) (Qm t u) k + grpp_error C gv' (b_v t) (b_v u) (e1' t u) (eps' t u) (Qm' t u) k.
Proof. exact centre_channels_thm. Qed.
Print Assumptions C91_only_contained_channels_matter.

(** C91: if the potentials of these angular momenta vanish, so does the element, up to the errors. *)
Theorem C91_vanishes : forall fuel par bessel erf st h C g gv ocp k t u e1 eps Qm e,
  (14 <= fuel)%nat -> init_tables st -> heap_wf h -> grpp_at h g gv ocp -> gv_oc gv = [] -> (-1 <= k < 3)%Z ->
  in_reach fuel par bessel erf h C gv ocp e1 eps Qm [t] [u] -> v_origin (b_v t) = C \/ v_origin (b_v u) = C ->
  (forall l r, shared C (b_v t) (b_v u) l -> 0 < r -> if (k =? -1)%Z then channel gv l r = 0 else of_degree l (gv_esop gv) r = 0) ->
  written fuel par bessel erf st h C g ocp k t u e -> Rabs e <= grpp_error C gv (b_v t) (b_v u) (e1 t u) (eps t u) (Qm t u) k.
Proof. exact centre_vanishes_thm. Qed.
Print Assumptions C91_vanishes.

(** a p function and an s function at different places: at the place of the p function a local potential
    and the same potential acting on p functions only; at the place of the s function the latter *)
Example C91_case : forall fuel par bessel erf, exists h g g' t u e1 eps Qm e1' eps' Qm' e1'' eps'' Qm'',
  heap_wf h /\ grpp_at h g (only_local wU) [] /\ grpp_at h g' gv_proj [] /\ oc_ready [] [] /\ v_origin (b_v t) <> v_origin (b_v u) /\ v_L (b_v t) = 1%Z /\ v_L (b_v u) = 0%Z /\
  in_reach fuel par bessel erf h (v_origin (b_v t)) (only_local wU) [] e1 eps Qm [t] [u] /\ in_reach fuel par bessel erf h (v_origin (b_v t)) gv_proj [] e1' eps' Qm' [t] [u] /\
  (forall l, shared (v_origin (b_v t)) (b_v t) (b_v u) l -> agree (-1) (only_local wU) gv_proj l) /\
  in_reach fuel par bessel erf h (v_origin (b_v u)) gv_proj [] e1'' eps'' Qm'' [t] [u] /\
  (forall l r, shared (v_origin (b_v u)) (b_v t) (b_v u) l -> 0 < r -> channel gv_proj l r = 0).
Proof. exact centre_case_thm. Qed.

(** the two operators differ: for s functions the first has a positive potential, the second none *)
Example C91_case_differs : forall r, 0 < r -> 0 < channel (only_local wU) 0 r /\ channel gv_proj 0 r = 0.
Proof.
  intros r _. unfold channel, of_degree, lsum. cbn [only_local gv_proj gv_local gv_arep local_value fold_right]. change (Z.to_nat (pv_L wU)) with 1%nat. cbn [Nat.eqb].
  pose proof (wU_pos r). lra.
Qed.

Example C91_contained : contained 3 1 /\ contained 3 3 /\ ~ contained 3 2 /\ ~ contained 0 1.
Proof. split; [exists 1%Z; lia|]. split; [exists 0%Z; lia|]. split; intros (q & H & E); lia. Qed.
