(** * C90: expectation values of the whole operator over a basis

    [bfun]: one component of a shell with a coefficient; [combo ts]: the linear combination of
    these basis functions as a function on space; [quad ts V], [cross ts us V]: expectation value
    and matrix element from elements V (Definite.v, Rigid.v).  [written ... g ocp k t u e]: the
    library writes [e] as element of component k (-1 averaged, 0, 1, 2 spin-orbit) of the operator
    g, whatever calls with it were made before; [in_reach]: the basis functions and potentials are
    within the limits of C78, with the accuracies [e1], [eps] and sizes [Qm] of the radial
    integrals; [basis_error]: the sum of the errors of C78 over the pairs; [local_value]: the local
    potential as a function of the distance, 0 if there is none; [degrees]: the angular momenta
    of the projectors; [radial_potential]: the sum of c r^(n-2) exp(-a r^2) (Type2Spec.v);
    [grpp_V]: the operator (GrppOwnSpec.v). *)

From Coq Require Import ZArith List Lia Bool Reals Lra.
From Coquelicot Require Import Coquelicot.
From Verif Require Import Base CartModel CartProofs HeapModel HeapProofs HeapSpec OneElModel OneElProofs OneElPairs OneElSpec OneElThms
  SphModel SphThms OutercoreModel OutercoreProofs OutercoreSpec OutercoreThms GrppModel GrppHeap GrppGrad GrppThms GrppGrad3 GrppTerm GrppOc
  ParamsModel Type2Model Type2Spec GrppOwnSpec GrppOwn GrppOwnThms GrppWitness Definite GrppOrder.
From Verif Require Rigid.
Import ListNotations.
Open Scope R_scope.

(** C90: the matrix element between two linear combinations, formed from the written elements, is that of the operator
between the two functions, up to the errors. *)
Theorem C90_combinations : forall fuel par bessel erf st h C g gv ocp os k e1 eps Qm ts us V,
  (14 <= fuel)%nat -> init_tables st -> heap_wf h -> grpp_at h g gv ocp -> oc_ready (gv_oc gv) os -> (-1 <= k < 3)%Z -> ts <> [] -> us <> [] ->
  in_reach fuel par bessel erf h C gv ocp e1 eps Qm ts us -> (forall t u, In t ts -> In u us -> written fuel par bessel erf st h C g ocp k t u (V t u)) ->
  exists delta ratio W v, oc_numbers os delta ratio W /\ grpp_V C gv (oc_V C os (fun o o' => ratio (oc_l o) ^ 2 * delta o o') W) k (combo ts) (combo us) v /\ Rabs (Rigid.cross ts us V - v) <= basis_error C gv e1 eps Qm k ts us.
Proof. exact combination_thm. Qed.
Print Assumptions C90_combinations.

(** C90: if the local and all averaged potentials are nowhere negative, no linear combination has a negative expectation
value, up to the errors. *)
Theorem C90_repulsive : forall fuel par bessel erf st h C g gv ocp e1 eps Qm ts V,
  (14 <= fuel)%nat -> init_tables st -> heap_wf h -> grpp_at h g gv ocp -> gv_oc gv = [] ->
  in_reach fuel par bessel erf h C gv ocp e1 eps Qm ts ts -> (forall t u, In t ts -> In u ts -> written fuel par bessel erf st h C g ocp (-1) t u (V t u)) ->
  (forall r, 0 < r -> 0 <= local_value (gv_local gv) r) -> (forall U r, In U (gv_arep gv) -> 0 < r -> 0 <= radial_potential (pv_prims U) r) ->
  - basis_error C gv e1 eps Qm (-1) ts ts <= quad ts V.
Proof. exact grpp_repulsive_thm. Qed.
Print Assumptions C90_repulsive.

(** C90: if the local and each averaged potential of one operator are nowhere above those of another, every expectation
value is not above either, up to the errors. *)
Theorem C90_order : forall fuel par bessel erf st h C g g' gv gv' ocp ocp' os e1 e1' eps Qm eps' Qm' ts V V',
  (14 <= fuel)%nat -> init_tables st -> heap_wf h -> grpp_at h g gv ocp -> grpp_at h g' gv' ocp' -> oc_ready (gv_oc gv) os -> oc_ready (gv_oc gv') os ->
  in_reach fuel par bessel erf h C gv ocp e1 eps Qm ts ts -> in_reach fuel par bessel erf h C gv' ocp' e1' eps' Qm' ts ts ->
  (forall t u, In t ts -> In u ts -> written fuel par bessel erf st h C g ocp (-1) t u (V t u)) ->
  (forall t u, In t ts -> In u ts -> written fuel par bessel erf st h C g' ocp' (-1) t u (V' t u)) ->
  NoDup (degrees (gv_arep gv)) ->
  (forall r, 0 < r -> local_value (gv_local gv) r <= local_value (gv_local gv') r) ->
  Forall2 (fun U U' => pv_L U = pv_L U' /\ forall r, 0 < r -> radial_potential (pv_prims U) r <= radial_potential (pv_prims U') r) (gv_arep gv) (gv_arep gv') ->
  quad ts V <= quad ts V' + (basis_error C gv e1 eps Qm (-1) ts ts + basis_error C gv' e1' eps' Qm' (-1) ts ts).
Proof. exact grpp_order_thm. Qed.
Print Assumptions C90_order.

(** C90: an operator with one potential for each of several angular momenta is bounded by local potentials: a local
potential above U_L and above all U_L + U_l gives expectation values which are not lower, one below gives values
which are not higher. *)
Theorem C90_between_local_potentials : forall fuel par bessel erf st h C g g' gv gv' ocp ocp' os e1 e1' eps Qm eps' Qm' ts V V',
  (14 <= fuel)%nat -> init_tables st -> heap_wf h -> grpp_at h g gv ocp -> grpp_at h g' gv' ocp' -> oc_ready (gv_oc gv) os -> oc_ready (gv_oc gv') os ->
  in_reach fuel par bessel erf h C gv ocp e1 eps Qm ts ts -> in_reach fuel par bessel erf h C gv' ocp' e1' eps' Qm' ts ts ->
  (forall t u, In t ts -> In u ts -> written fuel par bessel erf st h C g ocp (-1) t u (V t u)) ->
  (forall t u, In t ts -> In u ts -> written fuel par bessel erf st h C g' ocp' (-1) t u (V' t u)) ->
  NoDup (degrees (gv_arep gv)) -> gv_arep gv' = [] ->
  let e := basis_error C gv e1 eps Qm (-1) ts ts + basis_error C gv' e1' eps' Qm' (-1) ts ts in
  ((forall r, 0 < r -> local_value (gv_local gv) r <= local_value (gv_local gv') r) ->
   (forall U r, In U (gv_arep gv) -> 0 < r -> local_value (gv_local gv) r + radial_potential (pv_prims U) r <= local_value (gv_local gv') r) -> quad ts V <= quad ts V' + e) /\
  ((forall r, 0 < r -> local_value (gv_local gv') r <= local_value (gv_local gv) r) ->
   (forall U r, In U (gv_arep gv) -> 0 < r -> local_value (gv_local gv') r <= local_value (gv_local gv) r + radial_potential (pv_prims U) r) -> quad ts V' <= quad ts V + e).
Proof. exact grpp_between_thm. Qed.
Print Assumptions C90_between_local_potentials.

(** C90: the expectation value of each component of the spin-orbit part over real functions vanishes, up to the errors. *)
Theorem C90_spin_orbit_vanishes : forall fuel par bessel erf st h C g gv ocp os k e1 eps Qm ts V,
  (14 <= fuel)%nat -> init_tables st -> heap_wf h -> grpp_at h g gv ocp -> oc_ready (gv_oc gv) os -> (0 <= k < 3)%Z ->
  in_reach fuel par bessel erf h C gv ocp e1 eps Qm ts ts -> (forall t u, In t ts -> In u ts -> written fuel par bessel erf st h C g ocp k t u (V t u)) ->
  Rabs (quad ts V) <= basis_error C gv e1 eps Qm k ts ts.
Proof. exact grpp_so_zero_thm. Qed.
Print Assumptions C90_spin_orbit_vanishes.

(** the elements exist *)
Example C90_elements : forall fuel par bessel erf st h C g gv ocp os k t u e1 eps Qm,
  (14 <= fuel)%nat -> init_tables st -> heap_wf h -> grpp_at h g gv ocp -> oc_ready (gv_oc gv) os -> (-1 <= k < 3)%Z -> bf_ok h t -> bf_ok h u -> ~ In (b_p t) ocp -> ~ In (b_p u) ocp ->
  own_ready fuel par bessel erf C gv (b_v t) (b_v u) e1 eps Qm -> exists e, written fuel par bessel erf st h C g ocp k t u e.
Proof. intros fuel par bessel erf st h C g gv ocp os k t u e1 eps Qm Hf HI W HG HO. exact (written_exists fuel par bessel erf st h C g gv ocp os Hf HI W HG HO k t u e1 eps Qm). Qed.

(** a p and an s function at different places, three operators at the origin: a local one, one with
    an averaged potential in addition, and one with a larger averaged potential *)
Example C90_case : forall fuel par bessel erf w w', exists h g g' g'' ts e1 eps Qm e1' eps' Qm' e1'' eps'' Qm'',
  heap_wf h /\ grpp_at h g (only_local wU) [] /\ grpp_at h g' gv_small [] /\ grpp_at h g'' gv_large [] /\ oc_ready [] [] /\
  in_reach fuel par bessel erf h wC (only_local wU) [] e1 eps Qm ts ts /\ in_reach fuel par bessel erf h wC gv_small [] e1' eps' Qm' ts ts /\ in_reach fuel par bessel erf h wC gv_large [] e1'' eps'' Qm'' ts ts /\
  map b_w ts = [w; w'] /\ map (fun t => v_L (b_v t)) ts = [1; 0]%Z.
Proof. exact case_thm. Qed.

(** their potentials are positive, and those of the third operator are the largest *)
Example C90_case_potentials : NoDup (degrees (gv_arep gv_small)) /\ NoDup (degrees (gv_arep gv_large)) /\ gv_arep (only_local wU) = [] /\
  (forall r, 0 < r -> 0 <= local_value (gv_local gv_small) r) /\ (forall U r, In U (gv_arep gv_small) -> 0 < r -> 0 <= radial_potential (pv_prims U) r) /\
  Forall2 (fun U U' => pv_L U = pv_L U' /\ forall r, 0 < r -> radial_potential (pv_prims U) r <= radial_potential (pv_prims U') r) (gv_arep gv_small) (gv_arep gv_large) /\
  (forall U r, In U (gv_arep gv_small) -> 0 < r -> local_value (gv_local (only_local wU)) r <= local_value (gv_local gv_small) r + radial_potential (pv_prims U) r).
Proof.
  assert (N1 : forall n : nat, NoDup [n]) by (intros n; constructor; [intros []|constructor]). split; [apply N1|]. split; [apply N1|]. split; [reflexivity|].
  split; [intros r _; cbn [gv_small gv_local local_value]; pose proof (wU_pos r); lra|]. split; [intros U r [<- | []] _; pose proof (wU_pos r); lra|].
  split; [constructor; [split; [reflexivity|intros r _; apply (wU_pos r)]|constructor]|]. intros U r [<- | []] _. cbn [gv_small only_local gv_local local_value]. pose proof (wU_pos r). lra.
Qed.
