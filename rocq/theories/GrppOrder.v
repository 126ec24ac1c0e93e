(** * C90: expectation values of the whole operator: order, bounds by local potentials, spin-orbit part *)

From Coq Require Import ZArith List Lia Bool Reals Lra Permutation.
From Coquelicot Require Import Coquelicot.
From Verif Require Import Base Loops Sums CartModel CartProofs HeapModel HeapProofs HeapSpec HeapGrpp OneElModel OneElProofs OneElPairs OneElSpec OneElThms
  GaussProd OneElInt NumSpec NucPotSpec NucPot SphModel SphSpec SphProofs SphInt SphOrtho SphAngular SphSpan SphAdd SphThms UtilProofs OvGradModel OvDeriv OvGradProofs OvGradThms OutercoreModel OutercoreProofs OutercoreSpec OutercoreRadial OutercoreMain OutercoreThms
  MmdModel MmdSpec MmdMain MmdThms GrppModel GrppHeap GrppGrad GrppGrad2 GrppThms GrppGrad3 GrppTerm GrppTermGrad GrppLocal GrppOc
  LmatModel LmatProofs SphMomentum ParamsModel Type2Model Type2Spec Type2So Type2Main LocalSpec LocalAcc GrppOwnSpec GrppOwn GrppOwnThms GrppWitness Hermit Definite RotSphere RotProj RotLocal GrppRigid FiniteNuc PolarThms.
From Verif Require RigidPoly Rigid RigidThms Type2Radial PolarInt.
Import ListNotations.
Open Scope R_scope.

(** ** Specification *)

(** the library writes [e] as element of component k of the operator for this pair of basis functions,
    whatever calls with this operator were made before *)
Definition written fuel par bessel erf st (h : heap) (C : R * R * R) (g : Z) (ocp : list Z) (k : Z) (t u : bfun) (e : R) : Prop :=
  exists h1 M X hX, reached C ocp h h1 /\ room4 (b_v t) (b_v u) M /\
    full_grpp_integrals (own_routines fuel par bessel erf st) h1 (b_p t) (b_p u) g C M = Ok (X, hX) /\ elem_at (mat_k X k) (b_v u) (b_m t) (b_m u) = Ok e.

(** basis functions for which the operator [gv] can be integrated (C78), apart from its outercore shells *)
Definition in_reach fuel par bessel erf (h : heap) (C : R * R * R) (gv : gview) (ocp : list Z) (e1 : bfun -> bfun -> R) (eps Qm : bfun -> bfun -> vpot -> R) (ts us : list bfun) : Prop :=
  (forall t, In t ts -> bf_ok h t /\ ~ In (b_p t) ocp) /\ (forall u, In u us -> bf_ok h u /\ ~ In (b_p u) ocp) /\
  forall t u, In t ts -> In u us -> own_ready fuel par bessel erf C gv (b_v t) (b_v u) (e1 t u) (eps t u) (Qm t u).

(** the sum of the errors of the elements (C78) *)
Definition basis_error (C : R * R * R) (gv : gview) (e1 : bfun -> bfun -> R) (eps Qm : bfun -> bfun -> vpot -> R) (k : Z) (ts us : list bfun) : R :=
  lsum (fun t => lsum (fun u => Rabs (b_w t * b_w u) * grpp_error C gv (b_v t) (b_v u) (e1 t u) (eps t u) (Qm t u) k) us) ts.

(** the local potential of an operator as a function of the distance *)
Definition local_value (U : option vpot) (r : R) : R := match U with None => 0 | Some U => radial_potential (pv_prims U) r end.

(** ** Bessel's inequality on the sphere *)
Definition ybar (l : nat) (p : Z -> R) (x y z : R) : R := zsum (- Z.of_nat l) (Z.of_nat l + 1) (fun m => p m * real_sph l m x y z).
Definition weight (l : nat) (p : Z -> R) : R := zsum (- Z.of_nat l) (Z.of_nat l + 1) (fun m => p m * p m).

Lemma weight_pos l p : 0 <= weight l p.
Proof. apply zsum_nonneg. intros. apply Rle_0_sqr. Qed.

Lemma ybar_sph l p l' m' : (Z.abs m' <= Z.of_nat l')%Z -> sphere_int (fun x y z => ybar l p x y z * real_sph l' m' x y z) (if (l =? l')%nat then p m' else 0).
Proof.
  intros Hm. eapply sphere_val; [eapply sphere_ext; [|apply (sphere_zsum (- Z.of_nat l) (Z.of_nat l + 1) (fun m x y z => p m * (real_sph l m x y z * real_sph l' m' x y z)) (fun m => p m * (if (l =? l')%nat && (m =? m')%Z then 1 else 0)))]|].
  - intros x y z _. cbv beta. unfold ybar. rewrite Rmult_comm, <- zsum_scal. apply zsum_ext. intros. ring.
  - intros m Hm'. apply sphere_scal. apply orthonormal; lia.
  - destruct (Nat.eqb_spec l l') as [<- |Hn].
    + rewrite (zsum_delta _ _ m'); [rewrite Z.eqb_refl; cbn [andb]; ring|lia|]. intros i _ Hi. rewrite (proj2 (Z.eqb_neq i m')) by exact Hi. cbn [andb]. ring.
    + rewrite (zsum_ext _ _ _ (fun m => 0 * p m)) by (intros; cbn [andb]; ring). rewrite zsum_scal. ring.
Qed.

Lemma ybar_with l p F : (forall m, (Z.abs m <= Z.of_nat l)%Z -> sphere_int (fun x y z => F x y z * real_sph l m x y z) (p m)) -> sphere_int (fun x y z => F x y z * ybar l p x y z) (weight l p).
Proof.
  intros H. eapply sphere_ext; [|apply (sphere_zsum (- Z.of_nat l) (Z.of_nat l + 1) (fun m x y z => p m * (F x y z * real_sph l m x y z)) (fun m => p m * p m))].
  - intros x y z _. cbv beta. unfold ybar. rewrite <- zsum_scal. apply zsum_ext. intros. ring.
  - intros m Hm. apply sphere_scal, H. lia.
Qed.

Lemma bessel_inequality (ls : list nat) (P : nat -> Z -> R) : NoDup ls -> forall F s, sphere_int (fun x y z => F x y z * F x y z) s ->
  (forall l m, In l ls -> (Z.abs m <= Z.of_nat l)%Z -> sphere_int (fun x y z => F x y z * real_sph l m x y z) (P l m)) -> lsum (fun l => weight l (P l)) ls <= s.
Proof.
  induction ls as [|l ls IH]; intros ND F s HF HP.
  - unfold lsum. cbn [fold_right]. apply (sphere_pos _ _ HF). intros. apply Rle_0_sqr.
  - inversion ND as [|? ? Hnl ND']; subst. rewrite lsum_cons. set (G := fun x y z => F x y z - ybar l (P l) x y z).
    pose proof (ybar_with l (P l) F (fun m Hm => HP l m (or_introl eq_refl) Hm)) as H1.
    assert (H2 : sphere_int (fun x y z => ybar l (P l) x y z * ybar l (P l) x y z) (weight l (P l))).
    { apply ybar_with. intros m Hm. pose proof (ybar_sph l (P l) l m Hm) as E. rewrite Nat.eqb_refl in E. exact E. }
    assert (HG : sphere_int (fun x y z => G x y z * G x y z) (s - weight l (P l))).
    { eapply sphere_val; [eapply sphere_ext; [|apply (sphere_lin _ _ _ _ 1 (-2) (sphere_lin _ _ _ _ 1 1 HF H2) H1)]|]; [intros x y z _; cbv beta; unfold G; ring|ring]. }
    assert (HPG : forall l' m, In l' ls -> (Z.abs m <= Z.of_nat l')%Z -> sphere_int (fun x y z => G x y z * real_sph l' m x y z) (P l' m)).
    { intros l' m Hl Hm. pose proof (ybar_sph l (P l) l' m Hm) as E. destruct (Nat.eqb_spec l l') as [-> |]; [contradiction|].
      eapply sphere_val; [eapply sphere_ext; [|apply (sphere_lin _ _ _ _ 1 (-1) (HP l' m (or_intror Hl) Hm) E)]|]; [intros x y z _; cbv beta; unfold G; ring|ring]. }
    pose proof (IH ND' G _ HG HPG). lra.
Qed.

(** ** The averaged part *)
Definition at_C (C : R * R * R) (f : fn3) (r : R) : fn3 := let '(cx, cy, cz) := C in fun x y z => f (cx + r * x) (cy + r * y) (cz + r * z).

Definition angle_parts (C : R * R * R) (f : fn3) (ls : list nat) (P : nat -> Z -> R -> R) : Prop :=
  forall r l m, 0 < r -> In l ls -> (Z.abs m <= Z.of_nat l)%Z -> sphere_int (fun x y z => at_C C f r x y z * real_sph l m x y z) (P l m r).

Lemma semilocal_square C U f v : semilocal_V C U f f v -> exists P : Z -> R -> R,
  (forall r m, 0 < r -> (Z.abs m <= Z.of_nat (Z.to_nat (pv_L U)))%Z -> sphere_int (fun x y z => at_C C f r x y z * real_sph (Z.to_nat (pv_L U)) m x y z) (P m r)) /\
  half_int (fun r => r ^ 2 * (radial_potential (pv_prims U) r * weight (Z.to_nat (pv_L U)) (fun m => P m r))) v.
Proof.
  intros (P & Q & HP & HQ & H). exists P. destruct C as [[cx cy] cz]. unfold projection in HP, HQ. split; [intros r m Hr Hm; exact (HP m Hm r Hr)|].
  eapply half_ext; [|exact H]. intros r Hr. cbv beta. rewrite Rmult_assoc. f_equal. f_equal. unfold weight. apply zsum_ext. intros m Hm. f_equal. apply (sphere_uniq _ _ _ (HQ m ltac:(lia) r Hr) (HP m ltac:(lia) r Hr)).
Qed.

Definition degrees (l : list vpot) : list nat := map (fun U => Z.to_nat (pv_L U)) l.

Lemma averaged_square C l f w : NoDup (degrees l) -> element_sum (semilocal_V C) l f f w -> exists P, angle_parts C f (degrees l) P /\
  half_int (fun r => r ^ 2 * lsum (fun U => radial_potential (pv_prims U) r * weight (Z.to_nat (pv_L U)) (fun m => P (Z.to_nat (pv_L U)) m r)) l) w.
Proof.
  revert w. induction l as [|U l IH]; intros w ND H.
  - cbn [element_sum] in H. subst w. exists (fun _ _ _ => 0). split; [intros r l m _ []|]. eapply half_ext; [|apply Type2Radial.half_zero]. intros r _. unfold lsum. cbn [fold_right]. ring.
  - cbn [element_sum] in H. destruct H as (a & b & HU & HL & ->). cbn [degrees map] in ND. inversion ND as [|? ? Hn ND']; subst. destruct (IH b ND' HL) as (P & AP & HP). destruct (semilocal_square C U f a HU) as (Q & AQ & HQ).
    set (d := Z.to_nat (pv_L U)) in *. exists (fun l' => if (l' =? d)%nat then Q else P l'). split.
    + intros r l' m Hr Hl Hm. destruct (Nat.eqb_spec l' d) as [-> |Hd]; [apply AQ; assumption|]. apply AP; [exact Hr| |exact Hm]. destruct Hl as [E|Hl]; [contradiction Hd; symmetry; exact E|exact Hl].
    + eapply half_ext; [|apply (half_plus _ _ _ _ HQ HP)]. intros r Hr. cbv beta. rewrite lsum_cons. fold d. rewrite Nat.eqb_refl, Rmult_plus_distr_l. f_equal. f_equal. apply lsum_ext. intros U' HU'.
      destruct (Nat.eqb_spec (Z.to_nat (pv_L U')) d) as [E|]; [|reflexivity]. exfalso. apply Hn. change (In d (degrees l)). rewrite <- E. unfold degrees. apply (in_map (fun U => Z.to_nat (pv_L U))), HU'.
Qed.

Lemma radial_forms terms r : PolarThms.radial_sum terms r = radial_potential terms r.
Proof. unfold PolarThms.radial_sum, radial_potential. apply lsum_ext. intros [[n c] a] _. replace (- a * (r * r)) with (- (a * r ^ 2)) by ring. symmetry. apply Rmult_assoc. Qed.

Lemma local_square C U f v : gpn 9 f -> exps_ok U -> local_part C U f f v -> exists s,
  (forall r, 0 < r -> sphere_int (fun x y z => at_C C f r x y z * at_C C f r x y z) (s r)) /\ half_int (fun r => r ^ 2 * (local_value U r * s r)) v.
Proof.
  intros HF HX H. destruct U as [U|]; cbn [local_part local_value] in *.
  - destruct (pot_space (9 + 9) (fun x y z => f x y z * f x y z) C (pv_prims U) v (gpn_mul 9 9 f f HF HF) ltac:(lia) (fun n c a Hin => HX U eq_refl n c a Hin) H) as (s & A & B). exists s. destruct C as [[cx cy] cz]. split; [intros r Hr; exact (A r Hr)|].
    eapply half_ext; [|exact B]. intros r _. cbv beta. rewrite radial_forms. ring.
  - subst v. destruct (angular_of (9 + 9) (fun x y z => f x y z * f x y z) C (gpn_mul 9 9 f f HF HF) ltac:(lia)) as (s & A). exists s. destruct C as [[cx cy] cz]. split; [intros r Hr; exact (A r Hr)|].
    eapply half_ext; [|apply Type2Radial.half_zero]. intros r _. cbv beta. ring.
Qed.

(** the scalar part of the operator without outercore potentials, on a real function *)
Lemma scalar_square C gv os delta W f v : gpn 9 f -> gv_fine 9 gv -> NoDup (degrees (gv_arep gv)) -> grpp_V C gv (oc_V C os delta W) (-1) f f v ->
  exists s P b, oc_V C os delta W (-1) f f b /\ (forall r, 0 < r -> sphere_int (fun x y z => at_C C f r x y z * at_C C f r x y z) (s r)) /\ angle_parts C f (degrees (gv_arep gv)) P /\
    half_int (fun r => r ^ 2 * (local_value (gv_local gv) r * s r + lsum (fun U => radial_potential (pv_prims U) r * weight (Z.to_nat (pv_L U)) (fun m => P (Z.to_nat (pv_L U)) m r)) (gv_arep gv))) (v - b).
Proof.
  intros HF (HX & _) ND (a & b & Hb & Ev & u & w & Hu & Hw & Ea). destruct (local_square C (gv_local gv) f u HF HX Hu) as (s & A & B). destruct (averaged_square C (gv_arep gv) f w ND Hw) as (P & AP & HP).
  exists s, P, b. split; [exact Hb|]. split; [exact A|]. split; [exact AP|]. replace (v - b) with (u + w) by lra. eapply half_ext; [|apply (half_plus _ _ _ _ B HP)]. intros r _. cbv beta. ring.
Qed.

Lemma bessel_parts C f ls P s r : NoDup ls -> 0 < r -> sphere_int (fun x y z => at_C C f r x y z * at_C C f r x y z) (s r) -> angle_parts C f ls P -> lsum (fun l => weight l (fun m => P l m r)) ls <= s r.
Proof. intros ND Hr HS HP. apply (bessel_inequality ls (fun l m => P l m r) ND (at_C C f r) (s r) HS). intros l m Hl Hm. apply HP; assumption. Qed.

Lemma lsum_le_in {A} (f g : A -> R) l : (forall a, In a l -> f a <= g a) -> lsum f l <= lsum g l.
Proof. induction l as [|a l IH]; intros H; [unfold lsum; cbn; lra|]. rewrite !lsum_cons. pose proof (H a (or_introl eq_refl)). pose proof (IH (fun x Hx => H x (or_intror Hx))). lra. Qed.

Lemma degrees_sum (l : list vpot) (w : nat -> R) : lsum (fun U => w (Z.to_nat (pv_L U))) l = lsum w (degrees l).
Proof. induction l as [|U l IH]; [reflexivity|]. cbn [degrees map]. rewrite !lsum_cons. f_equal. exact IH. Qed.

Lemma sq_pos_s C f s r : 0 < r -> sphere_int (fun x y z => at_C C f r x y z * at_C C f r x y z) (s r) -> 0 <= s r.
Proof. intros _ H. apply (sphere_pos _ _ H). intros. apply Rle_0_sqr. Qed.

(** raising the potentials raises the value *)
Lemma raise_values C gv gv' os delta W f v v' : gpn 9 f -> gv_fine 9 gv -> gv_fine 9 gv' -> NoDup (degrees (gv_arep gv)) ->
  (forall r, 0 < r -> local_value (gv_local gv) r <= local_value (gv_local gv') r) ->
  Forall2 (fun U U' => pv_L U = pv_L U' /\ forall r, 0 < r -> radial_potential (pv_prims U) r <= radial_potential (pv_prims U') r) (gv_arep gv) (gv_arep gv') ->
  grpp_V C gv (oc_V C os delta W) (-1) f f v -> grpp_V C gv' (oc_V C os delta W) (-1) f f v' -> v <= v'.
Proof.
  intros HF G G' ND HL H2 HV HV'.
  assert (ED : degrees (gv_arep gv') = degrees (gv_arep gv)). { clear -H2. induction H2 as [|U U' l l' (E & _) _ IH]; [reflexivity|]. cbn [degrees map]. rewrite <- E. f_equal. exact IH. }
  destruct (scalar_square C gv os delta W f v HF G ND HV) as (s & P & b & Hb & HS & HP & H). destruct (scalar_square C gv' os delta W f v' HF G' ltac:(rewrite ED; exact ND) HV') as (s' & P' & b' & Hb' & HS' & HP' & H').
  rewrite (oc_unique _ _ _ _ _ _ _ _ _ Hb' Hb) in H'. assert (0 <= (v' - b) + -1 * (v - b)); [|lra]. apply (half_nonneg _ _ (half_plus _ _ _ _ H' (half_scal (-1) _ _ H))). intros r Hr. cbv beta.
  rewrite (sphere_uniq _ _ _ (HS' r Hr) (HS r Hr)). pose proof (sq_pos_s C f s r Hr (HS r Hr)) as Ps. specialize (HL r Hr).
  assert (EP : forall l m, In l (degrees (gv_arep gv)) -> (Z.abs m <= Z.of_nat l)%Z -> P' l m r = P l m r). { intros l m Hl Hm. apply (sphere_uniq _ _ _ (HP' r l m Hr ltac:(rewrite ED; exact Hl) Hm) (HP r l m Hr Hl Hm)). }
  assert (A : lsum (fun U => radial_potential (pv_prims U) r * weight (Z.to_nat (pv_L U)) (fun m => P (Z.to_nat (pv_L U)) m r)) (gv_arep gv) <= lsum (fun U => radial_potential (pv_prims U) r * weight (Z.to_nat (pv_L U)) (fun m => P' (Z.to_nat (pv_L U)) m r)) (gv_arep gv')).
  { clear - H2 EP Hr. induction H2 as [|U U' l l' (E & HU) _ IH]; [unfold lsum; cbn; lra|]. rewrite !lsum_cons. apply Rplus_le_compat.
    - rewrite <- E. assert (Ew : weight (Z.to_nat (pv_L U)) (fun m => P' (Z.to_nat (pv_L U)) m r) = weight (Z.to_nat (pv_L U)) (fun m => P (Z.to_nat (pv_L U)) m r)).
      { unfold weight. apply zsum_ext. intros m Hm. rewrite EP; [reflexivity|left; reflexivity|lia]. } rewrite Ew. apply Rmult_le_compat_r; [apply weight_pos|apply HU, Hr].
    - apply IH. intros l0 m Hl Hm. apply EP; [right; exact Hl|exact Hm]. }
  assert (Bd : local_value (gv_local gv) r * s r <= local_value (gv_local gv') r * s r) by (apply Rmult_le_compat_r; assumption).
  match goal with |- 0 <= r ^ 2 * ?x + -1 * (r ^ 2 * ?y) => replace (r ^ 2 * x + -1 * (r ^ 2 * y)) with (r ^ 2 * (x - y)) by ring end. apply Rmult_le_pos; [apply pow2_ge_0|lra].
Qed.

(** an operator with distinct projectors lies between the local potentials which bound it *)
Lemma between_values C gv gv' os delta W f v v' (sg : R) : (sg = 1 \/ sg = -1) -> gpn 9 f -> gv_fine 9 gv -> gv_fine 9 gv' -> NoDup (degrees (gv_arep gv)) -> gv_arep gv' = [] ->
  (forall r, 0 < r -> sg * local_value (gv_local gv) r <= sg * local_value (gv_local gv') r) ->
  (forall U r, In U (gv_arep gv) -> 0 < r -> sg * (local_value (gv_local gv) r + radial_potential (pv_prims U) r) <= sg * local_value (gv_local gv') r) ->
  grpp_V C gv (oc_V C os delta W) (-1) f f v -> grpp_V C gv' (oc_V C os delta W) (-1) f f v' -> sg * v <= sg * v'.
Proof.
  intros Hsg HF G G' ND EN HL HU HV HV'.
  destruct (scalar_square C gv os delta W f v HF G ND HV) as (s & P & b & Hb & HS & HP & H). destruct (scalar_square C gv' os delta W f v' HF G' ltac:(rewrite EN; constructor) HV') as (s' & P' & b' & Hb' & HS' & HP' & H').
  rewrite (oc_unique _ _ _ _ _ _ _ _ _ Hb' Hb) in H'. rewrite EN in H'. assert (0 <= sg * (v' - b) + - sg * (v - b)); [|destruct Hsg as [-> | ->]; lra]. apply (half_nonneg _ _ (half_plus _ _ _ _ (half_scal sg _ _ H') (half_scal (- sg) _ _ H))). intros r Hr. cbv beta.
  rewrite (sphere_uniq _ _ _ (HS' r Hr) (HS r Hr)). pose proof (bessel_parts C f _ P s r ND Hr (HS r Hr) HP) as Bs. specialize (HL r Hr).
  set (D := sg * local_value (gv_local gv') r - sg * local_value (gv_local gv) r). assert (PD : 0 <= D) by (unfold D; lra).
  assert (A : sg * lsum (fun U => radial_potential (pv_prims U) r * weight (Z.to_nat (pv_L U)) (fun m => P (Z.to_nat (pv_L U)) m r)) (gv_arep gv) <= D * s r).
  { apply Rle_trans with (D * lsum (fun l => weight l (fun m => P l m r)) (degrees (gv_arep gv))); [|apply Rmult_le_compat_l; assumption].
    rewrite <- (degrees_sum (gv_arep gv) (fun l => weight l (fun m => P l m r))), <- !lsum_scal. apply lsum_le_in. intros U Hin. rewrite <- Rmult_assoc. apply Rmult_le_compat_r; [apply weight_pos|]. pose proof (HU U r Hin Hr). unfold D. lra. }
  unfold lsum at 1. cbn [fold_right].
  match goal with |- 0 <= ?x => replace x with (r ^ 2 * (D * s r - sg * lsum (fun U => radial_potential (pv_prims U) r * weight (Z.to_nat (pv_L U)) (fun m => P (Z.to_nat (pv_L U)) m r)) (gv_arep gv))) by (unfold D; ring) end.
  apply Rmult_le_pos; [apply pow2_ge_0|lra].
Qed.

(** ** Elements between linear combinations *)
Section Elements.
Variables (fuel : nat) (par : params) (bessel : Z -> R -> R) (erf : R -> R) (st : rsh_store) (h : heap) (C : R * R * R) (g : Z) (gv : gview) (ocp : list Z) (os : list oc_data).
Hypothesis Hf : (14 <= fuel)%nat.
Hypothesis HI : init_tables st.
Hypothesis HW : heap_wf h.
Hypothesis HG : grpp_at h g gv ocp.
Hypothesis HO : oc_ready (gv_oc gv) os.

Lemma written_value k t u e1 eps Qm e : (-1 <= k < 3)%Z -> bf_ok h t -> bf_ok h u -> ~ In (b_p t) ocp -> ~ In (b_p u) ocp -> own_ready fuel par bessel erf C gv (b_v t) (b_v u) e1 eps Qm ->
  written fuel par bessel erf st h C g ocp k t u e ->
  exists v, grpp_V C gv (oc_V C os own_delta Wk) k (phi_of (b_v t) (b_comp t)) (phi_of (b_v u) (b_comp u)) v /\ Rabs (e - v) <= grpp_error C gv (b_v t) (b_v u) e1 eps Qm k.
Proof.
  intros Hk (SA & LA & XA & BA) (SB & LB & XB & BB) NA NB HR (h1 & M & X & hX & Rc & Rm & E & Ee).
  destruct (own_elements fuel par bessel erf st h h1 (b_p t) (b_p u) g gv ocp os (b_v t) (b_v u) (b_comps t) (b_comps u) C M e1 eps Qm Hf HI HW SA SB HG NA NB Rc Rm HO HR) as (X' & h' & E' & _ & _ & V).
  rewrite E in E'. injection E' as <- _. destruct (V k (b_m t) (b_m u) (b_comp t) (b_comp u) Hk (nth_error_nth' _ _ BA) (nth_error_nth' _ _ BB)) as (s & v & Es & Hv & Bv).
  rewrite Ee in Es. injection Es as <-. exists v. split; assumption.
Qed.

Lemma written_exists k t u e1 eps Qm : (-1 <= k < 3)%Z -> bf_ok h t -> bf_ok h u -> ~ In (b_p t) ocp -> ~ In (b_p u) ocp -> own_ready fuel par bessel erf C gv (b_v t) (b_v u) e1 eps Qm ->
  exists e, written fuel par bessel erf st h C g ocp k t u e.
Proof.
  intros Hk (SA & LA & XA & BA) (SB & LB & XB & BB) NA NB HR.
  assert (Rm : exists M, room4 (b_v t) (b_v u) M).
  { assert (F : fits (aundef [(v_size (b_v t) * v_size (b_v u))%Z]) (b_v t) (b_v u)) by (eexists; split; [reflexivity|lia]). eexists (_, _, _, _). repeat (split; [exact F|]). exact F. } destruct Rm as (M & Rm).
  destruct (own_elements fuel par bessel erf st h h (b_p t) (b_p u) g gv ocp os (b_v t) (b_v u) (b_comps t) (b_comps u) C M e1 eps Qm Hf HI HW SA SB HG NA NB (reached_refl C ocp h HW) Rm HO HR) as (X & h' & E & _ & _ & V).
  destruct (V k (b_m t) (b_m u) (b_comp t) (b_comp u) Hk (nth_error_nth' _ _ BA) (nth_error_nth' _ _ BB)) as (s & v & Es & _). exists s, h, M, X, h'. split; [apply reached_refl, HW|]. split; [exact Rm|]. split; [exact E|exact Es].
Qed.

Lemma close_sum (V : Z -> fn3 -> fn3 -> R -> Prop) k (side : bool) {T} (l : list T) (F : T -> fn3) (f : fn3) (w e E : T -> R) : bilinear V -> l <> [] ->
  (forall a, In a l -> exists v, (if side then V k (F a) f v else V k f (F a) v) /\ Rabs (e a - v) <= E a) ->
  exists v, (if side then V k (fun x y z => lsum (fun a => w a * F a x y z) l) f v else V k f (fun x y z => lsum (fun a => w a * F a x y z) l) v) /\ Rabs (lsum (fun a => w a * e a) l - v) <= lsum (fun a => Rabs (w a) * E a) l.
Proof.
  intros (B1 & B2 & B3). induction l as [|a l IH]; intros Hne H; [contradiction|]. destruct (H a (or_introl eq_refl)) as (v & Hv & Bv).
  assert (Bw : Rabs (w a * e a - w a * v) <= Rabs (w a) * E a) by (rewrite <- Rmult_minus_distr_l, Rabs_mult; apply Rmult_le_compat_l; [apply Rabs_pos|exact Bv]).
  destruct l as [|b l].
  - exists (w a * v). split; [|unfold lsum; cbn [fold_right]; rewrite !Rplus_0_r; exact Bw]. destruct side.
    + pose proof (B2 k _ _ _ _ _ (w a - 1) Hv Hv) as X. replace (w a * v) with (v + (w a - 1) * v) by ring. eapply B1; [| |exact X]; intros x y z; [unfold lsum; cbn; ring|reflexivity].
    + pose proof (B3 k _ _ _ _ _ (w a - 1) Hv Hv) as X. replace (w a * v) with (v + (w a - 1) * v) by ring. eapply B1; [| |exact X]; intros x y z; [reflexivity|unfold lsum; cbn; ring].
  - destruct (IH ltac:(discriminate) (fun c Hc => H c (or_intror Hc))) as (v' & Hv' & Bv'). exists (v' + w a * v). split.
    + destruct side.
      * eapply B1; [| |exact (B2 k _ _ _ _ _ (w a) Hv' Hv)]; intros x y z; cbv beta; [rewrite (lsum_cons _ a); ring|reflexivity].
      * eapply B1; [| |exact (B3 k _ _ _ _ _ (w a) Hv' Hv)]; intros x y z; cbv beta; [reflexivity|rewrite (lsum_cons _ a); ring].
    + rewrite (lsum_cons _ a), (lsum_cons (fun a => Rabs (w a) * E a) a). set (A := lsum (fun a => w a * e a) (b :: l)) in *. set (A' := lsum (fun a => Rabs (w a) * E a) (b :: l)) in *.
      replace (w a * e a + A - (v' + w a * v)) with ((w a * e a - w a * v) + (A - v')) by ring. eapply Rle_trans; [apply Rabs_triang|lra].
Qed.

Lemma own_bilinear : bilinear (grpp_V C gv (oc_V C os own_delta Wk)).
Proof. apply bilinear_grpp, bilinear_oc. Qed.

Lemma combination_value k e1 eps Qm ts us V : (-1 <= k < 3)%Z -> ts <> [] -> us <> [] -> in_reach fuel par bessel erf h C gv ocp e1 eps Qm ts us ->
  (forall t u, In t ts -> In u us -> written fuel par bessel erf st h C g ocp k t u (V t u)) ->
  exists v, grpp_V C gv (oc_V C os own_delta Wk) k (combo ts) (combo us) v /\ Rabs (Rigid.cross ts us V - v) <= basis_error C gv e1 eps Qm k ts us.
Proof.
  intros Hk Nt Nu (H1 & H2 & HR) HV.
  destruct (close_sum (grpp_V C gv (oc_V C os own_delta Wk)) k true ts (fun t => phi_of (b_v t) (b_comp t)) (combo us) b_w (fun t => lsum (fun u => b_w u * V t u) us)
     (fun t => lsum (fun u => Rabs (b_w u) * grpp_error C gv (b_v t) (b_v u) (e1 t u) (eps t u) (Qm t u) k) us) own_bilinear Nt) as (v & Hv & Bv).
  - intros t Ht. apply (close_sum (grpp_V C gv (oc_V C os own_delta Wk)) k false us (fun u => phi_of (b_v u) (b_comp u)) (phi_of (b_v t) (b_comp t)) b_w (V t) (fun u => grpp_error C gv (b_v t) (b_v u) (e1 t u) (eps t u) (Qm t u) k) own_bilinear Nu).
    intros u Hu. destruct (H1 t Ht) as (O1 & N1). destruct (H2 u Hu) as (O2 & N2). apply (written_value k t u _ _ _ _ Hk O1 O2 N1 N2 (HR t u Ht Hu) (HV t u Ht Hu)).
  - exists v. split; [exact Hv|]. assert (E1 : Rigid.cross ts us V = lsum (fun t => b_w t * lsum (fun u => b_w u * V t u) us) ts).
    { unfold Rigid.cross. apply lsum_ext. intros t _. rewrite <- lsum_scal. apply lsum_ext. intros u _. ring. }
    assert (E2 : basis_error C gv e1 eps Qm k ts us = lsum (fun t => Rabs (b_w t) * lsum (fun u => Rabs (b_w u) * grpp_error C gv (b_v t) (b_v u) (e1 t u) (eps t u) (Qm t u) k) us) ts).
    { unfold basis_error. apply lsum_ext. intros t _. rewrite <- lsum_scal. apply lsum_ext. intros u _. rewrite Rabs_mult. ring. }
    rewrite E1, E2. exact Bv.
Qed.
End Elements.

Lemma quad_nil V : quad [] V = 0.
Proof. reflexivity. Qed.

(** ** The theorems *)
Lemma combination_thm : forall fuel par bessel erf st h C g gv ocp os k e1 eps Qm ts us V,
  (14 <= fuel)%nat -> init_tables st -> heap_wf h -> grpp_at h g gv ocp -> oc_ready (gv_oc gv) os -> (-1 <= k < 3)%Z -> ts <> [] -> us <> [] ->
  in_reach fuel par bessel erf h C gv ocp e1 eps Qm ts us -> (forall t u, In t ts -> In u us -> written fuel par bessel erf st h C g ocp k t u (V t u)) ->
  exists delta ratio W v, oc_numbers os delta ratio W /\ grpp_V C gv (oc_V C os (fun o o' => ratio (oc_l o) ^ 2 * delta o o') W) k (combo ts) (combo us) v /\ Rabs (Rigid.cross ts us V - v) <= basis_error C gv e1 eps Qm k ts us.
Proof.
  intros fuel par bessel erf st h C g gv ocp os k e1 eps Qm ts us V Hf HI W HG HO Hk Nt Nu HR HV. destruct (combination_value fuel par bessel erf st h C g gv ocp os Hf HI W HG HO k e1 eps Qm ts us V Hk Nt Nu HR HV) as (v & Hv & Bv).
  eexists _, table_ratio, Wk, v. split; [apply oc_numbers_exist; destruct HO as (cart & _ & _ & X & _); exact X|]. split; [exact Hv|exact Bv].
Qed.

Section Two.
Variables (fuel : nat) (par : params) (bessel : Z -> R -> R) (erf : R -> R) (st : rsh_store) (h : heap) (C : R * R * R) (g g' : Z) (gv gv' : gview) (ocp ocp' : list Z) (os : list oc_data).
Variables (e1 e1' : bfun -> bfun -> R) (eps Qm eps' Qm' : bfun -> bfun -> vpot -> R) (ts : list bfun) (V V' : bfun -> bfun -> R).
Hypothesis Hf : (14 <= fuel)%nat.
Hypothesis HI : init_tables st.
Hypothesis HW : heap_wf h.
Hypothesis HG : grpp_at h g gv ocp.
Hypothesis HG' : grpp_at h g' gv' ocp'.
Hypothesis HO : oc_ready (gv_oc gv) os.
Hypothesis HO' : oc_ready (gv_oc gv') os.
Hypothesis HR : in_reach fuel par bessel erf h C gv ocp e1 eps Qm ts ts.
Hypothesis HR' : in_reach fuel par bessel erf h C gv' ocp' e1' eps' Qm' ts ts.
Hypothesis HV : forall t u, In t ts -> In u ts -> written fuel par bessel erf st h C g ocp (-1) t u (V t u).
Hypothesis HV' : forall t u, In t ts -> In u ts -> written fuel par bessel erf st h C g' ocp' (-1) t u (V' t u).

Lemma two_values (Q : R -> R -> Prop) : (forall f v v', gpn 9 f -> gv_fine 9 gv -> gv_fine 9 gv' -> grpp_V C gv (oc_V C os own_delta Wk) (-1) f f v -> grpp_V C gv' (oc_V C os own_delta Wk) (-1) f f v' -> Q v v') ->
  ts <> [] -> exists v v', Q v v' /\ Rabs (quad ts V - v) <= basis_error C gv e1 eps Qm (-1) ts ts /\ Rabs (quad ts V' - v') <= basis_error C gv' e1' eps' Qm' (-1) ts ts.
Proof.
  intros HQ Nt. destruct (combination_value fuel par bessel erf st h C g gv ocp os Hf HI HW HG HO (-1) e1 eps Qm ts ts V ltac:(lia) Nt Nt HR HV) as (v & Hv & Bv).
  destruct (combination_value fuel par bessel erf st h C g' gv' ocp' os Hf HI HW HG' HO' (-1) e1' eps' Qm' ts ts V' ltac:(lia) Nt Nt HR' HV') as (v' & Hv' & Bv').
  exists v, v'. split; [|split; [exact Bv|exact Bv']]. destruct HR as (O1 & _ & R1). destruct HR' as (_ & _ & R2). destruct ts as [|t l] eqn:Et; [contradiction|].
  apply (HQ (combo ts)); try (rewrite Et; assumption).
  - rewrite Et. apply (combo_gpn h). intros x Hx. apply (O1 x Hx).
  - apply (ready_fine _ _ _ _ _ _ _ _ _ _ _ (R1 t t (or_introl eq_refl) (or_introl eq_refl))).
  - apply (ready_fine _ _ _ _ _ _ _ _ _ _ _ (R2 t t (or_introl eq_refl) (or_introl eq_refl))).
Qed.
End Two.

Lemma Rabs_two a b : Rabs a <= b -> - b <= a <= b.
Proof. intros H. apply Rabs_le_between in H. exact H. Qed.

Lemma grpp_order_thm : forall fuel par bessel erf st h C g g' gv gv' ocp ocp' os e1 e1' eps Qm eps' Qm' ts V V',
  (14 <= fuel)%nat -> init_tables st -> heap_wf h -> grpp_at h g gv ocp -> grpp_at h g' gv' ocp' -> oc_ready (gv_oc gv) os -> oc_ready (gv_oc gv') os ->
  in_reach fuel par bessel erf h C gv ocp e1 eps Qm ts ts -> in_reach fuel par bessel erf h C gv' ocp' e1' eps' Qm' ts ts ->
  (forall t u, In t ts -> In u ts -> written fuel par bessel erf st h C g ocp (-1) t u (V t u)) ->
  (forall t u, In t ts -> In u ts -> written fuel par bessel erf st h C g' ocp' (-1) t u (V' t u)) ->
  NoDup (degrees (gv_arep gv)) ->
  (forall r, 0 < r -> local_value (gv_local gv) r <= local_value (gv_local gv') r) ->
  Forall2 (fun U U' => pv_L U = pv_L U' /\ forall r, 0 < r -> radial_potential (pv_prims U) r <= radial_potential (pv_prims U') r) (gv_arep gv) (gv_arep gv') ->
  quad ts V <= quad ts V' + (basis_error C gv e1 eps Qm (-1) ts ts + basis_error C gv' e1' eps' Qm' (-1) ts ts).
Proof.
  intros fuel par bessel erf st h C g g' gv gv' ocp ocp' os e1 e1' eps Qm eps' Qm' ts V V' Hf HI HW HG HG' HO HO' HR HR' HV HV' ND HL H2.
  destruct ts as [|t l] eqn:Et; [rewrite !quad_nil; unfold basis_error, lsum; cbn [fold_right]; lra|]. rewrite <- Et in *.
  destruct (two_values fuel par bessel erf st h C g g' gv gv' ocp ocp' os e1 e1' eps Qm eps' Qm' ts V V' Hf HI HW HG HG' HO HO' HR HR' HV HV' Rle) as (v & v' & L & B & B').
  - intros f v v' Hgf F F' X X'. apply (raise_values C gv gv' os own_delta Wk f v v' Hgf F F' ND HL H2 X X').
  - rewrite Et. discriminate.
  - apply Rabs_two in B. apply Rabs_two in B'. lra.
Qed.

Lemma grpp_between_thm : forall fuel par bessel erf st h C g g' gv gv' ocp ocp' os e1 e1' eps Qm eps' Qm' ts V V',
  (14 <= fuel)%nat -> init_tables st -> heap_wf h -> grpp_at h g gv ocp -> grpp_at h g' gv' ocp' -> oc_ready (gv_oc gv) os -> oc_ready (gv_oc gv') os ->
  in_reach fuel par bessel erf h C gv ocp e1 eps Qm ts ts -> in_reach fuel par bessel erf h C gv' ocp' e1' eps' Qm' ts ts ->
  (forall t u, In t ts -> In u ts -> written fuel par bessel erf st h C g ocp (-1) t u (V t u)) ->
  (forall t u, In t ts -> In u ts -> written fuel par bessel erf st h C g' ocp' (-1) t u (V' t u)) ->
  NoDup (degrees (gv_arep gv)) -> gv_arep gv' = [] ->
  let e := basis_error C gv e1 eps Qm (-1) ts ts + basis_error C gv' e1' eps' Qm' (-1) ts ts in
  ((forall r, 0 < r -> local_value (gv_local gv) r <= local_value (gv_local gv') r) ->
   (forall U r, In U (gv_arep gv) -> 0 < r -> local_value (gv_local gv) r + radial_potential (pv_prims U) r <= local_value (gv_local gv') r) -> quad ts V <= quad ts V' + e) /\
  ((forall r, 0 < r -> local_value (gv_local gv') r <= local_value (gv_local gv) r) ->
   (forall U r, In U (gv_arep gv) -> 0 < r -> local_value (gv_local gv') r <= local_value (gv_local gv) r + radial_potential (pv_prims U) r) -> quad ts V' <= quad ts V + e).
Proof.
  intros fuel par bessel erf st h C g g' gv gv' ocp ocp' os e1 e1' eps Qm eps' Qm' ts V V' Hf HI HW HG HG' HO HO' HR HR' HV HV' ND EN e. unfold e. clear e.
  destruct ts as [|t l] eqn:Et; [unfold quad, basis_error, lsum; cbn [fold_right]; split; intros; lra|]. assert (Nt : ts <> []) by (rewrite Et; discriminate). rewrite <- Et in *.
  pose proof (two_values fuel par bessel erf st h C g g' gv gv' ocp ocp' os e1 e1' eps Qm eps' Qm' ts V V' Hf HI HW HG HG' HO HO' HR HR' HV HV') as T. split; intros HL HU.
  - destruct (T (fun v v' => 1 * v <= 1 * v')) as (v & v' & L & B & B'); [|exact Nt|apply Rabs_two in B; apply Rabs_two in B'; lra].
    intros f v v' Hgf F F' X X'. apply (between_values C gv gv' os own_delta Wk f v v' 1); try assumption; [left; reflexivity|intros r Hr; specialize (HL r Hr); lra|intros U r Hin Hr; specialize (HU U r Hin Hr); lra].
  - destruct (T (fun v v' => -1 * v <= -1 * v')) as (v & v' & L & B & B'); [|exact Nt|apply Rabs_two in B; apply Rabs_two in B'; lra].
    intros f v v' Hgf F F' X X'. apply (between_values C gv gv' os own_delta Wk f v v' (-1)); try assumption; [right; reflexivity|intros r Hr; specialize (HL r Hr); lra|intros U r Hin Hr; specialize (HU U r Hin Hr); lra].
Qed.

Lemma grpp_so_zero_thm : forall fuel par bessel erf st h C g gv ocp os k e1 eps Qm ts V,
  (14 <= fuel)%nat -> init_tables st -> heap_wf h -> grpp_at h g gv ocp -> oc_ready (gv_oc gv) os -> (0 <= k < 3)%Z ->
  in_reach fuel par bessel erf h C gv ocp e1 eps Qm ts ts -> (forall t u, In t ts -> In u ts -> written fuel par bessel erf st h C g ocp k t u (V t u)) ->
  Rabs (quad ts V) <= basis_error C gv e1 eps Qm k ts ts.
Proof.
  intros fuel par bessel erf st h C g gv ocp os k e1 eps Qm ts V Hf HI HW HG HO Hk HR HV.
  destruct ts as [|t l] eqn:Et; [rewrite quad_nil, Rabs_R0; unfold basis_error, lsum; cbn [fold_right]; lra|]. rewrite <- Et in *. assert (Nt : ts <> []) by (rewrite Et; discriminate).
  destruct (combination_value fuel par bessel erf st h C g gv ocp os Hf HI HW HG HO k e1 eps Qm ts ts V ltac:(lia) Nt Nt HR HV) as (v & Hv & Bv).
  assert (HVd : List.Forall oc_valid os) by (destruct HO as (cart & _ & _ & X & _); exact X).
  pose proof (grpp_unique _ _ _ _ _ _ _ _ _ _ Hv (grpp_exchange C gv os k _ _ v ltac:(lia) HVd Hv)) as E. unfold exchange_sign in E. rewrite (proj2 (Z.eqb_neq k (-1))) in E by lia. assert (v = 0) by lra. subst v. rewrite Rminus_0_r in Bv. exact Bv.
Qed.

Lemma grpp_repulsive_thm : forall fuel par bessel erf st h C g gv ocp e1 eps Qm ts V,
  (14 <= fuel)%nat -> init_tables st -> heap_wf h -> grpp_at h g gv ocp -> gv_oc gv = [] ->
  in_reach fuel par bessel erf h C gv ocp e1 eps Qm ts ts -> (forall t u, In t ts -> In u ts -> written fuel par bessel erf st h C g ocp (-1) t u (V t u)) ->
  (forall r, 0 < r -> 0 <= local_value (gv_local gv) r) -> (forall U r, In U (gv_arep gv) -> 0 < r -> 0 <= radial_potential (pv_prims U) r) ->
  - basis_error C gv e1 eps Qm (-1) ts ts <= quad ts V.
Proof.
  intros fuel par bessel erf st h C g gv ocp e1 eps Qm ts V Hf HI HW HG EO HR HV HL HU.
  destruct ts as [|t l] eqn:Et; [rewrite quad_nil; unfold basis_error, lsum; cbn [fold_right]; lra|]. rewrite <- Et in *. assert (Nt : ts <> []) by (rewrite Et; discriminate).
  assert (HO : oc_ready (gv_oc gv) []) by (rewrite EO; exists (fun l => canon (Z.of_nat l)); split; [exact sc_components|]; split; [constructor|]; split; [constructor|intros o []]).
  destruct (combination_value fuel par bessel erf st h C g gv ocp [] Hf HI HW HG HO (-1) e1 eps Qm ts ts V ltac:(lia) Nt Nt HR HV) as (v & (a & b & (Sa & Ua & Sb & Ub & _ & _ & Eb) & Ev & u & w & Hu & Hw & Ea) & Bv).
  assert (Gf : gpn 9 (combo ts)) by (apply (combo_gpn h); intros x Hx; apply (proj1 HR x Hx)).
  assert (Fn : gv_fine 9 gv) by (destruct HR as (_ & _ & R1); apply (ready_fine _ _ _ _ _ _ _ _ _ _ _ (R1 t t ltac:(rewrite Et; left; reflexivity) ltac:(rewrite Et; left; reflexivity)))).
  assert (b = 0) by (rewrite Eb; cbn [Z.eqb Pos.eqb]; unfold arep_value, lsum; cbn [fold_right]; ring).
  assert (0 <= u). { destruct (local_square C (gv_local gv) _ u Gf (proj1 Fn) Hu) as (s & HS & HH). apply (half_nonneg _ _ HH). intros r Hr. apply Rmult_le_pos; [apply pow2_ge_0|]. apply Rmult_le_pos; [apply HL, Hr|apply (sq_pos_s C (combo ts) s r Hr (HS r Hr))]. }
  assert (0 <= w). { clear - Hw HU. revert w Hw. induction (gv_arep gv) as [|U l IH]; intros w Hw; cbn [element_sum] in Hw; [lra|]. destruct Hw as (a & b & Ha & Hb & ->). pose proof (IH (fun U' r Hin => HU U' r (or_intror Hin)) b Hb).
    destruct (semilocal_square C U _ a Ha) as (P & _ & H1). assert (0 <= a); [|lra]. apply (half_nonneg _ _ H1). intros r Hr. apply Rmult_le_pos; [apply pow2_ge_0|]. apply Rmult_le_pos; [apply (HU U r (or_introl eq_refl) Hr)|apply weight_pos]. }
  apply Rabs_two in Bv. change (Rigid.cross ts ts V) with (quad ts V) in Bv. lra.
Qed.

(** ** A case: the p shell and the s shell of [scene], three operators *)
Definition wU2 : vpot := mkVPot 1 3 [(2, 3%R, (1 / 4)%R)]%Z.
Definition gv_small : gview := mkGv (Some wU) [wU] [wU] [].
Definition gv_large : gview := mkGv (Some wU) [wU2] [wU] [].

Lemma wU_pos r : 0 < radial_potential (pv_prims wU) r /\ radial_potential (pv_prims wU) r <= radial_potential (pv_prims wU2) r.
Proof.
  unfold radial_potential, lsum. cbn [pv_prims wU wU2 fold_right]. change (powerRZ r (2 - 2)) with 1. pose proof (exp_pos (- (1 / 4) * (r * r))) as P1. pose proof (exp_pos (- (2) * (r * r))) as P2.
  assert (L : exp (- (2) * (r * r)) <= exp (- (1 / 4) * (r * r))) by (apply PolarInt.exp_le; pose proof (Rle_0_sqr r) as Q; unfold Rsqr in Q; lra). split; lra.
Qed.

Lemma case_ready h pA pB pS u g g3 vA vB ca cb S0 gv x y : scene h pA pB pS u g g3 vA vB ca cb S0 -> x = vA \/ x = vB -> y = vA \/ y = vB -> gv_local gv = Some wU ->
  (forall U, In U (gv_arep gv ++ gv_esop gv) -> U = wU \/ U = wU2) -> shells_ready wC gv x y.
Proof.
  intros Sc Hx Hy HL HU. destruct (sc_exps h pA pB pS u g g3 vA vB ca cb S0 Sc) as (XA & XB). destruct (sc_significant h pA pB pS u g g3 vA vB ca cb S0 Sc) as (YA & YB).
  destruct (scene_ready h pA pB pS u g g3 vA vB ca cb S0 Sc) as (_ & _ & _ & _ & _ & _ & _ & NA & NB & DA & DB & HLoc & _).
  pose proof Sc as (_ & _ & _ & _ & _ & LA & _ & _ & LB & _).
  assert (Fx : (0 <= v_L x <= 1)%Z /\ exps_pos x /\ significant x /\ v_prims x <> [] /\ direction_known (v_origin x) wC (v_prims x)) by (destruct Hx as [-> | ->]; (split; [lia|]; repeat (split; [assumption|]); assumption)).
  assert (Fy : (0 <= v_L y <= 1)%Z /\ exps_pos y /\ significant y /\ v_prims y <> [] /\ direction_known (v_origin y) wC (v_prims y)) by (destruct Hy as [-> | ->]; (split; [lia|]; repeat (split; [assumption|]); assumption)).
  destruct Fx as (Lx & Px & Sx & Nx & Dx). destruct Fy as (Ly & Py & Sy & Ny & Dy). unfold shells_ready. do 3 (split; [lia|]). do 8 (split; [assumption|]). split; [intros U E; apply HLoc; rewrite HL in E; exact E|].
  intros U Hin. destruct (HU U Hin) as [-> | ->]; cbn [pv_L pv_prims wU wU2]; (split; [lia|]; split; [lia|]; split; [lia|]; split; [intros ni c a|intros ni c a]);
    [intros [E | [E | []]]; injection E as <- <- <-; lia|intros [E | [E | []]]; injection E as <- <- <-; lra|intros [E | []]; injection E as <- <- <-; lia|intros [E | []]; injection E as <- <- <-; lra].
Qed.

(** the errors of four pairs of shells as one function *)
Definition by_pair {A} (aa ab ba bb : A) (t u : bfun) : A := if (v_L (b_v t) =? 1)%Z then (if (v_L (b_v u) =? 1)%Z then aa else ab) else (if (v_L (b_v u) =? 1)%Z then ba else bb).

Lemma case_reach fuel par bessel erf h h' pA pB pS u g g3 vA vB ca cb S0 gv w w' : scene h pA pB pS u g g3 vA vB ca cb S0 -> keeps h h' -> gv_local gv = Some wU -> (forall U, In U (gv_arep gv ++ gv_esop gv) -> U = wU \/ U = wU2) ->
  exists e1 eps Qm, in_reach fuel par bessel erf h' wC gv [] e1 eps Qm [BF w pA vA ca 2; BF w' pB vB cb 0] [BF w pA vA ca 2; BF w' pB vB cb 0].
Proof.
  intros Sc K HL HU. pose proof (fun x y Hx Hy => ready_one fuel par bessel erf wC gv x y (case_ready h pA pB pS u g g3 vA vB ca cb S0 gv x y Sc Hx Hy HL HU)) as RR.
  destruct (RR vA vA (or_introl eq_refl) (or_introl eq_refl)) as (a1 & a2 & a3 & RA). destruct (RR vA vB (or_introl eq_refl) (or_intror eq_refl)) as (b1 & b2 & b3 & RB).
  destruct (RR vB vA (or_intror eq_refl) (or_introl eq_refl)) as (c1 & c2 & c3 & RC). destruct (RR vB vB (or_intror eq_refl) (or_intror eq_refl)) as (d1 & d2 & d3 & RD).
  exists (by_pair a1 b1 c1 d1), (by_pair a2 b2 c2 d2), (by_pair a3 b3 c3 d3). destruct (sc_exps h pA pB pS u g g3 vA vB ca cb S0 Sc) as (XA & XB). pose proof Sc as (W & SA & SB & _ & _ & LA & _ & _ & LB & _).
  pose proof (std_length _ _ _ _ SA) as NA. pose proof (std_length _ _ _ _ SB) as NB. rewrite LA in NA. rewrite LB in NB. change (n_cart 1) with 3%Z in NA. change (n_cart 0) with 1%Z in NB.
  assert (B : forall t, In t [BF w pA vA ca 2; BF w' pB vB cb 0] -> bf_ok h' t /\ ~ In (b_p t) []).
  { intros t [<- | [<- | []]]; (split; [|intros []]); unfold bf_ok; cbn [b_p b_v b_comps b_m]; (split; [eapply std_old; eassumption|]); (split; [lia|]); (split; [assumption|lia]). }
  split; [exact B|]. split; [exact B|]. intros t u' [<- | [<- | []]] [<- | [<- | []]]; unfold by_pair; cbn [b_v]; rewrite ?LA, ?LB; cbn [Z.eqb Pos.eqb]; assumption.
Qed.

Lemma case_thm fuel par bessel erf w w' : exists h g g' g'' ts e1 eps Qm e1' eps' Qm' e1'' eps'' Qm'',
  heap_wf h /\ grpp_at h g (only_local wU) [] /\ grpp_at h g' gv_small [] /\ grpp_at h g'' gv_large [] /\ oc_ready [] [] /\
  in_reach fuel par bessel erf h wC (only_local wU) [] e1 eps Qm ts ts /\ in_reach fuel par bessel erf h wC gv_small [] e1' eps' Qm' ts ts /\ in_reach fuel par bessel erf h wC gv_large [] e1'' eps'' Qm'' ts ts /\
  map b_w ts = [w; w'] /\ map (fun t => v_L (b_v t)) ts = [1; 0]%Z.
Proof.
  destruct scene_exists as (h & pA & pB & pS & u & g & g3 & vA & vB & ca & cb & S0 & Sc). pose proof Sc as (W & SA & SB & _ & _ & LA & OA & PA & LB & OB & PB & EU & _ & _ & G & G3).
  destruct (pot_exists h 1 3 (pv_prims wU2) W) as (u2 & h1 & W1 & K1 & EU2).
  destruct (halloc h1 (OPtrs [u2])) as [q2 h2] eqn:E2. destruct (halloc_wf _ _ _ _ W1 E2) as (W2 & B2 & K2).
  destruct (halloc h2 (OPtrs [u])) as [q h3] eqn:E3. destruct (halloc_wf _ _ _ _ W2 E3) as (W3 & B3 & K3).
  destruct (halloc h3 (OGrpp (mkGrpp 1 1 0 u q2 q 0 0))) as [g4 h4] eqn:E4. destruct (halloc_wf _ _ _ _ W3 E4) as (W4 & B4 & K4).
  assert (K : keeps h h4) by (intros a o Hq; apply K4, K3, K2, K1, Hq).
  assert (EU4 : view_pot h4 u = Ok wU) by (eapply view_keeps; [exact K|exact EU]).
  assert (EV4 : view_pot h4 u2 = Ok wU2) by (eapply view_keeps; [|exact EU2]; intros a o Hq; apply K4, K3, K2, Hq).
  assert (G4 : grpp_at h4 g4 gv_large []).
  { exists (mkGrpp 1 1 0 u q2 q 0 0), [u2], [u], []. split; [exact B4|]. cbn [gv_large gv_local gv_arep gv_esop gv_oc g_UL g_n_arep g_n_esop g_n_oc g_Uarep g_Uesop map]. split; [exact EU4|].
    split; [reflexivity|]. split; [right; exists []; apply K4, K3; exact B2|]. split; [constructor; [exact EV4|constructor]|]. split; [reflexivity|]. split; [right; exists []; apply K4; exact B3|]. split; [constructor; [exact EU4|constructor]|].
    repeat split; try constructor; reflexivity. }
  destruct (case_reach fuel par bessel erf h h4 pA pB pS u g g3 vA vB ca cb S0 (only_local wU) w w' Sc K eq_refl ltac:(intros U [])) as (e1 & eps & Qm & R1).
  destruct (case_reach fuel par bessel erf h h4 pA pB pS u g g3 vA vB ca cb S0 gv_small w w' Sc K eq_refl ltac:(intros U [<- | [<- | []]]; auto)) as (e1' & eps' & Qm' & R2).
  destruct (case_reach fuel par bessel erf h h4 pA pB pS u g g3 vA vB ca cb S0 gv_large w w' Sc K eq_refl ltac:(intros U [<- | [<- | []]]; auto)) as (e1'' & eps'' & Qm'' & R3).
  exists h4, g, g3, g4, [BF w pA vA ca 2; BF w' pB vB cb 0], e1, eps, Qm, e1', eps', Qm', e1'', eps'', Qm''.
  split; [exact W4|]. split; [exact (grpp_keeps _ _ _ _ _ W K G)|]. split; [exact (grpp_keeps _ _ _ _ _ W K G3)|]. split; [exact G4|].
  split; [exists (fun l => canon (Z.of_nat l)); split; [exact sc_components|]; split; [constructor|]; split; [constructor|intros o []]|].
  do 3 (split; [assumption|]). cbn [map b_w b_v]. rewrite LA, LB. split; reflexivity.
Qed.
