(** * The GRPP operator with the library's own routines (C78): theorems *)

From Coq Require Import ZArith List Lia Bool Reals Lra Permutation.
From Coquelicot Require Import Coquelicot.
From Verif Require Import Base Loops Sums CartModel CartProofs HeapModel HeapProofs HeapSpec HeapGrpp OneElModel OneElProofs OneElPairs OneElSpec OneElThms
  GaussProd OneElInt LmatModel LmatProofs NumSpec NucPotSpec NucPot GaussMoment RadialModel RadialTables HeapShrink SphModel SphSpec SphProofs SphThms UtilProofs OvGradModel OvDeriv OvGradProofs OvGradThms OutercoreModel OutercoreProofs OutercoreRadial OutercoreSpec OutercoreMain OutercoreThms
  MmdModel MmdSpec MmdMain MmdThms MmdUser MmdNuc MmdOuter GrppModel GrppFull GrppHeap GrppGrad GrppGrad2 GrppThms GrppGrad3 GrppTerm GrppTermGrad GrppLocal GrppOc GrppWitness
  ParamsModel Type2Model Type2Spec Type2Proj Type2Radial Type2Main Type2Acc Type2So DawsonUse GrppOwnSpec GrppOwn.
Import ListNotations.
Open Scope R_scope.

(** the routines of the library as modelled: type1_integrals (MmdModel.v) with Dawson's integral
    (DawsonModel.v), type2_integrals and spin_orbit_integrals (Type2Model.v), after initialisation *)
Definition own_routines (fuel : nat) (par : params) (bessel : Z -> R -> R) (erf : R -> R) (st : rsh_store) : routines :=
  mkRt true (type1_integrals own_dawson true) (type2_integrals fuel par bessel erf st true) (spin_orbit_integrals fuel par bessel erf st true).

(** the local potential: powers 0, 1, 2, and the error it causes is at most e *)
Definition local_ready (C : R * R * R) (U : option vpot) (vA vB : sview) (e : R) : Prop :=
  0 <= e /\ match U with None => True | Some U =>
    (forall n cf al, In (n, cf, al) (pv_prims U) -> (0 <= n <= 2)%Z /\ 0 <= al) /\
    forall cA cB, In cA (canon (v_L vA)) -> In cB (canon (v_L vB)) -> 15 / 10 ^ 10 * amplification vA vB C (pv_prims U) cA cB <= e end.

(** what the routines need of the operator and of the contents of two shells; the radial integrals
    of potential U are accurate up to [eps U] *)
Definition own_ready (fuel : nat) (par : params) (bessel : Z -> R -> R) (erf : R -> R) (C : R * R * R) (gv : gview) (vA vB : sview) (e1 : R) (eps Qm : vpot -> R) : Prop :=
  (0 <= v_L vA <= 9)%Z /\ (0 <= v_L vB <= 9)%Z /\ (v_L vA + v_L vB <= 15)%Z /\ exps_pos vA /\ exps_pos vB /\ none_negligible (v_prims vA) /\ none_negligible (v_prims vB) /\
  local_ready C (gv_local gv) vA vB e1 /\
  forall U, In U (gv_arep gv ++ gv_esop gv) -> pair_ready C U vA vB /\ 0 <= eps U /\ 0 <= Qm U /\ radial_error fuel par bessel erf C U vA vB (eps U) (Qm U).

(** the outercore potentials [ocs] are those described by [os], with Gaussian terms *)
Definition oc_ready (ocs : list (vpot * vshell)) (os : list oc_data) : Prop :=
  exists cart, (forall l, components_of l (cart l)) /\ Forall2 (oc_is cart) ocs os /\ List.Forall oc_valid os /\ forall o, In o os -> gaussian_terms (oc_pot o) /\ none_negligible (oc_prims o).

(** the numbers in the outercore operator: radial integrals, the factor of the tables, angular momentum *)
Definition oc_numbers (os : list oc_data) (delta : oc_data -> oc_data -> R) (ratio : nat -> R) (W : Z -> nat -> Z -> Z -> R) : Prop :=
  (forall o o', In o os -> In o' os -> same_lj o o' ->
     half_int (fun r => oc_radial o r * ((radial_sum (oc_pot o) r + radial_sum (oc_pot o') r) / 2) * oc_radial o' r * r ^ 2) (delta o o')) /\
  (forall l, (l <= 9)%nat -> Rabs (ratio l - 1) <= 2 / 10 ^ 15) /\
  (forall l, rotation_generators (Z.of_nat l) (W 0%Z l) (W 1%Z l) (W 2%Z l)).

(** the error of component k of the operator between two shells *)
Definition grpp_error (C : R * R * R) (gv : gview) (vA vB : sview) (e1 : R) (eps Qm : vpot -> R) (k : Z) : R :=
  if (k =? -1)%Z then e1 + lsum (fun U => semilocal_error C U vA vB (eps U) (Qm U)) (gv_arep gv)
  else lsum (fun U => 2 / (2 * IZR (pv_L U) + 1) * spin_orbit_error C U vA vB (eps U) (Qm U)) (gv_esop gv).

Lemma oc_numbers_exist os : List.Forall oc_valid os -> oc_numbers os (fun o o' => delta_val (oc_l o) (oc_prims o) (oc_prims o') (oc_pot o) (oc_pot o')) table_ratio Wk.
Proof.
  intros HV. rewrite List.Forall_forall in HV. split; [|split].
  - intros o o' Ho Ho' (El & _). unfold oc_radial. rewrite <- El. destruct (HV o Ho) as (_ & X1 & X2). destruct (HV o' Ho') as (_ & Y1 & Y2). rewrite <- El in Y2. apply delta_int; assumption.
  - intros l0 Hl0. apply table_ratio_bound. lia.
  - intros l0. apply W_generators.
Qed.

Lemma own_null_zero fuel par bessel erf st : null_is_zero (own_routines fuel par bessel erf st).
Proof. intros A B C NA NB. apply own_null; assumption. Qed.

Lemma own_values fuel par bessel erf st C gv os vA vB e1 eps Qm : (14 <= fuel)%nat -> init_tables st -> oc_ready (gv_oc gv) os -> own_ready fuel par bessel erf C gv vA vB e1 eps Qm ->
  exists v1 v2 v3 v4, (forall A B, shell_of A vA -> shell_of B vB -> component_values (own_routines fuel par bessel erf st) A B C gv v1 v2 v3 v4) /\
    values_within (grpp_V C gv (oc_V C os own_delta Wk)) vA vB (parts v1 v2 v3 v4 gv) (grpp_error C gv vA vB e1 eps Qm).
Proof.
  intros Hf HI (cart & Hc & HO & HV & HG) (LA & LB & LAB & PA & PB & NA & NB & (He1 & HL) & HU).
  set (rt := own_routines fuel par bessel erf st).
  destruct (parts_accurate rt C gv (oc_V C os own_delta Wk) vA vB e1 (fun U => semilocal_error C U vA vB (eps U) (Qm U)) (fun U => spin_orbit_error C U vA vB (eps U) (Qm U)) 0) as (v1 & v2 & v3 & v4 & Hv & Q); try lia; try assumption.
  - apply own_null_zero.
  - intros U EU. rewrite EU in HL. destruct HL as (HP & HE). apply own_local_accurate with (15 / 10 ^ 10); try assumption; [lra|]. apply within_simple; try assumption. exact own_accurate_weak.
  - intros U Hin. destruct (HU U ltac:(apply in_or_app; left; exact Hin)) as (HR & H1 & H2 & H3). apply semilocal_accurate; assumption.
  - intros U Hin. destruct (HU U ltac:(apply in_or_app; right; exact Hin)) as (HR & H1 & H2 & H3). split; [exact (proj1 HR)|]. apply spin_orbit_accurate; assumption.
  - exact (own_oc_accurate own_dawson C cart (gv_oc gv) os vA vB LA LB PA PB NA NB Hc HO HV HG).
  - exists v1, v2, v3, v4. split; [exact Hv|]. intros k Hk i j cA cB Hi Hj. destruct (Q k Hk i j cA cB Hi Hj) as (v & Vv & Bv). exists v. split; [exact Vv|]. eapply Rle_trans; [exact Bv|]. right. unfold total_error, grpp_error. apply Rplus_0_r.
Qed.

(** ** The integrals *)
Lemma grpp_own_thm : forall fuel par bessel erf st h pA pB g gv ocp os vA vB ca cb C out e1 eps Qm,
  (14 <= fuel)%nat -> init_tables st -> heap_wf h -> std_shell h pA vA ca -> std_shell h pB vB cb -> grpp_at h g gv ocp -> room4 vA vB out ->
  oc_ready (gv_oc gv) os -> own_ready fuel par bessel erf C gv vA vB e1 eps Qm ->
  exists delta ratio W out' h', oc_numbers os delta ratio W /\
    full_grpp_integrals (own_routines fuel par bessel erf st) h pA pB g C out = Ok (out', h') /\ only4 vA vB out out' /\ (forall q, hblk h' q = hblk (moved_heap C ocp h) q) /\
    forall k i j cA cB, (-1 <= k < 3)%Z -> nth_error ca i = Some cA -> nth_error cb j = Some cB ->
      exists s v, elem_at (mat_k out' k) vB i j = Ok s /\ grpp_V C gv (oc_V C os (fun o o' => ratio (oc_l o) ^ 2 * delta o o') W) k (phi_of vA cA) (phi_of vB cB) v /\
        Rabs (s - v) <= grpp_error C gv vA vB e1 eps Qm k.
Proof.
  intros fuel par bessel erf st h pA pB g gv ocp os vA vB ca cb C out e1 eps Qm Hf HI W SA SB G Rm HO HR.
  destruct (own_values fuel par bessel erf st C gv os vA vB e1 eps Qm Hf HI HO HR) as (v1 & v2 & v3 & v4 & Hv & Q).
  destruct HO as (cart & _ & _ & HV & _).
  destruct (std_view h pA vA ca W SA) as (A & EA & VA & ZA). destruct (std_view h pB vB cb W SB) as (B & EB & VB & ZB).
  pose proof (std_canon _ _ _ _ SA) as CA. pose proof (std_canon _ _ _ _ SB) as CB. subst ca cb.
  destruct (full_thm (own_routines fuel par bessel erf st) h pA pB g gv ocp vA vB _ _ C A B out v1 v2 v3 v4 W eq_refl SA SB G Rm EA EB (Hv A B VA VB)) as (out' & h' & E & O & Hh & V).
  exists (fun o o' => delta_val (oc_l o) (oc_prims o) (oc_prims o') (oc_pot o) (oc_pot o')), table_ratio, Wk, out', h'. split; [apply oc_numbers_exist; exact HV|]. split; [exact E|]. split; [exact O|]. split; [exact Hh|].
  intros k i j cA cB Hk Hi Hj. destruct (Q k Hk i j cA cB Hi Hj) as (v & Vv & Bv). exists (parts v1 v2 v3 v4 gv k (Z.of_nat i) (Z.of_nat j)), v. split; [|split; [exact Vv|exact Bv]].
  pose proof (in_size vA i cA Hi) as Bi. pose proof (in_size vB j cB Hj) as Bj. rewrite <- (sizes_plain A vA VA ltac:(apply SA)), ZA in Bi. rewrite <- (sizes_plain B vB VB ltac:(apply SB)), ZB in Bj.
  destruct (V (Z.of_nat i) (Z.of_nat j) Bi Bj) as (V1 & V3). unfold elem_at, parts. destruct (Z.eqb_spec k (-1)) as [-> |Hn]; [exact V1|]. rewrite (V3 k ltac:(lia)). f_equal. f_equal.
  apply lsum_ext. intros U _. rewrite so_weight_eq. reflexivity.
Qed.

(** ** The gradients *)
Lemma accurate1_weaken V run e e' vA vB : e <= e' -> accurate1 V run e vA vB -> accurate1 V run e' vA vB.
Proof. intros He (f & G & Q). exists f. split; [exact G|]. intros i j cA cB Hi Hj. destruct (Q i j cA cB Hi Hj) as (v & Hv & Bv). exists v. split; [exact Hv|lra]. Qed.

Lemma accurate3_weaken V run e e' vA vB : e <= e' -> accurate3 V run e vA vB -> accurate3 V run e' vA vB.
Proof. intros He (f & G & Q). exists f. split; [exact G|]. intros k Hk i j cA cB Hi Hj. destruct (Q k Hk i j cA cB Hi Hj) as (v & Hv & Bv). exists v. split; [exact Hv|lra]. Qed.

Lemma semilocal_gradient_thm : forall fuel par bessel erf st h pA pB C pot U vA vB ca cb e,
  (14 <= fuel)%nat -> init_tables st -> heap_wf h -> std_shell h pA vA ca -> std_shell h pB vB cb -> view_pot h pot = Ok U -> 0 <= e ->
  around (fun x y => pair_ready C U x y /\ exists eps Qm, 0 <= eps /\ 0 <= Qm /\ radial_error fuel par bessel erf C U x y eps Qm /\ semilocal_error C U x y eps Qm <= e) vA vB ->
  exists bra ket, deriv_close (semilocal_V C U) vA vB ca cb e bra ket /\
    forall ord oob D grad, may_overread oob vA vB -> told_apart [v_origin vA; v_origin vB; C; D] -> grad_fits grad vA vB ->
      exists h' grad', type2_integrals_gradient ord oob (own_routines fuel par bessel erf st) h pA pB C pot D grad = Ok (h', grad') /\ heap_wf h' /\ (forall q, hblk h' q = hblk h q) /\
        only_grad grad grad' vA vB /\ holds_gradient grad' vA vB ca cb C D bra ket.
Proof.
  intros fuel par bessel erf st h pA pB C pot U vA vB ca cb e Hf HI W SA SB EU He Ar.
  apply (type2_gradient_thm (semilocal_V C U) (own_routines fuel par bessel erf st) h pA pB C pot U vA vB ca cb e); try assumption; [apply bilinear_semilocal|reflexivity|apply own_null_zero|].
  eapply around_impl; [|exact Ar]. intros x y (HR & eps & Qm & H1 & H2 & H3 & H4). eapply accurate1_weaken; [exact H4|]. apply semilocal_accurate; assumption.
Qed.

Lemma so_gradient_thm : forall fuel par bessel erf st h pA pB C pot U vA vB ca cb e,
  (14 <= fuel)%nat -> init_tables st -> heap_wf h -> std_shell h pA vA ca -> std_shell h pB vB cb -> view_pot h pot = Ok U -> 0 <= e ->
  around (fun x y => pair_ready C U x y /\ exists eps Qm, 0 <= eps /\ 0 <= Qm /\ radial_error fuel par bessel erf C U x y eps Qm /\ spin_orbit_error C U x y eps Qm <= e) vA vB ->
  exists bra ket, (forall k, (0 <= k < 3)%Z -> deriv_close (spin_orbit_V C U k) vA vB ca cb e (bra k) (ket k)) /\
    forall ord oob D grad, may_overread oob vA vB -> told_apart [v_origin vA; v_origin vB; C; D] -> (forall k, (0 <= k < 3)%Z -> grad_fits (pick3 grad k) vA vB) ->
      exists h' grad', spin_orbit_integrals_gradient ord oob (own_routines fuel par bessel erf st) h pA pB C pot D grad = Ok (h', grad') /\ heap_wf h' /\ (forall q, hblk h' q = hblk h q) /\
        forall k, (0 <= k < 3)%Z -> only_grad (pick3 grad k) (pick3 grad' k) vA vB /\ holds_gradient (pick3 grad' k) vA vB ca cb C D (bra k) (ket k).
Proof.
  intros fuel par bessel erf st h pA pB C pot U vA vB ca cb e Hf HI W SA SB EU He Ar.
  apply (spin_orbit_gradient_thm (spin_orbit_V C U) (own_routines fuel par bessel erf st) h pA pB C pot U vA vB ca cb e); try assumption; [apply bilinear_spin_orbit|reflexivity|apply own_null_zero|].
  eapply around_impl; [|exact Ar]. intros x y (HR & eps & Qm & H1 & H2 & H3 & H4). eapply accurate3_weaken; [exact H4|]. apply spin_orbit_accurate; assumption.
Qed.

Lemma grpp_gradient_thm : forall fuel par bessel erf st h pA pB g gv ocp os vA vB ca cb C e,
  (14 <= fuel)%nat -> init_tables st -> heap_wf h -> std_shell h pA vA ca -> std_shell h pB vB cb -> grpp_at h g gv ocp -> ~ In pA ocp -> ~ In pB ocp ->
  oc_ready (gv_oc gv) os ->
  around (fun x y => exists e1 eps Qm, own_ready fuel par bessel erf C gv x y e1 eps Qm /\ forall k, (-1 <= k < 3)%Z -> grpp_error C gv x y e1 eps Qm k <= e) vA vB ->
  exists delta ratio W, oc_numbers os delta ratio W /\
  exists bra ket : Z -> Z -> nat -> nat -> R,
    (forall k, (-1 <= k < 3)%Z -> deriv_close (grpp_V C gv (oc_V C os (fun o o' => ratio (oc_l o) ^ 2 * delta o o') W) k) vA vB ca cb e (bra k) (ket k)) /\
    forall ord oob h1 D grad, may_overread oob vA vB -> reached C ocp h h1 -> told_apart [v_origin vA; v_origin vB; C; D] -> grad_room vA vB grad ->
      exists h2 grad', full_grpp_integrals_gradient ord oob (own_routines fuel par bessel erf st) h1 pA pB g C D grad = Ok (h2, grad') /\ reached C ocp h h2 /\ only_grad4 grad grad' vA vB /\
        forall k, (-1 <= k < 3)%Z -> holds_gradient (mat_k grad' k) vA vB ca cb C D (bra k) (ket k).
Proof.
  intros fuel par bessel erf st h pA pB g gv ocp os vA vB ca cb C e Hf HI W SA SB G IA IB HO Ar.
  exists (fun o o' => delta_val (oc_l o) (oc_prims o) (oc_prims o') (oc_pot o) (oc_pot o')), table_ratio, Wk. split; [apply oc_numbers_exist; destruct HO as (cart & _ & _ & HV & _); exact HV|].
  apply (gradient_parts (grpp_V C gv (oc_V C os own_delta Wk)) (own_routines fuel par bessel erf st) h pA pB g gv ocp C vA vB ca cb e); [apply bilinear_grpp, bilinear_oc|].
  assert (Ac : around (accurate (grpp_V C gv (oc_V C os own_delta Wk)) (own_routines fuel par bessel erf st) C gv e) vA vB).
  { eapply around_impl; [|exact Ar]. intros x y (e1 & eps & Qm & HR & HE). destruct (own_values fuel par bessel erf st C gv os x y e1 eps Qm Hf HI HO HR) as (v1 & v2 & v3 & v4 & Hv & Q).
    exists (parts v1 v2 v3 v4 gv). split; [apply values_evaluate; exact Hv|]. intros k i j cA cB Hk Hi Hj. destruct (Q k Hk i j cA cB Hi Hj) as (v & Vv & Bv). exists v. split; [exact Vv|]. specialize (HE k Hk). lra. }
  destruct Ac as (A1 & A2 & A3 & A4). repeat (split; [assumption || reflexivity|]). exact A4.
Qed.

(** ** Errors always exist *)
Lemma finite_bound (P : nat -> R -> Prop) : (forall k x y, P k x -> P k y -> x = y) -> forall N, exists M, 0 <= M /\ forall k x, (k <= N)%nat -> P k x -> Rabs x <= M.
Proof.
  intros HU. assert (One : forall k, exists m, 0 <= m /\ forall x, P k x -> Rabs x <= m).
  { intros k. destruct (Classical_Prop.classic (exists x, P k x)) as [(x & Hx) | Hn].
    - exists (Rabs x). split; [apply Rabs_pos|]. intros y Hy. rewrite (HU k y x Hy Hx). lra.
    - exists 0. split; [lra|]. intros x Hx. exfalso. apply Hn. exists x. exact Hx. }
  induction N as [|N (M & HM & IH)].
  - destruct (One O) as (m & Hm & H). exists m. split; [exact Hm|]. intros k x Hk Hx. assert (k = O) by lia. subst k. apply H, Hx.
  - destruct (One (S N)) as (m & Hm & H). exists (Rmax M m). split; [eapply Rle_trans; [exact HM|apply Rmax_l]|]. intros k x Hk Hx.
    destruct (Nat.eq_dec k (S N)) as [-> |Hn]; [eapply Rle_trans; [apply H, Hx|apply Rmax_r]|eapply Rle_trans; [apply (IH k x ltac:(lia) Hx)|apply Rmax_l]].
Qed.

Lemma finite_bound3 (P : nat -> nat -> nat -> R -> Prop) : (forall i j k x y, P i j k x -> P i j k y -> x = y) -> forall N, exists M, 0 <= M /\ forall i j k x, (i <= N)%nat -> (j <= N)%nat -> (k <= N)%nat -> P i j k x -> Rabs x <= M.
Proof.
  intros HU N. assert (Two : forall i j, exists m, 0 <= m /\ forall k x, (k <= N)%nat -> P i j k x -> Rabs x <= m) by (intros i j; apply finite_bound; intros k; apply HU).
  assert (One : forall i, exists m, 0 <= m /\ forall j k x, (j <= N)%nat -> (k <= N)%nat -> P i j k x -> Rabs x <= m).
  { intros i. assert (H : forall n, (n <= N)%nat -> exists m, 0 <= m /\ forall j k x, (j <= n)%nat -> (k <= N)%nat -> P i j k x -> Rabs x <= m); [|apply H; lia]. induction n as [|n IH]; intros Hn.
    - destruct (Two i O) as (m & Hm & H). exists m. split; [exact Hm|]. intros j k x Hj Hk Hx. assert (j = O) by lia. subst j. apply (H k x Hk Hx).
    - destruct (IH ltac:(lia)) as (M & HM & H). destruct (Two i (S n)) as (m & Hm & H'). exists (Rmax M m). split; [eapply Rle_trans; [exact HM|apply Rmax_l]|]. intros j k x Hj Hk Hx.
      destruct (Nat.eq_dec j (S n)) as [-> |Hne]; [eapply Rle_trans; [apply (H' k x Hk Hx)|apply Rmax_r]|eapply Rle_trans; [apply (H j k x ltac:(lia) Hk Hx)|apply Rmax_l]]. }
  assert (H : forall n, (n <= N)%nat -> exists m, 0 <= m /\ forall i j k x, (i <= n)%nat -> (j <= N)%nat -> (k <= N)%nat -> P i j k x -> Rabs x <= m); [|apply H; lia]. induction n as [|n IH]; intros Hn.
  - destruct (One O) as (m & Hm & H). exists m. split; [exact Hm|]. intros i j k x Hi Hj Hk Hx. assert (i = O) by lia. subst i. apply (H j k x Hj Hk Hx).
  - destruct (IH ltac:(lia)) as (M & HM & H). destruct (One (S n)) as (m & Hm & H'). exists (Rmax M m). split; [eapply Rle_trans; [exact HM|apply Rmax_l]|]. intros i j k x Hi Hj Hk Hx.
    destruct (Nat.eq_dec i (S n)) as [-> |Hne]; [eapply Rle_trans; [apply (H' j k x Hj Hk Hx)|apply Rmax_r]|eapply Rle_trans; [apply (H i j k x ltac:(lia) Hj Hk Hx)|apply Rmax_l]].
Qed.

Lemma radial_accuracy_some t L LA LB pot bra ket DA DB : exists eps Qm, 0 <= eps /\ 0 <= Qm /\ radial_accuracy t L LA LB pot bra ket DA DB eps Qm.
Proof.
  set (RI := radial_integral (radial_potential pot) (norm_L (Z.of_nat LA)) (norm_L (Z.of_nat LB)) bra ket DA DB).
  assert (UI : forall i j k x y, RI i j k x -> RI i j k y -> x = y) by (intros i j k x y Hx Hy; eapply half_int_unique; [exact Hx|exact Hy]).
  assert (UT : forall i j k x y, get_radial_type2_integral t (Z.of_nat i) (Z.of_nat j) (Z.of_nat k) = Ok x -> get_radial_type2_integral t (Z.of_nat i) (Z.of_nat j) (Z.of_nat k) = Ok y -> x = y) by (intros i j k x y Hx Hy; rewrite Hx in Hy; injection Hy as ->; reflexivity).
  destruct (finite_bound3 RI UI (L + LA + LB)) as (M & HM & BM).
  destruct (finite_bound3 (fun i j k x => get_radial_type2_integral t (Z.of_nat i) (Z.of_nat j) (Z.of_nat k) = Ok x) UT (L + LA + LB)) as (m & Hm & Bm).
  exists (m + M), M. split; [lra|]. split; [exact HM|]. intros l1 l2 n v Q H1 H2 H3 Hv HQ.
  pose proof (BM l1 l2 n Q ltac:(lia) ltac:(lia) ltac:(lia) HQ) as X. pose proof (Bm l1 l2 n v ltac:(lia) ltac:(lia) ltac:(lia) Hv) as Y. split; [|exact X].
  eapply Rle_trans; [apply Rabs_triang|]. rewrite Rabs_Ropp. lra.
Qed.

Lemma radial_accuracy_weaken t L LA LB pot bra ket DA DB eps Qm eps' Qm' : eps <= eps' -> Qm <= Qm' -> radial_accuracy t L LA LB pot bra ket DA DB eps Qm -> radial_accuracy t L LA LB pot bra ket DA DB eps' Qm'.
Proof. intros H1 H2 H l1 l2 n v Q X1 X2 X3 X4 X5. destruct (H l1 l2 n v Q X1 X2 X3 X4 X5). split; lra. Qed.

Lemma radial_error_some fuel par bessel erf C U vA vB : exists eps Qm, 0 <= eps /\ 0 <= Qm /\ radial_error fuel par bessel erf C U vA vB eps Qm.
Proof.
  destruct (Classical_Prop.classic (exists A B, shell_of A vA /\ shell_of B vB)) as [(A0 & B0 & HA & HB) | Hn].
  - destruct (radial_of fuel par bessel erf A0 B0 (sub3 C (v_origin vA)) (sub3 C (v_origin vB)) U (v_L vA) (v_L vB)) as [t0|f] eqn:E0.
    + destruct (radial_accuracy_some t0 (Z.to_nat (pv_L U)) (Z.to_nat (v_L vA)) (Z.to_nat (v_L vB)) (pv_prims U) (v_prims vA) (v_prims vB) (separation (v_origin vA) C) (separation (v_origin vB) C)) as (eps & Qm & X1 & X2 & X3).
      exists eps, Qm. split; [exact X1|]. split; [exact X2|]. intros A B t SA SB Et. rewrite (radial_same fuel par bessel erf A A0 B B0) in Et by (eapply content_same; eassumption). rewrite E0 in Et. injection Et as <-. exact X3.
    + exists 0, 0. split; [lra|]. split; [lra|]. intros A B t SA SB Et. rewrite (radial_same fuel par bessel erf A A0 B B0) in Et by (eapply content_same; eassumption). rewrite E0 in Et. discriminate.
  - exists 0, 0. split; [lra|]. split; [lra|]. intros A B t SA SB _. exfalso. apply Hn. exists A, B. split; assumption.
Qed.

Lemma radial_errors_some fuel par bessel erf C vA vB l : exists eps Qm, 0 <= eps /\ 0 <= Qm /\ forall U, In U l -> radial_error fuel par bessel erf C U vA vB eps Qm.
Proof.
  induction l as [|U l (eps & Qm & H1 & H2 & H)]; [exists 0, 0; split; [lra|]; split; [lra|]; intros U []|].
  destruct (radial_error_some fuel par bessel erf C U vA vB) as (eps' & Qm' & H1' & H2' & H'). exists (eps + eps'), (Qm + Qm'). split; [lra|]. split; [lra|].
  intros U0 [<- | Hin] A B t SA SB Et; (eapply radial_accuracy_weaken; [| |]); [| |apply (H' A B t SA SB Et)| | |apply (H U0 Hin A B t SA SB Et)]; lra.
Qed.

Lemma list_bound {A} (f : A -> R) l : exists M, 0 <= M /\ forall a, In a l -> f a <= M.
Proof.
  induction l as [|a l (M & HM & H)]; [exists 0; split; [lra|intros a []]|]. exists (Rmax M (f a)). split; [eapply Rle_trans; [exact HM|apply Rmax_l]|].
  intros b [<- | Hin]; [apply Rmax_r|eapply Rle_trans; [apply H, Hin|apply Rmax_l]].
Qed.

Lemma own_ready_some fuel par bessel erf C gv vA vB : (0 <= v_L vA <= 9)%Z -> (0 <= v_L vB <= 9)%Z -> (v_L vA + v_L vB <= 15)%Z -> none_negligible (v_prims vA) -> none_negligible (v_prims vB) -> exps_pos vA -> exps_pos vB ->
  (forall U, gv_local gv = Some U -> forall n cf al, In (n, cf, al) (pv_prims U) -> (0 <= n <= 2)%Z /\ 0 <= al) -> (forall U, In U (gv_arep gv ++ gv_esop gv) -> pair_ready C U vA vB) ->
  exists e e1 eps Qm, own_ready fuel par bessel erf C gv vA vB e1 eps Qm /\ forall k, (-1 <= k < 3)%Z -> grpp_error C gv vA vB e1 eps Qm k <= e.
Proof.
  intros LA LB LAB NA NB XA XB HL HU.
  assert (Loc : exists e1, local_ready C (gv_local gv) vA vB e1).
  { destruct (gv_local gv) as [U|] eqn:EU; [|exists 0; split; [lra|exact I]].
    destruct (list_bound (fun x : (Z * Z * Z) * (Z * Z * Z) => 15 / 10 ^ 10 * amplification vA vB C (pv_prims U) (fst x) (snd x)) (list_prod (canon (v_L vA)) (canon (v_L vB)))) as (M & HM & B).
    exists M. split; [exact HM|]. split; [apply HL; reflexivity|]. intros cA cB Hi Hj. apply (B (cA, cB)). apply in_prod; assumption. }
  destruct Loc as (e1 & Loc). destruct (radial_errors_some fuel par bessel erf C vA vB (gv_arep gv ++ gv_esop gv)) as (eps & Qm & H1 & H2 & H).
  exists (Rmax (grpp_error C gv vA vB e1 (fun _ => eps) (fun _ => Qm) (-1)) (grpp_error C gv vA vB e1 (fun _ => eps) (fun _ => Qm) 0)), e1, (fun _ => eps), (fun _ => Qm). split.
  - do 7 (split; [assumption|]). split; [exact Loc|]. intros U Hin. split; [apply HU, Hin|]. split; [exact H1|]. split; [exact H2|apply H, Hin].
  - intros k Hk. destruct (Z.eq_dec k (-1)) as [-> |Hn]; [apply Rmax_l|]. eapply Rle_trans; [|apply Rmax_r]. right. unfold grpp_error. destruct (Z.eqb_spec k (-1)); [lia|]. reflexivity.
Qed.

(** ** Conditions on the shells themselves under which the gradients can be computed *)
Definition shells_ready (C : R * R * R) (gv : gview) (vA vB : sview) : Prop :=
  (0 <= v_L vA <= 8)%Z /\ (0 <= v_L vB <= 8)%Z /\ (v_L vA + v_L vB <= 14)%Z /\ exps_pos vA /\ exps_pos vB /\ significant vA /\ significant vB /\ v_prims vA <> [] /\ v_prims vB <> [] /\
  direction_known (v_origin vA) C (v_prims vA) /\ direction_known (v_origin vB) C (v_prims vB) /\
  (forall U, gv_local gv = Some U -> forall n cf al, In (n, cf, al) (pv_prims U) -> (0 <= n <= 2)%Z /\ 0 <= al) /\
  forall U, In U (gv_arep gv ++ gv_esop gv) -> (0 <= pv_L U)%Z /\ (pv_L U + v_L vA <= 13)%Z /\ (pv_L U + v_L vB <= 13)%Z /\ powers_in (pv_prims U) (v_L vA + v_L vB + 1) /\ pot_exponents (pv_prims U).

Lemma map_known (f : R -> R) org C prims : direction_known org C prims -> direction_known org C (map (fun '(c, a) => (c * f a, a)%R) prims).
Proof. intros [E | (c & a & l & -> & H)]; [left; exact E|right]. exists (c * f a), a, (map (fun '(c, a) => (c * f a, a)%R) l). split; [reflexivity|exact H]. Qed.

Lemma map_not_nil {A B} (f : A -> B) l : l <> [] -> map f l <> [].
Proof. intros H E. apply H. destruct l; [reflexivity|discriminate]. Qed.

Lemma powers_less pot n m : (m <= n)%Z -> powers_in pot n -> powers_in pot m.
Proof. intros H P ni c a Hin. destruct (P ni c a Hin). lia. Qed.

Lemma prims_exps (f : R -> R) v w : v_prims w = map (fun '(c, a) => (c * f a, a)%R) (v_prims v) -> exps_pos v -> exps_pos w.
Proof. intros E H c a Hin. rewrite E in Hin. apply in_map_iff in Hin as ([c0 a0] & X & Hin). injection X as _ <-. apply (H _ _ Hin). Qed.

Lemma ready_around fuel par bessel erf C gv vA vB : shells_ready C gv vA vB ->
  exists e, 0 <= e /\ around (fun x y => exists e1 eps Qm, own_ready fuel par bessel erf C gv x y e1 eps Qm /\ forall k, (-1 <= k < 3)%Z -> grpp_error C gv x y e1 eps Qm k <= e) vA vB.
Proof.
  intros (LA & LB & LAB & XA & XB & YA & YB & PA & PB & DA & DB & HL & HU).
  assert (NA : none_negligible (v_prims vA)) by (intros c a Hin; apply (YA c a Hin)). assert (NB : none_negligible (v_prims vB)) by (intros c a Hin; apply (YB c a Hin)).
  assert (Q1 : exists e e1 eps Qm, own_ready fuel par bessel erf C gv (up_view vA) vB e1 eps Qm /\ forall k, (-1 <= k < 3)%Z -> grpp_error C gv (up_view vA) vB e1 eps Qm k <= e).
  { apply own_ready_some; cbn [up_view v_L]; try lia; try assumption; [apply significant_up; assumption|eapply prims_exps; [reflexivity|exact XA]|]. intros U Hin. destruct (HU U Hin) as (U1 & U2 & U3 & U4 & U5).
    unfold pair_ready. cbn [up_view v_L v_origin]. repeat lazymatch goal with |- _ /\ _ => split; [lia || assumption || idtac|] end; try assumption; first [apply map_not_nil; exact PA|eapply prims_exps; [reflexivity|exact XA]|eapply powers_less; [|exact U4]; lia|apply map_known; exact DA]. }
  assert (Q2 : (0 < v_L vA)%Z -> exists e e1 eps Qm, own_ready fuel par bessel erf C gv (down_view vA) vB e1 eps Qm /\ forall k, (-1 <= k < 3)%Z -> grpp_error C gv (down_view vA) vB e1 eps Qm k <= e).
  { intros H0. apply own_ready_some; cbn [down_view v_L]; try lia; try assumption; [apply significant_down; assumption|eapply prims_exps; [reflexivity|exact XA]|]. intros U Hin. destruct (HU U Hin) as (U1 & U2 & U3 & U4 & U5).
    unfold pair_ready. cbn [down_view v_L v_origin]. repeat lazymatch goal with |- _ /\ _ => split; [lia || assumption || idtac|] end; try assumption; first [apply map_not_nil; exact PA|eapply prims_exps; [reflexivity|exact XA]|eapply powers_less; [|exact U4]; lia|apply map_known; exact DA]. }
  assert (Q3 : exists e e1 eps Qm, own_ready fuel par bessel erf C gv vA (up_view vB) e1 eps Qm /\ forall k, (-1 <= k < 3)%Z -> grpp_error C gv vA (up_view vB) e1 eps Qm k <= e).
  { apply own_ready_some; cbn [up_view v_L]; try lia; try assumption; [apply significant_up; assumption|eapply prims_exps; [reflexivity|exact XB]|]. intros U Hin. destruct (HU U Hin) as (U1 & U2 & U3 & U4 & U5).
    unfold pair_ready. cbn [up_view v_L v_origin]. repeat lazymatch goal with |- _ /\ _ => split; [lia || assumption || idtac|] end; try assumption; first [apply map_not_nil; exact PB|eapply prims_exps; [reflexivity|exact XB]|eapply powers_less; [|exact U4]; lia|apply map_known; exact DB]. }
  assert (Q4 : (0 < v_L vB)%Z -> exists e e1 eps Qm, own_ready fuel par bessel erf C gv vA (down_view vB) e1 eps Qm /\ forall k, (-1 <= k < 3)%Z -> grpp_error C gv vA (down_view vB) e1 eps Qm k <= e).
  { intros H0. apply own_ready_some; cbn [down_view v_L]; try lia; try assumption; [apply significant_down; assumption|eapply prims_exps; [reflexivity|exact XB]|]. intros U Hin. destruct (HU U Hin) as (U1 & U2 & U3 & U4 & U5).
    unfold pair_ready. cbn [down_view v_L v_origin]. repeat lazymatch goal with |- _ /\ _ => split; [lia || assumption || idtac|] end; try assumption; first [apply map_not_nil; exact PB|eapply prims_exps; [reflexivity|exact XB]|eapply powers_less; [|exact U4]; lia|apply map_known; exact DB]. }
  set (P := fun x y e => exists e1 eps Qm, own_ready fuel par bessel erf C gv x y e1 eps Qm /\ forall k, (-1 <= k < 3)%Z -> grpp_error C gv x y e1 eps Qm k <= e).
  assert (Up : forall x y e e', e <= e' -> P x y e -> P x y e') by (intros x y e e' He (e1 & eps & Qm & H1 & H2); exists e1, eps, Qm; split; [exact H1|]; intros k Hk; specialize (H2 k Hk); lra).
  assert (Q2' : exists e, (0 < v_L vA)%Z -> P (down_view vA) vB e) by (destruct (Z_lt_le_dec 0 (v_L vA)) as [H0|H0]; [destruct (Q2 H0) as (e & Q); exists e; intros _; exact Q|exists 0; intros; lia]).
  assert (Q4' : exists e, (0 < v_L vB)%Z -> P vA (down_view vB) e) by (destruct (Z_lt_le_dec 0 (v_L vB)) as [H0|H0]; [destruct (Q4 H0) as (e & Q); exists e; intros _; exact Q|exists 0; intros; lia]).
  destruct Q1 as (a1 & Q1). destruct Q2' as (a2 & Q2'). destruct Q3 as (a3 & Q3). destruct Q4' as (a4 & Q4').
  exists (Rabs a1 + Rabs a2 + Rabs a3 + Rabs a4). pose proof (Rle_abs a1). pose proof (Rle_abs a2). pose proof (Rle_abs a3). pose proof (Rle_abs a4).
  pose proof (Rabs_pos a1). pose proof (Rabs_pos a2). pose proof (Rabs_pos a3). pose proof (Rabs_pos a4). split; [lra|].
  split; [apply (Up _ _ a1); [lra|exact Q1]|]. split; [intros HP; apply (Up _ _ a2); [lra|apply Q2', HP]|]. split; [apply (Up _ _ a3); [lra|exact Q3]|intros HP; apply (Up _ _ a4); [lra|apply Q4', HP]].
Qed.

Lemma scene_ready h pA pB pS u g g3 vA vB ca cb S0 : scene h pA pB pS u g g3 vA vB ca cb S0 -> shells_ready wC (mkGv (Some wU) [wU] [wU] []) vA vB.
Proof.
  intros Sc. destruct (sc_exps h pA pB pS u g g3 vA vB ca cb S0 Sc) as (XA & XB). destruct (sc_significant h pA pB pS u g g3 vA vB ca cb S0 Sc) as (YA & YB).
  pose proof Sc as (_ & _ & _ & _ & _ & LA & OA & PA & LB & OB & PB & _). unfold shells_ready. rewrite LA, LB, OA, OB, PA, PB.
  assert (X1 : len (minus3 wC (0, 0, 1)) = 1) by (unfold len, minus3, wC, norm3; transitivity (sqrt 1); [f_equal; ring|apply sqrt_1]).
  assert (X2 : len (minus3 wC (1, 0, 0)) = 1) by (unfold len, minus3, wC, norm3; transitivity (sqrt 1); [f_equal; ring|apply sqrt_1]).
  repeat lazymatch goal with |- _ /\ _ => split; [lia || assumption || discriminate || idtac|] end.
  - right. do 3 eexists. split; [reflexivity|]. rewrite X1. lra.
  - right. do 3 eexists. split; [reflexivity|]. rewrite X2. lra.
  - intros U [= <-] n cf al [E | [E | []]]; injection E as <- <- <-; (split; [lia|lra]).
  - intros U [<- | [<- | []]]; cbn [pv_L pv_prims wU]; (split; [lia|]; split; [lia|]; split; [lia|]; split; [intros ni c a [E | [E | []]]; injection E as <- <- <-; lia|intros ni c a [E | [E | []]]; injection E as <- <- <-; lra]).
Qed.
