(** * The GRPP matrices under exchange of the two shells (C83)

    The operator of C78 is unique and symmetric (averaged part) or antisymmetric (spin-orbit
    parts); the library computes its elements with independent errors for the two orders. *)

From Coq Require Import ZArith List Lia Bool Reals Lra Permutation.
From Coquelicot Require Import Coquelicot.
From Verif Require Import Base Loops Sums CartModel CartProofs HeapModel HeapProofs HeapSpec HeapGrpp OneElModel OneElProofs OneElPairs OneElSpec OneElThms
  GaussProd OneElInt LmatModel LmatProofs NumSpec NucPotSpec NucPot GaussMoment RadialModel RadialTables HeapShrink SphModel SphSpec SphProofs SphThms SphMomentum UtilProofs OvGradModel OvDeriv OvGradProofs OvGradThms OutercoreModel OutercoreProofs OutercoreRadial OutercoreSpec OutercoreMain OutercoreThms
  MmdModel MmdSpec MmdMain MmdThms MmdUser MmdNuc MmdOuter GrppModel GrppFull GrppHeap GrppGrad GrppGrad2 GrppThms GrppGrad3 GrppTerm GrppTermGrad GrppLocal GrppOc GrppWitness
  ParamsModel Type2Model Type2Spec Type2Proj Type2Radial Type2Main Type2Acc Type2So DawsonUse GrppOwnSpec GrppOwn GrppOwnThms.
Import ListNotations.
Open Scope R_scope.

(** ** The elements are unique *)
Lemma projected_unique l W U C f g v w : projected_integral l W U C f g v -> projected_integral l W U C f g w -> v = w.
Proof.
  intros (P & Q & HP & HQ & H) (P' & Q' & HP' & HQ' & H'). eapply half_int_unique; [exact H|]. eapply half_ext; [|exact H']. intros r Hr. cbv beta. f_equal.
  apply zsum_ext. intros m1 H1. apply zsum_ext. intros m2 H2.
  rewrite (projection_unique l m1 C f (P m1) (P' m1) (HP m1 ltac:(lia)) (HP' m1 ltac:(lia)) r Hr), (projection_unique l m2 C g (Q m2) (Q' m2) (HQ m2 ltac:(lia)) (HQ' m2 ltac:(lia)) r Hr). reflexivity.
Qed.

Lemma semilocal_unique C U f g v w : semilocal_V C U f g v -> semilocal_V C U f g w -> v = w.
Proof. intros H H'. eapply projected_unique; apply projected_semilocal; eassumption. Qed.

Lemma spin_orbit_unique C U k f g v w : spin_orbit_V C U k f g v -> spin_orbit_V C U k f g w -> v = w.
Proof.
  intros (W & HW & H) (W' & HW' & H'). eapply projected_unique; [exact H|]. eapply projected_matrix; [|exact H']. intros p m Hp Hm. exact (momentum_unique _ k W' W HW' HW p m Hp Hm).
Qed.

Lemma kernel_unique w C F u v : kernel_int w C F u -> kernel_int w C F v -> u = v.
Proof.
  intros (I & HI & H) (I' & HI' & H'). eapply half_int_unique; [exact H|]. eapply half_ext; [|exact H']. intros r Hr. cbv beta. rewrite (is_int3_unique _ _ _ (HI r Hr) (HI' r Hr)). reflexivity.
Qed.

Lemma local_int_unique n C F u v : local_int n C F u -> local_int n C F v -> u = v.
Proof.
  intros [(E & H) | [(E & H) | (E & H)]] [(E' & H') | [(E' & H') | (E' & H')]]; subst; try discriminate; [eapply is_int3_unique|eapply kernel_unique|eapply kernel_unique]; eassumption.
Qed.

Lemma pot_int_unique C terms F : forall u v, pot_int C terms F u -> pot_int C terms F v -> u = v.
Proof.
  induction terms as [|[[n cf] al] terms IH]; intros u v; cbn [pot_int]; [intros -> ->; reflexivity|].
  intros (v1 & v2 & H1 & H2 & ->) (w1 & w2 & K1 & K2 & ->). rewrite (local_int_unique _ _ _ _ _ H1 K1), (IH _ _ H2 K2). reflexivity.
Qed.

Lemma local_part_unique C U f g u v : local_part C U f g u -> local_part C U f g v -> u = v.
Proof. destruct U as [U|]; [apply pot_int_unique|]. cbn [local_part]. intros -> ->. reflexivity. Qed.

Lemma element_sum_unique {T} (V : T -> fn3 -> fn3 -> R -> Prop) l f g : (forall x u v, V x f g u -> V x f g v -> u = v) -> forall u v, element_sum V l f g u -> element_sum V l f g v -> u = v.
Proof.
  intros H. induction l as [|x l IH]; intros u v; cbn [element_sum]; [intros -> ->; reflexivity|].
  intros (a & b & Ha & Hb & ->) (a' & b' & Ha' & Hb' & ->). rewrite (H _ _ _ Ha Ha'), (IH _ _ Hb Hb'). reflexivity.
Qed.

Lemma oc_unique C os delta W k f g u v : oc_V C os delta W k f g u -> oc_V C os delta W k f g v -> u = v.
Proof.
  intros (Sa & Ua & Sb & Ub & P & Q & ->) (Sa' & Ua' & Sb' & Ub' & P' & Q' & ->).
  assert (EA : forall o m, In o os -> (Z.abs m <= Z.of_nat (oc_l o))%Z -> Sa' o m = Sa o m /\ Ua' o m = Ua o m).
  { intros o m Ho Hm. destruct (P o m Ho Hm) as (X1 & X2). destruct (P' o m Ho Hm) as (Y1 & Y2). split; eapply is_int3_unique; eassumption. }
  assert (EB : forall o m, In o os -> (Z.abs m <= Z.of_nat (oc_l o))%Z -> Sb' o m = Sb o m /\ Ub' o m = Ub o m).
  { intros o m Ho Hm. destruct (Q o m Ho Hm) as (X1 & X2). destruct (Q' o m Ho Hm) as (Y1 & Y2). split; eapply is_int3_unique; eassumption. }
  assert (M1 : forall o o' X X' Y Y', oc_l o = oc_l o' -> (forall m, (Z.abs m <= Z.of_nat (oc_l o))%Z -> X m = X' m) -> (forall m, (Z.abs m <= Z.of_nat (oc_l o'))%Z -> Y m = Y' m) -> msum o X Y = msum o X' Y').
  { intros o o' X X' Y Y' El HX HY. unfold msum. apply zsum_ext. intros m Hm. rewrite HX, HY by lia. reflexivity. }
  assert (M2 : forall o o' W0 X X' Y Y', oc_l o = oc_l o' -> (forall m, (Z.abs m <= Z.of_nat (oc_l o))%Z -> X m = X' m) -> (forall m, (Z.abs m <= Z.of_nat (oc_l o'))%Z -> Y m = Y' m) -> msum2 o W0 X Y = msum2 o W0 X' Y').
  { intros o o' W0 X X' Y Y' El HX HY. unfold msum2. apply zsum_ext. intros m Hm. apply zsum_ext. intros m' Hm'. rewrite HX, HY by lia. reflexivity. }
  assert (HS : forall o m, In o os -> (Z.abs m <= Z.of_nat (oc_l o))%Z -> Sa o m = Sa' o m /\ Ua o m = Ua' o m /\ Sb o m = Sb' o m /\ Ub o m = Ub' o m).
  { intros o m Ho Hm. destruct (EA o m Ho Hm) as (-> & ->). destruct (EB o m Ho Hm) as (-> & ->). auto. }
  unfold arep_value, OutercoreSpec.so_value. destruct (k =? -1)%Z; f_equal.
  - apply lsum_ext_in. intros o Ho. rewrite (M1 o o (Sa o) (Sa' o) (Ub o) (Ub' o)), (M1 o o (Ua o) (Ua' o) (Sb o) (Sb' o)); try reflexivity; intros m Hm; apply (HS o m Ho Hm).
  - apply lsum_ext_in. intros o Ho. apply lsum_ext_in. intros o' Ho'. destruct (same_ljb o o') eqn:El; [|reflexivity]. destruct (same_w o o' El) as (El' & _).
    rewrite (M1 o o' (Sa o) (Sa' o) (Sb o') (Sb' o') El'); [reflexivity| |]; intros m Hm; [apply (HS o m Ho Hm)|apply (HS o' m Ho' Hm)].
  - apply lsum_ext_in. intros o Ho. rewrite (M2 o o _ (Ua o) (Ua' o) (Sb o) (Sb' o)), (M2 o o _ (Sa o) (Sa' o) (Ub o) (Ub' o)); try reflexivity; intros m Hm; apply (HS o m Ho Hm).
  - apply lsum_ext_in. intros o Ho. apply lsum_ext_in. intros o' Ho'. destruct (same_ljb o o') eqn:El; [|reflexivity]. destruct (same_w o o' El) as (El' & _).
    rewrite (M2 o o' _ (Sa o) (Sa' o) (Sb o') (Sb' o') El'); [reflexivity| |]; intros m Hm; [apply (HS o m Ho Hm)|apply (HS o' m Ho' Hm)].
Qed.

Lemma grpp_unique C gv os delta W k f g u v : grpp_V C gv (oc_V C os delta W) k f g u -> grpp_V C gv (oc_V C os delta W) k f g v -> u = v.
Proof.
  intros (a & b & Hb & -> & H) (a' & b' & Hb' & -> & H'). rewrite (oc_unique _ _ _ _ _ _ _ _ _ Hb Hb'). f_equal. destruct (k =? -1)%Z.
  - destruct H as (x & y & Hx & Hy & ->). destruct H' as (x' & y' & Hx' & Hy' & ->). rewrite (local_part_unique _ _ _ _ _ _ Hx Hx'). f_equal.
    eapply element_sum_unique; [|exact Hy|exact Hy']. intros U p q. apply semilocal_unique.
  - eapply element_sum_unique; [|exact H|exact H']. intros U p q (w & Hw & ->) (w' & Hw' & ->). rewrite (spin_orbit_unique _ _ _ _ _ _ _ Hw Hw'). reflexivity.
Qed.

(** ** Exchange of the functions *)
Lemma projected_exchange l W U C f g v : projected_integral l W U C f g v -> projected_integral l (fun p m => W m p) U C g f v.
Proof.
  intros (P & Q & HP & HQ & H). exists Q, P. split; [exact HQ|]. split; [exact HP|]. eapply half_ext; [|exact H]. intros r _. cbv beta. f_equal. rewrite zsum_swap.
  apply zsum_ext. intros m1 _. apply zsum_ext. intros m2 _. ring.
Qed.

Lemma projected_scale l W U C f g v k : projected_integral l W U C f g v -> projected_integral l (fun p m => k * W p m) U C f g (k * v).
Proof.
  intros (P & Q & HP & HQ & H). exists P, Q. split; [exact HP|]. split; [exact HQ|]. eapply half_ext; [|exact (half_scal k _ _ H)]. intros r _. cbv beta.
  rewrite (zsum_ext _ _ (fun m1 => zsum (- Z.of_nat l) (Z.of_nat l + 1) (fun m2 => P m1 r * (k * W m1 m2) * Q m2 r)) (fun m1 => k * zsum (- Z.of_nat l) (Z.of_nat l + 1) (fun m2 => P m1 r * W m1 m2 * Q m2 r))).
  - rewrite zsum_scal. ring.
  - intros m1 _. rewrite <- zsum_scal. apply zsum_ext. intros m2 _. ring.
Qed.

Lemma semilocal_exchange C U f g v : semilocal_V C U f g v -> semilocal_V C U g f v.
Proof.
  intros (P & Q & HP & HQ & H). exists Q, P. split; [exact HQ|]. split; [exact HP|]. eapply half_ext; [|exact H]. intros r _. cbv beta. f_equal. apply zsum_ext. intros; ring.
Qed.

Lemma Wk_momentum l k : (0 <= k < 3)%Z -> angular_momentum l k (Wk k l).
Proof.
  intros Hk. assert (E : forall m m', Wk k l m m' = (if (k =? 0)%Z then wX (Z.of_nat l) m m' else if (k =? 1)%Z then wY (Z.of_nat l) m m' else wZ (Z.of_nat l) m m')).
  { intros m m'. unfold Wk, Wmat. replace (m + Z.of_nat l - Z.of_nat l)%Z with m by ring. replace (m' + Z.of_nat l - Z.of_nat l)%Z with m' by ring. reflexivity. }
  assert (k = 0 \/ k = 1 \/ k = 2)%Z as [-> | [-> | ->]] by lia.
  - apply (momentum_ext l 0 (wX (Z.of_nat l)) (Wk 0 l)); [intros p q _ _; rewrite E; reflexivity|exact (momentum_x l)].
  - apply (momentum_ext l 1 (wY (Z.of_nat l)) (Wk 1 l)); [intros p q _ _; rewrite E; reflexivity|exact (momentum_y l)].
  - apply (momentum_ext l 2 (wZ (Z.of_nat l)) (Wk 2 l)); [intros p q _ _; rewrite E; reflexivity|exact (momentum_z l)].
Qed.

Lemma Wk_anti k l p m : Wk k l m p = - Wk k l p m.
Proof. unfold Wk. rewrite (Wmat_anti k l (m + Z.of_nat l) (p + Z.of_nat l)). ring. Qed.

Lemma spin_orbit_exchange C U k f g v : (0 <= k < 3)%Z -> spin_orbit_V C U k f g v -> spin_orbit_V C U k g f (- v).
Proof.
  intros Hk (W & HW & H). set (l := Z.to_nat (pv_L U)) in *. exists (Wk k l). split; [apply Wk_momentum, Hk|].
  replace (- v) with (-1 * v) by ring. apply projected_matrix with (W := fun p m => -1 * Wk k l m p); [intros p m _ _; rewrite (Wk_anti k l p m); ring|].
  apply projected_scale with (W := fun p m => Wk k l m p). apply projected_exchange. eapply projected_matrix; [|exact H]. intros p m Hp Hm. exact (momentum_unique l k W (Wk k l) HW (Wk_momentum l k Hk) p m Hp Hm).
Qed.

Lemma local_part_exchange C U f g v : local_part C U f g v -> local_part C U g f v.
Proof. destruct U as [U|]; [|exact (fun x => x)]. cbn [local_part]. unfold local_V. apply pot_int_ext. intros; ring. Qed.

Lemma element_sum_map {T} (V V' : T -> fn3 -> fn3 -> R -> Prop) l f g f' g' s : (forall x u, V x f g u -> V' x f' g' (s * u)) -> forall u, element_sum V l f g u -> element_sum V' l f' g' (s * u).
Proof.
  intros H. induction l as [|x l IH]; intros u; cbn [element_sum]; [intros ->; ring|]. intros (a & b & Ha & Hb & ->). exists (s * a), (s * b). split; [apply H, Ha|]. split; [apply IH, Hb|ring].
Qed.

(** the sign under exchange: + for the averaged part, - for the spin-orbit parts *)
Definition exchange_sign (k : Z) : R := if (k =? -1)%Z then 1 else -1.

Lemma oc_exchange C os k f g v : List.Forall oc_valid os -> oc_V C os own_delta Wk k f g v -> oc_V C os own_delta Wk k g f (exchange_sign k * v).
Proof.
  intros HV (Sa & Ua & Sb & Ub & P & Q & ->). exists Sb, Ub, Sa, Ua. split; [exact Q|]. split; [exact P|]. rewrite List.Forall_forall in HV.
  assert (D : forall o o', In o os -> In o' os -> same_ljb o o' = true -> own_delta o o' = own_delta o' o).
  { intros o o' Ho Ho' El. destruct (same_w o o' El) as (E & _). destruct (HV o Ho) as (_ & X1 & X2). destruct (HV o' Ho') as (_ & Y1 & Y2). unfold own_delta. rewrite <- E in *. f_equal. apply delta_sym; assumption. }
  unfold exchange_sign. destruct (k =? -1)%Z; [rewrite (arep_value_sym os own_delta Sb Sa Ub Ua D); ring|rewrite (so_value_anti os k own_delta Sb Sa Ub Ua D); ring].
Qed.

Lemma grpp_exchange C gv os k f g v : (-1 <= k < 3)%Z -> List.Forall oc_valid os ->
  grpp_V C gv (oc_V C os own_delta Wk) k f g v -> grpp_V C gv (oc_V C os own_delta Wk) k g f (exchange_sign k * v).
Proof.
  intros Hk HV (a & b & Hb & -> & H). exists (exchange_sign k * a), (exchange_sign k * b). split; [apply oc_exchange; assumption|]. split; [ring|]. unfold exchange_sign in *. destruct (Z.eqb_spec k (-1)) as [_|Hn].
  - destruct H as (x & y & Hx & Hy & ->). exists x, (1 * y). split; [apply local_part_exchange, Hx|]. split; [|ring]. revert Hy. apply element_sum_map. intros U u Hu. rewrite Rmult_1_l. apply semilocal_exchange, Hu.
  - revert H. apply element_sum_map. intros U u (w & Hw & ->). exists (- w). split; [apply spin_orbit_exchange; [lia|exact Hw]|ring].
Qed.

(** ** The calls of the library *)
Lemma oc_ready_moved C gv gv' os : gv' = gv \/ gv' = moved_gv C gv -> oc_ready (gv_oc gv) os -> oc_ready (gv_oc gv') os.
Proof.
  intros [-> | ->] H; [exact H|]. destruct H as (cart & H1 & H2 & H3). exists cart. split; [exact H1|]. split; [|exact H3]. cbn [moved_gv gv_oc]. clear H3. induction H2 as [|[p s] o l l' Ho _ IH]; cbn [map]; constructor; [|exact IH].
  destruct Ho as (X1 & X2 & X3 & org & X4). split; [exact X1|]. split; [exact X2|]. split; [exact X3|]. exists C. cbn [snd] in *. apply (moved_is _ _ _ _ _ C) in X4. exact X4.
Qed.

Lemma own_ready_moved fuel par bessel erf C gv gv' vA vB e1 eps Qm : gv' = gv \/ gv' = moved_gv C gv -> own_ready fuel par bessel erf C gv vA vB e1 eps Qm -> own_ready fuel par bessel erf C gv' vA vB e1 eps Qm.
Proof. intros [-> | ->] H; exact H. Qed.

Lemma full_wf rt h pA pB g gv ocp C out out' h' : heap_wf h -> grpp_at h g gv ocp -> full_grpp_integrals rt h pA pB g C out = Ok (out', h') -> heap_wf h'.
Proof.
  intros W G E. destruct (place_ok h g gv ocp C W G) as (h2 & E2 & Nx & V). unfold full_grpp_integrals in E.
  destruct (massert (rt_init rt)) as [[]|]; [|discriminate]. cbn [bind] in E. destruct (view_shell h pA) as [A|]; [|discriminate]. cbn [bind] in E. destruct (view_shell h pB) as [B|]; [|discriminate]. cbn [bind] in E.
  destruct (view_grpp h g) as [gv'|]; [|discriminate]. cbn [bind] in E. destruct (full_sum rt A B C gv' out) as [o2|]; [|discriminate]. cbn [bind] in E. rewrite E2 in E. cbn [bind] in E. injection E as _ <-.
  destruct (moved_wf C ocp h W) as (W1 & W2). split; [rewrite Nx; exact W1|]. intros q o. rewrite V, Nx. apply W2.
Qed.

(** the elements computed in a heap reached from h are those of the operator up to the error *)
Lemma own_elements fuel par bessel erf st h h1 pA pB g gv ocp os vA vB ca cb C out e1 eps Qm :
  (14 <= fuel)%nat -> init_tables st -> heap_wf h -> std_shell h pA vA ca -> std_shell h pB vB cb -> grpp_at h g gv ocp -> ~ In pA ocp -> ~ In pB ocp -> reached C ocp h h1 -> room4 vA vB out ->
  oc_ready (gv_oc gv) os -> own_ready fuel par bessel erf C gv vA vB e1 eps Qm ->
  exists out' h', full_grpp_integrals (own_routines fuel par bessel erf st) h1 pA pB g C out = Ok (out', h') /\ only4 vA vB out out' /\ reached C ocp h h' /\
    forall k i j cA cB, (-1 <= k < 3)%Z -> nth_error ca i = Some cA -> nth_error cb j = Some cB ->
      exists s v, elem_at (mat_k out' k) vB i j = Ok s /\ grpp_V C gv (oc_V C os own_delta Wk) k (phi_of vA cA) (phi_of vB cB) v /\ Rabs (s - v) <= grpp_error C gv vA vB e1 eps Qm k.
Proof.
  intros Hf HI W SA SB G NA NB Rc Rm HO HR.
  destruct (reached_grpp _ _ _ _ _ _ W Rc G) as (gv' & G1 & Hgv). pose proof (reached_std _ _ _ _ _ _ _ Rc SA NA) as SA1. pose proof (reached_std _ _ _ _ _ _ _ Rc SB NB) as SB1. pose proof (proj1 Rc) as W1.
  pose proof (oc_ready_moved C gv gv' os Hgv HO) as HO1. pose proof (own_ready_moved fuel par bessel erf C gv gv' vA vB e1 eps Qm Hgv HR) as HR1.
  destruct (own_values fuel par bessel erf st C gv' os vA vB e1 eps Qm Hf HI HO1 HR1) as (v1 & v2 & v3 & v4 & Hv & Q).
  destruct (std_view h1 pA vA ca W1 SA1) as (A & EA & VA & ZA). destruct (std_view h1 pB vB cb W1 SB1) as (B & EB & VB & ZB).
  pose proof (std_canon _ _ _ _ SA1) as CA. pose proof (std_canon _ _ _ _ SB1) as CB. subst ca cb.
  destruct (full_thm (own_routines fuel par bessel erf st) h1 pA pB g gv' ocp vA vB _ _ C A B out v1 v2 v3 v4 W1 eq_refl SA1 SB1 G1 Rm EA EB (Hv A B VA VB)) as (out' & h' & E & O & Hh & V).
  exists out', h'. split; [exact E|]. split; [exact O|]. split.
  { split; [|right; intros q; rewrite Hh; apply (reached_moved _ _ _ _ Rc)]. eapply full_wf; eassumption. }
  intros k i j cA cB Hk Hi Hj. destruct (Q k Hk i j cA cB Hi Hj) as (v & Vv & Bv). exists (parts v1 v2 v3 v4 gv' k (Z.of_nat i) (Z.of_nat j)), v. split; [|split].
  - pose proof (in_size vA i cA Hi) as Bi. pose proof (in_size vB j cB Hj) as Bj. rewrite <- (sizes_plain A vA VA ltac:(apply SA1)), ZA in Bi. rewrite <- (sizes_plain B vB VB ltac:(apply SB1)), ZB in Bj.
    destruct (V (Z.of_nat i) (Z.of_nat j) Bi Bj) as (V1 & V3). unfold elem_at, parts. destruct (Z.eqb_spec k (-1)) as [-> |Hn]; [exact V1|]. rewrite (V3 k ltac:(lia)). f_equal. f_equal.
    apply lsum_ext. intros U _. rewrite so_weight_eq. reflexivity.
  - destruct Hgv as [-> | ->]; exact Vv.
  - destruct Hgv as [-> | ->]; exact Bv.
Qed.

Lemma hermitian_thm : forall fuel par bessel erf st h h1 pA pB g gv ocp os vA vB ca cb C out out1 e1 eps Qm e1' eps' Qm',
  (14 <= fuel)%nat -> init_tables st -> heap_wf h -> std_shell h pA vA ca -> std_shell h pB vB cb -> grpp_at h g gv ocp -> ~ In pA ocp -> ~ In pB ocp -> oc_ready (gv_oc gv) os ->
  own_ready fuel par bessel erf C gv vA vB e1 eps Qm -> own_ready fuel par bessel erf C gv vB vA e1' eps' Qm' ->
  room4 vA vB out -> room4 vB vA out1 -> reached C ocp h h1 ->
  exists X hX Y hY,
    full_grpp_integrals (own_routines fuel par bessel erf st) h pA pB g C out = Ok (X, hX) /\ reached C ocp h hX /\
    full_grpp_integrals (own_routines fuel par bessel erf st) h1 pB pA g C out1 = Ok (Y, hY) /\ reached C ocp h hY /\
    forall k i j, (-1 <= k < 3)%Z -> (i < length ca)%nat -> (j < length cb)%nat ->
      exists s t, elem_at (mat_k X k) vB i j = Ok s /\ elem_at (mat_k Y k) vA j i = Ok t /\
        Rabs (s - (if (k =? -1)%Z then 1 else -1) * t) <= grpp_error C gv vA vB e1 eps Qm k + grpp_error C gv vB vA e1' eps' Qm' k.
Proof.
  intros fuel par bessel erf st h h1 pA pB g gv ocp os vA vB ca cb C out out1 e1 eps Qm e1' eps' Qm' Hf HI W SA SB G NA NB HO HR HR' Rm Rm' Rc.
  destruct (own_elements fuel par bessel erf st h h pA pB g gv ocp os vA vB ca cb C out e1 eps Qm Hf HI W SA SB G NA NB (reached_refl C ocp h W) Rm HO HR) as (X & hX & EX & _ & RX & VX).
  destruct (own_elements fuel par bessel erf st h h1 pB pA g gv ocp os vB vA cb ca C out1 e1' eps' Qm' Hf HI W SB SA G NB NA Rc Rm' HO HR') as (Y & hY & EY & _ & RY & VY).
  exists X, hX, Y, hY. do 4 (split; [assumption|]). intros k i j Hk Hi Hj.
  destruct (nth_error ca i) as [cA|] eqn:Ei; [|apply nth_error_None in Ei; lia]. destruct (nth_error cb j) as [cB|] eqn:Ej; [|apply nth_error_None in Ej; lia].
  destruct (VX k i j cA cB Hk Ei Ej) as (s & v & Es & Vs & Bs). destruct (VY k j i cB cA Hk Ej Ei) as (t & w & Et & Vt & Bt). exists s, t. split; [exact Es|]. split; [exact Et|].
  assert (HV : List.Forall oc_valid os) by (destruct HO as (cart & _ & _ & HV & _); exact HV).
  pose proof (grpp_unique _ _ _ _ _ _ _ _ _ _ Vs (grpp_exchange _ _ _ k _ _ _ Hk HV Vt)) as E. fold (exchange_sign k).
  assert (A1 : Rabs (exchange_sign k) = 1) by (unfold exchange_sign; destruct (k =? -1)%Z; [rewrite Rabs_R1|replace (-1) with (- (1)) by lra; rewrite Rabs_Ropp, Rabs_R1]; reflexivity).
  replace (s - exchange_sign k * t) with ((s - v) - exchange_sign k * (t - w)) by (rewrite E; ring).
  eapply Rle_trans; [apply Rabs_triang|]. rewrite Rabs_Ropp, Rabs_mult, A1, Rmult_1_l. lra.
Qed.

(** there always are such errors, in both orders *)
Lemma ready_both fuel par bessel erf C gv vA vB : shells_ready C gv vA vB ->
  exists e1 eps Qm e1' eps' Qm', own_ready fuel par bessel erf C gv vA vB e1 eps Qm /\ own_ready fuel par bessel erf C gv vB vA e1' eps' Qm'.
Proof.
  intros (LA & LB & LAB & XA & XB & YA & YB & PA & PB & DA & DB & HL & HU).
  assert (NA : none_negligible (v_prims vA)) by (intros c a Hin; apply (YA c a Hin)). assert (NB : none_negligible (v_prims vB)) by (intros c a Hin; apply (YB c a Hin)).
  destruct (own_ready_some fuel par bessel erf C gv vA vB) as (e & e1 & eps & Qm & H & _); try lia; try assumption.
  { intros U Hin. destruct (HU U Hin) as (U1 & U2 & U3 & U4 & U5). assert (U6 : powers_in (pv_prims U) (v_L vA + v_L vB)) by (eapply powers_less; [|exact U4]; lia).
    unfold pair_ready. repeat lazymatch goal with |- _ /\ _ => split; [lia || assumption|] end. assumption. }
  destruct (own_ready_some fuel par bessel erf C gv vB vA) as (e' & e1' & eps' & Qm' & H' & _); try lia; try assumption.
  { intros U Hin. destruct (HU U Hin) as (U1 & U2 & U3 & U4 & U5). assert (U6 : powers_in (pv_prims U) (v_L vB + v_L vA)) by (eapply powers_less; [|exact U4]; lia).
    unfold pair_ready. repeat lazymatch goal with |- _ /\ _ => split; [lia || assumption|] end. assumption. }
  exists e1, eps, Qm, e1', eps', Qm'. split; assumption.
Qed.
