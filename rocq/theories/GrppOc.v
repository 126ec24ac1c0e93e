(** * The outercore term with the library's own type-1 routine (C30) *)

From Coq Require Import ZArith List Lia Bool Reals Lra Permutation.
From Coquelicot Require Import Coquelicot.
From Verif Require Import Base Loops Sums CartModel CartProofs HeapModel HeapProofs HeapSpec HeapGrpp OneElModel OneElProofs OneElPairs OneElSpec OneElThms
  GaussProd OneElInt LmatModel LmatProofs NumSpec UtilProofs NucPotSpec NucPot GaussMoment RadialModel RadialTables HeapShrink SphModel SphSpec SphProofs SphThms OvGradModel OvDeriv OvGradProofs OvGradThms OutercoreModel OutercoreProofs OutercoreRadial OutercoreSpec OutercoreMain OutercoreThms
  MmdModel MmdSpec MmdMain MmdThms MmdUser MmdNuc MmdOuter GrppModel GrppFull GrppHeap GrppGrad GrppGrad2 GrppThms GrppGrad3 GrppTerm GrppTermGrad GrppLocal.
Import ListNotations.
Open Scope Z_scope.

(** ** The values of the operator are bilinear *)
Lemma msum_left o f f' g s : msum o (fun m => f m + s * f' m)%R g = (msum o f g + s * msum o f' g)%R.
Proof. unfold msum. rewrite <- zsum_scal, <- zsum_plus. apply zsum_ext. intros. ring. Qed.
Lemma msum_right o f g g' s : msum o f (fun m => g m + s * g' m)%R = (msum o f g + s * msum o f g')%R.
Proof. unfold msum. rewrite <- zsum_scal, <- zsum_plus. apply zsum_ext. intros. ring. Qed.
Lemma msum2_left o W f f' g s : msum2 o W (fun m => f m + s * f' m)%R g = (msum2 o W f g + s * msum2 o W f' g)%R.
Proof. unfold msum2. rewrite <- zsum_scal, <- zsum_plus. apply zsum_ext. intros. cbv beta. rewrite <- zsum_scal, <- zsum_plus. apply zsum_ext. intros. ring. Qed.
Lemma msum2_right o W f g g' s : msum2 o W f (fun m => g m + s * g' m)%R = (msum2 o W f g + s * msum2 o W f g')%R.
Proof. unfold msum2. rewrite <- zsum_scal, <- zsum_plus. apply zsum_ext. intros. cbv beta. rewrite <- zsum_scal, <- zsum_plus. apply zsum_ext. intros. ring. Qed.

Lemma lsum_lin {S} (f g h : S -> R) s l : (forall x, f x = g x + s * h x)%R -> lsum f l = (lsum g l + s * lsum h l)%R.
Proof. intros H. induction l as [|x l IH]; [unfold lsum; cbn; ring|]. rewrite !lsum_cons, H, IH. ring. Qed.

Lemma lsum_ext_in {S} (f g : S -> R) l : (forall x, In x l -> f x = g x) -> lsum f l = lsum g l.
Proof. induction l as [|x l IH]; intros H; [reflexivity|]. rewrite !lsum_cons, H, IH; [reflexivity| |left; reflexivity]. intros y Hy. apply H. right. exact Hy. Qed.

Lemma arep_left os d Sa Sa' Sb Ua Ua' Ub s :
  arep_value os d (fun o m => Sa o m + s * Sa' o m)%R Sb (fun o m => Ua o m + s * Ua' o m)%R Ub = (arep_value os d Sa Sb Ua Ub + s * arep_value os d Sa' Sb Ua' Ub)%R.
Proof.
  unfold arep_value. rewrite (lsum_lin _ (fun o => w_arep o * (msum o (Sa o) (Ub o) + msum o (Ua o) (Sb o)))%R (fun o => w_arep o * (msum o (Sa' o) (Ub o) + msum o (Ua' o) (Sb o)))%R s) by (intros o; rewrite !msum_left; ring).
  rewrite (lsum_lin (fun o => lsum (fun o' => if same_ljb o o' then (w_arep o * d o o' * msum o (fun m => Sa o m + s * Sa' o m) (Sb o'))%R else 0%R) os)
    (fun o => lsum (fun o' => if same_ljb o o' then (w_arep o * d o o' * msum o (Sa o) (Sb o'))%R else 0%R) os) (fun o => lsum (fun o' => if same_ljb o o' then (w_arep o * d o o' * msum o (Sa' o) (Sb o'))%R else 0%R) os) s);
    [ring|]. intros o. apply lsum_lin. intros o'. destruct (same_ljb o o'); [rewrite msum_left|]; ring.
Qed.
Lemma arep_right os d Sa Sb Sb' Ua Ub Ub' s :
  arep_value os d Sa (fun o m => Sb o m + s * Sb' o m)%R Ua (fun o m => Ub o m + s * Ub' o m)%R = (arep_value os d Sa Sb Ua Ub + s * arep_value os d Sa Sb' Ua Ub')%R.
Proof.
  unfold arep_value. rewrite (lsum_lin _ (fun o => w_arep o * (msum o (Sa o) (Ub o) + msum o (Ua o) (Sb o)))%R (fun o => w_arep o * (msum o (Sa o) (Ub' o) + msum o (Ua o) (Sb' o)))%R s) by (intros o; rewrite !msum_right; ring).
  rewrite (lsum_lin (fun o => lsum (fun o' => if same_ljb o o' then (w_arep o * d o o' * msum o (Sa o) (fun m => Sb o' m + s * Sb' o' m))%R else 0%R) os)
    (fun o => lsum (fun o' => if same_ljb o o' then (w_arep o * d o o' * msum o (Sa o) (Sb o'))%R else 0%R) os) (fun o => lsum (fun o' => if same_ljb o o' then (w_arep o * d o o' * msum o (Sa o) (Sb' o'))%R else 0%R) os) s);
    [ring|]. intros o. apply lsum_lin. intros o'. destruct (same_ljb o o'); [rewrite msum_right|]; ring.
Qed.
Lemma so_left os W d Sa Sa' Sb Ua Ua' Ub s :
  so_value os W d (fun o m => Sa o m + s * Sa' o m)%R Sb (fun o m => Ua o m + s * Ua' o m)%R Ub = (so_value os W d Sa Sb Ua Ub + s * so_value os W d Sa' Sb Ua' Ub)%R.
Proof.
  unfold so_value. rewrite (lsum_lin _ (fun o => w_so o * (msum2 o (W (oc_l o)) (Ua o) (Sb o) + msum2 o (W (oc_l o)) (Sa o) (Ub o)))%R (fun o => w_so o * (msum2 o (W (oc_l o)) (Ua' o) (Sb o) + msum2 o (W (oc_l o)) (Sa' o) (Ub o)))%R s) by (intros o; rewrite !msum2_left; ring).
  rewrite (lsum_lin (fun o => lsum (fun o' => if same_ljb o o' then (w_so o * d o o' * msum2 o (W (oc_l o)) (fun m => Sa o m + s * Sa' o m) (Sb o'))%R else 0%R) os)
    (fun o => lsum (fun o' => if same_ljb o o' then (w_so o * d o o' * msum2 o (W (oc_l o)) (Sa o) (Sb o'))%R else 0%R) os) (fun o => lsum (fun o' => if same_ljb o o' then (w_so o * d o o' * msum2 o (W (oc_l o)) (Sa' o) (Sb o'))%R else 0%R) os) s);
    [ring|]. intros o. apply lsum_lin. intros o'. destruct (same_ljb o o'); [rewrite msum2_left|]; ring.
Qed.
Lemma so_right os W d Sa Sb Sb' Ua Ub Ub' s :
  so_value os W d Sa (fun o m => Sb o m + s * Sb' o m)%R Ua (fun o m => Ub o m + s * Ub' o m)%R = (so_value os W d Sa Sb Ua Ub + s * so_value os W d Sa Sb' Ua Ub')%R.
Proof.
  unfold so_value. rewrite (lsum_lin _ (fun o => w_so o * (msum2 o (W (oc_l o)) (Ua o) (Sb o) + msum2 o (W (oc_l o)) (Sa o) (Ub o)))%R (fun o => w_so o * (msum2 o (W (oc_l o)) (Ua o) (Sb' o) + msum2 o (W (oc_l o)) (Sa o) (Ub' o)))%R s) by (intros o; rewrite !msum2_right; ring).
  rewrite (lsum_lin (fun o => lsum (fun o' => if same_ljb o o' then (w_so o * d o o' * msum2 o (W (oc_l o)) (Sa o) (fun m => Sb o' m + s * Sb' o' m))%R else 0%R) os)
    (fun o => lsum (fun o' => if same_ljb o o' then (w_so o * d o o' * msum2 o (W (oc_l o)) (Sa o) (Sb o'))%R else 0%R) os) (fun o => lsum (fun o' => if same_ljb o o' then (w_so o * d o o' * msum2 o (W (oc_l o)) (Sa o) (Sb' o'))%R else 0%R) os) s);
    [ring|]. intros o. apply lsum_lin. intros o'. destruct (same_ljb o o'); [rewrite msum2_right|]; ring.
Qed.

(** the integrals of a function over the outercore orbitals, without and with the radial potential *)
Definition projections (C : R * R * R) (os : list oc_data) (f : fn3) (S' U' : oc_data -> Z -> R) : Prop :=
  forall o m, In o os -> Z.abs m <= Z.of_nat (oc_l o) ->
    is_int3 (fun x y z => f x y z * orbital o C m x y z)%R (S' o m) /\ is_int3 (fun x y z => f x y z * oc_U o C x y z * orbital o C m x y z)%R (U' o m).

(** the outercore operator: [delta] the radial integrals, [W] the matrices of the angular momentum *)
Definition oc_V (C : R * R * R) (os : list oc_data) (delta : oc_data -> oc_data -> R) (W : Z -> nat -> Z -> Z -> R) (k : Z) (f g : fn3) (v : R) : Prop :=
  exists Sa Ua Sb Ub, projections C os f Sa Ua /\ projections C os g Sb Ub /\
    v = if k =? -1 then arep_value os delta Sa Sb Ua Ub else so_value os (W k) delta Sa Sb Ua Ub.

Lemma projections_ext C os f g S' U' : (forall x y z, f x y z = g x y z) -> projections C os f S' U' -> projections C os g S' U'.
Proof. intros H P o m Ho Hm. destruct (P o m Ho Hm) as (P1 & P2). split; (eapply is_int3_ext; [|eassumption]); intros; cbv beta; rewrite H; reflexivity. Qed.

Lemma projections_add C os f g S' U' S'' U'' s : projections C os f S' U' -> projections C os g S'' U'' ->
  projections C os (fun x y z => f x y z + s * g x y z)%R (fun o m => S' o m + s * S'' o m)%R (fun o m => U' o m + s * U'' o m)%R.
Proof.
  intros P Q o m Ho Hm. destruct (P o m Ho Hm) as (P1 & P2). destruct (Q o m Ho Hm) as (Q1 & Q2).
  split; (eapply is_int3_ext; [|apply is_int3_plus; [eassumption|apply is_int3_scal; eassumption]]); intros; cbv beta; ring.
Qed.

Lemma bilinear_oc C os delta W : bilinear (oc_V C os delta W).
Proof.
  split; [|split].
  - intros k f f' g g' v Hf Hg (Sa & Ua & Sb & Ub & P & Q & ->). exists Sa, Ua, Sb, Ub. split; [eapply projections_ext; eassumption|]. split; [eapply projections_ext; eassumption|]. reflexivity.
  - intros k f f' g v v' s (Sa & Ua & Sb & Ub & P & Q & ->) (Sa' & Ua' & Sb' & Ub' & P' & Q' & ->).
    exists (fun o m => Sa o m + s * Sa' o m)%R, (fun o m => Ua o m + s * Ua' o m)%R, Sb, Ub. split; [apply projections_add; assumption|]. split; [exact Q|].
    assert (U1 : (if k =? -1 then arep_value os delta Sa' Sb' Ua' Ub' else so_value os (W k) delta Sa' Sb' Ua' Ub') = (if k =? -1 then arep_value os delta Sa' Sb Ua' Ub else so_value os (W k) delta Sa' Sb Ua' Ub)).
    { assert (E : forall o m, In o os -> Z.abs m <= Z.of_nat (oc_l o) -> Sb' o m = Sb o m /\ Ub' o m = Ub o m).
      { intros o m Ho Hm. destruct (Q o m Ho Hm) as (X1 & X2). destruct (Q' o m Ho Hm) as (Y1 & Y2). split; eapply is_int3_unique; eassumption. }
      unfold arep_value, so_value, msum, msum2. destruct (k =? -1); f_equal.
      - apply lsum_ext_in. intros o Ho. f_equal. f_equal; apply zsum_ext; intros m Hm; destruct (E o m Ho ltac:(lia)) as (E1 & E2); rewrite ?E1, ?E2; reflexivity.
      - apply lsum_ext_in. intros o Ho. apply lsum_ext_in. intros o' Ho'. destruct (same_ljb o o') eqn:El; [|reflexivity]. unfold same_ljb in El. apply andb_true_iff in El. destruct El as (El & _). apply Nat.eqb_eq in El.
        f_equal. apply zsum_ext. intros m Hm. destruct (E o' m Ho' ltac:(rewrite <- El; lia)) as (E1 & E2); rewrite ?E1, ?E2; reflexivity.
      - apply lsum_ext_in. intros o Ho. f_equal. f_equal; apply zsum_ext; intros m Hm; apply zsum_ext; intros m' Hm'; destruct (E o m' Ho ltac:(lia)) as (E1 & E2); rewrite ?E1, ?E2; reflexivity.
      - apply lsum_ext_in. intros o Ho. apply lsum_ext_in. intros o' Ho'. destruct (same_ljb o o') eqn:El; [|reflexivity]. unfold same_ljb in El. apply andb_true_iff in El. destruct El as (El & _). apply Nat.eqb_eq in El.
        f_equal. apply zsum_ext. intros m Hm. apply zsum_ext. intros m' Hm'. destruct (E o' m' Ho' ltac:(rewrite <- El; lia)) as (E1 & E2); rewrite ?E1, ?E2; reflexivity. }
    rewrite U1. destruct (k =? -1); [rewrite arep_left|rewrite so_left]; reflexivity.
  - intros k f g g' v v' s (Sa & Ua & Sb & Ub & P & Q & ->) (Sa' & Ua' & Sb' & Ub' & P' & Q' & ->).
    exists Sa, Ua, (fun o m => Sb o m + s * Sb' o m)%R, (fun o m => Ub o m + s * Ub' o m)%R. split; [exact P|]. split; [apply projections_add; assumption|].
    assert (U1 : (if k =? -1 then arep_value os delta Sa' Sb' Ua' Ub' else so_value os (W k) delta Sa' Sb' Ua' Ub') = (if k =? -1 then arep_value os delta Sa Sb' Ua Ub' else so_value os (W k) delta Sa Sb' Ua Ub')).
    { assert (E : forall o m, In o os -> Z.abs m <= Z.of_nat (oc_l o) -> Sa' o m = Sa o m /\ Ua' o m = Ua o m).
      { intros o m Ho Hm. destruct (P o m Ho Hm) as (X1 & X2). destruct (P' o m Ho Hm) as (Y1 & Y2). split; eapply is_int3_unique; eassumption. }
      unfold arep_value, so_value, msum, msum2. destruct (k =? -1); f_equal.
      - apply lsum_ext_in. intros o Ho. f_equal. f_equal; apply zsum_ext; intros m Hm; destruct (E o m Ho ltac:(lia)) as (E1 & E2); rewrite ?E1, ?E2; reflexivity.
      - apply lsum_ext_in. intros o Ho. apply lsum_ext_in. intros o' Ho'. destruct (same_ljb o o'); [|reflexivity].
        f_equal. apply zsum_ext. intros m Hm. destruct (E o m Ho ltac:(lia)) as (E1 & E2); rewrite ?E1, ?E2; reflexivity.
      - apply lsum_ext_in. intros o Ho. f_equal. f_equal; apply zsum_ext; intros m Hm; apply zsum_ext; intros m' Hm'; destruct (E o m Ho ltac:(lia)) as (E1 & E2); rewrite ?E1, ?E2; reflexivity.
      - apply lsum_ext_in. intros o Ho. apply lsum_ext_in. intros o' Ho'. destruct (same_ljb o o'); [|reflexivity].
        f_equal. apply zsum_ext. intros m Hm. apply zsum_ext. intros m' Hm'. destruct (E o m Ho ltac:(lia)) as (E1 & E2); rewrite ?E1, ?E2; reflexivity. }
    rewrite U1. destruct (k =? -1); [rewrite arep_right|rewrite so_right]; reflexivity.
Qed.

(** ** The library computes it *)
Definition own_delta (o o' : oc_data) : R := (table_ratio (oc_l o) ^ 2 * delta_val (oc_l o) (oc_prims o) (oc_prims o') (oc_pot o) (oc_pot o'))%R.

Lemma own_oc_accurate daw C cart ocs os vA vB : 0 <= v_L vA <= 9 -> 0 <= v_L vB <= 9 -> exps_pos vA -> exps_pos vB -> none_negligible (v_prims vA) -> none_negligible (v_prims vB) ->
  (forall l, components_of l (cart l)) -> Forall2 (oc_is cart) ocs os -> List.Forall oc_valid os -> (forall o, In o os -> gaussian_terms (oc_pot o) /\ none_negligible (oc_prims o)) ->
  accurate4 (oc_V C os own_delta Wk) (fun A B => outercore_potential_integrals (own_t1 daw) A B C ocs) 0 vA vB.
Proof.
  intros LA9 LB9 PA PB NA NB Hcart HO HV HG.
  set (LA := v_L vA) in *. set (LB := v_L vB) in *. set (oA := v_origin vA). set (oB := v_origin vB). set (la := v_prims vA) in *. set (lb := v_prims vB) in *. set (ca := canon LA). set (cb := canon LB).
  pose (ta := fun o i c => g_value LA (Z.of_nat (oc_l o)) oA C la (oc_prims o) C (oc_pot o) (comp ca i) (comp (cart (oc_l o)) c)).
  pose (tb := fun o c j => g_value (Z.of_nat (oc_l o)) LB C oB (oc_prims o) lb C (oc_pot o) (comp (cart (oc_l o)) c) (comp cb j)).
  pose (Sa := fun i o m => cSa C LA oA la ca cart o i (m + Z.of_nat (oc_l o))). pose (Ua := fun i o m => cUa cart ta o i (m + Z.of_nat (oc_l o))).
  pose (Sb := fun j o m => cSb C LB oB lb cb cart o (m + Z.of_nat (oc_l o)) j). pose (Ub := fun j o m => cUb cart tb o (m + Z.of_nat (oc_l o)) j).
  assert (HV' : forall o, In o os -> oc_valid o) by (apply List.Forall_forall; exact HV).
  exists (fun k i j => if k =? -1 then arep_value os own_delta (Sa i) (Sb j) (Ua i) (Ub j) else so_value os (Wk k) own_delta (Sa i) (Sb j) (Ua i) (Ub j)). split.
  - intros A B HA HB out szs F.
    assert (Ht : Forall2 (oc_t1 (own_t1 daw) A B C ta tb) ocs os).
    { clear F HV Sa Ua Sb Ub. revert HG HV'. induction HO as [|[pot s] o ocs os Ho HO IH]; intros HG HV'; [constructor|].
      constructor; [|apply IH; intros o' Hin; [apply HG|apply HV']; right; exact Hin].
      destruct (HG o (or_introl eq_refl)) as (G1 & G2). destruct (HV' o (or_introl eq_refl)) as (V1 & V2 & V3). destruct Ho as (_ & _ & E3 & org & HS). cbn [fst snd] in *.
      unfold oc_t1. cbn [fst snd]. assert (HS' := moved_is _ _ _ _ _ C HS). split.
      + unfold tb. rewrite <- E3 in *. apply (own_gives daw); try assumption. lia.
      + unfold ta. rewrite <- E3 in *. apply (own_gives daw); try assumption. lia. }
    destruct (main_ok (own_t1 daw) A B C LA LB oA oB la lb ca cb HA HB LA9 LB9 cart ta tb ocs os out szs HO Ht HV F) as (out' & E & _ & F').
    exists out'. eexists. split; [exact E|]. eapply OutercoreProofs.four_ext; [|exact F']. intros k i j Hk _ _. cbv beta. rewrite outercore_value by lia. reflexivity.
  - intros k Hk i j cA cB Hi Hj. eexists. split; [|rewrite Rminus_eq_0, Rabs_R0; apply Rle_refl].
    assert (Bi : (i < length ca)%nat) by (apply nth_error_Some; unfold ca, LA; congruence). assert (Bj : (j < length cb)%nat) by (apply nth_error_Some; unfold cb, LB; congruence).
    assert (CA : comp ca (Z.of_nat i) = cA) by (unfold comp; rewrite Nat2Z.id; apply nth_error_nth; exact Hi). assert (CB : comp cb (Z.of_nat j) = cB) by (unfold comp; rewrite Nat2Z.id; apply nth_error_nth; exact Hj).
    exists (Sa (Z.of_nat i)), (Ua (Z.of_nat i)), (Sb (Z.of_nat j)), (Ub (Z.of_nat j)). split; [|split; [|reflexivity]].
    + intros o m Ho Hm. pose proof (HV' o Ho) as Hvo. destruct (HG o Ho) as (G1 & G2). unfold phi_of. fold LA oA la. rewrite <- CA. split.
      * apply ket_int; [exact Hvo|apply Hcart|exact Hm|]. intros c Hc. apply ovm_int; [exact PA|apply Hvo].
      * apply (ket_int (fun x y z => phi LA oA la (comp ca (Z.of_nat i)) x y z * oc_U o C x y z)%R); [exact Hvo|apply Hcart|exact Hm|]. intros c Hc.
        eapply is_int3_ext; [|apply g_value_int; try assumption; exact (proj1 (proj2 Hvo))]. intros x y z. cbv beta. rewrite pot_fun_U by exact G1. ring.
    + intros o m Ho Hm. pose proof (HV' o Ho) as Hvo. destruct (HG o Ho) as (G1 & G2). unfold phi_of. fold LB oB lb. rewrite <- CB. split.
      * eapply is_int3_ext; [|apply (bra_int (phi LB oB lb (comp cb (Z.of_nat j)))); [exact Hvo|apply Hcart|exact Hm|]; intros c Hc; apply ovm_int; [apply Hvo|exact PB]]. intros; cbv beta; ring.
      * eapply is_int3_ext; [|apply (bra_int (fun x y z => oc_U o C x y z * phi LB oB lb (comp cb (Z.of_nat j)) x y z)%R o C); [exact Hvo|apply Hcart|exact Hm|]]; [intros; cbv beta; ring|]. intros c Hc.
        eapply is_int3_ext; [|apply g_value_int; try assumption; exact (proj1 (proj2 Hvo))]. intros x y z. cbv beta. rewrite pot_fun_U by exact G1. ring.
Qed.

(** the gradient of the outercore term computed with the library's own routine, potentials with terms of power 2 *)
Lemma outercore_own_gradient daw rt h pA pB C ocs l os cart vA vB ca cb :
  heap_wf h -> rt_init rt = true -> rt_type1 rt = type1_integrals daw true -> std_shell h pA vA ca -> std_shell h pB vB cb ->
  Forall2 (fun p x => view_pot h (fst p) = Ok (fst x) /\ view_shell h (snd p) = Ok (snd x)) ocs l -> (length ocs <= 100)%nat -> ~ In pA (map snd ocs) -> ~ In pB (map snd ocs) ->
  v_L vA <= 8 -> v_L vB <= 8 -> exps_pos vA -> exps_pos vB -> significant vA -> significant vB ->
  (forall l, components_of l (cart l)) -> Forall2 (oc_is cart) l os -> List.Forall oc_valid os -> (forall o, In o os -> gaussian_terms (oc_pot o) /\ none_negligible (oc_prims o)) ->
  exists delta ratio W,
    (forall o o', In o os -> In o' os -> same_lj o o' ->
       half_int (fun r => oc_radial o r * ((radial_sum (oc_pot o) r + radial_sum (oc_pot o') r) / 2) * oc_radial o' r * r ^ 2)%R (delta o o')) /\
    (forall l, (l <= 9)%nat -> Rabs (ratio l - 1) <= 2 / 10 ^ 15)%R /\
    (forall l, rotation_generators (Z.of_nat l) (W 0 l) (W 1 l) (W 2 l)) /\
    exists bra ket, (forall k, -1 <= k < 3 -> deriv_close (oc_V C os (fun o o' => ratio (oc_l o) ^ 2 * delta o o')%R W k) vA vB ca cb 0 (bra k) (ket k)) /\
      forall ord oob D grad, may_overread oob vA vB -> told_apart [v_origin vA; v_origin vB; C; D] -> grad_room vA vB grad ->
        exists h' grad', outercore_integrals_gradient ord oob rt h pA pB C ocs D grad = Ok (h', grad') /\ reached C (map snd ocs) h h' /\
          only_grad4 grad grad' vA vB /\ forall k, -1 <= k < 3 -> holds_gradient (mat_k grad' k) vA vB ca cb C D (bra k) (ket k).
Proof.
  intros W I R1 SA SB F Hl N1 N2 LA LB PA PB ZA ZB Hcart HO HV HG. pose proof (significant_keeps _ _ PA PB ZA ZB) as K.
  pose proof (proj1 (proj2 SA)) as LA0. pose proof (proj1 (proj2 SB)) as LB0.
  exists (fun o o' => delta_val (oc_l o) (oc_prims o) (oc_prims o') (oc_pot o) (oc_pot o')), table_ratio, Wk.
  split; [|split; [|split]].
  - rewrite List.Forall_forall in HV. intros o o' Ho Ho' (El & _). unfold oc_radial. rewrite <- El. destruct (HV o Ho) as (_ & X1 & X2). destruct (HV o' Ho') as (_ & Y1 & Y2). rewrite <- El in Y2. apply delta_int; assumption.
  - intros l0 Hl0. apply table_ratio_bound. lia.
  - intros l0. apply W_generators.
  - apply (outercore_gradient_thm (oc_V C os own_delta Wk) rt h pA pB C ocs l vA vB ca cb 0); try assumption; [apply bilinear_oc| |].
    + intros A B C0 NA NB. rewrite R1. apply own_null; assumption.
    + pose proof (around_levels vA vB 9 ltac:(lia) ltac:(lia) ltac:(lia) ltac:(lia)) as Lv.
      eapply around_impl; [|exact (around_and _ _ _ _ (around_and _ _ _ _ Lv K) (around_exps _ _ PA PB))]. intros x y (((Lx & Ly & _) & Nx & Ny) & Px & Py).
      unfold rt_oc. rewrite R1. apply (own_oc_accurate daw C cart); assumption.
Qed.
