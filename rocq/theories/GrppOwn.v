(** * The GRPP operator with the library's own routines (C78): parts *)

From Coq Require Import ZArith List Lia Bool Reals Lra Permutation.
From Coquelicot Require Import Coquelicot.
From Verif Require Import Base Loops Sums CartModel CartProofs HeapModel HeapProofs HeapSpec HeapGrpp OneElModel OneElProofs OneElPairs OneElSpec OneElThms
  GaussProd OneElInt NucPotSpec NucPot RadialModel RadialTables SphModel SphSpec SphInt SphAngular SphOrtho SphAdd SphProofs SphThms LmatModel UtilProofs OvGradModel OvDeriv OvGradProofs OvGradThms OutercoreModel OutercoreProofs OutercoreMain OutercoreThms
  MmdModel MmdSpec MmdMain MmdThms MmdUser MmdNuc MmdOuter GrppModel GrppFull GrppHeap GrppGrad GrppGrad2 GrppThms GrppGrad3 GrppTerm GrppTermGrad GrppLocal GrppOc
  ParamsModel Type2Model Type2Spec Type2Proj Type2Radial Type2Main Type2Acc Type2So GrppOwnSpec.
Import ListNotations.
Open Scope R_scope.

(** ** The elements are bilinear *)
Lemma projection_unique l m C f P P' : projection l m C f P -> projection l m C f P' -> forall r, 0 < r -> P r = P' r.
Proof. destruct C as [[cx cy] cz]. intros H H' r Hr. exact (sphere_uniq _ _ _ (H r Hr) (H' r Hr)). Qed.

Lemma projection_ext l m C f f' P : (forall x y z, f x y z = f' x y z) -> projection l m C f P -> projection l m C f' P.
Proof. destruct C as [[cx cy] cz]. intros E H r Hr. eapply sphere_ext; [|exact (H r Hr)]. intros x y z _. cbv beta. rewrite E. reflexivity. Qed.

Lemma projection_add l m C f f' P P' s : projection l m C f P -> projection l m C f' P' -> projection l m C (fun x y z => f x y z + s * f' x y z) (fun r => P r + s * P' r).
Proof.
  destruct C as [[cx cy] cz]. intros H H' r Hr. pose proof (sphere_lin _ _ _ _ 1 s (H r Hr) (H' r Hr)) as Q. eapply sphere_val; [eapply sphere_ext; [|exact Q]|]; [intros x y z _|]; cbv beta; ring.
Qed.

Lemma bilinear_projected l W U C : bilinear1 (projected_integral l W U C).
Proof.
  split; [|split].
  - intros f f' g g' v Ef Eg (P & Q & HP & HQ & HI). exists P, Q. split; [intros m Hm; eapply projection_ext; [exact Ef|apply HP, Hm]|]. split; [intros m Hm; eapply projection_ext; [exact Eg|apply HQ, Hm]|exact HI].
  - intros f f' g v v' s (P & Q & HP & HQ & HI) (P' & Q' & HP' & HQ' & HI').
    exists (fun m r => P m r + s * P' m r), Q. split; [intros m Hm; apply projection_add; [apply HP, Hm|apply HP', Hm]|]. split; [exact HQ|].
    eapply half_ext; [|exact (half_plus _ _ _ _ HI (half_scal s _ _ HI'))]. intros r Hr. cbv beta.
    rewrite (zsum_ext _ _ (fun m1 => zsum (- Z.of_nat l) (Z.of_nat l + 1) (fun m2 => (P m1 r + s * P' m1 r) * W m1 m2 * Q m2 r))
      (fun m1 => zsum (- Z.of_nat l) (Z.of_nat l + 1) (fun m2 => P m1 r * W m1 m2 * Q m2 r) + s * zsum (- Z.of_nat l) (Z.of_nat l + 1) (fun m2 => P' m1 r * W m1 m2 * Q' m2 r))).
    + rewrite zsum_plus, zsum_scal. ring.
    + intros m1 Hm1. rewrite <- zsum_scal, <- zsum_plus. apply zsum_ext. intros m2 Hm2. rewrite <- (projection_unique l m2 C g (Q m2) (Q' m2) (HQ m2 ltac:(lia)) (HQ' m2 ltac:(lia)) r Hr). ring.
  - intros f g g' v v' s (P & Q & HP & HQ & HI) (P' & Q' & HP' & HQ' & HI').
    exists P, (fun m r => Q m r + s * Q' m r). split; [exact HP|]. split; [intros m Hm; apply projection_add; [apply HQ, Hm|apply HQ', Hm]|].
    eapply half_ext; [|exact (half_plus _ _ _ _ HI (half_scal s _ _ HI'))]. intros r Hr. cbv beta.
    rewrite (zsum_ext _ _ (fun m1 => zsum (- Z.of_nat l) (Z.of_nat l + 1) (fun m2 => P m1 r * W m1 m2 * (Q m2 r + s * Q' m2 r)))
      (fun m1 => zsum (- Z.of_nat l) (Z.of_nat l + 1) (fun m2 => P m1 r * W m1 m2 * Q m2 r) + s * zsum (- Z.of_nat l) (Z.of_nat l + 1) (fun m2 => P' m1 r * W m1 m2 * Q' m2 r))).
    + rewrite zsum_plus, zsum_scal. ring.
    + intros m1 Hm1. rewrite <- zsum_scal, <- zsum_plus. apply zsum_ext. intros m2 Hm2. rewrite <- (projection_unique l m1 C f (P m1) (P' m1) (HP m1 ltac:(lia)) (HP' m1 ltac:(lia)) r Hr). ring.
Qed.

Lemma projected_semilocal L U C f g v : semilocal_integral L U C f g v -> projected_integral L unit_matrix U C f g v.
Proof.
  intros (P & Q & HP & HQ & H). exists P, Q. split; [exact HP|]. split; [exact HQ|]. eapply half_ext; [|exact H]. intros r _. cbv beta. f_equal.
  symmetry. exact (asum_unit L (fun m => P m r) (fun m => Q m r)).
Qed.

Lemma bilinear_semilocal C U : bilinear1 (semilocal_V C U).
Proof.
  unfold semilocal_V. destruct (bilinear_projected (Z.to_nat (pv_L U)) unit_matrix (radial_potential (pv_prims U)) C) as (H1 & H2 & H3). split; [|split].
  - intros f f' g g' v Ef Eg H. apply semilocal_projected. eapply H1; [exact Ef|exact Eg|]. apply projected_semilocal, H.
  - intros f f' g v v' s H H'. apply semilocal_projected. apply H2; apply projected_semilocal; assumption.
  - intros f g g' v v' s H H'. apply semilocal_projected. apply H3; apply projected_semilocal; assumption.
Qed.

(** the matrices of the angular momentum are determined by the rotations *)
Lemma momentum_unique l k W W' : angular_momentum l k W -> angular_momentum l k W' -> forall p m, (Z.abs p <= Z.of_nat l)%Z -> (Z.abs m <= Z.of_nat l)%Z -> W p m = W' p m.
Proof.
  intros H H' p m Hp Hm. set (lo := (- Z.of_nat l)%Z). set (hi := (Z.of_nat l + 1)%Z).
  assert (E : forall x y z, x * x + y * y + z * z = 1 -> zsum lo hi (fun q => W q m * real_sph l q x y z) = zsum lo hi (fun q => W' q m * real_sph l q x y z)).
  { intros x y z Hu. pose proof (is_derive_unique _ _ _ (H m x y z Hm Hu)) as D. pose proof (is_derive_unique _ _ _ (H' m x y z Hm Hu)) as D'. fold lo hi in D, D'. rewrite D in D'. lra. }
  assert (V : forall X : Z -> Z -> R, sphere_int (fun x y z => zsum lo hi (fun q => X q m * (real_sph l q x y z * real_sph l p x y z))) (X p m)).
  { intros X. assert (Ev : X p m = zsum lo hi (fun q => X q m * (if (l =? l)%nat && (q =? p)%Z then 1 else 0))).
    { rewrite (SphSpan.zsum_delta _ _ p); [rewrite Nat.eqb_refl, Z.eqb_refl; cbn [andb]; ring|unfold lo, hi; lia|]. intros i Hi Hn. rewrite (proj2 (Z.eqb_neq i p)) by auto. rewrite andb_false_r. ring. }
    rewrite Ev. apply sphere_zsum. intros q Hq. apply sphere_scal, orthonormal; unfold lo, hi in *; lia. }
  apply (sphere_uniq _ _ _ (V W)). eapply sphere_ext; [|exact (V W')]. intros x y z Hu. cbv beta.
  assert (F : forall X : Z -> Z -> R, zsum lo hi (fun q => X q m * (real_sph l q x y z * real_sph l p x y z)) = real_sph l p x y z * zsum lo hi (fun q => X q m * real_sph l q x y z)).
  { intros X. rewrite <- zsum_scal. apply zsum_ext. intros; ring. }
  rewrite !F, (E x y z) by lra. reflexivity.
Qed.

Lemma projected_matrix l W W' U C f g v : (forall p m, (Z.abs p <= Z.of_nat l)%Z -> (Z.abs m <= Z.of_nat l)%Z -> W p m = W' p m) -> projected_integral l W U C f g v -> projected_integral l W' U C f g v.
Proof.
  intros E (P & Q & HP & HQ & H). exists P, Q. split; [exact HP|]. split; [exact HQ|]. eapply half_ext; [|exact H]. intros r _. cbv beta. f_equal.
  apply zsum_ext. intros m1 H1. apply zsum_ext. intros m2 H2. rewrite E by lia. reflexivity.
Qed.

Lemma bilinear_spin_orbit C U k : bilinear1 (spin_orbit_V C U k).
Proof.
  unfold spin_orbit_V. split; [|split].
  - intros f f' g g' v Ef Eg (W & HW & H). exists W. split; [exact HW|]. eapply (proj1 (bilinear_projected _ W _ C)); eassumption.
  - intros f f' g v v' s (W & HW & H) (W' & HW' & H'). exists W. split; [exact HW|]. apply (proj1 (proj2 (bilinear_projected _ W _ C))); [exact H|].
    eapply projected_matrix; [|exact H']. intros p m Hp Hm. apply (momentum_unique _ k W' W HW' HW); assumption.
  - intros f g g' v v' s (W & HW & H) (W' & HW' & H'). exists W. split; [exact HW|]. apply (proj2 (proj2 (bilinear_projected _ W _ C))); [exact H|].
    eapply projected_matrix; [|exact H']. intros p m Hp Hm. apply (momentum_unique _ k W' W HW' HW); assumption.
Qed.

Lemma bilinear_sum {T} (V : T -> fn3 -> fn3 -> R -> Prop) (l : list T) : (forall x, bilinear1 (V x)) -> bilinear1 (element_sum V l).
Proof.
  intros H. induction l as [|x l (I1 & I2 & I3)]; cbn [element_sum].
  - split; [|split]; intros; subst; try assumption; ring.
  - destruct (H x) as (H1 & H2 & H3). split; [|split].
    + intros f f' g g' v Ef Eg (a & b & Ha & Hb & ->). exists a, b. split; [eapply H1; eassumption|]. split; [eapply I1; eassumption|reflexivity].
    + intros f f' g v v' s (a & b & Ha & Hb & ->) (a' & b' & Ha' & Hb' & ->). exists (a + s * a'), (b + s * b'). split; [apply H2; assumption|]. split; [apply I2; assumption|ring].
    + intros f g g' v v' s (a & b & Ha & Hb & ->) (a' & b' & Ha' & Hb' & ->). exists (a + s * a'), (b + s * b'). split; [apply H3; assumption|]. split; [apply I3; assumption|ring].
Qed.

Lemma bilinear_weighted w V : bilinear1 V -> bilinear1 (fun f g x => exists y, V f g y /\ x = w * y).
Proof.
  intros (H1 & H2 & H3). split; [|split].
  - intros f f' g g' v Ef Eg (y & Hy & ->). exists y. split; [eapply H1; eassumption|reflexivity].
  - intros f f' g v v' s (y & Hy & ->) (y' & Hy' & ->). exists (y + s * y'). split; [apply H2; assumption|ring].
  - intros f g g' v v' s (y & Hy & ->) (y' & Hy' & ->). exists (y + s * y'). split; [apply H3; assumption|ring].
Qed.

Lemma bilinear_local_part C U : bilinear1 (local_part C U).
Proof. destruct U as [U|]; [exact (bilinear_local C (pv_prims U))|]. split; [|split]; cbn [local_part]; intros; subst; try assumption; ring. Qed.

Lemma bilinear_grpp C gv oc : bilinear oc -> bilinear (grpp_V C gv oc).
Proof.
  intros (O1 & O2 & O3).
  assert (BL := bilinear_local_part C (gv_local gv)). assert (BS := bilinear_sum (semilocal_V C) (gv_arep gv) (bilinear_semilocal C)).
  assert (BO : forall k, bilinear1 (element_sum (fun U f g x => exists w, spin_orbit_V C U k f g w /\ x = 2 / (2 * IZR (pv_L U) + 1) * w) (gv_esop gv))).
  { intros k. apply bilinear_sum. intros U. apply bilinear_weighted, bilinear_spin_orbit. }
  unfold grpp_V. split; [|split].
  - intros k f f' g g' v Ef Eg (a & b & Ho & -> & H). exists a, b. split; [eapply O1; eassumption|]. split; [reflexivity|]. destruct (k =? -1)%Z.
    + destruct H as (u & w & Hu & Hw & ->). exists u, w. split; [eapply (proj1 BL); eassumption|]. split; [eapply (proj1 BS); eassumption|reflexivity].
    + eapply (proj1 (BO k)); eassumption.
  - intros k f f' g v v' s (a & b & Ho & -> & H) (a' & b' & Ho' & -> & H'). exists (a + s * a'), (b + s * b'). split; [apply O2; assumption|]. split; [ring|]. destruct (k =? -1)%Z.
    + destruct H as (u & w & Hu & Hw & ->). destruct H' as (u' & w' & Hu' & Hw' & ->). exists (u + s * u'), (w + s * w'). split; [apply (proj1 (proj2 BL)); assumption|]. split; [apply (proj1 (proj2 BS)); assumption|ring].
    + apply (proj1 (proj2 (BO k))); assumption.
  - intros k f g g' v v' s (a & b & Ho & -> & H) (a' & b' & Ho' & -> & H'). exists (a + s * a'), (b + s * b'). split; [apply O3; assumption|]. split; [ring|]. destruct (k =? -1)%Z.
    + destruct H as (u & w & Hu & Hw & ->). destruct H' as (u' & w' & Hu' & Hw' & ->). exists (u + s * u'), (w + s * w'). split; [apply (proj2 (proj2 BL)); assumption|]. split; [apply (proj2 (proj2 BS)); assumption|ring].
    + apply (proj2 (proj2 (BO k))); assumption.
Qed.

(** ** Only the contents of the shells matter *)
Lemma read_same A A' : same_content A A' -> read_prims A = read_prims A'.
Proof.
  intros (_ & _ & SN & _ & SP & _). unfold read_prims. rewrite <- SN. apply for_range_ext. intros i s Hi. destruct (SP i Hi) as (-> & ->). reflexivity.
Qed.

Lemma component_same A A' i : same_content A A' -> (0 <= i < sv_size A)%Z -> component A i = component A' i.
Proof. intros (_ & _ & _ & _ & _ & SC) Hi. unfold component. destruct (SC i Hi) as (-> & -> & ->). reflexivity. Qed.

Lemma first_same A A' : same_content A A' -> (0 < sv_size A)%Z -> first_momentum A = first_momentum A'.
Proof. intros (_ & _ & _ & _ & _ & SC) Hs. unfold first_momentum. destruct (SC 0%Z ltac:(lia)) as (E1 & E2 & E3). cbn [Z.mul Z.add] in E1, E2, E3. rewrite E1, E2, E3. reflexivity. Qed.

Lemma radial_same fuel par bessel erf A A' B B' CA CB U LA LB : same_content A A' -> same_content B B' -> radial_of fuel par bessel erf A B CA CB U LA LB = radial_of fuel par bessel erf A' B' CA CB U LA LB.
Proof.
  intros HA HB. unfold radial_of. rewrite (read_same A A' HA), (read_same B B' HB). destruct HA as (-> & _), HB as (-> & _). reflexivity.
Qed.

Lemma type2_same fuel par bessel erf st init A A' B B' C U M : same_content A A' -> same_content B B' -> (0 < sv_size A)%Z -> (0 < sv_size B)%Z -> (0 < sv_num A)%Z -> (0 < sv_num B)%Z ->
  type2_integrals fuel par bessel erf st init A B C U M = type2_integrals fuel par bessel erf st init A' B' C U M.
Proof.
  intros HA HB ZA ZB NA NB. pose proof HA as (_ & SA & _ & OA & PA & _). pose proof HB as (_ & SB & _ & OB & PB & _). unfold type2_integrals. cbv zeta. rewrite <- SA, <- SB, <- OA, <- OB.
  apply bind_ext. intros _. apply bind_ext. intros M1. rewrite <- (first_same A A' HA ZA), <- (first_same B B' HB ZB). apply bind_ext. intros LA. apply bind_ext. intros LB.
  destruct (PA 0%Z ltac:(lia)) as (_ & <-). destruct (PB 0%Z ltac:(lia)) as (_ & <-). apply bind_ext. intros aA. apply bind_ext. intros aB. rewrite <- (radial_same fuel par bessel erf A A' B B' _ _ U LA LB HA HB).
  apply bind_ext. intros t. apply bind_ext. intros [rA rB]. apply for_range_ext. intros i s Hi. apply for_range_ext. intros j s' Hj.
  rewrite <- (component_same A A' i HA Hi), <- (component_same B B' j HB Hj). reflexivity.
Qed.

Lemma so_same fuel par bessel erf st init A A' B B' C U Ms : same_content A A' -> same_content B B' -> (0 < sv_size A)%Z -> (0 < sv_size B)%Z -> (0 < sv_num A)%Z -> (0 < sv_num B)%Z ->
  spin_orbit_integrals fuel par bessel erf st init A B C U Ms = spin_orbit_integrals fuel par bessel erf st init A' B' C U Ms.
Proof.
  intros HA HB ZA ZB NA NB. pose proof HA as (_ & SA & _ & OA & PA & _). pose proof HB as (_ & SB & _ & OB & PB & _). unfold spin_orbit_integrals. destruct Ms as [[Mx My] Mz]. cbv zeta. rewrite <- SA, <- SB, <- OA, <- OB.
  apply bind_ext. intros _. apply bind_ext. intros M1. apply bind_ext. intros M2. apply bind_ext. intros M3. rewrite <- (first_same A A' HA ZA), <- (first_same B B' HB ZB). apply bind_ext. intros LA. apply bind_ext. intros LB.
  destruct (PA 0%Z ltac:(lia)) as (_ & <-). destruct (PB 0%Z ltac:(lia)) as (_ & <-). apply bind_ext. intros aA. apply bind_ext. intros aB. apply bind_ext. intros Ls. apply bind_ext. intros [rA rB].
  rewrite <- (radial_same fuel par bessel erf A A' B B' _ _ U LA LB HA HB). apply bind_ext. intros t.
  apply for_range_ext. intros i [[s1 s2] s3] Hi. apply for_range_ext. intros j [[s1' s2'] s3'] Hj.
  rewrite <- (component_same A A' i HA Hi), <- (component_same B B' j HB Hj). reflexivity.
Qed.

(** ** The routines for semilocal and spin-orbit potentials *)

(** what they need of a potential around C and of the contents of two shells *)
Definition pair_ready (C : R * R * R) (U : vpot) (vA vB : sview) : Prop :=
  (0 <= pv_L U)%Z /\ (0 <= v_L vA)%Z /\ (0 <= v_L vB)%Z /\ (pv_L U + v_L vA <= 14)%Z /\ (pv_L U + v_L vB <= 14)%Z /\
  v_prims vA <> [] /\ v_prims vB <> [] /\ exps_pos vA /\ exps_pos vB /\
  powers_in (pv_prims U) (v_L vA + v_L vB) /\ pot_exponents (pv_prims U) /\
  direction_known (v_origin vA) C (v_prims vA) /\ direction_known (v_origin vB) C (v_prims vB).

(** the radial integrals which they tabulate are accurate up to [eps], and at most [Qm] *)
Definition radial_error (fuel : nat) (par : params) (bessel : Z -> R -> R) (erf : R -> R) (C : R * R * R) (U : vpot) (vA vB : sview) (eps Qm : R) : Prop :=
  forall A B t, shell_of A vA -> shell_of B vB -> radial_of fuel par bessel erf A B (sub3 C (v_origin vA)) (sub3 C (v_origin vB)) U (v_L vA) (v_L vB) = Ok t ->
    radial_accuracy t (Z.to_nat (pv_L U)) (Z.to_nat (v_L vA)) (Z.to_nat (v_L vB)) (pv_prims U) (v_prims vA) (v_prims vB) (separation (v_origin vA) C) (separation (v_origin vB) C) eps Qm.

(** the errors of the elements *)
Definition semilocal_error (C : R * R * R) (U : vpot) (vA vB : sview) (eps Qm : R) : R :=
  expansion_error (1 / 10 ^ 13) (1 / 10 ^ 16) ((2 * IZR (pv_L U) + 1) * (2311 / 1000)) ((2 * IZR (pv_L U) + 1) * (1 / 10 ^ 12)) (Z.to_nat (v_L vA)) (Z.to_nat (v_L vB))
    (separation (v_origin vA) C) (separation (v_origin vB) C) eps Qm.
Definition spin_orbit_error (C : R * R * R) (U : vpot) (vA vB : sview) (eps Qm : R) : R :=
  expansion_error zero_thresh zero_thresh (so_bound (Z.to_nat (pv_L U))) (so_delta (Z.to_nat (pv_L U))) (Z.to_nat (v_L vA)) (Z.to_nat (v_L vB))
    (separation (v_origin vA) C) (separation (v_origin vB) C) eps Qm.

Lemma canon_nonempty L : (0 <= L)%Z -> canon L <> [].
Proof. intros HL E. assert (H : In (L, 0, 0)%Z (canon L)) by (apply in_canon; lia). rewrite E in H. exact H. Qed.

Lemma shell_counts A v : shell_of A v -> (0 <= v_L v)%Z -> v_prims v <> [] -> (0 < sv_size A)%Z /\ (0 < sv_num A)%Z.
Proof.
  intros (_ & _ & (N & _) & (S & _) & _) HL Hp. pose proof (canon_nonempty _ HL) as Hc. rewrite N, S. destruct (v_prims v); [contradiction|]. destruct (canon (v_L v)); [contradiction|]. cbn [length]. lia.
Qed.

Lemma semilocal_accurate fuel par bessel erf st C U vA vB eps Qm : (14 <= fuel)%nat -> init_tables st -> pair_ready C U vA vB -> 0 <= eps -> 0 <= Qm -> radial_error fuel par bessel erf C U vA vB eps Qm ->
  accurate1 (semilocal_V C U) (fun A B => type2_integrals fuel par bessel erf st true A B C U) (semilocal_error C U vA vB eps Qm) vA vB.
Proof.
  intros Hf HI (L0 & LA0 & LB0 & LA14 & LB14 & Na & Nb & PA & PB & HP & HE & DA & DB) He HQ HR.
  pose proof (plain_shell_of vA LA0) as SA. pose proof (plain_shell_of vB LB0) as SB. set (A := plain_shell vA) in *. set (B := plain_shell vB) in *.
  pose proof SA as SA'. pose proof SB as SB'. unfold shell_of in SA', SB'.
  set (L := Z.to_nat (pv_L U)). set (LA := Z.to_nat (v_L vA)). set (LB := Z.to_nat (v_L vB)).
  assert (EL : pv_L U = Z.of_nat L) by (unfold L; lia). assert (ELA : v_L vA = Z.of_nat LA) by (unfold LA; lia). assert (ELB : v_L vB = Z.of_nat LB) by (unfold LB; lia).
  rewrite ELA in SA', HP. rewrite ELB in SB', HP.
  destruct (type2_accurate fuel par bessel erf st A B C U L LA LB (v_origin vA) (v_origin vB) (v_prims vA) (v_prims vB) (canon (Z.of_nat LA)) (canon (Z.of_nat LB)) Hf HI SA' SB'
    (canon_nonempty (Z.of_nat LA) ltac:(lia)) (canon_nonempty (Z.of_nat LB) ltac:(lia)) Na Nb EL ltac:(lia) ltac:(lia) HP PA PB HE DA DB) as (t & v & Et & HV & HA).
  exists v. split.
  - intros A' B' HA' HB'. pose proof (content_same _ _ _ _ _ _ HA' SA) as CA. pose proof (content_same _ _ _ _ _ _ HB' SB) as CB.
    destruct (shell_counts _ _ HA' LA0 Na) as (ZA & NA). destruct (shell_counts _ _ HB' LB0 Nb) as (ZB & NB).
    intros M sz D Hsz. rewrite (type2_same fuel par bessel erf st true A' A B' B C U M CA CB ZA ZB NA NB). destruct CA as (_ & E1 & _). destruct CB as (_ & E2 & _). rewrite E1, E2 in *.
    destruct (HV M sz D Hsz) as (M' & E & F & _). exists M'. split; [exact E|exact F].
  - intros i j cA cB Hi Hj. rewrite ELA in Hi. rewrite ELB in Hj.
    assert (Et' : radial_of fuel par bessel erf A B (sub3 C (v_origin vA)) (sub3 C (v_origin vB)) U (v_L vA) (v_L vB) = Ok t) by (rewrite ELA, ELB; exact Et).
    destruct (HA eps Qm He HQ (HR A B t SA SB Et') i j cA cB Hi Hj) as (w & Hw & Bw). exists w. unfold phi_of. rewrite ELA, ELB. split; [exact Hw|].
    unfold semilocal_error. fold LA LB. rewrite EL, <- INR_IZR_INZ. exact Bw.
Qed.

Lemma spin_orbit_accurate fuel par bessel erf st C U vA vB eps Qm : (14 <= fuel)%nat -> init_tables st -> pair_ready C U vA vB -> 0 <= eps -> 0 <= Qm -> radial_error fuel par bessel erf C U vA vB eps Qm ->
  accurate3 (spin_orbit_V C U) (fun A B => spin_orbit_integrals fuel par bessel erf st true A B C U) (spin_orbit_error C U vA vB eps Qm) vA vB.
Proof.
  intros Hf HI (L0 & LA0 & LB0 & LA14 & LB14 & Na & Nb & PA & PB & HP & HE & DA & DB) He HQ HR.
  pose proof (plain_shell_of vA LA0) as SA. pose proof (plain_shell_of vB LB0) as SB. set (A := plain_shell vA) in *. set (B := plain_shell vB) in *.
  pose proof SA as SA'. pose proof SB as SB'. unfold shell_of in SA', SB'.
  set (L := Z.to_nat (pv_L U)). set (LA := Z.to_nat (v_L vA)). set (LB := Z.to_nat (v_L vB)).
  assert (EL : pv_L U = Z.of_nat L) by (unfold L; lia). assert (ELA : v_L vA = Z.of_nat LA) by (unfold LA; lia). assert (ELB : v_L vB = Z.of_nat LB) by (unfold LB; lia).
  rewrite ELA in SA', HP. rewrite ELB in SB', HP.
  destruct (Type2So.so_accurate fuel par bessel erf st A B C U L LA LB (v_origin vA) (v_origin vB) (v_prims vA) (v_prims vB) (canon (Z.of_nat LA)) (canon (Z.of_nat LB)) Hf HI SA' SB'
    (canon_nonempty (Z.of_nat LA) ltac:(lia)) (canon_nonempty (Z.of_nat LB) ltac:(lia)) Na Nb EL ltac:(lia) ltac:(lia) HP PA PB HE DA DB) as (t & Ws & v & Et & _ & HM & HV & HA).
  exists v. split.
  - intros A' B' HA' HB'. pose proof (content_same _ _ _ _ _ _ HA' SA) as CA. pose proof (content_same _ _ _ _ _ _ HB' SB) as CB.
    destruct (shell_counts _ _ HA' LA0 Na) as (ZA & NA). destruct (shell_counts _ _ HB' LB0 Nb) as (ZB & NB).
    intros M0 M1 M2 s0 s1 s2 D0 D1 D2 B0 B1 B2. rewrite (so_same fuel par bessel erf st true A' A B' B C U (M0, M1, M2) CA CB ZA ZB NA NB). destruct CA as (_ & E1 & _). destruct CB as (_ & E2 & _). rewrite E1, E2 in *.
    destruct (HV (M0, M1, M2) (fun k => if (k =? 0)%Z then s0 else if (k =? 1)%Z then s1 else s2)) as ([[M0' M1'] M2'] & E & F & _); [apply by3; assumption|apply by3; assumption|].
    exists M0', M1', M2'. split; [exact E|]. split; [exact (F 0%Z ltac:(lia))|]. split; [exact (F 1%Z ltac:(lia))|exact (F 2%Z ltac:(lia))].
  - intros k Hk i j cA cB Hi Hj. rewrite ELA in Hi. rewrite ELB in Hj.
    assert (Et' : radial_of fuel par bessel erf A B (sub3 C (v_origin vA)) (sub3 C (v_origin vB)) U (v_L vA) (v_L vB) = Ok t) by (rewrite ELA, ELB; exact Et).
    destruct (HA eps Qm He HQ (HR A B t SA SB Et') k i j cA cB Hk Hi Hj) as (w & Hw & Bw). exists w. unfold phi_of. rewrite ELA, ELB. split; [|exact Bw].
    exists (pick Ws k). split; [exact (HM k Hk)|exact Hw].
Qed.

(** ** The whole operator: the errors add up *)

(** a value that is the same for all buffers can be read off one call *)
Definition read1 (run : vshell -> vshell -> arr R -> res (arr R)) (vA vB : sview) (i j : Z) : R :=
  let A := plain_shell vA in let B := plain_shell vB in
  match run A B (aconst [sv_size A * sv_size B]%Z 0) with Ok M => cellv M [i * sv_size B + j]%Z | Fail _ => 0 end.
Definition read3 (run : vshell -> vshell -> arr R * arr R * arr R -> res (arr R * arr R * arr R)) (vA vB : sview) (k i j : Z) : R :=
  let A := plain_shell vA in let B := plain_shell vB in let z := aconst [sv_size A * sv_size B]%Z 0 in
  match run A B (z, z, z) with Ok Ms => cellv (pick Ms k) [i * sv_size B + j]%Z | Fail _ => 0 end.

Lemma sizes_plain A v : shell_of A v -> (0 <= v_L v)%Z -> sv_size A = sv_size (plain_shell v).
Proof. intros H HL. exact (proj1 (proj2 (content_same _ _ _ _ _ _ H (plain_shell_of v HL)))). Qed.

Lemma in_size v i c : nth_error (canon (v_L v)) i = Some c -> (0 <= Z.of_nat i < sv_size (plain_shell v))%Z.
Proof. intros H. assert (B : (i < length (canon (v_L v)))%nat) by (apply nth_error_Some; congruence). cbn [plain_shell sv_size]. lia. Qed.

Lemma accurate1_read V run e vA vB : (0 <= v_L vA)%Z -> (0 <= v_L vB)%Z -> accurate1 V run e vA vB ->
  (forall A B, shell_of A vA -> shell_of B vB -> gives1 (run A B) (sv_size A) (sv_size B) (read1 run vA vB)) /\ close1 V vA vB (read1 run vA vB) e.
Proof.
  intros LA LB (f & G & Q). pose proof (plain_shell_of vA LA) as SA. pose proof (plain_shell_of vB LB) as SB.
  assert (E : forall i j, (0 <= i < sv_size (plain_shell vA))%Z -> (0 <= j < sv_size (plain_shell vB))%Z -> read1 run vA vB i j = f i j).
  { intros i j Hi Hj. unfold read1. cbv zeta. destruct (G _ _ SA SB (aconst [sv_size (plain_shell vA) * sv_size (plain_shell vB)]%Z 0) _ eq_refl (Z.le_refl _)) as (M & -> & (_ & _ & F)). apply cellv_ok, F; assumption. }
  split.
  - intros A B HA HB M sz D Hsz. destruct (G A B HA HB M sz D Hsz) as (M' & E' & F). exists M'. split; [exact E'|]. eapply ismat_ext; [|exact F]. intros i j Hi Hj. symmetry. apply E; [rewrite <- (sizes_plain A vA HA LA)|rewrite <- (sizes_plain B vB HB LB)]; assumption.
  - intros i j cA cB Hi Hj. destruct (Q i j cA cB Hi Hj) as (v & Hv & Bv). exists v. split; [exact Hv|]. rewrite E; [exact Bv|exact (in_size vA i cA Hi)|exact (in_size vB j cB Hj)].
Qed.

Lemma accurate3_read V run e vA vB : (0 <= v_L vA)%Z -> (0 <= v_L vB)%Z -> accurate3 V run e vA vB ->
  (forall A B, shell_of A vA -> shell_of B vB -> gives3 (run A B) (sv_size A) (sv_size B) (read3 run vA vB)) /\ forall k, (0 <= k < 3)%Z -> close1 (V k) vA vB (read3 run vA vB k) e.
Proof.
  intros LA LB (f & G & Q). pose proof (plain_shell_of vA LA) as SA. pose proof (plain_shell_of vB LB) as SB.
  assert (E : forall k i j, (0 <= k < 3)%Z -> (0 <= i < sv_size (plain_shell vA))%Z -> (0 <= j < sv_size (plain_shell vB))%Z -> read3 run vA vB k i j = f k i j).
  { intros k i j Hk Hi Hj. unfold read3. cbv zeta. set (z := aconst [sv_size (plain_shell vA) * sv_size (plain_shell vB)]%Z 0).
    destruct (G _ _ SA SB z z z _ _ _ eq_refl eq_refl eq_refl (Z.le_refl _) (Z.le_refl _) (Z.le_refl _)) as (M0 & M1 & M2 & -> & (_ & _ & F0) & (_ & _ & F1) & (_ & _ & F2)). revert k Hk. apply by3; cbn [pick Z.eqb Pos.eqb]; apply cellv_ok; [apply F0|apply F1|apply F2]; assumption. }
  split.
  - intros A B HA HB M0 M1 M2 s0 s1 s2 D0 D1 D2 B0 B1 B2. destruct (G A B HA HB M0 M1 M2 s0 s1 s2 D0 D1 D2 B0 B1 B2) as (M0' & M1' & M2' & E' & F0 & F1 & F2). exists M0', M1', M2'. split; [exact E'|].
    split; [|split]; (eapply ismat_ext; [|eassumption]); intros i j Hi Hj; symmetry; (apply E; [lia|rewrite <- (sizes_plain A vA HA LA)|rewrite <- (sizes_plain B vB HB LB)]; assumption).
  - intros k Hk i j cA cB Hi Hj. destruct (Q k Hk i j cA cB Hi Hj) as (v & Hv & Bv). exists v. split; [exact Hv|]. rewrite E; [exact Bv|exact Hk|exact (in_size vA i cA Hi)|exact (in_size vB j cB Hj)].
Qed.

Lemma sum_close {T} (V : T -> fn3 -> fn3 -> R -> Prop) (l : list T) (x e : T -> R) f g : (forall U, In U l -> exists v, V U f g v /\ Rabs (x U - v) <= e U) ->
  exists v, element_sum V l f g v /\ Rabs (lsum x l - v) <= lsum e l.
Proof.
  induction l as [|U l IH]; intros H; cbn [element_sum].
  - exists 0. split; [reflexivity|]. unfold lsum. cbn [fold_right]. rewrite Rminus_0_r, Rabs_R0. apply Rle_refl.
  - destruct (H U (or_introl eq_refl)) as (a & Ha & Ba). destruct IH as (b & Hb & Bb); [intros U' Hin; apply H; right; exact Hin|]. exists (a + b). split; [exists a, b; auto|].
    unfold lsum in *. cbn [fold_right]. eapply Rle_trans; [|apply Rplus_le_compat; [exact Ba|exact Bb]]. eapply Rle_trans; [|apply Rabs_triang]. right. f_equal. ring.
Qed.

(** the error of component k, given those of the parts *)
Definition total_error (gv : gview) (e1 : R) (e2 e3 : vpot -> R) (e4 : R) (k : Z) : R :=
  (if (k =? -1)%Z then e1 + lsum e2 (gv_arep gv) else lsum (fun U => 2 / (2 * IZR (pv_L U) + 1) * e3 U) (gv_esop gv)) + e4.

Definition values_within (V : Z -> fn3 -> fn3 -> R -> Prop) (vA vB : sview) (f : Z -> Z -> Z -> R) (e : Z -> R) : Prop :=
  forall k, (-1 <= k < 3)%Z -> close1 (V k) vA vB (f k) (e k).

Lemma so_weight_eq U : so_weight U = 2 / (2 * IZR (pv_L U) + 1).
Proof. unfold so_weight. rewrite plus_IZR, mult_IZR. reflexivity. Qed.

Lemma parts_accurate rt C gv oc vA vB e1 e2 e3 e4 : (0 <= v_L vA)%Z -> (0 <= v_L vB)%Z -> null_is_zero rt -> 0 <= e1 ->
  (forall U, gv_local gv = Some U -> accurate1 (local_V C (pv_prims U)) (fun A B => rt_type1 rt A B C (Some U)) e1 vA vB) ->
  (forall U, In U (gv_arep gv) -> accurate1 (semilocal_V C U) (fun A B => rt_type2 rt A B C U) (e2 U) vA vB) ->
  (forall U, In U (gv_esop gv) -> (0 <= pv_L U)%Z /\ accurate3 (spin_orbit_V C U) (fun A B => rt_so rt A B C U) (e3 U) vA vB) ->
  accurate4 oc (fun A B => outercore_potential_integrals (rt_oc rt) A B C (gv_oc gv)) e4 vA vB ->
  exists v1 v2 v3 v4, (forall A B, shell_of A vA -> shell_of B vB -> component_values rt A B C gv v1 v2 v3 v4) /\ values_within (grpp_V C gv oc) vA vB (parts v1 v2 v3 v4 gv) (total_error gv e1 e2 e3 e4).
Proof.
  intros LA LB Nz He1 H1 H2 H3 (f4 & G4 & Q4).
  assert (Lc : accurate1 (local_part C (gv_local gv)) (fun A B => rt_type1 rt A B C (gv_local gv)) e1 vA vB).
  { destruct (gv_local gv) as [U|]; [exact (H1 U eq_refl)|]. exists (fun _ _ => 0). split; [intros A B HA HB; apply Nz; [exact (shell_size _ _ HA)|exact (shell_size _ _ HB)]|].
    intros i j cA cB _ _. exists 0. split; [reflexivity|]. rewrite Rminus_0_r, Rabs_R0. exact He1. }
  destruct Lc as (f1 & G1 & Q1).
  set (r2 := fun U => read1 (fun A B => rt_type2 rt A B C U) vA vB). set (r3 := fun U => read3 (fun A B => rt_so rt A B C U) vA vB).
  assert (K2 : forall U, In U (gv_arep gv) -> (forall A B, shell_of A vA -> shell_of B vB -> gives1 (rt_type2 rt A B C U) (sv_size A) (sv_size B) (r2 U)) /\ close1 (semilocal_V C U) vA vB (r2 U) (e2 U)).
  { intros U Hin. exact (accurate1_read _ _ _ _ _ LA LB (H2 U Hin)). }
  assert (K3 : forall U, In U (gv_esop gv) -> (forall A B, shell_of A vA -> shell_of B vB -> gives3 (rt_so rt A B C U) (sv_size A) (sv_size B) (r3 U)) /\ forall k, (0 <= k < 3)%Z -> close1 (spin_orbit_V C U k) vA vB (r3 U k) (e3 U)).
  { intros U Hin. exact (accurate3_read _ _ _ _ _ LA LB (proj2 (H3 U Hin))). }
  exists f1, r2, r3, f4. split.
  - intros A B HA HB. split; [apply G1; assumption|]. split; [intros U Hin; apply (K2 U Hin); assumption|]. split; [intros U Hin; apply (K3 U Hin); assumption|apply G4; assumption].
  - intros k Hk i j cA cB Hi Hj. unfold parts, grpp_V, total_error. destruct (Q4 k Hk i j cA cB Hi Hj) as (b & Hb & Bb). destruct (Z.eqb_spec k (-1)) as [-> |Hn].
    + destruct (Q1 i j cA cB Hi Hj) as (u & Hu & Bu). destruct (sum_close (semilocal_V C) (gv_arep gv) (fun U => r2 U (Z.of_nat i) (Z.of_nat j)) e2 (phi_of vA cA) (phi_of vB cB)) as (w & Hw & Bw).
      { intros U Hin. exact (proj2 (K2 U Hin) i j cA cB Hi Hj). }
      exists (u + w + b). split; [exists (u + w), b; split; [exact Hb|]; split; [reflexivity|]; exists u, w; auto|].
      eapply Rle_trans; [|apply Rplus_le_compat; [apply Rplus_le_compat; [exact Bu|exact Bw]|exact Bb]]. eapply Rle_trans; [|apply Rplus_le_compat_r, Rabs_triang]. eapply Rle_trans; [|apply Rabs_triang]. right. f_equal. ring.
    + destruct (sum_close (fun U f g x => exists w, spin_orbit_V C U k f g w /\ x = 2 / (2 * IZR (pv_L U) + 1) * w) (gv_esop gv) (fun U => so_weight U * r3 U k (Z.of_nat i) (Z.of_nat j)) (fun U => 2 / (2 * IZR (pv_L U) + 1) * e3 U) (phi_of vA cA) (phi_of vB cB)) as (w & Hw & Bw).
      { intros U Hin. destruct (H3 U Hin) as (L0 & _). destruct (proj2 (K3 U Hin) k ltac:(lia) i j cA cB Hi Hj) as (v & Hv & Bv). exists (2 / (2 * IZR (pv_L U) + 1) * v). split; [exists v; auto|].
        rewrite so_weight_eq, <- Rmult_minus_distr_l, Rabs_mult. apply IZR_le in L0. assert (W0 : 0 <= 2 / (2 * IZR (pv_L U) + 1)) by (apply Rle_mult_inv_pos; lra).
        rewrite (Rabs_pos_eq _ W0). apply Rmult_le_compat_l; [exact W0|exact Bv]. }
      exists (w + b). split; [exists w, b; split; [exact Hb|]; split; [reflexivity|exact Hw]|].
      eapply Rle_trans; [|apply Rplus_le_compat; [exact Bw|exact Bb]]. eapply Rle_trans; [|apply Rabs_triang]. right. f_equal. ring.
Qed.

Lemma values_evaluate rt C gv vA vB v1 v2 v3 v4 : (forall A B, shell_of A vA -> shell_of B vB -> component_values rt A B C gv v1 v2 v3 v4) -> evaluates rt C gv vA vB (parts v1 v2 v3 v4 gv).
Proof.
  intros H A B HA HB out szs F. pose proof (shell_size _ _ HA) as NA. pose proof (shell_size _ _ HB) as NB. destruct (H A B HA HB) as (H1 & H2 & H3 & H4).
  destruct (full_sum_ok rt A B C NA NB gv out szs v1 v2 v3 v4 F H1 H2 H3 H4) as (out' & E & _ & V'). exists out'. split; [exact E|exact V'].
Qed.
