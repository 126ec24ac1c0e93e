(** * C91: functions at the centre of the pseudopotential feel only the potentials of the angular momenta they contain *)

From Coq Require Import ZArith List Lia Bool Reals Lra.
From Coquelicot Require Import Coquelicot.
From Verif Require Import Base Loops Sums CartModel CartProofs HeapModel HeapProofs HeapSpec HeapGrpp OneElModel OneElProofs OneElPairs OneElSpec OneElThms
  GaussProd OneElInt NumSpec NucPotSpec NucPot SphModel SphSpec SphPoly SphProofs SphInt SphOrtho SphAngular SphSpan SphAdd SphThms UtilProofs OvGradModel OvDeriv OvGradProofs OvGradThms OutercoreModel OutercoreProofs OutercoreSpec OutercoreRadial OutercoreMain OutercoreThms
  MmdModel MmdSpec MmdMain MmdThms GrppModel GrppHeap GrppGrad GrppGrad2 GrppThms GrppGrad3 GrppTerm GrppTermGrad GrppLocal GrppOc
  LmatModel LmatProofs SphMomentum ParamsModel Type2Model Type2Spec Type2So Type2Main LocalSpec LocalAcc GrppOwnSpec GrppOwn GrppOwnThms GrppWitness Hermit Definite RotSphere RotProj RotLocal GrppRigid FiniteNuc PolarThms GrppOrder.
From Verif Require RigidPoly Rigid RigidThms Type2Radial Type2Proj Type2Proj PolarInt RadialTables.
Import ListNotations.
Open Scope R_scope.

(** ** Specification *)

(** the sum of the potentials of a list which act on angular momentum l *)
Definition of_degree (l : nat) (us : list vpot) (r : R) : R := lsum (fun U => if (Z.to_nat (pv_L U) =? l)%nat then radial_potential (pv_prims U) r else 0) us.

(** the potential which the averaged part of the operator has for angular momentum l *)
Definition channel (gv : gview) (l : nat) (r : R) : R := local_value (gv_local gv) r + of_degree l (gv_arep gv) r.

(** the angular momenta l = L, L - 2, ... contained in x^i y^j z^k with i + j + k = L *)
Definition contained (L : Z) (l : nat) : Prop := exists q, (0 <= q)%Z /\ L = (Z.of_nat l + 2 * q)%Z.

(** ** Expansion on the sphere *)
Lemma span_expand d f : span d f -> exists w : nat -> Z -> R,
  (forall l m, (Z.abs m <= Z.of_nat l)%Z -> sphere_int (fun x y z => f x y z * real_sph l m x y z) (w l m)) /\
  (forall l m, (Z.abs m <= Z.of_nat l)%Z -> (d < l)%nat \/ Nat.even (d - l) = false -> w l m = 0) /\
  (forall x y z, x ^ 2 + y ^ 2 + z ^ 2 = 1 -> f x y z = rsum (S d) (fun l => if Nat.even (d - l) then ybar l (w l) x y z else 0)).
Proof.
  intros H. induction H as [l m Hl He Hm| |f g p q H1 (w1 & A1 & Z1 & W1) H2 (w2 & A2 & Z2 & W2)|f g E _ (w & A & Z0 & W)].
  - exists (fun l' m' => if (Nat.eqb l l' && Z.eqb m m')%bool then 1 else 0). split; [|split].
    + intros l' m' Hm'. exact (orthonormal l l' m m' Hm Hm').
    + intros l' m' Hm' Hz. destruct (Nat.eqb_spec l l') as [->|]; [|reflexivity]. destruct Hz as [Hz|Hz]; [lia|congruence].
    + intros x y z Hu. rewrite (rsum_delta (S d) l); [|lia|].
      * rewrite He. unfold ybar. rewrite (zsum_delta _ _ m); [rewrite Nat.eqb_refl, Z.eqb_refl; cbn [andb]; ring|lia|]. intros i Hi Hn. rewrite Nat.eqb_refl, (proj2 (Z.eqb_neq m i)) by auto. cbn [andb]. ring.
      * intros i Hi Hn. destruct (Nat.even (d - i)); [|reflexivity]. unfold ybar. rewrite zsum_zero; [ring|]. intros j Hj. rewrite (proj2 (Nat.eqb_neq l i)) by auto. cbn [andb]. ring.
  - exists (fun _ _ => 0). split; [|split].
    + intros l m _. eapply sphere_ext; [|apply sphere_zero]. intros; cbv beta; ring.
    + reflexivity.
    + intros x y z _. rewrite rsum_zero; [ring|]. intros l _. destruct (Nat.even (d - l)); [|reflexivity]. unfold ybar. rewrite zsum_zero; [ring|]. intros; ring.
  - exists (fun l m => p * w1 l m + q * w2 l m). split; [|split].
    + intros l m Hm. eapply sphere_ext; [|apply (sphere_lin _ _ _ _ p q (A1 l m Hm) (A2 l m Hm))]. intros; cbv beta; ring.
    + intros l m Hm Hz. rewrite (Z1 l m Hm Hz), (Z2 l m Hm Hz). ring.
    + intros x y z Hu. rewrite (W1 x y z Hu), (W2 x y z Hu). rewrite <- !rsum_scal, <- rsum_plus. apply rsum_ext. intros l _. destruct (Nat.even (d - l)); [|ring]. unfold ybar. rewrite <- zsum_lin. apply zsum_ext. intros; ring.
  - exists w. split; [|split; [exact Z0|]].
    + intros l m Hm. eapply sphere_ext; [|apply (A l m Hm)]. intros x y z Hu; cbv beta; rewrite (E _ _ _ Hu); reflexivity.
    + intros x y z Hu. rewrite <- (E _ _ _ Hu). apply W, Hu.
Qed.

Lemma sphere_rsum n (f : nat -> R -> R -> R -> R) (v : nat -> R) : (forall i, (i < n)%nat -> sphere_int (f i) (v i)) -> sphere_int (fun x y z => rsum n (fun i => f i x y z)) (rsum n v).
Proof.
  intros H. induction n as [|n IH]; [apply sphere_zero|]. cbn [rsum]. eapply sphere_val; [eapply sphere_ext; [|apply (sphere_lin _ _ _ _ 1 1 (IH ltac:(intros; apply H; lia)) (H n ltac:(lia)))]|]; [intros; cbv beta; ring|ring].
Qed.

Lemma parseval d f (w : nat -> Z -> R) G (Q : nat -> Z -> R) : (forall x y z, x ^ 2 + y ^ 2 + z ^ 2 = 1 -> f x y z = rsum (S d) (fun l => if Nat.even (d - l) then ybar l (w l) x y z else 0)) ->
  (forall l m, (l <= d)%nat -> (Z.abs m <= Z.of_nat l)%Z -> sphere_int (fun x y z => G x y z * real_sph l m x y z) (Q l m)) ->
  sphere_int (fun x y z => f x y z * G x y z) (rsum (S d) (fun l => if Nat.even (d - l) then zsum (- Z.of_nat l) (Z.of_nat l + 1) (fun m => w l m * Q l m) else 0)).
Proof.
  intros Hf HG. eapply sphere_ext; [|apply (sphere_rsum (S d) (fun l x y z => if Nat.even (d - l) then zsum (- Z.of_nat l) (Z.of_nat l + 1) (fun m => w l m * (G x y z * real_sph l m x y z)) else 0))].
  - intros x y z Hu. cbv beta. rewrite (Hf x y z Hu), Rmult_comm, <- rsum_scal. apply rsum_ext. intros l _. destruct (Nat.even (d - l)); [|ring]. unfold ybar. rewrite <- zsum_scal. apply zsum_ext. intros; ring.
  - intros l Hl. destruct (Nat.even (d - l)); [|apply sphere_zero]. apply (sphere_zsum (- Z.of_nat l) (Z.of_nat l + 1) (fun m x y z => w l m * (G x y z * real_sph l m x y z)) (fun m => w l m * Q l m)). intros m Hm. apply sphere_scal, HG; lia.
Qed.

(** the value of an integral over the sphere *)
Definition sphere_of (f : R -> R -> R -> R) : R := RInt (fun p => RInt (fun t : R => f (sin t * cos p) (sin t * sin p) (cos t) * sin t) 0 PI) 0 (2 * PI).
Lemma sphere_of_val f v : sphere_int f v -> sphere_of f = v.
Proof.
  intros (g & G1 & G2). unfold sphere_of. rewrite (RInt_ext (V := R_CompleteNormedModule) _ g); [apply (is_RInt_unique (V := R_CompleteNormedModule)); exact G2|]. intros p _. apply (is_RInt_unique (V := R_CompleteNormedModule)). apply G1.
Qed.

Lemma angular_at C f g s : angular_part C (fun x y z => f x y z * g x y z) s -> forall r, 0 < r -> sphere_int (fun x y z => at_C C f r x y z * at_C C g r x y z) (s r).
Proof. destruct C as [[cx cy] cz]. intros H. exact H. Qed.

Lemma projection_at l m C f P : projection l m C f P -> forall r, 0 < r -> sphere_int (fun x y z => at_C C f r x y z * real_sph l m x y z) (P r).
Proof. destruct C as [[cx cy] cz]. intros H. exact H. Qed.

(** ** Functions at the centre *)
Section Centre.
Variables (C : R * R * R) (d : nat) (f g : fn3) (R0 : R -> R) (F : R -> R -> R -> R) (w : nat -> Z -> R).
Hypothesis Hf : forall r x y z, 0 < r -> x ^ 2 + y ^ 2 + z ^ 2 = 1 -> at_C C f r x y z = R0 r * F x y z.
Hypothesis Hw : forall l m, (Z.abs m <= Z.of_nat l)%Z -> sphere_int (fun x y z => F x y z * real_sph l m x y z) (w l m).
Hypothesis Hz : forall l m, (Z.abs m <= Z.of_nat l)%Z -> (d < l)%nat \/ Nat.even (d - l) = false -> w l m = 0.
Hypothesis HF : forall x y z, x ^ 2 + y ^ 2 + z ^ 2 = 1 -> F x y z = rsum (S d) (fun l => if Nat.even (d - l) then ybar l (w l) x y z else 0).
Hypothesis Gg : gpn 9 g.
Hypothesis Hd : (d <= 9)%nat.

Definition Pc (l : nat) (m : Z) (r : R) : R := R0 r * w l m.
Definition Qc (l : nat) (m : Z) (r : R) : R := sphere_of (fun x y z => at_C C g r x y z * real_sph l m x y z).
Definition dotc (W : nat -> Z -> Z -> R) (l : nat) (r : R) : R := zsum (- Z.of_nat l) (Z.of_nat l + 1) (fun m1 => zsum (- Z.of_nat l) (Z.of_nat l + 1) (fun m2 => Pc l m1 r * W l m1 m2 * Qc l m2 r)).
Definition dot1 (l : nat) (r : R) : R := zsum (- Z.of_nat l) (Z.of_nat l + 1) (fun m => Pc l m r * Qc l m r).

Lemma P_ok l m r : 0 < r -> (Z.abs m <= Z.of_nat l)%Z -> sphere_int (fun x y z => at_C C f r x y z * real_sph l m x y z) (Pc l m r).
Proof. intros Hr Hm. eapply sphere_ext; [|apply (sphere_scal _ _ (R0 r) (Hw l m Hm))]. intros x y z Hu. cbv beta. rewrite (Hf r x y z Hr Hu). ring. Qed.

Lemma P_zero l m r : (Z.abs m <= Z.of_nat l)%Z -> (d < l)%nat \/ Nat.even (d - l) = false -> Pc l m r = 0.
Proof. intros Hm H. unfold Pc. rewrite (Hz l m Hm H). ring. Qed.

Lemma Q_ok l m r : (l <= d)%nat -> (Z.abs m <= Z.of_nat l)%Z -> sphere_int (fun x y z => at_C C g r x y z * real_sph l m x y z) (Qc l m r).
Proof.
  intros Hl Hm. assert (HO : RigidPoly.orthogonal RigidPoly.delta).
  { split; intros i k Hi Hk; assert (Ei : (i = 0 \/ i = 1 \/ i = 2)%Z) by lia; assert (Ek : (k = 0 \/ k = 1 \/ k = 2)%Z) by lia;
      destruct Ei as [-> | [-> | ->]]; destruct Ek as [-> | [-> | ->]]; unfold RigidPoly.sum3, RigidPoly.delta; cbn; ring. }
  destruct (gpn_wave RigidPoly.delta g C r l m 9 HO Gg ltac:(lia) Hm) as (v & A & _).
  assert (E : sphere_int (fun x y z => at_C C g r x y z * real_sph l m x y z) v) by (destruct C as [[cx cy] cz]; exact A). unfold Qc. rewrite (sphere_of_val _ _ E). exact E.
Qed.

Lemma dotc_zero W l r : (d < l)%nat \/ Nat.even (d - l) = false -> dotc W l r = 0.
Proof. intros H. unfold dotc. apply zsum_zero. intros m1 H1. apply zsum_zero. intros m2 H2. rewrite (P_zero l m1 r ltac:(lia) H). ring. Qed.
Lemma dot1_zero l r : (d < l)%nat \/ Nat.even (d - l) = false -> dot1 l r = 0.
Proof. intros H. unfold dot1. apply zsum_zero. intros m1 H1. rewrite (P_zero l m1 r ltac:(lia) H). ring. Qed.

Lemma semilocal_dot U v : semilocal_V C U f g v -> half_int (fun r => r ^ 2 * (radial_potential (pv_prims U) r * dot1 (Z.to_nat (pv_L U)) r)) v.
Proof.
  intros (P & Q & HP & HQ & H). eapply half_ext; [|exact H]. intros r Hr. cbv beta. rewrite Rmult_assoc. f_equal. f_equal. unfold dot1. apply zsum_ext. intros m Hm. f_equal.
  - apply (sphere_uniq _ _ _ (projection_at _ _ _ _ _ (HP m ltac:(lia)) r Hr) (P_ok (Z.to_nat (pv_L U)) m r Hr ltac:(lia))).
  - symmetry. unfold Qc. apply sphere_of_val. exact (projection_at _ _ _ _ _ (HQ m ltac:(lia)) r Hr).
Qed.

Lemma spin_orbit_dot k U v : (0 <= k < 3)%Z -> spin_orbit_V C U k f g v -> half_int (fun r => r ^ 2 * (radial_potential (pv_prims U) r * dotc (Wk k) (Z.to_nat (pv_L U)) r)) v.
Proof.
  intros Hk (W & HW & P & Q & HP & HQ & H). eapply half_ext; [|exact H]. intros r Hr. cbv beta. rewrite Rmult_assoc. f_equal. f_equal. unfold dotc. apply zsum_ext. intros m1 H1. apply zsum_ext. intros m2 H2.
  rewrite (momentum_unique _ k _ _ HW (Wk_momentum (Z.to_nat (pv_L U)) k Hk) m1 m2 ltac:(lia) ltac:(lia)). f_equal; [f_equal|].
  - apply (sphere_uniq _ _ _ (projection_at _ _ _ _ _ (HP m1 ltac:(lia)) r Hr) (P_ok (Z.to_nat (pv_L U)) m1 r Hr ltac:(lia))).
  - symmetry. unfold Qc. apply sphere_of_val. exact (projection_at _ _ _ _ _ (HQ m2 ltac:(lia)) r Hr).
Qed.

(** collecting the potentials by angular momentum *)
Lemma by_degree (us : list vpot) (c : nat -> R) (D : nat -> R) r : (forall l, (d < l)%nat \/ Nat.even (d - l) = false -> D l = 0) ->
  lsum (fun U => c (Z.to_nat (pv_L U)) * (radial_potential (pv_prims U) r * D (Z.to_nat (pv_L U)))) us = rsum (S d) (fun l => if Nat.even (d - l) then c l * (of_degree l us r * D l) else 0).
Proof.
  intros HD. induction us as [|U us IH].
  - unfold lsum at 1. cbn [fold_right]. symmetry. apply rsum_zero. intros l _. destruct (Nat.even (d - l)); [|reflexivity]. unfold of_degree, lsum. cbn [fold_right]. ring.
  - rewrite lsum_cons, IH. set (n := Z.to_nat (pv_L U)). set (u := radial_potential (pv_prims U) r).
    assert (E : c n * (u * D n) = rsum (S d) (fun l => if Nat.even (d - l) then c l * ((if (n =? l)%nat then u else 0) * D l) else 0)).
    { destruct (le_lt_dec n d) as [Hn|Hn].
      - rewrite (rsum_delta (S d) n); [|lia|].
        + rewrite Nat.eqb_refl. destruct (Nat.even (d - n)) eqn:Ev; [reflexivity|]. rewrite (HD n (or_intror Ev)). ring.
        + intros i _ Hi. rewrite (proj2 (Nat.eqb_neq n i)) by auto. destruct (Nat.even (d - i)); ring.
      - rewrite (HD n (or_introl Hn)), rsum_zero; [ring|]. intros i Hi. rewrite (proj2 (Nat.eqb_neq n i)) by lia. destruct (Nat.even (d - i)); ring. }
    rewrite E, <- rsum_plus. apply rsum_ext. intros l _. destruct (Nat.even (d - l)); [|ring]. unfold of_degree. rewrite lsum_cons. fold n u. ring.
Qed.

Lemma sum_dot {V : vpot -> fn3 -> fn3 -> R -> Prop} (c : nat -> R) (D : nat -> R -> R) us v : (forall U a, In U us -> V U f g a -> half_int (fun r => r ^ 2 * (c (Z.to_nat (pv_L U)) * (radial_potential (pv_prims U) r * D (Z.to_nat (pv_L U)) r))) a) ->
  element_sum V us f g v -> half_int (fun r => r ^ 2 * lsum (fun U => c (Z.to_nat (pv_L U)) * (radial_potential (pv_prims U) r * D (Z.to_nat (pv_L U)) r)) us) v.
Proof.
  revert v. induction us as [|U us IH]; intros v HV H; cbn [element_sum] in H.
  - subst v. eapply half_ext; [|apply Type2Radial.half_zero]. intros r _. unfold lsum. cbn [fold_right]. ring.
  - destruct H as (a & b & Ha & Hb & ->). eapply half_ext; [|apply (half_plus _ _ _ _ (HV U a (or_introl eq_refl) Ha) (IH b (fun U' a' Hin => HV U' a' (or_intror Hin)) Hb))]. intros r _. cbv beta. rewrite lsum_cons. ring.
Qed.

Lemma local_dot U v : gpn 9 f -> exps_ok U -> local_part C U f g v -> half_int (fun r => r ^ 2 * (local_value U r * rsum (S d) (fun l => if Nat.even (d - l) then dot1 l r else 0))) v.
Proof.
  intros Gf HX H.
  assert (HS : forall r, 0 < r -> sphere_int (fun x y z => at_C C f r x y z * at_C C g r x y z) (rsum (S d) (fun l => if Nat.even (d - l) then dot1 l r else 0))).
  { intros r Hr. pose proof (parseval d F w (at_C C g r) (fun l m => Qc l m r) HF (fun l m Hl Hm => Q_ok l m r Hl Hm)) as A. eapply sphere_val; [eapply sphere_ext; [|apply (sphere_scal _ _ (R0 r) A)]|].
    - intros x y z Hu. cbv beta. rewrite (Hf r x y z Hr Hu). ring.
    - rewrite <- rsum_scal. apply rsum_ext. intros l _. destruct (Nat.even (d - l)); [|ring]. unfold dot1. rewrite <- zsum_scal. apply zsum_ext. intros m _. unfold Pc. ring. }
  destruct U as [U|]; cbn [local_part local_value] in *.
  - destruct (pot_space (9 + 9) (fun x y z => f x y z * g x y z) C (pv_prims U) v (gpn_mul 9 9 f g Gf Gg) ltac:(lia) (fun n c a Hin => HX U eq_refl n c a Hin) H) as (s & A & B).
    eapply half_ext; [|exact B]. intros r Hr. cbv beta. rewrite radial_forms. assert (E : s r = rsum (S d) (fun l => if Nat.even (d - l) then dot1 l r else 0)); [|rewrite E; ring].
    apply (sphere_uniq _ _ _) with (2 := HS r Hr). exact (angular_at _ _ _ _ A r Hr).
  - subst v. eapply half_ext; [|apply Type2Radial.half_zero]. intros r _. cbv beta. ring.
Qed.

Lemma channel_value gv os delta W v : gpn 9 f -> gv_fine 9 gv -> grpp_V C gv (oc_V C os delta W) (-1) f g v ->
  exists b, oc_V C os delta W (-1) f g b /\ half_int (fun r => r ^ 2 * rsum (S d) (fun l => if Nat.even (d - l) then channel gv l r * dot1 l r else 0)) (v - b).
Proof.
  intros Gf (HX & _) (a & b & Hb & Ev & u & s & Hu & Hs & Ea). exists b. split; [exact Hb|]. replace (v - b) with (u + s) by lra.
  assert (H2 : half_int (fun r => r ^ 2 * lsum (fun U => 1 * (radial_potential (pv_prims U) r * dot1 (Z.to_nat (pv_L U)) r)) (gv_arep gv)) s).
  { apply (sum_dot (V := semilocal_V C) (fun _ => 1) dot1); [|exact Hs]. intros U x _ Hx. eapply half_ext; [|apply (semilocal_dot U x Hx)]. intros r _. cbv beta. ring. }
  eapply half_ext; [|apply (half_plus _ _ _ _ (local_dot (gv_local gv) u Gf HX Hu) H2)]. intros r Hr. cbv beta.
  rewrite (by_degree (gv_arep gv) (fun _ => 1) (fun l => dot1 l r) r (fun l H => dot1_zero l r H)). rewrite <- Rmult_plus_distr_l. f_equal. rewrite <- rsum_scal, <- rsum_plus. apply rsum_ext. intros l _. destruct (Nat.even (d - l)); [|ring]. unfold channel. ring.
Qed.

Lemma so_channel_value gv os delta W k v : (0 <= k < 3)%Z -> (forall U, In U (gv_esop gv) -> 0 <= pv_L U)%Z -> grpp_V C gv (oc_V C os delta W) k f g v ->
  exists b, oc_V C os delta W k f g b /\ half_int (fun r => r ^ 2 * rsum (S d) (fun l => if Nat.even (d - l) then 2 / (2 * IZR (Z.of_nat l) + 1) * (of_degree l (gv_esop gv) r * dotc (Wk k) l r) else 0)) (v - b).
Proof.
  intros Hk HL (a & b & Hb & Ev & H). rewrite (proj2 (Z.eqb_neq k (-1))) in H by lia. exists b. split; [exact Hb|]. replace (v - b) with a by lra.
  eapply half_ext; [|apply (sum_dot (V := fun U f g x => exists s, spin_orbit_V C U k f g s /\ x = 2 / (2 * IZR (pv_L U) + 1) * s) (fun l => 2 / (2 * IZR (Z.of_nat l) + 1)) (dotc (Wk k)) (gv_esop gv) a); [|exact H]].
  - intros r _. cbv beta. f_equal. apply (by_degree (gv_esop gv) (fun l => 2 / (2 * IZR (Z.of_nat l) + 1)) (fun l => dotc (Wk k) l r) r (fun l H => dotc_zero (Wk k) l r H)).
  - intros U x Hin (s & Hs & ->). rewrite (Z2Nat.id _ (HL U Hin)). eapply half_ext; [|apply (half_scal (2 / (2 * IZR (pv_L U) + 1)) _ _ (spin_orbit_dot k U s Hk Hs))]. intros r _. cbv beta. ring.
Qed.
End Centre.

(** a component of a shell at the centre *)
Lemma centred_form v c : nonneg3 c -> (let '(n, l, m) := c in n + l + m = v_L v)%Z -> exists R0 F, span (Z.to_nat (v_L v)) F /\
  forall r x y z, 0 < r -> x ^ 2 + y ^ 2 + z ^ 2 = 1 -> at_C (v_origin v) (phi_of v c) r x y z = R0 r * F x y z.
Proof.
  destruct c as [[n l] m]. unfold nonneg3. intros Hn Hs. exists (fun r => r ^ Z.to_nat (v_L v) * lsum (fun '(cf, a) => cf * norm_L (v_L v) a * exp (- (a * r ^ 2))) (v_prims v)), (mono3 (Z.to_nat n) (Z.to_nat l) (Z.to_nat m)).
  replace (Z.to_nat (v_L v)) with (Z.to_nat n + Z.to_nat l + Z.to_nat m)%nat by lia. split; [apply mono_span|]. intros r x y z _ Hu. unfold phi_of, phi, at_C. destruct (v_origin v) as [[ox oy] oz]. unfold mono3.
  match goal with |- _ = ?a * lsum _ _ * ?b => transitivity (lsum (fun p : R * R => (a * b) * (let '(cf, al) := p in cf * norm_L (v_L v) al * exp (- (al * r ^ 2)))) (v_prims v)); [|rewrite lsum_scal; ring] end.
  apply lsum_ext. intros [cf a] _. unfold gto.
  replace (ox + r * x - ox) with (r * x) by ring. replace (oy + r * y - oy) with (r * y) by ring. replace (oz + r * z - oz) with (r * z) by ring.
  replace (a * (r * x * (r * x) + r * y * (r * y) + r * z * (r * z))) with (a * (r ^ 2 * (x ^ 2 + y ^ 2 + z ^ 2))) by ring. rewrite Hu, Rmult_1_r, !Rpow_mult_distr, !pow_add. ring.
Qed.

Lemma contained_iff L l d : L = Z.of_nat d -> (l <= d)%nat -> Nat.even (d - l) = true -> contained L l.
Proof. intros -> Hl He. apply Nat.even_spec in He. destruct He as (q & Hq). exists (Z.of_nat q). lia. Qed.

Lemma contained_dec L l : {contained L l} + {~ contained L l}.
Proof.
  destruct (Z_le_dec (Z.of_nat l) L) as [H|H]; [|right; intros (q & Hq); lia]. destruct (Z.even (L - Z.of_nat l)) eqn:E.
  - left. apply Z.even_spec in E. destruct E as (q & Hq). exists q. lia.
  - right. intros (q & Hq & Hs). replace (L - Z.of_nat l)%Z with (2 * q)%Z in E by lia. rewrite Z.even_mul in E. discriminate.
Qed.

Lemma same_point (A C : R * R * R) : {A = C} + {A <> C}.
Proof. destruct A as [[a b] c], C as [[a' b'] c']. destruct (Req_EM_T a a'); [|right; congruence]. destruct (Req_EM_T b b'); [|right; congruence]. destruct (Req_EM_T c c'); [left; congruence|right; congruence]. Qed.

(** the projections which the degree excludes *)
Lemma outside_zero v c l m r : nonneg3 c -> (let '(n, l, m) := c in n + l + m = v_L v)%Z -> ~ contained (v_L v) l -> 0 < r -> (Z.abs m <= Z.of_nat l)%Z ->
  sphere_int (fun x y z => at_C (v_origin v) (phi_of v c) r x y z * real_sph l m x y z) 0.
Proof.
  intros Hn Hs Hc Hr Hm. destruct (centred_form v c Hn Hs) as (R0 & F & HS & HE). destruct (span_expand _ F HS) as (w & Hw & Hz & HF). assert (HL : (0 <= v_L v)%Z) by (destruct c as [[a b] e]; unfold nonneg3 in Hn; lia).
  eapply sphere_val; [apply (P_ok (v_origin v) (phi_of v c) R0 F w HE Hw l m r Hr Hm)|]. unfold Pc. rewrite (Hz l m Hm); [ring|]. destruct (le_lt_dec l (Z.to_nat (v_L v))) as [Hl|Hl]; [right|left; exact Hl].
  destruct (Nat.even (Z.to_nat (v_L v) - l)) eqn:E; [|reflexivity]. exfalso. apply Hc. apply (contained_iff _ _ (Z.to_nat (v_L v))); [lia|exact Hl|exact E].
Qed.

(** ** Two operators which agree on the angular momenta of the bra *)
Lemma same_channels C gv gv' os delta W v c g x x' : v_origin v = C -> (0 <= v_L v <= 9)%Z -> exps_pos v -> nonneg3 c -> (let '(n, l, m) := c in n + l + m = v_L v)%Z -> gpn 9 g -> gv_fine 9 gv -> gv_fine 9 gv' ->
  (forall l r, contained (v_L v) l -> 0 < r -> channel gv l r = channel gv' l r \/ (forall m, (Z.abs m <= Z.of_nat l)%Z -> sphere_int (fun x y z => at_C C g r x y z * real_sph l m x y z) 0)) ->
  grpp_V C gv (oc_V C os delta W) (-1) (phi_of v c) g x -> grpp_V C gv' (oc_V C os delta W) (-1) (phi_of v c) g x' -> x = x'.
Proof.
  intros EC HL HX Hn Hs Gg Fg Fg' HC H H'. destruct (centred_form v c Hn Hs) as (R0 & F & HS & HE). rewrite EC in HE. destruct (span_expand _ F HS) as (w & Hw & Hz & HF). pose proof (phi_gpn v c HL HX Hn Hs) as Gf.
  destruct (channel_value C (Z.to_nat (v_L v)) (phi_of v c) g R0 F w HE Hw Hz HF Gg ltac:(lia) gv os delta W x Gf Fg H) as (b & Hb & I).
  destruct (channel_value C (Z.to_nat (v_L v)) (phi_of v c) g R0 F w HE Hw Hz HF Gg ltac:(lia) gv' os delta W x' Gf Fg' H') as (b' & Hb' & I').
  rewrite (oc_unique _ _ _ _ _ _ _ _ _ Hb' Hb) in I'. assert (x - b = x' - b); [|lra]. eapply RadialTables.half_int_unique; [exact I|]. eapply half_ext; [|exact I']. intros r Hr. cbv beta. f_equal. apply rsum_ext. intros l Hl. destruct (Nat.even (Z.to_nat (v_L v) - l)) eqn:Ev; [|reflexivity].
  destruct (HC l r (contained_iff (v_L v) l (Z.to_nat (v_L v)) ltac:(lia) ltac:(lia) Ev) Hr) as [E|E]; [rewrite E; reflexivity|].
  assert (Z0 : dot1 C g R0 w l r = 0); [|rewrite Z0; ring]. unfold dot1. apply zsum_zero. intros m Hm. unfold Qc. rewrite (sphere_of_val _ _ (E m ltac:(lia))). ring.
Qed.

Lemma same_so_channels C gv gv' os delta W k v c g x x' : (0 <= k < 3)%Z -> v_origin v = C -> (0 <= v_L v <= 9)%Z -> nonneg3 c -> (let '(n, l, m) := c in n + l + m = v_L v)%Z ->
  (forall U, In U (gv_esop gv ++ gv_esop gv') -> 0 <= pv_L U)%Z -> (forall l r, contained (v_L v) l -> 0 < r -> of_degree l (gv_esop gv) r = of_degree l (gv_esop gv') r \/ (forall m, (Z.abs m <= Z.of_nat l)%Z -> sphere_int (fun x y z => at_C C g r x y z * real_sph l m x y z) 0)) ->
  grpp_V C gv (oc_V C os delta W) k (phi_of v c) g x -> grpp_V C gv' (oc_V C os delta W) k (phi_of v c) g x' -> x = x'.
Proof.
  intros Hk EC HL Hn Hs HU HC H H'. destruct (centred_form v c Hn Hs) as (R0 & F & HS & HE). rewrite EC in HE. destruct (span_expand _ F HS) as (w & Hw & Hz & HF).
  destruct (so_channel_value C (Z.to_nat (v_L v)) (phi_of v c) g R0 F w HE Hw Hz ltac:(lia) gv os delta W k x Hk ltac:(intros U Hin; apply HU, in_app_iff; left; exact Hin) H) as (b & Hb & I).
  destruct (so_channel_value C (Z.to_nat (v_L v)) (phi_of v c) g R0 F w HE Hw Hz ltac:(lia) gv' os delta W k x' Hk ltac:(intros U Hin; apply HU, in_app_iff; right; exact Hin) H') as (b' & Hb' & I').
  rewrite (oc_unique _ _ _ _ _ _ _ _ _ Hb' Hb) in I'. assert (x - b = x' - b); [|lra]. eapply RadialTables.half_int_unique; [exact I|]. eapply half_ext; [|exact I']. intros r Hr. cbv beta. f_equal. apply rsum_ext. intros l Hl. destruct (Nat.even (Z.to_nat (v_L v) - l)) eqn:Ev; [|reflexivity].
  destruct (HC l r (contained_iff (v_L v) l (Z.to_nat (v_L v)) ltac:(lia) ltac:(lia) Ev) Hr) as [E|E]; [rewrite E; reflexivity|].
  assert (Z0 : dotc C g R0 w (Wk k) l r = 0); [|rewrite Z0; ring]. unfold dotc. apply zsum_zero. intros m1 H1. apply zsum_zero. intros m2 H2. unfold Qc. rewrite (sphere_of_val _ _ (E m2 ltac:(lia))). ring.
Qed.

(** the angular momenta which two basis functions have in common around C *)
Definition shared (C : R * R * R) (vA vB : sview) (l : nat) : Prop := (v_origin vA = C -> contained (v_L vA) l) /\ (v_origin vB = C -> contained (v_L vB) l).
(** component k of the two operators agrees for angular momentum l *)
Definition agree (k : Z) (gv gv' : gview) (l : nat) : Prop :=
  forall r, 0 < r -> if (k =? -1)%Z then channel gv l r = channel gv' l r else of_degree l (gv_esop gv) r = of_degree l (gv_esop gv') r.

Lemma bf_component h t : bf_ok h t -> nonneg3 (b_comp t) /\ (let '(n, l, m) := b_comp t in n + l + m = v_L (b_v t))%Z /\ (0 <= v_L (b_v t) <= 9)%Z /\ exps_pos (b_v t).
Proof.
  intros (S & L & X & B). destruct (GrppRigid.comp_in h _ _ _ (b_comp t) S (nth_In _ _ B)) as (N & Sm). split; [exact N|]. split; [exact Sm|]. split; [|exact X]. destruct (b_comp t) as [[n l] m]. unfold nonneg3 in N. lia.
Qed.

Lemma bra_values C gv gv' os delta h t u k x x' : (-1 <= k < 3)%Z -> bf_ok h t -> bf_ok h u -> gv_fine 9 gv -> gv_fine 9 gv' -> (forall U, In U (gv_esop gv ++ gv_esop gv') -> 0 <= pv_L U)%Z ->
  v_origin (b_v t) = C -> (forall l, shared C (b_v t) (b_v u) l -> agree k gv gv' l) ->
  grpp_V C gv (oc_V C os delta Wk) k (phi_of (b_v t) (b_comp t)) (phi_of (b_v u) (b_comp u)) x -> grpp_V C gv' (oc_V C os delta Wk) k (phi_of (b_v t) (b_comp t)) (phi_of (b_v u) (b_comp u)) x' -> x = x'.
Proof.
  intros Hk Bt Bu F F' HU Et HC H H'. destruct (bf_component h t Bt) as (Nt & St & Lt & Xt). destruct (bf_component h u Bu) as (Nu & Su & Lu & Xu). pose proof (phi_gpn _ _ Lu Xu Nu Su) as Gu.
  assert (HC' : forall l r, contained (v_L (b_v t)) l -> 0 < r -> (if (k =? -1)%Z then channel gv l r = channel gv' l r else of_degree l (gv_esop gv) r = of_degree l (gv_esop gv') r) \/
    (forall m, (Z.abs m <= Z.of_nat l)%Z -> sphere_int (fun x y z => at_C C (phi_of (b_v u) (b_comp u)) r x y z * real_sph l m x y z) 0)).
  { intros l r Hl Hr. destruct (same_point (v_origin (b_v u)) C) as [Eu|Nn].
    - destruct (contained_dec (v_L (b_v u)) l) as [Cu|Cu]; [left; apply HC; [split; intros _; assumption|exact Hr]|]. right. intros m Hm. rewrite <- Eu. apply outside_zero; assumption.
    - left. apply HC; [|exact Hr]. split; [intros _; exact Hl|intros E; contradiction]. }
  destruct (Z.eqb_spec k (-1)) as [-> |Hn].
  - apply (same_channels C gv gv' os delta Wk (b_v t) (b_comp t) _ x x' Et Lt Xt Nt St Gu F F' HC' H H').
  - apply (same_so_channels C gv gv' os delta Wk k (b_v t) (b_comp t) _ x x' ltac:(lia) Et ltac:(lia) Nt St HU HC' H H').
Qed.

Lemma shared_swap C vA vB l : shared C vA vB l -> shared C vB vA l.
Proof. intros (A & B). split; assumption. Qed.

Lemma two_values_agree C gv gv' os h t u k x x' : (-1 <= k < 3)%Z -> List.Forall oc_valid os -> bf_ok h t -> bf_ok h u -> gv_fine 9 gv -> gv_fine 9 gv' -> (forall U, In U (gv_esop gv ++ gv_esop gv') -> 0 <= pv_L U)%Z ->
  v_origin (b_v t) = C \/ v_origin (b_v u) = C -> (forall l, shared C (b_v t) (b_v u) l -> agree k gv gv' l) ->
  grpp_V C gv (oc_V C os own_delta Wk) k (phi_of (b_v t) (b_comp t)) (phi_of (b_v u) (b_comp u)) x -> grpp_V C gv' (oc_V C os own_delta Wk) k (phi_of (b_v t) (b_comp t)) (phi_of (b_v u) (b_comp u)) x' -> x = x'.
Proof.
  intros Hk HV Bt Bu F F' HU [Et|Eu] HC H H'; [apply (bra_values C gv gv' os own_delta h t u k x x'); assumption|].
  assert (E : exchange_sign k * x = exchange_sign k * x').
  { apply (bra_values C gv gv' os own_delta h u t k); try assumption; [intros l Hl; apply HC, shared_swap, Hl|apply grpp_exchange; assumption|apply grpp_exchange; assumption]. }
  unfold exchange_sign in E. destruct (k =? -1)%Z; lra.
Qed.

Lemma ready_degrees fuel par bessel erf C gv vA vB e1 eps Qm : own_ready fuel par bessel erf C gv vA vB e1 eps Qm -> forall U, In U (gv_esop gv) -> (0 <= pv_L U)%Z.
Proof. intros (_ & _ & _ & _ & _ & _ & _ & _ & HU) U Hin. destruct (HU U ltac:(apply in_app_iff; right; exact Hin)) as ((X1 & _) & _). exact X1. Qed.

(** ** The theorems *)
Lemma centre_channels_thm : forall fuel par bessel erf st h C g g' gv gv' ocp ocp' os k t u e1 eps Qm e1' eps' Qm' e e',
  (14 <= fuel)%nat -> init_tables st -> heap_wf h -> grpp_at h g gv ocp -> grpp_at h g' gv' ocp' -> oc_ready (gv_oc gv) os -> oc_ready (gv_oc gv') os -> (-1 <= k < 3)%Z ->
  in_reach fuel par bessel erf h C gv ocp e1 eps Qm [t] [u] -> in_reach fuel par bessel erf h C gv' ocp' e1' eps' Qm' [t] [u] ->
  v_origin (b_v t) = C \/ v_origin (b_v u) = C -> (forall l, shared C (b_v t) (b_v u) l -> agree k gv gv' l) ->
  written fuel par bessel erf st h C g ocp k t u e -> written fuel par bessel erf st h C g' ocp' k t u e' ->
  Rabs (e - e') <= grpp_error C gv (b_v t) (b_v u) (e1 t u) (eps t u) (Qm t u) k + grpp_error C gv' (b_v t) (b_v u) (e1' t u) (eps' t u) (Qm' t u) k.
Proof.
  intros fuel par bessel erf st h C g g' gv gv' ocp ocp' os k t u e1 eps Qm e1' eps' Qm' e e' Hf HI HW HG HG' HO HO' Hk (T1 & U1 & R1) (T2 & U2 & R2) HE HC He He'.
  destruct (T1 t (or_introl eq_refl)) as (Bt & Nt). destruct (U1 u (or_introl eq_refl)) as (Bu & Nu). destruct (T2 t (or_introl eq_refl)) as (_ & Nt'). destruct (U2 u (or_introl eq_refl)) as (_ & Nu').
  specialize (R1 t u (or_introl eq_refl) (or_introl eq_refl)). specialize (R2 t u (or_introl eq_refl) (or_introl eq_refl)).
  destruct (written_value fuel par bessel erf st h C g gv ocp os Hf HI HW HG HO k t u _ _ _ e Hk Bt Bu Nt Nu R1 He) as (x & Hx & Ex). destruct (written_value fuel par bessel erf st h C g' gv' ocp' os Hf HI HW HG' HO' k t u _ _ _ e' Hk Bt Bu Nt' Nu' R2 He') as (x' & Hx' & Ex').
  assert (HVd : List.Forall oc_valid os) by (destruct HO as (cart & _ & _ & X & _); exact X).
  rewrite <- (two_values_agree C gv gv' os h t u k x x' Hk HVd Bt Bu (ready_fine _ _ _ _ _ _ _ _ _ _ _ R1) (ready_fine _ _ _ _ _ _ _ _ _ _ _ R2)
    ltac:(intros U Hin; apply in_app_iff in Hin; destruct Hin as [Hin|Hin]; [apply (ready_degrees _ _ _ _ _ _ _ _ _ _ _ R1 U Hin)|apply (ready_degrees _ _ _ _ _ _ _ _ _ _ _ R2 U Hin)]) HE HC Hx Hx') in Ex'.
  replace (e - e') with ((e - x) - (e' - x)) by ring. eapply Rle_trans; [apply Rabs_triang|]. rewrite Rabs_Ropp. lra.
Qed.

Lemma centre_vanishes_thm : forall fuel par bessel erf st h C g gv ocp k t u e1 eps Qm e,
  (14 <= fuel)%nat -> init_tables st -> heap_wf h -> grpp_at h g gv ocp -> gv_oc gv = [] -> (-1 <= k < 3)%Z ->
  in_reach fuel par bessel erf h C gv ocp e1 eps Qm [t] [u] -> v_origin (b_v t) = C \/ v_origin (b_v u) = C ->
  (forall l r, shared C (b_v t) (b_v u) l -> 0 < r -> if (k =? -1)%Z then channel gv l r = 0 else of_degree l (gv_esop gv) r = 0) ->
  written fuel par bessel erf st h C g ocp k t u e -> Rabs e <= grpp_error C gv (b_v t) (b_v u) (e1 t u) (eps t u) (Qm t u) k.
Proof.
  intros fuel par bessel erf st h C g gv ocp k t u e1 eps Qm e Hf HI HW HG EO Hk (T1 & U1 & R1) HE HC He.
  destruct (T1 t (or_introl eq_refl)) as (Bt & Nt). destruct (U1 u (or_introl eq_refl)) as (Bu & Nu). specialize (R1 t u (or_introl eq_refl) (or_introl eq_refl)).
  assert (HO : oc_ready (gv_oc gv) []) by (rewrite EO; exists (fun l => canon (Z.of_nat l)); split; [exact sc_components|]; split; [constructor|]; split; [constructor|intros o []]).
  destruct (written_value fuel par bessel erf st h C g gv ocp [] Hf HI HW HG HO k t u _ _ _ e Hk Bt Bu Nt Nu R1 He) as (x & Hx & Ex).
  set (gv0 := mkGv None [] [] []).
  assert (H0 : grpp_V C gv0 (oc_V C [] own_delta Wk) k (phi_of (b_v t) (b_comp t)) (phi_of (b_v u) (b_comp u)) 0).
  { destruct Hx as (a & b & (Sa & Ua & Sb & Ub & P & Q & Eb) & _). exists 0, 0. split; [exists Sa, Ua, Sb, Ub; split; [exact P|]; split; [exact Q|]|].
    - destruct (k =? -1)%Z; unfold arep_value, OutercoreSpec.so_value, lsum; cbn [fold_right]; ring.
    - split; [ring|]. destruct (k =? -1)%Z; [exists 0, 0; split; [reflexivity|]; split; [reflexivity|ring]|reflexivity]. }
  assert (F0 : gv_fine 9 gv0) by (split; [intros U' E; discriminate|intros U []]).
  assert (E : x = 0).
  { apply (two_values_agree C gv gv0 [] h t u k x 0 Hk ltac:(constructor) Bt Bu (ready_fine _ _ _ _ _ _ _ _ _ _ _ R1) F0); try assumption.
    - intros U Hin. cbn [gv0 gv_esop] in Hin. rewrite app_nil_r in Hin. apply (ready_degrees _ _ _ _ _ _ _ _ _ _ _ R1 U Hin).
    - intros l Hl r Hr. specialize (HC l r Hl Hr). unfold gv0, channel, of_degree, lsum. cbn [gv_local gv_arep gv_esop local_value fold_right]. destruct (k =? -1)%Z; [unfold channel, of_degree, lsum in HC|unfold of_degree, lsum in HC]; rewrite HC; ring. }
  subst x. rewrite Rminus_0_r in Ex. exact Ex.
Qed.

(** ** A case: the p shell of [scene] at the centre; a local potential, and the same potential for p functions only *)
Definition gv_proj : gview := mkGv None [wU] [] [].

Lemma centre_ready h pA pB pS u g g3 vA vB ca cb S0 C gv : scene h pA pB pS u g g3 vA vB ca cb S0 -> C = v_origin vA \/ C = v_origin vB -> gv = only_local wU \/ gv = gv_proj -> shells_ready C gv vA vB.
Proof.
  intros Sc HC Hg. destruct (sc_exps h pA pB pS u g g3 vA vB ca cb S0 Sc) as (XA & XB). destruct (sc_significant h pA pB pS u g g3 vA vB ca cb S0 Sc) as (YA & YB).
  pose proof Sc as (_ & _ & _ & _ & _ & LA & OA & PA & LB & OB & PB & _).
  assert (X1 : forall a b c, a * a + b * b + c * c = 2 -> 1 <= Type2Proj.len (a, b, c)) by (intros a b c E; unfold Type2Proj.len, norm3; rewrite <- sqrt_1 at 1; apply sqrt_le_1_alt; lra).
  assert (DA : direction_known (v_origin vA) C (v_prims vA)).
  { destruct HC as [-> | ->]; [left; reflexivity|right]. rewrite PA, OA, OB. do 3 eexists. split; [reflexivity|]. unfold Type2Proj.minus3. match goal with |- _ < _ * Type2Proj.len (?a, ?b, ?c) => pose proof (X1 a b c ltac:(ring)) end. lra. }
  assert (DB : direction_known (v_origin vB) C (v_prims vB)).
  { destruct HC as [-> | ->]; [right|left; reflexivity]. rewrite PB, OA, OB. do 3 eexists. split; [reflexivity|]. unfold Type2Proj.minus3. match goal with |- _ < _ * Type2Proj.len (?a, ?b, ?c) => pose proof (X1 a b c ltac:(ring)) end. lra. }
  unfold shells_ready. do 3 (split; [lia|]). do 4 (split; [assumption|]). split; [rewrite PA; discriminate|]. split; [rewrite PB; discriminate|]. do 2 (split; [assumption|]). split.
  - intros U E n cf al. destruct Hg as [-> | ->]; cbn [only_local gv_proj gv_local] in E; [|discriminate]. injection E as <-. intros [E | [E | []]]; injection E as <- <- <-; (split; [lia|lra]).
  - intros U Hin. assert (E : U = wU) by (destruct Hg as [-> | ->]; cbn in Hin; [contradiction|destruct Hin as [E | []]; symmetry; exact E]). subst U. cbn [pv_L pv_prims wU].
    split; [lia|]. split; [lia|]. split; [lia|]. split; [intros ni c a [E | [E | []]]; injection E as <- <- <-; lia|intros ni c a [E | [E | []]]; injection E as <- <- <-; lra].
Qed.

Lemma contained_one l : contained 1 l <-> l = 1%nat.
Proof. split; [intros (q & Hq & E); lia|intros ->; exists 0%Z; lia]. Qed.
Lemma contained_zero l : contained 0 l <-> l = O.
Proof. split; [intros (q & Hq & E); lia|intros ->; exists 0%Z; lia]. Qed.

Lemma centre_case_thm fuel par bessel erf : exists h g g' t u e1 eps Qm e1' eps' Qm' e1'' eps'' Qm'',
  heap_wf h /\ grpp_at h g (only_local wU) [] /\ grpp_at h g' gv_proj [] /\ oc_ready [] [] /\ v_origin (b_v t) <> v_origin (b_v u) /\ v_L (b_v t) = 1%Z /\ v_L (b_v u) = 0%Z /\
  in_reach fuel par bessel erf h (v_origin (b_v t)) (only_local wU) [] e1 eps Qm [t] [u] /\ in_reach fuel par bessel erf h (v_origin (b_v t)) gv_proj [] e1' eps' Qm' [t] [u] /\
  (forall l, shared (v_origin (b_v t)) (b_v t) (b_v u) l -> agree (-1) (only_local wU) gv_proj l) /\
  in_reach fuel par bessel erf h (v_origin (b_v u)) gv_proj [] e1'' eps'' Qm'' [t] [u] /\
  (forall l r, shared (v_origin (b_v u)) (b_v t) (b_v u) l -> 0 < r -> channel gv_proj l r = 0).
Proof.
  destruct scene_exists as (h & pA & pB & pS & u & g & g3 & vA & vB & ca & cb & S0 & Sc). pose proof Sc as (W & SA & SB & _ & _ & LA & OA & PA & LB & OB & PB & EU & _ & _ & G & _).
  destruct (sc_exps h pA pB pS u g g3 vA vB ca cb S0 Sc) as (XA & XB).
  destruct (halloc h (OPtrs [u])) as [q h1] eqn:E1. destruct (halloc_wf _ _ _ _ W E1) as (W1 & B1 & K1).
  destruct (halloc h1 (OGrpp (mkGrpp 1 0 0 0 q 0 0 0))) as [g4 h2] eqn:E2. destruct (halloc_wf _ _ _ _ W1 E2) as (W2 & B2 & K2).
  assert (K : keeps h h2) by (intros a o Hq; apply K2, K1, Hq). assert (EU2 : view_pot h2 u = Ok wU) by (eapply view_keeps; [exact K|exact EU]).
  assert (G4 : grpp_at h2 g4 gv_proj []).
  { exists (mkGrpp 1 0 0 0 q 0 0 0), [u], [], []. split; [exact B2|]. cbn [gv_proj gv_local gv_arep gv_esop gv_oc g_UL g_n_arep g_n_esop g_n_oc g_Uarep g_Uesop map]. split; [reflexivity|].
    split; [reflexivity|]. split; [right; exists []; apply K2; exact B1|]. split; [constructor; [exact EU2|constructor]|]. repeat split; try (left; reflexivity); try constructor; reflexivity. }
  destruct (ready_one fuel par bessel erf _ _ _ _ (centre_ready h pA pB pS u g g3 vA vB ca cb S0 (v_origin vA) (only_local wU) Sc (or_introl eq_refl) (or_introl eq_refl))) as (a1 & a2 & a3 & RA).
  destruct (ready_one fuel par bessel erf _ _ _ _ (centre_ready h pA pB pS u g g3 vA vB ca cb S0 (v_origin vA) gv_proj Sc (or_introl eq_refl) (or_intror eq_refl))) as (b1 & b2 & b3 & RB).
  destruct (ready_one fuel par bessel erf _ _ _ _ (centre_ready h pA pB pS u g g3 vA vB ca cb S0 (v_origin vB) gv_proj Sc (or_intror eq_refl) (or_intror eq_refl))) as (c1 & c2 & c3 & RC).
  exists h2, g, g4, (BF 1 pA vA ca 2), (BF 1 pB vB cb 0), (fun _ _ => a1), (fun _ _ => a2), (fun _ _ => a3), (fun _ _ => b1), (fun _ _ => b2), (fun _ _ => b3), (fun _ _ => c1), (fun _ _ => c2), (fun _ _ => c3). cbn [b_v].
  split; [exact W2|]. split; [exact (grpp_keeps _ _ _ _ _ W K G)|]. split; [exact G4|].
  split; [exists (fun l => canon (Z.of_nat l)); split; [exact sc_components|]; split; [constructor|]; split; [constructor|intros o []]|].
  split; [rewrite OA, OB; intros E; injection E as E; lra|]. split; [exact LA|]. split; [exact LB|].
  pose proof (std_length _ _ _ _ SA) as NA. pose proof (std_length _ _ _ _ SB) as NB. rewrite LA in NA. rewrite LB in NB. change (n_cart 1) with 3%Z in NA. change (n_cart 0) with 1%Z in NB.
  assert (TA : forall t, In t [BF 1 pA vA ca 2] -> bf_ok h2 t /\ ~ In (b_p t) []).
  { intros t [<- | []]; (split; [|intros []]); unfold bf_ok; cbn [b_p b_v b_comps b_m]; (split; [eapply std_old; eassumption|]); (split; [lia|]); (split; [assumption|lia]). }
  assert (TB : forall t, In t [BF 1 pB vB cb 0] -> bf_ok h2 t /\ ~ In (b_p t) []).
  { intros t [<- | []]; (split; [|intros []]); unfold bf_ok; cbn [b_p b_v b_comps b_m]; (split; [eapply std_old; eassumption|]); (split; [lia|]); (split; [assumption|lia]). }
  split; [split; [exact TA|]; split; [exact TB|]; intros t u' [<- | []] [<- | []]; exact RA|]. split; [split; [exact TA|]; split; [exact TB|]; intros t u' [<- | []] [<- | []]; exact RB|]. split.
  - intros l (Hl & _) r Hr. specialize (Hl eq_refl). rewrite LA in Hl. apply contained_one in Hl. subst l. cbn [Z.eqb Pos.eqb]. unfold channel, of_degree, lsum. cbn [only_local gv_proj gv_local gv_arep local_value fold_right pv_L wU]. change (Z.to_nat 1) with 1%nat. cbn [Nat.eqb]. ring.
  - split; [split; [exact TA|]; split; [exact TB|]; intros t u' [<- | []] [<- | []]; exact RC|]. intros l r (_ & Hl) Hr. specialize (Hl eq_refl). rewrite LB in Hl. apply contained_zero in Hl. subst l. unfold channel, of_degree, lsum. cbn [gv_proj gv_local gv_arep local_value fold_right pv_L wU]. change (Z.to_nat 1) with 1%nat. cbn [Nat.eqb]. ring.
Qed.
