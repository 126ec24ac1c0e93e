(** * Projections on harmonics under rigid motions (C84) *)

From Coq Require Import ZArith Reals Lra Lia List Bool.
From Coquelicot Require Import Coquelicot.
From Verif Require Import Base BinomProofs CartModel CartProofs HeapModel OneElModel OneElProofs OneElSpec OneElInt GaussInt GaussProd GaussMoment Sums NucPotSpec NucPot SpecSpec SphModel SphSpec SphPoly SphProofs SphInt SphOrtho SphAngular SphHarm SphThms SphTri SphHecke SphPlane SphSpan SphAdd
  OutercoreModel OutercoreSpec OutercoreThms GrppModel GrppGrad3 Type2Spec Type2So GrppOwnSpec GrppOwn Hermit RotSphere RotMomentum.
From Verif Require RigidPoly Rigid RigidThms.
Import ListNotations.
Open Scope R_scope.

(** ** Degrees *)
Definition degle (n : nat) (q : RigidPoly.mpoly) : Prop := forall t, In t q -> (RigidPoly.tdeg (snd t) <= n)%nat.
Lemma degle_mul n n' a b : degle n a -> degle n' b -> degle (n + n') (RigidPoly.mmul a b).
Proof.
  intros Ha Hb t Ht. unfold RigidPoly.mmul in Ht. apply in_flat_map in Ht. destruct Ht as (u & Hu & Ht). apply in_map_iff in Ht. destruct Ht as (w & <- & Hw). cbn [snd]. specialize (Ha u Hu). specialize (Hb w Hw). destruct (snd u) as [[i j] k]. destruct (snd w) as [[i' j'] k']. unfold RigidPoly.mm, RigidPoly.tdeg in *. lia.
Qed.
Lemma degle_pow n a m : degle n a -> degle (m * n) (RigidPoly.mpow a m).
Proof. intros Ha. induction m as [|m IH]; [intros t [<-|[]]; cbn; lia|]. cbn [RigidPoly.mpow]. change (S m * n)%nat with (n + m * n)%nat. apply degle_mul; assumption. Qed.
Lemma degle_asubm l0 l1 l2 m : degle 1 l0 -> degle 1 l1 -> degle 1 l2 -> degle (RigidPoly.tdeg m) (RigidPoly.asubm l0 l1 l2 m).
Proof.
  intros H0 H1 H2. destruct m as [[i j] k]. unfold RigidPoly.asubm, RigidPoly.tdeg. rewrite <- (Nat.mul_1_r i) at 1. rewrite <- (Nat.mul_1_r j) at 1. rewrite <- (Nat.mul_1_r k) at 1. apply degle_mul; [apply degle_mul|]; apply degle_pow; assumption.
Qed.
Lemma degle_asub n l0 l1 l2 q : degle 1 l0 -> degle 1 l1 -> degle 1 l2 -> degle n q -> degle n (RigidPoly.asub l0 l1 l2 q).
Proof.
  intros H0 H1 H2 H t Ht. unfold RigidPoly.asub in Ht. apply in_flat_map in Ht. destruct Ht as (u & Hu & Ht). unfold RigidPoly.mscal in Ht. apply in_map_iff in Ht. destruct Ht as (w & <- & Hw). cbn [snd]. pose proof (degle_asubm l0 l1 l2 (snd u) H0 H1 H2 w Hw). specialize (H u Hu). lia.
Qed.

(** ** Polynomials times plane waves *)
Lemma poly_wave O a b c t q l m n : orthogonal O -> degle n q -> (n + l <= 40)%nat -> (Z.abs m <= Z.of_nat l)%Z -> a ^ 2 + b ^ 2 + c ^ 2 = 1 ->
  exists v, sphere_int (fun x y z => exp (t * (a * x + b * y + c * z)) * (RigidPoly.meval q x y z * real_sph l m x y z)) v /\
    sphere_int (rotf O (fun x y z => exp (t * (a * x + b * y + c * z)) * (RigidPoly.meval q x y z * real_sph l m x y z))) v.
Proof.
  intros HO Hq Hn Hm Hu. induction q as [|(k0, ((i, j), k)) q IH].
  - exists 0. split; (eapply sphere_ext; [|apply sphere_zero]); intros; unfold rotf, RigidPoly.meval, lsum; cbn [fold_right]; ring.
  - destruct IH as (v & A & B); [intros u Hin; apply Hq; right; exact Hin|].
    pose proof (Hq _ (or_introl eq_refl)) as Hd. cbn [snd RigidPoly.tdeg] in Hd. pose proof (mono_sph_span i j k l m ltac:(lia) Hm) as Hs.
    assert (H40 : (i + j + k + l <= 40)%nat) by lia. destruct (span_wave _ _ H40 Hs) as (w & _ & _ & Hw). specialize (Hw a b c t Hu). pose proof (wave_rot O a b c t _ _ _ HO H40 Hs Hu Hw) as Hr.
    eexists. split.
    + eapply sphere_ext; [|apply (sphere_lin _ _ _ _ k0 1 Hw A)]. intros x y z _. cbv beta. rewrite RigidPoly.meval_cons. cbn [fst snd RigidPoly.mval]. ring.
    + eapply sphere_ext; [|apply (sphere_lin _ _ _ _ k0 1 Hr B)]. intros x y z _. unfold rotf. rewrite RigidPoly.meval_cons. cbn [fst snd RigidPoly.mval]. ring.
Qed.

Lemma unit_dir e0 e1 e2 : exists s a b c, a ^ 2 + b ^ 2 + c ^ 2 = 1 /\ e0 = s * a /\ e1 = s * b /\ e2 = s * c.
Proof.
  set (n2 := e0 ^ 2 + e1 ^ 2 + e2 ^ 2). destruct (Req_dec n2 0) as [E|N].
  - exists 0, 0, 0, 1. assert (0 <= e0 ^ 2 /\ 0 <= e1 ^ 2 /\ 0 <= e2 ^ 2) as (A & B & C) by (repeat split; apply pow2_ge_0). unfold n2 in E.
    assert (Z0 : forall x, x ^ 2 = 0 -> x = 0). { intros x Hx. destruct (Req_dec x 0); [assumption|]. exfalso. revert Hx. apply pow_nonzero. assumption. }
    rewrite (Z0 e0), (Z0 e1), (Z0 e2) by lra. repeat split; ring.
  - assert (P : 0 < n2) by (assert (0 <= n2) by (unfold n2; pose proof (pow2_ge_0 e0); pose proof (pow2_ge_0 e1); pose proof (pow2_ge_0 e2); lra); lra).
    assert (S : 0 < sqrt n2) by (apply sqrt_lt_R0, P). exists (sqrt n2), (e0 / sqrt n2), (e1 / sqrt n2), (e2 / sqrt n2). split; [|repeat split; field; lra].
    replace ((e0 / sqrt n2) ^ 2 + (e1 / sqrt n2) ^ 2 + (e2 / sqrt n2) ^ 2) with (n2 / (sqrt n2 * sqrt n2)) by (unfold n2 at 1; field; lra). rewrite sqrt_sqrt by lra. field. lra.
Qed.

(** a polynomial times a Gaussian on a sphere *)
Lemma term_wave O a o q C r l m n : orthogonal O -> degle n q -> (n + l <= 40)%nat -> (Z.abs m <= Z.of_nat l)%Z ->
  exists v, sphere_int (fun x y z => Rigid.pg a o q (coord3 C 0 + r * x) (coord3 C 1 + r * y) (coord3 C 2 + r * z) * real_sph l m x y z) v /\
    sphere_int (rotf O (fun x y z => Rigid.pg a o q (coord3 C 0 + r * x) (coord3 C 1 + r * y) (coord3 C 2 + r * z) * real_sph l m x y z)) v.
Proof.
  intros HO Hq Hn Hm. set (e0 := coord3 C 0 - coord3 o 0). set (e1 := coord3 C 1 - coord3 o 1). set (e2 := coord3 C 2 - coord3 o 2).
  destruct (unit_dir e0 e1 e2) as (s & u0 & u1 & u2 & Hu & E0 & E1 & E2).
  pose (q' := RigidPoly.asub [(r, (1, 0, 0)%nat); (e0, (0, 0, 0)%nat)] [(r, (0, 1, 0)%nat); (e1, (0, 0, 0)%nat)] [(r, (0, 0, 1)%nat); (e2, (0, 0, 0)%nat)] q).
  assert (Hq' : degle n q') by (apply degle_asub; try exact Hq; intros t [<-|[<-|[]]]; cbn; lia).
  assert (Ev : forall x y z, RigidPoly.meval q' x y z = RigidPoly.meval q (e0 + r * x) (e1 + r * y) (e2 + r * z)).
  { intros x y z. unfold q'. rewrite RigidPoly.meval_asub. f_equal; unfold RigidPoly.meval, lsum, RigidPoly.mval; cbn; ring. }
  destruct (poly_wave O u0 u1 u2 (- 2 * a * r * s) q' l m n HO Hq' Hn Hm Hu) as (v & A & B).
  assert (EE : forall x y z, x ^ 2 + y ^ 2 + z ^ 2 = 1 -> Rigid.pg a o q (coord3 C 0 + r * x) (coord3 C 1 + r * y) (coord3 C 2 + r * z) = exp (- (a * (s ^ 2 + r ^ 2))) * (exp (- 2 * a * r * s * (u0 * x + u1 * y + u2 * z)) * RigidPoly.meval q' x y z)).
  { intros x y z Hx. unfold Rigid.pg. rewrite Ev. replace (coord3 C 0 + r * x - coord3 o 0) with (e0 + r * x) by (unfold e0; ring). replace (coord3 C 1 + r * y - coord3 o 1) with (e1 + r * y) by (unfold e1; ring). replace (coord3 C 2 + r * z - coord3 o 2) with (e2 + r * z) by (unfold e2; ring).
    rewrite <- Rmult_assoc, <- exp_plus, Rmult_comm. f_equal. unfold RigidPoly.gauss3. f_equal. rewrite E0, E1, E2.
    transitivity (- (a * (s ^ 2 * (u0 ^ 2 + u1 ^ 2 + u2 ^ 2) + r ^ 2 * (x ^ 2 + y ^ 2 + z ^ 2))) + - 2 * a * r * s * (u0 * x + u1 * y + u2 * z)); [ring|]. rewrite Hu, Hx. ring. }
  exists (exp (- (a * (s ^ 2 + r ^ 2))) * v). split.
  - eapply sphere_ext; [|apply (sphere_scal _ _ (exp (- (a * (s ^ 2 + r ^ 2)))) A)]. intros x y z Hx. cbv beta. rewrite (EE x y z Hx). ring.
  - eapply sphere_ext; [|apply (sphere_scal _ _ (exp (- (a * (s ^ 2 + r ^ 2)))) B)]. intros x y z Hx. cbv beta. unfold rotf. rewrite (EE _ _ _ (rot_unit O x y z HO Hx)). ring.
Qed.

(** sums of polynomials of degree at most n times Gaussians *)
Definition gpn (n : nat) (F : R -> R -> R -> R) : Prop :=
  exists l, (forall T, In T l -> 0 < Rigid.gtp T /\ degle n (Rigid.gtq T)) /\ forall x y z, F x y z = lsum (fun T => Rigid.gval T x y z) l.

Lemma gpn_gp n F : gpn n F -> Rigid.gp F.
Proof. intros (l & H & E). exists l. split; [intros T HT; apply (H T HT)|exact E]. Qed.

Lemma gpn_wave O F C r l m n : orthogonal O -> gpn n F -> (n + l <= 40)%nat -> (Z.abs m <= Z.of_nat l)%Z ->
  exists v, sphere_int (fun x y z => F (coord3 C 0 + r * x) (coord3 C 1 + r * y) (coord3 C 2 + r * z) * real_sph l m x y z) v /\
    sphere_int (rotf O (fun x y z => F (coord3 C 0 + r * x) (coord3 C 1 + r * y) (coord3 C 2 + r * z) * real_sph l m x y z)) v.
Proof.
  intros HO (ts & HT & E) Hn Hm.
  assert (G : exists v, sphere_int (fun x y z => lsum (fun T => Rigid.gval T (coord3 C 0 + r * x) (coord3 C 1 + r * y) (coord3 C 2 + r * z)) ts * real_sph l m x y z) v /\
    sphere_int (rotf O (fun x y z => lsum (fun T => Rigid.gval T (coord3 C 0 + r * x) (coord3 C 1 + r * y) (coord3 C 2 + r * z)) ts * real_sph l m x y z)) v).
  { clear E. induction ts as [|T ts IH].
    - exists 0. split; (eapply sphere_ext; [|apply sphere_zero]); intros; unfold rotf, lsum; cbn [fold_right]; ring.
    - destruct IH as (v & A & B); [intros u Hin; apply HT; right; exact Hin|]. destruct (term_wave O (Rigid.gtp T) (Rigid.gto_ T) (Rigid.gtq T) C r l m n HO (proj2 (HT T (or_introl eq_refl))) Hn Hm) as (w & A1 & B1).
      exists (1 * w + 1 * v). split.
      + eapply sphere_ext; [|apply (sphere_lin _ _ _ _ 1 1 A1 A)]. intros x y z _. cbv beta. rewrite lsum_cons. unfold Rigid.gval. ring.
      + eapply sphere_ext; [|apply (sphere_lin _ _ _ _ 1 1 B1 B)]. intros x y z _. unfold rotf. rewrite lsum_cons. unfold Rigid.gval. ring. }
  destruct G as (v & A & B). exists v. split.
  - eapply sphere_ext; [|exact A]. intros x y z _. cbv beta. rewrite E. reflexivity.
  - eapply sphere_ext; [|exact B]. intros x y z _. unfold rotf. rewrite E. reflexivity.
Qed.

(** ** Projections *)
Definition mixed (O : mat) (l : nat) (P : Z -> R -> R) (m : Z) (r : R) : R := zsum (- Z.of_nat l) (Z.of_nat l + 1) (fun n => DD O l m n * P n r).

Lemma iv_sphere O t C k r x y z : orthogonal O -> (0 <= k < 3)%Z ->
  Rigid.iv O t k (coord3 (Rigid.moved3 O t C) 0 + r * x) (coord3 (Rigid.moved3 O t C) 1 + r * y) (coord3 (Rigid.moved3 O t C) 2 + r * z) = coord3 C k + r * tr O k x y z.
Proof.
  intros HO Hk. set (M0 := coord3 (Rigid.moved3 O t C) 0). set (M1 := coord3 (Rigid.moved3 O t C) 1). set (M2 := coord3 (Rigid.moved3 O t C) 2).
  pose proof (Rigid.iv_centre O t C k (M0 + r * x) (M1 + r * y) (M2 + r * z) HO Hk) as E. fold M0 M1 M2 in E.
  assert (E2 : tr O k (M0 + r * x - M0) (M1 + r * y - M1) (M2 + r * z - M2) = r * tr O k x y z) by (unfold RigidPoly.tr; ring). rewrite E2 in E. lra.
Qed.

Lemma projection_rot O t C l n f f' (P : Z -> R -> R) : orthogonal O -> gpn n f -> (n + l <= 40)%nat -> Rigid.carried O t f f' ->
  (forall m, (Z.abs m <= Z.of_nat l)%Z -> projection l m C f (P m)) -> forall m, (Z.abs m <= Z.of_nat l)%Z -> projection l m (Rigid.moved3 O t C) f' (mixed O l P m).
Proof.
  intros HO Hf Hn HC HP m Hm. unfold projection. destruct (Rigid.moved3 O t C) as [[a b] c] eqn:EM. intros r Hr. assert (Ea : a = coord3 (Rigid.moved3 O t C) 0) by (rewrite EM; reflexivity). assert (Eb : b = coord3 (Rigid.moved3 O t C) 1) by (rewrite EM; reflexivity). assert (Ec : c = coord3 (Rigid.moved3 O t C) 2) by (rewrite EM; reflexivity). clear EM. subst a b c.
  pose (G := fun m' x y z => f (coord3 C 0 + r * x) (coord3 C 1 + r * y) (coord3 C 2 + r * z) * real_sph l m' x y z).
  assert (HG : forall m', (Z.abs m' <= Z.of_nat l)%Z -> sphere_int (rotf O (G m')) (P m' r)).
  { intros m' Hm'. destruct (gpn_wave O f C r l m' n HO Hf Hn Hm') as (v & A & B). assert (I : sphere_int (G m') (P m' r)). { specialize (HP m' Hm'). unfold projection in HP. destruct C as [[c0 c1] c2]. exact (HP r Hr). }
    eapply sphere_val; [exact B|]. exact (sphere_uniq _ _ _ A I). }
  unfold mixed. eapply sphere_ext; [|apply (sphere_zsum (- Z.of_nat l) (Z.of_nat l + 1) (fun n x y z => DD O l m n * rotf O (G n) x y z) (fun n => DD O l m n * P n r))].
  - intros x y z Hx. cbv beta. rewrite (Rigid.carried_iv O t f f' HO HC), !iv_sphere by (exact HO || lia). rewrite <- (rot_collect O l m x y z HO ltac:(lia) Hm Hx), <- zsum_scal. apply zsum_ext. intros i _. unfold G, rotf. ring.
  - intros i Hi. apply sphere_scal, HG. lia.
Qed.

Lemma semilocal_rot O t C U n f f' g g' v : orthogonal O -> gpn n f -> gpn n g -> (n + Z.to_nat (pv_L U) <= 40)%nat -> Rigid.carried O t f f' -> Rigid.carried O t g g' ->
  semilocal_V C U f g v -> semilocal_V (Rigid.moved3 O t C) U f' g' v.
Proof.
  intros HO Hf Hg Hn Cf Cg (P & Q & HP & HQ & H). set (l := Z.to_nat (pv_L U)) in *. exists (mixed O l P), (mixed O l Q).
  split; [apply (projection_rot O t C l n f f' P HO Hf Hn Cf HP)|]. split; [apply (projection_rot O t C l n g g' Q HO Hg Hn Cg HQ)|].
  eapply half_ext; [|exact H]. intros r _. cbv beta. f_equal. symmetry. apply (pair_rot O l (fun m => P m r) (fun m => Q m r) HO). lia.
Qed.

Lemma spin_orbit_rot O t C U n f f' g g' (v : Z -> R) k : orthogonal O -> gpn n f -> gpn n g -> (n + Z.to_nat (pv_L U) <= 40)%nat -> Rigid.carried O t f f' -> Rigid.carried O t g g' -> (0 <= k < 3)%Z ->
  (forall j, (0 <= j < 3)%Z -> spin_orbit_V C U j f g (v j)) -> spin_orbit_V (Rigid.moved3 O t C) U k f' g' (det3 O * RigidPoly.sum3 (fun j => O k j * v j)).
Proof.
  intros HO Hf Hg Hn Cf Cg Hk HV. set (l := Z.to_nat (pv_L U)) in *.
  assert (H : forall j, (0 <= j < 3)%Z -> projected_integral l (Wk j l) (radial_potential (pv_prims U)) C f g (v j)).
  { intros j Hj. destruct (HV j Hj) as (W & HW & H). fold l in HW, H. eapply projected_matrix; [|exact H]. intros p m Hp Hm. exact (momentum_unique l j W (Wk j l) HW (Wk_momentum l j Hj) p m Hp Hm). }
  destruct (H 0%Z ltac:(lia)) as (P & Q & HP & HQ & _).
  assert (I : forall j, (0 <= j < 3)%Z -> half_int (fun r => r ^ 2 * radial_potential (pv_prims U) r * zsum (- Z.of_nat l) (Z.of_nat l + 1) (fun m1 => zsum (- Z.of_nat l) (Z.of_nat l + 1) (fun m2 => P m1 r * Wk j l m1 m2 * Q m2 r))) (v j)).
  { intros j Hj. destruct (H j Hj) as (P' & Q' & HP' & HQ' & H'). eapply half_ext; [|exact H']. intros r Hr. cbv beta. f_equal. apply zsum_ext. intros m1 H1. apply zsum_ext. intros m2 H2.
    rewrite (projection_unique l m1 C f (P m1) (P' m1) (HP m1 ltac:(lia)) (HP' m1 ltac:(lia)) r Hr), (projection_unique l m2 C g (Q m2) (Q' m2) (HQ m2 ltac:(lia)) (HQ' m2 ltac:(lia)) r Hr). reflexivity. }
  exists (Wk k l). split; [apply Wk_momentum, Hk|]. fold l. exists (mixed O l P), (mixed O l Q).
  split; [apply (projection_rot O t C l n f f' P HO Hf Hn Cf HP)|]. split; [apply (projection_rot O t C l n g g' Q HO Hg Hn Cg HQ)|].
  pose proof (half_scal (det3 O) _ _ (half_plus _ _ _ _ (half_plus _ _ _ _ (half_scal (O k 0%Z) _ _ (I 0%Z ltac:(lia))) (half_scal (O k 1%Z) _ _ (I 1%Z ltac:(lia)))) (half_scal (O k 2%Z) _ _ (I 2%Z ltac:(lia))))) as T.
  unfold RigidPoly.sum3. eapply half_ext; [|exact T]. intros r _. cbv beta.
  unfold mixed. rewrite (pair_rot_W O l (fun k => Wk k l) k (fun m => P m r) (fun m => Q m r) HO ltac:(lia) (Wk_momentum l) Hk). ring.
Qed.
