(** * The matrices of the angular momentum under rotations and reflections (C84) *)

From Coq Require Import ZArith Reals Lra Lia List Bool.
From Coquelicot Require Import Coquelicot.
From Verif Require Import Base BinomProofs CartModel CartProofs OneElModel OneElProofs OneElInt GaussInt Sums SphModel SphSpec SphPoly SphProofs SphInt SphOrtho SphAngular SphHarm SphThms SphTri SphHecke SphPlane SphSpan SphAdd Type2Spec GrppOwn RotSphere.
From Verif Require RigidPoly.
Import ListNotations.
Open Scope R_scope.

Definition det3 (O : mat) : R :=
  O 0%Z 0%Z * (O 1%Z 1%Z * O 2%Z 2%Z - O 1%Z 2%Z * O 2%Z 1%Z) - O 0%Z 1%Z * (O 1%Z 0%Z * O 2%Z 2%Z - O 1%Z 2%Z * O 2%Z 0%Z) + O 0%Z 2%Z * (O 1%Z 0%Z * O 2%Z 1%Z - O 1%Z 1%Z * O 2%Z 0%Z).

(** unit vector k times (x, y, z), component i *)
Definition vel (k i : Z) (x y z : R) : R :=
  if (k =? 0)%Z then (if (i =? 0)%Z then 0 else if (i =? 1)%Z then - z else y)
  else if (k =? 1)%Z then (if (i =? 0)%Z then z else if (i =? 1)%Z then 0 else - x)
  else (if (i =? 0)%Z then - y else if (i =? 1)%Z then x else 0).

Lemma cofactors a0 a1 a2 b0 b1 b2 c0 c1 c2 :
  a0 * a0 + b0 * b0 + c0 * c0 = 1 -> a1 * a1 + b1 * b1 + c1 * c1 = 1 -> a2 * a2 + b2 * b2 + c2 * c2 = 1 ->
  a0 * a1 + b0 * b1 + c0 * c1 = 0 -> a0 * a2 + b0 * b2 + c0 * c2 = 0 -> a1 * a2 + b1 * b2 + c1 * c2 = 0 ->
  let d := a0 * (b1 * c2 - b2 * c1) - a1 * (b0 * c2 - b2 * c0) + a2 * (b0 * c1 - b1 * c0) in
  (b1 * c2 - b2 * c1 = d * a0 /\ b2 * c0 - b0 * c2 = d * a1 /\ b0 * c1 - b1 * c0 = d * a2) /\
  (c1 * a2 - c2 * a1 = d * b0 /\ c2 * a0 - c0 * a2 = d * b1 /\ c0 * a1 - c1 * a0 = d * b2) /\
  (a1 * b2 - a2 * b1 = d * c0 /\ a2 * b0 - a0 * b2 = d * c1 /\ a0 * b1 - a1 * b0 = d * c2).
Proof.
  intros E00 E11 E22 E01 E02 E12. cbv zeta.
  assert (G : forall p0 p1 p2, (p0 = p0 * (a0 * a0 + b0 * b0 + c0 * c0) + p1 * (a0 * a1 + b0 * b1 + c0 * c1) + p2 * (a0 * a2 + b0 * b2 + c0 * c2)) /\
    (p1 = p0 * (a0 * a1 + b0 * b1 + c0 * c1) + p1 * (a1 * a1 + b1 * b1 + c1 * c1) + p2 * (a1 * a2 + b1 * b2 + c1 * c2)) /\
    (p2 = p0 * (a0 * a2 + b0 * b2 + c0 * c2) + p1 * (a1 * a2 + b1 * b2 + c1 * c2) + p2 * (a2 * a2 + b2 * b2 + c2 * c2))).
  { intros. rewrite E00, E11, E22, E01, E02, E12. repeat split; ring. }
  clear E00 E11 E22 E01 E02 E12.
  destruct (G (b1 * c2 - b2 * c1) (b2 * c0 - b0 * c2) (b0 * c1 - b1 * c0)) as (G1 & G2 & G3).
  destruct (G (c1 * a2 - c2 * a1) (c2 * a0 - c0 * a2) (c0 * a1 - c1 * a0)) as (G4 & G5 & G6).
  destruct (G (a1 * b2 - a2 * b1) (a2 * b0 - a0 * b2) (a0 * b1 - a1 * b0)) as (G7 & G8 & G9). clear G.
  split; [|split]; (split; [|split]); (etransitivity; [first [exact G1|exact G2|exact G3|exact G4|exact G5|exact G6|exact G7|exact G8|exact G9]|ring]).
Qed.

Lemma orth_cofactors O : orthogonal O -> forall i j, (0 <= i < 3)%Z -> (0 <= j < 3)%Z ->
  O ((i + 1) mod 3)%Z ((j + 1) mod 3)%Z * O ((i + 2) mod 3)%Z ((j + 2) mod 3)%Z - O ((i + 1) mod 3)%Z ((j + 2) mod 3)%Z * O ((i + 2) mod 3)%Z ((j + 1) mod 3)%Z = det3 O * O i j.
Proof.
  intros (H & _). pose proof (fun i k Hi Hk => H i k Hi Hk) as E. unfold RigidPoly.sum3, RigidPoly.delta in E.
  pose proof (cofactors _ _ _ _ _ _ _ _ _ (E 0 0 ltac:(lia) ltac:(lia))%Z (E 1 1 ltac:(lia) ltac:(lia))%Z (E 2 2 ltac:(lia) ltac:(lia))%Z (E 0 1 ltac:(lia) ltac:(lia))%Z (E 0 2 ltac:(lia) ltac:(lia))%Z (E 1 2 ltac:(lia) ltac:(lia))%Z) as C. cbv zeta in C. fold (det3 O) in C. clear E H.
  destruct C as ((C1 & C2 & C3) & (C4 & C5 & C6) & (C7 & C8 & C9)). intros i j Hi Hj.
  assert (i = 0 \/ i = 1 \/ i = 2)%Z as [-> | [-> | ->]] by lia; assert (j = 0 \/ j = 1 \/ j = 2)%Z as [-> | [-> | ->]] by lia;
  repeat match goal with |- context [((?a + ?b) mod 3)%Z] => let v := eval vm_compute in ((a + b) mod 3)%Z in change ((a + b) mod 3)%Z with v end; lra.
Qed.

Lemma det_sq O : orthogonal O -> det3 O * det3 O = 1.
Proof.
  intros HO. pose proof HO as (_ & H). pose proof (fun i k Hi Hk => H i k Hi Hk) as E. unfold RigidPoly.sum3, RigidPoly.delta in E.
  pose proof (E 1 1 ltac:(lia) ltac:(lia))%Z as E11. pose proof (E 2 2 ltac:(lia) ltac:(lia))%Z as E22. pose proof (E 1 2 ltac:(lia) ltac:(lia))%Z as E12. pose proof (E 0 0 ltac:(lia) ltac:(lia))%Z as E00. cbn [Z.eqb Pos.eqb] in *. clear E H.
  pose proof (orth_cofactors O HO 0 0 ltac:(lia) ltac:(lia)) as C0. pose proof (orth_cofactors O HO 0 1 ltac:(lia) ltac:(lia)) as C1. pose proof (orth_cofactors O HO 0 2 ltac:(lia) ltac:(lia)) as C2.
  repeat match goal with H : context [((?a + ?b) mod 3)%Z] |- _ => let v := eval vm_compute in ((a + b) mod 3)%Z in change ((a + b) mod 3)%Z with v in H end.
  set (d := det3 O) in *. clearbody d.
  transitivity (d * d * (O 0%Z 0%Z * O 0%Z 0%Z + O 0%Z 1%Z * O 0%Z 1%Z + O 0%Z 2%Z * O 0%Z 2%Z)); [rewrite E00; ring|].
  transitivity ((d * O 0%Z 0%Z) * (d * O 0%Z 0%Z) + (d * O 0%Z 1%Z) * (d * O 0%Z 1%Z) + (d * O 0%Z 2%Z) * (d * O 0%Z 2%Z)); [ring|]. rewrite <- C0, <- C1, <- C2.
  transitivity ((O 1%Z 0%Z * O 1%Z 0%Z + O 1%Z 1%Z * O 1%Z 1%Z + O 1%Z 2%Z * O 1%Z 2%Z) * (O 2%Z 0%Z * O 2%Z 0%Z + O 2%Z 1%Z * O 2%Z 1%Z + O 2%Z 2%Z * O 2%Z 2%Z) - (O 1%Z 0%Z * O 2%Z 0%Z + O 1%Z 1%Z * O 2%Z 1%Z + O 1%Z 2%Z * O 2%Z 2%Z) * (O 1%Z 0%Z * O 2%Z 0%Z + O 1%Z 1%Z * O 2%Z 1%Z + O 1%Z 2%Z * O 2%Z 2%Z)); [ring|]. rewrite E11, E22, E12. ring.
Qed.

(** the transposed matrix turns cross products into cross products up to the determinant *)
Lemma rot_vel O k i x y z : orthogonal O -> (0 <= k < 3)%Z -> (0 <= i < 3)%Z ->
  tr O i (vel k 0 x y z) (vel k 1 x y z) (vel k 2 x y z) =
  det3 O * (O k 0%Z * vel 0 i (tr O 0 x y z) (tr O 1 x y z) (tr O 2 x y z) + O k 1%Z * vel 1 i (tr O 0 x y z) (tr O 1 x y z) (tr O 2 x y z) + O k 2%Z * vel 2 i (tr O 0 x y z) (tr O 1 x y z) (tr O 2 x y z)).
Proof.
  intros HO Hk Hi. pose proof (det_sq O HO) as D2. pose proof (orth_cofactors O HO) as C.
  assert (R : forall i j, (0 <= i < 3)%Z -> (0 <= j < 3)%Z -> det3 O * (O ((i + 1) mod 3)%Z ((j + 1) mod 3)%Z * O ((i + 2) mod 3)%Z ((j + 2) mod 3)%Z - O ((i + 1) mod 3)%Z ((j + 2) mod 3)%Z * O ((i + 2) mod 3)%Z ((j + 1) mod 3)%Z) = O i j).
  { intros i' j' Hi' Hj'. rewrite (C i' j' Hi' Hj'). rewrite <- Rmult_assoc, D2. ring. } clear C D2.
  pose proof (R 0 i ltac:(lia) Hi)%Z as R0. pose proof (R 1 i ltac:(lia) Hi)%Z as R1. pose proof (R 2 i ltac:(lia) Hi)%Z as R2. clear R. set (d := det3 O) in *. clearbody d.
  assert (i = 0 \/ i = 1 \/ i = 2)%Z as [-> | [-> | ->]] by lia;
  repeat match goal with H : context [((?a + ?b) mod 3)%Z] |- _ => let v := eval vm_compute in ((a + b) mod 3)%Z in change ((a + b) mod 3)%Z with v in H end;
  match type of R0 with ?a = _ => match type of R1 with ?b = _ => match type of R2 with ?c = _ => transitivity (a * vel k 0 x y z + b * vel k 1 x y z + c * vel k 2 x y z) end end end;
  [rewrite R0, R1, R2; reflexivity| |rewrite R0, R1, R2; reflexivity| |rewrite R0, R1, R2; reflexivity|];
  clear R0 R1 R2; assert (k = 0 \/ k = 1 \/ k = 2)%Z as [-> | [-> | ->]] by lia; unfold vel, RigidPoly.tr; cbn [Z.eqb Pos.eqb]; ring.
Qed.

(** ** Derivatives along a curve *)
Lemma mval_curve m (a b c : R -> R) s a' b' c' : is_derive a s a' -> is_derive b s b' -> is_derive c s c' ->
  is_derive (fun t => RigidPoly.mval m (a t) (b t) (c t)) s
    (a' * (INR (RigidPoly.deg1 0 m) * RigidPoly.mval (RigidPoly.dn1 0 m) (a s) (b s) (c s)) + b' * (INR (RigidPoly.deg1 1 m) * RigidPoly.mval (RigidPoly.dn1 1 m) (a s) (b s) (c s)) + c' * (INR (RigidPoly.deg1 2 m) * RigidPoly.mval (RigidPoly.dn1 2 m) (a s) (b s) (c s))).
Proof.
  intros Ha Hb Hc. destruct m as [[i j] k]. unfold RigidPoly.mval, RigidPoly.deg1, RigidPoly.dn1, RigidPoly.setd. cbn [Z.eqb Pos.eqb].
  auto_derive; [repeat split; eexists; eassumption|]. pose proof (is_derive_unique _ _ _ Ha : Derive (fun x : R => a x) s = a') as Ea. pose proof (is_derive_unique _ _ _ Hb : Derive (fun x : R => b x) s = b') as Eb. pose proof (is_derive_unique _ _ _ Hc : Derive (fun x : R => c x) s = c') as Ec. rewrite Ea, Eb, Ec. cbn -[INR]. ring.
Qed.

Lemma meval_curve q (a b c : R -> R) s a' b' c' : is_derive a s a' -> is_derive b s b' -> is_derive c s c' ->
  is_derive (fun t => RigidPoly.meval q (a t) (b t) (c t)) s
    (a' * RigidPoly.meval (RigidPoly.mD 0 q) (a s) (b s) (c s) + b' * RigidPoly.meval (RigidPoly.mD 1 q) (a s) (b s) (c s) + c' * RigidPoly.meval (RigidPoly.mD 2 q) (a s) (b s) (c s)).
Proof.
  intros Ha Hb Hc. unfold RigidPoly.meval at 1. eapply is_derive_eq.
  - apply (is_derive_lsum (fun u t => fst u * RigidPoly.mval (snd u) (a t) (b t) (c t)) (fun u => fst u * (a' * (INR (RigidPoly.deg1 0 (snd u)) * RigidPoly.mval (RigidPoly.dn1 0 (snd u)) (a s) (b s) (c s)) + b' * (INR (RigidPoly.deg1 1 (snd u)) * RigidPoly.mval (RigidPoly.dn1 1 (snd u)) (a s) (b s) (c s)) + c' * (INR (RigidPoly.deg1 2 (snd u)) * RigidPoly.mval (RigidPoly.dn1 2 (snd u)) (a s) (b s) (c s))))).
    intros u _. apply (is_derive_scal (fun t => RigidPoly.mval (snd u) (a t) (b t) (c t))). apply mval_curve; assumption.
  - unfold RigidPoly.meval, RigidPoly.mD. rewrite !lsum_map, <- !lsum_scal, <- !lsum_plus. apply lsum_ext. intros u _. cbn [fst snd]. ring.
Qed.

Definition rx (k : Z) (t : R) (u : R * R * R) : R := fst (fst (rotate k t u)).
Definition ry (k : Z) (t : R) (u : R * R * R) : R := snd (fst (rotate k t u)).
Definition rz (k : Z) (t : R) (u : R * R * R) : R := snd (rotate k t u).

Lemma rotate_0 k x y z : rotate k 0 (x, y, z) = (x, y, z).
Proof. unfold rotate. rewrite cos_0, sin_0. destruct (k =? 0)%Z; [|destruct (k =? 1)%Z]; f_equal; try f_equal; ring. Qed.

Lemma rotate_derive k x y z : (0 <= k < 3)%Z ->
  is_derive (fun t => rx k t (x, y, z)) 0 (vel k 0 x y z) /\ is_derive (fun t => ry k t (x, y, z)) 0 (vel k 1 x y z) /\ is_derive (fun t => rz k t (x, y, z)) 0 (vel k 2 x y z).
Proof.
  intros Hk. unfold rx, ry, rz, rotate, vel. assert (k = 0 \/ k = 1 \/ k = 2)%Z as [-> | [-> | ->]] by lia; cbn [Z.eqb Pos.eqb fst snd]; (split; [|split]); auto_derive; try exact I; rewrite ?cos_0, ?sin_0; ring.
Qed.

Lemma rotate_unit k t x y z : x ^ 2 + y ^ 2 + z ^ 2 = 1 -> rx k t (x, y, z) ^ 2 + ry k t (x, y, z) ^ 2 + rz k t (x, y, z) ^ 2 = 1.
Proof.
  intros Hu. unfold rx, ry, rz, rotate. pose proof (sin2_cos2 t) as S. unfold Rsqr in S. rewrite <- Hu. destruct (k =? 0)%Z; [|destruct (k =? 1)%Z]; cbn [fst snd].
  - transitivity (x ^ 2 + (sin t * sin t + cos t * cos t) * (y ^ 2 + z ^ 2)); [ring|rewrite S; ring].
  - transitivity (y ^ 2 + (sin t * sin t + cos t * cos t) * (x ^ 2 + z ^ 2)); [ring|rewrite S; ring].
  - transitivity (z ^ 2 + (sin t * sin t + cos t * cos t) * (x ^ 2 + y ^ 2)); [ring|rewrite S; ring].
Qed.

Lemma zsum_derive lo hi (f : Z -> R -> R) s (v : Z -> R) : (forall i, (lo <= i < hi)%Z -> is_derive (f i) s (v i)) -> is_derive (fun t => zsum lo hi (fun i => f i t)) s (zsum lo hi v).
Proof.
  revert lo. apply (zsum_ind (fun lo => (forall i, (lo <= i < hi)%Z -> is_derive (f i) s (v i)) -> is_derive (fun t => zsum lo hi (fun i => f i t)) s (zsum lo hi v)) hi).
  - intros lo Hl _. rewrite zsum_nil by lia. eapply is_derive_ext; [|apply (is_derive_const (V := R_NormedModule) 0)]. intros t. rewrite zsum_nil by lia. reflexivity.
  - intros lo Hl IH H. rewrite zsum_first by lia. eapply is_derive_ext; [|apply (is_derive_plus (f lo) (fun t => zsum (lo + 1) hi (fun i => f i t)) s (v lo) (zsum (lo + 1) hi v)); [apply H; lia|apply IH; intros; apply H; lia]]. intros t. cbv beta. symmetry. rewrite zsum_first by lia. reflexivity.
Qed.

Section W.
Variable O : mat.
Hypothesis HO : orthogonal O.
Variable l : nat.
Hypothesis Hl : (l <= 40)%nat.
Variable W : Z -> Z -> Z -> R.
Hypothesis HW : forall k, (0 <= k < 3)%Z -> angular_momentum l k (W k).
Let lo := (- Z.of_nat l)%Z.
Let hi := (Z.of_nat l + 1)%Z.

(** the derivative of a harmonic along e_k x u *)
Lemma momentum_poly k m x y z : (0 <= k < 3)%Z -> (Z.abs m <= Z.of_nat l)%Z -> x ^ 2 + y ^ 2 + z ^ 2 = 1 ->
  vel k 0 x y z * RigidPoly.meval (RigidPoly.mD 0 (htri l m)) x y z + vel k 1 x y z * RigidPoly.meval (RigidPoly.mD 1 (htri l m)) x y z + vel k 2 x y z * RigidPoly.meval (RigidPoly.mD 2 (htri l m)) x y z =
  - zsum lo hi (fun p => W k p m * real_sph l p x y z).
Proof.
  intros Hk Hm Hu. destruct (rotate_derive k x y z Hk) as (D0 & D1 & D2). pose proof (meval_curve (htri l m) _ _ _ 0 _ _ _ D0 D1 D2) as H1.
  pose proof (HW k Hk m x y z Hm) as H2. specialize (H2 ltac:(cbn [pow] in Hu; lra)). fold lo hi in H2. apply is_derive_unique in H2. rewrite <- H2. symmetry. apply is_derive_unique.
  unfold rx, ry, rz in H1. rewrite rotate_0 in H1. cbn [fst snd] in H1. eapply is_derive_ext; [|exact H1]. intros t. cbv beta. rewrite <- te_meval. pose proof (rotate_unit k t x y z Hu) as U. unfold rx, ry, rz in U. destruct (rotate k t (x, y, z)) as [[a b] c]. cbn [fst snd] in *. apply htri_sph; assumption.
Qed.

(** W_k D = det O sum_j O_kj D W_j *)
Lemma momentum_rot_aux k m x y z : (0 <= k < 3)%Z -> (Z.abs m <= Z.of_nat l)%Z -> x ^ 2 + y ^ 2 + z ^ 2 = 1 ->
  zsum lo hi (fun q => zsum lo hi (fun n => W k q n * DD O l n m) * real_sph l q x y z) =
  zsum lo hi (fun q => det3 O * zsum lo hi (fun p => DD O l q p * (O k 0%Z * W 0%Z p m + O k 1%Z * W 1%Z p m + O k 2%Z * W 2%Z p m)) * real_sph l q x y z).
Proof.
  intros Hk Hm Hu. pose proof (rot_unit O x y z HO Hu) as Hu'.
  assert (Hz : x * x + y * y + z * z = 1) by (cbn [pow] in Hu; lra).
  (* derivative of the rotated harmonic in two ways *)
  destruct (rotate_derive k x y z Hk) as (D0 & D1 & D2).
  assert (T : forall i, is_derive (fun t => tr O i (rx k t (x, y, z)) (ry k t (x, y, z)) (rz k t (x, y, z))) 0 (tr O i (vel k 0 x y z) (vel k 1 x y z) (vel k 2 x y z))).
  { intros i. unfold RigidPoly.tr. apply (is_derive_plus (fun t => O 0%Z i * rx k t (x, y, z) + O 1%Z i * ry k t (x, y, z)) (fun t => O 2%Z i * rz k t (x, y, z))); [apply (is_derive_plus (fun t => O 0%Z i * rx k t (x, y, z)) (fun t => O 1%Z i * ry k t (x, y, z)))|]; apply is_derive_scal; assumption. }
  pose proof (meval_curve (htri l m) _ _ _ 0 _ _ _ (T 0%Z) (T 1%Z) (T 2%Z)) as H1. unfold rx, ry, rz in H1. rewrite rotate_0 in H1. cbn [fst snd] in H1.
  assert (H2 : is_derive (fun t => zsum lo hi (fun n => DD O l n m * (let '(a, b, c) := rotate k t (x, y, z) in real_sph l n a b c))) 0 (zsum lo hi (fun n => DD O l n m * - zsum lo hi (fun q => W k q n * real_sph l q x y z)))).
  { apply (zsum_derive lo hi (fun n t => DD O l n m * (let '(a, b, c) := rotate k t (x, y, z) in real_sph l n a b c)) 0 (fun n => DD O l n m * - zsum lo hi (fun q => W k q n * real_sph l q x y z))). intros n Hn. apply (is_derive_scal (fun t => let '(a, b, c) := rotate k t (x, y, z) in real_sph l n a b c)). apply (HW k Hk n x y z); [unfold lo, hi in Hn; lia|exact Hz]. }
  match type of H1 with is_derive ?f _ ?a => match type of H2 with is_derive ?g _ ?b => assert (E : a = b) end end.
  { apply is_derive_unique in H2. rewrite <- H2. symmetry. apply is_derive_unique. eapply is_derive_ext; [|exact H1]. intros t. cbv beta. rewrite <- te_meval. pose proof (rotate_unit k t x y z Hu) as U. unfold rx, ry, rz in U. destruct (rotate k t (x, y, z)) as [[a b] c]. cbn [fst snd] in *.
    rewrite htri_sph by (try assumption; apply rot_unit; assumption). exact (rot_expand O l m a b c HO Hl Hm U). }
  clear H1 H2 T D0 D1 D2. rewrite !(rot_vel O k) in E by (assumption || lia).
  pose proof (fun j Hj => momentum_poly j m _ _ _ Hj Hm Hu') as MP.
  set (g0 := RigidPoly.meval (RigidPoly.mD 0 (htri l m)) (tr O 0 x y z) (tr O 1 x y z) (tr O 2 x y z)) in *. set (g1 := RigidPoly.meval (RigidPoly.mD 1 (htri l m)) (tr O 0 x y z) (tr O 1 x y z) (tr O 2 x y z)) in *. set (g2 := RigidPoly.meval (RigidPoly.mD 2 (htri l m)) (tr O 0 x y z) (tr O 1 x y z) (tr O 2 x y z)) in *.
  set (X := fun j i => vel j i (tr O 0 x y z) (tr O 1 x y z) (tr O 2 x y z)) in *.
  pose proof (MP 0%Z ltac:(lia)) as M0. pose proof (MP 1%Z ltac:(lia)) as M1. pose proof (MP 2%Z ltac:(lia)) as M2. clear MP.
  set (Y := fun j => zsum lo hi (fun p => W j p m * rotf O (real_sph l p) x y z)).
  assert (E2 : det3 O * (O k 0%Z * Y 0%Z + O k 1%Z * Y 1%Z + O k 2%Z * Y 2%Z) = zsum lo hi (fun n => DD O l n m * zsum lo hi (fun q => W k q n * real_sph l q x y z))).
  { assert (N : zsum lo hi (fun n => DD O l n m * - zsum lo hi (fun q => W k q n * real_sph l q x y z)) = - zsum lo hi (fun n => DD O l n m * zsum lo hi (fun q => W k q n * real_sph l q x y z))).
    { rewrite (zsum_ext _ _ _ (fun n => -1 * (DD O l n m * zsum lo hi (fun q => W k q n * real_sph l q x y z)))) by (intros; ring). rewrite zsum_scal. ring. }
    rewrite N in E. apply Ropp_eq_compat in E. rewrite Ropp_involutive in E. rewrite <- E. unfold Y, rotf.
    replace (zsum lo hi (fun p => W 0%Z p m * real_sph l p (tr O 0 x y z) (tr O 1 x y z) (tr O 2 x y z))) with (- (X 0%Z 0%Z * g0 + X 0%Z 1%Z * g1 + X 0%Z 2%Z * g2)) by (unfold X; rewrite M0; ring).
    replace (zsum lo hi (fun p => W 1%Z p m * real_sph l p (tr O 0 x y z) (tr O 1 x y z) (tr O 2 x y z))) with (- (X 1%Z 0%Z * g0 + X 1%Z 1%Z * g1 + X 1%Z 2%Z * g2)) by (unfold X; rewrite M1; ring).
    replace (zsum lo hi (fun p => W 2%Z p m * real_sph l p (tr O 0 x y z) (tr O 1 x y z) (tr O 2 x y z))) with (- (X 2%Z 0%Z * g0 + X 2%Z 1%Z * g1 + X 2%Z 2%Z * g2)) by (unfold X; rewrite M2; ring).
    unfold X. ring. }
  transitivity (zsum lo hi (fun n => DD O l n m * zsum lo hi (fun q => W k q n * real_sph l q x y z))).
  { rewrite (zsum_ext lo hi (fun n => DD O l n m * zsum lo hi (fun q => W k q n * real_sph l q x y z)) (fun n => zsum lo hi (fun q => DD O l n m * (W k q n * real_sph l q x y z)))) by (intros; rewrite zsum_scal; reflexivity).
    rewrite zsum_swap. apply zsum_ext. intros q Hq. rewrite Rmult_comm, <- zsum_scal. apply zsum_ext. intros; ring. }
  rewrite <- E2.
  assert (EY : forall j, Y j = zsum lo hi (fun q => zsum lo hi (fun p => DD O l q p * W j p m) * real_sph l q x y z)).
  { intros j. unfold Y. rewrite (zsum_ext lo hi _ (fun p => zsum lo hi (fun q => W j p m * (DD O l q p * real_sph l q x y z)))).
    - rewrite zsum_swap. apply zsum_ext. intros q Hq. symmetry. rewrite Rmult_comm, <- zsum_scal. apply zsum_ext. intros; ring.
    - intros p Hp. rewrite (rot_expand O l p x y z HO Hl ltac:(unfold lo, hi in Hp; lia) Hu). symmetry. apply zsum_scal. }
  rewrite !EY, <- !zsum_scal, <- !zsum_plus, <- !zsum_scal. apply zsum_ext. intros q Hq.
  rewrite (zsum_ext lo hi (fun p => DD O l q p * (O k 0%Z * W 0%Z p m + O k 1%Z * W 1%Z p m + O k 2%Z * W 2%Z p m)) (fun p => O k 0%Z * (DD O l q p * W 0%Z p m) + O k 1%Z * (DD O l q p * W 1%Z p m) + O k 2%Z * (DD O l q p * W 2%Z p m))) by (intros; ring).
  rewrite !zsum_plus, !zsum_scal. ring.
Qed.
End W.

Lemma harm_indep l (a b : Z -> R) : (forall x y z, x ^ 2 + y ^ 2 + z ^ 2 = 1 -> zsum (- Z.of_nat l) (Z.of_nat l + 1) (fun q => a q * real_sph l q x y z) = zsum (- Z.of_nat l) (Z.of_nat l + 1) (fun q => b q * real_sph l q x y z)) ->
  forall q, (Z.abs q <= Z.of_nat l)%Z -> a q = b q.
Proof.
  intros H q Hq.
  assert (I : forall c : Z -> R, sphere_int (fun x y z => zsum (- Z.of_nat l) (Z.of_nat l + 1) (fun p => c p * real_sph l p x y z) * real_sph l q x y z) (c q)).
  { intros c. eapply sphere_val.
    - eapply sphere_ext; [|apply (sphere_zsum (- Z.of_nat l) (Z.of_nat l + 1) (fun p x y z => c p * (real_sph l p x y z * real_sph l q x y z)) (fun p => c p * (if (p =? q)%Z then 1 else 0)))].
      + intros x y z _. cbv beta. symmetry. rewrite Rmult_comm, <- zsum_scal. apply zsum_ext. intros; ring.
      + intros p Hp. apply sphere_scal. pose proof (orthonormal l l p q ltac:(lia) Hq) as X. rewrite Nat.eqb_refl in X. exact X.
    - rewrite (zsum_delta _ _ q); [rewrite Z.eqb_refl; ring|lia|]. intros i _ Hi. rewrite (proj2 (Z.eqb_neq i q)) by exact Hi. ring. }
  apply (sphere_uniq _ _ _ (I a)). eapply sphere_ext; [|apply (I b)]. intros x y z Hu. cbv beta. rewrite (H x y z Hu). reflexivity.
Qed.

Lemma momentum_rot O l W k m m' : orthogonal O -> (l <= 40)%nat -> (forall k, (0 <= k < 3)%Z -> angular_momentum l k (W k)) -> (0 <= k < 3)%Z -> (Z.abs m <= Z.of_nat l)%Z -> (Z.abs m' <= Z.of_nat l)%Z ->
  zsum (- Z.of_nat l) (Z.of_nat l + 1) (fun q => zsum (- Z.of_nat l) (Z.of_nat l + 1) (fun n => DD O l q m' * W k q n * DD O l n m)) =
  det3 O * (O k 0%Z * W 0%Z m' m + O k 1%Z * W 1%Z m' m + O k 2%Z * W 2%Z m' m).
Proof.
  intros HO Hl HW Hk Hm Hm'. set (lo := (- Z.of_nat l)%Z). set (hi := (Z.of_nat l + 1)%Z).
  pose proof (harm_indep l _ _ (fun x y z Hu => momentum_rot_aux O HO l Hl W HW k m x y z Hk Hm Hu)) as E. fold lo hi in E.
  rewrite (zsum_ext lo hi _ (fun q => det3 O * zsum lo hi (fun p => DD O l q m' * DD O l q p * (O k 0%Z * W 0%Z p m + O k 1%Z * W 1%Z p m + O k 2%Z * W 2%Z p m)))).
  - rewrite zsum_scal. f_equal. rewrite zsum_swap. rewrite (zsum_delta lo hi m').
    + rewrite (zsum_ext lo hi _ (fun q => (O k 0%Z * W 0%Z m' m + O k 1%Z * W 1%Z m' m + O k 2%Z * W 2%Z m' m) * (DD O l q m' * DD O l q m'))) by (intros; ring). rewrite zsum_scal. unfold lo, hi. rewrite (DD_orth_cols O l m' m' HO Hl Hm' Hm'), Z.eqb_refl. ring.
    + unfold lo, hi. lia.
    + intros p Hp Hne. rewrite (zsum_ext lo hi _ (fun q => (O k 0%Z * W 0%Z p m + O k 1%Z * W 1%Z p m + O k 2%Z * W 2%Z p m) * (DD O l q m' * DD O l q p))) by (intros; ring). rewrite zsum_scal. unfold lo, hi in *. rewrite (DD_orth_cols O l m' p HO Hl Hm' ltac:(lia)), (proj2 (Z.eqb_neq m' p)) by auto. ring.
  - intros q Hq. rewrite (zsum_ext lo hi _ (fun n => DD O l q m' * (W k q n * DD O l n m))) by (intros; ring). rewrite zsum_scal, (E q) by (unfold lo, hi in Hq; lia).
    rewrite (zsum_ext lo hi (fun p => DD O l q m' * DD O l q p * _) (fun p => DD O l q m' * (DD O l q p * (O k 0%Z * W 0%Z p m + O k 1%Z * W 1%Z p m + O k 2%Z * W 2%Z p m)))) by (intros; ring). rewrite zsum_scal. ring.
Qed.

(** sums over the projections *)
Lemma zsum_mul2 lo hi f g w : zsum lo hi f * w * zsum lo hi g = zsum lo hi (fun n => zsum lo hi (fun n' => f n * w * g n')).
Proof.
  rewrite (zsum_ext lo hi (fun n => zsum lo hi (fun n' => f n * w * g n')) (fun n => (w * zsum lo hi g) * f n)); [rewrite zsum_scal; ring|]. intros n _. rewrite zsum_scal. ring.
Qed.

Lemma pair_rot O l (P Q : Z -> R) : orthogonal O -> (l <= 40)%nat ->
  zsum (- Z.of_nat l) (Z.of_nat l + 1) (fun m => zsum (- Z.of_nat l) (Z.of_nat l + 1) (fun n => DD O l m n * P n) * zsum (- Z.of_nat l) (Z.of_nat l + 1) (fun n => DD O l m n * Q n)) =
  zsum (- Z.of_nat l) (Z.of_nat l + 1) (fun m => P m * Q m).
Proof.
  intros HO Hl. set (lo := (- Z.of_nat l)%Z). set (hi := (Z.of_nat l + 1)%Z).
  rewrite (zsum_ext lo hi _ (fun m => zsum lo hi (fun n => zsum lo hi (fun n' => P n * Q n' * (DD O l m n * DD O l m n'))))).
  - rewrite zsum_swap. apply zsum_ext. intros n Hn. rewrite zsum_swap. rewrite (zsum_delta lo hi n); [|exact Hn|].
    + rewrite zsum_scal. unfold lo, hi in *. rewrite (DD_orth_cols O l n n HO Hl ltac:(lia) ltac:(lia)), Z.eqb_refl. ring.
    + intros p Hp Hne. rewrite zsum_scal. unfold lo, hi in *. rewrite (DD_orth_cols O l n p HO Hl ltac:(lia) ltac:(lia)), (proj2 (Z.eqb_neq n p)) by auto. ring.
  - intros m Hm. rewrite Rmult_comm, <- zsum_scal. apply zsum_ext. intros n Hn. rewrite Rmult_comm, <- zsum_scal. apply zsum_ext. intros n' Hn'. ring.
Qed.

Lemma pair_rot_W O l W k (P Q : Z -> R) : orthogonal O -> (l <= 40)%nat -> (forall k, (0 <= k < 3)%Z -> angular_momentum l k (W k)) -> (0 <= k < 3)%Z ->
  zsum (- Z.of_nat l) (Z.of_nat l + 1) (fun m => zsum (- Z.of_nat l) (Z.of_nat l + 1) (fun m' => zsum (- Z.of_nat l) (Z.of_nat l + 1) (fun n => DD O l m n * P n) * W k m m' * zsum (- Z.of_nat l) (Z.of_nat l + 1) (fun n => DD O l m' n * Q n))) =
  det3 O * (O k 0%Z * zsum (- Z.of_nat l) (Z.of_nat l + 1) (fun m => zsum (- Z.of_nat l) (Z.of_nat l + 1) (fun m' => P m * W 0%Z m m' * Q m')) +
            O k 1%Z * zsum (- Z.of_nat l) (Z.of_nat l + 1) (fun m => zsum (- Z.of_nat l) (Z.of_nat l + 1) (fun m' => P m * W 1%Z m m' * Q m')) +
            O k 2%Z * zsum (- Z.of_nat l) (Z.of_nat l + 1) (fun m => zsum (- Z.of_nat l) (Z.of_nat l + 1) (fun m' => P m * W 2%Z m m' * Q m'))).
Proof.
  intros HO Hl HW Hk. set (lo := (- Z.of_nat l)%Z). set (hi := (Z.of_nat l + 1)%Z).
  transitivity (zsum lo hi (fun n => zsum lo hi (fun n' => P n * Q n' * (det3 O * (O k 0%Z * W 0%Z n n' + O k 1%Z * W 1%Z n n' + O k 2%Z * W 2%Z n n'))))).
  - rewrite (zsum_ext lo hi _ (fun m => zsum lo hi (fun n => zsum lo hi (fun n' => zsum lo hi (fun m' => P n * Q n' * (DD O l m n * W k m m' * DD O l m' n')))))).
    + rewrite zsum_swap. apply zsum_ext. intros n Hn. rewrite zsum_swap. apply zsum_ext. intros n' Hn'. rewrite <- (momentum_rot O l W k n' n HO Hl HW Hk) by (unfold lo, hi in *; lia). fold lo hi. rewrite <- zsum_scal. apply zsum_ext. intros m Hm. rewrite zsum_scal. reflexivity.
    + intros m Hm. transitivity (zsum lo hi (fun m' => zsum lo hi (fun n => zsum lo hi (fun n' => P n * Q n' * (DD O l m n * W k m m' * DD O l m' n'))))).
      * apply zsum_ext. intros m' Hm'. rewrite zsum_mul2. apply zsum_ext. intros n Hn. apply zsum_ext. intros n' Hn'. ring.
      * rewrite zsum_swap. apply zsum_ext. intros n Hn. apply zsum_swap.
  - rewrite <- !zsum_scal, <- !zsum_plus, <- !zsum_scal. apply zsum_ext. intros n Hn. rewrite <- !zsum_scal, <- !zsum_plus, <- !zsum_scal. apply zsum_ext. intros n' Hn'. ring.
Qed.
