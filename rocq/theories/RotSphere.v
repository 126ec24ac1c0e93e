(** * Integrals over the unit sphere and spherical harmonics under rotations and reflections (C84) *)

From Coq Require Import ZArith Reals Lra Lia List Bool.
From Coquelicot Require Import Coquelicot.
From Verif Require Import Base BinomProofs CartModel CartProofs OneElModel OneElProofs OneElInt GaussInt Sums SpecExp SpecSpec BesselProofs SphModel SphSpec SphPoly SphProofs SphTables SphInt SphOrtho SphAngular SphHarm SphThms SphTri SphHecke SphPlane SphSpan SphAdd.
From Verif Require RigidPoly RigidThms.
Import ListNotations.
Open Scope R_scope.

Notation mat := RigidPoly.mat.
Notation tr := RigidPoly.tr.
Notation orthogonal := RigidPoly.orthogonal.

(** f after the transposed matrix *)
Definition rotf (O : mat) (f : R -> R -> R -> R) (x y z : R) : R := f (tr O 0 x y z) (tr O 1 x y z) (tr O 2 x y z).

Definition transp (O : mat) : mat := fun i j => O j i.
Lemma transp_orth O : orthogonal O -> orthogonal (transp O).
Proof. intros (H1 & H2). split; [exact H2|exact H1]. Qed.

Lemma orth_cols O : orthogonal O -> forall x y z a b c,
  tr O 0 x y z * tr O 0 a b c + tr O 1 x y z * tr O 1 a b c + tr O 2 x y z * tr O 2 a b c = x * a + y * b + z * c.
Proof.
  intros (_ & H) x y z a b c. unfold RigidPoly.tr.
  assert (E : forall i k, (0 <= i < 3)%Z -> (0 <= k < 3)%Z -> O i 0%Z * O k 0%Z + O i 1%Z * O k 1%Z + O i 2%Z * O k 2%Z = RigidPoly.delta i k) by (intros i k Hi Hk; exact (H i k Hi Hk)).
  transitivity (x * a * (O 0%Z 0%Z * O 0%Z 0%Z + O 0%Z 1%Z * O 0%Z 1%Z + O 0%Z 2%Z * O 0%Z 2%Z) + x * b * (O 0%Z 0%Z * O 1%Z 0%Z + O 0%Z 1%Z * O 1%Z 1%Z + O 0%Z 2%Z * O 1%Z 2%Z) + x * c * (O 0%Z 0%Z * O 2%Z 0%Z + O 0%Z 1%Z * O 2%Z 1%Z + O 0%Z 2%Z * O 2%Z 2%Z)
    + y * a * (O 1%Z 0%Z * O 0%Z 0%Z + O 1%Z 1%Z * O 0%Z 1%Z + O 1%Z 2%Z * O 0%Z 2%Z) + y * b * (O 1%Z 0%Z * O 1%Z 0%Z + O 1%Z 1%Z * O 1%Z 1%Z + O 1%Z 2%Z * O 1%Z 2%Z) + y * c * (O 1%Z 0%Z * O 2%Z 0%Z + O 1%Z 1%Z * O 2%Z 1%Z + O 1%Z 2%Z * O 2%Z 2%Z)
    + z * a * (O 2%Z 0%Z * O 0%Z 0%Z + O 2%Z 1%Z * O 0%Z 1%Z + O 2%Z 2%Z * O 0%Z 2%Z) + z * b * (O 2%Z 0%Z * O 1%Z 0%Z + O 2%Z 1%Z * O 1%Z 1%Z + O 2%Z 2%Z * O 1%Z 2%Z) + z * c * (O 2%Z 0%Z * O 2%Z 0%Z + O 2%Z 1%Z * O 2%Z 1%Z + O 2%Z 2%Z * O 2%Z 2%Z)); [ring|].
  rewrite !E by lia. unfold RigidPoly.delta. cbn [Z.eqb Pos.eqb]. ring.
Qed.

Lemma rot_unit O x y z : orthogonal O -> x ^ 2 + y ^ 2 + z ^ 2 = 1 -> tr O 0 x y z ^ 2 + tr O 1 x y z ^ 2 + tr O 2 x y z ^ 2 = 1.
Proof. intros HO Hu. rewrite <- Hu. pose proof (orth_cols O HO x y z x y z) as E. cbn [pow]. rewrite !Rmult_1_r. exact E. Qed.

Lemma transp_tr O i x y z : orthogonal O -> (0 <= i < 3)%Z -> tr (transp O) i (tr O 0 x y z) (tr O 1 x y z) (tr O 2 x y z) = if (i =? 0)%Z then x else if (i =? 1)%Z then y else z.
Proof.
  intros HO Hi. unfold RigidPoly.tr at 1. unfold transp.
  assert (i = 0 \/ i = 1 \/ i = 2)%Z as [-> | [-> | ->]] by lia; cbn [Z.eqb Pos.eqb].
  - pose proof (orth_cols O HO 1 0 0 x y z) as E. unfold RigidPoly.tr in *. lra.
  - pose proof (orth_cols O HO 0 1 0 x y z) as E. unfold RigidPoly.tr in *. lra.
  - pose proof (orth_cols O HO 0 0 1 x y z) as E. unfold RigidPoly.tr in *. lra.
Qed.

Lemma rotf_back O f x y z : orthogonal O -> rotf O (rotf (transp O) f) x y z = f x y z.
Proof. intros HO. unfold rotf. rewrite !(transp_tr O) by (assumption || lia). reflexivity. Qed.

Lemma tr_transp O i x y z : orthogonal O -> (0 <= i < 3)%Z -> tr O i (tr (transp O) 0 x y z) (tr (transp O) 1 x y z) (tr (transp O) 2 x y z) = if (i =? 0)%Z then x else if (i =? 1)%Z then y else z.
Proof. intros HO Hi. exact (transp_tr (transp O) i x y z (transp_orth O HO) Hi). Qed.

(** ** Homogeneous polynomials *)
Lemma te_meval p x y z : te p x y z = RigidPoly.meval p x y z.
Proof. unfold te, RigidPoly.meval. apply lsum_ext. intros (c, ((i, j), k)) _. reflexivity. Qed.

Lemma gm_even a : RigidPoly.gm 1 (2 * a) = odf a / 2 ^ a * sqrt PI.
Proof.
  induction a as [|a IH]; [cbn; rewrite Rdiv_1; field|]. replace (2 * S a)%nat with (S (S (2 * a))) by lia. rewrite RigidPoly.gm_SS, IH. cbn [odf pow]. rewrite S_INR, INR_dbl. field. apply pow_nonzero. lra.
Qed.
Lemma gm_odd n : Nat.even n = false -> RigidPoly.gm 1 n = 0.
Proof.
  intros H. assert (E : exists a, n = S (2 * a)). { exists (Nat.div2 n). pose proof (Nat.div2_odd n) as E. rewrite <- Nat.negb_even, H in E. cbn [negb Nat.b2n] in E. lia. }
  destruct E as (a & ->). clear H. induction a as [|a IH]; [reflexivity|]. replace (S (2 * S a)) with (S (S (S (2 * a)))) by lia. rewrite RigidPoly.gm_SS, IH. ring.
Qed.

(** on polynomials of one degree the integral over the sphere is a multiple of the Gaussian one *)
Definition cdeg (d : nat) : R := 4 * PI * 2 ^ Nat.div2 d / (odf (S (Nat.div2 d)) * sqrt PI ^ 3).

Lemma mv_gmm i j k : SphTri.mv i j k = cdeg (i + j + k) * RigidPoly.gmm 1 (i, j, k).
Proof.
  unfold SphTri.mv, even3, RigidPoly.gmm, cdeg. assert (Hs : sqrt PI <> 0) by (apply Rgt_not_eq, sqrt_lt_R0, PI_RGT_0).
  destruct (Nat.even i) eqn:Ei; [|rewrite (gm_odd i Ei); cbn [andb]; ring]. destruct (Nat.even j) eqn:Ej; [|rewrite (gm_odd j Ej); cbn [andb]; ring]. destruct (Nat.even k) eqn:Ek; [|rewrite (gm_odd k Ek); cbn [andb]; ring]. cbn [andb].
  apply even_div2 in Ei. apply even_div2 in Ej. apply even_div2 in Ek. set (a := Nat.div2 i) in *. set (b := Nat.div2 j) in *. set (c := Nat.div2 k) in *. rewrite Ei, Ej, Ek, !gm_even.
  replace (2 * a + 2 * b + 2 * c)%nat with (2 * (a + b + c))%nat by lia. rewrite Nat.div2_double, !pow_add. pose proof (odf_pos (S (a + b + c))). field. repeat split; try (apply pow_nonzero; lra); [exact Hs|lra].
Qed.

Lemma tint_gL d p : homog d p -> tint p = cdeg d * RigidPoly.gL 1 p.
Proof.
  intros H. unfold tint, RigidPoly.gL. rewrite <- lsum_scal. apply lsum_ext. intros (c, ((i, j), k)) Hi. cbn [fst snd]. rewrite mv_gmm, (H c i j k Hi). ring.
Qed.

Lemma homog_rsub O d p : homog d p -> homog d (RigidPoly.rsub O p).
Proof.
  intros H c i j k Hi. unfold RigidPoly.rsub, RigidPoly.asub in Hi. apply in_flat_map in Hi. destruct Hi as ((c0, ((i0, j0), k0)) & H0 & Hi). cbn [fst snd] in Hi. unfold RigidPoly.mscal in Hi. apply in_map_iff in Hi. destruct Hi as ((c1, m1) & E & Hi). cbn [fst snd] in E. injection E as _ ->.
  pose proof (RigidThms.hom_asubm O (i0, j0, k0) _ Hi) as X. cbn [snd RigidPoly.tdeg] in X. rewrite <- (H _ _ _ _ H0). exact X.
Qed.

Lemma sphere_rot_tri O d p : orthogonal O -> homog d p -> sphere_int (rotf O (te p)) (tint p).
Proof.
  intros HO H. rewrite (tint_gL d p H), <- (RigidPoly.gL_rsub O 1 p HO Rlt_0_1), <- (tint_gL d _ (homog_rsub O d p H)).
  eapply sphere_ext; [|apply tint_ok]. intros x y z _. unfold rotf. rewrite !te_meval, RigidPoly.meval_rsub. reflexivity.
Qed.

(** ** The matrices of the harmonics *)
Lemma sph_unit_tri l m x y z : (l <= 40)%nat -> (Z.abs m <= Z.of_nat l)%Z -> x ^ 2 + y ^ 2 + z ^ 2 = 1 -> real_sph l m x y z = te (htri l m) x y z.
Proof. intros. symmetry. apply htri_sph; assumption. Qed.

(** D l m m' : the overlap of the harmonic (l, m) with the rotated harmonic (l, m') *)
Definition DD (O : mat) (l : nat) (m m' : Z) : R := tint (tmul (RigidPoly.rsub O (htri l m')) (htri l m)).

Lemma DD_int O l m m' : orthogonal O -> (l <= 40)%nat -> (Z.abs m <= Z.of_nat l)%Z -> (Z.abs m' <= Z.of_nat l)%Z ->
  sphere_int (fun x y z => rotf O (real_sph l m') x y z * real_sph l m x y z) (DD O l m m').
Proof.
  intros HO Hl Hm Hm'. eapply sphere_ext; [|apply tint_ok]. intros x y z Hu. rewrite te_mul, (te_meval (RigidPoly.rsub _ _)), RigidPoly.meval_rsub, <- te_meval. unfold rotf. rewrite (htri_sph l m x y z Hl Hm Hu), htri_sph; [reflexivity|exact Hl|exact Hm'|]. apply rot_unit; assumption.
Qed.

Lemma sphere_rot_pair O l m l' m' : orthogonal O -> (l <= 40)%nat -> (l' <= 40)%nat -> (Z.abs m <= Z.of_nat l)%Z -> (Z.abs m' <= Z.of_nat l')%Z ->
  sphere_int (fun x y z => rotf O (real_sph l m) x y z * rotf O (real_sph l' m') x y z) (if (l =? l')%nat && (m =? m')%Z then 1 else 0).
Proof.
  intros HO Hl Hl' Hm Hm'. pose proof (homog_mul l l' _ _ (htri_homog l m) (htri_homog l' m')) as Hh. eapply sphere_val.
  - eapply sphere_ext; [|apply (sphere_rot_tri O _ _ HO Hh)]. intros x y z Hu. pose proof (rot_unit O x y z HO Hu) as Hu'. unfold rotf. rewrite te_mul, !htri_sph by assumption. reflexivity.
  - apply (sphere_uniq (te (tmul (htri l m) (htri l' m')))); [apply tint_ok|]. eapply sphere_ext; [|apply (orthonormal l l' m m' Hm Hm')]. intros x y z Hu. cbv beta. rewrite te_mul, !htri_sph by assumption. reflexivity.
Qed.

Lemma rot_expand O l m' x y z : orthogonal O -> (l <= 40)%nat -> (Z.abs m' <= Z.of_nat l)%Z -> x ^ 2 + y ^ 2 + z ^ 2 = 1 ->
  rotf O (real_sph l m') x y z = zsum (- Z.of_nat l) (Z.of_nat l + 1) (fun m => DD O l m m' * real_sph l m x y z).
Proof.
  intros HO Hl Hm' Hu. pose proof (rot_unit O x y z HO Hu) as Hu'.
  apply (sphere_uniq (fun a b c => zsum (- Z.of_nat l) (Z.of_nat l + 1) (fun n => rotf O (real_sph l n) x y z * (rotf O (real_sph l n) a b c * rotf O (real_sph l m') a b c)))).
  - eapply sphere_val; [apply (sphere_zsum _ _ (fun n a b c => rotf O (real_sph l n) x y z * (rotf O (real_sph l n) a b c * rotf O (real_sph l m') a b c)) (fun n => rotf O (real_sph l n) x y z * (if (n =? m')%Z then 1 else 0)))|].
    + intros n Hn. apply sphere_scal. pose proof (sphere_rot_pair O l n l m' HO Hl Hl ltac:(lia) Hm') as X. rewrite Nat.eqb_refl in X. exact X.
    + rewrite (zsum_delta _ _ m'); [rewrite Z.eqb_refl; ring|lia|]. intros i _ Hi. rewrite (proj2 (Z.eqb_neq i m')) by exact Hi. ring.
  - eapply sphere_ext; [|eapply sphere_val; [apply (sphere_zsum (- Z.of_nat l) (Z.of_nat l + 1) (fun n a b c => real_sph l n x y z * (rotf O (real_sph l m') a b c * real_sph l n a b c)) (fun n => real_sph l n x y z * DD O l n m'))|]].
    + intros a b c Hc. cbv beta. pose proof (rot_unit O a b c HO Hc) as Hc'.
      rewrite (zsum_ext _ _ (fun n => rotf O (real_sph l n) x y z * _) (fun n => rotf O (real_sph l m') a b c * (rotf O (real_sph l n) x y z * rotf O (real_sph l n) a b c))) by (intros; ring).
      rewrite (zsum_ext _ _ (fun n => real_sph l n x y z * _) (fun n => rotf O (real_sph l m') a b c * (real_sph l n x y z * real_sph l n a b c))) by (intros; ring).
      rewrite !zsum_scal. f_equal. rewrite (addition x y z a b c l Hl Hu Hc). unfold rotf. rewrite (addition _ _ _ _ _ _ l Hl Hu' Hc'), (orth_cols O HO). reflexivity.
    + intros n Hn. apply sphere_scal. apply DD_int; (assumption || lia).
    + apply zsum_ext. intros; ring.
Qed.

Lemma DD_transp O l m m' : orthogonal O -> (l <= 40)%nat -> (Z.abs m <= Z.of_nat l)%Z -> (Z.abs m' <= Z.of_nat l)%Z -> DD (transp O) l m m' = DD O l m' m.
Proof.
  intros HO Hl Hm Hm'. pose proof (transp_orth O HO) as HT. pose proof (htri_homog l m) as H1. pose proof (homog_rsub (transp O) l _ (htri_homog l m')) as H2. pose proof (homog_mul l l _ _ H2 H1) as H3.
  apply (sphere_uniq (rotf O (te (tmul (RigidPoly.rsub (transp O) (htri l m')) (htri l m))))); [apply (sphere_rot_tri O (l + l) _ HO H3)|].
  eapply sphere_ext; [|apply (DD_int O l m' m HO Hl Hm' Hm)]. intros x y z Hu. pose proof (rot_unit O x y z HO Hu) as Hu'. cbv beta. unfold rotf. rewrite te_mul, (te_meval (RigidPoly.rsub _ _)), RigidPoly.meval_rsub, <- te_meval, !(transp_tr O) by (assumption || lia). cbn [Z.eqb Pos.eqb].
  rewrite !htri_sph by assumption. ring.
Qed.

(** the matrices are orthogonal *)
Lemma DD_orth_cols O l m m' : orthogonal O -> (l <= 40)%nat -> (Z.abs m <= Z.of_nat l)%Z -> (Z.abs m' <= Z.of_nat l)%Z ->
  zsum (- Z.of_nat l) (Z.of_nat l + 1) (fun n => DD O l n m * DD O l n m') = if (m =? m')%Z then 1 else 0.
Proof.
  intros HO Hl Hm Hm'. apply (sphere_uniq (fun x y z => rotf O (real_sph l m) x y z * rotf O (real_sph l m') x y z)).
  - eapply sphere_ext; [|eapply sphere_val; [apply (sphere_zsum (- Z.of_nat l) (Z.of_nat l + 1) (fun n x y z => DD O l n m' * (rotf O (real_sph l m) x y z * real_sph l n x y z)) (fun n => DD O l n m' * DD O l n m))|]].
    + intros x y z Hu. cbv beta. rewrite (rot_expand O l m' x y z HO Hl Hm' Hu), <- zsum_scal. apply zsum_ext. intros; ring.
    + intros n Hn. apply sphere_scal, DD_int; (assumption || lia).
    + apply zsum_ext. intros; ring.
  - pose proof (sphere_rot_pair O l m l m' HO Hl Hl Hm Hm') as X. rewrite Nat.eqb_refl in X. exact X.
Qed.

Lemma DD_orth_rows O l m m' : orthogonal O -> (l <= 40)%nat -> (Z.abs m <= Z.of_nat l)%Z -> (Z.abs m' <= Z.of_nat l)%Z ->
  zsum (- Z.of_nat l) (Z.of_nat l + 1) (fun n => DD O l m n * DD O l m' n) = if (m =? m')%Z then 1 else 0.
Proof.
  intros HO Hl Hm Hm'. rewrite <- (DD_orth_cols (transp O) l m m' (transp_orth O HO) Hl Hm Hm'). apply zsum_ext. intros n Hn. rewrite !(DD_transp O l) by (assumption || lia). reflexivity.
Qed.

(** the harmonic from the rotated ones *)
Lemma rot_collect O l m x y z : orthogonal O -> (l <= 40)%nat -> (Z.abs m <= Z.of_nat l)%Z -> x ^ 2 + y ^ 2 + z ^ 2 = 1 ->
  zsum (- Z.of_nat l) (Z.of_nat l + 1) (fun m' => DD O l m m' * rotf O (real_sph l m') x y z) = real_sph l m x y z.
Proof.
  intros HO Hl Hm Hu.
  rewrite (zsum_ext _ _ _ (fun m' => zsum (- Z.of_nat l) (Z.of_nat l + 1) (fun n => DD O l m m' * (DD O l n m' * real_sph l n x y z)))).
  2:{ intros m' Hm'. rewrite (rot_expand O l m' x y z HO Hl ltac:(lia) Hu), zsum_scal. reflexivity. }
  rewrite zsum_swap. rewrite (zsum_delta _ _ m).
  - rewrite (zsum_ext _ _ _ (fun m' => real_sph l m x y z * (DD O l m m' * DD O l m m'))) by (intros; ring). rewrite zsum_scal, (DD_orth_rows O l m m HO Hl Hm Hm), Z.eqb_refl. ring.
  - lia.
  - intros n Hn Hne. rewrite (zsum_ext _ _ _ (fun m' => real_sph l n x y z * (DD O l m m' * DD O l n m'))) by (intros; ring). rewrite zsum_scal, (DD_orth_rows O l m n HO Hl Hm ltac:(lia)), (proj2 (Z.eqb_neq m n)) by auto. ring.
Qed.

(** ** Plane waves *)
Lemma rot_dot O a b c x y z : orthogonal O -> a * tr O 0 x y z + b * tr O 1 x y z + c * tr O 2 x y z = tr (transp O) 0 a b c * x + tr (transp O) 1 a b c * y + tr (transp O) 2 a b c * z.
Proof. intros _. unfold RigidPoly.tr, transp. ring. Qed.

Lemma wave_rot O a b c t d f v : orthogonal O -> (d <= 40)%nat -> span d f -> a ^ 2 + b ^ 2 + c ^ 2 = 1 ->
  sphere_int (fun x y z => exp (t * (a * x + b * y + c * z)) * f x y z) v ->
  sphere_int (rotf O (fun x y z => exp (t * (a * x + b * y + c * z)) * f x y z)) v.
Proof.
  intros HO Hd Hs Hu. revert v.
  assert (H : exists v, sphere_int (fun x y z => exp (t * (a * x + b * y + c * z)) * f x y z) v /\ sphere_int (rotf O (fun x y z => exp (t * (a * x + b * y + c * z)) * f x y z)) v).
  { induction Hs as [l m Hl He Hm| |f g p q _ (v1 & A1 & B1) _ (v2 & A2 & B2)|f g E _ (v & A & B)].
    - exists (4 * PI * exp t * bessK l t * real_sph l m a b c). split; [apply sph_wave; [lia|exact Hm|exact Hu]|].
      assert (HT : orthogonal (transp O)) by (apply transp_orth, HO). pose proof (rot_unit (transp O) a b c HT Hu) as Hu'.
      set (a' := tr (transp O) 0 a b c) in *. set (b' := tr (transp O) 1 a b c) in *. set (c' := tr (transp O) 2 a b c) in *.
      eapply sphere_ext; [|eapply sphere_val; [apply (sphere_zsum (- Z.of_nat l) (Z.of_nat l + 1) (fun n x y z => DD O l n m * (exp (t * (a' * x + b' * y + c' * z)) * real_sph l n x y z)) (fun n => DD O l n m * (4 * PI * exp t * bessK l t * real_sph l n a' b' c')))|]].
      + intros x y z Hx. cbv beta. unfold rotf at 1. rewrite (rot_dot O a b c x y z HO). fold a' b' c'. pose proof (rot_expand O l m x y z HO ltac:(lia) Hm Hx) as E. unfold rotf in E. rewrite E, <- zsum_scal. apply zsum_ext. intros; ring.
      + intros n Hn. apply sphere_scal. apply sph_wave; [lia|lia|exact Hu'].
      + rewrite (zsum_ext _ _ _ (fun n => 4 * PI * exp t * bessK l t * (DD O l n m * real_sph l n a' b' c'))) by (intros; ring). rewrite zsum_scal, <- (rot_expand O l m a' b' c' HO ltac:(lia) Hm Hu'). unfold rotf, a', b', c'. rewrite (tr_transp O 0), (tr_transp O 1), (tr_transp O 2) by (exact HO || lia). reflexivity.
    - exists 0. split; (eapply sphere_ext; [|apply sphere_zero]); intros; unfold rotf; cbv beta; ring.
    - exists (p * v1 + q * v2). split.
      + eapply sphere_ext; [|apply (sphere_lin _ _ _ _ p q A1 A2)]. intros; cbv beta; ring.
      + eapply sphere_ext; [|apply (sphere_lin _ _ _ _ p q B1 B2)]. intros; unfold rotf; cbv beta; ring.
    - exists v. split.
      + eapply sphere_ext; [|exact A]. intros x y z Hx; cbv beta. rewrite (E _ _ _ Hx). reflexivity.
      + eapply sphere_ext; [|exact B]. intros x y z Hx; unfold rotf; cbv beta. rewrite (E _ _ _ (rot_unit O x y z HO Hx)). reflexivity. }
  destruct H as (w & Hw & Hr). intros v Hv. eapply sphere_val; [exact Hr|]. exact (sphere_uniq _ _ _ Hw Hv).
Qed.
