(** * The local and the outercore part of the operator under rigid motions (C84) *)

From Coq Require Import ZArith Reals Lra Lia List Bool.
From Coquelicot Require Import Coquelicot.
From Verif Require Import Base BinomProofs CartModel CartProofs HeapModel HeapShrink OneElModel OneElProofs OneElSpec OneElInt GaussInt GaussProd GaussMoment Sums NumSpec NucPotSpec NucPot SpecSpec SphModel SphSpec SphPoly SphProofs SphInt SphOrtho SphAngular SphHarm SphThms SphTri SphHecke SphPlane SphSpan SphAdd
  OutercoreModel OutercoreProofs OutercoreRadial OutercoreSpec OutercoreMain OutercoreThms MmdModel MmdSpec MmdMain MmdThms MmdUser MmdOuter GrppModel GrppGrad3 GrppLocal GrppOc Type2Spec Type2So GrppOwnSpec GrppOwn GrppOwnThms Hermit RotSphere RotMomentum RotProj.
From Verif Require RigidPoly Rigid RigidThms.
Import ListNotations.
Open Scope R_scope.

(** ** Products of polynomials and Gaussians *)
Lemma gp_mul F G : Rigid.gp F -> Rigid.gp G -> Rigid.gp (fun x y z => F x y z * G x y z).
Proof.
  intros (l & H & E) (l' & H' & E'). apply (Rigid.gp_ext (fun x y z => lsum (fun T => lsum (fun T' => Rigid.gval T x y z * Rigid.gval T' x y z) l') l)).
  - intros x y z. rewrite E, E'. rewrite (lsum_ext (fun T => lsum (fun T' => Rigid.gval T x y z * Rigid.gval T' x y z) l') (fun T => lsum (fun T' => Rigid.gval T' x y z) l' * Rigid.gval T x y z)).
    + rewrite lsum_scal. ring.
    + intros T _. rewrite lsum_scal. ring.
  - apply Rigid.gp_lsum. intros T HT. apply Rigid.gp_lsum. intros T' HT'. apply Rigid.gp_prod; [apply H, HT|apply H', HT'].
Qed.

Lemma rho2_coord C x y z : rho2 C x y z = (x - coord3 C 0) ^ 2 + (y - coord3 C 1) ^ 2 + (z - coord3 C 2) ^ 2.
Proof. destruct C as [[a b] c]. reflexivity. Qed.

Lemma gp_poly_gauss al C q : 0 < al -> Rigid.gp (fun x y z => RigidPoly.meval q (x - coord3 C 0) (y - coord3 C 1) (z - coord3 C 2) * exp (- (al * rho2 C x y z))).
Proof.
  intros Ha. exists [(al, C, q)]. split; [intros T [<-|[]]; exact Ha|]. intros x y z. unfold lsum. cbn [fold_right]. rewrite Rplus_0_r. unfold Rigid.gval, Rigid.pg, Rigid.gtp, Rigid.gto_, Rigid.gtq. cbn [fst snd]. f_equal. unfold RigidPoly.gauss3. f_equal. rewrite rho2_coord. ring.
Qed.

Lemma gp_gauss F al C : 0 <= al -> Rigid.gp F -> Rigid.gp (fun x y z => F x y z * exp (- (al * rho2 C x y z))).
Proof.
  intros Ha HF. destruct (Rle_lt_or_eq_dec _ _ Ha) as [P|E].
  - apply (Rigid.gp_ext (fun x y z => F x y z * (RigidPoly.meval [(1, (0, 0, 0)%nat)] (x - coord3 C 0) (y - coord3 C 1) (z - coord3 C 2) * exp (- (al * rho2 C x y z))))).
    + intros x y z. unfold RigidPoly.meval, lsum, RigidPoly.mval. cbn. ring.
    + apply gp_mul; [exact HF|]. apply gp_poly_gauss, P.
  - eapply Rigid.gp_ext; [|exact HF]. intros x y z. rewrite <- E, Rmult_0_l, Ropp_0, exp_0. ring.
Qed.

Notation at_iv O t F := (fun x y z => F (Rigid.iv O t 0 x y z) (Rigid.iv O t 1 x y z) (Rigid.iv O t 2 x y z)).

Lemma int_move O t F v : orthogonal O -> Rigid.gp F -> is_int3 F v -> is_int3 (at_iv O t F) v.
Proof. intros HO HF HI. destruct (Rigid.gp_move O t F HO HF) as (w & A & B). rewrite (is_int3_unique _ _ _ HI A). exact B. Qed.

Lemma rho2_moved O t C x y z : orthogonal O -> rho2 C (Rigid.iv O t 0 x y z) (Rigid.iv O t 1 x y z) (Rigid.iv O t 2 x y z) = rho2 (Rigid.moved3 O t C) x y z.
Proof.
  intros HO. rewrite !rho2_coord, !Rigid.iv_centre by (exact HO || lia). pose proof (Rigid.tr_norm O (x - coord3 (Rigid.moved3 O t C) 0) (y - coord3 (Rigid.moved3 O t C) 1) (z - coord3 (Rigid.moved3 O t C) 2) HO) as E. cbn [pow]. rewrite !Rmult_1_r. exact E.
Qed.

(** ** Local potentials *)
Lemma kernel_move O t w C F v : orthogonal O -> Rigid.gp F -> kernel_int w C F v -> kernel_int w (Rigid.moved3 O t C) (at_iv O t F) v.
Proof.
  intros HO HF (I & HI & H). exists I. split; [|exact H]. intros u Hu. pose proof (int_move O t _ _ HO (gp_gauss F (u ^ 2) C (pow2_ge_0 u) HF) (HI u Hu)) as M. eapply is_int3_ext; [|exact M]. intros x y z. cbv beta. rewrite rho2_moved by exact HO. reflexivity.
Qed.

Lemma local_int_move O t n C F v : orthogonal O -> Rigid.gp F -> local_int n C F v -> local_int n (Rigid.moved3 O t C) (at_iv O t F) v.
Proof.
  intros HO HF [(E & H) | [(E & H) | (E & H)]]; [left|right; left|right; right]; (split; [exact E|]); [apply int_move|apply kernel_move|apply kernel_move]; assumption.
Qed.

Lemma pot_int_move O t C terms F : orthogonal O -> Rigid.gp F -> (forall n cf al, In (n, cf, al) terms -> 0 <= al) -> forall v, pot_int C terms F v -> pot_int (Rigid.moved3 O t C) terms (at_iv O t F) v.
Proof.
  intros HO HF. induction terms as [|[[n cf] al] terms IH]; intros HT v; cbn [pot_int]; [exact (fun x => x)|]. intros (v1 & v2 & H1 & H2 & ->). exists v1, v2. split; [|split; [|reflexivity]].
  - pose proof (local_int_move O t n C _ v1 HO (gp_gauss F al C (HT n cf al (or_introl eq_refl)) HF) H1) as M. eapply local_ext; [|exact M]. intros x y z. cbv beta. rewrite rho2_moved by exact HO. reflexivity.
  - apply IH; [intros n' cf' al' Hin; apply (HT n' cf' al'); right; exact Hin|exact H2].
Qed.

Definition exps_ok (U : option vpot) : Prop := forall U', U = Some U' -> forall n cf al, In (n, cf, al) (pv_prims U') -> 0 <= al.

Lemma local_rot O t C U f f' g g' v : orthogonal O -> Rigid.gp f -> Rigid.gp g -> exps_ok U -> Rigid.carried O t f f' -> Rigid.carried O t g g' ->
  local_part C U f g v -> local_part (Rigid.moved3 O t C) U f' g' v.
Proof.
  intros HO Hf Hg HU Cf Cg. destruct U as [U|]; [|exact (fun x => x)]. cbn [local_part]. unfold local_V. intros H. pose proof (pot_int_move O t C _ _ HO (gp_mul f g Hf Hg) (HU U eq_refl) v H) as M.
  eapply pot_int_ext; [|exact M]. intros x y z. cbv beta. rewrite (Rigid.carried_iv O t f f' HO Cf), (Rigid.carried_iv O t g g' HO Cg). reflexivity.
Qed.

(** ** Outercore orbitals *)
Lemma te_scale d p s x y z : homog d p -> te p (s * x) (s * y) (s * z) = s ^ d * te p x y z.
Proof.
  intros H. unfold te. rewrite <- lsum_scal. apply lsum_ext. intros (c, ((i, j), k)) Hi. rewrite !Rpow_mult_distr, <- (H c i j k Hi), !pow_add. ring.
Qed.

Lemma solid_te l m x y z : (l <= 40)%nat -> (Z.abs m <= Z.of_nat l)%Z -> solid l m x y z = te (htri l m) x y z.
Proof.
  intros Hl Hm. rewrite <- (solid_sum l m (canon_up (Z.of_nat l)) x y z Hl Hm).
  - unfold te, htri. rewrite lsum_map. apply lsum_ext. intros ((r, s), t) _. ring.
  - split; [apply nodup_canon_up|]. intros r s t. apply in_canon_up.
Qed.

Lemma solid_rot O l m x y z : orthogonal O -> (l <= 40)%nat -> (Z.abs m <= Z.of_nat l)%Z ->
  solid l m x y z = zsum (- Z.of_nat l) (Z.of_nat l + 1) (fun n => DD O l m n * solid l n (tr O 0 x y z) (tr O 1 x y z) (tr O 2 x y z)).
Proof.
  intros HO Hl Hm. destruct (unit_dir x y z) as (s & a & b & c & Hu & -> & -> & ->).
  rewrite solid_te, (te_scale l _ s a b c (htri_homog l m)), htri_sph by assumption. rewrite <- (rot_collect O l m a b c HO Hl Hm Hu), <- zsum_scal. apply zsum_ext. intros n Hn.
  rewrite solid_te by lia. assert (T : forall i, tr O i (s * a) (s * b) (s * c) = s * tr O i a b c) by (intros i; unfold RigidPoly.tr; ring). rewrite !T, (te_scale l _ s _ _ _ (htri_homog l n)), htri_sph; [unfold rotf; ring|exact Hl|lia|]. apply rot_unit; assumption.
Qed.

Lemma from_rho2 C x y z : from C x y z ^ 2 = rho2 C x y z.
Proof. rewrite from_sq. reflexivity. Qed.

Lemma orbital_coord o C m x y z : orbital o C m x y z = lsum (fun '(c, a) => c * norm_rad (oc_l o) a * exp (- (a * rho2 C x y z))) (oc_prims o) * solid (oc_l o) m (x - coord3 C 0) (y - coord3 C 1) (z - coord3 C 2).
Proof.
  destruct C as [[cx cy] cz]. unfold orbital. f_equal. apply lsum_ext. intros (c, a) _. rewrite <- from_rho2. f_equal. f_equal. ring.
Qed.

Lemma orbital_moved O t o C m x y z : orthogonal O -> (oc_l o <= 40)%nat -> (Z.abs m <= Z.of_nat (oc_l o))%Z ->
  orbital o (Rigid.moved3 O t C) m x y z = zsum (- Z.of_nat (oc_l o)) (Z.of_nat (oc_l o) + 1) (fun n => DD O (oc_l o) m n * orbital o C n (Rigid.iv O t 0 x y z) (Rigid.iv O t 1 x y z) (Rigid.iv O t 2 x y z)).
Proof.
  intros HO Hl Hm. rewrite orbital_coord, (solid_rot O (oc_l o) m _ _ _ HO Hl Hm), <- zsum_scal. apply zsum_ext. intros n _. rewrite orbital_coord, rho2_moved, !Rigid.iv_centre by (exact HO || lia). ring.
Qed.

Lemma oc_U_moved O t o C x y z : orthogonal O -> oc_U o C (Rigid.iv O t 0 x y z) (Rigid.iv O t 1 x y z) (Rigid.iv O t 2 x y z) = oc_U o (Rigid.moved3 O t C) x y z.
Proof.
  intros HO. unfold oc_U. f_equal. assert (F : forall C x y z, from C x y z = sqrt (rho2 C x y z)) by (intros C0 x0 y0 z0; destruct C0 as [[a b] c]; reflexivity). rewrite !F, rho2_moved by exact HO. reflexivity.
Qed.

Lemma orbital_gp o C m : (oc_l o <= 40)%nat -> (Z.abs m <= Z.of_nat (oc_l o))%Z -> (forall c a, In (c, a) (oc_prims o) -> 0 < a) -> Rigid.gp (orbital o C m).
Proof.
  intros Hl Hm Hp. apply (Rigid.gp_ext (fun x y z => lsum (fun p => (fst p * norm_rad (oc_l o) (snd p)) * (RigidPoly.meval (htri (oc_l o) m) (x - coord3 C 0) (y - coord3 C 1) (z - coord3 C 2) * exp (- (snd p * rho2 C x y z)))) (oc_prims o))).
  - intros x y z. rewrite orbital_coord, solid_te, te_meval by assumption. rewrite Rmult_comm, <- lsum_scal. apply lsum_ext. intros (c, a) _. cbn [fst snd]. ring.
  - apply Rigid.gp_lsum. intros (c, a) Hin. cbn [fst snd]. apply Rigid.gp_scal. apply gp_poly_gauss, (Hp c a Hin).
Qed.

Lemma gp_pot F C terms : (forall n cf al, In (n, cf, al) terms -> 0 <= al) -> Rigid.gp F -> Rigid.gp (fun x y z => F x y z * pot_fun C terms x y z).
Proof.
  intros HT HF. apply (Rigid.gp_ext (fun x y z => lsum (fun q => snd (fst q) * (F x y z * exp (- (snd q * rho2 C x y z)))) terms)).
  - intros x y z. unfold pot_fun. rewrite <- lsum_scal. apply lsum_ext. intros ((n, cf), al) _. cbn [fst snd]. ring.
  - apply Rigid.gp_lsum. intros ((n, cf), al) Hin. cbn [fst snd]. apply Rigid.gp_scal, gp_gauss; [exact (HT n cf al Hin)|exact HF].
Qed.

Lemma int3_zsum lo hi (F : Z -> R -> R -> R -> R) (v : Z -> R) : (forall i, (lo <= i < hi)%Z -> is_int3 (F i) (v i)) -> is_int3 (fun x y z => zsum lo hi (fun i => F i x y z)) (zsum lo hi v).
Proof.
  revert lo. apply (zsum_ind (fun lo => (forall i, (lo <= i < hi)%Z -> is_int3 (F i) (v i)) -> is_int3 (fun x y z => zsum lo hi (fun i => F i x y z)) (zsum lo hi v)) hi).
  - intros lo Hl _. rewrite zsum_nil by lia. eapply is_int3_ext; [|apply is_int3_zero]. intros. rewrite zsum_nil by lia. reflexivity.
  - intros lo Hl IH H. rewrite zsum_first by lia. eapply is_int3_ext; [|apply (is_int3_plus _ _ _ _ (H lo ltac:(lia)) (IH ltac:(intros; apply H; lia)))]. intros. cbv beta. rewrite (zsum_first lo hi) by lia. reflexivity.
Qed.

Definition omix (O : mat) (S' : oc_data -> Z -> R) (o : oc_data) (m : Z) : R := zsum (- Z.of_nat (oc_l o)) (Z.of_nat (oc_l o) + 1) (fun n => DD O (oc_l o) m n * S' o n).

Definition oc_fine (os : list oc_data) : Prop := forall o, In o os -> (oc_l o <= 40)%nat /\ (forall c a, In (c, a) (oc_prims o) -> 0 < a) /\ gaussian_terms (oc_pot o).

Lemma projections_rot O t C os f f' S' U' : orthogonal O -> Rigid.gp f -> oc_fine os -> Rigid.carried O t f f' ->
  projections C os f S' U' -> projections (Rigid.moved3 O t C) os f' (omix O S') (omix O U').
Proof.
  intros HO Hf HF Cf P o m Ho Hm. destruct (HF o Ho) as (Hl & Hp & Hg). unfold omix. split.
  - apply (is_int3_ext (fun x y z => zsum (- Z.of_nat (oc_l o)) (Z.of_nat (oc_l o) + 1) (fun n => DD O (oc_l o) m n * (at_iv O t (fun x y z => f x y z * orbital o C n x y z) x y z)))).
    + intros x y z. rewrite (orbital_moved O t o C m x y z HO Hl Hm), (Rigid.carried_iv O t f f' HO Cf), <- zsum_scal. apply zsum_ext. intros; ring.
    + apply int3_zsum. intros n Hn. apply is_int3_scal. apply (int_move O t (fun x y z => f x y z * orbital o C n x y z)); [exact HO| |apply (P o n Ho); lia]. apply gp_mul; [exact Hf|apply orbital_gp; [exact Hl|lia|exact Hp]].
  - apply (is_int3_ext (fun x y z => zsum (- Z.of_nat (oc_l o)) (Z.of_nat (oc_l o) + 1) (fun n => DD O (oc_l o) m n * (at_iv O t (fun x y z => f x y z * oc_U o C x y z * orbital o C n x y z) x y z)))).
    + intros x y z. rewrite (orbital_moved O t o C m x y z HO Hl Hm), (Rigid.carried_iv O t f f' HO Cf), <- (oc_U_moved O t o C x y z HO), <- zsum_scal. apply zsum_ext. intros; ring.
    + apply int3_zsum. intros n Hn. apply is_int3_scal. apply (int_move O t (fun x y z => f x y z * oc_U o C x y z * orbital o C n x y z)); [exact HO| |apply (P o n Ho); lia].
      apply (Rigid.gp_ext (fun x y z => (f x y z * pot_fun C (oc_pot o) x y z) * orbital o C n x y z)); [intros x y z; rewrite pot_fun_U by exact Hg; reflexivity|]. apply gp_mul; [|apply orbital_gp; [exact Hl|lia|exact Hp]]. apply gp_pot; [|exact Hf]. intros k cf al Hin. apply (Hg k cf al Hin).
Qed.

Lemma msum_rot O o o' X Y : orthogonal O -> (oc_l o <= 40)%nat -> oc_l o = oc_l o' -> msum o (omix O X o) (omix O Y o') = msum o (X o) (Y o').
Proof. intros HO Hl E. unfold msum, omix. rewrite <- E. exact (pair_rot O (oc_l o) (X o) (Y o') HO Hl). Qed.

Lemma msum2_rot O o o' k X Y : orthogonal O -> (oc_l o <= 40)%nat -> oc_l o = oc_l o' -> (0 <= k < 3)%Z ->
  msum2 o (Wk k (oc_l o)) (omix O X o) (omix O Y o') = det3 O * (O k 0%Z * msum2 o (Wk 0 (oc_l o)) (X o) (Y o') + O k 1%Z * msum2 o (Wk 1 (oc_l o)) (X o) (Y o') + O k 2%Z * msum2 o (Wk 2 (oc_l o)) (X o) (Y o')).
Proof. intros HO Hl E Hk. unfold msum2, omix. rewrite <- E. exact (pair_rot_W O (oc_l o) (fun k => Wk k (oc_l o)) k (X o) (Y o') HO Hl (Wk_momentum (oc_l o)) Hk). Qed.

Lemma lsum_combo {A} (l : list A) d a b c f f0 f1 f2 : (forall x, In x l -> f x = d * (a * f0 x + b * f1 x + c * f2 x)) -> lsum f l = d * (a * lsum f0 l + b * lsum f1 l + c * lsum f2 l).
Proof. intros H. rewrite <- !lsum_scal, <- !lsum_plus, <- !lsum_scal. apply lsum_ext. exact H. Qed.

Lemma arep_rot O os delta Sa Sb Ua Ub : orthogonal O -> oc_fine os -> arep_value os delta (omix O Sa) (omix O Sb) (omix O Ua) (omix O Ub) = arep_value os delta Sa Sb Ua Ub.
Proof.
  intros HO HF. unfold arep_value. f_equal.
  - apply lsum_ext. intros o Ho. destruct (HF o Ho) as (Hl & _). rewrite !msum_rot by (assumption || reflexivity). reflexivity.
  - apply lsum_ext. intros o Ho. apply lsum_ext. intros o' Ho'. destruct (HF o Ho) as (Hl & _). destruct (same_ljb o o') eqn:E; [|reflexivity]. destruct (same_w o o' E) as (E' & _). rewrite msum_rot by assumption. reflexivity.
Qed.

Lemma so_rot O os delta Sa Sb Ua Ub k : orthogonal O -> oc_fine os -> (0 <= k < 3)%Z ->
  OutercoreSpec.so_value os (Wk k) delta (omix O Sa) (omix O Sb) (omix O Ua) (omix O Ub) = det3 O * RigidPoly.sum3 (fun j => O k j * OutercoreSpec.so_value os (Wk j) delta Sa Sb Ua Ub).
Proof.
  intros HO HF Hk. unfold OutercoreSpec.so_value, RigidPoly.sum3.
  rewrite (lsum_combo os (det3 O) (O k 0%Z) (O k 1%Z) (O k 2%Z) (fun o => w_so o * (msum2 o (Wk k (oc_l o)) (omix O Ua o) (omix O Sb o) + msum2 o (Wk k (oc_l o)) (omix O Sa o) (omix O Ub o)))
    (fun o => w_so o * (msum2 o (Wk 0 (oc_l o)) (Ua o) (Sb o) + msum2 o (Wk 0 (oc_l o)) (Sa o) (Ub o))) (fun o => w_so o * (msum2 o (Wk 1 (oc_l o)) (Ua o) (Sb o) + msum2 o (Wk 1 (oc_l o)) (Sa o) (Ub o))) (fun o => w_so o * (msum2 o (Wk 2 (oc_l o)) (Ua o) (Sb o) + msum2 o (Wk 2 (oc_l o)) (Sa o) (Ub o)))).
  2:{ intros o Ho. destruct (HF o Ho) as (Hl & _). rewrite !msum2_rot by (assumption || reflexivity). ring. }
  rewrite (lsum_combo os (det3 O) (O k 0%Z) (O k 1%Z) (O k 2%Z) (fun o => lsum (fun o' => if same_ljb o o' then w_so o * delta o o' * msum2 o (Wk k (oc_l o)) (omix O Sa o) (omix O Sb o') else 0) os)
    (fun o => lsum (fun o' => if same_ljb o o' then w_so o * delta o o' * msum2 o (Wk 0 (oc_l o)) (Sa o) (Sb o') else 0) os) (fun o => lsum (fun o' => if same_ljb o o' then w_so o * delta o o' * msum2 o (Wk 1 (oc_l o)) (Sa o) (Sb o') else 0) os) (fun o => lsum (fun o' => if same_ljb o o' then w_so o * delta o o' * msum2 o (Wk 2 (oc_l o)) (Sa o) (Sb o') else 0) os)).
  - ring.
  - intros o Ho. apply lsum_combo. intros o' Ho'. destruct (HF o Ho) as (Hl & _). destruct (same_ljb o o') eqn:E; [|ring]. destruct (same_w o o' E) as (E' & _). rewrite msum2_rot by assumption. ring.
Qed.

(** the value of component k after the motion *)
Definition turned (O : mat) (v : Z -> R) (k : Z) : R := if (k =? -1)%Z then v (-1)%Z else det3 O * RigidPoly.sum3 (fun j => O k j * v j).

Lemma oc_rot O t C os delta f f' g g' (v : Z -> R) k : orthogonal O -> Rigid.gp f -> Rigid.gp g -> oc_fine os -> Rigid.carried O t f f' -> Rigid.carried O t g g' -> (-1 <= k < 3)%Z ->
  (forall j, (-1 <= j < 3)%Z -> oc_V C os delta Wk j f g (v j)) -> oc_V (Rigid.moved3 O t C) os delta Wk k f' g' (turned O v k).
Proof.
  intros HO Hf Hg HF Cf Cg Hk HV. destruct (HV (-1)%Z ltac:(lia)) as (Sa & Ua & Sb & Ub & P & Q & _).
  assert (E : forall j, (-1 <= j < 3)%Z -> v j = if (j =? -1)%Z then arep_value os delta Sa Sb Ua Ub else OutercoreSpec.so_value os (Wk j) delta Sa Sb Ua Ub).
  { intros j Hj. apply (oc_unique C os delta Wk j f g _ _ (HV j Hj)). exists Sa, Ua, Sb, Ub. split; [exact P|]. split; [exact Q|reflexivity]. }
  exists (omix O Sa), (omix O Ua), (omix O Sb), (omix O Ub). split; [apply (projections_rot O t C os f f'); assumption|]. split; [apply (projections_rot O t C os g g'); assumption|].
  unfold turned. destruct (Z.eqb_spec k (-1)) as [_|Hn].
  - rewrite arep_rot by assumption. exact (E (-1)%Z ltac:(lia)).
  - rewrite so_rot by (assumption || lia). unfold RigidPoly.sum3. rewrite !E by lia. reflexivity.
Qed.
