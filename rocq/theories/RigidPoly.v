(** * Polynomials times Gaussians in three dimensions and their integrals under rotations *)

From Coq Require Import ZArith List Lia Bool Reals Lra.
From Coquelicot Require Import Coquelicot.
From Verif Require Import Base GaussInt GaussProd OneElProofs OneElInt.
Import ListNotations.
Open Scope R_scope.

(** ** Gaussian moments *)
Fixpoint gm (p : R) (n : nat) : R := match n with O => sqrt (PI / p) | S m => match m with O => 0 | S k => INR (S k) / (2 * p) * gm p k end end.

Lemma gm_SS p n : gm p (S (S n)) = INR (S n) / (2 * p) * gm p n.
Proof. reflexivity. Qed.

Lemma cg_half p P n x : cg (p / 2) P n x * cg (p / 2) P 0 x = cg p P n x.
Proof. unfold cg. replace (- (p * ((x - P) * (x - P)))) with (- (p / 2 * ((x - P) * (x - P))) + - (p / 2 * ((x - P) * (x - P)))) by field. rewrite exp_plus. simpl. ring. Qed.

Lemma cg_deriv_int p P i : 0 < p -> is_int (fun x => INR i * cg p P (pred i) x - 2 * p * cg p P (S i) x) 0.
Proof.
  intros Hp. eapply is_int_ext; [|apply (cgp_int_derivative (p / 2) P (p / 2) P i 0); lra]. intros x. cbn [pred INR]. rewrite <- (cg_half p P (pred i)), <- (cg_half p P (S i)), !cg_S. field.
Qed.

Lemma gm_int p P n : 0 < p -> is_int (cg p P n) (gm p n).
Proof.
  intros Hp. assert (H : is_int (cg p P n) (gm p n) /\ is_int (cg p P (S n)) (gm p (S n))); [|apply H]. induction n as [|n [I1 I2]].
  - split.
    + eapply is_int_ext; [|eapply is_int_eq; [apply (pair_base (p / 2) P (p / 2) P); lra|]].
      * intros x. unfold cgp. apply cg_half.
      * cbn [gm]. replace (p / 2 + p / 2) with p by field. replace (- (p / 2 * (p / 2) / p) * (P - P) * (P - P)) with 0 by (field; lra). rewrite exp_0. ring.
    + eapply is_int_ext; [|eapply is_int_eq; [apply (is_int_scal _ (- / (2 * p)) _ (cg_deriv_int p P 0 Hp))|]].
      * intros x. cbn [INR pred]. field. lra.
      * cbn [gm]. ring.
  - split; [exact I2|]. pose proof (is_int_plus _ _ _ _ (is_int_scal _ (INR (S n) / (2 * p)) _ I1) (is_int_scal _ (- / (2 * p)) _ (cg_deriv_int p P (S n) Hp))) as H.
    eapply is_int_ext; [|eapply is_int_eq; [exact H|]].
    + intros x. cbv beta. cbn [pred]. field. lra.
    + rewrite gm_SS. ring.
Qed.

Lemma gm_step p n : 0 < p -> gm p (S n) = / (2 * p) * (INR n * gm p (pred n)).
Proof. intros Hp. destruct n as [|n]; [cbn [gm INR]; ring|]. rewrite gm_SS. cbn [pred]. field. lra. Qed.

(** ** Polynomials *)
Definition mono : Type := nat * nat * nat.
Definition mpoly : Type := list (R * mono).
Definition mval (m : mono) (x y z : R) : R := let '(i, j, k) := m in x ^ i * y ^ j * z ^ k.
Definition meval (q : mpoly) (x y z : R) : R := lsum (fun t => fst t * mval (snd t) x y z) q.
Definition mscal (c : R) (q : mpoly) : mpoly := map (fun t => (c * fst t, snd t)) q.
Definition mm (a b : mono) : mono := let '(i, j, k) := a in let '(i', j', k') := b in ((i + i')%nat, (j + j')%nat, (k + k')%nat).
Definition mmul (a b : mpoly) : mpoly := flat_map (fun t => map (fun u => (fst t * fst u, mm (snd t) (snd u))) b) a.
Fixpoint mpow (a : mpoly) (n : nat) : mpoly := match n with O => [(1, (0, 0, 0)%nat)] | S m => mmul a (mpow a m) end.

Lemma meval_app a b x y z : meval (a ++ b) x y z = meval a x y z + meval b x y z.
Proof. apply lsum_app. Qed.
Lemma meval_cons t q x y z : meval (t :: q) x y z = fst t * mval (snd t) x y z + meval q x y z.
Proof. reflexivity. Qed.
Lemma meval_nil x y z : meval [] x y z = 0.
Proof. reflexivity. Qed.
Lemma meval_scal c q x y z : meval (mscal c q) x y z = c * meval q x y z.
Proof. unfold meval, mscal. rewrite lsum_map, <- lsum_scal. apply lsum_ext. intros t _. cbn [fst snd]. ring. Qed.
Lemma mval_mm a b x y z : mval (mm a b) x y z = mval a x y z * mval b x y z.
Proof. destruct a as [[i j] k]. destruct b as [[i' j'] k']. unfold mm, mval. rewrite !pow_add. ring. Qed.
Lemma meval_mul a b x y z : meval (mmul a b) x y z = meval a x y z * meval b x y z.
Proof.
  unfold mmul. induction a as [|t a IH]; [cbn [flat_map]; rewrite !meval_nil; ring|]. cbn [flat_map]. rewrite meval_app, IH, meval_cons.
  assert (E : meval (map (fun u => (fst t * fst u, mm (snd t) (snd u))) b) x y z = fst t * mval (snd t) x y z * meval b x y z); [|rewrite E; ring].
  unfold meval. rewrite lsum_map, <- lsum_scal. apply lsum_ext. intros u _. cbn [fst snd]. rewrite mval_mm. ring.
Qed.
Lemma meval_pow a n x y z : meval (mpow a n) x y z = meval a x y z ^ n.
Proof. induction n as [|n IH]; [unfold meval, mval; cbn; ring|]. cbn [mpow pow]. rewrite meval_mul, IH. reflexivity. Qed.

(** substitution *)
Definition asubm (l0 l1 l2 : mpoly) (m : mono) : mpoly := let '(i, j, k) := m in mmul (mmul (mpow l0 i) (mpow l1 j)) (mpow l2 k).
Definition asub (l0 l1 l2 q : mpoly) : mpoly := flat_map (fun t => mscal (fst t) (asubm l0 l1 l2 (snd t))) q.
Lemma meval_asubm l0 l1 l2 m x y z : meval (asubm l0 l1 l2 m) x y z = mval m (meval l0 x y z) (meval l1 x y z) (meval l2 x y z).
Proof. destruct m as [[i j] k]. unfold asubm. rewrite !meval_mul, !meval_pow. reflexivity. Qed.
Lemma meval_asub l0 l1 l2 q x y z : meval (asub l0 l1 l2 q) x y z = meval q (meval l0 x y z) (meval l1 x y z) (meval l2 x y z).
Proof.
  unfold asub. induction q as [|t q IH]; [reflexivity|]. cbn [flat_map]. rewrite meval_app, IH, meval_cons, meval_scal, meval_asubm. reflexivity.
Qed.

(** a shift of the argument *)
Definition mshift (d0 d1 d2 : R) (q : mpoly) : mpoly :=
  asub [(1, (1, 0, 0)%nat); (d0, (0, 0, 0)%nat)] [(1, (0, 1, 0)%nat); (d1, (0, 0, 0)%nat)] [(1, (0, 0, 1)%nat); (d2, (0, 0, 0)%nat)] q.
Lemma meval_shift d0 d1 d2 q x y z : meval (mshift d0 d1 d2 q) x y z = meval q (x + d0) (y + d1) (z + d2).
Proof. unfold mshift. rewrite meval_asub. f_equal; unfold meval, lsum, mval; cbn; ring. Qed.

(** ** The Gaussian functional *)
Definition gmm (p : R) (m : mono) : R := let '(i, j, k) := m in gm p i * gm p j * gm p k.
Definition gL (p : R) (q : mpoly) : R := lsum (fun t => fst t * gmm p (snd t)) q.
Definition gauss3 (p x y z : R) : R := exp (- (p * (x * x + y * y + z * z))).

Lemma gL_app p a b : gL p (a ++ b) = gL p a + gL p b.
Proof. apply lsum_app. Qed.
Lemma gL_scal p c q : gL p (mscal c q) = c * gL p q.
Proof. unfold gL, mscal. rewrite lsum_map, <- lsum_scal. apply lsum_ext. intros t _. cbn [fst snd]. ring. Qed.
Lemma gL_cons p t q : gL p (t :: q) = fst t * gmm p (snd t) + gL p q.
Proof. reflexivity. Qed.

Lemma gL_int p q X Y Z : 0 < p -> is_int3 (fun x y z => meval q (x - X) (y - Y) (z - Z) * gauss3 p (x - X) (y - Y) (z - Z)) (gL p q).
Proof.
  intros Hp. apply (is_int3_ext (fun x y z => lsum (fun t => fst t * (mval (snd t) (x - X) (y - Y) (z - Z) * gauss3 p (x - X) (y - Y) (z - Z))) q)).
  { intros x y z. unfold meval. rewrite Rmult_comm, <- lsum_scal. apply lsum_ext. intros t _. ring. }
  unfold gL. apply (is_int3_lsum (fun t x y z => fst t * (mval (snd t) (x - X) (y - Y) (z - Z) * gauss3 p (x - X) (y - Y) (z - Z))) (fun t => fst t * gmm p (snd t))). intros [c [[i j] k]] _. cbn [fst snd]. apply (is_int3_scal (fun x y z => mval (i, j, k) (x - X) (y - Y) (z - Z) * gauss3 p (x - X) (y - Y) (z - Z))).
  apply (is_int3_ext (fun x y z => cg p X i x * cg p Y j y * cg p Z k z)).
  { intros x y z. unfold mval, gauss3, cg. replace (- (p * ((x - X) * (x - X) + (y - Y) * (y - Y) + (z - Z) * (z - Z)))) with (- (p * ((x - X) * (x - X))) + - (p * ((y - Y) * (y - Y))) + - (p * ((z - Z) * (z - Z)))) by ring. rewrite !exp_plus. ring. }
  unfold gmm. apply is_int3_prod; apply gm_int; exact Hp.
Qed.

Lemma gL_ext p a b : 0 < p -> (forall x y z, meval a x y z = meval b x y z) -> gL p a = gL p b.
Proof.
  intros Hp H. eapply is_int3_unique; [apply (gL_int p a 0 0 0 Hp)|]. eapply is_int3_ext; [|apply (gL_int p b 0 0 0 Hp)]. intros x y z. cbv beta. rewrite H. reflexivity.
Qed.

(** ** Coordinates 0, 1, 2 *)
Definition deg1 (k : Z) (m : mono) : nat := let '(i, j, l) := m in if (k =? 0)%Z then i else if (k =? 1)%Z then j else l.
Definition setd (k : Z) (m : mono) (n : nat) : mono := let '(i, j, l) := m in if (k =? 0)%Z then (n, j, l) else if (k =? 1)%Z then (i, n, l) else (i, j, n).
Definition up1 (k : Z) (m : mono) : mono := setd k m (S (deg1 k m)).
Definition dn1 (k : Z) (m : mono) : mono := setd k m (pred (deg1 k m)).
Definition mX (k : Z) (q : mpoly) : mpoly := map (fun t => (fst t, up1 k (snd t))) q.
Definition mD (k : Z) (q : mpoly) : mpoly := map (fun t => (fst t * INR (deg1 k (snd t)), dn1 k (snd t))) q.
Definition crd (k : Z) (x y z : R) : R := if (k =? 0)%Z then x else if (k =? 1)%Z then y else z.
Definition tdeg (m : mono) : nat := let '(i, j, k) := m in (i + j + k)%nat.

Lemma mval_up1 k m x y z : mval (up1 k m) x y z = crd k x y z * mval m x y z.
Proof. destruct m as [[i j] l]. unfold up1, setd, deg1, crd, mval. destruct (k =? 0)%Z; [cbn [pow]; ring|]. destruct (k =? 1)%Z; cbn [pow]; ring. Qed.
Lemma meval_mX k q x y z : meval (mX k q) x y z = crd k x y z * meval q x y z.
Proof. unfold meval, mX. rewrite lsum_map, <- lsum_scal. apply lsum_ext. intros t _. cbn [fst snd]. rewrite mval_up1. ring. Qed.

Lemma gmm_up1 p k m : 0 < p -> gmm p (up1 k m) = / (2 * p) * (INR (deg1 k m) * gmm p (dn1 k m)).
Proof.
  intros Hp. destruct m as [[i j] l]. unfold up1, dn1, setd, deg1, gmm. destruct (k =? 0)%Z; [rewrite gm_step by exact Hp; ring|]. destruct (k =? 1)%Z; rewrite gm_step by exact Hp; ring.
Qed.
(** integration by parts *)
Lemma gL_parts p k q : 0 < p -> gL p (mX k q) = / (2 * p) * gL p (mD k q).
Proof.
  intros Hp. unfold gL, mX, mD. rewrite !lsum_map, <- lsum_scal. apply lsum_ext. intros t _. cbn [fst snd]. rewrite gmm_up1 by exact Hp. ring.
Qed.

(** derivative along a straight line *)
Lemma pow_line a b i s : is_derive (fun t => (a + b * t) ^ i) s (INR i * b * (a + b * s) ^ pred i).
Proof. auto_derive; [exact I|]. ring. Qed.

Lemma mval_line m a0 b0 a1 b1 a2 b2 s :
  is_derive (fun t => mval m (a0 + b0 * t) (a1 + b1 * t) (a2 + b2 * t)) s
    (b0 * (INR (deg1 0 m) * mval (dn1 0 m) (a0 + b0 * s) (a1 + b1 * s) (a2 + b2 * s)) +
     b1 * (INR (deg1 1 m) * mval (dn1 1 m) (a0 + b0 * s) (a1 + b1 * s) (a2 + b2 * s)) +
     b2 * (INR (deg1 2 m) * mval (dn1 2 m) (a0 + b0 * s) (a1 + b1 * s) (a2 + b2 * s))).
Proof.
  destruct m as [[i j] k]. unfold dn1, setd, deg1, mval. cbn [Z.eqb Pos.eqb]. auto_derive; [repeat split|]. ring.
Qed.

Lemma meval_line q a0 b0 a1 b1 a2 b2 s :
  is_derive (fun t => meval q (a0 + b0 * t) (a1 + b1 * t) (a2 + b2 * t)) s
    (b0 * meval (mD 0 q) (a0 + b0 * s) (a1 + b1 * s) (a2 + b2 * s) +
     b1 * meval (mD 1 q) (a0 + b0 * s) (a1 + b1 * s) (a2 + b2 * s) +
     b2 * meval (mD 2 q) (a0 + b0 * s) (a1 + b1 * s) (a2 + b2 * s)).
Proof.
  unfold meval. eapply is_derive_eq; [apply (is_derive_lsum (fun u t => fst u * mval (snd u) (a0 + b0 * t) (a1 + b1 * t) (a2 + b2 * t))
    (fun u => fst u * (b0 * (INR (deg1 0 (snd u)) * mval (dn1 0 (snd u)) (a0 + b0 * s) (a1 + b1 * s) (a2 + b2 * s)) +
     b1 * (INR (deg1 1 (snd u)) * mval (dn1 1 (snd u)) (a0 + b0 * s) (a1 + b1 * s) (a2 + b2 * s)) +
     b2 * (INR (deg1 2 (snd u)) * mval (dn1 2 (snd u)) (a0 + b0 * s) (a1 + b1 * s) (a2 + b2 * s)))))|].
  - intros u _. apply (is_derive_scal (fun t => mval (snd u) (a0 + b0 * t) (a1 + b1 * t) (a2 + b2 * t))). apply mval_line.
  - unfold mD. rewrite !lsum_map, <- !lsum_scal, <- !lsum_plus. apply lsum_ext. intros u _. cbn [fst snd]. ring.
Qed.

(** ** Rotations *)
Definition mat : Type := Z -> Z -> R.
Definition sum3 (f : Z -> R) : R := f 0%Z + f 1%Z + f 2%Z.
Definition delta (i k : Z) : R := if (i =? k)%Z then 1 else 0.
Definition orthogonal (O : mat) : Prop :=
  (forall i k, (0 <= i < 3)%Z -> (0 <= k < 3)%Z -> sum3 (fun j => O j i * O j k) = delta i k) /\
  (forall i k, (0 <= i < 3)%Z -> (0 <= k < 3)%Z -> sum3 (fun j => O i j * O k j) = delta i k).

(** component i of the transposed matrix times a vector *)
Definition tr (O : mat) (i : Z) (x y z : R) : R := O 0%Z i * x + O 1%Z i * y + O 2%Z i * z.
Definition linp (O : mat) (i : Z) : mpoly := [(O 0%Z i, (1, 0, 0)%nat); (O 1%Z i, (0, 1, 0)%nat); (O 2%Z i, (0, 0, 1)%nat)].
Definition rsub (O : mat) (q : mpoly) : mpoly := asub (linp O 0) (linp O 1) (linp O 2) q.

Lemma linp_val O i x y z : meval (linp O i) x y z = tr O i x y z.
Proof. unfold linp, tr, meval, lsum, mval. cbn. ring. Qed.
Lemma meval_rsub O q x y z : meval (rsub O q) x y z = meval q (tr O 0 x y z) (tr O 1 x y z) (tr O 2 x y z).
Proof. unfold rsub. rewrite meval_asub, !linp_val. reflexivity. Qed.

Lemma mD_derive k q x y z : (0 <= k < 3)%Z -> is_derive (along k (meval q) x y z) (at_k k x y z) (meval (mD k q) x y z).
Proof.
  intros Hk. unfold along, at_k. assert (k = 0 \/ k = 1 \/ k = 2)%Z as [-> | [-> | ->]] by lia; cbn [Z.eqb Pos.eqb].
  - eapply (is_derive_ext (fun t => meval q (0 + 1 * t) (y + 0 * t) (z + 0 * t))); [intros t; f_equal; ring|]. eapply is_derive_eq; [apply meval_line|]. rewrite !Rplus_0_l, !Rmult_1_l, !Rmult_0_l, !Rplus_0_r. reflexivity.
  - eapply (is_derive_ext (fun t => meval q (x + 0 * t) (0 + 1 * t) (z + 0 * t))); [intros t; f_equal; ring|]. eapply is_derive_eq; [apply meval_line|]. rewrite !Rplus_0_l, !Rmult_1_l, !Rmult_0_l, !Rplus_0_r, !Rplus_0_l. reflexivity.
  - eapply (is_derive_ext (fun t => meval q (x + 0 * t) (y + 0 * t) (0 + 1 * t))); [intros t; f_equal; ring|]. eapply is_derive_eq; [apply meval_line|]. rewrite !Rmult_1_l, !Rmult_0_l, !Rplus_0_r, !Rplus_0_l. reflexivity.
Qed.

(** chain rule *)
Lemma mD_rsub O k q x y z : (0 <= k < 3)%Z ->
  meval (mD k (rsub O q)) x y z = O k 0%Z * meval (rsub O (mD 0 q)) x y z + O k 1%Z * meval (rsub O (mD 1 q)) x y z + O k 2%Z * meval (rsub O (mD 2 q)) x y z.
Proof.
  intros Hk. pose proof (mD_derive k (rsub O q) x y z Hk) as H1.
  assert (L : forall a b, is_derive (along k (meval (rsub O q)) x y z) (at_k k x y z) a -> is_derive (along k (meval (rsub O q)) x y z) (at_k k x y z) b -> a = b).
  { intros a b Ha Hb. apply is_derive_unique in Ha. apply is_derive_unique in Hb. congruence. }
  apply (L _ _ H1). clear H1 L. rewrite !meval_rsub. unfold along, at_k.
  assert (k = 0 \/ k = 1 \/ k = 2)%Z as [-> | [-> | ->]] by lia; cbn [Z.eqb Pos.eqb].
  - apply (is_derive_ext (fun t => meval q ((O 1%Z 0%Z * y + O 2%Z 0%Z * z) + O 0%Z 0%Z * t) ((O 1%Z 1%Z * y + O 2%Z 1%Z * z) + O 0%Z 1%Z * t) ((O 1%Z 2%Z * y + O 2%Z 2%Z * z) + O 0%Z 2%Z * t))).
    { intros t. rewrite meval_rsub. unfold tr. f_equal; ring. }
    eapply is_derive_eq; [apply meval_line|]. unfold tr. replace (O 1%Z 0%Z * y + O 2%Z 0%Z * z + O 0%Z 0%Z * x) with (O 0%Z 0%Z * x + O 1%Z 0%Z * y + O 2%Z 0%Z * z) by ring. replace (O 1%Z 1%Z * y + O 2%Z 1%Z * z + O 0%Z 1%Z * x) with (O 0%Z 1%Z * x + O 1%Z 1%Z * y + O 2%Z 1%Z * z) by ring. replace (O 1%Z 2%Z * y + O 2%Z 2%Z * z + O 0%Z 2%Z * x) with (O 0%Z 2%Z * x + O 1%Z 2%Z * y + O 2%Z 2%Z * z) by ring. reflexivity.
  - apply (is_derive_ext (fun t => meval q ((O 0%Z 0%Z * x + O 2%Z 0%Z * z) + O 1%Z 0%Z * t) ((O 0%Z 1%Z * x + O 2%Z 1%Z * z) + O 1%Z 1%Z * t) ((O 0%Z 2%Z * x + O 2%Z 2%Z * z) + O 1%Z 2%Z * t))).
    { intros t. rewrite meval_rsub. unfold tr. f_equal; ring. }
    eapply is_derive_eq; [apply meval_line|]. unfold tr. replace (O 0%Z 0%Z * x + O 2%Z 0%Z * z + O 1%Z 0%Z * y) with (O 0%Z 0%Z * x + O 1%Z 0%Z * y + O 2%Z 0%Z * z) by ring. replace (O 0%Z 1%Z * x + O 2%Z 1%Z * z + O 1%Z 1%Z * y) with (O 0%Z 1%Z * x + O 1%Z 1%Z * y + O 2%Z 1%Z * z) by ring. replace (O 0%Z 2%Z * x + O 2%Z 2%Z * z + O 1%Z 2%Z * y) with (O 0%Z 2%Z * x + O 1%Z 2%Z * y + O 2%Z 2%Z * z) by ring. reflexivity.
  - apply (is_derive_ext (fun t => meval q ((O 0%Z 0%Z * x + O 1%Z 0%Z * y) + O 2%Z 0%Z * t) ((O 0%Z 1%Z * x + O 1%Z 1%Z * y) + O 2%Z 1%Z * t) ((O 0%Z 2%Z * x + O 1%Z 2%Z * y) + O 2%Z 2%Z * t))).
    { intros t. rewrite meval_rsub. unfold tr. f_equal; ring. }
    eapply is_derive_eq; [apply meval_line|]. unfold tr. reflexivity.
Qed.

(** ** Rotations do not change Gaussian moments *)
Lemma rsub_step O p k m : orthogonal O -> 0 < p -> (0 <= k < 3)%Z ->
  (forall c, gL p (rsub O [(c, dn1 k m)]) = gL p [(c, dn1 k m)]) -> gL p (rsub O [(1, up1 k m)]) = gL p [(1, up1 k m)].
Proof.
  intros (H1 & _) Hp Hk IH.
  transitivity (gL p (mscal (O 0%Z k) (mX 0 (rsub O [(1, m)])) ++ (mscal (O 1%Z k) (mX 1 (rsub O [(1, m)])) ++ mscal (O 2%Z k) (mX 2 (rsub O [(1, m)]))))).
  { apply gL_ext; [exact Hp|]. intros x y z. rewrite !meval_app, !meval_scal, !meval_mX, !meval_rsub. unfold meval, lsum. cbn [fold_right fst snd]. rewrite mval_up1. unfold crd. cbn [Z.eqb Pos.eqb].
    assert (E : (if (k =? 0)%Z then tr O 0 x y z else if (k =? 1)%Z then tr O 1 x y z else tr O 2 x y z) = tr O k x y z) by (assert (k = 0 \/ k = 1 \/ k = 2)%Z as [-> | [-> | ->]] by lia; reflexivity).
    rewrite E. unfold tr at 1. ring. }
  rewrite !gL_app, !gL_scal, !gL_parts by exact Hp.
  assert (C : forall j, (0 <= j < 3)%Z -> gL p (mD j (rsub O [(1, m)])) = O j 0%Z * gL p (rsub O (mD 0 [(1, m)])) + O j 1%Z * gL p (rsub O (mD 1 [(1, m)])) + O j 2%Z * gL p (rsub O (mD 2 [(1, m)]))).
  { intros j Hj. rewrite <- !gL_scal, <- !gL_app. apply gL_ext; [exact Hp|]. intros x y z. rewrite !meval_app, !meval_scal. apply mD_rsub, Hj. }
  rewrite !C by lia.
  assert (D0 : forall i, (0 <= i < 3)%Z -> O 0%Z k * O 0%Z i + O 1%Z k * O 1%Z i + O 2%Z k * O 2%Z i = delta k i) by (intros i Hi; apply (H1 k i Hk Hi)).
  set (g0 := gL p (rsub O (mD 0 [(1, m)]))). set (g1 := gL p (rsub O (mD 1 [(1, m)]))). set (g2 := gL p (rsub O (mD 2 [(1, m)]))).
  transitivity (/ (2 * p) * ((O 0%Z k * O 0%Z 0%Z + O 1%Z k * O 1%Z 0%Z + O 2%Z k * O 2%Z 0%Z) * g0 + (O 0%Z k * O 0%Z 1%Z + O 1%Z k * O 1%Z 1%Z + O 2%Z k * O 2%Z 1%Z) * g1 + (O 0%Z k * O 0%Z 2%Z + O 1%Z k * O 1%Z 2%Z + O 2%Z k * O 2%Z 2%Z) * g2)); [ring|].
  rewrite !D0 by lia.
  assert (G : delta k 0 * g0 + delta k 1 * g1 + delta k 2 * g2 = gL p (rsub O (mD k [(1, m)]))).
  { unfold delta. assert (k = 0 \/ k = 1 \/ k = 2)%Z as [-> | [-> | ->]] by lia; cbn [Z.eqb Pos.eqb]; unfold g0, g1, g2; ring. }
  rewrite G. change (mD k [(1, m)]) with [(1 * INR (deg1 k m), dn1 k m)]. rewrite IH. unfold gL, lsum. cbn [fold_right fst snd]. rewrite gmm_up1 by exact Hp. ring.
Qed.

Lemma gL_single p c m : gL p [(c, m)] = c * gL p [(1, m)].
Proof. unfold gL, lsum. cbn [fold_right fst snd]. ring. Qed.
Lemma gL_rsub_single O p c m : 0 < p -> gL p (rsub O [(c, m)]) = c * gL p (rsub O [(1, m)]).
Proof. intros Hp. rewrite <- gL_scal. apply gL_ext; [exact Hp|]. intros x y z. rewrite meval_scal, !meval_rsub. unfold meval, lsum. cbn [fold_right fst snd]. ring. Qed.

Lemma rsub_mono O p : orthogonal O -> 0 < p -> forall n m, (tdeg m <= n)%nat -> gL p (rsub O [(1, m)]) = gL p [(1, m)].
Proof.
  intros HO Hp. induction n as [n IH] using lt_wf_ind. intros m Hm.
  assert (ST : forall k m', (0 <= k < 3)%Z -> m = up1 k m' -> gL p (rsub O [(1, m)]) = gL p [(1, m)]).
  { intros k m' Hk ->. apply rsub_step; [exact HO|exact Hp|exact Hk|]. intros c. rewrite gL_rsub_single by exact Hp. rewrite gL_single. f_equal.
    assert (T : (tdeg (dn1 k m') < tdeg (up1 k m'))%nat). { destruct m' as [[i j] l]. unfold dn1, up1, setd, deg1, tdeg. destruct (k =? 0)%Z; [lia|]. destruct (k =? 1)%Z; lia. }
    apply (IH (tdeg (dn1 k m'))); lia. }
  destruct m as [[i j] k]. destruct i as [|i]; [|apply (ST 0%Z (i, j, k)); [lia|reflexivity]]. destruct j as [|j]; [|apply (ST 1%Z (0%nat, j, k)); [lia|reflexivity]]. destruct k as [|k]; [|apply (ST 2%Z (0%nat, 0%nat, k)); [lia|reflexivity]].
  apply gL_ext; [exact Hp|]. intros x y z. rewrite meval_rsub. unfold meval, lsum, mval. cbn. ring.
Qed.

Lemma gL_rsub O p q : orthogonal O -> 0 < p -> gL p (rsub O q) = gL p q.
Proof.
  intros HO Hp. induction q as [|[c m] q IH]; [reflexivity|]. change ((c, m) :: q) with ([(c, m)] ++ q). rewrite gL_app.
  transitivity (gL p (rsub O [(c, m)] ++ rsub O q)).
  { apply gL_ext; [exact Hp|]. intros x y z. rewrite meval_app, !meval_rsub, meval_app. reflexivity. }
  rewrite gL_app, IH. f_equal. rewrite gL_rsub_single by exact Hp. rewrite gL_single. f_equal. apply (rsub_mono O p HO Hp (tdeg m)). lia.
Qed.
