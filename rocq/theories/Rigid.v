(** * C82: overlap and kinetic energy integrals under rotations, reflections and translations *)

From Coq Require Import ZArith List Lia Bool Reals Lra.
From Coquelicot Require Import Coquelicot.
From Verif Require Import Base GaussInt GaussProd CartModel CartProofs HeapModel HeapProofs HeapSpec
  OneElModel OneElProofs OneElPairs OneElSpec OneElInt OneElThms Definite RigidPoly.
Import ListNotations.
Open Scope R_scope.

(** ** Specification *)

(** the point (x, y, z) after the motion x -> O x + t, and before it *)
Definition mv (O : mat) (t : R * R * R) (k : Z) (x y z : R) : R := O k 0%Z * x + O k 1%Z * y + O k 2%Z * z + coord3 t k.
Definition iv (O : mat) (t : R * R * R) (k : Z) (x y z : R) : R := tr O k (x - coord3 t 0) (y - coord3 t 1) (z - coord3 t 2).

(** [f'] is [f] carried along by the motion *)
Definition carried (O : mat) (t : R * R * R) (f f' : R -> R -> R -> R) : Prop :=
  forall x y z, f' (mv O t 0 x y z) (mv O t 1 x y z) (mv O t 2 x y z) = f x y z.

(** matrix element between two linear combinations *)
Definition cross (ts us : list bfun) (S : bfun -> bfun -> R) : R := lsum (fun t => lsum (fun u => b_w t * b_w u * S t u) us) ts.

Lemma mv_iv O t k x y z : orthogonal O -> (0 <= k < 3)%Z -> mv O t k (iv O t 0 x y z) (iv O t 1 x y z) (iv O t 2 x y z) = crd k x y z.
Proof.
  intros (_ & H) Hk. unfold mv, iv, tr. set (X := x - coord3 t 0). set (Y := y - coord3 t 1). set (Z := z - coord3 t 2).
  assert (E0 := H k 0%Z Hk ltac:(lia)). assert (E1 := H k 1%Z Hk ltac:(lia)). assert (E2 := H k 2%Z Hk ltac:(lia)). unfold sum3 in *.
  transitivity ((O k 0%Z * O 0%Z 0%Z + O k 1%Z * O 0%Z 1%Z + O k 2%Z * O 0%Z 2%Z) * X + (O k 0%Z * O 1%Z 0%Z + O k 1%Z * O 1%Z 1%Z + O k 2%Z * O 1%Z 2%Z) * Y + (O k 0%Z * O 2%Z 0%Z + O k 1%Z * O 2%Z 1%Z + O k 2%Z * O 2%Z 2%Z) * Z + coord3 t k); [ring|].
  rewrite E0, E1, E2. unfold delta, crd, X, Y, Z, coord3. assert (k = 0 \/ k = 1 \/ k = 2)%Z as [-> | [-> | ->]] by lia; cbn [Z.eqb Pos.eqb]; destruct t as [[t0 t1] t2]; ring.
Qed.

Lemma carried_iv O t f f' : orthogonal O -> carried O t f f' -> forall x y z, f' x y z = f (iv O t 0 x y z) (iv O t 1 x y z) (iv O t 2 x y z).
Proof.
  intros HO H x y z. rewrite <- H. rewrite !mv_iv by (exact HO || lia). reflexivity.
Qed.

(** ** Sums of polynomials times Gaussians *)
Definition gterm : Type := R * (R * R * R) * mpoly.
Definition gtp (T : gterm) : R := fst (fst T).
Definition gto_ (T : gterm) : R * R * R := snd (fst T).
Definition gtq (T : gterm) : mpoly := snd T.
Definition pg (a : R) (o : R * R * R) (q : mpoly) (x y z : R) : R :=
  meval q (x - coord3 o 0) (y - coord3 o 1) (z - coord3 o 2) * gauss3 a (x - coord3 o 0) (y - coord3 o 1) (z - coord3 o 2).
Definition gval (T : gterm) : R -> R -> R -> R := pg (gtp T) (gto_ T) (gtq T).
Definition gp (F : R -> R -> R -> R) : Prop := exists l, (forall T, In T l -> 0 < gtp T) /\ forall x y z, F x y z = lsum (fun T => gval T x y z) l.

Lemma gp_ext F G : (forall x y z, F x y z = G x y z) -> gp F -> gp G.
Proof. intros H (l & Hl & E). exists l. split; [exact Hl|]. intros. rewrite <- H. apply E. Qed.
Lemma gp_zero : gp (fun _ _ _ => 0).
Proof. exists []. split; [intros T []|]. reflexivity. Qed.
Lemma gp_plus F G : gp F -> gp G -> gp (fun x y z => F x y z + G x y z).
Proof.
  intros (l & Hl & E) (l' & Hl' & E'). exists (l ++ l'). split; [intros T HT; apply in_app_iff in HT; destruct HT; auto|]. intros. rewrite lsum_app, E, E'. reflexivity.
Qed.
Lemma gp_scal k F : gp F -> gp (fun x y z => k * F x y z).
Proof.
  intros (l & Hl & E). exists (map (fun T => (fst T, mscal k (snd T))) l). split.
  - intros T HT. apply in_map_iff in HT. destruct HT as (T' & <- & HT'). apply (Hl T' HT').
  - intros. rewrite lsum_map, E, <- lsum_scal. apply lsum_ext. intros T _. unfold gval, pg, gtp, gto_, gtq. cbn [fst snd]. rewrite meval_scal. ring.
Qed.
Lemma gp_lsum {A} (F : A -> R -> R -> R -> R) l : (forall a, In a l -> gp (F a)) -> gp (fun x y z => lsum (fun a => F a x y z) l).
Proof.
  induction l as [|a l IH]; intros H; [apply gp_zero|]. apply (gp_plus (F a) (fun x y z => lsum (fun a => F a x y z) l)); [apply H; left; reflexivity|]. apply IH. intros; apply H; right; assumption.
Qed.

(** the product of two Gaussians is a Gaussian *)
Lemma gp_prod a o q b o' q' : 0 < a -> 0 < b -> gp (fun x y z => pg a o q x y z * pg b o' q' x y z).
Proof.
  intros Ha Hb. set (p := a + b). set (P := fun k => (a * coord3 o k + b * coord3 o' k) / p).
  set (K := exp (- (a * b / p * ((coord3 o 0 - coord3 o' 0) * (coord3 o 0 - coord3 o' 0) + (coord3 o 1 - coord3 o' 1) * (coord3 o 1 - coord3 o' 1) + (coord3 o 2 - coord3 o' 2) * (coord3 o 2 - coord3 o' 2))))).
  exists [(p, (P 0%Z, P 1%Z, P 2%Z), mscal K (mmul (mshift (P 0%Z - coord3 o 0) (P 1%Z - coord3 o 1) (P 2%Z - coord3 o 2) q) (mshift (P 0%Z - coord3 o' 0) (P 1%Z - coord3 o' 1) (P 2%Z - coord3 o' 2) q')))]. split.
  - intros T [<-|[]]. cbn. unfold p. lra.
  - intros x y z. unfold lsum. cbn [fold_right]. rewrite Rplus_0_r. unfold gval, pg, gtp, gto_, gtq. cbn [fst snd]. change (coord3 (P 0%Z, P 1%Z, P 2%Z) 0) with (P 0%Z). change (coord3 (P 0%Z, P 1%Z, P 2%Z) 1) with (P 1%Z). change (coord3 (P 0%Z, P 1%Z, P 2%Z) 2) with (P 2%Z).
    rewrite meval_scal, meval_mul, !meval_shift.
    replace (x - P 0%Z + (P 0%Z - coord3 o 0)) with (x - coord3 o 0) by ring. replace (y - P 1%Z + (P 1%Z - coord3 o 1)) with (y - coord3 o 1) by ring. replace (z - P 2%Z + (P 2%Z - coord3 o 2)) with (z - coord3 o 2) by ring.
    replace (x - P 0%Z + (P 0%Z - coord3 o' 0)) with (x - coord3 o' 0) by ring. replace (y - P 1%Z + (P 1%Z - coord3 o' 1)) with (y - coord3 o' 1) by ring. replace (z - P 2%Z + (P 2%Z - coord3 o' 2)) with (z - coord3 o' 2) by ring.
    assert (G : gauss3 a (x - coord3 o 0) (y - coord3 o 1) (z - coord3 o 2) * gauss3 b (x - coord3 o' 0) (y - coord3 o' 1) (z - coord3 o' 2) = K * gauss3 p (x - P 0%Z) (y - P 1%Z) (z - P 2%Z)).
    { unfold gauss3, K. rewrite <- !exp_plus. f_equal. unfold P, p. field. lra. }
    transitivity (meval q (x - coord3 o 0) (y - coord3 o 1) (z - coord3 o 2) * meval q' (x - coord3 o' 0) (y - coord3 o' 1) (z - coord3 o' 2) * (gauss3 a (x - coord3 o 0) (y - coord3 o 1) (z - coord3 o 2) * gauss3 b (x - coord3 o' 0) (y - coord3 o' 1) (z - coord3 o' 2))); [ring|]. rewrite G. ring.
Qed.

(** the square of the distance does not change *)
Lemma tr_norm O x y z : orthogonal O -> tr O 0 x y z * tr O 0 x y z + tr O 1 x y z * tr O 1 x y z + tr O 2 x y z * tr O 2 x y z = x * x + y * y + z * z.
Proof.
  intros (_ & H). unfold tr. assert (E00 := H 0%Z 0%Z ltac:(lia) ltac:(lia)). assert (E11 := H 1%Z 1%Z ltac:(lia) ltac:(lia)). assert (E22 := H 2%Z 2%Z ltac:(lia) ltac:(lia)). assert (E01 := H 0%Z 1%Z ltac:(lia) ltac:(lia)). assert (E02 := H 0%Z 2%Z ltac:(lia) ltac:(lia)). assert (E12 := H 1%Z 2%Z ltac:(lia) ltac:(lia)).
  unfold sum3, delta in *. cbn [Z.eqb Pos.eqb] in *.
  transitivity ((O 0%Z 0%Z * O 0%Z 0%Z + O 0%Z 1%Z * O 0%Z 1%Z + O 0%Z 2%Z * O 0%Z 2%Z) * (x * x) + (O 1%Z 0%Z * O 1%Z 0%Z + O 1%Z 1%Z * O 1%Z 1%Z + O 1%Z 2%Z * O 1%Z 2%Z) * (y * y) + (O 2%Z 0%Z * O 2%Z 0%Z + O 2%Z 1%Z * O 2%Z 1%Z + O 2%Z 2%Z * O 2%Z 2%Z) * (z * z)
    + 2 * ((O 0%Z 0%Z * O 1%Z 0%Z + O 0%Z 1%Z * O 1%Z 1%Z + O 0%Z 2%Z * O 1%Z 2%Z) * (x * y) + (O 0%Z 0%Z * O 2%Z 0%Z + O 0%Z 1%Z * O 2%Z 1%Z + O 0%Z 2%Z * O 2%Z 2%Z) * (x * z) + (O 1%Z 0%Z * O 2%Z 0%Z + O 1%Z 1%Z * O 2%Z 1%Z + O 1%Z 2%Z * O 2%Z 2%Z) * (y * z))); [ring|].
  rewrite E00, E11, E22, E01, E02, E12. ring.
Qed.

Definition moved3 (O : mat) (t o : R * R * R) : R * R * R := (mv O t 0 (coord3 o 0) (coord3 o 1) (coord3 o 2), mv O t 1 (coord3 o 0) (coord3 o 1) (coord3 o 2), mv O t 2 (coord3 o 0) (coord3 o 1) (coord3 o 2)).

Lemma iv_centre O t o k x y z : orthogonal O -> (0 <= k < 3)%Z ->
  iv O t k x y z - coord3 o k = tr O k (x - coord3 (moved3 O t o) 0) (y - coord3 (moved3 O t o) 1) (z - coord3 (moved3 O t o) 2).
Proof.
  intros (H & _) Hk. unfold iv. assert (E0 := H k 0%Z Hk ltac:(lia)). assert (E1 := H k 1%Z Hk ltac:(lia)). assert (E2 := H k 2%Z Hk ltac:(lia)). unfold sum3 in *.
  change (coord3 (moved3 O t o) 0) with (mv O t 0 (coord3 o 0) (coord3 o 1) (coord3 o 2)). change (coord3 (moved3 O t o) 1) with (mv O t 1 (coord3 o 0) (coord3 o 1) (coord3 o 2)). change (coord3 (moved3 O t o) 2) with (mv O t 2 (coord3 o 0) (coord3 o 1) (coord3 o 2)). unfold tr, mv.
  transitivity (O 0%Z k * (x - coord3 t 0) + O 1%Z k * (y - coord3 t 1) + O 2%Z k * (z - coord3 t 2) - (delta k 0 * coord3 o 0 + delta k 1 * coord3 o 1 + delta k 2 * coord3 o 2)).
  - f_equal. unfold delta. assert (k = 0 \/ k = 1 \/ k = 2)%Z as [-> | [-> | ->]] by lia; cbn [Z.eqb Pos.eqb]; ring.
  - rewrite <- E0, <- E1, <- E2. ring.
Qed.

Lemma pg_iv O t a o q x y z : orthogonal O -> pg a o q (iv O t 0 x y z) (iv O t 1 x y z) (iv O t 2 x y z) = pg a (moved3 O t o) (rsub O q) x y z.
Proof.
  intros HO. unfold pg. rewrite !iv_centre by (exact HO || lia). rewrite meval_rsub. f_equal. unfold gauss3. rewrite tr_norm by exact HO. reflexivity.
Qed.

Lemma pg_int a o q : 0 < a -> is_int3 (pg a o q) (gL a q).
Proof. intros Ha. apply gL_int, Ha. Qed.

Lemma gp_move O t F : orthogonal O -> gp F -> exists v, is_int3 F v /\ is_int3 (fun x y z => F (iv O t 0 x y z) (iv O t 1 x y z) (iv O t 2 x y z)) v.
Proof.
  intros HO (l & Hl & E). exists (lsum (fun T => gL (gtp T) (gtq T)) l). split.
  - apply (is_int3_ext (fun x y z => lsum (fun T => gval T x y z) l)); [intros; symmetry; apply E|]. apply is_int3_lsum. intros T HT. apply pg_int, Hl, HT.
  - apply (is_int3_ext (fun x y z => lsum (fun T => pg (gtp T) (moved3 O t (gto_ T)) (rsub O (gtq T)) x y z) l)).
    { intros x y z. rewrite E. apply lsum_ext. intros T _. unfold gval. rewrite pg_iv by exact HO. reflexivity. }
    apply (is_int3_eq _ (lsum (fun T => gL (gtp T) (rsub O (gtq T))) l)).
    + apply (is_int3_lsum (fun T => pg (gtp T) (moved3 O t (gto_ T)) (rsub O (gtq T)))). intros T HT. apply pg_int, Hl, HT.
    + apply lsum_ext. intros T HT. apply gL_rsub; [exact HO|apply Hl, HT].
Qed.

(** ** Basis functions *)
(** polynomial of the derivative of a polynomial times a Gaussian *)
Definition mDg (a : R) (k : Z) (q : mpoly) : mpoly := mD k q ++ mscal (- 2 * a) (mX k q).
Definition tp (u : term) : mpoly := [(1, (Z.to_nat (t_n u), Z.to_nat (t_l u), Z.to_nat (t_m u)))].
Definition tpk (k : Z) (u : term) : mpoly := if (k <? 3)%Z then mDg (t_a u) k (tp u) else tp u.

Lemma mode_poly k u x y z : (0 <= k <= 3)%Z -> mP k u x * mQ k u y * mS k u z = pg (t_a u) (t_o u) (tpk k u) x y z.
Proof.
  intros Hk. unfold mP, mQ, mS, fac, pg, tpk.
  assert (G : gauss3 (t_a u) (x - coord3 (t_o u) 0) (y - coord3 (t_o u) 1) (z - coord3 (t_o u) 2) = exp (- (t_a u * ((x - coord3 (t_o u) 0) * (x - coord3 (t_o u) 0)))) * exp (- (t_a u * ((y - coord3 (t_o u) 1) * (y - coord3 (t_o u) 1)))) * exp (- (t_a u * ((z - coord3 (t_o u) 2) * (z - coord3 (t_o u) 2))))).
  { unfold gauss3. rewrite <- !exp_plus. f_equal. ring. }
  rewrite G. assert (k = 0 \/ k = 1 \/ k = 2 \/ k = 3)%Z as [-> | [-> | [-> | ->]]] by lia; cbn [Z.eqb Z.ltb Z.compare Pos.eqb Pos.compare Pos.compare_cont]; unfold mDg, tp, cgZ, dcgZ, dcg, cg; rewrite ?meval_app, ?meval_scal; unfold meval, mD, mX, up1, dn1, setd, deg1, lsum, mval; cbn [map fold_right fst snd Z.eqb Pos.eqb]; cbn [pow]; ring.
Qed.

Lemma mode_fun_poly k ts x y z : (0 <= k <= 3)%Z -> mode_fun k ts x y z = lsum (fun u => t_c u * pg (t_a u) (t_o u) (tpk k u) x y z) (terms ts).
Proof. intros Hk. unfold mode_fun, gfun. apply lsum_ext. intros u _. rewrite mode_poly by exact Hk. reflexivity. Qed.

(** derivative along a line *)
Lemma pg_line a q a0 b0 a1 b1 a2 b2 s :
  is_derive (fun t => meval q (a0 + b0 * t) (a1 + b1 * t) (a2 + b2 * t) * gauss3 a (a0 + b0 * t) (a1 + b1 * t) (a2 + b2 * t)) s
    (b0 * (meval (mDg a 0 q) (a0 + b0 * s) (a1 + b1 * s) (a2 + b2 * s) * gauss3 a (a0 + b0 * s) (a1 + b1 * s) (a2 + b2 * s)) +
     b1 * (meval (mDg a 1 q) (a0 + b0 * s) (a1 + b1 * s) (a2 + b2 * s) * gauss3 a (a0 + b0 * s) (a1 + b1 * s) (a2 + b2 * s)) +
     b2 * (meval (mDg a 2 q) (a0 + b0 * s) (a1 + b1 * s) (a2 + b2 * s) * gauss3 a (a0 + b0 * s) (a1 + b1 * s) (a2 + b2 * s))).
Proof.
  assert (HG : is_derive (fun t => gauss3 a (a0 + b0 * t) (a1 + b1 * t) (a2 + b2 * t)) s (- 2 * a * (b0 * (a0 + b0 * s) + b1 * (a1 + b1 * s) + b2 * (a2 + b2 * s)) * gauss3 a (a0 + b0 * s) (a1 + b1 * s) (a2 + b2 * s))).
  { unfold gauss3. auto_derive; [exact I|]. ring. }
  eapply is_derive_eq; [apply (is_derive_mult (fun t => meval q (a0 + b0 * t) (a1 + b1 * t) (a2 + b2 * t)) (fun t => gauss3 a (a0 + b0 * t) (a1 + b1 * t) (a2 + b2 * t)) s _ _ (meval_line q a0 b0 a1 b1 a2 b2 s) HG); intros; apply Rmult_comm|].
  unfold plus, mult. cbn -[meval mDg gauss3]. unfold mDg. rewrite !meval_app, !meval_scal, !meval_mX. unfold crd. cbn [Z.eqb Pos.eqb]. ring.
Qed.

Lemma iv_line O t k j x y z s : (0 <= k < 3)%Z ->
  (if (k =? 0)%Z then iv O t j s y z else if (k =? 1)%Z then iv O t j x s z else iv O t j x y s) =
  ((if (k =? 0)%Z then iv O t j 0 y z else if (k =? 1)%Z then iv O t j x 0 z else iv O t j x y 0) + O k j * s).
Proof. intros Hk. unfold iv, tr. assert (k = 0 \/ k = 1 \/ k = 2)%Z as [-> | [-> | ->]] by lia; cbn [Z.eqb Pos.eqb]; ring. Qed.

Lemma combo_grad O t ts ts' : orthogonal O -> carried O t (combo ts) (combo ts') -> forall k x y z, (0 <= k < 3)%Z ->
  mode_fun k ts' x y z = O k 0%Z * mode_fun 0 ts (iv O t 0 x y z) (iv O t 1 x y z) (iv O t 2 x y z) + O k 1%Z * mode_fun 1 ts (iv O t 0 x y z) (iv O t 1 x y z) (iv O t 2 x y z) + O k 2%Z * mode_fun 2 ts (iv O t 0 x y z) (iv O t 1 x y z) (iv O t 2 x y z).
Proof.
  intros HO HC k x y z Hk. pose proof (combo_partial k ts' Hk x y z) as H1.
  assert (L : forall a b, is_derive (along k (combo ts') x y z) (at_k k x y z) a -> is_derive (along k (combo ts') x y z) (at_k k x y z) b -> a = b).
  { intros a b Ha Hb. apply is_derive_unique in Ha. apply is_derive_unique in Hb. congruence. }
  apply (L _ _ H1). clear L H1.
  set (al := fun j => if (k =? 0)%Z then iv O t j 0 y z else if (k =? 1)%Z then iv O t j x 0 z else iv O t j x y 0).
  assert (EL : forall j s, (if (k =? 0)%Z then iv O t j s y z else if (k =? 1)%Z then iv O t j x s z else iv O t j x y s) = al j + O k j * s) by (intros j s; unfold al; apply iv_line, Hk).
  assert (EP : forall j, al j + O k j * at_k k x y z = iv O t j x y z).
  { intros j. rewrite <- EL. unfold at_k. assert (k = 0 \/ k = 1 \/ k = 2)%Z as [-> | [-> | ->]] by lia; reflexivity. }
  apply (is_derive_ext (fun s => lsum (fun u => t_c u * pg (t_a u) (t_o u) (tp u) (al 0%Z + O k 0%Z * s) (al 1%Z + O k 1%Z * s) (al 2%Z + O k 2%Z * s)) (terms ts))).
  { intros s. rewrite <- !EL. unfold along. transitivity (combo ts (if (k =? 0)%Z then iv O t 0 s y z else if (k =? 1)%Z then iv O t 0 x s z else iv O t 0 x y s) (if (k =? 0)%Z then iv O t 1 s y z else if (k =? 1)%Z then iv O t 1 x s z else iv O t 1 x y s) (if (k =? 0)%Z then iv O t 2 s y z else if (k =? 1)%Z then iv O t 2 x s z else iv O t 2 x y s)).
    - rewrite combo_mode, mode_fun_poly by lia. reflexivity.
    - destruct (k =? 0)%Z; [symmetry; apply (carried_iv O t _ _ HO HC)|]. destruct (k =? 1)%Z; symmetry; apply (carried_iv O t _ _ HO HC). }
  eapply is_derive_eq; [apply (is_derive_lsum (fun u s => t_c u * pg (t_a u) (t_o u) (tp u) (al 0%Z + O k 0%Z * s) (al 1%Z + O k 1%Z * s) (al 2%Z + O k 2%Z * s))
    (fun u => t_c u * (O k 0%Z * pg (t_a u) (t_o u) (tpk 0 u) (iv O t 0 x y z) (iv O t 1 x y z) (iv O t 2 x y z) + O k 1%Z * pg (t_a u) (t_o u) (tpk 1 u) (iv O t 0 x y z) (iv O t 1 x y z) (iv O t 2 x y z) + O k 2%Z * pg (t_a u) (t_o u) (tpk 2 u) (iv O t 0 x y z) (iv O t 1 x y z) (iv O t 2 x y z))))|].
  - intros u _. apply (is_derive_scal (fun s => pg (t_a u) (t_o u) (tp u) (al 0%Z + O k 0%Z * s) (al 1%Z + O k 1%Z * s) (al 2%Z + O k 2%Z * s))).
    unfold pg. apply (is_derive_ext (fun s => meval (tp u) ((al 0%Z - coord3 (t_o u) 0) + O k 0%Z * s) ((al 1%Z - coord3 (t_o u) 1) + O k 1%Z * s) ((al 2%Z - coord3 (t_o u) 2) + O k 2%Z * s) * gauss3 (t_a u) ((al 0%Z - coord3 (t_o u) 0) + O k 0%Z * s) ((al 1%Z - coord3 (t_o u) 1) + O k 1%Z * s) ((al 2%Z - coord3 (t_o u) 2) + O k 2%Z * s))).
    { intros s. replace (al 0%Z - coord3 (t_o u) 0 + O k 0%Z * s) with (al 0%Z + O k 0%Z * s - coord3 (t_o u) 0) by ring. replace (al 1%Z - coord3 (t_o u) 1 + O k 1%Z * s) with (al 1%Z + O k 1%Z * s - coord3 (t_o u) 1) by ring. replace (al 2%Z - coord3 (t_o u) 2 + O k 2%Z * s) with (al 2%Z + O k 2%Z * s - coord3 (t_o u) 2) by ring. reflexivity. }
    eapply is_derive_eq; [apply pg_line|]. rewrite <- !EP.
    replace (al 0%Z - coord3 (t_o u) 0 + O k 0%Z * at_k k x y z) with (al 0%Z + O k 0%Z * at_k k x y z - coord3 (t_o u) 0) by ring. replace (al 1%Z - coord3 (t_o u) 1 + O k 1%Z * at_k k x y z) with (al 1%Z + O k 1%Z * at_k k x y z - coord3 (t_o u) 1) by ring. replace (al 2%Z - coord3 (t_o u) 2 + O k 2%Z * at_k k x y z) with (al 2%Z + O k 2%Z * at_k k x y z - coord3 (t_o u) 2) by ring.
    reflexivity.
  - rewrite !mode_fun_poly by lia. rewrite <- !lsum_scal, <- !lsum_plus. apply lsum_ext. intros u _. ring.
Qed.

(** ** Matrix elements of linear combinations *)
Definition mq2 (k : Z) (ts us : list bfun) : R := lsum (fun u => lsum (fun u' => t_c u * t_c u' * (miP k u u' * miQ k u u' * miS k u u')) (terms us)) (terms ts).

Section Cross.
Variable h : heap.
Variables ts us : list bfun.
Hypothesis W : heap_wf h.
Hypothesis OT : forall t, In t ts -> bf_ok h t.
Hypothesis OU : forall t, In t us -> bf_ok h t.

Lemma ok_app : forall t, In t (ts ++ us) -> bf_ok h t.
Proof. intros t Ht. apply in_app_iff in Ht. destruct Ht; auto. Qed.
Lemma terms_app : terms (ts ++ us) = terms ts ++ terms us.
Proof. unfold terms. apply flat_map_app. Qed.

Lemma mq2_int k : is_int3 (fun x y z => mode_fun k ts x y z * mode_fun k us x y z) (mq2 k ts us).
Proof.
  apply (is_int3_ext (fun x y z => lsum (fun u => lsum (fun u' => (t_c u * t_c u') * ((mP k u x * mP k u' x) * (mQ k u y * mQ k u' y) * (mS k u z * mS k u' z))) (terms us)) (terms ts))).
  { intros x y z. unfold mode_fun, gfun. rewrite lsum_mult. apply lsum_ext. intros u _. apply lsum_ext. intros u' _. ring. }
  unfold mq2. apply is_int3_lsum. intros u Hu. apply is_int3_lsum. intros u' Hu'. apply is_int3_scal.
  assert (Iu : In u (terms (ts ++ us))) by (rewrite terms_app; apply in_app_iff; left; exact Hu). assert (Iu' : In u' (terms (ts ++ us))) by (rewrite terms_app; apply in_app_iff; right; exact Hu').
  destruct (term_ok h (ts ++ us) ok_app u Iu) as (_ & N1 & N2 & N3).
  apply (is_int3_prod (fun x => mP k u x * mP k u' x) (fun y => mQ k u y * mQ k u' y) (fun z => mS k u z * mS k u' z)); apply (ifac_int h (ts ++ us) ok_app); assumption.
Qed.

Lemma mode_gp2 k k2 : (0 <= k <= 3)%Z -> (0 <= k2 <= 3)%Z -> gp (fun x y z => mode_fun k ts x y z * mode_fun k2 us x y z).
Proof.
  intros Hk Hk2. apply (gp_ext (fun x y z => lsum (fun u => lsum (fun u' => (t_c u * t_c u') * (pg (t_a u) (t_o u) (tpk k u) x y z * pg (t_a u') (t_o u') (tpk k2 u') x y z)) (terms us)) (terms ts))).
  { intros x y z. rewrite (mode_fun_poly k ts x y z Hk), (mode_fun_poly k2 us x y z Hk2). rewrite lsum_mult. apply lsum_ext. intros u _. apply lsum_ext. intros u' _. ring. }
  apply gp_lsum. intros u Hu. apply gp_lsum. intros u' Hu'. apply gp_scal.
  assert (Iu : In u (terms (ts ++ us))) by (rewrite terms_app; apply in_app_iff; left; exact Hu). assert (Iu' : In u' (terms (ts ++ us))) by (rewrite terms_app; apply in_app_iff; right; exact Hu').
  destruct (term_ok h (ts ++ us) ok_app u Iu) as (A1 & _). destruct (term_ok h (ts ++ us) ok_app u' Iu') as (A2 & _). apply gp_prod; assumption.
Qed.
Lemma mode_gp k : (0 <= k <= 3)%Z -> gp (fun x y z => mode_fun k ts x y z * mode_fun k us x y z).
Proof. intros Hk. apply mode_gp2; exact Hk. Qed.

Variable S : bfun -> bfun -> R.

Lemma cross_terms (val : term -> term -> R) :
  (forall t u, In t ts -> In u us -> b_w t * b_w u * S t u = lsum (fun p => lsum (fun q => val (t, p) (u, q)) (v_prims (b_v u))) (v_prims (b_v t))) ->
  cross ts us S = lsum (fun u => lsum (fun u' => val u u') (terms us)) (terms ts).
Proof.
  intros H. unfold cross. rewrite lsum_terms. apply lsum_ext. intros t Ht. rewrite (lsum_ext (fun t' => b_w t * b_w t' * S t t') (fun t' => lsum (fun p => lsum (fun q => val (t, p) (t', q)) (v_prims (b_v t'))) (v_prims (b_v t)))) by (intros t' Ht'; apply H; assumption).
  rewrite lsum_swap. apply lsum_ext. intros p _. rewrite lsum_terms. reflexivity.
Qed.

Lemma cross_overlap : (forall t u, In t ts -> In u us -> computed Overlap h t u (S t u)) -> cross ts us S = mq2 3 ts us.
Proof.
  intros HS. unfold mq2. apply cross_terms. intros t t' Ht Ht'. rewrite (computed_value _ _ _ _ _ W (OT t Ht) (OU t' Ht') (HS t t' Ht Ht')). unfold ovalue. rewrite contracted_terms. apply lsum_ext. intros [c a] _. apply lsum_ext. intros [c' a'] _.
  cbn [oentry]. unfold t_c, miP, miQ, miS, ifac, t_a, t_o, t_n, t_l, t_m. cbn [fst snd Z.eqb Pos.eqb]. unfold ov_entry. destruct (b_comp t) as [[n l] m]. destruct (b_comp t') as [[n' l'] m']. cbn [fst snd]. rewrite !nf_norm. ring.
Qed.

Lemma cross_kinetic : (forall t u, In t ts -> In u us -> computed Kinetic h t u (S t u)) -> cross ts us S = 1 / 2 * (mq2 0 ts us + mq2 1 ts us + mq2 2 ts us).
Proof.
  intros HS. unfold mq2. rewrite (cross_terms (fun u u' => 1 / 2 * (t_c u * t_c u' * (miP 0 u u' * miQ 0 u u' * miS 0 u u') + t_c u * t_c u' * (miP 1 u u' * miQ 1 u u' * miS 1 u u') + t_c u * t_c u' * (miP 2 u u' * miQ 2 u u' * miS 2 u u')))).
  - rewrite <- !lsum_plus, <- lsum_scal. apply lsum_ext. intros u _. rewrite <- !lsum_plus, <- lsum_scal. reflexivity.
  - intros t t' Ht Ht'. rewrite (computed_value _ _ _ _ _ W (OT t Ht) (OU t' Ht') (HS t t' Ht Ht')). unfold ovalue. rewrite contracted_terms. apply lsum_ext. intros [c a] _. apply lsum_ext. intros [c' a'] _.
    cbn [oentry]. unfold t_c, miP, miQ, miS, ifac, t_a, t_o, t_n, t_l, t_m. cbn [fst snd Z.eqb Pos.eqb]. unfold kin_entry. destruct (b_comp t) as [[n l] m]. destruct (b_comp t') as [[n' l'] m']. cbn [fst snd]. rewrite !nf_norm. replace (-0.5) with (- (1 / 2)) by lra. ring.
Qed.
End Cross.

(** ** Main result *)
Lemma rigid_thm o O t h ts us ts' us' S : o = Overlap \/ o = Kinetic -> orthogonal O -> heap_wf h ->
  (forall b, In b (ts ++ us ++ ts' ++ us') -> bf_ok h b) ->
  carried O t (combo ts) (combo ts') -> carried O t (combo us) (combo us') ->
  (forall a b, In a ts -> In b us -> computed o h a b (S a b)) -> (forall a b, In a ts' -> In b us' -> computed o h a b (S a b)) ->
  cross ts' us' S = cross ts us S.
Proof.
  intros Ho HO W OK C1 C2 HS HS'.
  assert (O1 : forall b, In b ts -> bf_ok h b) by (intros b Hb; apply OK, in_or_app; left; exact Hb). assert (O2 : forall b, In b us -> bf_ok h b) by (intros b Hb; apply OK, in_or_app; right; apply in_or_app; left; exact Hb).
  assert (O3 : forall b, In b ts' -> bf_ok h b) by (intros b Hb; apply OK, in_or_app; right; apply in_or_app; right; apply in_or_app; left; exact Hb). assert (O4 : forall b, In b us' -> bf_ok h b) by (intros b Hb; apply OK, in_or_app; right; apply in_or_app; right; apply in_or_app; right; exact Hb).
  destruct Ho as [-> | ->].
  - rewrite (cross_overlap h ts us W O1 O2 S HS), (cross_overlap h ts' us' W O3 O4 S HS'). pose proof (mq2_int h ts us O1 O2 3) as I. pose proof (mq2_int h ts' us' O3 O4 3) as I'.
    destruct (gp_move O t _ HO (mode_gp h ts us O1 O2 3 ltac:(lia))) as (v & V1 & V2). rewrite (is_int3_unique _ _ _ I V1). apply (is_int3_unique _ _ _ I').
    eapply is_int3_ext; [|exact V2]. intros x y z. cbv beta. rewrite <- !combo_mode. rewrite (carried_iv O t _ _ HO C1), (carried_iv O t _ _ HO C2). reflexivity.
  - rewrite (cross_kinetic h ts us W O1 O2 S HS), (cross_kinetic h ts' us' W O3 O4 S HS'). f_equal.
    pose proof (is_int3_plus _ _ _ _ (is_int3_plus _ _ _ _ (mq2_int h ts us O1 O2 0) (mq2_int h ts us O1 O2 1)) (mq2_int h ts us O1 O2 2)) as I.
    pose proof (is_int3_plus _ _ _ _ (is_int3_plus _ _ _ _ (mq2_int h ts' us' O3 O4 0) (mq2_int h ts' us' O3 O4 1)) (mq2_int h ts' us' O3 O4 2)) as I'. cbv beta in I, I'.
    destruct (gp_move O t _ HO (gp_plus _ _ (gp_plus _ _ (mode_gp h ts us O1 O2 0 ltac:(lia)) (mode_gp h ts us O1 O2 1 ltac:(lia))) (mode_gp h ts us O1 O2 2 ltac:(lia)))) as (v & V1 & V2). cbv beta in V1, V2.
    rewrite (is_int3_unique _ _ _ I V1). apply (is_int3_unique _ _ _ I'). eapply is_int3_ext; [|exact V2]. intros x y z. cbv beta.
    rewrite !(combo_grad O t ts ts' HO C1), !(combo_grad O t us us' HO C2) by lia. destruct HO as (H & _). unfold sum3, delta in H.
    set (f0 := mode_fun 0 ts _ _ _). set (f1 := mode_fun 1 ts _ _ _). set (f2 := mode_fun 2 ts _ _ _). set (g0 := mode_fun 0 us _ _ _). set (g1 := mode_fun 1 us _ _ _). set (g2 := mode_fun 2 us _ _ _).
    assert (E00 := H 0%Z 0%Z ltac:(lia) ltac:(lia)). assert (E11 := H 1%Z 1%Z ltac:(lia) ltac:(lia)). assert (E22 := H 2%Z 2%Z ltac:(lia) ltac:(lia)). assert (E01 := H 0%Z 1%Z ltac:(lia) ltac:(lia)). assert (E02 := H 0%Z 2%Z ltac:(lia) ltac:(lia)). assert (E12 := H 1%Z 2%Z ltac:(lia) ltac:(lia)). cbn [Z.eqb Pos.eqb] in *.
    symmetry. transitivity ((O 0%Z 0%Z * O 0%Z 0%Z + O 1%Z 0%Z * O 1%Z 0%Z + O 2%Z 0%Z * O 2%Z 0%Z) * (f0 * g0) + (O 0%Z 1%Z * O 0%Z 1%Z + O 1%Z 1%Z * O 1%Z 1%Z + O 2%Z 1%Z * O 2%Z 1%Z) * (f1 * g1) + (O 0%Z 2%Z * O 0%Z 2%Z + O 1%Z 2%Z * O 1%Z 2%Z + O 2%Z 2%Z * O 2%Z 2%Z) * (f2 * g2)
      + (O 0%Z 0%Z * O 0%Z 1%Z + O 1%Z 0%Z * O 1%Z 1%Z + O 2%Z 0%Z * O 2%Z 1%Z) * (f0 * g1 + f1 * g0) + (O 0%Z 0%Z * O 0%Z 2%Z + O 1%Z 0%Z * O 1%Z 2%Z + O 2%Z 0%Z * O 2%Z 2%Z) * (f0 * g2 + f2 * g0) + (O 0%Z 1%Z * O 0%Z 2%Z + O 1%Z 1%Z * O 1%Z 2%Z + O 2%Z 1%Z * O 2%Z 2%Z) * (f1 * g2 + f2 * g1)); [ring|].
    rewrite E00, E11, E22, E01, E02, E12. ring.
Qed.
