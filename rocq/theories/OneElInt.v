(** * The entries are the integrals: proofs for C16-C23 *)

From Coq Require Import ZArith List Lia Bool Reals Lra.
From Coquelicot Require Import Coquelicot.
From Verif Require Import Base GaussInt GaussProd CartModel CartProofs HeapModel HeapProofs HeapSpec
  OneElModel OneElProofs OneElPairs OneElSpec.
Import ListNotations.
Open Scope R_scope.

(** ** Sums *)

Lemma lsum_ext {A} (f g : A -> R) l : (forall x, In x l -> f x = g x) -> lsum f l = lsum g l.
Proof.
  intros H. induction l as [|x l IH]; [reflexivity|]. cbn [lsum fold_right].
  rewrite (H x) by (left; reflexivity). f_equal. apply IH. intros y Hy. apply H. right. exact Hy.
Qed.

Lemma lsum_cons {A} (f : A -> R) x l : lsum f (x :: l) = f x + lsum f l.
Proof. reflexivity. Qed.

Lemma lsum_app {A} (f : A -> R) l1 l2 : lsum f (l1 ++ l2) = lsum f l1 + lsum f l2.
Proof. induction l1 as [|x l IH]; [unfold lsum; cbn; ring|]. cbn [app]. rewrite !lsum_cons, IH. ring. Qed.

Lemma lsum_scal {A} (f : A -> R) k l : lsum (fun x => k * f x) l = k * lsum f l.
Proof. induction l as [|x l IH]; [unfold lsum; cbn; ring|]. rewrite !lsum_cons, IH. ring. Qed.

Lemma lsum_plus {A} (f g : A -> R) l : lsum (fun x => f x + g x) l = lsum f l + lsum g l.
Proof. induction l as [|x l IH]; [unfold lsum; cbn; ring|]. rewrite !lsum_cons, IH. ring. Qed.

Lemma lsum_map {A B} (g : A -> B) (f : B -> R) l : lsum f (map g l) = lsum (fun x => f (g x)) l.
Proof. induction l as [|x l IH]; [reflexivity|]. cbn [map]. rewrite !lsum_cons, IH. reflexivity. Qed.

Lemma lsum_mult {A B} (f : A -> R) (g : B -> R) la lb :
  lsum f la * lsum g lb = lsum (fun x => lsum (fun y => f x * g y) lb) la.
Proof.
  induction la as [|x la IH]; [unfold lsum; cbn; ring|]. rewrite !lsum_cons, <- IH, lsum_scal. ring.
Qed.

Lemma is_int3_lsum {A} (F : A -> R -> R -> R -> R) (v : A -> R) l :
  (forall a, In a l -> is_int3 (F a) (v a)) ->
  is_int3 (fun x y z => lsum (fun a => F a x y z) l) (lsum v l).
Proof.
  intros H. induction l as [|a l IH].
  - apply is_int3_zero.
  - apply (is_int3_ext (fun x y z => F a x y z + lsum (fun a => F a x y z) l)); [reflexivity|].
    rewrite lsum_cons. apply is_int3_plus; [apply H; left; reflexivity|]. apply IH. intros b Hb. apply H. right. exact Hb.
Qed.

Lemma is_derive_lsum {A} (f : A -> R -> R) (df : A -> R) l (x : R) :
  (forall a, In a l -> is_derive (f a) x (df a)) ->
  is_derive (fun t => lsum (fun a => f a t) l) x (lsum df l).
Proof.
  intros H. induction l as [|a l IH].
  - apply (is_derive_const (K := R_AbsRing) (V := R_NormedModule) 0 x).
  - rewrite lsum_cons. apply (is_derive_plus (f a) (fun t => lsum (fun a => f a t) l)).
    + apply H. left. reflexivity.
    + apply IH. intros b Hb. apply H. right. exact Hb.
Qed.

(** ** Normalisation factor and the primitive functions *)

Lemma nf_norm L a : nf L a = norm_L L a.
Proof.
  unfold nf, gaussian_norm_factor, norm_L. rewrite !Z.add_0_r.
  replace 0.75 with (3 / 4) by lra. replace (0.5 * IZR L) with (IZR L / 2) by lra. reflexivity.
Qed.

Definition cgZ (a : R) (o : R * R * R) (c i : Z) (x : R) : R := cg a (coord3 o c) (Z.to_nat i) x.

Lemma gto_split o n l m a x y z : gto o (n, l, m) a x y z = cgZ a o 0 n x * cgZ a o 1 l y * cgZ a o 2 m z.
Proof.
  destruct o as [[ox oy] oz]. unfold gto, cgZ, cg, coord3. cbn [Z.eqb Pos.eqb].
  replace (- (a * ((x - ox) * (x - ox) + (y - oy) * (y - oy) + (z - oz) * (z - oz)))) with
    (- (a * ((x - ox) * (x - ox))) + - (a * ((y - oy) * (y - oy))) + - (a * ((z - oz) * (z - oz)))) by ring.
  rewrite !exp_plus. ring.
Qed.

Definition dcgZ (a : R) (o : R * R * R) (c i : Z) (x : R) : R := dcg a (coord3 o c) (Z.to_nat i) x.
Definition d2cgZ (a : R) (o : R * R * R) (c i : Z) (x : R) : R := d2cg a (coord3 o c) (Z.to_nat i) x.

Section Prim.
Variables (aA aB : R) (A B : R * R * R).
Hypothesis HaA : 0 < aA.
Hypothesis HaB : 0 < aB.

Lemma osv_int c i j : is_int (fun x => cgZ aA A c i x * cgZ aB B c j x) (osv aA aB A B c i j).
Proof. unfold cgZ, osv. apply (os_pair_int aA (coord3 A c) aB (coord3 B c)); assumption. Qed.

Lemma d2v_int c i j : (0 <= i)%Z -> is_int (fun x => cgZ aA A c i x * d2cgZ aB B c j x) (d2v aA aB A B c i j).
Proof.
  intros Hi. unfold cgZ, d2cgZ. apply d2cg_move; [assumption|assumption|].
  eapply is_int_eq; [apply d2cg_int; assumption|].
  unfold d2v, osv. replace (Z.to_nat (i + 2)) with (S (S (Z.to_nat i))) by lia.
  assert (Ei : IZR i = INR (Z.to_nat i)) by (rewrite INR_IZR_INZ; f_equal; lia).
  rewrite plus_IZR, !mult_IZR, minus_IZR, Ei.
  destruct (Z.leb_spec 2 i) as [H|H].
  - replace (Z.to_nat (i - 2)) with (pred (pred (Z.to_nat i))) by lia.
    replace (INR (pred (Z.to_nat i))) with (INR (Z.to_nat i) - 1); [ring|].
    destruct (Z.to_nat i) as [|k] eqn:E; [lia|]. cbn [pred]. rewrite S_INR. ring.
  - assert (Hc : Z.to_nat i = 0%nat \/ Z.to_nat i = 1%nat) by lia.
    destruct Hc as [-> | ->]; cbn [pred INR]; ring.
Qed.

Lemma d1v_int c i j : (0 <= i)%Z -> is_int (fun x => cgZ aA A c i x * dcgZ aB B c j x) (d1v aA aB A B c i j).
Proof.
  intros Hi. unfold cgZ, dcgZ.
  eapply is_int_eq; [apply int_by_parts1; [assumption|assumption|apply dcg_int; assumption]|].
  unfold d1v, osv. replace (Z.to_nat (i + 1)) with (S (Z.to_nat i)) by lia.
  assert (Ei : IZR i = INR (Z.to_nat i)) by (rewrite INR_IZR_INZ; f_equal; lia).
  destruct (Z.leb_spec 1 i) as [H|H].
  - rewrite Ei. replace (Z.to_nat (i - 1)) with (pred (Z.to_nat i)) by lia. ring.
  - replace (Z.to_nat i) with 0%nat by lia. cbn [pred INR]. ring.
Qed.

End Prim.

(** the primitive functions and their derivatives, as functions of space *)
Definition pfun (L : Z) (o : R * R * R) (c : Z * Z * Z) (a x y z : R) : R := norm_L L a * gto o c a x y z.

(** derivative along coordinate k *)
Definition dpfun (k : Z) (L : Z) (o : R * R * R) (c : Z * Z * Z) (a x y z : R) : R :=
  let '(n, l, m) := c in
  norm_L L a * ((if (k =? 0)%Z then dcgZ a o 0 n x else cgZ a o 0 n x) *
                (if (k =? 1)%Z then dcgZ a o 1 l y else cgZ a o 1 l y) *
                (if (k =? 2)%Z then dcgZ a o 2 m z else cgZ a o 2 m z)).

Definition d2pfun (k : Z) (L : Z) (o : R * R * R) (c : Z * Z * Z) (a x y z : R) : R :=
  let '(n, l, m) := c in
  norm_L L a * ((if (k =? 0)%Z then d2cgZ a o 0 n x else cgZ a o 0 n x) *
                (if (k =? 1)%Z then d2cgZ a o 1 l y else cgZ a o 1 l y) *
                (if (k =? 2)%Z then d2cgZ a o 2 m z else cgZ a o 2 m z)).

(** replacing coordinate k of a point *)
Definition along (k : Z) (F : R -> R -> R -> R) (x y z t : R) : R :=
  if (k =? 0)%Z then F t y z else if (k =? 1)%Z then F x t z else F x y t.
Definition at_k (k : Z) (x y z : R) : R := if (k =? 0)%Z then x else if (k =? 1)%Z then y else z.

Lemma scal3_derive (f : R -> R) (df K u v x : R) : is_derive f x df ->
  is_derive (fun t => K * (f t * u * v)) x (K * (df * u * v)).
Proof.
  intros H. apply (is_derive_scal (fun t => f t * u * v)).
  apply (is_derive_eq _ x (df * u * v)); [|reflexivity].
  apply (is_derive_ext (fun t => (u * v) * f t) (fun t => f t * u * v)).
  { intros t. match goal with |- ?a = ?b => change (@eq R a b) end. ring. }
  apply (is_derive_eq _ x ((u * v) * df)); [|ring]. apply (is_derive_scal f x (u * v)). exact H.
Qed.

Lemma scal3_derive_gen (g f : R -> R) (df K u v d x : R) : is_derive f x df ->
  (forall t, g t = K * (f t * u * v)) -> d = K * (df * u * v) -> is_derive g x d.
Proof.
  intros H Hg ->. apply (is_derive_ext (fun t => K * (f t * u * v))); [intros t; symmetry; apply Hg|].
  apply scal3_derive, H.
Qed.

Lemma pfun_derive k L o c a (x y z : R) : (0 <= k < 3)%Z ->
  is_derive (along k (pfun L o c a) x y z) (at_k k x y z) (dpfun k L o c a x y z).
Proof.
  intros Hk. destruct c as [[n l] m]. unfold along, at_k, dpfun.
  assert (k = 0 \/ k = 1 \/ k = 2)%Z as [-> | [-> | ->]] by lia; cbn [Z.eqb Pos.eqb].
  - apply (scal3_derive_gen _ (cgZ a o 0 n) (dcgZ a o 0 n x) (norm_L L a) (cgZ a o 1 l y) (cgZ a o 2 m z)).
    + apply dcg_derive.
    + intros t. unfold pfun. rewrite gto_split. ring.
    + ring.
  - apply (scal3_derive_gen _ (cgZ a o 1 l) (dcgZ a o 1 l y) (norm_L L a) (cgZ a o 0 n x) (cgZ a o 2 m z)).
    + apply dcg_derive.
    + intros t. unfold pfun. rewrite gto_split. ring.
    + ring.
  - apply (scal3_derive_gen _ (cgZ a o 2 m) (dcgZ a o 2 m z) (norm_L L a) (cgZ a o 0 n x) (cgZ a o 1 l y)).
    + apply dcg_derive.
    + intros t. unfold pfun. rewrite gto_split. ring.
    + ring.
Qed.

Lemma dpfun_derive k L o c a (x y z : R) : (0 <= k < 3)%Z ->
  is_derive (along k (dpfun k L o c a) x y z) (at_k k x y z) (d2pfun k L o c a x y z).
Proof.
  intros Hk. destruct c as [[n l] m]. unfold along, at_k, d2pfun, dpfun.
  assert (k = 0 \/ k = 1 \/ k = 2)%Z as [-> | [-> | ->]] by lia; cbn [Z.eqb Pos.eqb].
  - apply (scal3_derive_gen _ (dcgZ a o 0 n) (d2cgZ a o 0 n x) (norm_L L a) (cgZ a o 1 l y) (cgZ a o 2 m z)).
    + apply d2cg_derive.
    + intros t. ring.
    + ring.
  - apply (scal3_derive_gen _ (dcgZ a o 1 l) (d2cgZ a o 1 l y) (norm_L L a) (cgZ a o 0 n x) (cgZ a o 2 m z)).
    + apply d2cg_derive.
    + intros t. ring.
    + ring.
  - apply (scal3_derive_gen _ (dcgZ a o 2 m) (d2cgZ a o 2 m z) (norm_L L a) (cgZ a o 0 n x) (cgZ a o 1 l y)).
    + apply d2cg_derive.
    + intros t. ring.
    + ring.
Qed.

(** ** Derivatives of the contracted functions: specification *)

(** [d] is the partial derivative of [f] along coordinate [k] *)
Definition is_partial (k : Z) (f d : R -> R -> R -> R) : Prop :=
  forall x y z, is_derive (along k f x y z) (at_k k x y z) (d x y z).

(** [g] is the Laplacian of [f] *)
Definition is_laplacian (f g : R -> R -> R -> R) : Prop :=
  exists d0 d1 d2 e0 e1 e2,
    is_partial 0 f d0 /\ is_partial 0 d0 e0 /\
    is_partial 1 f d1 /\ is_partial 1 d1 e1 /\
    is_partial 2 f d2 /\ is_partial 2 d2 e2 /\
    forall x y z, g x y z = e0 x y z + e1 x y z + e2 x y z.

(** contracted versions *)
Definition contr (F : R -> R -> R -> R -> R) (prims : list (R * R)) (x y z : R) : R :=
  lsum (fun p => fst p * F (snd p) x y z) prims.

Lemma phi_contr L o prims c x y z : phi L o prims c x y z = contr (pfun L o c) prims x y z.
Proof. unfold phi, contr. apply lsum_ext. intros [cf a] _. cbn [fst snd]. unfold pfun. ring. Qed.

Lemma contr_partial k F dF prims : (0 <= k < 3)%Z -> (forall c a, In (c, a) prims -> is_partial k (F a) (dF a)) ->
  is_partial k (contr F prims) (contr dF prims).
Proof.
  intros Hk H x y z. unfold contr.
  apply (is_derive_ext (fun t => lsum (fun p => fst p * along k (F (snd p)) x y z t) prims)).
  { intros t. unfold along. destruct (k =? 0)%Z; [reflexivity|]. destruct (k =? 1)%Z; reflexivity. }
  apply (is_derive_lsum (fun p t => fst p * along k (F (snd p)) x y z t) (fun p => fst p * dF (snd p) x y z)).
  intros [c a] Hin. cbn [fst snd]. apply (is_derive_scal (along k (F a) x y z)). apply (H c a Hin).
Qed.

Lemma is_partial_ext k f g d : (forall x y z, f x y z = g x y z) -> is_partial k f d -> is_partial k g d.
Proof.
  intros H Hp x y z. apply (is_derive_ext (along k f x y z)); [|apply Hp].
  intros t. unfold along. destruct (k =? 0)%Z; [apply H|]. destruct (k =? 1)%Z; apply H.
Qed.

Lemma phi_partial k L o prims c : (0 <= k < 3)%Z -> is_partial k (phi L o prims c) (contr (dpfun k L o c) prims).
Proof.
  intros Hk. apply (is_partial_ext k (contr (pfun L o c) prims)); [intros; symmetry; apply phi_contr|].
  apply contr_partial; [exact Hk|]. intros cf a _ x y z. apply pfun_derive, Hk.
Qed.

Lemma phi_partial2 k L o prims c : (0 <= k < 3)%Z ->
  is_partial k (contr (dpfun k L o c) prims) (contr (d2pfun k L o c) prims).
Proof. intros Hk. apply contr_partial; [exact Hk|]. intros cf a _ x y z. apply dpfun_derive, Hk. Qed.

Definition lap_pfun (L : Z) (o : R * R * R) (c : Z * Z * Z) (a x y z : R) : R :=
  d2pfun 0 L o c a x y z + d2pfun 1 L o c a x y z + d2pfun 2 L o c a x y z.

Lemma phi_laplacian L o prims c : is_laplacian (phi L o prims c) (contr (lap_pfun L o c) prims).
Proof.
  exists (contr (dpfun 0 L o c) prims), (contr (dpfun 1 L o c) prims), (contr (dpfun 2 L o c) prims),
         (contr (d2pfun 0 L o c) prims), (contr (d2pfun 1 L o c) prims), (contr (d2pfun 2 L o c) prims).
  split; [apply phi_partial; lia|]. split; [apply phi_partial2; lia|].
  split; [apply phi_partial; lia|]. split; [apply phi_partial2; lia|].
  split; [apply phi_partial; lia|]. split; [apply phi_partial2; lia|].
  intros x y z. unfold contr. rewrite <- !lsum_plus. apply lsum_ext. intros [cf a] _. cbn [fst snd]. unfold lap_pfun. ring.
Qed.

(** ** Integrals *)

Lemma contr_int3 (F G : R -> R -> R -> R -> R) la lb val :
  (forall c a, In (c, a) la -> 0 < a) -> (forall c a, In (c, a) lb -> 0 < a) ->
  (forall aA aB, 0 < aA -> 0 < aB -> is_int3 (fun x y z => F aA x y z * G aB x y z) (val aA aB)) ->
  is_int3 (fun x y z => contr F la x y z * contr G lb x y z) (contracted val la lb).
Proof.
  intros Ha Hb Hv. unfold contr.
  apply (is_int3_ext (fun x y z => lsum (fun p => lsum (fun q => (fst p * F (snd p) x y z) * (fst q * G (snd q) x y z)) lb) la)).
  { intros x y z. symmetry. apply lsum_mult. }
  apply (is_int3_eq _ (lsum (fun p => lsum (fun q => fst p * fst q * val (snd p) (snd q)) lb) la)).
  2:{ unfold contracted. apply lsum_ext. intros [c a] _. apply lsum_ext. intros [c' a'] _. reflexivity. }
  apply is_int3_lsum. intros [c a] Hin. apply is_int3_lsum. intros [c' a'] Hin'. cbn [fst snd].
  apply (is_int3_ext (fun x y z => (c * c') * (F a x y z * G a' x y z))); [intros; ring|].
  apply is_int3_scal. apply Hv; [eapply Ha|eapply Hb]; eassumption.
Qed.

Lemma ov_entry_int LA LB A B cA cB aA aB : 0 < aA -> 0 < aB ->
  is_int3 (fun x y z => pfun LA A cA aA x y z * pfun LB B cB aB x y z) (ov_entry LA LB A B cA cB aA aB).
Proof.
  intros HA HB. destruct cA as [[nA lA] mA]. destruct cB as [[nB lB] mB]. unfold pfun.
  apply (is_int3_ext (fun x y z => (norm_L LA aA * norm_L LB aB) *
     ((cgZ aA A 0 nA x * cgZ aB B 0 nB x) * (cgZ aA A 1 lA y * cgZ aB B 1 lB y) * (cgZ aA A 2 mA z * cgZ aB B 2 mB z)))).
  { intros. rewrite !gto_split. ring. }
  apply (is_int3_eq _ (norm_L LA aA * norm_L LB aB *
     (osv aA aB A B 0 nA nB * osv aA aB A B 1 lA lB * osv aA aB A B 2 mA mB))).
  2:{ unfold ov_entry. rewrite !nf_norm. ring. }
  apply is_int3_scal. 
  apply (is_int3_prod (fun x => cgZ aA A 0 nA x * cgZ aB B 0 nB x) (fun y => cgZ aA A 1 lA y * cgZ aB B 1 lB y)
           (fun z => cgZ aA A 2 mA z * cgZ aB B 2 mB z)); apply osv_int; assumption.
Qed.

Definition nonneg3 (c : Z * Z * Z) : Prop := let '(n, l, m) := c in (0 <= n /\ 0 <= l /\ 0 <= m)%Z.

Lemma d2_entry_int k LA LB A B nA lA mA nB lB mB aA aB : (0 <= k < 3)%Z -> nonneg3 (nA, lA, mA) -> 0 < aA -> 0 < aB ->
  is_int3 (fun x y z => pfun LA A (nA, lA, mA) aA x y z * d2pfun k LB B (nB, lB, mB) aB x y z)
    (norm_L LA aA * norm_L LB aB *
     ((if (k =? 0)%Z then d2v aA aB A B 0 nA nB else osv aA aB A B 0 nA nB) *
      (if (k =? 1)%Z then d2v aA aB A B 1 lA lB else osv aA aB A B 1 lA lB) *
      (if (k =? 2)%Z then d2v aA aB A B 2 mA mB else osv aA aB A B 2 mA mB))).
Proof.
  intros Hk (N1 & N2 & N3) HA HB. unfold pfun, d2pfun.
  apply (is_int3_ext (fun x y z => (norm_L LA aA * norm_L LB aB) *
     ((cgZ aA A 0 nA x * (if (k =? 0)%Z then d2cgZ aB B 0 nB x else cgZ aB B 0 nB x)) *
      (cgZ aA A 1 lA y * (if (k =? 1)%Z then d2cgZ aB B 1 lB y else cgZ aB B 1 lB y)) *
      (cgZ aA A 2 mA z * (if (k =? 2)%Z then d2cgZ aB B 2 mB z else cgZ aB B 2 mB z))))).
  { intros. rewrite !gto_split. ring. }
  apply is_int3_scal.
  apply (is_int3_prod (fun x => cgZ aA A 0 nA x * (if (k =? 0)%Z then d2cgZ aB B 0 nB x else cgZ aB B 0 nB x))
     (fun y => cgZ aA A 1 lA y * (if (k =? 1)%Z then d2cgZ aB B 1 lB y else cgZ aB B 1 lB y))
     (fun z => cgZ aA A 2 mA z * (if (k =? 2)%Z then d2cgZ aB B 2 mB z else cgZ aB B 2 mB z))).
  - destruct (k =? 0)%Z; [apply d2v_int|apply osv_int]; assumption.
  - destruct (k =? 1)%Z; [apply d2v_int|apply osv_int]; assumption.
  - destruct (k =? 2)%Z; [apply d2v_int|apply osv_int]; assumption.
Qed.

Lemma kin_entry_int LA LB A B cA cB aA aB : nonneg3 cA -> 0 < aA -> 0 < aB ->
  is_int3 (fun x y z => pfun LA A cA aA x y z * (- (1 / 2) * lap_pfun LB B cB aB x y z)) (kin_entry LA LB A B cA cB aA aB).
Proof.
  intros HN HA HB. destruct cA as [[nA lA] mA]. destruct cB as [[nB lB] mB].
  pose proof (d2_entry_int 0 LA LB A B nA lA mA nB lB mB aA aB ltac:(lia) HN HA HB) as H0.
  pose proof (d2_entry_int 1 LA LB A B nA lA mA nB lB mB aA aB ltac:(lia) HN HA HB) as H1.
  pose proof (d2_entry_int 2 LA LB A B nA lA mA nB lB mB aA aB ltac:(lia) HN HA HB) as H2.
  pose proof (is_int3_scal _ (- (1 / 2)) _ (is_int3_plus _ _ _ _ (is_int3_plus _ _ _ _ H0 H1) H2)) as H.
  eapply is_int3_ext; [|eapply is_int3_eq; [exact H|]].
  - intros x y z. cbv beta. unfold lap_pfun. ring.
  - cbn [Z.eqb Pos.eqb]. unfold kin_entry. rewrite !nf_norm. replace (-0.5) with (- (1 / 2)) by lra. ring.
Qed.

Lemma mom_entry_int k LA LB A B cA cB aA aB : (0 <= k < 3)%Z -> nonneg3 cA -> 0 < aA -> 0 < aB ->
  is_int3 (fun x y z => pfun LA A cA aA x y z * (- 1 * dpfun k LB B cB aB x y z)) (mom_entry LA LB A B k cA cB aA aB).
Proof.
  intros Hk HN HA HB. destruct cA as [[nA lA] mA]. destruct cB as [[nB lB] mB]. destruct HN as (N1 & N2 & N3).
  unfold pfun, dpfun.
  apply (is_int3_ext (fun x y z => (- (norm_L LA aA * norm_L LB aB)) *
     ((cgZ aA A 0 nA x * (if (k =? 0)%Z then dcgZ aB B 0 nB x else cgZ aB B 0 nB x)) *
      (cgZ aA A 1 lA y * (if (k =? 1)%Z then dcgZ aB B 1 lB y else cgZ aB B 1 lB y)) *
      (cgZ aA A 2 mA z * (if (k =? 2)%Z then dcgZ aB B 2 mB z else cgZ aB B 2 mB z))))).
  { intros. rewrite !gto_split. ring. }
  apply (is_int3_eq _ (- (norm_L LA aA * norm_L LB aB) *
     (pick A B k 0 aA aB nA nB * pick A B k 1 aA aB lA lB * pick A B k 2 aA aB mA mB))).
  2:{ unfold mom_entry. rewrite !nf_norm. ring. }
  apply is_int3_scal.
  apply (is_int3_prod (fun x => cgZ aA A 0 nA x * (if (k =? 0)%Z then dcgZ aB B 0 nB x else cgZ aB B 0 nB x))
     (fun y => cgZ aA A 1 lA y * (if (k =? 1)%Z then dcgZ aB B 1 lB y else cgZ aB B 1 lB y))
     (fun z => cgZ aA A 2 mA z * (if (k =? 2)%Z then dcgZ aB B 2 mB z else cgZ aB B 2 mB z))); unfold pick.
  - destruct (k =? 0)%Z; [apply d1v_int|apply osv_int]; assumption.
  - destruct (k =? 1)%Z; [apply d1v_int|apply osv_int]; assumption.
  - destruct (k =? 2)%Z; [apply d1v_int|apply osv_int]; assumption.
Qed.
