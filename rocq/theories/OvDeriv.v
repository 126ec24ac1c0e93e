(** * Derivatives of the one-dimensional overlap integrals and of contracted
      functions with respect to a centre *)

From Coq Require Import ZArith List Lia Bool Reals Lra.
From Coquelicot Require Import Coquelicot.
From Verif Require Import Base GaussInt GaussProd CartModel CartProofs HeapModel HeapProofs HeapSpec
  OneElModel OneElProofs OneElPairs OneElSpec OneElInt.
Import ListNotations.
Open Scope R_scope.

Section OneD.
  Variables (a b B : R).
  Hypothesis (Ha : 0 < a) (Hb : 0 < b).

  Let T (i j : nat) (A : R) := os_pair a A b B i j.
  Let p := a + b.
  Let XPA (A : R) := (a * A + b * B) / p - A.
  Let XPB (A : R) := (a * A + b * B) / p - B.

  Lemma T_S i j A : T (S i) j A =
    XPA A * T i j A + INR i * (1 / (2 * p)) * T (pred i) j A + INR j * (1 / (2 * p)) * T i (pred j) A.
  Proof.
    unfold T, os_pair, XPA, p. cbv zeta. cbn [os]. destruct i as [|i]; cbn [pred]; [|reflexivity].
    change (INR 0) with 0. ring.
  Qed.

  Lemma T_0S j A : T 0 (S j) A = XPB A * T 0 j A + INR j * (1 / (2 * p)) * T 0 (pred j) A.
  Proof.
    unfold T, os_pair, XPB, p. cbv zeta. cbn [os os_row0]. destruct j as [|j]; cbn [pred]; [|reflexivity].
    change (INR 0) with 0. ring.
  Qed.

  Lemma XPA_der A : is_derive XPA A (- (b / p)).
  Proof. unfold XPA. auto_derive; [unfold p; lra|]. unfold p. field. lra. Qed.

  Lemma XPB_der A : is_derive XPB A (a / p).
  Proof. unfold XPB. auto_derive; [unfold p; lra|]. unfold p. field. lra. Qed.

  Lemma T00_der A : is_derive (T 0 0) A (2 * a * T 1 0 A).
  Proof.
    unfold T, os_pair. cbv zeta. cbn [os os_row0]. change (INR 0) with 0. auto_derive; [exact I|].
    set (E := exp _). set (s := sqrt _). field. unfold p. lra.
  Qed.

  Lemma der_eq (f : R -> R) (x d d' : R) : is_derive f x d -> d = d' -> is_derive f x d'.
  Proof. intros H <-. exact H. Qed.

  Lemma T0_der j : forall A, is_derive (T 0 j) A (2 * a * T 1 j A) /\ is_derive (T 0 (pred j)) A (2 * a * T 1 (pred j) A).
  Proof.
    induction j as [|j IH]; intros A; [split; apply T00_der|]. destruct (IH A) as (D1 & D2). split; [|exact D1].
    apply (is_derive_ext (fun t => XPB t * T 0 j t + INR j * (1 / (2 * p)) * T 0 (pred j) t));
      [intros t; symmetry; apply T_0S|].
    eapply der_eq.
    - apply (is_derive_plus (fun t => XPB t * T 0 j t) (fun t => INR j * (1 / (2 * p)) * T 0 (pred j) t)).
      + apply (is_derive_mult XPB (T 0 j)); [apply XPB_der|exact D1|intros; apply Rmult_comm].
      + apply (is_derive_scal (T 0 (pred j)) A (INR j * (1 / (2 * p)))). exact D2.
    - match goal with |- ?x = ?y => change (@eq R x y) end.
      change (a / p * T 0 j A + XPB A * (2 * a * T 1 j A) + INR j * (1 / (2 * p)) * (2 * a * T 1 (pred j) A)
              = 2 * a * T 1 (S j) A).
      rewrite !T_S. cbn [pred]. change (INR 0) with 0.
      assert (E : T 0 (S j) A = XPB A * T 0 j A + INR j * (1 / (2 * p)) * T 0 (pred j) A) by apply T_0S.
      rewrite S_INR. assert (Hp : p <> 0) by (unfold p; lra).
      destruct j as [|j].
      + cbn [pred] in *. change (INR 0) with 0 in *. rewrite E. field. exact Hp.
      + cbn [pred] in *. rewrite E. rewrite (T_0S j A). field. exact Hp.
  Qed.

  Lemma T_der i : forall j A, is_derive (T i j) A (2 * a * T (S i) j A - INR i * T (pred i) j A) /\
     is_derive (T (pred i) j) A (2 * a * T (S (pred i)) j A - INR (pred i) * T (pred (pred i)) j A).
  Proof.
    induction i as [|i IH]; intros j A.
    - assert (H : is_derive (T 0 j) A (2 * a * T 1 j A - INR 0 * T (pred 0) j A)).
      { destruct (T0_der j A) as (D & _). apply (der_eq _ _ _ _ D). change (INR 0) with 0. ring. }
      split; exact H.
    - destruct (IH j A) as (D1 & D2). destruct (IH (pred j) A) as (D3 & _). split; [|exact D1].
      apply (is_derive_ext (fun t => XPA t * T i j t + INR i * (1 / (2 * p)) * T (pred i) j t + INR j * (1 / (2 * p)) * T i (pred j) t));
        [intros t; symmetry; apply T_S|].
      eapply der_eq.
      + apply (is_derive_plus (fun t => XPA t * T i j t + INR i * (1 / (2 * p)) * T (pred i) j t)
                 (fun t => INR j * (1 / (2 * p)) * T i (pred j) t)).
        * apply (is_derive_plus (fun t => XPA t * T i j t) (fun t => INR i * (1 / (2 * p)) * T (pred i) j t)).
          -- apply (is_derive_mult XPA (T i j)); [apply XPA_der|exact D1|intros; apply Rmult_comm].
          -- apply (is_derive_scal (T (pred i) j) A (INR i * (1 / (2 * p)))). exact D2.
        * apply (is_derive_scal (T i (pred j)) A (INR j * (1 / (2 * p)))). exact D3.
      + match goal with |- ?x = ?y => change (@eq R x y) end.
        change (- (b / p) * T i j A + XPA A * (2 * a * T (S i) j A - INR i * T (pred i) j A)
          + INR i * (1 / (2 * p)) * (2 * a * T (S (pred i)) j A - INR (pred i) * T (pred (pred i)) j A)
          + INR j * (1 / (2 * p)) * (2 * a * T (S i) (pred j) A - INR i * T (pred i) (pred j) A)
          = 2 * a * T (S (S i)) j A - INR (S i) * T (pred (S i)) j A).
        rewrite (T_S (S i) j A). cbn [pred]. rewrite !S_INR.
        assert (Hp : p <> 0) by (unfold p; lra).
        assert (E2 : b = p - a) by (unfold p; ring).
        destruct i as [|i].
        * cbn [pred] in *. change (INR 0) with 0. rewrite E2. field. exact Hp.
        * cbn [pred] in *. pose proof (T_S i j A) as E. rewrite S_INR.
          assert (E' : XPA A * T i j A = T (S i) j A - INR i * (1 / (2 * p)) * T (pred i) j A - INR j * (1 / (2 * p)) * T i (pred j) A)
            by (rewrite E; ring).
          replace (XPA A * (2 * a * T (S (S i)) j A - (INR i + 1) * T i j A)) with
            (XPA A * (2 * a * T (S (S i)) j A) - (INR i + 1) * (XPA A * T i j A)) by ring.
          rewrite E', E2. field. exact Hp.
  Qed.
End OneD.

(** d/dA of the integral of (x-A)^i e^(-a(x-A)^2) (x-B)^j e^(-b(x-B)^2) *)
Lemma os_pair_derive (a A b B : R) (i j : nat) : 0 < a -> 0 < b ->
  is_derive (fun t => os_pair a t b B i j) A (2 * a * os_pair a A b B (S i) j - INR i * os_pair a A b B (pred i) j).
Proof. intros Ha Hb. apply (T_der a b B Ha Hb i j A). Qed.

(** ** Moving one coordinate of a centre *)

Definition set_coord (o : R * R * R) (k : Z) (t : R) : R * R * R :=
  let '(x, y, z) := o in
  if (k =? 0)%Z then (t, y, z) else if (k =? 1)%Z then (x, t, z) else (x, y, t).

(** the component with exponent k changed by d *)
Definition shift (c : Z * Z * Z) (k d : Z) : Z * Z * Z :=
  let '(n, l, m) := c in
  if (k =? 0)%Z then (n + d, l, m)%Z else if (k =? 1)%Z then (n, l + d, m)%Z else (n, l, m + d)%Z.

Definition expo (c : Z * Z * Z) (k : Z) : Z :=
  let '(n, l, m) := c in if (k =? 0)%Z then n else if (k =? 1)%Z then l else m.

Lemma set_coord_same o k t : coord3 (set_coord o k t) (if (k =? 0)%Z then 0 else if (k =? 1)%Z then 1 else 2)%Z = t.
Proof. destruct o as [[x y] z]. unfold set_coord. destruct (k =? 0)%Z; [reflexivity|]. destruct (k =? 1)%Z; reflexivity. Qed.

Lemma set_coord_id o k : (0 <= k < 3)%Z -> set_coord o k (coord3 o k) = o.
Proof.
  intros H. destruct o as [[x y] z]. assert (k = 0 \/ k = 1 \/ k = 2)%Z as [-> | [-> | ->]] by lia; reflexivity.
Qed.

(** the primitive function and its derivative in the centre *)
Lemma gto_center_der o c k a x y z : (0 <= k < 3)%Z -> nonneg3 c ->
  is_derive (fun t => gto (set_coord o k t) c a x y z) (coord3 o k)
    (2 * a * gto o (shift c k 1) a x y z
     - IZR (expo c k) * (if (0 <? expo c k)%Z then gto o (shift c k (-1)) a x y z else 0)).
Proof.
  intros Hk Hc. destruct o as [[ox oy] oz]. destruct c as [[n l] m]. destruct Hc as (N1 & N2 & N3).
  assert (P : forall (e : Z) (u : R), (0 <= e)%Z -> u ^ Z.to_nat (e + 1) = u * u ^ Z.to_nat e).
  { intros e u He. replace (Z.to_nat (e + 1)) with (S (Z.to_nat e)) by lia. reflexivity. }
  assert (Q : forall e : Z, (0 <= e)%Z -> (INR (Z.to_nat e) = IZR e /\ Init.Nat.pred (Z.to_nat e) = Z.to_nat (e + -1))).
  { intros e He. split; [rewrite INR_IZR_INZ, Z2Nat.id by lia; reflexivity|lia]. }
  assert (k = 0 \/ k = 1 \/ k = 2)%Z as [-> | [-> | ->]] by lia; cbn [set_coord shift expo gto coord3 Z.eqb Pos.eqb].
  - rewrite (P n (x - ox) N1). destruct (Q n N1) as (Q1 & Q2). auto_derive; [exact I|]. rewrite Q1, Q2.
    change (x + - ox) with (x - ox). destruct (Z.ltb_spec 0 n); [ring|]. replace n with 0%Z by lia. ring.
  - rewrite (P l (y - oy) N2). destruct (Q l N2) as (Q1 & Q2). auto_derive; [exact I|]. rewrite Q1, Q2.
    change (y + - oy) with (y - oy). destruct (Z.ltb_spec 0 l); [ring|]. replace l with 0%Z by lia. ring.
  - rewrite (P m (z - oz) N3). destruct (Q m N3) as (Q1 & Q2). auto_derive; [exact I|]. rewrite Q1, Q2.
    change (z + - oz) with (z - oz). destruct (Z.ltb_spec 0 m); [ring|]. replace m with 0%Z by lia. ring.
Qed.

(** the shells a differentiated shell is made of *)
Definition down_prims (L : Z) (prims : list (R * R)) : list (R * R) :=
  map (fun '(c, a) => (c * (norm_L L a / norm_L (L - 1) a), a)) prims.
Definition up_prims (L : Z) (prims : list (R * R)) : list (R * R) :=
  map (fun '(c, a) => (c * (2 * a * norm_L L a / norm_L (L + 1) a), a)) prims.

Lemma norm_L_pos L a : 0 < norm_L L a.
Proof. unfold norm_L, Rpower. apply Rmult_lt_0_compat; apply exp_pos. Qed.

Lemma phi_down L o prims c x y z :
  phi (L - 1) o (down_prims L prims) c x y z = lsum (fun '(cf, a) => cf * norm_L L a * gto o c a x y z) prims.
Proof.
  unfold phi, down_prims. rewrite lsum_map. apply lsum_ext. intros [cf a] _.
  pose proof (norm_L_pos (L - 1) a). field. lra.
Qed.

Lemma phi_up L o prims c x y z :
  phi (L + 1) o (up_prims L prims) c x y z = lsum (fun '(cf, a) => cf * norm_L L a * (2 * a * gto o c a x y z)) prims.
Proof.
  unfold phi, up_prims. rewrite lsum_map. apply lsum_ext. intros [cf a] _.
  pose proof (norm_L_pos (L + 1) a). field. lra.
Qed.

Lemma is_derive_lsum' {A} (F : A -> R -> R) (d : A -> R) l (t0 : R) :
  (forall x, In x l -> is_derive (F x) t0 (d x)) -> is_derive (fun t => lsum (fun x => F x t) l) t0 (lsum d l).
Proof.
  intros H. induction l as [|x l IH].
  - apply (is_derive_const 0 t0).
  - apply (is_derive_plus (F x) (fun t => lsum (fun y => F y t) l)); [apply H; left; reflexivity|].
    apply IH. intros y Hy. apply H. right. exact Hy.
Qed.

(** d/dA_k phi = phi_plus(c + e_k) - c_k phi_minus(c - e_k) *)
Lemma phi_center_der L o prims c k x y z : (0 <= k < 3)%Z -> nonneg3 c ->
  is_derive (fun t => phi L (set_coord o k t) prims c x y z) (coord3 o k)
    (phi (L + 1) o (up_prims L prims) (shift c k 1) x y z
     - IZR (expo c k) * (if (0 <? expo c k)%Z then phi (L - 1) o (down_prims L prims) (shift c k (-1)) x y z else 0)).
Proof.
  intros Hk Hc. unfold phi at 1. rewrite phi_up, phi_down.
  eapply der_eq.
  - apply (is_derive_lsum' (fun p t => let '(cf, a) := p in cf * norm_L L a * gto (set_coord o k t) c a x y z)
      (fun '(cf, a) => cf * norm_L L a * (2 * a * gto o (shift c k 1) a x y z
         - IZR (expo c k) * (if (0 <? expo c k)%Z then gto o (shift c k (-1)) a x y z else 0)))).
    intros [cf a] _. apply (is_derive_scal (fun t => gto (set_coord o k t) c a x y z)). apply gto_center_der; assumption.
  - match goal with |- ?x = ?y => change (@eq R x y) end.
    destruct (0 <? expo c k)%Z.
    + rewrite <- lsum_scal.
      induction prims as [|[cf a] l IH]; [unfold lsum; cbn; ring|]. rewrite !lsum_cons, IH. ring.
    + induction prims as [|[cf a] l IH]; [unfold lsum; cbn; ring|]. rewrite !lsum_cons, IH. ring.
Qed.

(** ** The derivative of a contracted overlap integral *)

Lemma nf_nL L a : OneElPairs.nf L a = norm_L L a.
Proof. apply nf_norm. Qed.

Ltac ringR := match goal with |- ?x = ?y => change (@eq R x y) end; ring.

(** the one-dimensional factor of an entry *)
Lemma osv_derive aA aB o B k i j : 0 < aA -> 0 < aB -> (0 <= k < 3)%Z -> (0 <= i)%Z ->
  is_derive (fun t => osv aA aB (set_coord o k t) B k i j) (coord3 o k)
    (2 * aA * osv aA aB o B k (i + 1) j - IZR i * (if (0 <? i)%Z then osv aA aB o B k (i - 1) j else 0)).
Proof.
  intros HA HB Hk Hi. unfold osv.
  apply (is_derive_ext (fun t => os_pair aA t aB (coord3 B k) (Z.to_nat i) (Z.to_nat j))).
  { intros t. f_equal. destruct o as [[x y] z]. assert (k = 0 \/ k = 1 \/ k = 2)%Z as [-> | [-> | ->]] by lia; reflexivity. }
  eapply der_eq; [apply (os_pair_derive aA (coord3 o k) aB (coord3 B k) (Z.to_nat i) (Z.to_nat j) HA HB)|].
  replace (Z.to_nat (i + 1)) with (S (Z.to_nat i)) by lia. rewrite INR_IZR_INZ, Z2Nat.id by lia.
  destruct (Z.ltb_spec 0 i).
  - replace (Z.to_nat (i - 1)) with (Init.Nat.pred (Z.to_nat i)) by lia. reflexivity.
  - replace i with 0%Z by lia. ring.
Qed.

Lemma osv_other aA aB o B k t c i j : (0 <= k < 3)%Z -> (0 <= c < 3)%Z -> c <> k ->
  osv aA aB (set_coord o k t) B c i j = osv aA aB o B c i j.
Proof.
  intros Hk Hc Hn. unfold osv. f_equal. destruct o as [[x y] z].
  assert (k = 0 \/ k = 1 \/ k = 2)%Z as [-> | [-> | ->]] by lia;
  assert (c = 0 \/ c = 1 \/ c = 2)%Z as [-> | [-> | ->]] by lia; try reflexivity; lia.
Qed.

(** the raw product of the three factors *)
Definition raw_entry (A B : R * R * R) (cA cB : Z * Z * Z) (aA aB : R) : R :=
  let '(nA, lA, mA) := cA in let '(nB, lB, mB) := cB in
  osv aA aB A B 0 nA nB * osv aA aB A B 1 lA lB * osv aA aB A B 2 mA mB.

Lemma ov_raw LA LB A B cA cB aA aB : ov_entry LA LB A B cA cB aA aB = norm_L LA aA * norm_L LB aB * raw_entry A B cA cB aA aB.
Proof.
  unfold ov_entry, raw_entry. destruct cA as [[nA lA] mA]. destruct cB as [[nB lB] mB]. rewrite !nf_norm. ring.
Qed.

Lemma raw_entry_der A B cA cB aA aB k : 0 < aA -> 0 < aB -> (0 <= k < 3)%Z -> nonneg3 cA ->
  is_derive (fun t => raw_entry (set_coord A k t) B cA cB aA aB) (coord3 A k)
    (2 * aA * raw_entry A B (shift cA k 1) cB aA aB
     - IZR (expo cA k) * (if (0 <? expo cA k)%Z then raw_entry A B (shift cA k (-1)) cB aA aB else 0)).
Proof.
  intros HA HB Hk Hc. destruct cA as [[nA lA] mA]. destruct cB as [[nB lB] mB]. destruct Hc as (N1 & N2 & N3).
  unfold raw_entry.
  assert (k = 0 \/ k = 1 \/ k = 2)%Z as [-> | [-> | ->]] by lia; cbn [shift expo Z.eqb Pos.eqb].
  - apply (is_derive_ext (fun t => osv aA aB A B 1 lA lB * osv aA aB A B 2 mA mB * osv aA aB (set_coord A 0 t) B 0 nA nB)).
    { intros t. rewrite (osv_other aA aB A B 0 t 1), (osv_other aA aB A B 0 t 2) by lia. ringR. }
    eapply der_eq; [apply (is_derive_scal (fun t => osv aA aB (set_coord A 0 t) B 0 nA nB)); apply osv_derive; assumption || lia|].
    match goal with |- ?x = ?y => change (@eq R x y) end. replace (nA + -1)%Z with (nA - 1)%Z by lia.
    destruct (0 <? nA)%Z; ring.
  - apply (is_derive_ext (fun t => osv aA aB A B 0 nA nB * osv aA aB A B 2 mA mB * osv aA aB (set_coord A 1 t) B 1 lA lB)).
    { intros t. rewrite (osv_other aA aB A B 1 t 0), (osv_other aA aB A B 1 t 2) by lia. ringR. }
    eapply der_eq; [apply (is_derive_scal (fun t => osv aA aB (set_coord A 1 t) B 1 lA lB)); apply osv_derive; assumption || lia|].
    match goal with |- ?x = ?y => change (@eq R x y) end. replace (lA + -1)%Z with (lA - 1)%Z by lia.
    destruct (0 <? lA)%Z; ring.
  - apply (is_derive_ext (fun t => osv aA aB A B 0 nA nB * osv aA aB A B 1 lA lB * osv aA aB (set_coord A 2 t) B 2 mA mB)).
    { intros t. rewrite (osv_other aA aB A B 2 t 0), (osv_other aA aB A B 2 t 1) by lia. ringR. }
    eapply der_eq; [apply (is_derive_scal (fun t => osv aA aB (set_coord A 2 t) B 2 mA mB)); apply osv_derive; assumption || lia|].
    match goal with |- ?x = ?y => change (@eq R x y) end. replace (mA + -1)%Z with (mA - 1)%Z by lia.
    destruct (0 <? mA)%Z; ring.
Qed.

(** what the gradient code assembles *)
Definition grad_value (LA LB : Z) (A B : R * R * R) (PA PB : list (R * R)) (cA cB : Z * Z * Z) (k : Z) : R :=
  contracted (ov_entry (LA + 1) LB A B (shift cA k 1) cB) (up_prims LA PA) PB
  - IZR (expo cA k) *
    (if (0 <? expo cA k)%Z then contracted (ov_entry (LA - 1) LB A B (shift cA k (-1)) cB) (down_prims LA PA) PB else 0).

Lemma contracted_raw L LB A B c cB (fac : R -> R) PA PB :
  contracted (ov_entry L LB A B c cB) (map (fun '(cf, a) => (cf * (fac a / norm_L L a), a)) PA) PB =
  contracted (fun aA aB => fac aA * norm_L LB aB * raw_entry A B c cB aA aB) PA PB.
Proof.
  unfold contracted. rewrite lsum_map. apply lsum_ext. intros [ca aa] _. apply lsum_ext. intros [cb ab] _.
  rewrite ov_raw. pose proof (norm_L_pos L aa). field. lra.
Qed.

Lemma contracted_der LA LB A B PA PB cA cB k :
  (forall c a, In (c, a) PA -> 0 < a) -> (forall c a, In (c, a) PB -> 0 < a) -> (0 <= k < 3)%Z -> nonneg3 cA ->
  is_derive (fun t => contracted (ov_entry LA LB (set_coord A k t) B cA cB) PA PB) (coord3 A k)
    (grad_value LA LB A B PA PB cA cB k).
Proof.
  intros XA XB Hk Hc. unfold grad_value.
  unfold up_prims, down_prims.
  rewrite (contracted_raw (LA + 1) LB A B (shift cA k 1) cB (fun a => 2 * a * norm_L LA a)).
  rewrite (contracted_raw (LA - 1) LB A B (shift cA k (-1)) cB (fun a => norm_L LA a)).
  eapply der_eq.
  - unfold contracted. 
    apply (is_derive_lsum' (fun p t => let '(ca, aa) := p in lsum (fun '(cb, ab) => ca * cb * ov_entry LA LB (set_coord A k t) B cA cB aa ab) PB)
       (fun '(ca, aa) => lsum (fun '(cb, ab) => ca * cb * (norm_L LA aa * norm_L LB ab) *
          (2 * aa * raw_entry A B (shift cA k 1) cB aa ab
     - IZR (expo cA k) * (if (0 <? expo cA k)%Z then raw_entry A B (shift cA k (-1)) cB aa ab else 0))) PB)).
    intros [ca aa] Ha.
    apply (is_derive_ext (fun t => lsum (fun q => fst q * ca * (norm_L LA aa * norm_L LB (snd q)) * raw_entry (set_coord A k t) B cA cB aa (snd q)) PB)).
    { intros t. apply lsum_ext. intros [cb ab] _. cbn [fst snd]. rewrite ov_raw. ringR. }
    eapply der_eq.
    + apply (is_derive_lsum' (fun q t => fst q * ca * (norm_L LA aa * norm_L LB (snd q)) * raw_entry (set_coord A k t) B cA cB aa (snd q))
        (fun q => fst q * ca * (norm_L LA aa * norm_L LB (snd q)) * (2 * aa * raw_entry A B (shift cA k 1) cB aa (snd q)
     - IZR (expo cA k) * (if (0 <? expo cA k)%Z then raw_entry A B (shift cA k (-1)) cB aa (snd q) else 0)))).
      intros [cb ab] Hb. cbn [fst snd].
      apply (is_derive_scal (fun t => raw_entry (set_coord A k t) B cA cB aa ab)).
      apply raw_entry_der; [apply (XA ca), Ha|apply (XB cb), Hb|exact Hk|exact Hc].
    + apply lsum_ext. intros [cb ab] _. cbn [fst snd]. ring.
  - match goal with |- ?x = ?y => change (@eq R x y) end. unfold contracted.
    assert (G : forall (f g : R -> R -> R -> R -> R) u, lsum (fun '(ca, aa) => lsum (fun '(cb, ab) => f ca aa cb ab - u * g ca aa cb ab) PB) PA =
       lsum (fun '(ca, aa) => lsum (fun '(cb, ab) => f ca aa cb ab) PB) PA - u * lsum (fun '(ca, aa) => lsum (fun '(cb, ab) => g ca aa cb ab) PB) PA).
    { intros f g u. assert (G1 : forall ca aa, lsum (fun '(cb, ab) => f ca aa cb ab - u * g ca aa cb ab) PB =
         lsum (fun '(cb, ab) => f ca aa cb ab) PB - u * lsum (fun '(cb, ab) => g ca aa cb ab) PB).
      { intros ca aa. clear. induction PB as [|[cb ab] l IH]; [unfold lsum; cbn; ring|]. rewrite !lsum_cons, IH. ring. }
      clear - G1. induction PA as [|[ca aa] l IH]; [unfold lsum; cbn; ring|]. rewrite !lsum_cons, IH, G1. ring. }
    destruct (0 <? expo cA k)%Z.
    + rewrite <- (G (fun ca aa cb ab => ca * cb * (2 * aa * norm_L LA aa * norm_L LB ab * raw_entry A B (shift cA k 1) cB aa ab))
               (fun ca aa cb ab => ca * cb * (norm_L LA aa * norm_L LB ab * raw_entry A B (shift cA k (-1)) cB aa ab)) (IZR (expo cA k))).
      apply lsum_ext. intros [ca aa] _. apply lsum_ext. intros [cb ab] _. ring.
    + rewrite Rmult_0_r, Rminus_0_r. apply lsum_ext. intros [ca aa] _. apply lsum_ext. intros [cb ab] _. ring.
Qed.

(** every function giving the overlap at each position of the centre has that
    derivative *)
Lemma overlap_center_der LA LB A B PA PB cA cB k (Sf : R -> R) :
  (forall c a, In (c, a) PA -> 0 < a) -> (forall c a, In (c, a) PB -> 0 < a) -> (0 <= k < 3)%Z -> nonneg3 cA ->
  (forall t, is_int3 (fun x y z => phi LA (set_coord A k t) PA cA x y z * phi LB B PB cB x y z) (Sf t)) ->
  is_derive Sf (coord3 A k) (grad_value LA LB A B PA PB cA cB k).
Proof.
  intros XA XB Hk Hc HS.
  apply (is_derive_ext (fun t => contracted (ov_entry LA LB (set_coord A k t) B cA cB) PA PB)).
  - intros t. eapply is_int3_unique; [|apply HS].
    eapply is_int3_ext; [|apply (contr_int3 (pfun LA (set_coord A k t) cA) (pfun LB B cB) PA PB _ XA XB)].
    + intros x y z. rewrite !phi_contr. reflexivity.
    + intros aA aB HA HB. apply ov_entry_int; assumption.
  - apply contracted_der; assumption.
Qed.

(** moving B by t is moving A by -t *)
Lemma os_pair_shift a A b B s i j : 0 < a -> 0 < b -> os_pair a (A + s) b (B + s) i j = os_pair a A b B i j.
Proof.
  intros Ha Hb. unfold os_pair. cbv zeta.
  replace ((a * (A + s) + b * (B + s)) / (a + b) - (A + s)) with ((a * A + b * B) / (a + b) - A) by (field; lra).
  replace ((a * (A + s) + b * (B + s)) / (a + b) - (B + s)) with ((a * A + b * B) / (a + b) - B) by (field; lra).
  replace (A + s - (B + s)) with (A - B) by ring. reflexivity.
Qed.

Lemma raw_move_B A B cA cB aA aB k t : 0 < aA -> 0 < aB -> (0 <= k < 3)%Z ->
  raw_entry A (set_coord B k t) cA cB aA aB = raw_entry (set_coord A k (coord3 A k + coord3 B k - t)) B cA cB aA aB.
Proof.
  intros Ha Hb Hk. destruct A as [[ax ay] az]. destruct B as [[bx by_] bz]. destruct cA as [[nA lA] mA]. destruct cB as [[nB lB] mB].
  unfold raw_entry, osv.
  assert (k = 0 \/ k = 1 \/ k = 2)%Z as [-> | [-> | ->]] by lia; cbn [set_coord coord3 Z.eqb Pos.eqb]; f_equal.
  - f_equal. rewrite <- (os_pair_shift aA _ aB bx (t - bx)) by assumption. f_equal; ring.
  - f_equal. rewrite <- (os_pair_shift aA _ aB by_ (t - by_)) by assumption. f_equal; ring.
  - rewrite <- (os_pair_shift aA _ aB bz (t - bz)) by assumption. f_equal; ring.
Qed.

Lemma overlap_center_der_B LA LB A B PA PB cA cB k (Sf : R -> R) :
  (forall c a, In (c, a) PA -> 0 < a) -> (forall c a, In (c, a) PB -> 0 < a) -> (0 <= k < 3)%Z -> nonneg3 cA ->
  (forall t, is_int3 (fun x y z => phi LA A PA cA x y z * phi LB (set_coord B k t) PB cB x y z) (Sf t)) ->
  is_derive Sf (coord3 B k) (- grad_value LA LB A B PA PB cA cB k).
Proof.
  intros XA XB Hk Hc HS.
  apply (is_derive_ext (fun t => contracted (ov_entry LA LB (set_coord A k (coord3 A k + coord3 B k - t)) B cA cB) PA PB)).
  - intros t. apply (eq_trans (y := contracted (ov_entry LA LB A (set_coord B k t) cA cB) PA PB)).
    + unfold contracted. apply lsum_ext. intros [ca aa] Ia. apply lsum_ext. intros [cb ab] Ib.
      rewrite !ov_raw. rewrite raw_move_B; [reflexivity|apply (XA ca), Ia|apply (XB cb), Ib|exact Hk].
    + eapply is_int3_unique; [|apply HS].
      eapply is_int3_ext; [|apply (contr_int3 (pfun LA A cA) (pfun LB (set_coord B k t) cB) PA PB _ XA XB)].
      * intros x y z. rewrite !phi_contr. reflexivity.
      * intros aA aB HA HB. apply ov_entry_int; assumption.
  - eapply der_eq.
    + apply (is_derive_comp (fun u => contracted (ov_entry LA LB (set_coord A k u) B cA cB) PA PB)
        (fun t => coord3 A k + coord3 B k - t) (coord3 B k) (grad_value LA LB A B PA PB cA cB k) (-1)).
      * replace (coord3 A k + coord3 B k - coord3 B k) with (coord3 A k) by ring. apply contracted_der; assumption.
      * auto_derive; [exact I|ring].
    + match goal with |- ?x = ?y => change (@eq R x y) end.
      change (-1 * grad_value LA LB A B PA PB cA cB k = - grad_value LA LB A B PA PB cA cB k). ring.
Qed.

(** moving both centres together changes nothing *)
Lemma overlap_center_both LA LB A PA PB cA cB k (Sf : R -> R) (B : R * R * R) s0 :
  (forall c a, In (c, a) PA -> 0 < a) -> (forall c a, In (c, a) PB -> 0 < a) -> (0 <= k < 3)%Z ->
  (forall s, is_int3 (fun x y z => phi LA (set_coord A k (coord3 A k + s)) PA cA x y z *
                                   phi LB (set_coord B k (coord3 B k + s)) PB cB x y z) (Sf s)) ->
  is_derive Sf s0 0.
Proof.
  intros XA XB Hk HS.
  apply (is_derive_ext (fun _ => contracted (ov_entry LA LB A B cA cB) PA PB)).
  - intros s. eapply is_int3_unique; [|apply HS].
    eapply is_int3_ext; [|apply (contr_int3 (pfun LA (set_coord A k (coord3 A k + s)) cA) (pfun LB (set_coord B k (coord3 B k + s)) cB) PA PB _ XA XB)].
    + intros x y z. rewrite !phi_contr. reflexivity.
    + intros aA aB HA HB. eapply is_int3_eq; [apply ov_entry_int; assumption|].
      rewrite !ov_raw. f_equal. rewrite raw_move_B by assumption. f_equal.
      destruct A as [[ax ay] az]. destruct B as [[bx by_] bz].
      assert (k = 0 \/ k = 1 \/ k = 2)%Z as [-> | [-> | ->]] by lia; cbn [set_coord coord3 Z.eqb Pos.eqb]; repeat f_equal; ring.
  - apply (is_derive_const (contracted (ov_entry LA LB A B cA cB) PA PB)).
Qed.
