(** * The expansion coefficients *)

From Coq Require Import ZArith List Lia Bool Reals Lra.
From Coquelicot Require Import Coquelicot.
From Verif Require Import Base Loops Sums GaussInt GaussProd HeapModel OneElModel OneElProofs OneElInt LmatModel SpecModel OutercoreModel MmdModel MmdSpec.
Import ListNotations.
Open Scope R_scope.

Ltac ringR := match goal with |- ?a = ?b => change (@eq R a b) end; ring.

Section Coef.
Variables (q XA XB K : R).
Hypothesis Hq : 0 < q.

Fixpoint ef (n i j t : nat) : R :=
  match n with
  | O => match t with O => K | S _ => 0 end
  | S n' =>
      match t with
      | S t' => 1 / (2 * q * INR (S t')) * (INR i * ef n' (pred i) j t' + INR j * ef n' i (pred j) t')
      | O => match i with O => XB * ef n' 0 (pred j) 0 + ef n' 0 (pred j) 1 | S i' => XA * ef n' i' j 0 + ef n' i' j 1 end
      end
  end.
Definition ecoef (i j t : nat) : R := ef (i + j) i j t.

Lemma ef_high n i j t : (n < t)%nat -> ef n i j t = 0.
Proof.
  revert i j t. induction n as [|n IH]; intros i j t Ht; (destruct t as [|t]; [lia|]); [reflexivity|].
  cbn [ef]. rewrite !IH by lia. ring.
Qed.
Lemma ecoef_high i j t : (i + j < t)%nat -> ecoef i j t = 0.
Proof. apply ef_high. Qed.
Lemma ecoef_0 : ecoef 0 0 0 = K.
Proof. reflexivity. Qed.
Lemma ecoef_A0 i j : ecoef (S i) j 0 = XA * ecoef i j 0 + ecoef i j 1.
Proof. unfold ecoef. cbn [Nat.add ef]. reflexivity. Qed.
Lemma ecoef_B0 j : ecoef 0 (S j) 0 = XB * ecoef 0 j 0 + ecoef 0 j 1.
Proof. unfold ecoef. cbn [Nat.add ef pred]. reflexivity. Qed.

(** the lowered terms: 0 when the index is 0 *)
Definition lowA i j t : R := match i with O => 0 | S i' => INR i * ecoef i' j t end.
Definition lowB i j t : R := match j with O => 0 | S j' => INR j * ecoef i j' t end.
Lemma ecoef_S i j t : 2 * q * INR (S t) * ecoef i j (S t) = lowA i j t + lowB i j t.
Proof.
  assert (HS : INR (S t) <> 0) by (apply not_0_INR; lia).
  unfold lowA, lowB, ecoef. destruct i as [|i], j as [|j].
  - cbn [Nat.add ef]. ring.
  - cbn [Nat.add ef pred]. change (INR 0) with 0. field. split; [exact HS|lra].
  - replace (S i + 0)%nat with (S i) by lia. cbn [ef pred]. replace (i + 0)%nat with i by lia. change (INR 0) with 0. field. split; [exact HS|lra].
  - replace (S i + S j)%nat with (S (S i + j)) by lia. cbn [ef pred]. replace (i + S j)%nat with (S i + j)%nat by lia. field. split; [exact HS|lra].
Qed.

Definition prevt i j t : R := match t with O => 0 | S t' => ecoef i j t' end.

Lemma eS i j t : ecoef i j (S t) = (lowA i j t + lowB i j t) / (2 * q * INR (S t)).
Proof.
  rewrite <- ecoef_S. field. split; [|lra]. apply not_0_INR. lia.
Qed.

(** the recurrences of the literature *)
Lemma ecoef_A t : forall i j, ecoef (S i) j t = prevt i j t / (2 * q) + XA * ecoef i j t + INR (S t) * ecoef i j (S t).
Proof.
  induction t as [|t IH]; intros i j.
  - rewrite ecoef_A0. unfold prevt. change (INR 1) with 1. field. lra.
  - assert (HS : INR (S t) <> 0) by (apply not_0_INR; lia). assert (HS2 : INR (S (S t)) <> 0) by (apply not_0_INR; lia).
    apply (Rmult_eq_reg_l (2 * q * INR (S t))); [|apply Rmult_integral_contrapositive_currified; [lra|exact HS]].
    rewrite ecoef_S. cbn [prevt].
    replace (2 * q * INR (S t) * (ecoef i j t / (2 * q) + XA * ecoef i j (S t) + INR (S (S t)) * ecoef i j (S (S t))))
      with (INR (S t) * ecoef i j t + XA * (2 * q * INR (S t) * ecoef i j (S t)) + INR (S t) * (2 * q * INR (S (S t)) * ecoef i j (S (S t)))) by (field; lra).
    rewrite !ecoef_S.
    (* the two instances of the induction hypothesis *)
    assert (HB : lowB (S i) j t = (match j with O => 0 | S j' => INR j * prevt i j' t end) / (2 * q) + XA * lowB i j t + INR (S t) * lowB i j (S t)).
    { destruct j as [|j]; cbn [lowB]; [field; lra|]. rewrite IH. field. lra. }
    assert (HA : lowA (S i) j t = INR (S i) * ecoef i j t) by reflexivity.
    assert (HC : INR i * ecoef i j t = (match i with O => 0 | S i' => INR i * prevt i' j t end) / (2 * q) + XA * lowA i j t + INR (S t) * lowA i j (S t)).
    { destruct i as [|i]; cbn [lowA]; [change (INR 0) with 0; field; lra|]. rewrite IH. field. lra. }
    assert (HD : (match i with O => 0 | S i' => INR i * prevt i' j t end) + (match j with O => 0 | S j' => INR j * prevt i j' t end) = 2 * q * INR t * ecoef i j t).
    { destruct t as [|t]; [change (INR 0) with 0; destruct i, j; cbn [prevt]; ring|]. rewrite ecoef_S. destruct i, j; reflexivity. }
    rewrite HA, HB, S_INR. rewrite (S_INR t) in *.
    assert (HE : (match i with O => 0 | S i' => INR i * prevt i' j t end) / (2 * q) + (match j with O => 0 | S j' => INR j * prevt i j' t end) / (2 * q) = INR t * ecoef i j t).
    { rewrite <- Rdiv_plus_distr, HD. field. lra. }
    lra.
Qed.

Lemma ecoef_B t : forall j, ecoef 0 (S j) t = prevt 0 j t / (2 * q) + XB * ecoef 0 j t + INR (S t) * ecoef 0 j (S t).
Proof.
  induction t as [|t IH]; intros j.
  - rewrite ecoef_B0. unfold prevt. change (INR 1) with 1. field. lra.
  - assert (HS : INR (S t) <> 0) by (apply not_0_INR; lia). assert (HS2 : INR (S (S t)) <> 0) by (apply not_0_INR; lia).
    apply (Rmult_eq_reg_l (2 * q * INR (S t))); [|apply Rmult_integral_contrapositive_currified; [lra|exact HS]].
    rewrite ecoef_S. cbn [prevt].
    replace (2 * q * INR (S t) * (ecoef 0 j t / (2 * q) + XB * ecoef 0 j (S t) + INR (S (S t)) * ecoef 0 j (S (S t))))
      with (INR (S t) * ecoef 0 j t + XB * (2 * q * INR (S t) * ecoef 0 j (S t)) + INR (S t) * (2 * q * INR (S (S t)) * ecoef 0 j (S (S t)))) by (field; lra).
    rewrite !ecoef_S. cbn [lowA].
    assert (HA : lowB 0 (S j) t = INR (S j) * ecoef 0 j t) by reflexivity.
    assert (HC : INR j * ecoef 0 j t = (match j with O => 0 | S j' => INR j * prevt 0 j' t end) / (2 * q) + XB * lowB 0 j t + INR (S t) * lowB 0 j (S t)).
    { destruct j as [|j]; cbn [lowB]; [change (INR 0) with 0; field; lra|]. rewrite IH. field. lra. }
    assert (HD : (match j with O => 0 | S j' => INR j * prevt 0 j' t end) = 2 * q * INR t * ecoef 0 j t).
    { destruct t as [|t]; [change (INR 0) with 0; destruct j; cbn [prevt]; ring|]. rewrite ecoef_S. destruct j; cbn [lowA lowB prevt]; ring. }
    rewrite HA, S_INR. rewrite (S_INR t) in *.
    assert (HE : (match j with O => 0 | S j' => INR j * prevt 0 j' t end) / (2 * q) = INR t * ecoef 0 j t) by (rewrite HD; field; lra).
    lra.
Qed.
End Coef.

(** ** Hermite polynomials: d^k/dX^k exp(m X^2/2) = hpol m X k exp(m X^2/2) *)

Fixpoint hpol (m X : R) (k : nat) : R :=
  match k with
  | O => 1
  | S k' => match k' with O => m * X | S k'' => m * (INR k' * hpol m X k'' + X * hpol m X k') end
  end.

Lemma hpol_SS m X k : hpol m X (S (S k)) = m * (INR (S k) * hpol m X k + X * hpol m X (S k)).
Proof. reflexivity. Qed.
Lemma hpol_S m X k : hpol m X (S k) = m * (INR k * hpol m X (pred k) + X * hpol m X k).
Proof. destruct k as [|k]; [cbn [hpol INR pred]; ring|apply hpol_SS]. Qed.
Lemma hpol_0 X k : (0 < k)%nat -> hpol 0 X k = 0.
Proof. destruct k as [|k]; [lia|]. intros _. rewrite hpol_S. ring. Qed.

Lemma hpol_derive m k : forall X, is_derive (fun Y => hpol m Y k) X (INR k * m * hpol m X (pred k)) /\ is_derive (fun Y => hpol m Y (S k)) X (INR (S k) * m * hpol m X k).
Proof.
  induction k as [|k IH]; intros X.
  - split.
    + apply (is_derive_eq _ X 0); [|cbn [INR]; ring]. apply (is_derive_const (K := R_AbsRing) (V := R_NormedModule) 1 X).
    + cbn [hpol]. apply (is_derive_eq _ X m); [|cbn [INR]; ring]. auto_derive; [exact I|ring].
  - destruct (IH X) as (D0 & D1). split; [exact D1|].
    apply (is_derive_ext (fun Y => m * (INR (S k) * hpol m Y k + Y * hpol m Y (S k)))); [intros Y; symmetry; apply hpol_SS|].
    set (d0 := INR k * m * hpol m X (pred k)) in *. set (d1 := INR (S k) * m * hpol m X k) in *.
    assert (DY : is_derive (fun Y : R => Y * hpol m Y (S k)) X (1 * hpol m X (S k) + X * d1)).
    { apply (is_derive_mult (fun Y : R => Y) (fun Y => hpol m Y (S k)) X 1 d1); [auto_derive; [exact I|ring]|exact D1|]. intros a b. apply Rmult_comm. }
    assert (DS : is_derive (fun Y : R => INR (S k) * hpol m Y k) X (INR (S k) * d0)) by (apply is_derive_scal; exact D0).
    apply (is_derive_eq _ X (m * (INR (S k) * d0 + (1 * hpol m X (S k) + X * d1)))).
    { apply is_derive_scal. apply (is_derive_plus (K := R_AbsRing) (V := R_NormedModule) _ _ _ _ _ DS DY). }
    unfold d0, d1. cbn [pred]. rewrite (S_INR (S k)). rewrite (hpol_S m X k). ring.
Qed.

Definition hfun_ (m : R) (k : nat) (X : R) : R := hpol m X k * exp (m * X ^ 2 / 2).

Lemma hfun_derive m k (X : R) : is_derive (hfun_ m k) X (hfun_ m (S k) X).
Proof.
  unfold hfun_. destruct (hpol_derive m k X) as (D & _).
  assert (DE : is_derive (fun Y => exp (m * Y ^ 2 / 2)) X (m * X * exp (m * X ^ 2 / 2))).
  { auto_derive; [exact I|]. cbn [INR pow]. match goal with |- ?a = ?b => change (@eq R a b) end. unfold Rdiv. match goal with |- context [exp ?e] => generalize (exp e) end. intros w. field. }
  eapply is_derive_eq; [apply (is_derive_mult _ _ X _ _ D DE); intros a b; apply Rmult_comm|].
  match goal with |- _ = ?y => change (INR k * m * hpol m X (pred k) * exp (m * X ^ 2 / 2) + hpol m X k * (m * X * exp (m * X ^ 2 / 2)) = y) end.
  rewrite hpol_S. ring.
Qed.

Lemma hermite_closed q Q t x : hermite_gaussian q Q t x = hfun_ (- 2 * q) t (Q - x).
Proof.
  unfold hermite_gaussian. revert Q. induction t as [|t IH]; intros Q.
  - cbn [Derive_n]. unfold hfun_. cbn [hpol]. rewrite Rmult_1_l. f_equal. field.
  - cbn [Derive_n]. rewrite (Derive_ext _ (fun Y => hfun_ (- 2 * q) t (Y - x))) by exact IH.
    apply is_derive_unique.
    assert (DL : is_derive (fun Y : R => Y - x) Q 1) by (auto_derive; [exact I|ring]).
    eapply is_derive_eq; [apply (is_derive_comp (hfun_ (- 2 * q) t) (fun Y => Y - x) Q _ _ (hfun_derive _ t (Q - x)) DL)|].
    match goal with |- _ = ?y => change (1 * hfun_ (- 2 * q) (S t) (Q - x) = y) end. ring.
Qed.

(** (x-Q) H_t = H_(t+1)/(2q) + t H_(t-1) *)
Lemma hermite_shift q Q t x : 0 < q -> (x - Q) * hermite_gaussian q Q t x = hermite_gaussian q Q (S t) x / (2 * q) + INR t * hermite_gaussian q Q (pred t) x.
Proof.
  intros Hq. rewrite !hermite_closed. unfold hfun_. rewrite hpol_S. field. lra.
Qed.

(** ** The expansion of a product of two Gaussians (and the Gaussian of the potential) *)

Section Expand.
Variables (a b c A B C : R).
Hypothesis Hq : 0 < a + b + c.
Let q := a + b + c.
Let Q := (a * A + b * B + c * C) / q.
Let K := exp (- (a * b / q) * (A - B) * (A - B)) * exp (- (a * c / q) * (A - C) * (A - C)) * exp (- (b * c / q) * (B - C) * (B - C)).

Definition pair_coef (i j t : nat) : R := ecoef ((a + b + c)) ((a * A + b * B + c * C) / (a + b + c) - A) ((a * A + b * B + c * C) / (a + b + c) - B)
  (exp (- (a * b / (a + b + c)) * (A - B) * (A - B)) * exp (- (a * c / (a + b + c)) * (A - C) * (A - C)) * exp (- (b * c / (a + b + c)) * (B - C) * (B - C))) i j t.

Lemma gauss_product x : exp (- (a * ((x - A) * (x - A)))) * exp (- (b * ((x - B) * (x - B)))) * exp (- (c * ((x - C) * (x - C)))) = K * hermite_gaussian q Q 0 x.
Proof.
  rewrite hermite_closed. unfold hfun_. cbn [hpol]. unfold K. rewrite Rmult_1_l, <- !exp_plus. f_equal. unfold Q, q. field. lra.
Qed.

Lemma shift_sum (e e' : nat -> R) (X : R) N x : e N = 0 -> e (S N) = 0 ->
  (forall t, e' t = (match t with O => 0 | S t' => e t' end) / (2 * q) + X * e t + INR (S t) * e (S t)) ->
  rsum (S N) (fun t => e' t * hermite_gaussian q Q t x) = ((x - Q) + X) * rsum N (fun t => e t * hermite_gaussian q Q t x).
Proof.
  intros E1 E2 He. set (H := fun t => hermite_gaussian q Q t x).
  assert (G : forall n, rsum (S n) (fun t => e' t * H t) + e n * H (S n) / (2 * q) + 0 =
     ((x - Q) + X) * rsum (S n) (fun t => e t * H t) + INR (S n) * e (S n) * H n).
  { induction n as [|n IH].
    - cbn [rsum]. rewrite He.
      assert (HH : (x - Q) * H 0%nat = H 1%nat / (2 * q)) by (unfold H; rewrite (hermite_shift q Q 0 x Hq); cbn [INR]; ring).
      replace ((x - Q + X) * (0 + e 0%nat * H 0%nat)) with (e 0%nat * ((x - Q) * H 0%nat) + X * e 0%nat * H 0%nat) by ring.
      rewrite HH. cbn [INR]. field. unfold q; lra.
    - change (rsum (S (S n)) (fun t => e' t * H t)) with (rsum (S n) (fun t => e' t * H t) + e' (S n) * H (S n)).
      change (rsum (S (S n)) (fun t => e t * H t)) with (rsum (S n) (fun t => e t * H t) + e (S n) * H (S n)).
      rewrite (He (S n)).
      assert (HH : (x - Q) * H (S n) = H (S (S n)) / (2 * q) + INR (S n) * H n) by (apply (hermite_shift q Q (S n) x Hq)).
      replace ((x - Q + X) * (rsum (S n) (fun t => e t * H t) + e (S n) * H (S n)))
        with ((x - Q + X) * rsum (S n) (fun t => e t * H t) + e (S n) * ((x - Q) * H (S n)) + X * e (S n) * H (S n)) by ring.
      rewrite HH. replace ((x - Q + X) * rsum (S n) (fun t => e t * H t)) with (rsum (S n) (fun t => e' t * H t) + e n * H (S n) / (2 * q) + 0 - INR (S n) * e (S n) * H n) by lra.
      field. unfold q; lra. }
  specialize (G N). rewrite E1, E2 in G.
  change (rsum (S N) (fun t => e' t * H t) = (x - Q + X) * rsum N (fun t => e t * H t)).
  change (rsum (S N) (fun t => e t * H t)) with (rsum N (fun t => e t * H t) + e N * H N) in G. rewrite E1 in G.
  transitivity (rsum (S N) (fun t => e' t * H t) + 0 * H (S N) / (2 * q) + 0); [unfold Rdiv; ring|]. rewrite G. ring.
Qed.

Lemma product_expansion i j x :
  cg a A i x * cg b B j x * exp (- (c * ((x - C) * (x - C)))) = rsum (S (i + j)) (fun t => pair_coef i j t * hermite_gaussian (a + b + c) ((a * A + b * B + c * C) / (a + b + c)) t x).
Proof.
  induction i as [|i IH].
  - induction j as [|j IH].
    + cbn [Nat.add rsum]. unfold cg. cbn [pow]. rewrite !Rmult_1_l, gauss_product. unfold pair_coef. rewrite ecoef_0. fold q Q K. ring.
    + rewrite cg_S. replace (cg a A 0 x * ((x - B) * cg b B j x) * exp (- (c * ((x - C) * (x - C))))) with ((x - B) * (cg a A 0 x * cg b B j x * exp (- (c * ((x - C) * (x - C)))))) by ring.
      rewrite IH. cbn [Nat.add]. symmetry. unfold pair_coef. fold q Q K.
      rewrite (shift_sum (ecoef q (Q - A) (Q - B) K 0 j) (ecoef q (Q - A) (Q - B) K 0 (S j)) (Q - B) (S j) x).
      * ring.
      * apply ecoef_high. lia.
      * apply ecoef_high. lia.
      * intros t. rewrite (ecoef_B q (Q - A) (Q - B) K Hq t j). destruct t; reflexivity.
  - rewrite cg_S. replace ((x - A) * cg a A i x * cg b B j x * exp (- (c * ((x - C) * (x - C))))) with ((x - A) * (cg a A i x * cg b B j x * exp (- (c * ((x - C) * (x - C)))))) by ring.
    rewrite IH. cbn [Nat.add]. symmetry. unfold pair_coef. fold q Q K.
    rewrite (shift_sum (ecoef q (Q - A) (Q - B) K i j) (ecoef q (Q - A) (Q - B) K (S i) j) (Q - A) (S (i + j)) x).
    + ring.
    + apply ecoef_high. lia.
    + apply ecoef_high. lia.
    + intros t. rewrite (ecoef_A q (Q - A) (Q - B) K Hq t i j). destruct t; reflexivity.
Qed.
End Expand.

(** ** The array *)

Definition geom_coef (d : mmd_data) (c i j t : Z) : R :=
  ecoef (md_q d) (coord3 (md_Q d) c - coord3 (md_A d) c) (coord3 (md_Q d) c - coord3 (md_B d) c) (coord3 (md_K d) c) (Z.to_nat i) (Z.to_nat j) (Z.to_nat t).

Definition E_holds (d : mmd_data) (L_A L_B : Z) (E : arr R) : Prop :=
  forall c i j t, (0 <= c < 3)%Z -> (0 <= i <= L_A)%Z -> (0 <= j <= L_B)%Z -> (0 <= t <= i + j)%Z -> aget E [c; i; j; t] = Ok (geom_coef d c i j t).

Lemma setup_E_ok d L_A L_B : 0 < md_q d -> (0 <= L_A <= 9)%Z -> (0 <= L_B <= 9)%Z -> exists E, setup_E_array d L_A L_B = Ok E /\ E_holds d L_A L_B E.
Proof.
  intros Hq HA HB. unfold setup_E_array. cbv zeta.
  pose (before := fun c i j t c' i' j' t' : Z => (c' < c \/ c' = c /\ (i' < i \/ i' = i /\ (j' < j \/ j' = j /\ t' < t)))%Z).
  pose (Inv := fun c i j t (E : arr R) => adims E = [3; 10; 10; 20]%Z /\ forall c' i' j' t', (0 <= c' < 3)%Z -> (0 <= i' <= L_A)%Z -> (0 <= j' <= L_B)%Z -> (0 <= t' <= i' + j')%Z ->
     before c i j t c' i' j' t' -> aget E [c'; i'; j'; t'] = Ok (geom_coef d c' i' j' t')).
  match goal with |- context [for_range 0 3 ?b ?s] => destruct (for_range_ok (fun c E => Inv c 0%Z 0%Z 0%Z E) 0 3 b s) as (E & EE & DD & HH) end.
  - lia.
  - split; [reflexivity|]. unfold before. intros; lia.
  - intros c E Hc HI.
    match goal with |- context [for_range 0 (L_A + 1) ?b ?s] => destruct (for_range_ok (fun i E => Inv c i 0%Z 0%Z E) 0 (L_A + 1) b s) as (E1 & EE1 & DD1 & HH1) end.
    + lia.
    + exact HI.
    + clear E HI. intros i E Hi HI.
      match goal with |- context [for_range 0 (L_B + 1) ?b ?s] => destruct (for_range_ok (fun j E => Inv c i j 0%Z E) 0 (L_B + 1) b s) as (E2 & EE2 & DD2 & HH2) end.
      * lia.
      * exact HI.
      * clear E HI. intros j E Hj HI.
        match goal with |- context [for_range 0 (i + j + 1) ?b ?s] => destruct (for_range_ok (fun t E => Inv c i j t E) 0 (i + j + 1) b s) as (E3 & EE3 & DD3 & HH3) end.
        -- lia.
        -- exact HI.
        -- clear E HI. intros t E Ht (DE & HE).
           assert (Fin : forall v, v = geom_coef d c i j t -> exists E', aset E [c; i; j; t] v = Ok E' /\ Inv c i j (t + 1)%Z E').
           { intros v ->. destruct (aset_get E [c; i; j; t] (geom_coef d c i j t)) as (E' & Ea & Da & Ga & Fa).
             { rewrite DE. apply inb4; lia. }
             exists E'. split; [exact Ea|]. split; [congruence|]. intros c' i' j' t' H1 H2 H3 H4 Hb.
             destruct (Z.eq_dec c' c) as [-> | N1]; [destruct (Z.eq_dec i' i) as [-> | N2]; [destruct (Z.eq_dec j' j) as [-> | N3]; [destruct (Z.eq_dec t' t) as [-> | N4]; [exact Ga|]|]|]|];
               (rewrite Fa by congruence; apply HE; [assumption..|]; unfold before in *; lia). }
           assert (Rd : forall i' j' t', (0 <= i' <= L_A)%Z -> (0 <= j' <= L_B)%Z -> (0 <= t' <= i' + j')%Z -> (i' < i \/ i' = i /\ j' < j)%Z -> aget E [c; i'; j'; t'] = Ok (geom_coef d c i' j' t')).
           { intros i' j' t' H1 H2 H3 H4. apply HE; [lia..|]. unfold before. lia. }
           assert (HS : forall k : Z, (0 < k)%Z -> Z.to_nat k = S (Z.to_nat (k - 1))) by (intros k Hk; rewrite <- Z2Nat.inj_succ by lia; f_equal; lia).
           destruct (t =? 0)%Z eqn:Et.
           ++ apply Z.eqb_eq in Et. subst t.
              destruct ((i =? 0)%Z && (j =? 0)%Z) eqn:E00.
              { apply andb_true_iff in E00. destruct E00 as (Ei & Ej). apply Z.eqb_eq in Ei, Ej. subst i j. apply Fin. reflexivity. }
              destruct ((i =? 1)%Z && (j =? 0)%Z) eqn:E10.
              { apply andb_true_iff in E10. destruct E10 as (Ei & Ej). apply Z.eqb_eq in Ei, Ej. subst i j.
                rewrite (Rd 0%Z 0%Z 0%Z) by lia. rewrite bind_ok. apply Fin. unfold geom_coef. change (Z.to_nat 1) with 1%nat. change (Z.to_nat 0) with 0%nat.
                rewrite ecoef_A0, (ecoef_high _ _ _ _ 0 0 1) by lia. ring. }
              destruct ((i =? 0)%Z && (j =? 1)%Z) eqn:E01.
              { apply andb_true_iff in E01. destruct E01 as (Ei & Ej). apply Z.eqb_eq in Ei, Ej. subst i j.
                rewrite (Rd 0%Z 0%Z 0%Z) by lia. rewrite bind_ok. apply Fin. unfold geom_coef. change (Z.to_nat 1) with 1%nat. change (Z.to_nat 0) with 0%nat.
                rewrite ecoef_B0, (ecoef_high _ _ _ _ 0 0 1) by lia. ring. }
              destruct (i =? 0)%Z eqn:Ei.
              { apply Z.eqb_eq in Ei. subst i. assert (2 <= j)%Z by (destruct (Z.eqb_spec j 0); destruct (Z.eqb_spec j 1); cbn in *; (discriminate || lia)).
                rewrite !Rd by lia. rewrite !bind_ok. apply Fin. unfold geom_coef. rewrite (HS j) by lia. change (Z.to_nat 1) with 1%nat. change (Z.to_nat 0) with 0%nat.
                rewrite ecoef_B0. ring. }
              { apply Z.eqb_neq in Ei. assert (2 <= i + j)%Z by (destruct (Z.eqb_spec j 0); destruct (Z.eqb_spec i 1); cbn in *; (discriminate || lia)).
                rewrite !Rd by lia. rewrite !bind_ok. apply Fin. unfold geom_coef. rewrite (HS i) by lia. change (Z.to_nat 1) with 1%nat. change (Z.to_nat 0) with 0%nat.
                rewrite ecoef_A0. ring. }
           ++ apply Z.eqb_neq in Et.
              assert (V : geom_coef d c i j t = 1 / (2 * md_q d * IZR t) * ((if (i >? 0)%Z then IZR i * geom_coef d c (i - 1) j (t - 1) else 0) + (if (j >? 0)%Z then IZR j * geom_coef d c i (j - 1) (t - 1) else 0))).
              { unfold geom_coef at 1. rewrite (HS t) by lia. rewrite eS by exact Hq.
                rewrite <- (HS t) by lia. rewrite INR_IZR_INZ, Z2Nat.id by lia. unfold lowA, lowB.
                replace (match Z.to_nat i with 0%nat => 0 | S i' => INR (Z.to_nat i) * ecoef (md_q d) (coord3 (md_Q d) c - coord3 (md_A d) c) (coord3 (md_Q d) c - coord3 (md_B d) c) (coord3 (md_K d) c) i' (Z.to_nat j) (Z.to_nat (t - 1)) end)
                  with (if (i >? 0)%Z then IZR i * geom_coef d c (i - 1) j (t - 1) else 0).
                2:{ rewrite Z.gtb_ltb. destruct (Z.ltb_spec 0 i) as [Hp|Hp].
                    - rewrite (HS i) by lia. rewrite <- (HS i) by lia. rewrite INR_IZR_INZ, Z2Nat.id by lia. reflexivity.
                    - replace i with 0%Z by lia. reflexivity. }
                replace (match Z.to_nat j with 0%nat => 0 | S j' => INR (Z.to_nat j) * ecoef (md_q d) (coord3 (md_Q d) c - coord3 (md_A d) c) (coord3 (md_Q d) c - coord3 (md_B d) c) (coord3 (md_K d) c) (Z.to_nat i) j' (Z.to_nat (t - 1)) end)
                  with (if (j >? 0)%Z then IZR j * geom_coef d c i (j - 1) (t - 1) else 0).
                2:{ rewrite Z.gtb_ltb. destruct (Z.ltb_spec 0 j) as [Hp|Hp].
                    - rewrite (HS j) by lia. rewrite <- (HS j) by lia. rewrite INR_IZR_INZ, Z2Nat.id by lia. reflexivity.
                    - replace j with 0%Z by lia. reflexivity. }
                unfold Rdiv. ring. }
              rewrite !Z.gtb_ltb in *. destruct (Z.ltb_spec 0 i) as [Hi0|Hi0]; destruct (Z.ltb_spec 0 j) as [Hj0|Hj0].
              ** rewrite !Rd by lia. rewrite !bind_ok. apply Fin. rewrite V. ring.
              ** rewrite !Rd by lia. rewrite !bind_ok. apply Fin. rewrite V. ring.
              ** rewrite !bind_ok. rewrite !Rd by lia. rewrite !bind_ok. apply Fin. rewrite V. ring.
              ** lia.
        -- exists E3. split; [exact EE3|]. split; [exact DD3|]. intros c' i' j' t' H1 H2 H3 H4 Hb. apply HH3; [assumption..|]. unfold before in *. lia.
      * exists E2. split; [exact EE2|]. split; [exact DD2|]. intros c' i' j' t' H1 H2 H3 H4 Hb. apply HH2; [assumption..|]. unfold before in *. lia.
    + exists E1. split; [exact EE1|]. split; [exact DD1|]. intros c' i' j' t' H1 H2 H3 H4 Hb. apply HH1; [assumption..|]. unfold before in *. lia.
  - exists E. split; [exact EE|]. intros c i j t H1 H2 H3 H4. apply HH; [assumption..|]. unfold before. lia.
Qed.
