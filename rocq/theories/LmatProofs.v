(** * Angular momentum matrices: closed form and rotation algebra *)

From Coq Require Import ZArith List Lia Bool Reals Lra FinFun.
From Coquelicot Require Import Coquelicot.
From Verif Require Import Base Loops GaussInt OneElModel OneElProofs LmatModel.
Import ListNotations.
Open Scope R_scope.

(** ** Finite sums over a list *)

Fixpoint csum (l : list Z) (f : Z -> C) : C :=
  match l with [] => RtoC 0 | k :: l' => Cplus (f k) (csum l' f) end.

Lemma csum_ext l f g : (forall k, In k l -> f k = g k) -> csum l f = csum l g.
Proof. induction l as [|a l IH]; intros H; cbn; [reflexivity|]. rewrite (H a) by (left; reflexivity). rewrite IH; [reflexivity|]. intros; apply H; right; assumption. Qed.

Lemma csum_plus l f g : csum l (fun k => Cplus (f k) (g k)) = Cplus (csum l f) (csum l g).
Proof. induction l as [|a l IH]; cbn; [ring|]. rewrite IH. ring. Qed.

Lemma csum_scal l c f : csum l (fun k => Cmult c (f k)) = Cmult c (csum l f).
Proof. induction l as [|a l IH]; cbn; [ring|]. rewrite IH. ring. Qed.

Lemma csum_zero l : csum l (fun _ => RtoC 0) = RtoC 0.
Proof. induction l as [|a l IH]; cbn; [reflexivity|]. rewrite IH. ring. Qed.

Lemma csum_swap l1 l2 f : csum l1 (fun i => csum l2 (fun j => f i j)) = csum l2 (fun j => csum l1 (fun i => f i j)).
Proof.
  induction l1 as [|a l1 IH]; cbn.
  - rewrite csum_zero. reflexivity.
  - rewrite IH, <- csum_plus. reflexivity.
Qed.

Lemma csum_pick l f k : NoDup l -> In k l -> (forall j, In j l -> j <> k -> f j = RtoC 0) -> csum l f = f k.
Proof.
  induction l as [|a l IH]; intros N H Z0; [destruct H|]. cbn. inversion N as [|? ? Na Nl]; subst.
  destruct (Z.eq_dec a k) as [-> | Hn].
  - rewrite (csum_ext l f (fun _ => RtoC 0)), csum_zero; [ring|].
    intros j Hj. apply Z0; [right; exact Hj|]. intros ->. contradiction.
  - rewrite (Z0 a) by (try (left; reflexivity); exact Hn). rewrite IH; [ring|exact Nl|destruct H; [contradiction|assumption]|].
    intros j Hj. apply Z0. right; exact Hj.
Qed.

Lemma csum_none l f : (forall j, In j l -> f j = RtoC 0) -> csum l f = RtoC 0.
Proof. intros H. rewrite (csum_ext l f (fun _ => RtoC 0)) by exact H. apply csum_zero. Qed.

Lemma csum_pick2 l f k k' : NoDup l -> In k l -> In k' l -> k <> k' ->
  (forall j, In j l -> j <> k -> j <> k' -> f j = RtoC 0) -> csum l f = Cplus (f k) (f k').
Proof.
  intros N H H' D Z0.
  transitivity (csum l (fun j => Cplus (if Z.eq_dec j k then f k else RtoC 0) (if Z.eq_dec j k' then f k' else RtoC 0))).
  - apply csum_ext. intros j Hj. destruct (Z.eq_dec j k) as [E | Hk]; destruct (Z.eq_dec j k') as [E' | Hk'].
    + congruence. + rewrite E. ring. + rewrite E'. ring. + rewrite Z0 by assumption. ring.
  - rewrite csum_plus. f_equal.
    + rewrite (csum_pick l _ k N H). * destruct (Z.eq_dec k k); [reflexivity|contradiction].
      * intros j _ Hj. destruct (Z.eq_dec j k); [contradiction|reflexivity].
    + rewrite (csum_pick l _ k' N H'). * destruct (Z.eq_dec k' k'); [reflexivity|contradiction].
      * intros j _ Hj. destruct (Z.eq_dec j k'); [contradiction|reflexivity].
Qed.

(** the magnetic quantum numbers -L..L *)
Definition ms (L : Z) : list Z := map (fun k => (Z.of_nat k - L)%Z) (seq 0 (Z.to_nat (2 * L + 1))).

Lemma in_ms L m : (0 <= L)%Z -> In m (ms L) <-> (- L <= m <= L)%Z.
Proof.
  intros HL. unfold ms. rewrite in_map_iff. split.
  - intros (k & <- & Hk). apply in_seq in Hk. lia.
  - intros H. exists (Z.to_nat (m + L)). split; [lia|]. apply in_seq. lia.
Qed.

Lemma nodup_ms L : NoDup (ms L).
Proof.
  unfold ms. apply Injective_map_NoDup; [|apply seq_NoDup]. intros x y H. lia.
Qed.

(** ** Values over complex harmonics *)

Definition vP (L p q : Z) : R := sqrt (IZR ((L - q) * (L + q + 1))) * b2R (p =? q + 1)%Z.
Definition vM (L p q : Z) : R := sqrt (IZR ((L + q) * (L - q + 1))) * b2R (p =? q - 1)%Z.
Definition vX (L p q : Z) : R := 0.5 * (vP L p q + vM L p q).
Definition vY (L p q : Z) : R := 0.5 * (vP L p q - vM L p q).
Definition vZ (L p q : Z) : R := IZR q * b2R (p =? q)%Z.

(** what a matrix holds: values at all (m1, m2), rest untouched *)
Definition holds_sq (L : Z) (M0 M : arr R) (v : Z -> Z -> R) : Prop :=
  adims M = adims M0 /\
  (forall p q, (- L <= p <= L)%Z -> (- L <= q <= L)%Z -> aget M [((p + L) * (2 * L + 1) + (q + L))%Z] = Ok (v p q)) /\
  (forall k, ~ (0 <= k < (2 * L + 1) * (2 * L + 1))%Z -> acell M [k] = acell M0 [k]).

Lemma sq_index L p q : (0 <= L)%Z -> (- L <= p <= L)%Z -> (- L <= q <= L)%Z ->
  (0 <= (p + L) * (2 * L + 1) + (q + L) < (2 * L + 1) * (2 * L + 1))%Z.
Proof. nia. Qed.

Lemma sq_inj L p q p' q' : (0 <= L)%Z -> (- L <= q <= L)%Z -> (- L <= q' <= L)%Z ->
  ((p + L) * (2 * L + 1) + (q + L) = (p' + L) * (2 * L + 1) + (q' + L))%Z -> p = p' /\ q = q'.
Proof. intros. assert (p = p') by nia. subst. split; lia. Qed.

Section Fill3.
Variable L sz : Z.
Hypothesis HL : (0 <= L)%Z.
Hypothesis Hsz : ((2 * L + 1) * (2 * L + 1) <= sz)%Z.
Variables v1 v2 v3 : Z -> Z -> R.
Let st : Type := (arr R * arr R * arr R)%type.
Let ix (p q : Z) : Z := ((p + L) * (2 * L + 1) + (q + L))%Z.

(** a double loop storing one value in each of the three matrices *)
Lemma fill3_sq (body : Z -> Z -> st -> res st) (x0 y0 z0 : arr R) :
  adims x0 = [sz] -> adims y0 = [sz] -> adims z0 = [sz] ->
  (forall p q x y z, (- L <= p <= L)%Z -> (- L <= q <= L)%Z -> adims x = [sz] -> adims y = [sz] -> adims z = [sz] ->
     exists x' y' z', body p q (x, y, z) = Ok (x', y', z') /\
       adims x' = [sz] /\ adims y' = [sz] /\ adims z' = [sz] /\
       acell x' [ix p q] = Some (v1 p q) /\ acell y' [ix p q] = Some (v2 p q) /\ acell z' [ix p q] = Some (v3 p q) /\
       forall k, k <> [ix p q] -> acell x' k = acell x k /\ acell y' k = acell y k /\ acell z' k = acell z k) ->
  exists x y z, for_range (- L) (L + 1) (fun m1 => for_range (- L) (L + 1) (body m1)) (x0, y0, z0) = Ok (x, y, z) /\
    holds_sq L x0 x v1 /\ holds_sq L y0 y v2 /\ holds_sq L z0 z v3.
Proof.
  intros D1 D2 D3 HB.
  pose (Inv := fun s : st => let '(x, y, z) := s in adims x = [sz] /\ adims y = [sz] /\ adims z = [sz] /\
    forall k, ~ (0 <= k < (2 * L + 1) * (2 * L + 1))%Z ->
      acell x [k] = acell x0 [k] /\ acell y [k] = acell y0 [k] /\ acell z [k] = acell z0 [k]).
  pose (P := fun p q (s : st) => let '(x, y, z) := s in
    acell x [ix p q] = Some (v1 p q) /\ acell y [ix p q] = Some (v2 p q) /\ acell z [ix p q] = Some (v3 p q)).
  destruct (loop2_all (- L) (L + 1) (- L) (L + 1) Inv P body (x0, y0, z0)) as (s & E & I & A); [lia|lia| | |].
  - cbn. auto 10.
  - intros p q [[x y] z] Hp Hq (I1 & I2 & I3 & I4).
    destruct (HB p q x y z ltac:(lia) ltac:(lia) I1 I2 I3) as (x' & y' & z' & E & J1 & J2 & J3 & C1 & C2 & C3 & F).
    exists (x', y', z'). split; [exact E|]. split.
    + split; [exact J1|]. split; [exact J2|]. split; [exact J3|]. intros k Hk.
      assert (Hn : [k] <> [ix p q]).
      { intros X. injection X as ->. apply Hk. apply sq_index; lia. }
      destruct (F [k] Hn) as (F1 & F2 & F3). destruct (I4 k Hk) as (K1 & K2 & K3). rewrite F1, F2, F3. auto.
    + split; [cbn; auto|]. intros p' q' Hp' Hq' Hne (Q1 & Q2 & Q3).
      assert (Hn : [ix p' q'] <> [ix p q]).
      { intros X. injection X as X. apply sq_inj in X; try lia. apply Hne. f_equal; tauto. }
      destruct (F _ Hn) as (F1 & F2 & F3). cbn. rewrite F1, F2, F3. auto.
  - destruct s as [[x y] z]. destruct I as (I1 & I2 & I3 & I4). exists x, y, z. split; [exact E|].
    assert (B : forall p q, (- L <= p <= L)%Z -> (- L <= q <= L)%Z -> inb [sz] [ix p q] = true).
    { intros p q Hp Hq. apply inb1. assert (X := sq_index L p q HL Hp Hq). unfold ix. lia. }
    split; [|split].
    + split; [congruence|]. split; [|intros k Hk; apply I4, Hk].
      intros p q Hp Hq. destruct (A p q ltac:(lia) ltac:(lia)) as (A1 & A2 & A3). apply aget_ok; [rewrite I1; apply B; assumption|exact A1].
    + split; [congruence|]. split; [|intros k Hk; apply I4, Hk].
      intros p q Hp Hq. destruct (A p q ltac:(lia) ltac:(lia)) as (A1 & A2 & A3). apply aget_ok; [rewrite I2; apply B; assumption|exact A2].
    + split; [congruence|]. split; [|intros k Hk; apply I4, Hk].
      intros p q Hp Hq. destruct (A p q ltac:(lia) ltac:(lia)) as (A1 & A2 & A3). apply aget_ok; [rewrite I3; apply B; assumption|exact A3].
Qed.
End Fill3.

Lemma memset_sq L sz (M : arr R) : (0 <= L)%Z -> ((2 * L + 1) * (2 * L + 1) <= sz)%Z -> adims M = [sz] ->
  exists M', memset0 ((2 * L + 1) * (2 * L + 1)) M = Ok M' /\ adims M' = [sz] /\
    forall k, ~ (0 <= k < (2 * L + 1) * (2 * L + 1))%Z -> acell M' [k] = acell M [k].
Proof.
  intros HL Hs D. destruct (memset0_ok ((2 * L + 1) * (2 * L + 1)) sz M D ltac:(nia)) as (M' & E & D' & _ & F).
  exists M'. split; [exact E|]. split; [exact D'|]. intros k Hk. apply F. intros j Hj X. injection X as ->. contradiction.
Qed.

Lemma holds_sq_trans L M0 M1 M v : adims M1 = adims M0 ->
  (forall k, ~ (0 <= k < (2 * L + 1) * (2 * L + 1))%Z -> acell M1 [k] = acell M0 [k]) ->
  holds_sq L M1 M v -> holds_sq L M0 M v.
Proof.
  intros D F (H1 & H2 & H3). split; [congruence|]. split; [exact H2|]. intros k Hk. rewrite H3 by exact Hk. apply F, Hk.
Qed.

Lemma csh_ok L sz (x0 y0 z0 : arr R) : (0 <= L)%Z -> ((2 * L + 1) * (2 * L + 1) <= sz)%Z ->
  adims x0 = [sz] -> adims y0 = [sz] -> adims z0 = [sz] ->
  exists x y z, construct_matrices_csh L (x0, y0, z0) = Ok (x, y, z) /\
    holds_sq L x0 x (vX L) /\ holds_sq L y0 y (vY L) /\ holds_sq L z0 z (vZ L).
Proof.
  intros HL Hs D1 D2 D3. unfold construct_matrices_csh.
  destruct (memset_sq L sz x0 HL Hs D1) as (x1 & E1 & F1 & G1). rewrite E1. cbn [bind].
  destruct (memset_sq L sz y0 HL Hs D2) as (y1 & E2 & F2 & G2). rewrite E2. cbn [bind].
  destruct (memset_sq L sz z0 HL Hs D3) as (z1 & E3 & F3 & G3). rewrite E3. cbn [bind].
  match goal with |- context [for_range _ _ (fun m1 => for_range _ _ (@?b m1)) _] =>
    destruct (fill3_sq L sz HL Hs (vX L) (vY L) (vZ L) b x1 y1 z1 F1 F2 F3) as (x & y & z & E & H1 & H2 & H3)
  end.
  - intros p q x y z Hp Hq Dx Dy Dz. assert (B := sq_index L p q HL Hp Hq).
    assert (Bx : inb (adims x) [((p + L) * (2 * L + 1) + (q + L))%Z] = true) by (rewrite Dx; apply inb1; lia).
    assert (By : inb (adims y) [((p + L) * (2 * L + 1) + (q + L))%Z] = true) by (rewrite Dy; apply inb1; lia).
    assert (Bz : inb (adims z) [((p + L) * (2 * L + 1) + (q + L))%Z] = true) by (rewrite Dz; apply inb1; lia).
    destruct (aset_ok x _ (vX L p q) Bx) as (x2 & A1 & A2 & A3 & A4).
    rewrite <- A2 in Bx.
    destruct (aset_ok x2 _ (vX L p q) Bx) as (x3 & A1' & A2' & A3' & A4').
    destruct (aset_ok y _ (vY L p q) By) as (y2 & B1 & B2 & B3 & B4).
    destruct (aset_ok z _ (vZ L p q) Bz) as (z2 & C1 & C2 & C3 & C4).
    exists x3, y2, z2. cbv beta iota. unfold vX, vY, vZ, vP, vM in *.
    rewrite A1. cbn [bind]. rewrite A1'. cbn [bind]. rewrite B1. cbn [bind]. rewrite C1. cbn [bind].
    split; [reflexivity|]. split; [congruence|]. split; [congruence|]. split; [congruence|].
    split; [exact A3'|]. split; [exact B3|]. split; [exact C3|].
    intros k Hk. rewrite A4', A4, B4, C4 by exact Hk. auto.
  - exists x, y, z. split; [exact E|].
    split; [eapply holds_sq_trans; [|exact G1|exact H1]; congruence|].
    split; [eapply holds_sq_trans; [|exact G2|exact H2]; congruence|].
    eapply holds_sq_trans; [|exact G3|exact H3]; congruence.
Qed.

(** ** Transformation to real harmonics *)

(** row [mu] of the transformation: S_mu = sum_p T(mu, p) Y_p *)
Definition trow (mu p : Z) : C :=
  let '(a, b) := transformation_coeffs mu in
  Cplus (if (p =? - Z.abs mu)%Z then a else RtoC 0) (if (p =? Z.abs mu)%Z then b else RtoC 0).

(** the transformed matrix *)
Definition hat (L : Z) (A : Z -> Z -> C) (m1 m2 : Z) : C :=
  csum (ms L) (fun p => csum (ms L) (fun q => Cmult (Cmult (Cconj (trow m1 p)) (trow m2 q)) (A p q))).

Definition four (A : Z -> Z -> C) (m1 m2 : Z) : C :=
  let '(a1, b1) := transformation_coeffs m1 in
  let '(a2, b2) := transformation_coeffs m2 in
  (RtoC 0 + Cconj a1 * a2 * A (- Z.abs m1)%Z (- Z.abs m2)%Z + Cconj a1 * b2 * A (- Z.abs m1)%Z (Z.abs m2)
   + Cconj b1 * a2 * A (Z.abs m1) (- Z.abs m2)%Z + Cconj b1 * b2 * A (Z.abs m1) (Z.abs m2))%C.

Lemma Cconj_plus' x y : Cconj (Cplus x y) = Cplus (Cconj x) (Cconj y).
Proof. destruct x, y. unfold Cconj, Cplus. cbn. f_equal. ring. Qed.
Lemma Cconj_mult' x y : Cconj (Cmult x y) = Cmult (Cconj x) (Cconj y).
Proof. destruct x, y. unfold Cconj, Cmult. cbn. f_equal; ring. Qed.
Lemma Cconj_R r : Cconj (RtoC r) = RtoC r.
Proof. unfold Cconj, RtoC. cbn. f_equal. ring. Qed.

Lemma csum_delta l k c : NoDup l -> In k l -> csum l (fun p => if (p =? k)%Z then c p else RtoC 0) = c k.
Proof.
  intros N H. rewrite (csum_pick l _ k N H).
  - rewrite Z.eqb_refl. reflexivity.
  - intros j _ Hj. destruct (Z.eqb_spec j k); [contradiction|reflexivity].
Qed.

(** a sum against a row of the transformation has two terms *)
Lemma csum_row L m (f : Z -> C) (cj : bool) : (0 <= L)%Z -> (- L <= m <= L)%Z ->
  csum (ms L) (fun p => Cmult (if cj then Cconj (trow m p) else trow m p) (f p)) =
  Cplus (Cmult (if cj then Cconj (fst (transformation_coeffs m)) else fst (transformation_coeffs m)) (f (- Z.abs m)%Z))
        (Cmult (if cj then Cconj (snd (transformation_coeffs m)) else snd (transformation_coeffs m)) (f (Z.abs m))).
Proof.
  intros HL Hm. unfold trow. destruct (transformation_coeffs m) as [a b]. cbn [fst snd].
  set (a' := if cj then Cconj a else a). set (b' := if cj then Cconj b else b).
  transitivity (csum (ms L) (fun p => Cplus (if (p =? - Z.abs m)%Z then Cmult a' (f p) else RtoC 0)
                                            (if (p =? Z.abs m)%Z then Cmult b' (f p) else RtoC 0))).
  - apply csum_ext. intros p _. unfold a', b'.
    destruct cj; destruct (p =? - Z.abs m)%Z; destruct (p =? Z.abs m)%Z; rewrite ?Cconj_plus', ?Cconj_R; ring.
  - rewrite csum_plus. rewrite !csum_delta; try apply nodup_ms; try (apply in_ms; lia). reflexivity.
Qed.

Lemma hat_four L A m1 m2 : (0 <= L)%Z -> (- L <= m1 <= L)%Z -> (- L <= m2 <= L)%Z -> hat L A m1 m2 = four A m1 m2.
Proof.
  intros HL H1 H2. unfold hat, four.
  transitivity (csum (ms L) (fun p => Cmult (Cconj (trow m1 p)) (csum (ms L) (fun q => Cmult (trow m2 q) (A p q))))).
  { apply csum_ext. intros p _. rewrite <- csum_scal. apply csum_ext. intros q _. ring. }
  rewrite (csum_row L m1 (fun p => csum (ms L) (fun q => Cmult (trow m2 q) (A p q))) true HL H1).
  rewrite !(csum_row L m2 (fun q => A _ q) false HL H2).
  destruct (transformation_coeffs m1) as [a1 b1]. destruct (transformation_coeffs m2) as [a2 b2]. cbn [fst snd]. ring.
Qed.

(** (-1)^|p| *)
Definition sg (p : Z) : R := (-1) ^ Z.to_nat (Z.abs p).

Lemma sg_sq p : sg p * sg p = 1.
Proof. unfold sg. induction (Z.to_nat (Z.abs p)) as [|n IH]; cbn; [ring|]. replace (-1 * (-1) ^ n * (-1 * (-1) ^ n)) with ((-1) ^ n * (-1) ^ n) by ring. exact IH. Qed.

Lemma sg_abs p : sg (- p) = sg p.
Proof. unfold sg. rewrite Z.abs_opp. reflexivity. Qed.

Lemma sg_even_odd p : sg p = if Z.even p then 1 else -1.
Proof.
  unfold sg. assert (H : Z.even p = Z.even (Z.of_nat (Z.to_nat (Z.abs p)))).
  { rewrite Z2Nat.id by lia. destruct (Z.abs_eq_or_opp p) as [-> | ->]; [reflexivity|]. rewrite Z.even_opp. reflexivity. }
  rewrite H. generalize (Z.to_nat (Z.abs p)). induction n as [|n IH]; [reflexivity|].
  rewrite Nat2Z.inj_succ, Z.even_succ, <- Z.negb_even. cbn [pow]. rewrite IH. destruct (Z.even (Z.of_nat n)); cbn; ring.
Qed.

Lemma sg_succ p : sg (p + 1) = - sg p.
Proof. rewrite !sg_even_odd. rewrite Z.add_1_r, Z.even_succ, <- Z.negb_even. destruct (Z.even p); cbn; ring. Qed.

Lemma sqrt2_inv : / sqrt 2 * / sqrt 2 = / 2.
Proof. rewrite <- Rinv_mult. f_equal. apply sqrt_sqrt. lra. Qed.

(** the coefficients in Cartesian form *)
Lemma coeffs_pos m : (0 < m)%Z -> transformation_coeffs m = ((/ sqrt 2, 0), (sg m * / sqrt 2, 0)).
Proof.
  intros H. unfold transformation_coeffs. destruct (Z.eqb_spec m 0); [lia|]. destruct (Z.ltb_spec m 0); [lia|].
  unfold sg. rewrite Z.abs_eq by lia. assert (S2 := sqrt2_neq_0).
  unfold Cdiv, Cmult, Cinv, RtoC. cbn [fst snd]. f_equal; f_equal; field; exact S2.
Qed.
Lemma coeffs_neg m : (m < 0)%Z -> transformation_coeffs m = ((0, / sqrt 2), (0, - (sg m * / sqrt 2))).
Proof.
  intros H. unfold transformation_coeffs. destruct (Z.eqb_spec m 0); [lia|]. destruct (Z.ltb_spec m 0); [|lia].
  unfold sg. assert (S2 := sqrt2_neq_0).
  unfold Cdiv, Cmult, Cinv, RtoC, Ci. cbn [fst snd]. f_equal; f_equal; field; exact S2.
Qed.
Lemma coeffs_zero : transformation_coeffs 0 = ((/ 2, 0), (/ 2, 0)).
Proof. unfold transformation_coeffs. cbn. unfold RtoC. f_equal; f_equal; lra. Qed.

(** ** Unitarity *)

Definition delta (p q : Z) : C := if (p =? q)%Z then RtoC 1 else RtoC 0.

Ltac csolve := unfold Cmult, Cplus, Cconj, RtoC, Copp; cbn [fst snd]; f_equal.

Lemma unitary L p q : (0 <= L)%Z -> (- L <= p <= L)%Z -> (- L <= q <= L)%Z ->
  csum (ms L) (fun mu => Cmult (trow mu p) (Cconj (trow mu q))) = delta p q.
Proof.
  intros HL Hp Hq.
  assert (Z1 : forall mu r, mu <> r -> mu <> (- r)%Z -> trow mu r = RtoC 0).
  { intros mu r N1 N2. unfold trow. destruct (transformation_coeffs mu) as [a b].
    destruct (Z.eqb_spec r (- Z.abs mu)); [lia|]. destruct (Z.eqb_spec r (Z.abs mu)); [lia|]. ring. }
  assert (S2 := sqrt2_inv). assert (N2 := sqrt2_neq_0).
  destruct (Z.eq_dec p 0) as [-> | Hp0].
  - rewrite (csum_pick (ms L) _ 0%Z (nodup_ms L)).
    + unfold trow, delta. rewrite coeffs_zero. change (Z.abs 0) with 0%Z. change (- 0)%Z with 0%Z. rewrite Z.eqb_refl, (Z.eqb_sym 0 q).
      destruct (Z.eqb_spec q 0); csolve; field.
    + apply in_ms; lia.
    + intros j _ Hj. rewrite (Z1 j 0%Z) by lia. ring.
  - rewrite (csum_pick2 (ms L) _ p (- p)%Z (nodup_ms L)).
    2, 3: apply in_ms; lia. 2: lia.
    2: { intros j _ H1 H2. rewrite (Z1 j p) by assumption. ring. }
    destruct (Z.eq_dec q p) as [-> | Hn1]; [|destruct (Z.eq_dec q (- p)) as [-> | Hn2]].
    + unfold delta. rewrite Z.eqb_refl. unfold trow.
      destruct (Z_lt_le_dec p 0) as [Hs | Hs].
      * rewrite (coeffs_neg p Hs), (coeffs_pos (- p)) by lia. rewrite sg_abs.
        destruct (Z.eqb_spec p (- Z.abs p)); [|lia]. destruct (Z.eqb_spec p (Z.abs p)); [lia|].
        destruct (Z.eqb_spec p (- Z.abs (- p))); [|lia]. destruct (Z.eqb_spec p (Z.abs (- p))); [lia|].
        csolve; [|ring]. transitivity (/ sqrt 2 * / sqrt 2 * 2); [ring|]. rewrite S2. lra.
      * rewrite (coeffs_pos p), (coeffs_neg (- p)) by lia. rewrite sg_abs.
        destruct (Z.eqb_spec p (- Z.abs p)); [lia|]. destruct (Z.eqb_spec p (Z.abs p)); [|lia].
        destruct (Z.eqb_spec p (- Z.abs (- p))); [lia|]. destruct (Z.eqb_spec p (Z.abs (- p))); [|lia].
        csolve; [|ring]. transitivity (/ sqrt 2 * / sqrt 2 * (2 * (sg p * sg p))); [ring|]. rewrite S2, sg_sq. lra.
    + unfold delta. destruct (Z.eqb_spec p (- p)); [lia|]. unfold trow.
      destruct (Z_lt_le_dec p 0) as [Hs | Hs].
      * rewrite (coeffs_neg p Hs), (coeffs_pos (- p)) by lia. rewrite sg_abs.
        destruct (Z.eqb_spec p (- Z.abs p)); [|lia]. destruct (Z.eqb_spec p (Z.abs p)); [lia|].
        destruct (Z.eqb_spec p (- Z.abs (- p))); [|lia]. destruct (Z.eqb_spec p (Z.abs (- p))); [lia|].
        destruct (Z.eqb_spec (- p) (- Z.abs p)); [lia|]. destruct (Z.eqb_spec (- p) (Z.abs p)); [|lia].
        destruct (Z.eqb_spec (- p) (- Z.abs (- p))); [lia|]. destruct (Z.eqb_spec (- p) (Z.abs (- p))); [|lia].
        csolve; ring.
      * rewrite (coeffs_pos p), (coeffs_neg (- p)) by lia. rewrite sg_abs.
        destruct (Z.eqb_spec p (- Z.abs p)); [lia|]. destruct (Z.eqb_spec p (Z.abs p)); [|lia].
        destruct (Z.eqb_spec p (- Z.abs (- p))); [lia|]. destruct (Z.eqb_spec p (Z.abs (- p))); [|lia].
        destruct (Z.eqb_spec (- p) (- Z.abs p)); [|lia]. destruct (Z.eqb_spec (- p) (Z.abs p)); [lia|].
        destruct (Z.eqb_spec (- p) (- Z.abs (- p))); [|lia]. destruct (Z.eqb_spec (- p) (Z.abs (- p))); [lia|].
        csolve; ring.
    + unfold delta. destruct (Z.eqb_spec p q); [lia|].
      rewrite (Z1 p q), (Z1 (- p)%Z q) by lia. rewrite Cconj_R. ring.
Qed.

Definition cmul (L : Z) (A B : Z -> Z -> C) (p q : Z) : C := csum (ms L) (fun k => Cmult (A p k) (B k q)).

Lemma csum_scal_r l c f : csum l (fun k => Cmult (f k) c) = Cmult (csum l f) c.
Proof. rewrite (Cmult_comm _ c), <- csum_scal. apply csum_ext. intros. ring. Qed.

(** the transformation respects products *)
Lemma hat_mul L A B m1 m3 : (0 <= L)%Z -> cmul L (hat L A) (hat L B) m1 m3 = hat L (cmul L A B) m1 m3.
Proof.
  intros HL. unfold cmul at 1.
  (* move the sum over the intermediate real index inside *)
  transitivity (csum (ms L) (fun p => csum (ms L) (fun q => csum (ms L) (fun r => csum (ms L) (fun t =>
     Cmult (Cmult (Cmult (Cconj (trow m1 p)) (A p q)) (Cmult (B r t) (trow m3 t)))
           (csum (ms L) (fun mu => Cmult (trow mu q) (Cconj (trow mu r))))))))).
  - unfold hat.
    transitivity (csum (ms L) (fun mu => csum (ms L) (fun p => csum (ms L) (fun q => csum (ms L) (fun r => csum (ms L) (fun t =>
      Cmult (Cmult (Cmult (Cconj (trow m1 p)) (A p q)) (Cmult (B r t) (trow m3 t))) (Cmult (trow mu q) (Cconj (trow mu r))))))))).
    + apply csum_ext. intros mu _. rewrite <- csum_scal_r. apply csum_ext. intros p _.
      rewrite <- csum_scal_r. apply csum_ext. intros q _. rewrite <- csum_scal. apply csum_ext. intros r _.
      rewrite <- csum_scal. apply csum_ext. intros t _. ring.
    + rewrite csum_swap. apply csum_ext. intros p _. rewrite csum_swap. apply csum_ext. intros q _.
      rewrite csum_swap. apply csum_ext. intros r _. rewrite csum_swap. apply csum_ext. intros t _.
      rewrite csum_scal. reflexivity.
  - unfold hat. apply csum_ext. intros p Hp.
    transitivity (csum (ms L) (fun q => csum (ms L) (fun t => Cmult (Cmult (Cconj (trow m1 p)) (A p q)) (Cmult (B q t) (trow m3 t))))).
    + apply csum_ext. intros q Hq. apply in_ms in Hq; [|exact HL].
      rewrite csum_swap. apply csum_ext. intros t _.
      rewrite (csum_pick (ms L) _ q (nodup_ms L)).
      * rewrite unitary by assumption. unfold delta. rewrite Z.eqb_refl. ring.
      * apply in_ms; assumption.
      * intros j Hj Hn. apply in_ms in Hj; [|exact HL]. rewrite unitary by assumption. unfold delta.
        destruct (Z.eqb_spec q j); [congruence|]. ring.
    + rewrite csum_swap. apply csum_ext. intros t _. unfold cmul. rewrite <- csum_scal. apply csum_ext. intros q _. ring.
Qed.

(** ** The algebra over complex harmonics *)

Definition rmul (L : Z) (A B : Z -> Z -> R) (p q : Z) : R := lsum (fun k => A p k * B k q) (ms L).

Lemma lsum_pick (l : list Z) (f : Z -> R) k : NoDup l -> In k l -> (forall j, In j l -> j <> k -> f j = 0) -> lsum f l = f k.
Proof.
  induction l as [|a l IH]; intros N H Z0; [destruct H|]. unfold lsum in *. cbn. inversion N as [|? ? Na Nl]; subst.
  destruct (Z.eq_dec a k) as [-> | Hn].
  - assert (E : fold_right (fun x s => f x + s) 0 l = 0).
    { assert (Z1 : forall j, In j l -> f j = 0) by (intros j Hj; apply Z0; [right; exact Hj|intros ->; contradiction]).
      clear - Z1. induction l as [|b l IH]; [reflexivity|]. cbn. rewrite (Z1 b) by (left; reflexivity).
      rewrite IH; [ring|]. intros; apply Z1; right; assumption. }
    rewrite E. ring.
  - rewrite (Z0 a) by (try (left; reflexivity); exact Hn). rewrite IH; [ring|exact Nl|destruct H; [contradiction|assumption]|].
    intros j Hj. apply Z0. right; exact Hj.
Qed.

Lemma lsum_none (l : list Z) (f : Z -> R) : (forall j, In j l -> f j = 0) -> lsum f l = 0.
Proof.
  intros Z1. unfold lsum. induction l as [|b l IH]; [reflexivity|]. cbn. rewrite (Z1 b) by (left; reflexivity).
  rewrite IH; [ring|]. intros; apply Z1; right; assumption.
Qed.

Lemma lsum_plus' (l : list Z) (f g : Z -> R) : lsum (fun k => f k + g k) l = lsum f l + lsum g l.
Proof. unfold lsum. induction l as [|b l IH]; cbn; [ring|]. rewrite IH. ring. Qed.
Lemma lsum_scal' (l : list Z) c (f : Z -> R) : lsum (fun k => c * f k) l = c * lsum f l.
Proof. unfold lsum. induction l as [|b l IH]; cbn; [ring|]. rewrite IH. ring. Qed.
Lemma lsum_ext' (l : list Z) (f g : Z -> R) : (forall k, In k l -> f k = g k) -> lsum f l = lsum g l.
Proof.
  unfold lsum. induction l as [|b l IH]; intros H; cbn; [reflexivity|]. rewrite (H b) by (left; reflexivity). rewrite IH; [reflexivity|].
  intros; apply H; right; assumption.
Qed.

Definition cp (L q : Z) : R := sqrt (IZR ((L - q) * (L + q + 1))).
Definition cm (L q : Z) : R := sqrt (IZR ((L + q) * (L - q + 1))).

Lemma b2R_true b : b = true -> b2R b = 1. Proof. intros ->. reflexivity. Qed.
Lemma b2R_false b : b = false -> b2R b = 0. Proof. intros ->. reflexivity. Qed.

Lemma mul_P L A p q : (0 <= L)%Z -> (- L <= q <= L)%Z -> rmul L A (vP L) p q = A p (q + 1)%Z * cp L q.
Proof.
  intros HL Hq. unfold rmul. destruct (Z.eq_dec q L) as [-> | Hn].
  - rewrite lsum_none.
    + unfold cp. replace ((L - L) * (L + L + 1))%Z with 0%Z by ring. rewrite sqrt_0. ring.
    + intros j Hj. apply in_ms in Hj; [|exact HL]. unfold vP. destruct (Z.eqb_spec j (L + 1)); [lia|]. cbn. ring.
  - rewrite (lsum_pick (ms L) _ (q + 1)%Z (nodup_ms L)).
    + unfold vP, cp. rewrite Z.eqb_refl. cbn. ring.
    + apply in_ms; lia.
    + intros j _ Hj. unfold vP. destruct (Z.eqb_spec j (q + 1)); [contradiction|]. cbn. ring.
Qed.

Lemma mul_M L A p q : (0 <= L)%Z -> (- L <= q <= L)%Z -> rmul L A (vM L) p q = A p (q - 1)%Z * cm L q.
Proof.
  intros HL Hq. unfold rmul. destruct (Z.eq_dec q (- L)) as [-> | Hn].
  - rewrite lsum_none.
    + unfold cm. replace ((L + - L) * (L - - L + 1))%Z with 0%Z by ring. rewrite sqrt_0. ring.
    + intros j Hj. apply in_ms in Hj; [|exact HL]. unfold vM. destruct (Z.eqb_spec j (- L - 1)); [lia|]. cbn. ring.
  - rewrite (lsum_pick (ms L) _ (q - 1)%Z (nodup_ms L)).
    + unfold vM, cm. rewrite Z.eqb_refl. cbn. ring.
    + apply in_ms; lia.
    + intros j _ Hj. unfold vM. destruct (Z.eqb_spec j (q - 1)); [contradiction|]. cbn. ring.
Qed.

Lemma mul_X L A p q : (0 <= L)%Z -> (- L <= q <= L)%Z ->
  rmul L A (vX L) p q = 0.5 * (A p (q + 1)%Z * cp L q + A p (q - 1)%Z * cm L q).
Proof.
  intros HL Hq. rewrite <- mul_P, <- mul_M by assumption. unfold rmul. rewrite <- lsum_plus', <- lsum_scal'.
  apply lsum_ext'. intros k _. unfold vX. ring.
Qed.

Lemma mul_Y L A p q : (0 <= L)%Z -> (- L <= q <= L)%Z ->
  rmul L A (vY L) p q = 0.5 * (A p (q + 1)%Z * cp L q - A p (q - 1)%Z * cm L q).
Proof.
  intros HL Hq. rewrite <- mul_P, <- mul_M by assumption. unfold rmul.
  replace (lsum (fun k => A p k * vP L k q) (ms L) - lsum (fun k => A p k * vM L k q) (ms L))
    with (lsum (fun k => A p k * vP L k q) (ms L) + (-1) * lsum (fun k => A p k * vM L k q) (ms L)) by ring.
  rewrite <- lsum_scal', <- lsum_plus', <- lsum_scal'.
  apply lsum_ext'. intros k _. unfold vY. ring.
Qed.

Lemma mul_Z L A p q : (0 <= L)%Z -> (- L <= q <= L)%Z -> rmul L A (vZ L) p q = A p q * IZR q.
Proof.
  intros HL Hq. unfold rmul. rewrite (lsum_pick (ms L) _ q (nodup_ms L)).
  - unfold vZ. rewrite Z.eqb_refl. cbn. ring.
  - apply in_ms; lia.
  - intros j _ Hj. unfold vZ. destruct (Z.eqb_spec j q); [contradiction|]. cbn. ring.
Qed.

Lemma Z_mul L B p q : (0 <= L)%Z -> (- L <= p <= L)%Z -> rmul L (vZ L) B p q = IZR p * B p q.
Proof.
  intros HL Hp. unfold rmul. rewrite (lsum_pick (ms L) _ p (nodup_ms L)).
  - unfold vZ. rewrite Z.eqb_refl. cbn. ring.
  - apply in_ms; lia.
  - intros j _ Hj. unfold vZ. destruct (Z.eqb_spec p j); [congruence|]. cbn. ring.
Qed.

Lemma cp_cm L q : (- L <= q <= L)%Z -> cm L (q + 1) * cp L q = IZR ((L - q) * (L + q + 1)).
Proof.
  intros Hq. unfold cp, cm. replace ((L + (q + 1)) * (L - (q + 1) + 1))%Z with ((L - q) * (L + q + 1))%Z by ring.
  apply sqrt_sqrt. apply IZR_le. nia.
Qed.
Lemma cm_cp L q : (- L <= q <= L)%Z -> cp L (q - 1) * cm L q = IZR ((L + q) * (L - q + 1)).
Proof.
  intros Hq. unfold cp, cm. replace ((L - (q - 1)) * (L + (q - 1) + 1))%Z with ((L + q) * (L - q + 1))%Z by ring.
  apply sqrt_sqrt. apply IZR_le. nia.
Qed.

Lemma vP_alt L p q : vP L p q = cp L q * b2R (p =? q + 1)%Z. Proof. reflexivity. Qed.
Lemma vM_alt L p q : vM L p q = cm L q * b2R (p =? q - 1)%Z. Proof. reflexivity. Qed.

Definition dl (p q : Z) : R := b2R (p =? q)%Z.

Lemma comm_XY L p q : (0 <= L)%Z -> (- L <= p <= L)%Z -> (- L <= q <= L)%Z ->
  rmul L (vX L) (vY L) p q - rmul L (vY L) (vX L) p q = - vZ L p q.
Proof.
  intros HL Hp Hq. rewrite mul_X, mul_Y by assumption. unfold vX, vY. rewrite !vP_alt, !vM_alt.
  replace (q + 1 - 1)%Z with q by ring. replace (q - 1 + 1)%Z with q by ring.
  assert (E1 := cp_cm L q Hq). assert (E2 := cm_cp L q Hq). unfold vZ.
  transitivity (/ 2 * (cm L (q + 1) * cp L q - cp L (q - 1) * cm L q) * b2R (p =? q)%Z); [lra|].
  rewrite E1, E2, <- minus_IZR. replace ((L - q) * (L + q + 1) - (L + q) * (L - q + 1))%Z with (- (2 * q))%Z by ring.
  rewrite opp_IZR, mult_IZR. field.
Qed.

Lemma comm_YZ L p q : (0 <= L)%Z -> (- L <= p <= L)%Z -> (- L <= q <= L)%Z ->
  rmul L (vY L) (vZ L) p q - rmul L (vZ L) (vY L) p q = - vX L p q.
Proof.
  intros HL Hp Hq. rewrite mul_Z, Z_mul by assumption. unfold vX, vY. rewrite !vP_alt, !vM_alt.
  destruct (Z.eqb_spec p (q + 1)) as [E' | H1]; destruct (Z.eqb_spec p (q - 1)) as [E | H2]; try lia; cbn [b2R].
  - rewrite E', plus_IZR. ring.
  - rewrite E, minus_IZR. ring.
  - ring.
Qed.

Lemma comm_ZX L p q : (0 <= L)%Z -> (- L <= p <= L)%Z -> (- L <= q <= L)%Z ->
  rmul L (vZ L) (vX L) p q - rmul L (vX L) (vZ L) p q = vY L p q.
Proof.
  intros HL Hp Hq. rewrite mul_Z, Z_mul by assumption. unfold vX, vY. rewrite !vP_alt, !vM_alt.
  destruct (Z.eqb_spec p (q + 1)) as [E' | H1]; destruct (Z.eqb_spec p (q - 1)) as [E | H2]; try lia; cbn [b2R].
  - rewrite E', plus_IZR. ring.
  - rewrite E, minus_IZR. ring.
  - ring.
Qed.

Lemma casimir_csh L p q : (0 <= L)%Z -> (- L <= p <= L)%Z -> (- L <= q <= L)%Z ->
  rmul L (vX L) (vX L) p q - rmul L (vY L) (vY L) p q + rmul L (vZ L) (vZ L) p q = IZR (L * (L + 1)) * dl p q.
Proof.
  intros HL Hp Hq. rewrite mul_X, mul_Y, mul_Z by assumption. unfold vX, vY, vZ, dl. rewrite !vP_alt, !vM_alt.
  replace (q + 1 - 1)%Z with q by ring. replace (q - 1 + 1)%Z with q by ring.
  assert (E1 := cp_cm L q Hq). assert (E2 := cm_cp L q Hq).
  transitivity ((/ 2 * (cm L (q + 1) * cp L q + cp L (q - 1) * cm L q) + IZR q * IZR q) * b2R (p =? q)%Z); [lra|].
  rewrite E1, E2, <- plus_IZR. replace ((L - q) * (L + q + 1) + (L + q) * (L - q + 1))%Z with (2 * (L * (L + 1) - q * q))%Z by ring.
  rewrite mult_IZR, minus_IZR, (mult_IZR q q). field.
Qed.

(** the ladder algebra itself *)
Lemma ladder_PM L p q : (0 <= L)%Z -> (- L <= p <= L)%Z -> (- L <= q <= L)%Z ->
  rmul L (vP L) (vM L) p q - rmul L (vM L) (vP L) p q = 2 * vZ L p q.
Proof.
  intros HL Hp Hq. rewrite mul_P, mul_M by assumption. rewrite vP_alt, vM_alt. unfold vZ.
  replace (q + 1 - 1)%Z with q by ring. replace (q - 1 + 1)%Z with q by ring.
  assert (E1 := cp_cm L q Hq). assert (E2 := cm_cp L q Hq).
  transitivity ((cp L (q - 1) * cm L q - cm L (q + 1) * cp L q) * b2R (p =? q)%Z); [ring|].
  rewrite E1, E2, <- minus_IZR. replace ((L + q) * (L - q + 1) - (L - q) * (L + q + 1))%Z with (2 * q)%Z by ring.
  rewrite mult_IZR. ring.
Qed.

(** ** Real harmonics *)

Lemma cmul_R L A B p q : cmul L (fun p q => RtoC (A p q)) (fun p q => RtoC (B p q)) p q = RtoC (rmul L A B p q).
Proof.
  unfold cmul, rmul, lsum. induction (ms L) as [|k l IH]; cbn; [reflexivity|]. rewrite IH, RtoC_plus, RtoC_mult. reflexivity.
Qed.

Definition hatR (L : Z) (A : Z -> Z -> R) : Z -> Z -> C := hat L (fun p q => RtoC (A p q)).

Lemma hatR_lin L A B c d D m1 m2 : (0 <= L)%Z -> (- L <= m1 <= L)%Z -> (- L <= m2 <= L)%Z ->
  (forall p q, (- L <= p <= L)%Z -> (- L <= q <= L)%Z -> c * A p q + d * B p q = D p q) ->
  Cplus (Cmult (RtoC c) (hatR L A m1 m2)) (Cmult (RtoC d) (hatR L B m1 m2)) = hatR L D m1 m2.
Proof.
  intros HL H1 H2 H. unfold hatR, hat. rewrite <- !csum_scal, <- csum_plus. apply csum_ext. intros p Hp.
  rewrite <- !csum_scal, <- csum_plus. apply csum_ext. intros q Hq. apply in_ms in Hp, Hq; try exact HL.
  rewrite <- (H p q Hp Hq), RtoC_plus, !RtoC_mult. ring.
Qed.

Lemma hat_ext L A B m1 m2 : (0 <= L)%Z -> (forall p q, (- L <= p <= L)%Z -> (- L <= q <= L)%Z -> A p q = B p q) ->
  hat L A m1 m2 = hat L B m1 m2.
Proof.
  intros HL H. unfold hat. apply csum_ext. intros p Hp. apply csum_ext. intros q Hq. apply in_ms in Hp, Hq; try exact HL.
  rewrite H by assumption. reflexivity.
Qed.

Lemma hatR_mul L A B m1 m2 : (0 <= L)%Z -> cmul L (hatR L A) (hatR L B) m1 m2 = hatR L (rmul L A B) m1 m2.
Proof.
  intros HL. unfold hatR. rewrite hat_mul by exact HL. apply hat_ext; [exact HL|]. intros. apply cmul_R.
Qed.

(** parity of a matrix under (p, q) -> (-p, -q), and its selection rule *)
Lemma vX_even L p q : vX L (- p) (- q) = vX L p q.
Proof.
  unfold vX. rewrite !vP_alt, !vM_alt. unfold cp, cm.
  replace (L - - q)%Z with (L + q)%Z by ring. replace (L + - q)%Z with (L - q)%Z by ring.
  replace (- p =? - q + 1)%Z with (p =? q - 1)%Z by (destruct (Z.eqb_spec p (q - 1)), (Z.eqb_spec (- p) (- q + 1)); lia || reflexivity).
  replace (- p =? - q - 1)%Z with (p =? q + 1)%Z by (destruct (Z.eqb_spec p (q + 1)), (Z.eqb_spec (- p) (- q - 1)); lia || reflexivity).
  ring.
Qed.

Lemma vY_odd L p q : vY L (- p) (- q) = - vY L p q.
Proof.
  unfold vY. rewrite !vP_alt, !vM_alt. unfold cp, cm.
  replace (L - - q)%Z with (L + q)%Z by ring. replace (L + - q)%Z with (L - q)%Z by ring.
  replace (- p =? - q + 1)%Z with (p =? q - 1)%Z by (destruct (Z.eqb_spec p (q - 1)), (Z.eqb_spec (- p) (- q + 1)); lia || reflexivity).
  replace (- p =? - q - 1)%Z with (p =? q + 1)%Z by (destruct (Z.eqb_spec p (q + 1)), (Z.eqb_spec (- p) (- q - 1)); lia || reflexivity).
  ring.
Qed.

Lemma vZ_odd L p q : vZ L (- p) (- q) = - vZ L p q.
Proof.
  unfold vZ. rewrite opp_IZR.
  replace (- p =? - q)%Z with (p =? q)%Z by (destruct (Z.eqb_spec p q), (Z.eqb_spec (- p) (- q)); lia || reflexivity).
  ring.
Qed.

Lemma step_select L p q : vP L p q = 0 /\ vM L p q = 0 \/ sg p = - sg q.
Proof.
  rewrite vP_alt, vM_alt. destruct (Z.eqb_spec p (q + 1)) as [-> | H1].
  - right. apply sg_succ.
  - destruct (Z.eqb_spec p (q - 1)) as [-> | H2].
    + right. replace q with (q - 1 + 1)%Z at 2 by ring. rewrite sg_succ. ring.
    + left. cbn. split; ring.
Qed.

(** a real matrix of given parity [e] under inversion and selection sign [s] *)
Definition graded (A : Z -> Z -> R) (e s : R) : Prop :=
  (forall p q, A (- p)%Z (- q)%Z = e * A p q) /\ (forall p q, A p q = 0 \/ sg p = s * sg q).

Lemma graded_X L : graded (vX L) 1 (-1).
Proof.
  split; intros p q; [rewrite vX_even; ring|]. destruct (step_select L p q) as [[E1 E2] | E].
  - left. unfold vX. rewrite E1, E2. ring.
  - right. rewrite E. ring.
Qed.
Lemma graded_Y L : graded (vY L) (-1) (-1).
Proof.
  split; intros p q; [rewrite vY_odd; ring|]. destruct (step_select L p q) as [[E1 E2] | E].
  - left. unfold vY. rewrite E1, E2. ring.
  - right. rewrite E. ring.
Qed.
Lemma graded_Z L : graded (vZ L) (-1) 1.
Proof.
  split; intros p q; [rewrite vZ_odd; ring|]. unfold vZ. destruct (Z.eqb_spec p q) as [-> | H].
  - right. ring.
  - left. cbn. ring.
Qed.

(** the transformed matrix is purely imaginary (e s = -1) or purely real (e s = 1) *)
Lemma four_vals A e s m1 m2 : graded A e s ->
  exists x3 x4, A (Z.abs m1) (- Z.abs m2)%Z = x3 /\ A (Z.abs m1) (Z.abs m2) = x4 /\
    A (- Z.abs m1)%Z (Z.abs m2) = e * x3 /\ A (- Z.abs m1)%Z (- Z.abs m2)%Z = e * x4 /\
    ((x3 = 0 /\ x4 = 0) \/ sg m1 = s * sg m2) /\
    (m1 = 0%Z -> x3 = e * x4) /\ (m2 = 0%Z -> x3 = x4).
Proof.
  intros (G1 & G2). exists (A (Z.abs m1) (- Z.abs m2)%Z), (A (Z.abs m1) (Z.abs m2)).
  split; [reflexivity|]. split; [reflexivity|]. split.
  { rewrite <- (Z.opp_involutive (Z.abs m2)) at 1. apply G1. }
  split; [apply G1|].
  assert (Sa : forall m, sg (Z.abs m) = sg m) by (intros m; unfold sg; rewrite Z.abs_eq by lia; reflexivity).
  split.
  { destruct (G2 (Z.abs m1) (Z.abs m2)) as [E4 | E]; [|right; rewrite !Sa in E; exact E].
    destruct (G2 (Z.abs m1) (- Z.abs m2)%Z) as [E3 | E]; [left; auto|]. right. rewrite sg_abs, !Sa in E. exact E. }
  split.
  - intros ->. change (Z.abs 0) with 0%Z. rewrite <- G1. reflexivity.
  - intros ->. reflexivity.
Qed.

Lemma four_re A m1 m2 : let '((a, a'), (b, b')) := transformation_coeffs m1 in
  let '((c, c'), (d, d')) := transformation_coeffs m2 in
  Re (four (fun p q => RtoC (A p q)) m1 m2) =
  (a * c + a' * c') * A (- Z.abs m1)%Z (- Z.abs m2)%Z + (a * d + a' * d') * A (- Z.abs m1)%Z (Z.abs m2)
  + (b * c + b' * c') * A (Z.abs m1) (- Z.abs m2)%Z + (b * d + b' * d') * A (Z.abs m1) (Z.abs m2).
Proof.
  unfold four. destruct (transformation_coeffs m1) as [[a a'] [b b']]. destruct (transformation_coeffs m2) as [[c c'] [d d']].
  unfold Re, Cplus, Cmult, Cconj, RtoC; cbn [fst snd]. ring.
Qed.

Lemma four_im A m1 m2 : let '((a, a'), (b, b')) := transformation_coeffs m1 in
  let '((c, c'), (d, d')) := transformation_coeffs m2 in
  Im (four (fun p q => RtoC (A p q)) m1 m2) =
  (a * c' - a' * c) * A (- Z.abs m1)%Z (- Z.abs m2)%Z + (a * d' - a' * d) * A (- Z.abs m1)%Z (Z.abs m2)
  + (b * c' - b' * c) * A (Z.abs m1) (- Z.abs m2)%Z + (b * d' - b' * d) * A (Z.abs m1) (Z.abs m2).
Proof.
  unfold four. destruct (transformation_coeffs m1) as [[a a'] [b b']]. destruct (transformation_coeffs m2) as [[c c'] [d d']].
  unfold Im, Cplus, Cmult, Cconj, RtoC; cbn [fst snd]. ring.
Qed.

Lemma four_parts A e s m1 m2 : graded A e s -> e * e = 1 ->
  (s = - e -> Re (four (fun p q => RtoC (A p q)) m1 m2) = 0) /\
  (s = e -> Im (four (fun p q => RtoC (A p q)) m1 m2) = 0).
Proof.
  intros G He. destruct (four_vals A e s m1 m2 G) as (x3 & x4 & E3 & E4 & E2 & E1 & Sel & Z1 & Z2).
  assert (T1 := sg_sq m1). assert (T2 := sg_sq m2).
  assert (K : forall m, (exists u v, (transformation_coeffs m = ((0, u), (0, v))) /\ v = - (sg m * u)) \/
                        (exists u v, (transformation_coeffs m = ((u, 0), (v, 0))) /\ v = sg m * u)).
  { intros m. destruct (Z_lt_le_dec m 0) as [H | H].
    - left. rewrite (coeffs_neg m H). eexists; eexists; split; reflexivity.
    - right. destruct (Z.eq_dec m 0) as [-> | N].
      + rewrite coeffs_zero. eexists; eexists; split; [reflexivity|]. unfold sg. cbn. ring.
      + rewrite coeffs_pos by lia. eexists; eexists; split; reflexivity. }
  assert (RE := four_re A m1 m2). assert (IM := four_im A m1 m2).
  destruct (K m1) as [(u1 & v1 & C1 & V1) | (u1 & v1 & C1 & V1)]; destruct (K m2) as [(u2 & v2 & C2 & V2) | (u2 & v2 & C2 & V2)];
    rewrite C1, C2 in RE, IM; rewrite RE, IM, E1, E2, E3, E4, V1, V2; clear RE IM.
  all: split; intros ->; destruct Sel as [[-> ->] | Sel]; try ring; rewrite Sel.
  all: first [transitivity (e * u1 * u2 * x4 * (1 - sg m2 * sg m2)); [ring|rewrite T2; ring]
             |transitivity (- e * u1 * u2 * x4 * (1 - sg m2 * sg m2)); [ring|rewrite T2; ring]].
Qed.

(** *** The stored real matrices *)

Definition wX (L m1 m2 : Z) : R := Im (hatR L (vX L) m1 m2).
Definition wY (L m1 m2 : Z) : R := - Re (hatR L (vY L) m1 m2).
Definition wZ (L m1 m2 : Z) : R := Im (hatR L (vZ L) m1 m2).

Lemma C_parts (z : C) : z = (Re z, Im z).
Proof. destruct z. reflexivity. Qed.

Section Real.
Variable L : Z.
Hypothesis HL : (0 <= L)%Z.
Let inr (m : Z) : Prop := (- L <= m <= L)%Z.

Lemma hatX_eq m1 m2 : inr m1 -> inr m2 -> hatR L (vX L) m1 m2 = Cmult Ci (RtoC (wX L m1 m2)).
Proof.
  intros H1 H2. unfold wX. rewrite (C_parts (hatR L (vX L) m1 m2)) at 1.
  assert (E : Re (hatR L (vX L) m1 m2) = 0).
  { unfold hatR. rewrite hat_four by assumption. apply (four_parts (vX L) 1 (-1)); [apply graded_X|ring|ring]. }
  rewrite E. unfold Cmult, Ci, RtoC. cbn [fst snd]. f_equal; ring.
Qed.
Lemma hatZ_eq m1 m2 : inr m1 -> inr m2 -> hatR L (vZ L) m1 m2 = Cmult Ci (RtoC (wZ L m1 m2)).
Proof.
  intros H1 H2. unfold wZ. rewrite (C_parts (hatR L (vZ L) m1 m2)) at 1.
  assert (E : Re (hatR L (vZ L) m1 m2) = 0).
  { unfold hatR. rewrite hat_four by assumption. apply (four_parts (vZ L) (-1) 1); [apply graded_Z|ring|ring]. }
  rewrite E. unfold Cmult, Ci, RtoC. cbn [fst snd]. f_equal; ring.
Qed.
Lemma hatY_eq m1 m2 : inr m1 -> inr m2 -> hatR L (vY L) m1 m2 = RtoC (- wY L m1 m2).
Proof.
  intros H1 H2. unfold wY. rewrite (C_parts (hatR L (vY L) m1 m2)) at 1.
  assert (E : Im (hatR L (vY L) m1 m2) = 0).
  { unfold hatR. rewrite hat_four by assumption. apply (four_parts (vY L) (-1) (-1)); [apply graded_Y|ring|ring]. }
  rewrite E. unfold RtoC. f_equal; ring.
Qed.

Lemma cmul_ext A B A' B' p q : inr p -> inr q -> (forall k, inr k -> A p k = A' p k) -> (forall k, inr k -> B k q = B' k q) ->
  cmul L A B p q = cmul L A' B' p q.
Proof.
  intros Hp Hq HA HB. unfold cmul. apply csum_ext. intros k Hk. apply in_ms in Hk; [|exact HL].
  rewrite HA, HB by exact Hk. reflexivity.
Qed.

Lemma cmul_scal c d A B p q : cmul L (fun p q => Cmult c (RtoC (A p q))) (fun p q => Cmult d (RtoC (B p q))) p q =
  Cmult (Cmult c d) (RtoC (rmul L A B p q)).
Proof.
  rewrite <- cmul_R. unfold cmul. rewrite <- csum_scal. apply csum_ext. intros k _. ring.
Qed.

Let cX (m1 m2 : Z) := Cmult Ci (RtoC (wX L m1 m2)).
Let cZ (m1 m2 : Z) := Cmult Ci (RtoC (wZ L m1 m2)).
Let cY (m1 m2 : Z) := Cmult (RtoC (-1)) (RtoC (wY L m1 m2)).

Lemma hatY_eq' m1 m2 : inr m1 -> inr m2 -> hatR L (vY L) m1 m2 = cY m1 m2.
Proof. intros. rewrite hatY_eq by assumption. unfold cY. rewrite <- RtoC_mult. f_equal. ring. Qed.

Lemma Cm1 : RtoC (-1) = Copp (RtoC 1).
Proof. unfold Copp, RtoC. cbn. f_equal; ring. Qed.

Lemma Ci_sq : Cmult Ci Ci = RtoC (-1).
Proof. unfold Cmult, Ci, RtoC. cbn. f_equal; ring. Qed.

Lemma Ci_inj a b : Cmult Ci (RtoC a) = Cmult Ci (RtoC b) -> a = b.
Proof. unfold Cmult, Ci, RtoC. cbn. intros H. injection H as H1 H2. lra. Qed.

Lemma comm_xy m1 m2 : inr m1 -> inr m2 ->
  rmul L (wX L) (wY L) m1 m2 - rmul L (wY L) (wX L) m1 m2 = wZ L m1 m2.
Proof.
  intros H1 H2.
  assert (E1 : cmul L (hatR L (vX L)) (hatR L (vY L)) m1 m2 = Cmult (Cmult Ci (RtoC (-1))) (RtoC (rmul L (wX L) (wY L) m1 m2))).
  { rewrite <- cmul_scal. apply cmul_ext; try assumption; intros k Hk; [apply hatX_eq|apply hatY_eq']; assumption. }
  assert (E2 : cmul L (hatR L (vY L)) (hatR L (vX L)) m1 m2 = Cmult (Cmult (RtoC (-1)) Ci) (RtoC (rmul L (wY L) (wX L) m1 m2))).
  { rewrite <- cmul_scal. apply cmul_ext; try assumption; intros k Hk; [apply hatY_eq'|apply hatX_eq]; assumption. }
  rewrite hatR_mul in E1, E2 by exact HL.
  assert (E3 := hatR_lin L (rmul L (vX L) (vY L)) (rmul L (vY L) (vX L)) (-1) 1 (vZ L) m1 m2 HL H1 H2).
  rewrite E1, E2, hatZ_eq in E3 by assumption. apply Ci_inj.
  rewrite <- E3; [|intros p q Hp Hq; assert (X := comm_XY L p q HL Hp Hq); lra].
  rewrite RtoC_minus, Cm1. ring.
Qed.

Lemma comm_yz m1 m2 : inr m1 -> inr m2 ->
  rmul L (wY L) (wZ L) m1 m2 - rmul L (wZ L) (wY L) m1 m2 = wX L m1 m2.
Proof.
  intros H1 H2.
  assert (E1 : cmul L (hatR L (vY L)) (hatR L (vZ L)) m1 m2 = Cmult (Cmult (RtoC (-1)) Ci) (RtoC (rmul L (wY L) (wZ L) m1 m2))).
  { rewrite <- cmul_scal. apply cmul_ext; try assumption; intros k Hk; [apply hatY_eq'|apply hatZ_eq]; assumption. }
  assert (E2 : cmul L (hatR L (vZ L)) (hatR L (vY L)) m1 m2 = Cmult (Cmult Ci (RtoC (-1))) (RtoC (rmul L (wZ L) (wY L) m1 m2))).
  { rewrite <- cmul_scal. apply cmul_ext; try assumption; intros k Hk; [apply hatZ_eq|apply hatY_eq']; assumption. }
  rewrite hatR_mul in E1, E2 by exact HL.
  assert (E3 := hatR_lin L (rmul L (vY L) (vZ L)) (rmul L (vZ L) (vY L)) (-1) 1 (vX L) m1 m2 HL H1 H2).
  rewrite E1, E2, hatX_eq in E3 by assumption. apply Ci_inj.
  rewrite <- E3; [|intros p q Hp Hq; assert (X := comm_YZ L p q HL Hp Hq); lra].
  rewrite RtoC_minus, Cm1. ring.
Qed.

Lemma comm_zx m1 m2 : inr m1 -> inr m2 ->
  rmul L (wZ L) (wX L) m1 m2 - rmul L (wX L) (wZ L) m1 m2 = wY L m1 m2.
Proof.
  intros H1 H2.
  assert (E1 : cmul L (hatR L (vZ L)) (hatR L (vX L)) m1 m2 = Cmult (Cmult Ci Ci) (RtoC (rmul L (wZ L) (wX L) m1 m2))).
  { rewrite <- cmul_scal. apply cmul_ext; try assumption; intros k Hk; [apply hatZ_eq|apply hatX_eq]; assumption. }
  assert (E2 : cmul L (hatR L (vX L)) (hatR L (vZ L)) m1 m2 = Cmult (Cmult Ci Ci) (RtoC (rmul L (wX L) (wZ L) m1 m2))).
  { rewrite <- cmul_scal. apply cmul_ext; try assumption; intros k Hk; [apply hatX_eq|apply hatZ_eq]; assumption. }
  rewrite hatR_mul in E1, E2 by exact HL. rewrite Ci_sq in E1, E2.
  assert (E3 := hatR_lin L (rmul L (vZ L) (vX L)) (rmul L (vX L) (vZ L)) 1 (-1) (vY L) m1 m2 HL H1 H2).
  rewrite E1, E2, hatY_eq in E3 by assumption.
  assert (E4 : forall p q, (- L <= p <= L)%Z -> (- L <= q <= L)%Z -> 1 * rmul L (vZ L) (vX L) p q + -1 * rmul L (vX L) (vZ L) p q = vY L p q).
  { intros p q Hp Hq. assert (X := comm_ZX L p q HL Hp Hq). lra. }
  specialize (E3 E4). rewrite <- !RtoC_mult, <- RtoC_plus in E3. apply RtoC_inj in E3. lra.
Qed.

Lemma hat_delta m1 m2 : inr m1 -> inr m2 -> hatR L dl m1 m2 = RtoC (dl m1 m2).
Proof.
  intros H1 H2. unfold hatR. rewrite hat_four by assumption.
  assert (N2 := sqrt2_neq_0). assert (S2 := sqrt2_inv).
  cut (Re (four (fun p q => RtoC (dl p q)) m1 m2) = dl m1 m2 /\ Im (four (fun p q => RtoC (dl p q)) m1 m2) = 0).
  { intros (X1 & X2). rewrite (C_parts (four _ m1 m2)), X1, X2. reflexivity. }
  assert (K : forall m, (m < 0)%Z /\ transformation_coeffs m = ((0, / sqrt 2), (0, - (sg m * / sqrt 2))) \/
                        (m = 0)%Z /\ transformation_coeffs m = ((/ 2, 0), (/ 2, 0)) \/
                        (0 < m)%Z /\ transformation_coeffs m = ((/ sqrt 2, 0), (sg m * / sqrt 2, 0))).
  { intros m. destruct (Z_lt_le_dec m 0) as [H | H]; [left; split; [exact H|apply coeffs_neg, H]|]. right.
    destruct (Z.eq_dec m 0) as [-> | N]; [left; split; [reflexivity|apply coeffs_zero]|right; split; [lia|apply coeffs_pos; lia]]. }
  assert (RE := four_re dl m1 m2). assert (IM := four_im dl m1 m2).
  assert (T2 := sg_sq m2).
  destruct (Z.eq_dec (Z.abs m1) (Z.abs m2)) as [EA | NA].
  - assert (ES : sg m1 = sg m2) by (unfold sg; rewrite EA; reflexivity).
    destruct (K m1) as [(G1 & C1) | [(G1 & C1) | (G1 & C1)]]; destruct (K m2) as [(G2 & C2) | [(G2 & C2) | (G2 & C2)]]; try lia;
    rewrite C1, C2 in RE, IM; rewrite RE, IM; clear RE IM; unfold dl; rewrite EA, ?ES;
    (repeat match goal with |- context [(?x =? ?y)%Z] => destruct (Z.eqb_spec x y); [|try lia]; try lia end); cbn [b2R];
    split; try ring; try lra;
    first [transitivity (/ sqrt 2 * / sqrt 2 * (1 + sg m2 * sg m2)); [ring|rewrite T2, S2; lra]
          |transitivity (/ sqrt 2 * / sqrt 2 * (1 - sg m2 * sg m2)); [ring|rewrite T2, S2; lra]
          |transitivity (/ sqrt 2 * / sqrt 2 * (sg m2 * sg m2 - 1)); [ring|rewrite T2, S2; lra]].
  - destruct (transformation_coeffs m1) as [[a a'] [b b']]. destruct (transformation_coeffs m2) as [[c c'] [d d']].
    rewrite RE, IM. unfold dl.
    repeat match goal with |- context [(?x =? ?y)%Z] => destruct (Z.eqb_spec x y); [exfalso; lia|] end; cbn [b2R].
    split; ring.
Qed.

Lemma casimir m1 m2 : inr m1 -> inr m2 ->
  rmul L (wX L) (wX L) m1 m2 + rmul L (wY L) (wY L) m1 m2 + rmul L (wZ L) (wZ L) m1 m2 = - IZR (L * (L + 1)) * dl m1 m2.
Proof.
  intros H1 H2.
  assert (E1 : cmul L (hatR L (vX L)) (hatR L (vX L)) m1 m2 = Cmult (Cmult Ci Ci) (RtoC (rmul L (wX L) (wX L) m1 m2))).
  { rewrite <- cmul_scal. apply cmul_ext; try assumption; intros k Hk; apply hatX_eq; assumption. }
  assert (E2 : cmul L (hatR L (vY L)) (hatR L (vY L)) m1 m2 = Cmult (Cmult (RtoC (-1)) (RtoC (-1))) (RtoC (rmul L (wY L) (wY L) m1 m2))).
  { rewrite <- cmul_scal. apply cmul_ext; try assumption; intros k Hk; apply hatY_eq'; assumption. }
  assert (E3 : cmul L (hatR L (vZ L)) (hatR L (vZ L)) m1 m2 = Cmult (Cmult Ci Ci) (RtoC (rmul L (wZ L) (wZ L) m1 m2))).
  { rewrite <- cmul_scal. apply cmul_ext; try assumption; intros k Hk; apply hatZ_eq; assumption. }
  rewrite hatR_mul in E1, E2, E3 by exact HL. rewrite Ci_sq in E1, E3.
  pose (D1 := fun p q => 1 * rmul L (vX L) (vX L) p q + -1 * rmul L (vY L) (vY L) p q).
  assert (F1 := hatR_lin L (rmul L (vX L) (vX L)) (rmul L (vY L) (vY L)) 1 (-1) D1 m1 m2 HL H1 H2 ltac:(intros; reflexivity)).
  pose (D2 := fun p q => 1 * D1 p q + 1 * rmul L (vZ L) (vZ L) p q).
  assert (F2 := hatR_lin L D1 (rmul L (vZ L) (vZ L)) 1 1 D2 m1 m2 HL H1 H2 ltac:(intros; reflexivity)).
  assert (F3 := hatR_lin L dl dl (IZR (L * (L + 1))) 0 D2 m1 m2 HL H1 H2).
  assert (F4 : forall p q, (- L <= p <= L)%Z -> (- L <= q <= L)%Z -> IZR (L * (L + 1)) * dl p q + 0 * dl p q = D2 p q).
  { intros p q Hp Hq. unfold D2, D1. assert (X := casimir_csh L p q HL Hp Hq). lra. }
  specialize (F3 F4). rewrite hat_delta in F3 by assumption. rewrite <- F3, <- F1, E1, E2, E3 in F2.
  repeat (rewrite <- RtoC_mult in F2 || rewrite <- RtoC_plus in F2). apply RtoC_inj in F2.
  lra.
Qed.

(** antisymmetry *)
Lemma csum_conj l f : Cconj (csum l f) = csum l (fun k => Cconj (f k)).
Proof. induction l as [|a l IH]; cbn; [apply Cconj_R|]. rewrite Cconj_plus', IH. reflexivity. Qed.

Lemma Cconj_conj' z : Cconj (Cconj z) = z.
Proof. destruct z. unfold Cconj. cbn. f_equal. ring. Qed.

Lemma hat_conj A m1 m2 s : (forall p q, A q p = s * A p q) -> hatR L A m2 m1 = Cmult (RtoC s) (Cconj (hatR L A m1 m2)).
Proof.
  intros H. unfold hatR, hat. rewrite csum_conj, csum_swap, <- csum_scal. apply csum_ext. intros p _.
  rewrite csum_conj, <- csum_scal. apply csum_ext. intros q _. rewrite H, RtoC_mult, !Cconj_mult', Cconj_conj', Cconj_R. ring.
Qed.

Lemma vPM' p q : vP L p q = vM L q p.
Proof.
  rewrite vP_alt, vM_alt. destruct (Z.eqb_spec p (q + 1)) as [-> | N].
  - replace (q + 1 - 1)%Z with q by ring. rewrite Z.eqb_refl. unfold cp, cm.
    replace ((L + (q + 1)) * (L - (q + 1) + 1))%Z with ((L - q) * (L + q + 1))%Z by ring. reflexivity.
  - destruct (Z.eqb_spec q (p - 1)); [lia|]. cbn. ring.
Qed.

Lemma anti_x m1 m2 : wX L m2 m1 = - wX L m1 m2.
Proof.
  unfold wX. rewrite (hat_conj (vX L) m1 m2 1).
  - unfold Im, Cmult, Cconj, RtoC. cbn [fst snd]. ring.
  - intros p q. unfold vX. rewrite (vPM' q p), (vPM' p q). ring.
Qed.
Lemma anti_y m1 m2 : wY L m2 m1 = - wY L m1 m2.
Proof.
  unfold wY. rewrite (hat_conj (vY L) m1 m2 (-1)).
  - unfold Re, Cmult, Cconj, RtoC. cbn [fst snd]. ring.
  - intros p q. unfold vY. rewrite (vPM' q p), (vPM' p q). ring.
Qed.
Lemma anti_z m1 m2 : wZ L m2 m1 = - wZ L m1 m2.
Proof.
  unfold wZ. rewrite (hat_conj (vZ L) m1 m2 1).
  - unfold Im, Cmult, Cconj, RtoC. cbn [fst snd]. ring.
  - intros p q. unfold vZ. rewrite Z.eqb_sym. destruct (Z.eqb_spec p q) as [-> | N]; cbn; ring.
Qed.
End Real.

(** ** The routine for real harmonics *)

Lemma rsh_entry_ok L M0 X v m1 m2 : (0 <= L)%Z -> holds_sq L M0 X v -> (- L <= m1 <= L)%Z -> (- L <= m2 <= L)%Z ->
  rsh_entry L X m1 m2 = Ok (hatR L v m1 m2).
Proof.
  intros HL (_ & H & _) H1 H2. unfold hatR. rewrite hat_four by assumption. unfold rsh_entry, four.
  destruct (transformation_coeffs m1) as [a1 b1]. destruct (transformation_coeffs m2) as [a2 b2].
  replace ((2 * L + 1) * (- Z.abs m1 + L))%Z with ((- Z.abs m1 + L) * (2 * L + 1))%Z by ring.
  replace ((2 * L + 1) * (Z.abs m1 + L))%Z with ((Z.abs m1 + L) * (2 * L + 1))%Z by ring.
  rewrite !H by lia. cbn [bind]. reflexivity.
Qed.

Lemma rsh_ok L sz (x0 y0 z0 : arr R) : (0 <= L)%Z -> ((2 * L + 1) * (2 * L + 1) <= sz)%Z ->
  adims x0 = [sz] -> adims y0 = [sz] -> adims z0 = [sz] ->
  exists x y z, construct_matrices_rsh L (x0, y0, z0) = Ok (x, y, z) /\
    holds_sq L x0 x (wX L) /\ holds_sq L y0 y (wY L) /\ holds_sq L z0 z (wZ L).
Proof.
  intros HL Hs D1 D2 D3. unfold construct_matrices_rsh.
  destruct (memset_sq L sz x0 HL Hs D1) as (x1 & E1 & F1 & G1). rewrite E1. cbn [bind].
  destruct (memset_sq L sz y0 HL Hs D2) as (y1 & E2 & F2 & G2). rewrite E2. cbn [bind].
  destruct (memset_sq L sz z0 HL Hs D3) as (z1 & E3 & F3 & G3). rewrite E3. cbn [bind].
  set (tmp := aconst _ _).
  destruct (csh_ok L ((2 * L + 1) * (2 * L + 1)) tmp tmp tmp HL ltac:(lia) eq_refl eq_refl eq_refl)
    as (xc & yc & zc & EC & HX & HY & HZ).
  rewrite EC. cbn [bind].
  match goal with |- context [for_range _ _ (fun m1 => for_range _ _ (@?b m1)) _] =>
    destruct (fill3_sq L sz HL Hs (wX L) (wY L) (wZ L) b x1 y1 z1 F1 F2 F3) as (x & y & z & E & H1 & H2 & H3)
  end.
  - intros p q x y z Hp Hq Dx Dy Dz. assert (B := sq_index L p q HL Hp Hq).
    rewrite (rsh_entry_ok L tmp xc (vX L) p q HL HX Hp Hq). cbn [bind].
    rewrite (rsh_entry_ok L tmp yc (vY L) p q HL HY Hp Hq). cbn [bind].
    rewrite (rsh_entry_ok L tmp zc (vZ L) p q HL HZ Hp Hq). cbn [bind].
    assert (Bx : inb (adims x) [((p + L) * (2 * L + 1) + (q + L))%Z] = true) by (rewrite Dx; apply inb1; lia).
    assert (By : inb (adims y) [((p + L) * (2 * L + 1) + (q + L))%Z] = true) by (rewrite Dy; apply inb1; lia).
    assert (Bz : inb (adims z) [((p + L) * (2 * L + 1) + (q + L))%Z] = true) by (rewrite Dz; apply inb1; lia).
    destruct (aset_ok x _ (wX L p q) Bx) as (x2 & A1 & A2 & A3 & A4).
    destruct (aset_ok y _ (wY L p q) By) as (y2 & B1 & B2 & B3 & B4).
    destruct (aset_ok z _ (wZ L p q) Bz) as (z2 & C1 & C2 & C3 & C4).
    exists x2, y2, z2. unfold wX, wY, wZ in *.
    rewrite A1. cbn [bind]. rewrite B1. cbn [bind]. rewrite C1. cbn [bind].
    split; [reflexivity|]. split; [congruence|]. split; [congruence|]. split; [congruence|].
    split; [exact A3|]. split; [exact B3|]. split; [exact C3|].
    intros k Hk. rewrite A4, B4, C4 by exact Hk. auto.
  - exists x, y, z. split; [exact E|].
    split; [eapply holds_sq_trans; [|exact G1|exact H1]; congruence|].
    split; [eapply holds_sq_trans; [|exact G2|exact H2]; congruence|].
    eapply holds_sq_trans; [|exact G3|exact H3]; congruence.
Qed.
