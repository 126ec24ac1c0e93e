(** * Rounding errors of the kinetic energy and momentum integrals: pairs of primitives *)

From Coq Require Import ZArith List Bool Lia Reals Lra.
From Verif Require Import Base GaussInt GaussProd HeapModel OneElModel OneElProofs OneElPairs FloatBase FloatCalc FloatOneEl FloatOverlap FloatTable FloatContr FloatKinModel FloatKin.
Import ListNotations.
Open Scope R_scope.

Lemma mag10_add0 e M N : mag10 e M -> 0 <= N <= 10 ^ e -> mag10 (S e) (M + N).
Proof.
  intros H1 H2. pose proof (mag10_pos _ _ H1). destruct H1 as (A1 & A2). pose proof (p10 e) as P. split.
  - apply Rle_trans with (/ 10 ^ e); [|lra]. apply Rinv_le_contravar; [exact P|]. cbn [pow]. lra.
  - cbn [pow]. lra.
Qed.

(** ** The norm of a primitive *)
Lemma nf_mag L a (h : nat) : okexp a -> (0 <= L <= 2 * Z.of_nat h)%Z -> mag10 (9 + h * 11) (nf L a).
Proof.
  intros Oa HL. pose proof pi_b as PI_b. assert (M4 : mag10 11 (4 * a)) by (unfold okexp, mag10 in *; lra).
  assert (ENF : nf L a = Rpower (2 * a / PI) (3 / 4) * Rpower (4 * a) (1 / 2 * IZR L)) by (unfold nf, gaussian_norm_factor; rewrite !Z.add_0_r; f_equal; f_equal; lra).
  rewrite ENF. apply mag10_mul.
  - assert (Q : / 10 ^ 9 <= 2 * a / PI <= 10 ^ 10). { unfold okexp in Oa. unfold Rdiv. assert (I : / 4 <= / PI <= / 3) by (split; apply Rinv_le_contravar; lra). split; [apply Rle_trans with (2 * / 10 ^ 8 * / 4); [lra|apply Rmult_le_compat; lra]|apply Rle_trans with (2 * 10 ^ 10 * / 3); [apply Rmult_le_compat; try lra; apply Rmult_le_pos; lra|lra]]. }
    split.
    + apply Rle_trans with (Rpower (/ 10 ^ 9) (3 / 4)).
      * replace (/ 10 ^ 9) with (Rpower (/ 10 ^ 9) 1) at 1 by (apply Rpower_1; lra). unfold Rpower. assert (LN : ln (/ 10 ^ 9) <= 0) by (rewrite <- ln_1; left; apply ln_increasing; lra). destruct (Req_dec (1 * ln (/ 10 ^ 9)) (3 / 4 * ln (/ 10 ^ 9))) as [->|N]; [lra|]. left. apply exp_increasing. lra.
      * apply Rle_Rpower_l; [lra|]. split; [apply Rinv_0_lt_compat, pow_lt; lra|lra].
    + apply Rle_trans with (Rpower (10 ^ 10) (3 / 4)); [apply Rle_Rpower_l; [lra|]; split; [unfold Rdiv; apply Rmult_lt_0_compat; [unfold okexp in Oa; lra|apply Rinv_0_lt_compat; lra]|lra]|].
      replace (10 ^ 9) with (Rpower 10 9) by (rewrite <- (Rpower_pow 9) by lra; f_equal; rewrite INR_IZR_INZ; reflexivity). rewrite <- (Rpower_pow 10 10) by lra. rewrite Rpower_mult. apply Rle_Rpower; [lra|]. replace (INR 10) with 10 by (rewrite INR_IZR_INZ; reflexivity). lra.
  - apply (mag_Rpower 11 _ _ h M4). rewrite INR_IZR_INZ. assert (0 <= IZR L <= 2 * IZR (Z.of_nat h)) by (rewrite <- mult_IZR; split; apply IZR_le; lia). lra.
Qed.

Lemma nf_mag2 LA LB a b : okexp a -> okexp b -> (0 <= LA)%Z -> (0 <= LB)%Z ->
  mag10 (9 + Z.to_nat ((LA + 1) / 2) * 11 + (9 + Z.to_nat ((LB + 1) / 2) * 11)) (nf LA a * nf LB b).
Proof.
  intros Oa Ob HA HB. apply mag10_mul; apply nf_mag; try assumption.
  - pose proof (Z.div_mod (LA + 1) 2 ltac:(lia)). pose proof (Z.mod_pos_bound (LA + 1) 2 ltac:(lia)). lia.
  - pose proof (Z.div_mod (LB + 1) 2 ltac:(lia)). pose proof (Z.mod_pos_bound (LB + 1) 2 ltac:(lia)). lia.
Qed.

Lemma halves_bound LA LB n : (0 <= LA)%Z -> (0 <= LB)%Z -> (LA + LB <= 2 * n)%Z ->
  (Z.to_nat ((LA + 1) / 2) + Z.to_nat ((LB + 1) / 2) <= Z.to_nat n + 1)%nat.
Proof.
  intros. pose proof (Z.div_mod (LA + 1) 2 ltac:(lia)). pose proof (Z.mod_pos_bound (LA + 1) 2 ltac:(lia)). pose proof (Z.div_mod (LB + 1) 2 ltac:(lia)). pose proof (Z.mod_pos_bound (LB + 1) 2 ltac:(lia)). lia.
Qed.

Section Pair.
Variables (LA LB : Z) (A B : R * R * R) (aA aB : R).
Hypothesis OA : okexp aA.
Hypothesis OB : okexp aB.
Hypothesis PA : okpt A.
Hypothesis PB : okpt B.
Hypothesis RA : (0 <= LA <= 9)%Z.
Hypothesis RB : (0 <= LB <= 9)%Z.

Notation col := (col aA aB A B).
Notation f1 := (f1 aA aB A B).
Notation f2 := (f2 aA aB A B).

Lemma f1_mag c i : (0 <= i <= 9)%Z -> mag10 17 (f1 c i).
Proof.
  intros Hi. pose proof (W_mag aA aB A B OA OB PA PB c) as MW. pose proof (mag10_pos _ _ MW) as W0. assert (M2 : mag10 11 (2 * aA)) by (unfold okexp, mag10 in *; lra).
  unfold FloatKin.f1. apply (mag10_add0 16); [exact (mag10_mul _ _ _ _ M2 MW)|]. pose proof (mag10_inv _ _ MW) as (_ & I1). assert (I0 : 0 < / Wc aA aB A B c) by (apply Rinv_0_lt_compat, W0).
  assert (0 <= IZR i <= 9) by (split; apply IZR_le; lia). unfold Rdiv. split; [apply Rmult_le_pos; lra|]. apply Rle_trans with (9 * 10 ^ 5); [apply Rmult_le_compat; lra|]. apply Rle_trans with (10 ^ 6); [lra|apply Rle_pow; [lra|lia]].
Qed.

Lemma f2_mag c i : (0 <= i <= 9)%Z -> mag10 35 (f2 c i).
Proof.
  intros Hi. pose proof (f1_mag c i Hi) as M. unfold FloatKin.f2. apply (mag10_add 34); [exact (mag10_mul _ _ _ _ M M)|]. eapply (mag10_weak 11); [unfold okexp, mag10 in *; lra|lia].
Qed.

(** ** Kinetic energy *)
Definition kin_mag (cA cB : Z * Z * Z) : R :=
  let '(nA, lA, mA) := cA in let '(nB, lB, mB) := cB in
  let C0 := col 0 (Z.to_nat (nA + nB)) in let C1 := col 1 (Z.to_nat (lA + lB)) in let C2 := col 2 (Z.to_nat (mA + mB)) in
  1 / 2 * nf LA aA * nf LB aB * (C0 * f2 0 nA * C1 * C2 + C0 * (C1 * f2 1 lA) * C2 + C0 * C1 * (C2 * f2 2 mA)).

Definition Kkin : R := 127 + 10 * IZR (LA + LB).

Lemma fl_kin_value_ok T D2 nA lA mA nB lB mB NA NB : (LA + LB <= 14)%Z ->
  (0 <= nA /\ 0 <= lA /\ 0 <= mA /\ nA + lA + mA = LA)%Z -> (0 <= nB /\ 0 <= lB /\ 0 <= mB /\ nB + lB + mB = LB)%Z ->
  (forall c i j, (0 <= c < 3)%Z -> (0 <= i <= LA)%Z -> (0 <= j <= LB)%Z -> exists v, aget T [c; i; j] = Ok v /\ okT aA aB A B c i j v) ->
  (forall c i j, (0 <= c < 3)%Z -> (0 <= i <= LA)%Z -> (0 <= j <= LB)%Z -> exists v, aget D2 [c; i; j] = Ok v /\ okD2 aA aB A B c i j v) ->
  ap 13 (nf LA aA) (nf LA aA) NA -> ap 13 (nf LB aB) (nf LB aB) NB ->
  exists v, fl_kin_value NA NB T D2 nA lA mA nB lB mB = Ok v /\ mag10 233 (kin_mag (nA, lA, mA) (nB, lB, mB)) /\
    ap Kkin (kin_mag (nA, lA, mA) (nB, lB, mB)) (kin_entry LA LB A B (nA, lA, mA) (nB, lB, mB) aA aB) v.
Proof.
  intros RS CA CB GT GD HNA HNB. unfold fl_kin_value.
  pose proof (nf_mag2 LA LB aA aB OA OB ltac:(lia) ltac:(lia)) as MN. pose proof (halves_bound LA LB 7 ltac:(lia) ltac:(lia) ltac:(lia)) as HB2. set (ha := Z.to_nat ((LA + 1) / 2)) in *. set (hb := Z.to_nat ((LB + 1) / 2)) in *. change (Z.to_nat 7) with 7%nat in HB2.
  assert (MA : mag10 (9 + 5 * 11) (nf LA aA)) by (apply nf_mag; [exact OA|lia]). assert (Mh : mag10 1 (1 / 2)) by (unfold mag10; lra).
  assert (Hh : ap 0 (1 / 2) (- (1 / 2)) (- (1 / 2))) by (apply ap_exact; rewrite Rabs_Ropp, Rabs_pos_eq; lra).
  destruct (ap_fmul _ _ _ _ _ _ _ _ Hh HNA ltac:(lra) ltac:(lra) (mag10_inr _ _ (mag10_mul _ _ _ _ Mh MA) ltac:(lia))) as (h1 & -> & H1). cbn [bind].
  assert (MH : mag10 (1 + (9 + ha * 11 + (9 + hb * 11))) (1 / 2 * nf LA aA * nf LB aB)) by (rewrite Rmult_assoc; apply mag10_mul; [exact Mh|exact MN]).
  destruct (ap_fmul _ _ _ _ _ _ _ _ H1 HNB ltac:(lra) ltac:(lra) (mag10_inr _ _ MH ltac:(lia))) as (h2 & -> & H2). cbn [bind].
  destruct (GD 0%Z nA nB ltac:(lia) ltac:(lia) ltac:(lia)) as (d0 & -> & Hd0). destruct (GT 1%Z lA lB ltac:(lia) ltac:(lia) ltac:(lia)) as (s1 & -> & Hs1). destruct (GT 2%Z mA mB ltac:(lia) ltac:(lia) ltac:(lia)) as (s2 & -> & Hs2).
  destruct (GT 0%Z nA nB ltac:(lia) ltac:(lia) ltac:(lia)) as (s0 & -> & Hs0). destruct (GD 1%Z lA lB ltac:(lia) ltac:(lia) ltac:(lia)) as (d1 & -> & Hd1). destruct (GD 2%Z mA mB ltac:(lia) ltac:(lia) ltac:(lia)) as (d2 & -> & Hd2). cbn [bind].
  unfold okT in Hs0, Hs1, Hs2. unfold okD2 in Hd0, Hd1, Hd2.
  pose proof (Kc_b (Z.to_nat (nA + nB)) ltac:(lia)) as K0. pose proof (Kc_b (Z.to_nat (lA + lB)) ltac:(lia)) as K1. pose proof (Kc_b (Z.to_nat (mA + mB)) ltac:(lia)) as K2.
  pose proof (Kc_sum (Z.to_nat (nA + nB)) (Z.to_nat (lA + lB)) (Z.to_nat (mA + mB))) as KS. replace (INR (Z.to_nat (nA + nB) + Z.to_nat (lA + lB) + Z.to_nat (mA + mB))) with (IZR (LA + LB)) in KS by (rewrite INR_IZR_INZ; f_equal; lia).
  set (n0 := Z.to_nat (nA + nB)) in *. set (n1 := Z.to_nat (lA + lB)) in *. set (n2 := Z.to_nat (mA + mB)) in *.
  assert (NS : (n0 + n1 + n2 <= 14)%nat) by lia.
  fold (col 0 n0) in Hs0. fold (col 1 n1) in Hs1. fold (col 2 n2) in Hs2.
  pose proof (col_mag aA aB A B OA OB PA PB 0 n0) as G0. pose proof (col_mag aA aB A B OA OB PA PB 1 n1) as G1. pose proof (col_mag aA aB A B OA OB PA PB 2 n2) as G2.
  pose proof (mag10_mul _ _ _ _ G0 (f2_mag 0 nA ltac:(lia))) as E0. pose proof (mag10_mul _ _ _ _ G1 (f2_mag 1 lA ltac:(lia))) as E1. pose proof (mag10_mul _ _ _ _ G2 (f2_mag 2 mA ltac:(lia))) as E2.
  pose proof (mag10_mul _ _ _ _ E0 G1) as X1. pose proof (mag10_mul _ _ _ _ X1 G2) as X2. pose proof (mag10_mul _ _ _ _ G0 E1) as Y1. pose proof (mag10_mul _ _ _ _ Y1 G2) as Y2. pose proof (mag10_mul _ _ _ _ G0 G1) as Z1. pose proof (mag10_mul _ _ _ _ Z1 E2) as Z2.
  destruct (ap_fmul _ _ _ _ _ _ _ _ Hd0 Hs1 ltac:(lra) ltac:(lra) (mag10_inr _ _ X1 ltac:(lia))) as (x1 & -> & Hx1). cbn [bind].
  destruct (ap_fmul _ _ _ _ _ _ _ _ Hx1 Hs2 ltac:(lra) ltac:(lra) (mag10_inr _ _ X2 ltac:(lia))) as (x2 & -> & Hx2). cbn [bind].
  destruct (ap_fmul _ _ _ _ _ _ _ _ Hs0 Hd1 ltac:(lra) ltac:(lra) (mag10_inr _ _ Y1 ltac:(lia))) as (y1 & -> & Hy1). cbn [bind].
  destruct (ap_fmul _ _ _ _ _ _ _ _ Hy1 Hs2 ltac:(lra) ltac:(lra) (mag10_inr _ _ Y2 ltac:(lia))) as (y2 & -> & Hy2). cbn [bind].
  apply (mag10_weak _ 120) in X2; [|lia]. apply (mag10_weak _ 120) in Y2; [|lia]. apply (mag10_weak _ 121) in Z2; [|lia].
  pose proof (mag10_add _ _ _ X2 Y2) as XY. pose proof (mag10_add _ _ _ XY Z2) as XYZ.
  pose (KX := 9505 / 100 + 10 * IZR (LA + LB)). assert (LR : 0 <= IZR (LA + LB) <= 14) by (split; apply IZR_le; lia).
  destruct (ap_fadd KX _ _ _ _ _ _ _ _ Hx2 Hy2 ltac:(unfold KX; lra) ltac:(unfold KX; lra) ltac:(unfold KX; lra) (mag10_inr _ _ XY ltac:(lia))) as (xy & -> & Hxy). cbn [bind].
  destruct (ap_fmul _ _ _ _ _ _ _ _ Hs0 Hs1 ltac:(lra) ltac:(lra) (mag10_inr _ _ Z1 ltac:(lia))) as (z1 & -> & Hz1). cbn [bind].
  destruct (ap_fmul _ _ _ _ _ _ _ _ Hz1 Hd2 ltac:(lra) ltac:(lra) (mag10_inr _ _ Z2 ltac:(lia))) as (z2 & -> & Hz2). cbn [bind].
  destruct (ap_fadd (KX + 101 / 100) _ _ _ _ _ _ _ _ Hxy Hz2 ltac:(unfold KX; lra) ltac:(unfold KX; lra) ltac:(unfold KX; lra) (mag10_inr _ _ XYZ ltac:(lia))) as (xyz & -> & Hxyz). cbn [bind].
  assert (MT : mag10 233 (kin_mag (nA, lA, mA) (nB, lB, mB))).
  { unfold kin_mag. fold n0 n1 n2. cbv zeta. pose proof (mag10_mul _ _ _ _ MH XYZ) as MT. eapply mag10_weak; [exact MT|]. lia. }
  destruct (ap_fmul _ _ _ _ _ _ _ _ H2 Hxyz ltac:(lra) ltac:(unfold KX; lra) (mag10_inr _ _ MT ltac:(lia))) as (v & -> & Hv). exists v. split; [reflexivity|]. split; [exact MT|].
  unfold kin_entry. replace (-0.5) with (- (1 / 2)) by lra. eapply ap_weak; [exact Hv|unfold Kkin, KX; lra|unfold Kkin; lra|]. unfold kin_mag. fold n0 n1 n2. cbv zeta. lra.
Qed.

(** ** Momentum *)
Definition pmag (k c i : Z) (n : nat) : R := if (k =? c)%Z then col c n * f1 c i else col c n.
Definition mom_mag (k : Z) (cA cB : Z * Z * Z) : R :=
  let '(nA, lA, mA) := cA in let '(nB, lB, mB) := cB in
  nf LA aA * nf LB aB * pmag k 0 nA (Z.to_nat (nA + nB)) * pmag k 1 lA (Z.to_nat (lA + lB)) * pmag k 2 mA (Z.to_nat (mA + mB)).

Definition Kmom : R := 112 + 10 * IZR (LA + LB).

Definition eK (k c : Z) : R := if (k =? c)%Z then 15 else 0.
Definition eM (k c : Z) : nat := if (k =? c)%Z then 17%nat else 0%nat.

Lemma pmag_mag k c i n : (0 <= i <= 9)%Z -> mag10 (5 + n * 5 + eM k c) (pmag k c i n).
Proof.
  intros Hi. unfold pmag, eM. destruct (k =? c)%Z.
  - exact (mag10_mul _ _ _ _ (col_mag aA aB A B OA OB PA PB c n) (f1_mag c i Hi)).
  - rewrite Nat.add_0_r. exact (col_mag aA aB A B OA OB PA PB c n).
Qed.

Lemma fl_mom_value_ok k t0 t1 t2 nA lA mA nB lB mB NA NB : (0 <= k < 3)%Z -> (LA + LB <= 16)%Z ->
  (0 <= nA /\ 0 <= lA /\ 0 <= mA /\ nA + lA + mA = LA)%Z -> (0 <= nB /\ 0 <= lB /\ 0 <= mB /\ nB + lB + mB = LB)%Z ->
  (forall c t i j, (0 <= c < 3)%Z -> t = (if (c =? 0)%Z then t0 else if (c =? 1)%Z then t1 else t2) -> (0 <= i <= LA)%Z -> (0 <= j <= LB)%Z ->
     exists v, aget t [c; i; j] = Ok v /\ ap (Kc (Z.to_nat (i + j)) + eK k c) (pmag k c i (Z.to_nat (i + j))) (pick A B k c aA aB i j) v) ->
  ap 13 (nf LA aA) (nf LA aA) NA -> ap 13 (nf LB aB) (nf LB aB) NB ->
  exists v, fl_mom_value NA NB t0 t1 t2 nA lA mA nB lB mB = Ok v /\ mag10 233 (mom_mag k (nA, lA, mA) (nB, lB, mB)) /\
    ap Kmom (mom_mag k (nA, lA, mA) (nB, lB, mB)) (mom_entry LA LB A B k (nA, lA, mA) (nB, lB, mB) aA aB) v.
Proof.
  intros Hk RS CA CB G HNA HNB. unfold fl_mom_value.
  pose proof (nf_mag2 LA LB aA aB OA OB ltac:(lia) ltac:(lia)) as MN. pose proof (halves_bound LA LB 8 ltac:(lia) ltac:(lia) ltac:(lia)) as HB2. set (ha := Z.to_nat ((LA + 1) / 2)) in *. set (hb := Z.to_nat ((LB + 1) / 2)) in *. change (Z.to_nat 8) with 8%nat in HB2.
  destruct (ap_fmul _ _ _ _ _ _ _ _ (ap_opp _ _ _ _ HNA) HNB ltac:(lra) ltac:(lra) (mag10_inr _ _ MN ltac:(lia))) as (h & -> & H2). cbn [bind].
  destruct (G 0%Z t0 nA nB ltac:(lia) eq_refl ltac:(lia) ltac:(lia)) as (v0 & -> & Hv0). destruct (G 1%Z t1 lA lB ltac:(lia) eq_refl ltac:(lia) ltac:(lia)) as (v1 & -> & Hv1). destruct (G 2%Z t2 mA mB ltac:(lia) eq_refl ltac:(lia) ltac:(lia)) as (v2 & -> & Hv2). cbn [bind].
  pose proof (Kc_b (Z.to_nat (nA + nB)) ltac:(lia)) as K0. pose proof (Kc_b (Z.to_nat (lA + lB)) ltac:(lia)) as K1. pose proof (Kc_b (Z.to_nat (mA + mB)) ltac:(lia)) as K2.
  pose proof (Kc_sum (Z.to_nat (nA + nB)) (Z.to_nat (lA + lB)) (Z.to_nat (mA + mB))) as KS. replace (INR (Z.to_nat (nA + nB) + Z.to_nat (lA + lB) + Z.to_nat (mA + mB))) with (IZR (LA + LB)) in KS by (rewrite INR_IZR_INZ; f_equal; lia).
  pose proof (pmag_mag k 0 nA (Z.to_nat (nA + nB)) ltac:(lia)) as G0. pose proof (pmag_mag k 1 lA (Z.to_nat (lA + lB)) ltac:(lia)) as G1. pose proof (pmag_mag k 2 mA (Z.to_nat (mA + mB)) ltac:(lia)) as G2.
  set (n0 := Z.to_nat (nA + nB)) in *. set (n1 := Z.to_nat (lA + lB)) in *. set (n2 := Z.to_nat (mA + mB)) in *.
  assert (NS : (n0 + n1 + n2 <= 16)%nat) by lia.
  assert (ES : (eM k 0 + eM k 1 + eM k 2 <= 17)%nat) by (unfold eM; destruct (Z.eqb_spec k 0), (Z.eqb_spec k 1), (Z.eqb_spec k 2); lia).
  assert (EK : eK k 0 + eK k 1 + eK k 2 <= 15 /\ 0 <= eK k 0 <= 15 /\ 0 <= eK k 1 <= 15 /\ 0 <= eK k 2 <= 15) by (unfold eK; destruct (Z.eqb_spec k 0), (Z.eqb_spec k 1), (Z.eqb_spec k 2); try lia; repeat split; lra).
  pose proof (mag10_mul _ _ _ _ MN G0) as E0. pose proof (mag10_mul _ _ _ _ E0 G1) as E1. pose proof (mag10_mul _ _ _ _ E1 G2) as E2.
  destruct (ap_fmul _ _ _ _ _ _ _ _ H2 Hv0 ltac:(lra) ltac:(lra) (mag10_inr _ _ E0 ltac:(lia))) as (w0 & -> & Hw0). cbn [bind].
  destruct (ap_fmul _ _ _ _ _ _ _ _ Hw0 Hv1 ltac:(lra) ltac:(lra) (mag10_inr _ _ E1 ltac:(lia))) as (w1 & -> & Hw1). cbn [bind].
  destruct (ap_fmul _ _ _ _ _ _ _ _ Hw1 Hv2 ltac:(lra) ltac:(lra) (mag10_inr _ _ E2 ltac:(lia))) as (w2 & -> & Hw2). exists w2. split; [reflexivity|].
  assert (LR : 0 <= IZR (LA + LB) <= 16) by (split; apply IZR_le; lia).
  split; [unfold mom_mag; fold n0 n1 n2; eapply mag10_weak; [exact E2|lia]|].
  eapply ap_weak; [exact Hw2|unfold Kmom; lra|unfold Kmom; lra|unfold mom_mag; fold n0 n1 n2; lra].
Qed.

End Pair.
