(** * The tabulated Bessel functions are accurate to 2e-14, and what follows *)

From Coq Require Import ZArith List Bool Lia Reals Lra Factorial.
From Coquelicot Require Import Coquelicot.
From Verif Require Import Base OneElProofs Sums SpecModel SpecExp SpecSpec BesselProofs BesselAsym BesselThms SpecBoys BoysThms BesselOrders BesselRow BesselRows1 BesselData BesselCert BesselTabAcc.
Import ListNotations.
Open Scope R_scope.

(** ** exp (-1/50) *)
Lemma qexp_ok : Rabs (IZR qexp / 10 ^ 18 - exp (- (1 / 50))) <= 1 / 10 ^ 18 /\ exp (- (1 / 50)) <= 9802 / 10000.
Proof.
  pose proof (erem_abs 9 (- (1 / 50))) as H. assert (X1 : exp (- (1 / 50)) <= 1) by (rewrite <- exp_0 at 2; apply exp_le; lra). rewrite Rmax_left in H by exact X1. rewrite Rabs_Ropp, (Rabs_pos_eq (1 / 50)) in H by lra.
  unfold erem in H. cbn [rsum] in H. unfold eterm in H. rewrite (fact_simpl 8), mult_INR in H. rewrite !INR_IZR_INZ in H.
  replace (Z.of_nat (fact 0)) with 1%Z in H by reflexivity. replace (Z.of_nat (fact 1)) with 1%Z in H by reflexivity. replace (Z.of_nat (fact 2)) with 2%Z in H by reflexivity. replace (Z.of_nat (fact 3)) with 6%Z in H by reflexivity.
  replace (Z.of_nat (fact 4)) with 24%Z in H by reflexivity. replace (Z.of_nat (fact 5)) with 120%Z in H by reflexivity. replace (Z.of_nat (fact 6)) with 720%Z in H by reflexivity. replace (Z.of_nat (fact 7)) with 5040%Z in H by reflexivity. replace (Z.of_nat (fact 8)) with 40320%Z in H by (vm_compute; reflexivity).
  change (Z.of_nat 9) with 9%Z in H. cbn [pow] in H. apply Rabs_le_between in H. unfold qexp. split; [apply Rabs_le; split|]; lra.
Qed.

(** ** K_0 *)
Definition werr (i : nat) : R := IZR (wv i) / (50 * 10 ^ 34) - exp (- (INR i / 50)).

Lemma wv_0 : wv 0 = (50 * 10 ^ 34)%Z.
Proof. unfold wv, wval. change (Z.of_nat 0) with 0%Z. rewrite Z.mul_0_l. apply Z.sub_0_r. Qed.

Lemma werr_step i : (i < 1600)%nat -> Rabs (werr i) <= 1 -> Rabs (werr (S i)) <= 9802 / 10000 * Rabs (werr i) + 362 / 10 ^ 18.
Proof.
  intros Hi H1. destruct (all_rows i Hi) as (_ & B). apply IZR_le in B. rewrite abs_IZR, minus_IZR, !mult_IZR in B.
  change (IZR (10 ^ 18)) with (IZR (10 ^ Z.of_nat 18)) in B. change (IZR (10 ^ 37)) with (IZR (10 ^ Z.of_nat 37)) in B. rewrite <- !pow_IZR in B.
  destruct qexp_ok as (Q1 & Q2). assert (Q0 := exp_pos (- (1 / 50))). set (q := exp (- (1 / 50))) in *. set (Q := IZR qexp) in *. 
  assert (E : exp (- (INR (S i) / 50)) = q * exp (- (INR i / 50))) by (unfold q; rewrite <- exp_plus; f_equal; rewrite S_INR; field).
  assert (E1 : exp (- (INR i / 50)) <= 1) by (rewrite <- exp_0; apply exp_le; pose proof (pos_INR i); lra). assert (E0 := exp_pos (- (INR i / 50))).
  unfold werr in *. rewrite E. set (X := exp (- (INR i / 50))) in *. set (a := IZR (wv (S i))) in *. set (b := IZR (wv i)) in *.
  set (W := b / (50 * 10 ^ 34)) in *.
  replace (a / (50 * 10 ^ 34) - q * X) with ((a * 10 ^ 18 - Q * b) * / (50 * 10 ^ 34 * 10 ^ 18) + (Q / 10 ^ 18 - q) * W + q * (W - X)) by (unfold W; field).
  eapply Rle_trans; [apply Rabs_triang|]. apply Rle_trans with ((362 / 10 ^ 18) + 9802 / 10000 * Rabs (W - X)); [|lra]. apply Rplus_le_compat.
  - eapply Rle_trans; [apply Rabs_triang|]. rewrite !Rabs_mult. rewrite (Rabs_pos_eq (/ _)) by (left; apply Rinv_0_lt_compat; repeat apply Rmult_lt_0_compat; try lra).
    assert (W2 : Rabs W <= 2) by (replace W with ((W - X) + X) by ring; eapply Rle_trans; [apply Rabs_triang|]; rewrite (Rabs_pos_eq X) by lra; lra).
    apply Rle_trans with (18 * 10 ^ 37 * / (50 * 10 ^ 34 * 10 ^ 18) + 1 / 10 ^ 18 * 2); [|lra]. apply Rplus_le_compat.
    + apply Rmult_le_compat_r; [left; apply Rinv_0_lt_compat; lra|exact B].
    + apply Rmult_le_compat; try apply Rabs_pos; assumption.
  - rewrite Rabs_mult. apply Rmult_le_compat_r; [apply Rabs_pos|]. rewrite Rabs_pos_eq; lra.
Qed.

Lemma werr_bound i : (i <= 1600)%nat -> Rabs (werr i) <= 362 / 10 ^ 18 * INR i /\ Rabs (werr i) <= 362 / 10 ^ 18 * 51.
Proof.
  induction i as [|i IH]; intros Hi.
  - unfold werr. rewrite wv_0, mult_IZR. change (IZR (10 ^ 34)) with (IZR (10 ^ Z.of_nat 34)). rewrite <- pow_IZR. change (INR 0) with 0. replace (- (0 / 50)) with 0 by field. rewrite exp_0.
    replace (50 * 10 ^ 34 / (50 * 10 ^ 34) - 1) with 0 by field. rewrite Rabs_R0. lra.
  - destruct (IH ltac:(lia)) as (A & B). pose proof (werr_step i ltac:(lia) ltac:(lra)) as C. rewrite S_INR. pose proof (Rabs_pos (werr i)). lra.
Qed.

Lemma e0_bound i : (1 <= i <= 1600)%nat ->
  Rabs (tv (brw i) 0 - bessK 0 (INR i / 100)) <= 181 / 10 ^ 16 /\ INR i / 100 * Rabs (tv (brw i) 0 - bessK 0 (INR i / 100)) <= 93 / 10 ^ 16.
Proof.
  intros Hi. destruct (werr_bound i ltac:(lia)) as (A & B). pose proof (bessK_0 (INR i / 100)) as K. assert (Pi : 1 <= INR i) by (apply (le_INR 1); lia).
  replace (2 * (INR i / 100)) with (INR i / 50) in K by field.
  assert (E : INR i / 50 * (tv (brw i) 0 - bessK 0 (INR i / 100)) = - werr i).
  { rewrite Rmult_minus_distr_l, K. unfold werr, wv, wval, tv, zv. rewrite minus_IZR, !mult_IZR. change (IZR (10 ^ 34)) with (IZR (10 ^ Z.of_nat 34)). rewrite <- pow_IZR, <- INR_IZR_INZ. field. }
  apply (f_equal Rabs) in E. rewrite Rabs_mult, Rabs_Ropp, (Rabs_pos_eq (INR i / 50)) in E by lra. set (e := Rabs (tv _ _ - _)) in *.
  split; [|lra]. apply Rmult_le_reg_l with (INR i / 50); [lra|]. rewrite E. lra.
Qed.

(** ** K_59 *)
Fixpoint oddprod (n : nat) : Z := match n with O => 1 | S n => (2 * Z.of_nat n + 3) * oddprod n end.

Lemma bessK_small n x : 0 <= x <= 16 -> bessK n x * IZR (oddprod n) <= 16 ^ n.
Proof.
  intros Hx. induction n as [|n IH]; [cbn [oddprod pow]; pose proof (bessK_bounds 0 x ltac:(lra)); lra|].
  cbn [oddprod]. rewrite mult_IZR, plus_IZR, mult_IZR, <- INR_IZR_INZ. pose proof (bessK_rec n x) as R. pose proof (bessK_bounds (S (S n)) x ltac:(lra)) as B2. pose proof (bessK_bounds n x ltac:(lra)) as B0. pose proof (pos_INR n) as Pn.
  assert (P0 : 0 <= IZR (oddprod n)). { apply IZR_le. clear. induction n as [|n IH]; cbn [oddprod]; [lia|]. apply Z.mul_nonneg_nonneg; lia. }
  replace (bessK (S n) x * ((2 * INR n + 3) * IZR (oddprod n))) with ((2 * INR n + 3) * bessK (S n) x * IZR (oddprod n)) by ring. rewrite <- R. cbn [pow].
  apply Rle_trans with (16 * bessK n x * IZR (oddprod n)); [|rewrite Rmult_assoc; apply Rmult_le_compat_l; [lra|exact IH]]. apply Rmult_le_compat_r; [exact P0|].
  apply Rmult_le_compat; lra || (assert (Hd : 0 <= bessK n x - bessK (S (S n)) x) by (pose proof (bessK_decr n x ltac:(lra)); pose proof (bessK_decr (S n) x ltac:(lra)); lra); lra).
Qed.

Lemma bessK_59 x : 0 <= x <= 16 -> 0 <= bessK 59 x <= 1 / 10 ^ 20.
Proof.
  intros Hx. split; [apply bessK_nonneg; lra|]. pose proof (bessK_small 59 x Hx) as H.
  assert (C : (16 ^ 59 * 10 ^ 20 <= oddprod 59)%Z) by (vm_compute; discriminate). apply IZR_le in C. rewrite mult_IZR in C.
  change (IZR (16 ^ 59)) with (IZR (16 ^ Z.of_nat 59)) in C. change (IZR (10 ^ 20)) with (IZR (10 ^ Z.of_nat 20)) in C. rewrite <- !pow_IZR in C.
  set (O := IZR (oddprod 59)) in *. assert (P : 0 < 16 ^ 59) by (apply pow_lt; lra). set (S16 := 16 ^ 59) in *. clearbody S16 O.
  assert (OP : 0 < O) by (eapply Rlt_le_trans; [|exact C]; apply Rmult_lt_0_compat; [exact P|apply pow_lt; lra]).
  apply Rmult_le_reg_r with O; [exact OP|]. eapply Rle_trans; [exact H|]. replace S16 with (1 / 10 ^ 20 * (S16 * 10 ^ 20)) by field. apply Rmult_le_compat_l; [lra|exact C].
Qed.

(** ** The table *)
Lemma row_accuracy i l : (1 <= i <= 1600)%nat -> (l < 60)%nat -> Rabs (bessel_entry (Z.of_nat i) l - bessK l (INR i / 100)) <= 2 / 10 ^ 14.
Proof.
  intros Hi Hl. destruct i as [|i]; [lia|]. destruct (all_rows i ltac:(lia)) as (A & _). destruct (row_facts _ _ A) as (_ & T59 & C & P). rewrite <- INR_IZR_INZ in P.
  destruct (e0_bound (S i) ltac:(lia)) as (E0 & X0). set (r := brw (S i)) in *. set (x := INR (S i) / 100) in *.
  assert (Hx : 0 <= x <= 16). { unfold x. pose proof (pos_INR (S i)). assert (INR (S i) <= 1600) by (rewrite INR_IZR_INZ; apply IZR_le; lia). lra. }
  unfold bessel_entry. rewrite Nat2Z.id. change (nth (S i) bessel_rows bnil) with r. specialize (C l Hl).
  pose proof (bessK_59 x Hx) as K59.
  assert (M : Rabs (tv r l - bessK l x) <= 181 / 10 ^ 16).
  { destruct (Nat.eq_dec l 0) as [-> |N0]; [exact E0|]. destruct (Nat.eq_dec l 59) as [-> |N59]; [rewrite T59; apply Rabs_le; lra|].
    pose proof (energy x (fun k => tv r k - bessK k x) 58 (36 / 10 ^ 15) (Rabs (tv r 0 - bessK 0 x)) (1 / 10 ^ 20) ltac:(lra) ltac:(cbv beta; apply Rle_refl)) as G. cbv beta in G. rewrite T59 in G.
    assert (G1 : Rabs (0 - bessK 59 x) <= 1 / 10 ^ 20) by (apply Rabs_le; lra). specialize (G G1).
    assert (G2 : rsum 58 (fun j => Rabs (x * (tv r j - bessK j x - (tv r (S (S j)) - bessK (S (S j)) x)) - (2 * INR j + 3) * (tv r (S j) - bessK (S j) x))) <= 36 / 10 ^ 15).
    { eapply Rle_trans; [|exact P]. right. apply rsum_ext. intros j _. f_equal. pose proof (bessK_rec j x) as R. replace (x * (tv r j - bessK j x - (tv r (S (S j)) - bessK (S (S j)) x)) - (2 * INR j + 3) * (tv r (S j) - bessK (S j) x)) with (x * (tv r j - tv r (S (S j))) - x * (bessK j x - bessK (S (S j)) x) - (2 * INR j + 3) * tv r (S j) + (2 * INR j + 3) * bessK (S j) x) by ring. rewrite R. ring. }
    specialize (G G2 l ltac:(lia)). lra. }
  replace (lit (bnth r l) - bessK l x) with ((lit (bnth r l) - tv r l) + (tv r l - bessK l x)) by ring. eapply Rle_trans; [apply Rabs_triang|]. lra.
Qed.

Lemma row_0 l : (l < 60)%nat -> bessel_entry 0 l = bessK l 0.
Proof.
  intros Hl. pose proof cert_0 as H. unfold head_ok in H. unfold bessel_entry. change (Z.to_nat 0) with O. fold (brw 0). rewrite brw_1 by lia.
  destruct bessel_rows_1 as [|r t]; [discriminate|]. cbn [nth]. rewrite !andb_true_iff, !Z.eqb_eq in H. destruct H as ((A & A') & B). rewrite forallb_forall in B.
  destruct l as [|l].
  - rewrite bessK_0_at_0. unfold lit. rewrite A, A'. change (IZR (10 ^ 16)) with (IZR (10 ^ Z.of_nat 16)). rewrite <- pow_IZR. change (Z.to_nat 16) with 16%nat. field.
  - rewrite bessK_at_0. specialize (B (S l)). rewrite Z.eqb_eq in B. unfold lit. rewrite B by (apply in_seq; lia). unfold Rdiv. ring.
Qed.

Theorem table_holds : holds_table0 bessel_table_0 bessel_entry.
Proof. intros i l Hi Hl. unfold aget, bessel_table_0. cbn [adims acell]. replace (inb _ _) with true by (symmetry; apply inb2; lia). reflexivity. Qed.

Theorem table_accurate : accurate_table0 bessel_entry (2 / 10 ^ 14).
Proof.
  intros i l Hi Hl. destruct (Z.eq_dec i 0) as [-> |N].
  - rewrite row_0 by exact Hl. unfold Rdiv at 1. rewrite Rmult_0_l. unfold Rminus. rewrite Rplus_opp_r, Rabs_R0. lra.
  - replace i with (Z.of_nat (Z.to_nat i)) by lia. rewrite <- INR_IZR_INZ. apply row_accuracy; lia.
Qed.
