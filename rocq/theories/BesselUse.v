(** * The routine for the Bessel functions with the table of the library *)

From Coq Require Import ZArith List Bool Lia Reals Lra Factorial.
From Coquelicot Require Import Coquelicot.
From Verif Require Import Base OneElProofs Sums SpecModel SpecExp SpecSpec BesselProofs BesselAsym BesselThms SpecBoys BoysThms BesselOrders BesselRow BesselRows1 BesselData BesselCert BesselTabAcc BesselTabThm.
Import ListNotations.
Open Scope R_scope.

Theorem bessel_table_thm : forall i l, (0 <= i < 1601)%Z -> (0 <= l < 60)%Z ->
  exists v, aget bessel_table_0 [i; l] = Ok v /\ Rabs (v - bessK (Z.to_nat l) (IZR i / 100)) <= 2 / 10 ^ 14.
Proof. intros i l Hi Hl. rewrite (table_holds i l Hi Hl). eexists. split; [reflexivity|]. apply table_accurate; lia. Qed.

Theorem bessel_own_thm : exists tab, pretabulate_bessel bessel_table_0 bessel_table_init = Ok tab /\
  (forall n x, (0 <= n <= 51)%Z -> 0 <= x <= 16 -> exists v, modified_bessel_scaled tab n x = Ok v /\ Rabs (v - bessK (Z.to_nat n) x) <= 103 / 10 ^ 14) /\
  (forall n x, (0 <= n <= 20)%Z -> 0 <= x -> exists v, modified_bessel_scaled tab n x = Ok v /\ Rabs (v - bessK (Z.to_nat n) x) <= 501 / 10 ^ 13).
Proof.
  destruct (pretabulate_ok _ _ table_holds) as (tab & E & _). exists tab. split; [exact E|]. split; intros n x Hn Hx.
  - destruct (bessel_lookup _ _ _ tab table_holds table_accurate E n x Hn Hx) as (v & Ev & B). exists v. split; [exact Ev|]. lra.
  - destruct (bessel_all _ _ _ tab table_holds table_accurate E n x Hn Hx) as (v & Ev & B). exists v. split; [exact Ev|]. lra.
Qed.

(** ** The digits of one entry *)
Lemma exp_056 : Rabs (exp (- (56 / 100)) - 571209063848814886 / 10 ^ 18) <= 1 / 10 ^ 18.
Proof.
  pose proof (erem_abs 17 (- (56 / 100))) as H. assert (X1 : exp (- (56 / 100)) <= 1) by (rewrite <- exp_0; apply exp_le; lra). rewrite Rmax_left in H by exact X1. rewrite Rabs_Ropp, (Rabs_pos_eq (56 / 100)) in H by lra.
  unfold erem in H. cbn [rsum] in H. rewrite !eterm_S, !eterm_0, !INR_IZR_INZ in H. cbn [Z.of_nat Pos.of_succ_nat Pos.succ] in H. apply Rabs_le_between in H. apply Rabs_le. lra.
Qed.

Lemma K2_at : Rabs (bessK 2 (28 / 100) - 39723992074469801 / 10 ^ 19) <= 2 / 10 ^ 16.
Proof.
  rewrite bessK_closed by lra. pose proof exp_056 as H. replace (2 * (28 / 100)) with (56 / 100) by field.
  rewrite !rfun_rec, !rfun_1, !rfun_0 by lra. change (INR 0) with 0. set (w := exp (- (56 / 100))) in *. clearbody w. apply Rabs_le_between in H. apply Rabs_le. cbn [pow].
  match goal with |- _ <= ?a - _ <= _ => replace a with ((1 - 75 / 7 + 1875 / 49 - (1 + 75 / 7 + 1875 / 49) * w) * (25 / 14)) by field end. split; lra.
Qed.

Theorem bessel_digits_thm : exists v, aget bessel_table_0 [28; 2]%Z = Ok v /\ 0 < bessK 2 (28 / 100) /\ 1 / 10 ^ 12 * bessK 2 (28 / 100) < Rabs (v - bessK 2 (28 / 100)).
Proof.
  rewrite (table_holds 28%Z 2%Z ltac:(lia) ltac:(lia)). eexists. split; [reflexivity|]. pose proof K2_at as H. apply Rabs_le_between in H.
  assert (E : bessel_entry 28%Z (Z.to_nat 2) = 39723992074418082 / 10 ^ 19).
  { unfold bessel_entry. change (Z.to_nat 28) with 28%nat. fold (brw 28). rewrite brw_1 by lia. change (nth 28 bessel_rows_1 bnil) with r28. change (bnth r28 (Z.to_nat 2)) with (39723992074418082, 19)%Z. reflexivity. }
  rewrite E. split; [lra|]. rewrite Rabs_minus_sym. eapply Rlt_le_trans; [|apply Rle_abs]. lra.
Qed.
