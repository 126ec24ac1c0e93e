(** * The accuracy of the table of Bessel functions

    The errors e_l of a row satisfy the three-term recurrence of the functions up to
    the residues of the tabulated values.  Multiplied by e_l and summed, the
    off-diagonal terms telescope, which bounds the largest error. *)

From Coq Require Import ZArith List Bool Lia Reals Lra.
From Coquelicot Require Import Coquelicot.
From Verif Require Import Base OneElProofs Sums SpecModel SpecExp SpecSpec BesselProofs BesselAsym BesselThms BesselRow BesselRows1 BesselRows2 BesselRows3 BesselRows4 BesselData BesselCert.
Import ListNotations.
Open Scope R_scope.

(** ** The argument for one row *)

Lemma finite_max (f : nat -> R) n : exists k, (k <= n)%nat /\ forall j, (j <= n)%nat -> f j <= f k.
Proof.
  induction n as [|n (k & Hk & H)].
  - exists O. split; [lia|]. intros j Hj. replace j with O by lia. lra.
  - destruct (Rle_dec (f k) (f (S n))) as [L|L].
    + exists (S n). split; [lia|]. intros j Hj. destruct (Nat.eq_dec j (S n)) as [-> |N]; [lra|]. specialize (H j ltac:(lia)). lra.
    + exists k. split; [lia|]. intros j Hj. destruct (Nat.eq_dec j (S n)) as [-> |N]; [lra|]. apply H. lia.
Qed.

Lemma telescope x (e : nat -> R) n :
  rsum n (fun j => (2 * INR j + 3) * e (S j) ^ 2 + (x * (e j - e (S (S j))) - (2 * INR j + 3) * e (S j)) * e (S j)) = x * (e 0%nat * e 1%nat - e n * e (S n)).
Proof. induction n as [|n IH]; cbn [rsum]; [ring|]. rewrite IH. ring. Qed.

Lemma rsum_nonneg n f : (forall k, (k < n)%nat -> 0 <= f k) -> 0 <= rsum n f.
Proof. induction n as [|n IH]; intros H; cbn [rsum]; [lra|]. specialize (IH ltac:(intros; apply H; lia)). specialize (H n ltac:(lia)). lra. Qed.
Lemma rsum_one n f k : (forall k, (k < n)%nat -> 0 <= f k) -> (k < n)%nat -> f k <= rsum n f.
Proof.
  induction n as [|n IH]; intros H Hk; [lia|]. cbn [rsum]. destruct (Nat.eq_dec k n) as [-> |N].
  - pose proof (rsum_nonneg n f ltac:(intros; apply H; lia)). lra.
  - specialize (IH ltac:(intros; apply H; lia) ltac:(lia)). specialize (H n ltac:(lia)). lra.
Qed.
Lemma rsum_le n f g : (forall k, (k < n)%nat -> f k <= g k) -> rsum n f <= rsum n g.
Proof. induction n as [|n IH]; intros H; cbn [rsum]; [lra|]. specialize (IH ltac:(intros; apply H; lia)). specialize (H n ltac:(lia)). lra. Qed.
Lemma rsum_split n f g : rsum n (fun k => f k + g k) = rsum n f + rsum n g.
Proof. induction n as [|n IH]; cbn [rsum]; [ring|]. rewrite IH. ring. Qed.
Lemma rsum_factor n f c : rsum n (fun k => f k * c) = rsum n f * c.
Proof. induction n as [|n IH]; cbn [rsum]; [ring|]. rewrite IH. ring. Qed.

(** the largest of the inner errors is at most a third of the residues and the two boundary errors *)
Lemma energy x (e : nat -> R) n P e0 en : 0 <= x -> Rabs (e 0%nat) <= e0 -> Rabs (e (S n)) <= en ->
  rsum n (fun j => Rabs (x * (e j - e (S (S j))) - (2 * INR j + 3) * e (S j))) <= P ->
  forall l, (1 <= l <= n)%nat -> 3 * Rabs (e l) <= P + x * e0 + x * en.
Proof.
  intros Hx H0 Hn HP l Hl. destruct n as [|n]; [lia|].
  destruct (finite_max (fun j => Rabs (e (S j))) n) as (k & Hk & Hm). cbv beta in Hm. set (M := Rabs (e (S k))) in *.
  assert (Hl' : Rabs (e l) <= M) by (replace l with (S (l - 1)) by lia; apply Hm; lia).
  assert (M0 : 0 <= M) by apply Rabs_pos.
  apply Rle_trans with (3 * M); [lra|]. destruct (Req_dec M 0) as [Z|NZ].
  { rewrite Z. pose proof (Rabs_pos (e 0%nat)). pose proof (Rabs_pos (e (S (S n)))).
    assert (0 <= P) by (eapply Rle_trans; [|exact HP]; apply rsum_nonneg; intros; apply Rabs_pos).
    assert (0 <= x * e0) by (apply Rmult_le_pos; lra). assert (0 <= x * en) by (apply Rmult_le_pos; lra). lra. }
  assert (Mp : 0 < M) by lra. apply Rmult_le_reg_r with M; [exact Mp|].
  pose proof (telescope x e (S n)) as T. rewrite (rsum_split (S n) (fun j => (2 * INR j + 3) * e (S j) ^ 2)) in T.
  assert (A : 3 * M * M <= rsum (S n) (fun j => (2 * INR j + 3) * e (S j) ^ 2)).
  { eapply Rle_trans; [|apply (rsum_one (S n) (fun j => (2 * INR j + 3) * e (S j) ^ 2) k)].
    - cbv beta. rewrite <- (pow2_abs (e (S k))). fold M. pose proof (pos_INR k). replace (3 * M * M) with (3 * M ^ 2) by ring. apply Rmult_le_compat_r; [apply pow2_ge_0|lra].
    - intros j _. pose proof (pos_INR j). apply Rmult_le_pos; [lra|apply pow2_ge_0].
    - lia. }
  assert (B : - rsum (S n) (fun j => (x * (e j - e (S (S j))) - (2 * INR j + 3) * e (S j)) * e (S j)) <= P * M).
  { apply Rle_trans with (rsum (S n) (fun j => Rabs (x * (e j - e (S (S j))) - (2 * INR j + 3) * e (S j)) * M)).
    - replace (- rsum (S n) _) with (rsum (S n) (fun j => (x * (e j - e (S (S j))) - (2 * INR j + 3) * e (S j)) * e (S j) * -1)) by (rewrite rsum_factor; ring).
      apply rsum_le. intros j Hj. eapply Rle_trans; [apply Rle_abs|]. rewrite Rabs_mult, (Rabs_left (-1)) by lra. replace (- -1) with 1 by lra. rewrite Rmult_1_r, Rabs_mult. apply Rmult_le_compat_l; [apply Rabs_pos|]. apply Hm. lia.
    - rewrite rsum_factor. apply Rmult_le_compat_r; assumption. }
  assert (C : x * (e 0%nat * e 1%nat - e (S n) * e (S (S n))) <= (x * e0 + x * en) * M).
  { replace ((x * e0 + x * en) * M) with (x * (e0 * M + M * en)) by ring. apply Rmult_le_compat_l; [exact Hx|].
    eapply Rle_trans; [apply Rle_abs|]. eapply Rle_trans; [apply Rabs_triang|]. rewrite Rabs_Ropp, !Rabs_mult.
    apply Rplus_le_compat; apply Rmult_le_compat; try apply Rabs_pos; try assumption; apply Hm; lia. }
  lra.
Qed.

(** ** Literals *)

Lemma pows_ok k : (k < 41)%nat -> nth k pows 0%Z = (10 ^ Z.of_nat k)%Z.
Proof.
  intros Hk. do 41 (destruct k as [|k]; [reflexivity|]). lia.
Qed.

Lemma dec_close m e : lit_ok m e = true -> Rabs (lit (m, e) - IZR (dec m e) / 10 ^ 34) <= 1 / 10 ^ 18.
Proof.
  intros H. unfold lit_ok in H. rewrite !andb_true_iff, !Z.leb_le, Z.ltb_lt in H. destruct H as ((He & Hm) & Hb).
  unfold lit, dec. cbn [fst snd]. destruct (Z.ltb_spec 34 e) as [L|L].
  - unfold Rdiv at 2. rewrite Rmult_0_l, Rminus_0_r. apply IZR_le in Hm. apply IZR_lt in Hb.
    assert (P : 0 < 10 ^ Z.to_nat e) by (apply pow_lt; lra). rewrite Rabs_pos_eq by (apply Rmult_le_pos; [exact Hm|left; apply Rinv_0_lt_compat, P]).
    apply Rle_trans with (10 ^ 17 * / 10 ^ 35); [|lra]. apply Rmult_le_compat; [exact Hm|left; apply Rinv_0_lt_compat, P|lra|].
    apply Rinv_le_contravar; [apply pow_lt; lra|]. apply Rle_pow; [lra|lia].
  - rewrite pows_ok by lia. rewrite mult_IZR, <- pow_IZR. 
    replace (IZR m / 10 ^ Z.to_nat e - 10 ^ Z.to_nat (34 - e) * IZR m / 10 ^ 34) with 0; [rewrite Rabs_R0; lra|].
    replace (10 ^ 34) with (10 ^ Z.to_nat e * 10 ^ Z.to_nat (34 - e)) by (rewrite <- pow_add; f_equal; lia). field. split; apply pow_nonzero; lra.
Qed.

Lemma row_ok_nth r : row_ok r = true -> forall l, (l < blen r)%nat -> lit_ok (fst (bnth r l)) (snd (bnth r l)) = true.
Proof.
  induction r as [|m e r IH]; intros H l Hl; cbn [blen] in Hl; [lia|]. cbn [row_ok] in H. apply andb_true_iff in H. destruct H as (A & B).
  destruct l as [|l]; [exact A|]. cbn [bnth]. apply IH; [exact B|lia].
Qed.

(** the values of a row in units of 10^(-34) *)
Definition zv (r : brow) (l : nat) : Z := dec (fst (bnth r l)) (snd (bnth r l)).

Lemma residue_sum r : forall i k a b s, IZR (residue i k a b r s) =
  IZR s + rsum (blen r) (fun j => Rabs (IZR i * (IZR (match j with O => a | S O => b | S (S j) => zv r j end) - IZR (zv r j)) - (IZR k + 200 * INR j) * IZR (match j with O => b | S j => zv r j end))).
Proof.
  induction r as [|m e r IH]; intros i k a b s; [cbn [residue blen rsum]; ring|]. cbn [residue blen]. rewrite rsum_S_left.
  rewrite IH, plus_IZR, abs_IZR, minus_IZR, !mult_IZR, minus_IZR, Rplus_assoc. f_equal. f_equal.
  - f_equal. change (INR 0) with 0. change (zv (bcons m e r) 0) with (dec m e). ring.
  - apply rsum_ext. intros j Hj. rewrite S_INR, plus_IZR. change (zv (bcons m e r) (S j)) with (zv r j).
    f_equal. destruct j as [|[|j]].
    + change (zv (bcons m e r) 0) with (dec m e). change (INR 0) with 0. ring.
    + change (zv (bcons m e r) 0) with (dec m e). change (zv (bcons m e r) 1) with (zv r 0). ring.
    + change (zv (bcons m e r) (S j)) with (zv r j). change (zv (bcons m e r) (S (S j))) with (zv r (S j)). ring.
Qed.

(** the tabulated values, cut off *)
Definition tv (r : brow) (l : nat) : R := IZR (zv r l) / 10 ^ 34.

Lemma row_facts i r : row_check i r = true ->
  blen r = 60%nat /\ tv r 59 = 0 /\ (forall l, (l < 60)%nat -> Rabs (lit (bnth r l) - tv r l) <= 1 / 10 ^ 18) /\
  rsum 58 (fun j => Rabs (IZR i / 100 * (tv r j - tv r (S (S j))) - (2 * INR j + 3) * tv r (S j))) <= 36 / 10 ^ 15.
Proof.
  unfold row_check. rewrite !andb_true_iff, Nat.eqb_eq, Z.eqb_eq. intros (((A & B) & Z0) & C). split; [exact B|]. split; [unfold tv, zv; rewrite Z0; unfold Rdiv; ring|]. clear Z0. split.
  - intros l Hl. pose proof (dec_close _ _ (row_ok_nth r A l ltac:(lia))) as D. rewrite <- surjective_pairing in D. exact D.
  - destruct r as [|m e [|m' e' r]]; try discriminate. apply Z.leb_le, IZR_le in C. rewrite residue_sum in C. cbn [blen] in B. injection B as B. rewrite B in C.
    assert (E : rsum 58 (fun j => Rabs (IZR i / 100 * (tv (bcons m e (bcons m' e' r)) j - tv (bcons m e (bcons m' e' r)) (S (S j))) - (2 * INR j + 3) * tv (bcons m e (bcons m' e' r)) (S j))) =
      rsum 58 (fun j => Rabs (IZR i * (IZR (match j with O => dec m e | S O => dec m' e' | S (S j) => zv r j end) - IZR (zv r j)) - (300 + 200 * INR j) * IZR (match j with O => dec m' e' | S j => zv r j end))) * / 10 ^ 36).
    { rewrite <- rsum_factor. apply rsum_ext. intros j _. rewrite <- (Rabs_pos_eq (/ 10 ^ 36)) at 1 by (left; apply Rinv_0_lt_compat, pow_lt; lra). rewrite <- Rabs_mult. f_equal. unfold tv.
      assert (V : forall q, zv (bcons m e (bcons m' e' r)) (S (S q)) = zv r q) by reflexivity. rewrite V.
      assert (V0 : zv (bcons m e (bcons m' e' r)) j = match j with O => dec m e | S O => dec m' e' | S (S j) => zv r j end) by (destruct j as [|[|j]]; reflexivity).
      assert (V1 : zv (bcons m e (bcons m' e' r)) (S j) = match j with O => dec m' e' | S j => zv r j end) by (destruct j as [|j]; reflexivity).
      rewrite V0, V1. set (a := IZR (match j with O => dec m e | _ => _ end)). set (b := IZR (match j with O => dec m' e' | _ => _ end)). generalize (IZR (zv r j)). clearbody a b. intros c. 
      replace (10 ^ 36) with (100 * 10 ^ 34) by (cbn [pow]; ring). generalize (pow_lt 10 34 ltac:(lra)). generalize (10 ^ 34). intros W HW. field. lra. }
    rewrite E. apply Rle_trans with (36 * 10 ^ 21 * / 10 ^ 36); [|lra]. apply Rmult_le_compat_r; [left; apply Rinv_0_lt_compat, pow_lt; lra|].
    rewrite Rplus_0_l in C. rewrite mult_IZR in C. change (IZR (10 ^ 21)) with (IZR (10 ^ Z.of_nat 21)) in C. rewrite <- pow_IZR in C. exact C.
Qed.

(** ** All rows *)

Lemma rows_facts t : forall i w, rows_check i w t = true -> forall j, (j < length t)%nat ->
  row_check (i + Z.of_nat j) (nth j t bnil) = true /\
  (Z.abs (wval (i + Z.of_nat j) (nth j t bnil) * 10 ^ 18 - qexp * match j with O => w | S j' => wval (i + Z.of_nat j') (nth j' t bnil) end) <= 18 * 10 ^ 37)%Z.
Proof.
  induction t as [|r t IH]; intros i w H j Hj; cbn [length] in Hj; [lia|]. cbn [rows_check] in H. rewrite !andb_true_iff, Z.leb_le in H. destruct H as ((A & B) & C).
  destruct j as [|j]; [change (Z.of_nat 0) with 0%Z; rewrite Z.add_0_r; split; assumption|].
  destruct (IH _ _ C j ltac:(lia)) as (U & V). cbn [nth]. replace (i + Z.of_nat (S j))%Z with (i + 1 + Z.of_nat j)%Z by lia. split; [exact U|].
  destruct j as [|j]; [change (Z.of_nat 0) with 0%Z; rewrite (Z.add_0_r i); exact V|]. replace (i + Z.of_nat (S j))%Z with (i + 1 + Z.of_nat j)%Z by lia. exact V.
Qed.

Lemma last_nth_row (t : list brow) n : length t = S n -> last t bnil = nth n t bnil.
Proof.
  revert n. induction t as [|r t IH]; intros n H; cbn [length] in H; [lia|]. injection H as H. destruct t as [|r' t]; [cbn [length] in H; subst n; reflexivity|].
  destruct n as [|n]; [cbn [length] in H; lia|]. change (last (r :: r' :: t) bnil) with (last (r' :: t) bnil). rewrite (IH n) by exact H. reflexivity.
Qed.

Definition brw (i : nat) : brow := nth i bessel_rows bnil.

Lemma brw_1 i : (i < 400)%nat -> brw i = nth i bessel_rows_1 bnil.
Proof. intros H. unfold brw, bessel_rows. apply app_nth1. destruct lengths as (-> & _). exact H. Qed.
Lemma brw_2 j : (j < 400)%nat -> brw (400 + j) = nth j bessel_rows_2 bnil.
Proof. intros H. unfold brw, bessel_rows. destruct lengths as (L1 & L2 & L3 & L4). rewrite app_nth2, L1 by lia. rewrite app_nth1 by lia. f_equal. lia. Qed.
Lemma brw_3 j : (j < 400)%nat -> brw (800 + j) = nth j bessel_rows_3 bnil.
Proof. intros H. unfold brw, bessel_rows. destruct lengths as (L1 & L2 & L3 & L4). rewrite app_nth2, L1 by lia. rewrite app_nth2, L2 by lia. rewrite app_nth1 by lia. f_equal. lia. Qed.
Lemma brw_4 j : (j < 401)%nat -> brw (1200 + j) = nth j bessel_rows_4 bnil.
Proof. intros H. unfold brw, bessel_rows. destruct lengths as (L1 & L2 & L3 & L4). rewrite app_nth2, L1 by lia. rewrite app_nth2, L2 by lia. rewrite app_nth2, L3 by lia. f_equal. lia. Qed.

Definition wv (i : nat) : Z := wval (Z.of_nat i) (brw i).

Lemma all_rows i : (i < 1600)%nat -> row_check (Z.of_nat (S i)) (brw (S i)) = true /\ (Z.abs (wv (S i) * 10 ^ 18 - qexp * wv i) <= 18 * 10 ^ 37)%Z.
Proof.
  intros H. unfold wv. destruct lengths as (L1 & L2 & L3 & L4).
  destruct (le_lt_dec 1199 i) as [G4|G4]; [|destruct (le_lt_dec 799 i) as [G3|G3]; [|destruct (le_lt_dec 399 i) as [G2|G2]]].
  - destruct (rows_facts _ _ _ cert_4 (i - 1199) ltac:(lia)) as (U & V). rewrite <- !brw_4 in U, V by lia. replace (1200 + (i - 1199))%nat with (S i) in * by lia. replace (1200 + Z.of_nat (i - 1199))%Z with (Z.of_nat (S i)) in * by lia. split; [exact U|].
    destruct (i - 1199)%nat as [|d] eqn:E.
    + replace i with (1199)%nat in * by lia. unfold wlast in V. rewrite (last_nth_row _ 399 L3) in V. rewrite <- (brw_3 399) in V by lia. exact V.
    + rewrite <- brw_4 in V by lia. replace (1200 + d)%nat with i in V by lia. replace (1200 + Z.of_nat d)%Z with (Z.of_nat i) in V by lia. exact V.
  - destruct (rows_facts _ _ _ cert_3 (i - 799) ltac:(lia)) as (U & V). rewrite <- !brw_3 in U, V by lia. replace (800 + (i - 799))%nat with (S i) in * by lia. replace (800 + Z.of_nat (i - 799))%Z with (Z.of_nat (S i)) in * by lia. split; [exact U|].
    destruct (i - 799)%nat as [|d] eqn:E.
    + replace i with (799)%nat in * by lia. unfold wlast in V. rewrite (last_nth_row _ 399 L2) in V. rewrite <- (brw_2 399) in V by lia. exact V.
    + rewrite <- brw_3 in V by lia. replace (800 + d)%nat with i in V by lia. replace (800 + Z.of_nat d)%Z with (Z.of_nat i) in V by lia. exact V.
  - destruct (rows_facts _ _ _ cert_2 (i - 399) ltac:(lia)) as (U & V). rewrite <- !brw_2 in U, V by lia. replace (400 + (i - 399))%nat with (S i) in * by lia. replace (400 + Z.of_nat (i - 399))%Z with (Z.of_nat (S i)) in * by lia. split; [exact U|].
    destruct (i - 399)%nat as [|d] eqn:E.
    + replace i with (399)%nat in * by lia. unfold wlast in V. rewrite (last_nth_row _ 399 L1) in V. rewrite <- (brw_1 399) in V by lia. exact V.
    + rewrite <- brw_2 in V by lia. replace (400 + d)%nat with i in V by lia. replace (400 + Z.of_nat d)%Z with (Z.of_nat i) in V by lia. exact V.
  - assert (N : forall j, nth j (tl bessel_rows_1) bnil = nth (S j) bessel_rows_1 bnil) by (intros j; destruct bessel_rows_1; [destruct j; reflexivity|reflexivity]).
    assert (LT : length (tl bessel_rows_1) = 399%nat) by (destruct bessel_rows_1; cbn [length tl] in *; lia).
    destruct (rows_facts _ _ _ cert_1 i ltac:(lia)) as (U & V). rewrite N, <- brw_1 in U, V by lia. replace (1 + Z.of_nat i)%Z with (Z.of_nat (S i)) in * by lia. split; [exact U|].
    destruct i as [|d].
    + assert (H0 : brw 0 = hd bnil bessel_rows_1) by (rewrite brw_1 by lia; destruct bessel_rows_1; reflexivity). rewrite H0. exact V.
    + rewrite N, <- brw_1 in V by lia. replace (1 + Z.of_nat d)%Z with (Z.of_nat (S d)) in V by lia. exact V.
Qed.
