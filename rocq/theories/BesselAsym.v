(** * The large-argument formula of the scaled Bessel functions *)

From Coq Require Import ZArith List Bool Lia Reals Lra Factorial.
From Coquelicot Require Import Coquelicot.
From Verif Require Import Base OneElProofs Loops Sums GaussInt OvDeriv RfunTable SpecModel SpecExp SpecSpec SpecBoys BoysThms BesselProofs.
Import ListNotations.
Open Scope R_scope.

Definition rcoef (n k : nat) : R := if (k <=? n)%nat then INR (fact (n + k)) / (INR (fact k) * INR (fact (n - k)) * 2 ^ k) else 0.

Lemma rcoef_le n k : (k <= n)%nat -> rcoef n k = INR (fact (n + k)) / (INR (fact k) * INR (fact (n - k)) * 2 ^ k).
Proof. intros H. unfold rcoef. rewrite (proj2 (Nat.leb_le k n) H). reflexivity. Qed.
Lemma rcoef_gt n k : (n < k)%nat -> rcoef n k = 0.
Proof. intros H. unfold rcoef. rewrite (proj2 (Nat.leb_gt k n) H). reflexivity. Qed.
Lemma rcoef_0 n : rcoef n 0 = 1.
Proof. rewrite rcoef_le by lia. rewrite Nat.add_0_r, Nat.sub_0_r. cbn [fact pow INR]. pose proof (INR_fact_lt_0 n). field. lra. Qed.
Lemma rcoef_pos n k : 0 <= rcoef n k.
Proof.
  unfold rcoef. destruct (k <=? n)%nat; [|lra]. apply Rmult_le_pos; [left; apply INR_fact_lt_0|]. left. apply Rinv_0_lt_compat. repeat apply Rmult_lt_0_compat; try apply INR_fact_lt_0. apply pow_lt. lra.
Qed.

Lemma factS n : INR (fact (S n)) = (INR n + 1) * INR (fact n).
Proof. rewrite fact_simpl, mult_INR, S_INR. reflexivity. Qed.

Ltac facts := repeat match goal with |- context [INR (fact ?n)] => lazymatch goal with _ : 0 < INR (fact n) |- _ => fail | _ => pose proof (INR_fact_lt_0 n) end end.

Lemma rcoef_step n k : 2 * (INR k + 1) * rcoef n (S k) = rcoef n k * ((INR n + INR k + 1) * (INR n - INR k)).
Proof.
  destruct (lt_eq_lt_dec k n) as [[L | ->]|G].
  - rewrite !rcoef_le by lia. replace (n + S k)%nat with (S (n + k)) by lia. replace (n - k)%nat with (S (n - S k)) by lia. rewrite !factS, plus_INR. cbn [pow].
    assert (E : INR n = INR (n - S k) + INR k + 1) by (rewrite minus_INR by lia; rewrite S_INR; ring).
    pose proof (INR_fact_lt_0 (n + k)). pose proof (INR_fact_lt_0 k). pose proof (INR_fact_lt_0 (n - S k)). pose proof (pow_lt 2 k ltac:(lra)). pose proof (pos_INR k). pose proof (pos_INR (n - S k)). set (u := INR (n - S k)) in *. rewrite E. field. repeat split; lra.
  - rewrite (rcoef_gt n (S n)) by lia. ring.
  - rewrite !rcoef_gt by lia. ring.
Qed.

Lemma rcoef_rec n k : rcoef (S (S n)) (S k) = rcoef n (S k) + (2 * INR n + 3) * rcoef (S n) k.
Proof.
  destruct (le_lt_dec (S k) n) as [L|L].
  - rewrite !rcoef_le by lia. set (j := (n - S k)%nat). replace (S (S n) - S k)%nat with (S (S j)) by lia. replace (S n - k)%nat with (S (S j)) by lia. replace (S (S n) + S k)%nat with (S (S (n + S k))) by lia. replace (S n + k)%nat with (n + S k)%nat by lia.
    rewrite !factS, !S_INR, !plus_INR, !S_INR. assert (E : INR n = INR j + INR k + 1) by (unfold j; rewrite minus_INR by lia; rewrite S_INR; ring).
    pose proof (INR_fact_lt_0 (n + S k)). pose proof (INR_fact_lt_0 k). pose proof (INR_fact_lt_0 j). pose proof (pow_lt 2 k ltac:(lra)). pose proof (pos_INR k). pose proof (pos_INR j). cbn [pow]. rewrite E. field. repeat split; lra.
  - destruct (lt_eq_lt_dec k (S n)) as [[L2 | ->]|G].
    + assert (k = n) by lia. subst k. rewrite (rcoef_gt n (S n)) by lia. rewrite !rcoef_le by lia. replace (S (S n) - S n)%nat with 1%nat by lia. replace (S n - n)%nat with 1%nat by lia. replace (S (S n) + S n)%nat with (S (S (S n + n))) by lia.
      rewrite !factS, !S_INR, !plus_INR, !S_INR. cbn [fact pow INR Nat.mul Nat.add]. pose proof (INR_fact_lt_0 (S n + n)). pose proof (INR_fact_lt_0 n). pose proof (pow_lt 2 n ltac:(lra)). pose proof (pos_INR n). cbn [fact Nat.add] in *. field. repeat split; lra.
    + rewrite (rcoef_gt n (S (S n))) by lia. rewrite !rcoef_le by lia. rewrite !Nat.sub_diag. replace (S (S n) + S (S n))%nat with (S (S (S n + S n))) by lia.
      rewrite !factS, !S_INR, !plus_INR, !S_INR. pose proof (INR_fact_lt_0 (S n + S n)). pose proof (INR_fact_lt_0 n). pose proof (pow_lt 2 n ltac:(lra)). pose proof (pos_INR n). cbn [fact pow INR]. field. repeat split; lra.
    + rewrite !rcoef_gt by lia. ring.
Qed.

Lemma rsum_zeros f a d : (forall k, (a <= k)%nat -> f k = 0) -> rsum (a + d) f = rsum a f.
Proof. intros H. induction d as [|d IH]; [rewrite Nat.add_0_r; reflexivity|]. replace (a + S d)%nat with (S (a + d)) by lia. cbn [rsum]. rewrite IH, H by lia. ring. Qed.

(** extended with zeros, the sum may be taken over any number of terms *)
Lemma rfun_sum n y N : (n < N)%nat -> rfun n y = rsum N (fun k => rcoef n k / y ^ k).
Proof.
  intros H. unfold rfun. assert (A : forall m, (m <= n)%nat -> sum_f_R0 (fun k => INR (fact (n + k)) / (INR (fact k) * INR (fact (n - k)) * 2 ^ k) / y ^ k) m = rsum (S m) (fun k => rcoef n k / y ^ k)).
  { induction m as [|m IH]; intros Hm; [cbn [sum_f_R0 rsum]; rewrite rcoef_le by lia; ring|]. rewrite tech5. rewrite IH by lia. change (rsum (S (S m)) ?f) with (rsum (S m) f + f (S m)). cbn beta. rewrite rcoef_le by lia. reflexivity. }
  rewrite (A n (Nat.le_refl n)). clear A. replace N with (S n + (N - S n))%nat by lia. symmetry. apply (rsum_zeros (fun k => rcoef n k / y ^ k)).
  intros k Hk. rewrite rcoef_gt by lia. unfold Rdiv. ring.
Qed.

Lemma rfun_0 y : rfun 0 y = 1.
Proof. unfold rfun. cbn. field. Qed.
Lemma rfun_1 y : y <> 0 -> rfun 1 y = 1 + 1 / y.
Proof. intros H. unfold rfun. cbn. field. exact H. Qed.

Lemma rfun_rec n y : y <> 0 -> rfun (S (S n)) y = rfun n y + (2 * INR n + 3) / y * rfun (S n) y.
Proof.
  intros Hy. rewrite (rfun_sum (S (S n)) y (S (n + 3))), (rfun_sum n y (S (n + 3))), (rfun_sum (S n) y (n + 3)) by lia. rewrite !rsum_S_left. rewrite !rcoef_0.
  rewrite (rsum_ext (n + 3) (fun k => rcoef (S (S n)) (S k) / y ^ S k) (fun k => rcoef n (S k) / y ^ S k + (2 * INR n + 3) / y * (rcoef (S n) k / y ^ k))).
  - assert (P : forall N f g, rsum N (fun k => f k + g k) = rsum N f + rsum N g) by (intros N f g; induction N as [|N IH]; cbn [rsum]; [ring|rewrite IH; ring]). rewrite P, rsum_scal. ring.
  - intros k _. rewrite rcoef_rec. cbn [pow]. pose proof (pow_nonzero y k Hy). field. split; assumption.
Qed.

(** K_n(x) = [R_n(-x) - (-1)^n R_n(x) exp(-2x)] / (2x) *)
Lemma bessK_closed x : 0 < x -> forall n, bessK n x = (rfun n (- x) - (-1) ^ n * rfun n x * exp (- (2 * x))) / (2 * x).
Proof.
  intros Hx. assert (H : forall n, bessK n x = (rfun n (- x) - (-1) ^ n * rfun n x * exp (- (2 * x))) / (2 * x) /\ bessK (S n) x = (rfun (S n) (- x) - (-1) ^ S n * rfun (S n) x * exp (- (2 * x))) / (2 * x)); [|intros n; apply H].
  induction n as [|n (IH1 & IH2)].
  - split.
    + rewrite !rfun_0. cbn [pow]. pose proof (bessK_0 x) as B. apply (Rmult_eq_reg_l (2 * x)); [|lra]. rewrite B. field. lra.
    + rewrite !rfun_1 by lra. assert (B : 2 * x * bessK 1 x = (1 + exp (- (2 * x))) - bessK 0 x * 2).
      { pose proof (bessK_derive 0 x) as D. cbn [bess_step] in D.
        assert (D2 : is_derive (fun x => 2 * x * bessK 0 x) x (2 * bessK 0 x + 2 * x * (bessK 1 x - bessK 0 x))).
        { eapply is_derive_eq; [apply (is_derive_mult (fun x : R => 2 * x) (bessK 0)); [|exact D|intros; apply Rmult_comm]|].
          - instantiate (1 := 2). auto_derive; [exact I|ringR].
          - match goal with |- _ = ?z => change (2 * bessK 0 x + 2 * x * (bessK 1 x - bessK 0 x) = z) end. reflexivity. }
        assert (D3 : is_derive (fun x => 2 * x * bessK 0 x) x (2 * exp (- (2 * x)))).
        { apply is_derive_ext with (fun x => 1 - exp (- (2 * x))); [intros t; symmetry; apply bessK_0|]. auto_derive; [exact I|ringR]. }
        pose proof (is_derive_unique _ _ _ D2) as U2. pose proof (is_derive_unique _ _ _ D3) as U3. pose proof (bessK_0 x) as B0. rewrite U2 in U3. lra. }
      pose proof (bessK_0 x) as B0. assert (E0 : bessK 0 x = (1 - exp (- (2 * x))) / (2 * x)) by (rewrite <- B0; field; lra). rewrite E0 in B. cbn [pow].
      apply (Rmult_eq_reg_l (2 * x)); [|lra]. rewrite B. field. lra.
  - split; [exact IH2|]. pose proof (bessK_rec n x) as R. rewrite IH1, IH2 in R. rewrite (rfun_rec n (- x)), (rfun_rec n x) by lra.
    apply (Rmult_eq_reg_l x); [|lra]. replace (x * bessK (S (S n)) x) with (x * ((rfun n (- x) - (-1) ^ n * rfun n x * exp (- (2 * x))) / (2 * x)) - (2 * INR n + 3) * ((rfun (S n) (- x) - (-1) ^ S n * rfun (S n) x * exp (- (2 * x))) / (2 * x))) by (rewrite <- R; ring).
    cbn [pow]. field. lra.
Qed.

Lemma rfun_nonneg n x : 0 < x -> 0 <= rfun n x.
Proof.
  intros Hx. rewrite (rfun_sum n x (S n)) by lia. induction (S n) as [|N IH]; cbn [rsum]; [lra|]. pose proof (rcoef_pos n N). assert (0 <= rcoef n N / x ^ N) by (apply Rmult_le_pos; [assumption|left; apply Rinv_0_lt_compat, pow_lt, Hx]). lra.
Qed.

(** ** The table of coefficients *)
Open Scope Z_scope.
Definition rclose (m e c : Z) : bool :=
  if e <? 0 then Z.abs (m - c * 10 ^ (- e)) * 10 ^ 17 <=? 15 * (c * 10 ^ (- e))
  else Z.abs (m * 10 ^ e - c) * 10 ^ 17 <=? 15 * c.
Fixpoint rrow (l : list (Z * Z)) (n k c : Z) : bool :=
  match l with
  | [] => true
  | (m, e) :: l => let p := c * ((n + k + 1) * (n - k)) in let c' := p / (2 * (k + 1)) in
                   rclose m e c && (c' * (2 * (k + 1)) =? p) && rrow l n (k + 1) c'
  end.
Fixpoint rrows (T : list (list (Z * Z))) (n : Z) : bool :=
  match T with [] => true | r :: T => rrow r n 0 1 && (length r =? 50)%nat && rrows T (n + 1) end.

Lemma rfun_certificate : rrows rfun_rows 0 && (length rfun_rows =? 50)%nat = true.
Proof. vm_compute. reflexivity. Qed.
Open Scope R_scope.

Lemma pow10 e : (0 <= e)%Z -> IZR (10 ^ e) = powerRZ 10 e.
Proof. intros H. rewrite <- (Z2Nat.id e) by exact H. rewrite <- pow_powerRZ, pow_IZR. reflexivity. Qed.

Lemma rclose_ok m e c r : rclose m e c = true -> IZR c = r -> 0 <= r -> Rabs (IZR m * powerRZ 10 e - r) <= 15 / 10 ^ 17 * r.
Proof.
  intros H Hc Hr. assert (T17 : IZR (10 ^ 17) = 10 ^ 17) by (rewrite (pow_IZR 10 17); reflexivity). unfold rclose in H. destruct (e <? 0)%Z eqn:E; apply Z.leb_le, IZR_le in H.
  - apply Z.ltb_lt in E. rewrite !mult_IZR, abs_IZR, minus_IZR, mult_IZR, T17, (pow10 (- e)) in H by lia. rewrite Hc in H. replace (powerRZ 10 e) with (/ powerRZ 10 (- e)) by (rewrite <- powerRZ_neg' by lra; f_equal; lia).
    assert (P : 0 < powerRZ 10 (- e)) by (apply powerRZ_lt; lra). set (p := powerRZ 10 (- e)) in *. replace (IZR m * / p - r) with ((IZR m - r * p) * / p) by (field; lra). rewrite Rabs_mult, (Rabs_pos_eq (/ p)) by (left; apply Rinv_0_lt_compat, P).
    apply Rmult_le_reg_r with p; [exact P|]. rewrite Rmult_assoc, Rinv_l, Rmult_1_r by lra. lra.
  - apply Z.ltb_ge in E. rewrite !mult_IZR, abs_IZR, minus_IZR, mult_IZR, T17, (pow10 e) in H by lia. rewrite Hc in H. lra.
Qed.

Lemma rrow_ok l n : forall k c, rrow l (Z.of_nat n) (Z.of_nat k) c = true -> IZR c = rcoef n k -> forall j, (j < length l)%nat ->
  Rabs ((fun '(m, e) => IZR m * powerRZ 10 e) (nth j l (0, 0)%Z) - rcoef n (k + j)) <= 15 / 10 ^ 17 * rcoef n (k + j).
Proof.
  induction l as [|[m e] l IH]; intros k c H Hc j Hj; [cbn in Hj; lia|]. cbn [rrow] in H. cbv zeta in H. apply andb_true_iff in H. destruct H as (H & H3). apply andb_true_iff in H. destruct H as (H1 & H2). apply Z.eqb_eq in H2.
  destruct j as [|j]; cbn [nth].
  - rewrite Nat.add_0_r. apply (rclose_ok m e c); [exact H1|exact Hc|apply rcoef_pos].
  - replace (k + S j)%nat with (S k + j)%nat by lia. replace (Z.of_nat k + 1)%Z with (Z.of_nat (S k)) in * by lia. eapply IH; [exact H3| |cbn [length] in Hj; lia].
    apply (f_equal IZR) in H2. rewrite !mult_IZR, !plus_IZR, minus_IZR, <- !INR_IZR_INZ, Hc in H2. rewrite S_INR in H2. pose proof (rcoef_step n k) as St. pose proof (pos_INR k).
    apply (Rmult_eq_reg_r (2 * (INR k + 1))); [|lra]. rewrite (Rmult_comm (rcoef n (S k))), St. rewrite <- H2. reflexivity.
Qed.

Lemma rrows_ok T : forall n0, rrows T (Z.of_nat n0) = true -> forall n k, (n < length T)%nat -> (k < 50)%nat ->
  Rabs ((fun '(m, e) => IZR m * powerRZ 10 e) (nth k (nth n T []) (0, 0)%Z) - rcoef (n0 + n) k) <= 15 / 10 ^ 17 * rcoef (n0 + n) k.
Proof.
  induction T as [|r T IH]; intros n0 H n k Hn Hk; [cbn in Hn; lia|]. cbn [rrows] in H. apply andb_true_iff in H. destruct H as (H & H3). apply andb_true_iff in H. destruct H as (H1 & H2). apply Nat.eqb_eq in H2.
  destruct n as [|n]; cbn [nth].
  - rewrite Nat.add_0_r. apply (rrow_ok r n0 0 1); [exact H1|rewrite rcoef_0; reflexivity|lia].
  - replace (n0 + S n)%nat with (S n0 + n)%nat by lia. apply IH; [replace (Z.of_nat (S n0)) with (Z.of_nat n0 + 1)%Z by lia; exact H3|cbn [length] in Hn; lia|exact Hk].
Qed.

Lemma rfun_get n k : (0 <= n < 50)%Z -> (0 <= k < 50)%Z -> exists v, aget rfun_coeffs [n; k] = Ok v /\ Rabs (v - rcoef (Z.to_nat n) (Z.to_nat k)) <= 15 / 10 ^ 17 * rcoef (Z.to_nat n) (Z.to_nat k).
Proof.
  intros Hn Hk. eexists. split.
  - unfold aget, rfun_coeffs, table2. cbn [adims acell]. replace (inb _ _) with true by (symmetry; apply inb2; lia). reflexivity.
  - pose proof rfun_certificate as C. apply andb_true_iff in C. destruct C as (C1 & C2). apply Nat.eqb_eq in C2. apply (rrows_ok rfun_rows 0 C1 (Z.to_nat n) (Z.to_nat k)); [rewrite C2; lia|lia].
Qed.

Lemma asymptotic_ok n y : (0 <= n < 50)%Z -> y <> 0 -> exists v, bessel_asymptotic n y = Ok v /\ Rabs (v - rfun (Z.to_nat n) y) <= 15 / 10 ^ 17 * rfun (Z.to_nat n) (Rabs y).
Proof.
  intros Hn Hy. set (N := Z.to_nat n). unfold bessel_asymptotic. cbv zeta. pose proof (Rabs_pos_lt y Hy) as Ay.
  match goal with |- context [for_range 0 (n + 1) ?b (0, 1)] => destruct (for_range_ok (fun k '(s, d) => d = 1 / y ^ Z.to_nat k /\ Rabs (s - rsum (Z.to_nat k) (fun j => rcoef N j / y ^ j)) <= 15 / 10 ^ 17 * rsum (Z.to_nat k) (fun j => rcoef N j / Rabs y ^ j)) 0 (n + 1) b (0, 1) ltac:(lia)) as ((v & d) & E & _ & B) end.
  - cbn [Z.to_nat pow rsum]. split; [field|]. rewrite Rminus_0_r, Rabs_R0. lra.
  - intros k (s & d) Hk (Hd & Bs). destruct (rfun_get n k ltac:(lia) ltac:(lia)) as (c & -> & Bc). cbn [bind]. eexists. split; [reflexivity|]. cbn beta iota. replace (Z.to_nat (k + 1)) with (S (Z.to_nat k)) by lia. cbn [rsum].
    pose proof (pow_nonzero y (Z.to_nat k) Hy) as Py. split; [rewrite Hd; cbn [pow]; field; split; assumption|]. set (j := Z.to_nat k) in *. fold N in Bc.
    replace (s + c * d - (rsum j (fun j => rcoef N j / y ^ j) + rcoef N j / y ^ j)) with ((s - rsum j (fun j => rcoef N j / y ^ j)) + (c - rcoef N j) * / y ^ j) by (rewrite Hd; field; exact Py).
    eapply Rle_trans; [apply Rabs_triang|]. rewrite Rmult_plus_distr_l. apply Rplus_le_compat; [exact Bs|]. rewrite Rabs_mult, Rabs_inv, <- RPow_abs. apply Rle_trans with (15 / 10 ^ 17 * rcoef N j * / Rabs y ^ j); [apply Rmult_le_compat_r; [left; apply Rinv_0_lt_compat, pow_lt, Ay|exact Bc]|right; unfold Rdiv; ring].
  - rewrite E. cbn [bind]. exists v. split; [reflexivity|]. rewrite (rfun_sum N y (Z.to_nat (n + 1))), (rfun_sum N (Rabs y) (Z.to_nat (n + 1))) by (unfold N; lia). exact B.
Qed.

Lemma bessel_large tab n x : (0 <= n < 50)%Z -> 16 < x ->
  exists v, modified_bessel_scaled tab n x = Ok v /\
    Rabs (v - (bessK (Z.to_nat n) x + (-1) ^ Z.to_nat n * rfun (Z.to_nat n) x * exp (- (2 * x)) / (2 * x))) <= 15 / 10 ^ 17 * rfun (Z.to_nat n) x / (2 * x).
Proof.
  intros Hn Hx. unfold modified_bessel_scaled. destruct (Rle_dec x (1 / 10 ^ 7)); [lra|]. destruct (Rle_dec x 16); [lra|]. destruct (asymptotic_ok n (- x) Hn ltac:(lra)) as (v & -> & B). cbn [bind]. eexists. split; [reflexivity|].
  rewrite Rabs_Ropp, (Rabs_pos_eq x) in B by lra. rewrite bessK_closed by lra.
  match goal with |- Rabs ?a <= _ => replace a with ((v - rfun (Z.to_nat n) (- x)) * / (2 * x)) by (field; lra) end. rewrite Rabs_mult, (Rabs_pos_eq (/ (2 * x))) by (left; apply Rinv_0_lt_compat; lra). unfold Rdiv at 2. apply Rmult_le_compat_r; [left; apply Rinv_0_lt_compat; lra|exact B].
Qed.

Lemma bessel_beyond tab n x : (50 <= n)%Z -> 16 < x -> modified_bessel_scaled tab n x = Fail OutOfBounds.
Proof.
  intros Hn Hx. unfold modified_bessel_scaled. destruct (Rle_dec x (1 / 10 ^ 7)); [lra|]. destruct (Rle_dec x 16); [lra|]. unfold bessel_asymptotic. cbv zeta. rewrite for_range_step by lia. cbn beta iota.
  unfold aget, rfun_coeffs, table2. cbn [adims acell]. destruct (inb [50; 50]%Z [n; 0]%Z) eqn:E; [|reflexivity]. exfalso. cbn [inb] in E. rewrite !andb_true_iff in E. lia.
Qed.
