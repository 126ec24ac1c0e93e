(** * Accuracy of the Boys function *)

From Coq Require Import ZArith List Bool Lia Reals Lra.
From Coquelicot Require Import Coquelicot.
From Verif Require Import Base BinomModel BinomProofs OneElModel OneElProofs Loops Sums GaussMoment BoysTable SpecModel SpecExp SpecSpec SpecBoys BoysCert.
Import ListNotations.
Open Scope R_scope.

Lemma int_part_nonneg y : 0 <= y -> (0 <= Int_part y)%Z.
Proof. intros H. destruct (base_Int_part y) as (A & B). apply Z.lt_succ_r, lt_IZR. rewrite succ_IZR. lra. Qed.

Lemma c_round_near y : 0 <= y -> (0 <= c_round y)%Z /\ - (1 / 2) <= y - IZR (c_round y) <= 1 / 2.
Proof.
  intros H. unfold c_round. destruct (Rle_dec 0 y); [|lra]. split; [apply int_part_nonneg; lra|]. destruct (base_Int_part (y + 1 / 2)). lra.
Qed.

Lemma c_trunc_int k e : (0 <= k)%Z -> 0 < e < 1 -> c_trunc (IZR k + e) = k.
Proof.
  intros H He. apply IZR_le in H. unfold c_trunc. destruct (Rle_dec 0 (IZR k + e)); [|lra]. destruct (base_Int_part (IZR k + e)) as (A & B).
  assert (IZR (Int_part (IZR k + e)) < IZR (k + 1)) by (rewrite plus_IZR; lra). assert (IZR (k - 1) < IZR (Int_part (IZR k + e))) by (rewrite minus_IZR; lra).
  apply lt_IZR in H0. apply lt_IZR in H1. lia.
Qed.

Lemma int_le_half k m : IZR k <= IZR m + 1 / 2 -> (k <= m)%Z.
Proof. intros H. apply Z.lt_succ_r, lt_IZR. rewrite succ_IZR. lra. Qed.

Lemma boys_table_get i n : (0 <= i <= 300)%Z -> (0 <= n <= 39)%Z ->
  exists v, aget boys_table [i; n] = Ok v /\ Rabs (v - boys (Z.to_nat n) (IZR i / 10)) <= 4 / 10 ^ 15.
Proof.
  intros Hi Hn. eexists. split.
  - unfold aget, boys_table, table2. cbn [adims acell]. replace (inb _ _) with true by (symmetry; apply inb2; lia). reflexivity.
  - pose proof (boys_table_accurate (Z.to_nat i) (Z.to_nat n) ltac:(lia) ltac:(lia)) as H. rewrite (INR_IZR_INZ (Z.to_nat i)), Z2Nat.id in H by lia. exact H.
Qed.

Lemma boys_table_oob i n : (39 < n)%Z -> aget boys_table [i; n] = Fail OutOfBounds.
Proof.
  intros Hn. unfold aget, boys_table, table2. cbn [adims acell]. destruct (inb [301; 40]%Z [i; n]) eqn:E; [|reflexivity]. exfalso. cbn [inb] in E. rewrite !andb_true_iff in E. lia.
Qed.

Lemma combine7 b0 b1 b2 b3 b4 b5 b6 c0 c1 c2 c3 c4 c5 c6 dx F e :
  Rabs dx <= 1 / 20 -> Rabs (b0 - c0) <= e -> Rabs (b1 - c1) <= e -> Rabs (b2 - c2) <= e -> Rabs (b3 - c3) <= e -> Rabs (b4 - c4) <= e -> Rabs (b5 - c5) <= e -> Rabs (b6 - c6) <= e ->
  forall r, Rabs (rsum 7 (fun k => eterm (- dx) k * nth k [c0; c1; c2; c3; c4; c5; c6] 0) - F) <= r ->
  Rabs (b0 - b1 * dx + b2 * (dx * dx) / 2 - b3 * (dx * (dx * dx)) / 6 + b4 * (dx * (dx * (dx * dx))) / 24 - b5 * (dx * (dx * (dx * (dx * dx)))) / 120 + b6 * (dx * (dx * (dx * (dx * (dx * dx))))) / 720 - F) <= e * (11 / 10) + r.
Proof.
  intros D H0 H1 H2 H3 H4 H5 H6 r HF.
  assert (E : forall k d, Rabs d <= e -> Rabs (eterm (- dx) k * d) <= (1 / 20) ^ k * e).
  { intros k d Hd. rewrite Rabs_mult. apply Rmult_le_compat; try apply Rabs_pos; [|exact Hd]. unfold eterm, Rdiv. rewrite Rabs_mult, <- RPow_abs, Rabs_Ropp.
    apply Rle_trans with ((1 / 20) ^ k * 1); [|unfold Rdiv; lra]. apply Rmult_le_compat; [apply pow_le, Rabs_pos|apply Rabs_pos| |].
    - apply pow_incr. split; [apply Rabs_pos|exact D].
    - rewrite Rabs_pos_eq by (left; apply Rinv_0_lt_compat, INR_fact_lt_0). rewrite <- Rinv_1. apply Rinv_le_contravar; [lra|]. change 1 with (INR 1). apply le_INR. pose proof (lt_O_fact k). lia. }
  replace (b0 - b1 * dx + b2 * (dx * dx) / 2 - b3 * (dx * (dx * dx)) / 6 + b4 * (dx * (dx * (dx * dx))) / 24 - b5 * (dx * (dx * (dx * (dx * dx)))) / 120 + b6 * (dx * (dx * (dx * (dx * (dx * dx))))) / 720 - F)
    with ((eterm (- dx) 0 * (b0 - c0) + eterm (- dx) 1 * (b1 - c1) + eterm (- dx) 2 * (b2 - c2) + eterm (- dx) 3 * (b3 - c3) + eterm (- dx) 4 * (b4 - c4) + eterm (- dx) 5 * (b5 - c5) + eterm (- dx) 6 * (b6 - c6))
          + (rsum 7 (fun k => eterm (- dx) k * nth k [c0; c1; c2; c3; c4; c5; c6] 0) - F)).
  2: { cbn [rsum nth]. unfold eterm. cbn [fact Nat.mul Nat.add pow]. rewrite !INR_IZR_INZ. cbn [Z.of_nat Pos.of_succ_nat Pos.succ]. field. }
  eapply Rle_trans; [apply Rabs_triang|]. apply Rplus_le_compat; [|exact HF].
  pose proof (E 0%nat _ H0). pose proof (E 1%nat _ H1). pose proof (E 2%nat _ H2). pose proof (E 3%nat _ H3). pose proof (E 4%nat _ H4). pose proof (E 5%nat _ H5). pose proof (E 6%nat _ H6).
  assert (He : 0 <= e) by (eapply Rle_trans; [apply Rabs_pos|exact H0]).
  repeat (eapply Rle_trans; [apply Rabs_triang|eapply Rle_trans; [apply Rplus_le_compat_l; eassumption|]]; match goal with |- Rabs ?a + ?b <= ?c => apply Rle_trans with (c - b + b); [apply Rplus_le_compat_r|lra] end).
  lra.
Qed.

Lemma boys_lookup n x : (0 <= n <= 33)%Z -> 0 <= x <= 30 -> exists v, boys_function n x = Ok v /\ Rabs (v - boys (Z.to_nat n) x) <= 15 / 10 ^ 15.
Proof.
  intros Hn Hx. unfold boys_function. destruct (Rle_dec x 30); [|lra]. cbv zeta.
  destruct (c_round_near (x / (1 / 10)) ltac:(lra)) as (K0 & KN). set (k := c_round (x / (1 / 10))) in *. rewrite (c_trunc_int k) by (assumption || lra).
  assert (K1 : (k <= 300)%Z) by (apply int_le_half; lra).
  assert (D : Rabs (x - IZR k * (1 / 10)) <= 1 / 20) by (apply Rabs_le; lra).
  destruct (boys_table_get k n ltac:(lia) ltac:(lia)) as (b0 & -> & A0). destruct (boys_table_get k (n + 1) ltac:(lia) ltac:(lia)) as (b1 & -> & A1). destruct (boys_table_get k (n + 2) ltac:(lia) ltac:(lia)) as (b2 & -> & A2).
  destruct (boys_table_get k (n + 3) ltac:(lia) ltac:(lia)) as (b3 & -> & A3). destruct (boys_table_get k (n + 4) ltac:(lia) ltac:(lia)) as (b4 & -> & A4). destruct (boys_table_get k (n + 5) ltac:(lia) ltac:(lia)) as (b5 & -> & A5).
  destruct (boys_table_get k (n + 6) ltac:(lia) ltac:(lia)) as (b6 & -> & A6). cbn [bind]. eexists. split; [reflexivity|].
  pose proof (boys_taylor (Z.to_nat n) 7 x (IZR k * (1 / 10)) ltac:(lra) ltac:(apply Rmult_le_pos; [apply IZR_le; exact K0|lra])) as T.
  replace (IZR k / 10) with (IZR k * (1 / 10)) in * by field.
  eapply Rle_trans; [apply (combine7 b0 b1 b2 b3 b4 b5 b6 _ _ _ _ _ _ _ _ _ _ D A0 A1 A2 A3 A4 A5 A6)|].
  - eapply Rle_trans; [|exact T]. right. f_equal. f_equal. apply rsum_ext. intros j Hj. f_equal.
    do 7 (destruct j as [|j]; [cbn [nth]; f_equal; lia|]). lia.
  - assert (B : eterm (Rabs (x - IZR k * (1 / 10))) 7 / INR (2 * (Z.to_nat n + 7) + 1) <= (1 / 20) ^ 7 / 5040 / 15).
    { assert (P : 0 < INR (2 * (Z.to_nat n + 7) + 1)) by (apply lt_0_INR; lia). apply Rmult_le_compat; [apply eterm_pos, Rabs_pos|left; apply Rinv_0_lt_compat, P| |].
      - unfold eterm. replace (INR (fact 7)) with 5040 by (rewrite INR_IZR_INZ; reflexivity). apply Rmult_le_compat_r; [lra|]. apply pow_incr. split; [apply Rabs_pos|exact D].
      - apply Rinv_le_contravar; [lra|]. replace 15 with (INR 15) by (rewrite INR_IZR_INZ; reflexivity). apply le_INR. lia. }
    eapply Rle_trans; [apply Rplus_le_compat_l, B|]. lra.
Qed.

Lemma exp_of_nat n : exp (INR n) = exp 1 ^ n.
Proof. induction n as [|n IH]; [apply exp_0|]. rewrite S_INR, exp_plus, IH. cbn [pow]. ring. Qed.

Lemma exp_30 x : 30 < x -> exp (- x) <= 45 / 10 ^ 14.
Proof.
  intros Hx. apply Rle_trans with (exp (- (30))); [apply exp_le; lra|]. rewrite exp_Ropp.
  assert (E1 : 27 / 10 <= exp 1).
  { pose proof (erem_nonneg 5 1 ltac:(lra)) as H. unfold erem in H. cbn [rsum] in H. unfold eterm in H. cbn [fact Nat.mul Nat.add pow] in H. rewrite !INR_IZR_INZ in H. cbn [Z.of_nat Pos.of_succ_nat Pos.succ] in H. lra. }
  assert (E2 : exp 30 = exp 1 ^ 30) by (replace 30 with (INR 30) by (rewrite INR_IZR_INZ; reflexivity); apply exp_of_nat).
  assert (E3 : (27 / 10) ^ 30 <= exp 30) by (rewrite E2; apply pow_incr; lra).
  apply Rle_trans with (/ (27 / 10) ^ 30); [apply Rinv_le_contravar; [apply pow_lt; lra|exact E3]|]. lra.
Qed.

Lemma boys_far n x : (0 <= n <= 15)%Z -> 30 < x -> exists v, boys_function n x = Ok v /\ Rabs (v - boys (Z.to_nat n) x) <= 15 / 10 ^ 15.
Proof.
  intros Hn Hx. unfold boys_function. destruct (Rle_dec x 30); [lra|]. rewrite double_factorial_ok by lia. cbn [bind]. eexists. split; [reflexivity|].
  set (N := Z.to_nat n). assert (EN : n = Z.of_nat N) by (unfold N; lia). assert (B : INR N <= 15) by (replace 15 with (INR 15) by (rewrite INR_IZR_INZ; reflexivity); apply le_INR; lia).
  replace (IZR (dfactz (Z.to_nat (2 * n - 1))) / powerRZ 2 (n + 1) * sqrt (PI / powerRZ x (2 * n + 1))) with (gmom (2 * N) x).
  - destruct (boys_tail N x ltac:(lra)) as (L & U). rewrite Rabs_pos_eq by exact L. eapply Rle_trans; [exact U|]. pose proof (exp_30 x Hx) as E. pose proof (exp_pos (- x)).
    unfold Rdiv at 1. apply Rle_trans with (45 / 10 ^ 14 * / 30); [|lra]. apply Rmult_le_compat; [lra|left; apply Rinv_0_lt_compat; lra|exact E|]. apply Rinv_le_contravar; lra.
  - rewrite gmom_even by lra. replace (Z.to_nat (2 * n - 1)) with (2 * N - 1)%nat by lia. replace (n + 1)%Z with (Z.of_nat (N + 1)) by lia. replace (2 * n + 1)%Z with (Z.of_nat (2 * N + 1)) by lia. rewrite <- !pow_powerRZ.
    assert (P : 0 < x ^ N) by (apply pow_lt; lra). assert (P2 : 0 < 2 ^ (N + 1)) by (apply pow_lt; lra).
    replace (PI / x ^ (2 * N + 1)) with (PI / x * (/ x ^ N * / x ^ N)).
    2: { replace (2 * N + 1)%nat with (N + N + 1)%nat by lia. rewrite !pow_add, pow_1. field. split; lra. }
    rewrite sqrt_mult; [|apply Rmult_le_pos; [left; apply PI_RGT_0|left; apply Rinv_0_lt_compat; lra]|apply Rmult_le_pos; left; apply Rinv_0_lt_compat, P].
    rewrite sqrt_square by (left; apply Rinv_0_lt_compat, P). field. split; lra.
Qed.

Lemma boys_accurate n x : (0 <= n <= 33)%Z -> 0 <= x -> x <= 30 \/ (n <= 15)%Z ->
  exists v, boys_function n x = Ok v /\ Rabs (v - boys (Z.to_nat n) x) <= 15 / 10 ^ 15.
Proof.
  intros Hn Hx H. destruct (Rle_dec x 30) as [Le|Gt]; [apply boys_lookup; [exact Hn|lra]|]. apply boys_far; [|lra]. destruct H; [lra|lia].
Qed.

Lemma boys_aborts n x : (16 <= n)%Z -> 30 < x -> boys_function n x = Fail AssertFailed.
Proof. intros Hn Hx. unfold boys_function. destruct (Rle_dec x 30); [lra|]. rewrite double_factorial_abort by lia. reflexivity. Qed.

Lemma boys_outside n x : (34 <= n)%Z -> 0 <= x <= 30 -> boys_function n x = Fail OutOfBounds.
Proof.
  intros Hn Hx. unfold boys_function. destruct (Rle_dec x 30); [|lra]. cbv zeta.
  destruct (c_round_near (x / (1 / 10)) ltac:(lra)) as (K0 & KN). set (k := c_round (x / (1 / 10))) in *. rewrite (c_trunc_int k) by (assumption || lra).
  assert (K1 : (k <= 300)%Z) by (apply int_le_half; lra).
  assert (X : forall j, (0 <= j)%Z -> (exists v, aget boys_table [k; n + j]%Z = Ok v) \/ aget boys_table [k; n + j]%Z = Fail OutOfBounds).
  { intros j Hj. destruct (Z_le_dec (n + j) 39) as [Q|Q]; [left; destruct (boys_table_get k (n + j) ltac:(lia) ltac:(lia)) as (v & E & _); exists v; exact E|right; apply boys_table_oob; lia]. }
  pose proof (X 0%Z ltac:(lia)) as X0. rewrite Z.add_0_r in X0. destruct X0 as [(v0 & ->) | ->]; [cbn [bind]|reflexivity].
  destruct (X 1%Z ltac:(lia)) as [(v1 & ->) | ->]; [cbn [bind]|reflexivity]. destruct (X 2%Z ltac:(lia)) as [(v2 & ->) | ->]; [cbn [bind]|reflexivity].
  destruct (X 3%Z ltac:(lia)) as [(v3 & ->) | ->]; [cbn [bind]|reflexivity]. destruct (X 4%Z ltac:(lia)) as [(v4 & ->) | ->]; [cbn [bind]|reflexivity].
  destruct (X 5%Z ltac:(lia)) as [(v5 & ->) | ->]; [cbn [bind]|reflexivity]. rewrite boys_table_oob by lia. reflexivity.
Qed.

Lemma boys_values_accurate x nmax sz b : (0 <= nmax <= 33)%Z -> 0 <= x -> x <= 30 \/ (nmax <= 15)%Z -> adims b = [sz] -> (nmax < sz)%Z ->
  exists b', boys_values x nmax b = Ok b' /\ adims b' = [sz] /\
    (forall n, (0 <= n <= nmax)%Z -> exists v, aget b' [n] = Ok v /\ Rabs (v - boys (Z.to_nat n) x) <= 15 / 10 ^ 15) /\
    (forall n, (nmax < n)%Z -> aget b' [n] = aget b [n]).
Proof.
  intros Hn Hx H D Hs. unfold boys_values. destruct (memset0_get (nmax + 1) sz b D ltac:(lia)) as (b1 & -> & D1 & _ & F1). cbn [bind].
  destruct (loop1_all 0 (nmax + 1) (fun s => adims s = [sz] /\ forall n, (nmax < n)%Z -> aget s [n] = aget b [n]) (fun n s => exists v, aget s [n] = Ok v /\ Rabs (v - boys (Z.to_nat n) x) <= 15 / 10 ^ 15)
    (fun n b => let* v := boys_function n x in aset b [n] v) b1 ltac:(lia)) as (b' & E & (D' & F') & P).
  - split; [exact D1|]. intros n Hn'. apply F1. intros k Hk X. injection X as ->. lia.
  - intros i s Hi (Ds & Fs). destruct (boys_accurate i x ltac:(lia) Hx) as (v & -> & Hv); [destruct H; [left; assumption|right; lia]|]. cbn [bind].
    destruct (aset_get s [i] v) as (s' & E & Ds' & G1 & G2); [rewrite Ds; apply inb1; lia|]. exists s'. split; [exact E|]. split; [split; [congruence|]|split].
    + intros n Hn'. rewrite G2; [apply Fs, Hn'|]. intros X. injection X as ->. lia.
    + exists v. split; [exact G1|exact Hv].
    + intros i' Hi' (v' & E' & Hv'). exists v'. split; [|exact Hv']. rewrite G2; [exact E'|]. intros X. injection X as ->. lia.
  - exists b'. split; [exact E|]. split; [exact D'|]. split; [|exact F']. intros n Hn'. apply P. lia.
Qed.
