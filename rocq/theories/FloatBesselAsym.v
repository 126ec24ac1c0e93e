(** * The Bessel functions in double precision: large arguments *)

From Coq Require Import ZArith List Bool Lia Reals Lra Factorial.
From Coquelicot Require Import Coquelicot.
From Verif Require Import Base OneElProofs Loops Sums GaussInt OvDeriv SpecModel SpecExp SpecSpec SpecBoys BoysThms BesselProofs BesselAsym BesselThms BesselOrders BesselData BesselTabAcc BesselTabThm MmdProofs FloatBase FloatBessel FloatBesselTab FloatBesselEval.
Import ListNotations.
Open Scope R_scope.

Lemma prod_le a b A B : 0 <= a <= A -> 0 <= b <= B -> 0 <= a * b <= A * B.
Proof. intros (H1 & H2) (H3 & H4). split; [apply Rmult_le_pos; assumption|apply Rmult_le_compat; assumption]. Qed.

(** next power of 1/x *)
Lemma den_step den D P inv i w e f : Rabs (den - D) <= e * P + f -> Rabs D <= P -> 0 <= P <= 1 -> Rabs (inv - i) <= ulp1 * w + tiny -> Rabs i <= w -> 0 <= w <= 1 / 16 ->
  0 <= e <= 66 * ulp1 -> 0 <= f <= 66 * tiny ->
  exists v, fl (den * inv) = Ok v /\ Rabs (v - D * i) <= (e + 3 * ulp1) * (P * w) + (f + 3 * tiny).
Proof.
  intros H1 H2 HP H3 H4 Hw He Hf. pose proof hundred as BIG. assert (U : ulp1 = 1 / 2 ^ 53) by reflexivity. assert (T : tiny = 1 / 10 ^ 60) by reflexivity. clear - H1 H2 HP H3 H4 Hw He Hf BIG U T.
  pose proof (prod_le _ _ _ _ HP Hw) as PW. pose proof (prod_le _ _ _ _ He PW) as EPW. pose proof (prod_le _ _ _ _ He HP) as EP. pose proof (prod_le _ _ _ _ Hf Hw) as FW.
  assert (TP : 0 <= tiny * P <= tiny * 1) by (apply prod_le; [rewrite T; lra|exact HP]).
  assert (UW : 0 <= ulp1 * w <= ulp1 * (1 / 16)) by (apply prod_le; [rewrite U; lra|exact Hw]).
  assert (UPW : 0 <= ulp1 * (P * w) <= ulp1 * (1 * (1 / 16))) by (apply prod_le; [rewrite U; lra|exact PW]).
  assert (UEPW : 0 <= ulp1 * (e * (P * w)) <= ulp1 * (66 * ulp1 * (P * w))). { split; [apply Rmult_le_pos; [rewrite U; lra|lra]|]. apply Rmult_le_compat_l; [rewrite U; lra|]. apply Rmult_le_compat_r; lra. }
  assert (TEP : 0 <= tiny * (e * P) <= tiny * (66 * ulp1 * 1)) by (apply prod_le; [rewrite T; lra|exact EP]).
  assert (FUW : 0 <= f * (ulp1 * w) <= 66 * tiny * (ulp1 * (1 / 16))) by (apply prod_le; assumption).
  assert (FT : 0 <= f * tiny <= 66 * tiny * tiny) by (apply prod_le; [assumption|rewrite T; lra]).
  set (N := P * (ulp1 * w + tiny) + w * (e * P + f) + (e * P + f) * (ulp1 * w + tiny)).
  assert (HN : 0 <= N <= e * (P * w) + 11 / 10 * ulp1 * (P * w) + f * (1 / 8) + 11 / 10 * tiny).
  { replace N with (ulp1 * (P * w) + tiny * P + e * (P * w) + f * w + ulp1 * (e * (P * w)) + tiny * (e * P) + f * (ulp1 * w) + f * tiny) by (unfold N; ring).
    replace (11 / 10 * ulp1 * (P * w)) with (11 / 10 * (ulp1 * (P * w))) by ring. replace (ulp1 * (66 * ulp1 * (P * w))) with (66 * ulp1 * (ulp1 * (P * w))) in UEPW by ring.
    assert (F8 : f * w <= f * (1 / 16)) by (apply Rmult_le_compat_l; lra).
    assert (X1 : 66 * ulp1 * (ulp1 * (P * w)) <= 1 / 100 * (ulp1 * (P * w))) by (apply Rmult_le_compat_r; [lra|rewrite U; lra]).
    assert (X2 : f * (ulp1 * w) <= f * (1 / 100)) by (apply Rmult_le_compat_l; [lra|rewrite U in *; lra]).
    assert (X3 : f * tiny <= f * (1 / 100)) by (apply Rmult_le_compat_l; [lra|rewrite T; lra]).
    assert (X4 : tiny * (66 * ulp1 * 1) <= tiny * (1 / 100)) by (apply Rmult_le_compat_l; [rewrite T; lra|rewrite U; lra]).
    split; lra. }
  destruct (fl_mul den D (e * P + f) P inv i (ulp1 * w + tiny) w ((e + 3 * ulp1) * (P * w) + (f + 3 * tiny)) H1 H2 H3 H4) as (v & E & B).
  - fold N. rewrite U, T in *. lra.
  - fold N. assert (X : ulp1 * (P * w + N) <= ulp1 * (P * w) + ulp1 * (e * (P * w)) + 11 / 10 * ulp1 * (ulp1 * (P * w)) + ulp1 * (f * (1 / 8)) + ulp1 * (11 / 10 * tiny)).
    { replace (ulp1 * (P * w) + ulp1 * (e * (P * w)) + 11 / 10 * ulp1 * (ulp1 * (P * w)) + ulp1 * (f * (1 / 8)) + ulp1 * (11 / 10 * tiny)) with (ulp1 * (P * w + (e * (P * w) + 11 / 10 * ulp1 * (P * w) + f * (1 / 8) + 11 / 10 * tiny))) by ring. apply Rmult_le_compat_l; [rewrite U; lra|lra]. }
    replace ((e + 3 * ulp1) * (P * w)) with (e * (P * w) + 3 * (ulp1 * (P * w))) by ring. replace (11 / 10 * ulp1 * (P * w)) with (11 / 10 * (ulp1 * (P * w))) in HN by ring.
    replace (ulp1 * (66 * ulp1 * (P * w))) with (66 * ulp1 * (ulp1 * (P * w))) in UEPW by ring.
    set (q := ulp1 * (P * w)) in *. assert (X1 : 11 / 10 * ulp1 * q <= 1 / 100 * q) by (apply Rmult_le_compat_r; [lra|rewrite U; lra]). assert (X1' : 66 * ulp1 * q <= 1 / 100 * q) by (apply Rmult_le_compat_r; [lra|rewrite U; lra]).
    assert (X2 : ulp1 * (f * (1 / 8)) <= 1 / 100 * f) by (replace (ulp1 * (f * (1 / 8))) with (ulp1 * (1 / 8) * f) by ring; apply Rmult_le_compat_r; [lra|rewrite U; lra]).
    assert (X3 : ulp1 * (11 / 10 * tiny) <= 1 / 100 * tiny) by (replace (ulp1 * (11 / 10 * tiny)) with (ulp1 * (11 / 10) * tiny) by ring; apply Rmult_le_compat_r; [rewrite T; lra|rewrite U; lra]).
    assert (0 < tiny) by (rewrite T; lra). lra.
  - exists v. split; assumption.
Qed.

(** one term of the sum *)
Lemma term_step c r den D P e f : Rabs (c - r) <= 15 / 10 ^ 17 * r -> 0 <= r <= 10 ^ 30 -> Rabs (den - D) <= e * P + f -> Rabs D <= P -> 0 <= P <= 1 -> r * P <= 112000 ->
  0 <= e <= 60 * ulp1 -> 0 <= f <= 66 * tiny ->
  exists v, (let* c := fl c in fl (c * den)) = Ok v /\ Rabs (v - r * D) <= 65 * ulp1 * (r * P) + 1 / 10 ^ 27.
Proof.
  intros H1 Hr H2 H3 HP RP He Hf. assert (BIG : 10 ^ 40 <= 10 ^ 100) by (apply Rle_pow; [lra|lia]). assert (U : ulp1 = 1 / 2 ^ 53) by reflexivity. assert (T : tiny = 1 / 10 ^ 60) by reflexivity.
  assert (Ar : Rabs r <= r) by (rewrite Rabs_pos_eq; lra).
  destruct (near_fl c r (15 / 10 ^ 17 * r) r (3 * ulp1 * r + tiny) H1 Ar) as (c' & -> & Hc); [lra|rewrite U; lra|]. cbn [bind].
  pose proof (prod_le _ _ _ _ He HP) as EP. assert (Q0 : 0 <= r * P) by (apply Rmult_le_pos; lra). assert (RF : 0 <= r * f <= 10 ^ 30 * (66 * tiny)) by (apply prod_le; assumption).
  assert (REP : 0 <= e * (r * P) <= 60 * ulp1 * (r * P)) by (split; [apply Rmult_le_pos; lra|apply Rmult_le_compat_r; lra]).
  assert (UREP : ulp1 * (e * (r * P)) <= ulp1 * (60 * ulp1 * (r * P))) by (apply Rmult_le_compat_l; [rewrite U; lra|lra]).
  assert (UREP0 : 0 <= ulp1 * (e * (r * P))) by (apply Rmult_le_pos; [rewrite U; lra|lra]).
  assert (URF : 0 <= ulp1 * (r * f) <= ulp1 * (10 ^ 30 * (66 * tiny))) by (apply prod_le; [rewrite U; lra|exact RF]).
  assert (TP : 0 <= tiny * P <= tiny * 1) by (apply prod_le; [rewrite T; lra|exact HP]).
  assert (TEP : 0 <= tiny * (e * P) <= tiny * (60 * ulp1 * 1)) by (apply prod_le; [rewrite T; lra|exact EP]).
  assert (TF : 0 <= tiny * f <= tiny * (66 * tiny)) by (apply prod_le; [rewrite T; lra|exact Hf]).
  set (N := r * (e * P + f) + P * (3 * ulp1 * r + tiny) + (3 * ulp1 * r + tiny) * (e * P + f)).
  assert (HN : 0 <= N <= 635 / 10 * ulp1 * (r * P) + 1 / 10 ^ 28).
  { replace N with (e * (r * P) + r * f + 3 * ulp1 * (r * P) + tiny * P + 3 * (ulp1 * (e * (r * P))) + 3 * (ulp1 * (r * f)) + tiny * (e * P) + tiny * f) by (unfold N; ring). rewrite U, T in *. set (q := r * P) in *. set (eq := e * q) in *. split; lra. }
  destruct (fl_mul c' r (3 * ulp1 * r + tiny) r den D (e * P + f) P (65 * ulp1 * (r * P) + 1 / 10 ^ 27) Hc Ar H2 H3) as (v & E & B).
  - fold N. rewrite U, T in *. lra.
  - fold N. assert (X : ulp1 * (r * P + N) <= ulp1 * (r * P + (635 / 10 * ulp1 * (r * P) + 1 / 10 ^ 28))) by (apply Rmult_le_compat_l; [rewrite U; lra|lra]). rewrite U, T in *. lra.
  - exists v. split; [exact E|exact B].
Qed.

Lemma term_le n N x j : 0 < x -> (j < N)%nat -> rcoef n j / x ^ j <= rsum N (fun j => rcoef n j / x ^ j).
Proof.
  intros Hx. induction N as [|N IH]; [lia|]. intros H. cbn [rsum].
  assert (P : forall j, 0 <= rcoef n j / x ^ j) by (intros k; apply Rmult_le_pos; [apply rcoef_pos|left; apply Rinv_0_lt_compat, pow_lt, Hx]).
  destruct (Nat.eq_dec j N) as [-> |Ne]; [|specialize (IH ltac:(lia)); pose proof (P N); lra].
  assert (Q : 0 <= rsum N (fun j => rcoef n j / x ^ j)) by (apply rsum_nonneg; intros; apply P). lra.
Qed.

Lemma part_le n N M x : 0 < x -> (N <= M)%nat -> rsum N (fun j => rcoef n j / x ^ j) <= rsum M (fun j => rcoef n j / x ^ j).
Proof.
  intros Hx H. induction H as [|M H IH]; [lra|]. cbn [rsum]. assert (0 <= rcoef n M / x ^ M) by (apply Rmult_le_pos; [apply rcoef_pos|left; apply Rinv_0_lt_compat, pow_lt, Hx]). lra.
Qed.

Lemma rcoef_30 n k : (n <= 20)%nat -> (k <= n)%nat -> 0 <= rcoef n k <= 10 ^ 30.
Proof.
  intros Hn Hk. split; [apply rcoef_pos|]. pose proof (rfun_20 n 16 Hn ltac:(lra)) as R. rewrite (rfun_sum n 16 (S n)) in R by lia. pose proof (term_le n (S n) 16 k ltac:(lra) ltac:(lia)) as T.
  assert (Q : rcoef n k / 16 ^ k <= 112000) by lra. assert (P : 0 < 16 ^ k) by (apply pow_lt; lra). assert (P2 : 16 ^ k <= 16 ^ 20) by (apply Rle_pow; [lra|lia]).
  apply (Rmult_le_compat_r (16 ^ k)) in Q; [|lra]. unfold Rdiv in Q. rewrite Rmult_assoc, Rinv_l, Rmult_1_r in Q by lra. assert (112000 * 16 ^ k <= 112000 * 16 ^ 20) by (apply Rmult_le_compat_l; lra). lra.
Qed.

Lemma fl_asymptotic_ok n x : (0 <= n <= 20)%Z -> 16 < x -> x <= 10 ^ 99 ->
  exists v, fl_asymptotic n (- x) = Ok v /\ Rabs (v - rfun (Z.to_nat n) (- x)) <= 12 / 10 ^ 10.
Proof.
  intros Hn Hx HX. set (N := Z.to_nat n). pose proof hundred as BIG. assert (U : ulp1 = 1 / 2 ^ 53) by reflexivity. assert (T : tiny = 1 / 10 ^ 60) by reflexivity. unfold fl_asymptotic.
  set (w := / x). assert (W : 0 <= w <= 1 / 16) by (unfold w; split; [left; apply Rinv_0_lt_compat; lra|]; replace (1 / 16) with (/ 16) by field; apply Rinv_le_contravar; lra).
  assert (Ai : Rabs (1 / - x) = w). { unfold w. replace (1 / - x) with (- / x) by (field; lra). rewrite Rabs_Ropp, Rabs_pos_eq; [reflexivity|left; apply Rinv_0_lt_compat; lra]. }
  assert (Aj : Rabs (1 / - x) <= w) by lra.
  destruct (fl_exact (1 / - x) w (ulp1 * w + tiny) Aj ltac:(lra) ltac:(lra)) as (inv & -> & Hinv). cbn [bind].
  set (A := fun k => rsum k (fun j => rcoef N j / x ^ j)). set (S0 := fun k => rsum k (fun j => rcoef N j / (- x) ^ j)).
  assert (A20 : forall k, (k <= N + 1)%nat -> A k <= 112000). { intros k Hk. apply Rle_trans with (rfun N x); [|apply rfun_20; [unfold N; lia|lra]]. rewrite (rfun_sum N x (N + 1)) by lia. apply part_le; [lra|exact Hk]. }
  assert (A0 : forall k, 0 <= A k). { intros k. apply rsum_nonneg. intros j _. apply Rmult_le_pos; [apply rcoef_pos|left; apply Rinv_0_lt_compat, pow_lt; lra]. }
  assert (Dabs : forall j, Rabs (1 / (- x) ^ j) = / x ^ j). { intros j. unfold Rdiv. rewrite Rmult_1_l, Rabs_inv, <- RPow_abs, Rabs_Ropp, Rabs_pos_eq by lra. reflexivity. }
  assert (SA : forall k, Rabs (S0 k) <= A k). { intros k. unfold S0, A. apply rsum_abs. intros j _. right. unfold Rdiv. rewrite Rabs_mult, (Rabs_pos_eq _ (rcoef_pos N j)). f_equal. rewrite <- Dabs. unfold Rdiv. rewrite Rmult_1_l. reflexivity. }
  assert (WP : forall j, 0 <= / x ^ j <= 1). { intros j. assert (1 <= x ^ j) by (apply pow_R1_Rle; lra). split; [left; apply Rinv_0_lt_compat; lra|]. rewrite <- Rinv_1. apply Rinv_le_contravar; lra. }
  set (es := fun k : nat => 65 * ulp1 * A k + INR k * (112001 * ulp1 + 2 / 10 ^ 27)).
  assert (ES : forall k, (k <= N + 1)%nat -> 0 <= es k <= 12 / 10 ^ 10).
  { intros k Hk. unfold es. pose proof (A0 k). pose proof (A20 k Hk). pose proof (pos_INR k). assert (INR k <= 21) by (replace 21 with (INR 21) by (rewrite INR_IZR_INZ; reflexivity); apply le_INR; unfold N in Hk; lia).
    assert (X1 : 0 <= INR k * (112001 * ulp1 + 2 / 10 ^ 27) <= 21 * (112001 * ulp1 + 2 / 10 ^ 27)) by (apply prod_le; [lra|rewrite U; lra]). rewrite U in *. lra. }
  match goal with |- context [for_range 0 (n + 1) ?b (0, 1)] => destruct (for_range_ok (fun k '(s, d) => Rabs (d - 1 / (- x) ^ Z.to_nat k) <= 3 * INR (Z.to_nat k) * ulp1 * / x ^ Z.to_nat k + 3 * INR (Z.to_nat k) * tiny /\ Rabs (s - S0 (Z.to_nat k)) <= es (Z.to_nat k)) 0 (n + 1) b (0, 1) ltac:(lia)) as ((v & d) & E & _ & B) end.
  - cbn [Z.to_nat pow]. split; [replace (1 - 1 / 1) with 0 by field; rewrite Rabs_R0; cbn [INR]; lra|]. unfold S0. cbn [rsum]. rewrite Rminus_0_r, Rabs_R0. apply ES. lia.
  - intros k (s & d) Hk (Hd & Bs). destruct (rfun_get n k ltac:(lia) ltac:(lia)) as (c & -> & Bc). cbn [bind]. replace (Z.to_nat (k + 1)) with (S (Z.to_nat k)) by lia. set (j := Z.to_nat k) in *. fold N in Bc.
    assert (Hj : (j <= N)%nat) by (unfold j, N; lia). assert (J20 : INR j <= 20) by (replace 20 with (INR 20) by (rewrite INR_IZR_INZ; reflexivity); apply le_INR; unfold N in Hj; lia). pose proof (pos_INR j) as J0.
    assert (RP : rcoef N j * / x ^ j <= 112000). { eapply Rle_trans; [apply (term_le N (N + 1) x j); [lra|lia]|]. apply (A20 (N + 1)%nat). lia. }
    assert (E1 : 0 <= 3 * INR j * ulp1 <= 60 * ulp1) by (rewrite U; split; [apply Rmult_le_pos; lra|apply Rmult_le_compat_r; lra]).
    assert (F1 : 0 <= 3 * INR j * tiny <= 66 * tiny) by (rewrite T; split; [apply Rmult_le_pos; lra|apply Rmult_le_compat_r; lra]).
    destruct (term_step c (rcoef N j) d (1 / (- x) ^ j) (/ x ^ j) _ _ Bc (rcoef_30 N j ltac:(unfold N; lia) Hj) Hd ltac:(rewrite Dabs; lra) (WP j) RP E1 F1) as (p & Ep & Hp).
    destruct (den_step d (1 / (- x) ^ j) (/ x ^ j) inv (1 / - x) w _ _ Hd ltac:(rewrite Dabs; lra) (WP j) Hinv Aj W ltac:(lra) F1) as (d' & Ed & Hd').
    destruct (fl c) as [c'|fa]; [|discriminate]. cbn [bind] in Ep |- *. rewrite Ep. cbn [bind].
    assert (SS : S0 (S j) = S0 j + rcoef N j * (1 / (- x) ^ j)) by (unfold S0; cbn [rsum]; unfold Rdiv; rewrite Rmult_1_l; reflexivity).
    assert (AS : A (S j) = A j + rcoef N j * / x ^ j) by reflexivity.
    destruct (ES (S j) ltac:(lia)) as (_ & ES1). destruct (ES j ltac:(lia)) as (ES0 & _). pose proof (A20 (S j) ltac:(lia)) as A1. pose proof (A0 j) as Aj0. pose proof (rcoef_pos N j) as RC. assert (Q0 : 0 <= rcoef N j * / x ^ j) by (apply Rmult_le_pos; [exact RC|apply WP]).
    assert (KEY : es j + (65 * ulp1 * (rcoef N j * / x ^ j) + 1 / 10 ^ 27) + 112001 * ulp1 + 1 / 10 ^ 27 = es (S j)) by (unfold es; rewrite AS, S_INR; field; apply pow_nonzero; lra).
    destruct (fl_add s (S0 j) (es j) p (rcoef N j * (1 / (- x) ^ j)) _ 112000 (es (S j)) Bs Hp) as (s' & Es & Hs).
    + rewrite <- SS. eapply Rle_trans; [apply SA|exact A1].
    + rewrite U in *. lra.
    + rewrite <- KEY. rewrite U, T in *. lra.
    + rewrite Es. cbn [bind]. rewrite Ed. cbn [bind]. eexists. split; [reflexivity|]. cbn beta iota. split; [|rewrite SS; exact Hs].
      replace (1 / (- x) ^ S j) with (1 / (- x) ^ j * (1 / - x)) by (cbn [pow]; field; repeat split; first [lra|apply pow_nonzero; lra]).
      replace (/ x ^ S j) with (/ x ^ j * w) by (unfold w; cbn [pow]; field; repeat split; first [lra|apply pow_nonzero; lra]). rewrite S_INR. eapply Rle_trans; [exact Hd'|]. right. ring.
  - cbv beta in E. rewrite E. cbn [bind]. exists v. split; [reflexivity|]. rewrite (rfun_sum N (- x) (Z.to_nat (n + 1))) by (unfold N; lia). eapply Rle_trans; [exact B|]. apply ES. unfold N. lia.
Qed.

Lemma fl_large tab n x : (0 <= n <= 20)%Z -> 16 < x -> x <= 10 ^ 99 -> exists v, fl_bessel_scaled tab n x = Ok v /\ Rabs (v - bessK (Z.to_nat n) x) <= 9 / 10 ^ 11.
Proof.
  intros Hn Hx HX. pose proof hundred as BIG. assert (U : ulp1 = 1 / 2 ^ 53) by reflexivity. assert (T : tiny = 1 / 10 ^ 60) by reflexivity. unfold fl_bessel_scaled.
  destruct (fl_exact (1 / 10 ^ 7) (1 / 10 ^ 7) (1 / 10 ^ 20) ltac:(rewrite Rabs_pos_eq; lra) ltac:(lra) ltac:(rewrite U, T; lra)) as (s & -> & Hs). cbn [bind]. apply Rabs_le_between in Hs.
  destruct (Rle_dec x s); [lra|]. destruct (Rle_dec x 16); [lra|]. set (N := Z.to_nat n) in *.
  destruct (fl_asymptotic_ok n x Hn Hx HX) as (r & -> & Hr). fold N in Hr. cbn [bind].
  assert (X2 : Rabs (2 * x) <= 2 * x) by (rewrite Rabs_pos_eq; lra).
  assert (BB : 10 ^ 100 = 10 * 10 ^ 99) by (rewrite <- tech_pow_Rmult; reflexivity).
  destruct (fl_exact (2 * x) (2 * x) (ulp1 * (2 * x) + tiny) X2 ltac:(lra) ltac:(lra)) as (d & -> & Hd). cbn [bind].
  pose proof (rfun_20 N x ltac:(unfold N; lia) ltac:(lra)) as R. pose proof (rfun_nonneg N x ltac:(lra)) as R0. pose proof (exp_32 x Hx) as Ex. pose proof (exp_pos (- (2 * x))) as E0.
  assert (RA : Rabs (rfun N (- x)) <= 112000).
  { eapply Rle_trans; [|exact R]. rewrite (rfun_sum N (- x) (S N)), (rfun_sum N x (S N)) by lia. apply rsum_abs. intros j _. right. unfold Rdiv. rewrite Rabs_mult, (Rabs_pos_eq _ (rcoef_pos N j)). f_equal. rewrite Rabs_inv, <- RPow_abs, Rabs_Ropp, Rabs_pos_eq by lra. reflexivity. }
  apply Rabs_le_between in Hd. assert (D : 2 * x * (1 - 2 * ulp1) <= d <= 2 * x * (1 + 2 * ulp1)) by (rewrite U, T in *; split; lra).
  assert (Dp : 31 < d) by (rewrite U in D; lra).
  set (q := r / d). set (Q := rfun N (- x) / (2 * x)).
  assert (AQ : Rabs Q <= 3500). { unfold Q, Rdiv. rewrite Rabs_mult, (Rabs_pos_eq (/ (2 * x))) by (left; apply Rinv_0_lt_compat; lra). apply Rle_trans with (112000 * / 32); [|lra]. apply Rmult_le_compat; [apply Rabs_pos|left; apply Rinv_0_lt_compat; lra|exact RA|apply Rinv_le_contravar; lra]. }
  assert (NQ : Rabs (q - Q) <= 40 / 10 ^ 12).
  { replace (q - Q) with ((r - rfun N (- x)) * / d + Q * ((2 * x - d) * / d)) by (unfold q, Q; field; split; lra). eapply Rle_trans; [apply Rabs_triang|].
    assert (I : 0 < / d <= / 31) by (split; [apply Rinv_0_lt_compat; lra|apply Rinv_le_contravar; lra]).
    assert (B1 : Rabs ((r - rfun N (- x)) * / d) <= 12 / 10 ^ 10 * / 31) by (rewrite Rabs_mult, (Rabs_pos_eq (/ d)) by lra; apply Rmult_le_compat; [apply Rabs_pos|lra|exact Hr|lra]).
    assert (B2 : Rabs ((2 * x - d) * / d) <= 3 * ulp1).
    { rewrite Rabs_mult, (Rabs_pos_eq (/ d)) by lra. apply Rmult_le_reg_r with d; [lra|]. rewrite Rmult_assoc, Rinv_l, Rmult_1_r by lra. apply Rabs_le. rewrite U in *. split; lra. }
    assert (B3 : Rabs (Q * ((2 * x - d) * / d)) <= 3500 * (3 * ulp1)) by (apply mult_bound; assumption). rewrite U in *. lra. }
  destruct (near_fl q Q _ _ (41 / 10 ^ 12) NQ AQ ltac:(lra) ltac:(rewrite U, T; lra)) as (v & Ev & Hv). exists v. split; [exact Ev|].
  rewrite bessK_closed by lra.
  assert (TT : Rabs (Q - (rfun N (- x) - (-1) ^ N * rfun N x * exp (- (2 * x))) / (2 * x)) <= 46 / 10 ^ 12).
  { replace (Q - _) with ((-1) ^ N * rfun N x * exp (- (2 * x)) * / (2 * x)) by (unfold Q; field; lra). apply Rle_trans with (112000 * (13 / 10 ^ 15) * / 32); [|lra].
    rewrite Rabs_mult, (Rabs_pos_eq (/ (2 * x))) by (left; apply Rinv_0_lt_compat; lra). apply Rmult_le_compat; [apply Rabs_pos|left; apply Rinv_0_lt_compat; lra| |apply Rinv_le_contravar; lra].
    rewrite Rabs_mult, (Rabs_pos_eq (exp _)) by lra. apply Rmult_le_compat; [apply Rabs_pos|lra| |exact Ex]. rewrite Rabs_mult, neg_pow_abs, Rmult_1_l, (Rabs_pos_eq _ R0). exact R. }
  eapply Rle_trans; [apply (abs_near v Q _ _ _ Hv TT)|]. lra.
Qed.

(** ** The table the library ships *)
Lemma row_bound i l : (0 <= i < 1601)%Z -> Rabs (row (bessel_entry i) l) <= 2.
Proof.
  intros Hi. unfold row. destruct (l <? 60)%nat eqn:L; [|rewrite Rabs_R0; lra]. apply Nat.ltb_lt in L. pose proof (table_accurate i l ltac:(lia) L) as A.
  assert (X : 0 <= IZR i / 100) by (apply Rmult_le_pos; [apply IZR_le; lia|lra]). pose proof (bessD_bound 0 l _ X) as B. cbn [bessD pow] in B. apply Rle_trans with (1 + 2 / 10 ^ 14); [|lra]. apply (near_abs _ _ _ _ A B).
Qed.

Theorem fl_bessel_thm : exists tab, fl_pretabulate bessel_table_0 bessel_table_init = Ok tab /\
  (forall n x, (0 <= n <= 51)%Z -> 0 <= x <= 16 -> exists v, fl_bessel_scaled tab n x = Ok v /\ Rabs (v - bessK (Z.to_nat n) x) <= 1 / 10 ^ 12) /\
  (forall n x, (0 <= n <= 20)%Z -> 0 <= x <= 10 ^ 99 -> exists v, fl_bessel_scaled tab n x = Ok v /\ Rabs (v - bessK (Z.to_nat n) x) <= 1 / 10 ^ 10).
Proof.
  assert (HT : holds_table0 bessel_table_0 (fun i => row (bessel_entry i))).
  { intros i l Hi Hl. rewrite (table_holds i l Hi Hl). unfold row. replace (Z.to_nat l <? 60)%nat with true by (symmetry; apply Nat.ltb_lt; lia). reflexivity. }
  assert (HA : accurate_table0 (fun i => row (bessel_entry i)) (2 / 10 ^ 14)).
  { intros i l Hi Hl. unfold row. replace (l <? 60)%nat with true by (symmetry; apply Nat.ltb_lt; lia). apply table_accurate; assumption. }
  destruct (fpretabulate_ok _ _ 2 HT (fun i l Hi => row_bound i l Hi) ltac:(lra)) as (tab & E & _). exists tab. split; [exact E|].
  assert (L : forall n x, (0 <= n <= 51)%Z -> 0 <= x <= 16 -> exists v, fl_bessel_scaled tab n x = Ok v /\ Rabs (v - bessK (Z.to_nat n) x) <= 1 / 10 ^ 12).
  { intros n x Hn Hx. destruct (fl_lookup _ _ tab HT (fun i l Hi => row_bound i l Hi) HA E n x Hn Hx) as (v & Ev & Hv). exists v. split; [exact Ev|lra]. }
  split; [exact L|]. intros n x Hn (H0 & H1). destruct (Rle_dec x 16) as [S|S].
  - destruct (L n x ltac:(lia) ltac:(lra)) as (v & Ev & Hv). exists v. split; [exact Ev|lra].
  - destruct (fl_large tab n x Hn ltac:(lra) H1) as (v & Ev & Hv). exists v. split; [exact Ev|lra].
Qed.
