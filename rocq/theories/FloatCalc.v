(** * Error analysis in double precision

    [ap k M A a]: the computed number a differs from the exact number A, itself at most M in
    modulus, by at most k units of roundoff of M. *)

From Coq Require Import ZArith Reals Lra Lia.
From Flocq Require Import Core Relative.
From Verif Require Import Base FloatBase.
Open Scope R_scope.

(** range in which results neither overflow nor lose accuracy by underflow *)
Definition lo : R := / 2 ^ 1000.
Definition hi : R := 2 ^ 1000.

Lemma lo_pos : 0 < lo. Proof. apply Rinv_0_lt_compat, pow_lt. lra. Qed.
Lemma hi_1 : 1 <= hi. Proof. apply pow_R1_Rle. lra. Qed.

Lemma b64_err_lo x : Rabs (b64 x - x) <= ulp1 * Rabs x + ulp1 * (1 / 1000) * lo.
Proof.
  destruct (error_N_FLT radix2 (-1074) 53 ltac:(lia) (fun x => negb (Z.even x)) x) as (eps & eta & He & Ht & _ & E).
  unfold b64, b64_exp. change ZnearestE with (Znearest (fun x => negb (Z.even x))). rewrite E. replace (x * (1 + eps) + eta - x) with (eps * x + eta) by ring.
  eapply Rle_trans; [apply Rabs_triang|]. rewrite Rabs_mult.
  pose proof (bpow_minus 52) as Q1. change (- Z.of_nat 52)%Z with (Z.opp 53 + 1)%Z in Q1. rewrite Q1 in He.
  pose proof (bpow_minus 1074) as Q2. change (- Z.of_nat 1074)%Z with (-1074)%Z in Q2. rewrite Q2 in Ht.
  apply Rplus_le_compat.
  - apply Rmult_le_compat_r; [apply Rabs_pos|]. eapply Rle_trans; [exact He|]. unfold ulp1. lra.
  - eapply Rle_trans; [exact Ht|]. unfold ulp1, lo. replace 1074%nat with (74 + 1000)%nat by reflexivity. rewrite pow_add. assert (P : 2 ^ 1000 <> 0) by (apply pow_nonzero; lra). rewrite Rinv_mult by (try assumption; apply pow_nonzero; lra).
    assert (P0 : 0 < / 2 ^ 1000) by (apply Rinv_0_lt_compat, pow_lt; lra). set (q := / 2 ^ 1000) in *. clearbody q. rewrite <- Rmult_assoc. apply Rmult_le_compat_r; [lra|]. lra.
Qed.

Lemma fl_ok_hi x : Rabs x <= 2 * hi -> fl x = Ok (b64 x).
Proof.
  intros H. unfold fl. destruct (Rlt_dec (Rabs (b64 x)) (2 ^ 1024)) as [_|N]; [reflexivity|]. exfalso. apply N. pose proof (b64_err_lo x) as E.
  assert (B : Rabs (b64 x) <= 2 * Rabs x + 1).
  { replace (b64 x) with (x + (b64 x - x)) by ring. eapply Rle_trans; [apply Rabs_triang|]. pose proof (Rabs_pos x) as P. assert (L : lo <= 1) by (unfold lo; rewrite <- Rinv_1; apply Rinv_le_contravar; [lra|apply hi_1]).
    assert (U1 : ulp1 * Rabs x <= 1 * Rabs x) by (apply Rmult_le_compat_r; [exact P|unfold ulp1; lra]). assert (U2 : ulp1 * (1 / 1000) * lo <= 1 * 1) by (apply Rmult_le_compat; try (unfold ulp1; lra); left; apply lo_pos). lra. }
  eapply Rle_lt_trans; [exact B|]. unfold hi in *. replace 1024%nat with (1000 + 24)%nat by reflexivity. rewrite pow_add. assert (1 <= 2 ^ 1000) by (apply pow_R1_Rle; lra).
  assert (2 ^ 1000 * 8 <= 2 ^ 1000 * 2 ^ 24) by (apply Rmult_le_compat_l; lra). lra.
Qed.

Definition ap (k M A a : R) : Prop := Rabs A <= M /\ Rabs (a - A) <= k * ulp1 * M.
Definition inr (M : R) : Prop := lo <= M <= hi.

Lemma ap_exact M A : Rabs A <= M -> ap 0 M A A.
Proof. intros H. split; [exact H|]. rewrite Rminus_eq_0, Rabs_R0. lra. Qed.

Lemma ap_M k M A a : ap k M A a -> 0 <= M.
Proof. intros (H & _). eapply Rle_trans; [apply Rabs_pos|exact H]. Qed.

Lemma ap_weak k M A a k' M' : ap k M A a -> k <= k' -> 0 <= k' -> M <= M' -> ap k' M' A a.
Proof.
  intros H K K0 HM. pose proof (ap_M _ _ _ _ H) as M0. destruct H as (H1 & H2). split; [lra|]. eapply Rle_trans; [exact H2|]. pose proof ulp1_pos as U.
  apply Rle_trans with (k' * ulp1 * M); [apply Rmult_le_compat_r; [exact M0|]; apply Rmult_le_compat_r; lra|]. apply Rmult_le_compat_l; [apply Rmult_le_pos; lra|exact HM].
Qed.

Lemma ap_round k M A a : ap k M A a -> 0 <= k <= 10 ^ 6 -> inr M -> exists v, fl a = Ok v /\ ap (k + 101 / 100) M A v.
Proof.
  intros (H1 & H2) K (L & Hh). pose proof ulp1_pos as U. pose proof lo_pos as LP. assert (U6 : k * ulp1 <= 1 / 1000) by (apply Rle_trans with (10 ^ 6 * (12 / 10 ^ 17)); [apply Rmult_le_compat; lra|lra]).
  assert (KM : k * ulp1 * M <= 1 / 1000 * M) by (apply Rmult_le_compat_r; lra).
  assert (Aa : Rabs a <= 1001 / 1000 * M) by (replace a with (A + (a - A)) by ring; eapply Rle_trans; [apply Rabs_triang|]; lra).
  exists (b64 a). split; [apply fl_ok_hi; lra|]. split; [exact H1|]. pose proof (b64_err_lo a) as E.
  replace (b64 a - A) with ((b64 a - a) + (a - A)) by ring. eapply Rle_trans; [apply Rabs_triang|].
  assert (X : ulp1 * Rabs a <= ulp1 * (1001 / 1000 * M)) by (apply Rmult_le_compat_l; lra). assert (Y : ulp1 * (1 / 1000) * lo <= ulp1 * (1 / 1000) * M) by (apply Rmult_le_compat_l; [lra|exact L]).
  assert (UM : 0 <= ulp1 * M) by (apply Rmult_le_pos; lra). replace ((k + 101 / 100) * ulp1 * M) with (k * ulp1 * M + 101 / 100 * (ulp1 * M)) by ring. lra.
Qed.

Lemma ap_mult k1 k2 M1 M2 A a B b : ap k1 M1 A a -> ap k2 M2 B b -> 0 <= k1 <= 10 ^ 6 -> 0 <= k2 <= 10 ^ 6 -> ap (k1 + k2 + 1 / 1000) (M1 * M2) (A * B) (a * b).
Proof.
  intros H1 H2 K1 K2. pose proof (ap_M _ _ _ _ H1) as P1. pose proof (ap_M _ _ _ _ H2) as P2. destruct H1 as (H1 & E1). destruct H2 as (H2 & E2). pose proof ulp1_pos as U. split; [apply mult_bound; assumption|].
  eapply Rle_trans; [apply (near_mult a A _ M1 b B _ M2 E1 H1 E2 H2)|].
  assert (KK : k1 * (k2 * ulp1) <= 1 / 1000). { apply Rle_trans with (10 ^ 6 * (10 ^ 6 * (12 / 10 ^ 17))); [|lra]. apply Rmult_le_compat; try lra; [apply Rmult_le_pos; lra|]. apply Rmult_le_compat; lra. }
  assert (Q : 0 <= ulp1 * (M1 * M2)) by (apply Rmult_le_pos; [lra|apply Rmult_le_pos; assumption]).
  replace (M1 * (k2 * ulp1 * M2) + M2 * (k1 * ulp1 * M1) + k1 * ulp1 * M1 * (k2 * ulp1 * M2)) with ((k1 + k2) * (ulp1 * (M1 * M2)) + k1 * (k2 * ulp1) * (ulp1 * (M1 * M2))) by ring.
  replace ((k1 + k2 + 1 / 1000) * ulp1 * (M1 * M2)) with ((k1 + k2) * (ulp1 * (M1 * M2)) + 1 / 1000 * (ulp1 * (M1 * M2))) by ring. apply Rplus_le_compat_l. apply Rmult_le_compat_r; assumption.
Qed.

Lemma ap_plus k M1 M2 A a B b : ap k M1 A a -> ap k M2 B b -> ap k (M1 + M2) (A + B) (a + b).
Proof.
  intros (H1 & E1) (H2 & E2). split; [eapply Rle_trans; [apply Rabs_triang|lra]|]. replace (a + b - (A + B)) with ((a - A) + (b - B)) by ring. eapply Rle_trans; [apply Rabs_triang|]. rewrite Rmult_plus_distr_l. lra.
Qed.

Lemma ap_opp k M A a : ap k M A a -> ap k M (- A) (- a).
Proof. intros (H1 & E1). split; [rewrite Rabs_Ropp; exact H1|]. replace (- a - - A) with (- (a - A)) by ring. rewrite Rabs_Ropp. exact E1. Qed.

Lemma ap_inv k B b : 0 < B -> ap k B B b -> 0 <= k <= 10 ^ 6 -> 0 < b /\ ap (k + 1 / 1000) (/ B) (/ B) (/ b).
Proof.
  intros HB (_ & E) K. pose proof ulp1_pos as U. assert (U6 : 0 <= k * ulp1 <= 1 / 1000) by (split; [apply Rmult_le_pos; lra|]; apply Rle_trans with (10 ^ 6 * (12 / 10 ^ 17)); [apply Rmult_le_compat; lra|lra]).
  assert (K2 : k * (k * ulp1) <= 2 / 10 ^ 4) by (apply Rle_trans with (10 ^ 6 * (10 ^ 6 * (12 / 10 ^ 17))); [apply Rmult_le_compat; try lra; apply Rmult_le_compat; lra|lra]).
  pose proof E as E'. apply Rabs_le_inv in E. set (d := k * ulp1) in *. assert (Bd : b >= B * (1 - d)) by lra. assert (B0 : 0 < b) by (apply Rlt_le_trans with (B * (1 - d)); [apply Rmult_lt_0_compat; lra|lra]).
  split; [exact B0|]. split; [rewrite Rabs_pos_eq; [lra|left; apply Rinv_0_lt_compat, HB]|].
  replace (/ b - / B) with (- ((b - B) * (/ b * / B))) by (field; split; lra). rewrite Rabs_Ropp, Rabs_mult, (Rabs_pos_eq (/ b * / B)) by (apply Rmult_le_pos; left; apply Rinv_0_lt_compat; lra).
  apply Rle_trans with (d * B * (/ b * / B)); [apply Rmult_le_compat_r; [apply Rmult_le_pos; left; apply Rinv_0_lt_compat; lra|exact E']|]. replace (d * B * (/ b * / B)) with (d * / b) by (field; split; lra).
  apply Rmult_le_reg_r with (b * B); [apply Rmult_lt_0_compat; assumption|]. replace (d * / b * (b * B)) with (d * B) by (field; lra). replace ((k + 1 / 1000) * ulp1 * / B * (b * B)) with ((k + 1 / 1000) * ulp1 * b) by (field; lra).
  apply Rle_trans with ((k + 1 / 1000) * ulp1 * (B * (1 - d))); [|apply Rmult_le_compat_l; [apply Rmult_le_pos; lra|lra]].
  replace ((k + 1 / 1000) * ulp1 * (B * (1 - d))) with ((d + 1 / 1000 * ulp1 - k * d * ulp1 - 1 / 1000 * ulp1 * d) * B) by (unfold d; ring). apply Rmult_le_compat_r; [lra|].
  assert (X1 : k * d * ulp1 <= 2 / 10 ^ 4 * ulp1) by (apply Rmult_le_compat_r; lra). assert (X2 : 1 / 1000 * ulp1 * d <= 1 / 1000 * ulp1 * (1 / 1000)) by (apply Rmult_le_compat_l; lra). lra.
Qed.

Lemma ap_sqrt k A a : 0 < A -> ap k A A a -> 0 <= k <= 10 ^ 6 -> ap k (sqrt A) (sqrt A) (sqrt a).
Proof.
  intros HA (_ & E) K. pose proof ulp1_pos as U. assert (U6 : 0 <= k * ulp1 <= 1 / 1000) by (split; [apply Rmult_le_pos; lra|]; apply Rle_trans with (10 ^ 6 * (12 / 10 ^ 17)); [apply Rmult_le_compat; lra|lra]).
  assert (E0 := E). apply Rabs_le_inv in E0. assert (KA : k * ulp1 * A <= 1 / 1000 * A) by (apply Rmult_le_compat_r; lra). assert (a0 : 0 < a) by lra.
  pose proof (sqrt_lt_R0 A HA) as SA. pose proof (sqrt_lt_R0 a a0) as Sa. split; [rewrite Rabs_pos_eq; lra|].
  assert (Q : sqrt a - sqrt A = (a - A) * / (sqrt a + sqrt A)). { rewrite <- (sqrt_sqrt a) at 2 by lra. rewrite <- (sqrt_sqrt A) at 2 by lra. field. lra. }
  rewrite Q, Rabs_mult, (Rabs_pos_eq (/ _)) by (left; apply Rinv_0_lt_compat; lra). apply Rmult_le_reg_r with (sqrt a + sqrt A); [lra|]. rewrite Rmult_assoc, Rinv_l, Rmult_1_r by lra.
  eapply Rle_trans; [exact E|]. rewrite <- (sqrt_sqrt A) at 1 by lra. rewrite <- Rmult_assoc. apply Rmult_le_compat_l; [apply Rmult_le_pos; lra|lra].
Qed.

(** exponential of a nonpositive number *)
Lemma exp_mono_le x y : x <= y -> exp x <= exp y.
Proof. intros [H| ->]; [left; apply exp_increasing, H|right; reflexivity]. Qed.

Lemma exp_diff a b m : m <= a -> m <= b -> Rabs (exp (- a) - exp (- b)) <= Rabs (a - b) * exp (- m).
Proof.
  assert (G : forall a b, m <= a -> a <= b -> Rabs (exp (- a) - exp (- b)) <= Rabs (a - b) * exp (- m)).
  { intros a' b' Ha Hab. rewrite (Rabs_left1 (a' - b')) by lra. rewrite Rabs_pos_eq by (pose proof (exp_mono_le (- b') (- a') ltac:(lra)); lra).
    apply Rle_trans with ((- (a' - b')) * exp (- a')); [|apply Rmult_le_compat_l; [lra|apply exp_mono_le; lra]].
    replace (- b') with (- a' + (a' - b')) by ring. rewrite exp_plus. pose proof (exp_ineq1_le (a' - b')) as X. pose proof (exp_pos (- a')) as P.
    assert (exp (- a') * (1 + (a' - b')) <= exp (- a') * exp (a' - b')) by (apply Rmult_le_compat_l; lra). lra. }
  intros Ha Hb. destruct (Rle_dec a b) as [L|L]; [apply G; assumption|]. rewrite (Rabs_minus_sym (exp _)), (Rabs_minus_sym a). apply G; lra.
Qed.

Lemma ap_exp k t t' : 0 <= t -> Rabs (t' - t) <= k * ulp1 * (1 + t) -> 0 <= k <= 10 ^ 6 -> ap (k + 1 / 1000) 1 (exp (- t)) (exp (- t')).
Proof.
  intros Ht E K. pose proof ulp1_pos as U. assert (U6 : 0 <= k * ulp1 <= 1 / 1000) by (split; [apply Rmult_le_pos; lra|]; apply Rle_trans with (10 ^ 6 * (12 / 10 ^ 17)); [apply Rmult_le_compat; lra|lra]).
  assert (K2 : k * (k * ulp1) <= 2 / 10 ^ 4) by (apply Rle_trans with (10 ^ 6 * (10 ^ 6 * (12 / 10 ^ 17))); [apply Rmult_le_compat; try lra; apply Rmult_le_compat; lra|lra]).
  set (d := k * ulp1) in *. split; [rewrite Rabs_pos_eq by (left; apply exp_pos); rewrite <- exp_0; apply exp_mono_le; lra|].
  assert (E0 := E). apply Rabs_le_inv in E0. assert (D0 : 0 <= d * (1 + t)) by (apply Rmult_le_pos; lra).
  eapply Rle_trans; [apply (exp_diff t' t (t - d * (1 + t))); lra|].
  set (y := (1 - d) * (1 + t)). replace (- (t - d * (1 + t))) with (1 - y) by (unfold y; ring).
  assert (Y : y * exp (1 - y) <= 1). { pose proof (exp_ineq1_le (y - 1)) as X. assert (Q : exp (y - 1) * exp (1 - y) = 1) by (rewrite <- exp_plus; replace (y - 1 + (1 - y)) with 0 by ring; apply exp_0). pose proof (exp_pos (1 - y)). apply Rle_trans with (exp (y - 1) * exp (1 - y)); [apply Rmult_le_compat_r; lra|lra]. }
  apply Rle_trans with (d * (1 + t) * exp (1 - y)); [apply Rmult_le_compat_r; [left; apply exp_pos|exact E]|].
  replace (d * (1 + t) * exp (1 - y)) with (d * / (1 - d) * (y * exp (1 - y))) by (unfold y; field; lra). apply Rle_trans with (d * / (1 - d) * 1); [apply Rmult_le_compat_l; [apply Rmult_le_pos; [lra|left; apply Rinv_0_lt_compat; lra]|exact Y]|].
  rewrite !Rmult_1_r. apply Rmult_le_reg_r with (1 - d); [lra|]. rewrite Rmult_assoc, Rinv_l, Rmult_1_r by lra.
  replace ((k + 1 / 1000) * ulp1 * (1 - d)) with (d + 1 / 1000 * ulp1 - k * d * ulp1 - 1 / 1000 * ulp1 * d) by (unfold d; ring).
  assert (X1 : k * d * ulp1 <= 2 / 10 ^ 4 * ulp1) by (apply Rmult_le_compat_r; lra). assert (X2 : 1 / 1000 * ulp1 * d <= 1 / 1000 * ulp1 * (1 / 1000)) by (apply Rmult_le_compat_l; lra). lra.
Qed.

(** ** Rounded operations *)
Lemma ap_fmul k1 k2 M1 M2 A a B b : ap k1 M1 A a -> ap k2 M2 B b -> 0 <= k1 <= 10 ^ 5 -> 0 <= k2 <= 10 ^ 5 -> inr (M1 * M2) -> exists v, fl (a * b) = Ok v /\ ap (k1 + k2 + 102 / 100) (M1 * M2) (A * B) v.
Proof.
  intros H1 H2 K1 K2 R. destruct (ap_round _ _ _ _ (ap_mult k1 k2 M1 M2 A a B b H1 H2 ltac:(lra) ltac:(lra)) ltac:(lra) R) as (v & E & H). exists v. split; [exact E|]. eapply ap_weak; [exact H|lra|lra|lra].
Qed.

Lemma ap_fadd k k1 k2 M1 M2 A a B b : ap k1 M1 A a -> ap k2 M2 B b -> k1 <= k -> k2 <= k -> 0 <= k <= 10 ^ 5 -> inr (M1 + M2) -> exists v, fl (a + b) = Ok v /\ ap (k + 101 / 100) (M1 + M2) (A + B) v.
Proof.
  intros H1 H2 K1 K2 K R. destruct (ap_round k (M1 + M2) (A + B) (a + b)) as (v & E & V); [apply ap_plus; eapply ap_weak; eauto; lra|lra|exact R|]. exists v. split; assumption.
Qed.

Lemma ap_fsub k k1 k2 M1 M2 A a B b : ap k1 M1 A a -> ap k2 M2 B b -> k1 <= k -> k2 <= k -> 0 <= k <= 10 ^ 5 -> inr (M1 + M2) -> exists v, fl (a - b) = Ok v /\ ap (k + 101 / 100) (M1 + M2) (A - B) v.
Proof. intros H1 H2 K1 K2 K R. unfold Rminus. apply (ap_fadd k k1 k2); try assumption. apply ap_opp. exact H2. Qed.

Lemma ap_fdiv k1 k2 M A a B b : ap k1 M A a -> 0 < B -> ap k2 B B b -> 0 <= k1 <= 10 ^ 5 -> 0 <= k2 <= 10 ^ 4 -> inr (M / B) -> exists v, fl (a / b) = Ok v /\ ap (k1 + k2 + 103 / 100) (M / B) (A / B) v.
Proof.
  intros H1 HB H2 K1 K2 R. destruct (ap_inv k2 B b HB H2 ltac:(lra)) as (_ & I). destruct (ap_fmul k1 (k2 + 1 / 1000) M (/ B) A a (/ B) (/ b) H1 ltac:(exact I)) as (v & E & H); [lra| |exact R|].
  - lra.
  - exists v. split; [exact E|]. eapply ap_weak; [exact H|lra|lra|unfold Rdiv; lra].
Qed.

(** ** Orders of magnitude *)
Definition mag10 (e : nat) (M : R) : Prop := / 10 ^ e <= M <= 10 ^ e.

Lemma p10 e : 0 < 10 ^ e. Proof. apply pow_lt. lra. Qed.
Lemma mag10_pos e M : mag10 e M -> 0 < M.
Proof. intros (H & _). eapply Rlt_le_trans; [|exact H]. apply Rinv_0_lt_compat, p10. Qed.

Lemma mag10_weak e f M : mag10 e M -> (e <= f)%nat -> mag10 f M.
Proof. intros (H1 & H2) L. assert (P : 10 ^ e <= 10 ^ f) by (apply Rle_pow; [lra|exact L]). split; [eapply Rle_trans; [|exact H1]; apply Rinv_le_contravar; [apply p10|exact P]|lra]. Qed.

Lemma mag10_mul e f M N : mag10 e M -> mag10 f N -> mag10 (e + f) (M * N).
Proof.
  intros H1 H2. pose proof (mag10_pos _ _ H1). pose proof (mag10_pos _ _ H2). destruct H1, H2. pose proof (p10 e). pose proof (p10 f). split.
  - rewrite pow_add, Rinv_mult by lra. apply Rmult_le_compat; try assumption; left; apply Rinv_0_lt_compat; assumption.
  - rewrite pow_add. apply Rmult_le_compat; lra.
Qed.

Lemma mag10_inv e M : mag10 e M -> mag10 e (/ M).
Proof.
  intros H. pose proof (mag10_pos _ _ H) as P. destruct H as (H1 & H2). pose proof (p10 e). split; [apply Rinv_le_contravar; lra|]. rewrite <- (Rinv_inv (10 ^ e)). apply Rinv_le_contravar; [apply Rinv_0_lt_compat; assumption|exact H1].
Qed.

Lemma mag10_div e f M N : mag10 e M -> mag10 f N -> mag10 (e + f) (M / N).
Proof. intros H1 H2. apply mag10_mul; [exact H1|apply mag10_inv, H2]. Qed.

Lemma mag10_1 : mag10 0 1. Proof. unfold mag10. cbn [pow]. rewrite Rinv_1. lra. Qed.

Lemma mag10_pow e M n : mag10 e M -> mag10 (n * e) (M ^ n).
Proof. intros H. induction n as [|n IH]; [apply mag10_1|]. cbn [pow Nat.mul]. apply mag10_mul; assumption. Qed.

Lemma mag10_sqrt e M : mag10 (2 * e) M -> mag10 e (sqrt M).
Proof.
  intros H. pose proof (mag10_pos _ _ H) as P. destruct H as (H1 & H2). pose proof (p10 e) as Pe. assert (Q : 10 ^ (2 * e) = 10 ^ e * 10 ^ e) by (replace (2 * e)%nat with (e + e)%nat by lia; apply pow_add). rewrite Q in *. split.
  - rewrite <- (sqrt_square (/ 10 ^ e)) by (left; apply Rinv_0_lt_compat; assumption). apply sqrt_le_1_alt. rewrite <- Rinv_mult by lra. exact H1.
  - rewrite <- (sqrt_square (10 ^ e)) by lra. apply sqrt_le_1_alt. exact H2.
Qed.

Lemma hi_10 : 10 ^ 300 <= hi.
Proof. assert (H : 10 ^ (3 * 100) <= 2 ^ (10 * 100)) by (rewrite (pow_mult 10 3 100), (pow_mult 2 10 100); apply pow_incr; lra). exact H. Qed.

Lemma mag10_inr e M : mag10 e M -> (e <= 300)%nat -> inr M.
Proof.
  intros H L. apply (mag10_weak e 300 M) in H; [|exact L]. destruct H as (H1 & H2). pose proof hi_10 as T. split; [|lra]. eapply Rle_trans; [|exact H1]. unfold lo. apply Rinv_le_contravar; [apply p10|exact T].
Qed.

Lemma inr_between e f M1 M M2 : mag10 e M1 -> M1 <= M -> M <= M2 -> mag10 f M2 -> (e <= 300)%nat -> (f <= 300)%nat -> inr M.
Proof. intros H1 L1 L2 H2 E F. destruct (mag10_inr _ _ H1 E). destruct (mag10_inr _ _ H2 F). split; lra. Qed.
