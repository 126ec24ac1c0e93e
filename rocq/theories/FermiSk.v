(** * The function S_k(x) = sum over n >= 1 of (-1)^n exp(n x) / n^k for x <= 0

    It satisfies S_(k+1)' = S_k, S_2' = -ln(1 + e^x), has known values at 0 for k = 2, 4, 6
    and decays like e^x; it extends to a function with the same derivatives on the whole line. *)

From Coq Require Import Reals Lra Lia.
From Coquelicot Require Import Coquelicot.
From Verif Require Import EtaValues.
Open Scope R_scope.

(** the term of index n + 1 *)
Definition sk_term (k : nat) (x : R) (n : nat) : R := (-1) ^ S n * exp (INR (S n) * x) / INR (S n) ^ k.

Lemma INR_S_pos n : 0 < INR (S n).
Proof. apply lt_0_INR. lia. Qed.

(** terms dominated by 1/(n+1)^2 *)
Section Tail.
Variable a : nat -> R.
Hypothesis Ha : forall n, Rabs (a n) <= / (INR (S n)) ^ 2.

Lemma tail_partial N M : Rabs (sum_n a (N + M) - sum_n a N) <= / INR (S N) - / INR (S (N + M)).
Proof.
  induction M as [|M IH].
  - rewrite Nat.add_0_r, !Rminus_eq_0, Rabs_R0. lra.
  - assert (E : sum_n a (S (N + M)) = sum_n a (N + M) + a (S (N + M))) by (rewrite sum_Sn; reflexivity).
    rewrite <- plus_n_Sm, E.
    pose proof (Ha (S (N + M))) as H1. pose proof (INR_S_pos (N + M)) as P1. pose proof (INR_S_pos (S (N + M))) as P2.
    assert (Hs : / INR (S (S (N + M))) ^ 2 <= / INR (S (N + M)) - / INR (S (S (N + M)))).
    { rewrite (S_INR (S (N + M))). set (y := INR (S (N + M))) in *.
      replace (/ y - / (y + 1)) with (/ (y * (y + 1))) by (field; lra).
      apply Rinv_le_contravar; [apply Rmult_lt_0_compat; lra|]. nra. }
    replace (sum_n a (N + M) + a (S (N + M)) - sum_n a N) with ((sum_n a (N + M) - sum_n a N) + a (S (N + M))) by ring.
    apply Rle_trans with (1 := Rabs_triang _ _). lra.
Qed.

Lemma tail_series l N : is_series a l -> Rabs (l - sum_n a N) <= / INR (S N).
Proof.
  intros H. pose proof (INR_S_pos N).
  assert (L : is_lim_seq (fun M => Rabs (sum_n a (N + M) - sum_n a N)) (Rabs (l - sum_n a N))).
  { apply (is_lim_seq_abs _ (l - sum_n a N)). apply is_lim_seq_minus'; [|apply is_lim_seq_const].
    apply (is_lim_seq_ext (fun M => sum_n a (M + N))); [intros M; f_equal; lia|]. apply (is_lim_seq_incr_n (sum_n a) N). exact H. }
  apply (is_lim_seq_le _ (fun _ => / INR (S N)) _ _ ) with (2 := L) (3 := is_lim_seq_const (/ INR (S N))).
  intros M. apply Rle_trans with (1 := tail_partial N M). pose proof (INR_S_pos (N + M)) as P.
  apply Rinv_0_lt_compat in P. lra.
Qed.

Lemma conv_series : ex_series a.
Proof.
  assert (C : ex_finite_lim_seq (sum_n a)).
  { apply ex_lim_seq_cauchy_corr. intros (e & He). cbn [pos].
    destruct (nfloor_ex (Rmax 0 (/ e))) as (n0 & H0 & H1); [apply Rmax_l|].
    assert (Hn0 : / INR (S n0) < e).
    { rewrite <- (Rinv_inv e). apply Rinv_lt_contravar.
      - apply Rmult_lt_0_compat; [apply Rinv_0_lt_compat; lra|apply INR_S_pos].
      - rewrite S_INR. pose proof (Rmax_r 0 (/ e)). lra. }
    assert (W : forall m n, (S n0 <= n)%nat -> (n <= m)%nat -> Rabs (sum_n a m - sum_n a n) < e).
    { intros m n Hn Hm. replace m with (n + (m - n))%nat by lia. apply Rle_lt_trans with (1 := tail_partial n (m - n)).
      pose proof (Rinv_0_lt_compat _ (INR_S_pos (n + (m - n)))).
      assert (/ INR (S n) <= / INR (S n0)) by (apply Rinv_le_contravar; [apply INR_S_pos|apply le_INR; lia]). lra. }
    exists (S n0). intros n m Hn Hm. destruct (Nat.le_ge_cases n m).
    - rewrite Rabs_minus_sym. apply W; assumption.
    - apply W; assumption. }
  destruct C as (l & Hl). exists l. exact Hl.
Qed.
End Tail.

Lemma exp_neg_le x n : x <= 0 -> 0 < exp (INR n * x) <= 1.
Proof.
  intros Hx. split; [apply exp_pos|]. rewrite <- exp_0. pose proof (pos_INR n).
  destruct (Req_dec (INR n * x) 0) as [-> | Hne]; [lra|]. left. apply exp_increasing. nra.
Qed.

Lemma pow_le_inv y k : 1 <= y -> (2 <= k)%nat -> / y ^ k <= / y ^ 2.
Proof.
  intros Hy Hk. apply Rinv_le_contravar; [apply pow_lt; lra|]. apply Rle_pow; assumption.
Qed.

Lemma sign_abs n : Rabs ((-1) ^ n) = 1.
Proof. apply pow_1_abs. Qed.

Lemma INR_S_ge1 n : 1 <= INR (S n).
Proof. rewrite S_INR. pose proof (pos_INR n). lra. Qed.

Lemma sk_term_bound k x n : (2 <= k)%nat -> x <= 0 -> Rabs (sk_term k x n) <= / INR (S n) ^ 2.
Proof.
  intros Hk Hx. unfold sk_term, Rdiv. rewrite !Rabs_mult, sign_abs, Rmult_1_l.
  pose proof (exp_neg_le x (S n) Hx) as HE. pose proof (INR_S_ge1 n) as H1.
  assert (0 < / INR (S n) ^ k) by (apply Rinv_0_lt_compat, pow_lt; lra).
  rewrite (Rabs_pos_eq (exp _)), (Rabs_pos_eq (/ _)) by lra.
  apply Rle_trans with (1 * / INR (S n) ^ k); [apply Rmult_le_compat_r; lra|]. rewrite Rmult_1_l. apply pow_le_inv; assumption.
Qed.

Definition Sseries (k : nat) (x : R) : R := Series (sk_term k x).

Lemma Sseries_ok k x : (2 <= k)%nat -> x <= 0 -> is_series (sk_term k x) (Sseries k x).
Proof. intros Hk Hx. apply Series_correct. apply conv_series. intros n. apply sk_term_bound; assumption. Qed.

(** ** Decay *)
Lemma Sseries_decay k x : (2 <= k)%nat -> x <= 0 -> Rabs (Sseries k x) <= 2 * exp x.
Proof.
  intros Hk Hx. pose (u := fun n => (-1) ^ S n * exp (INR n * x) / INR (S n) ^ k).
  assert (Hu : forall n, Rabs (u n) <= / INR (S n) ^ 2).
  { intros n. unfold u, Rdiv. rewrite !Rabs_mult, sign_abs, Rmult_1_l.
    pose proof (exp_neg_le x n Hx) as HE. pose proof (INR_S_ge1 n) as H1.
    assert (0 < / INR (S n) ^ k) by (apply Rinv_0_lt_compat, pow_lt; lra).
    rewrite (Rabs_pos_eq (exp _)), (Rabs_pos_eq (/ _)) by lra.
    apply Rle_trans with (1 * / INR (S n) ^ k); [apply Rmult_le_compat_r; lra|]. rewrite Rmult_1_l. apply pow_le_inv; assumption. }
  pose proof (Series_correct u (conv_series u Hu)) as Su.
  assert (E : Sseries k x = exp x * Series u).
  { unfold Sseries. rewrite <- Series_scal_l. apply Series_ext. intros n. unfold sk_term, u.
    rewrite S_INR at 1. rewrite Rmult_plus_distr_r, Rmult_1_l, exp_plus. unfold Rdiv. ring. }
  rewrite E, Rabs_mult, (Rabs_pos_eq (exp x)) by (left; apply exp_pos). rewrite Rmult_comm. apply Rmult_le_compat_r; [left; apply exp_pos|].
  pose proof (tail_series u Hu (Series u) 0 Su) as T. rewrite sum_O in T.
  pose proof (Hu 0%nat) as H0. cbn [INR pow] in T, H0.
  replace (Series u) with ((Series u - u 0%nat) + u 0%nat) by ring. apply Rle_trans with (1 := Rabs_triang _ _).
  rewrite !Rmult_1_r, Rinv_1 in *. lra.
Qed.

(** ** Continuity at 0 from the left *)
Lemma Sseries_left k : (2 <= k)%nat -> forall e, 0 < e -> exists d, 0 < d /\ forall y, - d < y <= 0 -> Rabs (Sseries k y - Sseries k 0) < e.
Proof.
  intros Hk e He.
  destruct (nfloor_ex (Rmax 0 (3 / e))) as (N & H0 & H1); [apply Rmax_l|].
  assert (HN : / INR (S N) < e / 3).
  { replace (e / 3) with (/ (3 / e)) by (field; lra). apply Rinv_lt_contravar.
    - apply Rmult_lt_0_compat; [apply Rdiv_lt_0_compat; lra|apply INR_S_pos].
    - rewrite S_INR. pose proof (Rmax_r 0 (3 / e)). lra. }
  assert (C : continuous (fun y => sum_n (sk_term k y) N) 0).
  { clear. induction N as [|n IH].
    - apply continuous_ext with (fun y => sk_term k y 0%nat); [intros y; rewrite sum_O; reflexivity|].
      apply (ex_derive_continuous (fun y => sk_term k y 0%nat)). unfold sk_term. auto_derive. trivial.
    - apply continuous_ext with (fun y => plus (sum_n (sk_term k y) n) (sk_term k y (S n))); [intros y; rewrite sum_Sn; reflexivity|].
      apply (continuous_plus (fun y => sum_n (sk_term k y) n) (fun y => sk_term k y (S n))); [exact IH|].
      apply (ex_derive_continuous (fun y => sk_term k y (S n))). unfold sk_term. auto_derive. trivial. }
  pose proof (proj1 (filterlim_locally (F := locally 0) (fun y => sum_n (sk_term k y) N) _) C (mkposreal (e / 3) ltac:(lra))) as (d & Hd).
  exists d. split; [apply (cond_pos d)|]. intros y Hy.
  assert (Hb : Rabs (sum_n (sk_term k y) N - sum_n (sk_term k 0) N) < e / 3).
  { apply (Hd y). unfold ball. cbn. unfold AbsRing_ball, abs, minus, plus, opp. cbn. apply Rabs_def1; lra. }
  pose proof (tail_series (sk_term k y) (fun n => sk_term_bound k y n Hk ltac:(lra)) _ N (Sseries_ok k y Hk ltac:(lra))) as T1.
  pose proof (tail_series (sk_term k 0) (fun n => sk_term_bound k 0 n Hk ltac:(lra)) _ N (Sseries_ok k 0 Hk ltac:(lra))) as T2.
  replace (Sseries k y - Sseries k 0) with ((Sseries k y - sum_n (sk_term k y) N) + (sum_n (sk_term k y) N - sum_n (sk_term k 0) N) + - (Sseries k 0 - sum_n (sk_term k 0) N)) by ring.
  apply Rle_lt_trans with (1 := Rabs_triang _ _). rewrite Rabs_Ropp. pose proof (Rabs_triang (Sseries k y - sum_n (sk_term k y) N) (sum_n (sk_term k y) N - sum_n (sk_term k 0) N)). lra.
Qed.

(** ** Derivatives for x < 0 *)
Definition ck (k n : nat) : R := match n with O => 0 | S _ => (-1) ^ n / INR n ^ k end.

Lemma ck_radius k : Rbar_le 1 (CV_radius (ck k)).
Proof.
  apply (proj1 (CV_radius_bounded (ck k))). exists 1. intros n. rewrite pow1, Rmult_1_r. destruct n as [|n]; cbn [ck]; [rewrite Rabs_R0; lra|].
  unfold Rdiv. rewrite Rabs_mult, sign_abs, Rmult_1_l. pose proof (INR_S_ge1 n).
  assert (1 <= INR (S n) ^ k) by (apply pow_R1_Rle; lra).
  rewrite Rabs_pos_eq by (left; apply Rinv_0_lt_compat; lra). rewrite <- Rinv_1. apply Rinv_le_contravar; lra.
Qed.

Lemma ck_in k z : Rabs z < 1 -> Rbar_lt (Rabs z) (CV_radius (ck k)).
Proof. intros H. apply Rbar_lt_le_trans with 1; [exact H|apply ck_radius]. Qed.

Lemma ck_deriv k z : Rabs z < 1 -> is_derive (PSeries (ck k)) z (PSeries (PS_derive (ck k)) z).
Proof. intros H. apply is_derive_PSeries. apply ck_in. exact H. Qed.

Lemma ck_shift k z : z * PSeries (PS_derive (ck (S k))) z = PSeries (ck k) z.
Proof.
  rewrite <- PSeries_incr_1. apply PSeries_ext. intros [|n]; cbn [PS_incr_1 ck]; [reflexivity|].
  unfold PS_derive. cbn [ck]. cbn [pow]. pose proof (INR_S_pos n). pose proof (pow_nonzero (INR (S n)) k ltac:(lra)). field. split; [assumption|lra].
Qed.

Lemma ck1 z : 0 <= z < 1 -> PSeries (ck 1) z = - ln (1 + z).
Proof.
  intros Hz.
  assert (Dz : forall y, Rabs y < 1 -> is_derive (PSeries (ck 1)) y (- / (1 + y))).
  { intros y Hy. replace (- / (1 + y)) with (PSeries (PS_derive (ck 1)) y); [apply ck_deriv; exact Hy|].
    unfold PSeries. transitivity (Series (fun n => (- 1) * (- y) ^ n)).
    - apply Series_ext. intros n. unfold PS_derive. cbn [ck]. pose proof (INR_S_pos n).
      replace (- y) with ((-1) * y) by ring. rewrite Rpow_mult_distr. cbn [pow]. field. lra.
    - rewrite Series_scal_l, Series_geom by (rewrite Rabs_Ropp; exact Hy). unfold Rminus. rewrite Ropp_involutive. ring. }
  destruct (MVT_gen (fun y => PSeries (ck 1) y + ln (1 + y)) 0 z (fun _ => 0)) as (c & Hc & E).
  - intros y Hy. rewrite Rmin_left, Rmax_right in Hy by lra.
    evar_last; [apply (is_derive_plus (PSeries (ck 1)) (fun y => ln (1 + y)) y _ (/ (1 + y)) (Dz y ltac:(rewrite Rabs_pos_eq; lra)))|].
    + auto_derive; [lra|]. field. lra.
    + unfold plus. cbn. ring.
  - intros y Hy. rewrite Rmin_left, Rmax_right in Hy by lra. apply continuity_pt_filterlim.
    apply (continuous_plus (PSeries (ck 1)) (fun y => ln (1 + y)) y).
    + apply (ex_derive_continuous (PSeries (ck 1)) y). eexists. apply Dz. rewrite Rabs_pos_eq; lra.
    + apply (ex_derive_continuous (fun y => ln (1 + y)) y). auto_derive. lra.
  - assert (Z0 : PSeries (ck 1) 0 = 0) by (rewrite PSeries_0; reflexivity).
    rewrite Z0, Rplus_0_r, ln_1 in E. lra.
Qed.

Lemma exp_nat n x : exp (INR n * x) = exp x ^ n.
Proof.
  induction n as [|n IH]; [cbn [INR pow]; rewrite Rmult_0_l; apply exp_0|].
  rewrite S_INR, Rmult_plus_distr_r, Rmult_1_l, exp_plus, IH. cbn [pow]. ring.
Qed.

Lemma Sseries_power k x : x < 0 -> (2 <= k)%nat -> Sseries k x = PSeries (ck k) (exp x).
Proof.
  intros Hx Hk. unfold Sseries, PSeries. rewrite (Series_incr_1 (fun n => ck k n * exp x ^ n)).
  - cbn [ck pow]. rewrite Rmult_0_l, Rplus_0_l. apply Series_ext. intros n. unfold sk_term. cbn [ck].
    rewrite (exp_nat (S n) x).  cbn [pow]. unfold Rdiv. ring.
  - apply (ex_series_ext (fun n => scal (pow_n (exp x) n) (ck k n))).
    + intros n. rewrite pow_n_pow. unfold scal. cbn. unfold mult. cbn. ring.
    + apply CV_radius_inside. apply ck_in. rewrite Rabs_pos_eq by (left; apply exp_pos). rewrite <- exp_0. apply exp_increasing. exact Hx.
Qed.

(** ** Extension to the whole line *)
Fixpoint Sext (j : nat) (x : R) : R :=
  match j with
  | O => - ln (1 + exp x)
  | S i => Sseries (S (S i)) 0 + RInt (Sext i) 0 x
  end.

(** [Sfull k] for k >= 1 *)
Definition Sfull (k : nat) : R -> R := Sext (Nat.pred k).

Lemma Sext_ex j : forall x, ex_derive (Sext j) x.
Proof.
  induction j as [|j IH]; intros x.
  - cbn [Sext]. auto_derive. pose proof (exp_pos x). lra.
  - exists (Sext j x). cbn [Sext].
    evar_last; [apply (is_derive_plus (fun _ => Sseries (S (S j)) 0) (fun x => RInt (Sext j) 0 x) x 0 (Sext j x)); [apply (is_derive_const (V := R_NormedModule))|]|].
    + apply (is_derive_RInt (V := R_CompleteNormedModule) (Sext j) _ 0).
      * exists (mkposreal 1 Rlt_0_1). intros y _. apply (RInt_correct (V := R_CompleteNormedModule)).
        apply (ex_RInt_continuous (V := R_CompleteNormedModule)). intros z _. apply (ex_derive_continuous (Sext j)). apply IH.
      * apply (ex_derive_continuous (Sext j)). apply IH.
    + unfold plus. cbn. ring.
Qed.

Lemma Sext_deriv j x : is_derive (Sext (S j)) x (Sext j x).
Proof.
  cbn [Sext].
  evar_last; [apply (is_derive_plus (fun _ => Sseries (S (S j)) 0) (fun x => RInt (Sext j) 0 x) x 0 (Sext j x)); [apply (is_derive_const (V := R_NormedModule))|]|].
  - apply (is_derive_RInt (V := R_CompleteNormedModule) (Sext j) _ 0).
    + exists (mkposreal 1 Rlt_0_1). intros y _. apply (RInt_correct (V := R_CompleteNormedModule)).
      apply (ex_RInt_continuous (V := R_CompleteNormedModule)). intros z _. apply (ex_derive_continuous (Sext j)). apply Sext_ex.
    + apply (ex_derive_continuous (Sext j)). apply Sext_ex.
  - unfold plus. cbn. ring.
Qed.

Lemma exp_lt1 x : x < 0 -> 0 < exp x < 1.
Proof. intros H. split; [apply exp_pos|]. rewrite <- exp_0. apply exp_increasing. exact H. Qed.

Lemma Sext_power j : forall x, x < 0 -> Sext j x = PSeries (ck (S j)) (exp x).
Proof.
  induction j as [|j IH]; intros x Hx.
  - cbn [Sext]. rewrite ck1; [reflexivity|]. pose proof (exp_lt1 x Hx). lra.
  - (* the difference has derivative zero on x < 0 *)
    pose (D := fun y => Sext (S j) y - PSeries (ck (S (S j))) (exp y)).
    assert (DD : forall y, y < 0 -> is_derive D y 0).
    { intros y Hy. unfold D. pose proof (exp_lt1 y Hy) as He.
      pose proof (ck_deriv (S (S j)) (exp y) ltac:(rewrite Rabs_pos_eq; lra)) as D1.
      pose proof (is_derive_comp (PSeries (ck (S (S j)))) exp y _ _ D1 (is_derive_exp y)) as D2.
      pose proof (is_derive_minus _ _ _ _ _ (Sext_deriv j y) D2) as D3.
      evar_last; [exact D3|]. unfold minus, plus, opp, scal. cbn. unfold mult. cbn. rewrite ck_shift, <- IH by exact Hy. ring. }
    assert (Cst : forall y, x <= y < 0 -> D y = D x).
    { intros y Hy. destruct (Req_dec x y) as [-> | Hne]; [reflexivity|].
      destruct (MVT_gen D x y (fun _ => 0)) as (c & Hc & E).
      - intros z Hz. rewrite Rmin_left, Rmax_right in Hz by lra. apply DD. lra.
      - intros z Hz. rewrite Rmin_left, Rmax_right in Hz by lra. apply continuity_pt_filterlim. apply (ex_derive_continuous D z). exists 0. apply DD. lra.
      - lra. }
    assert (Z : forall e, 0 < e -> Rabs (D x) < e).
    { intros e He. destruct (Sseries_left (S (S j)) ltac:(lia) (e / 2) ltac:(lra)) as (d & Hd & Hs).
      pose proof (ex_derive_continuous (Sext (S j)) 0 (Sext_ex (S j) 0)) as C0.
      pose proof (proj1 (filterlim_locally (F := locally 0) (Sext (S j)) _) C0 (mkposreal (e / 2) ltac:(lra))) as (d2 & Hd2).
      pose (y := Rmax x (- (Rmin d d2) / 2)).
      assert (Hm : 0 < Rmin d d2) by (apply Rmin_pos; [exact Hd|apply (cond_pos d2)]).
      assert (Hy : x <= y < 0) by (unfold y; split; [apply Rmax_l|apply Rmax_lub_lt; lra]).
      assert (Hy2 : - (Rmin d d2) < y) by (unfold y; apply Rlt_le_trans with (- (Rmin d d2) / 2); [lra|apply Rmax_r]).
      pose proof (Rmin_l d d2). pose proof (Rmin_r d d2).
      rewrite <- (Cst y Hy). unfold D. rewrite <- Sseries_power by (lra || lia).
      specialize (Hs y ltac:(lra)).
      assert (Hb : Rabs (Sext (S j) y - Sext (S j) 0) < e / 2).
      { apply (Hd2 y). unfold ball. cbn. unfold AbsRing_ball, abs, minus, plus, opp. cbn. apply Rabs_def1; lra. }
      assert (E0 : Sext (S j) 0 = Sseries (S (S j)) 0) by (cbn [Sext]; rewrite RInt_point; unfold zero; cbn; ring).
      rewrite E0 in Hb.
      replace (Sext (S j) y - Sseries (S (S j)) y) with ((Sext (S j) y - Sseries (S (S j)) 0) - (Sseries (S (S j)) y - Sseries (S (S j)) 0)) by ring.
      apply Rle_lt_trans with (1 := Rabs_triang _ _). rewrite Rabs_Ropp. lra. }
    assert (D0 : D x = 0).
    { destruct (Req_dec (D x) 0) as [|Hne]; [assumption|]. specialize (Z (Rabs (D x)) (Rabs_pos_lt _ Hne)). lra. }
    unfold D in D0. lra.
Qed.

Lemma Sfull_series k x : (2 <= k)%nat -> x <= 0 -> Sfull k x = Sseries k x.
Proof.
  intros Hk Hx. destruct k as [|[|i]]; [lia|lia|]. unfold Sfull. cbn [Nat.pred].
  destruct (Req_dec x 0) as [-> | Hne].
  - cbn [Sext]. rewrite RInt_point. unfold zero. cbn. ring.
  - rewrite Sext_power, Sseries_power by (lra || lia). reflexivity.
Qed.

Lemma Sfull_deriv2 x : is_derive (Sfull 2) x (- ln (1 + exp x)).
Proof. apply (Sext_deriv 0). Qed.

Lemma Sfull_deriv k x : (2 <= k)%nat -> is_derive (Sfull (S k)) x (Sfull k x).
Proof. intros Hk. destruct k as [|i]; [lia|]. apply (Sext_deriv i). Qed.

Lemma Sfull_decay k x : (2 <= k)%nat -> x <= 0 -> Rabs (Sfull k x) <= 2 * exp x.
Proof. intros Hk Hx. rewrite Sfull_series by assumption. apply Sseries_decay; assumption. Qed.

Lemma series_alt k l : is_lim_seq (alt k) l -> Series (sk_term k 0) = real l.
Proof.
  intros H. unfold Series. rewrite (Lim_seq_ext _ (fun N => alt k (S N))).
  - apply f_equal. apply is_lim_seq_unique. apply (is_lim_seq_incr_1 (alt k)). exact H.
  - intros N. induction N as [|n IH].
    + rewrite sum_O. cbn [alt]. unfold sk_term. rewrite Rmult_0_r, exp_0, Rmult_1_r. ring.
    + rewrite sum_Sn. unfold plus. cbn [alt] in *. change (sum_n (sk_term k 0) n + sk_term k 0 (S n) = alt k n + (-1) ^ S n / INR (S n) ^ k + (-1) ^ S (S n) / INR (S (S n)) ^ k).
      rewrite IH. unfold sk_term. rewrite Rmult_0_r, exp_0, Rmult_1_r. reflexivity.
Qed.

Lemma Sfull_2_0 : Sfull 2 0 = - (PI ^ 2 / 12).
Proof. rewrite Sfull_series by (lia || lra). exact (series_alt 2 _ eta2). Qed.
Lemma Sfull_4_0 : Sfull 4 0 = - (7 * PI ^ 4 / 720).
Proof. rewrite Sfull_series by (lia || lra). exact (series_alt 4 _ eta4). Qed.
Lemma Sfull_6_0 : Sfull 6 0 = - (31 * PI ^ 6 / 30240).
Proof. rewrite Sfull_series by (lia || lra). exact (series_alt 6 _ eta6). Qed.
