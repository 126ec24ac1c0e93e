(** * The alternating sums of 1/n^2, 1/n^4 and 1/n^6

    From the Fourier sums of t^2, t^4 and t^6 at t = 0. *)

From Coq Require Import Reals Lra Lia.
From Coquelicot Require Import Coquelicot.
Open Scope R_scope.

(** 1 + 2 cos t + ... + 2 cos (N t) *)
Fixpoint dirichlet (N : nat) (t : R) : R :=
  match N with O => 1 | S n => dirichlet n t + 2 * cos (INR (S n) * t) end.

Lemma dirichlet_sin N t : sin (t / 2) * dirichlet N t = sin ((INR N + 1 / 2) * t).
Proof.
  induction N as [|n IH].
  - cbn [dirichlet INR]. rewrite Rmult_1_r. f_equal. field.
  - cbn [dirichlet]. rewrite Rmult_plus_distr_l, IH. rewrite S_INR.
    replace ((INR n + 1 / 2) * t) with ((INR n + 1) * t - t / 2) by field.
    replace ((INR n + 1 + 1 / 2) * t) with ((INR n + 1) * t + t / 2) by field.
    rewrite sin_minus, sin_plus. ring.
Qed.

Lemma sin_half_ge t : 0 <= t <= PI -> t / PI <= sin (t / 2).
Proof.
  intros Ht. assert (HP := PI_RGT_0).
  (* the chord of the concave function: sin(x)/x decreases *)
  destruct (Req_dec t 0) as [-> | Hn0]. { unfold Rdiv. rewrite !Rmult_0_l, sin_0. lra. }
  destruct (Req_dec t PI) as [-> | Hnp]. { rewrite sin_PI2. unfold Rdiv. rewrite Rinv_r; lra. }
  (* f(t) = sin(t/2) - t/PI is zero at both ends; if negative inside, its derivative cos(t/2)/2 - 1/PI
     would be negative before and positive after, but it decreases *)
  destruct (Rle_lt_dec (t / PI) (sin (t / 2))) as [|Hlt]; [assumption|exfalso].
  pose (f := fun t => sin (t / 2) - t / PI).
  assert (D : forall x, is_derive f x (cos (x / 2) / 2 - / PI)).
  { intros x. unfold f. auto_derive; [trivial|]. unfold Rdiv. ring. }
  destruct (MVT_gen f 0 t (fun x => cos (x / 2) / 2 - / PI)) as (x1 & H1 & E1).
  { intros. apply D. } { intros x _. apply continuity_pt_filterlim. apply (ex_derive_continuous f x). eexists; apply D. }
  destruct (MVT_gen f t PI (fun x => cos (x / 2) / 2 - / PI)) as (x2 & H2 & E2).
  { intros. apply D. } { intros x _. apply continuity_pt_filterlim. apply (ex_derive_continuous f x). eexists; apply D. }
  rewrite Rmin_left, Rmax_right in H1 by lra. rewrite Rmin_left, Rmax_right in H2 by lra.
  assert (F0 : f 0 = 0). { unfold f, Rdiv. rewrite !Rmult_0_l, sin_0. lra. }
  assert (FP : f PI = 0). { unfold f. rewrite sin_PI2. unfold Rdiv. rewrite Rinv_r; lra. }
  assert (Ft : f t < 0) by (unfold f; lra).
  rewrite F0 in E1. rewrite FP in E2.
  assert (cos (x2 / 2) <= cos (x1 / 2)) by (apply cos_decr_1; lra).
  assert (0 < (cos (x2 / 2) / 2 - / PI)) by (apply (Rmult_lt_reg_r (PI - t)); [lra|]; rewrite <- E2; lra).
  assert ((cos (x1 / 2) / 2 - / PI) < 0) by (apply (Rmult_lt_reg_r (t - 0)); [lra|]; rewrite <- E1; lra).
  lra.
Qed.

Lemma dirichlet_continuous N t : continuous (dirichlet N) t.
Proof.
  induction N as [|n IH]; cbn [dirichlet].
  - apply continuous_const.
  - apply (continuous_plus (dirichlet n) (fun t => 2 * cos (INR (S n) * t)) t); [exact IH|].
    apply (ex_derive_continuous (fun t => 2 * cos (INR (S n) * t))). auto_derive. trivial.
Qed.

Section Vanish.
(** t^p with p >= 2 *)
Variable p : nat.
Let q : nat := S (S p).

Let g (t : R) : R := t ^ q / sin (t / 2).
Let g' (t : R) : R := (INR q * t ^ (S p) * sin (t / 2) - t ^ q * (cos (t / 2) / 2)) / (sin (t / 2)) ^ 2.

Lemma pow_le_PI n t : 0 <= t <= PI -> 0 <= t ^ n <= PI ^ n.
Proof. intros H. split; [apply pow_le; lra|]. apply pow_incr. lra. Qed.

Lemma g_deriv t : 0 < t <= PI -> is_derive g t (g' t).
Proof.
  intros Ht. assert (H := sin_half_ge t ltac:(lra)). assert (HP := PI_RGT_0).
  assert (0 < t / PI) by (apply Rdiv_lt_0_compat; lra).
  unfold g, g', q. auto_derive; [lra|]. cbn [Init.Nat.pred]. change (match p with O => 1 | S _ => INR p + 1 end) with (INR (S p)). rewrite ?S_INR. unfold Rdiv in *. cbn [pow]. field. lra.
Qed.

Lemma tail_small eps N : 0 < eps <= PI ->
  Rabs (RInt (fun t => t ^ q * dirichlet N t) eps PI) <=
    (2 * (PI ^ q * (PI / eps)) + PI * ((INR q * PI ^ S p + PI ^ q) * (PI / eps) ^ 2)) / (INR N + 1 / 2).
Proof.
  intros He. assert (HP := PI_RGT_0). set (lam := INR N + 1 / 2).
  assert (Hl : 0 < lam) by (unfold lam; pose proof (pos_INR N); lra).
  assert (Hs : forall t, eps <= t <= PI -> 0 < eps / PI <= sin (t / 2)).
  { intros t Ht. split; [apply Rdiv_lt_0_compat; lra|]. apply Rle_trans with (t / PI); [|apply sin_half_ge; lra].
    unfold Rdiv. apply Rmult_le_compat_r; [left; apply Rinv_0_lt_compat; lra|lra]. }
  assert (His : forall t, eps <= t <= PI -> 0 < / sin (t / 2) <= PI / eps).
  { intros t Ht. specialize (Hs t Ht). split; [apply Rinv_0_lt_compat; lra|].
    replace (PI / eps) with (/ (eps / PI)) by (field; lra). apply Rinv_le_contravar; lra. }
  assert (Hgb : forall t, eps <= t <= PI -> Rabs (g t) <= PI ^ q * (PI / eps)).
  { intros t Ht. unfold g, Rdiv. rewrite Rabs_mult. pose proof (pow_le_PI q t ltac:(lra)). specialize (His t Ht).
    rewrite (Rabs_pos_eq (t ^ q)), (Rabs_pos_eq (/ _)) by lra. apply Rmult_le_compat; try lra. }
  assert (Hg'b : forall t, eps <= t <= PI -> Rabs (g' t) <= (INR q * PI ^ S p + PI ^ q) * (PI / eps) ^ 2).
  { intros t Ht. unfold g', Rdiv. rewrite Rabs_mult. apply Rmult_le_compat; try apply Rabs_pos.
    - apply Rle_trans with (1 := Rabs_triang _ _). rewrite Rabs_Ropp, !Rabs_mult.
      pose proof (pow_le_PI q t ltac:(lra)). pose proof (pow_le_PI (S p) t ltac:(lra)). pose proof (pos_INR q).
      rewrite (Rabs_pos_eq (INR q)), (Rabs_pos_eq (t ^ S p)), (Rabs_pos_eq (t ^ q)), (Rabs_pos_eq (/ 2)) by lra.
      assert (Rabs (sin (t * / 2)) <= 1) by (apply Rabs_le; apply SIN_bound).
      assert (Rabs (cos (t * / 2)) <= 1) by (apply Rabs_le; apply COS_bound).
      pose proof (Rabs_pos (sin (t * / 2))). pose proof (Rabs_pos (cos (t * / 2))).
      apply Rplus_le_compat.
      + apply Rle_trans with (INR q * PI ^ S p * 1); [|lra]. apply Rmult_le_compat; try lra; [apply Rmult_le_pos; lra|]. apply Rmult_le_compat_l; lra.
      + apply Rle_trans with (PI ^ q * 1); [|lra]. apply Rmult_le_compat; lra.
    - rewrite <- pow_inv, <- RPow_abs. specialize (His t Ht). apply pow_incr. rewrite Rabs_pos_eq by lra.
      unfold Rdiv in His. lra. }
  assert (Cg' : forall t, eps <= t <= PI -> continuous g' t).
  { intros t Ht. specialize (Hs t Ht). apply (ex_derive_continuous g' t). unfold g', q. auto_derive. apply Rgt_not_eq. apply Rmult_lt_0_compat; lra. }
  pose (F := fun t => - (g t * cos (lam * t) / lam)).
  assert (DF : forall t, eps <= t <= PI -> is_derive F t (g t * sin (lam * t) - g' t * cos (lam * t) / lam)).
  { intros t Ht. unfold F. pose proof (g_deriv t ltac:(lra)) as Dg.
    auto_derive; [eexists; exact Dg|]. change (Derive (fun x : R => g x) t) with (Derive g t). rewrite (is_derive_unique g t _ Dg). field. lra. }
  assert (Cg : forall t, eps <= t <= PI -> continuous g t).
  { intros t Ht. apply (ex_derive_continuous g t). eexists. apply g_deriv. lra. }
  assert (Cc : forall t, continuous (fun t => cos (lam * t)) t).
  { intros t. apply (ex_derive_continuous (fun t => cos (lam * t))). auto_derive. trivial. }
  assert (Csn : forall t, continuous (fun t => sin (lam * t)) t).
  { intros t. apply (ex_derive_continuous (fun t => sin (lam * t))). auto_derive. trivial. }
  assert (Cgc : forall t, eps <= t <= PI -> continuous (fun t => g' t * cos (lam * t) / lam) t).
  { intros t Ht. apply (continuous_mult (fun t => g' t * cos (lam * t)) (fun _ => / lam)); [|apply continuous_const].
    apply (continuous_mult g' (fun t => cos (lam * t))); [apply Cg'; exact Ht|apply Cc]. }
  assert (Cgs : forall t, eps <= t <= PI -> continuous (fun t => g t * sin (lam * t)) t).
  { intros t Ht. apply (continuous_mult g (fun t => sin (lam * t))); [apply Cg; exact Ht|apply Csn]. }
  assert (I1 : is_RInt (fun t => g t * sin (lam * t) - g' t * cos (lam * t) / lam) eps PI (F PI - F eps)).
  { apply (is_RInt_derive F); rewrite Rmin_left, Rmax_right by lra; [exact DF|].
    intros t Ht. apply (continuous_minus (fun t => g t * sin (lam * t)) (fun t => g' t * cos (lam * t) / lam)); [apply Cgs|apply Cgc]; exact Ht. }
  assert (X2 : ex_RInt (fun t => g' t * cos (lam * t) / lam) eps PI).
  { apply (ex_RInt_continuous (V := R_CompleteNormedModule)). rewrite Rmin_left, Rmax_right by lra. exact Cgc. }
  assert (X1 : ex_RInt (fun t => g t * sin (lam * t)) eps PI).
  { apply (ex_RInt_continuous (V := R_CompleteNormedModule)). rewrite Rmin_left, Rmax_right by lra. exact Cgs. }
  assert (E : RInt (fun t => t ^ q * dirichlet N t) eps PI = F PI - F eps + RInt (fun t => g' t * cos (lam * t) / lam) eps PI).
  { pose proof (is_RInt_unique (V := R_CompleteNormedModule) _ _ _ _ I1) as U.
    pose proof (is_RInt_unique (V := R_CompleteNormedModule) _ _ _ _
      (is_RInt_minus (V := R_NormedModule) _ _ _ _ _ _ (RInt_correct (V := R_CompleteNormedModule) _ _ _ X1) (RInt_correct (V := R_CompleteNormedModule) _ _ _ X2))) as U2.
    assert (U3 : RInt (fun t => g t * sin (lam * t)) eps PI - RInt (fun t => g' t * cos (lam * t) / lam) eps PI = F PI - F eps)
      by (rewrite <- U; symmetry; exact U2).
    assert (Alg : forall a b c : R, a - b = c -> a = c + b) by (intros; lra). rewrite <- (Alg _ _ _ U3).
    apply RInt_ext. rewrite Rmin_left, Rmax_right by lra. intros t Ht.
    specialize (Hs t ltac:(lra)). unfold g. unfold lam. rewrite <- dirichlet_sin.
    assert (Alg2 : forall a b d : R, b <> 0 -> a * d = a / b * (b * d)) by (intros; field; assumption). apply Alg2. lra. }
  rewrite E.
  assert (Bc : forall t, Rabs (cos (lam * t)) <= 1) by (intros; apply Rabs_le; apply COS_bound).
  assert (BF : forall t, eps <= t <= PI -> Rabs (F t) <= PI ^ q * (PI / eps) / lam).
  { intros t Ht. unfold F. rewrite Rabs_Ropp. unfold Rdiv at 1. rewrite Rabs_mult, (Rabs_pos_eq (/ lam)) by (left; apply Rinv_0_lt_compat; lra).
    apply Rmult_le_compat_r; [left; apply Rinv_0_lt_compat; lra|]. rewrite Rabs_mult.
    apply Rle_trans with (Rabs (g t) * 1); [apply Rmult_le_compat_l; [apply Rabs_pos|apply Bc]|]. specialize (Hgb t Ht). lra. }
  assert (BI : Rabs (RInt (fun t => g' t * cos (lam * t) / lam) eps PI) <= (PI - eps) * (((INR q * PI ^ S p + PI ^ q) * (PI / eps) ^ 2) / lam)).
  { apply abs_RInt_le_const; [lra|exact X2|]. intros t Ht. unfold Rdiv at 1. rewrite Rabs_mult, (Rabs_pos_eq (/ lam)) by (left; apply Rinv_0_lt_compat; lra).
    apply Rmult_le_compat_r; [left; apply Rinv_0_lt_compat; lra|]. rewrite Rabs_mult.
    apply Rle_trans with (Rabs (g' t) * 1); [apply Rmult_le_compat_l; [apply Rabs_pos|apply Bc]|]. specialize (Hg'b t Ht). lra. }
  set (K := (INR q * PI ^ S p + PI ^ q) * (PI / eps) ^ 2) in *.
  assert (HK : 0 <= K).
  { apply Rle_trans with (1 := Rabs_pos (g' PI)). apply Hg'b. lra. }
  assert (HKl : 0 <= K / lam) by (apply Rmult_le_pos; [exact HK|left; apply Rinv_0_lt_compat; lra]).
  apply Rle_trans with (PI ^ q * (PI / eps) / lam + PI ^ q * (PI / eps) / lam + (PI - eps) * (K / lam)).
  - apply Rle_trans with (1 := Rabs_triang _ _). apply Rplus_le_compat; [|exact BI].
    apply Rle_trans with (1 := Rabs_triang _ _). rewrite Rabs_Ropp. apply Rplus_le_compat; apply BF; lra.
  - replace ((2 * (PI ^ q * (PI / eps)) + PI * K) / lam) with (PI ^ q * (PI / eps) / lam + PI ^ q * (PI / eps) / lam + PI * (K / lam)) by (field; lra).
    apply Rplus_le_compat_l. apply Rmult_le_compat_r; [exact HKl|lra].
Qed.

Lemma head_small eps N : 0 < eps <= PI -> Rabs (RInt (fun t => t ^ q * dirichlet N t) 0 eps) <= eps * (PI * PI ^ S p).
Proof.
  intros He. assert (HP := PI_RGT_0).
  apply Rle_trans with ((eps - 0) * (PI * PI ^ S p)); [|lra]. apply abs_RInt_le_const; [lra| |].
  - apply (ex_RInt_continuous (V := R_CompleteNormedModule)). intros t _.
    apply (continuous_mult (fun t => t ^ q) (dirichlet N)); [|apply dirichlet_continuous].
    apply (ex_derive_continuous (fun t => t ^ q)). auto_derive. trivial.
  - intros t Ht. destruct (Req_dec t 0) as [-> | Hn0].
    { replace (0 ^ q) with 0 by (unfold q; cbn [pow]; ring). rewrite Rmult_0_l, Rabs_R0. apply Rmult_le_pos; [lra|apply pow_le; lra]. }
    assert (Hs := sin_half_ge t ltac:(lra)). assert (0 < t / PI) by (apply Rdiv_lt_0_compat; lra).
    assert (E : t ^ q * dirichlet N t = (t / sin (t / 2)) * t ^ S p * sin ((INR N + 1 / 2) * t)).
    { rewrite <- dirichlet_sin. unfold q. cbn [pow]. field. lra. }
    rewrite E, !Rabs_mult. pose proof (pow_le_PI (S p) t ltac:(lra)).
    assert (Rabs (sin ((INR N + 1 / 2) * t)) <= 1) by (apply Rabs_le; apply SIN_bound).
    assert (0 <= t / sin (t / 2) <= PI).
    { split; [apply Rmult_le_pos; [lra|left; apply Rinv_0_lt_compat; lra]|].
      apply (Rmult_le_reg_r (sin (t / 2))); [lra|]. unfold Rdiv at 1. rewrite Rmult_assoc, Rinv_l by lra.
      apply (Rmult_le_compat_l PI) in Hs; [|lra]. replace (PI * (t / PI)) with t in Hs by (field; lra). lra. }
    rewrite (Rabs_pos_eq (t / _)), (Rabs_pos_eq (t ^ S p)) by lra.
    apply Rle_trans with (t / sin (t / 2) * t ^ S p * 1).
    + apply Rmult_le_compat_l; [apply Rmult_le_pos; lra|assumption].
    + rewrite Rmult_1_r. apply Rmult_le_compat; lra.
Qed.

Lemma dirichlet_vanish : is_lim_seq (fun N => RInt (fun t => t ^ q * dirichlet N t) 0 PI) 0.
Proof.
  assert (HP := PI_RGT_0). apply is_lim_seq_spec. intros (e & He). cbn [pos].
  assert (Hpp : 0 < PI * PI ^ S p) by (apply Rmult_lt_0_compat; [lra|apply pow_lt; lra]).
  pose (eps := Rmin PI (e / 2 / (PI * PI ^ S p))).
  assert (Heps : 0 < eps <= PI).
  { unfold eps. split; [apply Rmin_pos; [lra|]; apply Rdiv_lt_0_compat; lra|apply Rmin_l]. }
  assert (Hhead : eps * (PI * PI ^ S p) <= e / 2).
  { apply Rle_trans with (e / 2 / (PI * PI ^ S p) * (PI * PI ^ S p)); [apply Rmult_le_compat_r; [lra|apply Rmin_r]|]. right. field. split; [apply pow_nonzero|]; lra. }
  set (C := 2 * (PI ^ q * (PI / eps)) + PI * ((INR q * PI ^ S p + PI ^ q) * (PI / eps) ^ 2)).
  destruct (nfloor_ex (Rmax 0 (2 * C / e))) as (n0 & Hn0 & Hn1); [apply Rmax_l|].
  exists (S n0). intros N HN. rewrite Rminus_0_r.
  assert (X : forall a b, ex_RInt (fun t => t ^ q * dirichlet N t) a b).
  { intros a b. apply (ex_RInt_continuous (V := R_CompleteNormedModule)). intros t _.
    apply (continuous_mult (fun t => t ^ q) (dirichlet N)); [|apply dirichlet_continuous].
    apply (ex_derive_continuous (fun t => t ^ q)). auto_derive. trivial. }
  rewrite <- (RInt_Chasles (V := R_CompleteNormedModule) _ 0 eps PI) by apply X. unfold plus. cbn.
  apply Rle_lt_trans with (1 := Rabs_triang _ _).
  apply Rle_lt_trans with (e / 2 + C / (INR N + 1 / 2)).
  - apply Rplus_le_compat; [apply Rle_trans with (1 := head_small eps N Heps); exact Hhead|apply tail_small; exact Heps].
  - assert (HN' : INR n0 + 1 <= INR N) by (rewrite <- S_INR; apply le_INR; exact HN).
    assert (2 * C / e < INR N + 1 / 2) by (pose proof (Rmax_r 0 (2 * C / e)); lra).
    pose proof (pos_INR N).
    assert (C / (INR N + 1 / 2) < e / 2).
    { apply (Rmult_lt_reg_r (INR N + 1 / 2)); [lra|]. unfold Rdiv at 1. rewrite Rmult_assoc, Rinv_l by lra.
      assert (2 * C / e * (e / 2) < (INR N + 1 / 2) * (e / 2)) by (apply Rmult_lt_compat_r; lra).
      replace (2 * C / e * (e / 2)) with C in H1 by (field; lra). lra. }
    lra.
Qed.
End Vanish.

(** sum over n = 1..N of (-1)^n / n^m *)
Fixpoint alt (m N : nat) : R :=
  match N with O => 0 | S n => alt m n + (-1) ^ S n / INR (S n) ^ m end.

Lemma cos_sin_nPI n : cos (INR n * PI) = (-1) ^ n /\ sin (INR n * PI) = 0.
Proof.
  induction n as [|n (IHc & IHs)].
  - cbn [INR pow]. rewrite Rmult_0_l, cos_0, sin_0. split; reflexivity.
  - rewrite S_INR, Rmult_plus_distr_r, Rmult_1_l, neg_cos, neg_sin, IHc, IHs. cbn [pow]. split; ring.
Qed.

Lemma moment n q (F : R -> R) : (forall t, is_derive F t (t ^ q * cos (INR n * t))) ->
  is_RInt (fun t => t ^ q * cos (INR n * t)) 0 PI (F PI - F 0).
Proof.
  intros D. apply (is_RInt_derive F); [intros t _; apply D|]. intros t _.
  apply (ex_derive_continuous (fun t => t ^ q * cos (INR n * t))). auto_derive. trivial.
Qed.

Lemma moment2 n : (n <> 0)%nat -> is_RInt (fun t => t ^ 2 * cos (INR n * t)) 0 PI (2 * PI * ((-1) ^ n / INR n ^ 2)).
Proof.
  intros Hn. assert (Hx : INR n <> 0) by (apply not_0_INR; exact Hn). destruct (cos_sin_nPI n) as (HC & HS).
  pose (x := INR n).
  pose (F := fun t => t ^ 2 * sin (x * t) / x + 2 * t * cos (x * t) / x ^ 2 - 2 * sin (x * t) / x ^ 3).
  replace (2 * PI * ((-1) ^ n / INR n ^ 2)) with (F PI - F 0).
  - apply (moment n 2 F). intros t. unfold F. auto_derive; [trivial|]. unfold x. field. exact Hx.
  - unfold F, x. rewrite HC, HS. replace (INR n * 0) with 0 by ring. rewrite sin_0. field. exact Hx.
Qed.

Lemma moment4 n : (n <> 0)%nat ->
  is_RInt (fun t => t ^ 4 * cos (INR n * t)) 0 PI (4 * PI ^ 3 * ((-1) ^ n / INR n ^ 2) - 24 * PI * ((-1) ^ n / INR n ^ 4)).
Proof.
  intros Hn. assert (Hx : INR n <> 0) by (apply not_0_INR; exact Hn). destruct (cos_sin_nPI n) as (HC & HS).
  pose (x := INR n).
  pose (F := fun t => t ^ 4 * sin (x * t) / x + 4 * t ^ 3 * cos (x * t) / x ^ 2 - 12 * t ^ 2 * sin (x * t) / x ^ 3
                      - 24 * t * cos (x * t) / x ^ 4 + 24 * sin (x * t) / x ^ 5).
  replace (4 * PI ^ 3 * ((-1) ^ n / INR n ^ 2) - 24 * PI * ((-1) ^ n / INR n ^ 4)) with (F PI - F 0).
  - apply (moment n 4 F). intros t. unfold F. auto_derive; [trivial|]. unfold x. field. exact Hx.
  - unfold F, x. rewrite HC, HS. replace (INR n * 0) with 0 by ring. rewrite sin_0. field. exact Hx.
Qed.

Lemma moment6 n : (n <> 0)%nat ->
  is_RInt (fun t => t ^ 6 * cos (INR n * t)) 0 PI
    (6 * PI ^ 5 * ((-1) ^ n / INR n ^ 2) - 120 * PI ^ 3 * ((-1) ^ n / INR n ^ 4) + 720 * PI * ((-1) ^ n / INR n ^ 6)).
Proof.
  intros Hn. assert (Hx : INR n <> 0) by (apply not_0_INR; exact Hn). destruct (cos_sin_nPI n) as (HC & HS).
  pose (x := INR n).
  pose (F := fun t => t ^ 6 * sin (x * t) / x + 6 * t ^ 5 * cos (x * t) / x ^ 2 - 30 * t ^ 4 * sin (x * t) / x ^ 3
                      - 120 * t ^ 3 * cos (x * t) / x ^ 4 + 360 * t ^ 2 * sin (x * t) / x ^ 5 + 720 * t * cos (x * t) / x ^ 6
                      - 720 * sin (x * t) / x ^ 7).
  replace (6 * PI ^ 5 * ((-1) ^ n / INR n ^ 2) - 120 * PI ^ 3 * ((-1) ^ n / INR n ^ 4) + 720 * PI * ((-1) ^ n / INR n ^ 6)) with (F PI - F 0).
  - apply (moment n 6 F). intros t. unfold F. auto_derive; [trivial|]. unfold x. field. exact Hx.
  - unfold F, x. rewrite HC, HS. replace (INR n * 0) with 0 by ring. rewrite sin_0. field. exact Hx.
Qed.

Lemma fourier_sum q (m : nat -> R) N : (forall n, (n <> 0)%nat -> is_RInt (fun t => t ^ q * cos (INR n * t)) 0 PI (m n)) ->
  is_RInt (fun t => t ^ q * dirichlet N t) 0 PI
    (PI ^ S q / INR (S q) + 2 * (fix s N := match N with O => 0 | S n => s n + m (S n) end) N).
Proof.
  intros Hm. induction N as [|n IH].
  - cbn [dirichlet]. rewrite Rmult_0_r, Rplus_0_r.
    pose (F := fun t : R => t ^ S q / INR (S q)).
    assert (Hq : INR (S q) <> 0) by (apply not_0_INR; discriminate).
    replace (PI ^ S q / INR (S q)) with (F PI - F 0) by (unfold F; cbn [pow]; field; exact Hq).
    apply (is_RInt_derive F).
    + intros t _. unfold F. auto_derive; [trivial|]. cbn [Init.Nat.pred]. 
      change (match q with O => 1 | S _ => INR q + 1 end) with (INR (S q)). field. exact Hq.
    + intros t _. apply (ex_derive_continuous (fun t => t ^ q * 1)). auto_derive. trivial.
  - cbn [dirichlet].
    apply (is_RInt_ext (fun t => plus (t ^ q * dirichlet n t) (scal 2 (t ^ q * cos (INR (S n) * t))))).
    { intros t _. unfold plus, scal. cbn. unfold mult. cbn. ring. }
    match goal with |- is_RInt _ _ _ ?l => replace l with
      (plus (PI ^ S q / INR (S q) + 2 * (fix s N := match N with O => 0 | S n => s n + m (S n) end) n) (scal 2 (m (S n)))) end.
    + apply (is_RInt_plus (V := R_NormedModule)); [exact IH|]. apply (is_RInt_scal (V := R_NormedModule)). apply Hm. discriminate.
    + unfold plus, scal. cbn -[INR pow]. unfold mult. cbn -[INR pow]. ring.
Qed.

Lemma eta2 : is_lim_seq (alt 2) (- (PI ^ 2 / 12)).
Proof.
  assert (HP := PI_RGT_0).
  assert (H := dirichlet_vanish 0).
  apply (is_lim_seq_ext (fun N => (RInt (fun t => t ^ 2 * dirichlet N t) 0 PI - PI ^ 3 / 3) / (4 * PI))).
  - intros N. rewrite (is_RInt_unique _ _ _ _ (fourier_sum 2 _ N moment2)).
    assert (E : forall N, (fix s N := match N with O => 0 | S n => s n + 2 * PI * ((-1) ^ S n / INR (S n) ^ 2) end) N = 2 * PI * alt 2 N).
    { clear. induction N as [|n IH]; [cbn; ring|]. rewrite IH. cbn [alt]. ring. }
    rewrite E. replace (INR 3) with 3 by (cbn; ring). field. lra.
  - replace (Finite (- (PI ^ 2 / 12))) with (Finite ((0 - PI ^ 3 / 3) / (4 * PI))) by (f_equal; field; lra).
    unfold Rdiv. apply (is_lim_seq_mult' _ (fun _ => / (4 * PI))); [|apply is_lim_seq_const].
    apply is_lim_seq_minus'; [exact H|apply is_lim_seq_const].
Qed.

Lemma eta4 : is_lim_seq (alt 4) (- (7 * PI ^ 4 / 720)).
Proof.
  assert (HP := PI_RGT_0).
  assert (H := dirichlet_vanish 2).
  apply (is_lim_seq_ext (fun N => (PI ^ 5 / 5 + 8 * PI ^ 3 * alt 2 N - RInt (fun t => t ^ 4 * dirichlet N t) 0 PI) / (48 * PI))).
  - intros N. rewrite (is_RInt_unique _ _ _ _ (fourier_sum 4 _ N moment4)).
    assert (E : forall N, (fix s N := match N with O => 0 | S n => s n + (4 * PI ^ 3 * ((-1) ^ S n / INR (S n) ^ 2) - 24 * PI * ((-1) ^ S n / INR (S n) ^ 4)) end) N
       = 4 * PI ^ 3 * alt 2 N - 24 * PI * alt 4 N).
    { clear. induction N as [|n IH]; [cbn; ring|]. rewrite IH. cbn [alt]. ring. }
    rewrite E. replace (INR 5) with 5 by (cbn; ring). field. lra.
  - replace (Finite (- (7 * PI ^ 4 / 720))) with (Finite ((PI ^ 5 / 5 + 8 * PI ^ 3 * (- (PI ^ 2 / 12)) - 0) / (48 * PI))) by (f_equal; field; lra).
    unfold Rdiv. apply (is_lim_seq_mult' _ (fun _ => / (48 * PI))); [|apply is_lim_seq_const].
    apply is_lim_seq_minus'; [|exact H]. apply is_lim_seq_plus'; [apply is_lim_seq_const|].
    apply (is_lim_seq_mult' (fun _ => 8 * PI ^ 3)); [apply is_lim_seq_const|exact eta2].
Qed.

Lemma eta6 : is_lim_seq (alt 6) (- (31 * PI ^ 6 / 30240)).
Proof.
  assert (HP := PI_RGT_0).
  assert (H := dirichlet_vanish 4).
  apply (is_lim_seq_ext (fun N => (RInt (fun t => t ^ 6 * dirichlet N t) 0 PI - PI ^ 7 / 7 - 12 * PI ^ 5 * alt 2 N + 240 * PI ^ 3 * alt 4 N) / (1440 * PI))).
  - intros N. rewrite (is_RInt_unique _ _ _ _ (fourier_sum 6 _ N moment6)).
    assert (E : forall N, (fix s N := match N with O => 0 | S n => s n + (6 * PI ^ 5 * ((-1) ^ S n / INR (S n) ^ 2) - 120 * PI ^ 3 * ((-1) ^ S n / INR (S n) ^ 4)
        + 720 * PI * ((-1) ^ S n / INR (S n) ^ 6)) end) N
       = 6 * PI ^ 5 * alt 2 N - 120 * PI ^ 3 * alt 4 N + 720 * PI * alt 6 N).
    { clear. induction N as [|n IH]; [cbn; ring|]. rewrite IH. cbn [alt]. ring. }
    rewrite E. replace (INR 7) with 7 by (cbn; ring). field. lra.
  - replace (Finite (- (31 * PI ^ 6 / 30240))) with
      (Finite ((0 - PI ^ 7 / 7 - 12 * PI ^ 5 * (- (PI ^ 2 / 12)) + 240 * PI ^ 3 * (- (7 * PI ^ 4 / 720))) / (1440 * PI))) by (f_equal; field; lra).
    unfold Rdiv. apply (is_lim_seq_mult' _ (fun _ => / (1440 * PI))); [|apply is_lim_seq_const].
    apply is_lim_seq_plus'; [|apply (is_lim_seq_mult' (fun _ => 240 * PI ^ 3)); [apply is_lim_seq_const|exact eta4]].
    apply is_lim_seq_minus'; [|apply (is_lim_seq_mult' (fun _ => 12 * PI ^ 5)); [apply is_lim_seq_const|exact eta2]].
    apply is_lim_seq_minus'; [exact H|apply is_lim_seq_const].
Qed.
