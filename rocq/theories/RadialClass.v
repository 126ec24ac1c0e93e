(** * Smooth functions that decay: the radial integrands are among them *)

From Coq Require Import ZArith Reals Lra Lia List Bool.
From Coquelicot Require Import Coquelicot.
From Verif Require Import Base Sums OneElProofs GaussInt NucPotSpec NucPot SpecSpec BesselProofs Type2Radial RadialSpec RadialConv RadialRate.
Import ListNotations.
Open Scope R_scope.

(** f, f' and f'' are at most M w on the half line *)
Definition c2_under (w : R -> R) (f : R -> R) : Prop := exists f1 f2 M, 0 <= M /\ (forall r : R, is_derive f r (f1 r)) /\ (forall r : R, is_derive f1 r (f2 r)) /\
  (forall r, 0 <= r -> Rabs (f r) <= M * w r /\ Rabs (f1 r) <= M * w r /\ Rabs (f2 r) <= M * w r).
Definition tame := c2_under (fun r => exp (- r)).
Definition mild := c2_under (fun _ => 1).

Lemma under_ext w f g : (forall r, f r = g r) -> c2_under w f -> c2_under w g.
Proof. intros E (f1 & f2 & M & M0 & D1 & D2 & B). exists f1, f2, M. split; [exact M0|]. split; [intros r; apply (is_derive_ext f g); [exact E|apply D1]|]. split; [exact D2|]. intros r Hr. rewrite <- E. apply B, Hr. Qed.

Lemma under_scal w c f : c2_under w f -> c2_under w (fun r => c * f r).
Proof.
  intros (f1 & f2 & M & M0 & D1 & D2 & B). exists (fun r => c * f1 r), (fun r => c * f2 r), (Rabs c * M). split; [apply Rmult_le_pos; [apply Rabs_pos|exact M0]|].
  split; [intros r; apply is_derive_scal, D1|]. split; [intros r; apply is_derive_scal, D2|]. intros r Hr. destruct (B r Hr) as (b0 & b1 & b2). rewrite !Rabs_mult, !Rmult_assoc. pose proof (Rabs_pos c). repeat split; apply Rmult_le_compat_l; assumption.
Qed.

Lemma under_plus w f g : c2_under w f -> c2_under w g -> c2_under w (fun r => f r + g r).
Proof.
  intros (f1 & f2 & M & M0 & D1 & D2 & B) (g1 & g2 & N & N0 & E1 & E2 & C). exists (fun r => f1 r + g1 r), (fun r => f2 r + g2 r), (M + N). split; [lra|].
  split; [intros r; apply (is_derive_plus (V := R_NormedModule)); [apply D1|apply E1]|]. split; [intros r; apply (is_derive_plus (V := R_NormedModule)); [apply D2|apply E2]|].
  intros r Hr. destruct (B r Hr) as (b0 & b1 & b2). destruct (C r Hr) as (c0 & c1 & c2). rewrite Rmult_plus_distr_r. repeat split; (eapply Rle_trans; [apply Rabs_triang|]; lra).
Qed.

Lemma under_zero w : (forall r, 0 <= r -> 0 <= w r) -> c2_under w (fun _ => 0).
Proof.
  intros W. exists (fun _ => 0), (fun _ => 0), 1. split; [lra|]. split; [intros r; apply (is_derive_const (V := R_NormedModule))|]. split; [intros r; apply (is_derive_const (V := R_NormedModule))|].
  intros r Hr. rewrite Rabs_R0. pose proof (W r Hr). lra.
Qed.

Lemma under_lsum {A} w (f : A -> R -> R) l : (forall r, 0 <= r -> 0 <= w r) -> (forall x, In x l -> c2_under w (f x)) -> c2_under w (fun r => lsum (fun x => f x r) l).
Proof.
  intros W. induction l as [|x l IH]; intros H; [apply under_zero, W|]. apply (under_plus w (f x)); [apply H; left; reflexivity|apply IH; intros; apply H; right; assumption].
Qed.

(** a bounded factor *)
Lemma under_mult w f g : (forall r, 0 <= r -> 0 <= w r) -> c2_under w f -> mild g -> c2_under w (fun r => f r * g r).
Proof.
  intros W (f1 & f2 & M & M0 & D1 & D2 & B) (g1 & g2 & N & N0 & E1 & E2 & C).
  exists (fun r => f1 r * g r + f r * g1 r), (fun r => (f2 r * g r + f1 r * g1 r) + (f1 r * g1 r + f r * g2 r)), (4 * (M * N)). split; [pose proof (Rmult_le_pos _ _ M0 N0); lra|].
  split; [intros r; apply mul_der; [apply D1|apply E1]|]. split.
  { intros r. apply (is_derive_plus (V := R_NormedModule) (fun r => f1 r * g r) (fun r => f r * g1 r)); apply mul_der; [apply D2|apply E1|apply D1|apply E2]. }
  intros r Hr. destruct (B r Hr) as (b0 & b1 & b2). destruct (C r Hr) as (c0 & c1 & c2). rewrite Rmult_1_r in c0, c1, c2. pose proof (W r Hr) as w0.
  assert (P : forall x y, Rabs x <= M * w r -> Rabs y <= N -> Rabs (x * y) <= M * N * w r).
  { intros x y Hx Hy. rewrite Rabs_mult. replace (M * N * w r) with (M * w r * N) by ring. apply Rmult_le_compat; try apply Rabs_pos; assumption. }
  assert (Q : 0 <= M * N * w r) by (repeat apply Rmult_le_pos; assumption).
  replace (4 * (M * N) * w r) with (4 * (M * N * w r)) by ring.
  pose proof (P _ _ b0 c0) as p00. pose proof (P _ _ b1 c0) as p10. pose proof (P _ _ b0 c1) as p01. pose proof (P _ _ b2 c0) as p20. pose proof (P _ _ b1 c1) as p11. pose proof (P _ _ b0 c2) as p02.
  split; [lra|]. split.
  - eapply Rle_trans; [apply Rabs_triang|]. lra.
  - eapply Rle_trans; [apply Rabs_triang|]. pose proof (Rabs_triang (f2 r * g r) (f1 r * g1 r)). pose proof (Rabs_triang (f1 r * g1 r) (f r * g2 r)). lra.
Qed.

(** ** Members *)
Lemma pow_exp r k : 0 <= r -> r ^ k <= INR (fact k) * exp r.
Proof.
  intros Hr. assert (X : r ^ k / INR (fact k) <= exp r).
  { pose proof (exp_ge_taylor r k Hr) as T. eapply Rle_trans; [|exact T]. destruct k as [|k]; [simpl; lra|]. rewrite tech5. assert (0 <= sum_f_R0 (fun i => r ^ i / INR (fact i)) k); [|lra]. apply cond_pos_sum. intros n. apply Rmult_le_pos; [apply pow_le, Hr|left; apply Rinv_0_lt_compat, INR_fact_lt_0]. }
  pose proof (INR_fact_lt_0 k). apply Rmult_le_reg_r with (/ INR (fact k)); [apply Rinv_0_lt_compat; assumption|]. replace (INR (fact k) * exp r * / INR (fact k)) with (exp r) by (field; lra). exact X.
Qed.

Lemma exp_le_mono x y : x <= y -> exp x <= exp y.
Proof. intros [H|H]; [left; apply exp_increasing, H|rewrite H; right; reflexivity]. Qed.

Lemma gauss_pow_bound a D k r : 0 < a -> 0 <= r -> Rabs (r ^ k * exp (- a * ((r - D) * (r - D)))) <= INR (fact k) * exp (2 * D + / a) * exp (- r).
Proof.
  intros Ha Hr. rewrite Rabs_pos_eq by (apply Rmult_le_pos; [apply pow_le, Hr|left; apply exp_pos]).
  assert (E : exp (- a * ((r - D) * (r - D))) <= exp (2 * D + / a) * exp (- r) * exp (- r)).
  { rewrite <- !exp_plus. apply exp_le_mono. assert (X : 0 <= a * (r - D - / a) ^ 2) by (apply Rmult_le_pos; [lra|apply pow2_ge_0]).
    replace (a * (r - D - / a) ^ 2) with (a * ((r - D) * (r - D)) - 2 * (r - D) + / a) in X by (field; lra). lra. }
  pose proof (pow_exp r k Hr) as P. replace (INR (fact k) * exp (2 * D + / a) * exp (- r)) with ((INR (fact k) * exp r) * (exp (2 * D + / a) * exp (- r) * exp (- r))).
  - apply Rmult_le_compat; [apply pow_le, Hr|left; apply exp_pos|exact P|exact E].
  - transitivity (INR (fact k) * exp (2 * D + / a) * exp (- r) * (exp r * exp (- r))); [ring|]. rewrite <- exp_plus, Rplus_opp_r, exp_0. ring.
Qed.

Definition gp (a D : R) (k : nat) (r : R) : R := r ^ k * exp (- a * ((r - D) * (r - D))).

Lemma gp_der a D k r : is_derive (gp a D k) r (INR k * gp a D (pred k) r + (2 * a * D * gp a D k r + - (2 * a) * gp a D (S k) r)).
Proof.
  unfold gp. eapply is_derive_eq; [auto_derive; [exact I|reflexivity]|]. match goal with |- @eq _ ?a ?b => change (@eq R a b) end. unfold Rminus. set (e := exp _). clearbody e.
  destruct k as [|k]; [cbn [pow pred INR]; ring|]. set (w := INR (S k)). clearbody w. cbn [pow pred]. ring.
Qed.

Lemma tame_gp a D k : 0 < a -> tame (gp a D k).
Proof.
  intros Ha. set (B := fun k => INR (fact k) * exp (2 * D + / a)).
  assert (B0 : forall k, 0 <= B k) by (intros; unfold B; apply Rmult_le_pos; [left; apply INR_fact_lt_0|left; apply exp_pos]).
  assert (HB : forall k r, 0 <= r -> Rabs (gp a D k r) <= B k * exp (- r)) by (intros; apply gauss_pow_bound; assumption).
  set (d := fun k r => INR k * gp a D (pred k) r + (2 * a * D * gp a D k r + - (2 * a) * gp a D (S k) r)).
  set (Bd := fun k => INR k * B (pred k) + (Rabs (2 * a * D) * B k + 2 * a * B (S k))).
  assert (Bd0 : forall k, 0 <= Bd k).
  { intros j. unfold Bd. pose proof (Rmult_le_pos _ _ (pos_INR j) (B0 (pred j))). pose proof (Rmult_le_pos _ _ (Rabs_pos (2 * a * D)) (B0 j)). pose proof (Rmult_le_pos (2 * a) _ ltac:(lra) (B0 (S j))). lra. }
  assert (Hd : forall k r, 0 <= r -> Rabs (d k r) <= Bd k * exp (- r)).
  { intros j r Hr. unfold d, Bd. pose proof (HB (pred j) r Hr) as h0. pose proof (HB j r Hr) as h1. pose proof (HB (S j) r Hr) as h2.
    eapply Rle_trans; [apply Rabs_triang|]. pose proof (Rabs_triang (2 * a * D * gp a D j r) (- (2 * a) * gp a D (S j) r)) as T.
    assert (q0 : Rabs (INR j * gp a D (pred j) r) <= INR j * B (pred j) * exp (- r)) by (rewrite Rabs_mult, (Rabs_pos_eq (INR j)) by apply pos_INR; rewrite Rmult_assoc; apply Rmult_le_compat_l; [apply pos_INR|exact h0]).
    assert (q1 : Rabs (2 * a * D * gp a D j r) <= Rabs (2 * a * D) * B j * exp (- r)) by (rewrite Rabs_mult, (Rmult_assoc (Rabs (2 * a * D))); apply Rmult_le_compat_l; [apply Rabs_pos|exact h1]).
    assert (q2 : Rabs (- (2 * a) * gp a D (S j) r) <= 2 * a * B (S j) * exp (- r)) by (rewrite Rabs_mult, Rabs_Ropp, (Rabs_pos_eq (2 * a)) by lra; rewrite (Rmult_assoc (2 * a)); apply Rmult_le_compat_l; [lra|exact h2]).
    lra. }
  set (dd := fun r => INR k * d (pred k) r + (2 * a * D * d k r + - (2 * a) * d (S k) r)).
  set (Bdd := INR k * Bd (pred k) + (Rabs (2 * a * D) * Bd k + 2 * a * Bd (S k))).
  assert (Hdd : forall r, 0 <= r -> Rabs (dd r) <= Bdd * exp (- r)).
  { intros r Hr. unfold dd, Bdd. pose proof (Hd (pred k) r Hr) as h0. pose proof (Hd k r Hr) as h1. pose proof (Hd (S k) r Hr) as h2.
    eapply Rle_trans; [apply Rabs_triang|]. pose proof (Rabs_triang (2 * a * D * d k r) (- (2 * a) * d (S k) r)) as T.
    assert (q0 : Rabs (INR k * d (pred k) r) <= INR k * Bd (pred k) * exp (- r)) by (rewrite Rabs_mult, (Rabs_pos_eq (INR k)) by apply pos_INR; rewrite Rmult_assoc; apply Rmult_le_compat_l; [apply pos_INR|exact h0]).
    assert (q1 : Rabs (2 * a * D * d k r) <= Rabs (2 * a * D) * Bd k * exp (- r)) by (rewrite Rabs_mult, (Rmult_assoc (Rabs (2 * a * D))); apply Rmult_le_compat_l; [apply Rabs_pos|exact h1]).
    assert (q2 : Rabs (- (2 * a) * d (S k) r) <= 2 * a * Bd (S k) * exp (- r)) by (rewrite Rabs_mult, Rabs_Ropp, (Rabs_pos_eq (2 * a)) by lra; rewrite (Rmult_assoc (2 * a)); apply Rmult_le_compat_l; [lra|exact h2]).
    lra. }
  assert (Bdd0 : 0 <= Bdd).
  { unfold Bdd. pose proof (Rmult_le_pos _ _ (pos_INR k) (Bd0 (pred k))). pose proof (Rmult_le_pos _ _ (Rabs_pos (2 * a * D)) (Bd0 k)). pose proof (Rmult_le_pos (2 * a) _ ltac:(lra) (Bd0 (S k))). lra. }
  exists (d k), dd, (B k + Bd k + Bdd). split; [pose proof (B0 k); pose proof (Bd0 k); lra|]. split; [intros r; apply gp_der|]. split.
  - intros r. unfold d at 1, dd. apply (is_derive_plus (V := R_NormedModule) (fun r => INR k * gp a D (pred k) r) (fun r => 2 * a * D * gp a D k r + - (2 * a) * gp a D (S k) r)); [apply is_derive_scal, gp_der|].
    apply (is_derive_plus (V := R_NormedModule) (fun r => 2 * a * D * gp a D k r) (fun r => - (2 * a) * gp a D (S k) r)); apply is_derive_scal, gp_der.
  - intros r Hr. pose proof (HB k r Hr). pose proof (Hd k r Hr). pose proof (Hdd r Hr). pose proof (exp_pos (- r)) as e0.
    pose proof (Rmult_le_pos _ _ (B0 k) (Rlt_le _ _ e0)). pose proof (Rmult_le_pos _ _ (Bd0 k) (Rlt_le _ _ e0)). pose proof (Rmult_le_pos _ _ Bdd0 (Rlt_le _ _ e0)). repeat split; lra.
Qed.

Lemma tame_mild f : tame f -> mild f.
Proof.
  intros (f1 & f2 & M & M0 & D1 & D2 & B). exists f1, f2, M. split; [exact M0|]. split; [exact D1|]. split; [exact D2|]. intros r Hr. destruct (B r Hr) as (b0 & b1 & b2).
  assert (M * exp (- r) <= M * 1) by (apply Rmult_le_compat_l; [exact M0|]; rewrite <- exp_0; apply exp_le_mono; lra). repeat split; lra.
Qed.

Lemma mild_one : mild (fun _ => 1).
Proof.
  exists (fun _ => 0), (fun _ => 0), 1. split; [lra|]. split; [intros r; apply (is_derive_const (V := R_NormedModule))|]. split; [intros r; apply (is_derive_const (V := R_NormedModule))|].
  intros r Hr. rewrite Rabs_R0, Rabs_R1. lra.
Qed.

Lemma mild_gauss a D : 0 <= a -> mild (fun r => exp (- a * ((r - D) * (r - D)))).
Proof.
  intros [Ha|Ha].
  - apply tame_mild. apply (under_ext _ (gp a D 0)); [intros r; unfold gp; cbn [pow]; ring|]. apply tame_gp, Ha.
  - apply (under_ext _ (fun _ => 1)); [intros r; subst a; rewrite <- exp_0; f_equal; ring|exact mild_one].
Qed.

Lemma mild_bess l k : 0 <= k -> mild (fun r => bessK l (k * r)).
Proof.
  intros Hk. assert (D : forall j (r : R), is_derive (fun r => bessD j l (k * r)) r (k * bessD (S j) l (k * r))).
  { intros j r. apply (is_derive_comp (V := R_NormedModule) (bessD j l) (fun r => k * r)); [apply bessD_derive|]. eapply is_derive_eq; [apply is_derive_scal, (is_derive_id (K := R_AbsRing))|]. apply Rmult_1_r. }
  exists (fun r => k * bessD 1 l (k * r)), (fun r => k * (k * bessD 2 l (k * r))), (1 + 2 * k + k * k * 4). split; [nra|].
  split; [intros r; apply (D O)|]. split; [intros r; apply is_derive_scal, (D 1%nat)|].
  intros r Hr. assert (kr : 0 <= k * r) by (apply Rmult_le_pos; assumption). pose proof (bessD_bound 0 l _ kr) as b0. pose proof (bessD_bound 1 l _ kr) as b1. pose proof (bessD_bound 2 l _ kr) as b2.
  change (bessD 0 l (k * r)) with (bessK l (k * r)) in b0. replace (2 ^ 0) with 1 in b0 by ring. replace (2 ^ 1) with 2 in b1 by ring. replace (2 ^ 2) with 4 in b2 by ring.
  rewrite !Rabs_mult, (Rabs_pos_eq k Hk). assert (k * Rabs (bessD 1 l (k * r)) <= k * 2) by (apply Rmult_le_compat_l; assumption).
  assert (k * (k * Rabs (bessD 2 l (k * r))) <= k * (k * 4)) by (apply Rmult_le_compat_l; [assumption|]; apply Rmult_le_compat_l; assumption). pose proof (Rmult_le_pos k k Hk Hk). repeat split; lra.
Qed.

Lemma w_exp r : 0 <= r -> 0 <= exp (- r).
Proof. intros _. left. apply exp_pos. Qed.

Lemma tame_prim k eta a b D E y1 y2 : 0 <= eta -> 0 < a -> 0 <= b -> mild y1 -> mild y2 ->
  tame (fun r => r ^ k * exp (- eta * (r * r)) * (exp (- a * ((r - D) * (r - D))) * y1 r) * (exp (- b * ((r - E) * (r - E))) * y2 r)).
Proof.
  intros He Ha Hb H1 H2.
  apply (under_ext _ (fun r => gp a D k r * exp (- eta * ((r - 0) * (r - 0))) * y1 r * exp (- b * ((r - E) * (r - E))) * y2 r)); [intros r; unfold gp; rewrite Rminus_0_r; ring|].
  apply (under_mult (fun r => exp (- r)) (fun r => gp a D k r * exp (- eta * ((r - 0) * (r - 0))) * y1 r * exp (- b * ((r - E) * (r - E)))) _ w_exp); [|exact H2].
  apply (under_mult (fun r => exp (- r)) (fun r => gp a D k r * exp (- eta * ((r - 0) * (r - 0))) * y1 r) _ w_exp); [|apply mild_gauss, Hb].
  apply (under_mult (fun r => exp (- r)) (fun r => gp a D k r * exp (- eta * ((r - 0) * (r - 0)))) _ w_exp); [|exact H1].
  apply (under_mult (fun r => exp (- r)) (gp a D k) _ w_exp); [apply tame_gp, Ha|apply mild_gauss, He].
Qed.

(** ** The rule for such functions *)
Lemma tame_cont f r : tame f -> continuous f r.
Proof. intros (f1 & f2 & M & M0 & D1 & _). apply (ex_derive_continuous (V := R_NormedModule)). exists (f1 r). apply D1. Qed.

Lemma tame_rate H g v : tame H -> (forall r, 0 < r -> H r = r ^ 2 * g r) -> half_int H v -> exists K, 0 <= K /\ forall n, (1 <= n)%Z -> Rabs (quadrature g n - v) <= K / IZR (n + 1) ^ 2.
Proof.
  intros (f1 & f2 & M & M0 & D1 & D2 & B) E Hv. exists (720 * M). split; [lra|]. intros n Hn.
  apply (rule_rate H f1 f2 M D1 D2); try assumption; intros r Hr; apply B, Hr.
Qed.

Lemma tame_int f : tame f -> exists v, half_int f v.
Proof.
  intros (f1 & f2 & M & M0 & D1 & D2 & B). assert (C : forall r, continuous f r) by (intros r; apply (ex_derive_continuous (V := R_NormedModule)); exists (f1 r); apply D1).
  assert (HE : half_int (fun r => exp (- r)) 1).
  { split.
    - intros T _. apply (ex_RInt_continuous (V := R_CompleteNormedModule)). intros z _. apply (ex_derive_continuous (V := R_NormedModule)). auto_derive. exact I.
    - apply (is_lim_ext (fun b => 1 - exp (- b))).
      + intros b. symmetry. apply is_RInt_unique. replace (1 - exp (- b)) with (minus (- exp (- b)) (- exp (- 0))) by (rewrite Ropp_0, exp_0; unfold minus, plus, opp; simpl; ring).
        apply (is_RInt_derive (V := R_CompleteNormedModule) (fun r => - exp (- r))); [intros x _; auto_derive; [exact I|ring]|]. intros x _. apply (ex_derive_continuous (V := R_NormedModule)). auto_derive. exact I.
      + replace (Finite 1) with (Rbar_minus 1 0) by (simpl; f_equal; ring). apply is_lim_minus'; [apply is_lim_const|]. apply (is_lim_comp exp (fun b => - b) p_infty 0 m_infty); [apply is_lim_exp_m|apply (is_lim_opp (fun b => b) p_infty p_infty), is_lim_id|exists 0; intros; discriminate]. }
  destruct (half_dominated (fun r => f r + M * exp (- r)) (fun r => 2 * M * exp (- r)) (2 * M * 1)) as (u & Hu).
  - intros r. apply (continuous_plus (V := R_NormedModule) f); [apply C|]. apply (ex_derive_continuous (V := R_NormedModule)). auto_derive. exact I.
  - intros r Hr. destruct (B r Hr) as (b0 & _). apply Rabs_le_between in b0. lra.
  - apply half_scal, HE.
  - exists (u + (- M) * 1). apply (half_ext (fun r => (f r + M * exp (- r)) + (- M) * exp (- r))); [intros r _; ring|]. apply half_plus; [exact Hu|]. apply half_scal, HE.
Qed.
