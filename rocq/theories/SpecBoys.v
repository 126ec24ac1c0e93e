(** * The Boys function: recurrence, Taylor formula, large arguments *)

From Coq Require Import ZArith List Lia Bool Reals Lra Factorial.
From Coquelicot Require Import Coquelicot.
From Verif Require Import OneElProofs GaussInt OvDeriv BinomProofs NucPotSpec NucPot GaussMoment SpecExp SpecSpec.
Import ListNotations.
Open Scope R_scope.

Lemma cont_int f a b : (forall t, ex_derive f t) -> ex_RInt (V := R_CompleteNormedModule) f a b.
Proof. intros H. apply (ex_RInt_continuous (V := R_CompleteNormedModule)). intros t _. apply (ex_derive_continuous f). apply H. Qed.

Lemma cont_RInt f a b : (forall t, ex_derive f t) -> is_RInt (V := R_NormedModule) f a b (RInt (V := R_CompleteNormedModule) f a b).
Proof. intros H. apply (RInt_correct (V := R_CompleteNormedModule)). apply cont_int, H. Qed.

Lemma boys_fun_der n x t : ex_derive (fun t => t ^ (2 * n) * exp (- x * t ^ 2)) t.
Proof. auto_derive. exact I. Qed.

Lemma boys_int n x : is_RInt (V := R_NormedModule) (fun t => t ^ (2 * n) * exp (- x * t ^ 2)) 0 1 (boys n x).
Proof. apply cont_RInt, boys_fun_der. Qed.

Lemma RInt_eq f v w : is_RInt (V := R_NormedModule) f 0 1 v -> is_RInt (V := R_NormedModule) f 0 1 w -> v = w.
Proof. intros H1 H2. rewrite <- (is_RInt_unique (V := R_CompleteNormedModule) f 0 1 v H1). exact (is_RInt_unique (V := R_CompleteNormedModule) f 0 1 w H2). Qed.

Lemma int_deriv (F f : R -> R) a b v : (forall t, is_derive F t (f t)) -> (forall t, ex_derive f t) -> v = F b - F a -> is_RInt (V := R_NormedModule) f a b v.
Proof. intros D C ->. apply (is_RInt_derive F); [intros; apply D|intros t _; apply (ex_derive_continuous f), C]. Qed.

Lemma is_derive_mono n t : is_derive (fun t => t ^ S n) t (INR (S n) * t ^ n).
Proof. eapply is_derive_eq; [apply (is_derive_pow (fun y => y)); apply is_derive_id|]. unfold one. cbn [AbsRing.Ring Ring.class]. change (Init.Nat.pred (S n)) with n. match goal with |- _ = ?y => change (INR (S n) * 1 * t ^ n = y) end. ring. Qed.

Lemma mono_int n : is_RInt (V := R_NormedModule) (fun t => t ^ n) 0 1 (/ INR (S n)).
Proof.
  assert (P : INR (S n) <> 0) by (apply not_0_INR; lia).
  apply (int_deriv (fun t => / INR (S n) * t ^ S n)).
  - intros t. eapply is_derive_eq; [apply is_derive_scal, is_derive_mono|]. field. exact P.
  - intros t. auto_derive. exact I.
  - rewrite pow1, pow_i by lia. ring.
Qed.

Lemma boys_rec n x : (2 * INR n + 1) * boys n x = 2 * x * boys (S n) x + exp (- x).
Proof.
  assert (I1 : is_RInt (V := R_NormedModule) (fun t => (2 * INR n + 1) * (t ^ (2 * n) * exp (- x * t ^ 2)) + - (2 * x) * (t ^ (2 * S n) * exp (- x * t ^ 2))) 0 1 ((2 * INR n + 1) * boys n x + - (2 * x) * boys (S n) x)).
  { apply (is_RInt_plus (V := R_NormedModule)); apply (is_RInt_scal (V := R_NormedModule)); apply boys_int. }
  assert (I2 : is_RInt (V := R_NormedModule) (fun t => (2 * INR n + 1) * (t ^ (2 * n) * exp (- x * t ^ 2)) + - (2 * x) * (t ^ (2 * S n) * exp (- x * t ^ 2))) 0 1 (exp (- x))).
  { apply (int_deriv (fun t => t ^ S (2 * n) * exp (- x * t ^ 2))).
    - intros t. assert (D2 : is_derive (fun t => exp (- x * t ^ 2)) t (- (2 * x) * t * exp (- x * t ^ 2))) by (auto_derive; [exact I|cbn [INR pow]; ringR]).
      eapply is_derive_eq; [apply (is_derive_mult (K := R_AbsRing)); [apply is_derive_mono|exact D2|intros; apply Rmult_comm]|].
      match goal with |- _ = ?y => change (INR (S (2 * n)) * t ^ (2 * n) * exp (- x * t ^ 2) + t ^ S (2 * n) * (- (2 * x) * t * exp (- x * t ^ 2)) = y) end.
      rewrite S_INR, mult_INR. replace (2 * S n)%nat with (S (S (2 * n))) by lia. cbn [INR pow]. ring.
    - intros t. auto_derive. repeat split.
    - rewrite pow1, pow_i by lia. replace (- x * 1 ^ 2) with (- x) by ring. ring. }
  pose proof (RInt_eq _ _ _ I1 I2). lra.
Qed.

Lemma RInt_bound f g v : is_RInt (V := R_NormedModule) f 0 1 v -> (forall t, 0 <= t <= 1 -> Rabs (f t) <= g t) -> forall w, is_RInt (V := R_NormedModule) g 0 1 w -> Rabs v <= w.
Proof.
  intros Hf Hb w Hg. apply (norm_RInt_le (V := R_NormedModule) f g 0 1 v w); [lra|exact Hb|exact Hf|exact Hg].
Qed.

Lemma exp_le a b : a <= b -> exp a <= exp b.
Proof. intros [H|<-]; [left; apply exp_increasing, H|lra]. Qed.

Lemma boys_bounds n x : 0 <= x -> 0 <= boys n x <= / INR (2 * n + 1).
Proof.
  intros Hx. split.
  - apply (is_RInt_ge_0 (fun t => t ^ (2 * n) * exp (- x * t ^ 2)) 0 1); [lra|apply boys_int|]. intros t Ht. apply Rmult_le_pos; [apply pow_le; lra|left; apply exp_pos].
  - eapply Rle_trans; [apply Rle_abs|]. replace (2 * n + 1)%nat with (S (2 * n)) by lia.
    apply (RInt_bound (fun t => t ^ (2 * n) * exp (- x * t ^ 2)) (fun t => t ^ (2 * n))); [apply boys_int| |apply mono_int].
    intros t Ht. rewrite Rabs_pos_eq by (apply Rmult_le_pos; [apply pow_le; lra|left; apply exp_pos]).
    rewrite <- (Rmult_1_r (t ^ (2 * n))) at 2. apply Rmult_le_compat_l; [apply pow_le; lra|]. rewrite <- exp_0. apply exp_le. pose proof (pow2_ge_0 t). nra.
Qed.

Lemma rsum_int (f : nat -> R -> R) (v : nat -> R) K : (forall k, (k < K)%nat -> is_RInt (V := R_NormedModule) (f k) 0 1 (v k)) ->
  is_RInt (V := R_NormedModule) (fun t => rsum K (fun k => f k t)) 0 1 (rsum K v).
Proof.
  induction K as [|K IH]; intros H; cbn [rsum].
  - eapply is_RInt_ext; [|apply (int_deriv (fun _ => 0) (fun _ => 0))]; [reflexivity|intros; apply (is_derive_const (K := R_AbsRing) (V := R_NormedModule))|intros; apply ex_derive_const|ring].
  - apply (is_RInt_plus (V := R_NormedModule)); [apply IH; intros; apply H; lia|apply H; lia].
Qed.

Lemma rsum_scal K c f : rsum K (fun k => c * f k) = c * rsum K f.
Proof. induction K as [|K IH]; cbn [rsum]; [ring|]. rewrite IH. ring. Qed.

(** the Taylor polynomial of degree K - 1 about x0, error <= |dx|^K / K! / (2n + 2K + 1) *)
Lemma boys_taylor n K x x0 : 0 <= x -> 0 <= x0 ->
  Rabs (rsum K (fun k => eterm (- (x - x0)) k * boys (n + k) x0) - boys n x) <= eterm (Rabs (x - x0)) K / INR (2 * (n + K) + 1).
Proof.
  intros Hx Hx0. set (d := x - x0).
  assert (I1 : is_RInt (V := R_NormedModule) (fun t => - (t ^ (2 * n) * exp (- x0 * t ^ 2) * erem K (- d * t ^ 2))) 0 1 (rsum K (fun k => eterm (- d) k * boys (n + k) x0) - boys n x)).
  { eapply is_RInt_ext with (f := fun t => rsum K (fun k => eterm (- d) k * (t ^ (2 * (n + k)) * exp (- x0 * t ^ 2))) - t ^ (2 * n) * exp (- x * t ^ 2)).
    - intros t _. unfold erem. transitivity (t ^ (2 * n) * exp (- x0 * t ^ 2) * rsum K (eterm (- d * t ^ 2)) - t ^ (2 * n) * (exp (- x0 * t ^ 2) * exp (- d * t ^ 2))); [|ringR].
      f_equal.
      + rewrite <- rsum_scal. apply rsum_ext. intros k _. unfold eterm. rewrite Rpow_mult_distr, <- pow_mult. replace (2 * (n + k))%nat with (2 * n + 2 * k)%nat by lia. rewrite pow_add. unfold Rdiv. ring.
      + f_equal. f_equal. rewrite <- exp_plus. f_equal. unfold d. ring.
    - apply (is_RInt_minus (V := R_NormedModule)); [|apply boys_int]. apply rsum_int. intros k _. apply (is_RInt_scal (V := R_NormedModule)). apply boys_int. }
  apply (RInt_bound _ (fun t => eterm (Rabs d) K * t ^ (2 * (n + K))) _ I1).
  - intros t Ht. rewrite Rabs_Ropp, Rabs_mult. pose proof (pow_le t (2 * n) ltac:(lra)) as P. pose proof (exp_pos (- x0 * t ^ 2)) as E.
    rewrite (Rabs_pos_eq (t ^ (2 * n) * _)) by (apply Rmult_le_pos; lra). pose proof (pow2_ge_0 t) as T2.
    replace (eterm (Rabs d) K * t ^ (2 * (n + K))) with (t ^ (2 * n) * (eterm (Rabs (- d * t ^ 2)) K)).
    2: { unfold eterm. rewrite Rabs_mult, Rabs_Ropp, (Rabs_pos_eq (t ^ 2)) by exact T2. rewrite Rpow_mult_distr, <- (pow_mult t). replace (2 * (n + K))%nat with (2 * n + 2 * K)%nat by lia. rewrite pow_add. unfold Rdiv. ring. }
    rewrite Rmult_assoc. apply Rmult_le_compat_l; [exact P|].
    eapply Rle_trans; [apply Rmult_le_compat_l; [lra|apply erem_abs]|].
    pose proof (eterm_pos (Rabs (- d * t ^ 2)) K (Rabs_pos _)) as Q.
    rewrite <- (Rmult_1_r (eterm (Rabs (- d * t ^ 2)) K)) at 2. rewrite <- Rmult_assoc, (Rmult_comm (exp _)), Rmult_assoc. apply Rmult_le_compat_l; [exact Q|].
    rewrite <- RmaxRmult by lra. apply Rmax_lub.
    + rewrite Rmult_1_r, <- exp_0. apply exp_le. nra.
    + rewrite <- exp_plus, <- exp_0. apply exp_le. unfold d. replace (- x0 * t ^ 2 + - (x - x0) * t ^ 2) with (- (x * t ^ 2)) by ring. assert (0 <= x * t ^ 2) by (apply Rmult_le_pos; assumption). lra.
  - unfold Rdiv. replace (2 * (n + K) + 1)%nat with (S (2 * (n + K))) by lia. apply (is_RInt_scal (V := R_NormedModule)). apply mono_int.
Qed.

(** ** Large arguments: the integral to infinity *)
Lemma boys_tail n x : INR n < x -> 0 <= gmom (2 * n) x - boys n x <= exp (- x) / (2 * (x - INR n)).
Proof.
  intros Hx. pose proof (pos_INR n) as Hn. destruct (gauss_moment (2 * n) x ltac:(lra)) as (_ & L).
  set (f := fun t => t ^ (2 * n) * exp (- x * t ^ 2)) in *.
  assert (C : forall a b, ex_RInt (V := R_CompleteNormedModule) f a b) by (intros; apply cont_int; intros; apply boys_fun_der).
  assert (T : forall b, 1 <= b -> 0 <= RInt f 0 b - boys n x <= exp (- x) / (2 * (x - INR n))).
  { intros b Hb. unfold boys. fold f. assert (Ch : RInt f 0 b = RInt f 0 1 + RInt f 1 b) by (symmetry; apply (RInt_Chasles (V := R_CompleteNormedModule)); apply C).
    assert (Y : forall u v : R, u + v - u = v) by (intros; ring). rewrite Ch, Y. split.
    - apply RInt_ge_0; [exact Hb|apply C|]. intros t Ht. unfold f. apply Rmult_le_pos; [apply pow_le; lra|left; apply exp_pos].
    - set (g := fun t => exp (- INR n) * (t * exp (- (x - INR n) * t ^ 2))).
      assert (G : is_RInt (V := R_NormedModule) g 1 b (exp (- INR n) * (exp (- (x - INR n)) / (2 * (x - INR n)) - exp (- (x - INR n) * b ^ 2) / (2 * (x - INR n))))).
      { apply (is_RInt_scal (V := R_NormedModule)). apply (int_deriv (fun t => - exp (- (x - INR n) * t ^ 2) / (2 * (x - INR n)))).
        - intros t. auto_derive; [exact I|]. match goal with |- ?a = ?b => change (@eq R a b) end. unfold Rdiv. replace (t * (t * 1)) with (t ^ 2) by ring. field. lra.
        - intros t. auto_derive. exact I.
        - replace (- (x - INR n) * 1 ^ 2) with (- (x - INR n)) by ring. field. lra. }
      apply Rle_trans with (RInt g 1 b).
      + apply RInt_le; [exact Hb|apply C|exists (exp (- INR n) * (exp (- (x - INR n)) / (2 * (x - INR n)) - exp (- (x - INR n) * b ^ 2) / (2 * (x - INR n)))); exact G|].
        intros t Ht. unfold f, g. replace (exp (- x * t ^ 2)) with (exp (- INR n * t ^ 2) * exp (- (x - INR n) * t ^ 2)) by (rewrite <- exp_plus; f_equal; ring).
        rewrite <- !Rmult_assoc. apply Rmult_le_compat_r; [left; apply exp_pos|].
        apply Rle_trans with (exp (- INR n) * 1); [|apply Rmult_le_compat_l; [left; apply exp_pos|lra]]. rewrite Rmult_1_r.
        assert (E1 : t ^ (2 * n) <= exp (INR n * (t ^ 2 - 1))).
        { rewrite pow_mult. rewrite <- Rpower_pow by (apply pow_lt; lra). unfold Rpower. apply exp_le. apply Rmult_le_compat_l; [exact Hn|].
          pose proof (exp_ineq1_le (ln (t ^ 2))) as X. rewrite exp_ln in X by (apply pow_lt; lra). lra. }
        apply Rle_trans with (exp (INR n * (t ^ 2 - 1)) * exp (- INR n * t ^ 2)); [apply Rmult_le_compat_r; [left; apply exp_pos|exact E1]|].
        rewrite <- exp_plus. apply exp_le. right. ring.
      + rewrite (is_RInt_unique (V := R_CompleteNormedModule) _ _ _ _ G). replace (exp (- x)) with (exp (- INR n) * exp (- (x - INR n))) by (rewrite <- exp_plus; f_equal; ring).
        unfold Rdiv. rewrite Rmult_assoc. apply Rmult_le_compat_l; [left; apply exp_pos|].
        assert (0 <= exp (- (x - INR n) * b ^ 2) * / (2 * (x - INR n))) by (apply Rmult_le_pos; [left; apply exp_pos|left; apply Rinv_0_lt_compat; lra]). lra. }
  assert (L' : is_lim (fun b => RInt f 0 b - boys n x) p_infty (gmom (2 * n) x - boys n x)).
  { apply (is_lim_minus _ _ _ (gmom (2 * n) x) (boys n x)); [exact L|apply is_lim_const|reflexivity]. }
  split.
  - apply (is_lim_le_loc (fun _ => 0) (fun b => RInt f 0 b - boys n x) p_infty 0 (gmom (2 * n) x - boys n x)); [exists 1; intros b Hb; apply T; lra|apply is_lim_const|exact L'].
  - apply (is_lim_le_loc (fun b => RInt f 0 b - boys n x) (fun _ => exp (- x) / (2 * (x - INR n))) p_infty (gmom (2 * n) x - boys n x) (exp (- x) / (2 * (x - INR n)))); [exists 1; intros b Hb; apply T; lra|exact L'|apply is_lim_const].
Qed.
