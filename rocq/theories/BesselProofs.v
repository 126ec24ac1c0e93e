(** * Scaled modified spherical Bessel functions: recurrences, derivatives, Taylor formula *)

From Coq Require Import ZArith List Bool Lia Reals Lra Factorial.
From Coquelicot Require Import Coquelicot.
From Verif Require Import OneElProofs GaussInt OvDeriv SpecExp SpecSpec SpecBoys.
Import ListNotations.
Open Scope R_scope.

Definition bJ (n : nat) (x : R) : R := RInt (fun t => (1 - t ^ 2) ^ n * exp (x * (t - 1))) (-1) 1.
Definition bA (n : nat) (x : R) : R := RInt (fun t => t * ((1 - t ^ 2) ^ n * exp (x * (t - 1)))) (-1) 1.

Lemma poly_der n t : is_derive (fun t => (1 - t ^ 2) ^ S n) t (INR (S n) * (1 - t ^ 2) ^ n * (- (2 * t))).
Proof.
  eapply is_derive_eq; [apply (is_derive_comp (fun u : R => u ^ S n) (fun t : R => 1 - t ^ 2)); [apply is_derive_mono|]|].
  - instantiate (1 := - (2 * t)). auto_derive; [exact I|]. cbn [INR pow]. ringR.
  - match goal with |- _ = ?y => change (- (2 * t) * (INR (S n) * (1 - t ^ 2) ^ n) = y) end. ring.
Qed.

Lemma bJ_der n x t : ex_derive (fun t => (1 - t ^ 2) ^ n * exp (x * (t - 1))) t.
Proof. auto_derive. exact I. Qed.
Lemma bA_der n x t : ex_derive (fun t => t * ((1 - t ^ 2) ^ n * exp (x * (t - 1)))) t.
Proof. auto_derive. exact I. Qed.
Lemma bJ_int n x : is_RInt (V := R_NormedModule) (fun t => (1 - t ^ 2) ^ n * exp (x * (t - 1))) (-1) 1 (bJ n x).
Proof. apply cont_RInt. intros t. apply bJ_der. Qed.
Lemma bA_int n x : is_RInt (V := R_NormedModule) (fun t => t * ((1 - t ^ 2) ^ n * exp (x * (t - 1)))) (-1) 1 (bA n x).
Proof. apply cont_RInt. intros t. apply bA_der. Qed.

Lemma RInt_same f a b v w : is_RInt (V := R_NormedModule) f a b v -> is_RInt (V := R_NormedModule) f a b w -> v = w.
Proof. intros H1 H2. pose proof (is_RInt_unique (V := R_CompleteNormedModule) _ _ _ _ H1) as E1. pose proof (is_RInt_unique (V := R_CompleteNormedModule) _ _ _ _ H2) as E2. congruence. Qed.

Lemma exp_lin_der x t : is_derive (fun t => exp (x * (t - 1))) t (x * exp (x * (t - 1))).
Proof. auto_derive; [exact I|]. unfold Rminus. ringR. Qed.

(** x J_{n+1} = 2 (n+1) A_n *)
Lemma bJA n x : x * bJ (S n) x = 2 * INR (S n) * bA n x.
Proof.
  assert (I1 : is_RInt (V := R_NormedModule) (fun t => x * ((1 - t ^ 2) ^ S n * exp (x * (t - 1))) + - (2 * INR (S n)) * (t * ((1 - t ^ 2) ^ n * exp (x * (t - 1))))) (-1) 1 (x * bJ (S n) x + - (2 * INR (S n)) * bA n x)).
  { apply (is_RInt_plus (V := R_NormedModule)); apply (is_RInt_scal (V := R_NormedModule)); [apply bJ_int|apply bA_int]. }
  assert (I2 : is_RInt (V := R_NormedModule) (fun t => x * ((1 - t ^ 2) ^ S n * exp (x * (t - 1))) + - (2 * INR (S n)) * (t * ((1 - t ^ 2) ^ n * exp (x * (t - 1))))) (-1) 1 0).
  { apply (int_deriv (fun t => (1 - t ^ 2) ^ S n * exp (x * (t - 1)))).
    - intros t. eapply is_derive_eq; [apply (is_derive_mult (K := R_AbsRing)); [apply poly_der|apply exp_lin_der|intros; apply Rmult_comm]|].
      match goal with |- _ = ?y => change (INR (S n) * (1 - t ^ 2) ^ n * - (2 * t) * exp (x * (t - 1)) + (1 - t ^ 2) ^ S n * (x * exp (x * (t - 1))) = y) end. ring.
    - intros t. auto_derive. repeat split.
    - replace (1 - 1 ^ 2) with 0 by ring. replace (1 - (-1) ^ 2) with 0 by ring. cbn [pow]. ring. }
  pose proof (RInt_same _ _ _ _ _ I1 I2). lra.
Qed.

(** (2n+3) J_{n+1} + x A_{n+1} = 2 (n+1) J_n *)
Lemma bJ_rec n x : (2 * INR n + 3) * bJ (S n) x + x * bA (S n) x = 2 * INR (S n) * bJ n x.
Proof.
  assert (I1 : is_RInt (V := R_NormedModule) (fun t => (2 * INR n + 3) * ((1 - t ^ 2) ^ S n * exp (x * (t - 1))) + x * (t * ((1 - t ^ 2) ^ S n * exp (x * (t - 1)))) + - (2 * INR (S n)) * ((1 - t ^ 2) ^ n * exp (x * (t - 1)))) (-1) 1
    ((2 * INR n + 3) * bJ (S n) x + x * bA (S n) x + - (2 * INR (S n)) * bJ n x)).
  { apply (is_RInt_plus (V := R_NormedModule)); [apply (is_RInt_plus (V := R_NormedModule))|]; apply (is_RInt_scal (V := R_NormedModule)); [apply bJ_int|apply bA_int|apply bJ_int]. }
  assert (I2 : is_RInt (V := R_NormedModule) (fun t => (2 * INR n + 3) * ((1 - t ^ 2) ^ S n * exp (x * (t - 1))) + x * (t * ((1 - t ^ 2) ^ S n * exp (x * (t - 1)))) + - (2 * INR (S n)) * ((1 - t ^ 2) ^ n * exp (x * (t - 1)))) (-1) 1 0).
  { apply (int_deriv (fun t => t * ((1 - t ^ 2) ^ S n * exp (x * (t - 1))))).
    - intros t. eapply is_derive_eq; [apply (is_derive_mult (K := R_AbsRing)); [apply is_derive_id|apply (is_derive_mult (K := R_AbsRing)); [apply poly_der|apply exp_lin_der|intros; apply Rmult_comm]|intros; apply Rmult_comm]|].
      match goal with |- _ = ?y => change (1 * ((1 - t ^ 2) ^ S n * exp (x * (t - 1))) + t * (INR (S n) * (1 - t ^ 2) ^ n * - (2 * t) * exp (x * (t - 1)) + (1 - t ^ 2) ^ S n * (x * exp (x * (t - 1)))) = y) end. rewrite S_INR. cbn [pow]. ring.
    - intros t. auto_derive. repeat split.
    - replace (1 - 1 ^ 2) with 0 by ring. replace (1 - (-1) ^ 2) with 0 by ring. cbn [pow]. ring. }
  pose proof (RInt_same _ _ _ _ _ I1 I2). lra.
Qed.

Definition bpre (n : nat) : R := 2 ^ (n + 1) * INR (fact n).
Lemma bpre_pos n : 0 < bpre n.
Proof. unfold bpre. apply Rmult_lt_0_compat; [apply pow_lt; lra|apply INR_fact_lt_0]. Qed.
Lemma bpre_S n : bpre (S n) = 2 * INR (S n) * bpre n.
Proof. unfold bpre. replace (S n + 1)%nat with (S (n + 1)) by lia. cbn [pow]. rewrite fact_simpl, mult_INR. ring. Qed.

Lemma bessK_J n x : bessK n x = x ^ n / bpre n * bJ n x.
Proof. reflexivity. Qed.

Lemma bessK_A n x : bessK (S n) x = x ^ n / bpre n * bA n x.
Proof.
  rewrite bessK_J, bpre_S. pose proof (bJA n x) as H. pose proof (bpre_pos n). assert (0 < INR (S n)) by (apply lt_0_INR; lia). cbn [pow].
  replace (x * x ^ n / (2 * INR (S n) * bpre n) * bJ (S n) x) with (x ^ n / (2 * INR (S n) * bpre n) * (x * bJ (S n) x)) by (field; split; lra). rewrite H. field. split; lra.
Qed.

(** K_n - K_{n+2} = (2n+3)/x K_{n+1} *)
Lemma bessK_rec n x : x * (bessK n x - bessK (S (S n)) x) = (2 * INR n + 3) * bessK (S n) x.
Proof.
  rewrite (bessK_A (S n)), !bessK_J, !bpre_S. pose proof (bJ_rec n x) as H. pose proof (bpre_pos n). assert (0 < INR (S n)) by (apply lt_0_INR; lia). cbn [pow].
  replace (x * (x ^ n / bpre n * bJ n x - x * x ^ n / (2 * INR (S n) * bpre n) * bA (S n) x)) with (x * x ^ n / (2 * INR (S n) * bpre n) * (2 * INR (S n) * bJ n x - x * bA (S n) x)) by (field; split; lra).
  replace ((2 * INR n + 3) * (x * x ^ n / (2 * INR (S n) * bpre n) * bJ (S n) x)) with (x * x ^ n / (2 * INR (S n) * bpre n) * ((2 * INR n + 3) * bJ (S n) x)) by (field; split; lra). f_equal. lra.
Qed.

Lemma bessK_0 x : 2 * x * bessK 0 x = 1 - exp (- (2 * x)).
Proof.
  rewrite bessK_J. unfold bpre. cbn [fact INR pow Nat.add]. assert (E : x * bJ 0 x = 1 - exp (- (2 * x))).
  { apply (RInt_same (fun t => x * ((1 - t ^ 2) ^ 0 * exp (x * (t - 1)))) (-1) 1); [apply (is_RInt_scal (V := R_NormedModule)), bJ_int|].
    apply (int_deriv (fun t => exp (x * (t - 1)))); [|intros t; auto_derive; repeat split|].
    - intros t. eapply is_derive_eq; [apply exp_lin_der|]. cbn [pow]. ringR.
    - replace (x * (1 - 1)) with 0 by ring. rewrite exp_0. f_equal. f_equal. ring. }
  rewrite <- E. field.
Qed.

(** ** Bounds *)
Lemma bessK_nonneg n x : 0 <= x -> 0 <= bessK n x.
Proof.
  intros Hx. rewrite bessK_J. pose proof (bpre_pos n). apply Rmult_le_pos; [apply Rmult_le_pos; [apply pow_le, Hx|left; apply Rinv_0_lt_compat; assumption]|].
  unfold bJ. apply RInt_ge_0; [lra|eexists; apply bJ_int|]. intros t Ht. apply Rmult_le_pos; [apply pow_le; nra|left; apply exp_pos].
Qed.

Lemma bessK_decr n x : 0 <= x -> bessK (S n) x <= bessK n x.
Proof.
  intros Hx. rewrite bessK_A, bessK_J. pose proof (bpre_pos n). apply Rmult_le_compat_l; [apply Rmult_le_pos; [apply pow_le, Hx|left; apply Rinv_0_lt_compat; assumption]|].
  apply RInt_le; [lra|eexists; apply bA_int|eexists; apply bJ_int|]. intros t Ht. assert (0 <= (1 - t ^ 2) ^ n * exp (x * (t - 1))) by (apply Rmult_le_pos; [apply pow_le; nra|left; apply exp_pos]). nra.
Qed.

Lemma bessK_0_le x : 0 <= x -> bessK 0 x <= 1.
Proof.
  intros Hx. rewrite bessK_J. unfold bpre. cbn [fact INR pow Nat.add]. assert (bJ 0 x <= 2); [|lra]. unfold bJ.
  assert (I : is_RInt (V := R_NormedModule) (fun _ : R => 1) (-1) 1 2) by (apply (int_deriv (fun t => t)); [intros t; auto_derive; [exact I|ringR]|intros; auto_derive; exact I|ring]).
  rewrite <- (is_RInt_unique (V := R_CompleteNormedModule) _ _ _ _ I). apply RInt_le; [lra|eexists; apply bJ_int|eexists; exact I|]. intros t Ht. cbn [pow]. rewrite Rmult_1_l. apply Rle_trans with (exp 0); [apply exp_le; nra|rewrite exp_0; lra].
Qed.

Lemma bessK_bounds n x : 0 <= x -> 0 <= bessK n x <= 1.
Proof.
  intros Hx. split; [apply bessK_nonneg, Hx|]. induction n as [|n IH]; [apply bessK_0_le, Hx|]. eapply Rle_trans; [apply bessK_decr, Hx|exact IH].
Qed.

(** ** The derivative *)
Lemma bJ_derive n x : is_derive (bJ n) x (bA n x - bJ n x).
Proof.
  set (f := fun x t => (1 - t ^ 2) ^ n * exp (x * (t - 1))).
  assert (Df : forall u t, is_derive (fun u => f u t) u ((1 - t ^ 2) ^ n * ((t - 1) * exp (u * (t - 1))))).
  { intros u t. unfold f. apply is_derive_scal. auto_derive; [exact I|]. unfold Rminus. ringR. }
  assert (H : is_derive (fun x => RInt (fun t => f x t) (-1) 1) x (RInt (fun t => Derive (fun u => f u t) x) (-1) 1)).
  { apply (is_derive_RInt_param f (-1) 1 x).
    - apply filter_forall. intros u t _. eexists. apply Df.
    - intros t _. apply continuity_2d_pt_ext with (fun u v => (1 - v ^ 2) ^ n * ((v - 1) * exp (u * (v - 1)))).
      + intros u v. symmetry. apply is_derive_unique, Df.
      + assert (Cv : forall u v, continuity_2d_pt (fun _ v => 1 - v ^ 2) u v).
        { intros u v. apply continuity_2d_pt_minus; [apply continuity_2d_pt_const|]. apply continuity_2d_pt_ext with (fun _ v => v * v); [intros; cbn [pow]; ring|]. apply continuity_2d_pt_mult; apply continuity_2d_pt_id2. }
        assert (Cl : forall u v, continuity_2d_pt (fun _ v => v - 1) u v) by (intros; apply continuity_2d_pt_minus; [apply continuity_2d_pt_id2|apply continuity_2d_pt_const]).
        apply continuity_2d_pt_mult.
        * clear - Cv. induction n as [|m IH]; cbn [pow]; [apply continuity_2d_pt_const|]. apply continuity_2d_pt_mult; [apply Cv|exact IH].
        * apply continuity_2d_pt_mult; [apply Cl|]. apply (continuity_1d_2d_pt_comp exp (fun u v => u * (v - 1))); [apply derivable_continuous_pt, derivable_pt_exp|]. apply continuity_2d_pt_mult; [apply continuity_2d_pt_id1|apply Cl].
    - apply filter_forall. intros u. eexists. apply bJ_int. }
  eapply is_derive_eq; [exact H|]. apply (RInt_same (fun t => t * ((1 - t ^ 2) ^ n * exp (x * (t - 1))) + - (1) * ((1 - t ^ 2) ^ n * exp (x * (t - 1)))) (-1) 1).
  - apply (is_RInt_ext (V := R_NormedModule) (fun t => Derive (fun u => f u t) x)); [|apply (RInt_correct (V := R_CompleteNormedModule))].
    + intros t _. refine (eq_trans (is_derive_unique _ _ _ (Df x t)) _). ring.
    + apply (ex_RInt_ext (V := R_CompleteNormedModule)) with (fun t => (1 - t ^ 2) ^ n * ((t - 1) * exp (x * (t - 1)))).
      * intros t _. symmetry. apply is_derive_unique, Df.
      * apply cont_int. intros t. auto_derive. exact I.
  - replace (bA n x - bJ n x) with (bA n x + - (1) * bJ n x) by ring. apply (is_RInt_plus (V := R_NormedModule)); [apply bA_int|apply (is_RInt_scal (V := R_NormedModule)), bJ_int].
Qed.

(** the combination computed by the code *)
Definition bess_step (f : nat -> R) (n : nat) : R :=
  match n with O => f 1%nat - f 0%nat | S m => INR n / (2 * INR n + 1) * f m + (INR n + 1) / (2 * INR n + 1) * f (S n) - f n end.

Lemma bessK_derive n x : is_derive (bessK n) x (bess_step (fun k => bessK k x) n).
Proof.
  pose proof (bpre_pos n) as Pn. destruct n as [|m].
  - apply is_derive_ext with (fun x => / bpre 0 * bJ 0 x); [intros t; rewrite bessK_J; cbn [pow]; unfold Rdiv; ringR|].
    eapply is_derive_eq; [apply is_derive_scal, bJ_derive|]. cbn [bess_step]. rewrite bessK_A, bessK_J. cbn [pow]. unfold Rdiv. ringR.
  - apply is_derive_ext with (fun x => / bpre (S m) * (x ^ S m * bJ (S m) x)); [intros t; rewrite bessK_J; unfold Rdiv; ringR|].
    eapply is_derive_eq; [apply is_derive_scal; apply (is_derive_mult (K := R_AbsRing)); [apply is_derive_mono|apply bJ_derive|intros; apply Rmult_comm]|].
    match goal with |- _ = ?y => change (/ bpre (S m) * (INR (S m) * x ^ m * bJ (S m) x + x ^ S m * (bA (S m) x - bJ (S m) x)) = y) end.
    cbn [bess_step]. rewrite (bessK_A (S m)), !bessK_J. pose proof (bJ_rec m x) as R. rewrite bpre_S in *. pose proof (bpre_pos m). assert (Q : 0 < INR (S m)) by (apply lt_0_INR; lia).
    assert (E : bJ m x = ((2 * INR m + 3) * bJ (S m) x + x * bA (S m) x) / (2 * INR (S m))) by (rewrite R; field; lra). rewrite E. rewrite S_INR in *. pose proof (pos_INR m). cbn [pow]. field. repeat split; lra.
Qed.

Fixpoint bessD (k n : nat) (x : R) : R := match k with O => bessK n x | S k => bess_step (fun m => bessD k m x) n end.

Lemma bessD_derive k : forall n x, is_derive (bessD k n) x (bessD (S k) n x).
Proof.
  induction k as [|k IH]; intros n x; [apply bessK_derive|].
  change (is_derive (fun x => bess_step (fun m => bessD k m x) n) x (bess_step (fun m => bess_step (fun j => bessD k j x) m) n)).
  assert (IH' : forall n, is_derive (bessD k n) x (bess_step (fun j => bessD k j x) n)) by (intros; apply IH). destruct n as [|m]; cbn [bess_step].
  - apply (is_derive_minus (K := R_AbsRing) (V := R_NormedModule)); apply IH'.
  - apply (is_derive_minus (K := R_AbsRing) (V := R_NormedModule)); [apply (is_derive_plus (K := R_AbsRing) (V := R_NormedModule)); apply is_derive_scal|]; apply IH'.
Qed.

Lemma bess_step_bound f n B : (forall m, Rabs (f m) <= B) -> Rabs (bess_step f n) <= 2 * B.
Proof.
  intros H. assert (B0 : 0 <= B) by (eapply Rle_trans; [apply Rabs_pos|apply (H O)]). destruct n as [|m]; cbn [bess_step].
  - pose proof (H 1%nat) as H1. pose proof (H O) as H2. apply Rabs_le_between in H1. apply Rabs_le_between in H2. apply Rabs_le. lra.
  - pose proof (H m) as H1. pose proof (H (S (S m))) as H2. pose proof (H (S m)) as H3. apply Rabs_le_between in H1. apply Rabs_le_between in H2. apply Rabs_le_between in H3.
    set (a := INR (S m)) in *. assert (0 <= a) by apply pos_INR. assert (A : a / (2 * a + 1) + (a + 1) / (2 * a + 1) = 1) by (field; lra).
    assert (A1 : 0 <= a / (2 * a + 1)) by (apply Rmult_le_pos; [lra|left; apply Rinv_0_lt_compat; lra]). assert (A2 : 0 <= (a + 1) / (2 * a + 1)) by (apply Rmult_le_pos; [lra|left; apply Rinv_0_lt_compat; lra]).
    set (p := a / (2 * a + 1)) in *. set (q := (a + 1) / (2 * a + 1)) in *. apply Rabs_le. split; nra.
Qed.

Lemma bessD_bound k n x : 0 <= x -> Rabs (bessD k n x) <= 2 ^ k.
Proof.
  intros Hx. revert n. induction k as [|k IH]; intros n; cbn [bessD pow].
  - destruct (bessK_bounds n x Hx). apply Rabs_le. lra.
  - apply bess_step_bound. exact IH.
Qed.

(** ** Taylor's formula with remainder *)
Lemma taylor_right M K : forall (f : nat -> R -> R) x0 y, 0 <= y -> (forall k s, is_derive (f k) s (f (S k) s)) -> (forall s, x0 <= s <= x0 + y -> Rabs (f K s) <= M) ->
  Rabs (f O (x0 + y) - rsum K (fun k => eterm y k * f k x0)) <= M * eterm y K.
Proof.
  induction K as [|K IH]; intros f x0 y Hy D B.
  - cbn [rsum]. rewrite eterm_0, Rmult_1_r, Rminus_0_r. apply B. lra.
  - set (g := fun y => f O (x0 + y) - rsum (S K) (fun k => eterm y k * f k x0)). set (g' := fun y => f 1%nat (x0 + y) - rsum K (fun k => eterm y k * f (S k) x0)).
    assert (Dg : forall s, is_derive g s (g' s)).
    { intros s. unfold g, g'. apply (is_derive_minus (K := R_AbsRing) (V := R_NormedModule)).
      - eapply is_derive_eq; [apply (is_derive_comp (f O) (fun y => x0 + y)); [apply D|]|].
        + instantiate (1 := 1). auto_derive; [exact I|reflexivity].
        + match goal with |- _ = ?z => change (1 * f 1%nat (x0 + s) = z) end. ring.
      - clear. induction K as [|K IH].
        + cbn [rsum]. apply is_derive_ext with (fun _ => f O x0); [intros t; rewrite eterm_0; ringR|]. apply (is_derive_const (K := R_AbsRing) (V := R_NormedModule)).
        + change (is_derive (fun y => rsum (S K) (fun k => eterm y k * f k x0) + eterm y (S K) * f (S K) x0) s (rsum K (fun k => eterm s k * f (S k) x0) + eterm s K * f (S K) x0)).
          apply (is_derive_plus (K := R_AbsRing) (V := R_NormedModule)); [exact IH|].
          apply is_derive_ext with (fun y => f (S K) x0 * eterm y (S K)); [intros t; ringR|]. eapply is_derive_eq; [apply is_derive_scal, eterm_derive|ringR]. }
    assert (Bg : forall s, 0 <= s <= y -> Rabs (g' s) <= M * eterm s K).
    { intros s Hs. apply (IH (fun k => f (S k)) x0 s); [lra|intros; apply D|]. intros u Hu. apply B. lra. }
    assert (G0 : g 0 = 0).
    { unfold g. rewrite Rplus_0_r. rewrite rsum_S_left. rewrite eterm_0.
      replace (rsum K (fun k => eterm 0 (S k) * f (S k) x0)) with 0; [ring|]. clear. induction K as [|K IH]; [reflexivity|]. cbn [rsum]. rewrite <- IH. unfold eterm. rewrite pow_i by lia. unfold Rdiv. ring. }
    assert (E0 : eterm 0 (S K) = 0) by (unfold eterm; rewrite pow_i by lia; unfold Rdiv; ring).
    assert (U : (fun y => M * eterm y (S K) - g y) 0 <= (fun y => M * eterm y (S K) - g y) y).
    { apply (grows (fun y => M * eterm y (S K) - g y) (fun s => M * eterm s K - g' s)); [exact Hy| |].
      - intros s _. apply (is_derive_minus (K := R_AbsRing) (V := R_NormedModule)); [apply is_derive_scal, eterm_derive|apply Dg].
      - intros s Hs. pose proof (Bg s Hs) as X. apply Rabs_le_between in X. lra. }
    assert (L : (fun y => M * eterm y (S K) + g y) 0 <= (fun y => M * eterm y (S K) + g y) y).
    { apply (grows (fun y => M * eterm y (S K) + g y) (fun s => M * eterm s K + g' s)); [exact Hy| |].
      - intros s _. apply (is_derive_plus (K := R_AbsRing) (V := R_NormedModule)); [apply is_derive_scal, eterm_derive|apply Dg].
      - intros s Hs. pose proof (Bg s Hs) as X. apply Rabs_le_between in X. lra. }
    cbn beta in U, L. rewrite G0, E0 in U, L. change (Rabs (g y) <= M * eterm y (S K)). apply Rabs_le. lra.
Qed.

Lemma taylor_both M K (f : nat -> R -> R) x0 x : (forall k s, is_derive (f k) s (f (S k) s)) -> (forall s, Rmin x0 x <= s <= Rmax x0 x -> Rabs (f K s) <= M) ->
  Rabs (f O x - rsum K (fun k => eterm (x - x0) k * f k x0)) <= M * eterm (Rabs (x - x0)) K.
Proof.
  intros D B. destruct (Rle_dec x0 x) as [Le|Gt].
  - rewrite (Rabs_pos_eq (x - x0)) by lra. replace (f O x) with (f O (x0 + (x - x0))) by (f_equal; ring). apply taylor_right; [lra|exact D|]. intros s Hs. apply B. rewrite Rmin_left, Rmax_right by lra. lra.
  - set (h := fun k s => (-1) ^ k * f k (- s)). replace (Rabs (x - x0)) with (x0 - x) by (rewrite Rabs_left by lra; ring).
    pose proof (taylor_right M K h (- x0) (x0 - x) ltac:(lra)) as T.
    replace (f O x - rsum K (fun k => eterm (x - x0) k * f k x0)) with (h O (- x0 + (x0 - x)) - rsum K (fun k => eterm (x0 - x) k * h k (- x0))).
    + apply T.
      * intros k s. unfold h. eapply is_derive_eq; [apply is_derive_scal; apply (is_derive_comp (f k) (fun s => - s)); [apply D|]|].
        -- instantiate (1 := -1). auto_derive; [exact I|]. ringR.
        -- match goal with |- _ = ?z => change ((-1) ^ k * (-1 * f (S k) (- s)) = z) end. cbn [pow]. ring.
      * intros s Hs. unfold h. rewrite Rabs_mult, neg_pow_abs, Rmult_1_l. apply B. rewrite Rmin_right, Rmax_left by lra. lra.
    + unfold h. f_equal.
      * cbn [pow]. rewrite Rmult_1_l. f_equal. ring.
      * apply rsum_ext. intros k _. rewrite Ropp_involutive. unfold eterm. replace (x - x0) with (-1 * (x0 - x)) by ring. rewrite Rpow_mult_distr. unfold Rdiv. ring.
Qed.

Lemma bess_taylor n x x0 : 0 <= x -> 0 <= x0 -> Rabs (bessK n x - rsum 5 (fun k => eterm (x - x0) k * bessD k n x0)) <= 2 ^ 5 * eterm (Rabs (x - x0)) 5.
Proof.
  intros Hx Hx0. apply (taylor_both (2 ^ 5) 5 (fun k => bessD k n)); [intros; apply bessD_derive|]. intros s Hs. apply bessD_bound. destruct Hs as (Hs & _). unfold Rmin in Hs. destruct (Rle_dec x0 x); lra.
Qed.
