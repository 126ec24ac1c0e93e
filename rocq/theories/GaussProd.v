(** * Integrals of products of one-dimensional Cartesian Gaussians *)

From Coq Require Import Reals Lra Lia.
From Coquelicot Require Import Coquelicot.
From Verif Require Import GaussInt.
Open Scope R_scope.

(** (x-A)^i exp(-a (x-A)^2) *)
Definition cg (a A : R) (i : nat) (x : R) : R := (x - A) ^ i * exp (- (a * ((x - A) * (x - A)))).

Lemma cg_S a A i x : cg a A (S i) x = (x - A) * cg a A i x.
Proof. unfold cg. simpl. ring. Qed.

Lemma cg_derive (a A : R) (i : nat) (x : R) :
  is_derive (cg a A i) x (INR i * cg a A (pred i) x - 2 * a * cg a A (S i) x).
Proof.
  unfold cg. auto_derive; [exact I|].
  change ((x - A) ^ S i) with ((x - A) * (x - A) ^ i). unfold Rminus. ring.
Qed.

Lemma cg_continuous (a A : R) (i : nat) (x : R) : continuous (cg a A i) x.
Proof. apply (ex_derive_continuous (cg a A i)). eexists. apply cg_derive. Qed.

(** ** Decay at infinity *)

Lemma abs_y_exp_bound c y : 0 < c -> y <> 0 -> Rabs (y * exp (- (c * (y * y)))) <= / (c * Rabs y).
Proof.
  intros Hc Hy. rewrite Rabs_mult, (Rabs_right (exp _)) by (left; apply exp_pos).
  pose proof (Rabs_pos_lt y Hy) as Hp.
  rewrite exp_Ropp.
  assert (H1 : c * (y * y) < exp (c * (y * y))).
  { pose proof (exp_ineq1_le (c * (y * y))). lra. }
  assert (H2 : 0 < c * (y * y)) by (apply Rmult_lt_0_compat; [exact Hc|]; nra).
  apply Rle_trans with (Rabs y * / (c * (y * y))).
  - apply Rmult_le_compat_l; [lra|]. apply Rinv_le_contravar; lra.
  - right. replace (y * y) with (Rabs y * Rabs y).
    + field. split; lra.
    + rewrite <- Rabs_mult. apply Rabs_right. nra.
Qed.

Lemma lim_scal_inf c (g : R -> R) (x y : Rbar) : 0 < c -> y = p_infty \/ y = m_infty ->
  is_lim g x y -> is_lim (fun t => c * g t) x y.
Proof.
  intros Hc Hy H. pose proof (is_lim_scal_l g c x y H) as H1.
  assert (E : Rbar_mult c y = y).
  { destruct Hy as [->| ->]; simpl; (destruct (Rle_dec 0 c) as [r|r]; [|lra]);
      (destruct (Rle_lt_or_eq_dec 0 c r); [reflexivity|lra]). }
  rewrite E in H1. exact H1.
Qed.

Lemma lim_inv_scaled c : 0 < c -> is_lim (fun t => / (c * t)) p_infty 0.
Proof.
  intros Hc. replace (Finite 0) with (Rbar_inv p_infty) by reflexivity.
  apply is_lim_inv; [|discriminate].
  apply (lim_scal_inf c (fun t => t) p_infty p_infty Hc); [left; reflexivity|apply is_lim_id].
Qed.

Lemma lim_y_exp_p c : 0 < c -> is_lim (fun y => y * exp (- (c * (y * y)))) p_infty 0.
Proof.
  intros Hc. apply (is_lim_le_le_loc (fun t => - / (c * t)) (fun t => / (c * t))).
  - exists 0. intros y Hy. pose proof (abs_y_exp_bound c y Hc ltac:(lra)) as H.
    rewrite (Rabs_right y) in H by lra. apply Rabs_le_between in H. exact H.
  - replace (Finite 0) with (Rbar_opp 0) by (simpl; f_equal; ring). apply is_lim_opp, lim_inv_scaled, Hc.
  - apply lim_inv_scaled, Hc.
Qed.

Lemma lim_m_of_p (f : R -> R) (l : R) : is_lim (fun y => f (- y)) p_infty l -> is_lim f m_infty l.
Proof.
  intros H. apply is_lim_ext with (fun y => f (- (- y))); [intros y; rewrite Ropp_involutive; reflexivity|].
  apply (is_lim_comp (fun y => f (- y)) (fun y => - y) m_infty l p_infty).
  - exact H.
  - replace p_infty with (Rbar_opp m_infty) by reflexivity. apply is_lim_opp, is_lim_id.
  - exists 0. intros y _. discriminate.
Qed.

Lemma lim_y_exp_m c : 0 < c -> is_lim (fun y => y * exp (- (c * (y * y)))) m_infty 0.
Proof.
  intros Hc. apply lim_m_of_p. apply is_lim_ext with (fun y => - (y * exp (- (c * (y * y))))).
  - intros y. replace (- y * - y) with (y * y) by ring. ring.
  - replace (Finite 0) with (Rbar_opp 0) by (simpl; f_equal; ring). apply is_lim_opp, lim_y_exp_p, Hc.
Qed.

Lemma lim_exp_p c : 0 < c -> is_lim (fun y => exp (- (c * (y * y)))) p_infty 0.
Proof.
  intros Hc. apply (is_lim_le_le_loc (fun _ => 0) (fun y => y * exp (- (c * (y * y))))).
  - exists 1. intros y Hy. pose proof (exp_pos (- (c * (y * y)))). split; nra.
  - apply is_lim_const.
  - apply lim_y_exp_p, Hc.
Qed.

Lemma lim_exp_m c : 0 < c -> is_lim (fun y => exp (- (c * (y * y)))) m_infty 0.
Proof.
  intros Hc. apply lim_m_of_p. apply is_lim_ext with (fun y => exp (- (c * (y * y)))).
  - intros y. replace (- y * - y) with (y * y) by ring. reflexivity.
  - apply lim_exp_p, Hc.
Qed.

Lemma is_lim_mult_fin (f g : R -> R) (x : Rbar) (u v : R) :
  is_lim f x u -> is_lim g x v -> is_lim (fun y => f y * g y) x (u * v).
Proof. intros H1 H2. apply (is_lim_mult f g x u v H1 H2). exact I. Qed.

Lemma lim_eq (f : R -> R) (x : Rbar) (u v : R) : is_lim f x u -> u = v -> is_lim f x v.
Proof. intros H <-. exact H. Qed.

Lemma is_lim_pow (f : R -> R) (x : Rbar) (u : R) n : is_lim f x u -> is_lim (fun y => f y ^ n) x (u ^ n).
Proof.
  intros H. induction n as [|n IH]; simpl; [apply is_lim_const|]. apply is_lim_mult_fin; assumption.
Qed.

Lemma pow_exp_split c (n : nat) y :
  y ^ n * exp (- (c * (y * y))) =
  (y * exp (- (c / INR (S n) * (y * y)))) ^ n * exp (- (c / INR (S n) * (y * y))).
Proof.
  rewrite Rpow_mult_distr. rewrite Rmult_assoc. f_equal.
  assert (Hn : INR (S n) <> 0) by (apply not_0_INR; lia).
  set (e := - (c / INR (S n) * (y * y))).
  assert (H : forall k, exp e ^ k = exp (INR k * e)).
  { induction k as [|k IH]; [simpl; rewrite Rmult_0_l, exp_0; reflexivity|].
    rewrite S_INR. simpl pow. rewrite IH, <- exp_plus. f_equal. ring. }
  rewrite H, <- exp_plus. f_equal. unfold e. rewrite S_INR in *. field. exact Hn.
Qed.

Lemma lim_pow_exp c n (x : Rbar) : 0 < c -> x = p_infty \/ x = m_infty ->
  is_lim (fun y => y ^ n * exp (- (c * (y * y)))) x 0.
Proof.
  intros Hc Hx. apply is_lim_ext with
    (fun y => (y * exp (- (c / INR (S n) * (y * y)))) ^ n * exp (- (c / INR (S n) * (y * y)))).
  { intros y. symmetry. apply pow_exp_split. }
  assert (Hc' : 0 < c / INR (S n)) by (apply Rdiv_lt_0_compat; [exact Hc|apply lt_0_INR; lia]).
  apply (lim_eq _ _ (0 ^ n * 0)); [|ring].
  apply (is_lim_mult_fin (fun y => (y * exp (- (c / INR (S n) * (y * y)))) ^ n)).
  - apply is_lim_pow. destruct Hx as [->| ->]; [apply lim_y_exp_p|apply lim_y_exp_m]; exact Hc'.
  - destruct Hx as [->| ->]; [apply lim_exp_p|apply lim_exp_m]; exact Hc'.
Qed.

Lemma lim_shift (x : Rbar) A : x = p_infty \/ x = m_infty -> is_lim (fun y => y - A) x x.
Proof.
  intros Hx. replace x with (Rbar_minus x A) at 2.
  - apply is_lim_minus with x A; [apply is_lim_id|apply is_lim_const|].
    destruct Hx as [->| ->]; reflexivity.
  - destruct Hx as [->| ->]; reflexivity.
Qed.

Lemma cg_lim a A i (x : Rbar) : 0 < a -> x = p_infty \/ x = m_infty -> is_lim (cg a A i) x 0.
Proof.
  intros Ha Hx. unfold cg.
  apply (is_lim_comp (fun y => y ^ i * exp (- (a * (y * y)))) (fun y => y - A) x 0 x).
  - apply lim_pow_exp; assumption.
  - apply lim_shift, Hx.
  - destruct Hx as [->| ->]; exists 0; intros y _; discriminate.
Qed.

(** ** Products of two Gaussians *)

Definition cgp (a A b B : R) (i j : nat) (x : R) : R := cg a A i x * cg b B j x.

Lemma cgp_sym a A b B i j x : cgp a A b B i j x = cgp b B a A j i x.
Proof. unfold cgp. ring. Qed.

Lemma cgp_derive (a A b B : R) (i j : nat) (x : R) :
  is_derive (cgp a A b B i j) x
    ((INR i * cg a A (pred i) x - 2 * a * cg a A (S i) x) * cg b B j x +
     cg a A i x * (INR j * cg b B (pred j) x - 2 * b * cg b B (S j) x)).
Proof.
  apply (is_derive_mult (cg a A i) (cg b B j) x); [apply cg_derive|apply cg_derive|intros; apply Rmult_comm].
Qed.

Lemma continuous_mult_R (f g : R -> R) (x : R) : continuous f x -> continuous g x -> continuous (fun y => f y * g y) x.
Proof. intros H1 H2. apply (continuous_mult f g x H1 H2). Qed.

Lemma continuous_minus_R (f g : R -> R) (x : R) : continuous f x -> continuous g x -> continuous (fun y => f y - g y) x.
Proof. intros H1 H2. apply (continuous_minus f g x H1 H2). Qed.

Lemma continuous_plus_R (f g : R -> R) (x : R) : continuous f x -> continuous g x -> continuous (fun y => f y + g y) x.
Proof. intros H1 H2. apply (continuous_plus f g x H1 H2). Qed.

Lemma continuous_const_R (k x : R) : continuous (fun _ : R => k) x.
Proof. apply continuous_const. Qed.

Lemma cgd_continuous (a A : R) (i : nat) (x : R) :
  continuous (fun x => INR i * cg a A (pred i) x - 2 * a * cg a A (S i) x) x.
Proof.
  apply (continuous_minus_R (fun x => INR i * cg a A (pred i) x) (fun x => 2 * a * cg a A (S i) x)).
  - apply (continuous_mult_R (fun _ => INR i) (cg a A (pred i))); [apply continuous_const_R|apply cg_continuous].
  - apply (continuous_mult_R (fun _ => 2 * a) (cg a A (S i))); [apply continuous_const_R|apply cg_continuous].
Qed.

(** the derivative of a product of Gaussians integrates to zero *)
Lemma cgp_int_derivative a A b B i j : 0 < a -> 0 < b ->
  is_int (fun x => (INR i * cg a A (pred i) x - 2 * a * cg a A (S i) x) * cg b B j x +
     cg a A i x * (INR j * cg b B (pred j) x - 2 * b * cg b B (S j) x)) 0.
Proof.
  intros Ha Hb. apply (is_int_eq _ (0 - 0)); [|ring].
  assert (L : forall x, x = p_infty \/ x = m_infty -> is_lim (cgp a A b B i j) x 0).
  { intros x Hx. apply (lim_eq _ _ (0 * 0)); [|ring]. apply is_lim_mult_fin; apply cg_lim; assumption. }
  apply (is_int_deriv (cgp a A b B i j)).
  - intros x. apply cgp_derive.
  - intros x. apply (continuous_plus_R (fun x => (INR i * cg a A (pred i) x - 2 * a * cg a A (S i) x) * cg b B j x)
      (fun x => cg a A i x * (INR j * cg b B (pred j) x - 2 * b * cg b B (S j) x))).
    + apply (continuous_mult_R (fun x => INR i * cg a A (pred i) x - 2 * a * cg a A (S i) x) (cg b B j));
        [apply cgd_continuous|apply cg_continuous].
    + apply (continuous_mult_R (cg a A i) (fun x => INR j * cg b B (pred j) x - 2 * b * cg b B (S j) x));
        [apply cg_continuous|apply cgd_continuous].
  - apply L. right. reflexivity.
  - apply L. left. reflexivity.
Qed.

Section Pair.
Variables a A b B : R.
Hypothesis Ha : 0 < a.
Hypothesis Hb : 0 < b.

Let p := a + b.
Let P := (a * A + b * B) / p.
Let f := cgp a A b B.

Lemma pair_p : 0 < p.
Proof. unfold p. lra. Qed.

(** base: the product of two s Gaussians *)
Lemma pair_base : is_int (f 0 0) (sqrt (PI / p) * exp (- (a * b / (a + b)) * (A - B) * (A - B))).
Proof.
  pose proof pair_p as Hp. set (K := exp (- (a * b / (a + b)) * (A - B) * (A - B))).
  assert (Hs : 0 < sqrt p) by (apply sqrt_lt_R0; exact Hp).
  assert (Hss : sqrt p * sqrt p = p) by (apply sqrt_sqrt; lra).
  apply (is_int_eq _ (K / sqrt p * (sqrt PI / 2) - K / sqrt p * - (sqrt PI / 2))).
  2:{ rewrite sqrt_div_alt by exact Hp. field. lra. }
  apply (is_int_deriv (fun x => K / sqrt p * erf0 (sqrt p * (x - P)))).
  - intros x. apply (is_derive_eq _ x (K / sqrt p * (sqrt p * gauss (sqrt p * (x - P))))).
    + apply (is_derive_scal (fun x => erf0 (sqrt p * (x - P)))).
      apply (is_derive_comp erf0 (fun x => sqrt p * (x - P)) x (gauss (sqrt p * (x - P))) (sqrt p)).
      * apply is_derive_erf0.
      * auto_derive; [exact I|ring].
    + unfold f, cgp, cg, gauss. simpl. rewrite !Rmult_1_l.
      replace (K / sqrt p * (sqrt p * exp (- (sqrt p * (x - P) * (sqrt p * (x - P))))))
        with (K * exp (- (sqrt p * (x - P) * (sqrt p * (x - P))))) by (field; lra).
      unfold K. rewrite <- !exp_plus. f_equal.
      replace (sqrt p * (x - P) * (sqrt p * (x - P))) with ((sqrt p * sqrt p) * (x - P) * (x - P)) by ring.
      rewrite Hss. unfold P, p. field. lra.
  - intros x. apply continuous_mult_R; apply cg_continuous.
  - apply (is_lim_scal_l (fun x => erf0 (sqrt p * (x - P))) (K / sqrt p) m_infty (- (sqrt PI / 2))).
    apply (is_lim_comp erf0 (fun x => sqrt p * (x - P)) m_infty (- (sqrt PI / 2)) m_infty).
    + apply erf0_lim_m.
    + apply (lim_scal_inf (sqrt p) (fun x => x - P)); [exact Hs|right; reflexivity|]. apply lim_shift. right; reflexivity.
    + exists 0. intros y _. discriminate.
  - apply (is_lim_scal_l (fun x => erf0 (sqrt p * (x - P))) (K / sqrt p) p_infty (sqrt PI / 2)).
    apply (is_lim_comp erf0 (fun x => sqrt p * (x - P)) p_infty (sqrt PI / 2) p_infty).
    + apply erf0_lim.
    + apply (lim_scal_inf (sqrt p) (fun x => x - P)); [exact Hs|left; reflexivity|]. apply lim_shift. left; reflexivity.
    + exists 0. intros y _. discriminate.
Qed.

(** raising the power of the first function *)
Lemma pair_step i j u v w :
  is_int (f i j) u -> is_int (f (pred i) j) v -> is_int (f i (pred j)) w ->
  is_int (f (S i) j) ((P - A) * u + INR i * (1 / (2 * p)) * v + INR j * (1 / (2 * p)) * w).
Proof.
  intros Hu Hv Hw. pose proof pair_p as Hp.
  pose proof (cgp_int_derivative a A b B i j Ha Hb) as H0.
  apply (is_int_ext (fun x => ((P - A) * f i j x + INR i * (1 / (2 * p)) * f (pred i) j x) +
     INR j * (1 / (2 * p)) * f i (pred j) x +
     - (1 / (2 * p)) * ((INR i * cg a A (pred i) x - 2 * a * cg a A (S i) x) * cg b B j x +
     cg a A i x * (INR j * cg b B (pred j) x - 2 * b * cg b B (S j) x)))).
  - intros x. unfold f, cgp. rewrite !cg_S. unfold P, p. field. lra.
  - apply (is_int_eq _ ((P - A) * u + INR i * (1 / (2 * p)) * v + INR j * (1 / (2 * p)) * w + - (1 / (2 * p)) * 0)); [|ring].
    apply is_int_plus; [apply is_int_plus; [apply is_int_plus|]|]; apply is_int_scal; assumption.
Qed.

End Pair.

(** ** The Obara-Saika recursion *)

Section OS.
Variables XPA XPB pfac S00 : R.

(** first row: powers of the second function *)
Fixpoint os_row0 (j : nat) : R :=
  match j with
  | O => S00
  | S j' => XPB * os_row0 j' + INR j' * pfac * (match j' with O => 0 | S j'' => os_row0 j'' end)
  end.

Fixpoint os (i : nat) : nat -> R :=
  match i with
  | O => os_row0
  | S i' => fun j => XPA * os i' j + INR i' * pfac * (match i' with O => 0 | S i'' => os i'' j end)
                     + INR j * pfac * os i' (pred j)
  end.

End OS.

Definition os_pair (a A b B : R) : nat -> nat -> R :=
  let p := a + b in
  let P := (a * A + b * B) / p in
  os (P - A) (P - B) (1 / (2 * p)) (sqrt (PI / p) * exp (- (a * b / (a + b)) * (A - B) * (A - B))).

Lemma os_row0_int a A b B j : 0 < a -> 0 < b -> is_int (cgp a A b B 0 j) (os_pair a A b B 0 j).
Proof.
  intros Ha Hb. unfold os_pair. cbv zeta. cbn [os].
  set (p := a + b). set (P := (a * A + b * B) / p).
  assert (Hx : forall j, is_int (cgp a A b B 0 j)
      (os_row0 (P - B) (1 / (2 * p)) (sqrt (PI / p) * exp (- (a * b / p) * (A - B) * (A - B))) j) /\
     is_int (cgp a A b B 0 (pred j))
      (os_row0 (P - B) (1 / (2 * p)) (sqrt (PI / p) * exp (- (a * b / p) * (A - B) * (A - B))) (pred j))).
  { clear j. induction j as [|j [IH1 IH2]].
    - split; apply (pair_base a A b B Ha Hb).
    - split; [|exact IH1].
      apply (is_int_ext (cgp b B a A (S j) 0)); [intros x; apply cgp_sym|].
      eapply is_int_eq.
      + apply (pair_step b B a A Hb Ha j 0); (eapply is_int_ext; [intros x; apply cgp_sym|]).
        * exact IH1.
        * exact IH2.
        * exact IH1.
      + cbn [os_row0 INR]. unfold P, p. rewrite (Rplus_comm b a), (Rplus_comm (b * B)).
        destruct j as [|j]; cbn [INR pred]; ring. }
  apply Hx.
Qed.

Theorem os_pair_int a A b B i j : 0 < a -> 0 < b -> is_int (cgp a A b B i j) (os_pair a A b B i j).
Proof.
  intros Ha Hb.
  assert (Hx : forall i j, is_int (cgp a A b B i j) (os_pair a A b B i j) /\
                           is_int (cgp a A b B (pred i) j) (os_pair a A b B (pred i) j)).
  { clear i j. induction i as [|i IH]; intros j.
    - split; apply os_row0_int; assumption.
    - split; [|apply IH].
      destruct (IH j) as [H1 H2]. destruct (IH (pred j)) as [H3 _].
      eapply is_int_eq; [apply (pair_step a A b B Ha Hb i j _ _ _ H1 H2 H3)|].
      unfold os_pair. cbv zeta. cbn [os].
      destruct i as [|i]; cbn [INR pred]; ring. }
  apply Hx.
Qed.

(** ** Three-dimensional integrals, iterated *)

Definition is_int3 (F : R -> R -> R -> R) (v : R) : Prop :=
  exists F1 F2,
    (forall x y, is_int (fun z => F x y z) (F1 x y)) /\
    (forall x, is_int (fun y => F1 x y) (F2 x)) /\
    is_int F2 v.

Lemma is_int3_ext F G v : (forall x y z, F x y z = G x y z) -> is_int3 F v -> is_int3 G v.
Proof.
  intros H (F1 & F2 & H1 & H2 & H3). exists F1, F2. split; [|split; assumption].
  intros x y. apply (is_int_ext (fun z => F x y z)); [intros z; apply H|apply H1].
Qed.

Lemma is_int3_eq F u v : is_int3 F u -> u = v -> is_int3 F v.
Proof. intros H <-. exact H. Qed.

Lemma is_int3_plus F G u v : is_int3 F u -> is_int3 G v -> is_int3 (fun x y z => F x y z + G x y z) (u + v).
Proof.
  intros (F1 & F2 & H1 & H2 & H3) (G1 & G2 & K1 & K2 & K3).
  exists (fun x y => F1 x y + G1 x y), (fun x => F2 x + G2 x). repeat split.
  - intros x y. apply is_int_plus; [apply H1|apply K1].
  - intros x. apply is_int_plus; [apply H2|apply K2].
  - apply is_int_plus; assumption.
Qed.

Lemma is_int3_scal F k v : is_int3 F v -> is_int3 (fun x y z => k * F x y z) (k * v).
Proof.
  intros (F1 & F2 & H1 & H2 & H3).
  exists (fun x y => k * F1 x y), (fun x => k * F2 x). repeat split.
  - intros x y. apply is_int_scal, H1.
  - intros x. apply is_int_scal, H2.
  - apply is_int_scal, H3.
Qed.

Lemma is_int3_zero : is_int3 (fun _ _ _ => 0) 0.
Proof. exists (fun _ _ => 0), (fun _ => 0). repeat split; intros; apply is_int_zero. Qed.

Lemma is_int3_unique F u v : is_int3 F u -> is_int3 F v -> u = v.
Proof.
  intros (F1 & F2 & H1 & H2 & H3) (G1 & G2 & K1 & K2 & K3).
  assert (E1 : forall x y, F1 x y = G1 x y) by (intros x y; eapply is_int_unique; [apply H1|apply K1]).
  assert (E2 : forall x, F2 x = G2 x).
  { intros x. eapply is_int_unique; [apply H2|]. apply (is_int_ext (fun y => G1 x y)); [|apply K2].
    intros y. symmetry. apply E1. }
  eapply is_int_unique; [exact H3|]. apply (is_int_ext G2); [intros x; symmetry; apply E2|exact K3].
Qed.

Lemma is_int3_prod f g h u v w : is_int f u -> is_int g v -> is_int h w ->
  is_int3 (fun x y z => f x * g y * h z) (u * v * w).
Proof.
  intros Hf Hg Hh. exists (fun x y => f x * g y * w), (fun x => f x * v * w). repeat split.
  - intros x y. apply is_int_scal, Hh.
  - intros x. apply (is_int_ext (fun y => (f x * w) * g y)); [intros y; ring|].
    apply (is_int_eq _ ((f x * w) * v)); [|ring]. apply is_int_scal, Hg.
  - apply (is_int_ext (fun x => (v * w) * f x)); [intros x; ring|].
    apply (is_int_eq _ ((v * w) * u)); [|ring]. apply is_int_scal, Hf.
Qed.

(** ** Integration by parts between the two functions *)

(** first and second derivative of a Gaussian, as functions *)
Definition dcg (a A : R) (i : nat) (x : R) : R := INR i * cg a A (pred i) x - 2 * a * cg a A (S i) x.
Definition d2cg (a A : R) (i : nat) (x : R) : R :=
  INR i * dcg a A (pred i) x - 2 * a * dcg a A (S i) x.

Lemma dcg_derive (a A : R) (i : nat) (x : R) : is_derive (cg a A i) x (dcg a A i x).
Proof. apply cg_derive. Qed.

Lemma d2cg_derive (a A : R) (i : nat) (x : R) : is_derive (dcg a A i) x (d2cg a A i x).
Proof.
  unfold d2cg, dcg at 1.
  apply (is_derive_minus (fun x => INR i * cg a A (pred i) x) (fun x => 2 * a * cg a A (S i) x)).
  - apply (is_derive_scal (cg a A (pred i)) x (INR i)). apply dcg_derive.
  - apply (is_derive_scal (cg a A (S i)) x (2 * a)). apply dcg_derive.
Qed.

Lemma d2cg_eq a A i x : d2cg a A i x =
  4 * a * a * cg a A (S (S i)) x - 2 * a * (2 * INR i + 1) * cg a A i x
  + INR i * INR (pred i) * cg a A (pred (pred i)) x.
Proof.
  unfold d2cg, dcg. destruct i as [|i].
  - cbn [pred INR]. ring.
  - cbn [pred]. rewrite !S_INR. ring.
Qed.

Section Parts.
Variables a A b B : R.
Hypothesis Ha : 0 < a.
Hypothesis Hb : 0 < b.

Lemma int_by_parts1 i j v : is_int (fun x => dcg a A i x * cg b B j x) v ->
  is_int (fun x => cg a A i x * dcg b B j x) (- v).
Proof.
  intros H. pose proof (cgp_int_derivative a A b B i j Ha Hb) as H0.
  apply (is_int_ext (fun x => (INR i * cg a A (pred i) x - 2 * a * cg a A (S i) x) * cg b B j x +
     cg a A i x * (INR j * cg b B (pred j) x - 2 * b * cg b B (S j) x) + -1 * (dcg a A i x * cg b B j x))).
  - intros x. unfold dcg. ring.
  - apply (is_int_eq _ (0 + -1 * v)); [|ring]. apply is_int_plus; [exact H0|apply is_int_scal, H].
Qed.

Lemma dcg_int i j : is_int (fun x => dcg a A i x * cg b B j x)
  (INR i * os_pair a A b B (pred i) j - 2 * a * os_pair a A b B (S i) j).
Proof.
  apply (is_int_ext (fun x => INR i * cgp a A b B (pred i) j x + - (2 * a) * cgp a A b B (S i) j x)).
  - intros x. unfold dcg, cgp. ring.
  - apply (is_int_eq _ (INR i * os_pair a A b B (pred i) j + - (2 * a) * os_pair a A b B (S i) j)); [|ring].
    apply is_int_plus; apply is_int_scal; apply os_pair_int; assumption.
Qed.

Lemma d2cg_int i j : is_int (fun x => d2cg a A i x * cg b B j x)
  (4 * a * a * os_pair a A b B (S (S i)) j - 2 * a * (2 * INR i + 1) * os_pair a A b B i j
   + INR i * INR (pred i) * os_pair a A b B (pred (pred i)) j).
Proof.
  apply (is_int_ext (fun x => 4 * a * a * cgp a A b B (S (S i)) j x
     + - (2 * a * (2 * INR i + 1)) * cgp a A b B i j x
     + INR i * INR (pred i) * cgp a A b B (pred (pred i)) j x)).
  - intros x. rewrite d2cg_eq. unfold cgp. ring.
  - apply (is_int_eq _ (4 * a * a * os_pair a A b B (S (S i)) j
     + - (2 * a * (2 * INR i + 1)) * os_pair a A b B i j
     + INR i * INR (pred i) * os_pair a A b B (pred (pred i)) j)); [|ring].
    repeat apply is_int_plus; apply is_int_scal; apply os_pair_int; assumption.
Qed.

(** moving one derivative across *)
Lemma dcg_parts i j v : is_int (fun x => d2cg a A i x * cg b B j x) v ->
  is_int (fun x => dcg a A i x * dcg b B j x) (- v).
Proof.
  intros H.
  pose proof (cgp_int_derivative a A b B (pred i) j Ha Hb) as H1.
  pose proof (cgp_int_derivative a A b B (S i) j Ha Hb) as H2.
  apply (is_int_ext (fun x => INR i * ((INR (pred i) * cg a A (pred (pred i)) x - 2 * a * cg a A (S (pred i)) x) * cg b B j x +
        cg a A (pred i) x * (INR j * cg b B (pred j) x - 2 * b * cg b B (S j) x))
     + - (2 * a) * ((INR (S i) * cg a A (pred (S i)) x - 2 * a * cg a A (S (S i)) x) * cg b B j x +
        cg a A (S i) x * (INR j * cg b B (pred j) x - 2 * b * cg b B (S j) x))
     + -1 * (d2cg a A i x * cg b B j x))).
  - intros x. unfold d2cg, dcg. ring.
  - apply (is_int_eq _ (INR i * 0 + - (2 * a) * 0 + -1 * v)); [|ring].
    repeat apply is_int_plus; apply is_int_scal; assumption.
Qed.

End Parts.

(** second derivative on the bra = second derivative on the ket *)
Lemma d2cg_move a A b B i j v : 0 < a -> 0 < b ->
  is_int (fun x => d2cg a A i x * cg b B j x) v -> is_int (fun x => cg a A i x * d2cg b B j x) v.
Proof.
  intros Ha Hb H.
  pose proof (dcg_parts a A b B Ha Hb i j v H) as H1.
  (* (cg_i dcg_j)' integrates to zero: use the swapped lemma *)
  pose proof (cgp_int_derivative a A b B i (pred j) Ha Hb) as H2.
  pose proof (cgp_int_derivative a A b B i (S j) Ha Hb) as H3.
  apply (is_int_ext (fun x =>
      INR j * ((INR i * cg a A (pred i) x - 2 * a * cg a A (S i) x) * cg b B (pred j) x +
        cg a A i x * (INR (pred j) * cg b B (pred (pred j)) x - 2 * b * cg b B (S (pred j)) x))
     + - (2 * b) * ((INR i * cg a A (pred i) x - 2 * a * cg a A (S i) x) * cg b B (S j) x +
        cg a A i x * (INR (S j) * cg b B (pred (S j)) x - 2 * b * cg b B (S (S j)) x))
     + -1 * (dcg a A i x * dcg b B j x))).
  - intros x. unfold d2cg, dcg. ring.
  - apply (is_int_eq _ (INR j * 0 + - (2 * b) * 0 + -1 * - v)); [|ring].
    repeat apply is_int_plus; apply is_int_scal; assumption.
Qed.
