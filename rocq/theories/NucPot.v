(** * The nuclear charge models: Poisson's equation, total charge, rms radius (C47, C57) *)

From Coq Require Import ZArith Reals Lra Lia.
From Coquelicot Require Import Coquelicot.
From Verif Require Import GaussInt EtaValues FermiSk NucPotSpec NucModel.
Open Scope R_scope.

(** ** Tools *)

Ltac eqR := match goal with |- ?x = ?y => change (@eq R x y) end.

Lemma half_deriv (F f : R -> R) (l : R) : (forall r, is_derive F r (f r)) -> (forall r, continuous f r) -> is_lim F p_infty l -> half_int f (l - F 0).
Proof.
  intros D C L. assert (I : forall T, is_RInt f 0 T (F T - F 0)) by (intros T; apply (is_RInt_derive F); auto).
  split; [intros T _; eexists; apply I|].
  apply (is_lim_ext (fun T => F T - F 0)); [intros T; symmetry; apply (is_RInt_unique (V := R_CompleteNormedModule)); apply I|].
  apply (is_lim_minus' F (fun _ => F 0)); [exact L|apply is_lim_const].
Qed.

Lemma half_scal k f v : half_int f v -> half_int (fun r => k * f r) (k * v).
Proof.
  intros (X & L). split.
  - intros T HT. apply (ex_RInt_scal (V := R_CompleteNormedModule) f). apply X. exact HT.
  - apply (is_lim_ext_loc (fun T => k * RInt f 0 T)).
    + exists 0. intros T HT. symmetry. apply (RInt_scal (V := R_CompleteNormedModule) f). apply X. exact HT.
    + apply (is_lim_scal_l (fun T => RInt f 0 T) k p_infty v). exact L.
Qed.

Lemma half_plus f g u v : half_int f u -> half_int g v -> half_int (fun r => f r + g r) (u + v).
Proof.
  intros (X & L) (Y & M). split.
  - intros T HT. apply (ex_RInt_plus (V := R_CompleteNormedModule) f g); auto.
  - apply (is_lim_ext_loc (fun T => RInt f 0 T + RInt g 0 T)).
    + exists 0. intros T HT. symmetry. apply (RInt_plus (V := R_CompleteNormedModule) f g); auto.
    + apply is_lim_plus'; assumption.
Qed.

Lemma half_ext f g v : (forall r, 0 < r -> f r = g r) -> half_int f v -> half_int g v.
Proof.
  intros E (X & L). split.
  - intros T HT. apply (ex_RInt_ext f); [|apply X; exact HT]. rewrite Rmin_left, Rmax_right by lra. intros r Hr. apply E. lra.
  - apply (is_lim_ext_loc (fun T => RInt f 0 T)); [|exact L]. exists 0. intros T HT. apply RInt_ext.
    rewrite Rmin_left, Rmax_right by lra. intros r Hr. apply E. lra.
Qed.

Lemma half_eq f u v : half_int f u -> u = v -> half_int f v.
Proof. intros H <-. exact H. Qed.

(** powers times exponentials vanish at infinity *)
Lemma exp_decay n a : 0 < a -> is_lim (fun T => T ^ n * exp (- T / a)) p_infty 0.
Proof.
  intros Ha. set (m := S n). set (K := (a * INR m) ^ m).
  assert (Hm : 0 < INR m) by (apply lt_0_INR; unfold m; lia).
  apply (is_lim_le_le_loc (fun _ => 0) (fun T => K * / T)).
  - exists 0. intros T HT. split; [apply Rmult_le_pos; [apply pow_le; lra|left; apply exp_pos]|].
    assert (HE : (T / (a * INR m)) ^ m <= exp (T / a)).
    { replace (T / a) with (INR m * (T / (a * INR m))) by (field; lra). rewrite exp_nat. apply pow_incr.
      assert (0 < T / (a * INR m)) by (apply Rdiv_lt_0_compat; [lra|apply Rmult_lt_0_compat; lra]).
      split; [lra|]. pose proof (exp_ineq1 (T / (a * INR m)) ltac:(lra)). lra. }
    assert (Hp : 0 < (T / (a * INR m)) ^ m) by (apply pow_lt, Rdiv_lt_0_compat; [lra|apply Rmult_lt_0_compat; lra]).
    replace (- T / a) with (- (T / a)) by (field; lra). rewrite exp_Ropp.
    apply Rle_trans with (T ^ n * / (T / (a * INR m)) ^ m).
    + apply Rmult_le_compat_l; [apply pow_le; lra|]. apply Rinv_le_contravar; assumption.
    + right. unfold K. rewrite <- pow_inv. replace (/ (T / (a * INR m))) with (a * INR m * / T) by (field; lra).
      rewrite Rpow_mult_distr, pow_inv. unfold m at 3. cbn [pow]. field. split; [lra|apply pow_nonzero; lra].
  - apply is_lim_const.
  - replace (Finite 0) with (Rbar_mult K 0) by (cbn; f_equal; ring). apply is_lim_scal_l.
    replace (Finite 0) with (Rbar_inv p_infty) by reflexivity. apply is_lim_inv; [apply is_lim_id|discriminate].
Qed.

Lemma lim_squeeze (f : R -> R) g : (exists K, forall T, K < T -> Rabs (f T) <= g T) -> is_lim g p_infty 0 -> is_lim f p_infty 0.
Proof.
  intros (K & HK) L. apply (is_lim_le_le_loc (fun T => - g T) g).
  - exists K. intros T HT. specialize (HK T HT). apply Rabs_le_between in HK. lra.
  - replace (Finite 0) with (Rbar_opp 0) by (cbn; f_equal; ring). apply is_lim_opp. exact L.
  - exact L.
Qed.

(** ** S_k on the whole line, with S_0 *)

Definition S0 (x : R) : R := - (exp x / (1 + exp x)).
Definition Sx (j : nat) : R -> R := match j with O => S0 | S i => Sext i end.

Lemma Sx_deriv j x : is_derive (Sx (S j)) x (Sx j x).
Proof.
  destruct j as [|i]; [|apply Sext_deriv]. unfold Sx, Sext, S0. pose proof (exp_pos x). auto_derive; [lra|]. field. lra.
Qed.

Lemma Sx_continuous j x : continuous (Sx j) x.
Proof.
  destruct j as [|i].
  - apply (ex_derive_continuous S0). unfold S0. auto_derive. pose proof (exp_pos x). lra.
  - apply (ex_derive_continuous (Sx (S i))). eexists. apply Sx_deriv.
Qed.

Lemma Sx_decay j x : x <= 0 -> Rabs (Sx j x) <= 2 * exp x.
Proof.
  intros Hx. pose proof (exp_pos x) as HE. destruct j as [|[|i]].
  - cbn [Sx]. unfold S0. rewrite Rabs_Ropp, Rabs_pos_eq.
    + apply (Rmult_le_reg_r (1 + exp x)); [lra|]. unfold Rdiv. rewrite Rmult_assoc, Rinv_l by lra. nra.
    + apply Rmult_le_pos; [lra|left; apply Rinv_0_lt_compat; lra].
  - cbn [Sx Sext]. rewrite Rabs_Ropp. rewrite Rabs_pos_eq.
    + assert (ln (1 + exp x) < exp x); [|lra]. rewrite <- (ln_exp (exp x)) at 2. apply ln_increasing; [lra|]. apply exp_ineq1. lra.
    + rewrite <- ln_1. destruct (Req_dec (exp x) 0); [lra|]. left. apply ln_increasing; lra.
  - apply (Sfull_decay (S (S i)) x); [lia|exact Hx].
Qed.

(** T^n S_j((c - T)/a) vanishes at infinity *)
Lemma Sx_lim n j c a : 0 < a -> is_lim (fun T => T ^ n * Sx j ((c - T) / a)) p_infty 0.
Proof.
  intros Ha. apply (lim_squeeze _ (fun T => 2 * exp (c / a) * (T ^ n * exp (- T / a)))).
  - exists (Rmax 0 c). intros T HT. pose proof (Rmax_l 0 c). pose proof (Rmax_r 0 c).
    rewrite Rabs_mult, (Rabs_pos_eq (T ^ n)) by (apply pow_le; lra).
    apply Rle_trans with (T ^ n * (2 * exp ((c - T) / a))).
    + apply Rmult_le_compat_l; [apply pow_le; lra|]. apply Sx_decay. apply Rmult_le_reg_r with a; [lra|]. unfold Rdiv. rewrite Rmult_assoc, Rinv_l by lra. lra.
    + right. replace ((c - T) / a) with (c / a + - T / a) by (field; lra). rewrite exp_plus. ring.
  - replace (Finite 0) with (Rbar_mult (2 * exp (c / a)) 0) by (cbn; f_equal; ring). apply is_lim_scal_l. apply exp_decay. exact Ha.
Qed.

(** inversion formulas *)
Lemma inv1 x : Sx 1 x = - x + Sx 1 (- x).
Proof.
  cbn [Sx Sext]. pose proof (exp_pos (- x)).
  replace (1 + exp x) with (exp x * (1 + exp (- x))) by (rewrite Rmult_plus_distr_l, <- exp_plus, Rplus_opp_r, exp_0; ring).
  rewrite ln_mult by (try apply exp_pos; lra). rewrite ln_exp. ring.
Qed.

Lemma Sx_flip j x : is_derive (fun y => Sx (S j) (- y)) x (- Sx j (- x)).
Proof.
  pose proof (is_derive_comp (Sx (S j)) (fun y => - y) x _ _ (Sx_deriv j (- x)) (is_derive_opp (fun y => y) x 1 (is_derive_id x))) as H.
  apply (is_derive_eq _ _ _ _ H). unfold scal, opp. cbn. unfold mult. cbn. ring.
Qed.

(** two functions with the same derivative and the same value at 0 *)
Lemma same_deriv (f g h : R -> R) : (forall x, is_derive f x (h x)) -> (forall x, is_derive g x (h x)) -> f 0 = g 0 -> forall x, f x = g x.
Proof.
  intros Df Dg E x.
  assert (D : forall r, is_derive (fun y => f y - g y) r 0).
  { intros r. apply (is_derive_eq _ _ _ _ (is_derive_minus _ _ _ _ _ (Df r) (Dg r))). unfold minus, plus, opp. cbn. ring. }
  destruct (Rle_dec 0 x) as [H|H].
  - pose proof (deriv_zero_const _ 0 x H ltac:(intros; apply D)) as Q. cbn in Q. lra.
  - pose proof (deriv_zero_const _ x 0 ltac:(lra) ltac:(intros; apply D)) as Q. cbn in Q. lra.
Qed.

Lemma inv_step_even j (P P' : R -> R) v : (forall x, Sx j x = Sx j (- x) + P' x) -> (forall x, is_derive P x (P' x)) -> Sx (S j) 0 = v -> P 0 = 2 * v ->
  forall x, Sx (S j) x = - Sx (S j) (- x) + P x.
Proof.
  intros H DP Hv HP. apply (same_deriv _ _ (Sx j)).
  - intros x. apply Sx_deriv.
  - intros x. pose proof (is_derive_plus _ _ _ _ _ (is_derive_opp _ _ _ (Sx_flip j x)) (DP x)) as D.
    apply (is_derive_eq _ _ _ _ D). unfold plus, opp. cbn. rewrite (H x). ring.
  - rewrite Ropp_0, HP, Hv. ring.
Qed.

Lemma inv_step_odd j (P P' : R -> R) : (forall x, Sx j x = - Sx j (- x) + P' x) -> (forall x, is_derive P x (P' x)) -> P 0 = 0 ->
  forall x, Sx (S j) x = Sx (S j) (- x) + P x.
Proof.
  intros H DP HP. apply (same_deriv _ _ (Sx j)).
  - intros x. apply Sx_deriv.
  - intros x. pose proof (is_derive_plus _ _ _ _ _ (Sx_flip j x) (DP x)) as D.
    apply (is_derive_eq _ _ _ _ D). unfold plus. cbn. rewrite (H x). ring.
  - rewrite Ropp_0, HP. ring.
Qed.

Lemma inv2 x : Sx 2 x = - Sx 2 (- x) + (- (PI ^ 2 / 6) - x ^ 2 / 2).
Proof.
  revert x. apply (inv_step_even 1 _ (fun x => - x) (- (PI ^ 2 / 12))).
  - intros x. rewrite inv1. ring. - intros x. auto_derive; [trivial|field]. - exact Sfull_2_0. - field.
Qed.
Lemma inv3 x : Sx 3 x = Sx 3 (- x) + (- (PI ^ 2 * x / 6) - x ^ 3 / 6).
Proof. revert x. eapply inv_step_odd; [exact inv2| |]. - intros x. auto_derive; [trivial|field]. - field. Qed.
Lemma inv4 x : Sx 4 x = - Sx 4 (- x) + (- (7 * PI ^ 4 / 360) - PI ^ 2 * x ^ 2 / 12 - x ^ 4 / 24).
Proof. revert x. eapply (inv_step_even 3 _ _ (- (7 * PI ^ 4 / 720))); [exact inv3| | |]. - intros x. auto_derive; [trivial|field]. - exact Sfull_4_0. - field. Qed.
Lemma inv5 x : Sx 5 x = Sx 5 (- x) + (- (7 * PI ^ 4 * x / 360) - PI ^ 2 * x ^ 3 / 36 - x ^ 5 / 120).
Proof. revert x. eapply inv_step_odd; [exact inv4| |]. - intros x. auto_derive; [trivial|field]. - field. Qed.
Lemma inv6 x : Sx 6 x = - Sx 6 (- x) + (- (31 * PI ^ 6 / 15120) - 7 * PI ^ 4 * x ^ 2 / 720 - PI ^ 2 * x ^ 4 / 144 - x ^ 6 / 720).
Proof. revert x. eapply (inv_step_even 5 _ _ (- (31 * PI ^ 6 / 30240))); [exact inv5| | |]. - intros x. auto_derive; [trivial|field]. - exact Sfull_6_0. - field. Qed.
Lemma inv7 x : Sx 7 x = Sx 7 (- x) + (- (31 * PI ^ 6 * x / 15120) - 7 * PI ^ 4 * x ^ 3 / 2160 - PI ^ 2 * x ^ 5 / 720 - x ^ 7 / 5040).
Proof. revert x. eapply inv_step_odd; [exact inv6| |]. - intros x. auto_derive; [trivial|field]. - field. Qed.

(** S_j is negative *)
Lemma Sx_neg j x : Sx (S j) x < 0.
Proof.
  revert x. induction j as [|j IH]; intros x.
  - cbn [Sx Sext]. pose proof (exp_pos x). assert (ln 1 < ln (1 + exp x)) by (apply ln_increasing; lra). rewrite ln_1 in *. lra.
  - assert (Dec : forall y z, y < z -> Sx (S (S j)) z < Sx (S (S j)) y).
    { intros y z Hyz. destruct (MVT_gen (Sx (S (S j))) y z (Sx (S j))) as (t & _ & E).
      - intros; apply Sx_deriv. - intros r _. apply continuity_pt_filterlim. apply Sx_continuous.
      - specialize (IH t). nra. }
    apply Rlt_le_trans with (Sx (S (S j)) (x - 1)); [apply Dec; lra|].
    apply Rnot_lt_le. intros Hp. set (p := Sx (S (S j)) (x - 1)) in *.
    pose (y := Rmin (Rmin 0 (x - 2)) (ln (p / 2))).
    assert (y <= 0 /\ y <= x - 2 /\ y <= ln (p / 2)).
    { unfold y. pose proof (Rmin_l (Rmin 0 (x - 2)) (ln (p / 2))). pose proof (Rmin_r (Rmin 0 (x - 2)) (ln (p / 2))).
      pose proof (Rmin_l 0 (x - 2)). pose proof (Rmin_r 0 (x - 2)). lra. }
    pose proof (Dec y (x - 1) ltac:(lra)) as H1. fold p in H1. pose proof (Sx_decay (S (S j)) y ltac:(lra)) as H2.
    assert (exp y <= p / 2).
    { rewrite <- (exp_ln (p / 2)) by lra. destruct (Req_dec y (ln (p / 2))) as [-> | ]; [lra|]. left. apply exp_increasing. lra. }
    pose proof (Rle_abs (Sx (S (S j)) y)). lra.
Qed.

(** ** Moments of the Fermi function *)
Section Moments.
Variables c a : R.
Hypothesis Ha : 0 < a.

Fixpoint Bint (n j : nat) (r : R) : R :=
  match n with
  | O => - a * Sx (S j) ((c - r) / a)
  | S m => - a * r ^ S m * Sx (S j) ((c - r) / a) + a * INR (S m) * Bint m (S j) r
  end.

Lemma Sx_lin j r : is_derive (fun r => Sx (S j) ((c - r) / a)) r (- Sx j ((c - r) / a) / a).
Proof.
  assert (D : is_derive (fun r : R => (c - r) / a) r (- / a)) by (auto_derive; [trivial|field; lra]).
  apply (is_derive_eq _ _ _ _ (is_derive_comp (Sx (S j)) (fun r => (c - r) / a) r _ _ (Sx_deriv j _) D)).
  unfold scal. cbn. unfold mult. cbn. field. lra.
Qed.

Lemma Bint_deriv n : forall j r, is_derive (Bint n j) r (r ^ n * Sx j ((c - r) / a)).
Proof.
  induction n as [|n IH]; intros j r; cbn [Bint].
  - apply (is_derive_eq _ _ _ _ (is_derive_scal _ _ (- a) _ (Sx_lin j r))). cbn [pow]. field. lra.
  - assert (Dp : is_derive (fun r : R => - a * r ^ S n) r (- a * INR (S n) * r ^ n)).
    { auto_derive; [trivial|]. cbn [Init.Nat.pred]. change (match n with O => 1 | S _ => INR n + 1 end) with (INR (S n)). ring. }
    pose proof (is_derive_mult _ _ r _ _ Dp (Sx_lin j r) Rmult_comm) as D1.
    pose proof (is_derive_scal _ _ (a * INR (S n)) _ (IH (S j) r)) as D2.
    apply (is_derive_eq _ _ _ _ (is_derive_plus _ _ _ _ _ D1 D2)). unfold plus, mult. cbn -[INR Sx pow]. cbn [pow]. field. lra.
Qed.

Lemma Bint_lim n : forall j, is_lim (Bint n j) p_infty 0.
Proof.
  induction n as [|n IH]; intros j; cbn [Bint].
  - replace (Finite 0) with (Rbar_mult (- a) 0) by (cbn; f_equal; ring). apply is_lim_scal_l.
    apply (is_lim_ext (fun T => T ^ 0 * Sx (S j) ((c - T) / a))); [intros; cbn [pow]; ring|]. apply Sx_lim. exact Ha.
  - replace (Finite 0) with (Finite (- a * 0 + a * INR (S n) * 0)) by (f_equal; ring). apply is_lim_plus'.
    + apply (is_lim_ext (fun T => - a * (T ^ S n * Sx (S j) ((c - T) / a)))); [intros; ring|].
      apply (is_lim_scal_l (fun T => T ^ S n * Sx (S j) ((c - T) / a)) (- a) p_infty 0). apply Sx_lim. exact Ha.
    + apply (is_lim_scal_l (Bint n (S j)) (a * INR (S n)) p_infty 0). apply IH.
Qed.

Lemma Bint_0 n : forall j, Bint n j 0 = - (a ^ S n * INR (fact n) * Sx (S (n + j)) (c / a)).
Proof.
  induction n as [|n IH]; intros j; cbn [Bint].
  - replace ((c - 0) / a) with (c / a) by (field; lra). change (0 + j)%nat with j. cbn [pow fact INR]. ring.
  - rewrite IH. replace (n + S j)%nat with (S n + j)%nat by lia. rewrite fact_simpl, mult_INR. cbn [pow]. ring.
Qed.

Lemma fermi_S0 r : / (1 + exp ((r - c) / a)) = - Sx 0 ((c - r) / a).
Proof.
  cbn [Sx]. unfold S0. replace ((c - r) / a) with (- ((r - c) / a)) by (field; lra). rewrite exp_Ropp.
  pose proof (exp_pos ((r - c) / a)). field. lra.
Qed.

Lemma fermi_moment n : half_int (fun r => r ^ n / (1 + exp ((r - c) / a))) (- (a ^ S n * INR (fact n) * Sx (S n) (c / a))).
Proof.
  apply (half_eq _ (-1 * (0 - Bint n 0 0))); [|rewrite Bint_0, Nat.add_0_r; ring].
  apply (half_ext (fun r => -1 * (r ^ n * Sx 0 ((c - r) / a)))).
  { intros r _. unfold Rdiv at 2. rewrite fermi_S0. ring. }
  apply half_scal. apply half_deriv.
  - apply Bint_deriv.
  - intros r. apply (continuous_mult (fun r => r ^ n) (fun r => Sx 0 ((c - r) / a))).
    + apply (ex_derive_continuous (fun r => r ^ n)). auto_derive. trivial.
    + apply (continuous_comp (fun r => (c - r) / a) (Sx 0)); [|apply Sx_continuous].
      apply (ex_derive_continuous (fun r => (c - r) / a)). auto_derive. trivial.
  - apply Bint_lim.
Qed.
End Moments.

(** ** From a formula for r V valid everywhere *)
Lemma locally_pos r : 0 < r -> locally r (fun s => 0 < s).
Proof.
  intros Hr. exists (mkposreal r Hr). intros s Hs. unfold ball in Hs. cbn in Hs. unfold AbsRing_ball, abs, minus, plus, opp in Hs. cbn in Hs.
  apply Rabs_def2 in Hs. lra.
Qed.

Lemma pot_from_w V rho zn (w w1 : R -> R) (bad : R -> Prop) : (forall r, 0 < r -> r * V r = w r) ->
  (forall r, 0 < r -> is_derive w r (w1 r)) -> (forall r, 0 < r -> continuous w1 r) ->
  (forall r, 0 < r -> ~ bad r -> is_derive w1 r (4 * PI * r * rho r)) ->
  continuous w 0 -> w 0 = 0 -> is_lim w p_infty (- zn) -> potential_of V rho zn bad.
Proof.
  intros E D C1 D2 C0 W0 L. split; [|split].
  - exists w1. split; [|split; assumption]. intros r Hr. apply (is_derive_ext_loc w); [|apply D; exact Hr].
    generalize (locally_pos r Hr). apply filter_imp. intros s Hs. symmetry. apply E. exact Hs.
  - apply (filterlim_ext_loc w).
    + exists (mkposreal 1 Rlt_0_1). intros s _ Hs. symmetry. apply E. exact Hs.
    + rewrite <- W0 at 2. unfold continuous in C0. unfold at_right. eapply filterlim_filter_le_1; [|exact C0]. apply filter_le_within.
  - apply (is_lim_ext_loc w); [|exact L]. exists 0. intros r Hr. symmetry. apply E. exact Hr.
Qed.

(** ** Fermi model *)
Section FermiModel.
Variable Sk : Z -> R -> R.
Hypothesis HS : fermi_series Sk.

Lemma Sk_Sx k x : (2 <= k <= 7)%Z -> x <= 0 -> Sk k x = Sx (Z.to_nat k) x.
Proof.
  intros Hk Hx. pose proof (HS k x Hk Hx) as H.
  assert (Hn : (2 <= Z.to_nat k)%nat) by lia. pose proof (Sseries_ok (Z.to_nat k) x Hn Hx) as H2.
  destruct (Z.to_nat k) as [|i] eqn:Ei; [lia|]. cbn [Sx]. 
  change (Sext i x) with (Sfull (S i) x). rewrite Sfull_series by assumption.
  exact (filterlim_locally_unique (F := eventually) _ _ _ H H2).
Qed.

Variables (zn c a : R).
Hypothesis (Hc : 0 < c) (Ha : 0 < a).

Let NF := fermi_model_norm_factor Sk c a.

Lemma neg_le r : 0 <= r -> - r / a <= 0.
Proof. intros H. unfold Rdiv. rewrite Ropp_mult_distr_l_reverse. pose proof (Rinv_0_lt_compat a Ha). nra. Qed.

Lemma NF_eq : NF = - (6 * a ^ 3 / c ^ 3 * Sx 3 (c / a)).
Proof.
  unfold NF, fermi_model_norm_factor. rewrite (Sk_Sx 3) by (lia || apply neg_le; lra). change (Z.to_nat 3) with 3%nat.
  rewrite (inv3 (c / a)). replace (- (c / a)) with (- c / a) by (field; lra). field. lra.
Qed.

Lemma NF_pos : 0 < NF.
Proof.
  rewrite NF_eq. pose proof (Sx_neg 2 (c / a)). assert (0 < 6 * a ^ 3 / c ^ 3) by (apply Rdiv_lt_0_compat; [pose proof (pow_lt a 3 Ha); lra|apply pow_lt; exact Hc]). nra.
Qed.

Let wF (r : R) : R := - zn / NF * (NF + 3 * a ^ 2 / c ^ 3 * (r * Sx 2 ((c - r) / a)) + 6 * a ^ 3 / c ^ 3 * Sx 3 ((c - r) / a)).
Let wF1 (r : R) : R := zn / NF * (3 * a / c ^ 3) * (r * Sx 1 ((c - r) / a) + a * Sx 2 ((c - r) / a)).

Lemma fermi_w r : 0 < r -> r * coulomb_potential_fermi Sk r zn c a = wF r.
Proof.
  intros Hr. pose proof NF_pos as HN. unfold coulomb_potential_fermi. fold NF. cbv zeta. destruct (Rlt_dec c r) as [H|H].
  - assert (Hx : (c - r) / a <= 0) by (replace (c - r) with (- (r - c)) by ring; apply neg_le; lra).
    rewrite (Sk_Sx 2), (Sk_Sx 3) by (lia || exact Hx). change (Z.to_nat 2) with 2%nat. change (Z.to_nat 3) with 3%nat. unfold wF. field. lra.
  - assert (Hx : (r - c) / a <= 0) by (replace (r - c) with (- (c - r)) by ring; apply neg_le; lra).
    rewrite (Sk_Sx 2), (Sk_Sx 3 ((r - c) / a)), (Sk_Sx 3 (- c / a)) by (lia || exact Hx || (apply neg_le; lra)). change (Z.to_nat 2) with 2%nat. change (Z.to_nat 3) with 3%nat.
    unfold wF. rewrite (inv2 ((c - r) / a)), (inv3 ((c - r) / a)). replace (- ((c - r) / a)) with ((r - c) / a) by (field; lra).
    assert (E : NF = 1 + PI ^ 2 * a ^ 2 / c ^ 2 - 6 * a ^ 3 / c ^ 3 * Sx 3 (- c / a)).
    { unfold NF, fermi_model_norm_factor. rewrite (Sk_Sx 3) by (lia || apply neg_le; lra). change (Z.to_nat 3) with 3%nat. field. lra. }
    replace (Sx 3 (- c / a)) with ((1 + PI ^ 2 * a ^ 2 / c ^ 2 - NF) * c ^ 3 / (6 * a ^ 3)) by (rewrite E; field; lra).
    set (P2 := Sx 2 _). set (P3 := Sx 3 _). clearbody P2 P3. replace 1.5 with (3 / 2) by lra. field. lra.
Qed.

Lemma lin_cont j r : continuous (fun r => Sx j ((c - r) / a)) r.
Proof.
  apply (continuous_comp (fun r => (c - r) / a) (Sx j)); [|apply Sx_continuous].
  apply (ex_derive_continuous (fun r => (c - r) / a)). auto_derive. trivial.
Qed.

Lemma rSx_deriv n j r : is_derive (fun r => r ^ S n * Sx (S j) ((c - r) / a)) r (INR (S n) * r ^ n * Sx (S j) ((c - r) / a) - r ^ S n * Sx j ((c - r) / a) / a).
Proof.
  assert (Dp : is_derive (fun r : R => r ^ S n) r (INR (S n) * r ^ n)).
  { auto_derive; [trivial|]. cbn [Init.Nat.pred]. change (match n with O => 1 | S _ => INR n + 1 end) with (INR (S n)). ring. }
  pose proof (is_derive_mult _ _ r _ _ Dp (Sx_lin c a Ha j r) Rmult_comm) as D.
  apply (is_derive_eq _ _ _ _ D). unfold plus, mult. cbn -[INR Sx pow]. field. lra.
Qed.

Lemma wF_deriv r : is_derive wF r (wF1 r).
Proof.
  pose proof NF_pos as HN.
  pose proof (rSx_deriv 0 1 r) as D2. pose proof (Sx_lin c a Ha 2 r) as D3.
  assert (D : is_derive (fun r => - zn / NF * (NF + (3 * a ^ 2 / c ^ 3 * (r ^ 1 * Sx 2 ((c - r) / a)) + 6 * a ^ 3 / c ^ 3 * Sx 3 ((c - r) / a)))) r (wF1 r)).
  { apply (is_derive_eq _ _ _ _ (is_derive_scal _ _ (- zn / NF) _ (is_derive_plus _ _ _ _ _ (is_derive_const NF r)
      (is_derive_plus _ _ _ _ _ (is_derive_scal _ _ (3 * a ^ 2 / c ^ 3) _ D2) (is_derive_scal _ _ (6 * a ^ 3 / c ^ 3) _ D3))))).
    unfold plus, zero. cbn -[Sx pow]. unfold wF1. cbn [pow]. field. lra. }
  apply (is_derive_ext _ wF _ _) with (2 := D). intros s. unfold wF. eqR. cbn [pow]. ring.
Qed.

Lemma wF1_deriv r : is_derive wF1 r (4 * PI * r * charge_density_fermi Sk r zn c a).
Proof.
  pose proof NF_pos as HN. pose proof PI_RGT_0 as HP.
  pose proof (rSx_deriv 0 0 r) as D1. pose proof (Sx_lin c a Ha 1 r) as D2.
  assert (D : is_derive (fun r => zn / NF * (3 * a / c ^ 3) * (r ^ 1 * Sx 1 ((c - r) / a) + a * Sx 2 ((c - r) / a))) r (4 * PI * r * charge_density_fermi Sk r zn c a)).
  { apply (is_derive_eq _ _ _ _ (is_derive_scal _ _ (zn / NF * (3 * a / c ^ 3)) _ (is_derive_plus _ _ _ _ _ D1 (is_derive_scal _ _ a _ D2)))).
    unfold plus. cbn -[Sx pow PI]. cbn [pow]. unfold charge_density_fermi. fold NF. cbv zeta.
    match goal with |- _ = _ * (?x / ?y) => change (x / y) with (x * / y) end. rewrite fermi_S0 by exact Ha. field. lra. }
  apply (is_derive_ext _ wF1 _ _) with (2 := D). intros s. unfold wF1. eqR. cbn [pow]. ring.
Qed.

Lemma fermi_potential : potential_of (fun r => coulomb_potential_fermi Sk r zn c a) (fun r => charge_density_fermi Sk r zn c a) zn (fun _ => False).
Proof.
  pose proof NF_pos as HN.
  apply (pot_from_w _ _ _ wF wF1).
  - apply fermi_w.
  - intros r _. apply wF_deriv.
  - intros r _. apply (ex_derive_continuous wF1). eexists. apply wF1_deriv.
  - intros r _ _. apply wF1_deriv.
  - apply (ex_derive_continuous wF). eexists. apply wF_deriv.
  - unfold wF. replace ((c - 0) / a) with (c / a) by (field; lra).
    assert (E : Sx 3 (c / a) = - (NF * c ^ 3 / (6 * a ^ 3))) by (rewrite NF_eq; field; lra). rewrite E. field. lra.
  - replace (Finite (- zn)) with (Finite (- zn / NF * (NF + 3 * a ^ 2 / c ^ 3 * 0 + 6 * a ^ 3 / c ^ 3 * 0))) by (f_equal; field; lra).
    unfold wF. apply (is_lim_scal_l (fun r => NF + 3 * a ^ 2 / c ^ 3 * (r * Sx 2 ((c - r) / a)) + 6 * a ^ 3 / c ^ 3 * Sx 3 ((c - r) / a)) (- zn / NF) p_infty (NF + 3 * a ^ 2 / c ^ 3 * 0 + 6 * a ^ 3 / c ^ 3 * 0)).
    apply is_lim_plus'; [apply is_lim_plus'; [apply is_lim_const|]|].
    + apply (is_lim_scal_l (fun r => r * Sx 2 ((c - r) / a)) _ p_infty 0). apply (is_lim_ext (fun r => r ^ 1 * Sx 2 ((c - r) / a))); [intros; cbn [pow]; ring|apply Sx_lim; exact Ha].
    + apply (is_lim_scal_l (fun r => Sx 3 ((c - r) / a)) _ p_infty 0). apply (is_lim_ext (fun r => r ^ 0 * Sx 3 ((c - r) / a))); [intros; cbn [pow]; ring|apply Sx_lim; exact Ha].
Qed.

Lemma fermi_charge : total_charge (fun r => charge_density_fermi Sk r zn c a) zn.
Proof.
  pose proof NF_pos as HN. pose proof PI_RGT_0 as HP.
  apply (half_eq _ (3 * zn / (c ^ 3 * NF) * - (a ^ 3 * INR (fact 2) * Sx 3 (c / a)))).
  - apply (half_ext (fun r => 3 * zn / (c ^ 3 * NF) * (r ^ 2 / (1 + exp ((r - c) / a))))).
    + intros r _. unfold charge_density_fermi. fold NF. cbv zeta. pose proof (exp_pos ((r - c) / a)). field. lra.
    + apply half_scal. apply fermi_moment. exact Ha.
  - assert (E : Sx 3 (c / a) = - (NF * c ^ 3 / (6 * a ^ 3))) by (rewrite NF_eq; field; lra). rewrite E. replace (INR (fact 2)) with 2 by (cbn; ring). field. lra.
Qed.

Lemma S3m : Sx 3 (- c / a) = Sx 3 (c / a) + (PI ^ 2 * (c / a) / 6 + (c / a) ^ 3 / 6).
Proof. rewrite (inv3 (c / a)). replace (- (c / a)) with (- c / a) by (field; lra). ring. Qed.
Lemma S5m : Sx 5 (- c / a) = Sx 5 (c / a) + (7 * PI ^ 4 * (c / a) / 360 + PI ^ 2 * (c / a) ^ 3 / 36 + (c / a) ^ 5 / 120).
Proof. rewrite (inv5 (c / a)). replace (- (c / a)) with (- c / a) by (field; lra). ring. Qed.
Lemma S7m : Sx 7 (- c / a) = Sx 7 (c / a) + (31 * PI ^ 6 * (c / a) / 15120 + 7 * PI ^ 4 * (c / a) ^ 3 / 2160 + PI ^ 2 * (c / a) ^ 5 / 720 + (c / a) ^ 7 / 5040).
Proof. rewrite (inv7 (c / a)). replace (- (c / a)) with (- c / a) by (field; lra). ring. Qed.

Lemma fermi_r4 : c ^ 5 / 5 * (1 + 10 / 3 * a * a * PI * PI / (c * c) + 7 / 3 * PI ^ 4 * a ^ 4 / c ^ 4 - 120 * a ^ 5 / c ^ 5 * Sk 5 (- c / a))
  = - (a ^ 5 * INR (fact 4) * Sx 5 (c / a)).
Proof.
  rewrite (Sk_Sx 5) by (lia || apply neg_le; lra). change (Z.to_nat 5) with 5%nat. rewrite S5m.
  replace (INR (fact 4)) with 24 by (cbn; ring). field. lra.
Qed.

Lemma fermi_r6 : c ^ 7 / 7 * (1 + 7 * a * a * PI * PI / (c * c) + 49 / 3 * PI ^ 4 * a ^ 4 / c ^ 4 + 31 / 3 * PI ^ 6 * a ^ 6 / c ^ 6
       - 5040 * a ^ 7 / c ^ 7 * Sk 7 (- c / a)) = - (a ^ 7 * INR (fact 6) * Sx 7 (c / a)).
Proof.
  rewrite (Sk_Sx 7) by (lia || apply neg_le; lra). change (Z.to_nat 7) with 7%nat. rewrite S7m.
  replace (INR (fact 6)) with 720 by (cbn; ring). field. lra.
Qed.

Lemma half_div f k v : k <> 0 -> half_int f v -> half_int (fun r => f r / k) (v / k).
Proof.
  intros Hk H. apply (half_eq _ (/ k * v)); [|field; exact Hk]. apply (half_ext (fun r => / k * f r)); [intros; field; exact Hk|]. apply half_scal. exact H.
Qed.

Let NB k := fermi_bubble_model_norm_factor Sk c a k.

Lemma NB_eq k : NB k = 3 / c ^ 3 * (- (a ^ 3 * INR (fact 2) * Sx 3 (c / a)) + k / c ^ 2 * - (a ^ 5 * INR (fact 4) * Sx 5 (c / a))).
Proof.
  rewrite <- fermi_r4. unfold NB, fermi_bubble_model_norm_factor. cbv zeta. fold NF. rewrite NF_eq. replace (INR (fact 2)) with 2 by (cbn; ring). field. lra.
Qed.

Lemma NB_pos k : 0 <= k -> 0 < NB k.
Proof.
  intros Hk. rewrite NB_eq. pose proof (Sx_neg 2 (c / a)). pose proof (Sx_neg 4 (c / a)).
  pose proof (pow_lt a 3 Ha). pose proof (pow_lt a 5 Ha). pose proof (pow_lt c 2 Hc). pose proof (pow_lt c 3 Hc).
  replace (INR (fact 2)) with 2 by (cbn; ring). replace (INR (fact 4)) with 24 by (cbn; ring).
  apply Rmult_lt_0_compat; [apply Rdiv_lt_0_compat; lra|].
  assert (0 <= k / c ^ 2) by (apply Rmult_le_pos; [lra|left; apply Rinv_0_lt_compat; lra]).
  assert (0 < - (a ^ 3 * 2 * Sx 3 (c / a))) by nra. assert (0 < - (a ^ 5 * 24 * Sx 5 (c / a))) by nra. nra.
Qed.

Lemma bubble_charge k : NB k <> 0 -> total_charge (fun r => charge_density_fermi_bubble Sk r zn c a k) zn.
Proof.
  intros HN. pose proof PI_RGT_0 as HP.
  pose (K := 3 * zn / (c ^ 3 * NB k)).
  apply (half_eq _ (K * (- (a ^ 3 * INR (fact 2) * Sx 3 (c / a)) + k / c ^ 2 * - (a ^ 5 * INR (fact 4) * Sx 5 (c / a))))).
  - apply (half_ext (fun r => K * (r ^ 2 / (1 + exp ((r - c) / a)) + k / c ^ 2 * (r ^ 4 / (1 + exp ((r - c) / a)))))).
    + intros r _. unfold charge_density_fermi_bubble. fold (NB k). cbv zeta. unfold K. pose proof (exp_pos ((r - c) / a)). field. repeat split; lra.
    + apply half_scal. apply half_plus; [|apply half_scal]; apply fermi_moment; exact Ha.
  - pose proof (NB_eq k) as Q. set (q := - (a ^ 3 * INR (fact 2) * Sx 3 (c / a)) + k / c ^ 2 * - (a ^ 5 * INR (fact 4) * Sx 5 (c / a))) in *.
    assert (E : q = NB k * c ^ 3 / 3) by (rewrite Q; field; lra). rewrite E. unfold K. field. split; [exact HN|lra].
Qed.
End FermiModel.

Section FermiRms.
Variable Sk : Z -> R -> R.
Hypothesis HS : fermi_series Sk.
Variables (zn : Z) (c a : R).
Hypothesis (Hz : zn <> 0%Z) (Hc : 0 < c) (Ha : 0 < a).

Lemma IZR_nz : IZR zn <> 0.
Proof. apply not_0_IZR. exact Hz. Qed.

Lemma fermi_rms : exists v, v = 3 / (c ^ 3 * fermi_model_norm_factor Sk c a) * - (a ^ 5 * INR (fact 4) * Sx 5 (c / a)) /\ 0 < v /\ mean_square_radius (fun r => charge_density_fermi Sk r (IZR zn) c a) (IZR zn) v /\ rms_radius_fermi Sk zn c a = sqrt v.
Proof.
  pose proof IZR_nz as Hn. pose proof PI_RGT_0 as HP. pose proof (NF_pos Sk HS c a Hc Ha) as HN. set (NF := fermi_model_norm_factor Sk c a) in *.
  exists (3 / (c ^ 3 * NF) * - (a ^ 5 * INR (fact 4) * Sx 5 (c / a))). split; [reflexivity|]. split; [|split].
  - pose proof (Sx_neg 4 (c / a)). pose proof (pow_lt a 5 Ha). pose proof (pow_lt c 3 Hc). replace (INR (fact 4)) with 24 by (cbn; ring).
    apply Rmult_lt_0_compat; [apply Rdiv_lt_0_compat; [lra|apply Rmult_lt_0_compat; lra]|nra].
  - apply (half_ext (fun r => 3 / (c ^ 3 * NF) * (r ^ 4 / (1 + exp ((r - c) / a))))).
    + intros r _. unfold charge_density_fermi. fold NF. cbv zeta. pose proof (exp_pos ((r - c) / a)). field. repeat split; lra.
    + apply half_scal. apply fermi_moment. exact Ha.
  - unfold rms_radius_fermi. fold NF. cbv zeta. f_equal. rewrite <- (fermi_r4 Sk HS c a Hc Ha). field. repeat split; lra.
Qed.

Lemma bubble_rms k : fermi_bubble_model_norm_factor Sk c a k <> 0 ->
  exists v, mean_square_radius (fun r => charge_density_fermi_bubble Sk r (IZR zn) c a k) (IZR zn) v /\ rms_radius_fermi_bubble Sk zn c a k = sqrt v.
Proof.
  intros HN. pose proof IZR_nz as Hn. pose proof PI_RGT_0 as HP. set (NB := fermi_bubble_model_norm_factor Sk c a k) in *.
  exists (3 / (c ^ 3 * NB) * (- (a ^ 5 * INR (fact 4) * Sx 5 (c / a)) + k / c ^ 2 * - (a ^ 7 * INR (fact 6) * Sx 7 (c / a)))). split.
  - apply (half_ext (fun r => 3 / (c ^ 3 * NB) * (r ^ 4 / (1 + exp ((r - c) / a)) + k / c ^ 2 * (r ^ 6 / (1 + exp ((r - c) / a)))))).
    + intros r _. unfold charge_density_fermi_bubble. fold NB. cbv zeta. pose proof (exp_pos ((r - c) / a)). field. repeat split; lra.
    + apply half_scal. apply half_plus; [|apply half_scal]; apply fermi_moment; exact Ha.
  - unfold rms_radius_fermi_bubble. fold NB. cbv zeta. f_equal. rewrite <- (fermi_r4 Sk HS c a Hc Ha), <- (fermi_r6 Sk HS c a Hc Ha). field. repeat split; lra.
Qed.
End FermiRms.

(** ** Fermi bubble: potential *)
Section Bubble.
Variable Sk : Z -> R -> R.
Hypothesis HS : fermi_series Sk.
Variables (zn c a k : R).
Hypothesis (Hc : 0 < c) (Ha : 0 < a) (HN : fermi_bubble_model_norm_factor Sk c a k <> 0).
Let NB := fermi_bubble_model_norm_factor Sk c a k.

Let F0 (r : R) : R := - (2 * a ^ 3 * Sx 3 (c / a)) + (a ^ 2 * (r ^ 1 * Sx 2 ((c - r) / a)) + 2 * a ^ 3 * Sx 3 ((c - r) / a)).
Let F2 (r : R) : R := - (24 * a ^ 5 * Sx 5 (c / a)) + (a ^ 2 * (r ^ 3 * Sx 2 ((c - r) / a)) + (6 * a ^ 3 * (r ^ 2 * Sx 3 ((c - r) / a))
   + (18 * a ^ 4 * (r ^ 1 * Sx 4 ((c - r) / a)) + 24 * a ^ 5 * Sx 5 ((c - r) / a)))).
Let F0' (r : R) : R := - (a * (r ^ 1 * Sx 1 ((c - r) / a)) + a ^ 2 * Sx 2 ((c - r) / a)).
Let F2' (r : R) : R := - (a * (r ^ 3 * Sx 1 ((c - r) / a)) + (3 * a ^ 2 * (r ^ 2 * Sx 2 ((c - r) / a))
   + (6 * a ^ 3 * (r ^ 1 * Sx 3 ((c - r) / a)) + 6 * a ^ 4 * Sx 4 ((c - r) / a)))).

Let wB (r : R) : R := - zn / NB * 3 / c ^ 3 * (F0 r + k / c ^ 2 * F2 r).
Let wB1 (r : R) : R := - zn / NB * 3 / c ^ 3 * (F0' r + k / c ^ 2 * F2' r).

Lemma bubble_w r : 0 < r -> r * coulomb_potential_fermi_bubble Sk r zn c a k = wB r.
Proof.
  intros Hr. unfold coulomb_potential_fermi_bubble. fold NB. cbv zeta. destruct (Rlt_dec r c) as [H|H].
  - assert (Hx : (r - c) / a <= 0) by (replace (r - c) with (- (c - r)) by ring; apply neg_le; lra).
    assert (Hy : - c / a <= 0) by (apply neg_le; lra).
    rewrite (Sk_Sx Sk HS 2 _ ltac:(lia) Hx), (Sk_Sx Sk HS 3 _ ltac:(lia) Hx), (Sk_Sx Sk HS 4 _ ltac:(lia) Hx), (Sk_Sx Sk HS 5 _ ltac:(lia) Hx),
      (Sk_Sx Sk HS 3 _ ltac:(lia) Hy), (Sk_Sx Sk HS 5 _ ltac:(lia) Hy).
    change (Z.to_nat 2) with 2%nat. change (Z.to_nat 3) with 3%nat. change (Z.to_nat 4) with 4%nat. change (Z.to_nat 5) with 5%nat.
    rewrite (S3m c a Ha), (S5m c a Ha). unfold wB, F0, F2.
    rewrite (inv2 ((c - r) / a)), (inv3 ((c - r) / a)), (inv4 ((c - r) / a)), (inv5 ((c - r) / a)).
    replace (- ((c - r) / a)) with ((r - c) / a) by (field; lra).
    set (P2 := Sx 2 _). set (P3 := Sx 3 ((r - c) / a)). set (P4 := Sx 4 _). set (P5 := Sx 5 ((r - c) / a)).
    set (Q3 := Sx 3 (c / a)). set (Q5 := Sx 5 (c / a)). clearbody P2 P3 P4 P5 Q3 Q5. field. fold NB in HN. repeat split; lra || exact HN.
  - assert (Hx : (c - r) / a <= 0) by (replace (c - r) with (- (r - c)) by ring; apply neg_le; lra).
    assert (Hy : - c / a <= 0) by (apply neg_le; lra).
    rewrite (Sk_Sx Sk HS 2 _ ltac:(lia) Hx), (Sk_Sx Sk HS 3 _ ltac:(lia) Hx), (Sk_Sx Sk HS 4 _ ltac:(lia) Hx), (Sk_Sx Sk HS 5 _ ltac:(lia) Hx),
      (Sk_Sx Sk HS 3 _ ltac:(lia) Hy), (Sk_Sx Sk HS 5 _ ltac:(lia) Hy).
    change (Z.to_nat 2) with 2%nat. change (Z.to_nat 3) with 3%nat. change (Z.to_nat 4) with 4%nat. change (Z.to_nat 5) with 5%nat.
    rewrite (S3m c a Ha), (S5m c a Ha). unfold wB, F0, F2.
    set (P2 := Sx 2 _). set (P3 := Sx 3 ((c - r) / a)). set (P4 := Sx 4 _). set (P5 := Sx 5 ((c - r) / a)).
    set (Q3 := Sx 3 (c / a)). set (Q5 := Sx 5 (c / a)). clearbody P2 P3 P4 P5 Q3 Q5. field. fold NB in HN. repeat split; lra || exact HN.
Qed.

Lemma F0_deriv r : is_derive F0 r (F0' r).
Proof.
  pose proof (rSx_deriv c a Ha 0 1 r) as D1. pose proof (Sx_lin c a Ha 2 r) as D2.
  apply (is_derive_eq _ _ _ _ (is_derive_plus _ _ _ _ _ (is_derive_const _ r) (is_derive_plus _ _ _ _ _ (is_derive_scal _ _ (a ^ 2) _ D1) (is_derive_scal _ _ (2 * a ^ 3) _ D2)))).
  unfold plus, zero. cbn -[Sx pow]. unfold F0'. cbn [pow]. field. lra.
Qed.

Lemma F2_deriv r : is_derive F2 r (F2' r).
Proof.
  pose proof (rSx_deriv c a Ha 2 1 r) as D1. pose proof (rSx_deriv c a Ha 1 2 r) as D2. pose proof (rSx_deriv c a Ha 0 3 r) as D3. pose proof (Sx_lin c a Ha 4 r) as D4.
  apply (is_derive_eq _ _ _ _ (is_derive_plus _ _ _ _ _ (is_derive_const _ r) (is_derive_plus _ _ _ _ _ (is_derive_scal _ _ (a ^ 2) _ D1)
    (is_derive_plus _ _ _ _ _ (is_derive_scal _ _ (6 * a ^ 3) _ D2) (is_derive_plus _ _ _ _ _ (is_derive_scal _ _ (18 * a ^ 4) _ D3) (is_derive_scal _ _ (24 * a ^ 5) _ D4)))))).
  unfold plus, zero. cbn -[Sx pow]. unfold F2'. cbn [pow]. field. lra.
Qed.

Lemma F0'_deriv r : is_derive F0' r (r * Sx 0 ((c - r) / a)).
Proof.
  pose proof (rSx_deriv c a Ha 0 0 r) as D1. pose proof (Sx_lin c a Ha 1 r) as D2.
  apply (is_derive_eq _ _ _ _ (is_derive_opp _ _ _ (is_derive_plus _ _ _ _ _ (is_derive_scal _ _ a _ D1) (is_derive_scal _ _ (a ^ 2) _ D2)))).
  unfold plus, opp. cbn -[Sx pow]. cbn [pow]. field. lra.
Qed.

Lemma F2'_deriv r : is_derive F2' r (r ^ 3 * Sx 0 ((c - r) / a)).
Proof.
  pose proof (rSx_deriv c a Ha 2 0 r) as D1. pose proof (rSx_deriv c a Ha 1 1 r) as D2. pose proof (rSx_deriv c a Ha 0 2 r) as D3. pose proof (Sx_lin c a Ha 3 r) as D4.
  apply (is_derive_eq _ _ _ _ (is_derive_opp _ _ _ (is_derive_plus _ _ _ _ _ (is_derive_scal _ _ a _ D1) (is_derive_plus _ _ _ _ _ (is_derive_scal _ _ (3 * a ^ 2) _ D2)
    (is_derive_plus _ _ _ _ _ (is_derive_scal _ _ (6 * a ^ 3) _ D3) (is_derive_scal _ _ (6 * a ^ 4) _ D4)))))).
  unfold plus, opp. cbn -[Sx pow]. cbn [pow]. field. lra.
Qed.

Lemma wB_deriv r : is_derive wB r (wB1 r).
Proof.
  apply (is_derive_eq _ _ _ _ (is_derive_scal _ _ (- zn / NB * 3 / c ^ 3) _ (is_derive_plus _ _ _ _ _ (F0_deriv r) (is_derive_scal _ _ (k / c ^ 2) _ (F2_deriv r))))).
  reflexivity.
Qed.

Lemma wB1_deriv r : is_derive wB1 r (4 * PI * r * charge_density_fermi_bubble Sk r zn c a k).
Proof.
  pose proof PI_RGT_0 as HP.
  apply (is_derive_eq _ _ _ _ (is_derive_scal _ _ (- zn / NB * 3 / c ^ 3) _ (is_derive_plus _ _ _ _ _ (F0'_deriv r) (is_derive_scal _ _ (k / c ^ 2) _ (F2'_deriv r))))).
  unfold plus. cbn -[Sx pow PI]. unfold charge_density_fermi_bubble. fold NB. cbv zeta. fold NB in HN.
  match goal with |- _ = _ * (?x / ?y) => change (x / y) with (x * / y) end. rewrite fermi_S0 by exact Ha. field. repeat split; lra || exact HN.
Qed.

Lemma lim_term n j q : is_lim (fun r => q * (r ^ n * Sx j ((c - r) / a))) p_infty 0.
Proof.
  replace (Finite 0) with (Rbar_mult q 0) by (cbn; f_equal; ring). apply is_lim_scal_l. apply Sx_lim. exact Ha.
Qed.

Lemma lim_last j q : is_lim (fun r => q * Sx j ((c - r) / a)) p_infty 0.
Proof. apply (is_lim_ext (fun r => q * (r ^ 0 * Sx j ((c - r) / a)))); [intros; cbn [pow]; ring|apply lim_term]. Qed.

Lemma bubble_potential : potential_of (fun r => coulomb_potential_fermi_bubble Sk r zn c a k) (fun r => charge_density_fermi_bubble Sk r zn c a k) zn (fun _ => False).
Proof.
  apply (pot_from_w _ _ _ wB wB1).
  - apply bubble_w.
  - intros r _. apply wB_deriv.
  - intros r _. apply (ex_derive_continuous wB1). eexists. apply wB1_deriv.
  - intros r _ _. apply wB1_deriv.
  - apply (ex_derive_continuous wB). eexists. apply wB_deriv.
  - unfold wB, F0, F2. replace ((c - 0) / a) with (c / a) by (field; lra). cbn [pow]. field. fold NB in HN. repeat split; lra || exact HN.
  - assert (E : - zn = - zn / NB * 3 / c ^ 3 * (- (2 * a ^ 3 * Sx 3 (c / a)) + k / c ^ 2 * - (24 * a ^ 5 * Sx 5 (c / a)))).
    { pose proof (NB_eq Sk HS c a Hc Ha k) as Q. fold NB in Q. fold NB in HN. replace (INR (fact 2)) with 2 in Q by (cbn; ring). replace (INR (fact 4)) with 24 in Q by (cbn; ring).
      transitivity (- zn / NB * NB); [field; exact HN|]. transitivity (- zn / NB * (3 / c ^ 3 * (- (a ^ 3 * 2 * Sx 3 (c / a)) + k / c ^ 2 * - (a ^ 5 * 24 * Sx 5 (c / a))))); [f_equal; exact Q|]. field. repeat split; lra || exact HN. }
    rewrite E. unfold wB.
    apply (is_lim_scal_l (fun r => F0 r + k / c ^ 2 * F2 r) (- zn / NB * 3 / c ^ 3) p_infty (- (2 * a ^ 3 * Sx 3 (c / a)) + k / c ^ 2 * - (24 * a ^ 5 * Sx 5 (c / a)))).
    apply is_lim_plus'; [|apply (is_lim_scal_l F2 (k / c ^ 2) p_infty (- (24 * a ^ 5 * Sx 5 (c / a))))].
    + replace (Finite (- (2 * a ^ 3 * Sx 3 (c / a)))) with (Finite (- (2 * a ^ 3 * Sx 3 (c / a)) + (0 + 0))) by (f_equal; ring).
      unfold F0. apply is_lim_plus'; [apply is_lim_const|]. apply is_lim_plus'; [apply lim_term|apply lim_last].
    + replace (Finite (- (24 * a ^ 5 * Sx 5 (c / a)))) with (Finite (- (24 * a ^ 5 * Sx 5 (c / a)) + (0 + (0 + (0 + 0))))) by (f_equal; ring).
      unfold F2. apply is_lim_plus'; [apply is_lim_const|]. apply is_lim_plus'; [apply lim_term|]. apply is_lim_plus'; [apply lim_term|].
      apply is_lim_plus'; [apply lim_term|apply lim_last].
Qed.
End Bubble.
