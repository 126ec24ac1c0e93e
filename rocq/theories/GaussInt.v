(** * The Gaussian integral over the real line *)

From Coq Require Import Reals Lra Lia.
From Coquelicot Require Import Coquelicot.
Open Scope R_scope.

Lemma is_derive_eq (f : R -> R) (x l l' : R) : is_derive f x l -> l = l' -> is_derive f x l'.
Proof. intros H <-. exact H. Qed.

Definition gauss (x : R) : R := exp (- (x * x)).

Lemma continuous_gauss (x : R) : continuous gauss x.
Proof.
  apply (ex_derive_continuous gauss). unfold gauss. auto_derive. exact I.
Qed.

Lemma ex_RInt_gauss a b : ex_RInt gauss a b.
Proof. apply (@ex_RInt_continuous R_CompleteNormedModule). intros z _. apply continuous_gauss. Qed.

Definition erf0 (t : R) : R := RInt gauss 0 t.

Lemma is_derive_erf0 (t : R) : is_derive erf0 t (gauss t).
Proof.
  apply (is_derive_RInt gauss erf0 0 t).
  - apply filter_forall. intros b. apply (@RInt_correct R_CompleteNormedModule). apply ex_RInt_gauss.
  - apply continuous_gauss.
Qed.

Definition hfun (t x : R) : R := exp (- (t * t) * (1 + x * x)) / (1 + x * x).

Lemma one_sq x : 1 + x * x <> 0.
Proof. pose proof (Rle_0_sqr x). unfold Rsqr in *. lra. Qed.

Lemma derive_hfun (t x : R) : is_derive (fun u => hfun u x) t (- 2 * t * exp (- (t * t) * (1 + x * x))).
Proof.
  unfold hfun. auto_derive.
  - exact I.
  - field. apply one_sq.
Qed.

Lemma Derive_hfun t x : Derive (fun u : R => hfun u x) t = - 2 * t * exp (- (t * t) * (1 + x * x)).
Proof. apply is_derive_unique, derive_hfun. Qed.

Lemma continuous_hfun (t x : R) : continuous (hfun t) x.
Proof.
  apply (ex_derive_continuous (hfun t)). unfold hfun. auto_derive. apply one_sq.
Qed.

Lemma cont2_dh t x : continuity_2d_pt (fun u v => - 2 * u * exp (- (u * u) * (1 + v * v))) t x.
Proof.
  apply continuity_2d_pt_mult.
  - apply continuity_2d_pt_mult; [apply continuity_2d_pt_const|apply continuity_2d_pt_id1].
  - apply (continuity_1d_2d_pt_comp exp).
    + apply derivable_continuous_pt, derivable_pt_exp.
    + apply continuity_2d_pt_mult.
      * apply continuity_2d_pt_opp, continuity_2d_pt_mult; apply continuity_2d_pt_id1.
      * apply continuity_2d_pt_plus; [apply continuity_2d_pt_const|].
        apply continuity_2d_pt_mult; apply continuity_2d_pt_id2.
Qed.

Definition hint (t : R) : R := RInt (hfun t) 0 1.

Lemma ex_RInt_hfun t a b : ex_RInt (hfun t) a b.
Proof. apply (@ex_RInt_continuous R_CompleteNormedModule). intros z _. apply continuous_hfun. Qed.

Lemma is_derive_hint (t : R) : is_derive hint t (- 2 * gauss t * erf0 t).
Proof.
  assert (H : is_derive hint t (RInt (fun x => Derive (fun u => hfun u x) t) 0 1)).
  { apply (is_derive_RInt_param hfun 0 1 t).
    - apply filter_forall. intros u x _. eexists. apply derive_hfun.
    - intros x _. apply continuity_2d_pt_ext with (fun u v => - 2 * u * exp (- (u * u) * (1 + v * v))).
      + intros u v. symmetry. apply is_derive_unique, derive_hfun.
      + apply cont2_dh.
    - apply filter_forall. intros u. apply ex_RInt_hfun. }
  replace (- 2 * gauss t * erf0 t) with (RInt (fun x => Derive (fun u => hfun u x) t) 0 1); [exact H|].
  apply is_RInt_unique.
  apply (is_RInt_ext (fun x => scal (- 2 * gauss t) (scal t (gauss (t * x + 0))))).
  - intros x _. rewrite Derive_hfun.
    unfold scal; simpl. unfold mult; simpl. unfold gauss.
    replace (- (t * t) * (1 + x * x)) with (- (t * t) + - ((t * x + 0) * (t * x + 0))) by ring.
    rewrite exp_plus. ring.
  - apply (is_RInt_scal (fun x => scal t (gauss (t * x + 0))) 0 1 (- 2 * gauss t) (erf0 t)).
    apply (is_RInt_comp_lin gauss t 0 0 1).
    replace (t * 0 + 0) with 0 by ring. replace (t * 1 + 0) with t by ring.
    apply (@RInt_correct R_CompleteNormedModule). apply ex_RInt_gauss.
Qed.

Lemma hint0 : hint 0 = PI / 4.
Proof.
  unfold hint. rewrite <- atan_1.
  replace (atan 1) with (atan 1 - atan 0) by (rewrite atan_0; ring).
  apply is_RInt_unique.
  apply (is_RInt_ext (fun x => / (1 + x * x))).
  - intros x _. unfold hfun. replace (- (0 * 0) * (1 + x * x)) with 0 by ring. rewrite exp_0. change (@eq R (/ (1 + x * x)) (1 / (1 + x * x))). field. apply one_sq.
  - apply (is_RInt_derive atan (fun x => / (1 + x * x))).
    + intros x _. replace (/ (1 + x * x)) with (/ (1 + x ^ 2)) by (f_equal; ring).
      apply is_derive_Reals. apply derivable_pt_lim_atan.
    + intros x _. apply (ex_derive_continuous (fun x => / (1 + x * x))). auto_derive. apply one_sq.
Qed.

Lemma erf_identity t : 0 <= t -> erf0 t * erf0 t + hint t = PI / 4.
Proof.
  intros Ht. destruct (Req_dec t 0) as [->|Hn].
  - rewrite hint0. unfold erf0. rewrite RInt_point. unfold zero; simpl. ring.
  - rewrite <- hint0. transitivity (erf0 0 * erf0 0 + hint 0).
    + symmetry. apply (eq_is_derive (fun t => erf0 t * erf0 t + hint t)); [|lra].
      intros s _.
      apply (is_derive_eq _ s (gauss s * erf0 s + erf0 s * gauss s + - 2 * gauss s * erf0 s) 0); [|ring].
      apply (is_derive_plus (fun t => erf0 t * erf0 t) hint).
      * apply (is_derive_mult erf0 erf0 s (gauss s) (gauss s)); try apply is_derive_erf0. intros; apply Rmult_comm.
      * apply is_derive_hint.
    + unfold erf0. rewrite RInt_point. unfold zero; simpl. ring.
Qed.

Lemma hint_bounds t : 0 <= hint t <= exp (- (t * t)).
Proof.
  assert (B : forall x, 0 <= hfun t x <= exp (- (t * t))).
  { intros x. unfold hfun. pose proof (Rle_0_sqr x). unfold Rsqr in *.
    pose proof (exp_pos (- (t * t) * (1 + x * x))). split.
    - apply Rlt_le, Rdiv_lt_0_compat; lra.
    - apply Rle_trans with (exp (- (t * t) * (1 + x * x)) / 1).
      + apply Rmult_le_compat_l; [lra|]. apply Rinv_le_contravar; lra.
      + unfold Rdiv. rewrite Rinv_1, Rmult_1_r.
        assert (- (t * t) * (1 + x * x) <= - (t * t)).
        { pose proof (Rle_0_sqr t). unfold Rsqr in *.
          assert (0 <= (t * t) * (x * x)) by (apply Rmult_le_pos; assumption). lra. }
        destruct H1 as [H1| ->]; [left; apply exp_increasing; exact H1|right; reflexivity]. }
  split.
  - unfold hint. apply RInt_ge_0; [lra|apply ex_RInt_hfun|]. intros x _. apply B.
  - unfold hint. replace (exp (- (t * t))) with (RInt (fun _ => exp (- (t * t))) 0 1).
    + apply RInt_le; [lra|apply ex_RInt_hfun|apply ex_RInt_const|]. intros x _. apply B.
    + rewrite RInt_const. unfold scal; simpl. unfold mult; simpl. ring.
Qed.

Lemma erf0_nonneg t : 0 <= t -> 0 <= erf0 t.
Proof. intros H. apply RInt_ge_0; [exact H|apply ex_RInt_gauss|]. intros x _. left. apply exp_pos. Qed.

Lemma erf0_sqrt t : 0 <= t -> erf0 t = sqrt (PI / 4 - hint t).
Proof.
  intros H. rewrite <- (erf_identity t H). replace (erf0 t * erf0 t + hint t - hint t) with (erf0 t * erf0 t) by ring.
  rewrite sqrt_square; [reflexivity|]. apply erf0_nonneg, H.
Qed.

Lemma lim_gauss_p : is_lim (fun t => exp (- (t * t))) p_infty 0.
Proof.
  apply (is_lim_le_le_loc (fun _ => 0) (fun t => exp (- t))).
  - exists 1. intros t Ht. split; [left; apply exp_pos|]. left. apply exp_increasing. nra.
  - apply is_lim_const.
  - apply (is_lim_comp exp (fun t => - t) p_infty 0 m_infty).
    + apply is_lim_exp_m.
    + replace m_infty with (Rbar_opp p_infty) by reflexivity. apply is_lim_opp, is_lim_id.
    + exists 0. intros y _. discriminate.
Qed.

Lemma lim_hint : is_lim hint p_infty 0.
Proof.
  apply (is_lim_le_le_loc (fun _ => 0) (fun t => exp (- (t * t)))).
  - exists 0. intros t _. apply hint_bounds.
  - apply is_lim_const.
  - apply lim_gauss_p.
Qed.

Lemma erf0_lim : is_lim erf0 p_infty (sqrt PI / 2).
Proof.
  apply is_lim_ext_loc with (fun t => sqrt (PI / 4 - hint t)).
  - exists 0. intros t Ht. symmetry. apply erf0_sqrt. lra.
  - replace (sqrt PI / 2) with (sqrt (PI / 4 - 0)).
    + apply (is_lim_comp_continuous (fun t => PI / 4 - hint t) sqrt p_infty (PI / 4 - 0)).
      * apply (is_lim_minus (fun _ => PI / 4) hint p_infty (PI / 4) 0); [apply is_lim_const|apply lim_hint|reflexivity].
      * apply continuity_pt_filterlim. apply continuity_pt_sqrt. pose proof PI_RGT_0. lra.
    + rewrite Rminus_0_r. rewrite sqrt_div_alt by lra. f_equal.
      replace 4 with (2 * 2) by ring. apply sqrt_square. lra.
Qed.

Lemma erf0_odd t : erf0 (- t) = - erf0 t.
Proof.
  assert (H : forall s, erf0 (- s) + erf0 s = 0).
  { assert (D : forall s, is_derive (fun s => erf0 (- s) + erf0 s) s 0).
    { intros s. apply (is_derive_eq _ s (- 1 * gauss (- s) + gauss s) 0);
        [|unfold gauss; replace (- s * - s) with (s * s) by ring; ring].
      apply (is_derive_plus (fun s => erf0 (- s)) erf0); [|apply is_derive_erf0].
      apply (is_derive_comp erf0 (fun s => - s) s (gauss (- s)) (- 1)); [apply is_derive_erf0|].
      auto_derive; [exact I|ring]. }
    assert (Z : erf0 (- 0) + erf0 0 = 0).
    { unfold erf0. rewrite Ropp_0, RInt_point. unfold zero; simpl. ring. }
    intros s. destruct (Rtotal_order s 0) as [Hs|[->|Hs]]; [|exact Z|].
    - rewrite <- Z. apply (eq_is_derive (fun s => erf0 (- s) + erf0 s)); [intros; apply D|exact Hs].
    - rewrite <- Z. symmetry. apply (eq_is_derive (fun s => erf0 (- s) + erf0 s)); [intros; apply D|exact Hs]. }
  specialize (H t). lra.
Qed.

Lemma erf0_lim_m : is_lim erf0 m_infty (- (sqrt PI / 2)).
Proof.
  apply is_lim_ext with (fun t => - erf0 (- t)).
  - intros t. rewrite erf0_odd. ring.
  - apply (is_lim_opp (fun t => erf0 (- t)) m_infty (sqrt PI / 2)).
    apply (is_lim_comp erf0 (fun t => - t) m_infty (sqrt PI / 2) p_infty).
    + apply erf0_lim.
    + replace p_infty with (Rbar_opp m_infty) by reflexivity. apply is_lim_opp, is_lim_id.
    + exists 0. intros y _. discriminate.
Qed.

(** ** Integrals over the whole line *)

Definition is_int (f : R -> R) (v : R) : Prop :=
  is_RInt_gen f (Rbar_locally m_infty) (Rbar_locally p_infty) v.

Lemma is_int_deriv (F f : R -> R) (la lb : R) :
  (forall x, is_derive F x (f x)) -> (forall x, continuous f x) ->
  is_lim F m_infty la -> is_lim F p_infty lb -> is_int f (lb - la).
Proof.
  intros D C La Lb.
  assert (E : forall x, Derive F x = f x) by (intros x; apply is_derive_unique, D).
  unfold is_int. apply is_RInt_gen_ext with (Derive F).
  - apply filter_forall. intros ab x _. apply E.
  - apply is_RInt_gen_Derive.
    + apply filter_forall. intros ab x _. eexists. apply D.
    + apply filter_forall. intros ab x _. apply continuous_ext with f; [intros y; symmetry; apply E|apply C].
    + exact La.
    + exact Lb.
Qed.

Lemma is_int_ext f g v : (forall x, f x = g x) -> is_int f v -> is_int g v.
Proof. intros H. apply (is_RInt_gen_ext f g v). apply filter_forall. intros ab x _. apply H. Qed.

Lemma is_int_plus f g u v : is_int f u -> is_int g v -> is_int (fun x => f x + g x) (u + v).
Proof. intros H1 H2. apply (is_RInt_gen_plus f g u v H1 H2). Qed.

Lemma is_int_scal f k v : is_int f v -> is_int (fun x => k * f x) (k * v).
Proof. intros H. apply (is_RInt_gen_scal f k v H). Qed.

Lemma is_int_unique f u v : is_int f u -> is_int f v -> u = v.
Proof. intros H1 H2. rewrite <- (is_RInt_gen_unique f u H1). apply is_RInt_gen_unique. exact H2. Qed.

Lemma is_int_eq f u v : is_int f u -> u = v -> is_int f v.
Proof. intros H <-. exact H. Qed.

Lemma is_int_zero : is_int (fun _ => 0) 0.
Proof.
  apply (is_int_eq _ (0 - 0)); [|ring].
  apply (is_int_deriv (fun _ => 0) (fun _ => 0) 0 0).
  - intros x. apply (is_derive_const (K := R_AbsRing) (V := R_NormedModule) 0 x).
  - intros x. apply continuous_const.
  - apply is_lim_const.
  - apply is_lim_const.
Qed.

Theorem gauss_integral : is_int gauss (sqrt PI).
Proof.
  apply (is_int_eq _ (sqrt PI / 2 - - (sqrt PI / 2))); [|field].
  apply (is_int_deriv erf0 gauss (- (sqrt PI / 2)) (sqrt PI / 2)).
  - apply is_derive_erf0.
  - apply continuous_gauss.
  - apply erf0_lim_m.
  - apply erf0_lim.
Qed.

Global Opaque is_int.
