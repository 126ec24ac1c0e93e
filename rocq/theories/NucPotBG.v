(** * The charged ball and the Gaussian charge distribution (C47, C57) *)

From Coq Require Import ZArith Reals Lra Lia.
From Coquelicot Require Import Coquelicot.
From Verif Require Import GaussInt NucPotSpec NucPot NucModel.
Open Scope R_scope.

(** ** Two functions glued at a point *)
Definition glue (x : R) (f g : R -> R) (r : R) : R := if Rle_dec r x then f r else g r.

Lemma glue_left x f g r : r < x -> locally r (fun s => f s = glue x f g s).
Proof.
  intros H. exists (mkposreal (x - r) ltac:(lra)). intros s Hs. apply Rabs_lt_between' in Hs. cbn in Hs. unfold glue. destruct (Rle_dec s x); [reflexivity|lra].
Qed.

Lemma glue_right x f g r : x < r -> locally r (fun s => g s = glue x f g s).
Proof.
  intros H. exists (mkposreal (r - x) ltac:(lra)). intros s Hs. apply Rabs_lt_between' in Hs. cbn in Hs. unfold glue. destruct (Rle_dec s x); [lra|reflexivity].
Qed.

Lemma glue_at x f g : f x = g x -> glue x f g x = f x.
Proof. intros _. unfold glue. destruct (Rle_dec x x); [reflexivity|lra]. Qed.

Lemma glue_derive x f g l : f x = g x -> is_derive f x l -> is_derive g x l -> is_derive (glue x f g) x l.
Proof.
  intros E Df Dg. apply is_derive_Reals in Df. apply is_derive_Reals in Dg. apply is_derive_Reals. intros e He.
  destruct (Df e He) as (d1 & H1). destruct (Dg e He) as (d2 & H2). exists (mkposreal (Rmin d1 d2) (Rmin_stable_in_posreal d1 d2)).
  intros h Hh Hd. cbn in Hd. rewrite (glue_at x f g E). unfold glue at 1. destruct (Rle_dec (x + h) x).
  - apply H1; [exact Hh|]. eapply Rlt_le_trans; [exact Hd|apply Rmin_l].
  - rewrite E. apply H2; [exact Hh|]. eapply Rlt_le_trans; [exact Hd|apply Rmin_r].
Qed.

Lemma glue_continuous x f g : f x = g x -> continuous f x -> continuous g x -> continuous (glue x f g) x.
Proof.
  intros E Cf Cg. apply continuity_pt_filterlim. apply continuity_pt_filterlim in Cf. apply continuity_pt_filterlim in Cg.
  intros e He. destruct (Cf e He) as (d1 & Hd1 & H1). destruct (Cg e He) as (d2 & Hd2 & H2). exists (Rmin d1 d2). split; [apply Rmin_glb_lt; assumption|].
  intros s (Hs & Hd). rewrite (glue_at x f g E). unfold glue. destruct (Rle_dec s x).
  - apply H1. split; [exact Hs|]. eapply Rlt_le_trans; [exact Hd|apply Rmin_l].
  - rewrite E. apply H2. split; [exact Hs|]. eapply Rlt_le_trans; [exact Hd|apply Rmin_r].
Qed.

Lemma half_cut (f g : R -> R) x v : 0 < x -> (forall r, 0 < r < x -> f r = g r) -> (forall r, x < r -> f r = 0) -> is_RInt g 0 x v -> half_int f v.
Proof.
  intros Hx E Z I.
  assert (A : is_RInt f 0 x v) by (apply (is_RInt_ext g); [rewrite Rmin_left, Rmax_right by lra; intros r Hr; symmetry; apply E; exact Hr|exact I]).
  assert (B : forall T, x <= T -> is_RInt f 0 T v).
  { intros T HT. replace v with (plus v 0) by (unfold plus; cbn; ring). apply (is_RInt_Chasles f 0 x T); [exact A|].
    apply (is_RInt_ext (fun _ => 0)); [rewrite Rmin_left, Rmax_right by lra; intros r Hr; symmetry; apply Z; lra|].
    pose proof (is_RInt_const (V := R_NormedModule) x T 0) as K. unfold scal in K. cbn in K. unfold mult in K. cbn in K. rewrite Rmult_0_r in K. exact K. }
  split.
  - intros T HT. destruct (Rle_dec x T) as [H|H]; [eexists; apply B; exact H|].
    apply (ex_RInt_Chasles_1 f 0 T x); [lra|]. exists v. exact A.
  - apply (is_lim_ext_loc (fun _ => v)); [|apply is_lim_const]. exists x. intros T HT. symmetry.
    apply (is_RInt_unique (V := R_CompleteNormedModule)). apply B. lra.
Qed.

(** ** The uniformly charged ball *)
Section Ball.
Variables (zn R_rms : R).
Hypothesis Hr : 0 < R_rms.
Let R0 := sqrt (5 / 3) * R_rms.

Lemma R0_pos : 0 < R0.
Proof. apply Rmult_lt_0_compat; [apply sqrt_lt_R0; lra|exact Hr]. Qed.
Lemma R0_sq : R0 * R0 = 5 / 3 * (R_rms * R_rms).
Proof. unfold R0. replace (sqrt (5 / 3) * R_rms * (sqrt (5 / 3) * R_rms)) with (sqrt (5 / 3) * sqrt (5 / 3) * (R_rms * R_rms)) by ring. rewrite sqrt_sqrt by lra. reflexivity. Qed.

Let wi (r : R) := - zn / (2 * R0) * (3 * r - r * r * r / (R0 * R0)).
Let wi1 (r : R) := - zn / (2 * R0) * (3 - 3 * r * r / (R0 * R0)).

Lemma wi_deriv r : is_derive wi r (wi1 r).
Proof. pose proof R0_pos. unfold wi, wi1. auto_derive; [trivial|]. field. lra. Qed.
Lemma wi1_deriv r : is_derive wi1 r (3 * zn * r / (R0 * R0 * R0)).
Proof. pose proof R0_pos. unfold wi1. auto_derive; [trivial|]. field. lra. Qed.

Lemma ball_potential : potential_of (fun r => coulomb_potential_ball r zn R_rms) (fun r => charge_density_ball r zn R_rms) zn (fun r => r = R0).
Proof.
  pose proof R0_pos as HR. pose proof PI_RGT_0 as HP.
  assert (E0 : wi R0 = - zn) by (unfold wi; field; lra). assert (E1 : wi1 R0 = 0) by (unfold wi1; field; lra).
  apply (pot_from_w _ _ _ (glue R0 wi (fun _ => - zn)) (glue R0 wi1 (fun _ => 0))).
  - intros r H. unfold coulomb_potential_ball. fold R0. cbv zeta. unfold glue. destruct (Rle_dec r R0); [unfold wi|]; field; lra.
  - intros r H. unfold glue at 2. destruct (Rle_dec r R0) as [Hle|Hgt].
    + destruct (Req_dec r R0) as [-> | Hne].
      * apply glue_derive; [exact E0|apply wi_deriv|]. rewrite E1. apply (is_derive_const (- zn)).
      * apply (is_derive_ext_loc wi); [apply glue_left; lra|apply wi_deriv].
    + apply (is_derive_ext_loc (fun _ => - zn)); [apply glue_right; lra|apply (is_derive_const (- zn))].
  - intros r H. destruct (Req_dec r R0) as [-> | Hne].
    + apply glue_continuous; [exact E1| |apply continuous_const]. apply (ex_derive_continuous wi1). eexists. apply wi1_deriv.
    + destruct (Rle_dec r R0) as [Hle|Hgt].
      * apply (continuous_ext_loc _ wi1); [apply glue_left; lra|]. apply (ex_derive_continuous wi1). eexists. apply wi1_deriv.
      * apply (continuous_ext_loc _ (fun _ => 0)); [apply glue_right; lra|apply continuous_const].
  - intros r H Hne. unfold charge_density_ball. fold R0. cbv zeta. destruct (Rle_dec r R0) as [Hle|Hgt].
    + apply (is_derive_ext_loc wi1); [apply glue_left; lra|]. apply (is_derive_eq _ _ _ _ (wi1_deriv r)). field. lra.
    + apply (is_derive_ext_loc (fun _ => 0)); [apply glue_right; lra|]. apply (is_derive_eq _ _ _ _ (is_derive_const 0 r)). unfold zero. cbn. ring.
  - apply (continuous_ext_loc _ wi); [apply glue_left; lra|]. apply (ex_derive_continuous wi). eexists. apply wi_deriv.
  - unfold glue. destruct (Rle_dec 0 R0); [unfold wi; field; lra|lra].
  - apply (is_lim_ext_loc (fun _ => - zn)); [|apply is_lim_const]. exists R0. intros r H. unfold glue. destruct (Rle_dec r R0); [lra|reflexivity].
Qed.

Lemma ball_outside r : R0 < r -> coulomb_potential_ball r zn R_rms = - zn / r.
Proof. intros H. unfold coulomb_potential_ball. fold R0. cbv zeta. destruct (Rle_dec r R0); [lra|reflexivity]. Qed.

Lemma ball_moment n : half_int (fun r => r ^ n * charge_density_ball r zn R_rms) (3 * zn / (4 * PI * R0 * R0 * R0) * (R0 ^ S n / INR (S n))).
Proof.
  pose proof R0_pos as HR. set (q := 3 * zn / (4 * PI * R0 * R0 * R0)).
  apply (half_cut _ (fun r => q * r ^ n) R0); [exact HR| | |].
  - intros r H. unfold charge_density_ball. fold R0. cbv zeta. fold q. destruct (Rle_dec r R0); [ring|lra].
  - intros r H. unfold charge_density_ball. fold R0. cbv zeta. destruct (Rle_dec r R0); [lra|ring].
  - pose proof (not_0_INR (S n) ltac:(lia)) as Hn.
    replace (q * (R0 ^ S n / INR (S n))) with (minus ((fun r => q * (r ^ S n / INR (S n))) R0) ((fun r => q * (r ^ S n / INR (S n))) 0))
      by (unfold minus, plus, opp; cbn -[INR pow]; rewrite (pow_i (S n)) by lia; field; exact Hn).
    apply (is_RInt_derive (fun r => q * (r ^ S n / INR (S n)))).
    + intros r _. auto_derive; [trivial|]. cbn [Init.Nat.pred]. change (match n with O => 1 | S _ => INR n + 1 end) with (INR (S n)). field. exact Hn.
    + intros r _. apply (ex_derive_continuous (fun r => q * r ^ n)). auto_derive. trivial.
Qed.

Lemma ball_charge : total_charge (fun r => charge_density_ball r zn R_rms) zn.
Proof.
  pose proof R0_pos as HR. pose proof PI_RGT_0 as HP.
  apply (half_eq _ (4 * PI * (3 * zn / (4 * PI * R0 * R0 * R0) * (R0 ^ 3 / INR 3)))); [|cbn; field; lra].
  apply (half_ext (fun r => 4 * PI * (r ^ 2 * charge_density_ball r zn R_rms))); [intros; ring|]. apply half_scal, ball_moment.
Qed.

Lemma ball_rms : zn <> 0 -> mean_square_radius (fun r => charge_density_ball r zn R_rms) zn (R_rms ^ 2).
Proof.
  intros Hz. pose proof R0_pos as HR. pose proof PI_RGT_0 as HP.
  apply (half_eq _ (4 * PI / zn * (3 * zn / (4 * PI * R0 * R0 * R0) * (R0 ^ 5 / INR 5)))).
  - apply (half_ext (fun r => 4 * PI / zn * (r ^ 4 * charge_density_ball r zn R_rms))); [intros; field; exact Hz|]. apply half_scal, ball_moment.
  - transitivity (3 / 5 * (R0 * R0)); [cbn; field; repeat split; lra|]. rewrite R0_sq. field.
Qed.
End Ball.

(** ** The Gaussian charge distribution *)
Section Gauss.
Variable erf : R -> R.
Hypothesis HE : error_function erf.
Variables (zn R_rms : R).
Hypothesis Hr : 0 < R_rms.
Let xi := 3 / (2 * R_rms * R_rms).
Let s := sqrt xi.

Lemma xi_pos : 0 < xi.
Proof. unfold xi. apply Rdiv_lt_0_compat; [lra|]. apply Rmult_lt_0_compat; lra. Qed.
Lemma s_pos : 0 < s.
Proof. apply sqrt_lt_R0, xi_pos. Qed.
Lemma s_sq : s * s = xi.
Proof. apply sqrt_sqrt. left. apply xi_pos. Qed.

Lemma erf_erf0 x : erf x = 2 / sqrt PI * erf0 x.
Proof. rewrite HE. reflexivity. Qed.

Lemma spi : sqrt PI * sqrt PI = PI.
Proof. apply sqrt_sqrt. left. apply PI_RGT_0. Qed.
Lemma spi_pos : 0 < sqrt PI.
Proof. apply sqrt_lt_R0, PI_RGT_0. Qed.

Lemma rho_eq r : charge_density_gaussian r zn R_rms = zn * (s / sqrt PI) ^ 3 * exp (- (s * s * r * r)).
Proof.
  unfold charge_density_gaussian. fold xi. cbv zeta. pose proof xi_pos as Hx. pose proof PI_RGT_0 as HP. pose proof spi_pos. pose proof s_pos.
  assert (E : xi / PI = (s / sqrt PI) ^ 2) by (transitivity (s * s / (sqrt PI * sqrt PI)); [rewrite s_sq, spi; reflexivity|field; lra]).
  replace 1.5 with (1 + / 2) by lra. rewrite Rpower_plus, Rpower_1 by (apply Rdiv_lt_0_compat; assumption).
  rewrite Rpower_sqrt by (apply Rdiv_lt_0_compat; assumption). rewrite E. rewrite sqrt_pow2 by (left; apply Rdiv_lt_0_compat; assumption).
  replace (- xi * r * r) with (- (s * s * r * r)) by (rewrite s_sq; ring). ring.
Qed.

Lemma pi3 : 4 * PI * (s / sqrt PI) ^ 3 = 4 * s ^ 3 / sqrt PI.
Proof. pose proof spi_pos. transitivity (4 * (sqrt PI * sqrt PI) * (s / sqrt PI) ^ 3); [rewrite spi; reflexivity|field; lra]. Qed.

Let E (r : R) := exp (- (s * s * r * r)).
Let g (r : R) := 2 / sqrt PI * erf0 (s * r).

Lemma E_deriv r : is_derive E r (- 2 * s * s * r * E r).
Proof. unfold E. auto_derive; [trivial|ring]. Qed.

Lemma g_deriv r : is_derive g r (2 / sqrt PI * s * E r).
Proof.
  assert (D : is_derive (fun r => s * r) r s) by (auto_derive; [trivial|ring]).
  apply (is_derive_eq _ _ _ _ (is_derive_scal _ _ (2 / sqrt PI) _ (is_derive_comp erf0 (fun r => s * r) r _ _ (is_derive_erf0 (s * r)) D))).
  unfold scal. cbn. unfold mult. cbn. unfold gauss, E. replace (s * r * (s * r)) with (s * s * r * r) by ring. ring.
Qed.

Lemma g_lim : is_lim g p_infty 1.
Proof.
  pose proof spi_pos. replace (Finite 1) with (Rbar_mult (2 / sqrt PI) (sqrt PI / 2)) by (cbn; f_equal; field; lra).
  unfold g. apply is_lim_scal_l. apply (is_lim_comp erf0 (fun r => s * r) p_infty (sqrt PI / 2) p_infty); [apply erf0_lim| |exists 0; intros; discriminate].
  pose proof s_pos. replace p_infty with (Rbar_mult s p_infty) at 2 by (cbn; destruct (Rle_dec 0 s); [destruct (Rle_lt_or_eq_dec 0 s r); [reflexivity|lra]|lra]).
  apply is_lim_scal_l. apply is_lim_id.
Qed.

Lemma E_lim n : is_lim (fun r => r ^ n * E r) p_infty 0.
Proof.
  pose proof s_pos as Hs. pose proof (Rmult_lt_0_compat s s Hs Hs) as Hss.
  apply (lim_squeeze _ (fun T => T ^ n * exp (- T / (/ (s * s))))); [|apply exp_decay; apply Rinv_0_lt_compat; exact Hss].
  exists 1. intros T HT. rewrite Rabs_pos_eq by (apply Rmult_le_pos; [apply pow_le; lra|left; apply exp_pos]).
  apply Rmult_le_compat_l; [apply pow_le; lra|]. unfold E. left. apply exp_increasing. replace (- T / (/ (s * s))) with (- (s * s * T * 1)) by (field; lra).
  apply Ropp_lt_contravar. apply Rmult_lt_compat_l; [apply Rmult_lt_0_compat; lra|lra].
Qed.

Lemma gauss_potential : potential_of (fun r => coulomb_potential_gaussian erf r zn R_rms) (fun r => charge_density_gaussian r zn R_rms) zn (fun _ => False).
Proof.
  pose proof PI_RGT_0 as HP. pose proof spi_pos as HQ.
  assert (D1 : forall r, is_derive (fun r => - zn * (2 / sqrt PI * s * E r)) r (4 * PI * r * charge_density_gaussian r zn R_rms)).
  { intros r. apply (is_derive_eq _ _ _ _ (is_derive_scal _ _ (- zn) _ (is_derive_scal _ _ (2 / sqrt PI * s) _ (E_deriv r)))).
    rewrite rho_eq. fold (E r). transitivity (4 * PI * (s / sqrt PI) ^ 3 * (zn * r * E r)); [rewrite pi3; field; lra|ring]. }
  apply (pot_from_w _ _ _ (fun r => - zn * g r) (fun r => - zn * (2 / sqrt PI * s * E r))).
  - intros r H. unfold coulomb_potential_gaussian. fold xi. cbv zeta. fold s. rewrite erf_erf0. fold (g r). field. lra.
  - intros r _. apply (is_derive_scal _ _ (- zn) _ (g_deriv r)).
  - intros r _. apply (ex_derive_continuous (fun r => - zn * (2 / sqrt PI * s * E r))). eexists. apply D1.
  - intros r _ _. apply D1.
  - apply (ex_derive_continuous (fun r => - zn * g r)). eexists. apply (is_derive_scal _ _ (- zn) _ (g_deriv 0)).
  - unfold g. rewrite Rmult_0_r. unfold erf0. rewrite RInt_point. unfold zero. cbn. ring.
  - replace (Finite (- zn)) with (Rbar_mult (- zn) 1) by (cbn; f_equal; ring). apply is_lim_scal_l. apply g_lim.
Qed.

Let G (r : R) := g r + - (2 * s / sqrt PI) * (r ^ 1 * E r).
Lemma G_deriv r : is_derive G r (4 * s ^ 3 / sqrt PI * r ^ 2 * E r).
Proof.
  pose proof spi_pos as HQ.
  assert (D : is_derive (fun r => r ^ 1 * E r) r (E r + r * (- 2 * s * s * r * E r))) by (unfold E; auto_derive; [trivial|ring]).
  apply (is_derive_eq _ _ _ _ (is_derive_plus _ _ _ _ _ (g_deriv r) (is_derive_scal _ _ (- (2 * s / sqrt PI)) _ D))).
  unfold plus. cbn. field. lra.
Qed.
Lemma g0 : g 0 = 0.
Proof. unfold g. rewrite Rmult_0_r. unfold erf0. rewrite RInt_point. unfold zero. cbn. ring. Qed.
Lemma G_lim : is_lim G p_infty 1.
Proof.
  replace (Finite 1) with (Finite (1 + 0)) by (f_equal; ring). apply is_lim_plus'; [apply g_lim|].
  replace (Finite 0) with (Rbar_mult (- (2 * s / sqrt PI)) 0) by (cbn; f_equal; ring). apply is_lim_scal_l. apply E_lim.
Qed.

Let H4 (r : R) := 3 / (2 * (s * s)) * G r + - (2 * s / sqrt PI) * (r ^ 3 * E r).
Lemma H4_deriv r : is_derive H4 r (4 * s ^ 3 / sqrt PI * r ^ 4 * E r).
Proof.
  pose proof spi_pos as HQ. pose proof s_pos as Hs.
  assert (D : is_derive (fun r => r ^ 3 * E r) r (3 * r ^ 2 * E r + r ^ 3 * (- 2 * s * s * r * E r))) by (unfold E; auto_derive; [trivial|ring]).
  apply (is_derive_eq _ _ _ _ (is_derive_plus _ _ _ _ _ (is_derive_scal _ _ (3 / (2 * (s * s))) _ (G_deriv r)) (is_derive_scal _ _ (- (2 * s / sqrt PI)) _ D))).
  unfold plus. cbn. field. lra.
Qed.
Lemma H4_lim : is_lim H4 p_infty (3 / (2 * (s * s))).
Proof.
  replace (Finite (3 / (2 * (s * s)))) with (Finite (3 / (2 * (s * s)) + 0)) by (f_equal; ring). apply is_lim_plus'.
  - apply (is_lim_ext (fun r => 3 / (2 * (s * s)) * G r)); [reflexivity|].
    replace (Finite (3 / (2 * (s * s)))) with (Rbar_mult (3 / (2 * (s * s))) 1) by (cbn; f_equal; ring). apply is_lim_scal_l, G_lim.
  - replace (Finite 0) with (Rbar_mult (- (2 * s / sqrt PI)) 0) by (cbn; f_equal; ring). apply is_lim_scal_l. apply E_lim.
Qed.

Lemma gauss_charge : total_charge (fun r => charge_density_gaussian r zn R_rms) zn.
Proof.
  pose proof spi_pos as HQ.
  apply (half_eq _ (zn * (1 - G 0))); [|unfold G; rewrite g0; cbn; ring].
  apply (half_ext (fun r => zn * (4 * s ^ 3 / sqrt PI * r ^ 2 * E r))).
  - intros r _. rewrite rho_eq. fold (E r). transitivity (4 * PI * (s / sqrt PI) ^ 3 * (zn * r ^ 2 * E r)); [rewrite pi3; field; lra|ring].
  - apply half_scal. apply half_deriv; [apply G_deriv| |apply G_lim].
    intros r. apply (ex_derive_continuous (fun r => 4 * s ^ 3 / sqrt PI * r ^ 2 * E r)). unfold E. auto_derive. trivial.
Qed.

Lemma gauss_rms : zn <> 0 -> mean_square_radius (fun r => charge_density_gaussian r zn R_rms) zn (R_rms ^ 2).
Proof.
  intros Hz. pose proof spi_pos as HQ. pose proof s_pos as Hs.
  apply (half_eq _ (3 / (2 * (s * s)) - H4 0)).
  - apply (half_ext (fun r => 4 * s ^ 3 / sqrt PI * r ^ 4 * E r)).
    + intros r _. rewrite rho_eq. fold (E r). transitivity (4 * PI * (s / sqrt PI) ^ 3 * (r ^ 4 * E r)); [rewrite pi3; field; lra|field; repeat split; lra || exact Hz].
    + apply half_deriv; [apply H4_deriv| |apply H4_lim].
      intros r. apply (ex_derive_continuous (fun r => 4 * s ^ 3 / sqrt PI * r ^ 4 * E r)). unfold E. auto_derive. trivial.
  - unfold H4, G. rewrite g0. rewrite s_sq. unfold xi. cbn. field. lra.
Qed.
End Gauss.
