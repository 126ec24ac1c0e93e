(** * C47, C57: the nuclear charge models

    [potential_of V rho zn bad]: V solves Poisson's equation with the density rho
    (away from [bad]), r V is continuously differentiable, r V -> 0 at the origin and
    r V -> -zn at infinity.  [unique]: these conditions determine V. *)

From Coq Require Import ZArith Reals Lra Lia.
From Coquelicot Require Import Coquelicot.
From Verif Require Import GaussInt FermiSk NucPotSpec NucPot NucPotBG NucPotThms NucModel.
Open Scope R_scope.

(** C47: Poisson's equation, the behaviour at the origin and at infinity leave no freedom. *)
Theorem C47_conditions_determine_potential : forall V1 V2 rho zn r0, potential_of V1 rho zn (fun r => r = r0) -> potential_of V2 rho zn (fun r => r = r0) ->
  forall r, 0 < r -> V1 r = V2 r.
Proof. exact unique_thm. Qed.
Print Assumptions C47_conditions_determine_potential.

(** C47: the uniformly charged ball. *)
Theorem C47_charged_ball : forall zn R_rms, 0 < R_rms ->
  let R0 := sqrt (5 / 3) * R_rms in
  potential_of (fun r => coulomb_potential_ball r zn R_rms) (fun r => charge_density_ball r zn R_rms) zn (fun r => r = R0) /\
  (forall r, R0 < r -> coulomb_potential_ball r zn R_rms = - zn / r) /\
  total_charge (fun r => charge_density_ball r zn R_rms) zn.
Proof. exact ball_thm. Qed.
Print Assumptions C47_charged_ball.

(** C47: the Gaussian charge distribution. *)
Theorem C47_gaussian : forall erf zn R_rms, error_function erf -> 0 < R_rms ->
  potential_of (fun r => coulomb_potential_gaussian erf r zn R_rms) (fun r => charge_density_gaussian r zn R_rms) zn (fun _ => False) /\
  total_charge (fun r => charge_density_gaussian r zn R_rms) zn.
Proof. exact gauss_thm. Qed.
Print Assumptions C47_gaussian.

(** C47: the Fermi model; S_k is the exact sum of the series that specfunc_fermi_sk.c tabulates. *)
Theorem C47_fermi : forall Sk zn c a, fermi_series Sk -> 0 < c -> 0 < a ->
  potential_of (fun r => coulomb_potential_fermi Sk r zn c a) (fun r => charge_density_fermi Sk r zn c a) zn (fun _ => False) /\
  total_charge (fun r => charge_density_fermi Sk r zn c a) zn.
Proof. exact fermi_thm. Qed.
Print Assumptions C47_fermi.

(** C47: the Fermi bubble model, whenever its norm does not vanish. *)
Theorem C47_fermi_bubble : forall Sk zn c a k, fermi_series Sk -> 0 < c -> 0 < a -> fermi_bubble_model_norm_factor Sk c a k <> 0 ->
  potential_of (fun r => coulomb_potential_fermi_bubble Sk r zn c a k) (fun r => charge_density_fermi_bubble Sk r zn c a k) zn (fun _ => False) /\
  total_charge (fun r => charge_density_fermi_bubble Sk r zn c a k) zn.
Proof. exact bubble_thm. Qed.
Print Assumptions C47_fermi_bubble.

(** C47: the norm is positive for every k >= 0. *)
Theorem C47_fermi_bubble_norm : forall Sk c a k, fermi_series Sk -> 0 < c -> 0 < a -> 0 <= k -> 0 < fermi_bubble_model_norm_factor Sk c a k.
Proof. exact bubble_norm_thm. Qed.
Print Assumptions C47_fermi_bubble_norm.

(** C57: the radius given to the ball model is its rms radius. *)
Theorem C57_ball_rms : forall zn R_rms, zn <> 0 -> 0 < R_rms -> mean_square_radius (fun r => charge_density_ball r zn R_rms) zn (R_rms ^ 2).
Proof. exact ball_rms_thm. Qed.
Print Assumptions C57_ball_rms.

(** C57: the radius given to the Gaussian model is its rms radius. *)
Theorem C57_gaussian_rms : forall zn R_rms, zn <> 0 -> 0 < R_rms -> mean_square_radius (fun r => charge_density_gaussian r zn R_rms) zn (R_rms ^ 2).
Proof. exact gauss_rms_thm. Qed.
Print Assumptions C57_gaussian_rms.

(** C57: libgrpp_rms_radius_fermi returns the rms radius of the Fermi density. *)
Theorem C57_fermi_rms : forall Sk (zn : Z) c a, fermi_series Sk -> zn <> 0%Z -> 0 < c -> 0 < a ->
  mean_square_radius (fun r => charge_density_fermi Sk r (IZR zn) c a) (IZR zn) (rms_radius_fermi Sk zn c a ^ 2) /\ 0 < rms_radius_fermi Sk zn c a.
Proof. exact fermi_rms_thm. Qed.
Print Assumptions C57_fermi_rms.

(** C57: libgrpp_rms_radius_fermi_bubble returns the square root of the mean square radius. *)
Theorem C57_fermi_bubble_rms : forall Sk (zn : Z) c a k, fermi_series Sk -> zn <> 0%Z -> 0 < c -> 0 < a -> fermi_bubble_model_norm_factor Sk c a k <> 0 ->
  exists v, mean_square_radius (fun r => charge_density_fermi_bubble Sk r (IZR zn) c a k) (IZR zn) v /\ rms_radius_fermi_bubble Sk zn c a k = sqrt v.
Proof. exact bubble_rms_thm. Qed.
Print Assumptions C57_fermi_bubble_rms.

(** C57: parameters estimated from a radius give a Fermi density of nearly that radius. *)
Theorem C57_estimated_parameters : forall Sk (zn : Z) R_rms c a, fermi_series Sk -> zn <> 0%Z ->
  estimate_fermi_model_parameters R_rms = Some (c, a) -> 0 < c ->
  Rabs (rms_radius_fermi Sk zn c a ^ 2 - R_rms ^ 2) <= 3 / 5 * c ^ 2 * (12 * (a / c) ^ 3 * (1 + 7 / 3 * PI ^ 2 * (a / c) ^ 2) + 240 * (a / c) ^ 5) * exp (- c / a).
Proof. exact estimate_thm. Qed.
Print Assumptions C57_estimated_parameters.

(** C57: the estimate is refused exactly for radii below sqrt(7/5) pi a. *)
Theorem C57_estimate_refused : forall R_rms, 0 <= R_rms ->
  (estimate_fermi_model_parameters R_rms = None <-> R_rms < sqrt (7 / 5) * PI * (2.3 / (4 * ln 3))).
Proof. exact estimate_fails_thm. Qed.
Print Assumptions C57_estimate_refused.

(** the special functions exist, and the parameters of lead satisfy the conditions *)
Example C47_case : (exists Sk, fermi_series Sk) /\ (exists erf, error_function erf) /\
  (forall Sk, fermi_series Sk -> fermi_bubble_model_norm_factor Sk 6.6 0.52 0.1 <> 0).
Proof.
  split; [exact fermi_series_exists|]. split; [eexists; intros x; reflexivity|].
  intros Sk H. apply Rgt_not_eq. apply bubble_norm_thm; lra || exact H.
Qed.

Lemma ln3_ge_1 : 1 <= ln 3.
Proof.
  rewrite <- (ln_exp 1). destruct (Rle_lt_or_eq_dec _ _ exp_le_3) as [H | H].
  - left. apply ln_increasing; [apply exp_pos|exact H].
  - rewrite H. lra.
Qed.

Example C57_case : exists c a, estimate_fermi_model_parameters 5.5 = Some (c, a) /\ 0 < c.
Proof.
  unfold estimate_fermi_model_parameters. cbv zeta. pose proof PI_4 as HP. pose proof PI_RGT_0 as H0. pose proof ln3_ge_1 as Hl.
  assert (Ha : 0 < 2.3 / (4 * ln 3) <= 0.575).
  { split; [apply Rdiv_lt_0_compat; lra|]. apply Rmult_le_reg_r with (4 * ln 3); [lra|]. unfold Rdiv. rewrite Rmult_assoc, Rinv_l by lra. lra. }
  set (a := 2.3 / (4 * ln 3)) in *. clearbody a.
  assert (B : 7 / 3 * PI * PI * a * a <= 13).
  { assert (PI * a <= 4 * 0.575) by (apply Rmult_le_compat; lra). assert (0 <= PI * a) by (apply Rmult_le_pos; lra).
    assert (PI * a * (PI * a) <= 4 * 0.575 * (4 * 0.575)) by (apply Rmult_le_compat; lra). lra. }
  destruct (Rlt_dec _ 0) as [H|H]; [lra|]. eexists. eexists. split; [reflexivity|]. apply sqrt_lt_R0. lra.
Qed.
