(** * The nuclear charge models: the theorems *)

From Coq Require Import ZArith Reals Lra Lia.
From Coquelicot Require Import Coquelicot.
From Verif Require Import GaussInt FermiSk NucPotSpec NucPot NucPotBG NucModel.
Open Scope R_scope.

(** the function of specfunc_fermi_sk.c, exactly *)
Lemma fermi_series_exists : exists Sk, fermi_series Sk.
Proof.
  exists (fun k x => Sseries (Z.to_nat k) x). intros k x Hk Hx. apply Sseries_ok; [lia|exact Hx].
Qed.

(** C47 *)
Lemma ball_thm : forall zn R_rms, 0 < R_rms ->
  let R0 := sqrt (5 / 3) * R_rms in
  potential_of (fun r => coulomb_potential_ball r zn R_rms) (fun r => charge_density_ball r zn R_rms) zn (fun r => r = R0) /\
  (forall r, R0 < r -> coulomb_potential_ball r zn R_rms = - zn / r) /\
  total_charge (fun r => charge_density_ball r zn R_rms) zn.
Proof.
  intros zn R_rms H R0. split; [apply ball_potential; exact H|]. split; [apply ball_outside|apply ball_charge; exact H].
Qed.

Lemma gauss_thm : forall erf zn R_rms, error_function erf -> 0 < R_rms ->
  potential_of (fun r => coulomb_potential_gaussian erf r zn R_rms) (fun r => charge_density_gaussian r zn R_rms) zn (fun _ => False) /\
  total_charge (fun r => charge_density_gaussian r zn R_rms) zn.
Proof.
  intros erf zn R_rms HE H. split; [apply gauss_potential; assumption|apply gauss_charge; exact H].
Qed.

Lemma fermi_thm : forall Sk zn c a, fermi_series Sk -> 0 < c -> 0 < a ->
  potential_of (fun r => coulomb_potential_fermi Sk r zn c a) (fun r => charge_density_fermi Sk r zn c a) zn (fun _ => False) /\
  total_charge (fun r => charge_density_fermi Sk r zn c a) zn.
Proof.
  intros Sk zn c a HS Hc Ha. split; [apply fermi_potential; assumption|apply fermi_charge; assumption].
Qed.

Lemma bubble_thm : forall Sk zn c a k, fermi_series Sk -> 0 < c -> 0 < a -> fermi_bubble_model_norm_factor Sk c a k <> 0 ->
  potential_of (fun r => coulomb_potential_fermi_bubble Sk r zn c a k) (fun r => charge_density_fermi_bubble Sk r zn c a k) zn (fun _ => False) /\
  total_charge (fun r => charge_density_fermi_bubble Sk r zn c a k) zn.
Proof.
  intros Sk zn c a k HS Hc Ha HN. split; [apply bubble_potential; assumption|apply bubble_charge; assumption].
Qed.

Lemma bubble_norm_thm : forall Sk c a k, fermi_series Sk -> 0 < c -> 0 < a -> 0 <= k -> 0 < fermi_bubble_model_norm_factor Sk c a k.
Proof. intros. apply NB_pos; assumption. Qed.

(** the code cannot return another potential *)
Lemma unique_thm : forall V1 V2 rho zn r0, potential_of V1 rho zn (fun r => r = r0) -> potential_of V2 rho zn (fun r => r = r0) ->
  forall r, 0 < r -> V1 r = V2 r.
Proof. exact potential_unique. Qed.

(** C57 *)
Lemma ball_rms_thm : forall zn R_rms, zn <> 0 -> 0 < R_rms -> mean_square_radius (fun r => charge_density_ball r zn R_rms) zn (R_rms ^ 2).
Proof. intros. apply ball_rms; assumption. Qed.

Lemma gauss_rms_thm : forall zn R_rms, zn <> 0 -> 0 < R_rms -> mean_square_radius (fun r => charge_density_gaussian r zn R_rms) zn (R_rms ^ 2).
Proof. intros. apply gauss_rms; assumption. Qed.

Lemma fermi_rms_thm : forall Sk (zn : Z) c a, fermi_series Sk -> zn <> 0%Z -> 0 < c -> 0 < a ->
  mean_square_radius (fun r => charge_density_fermi Sk r (IZR zn) c a) (IZR zn) (rms_radius_fermi Sk zn c a ^ 2) /\ 0 < rms_radius_fermi Sk zn c a.
Proof.
  intros Sk zn c a HS Hz Hc Ha. destruct (fermi_rms Sk HS zn c a Hz Hc Ha) as (v & _ & Hv & M & ->). split; [|apply sqrt_lt_R0; exact Hv].
  rewrite <- Rsqr_pow2, Rsqr_sqrt by lra. exact M.
Qed.

Lemma bubble_rms_thm : forall Sk (zn : Z) c a k, fermi_series Sk -> zn <> 0%Z -> 0 < c -> 0 < a -> fermi_bubble_model_norm_factor Sk c a k <> 0 ->
  exists v, mean_square_radius (fun r => charge_density_fermi_bubble Sk r (IZR zn) c a k) (IZR zn) v /\ rms_radius_fermi_bubble Sk zn c a k = sqrt v.
Proof. intros. apply bubble_rms; assumption. Qed.

(** the Fermi parameters estimated from a radius reproduce it up to a term exponentially small in c/a *)
Lemma estimate_thm : forall Sk (zn : Z) R_rms c a, fermi_series Sk -> zn <> 0%Z ->
  estimate_fermi_model_parameters R_rms = Some (c, a) -> 0 < c ->
  Rabs (rms_radius_fermi Sk zn c a ^ 2 - R_rms ^ 2) <= 3 / 5 * c ^ 2 * (12 * (a / c) ^ 3 * (1 + 7 / 3 * PI ^ 2 * (a / c) ^ 2) + 240 * (a / c) ^ 5) * exp (- c / a).
Proof.
  intros Sk zn R_rms c a HS Hz E Hc. unfold estimate_fermi_model_parameters in E. cbv zeta in E.
  pose proof (IZR_nz zn Hz) as Hn. pose proof PI_RGT_0 as HP.
  destruct (Rlt_dec _ 0) as [|Hge]; [discriminate|]. injection E as Ec Ea.
  assert (Ha : 0 < a).
  { rewrite <- Ea. apply Rdiv_lt_0_compat; [lra|]. assert (0 < ln 3) by (rewrite <- ln_1; apply ln_increasing; lra). lra. }
  rewrite Ea in Ec, Hge.
  assert (Ec2 : R_rms ^ 2 = 3 / 5 * c ^ 2 * (1 + 7 / 3 * PI ^ 2 * (a / c) ^ 2)).
  { assert (c * c = 5 / 3 * R_rms * R_rms - 7 / 3 * PI * PI * a * a) by (rewrite <- Ec; apply sqrt_sqrt; lra).
    transitivity (3 / 5 * (c * c + 7 / 3 * PI * PI * a * a)); [rewrite H; field|field; lra]. }
  pose proof (NF_pos Sk HS c a Hc Ha) as HN.
  assert (Hx : - c / a <= 0) by (apply neg_le; lra).
  assert (E3 : Sk 3%Z (- c / a) = Sx 3 (- c / a)) by (apply (Sk_Sx Sk HS 3); [lia|exact Hx]).
  assert (E5 : Sk 5%Z (- c / a) = Sx 5 (- c / a)) by (apply (Sk_Sx Sk HS 5); [lia|exact Hx]).
  pose proof (Sx_decay 3 _ Hx) as B3. pose proof (Sx_decay 5 _ Hx) as B5. pose proof (Sx_neg 2 (- c / a)) as N3. pose proof (Sx_neg 4 (- c / a)) as N5.
  pose proof (fermi_r4 Sk HS c a Hc Ha) as R4.
  destruct (fermi_rms Sk HS zn c a Hz Hc Ha) as (v & Ev & Hv & _ & Er). rewrite <- R4 in Ev. clear R4.
  assert (Er2 : rms_radius_fermi Sk zn c a ^ 2 = v) by (rewrite Er, <- Rsqr_pow2, Rsqr_sqrt by lra; reflexivity). rewrite Er2, Ec2.
  assert (EN : fermi_model_norm_factor Sk c a = 1 + PI ^ 2 * (a / c) ^ 2 - 6 * (a / c) ^ 3 * Sx 3 (- c / a)).
  { unfold fermi_model_norm_factor. cbv zeta. rewrite E3. field. lra. }
  rewrite E5 in Ev. set (N := fermi_model_norm_factor Sk c a) in *. set (s3 := Sx 3 (- c / a)) in *. set (s5 := Sx 5 (- c / a)) in *. set (e := exp (- c / a)) in *.
  set (t := a / c) in *. set (p := 1 + 7 / 3 * PI ^ 2 * t ^ 2).
  assert (Ht : 0 < t) by (apply Rdiv_lt_0_compat; assumption).
  assert (Hp : 1 <= p) by (unfold p; pose proof (pow_lt t 2 Ht); pose proof (pow_lt PI 2 HP); nra).
  pose proof (pow_lt t 3 Ht) as T3. pose proof (pow_lt t 5 Ht) as T5. pose proof (pow_lt c 2 Hc) as C2.
  assert (HN1 : 1 <= N) by (rewrite EN; pose proof (pow_lt t 2 Ht); pose proof (pow_lt PI 2 HP); nra).
  assert (D : v - 3 / 5 * c ^ 2 * p = 3 / 5 * c ^ 2 * (6 * t ^ 3 * p * s3 - 120 * t ^ 5 * s5) / N).
  { assert (V : v = 3 / 5 * c ^ 2 / N * ((1 + PI ^ 2 * t ^ 2) * p - 120 * t ^ 5 * s5)) by (rewrite Ev; unfold p, t; field; lra).
    replace (1 + PI ^ 2 * t ^ 2) with (N + 6 * t ^ 3 * s3) in V by (rewrite EN; ring). rewrite V. field. lra. }
  rewrite D. assert (K : Rabs (6 * t ^ 3 * p * s3 - 120 * t ^ 5 * s5) <= (12 * t ^ 3 * p + 240 * t ^ 5) * e).
  { apply Rabs_le. apply Rabs_le_between in B3. apply Rabs_le_between in B5.
    assert (0 < 6 * t ^ 3 * p) by (apply Rmult_lt_0_compat; lra). assert (0 < 120 * t ^ 5) by lra. clear - B3 B5 H H0. split; nra. }
  unfold Rdiv. rewrite Rabs_mult, (Rabs_mult (3 * / 5 * c ^ 2)), (Rabs_pos_eq (3 * / 5 * c ^ 2)), (Rabs_pos_eq (/ N)) by (lra || (left; apply Rinv_0_lt_compat; lra)).
  assert (HI : / N <= 1) by (rewrite <- Rinv_1; apply Rinv_le_contravar; lra). assert (0 <= / N) by (left; apply Rinv_0_lt_compat; lra).
  pose proof (Rabs_pos (6 * t ^ 3 * p * s3 - 120 * t ^ 5 * s5)) as K0. set (q := Rabs (6 * t ^ 3 * p * s3 - 120 * t ^ 5 * s5)) in *. clearbody q.
  rewrite (Rmult_assoc (3 * / 5 * c ^ 2) (_ + _) e), Rmult_assoc. apply Rmult_le_compat_l; [lra|]. apply Rle_trans with (q * 1); [apply Rmult_le_compat_l; lra|]. lra.
Qed.

Lemma estimate_fails_thm : forall R_rms, 0 <= R_rms ->
  (estimate_fermi_model_parameters R_rms = None <-> R_rms < sqrt (7 / 5) * PI * (2.3 / (4 * ln 3))).
Proof.
  intros R_rms H. unfold estimate_fermi_model_parameters. cbv zeta. pose proof PI_RGT_0 as HP.
  assert (Hl : 0 < 2.3 / (4 * ln 3)).
  { apply Rdiv_lt_0_compat; [lra|]. assert (0 < ln 3) by (rewrite <- ln_1; apply ln_increasing; lra). lra. }
  set (a := 2.3 / (4 * ln 3)) in *. clearbody a.
  assert (HB : 0 < sqrt (7 / 5) * PI * a) by (apply Rmult_lt_0_compat; [apply Rmult_lt_0_compat; [apply sqrt_lt_R0; lra|exact HP]|exact Hl]).
  assert (E : (sqrt (7 / 5) * PI * a) ^ 2 = 7 / 5 * PI ^ 2 * a ^ 2) by (rewrite !Rpow_mult_distr, <- (Rsqr_pow2 (sqrt (7 / 5))), Rsqr_sqrt by lra; reflexivity).
  set (b := sqrt (7 / 5) * PI * a) in *. clearbody b.
  assert (Q : 5 / 3 * R_rms * R_rms - 7 / 3 * PI * PI * a * a = 5 / 3 * (R_rms * R_rms - b ^ 2)) by (rewrite E; field). rewrite Q.
  destruct (Rlt_dec _ 0) as [L|L]; split; intros X; try reflexivity; try discriminate.
  - apply Rnot_le_lt. intros C. assert (b * b <= R_rms * R_rms) by (apply Rmult_le_compat; lra). lra.
  - exfalso. apply L. assert (R_rms * R_rms < b * b) by (apply Rmult_le_0_lt_compat; lra). lra.
Qed.
