(** * A semilocal radial integral whose value does not follow the tolerance (C15) *)

From Coq Require Import ZArith Reals Lra Lia List Bool.
From Coquelicot Require Import Coquelicot.
From Verif Require Import Base Loops Sums BinomModel HeapModel OneElModel OneElProofs OneElInt ParamsModel FermiSk RadialModel RadialSpec RadialProofs RadialTables RadialThms.
Import ListNotations.
Open Scope R_scope.

Lemma exp_lower x k : (0 < k)%nat -> 0 <= x -> (1 + x / INR k) ^ k <= exp x.
Proof.
  intros Hk Hx. assert (0 < INR k) by (apply lt_0_INR; exact Hk).
  replace (exp x) with (exp (INR k * (x / INR k))) by (f_equal; field; lra). rewrite exp_nat. apply pow_incr.
  assert (0 <= x / INR k) by (apply Rmult_le_pos; [lra|left; apply Rinv_0_lt_compat; lra]). split; [lra|].
  destruct (Req_dec (x / INR k) 0) as [-> | Hne]; [rewrite exp_0; lra|]. left. apply exp_ineq1. exact Hne.
Qed.

Lemma exp_neg_lower x k : (0 < k)%nat -> 0 <= x < INR k -> (1 - x / INR k) ^ k <= exp (- x).
Proof.
  intros Hk Hx. assert (0 < INR k) by (apply lt_0_INR; exact Hk).
  replace (exp (- x)) with (exp (INR k * - (x / INR k))) by (f_equal; field; lra). rewrite exp_nat. apply pow_incr.
  assert (x / INR k < 1) by (apply (Rmult_lt_reg_r (INR k)); [lra|]; unfold Rdiv; rewrite Rmult_assoc, Rinv_l by lra; lra). split; [lra|].
  destruct (Req_dec (- (x / INR k)) 0) as [E | Hne]; [rewrite E, exp_0; lra|]. pose proof (exp_ineq1 (- (x / INR k)) Hne). lra.
Qed.

(** ** The screening step fails *)
Lemma bessel_ratio_0 bessel x : bessel_01 bessel -> 1 <= x ->
  exists d, bessel_ratio bessel 0 x = Some ((x - 1 + d) / x) /\ 0 <= d <= 2 / (x + 2).
Proof.
  intros (_ & _ & H0 & H1) Hx. unfold bessel_ratio. cbn [Z.eqb]. rewrite H0, H1 by lra. set (E := exp (- 2 * x)).
  assert (HE : 0 < E <= / ((1 + x) * (1 + x))).
  { split; [apply exp_pos|]. unfold E. replace (- 2 * x) with (- (x + x)) by ring. rewrite exp_Ropp, exp_plus. apply Rinv_le_contravar; [nra|].
    pose proof (exp_ineq1 x ltac:(lra)). nra. }
  assert (HE1 : E * ((1 + x) * (1 + x)) <= 1).
  { destruct HE as [_ HE]. apply (Rmult_le_compat_r ((1 + x) * (1 + x))) in HE; [|nra]. rewrite Rinv_l in HE by nra. lra. }
  assert (HE2 : E < 1) by nra.
  exists (x * (2 * E) / (1 - E)). destruct (Req_EM_T _ 0) as [X|_].
  - exfalso. assert (0 < (1 - E) / (2 * x)) by (apply Rdiv_lt_0_compat; lra). lra.
  - split; [f_equal; field; lra|]. split; [apply Rmult_le_pos; [nra|left; apply Rinv_0_lt_compat; lra]|].
    apply (Rmult_le_reg_r ((1 - E) * (x + 2))); [nra|]. replace (x * (2 * E) / (1 - E) * ((1 - E) * (x + 2))) with (x * (2 * E) * (x + 2)) by (field; lra).
    replace (2 / (x + 2) * ((1 - E) * (x + 2))) with (2 * (1 - E)) by (field; lra). nra.
Qed.

Lemma sqrt_between a b x : 0 <= a -> a * a <= x -> x <= b * b -> 0 <= b -> a <= sqrt x <= b.
Proof.
  intros Ha H1 H2 Hb. split.
  - rewrite <- (sqrt_square a Ha). apply sqrt_le_1_alt. exact H1.
  - rewrite <- (sqrt_square b Hb). apply sqrt_le_1_alt. exact H2.
Qed.

Lemma w_eqn bessel r : bessel_01 bessel -> 96 <= r <= 97 ->
  exists y, screening_type2_equation_for_maximum bessel r 6 0 0 (1 / 10) (192 / 10) 0 = Some (sqrt y) /\ 96 * r + 25 <= y <= 96 * r + 25 + 6 / 1000.
Proof.
  intros HB Hr. unfold screening_type2_equation_for_maximum. destruct (bessel_ratio_0 bessel (192 / 10 * r) HB ltac:(lra)) as (d & -> & Hd).
  assert (E0 : bessel_ratio bessel 0 (0 * r) = Some 0).
  { destruct HB as (B0 & B1 & _). unfold bessel_ratio. cbn [Z.eqb]. rewrite Rmult_0_l, B0, B1. destruct (Req_EM_T 1 0); [lra|]. f_equal. field. }
  rewrite E0. cbn [Z.gtb Z.compare].
  assert (D2 : 2 / (192 / 10 * r + 2) <= 1 / 900).
  { apply (Rmult_le_reg_r (192 / 10 * r + 2)); [lra|]. unfold Rdiv at 1. rewrite Rmult_assoc, Rinv_l by lra. lra. }
  set (x := 192 / 10 * r) in *. assert (X : (x - 1 + d) / x * x + 0 * (0 * r) + 6 = x + 5 + d) by (field; unfold x; lra). rewrite X.
  destruct (Rlt_dec _ 0) as [N|_]; [exfalso; unfold x in N; lra|]. eexists. split; [reflexivity|]. unfold x. lra.
Qed.

Lemma w_screen bessel erf : bessel_01 bessel ->
  screening_radial_type2 bessel erf 10000 0 (shrink_norm 2 w_bra) (shrink_norm 2 w_ket) (shrink_pot w_pot) 0 0 4 = Ok None.
Proof.
  intros HB. assert (M1 : forall (A : Type) (u v : A), (if Rlt_dec (1 / 10 ^ 14) (Rabs 1) then u else v) = u).
  { intros A u v. destruct (Rlt_dec _ _) as [|N]; [reflexivity|]. exfalso. apply N. rewrite Rabs_R1. cbn [pow]. lra. }
  unfold screening_radial_type2, shrink_norm, shrink_pot, w_bra, w_ket, w_pot. cbn [filter]. rewrite M1. clear M1. cbn [map list_prod app screening_loop].
  replace (sqrt 10000) with 100 by (replace 10000 with (100 * 100) by ring; symmetry; apply sqrt_square; lra). rewrite sqrt_0.
  unfold screening_radial_type2_integral_primitive. cbn [Z.geb Z.compare andb Z.eqb].
  replace (2 * (96 / 1000) * 100) with (192 / 10) by field. replace (2 * (2 / 1000) * 0) with 0 by ring.
  destruct (Rle_dec (Rabs (192 / 10)) (1 / 10 ^ 14)) as [N|_]; [exfalso; rewrite Rabs_pos_eq in N by lra; cbn [pow] in N; lra|]. cbn [andb].
  replace (sqrt 10000) with 100 by (replace 10000 with (100 * 100) by ring; symmetry; apply sqrt_square; lra). rewrite sqrt_0.
  replace ((96 / 1000 * 100 + 2 / 1000 * 0) / (96 / 1000 + 2 / 1000 + 2 / 1000)) with 96 by field.
  replace (96 / 1000 + 2 / 1000 + 2 / 1000) with (1 / 10) by field. change (4 + 2)%Z with 6%Z. cbn [find_maximum].
  destruct (w_eqn bessel 96 HB ltac:(lra)) as (y1 & -> & Y1). destruct (sqrt_between (961 / 10 + 29 / 1000) (961 / 10 + 31 / 1000) y1 ltac:(lra) ltac:(lra) ltac:(lra) ltac:(lra)) as [S1 S1'].
  destruct (Rlt_dec _ _) as [_|N]; [|exfalso; apply N; rewrite Rabs_pos_eq; lra].
  destruct (w_eqn bessel (sqrt y1) HB ltac:(lra)) as (y2 & -> & Y2). destruct (sqrt_between (96193 / 1000) (96197 / 1000) y2 ltac:(lra) ltac:(lra) ltac:(lra) ltac:(lra)) as [S2 S2'].
  destruct (Rlt_dec _ _) as [_|N]; [|exfalso; apply N; rewrite Rabs_pos_eq; lra].
  destruct (w_eqn bessel (sqrt y2) HB ltac:(lra)) as (y3 & -> & Y3). destruct (sqrt_between (96225 / 1000) (96229 / 1000) y3 ltac:(lra) ltac:(lra) ltac:(lra) ltac:(lra)) as [S3 S3'].
  destruct (Rlt_dec _ _) as [_|N]; [|exfalso; apply N; rewrite Rabs_pos_eq; lra].
  destruct (w_eqn bessel (sqrt y3) HB ltac:(lra)) as (y4 & -> & Y4). destruct (sqrt_between (962405 / 10000) (96245 / 1000) y4 ltac:(lra) ltac:(lra) ltac:(lra) ltac:(lra)) as [S4 S4'].
  destruct (Rlt_dec _ _) as [_|N]; [|exfalso; apply N; rewrite Rabs_pos_eq; lra].
  reflexivity.
Qed.

(** ** Bounds on the quadrature sums *)
Lemma zsum_le lo hi f g : (forall i, (lo <= i < hi)%Z -> f i <= g i) -> zsum lo hi f <= zsum lo hi g.
Proof.
  revert lo. refine (zsum_ind (fun lo => (forall i, (lo <= i < hi)%Z -> f i <= g i) -> zsum lo hi f <= zsum lo hi g) hi _ _).
  - intros lo H _. rewrite !zsum_nil by exact H. lra.
  - intros lo H IH A. rewrite !(zsum_first lo) by exact H. apply Rplus_le_compat; [apply A; lia|]. apply IH. intros i Hi. apply A. lia.
Qed.

Lemma zsum_const lo hi c : (lo <= hi)%Z -> zsum lo hi (fun _ => c) = IZR (hi - lo) * c.
Proof.
  revert lo. refine (zsum_ind (fun lo => (lo <= hi)%Z -> zsum lo hi (fun _ => c) = IZR (hi - lo) * c) hi _ _).
  - intros lo H H'. rewrite zsum_nil by exact H. replace (hi - lo)%Z with 0%Z by lia. ring.
  - intros lo H IH _. rewrite zsum_first by exact H. rewrite IH by lia. replace (hi - lo)%Z with (1 + (hi - (lo + 1)))%Z by lia. rewrite plus_IZR. ring.
Qed.

Lemma cube_lt x : 0 < x < 1 -> 0 < x ^ 3 < 1.
Proof. intros H. cbn [pow]. split; [repeat apply Rmult_lt_0_compat; lra|nra]. Qed.

Section Sums.
Variable bessel : Z -> R -> R.
Hypothesis HB : bessel_01 bessel.
Let NN := gaussian_norm_factor 2 0 0 (96 / 1000) * gaussian_norm_factor 2 0 0 (2 / 1000).
Let g := type2_integrand bessel w_pot 2 w_bra 100 2 w_ket 0 0 0 4.

Lemma NN_pos : 0 < NN.
Proof. unfold NN, gaussian_norm_factor, Rpower. apply Rmult_lt_0_compat; apply Rmult_lt_0_compat; apply exp_pos. Qed.

Lemma g_eq r : g r = NN * (exp (- (4 / 1000) * (r * r)) * exp (- (96 / 1000) * ((r - 100) * (r - 100))) * bessel 0%Z (192 / 10 * r) * r ^ 4).
Proof.
  assert (M1 : matters 1 = true). { unfold matters. destruct (Rlt_dec _ _) as [|N]; [reflexivity|]. exfalso. apply N. rewrite Rabs_R1. cbn [pow]. lra. }
  unfold g, type2_integrand, rpp, radial_function, w_pot, w_bra, w_ket, lsum. cbn [fold_right]. rewrite M1.
  replace (2 * (2 / 1000) * 0 * r) with 0 by ring. destruct HB as (-> & _). change (2 - 2)%Z with 0%Z. cbn [powerRZ]. change (Z.to_nat 4) with 4%nat.
  replace (2 * (96 / 1000) * 100 * r) with (192 / 10 * r) by field. replace (- (4 / 1000) * (r * r)) with (- (2 / 1000) * (r * r) + - (2 / 1000) * ((r - 0) * (r - 0))) by field.
  rewrite exp_plus. unfold NN. ring.
Qed.

Lemma K0_bounds x : 0 < x -> 0 < bessel 0%Z x <= 1.
Proof.
  intros Hx. destruct HB as (_ & _ & -> & _); [|exact Hx]. pose proof (exp_pos (- 2 * x)). pose proof (exp_ineq1 (- 2 * x) ltac:(lra)).
  assert (exp (- 2 * x) < 1) by (rewrite <- exp_0; apply exp_increasing; lra). split; [apply Rdiv_lt_0_compat; lra|].
  apply (Rmult_le_reg_r (2 * x)); [lra|]. unfold Rdiv. rewrite Rmult_assoc, Rinv_l by lra. lra.
Qed.

Lemma K0_lower x : 1 <= x -> 1 / (4 * x) <= bessel 0%Z x.
Proof.
  intros Hx. destruct HB as (_ & _ & -> & _); [|lra].
  assert (exp (- 2 * x) <= 1 / 2).
  { replace (- 2 * x) with (- (2 * x)) by ring. rewrite exp_Ropp. apply Rle_trans with (/ 2); [|lra]. apply Rinv_le_contravar; [lra|]. pose proof (exp_ineq1 (2 * x) ltac:(lra)). lra. }
  replace (1 / (4 * x)) with (/ 2 / (2 * x)) by (field; lra). apply Rmult_le_compat_r; [left; apply Rinv_0_lt_compat; lra|lra].
Qed.

Lemma g_pos r : 0 < r -> 0 < g r.
Proof.
  intros Hr. rewrite g_eq. apply Rmult_lt_0_compat; [apply NN_pos|]. apply Rmult_lt_0_compat; [|apply pow_lt; exact Hr]. apply Rmult_lt_0_compat; [apply Rmult_lt_0_compat; apply exp_pos|apply K0_bounds; lra].
Qed.

Lemma exp_le x y : x <= y -> exp x <= exp y.
Proof. intros [H|H]; [left; apply exp_increasing, H|rewrite H; lra]. Qed.

Lemma g_upper r rho : 0 < r <= rho -> rho <= 100 -> g r <= NN * (exp (- (96 / 1000) * ((100 - rho) * (100 - rho))) * rho ^ 4).
Proof.
  intros Hr Hrho. rewrite g_eq. apply Rmult_le_compat_l; [left; apply NN_pos|].
  replace (exp (- (96 / 1000) * ((100 - rho) * (100 - rho))) * rho ^ 4) with (1 * exp (- (96 / 1000) * ((100 - rho) * (100 - rho))) * 1 * rho ^ 4) by ring.
  destruct (K0_bounds (192 / 10 * r) ltac:(lra)) as [K1 K2].
  assert (0 < exp (- (4 / 1000) * (r * r)) <= 1) by (split; [apply exp_pos|rewrite <- exp_0; apply exp_le; nra]).
  pose proof (exp_pos (- (96 / 1000) * ((r - 100) * (r - 100)))).
  assert (exp (- (96 / 1000) * ((r - 100) * (r - 100))) <= exp (- (96 / 1000) * ((100 - rho) * (100 - rho)))) by (apply exp_le; nra).
  assert (0 < r ^ 4) by (apply pow_lt; lra). assert (r ^ 4 <= rho ^ 4) by (apply pow_incr; lra).
  apply Rmult_le_compat; [|lra| |assumption].
  - repeat apply Rmult_le_pos; lra.
  - apply Rmult_le_compat; [apply Rmult_le_pos; lra|lra| |lra]. apply Rmult_le_compat; lra.
Qed.

Lemma g_lower r a b : 1 <= a -> a <= r <= b -> b <= 100 -> NN * (exp (- (4 / 1000) * (b * b)) * exp (- (96 / 1000) * ((100 - a) * (100 - a))) * (1 / (4 * (192 / 10 * b))) * a ^ 4) <= g r.
Proof.
  intros Ha Hr Hb. rewrite g_eq. apply Rmult_le_compat_l; [left; apply NN_pos|].
  pose proof (K0_lower (192 / 10 * r) ltac:(lra)) as K.
  assert (K' : 1 / (4 * (192 / 10 * b)) <= 1 / (4 * (192 / 10 * r))) by (unfold Rdiv; rewrite !Rmult_1_l; apply Rinv_le_contravar; lra).
  assert (0 < 1 / (4 * (192 / 10 * b))) by (apply Rdiv_lt_0_compat; lra).
  pose proof (exp_pos (- (4 / 1000) * (b * b))). pose proof (exp_pos (- (96 / 1000) * ((100 - a) * (100 - a)))).
  assert (exp (- (4 / 1000) * (b * b)) <= exp (- (4 / 1000) * (r * r))) by (apply exp_le; nra).
  assert (exp (- (96 / 1000) * ((100 - a) * (100 - a))) <= exp (- (96 / 1000) * ((r - 100) * (r - 100)))) by (apply exp_le; nra).
  assert (0 < a ^ 4) by (apply pow_lt; lra). assert (a ^ 4 <= r ^ 4) by (apply pow_incr; lra).
  apply Rmult_le_compat; [|lra| |assumption].
  - repeat apply Rmult_le_pos; lra.
  - apply Rmult_le_compat; [apply Rmult_le_pos; lra|lra| |lra]. apply Rmult_le_compat; lra.
Qed.

(** 1 - xi^3 at the last point *)
Let u (n : Z) : R := 1 - (IZR n / IZR (n + 1)) ^ 3.

Lemma u_bounds n : (31 <= n)%Z -> 29 / 10 / IZR (n + 1) <= u n <= 3 / IZR (n + 1).
Proof.
  intros Hn. assert (H : 32 <= IZR (n + 1)) by (apply IZR_le; lia). set (m := IZR (n + 1)) in *. assert (E : IZR n = m - 1) by (unfold m; rewrite plus_IZR; ring).
  unfold u. rewrite E. fold m. set (h := / m). assert (Hh : 0 < h <= 1 / 32) by (unfold h; split; [apply Rinv_0_lt_compat; lra|replace (1 / 32) with (/ 32) by field; apply Rinv_le_contravar; lra]).
  replace ((m - 1) / m) with (1 - h) by (unfold h; field; lra). unfold Rdiv. fold h. cbn [pow]. split; nra.
Qed.

Lemma u_mono n i : (1 <= i <= n)%Z -> u n <= 1 - (IZR i / IZR (n + 1)) ^ 3.
Proof.
  intros H. unfold u. assert (0 < IZR i) by (apply IZR_lt; lia). assert (IZR i <= IZR n) by (apply IZR_le; lia). assert (0 < IZR (n + 1)) by (apply IZR_lt; lia).
  assert ((IZR i / IZR (n + 1)) ^ 3 <= (IZR n / IZR (n + 1)) ^ 3); [|lra]. apply pow_incr. split; [left; apply Rdiv_lt_0_compat; lra|].
  apply Rmult_le_compat_r; [left; apply Rinv_0_lt_compat; lra|lra].
Qed.

Lemma radius_le xi rho : 0 < xi < 1 -> exp (- (rho / 5)) <= 1 - xi ^ 3 -> radius xi <= rho.
Proof.
  intros Hx H. unfold radius. apply ln_le in H; [|apply exp_pos]. rewrite ln_exp in H. lra.
Qed.
Lemma radius_ge xi a : 0 < xi < 1 -> 0 < 1 - xi ^ 3 <= exp (- (a / 5)) -> a <= radius xi.
Proof.
  intros Hx [H0 H]. unfold radius. apply ln_le in H; [|exact H0]. rewrite ln_exp in H. lra.
Qed.

Lemma Q_upper n rho : (31 <= n)%Z -> exp (- (rho / 5)) <= u n -> rho <= 100 ->
  quadrature g n <= NN * (exp (- (96 / 1000) * ((100 - rho) * (100 - rho))) * rho ^ 6 * (15 / u n)).
Proof.
  intros Hn Hu Hrho. assert (Hm : 0 < IZR (n + 1)) by (apply IZR_lt; lia). pose proof (u_bounds n Hn) as [U1 U2].
  assert (Up : 0 < u n) by (apply Rlt_le_trans with (29 / 10 / IZR (n + 1)); [apply Rdiv_lt_0_compat; lra|exact U1]).
  set (M := NN * (exp (- (96 / 1000) * ((100 - rho) * (100 - rho))) * rho ^ 6 * (15 / u n))).
  unfold quadrature. apply (Rmult_le_reg_r (IZR (n + 1))); [exact Hm|]. unfold Rdiv at 1. rewrite Rmult_assoc, Rinv_l by lra. rewrite Rmult_1_r.
  assert (P : forall i, (1 <= i < n + 1)%Z -> g (radius (IZR i / IZR (n + 1))) * radius (IZR i / IZR (n + 1)) ^ 2 * radius' (IZR i / IZR (n + 1)) <= M).
  { intros i Hi. pose proof (xi_range i n ltac:(lia)) as X. pose proof (u_mono n i ltac:(lia)) as UM. set (xi := IZR i / IZR (n + 1)) in *.
    destruct (radius_derive_thm xi X) as [_ Rp]. assert (Rr : radius xi <= rho) by (apply radius_le; [exact X|lra]).
    pose proof (g_upper (radius xi) rho ltac:(lra) Hrho) as G. pose proof (g_pos (radius xi) Rp) as Gp.
    assert (R2 : 0 < radius xi ^ 2 <= rho ^ 2) by (split; [apply pow_lt; lra|apply pow_incr; lra]).
    assert (R' : 0 < radius' xi <= 15 / u n).
    { unfold radius'. assert (0 < xi ^ 2 <= 1) by (cbn [pow]; nra). split; [apply Rdiv_lt_0_compat; lra|]. apply Rmult_le_compat; [lra|left; apply Rinv_0_lt_compat; lra|lra|apply Rinv_le_contravar; lra]. }
    unfold M. replace (NN * (exp (- (96 / 1000) * ((100 - rho) * (100 - rho))) * rho ^ 6 * (15 / u n))) with (NN * (exp (- (96 / 1000) * ((100 - rho) * (100 - rho))) * rho ^ 4) * rho ^ 2 * (15 / u n)) by ring.
    apply Rmult_le_compat; [apply Rmult_le_pos; lra|lra| |lra]. apply Rmult_le_compat; lra. }
  assert (Mp : 0 <= M).
  { apply Rle_trans with (g (radius (IZR 1 / IZR (n + 1))) * radius (IZR 1 / IZR (n + 1)) ^ 2 * radius' (IZR 1 / IZR (n + 1))); [|apply P; lia].
    pose proof (xi_range 1 n ltac:(lia)) as X. set (xi := IZR 1 / IZR (n + 1)) in *. destruct (radius_derive_thm xi X) as [_ Rp]. pose proof (g_pos (radius xi) Rp).
    assert (0 < xi ^ 3 < 1) by (apply cube_lt; assumption).
    apply Rmult_le_pos; [apply Rmult_le_pos; [lra|apply pow_le; lra]|]. unfold radius'. apply Rmult_le_pos; [apply Rmult_le_pos; [lra|apply pow_le; lra]|left; apply Rinv_0_lt_compat; lra]. }
  apply Rle_trans with (zsum 1 (n + 1) (fun _ => M)); [apply zsum_le; exact P|]. rewrite zsum_const by lia. replace (n + 1 - 1)%Z with n by lia.
  assert (0 <= IZR n <= IZR (n + 1)) by (split; apply IZR_le; lia). nra.
Qed.

Lemma Q_lower n a b : (31 <= n)%Z -> 1 <= a -> b <= 100 -> u n <= exp (- (a / 5)) -> exp (- (b / 5)) <= u n ->
  NN * (exp (- (4 / 1000) * (b * b)) * exp (- (96 / 1000) * ((100 - a) * (100 - a))) * (1 / (4 * (192 / 10 * b))) * a ^ 6 * 4) <= quadrature g n.
Proof.
  intros Hn Ha Hb Hua Hub. assert (Hm : 0 < IZR (n + 1)) by (apply IZR_lt; lia). pose proof (u_bounds n Hn) as [U1 U2].
  assert (Up : 0 < u n) by (apply Rlt_le_trans with (29 / 10 / IZR (n + 1)); [apply Rdiv_lt_0_compat; lra|exact U1]).
  unfold quadrature. rewrite zsum_last by lia. pose proof (xi_range n n ltac:(lia)) as X.
  assert (Pos : 0 <= zsum 1 n (fun i => let xi := IZR i / IZR (n + 1) in g (radius xi) * radius xi ^ 2 * radius' xi)).
  { apply Rle_trans with (zsum 1 n (fun _ => 0)); [rewrite zsum_const by lia; lra|]. apply zsum_le. intros i Hi. cbv zeta.
    pose proof (xi_range i n ltac:(lia)) as X'. set (xi := IZR i / IZR (n + 1)) in *. destruct (radius_derive_thm xi X') as [_ Rp]. pose proof (g_pos (radius xi) Rp).
    assert (0 < xi ^ 3 < 1) by (apply cube_lt; assumption).
    apply Rmult_le_pos; [apply Rmult_le_pos; [lra|apply pow_le; lra]|]. unfold radius'. apply Rmult_le_pos; [apply Rmult_le_pos; [lra|apply pow_le; lra]|left; apply Rinv_0_lt_compat; lra]. }
  cbv zeta in *. set (xi := IZR n / IZR (n + 1)) in *. assert (Eu : u n = 1 - xi ^ 3) by reflexivity.
  assert (Ra : a <= radius xi) by (apply radius_ge; [exact X|rewrite <- Eu; lra]). assert (Rb : radius xi <= b) by (apply radius_le; [exact X|rewrite <- Eu; lra]).
  pose proof (g_lower (radius xi) a b Ha ltac:(lra) Hb) as G.
  set (A := exp (- (4 / 1000) * (b * b)) * exp (- (96 / 1000) * ((100 - a) * (100 - a))) * (1 / (4 * (192 / 10 * b)))) in *.
  assert (Ap : 0 < A) by (unfold A; apply Rmult_lt_0_compat; [apply Rmult_lt_0_compat; apply exp_pos|apply Rdiv_lt_0_compat; lra]).
  assert (R2 : 0 < a ^ 2 <= radius xi ^ 2) by (split; [apply pow_lt; lra|apply pow_incr; lra]).
  assert (xi2 : 9 / 10 <= xi ^ 2).
  { assert (E : xi = 1 - / IZR (n + 1)) by (unfold xi; rewrite plus_IZR in *; field; lra). assert (/ IZR (n + 1) <= / 32) by (apply Rinv_le_contravar; [lra|apply IZR_le; lia]). cbn [pow]. assert (31 / 32 <= xi) by lra. nra. }
  assert (R' : 4 * IZR (n + 1) <= radius' xi).
  { unfold radius'. rewrite <- Eu. apply (Rmult_le_reg_r (u n)); [exact Up|]. replace (15 * xi ^ 2 / u n * u n) with (15 * xi ^ 2) by (field; lra).
    apply (Rmult_le_compat_r (IZR (n + 1))) in U2; [|lra]. unfold Rdiv in U2. rewrite (Rmult_assoc 3), Rinv_l in U2 by lra. replace (4 * IZR (n + 1) * u n) with (4 * (u n * IZR (n + 1))) by ring. lra. }
  pose proof NN_pos as NP. assert (A4 : 0 < a ^ 4) by (apply pow_lt; lra).
  assert (T : NN * (A * a ^ 4) * a ^ 2 * (4 * IZR (n + 1)) <= g (radius xi) * radius xi ^ 2 * radius' xi).
  { assert (0 <= NN * (A * a ^ 4)) by (apply Rmult_le_pos; [lra|apply Rmult_le_pos; lra]). apply Rmult_le_compat; [apply Rmult_le_pos; lra|lra| |exact R']. apply Rmult_le_compat; lra. }
  apply (Rmult_le_reg_r (IZR (n + 1))); [exact Hm|]. unfold Rdiv at 1. rewrite (Rmult_assoc _ (/ IZR (n + 1))), Rinv_l by lra. rewrite Rmult_1_r.
  replace (NN * (A * a ^ 6 * 4) * IZR (n + 1)) with (NN * (A * a ^ 4) * a ^ 2 * (4 * IZR (n + 1))) by ring. lra.
Qed.
End Sums.

(** ** The values on different grids *)
Lemma npow_Z p q k : (0 < q)%Z -> (IZR p / IZR q) ^ k = IZR (p ^ Z.of_nat k) / IZR (q ^ Z.of_nat k).
Proof.
  intros Hq. unfold Rdiv. rewrite Rpow_mult_distr, pow_inv, !pow_IZR. reflexivity.
Qed.


Lemma exp_num (p q : Z) (k : nat) (x c : R) (cp : Z) : (0 < k)%nat -> 0 <= x -> (0 < q)%Z -> 1 + x / INR k = IZR p / IZR q -> (cp * q ^ Z.of_nat k <= p ^ Z.of_nat k)%Z -> IZR cp <= exp x.
Proof.
  intros Hk Hx Hq E H. eapply Rle_trans; [|apply (exp_lower x k Hk Hx)]. rewrite E, npow_Z by exact Hq.
  assert (0 < IZR (q ^ Z.of_nat k)) by (apply IZR_lt, Z.pow_pos_nonneg; lia).
  apply (Rmult_le_reg_r (IZR (q ^ Z.of_nat k))); [assumption|]. unfold Rdiv. rewrite Rmult_assoc, Rinv_l by lra. rewrite Rmult_1_r, <- mult_IZR. apply IZR_le. exact H.
Qed.

Lemma exp_num_neg (p q : Z) (k : nat) (x : R) (cp cq : Z) : (0 < k)%nat -> 0 <= x < INR k -> (0 < q)%Z -> (0 < cq)%Z -> 1 - x / INR k = IZR p / IZR q ->
  (cp * q ^ Z.of_nat k <= cq * p ^ Z.of_nat k)%Z -> IZR cp / IZR cq <= exp (- x).
Proof.
  intros Hk Hx Hq Hc E H. eapply Rle_trans; [|apply (exp_neg_lower x k Hk Hx)]. rewrite E, npow_Z by exact Hq.
  assert (0 < IZR (q ^ Z.of_nat k)) by (apply IZR_lt, Z.pow_pos_nonneg; lia). assert (0 < IZR cq) by (apply IZR_lt; exact Hc).
  apply (Rmult_le_reg_r (IZR (q ^ Z.of_nat k) * IZR cq)); [apply Rmult_lt_0_compat; assumption|].
  replace (IZR cp / IZR cq * (IZR (q ^ Z.of_nat k) * IZR cq)) with (IZR cp * IZR (q ^ Z.of_nat k)) by (field; lra).
  replace (IZR (p ^ Z.of_nat k) / IZR (q ^ Z.of_nat k) * (IZR (q ^ Z.of_nat k) * IZR cq)) with (IZR cq * IZR (p ^ Z.of_nat k)) by (field; lra).
  rewrite <- !mult_IZR. apply IZR_le. exact H.
Qed.

Ltac num_side := rewrite INR_IZR_INZ; match goal with |- context [Z.of_nat ?k] => let z := eval vm_compute in (Z.of_nat k) in change (Z.of_nat k) with z end; field.

Lemma exp_15 : 1000000 <= exp 15.
Proof. apply (exp_num 11 10 150 15 0); [lia|lra|lia|num_side|vm_compute; discriminate]. Qed.
Lemma exp_26 : exp (- (13 / 5)) <= 2977 / 32768.
Proof.
  rewrite exp_Ropp. assert (H : 1101 <= exp (13 / 5) * 100).
  { assert (X : 1 + 13 / 5 / INR 20 = IZR 113 / IZR 100) by num_side. pose proof (exp_lower (13 / 5) 20 ltac:(lia) ltac:(lra)) as H. rewrite X in H. cbn [pow] in H. lra. }
  apply Rle_trans with (/ (1101 / 100)); [apply Rinv_le_contravar; lra|lra].
Qed.
Lemma exp_28 : 3 / 64 <= exp (- (14 / 5)).
Proof. apply (exp_num_neg 9 10 28 (14 / 5) 3 64); [lia|rewrite INR_IZR_INZ; cbn; lra|lia|lia|num_side|vm_compute; discriminate]. Qed.
Lemma exp_32 : exp (- (16 / 5)) <= 29 / 640.
Proof.
  rewrite exp_Ropp. assert (H : 23 <= exp (16 / 5)) by (apply (exp_num 1032 1000 100 (16 / 5) 0); [lia|lra|lia|num_side|vm_compute; discriminate]).
  apply Rle_trans with (/ 23); [apply Rinv_le_contravar; lra|lra].
Qed.
Lemma exp_35 : 3 / 128 <= exp (- (35 / 2 / 5)).
Proof. apply (exp_num_neg 9 10 35 (35 / 2 / 5) 3 128); [lia|rewrite INR_IZR_INZ; cbn; lra|lia|lia|num_side|vm_compute; discriminate]. Qed.
Lemma exp_82 : exp (- (41 / 5)) <= 29 / 10 / 8192.
Proof.
  rewrite exp_Ropp. assert (H : 2900 <= exp (41 / 5)) by (apply (exp_num 1041 1000 200 (41 / 5) 0); [lia|lra|lia|num_side|vm_compute; discriminate]).
  apply Rle_trans with (/ 2900); [apply Rinv_le_contravar; lra|lra].
Qed.

Section Values.
Variable bessel : Z -> R -> R.
Hypothesis HB : bessel_01 bessel.
Let g := type2_integrand bessel w_pot 2 w_bra 100 2 w_ket 0 0 0 4.
Let NN := gaussian_norm_factor 2 0 0 (96 / 1000) * gaussian_norm_factor 2 0 0 (2 / 1000).

Lemma Q31_63 : quadrature g 31 < quadrature g 63.
Proof.
  assert (E31 : 1 - (IZR 31 / IZR (31 + 1)) ^ 3 = 2977 / 32768) by (change (31 + 1)%Z with 32%Z; field).
  eapply Rle_lt_trans; [apply (Q_upper bessel HB 31 13 ltac:(lia))|eapply Rlt_le_trans; [|apply (Q_lower bessel HB 63 14 16 ltac:(lia))]].
  - rewrite E31. apply exp_26.
  - lra.
  - rewrite E31. fold NN. apply Rmult_lt_compat_l; [apply NN_pos|].
    replace (- (96 / 1000) * ((100 - 13) * (100 - 13))) with (- (96 / 1000) * ((100 - 14) * (100 - 14)) + (- (4 / 1000) * (16 * 16) + (- 15 + - (584 / 1000)))) by field.
    rewrite !exp_plus. replace (exp (- 15)) with (/ exp 15) by (rewrite <- exp_Ropp; f_equal; lra). set (A := exp (- (96 / 1000) * ((100 - 14) * (100 - 14)))). set (B := exp (- (4 / 1000) * (16 * 16))).
    assert (0 < A * B) by (apply Rmult_lt_0_compat; apply exp_pos).
    assert (C : 0 < / exp 15 * exp (- (584 / 1000)) <= 1 / 1000000).
    { pose proof (exp_pos 15). pose proof (exp_pos (- (584 / 1000))). assert (exp (- (584 / 1000)) <= 1) by (rewrite <- exp_0; apply exp_le; lra).
      assert (0 < / exp 15) by (apply Rinv_0_lt_compat; lra). assert (/ exp 15 <= / 1000000) by (apply Rinv_le_contravar; [lra|apply exp_15]). split; [apply Rmult_lt_0_compat; lra|]. nra. }
    set (c := / exp 15 * exp (- (584 / 1000))) in *.
    replace (A * (B * c) * 13 ^ 6 * (15 / (2977 / 32768))) with (A * B * (c * (13 ^ 6 * (15 / (2977 / 32768))))) by ring.
    replace (B * A * (1 / (4 * (192 / 10 * 16))) * 14 ^ 6 * 4) with (A * B * (1 / (4 * (192 / 10 * 16)) * 14 ^ 6 * 4)) by ring.
    apply Rmult_lt_compat_l; [assumption|]. apply Rle_lt_trans with (1 / 1000000 * (13 ^ 6 * (15 / (2977 / 32768)))); [apply Rmult_le_compat_r; lra|]. lra.
  - lra.
  - lra.
  - destruct (u_bounds 63 ltac:(lia)) as [_ U]. apply Rle_trans with (3 / 64); [exact U|apply exp_28].
  - destruct (u_bounds 63 ltac:(lia)) as [U _]. apply Rle_trans with (29 / 640); [apply exp_32|]. eapply Rle_trans; [|exact U]. change (63 + 1)%Z with 64%Z. lra.
Qed.

Lemma Q63_more n : (127 <= n <= 8191)%Z -> quadrature g 63 < quadrature g n.
Proof.
  intros Hn. assert (H1 : 128 <= IZR (n + 1) <= 8192) by (split; apply IZR_le; lia).
  assert (U63 : 29 / 640 <= 1 - (IZR 63 / IZR (63 + 1)) ^ 3) by (destruct (u_bounds 63 ltac:(lia)) as [U _]; eapply Rle_trans; [|exact U]; change (63 + 1)%Z with 64%Z; lra).
  eapply Rle_lt_trans; [apply (Q_upper bessel HB 63 16 ltac:(lia))|eapply Rlt_le_trans; [|apply (Q_lower bessel HB n (35 / 2) 41 ltac:(lia))]].
  - apply Rle_trans with (29 / 640); [apply exp_32|exact U63].
  - lra.
  - set (u63 := 1 - (IZR 63 / IZR (63 + 1)) ^ 3) in *. fold NN. apply Rmult_lt_compat_l; [apply NN_pos|].
    replace (- (96 / 1000) * ((100 - 16) * (100 - 16))) with (- (96 / 1000) * ((100 - 35 / 2) * (100 - 35 / 2)) + (- (4 / 1000) * (41 * 41) + (- 15 + - (2252 / 1000)))) by field.
    rewrite !exp_plus. replace (exp (- 15)) with (/ exp 15) by (rewrite <- exp_Ropp; f_equal; lra). set (A := exp (- (96 / 1000) * ((100 - 35 / 2) * (100 - 35 / 2)))). set (B := exp (- (4 / 1000) * (41 * 41))).
    assert (0 < A * B) by (apply Rmult_lt_0_compat; apply exp_pos).
    assert (C : 0 < / exp 15 * exp (- (2252 / 1000)) <= 1 / 1000000).
    { pose proof (exp_pos 15). pose proof (exp_pos (- (2252 / 1000))). assert (exp (- (2252 / 1000)) <= 1) by (rewrite <- exp_0; apply exp_le; lra).
      assert (0 < / exp 15) by (apply Rinv_0_lt_compat; lra). assert (/ exp 15 <= / 1000000) by (apply Rinv_le_contravar; [lra|apply exp_15]). split; [apply Rmult_lt_0_compat; lra|]. nra. }
    set (c := / exp 15 * exp (- (2252 / 1000))) in *.
    replace (A * (B * c) * 16 ^ 6 * (15 / u63)) with (A * B * (c * (16 ^ 6 * (15 / u63)))) by ring.
    replace (B * A * (1 / (4 * (192 / 10 * 41))) * (35 / 2) ^ 6 * 4) with (A * B * (1 / (4 * (192 / 10 * 41)) * (35 / 2) ^ 6 * 4)) by ring.
    assert (V : 15 / u63 <= 15 / (29 / 640)) by (apply Rmult_le_compat_l; [lra|apply Rinv_le_contravar; lra]).
    assert (0 < 15 / u63) by (apply Rdiv_lt_0_compat; lra).
    apply Rmult_lt_compat_l; [assumption|]. apply Rle_lt_trans with (1 / 1000000 * (16 ^ 6 * (15 / (29 / 640)))); [|lra].
    apply Rmult_le_compat; [lra|apply Rmult_le_pos; lra|lra|]. apply Rmult_le_compat_l; lra.
  - lra.
  - lra.
  - destruct (u_bounds n ltac:(lia)) as [_ U]. eapply Rle_trans; [exact U|]. apply Rle_trans with (3 / 128); [|apply exp_35]. apply Rmult_le_compat_l; [lra|apply Rinv_le_contravar; lra].
  - destruct (u_bounds n ltac:(lia)) as [U _]. eapply Rle_trans; [apply exp_82|]. eapply Rle_trans; [|exact U]. apply Rmult_le_compat_l; [lra|apply Rinv_le_contravar; lra].
Qed.
End Values.

Lemma stage_31_ge s : (127 <= stage 31 (S (S s)))%Z.
Proof. pose proof (stage_mono 31 2 (S (S s)) ltac:(lia) ltac:(lia)). cbn [stage] in *. lia. Qed.
Lemma stage_31_le s : (stage 31 s <= 10000)%Z -> (stage 31 s <= 8191)%Z.
Proof.
  intros H. assert (Hs : (s <= 8)%nat). { destruct (Nat.le_gt_cases s 8) as [X|X]; [exact X|]. pose proof (stage_mono 31 9 s ltac:(lia) X). cbn [stage] in *. lia. }
  pose proof (stage_mono 31 s 8 ltac:(lia) Hs). cbn [stage] in *. lia.
Qed.

Definition w_par (t : R) : params := set_radial initial_params t.

Lemma ignores_tolerance_thm : forall par par' fuel bessel erf l1_max l2_max n_max CA_2 CB_2 pot LA bra LB ket,
  tabulate_radial_type2_integrals fuel par bessel erf l1_max l2_max n_max CA_2 CB_2 pot LA bra LB ket =
  tabulate_radial_type2_integrals fuel par' bessel erf l1_max l2_max n_max CA_2 CB_2 pot LA bra LB ket.
Proof. reflexivity. Qed.

Lemma tolerance_refuted_thm : forall bessel erf, bessel_01 bessel ->
  exists par, 0 < par_radial par /\ ~ honours_tolerance bessel erf par w_pot 2 w_bra 2 w_ket 10000 0 0 0 4.
Proof.
  intros bessel erf HB. set (g := type2_integrand bessel w_pot 2 w_bra 100 2 w_ket 0 0 0 4).
  pose proof (Q31_63 bessel HB) as L1. pose proof (Q63_more bessel HB) as L2. fold g in L1, L2.
  assert (S100 : sqrt 10000 = 100) by (replace 10000 with (100 * 100) by ring; apply sqrt_square; lra).
  assert (KEY : forall par, honours_tolerance bessel erf par w_pot 2 w_bra 2 w_ket 10000 0 0 0 4 -> exists t v c,
     tabulate_radial_type2_integrals 14 par bessel erf 0 0 4 10000 0 w_pot 2 w_bra 2 w_ket = Ok t /\ get_radial_type2_integral t 0 0 4 = Ok v /\ adaptive 10000 31 g None (par_radial par) v c).
  { intros par (t & E & H). destruct (H 0%Z 0%Z 4%Z ltac:(lia) ltac:(lia) ltac:(lia)) as (v & s & c & G & SC & A). exists t, v, c. split; [exact E|]. split; [exact G|].
    rewrite (w_screen bessel erf HB) in SC. injection SC as <-. cbv zeta in A. rewrite S100, sqrt_0 in A. exact A. }
  set (d := quadrature g 63 - quadrature g 31). assert (Hd : 0 < d) by (unfold d; lra).
  set (p1 := w_par d). set (p2 := w_par (d / 2)).
  assert (CON : honours_tolerance bessel erf p1 w_pot 2 w_bra 2 w_ket 10000 0 0 0 4 -> honours_tolerance bessel erf p2 w_pot 2 w_bra 2 w_ket 10000 0 0 0 4 -> False).
  { intros H1 H2. apply KEY in H1. apply KEY in H2. destruct H1 as (t1 & v1 & c1 & E1 & G1 & A1). destruct H2 as (t2 & v2 & c2 & E2 & G2 & A2).
    rewrite (ignores_tolerance_thm p2 p1) in E2. assert (t1 = t2) by congruence. subst t2. assert (v1 = v2) by congruence. subst v2. cbn [p1 p2 w_par set_radial par_radial] in A1, A2.
    assert (AC1 : accepted g 31 None d 0) by (unfold accepted; cbn [stage]; change (2 * 31 + 1)%Z with 63%Z; split; [fold d; rewrite Rabs_pos_eq; lra|exact I]).
    assert (NA2 : ~ accepted g 31 None (d / 2) 0) by (unfold accepted; cbn [stage]; change (2 * 31 + 1)%Z with 63%Z; fold d; rewrite Rabs_pos_eq by lra; lra).
    assert (V1 : v1 = quadrature g 63).
    { destruct A1 as (s & -> & C & H). destruct c1.
      - destruct H as (s' & -> & _ & N). destruct s' as [|s']; [reflexivity|]. exfalso. apply (N 0%nat ltac:(lia)), AC1.
      - destruct H as (X & N). destruct s as [|s]; [cbn in X; lia|]. exfalso. apply (N 0%nat ltac:(lia)), AC1. }
    destruct A2 as (s & V2 & C & H).
    assert (Hs : exists s', s = S (S s')).
    { destruct c2.
      - destruct H as (s' & -> & A & _). destruct s' as [|s']; [contradiction|]. exists s'. reflexivity.
      - destruct H as (X & _). destruct s as [|[|s]]; [cbn in X; lia|cbn in X; lia|]. exists s. reflexivity. }
    destruct Hs as (s' & ->). pose proof (stage_31_ge s'). pose proof (stage_31_le _ C). pose proof (L2 (stage 31 (S (S s'))) ltac:(lia)). lra. }
  destruct (type2_table 14 p1 bessel erf 0 0 4 10000 0 w_pot 2 w_bra 2 w_ket) as (t & E & P); try lia; try lra.
  - intros ni c a [X|[]]. injection X as <- <- <-. lia.
  - intros c a [X|[]]. injection X as <- <-. lra.
  - intros c a [X|[]]. injection X as <- <-. lra.
  - intros ni c a [X|[]]. injection X as <- <- <-. lra.
  - destruct (P 0%Z 0%Z 4%Z ltac:(lia) ltac:(lia) ltac:(lia)) as (v & s & c & G & _ & _).
    destruct (Req_EM_T v (quadrature g 63)) as [Ev|Nv].
    + exists p2. split; [cbn; lra|]. intros H2. destruct (KEY _ H2) as (t2 & v2 & c2 & E2 & G2 & A2).
      rewrite (ignores_tolerance_thm p2 p1) in E2. assert (t = t2) by congruence. subst t2. assert (v = v2) by congruence. subst v2. cbn [p2 w_par set_radial par_radial] in A2.
      assert (NA2 : ~ accepted g 31 None (d / 2) 0) by (unfold accepted; cbn [stage]; change (2 * 31 + 1)%Z with 63%Z; fold d; rewrite Rabs_pos_eq by lra; lra).
      destruct A2 as (k & V2 & C & H).
      assert (Hs : exists s', k = S (S s')).
      { destruct c2.
        - destruct H as (s' & -> & A & _). destruct s' as [|s']; [contradiction|]. exists s'. reflexivity.
        - destruct H as (X & _). destruct k as [|[|k]]; [cbn in X; lia|cbn in X; lia|]. exists k. reflexivity. }
      destruct Hs as (s' & ->). pose proof (stage_31_ge s'). pose proof (stage_31_le _ C). pose proof (L2 (stage 31 (S (S s'))) ltac:(lia)). lra.
    + exists p1. split; [cbn; lra|]. intros H1. destruct (KEY _ H1) as (t1 & v1 & c1 & E1 & G1 & A1). assert (t = t1) by congruence. subst t1. assert (v = v1) by congruence. subst v1. cbn [p1 w_par set_radial par_radial] in A1.
      assert (AC1 : accepted g 31 None d 0) by (unfold accepted; cbn [stage]; change (2 * 31 + 1)%Z with 63%Z; split; [fold d; rewrite Rabs_pos_eq; lra|exact I]).
      apply Nv. destruct A1 as (k & -> & C & H). destruct c1.
      * destruct H as (s' & -> & _ & N). destruct s' as [|s']; [reflexivity|]. exfalso. apply (N 0%nat ltac:(lia)), AC1.
      * destruct H as (X & N). destruct k as [|k]; [cbn in X; lia|]. exfalso. apply (N 0%nat ltac:(lia)), AC1.
Qed.
