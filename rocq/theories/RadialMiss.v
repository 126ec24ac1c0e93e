(** * An integrand that all grids of the library miss *)

From Coq Require Import ZArith Reals Lra Lia List Bool.
From Coquelicot Require Import Coquelicot.
From Verif Require Import Base Sums OneElModel OneElProofs OneElSpec OneElInt GaussInt NucPotSpec NucPot SpecModel SpecSpec BesselProofs ParamsModel RadialModel RadialSpec RadialProofs RadialTables RadialThms RadialWitness MmdMain Type2Spec Type2Radial
  Type2Error LocalSpec LocalInt RadialConv RadialRate RadialClass RadialConvSpec RadialQuad RadialQuad1.
Import ListNotations.
Open Scope R_scope.

Definition Rm : R := radius (1 / 3).

Lemma radius_inc x y : 0 <= x -> x < y -> y < 1 -> radius x < radius y.
Proof.
  intros H0 Hxy H1. unfold radius. assert (ln (1 - y ^ 3) < ln (1 - x ^ 3)); [|lra]. apply ln_increasing; [apply u_pos, H1|]. assert (x ^ 3 < y ^ 3); [|lra]. cbn [pow]. rewrite !Rmult_1_r.
  assert (x * x <= y * y) by nra. assert (0 < y) by lra. assert (0 < y * y) by nra. nra.
Qed.

Lemma Rm_bounds : 0 < Rm <= 1 / 5.
Proof.
  split.
  - replace 0 with (radius 0); [apply radius_inc; lra|]. unfold radius. rewrite pow_i by lia. rewrite Rminus_0_r, ln_1. ring.
  - unfold Rm, radius. replace (1 - (1 / 3) ^ 3) with (/ (27 / 26)) by field. rewrite ln_Rinv by lra. pose proof (exp_ineq1 (1 / 26) ltac:(lra)) as E.
    assert (ln (27 / 26) < 1 / 26); [|lra]. rewrite <- (ln_exp (1 / 26)). apply ln_increasing; lra.
Qed.

(** no grid with a power of two of intervals has a point at 1/3 *)
Definition gap (N : R) : R := Rmin (Rm - radius (1 / 3 - 1 / (3 * N))) (radius (1 / 3 + 1 / (3 * N)) - Rm).

Lemma gap_pos N : 2 <= N -> 0 < gap N.
Proof.
  intros HN. assert (0 < 1 / (3 * N) <= 1 / 6). { split; [apply Rdiv_lt_0_compat; lra|]. unfold Rdiv. rewrite !Rmult_1_l. apply Rinv_le_contravar; lra. }
  unfold gap, Rm. apply Rmin_pos; [assert (radius (1 / 3 - 1 / (3 * N)) < radius (1 / 3)) by (apply radius_inc; lra)|assert (radius (1 / 3) < radius (1 / 3 + 1 / (3 * N))) by (apply radius_inc; lra)]; lra.
Qed.

Lemma gap_grid n i : (1 <= i <= n)%Z -> Z.rem (n + 1) 3 <> 0%Z -> gap (IZR (n + 1)) <= Rabs (radius (IZR i / IZR (n + 1)) - Rm).
Proof.
  intros Hi Hr. pose proof (grid_in n i ltac:(lia)) as Gi. assert (NP : 0 < IZR (n + 1)) by (apply IZR_lt; lia). assert (N2 : 2 <= IZR (n + 1)) by (apply IZR_le; lia).
  assert (D3 : (3 * i <> n + 1)%Z). { intros E. apply Hr. rewrite <- E. rewrite Z.mul_comm. apply Z.rem_mul. lia. }
  assert (B : 0 < 1 / (3 * IZR (n + 1)) <= 1 / 6). { split; [apply Rdiv_lt_0_compat; lra|]. unfold Rdiv. rewrite !Rmult_1_l. apply Rinv_le_contravar; lra. }
  assert (EX : IZR i / IZR (n + 1) = 1 / 3 + IZR (3 * i - (n + 1)) * (1 / (3 * IZR (n + 1)))) by (rewrite minus_IZR, mult_IZR; field; lra).
  set (N := IZR (n + 1)) in *. set (xi := IZR i / N) in *. set (h := 1 / (3 * N)) in *. unfold gap. fold h.
  destruct (Z_lt_le_dec (3 * i) (n + 1)) as [L|L].
  - assert (IZR (3 * i - (n + 1)) <= -1) by (apply IZR_le; lia). assert (xi <= 1 / 3 - h) by nra. rewrite Rabs_left1.
    + eapply Rle_trans; [apply Rmin_l|]. assert (radius xi <= radius (1 / 3 - h)); [|lra]. destruct (Req_dec xi (1 / 3 - h)) as [->|]; [lra|]. left. apply radius_inc; lra.
    + unfold Rm. assert (radius xi < radius (1 / 3)) by (apply radius_inc; lra). lra.
  - assert (1 <= IZR (3 * i - (n + 1))) by (apply IZR_le; lia). assert (1 / 3 + h <= xi) by nra. rewrite Rabs_pos_eq.
    + eapply Rle_trans; [apply Rmin_r|]. assert (radius (1 / 3 + h) <= radius xi); [|lra]. destruct (Req_dec xi (1 / 3 + h)) as [->|]; [lra|]. left. apply radius_inc; lra.
    + unfold Rm. assert (radius (1 / 3) < radius xi) by (apply radius_inc; lra). lra.
Qed.

(** ** Two normalised s functions at the distance Rm *)
Definition far_point : R * R * R := (Rm, 0, 0).
Definition origin3 : R * R * R := (0, 0, 0).

Lemma far_sep : separation far_point origin3 = Rm.
Proof. unfold separation, far_point, origin3. replace ((0 - Rm) * (0 - Rm) + (0 - 0) * (0 - 0) + (0 - 0) * (0 - 0)) with (Rm * Rm) by ring. apply sqrt_square. pose proof Rm_bounds. lra. Qed.

Lemma far_k a : 0 < a -> pair_k a a far_point far_point origin3 = 4 * a * Rm.
Proof.
  intros Ha. unfold pair_k, pair_vector, separation, far_point, origin3. pose proof Rm_bounds as RB.
  match goal with |- 2 * sqrt ?e = _ => replace e with ((2 * a * Rm) * (2 * a * Rm)) by ring end. rewrite sqrt_square; [ring|]. apply Rmult_le_pos; [lra|lra].
Qed.

Lemma far_gauss a r : 0 < a -> pair_gauss (norm_L 0 a) (norm_L 0 a) a a far_point far_point origin3 r = 4 * PI * (norm_L 0 a * norm_L 0 a) * exp (- (2 * a) * ((r - Rm) * (r - Rm))).
Proof.
  intros Ha. unfold pair_gauss. rewrite far_k by exact Ha. rewrite !far_sep. rewrite <- (Rmult_assoc (4 * PI)). f_equal. f_equal. ring.
Qed.

Lemma norm_square a : 0 < a -> norm_L 0 a * norm_L 0 a = 2 * a / PI * sqrt (2 * a / PI).
Proof.
  intros Ha. assert (P : 0 < 2 * a / PI) by (apply Rdiv_lt_0_compat; [lra|apply PI_RGT_0]). unfold norm_L. replace (0 / 2) with 0 by field. rewrite Rpower_O by lra. rewrite !Rmult_1_r, <- Rpower_plus.
  replace (3 / 4 + 3 / 4) with (1 + / 2) by field. rewrite Rpower_plus, Rpower_1, Rpower_sqrt by exact P. reflexivity.
Qed.

(** ** The rule *)
Definition far_integrand (a r : R) : R := 1 / r * pair_gauss (norm_L 0 a) (norm_L 0 a) a a far_point far_point origin3 r * exact_bessel 0 (pair_k a a far_point far_point origin3 * r) * r ^ 0.

Lemma far_rule a d n : 1 <= a -> (1 <= n)%Z -> 0 < d -> (forall i, (1 <= i <= n)%Z -> d <= Rabs (radius (IZR i / IZR (n + 1)) - Rm)) ->
  Rabs (quadrature (far_integrand a) n) <= 60 * PI * exp 2 * (a * a) * exp (- a * (d * d)).
Proof.
  intros Ha Hn Hd HG. set (T := 60 * PI * exp 2 * (a * a) * exp (- a * (d * d))). assert (Pp := PI_RGT_0). pose proof Rm_bounds as RB.
  assert (NP : 0 < IZR (n + 1)) by (apply IZR_lt; lia).
  assert (B : Rabs (zsum 1 (n + 1) (fun i => let xi := IZR i / IZR (n + 1) in far_integrand a (radius xi) * radius xi ^ 2 * radius' xi) - zsum 1 (n + 1) (fun _ => 0)) <= zsum 1 (n + 1) (fun _ => T)).
  { apply zsum_diff. intros i Hi. cbv zeta. rewrite Rminus_0_r. destruct (grid_pos n i ltac:(lia)) as (R0 & R1). specialize (HG i ltac:(lia)). pose proof (grid_in n i ltac:(lia)) as Gi.
    set (xi := IZR i / IZR (n + 1)) in *.
    assert (r15 : radius' xi * exp (- radius xi) <= 15).
    { rewrite exp_radius by lra. unfold radius'. pose proof (u_pos xi ltac:(lra)) as U. pose proof (u_le_1 xi ltac:(lra)) as U1. set (u := 1 - xi ^ 3) in *. replace (15 * xi ^ 2 / u * u ^ 5) with (15 * (xi ^ 2 * u ^ 4)) by (field; lra).
      assert (xi ^ 2 <= 1) by (cbn [pow]; nra). assert (u ^ 4 <= 1) by (rewrite <- (pow1 4); apply pow_incr; lra). assert (0 <= u ^ 4) by (apply pow_le; lra). assert (0 <= xi ^ 2) by apply pow2_ge_0. nra. }
    unfold far_integrand. rewrite far_gauss by lra. rewrite far_k by lra. set (r := radius xi) in *.
    assert (K0 : 0 <= 4 * a * Rm * r) by (apply Rmult_le_pos; [apply Rmult_le_pos|]; lra).
    unfold exact_bessel. change (Z.to_nat 0) with O. pose proof (bessK_bounds 0 _ K0) as KB. set (y := bessK 0 (4 * a * Rm * r)) in *.
    pose proof (norm_L_pos 0 a) as Np. assert (NN : 0 < norm_L 0 a * norm_L 0 a <= a * a).
    { split; [apply Rmult_lt_0_compat; exact Np|]. rewrite norm_square by lra. assert (P2 : 2 <= PI) by (pose proof PI2_1; lra).
      assert (Q : 0 < 2 * a / PI <= a). { split; [apply Rdiv_lt_0_compat; lra|]. apply Rmult_le_reg_r with PI; [lra|]. unfold Rdiv. rewrite Rmult_assoc, Rinv_l by lra. nra. }
      apply Rmult_le_compat; [lra|apply sqrt_pos|lra|]. apply Rle_trans with (sqrt (a * a)); [apply sqrt_le_1_alt; nra|]. rewrite sqrt_square; lra. }
    assert (EB : exp (- (2 * a) * ((r - Rm) * (r - Rm))) <= exp (- a * (d * d)) * exp (- 1 * ((r - Rm) * (r - Rm)))).
    { rewrite <- exp_plus. apply exp_le_mono. assert (d * d <= (r - Rm) * (r - Rm)). { pose proof (Rsqr_abs (r - Rm)) as SA. unfold Rsqr in SA. rewrite SA. apply Rmult_le_compat; lra. } assert (0 <= (r - Rm) * (r - Rm)) by nra. nra. }
    pose proof (gauss_pow_bound 1 Rm 1 r ltac:(lra) ltac:(lra)) as GB. rewrite Rabs_pos_eq in GB by (apply Rmult_le_pos; [apply pow_le; lra|left; apply exp_pos]). rewrite pow_1 in GB. change (INR (fact 1)) with 1 in GB. rewrite Rmult_1_l, Rinv_1 in GB.
    assert (E2 : exp (2 * Rm + 1) <= exp 2) by (apply exp_le_mono; lra).
    pose proof (exp_pos (- (2 * a) * ((r - Rm) * (r - Rm)))) as e1. pose proof (exp_pos (- a * (d * d))) as e2. pose proof (exp_pos (- 1 * ((r - Rm) * (r - Rm)))) as e3. pose proof (exp_pos (- r)) as e4. pose proof (exp_pos 2) as e5.
    set (X1 := exp (- (2 * a) * ((r - Rm) * (r - Rm)))) in *. set (X2 := exp (- a * (d * d))) in *. set (X3 := exp (- 1 * ((r - Rm) * (r - Rm)))) in *. set (NQ := norm_L 0 a * norm_L 0 a) in *.
    replace (1 / r * (4 * PI * NQ * X1) * y * r ^ 0 * r ^ 2 * radius' xi) with (4 * PI * NQ * (radius' xi * (r * X1) * y)) by (cbn [pow]; field; lra).
    assert (S1 : r * X1 <= X2 * (exp 2 * exp (- r))).
    { apply Rle_trans with (r * (X2 * X3)); [apply Rmult_le_compat_l; lra|]. replace (r * (X2 * X3)) with (X2 * (r * X3)) by ring. apply Rmult_le_compat_l; [lra|]. eapply Rle_trans; [exact GB|]. apply Rmult_le_compat_r; lra. }
    assert (S2 : radius' xi * (r * X1) <= 15 * (X2 * exp 2)).
    { apply Rle_trans with (radius' xi * (X2 * (exp 2 * exp (- r)))); [apply Rmult_le_compat_l; lra|]. replace (radius' xi * (X2 * (exp 2 * exp (- r)))) with (radius' xi * exp (- r) * (X2 * exp 2)) by ring. apply Rmult_le_compat_r; [apply Rmult_le_pos; lra|exact r15]. }
    assert (S0 : 0 <= radius' xi * (r * X1)) by (apply Rmult_le_pos; [lra|apply Rmult_le_pos; lra]).
    assert (S3 : 0 <= radius' xi * (r * X1) * y <= 15 * (X2 * exp 2)) by nra.
    assert (PN : 0 <= 4 * PI * NQ <= 4 * PI * (a * a)) by (split; [apply Rmult_le_pos; lra|apply Rmult_le_compat_l; lra]).
    rewrite Rabs_pos_eq by (apply Rmult_le_pos; lra). unfold T. replace (60 * PI * exp 2 * (a * a) * X2) with (4 * PI * (a * a) * (15 * (X2 * exp 2))) by ring. apply Rmult_le_compat; lra. }
  rewrite (zsum_zero 1 (n + 1) (fun _ => 0)) in B by reflexivity. rewrite Rminus_0_r, zsum_const in B by lia.
  assert (T0 : 0 <= T). { unfold T. pose proof (exp_pos 2). pose proof (exp_pos (- a * (d * d))). apply Rmult_le_pos; [|lra]. apply Rmult_le_pos; [|nra]. apply Rmult_le_pos; lra. }
  unfold quadrature, Rdiv at 1. rewrite Rabs_mult, (Rabs_pos_eq (/ _)) by (left; apply Rinv_0_lt_compat, NP). apply Rmult_le_reg_r with (IZR (n + 1)); [exact NP|]. rewrite Rmult_assoc, Rinv_l, Rmult_1_r by lra. eapply Rle_trans; [exact B|].
  rewrite (Rmult_comm _ (IZR (n + 1))). apply Rmult_le_compat_r; [exact T0|]. apply IZR_le. lia.
Qed.

(** exponents for which this is as small as wanted *)
Lemma far_small d e : 0 < d -> 0 < e -> exists a0, 1 <= a0 /\ forall a, a0 <= a -> 60 * PI * exp 2 * (a * a) * exp (- a * (d * d)) <= e.
Proof.
  intros Hd He. set (K := 60 * PI * exp 2). assert (KP : 0 < K) by (unfold K; pose proof PI_RGT_0; pose proof (exp_pos 2); nra).
  set (D := d * d). assert (DP : 0 < D) by (unfold D; nra). set (m := 6 * K / (e * (D * (D * D)))). assert (D3 : 0 < D * (D * D)) by (repeat apply Rmult_lt_0_compat; lra).
  exists (Rmax 1 m). split; [apply Rmax_l|]. intros a Ha. pose proof (Rmax_l 1 m). pose proof (Rmax_r 1 m).
  assert (aD : 0 <= a * D) by (apply Rmult_le_pos; lra). pose proof (pow_exp (a * D) 3 aD) as P. replace (INR (fact 3)) with 6 in P by (simpl; ring).
  replace (- a * D) with (- (a * D)) by ring. rewrite exp_Ropp. pose proof (exp_pos (a * D)) as EP. apply Rmult_le_reg_r with (exp (a * D)); [exact EP|]. rewrite Rmult_assoc, Rinv_l, Rmult_1_r by lra.
  assert (Q : 6 * (K * (a * a)) <= e * (a * D) ^ 3).
  { replace (e * (a * D) ^ 3) with ((a * a) * (a * (e * (D * (D * D))))) by ring. replace (6 * (K * (a * a))) with ((a * a) * (6 * K)) by ring. apply Rmult_le_compat_l; [nra|].
    replace (6 * K) with (m * (e * (D * (D * D)))) by (unfold m; field; split; lra). apply Rmult_le_compat_r; [left; apply Rmult_lt_0_compat; assumption|lra]. }
  assert (e * (a * D) ^ 3 <= e * (6 * exp (a * D))) by (apply Rmult_le_compat_l; lra). lra.
Qed.

(** ** The integral *)
Lemma half_ge f v c s t : half_int f v -> (forall r, 0 < r -> 0 <= f r) -> 0 < s -> s <= t -> (forall r, s < r < t -> c <= f r) -> c * (t - s) <= v.
Proof.
  intros (X & L) P Hs Hst Hc.
  assert (X1 : forall u w, 0 < u -> u <= w -> ex_RInt f u w) by (intros u w Hu Hw; apply (ex_RInt_Chasles_2 (V := R_CompleteNormedModule) f 0 u w); [split; lra|apply X; lra]).
  assert (CH : forall u w, 0 < u -> u <= w -> RInt f 0 u + RInt f u w = RInt f 0 w) by (intros u w Hu Hw; apply (RInt_Chasles (V := R_CompleteNormedModule) f 0 u w (X u Hu) (X1 u w Hu Hw))).
  assert (B1 : c * (t - s) <= RInt f s t).
  { pose proof (RInt_const (V := R_CompleteNormedModule) s t c) as RC. change (RInt (fun _ : R => c) s t = (t - s) * c) in RC. rewrite Rmult_comm, <- RC. apply RInt_le; [exact Hst|apply ex_RInt_const|apply X1; lra|]. intros r Hr. apply Hc, Hr. }
  assert (B2 : RInt f s t <= RInt f 0 t). { pose proof (CH s t Hs Hst). assert (0 <= RInt f 0 s) by (apply RInt_ge_0; [lra|apply X; lra|intros; apply P; lra]). lra. }
  assert (B3 : RInt f 0 t <= v).
  { apply (is_lim_le_loc (fun _ => RInt f 0 t) (fun b => RInt f 0 b) p_infty (RInt f 0 t) v); [|apply is_lim_const|exact L]. exists t. intros b Hb. pose proof (CH t b ltac:(lra) ltac:(lra)).
    assert (0 <= RInt f t b) by (apply RInt_ge_0; [lra|apply X1; lra|intros; apply P; lra]). lra. }
  lra.
Qed.

Lemma inv_charge_like : charge_like (fun r => 1 / r).
Proof.
  split; [intros r Hr; apply (ex_derive_continuous (V := R_NormedModule)); auto_derive; lra|]. exists 1. intros r Hr. replace (r * (1 / r)) with 1 by (field; lra). rewrite Rabs_R1. lra.
Qed.

Lemma far_integral a q : 0 < a -> 1 <= 8 * a * (Rm * Rm) -> pair_radial (fun r => 1 / r) (norm_L 0 a) (norm_L 0 a) a a far_point far_point origin3 0 0 q -> 1 / 5 <= q.
Proof.
  intros Ha HR Hq. pose proof Rm_bounds as RB. pose proof PI_RGT_0 as Pp. pose proof (norm_L_pos 0 a) as Np. set (NQ := norm_L 0 a * norm_L 0 a). assert (NP : 0 < NQ) by (apply Rmult_lt_0_compat; exact Np).
  assert (sa : 0 < sqrt a) by (apply sqrt_lt_R0, Ha). set (h := / sqrt a). assert (hp : 0 < h) by (apply Rinv_0_lt_compat, sa). assert (ah : a * (h * h) = 1). { unfold h. rewrite <- (sqrt_sqrt a) at 1 by lra. field. lra. }
  unfold pair_radial in Hq. rewrite far_k in Hq by exact Ha.
  assert (POS : forall r, 0 < r -> r ^ 2 * (1 / r) * pair_gauss (norm_L 0 a) (norm_L 0 a) a a far_point far_point origin3 r * bessK 0 (4 * a * Rm * r) * r ^ 0 = 4 * PI * NQ / (8 * a * Rm) * (exp (- (2 * a) * ((r - Rm) * (r - Rm))) * (1 - exp (- (2 * (4 * a * Rm * r)))))).
  { intros r Hr. rewrite far_gauss by exact Ha. fold NQ. rewrite <- bessK_0. cbn [pow]. field. lra. }
  assert (E2 : 1 / 9 <= exp (-2)). { replace (-2) with (Ropp (1 + 1)) by ring. rewrite exp_Ropp, exp_plus. pose proof exp_le_3 as E3. pose proof (exp_pos 1) as E1. unfold Rdiv. rewrite Rmult_1_l. apply Rinv_le_contravar; nra. }
  assert (E1 : exp (-2) <= 1 / 2). { apply Rle_trans with (exp (-1)); [apply exp_le_mono; lra|]. change (exp (-1)) with (exp (Ropp 1)). rewrite exp_Ropp. pose proof (exp_ineq1 1 ltac:(lra)). unfold Rdiv. rewrite Rmult_1_l. apply Rinv_le_contravar; lra. }
  set (c := 4 * PI * NQ / (8 * a * Rm) * (1 / 9 * (1 / 2))). assert (cf : 0 < 4 * PI * NQ / (8 * a * Rm)) by (apply Rdiv_lt_0_compat; [apply Rmult_lt_0_compat; lra|apply Rmult_lt_0_compat; lra]).
  assert (LB : c * (Rm + h - Rm) <= q).
  { apply (half_ge _ q c Rm (Rm + h) Hq); [|lra|lra|].
    - intros r Hr. rewrite POS by exact Hr. apply Rmult_le_pos; [lra|]. apply Rmult_le_pos; [left; apply exp_pos|]. assert (0 < 4 * a * Rm * r) by (apply Rmult_lt_0_compat; [apply Rmult_lt_0_compat|]; lra). assert (exp (- (2 * (4 * a * Rm * r))) <= exp 0) by (apply exp_le_mono; lra). rewrite exp_0 in *. lra.
    - intros r Hr. rewrite POS by lra. unfold c. apply Rmult_le_compat_l; [lra|]. apply Rmult_le_compat; [lra|lra| |].
      + apply Rle_trans with (exp (-2)); [exact E2|]. apply exp_le_mono. assert ((r - Rm) * (r - Rm) <= h * h) by nra. nra.
      + assert (exp (- (2 * (4 * a * Rm * r))) <= exp (-1)) as Q. { apply exp_le_mono. assert (8 * a * (Rm * Rm) <= 2 * (4 * a * Rm * r)); [|lra]. replace (2 * (4 * a * Rm * r)) with (8 * a * (Rm * r)) by ring. apply Rmult_le_compat_l; [lra|]. apply Rmult_le_compat_l; lra. }
        assert (exp (-1) <= 1 / 2). { change (exp (-1)) with (exp (Ropp 1)). rewrite exp_Ropp. pose proof (exp_ineq1 1 ltac:(lra)). unfold Rdiv. rewrite Rmult_1_l. apply Rinv_le_contravar; lra. } lra. }
  eapply Rle_trans; [|exact LB]. replace (Rm + h - Rm) with h by ring. unfold c, NQ. rewrite norm_square by exact Ha.
  assert (SQ : sqrt (2 * a / PI) * h = sqrt (2 / PI)). { replace (2 * a / PI) with (2 / PI * a) by (field; lra). rewrite sqrt_mult; [|left; apply Rdiv_lt_0_compat; lra|lra]. unfold h. field. lra. }
  replace (4 * PI * (2 * a / PI * sqrt (2 * a / PI)) / (8 * a * Rm) * (1 / 9 * (1 / 2)) * h) with (1 / 18 * / Rm * (sqrt (2 * a / PI) * h)) by (field; repeat split; lra). rewrite SQ.
  assert (S34 : 3 / 4 <= sqrt (2 / PI)). { replace (3 / 4) with (sqrt (3 / 4 * (3 / 4))) by (apply sqrt_square; lra). apply sqrt_le_1_alt. assert (PI <= 32 / 9). { destruct (PI_ineq 1) as [_ P]. unfold tg_alt, PI_tg in P. simpl in P. lra. }
    apply Rmult_le_reg_r with PI; [exact Pp|]. replace (2 / PI * PI) with 2 by (field; lra). lra. }
  assert (IR : 5 <= / Rm). { replace 5 with (/ (1 / 5)) by field. apply Rinv_le_contravar; lra. }
  apply Rle_trans with (1 / 18 * 5 * (3 / 4)); [lra|]. apply Rmult_le_compat; lra.
Qed.

(** ** All grids miss *)
Lemma far_all e : 0 < e -> exists a, 1 <= a /\ 1 <= 8 * a * (Rm * Rm) /\ forall s, (s <= 2)%nat -> Rabs (quadrature (far_integrand a) (stage 2047 s)) <= e.
Proof.
  intros He. pose proof Rm_bounds as RB. set (d := Rmin (gap 2048) (Rmin (gap 4096) (gap 8192))).
  assert (Hd : 0 < d) by (unfold d; apply Rmin_pos; [apply gap_pos; lra|apply Rmin_pos; apply gap_pos; lra]).
  destruct (far_small d e Hd He) as (a0 & A1 & HA). set (b := / (8 * (Rm * Rm))). assert (R2 : 0 < 8 * (Rm * Rm)) by nra. exists (Rmax a0 b).
  pose proof (Rmax_l a0 b) as M1. pose proof (Rmax_r a0 b) as M2. set (a := Rmax a0 b) in *. split; [lra|]. split.
  - replace (8 * a * (Rm * Rm)) with (a * (8 * (Rm * Rm))) by ring. apply Rle_trans with (b * (8 * (Rm * Rm))); [right; unfold b; field; lra|]. apply Rmult_le_compat_r; lra.
  - intros s Hs. eapply Rle_trans; [|apply (HA a M1)]. destruct s as [|[|[|s]]]; [| | |lia].
    + change (stage 2047 0) with 2047%Z. apply far_rule; [lra|lia|exact Hd|]. intros i Hi. eapply Rle_trans; [|apply gap_grid; [exact Hi|discriminate]]. apply Rmin_l.
    + change (stage 2047 1) with 4095%Z. apply far_rule; [lra|lia|exact Hd|]. intros i Hi. eapply Rle_trans; [|apply gap_grid; [exact Hi|discriminate]]. eapply Rle_trans; [apply Rmin_r|apply Rmin_l].
    + change (stage 2047 2) with 8191%Z. apply far_rule; [lra|lia|exact Hd|]. intros i Hi. eapply Rle_trans; [|apply gap_grid; [exact Hi|discriminate]]. eapply Rle_trans; [apply Rmin_r|apply Rmin_r].
Qed.

Theorem accepted_miss : forall tol, 0 < tol -> exists a v Q, 0 < a /\
  adaptive 10000 2047 (fun r => 1 / r * pair_gauss (norm_L 0 a) (norm_L 0 a) a a far_point far_point origin3 r * exact_bessel 0 (pair_k a a far_point far_point origin3 * r) * r ^ 0) None tol v true /\
  pair_radial (fun r => 1 / r) (norm_L 0 a) (norm_L 0 a) a a far_point far_point origin3 0 0 Q /\ 1 / 8 < Rabs (v - Q).
Proof.
  intros tol Ht. destruct (far_all (Rmin (tol / 2) (1 / 20))) as (a & A1 & A2 & HA); [apply Rmin_pos; lra|]. pose proof (Rmin_l (tol / 2) (1 / 20)). pose proof (Rmin_r (tol / 2) (1 / 20)).
  destruct (pair_radial_exists (fun r => 1 / r) (norm_L 0 a) (norm_L 0 a) a a far_point far_point origin3 0 0 inv_charge_like ltac:(lra)) as (Q & HQ).
  exists a, (quadrature (far_integrand a) (stage 2047 1)), Q. split; [lra|]. pose proof (HA 0%nat ltac:(lia)) as B0. pose proof (HA 1%nat ltac:(lia)) as B1. split; [|split; [exact HQ|]].
  - exists 1%nat. split; [reflexivity|]. split; [discriminate|]. exists 0%nat. split; [reflexivity|]. split; [|intros j Hj; lia]. split; [|exact I].
    change (Rabs (quadrature (far_integrand a) (stage 2047 1) - quadrature (far_integrand a) (stage 2047 0)) <= tol). unfold Rminus. eapply Rle_trans; [apply Rabs_triang|]. rewrite Rabs_Ropp. lra.
  - pose proof (far_integral a Q ltac:(lra) A2 HQ) as QB. apply Rabs_le_between in B1. rewrite Rabs_left; lra.
Qed.

Lemma quadrature_ext g h n : (1 <= n)%Z -> (forall r, 0 < r -> g r = h r) -> quadrature g n = quadrature h n.
Proof.
  intros Hn E. unfold quadrature. f_equal. apply zsum_ext. intros i Hi. cbv zeta. rewrite E; [reflexivity|]. apply (grid_pos n i). lia.
Qed.

Theorem table_miss : exists a Q, 0 < a /\ pair_radial (fun r => 1 / r) (norm_L 0 a) (norm_L 0 a) a a far_point far_point origin3 0 0 Q /\
  forall fuel par, (14 <= fuel)%nat ->
    exists t v, tabulate_radial_type1_integrals fuel par exact_bessel
        (mkRP1 (pair_k a a far_point far_point origin3) a a (separation far_point origin3 ^ 2) (separation far_point origin3 ^ 2) (4 * PI * norm_L 0 a * norm_L 0 a) (fun r => 1 / r)) 0 0 = Ok t /\
      get_radial_type1_integral t 0 0 = Ok v /\ 1 / 8 < Rabs (v - Q).
Proof.
  destruct (far_all (1 / 20)) as (a & A1 & A2 & HA); [lra|].
  destruct (pair_radial_exists (fun r => 1 / r) (norm_L 0 a) (norm_L 0 a) a a far_point far_point origin3 0 0 inv_charge_like ltac:(lra)) as (Q & HQ).
  exists a, Q. split; [lra|]. split; [exact HQ|]. intros fuel par Hf.
  set (p := mkRP1 (pair_k a a far_point far_point origin3) a a (separation far_point origin3 ^ 2) (separation far_point origin3 ^ 2) (4 * PI * norm_L 0 a * norm_L 0 a) (fun r => 1 / r)).
  destruct (type1_table fuel par exact_bessel p 0 ltac:(lia) Hf) as (t & Et & Ht). destruct (Ht 0%Z 0%Z ltac:(lia) ltac:(lia)) as (v & c & Ev & (s & Es & Cs & _)). exists t, v. split; [exact Et|]. split; [exact Ev|].
  assert (S2 : (s <= 2)%nat).
  { destruct s as [|[|[|s]]]; try lia. exfalso. assert (X : forall k, (16383 <= stage 2047 (S (S (S k))))%Z) by (induction k as [|k IH]; [discriminate|]; change (stage 2047 (S (S (S (S k))))) with (2 * stage 2047 (S (S (S k))) + 1)%Z; lia). specialize (X s). lia. }
  assert (S1 : (1 <= stage 2047 s)%Z) by (destruct s as [|[|[|s]]]; [discriminate..|lia]).
  rewrite (quadrature_ext _ (far_integrand a) _ S1) in Es.
  - pose proof (HA s S2) as B. rewrite <- Es in B. pose proof (far_integral a Q ltac:(lra) A2 HQ) as QB. apply Rabs_le_between in B. rewrite Rabs_left; lra.
  - intros r Hr. unfold type1_integrand, far_integrand, pair_gauss, p. cbn [r1_pot r1_k r1_alpha_A r1_alpha_B r1_CA_2 r1_CB_2 r1_prefactor]. reflexivity.
Qed.
