(** * Rate of convergence of the radial quadrature *)

From Coq Require Import ZArith Reals Lra Lia List Bool.
From Coquelicot Require Import Coquelicot.
From Verif Require Import Base Sums GaussInt NucPotSpec NucPot RadialSpec RadialConv.
Open Scope R_scope.

Lemma grow (f f' : R -> R) (c h : R) k : (forall t, 0 <= t <= h -> is_derive f t (f' t)) -> f 0 = 0 ->
  (forall t, 0 <= t <= h -> Rabs (f' t) <= c * t ^ k) -> forall t, 0 <= t <= h -> Rabs (f t) <= c / INR (S k) * t ^ S k.
Proof.
  intros D Z0 B t Ht.
  assert (X : forall s, s = 1 \/ s = -1 -> 0 <= c / INR (S k) * t ^ S k - s * f t).
  { intros s Hs. destruct (MVT_gen (fun t => c / INR (S k) * t ^ S k - s * f t) 0 t (fun t => c * t ^ k - s * f' t)) as (x & Hx & E).
    - intros x Hx. rewrite Rmin_left, Rmax_right in Hx by lra. apply (is_derive_minus (V := R_NormedModule)).
      + eapply is_derive_eq; [apply (is_derive_scal (fun t => t ^ S k) x (c / INR (S k))); apply (is_derive_pow (fun t => t) (S k) x 1); apply (is_derive_id (K := R_AbsRing))|]. pose proof (lt_0_INR (S k) ltac:(lia)). set (w := INR (S k)) in *. clearbody w. simpl pred. field. lra.
      + apply (is_derive_scal f x s (f' x)). apply D. lra.
    - intros x Hx. rewrite Rmin_left, Rmax_right in Hx by lra. apply (continuity_pt_filterlim). apply (ex_derive_continuous (V := R_NormedModule) (fun t => c / INR (S k) * t ^ S k - s * f t)).
      eexists. apply (is_derive_minus (V := R_NormedModule)).
      + apply Derive_correct. auto_derive. exact I.
      + apply (is_derive_scal f x s (f' x)). apply D. lra.
    - rewrite Rmin_left, Rmax_right in Hx by lra. rewrite Z0 in E. rewrite pow_i in E by lia. pose proof (B x ltac:(lra)) as BX. apply Rabs_le_between in BX.
      assert (0 <= (c * x ^ k - s * f' x) * (t - 0)) by (apply Rmult_le_pos; [|lra]; destruct Hs; subst s; lra). lra. }
  pose proof (X 1 ltac:(auto)). pose proof (X (-1) ltac:(auto)). apply Rabs_le. lra.
Qed.

Lemma trapezoid_panel (A G G1 G2 : R -> R) (K a h : R) : 0 <= h ->
  (forall x, a <= x <= a + h -> is_derive A x (G x)) -> (forall x, a <= x <= a + h -> is_derive G x (G1 x)) -> (forall x, a <= x <= a + h -> is_derive G1 x (G2 x)) ->
  (forall x, a <= x <= a + h -> Rabs (G2 x) <= K) -> Rabs (A (a + h) - A a - h / 2 * (G a + G (a + h))) <= K / 12 * h ^ 3.
Proof.
  intros Hh DA DG DG1 B.
  assert (SH : forall (f f' : R -> R) t, (forall x, a <= x <= a + h -> is_derive f x (f' x)) -> 0 <= t <= h -> is_derive (fun t => f (a + t)) t (f' (a + t))).
  { intros f f' t Df Ht. eapply is_derive_eq; [apply (is_derive_comp (V := R_NormedModule) f (fun t => a + t)); [apply Df; lra|auto_derive; [exact I|reflexivity]]|]. unfold scal; simpl; unfold mult; simpl. ring. }
  set (E := fun t => A (a + t) - A a - t / 2 * (G a + G (a + t))).
  set (E1 := fun t => (G (a + t) - G a) / 2 - t / 2 * G1 (a + t)).
  set (E2 := fun t => - (t / 2) * G2 (a + t)).
  assert (D1 : forall t, 0 <= t <= h -> is_derive E1 t (E2 t)).
  { intros t Ht. unfold E1, E2. pose proof (SH G G1 t DG Ht) as d0. pose proof (SH G1 G2 t DG1 Ht) as d1.
    assert (e0 : is_derive (fun t => (G (a + t) - G a) / 2) t (G1 (a + t) / 2)).
    { eapply is_derive_eq; [eapply (is_derive_ext (fun t => (/ 2) * (G (a + t) - G a))); [intros; cbv beta; match goal with |- @eq _ ?a ?b => change (@eq R a b) end; unfold Rdiv; ring|]; apply (is_derive_scal (fun t => G (a + t) - G a) t (/ 2)); apply (is_derive_minus (V := R_NormedModule)); [exact d0|apply (is_derive_const (V := R_NormedModule))]|]. unfold minus, plus, opp, zero; simpl. field. }
    assert (e1 : is_derive (fun t => t / 2 * G1 (a + t)) t (/ 2 * G1 (a + t) + t / 2 * G2 (a + t))).
    { apply (is_derive_mult (K := R_AbsRing) (fun t => t / 2) (fun t => G1 (a + t)) t (/ 2) (G2 (a + t))); [auto_derive; [exact I|field]|exact d1|intros; apply Rmult_comm]. }
    eapply is_derive_eq; [apply (is_derive_minus (V := R_NormedModule) _ _ _ _ _ e0 e1)|]. unfold minus, plus, opp; simpl. field. }
  assert (D0 : forall t, 0 <= t <= h -> is_derive E t (E1 t)).
  { intros t Ht. unfold E, E1. pose proof (SH A G t DA Ht) as d0. pose proof (SH G G1 t DG Ht) as d1.
    assert (e0 : is_derive (fun t => A (a + t) - A a) t (G (a + t))).
    { eapply is_derive_eq; [apply (is_derive_minus (V := R_NormedModule)); [exact d0|apply (is_derive_const (V := R_NormedModule))]|]. unfold minus, plus, opp, zero; simpl. ring. }
    assert (e1 : is_derive (fun t => t / 2 * (G a + G (a + t))) t (/ 2 * (G a + G (a + t)) + t / 2 * G1 (a + t))).
    { apply (is_derive_mult (K := R_AbsRing) (fun t => t / 2) (fun t => G a + G (a + t)) t (/ 2) (G1 (a + t))); [auto_derive; [exact I|field]| |intros; apply Rmult_comm].
      eapply is_derive_eq; [apply (is_derive_plus (V := R_NormedModule)); [apply (is_derive_const (V := R_NormedModule))|exact d1]|]. unfold plus, zero; simpl. ring. }
    eapply is_derive_eq; [apply (is_derive_minus (V := R_NormedModule) _ _ _ _ _ e0 e1)|]. unfold minus, plus, opp; simpl. field. }
  assert (B1 : forall t, 0 <= t <= h -> Rabs (E1 t) <= K / 2 / INR 2 * t ^ 2).
  { apply (grow E1 E2 (K / 2) h 1 D1); [unfold E1; rewrite Rplus_0_r; field|]. intros t Ht. unfold E2. rewrite Rabs_mult, Rabs_Ropp, Rabs_pos_eq by lra. rewrite pow_1. pose proof (B (a + t) ltac:(lra)). nra. }
  pose proof (grow E E1 (K / 2 / INR 2) h 2 D0 ltac:(unfold E; rewrite Rplus_0_r; field) B1 h ltac:(lra)) as R. unfold E in R. eapply Rle_trans; [exact R|]. right. cbn [INR]. field.
Qed.

(** ** Derivatives of the substitution *)
Definition radius2 (xi : R) : R := 30 * xi / (1 - xi ^ 3) + 45 * xi ^ 4 / (1 - xi ^ 3) ^ 2.
Definition radius3 (xi : R) : R := 30 / (1 - xi ^ 3) + 270 * xi ^ 3 / (1 - xi ^ 3) ^ 2 + 270 * xi ^ 6 / (1 - xi ^ 3) ^ 3.

Lemma radius'_der xi : xi < 1 -> is_derive radius' xi (radius2 xi).
Proof. intros Hx. pose proof (u_pos xi Hx) as P. unfold radius', radius2. eapply is_derive_eq; [auto_derive; [cbn [pow] in *; lra|reflexivity]|]. cbn [pow] in *. field. lra. Qed.
Lemma radius2_der xi : xi < 1 -> is_derive radius2 xi (radius3 xi).
Proof. intros Hx. pose proof (u_pos xi Hx) as P. unfold radius2, radius3. eapply is_derive_eq; [auto_derive; [|reflexivity]|]. { cbn [pow] in *. assert (1 - xi * (xi * (xi * 1)) <> 0) by lra. repeat split; try assumption. intros X. assert (0 < (1 - xi * (xi * (xi * 1))) * (1 - xi * (xi * (xi * 1)))) by nra. nra. } cbn [pow] in *. field. lra. Qed.

Section Rate.
Variables (H H1 H2 : R -> R) (M : R).
Hypothesis H_der : forall r, is_derive H r (H1 r).
Hypothesis H1_der : forall r, is_derive H1 r (H2 r).
Hypothesis B0 : forall r, 0 <= r -> Rabs (H r) <= M * exp (- r).
Hypothesis B1 : forall r, 0 <= r -> Rabs (H1 r) <= M * exp (- r).
Hypothesis B2 : forall r, 0 <= r -> Rabs (H2 r) <= M * exp (- r).

Lemma H_cont r : continuous H r.
Proof. apply (ex_derive_continuous (V := R_NormedModule)). exists (H1 r). apply H_der. Qed.

Let A (xi : R) : R := RInt H 0 (radius xi).
Let G (xi : R) : R := H (radius xi) * radius' xi.
Let G1 (xi : R) : R := H1 (radius xi) * radius' xi ^ 2 + H (radius xi) * radius2 xi.
Let G2 (xi : R) : R := H2 (radius xi) * radius' xi ^ 3 + 3 * H1 (radius xi) * radius' xi * radius2 xi + H (radius xi) * radius3 xi.

Lemma comp_der (f f' : R -> R) xi : (forall r, is_derive f r (f' r)) -> xi < 1 -> is_derive (fun x => f (radius x)) xi (f' (radius xi) * radius' xi).
Proof. intros D Hx. rewrite Rmult_comm. apply (is_derive_comp (V := R_NormedModule) f radius); [apply D|apply radius_der, Hx]. Qed.

Lemma mul_der (f g : R -> R) x a b : is_derive f x a -> is_derive g x b -> is_derive (fun x => f x * g x) x (a * g x + f x * b).
Proof. intros Df Dg. apply (is_derive_mult (K := R_AbsRing) f g x a b Df Dg). intros; apply Rmult_comm. Qed.

Lemma G_der xi : xi < 1 -> is_derive G xi (G1 xi).
Proof.
  intros Hx. unfold G, G1. eapply is_derive_eq; [apply mul_der; [apply comp_der; [exact H_der|exact Hx]|apply radius'_der, Hx]|]. match goal with |- @eq _ ?a ?b => change (@eq R a b) end. cbv beta. ring.
Qed.

Lemma G1_der xi : xi < 1 -> is_derive G1 xi (G2 xi).
Proof.
  intros Hx. unfold G1, G2. eapply is_derive_eq.
  - apply (is_derive_plus (V := R_NormedModule) (fun xi => H1 (radius xi) * radius' xi ^ 2) (fun xi => H (radius xi) * radius2 xi)).
    + apply mul_der; [apply comp_der; [exact H1_der|exact Hx]|]. apply (is_derive_pow radius' 2 xi (radius2 xi)). apply radius'_der, Hx.
    + apply mul_der; [apply comp_der; [exact H_der|exact Hx]|apply radius2_der, Hx].
  - unfold plus; simpl. match goal with |- @eq _ ?a ?b => change (@eq R a b) end. cbv beta. ring.
Qed.

Lemma G2_bound xi : 0 <= xi < 1 -> Rabs (G2 xi) <= 7320 * M.
Proof.
  intros Hx. pose proof (u_pos xi ltac:(lra)) as P. pose proof (u_le_1 xi ltac:(lra)) as U1. pose proof (M_nonneg H M B0) as M0.
  pose proof (radius_nonneg xi Hx) as RN. pose proof (B0 _ RN) as b0. pose proof (B1 _ RN) as b1. pose proof (B2 _ RN) as b2. rewrite exp_radius in b0, b1, b2 by lra.
  assert (PW : forall k, 0 <= xi ^ k <= 1) by (intros k; split; [apply pow_le; lra|rewrite <- (pow1 k); apply pow_incr; lra]).
  set (u := 1 - xi ^ 3) in *. assert (IU : 0 < / u) by (apply Rinv_0_lt_compat, P). assert (IU1 : 1 <= / u) by (rewrite <- Rinv_1; apply Rinv_le_contravar; lra).
  set (w := / u) in *. assert (UW : u * w = 1) by (unfold w; apply Rinv_r; lra).
  assert (r1 : 0 <= radius' xi <= 15 * w). { unfold radius', Rdiv. fold u; fold w. pose proof (PW 2%nat). split; [apply Rmult_le_pos; lra|]. apply Rmult_le_compat_r; lra. }
  assert (w2 : w <= w ^ 2) by (simpl; nra). assert (w3 : w ^ 2 <= w ^ 3) by (simpl; nra).
  assert (W2 : 0 <= w ^ 2) by (apply pow2_ge_0). assert (W3 : 0 <= w ^ 3) by (apply pow_le; lra).
  assert (r2 : 0 <= radius2 xi <= 75 * w ^ 2).
  { unfold radius2, Rdiv. fold u. rewrite <- (pow_inv u 2); fold w. pose proof (PW 4%nat). split.
    - apply Rplus_le_le_0_compat; apply Rmult_le_pos; lra.
    - assert (30 * xi * w <= 30 * w) by (apply Rmult_le_compat_r; lra). assert (45 * xi ^ 4 * w ^ 2 <= 45 * w ^ 2) by (apply Rmult_le_compat_r; lra). lra. }
  assert (r3 : 0 <= radius3 xi <= 570 * w ^ 3).
  { unfold radius3, Rdiv. fold u. rewrite <- (pow_inv u 2), <- (pow_inv u 3); fold w. pose proof (PW 3%nat). pose proof (PW 6%nat). split.
    - repeat apply Rplus_le_le_0_compat; apply Rmult_le_pos; lra.
    - assert (270 * xi ^ 3 * w ^ 2 <= 270 * w ^ 2) by (apply Rmult_le_compat_r; lra). assert (270 * xi ^ 6 * w ^ 3 <= 270 * w ^ 3) by (apply Rmult_le_compat_r; lra). lra. }
  assert (C : M * u ^ 5 * w ^ 3 = M * u ^ 2). { replace (M * u ^ 5 * w ^ 3) with (M * u ^ 2 * (u * w) ^ 3) by ring. rewrite UW. ring. }
  assert (q1 : Rabs (H2 (radius xi) * radius' xi ^ 3) <= 3375 * (M * u ^ 5 * w ^ 3)).
  { rewrite Rabs_mult. rewrite (Rabs_pos_eq (radius' xi ^ 3)) by (apply pow_le; lra). replace (3375 * (M * u ^ 5 * w ^ 3)) with (M * u ^ 5 * (15 * w) ^ 3) by ring.
    apply Rmult_le_compat; [apply Rabs_pos|apply pow_le; lra|exact b2|apply pow_incr; lra]. }
  assert (q2 : Rabs (3 * H1 (radius xi) * radius' xi * radius2 xi) <= 3375 * (M * u ^ 5 * w ^ 3)).
  { replace (3 * H1 (radius xi) * radius' xi * radius2 xi) with (H1 (radius xi) * (3 * (radius' xi * radius2 xi))) by ring. rewrite Rabs_mult.
    assert (0 <= radius' xi * radius2 xi <= (15 * w) * (75 * w ^ 2)) by (split; [apply Rmult_le_pos; lra|apply Rmult_le_compat; lra]).
    rewrite (Rabs_pos_eq (3 * _)) by lra. replace (3375 * (M * u ^ 5 * w ^ 3)) with (M * u ^ 5 * (3 * (15 * w * (75 * w ^ 2)))) by ring.
    apply Rmult_le_compat; [apply Rabs_pos|lra|exact b1|lra]. }
  assert (q3 : Rabs (H (radius xi) * radius3 xi) <= 570 * (M * u ^ 5 * w ^ 3)).
  { rewrite Rabs_mult, (Rabs_pos_eq (radius3 xi)) by lra. replace (570 * (M * u ^ 5 * w ^ 3)) with (M * u ^ 5 * (570 * w ^ 3)) by ring. apply Rmult_le_compat; [apply Rabs_pos|lra|exact b0|lra]. }
  rewrite C in q1, q2, q3. assert (U2 : M * u ^ 2 <= M * 1) by (apply Rmult_le_compat_l; [exact M0|simpl; nra]).
  unfold G2. eapply Rle_trans; [apply Rabs_triang|]. pose proof (Rabs_triang (H2 (radius xi) * radius' xi ^ 3) (3 * H1 (radius xi) * radius' xi * radius2 xi)). lra.
Qed.

Lemma G_0 : G 0 = 0.
Proof. unfold G, radius'. rewrite !pow_i by lia. unfold Rdiv. ring. Qed.

Lemma zsum_trap (f : Z -> R) (h : R) n : (0 <= n)%Z -> zsum 0 n (fun i => h / 2 * (f i + f (i + 1)%Z)) = h * zsum 1 (n + 1) f + h / 2 * (f 0%Z - f n).
Proof.
  intros Hn. pattern n. apply natlike_ind; [| |exact Hn].
  - rewrite !zsum_nil by lia. field.
  - intros x Hx IH. unfold Z.succ. rewrite zsum_last, IH by lia. rewrite (zsum_last 1 (x + 1)) by lia. field.
Qed.

Theorem rule_rate g v n : (forall r, 0 < r -> H r = r ^ 2 * g r) -> half_int H v -> (1 <= n)%Z -> Rabs (quadrature g n - v) <= 720 * M / IZR (n + 1) ^ 2.
Proof.
  intros E Hv N1. pose proof (M_nonneg H M B0) as M0. pose proof (tail_grid H M H_cont B0 v n Hv N1) as T.
  assert (NN : IZR (n + 1) = IZR n + 1) by apply plus_IZR. assert (n1 : 1 <= IZR n) by (apply IZR_le; lia).
  rewrite (quad_sum H g n N1 E). change (fun i : Z => H (radius (IZR i / IZR (n + 1))) * radius' (IZR i / IZR (n + 1))) with (fun i : Z => G (IZR i / IZR (n + 1))).
  cbv beta in T. change (RInt H 0 (radius (IZR n / IZR (n + 1)))) with (A (IZR n / IZR (n + 1))) in T.
  set (N := IZR (n + 1)) in *. assert (NP : 2 <= N) by lra. set (h := / N). assert (h0 : 0 < h) by (apply Rinv_0_lt_compat; lra). assert (Nh : N * h = 1) by (apply Rinv_r; lra).
  assert (h2 : h <= / 2) by (apply Rinv_le_contravar; lra).
  assert (P : Rabs (A (IZR n / N) - A (IZR 0 / N) - zsum 0 n (fun i => h / 2 * (G (IZR i / N) + G (IZR (i + 1) / N)))) <= IZR n * (7320 * M / 12 * h ^ 3)).
  { apply (panels (fun i => A (IZR i / N)) (fun i => h / 2 * (G (IZR i / N) + G (IZR (i + 1) / N))) (7320 * M / 12 * h ^ 3) n ltac:(lia)). intros i Hi. cbv beta.
    pose proof (grid_in n i ltac:(lia)) as Ga. pose proof (grid_in n (i + 1) ltac:(lia)) as Gb. fold N in Ga, Gb.
    assert (D : IZR (i + 1) / N = IZR i / N + h) by (unfold h; rewrite plus_IZR; field; lra). rewrite D in *.
    apply (trapezoid_panel A G G1 G2 (7320 * M) (IZR i / N) h ltac:(lra)); intros x Hx.
    - apply (A_der H H_cont). lra.
    - apply G_der. lra.
    - apply G1_der. lra.
    - apply G2_bound. lra. }
  rewrite (zsum_trap (fun i => G (IZR i / N)) h n ltac:(lia)) in P. replace (IZR 0 / N) with 0 in P by (unfold Rdiv; ring). rewrite G_0 in P. assert (A0 : A 0 = 0) by apply (A_0 H). rewrite A0 in P.
  pose proof (grid_in n n ltac:(lia)) as Gn. fold N in Gn. pose proof (G_end H M B0 (IZR n / N) Gn) as GE. fold G in GE. change (H (radius (IZR n / N)) * radius' (IZR n / N)) with (G (IZR n / N)) in GE.
  replace (1 - IZR n / N) with h in GE by (unfold h; rewrite NN; field; lra).
  set (Sm := zsum 1 (n + 1) _) in *. replace (Sm / N) with (h * Sm) by (unfold h; field; lra). set (Gn_ := G (IZR n / N)) in *. set (An := A (IZR n / N)) in *.
  replace (243 * M / N ^ 5) with (243 * M * h ^ 5) in T by (unfold h; field; lra).
  replace (720 * M / N ^ 2) with (720 * (M * h ^ 2)) by (unfold h; field; lra).
  assert (X1 : IZR n * (7320 * M / 12 * h ^ 3) <= 610 * (M * h ^ 2)).
  { replace (IZR n * (7320 * M / 12 * h ^ 3)) with (610 * (M * h ^ 2) * (IZR n * h)) by field. rewrite <- (Rmult_1_r (610 * (M * h ^ 2))) at 2. apply Rmult_le_compat_l; [|nra]. pose proof (pow2_ge_0 h). assert (0 <= M * h ^ 2) by (apply Rmult_le_pos; lra). lra. }
  assert (X2 : h ^ 5 <= h ^ 2 / 8). { replace (h ^ 5) with (h ^ 2 * h ^ 3) by ring. unfold Rdiv. apply Rmult_le_compat_l; [apply pow2_ge_0|]. replace (/ 8) with ((/ 2) ^ 3) by field. apply pow_incr. lra. }
  assert (X3 : M * h ^ 5 <= M * h ^ 2 / 8) by (unfold Rdiv; rewrite Rmult_assoc; apply Rmult_le_compat_l; [exact M0|exact X2]).
  assert (X4 : Rabs (h / 2 * (0 - Gn_)) <= 608 * (M * h ^ 5)).
  { assert (hh : 0 <= h / 2) by lra. rewrite Rabs_mult, (Rabs_pos_eq (h / 2) hh). rewrite Rminus_0_l, Rabs_Ropp. apply Rle_trans with (h / 2 * (15 * M * (3 * h) ^ 4)); [apply Rmult_le_compat_l; lra|].
    replace (h / 2 * (15 * M * (3 * h) ^ 4)) with (1215 / 2 * (M * h ^ 5)) by field. assert (0 <= M * h ^ 5) by (apply Rmult_le_pos; [exact M0|apply pow_le; lra]). lra. }
  replace (h * Sm - v) with (- (An - 0 - (h * Sm + h / 2 * (0 - Gn_))) - (v - An) - h / 2 * (0 - Gn_)) by ring.
  unfold Rminus at 1. eapply Rle_trans; [apply Rabs_triang|]. rewrite Rabs_Ropp. unfold Rminus at 1. pose proof (Rabs_triang (- (An - 0 - (h * Sm + h / 2 * (0 - Gn_)))) (- (v - An))) as Y. rewrite !Rabs_Ropp in Y.
  assert (0 <= M * h ^ 2) by (apply Rmult_le_pos; [exact M0|apply pow2_ge_0]). lra.
Qed.

End Rate.
