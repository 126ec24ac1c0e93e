(** * Convergence of the radial quadrature to the integral over the half line *)

From Coq Require Import ZArith Reals Lra Lia List Bool.
From Coquelicot Require Import Coquelicot.
From Verif Require Import Base Sums GaussInt NucPotSpec NucPot RadialSpec.
Open Scope R_scope.

Section Rule.
Variables (H : R -> R) (M : R).
Hypothesis H_cont : forall r, continuous H r.
Hypothesis H_small : forall r, 0 <= r -> Rabs (H r) <= M * exp (- r).

Let prim (b : R) : R := RInt H 0 b.
Let A (xi : R) : R := prim (radius xi).
Let G (xi : R) : R := H (radius xi) * radius' xi.

Lemma M_nonneg : 0 <= M.
Proof. pose proof (H_small 0 ltac:(lra)) as B. rewrite Ropp_0, exp_0 in B. pose proof (Rabs_pos (H 0)). lra. Qed.

Lemma H_int a b : ex_RInt H a b.
Proof. apply (ex_RInt_continuous (V := R_CompleteNormedModule)). intros; apply H_cont. Qed.

Lemma prim_derive b : is_derive prim b (H b).
Proof.
  apply (is_derive_RInt (V := R_NormedModule) H prim 0 b); [|apply H_cont]. exists (mkposreal 1 ltac:(lra)). intros y _. apply (RInt_correct (V := R_CompleteNormedModule)), H_int.
Qed.

Lemma u_fact xi : 1 - xi ^ 3 = (1 - xi) * (1 + xi + xi ^ 2).
Proof. ring. Qed.
Lemma u_pos xi : xi < 1 -> 0 < 1 - xi ^ 3.
Proof. intros Hx. rewrite u_fact. apply Rmult_lt_0_compat; [lra|]. pose proof (pow2_ge_0 (xi + 1 / 2)). nra. Qed.
Lemma u_le xi : 0 <= xi <= 1 -> 1 - xi ^ 3 <= 3 * (1 - xi).
Proof. intros Hx. rewrite u_fact. assert (xi ^ 2 <= 1) by (cbn [pow]; nra). rewrite (Rmult_comm 3). apply Rmult_le_compat_l; lra. Qed.
Lemma u_le_1 xi : 0 <= xi -> 1 - xi ^ 3 <= 1.
Proof. intros Hx. pose proof (pow_le xi 3 Hx). lra. Qed.

Lemma radius_nonneg xi : 0 <= xi < 1 -> 0 <= radius xi.
Proof.
  intros Hx. unfold radius. assert (ln (1 - xi ^ 3) <= 0); [|lra]. rewrite <- ln_1. pose proof (u_pos xi ltac:(lra)) as P. pose proof (u_le_1 xi ltac:(lra)) as [L|E]; [left; apply ln_increasing; assumption|rewrite E; right; reflexivity].
Qed.

Lemma exp_radius xi : xi < 1 -> exp (- radius xi) = (1 - xi ^ 3) ^ 5.
Proof.
  intros Hx. unfold radius. replace (- (-5 * ln (1 - xi ^ 3))) with (INR 5 * ln (1 - xi ^ 3)) by (cbn [INR]; ring). rewrite <- ln_pow by (apply u_pos, Hx). apply exp_ln, pow_lt, u_pos, Hx.
Qed.

Lemma radius_der xi : xi < 1 -> is_derive radius xi (radius' xi).
Proof. intros Hx. pose proof (u_pos xi Hx) as P. unfold radius, radius'. eapply is_derive_eq; [auto_derive; [cbn [pow] in *; lra|reflexivity]|]. cbn [pow] in *. field. lra. Qed.

Lemma A_der xi : xi < 1 -> is_derive A xi (G xi).
Proof.
  intros Hx. unfold A, G. rewrite Rmult_comm. apply (is_derive_comp (V := R_NormedModule) prim radius); [apply prim_derive|apply radius_der, Hx].
Qed.

Lemma A_0 : A 0 = 0.
Proof. unfold A, prim, radius. replace (1 - 0 ^ 3) with 1 by ring. rewrite ln_1, Rmult_0_r. apply (RInt_point (V := R_CompleteNormedModule)). Qed.

Lemma G_small xi : 0 <= xi < 1 -> Rabs (G xi) <= 15 * M * (1 - xi ^ 3) ^ 4.
Proof.
  intros Hx. unfold G. rewrite Rabs_mult. pose proof (H_small (radius xi) (radius_nonneg xi Hx)) as B. rewrite exp_radius in B by lra. pose proof (u_pos xi ltac:(lra)) as P.
  assert (R0 : 0 <= radius' xi <= 15 / (1 - xi ^ 3)).
  { unfold radius', Rdiv. split; [apply Rmult_le_pos; [|left; apply Rinv_0_lt_compat, P]|apply Rmult_le_compat_r; [left; apply Rinv_0_lt_compat, P|]]; cbn [pow]; nra. }
  rewrite (Rabs_pos_eq (radius' xi)) by lra. set (u := 1 - xi ^ 3) in *.
  apply Rle_trans with (M * u ^ 5 * (15 / u)); [apply Rmult_le_compat; try apply Rabs_pos; lra|]. right. field. lra.
Qed.

Lemma G_end xi : 0 <= xi < 1 -> Rabs (G xi) <= 15 * M * (3 * (1 - xi)) ^ 4.
Proof.
  intros Hx. eapply Rle_trans; [apply G_small, Hx|]. apply Rmult_le_compat_l; [pose proof M_nonneg; lra|]. apply pow_incr. split; [left; apply u_pos; lra|apply u_le; lra].
Qed.

(** the tail *)
Lemma tail_bound v b : half_int H v -> 0 <= b -> Rabs (v - prim b) <= M * exp (- b).
Proof.
  intros (_ & L) Hb.
  assert (B : forall T, b <= T -> Rabs (prim T - prim b) <= M * exp (- b)).
  { intros T HT. assert (E : prim T - prim b = RInt H b T).
    { unfold prim. rewrite <- (RInt_Chasles (V := R_CompleteNormedModule) H 0 b T) by apply H_int. unfold plus; simpl. ring. }
    rewrite E.
    assert (J : is_RInt (V := R_NormedModule) (fun r => M * exp (- r)) b T (M * exp (- b) - M * exp (- T))).
    { replace (M * exp (- b) - M * exp (- T)) with (minus (- (M * exp (- T))) (- (M * exp (- b)))) by (unfold minus, plus, opp; simpl; ring).
      apply (is_RInt_derive (V := R_CompleteNormedModule) (fun r => - (M * exp (- r)))).
      - intros x _. auto_derive; [exact I|ring].
      - intros x _. apply (ex_derive_continuous (V := R_NormedModule)). auto_derive. exact I. }
    eapply Rle_trans; [apply (norm_RInt_le (V := R_NormedModule) H (fun r => M * exp (- r)) b T (RInt H b T) _ HT)|].
    - intros x Hx. apply H_small. lra.
    - apply (RInt_correct (V := R_CompleteNormedModule)), H_int.
    - exact J.
    - pose proof (exp_pos (- T)). pose proof M_nonneg. assert (0 <= M * exp (- T)) by (apply Rmult_le_pos; lra). lra. }
  assert (LB : is_lim (fun T => prim T - prim b) p_infty (v - prim b)).
  { apply (is_lim_minus (fun T => prim T) (fun _ => prim b) p_infty v (prim b)); [exact L|apply is_lim_const|reflexivity]. }
  apply Rabs_le. split.
  - refine (is_lim_le_loc (fun _ => - (M * exp (- b))) (fun T => prim T - prim b) p_infty (- (M * exp (- b))) (v - prim b) _ (is_lim_const _ _) LB).
    exists b. intros T HT. pose proof (B T ltac:(lra)) as Q. apply Rabs_le_between in Q. lra.
  - refine (is_lim_le_loc (fun T => prim T - prim b) (fun _ => M * exp (- b)) p_infty (v - prim b) (M * exp (- b)) _ LB (is_lim_const _ _)).
    exists b. intros T HT. pose proof (B T ltac:(lra)) as Q. apply Rabs_le_between in Q. lra.
Qed.

(** ** The sum *)
Lemma quad_sum g n : (1 <= n)%Z -> (forall r, 0 < r -> H r = r ^ 2 * g r) -> quadrature g n = zsum 1 (n + 1) (fun i => G (IZR i / IZR (n + 1))) / IZR (n + 1).
Proof.
  intros Hn E. unfold quadrature. f_equal. apply zsum_ext. intros i Hi. cbv zeta. unfold G.
  assert (X : 0 < IZR i / IZR (n + 1) < 1).
  { assert (0 < IZR (n + 1)) by (apply IZR_lt; lia). assert (0 < IZR i) by (apply IZR_lt; lia). assert (IZR i < IZR (n + 1)) by (apply IZR_lt; lia).
    split; [apply Rdiv_lt_0_compat; assumption|]. apply Rmult_lt_reg_r with (IZR (n + 1)); [assumption|]. unfold Rdiv. rewrite Rmult_assoc, Rinv_l, Rmult_1_r, Rmult_1_l by lra. assumption. }
  rewrite (E (radius _)); [ring|]. unfold radius. assert (ln (1 - (IZR i / IZR (n + 1)) ^ 3) < 0); [|lra]. rewrite <- ln_1. apply ln_increasing; [apply u_pos; lra|]. pose proof (pow_lt _ 3 (proj1 X)). lra.
Qed.

(** panels add up *)
Lemma panels (f T : Z -> R) (e : R) n : (0 <= n)%Z -> (forall i, (0 <= i < n)%Z -> Rabs (f (i + 1)%Z - f i - T i) <= e) -> Rabs (f n - f 0%Z - zsum 0 n T) <= IZR n * e.
Proof.
  intros Hn. pattern n. apply natlike_ind; [| |exact Hn].
  - intros _. rewrite (zsum_nil 0 0) by lia. replace (f 0%Z - f 0%Z - 0) with 0 by ring. rewrite Rabs_R0. lra.
  - intros x Hx IH HE. unfold Z.succ in *. rewrite zsum_last by lia. rewrite plus_IZR.
    replace (f (x + 1)%Z - f 0%Z - (zsum 0 x T + T x)) with ((f x - f 0%Z - zsum 0 x T) + (f (x + 1)%Z - f x - T x)) by ring.
    eapply Rle_trans; [apply Rabs_triang|]. specialize (IH ltac:(intros; apply HE; lia)). specialize (HE x ltac:(lia)). lra.
Qed.

(** ** The limit *)
Let GX (xi : R) : R := if Rlt_dec xi 1 then G xi else 0.

Lemma GX_in xi : xi < 1 -> GX xi = G xi.
Proof. intros Hx. unfold GX. destruct (Rlt_dec xi 1); [reflexivity|contradiction]. Qed.

Lemma G_cont xi : xi < 1 -> continuous G xi.
Proof.
  intros Hx. unfold G. apply (continuous_mult (K := R_AbsRing) (fun x => H (radius x)) radius').
  - apply (continuous_comp radius H); [|apply H_cont]. apply (ex_derive_continuous (V := R_NormedModule)). exists (radius' xi). apply radius_der, Hx.
  - apply (ex_derive_continuous (V := R_NormedModule)). unfold radius'. pose proof (u_pos xi Hx). auto_derive. cbn [pow] in *. lra.
Qed.

Lemma GX_cont xi : 0 <= xi <= 1 -> continuity_pt GX xi.
Proof.
  intros [H0 [H1|H1]].
  - apply continuity_pt_filterlim. apply (continuous_ext_loc GX G xi); [|apply G_cont, H1].
    exists (mkposreal (1 - xi) ltac:(lra)). intros y Hy. symmetry. apply GX_in. change (Rabs (y - xi) < 1 - xi) in Hy. apply Rabs_def2 in Hy. lra.
  - subst xi. intros e He. pose proof M_nonneg as M0. set (K := 15 * M * 81 + 1). assert (K0 : 0 < K) by (unfold K; lra).
    exists (Rmin 1 (e / K)). assert (E0 : 0 < e / K) by (apply Rdiv_lt_0_compat; lra). split; [apply Rmin_pos; lra|].
    intros x [_ Hx]. unfold dist in *; simpl in *. unfold R_dist in *. unfold GX at 2. destruct (Rlt_dec 1 1); [lra|]. rewrite Rminus_0_r.
    pose proof (Rmin_l 1 (e / K)). pose proof (Rmin_r 1 (e / K)). unfold GX. destruct (Rlt_dec x 1) as [L|L]; [|rewrite Rabs_R0; exact He].
    apply Rabs_def2 in Hx. assert (X : 0 <= x < 1) by lra. eapply Rle_lt_trans; [apply G_end, X|].
    set (d := 1 - x). assert (D : 0 < d < 1 /\ d < e / K) by (unfold d; lra). destruct D as [D D2].
    assert (P : d ^ 4 <= d). { rewrite <- (pow_1 d) at 2. simpl. assert (d * d <= d) by nra. assert (0 <= d * d) by nra. assert (d * (d * d) <= d) by nra. assert (0 <= d * (d*d)) by nra. nra. }
    rewrite Rpow_mult_distr. replace (3 ^ 4) with 81 by ring.
    apply Rle_lt_trans with (K * d).
    + unfold K. assert (0 <= 15 * M * 81) by lra. replace (15 * M * (81 * d ^ 4)) with ((15 * M * 81) * d ^ 4) by ring. assert ((15 * M * 81) * d ^ 4 <= (15 * M * 81) * d) by (apply Rmult_le_compat_l; assumption). lra.
    + replace e with (K * (e / K)) by (field; lra). apply Rmult_lt_compat_l; assumption.
Qed.

Lemma tail_grid v n : half_int H v -> (1 <= n)%Z -> Rabs (v - A (IZR n / IZR (n + 1))) <= 243 * M / IZR (n + 1) ^ 5.
Proof.
  intros Hv Hn. assert (0 < IZR (n + 1)) by (apply IZR_lt; lia). assert (0 < IZR n) by (apply IZR_lt; lia).
  set (xi := IZR n / IZR (n + 1)). assert (E : 1 - xi = / IZR (n + 1)) by (unfold xi; rewrite plus_IZR in *; field; lra).
  assert (0 < / IZR (n + 1)) by (apply Rinv_0_lt_compat; assumption). assert (0 < xi) by (apply Rdiv_lt_0_compat; assumption).
  eapply Rle_trans; [apply tail_bound; [exact Hv|apply radius_nonneg; lra]|]. rewrite exp_radius by lra.
  replace (243 * M / IZR (n + 1) ^ 5) with (M * (3 * (1 - xi)) ^ 5) by (rewrite E; field; lra).
  apply Rmult_le_compat_l; [apply M_nonneg|]. apply pow_incr. split; [left; apply u_pos; lra|apply u_le; lra].
Qed.

Lemma grid_in n i : (0 <= i <= n)%Z -> 0 <= IZR i / IZR (n + 1) < 1.
Proof.
  intros Hi. assert (0 < IZR (n + 1)) by (apply IZR_lt; lia). assert (0 <= IZR i) by (apply IZR_le; lia). assert (IZR i < IZR (n + 1)) by (apply IZR_lt; lia).
  split; [apply Rmult_le_pos; [assumption|left; apply Rinv_0_lt_compat; assumption]|]. apply Rmult_lt_reg_r with (IZR (n + 1)); [assumption|]. unfold Rdiv. rewrite Rmult_assoc, Rinv_l, Rmult_1_r, Rmult_1_l by lra. assumption.
Qed.

Lemma A_mvt a b : a < b -> b < 1 -> exists c, a < c < b /\ A b - A a = G c * (b - a).
Proof.
  intros Hab Hb. destruct (MVT_cor2 A G a b Hab) as (c & E & Hc); [|exists c; split; [exact Hc|exact E]].
  intros c Hc. apply is_derive_Reals, A_der. lra.
Qed.

Theorem rule_limit g v : (forall r, 0 < r -> H r = r ^ 2 * g r) -> half_int H v ->
  forall e, 0 < e -> exists N0 : Z, forall n, (N0 <= n)%Z -> Rabs (quadrature g n - v) <= e.
Proof.
  intros E Hv e He. pose proof M_nonneg as M0.
  destruct (@Heine_cor2 GX 0 1 GX_cont (mkposreal (e / 2) ltac:(lra))) as [[d Hd] U]. cbn [pos] in U.
  set (K := 243 * M). set (m := Rmax (/ d) (2 * K / e)).
  exists (Z.max 1 (Rdefinitions.up m)). intros n Hn.
  assert (N1 : (1 <= n)%Z) by lia. assert (Hm : m < IZR n).
  { destruct (archimed m) as [Hm _]. apply Rlt_le_trans with (IZR (Rdefinitions.up m)); [lra|]. apply IZR_le. lia. }
  pose proof (Rmax_l (/ d) (2 * K / e)) as m1. pose proof (Rmax_r (/ d) (2 * K / e)) as m2. fold m in m1, m2.
  assert (NN : IZR (n + 1) = IZR n + 1) by apply plus_IZR. assert (n1 : 1 <= IZR n) by (apply IZR_le; lia).
  set (N := IZR (n + 1)) in *. assert (NP : 0 < N) by lra.
  assert (ND : / N < d). { rewrite <- (Rinv_inv d). apply Rinv_lt_contravar; [apply Rmult_lt_0_compat; [apply Rinv_0_lt_compat|]; lra|lra]. }
  assert (T : Rabs (v - A (IZR n / N)) <= e / 2).
  { eapply Rle_trans; [apply (tail_grid v n Hv N1)|]. fold N. apply Rle_trans with (K / N).
    - unfold K, Rdiv. apply Rmult_le_compat_l; [lra|]. apply Rinv_le_contravar; [exact NP|]. rewrite <- (pow_1 N) at 1. apply Rle_pow; [lra|lia].
    - apply Rmult_le_reg_r with N; [exact NP|]. unfold Rdiv. rewrite Rmult_assoc, Rinv_l, Rmult_1_r by lra.
      assert (K <= e / 2 * IZR n). { replace K with (e / 2 * (2 * K / e)) by (field; lra). apply Rmult_le_compat_l; lra. } rewrite NN, Rmult_plus_distr_l. lra. }
  assert (P : Rabs (A (IZR n / N) - A (IZR 0 / N) - zsum 0 n (fun i => G (IZR (i + 1) / N) / N)) <= IZR n * (e / 2 / N)).
  { apply (panels (fun i => A (IZR i / N)) (fun i => G (IZR (i + 1) / N) / N) (e / 2 / N) n ltac:(lia)). intros i Hi. cbv beta.
    pose proof (grid_in n i ltac:(lia)) as Ga. pose proof (grid_in n (i + 1) ltac:(lia)) as Gb. fold N in Ga, Gb.
    assert (D : IZR (i + 1) / N - IZR i / N = / N) by (rewrite plus_IZR; field; lra). assert (0 < / N) by (apply Rinv_0_lt_compat, NP).
    destruct (A_mvt (IZR i / N) (IZR (i + 1) / N) ltac:(lra) ltac:(lra)) as (c & Hc & Ec). rewrite Ec, D.
    replace (G c * / N - G (IZR (i + 1) / N) / N) with ((GX c - GX (IZR (i + 1) / N)) * / N) by (rewrite !GX_in by lra; unfold Rdiv; ring).
    rewrite Rabs_mult, (Rabs_pos_eq (/ N)) by lra. unfold Rdiv. apply Rmult_le_compat_r; [lra|]. left. apply U; try lra. rewrite Rabs_left; lra. }
  rewrite (quad_sum g n N1 E). fold N.
  assert (Q : zsum 1 (n + 1) (fun i => G (IZR i / N)) / N = zsum 0 n (fun i => G (IZR (i + 1) / N) / N)).
  { pose proof (zsum_shift 1 0 n (fun i => G (IZR i / N))) as SH. change (0 + 1)%Z with 1%Z in SH. rewrite <- SH. unfold Rdiv at 1. rewrite Rmult_comm, <- zsum_scal. apply zsum_ext. intros. unfold Rdiv. ring. }
  rewrite Q. replace (IZR 0 / N) with 0 in P by (unfold Rdiv; ring). rewrite A_0 in P. set (S := zsum 0 n _) in *.
  assert (IZR n * (e / 2 / N) <= e / 2). { replace (IZR n * (e / 2 / N)) with (e / 2 * (IZR n / N)) by (field; lra). pose proof (grid_in n n ltac:(lia)) as X. fold N in X. nra. }
  replace (S - v) with (- (A (IZR n / N) - 0 - S) - (v - A (IZR n / N))) by ring. eapply Rle_trans; [apply Rabs_triang|]. rewrite !Rabs_Ropp. lra.
Qed.

End Rule.
