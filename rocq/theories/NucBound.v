(** * The potential of a spread out charge is attractive and weaker than that of a point charge *)

From Coq Require Import ZArith List Lia Reals Lra.
From Coquelicot Require Import Coquelicot.
From Verif Require Import NucPotSpec NucModel NucPot NucPotThms NucProofs LocalThms.
Open Scope R_scope.

(** a function on r > 0 with a nonnegative derivative except at one point *)
Lemma grows_except (w d : R -> R) r0 : (forall r, 0 < r -> continuous w r) -> (forall r, 0 < r -> r <> r0 -> is_derive w r (d r)) -> (forall r, 0 < r -> 0 <= d r) ->
  forall x y, 0 < x -> x <= y -> w x <= w y.
Proof.
  intros C D P.
  assert (Two : forall x y, 0 < x -> x <= y -> (forall r, x < r < y -> r <> r0) -> w x <= w y).
  { intros x y Hx Hxy Hn. destruct (Req_dec x y) as [-> | Hne]; [lra|].
    destruct (MVT_gen w x y d) as (c & Hc & E).
    - intros r Hr. rewrite Rmin_left, Rmax_right in Hr by lra. apply D; [lra|]. apply Hn. lra.
    - intros r Hr. rewrite Rmin_left, Rmax_right in Hr by lra. apply continuity_pt_filterlim. apply C. lra.
    - rewrite Rmin_left, Rmax_right in Hc by lra. pose proof (P c ltac:(lra)). nra. }
  intros x y Hx Hxy. destruct (Rlt_dec x r0) as [H1|H1]; [destruct (Rlt_dec r0 y) as [H2|H2]|].
  - apply Rle_trans with (w r0); apply Two; try lra; intros r Hr; lra.
  - apply Two; try lra. intros r Hr. lra.
  - apply Two; try lra. intros r Hr. lra.
Qed.

Lemma weaker_than_point V rho zn bad r0 : potential_of V rho zn bad -> (forall r, bad r -> r = r0) -> (forall r, 0 < r -> 0 <= rho r) ->
  (forall r, 0 < r -> - zn / r <= V r <= 0) /\ (forall r s, 0 < r -> r <= s -> V r <= V s).
Proof.
  intros ((w & D1 & C & D2) & L0 & Li) Hb Hr. set (W := fun r => r * V r) in *.
  assert (Mw : forall x y, 0 < x -> x <= y -> w x <= w y).
  { apply (grows_except w (fun r => 4 * PI * r * rho r) r0); [exact C| |].
    - intros r Hp Hn. apply D2; [exact Hp|]. intros B. apply Hn, Hb, B.
    - intros r Hp. pose proof PI_RGT_0. pose proof (Hr r Hp). assert (0 <= PI * r) by (apply Rmult_le_pos; lra). apply Rmult_le_pos; [nra|assumption]. }
  assert (MV : forall x y, 0 < x -> x < y -> exists c, x <= c <= y /\ W y - W x = w c * (y - x)).
  { intros x y Hx Hxy. destruct (MVT_gen W x y w) as (c & Hc & E).
    - intros r Hp. rewrite Rmin_left, Rmax_right in Hp by lra. apply D1. lra.
    - intros r Hp. rewrite Rmin_left, Rmax_right in Hp by lra. apply continuity_pt_filterlim. apply (ex_derive_continuous W r). exists (w r). apply D1. lra.
    - rewrite Rmin_left, Rmax_right in Hc by lra. exists c. split; [exact Hc|exact E]. }
  assert (Neg : forall x, 0 < x -> w x <= 0).
  { intros x Hx. apply Rnot_lt_le. intros Hp.
    apply is_lim_spec in Li. destruct (Li (mkposreal 1 Rlt_0_1)) as (N & HN). cbn [pos] in HN.
    set (y := Rmax (N + 1) (x + 1)). set (y2 := y + 3 / w x). assert (Hy : N < y /\ x < y) by (unfold y; pose proof (Rmax_l (N + 1) (x + 1)); pose proof (Rmax_r (N + 1) (x + 1)); lra).
    assert (P : 0 < 3 / w x) by (apply Rdiv_lt_0_compat; lra). destruct (MV y y2 ltac:(lra) ltac:(unfold y2; lra)) as (c & Hc & E).
    pose proof (HN y ltac:(lra)) as A1. pose proof (HN y2 ltac:(unfold y2; lra)) as A2. apply Rabs_def2 in A1, A2. fold (W y) in A1. fold (W y2) in A2.
    assert (w x <= w c) by (apply Mw; lra). replace (y2 - y) with (3 / w x) in E by (unfold y2; ring).
    assert (3 <= w c * (3 / w x)). { replace 3 with (w x * (3 / w x)) at 1 by (field; lra). apply Rmult_le_compat_r; lra. }
    lra. }
  assert (Dec : forall x y, 0 < x -> x <= y -> W y <= W x).
  { intros x y Hx [Hxy | ->]; [|lra]. destruct (MV x y Hx Hxy) as (c & Hc & E). pose proof (Neg c ltac:(lra)). nra. }
  (* between the limits *)
  assert (Up : forall x, 0 < x -> W x <= 0).
  { intros x Hx. apply Rnot_lt_le. intros Hp.
    destruct (L0 (ball 0 (W x)) (locally_ball 0 (mkposreal _ Hp))) as (e & He). set (y := Rmin x (e / 2)). assert (Hy : 0 < y /\ y <= x /\ y < e) by (unfold y; pose proof (cond_pos e); pose proof (Rmin_l x (e / 2)); pose proof (Rmin_r x (e / 2)); assert (0 < Rmin x (e / 2)) by (apply Rmin_pos; lra); lra).
    specialize (He y). assert (Bx : ball 0 e y) by (unfold ball; cbn; unfold AbsRing_ball, abs, minus, plus, opp; cbn; rewrite Ropp_0, Rplus_0_r, Rabs_pos_eq; lra).
    specialize (He Bx ltac:(lra)). unfold ball in He; cbn in He; unfold AbsRing_ball, abs, minus, plus, opp in He; cbn in He. rewrite Ropp_0, Rplus_0_r in He. pose proof (Rle_abs (y * V y)). pose proof (Dec y x ltac:(lra) ltac:(lra)). fold (W y) in *. lra. }
  assert (Lo : forall x, 0 < x -> - zn <= W x).
  { intros x Hx. apply Rnot_lt_le. intros Hp. apply is_lim_spec in Li. assert (He : 0 < - zn - W x) by lra. destruct (Li (mkposreal _ He)) as (N & HN). cbn [pos] in HN.
    set (y := Rmax (N + 1) x). assert (Hy : N < y /\ x <= y) by (unfold y; pose proof (Rmax_l (N + 1) x); pose proof (Rmax_r (N + 1) x); lra).
    pose proof (HN y ltac:(lra)) as A. apply Rabs_def2 in A. fold (W y) in A. pose proof (Dec x y Hx ltac:(lra)). lra. }
  split.
  - intros r Hp. pose proof (Up r Hp) as U. pose proof (Lo r Hp) as L. unfold W in U, L. split; [apply Rle_div_l; lra|]. nra.
  - (* W is convex and starts at 0 *)
    assert (Cv : forall x, 0 < x -> W x <= x * w x).
    { intros x Hx. apply Rnot_lt_le. intros Hp.
      assert (He : 0 < (W x - x * w x) / 2) by lra. destruct (L0 (ball 0 ((W x - x * w x) / 2)) (locally_ball 0 (mkposreal _ He))) as (e & Hee).
      set (dl := (W x - x * w x) / 2) in *. pose proof (Neg x Hx) as Nx. set (z := dl / (1 - w x)). assert (Hz : 0 < z) by (apply Rdiv_lt_0_compat; lra).
      assert (Ez : z * (1 - w x) = dl) by (unfold z; field; lra).
      set (y := Rmin (Rmin (x / 2) z) (e / 2)). assert (Hy : 0 < y /\ y < x /\ y < e /\ y <= z).
      { unfold y. pose proof (cond_pos e). pose proof (Rmin_l (Rmin (x / 2) z) (e / 2)). pose proof (Rmin_r (Rmin (x / 2) z) (e / 2)). pose proof (Rmin_l (x / 2) z). pose proof (Rmin_r (x / 2) z).
        assert (0 < Rmin (Rmin (x / 2) z) (e / 2)) by (repeat apply Rmin_pos; lra). lra. }
      specialize (Hee y). assert (Bx : ball 0 e y) by (unfold ball; cbn; unfold AbsRing_ball, abs, minus, plus, opp; cbn; rewrite Ropp_0, Rplus_0_r, Rabs_pos_eq; lra).
      specialize (Hee Bx ltac:(lra)). unfold ball in Hee; cbn in Hee; unfold AbsRing_ball, abs, minus, plus, opp in Hee; cbn in Hee. rewrite Ropp_0, Rplus_0_r in Hee. fold (W y) in Hee. apply Rabs_def2 in Hee.
      destruct (MV y x ltac:(lra) ltac:(lra)) as (c & Hc & E). assert (Q : w c <= w x) by (apply Mw; lra). assert (Q1 : w c * (x - y) <= w x * (x - y)) by (apply Rmult_le_compat_r; lra). assert (Q2 : y * (- w x) <= z * (- w x)) by (apply Rmult_le_compat_r; lra). unfold dl in *. lra. }
    assert (DV : forall r, 0 < r -> is_derive V r ((r * w r - W r) / r ^ 2)).
    { intros r Hp. apply (is_derive_ext_loc (fun s => W s / s)).
      - exists (mkposreal _ Hp). intros s Hs. unfold ball in Hs; cbn in Hs; unfold AbsRing_ball, abs, minus, plus, opp in Hs; cbn in Hs. apply Rabs_def2 in Hs. change (s * V s / s = V s). field. lra.
      - pose proof (is_derive_div W (fun s => s) r (w r) 1 (D1 r Hp) (is_derive_id r) ltac:(lra)) as Q. replace ((r * w r - W r) / r ^ 2) with ((w r * r - W r * 1) / r ^ 2) by (field; lra). exact Q. }
    intros r s Hp [Hs | ->]; [|lra]. destruct (MVT_gen V r s (fun r => (r * w r - W r) / r ^ 2)) as (c & Hc & E).
    + intros q Hq. rewrite Rmin_left, Rmax_right in Hq by lra. apply DV. lra.
    + intros q Hq. rewrite Rmin_left, Rmax_right in Hq by lra. apply continuity_pt_filterlim. apply (ex_derive_continuous V q). eexists. apply DV. lra.
    + rewrite Rmin_left, Rmax_right in Hc by lra. pose proof (Cv c ltac:(lra)) as Cc. assert (0 <= (c * w c - W c) / c ^ 2) by (apply Rmult_le_pos; [lra|left; apply Rinv_0_lt_compat; apply pow_lt; lra]). nra.
Qed.

(** ** The densities are not negative *)
Lemma rho_ball_nonneg r zn R_rms : 0 <= zn -> 0 < R_rms -> 0 <= charge_density_ball r zn R_rms.
Proof.
  intros Hz HR. unfold charge_density_ball. cbv zeta. set (R0 := sqrt (5 / 3) * R_rms). assert (P : 0 < R0) by (apply Rmult_lt_0_compat; [apply sqrt_lt_R0; lra|exact HR]). clearbody R0. destruct (Rle_dec r R0); [|lra].
  pose proof PI_RGT_0. apply Rmult_le_pos; [lra|]. left. apply Rinv_0_lt_compat. assert (0 < 4 * PI * R0) by (apply Rmult_lt_0_compat; lra). repeat (assumption || apply Rmult_lt_0_compat).
Qed.

Lemma rho_gauss_nonneg r zn R_rms : 0 <= zn -> 0 <= charge_density_gaussian r zn R_rms.
Proof. intros Hz. unfold charge_density_gaussian. cbv zeta. apply Rmult_le_pos; [apply Rmult_le_pos; [exact Hz|left; apply exp_pos]|left; apply exp_pos]. Qed.

Lemma norm_pos Sk c a : fermi_series Sk -> 0 < c -> 0 < a -> 0 < fermi_model_norm_factor Sk c a.
Proof.
  intros HS Hc Ha. pose proof (bubble_norm_thm Sk c a 0 HS Hc Ha ltac:(lra)) as H. unfold fermi_bubble_model_norm_factor in H. cbv zeta in H. unfold Rdiv in H. rewrite !Rmult_0_r, !Rmult_0_l in H. lra.
Qed.

Lemma rho_fermi_nonneg Sk r zn c a : fermi_series Sk -> 0 <= zn -> 0 < c -> 0 < a -> 0 <= charge_density_fermi Sk r zn c a.
Proof.
  intros HS Hz Hc Ha. pose proof (norm_pos Sk c a HS Hc Ha) as N. unfold charge_density_fermi. cbv zeta. pose proof PI_RGT_0. pose proof (exp_pos ((r - c) / a)).
  apply Rmult_le_pos; [apply Rmult_le_pos; [lra|]|]; left; apply Rinv_0_lt_compat; [|lra]. assert (0 < 4 * PI) by lra. repeat (assumption || apply Rmult_lt_0_compat).
Qed.

Lemma rho_bubble_nonneg Sk r zn c a k : fermi_series Sk -> 0 <= zn -> 0 < c -> 0 < a -> 0 <= k -> 0 <= charge_density_fermi_bubble Sk r zn c a k.
Proof.
  intros HS Hz Hc Ha Hk. pose proof (bubble_norm_thm Sk c a k HS Hc Ha Hk) as N. unfold charge_density_fermi_bubble. cbv zeta. pose proof PI_RGT_0. pose proof (exp_pos ((r - c) / a)).
  assert (0 <= (r / c) ^ 2) by apply pow2_ge_0. apply Rmult_le_pos; [apply Rmult_le_pos; [apply Rmult_le_pos; [lra|]|nra]|]; left; apply Rinv_0_lt_compat; [|lra]. assert (0 < 4 * PI) by lra. repeat (assumption || apply Rmult_lt_0_compat).
Qed.

(** C70 *)
Lemma attractive_thm : forall sf model zn p, good_model sf model p -> 0 <= zn ->
  (forall r, 0 < r -> - zn / r <= model_potential sf model zn p r <= 0) /\
  (forall r s, 0 < r -> r <= s -> model_potential sf model zn p r <= model_potential sf model zn p s).
Proof.
  intros sf model zn p [(-> & H) | [(-> & H & E) | [(-> & Hc & Ha & E) | [(-> & Hc & Ha & Hk & E) | ->]]]] Hz.
  - apply (weaker_than_point _ (fun r => charge_density_ball r zn (p 0%Z)) zn _ (sqrt (5 / 3) * p 0%Z) (proj1 (ball_thm zn (p 0%Z) H))); [intros r Hr; exact Hr|intros r _; apply rho_ball_nonneg; assumption].
  - apply (weaker_than_point _ (fun r => charge_density_gaussian r zn (p 0%Z)) zn _ 0 (proj1 (gauss_thm (sf_erf sf) zn (p 0%Z) E H))); [intros r []|intros r _; apply rho_gauss_nonneg; assumption].
  - apply (weaker_than_point _ (fun r => charge_density_fermi (sf_sk sf) r zn (p 0%Z) (p 1%Z)) zn _ 0 (proj1 (fermi_thm (sf_sk sf) zn (p 0%Z) (p 1%Z) E Hc Ha))); [intros r []|intros r _; apply rho_fermi_nonneg; assumption].
  - apply (weaker_than_point _ (fun r => charge_density_fermi_bubble (sf_sk sf) r zn (p 0%Z) (p 1%Z) (p 2%Z)) zn _ 0 (proj1 (bubble_thm (sf_sk sf) zn (p 0%Z) (p 1%Z) (p 2%Z) E Hc Ha (Rgt_not_eq _ _ (bubble_norm_thm _ _ _ _ E Hc Ha Hk))))); [intros r []|intros r _; apply rho_bubble_nonneg; assumption].
  - cbn [model_potential Z.eqb Pos.eqb]. unfold model_potential, coulomb_potential_point. cbn [Z.eqb Pos.eqb]. split.
    + intros r Hr. split; [lra|]. assert (0 < / r) by (apply Rinv_0_lt_compat; lra). unfold Rdiv. nra.
    + intros r s Hr Hs. assert (/ s <= / r) by (apply Rinv_le_contravar; lra). unfold Rdiv. nra.
Qed.
