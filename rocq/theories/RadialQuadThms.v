(** * Convergence of the radial quadrature: theorems *)

From Coq Require Import ZArith Reals Lra Lia List Bool.
From Coquelicot Require Import Coquelicot.
From Verif Require Import Base Sums OneElProofs OneElSpec NucPotSpec GaussMoment SpecModel SpecSpec BesselData ParamsModel RadialModel RadialSpec RadialTables Type2Spec LocalSpec
  RadialConv RadialRate RadialClass RadialConvSpec RadialQuad RadialQuad1 RadialMiss.
Import ListNotations.
Open Scope R_scope.

Lemma quad_limit_thm : forall (H g : R -> R) M v, (forall r, continuous H r) -> (forall r, 0 <= r -> Rabs (H r) <= M * exp (- r)) -> (forall r, 0 < r -> H r = r ^ 2 * g r) -> half_int H v ->
  forall e, 0 < e -> exists N0 : Z, forall n, (N0 <= n)%Z -> Rabs (quadrature g n - v) <= e.
Proof. intros H g M v C B E Hv. exact (rule_limit H M C B g v E Hv). Qed.

Lemma quad_rate_thm : forall (H H1 H2 g : R -> R) M v n, (forall r : R, is_derive H r (H1 r)) -> (forall r : R, is_derive H1 r (H2 r)) ->
  (forall r, 0 <= r -> Rabs (H r) <= M * exp (- r) /\ Rabs (H1 r) <= M * exp (- r) /\ Rabs (H2 r) <= M * exp (- r)) -> (forall r, 0 < r -> H r = r ^ 2 * g r) -> half_int H v -> (1 <= n)%Z ->
  Rabs (quadrature g n - v) <= 720 * M / IZR (n + 1) ^ 2.
Proof. intros H H1 H2 g M v n D1 D2 B E Hv Hn. apply (rule_rate H H1 H2 M D1 D2); try assumption; intros r Hr; apply B, Hr. Qed.

Lemma type2_own_thm : forall bessel pot LA bra CA LB ket CB l1 l2 n,
  own_bessel bessel -> (0 <= l1 <= 20)%Z -> (0 <= l2 <= 20)%Z -> exponents_pos bra -> exponents_pos ket -> (forall ni c a, In (ni, c, a) pot -> (0 <= ni)%Z /\ 0 <= a) -> 0 <= CA -> 0 <= CB ->
  exists q w K, radial_integral (radial_potential (kept_pot pot)) (norm_L LA) (norm_L LB) (kept bra) (kept ket) CA CB (Z.to_nat l1) (Z.to_nat l2) (Z.to_nat n) q /\
    weight_integral (kept_pot pot) (norm_L LA) (norm_L LB) (kept bra) (kept ket) CA CB (Z.to_nat n) w /\
    forall m, (1 <= m)%Z -> Rabs (quadrature (type2_integrand bessel pot LA bra CA LB ket CB l1 l2 n) m - q) <= 101 / 10 ^ 12 * w + K / IZR (m + 1) ^ 2.
Proof.
  intros bessel pot LA bra CA LB ket CB l1 l2 n HB H1 H2 Hb Hk Hp HA HC.
  destruct (type2_rule bessel pot LA bra CA LB ket CB l1 l2 n (501 / 10 ^ 13) Hb Hk Hp HA HC ltac:(lra) (own_bessel_error _ _ HB H1) (own_bessel_error _ _ HB H2)) as (q & w & K & Q & W & B).
  exists q, w, K. split; [exact Q|]. split; [exact W|]. intros m Hm. eapply Rle_trans; [apply B, Hm|]. apply Rplus_le_compat_r. apply Rmult_le_compat_r; [|lra].
  destruct W as (X & L). assert (P : forall r, 0 < r -> 0 <= r ^ 2 * radial_potential (abs_pot (kept_pot pot)) r * bare_factor (norm_L LA) (abs_prims (kept bra)) CA r * bare_factor (norm_L LB) (abs_prims (kept ket)) CB r * r ^ Z.to_nat n).
  { intros r Hr. pose proof (Rle_trans _ _ _ (Rabs_pos _) (pot_abs (kept_pot pot) r Hr)) as P0.
    assert (FB : forall L f C, 0 <= bare_factor (norm_L L) (abs_prims f) C r).
    { intros L' f C'. pose proof (factor_bound L' f C' r (fun _ => 1) 1 ltac:(intros; cbv beta; rewrite Rabs_R1; lra)) as FB. pose proof (Rabs_pos (lsum (fun '(c, a) => c * norm_L L' a * (exp (- a * ((r - C') * (r - C'))) * 1)) f)). lra. }
    repeat apply Rmult_le_pos; try apply FB; try exact P0; try (apply pow_le; lra); try lra. }
  apply (is_lim_le_loc (fun _ => 0) _ p_infty 0 w) with (3 := L); [|apply is_lim_const]. exists 1. intros T HT. apply RInt_ge_0; [lra|apply X; lra|]. intros r Hr. apply P. lra.
Qed.

Lemma local_own_thm : forall bessel U NA NB a b A B C (l n : nat),
  own_bessel bessel -> (l <= 20)%nat -> charge_like U -> 0 < a + b ->
  exists q w, pair_radial U NA NB a b A B C l n q /\ half_int (fun r => r ^ 2 * Rabs (U r) * Rabs (pair_gauss NA NB a b A B C r) * r ^ n) w /\
    forall e, 0 < e -> exists N0, forall m, (N0 <= m)%Z ->
      Rabs (quadrature (fun r => U r * pair_gauss NA NB a b A B C r * bessel (Z.of_nat l) (pair_k a b A B C * r) * r ^ n) m - q) <= 501 / 10 ^ 13 * w + e.
Proof. intros bessel U NA NB a b A B C l n HB Hl HU Hp. apply local_rule; [exact HU|exact Hp|lra|]. apply own_bessel_error; [exact HB|lia]. Qed.

Lemma quad_case : exists H1 H2 M, (forall r : R, is_derive (gp 1 0 2) r (H1 r)) /\ (forall r : R, is_derive H1 r (H2 r)) /\
  (forall r, 0 <= r -> Rabs (gp 1 0 2 r) <= M * exp (- r) /\ Rabs (H1 r) <= M * exp (- r) /\ Rabs (H2 r) <= M * exp (- r)) /\
  (forall r, 0 < r -> gp 1 0 2 r = r ^ 2 * exp (- r ^ 2)) /\ half_int (gp 1 0 2) (gmom 2 1).
Proof.
  destruct (tame_gp 1 0 2 ltac:(lra)) as (H1 & H2 & M & _ & D1 & D2 & B). exists H1, H2, M. split; [exact D1|]. split; [exact D2|]. split; [exact B|].
  assert (E : forall r, gp 1 0 2 r = r ^ 2 * exp (- r ^ 2)) by (intros r; unfold gp; f_equal; f_equal; ring). split; [intros r _; apply E|].
  apply (NucPot.half_ext (fun r => r ^ 2 * exp (- (1) * r ^ 2))); [intros r _; rewrite E; do 2 f_equal; ring|]. apply gauss_moment. lra.
Qed.
