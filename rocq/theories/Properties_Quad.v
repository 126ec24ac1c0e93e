(** * C76, C77: the radial quadrature and the integrals it stands for

    [quadrature g n] is the sum which the library forms on a grid of n points,
    [half_int f v] says that the integral of f over the half line is v,
    [radial_integral] and [pair_radial] are the radial integrals of a semilocal
    and of a local potential with the exact Bessel functions [bessK],
    [kept] leaves out the primitives whose coefficients the library ignores, and
    [own_bessel] says that the Bessel functions are those which the library
    computes with its own table. *)

From Coq Require Import ZArith Reals Lra Lia List Bool.
From Coquelicot Require Import Coquelicot.
From Verif Require Import Base Sums OneElProofs OneElSpec NucPotSpec GaussMoment SpecModel SpecSpec BesselData ParamsModel RadialModel RadialSpec RadialTables Type2Spec LocalSpec
  RadialConv RadialRate RadialClass RadialConvSpec RadialQuad RadialQuad1 RadialMiss RadialQuadThms.
Import ListNotations.
Open Scope R_scope.

(** C76: on finer and finer grids the sum tends to the integral for every continuous
    integrand which decays exponentially. *)
Theorem C76_limit : forall (H g : R -> R) M v, (forall r, continuous H r) -> (forall r, 0 <= r -> Rabs (H r) <= M * exp (- r)) -> (forall r, 0 < r -> H r = r ^ 2 * g r) -> half_int H v ->
  forall e, 0 < e -> exists N0 : Z, forall n, (N0 <= n)%Z -> Rabs (quadrature g n - v) <= e.
Proof. exact quad_limit_thm. Qed.
Print Assumptions C76_limit.

(** C76: the error on n points is at most 720 M / (n + 1)^2, where M bounds the
    integrand and its first two derivatives. *)
Theorem C76_rate : forall (H H1 H2 g : R -> R) M v n, (forall r : R, is_derive H r (H1 r)) -> (forall r : R, is_derive H1 r (H2 r)) ->
  (forall r, 0 <= r -> Rabs (H r) <= M * exp (- r) /\ Rabs (H1 r) <= M * exp (- r) /\ Rabs (H2 r) <= M * exp (- r)) -> (forall r, 0 < r -> H r = r ^ 2 * g r) -> half_int H v -> (1 <= n)%Z ->
  Rabs (quadrature g n - v) <= 720 * M / IZR (n + 1) ^ 2.
Proof. exact quad_rate_thm. Qed.
Print Assumptions C76_rate.

(** C76: radial integrals of semilocal potentials with Bessel functions of accuracy
    del: the limit is missed by at most del (2 + del) times the integral of the
    absolute values, and the error falls like the square of the step. *)
Theorem C76_semilocal : forall bessel pot LA bra CA LB ket CB l1 l2 n del,
  exponents_pos bra -> exponents_pos ket -> (forall ni c a, In (ni, c, a) pot -> (0 <= ni)%Z /\ 0 <= a) -> 0 <= CA -> 0 <= CB -> 0 <= del -> bessel_error bessel l1 del -> bessel_error bessel l2 del ->
  exists q w K, radial_integral (radial_potential (kept_pot pot)) (norm_L LA) (norm_L LB) (kept bra) (kept ket) CA CB (Z.to_nat l1) (Z.to_nat l2) (Z.to_nat n) q /\
    weight_integral (kept_pot pot) (norm_L LA) (norm_L LB) (kept bra) (kept ket) CA CB (Z.to_nat n) w /\
    forall m, (1 <= m)%Z -> Rabs (quadrature (type2_integrand bessel pot LA bra CA LB ket CB l1 l2 n) m - q) <= del * (2 + del) * w + K / IZR (m + 1) ^ 2.
Proof. exact type2_rule. Qed.
Print Assumptions C76_semilocal.

(** C76: the same with the Bessel functions of the library and no assumption left. *)
Theorem C76_semilocal_own : forall bessel pot LA bra CA LB ket CB l1 l2 n,
  own_bessel bessel -> (0 <= l1 <= 20)%Z -> (0 <= l2 <= 20)%Z -> exponents_pos bra -> exponents_pos ket -> (forall ni c a, In (ni, c, a) pot -> (0 <= ni)%Z /\ 0 <= a) -> 0 <= CA -> 0 <= CB ->
  exists q w K, radial_integral (radial_potential (kept_pot pot)) (norm_L LA) (norm_L LB) (kept bra) (kept ket) CA CB (Z.to_nat l1) (Z.to_nat l2) (Z.to_nat n) q /\
    weight_integral (kept_pot pot) (norm_L LA) (norm_L LB) (kept bra) (kept ket) CA CB (Z.to_nat n) w /\
    forall m, (1 <= m)%Z -> Rabs (quadrature (type2_integrand bessel pot LA bra CA LB ket CB l1 l2 n) m - q) <= 101 / 10 ^ 12 * w + K / IZR (m + 1) ^ 2.
Proof. exact type2_own_thm. Qed.
Print Assumptions C76_semilocal_own.

(** C76: radial integrals of local potentials (Coulomb-like at the origin). *)
Theorem C76_local : forall bessel U NA NB a b A B C (l n : nat) del,
  charge_like U -> 0 < a + b -> 0 <= del -> bessel_error bessel (Z.of_nat l) del ->
  exists q w, pair_radial U NA NB a b A B C l n q /\ half_int (fun r => r ^ 2 * Rabs (U r) * Rabs (pair_gauss NA NB a b A B C r) * r ^ n) w /\
    forall e, 0 < e -> exists N0, forall m, (N0 <= m)%Z ->
      Rabs (quadrature (fun r => U r * pair_gauss NA NB a b A B C r * bessel (Z.of_nat l) (pair_k a b A B C * r) * r ^ n) m - q) <= del * w + e.
Proof. exact local_rule. Qed.
Print Assumptions C76_local.

(** C76: the same with the Bessel functions of the library. *)
Theorem C76_local_own : forall bessel U NA NB a b A B C (l n : nat),
  own_bessel bessel -> (l <= 20)%nat -> charge_like U -> 0 < a + b ->
  exists q w, pair_radial U NA NB a b A B C l n q /\ half_int (fun r => r ^ 2 * Rabs (U r) * Rabs (pair_gauss NA NB a b A B C r) * r ^ n) w /\
    forall e, 0 < e -> exists N0, forall m, (N0 <= m)%Z ->
      Rabs (quadrature (fun r => U r * pair_gauss NA NB a b A B C r * bessel (Z.of_nat l) (pair_k a b A B C * r) * r ^ n) m - q) <= 501 / 10 ^ 13 * w + e.
Proof. exact local_own_thm. Qed.
Print Assumptions C76_local_own.

(** C77: whatever the tolerance, an integral which the library accepts as converged on
    its first two grids and which is wrong by more than 1/8. *)
Theorem C77_accepted_refuted : forall tol, 0 < tol -> exists a v Q, 0 < a /\
  adaptive 10000 2047 (fun r => 1 / r * pair_gauss (norm_L 0 a) (norm_L 0 a) a a far_point far_point origin3 r * exact_bessel 0 (pair_k a a far_point far_point origin3 * r) * r ^ 0) None tol v true /\
  pair_radial (fun r => 1 / r) (norm_L 0 a) (norm_L 0 a) a a far_point far_point origin3 0 0 Q /\ 1 / 8 < Rabs (v - Q).
Proof. exact accepted_miss. Qed.
Print Assumptions C77_accepted_refuted.

(** C77: two tight s functions at one point and the potential 1/r: the table returned by
    the library differs from the integral by more than 1/8. *)
Theorem C77_table_refuted : exists a Q, 0 < a /\ pair_radial (fun r => 1 / r) (norm_L 0 a) (norm_L 0 a) a a far_point far_point origin3 0 0 Q /\
  forall fuel par, (14 <= fuel)%nat ->
    exists t v, tabulate_radial_type1_integrals fuel par exact_bessel
        (mkRP1 (pair_k a a far_point far_point origin3) a a (separation far_point origin3 ^ 2) (separation far_point origin3 ^ 2) (4 * PI * norm_L 0 a * norm_L 0 a) (fun r => 1 / r)) 0 0 = Ok t /\
      get_radial_type1_integral t 0 0 = Ok v /\ 1 / 8 < Rabs (v - Q).
Proof. exact table_miss. Qed.
Print Assumptions C77_table_refuted.

Example C76_rate_case : exists H1 H2 M, (forall r : R, is_derive (gp 1 0 2) r (H1 r)) /\ (forall r : R, is_derive H1 r (H2 r)) /\
  (forall r, 0 <= r -> Rabs (gp 1 0 2 r) <= M * exp (- r) /\ Rabs (H1 r) <= M * exp (- r) /\ Rabs (H2 r) <= M * exp (- r)) /\
  (forall r, 0 < r -> gp 1 0 2 r = r ^ 2 * exp (- r ^ 2)) /\ half_int (gp 1 0 2) (gmom 2 1).
Proof. exact quad_case. Qed.

Example C76_own_case : exists bessel, own_bessel bessel.
Proof. exact own_bessel_exists. Qed.

(** a potential with the powers r^-2 and r^0, a contracted p function and an s function *)
Example C76_semilocal_case :
  let pot := [(0%Z, 3, 2); (2%Z, -1, 0)] in let bra := [(1, 1 / 2); (2, 5)] in let ket := [(1, 7)] in
  exponents_pos bra /\ exponents_pos ket /\ (forall ni c a, In (ni, c, a) pot -> (0 <= ni)%Z /\ 0 <= a) /\ 0 <= 1 /\ 0 <= 3 / 2.
Proof.
  repeat split; try (intros c a [E|[E|[]]]; inversion E; lra); try (intros c a [E|[]]; inversion E; lra); try lra;
    destruct H as [E|[E|[]]]; inversion E; try lia; try lra.
Qed.

Example C76_local_case : charge_like (fun r => 1 / r) /\ 0 < 1 / 2 + 3.
Proof. split; [exact inv_charge_like|lra]. Qed.
