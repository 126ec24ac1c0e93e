(** * C97: what the screening of type-2 radial integrals estimates

    [prim_integrand n l1 l2 CA CB aA aB eta]: the integrand r^n K_l1(2 aA CA r) K_l2(2 aB CB r)
    exp(-eta r^2 - aA (r-CA)^2 - aB (r-CB)^2) of a primitive radial integral, K being the scaled
    modified spherical Bessel functions (Screening.v); [exact_bessel]: those functions;
    [screening_type2_equation_for_maximum]: one step of the search for the maximum, None standing
    for NaN; [screening_radial_type2_integral_primitive]: the estimate of a primitive integral
    (RadialModel.v); [half_int f v]: v is the integral of f over the half line. *)

From Coq Require Import ZArith Reals Lra Lia List Bool.
From Coquelicot Require Import Coquelicot.
From Verif Require Import Base HeapModel SpecSpec LocalSpec NucPotSpec RadialModel Screening.
From Verif Require BesselThms BesselProofs LocalAbort.
Open Scope R_scope.

(** C97: at every radius a step of the search goes uphill: it increases the radius exactly where the integrand increases, decreases it
exactly where the integrand decreases, and stays exactly at its stationary points; NaN only where the integrand decreases. *)
Theorem C97_uphill : forall n l1 l2 CA CB aA aB eta r,
  0 < r -> 0 <= CA -> 0 <= CB -> 0 < aA -> 0 < aB -> 0 < eta -> (0 < CA \/ l1 = O) -> (0 < CB \/ l2 = O) ->
  exists D, is_derive (prim_integrand n l1 l2 CA CB aA aB eta) r D /\
    match screening_type2_equation_for_maximum exact_bessel r (Z.of_nat n) (Z.of_nat l1) (Z.of_nat l2) (aA + aB + eta) (2 * aA * CA) (2 * aB * CB) with
    | None => D < 0
    | Some s => (0 < D <-> r < s) /\ (D = 0 <-> s = r) /\ (D < 0 <-> s < r)
    end.
Proof. exact uphill_thm. Qed.
Print Assumptions C97_uphill.

(** C97: a value returned from the search is the integrand at a radius s reached by a step of length at most 0.01, times
sqrt(pi/p) (1 + erf(sqrt(p) s)) / 2. *)
Theorem C97_estimate : forall erf n l1 l2 CA CB aA aB eta v,
  0 <= CA -> 0 <= CB -> 0 < aA -> 0 < aB -> 0 < eta -> / 10 ^ 14 < 2 * aA * CA \/ l1 = O -> / 10 ^ 14 < 2 * aB * CB \/ l2 = O ->
  / 10 ^ 14 < 2 * aA * CA \/ / 10 ^ 14 < 2 * aB * CB ->
  screening_radial_type2_integral_primitive exact_bessel erf (Z.of_nat l1) (Z.of_nat l2) (Z.of_nat n) (CA ^ 2) (CB ^ 2) aA aB (2 * aA * CA) (2 * aB * CB) eta = Ok (ScrVal v) ->
  exists r s, screening_type2_equation_for_maximum exact_bessel r (Z.of_nat n) (Z.of_nat l1) (Z.of_nat l2) (aA + aB + eta) (2 * aA * CA) (2 * aB * CB) = Some s /\ Rabs (s - r) <= 1 / 100 /\ 0 <= s /\
    v = sqrt (PI / (aA + aB + eta)) * ((1 + erf (sqrt (aA + aB + eta) * s)) / 2) * prim_integrand n l1 l2 CA CB aA aB eta s.
Proof. exact estimate_thm. Qed.
Print Assumptions C97_estimate.

(** C97: with both shells on the centre of the potential the estimate is the integral itself. *)
Theorem C97_one_centre : forall bessel erf n aA aB eta,
  (n <= 31)%nat -> 0 < aA -> 0 < aB -> 0 < eta ->
  exists v, screening_radial_type2_integral_primitive bessel erf 0 0 (Z.of_nat n) 0 0 aA aB 0 0 eta = Ok (ScrVal v) /\
    half_int (prim_integrand n 0 0 0 0 aA aB eta) v.
Proof. exact one_centre_thm. Qed.
Print Assumptions C97_one_centre.

(** r^2 exp(-3 r^2) has its maximum at 1/sqrt 3: the search is there after one step *)
Example C97_case r : 0 < r -> (0 < 0 \/ O = O) /\
  screening_type2_equation_for_maximum exact_bessel r 2 0 0 (1 + 1 + 1) (2 * 1 * 0) (2 * 1 * 0) = Some (sqrt (1 / 3)).
Proof.
  intros Hr. split; [right; reflexivity|]. unfold screening_type2_equation_for_maximum, bessel_ratio, exact_bessel. cbn [Z.eqb Z.gtb Z.compare].
  change (Z.to_nat 1) with 1%nat. change (Z.to_nat 0) with 0%nat. replace (2 * 1 * 0 * r) with 0 by ring. rewrite BesselThms.bessK_0_at_0, BesselThms.bessK_at_0.
  destruct (Req_EM_T 1 0) as [B|_]; [lra|]. replace ((0 / 1 * 0 + 0 / 1 * 0 + 2) / (2 * (1 + 1 + 1))) with (1 / 3) by field.
  destruct (Rlt_dec (1 / 3) 0) as [B|_]; [lra|reflexivity].
Qed.

(** a shell at distance 1/1000 from a steep potential: the search ends after one step *)
Example C97_estimate_case erf : (0 <= 1 / 1000 /\ / 10 ^ 14 < 2 * 1 * (1 / 1000)) /\
  exists v, screening_radial_type2_integral_primitive exact_bessel erf 0 0 0 ((1 / 1000) ^ 2) (0 ^ 2) 1 1 (2 * 1 * (1 / 1000)) (2 * 1 * 0) (10 ^ 6) = Ok (ScrVal v).
Proof.
  split; [split; lra|]. unfold screening_radial_type2_integral_primitive. cbv zeta. rewrite !sqrt_pow2 by lra. cbn [Z.geb Z.compare Z.eqb andb].
  rewrite (Rabs_pos_eq (2 * 1 * (1 / 1000))) by lra. destruct (Rle_dec (2 * 1 * (1 / 1000)) (1 / 10 ^ 14)) as [B|_]; [lra|].
  set (r0 := (1 * (1 / 1000) + 1 * 0) / (1 + 1 + 10 ^ 6)). assert (R0 : 0 < r0 <= 1 / 1000) by (unfold r0; split; lra). cbn [find_maximum].
  unfold screening_type2_equation_for_maximum, bessel_ratio, exact_bessel. cbn [Z.eqb Z.gtb Z.compare]. change (Z.to_nat 1) with 1%nat. change (Z.to_nat 0) with 0%nat.
  replace (2 * 1 * 0 * r0) with 0 by ring. rewrite BesselThms.bessK_0_at_0, (BesselThms.bessK_at_0 0). set (x := 2 * 1 * (1 / 1000) * r0). assert (X : 0 < x <= 1 / 10 ^ 5) by (unfold x; lra).
  pose proof (BesselProofs.bessK_decr 0 x ltac:(lra)) as D. pose proof (BesselProofs.bessK_nonneg 1 x ltac:(lra)) as N. pose proof (LocalAbort.bessK_pos 0 x ltac:(lra)) as P.
  set (u := bessK 1 x) in *. set (w := bessK 0 x) in *. destruct (Req_EM_T w 0) as [B|_]; [lra|]. destruct (Req_EM_T 1 0) as [B|_]; [lra|].
  assert (Q : 0 <= u / w <= 1). { split; [apply Rmult_le_pos; [lra|left; apply Rinv_0_lt_compat; lra]|]. apply Rmult_le_reg_r with w; [lra|]. unfold Rdiv. rewrite Rmult_assoc, Rinv_l by lra. lra. }
  set (q := u / w) in *. assert (A : 0 <= q * x <= 1 / 10 ^ 5). { split; [apply Rmult_le_pos; lra|]. apply Rle_trans with (1 * x); [apply Rmult_le_compat_r; lra|lra]. }
  set (y := (q * x + 0 / 1 * 0 + 0) / (2 * (1 + 1 + 10 ^ 6))). assert (Y : 0 <= y <= (1 / 100) ^ 2) by (unfold y; lra).
  destruct (Rlt_dec y 0) as [B|_]; [lra|]. assert (S : 0 <= sqrt y <= 1 / 100). { split; [apply sqrt_pos|]. rewrite <- (sqrt_pow2 (1 / 100)) by lra. apply sqrt_le_1_alt. apply Y. }
  destruct (Rlt_dec (1 / 100) (Rabs (sqrt y - r0))) as [B|_]; [exfalso; assert (Rabs (sqrt y - r0) <= 1 / 100) by (apply Rabs_le; lra); lra|]. eexists. reflexivity.
Qed.
