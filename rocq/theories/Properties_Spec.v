(** * C38, C39, C44, C46, C60: the special functions

    [boys], [gfun], [bessK] are the functions defined by their integrals and
    [rfun] the finite sum of the asymptotic formula (SpecSpec.v);
    [dawson_int y] is the integral of exp(t^2 - y^2) from 0 to y.
    [holds_table0], [accurate_table0] say that bessel_table_0 holds given values
    and that these are within eps of the exact ones. *)

From Coq Require Import ZArith List Lia Bool Reals Lra.
From Coquelicot Require Import Coquelicot.
From Verif Require Import Base BinomModel SpecModel SpecSpec BoysThms GfunThms BesselProofs BesselAsym BesselThms BesselOrders.
Import ListNotations.
Open Scope R_scope.

(** C44: the Boys function is accurate to 1.5e-14 for orders up to 33 on [0,30] and up to 15 beyond, the literal table included. *)
Theorem C44_accuracy : forall n x,
  (0 <= n <= 33)%Z -> 0 <= x -> x <= 30 \/ (n <= 15)%Z ->
  exists v, boys_function n x = Ok v /\ Rabs (v - boys (Z.to_nat n) x) <= 15 / 10 ^ 15.
Proof. exact boys_accurate. Qed.
Print Assumptions C44_accuracy.

(** C44: all orders at once; nothing else of the array is written. *)
Theorem C44_values : forall x nmax sz b,
  (0 <= nmax <= 33)%Z -> 0 <= x -> x <= 30 \/ (nmax <= 15)%Z -> adims b = [sz] -> (nmax < sz)%Z ->
  exists b', boys_values x nmax b = Ok b' /\ adims b' = [sz] /\
    (forall n, (0 <= n <= nmax)%Z -> exists v, aget b' [n] = Ok v /\ Rabs (v - boys (Z.to_nat n) x) <= 15 / 10 ^ 15) /\
    (forall n, (nmax < n)%Z -> aget b' [n] = aget b [n]).
Proof. exact boys_values_accurate. Qed.
Print Assumptions C44_values.

(** C44: orders of 16 and more stop the process for x > 30. *)
Theorem C44_abort : forall n x,
  (16 <= n)%Z -> 30 < x -> boys_function n x = Fail AssertFailed.
Proof. exact boys_aborts. Qed.
Print Assumptions C44_abort.

(** C44: orders of 34 and more read outside the table. *)
Theorem C44_outside : forall n x,
  (34 <= n)%Z -> 0 <= x <= 30 -> boys_function n x = Fail OutOfBounds.
Proof. exact boys_outside. Qed.
Print Assumptions C44_outside.

(** C46: the relation the code solves upwards and downwards holds of the exact functions. *)
Theorem C46_recurrence : forall n x,
  (2 * INR n + 1) * gfun n x + 2 * x * gfun (S n) x = 1.
Proof. exact gfun_rec. Qed.
Print Assumptions C46_recurrence.

(** C46: the series, stopped by its own test, never exceeds the exact value and misses it by at most 1.2e-14. *)
Theorem C46_series : forall n x,
  (0 <= n <= 1000)%Z -> 0 <= x <= 12 -> exists s, gfun_taylor n x = Ok s /\ 0 <= gfun (Z.to_nat n) x - s <= 12 / 10 ^ 15.
Proof. exact gfun_taylor_accurate. Qed.
Print Assumptions C46_series.

(** C46: x <= 12: every returned value is exact up to the error of the seed times the gain of the recurrence. *)
Theorem C46_small : forall x nmax sz g,
  (0 <= nmax <= 1000)%Z -> 0 <= x <= 12 -> forall daw, adims g = [sz] -> (nmax < sz)%Z ->
  exists g', gfun_values daw x nmax g = Ok g' /\ adims g' = [sz] /\
    (forall n, (0 <= n <= nmax)%Z -> exists v, aget g' [n] = Ok v /\ Rabs (v - gfun (Z.to_nat n) x) <= 12 / 10 ^ 15 * down_gain x (Z.to_nat n) (Z.to_nat (nmax - n))) /\
    (forall n, (nmax < n)%Z -> aget g' [n] = aget g [n]).
Proof. exact gfun_small. Qed.
Print Assumptions C46_small.

(** C46: x > 12: the same with a Dawson integral accurate to e; an exact seed (e = 0) gives exact values. *)
Theorem C46_large : forall x nmax sz g daw d e,
  (0 <= nmax)%Z -> 12 < x -> daw (sqrt x) = Ok d -> Rabs (d - dawson_int (sqrt x)) <= e -> adims g = [sz] -> (nmax < sz)%Z ->
  exists g', gfun_values daw x nmax g = Ok g' /\ adims g' = [sz] /\
    (forall n, (0 <= n <= nmax)%Z -> exists v, aget g' [n] = Ok v /\ Rabs (v - gfun (Z.to_nat n) x) <= e / sqrt x * up_gain x (Z.to_nat n)) /\
    (forall n, (nmax < n)%Z -> aget g' [n] = aget g [n]).
Proof. exact gfun_large. Qed.
Print Assumptions C46_large.

(** C38: the columns of the table are the derivatives of the exact function, up to 2^k times the error of the tabulated values. *)
Theorem C38_columns : forall tab0 t0 eps,
  holds_table0 tab0 t0 -> accurate_table0 t0 eps ->
  exists tab, pretabulate_bessel tab0 bessel_table_init = Ok tab /\ adims tab = [2000; 60; 10]%Z /\
    forall i l k, (0 <= i < 1601)%Z -> (0 <= l < 60)%Z -> (0 <= k < 5)%Z -> (k = 0 \/ l < 55)%Z -> (l + k <= 55)%Z \/ k = 0%Z ->
      exists v, aget tab [i; l; k] = Ok v /\ Rabs (v - Derive_n (bessK (Z.to_nat l)) (Z.to_nat k) (IZR i / 100)) <= 2 ^ Z.to_nat k * eps.
Proof. exact derivative_columns. Qed.
Print Assumptions C38_columns.

(** C38: for 0 <= x <= 16 and orders up to 51 the value returned is accurate to 1e-12 plus the error of the table. *)
Theorem C38_lookup : forall tab0 t0 eps tab,
  holds_table0 tab0 t0 -> accurate_table0 t0 eps -> pretabulate_bessel tab0 bessel_table_init = Ok tab ->
  forall n x, (0 <= n <= 51)%Z -> 0 <= x <= 16 -> exists v, modified_bessel_scaled tab n x = Ok v /\ Rabs (v - bessK (Z.to_nat n) x) <= eps * (102 / 100) + 1 / 10 ^ 12.
Proof. exact bessel_lookup. Qed.
Print Assumptions C38_lookup.

(** C39: x > 16: the value differs from the exact one by the exponentially small term, up to the rounding of the table of coefficients. *)
Theorem C39_difference : forall tab n x,
  (0 <= n < 50)%Z -> 16 < x ->
  exists v, modified_bessel_scaled tab n x = Ok v /\
    Rabs (v - (bessK (Z.to_nat n) x + (-1) ^ Z.to_nat n * rfun (Z.to_nat n) x * exp (- (2 * x)) / (2 * x))) <= 15 / 10 ^ 17 * rfun (Z.to_nat n) x / (2 * x).
Proof. exact bessel_large. Qed.
Print Assumptions C39_difference.

(** C39: orders of 50 and more read outside the table. *)
Theorem C39_outside : forall tab n x,
  (50 <= n)%Z -> 16 < x -> modified_bessel_scaled tab n x = Fail OutOfBounds.
Proof. exact bessel_beyond. Qed.
Print Assumptions C39_outside.

(** C60: orders up to 20 are accurate for every argument. *)
Theorem C60_accuracy : forall tab0 t0 eps tab,
  holds_table0 tab0 t0 -> accurate_table0 t0 eps -> pretabulate_bessel tab0 bessel_table_init = Ok tab ->
  forall n x, (0 <= n <= 20)%Z -> 0 <= x -> exists v, modified_bessel_scaled tab n x = Ok v /\ Rabs (v - bessK (Z.to_nat n) x) <= eps * (102 / 100) + 5 / 10 ^ 11.
Proof. exact bessel_all. Qed.
Print Assumptions C60_accuracy.

(** C60: orders the table offers for which the value returned is meaningless. *)
Theorem C60_high_orders : forall tab,
  exists n x v, (0 <= n < 50)%Z /\ 16 < x /\ modified_bessel_scaled tab n x = Ok v /\ 0 <= bessK (Z.to_nat n) x <= 1 /\ 2 < v.
Proof. exact bessel_large_wrong. Qed.
Print Assumptions C60_high_orders.

Example C44_case : (0 <= 20 <= 33)%Z /\ 0 <= 59 / 2 <= 30 /\ (16 <= 16)%Z /\ 30 < 61 / 2.
Proof. repeat split; try lia; lra. Qed.

Example C46_case : exists g', gfun_values (fun y => Ok (dawson_int y)) 20 6 (aconst [100]%Z 0) = Ok g' /\ exists v, aget g' [6%Z] = Ok v /\ v = gfun 6 20.
Proof.
  destruct (C46_large 20 6 100 (aconst [100]%Z 0) (fun y => Ok (dawson_int y)) (dawson_int (sqrt 20)) 0 ltac:(lia) ltac:(lra) eq_refl ltac:(unfold Rminus; rewrite Rplus_opp_r, Rabs_R0; lra) eq_refl ltac:(lia)) as (g' & E & _ & P & _).
  exists g'. split; [exact E|]. destruct (P 6%Z ltac:(lia)) as (v & Ev & B). exists v. split; [exact Ev|]. unfold Rdiv in B. rewrite !Rmult_0_l in B. pose proof (Rabs_pos (v - gfun (Z.to_nat 6) 20)). change (Z.to_nat 6) with 6%nat in *.
  destruct (Req_dec (v - gfun 6 20) 0) as [Q|Q]; [lra|]. apply Rabs_pos_lt in Q. lra.
Qed.

Example C38_case : exists tab v, pretabulate_bessel exact_tab0 bessel_table_init = Ok tab /\ modified_bessel_scaled tab 12 (1001 / 150) = Ok v /\ Rabs (v - bessK 12 (1001 / 150)) <= 1 / 10 ^ 12.
Proof.
  destruct (C38_columns _ _ _ exact_holds exact_accurate) as (tab & E & _). destruct (C38_lookup _ _ _ tab exact_holds exact_accurate E 12 (1001 / 150) ltac:(lia) ltac:(lra)) as (v & Ev & B).
  exists tab, v. split; [exact E|]. split; [exact Ev|]. change (Z.to_nat 12) with 12%nat in B. lra.
Qed.

Example C39_case : (0 <= 20 < 50)%Z /\ 16 < 33 / 2.
Proof. split; [lia|lra]. Qed.
