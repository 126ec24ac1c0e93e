(** * C32, C45, C52, C55: angular momentum matrices, Chebyshev series and
    Dawson's integral, point comparison, matrix helpers *)

From Coq Require Import ZArith List Lia Bool Reals Lra.
From Verif Require Import Base Loops OneElModel OneElProofs LmatModel LmatProofs UtilProofs NumSpec
  DawsonTable DawsonModel DawsonProofs.
Import ListNotations.
Open Scope R_scope.

(** C32: for every L the routine for real harmonics fills three antisymmetric matrices
    that satisfy the rotation algebra with squared sum -L(L+1); two families of
    entries are given outright, which fixes the signs; nothing outside the
    (2L+1)x(2L+1) block is written. *)
Theorem C32_real_harmonics : forall L sz (x0 y0 z0 : arr R),
  (0 <= L)%Z -> ((2 * L + 1) * (2 * L + 1) <= sz)%Z ->
  adims x0 = [sz] -> adims y0 = [sz] -> adims z0 = [sz] ->
  exists x y z X Y Z, construct_matrices_rsh L (x0, y0, z0) = Ok (x, y, z) /\
    entries L x X /\ entries L y Y /\ entries L z Z /\ rotation_generators L X Y Z /\
    (forall p q, (- L <= p <= L)%Z -> (- L <= q <= L)%Z -> Z p q = if (q =? - p)%Z then - IZR p else 0) /\
    ((1 <= L)%Z -> X 0%Z (-1)%Z = sqrt (IZR (L * (L + 1)) / 2)) /\
    (forall k, ~ (0 <= k < (2 * L + 1) * (2 * L + 1))%Z -> acell x [k] = acell x0 [k] /\ acell y [k] = acell y0 [k] /\ acell z [k] = acell z0 [k]).
Proof. exact real_matrices. Qed.
Print Assumptions C32_real_harmonics.

(** C32: the matrices over complex harmonics: explicit ladder entries and the algebra
    (the y matrix holds i times the operator). *)
Theorem C32_complex_harmonics : forall L sz (x0 y0 z0 : arr R),
  (0 <= L)%Z -> ((2 * L + 1) * (2 * L + 1) <= sz)%Z ->
  adims x0 = [sz] -> adims y0 = [sz] -> adims z0 = [sz] ->
  exists x y z X Y Z, construct_matrices_csh L (x0, y0, z0) = Ok (x, y, z) /\
    entries L x X /\ entries L y Y /\ entries L z Z /\
    (forall p q, (- L <= p <= L)%Z -> (- L <= q <= L)%Z ->
       X p q + Y p q = sqrt (IZR ((L - q) * (L + q + 1))) * kron p (q + 1) /\
       X p q - Y p q = sqrt (IZR ((L + q) * (L - q + 1))) * kron p (q - 1) /\
       Z p q = IZR q * kron p q /\
       mprod L X Y p q - mprod L Y X p q = - Z p q /\
       mprod L Y Z p q - mprod L Z Y p q = - X p q /\
       mprod L Z X p q - mprod L X Z p q = Y p q /\
       mprod L X X p q - mprod L Y Y p q + mprod L Z Z p q = IZR (L * (L + 1)) * kron p q).
Proof. exact complex_matrices. Qed.
Print Assumptions C32_complex_harmonics.

Example C32_case : exists x y z X Y Z,
  construct_matrices_rsh 3 (aundef [49%Z], aundef [49%Z], aundef [49%Z]) = Ok (x, y, z) /\
  entries 3 x X /\ entries 3 y Y /\ entries 3 z Z /\ rotation_generators 3 X Y Z /\ Z 2%Z (-2)%Z = -2 /\ X 0%Z (-1)%Z = sqrt 6.
Proof.
  destruct (real_matrices 3 49 (aundef [49%Z]) (aundef [49%Z]) (aundef [49%Z])) as (x & y & z & X & Y & Z & E & A & B & C & G & HZ & HX & _);
    try reflexivity; try lia.
  exists x, y, z, X, Y, Z. split; [exact E|]. split; [exact A|]. split; [exact B|]. split; [exact C|]. split; [exact G|]. split.
  - rewrite HZ by lia. reflexivity.
  - rewrite HX by lia. f_equal. change (3 * (3 + 1))%Z with 12%Z. lra.
Qed.

(** C45: the Chebyshev routine returns sum_{k<=degree} a_k T_k(x) for every coefficient
    array and every x, where T_k is given by the three-term recurrence. *)
Theorem C45_clenshaw : forall x (a : arr R) (f : nat -> R) degree,
  (0 <= degree)%Z ->
  (forall k, (k <= Z.to_nat degree)%nat -> aget a [Z.of_nat k] = Ok (f k)) ->
  chebyshev_series x a degree = Ok (cheb_sum (Z.to_nat degree) f x).
Proof. exact clenshaw. Qed.
Print Assumptions C45_clenshaw.

(** C45: the polynomials in the preceding statement are the Chebyshev polynomials of the
    first kind. *)
Theorem C45_chebyshev_polynomials : forall n t,
  cheb n (cos t) = cos (INR n * t).
Proof. exact cheb_cos. Qed.
Print Assumptions C45_chebyshev_polynomials.

(** C45: Dawson's integral as computed is odd: for every x the results for x and -x are
    opposite (and one fails exactly when the other does). *)
Theorem C45_dawson_odd : forall fuel x,
  dawsons_integral fuel (- x) =
  match dawsons_integral fuel x with Ok v => Ok (- v) | Fail e => Fail e end.
Proof. exact dawson_odd. Qed.
Print Assumptions C45_dawson_odd.

(** C45: for every x the routine ends normally: no table or buffer is overrun and the
    power-series loop makes at most 113 iterations. *)
Theorem C45_dawson_total : forall x,
  exists v, dawsons_integral dawson_fuel x = Ok v.
Proof. exact dawson_total. Qed.
Print Assumptions C45_dawson_total.

Example C45_case : chebyshev_series 2 (aoflist [1; 1; 1]) 2 = Ok 10.
Proof.
  rewrite (clenshaw 2 (aoflist [1; 1; 1]) (fun k => nth k [1; 1; 1] 0) 2).
  - f_equal. unfold cheb_sum. change (Z.to_nat 2) with 2%nat. cbn [rsum nth]. rewrite !cheb_SS, cheb_1, cheb_0. lra.
  - lia.
  - intros k Hk. change (Z.to_nat 2) with 2%nat in Hk. rewrite (aget_oflist [1; 1; 1] (Z.of_nat k) 0) by (cbn; lia). rewrite Nat2Z.id. reflexivity.
Qed.

(** C52: two points are declared equal exactly when every coordinate differs by less than
    1e-12. *)
Theorem C52_equality_test : forall a b,
  points_are_equal a b = true <->
  Rabs (fst (fst a) - fst (fst b)) < 1e-12 /\ Rabs (snd (fst a) - snd (fst b)) < 1e-12 /\ Rabs (snd a - snd b) < 1e-12.
Proof. exact points_iff. Qed.
Print Assumptions C52_equality_test.

(** C52: reflexive. *)
Theorem C52_reflexive : forall a,
  points_are_equal a a = true.
Proof. exact points_refl. Qed.
Print Assumptions C52_reflexive.

(** C52: symmetric. *)
Theorem C52_symmetric : forall a b,
  points_are_equal a b = points_are_equal b a.
Proof. exact points_sym. Qed.
Print Assumptions C52_symmetric.

(** C52: not transitive: three points with two coincidences out of three. *)
Theorem C52_not_transitive : exists a b c,
  points_are_equal a b = true /\ points_are_equal b c = true /\ points_are_equal a c = false.
Proof. exact points_not_transitive. Qed.
Print Assumptions C52_not_transitive.

(** C52: points declared equal are at a distance below 2e-12. *)
Theorem C52_distance : forall a b,
  points_are_equal a b = true -> distance a b < 2e-12.
Proof. exact points_close. Qed.
Print Assumptions C52_distance.

(** C55: multiply_matrices adds the product A B to C, entry by entry, for all sizes, and
    leaves everything outside the M x N block of C as it was. *)
Theorem C55_matrix_product : forall M N K (A B C : arr R) (fa fb fc : Z -> Z -> R) sc,
  (0 <= M)%Z -> (0 <= N)%Z -> (0 <= K)%Z -> adims C = [sc] -> (M * N <= sc)%Z ->
  (forall i k, (0 <= i < M)%Z -> (0 <= k < K)%Z -> aget A [(i * K + k)%Z] = Ok (fa i k)) ->
  (forall k j, (0 <= k < K)%Z -> (0 <= j < N)%Z -> aget B [(k * N + j)%Z] = Ok (fb k j)) ->
  (forall i j, (0 <= i < M)%Z -> (0 <= j < N)%Z -> aget C [(i * N + j)%Z] = Ok (fc i j)) ->
  exists C', multiply_matrices M N K A B C = Ok C' /\ adims C' = [sc] /\
    (forall i j, (0 <= i < M)%Z -> (0 <= j < N)%Z ->
       aget C' [(i * N + j)%Z] = Ok (fc i j + rsum (Z.to_nat K) (fun k => fa i (Z.of_nat k) * fb (Z.of_nat k) j))) /\
    (forall ix, ~ (exists i, ix = [i] /\ (0 <= i < M * N)%Z) -> aget C' ix = aget C ix).
Proof. exact multiply_ok. Qed.
Print Assumptions C55_matrix_product.

Example C55_case : exists C', multiply_matrices 1 1 2 (aoflist [1; 2]) (aoflist [3; 4]) (aoflist [5]) = Ok C' /\ aget C' [0%Z] = Ok 16.
Proof.
  destruct (multiply_ok 1 1 2 (aoflist [1; 2]) (aoflist [3; 4]) (aoflist [5])
    (fun _ k => nth (Z.to_nat k) [1; 2] 0) (fun k _ => nth (Z.to_nat k) [3; 4] 0) (fun _ _ => 5) 1) as (C' & E & _ & G & _); try lia.
  - reflexivity.
  - intros i k Hi Hk. rewrite (aget_oflist [1; 2] _ 0) by (cbn; lia). do 2 f_equal. lia.
  - intros k j Hk Hj. rewrite (aget_oflist [3; 4] _ 0) by (cbn; lia). do 2 f_equal. lia.
  - intros i j Hi Hj. rewrite (aget_oflist [5] _ 5) by (cbn; lia). replace (i * 1 + j)%Z with 0%Z by lia. reflexivity.
  - exists C'. split; [exact E|]. assert (H := G 0%Z 0%Z ltac:(lia) ltac:(lia)). change (0 * 1 + 0)%Z with 0%Z in H. rewrite H. f_equal.
    change (Z.to_nat 2) with 2%nat. cbn [rsum]. change (Z.to_nat (Z.of_nat 0)) with 0%nat. change (Z.to_nat (Z.of_nat 1)) with 1%nat. cbn [nth]. lra.
Qed.

(** C55: the vector update adds a x to y on the first n entries and touches nothing else. *)
Theorem C55_vector_update : forall n a (x y : arr R) (fx fy : Z -> R) szx szy,
  (0 <= n)%Z -> adims x = [szx] -> adims y = [szy] -> (n <= szx)%Z -> (n <= szy)%Z ->
  (forall k, (0 <= k < n)%Z -> aget x [k] = Ok (fx k)) ->
  (forall k, (0 <= k < n)%Z -> aget y [k] = Ok (fy k)) ->
  exists y', daxpy n a x y = Ok y' /\ adims y' = [szy] /\
    (forall k, (0 <= k < n)%Z -> aget y' [k] = Ok (fy k + a * fx k)) /\
    (forall ix, ~ (exists k, ix = [k] /\ (0 <= k < n)%Z) -> aget y' ix = aget y ix).
Proof. exact daxpy_reads. Qed.
Print Assumptions C55_vector_update.
