(** * C33, C34, C54, C58: real spherical harmonics and angular integrals

    [real_sph l m] is the real spherical harmonic given by Rodrigues' formula,
    [sphere_int f v] says that v is the surface integral of f over the unit sphere,
    [init_tables st]: st is the table store that libgrpp_init builds. *)

From Coq Require Import ZArith Reals Lra Lia List Bool.
From Coquelicot Require Import Coquelicot.
From Verif Require Import Base Sums SphModel SphSpec SphThms.
Import ListNotations.
Open Scope R_scope.

(** C33: the integral of x^i y^j z^k over the unit sphere; the run aborts exactly when all exponents are even and their sum exceeds 29. *)
Theorem C33_sphere_monomials : forall i j k : nat,
  let run := integrate_unitary_sphere_polynomial (Z.of_nat i) (Z.of_nat j) (Z.of_nat k) in
  if Nat.even i && Nat.even j && Nat.even k && (29 <? i + j + k)%nat
  then run = Fail AssertFailed
  else exists v, run = Ok v /\ sphere_int (fun x y z => x ^ i * y ^ j * z ^ k) v.
Proof. exact sphere_monomials_thm. Qed.
Print Assumptions C33_sphere_monomials.

(** C33: the surface integral is unique, so the returned value is determined. *)
Theorem C33_value_unique : forall (f : R -> R -> R -> R) (u v : R), sphere_int f u -> sphere_int f v -> u = v.
Proof. exact sphere_unique_thm. Qed.
Print Assumptions C33_value_unique.

(** C34: no abort while L_A + L <= 14. Missing: 15 <= L_A + L <= 20, where it is false (below). *)
Theorem C34_no_abort_partial : forall st l L m a b c k arr d vals, init_tables st -> (L + (a + b + c) <= 14)%nat -> (l <= L + (a + b + c))%nat -> (Z.abs m <= Z.of_nat L)%Z ->
  adims arr = [d] -> (2 * Z.of_nat l + 1 <= d)%Z -> evaluate_real_spherical_harmonics_array st (Z.of_nat l) k arr = Ok vals ->
  exists v, angular_type2_integral st (Z.of_nat l) (Z.of_nat L) m (Z.of_nat a) (Z.of_nat b) (Z.of_nat c) vals = Ok v.
Proof. exact no_abort_thm. Qed.
Print Assumptions C34_no_abort_partial.

(** C34: for all documented L, L_A with L + L_A >= 15 there is an angular integral that aborts. *)
Theorem C34_abort : forall st L n arr d vals, init_tables st -> (L <= 10)%nat -> (n <= 10)%nat -> (15 <= L + n)%nat ->
  adims arr = [d] -> (2 * Z.of_nat (L + n) + 1 <= d)%Z -> evaluate_real_spherical_harmonics_array st (Z.of_nat (L + n)) (0, 0, 1) arr = Ok vals ->
  angular_type2_integral st (Z.of_nat (L + n)) (Z.of_nat L) 0 0 0 (Z.of_nat n) vals = Fail AssertFailed.
Proof. exact abort_thm. Qed.
Print Assumptions C34_abort.

(** C34: within the documented maxima an angular integral aborts. *)
Theorem C34_refuted : exists st L m a b c l k arr vals, init_tables st /\ (L <= 10)%nat /\ (a + b + c <= 10)%nat /\ (l <= L + (a + b + c))%nat /\ (Z.abs m <= Z.of_nat L)%Z /\
  evaluate_real_spherical_harmonics_array st (Z.of_nat l) k arr = Ok vals /\
  angular_type2_integral st (Z.of_nat l) (Z.of_nat L) m (Z.of_nat a) (Z.of_nat b) (Z.of_nat c) vals = Fail AssertFailed.
Proof. exact abort_refuted_thm. Qed.
Print Assumptions C34_refuted.

(** C54: the tables hold, for every component once, the coefficients of the direct formula. *)
Theorem C54_tables : forall st l m, init_tables st -> (l <= 40)%nat -> (Z.abs m <= Z.of_nat l)%Z ->
  exists t, get_real_spherical_harmonic_table st (Z.of_nat l) = Ok t /\
    (forall i, (0 <= i < rt_n t)%Z -> exists rx ry rz y : _,
       aget (rt_comb t) [3 * i]%Z = Ok rx /\ aget (rt_comb t) [3 * i + 1]%Z = Ok ry /\ aget (rt_comb t) [3 * i + 2]%Z = Ok rz /\
       (0 <= rx /\ 0 <= ry /\ 0 <= rz /\ rx + ry + rz = Z.of_nat l)%Z /\
       aget (rt_coef t) [(m + Z.of_nat l) * rt_n t + i]%Z = Ok y /\
       spherical_to_cartesian_coef (Z.of_nat l) m rx ry rz = Ok y) /\
    (forall rx ry rz, (0 <= rx)%Z -> (0 <= ry)%Z -> (0 <= rz)%Z -> (rx + ry + rz = Z.of_nat l)%Z ->
       exists i, (0 <= i < rt_n t)%Z /\ aget (rt_comb t) [3 * i]%Z = Ok rx /\ aget (rt_comb t) [3 * i + 1]%Z = Ok ry /\ aget (rt_comb t) [3 * i + 2]%Z = Ok rz).
Proof. exact tables_hold_coefficients_thm. Qed.
Print Assumptions C54_tables.

(** C54: the coefficients give the real spherical harmonics on the sphere, and the polynomial is harmonic. *)
Theorem C54_coefficients : forall l m, (l <= 40)%nat -> (Z.abs m <= Z.of_nat l)%Z ->
  exists coef : Z -> Z -> Z -> R,
    (forall r s t, (0 <= r)%Z -> (0 <= s)%Z -> (0 <= t)%Z -> (r + s + t = Z.of_nat l)%Z -> spherical_to_cartesian_coef (Z.of_nat l) m r s t = Ok (coef r s t)) /\
    forall comps, components_of l comps ->
      (forall x y z, x ^ 2 + y ^ 2 + z ^ 2 = 1 -> cart_sum coef comps x y z = real_sph l m x y z) /\
      harmonic (cart_sum coef comps).
Proof. exact coefficients_thm. Qed.
Print Assumptions C54_coefficients.

(** C54: evaluation at any vector gives S_lm of its direction (l = 0 constant and 0 else for vectors shorter than 1e-14). *)
Theorem C54_evaluation : forall st l m k, init_tables st -> (l <= 40)%nat -> (Z.abs m <= Z.of_nat l)%Z ->
  evaluate_real_spherical_harmonic st (Z.of_nat l) m k = Ok (sph_value l m k).
Proof. exact evaluation_thm. Qed.
Print Assumptions C54_evaluation.

(** C54: array evaluation gives the same values and touches only 2l+1 cells. *)
Theorem C54_array_evaluation : forall st l k arr d, init_tables st -> (l <= 40)%nat -> adims arr = [d] -> (2 * Z.of_nat l + 1 <= d)%Z ->
  exists out, evaluate_real_spherical_harmonics_array st (Z.of_nat l) k arr = Ok out /\ adims out = [d] /\
    (forall m, (Z.abs m <= Z.of_nat l)%Z -> aget out [m + Z.of_nat l]%Z = evaluate_real_spherical_harmonic st (Z.of_nat l) m k) /\
    (forall i, (i < 0 \/ 2 * Z.of_nat l < i)%Z -> aget out [i] = aget arr [i]).
Proof. exact array_evaluation_thm. Qed.
Print Assumptions C54_array_evaluation.

(** C54: orthonormality on the sphere, for all l, l'. *)
Theorem C54_orthonormal : forall l l' m m', (Z.abs m <= Z.of_nat l)%Z -> (Z.abs m' <= Z.of_nat l')%Z ->
  sphere_int (fun x y z => real_sph l m x y z * real_sph l' m' x y z) (if (l =? l')%nat && (m =? m')%Z then 1 else 0).
Proof. exact orthonormal_thm. Qed.
Print Assumptions C54_orthonormal.

(** C58: type-1 angular integrals. *)
Theorem C58_angular_type1 : forall st l a b c k, init_tables st -> (l <= 40)%nat -> (a + b + c + l <= 29)%nat \/ Nat.odd (a + b + c + l) = true ->
  exists w : Z -> R,
    (forall mu, (Z.abs mu <= Z.of_nat l)%Z -> sphere_int (fun x y z => x ^ a * y ^ b * z ^ c * real_sph l mu x y z) (w mu)) /\
    angular_type1_integral st (Z.of_nat l) (Z.of_nat a) (Z.of_nat b) (Z.of_nat c) k =
      Ok (zsum (- Z.of_nat l) (Z.of_nat l + 1) (fun mu => w mu * sph_value l mu k)).
Proof. exact angular_type1_thm. Qed.
Print Assumptions C58_angular_type1.

(** C58: type-2 angular integrals. *)
Theorem C58_angular_type2 : forall st l L m a b c k arr d vals, init_tables st -> (l <= 20)%nat -> (L <= 20)%nat -> (Z.abs m <= Z.of_nat L)%Z ->
  adims arr = [d] -> (2 * Z.of_nat l + 1 <= d)%Z -> evaluate_real_spherical_harmonics_array st (Z.of_nat l) k arr = Ok vals ->
  (a + b + c + l + L <= 29)%nat \/ Nat.odd (a + b + c + l + L) = true ->
  exists w : Z -> R,
    (forall mu, (Z.abs mu <= Z.of_nat l)%Z -> sphere_int (fun x y z => x ^ a * y ^ b * z ^ c * real_sph l mu x y z * real_sph L m x y z) (w mu)) /\
    angular_type2_integral st (Z.of_nat l) (Z.of_nat L) m (Z.of_nat a) (Z.of_nat b) (Z.of_nat c) vals =
      Ok (zsum (- Z.of_nat l) (Z.of_nat l + 1) (fun mu => w mu * significant_value (sph_value l mu k))).
Proof. exact angular_type2_thm. Qed.
Print Assumptions C58_angular_type2.

(** the store exists, and the array evaluation used in the hypotheses succeeds *)
Example C34_case : exists st vals, init_tables st /\ evaluate_real_spherical_harmonics_array st 7 (1, 2, 2) (aundef [60%Z]) = Ok vals.
Proof.
  destruct init_tables_exist as (st & H). destruct (array_evaluation_thm st 7 (1, 2, 2) (aundef [60%Z]) 60 H ltac:(lia) eq_refl ltac:(lia)) as (vals & E & _).
  exists st, vals. auto.
Qed.

(** the direction of (1, 2, 2) is (1/3, 2/3, 2/3), and S_10 is sqrt(3/(4 pi)) z *)
Example C54_case st : init_tables st -> evaluate_real_spherical_harmonic st 1 0 (1, 2, 2) = Ok (sqrt (3 / (4 * PI)) * (2 / 3)).
Proof.
  intros H. pose proof (evaluation_thm st 1 0 (1, 2, 2) H ltac:(lia) ltac:(lia)) as E. change (Z.of_nat 1) with 1%Z in E. rewrite E. f_equal. unfold sph_value.
  assert (Q : norm3 1 2 2 = 3) by (unfold norm3; replace (1 * 1 + 2 * 2 + 2 * 2) with (3 * 3) by ring; apply sqrt_square; lra). rewrite Q.
  destruct (Rlt_dec _ _) as [_|C].
  - unfold real_sph, rodrigues. change (1 + Z.abs_nat 0)%nat with 1%nat. replace (Derive_n (fun t : R => (t ^ 2 - 1) ^ 1) 1 (2 / 3)) with (2 * (2 / 3)).
    + change (Z.abs_nat 0) with 0%nat. cbn [re_im_pow fst snd Z.ltb Z.eqb Z.compare Nat.sub fact Nat.add Nat.mul INR pow].
      replace ((2 * 1 + 1) / (4 * PI) * 1 / 1) with (3 / (4 * PI)) by (field; apply PI_neq0). field.
    + symmetry. cbn [Derive_n]. rewrite (Derive_ext _ (fun t => t * t - 1)) by (intros; ring). apply is_derive_unique. auto_derive; [exact I|ring].
  - exfalso. apply C. pose proof (pow_lt 10 14 ltac:(lra)). apply (Rmult_lt_reg_r (10 ^ 14)); [lra|]. cbn [pow]. lra.
Qed.
