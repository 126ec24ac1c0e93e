(** * Model of libgrpp/spherical_harmonics.c and libgrpp/angular_integrals.c

    Doubles are exact reals; int is Z; the uint64_t arguments and products of
    binomial() are reduced modulo 2^64. *)

From Coq Require Import ZArith List Lia Bool Reals.
From Verif Require Import Base CartModel BinomModel OneElModel.
Import ListNotations.
Open Scope R_scope.

(** pow(-1, n) for an integer n *)
Definition sgn_pow (n : Z) : R := if Z.even n then 1 else -1.

(** spherical_harmonics.c 147-152: the sum over k *)
Definition s2c_inner (m j lx : Z) : res R :=
  for_range 0 (j + 1) (fun k s =>
    let* b1 := binomial (u64 j) (u64 k) in
    let* b2 := binomial (u64 (Z.abs m)) (u64 (lx - 2 * k)) in
    Ok (s + IZR (u64 (b1 * b2)) * sgn_pow (Z.quot (Z.abs m - lx + 2 * k) 2))) 0.

(** spherical_harmonics.c 129-155: the loop over i; the second component of the
    state tells that one of the two [break]s was taken *)
Definition s2c_outer (l m j lx : Z) : res R :=
  let* st := for_range j (Z.quot (l - Z.abs m) 2 + 1) (fun i (st : R * bool) =>
    let '(u, broken) := st in
    if broken then Ok st
    else if (2 * l - 2 * i <? 0)%Z then Ok (0, true)
    else if (l - Z.abs m - 2 * i <? 0)%Z then Ok (0, true)
    else
      let* b1 := binomial (u64 l) (u64 i) in
      let* b2 := binomial (u64 i) (u64 j) in
      let* (p, q) := factorial_ratio (2 * l - 2 * i) (l - Z.abs m - 2 * i) in
      let factor_1 := IZR (u64 (b1 * b2)) * sgn_pow i * (IZR p / IZR q) in
      let* sum := s2c_inner m j lx in
      Ok (u + factor_1 * sum, false)) (0, false) in
  Ok (fst st).

(** spherical_harmonics.c 115-166; the argument lz is not used *)
Definition spherical_to_cartesian_coef (l m lx ly lz : Z) : res R :=
  let j := (lx + ly - Z.abs m)%Z in
  if negb (Z.rem j 2 =? 0)%Z then Ok 0
  else
    let j := Z.quot j 2 in
    if negb (((m >? 0)%Z && (Z.rem (Z.abs m - lx) 2 =? 0)%Z)
          || ((m =? 0)%Z && (Z.rem lx 2 =? 0)%Z)
          || ((m <? 0)%Z && negb (Z.rem (Z.abs m - lx) 2 =? 0)%Z)) then Ok 0
    else
      let* f1 := factorial (l - Z.abs m) in
      let* f2 := factorial (l + Z.abs m) in
      let* f3 := factorial l in
      let prefactor := sqrt (IZR (2 * l + 1) / (2 * PI) * IZR f1 / IZR f2) / (2 ^ Z.to_nat l * IZR f3) in
      let* u := s2c_outer l m j lx in
      let u := u * prefactor in
      Ok (if (m =? 0)%Z && (Z.rem lx 2 =? 0)%Z then u * / sqrt 2 else u).

(** rsh_coef_table_t *)
Record rsh_table := mkRsh { rt_n : Z; rt_comb : arr Z; rt_coef : arr R }.

(** spherical_harmonics.c 68-89 *)
Definition tabulate_real_spherical_harmonic_coeffs (L : Z) : res rsh_table :=
  let* (comb, _) := generate_cartesian_combinations L in
  let ncart := n_cart L in
  let coeffs := aconst [(2 * L + 1) * ncart]%Z 0 in
  let* coeffs := for_range (- L) (L + 1) (fun m => for_range 0 ncart (fun icomb coeffs =>
    let* lx := aget comb [3 * icomb]%Z in
    let* ly := aget comb [3 * icomb + 1]%Z in
    let* lz := aget comb [3 * icomb + 2]%Z in
    let* u := spherical_to_cartesian_coef L m lx ly lz in
    aset coeffs [(m + L) * ncart + icomb]%Z u)) coeffs in
  Ok (mkRsh ncart comb coeffs).

(** the static variables rsh_coef_tables and rsh_tables_lmax (= length - 1) *)
Definition rsh_store := list rsh_table.
Definition rsh_lmax (st : rsh_store) : Z := (Z.of_nat (length st) - 1)%Z.

(** spherical_harmonics.c 48-62; realloc keeps the existing entries *)
Definition create_real_spherical_harmonic_coeffs_tables (Lmax : Z) (st : rsh_store) : res rsh_store :=
  if (Lmax <=? rsh_lmax st)%Z then Ok st
  else for_range (rsh_lmax st + 1) (Lmax + 1) (fun L st =>
         let* t := tabulate_real_spherical_harmonic_coeffs L in Ok (st ++ [t])) st.

(** spherical_harmonics.c 95-103 followed by a dereference of the result:
    NULL for L > lmax, an access before the array for L < 0 *)
Definition get_real_spherical_harmonic_table (st : rsh_store) (L : Z) : res rsh_table :=
  if (L >? rsh_lmax st)%Z then Fail NullDeref
  else if (L <? 0)%Z then Fail OutOfBounds
  else match nth_error st (Z.to_nat L) with Some t => Ok t | None => Fail OutOfBounds end.

(** spherical_harmonics.c 183-193, 238-249: the vector k/|k| or zero; the two
    functions divide and multiply by the inverse, which is the same for reals *)
Definition unit_vector (k : R * R * R) : R * R * R :=
  let '(k0, k1, k2) := k in
  let len := sqrt (k0 * k0 + k1 * k1 + k2 * k2) in
  if Rlt_dec (1 / 10 ^ 14) len then (k0 / len, k1 / len, k2 / len) else (0, 0, 0).

(** spherical_harmonics.c 196-204, 251-259: one of the three tables of powers
    (local array of 200 doubles) *)
Definition powers_table (l : Z) (x : R) : res (arr R) :=
  let* a := aset (aundef [200%Z]) [0%Z] 1 in
  for_range 1 (l + 1) (fun i a =>
    let* p := aget a [i - 1]%Z in aset a [i] (p * x)) a.

(** spherical_harmonics.c 172-220 *)
Definition evaluate_real_spherical_harmonic (st : rsh_store) (l m : Z) (k : R * R * R) : res R :=
  let* t := get_real_spherical_harmonic_table st l in
  let '(ux, uy, uz) := unit_vector k in
  let* px := powers_table l ux in
  let* py := powers_table l uy in
  let* pz := powers_table l uz in
  let ncart := rt_n t in
  for_range 0 ncart (fun icomb value =>
    let* r := aget (rt_comb t) [3 * icomb]%Z in
    let* s := aget (rt_comb t) [3 * icomb + 1]%Z in
    let* w := aget (rt_comb t) [3 * icomb + 2]%Z in
    let* y := aget (rt_coef t) [(m + l) * ncart + icomb]%Z in
    let* xr := aget px [r] in
    let* ys := aget py [s] in
    let* zt := aget pz [w] in
    Ok (value + y * xr * ys * zt)) 0.

(** spherical_harmonics.c 227-280 *)
Definition evaluate_real_spherical_harmonics_array (st : rsh_store) (l : Z) (k : R * R * R) (rsh_array : arr R) : res (arr R) :=
  let* t := get_real_spherical_harmonic_table st l in
  let '(ux, uy, uz) := unit_vector k in
  let* px := powers_table l ux in
  let* py := powers_table l uy in
  let* pz := powers_table l uz in
  let* out := memset0 (2 * l + 1) rsh_array in
  let ncart := rt_n t in
  for_range 0 ncart (fun icomb out =>
    let* r := aget (rt_comb t) [3 * icomb]%Z in
    let* s := aget (rt_comb t) [3 * icomb + 1]%Z in
    let* w := aget (rt_comb t) [3 * icomb + 2]%Z in
    let* xr := aget px [r] in
    let* ys := aget py [s] in
    let* zt := aget pz [w] in
    let k_xyz := xr * ys * zt in
    for_range (- l) (l + 1) (fun m out =>
      let* y := aget (rt_coef t) [(m + l) * ncart + icomb]%Z in
      let* o := aget out [m + l]%Z in
      aset out [m + l]%Z (o + y * k_xyz)) out) out.

(** angular_integrals.c 118-130 *)
Definition integrate_unitary_sphere_polynomial (i j k : Z) : res R :=
  if (Z.rem i 2 =? 0)%Z && (Z.rem j 2 =? 0)%Z && (Z.rem k 2 =? 0)%Z then
    let* dfac_i := double_factorial (i - 1) in
    let* dfac_j := double_factorial (j - 1) in
    let* dfac_k := double_factorial (k - 1) in
    let* dfac_ijk := double_factorial (i + j + k + 1) in
    Ok (4 * PI * IZR dfac_i * IZR dfac_j * IZR dfac_k / IZR dfac_ijk)
  else Ok 0.

(** angular_integrals.c 35-56 *)
Definition angular_type1_integral (st : rsh_store) (lambda II JJ KK : Z) (k : R * R * R) : res R :=
  for_range (- lambda) (lambda + 1) (fun mu sum =>
    let* sum2 := for_range 0 (lambda + 1) (fun r => for_range 0 (lambda + 1) (fun s => for_range 0 (lambda + 1) (fun t sum2 =>
      if (r + s + t =? lambda)%Z then
        let* y := spherical_to_cartesian_coef lambda mu r s t in
        let* u := integrate_unitary_sphere_polynomial (II + r) (JJ + s) (KK + t) in
        Ok (sum2 + y * u)
      else Ok sum2))) 0 in
    let* v := evaluate_real_spherical_harmonic st lambda mu k in
    Ok (sum + sum2 * v)) 0.

(** LIBGRPP_ZERO_THRESH *)
Definition zero_thresh : R := 1 / 10 ^ 14.

(** angular_integrals.c 63-111 *)
Definition angular_type2_integral (st : rsh_store) (lambda L m a b c : Z) (rsh_values : arr R) : res R :=
  let* tl := get_real_spherical_harmonic_table st lambda in
  let* tL := get_real_spherical_harmonic_table st L in
  let ncomb_rst := rt_n tl in
  let ncomb_uvw := rt_n tL in
  for_range (- lambda) (lambda + 1) (fun mu sum =>
    let* rsh_value_k := aget rsh_values [mu + lambda]%Z in
    if Rlt_dec (Rabs rsh_value_k) zero_thresh then Ok sum
    else
      let* sum2 := for_range 0 ncomb_uvw (fun iu sum2 =>
        let* u := aget (rt_comb tL) [3 * iu]%Z in
        let* v := aget (rt_comb tL) [3 * iu + 1]%Z in
        let* w := aget (rt_comb tL) [3 * iu + 2]%Z in
        let* y_lm := aget (rt_coef tL) [(m + L) * ncomb_uvw + iu]%Z in
        if Rlt_dec (Rabs y_lm) zero_thresh then Ok sum2
        else for_range 0 ncomb_rst (fun ir sum2 =>
          let* r := aget (rt_comb tl) [3 * ir]%Z in
          let* s := aget (rt_comb tl) [3 * ir + 1]%Z in
          let* t := aget (rt_comb tl) [3 * ir + 2]%Z in
          let* y_mu := aget (rt_coef tl) [(mu + lambda) * ncomb_rst + ir]%Z in
          if Rlt_dec (Rabs y_mu) zero_thresh then Ok sum2
          else
            let* usp := integrate_unitary_sphere_polynomial (a + r + u) (b + s + v) (c + t + w) in
            Ok (sum2 + y_mu * y_lm * usp)) sum2) 0 in
      Ok (sum + sum2 * rsh_value_k)) 0.
