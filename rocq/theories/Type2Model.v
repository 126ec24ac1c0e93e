(** * Model of libgrpp/type2_integrals.c and libgrpp/spin_orbit_integrals.c

    Doubles are exact reals, int is Z.  The radial integrals are those of
    RadialModel.v (with the scaled Bessel function and erf as arguments), the
    angular integrals those of SphModel.v, the matrices of the angular momentum
    those of LmatModel.v.  [st] is the global store of spherical harmonic tables,
    [init] the answer of libgrpp_is_initialized().  A potential is the list of its
    primitives ([vpot] of OutercoreModel.v).

    The two functions contain the same six loops over the terms of the binomial
    expansion and the same two loops over lambda_1, lambda_2; these are modelled
    once, with their bodies as arguments. *)

From Coq Require Import ZArith List Lia Bool Reals.
From Verif Require Import Base BinomModel HeapModel OneElModel ParamsModel SphModel LmatModel RadialModel OutercoreModel.
Import ListNotations.
Open Scope R_scope.

(** the primitives of a shell, as copied by radial_type2_integral.c 160-166
    (libgrpp_shell_deep_copy) or read by its loops 120-153 *)
Definition read_prims (s : vshell) : res prims :=
  for_range 0 (sv_num s) (fun i l =>
    let* c := aget (sv_coef s) [i] in
    let* a := aget (sv_alpha s) [i] in
    Ok (l ++ [(c, a)])) [].

(** type2_integrals.c 59-69: C - A and the square of its length *)
Definition sub3 (C A : R * R * R) : R * R * R :=
  let '(c0, c1, c2) := C in let '(a0, a1, a2) := A in (c0 - a0, c1 - a1, c2 - a2).
Definition sq3 (v : R * R * R) : R := let '(x, y, z) := v in x * x + y * y + z * z.

(** type2_integrals.c 71-86, spin_orbit_integrals.c 73-88 *)
Definition k_vector (alpha : R) (CA : R * R * R) : R * R * R :=
  let '(x, y, z) := CA in (-2 * (alpha * x), -2 * (alpha * y), -2 * (alpha * z)).

(** type2_integrals.c 56-57: from the first entry of the list of components *)
Definition first_momentum (s : vshell) : res Z :=
  let* n := aget (sv_cart s) [0%Z] in
  let* l := aget (sv_cart s) [1%Z] in
  let* m := aget (sv_cart s) [2%Z] in
  Ok (n + l + m)%Z.

(** type2_integrals.c 113-119, spin_orbit_integrals.c 110-116: local arrays of
    [rows] rows of [cols] doubles; a row is an array of its own *)
Definition harmonic_rows (st : rsh_store) (rows cols lmax : Z) (kA kB : R * R * R) : res (arr (arr R) * arr (arr R)) :=
  for_range 0 (lmax + 1) (fun lambda '(rA, rB) =>
    let* vA := evaluate_real_spherical_harmonics_array st lambda kA (aundef [cols]) in
    let* rA := aset rA [lambda] vA in
    let* vB := evaluate_real_spherical_harmonics_array st lambda kB (aundef [cols]) in
    let* rB := aset rB [lambda] vB in
    Ok (rA, rB)) (aundef [rows], aundef [rows]).

(** type2_integrals.c 130-205, spin_orbit_integrals.c 135-218: the terms of the
    binomial expansion; [body factor a b c d e f] for those whose factor is not
    below [thr] *)
Definition expansion_loops {S : Type} (thr : R) (cA cB : Z * Z * Z) (CA CB : R * R * R)
  (body : R -> Z -> Z -> Z -> Z -> Z -> Z -> S -> res S) (s : S) : res S :=
  let '(nA, lA, mA) := cA in
  let '(nB, lB, mB) := cB in
  let '(CA_x, CA_y, CA_z) := CA in
  let '(CB_x, CB_y, CB_z) := CB in
  for_range 0 (nA + 1) (fun a s =>
    let* C_nA_a := binomial (u64 nA) (u64 a) in
    let pow_CA_x := CA_x ^ Z.to_nat (nA - a) in
    for_range 0 (lA + 1) (fun b s =>
      let* C_lA_b := binomial (u64 lA) (u64 b) in
      let pow_CA_y := CA_y ^ Z.to_nat (lA - b) in
      for_range 0 (mA + 1) (fun c s =>
        let* C_mA_c := binomial (u64 mA) (u64 c) in
        let pow_CA_z := CA_z ^ Z.to_nat (mA - c) in
        for_range 0 (nB + 1) (fun d s =>
          let* C_nB_d := binomial (u64 nB) (u64 d) in
          let pow_CB_x := CB_x ^ Z.to_nat (nB - d) in
          for_range 0 (lB + 1) (fun e s =>
            let* C_lB_e := binomial (u64 lB) (u64 e) in
            let pow_CB_y := CB_y ^ Z.to_nat (lB - e) in
            for_range 0 (mB + 1) (fun f s =>
              let* C_mB_f := binomial (u64 mB) (u64 f) in
              let pow_CB_z := CB_z ^ Z.to_nat (mB - f) in
              let factor := IZR C_nA_a * IZR C_lA_b * IZR C_mA_c * IZR C_nB_d * IZR C_lB_e * IZR C_mB_f *
                pow_CA_x * pow_CA_y * pow_CA_z * pow_CB_x * pow_CB_y * pow_CB_z in
              if Rlt_dec (Rabs factor) thr then Ok s
              else body factor a b c d e f s) s) s) s) s) s) s.

(** type2_integrals.c 173-199, spin_orbit_integrals.c 176-209: [nA] is a + b + c,
    [nB] is d + e + f; [body lambda_1 lambda_2 QN] for the radial integrals not
    below [thr] *)
Definition lambda_loops {S : Type} (thr : R) (t : rtable2) (L nA nB : Z) (body : Z -> Z -> R -> S -> res S) (s : S) : res S :=
  for_range (Z.max (L - nA) 0) (L + nA + 1) (fun lambda_1 s =>
    if negb (Z.rem (L + nA - lambda_1) 2 =? 0)%Z then Ok s
    else for_range (Z.max (L - nB) 0) (L + nB + 1) (fun lambda_2 s =>
      if negb (Z.rem (L + nB - lambda_2) 2 =? 0)%Z then Ok s
      else
        let* QN := get_radial_type2_integral t lambda_1 lambda_2 (nA + nB) in
        if Rlt_dec (Rabs QN) thr then Ok s
        else body lambda_1 lambda_2 QN s) s) s.

(** type2_integrals.c 221-243 *)
Definition type2_angular_sum (st : rsh_store) (L lambda_1 a b c lambda_2 d e f : Z) (rsh_A rsh_B : arr R) : res R :=
  for_range (- L) (L + 1) (fun m sum =>
    let* omega_1 := angular_type2_integral st lambda_1 L m a b c rsh_A in
    if Rlt_dec (Rabs omega_1) (1 / 10 ^ 16) then Ok sum
    else
      let* omega_2 := angular_type2_integral st lambda_2 L m d e f rsh_B in
      Ok (sum + omega_1 * omega_2)) 0.

(** LMAX, type2_integrals.c 20, spin_orbit_integrals.c 21 *)
Definition LMAX : Z := 2 * 10 + 10.

(** a component of a shell: type2_integrals.c 130-135 *)
Definition component (s : vshell) (i : Z) : res (Z * Z * Z) :=
  let* n := aget (sv_cart s) [3 * i + 0]%Z in
  let* l := aget (sv_cart s) [3 * i + 1]%Z in
  let* m := aget (sv_cart s) [3 * i + 2]%Z in
  Ok (n, l, m).

(** what both functions have computed before their loops over pairs of components *)
Definition radial_of (fuel : nat) (par : params) (bessel : Z -> R -> R) (erf : R -> R) (A B : vshell) (CA CB : R * R * R) (pot : vpot) (LA LB : Z) : res rtable2 :=
  let* bra := read_prims A in
  let* ket := read_prims B in
  tabulate_radial_type2_integrals fuel par bessel erf (pv_L pot + LA) (pv_L pot + LB) (LA + LB) (sq3 CA) (sq3 CB) (pv_prims pot) (sv_L A) bra (sv_L B) ket.

(** type2_integrals.c 34-214 *)
Definition type2_integrals (fuel : nat) (par : params) (bessel : Z -> R -> R) (erf : R -> R) (st : rsh_store) (init : bool)
  (A B : vshell) (C : R * R * R) (pot : vpot) (matrix : arr R) : res (arr R) :=
  let* _ := massert init in
  let* matrix := memset0 (sv_size A * sv_size B) matrix in
  let L := pv_L pot in
  let* L_A := first_momentum A in
  let* L_B := first_momentum B in
  let CA := sub3 C (sv_org A) in
  let CB := sub3 C (sv_org B) in
  let* alpha_A := aget (sv_alpha A) [0%Z] in
  let* alpha_B := aget (sv_alpha B) [0%Z] in
  let* table := radial_of fuel par bessel erf A B CA CB pot L_A L_B in
  let* (rA, rB) := harmonic_rows st (3 * LMAX) (6 * LMAX) (Z.max (Z.max (L + L_A) (L + L_B)) L) (k_vector alpha_A CA) (k_vector alpha_B CB) in
  for_range 0 (sv_size A) (fun i => for_range 0 (sv_size B) (fun j matrix =>
    let* cA := component A i in
    let* cB := component B j in
    let* gamma := expansion_loops (1 / 10 ^ 13) cA cB CA CB (fun factor a b c d e f gamma =>
      let* sum := lambda_loops (1 / 10 ^ 16) table L (a + b + c) (d + e + f) (fun lambda_1 lambda_2 QN sum =>
        let* vA := aget rA [lambda_1] in
        let* vB := aget rB [lambda_2] in
        let* ang := type2_angular_sum st L lambda_1 a b c lambda_2 d e f vA vB in
        Ok (sum + QN * ang)) 0 in
      Ok (gamma + factor * sum)) 0 in
    aset matrix [i * sv_size B + j]%Z (gamma * (16 * PI * PI)))) matrix.

(** spin_orbit_integrals.c 250-288 *)
Definition type3_angular_sum (st : rsh_store) (L : Z) (Ls : arr R * arr R * arr R) (lambda_1 a b c lambda_2 d e f : Z) (rsh_A rsh_B : arr R) : res (R * R * R) :=
  let '(Lx_matrix, Ly_matrix, Lz_matrix) := Ls in
  for_range (- L) (L + 1) (fun m1 => for_range (- L) (L + 1) (fun m2 '(sx, sy, sz) =>
    let* lx := aget Lx_matrix [(2 * L + 1) * (m1 + L) + (m2 + L)]%Z in
    let* ly := aget Ly_matrix [(2 * L + 1) * (m1 + L) + (m2 + L)]%Z in
    let* lz := aget Lz_matrix [(2 * L + 1) * (m1 + L) + (m2 + L)]%Z in
    let small x := if Rlt_dec (Rabs x) zero_thresh then true else false in
    if small lx && small ly && small lz then Ok (sx, sy, sz)
    else
      let* omega_1 := angular_type2_integral st lambda_1 L m1 a b c rsh_A in
      if Rlt_dec (Rabs omega_1) zero_thresh then Ok (sx, sy, sz)
      else
        let* omega_2 := angular_type2_integral st lambda_2 L m2 d e f rsh_B in
        Ok (sx + omega_1 * omega_2 * lx, sy + omega_1 * omega_2 * ly, sz + omega_1 * omega_2 * lz))) (0, 0, 0).

(** spin_orbit_integrals.c 41-243; the three calloc'ed matrices are local arrays *)
Definition spin_orbit_integrals (fuel : nat) (par : params) (bessel : Z -> R -> R) (erf : R -> R) (st : rsh_store) (init : bool)
  (A B : vshell) (C : R * R * R) (pot : vpot) (Ms : arr R * arr R * arr R) : res (arr R * arr R * arr R) :=
  let '(so_x, so_y, so_z) := Ms in
  let* _ := massert init in
  let* so_x := memset0 (sv_size A * sv_size B) so_x in
  let* so_y := memset0 (sv_size A * sv_size B) so_y in
  let* so_z := memset0 (sv_size A * sv_size B) so_z in
  let L := pv_L pot in
  let* L_A := first_momentum A in
  let* L_B := first_momentum B in
  let CA := sub3 C (sv_org A) in
  let CB := sub3 C (sv_org B) in
  let* alpha_A := aget (sv_alpha A) [0%Z] in
  let* alpha_B := aget (sv_alpha B) [0%Z] in
  let zero := aconst [(2 * L + 1) * (2 * L + 1)]%Z 0 in
  let* Ls := construct_matrices_rsh L (zero, zero, zero) in
  let* (rA, rB) := harmonic_rows st LMAX (2 * LMAX + 1) (Z.max (Z.max (L + L_A) (L + L_B)) L) (k_vector alpha_A CA) (k_vector alpha_B CB) in
  let* table := radial_of fuel par bessel erf A B CA CB pot L_A L_B in
  for_range 0 (sv_size A) (fun i => for_range 0 (sv_size B) (fun j '(so_x, so_y, so_z) =>
    let* cA := component A i in
    let* cB := component B j in
    let* (gx, gy, gz) := expansion_loops zero_thresh cA cB CA CB (fun factor a b c d e f '(gx, gy, gz) =>
      let* (sx, sy, sz) := lambda_loops zero_thresh table L (a + b + c) (d + e + f) (fun lambda_1 lambda_2 QN '(sx, sy, sz) =>
        let* vA := aget rA [lambda_1] in
        let* vB := aget rB [lambda_2] in
        let* (ax, ay, az) := type3_angular_sum st L Ls lambda_1 a b c lambda_2 d e f vA vB in
        Ok (sx + QN * ax, sy + QN * ay, sz + QN * az)) (0, 0, 0) in
      Ok (gx + factor * sx, gy + factor * sy, gz + factor * sz)) (0, 0, 0) in
    let* so_x := aset so_x [i * sv_size B + j]%Z (gx * (16 * PI * PI)) in
    let* so_y := aset so_y [i * sv_size B + j]%Z (gy * (16 * PI * PI)) in
    let* so_z := aset so_z [i * sv_size B + j]%Z (gz * (16 * PI * PI)) in
    Ok (so_x, so_y, so_z))) (so_x, so_y, so_z).
