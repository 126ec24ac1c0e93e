(** * Model of the radially local integrals on a grid (libgrpp/type1_integrals.c)

    Doubles are exact reals, int is Z.  The radial integrals are those of
    RadialModel.v (with the scaled Bessel function as an argument), the angular
    integrals those of SphModel.v.  [st] is the global store of spherical harmonic
    tables.  The loops over the terms of the binomial expansion are the same as in
    type2_integrals.c and are taken from Type2Model.v. *)

From Coq Require Import ZArith List Lia Bool Reals.
From Verif Require Import Base BinomModel HeapModel OneElModel ParamsModel SphModel RadialModel OutercoreModel NucModel Type2Model.
Import ListNotations.
Open Scope R_scope.

(** type1_integrals.c 166-173 *)
Definition pair_k_vector (alpha_A alpha_B : R) (CA CB : R * R * R) : R * R * R :=
  let '(ax, ay, az) := CA in let '(bx, by_, bz) := CB in
  (-2 * (alpha_A * ax + alpha_B * bx), -2 * (alpha_A * ay + alpha_B * by_), -2 * (alpha_A * az + alpha_B * bz)).

(** type1_integrals.c 169, 175-193: angular momenta of the shells and the table of
    radial integrals; the pointer to the potential with its parameters is the
    function [U] *)
Definition local_radial_table (fuel : nat) (par : params) (bessel : Z -> R -> R) (alpha_A alpha_B : R) (CA CB : R * R * R) (U : R -> R) (L_A L_B : Z) : res rtable1 :=
  let k := sqrt (sq3 (pair_k_vector alpha_A alpha_B CA CB)) in
  let N_A := gaussian_norm_factor L_A 0 0 alpha_A in
  let N_B := gaussian_norm_factor L_B 0 0 alpha_B in
  let D_ABC := 4 * PI * N_A * N_B in
  tabulate_radial_type1_integrals fuel par bessel (mkRP1 k alpha_A alpha_B (sq3 CA) (sq3 CB) D_ABC U) (L_A + L_B) (L_A + L_B).

(** type1_integrals.c 243-254: the sum over lambda for the powers i, j, k of the
    components of the direction; [N] is their sum *)
Definition local_lambda_loop (st : rsh_store) (table : rtable1) (lambda_max N i j k : Z) (kvec : R * R * R) : res R :=
  for_range 0 (lambda_max + 1) (fun lambda sum =>
    let* Q := get_radial_type1_integral table lambda N in
    if Rlt_dec (Rabs Q) (1 / 10 ^ 16) then Ok sum
    else
      let* omega := angular_type1_integral st lambda i j k kvec in
      Ok (sum + omega * Q)) 0.

(** type1_integrals.c 144-270; the arguments A, n_cart_A, cart_list_A are those
    of a shell, as in the only call (nuclear_attraction.c 155-159) *)
Definition radially_local_integrals (fuel : nat) (par : params) (bessel : Z -> R -> R) (st : rsh_store)
  (A : vshell) (alpha_A : R) (B : vshell) (alpha_B : R) (C : R * R * R) (U : R -> R) (matrix : arr R) : res (arr R) :=
  let* _ := massert (0 <? sv_size A)%Z in
  let* _ := massert (0 <? sv_size B)%Z in
  let* matrix := memset0 (sv_size A * sv_size B) matrix in
  let CA := sub3 C (sv_org A) in
  let CB := sub3 C (sv_org B) in
  let kvec := pair_k_vector alpha_A alpha_B CA CB in
  let* L_A := first_momentum A in
  let* L_B := first_momentum B in
  let* table := local_radial_table fuel par bessel alpha_A alpha_B CA CB U L_A L_B in
  for_range 0 (sv_size A) (fun icart => for_range 0 (sv_size B) (fun jcart matrix =>
    let* cA := component A icart in
    let* cB := component B jcart in
    let* chi_AB := expansion_loops (1 / 10 ^ 13) cA cB CA CB (fun factor a b c d e f chi_AB =>
      let* sum_omega_Q := local_lambda_loop st table (L_A + L_B) (a + b + c + d + e + f) (a + d) (b + e) (c + f) kvec in
      Ok (chi_AB + factor * sum_omega_Q)) 0 in
    aset matrix [icart * sv_size B + jcart]%Z chi_AB)) matrix.

(** nuclear_attraction.c 80-170 with this routine for the finite nuclei; [point]
    stands for the routine for point charges *)
Definition finite_nucleus_eval (fuel : nat) (par : params) (bessel : Z -> R -> R) (st : rsh_store)
  (point : vshell -> R -> vshell -> R -> R * R * R -> R -> arr R -> res (arr R)) : prim_eval :=
  mkEval point (radially_local_integrals fuel par bessel st).
