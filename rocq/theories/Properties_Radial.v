(** * C15, C35, C36, C37: radial quadrature and tables of radial integrals

    [quadrature g n] is the n-point rule for the integral of g(r) r^2 over [0,oo)
    after the substitution [radius]; [adaptive cap mn g screen tol v c]: v is the
    value of the rule on the first grid of the sequence mn, 2 mn + 1, ... whose
    change against its predecessor is within tol (and which is not much smaller
    than the screened estimate), or, when c = false, on the finest grid that fits.
    The modified Bessel functions and erf are arbitrary functions (C15: exact ones
    of order 0 and 1). *)

From Coq Require Import ZArith Reals Lra Lia List Bool.
From Coquelicot Require Import Coquelicot.
From Verif Require Import Base Sums HeapModel OneElModel ParamsModel NucPotSpec GaussMoment RadialModel RadialSpec RadialProofs RadialTables RadialThms RadialWitness.
Import ListNotations.
Open Scope R_scope.

(** C35: the substitution maps (0,1) into the positive radii and the rule uses its derivative. *)
Theorem C35_substitution : forall xi, 0 < xi < 1 -> is_derive radius xi (radius' xi) /\ 0 < radius xi.
Proof. exact radius_derive_thm. Qed.
Print Assumptions C35_substitution.

(** C35: every integration with a grid, whatever was integrated with it before, terminates without a fault and returns the complete sum over 4095 or 8191 points. *)
Theorem C35_quadrature : forall fuel gp tol n l1 l2 g, (14 <= fuel)%nat -> (0 <= n <= gp_n gp)%Z -> (0 <= l1 <= gp_l1 gp)%Z -> (0 <= l2 <= gp_l2 gp)%Z ->
  reachable 2047 gp g -> exists v c g', calculate_radial fuel 2047 gp None tol n l1 l2 g = Ok (v, c, g') /\
    let f := fun r => gp_pot gp r * gp_f1 gp l1 r * gp_f2 gp l2 r * r ^ Z.to_nat n in
    v = if Rle_dec (Rabs (quadrature f 4095 - quadrature f 2047)) tol then quadrature f 4095 else quadrature f 8191.
Proof. exact type1_quadrature_thm. Qed.
Print Assumptions C35_quadrature.

(** C35: the same for the table the type-1 routine builds, with the tolerance the user has set. *)
Theorem C35_table : forall fuel par bessel p lmax,
  (0 <= lmax)%Z -> (14 <= fuel)%nat ->
  exists t, tabulate_radial_type1_integrals fuel par bessel p lmax lmax = Ok t /\
    forall l n, (0 <= l <= lmax)%Z -> (0 <= n <= lmax)%Z -> exists v c, get_radial_type1_integral t l n = Ok v /\
      adaptive 10000 2047 (type1_integrand bessel (r1_pot p) (r1_k p) (r1_alpha_A p) (r1_alpha_B p) (r1_CA_2 p) (r1_CB_2 p) (r1_prefactor p) l n) None (par_radial par) v c.
Proof. exact type1_table. Qed.
Print Assumptions C35_table.

(** C36: the same for the two-index rule. *)
Theorem C36_quadrature : forall fuel gp screen tol n l1 l2 g, (14 <= fuel)%nat -> (0 <= n <= gp_n gp)%Z -> (0 <= l1 <= gp_l1 gp)%Z -> (0 <= l2 <= gp_l2 gp)%Z ->
  reachable 31 gp g -> exists v c g', calculate_radial fuel 31 gp screen tol n l1 l2 g = Ok (v, c, g') /\
    let f := fun r => gp_pot gp r * gp_f1 gp l1 r * gp_f2 gp l2 r * r ^ Z.to_nat n in
    match screen with
    | Some x => if Rlt_dec (Rabs x) tol then v = x else adaptive 10000 31 f screen tol v c
    | None => adaptive 10000 31 f None tol v c
    end.
Proof. exact type2_quadrature_thm. Qed.
Print Assumptions C36_quadrature.

(** C36: at most eight doublings; the returned value is the complete sum over 32 2^j - 1 points. *)
Theorem C36_doublings : forall v c g sc tol, adaptive 10000 31 g sc tol v c -> exists j : nat, (j <= 8)%nat /\ v = quadrature g (32 * 2 ^ Z.of_nat j - 1) /\ (c = true \/ j = 8%nat).
Proof. exact doublings_thm. Qed.
Print Assumptions C36_doublings.

(** C37: every entry of the type-1 table, read back with its own indices, is the integral computed for them. *)
Theorem C37_type1_entries : forall fuel par bessel p lmax,
  (0 <= lmax)%Z -> (14 <= fuel)%nat ->
  exists t, tabulate_radial_type1_integrals fuel par bessel p lmax lmax = Ok t /\
    forall l n, (0 <= l <= lmax)%Z -> (0 <= n <= lmax)%Z -> exists v c, get_radial_type1_integral t l n = Ok v /\
      adaptive 10000 2047 (type1_integrand bessel (r1_pot p) (r1_k p) (r1_alpha_A p) (r1_alpha_B p) (r1_CA_2 p) (r1_CB_2 p) (r1_prefactor p) l n) None (par_radial par) v c.
Proof. exact type1_table. Qed.
Print Assumptions C37_type1_entries.

(** C37: the layout of the type-1 table needs n_max >= lambda_max: otherwise it is overrun. The library calls it with n_max = lambda_max only. *)
Theorem C37_type1_bounds : forall fuel par bessel p lmax nmax,
  (0 <= nmax < lmax)%Z -> (14 <= fuel)%nat ->
  tabulate_radial_type1_integrals fuel par bessel p lmax nmax = Fail OutOfBounds.
Proof. exact type1_table_oob. Qed.
Print Assumptions C37_type1_bounds.

(** C37: every entry of the type-2 table is the integral computed for its three indices. *)
Theorem C37_type2_entries : forall fuel par bessel erf l1_max l2_max n_max CA_2 CB_2 pot LA bra LB ket,
  (14 <= fuel)%nat -> (0 <= l1_max)%Z -> (0 <= l2_max)%Z -> (0 <= n_max)%Z -> powers_in pot n_max -> exponents_pos bra -> exponents_pos ket -> pot_exponents pot ->
  0 <= CA_2 -> 0 <= CB_2 -> ~ (CA_2 < 1 / 10 ^ 14 /\ CB_2 < 1 / 10 ^ 14) ->
  exists t, tabulate_radial_type2_integrals fuel par bessel erf l1_max l2_max n_max CA_2 CB_2 pot LA bra LB ket = Ok t /\
    forall l1 l2 n, (0 <= l1 <= l1_max)%Z -> (0 <= l2 <= l2_max)%Z -> (0 <= n <= n_max)%Z -> exists v s c,
      get_radial_type2_integral t l1 l2 n = Ok v /\
      screening_radial_type2 bessel erf CA_2 CB_2 (shrink_norm LA bra) (shrink_norm LB ket) (shrink_pot pot) l1 l2 n = Ok s /\
      let g := type2_integrand bessel pot LA bra (sqrt CA_2) LB ket (sqrt CB_2) l1 l2 n in
      match s with Some x => if Rlt_dec (Rabs x) (1 / 10 ^ 16) then v = x else adaptive 10000 31 g s (1 / 10 ^ 16) v c
      | None => adaptive 10000 31 g None (1 / 10 ^ 16) v c end.
Proof. exact type2_table. Qed.
Print Assumptions C37_type2_entries.

(** C37: when all centres coincide the entry (0, 0, n) is the exact one-centre integral and the others are zero. *)
Theorem C37_type2_one_center : forall m fuel par bessel erf l1_max l2_max n_max CA_2 CB_2 pot LA bra LB ket,
  half_moments m ->
  (0 <= l1_max)%Z -> (0 <= l2_max)%Z -> (0 <= n_max)%Z -> powers_in pot n_max -> exponents_pos bra -> exponents_pos ket -> pot_exponents pot ->
  CA_2 < 1 / 10 ^ 14 -> CB_2 < 1 / 10 ^ 14 ->
  exists t, tabulate_radial_type2_integrals fuel par bessel erf l1_max l2_max n_max CA_2 CB_2 pot LA bra LB ket = Ok t /\
    forall l1 l2 n, (0 <= l1 <= l1_max)%Z -> (0 <= l2 <= l2_max)%Z -> (0 <= n <= n_max)%Z ->
      get_radial_type2_integral t l1 l2 n = Ok (if (l1 =? 0)%Z && (l2 =? 0)%Z then one_center m pot LA bra LB ket n else 0).
Proof. exact type2_one_center. Qed.
Print Assumptions C37_type2_one_center.

(** C15: the type-2 table does not depend on the parameters the user sets. *)
Theorem C15_ignored : forall par par' fuel bessel erf l1_max l2_max n_max CA_2 CB_2 pot LA bra LB ket,
  tabulate_radial_type2_integrals fuel par bessel erf l1_max l2_max n_max CA_2 CB_2 pot LA bra LB ket =
  tabulate_radial_type2_integrals fuel par' bessel erf l1_max l2_max n_max CA_2 CB_2 pot LA bra LB ket.
Proof. exact ignores_tolerance_thm. Qed.
Print Assumptions C15_ignored.

(** C15: for the exact Bessel functions there are a tolerance and a call for which the integrals returned are not those of the rule with that tolerance. *)
Theorem C15_refuted : forall bessel erf, bessel_01 bessel ->
  exists par, 0 < par_radial par /\ ~ honours_tolerance bessel erf par w_pot 2 w_bra 2 w_ket 10000 0 0 0 4.
Proof. exact tolerance_refuted_thm. Qed.
Print Assumptions C15_refuted.

(** grids exist, so the hypotheses of C35 and C36 are met *)
Example C35_case : exists g, reachable 2047 (mkGParams (fun r => exp (- r ^ 2)) (fun _ r => r) (fun l r => r ^ Z.to_nat l) 2 1 3) g.
Proof.
  destruct (create_valid 2047 (mkGParams (fun r => exp (- r ^ 2)) (fun _ r => r) (fun l r => r ^ Z.to_nat l) 2 1 3)) as (g & E & _); [unfold max_grid; lia|cbn; lia..|].
  exists g. constructor. exact E.
Qed.

(** data for C37: powers, exponents and moments as required *)
Example C37_case : powers_in w_pot 4 /\ exponents_pos w_bra /\ exponents_pos w_ket /\ pot_exponents w_pot /\ half_moments (fun n a => gmom (Z.to_nat n) a).
Proof.
  split; [intros ni c a [X|[]]; injection X as <- <- <-; lia|]. split; [intros c a [X|[]]; injection X as <- <-; lra|]. split; [intros c a [X|[]]; injection X as <- <-; lra|].
  split; [intros ni c a [X|[]]; injection X as <- <- <-; lra|]. intros n a _ Ha. apply gauss_moment, Ha.
Qed.

(** functions as required for C15 *)
Example C15_case : bessel_01 (fun l x => if Rlt_dec 0 x then if (l =? 0)%Z then (1 - exp (- 2 * x)) / (2 * x) else ((x - 1) + (x + 1) * exp (- 2 * x)) / (2 * x ^ 2) else if (l =? 0)%Z then 1 else 0).
Proof.
  split; [|split; [|split]].
  - destruct (Rlt_dec 0 0); [lra|reflexivity].
  - destruct (Rlt_dec 0 0); [lra|reflexivity].
  - intros x Hx. destruct (Rlt_dec 0 x); [reflexivity|contradiction].
  - intros x Hx. destruct (Rlt_dec 0 x); [reflexivity|contradiction].
Qed.
