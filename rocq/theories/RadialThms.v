(** * Radial quadrature and tables: theorems (C15, C35, C36, C37) *)

From Coq Require Import ZArith Reals Lra Lia List Bool.
From Coquelicot Require Import Coquelicot.
From Verif Require Import Base Loops Sums BinomModel HeapModel OneElModel OneElProofs OneElInt ParamsModel NucPotSpec GaussMoment RadialModel RadialSpec RadialProofs RadialTables.
Import ListNotations.
Open Scope R_scope.

(** grids that occur: created by create_grid, used by any number of integrations *)
Inductive reachable (mn : Z) (gp : gparams) : rgrid -> Prop :=
| reach_new g : create_grid mn gp = Ok g -> reachable mn gp g
| reach_use g fuel screen tol n l1 l2 v c g' : reachable mn gp g -> (0 <= n <= gp_n gp)%Z -> (0 <= l1 <= gp_l1 gp)%Z -> (0 <= l2 <= gp_l2 gp)%Z -> (14 <= fuel)%nat ->
    calculate_radial fuel mn gp screen tol n l1 l2 g = Ok (v, c, g') -> reachable mn gp g'.

Lemma reachable_valid mn gp g : (0 < mn <= max_grid)%Z -> (0 <= gp_n gp)%Z -> (0 <= gp_l1 gp)%Z -> (0 <= gp_l2 gp)%Z -> reachable mn gp g -> exists s, valid mn gp s g.
Proof.
  intros Hm Hn H1 H2 H. induction H as [g E|g fuel screen tol n l1 l2 v c g' _ (s & V) Hn' H1' H2' Hf E].
  - destruct (create_valid mn gp Hm Hn H1 H2) as (g1 & E1 & V1). exists 0%nat. congruence.
  - destruct (calculate_ok fuel mn gp screen tol n l1 l2 s g Hm Hn' H1' H2' Hf V) as (v1 & c1 & g1 & s1 & E1 & V1 & _). exists s1. congruence.
Qed.

(** the substitution used by the rule *)
Lemma radius_derive_thm : forall xi, 0 < xi < 1 -> is_derive radius xi (radius' xi) /\ 0 < radius xi.
Proof.
  intros xi H. assert (0 < 1 - xi ^ 3) by (cbn [pow]; nra). split.
  - unfold radius, radius'. eapply GaussInt.is_derive_eq; [auto_derive; [cbn [pow] in *; lra|reflexivity]|]. cbn [pow] in *. field. lra.
  - unfold radius. assert (ln (1 - xi ^ 3) < 0); [|lra]. rewrite <- ln_1. apply ln_increasing; [assumption|]. assert (0 < xi ^ 3) by (apply pow_lt; lra). lra.
Qed.

Lemma stage_2047 v c g tol : adaptive 10000 2047 g None tol v c ->
  v = if Rle_dec (Rabs (quadrature g 4095 - quadrature g 2047)) tol then quadrature g 4095 else quadrature g 8191.
Proof.
  intros (s & -> & C & H).
  assert (A0 : accepted g 2047 None tol 0 <-> Rabs (quadrature g 4095 - quadrature g 2047) <= tol) by (unfold accepted; cbn; tauto).
  assert (Hs : (s <= 2)%nat). { destruct (Nat.le_gt_cases s 2) as [X|X]; [exact X|]. pose proof (stage_mono 2047 3 s ltac:(lia) X). cbn [stage] in *. lia. }
  destruct c.
  - destruct H as (s' & -> & A & N). destruct s' as [|[|s']]; [| |lia].
    + apply A0 in A. destruct (Rle_dec _ _); [reflexivity|contradiction].
    + destruct (Rle_dec _ _) as [X|X]; [|reflexivity]. exfalso. apply (N 0%nat ltac:(lia)), A0, X.
  - destruct H as (X & N). assert (s = 2)%nat by (destruct s as [|[|[|s]]]; cbn in X; lia). subst s.
    destruct (Rle_dec _ _) as [Y|Y]; [|reflexivity]. exfalso. apply (N 0%nat ltac:(lia)), A0, Y.
Qed.

Lemma stage_31 v c g sc tol : adaptive 10000 31 g sc tol v c -> exists j : nat, (j <= 8)%nat /\ v = quadrature g (32 * 2 ^ Z.of_nat j - 1) /\ (c = true \/ j = 8%nat).
Proof.
  intros (s & -> & C & H). exists s.
  assert (E : forall k, stage 31 k = (32 * 2 ^ Z.of_nat k - 1)%Z) by (induction k as [|k IH]; [reflexivity|]; cbn [stage]; rewrite IH, Nat2Z.inj_succ, Z.pow_succ_r by lia; lia).
  assert (Hs : (s <= 8)%nat). { destruct (Nat.le_gt_cases s 8) as [X|X]; [exact X|]. pose proof (stage_mono 31 9 s ltac:(lia) X). cbn [stage] in *. lia. }
  split; [exact Hs|]. split; [rewrite E; reflexivity|]. destruct c; [left; reflexivity|right]. destruct H as (X & _).
  do 8 (destruct s as [|s]; [cbn in X; lia|]). lia.
Qed.

(** C35: whatever has been integrated before with the grid, an integral is the
    full sum over the grid of 4095 points when that differs from the sum over 2047
    points by no more than the tolerance, and over 8191 points otherwise *)
Lemma type1_quadrature_thm : forall fuel gp tol n l1 l2 g, (14 <= fuel)%nat -> (0 <= n <= gp_n gp)%Z -> (0 <= l1 <= gp_l1 gp)%Z -> (0 <= l2 <= gp_l2 gp)%Z ->
  reachable 2047 gp g -> exists v c g', calculate_radial fuel 2047 gp None tol n l1 l2 g = Ok (v, c, g') /\
    let f := fun r => gp_pot gp r * gp_f1 gp l1 r * gp_f2 gp l2 r * r ^ Z.to_nat n in
    v = if Rle_dec (Rabs (quadrature f 4095 - quadrature f 2047)) tol then quadrature f 4095 else quadrature f 8191.
Proof.
  intros fuel gp tol n l1 l2 g Hf Hn H1 H2 Hr. destruct (reachable_valid 2047 gp g ltac:(unfold max_grid; lia) ltac:(lia) ltac:(lia) ltac:(lia) Hr) as (s & V).
  destruct (calculate_ok fuel 2047 gp None tol n l1 l2 s g ltac:(unfold max_grid; lia) Hn H1 H2 Hf V) as (v & c & g' & s' & E & _ & A).
  exists v, c, g'. split; [exact E|]. exact (stage_2047 v c _ tol A).
Qed.

(** C36: the same for the rule that starts with 31 points and uses the value
    predicted by screening *)
Lemma type2_quadrature_thm : forall fuel gp screen tol n l1 l2 g, (14 <= fuel)%nat -> (0 <= n <= gp_n gp)%Z -> (0 <= l1 <= gp_l1 gp)%Z -> (0 <= l2 <= gp_l2 gp)%Z ->
  reachable 31 gp g -> exists v c g', calculate_radial fuel 31 gp screen tol n l1 l2 g = Ok (v, c, g') /\
    let f := fun r => gp_pot gp r * gp_f1 gp l1 r * gp_f2 gp l2 r * r ^ Z.to_nat n in
    match screen with
    | Some x => if Rlt_dec (Rabs x) tol then v = x else adaptive 10000 31 f screen tol v c
    | None => adaptive 10000 31 f None tol v c
    end.
Proof.
  intros fuel gp screen tol n l1 l2 g Hf Hn H1 H2 Hr. destruct (reachable_valid 31 gp g ltac:(unfold max_grid; lia) ltac:(lia) ltac:(lia) ltac:(lia) Hr) as (s & V).
  destruct (calculate_ok fuel 31 gp screen tol n l1 l2 s g ltac:(unfold max_grid; lia) Hn H1 H2 Hf V) as (v & c & g' & s' & E & _ & A).
  exists v, c, g'. split; [exact E|]. destruct screen as [x|]; [destruct (Rlt_dec (Rabs x) tol); [exact (proj1 A)|exact A]|exact A].
Qed.

Lemma doublings_thm : forall v c g sc tol, adaptive 10000 31 g sc tol v c -> exists j : nat, (j <= 8)%nat /\ v = quadrature g (32 * 2 ^ Z.of_nat j - 1) /\ (c = true \/ j = 8%nat).
Proof. exact stage_31. Qed.

(** ** C15: the type-2 tables ignore the tolerance *)

(** what the user is told: integrals are converged to the tolerance that was set *)
Definition honours_tolerance (bessel : Z -> R -> R) (erf : R -> R) (par : params) (pot : pprims) (LA : Z) (bra : prims) (LB : Z) (ket : prims) (CA_2 CB_2 : R) (l1_max l2_max n_max : Z) : Prop :=
  exists t, tabulate_radial_type2_integrals 14 par bessel erf l1_max l2_max n_max CA_2 CB_2 pot LA bra LB ket = Ok t /\
    forall l1 l2 n, (0 <= l1 <= l1_max)%Z -> (0 <= l2 <= l2_max)%Z -> (0 <= n <= n_max)%Z -> exists v s c,
      get_radial_type2_integral t l1 l2 n = Ok v /\
      screening_radial_type2 bessel erf CA_2 CB_2 (shrink_norm LA bra) (shrink_norm LB ket) (shrink_pot pot) l1 l2 n = Ok s /\
      let g := type2_integrand bessel pot LA bra (sqrt CA_2) LB ket (sqrt CB_2) l1 l2 n in
      match s with Some x => if Rlt_dec (Rabs x) (par_radial par) then v = x else adaptive 10000 31 g s (par_radial par) v c
      | None => adaptive 10000 31 g None (par_radial par) v c end.

(** the scaled modified spherical Bessel functions of order 0 and 1 *)
Definition bessel_01 (bessel : Z -> R -> R) : Prop :=
  bessel 0%Z 0 = 1 /\ bessel 1%Z 0 = 0 /\
  (forall x, 0 < x -> bessel 0%Z x = (1 - exp (- 2 * x)) / (2 * x)) /\
  (forall x, 0 < x -> bessel 1%Z x = ((x - 1) + (x + 1) * exp (- 2 * x)) / (2 * x ^ 2)).

(** a concrete call: exponents 0.096 at distance 100 and 0.002 on the centre of
    the potential exp(-0.002 r^2) *)
Definition w_pot : pprims := [(2%Z, 1, 2 / 1000)].
Definition w_bra : prims := [(1, 96 / 1000)].
Definition w_ket : prims := [(1, 2 / 1000)].

