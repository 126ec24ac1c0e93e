(** * The screening of type-2 radial integrals: proofs *)

From Coq Require Import ZArith Reals Lra Lia List Bool.
From Coquelicot Require Import Coquelicot.
From Verif Require Import Base HeapModel SpecSpec GaussInt BesselProofs LocalSpec NucPotSpec GaussMoment RadialModel RadialTables LocalAbort.
Import ListNotations.
Open Scope R_scope.

(** the integrand of a primitive type-2 radial integral *)
Definition prim_integrand (n l1 l2 : nat) (CA CB aA aB eta r : R) : R :=
  r ^ n * bessK l1 (2 * aA * CA * r) * bessK l2 (2 * aB * CB * r) * exp (- eta * r ^ 2 - aA * (r - CA) ^ 2 - aB * (r - CB) ^ 2).

(** x times the logarithmic derivative of the unscaled Bessel function *)
Definition blog (l : nat) (x : R) : R :=
  match l with O => bessK 1 x / bessK 0 x * x | S m => bessK m x / bessK l x * x - INR l - 1 end.

Lemma blog_step l x : bessK l x <> 0 -> x * bess_step (fun k => bessK k x) l = bessK l x * (blog l x - x).
Proof.
  intros H. destruct l as [|m].
  - cbn [bess_step blog]. field. exact H.
  - cbn [bess_step blog]. pose proof (bessK_rec m x) as E. rewrite S_INR in *. pose proof (pos_INR m) as P.
    set (a := bessK m x) in *. set (b := bessK (S m) x) in *. set (c := bessK (S (S m)) x) in *.
    transitivity (x * a - (INR m + 2) * b - x * b); [|field; exact H].
    replace (x * ((INR m + 1) / (2 * (INR m + 1) + 1) * a + (INR m + 1 + 1) / (2 * (INR m + 1) + 1) * c - b)) with (x * a - (INR m + 2) / (2 * INR m + 3) * (x * (a - c)) - x * b) by (field; lra).
    rewrite E. field. lra.
Qed.

Lemma bess_arg_pos l k r : 0 < r -> 0 <= k -> (0 < k \/ l = O) -> 0 < bessK l (k * r).
Proof.
  intros Hr Hk [K| ->]; [apply bessK_pos; apply Rmult_lt_0_compat; assumption|].
  destruct (Req_dec k 0) as [->|N]; [rewrite Rmult_0_l, BesselThms.bessK_0_at_0; lra|apply bessK_pos; apply Rmult_lt_0_compat; lra].
Qed.

Lemma prim_integrand_derive n l1 l2 CA CB aA aB eta r : 0 < r -> 0 <= CA -> 0 <= CB -> 0 < aA -> 0 < aB -> (0 < CA \/ l1 = O) -> (0 < CB \/ l2 = O) ->
  let f := prim_integrand n l1 l2 CA CB aA aB eta in
  0 < f r /\ is_derive f r (f r / r * (blog l1 (2 * aA * CA * r) + blog l2 (2 * aB * CB * r) + INR n - 2 * (aA + aB + eta) * r ^ 2)).
Proof.
  intros Hr HA HB PA PB QA QB. cbv zeta.
  assert (K1 : 0 < bessK l1 (2 * aA * CA * r)) by (apply bess_arg_pos; [exact Hr|apply Rmult_le_pos; lra|destruct QA as [Q|Q]; [left; apply Rmult_lt_0_compat; lra|right; exact Q]]).
  assert (K2 : 0 < bessK l2 (2 * aB * CB * r)) by (apply bess_arg_pos; [exact Hr|apply Rmult_le_pos; lra|destruct QB as [Q|Q]; [left; apply Rmult_lt_0_compat; lra|right; exact Q]]).
  assert (Pn : 0 < r ^ n) by (apply pow_lt; exact Hr).
  split. { unfold prim_integrand. apply Rmult_lt_0_compat; [apply Rmult_lt_0_compat; [apply Rmult_lt_0_compat; assumption|assumption]|apply exp_pos]. }
  assert (D1 : forall l k, is_derive (fun r => bessK l (k * r)) r (k * bess_step (fun j => bessK j (k * r)) l)).
  { intros l k. apply (is_derive_comp (bessK l) (fun r => k * r) r); [apply bessK_derive|]. auto_derive; [exact I|ring]. }
  assert (Dn : is_derive (fun r => r ^ n) r (INR n / r * r ^ n)).
  { auto_derive; [exact I|]. destruct n as [|m]; [cbn; field; lra|]. cbn [Nat.pred]. change (r ^ S m) with (r * r ^ m). field. lra. }
  assert (De : is_derive (fun r => exp (- eta * r ^ 2 - aA * (r - CA) ^ 2 - aB * (r - CB) ^ 2)) r ((- 2 * eta * r - 2 * aA * (r - CA) - 2 * aB * (r - CB)) * exp (- eta * r ^ 2 - aA * (r - CA) ^ 2 - aB * (r - CB) ^ 2))).
  { auto_derive; [exact I|]. apply f_equal2; [ring|]. f_equal. }
  assert (S1 : 2 * aA * CA * bess_step (fun j => bessK j (2 * aA * CA * r)) l1 = bessK l1 (2 * aA * CA * r) * (blog l1 (2 * aA * CA * r) - 2 * aA * CA * r) / r).
  { rewrite <- blog_step by lra. field. lra. }
  assert (S2 : 2 * aB * CB * bess_step (fun j => bessK j (2 * aB * CB * r)) l2 = bessK l2 (2 * aB * CB * r) * (blog l2 (2 * aB * CB * r) - 2 * aB * CB * r) / r).
  { rewrite <- blog_step by lra. field. lra. }
  pose proof (D1 l1 (2 * aA * CA)) as E1. pose proof (D1 l2 (2 * aB * CB)) as E2. rewrite S1 in E1. rewrite S2 in E2.
  pose proof (is_derive_mult (K := R_AbsRing) _ _ _ _ _ (is_derive_mult (K := R_AbsRing) _ _ _ _ _ (is_derive_mult (K := R_AbsRing) _ _ _ _ _ Dn E1 Rmult_comm) E2 Rmult_comm) De Rmult_comm) as T.
  unfold prim_integrand. eapply is_derive_eq; [exact T|]. unfold plus, mult. cbn -[pow INR bessK blog exp]. 
  set (u := bessK l1 (2 * aA * CA * r)) in *. set (w := bessK l2 (2 * aB * CB * r)) in *. set (e := exp _) in *. set (g1 := blog l1 _) in *. set (g2 := blog l2 _) in *. set (q := r ^ n) in *.
  field. lra.
Qed.

(** the equation of the search, with exact Bessel functions *)
Lemma bessel_ratio_exact l x : bessK l x <> 0 -> exists q, bessel_ratio exact_bessel (Z.of_nat l) x = Some q /\
  q * x + (if (Z.of_nat l >? 0)%Z then - INR l - 1 else 0) = blog l x.
Proof.
  intros H. unfold bessel_ratio, exact_bessel. destruct l as [|m].
  - cbn [Z.of_nat Z.eqb]. change (Z.to_nat 1) with 1%nat. change (Z.to_nat 0) with 0%nat. destruct (Req_EM_T (bessK 0 x) 0) as [B|_]; [contradiction|].
    eexists. split; [reflexivity|]. cbn [Z.gtb Z.compare blog]. ring.
  - destruct (Z.eqb_spec (Z.of_nat (S m)) 0); [lia|]. rewrite Nat2Z.id. replace (Z.to_nat (Z.of_nat (S m) - 1)) with m by lia. destruct (Req_EM_T (bessK (S m) x) 0) as [B|_]; [contradiction|].
    eexists. split; [reflexivity|]. destruct (Z.gtb_spec (Z.of_nat (S m)) 0); [|lia]. cbn [blog]. ring.
Qed.

Lemma uphill_thm n l1 l2 CA CB aA aB eta r : 0 < r -> 0 <= CA -> 0 <= CB -> 0 < aA -> 0 < aB -> 0 < eta -> (0 < CA \/ l1 = O) -> (0 < CB \/ l2 = O) ->
  exists D, is_derive (prim_integrand n l1 l2 CA CB aA aB eta) r D /\
    match screening_type2_equation_for_maximum exact_bessel r (Z.of_nat n) (Z.of_nat l1) (Z.of_nat l2) (aA + aB + eta) (2 * aA * CA) (2 * aB * CB) with
    | None => D < 0
    | Some s => (0 < D <-> r < s) /\ (D = 0 <-> s = r) /\ (D < 0 <-> s < r)
    end.
Proof.
  intros Hr HA HB PA PB PE QA QB.
  assert (K1 : 0 < bessK l1 (2 * aA * CA * r)) by (apply bess_arg_pos; [exact Hr|apply Rmult_le_pos; lra|destruct QA as [Q|Q]; [left; apply Rmult_lt_0_compat; lra|right; exact Q]]).
  assert (K2 : 0 < bessK l2 (2 * aB * CB * r)) by (apply bess_arg_pos; [exact Hr|apply Rmult_le_pos; lra|destruct QB as [Q|Q]; [left; apply Rmult_lt_0_compat; lra|right; exact Q]]).
  destruct (prim_integrand_derive n l1 l2 CA CB aA aB eta r Hr HA HB PA PB QA QB) as (Pf & Df). cbv zeta in Pf, Df.
  eexists. split; [exact Df|]. unfold screening_type2_equation_for_maximum.
  destruct (bessel_ratio_exact l1 (2 * aA * CA * r)) as (q1 & -> & E1); [lra|]. destruct (bessel_ratio_exact l2 (2 * aB * CB * r)) as (q2 & -> & E2); [lra|].
  cbv zeta. rewrite <- E1, <- E2. clear E1 E2 Df. rewrite <- !INR_IZR_INZ. set (p := aA + aB + eta). assert (Hp : 0 < p) by (unfold p; lra).
  set (F := prim_integrand n l1 l2 CA CB aA aB eta r / r). assert (HF : 0 < F) by (apply Rdiv_lt_0_compat; assumption).
  set (x1 := 2 * aA * CA * r). set (x2 := 2 * aB * CB * r).
  match goal with |- context [Rlt_dec (?a / _) 0] => set (A := a) end.
  assert (EA : q1 * x1 + (if (Z.of_nat l1 >? 0)%Z then - INR l1 - 1 else 0) + (q2 * x2 + (if (Z.of_nat l2 >? 0)%Z then - INR l2 - 1 else 0)) + INR n = A).
  { unfold A. destruct (Z.of_nat l1 >? 0)%Z, (Z.of_nat l2 >? 0)%Z; fold x1 x2; ring. }
  rewrite EA. replace (A - 2 * p * r ^ 2) with (2 * p * (A / (2 * p) - r ^ 2)) by (field; lra).
  set (y := A / (2 * p)). assert (HC : 0 < F * (2 * p)) by (apply Rmult_lt_0_compat; lra). rewrite <- Rmult_assoc. set (C := F * (2 * p)) in *.
  assert (Hr2 : 0 < r ^ 2) by (apply pow_lt; exact Hr).
  destruct (Rlt_dec y 0) as [N|N].
  - assert (0 < C * (r ^ 2 - y)) by (apply Rmult_lt_0_compat; lra). lra.
  - pose proof (sqrt_pos y) as Ps. pose proof (sqrt_sqrt y ltac:(lra)) as Sq. set (s := sqrt y) in *. rewrite <- Sq. replace (s * s - r ^ 2) with ((s - r) * (s + r)) by ring. rewrite <- Rmult_assoc.
    assert (HD : 0 < C * (s + r)) by (apply Rmult_lt_0_compat; lra). replace (C * (s - r) * (s + r)) with (C * (s + r) * (s - r)) by ring. set (G := C * (s + r)) in *.
    split; [|split]; (split; intros Q).
    + destruct (Rlt_le_dec r s) as [B|B]; [exact B|]. assert (0 <= G * (r - s)) by (apply Rmult_le_pos; lra). lra.
    + apply Rmult_lt_0_compat; lra.
    + apply Rmult_integral in Q. destruct Q; lra.
    + replace (s - r) with 0 by lra. apply Rmult_0_r.
    + destruct (Rlt_le_dec s r) as [B|B]; [exact B|]. assert (0 <= G * (s - r)) by (apply Rmult_le_pos; lra). lra.
    + assert (0 < G * (r - s)) by (apply Rmult_lt_0_compat; lra). lra.
Qed.

(** the value is the integrand near a solution of the equation, times the width of the Gaussian *)
Lemma find_maximum_val steps eqn r0 v : find_maximum steps eqn r0 = ScrVal v -> exists r, eqn r = Some v /\ Rabs (v - r) <= 1 / 100.
Proof.
  revert r0. induction steps as [|k IH]; intros r0 H; [discriminate|]. cbn [find_maximum] in H. destruct (eqn r0) as [r1|] eqn:E; [|discriminate].
  destruct (Rlt_dec (1 / 100) (Rabs (r1 - r0))) as [B|B]; [apply (IH r1); exact H|]. injection H as <-. exists r0. split; [exact E|lra].
Qed.

Lemma estimate_thm erf n l1 l2 CA CB aA aB eta v : 0 <= CA -> 0 <= CB -> 0 < aA -> 0 < aB -> 0 < eta -> / 10 ^ 14 < 2 * aA * CA \/ l1 = O -> / 10 ^ 14 < 2 * aB * CB \/ l2 = O ->
  / 10 ^ 14 < 2 * aA * CA \/ / 10 ^ 14 < 2 * aB * CB ->
  screening_radial_type2_integral_primitive exact_bessel erf (Z.of_nat l1) (Z.of_nat l2) (Z.of_nat n) (CA ^ 2) (CB ^ 2) aA aB (2 * aA * CA) (2 * aB * CB) eta = Ok (ScrVal v) ->
  exists r s, screening_type2_equation_for_maximum exact_bessel r (Z.of_nat n) (Z.of_nat l1) (Z.of_nat l2) (aA + aB + eta) (2 * aA * CA) (2 * aB * CB) = Some s /\ Rabs (s - r) <= 1 / 100 /\ 0 <= s /\
    v = sqrt (PI / (aA + aB + eta)) * ((1 + erf (sqrt (aA + aB + eta) * s)) / 2) * prim_integrand n l1 l2 CA CB aA aB eta s.
Proof.
  intros HA HB PA PB PE QA QB QC. unfold screening_radial_type2_integral_primitive. cbv zeta.
  rewrite !sqrt_pow2 by assumption. set (k1 := 2 * aA * CA) in *. set (k2 := 2 * aB * CB) in *.
  assert (N1 : 0 <= k1) by (unfold k1; apply Rmult_le_pos; lra). assert (N2 : 0 <= k2) by (unfold k2; apply Rmult_le_pos; lra). rewrite !Rabs_pos_eq by assumption.
  set (s1 := if Rle_dec k1 (1 / 10 ^ 14) then true else false). set (s2 := if Rle_dec k2 (1 / 10 ^ 14) then true else false).
  assert (X1 : s1 = false \/ l1 = O) by (destruct QA as [Q|Q]; [left; unfold s1; destruct (Rle_dec k1 (1 / 10 ^ 14)); [lra|reflexivity]|right; exact Q]).
  assert (X2 : s2 = false \/ l2 = O) by (destruct QB as [Q|Q]; [left; unfold s2; destruct (Rle_dec k2 (1 / 10 ^ 14)); [lra|reflexivity]|right; exact Q]).
  assert (X3 : s1 && s2 = false).
  { destruct QC as [Q|Q]; [unfold s1; destruct (Rle_dec k1 (1 / 10 ^ 14)); [lra|reflexivity]|unfold s2; destruct (Rle_dec k2 (1 / 10 ^ 14)); [lra|apply andb_false_r]]. }
  assert (Y1 : ((Z.of_nat l1 >=? 1)%Z && s1) = false) by (destruct X1 as [->| ->]; [apply andb_false_r|reflexivity]).
  assert (Y2 : ((Z.of_nat l2 >=? 1)%Z && s2) = false) by (destruct X2 as [->| ->]; [apply andb_false_r|reflexivity]).
  rewrite Y1, Y2, <- !andb_assoc, X3, !andb_false_r.
  match goal with |- context [find_maximum 4 ?e ?r0] => destruct (find_maximum 4 e r0) as [| |s] eqn:E end; intros H; try discriminate.
  injection H as <-. apply find_maximum_val in E. destruct E as (r & Er & Hs). exists r, s. split; [exact Er|]. split; [exact Hs|].
  split. { unfold screening_type2_equation_for_maximum in Er. destruct (bessel_ratio exact_bessel (Z.of_nat l1) (k1 * r)), (bessel_ratio exact_bessel (Z.of_nat l2) (k2 * r)); try discriminate. cbv zeta in Er.
    match type of Er with context [Rlt_dec ?a 0] => destruct (Rlt_dec a 0) end; [discriminate|]. injection Er as <-. apply sqrt_pos. }
  unfold prim_integrand, exact_bessel, rpow_int. rewrite !Nat2Z.id, <- pow_powerRZ. fold k1 k2.
  replace (- eta * s ^ 2 - aA * (s - CA) ^ 2 - aB * (s - CB) ^ 2) with (- eta * s * s - aA * (s - CA) * (s - CA) - aB * (s - CB) * (s - CB)) by ring.
  lra.
Qed.

Lemma half_int_ext f g v : (forall r, f r = g r) -> half_int f v -> half_int g v.
Proof.
  intros E (H1 & H2). split.
  - intros T HT. apply (ex_RInt_ext f); [intros; apply E|apply H1; exact HT].
  - apply (is_lim_ext (fun T => RInt f 0 T)); [|exact H2]. intros T. apply RInt_ext. intros; apply E.
Qed.

(** with both shells on the centre of the potential the estimate is the integral *)
Lemma one_centre_thm bessel erf n aA aB eta : (n <= 31)%nat -> 0 < aA -> 0 < aB -> 0 < eta ->
  exists v, screening_radial_type2_integral_primitive bessel erf 0 0 (Z.of_nat n) 0 0 aA aB 0 0 eta = Ok (ScrVal v) /\
    half_int (prim_integrand n 0 0 0 0 aA aB eta) v.
Proof.
  intros Hn PA PB PE. unfold screening_radial_type2_integral_primitive. cbv zeta. cbn [Z.geb Z.compare Z.eqb andb]. rewrite Rabs_R0, sqrt_0.
  destruct (Rle_dec 0 (1 / 10 ^ 14)) as [_|B]; [|exfalso; apply B; lra]. rewrite gaussian_integral_ok by (try lia; lra). rewrite bind_ok. eexists. split; [reflexivity|].
  replace (- aA * 0 * 0 - aB * 0 * 0) with 0 by ring. rewrite exp_0, Rmult_1_l, Nat2Z.id.
  eapply half_int_ext; [|apply gauss_moment; lra]. intros r. unfold prim_integrand. rewrite !Rmult_0_r, Rmult_0_l, BesselThms.bessK_0_at_0, !Rmult_1_r. f_equal. f_equal. ring.
Qed.
