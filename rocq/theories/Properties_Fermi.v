(** * C69-C72: the tabulated function S_k(x) and the nuclear potentials

    [fermi_series Sk]: Sk k x is the sum over n >= 1 of (-1)^n e^(n x) / n^k for
    2 <= k <= 7 and x <= 0.  [tabulated_sk] is the number returned by the library. *)

From Coq Require Import ZArith List Lia Bool Reals Lra.
From Coquelicot Require Import Coquelicot.
From Verif Require Import Base NucPotSpec NucModel NucPot NucPotThms NucProofs LocalThms NucBound FermiSkModel FermiAcc FermiPot FermiDirect.
Import ListNotations.
Open Scope R_scope.

(** C69: for every order from 2 to 7 and every x <= 0 the library returns a number
    within 3e-11 e^x of S_k(x), that is with a relative error of at most 4e-11. *)
Theorem C69_tabulated_function : forall Sk k x, fermi_series Sk -> (2 <= k <= 7)%Z -> x <= 0 ->
  exists v, specfunc_fermi_sk k x = Ok v /\ Rabs (v - Sk k x) <= 3 / 10 ^ 11 * exp x /\ Rabs (v - Sk k x) <= 4 / 10 ^ 11 * Rabs (Sk k x).
Proof. exact sk_accuracy_thm. Qed.
Print Assumptions C69_tabulated_function.

(** C69: the assertion on the order fails for all other orders. *)
Theorem C69_other_orders_abort : forall k x, (k < 2 \/ 7 < k)%Z -> specfunc_fermi_sk k x = Fail AssertFailed.
Proof. exact sk_orders_thm. Qed.
Print Assumptions C69_other_orders_abort.

(** C69: outside the documented range: the value at 0 is returned up to 0.005, the
    table is read beyond its last row from 0.005 on. *)
Theorem C69_positive_arguments : forall k x, (2 <= k <= 7)%Z -> 0 <= x ->
  (x < 1 / 200 -> specfunc_fermi_sk k x = specfunc_fermi_sk k 0) /\ (1 / 200 <= x -> specfunc_fermi_sk k x = Fail OutOfBounds).
Proof. exact sk_positive_thm. Qed.
Print Assumptions C69_positive_arguments.

(** C69: the direct summation (exported, not used by the library) always converges within
    its limit of iterations and is within 1e-12 of S_k(x). *)
Theorem C69_direct_summation : forall Sk k x, fermi_series Sk -> (2 <= k <= 7)%Z -> x <= 0 -> exists v, fermi_model_Sk k x = (true, v) /\ Rabs (v - Sk k x) < 1 / 10 ^ 12.
Proof. exact direct_thm. Qed.
Print Assumptions C69_direct_summation.

(** C70: the Fermi density evaluated with the tables has a relative error below 5e-11. *)
Theorem C70_fermi_density : forall Sk r zn c a, fermi_series Sk -> 0 < c -> 0 < a ->
  Rabs (charge_density_fermi tabulated_sk r zn c a - charge_density_fermi Sk r zn c a) <= 5 / 10 ^ 11 * Rabs (charge_density_fermi Sk r zn c a).
Proof. exact fermi_density_thm. Qed.
Print Assumptions C70_fermi_density.

(** C70: so has the Fermi bubble density. *)
Theorem C70_fermi_bubble_density : forall Sk r zn c a k, fermi_series Sk -> 0 < c -> 0 < a -> 0 <= k ->
  Rabs (charge_density_fermi_bubble tabulated_sk r zn c a k - charge_density_fermi_bubble Sk r zn c a k) <= 5 / 10 ^ 11 * Rabs (charge_density_fermi_bubble Sk r zn c a k).
Proof. exact bubble_density_thm. Qed.
Print Assumptions C70_fermi_bubble_density.

(** C70: so has the rms radius of the Fermi model. *)
Theorem C70_fermi_radius : forall Sk (zn : Z) c a, fermi_series Sk -> zn <> 0%Z -> 0 < c -> 0 < a ->
  Rabs (rms_radius_fermi tabulated_sk zn c a - rms_radius_fermi Sk zn c a) <= 5 / 10 ^ 11 * rms_radius_fermi Sk zn c a.
Proof. exact fermi_radius_thm. Qed.
Print Assumptions C70_fermi_radius.

(** C70: so has the rms radius of the Fermi bubble model. *)
Theorem C70_fermi_bubble_radius : forall Sk (zn : Z) c a k, fermi_series Sk -> zn <> 0%Z -> 0 < c -> 0 < a -> 0 <= k ->
  Rabs (rms_radius_fermi_bubble tabulated_sk zn c a k - rms_radius_fermi_bubble Sk zn c a k) <= 5 / 10 ^ 11 * rms_radius_fermi_bubble Sk zn c a k.
Proof. exact bubble_radius_thm. Qed.
Print Assumptions C70_fermi_bubble_radius.

(** C70: the potential of the Fermi model evaluated with the tables differs from the
    exact one by less than the potential of a charge 1e-9 (a/c)^2 Z. *)
Theorem C70_fermi_potential : forall Sk r zn c a, fermi_series Sk -> 0 < a -> a <= c -> 0 < r ->
  Rabs (coulomb_potential_fermi tabulated_sk r zn c a - coulomb_potential_fermi Sk r zn c a) <= 1 / 10 ^ 9 * (a / c) ^ 2 * Rabs zn / r.
Proof. exact fermi_potential_thm. Qed.
Print Assumptions C70_fermi_potential.

(** C70: for the Fermi bubble model by less than that of a charge 2e-8 (a/c)^2 Z. *)
Theorem C70_fermi_bubble_potential : forall Sk r zn c a k, fermi_series Sk -> 0 < a -> a <= c -> 0 <= k -> 0 < r ->
  Rabs (coulomb_potential_fermi_bubble tabulated_sk r zn c a k - coulomb_potential_fermi_bubble Sk r zn c a k) <= 2 / 10 ^ 8 * (a / c) ^ 2 * Rabs zn / r.
Proof. exact bubble_potential_thm. Qed.
Print Assumptions C70_fermi_bubble_potential.

(** C71: for a nucleus of charge Z >= 0 the potential of every model lies between that
    of the point charge and zero and grows with the distance. *)
Theorem C71_attractive_and_weaker_than_a_point_charge : forall sf model zn p, good_model sf model p -> 0 <= zn ->
  (forall r, 0 < r -> - zn / r <= model_potential sf model zn p r <= 0) /\
  (forall r s, 0 < r -> r <= s -> model_potential sf model zn p r <= model_potential sf model zn p s).
Proof. exact attractive_thm. Qed.
Print Assumptions C71_attractive_and_weaker_than_a_point_charge.

(** C72: the header of specfunc_fermi_sk.c promises about 1e-12 on (-10, 0); the error of
    S_7 exceeds 2e-11. *)
Theorem C72_documented_accuracy_refuted : forall Sk, fermi_series Sk -> exists x v, -10 < x < 0 /\ specfunc_fermi_sk 7 x = Ok v /\ 2 / 10 ^ 11 < Rabs (v - Sk 7%Z x).
Proof. exact sk_documented_refuted. Qed.
Print Assumptions C72_documented_accuracy_refuted.

(** ** Cases meeting the hypotheses *)

Example C69_case : exists Sk, fermi_series Sk /\ (2 <= 7 <= 7)%Z /\ -25 / 1000 <= 0.
Proof. destruct fermi_series_exists as (Sk & H). exists Sk. split; [exact H|]. split; [lia|lra]. Qed.

(** S_2(0) = - pi^2 / 12 *)
Example C69_value : exists v, specfunc_fermi_sk 2 0 = Ok v /\ Rabs (v + PI ^ 2 / 12) <= 3 / 10 ^ 11.
Proof.
  destruct fermi_series_exists as (Sk & H). destruct (C69_tabulated_function Sk 2%Z 0 H ltac:(lia) ltac:(lra)) as (v & E & B & _). exists v. split; [exact E|].
  rewrite (Sk_Sx Sk H 2%Z 0 ltac:(lia) ltac:(lra)) in B. change (Sx (Z.to_nat 2) 0) with (FermiSk.Sfull 2 0) in B. rewrite FermiSk.Sfull_2_0, exp_0, Rmult_1_r in B.
  replace (v + PI ^ 2 / 12) with (v - - (PI ^ 2 / 12)) by ring. exact B.
Qed.

(** a nucleus with c = 7.1 fm and a = 0.52 fm, in Bohr radii *)
Example C70_case : exists Sk c a, fermi_series Sk /\ 0 < a /\ a <= c /\ c = 134 / 10 ^ 6.
Proof. destruct fermi_series_exists as (Sk & H). exists Sk, (134 / 10 ^ 6), (1 / 10 ^ 5). split; [exact H|]. lra. Qed.

Example C71_case : exists sf, good_model sf 3 (fun i => if (i =? 0)%Z then 134 / 10 ^ 6 else 1 / 10 ^ 5) /\ 0 <= 92.
Proof.
  destruct fermi_series_exists as (Sk & H). exists (mkSpec (fun _ => 0) Sk). split; [|lra]. right. right. left. split; [reflexivity|]. cbn [Z.eqb]. split; [lra|]. split; [lra|exact H].
Qed.
