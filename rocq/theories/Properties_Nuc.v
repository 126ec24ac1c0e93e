(** * C48, C56: nuclear attraction integrals

    The routines integrating over one pair of primitive shells are arbitrary: the
    theorems hold for every [ev] whose local-potential integrator fills its buffer
    ([local_integrals], with [fl] the numbers it computes), and for every pair of
    special functions [sf]. *)

From Coq Require Import ZArith List Lia Bool Reals Lra.
From Verif Require Import Base CartModel CartProofs HeapModel HeapProofs HeapSpec OneElModel OneElProofs OneElSpec OneElInt OneElPairs OneElThms
  Sums NucModel NucProofs NucThms.
Import ListNotations.
Open Scope Z_scope.

(** C48: the general routine integrates the potential of the requested model with the
    charge and the parameters it is given: every element is the sum over primitive
    pairs of the coefficients times the integral of that potential (pairs whose
    coefficient product is below 1e-13 are left out), and nothing else is written. *)
Theorem C48_general_routine : forall sf ev fl h pA pB vA vB ca cb o charge model mp p M,
  local_integrals ev fl -> heap_wf h ->
  std_shell h pA vA ca -> std_shell h pB vB cb -> fits M vA vB -> 1 <= model <= 5 -> params_are mp (model_arity model) p ->
  exists M', nuc_call sf ev true h pA pB o charge model mp M = Ok M' /\
    integrates fl h pA pB vA vB o (model_potential sf model (IZR charge) p) M M'.
Proof. exact general_thm. Qed.
Print Assumptions C48_general_routine.

(** C48: the point-charge convenience routine: minus the charge times the integrals of 1/r. *)
Theorem C48_point_charge_routine : forall sf ev fp h pA pB vA vB ca cb o charge M,
  heap_wf h ->
  std_shell h pA vA ca -> std_shell h pB vB cb -> fits M vA vB ->
  (forall A B o, point_eval_is ev A B o (fp A B o)) ->
  exists M' A B, conv_call sf ev PointCharge true h pA pB o charge M = Ok M' /\ view_shell h pA = Ok A /\ view_shell h pB = Ok B /\
    matrix_is M M' (v_size vA * v_size vB) (fun k => pair_sum (v_prims vA) (v_prims vB) (fun a b => - IZR charge * fp A B o 0 a b k)%R).
Proof. exact point_thm. Qed.
Print Assumptions C48_point_charge_routine.

(** C48: the other four convenience routines integrate [conv_potential]: the charge
    takes the place of the first model parameter and the others are shifted by
    one.  Missing from the claim: that this is the requested potential, which is
    false, see the next two theorems. *)
Theorem C48_convenience_routines_partial : forall sf ev fl rt h pA pB vA vB ca cb o charge M,
  local_integrals ev fl -> rt <> PointCharge -> heap_wf h ->
  std_shell h pA vA ca -> std_shell h pB vB cb -> fits M vA vB ->
  exists M', conv_call sf ev rt true h pA pB o charge M = Ok M' /\
    integrates fl h pA pB vA vB o (conv_potential sf rt charge) M M'.
Proof. exact convenience_thm. Qed.
Print Assumptions C48_convenience_routines_partial.

(** C48: the last parameter (the rms radius of the ball and Gaussian models, a of the
    Fermi model, k of the bubble) has no influence on the result. *)
Theorem C48_last_parameter_ignored : forall sf ev rt x init h pA pB o charge M,
  conv_call sf ev (other_last rt x) init h pA pB o charge M = conv_call sf ev rt init h pA pB o charge M.
Proof. exact last_ignored. Qed.
Print Assumptions C48_last_parameter_ignored.

(** C48: a call for a ball of rms radius 1/2 and charge 1 whose result is not the
    matrix of the potential of that ball, whatever the special functions. *)
Theorem C48_convenience_routines_refuted : exists ev fl h pA pB vA vB ca cb o charge r_rms M M',
  (forall A B o, local_eval_is ev A B o (fl A B o)) /\ heap_wf h /\ std_shell h pA vA ca /\ std_shell h pB vB cb /\ fits M vA vB /\
  0 < charge /\ (0 < r_rms)%R /\
  forall sf, conv_call sf ev (Ball r_rms) true h pA pB o charge M = Ok M' /\
    ~ integrates fl h pA pB vA vB o (requested_potential sf (Ball r_rms) charge) M M'.
Proof. exact ball_refuted. Qed.
Print Assumptions C48_convenience_routines_refuted.

Example C48_case : exists h pA pB vA vB ca cb M,
  heap_wf h /\ std_shell h pA vA ca /\ std_shell h pB vB cb /\ fits M vA vB /\ v_L vA = 2 /\ v_L vB = 1 /\
  local_integrals sampler sampled /\
  params_are (Some (aoflist [3; 1 / 2]%R)) (model_arity 3) (fun i => if i =? 0 then 3%R else (1 / 2)%R).
Proof.
  destruct (shells_exist [(2, (0, 0, 1)%R, [(1, 3)%R; (2, 1)%R]); (1, (1, 0, 1)%R, [(1, 2)%R])]) as (h & ps & W & F).
  { intros L o pr [E | [E | []]]; injection E as <- <- <-; lia. }
  inversion F as [|? pA ? ? HA F1]; subst. inversion F1 as [|? pB ? ? HB F2]; subst.
  destruct HA as (vA & ca & SA & LA & OA & PA). destruct HB as (vB & cb & SB & LB & OB & PB).
  exists h, pA, pB, vA, vB, ca, cb, (aundef [18]). split; [exact W|]. split; [exact SA|]. split; [exact SB|].
  assert (NA := std_length _ _ _ _ SA). assert (NB := std_length _ _ _ _ SB). rewrite LA in NA. rewrite LB in NB.
  change (n_cart 2) with 6 in NA. change (n_cart 1) with 3 in NB.
  split; [exists 18; split; [reflexivity|]; rewrite (std_size _ _ _ _ SA), (std_size _ _ _ _ SB), NA, NB; lia|].
  split; [exact LA|]. split; [exact LB|]. split; [exact sampler_local|].
  intros i Hi. cbn in Hi. assert (C : i = 0 \/ i = 1) by lia. destruct C as [-> | ->]; reflexivity.
Qed.

(** C56: an unknown model code ends the process as soon as one pair of primitives has a
    coefficient product of at least 1e-13.  Missing from the claim: shells without
    such a pair. *)
Theorem C56_unknown_code_partial : forall sf ev h pA pB vA vB ca cb o charge model mp M,
  heap_wf h ->
  std_shell h pA vA ca -> std_shell h pB vB cb -> fits M vA vB -> ~ known_model model ->
  significant vA vB -> nuc_call sf ev true h pA pB o charge model mp M = Fail ProcessExit.
Proof. exact unknown_thm. Qed.
Print Assumptions C56_unknown_code_partial.

(** C56: otherwise the routine returns normally with a zero matrix. *)
Theorem C56_unknown_code_without_significant_pair : forall sf ev h pA pB vA vB ca cb o charge model mp M,
  heap_wf h ->
  std_shell h pA vA ca -> std_shell h pB vB cb -> fits M vA vB -> ~ known_model model ->
  ~ significant vA vB -> exists M', nuc_call sf ev true h pA pB o charge model mp M = Ok M' /\
    matrix_is M M' (v_size vA * v_size vB) (fun _ => 0%R).
Proof. exact unknown_zero_thm. Qed.
Print Assumptions C56_unknown_code_without_significant_pair.

(** C56: a legal pair of shells for which an unknown code returns a matrix. *)
Theorem C56_unknown_code_refuted : exists h pA pB vA vB ca cb model M,
  heap_wf h /\ std_shell h pA vA ca /\ std_shell h pB vB cb /\ fits M vA vB /\ v_prims vA <> [] /\ v_prims vB <> [] /\
  ~ known_model model /\ forall sf ev o charge mp, exists M', nuc_call sf ev true h pA pB o charge model mp M = Ok M' /\ aget M' [0] = Ok 0%R.
Proof. exact unknown_refuted. Qed.
Print Assumptions C56_unknown_code_refuted.

(** C56: calling before libgrpp_init stops at the assertion, for every code. *)
Theorem C56_library_not_initialised : forall sf ev h pA pB vA vB ca cb o charge model mp M,
  heap_wf h -> std_shell h pA vA ca -> std_shell h pB vB cb ->
  nuc_call sf ev false h pA pB o charge model mp M = Fail AssertFailed.
Proof. exact uninit_thm. Qed.
Print Assumptions C56_library_not_initialised.

Example C56_case : exists h pA pB vA vB ca cb M,
  heap_wf h /\ std_shell h pA vA ca /\ std_shell h pB vB cb /\ fits M vA vB /\ ~ known_model 6 /\ significant vA vB.
Proof.
  destruct (shells_exist [(0, (0, 0, 1)%R, [(1, 3)%R; (2, 1)%R]); (0, (1, 0, 1)%R, [(1, 2)%R])]) as (h & ps & W & F).
  { intros L o pr [E | [E | []]]; injection E as <- <- <-; lia. }
  inversion F as [|? pA ? ? HA F1]; subst. inversion F1 as [|? pB ? ? HB F2]; subst.
  destruct HA as (vA & ca & SA & LA & OA & PA). destruct HB as (vB & cb & SB & LB & OB & PB).
  exists h, pA, pB, vA, vB, ca, cb, (aundef [1]). split; [exact W|]. split; [exact SA|]. split; [exact SB|].
  assert (NA := std_length _ _ _ _ SA). assert (NB := std_length _ _ _ _ SB). rewrite LA in NA. rewrite LB in NB.
  change (n_cart 0) with 1 in NA, NB.
  split; [exists 1; split; [reflexivity|]; rewrite (std_size _ _ _ _ SA), (std_size _ _ _ _ SB), NA, NB; lia|].
  split; [unfold known_model; lia|]. exists 2%R, 1%R, 1%R, 2%R. rewrite PA, PB. cbn.
  split; [auto|]. split; [auto|]. rewrite Rabs_pos_eq; lra.
Qed.
