(** * C68: nuclear attraction integrals of the finite-nucleus models

    [finite_nucleus_eval] is the library's own integrator for radially local
    potentials; [bessel] is the routine for the scaled modified spherical Bessel
    functions it calls and [st] are the tables filled by the initialisation. *)

From Coq Require Import ZArith List Lia Bool Reals Lra.
From Coquelicot Require Import Coquelicot.
From Verif Require Import Base Loops BinomModel BinomProofs CartModel CartProofs HeapModel HeapProofs HeapSpec OneElModel OneElProofs OneElInt OneElPairs OneElSpec OneElThms ParamsModel Sums
  SphModel SphSpec SphPoly SphProofs SphTables SphInt SphOrtho SphAngular SphThms SphSpan SphAdd SpecSpec BesselProofs RadialModel RadialSpec PiBounds OutercoreModel OutercoreProofs OutercoreRadial NucModel NucProofs
  NucPotSpec NucPot NucPotThms GaussMoment RadialTables Type2Model Type2Spec Type2Proj Type2Radial Type2Error Type2Value Type2Main Type2Acc LocalModel LocalSpec LocalInt LocalExp LocalMain LocalAcc LocalThms LocalAbort.
Import ListNotations.
Open Scope R_scope.

(** C68: for shells whose angular momenta add up to at most 14 the general routine
    returns, for the ball, Gaussian, Fermi, bubble and point models, a matrix whose
    elements are within [contracted_error] of the integral over space of the two
    contracted functions and the potential; nothing else is written.  [eps] and [Qm]
    bound the error of the quadrature and the size of the radial integrals of
    every pair of primitives.  Missing from the claim: sums of angular momenta from 15
    to 20 (see the last two theorems) and pairs with a vector a (C-A) + b (C-B)
    that is neither zero nor longer than half of 1e-14. *)
Theorem C68_finite_nucleus_partial : forall sf fuel par bessel st point h pA pB vA vB ca cb C charge model mp p M eps Qm,
  (14 <= fuel)%nat -> init_tables st -> heap_wf h -> std_shell h pA vA ca -> std_shell h pB vB cb -> fits M vA vB -> (v_L vA + v_L vB <= 14)%Z -> exps_pos vA -> exps_pos vB ->
  params_are mp (model_arity model) p -> good_model sf model p ->
  (forall cA aA cB aB, In (cA, aA) (v_prims vA) -> In (cB, aB) (v_prims vB) -> pair_direction aA aB (v_origin vA) (v_origin vB) C /\ 0 <= eps aA aB /\ 0 <= Qm aA aB /\
     quadrature_accuracy bessel (par_radial par) (model_potential sf model (IZR charge) p) (norm_L (v_L vA) aA) (norm_L (v_L vB) aB) aA aB (v_origin vA) (v_origin vB) C (Z.to_nat (v_L vA + v_L vB)) (eps aA aB) (Qm aA aB)) ->
  exists M', nuc_call sf (finite_nucleus_eval fuel par bessel st point) true h pA pB C charge model mp M = Ok M' /\ adims M' = adims M /\
    (forall i j cA cB, nth_error ca i = Some cA -> nth_error cb j = Some cB -> exists x w, elem_at M' vB i j = Ok x /\
      local_integral (model_potential sf model (IZR charge) p) C (phi_of vA cA) (phi_of vB cB) w /\
      Rabs (x - w) <= contracted_error (Z.to_nat (v_L vA)) (Z.to_nat (v_L vB)) (separation (v_origin vA) C) (separation (v_origin vB) C) (v_prims vA) (v_prims vB) eps Qm) /\
    (forall ix, (forall k, (0 <= k < v_size vA * v_size vB)%Z -> ix <> [k]) -> aget M' ix = aget M ix).
Proof. exact finite_nucleus_thm. Qed.
Print Assumptions C68_finite_nucleus_partial.

(** C68: bounds [eps] and [Qm] as asked for above exist for all potentials that are
    not more singular than that of a charge. *)
Theorem C68_bounds_exist : forall bessel tol U NA NB a b A B C lm, charge_like U -> 0 < a -> 0 < b -> exists eps Qm, 0 <= eps /\ 0 <= Qm /\ quadrature_accuracy bessel tol U NA NB a b A B C lm eps Qm.
Proof. exact accuracy_exists_thm. Qed.
Print Assumptions C68_bounds_exist.

(** C68: all five models have such potentials. *)
Theorem C68_models_are_charge_like : forall sf model zn p, good_model sf model p -> charge_like (model_potential sf model zn p).
Proof. exact charge_like_thm. Qed.
Print Assumptions C68_models_are_charge_like.

(** C68: there is at most one number that is the integral over space. *)
Theorem C68_integral_is_unique : forall U C f g v w, local_integral U C f g v -> local_integral U C f g w -> v = w.
Proof. exact local_unique_thm. Qed.
Print Assumptions C68_integral_is_unique.

(** C68: if the angular momenta add up to 15 or more, an assertion fails as soon as one
    radial integral of the first pair of primitives reaches 1e-16. *)
Theorem C68_large_momenta_abort : forall sf fuel par bessel st point h pA pB vA vB ca cb C charge model mp p M c1 a1 r1 c2 a2 r2,
  (14 <= fuel)%nat -> init_tables st -> heap_wf h -> std_shell h pA vA ca -> std_shell h pB vB cb -> fits M vA vB -> (15 <= v_L vA + v_L vB <= 40)%Z ->
  v_prims vA = (c1, a1) :: r1 -> v_prims vB = (c2, a2) :: r2 -> 1 / 10 ^ 13 <= Rabs (c1 * c2) -> (1 <= model <= 5)%Z -> params_are mp (model_arity model) p ->
  (forall v conv, adaptive 10000 2047 (fun r => model_potential sf model (IZR charge) p r * pair_gauss (norm_L (v_L vA) a1) (norm_L (v_L vB) a2) a1 a2 (v_origin vA) (v_origin vB) C r *
     bessel (v_L vA + v_L vB)%Z (pair_k a1 a2 (v_origin vA) (v_origin vB) C * r) * r ^ Z.to_nat (v_L vA + v_L vB)) None (par_radial par) v conv -> 1 / 10 ^ 16 <= Rabs v) ->
  nuc_call sf (finite_nucleus_eval fuel par bessel st point) true h pA pB C charge model mp M = Fail AssertFailed.
Proof. exact nucleus_abort_thm. Qed.
Print Assumptions C68_large_momenta_abort.

(** C68: a call with documented angular momenta that ends in a failing assertion, even
    with Bessel functions free of error. *)
Theorem C68_finite_nucleus_refuted : exists h pA pB vA vB ca cb C charge M,
  heap_wf h /\ std_shell h pA vA ca /\ std_shell h pB vB cb /\ (v_L vA <= 10)%Z /\ (v_L vB <= 10)%Z /\ exps_pos vA /\ exps_pos vB /\ fits M vA vB /\
  (forall cA aA cB aB, In (cA, aA) (v_prims vA) -> In (cB, aB) (v_prims vB) -> pair_direction aA aB (v_origin vA) (v_origin vB) C) /\
  forall sf fuel par st point, (14 <= fuel)%nat -> init_tables st ->
    nuc_call sf (finite_nucleus_eval fuel par exact_bessel st point) true h pA pB C charge 5 None M = Fail AssertFailed.
Proof. exact nucleus_refuted. Qed.
Print Assumptions C68_finite_nucleus_refuted.

(** ** Cases meeting the hypotheses *)

Example C68_case : exists h pA pB vA vB ca cb M bound size,
  heap_wf h /\ std_shell h pA vA ca /\ std_shell h pB vB cb /\ fits M vA vB /\ (v_L vA + v_L vB = 3)%Z /\ exps_pos vA /\ exps_pos vB /\
  (forall sf, good_model sf 1 (fun _ => 1 / 2)) /\ params_are (Some (aoflist [1 / 2])) (model_arity 1) (fun _ => 1 / 2) /\
  forall cA aA cB aB, In (cA, aA) (v_prims vA) -> In (cB, aB) (v_prims vB) -> pair_direction aA aB (v_origin vA) (v_origin vB) (1, 1, 1) /\ 0 <= bound aA aB /\ 0 <= size aA aB /\
    forall sf, quadrature_accuracy exact_bessel (1 / 10 ^ 16) (model_potential sf 1 (IZR 92) (fun _ => 1 / 2)) (norm_L (v_L vA) aA) (norm_L (v_L vB) aB) aA aB
      (v_origin vA) (v_origin vB) (1, 1, 1) (Z.to_nat (v_L vA + v_L vB)) (bound aA aB) (size aA aB).
Proof.
  destruct (shells_exist [(2%Z, (0, 0, 1)%R, [(1, 3)%R; (2, 1)%R]); (1%Z, (1, 0, 1)%R, [(1, 2)%R])]) as (h & ps & W & F).
  { intros L o pr [E | [E | []]]; injection E as <- <- <-; lia. }
  inversion F as [|? pA ? ? HA F1]; subst. inversion F1 as [|? pB ? ? HB F2]; subst.
  destruct HA as (vA & ca & SA & LA & OA & PA). destruct HB as (vB & cb & SB & LB & OB & PB).
  assert (Ch : charge_like (fun r => coulomb_potential_ball r (IZR 92) (1 / 2))).
  { apply (charge_like_thm (mkSpec (fun _ => 0) (fun _ _ => 0)) 1 (IZR 92) (fun _ => 1 / 2)). left. split; [reflexivity|lra]. }
  destruct (accuracy_exists_thm exact_bessel (1 / 10 ^ 16) _ (norm_L 2 3) (norm_L 1 2) 3 2 (0, 0, 1) (1, 0, 1) (1, 1, 1) 3 Ch ltac:(lra) ltac:(lra)) as (e1 & q1 & He1 & Hq1 & Acc1).
  destruct (accuracy_exists_thm exact_bessel (1 / 10 ^ 16) _ (norm_L 2 1) (norm_L 1 2) 1 2 (0, 0, 1) (1, 0, 1) (1, 1, 1) 3 Ch ltac:(lra) ltac:(lra)) as (e2 & q2 & He2 & Hq2 & Acc2).
  exists h, pA, pB, vA, vB, ca, cb, (aundef [18%Z]), (fun a _ => if Req_EM_T a 3 then e1 else e2), (fun a _ => if Req_EM_T a 3 then q1 else q2).
  split; [exact W|]. split; [exact SA|]. split; [exact SB|].
  assert (NA := std_length _ _ _ _ SA). assert (NB := std_length _ _ _ _ SB). rewrite LA in NA. rewrite LB in NB.
  change (n_cart 2) with 6%Z in NA. change (n_cart 1) with 3%Z in NB.
  split; [exists 18%Z; split; [reflexivity|]; rewrite (std_size _ _ _ _ SA), (std_size _ _ _ _ SB), NA, NB; lia|].
  split; [lia|]. split; [intros c a; rewrite PA; intros [E | [E | []]]; injection E as <- <-; lra|]. split; [intros c a; rewrite PB; intros [E | []]; injection E as <- <-; lra|].
  split; [intros sf; left; split; [reflexivity|lra]|].
  split; [intros i Hi; cbn in Hi; assert (i = 0%Z) as -> by lia; reflexivity|].
  assert (S2 : forall x y z : R, 1 <= y -> 1 / 10 ^ 14 < 2 * separation (0, 0, 0) (x, y, z)).
  { intros x y z Hy. assert (H14 : 0 < 10 ^ 14) by (apply pow_lt; lra). assert (1 <= separation (0, 0, 0) (x, y, z)).
    { unfold separation. rewrite <- sqrt_1 at 1. apply sqrt_le_1_alt. nra. }
    apply (Rmult_lt_reg_r (10 ^ 14)); [assumption|]. lra. }
  intros cA aA cB aB. rewrite PA, PB, OA, OB, LA, LB. change (Z.to_nat (2 + 1)) with 3%nat.
  intros [E | [E | []]] [E' | []]; injection E as <- <-; injection E' as <- <-; (split; [right; unfold pair_k, pair_vector; apply S2; lra|]).
  - destruct (Req_EM_T 3 3) as [_ | N]; [|contradiction]. split; [exact He1|]. split; [exact Hq1|]. intros sf. exact Acc1.
  - destruct (Req_EM_T 1 3) as [N | _]; [lra|]. split; [exact He2|]. split; [exact Hq2|]. intros sf. exact Acc2.
Qed.
