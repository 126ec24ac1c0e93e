(** * C88: the attraction to a finite nucleus over a basis

    [bfun]: one component of a shell with a coefficient; [combo ts]: the linear combination of
    these basis functions as a function on space; [quad ts V], [cross ts us V]: expectation value
    and matrix element from elements V (Definite.v, Rigid.v); [felt ... C charge model mp t u e]:
    the library writes [e] as the element for a nucleus at C with one of the charge distributions;
    [model_potential]: the potential of this distribution; [good_model]: its parameters are
    positive and the special functions it uses are the exact ones; [fine]: shells up to L = 9 with
    L_A + L_B <= 14 and positive exponents, with accuracies [eps] and sizes [Qm] of the
    radial integrals; [pair_error], [sum_error]: the error of C68 which follows from them
    (FiniteNuc.v). *)

From Coq Require Import ZArith List Lia Bool Reals Lra.
From Coquelicot Require Import Coquelicot.
From Verif Require Import Base GaussInt GaussProd CartModel CartProofs HeapModel HeapProofs HeapSpec
  OneElModel OneElProofs OneElPairs OneElSpec OneElInt OneElThms ParamsModel NucPotSpec NucPot NucModel NucProofs SphModel SphThms Type2Spec
  LocalModel LocalSpec LocalAcc LocalThms NucBound Definite FiniteNuc.
From Verif Require Import RigidPoly Rigid RigidThms.
From Verif Require Properties_OneEl Properties_Rigid.
Import ListNotations.
Open Scope R_scope.

(** C88: for any list of basis functions with any coefficients and each of the charge distributions, the
expectation value computed from the library's matrix elements is not positive, up to the errors. *)
Theorem C88_attractive : forall sf fuel par bessel st point h charge model mp p C eps Qm ts V,
  (14 <= fuel)%nat -> init_tables st -> heap_wf h -> params_are mp (model_arity model) p -> good_model sf model p -> (0 <= charge)%Z ->
  fine h bessel (par_radial par) (model_potential sf model (IZR charge) p) C eps Qm ts ts ->
  (forall t u, In t ts -> In u ts -> felt sf fuel par bessel st point h C charge model mp t u (V t u)) -> quad ts V <= sum_error C eps Qm ts ts.
Proof. exact finite_sign_thm. Qed.
Print Assumptions C88_attractive.

(** C88: exchanging the two basis functions changes an element by at most the errors of the two calls. *)
Theorem C88_symmetric : forall sf fuel par bessel st point h charge model mp p C eps Qm t u e e',
  (14 <= fuel)%nat -> init_tables st -> heap_wf h -> params_are mp (model_arity model) p -> good_model sf model p ->
  bf_ok h t -> bf_ok h u -> pair_fine bessel (par_radial par) (model_potential sf model (IZR charge) p) C eps Qm t u -> pair_fine bessel (par_radial par) (model_potential sf model (IZR charge) p) C eps Qm u t ->
  felt sf fuel par bessel st point h C charge model mp t u e -> felt sf fuel par bessel st point h C charge model mp u t e' ->
  Rabs (e - e') <= pair_error C eps Qm t u + pair_error C eps Qm u t.
Proof. exact finite_symmetric_thm. Qed.
Print Assumptions C88_symmetric.

(** C88: the matrix element between two linear combinations does not change, up to the errors, when both
combinations and the nucleus are carried along by a rotation, reflection or translation. *)
Theorem C88_rigid_motion : forall sf fuel par bessel st point h charge model mp p O t C eps Qm eps' Qm' ts us ts' us' V V',
  (14 <= fuel)%nat -> init_tables st -> heap_wf h -> params_are mp (model_arity model) p -> good_model sf model p -> orthogonal O ->
  fine h bessel (par_radial par) (model_potential sf model (IZR charge) p) C eps Qm ts us -> fine h bessel (par_radial par) (model_potential sf model (IZR charge) p) (Rigid.moved3 O t C) eps' Qm' ts' us' ->
  Rigid.carried O t (combo ts) (combo ts') -> Rigid.carried O t (combo us) (combo us') ->
  (forall a b, In a ts -> In b us -> felt sf fuel par bessel st point h C charge model mp a b (V a b)) ->
  (forall a b, In a ts' -> In b us' -> felt sf fuel par bessel st point h (Rigid.moved3 O t C) charge model mp a b (V' a b)) ->
  Rabs (Rigid.cross ts' us' V' - Rigid.cross ts us V) <= sum_error C eps Qm ts us + sum_error (Rigid.moved3 O t C) eps' Qm' ts' us'.
Proof. exact finite_rigid_thm. Qed.
Print Assumptions C88_rigid_motion.

(** C88: of two nuclei at the same place, with any of the models, charges and parameters, the one with the
lower potential has the lower expectation value for every linear combination, up to the errors. *)
Theorem C88_order : forall sf fuel par bessel st point h C charge model mp p eps Qm charge' model' mp' p' eps' Qm' ts V V',
  (14 <= fuel)%nat -> init_tables st -> heap_wf h -> params_are mp (model_arity model) p -> good_model sf model p -> params_are mp' (model_arity model') p' -> good_model sf model' p' ->
  (forall r, 0 < r -> model_potential sf model (IZR charge) p r <= model_potential sf model' (IZR charge') p' r) ->
  fine h bessel (par_radial par) (model_potential sf model (IZR charge) p) C eps Qm ts ts -> fine h bessel (par_radial par) (model_potential sf model' (IZR charge') p') C eps' Qm' ts ts ->
  (forall t u, In t ts -> In u ts -> felt sf fuel par bessel st point h C charge model mp t u (V t u)) ->
  (forall t u, In t ts -> In u ts -> felt sf fuel par bessel st point h C charge' model' mp' t u (V' t u)) ->
  quad ts V <= quad ts V' + (sum_error C eps Qm ts ts + sum_error C eps' Qm' ts ts).
Proof. exact finite_order_thm. Qed.
Print Assumptions C88_order.

(** C88: in particular no distribution of a charge attracts more than a point charge of the same size
integrated in the same way. *)
Theorem C88_point_nucleus_attracts_most : forall sf fuel par bessel st point h C charge model mp p eps Qm mp' p' eps' Qm' ts V V',
  (14 <= fuel)%nat -> init_tables st -> heap_wf h -> params_are mp (model_arity model) p -> good_model sf model p -> params_are mp' (model_arity 5) p' -> (0 <= charge)%Z ->
  fine h bessel (par_radial par) (model_potential sf 5 (IZR charge) p') C eps' Qm' ts ts -> fine h bessel (par_radial par) (model_potential sf model (IZR charge) p) C eps Qm ts ts ->
  (forall t u, In t ts -> In u ts -> felt sf fuel par bessel st point h C charge 5 mp' t u (V' t u)) ->
  (forall t u, In t ts -> In u ts -> felt sf fuel par bessel st point h C charge model mp t u (V t u)) ->
  quad ts V' <= quad ts V + (sum_error C eps' Qm' ts ts + sum_error C eps Qm ts ts).
Proof. exact finite_weaker_thm. Qed.
Print Assumptions C88_point_nucleus_attracts_most.

(** the elements exist, so the hypotheses can be met *)
Example C88_elements : forall sf fuel par bessel st point h charge model mp p C eps Qm t u,
  (14 <= fuel)%nat -> init_tables st -> heap_wf h -> params_are mp (model_arity model) p -> good_model sf model p ->
  bf_ok h t -> bf_ok h u -> pair_fine bessel (par_radial par) (model_potential sf model (IZR charge) p) C eps Qm t u -> exists e, felt sf fuel par bessel st point h C charge model mp t u e.
Proof. intros sf fuel par bessel st point h charge model mp p C eps Qm t u Hf HI W Hp Hg H1 H2 HF. exact (felt_exists sf fuel par bessel st point h charge model mp p Hf HI W Hp Hg C eps Qm t u H1 H2 HF). Qed.

Notation rot345 := Properties_Rigid.rot345.

Lemma direction_y a b A B C : (let '(x, y, z) := pair_vector a b A B C in 1 / 10 <= y) -> pair_direction a b A B C.
Proof.
  intros H. right. unfold pair_k. destruct (pair_vector a b A B C) as [[x y] z]. unfold separation. assert (1 / 10 <= sqrt ((x - 0) * (x - 0) + (y - 0) * (y - 0) + (z - 0) * (z - 0))).
  { replace (1 / 10) with (sqrt ((1 / 10) * (1 / 10))) by (apply sqrt_square; lra). apply sqrt_le_1_alt. pose proof (Rle_0_sqr (x - 0)). pose proof (Rle_0_sqr (z - 0)). unfold Rsqr in *. nra. }
  assert (1 / 10 ^ 14 < 2 * (1 / 10)); [|lra]. apply (Rmult_lt_reg_r (10 ^ 14)); [apply pow_lt; lra|]. field_simplify; lra.
Qed.

(** a component of a d shell and one of a p shell near a uniformly charged ball and near a point nucleus, and the
    rotated and shifted combinations *)
Example C88_case : forall sf bessel tol, exists h ts us ts' us', heap_wf h /\ orthogonal rot345 /\
  good_model sf 1 (fun _ => 1 / 100) /\ params_are (Some (aoflist [1 / 100])) (model_arity 1) (fun _ => 1 / 100) /\ params_are None (model_arity 5) (fun _ => 0) /\
  (forall model p, good_model sf model p -> exists e q, fine h bessel tol (model_potential sf model (IZR 92) p) (1, 1, 1) (fun _ _ _ _ => e) (fun _ _ _ _ => q) (ts ++ us) (ts ++ us)) /\
  (forall model p, good_model sf model p -> exists e q, fine h bessel tol (model_potential sf model (IZR 92) p) (1, 1, 1) (fun _ _ _ _ => e) (fun _ _ _ _ => q) ts us) /\
  (forall model p, good_model sf model p -> exists e q, fine h bessel tol (model_potential sf model (IZR 92) p) (moved3 rot345 (1, -2, 3) (1, 1, 1)) (fun _ _ _ _ => e) (fun _ _ _ _ => q) ts' us') /\
  carried rot345 (1, -2, 3) (combo ts) (combo ts') /\ carried rot345 (1, -2, 3) (combo us) (combo us') /\
  length ts = 1%nat /\ length us = 1%nat /\ length ts' = 6%nat /\ length us' = 3%nat.
Proof.
  intros sf bessel tol. destruct (shells_exist [Properties_OneEl.d_shell; Properties_OneEl.p_shell; (2%Z, moved3 rot345 (1, -2, 3) (0, 0, 1), [(1, 3); (1 / 2, 1)]);
                          (1%Z, moved3 rot345 (1, -2, 3) (1, 0, -1), [(2, 1 / 5); (-1, 4)])]) as (h & ps & W & F).
  { intros L o pr [E | [E | [E | [E | []]]]]; injection E as <- <- <-; lia. }
  inversion F as [|? pA ? ? HA F1]; subst. inversion F1 as [|? pB ? ? HB F2]; subst.
  inversion F2 as [|? pA' ? ? HA' F3]; subst. inversion F3 as [|? pB' ? ? HB' F4]; subst.
  destruct HA as (vA & ca & SA & LA & OA & PA). destruct HB as (vB & cb & SB & LB & OB & PB).
  destruct HA' as (vA' & ca' & SA' & LA' & OA' & PA'). destruct HB' as (vB' & cb' & SB' & LB' & OB' & PB').
  assert (NA := std_length _ _ _ _ SA). assert (NB := std_length _ _ _ _ SB). assert (NA' := std_length _ _ _ _ SA'). assert (NB' := std_length _ _ _ _ SB'). rewrite LA in NA. rewrite LB in NB. rewrite LA' in NA'. rewrite LB' in NB'.
  change (n_cart 2) with 6%Z in NA, NA'. change (n_cart 1) with 3%Z in NB, NB'.
  assert (XA : exps_pos vA) by (intros c a; rewrite PA; intros [E | [E | []]]; injection E as <- <-; lra).
  assert (XB : exps_pos vB) by (intros c a; rewrite PB; intros [E | [E | []]]; injection E as <- <-; lra).
  assert (MA : moved_shell rot345 (1, -2, 3) vA vA') by (split; [congruence|split; [congruence|rewrite OA', OA; reflexivity]]).
  assert (MB : moved_shell rot345 (1, -2, 3) vB vB') by (split; [congruence|split; [congruence|rewrite OB', OB; reflexivity]]).
  assert (KA : bf_ok h (BF 1 pA vA ca 1)) by (split; [exact SA|]; split; [cbn [b_v]; lia|]; split; [exact XA|cbn [b_m b_comps]; lia]).
  assert (KB : bf_ok h (BF 1 pB vB cb 1)) by (split; [exact SB|]; split; [cbn [b_v]; lia|]; split; [exact XB|cbn [b_m b_comps]; lia]).
  assert (KA' : forall b, In b (rot_list rot345 (b_comp (BF 1 pA vA ca 1)) pA' vA' ca') -> bf_ok h b /\ b_v b = vA').
  { intros b Hb. split; [|apply in_map_iff in Hb; destruct Hb as (m & <- & _); reflexivity]. eapply (rot_list_ok rot345 h _ pA' vA' ca'); [exact SA'|lia| |exact Hb]. intros c a. rewrite (proj1 (proj2 MA)). apply XA. }
  assert (KB' : forall b, In b (rot_list rot345 (b_comp (BF 1 pB vB cb 1)) pB' vB' cb') -> bf_ok h b /\ b_v b = vB').
  { intros b Hb. split; [|apply in_map_iff in Hb; destruct Hb as (m & <- & _); reflexivity]. eapply (rot_list_ok rot345 h _ pB' vB' cb'); [exact SB'|lia| |exact Hb]. intros c a. rewrite (proj1 (proj2 MB)). apply XB. }
  exists h, [BF 1 pA vA ca 1], [BF 1 pB vB cb 1], (rot_list rot345 (b_comp (BF 1 pA vA ca 1)) pA' vA' ca'), (rot_list rot345 (b_comp (BF 1 pB vB cb 1)) pB' vB' cb').
  split; [exact W|]. split; [exact Properties_Rigid.rot345_orthogonal|]. split; [left; split; [reflexivity|lra]|]. split; [intros i Hi; cbn in Hi; assert (i = 0%Z) as -> by lia; reflexivity|]. split; [intros i Hi; cbn in Hi; lia|].
  split; [|split; [|split; [|split; [|split; [|split; [|split; [|split]]]]]]].
  - intros model p Hg. apply fine_exists; [apply charge_like_thm, Hg| | | |].
    + intros t [<-|[<-|[]]]; assumption.
    + intros t [<-|[<-|[]]]; assumption.
    + intros t u [<-|[<-|[]]] [<-|[<-|[]]]; cbn [b_v]; lia.
    + intros t u cA aA cB aB [<-|[<-|[]]] [<-|[<-|[]]]; cbn [b_v]; rewrite ?PA, ?PB, ?OA, ?OB; intros [E1|[E1|[]]] [E2|[E2|[]]]; injection E1 as <- <-; injection E2 as <- <-; apply direction_y; unfold pair_vector; lra.
  - intros model p Hg. apply fine_exists; [apply charge_like_thm, Hg| | | |].
    + intros t [<-|[]]; assumption.
    + intros t [<-|[]]; assumption.
    + intros t u [<-|[]] [<-|[]]; cbn [b_v]; lia.
    + intros t u cA aA cB aB [<-|[]] [<-|[]]; cbn [b_v]; rewrite ?PA, ?PB, ?OA, ?OB; intros [E1|[E1|[]]] [E2|[E2|[]]]; injection E1 as <- <-; injection E2 as <- <-; apply direction_y; unfold pair_vector; lra.
  - intros model p Hg. apply fine_exists; [apply charge_like_thm, Hg| | | |].
    + intros t Ht. apply KA', Ht.
    + intros t Ht. apply KB', Ht.
    + intros t u Ht Hu. rewrite (proj2 (KA' t Ht)), (proj2 (KB' u Hu)). lia.
    + intros t u cA aA cB aB Ht Hu. rewrite (proj2 (KA' t Ht)), (proj2 (KB' u Hu)), PA', PB', OA', OB'. intros [E1|[E1|[]]] [E2|[E2|[]]]; injection E1 as <- <-; injection E2 as <- <-; apply direction_y; unfold pair_vector, moved3, mv, coord3, rot345; cbn [Z.eqb Pos.eqb fst snd]; lra.
  - apply (rot_list_carried rot345 (1, -2, 3) h); [exact Properties_Rigid.rot345_orthogonal|exact KA|reflexivity|exact SA'|exact MA].
  - apply (rot_list_carried rot345 (1, -2, 3) h); [exact Properties_Rigid.rot345_orthogonal|exact KB|reflexivity|exact SB'|exact MB].
  - reflexivity.
  - reflexivity.
  - unfold rot_list. rewrite map_length, seq_length. lia.
  - unfold rot_list. rewrite map_length, seq_length. lia.
Qed.
