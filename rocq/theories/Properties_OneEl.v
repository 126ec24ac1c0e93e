(** * C16-C23: overlap, kinetic-energy and momentum integrals *)

From Coq Require Import ZArith List Lia Bool Reals Lra.
From Coquelicot Require Import Coquelicot.
From Verif Require Import Base GaussInt GaussProd CartModel CartProofs HeapModel HeapProofs HeapSpec
  OneElModel OneElProofs OneElPairs OneElSpec OneElInt OneElThms.
Import ListNotations.
Open Scope R_scope.

(** shells used in the examples: a contracted d shell and a contracted p shell *)
Definition d_shell : shell_data := (2%Z, (0, 0, 1), [(1, 3); (1 / 2, 1)]).
Definition p_shell : shell_data := (1%Z, (1, 0, -1), [(2, 1 / 5); (-1, 4)]).

(** C16: for shells with L <= 9 every call ends without a fault, writes only the
    matrix proper, and leaves every element of it initialised.  Missing from the
    documented claim: L = 10, see the next theorem. *)
Theorem C16_safe_up_to_L9_partial : forall o h pA pB vA vB ca cb M,
  heap_wf h ->
  std_shell h pA vA ca -> std_shell h pB vB cb -> (v_L vA <= 9)%Z -> (v_L vB <= 9)%Z -> fits M vA vB ->
  exists M', oneel_call o h pA pB M = Ok M' /\ only_matrix M M' vA vB /\
    forall m n, (m < length ca)%nat -> (n < length cb)%nat -> exists x, elem_at M' vB m n = Ok x.
Proof. exact oneel_safe. Qed.
Print Assumptions C16_safe_up_to_L9_partial.

(** C16: as soon as one of the two shells has L >= 10 (and both have a primitive) the
    fixed-size scratch tables are overrun, for each of the three routines. *)
Theorem C16_overrun_at_L10 : forall o h pA pB vA vB ca cb M,
  heap_wf h ->
  std_shell h pA vA ca -> std_shell h pB vB cb -> v_prims vA <> [] -> v_prims vB <> [] -> fits M vA vB ->
  (10 <= v_L vA \/ 10 <= v_L vB)%Z ->
  oneel_call o h pA pB M = Fail OutOfBounds.
Proof. exact oneel_overrun. Qed.
Print Assumptions C16_overrun_at_L10.

(** the documented maximum L = 10 is not safe: a legal pair of shells for which
    every one of the calls runs out of bounds *)
Theorem C16_documented_maximum_refuted :
  exists h pA pB vA vB ca cb, heap_wf h /\ std_shell h pA vA ca /\ std_shell h pB vB cb /\
    v_L vA = max_basis_L /\ v_L vB = 0%Z /\ exps_pos vA /\ exps_pos vB /\
    forall o M, fits M vA vB -> oneel_call o h pA pB M = Fail OutOfBounds.
Proof. exact documented_L_overrun. Qed.
Print Assumptions C16_documented_maximum_refuted.

Example C16_case : exists h pA pB vA vB ca cb, heap_wf h /\ std_shell h pA vA ca /\ std_shell h pB vB cb /\
  (v_L vA <= 9)%Z /\ (v_L vB <= 9)%Z /\ exps_pos vA /\ exps_pos vB /\ length ca = 6%nat /\ length cb = 3%nat /\
  fits (aundef [18%Z]) vA vB.
Proof.
  destruct (shells_exist [d_shell; p_shell]) as (h & ps & W & F).
  { intros L o pr [E | [E | []]]; injection E as <- <- <-; lia. }
  inversion F as [|? pA ? ? HA F1]; subst. inversion F1 as [|? pB ? ? HB F2]; subst.
  destruct HA as (vA & ca & SA & LA & OA & PA). destruct HB as (vB & cb & SB & LB & OB & PB).
  exists h, pA, pB, vA, vB, ca, cb. split; [exact W|]. split; [exact SA|]. split; [exact SB|].
  split; [lia|]. split; [lia|].
  assert (NA := std_length _ _ _ _ SA). assert (NB := std_length _ _ _ _ SB). rewrite LA in NA. rewrite LB in NB.
  change (n_cart 2) with 6%Z in NA. change (n_cart 1) with 3%Z in NB.
  split; [intros c a; rewrite PA; intros [E | [E | []]]; injection E as <- <-; lra|].
  split; [intros c a; rewrite PB; intros [E | [E | []]]; injection E as <- <-; lra|].
  split; [lia|]. split; [lia|].
  exists 18%Z. split; [reflexivity|]. rewrite (std_size _ _ _ _ SA), (std_size _ _ _ _ SB), NA, NB. lia.
Qed.

(** C17: the stored elements are the integrals over all space (as iterated improper
    Riemann integrals) of the product of the two contracted functions. *)
Theorem C17_overlap_is_the_integral : forall h pA pB vA vB ca cb M,
  heap_wf h ->
  std_shell h pA vA ca -> std_shell h pB vB cb -> (v_L vA <= 9)%Z -> (v_L vB <= 9)%Z ->
  exps_pos vA -> exps_pos vB -> fits M vA vB ->
  exists M', oneel_call Overlap h pA pB M = Ok M' /\ only_matrix M M' vA vB /\
    forall m n cA cB, nth_error ca m = Some cA -> nth_error cb n = Some cB ->
      exists s, elem_at M' vB m n = Ok s /\
        is_int3 (fun x y z => phi_of vA cA x y z * phi_of vB cB x y z) s.
Proof. exact overlap_true. Qed.
Print Assumptions C17_overlap_is_the_integral.

(** hypotheses met: see C16_case; the value is not trivially zero: see C23. *)

(** C18: exchanging the shells transposes overlap and kinetic matrices (sign 1) and
    gives minus the transpose for the momentum matrices (sign -1). *)
Theorem C18_exchange_transposes : forall o h pA pB vA vB ca cb M N X Y,
  heap_wf h ->
  std_shell h pA vA ca -> std_shell h pB vB cb -> (v_L vA <= 9)%Z -> (v_L vB <= 9)%Z ->
  exps_pos vA -> exps_pos vB -> fits M vA vB -> fits N vB vA ->
  oneel_call o h pA pB M = Ok X -> oneel_call o h pB pA N = Ok Y ->
  forall m n, (m < length ca)%nat -> (n < length cb)%nat ->
    exists x, elem_at X vB m n = Ok (osign o * x) /\ elem_at Y vA n m = Ok x.
Proof. exact oneel_transpose. Qed.
Print Assumptions C18_exchange_transposes.

Theorem C18_overlap_symmetric h pA pB vA vB ca cb M N X Y : heap_wf h ->
  std_shell h pA vA ca -> std_shell h pB vB cb -> (v_L vA <= 9)%Z -> (v_L vB <= 9)%Z ->
  exps_pos vA -> exps_pos vB -> fits M vA vB -> fits N vB vA ->
  oneel_call Overlap h pA pB M = Ok X -> oneel_call Overlap h pB pA N = Ok Y ->
  forall m n, (m < length ca)%nat -> (n < length cb)%nat ->
    exists x, elem_at X vB m n = Ok x /\ elem_at Y vA n m = Ok x.
Proof. exact (overlap_symmetric h pA pB vA vB ca cb M N X Y). Qed.
Print Assumptions C18_overlap_symmetric.

Theorem C19_kinetic_symmetric h pA pB vA vB ca cb M N X Y : heap_wf h ->
  std_shell h pA vA ca -> std_shell h pB vB cb -> (v_L vA <= 9)%Z -> (v_L vB <= 9)%Z ->
  exps_pos vA -> exps_pos vB -> fits M vA vB -> fits N vB vA ->
  oneel_call Kinetic h pA pB M = Ok X -> oneel_call Kinetic h pB pA N = Ok Y ->
  forall m n, (m < length ca)%nat -> (n < length cb)%nat ->
    exists x, elem_at X vB m n = Ok x /\ elem_at Y vA n m = Ok x.
Proof. exact (kinetic_symmetric h pA pB vA vB ca cb M N X Y). Qed.
Print Assumptions C19_kinetic_symmetric.

Theorem C20_momentum_antisymmetric o h pA pB vA vB ca cb M N X Y : o = MomX \/ o = MomY \/ o = MomZ -> heap_wf h ->
  std_shell h pA vA ca -> std_shell h pB vB cb -> (v_L vA <= 9)%Z -> (v_L vB <= 9)%Z ->
  exps_pos vA -> exps_pos vB -> fits M vA vB -> fits N vB vA ->
  oneel_call o h pA pB M = Ok X -> oneel_call o h pB pA N = Ok Y ->
  forall m n, (m < length ca)%nat -> (n < length cb)%nat ->
    exists x, elem_at X vB m n = Ok (- x) /\ elem_at Y vA n m = Ok x.
Proof. exact (momentum_antisymmetric o h pA pB vA vB ca cb M N X Y). Qed.
Print Assumptions C20_momentum_antisymmetric.

(** C19: the stored elements are the integrals of the bra times -1/2 the Laplacian of
    the ket, where the Laplacian is a sum of genuine second partial derivatives. *)
Theorem C19_kinetic_is_the_integral : forall h pA pB vA vB ca cb M,
  heap_wf h ->
  std_shell h pA vA ca -> std_shell h pB vB cb -> (v_L vA <= 9)%Z -> (v_L vB <= 9)%Z ->
  exps_pos vA -> exps_pos vB -> fits M vA vB ->
  exists M', oneel_call Kinetic h pA pB M = Ok M' /\ only_matrix M M' vA vB /\
    forall m n cA cB, nth_error ca m = Some cA -> nth_error cb n = Some cB ->
      exists lap t, is_laplacian (phi_of vB cB) lap /\ elem_at M' vB m n = Ok t /\
        is_int3 (fun x y z => phi_of vA cA x y z * (- (1 / 2) * lap x y z)) t.
Proof. exact kinetic_true. Qed.
Print Assumptions C19_kinetic_is_the_integral.

(** C20: the stored elements are minus the integrals of the bra times the genuine
    partial derivative of the ket. *)
Theorem C20_momentum_is_the_integral : forall o h pA pB vA vB ca cb M,
  o = MomX \/ o = MomY \/ o = MomZ -> heap_wf h ->
  std_shell h pA vA ca -> std_shell h pB vB cb -> (v_L vA <= 9)%Z -> (v_L vB <= 9)%Z ->
  exps_pos vA -> exps_pos vB -> fits M vA vB ->
  exists M', oneel_call o h pA pB M = Ok M' /\ only_matrix M M' vA vB /\
    forall m n cA cB, nth_error ca m = Some cA -> nth_error cb n = Some cB ->
      exists d t, is_partial (mom_k o) (phi_of vB cB) d /\ elem_at M' vB m n = Ok (- t) /\
        is_int3 (fun x y z => phi_of vA cA x y z * d x y z) t.
Proof. exact momentum_true. Qed.
Print Assumptions C20_momentum_is_the_integral.

(** C21: moving both shells by the same vector changes no element. *)
Theorem C21_translation_invariance : forall o h pA pB pA' pB' vA vB vA' vB' ca cb ca' cb' t M X X',
  heap_wf h ->
  std_shell h pA vA ca -> std_shell h pB vB cb -> std_shell h pA' vA' ca' -> std_shell h pB' vB' cb' ->
  moved vA vA' t -> moved vB vB' t -> (v_L vA <= 9)%Z -> (v_L vB <= 9)%Z ->
  exps_pos vA -> exps_pos vB -> fits M vA vB ->
  oneel_call o h pA pB M = Ok X -> oneel_call o h pA' pB' M = Ok X' ->
  forall k, acell X' [k] = acell X [k].
Proof. exact oneel_translation. Qed.
Print Assumptions C21_translation_invariance.

Example C21_case : exists h pA pB pA' pB' vA vB vA' vB' ca cb ca' cb', heap_wf h /\
  std_shell h pA vA ca /\ std_shell h pB vB cb /\ std_shell h pA' vA' ca' /\ std_shell h pB' vB' cb' /\
  moved vA vA' (1, -2, 3) /\ moved vB vB' (1, -2, 3) /\ (v_L vA <= 9)%Z /\ (v_L vB <= 9)%Z /\
  v_origin vA <> v_origin vA' /\ v_origin vA <> v_origin vB.
Proof.
  destruct (shells_exist [d_shell; p_shell; (2%Z, shift3 (0, 0, 1) (1, -2, 3), [(1, 3); (1 / 2, 1)]);
                          (1%Z, shift3 (1, 0, -1) (1, -2, 3), [(2, 1 / 5); (-1, 4)])]) as (h & ps & W & F).
  { intros L o pr [E | [E | [E | [E | []]]]]; injection E as <- <- <-; lia. }
  inversion F as [|? pA ? ? HA F1]; subst. inversion F1 as [|? pB ? ? HB F2]; subst.
  inversion F2 as [|? pA' ? ? HA' F3]; subst. inversion F3 as [|? pB' ? ? HB' F4]; subst.
  destruct HA as (vA & ca & SA & LA & OA & PA). destruct HB as (vB & cb & SB & LB & OB & PB).
  destruct HA' as (vA' & ca' & SA' & LA' & OA' & PA'). destruct HB' as (vB' & cb' & SB' & LB' & OB' & PB').
  exists h, pA, pB, pA', pB', vA, vB, vA', vB', ca, cb, ca', cb'.
  split; [exact W|]. split; [exact SA|]. split; [exact SB|]. split; [exact SA'|]. split; [exact SB'|].
  split; [split; [congruence|split; [congruence|rewrite OA', OA; reflexivity]]|].
  split; [split; [congruence|split; [congruence|rewrite OB', OB; reflexivity]]|].
  split; [lia|]. split; [lia|]. split.
  - rewrite OA, OA'. intros E. injection E as E1 E2 E3. lra.
  - rewrite OA, OB. intros E. injection E as E1 E2. lra.
Qed.

(** C22: joining two contractions into one shell adds the matrices (first shell). *)
Theorem C22_additive_in_bra : forall o h pA pA1 pA2 pB vA vA1 vA2 vB ca ca1 ca2 cb M X X1 X2,
  heap_wf h ->
  std_shell h pA vA ca -> std_shell h pA1 vA1 ca1 -> std_shell h pA2 vA2 ca2 -> std_shell h pB vB cb ->
  concatenated vA1 vA2 vA -> (v_L vA <= 9)%Z -> (v_L vB <= 9)%Z -> fits M vA vB ->
  oneel_call o h pA pB M = Ok X -> oneel_call o h pA1 pB M = Ok X1 -> oneel_call o h pA2 pB M = Ok X2 ->
  forall m n, (m < length ca)%nat -> (n < length cb)%nat ->
    exists x1 x2, elem_at X1 vB m n = Ok x1 /\ elem_at X2 vB m n = Ok x2 /\ elem_at X vB m n = Ok (x1 + x2).
Proof. exact oneel_add_bra. Qed.
Print Assumptions C22_additive_in_bra.

(** C22: the same for the second shell. *)
Theorem C22_additive_in_ket : forall o h pA pB pB1 pB2 vA vB vB1 vB2 ca cb cb1 cb2 M X X1 X2,
  heap_wf h ->
  std_shell h pA vA ca -> std_shell h pB vB cb -> std_shell h pB1 vB1 cb1 -> std_shell h pB2 vB2 cb2 ->
  concatenated vB1 vB2 vB -> (v_L vA <= 9)%Z -> (v_L vB <= 9)%Z -> fits M vA vB ->
  oneel_call o h pA pB M = Ok X -> oneel_call o h pA pB1 M = Ok X1 -> oneel_call o h pA pB2 M = Ok X2 ->
  forall m n, (m < length ca)%nat -> (n < length cb)%nat ->
    exists x1 x2, elem_at X1 vB m n = Ok x1 /\ elem_at X2 vB m n = Ok x2 /\ elem_at X vB m n = Ok (x1 + x2).
Proof. exact oneel_add_ket. Qed.
Print Assumptions C22_additive_in_ket.

(** C22: scaling the contraction coefficients scales the matrix (first shell). *)
Theorem C22_homogeneous_in_bra : forall o h pA pA1 pB vA vA1 vB ca ca1 cb k M X X1,
  heap_wf h ->
  std_shell h pA vA ca -> std_shell h pA1 vA1 ca1 -> std_shell h pB vB cb ->
  scaled k vA vA1 -> (v_L vA <= 9)%Z -> (v_L vB <= 9)%Z -> fits M vA vB ->
  oneel_call o h pA pB M = Ok X -> oneel_call o h pA1 pB M = Ok X1 ->
  forall m n, (m < length ca)%nat -> (n < length cb)%nat ->
    exists x, elem_at X vB m n = Ok x /\ elem_at X1 vB m n = Ok (k * x).
Proof. exact oneel_scale_bra. Qed.
Print Assumptions C22_homogeneous_in_bra.

(** C22: the same for the second shell. *)
Theorem C22_homogeneous_in_ket : forall o h pA pB pB1 vA vB vB1 ca cb cb1 k M X X1,
  heap_wf h ->
  std_shell h pA vA ca -> std_shell h pB vB cb -> std_shell h pB1 vB1 cb1 ->
  scaled k vB vB1 -> (v_L vA <= 9)%Z -> (v_L vB <= 9)%Z -> fits M vA vB ->
  oneel_call o h pA pB M = Ok X -> oneel_call o h pA pB1 M = Ok X1 ->
  forall m n, (m < length ca)%nat -> (n < length cb)%nat ->
    exists x, elem_at X vB m n = Ok x /\ elem_at X1 vB m n = Ok (k * x).
Proof. exact oneel_scale_ket. Qed.
Print Assumptions C22_homogeneous_in_ket.

Example C22_case : exists h p p1 p2 p3 v v1 v2 v3 c c1 c2 c3, heap_wf h /\
  std_shell h p v c /\ std_shell h p1 v1 c1 /\ std_shell h p2 v2 c2 /\ std_shell h p3 v3 c3 /\
  concatenated v1 v2 v /\ scaled 7 v v3 /\ v_prims v1 <> [] /\ v_prims v2 <> [].
Proof.
  destruct (shells_exist [d_shell; (2%Z, (0, 0, 1), [(1, 3)]); (2%Z, (0, 0, 1), [(1 / 2, 1)]);
                          (2%Z, (0, 0, 1), [(7 * 1, 3); (7 * (1 / 2), 1)])]) as (h & ps & W & F).
  { intros L o pr [E | [E | [E | [E | []]]]]; injection E as <- <- <-; lia. }
  inversion F as [|? p ? ? H0 F1]; subst. inversion F1 as [|? p1 ? ? H1 F2]; subst.
  inversion F2 as [|? p2 ? ? H2 F3]; subst. inversion F3 as [|? p3 ? ? H3 F4]; subst.
  destruct H0 as (v & c & S0 & L0 & O0 & P0). destruct H1 as (v1 & c1 & S1 & L1 & O1 & P1).
  destruct H2 as (v2 & c2 & S2 & L2 & O2 & P2). destruct H3 as (v3 & c3 & S3 & L3 & O3 & P3).
  exists h, p, p1, p2, p3, v, v1, v2, v3, c, c1, c2, c3.
  split; [exact W|]. split; [exact S0|]. split; [exact S1|]. split; [exact S2|]. split; [exact S3|].
  split; [unfold concatenated; rewrite L0, L1, L2, O0, O1, O2, P0, P1, P2; repeat split; reflexivity|].
  split; [unfold scaled; rewrite L0, L3, O0, O3, P0, P3; repeat split; reflexivity|].
  rewrite P1, P2. split; discriminate.
Qed.

(** C23: a single unit-coefficient primitive: the diagonal element of component
    (n, l, m) is (2n-1)!! (2l-1)!! (2m-1)!!. *)
Theorem C23_self_overlap : forall h p v comps a M X m,
  heap_wf h -> std_shell h p v comps -> (v_L v <= 9)%Z ->
  v_prims v = [(1, a)] -> 0 < a -> fits M v v -> oneel_call Overlap h p p M = Ok X ->
  forall n l k, nth_error comps m = Some (n, l, k) ->
    elem_at X v m m = Ok (odd_prod (Z.to_nat n) * odd_prod (Z.to_nat l) * odd_prod (Z.to_nat k)).
Proof. exact self_overlap. Qed.
Print Assumptions C23_self_overlap.

(** in particular x^L gives (2L-1)!! and s functions are normalised *)
Theorem C23_s_normalised h p v comps a M X : heap_wf h -> std_shell h p v comps -> v_L v = 0%Z ->
  v_prims v = [(1, a)] -> 0 < a -> fits M v v -> oneel_call Overlap h p p M = Ok X ->
  elem_at X v 0 0 = Ok 1.
Proof. exact (s_normalised h p v comps a M X). Qed.
Print Assumptions C23_s_normalised.

Example C23_case : exists h p v comps, heap_wf h /\ std_shell h p v comps /\ v_L v = 3%Z /\ v_prims v = [(1, 2)] /\
  nth_error comps 0 = Some (3, 0, 0)%Z /\ odd_prod (Z.to_nat 3) * odd_prod (Z.to_nat 0) * odd_prod (Z.to_nat 0) = 15.
Proof.
  destruct (shells_exist [(3%Z, (0, 1, 0), [(1, 2)])]) as (h & ps & W & F).
  { intros L o pr [E | []]; injection E as <- <- <-; lia. }
  inversion F as [|? p ? ? H0 F1]; subst. destruct H0 as (v & c & S0 & L0 & O0 & P0).
  exists h, p, v, c. split; [exact W|]. split; [exact S0|]. split; [exact L0|]. split; [exact P0|].
  split; [exact (std_first h p v c S0 L0)|].
  change (Z.to_nat 3) with 3%nat. change (Z.to_nat 0) with 0%nat. cbn [odd_prod INR]. ring.
Qed.
