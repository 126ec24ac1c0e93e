(** * C92: overlap gradients and momentum integrals

    [mom_of k]: the call for the momentum component k; [elem_at], [grad_at]: elements of the result
    matrices (OneElThms.v, OvGradThms.v); [separate], [grad_fits], [fits]: as for C25 and C20. *)

From Coq Require Import ZArith List Lia Bool Reals Lra.
From Verif Require Import Base CartModel CartProofs HeapModel HeapProofs HeapSpec OneElModel OneElProofs OneElPairs OneElSpec OneElThms
  LmatModel UtilProofs OvGradModel OvDeriv OvGradProofs OvGradThms OvMomentum.
Import ListNotations.
Open Scope R_scope.

(** C92: the gradient of the overlap with respect to the centre of the ket is exactly the momentum matrix, with respect to
the centre of the bra its negative, and zero for any other point. *)
Theorem C92_overlap_gradient_is_momentum : forall ord (junk : Z -> R) h pA pB vA vB ca cb point grad h' grad' k M X i j cA cB,
  heap_wf h -> std_shell h pA vA ca -> std_shell h pB vB cb -> separate h pA pB -> (v_L vA <= 8)%Z -> (v_L vB <= 9)%Z -> grad_fits grad vA vB -> fits M vA vB -> (0 <= k < 3)%Z ->
  points_are_equal (v_origin vA) (v_origin vB) = false -> nth_error ca i = Some cA -> nth_error cb j = Some cB ->
  overlap_gradient ord (Some junk) h pA pB point grad = Ok (h', grad') -> oneel_call (mom_of k) h pA pB M = Ok X ->
  exists p, elem_at X vB i j = Ok p /\
    grad_at grad' vB k i j = Ok ((if points_are_equal (v_origin vB) point then p else 0) - (if points_are_equal (v_origin vA) point then p else 0)).
Proof. exact gradient_is_momentum. Qed.
Print Assumptions C92_overlap_gradient_is_momentum.

Example C92_case : exists ord junk h pA pB vA vB ca cb grad h' grad' M X,
  heap_wf h /\ std_shell h pA vA ca /\ std_shell h pB vB cb /\ separate h pA pB /\ (v_L vA = 2)%Z /\ (v_L vB = 1)%Z /\ grad_fits grad vA vB /\ fits M vA vB /\
  points_are_equal (v_origin vA) (v_origin vB) = false /\ nth_error ca 3 = Some (0, 2, 0)%Z /\ nth_error cb 1 = Some (0, 1, 0)%Z /\
  overlap_gradient ord (Some junk) h pA pB (v_origin vA) grad = Ok (h', grad') /\ oneel_call (mom_of 1) h pA pB M = Ok X.
Proof.
  destruct (two_shells 2 (0, 0, 0)%R [(1, 1)%R; (3, 1 / 2)%R] 1 (0, 0, 1)%R [(1, 2)%R] ltac:(lia) ltac:(lia))
    as (h & pA & pB & vA & vB & ca & cb & W & SA & SB & Sep & LA & OA & PA & LB & OB & PB).
  assert (FG : grad_fits (aundef [3; 18]%Z) vA vB).
  { exists 18%Z. split; [reflexivity|]. pose proof SA as (_ & _ & -> & _). pose proof SB as (_ & _ & -> & _). rewrite LA, LB. vm_compute. discriminate. }
  assert (FM : fits (aundef [18]%Z) vA vB).
  { exists 18%Z. split; [reflexivity|]. pose proof SA as (_ & _ & -> & _). pose proof SB as (_ & _ & -> & _). rewrite LA, LB. vm_compute. discriminate. }
  destruct (overlap_gradient_ok OrderDirac (Some (fun _ => 0)) h pA pB vA vB ca cb (v_origin vA) _ W SA SB Sep ltac:(lia) ltac:(lia) FG ltac:(left; discriminate)) as (h' & g' & E & _).
  destruct (oneel_ok (mom_of 1) h pA pB vA vB ca cb _ W SA SB ltac:(lia) ltac:(lia) FM) as (X & EX & _).
  exists OrderDirac, (fun _ => 0), h, pA, pB, vA, vB, ca, cb, (aundef [3; 18]%Z), h', g', (aundef [18]%Z), X.
  split; [exact W|]. split; [exact SA|]. split; [exact SB|]. split; [exact Sep|]. split; [exact LA|]. split; [exact LB|]. split; [exact FG|]. split; [exact FM|].
  split. { rewrite OA, OB. destruct (points_are_equal (0, 0, 0)%R (0, 0, 1)%R) eqn:EE; [|reflexivity]. apply points_iff in EE. cbn in EE. destruct EE as (_ & _ & EE). rewrite Rminus_0_l, Rabs_Ropp, Rabs_R1 in EE. lra. }
  rewrite (std_canon _ _ _ _ SA), (std_canon _ _ _ _ SB), LA, LB. split; [reflexivity|]. split; [reflexivity|]. split; [exact E|exact EX].
Qed.
