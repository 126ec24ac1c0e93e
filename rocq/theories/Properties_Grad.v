(** * C24-C27: differentiated shells and overlap gradients *)

From Coq Require Import ZArith List Lia Bool Reals Lra.
From Coquelicot Require Import Coquelicot.
From Verif Require Import Base CartModel CartProofs HeapModel HeapProofs HeapSpec GaussProd
  OneElModel OneElProofs OneElSpec OneElInt OneElThms LmatModel UtilProofs OvGradModel OvDeriv OvGradProofs OvGradThms OvThreads.
Import ListNotations.
Open Scope Z_scope.

(** C24: differentiating any shell succeeds, leaves it intact and yields a shell with
    L+1 and, unless L = 0, one with L-1 on the same centre; the partial derivative
    of every contracted function with respect to its centre is the combination of
    their components stated in the property (at every point x, y, z in space);
    deleting the produced shells gives back the original heap. *)
Theorem C24_differentiated_shells : forall ord h p v comps,
  heap_wf h -> std_shell h p v comps ->
  exists pm pp h' vm vp cm cp, differentiate_shell ord h p = Ok (pm, pp, h') /\ heap_wf h' /\
    std_shell h' p v comps /\
    std_shell h' pp vp cp /\ v_L vp = v_L v + 1 /\ v_origin vp = v_origin v /\
    (v_L v = 0 -> pm = 0) /\
    (0 < v_L v -> std_shell h' pm vm cm /\ v_L vm = v_L v - 1 /\ v_origin vm = v_origin v) /\
    (forall c k x y z, In c comps -> 0 <= k < 3 ->
       In (shift c k 1) cp /\ (0 < expo c k -> In (shift c k (-1)) cm) /\
       is_derive (fun t => phi (v_L v) (set_coord (v_origin v) k t) (v_prims v) c x y z) (coord3 (v_origin v) k)
         (phi_of vp (shift c k 1) x y z -
          IZR (expo c k) * (if 0 <? expo c k then phi_of vm (shift c k (-1)) x y z else 0))%R) /\
    (exists h1 h2, (if pm =? 0 then Ok h' else delete_shell h' pm) = Ok h1 /\ delete_shell h1 pp = Ok h2 /\
       forall q, hblk h2 q = hblk h q).
Proof. exact differentiate_spec. Qed.
Print Assumptions C24_differentiated_shells.

Example C24_case : exists h p v comps, heap_wf h /\ std_shell h p v comps /\ v_L v = 2 /\ length (v_prims v) = 2%nat /\
  In (1, 1, 0) comps.
Proof.
  destruct (shells_exist [(2, (0, 0, 1)%R, [(1, 3)%R; (2, 1)%R])]) as (h & ps & W & F).
  { intros L o pr [E | []]. injection E as <- <- <-. lia. }
  inversion F as [|? p ? ? HB' F1]; subst. destruct HB' as (v & comps & Sd & HL & HO & HP).
  exists h, p, v, comps. split; [exact W|]. split; [exact Sd|]. split; [exact HL|]. split; [rewrite HP; reflexivity|].
  rewrite (std_canon _ _ _ _ Sd), HL. apply in_canon. lia.
Qed.

(** C25: for shells with L_A <= 8 and L_B <= 9 on different component lists the call
    succeeds whatever number the read outside the lower matrix (C26) yields, writes
    only the three matrices, leaves the heap as it was, and every entry g is the
    derivative of the overlap integral with respect to coordinate k of the centre at
    the given point; it is zero when both centres or none lie at the point, and when
    the two centres coincide (where it is the derivative along a joint motion).
    [deriv_of_integral F t0 v] says: the integral over space of F t exists for every
    t and its derivative at t0 is v. *)
Theorem C25_overlap_gradient_is_the_derivative : forall ord (junk : Z -> R) h pA pB vA vB ca cb point grad,
  heap_wf h -> std_shell h pA vA ca -> std_shell h pB vB cb ->
  separate h pA pB -> v_L vA <= 8 -> v_L vB <= 9 -> exps_pos vA -> exps_pos vB -> grad_fits grad vA vB ->
  exists h' grad', overlap_gradient ord (Some junk) h pA pB point grad = Ok (h', grad') /\
    (forall q, hblk h' q = hblk h q) /\ only_grad grad grad' vA vB /\
    forall k i j cA cB, 0 <= k < 3 -> nth_error ca i = Some cA -> nth_error cb j = Some cB ->
      exists g, grad_at grad' vB k i j = Ok g /\
        (points_are_equal (v_origin vA) (v_origin vB) = false ->
           (points_are_equal (v_origin vA) point = true -> points_are_equal (v_origin vB) point = false ->
              deriv_of_integral (pair_move_A vA vB cA cB k) (coord3 (v_origin vA) k) g) /\
           (points_are_equal (v_origin vA) point = false -> points_are_equal (v_origin vB) point = true ->
              deriv_of_integral (pair_move_B vA vB cA cB k) (coord3 (v_origin vB) k) g)) /\
        (points_are_equal (v_origin vA) (v_origin vB) = true -> deriv_of_integral (pair_move_AB vA vB cA cB k) 0 g) /\
        (points_are_equal (v_origin vA) (v_origin vB) = true \/
         points_are_equal (v_origin vA) point = points_are_equal (v_origin vB) point -> g = 0%R).
Proof. exact overlap_gradient_true. Qed.
Print Assumptions C25_overlap_gradient_is_the_derivative.

(** C25: the hypothesis that the shells have different component lists holds for
    shells created separately. *)
Theorem C25_separately_created_shells_are_separate : forall ord h origin L n coeffs alpha lc la p h' pB vB cb,
  heap_wf h -> 0 <= L ->
  hblk h coeffs = Some (ODbls lc) -> hblk h alpha = Some (ODbls la) ->
  0 <= n <= Z.of_nat (length lc) -> n <= Z.of_nat (length la) ->
  std_shell h pB vB cb -> new_shell ord h origin L n coeffs alpha = Ok (p, h') ->
  separate h' p pB /\ separate h' pB p.
Proof. exact new_shell_separate. Qed.
Print Assumptions C25_separately_created_shells_are_separate.

Example C25_case : exists h pA pB vA vB ca cb grad,
  heap_wf h /\ std_shell h pA vA ca /\ std_shell h pB vB cb /\ separate h pA pB /\
  v_L vA <= 8 /\ v_L vB <= 9 /\ exps_pos vA /\ exps_pos vB /\ grad_fits grad vA vB /\
  points_are_equal (v_origin vA) (v_origin vB) = false /\
  points_are_equal (v_origin vA) (0, 0, 0)%R = true /\ points_are_equal (v_origin vB) (0, 0, 0)%R = false /\
  nth_error ca 3 = Some (0, 2, 0) /\ nth_error cb 1 = Some (0, 1, 0).
Proof.
  destruct (two_shells 2 (0, 0, 0)%R [(1, 1)%R; (3, 1 / 2)%R] 1 (0, 0, 1)%R [(1, 2)%R] ltac:(lia) ltac:(lia))
    as (h & pA & pB & vA & vB & ca & cb & W & SA & SB & Sep & LA & OA & PA & LB & OB & PB).
  exists h, pA, pB, vA, vB, ca, cb, (aundef [3; 18]).
  assert (N : points_are_equal (0, 0, 0)%R (0, 0, 1)%R = false).
  { destruct (points_are_equal (0, 0, 0)%R (0, 0, 1)%R) eqn:E; [|reflexivity].
    apply points_iff in E. cbn in E. destruct E as (_ & _ & E). rewrite Rminus_0_l, Rabs_Ropp, Rabs_R1 in E. lra. }
  split; [exact W|]. split; [exact SA|]. split; [exact SB|]. split; [exact Sep|].
  split; [lia|]. split; [lia|].
  split; [intros c a; rewrite PA; intros [E | [E | []]]; injection E as <- <-; lra|].
  split; [intros c a; rewrite PB; intros [E | []]; injection E as <- <-; lra|].
  split. { exists 18. split; [reflexivity|]. pose proof SA as (_ & _ & -> & _). pose proof SB as (_ & _ & -> & _). rewrite LA, LB. vm_compute. discriminate. }
  rewrite OA, OB. split; [exact N|]. split; [apply points_refl|]. split; [rewrite points_sym; exact N|].
  rewrite (std_canon _ _ _ _ SA), (std_canon _ _ _ _ SB), LA, LB. split; reflexivity.
Qed.

(** C26: with an s shell as bra every access is inside its block.  Missing: all bra
    shells with L > 0, for which the claim is false (next two theorems). *)
Theorem C26_s_bra_is_safe_partial : forall ord h pA pB vA vB ca cb point grad,
  heap_wf h -> std_shell h pA vA ca -> std_shell h pB vB cb ->
  separate h pA pB -> v_L vA = 0 -> v_L vB <= 9 -> grad_fits grad vA vB ->
  exists h' grad', overlap_gradient ord None h pA pB point grad = Ok (h', grad') /\
    (forall q, hblk h' q = hblk h q) /\ only_grad grad grad' vA vB.
Proof. exact overlap_gradient_s_safe. Qed.
Print Assumptions C26_s_bra_is_safe_partial.

(** C26: with any bra shell with 0 < L_A <= 8 the strictly checked routine reads
    outside the lower matrix, whenever it has something to compute. *)
Theorem C26_every_other_bra_overruns : forall ord h pA pB vA vB ca cb point grad,
  heap_wf h -> std_shell h pA vA ca -> std_shell h pB vB cb ->
  separate h pA pB -> 0 < v_L vA <= 8 -> v_L vB <= 9 -> grad_fits grad vA vB ->
  points_are_equal (v_origin vA) (v_origin vB) = false ->
  points_are_equal (v_origin vA) point = true \/ points_are_equal (v_origin vB) point = true ->
  overlap_gradient ord None h pA pB point grad = Fail OutOfBounds.
Proof. exact overlap_gradient_overrun. Qed.
Print Assumptions C26_every_other_bra_overruns.

(** C26: the claim is false for a p shell and an s shell. *)
Theorem C26_overlap_gradient_memory_refuted : exists ord h pA pB vA vB ca cb point grad,
  heap_wf h /\ std_shell h pA vA ca /\ std_shell h pB vB cb /\ separate h pA pB /\
  exps_pos vA /\ exps_pos vB /\ v_L vA = 1 /\ v_L vB = 0 /\ grad_fits grad vA vB /\
  overlap_gradient ord None h pA pB point grad = Fail OutOfBounds.
Proof. exact overlap_gradient_unsafe. Qed.
Print Assumptions C26_overlap_gradient_memory_refuted.

(** C27: for any number of threads and any interleaving, threads whose bra shell is
    used by no other thread look up exactly the matrix elements of a single-threaded
    run and leave the component list as it was.  Missing: shared bra shells, for
    which the claim is false (below). *)
Theorem C27_threads_with_own_bra_shells_partial : forall calls m0 sched M n c t,
  disjoint_bras calls -> (forall n c, nth_error calls n = Some c -> mc_pA c <> mc_pB c) ->
  mm_run sched (mstart calls m0) = Some M -> nth_error calls n = Some c -> mdone M n t ->
  mt_log t = expected_log m0 c /\ (forall a, mm_mem M (mc_pA c) a = m0 (mc_pA c) a).
Proof. exact disjoint_threads. Qed.
Print Assumptions C27_threads_with_own_bra_shells_partial.

(** C27: every partial execution can be completed. *)
Theorem C27_executions_complete : forall calls m0 sched M,
  mm_run sched (mstart calls m0) = Some M ->
  exists rest M', mm_run rest M = Some M' /\ length (mm_threads M') = length calls /\ forall n t, nth_error (mm_threads M') n = Some t -> mt_ops t = [].
Proof. exact threads_can_finish. Qed.
Print Assumptions C27_executions_complete.

(** C27: two threads with the same p shell as bra: there is an interleaving in which
    one thread looks up wrong elements and the shell object is left with the
    component (2,0,0) in the place of (1,0,0). *)
Theorem C27_shared_bra_shell_refuted : exists sched M t0 t1,
  mm_run sched (mstart [p_call; p_call] p_lists) = Some M /\ mdone M 0 t0 /\ mdone M 1 t1 /\
  mt_log t1 <> expected_log p_lists p_call /\ mm_mem M 1 0 = 2.
Proof. exact shared_bra_race. Qed.
Print Assumptions C27_shared_bra_shell_refuted.

Example C27_case : disjoint_bras [mkMCall 1 1 3 3 3; mkMCall 2 2 6 3 3] /\
  (forall n c, nth_error [mkMCall 1 1 3 3 3; mkMCall 2 2 6 3 3] n = Some c -> mc_pA c <> mc_pB c) /\
  (forall p, holds_comps p_lists p (canon 1)) /\ length (expected_log p_lists p_call) = (27 * 13)%nat.
Proof.
  split; [|split; [|split]].
  - intros [|[|[|n]]] [|[|[|n']]] c c' Hn E E'; try congruence; try discriminate; injection E as <-; injection E' as <-; cbn; lia.
  - intros [|[|[|n]]] c E; try discriminate; injection E as <-; cbn; lia.
  - exact p_lists_hold.
  - vm_compute. reflexivity.
Qed.
