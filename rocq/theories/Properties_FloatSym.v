(** * C98: symmetry of the one-electron matrices in double precision

    [fl_overlap_call], [fl_kinetic_call], [fl_momentum_call]: the routines with every floating point
    operation rounded to double precision (FloatOneEl.v, FloatKinModel.v); [libm_exp], [libm_pow]:
    exp and pow of the C library are accurate to one unit in the last place; [moderate]:
    coefficients up to 1e6, exponents between 1e-8 and 1e10, coordinates up to 1e4; [scale],
    [kin_scale], [mom_scale]: the scales of the error bounds of C80 and C93; [npairs]: the number
    of pairs of primitives. *)

From Coq Require Import ZArith List Bool Lia Reals Lra.
From Verif Require Import Base GaussInt GaussProd CartModel CartProofs HeapModel HeapProofs HeapSpec OneElModel OneElProofs OneElPairs OneElSpec OneElInt OneElThms
  FloatBase FloatCalc FloatOneEl FloatOneElThms FloatKinModel FloatKinThms FloatSym.
From Verif Require Properties_FloatKin Properties_FloatOneEl.
Import ListNotations.
Open Scope R_scope.

(** C98: both overlap matrices of a pair of shells are computed without overflow, and each is the transpose of the other up to
2 (100 + 10 (L_A + L_B) + 2 n_A n_B) units of roundoff times the scale. *)
Theorem C98_overlap : forall lexp lpow h pA pB vA vB ca cb M N,
  libm_exp lexp -> libm_pow lpow -> heap_wf h ->
  std_shell h pA vA ca -> std_shell h pB vB cb -> (v_L vA <= 9)%Z -> (v_L vB <= 9)%Z -> moderate vA -> moderate vB -> (npairs vA vB <= 10000)%Z -> fits M vA vB -> fits N vB vA ->
  exists X Y, fl_overlap_call lexp lpow h pA pB M = Ok X /\ fl_overlap_call lexp lpow h pB pA N = Ok Y /\
    forall m n cA cB, nth_error ca m = Some cA -> nth_error cb n = Some cB ->
      exists x y, elem_at X vB m n = Ok x /\ elem_at Y vA n m = Ok y /\
        Rabs (x - y) <= 2 * (100 + 10 * IZR (v_L vA + v_L vB) + 2 * IZR (npairs vA vB)) / 2 ^ 53 * scale vA vB cA cB.
Proof. exact fl_overlap_sym. Qed.
Print Assumptions C98_overlap.

(** C98: the same for the matrices of the kinetic energy, although the routine differentiates the function of one shell only. *)
Theorem C98_kinetic : forall lexp lpow h pA pB vA vB ca cb M N,
  libm_exp lexp -> libm_pow lpow -> heap_wf h ->
  std_shell h pA vA ca -> std_shell h pB vB cb -> (v_L vA <= 9)%Z -> (v_L vB <= 9)%Z -> (v_L vA + v_L vB <= 14)%Z -> moderate vA -> moderate vB -> (npairs vA vB <= 10000)%Z -> fits M vA vB -> fits N vB vA ->
  exists X Y, fl_kinetic_call lexp lpow h pA pB M = Ok X /\ fl_kinetic_call lexp lpow h pB pA N = Ok Y /\
    forall m n cA cB, nth_error ca m = Some cA -> nth_error cb n = Some cB ->
      exists x y, elem_at X vB m n = Ok x /\ elem_at Y vA n m = Ok y /\
        Rabs (x - y) <= (130 + 10 * IZR (v_L vA + v_L vB) + 2 * IZR (npairs vA vB)) / 2 ^ 53 * (kin_scale vA vB cA cB + kin_scale vB vA cB cA).
Proof. exact fl_kinetic_sym. Qed.
Print Assumptions C98_kinetic.

(** C98: the same for the three momentum matrices, which are antisymmetric. *)
Theorem C98_momentum : forall lexp lpow h pA pB vA vB ca cb Ms Ns,
  libm_exp lexp -> libm_pow lpow -> heap_wf h ->
  std_shell h pA vA ca -> std_shell h pB vB cb -> (v_L vA <= 9)%Z -> (v_L vB <= 9)%Z -> (v_L vA + v_L vB <= 16)%Z -> moderate vA -> moderate vB -> (npairs vA vB <= 10000)%Z ->
  (forall k, fits (nth3 k Ms) vA vB) -> (forall k, fits (nth3 k Ns) vB vA) ->
  exists Xs Ys, fl_momentum_call lexp lpow h pA pB Ms = Ok Xs /\ fl_momentum_call lexp lpow h pB pA Ns = Ok Ys /\
    forall k m n cA cB, (0 <= k < 3)%Z -> nth_error ca m = Some cA -> nth_error cb n = Some cB ->
      exists x y, elem_at (nth3 k Xs) vB m n = Ok x /\ elem_at (nth3 k Ys) vA n m = Ok y /\
        Rabs (x + y) <= (115 + 10 * IZR (v_L vA + v_L vB) + 2 * IZR (npairs vA vB)) / 2 ^ 53 * (mom_scale k vA vB cA cB + mom_scale k vB vA cB cA).
Proof. exact fl_momentum_antisym. Qed.
Print Assumptions C98_momentum.

(** the scale of the overlap is the same for both orders *)
Example C98_scale vA vB cA cB : scale vA vB cA cB = scale vB vA cB cA.
Proof. exact (scale_sym vA vB cA cB). Qed.

(** a d shell and a p shell with two primitives each, on different centres *)
Example C98_case : exists h pA pB vA vB ca cb, heap_wf h /\ std_shell h pA vA ca /\ std_shell h pB vB cb /\
  (v_L vA <= 9)%Z /\ (v_L vB <= 9)%Z /\ (v_L vA + v_L vB <= 14)%Z /\ moderate vA /\ moderate vB /\ npairs vA vB = 4%Z /\ length ca = 6%nat /\ length cb = 3%nat /\
  (forall k, fits (nth3 k (aundef [18%Z], aundef [18%Z], aundef [18%Z])) vA vB) /\ (forall k, fits (nth3 k (aundef [18%Z], aundef [18%Z], aundef [18%Z])) vB vA) /\ libm_exp cr_exp /\ libm_pow cr_pow.
Proof.
  destruct Properties_FloatKin.C93_case as (h & pA & pB & vA & vB & ca & cb & W & SA & SB & LA & LB & LL & MA & MB & NP & NA & NB & F & HE & HP).
  exists h, pA, pB, vA, vB, ca, cb. repeat (split; [assumption|]). split; [|split; assumption].
  intros k. specialize (F k). destruct F as (d & E & D). exists d. split; [exact E|]. rewrite Z.mul_comm. exact D.
Qed.
