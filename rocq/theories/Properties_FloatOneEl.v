(** * C80: the overlap integrals in double precision

    [fl_overlap_call] is the routine for overlap integrals with every floating point operation
    rounded to double precision (FloatOneEl.v); an operation whose result does not fit into a
    double is a fault.  [lexp] and [lpow] are the functions exp and pow of the C library,
    assumed to be accurate to one unit in the last place ([libm_exp], [libm_pow]); sqrt is
    correctly rounded, as the standard demands.  [moderate]: coefficients up to 1e6, exponents
    between 1e-8 and 1e10, coordinates up to 1e4.  [scale] is the sum over the pairs of
    primitives of the product of the coefficients, norms, (pi/p)^(3/2) and one length for every
    power of a coordinate (FloatOneElThms.v). *)

From Coq Require Import ZArith List Lia Bool Reals Lra.
From Verif Require Import Base GaussInt GaussProd CartModel CartProofs HeapModel HeapProofs HeapSpec OneElModel OneElProofs OneElPairs OneElSpec OneElInt OneElThms
  FloatBase FloatCalc FloatOneEl FloatOneElThms.
From Verif Require Properties_OneEl.
Import ListNotations.
Open Scope R_scope.

(** C80: the matrix is computed without overflow, nothing else is written, and every element
    differs from the integral of the product of the two contracted functions by at most
    (100 + 10 (L_A + L_B) + 2 n_A n_B) units of roundoff times the scale. *)
Theorem C80_overlap_double_precision : forall lexp lpow h pA pB vA vB ca cb M,
  libm_exp lexp -> libm_pow lpow -> heap_wf h ->
  std_shell h pA vA ca -> std_shell h pB vB cb -> (v_L vA <= 9)%Z -> (v_L vB <= 9)%Z -> moderate vA -> moderate vB -> (npairs vA vB <= 10000)%Z -> fits M vA vB ->
  exists M', fl_overlap_call lexp lpow h pA pB M = Ok M' /\ only_matrix M M' vA vB /\
    forall m n cA cB, nth_error ca m = Some cA -> nth_error cb n = Some cB ->
      exists v s, elem_at M' vB m n = Ok v /\ is_int3 (fun x y z => phi_of vA cA x y z * phi_of vB cB x y z) s /\
        Rabs (v - s) <= (100 + 10 * IZR (v_L vA + v_L vB) + 2 * IZR (npairs vA vB)) / 2 ^ 53 * scale vA vB cA cB.
Proof. exact fl_overlap_thm. Qed.
Print Assumptions C80_overlap_double_precision.

(** C80: for an s function with one primitive and unit coefficient the scale is 1: the
    self-overlap comes out as 1 within 1.2e-14, wherever the function is. *)
Theorem C80_s_normalised_double : forall lexp lpow h p v comps a M,
  libm_exp lexp -> libm_pow lpow -> heap_wf h -> std_shell h p v comps -> v_L v = 0%Z -> v_prims v = [(1, a)] -> moderate v -> fits M v v ->
  exists M' x, fl_overlap_call lexp lpow h p p M = Ok M' /\ elem_at M' v 0 0 = Ok x /\ Rabs (x - 1) <= 12 / 10 ^ 15.
Proof. exact fl_s_normalised. Qed.
Print Assumptions C80_s_normalised_double.

(** the assumptions on the C library are met by one that rounds correctly *)
Example C80_library : libm_exp cr_exp /\ libm_pow cr_pow.
Proof. split; [exact cr_exp_ok|exact cr_pow_ok]. Qed.

(** a d shell and a p shell with two primitives each, on different centres *)
Example C80_case : exists h pA pB vA vB ca cb, heap_wf h /\ std_shell h pA vA ca /\ std_shell h pB vB cb /\
  (v_L vA <= 9)%Z /\ (v_L vB <= 9)%Z /\ moderate vA /\ moderate vB /\ npairs vA vB = 4%Z /\ length ca = 6%nat /\ length cb = 3%nat /\ fits (aundef [18%Z]) vA vB.
Proof.
  destruct (shells_exist [Properties_OneEl.d_shell; Properties_OneEl.p_shell]) as (h & ps & W & F).
  { intros L o pr [E | [E | []]]; injection E as <- <- <-; lia. }
  inversion F as [|? pA ? ? HA F1]; subst. inversion F1 as [|? pB ? ? HB F2]; subst.
  destruct HA as (vA & ca & SA & LA & OA & PA). destruct HB as (vB & cb & SB & LB & OB & PB).
  exists h, pA, pB, vA, vB, ca, cb. split; [exact W|]. split; [exact SA|]. split; [exact SB|].
  split; [lia|]. split; [lia|].
  assert (NA := std_length _ _ _ _ SA). assert (NB := std_length _ _ _ _ SB). rewrite LA in NA. rewrite LB in NB.
  change (n_cart 2) with 6%Z in NA. change (n_cart 1) with 3%Z in NB.
  assert (CO : forall o, Rabs (coord3 o 0) <= 10 -> Rabs (coord3 o 1) <= 10 -> Rabs (coord3 o 2) <= 10 -> forall k, Rabs (coord3 o k) <= 10 ^ 4).
  { intros [[x y] z] H0 H1 H2 k. unfold coord3 in *. destruct (k =? 0)%Z; [cbn in H0; lra|]. destruct (k =? 1)%Z; cbn in *; lra. }
  split; [split; [intros c a; rewrite PA; intros [E | [E | []]]; injection E as <- <-; rewrite Rabs_pos_eq; lra|rewrite OA; apply CO; cbn; rewrite Rabs_pos_eq; lra]|].
  split; [split; [intros c a; rewrite PB; intros [E | [E | []]]; injection E as <- <-; (split; [apply Rabs_le; lra|lra])|rewrite OB; apply CO; cbn; apply Rabs_le; lra]|].
  split; [unfold npairs; rewrite PA, PB; reflexivity|]. split; [lia|]. split; [lia|].
  exists 18%Z. split; [reflexivity|]. rewrite (std_size _ _ _ _ SA), (std_size _ _ _ _ SB), NA, NB. lia.
Qed.
