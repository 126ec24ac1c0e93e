(** * C95: the value of a potential in double precision

    [fl_potential_value]: libgrpp_potential_value with every floating point operation rounded to
    double precision (FloatPotModel.v), an operation whose result does not fit into a double being
    a fault; [libm_exp], [libm_pow]: exp and pow of the C library are accurate to one unit in the
    last place.  [pot_at h p v]: the block p of the heap is a potential with the terms
    [pv_prims v]; [radial_sum]: the sum of c r^(n-2) exp(-a r^2) over the terms (n, c, a);
    [pot_scale]: the sum of (|c| + 1e-30) r^(n-2); [moderate_term]: powers 0..10, coefficients up
    to 1e10, exponents between 1e-8 and 1e10 (FloatPot.v). *)

From Coq Require Import ZArith List Lia Bool Reals Lra.
From Verif Require Import Base HeapModel HeapProofs HeapShrink HeapSpec FloatBase FloatOneEl FloatOneElThms FloatPotModel FloatPot.
From Verif Require Properties_Heap.
Import ListNotations.
Open Scope R_scope.

(** C95: the value is computed without overflow and its error is at most 9 + 2 n units of roundoff, for n terms, times the sum of the
sizes of the terms without their exponentials. *)
Theorem C95_double_precision : forall lexp lpow h p v r,
  libm_exp lexp -> libm_pow lpow -> heap_wf h -> pot_at h p v -> / 10 ^ 10 <= r <= 10 ^ 4 -> (forall x, In x (pv_prims v) -> moderate_term x) -> (length (pv_prims v) <= 1000)%nat ->
  exists y, fl_potential_value lexp lpow h p r = Ok y /\ Rabs (y - radial_sum (pv_prims v) r) <= (9 + 2 * INR (length (pv_prims v))) / 2 ^ 53 * pot_scale (pv_prims v) r.
Proof. exact fl_potential_thm. Qed.
Print Assumptions C95_double_precision.

(** the potential exp(-3 r^2) + 2 exp(-4 r^2) / r at r = 1/2, with a library that rounds correctly *)
Example C95_case : exists h p v, heap_wf h /\ pot_at h p v /\ v = mkPview 1 3 (filter at_least_thresh [(2%Z, 1, 3); (1%Z, 2, 4)]) /\ pv_prims v <> [] /\ (forall x, In x (pv_prims v) -> moderate_term x) /\ (length (pv_prims v) <= 1000)%nat /\ / 10 ^ 10 <= 1 / 2 <= 10 ^ 4 /\
  libm_exp cr_exp /\ libm_pow cr_pow.
Proof.
  destruct (new_potential_spec Properties_Heap.heap_with_arrays 1 3 2 3 1 2 [2; 1]%Z [1; 2] [3; 4] Properties_Heap.heap_with_arrays_wf) as (p & h & E & W & A & _); [repeat split|cbn; lia|cbn; lia|cbn; lia|].
  exists h, p, (mkPview 1 3 (filter at_least_thresh [(2%Z, 1, 3); (1%Z, 2, 4)])). split; [exact W|]. split; [exact A|]. split; [reflexivity|]. split; [|split; [|split; [|split; [lra|split; [exact cr_exp_ok|exact cr_pow_ok]]]]].
  - cbn [pv_prims]. assert (I : In (2%Z, 1, 3) (filter at_least_thresh [(2%Z, 1, 3); (1%Z, 2, 4)])).
    { apply filter_In. split; [left; reflexivity|]. unfold at_least_thresh. cbn [fst snd p_coef]. destruct (Rle_dec (/ 10 ^ 14) (Rabs 1)) as [_|B]; [reflexivity|exfalso; apply B; rewrite Rabs_pos_eq; lra]. }
    intros Z. rewrite Z in I. exact I.
  - cbn [pv_prims]. intros x Hx. apply filter_In in Hx. destruct Hx as ([<- | [<- | []]] & _); unfold moderate_term, p_pow, p_coef, p_exp; cbn [fst snd]; (split; [lia|]; split; [rewrite Rabs_pos_eq|]; lra).
  - cbn [pv_prims]. assert (F : forall (f : Z * R * R -> bool) a b, (length (filter f [a; b]) <= 2)%nat) by (intros f a b; cbn [filter]; destruct (f a), (f b); cbn [length]; lia). specialize (F at_least_thresh (2%Z, 1, 3) (1%Z, 2, 4)). lia.
Qed.
