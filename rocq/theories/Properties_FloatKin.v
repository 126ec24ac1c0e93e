(** * C93: kinetic energy and momentum integrals in double precision

    [fl_kinetic_call], [fl_momentum_call]: the routines with every floating point operation
    rounded to double precision (FloatKinModel.v), an operation whose result does not fit into a
    double being a fault; [libm_exp], [libm_pow], [moderate], [npairs]: as for C80.
    [kin_scale], [mom_scale]: the scale of C80 with, for every derivative, the factor
    [deriv_scale] (FloatKinThms.v).  [nth3 k]: component k of a triple. *)

From Coq Require Import ZArith List Lia Bool Reals Lra.
From Verif Require Import Base GaussInt GaussProd CartModel CartProofs HeapModel HeapProofs HeapSpec OneElModel OneElProofs OneElPairs OneElSpec OneElInt OneElThms
  FloatBase FloatCalc FloatOneEl FloatOneElThms FloatKinModel FloatKinThms FloatKinS.
From Verif Require Properties_FloatOneEl.
Import ListNotations.
Open Scope R_scope.

(** C93: the matrix is computed without overflow, nothing else is written, and every element differs from the integral of
phi_A times - 1/2 Laplacian of phi_B by at most (130 + 10 (L_A + L_B) + 2 n_A n_B) units of roundoff times the scale. *)
Theorem C93_kinetic_double_precision : forall lexp lpow h pA pB vA vB ca cb M,
  libm_exp lexp -> libm_pow lpow -> heap_wf h ->
  std_shell h pA vA ca -> std_shell h pB vB cb -> (v_L vA <= 9)%Z -> (v_L vB <= 9)%Z -> (v_L vA + v_L vB <= 14)%Z -> moderate vA -> moderate vB -> (npairs vA vB <= 10000)%Z -> fits M vA vB ->
  exists M', fl_kinetic_call lexp lpow h pA pB M = Ok M' /\ only_matrix M M' vA vB /\
    forall m n cA cB, nth_error ca m = Some cA -> nth_error cb n = Some cB ->
      exists v lap t, elem_at M' vB m n = Ok v /\ is_laplacian (phi_of vB cB) lap /\ is_int3 (fun x y z => phi_of vA cA x y z * (- (1 / 2) * lap x y z)) t /\
        Rabs (v - t) <= (130 + 10 * IZR (v_L vA + v_L vB) + 2 * IZR (npairs vA vB)) / 2 ^ 53 * kin_scale vA vB cA cB.
Proof. exact fl_kinetic_thm. Qed.
Print Assumptions C93_kinetic_double_precision.

(** C93: the same for the three momentum matrices, minus the integrals of phi_A times the derivatives of phi_B. *)
Theorem C93_momentum_double_precision : forall lexp lpow h pA pB vA vB ca cb Ms,
  libm_exp lexp -> libm_pow lpow -> heap_wf h ->
  std_shell h pA vA ca -> std_shell h pB vB cb -> (v_L vA <= 9)%Z -> (v_L vB <= 9)%Z -> (v_L vA + v_L vB <= 16)%Z -> moderate vA -> moderate vB -> (npairs vA vB <= 10000)%Z ->
  (forall k, fits (nth3 k Ms) vA vB) ->
  exists Ms', fl_momentum_call lexp lpow h pA pB Ms = Ok Ms' /\
    forall k, (0 <= k < 3)%Z -> only_matrix (nth3 k Ms) (nth3 k Ms') vA vB /\
    forall m n cA cB, nth_error ca m = Some cA -> nth_error cb n = Some cB ->
      exists v d t, elem_at (nth3 k Ms') vB m n = Ok v /\ is_partial k (phi_of vB cB) d /\ is_int3 (fun x y z => phi_of vA cA x y z * d x y z) t /\
        Rabs (v - - t) <= (115 + 10 * IZR (v_L vA + v_L vB) + 2 * IZR (npairs vA vB)) / 2 ^ 53 * mom_scale k vA vB cA cB.
Proof. exact fl_momentum_thm. Qed.
Print Assumptions C93_momentum_double_precision.

(** C93: the kinetic energy of a normalised s function of exponent a at the origin comes out as 3 a / 2 with a relative error
below 4e-13. *)
Theorem C93_kinetic_energy_of_s : forall lexp lpow h p v comps a M,
  libm_exp lexp -> libm_pow lpow -> heap_wf h -> std_shell h p v comps -> v_L v = 0%Z -> v_origin v = (0, 0, 0) -> v_prims v = [(1, a)] -> moderate v -> fits M v v ->
  exists M' x, fl_kinetic_call lexp lpow h p p M = Ok M' /\ elem_at M' v 0 0 = Ok x /\ Rabs (x - 3 / 2 * a) <= 5 / 10 ^ 13 * a.
Proof. exact fl_kinetic_s. Qed.
Print Assumptions C93_kinetic_energy_of_s.

(** a d shell and a p shell with two primitives each, on different centres *)
Example C93_case : exists h pA pB vA vB ca cb, heap_wf h /\ std_shell h pA vA ca /\ std_shell h pB vB cb /\
  (v_L vA <= 9)%Z /\ (v_L vB <= 9)%Z /\ (v_L vA + v_L vB <= 14)%Z /\ moderate vA /\ moderate vB /\ npairs vA vB = 4%Z /\ length ca = 6%nat /\ length cb = 3%nat /\
  (forall k, fits (nth3 k (aundef [18%Z], aundef [18%Z], aundef [18%Z])) vA vB) /\ libm_exp cr_exp /\ libm_pow cr_pow.
Proof.
  destruct Properties_FloatOneEl.C80_case as (h & pA & pB & vA & vB & ca & cb & W & SA & SB & LA & LB & MA & MB & NP & NA & NB & F).
  exists h, pA, pB, vA, vB, ca, cb. split; [exact W|]. split; [exact SA|]. split; [exact SB|]. split; [exact LA|]. split; [exact LB|].
  assert (L3 : forall h p v c, std_shell h p v c -> (length c <= 6)%nat -> (v_L v <= 2)%Z).
  { intros h0 p0 v0 c0 S0 Hc. pose proof (std_length _ _ _ _ S0) as E. assert (L0 : (0 <= v_L v0)%Z) by (destruct S0 as (_ & H & _); exact H). unfold n_cart in E. rewrite Z.quot_div_nonneg in E by nia.
    destruct (Z.le_gt_cases (v_L v0) 2) as [H|H]; [exact H|exfalso]. assert (G : ((v_L v0 + 1) * (v_L v0 + 2) >= 20)%Z) by nia. pose proof (Z.div_le_mono 20 ((v_L v0 + 1) * (v_L v0 + 2)) 2 ltac:(lia) ltac:(lia)) as Q. change (20 / 2)%Z with 10%Z in Q. lia. }
  pose proof (L3 _ _ _ _ SA ltac:(lia)). pose proof (L3 _ _ _ _ SB ltac:(lia)).
  split; [lia|]. split; [exact MA|]. split; [exact MB|]. split; [exact NP|]. split; [exact NA|]. split; [exact NB|].
  split; [|split; [exact cr_exp_ok|exact cr_pow_ok]]. intros k. unfold nth3. destruct (k =? 0)%Z; [exact F|]. destruct (k =? 1)%Z; exact F.
Qed.

(** a normalised s function at the origin *)
Example C93_s_case : exists h p v comps, heap_wf h /\ std_shell h p v comps /\ v_L v = 0%Z /\ v_origin v = (0, 0, 0) /\ v_prims v = [(1, 1 / 2)] /\ moderate v /\ fits (aundef [1%Z]) v v.
Proof.
  destruct (shells_exist [(0%Z, (0, 0, 0), [(1, 1 / 2)])]) as (h & ps & W & F).
  { intros L o pr [E | []]; injection E as <- <- <-; lia. }
  inversion F as [|? p ? ? HA F1]; subst. destruct HA as (v & comps & S & L & O & P). exists h, p, v, comps. split; [exact W|]. split; [exact S|]. split; [exact L|]. split; [exact O|]. split; [exact P|].
  split; [split|].
  - intros c a. rewrite P. intros [E | []]. injection E as <- <-. rewrite Rabs_pos_eq; lra.
  - intros k. rewrite O. unfold coord3. destruct (k =? 0)%Z; [rewrite Rabs_R0; lra|]. destruct (k =? 1)%Z; rewrite Rabs_R0; lra.
  - exists 1%Z. split; [reflexivity|]. pose proof (std_length _ _ _ _ S) as N. rewrite (std_size _ _ _ _ S), N, L. vm_compute. discriminate.
Qed.
