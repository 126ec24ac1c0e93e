(** * The integrals with the library's own routine for Dawson's integral *)

From Coq Require Import ZArith List Lia Bool Reals Lra Permutation.
From Coquelicot Require Import Coquelicot.
From Verif Require Import Base Loops Sums CartModel CartProofs GaussInt GaussProd NucPotSpec NucPot HeapModel HeapProofs HeapSpec HeapGrpp OneElModel OneElProofs OneElPairs OneElSpec OneElInt OneElThms
  LmatModel UtilProofs SpecModel SpecSpec SpecBoys BoysThms GfunThms SphProofs OvGradModel OvDeriv OvGradProofs OvGradThms NucModel NucProofs OutercoreModel OutercoreProofs OutercoreMain OutercoreThms
  MmdModel MmdSpec MmdE MmdR MmdInt MmdD MmdProofs MmdMain MmdThms MmdUser MmdNuc MmdOuter GrppModel GrppFull GrppHeap GrppGrad GrppGrad2 GrppThms GrppGrad3 GrppTerm GrppTermGrad GrppLocal
  DawsonModel DawsonProofs DawsonAcc DawsonThms.
Import ListNotations.
Open Scope R_scope.

(** Dawsons_Integral as modelled in DawsonModel.v *)
Definition own_dawson : R -> res R := dawsons_integral dawson_fuel.

Lemma own_accurate : dawson_accurate own_dawson (/ 2 ^ 64).
Proof. intros x _. apply dawson_accuracy_thm. Qed.

Lemma own_accurate_weak : dawson_accurate own_dawson (15 / 10 ^ 10).
Proof. intros x Hx. destruct (own_accurate x Hx) as (v & E & B). exists v. split; [exact E|]. lra. Qed.

(** ** The functions G_n for x > 12 *)
Lemma gfun_own_thm : forall x nmax sz g,
  (0 <= nmax <= 18)%Z -> 12 < x -> adims g = [sz] -> (nmax < sz)%Z ->
  exists g', gfun_values own_dawson x nmax g = Ok g' /\
    forall n, (0 <= n <= nmax)%Z -> exists v, aget g' [n] = Ok v /\ Rabs (v - gfun (Z.to_nat n) x) <= / 2 ^ 65.
Proof.
  intros x nmax sz g Hn Hx D S. destruct (own_accurate (sqrt x) (sqrt_pos x)) as (d & Ed & Bd).
  destruct (gfun_large x nmax sz g own_dawson d (/ 2 ^ 64) ltac:(lia) Hx Ed Bd D S) as (g' & E & _ & P & _). exists g'. split; [exact E|].
  intros n Hnn. destruct (P n Hnn) as (v & Ev & B). exists v. split; [exact Ev|]. eapply Rle_trans; [exact B|].
  assert (Q : 2 <= sqrt x) by (rewrite <- (sqrt_square 2) by lra; apply sqrt_le_1_alt; lra).
  pose proof (up_gain_bound x (Z.to_nat n) Hx ltac:(lia)) as G. assert (W : 0 < / 2 ^ 64) by (apply Rinv_0_lt_compat, pow_lt; lra).
  replace (/ 2 ^ 65) with (/ 2 ^ 64 / 2 * 1) by lra. apply Rmult_le_compat; [apply Rmult_le_pos; [lra|left; apply Rinv_0_lt_compat; lra]|lra| |lra].
  unfold Rdiv. apply Rmult_le_compat_l; [lra|]. apply Rinv_le_contravar; lra.
Qed.

(** ** Local integrals *)
Lemma local_own_dawson : forall h pA pB vA vB ca cb C pot M, heap_wf h -> std_shell h pA vA ca -> std_shell h pB vB cb ->
  (v_L vA <= 9)%Z -> (v_L vB <= 9)%Z -> (v_L vA + v_L vB <= 15)%Z -> exps_pos vA -> exps_pos vB -> fits M vA vB ->
  (forall n cf al, In (n, cf, al) (pv_prims pot) -> (0 <= n <= 2)%Z /\ 0 <= al) ->
  exists M', type1_call own_dawson true h pA pB C (Some pot) M = Ok M' /\ only_block M M' vA vB /\
    forall m n cA cB, nth_error ca m = Some cA -> nth_error cb n = Some cB ->
      exists s v, elem_at M' vB m n = Ok s /\ pot_int C (pv_prims pot) (fun x y z => phi_kept vA cA x y z * phi_kept vB cB x y z) v /\
        Rabs (s - v) <= 15 / 10 ^ 10 * amplification vA vB C (pv_prims pot) cA cB.
Proof.
  intros h pA pB vA vB ca cb C pot M W SA SB LA LB LAB PA PB HM HP. apply local_thm; try assumption. exact own_accurate_weak.
Qed.

(** ** Gradients of local integrals *)
Lemma gradient_own_dawson : forall rt h pA pB C pot U vA vB ca cb e,
  heap_wf h -> rt_init rt = true -> rt_type1 rt = type1_integrals own_dawson true -> std_shell h pA vA ca -> std_shell h pB vB cb -> view_pot h pot = Ok U -> 0 <= e ->
  (v_L vA <= 8)%Z -> (v_L vB <= 8)%Z -> (v_L vA + v_L vB <= 14)%Z -> exps_pos vA -> exps_pos vB -> significant vA -> significant vB ->
  (forall n cf al, In (n, cf, al) (pv_prims U) -> (0 <= n <= 2)%Z /\ 0 <= al) ->
  error_bound vA vB C (pv_prims U) (15 / 10 ^ 10) e ->
  exists bra ket, deriv_close (local_V C (pv_prims U)) vA vB ca cb e bra ket /\
    forall ord oob D grad, may_overread oob vA vB -> told_apart [v_origin vA; v_origin vB; C; D] -> grad_fits grad vA vB ->
      exists h' grad', type1_integrals_gradient ord oob rt h pA pB C pot D grad = Ok (h', grad') /\ heap_wf h' /\ (forall q, hblk h' q = hblk h q) /\
        only_grad grad grad' vA vB /\ holds_gradient grad' vA vB ca cb C D bra ket.
Proof.
  intros rt h pA pB C pot U vA vB ca cb e W I R1 SA SB EU He LA LB LAB PA PB ZA ZB HP HE.
  apply (local_own_gradient own_dawson rt h pA pB C pot U vA vB ca cb e); try assumption. exact own_accurate_weak.
Qed.
