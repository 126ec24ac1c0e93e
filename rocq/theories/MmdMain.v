(** * The local integrals of contracted shells *)

From Coq Require Import ZArith List Lia Bool Reals Lra.
From Coquelicot Require Import Coquelicot.
From Verif Require Import Base Loops Sums GaussInt GaussProd NucPotSpec NucPot HeapModel OneElModel OneElProofs OneElPairs OneElSpec OneElInt LmatModel SpecModel SpecSpec SpecBoys BoysThms GfunThms SphProofs NucProofs OutercoreModel MmdModel MmdSpec MmdE MmdR MmdInt MmdD MmdProofs.
Import ListNotations.
Open Scope R_scope.

Definition pair_X (a b c : R) (A B C : R * R * R) (k : Z) : R := (a * coord3 A k + b * coord3 B k + c * coord3 C k) / (a + b + c) - coord3 C k.
(** the argument of the special functions *)
Definition pair_arg (a b c : R) (A B C : R * R * R) : R := (a + b + c) * (pair_X a b c A B C 0 ^ 2 + pair_X a b c A B C 1 ^ 2 + pair_X a b c A B C 2 ^ 2).

Definition pref (n : Z) (q : R) : R := if (n =? 1)%Z then 2 * PI / q else if (n =? 0)%Z then 2 * Rpower PI 1.5 / sqrt q else 0.
Definition pgain (n : Z) (q : R) : R := if (n =? 1)%Z then 2 * q else 4 * q.

Section PairValue.
Variables (n LA LB : Z) (A B C : R * R * R) (c aA aB : R).
Notation q := (aA + aB + c).

(** the exact value for components cA, cB *)
Definition pair_value (cA cB : Z * Z * Z) : R :=
  let '(n1, l1, m1) := cA in let '(n2, l2, m2) := cB in
  norm_L LA aA * norm_L LB aB *
  (if (n =? 2)%Z then Rpower (PI / q) 1.5 *
     (pair_coef aA aB c (coord3 A 0) (coord3 B 0) (coord3 C 0) (Z.to_nat n1) (Z.to_nat n2) 0 * pair_coef aA aB c (coord3 A 1) (coord3 B 1) (coord3 C 1) (Z.to_nat l1) (Z.to_nat l2) 0 *
      pair_coef aA aB c (coord3 A 2) (coord3 B 2) (coord3 C 2) (Z.to_nat m1) (Z.to_nat m2) 0)
   else pref n q * RInt (fun s => pair_g aA aB c A B C (Z.to_nat n1) (Z.to_nat l1) (Z.to_nat m1) (Z.to_nat n2) (Z.to_nat l2) (Z.to_nat m2) (if (n =? 1)%Z then mR q s else mG q s)) 0 1).

(** how much an error of the special functions is amplified *)
Definition pair_weight (cA cB : Z * Z * Z) : R :=
  let '(n1, l1, m1) := cA in let '(n2, l2, m2) := cB in
  norm_L LA aA * norm_L LB aB * pref n q *
  (axis_weight aA aB c A B C 0 (Z.to_nat n1) (Z.to_nat n2) (pgain n q) * axis_weight aA aB c A B C 1 (Z.to_nat l1) (Z.to_nat l2) (pgain n q) * axis_weight aA aB c A B C 2 (Z.to_nat m1) (Z.to_nat m2) (pgain n q)).

Lemma pair_fun_prim cA cB x y z : let '(n1, l1, m1) := cA in let '(n2, l2, m2) := cB in
  norm_L LA aA * norm_L LB aB * pair_fun aA aB c A B C (Z.to_nat n1) (Z.to_nat l1) (Z.to_nat m1) (Z.to_nat n2) (Z.to_nat l2) (Z.to_nat m2) x y z
  = pfun LA A cA aA x y z * pfun LB B cB aB x y z * exp (- (c * rho2 C x y z)).
Proof.
  destruct cA as [[n1 l1] m1], cB as [[n2 l2] m2]. unfold pfun, pair_fun, axis_fun. rewrite !gto_split. unfold cgZ, rho2. destruct C as [[cx cy] cz].
  change (coord3 (cx, cy, cz) 0%Z) with cx. change (coord3 (cx, cy, cz) 1%Z) with cy. change (coord3 (cx, cy, cz) 2%Z) with cz.
  replace (- (c * ((x - cx) ^ 2 + (y - cy) ^ 2 + (z - cz) ^ 2))) with (- (c * ((x - cx) * (x - cx))) + (- (c * ((y - cy) * (y - cy))) + - (c * ((z - cz) * (z - cz))))) by ring.
  rewrite !exp_plus. ring.
Qed.

Lemma norm_L_pos L a : 0 < norm_L L a.
Proof. unfold norm_L. apply Rmult_lt_0_compat; apply exp_pos. Qed.

Lemma kernel_scal w F k v : kernel_int w C F v -> kernel_int w C (fun x y z => k * F x y z) (k * v).
Proof.
  intros (I & H1 & H2). exists (fun u => k * I u). split.
  - intros u Hu. apply (is_int3_ext (fun x y z => k * (F x y z * exp (- (u ^ 2 * rho2 C x y z))))); [intros; ring|]. apply is_int3_scal. apply H1. exact Hu.
  - apply (half_ext (fun u => k * (w u * I u))); [intros; ring|]. apply half_scal. exact H2.
Qed.
Lemma kernel_ext w F G v : (forall x y z, F x y z = G x y z) -> kernel_int w C F v -> kernel_int w C G v.
Proof.
  intros HE (I & H1 & H2). exists I. split; [|exact H2]. intros u Hu. apply (is_int3_ext (fun x y z => F x y z * exp (- (u ^ 2 * rho2 C x y z)))); [intros; rewrite HE; reflexivity|]. apply H1. exact Hu.
Qed.
Lemma kernel_plus w F G v v' : kernel_int w C F v -> kernel_int w C G v' -> kernel_int w C (fun x y z => F x y z + G x y z) (v + v').
Proof.
  intros (I & H1 & H2) (J & K1 & K2). exists (fun u => I u + J u). split.
  - intros u Hu. apply (is_int3_ext (fun x y z => F x y z * exp (- (u ^ 2 * rho2 C x y z)) + G x y z * exp (- (u ^ 2 * rho2 C x y z)))); [intros; ring|]. apply is_int3_plus; [apply H1|apply K1]; exact Hu.
  - apply (half_ext (fun u => w u * I u + w u * J u)); [intros; ring|]. apply half_plus; assumption.
Qed.
Lemma kernel_zero w : kernel_int w C (fun _ _ _ => 0) 0.
Proof.
  exists (fun _ => 0). split.
  - intros u _. apply (is_int3_ext (fun _ _ _ => 0)); [intros; ring|]. apply is_int3_zero.
  - apply (half_ext (fun u => 0 * w2 u * exp (- (u ^ 2 * 1 ^ 2)))); [intros; ring|]. apply (half_eq _ (0 * (1 / 1 ^ 2))); [|ring].
    apply (half_ext (fun u => 0 * (w2 u * exp (- (u ^ 2 * 1 ^ 2))))); [intros; ring|]. apply half_scal. apply one_over_r2. lra.
Qed.

Lemma pair_value_int cA cB : 0 < q -> (n = 0 \/ n = 1 \/ n = 2)%Z ->
  local_int n C (fun x y z => pfun LA A cA aA x y z * pfun LB B cB aB x y z * exp (- (c * rho2 C x y z))) (pair_value cA cB).
Proof.
  intros Hq Hn. pose proof (pair_fun_prim cA cB) as PF. destruct cA as [[n1 l1] m1], cB as [[n2 l2] m2].
  unfold local_int, pair_value. destruct Hn as [-> | [-> | ->]].
  - right; right. split; [reflexivity|]. cbn [Z.eqb]. unfold pref. cbn [Z.eqb].
    eapply kernel_ext; [exact PF|]. apply kernel_scal. apply pair_int0. exact Hq.
  - right; left. split; [reflexivity|]. cbn [Z.eqb Pos.eqb]. unfold pref. cbn [Z.eqb Pos.eqb].
    eapply kernel_ext; [exact PF|]. apply kernel_scal. apply pair_int1. exact Hq.
  - left. split; [reflexivity|]. cbn [Z.eqb Pos.eqb].
    eapply is_int3_ext; [exact PF|]. apply is_int3_scal. apply pair_int2. exact Hq.
Qed.
End PairValue.

(** ** A pair of primitives *)
Section PairOk.
Variables (sA sB : vshell) (LA LB : Z) (A B : R * R * R) (pa pb : list (R * R)) (ca cb : list (Z * Z * Z)).
Hypothesis HA : vshell_is sA LA A pa ca.
Hypothesis HB : vshell_is sB LB B pb cb.
Hypothesis LA9 : (0 <= LA <= 9)%Z.
Hypothesis LB9 : (0 <= LB <= 9)%Z.

Lemma tsum_ext a b c A' B' C nA lA mA nB lB mB r r' : (forall t u v, r t u v = r' t u v) -> tsum a b c A' B' C nA lA mA nB lB mB r = tsum a b c A' B' C nA lA mA nB lB mB r'.
Proof. intros H. unfold tsum. apply rsum_ext. intros t _. apply rsum_ext. intros u _. apply rsum_ext. intros v _. rewrite H. reflexivity. Qed.

Lemma auxv_raux sh base aA aB c C t u v : auxv (mmd_geometry aA aB c A B C) sh base (Z.of_nat t) (Z.of_nat u) (Z.of_nat v) 0 = raux sh (pair_X aA aB c A B C 0) (pair_X aA aB c A B C 1) (pair_X aA aB c A B C 2) base t u v 0.
Proof. unfold auxv. rewrite !Nat2Z.id. reflexivity. Qed.

Lemma sum_branch (n : Z) aA aB c C Rr E (f ex : nat -> R) sh (base : (nat -> R) -> nat -> R) M d delta factor :
  0 < aA + aB + c -> adims M = [d] -> (sv_size sA * sv_size sB <= d)%Z -> 0 <= delta ->
  E_holds (mmd_geometry aA aB c A B C) LA LB E ->
  (forall t u v, (0 <= t)%Z -> (0 <= u)%Z -> (0 <= v)%Z -> (t + u + v <= LA + LB)%Z -> aget Rr [t; u; v; 0%Z] = Ok (auxv (mmd_geometry aA aB c A B C) sh (base f) t u v 0)) ->
  (forall t u v, Rabs (raux sh (pair_X aA aB c A B C 0) (pair_X aA aB c A B C 1) (pair_X aA aB c A B C 2) (base f) t u v 0 -
                       raux sh (pair_X aA aB c A B C 0) (pair_X aA aB c A B C 1) (pair_X aA aB c A B C 2) (base ex) t u v 0) <=
     hpol (pgain n (aA + aB + c)) (Rabs (pair_X aA aB c A B C 0)) t * (hpol (pgain n (aA + aB + c)) (Rabs (pair_X aA aB c A B C 1)) u * (hpol (pgain n (aA + aB + c)) (Rabs (pair_X aA aB c A B C 2)) v * delta))) ->
  (forall t u v, raux sh (pair_X aA aB c A B C 0) (pair_X aA aB c A B C 1) (pair_X aA aB c A B C 2) (base ex) t u v 0 =
     RInt (fun s => phi3 (if (n =? 1)%Z then mR (aA + aB + c) s else mG (aA + aB + c) s) t u v (pair_X aA aB c A B C 0) (pair_X aA aB c A B C 1) (pair_X aA aB c A B C 2)) 0 1) ->
  (n = 0 \/ n = 1)%Z -> factor = norm_L LA aA * norm_L LB aB * pref n (aA + aB + c) ->
  exists M', mmd_sum sA sB E Rr factor M = Ok M' /\ adims M' = [d] /\
    (forall i j, (i < length ca)%nat -> (j < length cb)%nat -> exists v, acell M' [Z.of_nat i * sv_size sB + Z.of_nat j]%Z = Some v /\
       Rabs (v - pair_value n LA LB A B C c aA aB (nth i ca (0, 0, 0)%Z) (nth j cb (0, 0, 0)%Z)) <= delta * pair_weight n LA LB A B C c aA aB (nth i ca (0, 0, 0)%Z) (nth j cb (0, 0, 0)%Z)) /\
    (forall ix, (forall k, (0 <= k < sv_size sA * sv_size sB)%Z -> ix <> [k]) -> acell M' ix = acell M ix).
Proof.
  intros Hq D Hd Hdl HE HR Herr Hex Hn Hf. destruct HA as (EA & OA & PA & CA & KA). destruct HB as (EB & OB & PB & CB & KB).
  set (q := aA + aB + c) in *. set (X := pair_X aA aB c A B C) in *.
  unfold mmd_sum.
  match goal with |- context [fill_components sA sB ?vv ?MM] =>
    destruct (fill_components_ok sA sB ca cb vv (fun x y => let '(n1, l1, m1) := x in let '(n2, l2, m2) := y in
       tsum aA aB c A B C (Z.to_nat n1) (Z.to_nat l1) (Z.to_nat m1) (Z.to_nat n2) (Z.to_nat l2) (Z.to_nat m2) (fun t u v => raux sh (X 0%Z) (X 1%Z) (X 2%Z) (base f) t u v 0) * factor) MM d) as (M' & E' & D' & C' & F'); [exact CA|exact CB|exact D|exact Hd| |] end.
  - intros na la ma nb lb mb Ia Ib. apply KA in Ia. apply KB in Ib.
    apply (mmd_sum_entry aA aB c A B C E Rr LA LB); try lia; [exact HE|].
    intros t u v Ht Hu Hv Hs. rewrite HR by assumption. unfold X. rewrite <- auxv_raux. rewrite !Z2Nat.id by assumption. reflexivity.
  - exists M'. split; [exact E'|]. split; [exact D'|]. split; [|exact F']. intros i j Hi Hj. eexists. split; [apply C'; assumption|].
    destruct (nth i ca (0, 0, 0)%Z) as [[n1 l1] m1], (nth j cb (0, 0, 0)%Z) as [[n2 l2] m2].
    unfold pair_value, pair_weight. fold q.
    replace (n =? 2)%Z with false by (destruct Hn as [-> | ->]; reflexivity).
    assert (Fn : 0 < factor).
    { rewrite Hf. apply Rmult_lt_0_compat; [apply Rmult_lt_0_compat; apply norm_L_pos|]. pose proof PI_RGT_0. unfold pref.
      destruct Hn as [-> | ->]; cbn [Z.eqb Pos.eqb]; apply Rdiv_lt_0_compat; try lra; [apply Rmult_lt_0_compat; [lra|apply exp_pos]|apply sqrt_lt_R0; exact Hq]. }
    assert (TI : RInt (fun s => pair_g aA aB c A B C (Z.to_nat n1) (Z.to_nat l1) (Z.to_nat m1) (Z.to_nat n2) (Z.to_nat l2) (Z.to_nat m2) (if (n =? 1)%Z then mR q s else mG q s)) 0 1 =
       tsum aA aB c A B C (Z.to_nat n1) (Z.to_nat l1) (Z.to_nat m1) (Z.to_nat n2) (Z.to_nat l2) (Z.to_nat m2) (fun t u v => raux sh (X 0%Z) (X 1%Z) (X 2%Z) (base ex) t u v 0)).
    { rewrite <- (tsum_int aA aB c A B C _ _ _ _ _ _ (fun s => if (n =? 1)%Z then mR q s else mG q s)) by (intros s; destruct Hn as [-> | ->]; cbn [Z.eqb Pos.eqb]; [apply mG_cont|apply mR_cont]).
      apply tsum_ext. intros t u v. symmetry. apply Hex. }
    rewrite TI.
    match goal with |- Rabs (?s1 * factor - ?nn * (?pp * ?s2)) <= _ => replace (s1 * factor - nn * (pp * s2)) with (factor * (s1 - s2)) by (rewrite Hf; ring) end.
    rewrite Rabs_mult, (Rabs_pos_eq factor) by lra.
    match goal with |- _ <= delta * (?nn * ?w) => replace (delta * (nn * w)) with (factor * (delta * w)) by (rewrite Hf; ring) end.
    apply Rmult_le_compat_l; [lra|].
    apply (tsum_err aA aB c A B C). intros t u v _ _ _. apply Herr.
Qed.

Lemma mmd_pair_ok daw n aA aB c C M d delta : 0 < aA + aB + c -> (n = 0 \/ n = 1 \/ n = 2)%Z -> adims M = [d] -> (sv_size sA * sv_size sB <= d)%Z ->
  special_error daw n (LA + LB) (pair_arg aA aB c A B C) delta ->
  exists M', mmd_primitive_pair daw n sA aA sB aB C c M = Ok M' /\ adims M' = [d] /\
    (forall i j, (i < length ca)%nat -> (j < length cb)%nat -> exists v, acell M' [Z.of_nat i * sv_size sB + Z.of_nat j]%Z = Some v /\
       Rabs (v - pair_value n LA LB A B C c aA aB (nth i ca (0, 0, 0)%Z) (nth j cb (0, 0, 0)%Z)) <= delta * pair_weight n LA LB A B C c aA aB (nth i ca (0, 0, 0)%Z) (nth j cb (0, 0, 0)%Z)) /\
    (forall ix, (forall k, (0 <= k < sv_size sA * sv_size sB)%Z -> ix <> [k]) -> acell M' ix = acell M ix).
Proof.
  intros Hq Hn D Hd Hs. pose proof HA as (EA & OA & PA & CA & KA). pose proof HB as (EB & OB & PB & CB & KB).
  assert (Hx : 0 <= pair_arg aA aB c A B C).
  { unfold pair_arg. apply Rmult_le_pos; [lra|]. pose proof (pow2_ge_0 (pair_X aA aB c A B C 0)). pose proof (pow2_ge_0 (pair_X aA aB c A B C 1)). pose proof (pow2_ge_0 (pair_X aA aB c A B C 2)). lra. }
  assert (Harg : md_q (mmd_geometry aA aB c A B C) * md_RQC2 (mmd_geometry aA aB c A B C) = pair_arg aA aB c A B C).
  { rewrite geom_R2. reflexivity. }
  assert (Hdl : 0 <= delta) by (destruct Hs as (H & _); exact H).
  destruct (setup_E_ok (mmd_geometry aA aB c A B C) LA LB Hq LA9 LB9) as (E & EE & HE).
  assert (NN : forall L a, gaussian_norm_factor L 0 0 a = norm_L L a) by (intros L a; apply nf_norm).
  unfold mmd_primitive_pair. destruct Hn as [-> | [-> | ->]]; cbn [Z.eqb Pos.eqb].
  - unfold mmd_n0_primitive_shell_pair. cbv zeta. rewrite EA, EB, OA, OB, Harg.
    destruct (special_gfun daw _ (LA + LB) delta ltac:(lia) Hx Hs) as (g & Eg & Vg). rewrite Eg, bind_ok, EE, bind_ok.
    destruct (vals_extend g (LA + LB) (fun n => gfun n (pair_arg aA aB c A B C)) delta ltac:(lia) Hdl Vg) as (f & Vf & Bf).
    destruct (setup_G_ok (mmd_geometry aA aB c A B C) g LA LB f LA9 LB9 Vf) as (Rr & ER & VR). rewrite ER, bind_ok.
    refine (sum_branch 0 aA aB c C Rr E f (fun n => gfun n (pair_arg aA aB c A B C)) (shG (aA + aB + c)) (fun f n => (2 * (aA + aB + c)) ^ n * f n) M d delta _ Hq D Hd Hdl HE _ _ _ (or_introl eq_refl) _).
    + intros t u v Ht Hu Hv Hsum. apply (VR t u v 0%Z); lia.
    + intros t u v. apply (raux_err (shG (aA + aB + c)) (2 * (aA + aB + c)) (pgain 0 (aA + aB + c))); [unfold pgain; cbn [Z.eqb]; lra| |exact Hdl|].
      * intros f' g' e He. apply shG_err; [lra|exact He].
      * intros k. rewrite <- Rmult_minus_distr_l, Rabs_mult, Rabs_pos_eq by (apply pow_le; lra). rewrite Rmult_comm. apply Rmult_le_compat_r; [apply pow_le; lra|apply Bf].
    + intros t u v. apply raux_G.
    + rewrite !NN. unfold pref. cbn [Z.eqb mmd_geometry md_q]. unfold Rdiv. ring.
  - unfold mmd_n1_primitive_shell_pair. cbv zeta. rewrite EA, EB, OA, OB, Harg.
    destruct (special_boys daw _ (LA + LB) delta ltac:(lia) Hx Hs) as (g & Eg & Vg). rewrite Eg, bind_ok, EE, bind_ok.
    destruct (vals_extend g (LA + LB) (fun n => boys n (pair_arg aA aB c A B C)) delta ltac:(lia) Hdl Vg) as (f & Vf & Bf).
    destruct (setup_R_ok (mmd_geometry aA aB c A B C) g LA LB f LA9 LB9 Vf) as (Rr & ER & VR). rewrite ER, bind_ok.
    refine (sum_branch 1 aA aB c C Rr E f (fun n => boys n (pair_arg aA aB c A B C)) shR (fun f n => (- 2 * (aA + aB + c)) ^ n * f n) M d delta _ Hq D Hd Hdl HE _ _ _ (or_intror eq_refl) _).
    + intros t u v Ht Hu Hv Hsum. apply (VR t u v 0%Z); lia.
    + intros t u v. apply (raux_err shR (2 * (aA + aB + c)) (pgain 1 (aA + aB + c))); [unfold pgain; cbn [Z.eqb Pos.eqb]; lra| |exact Hdl|].
      * intros f' g' e He. apply shR_err. exact He.
      * intros k. rewrite <- Rmult_minus_distr_l, Rabs_mult, <- RPow_abs. replace (Rabs (- 2 * (aA + aB + c))) with (2 * (aA + aB + c)) by (rewrite Rabs_left; lra).
        rewrite Rmult_comm. apply Rmult_le_compat_r; [apply pow_le; lra|apply Bf].
    + intros t u v. apply raux_R.
    + rewrite !NN. unfold pref. cbn [Z.eqb Pos.eqb mmd_geometry md_q]. unfold Rdiv. ring.
  - unfold mmd_n2_primitive_shell_pair. cbv zeta. rewrite EA, EB, OA, OB, EE, bind_ok.
    match goal with |- context [fill_components sA sB ?vv ?MM] =>
      destruct (fill_components_ok sA sB ca cb vv (pair_value 2 LA LB A B C c aA aB) MM d) as (M' & E' & D' & C' & F'); [exact CA|exact CB|exact D|exact Hd| |] end.
    + intros na la ma nb lb mb Ia Ib. apply KA in Ia. apply KB in Ib.
      rewrite !HE by lia. cbn [bind]. rewrite !geom_pair by lia. unfold pair_value. cbn [Z.eqb Pos.eqb mmd_geometry md_q]. rewrite !NN. f_equal. change (Z.to_nat 0) with 0%nat. ring.
    + exists M'. split; [exact E'|]. split; [exact D'|]. split; [|exact F']. intros i j Hi Hj. eexists. split; [apply C'; assumption|].
      rewrite Rminus_eq_0, Rabs_R0. destruct (nth i ca (0, 0, 0)%Z) as [[n1 l1] m1], (nth j cb (0, 0, 0)%Z) as [[n2 l2] m2]. unfold pair_weight, pref. cbn [Z.eqb Pos.eqb]. lra.
Qed.
End PairOk.
