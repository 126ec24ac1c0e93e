(** * C87: the attraction to a point charge over a basis: sign, symmetry and rigid motions *)

From Coq Require Import ZArith List Lia Bool Reals Lra.
From Coquelicot Require Import Coquelicot.
From Verif Require Import Base Loops Sums GaussInt GaussProd CartModel CartProofs HeapModel HeapProofs HeapSpec
  OneElModel OneElProofs OneElPairs OneElSpec OneElInt OneElThms NucPotSpec NucPot NucModel NucProofs RadialTables RadialMiss MmdModel MmdSpec MmdE MmdInt MmdD MmdProofs MmdMain MmdNuc Definite RigidPoly Rigid RigidThms Hermit RotLocal.
Import ListNotations.
Open Scope R_scope.

(** ** Specification *)

(** [e] is the matrix element which the library returns for this pair of basis functions and a
    charge at [C] *)
Definition attracted sf ev (h : heap) (C : R * R * R) (charge : Z) (t u : bfun) (e : R) : Prop :=
  exists M X, fits M (b_v t) (b_v u) /\ conv_call sf ev PointCharge true h (b_p t) (b_p u) C charge M = Ok X /\ elem_at X (b_v u) (b_m t) (b_m u) = Ok e.

(** no product of contraction coefficients is small enough to be skipped *)
Definition none_skipped (t u : bfun) : Prop := forall c a c' a', In (c, a) (v_prims (b_v t)) -> In (c', a') (v_prims (b_v u)) -> 1e-13 <= Rabs (c * c').

(** the error of one element, for a unit charge (C62) *)
Definition unit_error (C : R * R * R) (t u : bfun) : R := 15 / 10 ^ 15 * coulomb_amplification (b_v t) (b_v u) C (b_comp t) (b_comp u).
(** and of the element between two linear combinations *)
Definition total_error (C : R * R * R) (ts us : list bfun) : R := lsum (fun t => lsum (fun u => Rabs (b_w t * b_w u) * unit_error C t u) us) ts.

(** the pairs for which C62 applies *)
Definition covered (h : heap) (C : R * R * R) (ts us : list bfun) : Prop :=
  (forall t, In t ts -> bf_ok h t) /\ (forall u, In u us -> bf_ok h u) /\
  forall t u, In t ts -> In u us -> none_skipped t u /\ boys_range (b_v t) (b_v u) C.

(** ** The elements *)
Lemma big_all la lb g : (forall c a c' a', In (c, a) la -> In (c', a') lb -> 1e-13 <= Rabs (c * c')) -> big_pairs la lb g = lsum (fun p => lsum (fun q => g p q) lb) la.
Proof.
  intros H. unfold big_pairs. apply lsum_ext. intros [c a] Hp. apply lsum_ext. intros [c' a'] Hq. destruct (Rlt_dec _ _) as [L|]; [|reflexivity]. cbn [fst] in L. pose proof (H _ _ _ _ Hp Hq). lra.
Qed.

Lemma density_all t u x y z : none_skipped t u -> density (b_v t) (b_v u) (b_comp t) (b_comp u) x y z = phi_of (b_v t) (b_comp t) x y z * phi_of (b_v u) (b_comp u) x y z.
Proof.
  intros H. unfold density. rewrite big_all by exact H. unfold phi_of, phi. rewrite lsum_mult. apply lsum_ext. intros [c a] _. apply lsum_ext. intros [c' a'] _. cbn [fst snd]. unfold pfun. ring.
Qed.

Lemma density_sym vA vB cA cB x y z : density vA vB cA cB x y z = density vB vA cB cA x y z.
Proof.
  unfold density, big_pairs. rewrite lsum_swap. apply lsum_ext. intros p _. apply lsum_ext. intros q _. rewrite (Rmult_comm (fst q)). destruct (Rlt_dec _ _); ring.
Qed.

Section Elements.
Variables (sf : specfuns) (ev : prim_eval) (h : heap) (C : R * R * R) (charge : Z).
Hypothesis Hev : point_mmd ev.
Hypothesis W : heap_wf h.

Lemma attracted_density t u e : bf_ok h t -> bf_ok h u -> boys_range (b_v t) (b_v u) C -> attracted sf ev h C charge t u e ->
  exists v, kernel_int w1 C (density (b_v t) (b_v u) (b_comp t) (b_comp u)) v /\ Rabs (e + IZR charge * v) <= Rabs (IZR charge) * unit_error C t u.
Proof.
  intros (S1 & L1 & X1 & B1) (S2 & L2 & X2 & B2) HR (M & X & F & E & El).
  destruct (point_integral_thm sf ev h _ _ _ _ _ _ C charge M Hev W S1 S2 L1 L2 X1 X2 F HR) as (M' & E' & _ & V). rewrite E in E'. injection E' as <-.
  destruct (V (b_m t) (b_m u) (b_comp t) (b_comp u) (nth_error_nth' _ _ B1) (nth_error_nth' _ _ B2)) as (s & v & Es & Hv & Hb). rewrite El in Es. injection Es as <-. exists v. split; [exact Hv|].
  replace (e + IZR charge * v) with (e - - IZR charge * v) by ring. eapply Rle_trans; [exact Hb|]. unfold unit_error. right. ring.
Qed.

Lemma attracted_value t u e : bf_ok h t -> bf_ok h u -> none_skipped t u -> boys_range (b_v t) (b_v u) C -> attracted sf ev h C charge t u e ->
  exists v, kernel_int w1 C (fun x y z => phi_of (b_v t) (b_comp t) x y z * phi_of (b_v u) (b_comp u) x y z) v /\ Rabs (e + IZR charge * v) <= Rabs (IZR charge) * unit_error C t u.
Proof.
  intros O1 O2 N HR H. destruct (attracted_density t u e O1 O2 HR H) as (v & K & B). exists v. split; [|exact B]. eapply kernel_ext; [|exact K]. intros x y z. apply density_all, N.
Qed.

Lemma attracted_exists t u : bf_ok h t -> bf_ok h u -> boys_range (b_v t) (b_v u) C -> exists e, attracted sf ev h C charge t u e.
Proof.
  intros (S1 & L1 & X1 & B1) (S2 & L2 & X2 & B2) HR.
  assert (F : fits (aundef [(v_size (b_v t) * v_size (b_v u))%Z]) (b_v t) (b_v u)) by (eexists; split; [reflexivity|lia]).
  destruct (point_integral_thm sf ev h _ _ _ _ _ _ C charge _ Hev W S1 S2 L1 L2 X1 X2 F HR) as (M' & E' & _ & V).
  destruct (V (b_m t) (b_m u) (b_comp t) (b_comp u) (nth_error_nth' _ _ B1) (nth_error_nth' _ _ B2)) as (s & v & Es & _). exists s. eexists _, M'. split; [exact F|]. split; assumption.
Qed.

(** the element between two linear combinations *)
Lemma row_value t us S : (forall u, In u us -> exists v, kernel_int w1 C (fun x y z => phi_of (b_v t) (b_comp t) x y z * phi_of (b_v u) (b_comp u) x y z) v /\ Rabs (S t u + IZR charge * v) <= Rabs (IZR charge) * unit_error C t u) ->
  exists Q, kernel_int w1 C (fun x y z => b_w t * phi_of (b_v t) (b_comp t) x y z * combo us x y z) Q /\
    Rabs (lsum (fun u => b_w t * b_w u * S t u) us + IZR charge * Q) <= Rabs (IZR charge) * lsum (fun u => Rabs (b_w t * b_w u) * unit_error C t u) us.
Proof.
  induction us as [|u us IH]; intros H.
  - exists 0. split; [eapply kernel_ext; [|apply kernel_zero]; intros; unfold combo, lsum; cbn [fold_right]; ring|]. unfold lsum. cbn [fold_right]. rewrite !Rmult_0_r, Rplus_0_r, Rabs_R0. lra.
  - destruct (H u (or_introl eq_refl)) as (v & K & B). destruct IH as (Q & KQ & BQ); [intros u' Hu'; apply H; right; exact Hu'|]. exists (b_w t * b_w u * v + Q). split.
    + eapply kernel_ext; [|exact (kernel_plus C w1 _ _ _ _ (kernel_scal C w1 _ (b_w t * b_w u) _ K) KQ)]. intros x y z. unfold combo. rewrite lsum_cons. ring.
    + rewrite !lsum_cons. set (A := lsum (fun u => b_w t * b_w u * S t u) us) in *. set (D := lsum (fun u => Rabs (b_w t * b_w u) * unit_error C t u) us) in *.
      replace (b_w t * b_w u * S t u + A + IZR charge * (b_w t * b_w u * v + Q)) with (b_w t * b_w u * (S t u + IZR charge * v) + (A + IZR charge * Q)) by ring.
      eapply Rle_trans; [apply Rabs_triang|]. rewrite Rabs_mult. pose proof (Rmult_le_compat_l _ _ _ (Rabs_pos (b_w t * b_w u)) B). lra.
Qed.

Lemma cross_value ts us S : covered h C ts us -> (forall t u, In t ts -> In u us -> attracted sf ev h C charge t u (S t u)) ->
  exists Q, kernel_int w1 C (fun x y z => combo ts x y z * combo us x y z) Q /\ Rabs (cross ts us S + IZR charge * Q) <= Rabs (IZR charge) * total_error C ts us.
Proof.
  unfold cross, total_error. induction ts as [|t ts IH]; intros HC H.
  - exists 0. split; [eapply kernel_ext; [|apply kernel_zero]; intros; unfold combo, lsum; cbn [fold_right]; ring|]. unfold lsum. cbn [fold_right]. rewrite !Rmult_0_r, Rplus_0_r, Rabs_R0. lra.
  - destruct HC as (H1 & H2 & HC). destruct IH as (Q & KQ & BQ); [split; [intros t' Ht'; apply H1; right; exact Ht'|split; [exact H2|intros t' u Ht'; apply HC; right; exact Ht']]|intros t' u Ht'; apply H; right; exact Ht'|].
    destruct (row_value t us S) as (v & K & B).
    { intros u Hu. destruct (HC t u (or_introl eq_refl) Hu) as (N & HR). apply attracted_value; [apply H1; left; reflexivity|apply H2, Hu|exact N|exact HR|]. apply H; [left; reflexivity|exact Hu]. }
    exists (v + Q). split.
    + eapply kernel_ext; [|apply kernel_plus; [exact K|exact KQ]]. intros x y z. unfold combo. rewrite (lsum_cons _ t). ring.
    + rewrite !(lsum_cons _ t). set (A := lsum (fun t => lsum (fun u => b_w t * b_w u * S t u) us) ts) in *. set (A1 := lsum (fun u => b_w t * b_w u * S t u) us) in *.
      replace (A1 + A + IZR charge * (v + Q)) with ((A1 + IZR charge * v) + (A + IZR charge * Q)) by ring. eapply Rle_trans; [apply Rabs_triang|]. lra.
Qed.
End Elements.

(** ** The integral of the square of a combination over r *)
Section Square.
Variables (h : heap) (ts : list bfun) (C : R * R * R) (s : R).
Hypothesis OK : forall t, In t ts -> bf_ok h t.

Definition damped (k : Z) (i : Z) (u : term) (x : R) : R := cgZ (t_a u) (t_o u) k i x * exp (- (s ^ 2 / 2 * (x - coord3 C k) ^ 2)).
Definition damped_int (k i j : Z) (u u' : term) : R :=
  sqrt (PI / (t_a u + t_a u' + 0 + s ^ 2)) * axis_sum (t_a u) (t_a u') 0 (coord3 (t_o u) k) (coord3 (t_o u') k) (coord3 C k) (Z.to_nat i) (Z.to_nat j) (herm_m (t_a u + t_a u' + 0) (s ^ 2)).

Lemma damped_cont k i u x : continuous (damped k i u) x.
Proof.
  apply (continuous_mult_R (cgZ (t_a u) (t_o u) k i) (fun x => exp (- (s ^ 2 / 2 * (x - coord3 C k) ^ 2)))); [apply cgZ_cont|]. apply (ex_derive_continuous (V := R_NormedModule)). auto_derive. exact I.
Qed.
Lemma damped_prod k i j u u' : In u (terms ts) -> In u' (terms ts) -> is_int (fun x => damped k i u x * damped k j u' x) (damped_int k i j u u').
Proof.
  intros H H'. destruct (term_ok h ts OK u H) as (A1 & _). destruct (term_ok h ts OK u' H') as (A2 & _). unfold damped_int.
  eapply is_int_ext; [|apply axis_int; [lra|apply pow2_ge_0]]. intros x. unfold axis_fun, damped, cgZ. rewrite Rmult_0_l, Ropp_0, exp_0.
  replace (- (s ^ 2 * (x - coord3 C k) ^ 2)) with (- (s ^ 2 / 2 * (x - coord3 C k) ^ 2) + - (s ^ 2 / 2 * (x - coord3 C k) ^ 2)) by field. rewrite exp_plus. ring.
Qed.

Lemma square_damped : exists v, 0 <= v /\ is_int3 (fun x y z => combo ts x y z * combo ts x y z * exp (- (s ^ 2 * rho2 C x y z))) v.
Proof.
  set (P := fun u => damped 0 (t_n u) u). set (Q := fun u => damped 1 (t_l u) u). set (S := fun u => damped 2 (t_m u) u).
  set (ip := fun u u' => damped_int 0 (t_n u) (t_n u') u u'). set (iq := fun u u' => damped_int 1 (t_l u) (t_l u') u u'). set (is := fun u u' => damped_int 2 (t_m u) (t_m u') u u').
  assert (CP : forall t x, continuous (P t) x) by (intros; apply damped_cont). assert (CQ : forall t x, continuous (Q t) x) by (intros; apply damped_cont). assert (CS : forall t x, continuous (S t) x) by (intros; apply damped_cont).
  assert (IP : forall t t', In t (terms ts) -> In t' (terms ts) -> is_int (fun x => P t x * P t' x) (ip t t')) by (intros; apply damped_prod; assumption).
  assert (IQ : forall t t', In t (terms ts) -> In t' (terms ts) -> is_int (fun x => Q t x * Q t' x) (iq t t')) by (intros; apply damped_prod; assumption).
  assert (IS : forall t t', In t (terms ts) -> In t' (terms ts) -> is_int (fun x => S t x * S t' x) (is t t')) by (intros; apply damped_prod; assumption).
  exists (gq term t_c ip iq is (terms ts)). split; [exact (gram_nonneg term t_c P Q S ip iq is (terms ts) CP CQ CS IP IQ IS)|].
  apply (is_int3_ext (fun x y z => gfun term t_c P Q S (terms ts) x y z * gfun term t_c P Q S (terms ts) x y z)).
  - intros x y z. assert (E : gfun term t_c P Q S (terms ts) x y z = combo ts x y z * exp (- (s ^ 2 / 2 * rho2 C x y z))).
    { rewrite combo_mode. unfold mode_fun, gfun. rewrite (Rmult_comm _ (exp _)), <- lsum_scal. apply lsum_ext. intros u _. unfold P, Q, S, damped, mP, mQ, mS, fac. cbn [Z.eqb Pos.eqb]. rewrite rho2_coord.
      replace (- (s ^ 2 / 2 * ((x - coord3 C 0) ^ 2 + (y - coord3 C 1) ^ 2 + (z - coord3 C 2) ^ 2))) with (- (s ^ 2 / 2 * (x - coord3 C 0) ^ 2) + (- (s ^ 2 / 2 * (y - coord3 C 1) ^ 2) + - (s ^ 2 / 2 * (z - coord3 C 2) ^ 2))) by field. rewrite !exp_plus. ring. }
    rewrite E. replace (- (s ^ 2 * rho2 C x y z)) with (- (s ^ 2 / 2 * rho2 C x y z) + - (s ^ 2 / 2 * rho2 C x y z)) by field. rewrite exp_plus. ring.
  - eexists _, _. split; [intros x y; apply (i1 term t_c P Q S is (terms ts) IS)|]. split; [intros x; apply (i2 term t_c P Q iq is); assumption|]. apply i3. assumption.
Qed.
End Square.

Lemma square_coulomb h ts C Q : (forall t, In t ts -> bf_ok h t) -> kernel_int w1 C (fun x y z => combo ts x y z * combo ts x y z) Q -> 0 <= Q.
Proof.
  intros OK (I & HI & H). pose proof (half_ge _ Q 0 1 2 H) as G. rewrite Rmult_0_l in G. 
  assert (P : forall u, 0 < u -> 0 <= w1 u * I u).
  { intros u Hu. destruct (square_damped h ts C u OK) as (v & Hv & Iv). rewrite (is_int3_unique _ _ _ (HI u Hu) Iv). apply Rmult_le_pos; [|exact Hv]. unfold w1, Rdiv. apply Rmult_le_pos; [lra|left; apply Rinv_0_lt_compat, sqrt_lt_R0, PI_RGT_0]. }
  apply G; try lra; [exact P|]. intros r Hr. apply P. lra.
Qed.

(** ** Theorems *)
Lemma attraction_sign_thm sf ev h C charge ts V : point_mmd ev -> heap_wf h -> (0 <= charge)%Z -> covered h C ts ts ->
  (forall t u, In t ts -> In u ts -> attracted sf ev h C charge t u (V t u)) -> quad ts V <= IZR charge * total_error C ts ts.
Proof.
  intros Hev W Hz HC HV. destruct (cross_value sf ev h C charge Hev W ts ts V HC HV) as (Q & K & B). change (cross ts ts V) with (quad ts V) in B.
  assert (P : 0 <= Q). { apply (square_coulomb h ts C Q); [|exact K]. exact (proj1 HC). }
  assert (Hz' : 0 <= IZR charge) by (apply (IZR_le 0), Hz). rewrite (Rabs_right (IZR charge)) in B by lra. pose proof (Rle_abs (quad ts V + IZR charge * Q)). pose proof (Rmult_le_pos _ _ Hz' P). lra.
Qed.

Lemma attraction_symmetric_thm sf ev h C charge t u e e' : point_mmd ev -> heap_wf h -> bf_ok h t -> bf_ok h u -> boys_range (b_v t) (b_v u) C ->
  attracted sf ev h C charge t u e -> attracted sf ev h C charge u t e' -> Rabs (e - e') <= Rabs (IZR charge) * (unit_error C t u + unit_error C u t).
Proof.
  intros Hev W O1 O2 HR H H'.
  assert (HR' : boys_range (b_v u) (b_v t) C).
  { destruct HR as [HR|HR]; [left; lia|right]. intros cA aA cB aB I1 I2 Hb. rewrite Rmult_comm in Hb. specialize (HR _ _ _ _ I2 I1 Hb). replace (pair_arg aA aB 0 (v_origin (b_v u)) (v_origin (b_v t)) C) with (pair_arg aB aA 0 (v_origin (b_v t)) (v_origin (b_v u)) C); [exact HR|].
    unfold pair_arg, pair_X. rewrite (Rplus_comm aB aA). rewrite !(Rplus_comm (aB * _) (aA * _)). reflexivity. }
  destruct (attracted_density sf ev h C charge Hev W t u e O1 O2 HR H) as (v & K & B). destruct (attracted_density sf ev h C charge Hev W u t e' O2 O1 HR' H') as (v' & K' & B').
  assert (E : v' = v). { eapply kernel_unique; [exact K'|]. eapply kernel_ext; [|exact K]. intros x y z. apply density_sym. } subst v'.
  replace (e - e') with ((e + IZR charge * v) + - (e' + IZR charge * v)) by ring. eapply Rle_trans; [apply Rabs_triang|]. rewrite Rabs_Ropp. lra.
Qed.

Lemma attraction_rigid_thm sf ev h O t C charge ts us ts' us' V V' : point_mmd ev -> heap_wf h -> orthogonal O ->
  covered h C ts us -> covered h (moved3 O t C) ts' us' -> carried O t (combo ts) (combo ts') -> carried O t (combo us) (combo us') ->
  (forall a b, In a ts -> In b us -> attracted sf ev h C charge a b (V a b)) -> (forall a b, In a ts' -> In b us' -> attracted sf ev h (moved3 O t C) charge a b (V' a b)) ->
  Rabs (cross ts' us' V' - cross ts us V) <= Rabs (IZR charge) * (total_error C ts us + total_error (moved3 O t C) ts' us').
Proof.
  intros Hev W HO HC HC' Ct Cu HV HV'. destruct (cross_value sf ev h C charge Hev W ts us V HC HV) as (Q & K & B). destruct (cross_value sf ev h (moved3 O t C) charge Hev W ts' us' V' HC' HV') as (Q' & K' & B').
  assert (G : gp (fun x y z => combo ts x y z * combo us x y z)).
  { eapply gp_ext; [|apply (mode_gp2 h ts us (proj1 HC) (proj1 (proj2 HC)) 3 3); lia]. intros x y z. cbv beta. rewrite !combo_mode. reflexivity. }
  pose proof (kernel_move O t w1 C _ Q HO G K) as K2.
  assert (E : Q' = Q). { eapply kernel_unique; [exact K'|]. eapply kernel_ext; [|exact K2]. intros x y z. cbv beta. rewrite (carried_iv O t _ _ HO Ct), (carried_iv O t _ _ HO Cu). reflexivity. }
  subst Q'. replace (cross ts' us' V' - cross ts us V) with ((cross ts' us' V' + IZR charge * Q) + - (cross ts us V + IZR charge * Q)) by ring. eapply Rle_trans; [apply Rabs_triang|]. rewrite Rabs_Ropp. lra.
Qed.

(** ** An s function on the nucleus: the error does not hide the sign *)
Lemma s_axis a X m : 0 < a -> axis_sum a a 0 X X X 0 0 m = 1.
Proof.
  intros Ha. unfold axis_sum, pair_coef. cbn [Nat.add rsum]. replace ((a * X + a * X + 0 * X) / (a + a + 0) - X) with 0 by (field; lra). unfold hfun_. cbn [hpol].
  rewrite !Rminus_eq_0, !Rmult_0_r, exp_0. replace (m * 0 ^ 2 / 2) with 0 by (cbn [pow]; field). rewrite exp_0. rewrite ecoef_0. ring.
Qed.
Lemma s_weight a C k P : 0 < a -> axis_weight a a 0 C C C k 0 0 P = 1.
Proof.
  intros Ha. unfold axis_weight, pair_coef. cbn [Nat.add rsum]. rewrite ecoef_0. cbn [hpol]. rewrite !Rminus_eq_0, !Rmult_0_r, exp_0, Rplus_0_l, !Rmult_1_r. apply Rabs_R1.
Qed.

Lemma s_negative sf ev h C charge p v comps a e : point_mmd ev -> heap_wf h -> bf_ok h (BF 1 p v comps 0) -> nth 0 comps (0, 0, 0)%Z = (0, 0, 0)%Z -> v_prims v = [(1, a)] -> v_origin v = C -> v_L v = 0%Z ->
  (0 < charge)%Z -> attracted sf ev h C charge (BF 1 p v comps 0) (BF 1 p v comps 0) e -> e < 0.
Proof.
  intros Hev W OK Ec Ep Eo EL Hz H.
  assert (Ha : 0 < a) by (destruct OK as (_ & _ & X & _); apply (X 1); cbn [b_v]; rewrite Ep; left; reflexivity).
  assert (HR : boys_range v v C) by (left; lia).
  destruct (attracted_density sf ev h C charge Hev W _ _ e OK OK HR H) as (w & K & B).
  assert (Bc : b_comp (BF 1 p v comps 0) = (0, 0, 0)%Z) by exact Ec. unfold unit_error, coulomb_amplification in B. cbn [b_v] in K, B. rewrite Bc in K, B.
  assert (BP : forall g, big_pairs [(1, a)] [(1, a)] g = g (1, a) (1, a)).
  { intros g. unfold big_pairs, lsum. cbn [fold_right fst]. destruct (Rlt_dec _ _) as [L|L]; [rewrite Rmult_1_l, Rabs_R1 in L; lra|ring]. }
  rewrite Ep, BP in B. unfold pair_weight in B. cbn [fst snd Z.to_nat] in B. rewrite EL, Eo, !s_weight, Rmult_1_l, Rabs_R1 in B by exact Ha.
  set (k := norm_L 0 a * norm_L 0 a * pref 1 (a + a + 0)) in *.
  assert (Kp : 0 < k). { unfold k. apply Rmult_lt_0_compat; [apply Rmult_lt_0_compat; apply norm_L_pos|]. unfold pref. cbn [Z.eqb Pos.eqb]. apply Rdiv_lt_0_compat; [pose proof PI_RGT_0; lra|lra]. }
  pose proof (pair_value_int 1 0 0 C C C 0 a a (0, 0, 0)%Z (0, 0, 0)%Z ltac:(lra) ltac:(lia)) as PV. destruct PV as [(D & _) | [(_ & PV) | (D & _)]]; [discriminate D| |discriminate D].
  assert (Ev : pair_value 1 0 0 C C C 0 a a (0, 0, 0)%Z (0, 0, 0)%Z = k).
  { unfold pair_value. cbn [Z.eqb Pos.eqb Z.to_nat]. rewrite (RInt_ext (V := R_CompleteNormedModule) _ (fun _ => 1)).
    - rewrite RInt_const. match goal with |- _ * (_ * scal ?b ?c) = _ => change (scal b c) with (b * c) end. unfold k. ring.
    - intros s _. unfold pair_g. rewrite !s_axis by exact Ha. rewrite !Rmult_1_r. reflexivity. }
  rewrite Ev in PV. assert (Ew : w = k).
  { eapply kernel_unique; [exact K|]. eapply kernel_ext; [|exact PV]. intros x y z. unfold density. rewrite Ep, BP. cbn [fst snd]. rewrite EL, Eo, Rmult_0_l, Ropp_0, exp_0. ring. }
  subst w. assert (Hz' : 0 < IZR charge) by (apply (IZR_lt 0), Hz). rewrite (Rabs_right (IZR charge)) in B by lra.
  pose proof (Rle_abs (e + IZR charge * k)). pose proof (Rmult_lt_0_compat _ _ Hz' Kp). set (zk := IZR charge * k) in *.
  replace (IZR charge * (15 / 10 ^ 15 * (1 * (k * (1 * 1))))) with (15 / 10 ^ 15 * zk) in B by (unfold zk; ring). lra.
Qed.
