(** * The outercore integrals from building blocks *)

From Coq Require Import ZArith List Lia Bool Reals Lra.
From Coquelicot Require Import Coquelicot.
From Verif Require Import Base Loops Sums BinomModel BinomProofs OneElModel OneElProofs OneElPairs OneElInt OneElSpec GaussProd LmatModel LmatProofs NumSpec UtilProofs NucPotSpec NucPot GaussMoment HeapShrink SphModel SphSpec SphProofs SphThms OutercoreModel OutercoreProofs OutercoreRadial OutercoreSpec.
Import ListNotations.
Open Scope R_scope.

(** the arguments (pot, shell) hold the data o; cart l is the order of components of the shells with L = l *)
Definition oc_is (cart : nat -> list (Z * Z * Z)) (p : vpot * vshell) (o : oc_data) : Prop :=
  pv_L (fst p) = Z.of_nat (oc_l o) /\ pv_J (fst p) = oc_J o /\ pv_prims (fst p) = oc_pot o /\
  exists org, vshell_is (snd p) (Z.of_nat (oc_l o)) org (oc_prims o) (cart (oc_l o)).

Definition oc_valid (o : oc_data) : Prop :=
  (oc_l o <= 9)%nat /\ (forall c a, In (c, a) (oc_prims o) -> 0 < a) /\ pot_in_range (oc_l o) (oc_pot o).

(** the type-1 routine gives ta o between A and shell o, tb o between shell o and B *)
Definition oc_t1 (t1 : t1_routine) (A B : vshell) (C : R * R * R) (ta tb : oc_data -> Z -> Z -> R) (p : vpot * vshell) (o : oc_data) : Prop :=
  t1_gives t1 (move_shell (snd p) C) B C (fst p) (tb o) /\ t1_gives t1 A (move_shell (snd p) C) C (fst p) (ta o).

Section Main.
Variables (t1 : t1_routine) (A B : vshell) (C : R * R * R) (LA LB : Z) (oA oB : R * R * R) (la lb : list (R * R)) (ca cb : list (Z * Z * Z)).
Hypothesis HA : vshell_is A LA oA la ca.
Hypothesis HB : vshell_is B LB oB lb cb.
Hypothesis HLA : (0 <= LA <= 9)%Z.
Hypothesis HLB : (0 <= LB <= 9)%Z.
Variable cart : nat -> list (Z * Z * Z).
Variables (ta tb : oc_data -> Z -> Z -> R).

Let na := sv_size A.
Let nb := sv_size B.

Definition cSa (o : oc_data) := to_ket (oc_l o) (cart (oc_l o)) (ovm LA (Z.of_nat (oc_l o)) oA C la (oc_prims o) ca (cart (oc_l o))).
Definition cSb (o : oc_data) := to_bra (oc_l o) (cart (oc_l o)) (ovm (Z.of_nat (oc_l o)) LB C oB (oc_prims o) lb (cart (oc_l o)) cb).
Definition cUa (o : oc_data) := to_ket (oc_l o) (cart (oc_l o)) (ta o).
Definition cUb (o : oc_data) := to_bra (oc_l o) (cart (oc_l o)) (tb o).
Definition cdelta (o o' : oc_data) : R := table_ratio (oc_l o) ^ 2 * delta_val (oc_l o) (oc_prims o) (oc_prims o') (oc_pot o) (oc_pot o').

Lemma arep_factor_w pot o : pv_J pot = oc_J o -> arep_factor pot (Z.of_nat (oc_l o)) = w_arep o.
Proof.
  intros EJ. unfold arep_factor, w_arep, j_below. rewrite EJ. cbv zeta. rewrite plus_IZR, <- !INR_IZR_INZ.
  destruct (Z.ltb_spec (oc_J o) (2 * Z.of_nat (oc_l o))) as [H|H].
  - apply IZR_lt in H. rewrite mult_IZR, <- INR_IZR_INZ in H. destruct (Rlt_dec _ _); [reflexivity|lra].
  - apply IZR_le in H. rewrite mult_IZR, <- INR_IZR_INZ in H. destruct (Rlt_dec _ _); [lra|reflexivity].
Qed.

Lemma esop_factor_w pot o : pv_J pot = oc_J o -> esop_factor pot (Z.of_nat (oc_l o)) = w_so o.
Proof.
  intros EJ. unfold esop_factor, w_so, j_below. rewrite EJ. cbv zeta. rewrite plus_IZR, mult_IZR, <- !INR_IZR_INZ. pose proof (pos_INR (oc_l o)).
  destruct (Z.ltb_spec (oc_J o) (2 * Z.of_nat (oc_l o))) as [X|X].
  - apply IZR_lt in X. rewrite mult_IZR, <- INR_IZR_INZ in X. destruct (Rlt_dec _ _); [field; lra|lra].
  - apply IZR_le in X. rewrite mult_IZR, <- INR_IZR_INZ in X. destruct (Rlt_dec _ _); [lra|reflexivity].
Qed.

Definition first_o (o : oc_data) := first_term (oc_l o) (w_arep o) (w_so o) (cSa o) (cSb o) (cUa o) (cUb o).
Definition second_o (o o' : oc_data) (k i j : Z) : R := if same_ljb o o' then second_term (oc_l o) (w_arep o) (w_so o) (cdelta o o') (cSa o) (cSb o') k i j else 0.

Lemma fold_first ocs os out szs f : Forall2 (oc_is cart) ocs os -> Forall2 (oc_t1 t1 A B C ta tb) ocs os -> List.Forall oc_valid os -> four out szs na nb f ->
  exists out', fold_left (fun (r : res mats) '(pot, nlj) => let* out := r in outercore_part_1 t1 A B C pot nlj out) ocs (Ok out) = Ok out' /\ out4 (na * nb) out out' /\
    four out' szs na nb (fun k i j => f k i j + lsum (fun o => first_o o k i j) os).
Proof.
  intros HO. revert out f. induction HO as [|[pot s] o ocs os Ho HO IH]; intros out f Ht Hv Hf.
  - exists out. split; [reflexivity|]. split; [apply out4_refl|]. eapply four_ext; [|exact Hf]. intros k i j _ _ _. unfold lsum. cbn [fold_right]. ring.
  - inversion Ht as [|x1 x2 x3 x4 Ht1 Ht2]; subst. inversion Hv as [|x1 x2 Hv1 Hv2]; subst.
    destruct Ho as (EL & EJ & EP & org & HS). destruct Ht1 as (Tb & Ta). destruct Hv1 as (Hl & Hexp & Hpot). cbn [fst snd] in *.
    cbn [fold_left]. rewrite bind_ok.
    destruct (part_1_ok t1 A B C LA LB oA oB la lb ca cb HA HB HLA HLB pot s (oc_l o) org (oc_prims o) (cart (oc_l o)) (ta o) (tb o) out szs f HS Hl Tb Ta Hf) as (out1 & E1 & O1 & F1).
    rewrite E1. destruct (IH out1 _ Ht2 Hv2 F1) as (out2 & E2 & O2 & F2). exists out2. split; [exact E2|]. split; [eapply out4_trans; eassumption|].
    eapply four_ext; [|exact F2]. intros k i j _ _ _. cbv beta. rewrite lsum_cons. rewrite (arep_factor_w pot o EJ), (esop_factor_w pot o EJ). unfold first_o, cSa, cSb, cUa, cUb. ring.
Qed.

Lemma fold_second_in p o ocs os out szs f : oc_is cart p o -> oc_valid o -> Forall2 (oc_is cart) ocs os -> List.Forall oc_valid os -> four out szs na nb f ->
  exists out', fold_left (fun (r : res mats) '(pot2, nlj2) => let* out := r in outercore_part_2 A B C (fst p) (snd p) pot2 nlj2 out) ocs (Ok out) = Ok out' /\ out4 (na * nb) out out' /\
    four out' szs na nb (fun k i j => f k i j + lsum (fun o' => second_o o o' k i j) os).
Proof.
  intros Hp Hvo HO. revert out f. induction HO as [|[pot s] o' ocs os Ho HO IH]; intros out f Hv Hf.
  - exists out. split; [reflexivity|]. split; [apply out4_refl|]. eapply four_ext; [|exact Hf]. intros k i j _ _ _. unfold lsum. cbn [fold_right]. ring.
  - inversion Hv as [|x1 x2 Hv1 Hv2]; subst. cbn [fold_left]. rewrite bind_ok.
    assert (Step : exists out1, outercore_part_2 A B C (fst p) (snd p) pot s out = Ok out1 /\ out4 (na * nb) out out1 /\ four out1 szs na nb (fun k i j => f k i j + second_o o o' k i j)).
    { destruct Hp as (EL & EJ & EP & org & HS). destruct Ho as (EL' & EJ' & EP' & org' & HS'). cbn [fst snd] in *. unfold second_o, same_ljb.
      destruct Hvo as (Hl & Hexp & Hpot). destruct Hv1 as (Hl' & Hexp' & Hpot').
      destruct (Nat.eqb_spec (oc_l o) (oc_l o')) as [El|Nl]; cbn [andb].
      2:{ exists out. split; [apply part_2_skip; left; lia|]. split; [apply out4_refl|]. eapply four_ext; [|exact Hf]. intros; ring. }
      destruct (Z.eqb_spec (oc_J o) (oc_J o')) as [Ej|Nj]; cbn [andb].
      2:{ exists out. split; [apply part_2_skip; right; lia|]. split; [apply out4_refl|]. eapply four_ext; [|exact Hf]. intros; ring. }
      rewrite <- El in *. assert (HJ : pv_J (fst p) = pv_J pot) by congruence.
      assert (Hdel : calculate_delta_integral (fst p) (move_shell (snd p) C) pot (move_shell s C) = Ok (cdelta o o')).
      { unfold cdelta. rewrite <- EP, <- EP'. apply delta_ok; try assumption; try lia; try (rewrite EP; assumption); try (rewrite EP'; assumption); try apply HS; apply HS'. }
      destruct (part_2_ok A B C LA LB oA oB la lb ca cb HA HB HLA HLB (fst p) pot (snd p) s (oc_l o) org org' (oc_prims o) (oc_prims o') (cart (oc_l o)) (cdelta o o') out szs f HS HS' Hl EL EL' HJ Hdel Hf) as (out1 & E1 & O1 & F1).
      exists out1. split; [exact E1|]. split; [exact O1|]. eapply four_ext; [|exact F1]. intros k i j _ _ _. cbv beta. rewrite (arep_factor_w (fst p) o EJ), (esop_factor_w (fst p) o EJ). unfold cSa, cSb. rewrite El. reflexivity. }
    destruct Step as (out1 & E1 & O1 & F1). rewrite E1. destruct (IH out1 _ Hv2 F1) as (out2 & E2 & O2 & F2). exists out2. split; [exact E2|]. split; [eapply out4_trans; eassumption|].
    eapply four_ext; [|exact F2]. intros k i j _ _ _. cbv beta. rewrite lsum_cons. ring.
Qed.

Lemma fold_second ocs0 os0 ocs os out szs f : Forall2 (oc_is cart) ocs0 os0 -> List.Forall oc_valid os0 -> Forall2 (oc_is cart) ocs os -> List.Forall oc_valid os -> four out szs na nb f ->
  exists out', fold_left (fun (r : res mats) '(pot1, nlj1) => fold_left (fun (r : res mats) '(pot2, nlj2) => let* out := r in outercore_part_2 A B C pot1 nlj1 pot2 nlj2 out) ocs r) ocs0 (Ok out) = Ok out' /\ out4 (na * nb) out out' /\
    four out' szs na nb (fun k i j => f k i j + lsum (fun o => lsum (fun o' => second_o o o' k i j) os) os0).
Proof.
  intros HO0 Hv0 HO Hv. revert out f Hv0. induction HO0 as [|[pot s] o ocs0 os0 Ho HO0 IH]; intros out f Hv0 Hf.
  - exists out. split; [reflexivity|]. split; [apply out4_refl|]. eapply four_ext; [|exact Hf]. intros k i j _ _ _. unfold lsum. cbn [fold_right]. ring.
  - inversion Hv0 as [|x1 x2 Hv1 Hv2]; subst. cbn [fold_left].
    destruct (fold_second_in (pot, s) o ocs os out szs f Ho Hv1 HO Hv Hf) as (out1 & E1 & O1 & F1). cbn [fst snd] in E1. rewrite E1.
    destruct (IH out1 _ Hv2 F1) as (out2 & E2 & O2 & F2). exists out2. split; [exact E2|]. split; [eapply out4_trans; eassumption|].
    eapply four_ext; [|exact F2]. intros k i j _ _ _. cbv beta. rewrite lsum_cons. ring.
Qed.

(** matrices large enough for the pair of shells *)
Definition fits4 (out : mats) (szs : Z * Z * Z * Z) : Prop :=
  let '(m0, m1, m2, m3) := out in let '(s0, s1, s2, s3) := szs in
  (adims m0 = [s0] /\ (na * nb <= s0)%Z) /\ (adims m1 = [s1] /\ (na * nb <= s1)%Z) /\ (adims m2 = [s2] /\ (na * nb <= s2)%Z) /\ (adims m3 = [s3] /\ (na * nb <= s3)%Z).

Lemma memset_out M sz : adims M = [sz] -> (na * nb <= sz)%Z ->
  exists M', memset0 (na * nb) M = Ok M' /\ ismat M' sz na nb (fun _ _ => 0) /\ outside (na * nb) M M'.
Proof.
  intros D Hsz. destruct (sizes_pos A B LA LB oA oB la lb ca cb HA HB) as (Na & Nb). fold na nb in Na, Nb.
  destruct (memset_mat M sz na nb D Na Nb Hsz) as (M' & E & F). exists M'. split; [exact E|]. split; [exact F|].
  destruct (memset0_get (na * nb) sz M D ltac:(nia)) as (M2 & E2 & _ & _ & O). rewrite E in E2. injection E2 as <-. intros ix Hix. apply O. intros k Hk ->. apply Hix. eauto.
Qed.

Lemma main_ok ocs os out szs : Forall2 (oc_is cart) ocs os -> Forall2 (oc_t1 t1 A B C ta tb) ocs os -> List.Forall oc_valid os -> fits4 out szs ->
  exists out', outercore_potential_integrals t1 A B C ocs out = Ok (out', map (fun '(pot, s) => (pot, move_shell s C)) ocs) /\ out4 (na * nb) out out' /\
    four out' szs na nb (fun k i j => lsum (fun o => first_o o k i j) os + lsum (fun o => lsum (fun o' => second_o o o' k i j) os) os).
Proof.
  intros HO Ht Hv Hf. destruct out as [[[m0 m1] m2] m3], szs as [[[s0 s1] s2] s3]. destruct Hf as ((D0 & B0) & (D1 & B1) & (D2 & B2) & (D3 & B3)).
  unfold outercore_potential_integrals. fold na nb. cbv zeta.
  destruct (memset_out m0 s0 D0 B0) as (n0 & -> & F0 & O0). destruct (memset_out m1 s1 D1 B1) as (n1 & -> & F1 & O1). destruct (memset_out m2 s2 D2 B2) as (n2 & -> & F2 & O2). destruct (memset_out m3 s3 D3 B3) as (n3 & -> & F3 & O3).
  rewrite !bind_ok. set (ocs' := map _ ocs).
  assert (HO' : Forall2 (oc_is cart) ocs' os).
  { unfold ocs'. clear -HO. induction HO as [|[pot s] o ocs os Ho HO IH]; [constructor|]. constructor; [|exact IH]. destruct Ho as (E1 & E2 & E3 & org & HS).
    split; [exact E1|]. split; [exact E2|]. split; [exact E3|]. exists C. exact (moved _ _ _ C _ _ HS). }
  assert (Ht' : Forall2 (oc_t1 t1 A B C ta tb) ocs' os).
  { unfold ocs'. clear -Ht. induction Ht as [|[pot s] o ocs os Ho HO IH]; [constructor|]. constructor; [exact Ho|exact IH]. }
  assert (F : four (n0, n1, n2, n3) (s0, s1, s2, s3) na nb (fun _ _ _ => 0)) by (exact (conj F0 (conj F1 (conj F2 F3)))).
  destruct (fold_first ocs' os _ _ _ HO' Ht' Hv F) as (out1 & E1 & P1 & G1). 
  destruct (fold_second ocs' os ocs' os out1 _ _ HO' Hv HO' Hv G1) as (out2 & E2 & P2 & G2).
  exists out2. split; [refine (eq_trans (f_equal (fun x => bind x _) E1) _); rewrite bind_ok; refine (eq_trans (f_equal (fun x => bind x _) E2) _); reflexivity|]. split.
  - eapply out4_trans; [|eapply out4_trans; [exact P1|exact P2]]. exact (conj O0 (conj O1 (conj O2 O3))).
  - eapply four_ext; [|exact G2]. intros k i j _ _ _. cbv beta. ring.
Qed.
End Main.
