(** * Concrete operators and shells meeting the hypotheses of the GRPP theorems *)

From Coq Require Import ZArith List Lia Bool Reals Lra Permutation.
From Coquelicot Require Import Coquelicot.
From Verif Require Import Base Loops Sums CartModel CartProofs HeapModel HeapProofs HeapSpec HeapGrpp OneElModel OneElProofs OneElPairs OneElSpec OneElThms
  GaussProd OneElInt LmatModel LmatProofs NumSpec UtilProofs NucPotSpec NucPot GaussMoment RadialModel RadialTables HeapShrink SphModel SphSpec SphProofs SphThms OvGradModel OvDeriv OvGradProofs OvGradThms OutercoreModel OutercoreProofs OutercoreRadial OutercoreSpec OutercoreMain OutercoreThms
  MmdModel MmdSpec MmdMain MmdThms MmdUser MmdNuc MmdOuter GrppModel GrppFull GrppHeap GrppGrad GrppGrad2 GrppThms GrppGrad3 GrppOver GrppTerm GrppTermGrad GrppLocal GrppOc.
Import ListNotations.
Open Scope Z_scope.

(** routines for the examples: the local potential is integrated by the routine of the library, the
    averaged and spin-orbit potentials are treated as local ones *)
Definition stand_in (daw : R -> res R) : routines :=
  mkRt true (type1_integrals daw true) (fun A B C U => type1_integrals daw true A B C (Some U))
    (fun A B C U '(x, y, z) =>
       let* x := type1_integrals daw true A B C (Some U) x in
       let* y := type1_integrals daw true A B C (Some U) y in
       let* z := type1_integrals daw true A B C (Some U) z in Ok (x, y, z)).

(** a potential in the heap *)
Lemma pot_exists h L J prims : heap_wf h -> exists p h', heap_wf h' /\ keeps h h' /\ view_pot h' p = Ok (mkVPot L J prims).
Proof.
  intros W.
  destruct (halloc h (OInts (map (fun t => fst (fst t)) prims))) as [p1 h1] eqn:E1. destruct (halloc_wf _ _ _ _ W E1) as (W1 & B1 & K1).
  destruct (halloc h1 (ODbls (map (fun t => snd (fst t)) prims))) as [p2 h2] eqn:E2. destruct (halloc_wf _ _ _ _ W1 E2) as (W2 & B2 & K2).
  destruct (halloc h2 (ODbls (map snd prims))) as [p3 h3] eqn:E3. destruct (halloc_wf _ _ _ _ W2 E3) as (W3 & B3 & K3).
  destruct (halloc h3 (OPot (mkPot L J (Z.of_nat (length prims)) p1 p2 p3))) as [p h4] eqn:E4. destruct (halloc_wf _ _ _ _ W3 E4) as (W4 & B4 & K4).
  exists p, h4. split; [exact W4|]. split; [intros q o Hq; apply K4, K3, K2, K1, Hq|].
  assert (Ld : forall q o, hblk h4 q = Some o -> hload h4 q = Ok o).
  { intros q o Hq. unfold hload. destruct W4 as (_ & Wn). pose proof (Wn q o Hq). rewrite Hq. destruct (Z.eqb_spec q 0); [lia|reflexivity]. }
  unfold view_pot, load_pot. rewrite (Ld p _ B4), !bind_ok. cbn [pot_powers pot_coeffs pot_alpha pot_num pot_L pot_J].
  rewrite (Ld p1 _ (K4 _ _ (K3 _ _ (K2 _ _ B1)))), bind_ok, (Ld p2 _ (K4 _ _ (K3 _ _ B2))), bind_ok, (Ld p3 _ (K4 _ _ B3)), bind_ok. cbv zeta. rewrite !map_length, Nat2Z.id, Nat.leb_refl. cbn [andb]. f_equal. f_equal.
  rewrite firstn_all2.
  - induction prims as [|[[n c] a] prims IH]; [reflexivity|]. cbn. f_equal. clear -prims. induction prims as [|[[n c] a] prims IH]; [reflexivity|]. cbn. f_equal. exact IH.
  - rewrite !combine_length, !map_length. lia.
Qed.

Lemma shell_ptr_neq h p q v w ca cb : std_shell h p v ca -> std_shell h q w cb -> v_origin v <> v_origin w -> p <> q.
Proof.
  intros ((s & lc & la & B1 & _ & _ & _ & _ & _ & _ & _ & _ & O1 & _) & _) ((s' & lc' & la' & B2 & _ & _ & _ & _ & _ & _ & _ & _ & O2 & _) & _) N E. subst q. rewrite B1 in B2. injection B2 as <-. congruence.
Qed.

Definition wC : R * R * R := (0, 0, 0)%R.
Definition wU : vpot := mkVPot 1 3 [(2, 3%R, (1 / 4)%R); (2, (-1)%R, 2%R)].
Definition wO : oc_data := mkOc 1 3 [(2, 3%R, (1 / 4)%R); (2, (-1)%R, 2%R)] [(1, 3)%R].

(** a p shell at A, an s shell at B, an outercore p shell somewhere, a potential and two operators at C:
    one with a local potential only, one with a local, an averaged and a spin-orbit potential *)
Definition scene (h : heap) (pA pB pS u g g3 : Z) (vA vB : sview) (ca cb : list (Z * Z * Z)) (S0 : vshell) : Prop :=
  heap_wf h /\ std_shell h pA vA ca /\ std_shell h pB vB cb /\ pA <> pS /\ pB <> pS /\
  v_L vA = 1 /\ v_origin vA = (0, 0, 1)%R /\ v_prims vA = [(1, 2)%R; ((-1 / 2)%R, 1%R)] /\ v_L vB = 0 /\ v_origin vB = (1, 0, 0)%R /\ v_prims vB = [(1, 1)%R] /\
  view_pot h u = Ok wU /\ view_shell h pS = Ok S0 /\ (exists o, vshell_is S0 1 o [(1, 3)%R] (canon 1)) /\
  grpp_at h g (only_local wU) [] /\ grpp_at h g3 (mkGv (Some wU) [wU] [wU] []) [].

Lemma scene_exists : exists h pA pB pS u g g3 vA vB ca cb S0, scene h pA pB pS u g g3 vA vB ca cb S0.
Proof.
  destruct (shells_exist [(1, (0, 0, 1)%R, [(1, 2)%R; ((-1 / 2)%R, 1%R)]); (0, (1, 0, 0)%R, [(1, 1)%R]); (1, (5, 5, 5)%R, [(1, 3)%R])]) as (h & ps & W & F).
  { intros L o pr [E | [E | [E | []]]]; injection E as <- <- <-; lia. }
  inversion F as [|? pA ? ? HA F1]; subst. inversion F1 as [|? pB ? ? HB F2]; subst. inversion F2 as [|? pS ? ? HS F3]; subst.
  destruct HA as (vA & ca & SA & LA & OA & PA). destruct HB as (vB & cb & SB & LB & OB & PB). destruct HS as (vS & cs & SS & LS & OS & PS).
  destruct (pot_exists h 1 3 (pv_prims wU) W) as (u & h1 & W1 & K1 & EU).
  destruct (halloc h1 (OGrpp (mkGrpp 0 0 0 u 0 0 0 0))) as [g h2] eqn:E2. destruct (halloc_wf _ _ _ _ W1 E2) as (W2 & B2 & K2).
  destruct (halloc h2 (OPtrs [u])) as [q h3] eqn:E3. destruct (halloc_wf _ _ _ _ W2 E3) as (W3 & B3 & K3).
  destruct (halloc h3 (OGrpp (mkGrpp 1 1 0 u q q 0 0))) as [g3 h4] eqn:E4. destruct (halloc_wf _ _ _ _ W3 E4) as (W4 & B4 & K4).
  assert (K : keeps h h4) by (intros a o Hq; apply K4, K3, K2, K1, Hq).
  assert (EU4 : view_pot h4 u = Ok wU) by (eapply view_keeps; [|exact EU]; intros a o Hq; apply K4, K3, K2, Hq).
  pose proof (std_old _ _ _ _ _ K SA) as SA4. pose proof (std_old _ _ _ _ _ K SB) as SB4. pose proof (std_old _ _ _ _ _ K SS) as SS4.
  destruct (std_view h4 pS vS cs W4 SS4) as (S0 & ES & VS & _). rewrite (std_canon _ _ _ _ SS4), LS, PS in VS.
  exists h4, pA, pB, pS, u, g, g3, vA, vB, ca, cb, S0. unfold scene. repeat (split; [assumption || idtac|]).
  - eapply shell_ptr_neq; [exact SA|exact SS|]. rewrite OA, OS. intros E. injection E. intros. lra.
  - eapply shell_ptr_neq; [exact SB|exact SS|]. rewrite OB, OS. intros E. injection E. intros. lra.
  - eexists. exact VS.
  - exists (mkGrpp 0 0 0 u 0 0 0 0), [], [], []. split; [apply K4, K3; exact B2|]. cbn [only_local gv_local gv_arep gv_esop gv_oc g_UL g_n_arep g_n_esop g_n_oc map]. split; [exact EU4|].
    repeat split; try constructor; reflexivity.
  - exists (mkGrpp 1 1 0 u q q 0 0), [u], [u], []. split; [exact B4|]. cbn [gv_local gv_arep gv_esop gv_oc g_UL g_n_arep g_n_esop g_n_oc g_Uarep g_Uesop map]. split; [exact EU4|].
    assert (Pt : ptrs_at h4 q [u]) by (right; exists []; apply K4; exact B3).
    split; [reflexivity|]. split; [exact Pt|]. split; [constructor; [exact EU4|constructor]|]. split; [reflexivity|]. split; [exact Pt|]. split; [constructor; [exact EU4|constructor]|].
    repeat split; try constructor; reflexivity.
Qed.

Section Facts.
  Variables (h : heap) (pA pB pS u g g3 : Z) (vA vB : sview) (ca cb : list (Z * Z * Z)) (S0 : vshell) (daw : R -> res R).
  Hypothesis Sc : scene h pA pB pS u g g3 vA vB ca cb S0.

  Lemma sc_exps : exps_pos vA /\ exps_pos vB.
  Proof.
    destruct Sc as (_ & _ & _ & _ & _ & _ & _ & PA & _ & _ & PB & _). split; intros c a; [rewrite PA; intros [E | [E | []]]|rewrite PB; intros [E | []]]; injection E as <- <-; lra.
  Qed.

  Lemma sc_significant : significant vA /\ significant vB.
  Proof.
    destruct Sc as (_ & _ & _ & _ & _ & _ & _ & PA & _ & _ & PB & _).
    assert (Q : forall a, (1 <= a)%R -> (1 <= sqrt a)%R) by (intros a Ha; rewrite <- sqrt_1; apply sqrt_le_1; lra).
    split; intros c a; [rewrite PA; intros [E | [E | []]]|rewrite PB; intros [E | []]]; injection E as <- <-; unfold Rabs; destruct (Rcase_abs _); try lra;
      [pose proof (Q 2%R ltac:(lra))|pose proof (Q 1%R ltac:(lra))|pose proof (Q 1%R ltac:(lra))]; lra.
  Qed.

  Lemma wU_gaussian : gaussian_terms (pv_prims wU).
  Proof. intros n cf al [E | [E | []]]; injection E as <- <- <-; (split; [reflexivity|lra]). Qed.

  Lemma sc_levels : 0 <= v_L vA <= 8 /\ 0 <= v_L vB <= 8.
  Proof. destruct Sc as (_ & _ & _ & _ & _ & -> & _ & _ & -> & _). lia. Qed.

  Lemma sc_within : around (fun x y => within daw x y wC (pv_prims wU) 0) vA vB.
  Proof.
    destruct sc_exps as (XA & XB). eapply around_impl; [|exact (around_exps _ _ XA XB)]. intros x y (Px & Py) n cf al Hin. destruct (wU_gaussian _ _ _ Hin) as (-> & Hal). split; [lia|].
    intros cA aA cB aB I1 I2. apply kept_in in I1, I2. pose proof (Px _ _ I1). pose proof (Py _ _ I2). split; [lra|]. split; [apply Rle_refl|]. left. reflexivity.
  Qed.

  Lemma sc_accurate : around (accurate1 (local_V wC (pv_prims wU)) (fun A B => type1_integrals daw true A B wC (Some wU)) 0) vA vB.
  Proof.
    destruct sc_exps as (XA & XB). destruct sc_significant as (YA & YB). destruct sc_levels.
    apply own_around with 0%R; try assumption; [apply significant_keeps; assumption|apply Rle_refl|apply sc_within|].
    eapply around_impl; [|exact sc_within]. intros x y _ cA cB _ _. rewrite Rmult_0_l. apply Rle_refl.
  Qed.

  Lemma sc_accurate3 : around (accurate3 (fun _ => local_V wC (pv_prims wU)) (fun A B => rt_so (stand_in daw) A B wC wU) 0) vA vB.
  Proof.
    eapply around_impl; [|exact sc_accurate]. intros x y (f & G & Q). exists (fun _ => f). split; [|intros k _; exact Q].
    intros A B HA HB M0 M1 M2 s0 s1 s2 D0 D1 D2 B0 B1 B2. specialize (G A B HA HB). cbn [rt_so stand_in].
    destruct (G _ _ D0 B0) as (N0 & -> & F0). rewrite bind_ok. destruct (G _ _ D1 B1) as (N1 & -> & F1). rewrite bind_ok. destruct (G _ _ D2 B2) as (N2 & -> & F2). rewrite bind_ok.
    exists N0, N1, N2. auto.
  Qed.

  Lemma sc_null : null_is_zero (stand_in daw).
  Proof. intros A B C NA NB. apply own_null; assumption. Qed.

  Lemma sc_setting : setting (V_scalar (local_V wC (pv_prims wU))) (stand_in daw) h pA pB g (only_local wU) [] wC vA vB ca cb 0.
  Proof.
    destruct Sc as (W & SA & SB & _ & _ & _ & _ & _ & _ & _ & _ & _ & _ & _ & G & _).
    assert (Ac : around (accurate (V_scalar (local_V wC (pv_prims wU))) (stand_in daw) wC (only_local wU) 0) vA vB).
    { eapply around_impl; [|exact sc_accurate]. intros x y. apply (local_accurate _ (stand_in daw)). apply Rle_refl. }
    destruct Ac as (A1 & A2 & A3 & A4). repeat (split; [assumption || reflexivity || (intros [])|]). exact A4.
  Qed.

  Lemma sc_setting0 : setting0 (stand_in daw) h pA pB g (only_local wU) [] wC vA vB ca cb.
  Proof.
    destruct sc_setting as (W & I & SA & SB & G & NA & NB & (f1 & E1 & _) & H2 & (f3 & E3 & _) & H4). repeat (split; [assumption|]).
    split; [exists f1; exact E1|]. split; [intros Hl; destruct (H2 Hl) as (f & E & _); exists f; exact E|]. split; [exists f3; exact E3|]. intros Hl; destruct (H4 Hl) as (f & E & _); exists f; exact E.
  Qed.

  Lemma points_differ P Q : (exists c, 0 <= c < 3 /\ (1 <= Rabs (coord3 P c - coord3 Q c))%R) -> points_are_equal P Q = false.
  Proof.
    intros (c & Hc & H). destruct (points_are_equal P Q) eqn:E; [|reflexivity]. exfalso. destruct P as [[p0 p1] p2], Q as [[q0 q1] q2]. unfold points_are_equal in E. cbn [fst snd] in E.
    repeat match type of E with context [Rlt_dec ?a ?b] => destruct (Rlt_dec a b); cbn [andb] in E; try discriminate E end.
    assert (Cs : c = 0 \/ c = 1 \/ c = 2) by lia. destruct Cs as [-> | [-> | ->]]; cbn in H; lra.
  Qed.

  Lemma sc_apart D : In D [(0, 0, 1)%R; (1, 0, 0)%R; wC] -> told_apart [v_origin vA; v_origin vB; wC; D].
  Proof.
    destruct Sc as (_ & _ & _ & _ & _ & _ & -> & _ & _ & -> & _). intros HD.
    assert (Q : forall P P', In P [(0, 0, 1)%R; (1, 0, 0)%R; wC] -> In P' [(0, 0, 1)%R; (1, 0, 0)%R; wC] -> points_are_equal P P' = true -> P = P').
    { intros P P' H1 H2. unfold wC in *.
      destruct H1 as [<- | [<- | [<- | []]]]; destruct H2 as [<- | [<- | [<- | []]]]; intros E; try reflexivity; exfalso; rewrite points_differ in E; try discriminate E;
      (exists 0 + exists 2); (split; [lia|]); cbn; unfold Rabs; destruct (Rcase_abs _); lra. }
    intros P P' H1 H2. apply Q; [destruct H1 as [<- | [<- | [<- | [<- | []]]]]|destruct H2 as [<- | [<- | [<- | [<- | []]]]]]; try (cbn; tauto); assumption.
  Qed.

  Lemma sc_sizes : v_size vA = 3 /\ v_size vB = 1.
  Proof. destruct Sc as (_ & SA & SB & _ & _ & LA & _ & _ & LB & _). destruct SA as (_ & _ & -> & _). destruct SB as (_ & _ & -> & _). rewrite LA, LB. split; reflexivity. Qed.

  Lemma sc_room : grad_room vA vB (aconst [3; 3] 7%R, aundef [3; 3], aundef [3; 3], aundef [3; 4]).
  Proof.
    destruct sc_sizes as (EA & EB). apply fits_room; [exists 3|exists 3|exists 3|exists 4]; (split; [reflexivity|rewrite EA, EB; lia]).
  Qed.

  Lemma sc_overread : may_overread (Some (fun _ => 0%R)) vA vB. Proof. left. discriminate. Qed.

  Lemma sc_oc_is : Forall2 (oc_is (fun l => canon (Z.of_nat l))) [(wU, S0)] [wO].
  Proof. destruct Sc as (_ & _ & _ & _ & _ & _ & _ & _ & _ & _ & _ & _ & _ & (o & HS) & _). constructor; [|constructor]. split; [reflexivity|]. split; [reflexivity|]. split; [reflexivity|]. exists o. exact HS. Qed.

  Lemma sc_components l : components_of l (canon (Z.of_nat l)).
  Proof. split; [apply nodup_canon|]. intros r s t. apply in_canon. Qed.

  Lemma sc_oc_valid : List.Forall oc_valid [wO].
  Proof.
    constructor; [|constructor]. split; [cbn; lia|]. split; [intros c a [E | []]; injection E as <- <-; lra|].
    intros n c z [E | [E | []]]; injection E as <- <- <-; cbn; repeat split; try lia; lra.
  Qed.

  Lemma sc_oc_gaussian : forall o, In o [wO] -> gaussian_terms (oc_pot o) /\ none_negligible (oc_prims o).
  Proof. intros o [<- | []]. split; [exact wU_gaussian|]. intros c a [E | []]. injection E as <- <-. rewrite Rabs_R1. lra. Qed.

  Lemma sc_components_values : exists A B v1 v2 v3 v4, view_shell h pA = Ok A /\ view_shell h pB = Ok B /\ component_values (stand_in daw) A B wC (mkGv (Some wU) [wU] [wU] []) v1 v2 v3 v4.
  Proof.
    destruct Sc as (W & SA & SB & _ & _ & _ & _ & _ & _ & _ & _ & _). destruct (std_view h pA vA ca W SA) as (A & EA & VA & _). destruct (std_view h pB vB cb W SB) as (B & EB & VB & _).
    rewrite (std_canon _ _ _ _ SA) in VA. rewrite (std_canon _ _ _ _ SB) in VB. destruct sc_levels. destruct sc_exps as (Px & Py).
    assert (Hw : within daw vA vB wC (pv_prims wU) 0).
    { intros n cf al Hin. destruct (wU_gaussian _ _ _ Hin) as (-> & Hal). split; [lia|].
      intros cA aA cB aB I1 I2. apply kept_in in I1, I2. pose proof (Px _ _ I1). pose proof (Py _ _ I2). split; [lra|]. split; [apply Rle_refl|]. left. reflexivity. }
    destruct (type1_value daw A B vA vB wC wU 0 VA VB ltac:(lia) ltac:(lia) (Rle_refl 0) Hw) as (f & G).
    exists A, B, f, (fun _ => f), (fun _ _ => f), (fun _ _ _ => 0%R). split; [exact EA|]. split; [exact EB|]. split; [exact G|]. split; [intros U [<- | []]; exact G|]. split.
    - intros U [<- | []] M0 M1 M2 s0 s1 s2 D0 D1 D2 B0 B1 B2. cbn [rt_so stand_in].
      destruct (G _ _ D0 B0) as (N0 & -> & F0). rewrite bind_ok. destruct (G _ _ D1 B1) as (N1 & -> & F1). rewrite bind_ok. destruct (G _ _ D2 B2) as (N2 & -> & F2). rewrite bind_ok.
      exists N0, N1, N2. auto.
    - apply oc_none; [exact (shell_size _ _ VA)|exact (shell_size _ _ VB)].
  Qed.
End Facts.

(** ** The gradient as a sum of bra and ket derivatives *)
Lemma gradient_parts V rt h pA pB g gv ocp C vA vB ca cb e : bilinear V -> setting V rt h pA pB g gv ocp C vA vB ca cb e ->
  exists bra ket : Z -> Z -> nat -> nat -> R,
    (forall k, -1 <= k < 3 -> deriv_close (V k) vA vB ca cb e (bra k) (ket k)) /\
    forall ord oob h1 D grad, may_overread oob vA vB -> reached C ocp h h1 -> told_apart [v_origin vA; v_origin vB; C; D] -> grad_room vA vB grad ->
      exists h2 grad', full_grpp_integrals_gradient ord oob rt h1 pA pB g C D grad = Ok (h2, grad') /\ reached C ocp h h2 /\ only_grad4 grad grad' vA vB /\
        forall k, -1 <= k < 3 -> holds_gradient (mat_k grad' k) vA vB ca cb C D (bra k) (ket k).
Proof.
  intros BV S. destruct (gradient_thm V rt h pA pB g gv ocp C vA vB ca cb e BV S) as (bra & ket & H1 & H2). exists bra, ket. split.
  - intros k Hk c i j cA cB Hc Hi Hj. apply H1; assumption.
  - intros ord oob h1 D grad Ho Hr Ht Hg. destruct (H2 ord oob h1 D grad Ho Hr Ht Hg) as (h2 & grad' & E & R2 & O & Q). exists h2, grad'. split; [exact E|]. split; [exact R2|]. split; [exact O|].
    intros k Hk c i j cA cB Hc Hi Hj. exact (Q k c i j cA cB Hk Hc Hi Hj).
Qed.

(** ** A read outside a matrix *)
Lemma overread_refuted : exists ord rt h pA pB g gv ocp C vA vB ca cb D grad,
  setting0 rt h pA pB g gv ocp C vA vB ca cb /\ told_apart [v_origin vA; v_origin vB; C; D] /\ grad_room vA vB grad /\ v_L vA = 1 /\ v_L vB = 0 /\
  full_grpp_integrals_gradient ord None rt h pA pB g C D grad = Fail OutOfBounds.
Proof.
  destruct scene_exists as (h & pA & pB & pS & u & g & g3 & vA & vB & ca & cb & S0 & Sc). set (daw := fun _ : R => Ok 0%R).
  pose proof (sc_setting0 h pA pB pS u g g3 vA vB ca cb S0 daw Sc) as S. pose proof (sc_apart h pA pB pS u g g3 vA vB ca cb S0 Sc (0, 0, 1)%R (or_introl eq_refl)) as T.
  pose proof (sc_room h pA pB pS u g g3 vA vB ca cb S0 Sc) as Rm. pose proof Sc as (_ & _ & _ & _ & _ & LA & OA & _ & LB & _).
  exists OrderDirac, (stand_in daw), h, pA, pB, g, (only_local wU), [], wC, vA, vB, ca, cb, (0, 0, 1)%R. eexists. split; [exact S|]. split; [exact T|]. split; [exact Rm|]. split; [exact LA|]. split; [exact LB|].
  apply (checked_thm OrderDirac (stand_in daw) h pA pB g (only_local wU) [] wC vA vB ca cb (0, 0, 1)%R _ S T Rm). left. split; [lia|]. unfold one_at. rewrite OA.
  rewrite points_refl. rewrite (points_differ wC (0, 0, 1)%R); [discriminate|]. exists 2. split; [lia|]. cbn. unfold Rabs. destruct (Rcase_abs _); lra.
Qed.
