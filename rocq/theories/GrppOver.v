(** * The reads of the GRPP gradient outside the matrices (C31) *)

From Coq Require Import ZArith List Lia Bool Reals Lra Permutation.
From Coquelicot Require Import Coquelicot.
From Verif Require Import Base Loops Sums CartModel CartProofs HeapModel HeapProofs HeapSpec OneElModel OneElProofs OneElPairs OneElSpec OneElThms
  GaussProd OneElInt SphProofs LmatModel UtilProofs OvGradModel OvDeriv OvGradProofs OvGradThms OutercoreModel OutercoreProofs OutercoreMain OutercoreThms GrppModel GrppFull GrppHeap GrppGrad GrppGrad2 GrppThms GrppGrad3.
Import ListNotations.
Open Scope Z_scope.

Lemma cloop_fail ord (bra : bool) h sA sB LA LB down up sd su fu fd f grad szs :
  heap_wf h -> 0 <= LA -> 0 <= LB ->
  hblk h (sh_cart_list sA) = Some (OInts (flat3 (canon LA))) -> hblk h (sh_cart_list sB) = Some (OInts (flat3 (canon LB))) ->
  sh_cart_size sA = n_cart LA -> sh_cart_size sB = n_cart LB ->
  su = n_cart ((if bra then LA else LB) + 1) ->
  four_exact up (if bra then su else n_cart LA) (if bra then n_cart LB else su) fu ->
  match down with
  | None => (if bra then LA else LB) = 0 /\ sd = 0
  | Some D => 0 < (if bra then LA else LB) /\ sd = n_cart ((if bra then LA else LB) - 1) /\ four_exact D (if bra then sd else n_cart LA) (if bra then n_cart LB else sd) fd
  end ->
  0 < (if bra then LA else LB) -> dims4 grad szs -> min4 (n_cart LA * n_cart LB) szs -> full_block (n_cart LA * n_cart LB) grad ->
  for_range 0 3 (fun icoord => for_range 0 (sh_cart_size sA) (fun i => for_range 0 (sh_cart_size sB) (fun j =>
      contribution_body ord None bra (0 <? (if bra then LA else LB)) h sA sB down up sd su f icoord i j))) grad = Fail OutOfBounds.
Proof.
  intros W HLA HLB HA HB ZA ZB Hsu Hup Hdn HLp D4 M4 Fl. rewrite ZA, ZB.
  pose proof (length_canon LA ltac:(lia)) as NA. pose proof (length_canon LB ltac:(lia)) as NB.
  assert (PA : 0 < n_cart LA) by (pose proof (n_cart_2 LA ltac:(lia)); nia). assert (PB : 0 < n_cart LB) by (pose proof (n_cart_2 LB ltac:(lia)); nia).
  set (Inv := fun gr : mats => dims4 gr szs /\ full_block (n_cart LA * n_cart LB) gr).
  set (body := contribution_body ord None bra (0 <? (if bra then LA else LB)) h sA sB down up sd su f).
  assert (B : forall k i j gr, 0 <= k < 3 -> 0 <= i < n_cart LA -> 0 <= j < n_cart LB -> Inv gr ->
     ((exists gr', body k i j gr = Ok gr' /\ Inv gr') \/ body k i j gr = Fail OutOfBounds) /\
     (forall cA cB, nth_error (canon LA) (Z.to_nat i) = Some cA -> nth_error (canon LB) (Z.to_nat j) = Some cB ->
        expo (if bra then cA else cB) k = 0 -> (bra = true \/ i = n_cart LA - 1) -> body k i j gr = Fail OutOfBounds)).
  { intros k i j gr Hk Hi Hj (Dg & Fg).
    destruct (nth_error (canon LA) (Z.to_nat i)) as [cA|] eqn:Ei; [|apply nth_error_None in Ei; lia].
    destruct (nth_error (canon LB) (Z.to_nat j)) as [cB|] eqn:Ej; [|apply nth_error_None in Ej; lia].
    pose proof (in_range_idx i j _ _ Hi Hj) as Hx. destruct (Fg k _ Hk Hx) as (t & Et).
    assert (Et' : get4 gr [k; Z.of_nat (Z.to_nat i) * n_cart LB + Z.of_nat (Z.to_nat j)] = Ok t) by (rewrite !Z2Nat.id by lia; exact Et).
    assert (Fail1 : expo (if bra then cA else cB) k = 0 -> (bra = true \/ i = n_cart LA - 1) -> body k i j gr = Fail OutOfBounds).
    { intros N0 Ho. pose proof (cbody_fail ord bra h sA sB LA LB down up sd su fu fd f W HLA HLB HA HB ZB Hsu Hup Hdn k (Z.to_nat i) (Z.to_nat j) cA cB gr szs t Dg Hk Ei Ej Et' HLp N0 ltac:(rewrite Z2Nat.id by lia; exact Ho)) as Q.
      rewrite !Z2Nat.id in Q by lia. exact Q. }
    split; [|intros cA' cB' Q1 Q2 N0 Ho; injection Q1 as <-; injection Q2 as <-; apply Fail1; assumption].
    assert (Dec : (0 < expo (if bra then cA else cB) k \/ (bra = false /\ Z.of_nat (Z.to_nat i) < n_cart LA - 1)) \/ (expo (if bra then cA else cB) k = 0 /\ (bra = true \/ i = n_cart LA - 1))).
    { assert (0 <= expo (if bra then cA else cB) k).
      { destruct bra; [apply (expo_nonneg LA)|apply (expo_nonneg LB)]; try assumption; eapply nth_error_In; eassumption. }
      rewrite Z2Nat.id by lia. destruct (Z.eq_dec (expo (if bra then cA else cB) k) 0); [|left; left; lia].
      destruct bra; [right; split; [assumption|left; reflexivity]|]. destruct (Z.eq_dec i (n_cart LA - 1)); [right; split; [assumption|right; assumption]|left; right; split; [reflexivity|lia]]. }
    destruct Dec as [Dec|(N0 & Ho)]; [left|right; apply Fail1; assumption].
    destruct (cbody_ok ord bra h sA sB LA LB down up sd su fu fd f W HLA HLB HA HB ZB Hsu Hup Hdn None k (Z.to_nat i) (Z.to_nat j) cA cB gr szs t Dg M4 Hk Ei Ej Et') as (g' & E & D' & V' & A').
    { right. right. exact Dec. }
    rewrite !Z2Nat.id in E, V', A' by lia. exists g'. split; [exact E|]. split; [exact D'|].
    intros c' x' Hc' Hx'. destruct (list_eq_dec Z.eq_dec [c'; x'] [k; i * n_cart LB + j]) as [Eq|Ne]; [rewrite Eq; eauto|].
    rewrite (agree4_get _ _ _ _ A' Ne). apply Fg; assumption. }
  assert (OR1 : forall k i gr, 0 <= k < 3 -> 0 <= i < n_cart LA -> Inv gr ->
     (exists gr', for_range 0 (n_cart LB) (fun j => body k i j) gr = Ok gr' /\ Inv gr') \/ for_range 0 (n_cart LB) (fun j => body k i j) gr = Fail OutOfBounds).
  { intros k i gr Hk Hi Is. apply for_range_ok_or; [exact Is|]. intros j s Hj Is'. apply (B k i j s Hk Hi Hj Is'). }
  assert (Pick : forall L, 0 < L -> exists i, nth_error (canon L) i = Some (0, L, 0) /\ 0 <= Z.of_nat i < n_cart L).
  { intros L HL. assert (Hin : In (0, L, 0) (canon L)) by (apply in_canon; lia). apply In_nth_error in Hin. destruct Hin as (i & Ei). exists i. split; [exact Ei|]. apply (canon_range L i _ ltac:(lia) Ei). }
  apply (for_range_fail_some Inv); [split; assumption| |].
  - intros k st Hk Is. apply for_range_ok_or; [exact Is|]. intros i s Hi Is'. apply OR1; assumption.
  - exists 0. split; [lia|]. intros st Is. apply (for_range_fail_some Inv); [exact Is| |].
    + intros i s Hi Is'. apply OR1; [lia|exact Hi|exact Is'].
    + destruct bra.
      * destruct (Pick LA HLp) as (i & Ei & Hi). exists (Z.of_nat i). split; [exact Hi|]. intros s Is'. apply (for_range_fail_some Inv); [exact Is'| |].
        -- intros j s' Hj Is''. apply (B 0 (Z.of_nat i) j s' ltac:(lia) Hi Hj Is'').
        -- exists 0. split; [lia|]. intros s' Is''. destruct (nth_error (canon LB) (Z.to_nat 0)) as [cB|] eqn:Ej; [|apply nth_error_None in Ej; lia].
           destruct (B 0 (Z.of_nat i) 0 s' ltac:(lia) Hi ltac:(lia) Is'') as (_ & Q). apply (Q (0, LA, 0) cB); [rewrite Nat2Z.id; exact Ei|exact Ej|reflexivity|left; reflexivity].
      * destruct (Pick LB HLp) as (j & Ej & Hj). exists (n_cart LA - 1). split; [lia|]. intros s Is'. apply (for_range_fail_some Inv); [exact Is'| |].
        -- intros j' s' Hj' Is''. apply (B 0 (n_cart LA - 1) j' s' ltac:(lia) ltac:(lia) Hj' Is'').
        -- exists (Z.of_nat j). split; [exact Hj|]. intros s' Is''. destruct (nth_error (canon LA) (Z.to_nat (n_cart LA - 1))) as [cA|] eqn:Ei; [|apply nth_error_None in Ei; lia].
           destruct (B 0 (n_cart LA - 1) (Z.of_nat j) s' ltac:(lia) ltac:(lia) Hj Is'') as (_ & Q). apply (Q cA (0, LB, 0)); [exact Ei|rewrite Nat2Z.id; exact Ej|reflexivity|right; reflexivity].
Qed.

Definition overruns (fa fb : bool) (A B C D : R * R * R) : bool :=
  let AC := points_are_equal A C in let BC := points_are_equal B C in let CB := points_are_equal C B in let AB := points_are_equal A B in
  let AD := points_are_equal A D in let BD := points_are_equal B D in let CD := points_are_equal C D in
  if AC && BC then false
  else if negb AD && negb BD && negb CD then false
  else
    (if negb AC && negb CB && negb AB then (if AD then fa else false) || ((if BD then fb else false) || (if CD then fa || fb else false)) else false) ||
    ((if AB && negb AC then fa || fb else false) ||
     ((if negb AC && CB then fa else false) || (if AC && negb CB then fb else false))).

Lemma overruns_value fa fb A B C D : told_apart [A; B; C; D] ->
  overruns fa fb A B C D = (fa && xorb (points_are_equal A D) (points_are_equal C D)) || (fb && xorb (points_are_equal B D) (points_are_equal C D)).
Proof.
  intros T. unfold overruns.
  assert (IA : In A [A; B; C; D]) by (cbn; tauto). assert (IB : In B [A; B; C; D]) by (cbn; tauto). assert (IC : In C [A; B; C; D]) by (cbn; tauto). assert (ID : In D [A; B; C; D]) by (cbn; tauto).
  rewrite (points_sym C B).
  destruct (points_are_equal A C) eqn:AC; destruct (points_are_equal B C) eqn:BC; cbn [andb negb].
  - apply T in AC, BC; try assumption. subst. rewrite xorb_nilpotent, !andb_false_r. reflexivity.
  - apply T in AC; try assumption. subst. rewrite (points_sym C B), BC, xorb_nilpotent. destruct (points_are_equal C D) eqn:CD; destruct (points_are_equal B D) eqn:BD; destruct fa, fb; cbn [andb orb negb xorb]; try reflexivity;
    apply T in BD, CD; try assumption; subst; rewrite points_refl in BC; discriminate.
  - apply T in BC; try assumption. subst. rewrite AC, xorb_nilpotent. destruct (points_are_equal C D) eqn:CD; destruct (points_are_equal A D) eqn:AD; destruct fa, fb; cbn [andb orb negb xorb]; try reflexivity;
    apply T in AD, CD; try assumption; subst; rewrite points_refl in AC; discriminate.
  - destruct (points_are_equal A B) eqn:AB; cbn [andb negb].
    + apply T in AB; try assumption. subst. destruct (points_are_equal B D) eqn:BD; destruct (points_are_equal C D) eqn:CD; destruct fa, fb; cbn [andb orb negb xorb]; try reflexivity;
      apply T in BD, CD; try assumption; subst; rewrite points_refl in BC; discriminate.
    + destruct (points_are_equal A D) eqn:AD; destruct (points_are_equal B D) eqn:BD; destruct (points_are_equal C D) eqn:CD; destruct fa, fb; cbn [andb orb negb xorb]; try reflexivity.
      all: try (apply T in AD, CD; try assumption; subst; rewrite points_refl in AC; discriminate).
      all: try (apply T in BD, CD; try assumption; subst; rewrite points_refl in BC; discriminate).
      all: try (apply T in AD, BD; try assumption; subst; rewrite points_refl in AB; discriminate).
Qed.

Section Over.
  Variables (ord : cart_order) (rt : routines) (h : heap) (pA pB g : Z) (gv : gview) (ocp : list Z) (C : R * R * R) (vA vB : sview).
  Variables (fuA fdA fuB fdB : Z -> Z -> Z -> R).
  Hypothesis W : heap_wf h.
  Hypothesis I : rt_init rt = true.
  Hypothesis SA : std_shell h pA vA (canon (v_L vA)).
  Hypothesis SB : std_shell h pB vB (canon (v_L vB)).
  Hypothesis G : grpp_at h g gv ocp.
  Hypothesis NA : ~ In pA ocp.
  Hypothesis NB : ~ In pB ocp.
  Hypothesis EuA : evaluates rt C gv (up_view vA) vB fuA.
  Hypothesis EdA : 0 < v_L vA -> evaluates rt C gv (down_view vA) vB fdA.
  Hypothesis EuB : evaluates rt C gv vA (up_view vB) fuB.
  Hypothesis EdB : 0 < v_L vB -> evaluates rt C gv vA (down_view vB) fdB.
  Notation nn := (v_size vA * v_size vB).

  Lemma contr_fail (bra : bool) f h1 grad szs : reached C ocp h h1 -> dims4 grad szs -> min4 nn szs -> full_block nn grad -> 0 < v_L (if bra then vA else vB) ->
    gradient_contribution ord None rt bra h1 pA pB g C f grad = Fail OutOfBounds /\ gradient_diff_contribution ord None rt bra h1 pA pB g C f grad = Fail OutOfBounds.
  Proof.
    intros Rc D4 M4 Fl HLp. pose proof (proj1 Rc) as W1.
    pose proof (reached_std _ _ _ _ _ _ _ Rc SA NA) as SA1. pose proof (reached_std _ _ _ _ _ _ _ Rc SB NB) as SB1.
    destruct (reached_grpp _ _ _ _ _ _ W Rc G) as (gv' & G1 & Hgv).
    pose proof SA as (_ & HLA & ZA & _). pose proof SB as (_ & HLB & ZB & _).
    destruct (diff_gaussian_ok ord rt bra h1 pA pB g gv' ocp C vA vB _ _ (if bra then fuA else fuB) (if bra then fdA else fdB) W1 I SA1 SB1 G1 NA NB)
      as (down & up & sd & su & h2 & E & W2 & V2 & Hsu & Hup & Hdn).
    { apply (evaluates_either _ _ gv _ _ _ _ Hgv). destruct bra; [exact EuA|exact EuB]. }
    { intros Hp. apply (evaluates_either _ _ gv _ _ _ _ Hgv). destruct bra; [exact (EdA Hp)|exact (EdB Hp)]. }
    assert (V2' : forall q, hblk h2 q = hblk (moved_heap C ocp h) q) by (intros q; rewrite V2; apply (reached_moved _ _ _ _ Rc)).
    assert (Rc2 : reached C ocp h h2) by (split; [exact W2|right; exact V2']).
    pose proof (reached_std _ _ _ _ _ _ _ Rc2 SA NA) as SA2. pose proof (reached_std _ _ _ _ _ _ _ Rc2 SB NB) as SB2.
    destruct (std_loads h2 pA vA _ W2 SA2) as (sA & ELA & HsLA & HzA & _ & HcA). destruct (std_loads h2 pB vB _ W2 SB2) as (sB & ELB & HsLB & HzB & _ & HcB).
    unfold gradient_contribution, gradient_diff_contribution. rewrite E. cbn [bind]. rewrite ELA, !bind_ok, ELB, !bind_ok.
    assert (Q0 : (if bra then v_L vA else v_L vB) = v_L (if bra then vA else vB)) by (destruct bra; reflexivity).
    replace (sh_L (if bra then sA else sB)) with (if bra then v_L vA else v_L vB) by (destruct bra; congruence).
    assert (Esd : (0 <? sd) = (0 <? (if bra then v_L vA else v_L vB))).
    { rewrite Q0. destruct down as [M|]; [|destruct Hdn; lia]. destruct Hdn as (Hp & -> & _).
      pose proof (n_cart_2 (v_L (if bra then vA else vB) - 1) ltac:(lia)) as Q1. assert (0 < n_cart (v_L (if bra then vA else vB) - 1)) by nia.
      destruct (Z.ltb_spec 0 (n_cart (v_L (if bra then vA else vB) - 1))), (Z.ltb_spec 0 (v_L (if bra then vA else vB))); lia. }
    rewrite Esd. rewrite ZA, ZB in *.
    rewrite (cloop_fail ord bra h2 sA sB (v_L vA) (v_L vB) down up sd su (if bra then fuA else fuB) (if bra then fdA else fdB) f grad szs W2 HLA HLB HcA HcB HzA HzB).
    - split; reflexivity.
    - rewrite Hsu. destruct bra; reflexivity.
    - exact Hup.
    - clear - Hdn. destruct bra; exact Hdn.
    - rewrite Q0. exact HLp.
    - exact D4.
    - exact M4.
    - exact Fl.
  Qed.

  Notation sof := (sofar h ocp C vA vB fuA fdA fuB fdB).

  Definition res_is grad szs (b : bool) (w : R * R) (m : res (heap * mats)) : Prop :=
    if b then m = Fail OutOfBounds else exists st, m = Ok st /\ sof grad szs w st.

  Lemma step_any grad szs w st (bra : bool) f : min4 nn szs -> sof grad szs w st ->
    let w' := if bra then (fst w + f, snd w)%R else (fst w, snd w + f)%R in
    let b := 0 <? v_L (if bra then vA else vB) in
    res_is grad szs b w' (gradient_contribution ord None rt bra (fst st) pA pB g C f (snd st)) /\
    res_is grad szs b w' (gradient_diff_contribution ord None rt bra (fst st) pA pB g C f (snd st)).
  Proof.
    intros M4 S. cbv zeta. unfold res_is. destruct (Z.ltb_spec 0 (v_L (if bra then vA else vB))) as [Hp|H0].
    - destruct S as (Rc & D & A & Fb & V). apply contr_fail with (szs := szs); assumption.
    - assert (L0 : v_L (if bra then vA else vB) = 0).
      { pose proof SA as (_ & HLA & _). pose proof SB as (_ & HLB & _). destruct bra; lia. }
      destruct S as (Rc & D & A & Fb & V).
      destruct (contr_ok ord None rt h pA pB g gv ocp C vA vB fuA fdA fuB fdB W I SA SB G NA NB EuA EdA EuB EdB bra f (fst st) (snd st) szs Rc D M4 Fb (or_intror L0))
        as (h2 & g2 & E1 & E2 & W2 & V2 & D2 & A2 & F2 & Vg).
      assert (S' : sof grad szs (if bra then (fst w + f, snd w)%R else (fst w, snd w + f)%R) (h2, g2)).
      { split; [split; [exact W2|right; exact V2]|]. split; [exact D2|]. split; [eapply agree4_trans; eassumption|]. split; [exact F2|].
        intros c i j cA cB Hc Hi Hj. cbn [fst snd]. rewrite (Vg c i j cA cB _ Hc Hi Hj (V c i j cA cB Hc Hi Hj)). f_equal. destruct bra; [apply combine_bra|apply combine_ket]. }
      split; exists (h2, g2); split; assumption.
  Qed.

  Theorem checked_gradient D grad szs : dims4 grad szs -> min4 nn szs ->
    res_is grad szs (overruns (0 <? v_L vA) (0 <? v_L vB) (v_origin vA) (v_origin vB) C D) (weights (v_origin vA) (v_origin vB) C D)
      (full_grpp_integrals_gradient ord None rt h pA pB g C D grad).
  Proof.
    intros D4 M4. unfold full_grpp_integrals_gradient.
    destruct (std_loads _ _ _ _ W SA) as (sA & EA & _ & ZA & OA & _). destruct (std_loads _ _ _ _ W SB) as (sB & EB & _ & ZB & OB & _).
    rewrite EA, bind_ok, EB, bind_ok. destruct grad as [[[g0 g1] g2] g3]. rewrite ZA, ZB, OA, OB.
    pose proof (std_size _ _ _ _ SA) as PA. pose proof (std_size _ _ _ _ SB) as PB.
    destruct (clear4 nn g0 g1 g2 g3 szs D4 M4 ltac:(nia)) as (a & b & c & d & Ea & Eb & Ec & Ed & Dc & Ac & Vc).
    rewrite Ea, bind_ok, Eb, bind_ok, Ec, bind_ok, Ed, bind_ok. cbv zeta.
    set (grad := (g0, g1, g2, g3)) in *. set (st0 := (h, (a, b, c, d))).
    assert (S0 : sof grad szs (0, 0)%R st0).
    { split; [split; [exact W|left; reflexivity]|]. split; [exact Dc|]. split; [exact Ac|]. split; [intros k x Hk Hx; exists t0; apply Vc; assumption|].
      intros k i j cA cB Hk Hi Hj.
      assert ((i < length (canon (v_L vA)))%nat) by (apply nth_error_Some; congruence). assert ((j < length (canon (v_L vB)))%nat) by (apply nth_error_Some; congruence).
      cbn [snd st0]. rewrite Vc; [|exact Hk|nia].
      f_equal. unfold combine, mk4, t0. cbn [fst snd]. f_equal; [f_equal; [f_equal|]|]; ring. }
    assert (ST := fun w st bra f S => step_any grad szs w st bra f M4 S).
    unfold weights, overruns. generalize st0 S0. clear st0 S0 Ea Eb Ec Ed Dc Ac Vc a b c d.
    set (AC := points_are_equal (v_origin vA) C). set (BC := points_are_equal (v_origin vB) C). set (CB := points_are_equal C (v_origin vB)).
    set (AB := points_are_equal (v_origin vA) (v_origin vB)). set (AD := points_are_equal (v_origin vA) D). set (BD := points_are_equal (v_origin vB) D). set (CD := points_are_equal C D).
    set (fa := 0 <? v_L vA) in *. set (fb := 0 <? v_L vB) in *.
    intros st S0. cbv zeta.
    assert (RET : forall w s, sof grad szs w s -> res_is grad szs false w (Ok s)) by (intros w s S; exists s; split; [reflexivity|exact S]).
    destruct (AC && BC); [apply RET; exact S0|].
    destruct (negb AD && negb BD && negb CD); [apply RET; exact S0|].
    assert (BND : forall m k w w' b b', res_is grad szs b w m -> (forall st', sof grad szs w st' -> res_is grad szs b' w' (k st')) -> res_is grad szs (b || b') w' (bind m k)).
    { intros m k w w' b b' Hm K. destruct b; cbn [orb res_is] in *; [rewrite Hm; reflexivity|]. destruct Hm as (s & -> & S). rewrite bind_ok. apply K. exact S. }
    assert (CON : forall w s bra f, sof grad szs w s -> res_is grad szs (if (bra : bool) then fa else fb) (if (bra : bool) then (fst w + f, snd w)%R else (fst w, snd w + f)%R) (gradient_contribution ord None rt bra (fst s) pA pB g C f (snd s))).
    { intros w s bra f S. destruct (ST w s bra f S) as (Q & _). destruct bra; exact Q. }
    assert (DCON : forall w s bra f, sof grad szs w s -> res_is grad szs (if (bra : bool) then fa else fb) (if (bra : bool) then (fst w + f, snd w)%R else (fst w, snd w + f)%R) (gradient_diff_contribution ord None rt bra (fst s) pA pB g C f (snd s))).
    { intros w s bra f S. destruct (ST w s bra f S) as (_ & Q). destruct bra; exact Q. }
    match goal with |- res_is _ _ _ ?w _ =>
      match w with context [if AB && negb AC then _ else ?w1] => pose (u1 := w1); change w1 with u1 end end.
    apply (BND _ _ u1).
    { subst u1. destruct (negb AC && negb CB && negb AB); [|apply RET; exact S0].
      apply (BND _ _ ((if AD then 0 + 1 else 0), 0)%R).
      { destruct AD; [apply (CON (0, 0)%R st true 1%R S0)|apply RET; exact S0]. }
      intros s1 S1. apply (BND _ _ ((if AD then 0 + 1 else 0), (if BD then 0 + 1 else 0))%R).
      { destruct BD; [apply (CON _ s1 false 1%R S1)|apply RET; exact S1]. }
      intros s2 S2. destruct CD; [|apply RET; exact S2].
      eapply BND; [apply (CON _ s2 true (-1)%R S2)|]. intros s3 S3. apply (CON _ s3 false (-1)%R S3). }
    intros s1 S1. clearbody u1.
    match goal with |- res_is _ _ _ ?w _ =>
      match w with context [if negb AC && CB then _ else ?w1] => pose (u2 := w1); change w1 with u2 end end.
    apply (BND _ _ u2).
    { subst u2. destruct (AB && negb AC); [|apply RET; exact S1].
      destruct AD.
      - eapply BND; [apply (DCON _ s1 true 1%R S1)|]. intros s2 S2. apply (DCON _ s2 false 1%R S2).
      - eapply BND; [apply (DCON _ s1 true (-1)%R S1)|]. intros s2 S2. apply (DCON _ s2 false (-1)%R S2). }
    intros s2 S2. clearbody u2.
    match goal with |- res_is _ _ _ ?w _ =>
      match w with context [if AC && negb CB then _ else ?w1] => pose (u3 := w1); change w1 with u3 end end.
    apply (BND _ _ u3).
    { subst u3. destruct (negb AC && CB); [|apply RET; exact S2].
      destruct AD; [apply (CON _ s2 true 1%R S2)|apply (CON _ s2 true (-1)%R S2)]. }
    intros s3 S3. clearbody u3.
    destruct (AC && negb CB); [|apply RET; exact S3].
    destruct BD; [apply (CON _ s3 false 1%R S3)|apply (CON _ s3 false (-1)%R S3)].
  Qed.
End Over.

(** ** The checked call *)

(** the full integrals between two shells succeed and depend only on the contents *)
Definition defined (rt : routines) (C : R * R * R) (gv : gview) (vA vB : sview) : Prop := exists f, evaluates rt C gv vA vB f.

Definition setting0 (rt : routines) (h : heap) (pA pB g : Z) (gv : gview) (ocp : list Z) (C : R * R * R) (vA vB : sview) (ca cb : list (Z * Z * Z)) : Prop :=
  heap_wf h /\ rt_init rt = true /\ std_shell h pA vA ca /\ std_shell h pB vB cb /\ grpp_at h g gv ocp /\ ~ In pA ocp /\ ~ In pB ocp /\
  defined rt C gv (up_view vA) vB /\ (0 < v_L vA -> defined rt C gv (down_view vA) vB) /\
  defined rt C gv vA (up_view vB) /\ (0 < v_L vB -> defined rt C gv vA (down_view vB)).

(** exactly one of the two points is D *)
Definition one_at (P Q D : R * R * R) : Prop := points_are_equal P D <> points_are_equal Q D.

Lemma checked_thm ord rt h pA pB g gv ocp C vA vB ca cb D grad :
  setting0 rt h pA pB g gv ocp C vA vB ca cb -> told_apart [v_origin vA; v_origin vB; C; D] -> grad_room vA vB grad ->
  ((0 < v_L vA /\ one_at (v_origin vA) C D) \/ (0 < v_L vB /\ one_at (v_origin vB) C D) -> full_grpp_integrals_gradient ord None rt h pA pB g C D grad = Fail OutOfBounds) /\
  (~ ((0 < v_L vA /\ one_at (v_origin vA) C D) \/ (0 < v_L vB /\ one_at (v_origin vB) C D)) -> exists h' grad', full_grpp_integrals_gradient ord None rt h pA pB g C D grad = Ok (h', grad') /\
     reached C ocp h h' /\ only_grad4 grad grad' vA vB).
Proof.
  intros (W & I & SA & SB & G & NA & NB & (fuA & EuA) & HdA & (fuB & EuB) & HdB) T Rm.
  pose proof (std_canon _ _ _ _ SA) as ->. pose proof (std_canon _ _ _ _ SB) as ->.
  assert (HdA' : exists fdA, 0 < v_L vA -> evaluates rt C gv (down_view vA) vB fdA).
  { destruct (Z_lt_dec 0 (v_L vA)) as [Hp|]; [destruct (HdA Hp) as (fd & Q); exists fd; intros _; exact Q|exists (fun _ _ _ => 0%R); intros; lia]. }
  assert (HdB' : exists fdB, 0 < v_L vB -> evaluates rt C gv vA (down_view vB) fdB).
  { destruct (Z_lt_dec 0 (v_L vB)) as [Hp|]; [destruct (HdB Hp) as (fd & Q); exists fd; intros _; exact Q|exists (fun _ _ _ => 0%R); intros; lia]. }
  destruct HdA' as (fdA & HfA), HdB' as (fdB & HfB). destruct (room_dims _ _ _ Rm) as (szs & D4 & M4).
  pose proof (checked_gradient ord rt h pA pB g gv ocp C vA vB fuA fdA fuB fdB W I SA SB G NA NB EuA HfA EuB HfB D grad szs D4 M4) as Q.
  rewrite (overruns_value _ _ _ _ _ _ T) in Q. unfold one_at.
  assert (X : forall a b : bool, a <> b <-> xorb a b = true) by (intros [|] [|]; cbn [xorb]; split; intros H; congruence || reflexivity).
  destruct ((0 <? v_L vA) && xorb (points_are_equal (v_origin vA) D) (points_are_equal C D) || (0 <? v_L vB) && xorb (points_are_equal (v_origin vB) D) (points_are_equal C D)) eqn:F; unfold res_is in Q.
  - split; [intros _; exact Q|]. intros N. exfalso. apply N. apply orb_true_iff in F. rewrite !andb_true_iff, !Z.ltb_lt, <- !X in F. exact F.
  - split.
    + intros H. exfalso. rewrite !X in H. rewrite <- !Z.ltb_lt, <- !andb_true_iff, <- orb_true_iff in H. congruence.
    + intros _. destruct Q as ([h' g'] & E & Rc & D2 & A2 & _). exists h', g'. split; [exact E|]. split; [exact Rc|]. eapply agree_only; eassumption.
Qed.
