(** * The whole GRPP gradient routine *)

From Coq Require Import ZArith List Lia Bool Reals Lra Permutation.
From Coquelicot Require Import Coquelicot.
From Verif Require Import Base Loops Sums CartModel CartProofs HeapModel HeapProofs HeapSpec OneElModel OneElProofs OneElPairs OneElSpec OneElThms
  GaussProd OneElInt SphProofs LmatModel UtilProofs OvGradModel OvDeriv OvGradProofs OvGradThms OutercoreModel OutercoreProofs OutercoreMain OutercoreThms GrppModel GrppFull GrppHeap GrppGrad.
Import ListNotations.
Open Scope Z_scope.

Definition t0 : t4 := (0, 0, 0, 0)%R.
Definition combine (a : R) (x : Z -> R) (b : R) (y : Z -> R) : t4 := mk4 (fun k => (a * x k + b * y k)%R).

Lemma combine_bra a x b y f : tadd (combine a x b y) f (mk4 x) = combine (a + f) x b y.
Proof. unfold combine, mk4, tadd. f_equal; [f_equal; [f_equal|]|]; ring. Qed.
Lemma combine_ket a x b y f : tadd (combine a x b y) f (mk4 y) = combine a x (b + f) y.
Proof. unfold combine, mk4, tadd. f_equal; [f_equal; [f_equal|]|]; ring. Qed.

(** factors with which the contributions of the bra and of the ket enter *)
Definition weights (A B C D : R * R * R) : R * R :=
  let AC := points_are_equal A C in let BC := points_are_equal B C in let CB := points_are_equal C B in let AB := points_are_equal A B in
  let AD := points_are_equal A D in let BD := points_are_equal B D in let CD := points_are_equal C D in
  if AC && BC then (0, 0)%R
  else if negb AD && negb BD && negb CD then (0, 0)%R
  else
    let w1 := if negb AC && negb CB && negb AB then
        let w := ((if AD then 0 + 1 else 0), (if BD then 0 + 1 else 0))%R in
        if CD then (fst w + - (1), snd w + - (1))%R else w
      else (0, 0)%R in
    let w2 := if AB && negb AC then (if AD then (fst w1 + 1, snd w1 + 1) else (fst w1 + - (1), snd w1 + - (1)))%R else w1 in
    let w3 := if negb AC && CB then (if AD then (fst w2 + 1, snd w2) else (fst w2 + - (1), snd w2))%R else w2 in
    if AC && negb CB then (if BD then (fst w3, snd w3 + 1) else (fst w3, snd w3 + - (1)))%R else w3.

Lemma clear4 n g0 g1 g2 g3 szs : dims4 (g0, g1, g2, g3) szs -> min4 n szs -> 0 <= n ->
  exists a b c d, clear3 n g0 = Ok a /\ clear3 n g1 = Ok b /\ clear3 n g2 = Ok c /\ clear3 n g3 = Ok d /\
    dims4 (a, b, c, d) szs /\ agree4 (out_block n) (g0, g1, g2, g3) (a, b, c, d) /\
    forall k x, 0 <= k < 3 -> 0 <= x < n -> get4 (a, b, c, d) [k; x] = Ok t0.
Proof.
  destruct szs as [[[s0 s1] s2] s3]. intros (D0 & D1 & D2 & D3) (M0 & M1 & M2 & M3) Hn.
  assert (One : forall g s, adims g = [3; s] -> n <= s -> exists a, clear3 n g = Ok a /\ adims a = [3; s] /\ (forall ix, out_block n ix -> aget a ix = aget g ix) /\
     (forall k x, 0 <= k < 3 -> 0 <= x < n -> aget a [k; x] = Ok 0%R)).
  { intros g s Dg Hs. destruct (clear_grad g s n Dg ltac:(lia)) as (a & E & Da & V & O). exists a. split; [exact E|]. split; [congruence|]. split; [|exact V].
    intros ix Ho. destruct ix as [|c [|x [|y ix]]].
    - unfold aget. rewrite Da, Dg. reflexivity.
    - unfold aget. rewrite Da, Dg. cbn [inb]. destruct ((0 <=? c) && (c <? 3)); reflexivity.
    - apply O. intros Q. apply Ho. exists c, x. tauto.
    - unfold aget. rewrite Da, Dg. cbn [inb]. rewrite !andb_false_r. reflexivity. }
  destruct (One g0 s0 D0 M0) as (a & Ea & Da & Aa & Va). destruct (One g1 s1 D1 M1) as (b & Eb & Db & Ab & Vb).
  destruct (One g2 s2 D2 M2) as (c & Ec & Dc & Ac & Vc). destruct (One g3 s3 D3 M3) as (d & Ed & Dd & Ad & Vd).
  exists a, b, c, d. repeat split; try assumption. intros k x Hk Hx. unfold get4, read4. rewrite Va, Vb, Vc, Vd by assumption. reflexivity.
Qed.

Section FullGrad.
  Variables (ord : cart_order) (oob : option (Z -> R)) (rt : routines) (h : heap) (pA pB g : Z) (gv : gview) (ocp : list Z) (C : R * R * R) (vA vB : sview).
  Variables (fuA fdA fuB fdB : Z -> Z -> Z -> R).
  Hypothesis W : heap_wf h.
  Hypothesis I : rt_init rt = true.
  Hypothesis SA : std_shell h pA vA (canon (v_L vA)).
  Hypothesis SB : std_shell h pB vB (canon (v_L vB)).
  Hypothesis G : grpp_at h g gv ocp.
  Hypothesis NA : ~ In pA ocp.
  Hypothesis NB : ~ In pB ocp.
  Hypothesis EuA : evaluates rt C gv (up_view vA) vB fuA.
  Hypothesis EdA : 0 < v_L vA -> evaluates rt C gv (down_view vA) vB fdA.
  Hypothesis EuB : evaluates rt C gv vA (up_view vB) fuB.
  Hypothesis EdB : 0 < v_L vB -> evaluates rt C gv vA (down_view vB) fdB.
  Hypothesis Hoob : oob <> None \/ (v_L vA = 0 /\ v_L vB = 0).

  Notation dv := (dval vA vB fuA fdA fuB fdB).
  Notation nn := (v_size vA * v_size vB).

  (** state after contributions with total factors w *)
  Definition sofar (grad : mats) szs (w : R * R) (st : heap * mats) : Prop :=
    reached C ocp h (fst st) /\ dims4 (snd st) szs /\ agree4 (out_block nn) grad (snd st) /\ full_block nn (snd st) /\
    forall c i j cA cB, 0 <= c < 3 -> nth_error (canon (v_L vA)) i = Some cA -> nth_error (canon (v_L vB)) j = Some cB ->
      get4 (snd st) [c; Z.of_nat i * v_size vB + Z.of_nat j] = Ok (combine (fst w) (dv true cA cB (Z.of_nat i) (Z.of_nat j) c) (snd w) (dv false cA cB (Z.of_nat i) (Z.of_nat j) c)).

  Lemma step grad szs w st (bra : bool) f : min4 nn szs -> sofar grad szs w st ->
    exists st', gradient_contribution ord oob rt bra (fst st) pA pB g C f (snd st) = Ok st' /\
      gradient_diff_contribution ord oob rt bra (fst st) pA pB g C f (snd st) = Ok st' /\
      sofar grad szs (if bra then (fst w + f, snd w)%R else (fst w, snd w + f)%R) st'.
  Proof.
    intros M4 (Rc & D & A & Fb & V).
    destruct (contr_ok ord oob rt h pA pB g gv ocp C vA vB fuA fdA fuB fdB W I SA SB G NA NB EuA EdA EuB EdB bra f (fst st) (snd st) szs Rc D M4 Fb) as (h2 & g2 & E1 & E2 & W2 & V2 & D2 & A2 & F2 & Vg).
    { destruct Hoob as [Ho|(H1 & H2)]; [left; exact Ho|right; destruct bra; assumption]. }
    exists (h2, g2). split; [exact E1|]. split; [exact E2|]. split; [split; [exact W2|right; exact V2]|]. split; [exact D2|]. split; [eapply agree4_trans; eassumption|]. split; [exact F2|].
    intros c i j cA cB Hc Hi Hj. cbn [fst snd]. rewrite (Vg c i j cA cB _ Hc Hi Hj (V c i j cA cB Hc Hi Hj)). f_equal. destruct bra; [apply combine_bra|apply combine_ket].
  Qed.

  Theorem full_gradient D grad szs : dims4 grad szs -> min4 nn szs ->
    exists h' grad', full_grpp_integrals_gradient ord oob rt h pA pB g C D grad = Ok (h', grad') /\
      sofar grad szs (weights (v_origin vA) (v_origin vB) C D) (h', grad').
  Proof.
    intros D4 M4. unfold full_grpp_integrals_gradient.
    destruct (std_loads _ _ _ _ W SA) as (sA & EA & _ & ZA & OA & _). destruct (std_loads _ _ _ _ W SB) as (sB & EB & _ & ZB & OB & _).
    rewrite EA, bind_ok, EB, bind_ok. destruct grad as [[[g0 g1] g2] g3]. rewrite ZA, ZB, OA, OB.
    pose proof (std_size _ _ _ _ SA) as PA. pose proof (std_size _ _ _ _ SB) as PB.
    destruct (clear4 nn g0 g1 g2 g3 szs D4 M4 ltac:(nia)) as (a & b & c & d & Ea & Eb & Ec & Ed & Dc & Ac & Vc).
    rewrite Ea, bind_ok, Eb, bind_ok, Ec, bind_ok, Ed, bind_ok. cbv zeta.
    set (grad := (g0, g1, g2, g3)) in *. set (st0 := (h, (a, b, c, d))).
    assert (S0 : sofar grad szs (0, 0)%R st0).
    { split; [split; [exact W|left; reflexivity]|]. split; [exact Dc|]. split; [exact Ac|]. split; [intros k x Hk Hx; exists t0; apply Vc; assumption|].
      intros k i j cA cB Hk Hi Hj.
      assert ((i < length (canon (v_L vA)))%nat) by (apply nth_error_Some; congruence). assert ((j < length (canon (v_L vB)))%nat) by (apply nth_error_Some; congruence).
      cbn [snd st0]. rewrite Vc; [|exact Hk|nia].
      f_equal. unfold combine, mk4, t0. cbn [fst snd]. f_equal; [f_equal; [f_equal|]|]; ring. }
    assert (ST := fun w st bra f S => step grad szs w st bra f M4 S).
    unfold weights. generalize st0 S0. clear st0 S0 Ea Eb Ec Ed Dc Ac Vc a b c d.
    set (AC := points_are_equal (v_origin vA) C). set (BC := points_are_equal (v_origin vB) C). set (CB := points_are_equal C (v_origin vB)).
    set (AB := points_are_equal (v_origin vA) (v_origin vB)). set (AD := points_are_equal (v_origin vA) D). set (BD := points_are_equal (v_origin vB) D). set (CD := points_are_equal C D).
    intros st S0. cbv zeta.
    assert (FIN : forall m w, (exists st', m = Ok st' /\ sofar grad szs w st') -> exists h' grad', m = Ok (h', grad') /\ sofar grad szs w (h', grad')).
    { intros m w ([h' g'] & E & S). exists h', g'. split; assumption. }
    apply FIN. clear FIN.
    destruct (AC && BC); [exists st; split; [reflexivity|exact S0]|].
    destruct (negb AD && negb BD && negb CD); [exists st; split; [reflexivity|exact S0]|].
    assert (BND : forall m k w w', (exists st', m = Ok st' /\ sofar grad szs w st') -> (forall st', sofar grad szs w st' -> exists st'', k st' = Ok st'' /\ sofar grad szs w' st'') ->
       exists st', bind m k = Ok st' /\ sofar grad szs w' st').
    { intros m k w w' (st' & E & S) K. rewrite E, bind_ok. apply K. exact S. }
    assert (CON : forall w s bra f, sofar grad szs w s -> exists st', gradient_contribution ord oob rt bra (fst s) pA pB g C f (snd s) = Ok st' /\ sofar grad szs (if (bra : bool) then (fst w + f, snd w)%R else (fst w, snd w + f)%R) st').
    { intros w s bra f S. destruct (ST w s bra f S) as (s' & E & _ & S'). exists s'. split; assumption. }
    assert (DCON : forall w s bra f, sofar grad szs w s -> exists st', gradient_diff_contribution ord oob rt bra (fst s) pA pB g C f (snd s) = Ok st' /\ sofar grad szs (if (bra : bool) then (fst w + f, snd w)%R else (fst w, snd w + f)%R) st').
    { intros w s bra f S. destruct (ST w s bra f S) as (s' & _ & E & S'). exists s'. split; assumption. }
    match goal with |- exists st', _ = Ok st' /\ sofar _ _ ?w _ =>
      match w with context [if AB && negb AC then _ else ?w1] => pose (u1 := w1); change w1 with u1 end end.
    apply (BND _ _ u1).
    { subst u1. destruct (negb AC && negb CB && negb AB); [|exists st; split; [reflexivity|exact S0]].
      apply (BND _ _ ((if AD then 0 + 1 else 0), 0)%R).
      { destruct AD; [apply (CON (0, 0)%R st true 1%R S0)|exists st; split; [reflexivity|exact S0]]. }
      intros s1 S1. apply (BND _ _ ((if AD then 0 + 1 else 0), (if BD then 0 + 1 else 0))%R).
      { destruct BD; [apply (CON _ s1 false 1%R S1)|exists s1; split; [reflexivity|exact S1]]. }
      intros s2 S2. destruct CD; [|exists s2; split; [reflexivity|exact S2]].
      eapply BND; [apply (CON _ s2 true (-1)%R S2)|]. intros s3 S3. apply (CON _ s3 false (-1)%R S3). }
    intros s1 S1. clearbody u1.
    match goal with |- exists st', _ = Ok st' /\ sofar _ _ ?w _ =>
      match w with context [if negb AC && CB then _ else ?w1] => pose (u2 := w1); change w1 with u2 end end.
    apply (BND _ _ u2).
    { subst u2. destruct (AB && negb AC); [|exists s1; split; [reflexivity|exact S1]].
      destruct AD.
      - eapply BND; [apply (DCON _ s1 true 1%R S1)|]. intros s2 S2. apply (DCON _ s2 false 1%R S2).
      - eapply BND; [apply (DCON _ s1 true (-1)%R S1)|]. intros s2 S2. apply (DCON _ s2 false (-1)%R S2). }
    intros s2 S2. clearbody u2.
    match goal with |- exists st', _ = Ok st' /\ sofar _ _ ?w _ =>
      match w with context [if AC && negb CB then _ else ?w1] => pose (u3 := w1); change w1 with u3 end end.
    apply (BND _ _ u3).
    { subst u3. destruct (negb AC && CB); [|exists s2; split; [reflexivity|exact S2]].
      destruct AD; [apply (CON _ s2 true 1%R S2)|apply (CON _ s2 true (-1)%R S2)]. }
    intros s3 S3. clearbody u3.
    destruct (AC && negb CB); [|exists s3; split; [reflexivity|exact S3]].
    destruct BD; [apply (CON _ s3 false 1%R S3)|apply (CON _ s3 false (-1)%R S3)].
  Qed.
End FullGrad.
