(** * The overlap gradient: what it returns (C25) and where it reads (C26) *)

From Coq Require Import ZArith List Lia Bool Reals Lra Permutation.
From Coquelicot Require Import Coquelicot.
From Verif Require Import Base CartModel CartProofs HeapModel HeapProofs HeapSpec GaussProd
  OneElModel OneElProofs OneElPairs OneElSpec OneElInt OneElThms Loops LmatModel UtilProofs OvGradModel OvDeriv OvGradProofs.
Import ListNotations.
Open Scope Z_scope.

(** the two shells do not share their component list *)
Definition separate (h : heap) (pA pB : Z) : Prop :=
  forall sA sB, load_shell h pA = Ok sA -> load_shell h pB = Ok sB -> sh_cart_list sA <> sh_cart_list sB.

(** entry (i, j) of the gradient along coordinate k *)
Definition grad_at (grad : arr R) (vB : sview) (k : Z) (i j : nat) : res R :=
  aget grad [k; Z.of_nat i * v_size vB + Z.of_nat j].

(** the three rows can hold the matrix *)
Definition grad_fits (grad : arr R) (vA vB : sview) : Prop :=
  exists sz, adims grad = [3; sz] /\ v_size vA * v_size vB <= sz.

Definition only_grad (grad grad' : arr R) (vA vB : sview) : Prop :=
  adims grad' = adims grad /\
  forall k x, ~ (0 <= k < 3 /\ 0 <= x < v_size vA * v_size vB) -> aget grad' [k; x] = aget grad [k; x].

Lemma std_loads h p v comps : heap_wf h -> std_shell h p v comps ->
  exists s, load_shell h p = Ok s /\ sh_L s = v_L v /\ sh_cart_size s = v_size v /\ sh_origin s = v_origin v /\
    hblk h (sh_cart_list s) = Some (OInts (flat3 (canon (v_L v)))).
Proof.
  intros W Sd. pose proof (std_canon _ _ _ _ Sd) as ->.
  destruct Sd as ((s & lc & la & H1 & H2 & H3 & H4 & Hnd & Hn1 & Hn2 & EL & ES & EO & EP) & HL & Hsz & _ & HF).
  exists s. unfold load_shell. rewrite (heap_wf_nonzero h p _ W H1). rewrite HF in H2. repeat split; congruence.
Qed.

Lemma comp_lists_intro h pA pB vA vB ca cb sA sB : heap_wf h -> std_shell h pA vA ca -> std_shell h pB vB cb -> separate h pA pB ->
  load_shell h pA = Ok sA -> load_shell h pB = Ok sB -> comp_lists h sA sB (v_L vA) (v_L vB).
Proof.
  intros W SA SB Sep EA EB.
  destruct (std_loads _ _ _ _ W SA) as (sA' & EA' & LA & _ & _ & CA). rewrite EA in EA'. injection EA' as <-.
  destruct (std_loads _ _ _ _ W SB) as (sB' & EB' & LB & _ & _ & CB). rewrite EB in EB'. injection EB' as <-.
  split; [exact W|]. split; [exact LA|]. split; [apply Sep; assumption|]. split; assumption.
Qed.

Lemma same_std h h' p v comps : same_heap h h' -> std_shell h p v comps -> std_shell h' p v comps.
Proof. intros (_ & F). apply std_old. intros q o Hq. rewrite F. exact Hq. Qed.

Lemma same_load h h' p : same_heap h h' -> load_shell h' p = load_shell h p.
Proof. intros (_ & F). unfold load_shell, hload. rewrite F. reflexivity. Qed.

Lemma same_sep h h' pA pB : same_heap h h' -> separate h pA pB -> separate h' pA pB.
Proof. intros F Sep sA sB. rewrite !(same_load h h') by exact F. apply Sep. Qed.

Lemma in_range_idx a b nA nB : 0 <= a < nA -> 0 <= b < nB -> 0 <= a * nB + b < nA * nB.
Proof. nia. Qed.

Lemma contribution_ok ord oob h pA pB vA vB ca cb grad f : heap_wf h -> std_shell h pA vA ca -> std_shell h pB vB cb ->
  separate h pA pB -> v_L vA <= 8 -> v_L vB <= 9 -> grad_fits grad vA vB ->
  (oob <> None \/ v_L vA = 0) ->
  (forall k x, 0 <= k < 3 -> 0 <= x < v_size vA * v_size vB -> exists g, aget grad [k; x] = Ok g) ->
  exists h' grad', diff_bra_contribution ord oob h pA pB grad f = Ok (h', grad') /\ same_heap h h' /\
    only_grad grad grad' vA vB /\
    forall k i j cA cB g, 0 <= k < 3 -> nth_error ca i = Some cA -> nth_error cb j = Some cB ->
      grad_at grad vB k i j = Ok g -> grad_at grad' vB k i j = Ok (g + f * bgrad_value vA vB cA cB k)%R.
Proof.
  intros W SA SB Sep LA LB (sz & Dg & Hsz) Hoob Init.
  pose proof (std_canon _ _ _ _ SA) as ->. pose proof (std_canon _ _ _ _ SB) as ->.
  pose proof SA as (_ & HLA & ZA & _). pose proof SB as (_ & HLB & ZB & _).
  unfold diff_bra_contribution.
  destruct (diff_overlap_ok ord h pA pB vA vB _ _ W SA SB LA LB) as (down & up & h1 & E1 & Sm1 & Hup & Hdn).
  rewrite E1, bind_ok. clear E1.
  destruct (std_loads _ _ _ _ (proj1 Sm1) (same_std _ _ _ _ _ Sm1 SA)) as (sA & EA & _ & SzA & _ & _).
  destruct (std_loads _ _ _ _ (proj1 Sm1) (same_std _ _ _ _ _ Sm1 SB)) as (sB & EB & _ & SzB & _ & _).
  rewrite EA, bind_ok, EB, bind_ok.
  pose proof (comp_lists_intro h1 pA pB vA vB _ _ sA sB (proj1 Sm1) (same_std _ _ _ _ _ Sm1 SA) (same_std _ _ _ _ _ Sm1 SB)
     (same_sep _ _ _ _ Sm1 Sep) EA EB) as CL.
  pose proof (length_canon (v_L vA) ltac:(lia)) as NA. pose proof (length_canon (v_L vB) ltac:(lia)) as NB.
  set (comp := fun L i => nth (Z.to_nat i) (canon L) (0, 0, 0)).
  assert (Comp : forall L i, 0 <= i < n_cart L -> -1 <= L -> nth_error (canon L) (Z.to_nat i) = Some (comp L i)).
  { intros L i Hi HL. unfold comp. apply nth_error_nth'. pose proof (length_canon L HL). lia. }
  destruct (loop3_upd 3 (sh_cart_size sA) (sh_cart_size sB)
     (fun st : heap * arr R => same_heap h1 (fst st) /\ only_grad grad (snd st) vA vB /\
        forall k x, 0 <= k < 3 -> 0 <= x < v_size vA * v_size vB -> exists g, aget (snd st) [k; x] = Ok g)
     (fun st x => aget (snd st) [fst (fst x); snd (fst x) * v_size vB + snd x])
     (fun x v => match v with Ok g => Ok (g + f * bgrad_value vA vB (comp (v_L vA) (snd (fst x))) (comp (v_L vB) (snd x)) (fst (fst x)))%R | Fail e => Fail e end)
     (fun k i j => ovgrad_body ord oob sA sB down up f k i j) (h1, grad)) as ((h2 & grad2) & E2 & (Sm2 & OG2 & I2) & V2).
  - lia.
  - lia.
  - lia.
  - cbn [fst snd]. split; [split; [exact (proj1 Sm1)|reflexivity]|]. split; [split; [reflexivity|reflexivity]|exact Init].
  - intros k i j (h2 & gr) Hk Hi Hj (Sm2 & (Dim & Out) & I2). cbn [fst snd] in *. rewrite SzA in Hi. rewrite SzB in Hj.
    pose proof (Comp (v_L vA) i ltac:(lia) ltac:(lia)) as Ci. pose proof (Comp (v_L vB) j ltac:(lia) ltac:(lia)) as Cj.
    pose proof (in_range_idx i j (v_size vA) (v_size vB) ltac:(lia) ltac:(lia)) as Hx.
    destruct (I2 k (i * v_size vB + j) Hk Hx) as (g & Hg).
    destruct (body_ok ord oob vA vB sA sB down up f sz HLA HLB ZB SzB Hup Hdn ltac:(lia) h2 gr k (Z.to_nat i) (Z.to_nat j) _ _
       (comp_lists_same _ _ _ _ _ _ Sm2 CL) ltac:(congruence) Hk Ci Cj) with (g := g) as (h3 & gr3 & E3 & Sm3 & D3 & V3 & F3).
    { destruct Hoob; [left; assumption|right; left; assumption]. }
    { rewrite !Z2Nat.id by lia. exact Hg. }
    rewrite !Z2Nat.id in E3, V3, F3 by lia.
    exists (h3, gr3). split; [exact E3|]. cbn [fst snd]. split.
    + split; [eapply same_heap_trans; eassumption|]. split.
      * split; [congruence|]. intros k' x Hn. rewrite F3; [apply Out; exact Hn|]. intros Eq. injection Eq as -> ->. lia.
      * intros k' x Hk' Hx'. destruct (list_eq_dec Z.eq_dec [k'; x] [k; i * v_size vB + j]) as [Eq|Ne].
        -- rewrite Eq. eauto.
        -- rewrite F3 by exact Ne. apply I2; assumption.
    + split; [rewrite Hg; exact V3|]. intros a' i' j' Ha' Hi' Hj' Ne. apply F3. intros Eq. injection Eq as -> Eq.
      apply Ne. rewrite SzA in Hi'. rewrite SzB in Hj'.
      assert (i' = i) by nia. subst. f_equal. lia.
  - exists h2, grad2. split; [exact E2|]. split; [eapply same_heap_trans; eassumption|]. split; [exact OG2|].
    intros k i j cA cB g Hk Hi Hj Hg. cbn [fst snd] in V2.
    assert (Hil : (i < length (canon (v_L vA)))%nat) by (apply nth_error_Some; congruence).
    assert (Hjl : (j < length (canon (v_L vB)))%nat) by (apply nth_error_Some; congruence).
    specialize (V2 k (Z.of_nat i) (Z.of_nat j) Hk ltac:(lia) ltac:(lia)). unfold grad_at in *. rewrite V2, Hg.
    unfold comp. rewrite !Nat2Z.id, (nth_error_nth _ _ _ Hi), (nth_error_nth _ _ _ Hj). reflexivity.
Qed.

(** the initial clearing *)
Lemma clear_grad grad sz n : adims grad = [3; sz] -> 0 <= n <= sz ->
  exists grad', for_range 0 3 (fun icoord => for_range 0 n (fun k grad => aset grad [icoord; k] 0%R)) grad = Ok grad' /\
    adims grad' = adims grad /\ (forall k x, 0 <= k < 3 -> 0 <= x < n -> aget grad' [k; x] = Ok 0%R) /\
    (forall k x, ~ (0 <= k < 3 /\ 0 <= x < n) -> aget grad' [k; x] = aget grad [k; x]).
Proof.
  intros Dg Hn.
  destruct (loop2_all 0 3 0 n (fun g : arr R => adims g = [3; sz] /\ forall k x, ~ (0 <= k < 3 /\ 0 <= x < n) -> aget g [k; x] = aget grad [k; x])
     (fun k x g => aget g [k; x] = Ok 0%R) (fun icoord k grad => aset grad [icoord; k] 0%R) grad) as (g' & E & (D & O) & V).
  - lia.
  - lia.
  - split; [exact Dg|reflexivity].
  - intros k x g Hk Hx (D & O).
    destruct (aset_get g [k; x] 0%R) as (g' & E & D' & V & F); [rewrite D; apply inb2; lia|].
    exists g'. split; [exact E|]. split; [split; [congruence|]|].
    + intros k' x' Hn'. rewrite F; [apply O; exact Hn'|]. intros Eq. injection Eq as -> ->. lia.
    + split; [exact V|]. intros k' x' _ _ _ H'. destruct (list_eq_dec Z.eq_dec [k'; x'] [k; x]) as [Eq|Ne]; [congruence|].
      rewrite F by exact Ne. exact H'.
  - exists g'. split; [exact E|]. split; [congruence|]. split; [exact V|exact O].
Qed.

(** [v] is the derivative at [t0] of the integral of [F t] over space *)
Definition deriv_of_integral (F : R -> R -> R -> R -> R) (t0 v : R) : Prop :=
  (exists I : R -> R, forall t, is_int3 (F t) (I t)) /\
  forall I : R -> R, (forall t, is_int3 (F t) (I t)) -> is_derive I t0 v.

(** the overlap density of the pair with one coordinate of A, of B, or of both moved *)
Definition pair_move_A (vA vB : sview) (cA cB : Z * Z * Z) (k : Z) (t x y z : R) : R :=
  (phi (v_L vA) (set_coord (v_origin vA) k t) (v_prims vA) cA x y z * phi_of vB cB x y z)%R.
Definition pair_move_B (vA vB : sview) (cA cB : Z * Z * Z) (k : Z) (t x y z : R) : R :=
  (phi_of vA cA x y z * phi (v_L vB) (set_coord (v_origin vB) k t) (v_prims vB) cB x y z)%R.
Definition pair_move_AB (vA vB : sview) (cA cB : Z * Z * Z) (k : Z) (s x y z : R) : R :=
  (phi (v_L vA) (set_coord (v_origin vA) k (coord3 (v_origin vA) k + s)) (v_prims vA) cA x y z *
   phi (v_L vB) (set_coord (v_origin vB) k (coord3 (v_origin vB) k + s)) (v_prims vB) cB x y z)%R.

Lemma integral_exists LA LB (A B : R -> R * R * R) PA PB cA cB :
  (forall c a, In (c, a) PA -> (0 < a)%R) -> (forall c a, In (c, a) PB -> (0 < a)%R) ->
  exists I : R -> R, forall t, is_int3 (fun x y z => phi LA (A t) PA cA x y z * phi LB (B t) PB cB x y z)%R (I t).
Proof.
  intros XA XB. exists (fun t => contracted (ov_entry LA LB (A t) (B t) cA cB) PA PB). intros t.
  eapply is_int3_ext; [|apply (contr_int3 (pfun LA (A t) cA) (pfun LB (B t) cB) PA PB _ XA XB)].
  - intros x y z. rewrite !phi_contr. reflexivity.
  - intros aA aB HA HB. apply ov_entry_int; assumption.
Qed.

Lemma deriv_A vA vB cA cB k : exps_pos vA -> exps_pos vB -> 0 <= k < 3 -> nonneg3 cA ->
  deriv_of_integral (pair_move_A vA vB cA cB k) (coord3 (v_origin vA) k) (bgrad_value vA vB cA cB k).
Proof.
  intros XA XB Hk Hc. split.
  - apply (integral_exists (v_L vA) (v_L vB) (set_coord (v_origin vA) k) (fun _ => v_origin vB)); assumption.
  - intros I HI. apply overlap_center_der; assumption.
Qed.

Lemma deriv_B vA vB cA cB k : exps_pos vA -> exps_pos vB -> 0 <= k < 3 -> nonneg3 cA ->
  deriv_of_integral (pair_move_B vA vB cA cB k) (coord3 (v_origin vB) k) (- bgrad_value vA vB cA cB k).
Proof.
  intros XA XB Hk Hc. split.
  - apply (integral_exists (v_L vA) (v_L vB) (fun _ => v_origin vA) (set_coord (v_origin vB) k)); assumption.
  - intros I HI. apply overlap_center_der_B; assumption.
Qed.

Lemma deriv_AB vA vB cA cB k : exps_pos vA -> exps_pos vB -> 0 <= k < 3 ->
  deriv_of_integral (pair_move_AB vA vB cA cB k) 0 0.
Proof.
  intros XA XB Hk. split.
  - apply (integral_exists (v_L vA) (v_L vB) (fun s => set_coord (v_origin vA) k (coord3 (v_origin vA) k + s))
       (fun s => set_coord (v_origin vB) k (coord3 (v_origin vB) k + s))); assumption.
  - intros I HI. eapply overlap_center_both; [exact XA|exact XB|exact Hk|exact HI].
Qed.

Lemma overlap_gradient_ok ord oob h pA pB vA vB ca cb point grad : heap_wf h -> std_shell h pA vA ca -> std_shell h pB vB cb ->
  separate h pA pB -> v_L vA <= 8 -> v_L vB <= 9 -> grad_fits grad vA vB -> (oob <> None \/ v_L vA = 0) ->
  exists h' grad', overlap_gradient ord oob h pA pB point grad = Ok (h', grad') /\ same_heap h h' /\
    only_grad grad grad' vA vB /\
    forall k i j cA cB, 0 <= k < 3 -> nth_error ca i = Some cA -> nth_error cb j = Some cB ->
      grad_at grad' vB k i j = Ok
        (if points_are_equal (v_origin vA) (v_origin vB) then 0 else
         (if points_are_equal (v_origin vA) point then bgrad_value vA vB cA cB k else 0) -
         (if points_are_equal (v_origin vB) point then bgrad_value vA vB cA cB k else 0))%R.
Proof.
  intros W SA SB Sep LA LB (sz & Dg & Hsz) Hoob. unfold overlap_gradient.
  destruct (std_loads _ _ _ _ W SA) as (sA & EA & _ & SzA & OA & _).
  destruct (std_loads _ _ _ _ W SB) as (sB & EB & _ & SzB & OB & _).
  rewrite EA, bind_ok, EB, bind_ok, SzA, SzB, OA, OB.
  pose proof (std_size _ _ _ _ SA) as NA. pose proof (std_size _ _ _ _ SB) as NB.
  destruct (clear_grad grad sz (v_size vA * v_size vB) Dg ltac:(nia)) as (g0 & E0 & D0 & V0 & O0).
  rewrite E0, bind_ok.
  assert (Z0 : forall k i j cA cB, 0 <= k < 3 -> nth_error ca i = Some cA -> nth_error cb j = Some cB -> grad_at g0 vB k i j = Ok 0%R).
  { intros k i j cA cB Hk Hi Hj. apply V0; [exact Hk|].
    assert ((i < length ca)%nat) by (apply nth_error_Some; congruence).
    assert ((j < length cb)%nat) by (apply nth_error_Some; congruence). nia. }
  assert (O1 : only_grad grad g0 vA vB) by (split; [exact D0|exact O0]).
  destruct (points_are_equal (v_origin vA) (v_origin vB)).
  { exists h, g0. split; [reflexivity|]. split; [split; [exact W|reflexivity]|]. split; [exact O1|exact Z0]. }
  assert (Rd : forall g, only_grad grad g vA vB -> (forall k i j cA cB, 0 <= k < 3 -> nth_error ca i = Some cA -> nth_error cb j = Some cB -> exists v, grad_at g vB k i j = Ok v) ->
     forall k x, 0 <= k < 3 -> 0 <= x < v_size vA * v_size vB -> exists v, aget g [k; x] = Ok v).
  { intros g _ H k x Hk Hx.
    assert (NBp : 0 < v_size vB) by nia.
    set (i := x / v_size vB). set (j := x mod v_size vB).
    assert (Hj : 0 <= j < v_size vB) by (apply Z.mod_pos_bound; exact NBp).
    assert (Hi : 0 <= i < v_size vA) by (unfold i; split; [apply Z.div_pos; lia|apply Z.div_lt_upper_bound; lia]).
    assert (Hxe : x = i * v_size vB + j) by (unfold i, j; rewrite Z.mul_comm; apply Z.div_mod; lia).
    destruct (nth_error ca (Z.to_nat i)) as [cA|] eqn:Ei; [|apply nth_error_None in Ei; lia].
    destruct (nth_error cb (Z.to_nat j)) as [cB|] eqn:Ej; [|apply nth_error_None in Ej; lia].
    destruct (H k _ _ _ _ Hk Ei Ej) as (v & Hv). unfold grad_at in Hv. rewrite !Z2Nat.id in Hv by lia. rewrite Hxe. eauto. }
  assert (ST : forall h1 g1 f (val : Z * Z * Z -> Z * Z * Z -> Z -> R), same_heap h h1 -> only_grad grad g1 vA vB ->
     (forall k i j cA cB, 0 <= k < 3 -> nth_error ca i = Some cA -> nth_error cb j = Some cB -> grad_at g1 vB k i j = Ok (val cA cB k)) ->
     exists h2 g2, diff_bra_contribution ord oob h1 pA pB g1 f = Ok (h2, g2) /\ same_heap h h2 /\ only_grad grad g2 vA vB /\
     (forall k i j cA cB, 0 <= k < 3 -> nth_error ca i = Some cA -> nth_error cb j = Some cB ->
        grad_at g2 vB k i j = Ok (val cA cB k + f * bgrad_value vA vB cA cB k)%R)).
  { intros h1 g1 f val Sm1 OG1 V1.
    destruct (contribution_ok ord oob h1 pA pB vA vB ca cb g1 f (proj1 Sm1) (same_std _ _ _ _ _ Sm1 SA) (same_std _ _ _ _ _ Sm1 SB)
      (same_sep _ _ _ _ Sm1 Sep) LA LB) as (h2 & g2 & E2 & Sm2 & (D2 & O2) & V2).
    - exists sz. split; [rewrite (proj1 OG1); exact Dg|exact Hsz].
    - exact Hoob.
    - apply Rd; [exact OG1|]. intros. eexists. eapply V1; eassumption.
    - exists h2, g2. split; [exact E2|]. split; [eapply same_heap_trans; eassumption|]. split.
      + destruct OG1 as (D1 & O1'). split; [congruence|]. intros k x Hn. rewrite O2 by exact Hn. apply O1'. exact Hn.
      + intros k i j cA cB Hk Hi Hj. apply V2; [exact Hk|exact Hi|exact Hj|]. apply V1; assumption. }
  assert (SmR : same_heap h h) by (split; [exact W|reflexivity]).
  destruct (points_are_equal (v_origin vA) point).
  - destruct (ST h g0 1%R (fun _ _ _ => 0%R) SmR O1 Z0) as (h1 & g1 & E1 & Sm1 & OG1 & V1). rewrite E1, bind_ok.
    destruct (points_are_equal (v_origin vB) point).
    + destruct (ST h1 g1 (-1)%R _ Sm1 OG1 V1) as (h2 & g2 & E2 & Sm2 & OG2 & V2). rewrite E2.
      exists h2, g2. split; [reflexivity|]. split; [exact Sm2|]. split; [exact OG2|]. intros k i j cA cB Hk Hi Hj.
      rewrite (V2 k i j cA cB Hk Hi Hj). f_equal. ring.
    + exists h1, g1. split; [reflexivity|]. split; [exact Sm1|]. split; [exact OG1|]. intros k i j cA cB Hk Hi Hj.
      rewrite (V1 k i j cA cB Hk Hi Hj). f_equal. ring.
  - rewrite bind_ok. destruct (points_are_equal (v_origin vB) point).
    + destruct (ST h g0 (-1)%R (fun _ _ _ => 0%R) SmR O1 Z0) as (h1 & g1 & E1 & Sm1 & OG1 & V1). rewrite E1.
      exists h1, g1. split; [reflexivity|]. split; [exact Sm1|]. split; [exact OG1|]. intros k i j cA cB Hk Hi Hj.
      rewrite (V1 k i j cA cB Hk Hi Hj). f_equal. ring.
    + exists h, g0. split; [reflexivity|]. split; [exact SmR|]. split; [exact O1|]. intros k i j cA cB Hk Hi Hj.
      rewrite (Z0 k i j cA cB Hk Hi Hj). f_equal. ring.
Qed.

(** ** C25 *)

Lemma overlap_gradient_true ord (junk : Z -> R) h pA pB vA vB ca cb point grad : heap_wf h -> std_shell h pA vA ca -> std_shell h pB vB cb ->
  separate h pA pB -> v_L vA <= 8 -> v_L vB <= 9 -> exps_pos vA -> exps_pos vB -> grad_fits grad vA vB ->
  exists h' grad', overlap_gradient ord (Some junk) h pA pB point grad = Ok (h', grad') /\
    (forall q, hblk h' q = hblk h q) /\ only_grad grad grad' vA vB /\
    forall k i j cA cB, 0 <= k < 3 -> nth_error ca i = Some cA -> nth_error cb j = Some cB ->
      exists g, grad_at grad' vB k i j = Ok g /\
        (points_are_equal (v_origin vA) (v_origin vB) = false ->
           (points_are_equal (v_origin vA) point = true -> points_are_equal (v_origin vB) point = false ->
              deriv_of_integral (pair_move_A vA vB cA cB k) (coord3 (v_origin vA) k) g) /\
           (points_are_equal (v_origin vA) point = false -> points_are_equal (v_origin vB) point = true ->
              deriv_of_integral (pair_move_B vA vB cA cB k) (coord3 (v_origin vB) k) g)) /\
        (points_are_equal (v_origin vA) (v_origin vB) = true -> deriv_of_integral (pair_move_AB vA vB cA cB k) 0 g) /\
        (points_are_equal (v_origin vA) (v_origin vB) = true \/
         points_are_equal (v_origin vA) point = points_are_equal (v_origin vB) point -> g = 0%R).
Proof.
  intros W SA SB Sep LA LB XA XB F.
  destruct (overlap_gradient_ok ord (Some junk) h pA pB vA vB ca cb point grad W SA SB Sep LA LB F) as (h' & g' & E & Sm & OG & V).
  { left. discriminate. }
  exists h', g'. split; [exact E|]. split; [exact (proj2 Sm)|]. split; [exact OG|].
  intros k i j cA cB Hk Hi Hj. eexists. split; [apply (V k i j cA cB Hk Hi Hj)|].
  assert (N : nonneg3 cA) by (apply (std_nonneg h pA vA ca cA SA); eapply nth_error_In; exact Hi).
  destruct (points_are_equal (v_origin vA) (v_origin vB)).
  - split; [discriminate|]. split; [intros _; apply deriv_AB; assumption|reflexivity].
  - split; [intros _; split|split; [discriminate|]].
    + intros -> ->. rewrite Rminus_0_r. apply deriv_A; assumption.
    + intros -> ->. rewrite Rminus_0_l. apply deriv_B; assumption.
    + intros [H| ->]; [discriminate|]. destruct (points_are_equal (v_origin vB) point); ring.
Qed.

(** ** C26 *)

Lemma overlap_gradient_s_safe ord h pA pB vA vB ca cb point grad : heap_wf h -> std_shell h pA vA ca -> std_shell h pB vB cb ->
  separate h pA pB -> v_L vA = 0 -> v_L vB <= 9 -> grad_fits grad vA vB ->
  exists h' grad', overlap_gradient ord None h pA pB point grad = Ok (h', grad') /\
    (forall q, hblk h' q = hblk h q) /\ only_grad grad grad' vA vB.
Proof.
  intros W SA SB Sep LA LB F.
  destruct (overlap_gradient_ok ord None h pA pB vA vB ca cb point grad W SA SB Sep ltac:(lia) LB F) as (h' & g' & E & Sm & OG & V).
  { right. exact LA. }
  exists h', g'. split; [exact E|]. split; [exact (proj2 Sm)|exact OG].
Qed.

Lemma contribution_overrun ord h pA pB vA vB ca cb grad f : heap_wf h -> std_shell h pA vA ca -> std_shell h pB vB cb ->
  separate h pA pB -> 0 < v_L vA <= 8 -> v_L vB <= 9 -> grad_fits grad vA vB ->
  (forall k x, 0 <= k < 3 -> 0 <= x < v_size vA * v_size vB -> exists g, aget grad [k; x] = Ok g) ->
  diff_bra_contribution ord None h pA pB grad f = Fail OutOfBounds.
Proof.
  intros W SA SB Sep LA LB (sz & Dg & Hsz) Init.
  pose proof (std_canon _ _ _ _ SA) as ->. pose proof (std_canon _ _ _ _ SB) as ->.
  pose proof SA as (_ & HLA & ZA & _). pose proof SB as (_ & HLB & ZB & _).
  unfold diff_bra_contribution.
  destruct (diff_overlap_ok ord h pA pB vA vB _ _ W SA SB ltac:(lia) LB) as (down & up & h1 & E1 & Sm1 & Hup & Hdn).
  rewrite E1, bind_ok. clear E1.
  destruct (std_loads _ _ _ _ (proj1 Sm1) (same_std _ _ _ _ _ Sm1 SA)) as (sA & EA & _ & SzA & _ & _).
  destruct (std_loads _ _ _ _ (proj1 Sm1) (same_std _ _ _ _ _ Sm1 SB)) as (sB & EB & _ & SzB & _ & _).
  rewrite EA, bind_ok, EB, bind_ok.
  pose proof (comp_lists_intro h1 pA pB vA vB _ _ sA sB (proj1 Sm1) (same_std _ _ _ _ _ Sm1 SA) (same_std _ _ _ _ _ Sm1 SB)
     (same_sep _ _ _ _ Sm1 Sep) EA EB) as CL.
  pose proof (length_canon (v_L vA) ltac:(lia)) as NA. pose proof (length_canon (v_L vB) ltac:(lia)) as NB.
  set (Inv := fun st : heap * arr R => same_heap h1 (fst st) /\ adims (snd st) = [3; sz] /\
        forall k x, 0 <= k < 3 -> 0 <= x < v_size vA * v_size vB -> exists g, aget (snd st) [k; x] = Ok g).
  assert (I0 : Inv (h1, grad)) by (split; [split; [exact (proj1 Sm1)|reflexivity]|split; [exact Dg|exact Init]]).
  assert (B : forall k i j st, 0 <= k < 3 -> 0 <= i < sh_cart_size sA -> 0 <= j < sh_cart_size sB -> Inv st ->
     ((exists st', ovgrad_body ord None sA sB down up f k i j st = Ok st' /\ Inv st') \/ ovgrad_body ord None sA sB down up f k i j st = Fail OutOfBounds) /\
     (forall cA, nth_error (canon (v_L vA)) (Z.to_nat i) = Some cA -> expo cA k = 0 -> ovgrad_body ord None sA sB down up f k i j st = Fail OutOfBounds)).
  { intros k i j (h2 & gr) Hk Hi Hj (Sm2 & Dim & I2). cbn [fst snd] in *. rewrite SzA in Hi. rewrite SzB in Hj.
    destruct (nth_error (canon (v_L vA)) (Z.to_nat i)) as [cA|] eqn:Ei; [|apply nth_error_None in Ei; lia].
    destruct (nth_error (canon (v_L vB)) (Z.to_nat j)) as [cB|] eqn:Ej; [|apply nth_error_None in Ej; lia].
    assert (Fl : expo cA k = 0 -> ovgrad_body ord None sA sB down up f k i j (h2, gr) = Fail OutOfBounds).
    { intros He. pose proof (body_fail ord None vA vB sA sB down up f HLA HLB ZB SzB Hdn h2 gr k (Z.to_nat i) (Z.to_nat j) cA cB
         (comp_lists_same _ _ _ _ _ _ Sm2 CL) Hk Ei Ej eq_refl ltac:(lia) He) as Fl. rewrite !Z2Nat.id in Fl by lia. exact Fl. }
    split; [|intros cA' Hc He; injection Hc as <-; apply Fl; exact He].
    destruct (Z.eq_dec (expo cA k) 0) as [He|He]; [right; apply Fl; exact He|left].
    pose proof (in_range_idx i j (v_size vA) (v_size vB) ltac:(lia) ltac:(lia)) as Hx.
    destruct (I2 k (i * v_size vB + j) Hk Hx) as (g & Hg).
    assert (Hc : In cA (canon (v_L vA))) by (eapply nth_error_In; exact Ei).
    destruct (body_ok ord None vA vB sA sB down up f sz HLA HLB ZB SzB Hup Hdn ltac:(lia) h2 gr k (Z.to_nat i) (Z.to_nat j) _ _
       (comp_lists_same _ _ _ _ _ _ Sm2 CL) Dim Hk Ei Ej) with (g := g) as (h3 & gr3 & E3 & Sm3 & D3 & V3 & F3).
    { right. right. destruct cA as [[n l] m]. apply in_canon in Hc. unfold expo in *. destruct (k =? 0); [lia|]. destruct (k =? 1); lia. }
    { rewrite !Z2Nat.id by lia. exact Hg. }
    rewrite !Z2Nat.id in E3, V3, F3 by lia.
    exists (h3, gr3). split; [exact E3|]. split; [eapply same_heap_trans; eassumption|]. split; [cbn; congruence|]. cbn [snd].
    intros k' x Hk' Hx'. destruct (list_eq_dec Z.eq_dec [k'; x] [k; i * v_size vB + j]) as [Eq|Ne].
    - rewrite Eq. eauto.
    - rewrite F3 by exact Ne. apply I2; assumption. }
  assert (NBp : 0 < sh_cart_size sB).
  { rewrite SzB, ZB. pose proof (n_cart_2 (v_L vB) ltac:(lia)). nia. }
  assert (OR1 : forall k i st, 0 <= k < 3 -> 0 <= i < sh_cart_size sA -> Inv st ->
     (exists st', for_range 0 (sh_cart_size sB) (fun j => ovgrad_body ord None sA sB down up f k i j) st = Ok st' /\ Inv st') \/
     for_range 0 (sh_cart_size sB) (fun j => ovgrad_body ord None sA sB down up f k i j) st = Fail OutOfBounds).
  { intros k i st Hk Hi Is. apply for_range_ok_or; [exact Is|]. intros j s Hj Is'. apply (B k i j s Hk Hi Hj Is'). }
  apply (for_range_fail_some Inv); [exact I0| |].
  - intros k st Hk Is. apply for_range_ok_or; [exact Is|]. intros i s Hi Is'. apply OR1; assumption.
  - exists 0. split; [lia|]. intros st Is. apply (for_range_fail_some Inv); [exact Is| |].
    + intros i s Hi Is'. apply OR1; [lia|exact Hi|exact Is'].
    + assert (Hin : In (0, v_L vA, 0) (canon (v_L vA))) by (apply in_canon; lia).
      apply In_nth_error in Hin. destruct Hin as (i & Ei).
      assert (Hil : (i < length (canon (v_L vA)))%nat) by (apply nth_error_Some; congruence).
      exists (Z.of_nat i). split; [rewrite SzA, ZA; lia|]. intros s Is'.
      apply (for_range_fail_some Inv); [exact Is'| |].
      * intros j s' Hj Is''. apply (B 0 (Z.of_nat i) j s'); [lia|rewrite SzA, ZA; lia|exact Hj|exact Is''].
      * exists 0. split; [lia|]. intros s' Is''. apply (B 0 (Z.of_nat i) 0 s') with (cA := (0, v_L vA, 0)); [lia|rewrite SzA, ZA; lia|lia|exact Is''| |reflexivity].
        rewrite Nat2Z.id. exact Ei.
Qed.

Lemma overlap_gradient_overrun ord h pA pB vA vB ca cb point grad : heap_wf h -> std_shell h pA vA ca -> std_shell h pB vB cb ->
  separate h pA pB -> 0 < v_L vA <= 8 -> v_L vB <= 9 -> grad_fits grad vA vB ->
  points_are_equal (v_origin vA) (v_origin vB) = false ->
  points_are_equal (v_origin vA) point = true \/ points_are_equal (v_origin vB) point = true ->
  overlap_gradient ord None h pA pB point grad = Fail OutOfBounds.
Proof.
  intros W SA SB Sep LA LB (sz & Dg & Hsz) HAB HD. unfold overlap_gradient.
  destruct (std_loads _ _ _ _ W SA) as (sA & EA & _ & SzA & OA & _).
  destruct (std_loads _ _ _ _ W SB) as (sB & EB & _ & SzB & OB & _).
  rewrite EA, bind_ok, EB, bind_ok, SzA, SzB, OA, OB.
  pose proof (std_size _ _ _ _ SA) as NA. pose proof (std_size _ _ _ _ SB) as NB.
  destruct (clear_grad grad sz (v_size vA * v_size vB) Dg ltac:(nia)) as (g0 & E0 & D0 & V0 & O0).
  rewrite E0, bind_ok, HAB.
  assert (Fl : forall f, diff_bra_contribution ord None h pA pB g0 f = Fail OutOfBounds).
  { intros f. apply (contribution_overrun ord h pA pB vA vB ca cb g0 f W SA SB Sep LA LB).
    - exists sz. split; [congruence|exact Hsz].
    - intros k x Hk Hx. exists 0%R. apply V0; assumption. }
  destruct (points_are_equal (v_origin vA) point).
  - rewrite Fl. reflexivity.
  - rewrite bind_ok. destruct HD as [HD| ->]; [discriminate|]. apply Fl.
Qed.

(** ** Shells created one after the other are separate *)

Lemma new_shell_separate ord h origin L n coeffs alpha lc la p h' pB vB cb : heap_wf h -> 0 <= L ->
  hblk h coeffs = Some (ODbls lc) -> hblk h alpha = Some (ODbls la) ->
  0 <= n <= Z.of_nat (length lc) -> n <= Z.of_nat (length la) ->
  std_shell h pB vB cb -> new_shell ord h origin L n coeffs alpha = Ok (p, h') ->
  separate h' p pB /\ separate h' pB p.
Proof.
  intros W HL Hc Ha Hn Hn2 SB E.
  destruct (new_shell_rep ord h h [] origin L n coeffs alpha lc la W (rep_start h W) HL Hc Ha) as (h1 & x & E1 & Rp & _).
  { split; lia. } { split; lia. }
  rewrite E in E1. injection E1 as -> <-. rewrite app_nil_r in Rp. destruct Rp as (W' & _ & _ & Cells & Old).
  destruct (std_loads _ _ _ _ W SB) as (sB & EB & _ & _ & _ & CB).
  assert (Keep : forall q o, hblk h q = Some o -> hblk h' q = Some o).
  { intros q o Hq. rewrite Old; [exact Hq|]. intros Hin. apply in_map_iff in Hin. destruct Hin as ((q' & o') & <- & Hin).
    apply Cells in Hin. cbn in Hq. destruct Hin. congruence. }
  assert (EX : load_shell h' (sr_ptr x) = Ok (mkShell (sr_L x) (sr_size x) (sr_cart x) (sr_n x) (sr_pc x) (sr_pa x) (sr_origin x))).
  { destruct (Cells _ _ (or_introl eq_refl)) as (H1 & _). unfold load_shell. rewrite (heap_wf_nonzero h' _ _ W' H1). reflexivity. }
  assert (EB' : load_shell h' pB = Ok sB).
  { destruct (std_loads _ _ _ _ W' (std_old _ _ _ _ _ Keep SB)) as (sB' & EB' & _).
    destruct SB as ((s & ? & ? & H1 & _) & _). unfold load_shell in *. rewrite (heap_wf_nonzero h _ _ W H1) in EB.
    rewrite (heap_wf_nonzero h' _ _ W' (Keep _ _ H1)). exact EB. }
  assert (Ne : sr_cart x <> sh_cart_list sB).
  { intros Eq. destruct (Cells _ _ (or_intror (or_introl eq_refl))) as (_ & H0). rewrite Eq in H0. congruence. }
  split; intros s1 s2 H1 H2.
  - rewrite EX in H1. rewrite EB' in H2. injection H1 as <-. injection H2 as <-. exact Ne.
  - rewrite EB' in H1. rewrite EX in H2. injection H1 as <-. injection H2 as <-. cbn. congruence.
Qed.

Lemma two_shells LA oA prA LB oB prB : 0 <= LA -> 0 <= LB ->
  exists h pA pB vA vB ca cb, heap_wf h /\ std_shell h pA vA ca /\ std_shell h pB vB cb /\ separate h pA pB /\
    v_L vA = LA /\ v_origin vA = oA /\ v_prims vA = prA /\ v_L vB = LB /\ v_origin vB = oB /\ v_prims vB = prB.
Proof.
  intros HA HB.
  destruct (shells_exist [(LB, oB, prB)]) as (h & ps & W & F).
  { intros L o pr [E | []]. injection E as <- <- <-. exact HB. }
  inversion F as [|? pB ? ? HB' F1]; subst. destruct HB' as (vB & cb & SB & LB' & OB & PB).
  destruct (halloc h (ODbls (map fst prA))) as [p1 h1] eqn:E1. destruct (halloc_wf _ _ _ _ W E1) as (W1 & B1 & K1).
  destruct (halloc h1 (ODbls (map snd prA))) as [p2 h2] eqn:E2. destruct (halloc_wf _ _ _ _ W1 E2) as (W2 & B2 & K2).
  assert (N1 : 0 <= Z.of_nat (length prA) <= Z.of_nat (length (map fst prA))) by (rewrite map_length; lia).
  assert (N2 : Z.of_nat (length prA) <= Z.of_nat (length (map snd prA))) by (rewrite map_length; lia).
  destruct (new_shell_std OrderDirac h2 oA LA (Z.of_nat (length prA)) p1 p2 (map fst prA) (map snd prA) W2 HA (K2 _ _ B1) B2 N1 N2)
      as (p & h' & v & comps & E & W' & S' & HL & HO & HP & K).
  assert (SB2 : std_shell h2 pB vB cb) by (eapply std_old; [|exact SB]; intros q o Hq; apply K2, K1, Hq).
  destruct (new_shell_separate OrderDirac h2 oA LA _ p1 p2 _ _ p h' pB vB cb W2 HA (K2 _ _ B1) B2 N1 N2 SB2 E) as (Sep & _).
  exists h', p, pB, v, vB, comps, cb. split; [exact W'|]. split; [exact S'|]. split; [eapply std_old; [exact K|exact SB2]|].
  split; [exact Sep|]. split; [exact HL|]. split; [exact HO|]. split; [|auto].
  rewrite HP, combine_split_fs, Nat2Z.id, firstn_all. reflexivity.
Qed.

(** the claim of C26 is false: there are shells for which the strictly checked
    routine reads outside its matrices *)
Lemma overlap_gradient_unsafe : exists ord h pA pB vA vB ca cb point grad,
  heap_wf h /\ std_shell h pA vA ca /\ std_shell h pB vB cb /\ separate h pA pB /\
  exps_pos vA /\ exps_pos vB /\ v_L vA = 1 /\ v_L vB = 0 /\ grad_fits grad vA vB /\
  overlap_gradient ord None h pA pB point grad = Fail OutOfBounds.
Proof.
  destruct (two_shells 1 (0, 0, 0)%R [(1, 1)%R] 0 (0, 0, 1)%R [(1, 2)%R] ltac:(lia) ltac:(lia))
    as (h & pA & pB & vA & vB & ca & cb & W & SA & SB & Sep & LA & OA & PA & LB & OB & PB).
  exists OrderDirac, h, pA, pB, vA, vB, ca, cb, (0, 0, 0)%R, (aundef [3; 3]).
  assert (F : grad_fits (aundef [3; 3]) vA vB).
  { exists 3. split; [reflexivity|]. pose proof SA as (_ & _ & -> & _). pose proof SB as (_ & _ & -> & _). rewrite LA, LB. vm_compute. discriminate. }
  split; [exact W|]. split; [exact SA|]. split; [exact SB|]. split; [exact Sep|].
  split; [intros c a; rewrite PA; intros [E | []]; injection E as <- <-; lra|].
  split; [intros c a; rewrite PB; intros [E | []]; injection E as <- <-; lra|].
  split; [exact LA|]. split; [exact LB|]. split; [exact F|].
  apply (overlap_gradient_overrun OrderDirac h pA pB vA vB ca cb); try assumption; try lia.
  - rewrite OA, OB. destruct (points_are_equal (0, 0, 0)%R (0, 0, 1)%R) eqn:E; [|reflexivity].
    apply points_iff in E. cbn in E. destruct E as (_ & _ & E). rewrite Rminus_0_l, Rabs_Ropp, Rabs_R1 in E. lra.
  - left. rewrite OA. apply points_refl.
Qed.
