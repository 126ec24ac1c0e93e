(** * The GRPP gradient as derivatives of matrix elements (C29) *)

From Coq Require Import ZArith List Lia Bool Reals Lra Permutation.
From Coquelicot Require Import Coquelicot.
From Verif Require Import Base Loops Sums CartModel CartProofs HeapModel HeapProofs HeapSpec OneElModel OneElProofs OneElPairs OneElSpec OneElThms
  GaussProd OneElInt SphProofs LmatModel UtilProofs OvGradModel OvDeriv OvGradProofs OvGradThms OutercoreModel OutercoreProofs OutercoreMain OutercoreThms GrppModel GrppFull GrppHeap GrppGrad GrppGrad2 GrppThms.
Import ListNotations.
Open Scope Z_scope.

(** points that the test of the library takes for the same one are the same *)
Definition told_apart (ps : list (R * R * R)) : Prop := forall P Q, In P ps -> In Q ps -> points_are_equal P Q = true -> P = Q.

(** 1 if the point is at the centre, else 0 *)
Definition at_point (P Q : R * R * R) : R := if points_are_equal P Q then 1%R else 0%R.

Lemma weights_value A B C D : told_apart [A; B; C; D] -> weights A B C D = (at_point A D - at_point C D, at_point B D - at_point C D)%R.
Proof.
  intros T. unfold weights, at_point.
  assert (IA : In A [A; B; C; D]) by (cbn; tauto). assert (IB : In B [A; B; C; D]) by (cbn; tauto). assert (IC : In C [A; B; C; D]) by (cbn; tauto). assert (ID : In D [A; B; C; D]) by (cbn; tauto).
  rewrite (points_sym C B).
  destruct (points_are_equal A C) eqn:AC; destruct (points_are_equal B C) eqn:BC; cbn [andb negb].
  - apply T in AC, BC; try assumption. subst. destruct (points_are_equal C D); f_equal; ring.
  - apply T in AC; try assumption. subst. rewrite (points_sym C B), BC. destruct (points_are_equal C D) eqn:CD; cbn [andb negb fst snd].
    + destruct (points_are_equal B D) eqn:BD; cbn [andb negb fst snd]; [|f_equal; ring]. apply T in BD, CD; try assumption. subst. rewrite points_refl in BC. discriminate.
    + destruct (points_are_equal B D); cbn [andb negb fst snd]; f_equal; ring.
  - apply T in BC; try assumption. subst. rewrite AC. destruct (points_are_equal C D) eqn:CD; cbn [andb negb fst snd].
    + destruct (points_are_equal A D) eqn:AD; cbn [andb negb fst snd]; [|f_equal; ring]. apply T in AD, CD; try assumption. subst. rewrite points_refl in AC. discriminate.
    + destruct (points_are_equal A D); cbn [andb negb fst snd]; f_equal; ring.
  - destruct (points_are_equal A B) eqn:AB; cbn [andb negb fst snd].
    + apply T in AB; try assumption. subst. destruct (points_are_equal B D) eqn:BD; destruct (points_are_equal C D) eqn:CD; cbn [andb negb fst snd]; try (f_equal; ring).
      apply T in BD, CD; try assumption. subst. rewrite points_refl in BC. discriminate.
    + destruct (points_are_equal A D); destruct (points_are_equal B D); destruct (points_are_equal C D); cbn [andb negb fst snd]; f_equal; ring.
Qed.

Lemma weights_coincide A B C D : points_are_equal A C = true -> points_are_equal B C = true -> weights A B C D = (0, 0)%R.
Proof. intros H1 H2. unfold weights. rewrite H1, H2. reflexivity. Qed.
Lemma weights_nowhere A B C D : points_are_equal A D = false -> points_are_equal B D = false -> points_are_equal C D = false -> weights A B C D = (0, 0)%R.
Proof. intros H1 H2 H3. unfold weights. rewrite H1, H2, H3. destruct (points_are_equal A C && points_are_equal B C); reflexivity. Qed.

(** ** Operators *)

Definition fn3 := (R -> R -> R -> R)%type.

(** [V k f g v]: the k-th component of the operator has the matrix element v between f and g *)
Definition bilinear (V : Z -> fn3 -> fn3 -> R -> Prop) : Prop :=
  (forall k f f' g g' v, (forall x y z, f x y z = f' x y z) -> (forall x y z, g x y z = g' x y z) -> V k f g v -> V k f' g' v) /\
  (forall k f f' g v v' s, V k f g v -> V k f' g v' -> V k (fun x y z => f x y z + s * f' x y z)%R g (v + s * v')%R) /\
  (forall k f g g' v v' s, V k f g v -> V k f g' v' -> V k f (fun x y z => g x y z + s * g' x y z)%R (v + s * v')%R).

(** derivative of a basis function with respect to coordinate c of its centre *)
Definition dphi (v : sview) (cv : Z * Z * Z) (c : Z) : fn3 := fun x y z =>
  Derive (fun t => phi (v_L v) (set_coord (v_origin v) c t) (v_prims v) cv x y z) (coord3 (v_origin v) c).

(** the values f are the matrix elements between the functions of the two shells, up to e *)
Definition values_close (V : Z -> fn3 -> fn3 -> R -> Prop) (vA vB : sview) (f : Z -> Z -> Z -> R) (e : R) : Prop :=
  forall k i j cA cB, -1 <= k < 3 -> nth_error (canon (v_L vA)) i = Some cA -> nth_error (canon (v_L vB)) j = Some cB ->
    exists v, V k (phi_of vA cA) (phi_of vB cB) v /\ (Rabs (f k (Z.of_nat i) (Z.of_nat j) - v) <= e)%R.

(** the full integrals between two shells are those of V, up to e *)
Definition accurate (V : Z -> fn3 -> fn3 -> R -> Prop) (rt : routines) (C : R * R * R) (gv : gview) (e : R) (vA vB : sview) : Prop :=
  exists f, evaluates rt C gv vA vB f /\ values_close V vA vB f e.

Lemma posn_index l c : In c l -> exists i, nth_error l i = Some c /\ Z.of_nat i = posn l c.
Proof.
  intros H. destruct (posn_nth l c H) as (E & Hr). exists (Z.to_nat (posn l c)). split; [exact E|lia].
Qed.

Lemma dphi_value v cv c x y z : 0 <= v_L v -> In cv (canon (v_L v)) -> 0 <= c < 3 ->
  dphi v cv c x y z = (phi_of (up_view v) (shift cv c 1) x y z - IZR (expo cv c) * (if (0 <? expo cv c)%Z then phi_of (down_view v) (shift cv c (-1)) x y z else 0))%R.
Proof.
  intros HL Hin Hc. apply is_derive_unique. apply (phi_center_der (v_L v) (v_origin v) (v_prims v) cv c x y z Hc). apply (canon_nonneg _ _ Hin HL).
Qed.

Lemma bra_close V vA vB fu fd e i j cA cB c k : bilinear V -> 0 <= v_L vA -> 0 <= c < 3 -> -1 <= k < 3 ->
  values_close V (up_view vA) vB fu e -> (0 < v_L vA -> values_close V (down_view vA) vB fd e) ->
  nth_error (canon (v_L vA)) i = Some cA -> nth_error (canon (v_L vB)) j = Some cB ->
  exists v, V k (dphi vA cA c) (phi_of vB cB) v /\ (Rabs (bra_value (v_L vA) fu fd cA (Z.of_nat j) c k - v) <= e * (1 + IZR (expo cA c)))%R.
Proof.
  intros (Ext & LinL & _) HL Hc Hk Hu Hd Hi Hj.
  assert (InA : In cA (canon (v_L vA))) by (eapply nth_error_In; exact Hi).
  destruct (posn_up (v_L vA) cA c HL InA Hc) as (Iu & _). destruct (posn_index _ _ Iu) as (iu & Eu & Pu).
  destruct (Hu k iu j _ cB Hk Eu Hj) as (vu & Vu & Bu). rewrite Pu in Bu.
  pose proof (expo_nonneg (v_L vA) cA c InA HL) as En. unfold bra_value.
  destruct (Z.ltb_spec 0 (expo cA c)) as [Hp|Hz].
  - assert (HLp : 0 < v_L vA).
    { destruct (Z.eq_dec (v_L vA) 0) as [E0|]; [|lia]. exfalso. destruct cA as [[n l] m]. apply in_canon in InA. unfold expo in Hp. destruct (c =? 0); [lia|]. destruct (c =? 1); lia. }
    destruct (posn_down (v_L vA) cA c HLp InA Hc Hp) as (Id & _). destruct (posn_index _ _ Id) as (id & Ed & Pd).
    destruct (Hd HLp k id j _ cB Hk Ed Hj) as (vd & Vd & Bd). rewrite Pd in Bd.
    exists (vu + - IZR (expo cA c) * vd)%R. split.
    + eapply Ext; [|reflexivity|exact (LinL k _ _ _ vu vd (- IZR (expo cA c))%R Vu Vd)]. intros x y z. rewrite dphi_value by assumption. destruct (Z.ltb_spec 0 (expo cA c)); [ring|lia].
    + assert (Hn : (0 <= IZR (expo cA c))%R) by (apply IZR_le; lia). revert Bu Bd Hn. generalize (IZR (expo cA c)) (fu k (posn (canon (v_L vA + 1)) (shift cA c 1)) (Z.of_nat j)) (fd k (posn (canon (v_L vA - 1)) (shift cA c (-1))) (Z.of_nat j)).
      intros n a b Ba Bb Hn. replace (a - n * b - (vu + - n * vd))%R with ((a - vu) + n * (vd - b))%R by ring.
      eapply Rle_trans; [apply Rabs_triang|]. rewrite Rabs_mult, (Rabs_pos_eq n Hn), (Rabs_minus_sym vd b). nra.
  - assert (E0 : expo cA c = 0) by lia. exists vu. split.
    + eapply Ext; [|reflexivity|exact Vu]. intros x y z. rewrite dphi_value by assumption. destruct (Z.ltb_spec 0 (expo cA c)); [lia|ring].
    + rewrite E0. rewrite Rmult_0_l, Rminus_0_r, Rplus_0_r, Rmult_1_r. exact Bu.
Qed.

Lemma ket_close V vA vB fu fd e i j cA cB c k : bilinear V -> 0 <= v_L vB -> 0 <= c < 3 -> -1 <= k < 3 ->
  values_close V vA (up_view vB) fu e -> (0 < v_L vB -> values_close V vA (down_view vB) fd e) ->
  nth_error (canon (v_L vA)) i = Some cA -> nth_error (canon (v_L vB)) j = Some cB ->
  exists v, V k (phi_of vA cA) (dphi vB cB c) v /\ (Rabs (ket_value (v_L vB) fu fd (Z.of_nat i) cB c k - v) <= e * (1 + IZR (expo cB c)))%R.
Proof.
  intros (Ext & _ & LinR) HL Hc Hk Hu Hd Hi Hj.
  assert (InB : In cB (canon (v_L vB))) by (eapply nth_error_In; exact Hj).
  destruct (posn_up (v_L vB) cB c HL InB Hc) as (Iu & _). destruct (posn_index _ _ Iu) as (iu & Eu & Pu).
  destruct (Hu k i iu cA _ Hk Hi Eu) as (vu & Vu & Bu). rewrite Pu in Bu.
  pose proof (expo_nonneg (v_L vB) cB c InB HL) as En. unfold ket_value.
  destruct (Z.ltb_spec 0 (expo cB c)) as [Hp|Hz].
  - assert (HLp : 0 < v_L vB).
    { destruct (Z.eq_dec (v_L vB) 0) as [E0|]; [|lia]. exfalso. destruct cB as [[n l] m]. apply in_canon in InB. unfold expo in Hp. destruct (c =? 0); [lia|]. destruct (c =? 1); lia. }
    destruct (posn_down (v_L vB) cB c HLp InB Hc Hp) as (Id & _). destruct (posn_index _ _ Id) as (id & Ed & Pd).
    destruct (Hd HLp k i id cA _ Hk Hi Ed) as (vd & Vd & Bd). rewrite Pd in Bd.
    exists (vu + - IZR (expo cB c) * vd)%R. split.
    + eapply Ext; [reflexivity| |exact (LinR k _ _ _ vu vd (- IZR (expo cB c))%R Vu Vd)]. intros x y z. rewrite dphi_value by assumption. destruct (Z.ltb_spec 0 (expo cB c)); [ring|lia].
    + assert (Hn : (0 <= IZR (expo cB c))%R) by (apply IZR_le; lia). revert Bu Bd Hn. generalize (IZR (expo cB c)) (fu k (Z.of_nat i) (posn (canon (v_L vB + 1)) (shift cB c 1))) (fd k (Z.of_nat i) (posn (canon (v_L vB - 1)) (shift cB c (-1)))).
      intros n a b Ba Bb Hn. replace (a - n * b - (vu + - n * vd))%R with ((a - vu) + n * (vd - b))%R by ring.
      eapply Rle_trans; [apply Rabs_triang|]. rewrite Rabs_mult, (Rabs_pos_eq n Hn), (Rabs_minus_sym vd b). nra.
  - assert (E0 : expo cB c = 0) by lia. exists vu. split.
    + eapply Ext; [reflexivity| |exact Vu]. intros x y z. rewrite dphi_value by assumption. destruct (Z.ltb_spec 0 (expo cB c)); [lia|ring].
    + rewrite E0. rewrite Rmult_0_l, Rminus_0_r, Rplus_0_r, Rmult_1_r. exact Bu.
Qed.

(** ** The routine *)

Definition grad_room (vA vB : sview) (grad : mats) : Prop := forall k, -1 <= k < 3 -> exists sz, adims (mat_k grad k) = [3; sz] /\ v_size vA * v_size vB <= sz.

(** element (i, j) of the derivative along coordinate c of the k-th matrix *)
Definition grad4_at (grad : mats) (vB : sview) (k c : Z) (i j : nat) : res R := aget (mat_k grad k) [c; Z.of_nat i * v_size vB + Z.of_nat j].

Definition only_grad4 (grad grad' : mats) (vA vB : sview) : Prop := forall k, -1 <= k < 3 -> only_grad (mat_k grad k) (mat_k grad' k) vA vB.

Lemma mat_k_all (P : arr R -> Prop) M : (let '(m0, m1, m2, m3) := M in P m0 /\ P m1 /\ P m2 /\ P m3) -> forall k, P (mat_k M k).
Proof. destruct M as [[[m0 m1] m2] m3]. intros (H0 & H1 & H2 & H3) k. unfold mat_k. destruct (k =? -1); [exact H0|]. destruct (k =? 0); [exact H1|]. destruct (k =? 1); assumption. Qed.

Lemma mat_k_four (P : arr R -> Prop) M : (forall k, -1 <= k < 3 -> P (mat_k M k)) -> let '(m0, m1, m2, m3) := M in P m0 /\ P m1 /\ P m2 /\ P m3.
Proof.
  destruct M as [[[m0 m1] m2] m3]. intros H. split; [apply (H (-1)); lia|]. split; [apply (H 0); lia|]. split; [apply (H 1); lia|apply (H 2); lia].
Qed.

Lemma room_dims vA vB grad : grad_room vA vB grad -> exists szs, dims4 grad szs /\ min4 (v_size vA * v_size vB) szs.
Proof.
  intros H. pose proof (mat_k_four (fun m => exists sz, adims m = [3; sz] /\ v_size vA * v_size vB <= sz) grad H) as Q. destruct grad as [[[m0 m1] m2] m3]. destruct Q as ((s0 & D0 & Z0) & (s1 & D1 & Z1) & (s2 & D2 & Z2) & (s3 & D3 & Z3)).
  exists (s0, s1, s2, s3). repeat split; assumption.
Qed.

Lemma get4_mat M ix f k : get4 M ix = Ok (mk4 f) -> -1 <= k < 3 -> aget (mat_k M k) ix = Ok (f k).
Proof.
  destruct M as [[[m0 m1] m2] m3]. unfold get4, read4. intros G Hk. bindinv G. bindinv G. bindinv G. bindinv G. unfold mk4 in G. injection G as -> -> -> ->.
  unfold mat_k. destruct (Z.eqb_spec k (-1)) as [-> |]; [exact E|]. destruct (Z.eqb_spec k 0) as [-> |]; [exact E0|]. destruct (Z.eqb_spec k 1) as [-> |]; [exact E1|]. assert (k = 2) by lia. subst. exact E2.
Qed.

Lemma agree_only grad grad' vA vB szs : dims4 grad szs -> dims4 grad' szs -> agree4 (out_block (v_size vA * v_size vB)) grad grad' -> only_grad4 grad grad' vA vB.
Proof.
  destruct grad as [[[m0 m1] m2] m3], grad' as [[[n0 n1] n2] n3], szs as [[[s0 s1] s2] s3].
  intros (D0 & D1 & D2 & D3) (E0 & E1 & E2 & E3) (A0 & A1 & A2 & A3) k Hk.
  assert (One : forall m n s, (forall ix, out_block (v_size vA * v_size vB) ix -> aget n ix = aget m ix) -> adims n = [3; s] -> adims m = [3; s] -> only_grad m n vA vB).
  { intros m n s O E D. split; [congruence|]. intros x y Hx. apply O. intros (c & y' & Q & Hc & Hy). injection Q as -> ->. tauto. }
  unfold mat_k. destruct (k =? -1); [eapply One; eassumption|]. destruct (k =? 0); [eapply One; eassumption|]. destruct (k =? 1); eapply One; eassumption.
Qed.

Lemma reached_refl C ocp h : heap_wf h -> reached C ocp h h.
Proof. intros W. split; [exact W|left; reflexivity]. Qed.

Lemma reached_trans C ocp h h1 h2 : reached C ocp h h1 -> reached C ocp h1 h2 -> reached C ocp h h2.
Proof.
  intros R1 (W2 & [E2|E2]); split; try exact W2.
  - destruct R1 as (_ & [E1|E1]); [left|right]; intros q; rewrite E2; apply E1.
  - right. intros q. rewrite E2. apply (reached_moved _ _ _ _ R1).
Qed.

Section Gradient.
  Variables (V : Z -> fn3 -> fn3 -> R -> Prop) (rt : routines) (h : heap) (pA pB g : Z) (gv : gview) (ocp : list Z) (C : R * R * R) (vA vB : sview) (ca cb : list (Z * Z * Z)) (e : R).

  Definition setting : Prop :=
    heap_wf h /\ rt_init rt = true /\ std_shell h pA vA ca /\ std_shell h pB vB cb /\ grpp_at h g gv ocp /\ ~ In pA ocp /\ ~ In pB ocp /\
    accurate V rt C gv e (up_view vA) vB /\ (0 < v_L vA -> accurate V rt C gv e (down_view vA) vB) /\
    accurate V rt C gv e vA (up_view vB) /\ (0 < v_L vB -> accurate V rt C gv e vA (down_view vB)).

  (** for every accuracy the values of the bra and ket derivatives are the same in all calls *)
  Lemma gradient_thm : bilinear V -> setting ->
    exists bra ket : Z -> Z -> nat -> nat -> R,
      (forall k c i j cA cB, -1 <= k < 3 -> 0 <= c < 3 -> nth_error ca i = Some cA -> nth_error cb j = Some cB ->
         (exists v, V k (dphi vA cA c) (phi_of vB cB) v /\ (Rabs (bra k c i j - v) <= e * (1 + IZR (expo cA c)))%R) /\
         (exists v, V k (phi_of vA cA) (dphi vB cB c) v /\ (Rabs (ket k c i j - v) <= e * (1 + IZR (expo cB c)))%R)) /\
      forall ord oob h1 D grad, (oob <> None \/ (v_L vA = 0 /\ v_L vB = 0)) -> reached C ocp h h1 -> told_apart [v_origin vA; v_origin vB; C; D] -> grad_room vA vB grad ->
        exists h2 grad', full_grpp_integrals_gradient ord oob rt h1 pA pB g C D grad = Ok (h2, grad') /\ reached C ocp h h2 /\ only_grad4 grad grad' vA vB /\
          forall k c i j cA cB, -1 <= k < 3 -> 0 <= c < 3 -> nth_error ca i = Some cA -> nth_error cb j = Some cB ->
            grad4_at grad' vB k c i j = Ok ((at_point (v_origin vA) D - at_point C D) * bra k c i j + (at_point (v_origin vB) D - at_point C D) * ket k c i j)%R.
  Proof.
    intros BV (W & I & SA & SB & G & NA & NB & (fuA & EuA & VuA) & HdA & (fuB & EuB & VuB) & HdB).
    pose proof (std_canon _ _ _ _ SA) as ->. pose proof (std_canon _ _ _ _ SB) as ->.
    pose proof SA as (_ & HLA & _). pose proof SB as (_ & HLB & _).
    assert (HdA' : exists fdA, 0 < v_L vA -> evaluates rt C gv (down_view vA) vB fdA /\ values_close V (down_view vA) vB fdA e).
    { destruct (Z_lt_dec 0 (v_L vA)) as [Hp|]; [destruct (HdA Hp) as (fd & Q); exists fd; intros _; exact Q|exists (fun _ _ _ => 0%R); intros; lia]. }
    assert (HdB' : exists fdB, 0 < v_L vB -> evaluates rt C gv vA (down_view vB) fdB /\ values_close V vA (down_view vB) fdB e).
    { destruct (Z_lt_dec 0 (v_L vB)) as [Hp|]; [destruct (HdB Hp) as (fd & Q); exists fd; intros _; exact Q|exists (fun _ _ _ => 0%R); intros; lia]. }
    destruct HdA' as (fdA & HfA), HdB' as (fdB & HfB).
    exists (fun k c i j => bra_value (v_L vA) fuA fdA (nth i (canon (v_L vA)) (0, 0, 0)) (Z.of_nat j) c k).
    exists (fun k c i j => ket_value (v_L vB) fuB fdB (Z.of_nat i) (nth j (canon (v_L vB)) (0, 0, 0)) c k).
    split.
    - intros k c i j cA cB Hk Hc Hi Hj. rewrite (nth_error_nth _ _ _ Hi), (nth_error_nth _ _ _ Hj). split.
      + eapply bra_close; try eassumption. intros Hp. apply (HfA Hp).
      + eapply ket_close; try eassumption. intros Hp. apply (HfB Hp).
    - intros ord oob h1 D grad Hoob Rc T Rm. destruct (room_dims _ _ _ Rm) as (szs & D4 & M4).
      destruct (reached_grpp _ _ _ _ _ _ W Rc G) as (gv' & G1 & Hgv).
      destruct (full_gradient ord oob rt h1 pA pB g gv' ocp C vA vB fuA fdA fuB fdB (proj1 Rc) I (reached_std _ _ _ _ _ _ _ Rc SA NA) (reached_std _ _ _ _ _ _ _ Rc SB NB) G1 NA NB
         (evaluates_either _ _ _ _ _ _ _ Hgv EuA) (fun Hp => evaluates_either _ _ _ _ _ _ _ Hgv (proj1 (HfA Hp)))
         (evaluates_either _ _ _ _ _ _ _ Hgv EuB) (fun Hp => evaluates_either _ _ _ _ _ _ _ Hgv (proj1 (HfB Hp))) Hoob D grad szs D4 M4)
        as (h2 & g2 & E & Rc2 & D2 & A2 & _ & Vg).
      exists h2, g2. split; [exact E|]. split; [eapply reached_trans; eassumption|]. split; [eapply agree_only; eassumption|].
      intros k c i j cA cB Hk Hc Hi Hj. specialize (Vg c i j cA cB Hc Hi Hj). cbn [snd] in Vg. unfold combine in Vg. rewrite (weights_value _ _ _ _ T) in Vg. cbn [fst snd] in Vg.
      unfold grad4_at. rewrite (get4_mat _ _ _ k Vg Hk). rewrite (nth_error_nth _ _ _ Hi), (nth_error_nth _ _ _ Hj). reflexivity.
  Qed.
End Gradient.

(** ** Coincident centres, points where nothing is *)
Lemma gradient_zero ord oob rt h pA pB g C D vA vB ca cb grad : heap_wf h -> std_shell h pA vA ca -> std_shell h pB vB cb -> grad_room vA vB grad ->
  (points_are_equal (v_origin vA) C = true /\ points_are_equal (v_origin vB) C = true) \/
  (points_are_equal (v_origin vA) D = false /\ points_are_equal (v_origin vB) D = false /\ points_are_equal C D = false) ->
  exists grad', full_grpp_integrals_gradient ord oob rt h pA pB g C D grad = Ok (h, grad') /\ only_grad4 grad grad' vA vB /\
    forall k c i j cA cB, -1 <= k < 3 -> 0 <= c < 3 -> nth_error ca i = Some cA -> nth_error cb j = Some cB -> grad4_at grad' vB k c i j = Ok 0%R.
Proof.
  intros W SA SB Rm H. destruct (room_dims _ _ _ Rm) as (szs & D4 & M4). unfold full_grpp_integrals_gradient.
  destruct (std_loads _ _ _ _ W SA) as (sA & EA & _ & ZA & OA & _). destruct (std_loads _ _ _ _ W SB) as (sB & EB & _ & ZB & OB & _).
  rewrite EA, bind_ok, EB, bind_ok. destruct grad as [[[g0 g1] g2] g3]. rewrite ZA, ZB, OA, OB.
  pose proof (std_size _ _ _ _ SA) as PA. pose proof (std_size _ _ _ _ SB) as PB.
  destruct (clear4 _ g0 g1 g2 g3 szs D4 M4 ltac:(nia)) as (a & b & c & d & Ea & Eb & Ec & Ed & Dc & Ac & Vc).
  rewrite Ea, bind_ok, Eb, bind_ok, Ec, bind_ok, Ed, bind_ok. cbv zeta.
  exists (a, b, c, d). split.
  { destruct H as [(H1 & H2)|(H1 & H2 & H3)]; [rewrite H1, H2; reflexivity|]. rewrite H1, H2, H3.
    destruct (points_are_equal (v_origin vA) C && points_are_equal (v_origin vB) C); reflexivity. }
  split; [eapply agree_only; eassumption|]. intros k c0 i j cA cB Hk Hc Hi Hj.
  assert ((i < length ca)%nat) by (apply nth_error_Some; congruence). assert ((j < length cb)%nat) by (apply nth_error_Some; congruence).
  assert (Hx : 0 <= Z.of_nat i * v_size vB + Z.of_nat j < v_size vA * v_size vB) by nia.
  unfold grad4_at. pose proof (Vc c0 _ Hc Hx) as Q. change t0 with (mk4 (fun _ => 0%R)) in Q. rewrite (get4_mat _ _ _ k Q Hk). reflexivity.
Qed.

(** ** Translation *)
Lemma at_point_sum P Ds : NoDup Ds -> told_apart (P :: Ds) -> In P Ds -> lsum (fun D => at_point P D) Ds = 1%R.
Proof.
  intros N T Hin.
  assert (Z0 : forall l, (forall D, In D l -> In D Ds) -> ~ In P l -> lsum (fun D => at_point P D) l = 0%R).
  { induction l as [|D l IH]; intros Hl Hn; [reflexivity|]. rewrite lsum_cons, IH; [|intros; apply Hl; right; assumption|intros Hl'; apply Hn; right; exact Hl'].
    unfold at_point. destruct (points_are_equal P D) eqn:E; [|ring]. exfalso. apply Hn. left. symmetry. apply T; [left; reflexivity|right; apply Hl; left; reflexivity|exact E]. }
  assert (Q : forall l, NoDup l -> (forall D, In D l -> In D Ds) -> In P l -> lsum (fun D => at_point P D) l = 1%R).
  { induction l as [|D l IH]; intros Nl Hl HP; [destruct HP|]. inversion Nl as [|? ? Hnl Nl']; subst. rewrite lsum_cons. destruct HP as [-> |HP].
    - rewrite Z0; [|intros; apply Hl; right; assumption|exact Hnl]. unfold at_point. rewrite points_refl. ring.
    - rewrite IH; [|exact Nl'|intros; apply Hl; right; assumption|exact HP]. unfold at_point. destruct (points_are_equal P D) eqn:E; [|ring].
      exfalso. apply Hnl. assert (P = D) by (apply T; [left; reflexivity|right; apply Hl; left; reflexivity|exact E]). subst. exact HP. }
  apply Q; [exact N|auto|exact Hin].
Qed.

Lemma translation_thm V rt h pA pB g gv ocp C vA vB ca cb e Ds gs k c i j cA cB : bilinear V -> setting V rt h pA pB g gv ocp C vA vB ca cb e ->
  NoDup Ds -> told_apart (v_origin vA :: v_origin vB :: C :: Ds) -> In (v_origin vA) Ds -> In (v_origin vB) Ds -> In C Ds ->
  -1 <= k < 3 -> 0 <= c < 3 -> nth_error ca i = Some cA -> nth_error cb j = Some cB ->
  Forall2 (fun D x => exists ord junk h1 grad h2 grad', reached C ocp h h1 /\ grad_room vA vB grad /\
    full_grpp_integrals_gradient ord (Some junk) rt h1 pA pB g C D grad = Ok (h2, grad') /\ grad4_at grad' vB k c i j = Ok x) Ds gs ->
  lsum (fun x => x) gs = 0%R.
Proof.
  intros BV S N T HA HB HC Hk Hc Hi Hj F. destruct (gradient_thm V rt h pA pB g gv ocp C vA vB ca cb e BV S) as (bra & ket & _ & Q).
  assert (T4 : forall D, In D Ds -> told_apart [v_origin vA; v_origin vB; C; D]).
  { intros D HD P P' H1 H2. apply T; cbn in *; intuition (subst; tauto). }
  assert (Sum : forall l l', (forall D, In D l -> In D Ds) -> Forall2 (fun D x => exists ord junk h1 grad h2 grad', reached C ocp h h1 /\ grad_room vA vB grad /\
    full_grpp_integrals_gradient ord (Some junk) rt h1 pA pB g C D grad = Ok (h2, grad') /\ grad4_at grad' vB k c i j = Ok x) l l' ->
    lsum (fun x => x) l' = ((lsum (fun D => at_point (v_origin vA) D) l - lsum (fun D => at_point C D) l) * bra k c i j + (lsum (fun D => at_point (v_origin vB) D) l - lsum (fun D => at_point C D) l) * ket k c i j)%R).
  { intros l l' Hl F'. induction F' as [|D x l l' (ord & junk & h1 & grad & h2 & grad' & Rc & Rm & E & Ex) F' IH]; [cbn; ring|]. rewrite !lsum_cons, IH by (intros; apply Hl; right; assumption).
    destruct (Q ord (Some junk) h1 D grad ltac:(left; discriminate) Rc (T4 D (Hl D (or_introl eq_refl))) Rm) as (h3 & g3 & E3 & _ & _ & V3).
    rewrite E in E3. injection E3 as <- <-. rewrite (V3 k c i j cA cB Hk Hc Hi Hj) in Ex. injection Ex as <-. ring. }
  rewrite (Sum Ds gs (fun D H => H) F). rewrite !at_point_sum; try assumption; [ring| | |]; intros P P' H1 H2; apply T; cbn in *; tauto.
Qed.
