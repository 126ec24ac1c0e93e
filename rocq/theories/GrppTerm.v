(** * The gradients of the single terms of the operator (C30) *)

From Coq Require Import ZArith List Lia Bool Reals Lra Permutation.
From Coquelicot Require Import Coquelicot.
From Verif Require Import Base Loops Sums CartModel CartProofs HeapModel HeapProofs HeapSpec HeapGrpp OneElModel OneElProofs OneElPairs OneElSpec OneElThms
  GaussProd OneElInt SphProofs LmatModel UtilProofs OvGradModel OvDeriv OvGradProofs OvGradThms OutercoreModel OutercoreProofs OutercoreMain OutercoreThms GrppModel GrppFull GrppHeap GrppGrad GrppGrad2 GrppThms GrppGrad3.
Import ListNotations.
Open Scope Z_scope.

(** ** The temporaries *)

Definition grad_cells (p x y z n : Z) : list (Z * obj) :=
  [(p, OPtrs [x; y; z]); (x, ODbls (HeapModel.zeros 0%R n)); (y, ODbls (HeapModel.zeros 0%R n)); (z, ODbls (HeapModel.zeros 0%R n))].

Lemma alloc_gradients_rep h0 h cs pA pB vA vB ca cb : heap_wf h0 -> std_shell h0 pA vA ca -> std_shell h0 pB vB cb -> rep h0 h cs ->
  exists p x y z h', alloc_gradients h pA pB = Ok (p, aconst [3; v_size vA * v_size vB] 0%R, h') /\ rep h0 h' (grad_cells p x y z (v_size vA * v_size vB) ++ cs).
Proof.
  intros W SA SB R0. assert (K : forall q o, hblk h0 q = Some o -> hblk h q = Some o) by (intros q o; eapply rep_old; exact R0).
  destruct (std_loads _ _ _ _ (proj1 R0) (std_old _ _ _ _ _ K SA)) as (sA & EA & _ & ZA & _). destruct (std_loads _ _ _ _ (proj1 R0) (std_old _ _ _ _ _ K SB)) as (sB & EB & _ & ZB & _).
  unfold alloc_gradients. rewrite EA, bind_ok, EB, bind_ok, ZA, ZB. set (n := v_size vA * v_size vB). cbv zeta.
  destruct (halloc h (OPtrs [0; 0; 0])) as [p h1] eqn:E1. destruct (rep_alloc _ _ _ _ _ _ W R0 E1) as (R1 & _).
  destruct (halloc h1 (ODbls (HeapModel.zeros 0%R n))) as [x h2] eqn:E2. destruct (rep_alloc _ _ _ _ _ _ W R1 E2) as (R2 & _).
  destruct (rep_set_ptr h0 h2 ((x, ODbls (HeapModel.zeros 0%R n)) :: cs) p [] [0; 0] 0 x 0) as (h3 & E3 & R3); [eapply rep_perm; [|exact R2]; apply perm_swap|reflexivity|].
  rewrite E3, bind_ok.
  destruct (halloc h3 (ODbls (HeapModel.zeros 0%R n))) as [y h4] eqn:E4. destruct (rep_alloc _ _ _ _ _ _ W R3 E4) as (R4 & _).
  destruct (rep_set_ptr h0 h4 ((y, ODbls (HeapModel.zeros 0%R n)) :: (x, ODbls (HeapModel.zeros 0%R n)) :: cs) p [x] [0] 0 y 1) as (h5 & E5 & R5); [eapply rep_perm; [|exact R4]; apply perm_swap|reflexivity|].
  rewrite E5, bind_ok.
  destruct (halloc h5 (ODbls (HeapModel.zeros 0%R n))) as [z h6] eqn:E6. destruct (rep_alloc _ _ _ _ _ _ W R5 E6) as (R6 & _).
  destruct (rep_set_ptr h0 h6 ((z, ODbls (HeapModel.zeros 0%R n)) :: (y, ODbls (HeapModel.zeros 0%R n)) :: (x, ODbls (HeapModel.zeros 0%R n)) :: cs) p [x; y] [] 0 z 2) as (h7 & E7 & R7); [eapply rep_perm; [|exact R6]; apply perm_swap|reflexivity|].
  rewrite E7, bind_ok. exists p, x, y, z, h7. split; [reflexivity|]. eapply rep_perm; [|exact R7]. unfold grad_cells. cbn [app].
  apply perm_skip. change (Permutation (rev [(x, ODbls (HeapModel.zeros 0%R n)); (y, ODbls (HeapModel.zeros 0%R n)); (z, ODbls (HeapModel.zeros 0%R n))] ++ cs) ([(x, ODbls (HeapModel.zeros 0%R n)); (y, ODbls (HeapModel.zeros 0%R n)); (z, ODbls (HeapModel.zeros 0%R n))] ++ cs)).
  apply Permutation_app_tail, Permutation_sym, Permutation_rev.
Qed.

Lemma dealloc_gradients_rep h0 h cs p x y z n : rep h0 h (grad_cells p x y z n ++ cs) -> exists h', dealloc_gradients h p = Ok h' /\ rep h0 h' cs.
Proof.
  unfold grad_cells. cbn [app]. intros R0. unfold dealloc_gradients.
  rewrite (get_ptr_rep h0 h _ p [x; y; z] 0 x R0 (or_introl eq_refl) eq_refl ltac:(lia)), bind_ok.
  destruct (rep_free h0 h ((p, OPtrs [x; y; z]) :: (y, ODbls (HeapModel.zeros 0%R n)) :: (z, ODbls (HeapModel.zeros 0%R n)) :: cs) x (ODbls (HeapModel.zeros 0%R n))) as (h1 & E1 & R1 & _); [eapply rep_perm; [|exact R0]; apply perm_swap|].
  rewrite E1, bind_ok, (get_ptr_rep h0 h1 _ p [x; y; z] 1 y R1 (or_introl eq_refl) eq_refl ltac:(lia)), bind_ok.
  destruct (rep_free h0 h1 ((p, OPtrs [x; y; z]) :: (z, ODbls (HeapModel.zeros 0%R n)) :: cs) y (ODbls (HeapModel.zeros 0%R n))) as (h2 & E2 & R2 & _); [eapply rep_perm; [|exact R1]; apply perm_swap|].
  rewrite E2, bind_ok, (get_ptr_rep h0 h2 _ p [x; y; z] 2 z R2 (or_introl eq_refl) eq_refl ltac:(lia)), bind_ok.
  destruct (rep_free h0 h2 ((p, OPtrs [x; y; z]) :: cs) z (ODbls (HeapModel.zeros 0%R n))) as (h3 & E3 & R3 & _); [eapply rep_perm; [|exact R2]; apply perm_swap|].
  rewrite E3, bind_ok. destruct (rep_free _ _ _ _ _ R3) as (h4 & E4 & R4 & _). eauto.
Qed.

(** an operator without entries but possibly with pointer arrays *)
Definition ocell (o : option (Z * obj)) : list (Z * obj) := match o with Some c => [c] | None => [] end.
Definition optr' (o : option (Z * obj)) : Z := match o with Some c => fst c | None => 0 end.

Lemma free_ocell h0 h o cs : rep h0 h (ocell o ++ cs) -> exists h', hfree h (optr' o) = Ok h' /\ rep h0 h' cs.
Proof.
  intros R0. destruct o as [[p x]|]; cbn in *; [|exists h; split; [reflexivity|exact R0]]. destruct (rep_free _ _ _ _ _ R0) as (h' & E & R1 & _). eauto.
Qed.

Lemma delete_bare h0 h g o1 o2 o3 o4 cs :
  rep h0 h ((g, OGrpp (mkGrpp 0 0 0 0 (optr' o1) (optr' o2) (optr' o3) (optr' o4))) :: ocell o1 ++ ocell o2 ++ ocell o3 ++ ocell o4 ++ cs) ->
  exists h', delete_grpp h g = Ok h' /\ rep h0 h' cs.
Proof.
  intros R0. unfold delete_grpp. assert (Hp : 0 < g) by (eapply rep_pos; [exact R0|left; reflexivity]). destruct (Z.eqb_spec g 0); [lia|].
  unfold load_grpp. rewrite (rep_load _ _ _ _ _ R0 (or_introl eq_refl)), !bind_ok. cbn [g_UL g_n_arep g_Uarep g_n_esop g_Uesop g_n_oc g_Uoc g_ocshells]. rewrite Z.eqb_refl, bind_ok.
  unfold delete_pots. rewrite !for_range_nil by lia. rewrite bind_ok.
  set (gc := (g, OGrpp (mkGrpp 0 0 0 0 (optr' o1) (optr' o2) (optr' o3) (optr' o4)))) in *.
  destruct (free_ocell h0 h o1 (gc :: ocell o2 ++ ocell o3 ++ ocell o4 ++ cs)) as (h1 & E1 & R1); [eapply rep_perm; [|exact R0]; apply Permutation_middle|]. rewrite E1, bind_ok, for_range_nil, bind_ok by lia.
  destruct (free_ocell h0 h1 o2 (gc :: ocell o3 ++ ocell o4 ++ cs)) as (h2 & E2 & R2); [eapply rep_perm; [|exact R1]; apply Permutation_middle|]. rewrite E2, bind_ok, for_range_nil, bind_ok by lia.
  destruct (free_ocell h0 h2 o3 (gc :: ocell o4 ++ cs)) as (h3 & E3 & R3); [eapply rep_perm; [|exact R2]; apply Permutation_middle|]. rewrite E3, bind_ok.
  destruct (free_ocell h0 h3 o4 (gc :: cs)) as (h4 & E4 & R4); [eapply rep_perm; [|exact R3]; apply Permutation_middle|]. rewrite E4, bind_ok.
  unfold gc in R4. destruct (rep_free _ _ _ _ _ R4) as (h5 & E5 & R5 & _). eauto.
Qed.

(** what a call did to the heap carries over to the heap without the temporaries *)
Lemma reached_rep C ocp h h1 h2 cs : heap_wf h -> rep h h1 cs -> (forall p, In p ocp -> hblk h p <> None) -> reached C ocp h1 h2 ->
  exists h', reached C ocp h h' /\ rep h' h2 cs /\ (ocp = [] -> forall q, hblk h' q = hblk h q).
Proof.
  intros W R0 L Rc. pose proof R0 as (W1 & Hn & ND & Hin & Hout).
  assert (Fresh : forall p o, In (p, o) cs -> ~ In p ocp) by (intros p o Hp Hc; apply (L p Hc); apply (Hin p o Hp)).
  assert (Main : forall blk : Z -> option obj, (forall q, blk q = hblk h q \/ (In q ocp /\ blk q = option_map (moved_obj C) (hblk h q))) ->
    (forall q, ~ In q (map fst cs) -> hblk h2 q = blk q) -> (forall p o, In (p, o) cs -> hblk h2 p = Some o) ->
    heap_wf (mkHeap (hnext h2) blk) /\ rep (mkHeap (hnext h2) blk) h2 cs).
  { intros blk Hblk Hq Hc. pose proof (proj1 Rc) as W2.
    assert (Nn : forall p o, In (p, o) cs -> blk p = None).
    { intros p o Hp. destruct (Hblk p) as [E|(Hi & _)]; [rewrite E; apply (Hin p o Hp)|exfalso; eapply Fresh; eassumption]. }
    split.
    - split; [apply W2|]. cbn [hblk hnext]. intros p o E. apply (proj2 W2 p o). rewrite <- E. apply Hq. intros Hc'. apply in_map_iff in Hc'. destruct Hc' as ((p' & o') & Ep & Hp). cbn in Ep. subst p'. rewrite (Nn _ _ Hp) in E. discriminate.
    - split; [exact W2|]. cbn [hnext hblk]. split; [lia|]. split; [exact ND|]. split; [intros p o Hp; split; [apply Hc; exact Hp|apply (Nn _ _ Hp)]|exact Hq]. }
  destruct (proj2 Rc) as [E|E].
  - exists (mkHeap (hnext h2) (hblk h)). destruct (Main (hblk h)) as (Wm & Rm).
    { intros q; left; reflexivity. } { intros q Hq. rewrite E. apply Hout. exact Hq. } { intros p o Hp. rewrite E. apply (Hin p o Hp). }
    split; [split; [exact Wm|left; reflexivity]|]. split; [exact Rm|reflexivity].
  - exists (mkHeap (hnext h2) (hblk (moved_heap C ocp h))). destruct (Main (hblk (moved_heap C ocp h))) as (Wm & Rm).
    { intros q. cbn [moved_heap hblk]. destruct (existsb (Z.eqb q) ocp) eqn:Ex; [right; split; [apply existsb_In; exact Ex|reflexivity]|left; reflexivity]. }
    { intros q Hq. rewrite E. cbn [moved_heap hblk]. rewrite (Hout q Hq). reflexivity. }
    { intros p o Hp. rewrite E. cbn [moved_heap hblk]. assert (Ex : existsb (Z.eqb p) ocp = false) by (apply existsb_notIn; eapply Fresh; exact Hp). rewrite Ex. apply (Hin p o Hp). }
    split; [split; [exact Wm|right; reflexivity]|]. split; [exact Rm|]. intros -> q. reflexivity.
Qed.

Lemma rep_keeps h h' cs : rep h h' cs -> keeps h h'.
Proof. intros R0 q o. eapply rep_old. exact R0. Qed.

(** ** What the routine of a term computes *)

(** V f g v: the term has the matrix element v between f and g *)
Definition bilinear1 (V : fn3 -> fn3 -> R -> Prop) : Prop :=
  (forall f f' g g' v, (forall x y z, f x y z = f' x y z) -> (forall x y z, g x y z = g' x y z) -> V f g v -> V f' g' v) /\
  (forall f f' g v v' s, V f g v -> V f' g v' -> V (fun x y z => f x y z + s * f' x y z)%R g (v + s * v')%R) /\
  (forall f g g' v v' s, V f g v -> V f g' v' -> V f (fun x y z => g x y z + s * g' x y z)%R (v + s * v')%R).

Definition close1 (V : fn3 -> fn3 -> R -> Prop) (vA vB : sview) (f : Z -> Z -> R) (e : R) : Prop :=
  forall i j cA cB, nth_error (canon (v_L vA)) i = Some cA -> nth_error (canon (v_L vB)) j = Some cB ->
    exists v, V (phi_of vA cA) (phi_of vB cB) v /\ (Rabs (f (Z.of_nat i) (Z.of_nat j) - v) <= e)%R.

Definition shell_of (A : vshell) (v : sview) : Prop := vshell_is A (v_L v) (v_origin v) (v_prims v) (canon (v_L v)).

(** one matrix: local and averaged terms *)
Definition accurate1 (V : fn3 -> fn3 -> R -> Prop) (run : vshell -> vshell -> arr R -> res (arr R)) (e : R) (vA vB : sview) : Prop :=
  exists f, (forall A B, shell_of A vA -> shell_of B vB -> gives1 (run A B) (sv_size A) (sv_size B) f) /\ close1 V vA vB f e.

(** three matrices: spin-orbit terms *)
Definition accurate3 (V : Z -> fn3 -> fn3 -> R -> Prop) (run : vshell -> vshell -> arr R * arr R * arr R -> res (arr R * arr R * arr R)) (e : R) (vA vB : sview) : Prop :=
  exists f, (forall A B, shell_of A vA -> shell_of B vB -> gives3 (run A B) (sv_size A) (sv_size B) f) /\ forall k, 0 <= k < 3 -> close1 (V k) vA vB (f k) e.

(** four matrices: outercore terms *)
Definition accurate4 (V : Z -> fn3 -> fn3 -> R -> Prop) (run : vshell -> vshell -> mats -> res (mats * list (vpot * vshell))) (e : R) (vA vB : sview) : Prop :=
  exists f, (forall A B, shell_of A vA -> shell_of B vB -> gives4 (run A B) A B f) /\ forall k, -1 <= k < 3 -> close1 (V k) vA vB (f k) e.

(** the four shell pairs the derivatives are made of *)
Definition around (P : sview -> sview -> Prop) (vA vB : sview) : Prop :=
  P (up_view vA) vB /\ (0 < v_L vA -> P (down_view vA) vB) /\ P vA (up_view vB) /\ (0 < v_L vB -> P vA (down_view vB)).

Lemma around_impl (P Q : sview -> sview -> Prop) vA vB : (forall x y, P x y -> Q x y) -> around P vA vB -> around Q vA vB.
Proof. intros H (H1 & H2 & H3 & H4). split; [apply H, H1|]. split; [intros L; apply H, H2, L|]. split; [apply H, H3|intros L; apply H, H4, L]. Qed.

(** the type-1 routine clears the matrix for a NULL potential *)
Definition null_is_zero (rt : routines) : Prop := forall A B C, 0 <= sv_size A -> 0 <= sv_size B -> gives1 (rt_type1 rt A B C None) (sv_size A) (sv_size B) (fun _ _ => 0%R).

Lemma shell_size A v : shell_of A v -> 0 <= sv_size A.
Proof. intros (_ & _ & _ & (Hl & _) & _). lia. Qed.

Lemma four_ext M szs na nb f g : (forall k i j, -1 <= k < 3 -> 0 <= i < na -> 0 <= j < nb -> f k i j = g k i j) -> four M szs na nb f -> four M szs na nb g.
Proof.
  intros H. destruct M as [[[m0 m1] m2] m3], szs as [[[s0 s1] s2] s3]. intros (F0 & F1 & F2 & F3).
  split; [|split; [|split]]; (eapply ismat_ext; [|eassumption]); intros i j Hi Hj; apply H; lia || assumption.
Qed.

(** component k of an operator given by its scalar part and three others *)
Definition V_scalar (V : fn3 -> fn3 -> R -> Prop) (k : Z) (f g : fn3) (v : R) : Prop := if k =? -1 then V f g v else v = 0%R.

Lemma bilinear_scalar V : bilinear1 V -> bilinear (V_scalar V).
Proof.
  intros (H1 & H2 & H3). unfold V_scalar. split; [|split].
  - intros k f f' g g' v Ef Eg. destruct (k =? -1); [apply H1; assumption|exact (fun x => x)].
  - intros k f f' g v v' s. destruct (k =? -1); [apply H2|]. intros -> ->. ring.
  - intros k f g g' v v' s. destruct (k =? -1); [apply H3|]. intros -> ->. ring.
Qed.

Definition only_local (U : vpot) : gview := mkGv (Some U) [] [] [].
Definition only_averaged (U : vpot) : gview := mkGv None [U] [] [].
Definition only_spin_orbit (U : vpot) : gview := mkGv None [] [U] [].
Definition only_outercore (l : list (vpot * vshell)) : gview := mkGv None [] [] l.

Definition zero_k : Z -> Z -> Z -> R := fun _ _ _ => 0%R.

Lemma local_accurate V rt C U e vA vB : (0 <= e)%R -> accurate1 V (fun A B => rt_type1 rt A B C (Some U)) e vA vB -> accurate (V_scalar V) rt C (only_local U) e vA vB.
Proof.
  intros He (f & G & Q). exists (fun k i j => if k =? -1 then f i j else 0%R). split.
  - intros A B HA HB out szs F. pose proof (shell_size _ _ HA) as NA. pose proof (shell_size _ _ HB) as NB.
    destruct (full_sum_ok rt A B C NA NB (only_local U) out szs f (fun _ _ _ => 0%R) (fun _ => zero_k) zero_k F (G A B HA HB)) as (out' & E & _ & V'); try (intros ? []); [apply oc_none; assumption|].
    exists out'. split; [exact E|]. eapply four_ext; [|exact V']. intros k i j _ _ _. unfold parts, zero_k. cbn [only_local gv_arep gv_esop lsum fold_right]. destruct (k =? -1); ring.
  - intros k i j cA cB Hk Hi Hj. unfold V_scalar. destruct (k =? -1); [apply Q; assumption|]. exists 0%R. split; [reflexivity|]. rewrite Rminus_0_r, Rabs_R0. exact He.
Qed.

Lemma averaged_accurate V rt C U e vA vB : (0 <= e)%R -> null_is_zero rt -> accurate1 V (fun A B => rt_type2 rt A B C U) e vA vB -> accurate (V_scalar V) rt C (only_averaged U) e vA vB.
Proof.
  intros He Nz (f & G & Q). exists (fun k i j => if k =? -1 then f i j else 0%R). split.
  - intros A B HA HB out szs F. pose proof (shell_size _ _ HA) as NA. pose proof (shell_size _ _ HB) as NB.
    destruct (full_sum_ok rt A B C NA NB (only_averaged U) out szs (fun _ _ => 0%R) (fun _ => f) (fun _ => zero_k) zero_k F (Nz A B C NA NB)) as (out' & E & _ & V').
    { intros U' [<- | []]. apply G; assumption. } { intros ? []. } { apply oc_none; assumption. }
    exists out'. split; [exact E|]. eapply four_ext; [|exact V']. intros k i j _ _ _. unfold parts, zero_k. cbn [only_averaged gv_arep gv_esop lsum fold_right]. destruct (k =? -1); ring.
  - intros k i j cA cB Hk Hi Hj. unfold V_scalar. destruct (k =? -1); [apply Q; assumption|]. exists 0%R. split; [reflexivity|]. rewrite Rminus_0_r, Rabs_R0. exact He.
Qed.

(** spin-orbit terms enter the operator with the weight 2/(2L+1) *)
Definition V_so (w : R) (V : Z -> fn3 -> fn3 -> R -> Prop) (k : Z) (f g : fn3) (v : R) : Prop := if k =? -1 then v = 0%R else exists u, V k f g u /\ v = (w * u)%R.

Lemma bilinear_so w V : (forall k, bilinear1 (V k)) -> bilinear (V_so w V).
Proof.
  intros H. unfold V_so. split; [|split].
  - intros k f f' g g' v Ef Eg. destruct (k =? -1); [exact (fun x => x)|]. intros (u & Q & ->). exists u. split; [eapply (proj1 (H k)); eassumption|reflexivity].
  - intros k f f' g v v' s. destruct (k =? -1); [intros -> ->; ring|]. intros (u & Q & ->) (u' & Q' & ->). exists (u + s * u')%R. split; [apply (proj1 (proj2 (H k))); assumption|ring].
  - intros k f g g' v v' s. destruct (k =? -1); [intros -> ->; ring|]. intros (u & Q & ->) (u' & Q' & ->). exists (u + s * u')%R. split; [apply (proj2 (proj2 (H k))); assumption|ring].
Qed.

Lemma so_accurate V rt C U e vA vB : (0 <= e)%R -> null_is_zero rt -> accurate3 V (fun A B => rt_so rt A B C U) e vA vB ->
  accurate (V_so (so_weight U) V) rt C (only_spin_orbit U) (Rabs (so_weight U) * e) vA vB.
Proof.
  intros He Nz (f & G & Q). exists (fun k i j => if k =? -1 then 0%R else (so_weight U * f k i j)%R). split.
  - intros A B HA HB out szs F. pose proof (shell_size _ _ HA) as NA. pose proof (shell_size _ _ HB) as NB.
    destruct (full_sum_ok rt A B C NA NB (only_spin_orbit U) out szs (fun _ _ => 0%R) (fun _ _ _ => 0%R) (fun _ => f) zero_k F (Nz A B C NA NB)) as (out' & E & _ & V').
    { intros ? []. } { intros U' [<- | []]. apply G; assumption. } { apply oc_none; assumption. }
    exists out'. split; [exact E|]. eapply four_ext; [|exact V']. intros k i j _ _ _. unfold parts, zero_k. cbn [only_spin_orbit gv_arep gv_esop lsum fold_right]. destruct (k =? -1); ring.
  - intros k i j cA cB Hk Hi Hj. unfold V_so. destruct (Z.eqb_spec k (-1)).
    + exists 0%R. split; [reflexivity|]. rewrite Rminus_0_r, Rabs_R0. apply Rmult_le_pos; [apply Rabs_pos|exact He].
    + destruct (Q k ltac:(lia) i j cA cB Hi Hj) as (v & Hv & Bv). exists (so_weight U * v)%R. split; [exists v; split; [exact Hv|reflexivity]|].
      rewrite <- Rmult_minus_distr_l, Rabs_mult. apply Rmult_le_compat_l; [apply Rabs_pos|exact Bv].
Qed.

Lemma oc_accurate V rt C l e vA vB : null_is_zero rt -> accurate4 V (fun A B => outercore_potential_integrals (rt_oc rt) A B C l) e vA vB -> accurate V rt C (only_outercore l) e vA vB.
Proof.
  intros Nz (f & G & Q). exists f. split.
  - intros A B HA HB out szs F. pose proof (shell_size _ _ HA) as NA. pose proof (shell_size _ _ HB) as NB.
    destruct (full_sum_ok rt A B C NA NB (only_outercore l) out szs (fun _ _ => 0%R) (fun _ _ _ => 0%R) (fun _ => zero_k) f F (Nz A B C NA NB)) as (out' & E & _ & V').
    { intros ? []. } { intros ? []. } { apply G; assumption. }
    exists out'. split; [exact E|]. eapply four_ext; [|exact V']. intros k i j _ _ _. unfold parts, zero_k. cbn [only_outercore gv_arep gv_esop lsum fold_right].
    destruct (Z.eqb_spec k (-1)) as [-> |]; ring.
  - intros k i j cA cB Hk Hi Hj. apply Q; assumption.
Qed.
