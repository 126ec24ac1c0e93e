(** * The gradients of the single terms of the operator (C30): the entry points *)

From Coq Require Import ZArith List Lia Bool Reals Lra Permutation.
From Coquelicot Require Import Coquelicot.
From Verif Require Import Base Loops Sums CartModel CartProofs HeapModel HeapProofs HeapSpec HeapGrpp OneElModel OneElProofs OneElPairs OneElSpec OneElThms
  GaussProd OneElInt SphProofs LmatModel UtilProofs OvGradModel OvDeriv OvGradProofs OvGradThms OutercoreModel OutercoreProofs OutercoreMain OutercoreThms GrppModel GrppFull GrppHeap GrppGrad GrppGrad2 GrppThms GrppGrad3 GrppTerm.
Import ListNotations.
Open Scope Z_scope.

(** bra and ket are the matrix elements with one function differentiated with respect to its centre *)
Definition deriv_close (V : fn3 -> fn3 -> R -> Prop) (vA vB : sview) (ca cb : list (Z * Z * Z)) (e : R) (bra ket : Z -> nat -> nat -> R) : Prop :=
  forall c i j cA cB, 0 <= c < 3 -> nth_error ca i = Some cA -> nth_error cb j = Some cB ->
    (exists v, V (dphi vA cA c) (phi_of vB cB) v /\ (Rabs (bra c i j - v) <= e * (1 + IZR (expo cA c)))%R) /\
    (exists v, V (phi_of vA cA) (dphi vB cB c) v /\ (Rabs (ket c i j - v) <= e * (1 + IZR (expo cB c)))%R).

(** the gradient with respect to the point D: what moves with D *)
Definition holds_gradient (grad : arr R) (vA vB : sview) (ca cb : list (Z * Z * Z)) (C D : R * R * R) (bra ket : Z -> nat -> nat -> R) : Prop :=
  forall c i j cA cB, 0 <= c < 3 -> nth_error ca i = Some cA -> nth_error cb j = Some cB ->
    grad_at grad vB c i j = Ok ((at_point (v_origin vA) D - at_point C D) * bra c i j + (at_point (v_origin vB) D - at_point C D) * ket c i j)%R.

(** reads outside a matrix give some number, or there are none *)
Definition may_overread (oob : option (Z -> R)) (vA vB : sview) : Prop := oob <> None \/ (v_L vA = 0 /\ v_L vB = 0).

Lemma fits_room vA vB g0 g1 g2 g3 : grad_fits g0 vA vB -> grad_fits g1 vA vB -> grad_fits g2 vA vB -> grad_fits g3 vA vB -> grad_room vA vB (g0, g1, g2, g3).
Proof. intros H0 H1 H2 H3 k Hk. unfold mat_k. destruct (k =? -1); [exact H0|]. destruct (k =? 0); [exact H1|]. destruct (k =? 1); [exact H2|exact H3]. Qed.

Lemma const_fits vA vB : grad_fits (aconst [3; v_size vA * v_size vB] 0%R) vA vB.
Proof. exists (v_size vA * v_size vB). split; [reflexivity|lia]. Qed.

Lemma room_fits4 vA vB grad k : grad_room vA vB grad -> -1 <= k < 3 -> grad_fits (mat_k grad k) vA vB.
Proof. intros H Hk. apply H. exact Hk. Qed.

(** ** One operator built from temporaries on top of the caller's heap *)
Lemma term_gradient V rt h h1 cs pA pB g gv ocp C vA vB ca cb e :
  bilinear V -> heap_wf h -> rt_init rt = true -> std_shell h pA vA ca -> std_shell h pB vB cb -> rep h h1 cs -> grpp_at h1 g gv ocp ->
  (forall p, In p ocp -> hblk h p <> None) -> ~ In pA ocp -> ~ In pB ocp -> around (accurate V rt C gv e) vA vB ->
  exists bra ket : Z -> Z -> nat -> nat -> R,
    (forall k, -1 <= k < 3 -> deriv_close (V k) vA vB ca cb e (bra k) (ket k)) /\
    forall ord oob D grad, may_overread oob vA vB -> told_apart [v_origin vA; v_origin vB; C; D] -> grad_room vA vB grad ->
      exists h2 grad' h', full_grpp_integrals_gradient ord oob rt h1 pA pB g C D grad = Ok (h2, grad') /\ reached C ocp h h' /\ rep h' h2 cs /\
        (ocp = [] -> forall q, hblk h' q = hblk h q) /\ only_grad4 grad grad' vA vB /\
        forall k, -1 <= k < 3 -> holds_gradient (mat_k grad' k) vA vB ca cb C D (bra k) (ket k).
Proof.
  intros BV W I SA SB R0 G Lv NA NB (A1 & A2 & A3 & A4). pose proof (rep_keeps _ _ _ R0) as K.
  destruct (gradient_thm V rt h1 pA pB g gv ocp C vA vB ca cb e BV) as (bra & ket & Hd & Hg).
  { split; [exact (proj1 R0)|]. split; [exact I|]. split; [eapply std_old; [exact K|exact SA]|]. split; [eapply std_old; [exact K|exact SB]|]. split; [exact G|]. split; [exact NA|]. split; [exact NB|]. auto. }
  exists bra, ket. split.
  - intros k Hk c i j cA cB Hc Hi Hj. apply Hd; assumption.
  - intros ord oob D grad Ho T Rm. destruct (Hg ord oob h1 D grad Ho (reached_refl _ _ _ (proj1 R0)) T Rm) as (h2 & grad' & E & Rc & On & Vg).
    destruct (reached_rep C ocp h h1 h2 cs W R0 Lv Rc) as (h' & Rc' & Rp & Same). exists h2, grad', h'. split; [exact E|]. split; [exact Rc'|]. split; [exact Rp|]. split; [exact Same|]. split; [exact On|].
    intros k Hk c i j cA cB Hc Hi Hj. apply (Vg k c i j cA cB); assumption.
Qed.

Lemma view_pot_live h p v : view_pot h p = Ok v -> p <> 0.
Proof. intros H ->. unfold view_pot, load_pot, hload in H. discriminate. Qed.

Lemma view_keeps h h' p v : keeps h h' -> view_pot h p = Ok v -> view_pot h' p = Ok v.
Proof. intros K. apply view_pot_data, keeps_data, K. Qed.

(** ** The local term *)
Lemma type1_gradient_thm V rt h pA pB C pot U vA vB ca cb e :
  bilinear1 V -> heap_wf h -> rt_init rt = true -> std_shell h pA vA ca -> std_shell h pB vB cb -> view_pot h pot = Ok U -> (0 <= e)%R ->
  around (accurate1 V (fun A B => rt_type1 rt A B C (Some U)) e) vA vB ->
  exists bra ket, deriv_close V vA vB ca cb e bra ket /\
    forall ord oob D grad, may_overread oob vA vB -> told_apart [v_origin vA; v_origin vB; C; D] -> grad_fits grad vA vB ->
      exists h' grad', type1_integrals_gradient ord oob rt h pA pB C pot D grad = Ok (h', grad') /\ heap_wf h' /\ (forall q, hblk h' q = hblk h q) /\
        only_grad grad grad' vA vB /\ holds_gradient grad' vA vB ca cb C D bra ket.
Proof.
  intros BV W I SA SB EU He Ac.
  destruct (new_grpp h) as [g h1] eqn:E1. destruct (rep_alloc _ _ _ _ _ _ W (rep_start _ W) E1) as (R1 & _).
  destruct (rep_store _ _ _ _ _ (OGrpp (mkGrpp 0 0 0 pot 0 0 0 0)) R1) as (h2 & E2 & R2 & _).
  assert (S2 : set_local_potential h1 g pot = Ok h2).
  { unfold set_local_potential, load_grpp. rewrite (rep_load _ _ _ _ _ R1 (or_introl eq_refl)), !bind_ok. cbn [g_UL g_n_arep g_n_esop g_n_oc g_Uarep g_Uesop g_Uoc g_ocshells]. exact E2. }
  destruct (alloc_gradients_rep _ _ _ _ _ _ _ _ _ W SA SB R2) as (p1 & x1 & y1 & z1 & h3 & E3 & R3).
  destruct (alloc_gradients_rep _ _ _ _ _ _ _ _ _ W SA SB R3) as (p2 & x2 & y2 & z2 & h4 & E4 & R4).
  destruct (alloc_gradients_rep _ _ _ _ _ _ _ _ _ W SA SB R4) as (p3 & x3 & y3 & z3 & h5 & E5 & R5).
  set (n := v_size vA * v_size vB) in *. set (gc := (g, OGrpp (mkGrpp 0 0 0 pot 0 0 0 0))) in *.
  destruct (term_gradient (V_scalar V) rt h h5 _ pA pB g (only_local U) [] C vA vB ca cb e (bilinear_scalar V BV) W I SA SB R5) as (bra & ket & Hd & Hg).
  { exists (mkGrpp 0 0 0 pot 0 0 0 0), [], [], []. split.
    - apply R5. apply in_or_app. right. apply in_or_app. right. apply in_or_app. right. left. reflexivity.
    - cbn [only_local gv_local gv_arep gv_esop gv_oc g_UL g_n_arep g_n_esop g_n_oc map]. split; [eapply view_keeps; [exact (rep_keeps _ _ _ R5)|exact EU]|].
      repeat split; try constructor; reflexivity. }
  { intros p []. } { intros []. } { intros []. }
  { eapply around_impl; [|exact Ac]. intros x y. apply local_accurate. exact He. }
  exists (bra (-1)), (ket (-1)). split; [exact (Hd (-1) ltac:(lia))|].
  intros ord oob D grad Ho T Fg.
  destruct (Hg ord oob D (grad, aconst [3; n] 0%R, aconst [3; n] 0%R, aconst [3; n] 0%R) Ho T (fits_room _ _ _ _ _ _ Fg (const_fits _ _) (const_fits _ _) (const_fits _ _))) as (h6 & grad' & hh & E6 & (Wh & _) & R6 & Same & On & Vg).
  specialize (Same eq_refl). unfold type1_integrals_gradient. rewrite E1, S2, bind_ok, E3, bind_ok, E4, bind_ok, E5, bind_ok, E6, bind_ok.
  destruct grad' as [[[g0 g1] g2] g3].
  destruct (dealloc_gradients_rep hh h6 (grad_cells p3 x3 y3 z3 n ++ grad_cells p2 x2 y2 z2 n ++ [gc]) p1 x1 y1 z1 n) as (h7 & E7 & R7).
  { eapply rep_perm; [|exact R6]. etransitivity; [|apply Permutation_app_swap_app]. apply Permutation_app_head. apply Permutation_app_swap_app. }
  rewrite E7, bind_ok.
  destruct (dealloc_gradients_rep hh h7 (grad_cells p3 x3 y3 z3 n ++ [gc]) p2 x2 y2 z2 n) as (h8 & E8 & R8).
  { eapply rep_perm; [|exact R7]. apply Permutation_app_swap_app. }
  rewrite E8, bind_ok. destruct (dealloc_gradients_rep _ _ _ _ _ _ _ _ R8) as (h9 & E9 & R9). rewrite E9, bind_ok.
  unfold load_grpp. rewrite (rep_load _ _ _ _ _ R9 (or_introl eq_refl)), !bind_ok. cbn [g_UL g_n_arep g_n_esop g_n_oc g_Uarep g_Uesop g_Uoc g_ocshells].
  unfold gc in R9. destruct (rep_store _ _ _ _ _ (OGrpp (mkGrpp 0 0 0 0 0 0 0 0)) R9) as (h10 & E10 & R10 & _). rewrite E10, bind_ok.
  destruct (delete_bare hh h10 g None None None None [] R10) as (h11 & E11 & R11). rewrite E11, bind_ok.
  exists h11, g0. split; [reflexivity|]. split; [exact (proj1 R11)|]. split; [intros q; rewrite (rep_end _ _ R11); apply Same|]. split; [exact (On (-1) ltac:(lia))|exact (Vg (-1) ltac:(lia))].
Qed.

(** ** An averaged term *)
Lemma zeros_split : HeapModel.zeros 0 max_number_potentials = 0 :: repeat 0 99.
Proof. reflexivity. Qed.

Lemma type2_gradient_thm V rt h pA pB C pot U vA vB ca cb e :
  bilinear1 V -> heap_wf h -> rt_init rt = true -> null_is_zero rt -> std_shell h pA vA ca -> std_shell h pB vB cb -> view_pot h pot = Ok U -> (0 <= e)%R ->
  around (accurate1 V (fun A B => rt_type2 rt A B C U) e) vA vB ->
  exists bra ket, deriv_close V vA vB ca cb e bra ket /\
    forall ord oob D grad, may_overread oob vA vB -> told_apart [v_origin vA; v_origin vB; C; D] -> grad_fits grad vA vB ->
      exists h' grad', type2_integrals_gradient ord oob rt h pA pB C pot D grad = Ok (h', grad') /\ heap_wf h' /\ (forall q, hblk h' q = hblk h q) /\
        only_grad grad grad' vA vB /\ holds_gradient grad' vA vB ca cb C D bra ket.
Proof.
  intros BV W I Nz SA SB EU He Ac.
  destruct (new_grpp h) as [g h1] eqn:E1. destruct (rep_alloc _ _ _ _ _ _ W (rep_start _ W) E1) as (R1 & _).
  destruct (new_ptr_array h1) as [u h1a] eqn:Ea. destruct (rep_alloc _ _ _ _ _ _ W R1 Ea) as (R1a & _). rewrite zeros_split in R1a.
  destruct (rep_set_ptr h h1a _ u [] (repeat 0 99) 0 pot 0 R1a eq_refl) as (h1b & Eb & R1b).
  destruct (rep_store h h1b _ g _ (OGrpp (mkGrpp 1 0 0 0 u 0 0 0)) (rep_perm _ _ _ _ (perm_swap _ _ _) R1b)) as (h2 & E2 & R2 & _).
  assert (S2 : add_averaged_potential h1 g pot = Ok h2).
  { unfold add_averaged_potential, load_grpp. rewrite (rep_load _ _ _ _ _ R1 (or_introl eq_refl)), !bind_ok. cbn [g_UL g_n_arep g_n_esop g_n_oc g_Uarep g_Uesop g_Uoc g_ocshells]. rewrite Z.eqb_refl, Ea, Eb, bind_ok. exact E2. }
  destruct (alloc_gradients_rep _ _ _ _ _ _ _ _ _ W SA SB R2) as (p1 & x1 & y1 & z1 & h3 & E3 & R3).
  destruct (alloc_gradients_rep _ _ _ _ _ _ _ _ _ W SA SB R3) as (p2 & x2 & y2 & z2 & h4 & E4 & R4).
  destruct (alloc_gradients_rep _ _ _ _ _ _ _ _ _ W SA SB R4) as (p3 & x3 & y3 & z3 & h5 & E5 & R5).
  set (n := v_size vA * v_size vB) in *. set (gc := (g, OGrpp (mkGrpp 1 0 0 0 u 0 0 0))) in *. set (uc := (u, OPtrs ([] ++ pot :: repeat 0 99))) in *.
  destruct (term_gradient (V_scalar V) rt h h5 _ pA pB g (only_averaged U) [] C vA vB ca cb e (bilinear_scalar V BV) W I SA SB R5) as (bra & ket & Hd & Hg).
  { exists (mkGrpp 1 0 0 0 u 0 0 0), [pot], [], []. split.
    - apply R5. apply in_or_app. right. apply in_or_app. right. apply in_or_app. right. left. reflexivity.
    - cbn [only_averaged gv_local gv_arep gv_esop gv_oc g_UL g_n_arep g_n_esop g_n_oc g_Uarep map]. split; [reflexivity|]. split; [reflexivity|]. split.
      { right. exists (repeat 0 99). apply R5. apply in_or_app. right. apply in_or_app. right. apply in_or_app. right. right. left. reflexivity. }
      split; [constructor; [eapply view_keeps; [exact (rep_keeps _ _ _ R5)|exact EU]|constructor]|].
      repeat split; try constructor; reflexivity. }
  { intros p []. } { intros []. } { intros []. }
  { eapply around_impl; [|exact Ac]. intros x y. apply averaged_accurate; assumption. }
  exists (bra (-1)), (ket (-1)). split; [exact (Hd (-1) ltac:(lia))|].
  intros ord oob D grad Ho T Fg.
  destruct (Hg ord oob D (grad, aconst [3; n] 0%R, aconst [3; n] 0%R, aconst [3; n] 0%R) Ho T (fits_room _ _ _ _ _ _ Fg (const_fits _ _) (const_fits _ _) (const_fits _ _))) as (h6 & grad' & hh & E6 & (Wh & _) & R6 & Same & On & Vg).
  specialize (Same eq_refl). unfold type2_integrals_gradient. rewrite E1, S2, bind_ok, E3, bind_ok, E4, bind_ok, E5, bind_ok, E6, bind_ok.
  destruct grad' as [[[g0 g1] g2] g3].
  destruct (dealloc_gradients_rep hh h6 (grad_cells p3 x3 y3 z3 n ++ grad_cells p2 x2 y2 z2 n ++ [gc; uc]) p1 x1 y1 z1 n) as (h7 & E7 & R7).
  { eapply rep_perm; [|exact R6]. etransitivity; [|apply Permutation_app_swap_app]. apply Permutation_app_head. apply Permutation_app_swap_app. }
  rewrite E7, bind_ok.
  destruct (dealloc_gradients_rep hh h7 (grad_cells p3 x3 y3 z3 n ++ [gc; uc]) p2 x2 y2 z2 n) as (h8 & E8 & R8).
  { eapply rep_perm; [|exact R7]. apply Permutation_app_swap_app. }
  rewrite E8, bind_ok. destruct (dealloc_gradients_rep _ _ _ _ _ _ _ _ R8) as (h9 & E9 & R9). rewrite E9, bind_ok.
  unfold load_grpp. rewrite (rep_load _ _ _ _ _ R9 (or_introl eq_refl)), !bind_ok. cbn [g_UL g_n_arep g_n_esop g_n_oc g_Uarep g_Uesop g_Uoc g_ocshells].
  unfold gc in R9. destruct (rep_store _ _ _ _ _ (OGrpp (mkGrpp 0 0 0 0 u 0 0 0)) R9) as (h10 & E10 & R10 & _). rewrite E10, bind_ok.
  destruct (delete_bare hh h10 g (Some uc) None None None [] R10) as (h11 & E11 & R11). rewrite E11, bind_ok.
  exists h11, g0. split; [reflexivity|]. split; [exact (proj1 R11)|]. split; [intros q; rewrite (rep_end _ _ R11); apply Same|]. split; [exact (On (-1) ltac:(lia))|exact (Vg (-1) ltac:(lia))].
Qed.

(** ** A spin-orbit term *)

(** the first entries of the rows, up to position (k, i), are multiplied by c *)
Definition scaled_to (c : R) (n k i : Z) (g g' : arr R) : Prop :=
  adims g' = adims g /\
  (forall a b, ~ (0 <= a < 3 /\ 0 <= b < n /\ (a < k \/ (a = k /\ b < i))) -> aget g' [a; b] = aget g [a; b]) /\
  (forall a b v, 0 <= a < 3 -> 0 <= b < n -> (a < k \/ (a = k /\ b < i)) -> aget g [a; b] = Ok v -> aget g' [a; b] = Ok (v * c)%R).

Lemma scaled_step c n k i g g' sz v : scaled_to c n k i g g' -> adims g = [3; sz] -> n <= sz -> 0 <= k < 3 -> 0 <= i < n -> aget g [k; i] = Ok v ->
  exists g'', aget g' [k; i] = Ok v /\ aset g' [k; i] (v * c)%R = Ok g'' /\ scaled_to c n k (i + 1) g g''.
Proof.
  intros (D & O & S0) Dg Hn Hk Hi Ev. destruct (aset_get g' [k; i] (v * c)%R) as (g'' & E & D' & V & F); [rewrite D, Dg; apply inb2; lia|].
  exists g''. split; [rewrite O by lia; exact Ev|]. split; [exact E|]. split; [congruence|]. split.
  - intros a b N. rewrite F; [apply O; intros (H1 & H2 & H3); apply N; lia|]. intros Q. injection Q as -> ->. apply N. lia.
  - intros a b w Ha Hb Hab Ew. destruct (Z.eq_dec a k) as [-> |Nk].
    + destruct (Z.eq_dec b i) as [-> |Ni]; [rewrite Ev in Ew; injection Ew as <-; exact V|]. rewrite F by congruence. apply S0; try assumption. lia.
    + rewrite F by congruence. apply S0; try assumption. lia.
Qed.

Lemma scaled_next c n k g g' : scaled_to c n k n g g' -> scaled_to c n (k + 1) 0 g g'.
Proof.
  intros (D & O & S0). split; [exact D|]. split.
  - intros a b N. apply O. intros (H1 & H2 & H3). apply N. lia.
  - intros a b v Ha Hb Hab. apply S0; try assumption. lia.
Qed.

Lemma rescale3_ok n c gx gy gz sx sy sz : 0 <= n -> adims gx = [3; sx] -> adims gy = [3; sy] -> adims gz = [3; sz] -> n <= sx -> n <= sy -> n <= sz ->
  (forall a b, 0 <= a < 3 -> 0 <= b < n -> (exists x, aget gx [a; b] = Ok x) /\ (exists y, aget gy [a; b] = Ok y) /\ (exists z, aget gz [a; b] = Ok z)) ->
  exists gx' gy' gz', rescale3 n c (gx, gy, gz) = Ok (gx', gy', gz') /\ scaled_to c n 3 0 gx gx' /\ scaled_to c n 3 0 gy gy' /\ scaled_to c n 3 0 gz gz'.
Proof.
  intros Hn Dx Dy Dz Nx Ny Nz Ex. unfold rescale3.
  pose (Inv := fun k i (s : arr R * arr R * arr R) => let '(a, b, d) := s in scaled_to c n k i gx a /\ scaled_to c n k i gy b /\ scaled_to c n k i gz d).
  match goal with |- context [for_range 0 3 ?f _] => destruct (for_range_ok (fun k => Inv k 0) 0 3 f (gx, gy, gz)) as ([[gx' gy'] gz'] & E & (I1 & I2 & I3)) end.
  - lia.
  - assert (Z0 : forall g, scaled_to c n 0 0 g g) by (intros g; split; [reflexivity|]; split; [reflexivity|intros; lia]). unfold Inv. auto.
  - intros k [[a b] d] Hk Hs.
    match goal with |- context [for_range 0 n ?f ?s] => destruct (for_range_ok (Inv k) 0 n f s) as ([[a' b'] d'] & E & (I1 & I2 & I3)); [exact Hn|exact Hs| |] end.
    + intros i [[x y] z] Hi (Jx & Jy & Jz). destruct (Ex k i Hk Hi) as ((vx & Vx) & (vy & Vy) & (vz & Vz)).
      destruct (scaled_step c n k i gx x sx vx Jx Dx Nx Hk Hi Vx) as (x' & -> & A1 & A2). rewrite bind_ok, A1, bind_ok.
      destruct (scaled_step c n k i gy y sy vy Jy Dy Ny Hk Hi Vy) as (y' & -> & B1 & B2). rewrite bind_ok, B1, bind_ok.
      destruct (scaled_step c n k i gz z sz vz Jz Dz Nz Hk Hi Vz) as (z' & -> & C1 & C2). rewrite bind_ok, C1, bind_ok.
      exists (x', y', z'). split; [reflexivity|]. unfold Inv. auto.
    + exists (a', b', d'). split; [exact E|]. unfold Inv. auto using scaled_next.
  - exists gx', gy', gz'. split; [exact E|]. auto.
Qed.

Lemma scaled_only c vA vB g g0 g' : only_grad g g0 vA vB -> scaled_to c (v_size vA * v_size vB) 3 0 g0 g' -> only_grad g g' vA vB.
Proof.
  intros (D & O) (D' & O' & _). split; [congruence|]. intros k x N. rewrite O'; [apply O; exact N|]. intros (H1 & H2 & _). apply N. split; assumption.
Qed.

Lemma block_index ca cb n x : 0 <= x < Z.of_nat (length ca) * n -> n = Z.of_nat (length cb) ->
  exists i j (cA cB : Z * Z * Z), nth_error ca i = Some cA /\ nth_error cb j = Some cB /\ x = Z.of_nat i * n + Z.of_nat j.
Proof.
  intros Hx ->. set (m := Z.of_nat (length cb)) in *. assert (Hm : 0 < m) by (unfold m in *; destruct (length cb); cbn in *; lia).
  pose proof (Z.div_mod x m ltac:(lia)) as Q. pose proof (Z.mod_pos_bound x m Hm) as Hb.
  assert (Ha : 0 <= x / m < Z.of_nat (length ca)) by (split; [apply Z.div_pos; lia|apply Z.div_lt_upper_bound; lia]).
  destruct (nth_error ca (Z.to_nat (x / m))) as [cA|] eqn:EA; [|apply nth_error_None in EA; lia].
  destruct (nth_error cb (Z.to_nat (x mod m))) as [cB|] eqn:EB; [|apply nth_error_None in EB; unfold m in *; lia].
  exists (Z.to_nat (x / m)), (Z.to_nat (x mod m)), cA, cB. split; [exact EA|]. split; [exact EB|]. rewrite !Z2Nat.id by lia. lia.
Qed.

Definition pick3 {X} (t : X * X * X) (k : Z) : X := let '(x, y, z) := t in if k =? 0 then x else if k =? 1 then y else z.

Lemma load_pot_view h p U : view_pot h p = Ok U -> exists x, load_pot h p = Ok x /\ pot_L x = pv_L U.
Proof.
  unfold view_pot. intros H. bindinv H. exists a. split; [reflexivity|]. bindinv H. bindinv H. bindinv H. destruct a0; try discriminate. destruct a1; try discriminate. destruct a2; try discriminate.
  destruct (_ && _ && _)%nat; [|discriminate]. injection H as <-. reflexivity.
Qed.

Lemma odd_nonzero L : (2 * IZR L + 1 <> 0)%R.
Proof. intros H. assert (Q : (2 * L + 1 = 0)%Z) by (apply eq_IZR; rewrite plus_IZR, mult_IZR; exact H). lia. Qed.

Lemma spin_orbit_gradient_thm V rt h pA pB C pot U vA vB ca cb e :
  (forall k, bilinear1 (V k)) -> heap_wf h -> rt_init rt = true -> null_is_zero rt -> std_shell h pA vA ca -> std_shell h pB vB cb -> view_pot h pot = Ok U -> (0 <= e)%R ->
  around (accurate3 V (fun A B => rt_so rt A B C U) e) vA vB ->
  exists bra ket, (forall k, 0 <= k < 3 -> deriv_close (V k) vA vB ca cb e (bra k) (ket k)) /\
    forall ord oob D grad, may_overread oob vA vB -> told_apart [v_origin vA; v_origin vB; C; D] -> (forall k, 0 <= k < 3 -> grad_fits (pick3 grad k) vA vB) ->
      exists h' grad', spin_orbit_integrals_gradient ord oob rt h pA pB C pot D grad = Ok (h', grad') /\ heap_wf h' /\ (forall q, hblk h' q = hblk h q) /\
        forall k, 0 <= k < 3 -> only_grad (pick3 grad k) (pick3 grad' k) vA vB /\ holds_gradient (pick3 grad' k) vA vB ca cb C D (bra k) (ket k).
Proof.
  intros BV W I Nz SA SB EU He Ac.
  destruct (new_grpp h) as [g h1] eqn:E1. destruct (rep_alloc _ _ _ _ _ _ W (rep_start _ W) E1) as (R1 & _).
  destruct (new_ptr_array h1) as [u h1a] eqn:Ea. destruct (rep_alloc _ _ _ _ _ _ W R1 Ea) as (R1a & _). rewrite zeros_split in R1a.
  destruct (rep_set_ptr h h1a _ u [] (repeat 0 99) 0 pot 0 R1a eq_refl) as (h1b & Eb & R1b).
  destruct (rep_store h h1b _ g _ (OGrpp (mkGrpp 0 1 0 0 0 u 0 0)) (rep_perm _ _ _ _ (perm_swap _ _ _) R1b)) as (h2 & E2 & R2 & _).
  assert (S2 : add_spin_orbit_potential h1 g pot = Ok h2).
  { unfold add_spin_orbit_potential, load_grpp. rewrite (rep_load _ _ _ _ _ R1 (or_introl eq_refl)), !bind_ok. cbn [g_UL g_n_arep g_n_esop g_n_oc g_Uarep g_Uesop g_Uoc g_ocshells]. rewrite Z.eqb_refl, Ea, Eb, bind_ok. exact E2. }
  destruct (alloc_gradients_rep _ _ _ _ _ _ _ _ _ W SA SB R2) as (p1 & x1 & y1 & z1 & h3 & E3 & R3).
  set (n := v_size vA * v_size vB) in *. set (gc := (g, OGrpp (mkGrpp 0 1 0 0 0 u 0 0))) in *. set (uc := (u, OPtrs ([] ++ pot :: repeat 0 99))) in *.
  destruct (term_gradient (V_so (so_weight U) V) rt h h3 _ pA pB g (only_spin_orbit U) [] C vA vB ca cb (Rabs (so_weight U) * e) (bilinear_so _ V BV) W I SA SB R3) as (bra & ket & Hd & Hg).
  { exists (mkGrpp 0 1 0 0 0 u 0 0), [], [pot], []. split.
    - apply R3. apply in_or_app. right. left. reflexivity.
    - cbn [only_spin_orbit gv_local gv_arep gv_esop gv_oc g_UL g_n_arep g_n_esop g_n_oc g_Uesop map]. split; [reflexivity|]. split; [reflexivity|]. split; [left; reflexivity|]. split; [constructor|]. split; [reflexivity|]. split.
      { right. exists (repeat 0 99). apply R3. apply in_or_app. right. right. left. reflexivity. }
      split; [constructor; [eapply view_keeps; [exact (rep_keeps _ _ _ R3)|exact EU]|constructor]|].
      repeat split; try constructor; reflexivity. }
  { intros p []. } { intros []. } { intros []. }
  { eapply around_impl; [|exact Ac]. intros x y. apply so_accurate; assumption. }
  set (s := ((2 * IZR (pv_L U) + 1) / 2)%R).
  assert (Es : (s * so_weight U = 1)%R) by (unfold s, so_weight; rewrite plus_IZR, mult_IZR; field; apply odd_nonzero).
  exists (fun k c i j => s * bra k c i j)%R, (fun k c i j => s * ket k c i j)%R. split.
  { intros k Hk c i j cA cB Hc Hi Hj. destruct (Hd k ltac:(lia) c i j cA cB Hc Hi Hj) as (Hb & Hkt). unfold V_so in Hb, Hkt. destruct (Z.eqb_spec k (-1)); [lia|].
    destruct Hb as (v & (w & Vw & ->) & Bv). destruct Hkt as (v' & (w' & Vw' & ->) & Bv').
    assert (Sc : forall x y m, (Rabs (x - so_weight U * y) <= Rabs (so_weight U) * e * m -> Rabs (s * x - y) <= e * m)%R).
    { intros x y m Bd. replace (s * x - y)%R with (s * (x - so_weight U * y) )%R by (rewrite Rmult_minus_distr_l, <- Rmult_assoc, Es; ring).
      rewrite Rabs_mult. apply Rle_trans with (Rabs s * (Rabs (so_weight U) * e * m))%R; [apply Rmult_le_compat_l; [apply Rabs_pos|exact Bd]|].
      rewrite <- !Rmult_assoc, <- Rabs_mult, Es, Rabs_R1, Rmult_1_l. apply Rle_refl. }
    split; [exists w|exists w']; (split; [assumption|apply Sc; assumption]). }
  intros ord oob D [[gx gy] gz] Ho T Fg. pose proof (Fg 0 ltac:(lia)) as Fx. pose proof (Fg 1 ltac:(lia)) as Fy. pose proof (Fg 2 ltac:(lia)) as Fz. cbn in Fx, Fy, Fz.
  destruct (Hg ord oob D (aconst [3; n] 0%R, gx, gy, gz) Ho T (fits_room _ _ _ _ _ _ (const_fits _ _) Fx Fy Fz)) as (h6 & grad' & hh & E6 & (Wh & _) & R6 & Same & On & Vg).
  specialize (Same eq_refl). unfold spin_orbit_integrals_gradient. rewrite E1, S2, bind_ok, E3, bind_ok, E6, bind_ok.
  destruct grad' as [[[ga hx] hy] hz].
  assert (K : keeps h h6) by (intros q o Hq; eapply rep_old; [exact R6|]; rewrite Same; exact Hq).
  destruct (load_pot_view _ _ _ (view_keeps _ _ _ _ K EU)) as (px & Ep & EL). rewrite Ep, bind_ok, EL. fold s.
  destruct (std_loads _ _ _ _ (proj1 R6) (std_old _ _ _ _ _ K SA)) as (sA & EA & _ & ZA & _). destruct (std_loads _ _ _ _ (proj1 R6) (std_old _ _ _ _ _ K SB)) as (sB & EB & _ & ZB & _).
  rewrite EA, bind_ok, EB, bind_ok, ZA, ZB. fold n.
  pose proof (std_size _ _ _ _ SA) as PA. pose proof (std_size _ _ _ _ SB) as PB.
  pose proof (On 0 ltac:(lia)) as Ox. pose proof (On 1 ltac:(lia)) as Oy. pose proof (On 2 ltac:(lia)) as Oz. cbn in Ox, Oy, Oz.
  destruct Fx as (sx & Dx & Nx), Fy as (sy & Dy & Ny), Fz as (sz & Dz & Nnz).
  destruct (rescale3_ok n s hx hy hz sx sy sz) as (kx & ky & kz & Er & Kx & Ky & Kz); try assumption.
  { unfold n. nia. } { rewrite (proj1 Ox). exact Dx. } { rewrite (proj1 Oy). exact Dy. } { rewrite (proj1 Oz). exact Dz. }
  { intros a b Ha Hb. destruct (block_index ca cb (v_size vB) b) as (i & j & cA & cB & Hi & Hj & ->); [unfold n in Hb; rewrite <- PA; exact Hb|exact PB|].
    pose proof (Vg 0 ltac:(lia) a i j cA cB Ha Hi Hj) as Q0. pose proof (Vg 1 ltac:(lia) a i j cA cB Ha Hi Hj) as Q1. pose proof (Vg 2 ltac:(lia) a i j cA cB Ha Hi Hj) as Q2. cbn in Q0, Q1, Q2.
    split; [|split]; eexists; eassumption. }
  rewrite Er, bind_ok. destruct (dealloc_gradients_rep _ _ _ _ _ _ _ _ R6) as (h9 & E9 & R9). rewrite E9, bind_ok.
  unfold load_grpp. rewrite (rep_load _ _ _ _ _ R9 (or_introl eq_refl)), !bind_ok. cbn [g_UL g_n_arep g_n_esop g_n_oc g_Uarep g_Uesop g_Uoc g_ocshells].
  unfold gc in R9. destruct (rep_store _ _ _ _ _ (OGrpp (mkGrpp 0 0 0 0 0 u 0 0)) R9) as (h10 & E10 & R10 & _). rewrite E10, bind_ok.
  destruct (delete_bare hh h10 g None (Some uc) None None [] R10) as (h11 & E11 & R11). rewrite E11, bind_ok.
  exists h11, (kx, ky, kz). split; [reflexivity|]. split; [exact (proj1 R11)|]. split; [intros q; rewrite (rep_end _ _ R11); apply Same|].
  assert (One : forall k gg hh0 kk, only_grad gg hh0 vA vB -> scaled_to s n 3 0 hh0 kk -> holds_gradient hh0 vA vB ca cb C D (bra k) (ket k) ->
    only_grad gg kk vA vB /\ holds_gradient kk vA vB ca cb C D (fun c i j => s * bra k c i j)%R (fun c i j => s * ket k c i j)%R).
  { intros k gg hh0 kk On1 Sc Hv. split; [eapply scaled_only; eassumption|]. intros c i j cA cB Hc Hi Hj. unfold grad_at.
    assert ((i < length ca)%nat) by (apply nth_error_Some; congruence). assert ((j < length cb)%nat) by (apply nth_error_Some; congruence).
    destruct Sc as (_ & _ & Sc). rewrite (Sc c _ _ Hc (in_range_idx (Z.of_nat i) (Z.of_nat j) (v_size vA) (v_size vB) ltac:(lia) ltac:(lia)) ltac:(lia) (Hv c i j cA cB Hc Hi Hj)). f_equal. ring. }
  intros k Hk. assert (Ck : k = 0 \/ k = 1 \/ k = 2) by lia. destruct Ck as [-> | [-> | ->]]; cbn [pick3 Z.eqb Pos.eqb].
  - eapply One; [exact Ox|exact Kx|exact (Vg 0 ltac:(lia))].
  - eapply One; [exact Oy|exact Ky|exact (Vg 1 ltac:(lia))].
  - eapply One; [exact Oz|exact Kz|exact (Vg 2 ltac:(lia))].
Qed.

(** ** The outercore term *)
Definition oc_array (u : Z) (ps : list Z) : option (Z * obj) := match ps with [] => None | _ => Some (u, OPtrs (ps ++ repeat 0 (100 - length ps))) end.

Definition oc_cells (g uo us : Z) (ocs : list (Z * Z)) : list (Z * obj) :=
  (g, OGrpp (mkGrpp 0 0 (Z.of_nat (length ocs)) 0 0 0 (optr' (oc_array uo (map fst ocs))) (optr' (oc_array us (map snd ocs))))) ::
  ocell (oc_array uo (map fst ocs)) ++ ocell (oc_array us (map snd ocs)).

Lemma oc_array_some u ps p : oc_array u (ps ++ [p]) = Some (u, OPtrs ((ps ++ [p]) ++ repeat 0 (99 - length ps))).
Proof. unfold oc_array. rewrite app_length. cbn [length]. replace (100 - (length ps + 1))%nat with (99 - length ps)%nat by lia. destruct ps; reflexivity. Qed.

Lemma add_outercore_one h0 h g uo us ocs p s : heap_wf h0 -> rep h0 h (oc_cells g uo us ocs) -> (length ocs < 100)%nat ->
  exists uo' us' h', add_outercore_potential h g p s = Ok h' /\ rep h0 h' (oc_cells g uo' us' (ocs ++ [(p, s)])).
Proof.
  intros W R0 Hl. unfold add_outercore_potential, load_grpp. rewrite (rep_load _ _ _ _ _ R0 (or_introl eq_refl)), !bind_ok.
  cbn [g_UL g_n_arep g_n_esop g_n_oc g_Uarep g_Uesop g_Uoc g_ocshells].
  set (n := length ocs) in *.
  assert (Al : exists uo' us' h1 gx, (if Z.of_nat n =? 0 then let '(uo, h) := new_ptr_array h in let '(us, h) := new_ptr_array h in (uo, us, h)
      else (optr' (oc_array uo (map fst ocs)), optr' (oc_array us (map snd ocs)), h)) = (uo', us', h1) /\
      rep h0 h1 ((uo', OPtrs (map fst ocs ++ 0 :: repeat 0 (99 - n))) :: (us', OPtrs (map snd ocs ++ 0 :: repeat 0 (99 - n))) :: [(g, gx)])).
  { destruct ocs as [|o ocs].
    - cbn [length map oc_array ocell optr' app oc_cells] in *. change (Z.of_nat n =? 0) with true. cbv iota.
      destruct (new_ptr_array h) as [u1 h1] eqn:E1. destruct (rep_alloc _ _ _ _ _ _ W R0 E1) as (R1 & _).
      destruct (new_ptr_array h1) as [u2 h2] eqn:E2. destruct (rep_alloc _ _ _ _ _ _ W R1 E2) as (R2 & _).
      eexists u1, u2, h2, _. split; [reflexivity|]. rewrite zeros_split in R2. eapply rep_perm; [|exact R2]. apply perm_swap.
    - destruct (Z.eqb_spec (Z.of_nat n) 0) as [Q|_]; [unfold n in Q; cbn [length] in Q; lia|].
      assert (Ar : forall u (ps : list Z), ps <> [] -> length ps = n -> oc_array u ps = Some (u, OPtrs (ps ++ 0 :: repeat 0 (99 - n)))).
      { intros u ps Np Hp. destruct ps as [|q ps]; [congruence|]. unfold oc_array. rewrite Hp. replace (100 - n)%nat with (S (99 - n)) by lia. reflexivity. }
      unfold oc_cells in R0. rewrite !Ar in R0 |- * by (rewrite ?map_length; discriminate || reflexivity). cbn [optr' fst ocell app] in *.
      eexists _, _, h, _. split; [reflexivity|]. eapply rep_perm; [|exact R0].
      etransitivity; [apply perm_swap|]. apply perm_skip. apply perm_swap. }
  destruct Al as (uo' & us' & h1 & gx & -> & R1).
  destruct (rep_set_ptr h0 h1 _ uo' (map fst ocs) (repeat 0 (99 - n)) 0 p (Z.of_nat n) R1) as (h2 & E2 & R2); [rewrite map_length; reflexivity|]. rewrite E2, bind_ok.
  destruct (rep_set_ptr h0 h2 ((uo', OPtrs (map fst ocs ++ p :: repeat 0 (99 - n))) :: [(g, gx)]) us' (map snd ocs) (repeat 0 (99 - n)) 0 s (Z.of_nat n)) as (h3 & E3 & R3); [eapply rep_perm; [|exact R2]; apply perm_swap|rewrite map_length; reflexivity|]. rewrite E3, bind_ok.
  destruct (rep_store h0 h3 ((uo', OPtrs (map fst ocs ++ p :: repeat 0 (99 - n))) :: [(us', OPtrs (map snd ocs ++ s :: repeat 0 (99 - n)))]) g gx (OGrpp (mkGrpp 0 0 (Z.of_nat n + 1) 0 0 0 uo' us'))) as (h4 & E4 & R4 & _).
  { eapply rep_perm; [|exact R3]. etransitivity; [apply perm_skip, perm_swap|]. etransitivity; [apply perm_swap|]. apply perm_skip. apply perm_swap. }
  exists uo', us', h4. split; [exact E4|]. unfold oc_cells. rewrite !map_app. cbn [map fst snd]. rewrite !oc_array_some, !map_length, app_length. cbn [length optr' fst ocell app]. fold n.
  rewrite <- !app_assoc. cbn [app]. replace (Z.of_nat (n + 1)) with (Z.of_nat n + 1) by lia. exact R4.
Qed.

Lemma add_outercore_all h0 g : heap_wf h0 -> forall ocs done uo us h, rep h0 h (oc_cells g uo us done) -> (length done + length ocs <= 100)%nat ->
  exists uo' us' h', fold_left (fun (r : res heap) '(pot, oc) => let* h := r in add_outercore_potential h g pot oc) ocs (Ok h) = Ok h' /\ rep h0 h' (oc_cells g uo' us' (done ++ ocs)).
Proof.
  intros W ocs. induction ocs as [|[p s] ocs IH]; intros dn uo us h R0 Hl.
  - exists uo, us, h. split; [reflexivity|]. rewrite app_nil_r. exact R0.
  - cbn [length] in Hl. cbn [fold_left]. rewrite bind_ok. destruct (add_outercore_one h0 h g uo us dn p s W R0 ltac:(lia)) as (uo' & us' & h1 & E1 & R1). rewrite E1.
    destruct (IH (dn ++ [(p, s)]) uo' us' h1 R1) as (uo2 & us2 & h2 & E2 & R2); [rewrite app_length; cbn [length]; lia|]. exists uo2, us2, h2. split; [exact E2|]. rewrite <- app_assoc in R2. exact R2.
Qed.

Lemma oc_ptrs h0 h u ps cs : rep h0 h cs -> (forall c, In c (ocell (oc_array u ps)) -> In c cs) -> ptrs_at h (optr' (oc_array u ps)) ps.
Proof.
  intros R0 H. destruct ps as [|p ps]; [left; reflexivity|]. right. exists (repeat 0 (100 - length (p :: ps))). apply R0. apply H. left. reflexivity.
Qed.

Lemma view_shell_live h p s : view_shell h p = Ok s -> hblk h p <> None.
Proof. unfold view_shell, load_shell, hload. destruct (p =? 0); [discriminate|]. destruct (hblk h p); [discriminate|intros H; discriminate H]. Qed.

Lemma outercore_gradient_thm V rt h pA pB C ocs l vA vB ca cb e :
  bilinear V -> heap_wf h -> rt_init rt = true -> null_is_zero rt -> std_shell h pA vA ca -> std_shell h pB vB cb ->
  Forall2 (fun p x => view_pot h (fst p) = Ok (fst x) /\ view_shell h (snd p) = Ok (snd x)) ocs l -> (length ocs <= 100)%nat -> ~ In pA (map snd ocs) -> ~ In pB (map snd ocs) ->
  around (accurate4 V (fun A B => outercore_potential_integrals (rt_oc rt) A B C l) e) vA vB ->
  exists bra ket, (forall k, -1 <= k < 3 -> deriv_close (V k) vA vB ca cb e (bra k) (ket k)) /\
    forall ord oob D grad, may_overread oob vA vB -> told_apart [v_origin vA; v_origin vB; C; D] -> grad_room vA vB grad ->
      exists h' grad', outercore_integrals_gradient ord oob rt h pA pB C ocs D grad = Ok (h', grad') /\ reached C (map snd ocs) h h' /\
        only_grad4 grad grad' vA vB /\ forall k, -1 <= k < 3 -> holds_gradient (mat_k grad' k) vA vB ca cb C D (bra k) (ket k).
Proof.
  intros BV W I Nz SA SB F Hl NA NB Ac.
  destruct (new_grpp h) as [g h1] eqn:E1. destruct (rep_alloc _ _ _ _ _ _ W (rep_start _ W) E1) as (R1 & _).
  destruct (add_outercore_all h g W ocs [] 0 0 h1 R1 Hl) as (uo & us & h2 & E2 & R2). cbn [app] in R2.
  assert (K : keeps h h2) by (exact (rep_keeps _ _ _ R2)).
  destruct (term_gradient V rt h h2 _ pA pB g (only_outercore l) (map snd ocs) C vA vB ca cb e BV W I SA SB R2) as (bra & ket & Hd & Hg).
  { eexists (mkGrpp 0 0 (Z.of_nat (length ocs)) 0 0 0 _ _), [], [], (map fst ocs). split; [apply R2; left; reflexivity|].
    cbn [only_outercore gv_local gv_arep gv_esop gv_oc g_UL g_n_arep g_n_esop g_n_oc g_Uoc g_ocshells]. split; [reflexivity|]. split; [reflexivity|]. split; [left; reflexivity|]. split; [constructor|]. split; [reflexivity|]. split; [left; reflexivity|]. split; [constructor|].
    split; [rewrite map_length; reflexivity|]. split; [eapply oc_ptrs; [exact R2|]; intros c Hc; right; apply in_or_app; left; exact Hc|]. split.
    { clear -F K. induction F as [|p x ocs l (H1 & H2) F IH]; [constructor|]. cbn [map]. constructor; [eapply view_keeps; eassumption|exact IH]. }
    split; [eapply oc_ptrs; [exact R2|]; intros c Hc; right; apply in_or_app; right; exact Hc|].
    clear -F K. induction F as [|p x ocs l (H1 & H2) F IH]; [constructor|]. cbn [map]. constructor; [eapply view_shell_keeps; eassumption|exact IH]. }
  { clear -F. intros p. induction F as [|q x ocs l (H1 & H2) F IH]; [intros []|]. intros [<- |H]; [eapply view_shell_live; exact H2|apply IH; exact H]. }
  { exact NA. } { exact NB. }
  { eapply around_impl; [|exact Ac]. intros x y. apply oc_accurate; assumption. }
  exists bra, ket. split; [exact Hd|]. intros ord oob D grad Ho T Fg.
  destruct (Hg ord oob D grad Ho T Fg) as (h6 & grad' & hh & E6 & Rc & R6 & _ & On & Vg).
  unfold outercore_integrals_gradient. rewrite E1, E2, bind_ok, E6, bind_ok.
  unfold load_grpp. rewrite (rep_load _ _ _ _ _ R6 (or_introl eq_refl)), !bind_ok. cbn [g_UL g_n_arep g_n_esop g_n_oc g_Uarep g_Uesop g_Uoc g_ocshells].
  unfold oc_cells in R6. destruct (rep_store _ _ _ _ _ (OGrpp (mkGrpp 0 0 0 0 0 0 (optr' (oc_array uo (map fst ocs))) (optr' (oc_array us (map snd ocs))))) R6) as (h10 & E10 & R10 & _). rewrite E10, bind_ok.
  destruct (delete_bare hh h10 g None None (oc_array uo (map fst ocs)) (oc_array us (map snd ocs)) []) as (h11 & E11 & R11); [cbn [ocell app optr']; rewrite app_nil_r; exact R10|]. rewrite E11, bind_ok.
  exists h11, grad'. split; [reflexivity|]. split.
  { split; [exact (proj1 R11)|]. destruct (proj2 Rc) as [Q|Q]; [left|right]; intros q; rewrite (rep_end _ _ R11); apply Q. }
  split; [exact On|exact Vg].
Qed.
