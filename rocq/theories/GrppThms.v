(** * What the GRPP integrals and their gradients are *)

From Coq Require Import ZArith List Lia Bool Reals Lra Permutation.
From Coquelicot Require Import Coquelicot.
From Verif Require Import Base Loops Sums CartModel CartProofs HeapModel HeapProofs HeapSpec OneElModel OneElProofs OneElPairs OneElSpec OneElThms
  GaussProd OneElInt SphProofs LmatModel UtilProofs OvGradModel OvDeriv OvGradProofs OvGradThms OutercoreModel OutercoreProofs OutercoreMain OutercoreThms GrppModel GrppFull GrppHeap GrppGrad GrppGrad2 MmdModel MmdThms MmdUser MmdOuter.
Import ListNotations.
Open Scope Z_scope.

(** ** C28 *)

(** the matrices are large enough for the pair *)
Definition room4 (vA vB : sview) (out : mats) : Prop :=
  let '(m0, m1, m2, m3) := out in fits m0 vA vB /\ fits m1 vA vB /\ fits m2 vA vB /\ fits m3 vA vB.

(** element (i, j) of the k-th matrix: k = -1 is arep, 0, 1, 2 are so_x, so_y, so_z *)
Definition mat_k (M : mats) (k : Z) : arr R := let '(m0, m1, m2, m3) := M in if k =? -1 then m0 else if k =? 0 then m1 else if k =? 1 then m2 else m3.

Lemma four_mat M szs na nb f k i j : four M szs na nb f -> -1 <= k < 3 -> 0 <= i < na -> 0 <= j < nb -> aget (mat_k M k) [i * nb + j] = Ok (f k i j).
Proof.
  destruct M as [[[m0 m1] m2] m3], szs as [[[s0 s1] s2] s3]. intros ((_ & _ & F0) & (_ & _ & F1) & (_ & _ & F2) & (_ & _ & F3)) Hk Hi Hj. unfold mat_k.
  destruct (Z.eqb_spec k (-1)) as [-> |]; [apply F0; assumption|]. destruct (Z.eqb_spec k 0) as [-> |]; [apply F1; assumption|]. destruct (Z.eqb_spec k 1) as [-> |]; [apply F2; assumption|].
  assert (k = 2) by lia. subst. apply F3; assumption.
Qed.

Definition only4 (vA vB : sview) (M M' : mats) : Prop := forall k, -1 <= k < 3 -> only_block (mat_k M k) (mat_k M' k) vA vB.

(** what the component routines give for the parts of the operator *)
Definition component_values (rt : routines) (A B : vshell) (C : R * R * R) (gv : gview)
    (v1 : Z -> Z -> R) (v2 : vpot -> Z -> Z -> R) (v3 : vpot -> Z -> Z -> Z -> R) (v4 : Z -> Z -> Z -> R) : Prop :=
  gives1 (rt_type1 rt A B C (gv_local gv)) (sv_size A) (sv_size B) v1 /\
  (forall U, In U (gv_arep gv) -> gives1 (rt_type2 rt A B C U) (sv_size A) (sv_size B) (v2 U)) /\
  (forall U, In U (gv_esop gv) -> gives3 (rt_so rt A B C U) (sv_size A) (sv_size B) (v3 U)) /\
  gives4 (outercore_potential_integrals (rt_oc rt) A B C (gv_oc gv)) A B v4.

Lemma room_fits vA vB A B out : room4 vA vB out -> sv_size A = v_size vA -> sv_size B = v_size vB -> exists szs, fits4 A B out szs.
Proof.
  destruct out as [[[m0 m1] m2] m3]. intros ((s0 & D0 & Z0) & (s1 & D1 & Z1) & (s2 & D2 & Z2) & (s3 & D3 & Z3)) EA EB.
  exists (s0, s1, s2, s3). unfold fits4. rewrite EA, EB. repeat split; assumption.
Qed.

Lemma out4_only vA vB M M' szs f : out4 (v_size vA * v_size vB) M M' -> four M' szs (v_size vA) (v_size vB) f ->
  (let '(m0, m1, m2, m3) := M in let '(s0, s1, s2, s3) := szs in adims m0 = [s0] /\ adims m1 = [s1] /\ adims m2 = [s2] /\ adims m3 = [s3]) -> only4 vA vB M M'.
Proof.
  destruct M as [[[m0 m1] m2] m3], M' as [[[n0 n1] n2] n3], szs as [[[s0 s1] s2] s3].
  intros (O0 & O1 & O2 & O3) ((E0 & _) & (E1 & _) & (E2 & _) & (E3 & _)) (D0 & D1 & D2 & D3) k Hk.
  assert (One : forall m n s, outside (v_size vA * v_size vB) m n -> adims n = [s] -> adims m = [s] -> only_block m n vA vB).
  { intros m n s O E D. split; [congruence|]. intros x Hx. apply O. intros (y & Q & Hy). injection Q as ->. lia. }
  unfold mat_k. destruct (k =? -1); [eapply One; eassumption|]. destruct (k =? 0); [eapply One; eassumption|]. destruct (k =? 1); eapply One; eassumption.
Qed.

Lemma full_thm rt h pA pB g gv ocp vA vB ca cb C A B out v1 v2 v3 v4 :
  heap_wf h -> rt_init rt = true -> std_shell h pA vA ca -> std_shell h pB vB cb -> grpp_at h g gv ocp -> room4 vA vB out ->
  view_shell h pA = Ok A -> view_shell h pB = Ok B -> component_values rt A B C gv v1 v2 v3 v4 ->
  exists out' h', full_grpp_integrals rt h pA pB g C out = Ok (out', h') /\ only4 vA vB out out' /\
    (forall q, hblk h' q = hblk (moved_heap C ocp h) q) /\
    forall i j, 0 <= i < v_size vA -> 0 <= j < v_size vB ->
      aget (mat_k out' (-1)) [i * v_size vB + j] = Ok (v1 i j + lsum (fun U => v2 U i j) (gv_arep gv) + v4 (-1)%Z i j)%R /\
      forall k, 0 <= k < 3 ->
        aget (mat_k out' k) [i * v_size vB + j] = Ok (lsum (fun U => 2 / (2 * IZR (pv_L U) + 1) * v3 U k i j)%R (gv_esop gv) + v4 k i j)%R.
Proof.
  intros W I SA SB G Rm EA EB (H1 & H2 & H3 & H4).
  destruct (std_view h pA vA ca W SA) as (A' & EA' & _ & ZA). assert (A' = A) by congruence. subst A'.
  destruct (std_view h pB vB cb W SB) as (B' & EB' & _ & ZB). assert (B' = B) by congruence. subst B'.
  pose proof (std_size _ _ _ _ SA) as NA. pose proof (std_size _ _ _ _ SB) as NB.
  destruct (room_fits _ _ _ _ _ Rm ZA ZB) as (szs & F).
  destruct (full_sum_ok rt A B C ltac:(lia) ltac:(lia) gv out szs v1 v2 v3 v4 F H1 H2 H3 H4) as (out' & E & O & V).
  destruct (full_call rt h A B g gv ocp C pA pB out out' W I EA EB G E) as (h' & E' & _ & Bl).
  rewrite ZA, ZB in *.
  exists out', h'. split; [exact E'|]. split.
  { eapply out4_only; [exact O|exact V|]. clear -F. destruct out as [[[m0 m1] m2] m3], szs as [[[s0 s1] s2] s3]. destruct F as ((D0 & _) & (D1 & _) & (D2 & _) & (D3 & _)). auto. }
  split; [exact Bl|]. intros i j Hi Hj. split.
  - rewrite (four_mat _ _ _ _ _ (-1) i j V ltac:(lia) Hi Hj). reflexivity.
  - intros k Hk. rewrite (four_mat _ _ _ _ _ k i j V ltac:(lia) Hi Hj). f_equal. unfold parts. destruct (Z.eqb_spec k (-1)); [lia|]. f_equal. apply lsum_ext. intros U _. unfold so_weight. rewrite plus_IZR, mult_IZR. reflexivity.
Qed.

Lemma full_uninit rt h pA pB g C out : rt_init rt = false -> full_grpp_integrals rt h pA pB g C out = Fail AssertFailed.
Proof. intros E. unfold full_grpp_integrals. rewrite E. reflexivity. Qed.

Lemma oc_none t1 A B C : 0 <= sv_size A -> 0 <= sv_size B -> gives4 (outercore_potential_integrals t1 A B C []) A B (fun _ _ _ => 0%R).
Proof.
  intros NA NB out szs F. destruct out as [[[m0 m1] m2] m3], szs as [[[s0 s1] s2] s3]. destruct F as ((D0 & B0) & (D1 & B1) & (D2 & B2) & (D3 & B3)).
  unfold outercore_potential_integrals. cbv zeta. cbn [map fold_left].
  destruct (memset_full m0 s0 _ _ D0 NA NB B0) as (n0 & -> & F0 & _). destruct (memset_full m1 s1 _ _ D1 NA NB B1) as (n1 & -> & F1 & _).
  destruct (memset_full m2 s2 _ _ D2 NA NB B2) as (n2 & -> & F2 & _). destruct (memset_full m3 s3 _ _ D3 NA NB B3) as (n3 & -> & F3 & _).
  rewrite !bind_ok. exists (n0, n1, n2, n3), []. split; [reflexivity|]. exact (conj F0 (conj F1 (conj F2 F3))).
Qed.

Lemma own_null daw A B C : 0 <= sv_size A -> 0 <= sv_size B -> gives1 (type1_integrals daw true A B C None) (sv_size A) (sv_size B) (fun _ _ => 0%R).
Proof.
  intros NA NB M sz D Hsz. unfold type1_integrals. cbn [massert]. rewrite bind_ok. cbv zeta.
  destruct (memset_full M sz _ _ D NA NB Hsz) as (M' & -> & F & _). rewrite bind_ok. exists M'. split; [reflexivity|exact F].
Qed.

(** an operator without local and outercore parts, with the library's own type-1 routine *)
Lemma full_missing rt daw h pA pB g gv ocp vA vB ca cb C A B out v2 v3 :
  heap_wf h -> rt_init rt = true -> rt_type1 rt = type1_integrals daw true -> std_shell h pA vA ca -> std_shell h pB vB cb -> grpp_at h g gv ocp -> room4 vA vB out ->
  view_shell h pA = Ok A -> view_shell h pB = Ok B -> gv_local gv = None -> gv_oc gv = [] ->
  (forall U, In U (gv_arep gv) -> gives1 (rt_type2 rt A B C U) (sv_size A) (sv_size B) (v2 U)) ->
  (forall U, In U (gv_esop gv) -> gives3 (rt_so rt A B C U) (sv_size A) (sv_size B) (v3 U)) ->
  exists out' h', full_grpp_integrals rt h pA pB g C out = Ok (out', h') /\
    forall i j, 0 <= i < v_size vA -> 0 <= j < v_size vB ->
      aget (mat_k out' (-1)) [i * v_size vB + j] = Ok (lsum (fun U => v2 U i j) (gv_arep gv))%R /\
      forall k, 0 <= k < 3 ->
        aget (mat_k out' k) [i * v_size vB + j] = Ok (lsum (fun U => 2 / (2 * IZR (pv_L U) + 1) * v3 U k i j)%R (gv_esop gv))%R.
Proof.
  intros W I T1 SA SB G Rm EA EB EL EO H2 H3.
  destruct (std_view h pA vA ca W SA) as (A' & EA' & _ & ZA). assert (A' = A) by congruence. subst A'.
  destruct (std_view h pB vB cb W SB) as (B' & EB' & _ & ZB). assert (B' = B) by congruence. subst B'.
  pose proof (std_size _ _ _ _ SA) as NA. pose proof (std_size _ _ _ _ SB) as NB.
  destruct (full_thm rt h pA pB g gv ocp vA vB ca cb C A B out (fun _ _ => 0%R) v2 v3 (fun _ _ _ => 0%R) W I SA SB G Rm EA EB) as (out' & h' & E & _ & _ & V).
  { split; [rewrite T1, EL; apply own_null; lia|]. split; [exact H2|]. split; [exact H3|]. rewrite EO. apply oc_none; lia. }
  exists out', h'. split; [exact E|]. intros i j Hi Hj. destruct (V i j Hi Hj) as (V1 & V3). split; [rewrite V1; f_equal; ring|].
  intros k Hk. rewrite (V3 k Hk). f_equal. ring.
Qed.
