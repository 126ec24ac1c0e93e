(** * C87: the attraction to a point charge over a basis

    [bfun]: one component of a shell with a coefficient; [combo ts]: the linear combination of
    these basis functions as a function on space; [quad ts V], [cross ts us V]: expectation value
    and matrix element from elements V (Definite.v, Rigid.v); [attracted sf ev h C charge t u e]:
    the library writes [e] as the element for a charge at C; [unit_error], [total_error]: 1.5e-14
    times the amplification factors of C62; [covered]: shells up to L = 9 with positive exponents,
    within the range of the Boys function, no product of contraction coefficients below 1e-13
    (Attraction.v). *)

From Coq Require Import ZArith List Lia Bool Reals Lra.
From Coquelicot Require Import Coquelicot.
From Verif Require Import Base GaussInt GaussProd CartModel CartProofs HeapModel HeapProofs HeapSpec
  OneElModel OneElProofs OneElPairs OneElSpec OneElInt OneElThms NucModel NucProofs MmdModel MmdSpec MmdMain MmdNuc Definite RigidPoly Rigid RigidThms Attraction.
From Verif Require Properties_OneEl Properties_Rigid.
Import ListNotations.
Open Scope R_scope.

(** C87: for any list of basis functions with any coefficients, the expectation value computed from the
library's matrix elements is not positive, up to the error of the elements. *)
Theorem C87_attractive : forall sf ev h C charge ts V,
  point_mmd ev -> heap_wf h -> (0 <= charge)%Z -> covered h C ts ts ->
  (forall t u, In t ts -> In u ts -> attracted sf ev h C charge t u (V t u)) -> quad ts V <= IZR charge * total_error C ts ts.
Proof. exact attraction_sign_thm. Qed.
Print Assumptions C87_attractive.

(** C87: exchanging the two basis functions changes an element by at most the errors of the two calls; skipped
products of coefficients make no difference. *)
Theorem C87_symmetric : forall sf ev h C charge t u e e',
  point_mmd ev -> heap_wf h -> bf_ok h t -> bf_ok h u -> boys_range (b_v t) (b_v u) C ->
  attracted sf ev h C charge t u e -> attracted sf ev h C charge u t e' -> Rabs (e - e') <= Rabs (IZR charge) * (unit_error C t u + unit_error C u t).
Proof. exact attraction_symmetric_thm. Qed.
Print Assumptions C87_symmetric.

(** C87: the matrix element between two linear combinations does not change, up to the errors, when both
combinations and the charge are carried along by a rotation, reflection or translation. *)
Theorem C87_rigid_motion : forall sf ev h O t C charge ts us ts' us' V V',
  point_mmd ev -> heap_wf h -> orthogonal O ->
  covered h C ts us -> covered h (moved3 O t C) ts' us' -> carried O t (combo ts) (combo ts') -> carried O t (combo us) (combo us') ->
  (forall a b, In a ts -> In b us -> attracted sf ev h C charge a b (V a b)) -> (forall a b, In a ts' -> In b us' -> attracted sf ev h (moved3 O t C) charge a b (V' a b)) ->
  Rabs (cross ts' us' V' - cross ts us V) <= Rabs (IZR charge) * (total_error C ts us + total_error (moved3 O t C) ts' us').
Proof. exact attraction_rigid_thm. Qed.
Print Assumptions C87_rigid_motion.

(** the elements exist, so the hypotheses can be met *)
Example C87_elements : forall sf ev h C charge t u, point_mmd ev -> heap_wf h -> bf_ok h t -> bf_ok h u -> boys_range (b_v t) (b_v u) C -> exists e, attracted sf ev h C charge t u e.
Proof. intros. apply attracted_exists; assumption. Qed.

(** the errors do not hide the sign: a normalised s function on the nucleus, any exponent and any charge *)
Example C87_s_function : forall sf ev h C charge p v comps a e, point_mmd ev -> heap_wf h -> bf_ok h (BF 1 p v comps 0) -> nth 0 comps (0, 0, 0)%Z = (0, 0, 0)%Z -> v_prims v = [(1, a)] -> v_origin v = C -> v_L v = 0%Z ->
  (0 < charge)%Z -> attracted sf ev h C charge (BF 1 p v comps 0) (BF 1 p v comps 0) e -> e < 0.
Proof. exact s_negative. Qed.

Notation rot345 := Properties_Rigid.rot345.

(** a component of a d shell and one of a p shell, and the rotated and shifted combinations *)
Example C87_case : exists h ts us ts' us', heap_wf h /\ orthogonal rot345 /\
  covered h (1, 1, 1) (ts ++ us) (ts ++ us) /\ covered h (1, 1, 1) ts us /\ covered h (moved3 rot345 (1, -2, 3) (1, 1, 1)) ts' us' /\
  carried rot345 (1, -2, 3) (combo ts) (combo ts') /\ carried rot345 (1, -2, 3) (combo us) (combo us') /\
  length ts = 1%nat /\ length us = 1%nat /\ length ts' = 6%nat /\ length us' = 3%nat.
Proof.
  destruct (shells_exist [Properties_OneEl.d_shell; Properties_OneEl.p_shell; (2%Z, moved3 rot345 (1, -2, 3) (0, 0, 1), [(1, 3); (1 / 2, 1)]);
                          (1%Z, moved3 rot345 (1, -2, 3) (1, 0, -1), [(2, 1 / 5); (-1, 4)])]) as (h & ps & W & F).
  { intros L o pr [E | [E | [E | [E | []]]]]; injection E as <- <- <-; lia. }
  inversion F as [|? pA ? ? HA F1]; subst. inversion F1 as [|? pB ? ? HB F2]; subst.
  inversion F2 as [|? pA' ? ? HA' F3]; subst. inversion F3 as [|? pB' ? ? HB' F4]; subst.
  destruct HA as (vA & ca & SA & LA & OA & PA). destruct HB as (vB & cb & SB & LB & OB & PB).
  destruct HA' as (vA' & ca' & SA' & LA' & OA' & PA'). destruct HB' as (vB' & cb' & SB' & LB' & OB' & PB').
  assert (NA := std_length _ _ _ _ SA). assert (NB := std_length _ _ _ _ SB). assert (NA' := std_length _ _ _ _ SA'). assert (NB' := std_length _ _ _ _ SB'). rewrite LA in NA. rewrite LB in NB. rewrite LA' in NA'. rewrite LB' in NB'.
  change (n_cart 2) with 6%Z in NA, NA'. change (n_cart 1) with 3%Z in NB, NB'.
  assert (XA : exps_pos vA) by (intros c a; rewrite PA; intros [E | [E | []]]; injection E as <- <-; lra).
  assert (XB : exps_pos vB) by (intros c a; rewrite PB; intros [E | [E | []]]; injection E as <- <-; lra).
  assert (MA : moved_shell rot345 (1, -2, 3) vA vA') by (split; [congruence|split; [congruence|rewrite OA', OA; reflexivity]]).
  assert (MB : moved_shell rot345 (1, -2, 3) vB vB') by (split; [congruence|split; [congruence|rewrite OB', OB; reflexivity]]).
  assert (KA : bf_ok h (BF 1 pA vA ca 1)) by (split; [exact SA|]; split; [cbn [b_v]; lia|]; split; [exact XA|cbn [b_m b_comps]; lia]).
  assert (KB : bf_ok h (BF 1 pB vB cb 1)) by (split; [exact SB|]; split; [cbn [b_v]; lia|]; split; [exact XB|cbn [b_m b_comps]; lia]).
  assert (KA' : forall b, In b (rot_list rot345 (b_comp (BF 1 pA vA ca 1)) pA' vA' ca') -> bf_ok h b /\ b_v b = vA').
  { intros b Hb. split; [|apply in_map_iff in Hb; destruct Hb as (m & <- & _); reflexivity]. eapply (rot_list_ok rot345 h _ pA' vA' ca'); [exact SA'|lia| |exact Hb]. intros c a. rewrite (proj1 (proj2 MA)). apply XA. }
  assert (KB' : forall b, In b (rot_list rot345 (b_comp (BF 1 pB vB cb 1)) pB' vB' cb') -> bf_ok h b /\ b_v b = vB').
  { intros b Hb. split; [|apply in_map_iff in Hb; destruct Hb as (m & <- & _); reflexivity]. eapply (rot_list_ok rot345 h _ pB' vB' cb'); [exact SB'|lia| |exact Hb]. intros c a. rewrite (proj1 (proj2 MB)). apply XB. }
  assert (AB : forall c, In c [1; 1 / 2; 2; -1] -> 1 / 2 <= Rabs c) by (intros c [<-|[<-|[<-|[<-|[]]]]]; [rewrite Rabs_right by lra|rewrite Rabs_right by lra|rewrite Rabs_right by lra|rewrite Rabs_left by lra]; lra).
  assert (NS : forall t u : bfun, (forall c a, In (c, a) (v_prims (b_v t)) -> In c [1; 1 / 2; 2; -1]) -> (forall c a, In (c, a) (v_prims (b_v u)) -> In c [1; 1 / 2; 2; -1]) -> none_skipped t u).
  { intros t u Ht Hu c a c' a' I1 I2. rewrite Rabs_mult. pose proof (AB _ (Ht _ _ I1)) as Q1. pose proof (AB _ (Hu _ _ I2)) as Q2.
    pose proof (Rmult_le_compat (1 / 2) (Rabs c) (1 / 2) (Rabs c') ltac:(lra) ltac:(lra) Q1 Q2). lra. }
  assert (QA : forall c a, In (c, a) (v_prims vA) -> In c [1; 1 / 2; 2; -1]) by (intros c a; rewrite PA; intros [E | [E | []]]; injection E as <- <-; cbn; tauto).
  assert (QB : forall c a, In (c, a) (v_prims vB) -> In c [1; 1 / 2; 2; -1]) by (intros c a; rewrite PB; intros [E | [E | []]]; injection E as <- <-; cbn; tauto).
  assert (QA' : forall c a, In (c, a) (v_prims vA') -> In c [1; 1 / 2; 2; -1]) by (intros c a; rewrite (proj1 (proj2 MA)); apply QA).
  assert (QB' : forall c a, In (c, a) (v_prims vB') -> In c [1; 1 / 2; 2; -1]) by (intros c a; rewrite (proj1 (proj2 MB)); apply QB).
  exists h, [BF 1 pA vA ca 1], [BF 1 pB vB cb 1], (rot_list rot345 (b_comp (BF 1 pA vA ca 1)) pA' vA' ca'), (rot_list rot345 (b_comp (BF 1 pB vB cb 1)) pB' vB' cb').
  split; [exact W|]. split; [exact Properties_Rigid.rot345_orthogonal|]. split; [|split; [|split; [|split; [|split; [|split; [|split]]]]]].
  - assert (OK : forall t, In t ([BF 1 pA vA ca 1] ++ [BF 1 pB vB cb 1]) -> bf_ok h t /\ (v_L (b_v t) <= 2)%Z /\ forall c a, In (c, a) (v_prims (b_v t)) -> In c [1; 1 / 2; 2; -1]).
    { intros t [<-|[<-|[]]]; [split; [exact KA|split; [cbn [b_v]; lia|exact QA]]|split; [exact KB|split; [cbn [b_v]; lia|exact QB]]]. }
    split; [intros t Ht; apply OK, Ht|]. split; [intros t Ht; apply OK, Ht|]. intros t u Ht Hu. destruct (OK t Ht) as (_ & L1 & N1). destruct (OK u Hu) as (_ & L2 & N2). split; [apply NS; assumption|left; lia].
  - split; [intros t [<-|[]]; exact KA|]. split; [intros t [<-|[]]; exact KB|]. intros t u [<-|[]] [<-|[]]. split; [apply NS; assumption|left; cbn [b_v]; lia].
  - split; [intros t Ht; apply KA', Ht|]. split; [intros t Ht; apply KB', Ht|]. intros t u Ht Hu. destruct (KA' t Ht) as (_ & E1). destruct (KB' u Hu) as (_ & E2). split; [apply NS; [rewrite E1; exact QA'|rewrite E2; exact QB']|left; rewrite E1, E2; lia].
  - apply (rot_list_carried rot345 (1, -2, 3) h); [exact Properties_Rigid.rot345_orthogonal|exact KA|reflexivity|exact SA'|exact MA].
  - apply (rot_list_carried rot345 (1, -2, 3) h); [exact Properties_Rigid.rot345_orthogonal|exact KB|reflexivity|exact SB'|exact MB].
  - reflexivity.
  - reflexivity.
  - unfold rot_list. rewrite !map_length, !seq_length. lia.
Qed.
