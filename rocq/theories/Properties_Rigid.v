(** * C82: one-electron integrals under rotations, reflections and translations

    [orthogonal O]: O is a 3 x 3 matrix with orthonormal rows and columns (a rotation, possibly
    followed by a reflection); [mv O t] is the motion x -> O x + t; [carried O t f f']: f' is f
    carried along; [combo ts]: a linear combination of basis functions; [cross ts us S]: the
    matrix element between two combinations, from the elements computed by the library;
    [moved_shell]: same exponents and coefficients, centre carried along; [rotated_sum D ..]:
    the element between two rotated components, from the elements of the moved block
    (Definite.v, RigidPoly.v, Rigid.v, RigidThms.v). *)

From Coq Require Import ZArith List Lia Bool Reals Lra.
From Coquelicot Require Import Coquelicot.
From Verif Require Import Base GaussInt GaussProd CartModel CartProofs HeapModel HeapProofs HeapSpec
  OneElModel OneElProofs OneElPairs OneElSpec OneElInt OneElThms Definite RigidPoly Rigid RigidThms.
From Verif Require Properties_OneEl.
Import ListNotations.
Open Scope R_scope.

(** C82: overlap and kinetic energy matrix elements between linear combinations do not change when both
combinations are carried along by a rigid motion. *)
Theorem C82_rigid_motion : forall o O t h ts us ts' us' S,
  o = Overlap \/ o = Kinetic -> orthogonal O -> heap_wf h ->
  (forall b, In b (ts ++ us ++ ts' ++ us') -> bf_ok h b) ->
  carried O t (combo ts) (combo ts') -> carried O t (combo us) (combo us') ->
  (forall a b, In a ts -> In b us -> computed o h a b (S a b)) -> (forall a b, In a ts' -> In b us' -> computed o h a b (S a b)) ->
  cross ts' us' S = cross ts us S.
Proof. exact rigid_thm. Qed.
Print Assumptions C82_rigid_motion.

(** C82: the three momentum matrix elements rotate like the components of a vector. *)
Theorem C82_momentum_is_a_vector : forall O t h ts us ts' us' S,
  orthogonal O -> heap_wf h ->
  (forall b, In b (ts ++ us ++ ts' ++ us') -> bf_ok h b) ->
  carried O t (combo ts) (combo ts') -> carried O t (combo us) (combo us') ->
  (forall k a b, (0 <= k < 3)%Z -> In a ts -> In b us -> computed (mom_op k) h a b (S k a b)) -> (forall k a b, (0 <= k < 3)%Z -> In a ts' -> In b us' -> computed (mom_op k) h a b (S k a b)) ->
  forall k, (0 <= k < 3)%Z -> cross ts' us' (S k) = sum3 (fun j => O k j * cross ts us (S j)).
Proof. exact rigid_momentum_thm. Qed.
Print Assumptions C82_momentum_is_a_vector.

(** C82: for every orthogonal matrix there is one table D, given by the expansion of rotated monomials in
monomials, such that the blocks of all pairs of shells are obtained from those of the moved shells
with D on both sides. *)
Theorem C82_blocks : forall O,
  orthogonal O -> exists D, rotates_monomials O D /\
  forall t h pA pB pA' pB' vA vB vA' vB' ca cb ca' cb', heap_wf h ->
  std_shell h pA vA ca -> std_shell h pB vB cb -> std_shell h pA' vA' ca' -> std_shell h pB' vB' cb' ->
  (v_L vA <= 9)%Z -> (v_L vB <= 9)%Z -> exps_pos vA -> exps_pos vB -> moved_shell O t vA vA' -> moved_shell O t vB vB' ->
  forall (M M' : arr R), fits M vA vB -> fits M' vA' vB' ->
  (forall o, o = Overlap \/ o = Kinetic -> exists X X' E E', oneel_call o h pA pB M = Ok X /\ oneel_call o h pA' pB' M' = Ok X' /\
     elements X vB (length ca) (length cb) E /\ elements X' vB' (length ca') (length cb') E' /\
     forall m n, (m < length ca)%nat -> (n < length cb)%nat -> E m n = rotated_sum D ca' cb' (nth m ca (0, 0, 0)%Z) (nth n cb (0, 0, 0)%Z) E') /\
  (exists E E' : Z -> nat -> nat -> R, (forall k, (0 <= k < 3)%Z -> exists X X', oneel_call (mom_op k) h pA pB M = Ok X /\ oneel_call (mom_op k) h pA' pB' M' = Ok X' /\
     elements X vB (length ca) (length cb) (E k) /\ elements X' vB' (length ca') (length cb') (E' k)) /\
     forall k m n, (0 <= k < 3)%Z -> (m < length ca)%nat -> (n < length cb)%nat ->
       sum3 (fun j => O k j * E j m n) = rotated_sum D ca' cb' (nth m ca (0, 0, 0)%Z) (nth n cb (0, 0, 0)%Z) (E' k)).
Proof. exact rigid_block_thm. Qed.
Print Assumptions C82_blocks.

(** a rotation about the z axis with cosine 3/5 and a reflection of z *)
Definition rot345 : mat := fun i j =>
  if (i =? 0)%Z then (if (j =? 0)%Z then 3 / 5 else if (j =? 1)%Z then - (4 / 5) else 0)
  else if (i =? 1)%Z then (if (j =? 0)%Z then 4 / 5 else if (j =? 1)%Z then 3 / 5 else 0)
  else (if (j =? 2)%Z then - 1 else 0).
Lemma rot345_orthogonal : orthogonal rot345.
Proof.
  split; intros i k Hi Hk; assert (i = 0 \/ i = 1 \/ i = 2)%Z as [-> | [-> | ->]] by lia; assert (k = 0 \/ k = 1 \/ k = 2)%Z as [-> | [-> | ->]] by lia; unfold sum3, delta, rot345; cbn [Z.eqb Pos.eqb]; lra.
Qed.

(** a d shell and a p shell on different centres together with their moved copies *)
Example C82_case : exists h pA pB pA' pB' vA vB vA' vB' ca cb ca' cb', heap_wf h /\ orthogonal rot345 /\
  std_shell h pA vA ca /\ std_shell h pB vB cb /\ std_shell h pA' vA' ca' /\ std_shell h pB' vB' cb' /\
  (v_L vA <= 9)%Z /\ (v_L vB <= 9)%Z /\ exps_pos vA /\ exps_pos vB /\ moved_shell rot345 (1, -2, 3) vA vA' /\ moved_shell rot345 (1, -2, 3) vB vB' /\
  length ca = 6%nat /\ length cb = 3%nat /\ fits (aundef [18%Z]) vA vB /\ fits (aundef [18%Z]) vA' vB' /\
  exists ts us ts' us', (forall b, In b (ts ++ us ++ ts' ++ us') -> bf_ok h b) /\ carried rot345 (1, -2, 3) (combo ts) (combo ts') /\ carried rot345 (1, -2, 3) (combo us) (combo us') /\
    length ts = 1%nat /\ length us = 1%nat /\ length ts' = 6%nat /\ length us' = 3%nat.
Proof.
  destruct (shells_exist [Properties_OneEl.d_shell; Properties_OneEl.p_shell; (2%Z, moved3 rot345 (1, -2, 3) (0, 0, 1), [(1, 3); (1 / 2, 1)]);
                          (1%Z, moved3 rot345 (1, -2, 3) (1, 0, -1), [(2, 1 / 5); (-1, 4)])]) as (h & ps & W & F).
  { intros L o pr [E | [E | [E | [E | []]]]]; injection E as <- <- <-; lia. }
  inversion F as [|? pA ? ? HA F1]; subst. inversion F1 as [|? pB ? ? HB F2]; subst.
  inversion F2 as [|? pA' ? ? HA' F3]; subst. inversion F3 as [|? pB' ? ? HB' F4]; subst.
  destruct HA as (vA & ca & SA & LA & OA & PA). destruct HB as (vB & cb & SB & LB & OB & PB).
  destruct HA' as (vA' & ca' & SA' & LA' & OA' & PA'). destruct HB' as (vB' & cb' & SB' & LB' & OB' & PB').
  assert (NA := std_length _ _ _ _ SA). assert (NB := std_length _ _ _ _ SB). assert (NA' := std_length _ _ _ _ SA'). assert (NB' := std_length _ _ _ _ SB'). rewrite LA in NA. rewrite LB in NB. rewrite LA' in NA'. rewrite LB' in NB'.
  change (n_cart 2) with 6%Z in NA, NA'. change (n_cart 1) with 3%Z in NB, NB'.
  assert (XA : exps_pos vA) by (intros c a; rewrite PA; intros [E | [E | []]]; injection E as <- <-; lra).
  assert (XB : exps_pos vB) by (intros c a; rewrite PB; intros [E | [E | []]]; injection E as <- <-; lra).
  assert (MA : moved_shell rot345 (1, -2, 3) vA vA') by (split; [congruence|split; [congruence|rewrite OA', OA; reflexivity]]).
  assert (MB : moved_shell rot345 (1, -2, 3) vB vB') by (split; [congruence|split; [congruence|rewrite OB', OB; reflexivity]]).
  exists h, pA, pB, pA', pB', vA, vB, vA', vB', ca, cb, ca', cb'.
  split; [exact W|]. split; [exact rot345_orthogonal|]. split; [exact SA|]. split; [exact SB|]. split; [exact SA'|]. split; [exact SB'|].
  split; [lia|]. split; [lia|]. split; [exact XA|]. split; [exact XB|]. split; [exact MA|]. split; [exact MB|]. split; [lia|]. split; [lia|].
  split; [exists 18%Z; split; [reflexivity|rewrite (std_size _ _ _ _ SA), (std_size _ _ _ _ SB), NA, NB; lia]|].
  split; [exists 18%Z; split; [reflexivity|rewrite (std_size _ _ _ _ SA'), (std_size _ _ _ _ SB'), NA', NB'; lia]|].
  assert (KA : bf_ok h (BF 1 pA vA ca 1)) by (split; [exact SA|]; split; [cbn [b_v]; lia|]; split; [exact XA|cbn [b_m b_comps]; lia]).
  assert (KB : bf_ok h (BF 1 pB vB cb 1)) by (split; [exact SB|]; split; [cbn [b_v]; lia|]; split; [exact XB|cbn [b_m b_comps]; lia]).
  exists [BF 1 pA vA ca 1], [BF 1 pB vB cb 1], (rot_list rot345 (b_comp (BF 1 pA vA ca 1)) pA' vA' ca'), (rot_list rot345 (b_comp (BF 1 pB vB cb 1)) pB' vB' cb').
  split.
  { intros b Hb. apply in_app_iff in Hb. destruct Hb as [[<-|[]]|Hb]; [exact KA|]. apply in_app_iff in Hb. destruct Hb as [[<-|[]]|Hb]; [exact KB|]. apply in_app_iff in Hb. destruct Hb as [Hb|Hb].
    - eapply (rot_list_ok rot345 h _ pA' vA' ca'); [exact SA'|lia| |exact Hb]. intros c a. rewrite (proj1 (proj2 MA)). apply XA.
    - eapply (rot_list_ok rot345 h _ pB' vB' cb'); [exact SB'|lia| |exact Hb]. intros c a. rewrite (proj1 (proj2 MB)). apply XB. }
  split; [apply (rot_list_carried rot345 (1, -2, 3) h); [exact rot345_orthogonal|exact KA|reflexivity|exact SA'|exact MA]|].
  split; [apply (rot_list_carried rot345 (1, -2, 3) h); [exact rot345_orthogonal|exact KB|reflexivity|exact SB'|exact MB]|].
  split; [reflexivity|]. split; [reflexivity|]. unfold rot_list. rewrite !map_length, !seq_length. lia.
Qed.
