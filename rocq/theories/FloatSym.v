(** * Symmetry of the one-electron matrices in double precision: proofs *)

From Coq Require Import ZArith List Bool Lia Reals Lra.
From Coquelicot Require Import Coquelicot.
From Verif Require Import Base GaussInt GaussProd CartModel CartProofs HeapModel HeapProofs HeapSpec OneElModel OneElProofs OneElPairs OneElSpec OneElInt OneElThms
  FloatBase FloatCalc FloatOneEl FloatOverlap FloatTable FloatContr FloatOneElThms FloatKinModel FloatKin FloatKinPairs FloatKinThms FloatKinS.
Import ListNotations.
Open Scope R_scope.

(** ** The scale of the overlap is symmetric *)
Lemma prim_scale_sym LA LB A B cA cB a b : prim_scale LA LB A B cA cB a b = prim_scale LB LA B A cB cA b a.
Proof.
  destruct cA as [[nA lA] mA]. destruct cB as [[nB lB] mB]. unfold prim_scale, len. rewrite (Rplus_comm b a), (Z.add_comm nB), (Z.add_comm lB), (Z.add_comm mB).
  rewrite (Rplus_comm (Rabs (coord3 B 0)) (Rabs (coord3 A 0))), (Rplus_comm (Rabs (coord3 B 1)) (Rabs (coord3 A 1))), (Rplus_comm (Rabs (coord3 B 2)) (Rabs (coord3 A 2))), (Rmult_comm (norm_L LB b)). reflexivity.
Qed.

Lemma lsum_add {X} (f g : X -> R) l : lsum (fun x => f x + g x) l = lsum f l + lsum g l.
Proof. induction l as [|x l IH]; [cbn; ring|]. rewrite !lsum_cons, IH. ring. Qed.

Lemma lsum_swap {X Y} (f : X -> Y -> R) (l : list X) (k : list Y) : lsum (fun x => lsum (f x) k) l = lsum (fun y => lsum (fun x => f x y) l) k.
Proof.
  induction l as [|x l IH].
  - symmetry. induction k as [|y k IH]; [reflexivity|]. rewrite lsum_cons, IH. cbn. ring.
  - rewrite lsum_cons, IH, <- lsum_add. apply lsum_ext2. intros y. rewrite lsum_cons. reflexivity.
Qed.

Lemma scale_sym vA vB cA cB : scale vA vB cA cB = scale vB vA cB cA.
Proof.
  unfold scale.
  transitivity (lsum (fun x => lsum (fun y => (Rabs (fst x) + / 10 ^ 30) * (Rabs (fst y) + / 10 ^ 30) * prim_scale (v_L vA) (v_L vB) (v_origin vA) (v_origin vB) cA cB (snd x) (snd y)) (v_prims vB)) (v_prims vA)).
  { apply lsum_ext2. intros [c a]. apply lsum_ext2. intros [c' a']. reflexivity. }
  rewrite lsum_swap. apply lsum_ext2. intros [c a]. apply lsum_ext2. intros [c' a']. cbn [fst snd]. rewrite prim_scale_sym. ring.
Qed.

Lemma npairs_sym vA vB : npairs vA vB = npairs vB vA.
Proof. unfold npairs. apply Z.mul_comm. Qed.

Lemma close_close v w s t e f : Rabs (v - s) <= e -> Rabs (w - t) <= f -> s = t -> Rabs (v - w) <= e + f.
Proof. intros H1 H2 <-. replace (v - w) with ((v - s) - (w - s)) by ring. eapply Rle_trans; [apply Rabs_triang|]. rewrite Rabs_Ropp. lra. Qed.

Lemma moderate_pos v : moderate v -> exps_pos v.
Proof. intros (H & _) c a Hin. destruct (H c a Hin). lra. Qed.

Lemma fl_overlap_sym lexp lpow h pA pB vA vB ca cb M N : libm_exp lexp -> libm_pow lpow -> heap_wf h ->
  std_shell h pA vA ca -> std_shell h pB vB cb -> (v_L vA <= 9)%Z -> (v_L vB <= 9)%Z -> moderate vA -> moderate vB -> (npairs vA vB <= 10000)%Z -> fits M vA vB -> fits N vB vA ->
  exists X Y, fl_overlap_call lexp lpow h pA pB M = Ok X /\ fl_overlap_call lexp lpow h pB pA N = Ok Y /\
    forall m n cA cB, nth_error ca m = Some cA -> nth_error cb n = Some cB ->
      exists x y, elem_at X vB m n = Ok x /\ elem_at Y vA n m = Ok y /\
        Rabs (x - y) <= 2 * (100 + 10 * IZR (v_L vA + v_L vB) + 2 * IZR (npairs vA vB)) / 2 ^ 53 * scale vA vB cA cB.
Proof.
  intros HE HP W SA SB LA LB MA MB NP FM FN.
  destruct (fl_overlap_thm lexp lpow h pA pB vA vB ca cb M HE HP W SA SB LA LB MA MB NP FM) as (X & EX & _ & VX).
  rewrite npairs_sym in NP. destruct (fl_overlap_thm lexp lpow h pB pA vB vA cb ca N HE HP W SB SA LB LA MB MA NP FN) as (Y & EY & _ & VY).
  exists X, Y. split; [exact EX|]. split; [exact EY|]. intros m n cA cB Hm Hn.
  destruct (VX m n cA cB Hm Hn) as (x & s & Ex & Is & Bx). destruct (VY n m cB cA Hn Hm) as (y & t & Ey & It & By).
  exists x, y. split; [exact Ex|]. split; [exact Ey|].
  assert (E : s = t) by (apply (is_int3_unique _ _ _ Is); eapply is_int3_ext; [|exact It]; intros; apply Rmult_comm).
  rewrite (scale_sym vB vA cB cA), (npairs_sym vB vA), (Z.add_comm (v_L vB)) in By. eapply Rle_trans; [apply (close_close _ _ _ _ _ _ Bx By E)|]. apply Req_le. field.
Qed.

Lemma fl_kinetic_sym lexp lpow h pA pB vA vB ca cb M N : libm_exp lexp -> libm_pow lpow -> heap_wf h ->
  std_shell h pA vA ca -> std_shell h pB vB cb -> (v_L vA <= 9)%Z -> (v_L vB <= 9)%Z -> (v_L vA + v_L vB <= 14)%Z -> moderate vA -> moderate vB -> (npairs vA vB <= 10000)%Z -> fits M vA vB -> fits N vB vA ->
  exists X Y, fl_kinetic_call lexp lpow h pA pB M = Ok X /\ fl_kinetic_call lexp lpow h pB pA N = Ok Y /\
    forall m n cA cB, nth_error ca m = Some cA -> nth_error cb n = Some cB ->
      exists x y, elem_at X vB m n = Ok x /\ elem_at Y vA n m = Ok y /\
        Rabs (x - y) <= (130 + 10 * IZR (v_L vA + v_L vB) + 2 * IZR (npairs vA vB)) / 2 ^ 53 * (kin_scale vA vB cA cB + kin_scale vB vA cB cA).
Proof.
  intros HE HP W SA SB LA LB LL MA MB NP FM FN. pose proof (moderate_pos _ MA) as XA. pose proof (moderate_pos _ MB) as XB.
  destruct (fl_kinetic_thm lexp lpow h pA pB vA vB ca cb M HE HP W SA SB LA LB LL MA MB NP FM) as (X & EX & _ & VX).
  rewrite npairs_sym in NP. destruct (fl_kinetic_thm lexp lpow h pB pA vB vA cb ca N HE HP W SB SA LB LA ltac:(lia) MB MA NP FN) as (Y & EY & _ & VY).
  destruct (kinetic_true h pA pB vA vB ca cb M W SA SB LA LB XA XB FM) as (X0 & EX0 & _ & VX0). destruct (kinetic_true h pB pA vB vA cb ca N W SB SA LB LA XB XA FN) as (Y0 & EY0 & _ & VY0).
  exists X, Y. split; [exact EX|]. split; [exact EY|]. intros m n cA cB Hm Hn.
  destruct (VX m n cA cB Hm Hn) as (x & lx & s & Ex & Hlx & Is & Bx). destruct (VY n m cB cA Hn Hm) as (y & ly & t & Ey & Hly & It & By).
  destruct (VX0 m n cA cB Hm Hn) as (lx' & s' & Hlx' & Ex' & Is'). destruct (VY0 n m cB cA Hn Hm) as (ly' & t' & Hly' & Ey' & It').
  exists x, y. split; [exact Ex|]. split; [exact Ey|].
  destruct (kinetic_symmetric h pA pB vA vB ca cb M N X0 Y0 W SA SB LA LB XA XB FM FN EX0 EY0 m n) as (z & Z1 & Z2); [apply nth_error_Some; congruence|apply nth_error_Some; congruence|].
  assert (E : s = t).
  { transitivity s'; [apply (is_int3_unique _ _ _ Is); eapply is_int3_ext; [|exact Is']; intros u v w; cbv beta; do 2 f_equal; apply (is_laplacian_unique _ _ _ Hlx' Hlx)|].
    transitivity t'; [congruence|]. apply (is_int3_unique _ _ _ It'). eapply is_int3_ext; [|exact It]. intros u v w. cbv beta. do 2 f_equal. apply (is_laplacian_unique _ _ _ Hly Hly'). }
  rewrite (npairs_sym vB vA), (Z.add_comm (v_L vB)) in By. eapply Rle_trans; [apply (close_close _ _ _ _ _ _ Bx By E)|]. apply Req_le. ring.
Qed.

Definition mom_of (k : Z) : oneel := if (k =? 0)%Z then MomX else if (k =? 1)%Z then MomY else MomZ.

Lemma fl_momentum_antisym lexp lpow h pA pB vA vB ca cb Ms Ns : libm_exp lexp -> libm_pow lpow -> heap_wf h ->
  std_shell h pA vA ca -> std_shell h pB vB cb -> (v_L vA <= 9)%Z -> (v_L vB <= 9)%Z -> (v_L vA + v_L vB <= 16)%Z -> moderate vA -> moderate vB -> (npairs vA vB <= 10000)%Z ->
  (forall k, fits (nth3 k Ms) vA vB) -> (forall k, fits (nth3 k Ns) vB vA) ->
  exists Xs Ys, fl_momentum_call lexp lpow h pA pB Ms = Ok Xs /\ fl_momentum_call lexp lpow h pB pA Ns = Ok Ys /\
    forall k m n cA cB, (0 <= k < 3)%Z -> nth_error ca m = Some cA -> nth_error cb n = Some cB ->
      exists x y, elem_at (nth3 k Xs) vB m n = Ok x /\ elem_at (nth3 k Ys) vA n m = Ok y /\
        Rabs (x + y) <= (115 + 10 * IZR (v_L vA + v_L vB) + 2 * IZR (npairs vA vB)) / 2 ^ 53 * (mom_scale k vA vB cA cB + mom_scale k vB vA cB cA).
Proof.
  intros HE HP W SA SB LA LB LL MA MB NP FM FN. pose proof (moderate_pos _ MA) as XA. pose proof (moderate_pos _ MB) as XB.
  destruct (fl_momentum_thm lexp lpow h pA pB vA vB ca cb Ms HE HP W SA SB LA LB LL MA MB NP FM) as (Xs & EX & VX).
  rewrite npairs_sym in NP. destruct (fl_momentum_thm lexp lpow h pB pA vB vA cb ca Ns HE HP W SB SA LB LA ltac:(lia) MB MA NP FN) as (Ys & EY & VY).
  exists Xs, Ys. split; [exact EX|]. split; [exact EY|]. intros k m n cA cB Hk Hm Hn.
  destruct (VX k Hk) as (_ & VXk). destruct (VY k Hk) as (_ & VYk). clear VX VY.
  assert (Ho : mom_of k = MomX \/ mom_of k = MomY \/ mom_of k = MomZ) by (unfold mom_of; destruct (k =? 0)%Z; [|destruct (k =? 1)%Z]; tauto).
  assert (Ek : mom_k (mom_of k) = k) by (unfold mom_of; destruct (Z.eqb_spec k 0); [subst; reflexivity|]; destruct (Z.eqb_spec k 1); [subst; reflexivity|]; cbn; lia).
  destruct (momentum_true (mom_of k) h pA pB vA vB ca cb _ Ho W SA SB LA LB XA XB (FM k)) as (X0 & EX0 & _ & VX0). destruct (momentum_true (mom_of k) h pB pA vB vA cb ca _ Ho W SB SA LB LA XB XA (FN k)) as (Y0 & EY0 & _ & VY0).
  destruct (VXk m n cA cB Hm Hn) as (x & dx & s & Ex & Hdx & Is & Bx). destruct (VYk n m cB cA Hn Hm) as (y & dy & t & Ey & Hdy & It & By).
  destruct (VX0 m n cA cB Hm Hn) as (dx' & s' & Hdx' & Ex' & Is'). destruct (VY0 n m cB cA Hn Hm) as (dy' & t' & Hdy' & Ey' & It'). rewrite Ek in Hdx', Hdy'.
  exists x, y. split; [exact Ex|]. split; [exact Ey|].
  destruct (momentum_antisymmetric (mom_of k) h pA pB vA vB ca cb _ _ X0 Y0 Ho W SA SB LA LB XA XB (FM k) (FN k) EX0 EY0 m n) as (z & Z1 & Z2); [apply nth_error_Some; congruence|apply nth_error_Some; congruence|].
  assert (E : - s = - - t).
  { assert (s = s') as -> by (apply (is_int3_unique _ _ _ Is); eapply is_int3_ext; [|exact Is']; intros u v w; cbv beta; f_equal; apply (is_partial_unique k _ _ _ _ (fun _ _ _ => eq_refl) Hdx' Hdx)).
    assert (t = t') as -> by (apply (is_int3_unique _ _ _ It); eapply is_int3_ext; [|exact It']; intros u v w; cbv beta; f_equal; apply (is_partial_unique k _ _ _ _ (fun _ _ _ => eq_refl) Hdy' Hdy)).
    rewrite Ex' in Z1. rewrite Ey' in Z2. injection Z1 as Z1. injection Z2 as Z2. lra. }
  assert (By' : Rabs (- y - - - t) <= (115 + 10 * IZR (v_L vB + v_L vA) + 2 * IZR (npairs vB vA)) / 2 ^ 53 * mom_scale k vB vA cB cA) by (replace (- y - - - t) with (- (y - - t)) by ring; rewrite Rabs_Ropp; exact By).
  rewrite (npairs_sym vB vA), (Z.add_comm (v_L vB)) in By'. replace (x + y) with (x - - y) by ring. eapply Rle_trans; [apply (close_close _ _ _ _ _ _ Bx By' E)|]. apply Req_le. ring.
Qed.
