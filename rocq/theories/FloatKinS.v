(** * C93: the kinetic energy of an s function *)

From Coq Require Import ZArith List Bool Lia Reals Lra.
From Coquelicot Require Import Coquelicot.
From Verif Require Import Base GaussInt GaussProd CartModel CartProofs HeapModel HeapProofs HeapSpec OneElModel OneElProofs OneElPairs OneElSpec OneElInt OneElThms
  FloatBase FloatCalc FloatOneEl FloatOverlap FloatTable FloatContr FloatOneElThms FloatKinModel FloatKin FloatKinPairs FloatKinThms.
Import ListNotations.
Open Scope R_scope.

Lemma is_partial_unique k f f' d d' : (forall x y z, f x y z = f' x y z) -> is_partial k f d -> is_partial k f' d' -> forall x y z, d x y z = d' x y z.
Proof.
  intros E H H' x y z. specialize (H x y z). specialize (H' x y z). apply is_derive_unique in H. rewrite <- H. apply is_derive_unique.
  eapply is_derive_ext; [|exact H']. intros t. unfold along. destruct (k =? 0)%Z; [symmetry; apply E|]. destruct (k =? 1)%Z; symmetry; apply E.
Qed.

Lemma is_laplacian_unique f g g' : is_laplacian f g -> is_laplacian f g' -> forall x y z, g x y z = g' x y z.
Proof.
  intros (d0 & d1 & d2 & e0 & e1 & e2 & A0 & B0 & A1 & B1 & A2 & B2 & E) (d0' & d1' & d2' & e0' & e1' & e2' & A0' & B0' & A1' & B1' & A2' & B2' & E') x y z.
  rewrite E, E'. pose proof (is_partial_unique _ _ _ _ _ (fun _ _ _ => eq_refl) A0 A0') as Q0. pose proof (is_partial_unique _ _ _ _ _ (fun _ _ _ => eq_refl) A1 A1') as Q1. pose proof (is_partial_unique _ _ _ _ _ (fun _ _ _ => eq_refl) A2 A2') as Q2.
  rewrite (is_partial_unique _ _ _ _ _ Q0 B0 B0'), (is_partial_unique _ _ _ _ _ Q1 B1 B1'), (is_partial_unique _ _ _ _ _ Q2 B2 B2'). reflexivity.
Qed.

Lemma kin_s_entry A a : 0 < a -> kin_entry 0 0 A A (0, 0, 0)%Z (0, 0, 0)%Z a a = 3 / 2 * a * ov_entry 0 0 A A (0, 0, 0)%Z (0, 0, 0)%Z a a.
Proof.
  intros Ha. assert (D : forall c, d2v a a A A c 0 0 = - a * osv a a A A c 0 0).
  { intros c. unfold d2v, osv, os_pair. cbn [Z.add Z.mul Z.leb Z.compare]. change (Z.to_nat 2) with 2%nat. change (Z.to_nat 0) with 0%nat. cbn [os INR pred]. set (x := coord3 A c).
    set (E := exp _). set (s := sqrt _). field. lra. }
  unfold kin_entry, ov_entry. rewrite !D. replace (-0.5) with (- (1 / 2)) by lra. field.
Qed.

Lemma kin_scale_s v a : v_L v = 0%Z -> v_origin v = (0, 0, 0) -> v_prims v = [(1, a)] -> 0 < a <= 10 ^ 10 -> / 10 ^ 8 <= a -> kin_scale v v (0, 0, 0)%Z (0, 0, 0)%Z <= 303 / 10 * a.
Proof.
  intros HL HO HPr Ha Hl. pose proof (scale_s v a HL HPr ltac:(lra)) as SS. unfold scale in SS. unfold kin_scale. cbv zeta. rewrite HPr in *. cbn [lsum fold_right] in *. rewrite !Rplus_0_r in *.
  set (P := prim_scale _ _ _ _ _ _ _ _) in *. rewrite Rabs_R1 in *. set (q := (1 + / 10 ^ 30) * (1 + / 10 ^ 30)) in *.
  assert (Ln : forall k, len (v_origin v) (v_origin v) a a k = 2 * / 10 ^ 30 + 3 / sqrt (a + a)).
  { intros k. unfold len. rewrite HO. assert (C0 : coord3 (0, 0, 0) k = 0) by (unfold coord3; destruct (k =? 0)%Z; [reflexivity|]; destruct (k =? 1)%Z; reflexivity). rewrite C0, Rabs_R0. ring. }
  rewrite !Ln. unfold deriv_scale, comp. cbn [Z.eqb Pos.eqb]. set (s := sqrt (a + a)). assert (S0 : 0 < s) by (apply sqrt_lt_R0; lra). assert (S2 : s * s = 2 * a) by (unfold s; rewrite sqrt_sqrt; lra).
  assert (S1 : s <= 10 ^ 6) by (destruct (Rle_lt_dec s (10 ^ 6)) as [H|H]; [exact H|exfalso; assert (10 ^ 6 * 10 ^ 6 < s * s) by (apply Rmult_gt_0_lt_compat; lra); lra]).
  assert (L1 : 0 <= 2 * a * (2 * / 10 ^ 30 + 3 / s) + 0 / (2 * / 10 ^ 30 + 3 / s) <= 301 / 100 * s).
  { unfold Rdiv. rewrite Rmult_0_l, Rplus_0_r. replace (2 * a * (2 * / 10 ^ 30 + 3 * / s)) with (s * (s * (2 * / 10 ^ 30)) + 3 * s) by (transitivity (s * s * (2 * / 10 ^ 30 + 3 * / s)); [field; lra|rewrite S2; ring]).
    assert (s * (2 * / 10 ^ 30) <= 1 / 100) by (apply Rle_trans with (10 ^ 6 * (2 * / 10 ^ 30)); [apply Rmult_le_compat_r; lra|lra]). assert (0 <= s * (2 * / 10 ^ 30)) by (apply Rmult_le_pos; lra). split; [assert (0 <= s * (s * (2 * / 10 ^ 30))) by (apply Rmult_le_pos; lra); lra|].
    assert (s * (s * (2 * / 10 ^ 30)) <= s * (1 / 100)) by (apply Rmult_le_compat_l; lra). lra. }
  set (D := 2 * a * (2 * / 10 ^ 30 + 3 / s) + 0 / (2 * / 10 ^ 30 + 3 / s)) in *.
  assert (D2 : 0 <= D ^ 2 <= 1813 / 100 * a) by (split; [apply pow_le; lra|]; apply Rle_trans with ((301 / 100 * s) ^ 2); [apply pow_incr; lra|replace ((301 / 100 * s) ^ 2) with (301 / 100 * (301 / 100) * (s * s)) by ring; rewrite S2; lra]).
  replace (q * (P * (1 / 2 * (D ^ 2 + 2 * a + (D ^ 2 + 2 * a) + (D ^ 2 + 2 * a))))) with (q * P * (3 / 2 * (D ^ 2 + 2 * a))) by field.
  assert (X : 0 <= 3 / 2 * (D ^ 2 + 2 * a) <= 302 / 10 * a) by lra. apply Rle_trans with (1001 / 1000 * (3 / 2 * (D ^ 2 + 2 * a))); [apply Rmult_le_compat_r; lra|]. lra.
Qed.

Lemma fl_kinetic_s lexp lpow h p v comps a M : libm_exp lexp -> libm_pow lpow -> heap_wf h -> std_shell h p v comps -> v_L v = 0%Z -> v_origin v = (0, 0, 0) -> v_prims v = [(1, a)] -> moderate v -> fits M v v ->
  exists M' x, fl_kinetic_call lexp lpow h p p M = Ok M' /\ elem_at M' v 0 0 = Ok x /\ Rabs (x - 3 / 2 * a) <= 5 / 10 ^ 13 * a.
Proof.
  intros HE HP W S HL HO HPr Mo F. assert (Ha : / 10 ^ 8 <= a <= 10 ^ 10) by (destruct Mo as (Mo & _); destruct (Mo 1 a ltac:(rewrite HPr; left; reflexivity)); lra).
  assert (A0 : 0 < a) by lra.
  assert (NP : npairs v v = 1%Z) by (unfold npairs; rewrite HPr; reflexivity).
  assert (XA : exps_pos v) by (intros c b Hin; destruct Mo as (Mo & _); destruct (Mo c b Hin); lra).
  assert (C : comps = [(0, 0, 0)%Z]) by (apply (std_comps h p v comps 0%Z _ S HL); reflexivity). assert (C0 : nth_error comps 0 = Some (0, 0, 0)%Z) by (rewrite C; reflexivity).
  destruct (fl_kinetic_thm lexp lpow h p p v v comps comps M HE HP W S S ltac:(lia) ltac:(lia) ltac:(lia) Mo Mo ltac:(lia) F) as (M' & E & _ & V).
  destruct (kinetic_true h p p v v comps comps M W S S ltac:(lia) ltac:(lia) XA XA F) as (Me & Ee & _ & Ve).
  destruct (oneel_ok Kinetic h p p v v comps comps M W S S ltac:(lia) ltac:(lia) F) as (Me' & Ee' & _ & Ve'). rewrite Ee in Ee'. injection Ee' as <-.
  destruct (oneel_ok Overlap h p p v v comps comps M W S S ltac:(lia) ltac:(lia) F) as (Mo' & Eo & _ & Vo). pose proof (s_normalised h p v comps a M Mo' W S HL HPr A0 F Eo) as S1.
  rewrite (Vo 0%nat 0%nat _ _ C0 C0) in S1. injection S1 as S1.
  assert (KV : ovalue Kinetic v v (0, 0, 0)%Z (0, 0, 0)%Z = 3 / 2 * a).
  { unfold ovalue, contracted in *. rewrite HPr, HL in *. cbn [lsum fold_right oentry] in *. rewrite kin_s_entry by exact A0. rewrite !Rplus_0_r, !Rmult_1_l in *. rewrite S1. ring. }
  destruct (V 0%nat 0%nat _ _ C0 C0) as (x & lap & t & Ex & Hl & Is & B). destruct (Ve 0%nat 0%nat _ _ C0 C0) as (lap' & t' & Hl' & Es & Is'). rewrite (Ve' 0%nat 0%nat _ _ C0 C0), KV in Es. injection Es as Es.
  assert (T : t = t').
  { apply (is_int3_unique _ _ _ Is). eapply is_int3_ext; [|exact Is']. intros y z w. cbv beta. do 2 f_equal. apply (is_laplacian_unique _ _ _ Hl' Hl). }
  exists M', x. split; [exact E|]. split; [exact Ex|]. rewrite T, <- Es in B. eapply Rle_trans; [exact B|]. rewrite HL, NP. cbn [Z.add]. pose proof (kin_scale_s v a HL HO HPr ltac:(lra) ltac:(lra)) as SS.
  apply Rle_trans with ((130 + 10 * 0 + 2 * 1) / 2 ^ 53 * (303 / 10 * a)); [apply Rmult_le_compat_l; lra|lra].
Qed.
