(** * Rounding errors of the overlap integrals *)

From Coq Require Import ZArith List Bool Lia Reals Lra.
From Flocq Require Import Core.
From Verif Require Import Base GaussInt GaussProd HeapModel OneElModel OneElProofs FloatBase FloatCalc FloatOneEl.
Import ListNotations.
Open Scope R_scope.

Lemma mag10_int n : (1 <= n <= 99)%Z -> mag10 2 (IZR n).
Proof. intros H. assert (1 <= IZR n <= 99) by (split; apply IZR_le; lia). unfold mag10. lra. Qed.

(** ** One cell of the table *)
Section Cell.
Variables XPA XPB pf s00 xa xb q d g s : R.
Hypothesis HA : ap (51 / 10) d XPA xa.
Hypothesis HB : ap (51 / 10) d XPB xb.
Hypothesis Hq : ap (307 / 100) pf pf q.
Hypothesis Md : mag10 31 d.
Hypothesis Mg : mag10 5 g.
Hypothesis MW : mag10 5 (d + g).
Hypothesis Ms : mag10 5 s.
Hypothesis Mp : mag10 11 pf.
Hypothesis G : 18 * pf <= g * g.

Definition Kc (n : nat) : R := 22 + 10 * INR n.
Definition mj (n : nat) : R := s * (d + g) ^ n.
Definition okc (i j : Z) (v : R) : Prop := ap (Kc (Z.to_nat (i + j))) (mj (Z.to_nat (i + j))) (os XPA XPB pf s00 (Z.to_nat i) (Z.to_nat j)) v.

Lemma mag_mj n : mag10 (5 + n * 5) (mj n).
Proof. apply mag10_mul; [exact Ms|apply mag10_pow, MW]. Qed.

Lemma Kc_S n : Kc (S n) = Kc n + 10. Proof. unfold Kc. rewrite S_INR. ring. Qed.
Lemma Kc_b n : (n <= 18)%nat -> 0 <= Kc n <= 202.
Proof. intros H. unfold Kc. pose proof (pos_INR n). apply le_INR in H. replace (INR 18) with 18 in H by (rewrite INR_IZR_INZ; reflexivity). lra. Qed.

(** first term *)
Lemma fl_first n X x S v : (n < 18)%nat -> ap (51 / 10) d X x -> ap (Kc n) (mj n) S v ->
  exists w, (let* t := fl (x * v) in fl (0 + t)) = Ok w /\ ap (Kc (Datatypes.S n) - 286 / 100) (d * mj n) (X * S) w.
Proof.
  intros Hn Hx Hv. pose proof (Kc_b n ltac:(lia)) as K. pose proof (mag10_mul _ _ _ _ Md (mag_mj n)) as MM. pose proof (mag10_inr _ _ MM ltac:(lia)) as R.
  destruct (ap_fmul _ _ _ _ _ _ _ _ Hx Hv ltac:(lra) ltac:(lra) R) as (t & -> & Ht). cbn [bind].
  destruct (ap_fadd (Kc n + 613 / 100) 0 _ 0 _ 0 0 _ _ (ap_exact 0 0 ltac:(rewrite Rabs_R0; lra)) Ht ltac:(lra) ltac:(lra) ltac:(lra) ltac:(rewrite Rplus_0_l; exact R)) as (w & -> & Hw). rewrite !Rplus_0_l in Hw.
  exists w. split; [reflexivity|]. rewrite Kc_S. eapply ap_weak; [exact Hw|lra|lra|lra].
Qed.

(** further terms *)
Lemma fl_next n c S v acc M A kk : (n <= 16)%nat -> (1 <= c <= 17)%Z -> ap (Kc n) (mj n) S v -> 0 <= M -> M + IZR c * pf * mj n <= mj (2 + n) ->
  ap kk M A acc -> Kc n + 6 <= kk <= 300 ->
  exists w, (let* f := fl (IZR c * q) in let* t := fl (f * v) in fl (acc + t)) = Ok w /\ ap (kk + 101 / 100) (M + IZR c * pf * mj n) (A + IZR c * pf * S) w.
Proof.
  intros Hn Hc Hv M0 HM Hacc Hk. pose proof (Kc_b n ltac:(lia)) as K. assert (C : 0 <= IZR c) by (apply IZR_le; lia). pose proof (mag10_int c ltac:(lia)) as Mc. pose proof (mag10_mul _ _ _ _ Mc Mp) as M1. pose proof (mag10_mul _ _ _ _ M1 (mag_mj n)) as M2.
  assert (EC : ap 0 (IZR c) (IZR c) (IZR c)) by (apply ap_exact; rewrite Rabs_pos_eq; lra).
  destruct (ap_fmul _ _ _ _ _ _ _ _ EC Hq ltac:(lra) ltac:(lra) (mag10_inr _ _ M1 ltac:(lia))) as (f & -> & Hf). cbn [bind].
  destruct (ap_fmul _ _ _ _ _ _ _ _ Hf Hv ltac:(lra) ltac:(lra) (mag10_inr _ _ M2 ltac:(lia))) as (t & -> & Ht). cbn [bind].
  assert (R : inr (M + IZR c * pf * mj n)) by (apply (inr_between _ _ (IZR c * pf * mj n) (M + IZR c * pf * mj n) (mj (2 + n)) M2 ltac:(lra) HM (mag_mj (2 + n))); lia).
  destruct (ap_fadd kk _ _ _ _ _ _ _ _ Hacc Ht ltac:(lra) ltac:(lra) ltac:(lra) R) as (w & -> & Hw).
  exists w. split; [reflexivity|exact Hw].
Qed.

Lemma mj_step n c : (0 <= c <= 18)%Z -> d * mj (1 + n) + IZR c * pf * mj n <= mj (2 + n).
Proof.
  intros Hc. assert (C : 0 <= IZR c <= 18) by (split; apply IZR_le; lia). pose proof (mag10_pos _ _ Md). pose proof (mag10_pos _ _ Mg). pose proof (mag10_pos _ _ Mp). pose proof (mag10_pos _ _ (mag_mj n)) as P.
  replace (mj (1 + n)) with (mj n * (d + g)) by (unfold mj; cbn [Nat.add pow]; ring). replace (mj (2 + n)) with (mj n * ((d + g) * (d + g))) by (unfold mj; cbn [Nat.add pow]; ring).
  replace (d * (mj n * (d + g)) + IZR c * pf * mj n) with (mj n * (d * (d + g) + IZR c * pf)) by ring. apply Rmult_le_compat_l; [lra|].
  assert (IZR c * pf <= 18 * pf) by (apply Rmult_le_compat_r; lra). assert (g * g <= g * (d + g)) by (apply Rmult_le_compat_l; lra). lra.
Qed.

Lemma mj_first n : d * mj n <= mj (1 + n).
Proof.
  pose proof (mag10_pos _ _ Mg). pose proof (mag10_pos _ _ (mag_mj n)) as P. replace (mj (1 + n)) with (mj n * (d + g)) by (unfold mj; cbn [Nat.add pow]; ring). rewrite (Rmult_comm d). apply Rmult_le_compat_l; lra.
Qed.

Lemma fl_cell_next T (p mu xab : R) c i j dim imax jmax :
  adims T = [3; dim; dim]%Z -> (imax < dim)%Z -> (jmax < dim)%Z -> (imax + jmax <= 18)%Z ->
  (0 <= c < 3)%Z -> (0 <= i <= imax)%Z -> (0 <= j <= jmax)%Z -> (0 < i + j)%Z ->
  (forall i' j', (0 <= i' <= imax)%Z -> (0 <= j' <= jmax)%Z -> (i' < i \/ (i' = i /\ j' < j))%Z -> exists v, acell T [c; i'; j'] = Some v /\ okc i' j' v) ->
  forall lexp, exists v, fl_os_cell lexp T c i j p mu xab xa xb q = aset T [c; i; j] v /\ okc i j v.
Proof.
  intros D Hi Hj Hs Hc Hii Hjj Hp C lexp. unfold fl_os_cell. destruct (i + j =? 0)%Z eqn:E0; [apply Z.eqb_eq in E0; lia|].
  assert (Gt : forall i' j', (0 <= i' <= imax)%Z -> (0 <= j' <= jmax)%Z -> (i' < i \/ (i' = i /\ j' < j))%Z -> exists v, aget T [c; i'; j'] = Ok v /\ okc i' j' v).
  { intros i' j' H1 H2 H3. destruct (C i' j' H1 H2 H3) as (v & E & O). exists v. split; [|exact O]. apply aget_ok; [|exact E]. rewrite D. apply inb3. lia. }
  pose proof (mag10_pos _ _ Md) as Dp. pose proof (mag10_pos _ _ Mp) as Pp.
  set (n := Z.to_nat (i + j)). destruct n as [|n'] eqn:En; [unfold n in En; lia|].
  assert (N18 : (n' < 18)%nat) by (unfold n in En; lia). pose proof (mag10_pos _ _ (mag_mj n')) as Pm.
  destruct (i =? 0)%Z eqn:E1.
  - apply Z.eqb_eq in E1. subst i. destruct (Gt 0%Z (j - 1)%Z ltac:(lia) ltac:(lia) ltac:(lia)) as (a & -> & Oa). cbn [bind]. unfold okc in Oa. replace (Z.to_nat (0 + (j - 1))) with n' in Oa by (unfold n in En; lia).
    destruct (fl_first n' XPB xb _ a N18 HB Oa) as (w & Ew & Hw). destruct (fl (xb * a)) as [t|f]; [|discriminate]. cbn [bind] in Ew |- *. rewrite Ew. cbn [bind].
    unfold okc. fold n. rewrite En. change (Z.to_nat 0) with O in *. rewrite (os_Z_row0 XPA XPB pf s00 j) by lia. destruct (0 <? j - 1)%Z eqn:E2.
    + apply Z.ltb_lt in E2. destruct (Gt 0%Z (j - 2)%Z ltac:(lia) ltac:(lia) ltac:(lia)) as (b & -> & Ob). cbn [bind]. unfold okc in Ob. destruct n' as [|n'']; [unfold n in En; lia|]. replace (Z.to_nat (0 + (j - 2))) with n'' in Ob by (unfold n in En; lia). change (Z.to_nat 0) with O in Ob.
      pose proof (mj_step n'' (j - 1) ltac:(lia)) as ST. pose proof (Kc_b n'' ltac:(lia)) as KB. pose proof (Kc_S n'') as KS. pose proof (Kc_S (S n'')) as KS2.
      destruct (fl_next n'' (j - 1) _ b w (d * mj (S n'')) _ _ ltac:(lia) ltac:(lia) Ob ltac:(apply Rmult_le_pos; lra) ST Hw ltac:(lra)) as (v & Ev & Hv).
      destruct (fl (IZR (j - 1) * q)) as [f|f]; [|discriminate]. cbn [bind] in Ev |- *. destruct (fl (f * b)) as [t2|t2]; [|discriminate]. cbn [bind] in Ev |- *. rewrite Ev. cbn [bind].
      exists v. split; [reflexivity|]. eapply ap_weak; [exact Hv|lra|lra|exact ST].
    + exists w. split; [reflexivity|]. rewrite Rplus_0_r. pose proof (Kc_b n' ltac:(lia)). eapply ap_weak; [exact Hw|lra|rewrite Kc_S; lra|apply mj_first].
  - apply Z.eqb_neq in E1. destruct (Gt (i - 1)%Z j ltac:(lia) ltac:(lia) ltac:(lia)) as (a & -> & Oa). cbn [bind]. unfold okc in Oa. replace (Z.to_nat (i - 1 + j)) with n' in Oa by (unfold n in En; lia).
    destruct (fl_first n' XPA xa _ a N18 HA Oa) as (w & Ew & Hw). destruct (fl (xa * a)) as [t|f]; [|discriminate]. cbn [bind] in Ew |- *. rewrite Ew. cbn [bind].
    unfold okc. fold n. rewrite En. rewrite (os_Z_row XPA XPB pf s00 i j) by lia. pose proof (Kc_b n' ltac:(lia)) as KB'. pose proof (Kc_S n') as KS'. pose proof (mj_first n') as MF.
    assert (STEP : exists w2 M2, (if (0 <? i - 1)%Z then let* b := aget T [c; (i - 2)%Z; j] in let* f := fl (IZR (i - 1) * q) in let* t := fl (f * b) in fl (w + t) else Ok w) = Ok w2 /\
        ap (Kc (S n') - 185 / 100) M2 (XPA * os XPA XPB pf s00 (Z.to_nat (i - 1)) (Z.to_nat j) + (if (0 <? i - 1)%Z then IZR (i - 1) * pf * os XPA XPB pf s00 (Z.to_nat (i - 2)) (Z.to_nat j) else 0)) w2 /\
        0 <= M2 <= mj (S n') /\ (forall n'', n' = S n'' -> (0 < j)%Z -> M2 + IZR j * pf * mj n'' <= mj (S n'))).
    { destruct (0 <? i - 1)%Z eqn:E2.
      - apply Z.ltb_lt in E2. destruct (Gt (i - 2)%Z j ltac:(lia) ltac:(lia) ltac:(lia)) as (b & -> & Ob). cbn [bind]. unfold okc in Ob. destruct n' as [|n'']; [unfold n in En; lia|]. replace (Z.to_nat (i - 2 + j)) with n'' in Ob by (unfold n in En; lia).
        pose proof (mj_step n'' (i - 1) ltac:(lia)) as ST. pose proof (mj_step n'' (i - 1 + j) ltac:(lia)) as ST2. rewrite plus_IZR in ST2. pose proof (Kc_b n'' ltac:(lia)) as KB. pose proof (Kc_S n'') as KS. pose proof (mag10_pos _ _ (mag_mj n'')) as Pn.
        destruct (fl_next n'' (i - 1) _ b w (d * mj (S n'')) _ _ ltac:(lia) ltac:(lia) Ob ltac:(apply Rmult_le_pos; lra) ST Hw ltac:(lra)) as (v & Ev & Hv).
        exists v, (d * mj (S n'') + IZR (i - 1) * pf * mj n''). split; [exact Ev|]. split; [eapply ap_weak; [exact Hv|lra|lra|lra]|]. split.
        + split; [|exact ST]. assert (0 <= IZR (i - 1)) by (apply IZR_le; lia). apply Rplus_le_le_0_compat; repeat (apply Rmult_le_pos; try lra).
        + intros m Em Hj0. injection Em as <-. change (1 + n'')%nat with (S n'') in ST2. change (2 + n'')%nat with (S (S n'')) in ST2. lra.
      - exists w, (d * mj n'). split; [reflexivity|]. split; [rewrite Rplus_0_r; eapply ap_weak; [exact Hw|lra|lra|lra]|]. split.
        + split; [apply Rmult_le_pos; lra|exact MF].
        + intros m -> Hj0. apply (mj_step m j). lia. }
    destruct STEP as (w2 & M2 & -> & Hw2 & M20 & HM2). cbn [bind]. destruct (0 <? j)%Z eqn:E3.
    + apply Z.ltb_lt in E3. destruct (Gt (i - 1)%Z (j - 1)%Z ltac:(lia) ltac:(lia) ltac:(lia)) as (e & -> & Oe). cbn [bind]. unfold okc in Oe. destruct n' as [|n'']; [unfold n in En; lia|]. replace (Z.to_nat (i - 1 + (j - 1))) with n'' in Oe by (unfold n in En; lia).
      pose proof (Kc_b n'' ltac:(lia)) as KB. pose proof (Kc_S n'') as KS. specialize (HM2 n'' eq_refl E3).
      destruct (fl_next n'' j _ e w2 M2 _ _ ltac:(lia) ltac:(lia) Oe ltac:(lra) HM2 Hw2 ltac:(lra)) as (v & Ev & Hv).
      destruct (fl (IZR j * q)) as [f|f]; [|discriminate]. cbn [bind] in Ev |- *. destruct (fl (f * e)) as [t2|t2]; [|discriminate]. cbn [bind] in Ev |- *. rewrite Ev. cbn [bind].
      exists v. split; [reflexivity|]. eapply ap_weak; [exact Hv|lra|lra|exact HM2].
    + exists w2. split; [reflexivity|]. rewrite Rplus_0_r. eapply ap_weak; [exact Hw2|lra|lra|lra].
Qed.
End Cell.

(** ** Quantities common to a pair of primitives *)
Definition okexp (a : R) : Prop := / 10 ^ 8 <= a <= 10 ^ 10.
Definition okcoord (x : R) : Prop := Rabs x <= 10 ^ 4.
Definition eta : R := / 10 ^ 30.

Lemma pi_b : 3 < PI <= 4. Proof. pose proof PI_4. pose proof PI2_3_2. unfold PI2 in *. lra. Qed.

Section Pair.
Variables aA aB : R.
Hypothesis OA : okexp aA.
Hypothesis OB : okexp aB.
Let p := aA + aB.
Let mu := aA * aB / p.

Lemma p_rng : 2 / 10 ^ 8 <= p <= 2 * 10 ^ 10. Proof. unfold okexp, p in *. lra. Qed.
Lemma magp : mag10 11 p. Proof. pose proof p_rng. unfold mag10. lra. Qed.
Lemma magA : mag10 10 aA. Proof. unfold okexp, mag10 in *. lra. Qed.
Lemma magB : mag10 10 aB. Proof. unfold okexp, mag10 in *. lra. Qed.
Lemma magmu : mag10 31 mu. Proof. apply (mag10_div 20 11); [apply (mag10_mul 10 10); [apply magA|apply magB]|apply magp]. Qed.
Lemma mu_pos : 0 < mu. Proof. apply (mag10_pos _ _ magmu). Qed.
Lemma p_pos : 0 < p. Proof. apply (mag10_pos _ _ magp). Qed.
Lemma mu_le : mu <= 10 ^ 10.
Proof.
  unfold mu. pose proof p_pos as P. apply Rmult_le_reg_r with p; [exact P|]. unfold Rdiv. rewrite Rmult_assoc, Rinv_l, Rmult_1_r by lra. unfold okexp, p in *. assert (aA * aB <= 10 ^ 10 * aB) by (apply Rmult_le_compat_r; lra). assert (0 <= 10 ^ 10 * aA) by (apply Rmult_le_pos; lra). lra.
Qed.

Lemma ap_const x : 0 <= x -> ap 0 x x x. Proof. intros H. apply ap_exact. rewrite Rabs_pos_eq; lra. Qed.

Lemma pre_p : exists p', fl (aA + aB) = Ok p' /\ ap (101 / 100) p p p'.
Proof.
  pose proof (mag10_pos _ _ magA). pose proof (mag10_pos _ _ magB). destruct (ap_fadd 0 0 0 aA aB aA aA aB aB (ap_const aA ltac:(lra)) (ap_const aB ltac:(lra)) ltac:(lra) ltac:(lra) ltac:(lra) (mag10_inr _ _ magp ltac:(lia))) as (v & E & HV). exists v. split; [exact E|]. eapply ap_weak; [exact HV|lra|lra|unfold p; lra].
Qed.

Lemma pre_mu : exists ab s mu', fl (aA * aB) = Ok ab /\ fl (aA + aB) = Ok s /\ fl (ab / s) = Ok mu' /\ ap (306 / 100) mu mu mu'.
Proof.
  pose proof (mag10_pos _ _ magA). pose proof (mag10_pos _ _ magB). destruct pre_p as (s & Es & Hs).
  destruct (ap_fmul 0 0 aA aB aA aA aB aB (ap_const aA ltac:(lra)) (ap_const aB ltac:(lra)) ltac:(lra) ltac:(lra) (mag10_inr _ _ (mag10_mul _ _ _ _ magA magB) ltac:(lia))) as (ab & Eab & Hab).
  destruct (ap_fdiv _ _ _ _ _ _ _ Hab p_pos Hs ltac:(lra) ltac:(lra) (mag10_inr _ _ magmu ltac:(lia))) as (m & Em & Hm). exists ab, s, m. repeat (split; [assumption|]). eapply ap_weak; [exact Hm|lra|lra|unfold mu; lra].
Qed.

Variables a b : R.
Hypothesis Oa : okcoord a.
Hypothesis Ob : okcoord b.
Definition dd : R := 2 * (Rabs a + Rabs b + eta).
Definition gg : R := 3 / sqrt p.

Lemma eta_b : 0 < eta <= / 10 ^ 10. Proof. unfold eta. lra. Qed.

Lemma sqrtp : / 10 ^ 4 <= sqrt p <= 15 * 10 ^ 4 /\ sqrt p * sqrt p = p.
Proof.
  pose proof p_rng as P. split; [split|apply sqrt_sqrt; lra].
  - rewrite <- (sqrt_square (/ 10 ^ 4)) by lra. apply sqrt_le_1_alt. lra.
  - rewrite <- (sqrt_square (15 * 10 ^ 4)) by lra. apply sqrt_le_1_alt. lra.
Qed.

Lemma gg_b : 2 / 10 ^ 5 <= gg <= 3 * 10 ^ 4.
Proof.
  destruct sqrtp as ((S1 & S2) & _). unfold gg, Rdiv. assert (I1 : / (15 * 10 ^ 4) <= / sqrt p) by (apply Rinv_le_contravar; lra). assert (I2 : / sqrt p <= / (/ 10 ^ 4)) by (apply Rinv_le_contravar; lra). rewrite Rinv_inv in I2. lra.
Qed.
Lemma dd_b : 2 / 10 ^ 30 <= dd <= 5 * 10 ^ 4.
Proof. unfold dd, okcoord in *. pose proof (Rabs_pos a). pose proof (Rabs_pos b). pose proof eta_b. unfold eta in *. lra. Qed.

Lemma mag_dd : mag10 31 dd. Proof. pose proof dd_b. unfold mag10. lra. Qed.
Lemma mag_gg : mag10 5 gg. Proof. pose proof gg_b. unfold mag10. lra. Qed.
Lemma mag_W : mag10 5 (dd + gg). Proof. pose proof gg_b. pose proof dd_b. unfold mag10. lra. Qed.
Lemma mag_pf : mag10 11 (1 / (2 * p)).
Proof. pose proof p_rng as P. assert (H : mag10 11 (2 * p)) by (unfold mag10; lra). apply mag10_inv in H. unfold Rdiv. rewrite Rmult_1_l. exact H. Qed.
Lemma mag_s : mag10 5 (sqrt (PI / p)).
Proof.
  apply mag10_sqrt. pose proof p_rng as P. pose proof pi_b as Q. unfold mag10. cbn [Nat.mul Nat.add].
  assert (I1 : / (2 * 10 ^ 10) <= / p) by (apply Rinv_le_contravar; lra). assert (I2 : / p <= / (2 / 10 ^ 8)) by (apply Rinv_le_contravar; lra). replace (/ (2 / 10 ^ 8)) with (10 ^ 8 / 2) in I2 by (field; lra).
  unfold Rdiv. split.
  - apply Rle_trans with (3 * / (2 * 10 ^ 10)); [lra|]. apply Rmult_le_compat; lra.
  - apply Rle_trans with (4 * (10 ^ 8 / 2)); [|lra]. apply Rmult_le_compat; lra.
Qed.
Lemma g_18 : 18 * (1 / (2 * p)) <= gg * gg.
Proof. destruct sqrtp as ((S1 & _) & S3). unfold gg. right. replace (3 / sqrt p * (3 / sqrt p)) with (9 / (sqrt p * sqrt p)) by (field; lra). rewrite S3. pose proof p_pos. field. lra. Qed.

Let P0 := (aA * a + aB * b) / p.

Lemma pre_coord p' : ap (101 / 100) p p p' -> exists ta tb num P xab xpa xpb p2 q,
  fl (aA * a) = Ok ta /\ fl (aB * b) = Ok tb /\ fl (ta + tb) = Ok num /\ fl (num / p') = Ok P /\ fl (a - b) = Ok xab /\ fl (P - a) = Ok xpa /\ fl (P - b) = Ok xpb /\ fl (2 * p') = Ok p2 /\ fl (1 / p2) = Ok q /\
  ap (101 / 100) (Rabs (a - b) + eta) (a - b) xab /\ ap (51 / 10) dd (P0 - a) xpa /\ ap (51 / 10) dd (P0 - b) xpb /\ ap (307 / 100) (1 / (2 * p)) (1 / (2 * p)) q.
Proof.
  intros Hp. pose proof eta_b as E. pose proof (mag10_pos _ _ magA) as PA. pose proof (mag10_pos _ _ magB) as PB. pose proof p_pos as PP. pose proof (Rabs_pos a) as Aa. pose proof (Rabs_pos b) as Ab. unfold okcoord in Oa, Ob.
  assert (MX : forall x, 0 <= x <= 3 * 10 ^ 4 -> mag10 30 (x + eta)) by (intros x Hx; unfold mag10, eta in *; lra).
  assert (Ea : ap 0 (Rabs a + eta) a a) by (apply ap_exact; lra). assert (Eb : ap 0 (Rabs b + eta) b b) by (apply ap_exact; lra).
  pose proof (MX (Rabs a) ltac:(lra)) as Ma. pose proof (MX (Rabs b) ltac:(lra)) as Mb.
  pose proof (mag10_mul _ _ _ _ magA Ma) as MAa. pose proof (mag10_mul _ _ _ _ magB Mb) as MBb.
  destruct (ap_fmul 0 0 _ _ _ _ _ _ (ap_const aA ltac:(lra)) Ea ltac:(lra) ltac:(lra) (mag10_inr _ _ MAa ltac:(lia))) as (ta & Eta & Hta).
  destruct (ap_fmul 0 0 _ _ _ _ _ _ (ap_const aB ltac:(lra)) Eb ltac:(lra) ltac:(lra) (mag10_inr _ _ MBb ltac:(lia))) as (tb & Etb & Htb).
  set (D := Rabs a + Rabs b + eta).
  assert (MD : aA * (Rabs a + eta) + aB * (Rabs b + eta) <= p * D).
  { replace (p * D) with (aA * (Rabs a + eta) + aA * Rabs b + (aB * (Rabs b + eta) + aB * Rabs a)) by (unfold p, D; ring). assert (0 <= aA * Rabs b) by (apply Rmult_le_pos; lra). assert (0 <= aB * Rabs a) by (apply Rmult_le_pos; lra). lra. }
  assert (MagD : mag10 30 D) by (unfold D; apply MX; lra).
  pose proof (mag10_mul _ _ _ _ magp MagD) as MpD. pose proof (mag10_pos _ _ MBb) as P1. pose proof (mag10_pos _ _ MAa) as P2.
  assert (R1 : inr (aA * (Rabs a + eta) + aB * (Rabs b + eta))) by (apply (inr_between _ _ (aA * (Rabs a + eta)) (aA * (Rabs a + eta) + aB * (Rabs b + eta)) (p * D) MAa ltac:(lra) MD MpD); lia).
  destruct (ap_fadd (102 / 100) _ _ _ _ _ _ _ _ Hta Htb ltac:(lra) ltac:(lra) ltac:(lra) R1) as (num & En & Hn).
  assert (Hn' : ap (203 / 100) (p * D) (aA * a + aB * b) num) by (eapply ap_weak; [exact Hn|lra|lra|exact MD]).
  assert (Q : p * D / p = D) by (field; lra). pose proof (mag10_inr _ _ MagD ltac:(lia)) as RD.
  destruct (ap_fdiv _ _ _ _ _ _ _ Hn' PP Hp ltac:(lra) ltac:(lra) ltac:(rewrite Q; exact RD)) as (P & EP & HP). rewrite Q in HP. fold P0 in HP.
  assert (RR : forall x, Rabs x <= 10 ^ 4 -> inr (D + (Rabs x + eta))).
  { intros x Hx. pose proof (Rabs_pos x). apply (inr_between 30 30 D (D + (Rabs x + eta)) (D + (Rabs x + eta)) MagD ltac:(lra) ltac:(lra)); [|lia|lia]. replace (D + (Rabs x + eta)) with (Rabs a + Rabs b + (eta + Rabs x) + eta) by (unfold D; ring). unfold mag10, eta in *. lra. }
  destruct (ap_fsub (408 / 100) _ _ _ _ _ _ _ _ HP Ea ltac:(lra) ltac:(lra) ltac:(lra) (RR a Oa)) as (xpa & Exa & Hxa).
  destruct (ap_fsub (408 / 100) _ _ _ _ _ _ _ _ HP Eb ltac:(lra) ltac:(lra) ltac:(lra) (RR b Ob)) as (xpb & Exb & Hxb).
  assert (Mab : mag10 30 (Rabs (a - b) + eta)). { apply MX. split; [apply Rabs_pos|]. unfold Rminus. eapply Rle_trans; [apply Rabs_triang|]. rewrite Rabs_Ropp. lra. }
  destruct (ap_round 0 (Rabs (a - b) + eta) (a - b) (a - b) (ap_exact (Rabs (a - b) + eta) (a - b) ltac:(lra)) ltac:(lra) (mag10_inr _ _ Mab ltac:(lia))) as (xab & Exab & Hxab).
  assert (M2p : mag10 11 (2 * p)) by (pose proof p_rng; unfold mag10; lra).
  destruct (ap_fmul 0 _ 2 p 2 2 p p' (ap_const 2 ltac:(lra)) Hp ltac:(lra) ltac:(lra) (mag10_inr _ _ M2p ltac:(lia))) as (p2 & Ep2 & Hp2).
  destruct (ap_fdiv 0 _ 1 1 1 (2 * p) p2 (ap_const 1 ltac:(lra)) ltac:(lra) Hp2 ltac:(lra) ltac:(lra) (mag10_inr _ _ mag_pf ltac:(lia))) as (q & Eq & Hq).
  exists ta, tb, num, P, xab, xpa, xpb, p2, q. repeat (split; [assumption|]). split; [eapply ap_weak; [exact Hxab|lra|lra|lra]|]. split; [eapply ap_weak; [exact Hxa|lra|lra|unfold dd, D in *; lra]|]. split; [eapply ap_weak; [exact Hxb|lra|lra|unfold dd, D in *; lra]|]. eapply ap_weak; [exact Hq|lra|lra|lra].
Qed.

(** the first cell *)
Lemma s00_ok lexp p' mu' xab : libm_exp lexp -> ap (101 / 100) p p p' -> ap (306 / 100) mu mu mu' -> ap (101 / 100) (Rabs (a - b) + eta) (a - b) xab ->
  exists v, (let* mpi := fl PI in let* q := fl (mpi / p') in let* sq := fl (sqrt q) in let* t := fl (- mu' * xab) in let* t := fl (t * xab) in let* e := lexp t in fl (sq * e)) = Ok v /\
    ap 22 (sqrt (PI / p)) (sqrt (PI / p) * exp (- mu * (a - b) * (a - b))) v.
Proof.
  intros HL Hp Hmu Hx. pose proof eta_b as E. pose proof p_pos as PP. pose proof pi_b as PI_b. pose proof (Rabs_pos (a - b)) as Ax. pose proof mu_pos as Pm. pose proof mu_le as Lm. unfold okcoord in Oa, Ob.
  assert (Mpi : mag10 1 PI) by (unfold mag10; lra). pose proof (mag10_div _ _ _ _ Mpi magp) as Mq.
  destruct (ap_round 0 PI PI PI (ap_const PI ltac:(lra)) ltac:(lra) (mag10_inr _ _ Mpi ltac:(lia))) as (mpi & -> & Hpi). cbn [bind].
  destruct (ap_fdiv _ _ PI PI mpi p p' Hpi PP Hp ltac:(lra) ltac:(lra) (mag10_inr _ _ Mq ltac:(lia))) as (q & -> & Hq). cbn [bind].
  destruct (ap_round _ _ _ _ (ap_sqrt (0 + 101 / 100 + 101 / 100 + 103 / 100) (PI / p) q (mag10_pos _ _ Mq) Hq ltac:(lra)) ltac:(lra) (mag10_inr _ _ mag_s ltac:(lia))) as (sq & -> & Hs). cbn [bind].
  set (X := Rabs (a - b) + eta) in *. assert (AX : Rabs (a - b) <= 2 * 10 ^ 4) by (unfold Rminus; eapply Rle_trans; [apply Rabs_triang|]; rewrite Rabs_Ropp; lra).
  assert (MX : mag10 30 X) by (unfold X, mag10, eta in *; lra). pose proof (mag10_mul _ _ _ _ magmu MX) as M1. pose proof (mag10_mul _ _ _ _ M1 MX) as M2.
  destruct (ap_fmul _ _ mu X (- mu) (- mu') (a - b) xab (ap_opp _ _ _ _ Hmu) Hx ltac:(lra) ltac:(lra) (mag10_inr _ _ M1 ltac:(lia))) as (t1 & -> & Ht1). cbn [bind].
  destruct (ap_fmul _ _ _ _ _ _ _ _ Ht1 Hx ltac:(lra) ltac:(lra) (mag10_inr _ _ M2 ltac:(lia))) as (t2 & -> & Ht2). cbn [bind].
  set (t := mu * (a - b) * (a - b)). replace (- mu * (a - b) * (a - b)) with (- t) in * by (unfold t; ring).
  assert (T0 : 0 <= t) by (unfold t; rewrite Rmult_assoc; apply Rmult_le_pos; [lra|apply Rle_0_sqr]).
  assert (TX : mu * X * X <= 2 * (1 + t)).
  { assert (X2 : X * X <= 2 * ((a - b) * (a - b)) + 2 * (eta * eta)). { replace ((a - b) * (a - b)) with (Rabs (a - b) * Rabs (a - b)) by (rewrite <- Rabs_mult; apply Rabs_pos_eq, Rle_0_sqr). unfold X. pose proof (Rle_0_sqr (Rabs (a - b) - eta)) as SQ. unfold Rsqr in SQ. lra. }
    rewrite Rmult_assoc. apply Rle_trans with (mu * (2 * ((a - b) * (a - b)) + 2 * (eta * eta))); [apply Rmult_le_compat_l; lra|]. assert (ME : mu * (eta * eta) <= 10 ^ 10 * (/ 10 ^ 10 * / 10 ^ 10)) by (apply Rmult_le_compat; [lra|apply Rmult_le_pos; lra|lra|apply Rmult_le_compat; lra]).
    replace (mu * (2 * ((a - b) * (a - b)) + 2 * (eta * eta))) with (2 * t + 2 * (mu * (eta * eta))) by (unfold t; ring). lra. }
  destruct Ht2 as (_ & Ht2). set (K := 306 / 100 + 101 / 100 + 102 / 100 + 101 / 100 + 102 / 100) in *. assert (KV : K = 712 / 100) by (unfold K; field).
  pose proof ulp1_pos as U. assert (TE : Rabs (- t2 - t) <= 143 / 10 * ulp1 * (1 + t)).
  { replace (- t2 - t) with (- (t2 - - t)) by ring. rewrite Rabs_Ropp. eapply Rle_trans; [exact Ht2|]. apply Rle_trans with (K * ulp1 * (2 * (1 + t))); [apply Rmult_le_compat_l; [rewrite KV; apply Rmult_le_pos; lra|exact TX]|]. rewrite KV. replace (712 / 100 * ulp1 * (2 * (1 + t))) with (1424 / 100 * ulp1 * (1 + t)) by field. apply Rmult_le_compat_r; [lra|]. apply Rmult_le_compat_r; lra. }
  pose proof (ap_exp (143 / 10) t (- t2) T0 TE ltac:(lra)) as HE. rewrite Ropp_involutive in HE.
  assert (UT : 143 / 10 * ulp1 * (1 + t) <= 1 / 100 * (1 + t)) by (apply Rmult_le_compat_r; lra).
  assert (T1 : t2 <= 1) by (apply Rabs_le_inv in TE; lra).
  destruct (HL t2 T1) as (e & -> & He). cbn [bind].
  assert (H2 : ap (164 / 10) 1 (exp (- t)) e).
  { destruct HE as (HE1 & HE2). split; [exact HE1|]. replace (e - exp (- t)) with ((e - exp t2) + (exp t2 - exp (- t))) by ring. eapply Rle_trans; [apply Rabs_triang|].
    assert (X2 : exp t2 <= 101 / 100) by (replace (exp t2) with (exp (- t) + (exp t2 - exp (- t))) by ring; eapply Rle_trans; [apply Rle_abs|]; eapply Rle_trans; [apply Rabs_triang|]; lra).
    assert (Y : 2 * ulp1 * exp t2 <= 2 * ulp1 * (101 / 100)) by (apply Rmult_le_compat_l; lra).
    assert (Z : / 2 ^ 1070 <= 1 / 100 * ulp1). { apply Rle_trans with tiny; [apply small_power; lia|unfold tiny, ulp1; lra]. } lra. }
  destruct (ap_fmul _ _ _ 1 _ _ _ _ Hs H2 ltac:(lra) ltac:(lra) ltac:(rewrite Rmult_1_r; exact (mag10_inr _ _ mag_s ltac:(lia)))) as (v & -> & Hv). exists v. split; [reflexivity|]. rewrite Rmult_1_r in Hv. eapply ap_weak; [exact Hv|lra|lra|lra].
Qed.

End Pair.
