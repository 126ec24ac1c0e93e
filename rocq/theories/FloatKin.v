(** * Rounding errors of the kinetic energy and momentum integrals: the tables of derivatives *)

From Coq Require Import ZArith List Bool Lia Reals Lra.
From Verif Require Import Base GaussInt GaussProd HeapModel OneElModel OneElProofs OneElPairs FloatBase FloatCalc FloatOneEl FloatOverlap FloatTable FloatContr FloatKinModel.
Import ListNotations.
Open Scope R_scope.

Lemma mag10_add e M N : mag10 e M -> mag10 e N -> mag10 (S e) (M + N).
Proof.
  intros H1 H2. pose proof (mag10_pos _ _ H1). pose proof (mag10_pos _ _ H2). destruct H1 as (A1 & A2), H2 as (B1 & B2). pose proof (p10 e) as P. split.
  - apply Rle_trans with (/ 10 ^ e); [|lra]. apply Rinv_le_contravar; [exact P|]. cbn [pow]. lra.
  - cbn [pow]. lra.
Qed.

(** ** A table filled cell by cell *)
Lemma fl_d_table_ok cell LA LB (Q : Z -> Z -> Z -> R -> Prop) : (0 <= LA <= 9)%Z -> (0 <= LB <= 9)%Z ->
  (forall c i j, (0 <= c < 3)%Z -> (0 <= i <= LA)%Z -> (0 <= j <= LB)%Z -> exists v, cell c i j = Ok v /\ Q c i j v) ->
  exists D, fl_d_table cell LA LB = Ok D /\ adims D = [3; 10; 10]%Z /\
    forall c i j, (0 <= c < 3)%Z -> (0 <= i <= LA)%Z -> (0 <= j <= LB)%Z -> exists v, acell D [c; i; j] = Some v /\ Q c i j v.
Proof.
  intros HA HB HQ. unfold fl_d_table, max_basis_L.
  pose (Inv := fun c i j (T : arr R) => adims T = [3; 10; 10]%Z /\ forall c' i' j', rng LA LB c' i' j' -> before c i j c' i' j' -> exists v, acell T [c'; i'; j'] = Some v /\ Q c' i' j' v).
  match goal with |- context [for_range 0 3 ?b ?s] => destruct (for_range_ok (fun c T => Inv c 0%Z 0%Z T) 0 3 b s) as (T & E & D & C) end.
  - lia.
  - split; [reflexivity|]. unfold rng, before. intros; lia.
  - intros c T Hc Hinv. cbv beta.
    match goal with |- context [for_range 0 (LA + 1) ?b ?s] => destruct (for_range_ok (fun i T => Inv c i 0%Z T) 0 (LA + 1) b s) as (T1 & E1 & D1 & C1) end; [lia|exact Hinv| |].
    + intros i T1 Hi1 Hinv1. cbv beta.
      match goal with |- context [for_range 0 (LB + 1) ?b ?s] => destruct (for_range_ok (fun j T => Inv c i j T) 0 (LB + 1) b s) as (T2 & F2 & D2 & C2) end; [lia|exact Hinv1| |].
      * intros j T2 Hj2 (D2 & C2). cbv beta. destruct (HQ c i j Hc ltac:(lia) ltac:(lia)) as (v & -> & Hv). cbn [bind].
        destruct (aset_ok T2 [c; i; j] v) as (T3 & F3 & D3 & C3 & G3); [rewrite D2; apply inb3; lia|].
        exists T3. split; [exact F3|]. split; [congruence|]. intros c' i' j' Hr Hb.
        destruct (list_eq_dec Z.eq_dec [c'; i'; j'] [c; i; j]) as [Eq|Ne].
        -- injection Eq as -> -> ->. exists v. split; [exact C3|exact Hv].
        -- rewrite G3 by exact Ne. apply C2; [exact Hr|]. unfold before in *. destruct Hb as [Hb|(-> & [Hb|(-> & Hb)])]; [lia|lia|]. destruct (Z.eq_dec j' j); [subst; congruence|lia].
      * exists T2. split; [exact F2|]. split; [exact D2|]. intros c' i' j' Hr Hb. apply C2; [exact Hr|]. unfold before, rng in *. lia.
    + exists T1. split; [exact E1|]. split; [exact D1|]. intros c' i' j' Hr Hb. apply C1; [exact Hr|]. unfold before, rng in *. lia.
  - exists T. split; [exact E|]. split; [exact D|]. intros c i j H1 H2 H3. apply C; [unfold rng; lia|unfold before, rng in *; lia].
Qed.

(** ** The cells *)
Section Cells.
Variables (aA aB : R) (A B : R * R * R).
Hypothesis OA : okexp aA.
Hypothesis OB : okexp aB.
Hypothesis PA : okpt A.
Hypothesis PB : okpt B.

Notation s := (sqrt (PI / (aA + aB))).
Notation W c := (Wc aA aB A B c).

Definition col (c : Z) (n : nat) : R := s * W c ^ n.

Lemma W_mag c : mag10 5 (W c).
Proof. apply mag_W; [assumption|assumption|apply PA|apply PB]. Qed.
Lemma W_pos c : 0 < W c.
Proof. exact (mag10_pos _ _ (W_mag c)). Qed.
Lemma col_mag c n : mag10 (5 + n * 5) (col c n).
Proof. apply mag_col; assumption. Qed.
Lemma col_pos c n : 0 < col c n. Proof. exact (mag10_pos _ _ (col_mag c n)). Qed.
Lemma aA_mag : mag10 10 aA. Proof. unfold okexp in OA. unfold mag10. split; lra. Qed.

(** the sizes of the first and second derivative *)
Definition f1 (c i : Z) : R := 2 * aA * W c + IZR i / W c.
Definition f2 (c i : Z) : R := f1 c i * f1 c i + 2 * aA.

Definition okD2 (c i j : Z) (v : R) : Prop := ap (Kc (Z.to_nat (i + j)) + 27) (col c (Z.to_nat (i + j)) * f2 c i) (d2v aA aB A B c i j) v.
Definition okD1 (c i j : Z) (v : R) : Prop := ap (Kc (Z.to_nat (i + j)) + 15) (col c (Z.to_nat (i + j)) * f1 c i) (d1v aA aB A B c i j) v.

Lemma fl_d2_ok T dim LA LB c i j : adims T = [3; dim; dim]%Z -> (LA + 2 < dim)%Z -> (LB + 2 < dim)%Z -> (0 <= LA <= 9)%Z -> (0 <= LB <= 9)%Z -> (LA + LB <= 14)%Z ->
  (forall c i j, (0 <= c < 3)%Z -> (0 <= i <= LA + 2)%Z -> (0 <= j <= LB + 2)%Z -> exists v, acell T [c; i; j] = Some v /\ okT aA aB A B c i j v) ->
  (0 <= c < 3)%Z -> (0 <= i <= LA)%Z -> (0 <= j <= LB)%Z -> exists v, fl_d2_cell T aA c i j = Ok v /\ okD2 c i j v.
Proof.
  intros D DA DB RA RB RS CT Hc Hi Hj.
  assert (G : forall i j, (0 <= i <= LA + 2)%Z -> (0 <= j <= LB + 2)%Z -> exists v, aget T [c; i; j] = Ok v /\ okT aA aB A B c i j v).
  { intros i' j' H2 H3. destruct (CT c i' j' Hc H2 H3) as (v & Ev & Hv). exists v. split; [|exact Hv]. apply aget_ok; [|exact Ev]. rewrite D. apply inb3. lia. }
  set (n := Z.to_nat (i + j)). pose proof aA_mag as MA. pose proof (mag10_pos _ _ MA) as A0. pose proof (W_pos c) as W0. pose proof (W_mag c) as MW.
  assert (Hn : (n <= 14)%nat) by lia. pose proof (Kc_b n ltac:(lia)) as Kb. pose proof (Kc_b (n + 2) ltac:(lia)) as Kb2. assert (K2 : Kc (n + 2) = Kc n + 20) by (replace (n + 2)%nat with (S (S n)) by lia; rewrite !Kc_S; ring).
  unfold fl_d2_cell.
  destruct (G (i + 2)%Z j ltac:(lia) ltac:(lia)) as (a & -> & Ha). cbn [bind]. unfold okT in Ha. replace (Z.to_nat (i + 2 + j)) with (n + 2)%nat in Ha by lia. fold (col c (n + 2)) in Ha.
  assert (M4 : mag10 11 (4 * aA)) by (unfold okexp, mag10 in *; lra). assert (M2 : mag10 11 (2 * aA)) by (unfold okexp, mag10 in *; lra).
  destruct (ap_fmul 0 0 4 aA 4 4 aA aA (ap_const 4 ltac:(lra)) (ap_const aA ltac:(lra)) ltac:(lra) ltac:(lra) (mag10_inr _ _ M4 ltac:(lia))) as (t1 & -> & H1). cbn [bind].
  pose proof (mag10_mul _ _ _ _ M4 MA) as M44.
  destruct (ap_fmul _ 0 _ aA _ _ aA aA H1 (ap_const aA ltac:(lra)) ltac:(lra) ltac:(lra) (mag10_inr _ _ M44 ltac:(lia))) as (t2 & -> & H2). cbn [bind].
  pose proof (mag10_mul _ _ _ _ M44 (col_mag c (n + 2))) as M1.
  destruct (ap_fmul _ _ _ _ _ _ _ _ H2 Ha ltac:(lra) ltac:(lra) (mag10_inr _ _ M1 ltac:(lia))) as (t3 & -> & H3). cbn [bind].
  assert (H3' := H3). rewrite <- (Rplus_0_l t3) in H3'.
  destruct (ap_round _ _ _ _ H3' ltac:(lra) (mag10_inr _ _ M1 ltac:(lia))) as (t4 & -> & H4). cbn [bind]. clear H3 H3' H2 H1 t1 t2 t3.
  destruct (G i j ltac:(lia) ltac:(lia)) as (b & -> & Hb). cbn [bind]. unfold okT in Hb. fold n in Hb. fold (col c n) in Hb.
  destruct (ap_fmul 0 0 2 aA 2 2 aA aA (ap_const 2 ltac:(lra)) (ap_const aA ltac:(lra)) ltac:(lra) ltac:(lra) (mag10_inr _ _ M2 ltac:(lia))) as (u1 & -> & U1). cbn [bind].
  assert (Mi : mag10 2 (IZR (2 * i + 1))) by (apply mag10_int; lia). pose proof (mag10_pos _ _ Mi) as I0. pose proof (mag10_mul _ _ _ _ M2 Mi) as M22.
  destruct (ap_fmul _ 0 _ _ _ _ _ _ U1 (ap_const (IZR (2 * i + 1)) ltac:(lra)) ltac:(lra) ltac:(lra) (mag10_inr _ _ M22 ltac:(lia))) as (u2 & -> & U2). cbn [bind].
  pose proof (mag10_mul _ _ _ _ M22 (col_mag c n)) as M3.
  destruct (ap_fmul _ _ _ _ _ _ _ _ U2 Hb ltac:(lra) ltac:(lra) (mag10_inr _ _ M3 ltac:(lia))) as (u3 & -> & U3). cbn [bind].
  assert (M13 : mag10 107 (4 * aA * aA * col c (n + 2) + 2 * aA * IZR (2 * i + 1) * col c n)) by (apply (mag10_add 106); eapply mag10_weak; [exact M1|lia|exact M3|lia]).
  destruct (ap_fsub (Kc n + 249 / 10) _ _ _ _ _ _ _ _ H4 U3 ltac:(lra) ltac:(lra) ltac:(lra) (mag10_inr _ _ M13 ltac:(lia))) as (v & -> & V). cbn [bind].
  assert (E1 : col c (n + 2) = col c n * (W c * W c)) by (unfold col; rewrite pow_add; ring).
  assert (C0 := col_pos c n). assert (I1 : 0 <= IZR i) by (apply IZR_le; lia).
  assert (IW : 0 < / W c) by (apply Rinv_0_lt_compat, W0). assert (EW : W c * / W c = 1) by (apply Rinv_r; lra).
  assert (EF : col c n * f2 c i = 4 * aA * aA * col c (n + 2) + 2 * aA * IZR (2 * i + 1) * col c n + col c n * (IZR i * IZR i * (/ W c * / W c))).
  { rewrite E1. unfold f2, f1, Rdiv. rewrite plus_IZR, mult_IZR. transitivity (col c n * (4 * aA * aA * (W c * W c) + 4 * aA * IZR i * (W c * / W c) + IZR i * IZR i * (/ W c * / W c) + 2 * aA)); [ring|]. rewrite EW. ring. }
  unfold okD2, d2v. fold n. rewrite EF.
  destruct (Z.leb_spec 2 i) as [Hi2|Hi2].
  - destruct (G (i - 2)%Z j ltac:(lia) ltac:(lia)) as (w & -> & Hw). cbn [bind]. unfold okT in Hw. replace (Z.to_nat (i - 2 + j)) with (n - 2)%nat in Hw by lia. fold (col c (n - 2)) in Hw.
    pose proof (Kc_b (n - 2) ltac:(lia)) as Kb3. assert (K3 : Kc n = Kc (n - 2) + 20) by (replace n with (S (S (n - 2))) at 1 by lia; rewrite !Kc_S; ring).
    assert (Mii : mag10 2 (IZR (i * (i - 1)))) by (apply mag10_int; nia). pose proof (mag10_pos _ _ Mii) as II0. pose proof (mag10_mul _ _ _ _ Mii (col_mag c (n - 2))) as M5.
    destruct (ap_fmul 0 _ _ _ _ _ _ _ (ap_const (IZR (i * (i - 1))) ltac:(lra)) Hw ltac:(lra) ltac:(lra) (mag10_inr _ _ M5 ltac:(lia))) as (z & -> & Hz). cbn [bind].
    assert (M135 : mag10 108 (4 * aA * aA * col c (n + 2) + 2 * aA * IZR (2 * i + 1) * col c n + IZR (i * (i - 1)) * col c (n - 2))) by (apply (mag10_add 107); [exact M13|eapply mag10_weak; [exact M5|lia]]).
    destruct (ap_fadd (Kc n + 2592 / 100) _ _ _ _ _ _ _ _ V Hz ltac:(lra) ltac:(lra) ltac:(lra) (mag10_inr _ _ M135 ltac:(lia))) as (r & -> & Hr). exists r. split; [reflexivity|].
    eapply ap_weak; [exact Hr|lra|lra|]. apply Rplus_le_compat_l. replace (col c n) with (col c (n - 2) * (W c * W c)) by (unfold col; replace n with (n - 2 + 2)%nat at 2 by lia; rewrite pow_add; ring).
    replace (col c (n - 2) * (W c * W c) * (IZR i * IZR i * (/ W c * / W c))) with (IZR i * IZR i * col c (n - 2) * ((W c * / W c) * (W c * / W c))) by ring. rewrite EW, !Rmult_1_r. apply Rmult_le_compat_r; [left; apply col_pos|]. rewrite mult_IZR, minus_IZR. lra.
  - exists v. split; [reflexivity|]. rewrite Rplus_0_r. eapply ap_weak; [exact V|lra|lra|]. assert (0 <= col c n * (IZR i * IZR i * (/ W c * / W c))); [|lra]. apply Rmult_le_pos; [left; exact C0|]. apply Rmult_le_pos; apply Rmult_le_pos; lra.
Qed.

Lemma fl_d1_ok T dim LA LB c i j : adims T = [3; dim; dim]%Z -> (LA + 1 < dim)%Z -> (LB + 1 < dim)%Z -> (0 <= LA <= 9)%Z -> (0 <= LB <= 9)%Z -> (LA + LB <= 16)%Z ->
  (forall c i j, (0 <= c < 3)%Z -> (0 <= i <= LA + 1)%Z -> (0 <= j <= LB + 1)%Z -> exists v, acell T [c; i; j] = Some v /\ okT aA aB A B c i j v) ->
  (0 <= c < 3)%Z -> (0 <= i <= LA)%Z -> (0 <= j <= LB)%Z -> exists v, fl_d1_cell T aA c i j = Ok v /\ okD1 c i j v.
Proof.
  intros D DA DB RA RB RS CT Hc Hi Hj.
  assert (G : forall i j, (0 <= i <= LA + 1)%Z -> (0 <= j <= LB + 1)%Z -> exists v, aget T [c; i; j] = Ok v /\ okT aA aB A B c i j v).
  { intros i' j' H2 H3. destruct (CT c i' j' Hc H2 H3) as (v & Ev & Hv). exists v. split; [|exact Hv]. apply aget_ok; [|exact Ev]. rewrite D. apply inb3. lia. }
  set (n := Z.to_nat (i + j)). pose proof aA_mag as MA. pose proof (mag10_pos _ _ MA) as A0. pose proof (W_pos c) as W0. pose proof (W_mag c) as MW.
  assert (Hn : (n <= 16)%nat) by lia. pose proof (Kc_b n ltac:(lia)) as Kb. pose proof (Kc_b (n + 1) ltac:(lia)) as Kb2. assert (K2 : Kc (n + 1) = Kc n + 10) by (replace (n + 1)%nat with (S n) by lia; rewrite !Kc_S; ring).
  unfold fl_d1_cell.
  destruct (G (i + 1)%Z j ltac:(lia) ltac:(lia)) as (a & -> & Ha). cbn [bind]. unfold okT in Ha. replace (Z.to_nat (i + 1 + j)) with (n + 1)%nat in Ha by lia. fold (col c (n + 1)) in Ha.
  assert (M2 : mag10 11 (2 * aA)) by (unfold okexp, mag10 in *; lra).
  destruct (ap_fmul 0 0 2 aA 2 2 aA aA (ap_const 2 ltac:(lra)) (ap_const aA ltac:(lra)) ltac:(lra) ltac:(lra) (mag10_inr _ _ M2 ltac:(lia))) as (t1 & -> & H1). cbn [bind].
  pose proof (mag10_mul _ _ _ _ M2 (col_mag c (n + 1))) as M1.
  destruct (ap_fmul _ _ _ _ _ _ _ _ H1 Ha ltac:(lra) ltac:(lra) (mag10_inr _ _ M1 ltac:(lia))) as (t3 & -> & H3). cbn [bind].
  assert (H3' := H3). rewrite <- (Rplus_0_l t3) in H3'.
  destruct (ap_round _ _ _ _ H3' ltac:(lra) (mag10_inr _ _ M1 ltac:(lia))) as (v & -> & V). cbn [bind]. clear H3 H3' H1 t1 t3.
  assert (E1 : col c (n + 1) = col c n * W c) by (unfold col; rewrite pow_add; ring).
  assert (C0 := col_pos c n). assert (I1 : 0 <= IZR i) by (apply IZR_le; lia).
  assert (IW : 0 < / W c) by (apply Rinv_0_lt_compat, W0). assert (EW : W c * / W c = 1) by (apply Rinv_r; lra).
  assert (EF : col c n * f1 c i = 2 * aA * col c (n + 1) + IZR i * (col c n * / W c)) by (rewrite E1; unfold f1, Rdiv; ring).
  unfold okD1, d1v. fold n. rewrite EF.
  destruct (Z.leb_spec 1 i) as [Hi2|Hi2].
  - destruct (G (i - 1)%Z j ltac:(lia) ltac:(lia)) as (w & -> & Hw). cbn [bind]. unfold okT in Hw. replace (Z.to_nat (i - 1 + j)) with (n - 1)%nat in Hw by lia. fold (col c (n - 1)) in Hw.
    pose proof (Kc_b (n - 1) ltac:(lia)) as Kb3. assert (K3 : Kc n = Kc (n - 1) + 10) by (replace n with (S (n - 1)) at 1 by lia; rewrite !Kc_S; ring).
    assert (Mii : mag10 2 (IZR i)) by (apply mag10_int; lia). pose proof (mag10_mul _ _ _ _ Mii (col_mag c (n - 1))) as M5.
    destruct (ap_fmul 0 _ _ _ _ _ _ _ (ap_const (IZR i) ltac:(lra)) Hw ltac:(lra) ltac:(lra) (mag10_inr _ _ M5 ltac:(lia))) as (z & -> & Hz). cbn [bind].
    assert (M15 : mag10 107 (2 * aA * col c (n + 1) + IZR i * col c (n - 1))) by (apply (mag10_add 106); eapply mag10_weak; [exact M1|lia|exact M5|lia]).
    destruct (ap_fsub (Kc n + 1306 / 100) _ _ _ _ _ _ _ _ V Hz ltac:(lra) ltac:(lra) ltac:(lra) (mag10_inr _ _ M15 ltac:(lia))) as (r & -> & Hr). exists r. split; [reflexivity|].
    eapply ap_weak; [exact Hr|lra|lra|]. apply Rplus_le_compat_l. apply Rmult_le_compat_l; [exact I1|]. replace (col c n) with (col c (n - 1) * W c) by (unfold col; replace n with (n - 1 + 1)%nat at 2 by lia; rewrite pow_add; ring). rewrite Rmult_assoc, EW. lra.
  - exists v. split; [reflexivity|]. rewrite Rminus_0_r. eapply ap_weak; [exact V|lra|lra|]. assert (0 <= IZR i * (col c n * / W c)); [|lra]. apply Rmult_le_pos; [exact I1|]. apply Rmult_le_pos; lra.
Qed.

End Cells.
