(** * Rounding errors of the overlap integrals: the table, the norm factors, one pair *)

From Coq Require Import ZArith List Bool Lia Reals Lra.
From Flocq Require Import Core.
From Verif Require Import Base GaussInt GaussProd HeapModel OneElModel OneElProofs OneElPairs FloatBase FloatCalc FloatOneEl FloatOverlap.
Import ListNotations.
Open Scope R_scope.

(** ** The table *)
Definition okpt (A : R * R * R) : Prop := forall c, okcoord (coord3 A c).
Definition Wc (aA aB : R) (A B : R * R * R) (c : Z) : R := dd (coord3 A c) (coord3 B c) + gg aA aB.
Definition okT (aA aB : R) (A B : R * R * R) (c i j : Z) (v : R) : Prop :=
  ap (Kc (Z.to_nat (i + j))) (sqrt (PI / (aA + aB)) * Wc aA aB A B c ^ Z.to_nat (i + j)) (osv aA aB A B c i j) v.

Lemma fl_table_ok lexp dim imax jmax aA aB A B : libm_exp lexp -> okexp aA -> okexp aB -> okpt A -> okpt B ->
  (0 <= imax < dim)%Z -> (0 <= jmax < dim)%Z -> (imax + jmax <= 18)%Z ->
  exists T, fl_os_table lexp dim imax jmax aA aB A B = Ok T /\ adims T = [3; dim; dim]%Z /\
    forall c i j, (0 <= c < 3)%Z -> (0 <= i <= imax)%Z -> (0 <= j <= jmax)%Z -> exists v, acell T [c; i; j] = Some v /\ okT aA aB A B c i j v.
Proof.
  intros HL OA OB HA HB Hi Hj Hs. unfold fl_os_table.
  destruct (pre_p aA aB OA OB) as (p' & Ep & Hp). destruct (pre_mu aA aB OA OB) as (ab & s & mu' & -> & Es & Em & Hm). rewrite Ep in Es. injection Es as <-. rewrite Ep. cbn [bind]. rewrite Em. cbn [bind].
  pose (Inv := fun c i j (T : arr R) => adims T = [3; dim; dim]%Z /\ forall c' i' j', rng imax jmax c' i' j' -> before c i j c' i' j' -> exists v, acell T [c'; i'; j'] = Some v /\ okT aA aB A B c' i' j' v).
  match goal with |- context [for_range 0 3 ?b ?s] => destruct (for_range_ok (fun c T => Inv c 0%Z 0%Z T) 0 3 b s) as (T & E & D & C) end.
  - lia.
  - split; [reflexivity|]. unfold rng, before. intros; lia.
  - intros c T Hc Hinv. cbv beta. set (a := coord3 A c). set (b := coord3 B c).
    destruct (pre_coord aA aB OA OB a b (HA c) (HB c) p' Hp) as (ta & tb & num & P & xab & xpa & xpb & p2 & q & -> & E2 & E3 & E4 & E5 & E6 & E7 & E8 & E9 & Hab & Hxa & Hxb & Hq). cbn [bind]. rewrite E2; cbn [bind]. rewrite E3; cbn [bind]. rewrite E4; cbn [bind]. rewrite E5; cbn [bind]. rewrite E6; cbn [bind]. rewrite E7; cbn [bind]. rewrite E8; cbn [bind]. rewrite E9; cbn [bind].
    match goal with |- context [for_range 0 (imax + 1) ?b ?s] => destruct (for_range_ok (fun i T => Inv c i 0%Z T) 0 (imax + 1) b s) as (T1 & E1 & D1 & C1) end; [lia|exact Hinv| |].
    + intros i T1 Hi1 Hinv1. cbv beta.
      match goal with |- context [for_range 0 (jmax + 1) ?b ?s] => destruct (for_range_ok (fun j T => Inv c i j T) 0 (jmax + 1) b s) as (T2 & F2 & D2 & C2) end; [lia|exact Hinv1| |].
      * intros j T2 Hj2 (D2 & C2). cbv beta.
        assert (S : exists v, fl_os_cell lexp T2 c i j p' mu' xab xpa xpb q = aset T2 [c; i; j] v /\ okT aA aB A B c i j v).
        { destruct (Z.eq_dec (i + j) 0) as [Z0|N0].
          - assert (i = 0%Z) by lia. assert (j = 0%Z) by lia. subst i j. destruct (s00_ok aA aB OA OB a b (HA c) (HB c) lexp p' mu' xab HL Hp Hm Hab) as (v & Ev & Hv). exists v. split.
            + unfold fl_os_cell. cbn [Z.eqb Z.add]. revert Ev.
              destruct (fl PI) as [x1|]; cbn [bind]; [|discriminate]. destruct (fl (x1 / p')) as [x2|]; cbn [bind]; [|discriminate]. destruct (fl (sqrt x2)) as [x3|]; cbn [bind]; [|discriminate].
              destruct (fl (- mu' * xab)) as [x4|]; cbn [bind]; [|discriminate]. destruct (fl (x4 * xab)) as [x5|]; cbn [bind]; [|discriminate]. destruct (lexp x5) as [x6|]; cbn [bind]; [|discriminate]. intros ->. reflexivity.
            + unfold okT. cbn [Z.add Z.to_nat pow]. rewrite Rmult_1_r. unfold Kc. cbn [INR]. rewrite Rmult_0_r, Rplus_0_r. exact Hv.
          - destruct (fl_cell_next ((aA * a + aB * b) / (aA + aB) - a) ((aA * a + aB * b) / (aA + aB) - b) (1 / (2 * (aA + aB))) (sqrt (PI / (aA + aB)) * exp (- (aA * aB / (aA + aB)) * (a - b) * (a - b))) xpa xpb q (dd a b) (gg aA aB) (sqrt (PI / (aA + aB)))
              Hxa Hxb Hq (mag_dd a b (HA c) (HB c)) (mag_gg aA aB OA OB) (mag_W aA aB OA OB a b (HA c) (HB c)) (mag_s aA aB OA OB) (mag_pf aA aB OA OB) (g_18 aA aB OA OB) T2 p' mu' xab c i j dim imax jmax D2) with (lexp := lexp) as (v & Ev & Hv); try lia.
            + intros i' j' H1 H2 H3. destruct (C2 c i' j') as (w & Ew & Hw); [unfold rng; lia|unfold before; lia|]. exists w. split; [exact Ew|exact Hw].
            + exists v. split; [exact Ev|exact Hv]. }
        destruct S as (v & -> & Hv). destruct (aset_ok T2 [c; i; j] v) as (T3 & F3 & D3 & C3 & G3); [rewrite D2; apply inb3; lia|].
        exists T3. split; [exact F3|]. split; [congruence|]. intros c' i' j' Hr Hb.
        destruct (list_eq_dec Z.eq_dec [c'; i'; j'] [c; i; j]) as [Eq|Ne].
        -- injection Eq as -> -> ->. exists v. split; [exact C3|exact Hv].
        -- rewrite G3 by exact Ne. apply C2; [exact Hr|]. unfold before in *. destruct Hb as [Hb|(-> & [Hb|(-> & Hb)])]; [lia|lia|]. destruct (Z.eq_dec j' j); [subst; congruence|lia].
      * exists T2. split; [exact F2|]. split; [exact D2|]. intros c' i' j' Hr Hb. apply C2; [exact Hr|]. unfold before, rng in *. lia.
    + exists T1. split; [exact E1|]. split; [exact D1|]. intros c' i' j' Hr Hb. apply C1; [exact Hr|]. unfold before, rng in *. lia.
  - exists T. split; [exact E|]. split; [exact D|]. intros c i j H1 H2 H3. apply C; [unfold rng; lia|unfold before, rng in *; lia].
Qed.

(** ** Norm factors *)
Lemma fl_half n : (0 <= n <= 100)%Z -> fl (1 / 2 * IZR n) = Ok (1 / 2 * IZR n).
Proof.
  intros H. rewrite fl_ok.
  - f_equal. apply round_generic; [apply valid_rnd_N|]. replace (1 / 2 * IZR n) with (F2R (Float radix2 n (-1))) by (unfold F2R; cbn [Fnum Fexp bpow]; change (IZR (Z.pow_pos radix2 1)) with 2; field).
    apply generic_format_FLT. exists (Float radix2 n (-1)); [reflexivity| |]; cbn [Fnum Fexp]; [change (Zpower radix2 53) with (2 ^ 53)%Z; lia|lia].
  - assert (0 <= IZR n <= 100) by (split; apply IZR_le; lia). rewrite Rabs_pos_eq by lra. apply Rle_trans with (10 ^ 2); [lra|apply Rle_pow; [lra|lia]].
Qed.

(** a power of a perturbed number *)
Lemma ln_diff x d : Rabs d <= 1 / 1000 -> x = 1 + d -> Rabs (ln x) <= 1002 / 1000 * Rabs d.
Proof.
  intros H ->. apply Rabs_le_inv in H. assert (L1 : forall y, 0 < y -> ln y <= y - 1) by (intros y Hy; pose proof (exp_ineq1_le (ln y)); rewrite exp_ln in * by exact Hy; lra).
  pose proof (L1 (1 + d) ltac:(lra)) as U. pose proof (L1 (/ (1 + d)) ltac:(apply Rinv_0_lt_compat; lra)) as V. rewrite ln_Rinv in V by lra. replace (/ (1 + d) - 1) with (- d * / (1 + d)) in V by (field; lra).
  assert (I : 0 < / (1 + d) <= 1002 / 1000) by (split; [apply Rinv_0_lt_compat; lra|]; apply Rmult_le_reg_r with (1 + d); [lra|]; rewrite Rinv_l; lra).
  apply Rabs_le. destruct (Rle_lt_dec 0 d).
  - rewrite Rabs_pos_eq by lra. split; [|lra]. assert (d * / (1 + d) >= 0) by (apply Rle_ge, Rmult_le_pos; lra). assert (d * / (1 + d) <= d * (1002 / 1000)) by (apply Rmult_le_compat_l; lra). lra.
  - rewrite Rabs_left by lra. split; [|lra]. assert (- d * / (1 + d) <= - d * (1002 / 1000)) by (apply Rmult_le_compat_l; lra). lra.
Qed.

Lemma ap_pow k A a y : 0 < A -> ap k A A a -> 0 <= k <= 10 ^ 4 -> 0 <= y <= 10 -> 0 < a /\ ap (103 / 100 * y * k) (Rpower A y) (Rpower A y) (Rpower a y).
Proof.
  intros HA (_ & E) K Y. pose proof ulp1_pos as U. set (d := (a - A) / A).
  assert (U6 : 0 <= k * ulp1 <= 1 / 10 ^ 6) by (split; [apply Rmult_le_pos; lra|]; apply Rle_trans with (10 ^ 4 * (12 / 10 ^ 17)); [apply Rmult_le_compat; lra|lra]).
  assert (D : Rabs d <= k * ulp1) by (unfold d, Rdiv; rewrite Rabs_mult, (Rabs_pos_eq (/ A)) by (left; apply Rinv_0_lt_compat, HA); apply Rmult_le_reg_r with A; [exact HA|]; rewrite Rmult_assoc, Rinv_l, Rmult_1_r by lra; exact E).
  assert (Ea : a = A * (1 + d)) by (unfold d; field; lra). assert (D1 := D). apply Rabs_le_inv in D1. assert (P1 : 0 < 1 + d) by lra. assert (Pa : 0 < a) by (rewrite Ea; apply Rmult_lt_0_compat; assumption). split; [exact Pa|].
  assert (PW : 0 < Rpower A y) by (apply exp_pos). split; [rewrite Rabs_pos_eq; lra|].
  set (u := y * ln (1 + d)). assert (Ep : Rpower a y = Rpower A y * exp u) by (unfold Rpower, u; rewrite Ea, ln_mult, <- exp_plus by lra; f_equal; ring).
  pose proof (ln_diff (1 + d) d ltac:(lra) eq_refl) as LD. assert (Uu : Rabs u <= 1002 / 1000 * y * (k * ulp1)).
  { unfold u. rewrite Rabs_mult, (Rabs_pos_eq y) by lra. replace (1002 / 1000 * y * (k * ulp1)) with (y * (1002 / 1000 * (k * ulp1))) by ring. apply Rmult_le_compat_l; lra. }
  assert (U2 : Rabs u <= 1 / 1000). { eapply Rle_trans; [exact Uu|]. apply Rle_trans with (1002 / 1000 * 10 * (1 / 10 ^ 6)); [|lra]. apply Rmult_le_compat; try lra. }
  assert (X : Rabs (exp u - 1) <= 1002 / 1000 * Rabs u).
  { pose proof (exp_diff (- u) 0 (- Rabs u) ltac:(apply Ropp_le_contravar, Rle_abs) ltac:(pose proof (Rabs_pos u); lra)) as X. rewrite !Ropp_involutive, Ropp_0, exp_0, Rminus_0_r, Rabs_Ropp in X. eapply Rle_trans; [exact X|]. rewrite Rmult_comm. apply Rmult_le_compat_r; [apply Rabs_pos|].
    pose proof (exp_ineq1_le (- Rabs u)) as I. rewrite exp_Ropp in I. pose proof (exp_pos (Rabs u)) as PX. apply Rmult_le_reg_r with (/ exp (Rabs u)); [apply Rinv_0_lt_compat, PX|]. rewrite Rinv_r by lra. lra. }
  rewrite Ep. replace (Rpower A y * exp u - Rpower A y) with (Rpower A y * (exp u - 1)) by ring. rewrite Rabs_mult, (Rabs_pos_eq (Rpower A y)) by lra. rewrite (Rmult_comm _ (Rpower A y)). apply Rmult_le_compat_l; [lra|].
  eapply Rle_trans; [exact X|]. apply Rle_trans with (1002 / 1000 * (1002 / 1000 * y * (k * ulp1))); [apply Rmult_le_compat_l; lra|]. replace (1002 / 1000 * (1002 / 1000 * y * (k * ulp1))) with ((1002 / 1000 * (1002 / 1000)) * (y * k * ulp1)) by ring. replace (103 / 100 * y * k * ulp1) with (103 / 100 * (y * k * ulp1)) by ring.
  apply Rmult_le_compat_r; [|lra]. apply Rmult_le_pos; [apply Rmult_le_pos|]; lra.
Qed.

Lemma lpow_ap lpow k A a y e : libm_pow lpow -> 0 < A -> ap k A A a -> 0 <= k <= 10 ^ 4 -> 0 <= y <= 10 -> mag10 e (Rpower A y) -> (e <= 290)%nat ->
  exists v, lpow a y = Ok v /\ ap (103 / 100 * y * k + 201 / 100) (Rpower A y) (Rpower A y) v.
Proof.
  intros HL HA Ha K Y Me He. destruct (ap_pow k A a y HA Ha K Y) as (Pa & (P1 & P2)). pose proof ulp1_pos as U. pose proof (mag10_pos _ _ Me) as PW.
  assert (KY : 0 <= 103 / 100 * y * k) by (apply Rmult_le_pos; [apply Rmult_le_pos|]; lra).
  assert (KU : 103 / 100 * y * k * ulp1 <= 1 / 10 ^ 4). { apply Rle_trans with (103 / 100 * 10 * 10 ^ 4 * (12 / 10 ^ 17)); [|lra]. apply Rmult_le_compat; try lra. apply Rmult_le_compat; try lra. }
  assert (KM : 103 / 100 * y * k * ulp1 * Rpower A y <= 1 / 10 ^ 4 * Rpower A y) by (apply Rmult_le_compat_r; lra).
  assert (P2' := P2). apply Rabs_le_inv in P2'.
  assert (R : / 2 ^ 1000 <= Rpower a y <= 2 ^ 1000).
  { assert (M2 : mag10 (e + 1) (Rpower a y)). { replace (Rpower a y) with (Rpower A y * (Rpower a y / Rpower A y)) by (field; lra). apply mag10_mul; [exact Me|]. assert (Q : 9 / 10 * Rpower A y <= Rpower a y <= 11 / 10 * Rpower A y) by lra. unfold mag10. split; apply Rmult_le_reg_r with (Rpower A y); try lra; unfold Rdiv; rewrite Rmult_assoc, Rinv_l, Rmult_1_r; lra. }
    apply (mag10_inr _ _ M2). lia. }
  destruct (HL a y Pa R) as (v & -> & Hv). exists v. split; [reflexivity|]. split; [exact P1|]. replace (v - Rpower A y) with ((v - Rpower a y) + (Rpower a y - Rpower A y)) by ring. eapply Rle_trans; [apply Rabs_triang|].
  assert (2 * ulp1 * Rpower a y <= 2 * ulp1 * (1001 / 1000 * Rpower A y)) by (apply Rmult_le_compat_l; lra). assert (0 <= ulp1 * Rpower A y) by (apply Rmult_le_pos; lra). lra.
Qed.

Lemma Rpower_pos a b : 0 < Rpower a b. Proof. apply exp_pos. Qed.

(** magnitude of a power of a number up to ten powers of ten *)
Lemma mag_Rpower e x y n : mag10 e x -> 0 <= y <= INR n -> mag10 (n * e) (Rpower x y).
Proof.
  intros Hx Hy. pose proof (mag10_pos _ _ Hx) as Px. destruct Hx as (H1 & H2).
  assert (Pe : 1 <= 10 ^ e) by (apply pow_R1_Rle; lra).
  assert (U : forall z, 0 < z -> z <= 10 ^ e -> Rpower z y <= 10 ^ (n * e)).
  { intros z Hz Hz2. rewrite Nat.mul_comm, pow_mult. apply Rle_trans with (Rpower (10 ^ e) y); [apply Rle_Rpower_l; lra|]. rewrite <- (Rpower_pow n (10 ^ e)) by lra. destruct (Req_dec (10 ^ e) 1) as [E1|N1]; [rewrite E1; unfold Rpower; rewrite ln_1, !Rmult_0_r; lra|]. apply Rle_Rpower; lra. }
  split.
  - rewrite <- (Rinv_inv (Rpower x y)). apply Rinv_le_contravar; [apply Rinv_0_lt_compat, Rpower_pos|]. rewrite <- Rpower_Ropp. replace (Rpower x (- y)) with (Rpower (/ x) y) by (unfold Rpower; rewrite ln_Rinv by exact Px; f_equal; ring). apply U; [apply Rinv_0_lt_compat, Px|]. rewrite <- (Rinv_inv (10 ^ e)). apply Rinv_le_contravar; [apply Rinv_0_lt_compat; lra|exact H1].
  - apply U; assumption.
Qed.

Lemma fl_norm_ok lpow L a : libm_pow lpow -> okexp a -> (0 <= L <= 9)%Z ->
  mag10 64 (nf L a) /\ exists N, fl_norm_factor lpow L 0 0 a = Ok N /\ ap 13 (nf L a) (nf L a) N.
Proof.
  intros HL Oa HLr. assert (P : 0 < a) by (unfold okexp in Oa; lra). pose proof pi_b as PI_b.
  assert (M2 : mag10 11 (2 * a)) by (unfold okexp, mag10 in *; lra). assert (M4 : mag10 11 (4 * a)) by (unfold okexp, mag10 in *; lra). assert (Mpi : mag10 1 PI) by (unfold mag10; lra). pose proof (mag10_div _ _ _ _ M2 Mpi) as Mq.
  assert (M4' : mag10 11 (4 * a)) by exact M4.
  unfold fl_norm_factor. rewrite !Z.add_0_r. assert (HLR : 0 <= IZR L <= 9) by (split; apply IZR_le; lia).
  assert (ENF : nf L a = Rpower (2 * a / PI) (3 / 4) * Rpower (4 * a) (1 / 2 * IZR L)) by (unfold nf, gaussian_norm_factor; rewrite !Z.add_0_r; f_equal; f_equal; lra).
  assert (Mf1 : mag10 9 (Rpower (2 * a / PI) (3 / 4))).
  { assert (Mx : mag10 9 (Rpower (2 * a / PI) (3 / 4))); [|exact Mx]. assert (Q : / 10 ^ 9 <= 2 * a / PI <= 10 ^ 10). { unfold okexp in Oa. unfold Rdiv. assert (I : / 4 <= / PI <= / 3) by (split; apply Rinv_le_contravar; lra). split; [apply Rle_trans with (2 * / 10 ^ 8 * / 4); [lra|apply Rmult_le_compat; lra]|apply Rle_trans with (2 * 10 ^ 10 * / 3); [apply Rmult_le_compat; try lra; apply Rmult_le_pos; lra|lra]]. }
    assert (S3 : forall z, Rpower z (3 / 4) = Rpower z (3 / 4)) by reflexivity. split.
    - apply Rle_trans with (Rpower (/ 10 ^ 9) (3 / 4)).
      + replace (/ 10 ^ 9) with (Rpower (/ 10 ^ 9) 1) at 1 by (apply Rpower_1; lra). unfold Rpower. assert (LN : ln (/ 10 ^ 9) <= 0) by (rewrite <- ln_1; left; apply ln_increasing; lra). destruct (Req_dec (1 * ln (/ 10 ^ 9)) (3 / 4 * ln (/ 10 ^ 9))) as [->|N]; [lra|]. left. apply exp_increasing. lra.
      + apply Rle_Rpower_l; [lra|]. split; [apply Rinv_0_lt_compat, pow_lt; lra|lra].
    - apply Rle_trans with (Rpower (10 ^ 10) (3 / 4)); [apply Rle_Rpower_l; [lra|]; split; [unfold Rdiv; apply Rmult_lt_0_compat; [lra|apply Rinv_0_lt_compat; lra]|lra]|].
      replace (10 ^ 9) with (Rpower 10 9) by (rewrite <- (Rpower_pow 9) by lra; f_equal; rewrite INR_IZR_INZ; reflexivity). rewrite <- (Rpower_pow 10 10) by lra. rewrite Rpower_mult. apply Rle_Rpower; [lra|]. replace (INR 10) with 10 by (rewrite INR_IZR_INZ; reflexivity). lra. }
  assert (Mf2 : mag10 55 (Rpower (4 * a) (1 / 2 * IZR L))) by (apply (mag_Rpower 11 _ _ 5 M4); replace (INR 5) with 5 by (rewrite INR_IZR_INZ; reflexivity); lra).
  assert (MN : mag10 64 (nf L a)) by (rewrite ENF; exact (mag10_mul _ _ _ _ Mf1 Mf2)). split; [exact MN|].
  destruct (ap_fmul 0 0 2 a 2 2 a a (ap_const 2 ltac:(lra)) (ap_const a ltac:(lra)) ltac:(lra) ltac:(lra) (mag10_inr _ _ M2 ltac:(lia))) as (a2 & -> & Ha2). cbn [bind].
  destruct (ap_round 0 PI PI PI (ap_const PI ltac:(lra)) ltac:(lra) (mag10_inr _ _ Mpi ltac:(lia))) as (mpi & -> & Hpi). cbn [bind].
  destruct (ap_fdiv _ _ _ _ _ PI mpi Ha2 ltac:(lra) Hpi ltac:(lra) ltac:(lra) (mag10_inr _ _ Mq ltac:(lia))) as (q & -> & Hq). cbn [bind].
  destruct (lpow_ap lpow _ _ q (3 / 4) 9 HL (mag10_pos _ _ Mq) Hq ltac:(lra) ltac:(lra) Mf1 ltac:(lia)) as (f1 & -> & Hf1). cbn [bind].
  destruct (ap_fmul 0 0 4 a 4 4 a a (ap_const 4 ltac:(lra)) (ap_const a ltac:(lra)) ltac:(lra) ltac:(lra) (mag10_inr _ _ M4 ltac:(lia))) as (a4 & -> & Ha4). cbn [bind]. rewrite fl_half by lia. cbn [bind].
  destruct (lpow_ap lpow _ _ a4 (1 / 2 * IZR L) 55 HL (mag10_pos _ _ M4) Ha4 ltac:(lra) ltac:(lra) Mf2 ltac:(lia)) as (f2 & -> & Hf2). cbn [bind].
  assert (H1 : ap (45 / 10) (Rpower (2 * a / PI) (3 / 4)) (Rpower (2 * a / PI) (3 / 4)) f1) by (eapply ap_weak; [exact Hf1|lra|lra|lra]).
  assert (H2 : ap (7) (Rpower (4 * a) (1 / 2 * IZR L)) (Rpower (4 * a) (1 / 2 * IZR L)) f2) by (eapply ap_weak; [exact Hf2|lra|lra|lra]).
  destruct (ap_fmul _ _ _ _ _ _ _ _ H1 H2 ltac:(lra) ltac:(lra) (mag10_inr _ _ (mag10_mul _ _ _ _ Mf1 Mf2) ltac:(lia))) as (N & -> & HN). exists N. split; [reflexivity|]. rewrite <- ENF in HN. eapply ap_weak; [exact HN|lra|lra|lra].
Qed.
