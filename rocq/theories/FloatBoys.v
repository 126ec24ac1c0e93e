(** * The Boys function in double precision: error bounds *)

From Coq Require Import ZArith List Bool Lia Reals Lra Factorial.
From Coquelicot Require Import Coquelicot.
From Verif Require Import Base BinomModel BinomProofs OneElModel OneElProofs Loops Sums GaussMoment BoysTable SpecModel SpecExp SpecSpec SpecBoys BoysCert BoysThms
  FloatBase FloatCalc FloatOneEl FloatOverlap FloatBesselEval FloatBoysModel.
Import ListNotations.
Open Scope R_scope.

Lemma div_bound A M N c : Rabs A <= M -> 0 < c -> M / c <= N -> Rabs (A / c) <= N.
Proof. intros H C L. unfold Rdiv. rewrite Rabs_mult, (Rabs_pos_eq (/ c)) by (left; apply Rinv_0_lt_compat, C). eapply Rle_trans; [|exact L]. apply Rmult_le_compat_r; [left; apply Rinv_0_lt_compat, C|exact H]. Qed.

Lemma fl_divc a A e M c d : Rabs (a - A) <= e -> Rabs A <= M -> 0 < c -> M / c + e / c <= 10 ^ 100 -> e / c + ulp1 * (M / c + e / c) + tiny <= d -> exists v, fl (a / c) = Ok v /\ Rabs (v - A / c) <= d.
Proof.
  intros H1 H2 C H3 H. apply (near_fl (a / c) (A / c) (e / c) (M / c)); [|apply (div_bound A M _ c H2 C); lra|exact H3|exact H].
  replace (a / c - A / c) with ((a - A) / c) by (field; lra). apply (div_bound _ e _ c H1 C). lra.
Qed.

Lemma fl_boys_poly_ok b0 b1 b2 b3 b4 b5 b6 c0 c1 c2 c3 c4 c5 c6 dx d : Rabs c0 <= 1 -> Rabs c1 <= 1 / 3 -> Rabs c2 <= 1 / 3 -> Rabs c3 <= 1 / 3 -> Rabs c4 <= 1 / 3 -> Rabs c5 <= 1 / 3 -> Rabs c6 <= 1 / 3 ->
  Rabs (b0 - c0) <= 42 / 10 ^ 16 -> Rabs (b1 - c1) <= 42 / 10 ^ 16 -> Rabs (b2 - c2) <= 42 / 10 ^ 16 -> Rabs (b3 - c3) <= 42 / 10 ^ 16 -> Rabs (b4 - c4) <= 42 / 10 ^ 16 -> Rabs (b5 - c5) <= 42 / 10 ^ 16 -> Rabs (b6 - c6) <= 42 / 10 ^ 16 ->
  Rabs (dx - d) <= 68 / 10 ^ 16 -> Rabs d <= 501 / 10000 ->
  exists v, fl_boys_poly b0 b1 b2 b3 b4 b5 b6 dx = Ok v /\ Rabs (v - (c0 - c1 * d + c2 * (d * d) / 2 - c3 * (d * (d * d)) / 6 + c4 * (d * (d * (d * d))) / 24 - c5 * (d * (d * (d * (d * d)))) / 120 + c6 * (d * (d * (d * (d * (d * d))))) / 720)) <= 8 / 10 ^ 15.
Proof.
  intros A0 A1 A2 A3 A4 A5 A6 H0 H1 H2 H3 H4 H5 H6 Hd Ad. pose proof hundred as BIG. unfold fl_boys_poly.
  assert (Q2 : Rabs (d * d) <= 253 / 10 ^ 5) by (eapply Rle_trans; [apply (mult_bound d d _ _ Ad Ad)|lra]).
  destruct (fl_mul dx d _ _ dx d _ _ (683 / 10 ^ 18) Hd Ad Hd Ad ltac:(lra) ltac:(unfold ulp1, tiny; lra)) as (x2 & -> & X2). cbn [bind].
  assert (Q3 : Rabs (d * (d * d)) <= 128 / 10 ^ 6) by (eapply Rle_trans; [apply (mult_bound d (d * d) _ _ Ad Q2)|lra]).
  destruct (fl_mul dx d _ _ x2 (d * d) _ _ (516 / 10 ^ 19) Hd Ad X2 Q2 ltac:(lra) ltac:(unfold ulp1, tiny; lra)) as (x3 & -> & X3). cbn [bind].
  assert (Q4 : Rabs (d * (d * (d * d))) <= 643 / 10 ^ 8) by (eapply Rle_trans; [apply (mult_bound d (d * (d * d)) _ _ Ad Q3)|lra]).
  destruct (fl_mul dx d _ _ x3 (d * (d * d)) _ _ (347 / 10 ^ 20) Hd Ad X3 Q3 ltac:(lra) ltac:(unfold ulp1, tiny; lra)) as (x4 & -> & X4). cbn [bind].
  assert (Q5 : Rabs (d * (d * (d * (d * d)))) <= 324 / 10 ^ 9) by (eapply Rle_trans; [apply (mult_bound d (d * (d * (d * d))) _ _ Ad Q4)|lra]).
  destruct (fl_mul dx d _ _ x4 (d * (d * (d * d))) _ _ (219 / 10 ^ 21) Hd Ad X4 Q4 ltac:(lra) ltac:(unfold ulp1, tiny; lra)) as (x5 & -> & X5). cbn [bind].
  assert (Q6 : Rabs (d * (d * (d * (d * (d * d))))) <= 164 / 10 ^ 10) by (eapply Rle_trans; [apply (mult_bound d (d * (d * (d * (d * d)))) _ _ Ad Q5)|lra]).
  destruct (fl_mul dx d _ _ x5 (d * (d * (d * (d * d)))) _ _ (133 / 10 ^ 22) Hd Ad X5 Q5 ltac:(lra) ltac:(unfold ulp1, tiny; lra)) as (x6 & -> & X6). cbn [bind].
  destruct (fl_mul b1 c1 _ _ dx d _ _ (249 / 10 ^ 17) H1 A1 Hd Ad ltac:(lra) ltac:(unfold ulp1, tiny; lra)) as (t1 & -> & T1). cbn [bind].
  assert (M1 : Rabs (c1 * d) <= 168 / 10 ^ 4) by (eapply Rle_trans; [apply (mult_bound c1 d _ _ A1 Ad)|lra]).
  assert (S1 : Rabs (c0 - c1 * d) <= 103 / 10 ^ 2) by (eapply Rle_trans; [apply Rabs_triang|rewrite ?Rabs_Ropp; lra]).
  destruct (fl_sub b0 (c0) _ t1 (c1 * d) _ _ (6806 / 10 ^ 18) H0 T1 S1 ltac:(lra) ltac:(unfold ulp1, tiny; lra)) as (s1 & -> & E1). cbn [bind].
  destruct (fl_mul b2 c2 _ _ x2 (d * d) _ _ (240 / 10 ^ 18) H2 A2 X2 Q2 ltac:(lra) ltac:(unfold ulp1, tiny; lra)) as (t2 & -> & T2). cbn [bind].
  assert (M2 : Rabs (c2 * (d * d)) <= 845 / 10 ^ 6) by (eapply Rle_trans; [apply (mult_bound c2 (d * d) _ _ A2 Q2)|lra]).
  destruct (fl_divc t2 (c2 * (d * d)) _ _ 2 (122 / 10 ^ 18) T2 M2 ltac:(lra) ltac:(lra) ltac:(unfold ulp1, tiny; lra)) as (u2 & -> & U2). cbn [bind].
  assert (N2 : Rabs (c2 * (d * d) / 2) <= 424 / 10 ^ 6) by (apply (div_bound _ _ _ 2 M2); lra).
  assert (S2 : Rabs (c0 - c1 * d + c2 * (d * d) / 2) <= 105 / 10 ^ 2) by (eapply Rle_trans; [apply Rabs_triang|lra]).
  destruct (fl_add s1 (c0 - c1 * d) _ u2 (c2 * (d * d) / 2) _ _ (7046 / 10 ^ 18) E1 U2 S2 ltac:(lra) ltac:(unfold ulp1, tiny; lra)) as (s2 & -> & E2). cbn [bind].
  destruct (fl_mul b3 c3 _ _ x3 (d * (d * d)) _ _ (179 / 10 ^ 19) H3 A3 X3 Q3 ltac:(lra) ltac:(unfold ulp1, tiny; lra)) as (t3 & -> & T3). cbn [bind].
  assert (M3 : Rabs (c3 * (d * (d * d))) <= 428 / 10 ^ 7) by (eapply Rle_trans; [apply (mult_bound c3 (d * (d * d)) _ _ A3 Q3)|lra]).
  destruct (fl_divc t3 (c3 * (d * (d * d))) _ _ 6 (300 / 10 ^ 20) T3 M3 ltac:(lra) ltac:(lra) ltac:(unfold ulp1, tiny; lra)) as (u3 & -> & U3). cbn [bind].
  assert (N3 : Rabs (c3 * (d * (d * d)) / 6) <= 715 / 10 ^ 8) by (apply (div_bound _ _ _ 6 M3); lra).
  assert (S3 : Rabs (c0 - c1 * d + c2 * (d * d) / 2 - c3 * (d * (d * d)) / 6) <= 107 / 10 ^ 2) by (eapply Rle_trans; [apply Rabs_triang|rewrite ?Rabs_Ropp; lra]).
  destruct (fl_sub s2 (c0 - c1 * d + c2 * (d * d) / 2) _ u3 (c3 * (d * (d * d)) / 6) _ _ (7169 / 10 ^ 18) E2 U3 S3 ltac:(lra) ltac:(unfold ulp1, tiny; lra)) as (s3 & -> & E3). cbn [bind].
  destruct (fl_mul b4 c4 _ _ x4 (d * (d * (d * d))) _ _ (120 / 10 ^ 20) H4 A4 X4 Q4 ltac:(lra) ltac:(unfold ulp1, tiny; lra)) as (t4 & -> & T4). cbn [bind].
  assert (M4 : Rabs (c4 * (d * (d * (d * d)))) <= 216 / 10 ^ 8) by (eapply Rle_trans; [apply (mult_bound c4 (d * (d * (d * d))) _ _ A4 Q4)|lra]).
  destruct (fl_divc t4 (c4 * (d * (d * (d * d)))) _ _ 24 (502 / 10 ^ 22) T4 M4 ltac:(lra) ltac:(lra) ltac:(unfold ulp1, tiny; lra)) as (u4 & -> & U4). cbn [bind].
  assert (N4 : Rabs (c4 * (d * (d * (d * d))) / 24) <= 901 / 10 ^ 10) by (apply (div_bound _ _ _ 24 M4); lra).
  assert (S4 : Rabs (c0 - c1 * d + c2 * (d * d) / 2 - c3 * (d * (d * d)) / 6 + c4 * (d * (d * (d * d))) / 24) <= 109 / 10 ^ 2) by (eapply Rle_trans; [apply Rabs_triang|lra]).
  destruct (fl_add s3 (c0 - c1 * d + c2 * (d * d) / 2 - c3 * (d * (d * d)) / 6) _ u4 (c4 * (d * (d * (d * d))) / 24) _ _ (7292 / 10 ^ 18) E3 U4 S4 ltac:(lra) ltac:(unfold ulp1, tiny; lra)) as (s4 & -> & E4). cbn [bind].
  destruct (fl_mul b5 c5 _ _ x5 (d * (d * (d * (d * d)))) _ _ (745 / 10 ^ 22) H5 A5 X5 Q5 ltac:(lra) ltac:(unfold ulp1, tiny; lra)) as (t5 & -> & T5). cbn [bind].
  assert (M5 : Rabs (c5 * (d * (d * (d * (d * d))))) <= 109 / 10 ^ 9) by (eapply Rle_trans; [apply (mult_bound c5 (d * (d * (d * (d * d)))) _ _ A5 Q5)|lra]).
  destruct (fl_divc t5 (c5 * (d * (d * (d * (d * d))))) _ _ 120 (622 / 10 ^ 24) T5 M5 ltac:(lra) ltac:(lra) ltac:(unfold ulp1, tiny; lra)) as (u5 & -> & U5). cbn [bind].
  assert (N5 : Rabs (c5 * (d * (d * (d * (d * d)))) / 120) <= 910 / 10 ^ 12) by (apply (div_bound _ _ _ 120 M5); lra).
  assert (S5 : Rabs (c0 - c1 * d + c2 * (d * d) / 2 - c3 * (d * (d * d)) / 6 + c4 * (d * (d * (d * d))) / 24 - c5 * (d * (d * (d * (d * d)))) / 120) <= 111 / 10 ^ 2) by (eapply Rle_trans; [apply Rabs_triang|rewrite ?Rabs_Ropp; lra]).
  destruct (fl_sub s4 (c0 - c1 * d + c2 * (d * d) / 2 - c3 * (d * (d * d)) / 6 + c4 * (d * (d * (d * d))) / 24) _ u5 (c5 * (d * (d * (d * (d * d)))) / 120) _ _ (7417 / 10 ^ 18) E4 U5 S5 ltac:(lra) ltac:(unfold ulp1, tiny; lra)) as (s5 & -> & E5). cbn [bind].
  destruct (fl_mul b6 c6 _ _ x6 (d * (d * (d * (d * (d * d))))) _ _ (452 / 10 ^ 23) H6 A6 X6 Q6 ltac:(lra) ltac:(unfold ulp1, tiny; lra)) as (t6 & -> & T6). cbn [bind].
  assert (M6 : Rabs (c6 * (d * (d * (d * (d * (d * d)))))) <= 548 / 10 ^ 11) by (eapply Rle_trans; [apply (mult_bound c6 (d * (d * (d * (d * (d * d))))) _ _ A6 Q6)|lra]).
  destruct (fl_divc t6 (c6 * (d * (d * (d * (d * (d * d)))))) _ _ 720 (629 / 10 ^ 26) T6 M6 ltac:(lra) ltac:(lra) ltac:(unfold ulp1, tiny; lra)) as (u6 & -> & U6). cbn [bind].
  assert (N6 : Rabs (c6 * (d * (d * (d * (d * (d * d))))) / 720) <= 763 / 10 ^ 14) by (apply (div_bound _ _ _ 720 M6); lra).
  assert (S6 : Rabs (c0 - c1 * d + c2 * (d * d) / 2 - c3 * (d * (d * d)) / 6 + c4 * (d * (d * (d * d))) / 24 - c5 * (d * (d * (d * (d * d)))) / 120 + c6 * (d * (d * (d * (d * (d * d))))) / 720) <= 113 / 10 ^ 2) by (eapply Rle_trans; [apply Rabs_triang|lra]).
  exact (fl_add s5 (c0 - c1 * d + c2 * (d * d) / 2 - c3 * (d * (d * d)) / 6 + c4 * (d * (d * (d * d))) / 24 - c5 * (d * (d * (d * (d * d)))) / 120) _ u6 (c6 * (d * (d * (d * (d * (d * d))))) / 720) _ _ (8 / 10 ^ 15) E5 U6 S6 ltac:(lra) ltac:(unfold ulp1, tiny; lra)).
Qed.

Lemma fl_entry_ok i n : (0 <= i <= 300)%Z -> (0 <= n <= 39)%Z ->
  exists v, fl_boys_entry i n = Ok v /\ Rabs (v - boys (Z.to_nat n) (IZR i / 10)) <= 42 / 10 ^ 16.
Proof.
  intros Hi Hn. unfold fl_boys_entry. destruct (boys_table_get i n Hi Hn) as (b & -> & A). cbn [bind]. pose proof hundred as BIG.
  pose proof (IZR_le _ _ (proj1 Hi)) as I0. destruct (boys_bounds (Z.to_nat n) (IZR i / 10) ltac:(lra)) as (B0 & B1).
  assert (B2 : / INR (2 * Z.to_nat n + 1) <= 1) by (rewrite <- Rinv_1; apply Rinv_le_contravar; [lra|]; change 1 with (INR 1) at 1; apply le_INR; lia).
  apply (near_fl b (boys (Z.to_nat n) (IZR i / 10)) (4 / 10 ^ 15) 1 (42 / 10 ^ 16) A); [rewrite Rabs_pos_eq; lra|lra|unfold ulp1, tiny; lra].
Qed.

Lemma boys_third n x : 0 <= x -> Rabs (boys (S n) x) <= 1 / 3.
Proof.
  intros H. destruct (boys_bounds (S n) x H) as (B0 & B1). rewrite Rabs_pos_eq by exact B0. eapply Rle_trans; [exact B1|]. replace (1 / 3) with (/ INR 3) by (rewrite INR_IZR_INZ; cbn [Z.of_nat Pos.of_succ_nat Pos.succ]; lra).
  apply Rinv_le_contravar; [apply lt_0_INR; lia|apply le_INR; lia].
Qed.

Lemma boys_one n x : 0 <= x -> Rabs (boys n x) <= 1.
Proof.
  intros H. destruct (boys_bounds n x H) as (B0 & B1). rewrite Rabs_pos_eq by exact B0. eapply Rle_trans; [exact B1|]. rewrite <- Rinv_1. apply Rinv_le_contravar; [lra|]. change 1 with (INR 1) at 1. apply le_INR. lia.
Qed.

Lemma fl_boys_near lpow n x : (0 <= n <= 33)%Z -> 0 <= x <= 30 -> exists v, fl_boys_function lpow n x = Ok v /\ Rabs (v - boys (Z.to_nat n) x) <= 2 / 10 ^ 14.
Proof.
  intros Hn Hx. pose proof hundred as BIG. unfold fl_boys_function. destruct (Rle_dec x 30); [|lra].
  destruct (fl_exact (1 / 10) (1 / 10) (112 / 10 ^ 19) ltac:(rewrite Rabs_pos_eq; lra) ltac:(lra) ltac:(unfold ulp1, tiny; lra)) as (h & -> & Hh). cbn [bind].
  pose proof Hh as Hh'. apply Rabs_le_between in Hh'.
  assert (Y0 : Rabs (x / h - x * 10) <= 1 / 10 ^ 13).
  { replace (x / h - x * 10) with (- (x * 10 * (h - 1 / 10)) / h) by (field; lra). unfold Rdiv. rewrite Rabs_mult, Rabs_Ropp, Rabs_mult, (Rabs_pos_eq (x * 10)), (Rabs_pos_eq (/ h)) by (try (left; apply Rinv_0_lt_compat); lra).
    assert (/ h <= 11) by (replace 11 with (/ / 11) by field; apply Rinv_le_contravar; lra). assert (0 < / h) by (apply Rinv_0_lt_compat; lra).
    apply Rle_trans with (300 * (112 / 10 ^ 19) * 11); [|lra]. apply Rmult_le_compat; [apply Rmult_le_pos; [lra|apply Rabs_pos]|lra| |lra]. apply Rmult_le_compat; [lra|apply Rabs_pos|lra|exact Hh]. }
  destruct (near_fl (x / h) (x * 10) (1 / 10 ^ 13) 300 (2 / 10 ^ 13) Y0 ltac:(rewrite Rabs_pos_eq; lra) ltac:(lra) ltac:(unfold ulp1, tiny; lra)) as (y & Ey & Hy).
  assert (Y : 0 <= y).
  { rewrite fl_ok in Ey by (apply Rabs_le_between in Y0; rewrite Rabs_pos_eq; [lra|apply Rmult_le_pos; [lra|left; apply Rinv_0_lt_compat; lra]]). injection Ey as <-. apply b64_nonneg. apply Rmult_le_pos; [lra|left; apply Rinv_0_lt_compat; lra]. }
  rewrite Ey. cbn [bind].
  destruct (fl_exact (1 / 10 ^ 6) (1 / 10 ^ 6) (1 / 10 ^ 20) ltac:(rewrite Rabs_pos_eq; lra) ltac:(lra) ltac:(unfold ulp1, tiny; lra)) as (e6 & -> & H6). cbn [bind].
  apply Rabs_le_between in Hy. destruct (c_round_near y Y) as (K0 & KN). set (k := c_round y) in *.
  assert (K1 : (k <= 300)%Z) by (apply Z.lt_succ_r, lt_IZR; rewrite succ_IZR; lra). pose proof (IZR_le _ _ K0) as K0'. pose proof (IZR_le _ _ K1) as K1'.
  destruct (fl_add (IZR k) (IZR k) 0 e6 (1 / 10 ^ 6) _ 301 (1 / 10 ^ 12) (same0 _) H6 ltac:(rewrite Rabs_pos_eq; lra) ltac:(lra) ltac:(unfold ulp1, tiny; lra)) as (z & -> & Hz). cbn [bind].
  assert (Ez : c_trunc z = k) by (apply Rabs_le_between in Hz; replace z with (IZR k + (z - IZR k)) by ring; apply c_trunc_int; [exact K0|lra]). rewrite Ez. cbv zeta.
  destruct (fl_mul (IZR k) (IZR k) 0 300 h (1 / 10) _ (1 / 10) (67 / 10 ^ 16) (same0 _) ltac:(rewrite Rabs_pos_eq; lra) Hh ltac:(rewrite Rabs_pos_eq; lra) ltac:(lra) ltac:(unfold ulp1, tiny; lra)) as (x0 & -> & Hx0). cbn [bind].
  assert (D : Rabs (x - IZR k * (1 / 10)) <= 501 / 10000) by (apply Rabs_le; lra).
  destruct (fl_sub x x 0 x0 (IZR k * (1 / 10)) _ _ (68 / 10 ^ 16) (same0 _) Hx0 D ltac:(lra) ltac:(unfold ulp1, tiny; lra)) as (dx & -> & Hdx). cbn [bind].
  destruct (fl_entry_ok k n ltac:(lia) ltac:(lia)) as (b0 & -> & A0). destruct (fl_entry_ok k (n + 1) ltac:(lia) ltac:(lia)) as (b1 & -> & A1). destruct (fl_entry_ok k (n + 2) ltac:(lia) ltac:(lia)) as (b2 & -> & A2).
  destruct (fl_entry_ok k (n + 3) ltac:(lia) ltac:(lia)) as (b3 & -> & A3). destruct (fl_entry_ok k (n + 4) ltac:(lia) ltac:(lia)) as (b4 & -> & A4). destruct (fl_entry_ok k (n + 5) ltac:(lia) ltac:(lia)) as (b5 & -> & A5).
  destruct (fl_entry_ok k (n + 6) ltac:(lia) ltac:(lia)) as (b6 & -> & A6). cbn [bind].
  assert (KX : 0 <= IZR k * (1 / 10)) by lra.
  pose proof (boys_taylor (Z.to_nat n) 7 x (IZR k * (1 / 10)) ltac:(lra) KX) as T.
  replace (IZR k / 10) with (IZR k * (1 / 10)) in * by field. set (X0 := IZR k * (1 / 10)) in *. set (N := Z.to_nat n) in *.
  replace (Z.to_nat (n + 1)) with (S N) in A1 by (unfold N; lia). replace (Z.to_nat (n + 2)) with (S (S N)) in A2 by (unfold N; lia). replace (Z.to_nat (n + 3)) with (S (S (S N))) in A3 by (unfold N; lia).
  replace (Z.to_nat (n + 4)) with (S (S (S (S N)))) in A4 by (unfold N; lia). replace (Z.to_nat (n + 5)) with (S (S (S (S (S N))))) in A5 by (unfold N; lia). replace (Z.to_nat (n + 6)) with (S (S (S (S (S (S N)))))) in A6 by (unfold N; lia).
  destruct (fl_boys_poly_ok b0 b1 b2 b3 b4 b5 b6 _ _ _ _ _ _ _ dx (x - X0) (boys_one N X0 KX) (boys_third N X0 KX) (boys_third (S N) X0 KX) (boys_third (S (S N)) X0 KX) (boys_third (S (S (S N))) X0 KX)
    (boys_third (S (S (S (S N)))) X0 KX) (boys_third (S (S (S (S (S N))))) X0 KX) A0 A1 A2 A3 A4 A5 A6 Hdx D) as (v & Ev & Hv).
  exists v. split; [exact Ev|].
  match type of Hv with Rabs (v - ?P) <= _ => assert (Q : rsum 7 (fun j => eterm (- (x - X0)) j * boys (N + j) X0) = P) end.
  { cbn [rsum]. rewrite Nat.add_0_r. replace (N + 1)%nat with (S N) by lia. replace (N + 2)%nat with (S (S N)) by lia. replace (N + 3)%nat with (S (S (S N))) by lia. replace (N + 4)%nat with (S (S (S (S N)))) by lia.
    replace (N + 5)%nat with (S (S (S (S (S N))))) by lia. replace (N + 6)%nat with (S (S (S (S (S (S N)))))) by lia. unfold eterm. cbn [fact Nat.mul Nat.add pow]. rewrite !INR_IZR_INZ. cbn [Z.of_nat Pos.of_succ_nat Pos.succ]. field. }
  rewrite Q in T. eapply Rle_trans; [apply (abs_near v _ _ _ _ Hv T)|].
  assert (B : eterm (Rabs (x - X0)) 7 / INR (2 * (N + 7) + 1) <= (501 / 10000) ^ 7 / 5040 / 15).
  { assert (PI0 : 0 < INR (2 * (N + 7) + 1)) by (apply lt_0_INR; lia). apply Rmult_le_compat; [apply eterm_pos, Rabs_pos|left; apply Rinv_0_lt_compat, PI0| |].
    - unfold eterm. replace (INR (fact 7)) with 5040 by (rewrite INR_IZR_INZ; reflexivity). apply Rmult_le_compat_r; [lra|]. apply pow_incr. split; [apply Rabs_pos|exact D].
    - apply Rinv_le_contravar; [lra|]. replace 15 with (INR 15) by (rewrite INR_IZR_INZ; reflexivity). apply le_INR. lia. }
  eapply Rle_trans; [apply Rplus_le_compat_l, B|]. lra.
Qed.

(** ** Large arguments *)
Lemma boys_far_formula N x : 0 < x -> IZR (dfactz (2 * N - 1)) / 2 ^ (N + 1) * sqrt (PI / x ^ (2 * N + 1)) = gmom (2 * N) x.
Proof.
  intros Hx. rewrite gmom_even by lra. assert (P : 0 < x ^ N) by (apply pow_lt; lra). assert (P2 : 0 < 2 ^ (N + 1)) by (apply pow_lt; lra).
  replace (PI / x ^ (2 * N + 1)) with (PI / x * (/ x ^ N * / x ^ N)).
  2: { replace (2 * N + 1)%nat with (N + N + 1)%nat by lia. rewrite !pow_add, pow_1. field. split; lra. }
  rewrite sqrt_mult; [|apply Rmult_le_pos; [left; apply PI_RGT_0|left; apply Rinv_0_lt_compat; lra]|apply Rmult_le_pos; left; apply Rinv_0_lt_compat, P].
  rewrite sqrt_square by (left; apply Rinv_0_lt_compat, P). field. split; lra.
Qed.

Lemma dfact_range N : (N <= 15)%nat -> (1 <= dfactz (2 * N - 1) <= 10 ^ 16)%Z.
Proof. intros H. do 16 (destruct N as [|N]; [vm_compute; split; discriminate|]). lia. Qed.

Lemma libm_int lpow x n e : libm_pow lpow -> mag10 e x -> (n * e <= 300)%nat -> exists v, lpow x (IZR (Z.of_nat n)) = Ok v /\ ap 2 (x ^ n) (x ^ n) v.
Proof.
  intros HP Mx Hn. pose proof (mag10_pos _ _ Mx) as Px. assert (E : Rpower x (IZR (Z.of_nat n)) = x ^ n) by (rewrite <- INR_IZR_INZ; apply Rpower_pow, Px).
  pose proof (mag10_inr _ _ (mag10_pow e x n Mx) Hn) as (I1 & I2). destruct (HP x (IZR (Z.of_nat n)) Px) as (v & Ev & Hv); [rewrite E; unfold lo, hi in *; split; assumption|].
  exists v. split; [exact Ev|]. rewrite E in Hv. split; [rewrite Rabs_pos_eq; [lra|left; apply pow_lt, Px]|exact Hv].
Qed.

Lemma fl_boys_far lpow n x : libm_pow lpow -> (0 <= n <= 15)%Z -> 30 < x <= 10 ^ 9 -> exists v, fl_boys_function lpow n x = Ok v /\ Rabs (v - boys (Z.to_nat n) x) <= 2 / 10 ^ 14.
Proof.
  intros HP Hn Hx. unfold fl_boys_function. destruct (Rle_dec x 30); [lra|]. rewrite double_factorial_ok by lia. cbn [bind].
  set (N := Z.to_nat n). assert (EN : n = Z.of_nat N) by (unfold N; lia). assert (LN : (N <= 15)%nat) by lia.
  replace (Z.to_nat (2 * n - 1)) with (2 * N - 1)%nat by lia. replace (n + 1)%Z with (Z.of_nat (N + 1)) by lia. replace (2 * n + 1)%Z with (Z.of_nat (2 * N + 1)) by lia.
  destruct (dfact_range N LN) as (D1 & D2). apply IZR_le in D1. apply IZR_le in D2. set (d := IZR (dfactz (2 * N - 1))) in *. assert (D3 : d <= 10 ^ 16) by lra.
  assert (Md : mag10 16 d) by (split; [apply Rle_trans with 1; [lra|exact D1]|exact D3]).
  assert (M2 : mag10 1 2) by (unfold mag10; lra). assert (Mx : mag10 9 x) by (unfold mag10; lra). pose proof pi_b as PI_b. assert (Mpi : mag10 1 PI) by (unfold mag10; lra).
  destruct (ap_round 0 d d d (ap_exact d d ltac:(rewrite Rabs_pos_eq; lra)) ltac:(lra) (mag10_inr _ _ Md ltac:(lia))) as (d' & -> & Hd). cbn [bind].
  destruct (libm_int lpow 2 (N + 1) 1 HP M2 ltac:(lia)) as (p2 & -> & Hp2). cbn [bind]. pose proof (mag10_pow 1 2 (N + 1) M2) as MP2. pose proof (mag10_div _ _ _ _ Md MP2) as Mc.
  destruct (ap_fdiv _ _ d d d' (2 ^ (N + 1)) p2 Hd (mag10_pos _ _ MP2) Hp2 ltac:(lra) ltac:(lra) (mag10_inr _ _ Mc ltac:(lia))) as (c & -> & Hc). cbn [bind].
  destruct (ap_round 0 PI PI PI (ap_exact PI PI ltac:(rewrite Rabs_pos_eq; lra)) ltac:(lra) (mag10_inr _ _ Mpi ltac:(lia))) as (mpi & -> & Hpi). cbn [bind].
  destruct (libm_int lpow x (2 * N + 1) 9 HP Mx ltac:(lia)) as (px & -> & Hpx). cbn [bind]. pose proof (mag10_pow 9 x (2 * N + 1) Mx) as MPx. pose proof (mag10_div _ _ _ _ Mpi MPx) as Mq.
  destruct (ap_fdiv _ _ PI PI mpi (x ^ (2 * N + 1)) px Hpi (mag10_pos _ _ MPx) Hpx ltac:(lra) ltac:(lra) (mag10_inr _ _ Mq ltac:(lia))) as (q & -> & Hq). cbn [bind].
  pose proof (ap_sqrt _ _ _ (mag10_pos _ _ Mq) Hq ltac:(lra)) as Hs. assert (Ms : mag10 140 (sqrt (PI / x ^ (2 * N + 1)))) by (apply mag10_sqrt; eapply mag10_weak; [exact Mq|lia]).
  destruct (ap_round _ _ _ _ Hs ltac:(lra) (mag10_inr _ _ Ms ltac:(lia))) as (sq & -> & Hsq). cbn [bind].
  destruct (ap_fmul _ _ _ _ _ _ _ _ Hc Hsq ltac:(lra) ltac:(lra) (mag10_inr _ _ (mag10_mul _ _ _ _ Mc Ms) ltac:(lia))) as (v & -> & Hv). exists v. split; [reflexivity|].
  unfold d in Hv. rewrite boys_far_formula in Hv by lra. destruct Hv as (_ & Hv).
  assert (BN : INR N <= 15) by (replace 15 with (INR 15) by (rewrite INR_IZR_INZ; reflexivity); apply le_INR; lia).
  destruct (boys_tail N x ltac:(lra)) as (L & U). pose proof (exp_30 x ltac:(lra)) as E. pose proof (exp_pos (- x)).
  assert (U' : gmom (2 * N) x - boys N x <= 15 / 10 ^ 15).
  { eapply Rle_trans; [exact U|]. apply Rle_trans with (45 / 10 ^ 14 * / 30); [|lra]. unfold Rdiv at 1. apply Rmult_le_compat; [lra|left; apply Rinv_0_lt_compat; lra|exact E|]. apply Rinv_le_contravar; lra. }
  destruct (boys_bounds N x ltac:(lra)) as (B0 & B1). pose proof (boys_one N x ltac:(lra)) as B2. rewrite Rabs_pos_eq in B2 by exact B0.
  assert (G : 0 <= gmom (2 * N) x <= 2) by lra.
  eapply Rle_trans; [apply (abs_near v _ _ _ (15 / 10 ^ 15) Hv); rewrite Rabs_pos_eq; lra|].
  match type of Hv with _ <= ?k * ulp1 * _ => apply Rle_trans with (k * ulp1 * 2 + 15 / 10 ^ 15) end; [apply Rplus_le_compat_r, Rmult_le_compat_l; [unfold ulp1; lra|lra]|]. unfold ulp1. lra.
Qed.

Lemma fl_boys_thm lpow n x : libm_pow lpow -> (0 <= n <= 33)%Z -> 0 <= x <= 10 ^ 9 -> x <= 30 \/ (n <= 15)%Z -> exists v, fl_boys_function lpow n x = Ok v /\ Rabs (v - boys (Z.to_nat n) x) <= 2 / 10 ^ 14.
Proof.
  intros HP Hn Hx H. destruct (Rle_dec x 30) as [Le|Gt]; [apply fl_boys_near; [exact Hn|lra]|]. apply fl_boys_far; [exact HP| |lra]. destruct H; [lra|lia].
Qed.

Lemma fl_boys_values_thm lpow x nmax sz b : libm_pow lpow -> (0 <= nmax <= 33)%Z -> 0 <= x <= 10 ^ 9 -> x <= 30 \/ (nmax <= 15)%Z -> adims b = [sz] -> (nmax < sz)%Z ->
  exists b', fl_boys_values lpow x nmax b = Ok b' /\ adims b' = [sz] /\
    (forall n, (0 <= n <= nmax)%Z -> exists v, aget b' [n] = Ok v /\ Rabs (v - boys (Z.to_nat n) x) <= 2 / 10 ^ 14) /\
    (forall n, (nmax < n)%Z -> aget b' [n] = aget b [n]).
Proof.
  intros HP Hn Hx H D Hs. unfold fl_boys_values. destruct (memset0_get (nmax + 1) sz b D ltac:(lia)) as (b1 & -> & D1 & _ & F1). cbn [bind].
  destruct (loop1_all 0 (nmax + 1) (fun s => adims s = [sz] /\ forall n, (nmax < n)%Z -> aget s [n] = aget b [n]) (fun n s => exists v, aget s [n] = Ok v /\ Rabs (v - boys (Z.to_nat n) x) <= 2 / 10 ^ 14)
    (fun n b => let* v := fl_boys_function lpow n x in aset b [n] v) b1 ltac:(lia)) as (b' & E & (D' & F') & P).
  - split; [exact D1|]. intros n Hn'. apply F1. intros k Hk X. injection X as ->. lia.
  - intros i s Hi (Ds & Fs). destruct (fl_boys_thm lpow i x HP ltac:(lia) Hx) as (v & -> & Hv); [destruct H; [left; assumption|right; lia]|]. cbn [bind].
    destruct (aset_get s [i] v) as (s' & E & Ds' & G1 & G2); [rewrite Ds; apply inb1; lia|]. exists s'. split; [exact E|]. split; [split; [congruence|]|split].
    + intros n Hn'. rewrite G2; [apply Fs, Hn'|]. intros X. injection X as ->. lia.
    + exists v. split; [exact G1|exact Hv].
    + intros i' Hi' (v' & E' & Hv'). exists v'. split; [|exact Hv']. rewrite G2; [exact E'|]. intros X. injection X as ->. lia.
  - exists b'. split; [exact E|]. split; [exact D'|]. split; [|exact F']. intros n Hn'. apply P. lia.
Qed.
