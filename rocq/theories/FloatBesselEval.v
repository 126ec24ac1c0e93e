(** * The Bessel functions in double precision: evaluation *)

From Coq Require Import ZArith List Bool Lia Reals Lra Factorial.
From Coquelicot Require Import Coquelicot.
From Verif Require Import Base OneElProofs Loops Sums GaussInt OvDeriv SpecModel SpecExp SpecSpec SpecBoys BoysThms BesselProofs BesselAsym BesselThms BesselOrders FloatBase FloatBessel FloatBesselTab.
Import ListNotations.
Open Scope R_scope.

Lemma same0 x : Rabs (x - x) <= 0. Proof. rewrite Rminus_eq_0, Rabs_R0. lra. Qed.
Lemma hundred : 10 ^ 10 <= 10 ^ 100. Proof. apply Rle_pow; [lra|lia]. Qed.

(** the Taylor polynomial *)
Definition fl_taylor (d0 d1 d2 d3 d4 dx : R) : res R :=
  let* dx2 := fl (dx * dx) in
  let* dx3 := fl (dx2 * dx) in
  let* dx4 := fl (dx3 * dx) in
  let* t1 := fl (d1 * dx) in
  let* s := fl (d0 + t1) in
  let* t2 := fl (d2 * dx2) in
  let* t2 := fl (t2 * (1 / 2)) in
  let* s := fl (s + t2) in
  let* t3 := fl (d3 * dx3) in
  let* c3 := fl (1 / 6) in
  let* t3 := fl (t3 * c3) in
  let* s := fl (s + t3) in
  let* t4 := fl (d4 * dx4) in
  let* c4 := fl (1 / 24) in
  let* t4 := fl (t4 * c4) in
  fl (s + t4).

Lemma fl_taylor_ok d0 d1 d2 d3 d4 c0 c1 c2 c3 c4 dx d : Rabs c0 <= 1 -> Rabs c1 <= 2 -> Rabs c2 <= 4 -> Rabs c3 <= 8 -> Rabs c4 <= 16 ->
  Rabs (d0 - c0) <= 28 / 10 ^ 15 -> Rabs (d1 - c1) <= 7 / 10 ^ 14 -> Rabs (d2 - c2) <= 2 / 10 ^ 13 -> Rabs (d3 - c3) <= 1 / 10 ^ 12 -> Rabs (d4 - c4) <= 3 / 10 ^ 12 ->
  Rabs (dx - d) <= 5 / 10 ^ 15 -> Rabs d <= 501 / 100000 ->
  exists v, fl_taylor d0 d1 d2 d3 d4 dx = Ok v /\ Rabs (v - (c0 + c1 * d + c2 * (d * d) * (1 / 2) + c3 * (d * d * d) * (1 / 6) + c4 * (d * d * d * d) * (1 / 24))) <= 4 / 10 ^ 14.
Proof.
  intros A0 A1 A2 A3 A4 H0 H1 H2 H3 H4 Hd Ad. pose proof hundred as BIG. unfold fl_taylor.
  assert (Q2 : Rabs (d * d) <= 1 / 10000) by (eapply Rle_trans; [apply (mult_bound d d _ _ Ad Ad)|lra]).
  assert (Q3 : Rabs (d * d * d) <= 1 / 10 ^ 6) by (eapply Rle_trans; [apply (mult_bound (d * d) d _ _ Q2 Ad)|lra]).
  assert (Q4 : Rabs (d * d * d * d) <= 1 / 10 ^ 8) by (eapply Rle_trans; [apply (mult_bound (d * d * d) d _ _ Q3 Ad)|lra]).
  destruct (fl_mul dx d _ _ dx d _ _ (6 / 10 ^ 17) Hd Ad Hd Ad ltac:(lra) ltac:(unfold ulp1, tiny; lra)) as (x2 & -> & X2). cbn [bind].
  destruct (fl_mul x2 (d * d) _ _ dx d _ _ (1 / 10 ^ 17) X2 Q2 Hd Ad ltac:(lra) ltac:(unfold ulp1, tiny; lra)) as (x3 & -> & X3). cbn [bind].
  destruct (fl_mul x3 (d * d * d) _ _ dx d _ _ (1 / 10 ^ 18) X3 Q3 Hd Ad ltac:(lra) ltac:(unfold ulp1, tiny; lra)) as (x4 & -> & X4). cbn [bind].
  destruct (fl_mul d1 c1 _ _ dx d _ _ (104 / 10 ^ 16) H1 A1 Hd Ad ltac:(lra) ltac:(unfold ulp1, tiny; lra)) as (t1 & -> & T1). cbn [bind].
  assert (M1 : Rabs (c1 * d) <= 2 / 100) by (eapply Rle_trans; [apply (mult_bound c1 d _ _ A1 Ad)|lra]).
  assert (S1 : Rabs (c0 + c1 * d) <= 102 / 100) by (eapply Rle_trans; [apply Rabs_triang|lra]).
  destruct (fl_add d0 c0 _ t1 (c1 * d) _ _ (386 / 10 ^ 16) H0 T1 S1 ltac:(lra) ltac:(unfold ulp1, tiny; lra)) as (s1 & -> & E1). cbn [bind].
  destruct (fl_mul d2 c2 _ _ x2 (d * d) _ _ (4 / 10 ^ 16) H2 A2 X2 Q2 ltac:(lra) ltac:(unfold ulp1, tiny; lra)) as (t2 & -> & T2). cbn [bind].
  assert (M2 : Rabs (c2 * (d * d)) <= 4 / 10000) by (eapply Rle_trans; [apply (mult_bound c2 (d * d) _ _ A2 Q2)|lra]).
  assert (Hh : Rabs (1 / 2) <= 1 / 2) by (rewrite Rabs_pos_eq; lra).
  destruct (fl_mul t2 (c2 * (d * d)) _ _ (1 / 2) (1 / 2) 0 _ (3 / 10 ^ 16) T2 M2 (same0 _) Hh ltac:(lra) ltac:(unfold ulp1, tiny; lra)) as (u2 & -> & U2). cbn [bind].
  assert (N2 : Rabs (c2 * (d * d) * (1 / 2)) <= 2 / 10000) by (eapply Rle_trans; [apply (mult_bound _ (1 / 2) _ _ M2 Hh)|lra]).
  assert (S2 : Rabs (c0 + c1 * d + c2 * (d * d) * (1 / 2)) <= 103 / 100) by (eapply Rle_trans; [apply Rabs_triang|lra]).
  destruct (fl_add s1 (c0 + c1 * d) _ u2 _ _ _ (391 / 10 ^ 16) E1 U2 S2 ltac:(lra) ltac:(unfold ulp1, tiny; lra)) as (s2 & -> & E2). cbn [bind].
  destruct (fl_mul d3 c3 _ _ x3 (d * d * d) _ _ (1 / 10 ^ 16) H3 A3 X3 Q3 ltac:(lra) ltac:(unfold ulp1, tiny; lra)) as (t3 & -> & T3). cbn [bind].
  assert (M3 : Rabs (c3 * (d * d * d)) <= 8 / 10 ^ 6) by (eapply Rle_trans; [apply (mult_bound c3 (d * d * d) _ _ A3 Q3)|lra]).
  assert (H6 : Rabs (1 / 6) <= 1 / 6) by (rewrite Rabs_pos_eq; lra).
  destruct (fl_exact (1 / 6) (1 / 6) (1 / 10 ^ 16) H6 ltac:(lra) ltac:(unfold ulp1, tiny; lra)) as (k3 & -> & K3). cbn [bind].
  destruct (fl_mul t3 (c3 * (d * d * d)) _ _ k3 (1 / 6) _ _ (1 / 10 ^ 16) T3 M3 K3 H6 ltac:(lra) ltac:(unfold ulp1, tiny; lra)) as (u3 & -> & U3). cbn [bind].
  assert (N3 : Rabs (c3 * (d * d * d) * (1 / 6)) <= 2 / 10 ^ 6) by (eapply Rle_trans; [apply (mult_bound _ (1 / 6) _ _ M3 H6)|lra]).
  assert (S3 : Rabs (c0 + c1 * d + c2 * (d * d) * (1 / 2) + c3 * (d * d * d) * (1 / 6)) <= 104 / 100) by (eapply Rle_trans; [apply Rabs_triang|lra]).
  destruct (fl_add s2 _ _ u3 _ _ _ (394 / 10 ^ 16) E2 U3 S3 ltac:(lra) ltac:(unfold ulp1, tiny; lra)) as (s3 & -> & E3). cbn [bind].
  destruct (fl_mul d4 c4 _ _ x4 (d * d * d * d) _ _ (1 / 10 ^ 16) H4 A4 X4 Q4 ltac:(lra) ltac:(unfold ulp1, tiny; lra)) as (t4 & -> & T4). cbn [bind].
  assert (M4 : Rabs (c4 * (d * d * d * d)) <= 16 / 10 ^ 8) by (eapply Rle_trans; [apply (mult_bound c4 (d * d * d * d) _ _ A4 Q4)|lra]).
  assert (H24 : Rabs (1 / 24) <= 1 / 24) by (rewrite Rabs_pos_eq; lra).
  destruct (fl_exact (1 / 24) (1 / 24) (1 / 10 ^ 16) H24 ltac:(lra) ltac:(unfold ulp1, tiny; lra)) as (k4 & -> & K4). cbn [bind].
  destruct (fl_mul t4 (c4 * (d * d * d * d)) _ _ k4 (1 / 24) _ _ (1 / 10 ^ 16) T4 M4 K4 H24 ltac:(lra) ltac:(unfold ulp1, tiny; lra)) as (u4 & -> & U4). cbn [bind].
  assert (N4 : Rabs (c4 * (d * d * d * d) * (1 / 24)) <= 2 / 10 ^ 8) by (eapply Rle_trans; [apply (mult_bound _ (1 / 24) _ _ M4 H24)|lra]).
  assert (S4 : Rabs (c0 + c1 * d + c2 * (d * d) * (1 / 2) + c3 * (d * d * d) * (1 / 6) + c4 * (d * d * d * d) * (1 / 24)) <= 105 / 100) by (eapply Rle_trans; [apply Rabs_triang|lra]).
  exact (fl_add s3 _ _ u4 _ _ _ (4 / 10 ^ 14) E3 U4 S4 ltac:(lra) ltac:(unfold ulp1, tiny; lra)).
Qed.

(** ** Small arguments *)
Lemma small_near n x : 0 <= x <= 101 / 10 ^ 9 ->
  Rabs ((match n with O => 1 - x | 1%nat => (1 - x) * x * (1 / 3) | 2%nat => (1 - x) * x * x * (1 / 15) | _ => 0 end) - bessK n x) <= 4 / 10 ^ 14.
Proof.
  intros (H0 & H1). assert (X2 : 0 <= x * x <= 103 / 10 ^ 16) by (split; [apply Rmult_le_pos; lra|]; apply Rle_trans with (101 / 10 ^ 9 * (101 / 10 ^ 9)); [apply Rmult_le_compat; lra|lra]).
  assert (X3 : 0 <= x * x * x <= 1 / 10 ^ 15) by (split; [apply Rmult_le_pos; lra|]; apply Rle_trans with (103 / 10 ^ 16 * (101 / 10 ^ 9)); [apply Rmult_le_compat; lra|lra]).
  destruct n as [|[|[|n]]].
  - pose proof (small_taylor 2 0 x H0) as T. cbn [rsum bessD bess_step] in T. rewrite bessK_at_0, bessK_0_at_0 in T. unfold eterm in T. cbn [fact pow INR Nat.add Nat.mul] in T. apply Rabs_le_between in T. apply Rabs_le. cbn [Rdiv] in *. lra.
  - pose proof (small_taylor 2 1 x H0) as T. cbn [rsum bessD bess_step] in T. rewrite !bessK_at_0, bessK_0_at_0 in T. unfold eterm in T. cbn [fact pow INR Nat.add Nat.mul] in T. apply Rabs_le_between in T. apply Rabs_le. lra.
  - pose proof (small_taylor 2 2 x H0) as T. cbn [rsum bessD bess_step] in T. rewrite !bessK_at_0 in T. unfold eterm in T. cbn [fact pow INR Nat.add Nat.mul] in T. apply Rabs_le_between in T. apply Rabs_le. lra.
  - pose proof (small_taylor 2 (S (S (S n))) x H0) as T. cbn [rsum bessD bess_step] in T. rewrite !bessK_at_0 in T. unfold eterm in T. cbn [fact pow Nat.add Nat.mul] in T. rewrite !INR_IZR_INZ in T. cbn [Z.of_nat Pos.of_succ_nat Pos.succ] in T. apply Rabs_le_between in T. apply Rabs_le. lra.
Qed.

Lemma abs_near a A B e f : Rabs (a - A) <= e -> Rabs (A - B) <= f -> Rabs (a - B) <= e + f.
Proof. intros H1 H2. replace (a - B) with ((a - A) + (A - B)) by ring. eapply Rle_trans; [apply Rabs_triang|lra]. Qed.

Lemma fl_small_ok n x : (0 <= n)%Z -> 0 <= x <= 101 / 10 ^ 9 ->
  exists v, (if (n =? 0)%Z then fl (1 - x)
    else if (n =? 1)%Z then let* a := fl (1 - x) in let* a := fl (a * x) in let* third := fl (1 / 3) in fl (a * third)
    else if (n =? 2)%Z then let* a := fl (1 - x) in let* a := fl (a * x) in let* a := fl (a * x) in let* c := fl (1 / 15) in fl (a * c)
    else Ok 0) = Ok v /\ Rabs (v - bessK (Z.to_nat n) x) <= 5 / 10 ^ 14.
Proof.
  intros Hn Hx. pose proof hundred as BIG. pose proof (small_near (Z.to_nat n) x Hx) as S.
  assert (A1 : Rabs (1 - x) <= 1) by (rewrite Rabs_pos_eq; lra). assert (Ax : Rabs x <= 101 / 10 ^ 9) by (rewrite Rabs_pos_eq; lra).
  destruct (fl_exact (1 - x) 1 (12 / 10 ^ 17) A1 ltac:(lra) ltac:(unfold ulp1, tiny; lra)) as (a & Ea & Ha). rewrite Ea. cbn [bind].
  destruct (Z.eqb_spec n 0) as [-> |N0]; [exists a; split; [reflexivity|]; eapply Rle_trans; [apply (abs_near a (1 - x) _ _ _ Ha S)|lra]|].
  destruct (fl_mul a (1 - x) _ _ x x 0 _ (1 / 10 ^ 20) Ha A1 (same0 x) Ax ltac:(lra) ltac:(unfold ulp1, tiny; lra)) as (b & -> & Hb). cbn [bind].
  assert (A2 : Rabs ((1 - x) * x) <= 101 / 10 ^ 9) by (eapply Rle_trans; [apply (mult_bound (1 - x) x _ _ A1 Ax)|lra]).
  destruct (Z.eqb_spec n 1) as [-> |N1].
  { assert (H3 : Rabs (1 / 3) <= 1 / 3) by (rewrite Rabs_pos_eq; lra). destruct (fl_exact (1 / 3) (1 / 3) (1 / 10 ^ 16) H3 ltac:(lra) ltac:(unfold ulp1, tiny; lra)) as (c & -> & Hc). cbn [bind].
    destruct (fl_mul b ((1 - x) * x) _ _ c (1 / 3) _ _ (1 / 10 ^ 19) Hb A2 Hc H3 ltac:(lra) ltac:(unfold ulp1, tiny; lra)) as (v & -> & Hv). exists v. split; [reflexivity|]. eapply Rle_trans; [apply (abs_near v _ _ _ _ Hv S)|lra]. }
  destruct (Z.eqb_spec n 2) as [-> |N2].
  { destruct (fl_mul b ((1 - x) * x) _ _ x x 0 _ (1 / 10 ^ 19) Hb A2 (same0 x) Ax ltac:(lra) ltac:(unfold ulp1, tiny; lra)) as (b2 & -> & Hb2). cbn [bind].
    assert (A3 : Rabs ((1 - x) * x * x) <= 101 / 10 ^ 9) by (eapply Rle_trans; [apply (mult_bound ((1 - x) * x) x _ _ A2 Ax)|lra]).
    assert (H3 : Rabs (1 / 15) <= 1 / 15) by (rewrite Rabs_pos_eq; lra). destruct (fl_exact (1 / 15) (1 / 15) (1 / 10 ^ 16) H3 ltac:(lra) ltac:(unfold ulp1, tiny; lra)) as (c & -> & Hc). cbn [bind].
    destruct (fl_mul b2 ((1 - x) * x * x) _ _ c (1 / 15) _ _ (1 / 10 ^ 19) Hb2 A3 Hc H3 ltac:(lra) ltac:(unfold ulp1, tiny; lra)) as (v & -> & Hv). exists v. split; [reflexivity|]. eapply Rle_trans; [apply (abs_near v _ _ _ _ Hv S)|lra]. }
  exists 0. split; [reflexivity|]. replace (Z.to_nat n) with (3 + Z.to_nat (n - 3))%nat in * by lia. cbn [Nat.add] in *. lra.
Qed.

(** ** Lookup in the table *)
Lemma fl_lookup tab0 t0 tab : holds_table0 tab0 t0 -> (forall i l, (0 <= i < 1601)%Z -> Rabs (t0 i l) <= 2) -> accurate_table0 t0 (2 / 10 ^ 14) -> fl_pretabulate tab0 bessel_table_init = Ok tab ->
  forall n x, (0 <= n <= 51)%Z -> 0 <= x <= 16 -> exists v, fl_bessel_scaled tab n x = Ok v /\ Rabs (v - bessK (Z.to_nat n) x) <= 9 / 10 ^ 13.
Proof.
  intros HT HB HA E n x Hn Hx. pose proof hundred as BIG. unfold fl_bessel_scaled.
  destruct (fl_exact (1 / 10 ^ 7) (1 / 10 ^ 7) (1 / 10 ^ 20) ltac:(rewrite Rabs_pos_eq; lra) ltac:(lra) ltac:(unfold ulp1, tiny; lra)) as (s & -> & Hs). cbn [bind]. apply Rabs_le_between in Hs.
  destruct (Rle_dec x s) as [S|S].
  { destruct (fl_small_ok n x ltac:(lia) ltac:(lra)) as (v & Ev & Hv). exists v. split; [exact Ev|lra]. }
  destruct (Rle_dec x 16); [|lra].
  destruct (fl_exact (x * 100) 1600 (2 / 10 ^ 13) ltac:(rewrite Rabs_pos_eq; lra) ltac:(lra) ltac:(unfold ulp1, tiny; lra)) as (y & Ey & Hy).
  assert (Y : 0 <= y <= 1600).
  { rewrite fl_ok in Ey by (rewrite Rabs_pos_eq; lra). injection Ey as <-. split; [apply b64_nonneg; lra|]. change 1600 with (IZR 1600). rewrite <- (b64_int 1600) by lia. apply b64_le. change (IZR 1600) with 1600. lra. }
  rewrite Ey. cbn [bind].
  destruct (fl_exact (1 / 10 ^ 5) (1 / 10 ^ 5) (1 / 10 ^ 20) ltac:(rewrite Rabs_pos_eq; lra) ltac:(lra) ltac:(unfold ulp1, tiny; lra)) as (e5 & -> & H5). cbn [bind].
  destruct (c_round_near y ltac:(lra)) as (K0 & KN). set (k := c_round y) in *. assert (K1 : (k <= 1600)%Z) by (apply int_le_half; lra). pose proof (IZR_le _ _ K0) as K0'. pose proof (IZR_le _ _ K1) as K1'.
  destruct (fl_add (IZR k) (IZR k) 0 e5 (1 / 10 ^ 5) _ 1601 (2 / 10 ^ 13) (same0 _) H5 ltac:(rewrite Rabs_pos_eq; lra) ltac:(lra) ltac:(unfold ulp1, tiny; lra)) as (z & -> & Hz). cbn [bind].
  assert (Ez : c_trunc z = k) by (apply Rabs_le_between in Hz; replace z with (IZR k + (z - IZR k)) by ring; apply c_trunc_int; [exact K0|lra]). rewrite Ez. cbv zeta.
  destruct (fl_exact (1 / 100) (1 / 100) (12 / 10 ^ 19) ltac:(rewrite Rabs_pos_eq; lra) ltac:(lra) ltac:(unfold ulp1, tiny; lra)) as (h & -> & Hh). cbn [bind].
  destruct (fl_mul (IZR k) (IZR k) 0 1600 h (1 / 100) _ (1 / 100) (49 / 10 ^ 16) (same0 _) ltac:(rewrite Rabs_pos_eq; lra) Hh ltac:(rewrite Rabs_pos_eq; lra) ltac:(lra) ltac:(unfold ulp1, tiny; lra)) as (x0 & -> & Hx0). cbn [bind].
  assert (D : Rabs (x - IZR k * (1 / 100)) <= 501 / 100000) by (apply Rabs_le_between in Hy; apply Rabs_le; lra).
  destruct (fl_sub x x 0 x0 (IZR k * (1 / 100)) _ _ (5 / 10 ^ 15) (same0 _) Hx0 D ltac:(lra) ltac:(unfold ulp1, tiny; lra)) as (dx & -> & Hdx). cbn [bind].
  destruct (fpretabulate_ok tab0 t0 2 HT HB ltac:(lra)) as (tab' & E' & _ & C). rewrite E in E'. injection E' as <-. rewrite !C by lia. cbn [bind].
  set (N := Z.to_nat n) in *. set (X0 := IZR k * (1 / 100)) in *. assert (P0 : 0 <= X0) by (unfold X0; lra).
  assert (A : forall j, (j <= 4)%nat -> Rabs (fcol (t0 k) j N - bessD j N X0) <= 2 ^ j * (2 / 10 ^ 14 + 3 * ulp1) + 64 * 4 ^ j * ulp1).
  { intros j Hj. rewrite bessD_iter. unfold X0. replace (IZR k * (1 / 100)) with (IZR k / 100) by field. apply (fcol_error (t0 k) (fun m => bessK m (IZR k / 100)) 2); [intros l; apply HB; lia|lra|intros m Hm; apply HA; lia|lia|unfold N; lia|unfold N; lia]. }
  match goal with |- exists v, ?a = Ok v /\ _ => change a with (fl_taylor (fcol (t0 k) 0 N) (fcol (t0 k) 1 N) (fcol (t0 k) 2 N) (fcol (t0 k) 3 N) (fcol (t0 k) 4 N) dx) end.
  destruct (fl_taylor_ok (fcol (t0 k) 0 N) (fcol (t0 k) 1 N) (fcol (t0 k) 2 N) (fcol (t0 k) 3 N) (fcol (t0 k) 4 N) (bessD 0 N X0) (bessD 1 N X0) (bessD 2 N X0) (bessD 3 N X0) (bessD 4 N X0) dx (x - X0)) as (v & Ev & Hv); try assumption.
  - pose proof (bessD_bound 0 N X0 P0) as Q. cbn [pow] in Q. lra.
  - pose proof (bessD_bound 1 N X0 P0) as Q. cbn [pow] in Q. lra.
  - pose proof (bessD_bound 2 N X0 P0) as Q. cbn [pow] in Q. lra.
  - pose proof (bessD_bound 3 N X0 P0) as Q. cbn [pow] in Q. lra.
  - pose proof (bessD_bound 4 N X0 P0) as Q. cbn [pow] in Q. lra.
  - eapply Rle_trans; [apply (A 0%nat ltac:(lia))|]. unfold ulp1. lra.
  - eapply Rle_trans; [apply (A 1%nat ltac:(lia))|]. unfold ulp1. lra.
  - eapply Rle_trans; [apply (A 2%nat ltac:(lia))|]. unfold ulp1. lra.
  - eapply Rle_trans; [apply (A 3%nat ltac:(lia))|]. unfold ulp1. lra.
  - eapply Rle_trans; [apply (A 4%nat ltac:(lia))|]. unfold ulp1. lra.
  - exists v. split; [exact Ev|]. pose proof (bess_taylor N x X0 ltac:(lra) P0) as T.
    assert (Q : rsum 5 (fun k => eterm (x - X0) k * bessD k N X0) = bessD 0 N X0 + bessD 1 N X0 * (x - X0) + bessD 2 N X0 * ((x - X0) * (x - X0)) * (1 / 2) + bessD 3 N X0 * ((x - X0) * (x - X0) * (x - X0)) * (1 / 6) + bessD 4 N X0 * ((x - X0) * (x - X0) * (x - X0) * (x - X0)) * (1 / 24)).
    { cbn [rsum]. unfold eterm. cbn [fact Nat.mul Nat.add pow]. rewrite !INR_IZR_INZ. cbn [Z.of_nat Pos.of_succ_nat Pos.succ]. field. }
    rewrite Q in T. rewrite Rabs_minus_sym in T. eapply Rle_trans; [apply (abs_near v _ _ _ _ Hv T)|].
    assert (R5 : 2 ^ 5 * eterm (Rabs (x - X0)) 5 <= 2 ^ 5 * ((501 / 100000) ^ 5 / 120)).
    { apply Rmult_le_compat_l; [apply pow_le; lra|]. unfold eterm. replace (INR (fact 5)) with 120 by (rewrite INR_IZR_INZ; reflexivity). apply Rmult_le_compat_r; [lra|]. apply pow_incr. split; [apply Rabs_pos|exact D]. }
    lra.
Qed.
