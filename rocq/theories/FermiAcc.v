(** * Accuracy of the tabulated function S_k(x) *)

From Coq Require Import ZArith List Bool Lia Reals Lra.
From Coquelicot Require Import Coquelicot.
From Verif Require Import Base SpecModel FermiTable FermiSkModel OneElProofs SpecExp BoysCert BoysThms FermiSk NucPotSpec NucPot FermiTaylor FermiCert FermiSound.
Import ListNotations.
Open Scope R_scope.

Lemma exp_m28 : exp (-28) <= 1 / 10 ^ 11.
Proof.
  destruct (epow_ok 280) as ((_ & H) & _). assert (C : (snd (epow 280) <=? 100000000000000000000)%Z = true) by (vm_compute; reflexivity). apply Z.leb_le, IZR_le in C.
  replace (- (INR 280 / 10)) with (-28) in H by (rewrite INR_IZR_INZ; replace (Z.of_nat 280) with 280%Z by reflexivity; field). unfold sM in H. lra.
Qed.

Lemma exp_le x y : x <= y -> exp x <= exp y.
Proof. intros [H | ->]; [left; apply exp_increasing; exact H|lra]. Qed.

(** one entry *)
Lemma fermi_get i m : (0 <= i <= 2000)%Z -> ((if (i <? 2000)%Z then 1 else 4) <= m < 10)%Z ->
  exists v, aget fermi_table [i; m]%Z = Ok v /\ Rabs (v - G (Z.to_nat m + 3) (-10 + IZR i / 200)) <= 23 / 10 ^ 13 * exp (-10 + IZR i / 200).
Proof.
  intros Hi Hm. assert (Hm' : (0 <= m < 10)%Z) by (destruct (i <? 2000)%Z; lia). eexists. split.
  - unfold aget, fermi_table, table2. cbn [adims acell]. replace (inb _ _) with true by (symmetry; apply inb2; lia). reflexivity.
  - pose proof (fermi_table_accurate (Z.to_nat i) (Z.to_nat m) ltac:(lia)) as F. rewrite INR_IZR_INZ, Z2Nat.id in F by lia. apply F.
    destruct (Z.ltb_spec i 2000) as [L | L]; destruct (Nat.ltb_spec (Z.to_nat i) 2000) as [L2 | L2]; lia.
Qed.

Lemma fermi_oob i m : (2000 < i)%Z -> aget fermi_table [i; m]%Z = Fail OutOfBounds.
Proof.
  intros Hi. unfold aget, fermi_table, table2. cbn [adims acell]. destruct (inb [2001; 10]%Z [i; m]) eqn:E; [|reflexivity]. exfalso. cbn [inb] in E. rewrite !andb_true_iff in E. lia.
Qed.

(** the row used for an argument above -10 *)
Lemma grid_row x : -10 < x -> exists i, c_trunc (IZR (Int_part ((x + 10) * 200)) + 1 / 10 ^ 10) = i /\ (0 <= i)%Z /\ IZR i <= (x + 10) * 200 < IZR i + 1.
Proof.
  intros H. exists (Int_part ((x + 10) * 200)). assert (P : (0 <= Int_part ((x + 10) * 200))%Z) by (apply int_part_nonneg; lra).
  split; [apply c_trunc_int; [exact P|lra]|]. split; [exact P|]. destruct (base_Int_part ((x + 10) * 200)). lra.
Qed.

Lemma tail_case (N k : nat) x : x <= 0 -> exp (INR N * x) <= 1 / 10 ^ 11 -> Rabs (first_terms N k x - Sx k x) <= 3 / 10 ^ 11 * exp x.
Proof.
  intros Hx HN. rewrite Rabs_minus_sym. eapply Rle_trans; [apply first_terms_close; exact Hx|]. rewrite S_INR at 1. replace ((INR N + 1) * x) with (INR N * x + x) by ring. rewrite exp_plus.
  assert (D : 1 <= INR (S N) ^ k) by (apply pow_R1_Rle; change 1 with (INR 1); apply le_INR; lia). pose proof (exp_pos x). pose proof (exp_pos (INR N * x)).
  apply Rle_div_l; [lra|]. apply Rle_trans with (1 / 10 ^ 11 * exp x); [apply Rmult_le_compat_r; lra|]. nra.
Qed.

Lemma sk_accurate_Sx k x : (2 <= k <= 7)%Z -> x <= 0 -> exists v, specfunc_fermi_sk k x = Ok v /\ Rabs (v - Sx (Z.to_nat k) x) <= 3 / 10 ^ 11 * exp x.
Proof.
  intros Hk Hx. unfold specfunc_fermi_sk. replace ((2 <=? k)%Z && (k <=? 7)%Z) with true by (symmetry; apply andb_true_iff; split; apply Z.leb_le; lia). cbn [massert bind]. pose proof exp_m28 as E28.
  destruct (Rle_dec x (-30)) as [T1 | T1].
  { eexists. split; [reflexivity|]. replace (-1 * exp x) with (first_terms 1 (Z.to_nat k) x); [|cbn [first_terms INR pow]; rewrite !pow1, !Rmult_1_l; field].
    apply tail_case; [exact Hx|]. apply Rle_trans with (2 := E28). apply exp_le. cbn [INR]. lra. }
  destruct (Rle_dec x (-14)) as [T2 | T2].
  { eexists. split; [reflexivity|]. replace (-1 * exp x + 1 * exp (2 * x) / 2 ^ Z.to_nat k) with (first_terms 2 (Z.to_nat k) x).
    - apply tail_case; [exact Hx|]. apply Rle_trans with (2 := E28). apply exp_le. cbn [INR]. lra.
    - cbn [first_terms]. rewrite !INR_IZR_INZ. cbn [Z.of_nat Pos.of_succ_nat Pos.succ pow]. rewrite !pow1, !Rmult_1_l. field. apply pow_nonzero. lra. }
  destruct (Rle_dec x (-10)) as [T3 | T3].
  { eexists. split; [reflexivity|]. replace (-1 * exp x + 1 * exp (2 * x) / 2 ^ Z.to_nat k + -1 * exp (3 * x) / 3 ^ Z.to_nat k) with (first_terms 3 (Z.to_nat k) x).
    - apply tail_case; [exact Hx|]. apply Rle_trans with (2 := E28). apply exp_le. cbn [INR]. lra.
    - cbn [first_terms]. rewrite !INR_IZR_INZ. cbn [Z.of_nat Pos.of_succ_nat Pos.succ pow]. rewrite !pow1, !Rmult_1_l. field. split; apply pow_nonzero; lra. }
  cbv zeta. destruct (grid_row x ltac:(lra)) as (i & -> & Hi & Hr). assert (Hi2 : (i <= 2000)%Z) by (apply le_IZR; lra). pose proof (exp_pos x).
  destruct (Z.eqb_spec i 2000) as [-> | Ni].
  - assert (x = 0) by lra. subst x. destruct (fermi_get 2000 (k + 2) ltac:(lia) ltac:(cbn; lia)) as (v & -> & B). exists v. split; [reflexivity|].
    replace (Z.to_nat (k + 2) + 3)%nat with (5 + Z.to_nat k)%nat in B by lia. replace (-10 + 2000 / 200) with 0 in B by field. cbn [Nat.add G] in B. lra.
  - assert (Hlt : (i <? 2000)%Z = true) by (apply Z.ltb_lt; lia).
    destruct (fermi_get i (k + 2) ltac:(lia) ltac:(rewrite Hlt; lia)) as (d0 & -> & B0). destruct (fermi_get i (k + 1) ltac:(lia) ltac:(rewrite Hlt; lia)) as (d1 & -> & B1).
    destruct (fermi_get i (k + 0) ltac:(lia) ltac:(rewrite Hlt; lia)) as (d2 & -> & B2). destruct (fermi_get i (k - 1) ltac:(lia) ltac:(rewrite Hlt; lia)) as (d3 & -> & B3).
    cbn [bind]. eexists. split; [reflexivity|].
    set (n := Z.to_nat k) in *. assert (Hn : (2 <= n)%nat) by (unfold n; lia).
    replace (Z.to_nat (k + 2) + 3)%nat with (5 + n)%nat in B0 by lia. replace (Z.to_nat (k + 1) + 3)%nat with (4 + n)%nat in B1 by lia. replace (Z.to_nat (k + 0) + 3)%nat with (3 + n)%nat in B2 by lia. replace (Z.to_nat (k - 1) + 3)%nat with (2 + n)%nat in B3 by lia.
    replace (-10 + IZR i * (5 / 1000)) with (-10 + IZR i / 200) by field. set (x0 := -10 + IZR i / 200) in *. set (y := x - x0).
    assert (Hy : 0 <= y <= / 200) by (unfold y, x0; lra). assert (Ex : x = x0 + y) by (unfold y; ring).
    pose proof (tay_bound 4 (5 + n) x0 y (exp x) ltac:(lia) ltac:(lra)) as T.
    assert (T' : Rabs (G (5 + n) (x0 + y) - tay 4 (5 + n) x0 y) <= exp x * eterm y 4).
    { apply T. intros s Hs. eapply Rle_trans; [apply G_bound_high; [lra|lia]|]. apply exp_le. lra. }
    clear T. change (G (5 + n)) with (Sx n) in T' at 1. rewrite <- Ex in T'.
    assert (E4 : eterm y 4 <= 261 / 10 ^ 13). { unfold eterm. replace (INR (Factorial.fact 4)) with 24 by (rewrite INR_IZR_INZ; reflexivity). assert (y ^ 4 <= (/ 200) ^ 4) by (apply pow_incr; lra). lra. }
    assert (T2' : exp x * eterm y 4 <= exp x * (261 / 10 ^ 13)) by (apply Rmult_le_compat_l; lra).
    assert (Et : tay 4 (5 + n) x0 y = G (5 + n) x0 + G (4 + n) x0 * y + G (3 + n) x0 * (y * y) * (1 / 2) + G (2 + n) x0 * (y * y * y) * (1 / 6)).
    { unfold tay. cbn [rsum]. replace (5 + n - 0)%nat with (5 + n)%nat by lia. replace (5 + n - 1)%nat with (4 + n)%nat by lia. replace (5 + n - 2)%nat with (3 + n)%nat by lia. replace (5 + n - 3)%nat with (2 + n)%nat by lia.
      unfold eterm. cbn [pow Factorial.fact Nat.mul Nat.add]. rewrite !INR_IZR_INZ. cbn [Z.of_nat Pos.of_succ_nat Pos.succ]. field. }
    rewrite Et in T'. assert (E0 : exp x0 <= exp x) by (apply exp_le; lra). set (t := 23 / 10 ^ 13 * exp x0) in *. assert (Ht : 0 <= t <= 23 / 10 ^ 13 * exp x) by (pose proof (exp_pos x0); unfold t; lra).
    assert (W : forall d g p b, Rabs (d - g) <= t -> 0 <= p <= b -> Rabs (d * p - g * p) <= t * b).
    { intros d g p b H1 H2. rewrite <- Rmult_minus_distr_r, Rabs_mult, (Rabs_pos_eq p) by lra. apply Rmult_le_compat; try lra. apply Rabs_pos. }
    pose proof (W _ _ y (/ 200) B1 ltac:(lra)) as W1. pose proof (W _ _ (y * y) 1 B2 ltac:(nra)) as W2. pose proof (W _ _ (y * y * y) 1 B3 ltac:(assert (0 <= y * y <= 1) by nra; nra)) as W3.
    apply Rabs_le_between in B0, W1, W2, W3, T'. apply Rabs_le. lra.
Qed.

(** ** The theorems *)
Lemma Sx_lower k x : (2 <= k)%nat -> x <= 0 -> 3 / 4 * exp x <= - Sx k x <= 5 / 4 * exp x.
Proof.
  intros Hk Hx. pose proof (first_terms_close 1 k x Hx) as H. cbn [first_terms] in H. rewrite !INR_IZR_INZ in H. cbn [Z.of_nat Pos.of_succ_nat Pos.succ pow] in H.
  rewrite !pow1, !Rmult_1_l in H. replace (0 + -1 * 1 * exp x / 1) with (- exp x) in H by field. replace (2 * x) with (x + x) in H by ring. rewrite exp_plus in H.
  assert (D : 4 <= 2 ^ k) by (replace 4 with (2 ^ 2) by ring; apply Rle_pow; [lra|lia]). pose proof (exp_pos x). assert (exp x <= 1) by (rewrite <- exp_0; apply exp_le; exact Hx).
  assert (exp x * exp x / 2 ^ k <= exp x / 4). { apply Rle_div_l; [lra|]. nra. }
  apply Rabs_le_between in H. lra.
Qed.

Lemma sk_accuracy_thm : forall Sk k x, fermi_series Sk -> (2 <= k <= 7)%Z -> x <= 0 ->
  exists v, specfunc_fermi_sk k x = Ok v /\ Rabs (v - Sk k x) <= 3 / 10 ^ 11 * exp x /\ Rabs (v - Sk k x) <= 4 / 10 ^ 11 * Rabs (Sk k x).
Proof.
  intros Sk k x HS Hk Hx. rewrite (Sk_Sx Sk HS k x Hk Hx). destruct (sk_accurate_Sx k x Hk Hx) as (v & E & B). exists v. split; [exact E|]. split; [exact B|].
  pose proof (Sx_lower (Z.to_nat k) x ltac:(lia) Hx) as L. pose proof (exp_pos x). rewrite (Rabs_left (Sx _ _)) by lra. lra.
Qed.

Lemma sk_orders_thm : forall k x, (k < 2 \/ 7 < k)%Z -> specfunc_fermi_sk k x = Fail AssertFailed.
Proof.
  intros k x H. unfold specfunc_fermi_sk. replace ((2 <=? k)%Z && (k <=? 7)%Z) with false; [reflexivity|]. symmetry. apply andb_false_iff. destruct H; [left|right]; apply Z.leb_gt; lia.
Qed.

Lemma sk_positive_thm : forall k x, (2 <= k <= 7)%Z -> 0 <= x ->
  (x < 1 / 200 -> specfunc_fermi_sk k x = specfunc_fermi_sk k 0) /\ (1 / 200 <= x -> specfunc_fermi_sk k x = Fail OutOfBounds).
Proof.
  assert (At : forall k x i, (2 <= k <= 7)%Z -> 0 <= x -> IZR i <= (x + 10) * 200 < IZR i + 1 -> (2000 <= i)%Z ->
    specfunc_fermi_sk k x = if (i =? 2000)%Z then aget fermi_table [2000; k + 2]%Z else Fail OutOfBounds).
  { intros k x i Hk Hx Hi Hi2. unfold specfunc_fermi_sk. replace ((2 <=? k)%Z && (k <=? 7)%Z) with true by (symmetry; apply andb_true_iff; split; apply Z.leb_le; lia). cbn [massert bind].
    destruct (Rle_dec x (-30)); [lra|]. destruct (Rle_dec x (-14)); [lra|]. destruct (Rle_dec x (-10)); [lra|]. cbv zeta. destruct (grid_row x ltac:(lra)) as (j & -> & Hj & Hr).
    assert (j = i). { assert (j < i + 1)%Z by (apply lt_IZR; rewrite plus_IZR; lra). assert (i < j + 1)%Z by (apply lt_IZR; rewrite plus_IZR; lra). lia. } subst j.
    destruct (Z.eqb_spec i 2000) as [-> | Ni]; [reflexivity|]. rewrite fermi_oob by lia. reflexivity. }
  intros k x Hk Hx. split; intros H.
  - rewrite (At k x 2000%Z), (At k 0 2000%Z) by (try lia; try lra; split; lra). reflexivity.
  - destruct (grid_row x ltac:(lra)) as (j & _ & _ & Hr). assert (2000 < j + 1)%Z by (apply lt_IZR; rewrite plus_IZR; lra).
    assert (Hj : (2001 < j + 1)%Z) by (apply lt_IZR; rewrite plus_IZR; lra).
    rewrite (At k x j Hk Hx Hr ltac:(lia)). destruct (Z.eqb_spec j 2000); [lia|reflexivity].
Qed.

Lemma sk_documented_refuted : forall Sk, fermi_series Sk -> exists x v, -10 < x < 0 /\ specfunc_fermi_sk 7 x = Ok v /\ 2 / 10 ^ 11 < Rabs (v - Sk 7%Z x).
Proof.
  intros Sk HS. exists (-1 / 100000). set (x := -1 / 100000). assert (Hx : x = -1 / 100000) by reflexivity. clearbody x.
  unfold specfunc_fermi_sk. cbn [Z.leb Z.compare Pos.compare Pos.compare_cont andb massert bind].
  destruct (Rle_dec x (-30)); [lra|]. destruct (Rle_dec x (-14)); [lra|]. destruct (Rle_dec x (-10)); [lra|]. cbv zeta. destruct (grid_row x ltac:(lra)) as (j & -> & Hj & Hr).
  assert (j = 1999%Z). { assert (j < 1999 + 1)%Z by (apply lt_IZR; rewrite plus_IZR; lra). assert (1999 < j + 1)%Z by (apply lt_IZR; rewrite plus_IZR; lra). lia. } subst j.
  cbn [Z.eqb Pos.eqb].
  assert (V3 : G 8 (-10 + 1999 / 200) <= - (89 / 100)).
  { pose proof (fermi_table_accurate 1999 5 ltac:(lia) ltac:(cbn; lia)) as F. rewrite INR_IZR_INZ in F. replace (Z.of_nat 1999) with 1999%Z in F by reflexivity. cbn [Nat.add] in F.
    assert (C : (nth 5 (nth 1999 fermi_rows []) 0 <=? - 891000000000000000000)%Z = true) by (vm_compute; reflexivity). apply Z.leb_le, IZR_le in C.
    set (e := IZR (nth 5 (nth 1999 fermi_rows []) 0%Z)) in *. assert (exp (-10 + 1999 / 200) <= 1) by (rewrite <- exp_0; apply exp_le; lra). apply Rabs_le_between in F. lra. }
  destruct (fermi_get 1999 (7 + 2) ltac:(lia) ltac:(cbn; lia)) as (d0 & -> & B0). destruct (fermi_get 1999 (7 + 1) ltac:(lia) ltac:(cbn; lia)) as (d1 & -> & B1).
  destruct (fermi_get 1999 (7 + 0) ltac:(lia) ltac:(cbn; lia)) as (d2 & -> & B2). destruct (fermi_get 1999 (7 - 1) ltac:(lia) ltac:(cbn; lia)) as (d3 & -> & B3).
  cbn [bind]. eexists. split; [lra|]. split; [reflexivity|]. rewrite (Sk_Sx Sk HS 7%Z x ltac:(lia) ltac:(lra)).
  change (Z.to_nat 7) with 7%nat. change (Z.to_nat (7 + 2) + 3)%nat with 12%nat in B0. change (Z.to_nat (7 + 1) + 3)%nat with 11%nat in B1. change (Z.to_nat (7 + 0) + 3)%nat with 10%nat in B2. change (Z.to_nat (7 - 1) + 3)%nat with 9%nat in B3.
  replace (-10 + 1999 * (5 / 1000)) with (-10 + 1999 / 200) by field. set (x0 := -10 + 1999 / 200) in *. set (y := x - x0).
  assert (Hy : y = 499 / 100000) by (unfold y, x0; rewrite Hx; field). assert (Ex : x = x0 + y) by (unfold y; ring).
  pose proof (tay_bound 5 12 x0 y 1 ltac:(lia) ltac:(lra)) as T.
  assert (T' : Rabs (G 12 (x0 + y) - tay 5 12 x0 y) <= 1 * eterm y 5).
  { apply T. intros s Hs. eapply Rle_trans; [apply G_bound_high; [lra|lia]|]. rewrite <- exp_0. apply exp_le. lra. }
  clear T. rewrite <- Ex in T'. change (G 12 x) with (Sx 7 x) in T'.
  assert (Et : tay 5 12 x0 y = G 12 x0 + G 11 x0 * y + G 10 x0 * (y * y) * (1 / 2) + G 9 x0 * (y * y * y) * (1 / 6) + G 8 x0 * (y * y * y * y / 24)).
  { unfold tay. cbn [rsum Nat.sub]. unfold eterm. cbn [pow Factorial.fact Nat.mul Nat.add]. rewrite !INR_IZR_INZ. cbn [Z.of_nat Pos.of_succ_nat Pos.succ]. field. }
  rewrite Et in T'. assert (E5 : 1 * eterm y 5 <= 1 / 10 ^ 13) by (unfold eterm; replace (INR (Factorial.fact 5)) with 120 by (rewrite INR_IZR_INZ; reflexivity); rewrite Hy; lra).
  set (t := 23 / 10 ^ 13 * exp x0) in *. assert (Ht : 0 <= t <= 23 / 10 ^ 13) by (pose proof (exp_pos x0); assert (exp x0 <= 1) by (rewrite <- exp_0; apply exp_le; unfold x0; lra); unfold t; lra).
  clearbody t. set (g12 := G 12 x0) in *. set (g11 := G 11 x0) in *. set (g10 := G 10 x0) in *. set (g9 := G 9 x0) in *. set (g8 := G 8 x0) in *. set (sv := Sx 7 x) in *. clearbody g12 g11 g10 g9 g8 sv.
  clearbody y. subst y. apply Rabs_le_between in B0, B1, B2, B3, T'. eapply Rlt_le_trans; [|apply Rle_abs]. lra.
Qed.
