(** * For which orders the large-argument formula is accurate *)

From Coq Require Import ZArith List Bool Lia Reals Lra Factorial.
From Coquelicot Require Import Coquelicot.
From Verif Require Import Base OneElProofs SpecModel SpecExp SpecSpec SpecBoys BoysThms BesselProofs BesselAsym BesselThms.
Import ListNotations.
Open Scope R_scope.

(** y^n R_n(y) for an integer y *)
Fixpoint rpair (y : Z) (n : nat) : Z * Z := match n with O => (1, y + 1)%Z | S n => let '(a, b) := rpair y n in (b, y * y * a + (2 * Z.of_nat n + 3) * b)%Z end.

Lemma rpair_ok y n : y <> 0%Z -> IZR (fst (rpair y n)) = IZR y ^ n * rfun n (IZR y) /\ IZR (snd (rpair y n)) = IZR y ^ S n * rfun (S n) (IZR y).
Proof.
  intros Hy. assert (Hy' : IZR y <> 0) by (apply not_0_IZR, Hy). induction n as [|n IH].
  - cbn [rpair fst snd pow]. rewrite rfun_0, rfun_1 by exact Hy'. rewrite plus_IZR. split; [ring|field; exact Hy'].
  - cbn [rpair]. destruct (rpair y n) as [a b]. cbn [fst snd] in *. destruct IH as (IH1 & IH2). split; [exact IH2|]. rewrite plus_IZR, !mult_IZR, plus_IZR, mult_IZR, <- INR_IZR_INZ, IH1, IH2, rfun_rec by exact Hy'. cbn [pow]. field. exact Hy'.
Qed.

Lemma rfun_Z y n : y <> 0%Z -> rfun n (IZR y) = IZR (fst (rpair y n)) / IZR y ^ n.
Proof. intros Hy. destruct (rpair_ok y n Hy) as (-> & _). assert (IZR y <> 0) by (apply not_0_IZR, Hy). field. apply pow_nonzero. assumption. Qed.

Lemma rfun_mono n x y : 0 < x <= y -> rfun n y <= rfun n x.
Proof.
  intros H. rewrite (rfun_sum n x (S n)), (rfun_sum n y (S n)) by lia. induction (S n) as [|N IH]; cbn [rsum]; [lra|]. apply Rplus_le_compat; [exact IH|]. apply Rmult_le_compat_l; [apply rcoef_pos|]. apply Rinv_le_contravar; [apply pow_lt; lra|apply pow_incr; lra].
Qed.

Lemma rfun_20 n x : (n <= 20)%nat -> 16 <= x -> rfun n x <= 112000.
Proof.
  intros Hn Hx. eapply Rle_trans; [apply (rfun_mono n 16 x); lra|]. rewrite (rfun_Z 16 n) by lia. change (IZR 16) with 16.
  assert (C : forallb (fun n => (fst (rpair 16 n) <=? 112000 * 16 ^ Z.of_nat n)%Z) (seq 0 21) = true) by (vm_compute; reflexivity). rewrite forallb_forall in C. specialize (C n ltac:(apply in_seq; lia)). apply Z.leb_le, IZR_le in C.
  rewrite mult_IZR, <- pow_IZR in C. assert (P : 0 < 16 ^ n) by (apply pow_lt; lra). apply Rmult_le_reg_r with (16 ^ n); [exact P|]. unfold Rdiv. rewrite Rmult_assoc, Rinv_l by lra. lra.
Qed.

Lemma exp_32 x : 16 < x -> exp (- (2 * x)) <= 13 / 10 ^ 15.
Proof.
  intros Hx. apply Rle_trans with (exp (- (32))); [apply exp_le; lra|]. rewrite exp_Ropp.
  assert (E1 : 27182 / 10000 <= exp 1).
  { pose proof (erem_nonneg 9 1 ltac:(lra)) as H. unfold erem in H. cbn [rsum] in H. unfold eterm in H. rewrite !INR_IZR_INZ in H. cbn [pow] in H.
    replace (Z.of_nat (fact 0)) with 1%Z in H by reflexivity. replace (Z.of_nat (fact 1)) with 1%Z in H by reflexivity. replace (Z.of_nat (fact 2)) with 2%Z in H by reflexivity. replace (Z.of_nat (fact 3)) with 6%Z in H by reflexivity.
    replace (Z.of_nat (fact 4)) with 24%Z in H by reflexivity. replace (Z.of_nat (fact 5)) with 120%Z in H by reflexivity. replace (Z.of_nat (fact 6)) with 720%Z in H by reflexivity. replace (Z.of_nat (fact 7)) with 5040%Z in H by reflexivity. replace (Z.of_nat (fact 8)) with 40320%Z in H by (vm_compute; reflexivity). lra. }
  assert (E2 : exp 32 = exp 1 ^ 32) by (replace 32 with (INR 32) by (rewrite INR_IZR_INZ; reflexivity); apply exp_of_nat).
  assert (E3 : (27182 / 10000) ^ 32 <= exp 32) by (rewrite E2; apply pow_incr; lra).
  apply Rle_trans with (/ (27182 / 10000) ^ 32); [apply Rinv_le_contravar; [apply pow_lt; lra|exact E3]|]. lra.
Qed.

Lemma bessel_large_20 tab n x : (0 <= n <= 20)%Z -> 16 < x -> exists v, modified_bessel_scaled tab n x = Ok v /\ Rabs (v - bessK (Z.to_nat n) x) <= 5 / 10 ^ 11.
Proof.
  intros Hn Hx. destruct (bessel_large tab n x ltac:(lia) Hx) as (v & E & B). exists v. split; [exact E|]. set (N := Z.to_nat n) in *. pose proof (rfun_20 N x ltac:(lia) ltac:(lra)) as R. pose proof (rfun_nonneg N x ltac:(lra)) as R0. pose proof (exp_32 x Hx) as Ex. pose proof (exp_pos (- (2 * x))) as E0.
  set (t := (-1) ^ N * rfun N x * exp (- (2 * x)) / (2 * x)) in *.
  assert (I : / (2 * x) <= / 32) by (apply Rinv_le_contravar; lra). assert (I0 : 0 < / (2 * x)) by (apply Rinv_0_lt_compat; lra).
  assert (T : Rabs t <= 112000 * (13 / 10 ^ 15) * / 32).
  { unfold t, Rdiv. rewrite Rabs_mult, (Rabs_pos_eq (/ (2 * x))) by lra. apply Rmult_le_compat; [apply Rabs_pos|lra| |exact I]. rewrite Rabs_mult, (Rabs_pos_eq (exp _)) by lra. apply Rmult_le_compat; [apply Rabs_pos|lra| |unfold Rdiv in Ex; exact Ex].
    rewrite Rabs_mult, neg_pow_abs, Rmult_1_l, (Rabs_pos_eq _ R0). exact R. }
  assert (Q : 15 / 10 ^ 17 * rfun N x / (2 * x) <= 15 / 10 ^ 17 * 112000 * / 32) by (unfold Rdiv at 1; apply Rmult_le_compat; try lra; apply Rmult_le_pos; lra).
  replace (v - bessK N x) with ((v - (bessK N x + t)) + t) by ring. eapply Rle_trans; [apply Rabs_triang|]. eapply Rle_trans; [apply Rplus_le_compat; [eapply Rle_trans; [exact B|exact Q]|exact T]|]. lra.
Qed.

(** far beyond the supported angular momenta the value is meaningless *)
Lemma bessel_large_wrong tab : exists n x v, (0 <= n < 50)%Z /\ 16 < x /\ modified_bessel_scaled tab n x = Ok v /\ 0 <= bessK (Z.to_nat n) x <= 1 /\ 2 < v.
Proof.
  exists 42%Z, 17. destruct (bessel_large tab 42 17 ltac:(lia) ltac:(lra)) as (v & E & B). exists v. split; [lia|]. split; [lra|]. split; [exact E|]. split; [apply bessK_bounds; lra|].
  change (Z.to_nat 42) with 42%nat in B. rewrite bessK_closed in B by lra. replace (Ropp 17) with (IZR (-17)) in B by lra.
  replace ((rfun 42 (-17) - (-1) ^ 42 * rfun 42 17 * exp (- (2 * 17))) / (2 * 17) + (-1) ^ 42 * rfun 42 17 * exp (- (2 * 17)) / (2 * 17)) with (rfun 42 (-17) / 34) in B by (field; lra).
  assert (A1 : 800 <= rfun 42 (-17)).
  { rewrite (rfun_Z (-17) 42) by lia. rewrite pow_IZR. assert (C : (800 * (-17) ^ 42 <= fst (rpair (-17) 42))%Z) by (vm_compute; discriminate). apply IZR_le in C. rewrite !mult_IZR in C.
    change (Z.of_nat 42) with 42%Z. assert (P : 0 < IZR ((-17) ^ 42)) by (apply IZR_lt; vm_compute; reflexivity). apply Rmult_le_reg_r with (IZR ((-17) ^ 42)); [exact P|]. unfold Rdiv. rewrite Rmult_assoc, Rinv_l by lra. lra. }
  assert (A2 : rfun 42 17 <= 5 * 10 ^ 17).
  { rewrite (rfun_Z 17 42) by lia. rewrite !pow_IZR. assert (C : (fst (rpair 17 42) <= 5 * 10 ^ 17 * 17 ^ 42)%Z) by (vm_compute; discriminate). apply IZR_le in C. rewrite !mult_IZR in C.
    change (Z.of_nat 42) with 42%Z. change (Z.of_nat 17) with 17%Z. assert (P : 0 < IZR (17 ^ 42)) by (apply IZR_lt; vm_compute; reflexivity). apply Rmult_le_reg_r with (IZR (17 ^ 42)); [exact P|]. unfold Rdiv. rewrite Rmult_assoc, Rinv_l by lra. lra. }
  apply Rabs_le_between in B. lra.
Qed.

Lemma bessel_all tab0 t0 eps tab : holds_table0 tab0 t0 -> accurate_table0 t0 eps -> pretabulate_bessel tab0 bessel_table_init = Ok tab ->
  forall n x, (0 <= n <= 20)%Z -> 0 <= x -> exists v, modified_bessel_scaled tab n x = Ok v /\ Rabs (v - bessK (Z.to_nat n) x) <= eps * (102 / 100) + 5 / 10 ^ 11.
Proof.
  intros HT HA E n x Hn Hx. assert (E0 : 0 <= eps) by (eapply Rle_trans; [apply Rabs_pos|apply (HA 0%Z O); lia]). destruct (Rle_dec x 16) as [L|G].
  - destruct (bessel_lookup tab0 t0 eps tab HT HA E n x ltac:(lia) ltac:(lra)) as (v & Ev & B). exists v. split; [exact Ev|]. eapply Rle_trans; [exact B|]. lra.
  - destruct (bessel_large_20 tab n x Hn ltac:(lra)) as (v & Ev & B). exists v. split; [exact Ev|]. lra.
Qed.

(** the exact table *)
Definition exact_tab0 : arr R := mkArr [1601; 60]%Z (fun ix => match ix with [i; l] => Some (bessK (Z.to_nat l) (IZR i / 100)) | _ => None end).
Lemma exact_holds : holds_table0 exact_tab0 (fun i l => bessK l (IZR i / 100)).
Proof. intros i l Hi Hl. unfold aget, exact_tab0. cbn [adims acell]. replace (inb _ _) with true by (symmetry; apply inb2; lia). reflexivity. Qed.
Lemma exact_accurate : accurate_table0 (fun i l => bessK l (IZR i / 100)) 0.
Proof. intros i l _ _. unfold Rminus. rewrite Rplus_opp_r, Rabs_R0. lra. Qed.
