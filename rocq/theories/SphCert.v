(** * Non-zero coefficients of the real spherical harmonics are not small *)

From Coq Require Import ZArith Reals Lra Lia List Bool.
From Verif Require Import Base BinomModel BinomProofs OneElProofs SphPoly SphProofs.
Import ListNotations.
Open Scope Z_scope.

(** factorials by table *)
Fixpoint ftab (n : nat) (i f : Z) : list Z := match n with O => [] | S n' => f :: ftab n' (i + 1) (f * (i + 1)) end.
Lemma ftab_nth n : forall i k d, (k < n)%nat -> nth k (ftab n (Z.of_nat i) (factz i)) d = factz (i + k).
Proof.
  induction n as [|n IH]; intros i k d Hk; [lia|]. cbn [ftab]. destruct k as [|k]; cbn [nth]; [rewrite Nat.add_0_r; reflexivity|].
  replace (Z.of_nat i + 1) with (Z.of_nat (S i)) by lia. replace (factz i * Z.of_nat (S i)) with (factz (S i)) by (change (factz (S i)) with (Z.of_nat (S i) * factz i); ring).
  rewrite IH by lia. f_equal. lia.
Qed.
Definition ft (t : list Z) (k : nat) : Z := nth k t 1.
Definition bz (t : list Z) (n k : nat) : Z := ft t n / (ft t k * ft t (n - k)).

Fixpoint zs (n : nat) (f : nat -> Z) : Z := match n with O => 0 | S n' => zs n' f + f n' end.
Definition ccz (t : list Z) (l n i : nat) : Z := bz t l i * (if Nat.even i then 1 else -1) * (ft t (2 * l - 2 * i) / ft t (n - 2 * i)).
Definition hcz (t : list Z) (l n j : nat) : Z := zs (S (Nat.div2 n) - j) (fun q => ccz t l n (j + q) * bz t (j + q) j).

Definition cert1 (t : list Z) (l mu j : nat) : bool :=
  16 * (ft t (l + mu) * (2 ^ Z.of_nat l * ft t l) ^ 2) <=? 100 * (hcz t l (l - mu) j ^ 2 * ((2 * Z.of_nat l + 1) * ft t (l - mu))).
Fixpoint allb (n : nat) (f : nat -> bool) : bool := match n with O => true | S n' => f n' && allb n' f end.
Definition cert (t : list Z) : bool := allb 21 (fun l => allb (S l) (fun mu => allb (S (Nat.div2 (l - mu))) (fun j => cert1 t l mu j))).

Lemma allb_all n f : allb n f = true -> forall k, (k < n)%nat -> f k = true.
Proof.
  induction n as [|n IH]; intros H k Hk; [lia|]. cbn [allb] in H. apply andb_prop in H. destruct H as (H1 & H2).
  destruct (Nat.eq_dec k n) as [-> | Hn]; [exact H1|]. apply IH; [exact H2|lia].
Qed.

Lemma cert_ok : cert (ftab 41 0 1) = true.
Proof. vm_compute. reflexivity. Qed.

Lemma ft_ok k : (k <= 40)%nat -> ft (ftab 41 0 1) k = factz k.
Proof. intros H. exact (ftab_nth 41 0 k 1 ltac:(lia)). Qed.

Lemma bz_ok n k : (k <= n <= 40)%nat -> bz (ftab 41 0 1) n k = choose n k.
Proof.
  intros H. unfold bz. rewrite !ft_ok by lia. rewrite <- (choose_fact n k) by lia. rewrite <- Z.mul_assoc. apply Z.div_mul.
  pose proof (factz_pos k). pose proof (factz_pos (n - k)). nia.
Qed.

(** factorials divide one another *)
Lemma factz_div a : forall b, (b <= a)%nat -> IZR (factz a / factz b) = (INR (fact a) / INR (fact b))%R.
Proof.
  intros b H. assert (D : (factz b | factz a)).
  { exists (choose a b * factz (a - b)). rewrite <- (choose_fact a b H). ring. }
  destruct D as (q & E). pose proof (factz_pos b). rewrite E, Z.div_mul by lia. rewrite <- !factz_fact, E, mult_IZR. field. apply IZR_neq. lia.
Qed.

Lemma ccz_ok l n i : (n <= l <= 20)%nat -> (2 * i <= n)%nat -> IZR (ccz (ftab 41 0 1) l n i) = ccf l n i.
Proof.
  intros Hl Hi. unfold ccz, ccf. rewrite bz_ok by lia. rewrite !ft_ok by lia. rewrite !mult_IZR, factz_div by lia. unfold ch. f_equal. f_equal.
  destruct (Nat.Even_or_Odd i) as [E|E].
  - rewrite (proj2 (Nat.even_spec i) E). destruct E as (q & ->). rewrite pow_1_even. reflexivity.
  - assert (Nat.even i = false) as -> by (rewrite <- Nat.negb_odd, (proj2 (Nat.odd_spec i) E); reflexivity). destruct E as (q & ->). rewrite Nat.add_1_r, pow_1_odd. reflexivity.
Qed.

Lemma zs_rsum n f : IZR (zs n f) = rsum n (fun k => IZR (f k)).
Proof. induction n as [|n IH]; [reflexivity|]. cbn [zs rsum]. rewrite plus_IZR, IH. reflexivity. Qed.

Lemma hcz_ok l n j : (n <= l <= 20)%nat -> (2 * j <= n)%nat -> IZR (hcz (ftab 41 0 1) l n j) = hcf l n j.
Proof.
  intros Hl Hj. unfold hcz, hcf. rewrite zs_rsum. apply rsum_ext. intros q Hq.
  assert (Hh : (2 * Nat.div2 n <= n)%nat) by (pose proof (Nat.div2_odd n); destruct (Nat.odd n); cbn [Nat.b2n] in *; lia).
  rewrite mult_IZR, ccz_ok, bz_ok by lia. reflexivity.
Qed.

(** bcf are integers *)
Lemma ipow_int n : exists a b, ipow n = (IZR a, IZR b).
Proof. induction n as [|n (a & b & E)]; [exists 1, 0; reflexivity|]. exists (- b), a. cbn [ipow]. rewrite E, opp_IZR. reflexivity. Qed.
Lemma gcf_int sg mu p : exists z, gcf sg mu p = IZR z.
Proof.
  unfold gcf. destruct (p <? 0); [exists 0; reflexivity|]. destruct (ipow_int (mu - Z.to_nat p)) as (a & b & ->). unfold ch.
  destruct sg; cbn [fst snd]; eexists; rewrite <- mult_IZR; reflexivity.
Qed.
Lemma bcf_int sg mu j : forall p, exists z, bcf sg mu j p = IZR z.
Proof.
  induction j as [|j IH]; intros p; cbn [bcf]; [apply gcf_int|]. destruct (IH (p - 2)) as (a & ->), (IH p) as (b & ->). exists (a + b). rewrite plus_IZR. reflexivity.
Qed.

Lemma cert1_at l mu j : (l <= 20)%nat -> (mu <= l)%nat -> (2 * j <= l - mu)%nat ->
  16 * (factz (l + mu) * (2 ^ Z.of_nat l * factz l) ^ 2) <= 100 * (hcz (ftab 41 0 1) l (l - mu) j ^ 2 * ((2 * Z.of_nat l + 1) * factz (l - mu))).
Proof.
  intros Hl Hmu Hj. rewrite <- (ft_ok (l + mu)), <- (ft_ok l), <- (ft_ok (l - mu)) by lia. apply Z.leb_le. fold (cert1 (ftab 41 0 1) l mu j).
  generalize cert_ok. generalize (ftab 41 0 1). intros t H. unfold cert in H.
  pose proof (allb_all _ _ H l ltac:(lia)) as H1. cbv beta in H1. pose proof (allb_all _ _ H1 mu ltac:(lia)) as H2. cbv beta in H2. apply (allb_all _ _ H2 j).
  pose proof (Nat.div2_odd (l - mu)). destruct (Nat.odd (l - mu)); cbn [Nat.b2n] in *; lia.
Qed.

Lemma normf_hcf_gen l m j h : Z.abs m <= Z.of_nat l -> IZR h = hcf l (l - Z.abs_nat m) j ->
  16 * (factz (l + Z.abs_nat m) * (2 ^ Z.of_nat l * factz l) ^ 2) <= 100 * (h ^ 2 * ((2 * Z.of_nat l + 1) * factz (l - Z.abs_nat m))) ->
  (1 / 10 <= Rabs (normf l m * hcf l (l - Z.abs_nat m) j))%R.
Proof.
  intros Hm Eh C. set (mu := Z.abs_nat m) in *. assert (Hmu : (mu <= l)%nat) by (unfold mu; lia).
  replace ((2 ^ Z.of_nat l * factz l) ^ 2) with ((2 ^ Z.of_nat l * factz l) * (2 ^ Z.of_nat l * factz l)) in C by ring. replace (h ^ 2) with (h * h) in C by ring.
  apply IZR_le in C. rewrite !mult_IZR, plus_IZR, mult_IZR, !factz_fact, <- INR_IZR_INZ, Eh in C.
  rewrite <- pow_IZR in C. set (H := hcf l (l - mu) j) in *.
  set (q := (2 ^ l * INR (fact l))%R) in *.
  assert (Q0 : (0 < q)%R) by (unfold q; apply Rmult_lt_0_compat; [apply pow_lt; lra|apply INR_fact_lt_0]).
  pose proof (INR_fact_lt_0 (l + mu)) as F1. pose proof (INR_fact_lt_0 (l - mu)) as F2. pose proof (pos_INR l) as L0. pose proof PI_RGT_0 as P0. pose proof PI_4 as P4.
  assert (S2 : (1 / 10 * (1 / 10) <= Rsqr (normf l m * H))%R).
  { unfold Rsqr, normf. fold mu. fold q. set (r := ((2 * INR l + 1) / (if m =? 0 then 4 * PI else 2 * PI) * INR (fact (l - mu)) / INR (fact (l + mu)))%R).
    assert (R1 : ((2 * INR l + 1) / 16 * INR (fact (l - mu)) / INR (fact (l + mu)) <= r)%R).
    { unfold r, Rdiv. apply Rmult_le_compat_r; [left; apply Rinv_0_lt_compat; lra|]. apply Rmult_le_compat_r; [lra|]. apply Rmult_le_compat_l; [lra|].
      apply Rinv_le_contravar; destruct (m =? 0); lra. }
    assert (R0 : (0 <= r)%R).
    { eapply Rle_trans; [|exact R1]. apply Rmult_le_pos; [apply Rmult_le_pos; [apply Rmult_le_pos; lra|lra]|left; apply Rinv_0_lt_compat; lra]. }
    apply Rle_trans with ((sqrt r * sqrt r) * (H * H) / (q * q))%R; [|right; field; lra]. rewrite sqrt_sqrt by exact R0.
    apply (Rmult_le_reg_r (q * q)); [apply Rmult_lt_0_compat; lra|]. apply Rle_trans with (r * (H * H))%R; [|right; field; lra].
    assert (HH : (0 <= H * H)%R) by (pose proof (Rle_0_sqr H); unfold Rsqr in *; lra).
    apply Rle_trans with ((2 * INR l + 1) / 16 * INR (fact (l - mu)) / INR (fact (l + mu)) * (H * H))%R; [|apply Rmult_le_compat_r; lra].
    apply (Rmult_le_reg_r (INR (fact (l + mu)))); [lra|].
    apply Rle_trans with ((2 * INR l + 1) / 16 * INR (fact (l - mu)) * (H * H))%R; [|right; field; lra]. fold q in C. lra. }
  rewrite <- (Rabs_pos_eq (1 / 10)) by lra. apply Rsqr_le_abs_0. exact S2.
Qed.

Lemma normf_hcf l m j : (l <= 20)%nat -> Z.abs m <= Z.of_nat l -> (2 * j <= l - Z.abs_nat m)%nat ->
  (1 / 10 <= Rabs (normf l m * hcf l (l - Z.abs_nat m) j))%R.
Proof.
  intros Hl Hm Hj. apply (normf_hcf_gen l m j (hcz (ftab 41 0 1) l (l - Z.abs_nat m) j) Hm); [apply hcz_ok; lia|apply cert1_at; lia].
Qed.

(** the coefficients are zero or at least 0.1 in magnitude *)
Lemma scoef_gap l m lx ly : (l <= 20)%nat -> Z.abs m <= Z.of_nat l -> 0 <= lx -> 0 <= ly -> lx + ly <= Z.of_nat l ->
  scoef l m lx ly = 0%R \/ (1 / 10 <= Rabs (scoef l m lx ly))%R.
Proof.
  intros Hl Hm Hx Hy Hxy. unfold scoef. set (mu := Z.abs_nat m). set (d := lx + ly - Z.of_nat mu). cbv zeta.
  destruct (Z.ltb_spec (lx + ly) (Z.of_nat mu)); [left; reflexivity|]. destruct (Z.odd d) eqn:Od; [left; reflexivity|]. cbn [orb].
  destruct (bcf_int (m <? 0) mu (Z.to_nat (d / 2)) lx) as (z & ->). destruct (Z.eq_dec z 0) as [-> | Hz]; [left; ring|]. right.
  assert (Hj : (2 * Z.to_nat (d / 2) <= l - mu)%nat) by (pose proof (Z.mul_div_le d 2 ltac:(lia)); pose proof (Z.div_pos d 2 ltac:(lia) ltac:(lia)); unfold mu in *; lia).
  pose proof (normf_hcf l m (Z.to_nat (d / 2)) Hl Hm Hj) as N. fold mu in N. rewrite Rabs_mult.
  assert (1 <= Rabs (IZR z))%R by (rewrite <- abs_IZR; apply IZR_le; lia).
  set (u := Rabs (normf l m * hcf l (l - mu) (Z.to_nat (d / 2)))) in *. set (v := Rabs (IZR z)) in *. nra.
Qed.
