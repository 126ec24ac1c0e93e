(** * spherical_harmonics.c: the coefficients are those of the real spherical harmonics *)

From Coq Require Import ZArith Reals Lra Lia List Bool.
From Coquelicot Require Import Coquelicot.
From Verif Require Import Base Loops BinomModel BinomProofs CartModel CartProofs OneElModel OneElProofs OneElInt Sums SphModel SphSpec SphPoly.
Import ListNotations.
Open Scope Z_scope.

(** ** Accumulating loops *)
Lemma acc_loop lo hi (body : Z -> R -> res R) (t : Z -> R) s : lo <= hi -> (forall i s, lo <= i < hi -> body i s = Ok (s + t i)%R) ->
  for_range lo hi body s = Ok (s + zsum lo hi t)%R.
Proof.
  intros Hle H. destruct (for_range_ok (fun i v => v = (s + zsum lo i t)%R) lo hi body s Hle) as (v & E & ->).
  - rewrite zsum_nil by lia. ring.
  - intros i v Hi ->. rewrite H by exact Hi. eexists. split; [reflexivity|]. rewrite zsum_last by lia. ring.
  - exact E.
Qed.

Lemma zsum_rsum lo n f : zsum lo (lo + Z.of_nat n) f = rsum n (fun k => f (lo + Z.of_nat k)).
Proof.
  induction n as [|n IH]; [rewrite zsum_nil by lia; reflexivity|].
  replace (lo + Z.of_nat (S n)) with (lo + Z.of_nat n + 1) by lia. rewrite zsum_last by lia. cbn [rsum]. rewrite IH. reflexivity.
Qed.

(** ** Integer arithmetic of the coefficient formula *)
Lemma choose_pow n : forall k, choose n k <= 2 ^ Z.of_nat n.
Proof.
  induction n as [|n IH]; intros [|k]; try (cbn; lia).
  change (choose (S n) (S k)) with (choose n k + choose n (S k)). pose proof (IH k). pose proof (IH (S k)).
    rewrite Nat2Z.inj_succ, Z.pow_succ_r by lia. lia.
Qed.

Lemma binomial_small n k : 0 <= n <= 40 -> 0 <= k <= uint64_max -> binomial n k = Ok (choose (Z.to_nat n) (Z.to_nat k)).
Proof.
  intros Hn Hk. assert (M : uint64_max = 18446744073709551615) by reflexivity.
  destruct (binomial_correct n k ltac:(lia) Hk) as (v & E & [-> | (_ & C)]); [exact E|]. exfalso.
  pose proof (choose_pow (Z.to_nat n) (Z.to_nat k)) as P. rewrite Z2Nat.id in P by lia.
  assert (2 ^ n <= 2 ^ 40) by (apply Z.pow_le_mono_r; lia). change (2 ^ 40) with 1099511627776 in *. lia.
Qed.

Lemma u64_range x : 0 <= u64 x <= uint64_max.
Proof. unfold u64, uint64_max. pose proof (Z.mod_pos_bound x u64_modulus ltac:(reflexivity)). lia. Qed.

Lemma u64_neg x : - 1000 <= x < 0 -> u64 x = x + u64_modulus.
Proof. intros H. unfold u64. symmetry. apply (Z.mod_unique x u64_modulus (-1)); [left; unfold u64_modulus; lia|lia]. Qed.

Lemma factz_fact n : IZR (factz n) = INR (fact n).
Proof.
  induction n as [|n IH]; [reflexivity|]. change (factz (S n)) with (Z.of_nat (S n) * factz n). rewrite mult_IZR, IH, <- INR_IZR_INZ.
  change (fact (S n)) with (S n * fact n)%nat. rewrite mult_INR. reflexivity.
Qed.

Lemma factorial_real n : 0 <= n -> exists v, factorial n = Ok v /\ IZR v = INR (fact (Z.to_nat n)).
Proof. intros H. rewrite factorial_ok by exact H. eexists. split; [reflexivity|]. apply factz_fact. Qed.

Lemma ratio_real n m : 0 <= n -> 0 <= m -> exists a b, factorial_ratio n m = Ok (a, b) /\
  (IZR a / IZR b = INR (fact (Z.to_nat n)) / INR (fact (Z.to_nat m)))%R.
Proof.
  intros Hn Hm. destruct (factorial_ratio_ok n m Hn Hm) as (a & b & E & Hb & Q). exists a, b. split; [exact E|].
  apply (f_equal IZR) in Q. rewrite !mult_IZR, !factz_fact in Q.
  pose proof (IZR_lt 0 b Hb). pose proof (INR_fact_neq_0 (Z.to_nat m)).
  apply (Rmult_eq_reg_r (IZR b * INR (fact (Z.to_nat m)))); [|apply Rmult_integral_contrapositive_currified; lra || assumption].
  transitivity (IZR a * INR (fact (Z.to_nat m)))%R; [field; lra|]. rewrite Q. field. assumption.
Qed.

Lemma sgn_pow_nat n : sgn_pow (Z.of_nat n) = ((-1) ^ n)%R.
Proof.
  unfold sgn_pow. induction n as [|n IH]; [reflexivity|]. rewrite Nat2Z.inj_succ, Z.even_succ, <- Z.negb_even. cbn [pow].
  destruct (Z.even (Z.of_nat n)); cbn [negb]; rewrite <- IH; ring.
Qed.

Lemma ipow_even q : ipow (2 * q) = ((-1) ^ q, 0)%R.
Proof.
  induction q as [|q IH]; [reflexivity|]. replace (2 * S q)%nat with (S (S (2 * q))) by lia. cbn [ipow]. rewrite IH. cbn [pow]. f_equal; ring.
Qed.
Lemma ipow_odd q : ipow (2 * q + 1) = (0, (-1) ^ q)%R.
Proof. replace (2 * q + 1)%nat with (S (2 * q)) by lia. cbn [ipow]. rewrite ipow_even. f_equal; ring. Qed.

(** the parity selected by the sign of m *)
Definition goodpar (sg : bool) (mu : nat) (p : Z) : Prop := Z.odd (Z.of_nat mu - p) = sg.

Lemma gcf_par sg mu p : ~ goodpar sg mu p -> gcf sg mu p = 0%R.
Proof.
  intros H. destruct (Z_lt_dec p 0) as [Hp|Hp]; [apply gcf_out; lia|]. destruct (Z_lt_dec (Z.of_nat mu) p) as [Hq|Hq]; [apply gcf_out; lia|].
  unfold gcf. destruct (Z.ltb_spec p 0); [lia|]. unfold goodpar in H. replace (Z.of_nat mu - p) with (Z.of_nat (mu - Z.to_nat p)) in H by lia.
  set (n := (mu - Z.to_nat p)%nat) in *. destruct (Nat.Even_or_Odd n) as [(q & E) | (q & E)]; rewrite E in H |- *.
  - rewrite ipow_even. cbn [fst snd]. destruct sg; [ring|]. exfalso. apply H. rewrite Nat2Z.inj_mul, Z.odd_mul. reflexivity.
  - rewrite ipow_odd. cbn [fst snd]. destruct sg; [|ring]. exfalso. apply H. rewrite Nat2Z.inj_add, Nat2Z.inj_mul, Z.odd_add, Z.odd_mul. reflexivity.
Qed.

Lemma bcf_par sg mu j : forall p, ~ goodpar sg mu p -> bcf sg mu j p = 0%R.
Proof.
  induction j as [|j IH]; intros p H; cbn [bcf]; [apply gcf_par; exact H|]. rewrite !IH; [ring|exact H|].
  unfold goodpar in *. replace (Z.of_nat mu - (p - 2)) with (Z.of_nat mu - p + 2 * 1) by lia. rewrite Z.odd_add_mul_2. exact H.
Qed.

Lemma quot_half n : Z.quot (Z.of_nat n) 2 = Z.of_nat (Nat.div2 n).
Proof. rewrite Z.quot_div_nonneg by lia. rewrite Nat.div2_div, Nat2Z.inj_div. reflexivity. Qed.

Lemma gcf_good sg mu p : goodpar sg mu p -> 0 <= p <= Z.of_nat mu -> gcf sg mu p = (ch mu (Z.to_nat p) * sgn_pow (Z.quot (Z.of_nat mu - p) 2))%R.
Proof.
  intros H Hp. unfold gcf. destruct (Z.ltb_spec p 0); [lia|]. unfold goodpar in H. replace (Z.of_nat mu - p) with (Z.of_nat (mu - Z.to_nat p)) in H |- * by lia.
  set (n := (mu - Z.to_nat p)%nat) in *. rewrite quot_half, sgn_pow_nat. f_equal. destruct (Nat.Even_or_Odd n) as [(q & E) | (q & E)]; rewrite E in H |- *.
  - rewrite Nat2Z.inj_mul, Z.odd_mul in H. cbn in H. subst sg. rewrite ipow_even, Nat.div2_double. reflexivity.
  - rewrite Nat2Z.inj_add, Nat2Z.inj_mul, Z.odd_add, Z.odd_mul in H. cbn in H. subst sg. rewrite ipow_odd, Nat.add_1_r, Nat.div2_succ_double. reflexivity.
Qed.

Lemma inner_ok m mu j sg lx : Z.abs m = Z.of_nat mu -> (mu <= 40)%nat -> (j <= 20)%nat -> 0 <= lx <= 100 -> goodpar sg mu lx ->
  s2c_inner m (Z.of_nat j) lx = Ok (bcf sg mu j lx).
Proof.
  intros Em Hmu Hj Hlx HP. unfold s2c_inner. rewrite Em.
  rewrite (acc_loop 0 (Z.of_nat j + 1) _ (fun k => ch j (Z.to_nat k) * gcf sg mu (lx - 2 * k))%R).
  - f_equal. rewrite Rplus_0_l. replace (Z.of_nat j + 1) with (0 + Z.of_nat (S j)) by lia. rewrite zsum_rsum, <- bcf_sum. apply rsum_ext. intros k _.
    rewrite Z.add_0_l, Nat2Z.id. reflexivity.
  - lia.
  - intros k s Hk. assert (M : uint64_max = 18446744073709551615) by reflexivity.
    rewrite (u64_small (Z.of_nat j)), (u64_small k), (u64_small (Z.of_nat mu)) by lia.
    rewrite (binomial_small (Z.of_nat j) k) by lia. cbn [bind]. rewrite Nat2Z.id.
    rewrite (binomial_small (Z.of_nat mu) (u64 (lx - 2 * k))) by (lia || apply u64_range). cbn [bind]. rewrite Nat2Z.id.
    assert (HP' : goodpar sg mu (lx - 2 * k)).
    { unfold goodpar in *. replace (Z.of_nat mu - (lx - 2 * k)) with (Z.of_nat mu - lx + 2 * k) by lia. rewrite Z.odd_add_mul_2. exact HP. }
    do 2 f_equal. destruct (Z_lt_dec (lx - 2 * k) 0) as [Hn|Hn].
    { rewrite (u64_neg (lx - 2 * k)) by lia. rewrite (choose_gt mu) by (unfold u64_modulus; lia). rewrite Z.mul_0_r. change (u64 0) with 0. rewrite gcf_out by lia. ring. }
    rewrite (u64_small (lx - 2 * k)) by lia. destruct (Z_lt_dec (Z.of_nat mu) (lx - 2 * k)) as [Hm|Hm].
    { rewrite (choose_gt mu) by lia. rewrite Z.mul_0_r. change (u64 0) with 0. rewrite gcf_out by lia. ring. }
    rewrite gcf_good by (exact HP' || lia). rewrite u64_small.
    + rewrite mult_IZR. unfold ch. replace (Z.of_nat mu - lx + 2 * k) with (Z.of_nat mu - (lx - 2 * k)) by lia. ring.
    + pose proof (choose_nonneg j (Z.to_nat k)). pose proof (choose_nonneg mu (Z.to_nat (lx - 2 * k))).
      pose proof (choose_pow j (Z.to_nat k)). pose proof (choose_pow mu (Z.to_nat (lx - 2 * k))).
      assert (2 ^ Z.of_nat j <= 2 ^ 20) by (apply Z.pow_le_mono_r; lia). assert (2 ^ Z.of_nat mu <= 2 ^ 40) by (apply Z.pow_le_mono_r; lia).
      change (2 ^ 20) with 1048576 in *. change (2 ^ 40) with 1099511627776 in *. nia.
Qed.

Lemma outer_ok l m mu j sg lx : Z.abs m = Z.of_nat mu -> (mu <= l <= 40)%nat -> (2 * j <= l - mu)%nat -> 0 <= lx <= 100 -> goodpar sg mu lx ->
  s2c_outer (Z.of_nat l) m (Z.of_nat j) lx = Ok (hcf l (l - mu) j * bcf sg mu j lx)%R.
Proof.
  intros Em Hmu Hj Hlx HP. unfold s2c_outer. rewrite Em. replace (Z.of_nat l - Z.of_nat mu) with (Z.of_nat (l - mu)) by lia. rewrite quot_half.
  set (n := (l - mu)%nat) in *. set (h := Nat.div2 n).
  assert (Hh : (2 * h <= n /\ n < 2 * S h)%nat) by (unfold h; pose proof (Nat.div2_odd n); destruct (Nat.odd n); cbn [Nat.b2n] in *; lia).
  pose (t := fun i => (ccf l n (Z.to_nat i) * ch (Z.to_nat i) j * bcf sg mu j lx)%R).
  edestruct (for_range_ok (fun i (st : R * bool) => st = (zsum (Z.of_nat j) i t, false))) as (st & E & ->);
    [| | |rewrite E; cbn [bind fst]; f_equal].
  - lia.
  - rewrite zsum_nil by lia. reflexivity.
  - intros i st Hi ->. cbv beta iota.
    destruct (Z.ltb_spec (2 * Z.of_nat l - 2 * i) 0); [lia|]. destruct (Z.ltb_spec (Z.of_nat n - 2 * i) 0); [lia|].
    assert (M : uint64_max = 18446744073709551615) by reflexivity.
    rewrite (u64_small (Z.of_nat l)), (u64_small i), (u64_small (Z.of_nat j)) by lia.
    rewrite (binomial_small (Z.of_nat l) i), (binomial_small i (Z.of_nat j)) by lia. cbn [bind].
    destruct (ratio_real (2 * Z.of_nat l - 2 * i) (Z.of_nat n - 2 * i)) as (p & q & Er & Q); [lia|lia|].
    rewrite Er. cbn [bind]. rewrite (inner_ok m mu j sg lx) by (lia || assumption). cbn [bind]. eexists. split; [reflexivity|].
    f_equal. rewrite zsum_last by lia. f_equal. rewrite !Nat2Z.id. unfold t, ccf. rewrite Q, u64_small.
    + rewrite mult_IZR. replace i with (Z.of_nat (Z.to_nat i)) at 3 by lia. rewrite sgn_pow_nat. unfold ch.
      replace (Z.to_nat (2 * Z.of_nat l - 2 * i)) with (2 * l - 2 * Z.to_nat i)%nat by lia.
      replace (Z.to_nat (Z.of_nat n - 2 * i)) with (n - 2 * Z.to_nat i)%nat by lia. ring.
    + pose proof (choose_nonneg l (Z.to_nat i)). pose proof (choose_nonneg (Z.to_nat i) j).
      pose proof (choose_pow l (Z.to_nat i)). pose proof (choose_pow (Z.to_nat i) j).
      assert (2 ^ Z.of_nat l <= 2 ^ 40) by (apply Z.pow_le_mono_r; lia). assert (2 ^ Z.of_nat (Z.to_nat i) <= 2 ^ 20) by (apply Z.pow_le_mono_r; lia).
      change (2 ^ 20) with 1048576 in *. change (2 ^ 40) with 1099511627776 in *. nia.
  - unfold hcf. fold h. replace (Z.of_nat h + 1) with (Z.of_nat j + Z.of_nat (S h - j)) by lia. rewrite zsum_rsum.
    rewrite Rmult_comm, <- rsum_scal. apply rsum_ext. intros q _. unfold t. replace (Z.to_nat (Z.of_nat j + Z.of_nat q)) with (j + q)%nat by lia. ring.
Qed.

Lemma outer_neg l m mu j lx : Z.abs m = Z.of_nat mu -> (mu <= l <= 40)%nat -> - 100 <= j < 0 -> s2c_outer (Z.of_nat l) m j lx = Ok 0%R.
Proof.
  intros Em Hmu Hj. unfold s2c_outer. rewrite Em. replace (Z.of_nat l - Z.of_nat mu) with (Z.of_nat (l - mu)) by lia. rewrite quot_half.
  set (n := (l - mu)%nat) in *. set (h := Nat.div2 n).
  assert (Hh : (2 * h <= n /\ n < 2 * S h)%nat) by (unfold h; pose proof (Nat.div2_odd n); destruct (Nat.odd n); cbn [Nat.b2n] in *; lia).
  edestruct (for_range_ok (fun i (st : R * bool) => st = (0%R, false))) as (st & E & ->); [| | |rewrite E; cbn [bind fst]; reflexivity].
  - lia.
  - reflexivity.
  - intros i st Hi ->. cbv beta iota.
    destruct (Z.ltb_spec (2 * Z.of_nat l - 2 * i) 0); [lia|]. destruct (Z.ltb_spec (Z.of_nat n - 2 * i) 0); [lia|].
    destruct (binomial_correct (u64 (Z.of_nat l)) (u64 i) (u64_range _) (u64_range _)) as (b1 & -> & _). cbn [bind].
    destruct (binomial_correct (u64 i) (u64 j) (u64_range _) (u64_range _)) as (b2 & -> & _). cbn [bind].
    destruct (ratio_real (2 * Z.of_nat l - 2 * i) (Z.of_nat n - 2 * i)) as (p & q & Er & Q); [lia|lia|]. rewrite Er. cbn [bind].
    unfold s2c_inner. rewrite for_range_nil by lia. cbn [bind]. eexists. split; [reflexivity|]. f_equal. ring.
Qed.

(** ** The coefficient *)
Definition normf (l : nat) (m : Z) : R :=
  (sqrt ((2 * INR l + 1) / (if (m =? 0)%Z then 4 * PI else 2 * PI) * INR (fact (l - Z.abs_nat m)) / INR (fact (l + Z.abs_nat m))) / (2 ^ l * INR (fact l)))%R.

Definition scoef (l : nat) (m lx ly : Z) : R :=
  let mu := Z.abs_nat m in
  if (lx + ly <? Z.of_nat mu) || Z.odd (lx + ly - Z.of_nat mu) then 0%R
  else (normf l m * hcf l (l - mu) (Z.to_nat ((lx + ly - Z.of_nat mu) / 2)) * bcf (m <? 0) mu (Z.to_nat ((lx + ly - Z.of_nat mu) / 2)) lx)%R.

Lemma rem_odd j : (Z.rem j 2 =? 0) = negb (Z.odd j).
Proof.
  rewrite Z.negb_odd. destruct (Z.eqb_spec (Z.rem j 2) 0) as [E|E].
  - symmetry. apply Z.even_spec. exists (Z.quot j 2). pose proof (Z.quot_rem j 2 ltac:(lia)). lia.
  - symmetry. apply not_true_is_false. intros H. apply Z.even_spec in H. destruct H as (q & ->). apply E. rewrite Z.mul_comm. apply Z.rem_mul. lia.
Qed.

Lemma s2c_ok l m lx ly lz : (l <= 40)%nat -> Z.abs m <= Z.of_nat l -> 0 <= lx -> 0 <= ly -> lx + ly <= Z.of_nat l ->
  spherical_to_cartesian_coef (Z.of_nat l) m lx ly lz = Ok (scoef l m lx ly).
Proof.
  intros Hl Hm Hx Hy Hxy. unfold spherical_to_cartesian_coef, scoef. set (mu := Z.abs_nat m). cbv zeta.
  assert (Em : Z.abs m = Z.of_nat mu) by (unfold mu; lia). rewrite Em. rewrite !rem_odd, !negb_involutive.
  set (d := lx + ly - Z.of_nat mu). destruct (Z.odd d) eqn:Od; [rewrite orb_true_r; reflexivity|]. rewrite orb_false_r.
  assert (Hd : exists q, d = 2 * q).
  { assert (Ev : Z.even d = true) by (rewrite <- Z.negb_odd, Od; reflexivity). apply Z.even_spec in Ev. exact Ev. }
  destruct Hd as (q & Eq). assert (Quot : Z.quot d 2 = q) by (rewrite Eq, Z.mul_comm; apply Z.quot_mul; lia).
  assert (Div : d / 2 = q) by (rewrite Eq, Z.mul_comm; apply Z.div_mul; lia). rewrite Quot, Div.
  set (sg := m <? 0).
  assert (Par : (m >? 0) && negb (Z.odd (Z.of_nat mu - lx)) || (m =? 0) && negb (Z.odd lx) || sg && Z.odd (Z.of_nat mu - lx) = Bool.eqb (Z.odd (Z.of_nat mu - lx)) sg).
  { unfold sg. destruct (Z.ltb_spec m 0).
    - replace (m >? 0) with false by lia. replace (m =? 0) with false by lia. cbn. destruct (Z.odd (Z.of_nat mu - lx)); reflexivity.
    - destruct (Z.eqb_spec m 0).
      + replace (m >? 0) with false by lia. cbn [andb orb]. replace (Z.of_nat mu - lx) with (- lx) by lia. rewrite Z.odd_opp. rewrite orb_false_r. destruct (Z.odd lx); reflexivity.
      + replace (m >? 0) with true by lia. cbn [andb orb]. rewrite !orb_false_r. destruct (Z.odd (Z.of_nat mu - lx)); reflexivity. }
  rewrite Par. destruct (Bool.eqb (Z.odd (Z.of_nat mu - lx)) sg) eqn:Ep; cbn [negb].
  2:{ destruct (Z.ltb_spec (lx + ly) (Z.of_nat mu)); [reflexivity|]. rewrite bcf_par; [f_equal; ring|].
      unfold goodpar. intros C. rewrite C in Ep. rewrite eqb_reflx in Ep. discriminate. }
  apply eqb_prop in Ep.
  destruct (factorial_real (Z.of_nat l - Z.of_nat mu)) as (f1 & -> & F1); [lia|]. cbn [bind].
  destruct (factorial_real (Z.of_nat l + Z.of_nat mu)) as (f2 & -> & F2); [lia|]. cbn [bind].
  destruct (factorial_real (Z.of_nat l)) as (f3 & -> & F3); [lia|]. cbn [bind]. rewrite F1, F2, F3, !Nat2Z.id.
  replace (Z.to_nat (Z.of_nat l - Z.of_nat mu)) with (l - mu)%nat by lia. replace (Z.to_nat (Z.of_nat l + Z.of_nat mu)) with (l + mu)%nat by lia.
  destruct (Z.ltb_spec (lx + ly) (Z.of_nat mu)) as [Hlt|Hge].
  { rewrite (outer_neg l m mu q lx) by (lia || assumption). cbn [bind]. f_equal. destruct ((m =? 0) && negb (Z.odd lx)); ring. }
  replace q with (Z.of_nat (Z.to_nat q)) at 1 by lia.
  rewrite (outer_ok l m mu (Z.to_nat q) sg lx) by (lia || assumption). cbn [bind]. f_equal.
  assert (S2 : (2 * INR l + 1)%R = IZR (2 * Z.of_nat l + 1)) by (rewrite plus_IZR, mult_IZR, <- INR_IZR_INZ; reflexivity).
  unfold normf. fold mu. rewrite S2. set (hb := hcf l (l - mu) (Z.to_nat q)). set (bb := bcf sg mu (Z.to_nat q) lx).
  destruct (Z.eqb_spec m 0) as [E0|E0]; cbn [andb].
  - assert (negb (Z.odd lx) = true) as ->.
    { unfold sg in Ep. replace (m <? 0) with false in Ep by lia. replace (Z.of_nat mu - lx) with (- lx) in Ep by (unfold mu; lia). rewrite Z.odd_opp in Ep. rewrite Ep. reflexivity. }
    pose proof PI_RGT_0 as HP.
    assert (Sq : (sqrt (IZR (2 * Z.of_nat l + 1) / (4 * PI) * INR (fact (l - mu)) / INR (fact (l + mu))) =
                  sqrt (IZR (2 * Z.of_nat l + 1) / (2 * PI) * INR (fact (l - mu)) / INR (fact (l + mu))) * / sqrt 2)%R).
    { rewrite <- sqrt_inv by lra. rewrite <- sqrt_mult.
      - f_equal. field. split; [lra|apply INR_fact_neq_0].
      - apply Rmult_le_pos; [apply Rmult_le_pos|]; [apply Rmult_le_pos; [apply IZR_le; lia|left; apply Rinv_0_lt_compat; lra]|apply pos_INR|left; apply Rinv_0_lt_compat, INR_fact_lt_0].
      - left. apply Rinv_0_lt_compat. lra. }
    rewrite Sq. unfold Rdiv. ring.
  - unfold Rdiv. ring.
Qed.

(** ** The polynomial *)
Lemma coefficients_homog l m comps x y z : (l <= 40)%nat -> Z.abs m <= Z.of_nat l -> NoDup comps ->
  (forall r s t, In (r, s, t) comps <-> 0 <= r /\ 0 <= s /\ 0 <= t /\ r + s + t = Z.of_nat l) ->
  lsum (fun '(r, s, t) => scoef l m r s * x ^ Z.to_nat r * y ^ Z.to_nat s * z ^ Z.to_nat t)%R comps =
  (normf l m * tpart (m <? 0) (Z.abs_nat m) x y * rsum (S (Nat.div2 (l - Z.abs_nat m))) (fun i => ccf l (l - Z.abs_nat m) i * (z ^ (l - Z.abs_nat m - 2 * i) * (x ^ 2 + y ^ 2 + z ^ 2) ^ i)))%R.
Proof.
  intros Hl Hm ND Hin. rewrite (components_sum l comps _ ND Hin). set (mu := Z.abs_nat m). set (n := (l - mu)%nat). set (sg := m <? 0).
  assert (Hmu : (mu <= l)%nat) by (unfold mu; lia).
  pose (G := fun N => rsum (S N) (fun r => scoef l m (Z.of_nat r) (Z.of_nat (N - r)) * x ^ r * y ^ (N - r) * z ^ (l - N))%R).
  transitivity (rsum (S l) G).
  { apply rsum_ext. intros N _. apply rsum_ext. intros r _. rewrite !Nat2Z.id. reflexivity. }
  replace (S l) with (S (mu + n)) by (unfold n; lia). rewrite (every_second mu n G).
  - transitivity (normf l m * tpart sg mu x y * rsum (S (Nat.div2 n)) (fun j => hcf l n j * (z ^ (n - 2 * j) * (x ^ 2 + y ^ 2) ^ j)))%R.
    + rewrite <- rsum_scal. apply rsum_ext. intros j _. unfold G.
      rewrite (rsum_ext _ _ (fun r => (normf l m * hcf l n j * z ^ (n - 2 * j)) * (bcf sg mu j (Z.of_nat r) * (x ^ r * y ^ (mu + 2 * j - r))))%R).
      * rewrite rsum_scal, bcf_poly. ring.
      * intros r Hr. unfold scoef. fold mu. fold n. fold sg. replace (Z.of_nat r + Z.of_nat (mu + 2 * j - r) - Z.of_nat mu) with (2 * Z.of_nat j) by lia.
        replace (Z.of_nat r + Z.of_nat (mu + 2 * j - r) <? Z.of_nat mu) with false by (symmetry; apply Z.ltb_ge; clearbody mu; lia).
        rewrite Z.odd_mul. cbn [Z.odd andb orb]. rewrite (Z.mul_comm 2), Z.div_mul by lia. rewrite Nat2Z.id.
        replace (l - (mu + 2 * j))%nat with (n - 2 * j)%nat by (unfold n; lia). ring.
    + rewrite hcf_poly. reflexivity.
  - intros N HN. unfold G. apply rsum_zero. intros r Hr. unfold scoef. fold mu. replace (Z.of_nat r + Z.of_nat (N - r) <? Z.of_nat mu) with true by (symmetry; apply Z.ltb_lt; clearbody mu; lia). cbn [orb]. ring.
  - intros j. unfold G. apply rsum_zero. intros r Hr. unfold scoef. fold mu.
    replace (Z.of_nat r + Z.of_nat (mu + 2 * j + 1 - r) - Z.of_nat mu) with (1 + 2 * Z.of_nat j) by lia. rewrite Z.odd_add_mul_2. rewrite orb_true_r. ring.
Qed.

Lemma coefficients_sum l m comps x y z : (l <= 40)%nat -> Z.abs m <= Z.of_nat l -> NoDup comps ->
  (forall r s t, In (r, s, t) comps <-> 0 <= r /\ 0 <= s /\ 0 <= t /\ r + s + t = Z.of_nat l) -> (x ^ 2 + y ^ 2 + z ^ 2 = 1)%R ->
  lsum (fun '(r, s, t) => scoef l m r s * x ^ Z.to_nat r * y ^ Z.to_nat s * z ^ Z.to_nat t)%R comps = real_sph l m x y z.
Proof.
  intros Hl Hm ND Hin Hu. rewrite (coefficients_homog l m comps x y z Hl Hm ND Hin). set (mu := Z.abs_nat m). set (n := (l - mu)%nat). set (sg := m <? 0).
  replace (x ^ 2 + y ^ 2 + z ^ 2)%R with 1%R. rewrite (rsum_ext _ _ (fun i => ccf l n i * z ^ (n - 2 * i))%R) by (intros; rewrite pow1; ring).
  rewrite <- rodrigues_sum by (unfold n; lia). replace (l + (l - n))%nat with (l + mu)%nat by (unfold n, mu; lia).
  unfold real_sph, normf, tpart. fold mu. fold sg. ring.
Qed.
