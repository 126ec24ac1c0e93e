(** * The G function: recurrence, series, and the two branches of gfun_values *)

From Coq Require Import ZArith List Bool Lia Reals Lra.
From Coquelicot Require Import Coquelicot.
From Verif Require Import Base BinomModel BinomProofs OneElModel OneElProofs Loops Sums GaussInt OvDeriv SpecModel SpecExp SpecSpec SpecBoys BoysThms.
Import ListNotations.
Open Scope R_scope.

Lemma gfun_der n x t : ex_derive (fun t => t ^ (2 * n) * exp (- x * (1 - t ^ 2))) t.
Proof. auto_derive. exact I. Qed.

Lemma gfun_int n x : is_RInt (V := R_NormedModule) (fun t => t ^ (2 * n) * exp (- x * (1 - t ^ 2))) 0 1 (gfun n x).
Proof. apply cont_RInt. intros t. apply gfun_der. Qed.

(** (2n+1) G_n + 2x G_{n+1} = 1 *)
Lemma gfun_rec n x : (2 * INR n + 1) * gfun n x + 2 * x * gfun (S n) x = 1.
Proof.
  apply (RInt_eq (fun t => (2 * INR n + 1) * (t ^ (2 * n) * exp (- x * (1 - t ^ 2))) + 2 * x * (t ^ (2 * S n) * exp (- x * (1 - t ^ 2))))).
  - apply (is_RInt_plus (V := R_NormedModule)); apply (is_RInt_scal (V := R_NormedModule)); apply gfun_int.
  - apply (int_deriv (fun t => t ^ S (2 * n) * exp (- x * (1 - t ^ 2)))).
    + intros t. assert (D2 : is_derive (fun t => exp (- x * (1 - t ^ 2))) t (2 * x * t * exp (- x * (1 - t ^ 2)))) by (auto_derive; [exact I|cbn [INR pow]; unfold Rminus; ringR]).
      eapply is_derive_eq; [apply (is_derive_mult (K := R_AbsRing)); [apply is_derive_mono|exact D2|intros; apply Rmult_comm]|].
      match goal with |- _ = ?y => change (INR (S (2 * n)) * t ^ (2 * n) * exp (- x * (1 - t ^ 2)) + t ^ S (2 * n) * (2 * x * t * exp (- x * (1 - t ^ 2))) = y) end.
      rewrite S_INR, mult_INR. replace (2 * S n)%nat with (S (S (2 * n))) by lia. cbn [INR pow]. ring.
    + intros t. auto_derive. exact I.
    + cbn [pow]. rewrite !Rmult_0_l, pow1. replace (- x * (1 - 1 * (1 * 1))) with 0 by ring. rewrite exp_0. ring.
Qed.

Definition gterm (n : nat) (x : R) (k : nat) : R := exp (- x) * eterm x k / INR (2 * (n + k) + 1).

Lemma gfun_series n K x : 0 <= x < INR (S K) ->
  0 <= gfun n x - rsum K (gterm n x) <= gterm n x K * (INR (S K) / (INR (S K) - x)).
Proof.
  intros Hx.
  assert (I1 : is_RInt (V := R_NormedModule) (fun t => exp (- x) * (t ^ (2 * n) * erem K (x * t ^ 2))) 0 1 (gfun n x - rsum K (gterm n x))).
  { eapply is_RInt_ext with (f := fun t => t ^ (2 * n) * exp (- x * (1 - t ^ 2)) - rsum K (fun k => exp (- x) * eterm x k * t ^ (2 * (n + k)))).
    - intros t _. unfold erem. transitivity (exp (- x) * (t ^ (2 * n) * exp (x * t ^ 2)) - exp (- x) * (t ^ (2 * n) * rsum K (eterm (x * t ^ 2)))); [|ringR]. f_equal.
      + replace (- x * (1 - t ^ 2)) with (- x + x * t ^ 2) by ring. rewrite exp_plus. ring.
      + f_equal. rewrite <- !rsum_scal. apply rsum_ext. intros k _. unfold eterm. rewrite Rpow_mult_distr, <- pow_mult. replace (2 * (n + k))%nat with (2 * n + 2 * k)%nat by lia. rewrite pow_add. unfold Rdiv. ring.
    - apply (is_RInt_minus (V := R_NormedModule)); [apply gfun_int|]. apply rsum_int. intros k _. unfold gterm, Rdiv. replace (2 * (n + k) + 1)%nat with (S (2 * (n + k))) by lia.
      apply (is_RInt_scal (V := R_NormedModule)). apply mono_int. }
  pose proof (exp_pos (- x)) as Ep.
  assert (P : forall t, 0 <= t <= 1 -> 0 <= x * t ^ 2 <= x).
  { intros t Ht. assert (0 <= t ^ 2 <= 1) by nra. nra. }
  split.
  - replace (gfun n x - rsum K (gterm n x)) with (RInt (V := R_CompleteNormedModule) (fun t => exp (- x) * (t ^ (2 * n) * erem K (x * t ^ 2))) 0 1) by (exact (is_RInt_unique (V := R_CompleteNormedModule) _ _ _ _ I1)).
    apply RInt_ge_0; [lra|eexists; exact I1|]. intros t Ht. apply Rmult_le_pos; [lra|]. apply Rmult_le_pos; [apply pow_le; lra|]. apply erem_nonneg. apply P. lra.
  - eapply Rle_trans; [apply Rle_abs|].
    apply (RInt_bound _ (fun t => exp (- x) * eterm x K * (INR (S K) / (INR (S K) - x)) * t ^ (2 * (n + K))) _ I1).
    + intros t Ht. pose proof (P t Ht) as Pt. pose proof (erem_nonneg K (x * t ^ 2) ltac:(lra)) as E0. pose proof (pow_le t (2 * n) ltac:(lra)) as T0.
      rewrite Rabs_pos_eq by (apply Rmult_le_pos; [lra|apply Rmult_le_pos; assumption]). rewrite !Rmult_assoc. apply Rmult_le_compat_l; [lra|].
      apply Rle_trans with (t ^ (2 * n) * (eterm (x * t ^ 2) K * (INR (S K) / (INR (S K) - x)))).
      * apply Rmult_le_compat_l; [exact T0|]. eapply Rle_trans; [apply erem_geometric; lra|]. apply Rmult_le_compat_l; [apply eterm_pos; lra|].
        unfold Rdiv. apply Rmult_le_compat_l; [apply pos_INR|]. apply Rinv_le_contravar; lra.
      * right. unfold eterm. rewrite Rpow_mult_distr, <- pow_mult. replace (2 * (n + K))%nat with (2 * n + 2 * K)%nat by lia. rewrite pow_add. unfold Rdiv. ring.
    + unfold gterm, Rdiv. replace (2 * (n + K) + 1)%nat with (S (2 * (n + K))) by lia.
      replace (exp (- x) * eterm x K * / INR (S (2 * (n + K))) * (INR (S K) * / (INR (S K) - x))) with (exp (- x) * eterm x K * (INR (S K) * / (INR (S K) - x)) * / INR (S (2 * (n + K)))) by ring.
      apply (is_RInt_scal (V := R_NormedModule)). apply mono_int.
Qed.

Lemma gterm_pos n x k : 0 <= x -> 0 <= gterm n x k.
Proof.
  intros H. unfold gterm. apply Rmult_le_pos; [apply Rmult_le_pos; [left; apply exp_pos|apply eterm_pos, H]|]. left. apply Rinv_0_lt_compat, lt_0_INR. lia.
Qed.

Lemma gterm_S n x k : 0 <= x -> gterm n x (S k) <= gterm n x k * (x / INR (S k)).
Proof.
  intros H. unfold gterm. rewrite eterm_S. unfold Rdiv. pose proof (exp_pos (- x)). pose proof (eterm_pos x k H). assert (P : 0 < INR (S k)) by (apply lt_0_INR; lia).
  assert (Q : 0 <= x * / INR (S k)) by (apply Rmult_le_pos; [lra|left; apply Rinv_0_lt_compat, P]).
  replace (exp (- x) * (eterm x k * (x * / INR (S k))) * / INR (2 * (n + S k) + 1)) with (exp (- x) * eterm x k * (x * / INR (S k)) * / INR (2 * (n + S k) + 1)) by ring.
  replace (exp (- x) * eterm x k * / INR (2 * (n + k) + 1) * (x * / INR (S k))) with (exp (- x) * eterm x k * (x * / INR (S k)) * / INR (2 * (n + k) + 1)) by ring.
  apply Rmult_le_compat_l; [apply Rmult_le_pos; [apply Rmult_le_pos; lra|exact Q]|]. apply Rinv_le_contravar; [apply lt_0_INR; lia|apply le_INR; lia].
Qed.

Lemma eterm_ge1 x k : INR k <= x -> 1 <= eterm x k.
Proof.
  induction k as [|k IH]; intros H; [rewrite eterm_0; lra|]. rewrite eterm_S. assert (P : 0 < INR (S k)) by (apply lt_0_INR; lia). assert (INR k <= x) by (rewrite S_INR in H; lra).
  specialize (IH ltac:(assumption)). apply Rle_trans with (1 * 1); [lra|]. apply Rmult_le_compat; [lra|lra|exact IH|]. apply Rmult_le_reg_r with (INR (S k)); [exact P|]. unfold Rdiv; rewrite Rmult_assoc, Rinv_l by lra; lra.
Qed.

Lemma exp_12 x : x <= 12 -> 1 / 10 ^ 6 <= exp (- x).
Proof.
  intros H. apply Rle_trans with (exp (- (12))); [|apply exp_le; lra]. rewrite exp_Ropp.
  assert (E : exp 12 <= 3 ^ 12). { replace 12 with (INR 12) at 1 by (rewrite INR_IZR_INZ; reflexivity). rewrite exp_of_nat. apply pow_incr. split; [left; apply exp_pos|apply exp_le_3]. }
  apply Rle_trans with (/ 3 ^ 12); [lra|]. apply Rinv_le_contravar; [apply exp_pos|exact E].
Qed.

(** a term below 10^-15 can only occur beyond k = x *)
Lemma gterm_small n x k : (n <= 1000)%nat -> 0 <= x <= 12 -> gterm n x k < 1 / 10 ^ 15 -> x < INR k.
Proof.
  intros Hn Hx H. destruct (Rlt_le_dec x (INR k)) as [L|L]; [exact L|exfalso]. pose proof (eterm_ge1 x k L) as E. pose proof (exp_12 x ltac:(lra)) as Ex.
  assert (Kb : (k <= 12)%nat). { apply INR_le. replace (INR 12) with 12 by (rewrite INR_IZR_INZ; reflexivity). lra. }
  assert (Q : 1 / 10 ^ 6 * / 3000 <= gterm n x k).
  { unfold gterm, Rdiv at 2. apply Rmult_le_compat; [lra|lra| |].
    - rewrite <- (Rmult_1_r (1 / 10 ^ 6)). apply Rmult_le_compat; lra.
    - apply Rinv_le_contravar; [apply lt_0_INR; lia|]. replace 3000 with (INR 3000) by (rewrite INR_IZR_INZ; reflexivity). apply le_INR. lia. }
  lra.
Qed.

Lemma gtail_stop n x k : (n <= 1000)%nat -> 0 <= x <= 12 -> gterm n x k < 1 / 10 ^ 15 -> gterm n x (S k) * (INR (S (S k)) / (INR (S (S k)) - x)) <= 12 / 10 ^ 15.
Proof.
  intros Hn Hx H. pose proof (gterm_small n x k Hn Hx H) as L. pose proof (gterm_pos n x k ltac:(lra)) as G0. pose proof (gterm_S n x k ltac:(lra)) as G1. rewrite (S_INR (S k)). rewrite S_INR in *. set (r := INR k) in *. pose proof (pos_INR k) as Hr. fold r in Hr.
  assert (A : 0 <= (r + 1 + 1) / (r + 1 + 1 - x)) by (apply Rmult_le_pos; [lra|left; apply Rinv_0_lt_compat; lra]).
  apply Rle_trans with (gterm n x k * (x / (r + 1)) * ((r + 1 + 1) / (r + 1 + 1 - x))); [apply Rmult_le_compat_r; assumption|].
  assert (B : x / (r + 1) * ((r + 1 + 1) / (r + 1 + 1 - x)) <= 12).
  { replace (x / (r + 1) * ((r + 1 + 1) / (r + 1 + 1 - x))) with ((x * (r + 2)) / ((r + 1) * (r + 2 - x))) by (field; lra).
    apply Rmult_le_reg_r with ((r + 1) * (r + 2 - x)); [apply Rmult_lt_0_compat; lra|]. unfold Rdiv. rewrite Rmult_assoc, Rinv_l by (apply Rgt_not_eq, Rmult_lt_0_compat; lra). nra. }
  rewrite Rmult_assoc. apply Rle_trans with (gterm n x k * 12); [apply Rmult_le_compat_l; assumption|lra].
Qed.

Lemma eterm_exp x k : 0 <= x -> eterm x k <= exp x.
Proof.
  intros Hx. assert (H : erem k x <= exp x) by (induction k as [|k IH]; [rewrite erem_0; lra|]; rewrite erem_S; pose proof (eterm_pos x k Hx); lra).
  pose proof (erem_nonneg (S k) x Hx) as H2. rewrite erem_S in H2. lra.
Qed.

Lemma gtail_100 n x : 0 <= x <= 12 -> gterm n x 100 * (INR 101 / (INR 101 - x)) <= 12 / 10 ^ 15.
Proof.
  intros Hx. assert (E101 : INR 101 = 101) by (rewrite INR_IZR_INZ; reflexivity). rewrite E101.
  assert (T : forall k, (k <= 50)%nat -> eterm x (50 + k) <= eterm x 50 * (1 / 4) ^ k).
  { induction k as [|k IH]; intros Hk; [rewrite Nat.add_0_r; cbn [pow]; lra|]. replace (50 + S k)%nat with (S (50 + k)) by lia. rewrite eterm_S. cbn [pow]. specialize (IH ltac:(lia)).
    rewrite (Rmult_comm (1 / 4)), <- Rmult_assoc. apply Rmult_le_compat; [apply eterm_pos; lra| |exact IH|].
    - apply Rmult_le_pos; [lra|left; apply Rinv_0_lt_compat, lt_0_INR; lia].
    - assert (48 <= INR (S (50 + k))) by (replace 48 with (INR 48) by (rewrite INR_IZR_INZ; reflexivity); apply le_INR; lia). apply Rmult_le_reg_r with (INR (S (50 + k))); [lra|]. unfold Rdiv. rewrite (Rmult_assoc x), Rinv_l by lra. lra. }
  pose proof (T 50%nat ltac:(lia)) as T50. change (50 + 50)%nat with 100%nat in T50.
  assert (G : gterm n x 100 <= (1 / 4) ^ 50).
  { unfold gterm. assert (C : exp (- x) * eterm x 50 <= 1).
    { apply Rle_trans with (exp (- x) * exp x); [apply Rmult_le_compat_l; [left; apply exp_pos|apply eterm_exp; lra]|]. rewrite <- exp_plus, Rplus_opp_l, exp_0. lra. }
    pose proof (exp_pos (- x)) as Ep. pose proof (eterm_pos x 100 ltac:(lra)) as E0.
    apply Rle_trans with (exp (- x) * (eterm x 50 * (1 / 4) ^ 50) * 1).
    - apply Rmult_le_compat; [apply Rmult_le_pos; lra|left; apply Rinv_0_lt_compat, lt_0_INR; lia|apply Rmult_le_compat_l; lra|].
      rewrite <- Rinv_1. apply Rinv_le_contravar; [lra|]. change 1 with (INR 1). apply le_INR. lia.
    - rewrite Rmult_1_r, <- Rmult_assoc. rewrite <- (Rmult_1_l ((1 / 4) ^ 50)) at 2. apply Rmult_le_compat_r; [apply pow_le; lra|exact C]. }
  apply Rle_trans with ((1 / 4) ^ 50 * 2); [|lra]. apply Rmult_le_compat; [apply gterm_pos; lra| |exact G|].
  - apply Rmult_le_pos; [lra|left; apply Rinv_0_lt_compat; lra].
  - apply Rmult_le_reg_r with (101 - x); [lra|]. unfold Rdiv. rewrite Rmult_assoc, Rinv_l by lra. lra.
Qed.

(** ** The series *)
Lemma factz_fact k : IZR (factz k) = INR (fact k).
Proof. induction k as [|k IH]; [reflexivity|]. change (factz (S k)) with (Z.of_nat (S k) * factz k)%Z. rewrite mult_IZR, IH, <- INR_IZR_INZ, <- mult_INR. reflexivity. Qed.

Lemma gfun_loop_ok n x : (n <= 1000)%nat -> 0 <= x <= 12 -> forall fuel k, (k + fuel = 100)%nat ->
  exists s, gfun_loop fuel (Z.of_nat n) x (Z.of_nat k) (rsum k (gterm n x)) = Ok s /\ 0 <= gfun n x - s <= 12 / 10 ^ 15.
Proof.
  intros Hn Hx. induction fuel as [|fuel IH]; intros k Hk.
  - exists (rsum k (gterm n x)). split; [reflexivity|]. replace k with 100%nat by lia. destruct (gfun_series n 100 x) as (L & U); [split; [lra|]; replace (INR 101) with 101 by (rewrite INR_IZR_INZ; reflexivity); lra|].
    split; [exact L|]. eapply Rle_trans; [exact U|]. apply gtail_100. exact Hx.
  - cbn [gfun_loop]. cbv zeta. rewrite factorial_ok by lia. cbn [bind]. rewrite Nat2Z.id.
    replace (exp (- x) * powerRZ x (Z.of_nat k) / IZR (factz k) / (2 * IZR (Z.of_nat n) + 2 * IZR (Z.of_nat k) + 1)) with (gterm n x k).
    2: { unfold gterm, eterm. rewrite factz_fact, <- pow_powerRZ, <- !INR_IZR_INZ. rewrite plus_INR, mult_INR, plus_INR. cbn [INR]. unfold Rdiv. replace ((1 + 1) * (INR n + INR k) + 1) with (2 * INR n + 2 * INR k + 1) by ring. ring. }
    rewrite Rabs_pos_eq by (apply gterm_pos; lra). destruct (Rlt_dec (gterm n x k) (1 / 10 ^ 15)) as [L|L].
    + exists (rsum k (gterm n x) + gterm n x k). split; [reflexivity|]. change (rsum k (gterm n x) + gterm n x k) with (rsum (S k) (gterm n x)).
      pose proof (gterm_small n x k Hn Hx L) as Lk. destruct (gfun_series n (S k) x) as (A & B); [rewrite !S_INR; lra|]. split; [exact A|]. eapply Rle_trans; [exact B|]. apply gtail_stop; assumption.
    + replace (Z.of_nat k + 1)%Z with (Z.of_nat (S k)) by lia. change (rsum k (gterm n x) + gterm n x k) with (rsum (S k) (gterm n x)). apply IH. lia.
Qed.

Lemma gfun_taylor_accurate n x : (0 <= n <= 1000)%Z -> 0 <= x <= 12 -> exists s, gfun_taylor n x = Ok s /\ 0 <= gfun (Z.to_nat n) x - s <= 12 / 10 ^ 15.
Proof.
  intros Hn Hx. destruct (gfun_loop_ok (Z.to_nat n) x ltac:(lia) Hx 100 0 eq_refl) as (s & E & B). rewrite Z2Nat.id in E by lia. exists s. split; [exact E|exact B].
Qed.

(** ** The recurrences *)
(** Π_{lo < j <= hi} 2x/(2j-1): growth of an error of the seed in the downward recurrence *)
Fixpoint down_gain (x : R) (lo cnt : nat) : R := match cnt with O => 1 | S c => down_gain x lo c * (2 * x / (2 * INR (lo + cnt) - 1)) end.
(** Π_{j < n} (2j+1)/(2x): the same for the upward recurrence *)
Fixpoint up_gain (x : R) (n : nat) : R := match n with O => 1 | S k => up_gain x k * ((2 * INR k + 1) / (2 * x)) end.

Lemma down_gain_first x lo c : down_gain x lo (S c) = 2 * x / (2 * INR (S lo) - 1) * down_gain x (S lo) c.
Proof.
  induction c as [|c IH]; [cbn [down_gain]; replace (lo + 1)%nat with (S lo) by lia; ring|]. cbn [down_gain] in *. rewrite IH. replace (S lo + S c)%nat with (lo + S (S c))%nat by lia. ring.
Qed.

Lemma gfun_small x nmax sz g : (0 <= nmax <= 1000)%Z -> 0 <= x <= 12 -> forall daw, adims g = [sz] -> (nmax < sz)%Z ->
  exists g', gfun_values daw x nmax g = Ok g' /\ adims g' = [sz] /\
    (forall n, (0 <= n <= nmax)%Z -> exists v, aget g' [n] = Ok v /\ Rabs (v - gfun (Z.to_nat n) x) <= 12 / 10 ^ 15 * down_gain x (Z.to_nat n) (Z.to_nat (nmax - n))) /\
    (forall n, (nmax < n)%Z -> aget g' [n] = aget g [n]).
Proof.
  intros Hn Hx daw D Hs. unfold gfun_values. destruct (memset0_get (nmax + 1) sz g D ltac:(lia)) as (g1 & -> & D1 & _ & F1). cbn [bind]. destruct (Rle_dec x 12); [|lra].
  destruct (gfun_taylor_accurate nmax x Hn Hx) as (s & -> & Bs). cbn [bind].
  destruct (aset_get g1 [nmax] s) as (g2 & E2 & D2 & G2 & O2); [rewrite D1; apply inb1; lia|]. rewrite E2. cbn [bind].
  destruct (for_down_ok (fun k (g' : arr R) => adims g' = [sz] /\ (forall n, (k <= n <= nmax)%Z -> exists v, aget g' [n] = Ok v /\ Rabs (v - gfun (Z.to_nat n) x) <= 12 / 10 ^ 15 * down_gain x (Z.to_nat n) (Z.to_nat (nmax - n))) /\
    (forall n, (nmax < n)%Z -> aget g' [n] = aget g [n])) nmax 1 (fun n g =>
      let* gn := aget g [n] in
      aset g [n - 1]%Z ((1 - 2 * x * gn) / (2 * IZR n - 1))) g2 ltac:(lia)) as (g' & E & H).
  - split; [congruence|]. split.
    + intros n Hnn. assert (n = nmax) by lia. subst n. exists s. split; [exact G2|]. rewrite Z.sub_diag. cbn [Z.to_nat down_gain]. rewrite Rmult_1_r. apply Rabs_le. lra.
    + intros n Hnn. rewrite O2 by (intros X; injection X as ->; lia). apply F1. intros k Hk X. injection X as ->. lia.
  - intros k g3 Hk (D3 & P3 & O3). destruct (P3 k ltac:(lia)) as (v & Ev & Bv). rewrite Ev. cbn [bind].
    set (w := (1 - 2 * x * v) / (2 * IZR k - 1)). destruct (aset_get g3 [k - 1]%Z w) as (g4 & E4 & D4 & G4 & O4); [rewrite D3; apply inb1; lia|]. exists g4. split; [exact E4|]. split; [congruence|]. split.
    + intros n Hnn. destruct (Z.eq_dec n (k - 1)) as [->|N].
      * exists w. split; [exact G4|]. set (m := Z.to_nat (k - 1)) in *. assert (Em : Z.to_nat k = S m) by lia. rewrite Em in Bv. replace (Z.to_nat (nmax - (k - 1))) with (S (Z.to_nat (nmax - k))) by lia. rewrite down_gain_first.
        assert (Ek : 2 * IZR k - 1 = 2 * INR m + 1) by (replace k with (Z.of_nat (S m)) by lia; rewrite <- INR_IZR_INZ, S_INR; ring). assert (Ek2 : 2 * INR (S m) - 1 = 2 * INR m + 1) by (rewrite S_INR; ring). rewrite Ek2. pose proof (pos_INR m) as Pm.
        replace (w - gfun m x) with (- (2 * x / (2 * INR m + 1)) * (v - gfun (S m) x)).
        2: { unfold w. rewrite Ek. pose proof (gfun_rec m x) as R. replace (gfun m x) with ((1 - 2 * x * gfun (S m) x) / (2 * INR m + 1)) by (apply (Rmult_eq_reg_r (2 * INR m + 1)); [|lra]; unfold Rdiv; rewrite Rmult_assoc, Rinv_l by lra; lra). field. lra. }
        assert (Q : 0 <= 2 * x / (2 * INR m + 1)) by (apply Rmult_le_pos; [lra|left; apply Rinv_0_lt_compat; lra]).
        rewrite Rabs_mult, Rabs_Ropp, (Rabs_pos_eq _ Q). rewrite (Rmult_comm (12 / 10 ^ 15)), Rmult_assoc. apply Rmult_le_compat_l; [exact Q|]. rewrite Rmult_comm. exact Bv.
      * destruct (P3 n ltac:(lia)) as (v' & Ev' & Bv'). exists v'. split; [|exact Bv']. rewrite O4; [exact Ev'|]. intros X. injection X as ->. lia.
    + intros n Hnn. rewrite O4; [apply O3, Hnn|]. intros X. injection X as ->. lia.
  - destruct H as (D' & P' & O'). exists g'. split; [exact E|]. split; [exact D'|]. split; [|exact O']. intros n Hnn. apply P'. lia.
Qed.

(** Dawson's integral *)
Definition dawson_int (y : R) : R := RInt (fun t => exp (t ^ 2 - y ^ 2)) 0 y.

Lemma gfun_dawson x : 0 < x -> gfun 0 x = dawson_int (sqrt x) / sqrt x.
Proof.
  intros Hx. pose proof (sqrt_lt_R0 x Hx) as Hs. set (y := sqrt x) in *. assert (Ey : y * y = x) by (apply sqrt_sqrt; lra).
  assert (I : is_RInt (V := R_NormedModule) (fun t => exp (t ^ 2 - y ^ 2)) (y * 0 + 0) (y * 1 + 0) (dawson_int y)).
  { replace (y * 0 + 0) with 0 by ring. replace (y * 1 + 0) with y by ring. apply cont_RInt. intros t. auto_derive. exact I. }
  apply (is_RInt_comp_lin (V := R_NormedModule)) in I.
  assert (J : is_RInt (V := R_NormedModule) (fun t => y * (t ^ (2 * 0) * exp (- x * (1 - t ^ 2)))) 0 1 (dawson_int y)).
  { eapply is_RInt_ext; [|exact I]. intros t _. match goal with |- ?a = ?b => change (@eq R a b) end. cbn [Nat.mul pow]. rewrite Rmult_1_l. change (y * exp ((y * t + 0) * ((y * t + 0) * 1) - y * (y * 1)) = y * exp (- x * (1 - t * (t * 1)))). f_equal. f_equal. rewrite <- Ey. ring. }
  pose proof (is_RInt_scal (V := R_NormedModule) _ 0 1 y _ (gfun_int 0 x)) as K. pose proof (RInt_eq _ _ _ J K) as E. change (dawson_int y = y * gfun 0 x) in E. rewrite E. field. lra.
Qed.

Lemma gfun_large x nmax sz g daw d e : (0 <= nmax)%Z -> 12 < x -> daw (sqrt x) = Ok d -> Rabs (d - dawson_int (sqrt x)) <= e -> adims g = [sz] -> (nmax < sz)%Z ->
  exists g', gfun_values daw x nmax g = Ok g' /\ adims g' = [sz] /\
    (forall n, (0 <= n <= nmax)%Z -> exists v, aget g' [n] = Ok v /\ Rabs (v - gfun (Z.to_nat n) x) <= e / sqrt x * up_gain x (Z.to_nat n)) /\
    (forall n, (nmax < n)%Z -> aget g' [n] = aget g [n]).
Proof.
  intros Hn Hx Hd He D Hs. unfold gfun_values. destruct (memset0_get (nmax + 1) sz g D ltac:(lia)) as (g1 & -> & D1 & _ & F1). cbn [bind]. destruct (Rle_dec x 12) as [Hle|_]; [lra|]. cbv zeta. rewrite Hd. cbn [bind].
  pose proof (sqrt_lt_R0 x ltac:(lra)) as Hq.
  destruct (aset_get g1 [0]%Z (d / sqrt x)) as (g2 & E2 & D2 & G2 & O2); [rewrite D1; apply inb1; lia|]. rewrite E2. cbn [bind].
  destruct (for_range_ok (fun k (g' : arr R) => adims g' = [sz] /\ (forall n, (0 <= n <= k)%Z -> exists v, aget g' [n] = Ok v /\ Rabs (v - gfun (Z.to_nat n) x) <= e / sqrt x * up_gain x (Z.to_nat n)) /\
    (forall n, (nmax < n)%Z -> aget g' [n] = aget g [n])) 0 nmax (fun n g =>
      let* gn := aget g [n] in
      aset g [n + 1]%Z ((1 - IZR (2 * n + 1) * gn) / (2 * x))) g2 ltac:(lia)) as (g' & E & H).
  - split; [congruence|]. split.
    + intros n Hnn. assert (n = 0)%Z by lia. subst n. exists (d / sqrt x). split; [exact G2|]. cbn [Z.to_nat up_gain]. rewrite Rmult_1_r, gfun_dawson by lra.
      replace (d / sqrt x - dawson_int (sqrt x) / sqrt x) with ((d - dawson_int (sqrt x)) * / sqrt x) by (field; lra). rewrite Rabs_mult, (Rabs_pos_eq (/ sqrt x)) by (left; apply Rinv_0_lt_compat, Hq).
      apply Rmult_le_compat_r; [left; apply Rinv_0_lt_compat, Hq|exact He].
    + intros n Hnn. rewrite O2 by (intros X; injection X as ->; lia). apply F1. intros k Hk X. injection X as ->. lia.
  - intros k g3 Hk (D3 & P3 & O3). destruct (P3 k ltac:(lia)) as (v & Ev & Bv). rewrite Ev. cbn [bind].
    set (w := (1 - IZR (2 * k + 1) * v) / (2 * x)). destruct (aset_get g3 [k + 1]%Z w) as (g4 & E4 & D4 & G4 & O4); [rewrite D3; apply inb1; lia|]. exists g4. split; [exact E4|]. split; [congruence|]. split.
    + intros n Hnn. destruct (Z.eq_dec n (k + 1)) as [->|N].
      * exists w. split; [exact G4|]. set (m := Z.to_nat k) in *. replace (Z.to_nat (k + 1)) with (S m) by lia. cbn [up_gain].
        assert (Ek : IZR (2 * k + 1) = 2 * INR m + 1) by (replace k with (Z.of_nat m) by lia; rewrite plus_IZR, mult_IZR, <- INR_IZR_INZ; reflexivity). pose proof (pos_INR m) as Pm.
        replace (w - gfun (S m) x) with (- ((2 * INR m + 1) / (2 * x)) * (v - gfun m x)).
        2: { unfold w. rewrite Ek. pose proof (gfun_rec m x) as R. replace (gfun (S m) x) with ((1 - (2 * INR m + 1) * gfun m x) / (2 * x)) by (apply (Rmult_eq_reg_r (2 * x)); [|lra]; unfold Rdiv; rewrite Rmult_assoc, Rinv_l by lra; lra). field. lra. }
        assert (Q : 0 <= (2 * INR m + 1) / (2 * x)) by (apply Rmult_le_pos; [lra|left; apply Rinv_0_lt_compat; lra]).
        rewrite Rabs_mult, Rabs_Ropp, (Rabs_pos_eq _ Q). rewrite <- Rmult_assoc, (Rmult_comm _ ((2 * INR m + 1) / (2 * x))). apply Rmult_le_compat_l; [exact Q|exact Bv].
      * destruct (P3 n ltac:(lia)) as (v' & Ev' & Bv'). exists v'. split; [|exact Bv']. rewrite O4; [exact Ev'|]. intros X. injection X as ->. lia.
    + intros n Hnn. rewrite O4; [apply O3, Hnn|]. intros X. injection X as ->. lia.
  - destruct H as (D' & P' & O'). exists g'. split; [exact E|]. split; [exact D'|]. split; [|exact O']. intros n Hnn. apply P'. lia.
Qed.
