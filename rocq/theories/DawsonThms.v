(** * Accuracy of Dawson's integral for every argument *)

From Coq Require Import ZArith List Lia Bool Reals Lra.
From Coquelicot Require Import Coquelicot.
From Verif Require Import Base DawsonTable DawsonModel OneElProofs DawsonProofs GfunThms FermiTaylor DawsonAcc.
Import ListNotations.
Open Scope R_scope.

Lemma near_1 : near daw_1_175 11 3 15900.
Proof.
  apply (near_start _ _ _ _ (laltz (coefs daw_1_175)) 100); [vm_compute; reflexivity| |vm_compute; reflexivity].
  replace (IZR (11 - 3) / 8) with 1 by (cbn; field). exact dawson_at_1.
Qed.
Lemma near_2 : near daw_175_250 17 3 16000.
Proof. apply (near_next daw_1_175 11 3 15900); [exact near_1|vm_compute; reflexivity|lia|reflexivity|vm_compute; reflexivity|vm_compute; reflexivity]. Qed.
Lemma near_3 : near daw_250_325 23 3 16100.
Proof. apply (near_next daw_175_250 17 3 16000); [exact near_2|vm_compute; reflexivity|lia|reflexivity|vm_compute; reflexivity|vm_compute; reflexivity]. Qed.
Lemma near_4 : near daw_325_425 30 4 16200.
Proof. apply (near_next daw_250_325 23 3 16100); [exact near_3|vm_compute; reflexivity|lia|reflexivity|vm_compute; reflexivity|vm_compute; reflexivity]. Qed.
Lemma near_5 : near daw_425_550 39 5 16300.
Proof. apply (near_next daw_325_425 30 4 16200); [exact near_4|vm_compute; reflexivity|lia|reflexivity|vm_compute; reflexivity|vm_compute; reflexivity]. Qed.
Lemma near_6 : near daw_550_725 51 7 16500.
Proof. apply (near_next daw_425_550 39 5 16300); [exact near_5|vm_compute; reflexivity|lia|reflexivity|vm_compute; reflexivity|vm_compute; reflexivity]. Qed.

(** ** The asymptotic expansion *)

Lemma aterm_deriv k s : s <> 0 -> is_derive (fun s => aterm s k / (2 * s)) s (- aterm s (S k)).
Proof.
  intros Hs. induction k as [|k IH].
  - cbn [aterm]. auto_derive; [lra|]. cbn [INR]. field. exact Hs.
  - apply (is_derive_ext (fun s => aterm s k / (2 * s) * ((2 * INR k + 1) / (2 * (s * s))))).
    { intros t. eqr. cbn [aterm]. destruct (Req_dec t 0) as [-> | Ht].
      - unfold Rdiv. rewrite !Rmult_0_r, Rinv_0. ring.
      - field. exact Ht. }
    assert (Y : is_derive (fun s => (2 * INR k + 1) / (2 * (s * s))) s (- (2 * INR k + 1) / (s * s * s))) by (auto_derive; [nra|field; exact Hs]).
    pose proof (is_derive_mult _ _ s _ _ IH Y Rmult_comm) as P.
    replace (- aterm s (S (S k))) with (plus (mult (- aterm s (S k)) ((2 * INR k + 1) / (2 * (s * s)))) (mult (aterm s k / (2 * s)) (- (2 * INR k + 1) / (s * s * s)))); [exact P|].
    change (- aterm s (S k) * ((2 * INR k + 1) / (2 * (s * s))) + aterm s k / (2 * s) * (- (2 * INR k + 1) / (s * s * s)) = - aterm s (S (S k))).
    cbn [aterm]. rewrite S_INR. field. exact Hs.
Qed.

Definition aq (N : nat) (s : R) : R := rsum N (aterm s) / (2 * s).

Lemma aq_S N s : aq (S N) s = aq N s + aterm s N / (2 * s).
Proof. unfold aq. cbn [rsum]. unfold Rdiv. ring. Qed.

Lemma aq_deriv N s : s <> 0 -> is_derive (aq N) s (1 - 2 * s * aq N s - aterm s N).
Proof.
  intros Hs. induction N as [|N IH].
  - apply (is_derive_ext (fun _ => 0)); [intros t; eqr; unfold aq; cbn [rsum]; unfold Rdiv; ring|].
    replace (1 - 2 * s * aq 0 s - aterm s 0) with 0 by (unfold aq; cbn [rsum aterm]; unfold Rdiv; ring). apply @is_derive_const.
  - apply (is_derive_ext (fun s => plus (aq N s) (aterm s N / (2 * s)))); [intros t; eqr; symmetry; apply aq_S|].
    pose proof (is_derive_plus _ _ s _ _ IH (aterm_deriv N s Hs)) as P.
    replace (1 - 2 * s * aq (S N) s - aterm s (S N)) with (plus (1 - 2 * s * aq N s - aterm s N) (- aterm s (S N))); [exact P|].
    change (1 - 2 * s * aq N s - aterm s N + - aterm s (S N) = 1 - 2 * s * aq (S N) s - aterm s (S N)). rewrite aq_S. field. exact Hs.
Qed.

Lemma aterm_pos k s : 0 < s -> 0 < aterm s k.
Proof.
  intros Hs. induction k as [|k IH]; cbn [aterm]; [lra|]. pose proof (pos_INR k). apply Rdiv_lt_0_compat; [apply Rmult_lt_0_compat; lra|]. repeat (assumption || apply Rmult_lt_0_compat); lra.
Qed.

Lemma aterm_decr k s x : 0 < s <= x -> aterm x k <= aterm s k.
Proof.
  intros Hs. induction k as [|k IH]; cbn [aterm]; [lra|]. pose proof (pos_INR k). pose proof (aterm_pos k x ltac:(lra)).
  unfold Rdiv. apply Rmult_le_compat; [apply Rmult_le_pos; lra|left; apply Rinv_0_lt_compat; nra| |].
  - apply Rmult_le_compat_r; lra.
  - apply Rinv_le_contravar; nra.
Qed.

(** at the left end 29/4 *)
Fixpoint anum (n : nat) : Z * Z * Z :=   (* 841^n, 841^n times the n-th term, 841^n times the sum of n terms *)
  match n with O => (1, 1, 0)%Z | S k => let '(f, a, s) := anum k in ((f * 841)%Z, (a * (2 * Z.of_nat k + 1) * 8)%Z, ((s + a) * 841)%Z) end.

Lemma anum_ok n : let '(f, a, s) := anum n in (0 < f)%Z /\ IZR a / IZR f = aterm (29 / 4) n /\ IZR s / IZR f = rsum n (aterm (29 / 4)).
Proof.
  induction n as [|n IH].
  - cbn. split; [lia|]. split; field.
  - cbn [anum]. destruct (anum n) as [[f a] s]. destruct IH as (F & A & S). apply IZR_lt in F as F'.
    split; [lia|]. split.
    + cbn [aterm]. rewrite <- A, !mult_IZR, plus_IZR, mult_IZR, <- INR_IZR_INZ. field. lra.
    + cbn [rsum]. rewrite <- S, <- A, !mult_IZR, plus_IZR. field. lra.
Qed.

Lemma at_27 : aterm (29 / 4) 27 < ldbl_epsilon / 2.
Proof.
  pose proof (anum_ok 27) as P. destruct (anum 27) as [[f a] s] eqn:E. destruct P as (F & A & _).
  assert (Ef : f = fst (fst (anum 27))) by (rewrite E; reflexivity). assert (Ea : a = snd (fst (anum 27))) by (rewrite E; reflexivity). vm_compute in Ef, Ea. subst f a.
  rewrite <- A. unfold ldbl_epsilon. lra.
Qed.

Lemma at_end : Rabs (IZR (lsumz (coefs daw_550_725)) / IZR (10 ^ 44) - dawson_int (29 / 4)) <= 16500 / 10 ^ 24.
Proof.
  assert (E : IZR (51 + 7) / 8 = 29 / 4) by (change (51 + 7)%Z with 58%Z; field). rewrite <- E. rewrite <- (piece_up daw_550_725 51 7); [|vm_compute; reflexivity|lia]. apply near_6. split; [|lra]. apply Rmult_le_compat_r; [lra|]. apply IZR_le. lia.
Qed.

(** the first 28 terms: below the integral, and above it with three times the next one *)
Lemma end_28 : aq 28 (29 / 4) <= dawson_int (29 / 4) + 17000 / 10 ^ 24 /\ dawson_int (29 / 4) <= aq 28 (29 / 4) + 3 * (aterm (29 / 4) 28 / (2 * (29 / 4))) + 17000 / 10 ^ 24.
Proof.
  pose proof at_end as B. apply Rabs_le_between in B. pose proof (anum_ok 28) as P. unfold aq. destruct (anum 28) as [[f a] s] eqn:E. destruct P as (F & A & S). rewrite <- S, <- A.
  assert (Ef : f = fst (fst (anum 28))) by (rewrite E; reflexivity). assert (Ea : a = snd (fst (anum 28))) by (rewrite E; reflexivity). assert (Es : s = snd (anum 28)) by (rewrite E; reflexivity). vm_compute in Ef, Ea, Es.
  set (u := IZR (lsumz (coefs daw_550_725)) / IZR (10 ^ 44)) in *.
  assert (C : IZR s / IZR f / (2 * (29 / 4)) <= u + 1 / 10 ^ 24 /\ u <= IZR s / IZR f / (2 * (29 / 4)) + 3 * (IZR a / IZR f / (2 * (29 / 4))) + 1 / 10 ^ 24).
  { unfold u. assert (El : exists z, z = lsumz (coefs daw_550_725)) by eauto. destruct El as (z & El). rewrite <- El. vm_compute in El. change (10 ^ 44)%Z with 100000000000000000000000000000000000000000000%Z. clear E A S F B u. subst s f a z. split; lra. }
  lra.
Qed.

Lemma aq_incr s : 0 < s -> forall j M, aq M s <= aq (M + j) s.
Proof.
  intros Hs. induction j as [|j IH]; intros M; [rewrite Nat.add_0_r; lra|]. rewrite Nat.add_succ_r, aq_S. pose proof (aterm_pos (M + j) s Hs). assert (0 < aterm s (M + j) / (2 * s)) by (apply Rdiv_lt_0_compat; lra). specialize (IH M). lra.
Qed.

Lemma aterm_ratio M s : 29 / 4 <= s -> (M <= 28)%nat -> 3 * aterm s (S M) <= 2 * aterm s M.
Proof.
  intros Hs HM. cbn [aterm]. pose proof (aterm_pos M s ltac:(lra)) as A. apply le_INR in HM. change (INR 28) with (INR (Z.to_nat 28)) in HM. rewrite (INR_IZR_INZ (Z.to_nat 28)), Z2Nat.id in HM by lia.
  assert (D : 0 < 2 * s * s) by nra. unfold Rdiv. rewrite <- Rmult_assoc. apply Rle_div_l; [exact D|].
  replace (3 * (aterm s M * (2 * INR M + 1))) with (aterm s M * (3 * (2 * INR M + 1))) by ring. replace (2 * aterm s M * (2 * s * s)) with (aterm s M * (4 * (s * s))) by ring. apply Rmult_le_compat_l; [lra|]. nra.
Qed.

Lemma end_M j : forall M, (M + j = 28)%nat -> aq 28 (29 / 4) + 3 * (aterm (29 / 4) 28 / (2 * (29 / 4))) <= aq M (29 / 4) + 3 * (aterm (29 / 4) M / (2 * (29 / 4))).
Proof.
  induction j as [|j IH]; intros M HM; [rewrite Nat.add_0_r in HM; subst M; lra|].
  eapply Rle_trans; [apply (IH (S M)); lia|]. rewrite aq_S. pose proof (aterm_ratio M (29 / 4) ltac:(lra) ltac:(lia)) as B. cbn [aterm] in *. lra.
Qed.

Lemma asym_close M x : 29 / 4 <= x -> (M <= 28)%nat -> aq M x - 17000 / 10 ^ 24 <= dawson_int x <= aq M x + 3 * (aterm x M / (2 * x)) + 17000 / 10 ^ 24.
Proof.
  intros Hx HM. destruct end_28 as (EL & EU). split.
  - assert (aq M x <= dawson_int x + 17000 / 10 ^ 24); [|lra].
    apply (compare (aq M) (fun s => 1 - 2 * s * aq M s - aterm s M) (fun s => dawson_int s + 17000 / 10 ^ 24) (fun s => 1 - 2 * s * dawson_int s) (29 / 4) x Hx).
    + intros s Hs. apply aq_deriv. lra.
    + intros s _. replace (1 - 2 * s * dawson_int s) with (plus (1 - 2 * s * dawson_int s) 0) by apply Rplus_0_r.
      apply (is_derive_plus dawson_int (fun _ => 17000 / 10 ^ 24) s); [apply dawson_deriv|apply @is_derive_const].
    + intros s Hs. pose proof (aterm_pos M s ltac:(lra)). assert (0 < 2 * s * (17000 / 10 ^ 24)) by (apply Rmult_lt_0_compat; [lra|apply Rdiv_lt_0_compat; lra]). lra.
    + pose proof (aq_incr (29 / 4) ltac:(lra) (28 - M) M) as B. replace (M + (28 - M))%nat with 28%nat in B by lia. lra.
  - apply (compare dawson_int (fun s => 1 - 2 * s * dawson_int s) (fun s => aq M s + 3 * (aterm s M / (2 * s)) + 17000 / 10 ^ 24) (fun s => 1 - 2 * s * aq M s - aterm s M + 3 * (- aterm s (S M))) (29 / 4) x Hx).
    + intros s _. apply dawson_deriv.
    + intros s Hs. assert (Hs' : s <> 0) by lra.
      pose proof (is_derive_plus _ _ s _ _ (is_derive_plus _ _ s _ _ (aq_deriv M s Hs') (is_derive_scal _ s 3 _ (aterm_deriv M s Hs'))) (is_derive_const (V := R_NormedModule) (17000 / 10 ^ 24) s)) as P.
      replace (1 - 2 * s * aq M s - aterm s M + 3 * - aterm s (S M)) with (plus (plus (1 - 2 * s * aq M s - aterm s M) (3 * - aterm s (S M))) zero) by apply Rplus_0_r. exact P.
    + intros s Hs. pose proof (aterm_ratio M s ltac:(lra) HM) as B. assert (0 < 2 * s * (17000 / 10 ^ 24)) by (apply Rmult_lt_0_compat; [lra|apply Rdiv_lt_0_compat; lra]).
      replace (2 * s * (aq M s + 3 * (aterm s M / (2 * s)) + 17000 / 10 ^ 24)) with (2 * s * aq M s + 3 * aterm s M + 2 * s * (17000 / 10 ^ 24)) by (field; lra). lra.
    + pose proof (end_M (28 - M) M ltac:(lia)). lra.
Qed.

(** ** Every argument *)

Lemma power_small x N : 0 <= x <= 1 -> (1 <= N)%nat -> (x <> 0 -> Rabs (pterm x N) <= ldbl_epsilon / 2 * Rabs (rsum N (pterm x))) -> Rabs (x * rsum N (pterm x) - dawson_int x) <= ldbl_epsilon / 2.
Proof.
  intros Hx HN H. eapply Rle_trans; [apply pseries_close; lra|].
  assert (Ep : 0 < ldbl_epsilon) by (unfold ldbl_epsilon; apply Rinv_0_lt_compat, pow_lt; lra).
  destruct (Req_dec x 0) as [-> | Hn]; [lra|]. specialize (H Hn).
  pose proof (psum_pos x N ltac:(rewrite Rabs_pos_eq; lra) HN) as B. rewrite (Rabs_pos_eq (rsum N _)) in H by lra. pose proof (Rabs_pos (pterm x N)).
  assert (Rabs (pterm x N) <= ldbl_epsilon / 2 * 1) by (eapply Rle_trans; [exact H|]; apply Rmult_le_compat_l; lra). nra.
Qed.

Lemma dawson_accurate_pos x : 0 <= x -> exists v, dawsons_integral dawson_fuel x = Ok v /\ Rabs (v - dawson_int x) <= ldbl_epsilon / 2.
Proof.
  intros Hx. assert (EE : 54 / 10 ^ 21 < ldbl_epsilon / 2 < 55 / 10 ^ 21) by (unfold ldbl_epsilon; lra).
  unfold dawsons_integral. rewrite (Rabs_pos_eq x) by exact Hx.
  destruct (Rle_dec x 1) as [H1 | H1].
  { destruct (power_series_spec x ltac:(rewrite Rabs_pos_eq; lra)) as (N & HN & E & B). exists (x * rsum N (pterm x)). split; [exact E|]. apply power_small; [lra|exact HN|exact B]. }
  assert (P : forall c M H K, near c M H K -> c <> [] -> IZR K <= 17000 -> IZR (M - H) / 8 <= x <= IZR (M + H) / 8 ->
    exists v, dawson_chebyshev c (IZR (M - H) / 8) (IZR (M + H) / 8) x = Ok v /\ Rabs (v - dawson_int x) <= ldbl_epsilon / 2).
  { intros c M H K HN Hc HK Hr. rewrite dawson_chebyshev_ok by exact Hc. destruct (Rlt_dec 0 x) as [_ | N]; [|lra]. rewrite (Rabs_pos_eq x) by exact Hx. eexists. split; [reflexivity|].
    eapply Rle_trans; [apply HN; exact Hr|]. lra. }
  destruct (Rle_dec x 1.75) as [H2 | H2].
  { pose proof (P _ _ _ _ near_1 ltac:(discriminate) ltac:(lra)) as Q. change (11 - 3)%Z with 8%Z in Q. change (11 + 3)%Z with 14%Z in Q. replace (8 / 8) with 1 in Q by lra. replace (14 / 8) with 1.75 in Q by lra. apply Q. lra. }
  destruct (Rle_dec x 2.5) as [H3 | H3].
  { pose proof (P _ _ _ _ near_2 ltac:(discriminate) ltac:(lra)) as Q. change (17 - 3)%Z with 14%Z in Q. change (17 + 3)%Z with 20%Z in Q. replace (14 / 8) with 1.75 in Q by lra. replace (20 / 8) with 2.5 in Q by lra. apply Q. lra. }
  destruct (Rle_dec x 3.25) as [H4 | H4].
  { pose proof (P _ _ _ _ near_3 ltac:(discriminate) ltac:(lra)) as Q. change (23 - 3)%Z with 20%Z in Q. change (23 + 3)%Z with 26%Z in Q. replace (20 / 8) with 2.5 in Q by lra. replace (26 / 8) with 3.25 in Q by lra. apply Q. lra. }
  destruct (Rle_dec x 4.25) as [H5 | H5].
  { pose proof (P _ _ _ _ near_4 ltac:(discriminate) ltac:(lra)) as Q. change (30 - 4)%Z with 26%Z in Q. change (30 + 4)%Z with 34%Z in Q. replace (26 / 8) with 3.25 in Q by lra. replace (34 / 8) with 4.25 in Q by lra. apply Q. lra. }
  destruct (Rle_dec x 5.5) as [H6 | H6].
  { pose proof (P _ _ _ _ near_5 ltac:(discriminate) ltac:(lra)) as Q. change (39 - 5)%Z with 34%Z in Q. change (39 + 5)%Z with 44%Z in Q. replace (34 / 8) with 4.25 in Q by lra. replace (44 / 8) with 5.5 in Q by lra. apply Q. lra. }
  destruct (Rle_dec x 7.25) as [H7 | H7].
  { pose proof (P _ _ _ _ near_6 ltac:(discriminate) ltac:(lra)) as Q. change (51 - 7)%Z with 44%Z in Q. change (51 + 7)%Z with 58%Z in Q. replace (44 / 8) with 5.5 in Q by lra. replace (58 / 8) with 7.25 in Q by lra. apply Q. lra. }
  clear P. destruct (asymptotic_ok x ltac:(lra)) as (N & HN & E & Hend & Hbig). eexists. split; [exact E|]. fold (aq (S N) x).
  assert (Hx' : 29 / 4 <= x) by lra.
  assert (N27 : (N <= 27)%nat).
  { destruct (le_lt_dec N 27) as [L | L]; [exact L|exfalso]. pose proof (Hbig 27%nat ltac:(lia)) as B. pose proof (aterm_decr 27 (29 / 4) x ltac:(lra)). pose proof at_27. lra. }
  destruct Hend as [-> | Hend]; [lia|].
  pose proof (asym_close (S N) x Hx' ltac:(lia)) as B. pose proof (aterm_ratio N x Hx' ltac:(lia)) as R.
  assert (T : aterm x (S N) / (2 * x) <= 4 / 10 ^ 21).
  { apply Rle_div_l; [lra|]. lra. }
  apply Rabs_le. lra.
Qed.

Lemma dawson_accuracy_thm : forall x, exists v, dawsons_integral dawson_fuel x = Ok v /\ Rabs (v - dawson_int x) <= / 2 ^ 64.
Proof.
  intros x. replace (/ 2 ^ 64) with (ldbl_epsilon / 2) by (unfold ldbl_epsilon; lra).
  destruct (Rle_dec 0 x) as [H | H]; [apply dawson_accurate_pos; exact H|].
  destruct (dawson_accurate_pos (- x) ltac:(lra)) as (v & E & B). exists (- v). split.
  - rewrite <- (Ropp_involutive x), dawson_odd, E. reflexivity.
  - rewrite dawson_int_odd in B. replace (- v - dawson_int x) with (- (v - - dawson_int x)) by ring. rewrite Rabs_Ropp. exact B.
Qed.
