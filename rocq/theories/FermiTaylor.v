(** * S_k(x): bounds, first terms of the exponential series, Taylor expansion *)

From Coq Require Import ZArith Reals Lra Lia List.
From Coquelicot Require Import Coquelicot.
From Verif Require Import OneElProofs FermiSk NucPot SpecExp.
Open Scope R_scope.

Lemma mono (f g : R -> R) a b : a <= b -> (forall s, a <= s <= b -> is_derive f s (g s)) -> (forall s, a <= s <= b -> 0 <= g s) -> f a <= f b.
Proof.
  intros Hab Hd Hg. destruct (MVT_gen f a b g) as (c & Hc & E).
  - intros s Hs. rewrite Rmin_left, Rmax_right in Hs by exact Hab. apply Hd. lra.
  - intros s Hs. rewrite Rmin_left, Rmax_right in Hs by exact Hab. apply continuity_pt_filterlim. apply (ex_derive_continuous (V := R_NormedModule)). eexists. apply Hd. lra.
  - rewrite Rmin_left, Rmax_right in Hc by exact Hab. pose proof (Hg c Hc). nra.
Qed.

(** ** Functions vanishing at minus infinity *)
Lemma decay_half F f K n B : (forall s, is_derive F s (f s)) -> 0 < n -> 0 <= B -> (forall s, s <= 0 -> f s <= K * exp (n * s)) -> (forall s, s <= 0 -> Rabs (F s) <= B * exp s) -> 0 <= K ->
  forall x, x <= 0 -> F x <= K / n * exp (n * x).
Proof.
  intros HF Hn HB Hf Hdec HK x Hx. apply Rnot_lt_le. intros Hlt. set (d := F x - K / n * exp (n * x)). assert (Hd : 0 < d) by (unfold d; lra).
  set (t := Rmin x (ln (d / (2 * (B + 1))))). assert (Ht : t <= x) by apply Rmin_l.
  assert (Et : B * exp t < d).
  { apply Rle_lt_trans with (B * (d / (2 * (B + 1)))).
    - apply Rmult_le_compat_l; [exact HB|]. rewrite <- (exp_ln (d / (2 * (B + 1)))) by (apply Rdiv_lt_0_compat; lra). destruct (Rmin_r x (ln (d / (2 * (B + 1))))) as [H | H]; [left; apply exp_increasing; exact H|right; f_equal; exact H].
    - apply (Rmult_lt_reg_r (2 * (B + 1))); [lra|]. unfold Rdiv. rewrite Rmult_assoc, (Rmult_assoc d), Rinv_l by lra. nra. }
  pose proof (mono (fun s => K / n * exp (n * s) - F s) (fun s => K * exp (n * s) - f s) t x Ht) as M. cbv beta in M.
  assert (K / n * exp (n * t) - F t <= K / n * exp (n * x) - F x).
  { apply M.
    - intros s _. apply (is_derive_minus (fun s => K / n * exp (n * s)) F s (K * exp (n * s)) (f s)); [|apply HF]. auto_derive; [exact I|]. field. lra.
    - intros s Hs. specialize (Hf s ltac:(lra)). lra. }
  pose proof (Hdec t ltac:(lra)) as D. apply Rabs_le_between in D. assert (0 <= K / n * exp (n * t)) by (apply Rmult_le_pos; [apply Rmult_le_pos; [exact HK|left; apply Rinv_0_lt_compat, Hn]|left; apply exp_pos]). unfold d in *. lra.
Qed.

Lemma decay_step F f K n B : (forall s, is_derive F s (f s)) -> 0 < n -> 0 <= B -> (forall s, s <= 0 -> Rabs (f s) <= K * exp (n * s)) -> (forall s, s <= 0 -> Rabs (F s) <= B * exp s) -> 0 <= K ->
  forall x, x <= 0 -> Rabs (F x) <= K / n * exp (n * x).
Proof.
  intros HF Hn HB Hf Hdec HK x Hx. apply Rabs_le. split.
  - pose proof (decay_half (fun s => - F s) (fun s => - f s) K n B) as H. cbv beta in H. assert (- F x <= K / n * exp (n * x)); [|lra]. apply H; try assumption.
    + intros s. apply (is_derive_opp F s (f s)), HF.
    + intros s Hs. specialize (Hf s Hs). apply Rabs_le_between in Hf. lra.
    + intros s Hs. rewrite Rabs_Ropp. apply Hdec, Hs.
  - apply (decay_half F f K n B); try assumption. intros s Hs. specialize (Hf s Hs). apply Rabs_le_between in Hf. lra.
Qed.

(** ** The first terms of the series *)
Fixpoint first_terms (N j : nat) (x : R) : R :=
  match N with O => 0 | S M => first_terms M j x + (-1) ^ N * exp (INR N * x) / INR N ^ j end.

Lemma first_terms_deriv N j x : is_derive (first_terms N (S j)) x (first_terms N j x).
Proof.
  induction N as [|M IH]; [apply @is_derive_const|]. cbn [first_terms]. apply (is_derive_plus (first_terms M (S j)) (fun x => (-1) ^ S M * exp (INR (S M) * x) / INR (S M) ^ S j)); [exact IH|].
  assert (0 < INR (S M)) by (apply lt_0_INR; lia). assert (0 < INR (S M) ^ j) by (apply pow_lt; assumption). generalize dependent (INR (S M)). intros m Hm Hp. auto_derive; [exact I|]. cbn [pow]. field. split; lra.
Qed.

Lemma first_terms_bound N j x : x <= 0 -> Rabs (first_terms N j x) <= INR N * exp x.
Proof.
  intros Hx. induction N as [|M IH]; [cbn [first_terms INR]; rewrite Rabs_R0; lra|]. cbn [first_terms]. eapply Rle_trans; [apply Rabs_triang|]. rewrite (S_INR M) at 3. rewrite Rmult_plus_distr_r, Rmult_1_l. apply Rplus_le_compat; [exact IH|].
  assert (1 <= INR (S M)) by (rewrite S_INR; pose proof (pos_INR M); lra). unfold Rdiv. rewrite !Rabs_mult, neg_pow_abs, Rmult_1_l, (Rabs_pos_eq (exp _)) by (left; apply exp_pos).
  assert (Hp : 1 <= INR (S M) ^ j) by (apply pow_R1_Rle; assumption). rewrite Rabs_pos_eq by (left; apply Rinv_0_lt_compat; lra).
  assert (/ INR (S M) ^ j <= 1) by (rewrite <- Rinv_1; apply Rinv_le_contravar; lra). assert (exp (INR (S M) * x) <= exp x). { destruct (Req_dec (INR (S M) * x) x) as [E | E]; [rewrite E; lra|]. left. apply exp_increasing. nra. }
  assert (0 <= / INR (S M) ^ j) by (left; apply Rinv_0_lt_compat; lra). pose proof (exp_pos x). pose proof (exp_pos (INR (S M) * x)). nra.
Qed.

Lemma exp_nat n x : exp (INR n * x) = exp x ^ n.
Proof. induction n as [|n IH]; [cbn; rewrite Rmult_0_l; apply exp_0|]. rewrite S_INR, Rmult_plus_distr_r, Rmult_1_l, exp_plus, IH. cbn [pow]. ring. Qed.

Lemma first_terms_0 N x : S0 x - first_terms N 0 x = (-1) ^ S N * (exp x ^ S N / (1 + exp x)).
Proof.
  pose proof (exp_pos x). induction N as [|M IH].
  - cbn [first_terms pow]. unfold S0. field. lra.
  - cbn [first_terms]. rewrite exp_nat. replace (S0 x - (first_terms M 0 x + (-1) ^ S M * exp x ^ S M / INR (S M) ^ 0)) with (S0 x - first_terms M 0 x - (-1) ^ S M * exp x ^ S M) by (cbn [pow]; field).
    rewrite IH. cbn [pow]. field. lra.
Qed.

Lemma first_terms_close N j x : x <= 0 -> Rabs (Sx j x - first_terms N j x) <= exp (INR (S N) * x) / INR (S N) ^ j.
Proof.
  revert x. induction j as [|j IH]; intros x Hx.
  - cbn [Sx]. rewrite first_terms_0, exp_nat. rewrite Rabs_mult, neg_pow_abs, Rmult_1_l. pose proof (exp_pos x). assert (0 < exp x ^ S N) by (apply pow_lt; assumption). rewrite Rabs_pos_eq by (apply Rmult_le_pos; [lra|left; apply Rinv_0_lt_compat; lra]).
    change (INR (S N) ^ 0) with 1. unfold Rdiv. apply Rmult_le_compat_l; [lra|]. apply Rinv_le_contravar; lra.
  - assert (Hn : 0 < INR (S N)) by (apply lt_0_INR; lia). assert (Hp : 0 < INR (S N) ^ j) by (apply pow_lt; assumption).
    replace (exp (INR (S N) * x) / INR (S N) ^ S j) with (/ INR (S N) ^ j / INR (S N) * exp (INR (S N) * x)) by (cbn [pow]; field; split; lra).
    apply (decay_step (fun s => Sx (S j) s - first_terms N (S j) s) (fun s => Sx j s - first_terms N j s) (/ INR (S N) ^ j) (INR (S N)) (2 + INR N)); try assumption.
    + intros s. apply (is_derive_minus (Sx (S j)) (first_terms N (S j)) s); [apply Sx_deriv|apply first_terms_deriv].
    + pose proof (pos_INR N). lra.
    + intros s Hs. rewrite Rmult_comm. apply IH, Hs.
    + intros s Hs. unfold Rminus. eapply Rle_trans; [apply Rabs_triang|]. rewrite Rabs_Ropp. pose proof (Sx_decay (S j) s Hs). pose proof (first_terms_bound N (S j) s Hs). lra.
    + left. apply Rinv_0_lt_compat. exact Hp.
Qed.

Lemma Sx_bound j x : x <= 0 -> Rabs (Sx j x) <= exp x.
Proof.
  intros Hx. pose proof (first_terms_close 0 j x Hx) as H. cbn [first_terms] in H. rewrite Rminus_0_r in H. change (INR 1) with 1 in H. rewrite pow1, Rmult_1_l in H. lra.
Qed.

(** ** Negative orders *)
Definition S1m (x : R) : R := S0 x * (1 + S0 x).
Definition S2m (x : R) : R := S1m x * (1 + 2 * S0 x).
Definition S3m (x : R) : R := S2m x * (1 + 2 * S0 x) + 2 * (S1m x * S1m x).
Definition S4m (x : R) : R := S3m x * (1 + 2 * S0 x) + 6 * (S1m x * S2m x).
Definition S5m (x : R) : R := S4m x * (1 + 2 * S0 x) + 8 * (S1m x * S3m x) + 6 * (S2m x * S2m x).

(** S_(n-5) *)
Definition G (n : nat) : R -> R :=
  match n with O => S5m | S O => S4m | S (S O) => S3m | S (S (S O)) => S2m | S (S (S (S O))) => S1m | S (S (S (S (S j)))) => Sx j end.

Lemma G_deriv n x : is_derive (G (S n)) x (G n x).
Proof.
  destruct n as [|[|[|[|[|j]]]]]; cbn [G]; [| | | | |apply Sx_deriv].
  all: cbn [Sx]; unfold S5m, S4m, S3m, S2m, S1m, S0; pose proof (exp_pos x); auto_derive; [lra|]; field; lra.
Qed.

Lemma S0_range x : x <= 0 -> -1/2 <= S0 x <= 0 /\ - exp x <= S0 x.
Proof.
  intros Hx. pose proof (exp_pos x). assert (exp x <= 1). { rewrite <- exp_0. destruct Hx as [Hx | ->]; [left; apply exp_increasing, Hx|right; reflexivity]. }
  unfold S0. set (e := exp x) in *. assert (E : e / (1 + e) * (1 + e) = e) by (field; lra). assert (0 <= e / (1 + e)) by (apply Rmult_le_pos; [lra|left; apply Rinv_0_lt_compat; lra]). split; [|nra]. split; [|lra]. nra.
Qed.

Lemma low_bounds x : x <= 0 -> -1/2 <= S0 x <= 0 /\ Rabs (S0 x) <= exp x /\ Rabs (S1m x) <= 1/4 /\ Rabs (S1m x) <= exp x /\ Rabs (S2m x) <= 1/4 /\ Rabs (S2m x) <= exp x /\
  Rabs (S3m x) <= 3/8 /\ Rabs (S3m x) <= 3/2 * exp x /\ Rabs (S4m x) <= 3 * exp x /\ Rabs (S5m x) <= 15/2 * exp x.
Proof.
  intros Hx. destruct (S0_range x Hx) as (R0 & R1). set (e := exp x) in *. assert (He : 0 < e) by apply exp_pos. set (u := S0 x) in *.
  assert (A0 : Rabs u <= e) by (apply Rabs_le; lra).
  assert (A1 : Rabs (1 + 2 * u) <= 1) by (apply Rabs_le; lra).
  assert (B1 : Rabs (S1m x) <= 1 / 4) by (unfold S1m; fold u; apply Rabs_le; split; nra).
  assert (B2 : Rabs (S1m x) <= e). { unfold S1m. fold u. rewrite Rabs_mult. assert (Rabs (1 + u) <= 1) by (apply Rabs_le; lra). pose proof (Rabs_pos u). nra. }
  assert (M : forall y K, Rabs y <= K -> Rabs (y * (1 + 2 * u)) <= K). { intros y K Hy. rewrite Rabs_mult. pose proof (Rabs_pos y). pose proof (Rabs_pos (1 + 2 * u)). nra. }
  assert (C1 : Rabs (S2m x) <= 1 / 4) by (apply M, B1). assert (C2 : Rabs (S2m x) <= e) by (apply M, B2).
  pose proof (Rabs_pos (S1m x)). pose proof (Rabs_pos (S2m x)).
  assert (D1 : Rabs (S3m x) <= 3 / 8). { unfold S3m. eapply Rle_trans; [apply Rabs_triang|]. fold u. rewrite (Rabs_mult 2), (Rabs_pos_eq 2), (Rabs_mult (S1m x)) by lra. pose proof (M _ _ C1). nra. }
  assert (D2 : Rabs (S3m x) <= 3 / 2 * e). { unfold S3m. eapply Rle_trans; [apply Rabs_triang|]. fold u. rewrite (Rabs_mult 2), (Rabs_pos_eq 2), (Rabs_mult (S1m x)) by lra. pose proof (M _ _ C2). nra. }
  pose proof (Rabs_pos (S3m x)).
  assert (E2 : Rabs (S4m x) <= 3 * e). { unfold S4m. eapply Rle_trans; [apply Rabs_triang|]. fold u. rewrite (Rabs_mult 6), (Rabs_pos_eq 6), (Rabs_mult (S1m x)) by lra. pose proof (M _ _ D2). nra. }
  assert (F2 : Rabs (S5m x) <= 15 / 2 * e). { unfold S5m. eapply Rle_trans; [apply Rabs_triang|]. fold u. rewrite (Rabs_mult 6), (Rabs_pos_eq 6), (Rabs_mult (S2m x)) by lra.
    eapply Rle_trans; [apply Rplus_le_compat_r, Rabs_triang|]. rewrite (Rabs_mult 8), (Rabs_pos_eq 8), (Rabs_mult (S1m x)) by lra. pose proof (M _ _ E2). nra. }
  repeat (split; [assumption|]). assumption.
Qed.

Lemma G_bound n x : x <= 0 -> Rabs (G n x) <= 15/2 * exp x.
Proof.
  intros Hx. destruct (low_bounds x Hx) as (_ & _ & _ & B & _ & C & _ & D & E & F). pose proof (exp_pos x).
  destruct n as [|[|[|[|[|j]]]]]; cbn [G]; try lra. pose proof (Sx_bound j x Hx). lra.
Qed.

Lemma G_bound_high n x : x <= 0 -> (3 <= n)%nat -> Rabs (G n x) <= exp x.
Proof.
  intros Hx Hn. destruct (low_bounds x Hx) as (_ & _ & _ & B & _ & C & _). destruct n as [|[|[|[|[|j]]]]]; try lia; cbn [G]; try assumption. apply Sx_bound, Hx.
Qed.

(** ** Taylor expansion *)
Definition tay (m n : nat) (x y : R) : R := rsum m (fun j => G (n - j) x * eterm y j).

Lemma tay_deriv m n x y : (m <= n)%nat -> is_derive (fun y => G (S n) (x + y) - tay (S m) (S n) x y) y (G n (x + y) - tay m n x y).
Proof.
  intros Hm. apply (is_derive_minus (fun y => G (S n) (x + y))).
  - pose proof (is_derive_comp (G (S n)) (fun y => x + y) y (G n (x + y)) 1 (G_deriv n (x + y))) as H. rewrite <- (Rmult_1_l (G n (x + y))). apply H. auto_derive; [exact I|reflexivity].
  - unfold tay. revert Hm. induction m as [|m IH]; intros Hm.
    + cbn [rsum]. apply (is_derive_ext (fun _ => 0 + G (S n - 0) x * 1)); [intros t; rewrite eterm_0; reflexivity|]. apply @is_derive_const.
    + cbn [rsum] in *. apply (is_derive_plus (fun y => rsum m (fun j => G (S n - j) x * eterm y j) + G (S n - m) x * eterm y m)); [apply IH; lia|].
      replace (S n - S m)%nat with (n - m)%nat by lia. apply (is_derive_scal (fun y => eterm y (S m)) y (G (n - m) x)). apply eterm_derive.
Qed.

Lemma eterm_zero m : eterm 0 (S m) = 0.
Proof. unfold eterm. rewrite pow_i by lia. unfold Rdiv. apply Rmult_0_l. Qed.

Lemma tay_bound m n x y K : (m <= n)%nat -> 0 <= y -> (forall s, 0 <= s <= y -> Rabs (G (n - m) (x + s)) <= K) -> Rabs (G n (x + y) - tay m n x y) <= K * eterm y m.
Proof.
  revert n y. induction m as [|m IH]; intros n y Hm Hy HK.
  - unfold tay. cbn [rsum]. rewrite eterm_0, Rmult_1_r, Rminus_0_r. rewrite Nat.sub_0_r in HK. apply HK. lra.
  - destruct n as [|n]; [lia|]. assert (Z : G (S n) (x + 0) - tay (S m) (S n) x 0 = 0).
    { unfold tay. clear. rewrite Rplus_0_r. induction m as [|m IH]; [cbn [rsum]; rewrite eterm_0, Nat.sub_0_r; ring|]. cbn [rsum] in *. rewrite eterm_zero, Rmult_0_r, Rplus_0_r. exact IH. }
    assert (B : forall s, 0 <= s <= y -> Rabs (G n (x + s) - tay m n x s) <= K * eterm s m) by (intros s Hs; apply IH; [lia|lra|]; intros t Ht; apply HK; lra).
    apply Rabs_le. split.
    + pose proof (grows (fun s => K * eterm s (S m) + (G (S n) (x + s) - tay (S m) (S n) x s)) (fun s => K * eterm s m + (G n (x + s) - tay m n x s)) y Hy) as Gr. cbv beta in Gr. rewrite Z, eterm_zero in Gr.
      assert (0 <= K * eterm y (S m) + (G (S n) (x + y) - tay (S m) (S n) x y)); [|lra]. eapply Rle_trans; [|apply Gr].
      * rewrite Rmult_0_r. lra.
      * intros s Hs. apply (is_derive_plus (fun s => K * eterm s (S m))); [apply (is_derive_scal (fun s => eterm s (S m))), eterm_derive|apply tay_deriv; lia].
      * intros s Hs. specialize (B s Hs). apply Rabs_le_between in B. lra.
    + pose proof (grows (fun s => K * eterm s (S m) - (G (S n) (x + s) - tay (S m) (S n) x s)) (fun s => K * eterm s m - (G n (x + s) - tay m n x s)) y Hy) as Gr. cbv beta in Gr. rewrite Z, eterm_zero in Gr.
      assert (0 <= K * eterm y (S m) - (G (S n) (x + y) - tay (S m) (S n) x y)); [|lra]. eapply Rle_trans; [|apply Gr].
      * rewrite Rmult_0_r. lra.
      * intros s Hs. apply (is_derive_minus (fun s => K * eterm s (S m))); [apply (is_derive_scal (fun s => eterm s (S m))), eterm_derive|apply tay_deriv; lia].
      * intros s Hs. specialize (B s Hs). apply Rabs_le_between in B. lra.
Qed.
