(** * Remainders of the exponential series *)

From Coq Require Import ZArith List Lia Bool Reals Lra Factorial.
From Coquelicot Require Import Coquelicot.
From Verif Require Import OneElProofs GaussInt OvDeriv.
Import ListNotations.
Open Scope R_scope.

Lemma grows f g y : 0 <= y -> (forall s, 0 <= s <= y -> is_derive f s (g s)) -> (forall s, 0 <= s <= y -> 0 <= g s) -> f 0 <= f y.
Proof.
  intros Hy Hd Hg. destruct (Req_dec y 0) as [->|Hne]; [lra|].
  destruct (MVT_gen f 0 y g) as (c & Hc & E).
  - intros x Hx. rewrite Rmin_left, Rmax_right in Hx by lra. apply Hd. lra.
  - intros x Hx. rewrite Rmin_left, Rmax_right in Hx by lra. apply continuity_pt_filterlim. apply (ex_derive_continuous f). exists (g x). apply Hd. lra.
  - rewrite Rmin_left, Rmax_right in Hc by lra. specialize (Hg c Hc). assert (0 <= g c * (y - 0)) by (apply Rmult_le_pos; lra). lra.
Qed.

(** terms of the series *)
Definition eterm (y : R) (k : nat) : R := y ^ k / INR (fact k).
Definition erem (K : nat) (y : R) : R := exp y - rsum K (eterm y).

Lemma eterm_0 y : eterm y 0 = 1.
Proof. unfold eterm. cbn. field. Qed.

Lemma eterm_S y k : eterm y (S k) = eterm y k * (y / INR (S k)).
Proof. unfold eterm. rewrite fact_simpl, mult_INR. cbn [pow]. field. split; first [apply INR_fact_neq_0|apply not_0_INR; lia]. Qed.

Lemma eterm_pos y k : 0 <= y -> 0 <= eterm y k.
Proof. intros H. unfold eterm. apply Rmult_le_pos; [apply pow_le, H|]. left. apply Rinv_0_lt_compat, INR_fact_lt_0. Qed.

Lemma erem_0 y : erem 0 y = exp y.
Proof. unfold erem. cbn [rsum]. ring. Qed.

Lemma erem_S K y : erem (S K) y = erem K y - eterm y K.
Proof. unfold erem. cbn [rsum]. ring. Qed.

Lemma erem_at_0 K : erem (S K) 0 = 0.
Proof.
  induction K as [|K IH]; [rewrite erem_S, erem_0, eterm_0, exp_0; ring|]. rewrite erem_S, IH. rewrite eterm_S. unfold Rdiv. ring.
Qed.

Lemma eterm_derive y k : is_derive (fun y => eterm y (S k)) y (eterm y k).
Proof.
  apply (is_derive_ext (fun y => / INR (fact (S k)) * y ^ S k)); [intros t; unfold eterm; apply Rmult_comm|].
  eapply is_derive_eq; [apply is_derive_scal; apply (is_derive_pow (fun y => y)); apply is_derive_id|].
  unfold one. cbn [AbsRing.Ring Ring.class]. change (Init.Nat.pred (S k)) with k. unfold eterm. rewrite fact_simpl, mult_INR. pose proof (pos_INR k). cbn. change (match k with O => 1 | S _ => INR k + 1 end) with (INR (S k)). rewrite !S_INR. field. split; first [apply INR_fact_neq_0|lra].
Qed.

Lemma erem_derive K y : is_derive (erem (S K)) y (erem K y).
Proof.
  induction K as [|K IH].
  - apply (is_derive_ext (fun y => exp y - 1)); [intros t; rewrite erem_S, erem_0, eterm_0; reflexivity|]. rewrite erem_0. auto_derive; [exact I|ringR].
  - apply (is_derive_ext (fun y => erem (S K) y - eterm y (S K))); [intros t; rewrite (erem_S (S K)); reflexivity|]. rewrite (erem_S K y).
    apply (is_derive_minus (K := R_AbsRing) (V := R_NormedModule)); [exact IH|apply eterm_derive].
Qed.

Lemma erem_nonneg K y : 0 <= y -> 0 <= erem K y.
Proof.
  revert y. induction K as [|K IH]; intros y Hy; [rewrite erem_0; left; apply exp_pos|].
  rewrite <- (erem_at_0 K). apply (grows (erem (S K)) (erem K) y Hy); [intros; apply erem_derive|intros s Hs; apply IH; lra].
Qed.

(** each remainder is bounded by the previous one like consecutive terms *)
Lemma erem_ratio K y : 0 <= y -> INR (S K) * erem (S K) y <= y * erem K y.
Proof.
  revert y. induction K as [|K IH]; intros y Hy.
  - set (f := fun y => y * erem 0 y - INR 1 * erem 1 y). assert (0 <= f y); [|unfold f in H; lra].
    replace 0 with (f 0) by (unfold f; rewrite erem_at_0; ring).
    apply (grows f (fun s => s * exp s) y Hy); [|intros s Hs; apply Rmult_le_pos; [lra|left; apply exp_pos]].
    intros s _. apply (is_derive_ext (fun s => s * exp s - (exp s - 1))); [intros t; unfold f; rewrite erem_S, erem_0, eterm_0; cbn [INR]; ringR|]. auto_derive; [exact I|ringR].
  - set (f := fun y => y * erem (S K) y - INR (S (S K)) * erem (S (S K)) y). assert (0 <= f y); [|unfold f in H; lra].
    replace 0 with (f 0) by (unfold f; rewrite !erem_at_0; ring).
    apply (grows f (fun s => s * erem K s - INR (S K) * erem (S K) s) y Hy); [|intros s Hs; specialize (IH s ltac:(lra)); lra].
    intros s _. unfold f. pose proof (erem_derive K s) as D1. pose proof (erem_derive (S K) s) as D2.
    eapply is_derive_eq; [apply (is_derive_minus (K := R_AbsRing) (V := R_NormedModule)); [apply (is_derive_mult (K := R_AbsRing)); [apply is_derive_id|exact D1|intros; apply Rmult_comm]|apply is_derive_scal; exact D2]|].
    match goal with |- _ = ?y => change (1 * erem (S K) s + s * erem K s + - (INR (S (S K)) * erem (S K) s) = y) end. rewrite (S_INR (S K)). ring.
Qed.

Lemma erem_upper K y : 0 <= y -> erem K y <= eterm y K * exp y.
Proof.
  intros Hy. induction K as [|K IH]; [rewrite erem_0, eterm_0; lra|].
  pose proof (erem_ratio K y Hy) as H. assert (P : 0 < INR (S K)) by (apply lt_0_INR; lia). apply Rmult_le_reg_l with (INR (S K)); [exact P|].
  apply Rle_trans with (1 := H). rewrite eterm_S. replace (INR (S K) * (eterm y K * (y / INR (S K)) * exp y)) with (y * (eterm y K * exp y)) by (field; lra).
  apply Rmult_le_compat_l; assumption.
Qed.

Lemma erem_geometric K y : 0 <= y < INR (S K) -> erem K y <= eterm y K * (INR (S K) / (INR (S K) - y)).
Proof.
  intros (Hy & HK). pose proof (erem_ratio K y Hy) as H. rewrite erem_S in H.
  apply Rmult_le_reg_r with (INR (S K) - y); [lra|].
  replace (eterm y K * (INR (S K) / (INR (S K) - y)) * (INR (S K) - y)) with (INR (S K) * eterm y K) by (field; lra). lra.
Qed.

(** negative arguments: the remainder alternates *)
Lemma erem_neg K u : 0 <= u -> 0 <= (-1) ^ K * erem K (- u) <= eterm u K.
Proof.
  revert u. induction K as [|K IH]; intros u Hu.
  - rewrite erem_0, eterm_0. cbn [pow]. split; [left; rewrite Rmult_1_l; apply exp_pos|]. rewrite Rmult_1_l. rewrite <- exp_0. destruct Hu as [Hu|<-]; [left; apply exp_increasing; lra|rewrite Ropp_0; lra].
  - assert (D : forall s, is_derive (fun u => (-1) ^ S K * erem (S K) (- u)) s ((-1) ^ K * erem K (- s))).
    { intros s. eapply is_derive_eq; [apply is_derive_scal; apply (is_derive_comp (erem (S K)) (fun u => - u)); [apply erem_derive|apply (is_derive_opp (K := R_AbsRing) (V := R_NormedModule)); apply is_derive_id]|].
      unfold scal, opp, one. cbn. unfold mult. cbn. ring. }
    split.
    + replace 0 with ((fun u => (-1) ^ S K * erem (S K) (- u)) 0) by (cbv beta; rewrite Ropp_0, erem_at_0; ring).
      apply (grows (fun u => (-1) ^ S K * erem (S K) (- u)) (fun s => (-1) ^ K * erem K (- s)) u Hu); [intros; apply D|intros s Hs; apply IH; lra].
    + set (f := fun u => eterm u (S K) - (-1) ^ S K * erem (S K) (- u)). assert (H : 0 <= f u); [|unfold f in H; lra].
      replace 0 with (f 0) by (unfold f; rewrite Ropp_0, erem_at_0, eterm_S; unfold Rdiv; ring).
      apply (grows f (fun s => eterm s K - (-1) ^ K * erem K (- s)) u Hu); [|intros s Hs; specialize (IH s ltac:(lra)); lra].
      intros s _. apply (is_derive_minus (K := R_AbsRing) (V := R_NormedModule)); [apply eterm_derive|apply D].
Qed.

Lemma neg_pow_abs K : Rabs ((-1) ^ K) = 1.
Proof. apply pow_1_abs. Qed.

(** both signs: |remainder| <= |y|^K / K! max(1, e^y) *)
Lemma erem_abs K y : Rabs (erem K y) <= eterm (Rabs y) K * Rmax 1 (exp y).
Proof.
  destruct (Rle_dec 0 y) as [H|H].
  - rewrite (Rabs_pos_eq y) by exact H. rewrite Rabs_pos_eq by (apply erem_nonneg, H). eapply Rle_trans; [apply erem_upper, H|]. apply Rmult_le_compat_l; [apply eterm_pos, H|apply Rmax_r].
  - rewrite (Rabs_left y) by lra. pose proof (erem_neg K (- y) ltac:(lra)) as [L U]. rewrite Ropp_involutive in L, U.
    replace (Rabs (erem K y)) with (Rabs ((-1) ^ K * erem K y)) by (rewrite Rabs_mult, neg_pow_abs; ring). rewrite Rabs_pos_eq by exact L.
    eapply Rle_trans; [exact U|]. rewrite <- (Rmult_1_r (eterm (- y) K)) at 1. apply Rmult_le_compat_l; [apply eterm_pos; lra|apply Rmax_l].
Qed.
