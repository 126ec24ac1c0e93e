(** * The direct summation of S_k(x) *)

From Coq Require Import ZArith List Lia Bool Reals Lra.
From Coquelicot Require Import Coquelicot.
From Verif Require Import Base NucPotSpec NucPot NucPotThms OneElProofs FermiSk FermiTaylor SpecExp FermiSkModel FermiAcc FermiPot.
Open Scope R_scope.

Definition tterm (k N : nat) (x : R) : R := (-1) ^ N * exp (INR N * x) / INR N ^ k.

Lemma tterm_abs k N x : (0 < N)%nat -> Rabs (tterm k N x) = exp (INR N * x) / INR N ^ k.
Proof.
  intros HN. unfold tterm, Rdiv. rewrite Rmult_assoc, Rabs_mult, <- RPow_abs. replace (Rabs (-1)) with 1 by (rewrite Rabs_left; lra). rewrite pow1, Rmult_1_l.
  apply Rabs_pos_eq. apply Rmult_le_pos; [left; apply exp_pos|]. left. apply Rinv_0_lt_compat. apply pow_lt. apply lt_0_INR. exact HN.
Qed.

Lemma fermi_sum_ok (k : nat) x : (2 <= k)%nat -> x <= 0 -> forall fuel N, (1000000 < Z.of_nat N + Z.of_nat fuel)%Z ->
  (N = 0%nat \/ 1 / 10 ^ 12 <= exp (INR N * x) / INR N ^ k) ->
  exists M, fermi_sum fuel (Z.of_nat k) (Z.of_nat N + 1) x (first_terms N k x) (first_terms N k x) = (true, first_terms (S M) k x) /\ exp (INR (S M) * x) / INR (S M) ^ k < 1 / 10 ^ 12.
Proof.
  intros Hk Hx. induction fuel as [|f IH]; intros N HN Hlast.
  - exfalso. destruct Hlast as [-> | H]; [cbn in HN; lia|]. assert (B : IZR 1000001 <= INR N) by (rewrite INR_IZR_INZ; apply IZR_le; lia).
    pose proof (exp_neg_le x N Hx) as He. assert (P : INR N ^ 2 <= INR N ^ k) by (apply Rle_pow; [lra|exact Hk]). assert (Q : 1000001 ^ 2 <= INR N ^ 2) by (apply pow_incr; lra).
    apply (Rmult_le_compat_r (INR N ^ k)) in H; [|lra]. unfold Rdiv in H at 2. rewrite Rmult_assoc, Rinv_l in H by lra. lra.
  - cbn [fermi_sum]. 
    assert (E : powerRZ (-1) (Z.of_nat N + 1) * exp (IZR (Z.of_nat N + 1) * x) / powerRZ (IZR (Z.of_nat N + 1)) (Z.of_nat k) = tterm k (S N) x).
    { replace (Z.of_nat N + 1)%Z with (Z.of_nat (S N)) by lia. rewrite <- INR_IZR_INZ, <- !pow_powerRZ. reflexivity. }
    rewrite E. replace (first_terms N k x + tterm k (S N) x - first_terms N k x) with (tterm k (S N) x) by ring. rewrite tterm_abs by lia.
    change (first_terms N k x + tterm k (S N) x) with (first_terms (S N) k x).
    destruct (Rlt_dec _ _) as [C | C].
    + exists N. split; [reflexivity|exact C].
    + replace (Z.of_nat N + 1 + 1)%Z with (Z.of_nat (S N) + 1)%Z by lia. apply IH; [lia|]. right. apply Rnot_lt_le. exact C.
Qed.

Lemma direct_Sx k x : (2 <= k)%Z -> x <= 0 -> exists v, fermi_model_Sk k x = (true, v) /\ Rabs (v - Sx (Z.to_nat k) x) < 1 / 10 ^ 12.
Proof.
  intros Hk Hx. destruct (fermi_sum_ok (Z.to_nat k) x ltac:(lia) Hx (Z.to_nat (10000000 - 1)) 0) as (M & E & B); [lia|left; reflexivity|].
  exists (first_terms (S M) (Z.to_nat k) x). split.
  - unfold fermi_model_Sk. rewrite <- E. cbn [first_terms]. f_equal; lia.
  - rewrite Rabs_minus_sym. eapply Rle_lt_trans; [|exact B]. eapply Rle_trans; [apply first_terms_close; exact Hx|].
    pose proof (INR_S_pos M). unfold Rdiv. apply Rmult_le_compat.
    + left; apply exp_pos.
    + left. apply Rinv_0_lt_compat. apply pow_lt. apply INR_S_pos.
    + apply exp_le. rewrite (S_INR (S M)). lra.
    + apply Rinv_le_contravar; [apply pow_lt; exact H|]. apply pow_incr. rewrite (S_INR (S M)). lra.
Qed.

Lemma direct_thm : forall Sk k x, fermi_series Sk -> (2 <= k <= 7)%Z -> x <= 0 -> exists v, fermi_model_Sk k x = (true, v) /\ Rabs (v - Sk k x) < 1 / 10 ^ 12.
Proof. intros Sk k x HS Hk Hx. rewrite (Sk_Sx Sk HS k x Hk Hx). apply direct_Sx; [lia|exact Hx]. Qed.
