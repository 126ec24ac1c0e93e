(** * Numerical bounds for pi *)

From Coq Require Import ZArith QArith Qreals Reals Lra Lia Machin Ratan.
Open Scope R_scope.

Definition qterm (n : nat) : Q :=
  ((if Nat.even n then 1 else -1) * (2 * (1 # (3 ^ Pos.of_nat (2 * n + 1))) + (1 # (7 ^ Pos.of_nat (2 * n + 1)))) * (1 # Pos.of_nat (2 * n + 1)))%Q.

Lemma Q2R_one p : Q2R (1 # p) = / IZR (Zpos p).
Proof. unfold Q2R. cbn [Qnum Qden]. ring. Qed.

Lemma IZR_pow_pos a n : IZR (Zpos (a ^ Pos.of_nat (S n))) = IZR (Zpos a) ^ S n.
Proof.
  rewrite pow_IZR. f_equal. rewrite Pos2Z.inj_pow. f_equal. lia.
Qed.

Lemma qterm_ok n : tg_alt PI_2_3_7_tg n = Q2R (qterm n).
Proof.
  unfold tg_alt, PI_2_3_7_tg, Ratan_seq, qterm. rewrite !Q2R_mult, Q2R_plus, Q2R_mult, !Q2R_one.
  replace (2 * n + 1)%nat with (S (2 * n)) by lia. rewrite !IZR_pow_pos.
  assert (E : IZR (Zpos (Pos.of_nat (S (2 * n)))) = INR (S (2 * n))) by (rewrite INR_IZR_INZ; f_equal; lia). rewrite E.
  assert (P : INR (S (2 * n)) <> 0) by (apply not_0_INR; lia).
  assert (E2 : Q2R (if Nat.even n then 1 else -1) = (-1) ^ n).
  { clear. induction n as [|n IH]; [unfold Q2R; cbn; lra|]. rewrite Nat.even_succ, <- Nat.negb_even. cbn [pow]. rewrite <- IH.
    destruct (Nat.even n); unfold Q2R; cbn; lra. }
  rewrite E2. replace (Q2R 2) with 2 by (unfold Q2R; cbn; lra). rewrite <- !Rinv_pow by lra. field.
  split; [|split]; try exact P; apply pow_nonzero; lra.
Qed.

Fixpoint qsum (n : nat) : Q := match n with O => Qred (qterm 0) | S k => Qred (qsum k + qterm (S k)) end.

Lemma qsum_ok n : sum_f_R0 (tg_alt PI_2_3_7_tg) n = Q2R (qsum n).
Proof.
  induction n as [|n IH]; cbn [sum_f_R0 qsum]; rewrite (Qeq_eqR _ _ (Qred_correct _)); [apply qterm_ok|]. rewrite Q2R_plus, IH, qterm_ok. reflexivity.
Qed.

Lemma PI_lower : 314159265358979323 / 10 ^ 17 < PI.
Proof.
  pose proof (proj1 (PI_2_3_7_ineq 9)) as H. rewrite qsum_ok in H.
  assert (Q : ((314159265358979323 # 400000000000000000) < qsum (S (2 * 9)))%Q) by (vm_compute; reflexivity).
  apply Qlt_Rlt in Q. assert (E : Q2R (314159265358979323 # 400000000000000000) = 314159265358979323 / 10 ^ 17 / 4) by (unfold Q2R; cbn; lra). lra.
Qed.

Lemma PI_upper : PI < 314159265358979324 / 10 ^ 17.
Proof.
  pose proof (proj2 (PI_2_3_7_ineq 9)) as H. rewrite qsum_ok in H.
  assert (Q : (qsum (2 * 9) < (314159265358979324 # 400000000000000000))%Q) by (vm_compute; reflexivity).
  apply Qlt_Rlt in Q. assert (E : Q2R (314159265358979324 # 400000000000000000) = 314159265358979324 / 10 ^ 17 / 4) by (unfold Q2R; cbn; lra). lra.
Qed.
