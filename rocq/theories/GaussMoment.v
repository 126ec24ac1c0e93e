(** * Moments of a Gaussian on the half line *)

From Coq Require Import ZArith Reals Lra Lia.
From Coquelicot Require Import Coquelicot.
From Verif Require Import BinomProofs GaussInt NucPotSpec NucPot.
Open Scope R_scope.

Fixpoint gmom (n : nat) (a : R) : R :=
  match n with
  | O => sqrt (PI / a) / 2
  | S O => / (2 * a)
  | S (S m) => INR (S m) / (2 * a) * gmom m a
  end.

Lemma gauss_decay n a : 0 < a -> is_lim (fun r => r ^ n * exp (- a * r ^ 2)) p_infty 0.
Proof.
  intros Ha. apply (lim_squeeze _ (fun T => T ^ n * exp (- T / (/ a)))).
  - exists 1. intros T HT. rewrite Rabs_pos_eq by (apply Rmult_le_pos; [apply pow_le; lra|left; apply exp_pos]).
    apply Rmult_le_compat_l; [apply pow_le; lra|]. replace (- T / / a) with (- a * T) by (field; lra).
    destruct (Req_dec (- a * T ^ 2) (- a * T)) as [-> | Hne]; [lra|]. left. apply exp_increasing. assert (0 < a * (T * (T - 1))) by (apply Rmult_lt_0_compat; [exact Ha|apply Rmult_lt_0_compat; lra]). cbn [pow]. lra.
  - apply exp_decay. apply Rinv_0_lt_compat. exact Ha.
Qed.

Lemma gauss_moment n a : 0 < a -> half_int (fun r => r ^ n * exp (- a * r ^ 2)) (gmom n a).
Proof.
  intros Ha. pose proof (sqrt_lt_R0 a Ha) as Hs. assert (Hss : sqrt a * sqrt a = a) by (apply sqrt_sqrt; lra).
  enough (H : forall k, (half_int (fun r => r ^ k * exp (- a * r ^ 2)) (gmom k a)) /\ half_int (fun r => r ^ S k * exp (- a * r ^ 2)) (gmom (S k) a)) by exact (proj1 (H n)).
  induction k as [|k [H0 H1]].
  - split.
    + apply (half_eq _ (/ sqrt a * (sqrt PI / 2) - / sqrt a * erf0 (sqrt a * 0))).
      * apply (half_deriv (fun r => / sqrt a * erf0 (sqrt a * r))).
        -- intros r. eapply is_derive_eq. { apply (is_derive_scal (fun r => erf0 (sqrt a * r))). apply (is_derive_comp erf0 (fun r => sqrt a * r)); [apply is_derive_erf0|].
             apply (is_derive_scal (fun r => r)). apply (is_derive_id r). }
           unfold scal; cbn; unfold mult; cbn; unfold one; cbn. unfold gauss.
           replace (- (sqrt a * r * (sqrt a * r))) with (- a * (r * (r * 1))) by (replace (sqrt a * r * (sqrt a * r)) with (sqrt a * sqrt a * (r * r)) by ring; rewrite Hss; ring). eqR. field. lra.
        -- intros r. apply (ex_derive_continuous (V := R_NormedModule)). auto_derive. exact I.
        -- apply (is_lim_scal_l (fun r => erf0 (sqrt a * r)) (/ sqrt a) p_infty (sqrt PI / 2)).
           apply (is_lim_comp erf0 (fun r => sqrt a * r) p_infty (sqrt PI / 2) p_infty); [apply erf0_lim| |exists 0; intros y _; discriminate].
           replace p_infty with (Rbar_mult (sqrt a) p_infty) at 2; [apply is_lim_scal_l, is_lim_id|].
           cbn. destruct (Rle_dec 0 (sqrt a)); [destruct (Rle_lt_or_eq_dec _ _ _); [reflexivity|lra]|lra].
      * replace (sqrt a * 0) with 0 by ring. replace (erf0 0) with 0 by (symmetry; unfold erf0; apply (RInt_point (V := R_CompleteNormedModule))).
        cbn [gmom]. rewrite sqrt_div_alt by lra. field. lra.
    + apply (half_eq _ (0 - - / (2 * a) * exp (- a * 0 ^ 2))).
      * apply (half_deriv (fun r => - / (2 * a) * exp (- a * r ^ 2))).
        -- intros r. eapply is_derive_eq; [auto_derive; first [exact I|reflexivity]|]. cbn [pow]. field. lra.
        -- intros r. apply (ex_derive_continuous (V := R_NormedModule)). auto_derive. exact I.
        -- replace (Finite 0) with (Rbar_mult (- / (2 * a)) 0) by (cbn; f_equal; ring). apply is_lim_scal_l.
           apply (is_lim_ext (fun r => r ^ 0 * exp (- a * r ^ 2))); [intros r; cbn; ring|]. apply (gauss_decay 0 a Ha).
      * cbn [gmom pow]. replace (- a * (0 * (0 * 1))) with 0 by ring. rewrite exp_0. ring.
  - split; [exact H1|]. apply (half_eq _ (INR (S k) / (2 * a) * gmom k a + (0 - - / (2 * a) * (0 ^ S k * exp (- a * 0 ^ 2))))).
    + apply (half_ext (fun r => INR (S k) / (2 * a) * (r ^ k * exp (- a * r ^ 2)) + (r ^ S (S k) * exp (- a * r ^ 2) - INR (S k) / (2 * a) * (r ^ k * exp (- a * r ^ 2))))); [intros r _; ring|].
      apply half_plus; [apply half_scal; exact H0|].
      apply (half_deriv (fun r => - / (2 * a) * (r ^ S k * exp (- a * r ^ 2)))).
      * intros r. eapply is_derive_eq; [auto_derive; first [exact I|reflexivity]|]. cbn [pow pred]. rewrite S_INR. destruct k as [|k].
        -- cbn. field. lra.
        -- replace (match S k with O => 1 | S _ => INR (S k) + 1 end) with (INR (S k) + 1) by reflexivity. cbn [pow pred]. field. lra.
      * intros r. apply (ex_derive_continuous (V := R_NormedModule)). auto_derive. exact I.
      * replace (Finite 0) with (Rbar_mult (- / (2 * a)) 0) by (cbn; f_equal; ring). apply is_lim_scal_l. apply gauss_decay. exact Ha.
    + cbn [gmom]. replace (0 ^ S k) with 0 by (rewrite pow_i by lia; reflexivity). ring.
Qed.

Lemma gmom_even k a : 0 < a -> gmom (2 * k) a = IZR (dfactz (2 * k - 1)) / (2 ^ (k + 1) * a ^ k) * sqrt (PI / a).
Proof.
  intros Ha. induction k as [|k IH]; [cbn; field|]. replace (2 * S k)%nat with (S (S (2 * k))) by lia. cbn [gmom]. rewrite IH.
  replace (S (S (2 * k)) - 1)%nat with (S (2 * k)) by lia.
  assert (E : dfactz (S (2 * k)) = (Z.of_nat (S (2 * k)) * dfactz (2 * k - 1))%Z).
  { destruct k as [|k]; [reflexivity|]. replace (2 * S k)%nat with (S (S (2 * k))) by lia. replace (S (S (2 * k)) - 1)%nat with (S (2 * k)) by lia. reflexivity. }
  rewrite E, mult_IZR, <- INR_IZR_INZ. replace (S k + 1)%nat with (S (k + 1)) by lia. cbn [pow]. field. repeat split; first [apply pow_nonzero; lra|lra].
Qed.

Lemma gmom_odd k a : 0 < a -> gmom (2 * k + 1) a = IZR (factz k) / (2 * a ^ (k + 1)).
Proof.
  intros Ha. induction k as [|k IH]; [cbn; field; lra|]. replace (2 * S k + 1)%nat with (S (S (2 * k + 1))) by lia. cbn [gmom]. rewrite IH.
  change (factz (S k)) with (Z.of_nat (S k) * factz k)%Z. rewrite mult_IZR, <- INR_IZR_INZ.
  replace (INR (S (2 * k + 1))) with (2 * INR (S k)) by (replace (S (2 * k + 1)) with (2 * S k)%nat by lia; rewrite mult_INR; reflexivity).
  replace (S k + 1)%nat with (S (k + 1)) by lia. cbn [pow]. field. repeat split; first [apply pow_nonzero; lra|lra].
Qed.

Lemma gmom_pos n a : 0 < a -> 0 < gmom n a.
Proof.
  intros Ha. assert (P : 0 < sqrt (PI / a)) by (apply sqrt_lt_R0, Rdiv_lt_0_compat; [apply PI_RGT_0|exact Ha]).
  enough (H : forall k, 0 < gmom k a /\ 0 < gmom (S k) a) by exact (proj1 (H n)).
  induction k as [|k [H0 H1]]; [split; cbn [gmom]; [lra|apply Rinv_0_lt_compat; lra]|]. split; [exact H1|]. cbn [gmom].
  apply Rmult_lt_0_compat; [apply Rdiv_lt_0_compat; [apply lt_0_INR; lia|lra]|exact H0].
Qed.
