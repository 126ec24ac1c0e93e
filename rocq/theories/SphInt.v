(** * Integrals over the unit sphere: monomials and products of real spherical harmonics *)

From Coq Require Import ZArith Reals Lra Lia List Bool Psatz.
From Coquelicot Require Import Coquelicot.
From Verif Require Import Base BinomModel BinomProofs OneElProofs GaussInt SphModel SphSpec SphPoly.
Import ListNotations.
Open Scope R_scope.

(** ** Helpers on integrals of real functions *)
Lemma RInt_val (f : R -> R) a b (u v : R) : is_RInt f a b u -> u = v -> is_RInt f a b v.
Proof. intros H <-. exact H. Qed.

Lemma RInt_uniq (f : R -> R) (a b u v : R) : is_RInt f a b u -> is_RInt f a b v -> u = v.
Proof. intros H1 H2. rewrite <- (is_RInt_unique (V := R_CompleteNormedModule) f a b u H1). apply (is_RInt_unique (V := R_CompleteNormedModule)). exact H2. Qed.

Lemma RInt_antider (F f : R -> R) a b : (forall t, is_derive F t (f t)) -> (forall t, continuous f t) -> is_RInt f a b (F b - F a).
Proof.
  intros D C. apply (is_RInt_derive (V := R_CompleteNormedModule) F f a b); intros t _; [apply D|apply C].
Qed.

Lemma RInt_lin (f g : R -> R) (a b u v c d : R) : is_RInt f a b u -> is_RInt g a b v -> is_RInt (fun t => c * f t + d * g t) a b (c * u + d * v).
Proof.
  intros H1 H2. apply (is_RInt_plus (V := R_NormedModule) (fun t => c * f t) (fun t => d * g t) a b (c * u) (d * v));
    [apply (is_RInt_scal (V := R_NormedModule) f a b c u H1)|apply (is_RInt_scal (V := R_NormedModule) g a b d v H2)].
Qed.

Lemma RInt_scale (f : R -> R) (a b u c : R) : is_RInt f a b u -> is_RInt (fun t => c * f t) a b (c * u).
Proof. intros H. apply (is_RInt_scal (V := R_NormedModule) f a b c u H). Qed.

Lemma RInt_fun (f g : R -> R) (a b u : R) : (forall t, f t = g t) -> is_RInt f a b u -> is_RInt g a b u.
Proof. intros E H. apply (is_RInt_ext f); [intros t _; apply E|exact H]. Qed.

(** ** Trigonometric powers *)
Definition tt (i j : nat) (p : R) : R := cos p ^ i * sin p ^ j.

Lemma tt_cont i j p : continuous (tt i j) p.
Proof. apply (ex_derive_continuous (V := R_NormedModule)). unfold tt. auto_derive. exact I. Qed.

Lemma tt_derive i j p : is_derive (tt (S i) (S j)) p ((INR (S i) + INR (S j)) * tt (S (S i)) j p - INR (S i) * tt i j p).
Proof.
  unfold tt. eapply is_derive_eq; [auto_derive; first [exact I|reflexivity]|]. cbn [Nat.pred pow]. rewrite !S_INR. pose proof (sin2_cos2 p) as H. unfold Rsqr in H.
  transitivity (cos p ^ i * sin p ^ j * (((INR i + 1) + (INR j + 1)) * (cos p * cos p) - (INR i + 1) * (sin p * sin p + cos p * cos p))).
  - change (match i with O => 1 | S _ => INR i + 1 end) with (INR (S i)). change (match j with O => 1 | S _ => INR j + 1 end) with (INR (S j)). rewrite !S_INR. ring.
  - rewrite H. ring.
Qed.

Lemma tt_derive' i j p : is_derive (tt (S i) (S j)) p (INR (S j) * tt i j p - (INR (S i) + INR (S j)) * tt i (S (S j)) p).
Proof.
  eapply is_derive_eq; [apply tt_derive|]. unfold tt. cbn [pow]. pose proof (sin2_cos2 p) as H. unfold Rsqr in H.
  transitivity (cos p ^ i * sin p ^ j * ((INR (S i) + INR (S j)) * (cos p * cos p) - INR (S i))); [ring|].
  transitivity (cos p ^ i * sin p ^ j * (INR (S j) - (INR (S i) + INR (S j)) * (sin p * sin p))); [|ring].
  replace (cos p * cos p) with (1 - sin p * sin p) by lra. ring.
Qed.

Lemma tt_int i j a b : exists v, is_RInt (tt i j) a b v.
Proof.
  apply (ex_RInt_continuous (V := R_CompleteNormedModule) (tt i j)). intros p _. apply tt_cont.
Qed.

Lemma tt_up_i i j a b u : is_RInt (tt i j) a b u -> tt (S i) (S j) b = tt (S i) (S j) a ->
  is_RInt (tt (S (S i)) j) a b (INR (S i) / (INR (S i) + INR (S j)) * u).
Proof.
  intros H E. pose proof (lt_0_INR (S i) ltac:(lia)). pose proof (lt_0_INR (S j) ltac:(lia)).
  pose proof (RInt_antider (tt (S i) (S j)) _ a b (tt_derive i j)) as A.
  assert (C : forall p, continuous (fun p => (INR (S i) + INR (S j)) * tt (S (S i)) j p - INR (S i) * tt i j p) p).
  { intros p. apply (ex_derive_continuous (V := R_NormedModule)). unfold tt. auto_derive. exact I. }
  specialize (A C). rewrite E in A.
  apply (RInt_fun (fun p => / (INR (S i) + INR (S j)) * ((INR (S i) + INR (S j)) * tt (S (S i)) j p - INR (S i) * tt i j p) + INR (S i) / (INR (S i) + INR (S j)) * tt i j p)).
  - intros p. field. lra.
  - eapply RInt_val; [apply (RInt_lin _ _ a b _ _ (/ (INR (S i) + INR (S j))) (INR (S i) / (INR (S i) + INR (S j))) A H)|]. field. lra.
Qed.

Lemma tt_up_j i j a b u : is_RInt (tt i j) a b u -> tt (S i) (S j) b = tt (S i) (S j) a ->
  is_RInt (tt i (S (S j))) a b (INR (S j) / (INR (S i) + INR (S j)) * u).
Proof.
  intros H E. pose proof (lt_0_INR (S i) ltac:(lia)). pose proof (lt_0_INR (S j) ltac:(lia)).
  pose proof (RInt_antider (tt (S i) (S j)) _ a b (tt_derive' i j)) as A.
  assert (C : forall p, continuous (fun p => INR (S j) * tt i j p - (INR (S i) + INR (S j)) * tt i (S (S j)) p) p).
  { intros p. apply (ex_derive_continuous (V := R_NormedModule)). unfold tt. auto_derive. exact I. }
  specialize (A C). rewrite E in A.
  apply (RInt_fun (fun p => - / (INR (S i) + INR (S j)) * (INR (S j) * tt i j p - (INR (S i) + INR (S j)) * tt i (S (S j)) p) + INR (S j) / (INR (S i) + INR (S j)) * tt i j p)).
  - intros p. field. lra.
  - eapply RInt_val; [apply (RInt_lin _ _ a b _ _ (- / (INR (S i) + INR (S j))) (INR (S j) / (INR (S i) + INR (S j))) A H)|]. field. lra.
Qed.

Lemma tt_ext i j p : tt i j p = cos p ^ i * sin p ^ j. Proof. reflexivity. Qed.

(** over a full period *)
Lemma tt_period i j : tt i j (2 * PI) = tt i j 0.
Proof. unfold tt. rewrite cos_2PI, sin_2PI, cos_0, sin_0. reflexivity. Qed.

(** odd double factorial as a real: (2n-1)!! *)
Fixpoint odf (n : nat) : R := match n with O => 1 | S n' => (2 * INR n' + 1) * odf n' end.
Lemma odf_pos n : 0 < odf n.
Proof. induction n as [|n IH]; cbn [odf]; [lra|]. pose proof (pos_INR n). apply Rmult_lt_0_compat; lra. Qed.

Lemma INR_dbl n : INR (2 * n) = 2 * INR n.
Proof. rewrite mult_INR. reflexivity. Qed.

Lemma full_even a b : is_RInt (tt (2 * a) (2 * b)) 0 (2 * PI) (2 * PI * odf a * odf b / (2 ^ (a + b) * INR (fact (a + b)))).
Proof.
  induction a as [|a IHa].
  - induction b as [|b IHb].
    + apply (RInt_fun (fun _ => 1)); [intros t; unfold tt; cbn; ring|]. eapply RInt_val; [apply (is_RInt_const (V := R_NormedModule) 0 (2 * PI) 1)|].
      unfold scal; cbn. unfold mult; cbn. field.
    + replace (2 * S b)%nat with (S (S (2 * b))) by lia. eapply RInt_val; [apply (tt_up_j _ _ _ _ _ IHb); apply tt_period|].
      cbn [odf Nat.add]. rewrite (S_INR (2 * 0)), (S_INR (2 * b)), INR_dbl. change (INR (2 * 0)) with 0. change (fact (S b)) with (S b * fact b)%nat. rewrite mult_INR, S_INR. cbn [pow].
      pose proof (pos_INR b). pose proof (pow_lt 2 b ltac:(lra)). pose proof (INR_fact_lt_0 b). field. repeat split; lra.
  - replace (2 * S a)%nat with (S (S (2 * a))) by lia. eapply RInt_val; [apply (tt_up_i _ _ _ _ _ IHa); apply tt_period|].
    cbn [odf Nat.add]. rewrite (S_INR (2 * a)), (S_INR (2 * b)), !INR_dbl. change (fact (S (a + b))) with (S (a + b) * fact (a + b))%nat. rewrite mult_INR, S_INR, plus_INR. cbn [pow].
    pose proof (pos_INR a). pose proof (pos_INR b). pose proof (pow_lt 2 (a + b) ltac:(lra)). pose proof (INR_fact_lt_0 (a + b)). field. repeat split; lra.
Qed.

Lemma full_odd i j : Nat.odd i = true \/ Nat.odd j = true -> is_RInt (tt i j) 0 (2 * PI) 0.
Proof.
  assert (B10 : is_RInt (tt 1 0) 0 (2 * PI) 0).
  { eapply RInt_val; [apply (RInt_antider sin)|rewrite sin_2PI, sin_0; ring]; [|apply tt_cont]. intros t. eapply is_derive_eq; [auto_derive; first [exact I|reflexivity]|unfold tt; cbn; ring]. }
  assert (B01 : is_RInt (tt 0 1) 0 (2 * PI) 0).
  { eapply RInt_val; [apply (RInt_antider (fun t => - cos t))|rewrite cos_2PI, cos_0; ring]; [|apply tt_cont]. intros t. eapply is_derive_eq; [auto_derive; first [exact I|reflexivity]|unfold tt; cbn; ring]. }
  assert (B11 : is_RInt (tt 1 1) 0 (2 * PI) 0).
  { eapply RInt_val; [apply (RInt_antider (fun t => sin t ^ 2 / 2))|rewrite sin_2PI, sin_0; field]; [|apply tt_cont]. intros t. eapply is_derive_eq; [auto_derive; first [exact I|reflexivity]|unfold tt; cbn; field]. }
  assert (UI : forall i j, is_RInt (tt i j) 0 (2 * PI) 0 -> is_RInt (tt (S (S i)) j) 0 (2 * PI) 0).
  { intros i0 j0 H. eapply RInt_val; [apply (tt_up_i _ _ _ _ _ H); apply tt_period|ring]. }
  assert (UJ : forall i j, is_RInt (tt i j) 0 (2 * PI) 0 -> is_RInt (tt i (S (S j))) 0 (2 * PI) 0).
  { intros i0 j0 H. eapply RInt_val; [apply (tt_up_j _ _ _ _ _ H); apply tt_period|ring]. }
  assert (J : forall j, (is_RInt (tt 1 j) 0 (2 * PI) 0 /\ is_RInt (tt 1 (S j)) 0 (2 * PI) 0)).
  { induction j0 as [|j0 (I1 & I2)]; [auto|]. split; [exact I2|]. apply UJ. exact I1. }
  assert (J0 : forall b, is_RInt (tt 0 (2 * b + 1)) 0 (2 * PI) 0).
  { induction b as [|b IH]; [exact B01|]. replace (2 * S b + 1)%nat with (S (S (2 * b + 1))) by lia. apply UJ. exact IH. }
  intros [H|H].
  - apply Nat.odd_spec in H. destruct H as (q & ->). induction q as [|q IH]; [exact (proj1 (J j))|]. replace (2 * S q + 1)%nat with (S (S (2 * q + 1))) by lia. apply UI. exact IH.
  - apply Nat.odd_spec in H. destruct H as (q & ->). destruct (Nat.Even_or_Odd i) as [(a & ->) | (a & ->)].
    + induction a as [|a IH]; [exact (J0 q)|]. replace (2 * S a)%nat with (S (S (2 * a))) by lia. apply UI. exact IH.
    + induction a as [|a IH]; [exact (proj1 (J (2 * q + 1)%nat))|]. replace (2 * S a + 1)%nat with (S (S (2 * a + 1))) by lia. apply UI. exact IH.
Qed.

(** over the polar angle *)
Lemma half_even s c : is_RInt (tt (2 * c) (2 * s + 1)) 0 PI (2 * (2 ^ s * INR (fact s)) * odf c / odf (S (s + c))).
Proof.
  induction c as [|c IHc].
  - induction s as [|s IHs].
    + eapply RInt_val; [apply (RInt_antider (fun t => - cos t))|rewrite cos_PI, cos_0; cbn; field]; [|apply tt_cont]. intros t. eapply is_derive_eq; [auto_derive; first [exact I|reflexivity]|unfold tt; cbn; ring].
    + replace (2 * S s + 1)%nat with (S (S (2 * s + 1))) by lia. eapply RInt_val; [apply (tt_up_j _ _ _ _ _ IHs)|].
      { unfold tt. rewrite sin_PI, sin_0. rewrite !pow_ne_zero by lia. ring. }
      cbn [odf Nat.add]. rewrite (S_INR (2 * 0)), (S_INR (2 * s + 1)), plus_INR, INR_dbl. change (INR (2 * 0)) with 0. change (fact (S s)) with (S s * fact s)%nat. rewrite mult_INR, !S_INR, plus_INR. cbn [pow INR].
      pose proof (pos_INR s). pose proof (pow_lt 2 s ltac:(lra)). pose proof (INR_fact_lt_0 s). pose proof (odf_pos (s + 0)). field. repeat split; lra.
  - replace (2 * S c)%nat with (S (S (2 * c))) by lia. eapply RInt_val; [apply (tt_up_i _ _ _ _ _ IHc)|].
    { unfold tt. rewrite sin_PI, sin_0. rewrite !pow_ne_zero by lia. ring. }
    replace (s + S c)%nat with (S (s + c)) by lia. cbn [odf]. rewrite (S_INR (2 * c)), (S_INR (2 * s + 1)), (S_INR (s + c)), !plus_INR, !INR_dbl. cbn [INR].
    pose proof (pos_INR s). pose proof (pos_INR c). pose proof (odf_pos (s + c)). field. repeat split; lra.
Qed.

Lemma half_odd n c : is_RInt (tt (2 * c + 1) (S n)) 0 PI 0.
Proof.
  induction c as [|c IHc].
  - eapply RInt_val; [apply (RInt_antider (fun t => sin t ^ S (S n) / INR (S (S n))))|rewrite sin_PI, sin_0, !pow_ne_zero by lia; unfold Rdiv; ring]; [|apply tt_cont].
    intros t. pose proof (lt_0_INR (S (S n)) ltac:(lia)). eapply is_derive_eq; [auto_derive; first [exact I|reflexivity]|]. unfold tt. change (match n with O => 1 | S _ => INR n + 1 end + 1) with (INR (S (S n))).
    cbn [Nat.pred]. change (2 * 0 + 1)%nat with 1%nat. rewrite pow_1. change (sin t ^ S n) with (sin t * sin t ^ n). field. lra.
  - replace (2 * S c + 1)%nat with (S (S (2 * c + 1))) by lia. eapply RInt_val; [apply (tt_up_i _ _ _ _ _ IHc)|ring].
    unfold tt. rewrite sin_PI, sin_0. rewrite !pow_ne_zero by lia. ring.
Qed.

(** ** The integral of a product of a function of the polar angle and one of the azimuth *)
Lemma sphere_product (f : R -> R -> R -> R) (A B : R -> R) u v :
  (forall t p, f (sin t * cos p) (sin t * sin p) (cos t) * sin t = A t * B p) ->
  is_RInt A 0 PI u -> is_RInt B 0 (2 * PI) v -> sphere_int f (u * v).
Proof.
  intros E HA HB. exists (fun p => u * B p). split.
  - intros p. apply (RInt_fun (fun t => B p * A t)); [intros t; rewrite E; ring|]. eapply RInt_val; [apply RInt_scale; exact HA|ring].
  - apply RInt_scale. exact HB.
Qed.

Lemma sphere_uniq f u v : sphere_int f u -> sphere_int f v -> u = v.
Proof.
  intros (g & G1 & G2) (h & H1 & H2). apply (RInt_uniq g 0 (2 * PI)); [exact G2|]. apply (RInt_fun h); [|exact H2].
  intros p. apply (RInt_uniq _ _ _ _ _ (H1 p) (G1 p)).
Qed.

Definition mono3 (i j k : nat) (x y z : R) : R := x ^ i * y ^ j * z ^ k.

Lemma mono3_factor i j k t p : mono3 i j k (sin t * cos p) (sin t * sin p) (cos t) * sin t = tt k (i + j + 1) t * tt i j p.
Proof. unfold mono3, tt. rewrite !Rpow_mult_distr, !pow_add. cbn [pow]. ring. Qed.

Lemma mono3_odd i j k : Nat.odd i = true \/ Nat.odd j = true \/ Nat.odd k = true -> sphere_int (mono3 i j k) 0.
Proof.
  intros H. destruct (tt_int k (i + j + 1) 0 PI) as (u & Hu). destruct (tt_int i j 0 (2 * PI)) as (v & Hv).
  destruct H as [H|[H|H]].
  - replace 0 with (u * 0) by ring. apply (sphere_product _ _ _ _ _ (mono3_factor i j k) Hu). apply full_odd. auto.
  - replace 0 with (u * 0) by ring. apply (sphere_product _ _ _ _ _ (mono3_factor i j k) Hu). apply full_odd. auto.
  - replace 0 with (0 * v) by ring. apply (sphere_product _ _ _ _ _ (mono3_factor i j k)); [|exact Hv].
    apply Nat.odd_spec in H. destruct H as (q & ->). replace (i + j + 1)%nat with (S (i + j)) by lia. apply half_odd.
Qed.

Lemma mono3_even a b c : sphere_int (mono3 (2 * a) (2 * b) (2 * c)) (4 * PI * odf a * odf b * odf c / odf (S (a + b + c))).
Proof.
  pose proof (fun u v => sphere_product _ _ _ u v (mono3_factor (2 * a) (2 * b) (2 * c))) as P.
  replace (2 * a + 2 * b + 1)%nat with (2 * (a + b) + 1)%nat in P by lia. specialize (P _ _ (half_even (a + b) c) (full_even a b)).
  eapply eq_ind; [exact P|]. pose proof (pow_lt 2 (a + b) ltac:(lra)). pose proof (INR_fact_lt_0 (a + b)). pose proof (odf_pos (S (a + b + c))). field. repeat split; lra.
Qed.

Lemma dfactz_odf n : IZR (dfactz (2 * n + 1)) = odf (S n).
Proof.
  induction n as [|n IH]; [cbn; ring|]. replace (2 * S n + 1)%nat with (S (S (2 * n + 1))) by lia.
  change (dfactz (S (S (2 * n + 1)))) with (Z.of_nat (S (S (2 * n + 1))) * dfactz (2 * n + 1))%Z. rewrite mult_IZR, IH, <- INR_IZR_INZ.
  change (odf (S (S n))) with ((2 * INR (S n) + 1) * odf (S n)). f_equal. rewrite !S_INR, plus_INR, INR_dbl. cbn [INR]. ring.
Qed.

Lemma df_value a : (a <= 15)%nat -> exists v, double_factorial (Z.of_nat (2 * a) - 1) = Ok v /\ IZR v = odf a.
Proof.
  intros H. rewrite double_factorial_ok by lia. eexists. split; [reflexivity|]. destruct a as [|a]; [reflexivity|].
  replace (Z.to_nat (Z.of_nat (2 * S a) - 1)) with (2 * a + 1)%nat by lia. apply dfactz_odf.
Qed.

Lemma rem2_even n : (Z.rem (Z.of_nat n) 2 =? 0)%Z = Nat.even n.
Proof.
  destruct (Nat.Even_or_Odd n) as [E|E].
  - rewrite (proj2 (Nat.even_spec n) E). destruct E as (q & ->). apply Z.eqb_eq. rewrite Nat2Z.inj_mul, Z.mul_comm. apply Z.rem_mul. lia.
  - assert (Nat.even n = false) as -> by (rewrite <- Nat.negb_odd, (proj2 (Nat.odd_spec n) E); reflexivity). destruct E as (q & ->). apply Z.eqb_neq.
    rewrite Z.rem_mod_nonneg by lia. replace (Z.of_nat (2 * q + 1)) with (1 + Z.of_nat q * 2)%Z by lia. rewrite Z.mod_add by lia. discriminate.
Qed.

(** integrate_unitary_sphere_polynomial *)
Lemma iusp_ok i j k : ~ (Nat.even i = true /\ Nat.even j = true /\ Nat.even k = true /\ (29 < i + j + k)%nat) ->
  exists v, integrate_unitary_sphere_polynomial (Z.of_nat i) (Z.of_nat j) (Z.of_nat k) = Ok v /\ sphere_int (mono3 i j k) v.
Proof.
  intros H. unfold integrate_unitary_sphere_polynomial. rewrite !rem2_even.
  destruct (Nat.even i) eqn:Ei, (Nat.even j) eqn:Ej, (Nat.even k) eqn:Ek; cbn [andb];
    try (exists 0; split; [reflexivity|apply mono3_odd; rewrite <- !Nat.negb_even, ?Ei, ?Ej, ?Ek; auto]).
  apply Nat.even_spec in Ei, Ej, Ek. destruct Ei as (a & ->), Ej as (b & ->), Ek as (c & ->).
  assert (a + b + c <= 14)%nat by (assert (~ (29 < 2 * a + 2 * b + 2 * c)%nat) by tauto; lia).
  destruct (df_value a) as (va & -> & Ea); [lia|]. destruct (df_value b) as (vb & -> & Eb); [lia|]. destruct (df_value c) as (vc & -> & Ec); [lia|].
  destruct (df_value (S (a + b + c))) as (vd & Ed' & Ed); [lia|].
  replace (Z.of_nat (2 * a) + Z.of_nat (2 * b) + Z.of_nat (2 * c) + 1)%Z with (Z.of_nat (2 * S (a + b + c)) - 1)%Z by lia. rewrite Ed'. rewrite !bind_ok.
  eexists. split; [reflexivity|]. rewrite Ea, Eb, Ec, Ed. apply mono3_even.
Qed.

Lemma iusp_abort i j k : Nat.even i = true -> Nat.even j = true -> Nat.even k = true -> (29 < i + j + k)%nat ->
  integrate_unitary_sphere_polynomial (Z.of_nat i) (Z.of_nat j) (Z.of_nat k) = Fail AssertFailed.
Proof.
  intros Ei Ej Ek H. unfold integrate_unitary_sphere_polynomial. rewrite !rem2_even, Ei, Ej, Ek. cbn [andb].
  assert (D : forall n, (-1 <= n)%Z -> (exists v, double_factorial n = Ok v) \/ double_factorial n = Fail AssertFailed).
  { intros n Hn. destruct (Z_le_dec n 30); [left; eexists; apply double_factorial_ok; lia|right; apply double_factorial_abort; lia]. }
  destruct (D (Z.of_nat i - 1)%Z) as [(? & ->) | ->]; [lia| |reflexivity]. rewrite bind_ok.
  destruct (D (Z.of_nat j - 1)%Z) as [(? & ->) | ->]; [lia| |reflexivity]. rewrite bind_ok.
  destruct (D (Z.of_nat k - 1)%Z) as [(? & ->) | ->]; [lia| |reflexivity]. rewrite bind_ok.
  rewrite double_factorial_abort by (apply Nat.even_spec in Ei, Ej, Ek; destruct Ei, Ej, Ek; lia). reflexivity.
Qed.
