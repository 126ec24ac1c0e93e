(** * Convergence of the quadrature for radially local potentials *)

From Coq Require Import ZArith Reals Lra Lia List Bool.
From Coquelicot Require Import Coquelicot.
From Verif Require Import Base Sums OneElModel OneElProofs OneElSpec OneElInt GaussInt NucPotSpec NucPot SpecModel SpecSpec BesselProofs BesselData BesselUse MmdMain RadialSpec RadialTables RadialWitness Type2Spec Type2Radial
  Type2Error LocalSpec LocalInt RadialConv RadialRate RadialClass RadialConvSpec RadialQuad.
Import ListNotations.
Open Scope R_scope.

(** the integrand with value 0 for r <= 0 *)
Lemma charge_like_h U (G : R -> R) (K0 p : R) (n : nat) : charge_like U -> (forall r, continuous G r) -> 0 < p -> 0 <= K0 -> (forall r, 0 <= r -> Rabs (G r) <= K0 * exp (- p * r ^ 2)) ->
  let h := fun r => if Rle_dec r 0 then 0 else r ^ 2 * U r * G r * r ^ n in (forall r, continuous h r) /\ exists M, forall r, 0 <= r -> Rabs (h r) <= M * exp (- r).
Proof.
  intros (CU & K & HK) CG Hp HK0 BG h. assert (KP : 0 <= K) by (pose proof (HK 1 ltac:(lra)); pose proof (Rabs_pos (1 * U 1)); lra).
  set (g := fun r => (K * K0) * (r ^ S n * exp (- p * r ^ 2))).
  assert (HB : forall r, 0 <= r -> Rabs (h r) <= g r).
  { intros r Hr. unfold h, g. destruct (Rle_dec r 0) as [H|H].
    - rewrite Rabs_R0. apply Rmult_le_pos; [apply Rmult_le_pos; assumption|]. apply Rmult_le_pos; [apply pow_le, Hr|left; apply exp_pos].
    - assert (0 < r) by lra. replace (r ^ 2 * U r * G r * r ^ n) with ((r * U r) * G r * r ^ S n) by (cbn [pow]; ring). rewrite !Rabs_mult. rewrite <- Rabs_mult. rewrite (Rabs_pos_eq (r ^ S n)) by (apply pow_le, Hr).
      replace (K * K0 * (r ^ S n * exp (- p * r ^ 2))) with (K * (K0 * exp (- p * r ^ 2)) * r ^ S n) by ring. apply Rmult_le_compat_r; [apply pow_le, Hr|].
      apply Rmult_le_compat; try apply Rabs_pos; [apply HK; assumption|apply BG, Hr]. }
  split.
  - intros r. destruct (Rtotal_order r 0) as [H|[H|H]].
    + apply (continuous_loc h (fun _ => 0)); [|apply continuous_const]. exists (mkposreal (- r) ltac:(lra)). intros y Hy. unfold h.
      assert (Rabs (y - r) < - r) by exact Hy. apply Rabs_def2 in H0. destruct (Rle_dec y 0); [reflexivity|lra].
    + subst r. apply (proj2 (filterlim_locally (F := locally 0) h (h 0))). intros e. assert (E0 : h 0 = 0) by (unfold h; destruct (Rle_dec 0 0); [reflexivity|lra]).
      assert (CP : continuous g 0) by (apply (ex_derive_continuous (V := R_NormedModule)); unfold g; auto_derive; exact I).
      pose proof (proj1 (filterlim_locally (F := locally 0) g (g 0)) CP e) as (d & Hd). assert (G0 : g 0 = 0) by (unfold g; cbn [pow]; ring).
      exists d. intros y Hy. specialize (Hd y Hy). rewrite E0. rewrite G0 in Hd. change (Rabs (g y - 0) < e) in Hd. change (Rabs (h y - 0) < e). rewrite Rminus_0_r in *.
      destruct (Rle_dec y 0) as [H|H].
      * unfold h. destruct (Rle_dec y 0); [|lra]. rewrite Rabs_R0. apply (cond_pos e).
      * eapply Rle_lt_trans; [apply HB; lra|]. eapply Rle_lt_trans; [apply Rle_abs|exact Hd].
    + apply (continuous_loc h (fun r => r ^ 2 * U r * G r * r ^ n)).
      * exists (mkposreal r H). intros y Hy. unfold h. assert (HR : Rabs (y - r) < r) by exact Hy. apply Rabs_def2 in HR. destruct (Rle_dec y 0); [lra|reflexivity].
      * apply (continuous_mult (K := R_AbsRing) (fun r => r ^ 2 * U r * G r) (fun r => r ^ n)); [|apply (ex_derive_continuous (V := R_NormedModule)); auto_derive; exact I].
        apply (continuous_mult (K := R_AbsRing) (fun r => r ^ 2 * U r) G); [|apply CG].
        apply (continuous_mult (K := R_AbsRing) (fun r => r ^ 2) U); [apply (ex_derive_continuous (V := R_NormedModule)); auto_derive; exact I|apply CU, H].
  - exists (K * K0 * (INR (fact (S n)) * exp (2 * 0 + / p))). intros r Hr. eapply Rle_trans; [apply HB, Hr|]. unfold g. rewrite !Rmult_assoc. apply Rmult_le_compat_l; [exact KP|]. apply Rmult_le_compat_l; [exact HK0|].
    rewrite <- Rmult_assoc. eapply Rle_trans; [|apply (gauss_pow_bound p 0 (S n) r Hp Hr)]. eapply Rle_trans; [|apply Rle_abs]. right. do 2 f_equal. rewrite Rminus_0_r. cbn [pow]. ring.
Qed.

Lemma charge_limit U G K0 p n : charge_like U -> (forall r, continuous G r) -> 0 < p -> 0 <= K0 -> (forall r, 0 <= r -> Rabs (G r) <= K0 * exp (- p * r ^ 2)) ->
  exists q, half_int (fun r => r ^ 2 * U r * G r * r ^ n) q /\ forall e, 0 < e -> exists N0, forall m, (N0 <= m)%Z -> Rabs (quadrature (fun r => U r * G r * r ^ n) m - q) <= e.
Proof.
  intros HU CG Hp HK BG. destruct (charge_like_radial U G K0 p n HU CG Hp HK BG) as (q & Hq). exists q. split; [exact Hq|].
  destruct (charge_like_h U G K0 p n HU CG Hp HK BG) as (CH & M & HM). set (h := fun r => if Rle_dec r 0 then 0 else r ^ 2 * U r * G r * r ^ n) in *.
  assert (E : forall r, 0 < r -> h r = r ^ 2 * U r * G r * r ^ n) by (intros r Hr; unfold h; destruct (Rle_dec r 0); [lra|reflexivity]).
  intros e He. apply (rule_limit h M CH HM); [intros r Hr; rewrite E by exact Hr; ring| |exact He].
  apply (half_ext (fun r => r ^ 2 * U r * G r * r ^ n)); [intros r Hr; symmetry; apply E, Hr|exact Hq].
Qed.

Lemma charge_like_abs U : charge_like U -> charge_like (fun r => Rabs (U r)).
Proof.
  intros (C & K & H). split; [intros r Hr; apply (continuous_comp U Rabs); [apply C, Hr|apply continuous_Rabs]|]. exists K. intros r Hr. rewrite Rabs_mult, Rabs_Rabsolu, <- Rabs_mult. apply H, Hr.
Qed.

(** the exponential of a pair *)
Lemma pair_exp_bound k p c0 r : 0 < p -> exp (k * r - p * r ^ 2 - c0) <= exp (k ^ 2 / (2 * p) - c0) * exp (- (p / 2) * r ^ 2).
Proof.
  intros Hp. rewrite <- exp_plus. apply exp_le_mono. assert (X : 0 <= (k - p * r) ^ 2 / (2 * p)) by (apply Rdiv_le_0_compat; [apply pow2_ge_0|lra]).
  replace ((k - p * r) ^ 2 / (2 * p)) with (k ^ 2 / (2 * p) - k * r + p / 2 * r ^ 2) in X by (field; lra). lra.
Qed.

Lemma pair_gauss_bound NA NB a b A B C r : 0 < a + b ->
  Rabs (pair_gauss NA NB a b A B C r) <= Rabs (4 * PI * NA * NB) * exp (pair_k a b A B C ^ 2 / (2 * (a + b)) - (a * separation A C ^ 2 + b * separation B C ^ 2)) * exp (- ((a + b) / 2) * r ^ 2).
Proof.
  intros Hp. unfold pair_gauss. rewrite Rabs_mult, (Rabs_pos_eq (exp _)) by (left; apply exp_pos). rewrite (Rmult_assoc (Rabs (4 * PI * NA * NB))). apply Rmult_le_compat_l; [apply Rabs_pos|].
  replace (pair_k a b A B C * r - (a + b) * r ^ 2 - a * separation A C ^ 2 - b * separation B C ^ 2) with (pair_k a b A B C * r - (a + b) * r ^ 2 - (a * separation A C ^ 2 + b * separation B C ^ 2)) by ring. apply pair_exp_bound, Hp.
Qed.

Lemma pair_gauss_cont NA NB a b A B C r : continuous (pair_gauss NA NB a b A B C) r.
Proof. apply (ex_derive_continuous (V := R_NormedModule)). unfold pair_gauss. auto_derive. exact I. Qed.

Theorem local_rule bessel U NA NB a b A B C (l n : nat) del :
  charge_like U -> 0 < a + b -> 0 <= del -> bessel_error bessel (Z.of_nat l) del ->
  exists q w, pair_radial U NA NB a b A B C l n q /\ half_int (fun r => r ^ 2 * Rabs (U r) * Rabs (pair_gauss NA NB a b A B C r) * r ^ n) w /\
    forall e, 0 < e -> exists N0, forall m, (N0 <= m)%Z ->
      Rabs (quadrature (fun r => U r * pair_gauss NA NB a b A B C r * bessel (Z.of_nat l) (pair_k a b A B C * r) * r ^ n) m - q) <= del * w + e.
Proof.
  intros HU Hp Hdel HE. set (k := pair_k a b A B C). assert (K0 : 0 <= k) by (unfold k; rewrite pair_k_len by exact Hp; apply Rmult_le_pos; [lra|apply len_nonneg]).
  set (P := pair_gauss NA NB a b A B C). set (K := Rabs (4 * PI * NA * NB) * exp (k ^ 2 / (2 * (a + b)) - (a * separation A C ^ 2 + b * separation B C ^ 2))).
  assert (KP : 0 <= K) by (apply Rmult_le_pos; [apply Rabs_pos|left; apply exp_pos]). assert (PB : forall r, Rabs (P r) <= K * exp (- ((a + b) / 2) * r ^ 2)) by (intros; apply pair_gauss_bound, Hp).
  destruct (charge_limit U (fun r => P r * bessK l (k * r)) K ((a + b) / 2) n HU) as (q & Hq & Lq).
  - intros r. apply (continuous_mult (K := R_AbsRing) P (fun r => bessK l (k * r))); [apply pair_gauss_cont|apply bess_cont].
  - lra.
  - exact KP.
  - intros r Hr. pose proof (bessK_bounds l (k * r) (Rmult_le_pos _ _ K0 Hr)) as B0. rewrite Rabs_mult, (Rabs_pos_eq (bessK l (k * r))) by lra. specialize (PB r). pose proof (Rabs_pos (P r)). nra.
  - destruct (charge_limit (fun r => Rabs (U r)) (fun r => Rabs (P r)) K ((a + b) / 2) n (charge_like_abs U HU)) as (w & Hw & Lw).
    + intros r. apply (continuous_comp P Rabs); [apply pair_gauss_cont|apply continuous_Rabs].
    + lra.
    + exact KP.
    + intros r Hr. rewrite Rabs_Rabsolu. apply PB.
    + exists q, w. split; [|split; [exact Hw|]].
      * unfold pair_radial. apply (half_ext (fun r => r ^ 2 * U r * (P r * bessK l (k * r)) * r ^ n)); [|exact Hq]. intros r _. unfold P, k. ring.
      * intros e He. destruct (Lq (e / 2) ltac:(lra)) as (N1 & H1). assert (D1 : 0 < e / 2 / (1 + del)) by (apply Rdiv_lt_0_compat; lra). destruct (Lw (e / 2 / (1 + del)) D1) as (N2 & H2).
        exists (Z.max 1 (Z.max N1 N2)). intros m Hm. specialize (H1 m ltac:(lia)). specialize (H2 m ltac:(lia)).
        assert (D : Rabs (quadrature (fun r => U r * P r * bessel (Z.of_nat l) (k * r) * r ^ n) m - quadrature (fun r => U r * (P r * bessK l (k * r)) * r ^ n) m) <= quadrature (fun r => del * (Rabs (U r) * Rabs (P r) * r ^ n)) m).
        { apply quadrature_diff; [lia|]. intros r Hr. replace (U r * P r * bessel (Z.of_nat l) (k * r) * r ^ n - U r * (P r * bessK l (k * r)) * r ^ n) with (U r * P r * r ^ n * (bessel (Z.of_nat l) (k * r) - bessK l (k * r))) by ring.
          pose proof (HE (k * r) (Rmult_le_pos _ _ K0 (Rlt_le _ _ Hr))) as b0. rewrite Nat2Z.id in b0. rewrite !Rabs_mult, (Rabs_pos_eq (r ^ n)) by (apply pow_le; lra). rewrite (Rmult_comm del). apply Rmult_le_compat_l; [|exact b0].
          repeat apply Rmult_le_pos; try apply Rabs_pos. apply pow_le; lra. }
        rewrite quadrature_scal in D. apply Rabs_le_between in H2.
        assert (del * quadrature (fun r => Rabs (U r) * Rabs (P r) * r ^ n) m <= del * (w + e / 2 / (1 + del))) by (apply Rmult_le_compat_l; [exact Hdel|lra]).
        assert (del * (e / 2 / (1 + del)) <= e / 2). { replace (e / 2) with ((1 + del) * (e / 2 / (1 + del))) at 2 by (field; lra). apply Rmult_le_compat_r; lra. }
        set (Qo := quadrature (fun r => U r * P r * bessel (Z.of_nat l) (k * r) * r ^ n) m) in *. set (Qe := quadrature (fun r => U r * (P r * bessK l (k * r)) * r ^ n) m) in *.
        replace (Qo - q) with ((Qo - Qe) + (Qe - q)) by ring. eapply Rle_trans; [apply Rabs_triang|]. lra.
Qed.

(** with the library's own Bessel functions *)
Definition own_bessel (bessel : Z -> R -> R) : Prop := exists tab, pretabulate_bessel bessel_table_0 bessel_table_init = Ok tab /\
  forall l x, (0 <= l <= 20)%Z -> 0 <= x -> modified_bessel_scaled tab l x = Ok (bessel l x).

Lemma own_bessel_error bessel l : own_bessel bessel -> (0 <= l <= 20)%Z -> bessel_error bessel l (501 / 10 ^ 13).
Proof.
  intros (tab & E & H) Hl x Hx. destruct bessel_own_thm as (tab' & E' & _ & A). rewrite E in E'. injection E' as <-. destruct (A l x Hl Hx) as (v & Ev & B). rewrite (H l x Hl Hx) in Ev. injection Ev as ->. exact B.
Qed.

Lemma own_bessel_exists : exists bessel, own_bessel bessel.
Proof.
  destruct bessel_own_thm as (tab & E & _ & A). exists (fun l x => match modified_bessel_scaled tab l x with Ok v => v | Fail _ => 0 end). exists tab. split; [exact E|].
  intros l x Hl Hx. destruct (A l x Hl Hx) as (v & -> & _). reflexivity.
Qed.
