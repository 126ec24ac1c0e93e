(** * Addition theorem of the spherical harmonics, and bounds that follow from it *)

From Coq Require Import ZArith Reals Lra Lia List Bool.
From Coquelicot Require Import Coquelicot.
From Verif Require Import Base BinomProofs CartModel CartProofs OneElModel OneElProofs OneElInt GaussInt Sums SpecExp SpecSpec BesselProofs SphModel SphSpec SphPoly SphProofs SphTables SphInt SphOrtho SphAngular SphHarm SphThms SphTri SphHecke SphPlane SphSpan.
Import ListNotations.
Open Scope R_scope.

(** ** Positivity *)
Lemma sphere_pos f v : sphere_int f v -> (forall x y z, x ^ 2 + y ^ 2 + z ^ 2 = 1 -> 0 <= f x y z) -> 0 <= v.
Proof.
  intros (g & H1 & H2) P. pose proof PI_RGT_0 as Hp. apply (is_RInt_ge_0 g 0 (2 * PI) v); [lra|exact H2|]. intros p _. apply (is_RInt_ge_0 (fun t : R => f (sin t * cos p) (sin t * sin p) (cos t) * sin t) 0 PI (g p)); [lra|apply H1|].
  intros t Ht. apply Rmult_le_pos; [apply P, on_sphere|apply sin_ge_0; lra].
Qed.

Lemma sphere_le f g u v : sphere_int f u -> sphere_int g v -> (forall x y z, x ^ 2 + y ^ 2 + z ^ 2 = 1 -> f x y z <= g x y z) -> u <= v.
Proof.
  intros Hf Hg H. assert (0 <= 1 * v + -1 * u); [|lra]. apply (sphere_pos _ _ (sphere_lin _ _ _ _ 1 (-1) Hg Hf)). intros x y z Hu. pose proof (H x y z Hu). lra.
Qed.

Lemma sphere_zsum lo hi (f : Z -> R -> R -> R -> R) (v : Z -> R) : (forall i, (lo <= i < hi)%Z -> sphere_int (f i) (v i)) -> sphere_int (fun x y z => zsum lo hi (fun i => f i x y z)) (zsum lo hi v).
Proof.
  revert lo. apply (zsum_ind (fun lo => (forall i, (lo <= i < hi)%Z -> sphere_int (f i) (v i)) -> sphere_int (fun x y z => zsum lo hi (fun i => f i x y z)) (zsum lo hi v)) hi).
  - intros lo Hl _. eapply sphere_val; [eapply sphere_ext; [|apply sphere_zero]|]; [intros; cbv beta|]; rewrite zsum_nil by lia; reflexivity.
  - intros lo Hl IH H. eapply sphere_val; [eapply sphere_ext; [|apply (sphere_lin _ _ _ _ 1 1 (H lo ltac:(lia)) (IH ltac:(intros; apply H; lia)))]|]; [intros; cbv beta|]; rewrite (zsum_first lo hi) by lia; ring.
Qed.

(** ** Pointwise expansion *)
Definition expand (d : nat) (w : nat -> Z -> R) (x y z : R) : R :=
  rsum (S d) (fun l => if Nat.even (d - l) then zsum (- Z.of_nat l) (Z.of_nat l + 1) (fun m => w l m * real_sph l m x y z) else 0).

Lemma span_expand d f : span d f -> exists w : nat -> Z -> R,
  (forall l m, (Z.abs m <= Z.of_nat l)%Z -> sphere_int (fun x y z => f x y z * real_sph l m x y z) (w l m)) /\
  (forall x y z, x ^ 2 + y ^ 2 + z ^ 2 = 1 -> f x y z = expand d w x y z).
Proof.
  intros H. induction H as [l m Hl He Hm| |f g p q H1 (w1 & A1 & W1) H2 (w2 & A2 & W2)|f g E _ (w & A & W)].
  - exists (fun l' m' => if (Nat.eqb l l' && Z.eqb m m')%bool then 1 else 0). split.
    + intros l' m' Hm'. apply (orthonormal l l' m m' Hm Hm').
    + intros a b c Hu. unfold expand. rewrite (rsum_delta (S d) l); [|lia|].
      * rewrite He. rewrite (zsum_delta _ _ m); [rewrite Nat.eqb_refl, Z.eqb_refl; cbn [andb]; ring|lia|]. intros i Hi Hn. rewrite Nat.eqb_refl, (proj2 (Z.eqb_neq m i)) by auto. cbn [andb]. ring.
      * intros i Hi Hn. destruct (Nat.even (d - i)); [|reflexivity]. rewrite zsum_zero; [ring|]. intros j Hj. rewrite (proj2 (Nat.eqb_neq l i)) by auto. cbn [andb]. ring.
  - exists (fun _ _ => 0). split.
    + intros l m _. eapply sphere_ext; [|apply sphere_zero]. intros; cbv beta; ring.
    + intros a b c _. unfold expand. rewrite rsum_zero; [ring|]. intros l _. destruct (Nat.even (d - l)); [|reflexivity]. rewrite zsum_zero; [ring|]. intros; ring.
  - exists (fun l m => p * w1 l m + q * w2 l m). split.
    + intros l m Hm. eapply sphere_ext; [|apply (sphere_lin _ _ _ _ p q (A1 l m Hm) (A2 l m Hm))]. intros; cbv beta; ring.
    + intros a b c Hu. rewrite (W1 a b c Hu), (W2 a b c Hu).
      unfold expand. rewrite <- !rsum_scal, <- rsum_plus. apply rsum_ext. intros l _. destruct (Nat.even (d - l)); [|ring]. rewrite (zsum_ext _ _ (fun m => (p * w1 l m + q * w2 l m) * _) (fun m => p * (w1 l m * real_sph l m a b c) + q * (w2 l m * real_sph l m a b c))) by (intros; ring). rewrite zsum_lin. ring.
  - exists w. split.
    + intros l m Hm. eapply sphere_ext; [|apply (A l m Hm)]. intros x y z Hu; cbv beta; rewrite (E _ _ _ Hu); reflexivity.
    + intros a b c Hu. rewrite <- (E _ _ _ Hu). apply W, Hu.
Qed.

(** ** Functions of the angle with a fixed direction *)
(** (2^l l!) times the Legendre polynomial *)
Definition leg (l : nat) (t : R) : R := rodrigues l l t.

Lemma leg_sum l t : leg l t = rsum (S (Nat.div2 l)) (fun i => ccf l l i * t ^ (l - 2 * i)).
Proof. unfold leg. pose proof (rodrigues_sum l l t (le_n l)) as H. rewrite Nat.sub_diag, Nat.add_0_r in H. exact H. Qed.

Lemma leg_span a b c l : span l (fun x y z => leg l (a * x + b * y + c * z)).
Proof.
  assert (Hh : (2 * Nat.div2 l <= l)%nat) by (pose proof (Nat.div2_odd l); destruct (Nat.odd l); cbn [Nat.b2n] in *; lia).
  eapply span_ext; [|apply (span_rsum l (S (Nat.div2 l)) (fun i x y z => ccf l l i * te (tpow (tlin a b c) (l - 2 * i)) x y z))].
  - intros x y z _. cbv beta. rewrite leg_sum. apply rsum_ext. intros i _. rewrite te_pow, te_lin. reflexivity.
  - intros i Hi. apply span_scal. assert (E : (l = (l - 2 * i) * 1 + 2 * i)%nat) by lia. rewrite E at 1. apply span_ups, tri_span, homog_pow, homog_lin.
Qed.

Definition kappa (l l' : nat) : R := rsum (S (Nat.div2 l)) (fun i => ccf l l i * fh (l - 2 * i) l').

Lemma sphere_rsum n (f : nat -> R -> R -> R -> R) (v : nat -> R) : (forall i, (i < n)%nat -> sphere_int (f i) (v i)) -> sphere_int (fun x y z => rsum n (fun i => f i x y z)) (rsum n v).
Proof.
  induction n as [|n IH]; intros H; [apply sphere_zero|]. cbn [rsum]. eapply sphere_val; [eapply sphere_ext; [|apply (sphere_lin _ _ _ _ 1 1 (IH ltac:(intros; apply H; lia)) (H n ltac:(lia)))]|]; [intros; cbv beta|]; ring.
Qed.

Lemma leg_hecke a b c l l' m : a ^ 2 + b ^ 2 + c ^ 2 = 1 -> (l' <= 40)%nat -> (Z.abs m <= Z.of_nat l')%Z ->
  sphere_int (fun x y z => leg l (a * x + b * y + c * z) * real_sph l' m x y z) (kappa l l' * real_sph l' m a b c).
Proof.
  intros Hu Hl Hm. assert (E : kappa l l' * real_sph l' m a b c = rsum (S (Nat.div2 l)) (fun i => ccf l l i * (fh (l - 2 * i) l' * te (htri l' m) a b c))).
  { rewrite (htri_sph l' m a b c Hl Hm Hu). unfold kappa. rewrite Rmult_comm, <- rsum_scal. apply rsum_ext. intros; ring. }
  rewrite E. eapply sphere_ext; [|apply (sphere_rsum (S (Nat.div2 l)) (fun i x y z => ccf l l i * ((a * x + b * y + c * z) ^ (l - 2 * i) * te (htri l' m) x y z)))].
  - intros x y z Hs. cbv beta. rewrite (htri_sph l' m x y z Hl Hm Hs), leg_sum. symmetry; rewrite Rmult_comm, <- rsum_scal. apply rsum_ext. intros; ring.
  - intros i _. apply sphere_scal. apply hecke; [exact Hu|apply htri_homog|apply htri_harm; assumption].
Qed.

Lemma north : (0 : R) ^ 2 + 0 ^ 2 + 1 ^ 2 = 1. Proof. ring. Qed.

Lemma real_sph_leg l x y z : real_sph l 0 x y z = snorm l 0 * leg l z.
Proof. unfold real_sph, snorm, leg. cbv zeta. change (Z.abs_nat 0) with 0%nat. change (0 =? 0)%Z with true. change (0 <? 0)%Z with false. cbv iota. cbn [re_im_pow fst]. rewrite !Nat.add_0_r, Nat.sub_0_r. ring. Qed.

Definition pole (l : nat) : R := real_sph l 0 0 0 1.

Lemma kappa_val l l' : (l' <= 40)%nat -> kappa l l' * pole l' = (if (l =? l')%nat then 1 else 0) / snorm l 0.
Proof.
  intros Hl. pose proof (snorm_pos l 0) as Sp. apply (sphere_uniq (fun x y z => leg l (0 * x + 0 * y + 1 * z) * real_sph l' 0 x y z)).
  - apply leg_hecke; [apply north|exact Hl|lia].
  - pose proof (sphere_scal _ _ (/ snorm l 0) (orthonormal l l' 0 0 ltac:(lia) ltac:(lia))) as H. eapply sphere_val; [eapply sphere_ext; [|exact H]|].
    + intros x y z _. cbv beta. rewrite (real_sph_leg l). replace (0 * x + 0 * y + 1 * z) with z by ring. field. lra.
    + rewrite Z.eqb_refl, andb_true_r. field. lra.
Qed.

Lemma pole_nz l : (l <= 40)%nat -> pole l <> 0.
Proof.
  intros Hl H. pose proof (kappa_val l l Hl) as K. rewrite H, Rmult_0_r, Nat.eqb_refl in K. pose proof (snorm_pos l 0). assert (0 < 1 / snorm l 0) by (apply Rdiv_lt_0_compat; lra). lra.
Qed.

(** ** Addition theorem *)
Lemma addition_aux a b c x y z l : (l <= 40)%nat -> a ^ 2 + b ^ 2 + c ^ 2 = 1 -> x ^ 2 + y ^ 2 + z ^ 2 = 1 ->
  zsum (- Z.of_nat l) (Z.of_nat l + 1) (fun m => real_sph l m a b c * real_sph l m x y z) = pole l * (snorm l 0 * leg l (a * x + b * y + c * z)).
Proof.
  intros Hl Hu Hs. destruct (span_expand l _ (leg_span a b c l)) as (w & A & W). rewrite (W x y z Hs). pose proof (snorm_pos l 0) as Sp.
  assert (Ew : forall l' m, (l' <= l)%nat -> (Z.abs m <= Z.of_nat l')%Z -> w l' m = kappa l l' * real_sph l' m a b c).
  { intros l' m Hl' Hm. eapply sphere_uniq; [apply (A l' m Hm)|apply leg_hecke; [exact Hu|lia|exact Hm]]. }
  unfold expand. rewrite (rsum_delta (S l) l).
  - rewrite Nat.sub_diag. cbn [Nat.even]. rewrite <- Rmult_assoc, <- zsum_scal. apply zsum_ext. intros m Hm. rewrite (Ew l m) by lia.
    pose proof (kappa_val l l Hl) as K. rewrite Nat.eqb_refl in K. transitivity ((kappa l l * pole l * snorm l 0) * (real_sph l m a b c * real_sph l m x y z)); [|ring]. rewrite K. field. lra.
  - lia.
  - intros l' Hl' Hn. destruct (Nat.even (l - l')); [|reflexivity]. rewrite zsum_zero; [reflexivity|]. intros m Hm. rewrite (Ew l' m) by lia.
    pose proof (kappa_val l l' ltac:(lia)) as K. rewrite (proj2 (Nat.eqb_neq l l')) in K by auto. assert (kappa l l' = 0); [|rewrite H; ring].
    apply (Rmult_eq_reg_r (pole l')); [rewrite K; field; lra|apply pole_nz; lia].
Qed.

Lemma pole_sq l : (l <= 40)%nat -> pole l ^ 2 = (2 * INR l + 1) / (4 * PI).
Proof.
  intros Hl. pose proof PI_RGT_0 as Hp.
  assert (C : forall x y z, x ^ 2 + y ^ 2 + z ^ 2 = 1 -> zsum (- Z.of_nat l) (Z.of_nat l + 1) (fun m => real_sph l m x y z * real_sph l m x y z) = pole l ^ 2).
  { intros x y z H. rewrite (addition_aux x y z x y z l Hl H H). replace (x * x + y * y + z * z) with 1 by (rewrite <- H; ring). unfold pole at 2. rewrite real_sph_leg. unfold pole. rewrite real_sph_leg. ring. }
  assert (S1 : sphere_int (fun x y z => zsum (- Z.of_nat l) (Z.of_nat l + 1) (fun m => real_sph l m x y z * real_sph l m x y z)) (zsum (- Z.of_nat l) (Z.of_nat l + 1) (fun _ => 1))).
  { apply sphere_zsum. intros m Hm. pose proof (orthonormal l l m m ltac:(lia) ltac:(lia)) as O. rewrite Nat.eqb_refl, Z.eqb_refl in O. exact O. }
  assert (S2 : sphere_int (fun x y z => pole l ^ 2) (pole l ^ 2 * (4 * PI))).
  { pose proof (tint_ok [(pole l ^ 2, (0, 0, 0)%nat)]) as T. pose proof (tint_const [(pole l ^ 2, (0, 0, 0)%nat)] 0 0 0) as TC. rewrite TC in T by (intros e i j k [E|[]]; injection E as _ <- <- <-; reflexivity).
    eapply sphere_val; [eapply sphere_ext; [|exact T]|]; [intros|]; rewrite te_cons, te_nil; cbn [pow]; ring. }
  assert (E : pole l ^ 2 * (4 * PI) = zsum (- Z.of_nat l) (Z.of_nat l + 1) (fun _ => 1)) by (eapply sphere_uniq; [exact S2|eapply sphere_ext; [|exact S1]; intros; symmetry; rewrite C by assumption; reflexivity]).
  assert (E2 : zsum (- Z.of_nat l) (Z.of_nat l + 1) (fun _ => 1) = 2 * INR l + 1).
  { replace (Z.of_nat l + 1)%Z with (- Z.of_nat l + Z.of_nat (2 * l + 1))%Z by lia. rewrite zsum_rsum. clear. replace (2 * INR l + 1) with (INR (2 * l + 1)) by (rewrite plus_INR, mult_INR; reflexivity). generalize (2 * l + 1)%nat as n. induction n as [|n IH]; [reflexivity|]. rewrite S_INR. cbn [rsum]. rewrite IH. reflexivity. }
  rewrite <- E2, <- E. field. lra.
Qed.

(** Legendre polynomial with value 1 at 1 *)
Definition legendre (l : nat) (t : R) : R := leg l t / leg l 1.

Theorem addition a b c x y z l : (l <= 40)%nat -> a ^ 2 + b ^ 2 + c ^ 2 = 1 -> x ^ 2 + y ^ 2 + z ^ 2 = 1 ->
  zsum (- Z.of_nat l) (Z.of_nat l + 1) (fun m => real_sph l m a b c * real_sph l m x y z) = (2 * INR l + 1) / (4 * PI) * legendre l (a * x + b * y + c * z).
Proof.
  intros Hl Hu Hs. rewrite (addition_aux a b c x y z l Hl Hu Hs), <- (pole_sq l Hl). pose proof (pole_nz l Hl) as N. unfold pole in *. rewrite real_sph_leg in *. unfold legendre. field. intros E. apply N. rewrite E. ring.
Qed.

Lemma sum_squares a b c l : (l <= 40)%nat -> a ^ 2 + b ^ 2 + c ^ 2 = 1 -> zsum (- Z.of_nat l) (Z.of_nat l + 1) (fun m => real_sph l m a b c ^ 2) = (2 * INR l + 1) / (4 * PI).
Proof.
  intros Hl Hu. rewrite <- (pole_sq l Hl). rewrite (zsum_ext _ _ _ (fun m => real_sph l m a b c * real_sph l m a b c)) by (intros; ring). rewrite (addition_aux a b c a b c l Hl Hu Hu).
  replace (a * a + b * b + c * c) with 1 by (rewrite <- Hu; ring). unfold pole. rewrite real_sph_leg. ring.
Qed.

(** ** Bessel's inequality *)
Lemma zsum_nonneg lo hi f : (forall i, (lo <= i < hi)%Z -> 0 <= f i) -> 0 <= zsum lo hi f.
Proof.
  revert lo. apply (zsum_ind (fun lo => (forall i, (lo <= i < hi)%Z -> 0 <= f i) -> 0 <= zsum lo hi f) hi); [intros lo Hl _; rewrite zsum_nil by lia; lra|].
  intros lo Hl IH H. rewrite zsum_first by lia. pose proof (H lo ltac:(lia)). assert (0 <= zsum (lo + 1) hi f) by (apply IH; intros; apply H; lia). lra.
Qed.

Lemma zsum_cauchy lo hi f g : zsum lo hi (fun i => f i * g i) ^ 2 <= zsum lo hi (fun i => f i ^ 2) * zsum lo hi (fun i => g i ^ 2).
Proof.
  set (P := zsum lo hi (fun i => f i * g i)). set (F := zsum lo hi (fun i => f i ^ 2)). set (G := zsum lo hi (fun i => g i ^ 2)).
  assert (HF : 0 <= F) by (apply zsum_nonneg; intros; apply pow2_ge_0). assert (HG : 0 <= G) by (apply zsum_nonneg; intros; apply pow2_ge_0).
  assert (Q : forall s t, 0 <= s ^ 2 * F + 2 * (s * t) * P + t ^ 2 * G).
  { intros s t. assert (E : s ^ 2 * F + 2 * (s * t) * P + t ^ 2 * G = zsum lo hi (fun i => (s * f i + t * g i) ^ 2)).
    { unfold F, P, G. rewrite <- !zsum_scal, <- !zsum_plus. apply zsum_ext. intros; ring. }
    rewrite E. apply zsum_nonneg. intros; apply pow2_ge_0. }
  pose proof (Q G (- P)) as Q1. pose proof (Q (- P) F) as Q2. pose proof (Q 1 (- P)) as Q3. pose proof (Q 1 P) as Q4.
  destruct (Req_dec G 0) as [Z0|NZ]; [|nra]. rewrite Z0 in *. destruct (Req_dec F 0) as [Y0|NF]; [rewrite Y0 in *; nra|]. nra.
Qed.

Lemma bessel_ineq (p : tri) l (w : Z -> R) v : sphere_int (fun x y z => te p x y z ^ 2) v ->
  (forall m, (Z.abs m <= Z.of_nat l)%Z -> sphere_int (fun x y z => te p x y z * real_sph l m x y z) (w m)) ->
  zsum (- Z.of_nat l) (Z.of_nat l + 1) (fun m => w m ^ 2) <= v.
Proof.
  intros Hv Hw. set (lo := (- Z.of_nat l)%Z). set (hi := (Z.of_nat l + 1)%Z).
  assert (H1 : sphere_int (fun x y z => zsum lo hi (fun m => w m * (te p x y z * real_sph l m x y z))) (zsum lo hi (fun m => w m * w m))) by (apply sphere_zsum; intros m Hm; apply sphere_scal, Hw; unfold lo, hi in Hm; lia).
  assert (H2 : sphere_int (fun x y z => zsum lo hi (fun m => zsum lo hi (fun m' => (w m * w m') * (real_sph l m x y z * real_sph l m' x y z)))) (zsum lo hi (fun m => w m * w m))).
  { apply sphere_zsum. intros m Hm. assert (E : w m * w m = zsum lo hi (fun m' => (w m * w m') * (if (l =? l)%nat && (m =? m')%Z then 1 else 0))).
    - rewrite (zsum_delta _ _ m); [rewrite Nat.eqb_refl, Z.eqb_refl; cbn [andb]; ring|exact Hm|]. intros i Hi Hn. rewrite (proj2 (Z.eqb_neq m i)) by auto. rewrite andb_false_r. ring.
    - rewrite E. apply sphere_zsum. intros m' Hm'. apply sphere_scal, orthonormal; unfold lo, hi in *; lia. }
  pose proof (sphere_lin _ _ _ _ 1 1 (sphere_lin _ _ _ _ 1 (-2) Hv H1) H2) as H3.
  assert (P : 0 <= 1 * (1 * v + -2 * zsum lo hi (fun m => w m * w m)) + 1 * zsum lo hi (fun m => w m * w m)).
  { apply (sphere_pos _ _ H3). intros x y z _. set (s := zsum lo hi (fun m => w m * real_sph l m x y z)).
    assert (E1 : zsum lo hi (fun m => w m * (te p x y z * real_sph l m x y z)) = te p x y z * s) by (unfold s; rewrite <- zsum_scal; apply zsum_ext; intros; ring).
    assert (E2 : zsum lo hi (fun m => zsum lo hi (fun m' => (w m * w m') * (real_sph l m x y z * real_sph l m' x y z))) = s * s).
    { rewrite (zsum_ext _ _ _ (fun m => s * (w m * real_sph l m x y z))); [rewrite zsum_scal; reflexivity|]. intros m _. unfold s. rewrite Rmult_comm, <- zsum_scal. apply zsum_ext. intros; ring. }
    rewrite E1, E2. pose proof (pow2_ge_0 (te p x y z - s)) as Q. replace (1 * (1 * te p x y z ^ 2 + -2 * (te p x y z * s)) + 1 * (s * s)) with ((te p x y z - s) ^ 2) by ring. exact Q. }
  rewrite (zsum_ext _ _ (fun m => w m ^ 2) (fun m => w m * w m)) by (intros; ring). lra.
Qed.

(** a monomial times a harmonic has norm at most 1 *)
Lemma mono_le_1 a b c x y z : x ^ 2 + y ^ 2 + z ^ 2 = 1 -> (x ^ a * y ^ b * z ^ c) ^ 2 <= 1.
Proof.
  intros Hu. assert (B : forall t n, t ^ 2 <= 1 -> 0 <= (t ^ n) ^ 2 <= 1).
  { intros t n Ht. split; [apply pow2_ge_0|]. rewrite <- pow_mult, Nat.mul_comm, pow_mult. pose proof (pow2_ge_0 t). pose proof (pow_below_1 (t ^ 2) n ltac:(lra)) as P. apply Rabs_le_between in P. lra. }
  pose proof (pow2_ge_0 x). pose proof (pow2_ge_0 y). pose proof (pow2_ge_0 z). destruct (B x a ltac:(lra)). destruct (B y b ltac:(lra)). destruct (B z c ltac:(lra)). rewrite !Rpow_mult_distr.
  assert ((x ^ a) ^ 2 * (y ^ b) ^ 2 <= 1 * 1) by (apply Rmult_le_compat; assumption).
  assert ((x ^ a) ^ 2 * (y ^ b) ^ 2 * (z ^ c) ^ 2 <= 1 * 1 * 1) by (apply Rmult_le_compat; try lra; apply Rmult_le_pos; assumption). lra.
Qed.

Lemma overlaps_le_1 a b c L m l (w : Z -> R) : (L <= 40)%nat -> (l <= 40)%nat -> (Z.abs m <= Z.of_nat L)%Z ->
  (forall mu, (Z.abs mu <= Z.of_nat l)%Z -> sphere_int (fun x y z => x ^ a * y ^ b * z ^ c * real_sph l mu x y z * real_sph L m x y z) (w mu)) ->
  zsum (- Z.of_nat l) (Z.of_nat l + 1) (fun mu => w mu ^ 2) <= 1.
Proof.
  intros HL Hl Hm Hw. set (p := tmul [(1, (a, b, c))] (htri L m)).
  assert (Ep : forall x y z, x ^ 2 + y ^ 2 + z ^ 2 = 1 -> te p x y z = x ^ a * y ^ b * z ^ c * real_sph L m x y z) by (intros x y z Hu; unfold p; rewrite te_mul, te_cons, te_nil, (htri_sph L m x y z HL Hm Hu); ring).
  pose proof (tint_ok (tmul p p)) as T. assert (T2 : sphere_int (fun x y z => te p x y z ^ 2) (tint (tmul p p))) by (eapply sphere_ext; [|exact T]; intros; rewrite te_mul; ring).
  apply Rle_trans with (tint (tmul p p)).
  - apply (bessel_ineq p l w _ T2). intros mu Hmu. eapply sphere_ext; [|apply (Hw mu Hmu)]. intros x y z Hu. cbv beta. rewrite (Ep x y z Hu). ring.
  - pose proof (orthonormal L L m m Hm Hm) as O. rewrite Nat.eqb_refl, Z.eqb_refl in O. apply (sphere_le _ _ _ _ T2 O). intros x y z Hu. rewrite (Ep x y z Hu), Rpow_mult_distr. pose proof (mono_le_1 a b c x y z Hu). pose proof (pow2_ge_0 (real_sph L m x y z)). nra.
Qed.

(** the angular integrals: at most sqrt((2 l + 1) / (4 pi)) *)
Lemma angular_bound a b c L m l (w : Z -> R) kx ky kz : (L <= 40)%nat -> (l <= 40)%nat -> (Z.abs m <= Z.of_nat L)%Z -> kx ^ 2 + ky ^ 2 + kz ^ 2 = 1 ->
  (forall mu, (Z.abs mu <= Z.of_nat l)%Z -> sphere_int (fun x y z => x ^ a * y ^ b * z ^ c * real_sph l mu x y z * real_sph L m x y z) (w mu)) ->
  zsum (- Z.of_nat l) (Z.of_nat l + 1) (fun mu => w mu * real_sph l mu kx ky kz) ^ 2 <= (2 * INR l + 1) / (4 * PI).
Proof.
  intros HL Hl Hm Hk Hw. pose proof (overlaps_le_1 a b c L m l w HL Hl Hm Hw) as B1. pose proof (sum_squares kx ky kz l Hl Hk) as B2.
  eapply Rle_trans; [apply (zsum_cauchy _ _ w (fun mu => real_sph l mu kx ky kz))|]. cbv beta. rewrite B2. pose proof PI_RGT_0. pose proof (pos_INR l). assert (0 <= (2 * INR l + 1) / (4 * PI)) by (apply Rdiv_le_0_compat; lra).
  rewrite <- (Rmult_1_l ((2 * INR l + 1) / (4 * PI))) at 2. apply Rmult_le_compat_r; assumption.
Qed.
