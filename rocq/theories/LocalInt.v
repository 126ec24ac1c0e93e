(** * Expansion of the integrals of a radially local potential *)

From Coq Require Import ZArith Reals Lra Lia List Bool.
From Coquelicot Require Import Coquelicot.
From Verif Require Import Base BinomProofs CartModel CartProofs OneElModel OneElProofs OneElInt OneElSpec GaussInt Sums SpecExp SpecSpec BesselProofs BesselThms
  SphModel SphSpec SphPoly SphProofs SphTables SphInt SphOrtho SphAngular SphHarm SphThms SphTri SphHecke SphPlane SphSpan SphAdd PiBounds NucPotSpec NucPot GaussMoment OutercoreRadial RadialTables
  Type2Spec Type2Proj Type2Radial Type2Error Type2Value Type2Acc LocalSpec.
Import ListNotations.
Open Scope R_scope.

(** ** The angular integrals *)
Definition omega1 (l a b c : nat) (k : R * R * R) : R :=
  zsum (- Z.of_nat l) (Z.of_nat l + 1) (fun mu => moment1 l mu a b c * sph_value l mu k).

Definition s4p : R := sqrt (4 * PI).

Lemma s4p_pos : 0 < s4p. Proof. apply sqrt_lt_R0. pose proof PI_RGT_0. lra. Qed.

Lemma moment12 l mu a b c : (a + b + c + l <= 29)%nat -> (Z.abs mu <= Z.of_nat l)%Z -> moment1 l mu a b c = s4p * moment2 l mu 0 0 a b c.
Proof.
  intros H Hmu. eapply sphere_uniq; [apply (moment1_int l mu a b c); try lia; left; lia|].
  eapply sphere_ext; [|apply sphere_scal; apply (moment2_int l mu 0 0 a b c); try lia; left; lia].
  intros x y z _. cbv beta. rewrite (real_sph_0 0) by lia. fold s4p. pose proof s4p_pos. field. lra.
Qed.

Lemma omega12 l a b c k : (a + b + c + l <= 29)%nat -> omega1 l a b c k = s4p * omega l 0 0 a b c k.
Proof.
  intros H. unfold omega1, omega. rewrite <- zsum_scal. apply zsum_ext. intros mu Hmu. rewrite moment12 by lia. ring.
Qed.

Lemma omega1_bound l a b c k : (a + b + c <= 14)%nat -> (l <= a + b + c)%nat -> Rabs (omega1 l a b c k) <= 54 / 10.
Proof.
  intros H Hl. rewrite omega12 by lia. rewrite Rabs_mult. pose proof (omega_bound l 0 0 a b c k ltac:(lia) ltac:(lia) ltac:(lia)) as B.
  pose proof s4p_pos as P. rewrite (Rabs_pos_eq s4p) by lra.
  assert (Q : s4p <= 355 / 100).
  { unfold s4p. replace (355 / 100) with (sqrt ((355 / 100) * (355 / 100))) by (apply sqrt_square; lra). apply sqrt_le_1_alt. pose proof PI_upper. lra. }
  apply Rle_trans with (355 / 100 * (152 / 100)); [|lra]. apply Rmult_le_compat; [lra|apply Rabs_pos|exact Q|exact B].
Qed.

Lemma omega1_zero l a b c k : (a + b + c <= 14)%nat -> (l <= 14)%nat -> (a + b + c < l)%nat \/ Nat.even (a + b + c - l) = false -> omega1 l a b c k = 0.
Proof.
  intros H Hl Hz. unfold omega1. apply zsum_zero. intros mu Hmu.
  destruct (span_wave (a + b + c) (mono3 a b c) ltac:(lia) (mono_span a b c)) as (w & A & Z0 & _).
  replace (moment1 l mu a b c) with (w l mu); [rewrite Z0 by (assumption || lia); ring|].
  eapply sphere_uniq; [apply (A l mu); lia|]. apply (moment1_int l mu a b c); lia.
Qed.

(** the sum over lambda up to any bound is the one over the orders that contribute *)
Lemma lambda_sum (LM a b c : nat) k (q : nat -> R) : (a + b + c <= LM)%nat -> (LM <= 14)%nat ->
  zsum 0 (Z.of_nat LM + 1) (fun l => q (Z.to_nat l) * omega1 (Z.to_nat l) a b c k) = lamsum 0 (a + b + c) (fun l => q l * omega1 l a b c k).
Proof.
  intros H H14. rewrite <- lamsum_full by (intros; lia). rewrite zsum_nat.
  transitivity (rsum (S LM) (fun l => if Nat.leb l (a + b + c) && Nat.even (a + b + c - l) then q l * omega1 l a b c k else 0)).
  - apply rsum_ext. intros l Hl. rewrite Nat2Z.id. destruct (Nat.leb_spec l (a + b + c)) as [H1|H1]; cbn [andb]; [destruct (Nat.even (a + b + c - l)) eqn:E; [reflexivity|]|].
    + rewrite omega1_zero by (auto; lia). ring.
    + rewrite omega1_zero by (auto; lia). ring.
  - replace (S LM) with (S (a + b + c) + (LM - (a + b + c)))%nat by lia. generalize (LM - (a + b + c))%nat as d. intros d. induction d as [|d IH].
    + rewrite Nat.add_0_r, Nat.add_0_r. apply rsum_ext. intros l Hl. rewrite (proj2 (Nat.leb_le l (a + b + c))) by lia. reflexivity.
    + replace (S (a + b + c) + S d)%nat with (S (S (a + b + c) + d)) by lia. cbn [rsum]. rewrite IH.
      rewrite (proj2 (Nat.leb_gt (S (a + b + c) + d) (a + b + c))) by lia. cbn [andb]. rewrite Rplus_0_r. reflexivity.
Qed.

(** ** Product of two Gaussians around C *)
Definition pvec (aA aB : R) (CA CB : R * R * R) : R * R * R :=
  let '(X, Y, Z) := CA in let '(X', Y', Z') := CB in
  ((aA * X + aB * X') / (aA + aB), (aA * Y + aB * Y') / (aA + aB), (aA * Z + aB * Z') / (aA + aB)).

Lemma pair_k_len aA aB A B C : 0 < aA + aB -> pair_k aA aB A B C = 2 * (aA + aB) * len (pvec aA aB (minus3 C A) (minus3 C B)).
Proof.
  intros Hp. destruct A as [[ax ay] az]. destruct B as [[bx by_] bz]. destruct C as [[cx cy] cz]. unfold pair_k, pair_vector, separation. cbn [minus3 pvec len]. unfold norm3. rewrite !Rminus_0_r.
  set (u := aA * (cx - ax) + aB * (cx - bx)). set (v := aA * (cy - ay) + aB * (cy - by_)). set (w := aA * (cz - az) + aB * (cz - bz)). set (p := aA + aB) in *.
  rewrite Rmult_assoc. f_equal. rewrite <- (sqrt_square p) at 1 by lra. rewrite <- sqrt_mult_alt by nra. f_equal. field. lra.
Qed.

Lemma separation_len A C : separation A C = len (minus3 C A). Proof. symmetry. apply len_distance. Qed.

Lemma len_sq3 X Y Z : len (X, Y, Z) ^ 2 = X * X + Y * Y + Z * Z.
Proof. cbn [len]. replace (norm3 X Y Z ^ 2) with (norm3 X Y Z * norm3 X Y Z) by ring. apply norm3_sq. Qed.

(** on the sphere of radius r *)
Lemma pair_gauss_on_sphere NA NB aA aB A B C r k a b c : 0 < aA + aB -> 0 <= r -> against (pvec aA aB (minus3 C A) (minus3 C B)) k -> (a + b + c <= 14)%nat ->
  let '(X, Y, Z) := minus3 C A in let '(X', Y', Z') := minus3 C B in
  sphere_int (fun x y z => NA * NB * (x ^ a * y ^ b * z ^ c * (exp (- (aA * ((X + r * x) * (X + r * x) + (Y + r * y) * (Y + r * y) + (Z + r * z) * (Z + r * z)))) *
      exp (- (aB * ((X' + r * x) * (X' + r * x) + (Y' + r * y) * (Y' + r * y) + (Z' + r * z) * (Z' + r * z)))))))
    (pair_gauss NA NB aA aB A B C r * lamsum 0 (a + b + c) (fun l => bessK l (pair_k aA aB A B C * r) * omega1 l a b c k)).
Proof.
  intros Hp Hr HA H14. pose proof (pair_k_len aA aB A B C Hp) as EK. unfold pair_gauss. rewrite EK, !separation_len.
  destruct (minus3 C A) as [[X Y] Z]. destruct (minus3 C B) as [[X' Y'] Z']. cbn [pvec] in *.
  set (V1 := (aA * X + aB * X') / (aA + aB)) in *. set (V2 := (aA * Y + aB * Y') / (aA + aB)) in *. set (V3 := (aA * Z + aB * Z') / (aA + aB)) in *.
  set (kap := aA * len (X, Y, Z) ^ 2 + aB * len (X', Y', Z') ^ 2 - (aA + aB) * len (V1, V2, V3) ^ 2).
  pose proof (prim_projection V1 V2 V3 k (aA + aB) r 0 0 a b c Hr HA ltac:(lia) ltac:(lia)) as S0.
  pose proof (sphere_scal _ _ (NA * NB * s4p * exp (- kap)) S0) as S1. clear S0.
  eapply sphere_val; [eapply sphere_ext; [|exact S1]|].
  - intros x y z Hs. cbv beta. rewrite (real_sph_0 0) by lia. fold s4p. pose proof s4p_pos as SP.
    transitivity (NA * NB * (x ^ a * y ^ b * z ^ c * (exp (- kap) * exp (- ((aA + aB) * ((V1 + r * x) * (V1 + r * x) + (V2 + r * y) * (V2 + r * y) + (V3 + r * z) * (V3 + r * z))))))).
    + field. lra.
    + do 2 f_equal. rewrite <- !exp_plus. f_equal. unfold kap. rewrite !len_sq3. unfold V1, V2, V3. field. lra.
  - set (D := norm3 V1 V2 V3). change (len (V1, V2, V3)) with D in *.
    rewrite (lamsum_ext 0 (a + b + c) (fun l => bessK l (2 * (aA + aB) * D * r) * omega1 l a b c k) (fun l => s4p * (bessK l (2 * (aA + aB) * D * r) * omega l 0 0 a b c k))).
    2:{ intros l Hl. rewrite omega12 by lia. ring. }
    rewrite lamsum_scal. replace (exp (2 * (aA + aB) * D * r - (aA + aB) * r ^ 2 - aA * len (X, Y, Z) ^ 2 - aB * len (X', Y', Z') ^ 2)) with (exp (- kap) * exp (- (aA + aB) * ((r - D) * (r - D)))); [ring|].
    rewrite <- exp_plus. f_equal. unfold kap. ring.
Qed.

(** ** Existence of the radial integrals *)
Lemma continuous_loc (f g : R -> R) x : locally x (fun y => f y = g y) -> continuous g x -> continuous f x.
Proof. intros E H. apply (continuous_ext_loc f g x); [|exact H]. destruct E as (d & Hd). exists d. intros y Hy. symmetry. apply Hd, Hy. Qed.

Lemma charge_like_radial U (G : R -> R) (K0 p : R) (n : nat) : charge_like U -> (forall r, continuous G r) -> 0 < p -> 0 <= K0 -> (forall r, 0 <= r -> Rabs (G r) <= K0 * exp (- p * r ^ 2)) ->
  exists q, half_int (fun r => r ^ 2 * U r * G r * r ^ n) q.
Proof.
  intros (CU & K & HK) CG Hp HK0 BG. assert (KP : 0 <= K) by (pose proof (HK 1 ltac:(lra)); pose proof (Rabs_pos (1 * U 1)); lra).
  set (h := fun r => if Rle_dec r 0 then 0 else r ^ 2 * U r * G r * r ^ n).
  set (g := fun r => (K * K0) * (r ^ S n * exp (- p * r ^ 2))).
  assert (HB : forall r, 0 <= r -> Rabs (h r) <= g r).
  { intros r Hr. unfold h, g. destruct (Rle_dec r 0) as [H|H].
    - rewrite Rabs_R0. apply Rmult_le_pos; [apply Rmult_le_pos; assumption|]. apply Rmult_le_pos; [apply pow_le, Hr|left; apply exp_pos].
    - assert (0 < r) by lra. replace (r ^ 2 * U r * G r * r ^ n) with ((r * U r) * G r * r ^ S n) by (cbn [pow]; ring). rewrite !Rabs_mult. rewrite <- Rabs_mult. rewrite (Rabs_pos_eq (r ^ S n)) by (apply pow_le, Hr).
      replace (K * K0 * (r ^ S n * exp (- p * r ^ 2))) with (K * (K0 * exp (- p * r ^ 2)) * r ^ S n) by ring. apply Rmult_le_compat_r; [apply pow_le, Hr|].
      apply Rmult_le_compat; try apply Rabs_pos; [apply HK; assumption|apply BG, Hr]. }
  assert (CH : forall r, continuous h r).
  { intros r. destruct (Rtotal_order r 0) as [H|[H|H]].
    - apply (continuous_loc h (fun _ => 0)); [|apply continuous_const]. exists (mkposreal (- r) ltac:(lra)). intros y Hy. unfold h.
      assert (Rabs (y - r) < - r) by exact Hy. apply Rabs_def2 in H0. destruct (Rle_dec y 0); [reflexivity|lra].
    - subst r. apply (proj2 (filterlim_locally (F := locally 0) h (h 0))). intros e. assert (E0 : h 0 = 0) by (unfold h; destruct (Rle_dec 0 0); [reflexivity|lra]).
      assert (CP : continuous g 0) by (apply (ex_derive_continuous (V := R_NormedModule)); unfold g; auto_derive; exact I).
      pose proof (proj1 (filterlim_locally (F := locally 0) g (g 0)) CP e) as (d & Hd). assert (G0 : g 0 = 0) by (unfold g; cbn [pow]; ring).
      exists d. intros y Hy. specialize (Hd y Hy). rewrite E0. rewrite G0 in Hd. change (Rabs (g y - 0) < e) in Hd. change (Rabs (h y - 0) < e). rewrite Rminus_0_r in *.
      destruct (Rle_dec y 0) as [H|H].
      + unfold h. destruct (Rle_dec y 0); [|lra]. rewrite Rabs_R0. apply (cond_pos e).
      + eapply Rle_lt_trans; [apply HB; lra|]. eapply Rle_lt_trans; [apply Rle_abs|exact Hd].
    - apply (continuous_loc h (fun r => r ^ 2 * U r * G r * r ^ n)).
      + exists (mkposreal r H). intros y Hy. unfold h. assert (HR : Rabs (y - r) < r) by exact Hy. apply Rabs_def2 in HR. destruct (Rle_dec y 0); [lra|reflexivity].
      + apply (continuous_mult (K := R_AbsRing) (fun r => r ^ 2 * U r * G r) (fun r => r ^ n)); [|apply (ex_derive_continuous (V := R_NormedModule)); auto_derive; exact I].
        apply (continuous_mult (K := R_AbsRing) (fun r => r ^ 2 * U r) G); [|apply CG].
        apply (continuous_mult (K := R_AbsRing) (fun r => r ^ 2) U); [apply (ex_derive_continuous (V := R_NormedModule)); auto_derive; exact I|apply CU, H]. }
  assert (CGa : forall r, continuous g r) by (intros r; apply (ex_derive_continuous (V := R_NormedModule)); unfold g; auto_derive; exact I).
  assert (HG : half_int g (K * K0 * gmom (S n) p)) by (unfold g; apply half_scal; apply gauss_moment; exact Hp).
  destruct (half_dominated (fun r => h r + g r) (fun r => 2 * g r) (2 * (K * K0 * gmom (S n) p))) as (u & Hu).
  - intros r. apply (continuous_plus (V := R_NormedModule) h g); [apply CH|apply CGa].
  - intros r Hr. specialize (HB r Hr). apply Rabs_le_between in HB. lra.
  - apply half_scal, HG.
  - exists (u + -1 * (K * K0 * gmom (S n) p)). apply (half_ext (fun r => (h r + g r) + -1 * g r)).
    + intros r Hr. unfold h. destruct (Rle_dec r 0); [lra|ring].
    + apply half_plus; [exact Hu|]. apply half_scal, HG.
Qed.

Lemma pair_radial_exists U NA NB aA aB A B C l n : charge_like U -> 0 < aA + aB -> exists q, pair_radial U NA NB aA aB A B C l n q.
Proof.
  intros HU Hp. unfold pair_radial, pair_gauss. set (k := pair_k aA aB A B C).
  assert (K0 : 0 <= k) by (unfold k; rewrite pair_k_len by exact Hp; apply Rmult_le_pos; [lra|apply len_nonneg]).
  set (c0 := aA * separation A C ^ 2 + aB * separation B C ^ 2). set (p := aA + aB) in *.
  destruct (charge_like_radial U (fun r => 4 * PI * NA * NB * exp (k * r - p * r ^ 2 - aA * separation A C ^ 2 - aB * separation B C ^ 2) * bessK l (k * r)) (Rabs (4 * PI * NA * NB) * exp (k ^ 2 / (2 * p) - c0)) (p / 2) n HU) as (q & Hq).
  - intros r. apply (continuous_mult (K := R_AbsRing) (fun r => 4 * PI * NA * NB * exp (k * r - p * r ^ 2 - aA * separation A C ^ 2 - aB * separation B C ^ 2)) (fun r => bessK l (k * r))); [|apply bess_cont].
    apply (ex_derive_continuous (V := R_NormedModule)). auto_derive. exact I.
  - lra.
  - apply Rmult_le_pos; [apply Rabs_pos|left; apply exp_pos].
  - intros r Hr. rewrite Rabs_mult, Rabs_mult, (Rabs_pos_eq (exp _)) by (left; apply exp_pos).
    pose proof (bessK_bounds l (k * r) (Rmult_le_pos _ _ K0 Hr)) as B0. rewrite (Rabs_pos_eq (bessK l (k * r))) by lra.
    rewrite (Rmult_assoc (Rabs _) (exp (k ^ 2 / (2 * p) - c0))), <- exp_plus.
    assert (E : exp (k * r - p * r ^ 2 - aA * separation A C ^ 2 - aB * separation B C ^ 2) <= exp (k ^ 2 / (2 * p) - c0 + - (p / 2) * r ^ 2)).
    { assert (Q : k * r - p * r ^ 2 - aA * separation A C ^ 2 - aB * separation B C ^ 2 <= k ^ 2 / (2 * p) - c0 + - (p / 2) * r ^ 2).
      { assert (X : 0 <= (k - p * r) ^ 2 / (2 * p)) by (apply Rdiv_le_0_compat; [apply pow2_ge_0|lra]).
        replace ((k - p * r) ^ 2 / (2 * p)) with (k ^ 2 / (2 * p) - k * r + p / 2 * r ^ 2) in X by (field; lra). unfold c0. lra. }
      destruct Q as [Q|Q]; [left; apply exp_increasing, Q|rewrite Q; right; reflexivity]. }
    pose proof (exp_pos (k * r - p * r ^ 2 - aA * separation A C ^ 2 - aB * separation B C ^ 2)). pose proof (Rabs_pos (4 * PI * NA * NB)) as P0.
    apply Rle_trans with (Rabs (4 * PI * NA * NB) * exp (k * r - p * r ^ 2 - aA * separation A C ^ 2 - aB * separation B C ^ 2) * 1).
    + apply Rmult_le_compat_l; [apply Rmult_le_pos; lra|lra].
    + rewrite Rmult_1_r. apply Rmult_le_compat_l; assumption.
  - exists q. eapply half_ext; [|exact Hq]. intros r Hr. cbv beta. ring.
Qed.
