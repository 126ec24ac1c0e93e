(** * Projections of contracted Gaussians on spherical harmonics around a point *)

From Coq Require Import ZArith Reals Lra Lia List Bool.
From Coquelicot Require Import Coquelicot.
From Verif Require Import Base BinomProofs CartModel CartProofs OneElModel OneElProofs OneElInt OneElSpec GaussInt Sums SpecExp SpecSpec BesselProofs BesselThms
  SphModel SphSpec SphPoly SphProofs SphTables SphInt SphOrtho SphAngular SphHarm SphThms SphTri SphHecke SphPlane SphSpan SphAdd NucPotSpec Type2Spec.
Import ListNotations.
Open Scope R_scope.

(** sum over lambda = max(L-n,0), ..., L+n of the parity of L+n *)
Definition lamsum (L n : nat) (g : nat -> R) : R :=
  zsum (Z.max (Z.of_nat L - Z.of_nat n) 0) (Z.of_nat L + Z.of_nat n + 1) (fun l => if (Z.rem (Z.of_nat L + Z.of_nat n - l) 2 =? 0)%Z then g (Z.to_nat l) else 0).

Lemma lamsum_ext L n g h : (forall l, (l <= L + n)%nat -> g l = h l) -> lamsum L n g = lamsum L n h.
Proof. intros H. unfold lamsum. apply zsum_ext. intros l Hl. destruct (_ =? 0)%Z; [apply H; lia|reflexivity]. Qed.

Lemma lamsum_scal L n k g : lamsum L n (fun l => k * g l) = k * lamsum L n g.
Proof. unfold lamsum. rewrite <- zsum_scal. apply zsum_ext. intros l Hl. destruct (_ =? 0)%Z; ring. Qed.

Lemma lamsum_zero L n : lamsum L n (fun _ => 0) = 0.
Proof. unfold lamsum. apply zsum_zero. intros l _. destruct (_ =? 0)%Z; reflexivity. Qed.

Lemma lamsum_plus L n g h : lamsum L n (fun l => g l + h l) = lamsum L n g + lamsum L n h.
Proof. unfold lamsum. rewrite <- zsum_plus. apply zsum_ext. intros l Hl. destruct (_ =? 0)%Z; ring. Qed.

Lemma lamsum_lsum {A} L n (g : A -> nat -> R) (l : list A) : lsum (fun i => lamsum L n (g i)) l = lamsum L n (fun k => lsum (fun i => g i k) l).
Proof.
  induction l as [|i l IH]; [cbn; rewrite lamsum_zero; reflexivity|]. rewrite lsum_cons, IH, <- lamsum_plus. apply lamsum_ext. intros k _. rewrite lsum_cons. reflexivity.
Qed.

Lemma rem_even (d : nat) (l : nat) : (l <= d)%nat -> (Z.rem (Z.of_nat d - Z.of_nat l) 2 =? 0)%Z = Nat.even (d - l).
Proof.
  intros H. rewrite <- Nat2Z.inj_sub by exact H. rewrite Z.rem_mod_nonneg by lia. rewrite <- Nat2Z_even || idtac.
  destruct (Nat.even (d - l)) eqn:E.
  - apply Nat.even_spec in E. destruct E as (q & ->). apply Z.eqb_eq. rewrite Nat2Z.inj_mul, Z.mul_comm. apply Z.mod_mul. lia.
  - apply Z.eqb_neq. intros C. assert (O : Nat.odd (d - l) = true) by (rewrite <- Nat.negb_even, E; reflexivity). apply Nat.odd_spec in O. destruct O as (q & Hq). rewrite Hq in C.
    replace (Z.of_nat (2 * q + 1)) with (1 + Z.of_nat q * 2)%Z in C by lia. rewrite Z.mod_add in C by lia. cbv in C. discriminate.
Qed.

(** the full sum over lambda <= L+n when the lowest terms vanish *)
Lemma lamsum_full L n g : (forall l, (l + n < L)%nat -> g l = 0) -> rsum (S (n + L)) (fun l => if Nat.even (n + L - l) then g l else 0) = lamsum L n g.
Proof.
  intros H0. unfold lamsum.
  transitivity (zsum 0 (Z.of_nat L + Z.of_nat n + 1) (fun l => if (Z.rem (Z.of_nat L + Z.of_nat n - l) 2 =? 0)%Z then g (Z.to_nat l) else 0)).
  - replace (Z.of_nat L + Z.of_nat n + 1)%Z with (0 + Z.of_nat (S (n + L)))%Z by lia. rewrite zsum_rsum. apply rsum_ext. intros l Hl.
    replace (Z.of_nat L + Z.of_nat n - (0 + Z.of_nat l))%Z with (Z.of_nat (n + L) - Z.of_nat l)%Z by lia. rewrite rem_even by lia. rewrite Z.add_0_l, Nat2Z.id. reflexivity.
  - rewrite (zsum_split 0 (Z.max (Z.of_nat L - Z.of_nat n) 0)) by lia. rewrite zsum_zero; [ring|]. intros l Hl. destruct (_ =? 0)%Z; [apply H0; lia|reflexivity].
Qed.

(** the angular factor *)
Definition omega (l L : nat) (m : Z) (a b c : nat) (k : R * R * R) : R :=
  zsum (- Z.of_nat l) (Z.of_nat l + 1) (fun mu => moment2 l mu L m a b c * sph_value l mu k).

(** [k] is long enough and points against V, or V is zero *)
Definition against (V k : R * R * R) : Prop :=
  let '(X, Y, Z) := V in
  (X = 0 /\ Y = 0 /\ Z = 0) \/
  (exists s, 0 < s /\ k = (- s * X, - s * Y, - s * Z)) /\ 1 / 10 ^ 14 < (let '(a, b, c) := k in norm3 a b c).

Definition len (V : R * R * R) : R := let '(X, Y, Z) := V in norm3 X Y Z.

Lemma norm3_sq a b c : norm3 a b c * norm3 a b c = a * a + b * b + c * c.
Proof. apply sqrt_sqrt. pose proof (Rle_0_sqr a); pose proof (Rle_0_sqr b); pose proof (Rle_0_sqr c); unfold Rsqr in *; lra. Qed.

Lemma norm3_nonneg a b c : 0 <= norm3 a b c. Proof. apply sqrt_pos. Qed.

Lemma norm3_scale s a b c : 0 < s -> norm3 (- s * a) (- s * b) (- s * c) = s * norm3 a b c.
Proof.
  intros Hs. unfold norm3. replace (- s * a * (- s * a) + - s * b * (- s * b) + - s * c * (- s * c)) with ((s * s) * (a * a + b * b + c * c)) by ring.
  rewrite sqrt_mult_alt by nra. rewrite sqrt_square by lra. reflexivity.
Qed.

(** overlaps with harmonics of low order vanish *)
Lemma moment2_low l mu L m a b c : (l <= 40)%nat -> (L <= 40)%nat -> (Z.abs mu <= Z.of_nat l)%Z -> (Z.abs m <= Z.of_nat L)%Z ->
  (a + b + c + l + L <= 29)%nat -> (l + (a + b + c) < L)%nat -> moment2 l mu L m a b c = 0.
Proof.
  intros Hl HL Hmu Hm Hd Hlow.
  destruct (span_wave (a + b + c + l) (fun x y z => x ^ a * y ^ b * z ^ c * real_sph l mu x y z) ltac:(lia) (mono_sph_span a b c l mu Hl Hmu)) as (w & A & Z0 & _).
  rewrite <- (Z0 L m Hm ltac:(left; lia)). eapply sphere_uniq; [apply (moment2_int l mu L m a b c); auto|].
  eapply sphere_ext; [|apply (A L m Hm)]. intros x y z _. unfold mono3. cbv beta. reflexivity.
Qed.

(** a Gaussian times a monomial, on a sphere *)
Lemma prim_projection X Y Z k al r L m a b c : 0 <= r -> against (X, Y, Z) k -> (Z.abs m <= Z.of_nat L)%Z -> (2 * (a + b + c) + 2 * L <= 29)%nat ->
  sphere_int (fun x y z => x ^ a * y ^ b * z ^ c * exp (- (al * ((X + r * x) * (X + r * x) + (Y + r * y) * (Y + r * y) + (Z + r * z) * (Z + r * z)))) * real_sph L m x y z)
    (4 * PI * exp (- al * ((r - norm3 X Y Z) * (r - norm3 X Y Z))) * lamsum L (a + b + c) (fun l => bessK l (2 * al * norm3 X Y Z * r) * omega l L m a b c k)).
Proof.
  intros Hr HA Hm Hd. set (n := (a + b + c)%nat) in *. set (D := norm3 X Y Z). set (t := 2 * al * D * r).
  assert (K : exists ex ey ez, ex ^ 2 + ey ^ 2 + ez ^ 2 = 1 /\ (X = - (D * ex) /\ Y = - (D * ey) /\ Z = - (D * ez)) /\
    forall l, bessK l t * zsum (- Z.of_nat l) (Z.of_nat l + 1) (fun mu => moment2 l mu L m a b c * real_sph l mu ex ey ez) = bessK l t * omega l L m a b c k).
  { destruct HA as [(-> & -> & ->)|((s & Hs & ->) & Hk)].
    - exists 0, 0, 1. assert (D0 : D = 0) by (unfold D, norm3; replace (0 * 0 + 0 * 0 + 0 * 0) with 0 by ring; apply sqrt_0). split; [ring|]. split; [rewrite D0; lra|].
      intros l. unfold t. rewrite D0. replace (2 * al * 0 * r) with 0 by ring. destruct l as [|l]; [|rewrite bessK_at_0; ring]. f_equal. unfold omega. apply zsum_ext. intros mu Hmu. f_equal.
      rewrite real_sph_0 by lia. destruct k as [[ka kb] kc]. unfold sph_value. destruct (Rlt_dec _ _); [rewrite real_sph_0 by lia|]; reflexivity.
    - rewrite norm3_scale in Hk by exact Hs. assert (0 < 1 / 10 ^ 14) by (apply Rdiv_lt_0_compat; [lra|apply pow_lt; lra]). pose proof (norm3_nonneg X Y Z) as N0.
      fold D in Hk, N0. assert (DP : 0 < D) by (destruct (Req_dec D 0) as [E|]; [rewrite E in Hk; nra|lra]). pose proof (norm3_sq X Y Z) as SQ. fold D in SQ.
      exists (- X / D), (- Y / D), (- Z / D). split; [|split].
      + replace ((- X / D) ^ 2 + (- Y / D) ^ 2 + (- Z / D) ^ 2) with ((X * X + Y * Y + Z * Z) / (D * D)) by (field; lra). rewrite <- SQ. field. lra.
      + repeat split; field; lra.
      + intros l. f_equal. unfold omega. apply zsum_ext. intros mu Hmu. f_equal. unfold sph_value. rewrite norm3_scale by exact Hs. fold D. destruct (Rlt_dec _ _) as [_|C]; [|contradiction].
        f_equal; field; lra. }
  destruct K as (ex & ey & ez & Hu & (EX & EY & EZ) & KO).
  pose proof (span_wave_with (n + L) (fun x y z => x ^ a * y ^ b * z ^ c * real_sph L m x y z) (fun l mu => moment2 l mu L m a b c) ltac:(lia) (mono_sph_span a b c L m ltac:(lia) Hm)) as W.
  assert (OV : forall l mu, (l <= n + L)%nat -> Nat.even (n + L - l) = true -> (Z.abs mu <= Z.of_nat l)%Z ->
    sphere_int (fun x y z => x ^ a * y ^ b * z ^ c * real_sph L m x y z * real_sph l mu x y z) (moment2 l mu L m a b c)).
  { intros l mu Hl _ Hmu. eapply sphere_ext; [|apply (moment2_int l mu L m a b c); try lia; left; lia]. intros x y z _. unfold mono3. cbv beta. ring. }
  specialize (W OV ex ey ez t Hu). clear OV.
  pose proof (sphere_scal _ _ (exp (- al * ((r - D) * (r - D)) - t)) W) as W2.
  eapply sphere_val; [eapply sphere_ext; [|exact W2]|].
  - intros x y z Hs. cbv beta.
    replace (exp (- (al * ((X + r * x) * (X + r * x) + (Y + r * y) * (Y + r * y) + (Z + r * z) * (Z + r * z))))) with (exp (- al * ((r - D) * (r - D)) - t) * exp (t * (ex * x + ey * y + ez * z))); [ring|].
    rewrite <- exp_plus. f_equal. rewrite EX, EY, EZ. unfold t.
    assert (Q1 : D ^ 2 * (ex ^ 2 + ey ^ 2 + ez ^ 2) = D ^ 2) by (rewrite Hu; ring). assert (Q2 : r ^ 2 * (x ^ 2 + y ^ 2 + z ^ 2) = r ^ 2) by (rewrite Hs; ring).
    transitivity (- al * (r ^ 2 + D ^ 2) + 2 * al * D * r * (ex * x + ey * y + ez * z)); [ring|]. rewrite <- Q1 at 1. rewrite <- Q2 at 1. ring.
  - unfold wave_sum. rewrite (lamsum_full L n (fun l => bessK l t * zsum (- Z.of_nat l) (Z.of_nat l + 1) (fun mu => moment2 l mu L m a b c * real_sph l mu ex ey ez))).
    + rewrite (lamsum_ext L n _ (fun l => bessK l t * omega l L m a b c k)) by (intros l _; apply KO).
      unfold Rminus at 1. rewrite exp_plus, exp_Ropp. field. apply Rgt_not_eq, exp_pos.
    + intros l Hl. rewrite zsum_zero; [ring|]. intros mu Hmu. rewrite moment2_low by lia. ring.
Qed.

(** ** Binomial expansion *)
Definition bsum (q : nat * nat * nat) (V : R * R * R) (g : nat -> nat -> nat -> R) : R :=
  let '(n, l, m) := q in let '(X, Y, Z) := V in
  rsum (S n) (fun a => rsum (S l) (fun b => rsum (S m) (fun c =>
    (ch n a * X ^ (n - a)) * (ch l b * Y ^ (l - b)) * (ch m c * Z ^ (m - c)) * g a b c))).

Lemma bsum_ext n l m V g h : (forall a b c, (a <= n)%nat -> (b <= l)%nat -> (c <= m)%nat -> g a b c = h a b c) -> bsum (n, l, m) V g = bsum (n, l, m) V h.
Proof. intros H. destruct V as [[X Y] Z]. unfold bsum. apply rsum_ext. intros a Ha. apply rsum_ext. intros b Hb. apply rsum_ext. intros c Hc. rewrite H by lia. reflexivity. Qed.

Lemma bsum_scal q V k g : bsum q V (fun a b c => k * g a b c) = k * bsum q V g.
Proof.
  destruct q as [[n l] m]. destruct V as [[X Y] Z]. unfold bsum. rewrite <- rsum_scal. apply rsum_ext. intros a _. rewrite <- rsum_scal. apply rsum_ext. intros b _. rewrite <- rsum_scal. apply rsum_ext. intros c _. ring.
Qed.

Lemma bsum_zero q V : bsum q V (fun _ _ _ => 0) = 0.
Proof. transitivity (bsum q V (fun _ _ _ => 0 * 0)); [|rewrite bsum_scal; ring]. destruct q as [[n l] m]. apply bsum_ext. intros; ring. Qed.

Lemma bsum_plus q V g h : bsum q V (fun a b c => g a b c + h a b c) = bsum q V g + bsum q V h.
Proof.
  destruct q as [[n l] m]. destruct V as [[X Y] Z]. unfold bsum. rewrite <- rsum_plus. apply rsum_ext. intros a _. rewrite <- rsum_plus. apply rsum_ext. intros b _. rewrite <- rsum_plus. apply rsum_ext. intros c _. ring.
Qed.

Lemma bsum_lsum {A} q V (g : A -> nat -> nat -> nat -> R) (l : list A) : lsum (fun i => bsum q V (g i)) l = bsum q V (fun a b c => lsum (fun i => g i a b c) l).
Proof.
  induction l as [|i l IH]; [cbn; symmetry; apply bsum_zero|]. rewrite lsum_cons, IH, <- bsum_plus. reflexivity.
Qed.

Lemma bsum_product n l m X Y Z r x y z : (X + r * x) ^ n * (Y + r * y) ^ l * (Z + r * z) ^ m = bsum (n, l, m) (X, Y, Z) (fun a b c => r ^ (a + b + c) * (x ^ a * y ^ b * z ^ c)).
Proof.
  unfold bsum. assert (E : forall V s k, (V + r * s) ^ k = rsum (S k) (fun a => ch k a * V ^ (k - a) * (r ^ a * s ^ a))).
  { intros V s k. rewrite Rplus_comm, binom_thm. apply rsum_ext. intros a _. rewrite Rpow_mult_distr. ring. }
  rewrite (E X x n), (E Y y l), (E Z z m). rewrite Rmult_assoc, Rmult_comm, <- rsum_scal. apply rsum_ext. intros a _.
  rewrite Rmult_comm. rewrite (Rmult_comm (rsum (S l) _)) , <- Rmult_assoc, Rmult_comm, <- Rmult_assoc || idtac.
  transitivity (rsum (S l) (fun b => ch l b * Y ^ (l - b) * (r ^ b * y ^ b)) * ((ch n a * X ^ (n - a) * (r ^ a * x ^ a)) * rsum (S m) (fun c => ch m c * Z ^ (m - c) * (r ^ c * z ^ c)))); [ring|].
  rewrite Rmult_comm, <- rsum_scal. apply rsum_ext. intros b _. rewrite Rmult_comm, <- Rmult_assoc, <- rsum_scal. apply rsum_ext. intros c _. rewrite !pow_add. ring.
Qed.

Lemma sphere_bsum n l m V (f : nat -> nat -> nat -> R -> R -> R -> R) v :
  (forall a b c, (a <= n)%nat -> (b <= l)%nat -> (c <= m)%nat -> sphere_int (f a b c) (v a b c)) ->
  sphere_int (fun x y z => bsum (n, l, m) V (fun a b c => f a b c x y z)) (bsum (n, l, m) V v).
Proof.
  intros H. destruct V as [[X Y] Z]. unfold bsum.
  apply (sphere_rsum (S n)). intros a Ha. apply (sphere_rsum (S l)). intros b Hb. apply (sphere_rsum (S m)). intros c Hc. apply sphere_scal. apply H; lia.
Qed.

(** the projection of a component of a shell *)
Definition proj_value (N : R -> R) (prims : list (R * R)) (q : nat * nat * nat) (V k : R * R * R) (L : nat) (m : Z) (r : R) : R :=
  4 * PI * bsum q V (fun a b c => r ^ (a + b + c) * lamsum L (a + b + c) (fun l => radial_factor N prims (len V) l r * omega l L m a b c k)).

Definition minus3 (C A : R * R * R) : R * R * R := let '(c0, c1, c2) := C in let '(a0, a1, a2) := A in (c0 - a0, c1 - a1, c2 - a2).

Lemma shell_projection LA A prims n l m C k L mu : against (minus3 C A) k -> (Z.abs mu <= Z.of_nat L)%Z -> (2 * (n + l + m) + 2 * L <= 29)%nat ->
  projection L mu C (phi LA A prims (Z.of_nat n, Z.of_nat l, Z.of_nat m)) (proj_value (norm_L LA) prims (n, l, m) (minus3 C A) k L mu).
Proof.
  intros HA Hmu Hd. destruct C as [[cx cy] cz]. destruct A as [[ax ay] az]. cbn [minus3] in *. set (X := cx - ax) in *. set (Y := cy - ay) in *. set (Z := cz - az) in *.
  unfold projection. intros r Hr. unfold phi.
  pose proof (sphere_lsum prims (fun ca x y z => let '(cf, al) := ca in
    bsum (n, l, m) (X, Y, Z) (fun a b c => (cf * norm_L LA al * r ^ (a + b + c)) *
      (x ^ a * y ^ b * z ^ c * exp (- (al * ((X + r * x) * (X + r * x) + (Y + r * y) * (Y + r * y) + (Z + r * z) * (Z + r * z)))) * real_sph L mu x y z)))
    (fun '(cf, al) => bsum (n, l, m) (X, Y, Z) (fun a b c => (cf * norm_L LA al * r ^ (a + b + c)) *
      (4 * PI * exp (- al * ((r - norm3 X Y Z) * (r - norm3 X Y Z))) * lamsum L (a + b + c) (fun l => bessK l (2 * al * norm3 X Y Z * r) * omega l L mu a b c k))))) as S.
  eapply sphere_val; [eapply sphere_ext; [|apply S]|].
  - intros x y z _. cbv beta. symmetry. rewrite Rmult_comm, <- OneElInt.lsum_scal. apply OneElInt.lsum_ext. intros (cf, al) _. unfold gto. rewrite !Nat2Z.id.
    replace (cx + r * x - ax) with (X + r * x) by (unfold X; ring). replace (cy + r * y - ay) with (Y + r * y) by (unfold Y; ring). replace (cz + r * z - az) with (Z + r * z) by (unfold Z; ring).
    rewrite bsum_product. set (E := exp _). rewrite <- Rmult_assoc. rewrite (Rmult_comm (bsum _ _ _) E). rewrite <- Rmult_assoc, <- bsum_scal. apply bsum_ext. intros a b c _ _ _. ring.
  - intros (cf, al) _. apply sphere_bsum. intros a b c Ha Hb Hc. apply sphere_scal. apply prim_projection; [lra|exact HA|exact Hmu|lia].
  - unfold proj_value. rewrite <- bsum_scal. cbn [len].
    rewrite (OneElInt.lsum_ext _ (fun i => bsum (n, l, m) (X, Y, Z) (fun a b c => let '(cf, al) := i in cf * norm_L LA al * r ^ (a + b + c) * (4 * PI * exp (- al * ((r - norm3 X Y Z) * (r - norm3 X Y Z))) * lamsum L (a + b + c) (fun l0 => bessK l0 (2 * al * norm3 X Y Z * r) * omega l0 L mu a b c k))))).
    2:{ intros (cf, al) _. reflexivity. }
    rewrite bsum_lsum. apply bsum_ext. intros a b c Ha Hb Hc.
    rewrite (OneElInt.lsum_ext _ (fun i => lamsum L (a + b + c) (fun l0 => (4 * PI * r ^ (a + b + c)) * (let '(cf, al) := i in cf * norm_L LA al * exp (- al * ((r - norm3 X Y Z) * (r - norm3 X Y Z))) * bessK l0 (2 * al * norm3 X Y Z * r) * omega l0 L mu a b c k)))).
    2:{ intros (cf, al) _. rewrite <- !Rmult_assoc. rewrite <- lamsum_scal. apply lamsum_ext. intros l0 _. ring. }
    rewrite lamsum_lsum. rewrite <- !Rmult_assoc, <- lamsum_scal. apply lamsum_ext. intros l0 _. rewrite OneElInt.lsum_scal. f_equal.
    unfold radial_factor. rewrite (Rmult_comm (lsum _ _)), <- OneElInt.lsum_scal. apply OneElInt.lsum_ext. intros (cf, al) _. ring.
Qed.
