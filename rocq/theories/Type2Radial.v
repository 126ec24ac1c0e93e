(** * Existence of the radial integrals, and the matrix elements in terms of them *)

From Coq Require Import ZArith Reals Lra Lia List Bool.
From Coquelicot Require Import Coquelicot.
From Verif Require Import Base BinomProofs CartModel CartProofs OneElModel OneElProofs OneElInt OneElSpec GaussInt Sums SpecExp SpecSpec BesselProofs BesselThms
  SphModel SphSpec SphPoly SphProofs SphTables SphInt SphOrtho SphAngular SphThms SphAdd NucPotSpec NucPot GaussMoment OutercoreRadial RadialTables Type2Spec Type2Proj.
Import ListNotations.
Open Scope R_scope.

(** ** Improper integrals of dominated functions *)
Lemma half_mono_lim (F : R -> R) (B : R) : (forall s t, 0 < s -> s <= t -> F s <= F t) -> (forall t, 0 < t -> F t <= B) -> exists l : R, is_lim F p_infty l /\ l <= B /\ (forall t, 0 < t -> F t <= l).
Proof.
  intros M HB. assert (Hex : ex_finite_lim_seq (fun n => F (INR n + 1))).
  { apply (ex_finite_lim_seq_incr _ B); intros n; [apply M; [pose proof (pos_INR n); lra|rewrite S_INR; lra]|apply HB; pose proof (pos_INR n); lra]. }
  destruct Hex as (l & Hl). exists l.
  assert (UB : forall t, 0 < t -> F t <= l).
  { intros t Ht. destruct (nfloor_ex t ltac:(lra)) as (n & Hn).
    apply (is_lim_seq_le (fun _ => F t) (fun k => F (INR (k + n) + 1)) (F t) l); [|apply is_lim_seq_const|apply (is_lim_seq_incr_n (fun k => F (INR k + 1)) n l); exact Hl].
    intros k. apply M; [exact Ht|]. rewrite plus_INR. pose proof (pos_INR k). lra. }
  split; [|split; [|exact UB]].
  - apply is_lim_spec. intros eps. cbv beta.
    apply is_lim_seq_spec in Hl. destruct (Hl eps) as (N & HN). specialize (HN N (Nat.le_refl N)). exists (INR N + 1). intros t Ht.
    pose proof (pos_INR N). pose proof (M (INR N + 1) t ltac:(lra) ltac:(lra)). pose proof (UB t ltac:(lra)). apply Rabs_lt_between in HN. apply Rabs_lt_between. lra.
  - apply (is_lim_seq_le (fun k => F (INR k + 1)) (fun _ => B) l B); [|exact Hl|apply is_lim_seq_const]. intros n. apply HB. pose proof (pos_INR n). lra.
Qed.

Lemma half_dominated f g v : (forall r, continuous f r) -> (forall r, 0 <= r -> 0 <= f r <= g r) -> half_int g v -> exists u, half_int f u.
Proof.
  intros C D (XG & LG). assert (XF : forall a b, ex_RInt f a b) by (intros a b; apply (ex_RInt_continuous (V := R_CompleteNormedModule)); intros; apply C).
  assert (G0 : forall r, 0 <= r -> 0 <= g r) by (intros r Hr; pose proof (D r Hr); lra).
  assert (MG : forall s t, 0 < s -> s <= t -> RInt g 0 s <= RInt g 0 t).
  { intros s t Hs Hst. assert (X1 : ex_RInt g s t) by (apply (ex_RInt_Chasles_2 (V := R_CompleteNormedModule) g 0 s t); [split; lra|apply XG; lra]).
    pose proof (RInt_Chasles (V := R_CompleteNormedModule) g 0 s t (XG s Hs) X1) as E. change (RInt g 0 s + RInt g s t = RInt g 0 t) in E.
    assert (0 <= RInt g s t) by (apply RInt_ge_0; [exact Hst|exact X1|intros; apply G0; lra]). lra. }
  assert (BG : forall t, 0 < t -> RInt g 0 t <= v).
  { intros t Ht. apply (is_lim_le_loc (fun _ => RInt g 0 t) (fun s => RInt g 0 s) p_infty (RInt g 0 t) v); [|apply is_lim_const|exact LG]. exists t. intros s Hs. apply MG; lra. }
  destruct (half_mono_lim (fun T => RInt f 0 T) v) as (u & Lu & _ & _).
  - intros s t Hs Hst. pose proof (RInt_Chasles (V := R_CompleteNormedModule) f 0 s t (XF 0 s) (XF s t)) as E. change (RInt f 0 s + RInt f s t = RInt f 0 t) in E.
    assert (0 <= RInt f s t) by (apply RInt_ge_0; [exact Hst|apply XF|intros; apply D; lra]). lra.
  - intros t Ht. eapply Rle_trans; [|apply BG, Ht]. apply RInt_le; [lra|apply XF|apply XG, Ht|intros; apply D; lra].
  - exists u. split; [intros T _; apply XF|exact Lu].
Qed.

Lemma half_zero : half_int (fun _ => 0) 0.
Proof. apply (half_eq _ (0 * gmom 0 1)); [|ring]. apply (half_ext (fun r => 0 * (r ^ 0 * exp (- 1 * r ^ 2)))); [intros; ring|]. apply half_scal. apply gauss_moment. lra. Qed.

Lemma half_rsum n (f : nat -> R -> R) v : (forall i, (i < n)%nat -> half_int (f i) (v i)) -> half_int (fun r => rsum n (fun i => f i r)) (rsum n v).
Proof.
  induction n as [|n IH]; intros H; [apply half_zero|]. cbn [rsum]. apply half_plus; [apply IH; intros; apply H; lia|apply H; lia].
Qed.

Lemma half_zsum lo hi (f : Z -> R -> R) v : (forall i, (lo <= i < hi)%Z -> half_int (f i) (v i)) -> half_int (fun r => zsum lo hi (fun i => f i r)) (zsum lo hi v).
Proof.
  intros H. destruct (Z_le_dec lo hi) as [Hh|Hh].
  - replace hi with (lo + Z.of_nat (Z.to_nat (hi - lo)))%Z in * by lia. apply (half_ext (fun r => rsum (Z.to_nat (hi - lo)) (fun k => f (lo + Z.of_nat k)%Z r))); [intros r _; rewrite zsum_rsum; reflexivity|].
    rewrite zsum_rsum. apply half_rsum. intros k Hk. apply H. lia.
  - apply (half_ext (fun _ => 0)); [intros r _; rewrite zsum_nil by lia; reflexivity|]. rewrite zsum_nil by lia. apply half_zero.
Qed.

Lemma half_lamsum L n (f : nat -> R -> R) v : (forall l, (l <= L + n)%nat -> half_int (f l) (v l)) -> half_int (fun r => lamsum L n (fun l => f l r)) (lamsum L n v).
Proof.
  intros H. unfold lamsum.
  apply (half_zsum _ _ (fun l r => if (Z.rem (Z.of_nat L + Z.of_nat n - l) 2 =? 0)%Z then f (Z.to_nat l) r else 0)).
  intros l Hl. destruct (_ =? 0)%Z; [apply H; lia|apply half_zero].
Qed.

Lemma half_bsum n l m V (f : nat -> nat -> nat -> R -> R) v : (forall a b c, (a <= n)%nat -> (b <= l)%nat -> (c <= m)%nat -> half_int (f a b c) (v a b c)) ->
  half_int (fun r => bsum (n, l, m) V (fun a b c => f a b c r)) (bsum (n, l, m) V v).
Proof.
  intros H. destruct V as [[X Y] Z]. unfold bsum. apply (half_rsum (S n)). intros a Ha. apply (half_rsum (S l)). intros b Hb. apply (half_rsum (S m)). intros c Hc. apply half_scal. apply H; lia.
Qed.

(** ** The radial integrals exist *)
Lemma bessK_cont l x : continuous (bessK l) x.
Proof. apply (ex_derive_continuous (V := R_NormedModule)). eexists. apply bessK_derive. Qed.

Lemma gauss_cont a D r : continuous (fun r => exp (- a * ((r - D) * (r - D)))) r.
Proof. apply (ex_derive_continuous (V := R_NormedModule)). auto_derive. exact I. Qed.

Lemma bess_cont l k r : continuous (fun r => bessK l (k * r)) r.
Proof. apply (continuous_comp (fun r => k * r) (bessK l)); [apply (continuous_scal_r (V := R_NormedModule)); apply continuous_id|apply bessK_cont]. Qed.

Lemma gauss_le a D r : 0 <= a -> exp (- a * ((r - D) * (r - D))) <= exp (a * (D * D)) * exp (- (a / 2) * r ^ 2).
Proof.
  intros Ha. rewrite <- exp_plus. assert (Q : - a * ((r - D) * (r - D)) <= a * (D * D) + - (a / 2) * r ^ 2).
  { pose proof (pow2_ge_0 (r - 2 * D)) as P. assert (0 <= a * (r - 2 * D) ^ 2) by (apply Rmult_le_pos; assumption). nra. }
  destruct Q as [Q|Q]; [left; apply exp_increasing, Q|rewrite Q; right; reflexivity].
Qed.

Lemma exp_neg_le_1 x : x <= 0 -> 0 < exp x <= 1.
Proof. intros H. split; [apply exp_pos|]. rewrite <- exp_0. destruct H as [H|H]; [left; apply exp_increasing, H|rewrite H; right; reflexivity]. Qed.

Lemma prim_radial_exists k eta a b D E l1 l2 : 0 <= eta -> 0 < a -> 0 <= b -> 0 <= D -> 0 <= E ->
  exists q, half_int (fun r => r ^ k * exp (- eta * (r * r)) * (exp (- a * ((r - D) * (r - D))) * bessK l1 (2 * a * D * r)) * (exp (- b * ((r - E) * (r - E))) * bessK l2 (2 * b * E * r))) q.
Proof.
  intros He Ha Hb HD HE.
  apply (half_dominated _ (fun r => exp (a * (D * D)) * (r ^ k * exp (- (a / 2) * r ^ 2))) (exp (a * (D * D)) * gmom k (a / 2))).
  - intros r. apply (continuous_mult (K := R_AbsRing) (fun r => r ^ k * exp (- eta * (r * r)) * (exp (- a * ((r - D) * (r - D))) * bessK l1 (2 * a * D * r))) (fun r => exp (- b * ((r - E) * (r - E))) * bessK l2 (2 * b * E * r))).
    + apply (continuous_mult (K := R_AbsRing) (fun r => r ^ k * exp (- eta * (r * r))) (fun r => exp (- a * ((r - D) * (r - D))) * bessK l1 (2 * a * D * r))).
      * apply (ex_derive_continuous (V := R_NormedModule)). auto_derive. exact I.
      * apply (continuous_mult (K := R_AbsRing) (fun r => exp (- a * ((r - D) * (r - D)))) (fun r => bessK l1 (2 * a * D * r))); [apply gauss_cont|apply bess_cont].
    + apply (continuous_mult (K := R_AbsRing) (fun r => exp (- b * ((r - E) * (r - E)))) (fun r => bessK l2 (2 * b * E * r))); [apply gauss_cont|apply bess_cont].
  - intros r Hr.
    assert (B1 : 0 <= bessK l1 (2 * a * D * r) <= 1) by (apply bessK_bounds; repeat apply Rmult_le_pos; lra).
    assert (B2 : 0 <= bessK l2 (2 * b * E * r) <= 1) by (apply bessK_bounds; repeat apply Rmult_le_pos; lra).
    assert (G0 : 0 < exp (- eta * (r * r)) <= 1) by (apply exp_neg_le_1; assert (0 <= eta * (r * r)) by (apply Rmult_le_pos; nra); lra).
    assert (G2 : 0 < exp (- b * ((r - E) * (r - E))) <= 1) by (apply exp_neg_le_1; assert (0 <= b * ((r - E) * (r - E))) by (apply Rmult_le_pos; [lra|apply Rle_0_sqr]); lra).
    pose proof (gauss_le a D r ltac:(lra)) as G1. pose proof (exp_pos (- a * ((r - D) * (r - D)))) as G1'. pose proof (pow_le r k Hr) as Hp.
    set (x0 := exp (- eta * (r * r))) in *. set (x1 := exp (- a * ((r - D) * (r - D)))) in *. set (x2 := exp (- b * ((r - E) * (r - E)))) in *. set (y1 := bessK l1 _) in *. set (y2 := bessK l2 _) in *. set (p := r ^ k) in *.
    set (g := exp (a * (D * D)) * exp (- (a / 2) * r ^ 2)) in *.
    replace (exp (a * (D * D)) * (p * exp (- (a / 2) * r ^ 2))) with (p * g) by (unfold g; ring).
    replace (p * x0 * (x1 * y1) * (x2 * y2)) with (p * (x1 * (x0 * y1 * (x2 * y2)))) by ring.
    assert (U : 0 <= x0 * y1 * (x2 * y2) <= 1).
    { assert (M : forall u w, 0 <= u <= 1 -> 0 <= w <= 1 -> 0 <= u * w <= 1) by (intros u w Hu Hw; nra). apply M; apply M; lra. }
    set (u := x0 * y1 * (x2 * y2)) in *. split; [apply Rmult_le_pos; [exact Hp|nra]|]. apply Rmult_le_compat_l; [exact Hp|]. apply Rle_trans with (x1 * 1); [apply Rmult_le_compat_l; lra|lra].
  - apply half_scal. apply gauss_moment. lra.
Qed.

Lemma pow_pot r n : 0 < r -> (0 <= n)%Z -> r ^ 2 * powerRZ r (n - 2) = r ^ Z.to_nat n.
Proof.
  intros Hr Hn. change (r ^ 2) with (powerRZ r 2). rewrite <- powerRZ_add by lra. replace (2 + (n - 2))%Z with n by lia. rewrite pow_powerRZ. rewrite Z2Nat.id by exact Hn. reflexivity.
Qed.

Lemma radial_exists NA NB bra ket pot D E l1 l2 n :
  (forall c a, In (c, a) bra -> 0 < a) -> (forall c a, In (c, a) ket -> 0 < a) -> (forall ni c a, In (ni, c, a) pot -> (0 <= ni)%Z /\ 0 <= a) -> 0 <= D -> 0 <= E ->
  exists q, radial_integral (radial_potential pot) NA NB bra ket D E l1 l2 n q.
Proof.
  intros HB HK HP HD HE. unfold radial_integral.
  assert (EX : forall (T : Type) (l : list T) (f : T -> R -> R), (forall x, In x l -> exists q, half_int (f x) q) -> exists q, half_int (fun r => lsum (fun x => f x r) l) q).
  { intros T l f. induction l as [|x l IH]; intros H; [exists 0; exact half_zero|].
    destruct (H x (or_introl eq_refl)) as (q1 & H1). destruct IH as (q2 & H2); [intros y Hy; apply H; right; exact Hy|]. exists (q1 + q2). apply (half_plus _ _ _ _ H1 H2). }
  assert (K : exists q, half_int (fun r => lsum (fun '(ni, ck, eta) => lsum (fun '(ca, aa) => lsum (fun '(cb, ab) =>
      (ck * (ca * NA aa) * (cb * NB ab)) * (r ^ (Z.to_nat ni + n) * exp (- eta * (r * r)) * (exp (- aa * ((r - D) * (r - D))) * bessK l1 (2 * aa * D * r)) * (exp (- ab * ((r - E) * (r - E))) * bessK l2 (2 * ab * E * r)))) ket) bra) pot) q).
  { pose proof (EX _ pot (fun '(ni, ck, eta) r => lsum (fun '(ca, aa) => lsum (fun '(cb, ab) =>
      (ck * (ca * NA aa) * (cb * NB ab)) * (r ^ (Z.to_nat ni + n) * exp (- eta * (r * r)) * (exp (- aa * ((r - D) * (r - D))) * bessK l1 (2 * aa * D * r)) * (exp (- ab * ((r - E) * (r - E))) * bessK l2 (2 * ab * E * r)))) ket) bra)) as K.
    destruct K as (q & Hq).
    - intros ((ni, ck), eta) Hp. destruct (HP _ _ _ Hp) as (Hn & He).
      destruct (EX _ bra (fun '(ca, aa) r => lsum (fun '(cb, ab) =>
      (ck * (ca * NA aa) * (cb * NB ab)) * (r ^ (Z.to_nat ni + n) * exp (- eta * (r * r)) * (exp (- aa * ((r - D) * (r - D))) * bessK l1 (2 * aa * D * r)) * (exp (- ab * ((r - E) * (r - E))) * bessK l2 (2 * ab * E * r)))) ket)) as (q & Hq).
      + intros (ca, aa) Ha. pose proof (HB _ _ Ha) as Ha'.
        destruct (EX _ ket (fun '(cb, ab) r =>
      (ck * (ca * NA aa) * (cb * NB ab)) * (r ^ (Z.to_nat ni + n) * exp (- eta * (r * r)) * (exp (- aa * ((r - D) * (r - D))) * bessK l1 (2 * aa * D * r)) * (exp (- ab * ((r - E) * (r - E))) * bessK l2 (2 * ab * E * r))))) as (q & Hq).
        * intros (cb, ab) Hb. pose proof (HK _ _ Hb) as Hb'.
          destruct (prim_radial_exists (Z.to_nat ni + n) eta aa ab D E l1 l2 He Ha' ltac:(lra) HD HE) as (q & Hq). eexists. apply half_scal. exact Hq.
        * exists q. eapply half_ext; [|exact Hq]. intros r _. cbv beta. apply OneElInt.lsum_ext. intros (cb, ab) _. reflexivity.
      + exists q. eapply half_ext; [|exact Hq]. intros r _. cbv beta. apply OneElInt.lsum_ext. intros (ca, aa) _. reflexivity.
    - exists q. eapply half_ext; [|exact Hq]. intros r _. cbv beta. apply OneElInt.lsum_ext. intros ((ni, ck), eta) _. reflexivity. }
  destruct K as (q & Hq). exists q. eapply half_ext; [|exact Hq]. intros r Hr. cbv beta. unfold radial_potential, radial_factor.
  set (FA := lsum (fun '(c, a) => c * NA a * exp (- a * ((r - D) * (r - D))) * bessK l1 (2 * a * D * r)) bra).
  set (FB := lsum (fun '(c, a) => c * NB a * exp (- a * ((r - E) * (r - E))) * bessK l2 (2 * a * E * r)) ket).
  transitivity ((r ^ 2 * FA * FB * r ^ n) * lsum (fun '(n0, c, a) => c * powerRZ r (n0 - 2) * exp (- a * (r * r))) pot); [|ring].
  rewrite <- OneElInt.lsum_scal. apply OneElInt.lsum_ext. intros ((ni, ck), eta) Hp. destruct (HP _ _ _ Hp) as (Hn & _).
  transitivity ((ck * r ^ (Z.to_nat ni + n) * exp (- eta * (r * r)) * FB) * FA).
  - unfold FA. rewrite <- OneElInt.lsum_scal. apply OneElInt.lsum_ext. intros (ca, aa) _.
    transitivity ((ck * r ^ (Z.to_nat ni + n) * exp (- eta * (r * r)) * (ca * NA aa * exp (- aa * ((r - D) * (r - D))) * bessK l1 (2 * aa * D * r))) * FB); [|ring].
    unfold FB. rewrite <- OneElInt.lsum_scal. apply OneElInt.lsum_ext. intros (cb, ab) _. ring.
  - rewrite pow_add, <- (pow_pot r ni Hr Hn). ring.
Qed.

(** ** The matrix element *)
Definition asum (L : nat) (W : Z -> Z -> R) (f g : Z -> R) : R :=
  zsum (- Z.of_nat L) (Z.of_nat L + 1) (fun m1 => zsum (- Z.of_nat L) (Z.of_nat L + 1) (fun m2 => f m1 * W m1 m2 * g m2)).

Definition element (L : nat) (W : Z -> Z -> R) (Q : nat -> nat -> nat -> R) (qA qB : nat * nat * nat) (VA VB kA kB : R * R * R) : R :=
  16 * PI * PI * bsum qA VA (fun a b c => bsum qB VB (fun d e f => lamsum L (a + b + c) (fun l1 => lamsum L (d + e + f) (fun l2 =>
    Q l1 l2 (a + b + c + (d + e + f))%nat * asum L W (fun m => omega l1 L m a b c kA) (fun m => omega l2 L m d e f kB))))).

Lemma asum_bil L W f g k h : asum L W (fun m => k * f m) (fun m => h * g m) = k * h * asum L W f g.
Proof. unfold asum. rewrite <- zsum_scal. apply zsum_ext. intros m1 _. rewrite <- zsum_scal. apply zsum_ext. intros m2 _. ring. Qed.

Lemma asum_lin_l L W f f' g : asum L W (fun m => f m + f' m) g = asum L W f g + asum L W f' g.
Proof. unfold asum. rewrite <- zsum_plus. apply zsum_ext. intros m1 _. rewrite <- zsum_plus. apply zsum_ext. intros m2 _. ring. Qed.

Lemma asum_lin_r L W f g g' : asum L W f (fun m => g m + g' m) = asum L W f g + asum L W f g'.
Proof. unfold asum. rewrite <- zsum_plus. apply zsum_ext. intros m1 _. rewrite <- zsum_plus. apply zsum_ext. intros m2 _. ring. Qed.

Lemma asum_ext L W f g f' g' : (forall m, (Z.abs m <= Z.of_nat L)%Z -> f m = f' m) -> (forall m, (Z.abs m <= Z.of_nat L)%Z -> g m = g' m) -> asum L W f g = asum L W f' g'.
Proof. intros Hf Hg. unfold asum. apply zsum_ext. intros m1 H1. apply zsum_ext. intros m2 H2. rewrite Hf, Hg by lia. reflexivity. Qed.

Lemma asum_scal_l L W f g k : asum L W (fun m => k * f m) g = k * asum L W f g.
Proof. unfold asum. rewrite <- zsum_scal. apply zsum_ext. intros m1 _. rewrite <- zsum_scal. apply zsum_ext. intros m2 _. ring. Qed.
Lemma asum_scal_r L W f g k : asum L W f (fun m => k * g m) = k * asum L W f g.
Proof. unfold asum. rewrite <- zsum_scal. apply zsum_ext. intros m1 _. rewrite <- zsum_scal. apply zsum_ext. intros m2 _. ring. Qed.
Lemma asum_zero_l L W g : asum L W (fun _ => 0) g = 0.
Proof. unfold asum. apply zsum_zero. intros m1 _. apply zsum_zero. intros; ring. Qed.
Lemma asum_zero_r L W f : asum L W f (fun _ => 0) = 0.
Proof. unfold asum. apply zsum_zero. intros m1 _. apply zsum_zero. intros; ring. Qed.

Section LIN.
Variable T : (Z -> R) -> R.
Hypothesis T0 : T (fun _ => 0) = 0.
Hypothesis Tp : forall f g, T (fun m => f m + g m) = T f + T g.
Hypothesis Ts : forall k f, T (fun m => k * f m) = k * T f.
Hypothesis Te : forall f g, (forall m, f m = g m) -> T f = T g.

Lemma lin_rsum n (f : nat -> Z -> R) : T (fun m => rsum n (fun i => f i m)) = rsum n (fun i => T (f i)).
Proof. induction n as [|n IH]; [exact T0|]. cbn [rsum]. rewrite Tp, IH. reflexivity. Qed.

Lemma lin_zsum lo hi (f : Z -> Z -> R) : T (fun m => zsum lo hi (fun i => f i m)) = zsum lo hi (fun i => T (f i)).
Proof.
  destruct (Z_le_dec lo hi) as [Hh|Hh].
  - replace hi with (lo + Z.of_nat (Z.to_nat (hi - lo)))%Z by lia. rewrite zsum_rsum.
    rewrite (Te _ (fun m => rsum (Z.to_nat (hi - lo)) (fun k => f (lo + Z.of_nat k)%Z m))) by (intros; apply zsum_rsum). apply lin_rsum.
  - rewrite zsum_nil by lia. rewrite (Te _ (fun _ => 0)) by (intros; apply zsum_nil; lia). exact T0.
Qed.

Lemma lin_lamsum L n (f : nat -> Z -> R) : T (fun m => lamsum L n (fun l => f l m)) = lamsum L n (fun l => T (f l)).
Proof.
  unfold lamsum. rewrite (lin_zsum _ _ (fun l m => if (Z.rem (Z.of_nat L + Z.of_nat n - l) 2 =? 0)%Z then f (Z.to_nat l) m else 0)). apply zsum_ext. intros l _. destruct (_ =? 0)%Z; [reflexivity|exact T0].
Qed.

Lemma lin_bsum q V (f : nat -> nat -> nat -> Z -> R) : T (fun m => bsum q V (fun a b c => f a b c m)) = bsum q V (fun a b c => T (f a b c)).
Proof.
  destruct q as [[n l] m]. destruct V as [[X Y] Z]. unfold bsum. rewrite lin_rsum. apply rsum_ext. intros a _. rewrite lin_rsum. apply rsum_ext. intros b _. rewrite lin_rsum. apply rsum_ext. intros c _. apply Ts.
Qed.
End LIN.

Lemma asum_projections L W NA NB bra ket qA qB VA VB kA kB r :
  asum L W (fun m => proj_value NA bra qA VA kA L m r) (fun m => proj_value NB ket qB VB kB L m r) =
  16 * PI * PI * bsum qA VA (fun a b c => bsum qB VB (fun d e f => lamsum L (a + b + c) (fun l1 => lamsum L (d + e + f) (fun l2 =>
    (radial_factor NA bra (len VA) l1 r * radial_factor NB ket (len VB) l2 r * r ^ (a + b + c + (d + e + f))) *
    asum L W (fun m => omega l1 L m a b c kA) (fun m => omega l2 L m d e f kB))))).
Proof.
  unfold proj_value. rewrite asum_bil. replace (4 * PI * (4 * PI)) with (16 * PI * PI) by ring. f_equal.
  pose proof (fun g => lin_bsum (fun f => asum L W f g) (asum_zero_l L W g) (fun f f' => asum_lin_l L W f f' g) (fun k f => asum_scal_l L W f g k)) as LB.
  rewrite LB. clear LB. destruct qA as [[n l] m]. apply bsum_ext. intros a b c Ha Hb Hc.
  pose proof (fun f => lin_bsum (fun g => asum L W f g) (asum_zero_r L W f) (fun g g' => asum_lin_r L W f g g') (fun k g => asum_scal_r L W f g k)) as LB.
  rewrite LB. clear LB. destruct qB as [[n' l'] m']. apply bsum_ext. intros d e f Hd He Hf.
  rewrite asum_scal_l, asum_scal_r.
  pose proof (fun g => lin_lamsum (fun f => asum L W f g) (asum_zero_l L W g) (fun f f' => asum_lin_l L W f f' g) (fun f f' E => asum_ext L W f g f' g (fun m _ => E m) (fun m _ => eq_refl))) as LB.
  rewrite LB. clear LB. rewrite <- !lamsum_scal. apply lamsum_ext. intros l1 _.
  pose proof (fun f => lin_lamsum (fun g => asum L W f g) (asum_zero_r L W f) (fun g g' => asum_lin_r L W f g g') (fun g g' E => asum_ext L W f g f g' (fun m _ => eq_refl) (fun m _ => E m))) as LB.
  rewrite LB. clear LB. rewrite <- !lamsum_scal. apply lamsum_ext. intros l2 _. rewrite asum_bil, !pow_add. ring.
Qed.

Lemma element_integral L W U LA LB A B C bra ket nA lA mA nB lB mB kA kB Q :
  against (minus3 C A) kA -> against (minus3 C B) kB -> (2 * (nA + lA + mA) + 2 * L <= 29)%nat -> (2 * (nB + lB + mB) + 2 * L <= 29)%nat ->
  (forall l1 l2 n, (l1 <= L + (nA + lA + mA))%nat -> (l2 <= L + (nB + lB + mB))%nat -> (n <= nA + lA + mA + (nB + lB + mB))%nat ->
     radial_integral U (norm_L LA) (norm_L LB) bra ket (len (minus3 C A)) (len (minus3 C B)) l1 l2 n (Q l1 l2 n)) ->
  projected_integral L W U C (phi LA A bra (Z.of_nat nA, Z.of_nat lA, Z.of_nat mA)) (phi LB B ket (Z.of_nat nB, Z.of_nat lB, Z.of_nat mB))
    (element L W Q (nA, lA, mA) (nB, lB, mB) (minus3 C A) (minus3 C B) kA kB).
Proof.
  intros HA HB dA dB HQ. set (VA := minus3 C A) in *. set (VB := minus3 C B) in *.
  exists (fun m => proj_value (norm_L LA) bra (nA, lA, mA) VA kA L m), (fun m => proj_value (norm_L LB) ket (nB, lB, mB) VB kB L m).
  split; [intros m Hm; apply shell_projection; assumption|]. split; [intros m Hm; apply shell_projection; assumption|].
  apply (half_ext (fun r => 16 * PI * PI * bsum (nA, lA, mA) VA (fun a b c => bsum (nB, lB, mB) VB (fun d e f => lamsum L (a + b + c) (fun l1 => lamsum L (d + e + f) (fun l2 =>
     asum L W (fun m => omega l1 L m a b c kA) (fun m => omega l2 L m d e f kB) *
     (r ^ 2 * U r * radial_factor (norm_L LA) bra (len VA) l1 r * radial_factor (norm_L LB) ket (len VB) l2 r * r ^ (a + b + c + (d + e + f))))))))).
  - intros r Hr. fold (asum L W (fun m => proj_value (norm_L LA) bra (nA, lA, mA) VA kA L m r) (fun m => proj_value (norm_L LB) ket (nB, lB, mB) VB kB L m r)).
    rewrite asum_projections. set (k := r ^ 2 * U r). transitivity (16 * PI * PI * (k * bsum (nA, lA, mA) VA (fun a b c => bsum (nB, lB, mB) VB (fun d e f => lamsum L (a + b + c) (fun l1 => lamsum L (d + e + f) (fun l2 =>
    (radial_factor (norm_L LA) bra (len VA) l1 r * radial_factor (norm_L LB) ket (len VB) l2 r * r ^ (a + b + c + (d + e + f))) *
    asum L W (fun m => omega l1 L m a b c kA) (fun m => omega l2 L m d e f kB))))))); [|ring]. f_equal.
    rewrite <- bsum_scal. apply bsum_ext. intros a b c _ _ _. rewrite <- bsum_scal. apply bsum_ext. intros d e f _ _ _. rewrite <- lamsum_scal. apply lamsum_ext. intros l1 _. rewrite <- lamsum_scal. apply lamsum_ext. intros l2 _. ring.
  - unfold element. apply half_scal. apply (half_bsum nA lA mA VA). intros a b c Ha Hb Hc. apply (half_bsum nB lB mB VB). intros d e f Hd He Hf.
    apply (half_lamsum L (a + b + c)). intros l1 H1. apply (half_lamsum L (d + e + f)). intros l2 H2.
    rewrite Rmult_comm. apply half_scal. refine (HQ l1 l2 (a + b + c + (d + e + f))%nat _ _ _); clear - Ha Hb Hc Hd He Hf H1 H2; lia.
Qed.

(** the semilocal operator is the case of the unit matrix *)
Definition unit_matrix (m1 m2 : Z) : R := if (m1 =? m2)%Z then 1 else 0.

Lemma asum_unit L f g : asum L unit_matrix f g = zsum (- Z.of_nat L) (Z.of_nat L + 1) (fun m => f m * g m).
Proof.
  unfold asum. apply zsum_ext. intros m Hm. rewrite (SphSpan.zsum_delta _ _ m) by (first [lia|intros i Hi Hn; unfold unit_matrix; rewrite (proj2 (Z.eqb_neq m i)) by auto; ring]).
  unfold unit_matrix. rewrite Z.eqb_refl. ring.
Qed.

Lemma semilocal_projected L U C f g v : projected_integral L unit_matrix U C f g v -> semilocal_integral L U C f g v.
Proof.
  intros (P & Q & HP & HQ & H). exists P, Q. split; [exact HP|]. split; [exact HQ|]. eapply half_ext; [|exact H]. intros r _. cbv beta. f_equal.
  exact (asum_unit L (fun m => P m r) (fun m => Q m r)).
Qed.
