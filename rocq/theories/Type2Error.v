(** * Error of a truncated expansion of a matrix element *)

From Coq Require Import ZArith Reals Lra Lia List Bool.
From Coquelicot Require Import Coquelicot.
From Verif Require Import Base BinomProofs CartModel OneElModel OneElProofs OneElInt Sums SphPoly SphProofs SphThms Type2Proj Type2Radial.
Import ListNotations.
Open Scope R_scope.

Definition trunc (thr x : R) : R := if Rlt_dec (Rabs x) thr then 0 else x.

Definition fsum (q : nat * nat * nat) (g : nat -> nat -> nat -> R) : R :=
  let '(n, l, m) := q in rsum (S n) (fun a => rsum (S l) (fun b => rsum (S m) (fun c => g a b c))).

Definition bfac (q : nat * nat * nat) (V : R * R * R) (a b c : nat) : R :=
  let '(n, l, m) := q in let '(X, Y, Z) := V in (ch n a * X ^ (n - a)) * (ch l b * Y ^ (l - b)) * (ch m c * Z ^ (m - c)).

Lemma bsum_fsum q V g : bsum q V g = fsum q (fun a b c => bfac q V a b c * g a b c).
Proof. destruct q as [[n l] m]. destruct V as [[X Y] Z]. reflexivity. Qed.

Lemma rsum_close n f g e : (forall i, (i < n)%nat -> Rabs (f i - g i) <= e i) -> Rabs (rsum n f - rsum n g) <= rsum n e.
Proof.
  induction n as [|n IH]; intros H; [cbn; rewrite Rminus_0_r, Rabs_R0; lra|]. cbn [rsum].
  replace (rsum n f + f n - (rsum n g + g n)) with ((rsum n f - rsum n g) + (f n - g n)) by ring. eapply Rle_trans; [apply Rabs_triang|]. apply Rplus_le_compat; [apply IH; intros; apply H; lia|apply H; lia].
Qed.

Lemma rsum_le n f g : (forall i, (i < n)%nat -> f i <= g i) -> rsum n f <= rsum n g.
Proof. induction n as [|n IH]; intros H; [cbn; lra|]. cbn [rsum]. apply Rplus_le_compat; [apply IH; intros; apply H; lia|apply H; lia]. Qed.

Lemma rsum_const n c : rsum n (fun _ => c) = INR n * c.
Proof. induction n as [|n IH]; [cbn; ring|]. cbn [rsum]. rewrite IH, S_INR. ring. Qed.

Lemma fsum_close n l m f g e : (forall a b c, (a <= n)%nat -> (b <= l)%nat -> (c <= m)%nat -> Rabs (f a b c - g a b c) <= e a b c) ->
  Rabs (fsum (n, l, m) f - fsum (n, l, m) g) <= fsum (n, l, m) e.
Proof. intros H. unfold fsum. apply rsum_close. intros a Ha. apply rsum_close. intros b Hb. apply rsum_close. intros c Hc. apply H; lia. Qed.

Lemma fsum_le n l m f g : (forall a b c, (a <= n)%nat -> (b <= l)%nat -> (c <= m)%nat -> f a b c <= g a b c) -> fsum (n, l, m) f <= fsum (n, l, m) g.
Proof. intros H. unfold fsum. apply rsum_le. intros a Ha. apply rsum_le. intros b Hb. apply rsum_le. intros c Hc. apply H; lia. Qed.

Lemma fsum_ext n l m f g : (forall a b c, (a <= n)%nat -> (b <= l)%nat -> (c <= m)%nat -> f a b c = g a b c) -> fsum (n, l, m) f = fsum (n, l, m) g.
Proof. intros H. unfold fsum. apply rsum_ext. intros a Ha. apply rsum_ext. intros b Hb. apply rsum_ext. intros c Hc. apply H; lia. Qed.

Lemma fsum_scal q k f : fsum q (fun a b c => k * f a b c) = k * fsum q f.
Proof. destruct q as [[n l] m]. unfold fsum. rewrite <- rsum_scal. apply rsum_ext. intros a _. rewrite <- rsum_scal. apply rsum_ext. intros b _. rewrite <- rsum_scal. reflexivity. Qed.

Lemma fsum_plus q f g : fsum q (fun a b c => f a b c + g a b c) = fsum q f + fsum q g.
Proof. destruct q as [[n l] m]. unfold fsum. rewrite <- rsum_plus. apply rsum_ext. intros a _. rewrite <- rsum_plus. apply rsum_ext. intros b _. rewrite <- rsum_plus. reflexivity. Qed.

Lemma fsum_const n l m k : fsum (n, l, m) (fun _ _ _ => k) = INR (S n) * (INR (S l) * (INR (S m) * k)).
Proof. unfold fsum. rewrite <- !rsum_const. apply rsum_ext. intros a _. apply rsum_ext. intros b _. reflexivity. Qed.

Lemma ch_nonneg n k : 0 <= ch n k.
Proof. unfold ch. apply IZR_le. apply choose_nonneg. Qed.

Lemma rsum_binom n x : rsum (S n) (fun a => Rabs (ch n a * x ^ (n - a))) = (1 + Rabs x) ^ n.
Proof.
  rewrite binom_thm. apply rsum_ext. intros a _. rewrite Rabs_mult, (Rabs_right (ch n a)) by (apply Rle_ge, ch_nonneg). rewrite RPow_abs, pow1. ring.
Qed.

Lemma rsum_prod n k f : rsum n (fun a => f a * k) = rsum n f * k.
Proof. rewrite Rmult_comm, <- rsum_scal. apply rsum_ext. intros; ring. Qed.

Lemma fsum_bfac n l m X Y Z : fsum (n, l, m) (fun a b c => Rabs (bfac (n, l, m) (X, Y, Z) a b c)) = (1 + Rabs X) ^ n * (1 + Rabs Y) ^ l * (1 + Rabs Z) ^ m.
Proof.
  rewrite <- !rsum_binom. unfold fsum, bfac.
  set (fa := fun a => Rabs (ch n a * X ^ (n - a))). set (fb := fun a => Rabs (ch l a * Y ^ (l - a))). set (fc := fun a => Rabs (ch m a * Z ^ (m - a))).
  transitivity (rsum (S n) (fun a => fa a * (rsum (S l) fb * rsum (S m) fc))); [|rewrite rsum_prod; ring]. apply rsum_ext. intros a _.
  transitivity (fa a * rsum (S l) (fun b => fb b * rsum (S m) fc)); [|rewrite rsum_prod; ring]. rewrite <- rsum_scal. apply rsum_ext. intros b _.
  transitivity ((fa a * fb b) * rsum (S m) fc); [|ring]. rewrite <- rsum_scal. apply rsum_ext. intros c _. unfold fa, fb, fc. rewrite !Rabs_mult. ring.
Qed.

Lemma abs_le_len X Y Z : Rabs X <= len (X, Y, Z) /\ Rabs Y <= len (X, Y, Z) /\ Rabs Z <= len (X, Y, Z).
Proof.
  cbn [len]. unfold norm3. pose proof (Rle_0_sqr X); pose proof (Rle_0_sqr Y); pose proof (Rle_0_sqr Z). unfold Rsqr in *.
  repeat split; rewrite <- sqrt_Rsqr_abs; apply sqrt_le_1_alt; unfold Rsqr; lra.
Qed.

Lemma len_nonneg V : 0 <= len V. Proof. destruct V as [[X Y] Z]. apply norm3_nonneg. Qed.

Lemma fsum_bfac_le n l m V : fsum (n, l, m) (fun a b c => Rabs (bfac (n, l, m) V a b c)) <= (1 + len V) ^ (n + l + m).
Proof.
  destruct V as [[X Y] Z]. rewrite fsum_bfac, !pow_add. destruct (abs_le_len X Y Z) as (H1 & H2 & H3). pose proof (Rabs_pos X). pose proof (Rabs_pos Y). pose proof (Rabs_pos Z).
  apply Rmult_le_compat; try (apply pow_incr; lra); try (apply pow_le; lra); [apply Rmult_le_pos; apply pow_le; lra|]. apply Rmult_le_compat; try (apply pow_incr; lra); apply pow_le; lra.
Qed.

Lemma S_le_pow n : INR (S n) <= 2 ^ n.
Proof. induction n as [|n IH]; [cbn; lra|]. rewrite S_INR. cbn [pow]. assert (1 <= 2 ^ n) by (apply pow_R1_Rle; lra). lra. Qed.

Lemma fsum_const_le n l m k : 0 <= k -> fsum (n, l, m) (fun _ _ _ => k) <= 2 ^ (n + l + m) * k.
Proof.
  intros Hk. rewrite fsum_const, !pow_add. pose proof (S_le_pow n). pose proof (S_le_pow l). pose proof (S_le_pow m). pose proof (pos_INR (S n)). pose proof (pos_INR (S l)). pose proof (pos_INR (S m)).
  rewrite !Rmult_assoc. apply Rmult_le_compat; [assumption| |assumption|]. { apply Rmult_le_pos; [assumption|]. apply Rmult_le_pos; assumption. }
  apply Rmult_le_compat; [assumption|apply Rmult_le_pos; assumption|assumption|]. apply Rmult_le_compat_r; assumption.
Qed.

(** sums over lambda *)
Lemma zsum_close lo hi f g e : (forall i, (lo <= i < hi)%Z -> Rabs (f i - g i) <= e) -> 0 <= e -> (lo <= hi)%Z -> Rabs (zsum lo hi f - zsum lo hi g) <= IZR (hi - lo) * e.
Proof.
  intros H He Hh. replace hi with (lo + Z.of_nat (Z.to_nat (hi - lo)))%Z in * by lia. rewrite !zsum_rsum. replace (lo + Z.of_nat (Z.to_nat (hi - lo)) - lo)%Z with (Z.of_nat (Z.to_nat (hi - lo))) by lia.
  rewrite <- INR_IZR_INZ, <- rsum_const. apply rsum_close. intros k Hk. apply H. lia.
Qed.

Lemma lamsum_close L n g h e : 0 <= e ->
  (forall l : nat, (l <= L + n)%nat -> Nat.even (L + n - l) = true -> (L <= l + n)%nat -> Rabs (g l - h l) <= e) -> Rabs (lamsum L n g - lamsum L n h) <= (2 * INR n + 1) * e.
Proof.
  intros He H. unfold lamsum.
  eapply Rle_trans; [apply (zsum_close _ _ _ _ e)|].
  - intros l Hl. destruct (_ =? 0)%Z eqn:E; [|rewrite Rminus_0_r, Rabs_R0; exact He].
    apply H; [lia| |lia]. rewrite <- rem_even by lia. rewrite <- E. f_equal. f_equal. lia.
  - exact He.
  - lia.
  - apply Rmult_le_compat_r; [exact He|]. rewrite INR_IZR_INZ. replace (2 * IZR (Z.of_nat n) + 1) with (IZR (2 * Z.of_nat n + 1)) by (rewrite plus_IZR, mult_IZR; ring). apply IZR_le. lia.
Qed.

Lemma lamsum_bound L n g e : 0 <= e ->
  (forall l : nat, (l <= L + n)%nat -> Nat.even (L + n - l) = true -> (L <= l + n)%nat -> Rabs (g l) <= e) -> Rabs (lamsum L n g) <= (2 * INR n + 1) * e.
Proof.
  intros He H. rewrite <- (Rminus_0_r (lamsum L n g)), <- (lamsum_zero L n). apply lamsum_close; [exact He|]. intros l H1 H2 H3. rewrite Rminus_0_r. apply H; assumption.
Qed.

(** what the loops compute, from a table [q] and angular sums [ang] *)
Definition computed (thF thQ : R) (L : nat) (q : nat -> nat -> nat -> R) (ang : nat -> nat -> nat -> nat -> nat -> nat -> nat -> nat -> R)
  (qA qB : nat * nat * nat) (VA VB : R * R * R) : R :=
  fsum qA (fun a b c => fsum qB (fun d e f => trunc thF (bfac qA VA a b c * bfac qB VB d e f) *
    lamsum L (a + b + c) (fun l1 => lamsum L (d + e + f) (fun l2 => trunc thQ (q l1 l2 (a + b + c + (d + e + f))%nat) * ang l1 a b c l2 d e f)))).

Section ERROR.
Variables (thF thQ : R) (L : nat) (q Q : nat -> nat -> nat -> R) (ang ang' : nat -> nat -> nat -> nat -> nat -> nat -> nat -> nat -> R).
Variables (nA lA mA nB lB mB : nat) (VA VB : R * R * R) (eps Qm M del : R).
Let LA := (nA + lA + mA)%nat.
Let LB := (nB + lB + mB)%nat.
Hypothesis HF : 0 <= thF.
Hypothesis HT : 0 <= thQ.
Hypothesis He : 0 <= eps.
Hypothesis HM : 0 <= M.
Hypothesis Hd : 0 <= del.
Hypothesis HQm : 0 <= Qm.
(** the table *)
Hypothesis Hq : forall l1 l2 n1 n2, (n1 <= LA)%nat -> (n2 <= LB)%nat -> (l1 <= L + n1)%nat -> (l2 <= L + n2)%nat -> (L <= l1 + n1)%nat -> (L <= l2 + n2)%nat ->
  Nat.even (L + n1 - l1) = true -> Nat.even (L + n2 - l2) = true -> Rabs (q l1 l2 (n1 + n2) - Q l1 l2 (n1 + n2)%nat) <= eps /\ Rabs (Q l1 l2 (n1 + n2)%nat) <= Qm.
(** the angular sums *)
Hypothesis Ha : forall l1 a b c l2 d e f, (a <= nA)%nat -> (b <= lA)%nat -> (c <= mA)%nat -> (d <= nB)%nat -> (e <= lB)%nat -> (f <= mB)%nat -> (l1 <= L + (a + b + c))%nat -> (l2 <= L + (d + e + f))%nat ->
  Rabs (ang l1 a b c l2 d e f - ang' l1 a b c l2 d e f) <= del /\ Rabs (ang' l1 a b c l2 d e f) <= M.

Definition error_size : R :=
  (2 * INR LA + 1) * (2 * INR LB + 1) * ((1 + len VA) ^ LA * (1 + len VB) ^ LB * ((eps + thQ) * (M + del) + Qm * del) + 2 ^ (LA + LB) * (thF * (Qm * M))).

Lemma term_close l1 l2 n1 n2 x y : Rabs (q l1 l2 (n1 + n2) - Q l1 l2 (n1 + n2)%nat) <= eps /\ Rabs (Q l1 l2 (n1 + n2)%nat) <= Qm -> Rabs (x - y) <= del /\ Rabs y <= M ->
  Rabs (trunc thQ (q l1 l2 (n1 + n2)%nat) * x - Q l1 l2 (n1 + n2)%nat * y) <= (eps + thQ) * (M + del) + Qm * del.
Proof.
  intros (H1 & H2) (H3 & H4). set (p := q l1 l2 (n1 + n2)%nat) in *. set (P := Q l1 l2 (n1 + n2)%nat) in *.
  replace (trunc thQ p * x - P * y) with ((trunc thQ p - P) * x + P * (x - y)) by ring. eapply Rle_trans; [apply Rabs_triang|]. rewrite !Rabs_mult.
  assert (T : Rabs (trunc thQ p - P) <= eps + thQ).
  { unfold trunc. destruct (Rlt_dec (Rabs p) thQ) as [Hl|Hl]; [|lra]. replace (0 - P) with ((p - P) + (- p)) by ring. eapply Rle_trans; [apply Rabs_triang|]. rewrite Rabs_Ropp. lra. }
  assert (X : Rabs x <= M + del) by (replace x with (y + (x - y)) by ring; eapply Rle_trans; [apply Rabs_triang|lra]).
  apply Rplus_le_compat; apply Rmult_le_compat; try apply Rabs_pos; assumption.
Qed.

Lemma computed_error : Rabs (computed thF thQ L q ang (nA, lA, mA) (nB, lB, mB) VA VB -
    bsum (nA, lA, mA) VA (fun a b c => bsum (nB, lB, mB) VB (fun d e f => lamsum L (a + b + c) (fun l1 => lamsum L (d + e + f) (fun l2 =>
      Q l1 l2 (a + b + c + (d + e + f))%nat * ang' l1 a b c l2 d e f))))) <= error_size.
Proof.
  rewrite bsum_fsum.
  rewrite (fsum_ext _ _ _ _ (fun a b c => fsum (nB, lB, mB) (fun d e f => bfac (nA, lA, mA) VA a b c * bfac (nB, lB, mB) VB d e f * lamsum L (a + b + c) (fun l1 => lamsum L (d + e + f) (fun l2 =>
      Q l1 l2 (a + b + c + (d + e + f))%nat * ang' l1 a b c l2 d e f))))) by (intros a b c _ _ _; rewrite bsum_fsum, <- fsum_scal; apply fsum_ext; intros; ring).
  set (E0 := (eps + thQ) * (M + del) + Qm * del). set (K := (2 * INR LA + 1) * (2 * INR LB + 1)).
  assert (E0p : 0 <= E0) by (unfold E0; apply Rplus_le_le_0_compat; apply Rmult_le_pos; lra). pose proof (pos_INR LA). pose proof (pos_INR LB). assert (QMp : 0 <= Qm * M) by (apply Rmult_le_pos; lra).
  assert (Kp : 0 <= K) by (unfold K; apply Rmult_le_pos; lra).
  unfold computed.
  eapply Rle_trans; [apply (fsum_close _ _ _ _ _ (fun a b c => fsum (nB, lB, mB) (fun d e f => Rabs (bfac (nA, lA, mA) VA a b c) * (Rabs (bfac (nB, lB, mB) VB d e f) * (K * E0)) + thF * (K * (Qm * M)))))|].
  - intros a b c H1 H2 H3. apply fsum_close. intros d e f H4 H5 H6.
    set (w := bfac (nA, lA, mA) VA a b c * bfac (nB, lB, mB) VB d e f).
    set (G := lamsum L (a + b + c) (fun l1 => lamsum L (d + e + f) (fun l2 => trunc thQ (q l1 l2 (a + b + c + (d + e + f))%nat) * ang l1 a b c l2 d e f))).
    set (H' := lamsum L (a + b + c) (fun l1 => lamsum L (d + e + f) (fun l2 => Q l1 l2 (a + b + c + (d + e + f))%nat * ang' l1 a b c l2 d e f))).
    assert (C1 : 2 * INR (a + b + c) + 1 <= 2 * INR LA + 1) by (assert (INR (a + b + c) <= INR LA) by (apply le_INR; unfold LA; lia); lra).
    assert (C2 : 2 * INR (d + e + f) + 1 <= 2 * INR LB + 1) by (assert (INR (d + e + f) <= INR LB) by (apply le_INR; unfold LB; lia); lra).
    pose proof (pos_INR (a + b + c)). pose proof (pos_INR (d + e + f)).
    assert (CG : Rabs (G - H') <= K * E0).
    { unfold G, H'. eapply Rle_trans; [apply (lamsum_close _ _ _ _ ((2 * INR (d + e + f) + 1) * E0)); [apply Rmult_le_pos; lra|]|].
      - intros l1 A1 A2 A3. apply lamsum_close; [exact E0p|]. intros l2 B1 B2 B3. apply term_close; [apply Hq; try assumption; unfold LA, LB; lia|apply Ha; assumption].
      - unfold K. rewrite <- Rmult_assoc. apply Rmult_le_compat_r; [exact E0p|]. apply Rmult_le_compat; lra. }
    assert (CH : Rabs H' <= K * (Qm * M)).
    { unfold H'. eapply Rle_trans; [apply (lamsum_bound _ _ _ ((2 * INR (d + e + f) + 1) * (Qm * M))); [apply Rmult_le_pos; lra|]|].
      - intros l1 A1 A2 A3. apply lamsum_bound; [exact QMp|]. intros l2 B1 B2 B3. rewrite Rabs_mult. apply Rmult_le_compat; try apply Rabs_pos; [apply Hq; try assumption; unfold LA, LB; lia|apply Ha; assumption].
      - unfold K. rewrite <- Rmult_assoc. apply Rmult_le_compat_r; [exact QMp|]. apply Rmult_le_compat; lra. }
    rewrite <- Rmult_assoc, <- Rabs_mult. fold w. assert (P1 : 0 <= Rabs w * (K * E0)) by (apply Rmult_le_pos; [apply Rabs_pos|apply Rmult_le_pos; assumption]). assert (P2 : 0 <= thF * (K * (Qm * M))) by (apply Rmult_le_pos; [exact HF|apply Rmult_le_pos; assumption]).
    unfold trunc. destruct (Rlt_dec (Rabs w) thF) as [Hl|Hl].
    + replace (0 * G - w * H') with (- (w * H')) by ring. rewrite Rabs_Ropp, Rabs_mult. assert (Rabs w * Rabs H' <= thF * (K * (Qm * M))) by (apply Rmult_le_compat; try apply Rabs_pos; lra). lra.
    + replace (w * G - w * H') with (w * (G - H')) by ring. rewrite Rabs_mult. assert (Rabs w * Rabs (G - H') <= Rabs w * (K * E0)) by (apply Rmult_le_compat_l; [apply Rabs_pos|exact CG]). lra.
  - unfold error_size. fold K E0.
    rewrite (fsum_ext _ _ _ _ (fun a b c => (fsum (nB, lB, mB) (fun d e f => Rabs (bfac (nB, lB, mB) VB d e f)) * (K * E0)) * Rabs (bfac (nA, lA, mA) VA a b c) + fsum (nB, lB, mB) (fun _ _ _ => thF * (K * (Qm * M))))).
    2:{ intros a b c _ _ _. rewrite fsum_plus. f_equal. rewrite fsum_scal. rewrite Rmult_comm. f_equal. rewrite (Rmult_comm (fsum _ _)), <- fsum_scal. apply fsum_ext. intros; ring. }
    rewrite fsum_plus, fsum_scal.
    set (SA := fsum (nA, lA, mA) (fun a b c => Rabs (bfac (nA, lA, mA) VA a b c))). set (SB := fsum (nB, lB, mB) (fun a b c => Rabs (bfac (nB, lB, mB) VB a b c))).
    assert (HA : 0 <= SA <= (1 + len VA) ^ LA) by (split; [unfold SA; destruct VA as [[X Y] Z]; rewrite fsum_bfac; repeat apply Rmult_le_pos; apply pow_le; [pose proof (Rabs_pos X)|pose proof (Rabs_pos Y)|pose proof (Rabs_pos Z)]; lra|apply fsum_bfac_le]).
    assert (HB : 0 <= SB <= (1 + len VB) ^ LB) by (split; [unfold SB; destruct VB as [[X Y] Z]; rewrite fsum_bfac; repeat apply Rmult_le_pos; apply pow_le; [pose proof (Rabs_pos X)|pose proof (Rabs_pos Y)|pose proof (Rabs_pos Z)]; lra|apply fsum_bfac_le]).
    assert (P2 : 0 <= thF * (K * (Qm * M))) by (apply Rmult_le_pos; [exact HF|apply Rmult_le_pos; assumption]).
    rewrite Rmult_plus_distr_l. apply Rplus_le_compat.
    + replace (SB * (K * E0) * SA) with (K * (SA * SB * E0)) by ring. apply Rmult_le_compat_l; [exact Kp|]. apply Rmult_le_compat_r; [exact E0p|]. apply Rmult_le_compat; lra.
    + rewrite fsum_const. eapply Rle_trans; [|replace (K * (2 ^ (LA + LB) * (thF * (Qm * M)))) with (2 ^ LA * (2 ^ LB * (thF * (K * (Qm * M))))) by (rewrite pow_add; ring); apply Rmult_le_compat_l; [apply pow_le; lra|apply (fsum_const_le nB lB mB), P2]].
      rewrite <- fsum_const. apply fsum_const_le. rewrite fsum_const. do 3 (apply Rmult_le_pos; [apply pos_INR|]). exact P2.
Qed.
End ERROR.
