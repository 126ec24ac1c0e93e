(** * Matrix elements of a radially local potential and the error of their evaluation *)

From Coq Require Import ZArith Reals Lra Lia List Bool.
From Coquelicot Require Import Coquelicot.
From Verif Require Import Base BinomProofs CartModel CartProofs OneElModel OneElProofs OneElInt OneElSpec GaussInt Sums SpecExp SpecSpec BesselProofs BesselThms
  SphModel SphSpec SphPoly SphProofs SphTables SphInt SphOrtho SphAngular SphHarm SphThms SphTri SphHecke SphPlane SphSpan SphAdd PiBounds NucPotSpec NucPot GaussMoment OutercoreRadial RadialTables
  Type2Spec Type2Proj Type2Radial Type2Error Type2Value Type2Acc LocalSpec LocalInt.
Import ListNotations.
Open Scope R_scope.

(** the element expressed by radial integrals [Q l n] *)
Definition pair_value (Q : nat -> nat -> R) (qA qB : nat * nat * nat) (VA VB k : R * R * R) : R :=
  bsum qA VA (fun a b c => bsum qB VB (fun d e f => lamsum 0 (a + d + (b + e) + (c + f)) (fun l =>
    Q l (a + d + (b + e) + (c + f))%nat * omega1 l (a + d) (b + e) (c + f) k))).

(** the two primitives on the sphere of radius r around C *)
Lemma pair_angular NA NB aA aB A B C nA lA mA nB lB mB k : 0 < aA + aB -> against (pvec aA aB (minus3 C A) (minus3 C B)) k -> (nA + lA + mA + (nB + lB + mB) <= 14)%nat ->
  angular_part C (fun x y z => (NA * gto A (Z.of_nat nA, Z.of_nat lA, Z.of_nat mA) aA x y z) * (NB * gto B (Z.of_nat nB, Z.of_nat lB, Z.of_nat mB) aB x y z))
    (fun r => pair_value (fun l n => r ^ n * pair_gauss NA NB aA aB A B C r * bessK l (pair_k aA aB A B C * r)) (nA, lA, mA) (nB, lB, mB) (minus3 C A) (minus3 C B) k).
Proof.
  intros Hp HA H14. unfold angular_part.
  assert (PG : forall r a b c, 0 < r -> (a + b + c <= 14)%nat -> _) by (intros r a b c Hr Hn; exact (pair_gauss_on_sphere NA NB aA aB A B C r k a b c Hp (Rlt_le _ _ Hr) HA Hn)). clear HA.
  destruct C as [[cx cy] cz]. destruct A as [[ax ay] az]. destruct B as [[bx by_] bz]. intros r Hr. specialize (fun a b c => PG r a b c Hr). cbn [minus3] in *.
  set (X := cx - ax) in *. set (Y := cy - ay) in *. set (Z := cz - az) in *. set (X' := cx - bx) in *. set (Y' := cy - by_) in *. set (Z' := cz - bz) in *.
  set (G := pair_gauss NA NB aA aB _ _ _ r) in *. set (kk := pair_k aA aB _ _ _) in *.
  set (EA := fun x y z => exp (- (aA * ((X + r * x) * (X + r * x) + (Y + r * y) * (Y + r * y) + (Z + r * z) * (Z + r * z))))).
  set (EB := fun x y z => exp (- (aB * ((X' + r * x) * (X' + r * x) + (Y' + r * y) * (Y' + r * y) + (Z' + r * z) * (Z' + r * z))))).
  eapply sphere_val; [eapply sphere_ext; [|apply (sphere_bsum nA lA mA (X, Y, Z) (fun a b c x y z => bsum (nB, lB, mB) (X', Y', Z') (fun d e f =>
     r ^ (a + d + (b + e) + (c + f)) * (NA * NB * (x ^ (a + d) * y ^ (b + e) * z ^ (c + f) * (EA x y z * EB x y z)))))
     (fun a b c => bsum (nB, lB, mB) (X', Y', Z') (fun d e f => r ^ (a + d + (b + e) + (c + f)) * (G * lamsum 0 (a + d + (b + e) + (c + f)) (fun l => bessK l (kk * r) * omega1 l (a + d) (b + e) (c + f) k)))))]|].
  - intros x y z _. cbv beta. unfold gto. rewrite !Nat2Z.id.
    replace (cx + r * x - ax) with (X + r * x) by (unfold X; ring). replace (cy + r * y - ay) with (Y + r * y) by (unfold Y; ring). replace (cz + r * z - az) with (Z + r * z) by (unfold Z; ring).
    replace (cx + r * x - bx) with (X' + r * x) by (unfold X'; ring). replace (cy + r * y - by_) with (Y' + r * y) by (unfold Y'; ring). replace (cz + r * z - bz) with (Z' + r * z) by (unfold Z'; ring).
    rewrite !bsum_product. fold (EA x y z). fold (EB x y z).
    set (SB := bsum (nB, lB, mB) (X', Y', Z') (fun a b c => r ^ (a + b + c) * (x ^ a * y ^ b * z ^ c))).
    match goal with |- ?u = ?v => transitivity ((NA * NB * EA x y z * EB x y z * SB) * bsum (nA, lA, mA) (X, Y, Z) (fun a b c => r ^ (a + b + c) * (x ^ a * y ^ b * z ^ c))) end; [|ring].
    rewrite <- bsum_scal. apply bsum_ext. intros a b c _ _ _. unfold SB.
    match goal with |- ?u = ?p * ?SBB * ?t => transitivity ((p * t) * SBB) end; [|ring].
    rewrite <- bsum_scal. apply bsum_ext. intros d e f _ _ _. rewrite !pow_add. ring.
  - intros a b c Ha Hb Hc. apply (sphere_bsum nB lB mB (X', Y', Z') (fun d e f x y z => r ^ (a + d + (b + e) + (c + f)) * (NA * NB * (x ^ (a + d) * y ^ (b + e) * z ^ (c + f) * (EA x y z * EB x y z))))
      (fun d e f => r ^ (a + d + (b + e) + (c + f)) * (G * lamsum 0 (a + d + (b + e) + (c + f)) (fun l => bessK l (kk * r) * omega1 l (a + d) (b + e) (c + f) k)))).
    intros d e f Hd He Hf. apply sphere_scal. apply PG. lia.
  - unfold pair_value. apply bsum_ext. intros a b c _ _ _. apply bsum_ext. intros d e f _ _ _. rewrite <- Rmult_assoc, <- lamsum_scal. apply lamsum_ext. intros l _. ring.
Qed.

Lemma pair_half U (F : R -> nat -> nat -> R) Q nA lA mA nB lB mB VA VB k :
  (forall l n, (l <= nA + lA + mA + (nB + lB + mB))%nat -> (n <= nA + lA + mA + (nB + lB + mB))%nat -> half_int (fun r => r ^ 2 * U r * F r l n) (Q l n)) ->
  half_int (fun r => r ^ 2 * U r * pair_value (F r) (nA, lA, mA) (nB, lB, mB) VA VB k) (pair_value Q (nA, lA, mA) (nB, lB, mB) VA VB k).
Proof.
  intros HQ.
  apply (half_ext (fun r => bsum (nA, lA, mA) VA (fun a b c => bsum (nB, lB, mB) VB (fun d e f => lamsum 0 (a + d + (b + e) + (c + f)) (fun l =>
    omega1 l (a + d) (b + e) (c + f) k * (r ^ 2 * U r * F r l (a + d + (b + e) + (c + f))%nat)))))).
  - intros r _. unfold pair_value. rewrite <- bsum_scal. apply bsum_ext. intros a b c _ _ _. rewrite <- bsum_scal. apply bsum_ext. intros d e f _ _ _. rewrite <- lamsum_scal. apply lamsum_ext. intros l _. ring.
  - unfold pair_value. apply (half_bsum nA lA mA VA). intros a b c Ha Hb Hc. apply (half_bsum nB lB mB VB). intros d e f Hd He Hf.
    apply (half_lamsum 0 (a + d + (b + e) + (c + f))). intros l Hl. rewrite Rmult_comm. apply half_scal. apply HQ; lia.
Qed.

(** ** Error *)
Lemma lamsum0_close n g h e : 0 <= e -> (forall l, (l <= n)%nat -> Rabs (g l - h l) <= e) -> Rabs (lamsum 0 n g - lamsum 0 n h) <= (INR n + 1) * e.
Proof.
  intros He H. unfold lamsum. replace (Z.max (Z.of_nat 0 - Z.of_nat n) 0) with 0%Z by lia. replace (Z.of_nat 0 + Z.of_nat n + 1)%Z with (Z.of_nat n + 1)%Z by lia.
  eapply Rle_trans; [apply (zsum_close _ _ _ _ e); [|exact He|lia]|].
  - intros l Hl. destruct (_ =? 0)%Z; [apply H; lia|rewrite Rminus_0_r, Rabs_R0; exact He].
  - rewrite Z.sub_0_r, plus_IZR, <- INR_IZR_INZ. lra.
Qed.

Lemma lamsum0_bound n g e : 0 <= e -> (forall l, (l <= n)%nat -> Rabs (g l) <= e) -> Rabs (lamsum 0 n g) <= (INR n + 1) * e.
Proof.
  intros He H. rewrite <- (Rminus_0_r (lamsum 0 n g)), <- (lamsum_zero 0 n). apply lamsum0_close; [exact He|]. intros l Hl. rewrite Rminus_0_r. apply H, Hl.
Qed.

Lemma trunc_mult_close thr q Q w e M : Rabs (q - Q) <= e -> Rabs w <= M -> 0 <= thr -> Rabs (trunc thr q * w - Q * w) <= (e + thr) * M.
Proof.
  intros H1 H2 H3. rewrite <- Rmult_minus_distr_r, Rabs_mult. apply Rmult_le_compat; try apply Rabs_pos; [|exact H2].
  unfold trunc. destruct (Rlt_dec _ _) as [Hl|Hl]; [|lra]. replace (0 - Q) with ((q - Q) + - q) by ring. eapply Rle_trans; [apply Rabs_triang|]. rewrite Rabs_Ropp. lra.
Qed.

(** what the loops compute from the table [q] *)
Definition pair_computed (q : nat -> nat -> R) (qA qB : nat * nat * nat) (VA VB k : R * R * R) : R :=
  fsum qA (fun a b c => fsum qB (fun d e f => trunc (1 / 10 ^ 13) (bfac qA VA a b c * bfac qB VB d e f) *
    lamsum 0 (a + d + (b + e) + (c + f)) (fun l => trunc (1 / 10 ^ 16) (q l (a + d + (b + e) + (c + f))%nat) * omega1 l (a + d) (b + e) (c + f) k))).

Section ERR.
Variables (q Q : nat -> nat -> R) (nA lA mA nB lB mB : nat) (VA VB k : R * R * R) (eps Qm : R).
Let LA := (nA + lA + mA)%nat.
Let LB := (nB + lB + mB)%nat.
Hypothesis H14 : (LA + LB <= 14)%nat.
Hypothesis He : 0 <= eps.
Hypothesis HQm : 0 <= Qm.
Hypothesis Hq : forall l n, (l <= n)%nat -> (n <= LA + LB)%nat -> Rabs (q l n - Q l n) <= eps /\ Rabs (Q l n) <= Qm.

Let K := INR (LA + LB) + 1.

Lemma fsum_abs_bounds : 0 <= fsum (nA, lA, mA) (fun a b c => Rabs (bfac (nA, lA, mA) VA a b c)) <= (1 + len VA) ^ LA /\ 0 <= fsum (nB, lB, mB) (fun a b c => Rabs (bfac (nB, lB, mB) VB a b c)) <= (1 + len VB) ^ LB.
Proof.
  clear. assert (G : forall n l m V, 0 <= fsum (n, l, m) (fun a b c => Rabs (bfac (n, l, m) V a b c)) <= (1 + len V) ^ (n + l + m)).
  { intros n l m V. split; [|apply fsum_bfac_le]. destruct V as [[X Y] Z]. rewrite fsum_bfac. repeat apply Rmult_le_pos; apply pow_le; [pose proof (Rabs_pos X)|pose proof (Rabs_pos Y)|pose proof (Rabs_pos Z)]; lra. }
  split; apply G.
Qed.

Lemma pair_exact_fsum : pair_value Q (nA, lA, mA) (nB, lB, mB) VA VB k = fsum (nA, lA, mA) (fun a b c => fsum (nB, lB, mB) (fun d e f => (bfac (nA, lA, mA) VA a b c * bfac (nB, lB, mB) VB d e f) *
    lamsum 0 (a + d + (b + e) + (c + f)) (fun l => Q l (a + d + (b + e) + (c + f))%nat * omega1 l (a + d) (b + e) (c + f) k))).
Proof.
  clear. unfold pair_value. rewrite bsum_fsum. apply fsum_ext. intros a b c _ _ _. rewrite bsum_fsum, <- fsum_scal. apply fsum_ext. intros d e f _ _ _. ring.
Qed.

Lemma terms a b c d e f : (a <= nA)%nat -> (b <= lA)%nat -> (c <= mA)%nat -> (d <= nB)%nat -> (e <= lB)%nat -> (f <= mB)%nat ->
  let n := (a + d + (b + e) + (c + f))%nat in
  let G := lamsum 0 n (fun l => trunc (1 / 10 ^ 16) (q l n) * omega1 l (a + d) (b + e) (c + f) k) in
  let H := lamsum 0 n (fun l => Q l n * omega1 l (a + d) (b + e) (c + f) k) in
  Rabs (G - H) <= K * ((eps + 1 / 10 ^ 16) * (54 / 10)) /\ Rabs H <= K * (Qm * (54 / 10)).
Proof.
  intros Ha Hb Hc Hd He' Hf n G H. assert (Hn : (n <= LA + LB)%nat) by (unfold n, LA, LB; lia). assert (T : 0 <= 1 / 10 ^ 16) by lra.
  assert (KN : INR n + 1 <= K) by (unfold K; apply Rplus_le_compat_r, le_INR, Hn). pose proof (pos_INR n).
  assert (E0 : 0 <= (eps + 1 / 10 ^ 16) * (54 / 10)) by (apply Rmult_le_pos; lra). assert (Q0 : 0 <= Qm * (54 / 10)) by (apply Rmult_le_pos; lra). split.
  - unfold G, H. eapply Rle_trans; [apply (lamsum0_close _ _ _ ((eps + 1 / 10 ^ 16) * (54 / 10))); [exact E0|]|apply Rmult_le_compat_r; [exact E0|exact KN]].
    intros l Hl. apply trunc_mult_close; [apply (Hq l n Hl Hn)|apply omega1_bound; unfold n in *; lia|exact T].
  - unfold H. eapply Rle_trans; [apply (lamsum0_bound _ _ (Qm * (54 / 10))); [exact Q0|]|apply Rmult_le_compat_r; [exact Q0|exact KN]].
    intros l Hl. rewrite Rabs_mult. apply Rmult_le_compat; try apply Rabs_pos; [apply (Hq l n Hl Hn)|apply omega1_bound; unfold n in *; lia].
Qed.

Lemma pair_error : Rabs (pair_computed q (nA, lA, mA) (nB, lB, mB) VA VB k - pair_value Q (nA, lA, mA) (nB, lB, mB) VA VB k) <= local_error LA LB (len VA) (len VB) eps Qm.
Proof.
  rewrite pair_exact_fsum. unfold pair_computed. set (E0 := (eps + 1 / 10 ^ 16) * (54 / 10)). set (thF := 1 / 10 ^ 13).
  assert (F0 : 0 <= thF) by (unfold thF; lra). assert (E0p : 0 <= E0) by (unfold E0; apply Rmult_le_pos; lra). assert (Q0 : 0 <= Qm * (54 / 10)) by (apply Rmult_le_pos; lra).
  assert (Kp : 0 <= K) by (unfold K; pose proof (pos_INR (LA + LB)); lra). assert (P2 : 0 <= thF * (K * (Qm * (54 / 10)))) by (apply Rmult_le_pos; [exact F0|apply Rmult_le_pos; assumption]).
  eapply Rle_trans; [apply (fsum_close _ _ _ _ _ (fun a b c => fsum (nB, lB, mB) (fun d e f => Rabs (bfac (nA, lA, mA) VA a b c) * (Rabs (bfac (nB, lB, mB) VB d e f) * (K * E0)) + thF * (K * (Qm * (54 / 10))))))|].
  - intros a b c H1 H2 H3. apply fsum_close. intros d e f H4 H5 H6. destruct (terms a b c d e f H1 H2 H3 H4 H5 H6) as (CG & CH). cbv zeta in CG, CH. fold E0 in CG.
    set (w := bfac (nA, lA, mA) VA a b c * bfac (nB, lB, mB) VB d e f). set (G := lamsum 0 _ (fun l => trunc _ _ * _)) in *. set (H := lamsum 0 _ (fun l => Q _ _ * _)) in *.
    rewrite <- Rmult_assoc, <- Rabs_mult. fold w. assert (P1 : 0 <= Rabs w * (K * E0)) by (apply Rmult_le_pos; [apply Rabs_pos|apply Rmult_le_pos; assumption]).
    unfold trunc. destruct (Rlt_dec (Rabs w) thF) as [Hl|Hl].
    + replace (0 * G - w * H) with (- (w * H)) by ring. rewrite Rabs_Ropp, Rabs_mult. assert (Rabs w * Rabs H <= thF * (K * (Qm * (54 / 10)))) by (apply Rmult_le_compat; try apply Rabs_pos; lra). lra.
    + replace (w * G - w * H) with (w * (G - H)) by ring. rewrite Rabs_mult. assert (Rabs w * Rabs (G - H) <= Rabs w * (K * E0)) by (apply Rmult_le_compat_l; [apply Rabs_pos|exact CG]). lra.
  - unfold local_error. fold K E0 thF.
    rewrite (fsum_ext _ _ _ _ (fun a b c => (fsum (nB, lB, mB) (fun d e f => Rabs (bfac (nB, lB, mB) VB d e f)) * (K * E0)) * Rabs (bfac (nA, lA, mA) VA a b c) + fsum (nB, lB, mB) (fun _ _ _ => thF * (K * (Qm * (54 / 10)))))).
    2:{ intros a b c _ _ _. rewrite fsum_plus. f_equal. rewrite fsum_scal. rewrite Rmult_comm. f_equal. rewrite (Rmult_comm (fsum _ _)), <- fsum_scal. apply fsum_ext. intros; ring. }
    rewrite fsum_plus, fsum_scal. destruct fsum_abs_bounds as (HA & HB).
    set (SA := fsum (nA, lA, mA) (fun a b c => Rabs (bfac (nA, lA, mA) VA a b c))) in *. set (SB := fsum (nB, lB, mB) (fun a b c => Rabs (bfac (nB, lB, mB) VB a b c))) in *.
    rewrite Rmult_plus_distr_l. apply Rplus_le_compat.
    + replace (SB * (K * E0) * SA) with (K * (SA * SB * E0)) by ring. apply Rmult_le_compat_l; [exact Kp|]. apply Rmult_le_compat_r; [exact E0p|]. apply Rmult_le_compat; lra.
    + rewrite fsum_const. eapply Rle_trans; [|replace (K * (2 ^ (LA + LB) * (thF * (Qm * (54 / 10))))) with (2 ^ LA * (2 ^ LB * (thF * (K * (Qm * (54 / 10)))))) by (rewrite pow_add; ring); apply Rmult_le_compat_l; [apply pow_le; lra|apply (fsum_const_le nB lB mB), P2]].
      rewrite <- fsum_const. apply fsum_const_le. rewrite fsum_const. do 3 (apply Rmult_le_pos; [apply pos_INR|]). exact P2.
Qed.

Lemma pair_size : Rabs (pair_value Q (nA, lA, mA) (nB, lB, mB) VA VB k) <= local_size LA LB (len VA) (len VB) Qm.
Proof.
  rewrite pair_exact_fsum. set (M := K * (Qm * (54 / 10))).
  assert (Q0 : 0 <= Qm * (54 / 10)) by (apply Rmult_le_pos; lra). assert (Kp : 0 <= K) by (unfold K; pose proof (pos_INR (LA + LB)); lra). assert (M0 : 0 <= M) by (apply Rmult_le_pos; assumption).
  match goal with |- Rabs (fsum _ ?g) <= _ => rewrite <- (Rminus_0_r (fsum (nA, lA, mA) g)) end.
  assert (Z0 : fsum (nA, lA, mA) (fun _ _ _ => fsum (nB, lB, mB) (fun _ _ _ => 0)) = 0) by (rewrite !fsum_const; ring). rewrite <- Z0.
  eapply Rle_trans; [apply (fsum_close _ _ _ _ _ (fun a b c => fsum (nB, lB, mB) (fun d e f => Rabs (bfac (nA, lA, mA) VA a b c) * (Rabs (bfac (nB, lB, mB) VB d e f) * M))))|].
  - intros a b c H1 H2 H3. apply fsum_close. intros d e f H4 H5 H6. destruct (terms a b c d e f H1 H2 H3 H4 H5 H6) as (_ & CH). cbv zeta in CH. rewrite Rminus_0_r, !Rabs_mult, Rmult_assoc.
    apply Rmult_le_compat_l; [apply Rabs_pos|]. apply Rmult_le_compat_l; [apply Rabs_pos|exact CH].
  - unfold local_size. fold K. destruct fsum_abs_bounds as (HA & HB).
    rewrite (fsum_ext _ _ _ _ (fun a b c => (fsum (nB, lB, mB) (fun d e f => Rabs (bfac (nB, lB, mB) VB d e f)) * M) * Rabs (bfac (nA, lA, mA) VA a b c))).
    2:{ intros a b c _ _ _. rewrite fsum_scal. rewrite Rmult_comm. f_equal. rewrite (Rmult_comm (fsum _ _)), <- fsum_scal. apply fsum_ext. intros; ring. }
    rewrite fsum_scal.
    set (SA := fsum (nA, lA, mA) (fun a b c => Rabs (bfac (nA, lA, mA) VA a b c))) in *. set (SB := fsum (nB, lB, mB) (fun a b c => Rabs (bfac (nB, lB, mB) VB a b c))) in *.
    replace (SB * M * SA) with (K * (SA * SB * (Qm * (54 / 10)))) by (unfold M; ring). apply Rmult_le_compat_l; [exact Kp|]. apply Rmult_le_compat_r; [exact Q0|]. apply Rmult_le_compat; lra.
Qed.
End ERR.
