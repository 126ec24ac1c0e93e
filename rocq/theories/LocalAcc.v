(** * Accuracy of the integrals of finite nuclei *)

From Coq Require Import ZArith Reals Lra Lia List Bool.
From Coquelicot Require Import Coquelicot.
From Verif Require Import Base Loops BinomModel BinomProofs CartModel CartProofs HeapModel OneElModel OneElProofs OneElInt OneElPairs OneElSpec ParamsModel Sums
  SphModel SphSpec SphPoly SphProofs SphTables SphInt SphOrtho SphAngular SphThms SphSpan SphAdd SpecSpec BesselProofs RadialModel RadialSpec PiBounds OutercoreModel OutercoreProofs OutercoreRadial NucModel NucProofs
  NucPotSpec NucPot GaussMoment RadialTables Type2Model Type2Spec Type2Proj Type2Radial Type2Error Type2Value Type2Main Type2Acc LocalModel LocalSpec LocalInt LocalExp LocalMain.
Import ListNotations.
Open Scope R_scope.

(** ** Linearity *)
Definition space_int (U : R -> R) (C : R * R * R) (F : R -> R -> R -> R) (v : R) : Prop :=
  exists s : R -> R, angular_part C F s /\ half_int (fun r => r ^ 2 * U r * s r) v.

Lemma angular_ext C F G s : (forall x y z, F x y z = G x y z) -> angular_part C F s -> angular_part C G s.
Proof. intros E. destruct C as [[cx cy] cz]. intros H r Hr. eapply sphere_ext; [|apply (H r Hr)]. intros x y z _. apply E. Qed.

Lemma space_int_ext U C F G v : (forall x y z, F x y z = G x y z) -> space_int U C F v -> space_int U C G v.
Proof. intros E (s & A & H). exists s. split; [apply (angular_ext C F G s E A)|exact H]. Qed.

Lemma space_int_scal U C F v k : space_int U C F v -> space_int U C (fun x y z => k * F x y z) (k * v).
Proof.
  intros (s & A & H). exists (fun r => k * s r). split.
  - destruct C as [[cx cy] cz]. intros r Hr. apply sphere_scal. apply (A r Hr).
  - apply (half_ext (fun r => k * (r ^ 2 * U r * s r))); [intros; ring|]. apply half_scal, H.
Qed.

Lemma space_int_plus U C F G v w : space_int U C F v -> space_int U C G w -> space_int U C (fun x y z => F x y z + G x y z) (v + w).
Proof.
  intros (s & A & H) (t & B & K). exists (fun r => s r + t r). split.
  - destruct C as [[cx cy] cz]. intros r Hr. eapply sphere_val; [eapply sphere_ext; [|apply (sphere_lin _ _ _ _ 1 1 (A r Hr) (B r Hr))]|]; [intros; cbv beta; ring|ring].
  - apply (half_ext (fun r => (r ^ 2 * U r * s r) + (r ^ 2 * U r * t r))); [intros; ring|]. apply half_plus; assumption.
Qed.

Lemma space_int_zero U C : space_int U C (fun _ _ _ => 0) 0.
Proof.
  exists (fun _ => 0). split.
  - destruct C as [[cx cy] cz]. intros r Hr. exact sphere_zero.
  - apply (half_ext (fun _ => 0)); [intros; ring|exact half_zero].
Qed.

(** a sum of functions, each integrated with an error *)
Lemma space_int_sum {T} U C (F : T -> R -> R -> R -> R) (x e : T -> R) l :
  (forall t, In t l -> exists v, space_int U C (F t) v /\ Rabs (x t - v) <= e t) ->
  exists w, space_int U C (fun a b c => lsum (fun t => F t a b c) l) w /\ Rabs (lsum x l - w) <= lsum e l.
Proof.
  induction l as [|t l IH]; intros H.
  - exists 0. split; [apply space_int_zero|]. cbn. rewrite Rminus_0_r, Rabs_R0. lra.
  - destruct (H t (or_introl eq_refl)) as (v & Hv & Ev). destruct IH as (w & Hw & Ew); [intros t' Ht'; apply H; right; exact Ht'|].
    exists (v + w). split; [exact (space_int_plus U C _ _ v w Hv Hw)|].
    change (Rabs (x t + lsum x l - (v + w)) <= e t + lsum e l). replace (x t + lsum x l - (v + w)) with ((x t - v) + (lsum x l - w)) by ring.
    eapply Rle_trans; [apply Rabs_triang|]. lra.
Qed.

Lemma space_int_unique U C F v w : space_int U C F v -> space_int U C F w -> v = w.
Proof.
  intros (s & A & H) (t & B & K). apply (half_int_unique (fun r => r ^ 2 * U r * s r)); [exact H|]. apply (half_ext (fun r => r ^ 2 * U r * t r)); [|exact K].
  intros r Hr. f_equal. destruct C as [[cx cy] cz]. exact (sphere_uniq _ _ _ (B r Hr) (A r Hr)).
Qed.

(** ** One pair of primitives *)
Lemma pair_against aA aB A B C : 0 < aA + aB -> pair_direction aA aB A B C -> against (pvec aA aB (minus3 C A) (minus3 C B)) (pair_k_vector aA aB (minus3 C A) (minus3 C B)).
Proof.
  intros Hp HD. destruct A as [[ax ay] az]. destruct B as [[bx by_] bz]. destruct C as [[cx cy] cz]. cbn [minus3 pvec pair_k_vector against].
  destruct HD as [HD|HD].
  - left. unfold pair_vector in HD. injection HD as -> -> ->. repeat split; field; lra.
  - right. split.
    + exists (2 * (aA + aB)). split; [lra|]. f_equal; [f_equal|]; field; lra.
    + unfold pair_k, pair_vector, separation in HD. rewrite !Rminus_0_r in HD.
      set (u := aA * (cx - ax) + aB * (cx - bx)) in *. set (v := aA * (cy - ay) + aB * (cy - by_)) in *. set (w := aA * (cz - az) + aB * (cz - bz)) in *.
      eapply Rlt_le_trans; [exact HD|]. right. unfold norm3. rewrite <- (sqrt_square 2) at 1 by lra. rewrite <- sqrt_mult_alt by lra. f_equal. ring.
Qed.

Lemma integrand_eq bessel U (LA LB : nat) aA aB A B C l n r : pair_integrand bessel U LA LB aA aB (minus3 C A) (minus3 C B) l n r =
  U r * pair_gauss (norm_L (Z.of_nat LA) aA) (norm_L (Z.of_nat LB) aB) aA aB A B C r * bessel (Z.of_nat l) (pair_k aA aB A B C * r) * r ^ n.
Proof.
  unfold pair_integrand, type1_integrand, pair_gauss. rewrite <- !nf_norm. unfold nf. rewrite Nat2Z.id.
  assert (EK : sqrt (sq3 (pair_k_vector aA aB (minus3 C A) (minus3 C B))) = pair_k aA aB A B C).
  { destruct A as [[ax ay] az]. destruct B as [[bx by_] bz]. destruct C as [[cx cy] cz]. unfold pair_k, pair_vector, separation. cbn [minus3 pair_k_vector sq3]. rewrite !Rminus_0_r.
    set (u := aA * (cx - ax) + aB * (cx - bx)) in *. set (v := aA * (cy - ay) + aB * (cy - by_)) in *. set (w := aA * (cz - az) + aB * (cz - bz)) in *.
    rewrite <- (sqrt_square 2) at 1 by lra. rewrite <- sqrt_mult_alt by lra. f_equal. ring. }
  assert (ES : forall V, sq3 (minus3 C V) = separation V C ^ 2).
  { intros V. rewrite separation_len. destruct V as [[x y] z]. destruct C as [[cx cy] cz]. cbn [minus3]. rewrite len_sq3. reflexivity. }
  rewrite EK, !ES. reflexivity.
Qed.

Lemma quadrature_ext g h n : (forall r, g r = h r) -> quadrature g n = quadrature h n.
Proof. intros E. unfold quadrature. f_equal. apply zsum_ext. intros i _. cbv zeta. rewrite E. reflexivity. Qed.

Lemma adaptive_ext cap mn g h sc tol v c : (forall r, g r = h r) -> adaptive cap mn g sc tol v c -> adaptive cap mn h sc tol v c.
Proof.
  intros E. assert (EQ : forall n, quadrature g n = quadrature h n) by (intros n; apply quadrature_ext, E).
  assert (AC : forall s, accepted g mn sc tol s <-> accepted h mn sc tol s) by (intros s; unfold accepted; rewrite !EQ; reflexivity).
  intros (s & Ev & Hs & Hc). exists s. rewrite <- EQ. split; [exact Ev|]. split; [exact Hs|]. destruct c.
  - destruct Hc as (s' & Es & Ha & Hn). exists s'. split; [exact Es|]. split; [apply AC, Ha|]. intros j Hj Hx. apply (Hn j Hj), AC, Hx.
  - destruct Hc as (Hc & Hn). split; [exact Hc|]. intros j Hj Hx. apply (Hn j Hj), AC, Hx.
Qed.

Section PRIM.
Variables (U : R -> R) (C A B : R * R * R) (LA LB : nat).
Hypothesis HU : charge_like U.
Hypothesis H14 : (LA + LB <= 14)%nat.

Let NA a := norm_L (Z.of_nat LA) a.
Let NB b := norm_L (Z.of_nat LB) b.

Lemma finite_choice (P : nat -> nat -> R -> Prop) N : (forall l n, exists q, P l n q) -> exists Q : nat -> nat -> R, forall l n, (l <= N)%nat -> (n <= N)%nat -> P l n (Q l n).
Proof.
  intros H. assert (F1 : forall (R0 : nat -> R -> Prop) K, (forall n, exists q, R0 n q) -> exists f : nat -> R, forall n, (n <= K)%nat -> R0 n (f n)).
  { intros R0 K HR. induction K as [|K IH].
    - destruct (HR 0%nat) as (q & Hq). exists (fun _ => q). intros n Hn. replace n with 0%nat by lia. exact Hq.
    - destruct IH as (f & Hf). destruct (HR (S K)) as (q & Hq). exists (fun n => if Nat.eqb n (S K) then q else f n). intros n Hn. destruct (Nat.eqb_spec n (S K)) as [-> | Hne]; [exact Hq|]. apply Hf. lia. }
  assert (F2 : forall K, exists Q : nat -> nat -> R, forall l n, (l <= K)%nat -> (n <= N)%nat -> P l n (Q l n)).
  { intros K. induction K as [|K IH].
    - destruct (F1 (P 0%nat) N (H 0%nat)) as (f & Hf). exists (fun _ => f). intros l n Hl Hn. replace l with 0%nat by lia. apply Hf, Hn.
    - destruct IH as (Q & HQ). destruct (F1 (P (S K)) N (H (S K))) as (f & Hf). exists (fun l => if Nat.eqb l (S K) then f else Q l). intros l n Hl Hn. destruct (Nat.eqb_spec l (S K)) as [-> | Hne]; [apply Hf, Hn|]. apply HQ; lia. }
  apply F2.
Qed.

(** the value for one pair, and the error of what is computed from a table [q] *)
Lemma prim_accurate aA aB nA lA mA nB lB mB bessel tol q eps Qm : 0 < aA -> 0 < aB -> pair_direction aA aB A B C -> (nA + lA + mA = LA)%nat -> (nB + lB + mB = LB)%nat ->
  0 <= eps -> 0 <= Qm -> quadrature_accuracy bessel tol U (NA aA) (NB aB) aA aB A B C (LA + LB) eps Qm ->
  (forall l n, (l <= LA + LB)%nat -> (n <= LA + LB)%nat -> exists c, adaptive 10000 2047 (pair_integrand bessel U LA LB aA aB (minus3 C A) (minus3 C B) l n) None tol (q l n) c) ->
  exists v, space_int U C (fun x y z => (NA aA * gto A (Z.of_nat nA, Z.of_nat lA, Z.of_nat mA) aA x y z) * (NB aB * gto B (Z.of_nat nB, Z.of_nat lB, Z.of_nat mB) aB x y z)) v /\
    Rabs (pair_computed q (nA, lA, mA) (nB, lB, mB) (minus3 C A) (minus3 C B) (pair_k_vector aA aB (minus3 C A) (minus3 C B)) - v) <= local_error LA LB (separation A C) (separation B C) eps Qm /\
    Rabs v <= local_size LA LB (separation A C) (separation B C) Qm.
Proof.
  intros Ha Hb HD SA SB He HQm HQ Had. assert (Hp : 0 < aA + aB) by lra. pose proof (pair_against aA aB A B C Hp HD) as HA. set (k := pair_k_vector aA aB (minus3 C A) (minus3 C B)) in *.
  destruct (finite_choice (fun l n q => pair_radial U (NA aA) (NB aB) aA aB A B C l n q) (LA + LB)) as (Q & HQr); [intros l n; apply pair_radial_exists; assumption|].
  assert (E14 : (nA + lA + mA + (nB + lB + mB) <= 14)%nat) by lia.
  assert (HQ2 : forall l n, (l <= n)%nat -> (n <= nA + lA + mA + (nB + lB + mB))%nat -> Rabs (q l n - Q l n) <= eps /\ Rabs (Q l n) <= Qm).
  { intros l n Hl Hn. destruct (Had l n ltac:(lia) ltac:(lia)) as (c & Hc). apply (HQ l n (q l n) c (Q l n)); try lia; [|apply HQr; lia].
    eapply adaptive_ext; [|exact Hc]. intros r. apply integrand_eq. }
  exists (pair_value Q (nA, lA, mA) (nB, lB, mB) (minus3 C A) (minus3 C B) k). split; [|split].
  - eexists. split; [exact (pair_angular (NA aA) (NB aB) aA aB A B C nA lA mA nB lB mB k Hp HA E14)|].
    apply (pair_half U (fun r l n => r ^ n * pair_gauss (NA aA) (NB aB) aA aB A B C r * bessK l (pair_k aA aB A B C * r)) Q). intros l n Hl Hn.
    eapply half_ext; [|apply (HQr l n); lia]. intros r Hr. cbv beta. ring.
  - rewrite !separation_len. rewrite <- SA, <- SB. apply (pair_error q Q nA lA mA nB lB mB); assumption.
  - rewrite !separation_len. rewrite <- SA, <- SB. apply (pair_size q Q nA lA mA nB lB mB) with (eps := eps); assumption.
Qed.
End PRIM.
