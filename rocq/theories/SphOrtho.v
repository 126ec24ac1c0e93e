(** * The real spherical harmonics are orthonormal on the unit sphere *)

From Coq Require Import ZArith Reals Lra Lia List Bool Psatz.
From Coquelicot Require Import Coquelicot.
From Verif Require Import Base OneElProofs GaussInt SphSpec SphPoly SphInt.
Import ListNotations.
Open Scope R_scope.

(** ** Polynomial functions *)
(** degree < n *)
Fixpoint pdeg (n : nat) (f : R -> R) : Prop :=
  match n with
  | O => forall t, f t = 0
  | S n' => exists c g, pdeg n' g /\ forall t, f t = c + t * g t
  end.

Lemma pdeg_ext n : forall f g, (forall t, f t = g t) -> pdeg n f -> pdeg n g.
Proof.
  destruct n as [|n]; intros f g E H; cbn [pdeg] in *.
  - intros t. rewrite <- E. apply H.
  - destruct H as (c & h & Hh & Eq). exists c, h. split; [exact Hh|]. intros t. rewrite <- E. apply Eq.
Qed.
Lemma pdeg_plus n : forall f g, pdeg n f -> pdeg n g -> pdeg n (fun t => f t + g t).
Proof.
  induction n as [|n IH]; intros f g; cbn [pdeg].
  - intros Hf Hg t. rewrite Hf, Hg. ring.
  - intros (c & f1 & F1 & Ef) (d & g1 & G1 & Eg). exists (c + d), (fun t => f1 t + g1 t). split; [apply IH; assumption|]. intros t. rewrite Ef, Eg. ring.
Qed.
Lemma pdeg_scal n a : forall f, pdeg n f -> pdeg n (fun t => a * f t).
Proof.
  induction n as [|n IH]; intros f; cbn [pdeg].
  - intros Hf t. rewrite Hf. ring.
  - intros (c & f1 & F1 & Ef). exists (a * c), (fun t => a * f1 t). split; [apply IH; assumption|]. intros t. rewrite Ef. ring.
Qed.
Lemma pdeg_S n : forall f, pdeg n f -> pdeg (S n) f.
Proof.
  induction n as [|n IH]; intros f H.
  - exists 0, (fun _ => 0). split; [intros t; reflexivity|]. intros t. rewrite (H t). ring.
  - destruct H as (c & g & G & E). exists c, g. split; [apply IH; exact G|exact E].
Qed.
Lemma pdeg_le n m f : (n <= m)%nat -> pdeg n f -> pdeg m f.
Proof. intros H P. induction H as [|m H IH]; [exact P|]. apply pdeg_S. exact IH. Qed.
Lemma pdeg_t n f : pdeg n f -> pdeg (S n) (fun t => t * f t).
Proof. intros H. exists 0, f. split; [exact H|]. intros t. ring. Qed.
Lemma pdeg_const c : pdeg 1 (fun _ => c).
Proof. exists c, (fun _ => 0). split; [intros t; reflexivity|]. intros t. ring. Qed.
Lemma pdeg_mono n : pdeg (S n) (fun t => t ^ n).
Proof. induction n as [|n IH]; [exact (pdeg_const 1)|]. exact (pdeg_t _ _ IH). Qed.
Lemma pdeg_mul n : forall m f g, pdeg n f -> pdeg m g -> pdeg (n + m) (fun t => f t * g t).
Proof.
  induction n as [|n IH]; intros m f g Hf Hg.
  - apply (pdeg_le 0); [lia|]. intros t. rewrite (Hf t). ring.
  - destruct Hf as (c & h & Hh & E). apply (pdeg_ext _ (fun t => c * g t + t * (h t * g t))); [intros t; rewrite E; ring|].
    apply pdeg_plus; [apply (pdeg_le m); [lia|]; apply pdeg_scal; exact Hg|]. apply (pdeg_t (n + m)). apply IH; assumption.
Qed.

(** the derivative *)
Lemma pdeg_derive n : forall f, pdeg n f -> exists f', pdeg (pred n) f' /\ forall t, is_derive f t (f' t).
Proof.
  induction n as [|n IH]; intros f H.
  - exists (fun _ => 0). split; [intros t; reflexivity|]. intros t. apply (is_derive_ext (fun _ => 0)); [intros u; symmetry; apply H|]. apply (is_derive_const (K := R_AbsRing) (V := R_NormedModule)).
  - destruct H as (c & g & G & E). destruct (IH g G) as (g' & G' & D). exists (fun t => g t + t * g' t). split.
    + cbn [pred]. destruct n as [|n].
      * intros t. cbn [pdeg pred] in *. rewrite G, G'. ring.
      * apply pdeg_plus; [exact G|]. apply pdeg_t. exact G'.
    + intros t. apply (is_derive_ext (fun u => c + u * g u)); [intros u; symmetry; apply E|].
      pose proof (D t) as Dt. eapply is_derive_eq.
      * auto_derive; [exists (g' t); exact Dt|reflexivity].
      * match goal with |- context [Derive ?h ?x] => rewrite (is_derive_unique h x (g' t) Dt) end. ring.
Qed.

Definition poly (f : R -> R) : Prop := exists n, pdeg n f.

Lemma poly_ext f g : (forall t, f t = g t) -> poly f -> poly g.
Proof. intros E (n & H). exists n. apply (pdeg_ext n f); assumption. Qed.
Lemma poly_plus f g : poly f -> poly g -> poly (fun t => f t + g t).
Proof. intros (n & Hf) (m & Hg). exists (n + m)%nat. apply pdeg_plus; [apply (pdeg_le n); [lia|exact Hf]|apply (pdeg_le m); [lia|exact Hg]]. Qed.
Lemma poly_mul f g : poly f -> poly g -> poly (fun t => f t * g t).
Proof. intros (n & Hf) (m & Hg). exists (n + m)%nat. apply pdeg_mul; assumption. Qed.
Lemma poly_const c : poly (fun _ => c).
Proof. exists 1%nat. apply pdeg_const. Qed.
Lemma poly_id : poly (fun t => t).
Proof. exists 2%nat. apply (pdeg_ext _ (fun t => t ^ 1)); [intros t; ring|apply pdeg_mono]. Qed.
Lemma poly_pow f n : poly f -> poly (fun t => f t ^ n).
Proof. intros H. induction n as [|n IH]; [exact (poly_const 1)|]. exact (poly_mul _ _ H IH). Qed.

Lemma poly_derive f : poly f -> (forall t, is_derive f t (Derive f t)) /\ poly (Derive f).
Proof.
  intros (n & H). destruct (pdeg_derive n f H) as (f' & P & D). assert (E : forall t, Derive f t = f' t) by (intros t; apply is_derive_unique, D).
  split; [intros t; rewrite E; apply D|]. exists (pred n). apply (pdeg_ext _ f'); [intros t; symmetry; apply E|exact P].
Qed.
Lemma poly_cont f t : poly f -> continuous f t.
Proof. intros H. apply (ex_derive_continuous (V := R_NormedModule)). exists (Derive f t). apply poly_derive, H. Qed.
Lemma poly_derive_n f n : poly f -> poly (Derive_n f n).
Proof. intros H. induction n as [|n IH]; [exact H|]. apply (poly_derive _ IH). Qed.
Lemma poly_step f n t : poly f -> is_derive (Derive_n f n) t (Derive_n f (S n) t).
Proof. intros H. apply (poly_derive (Derive_n f n)). apply poly_derive_n, H. Qed.

(** ** Leading coefficients *)
Definition lead (n : nat) (c : R) (f : R -> R) : Prop := exists g, pdeg n g /\ forall t, f t = c * t ^ n + g t.

Lemma lead_poly n c f : lead n c f -> poly f.
Proof.
  intros (g & G & E). exists (S n). apply (pdeg_ext _ (fun t => c * t ^ n + g t)); [intros t; symmetry; apply E|].
  apply pdeg_plus; [apply pdeg_scal, pdeg_mono|apply pdeg_S, G].
Qed.
Lemma lead_quad n c f : lead n c f -> lead (S (S n)) c (fun t => (t ^ 2 - 1) * f t).
Proof.
  intros (g & G & E). exists (fun t => (t * (t * g t) + (-1) * g t) + (- c) * t ^ n). split.
  - apply pdeg_plus; [apply pdeg_plus|].
    + apply pdeg_t, pdeg_t, G.
    + apply (pdeg_le n); [lia|]. apply pdeg_scal, G.
    + apply (pdeg_le (S n)); [lia|]. apply pdeg_scal, pdeg_mono.
  - intros t. rewrite E. cbn [pow]. ring.
Qed.
Lemma lead_quad_n k n c f : lead n c f -> lead (2 * k + n) c (fun t => (t ^ 2 - 1) ^ k * f t).
Proof.
  intros H. induction k as [|k IH].
  - destruct H as (g & G & E). exists g. split; [exact G|]. intros t. cbn [pow]. rewrite Rmult_1_l. apply E.
  - apply lead_quad in IH. replace (2 * S k + n)%nat with (S (S (2 * k + n))) by lia. destruct IH as (g & G & E). exists g. split; [exact G|]. intros t. rewrite <- E. cbn [pow]. ring.
Qed.
Lemma lead_w l : lead (2 * l) 1 (fun t => (t ^ 2 - 1) ^ l).
Proof.
  replace (2 * l)%nat with (2 * l + 0)%nat by lia. assert (H : lead 0 1 (fun _ => 1)) by (exists (fun _ => 0); split; [intros t; reflexivity|intros t; cbn; ring]).
  destruct (lead_quad_n l 0 1 _ H) as (g & G & E). exists g. split; [exact G|]. intros t. rewrite <- E. ring.
Qed.
Lemma lead_derive n c f : lead (S n) c f -> lead n (INR (S n) * c) (Derive f).
Proof.
  intros (g & G & E). destruct (pdeg_derive _ _ G) as (g' & G' & D). exists g'. split; [exact G'|]. intros t. apply is_derive_unique.
  apply (is_derive_ext (fun u => c * u ^ S n + g u)); [intros u; symmetry; apply E|]. pose proof (D t) as Dt. eapply is_derive_eq.
  - auto_derive; [exists (g' t); exact Dt|reflexivity].
  - match goal with |- context [Derive ?h ?x] => rewrite (is_derive_unique h x (g' t) Dt) end. change (match n with O => 1 | S _ => INR n + 1 end) with (INR (S n)). ring.
Qed.
Lemma lead_derive_n k : forall n c f, lead (k + n) c f -> lead n (INR (fact (k + n)) / INR (fact n) * c) (Derive_n f k).
Proof.
  induction k as [|k IH]; intros n c f H.
  - cbn [Derive_n Nat.add]. replace (INR (fact n) / INR (fact n) * c) with c by (field; apply INR_fact_neq_0). exact H.
  - assert (H' : lead (k + S n) c f) by (replace (k + S n)%nat with (S k + n)%nat by lia; exact H). apply IH in H'. apply lead_derive in H'.
    change (Derive_n f (S k)) with (Derive (Derive_n f k)). replace (S k + n)%nat with (k + S n)%nat by lia.
    replace (INR (fact (k + S n)) / INR (fact n) * c) with (INR (S n) * (INR (fact (k + S n)) / INR (fact (S n)) * c)); [exact H'|].
    change (fact (S n)) with (S n * fact n)%nat. rewrite mult_INR. field. split; [apply INR_fact_neq_0|apply not_0_INR; lia].
Qed.
Lemma lead_const n c f : lead n c f -> forall t, Derive_n f n t = INR (fact n) * c.
Proof.
  intros H t. assert (H' : lead (n + 0) c f) by (rewrite Nat.add_0_r; exact H). apply lead_derive_n in H'. destruct H' as (g & G & E). rewrite E, (G t), Nat.add_0_r. cbn. field.
Qed.
Lemma lead_beyond n c f k : lead n c f -> (n < k)%nat -> forall t, Derive_n f k t = 0.
Proof.
  intros H Hk. induction Hk as [|k Hk IH]; intros t.
  - change (Derive (Derive_n f n) t = 0). rewrite (Derive_ext _ (fun _ => INR (fact n) * c)) by (intros; apply lead_const; exact H). apply Derive_const.
  - change (Derive (Derive_n f k) t = 0). rewrite (Derive_ext _ (fun _ => 0)) by exact IH. apply Derive_const.
Qed.

(** ** Zeros at the two ends *)
Definition van (k : nat) (f : R -> R) : Prop := exists g, poly g /\ forall t, f t = (t ^ 2 - 1) ^ k * g t.

Lemma van_poly k f : van k f -> poly f.
Proof.
  intros (g & G & E). apply (poly_ext (fun t => (t ^ 2 - 1) ^ k * g t)); [intros t; symmetry; apply E|]. apply poly_mul; [|exact G].
  apply poly_pow. apply (poly_ext (fun t => t * t + -1)); [intros t; ring|]. apply poly_plus; [apply poly_mul; apply poly_id|apply poly_const].
Qed.
Lemma van_derive k f : van (S k) f -> van k (Derive f).
Proof.
  intros (g & G & E). destruct (poly_derive g G) as (D & P). exists (fun t => 2 * INR (S k) * t * g t + (t * t + -1) * Derive g t). split.
  - apply poly_plus.
    + apply poly_mul; [|exact G]. apply poly_mul; [apply poly_const|apply poly_id].
    + apply poly_mul; [|exact P]. apply poly_plus; [apply poly_mul; apply poly_id|apply poly_const].
  - intros t. apply is_derive_unique. apply (is_derive_ext (fun u => (u ^ 2 - 1) ^ S k * g u)); [intros u; symmetry; apply E|]. pose proof (D t) as Dt. eapply is_derive_eq.
    + auto_derive; [exists (Derive g t); exact Dt|reflexivity].
    + change (match k with O => 1 | S _ => INR k + 1 end) with (INR (S k)). change (fun x : R => g x) with g. replace (t * (t * 1) + - (1)) with (t ^ 2 - 1) by ring. ring.
Qed.
Lemma van_derive_n a : forall k f, van (k + a) f -> van k (Derive_n f a).
Proof.
  induction a as [|a IH]; intros k f H; [rewrite Nat.add_0_r in H; exact H|].
  change (Derive_n f (S a)) with (Derive (Derive_n f a)). apply van_derive. apply IH. replace (S k + a)%nat with (k + S a)%nat by lia. exact H.
Qed.
Lemma van_zero k f : van (S k) f -> f 1 = 0 /\ f (-1) = 0.
Proof. intros (g & _ & E). rewrite !E. cbn [pow]. split; ring. Qed.
Lemma van_zero_n k f a : van k f -> (a < k)%nat -> Derive_n f a 1 = 0 /\ Derive_n f a (-1) = 0.
Proof. intros H Ha. apply (van_zero (k - S a)). apply van_derive_n. replace (S (k - S a) + a)%nat with k by lia. exact H. Qed.

(** ** Integration by parts *)
Lemma parts_step (u v : R -> R) (J : R) : poly u -> poly v -> u 1 * v 1 = 0 -> u (-1) * v (-1) = 0 ->
  is_RInt (fun t => Derive u t * v t) (-1) 1 J -> is_RInt (fun t => u t * Derive v t) (-1) 1 (- J).
Proof.
  intros Pu Pv Z1 Z2 H. destruct (poly_derive u Pu) as (Du & Pu'). destruct (poly_derive v Pv) as (Dv & Pv').
  assert (A : is_RInt (fun t => Derive u t * v t + u t * Derive v t) (-1) 1 (u 1 * v 1 - u (-1) * v (-1))).
  { apply (RInt_antider (fun t => u t * v t)).
    - intros t. pose proof (Du t) as D1. pose proof (Dv t) as D2. eapply is_derive_eq.
      + auto_derive; [split; [exists (Derive u t); exact D1|split; [exists (Derive v t); exact D2|exact I]]|reflexivity].
      + change (fun x : R => u x) with u. change (fun x : R => v x) with v. ring.
    - intros t. apply poly_cont. apply poly_plus; apply poly_mul; assumption. }
  rewrite Z1, Z2 in A. pose proof (RInt_lin _ _ _ _ _ _ 1 (-1) A H) as B. eapply RInt_val; [|instantiate (1 := 1 * (0 - 0) + -1 * J); ring].
  apply (RInt_fun (fun t => 1 * (Derive u t * v t + u t * Derive v t) + -1 * (Derive u t * v t))); [intros t; ring|exact B].
Qed.

Lemma parts_n N : forall (u w : R -> R) (J : R), poly u -> poly w ->
  (forall a, (a < N)%nat -> Derive_n u a 1 * Derive_n w (N - 1 - a) 1 = 0 /\ Derive_n u a (-1) * Derive_n w (N - 1 - a) (-1) = 0) ->
  is_RInt (fun t => Derive_n u N t * w t) (-1) 1 J -> is_RInt (fun t => u t * Derive_n w N t) (-1) 1 ((-1) ^ N * J).
Proof.
  intros u w J Pu Pw Z H.
  assert (K : forall k, (k <= N)%nat -> is_RInt (fun t => Derive_n u (N - k) t * Derive_n w k t) (-1) 1 ((-1) ^ k * J)).
  { induction k as [|k IH]; intros Hk.
    - rewrite Nat.sub_0_r. eapply RInt_val; [exact H|cbn; ring].
    - eapply RInt_val; [apply (parts_step (Derive_n u (N - S k)) (Derive_n w k) ((-1) ^ k * J))|cbn [pow]; ring].
      + apply poly_derive_n, Pu.
      + apply poly_derive_n, Pw.
      + destruct (Z (N - S k)%nat ltac:(lia)) as (Z1 & _). replace (N - 1 - (N - S k))%nat with k in Z1 by lia. exact Z1.
      + destruct (Z (N - S k)%nat ltac:(lia)) as (_ & Z1). replace (N - 1 - (N - S k))%nat with k in Z1 by lia. exact Z1.
      + replace (N - k)%nat with (S (N - S k)) in IH by lia. apply IH. lia. }
  specialize (K N ltac:(lia)). rewrite Nat.sub_diag in K. exact K.
Qed.

(** ** The integral of (1 - t^2)^l *)
Lemma int_w l : is_RInt (fun t => (1 - t ^ 2) ^ l) (-1) 1 (2 * (2 ^ l * INR (fact l)) ^ 2 / INR (fact (2 * l + 1))).
Proof.
  induction l as [|l IH].
  - apply (RInt_fun (fun _ => 1)); [intros; cbn; ring|]. eapply RInt_val; [apply (is_RInt_const (V := R_NormedModule) (-1) 1 1)|]. unfold scal; cbn. unfold mult; cbn. field.
  - assert (A : is_RInt (fun t => (2 * INR l + 3) * (1 - t ^ 2) ^ S l - 2 * (INR l + 1) * (1 - t ^ 2) ^ l) (-1) 1 0).
    { eapply RInt_val; [apply (RInt_antider (fun t => t * (1 - t ^ 2) ^ S l))|cbn [pow]; ring].
      - intros t. eapply is_derive_eq; [auto_derive; first [exact I|reflexivity]|]. change (match l with O => 1 | S _ => INR l + 1 end) with (INR (S l)). rewrite S_INR. match goal with |- context [?a ^ l] => progress replace a with (1 - t ^ 2) by ring end. set (q := (1 - t ^ 2) ^ l). change ((1 - t ^ 2) ^ S l) with ((1 - t ^ 2) * q). ring.
      - intros t. apply (ex_derive_continuous (V := R_NormedModule)). auto_derive. exact I. }
    pose proof (pos_INR l). pose proof (RInt_lin _ _ _ _ _ _ (/ (2 * INR l + 3)) (2 * (INR l + 1) / (2 * INR l + 3)) A IH) as B.
    apply (RInt_fun (fun t => / (2 * INR l + 3) * ((2 * INR l + 3) * (1 - t ^ 2) ^ S l - 2 * (INR l + 1) * (1 - t ^ 2) ^ l) + 2 * (INR l + 1) / (2 * INR l + 3) * (1 - t ^ 2) ^ l)).
    + intros t. field. lra.
    + eapply RInt_val; [exact B|]. replace (2 * S l + 1)%nat with (S (S (2 * l + 1))) by lia. change (fact (S (S (2 * l + 1)))) with (S (S (2 * l + 1)) * (S (2 * l + 1) * fact (2 * l + 1)))%nat.
      change (fact (S l)) with (S l * fact l)%nat. rewrite !mult_INR, !S_INR, plus_INR, INR_dbl. cbn [pow INR]. pose proof (INR_fact_lt_0 (2 * l + 1)). field. repeat split; lra.
Qed.

(** ** Legendre functions *)
Lemma w_poly l : poly (fun t => (t ^ 2 - 1) ^ l).
Proof. apply (lead_poly _ _ _ (lead_w l)). Qed.
Lemma w_van l : van l (fun t => (t ^ 2 - 1) ^ l).
Proof. exists (fun _ => 1). split; [apply poly_const|]. intros t. ring. Qed.

Lemma legendre_le l l' mu : (mu <= l)%nat -> (l <= l')%nat ->
  is_RInt (fun t => (1 - t ^ 2) ^ mu * rodrigues l (l + mu) t * rodrigues l' (l' + mu) t) (-1) 1
    (if (l =? l')%nat then 2 / (2 * INR l + 1) * (2 ^ l * INR (fact l)) ^ 2 * (INR (fact (l + mu)) / INR (fact (l - mu))) else 0).
Proof.
  intros Hm Hl. set (w := fun l t => (t ^ 2 - 1) ^ l).
  assert (LR : lead (l - mu) (INR (fact (2 * l)) / INR (fact (l - mu))) (Derive_n (w l) (l + mu))).
  { pose proof (lead_w l) as H. replace (2 * l)%nat with (l + mu + (l - mu))%nat in H by lia. apply lead_derive_n in H.
    replace (l + mu + (l - mu))%nat with (2 * l)%nat in H by lia. rewrite Rmult_1_r in H. exact H. }
  pose (u := fun t => (t ^ 2 - 1) ^ mu * Derive_n (w l) (l + mu) t).
  assert (Lu : lead (l + mu) (INR (fact (2 * l)) / INR (fact (l - mu))) u).
  { replace (l + mu)%nat with (2 * mu + (l - mu))%nat at 1 by lia. apply lead_quad_n. exact LR. }
  assert (Vu : van mu u) by (exists (Derive_n (w l) (l + mu)); split; [apply (lead_poly _ _ _ LR)|reflexivity]).
  assert (Sg : forall n t, (1 - t ^ 2) ^ n = (-1) ^ n * (t ^ 2 - 1) ^ n) by (intros n t; rewrite <- Rpow_mult_distr; f_equal; ring).
  assert (P : forall J : R, is_RInt (fun t => Derive_n u (l' + mu) t * w l' t) (-1) 1 J -> is_RInt (fun t => u t * Derive_n (w l') (l' + mu) t) (-1) 1 ((-1) ^ (l' + mu) * J)).
  { intros J HJ. apply parts_n; [apply (lead_poly _ _ _ Lu)|apply w_poly| |exact HJ]. intros a Ha.
    destruct (Nat.lt_ge_cases a mu) as [Hlt|Hge].
    - destruct (van_zero_n mu u a Vu Hlt) as (-> & ->). split; ring.
    - destruct (van_zero_n l' (w l') (l' + mu - 1 - a) (w_van l') ltac:(lia)) as (-> & ->). split; ring. }
  assert (Q : exists J : R, is_RInt (fun t => Derive_n u (l' + mu) t * w l' t) (-1) 1 J /\
    (-1) ^ mu * ((-1) ^ (l' + mu) * J) = if (l =? l')%nat then 2 / (2 * INR l + 1) * (2 ^ l * INR (fact l)) ^ 2 * (INR (fact (l + mu)) / INR (fact (l - mu))) else 0).
  { destruct (Nat.eqb_spec l l') as [<- | Hn].
    - exists (INR (fact (l + mu)) * (INR (fact (2 * l)) / INR (fact (l - mu))) * ((-1) ^ l * (2 * (2 ^ l * INR (fact l)) ^ 2 / INR (fact (2 * l + 1))))). split.
      + apply (RInt_fun (fun t => INR (fact (l + mu)) * (INR (fact (2 * l)) / INR (fact (l - mu))) * ((-1) ^ l * (1 - t ^ 2) ^ l))).
        * intros t. rewrite (lead_const _ _ _ Lu), Sg. unfold w. rewrite <- (Rmult_assoc ((-1) ^ l)), <- Rpow_mult_distr. replace (-1 * -1) with 1 by ring. rewrite pow1. ring.
        * apply RInt_scale, RInt_scale, int_w.
      + rewrite pow_add. set (a := (-1) ^ mu). set (b := (-1) ^ l). assert (Ha : a * a = 1) by (unfold a; rewrite <- Rpow_mult_distr; replace (-1 * -1) with 1 by ring; apply pow1).
        assert (Hb : b * b = 1) by (unfold b; rewrite <- Rpow_mult_distr; replace (-1 * -1) with 1 by ring; apply pow1).
        replace (2 * l + 1)%nat with (S (2 * l)) by lia. change (fact (S (2 * l))) with (S (2 * l) * fact (2 * l))%nat. rewrite mult_INR, S_INR, INR_dbl.
        pose proof (pos_INR l). pose proof (INR_fact_lt_0 (2 * l)). pose proof (INR_fact_lt_0 (l - mu)).
        transitivity ((a * a) * (b * b) * (2 / (2 * INR l + 1) * (2 ^ l * INR (fact l)) ^ 2 * (INR (fact (l + mu)) / INR (fact (l - mu))))); [field; repeat split; lra|].
        rewrite Ha, Hb. ring.
    - exists 0. split; [|ring]. apply (RInt_fun (fun _ => 0)).
      + intros t. rewrite (lead_beyond _ _ _ (l' + mu) Lu) by lia. ring.
      + eapply RInt_val; [apply (is_RInt_const (V := R_NormedModule) (-1) 1 0)|]. unfold scal; cbn. unfold mult; cbn. ring. }
  destruct Q as (J & HJ & EJ). eapply RInt_val; [|exact EJ]. apply (RInt_fun (fun t => (-1) ^ mu * (u t * Derive_n (w l') (l' + mu) t))).
  - intros t. unfold u, rodrigues. fold (w l). fold (w l'). rewrite Sg. ring.
  - apply RInt_scale. apply P. exact HJ.
Qed.

Lemma legendre l l' mu : (mu <= l)%nat -> (mu <= l')%nat ->
  is_RInt (fun t => (1 - t ^ 2) ^ mu * rodrigues l (l + mu) t * rodrigues l' (l' + mu) t) (-1) 1
    (if (l =? l')%nat then 2 / (2 * INR l + 1) * (2 ^ l * INR (fact l)) ^ 2 * (INR (fact (l + mu)) / INR (fact (l - mu))) else 0).
Proof.
  intros H1 H2. destruct (Nat.le_ge_cases l l') as [H|H]; [apply legendre_le; assumption|].
  destruct (Nat.eqb_spec l l') as [<- | Hn]; [pose proof (legendre_le l l mu H1 ltac:(lia)) as P; rewrite Nat.eqb_refl in P; exact P|].
  pose proof (legendre_le l' l mu H2 H) as P. replace (l' =? l)%nat with false in P by (symmetry; apply Nat.eqb_neq; lia).
  apply (RInt_fun (fun t => (1 - t ^ 2) ^ mu * rodrigues l' (l' + mu) t * rodrigues l (l + mu) t)); [intros t; ring|exact P].
Qed.

(** the polar angle *)
Lemma polar_subst (F : R -> R) (v : R) : (forall t, continuous F t) -> is_RInt F (-1) 1 v -> is_RInt (fun t => F (cos t) * sin t) 0 PI v.
Proof.
  intros C H. pose proof (is_RInt_comp (V := R_CompleteNormedModule) F cos (fun t => - sin t) 0 PI) as K.
  assert (K' : is_RInt (fun t => scal (- sin t) (F (cos t))) 0 PI (RInt F (cos 0) (cos PI))).
  { apply K; intros t _; [apply C|]. split; [eapply is_derive_eq; [auto_derive; first [exact I|reflexivity]|ring]|].
    apply (ex_derive_continuous (V := R_NormedModule)). auto_derive. exact I. }
  rewrite cos_0, cos_PI in K'. apply (is_RInt_swap (V := R_NormedModule)) in H.
  rewrite (is_RInt_unique (V := R_CompleteNormedModule) F 1 (-1) _ H) in K'. pose proof (RInt_scale _ _ _ _ (-1) K') as B.
  eapply RInt_val; [|instantiate (1 := -1 * opp v); unfold opp; cbn; ring].
  apply (RInt_fun (fun t => -1 * scal (- sin t) (F (cos t)))); [|exact B]. intros t. unfold scal; cbn. unfold mult; cbn. ring.
Qed.

(** ** The azimuth *)
Lemma re_im_trig mu s p : re_im_pow mu (s * cos p) (s * sin p) = (s ^ mu * cos (INR mu * p), s ^ mu * sin (INR mu * p)).
Proof.
  induction mu as [|mu IH]; [cbn; rewrite Rmult_0_l, cos_0, sin_0; f_equal; ring|].
  cbn [re_im_pow]. rewrite IH. rewrite S_INR. replace ((INR mu + 1) * p) with (INR mu * p + p) by ring. rewrite cos_plus, sin_plus. cbn [pow]. f_equal; ring.
Qed.

Definition azim (m : Z) (p : R) : R := if (m <? 0)%Z then sin (INR (Z.abs_nat m) * p) else cos (INR (Z.abs_nat m) * p).

Lemma period_cos k : cos (IZR k * (2 * PI)) = 1 /\ sin (IZR k * (2 * PI)) = 0.
Proof.
  assert (N : forall n, cos (INR n * (2 * PI)) = 1 /\ sin (INR n * (2 * PI)) = 0).
  { intros n. replace (INR n * (2 * PI)) with (0 + 2 * INR n * PI) by ring. rewrite cos_period, sin_period, cos_0, sin_0. auto. }
  destruct (Z_le_dec 0 k).
  - replace k with (Z.of_nat (Z.to_nat k)) by lia. rewrite <- INR_IZR_INZ. apply N.
  - destruct (N (Z.to_nat (- k))) as (A & B). rewrite INR_IZR_INZ in A, B. rewrite Z2Nat.id in A, B by lia. rewrite opp_IZR in A, B.
    replace (- IZR k * (2 * PI)) with (- (IZR k * (2 * PI))) in A, B by ring. rewrite cos_neg in A. rewrite sin_neg in B. split; [exact A|lra].
Qed.

Lemma int_cos k : is_RInt (fun p => cos (IZR k * p)) 0 (2 * PI) (if (k =? 0)%Z then 2 * PI else 0).
Proof.
  destruct (Z.eqb_spec k 0) as [-> | Hk].
  - apply (RInt_fun (fun _ => 1)); [intros t; rewrite Rmult_0_l, cos_0; reflexivity|]. eapply RInt_val; [apply (is_RInt_const (V := R_NormedModule) 0 (2 * PI) 1)|]. unfold scal; cbn. unfold mult; cbn. ring.
  - assert (IZR k <> 0) by (apply not_0_IZR; exact Hk). destruct (period_cos k) as (_ & Sk).
    eapply RInt_val; [apply (RInt_antider (fun t => sin (IZR k * t) / IZR k))|rewrite Sk, Rmult_0_r, sin_0; unfold Rdiv; ring].
    + intros t. eapply is_derive_eq; [auto_derive; first [exact I|reflexivity]|field; assumption].
    + intros t. apply (ex_derive_continuous (V := R_NormedModule)). auto_derive. exact I.
Qed.
Lemma int_sin k : is_RInt (fun p => sin (IZR k * p)) 0 (2 * PI) 0.
Proof.
  destruct (Z.eq_dec k 0) as [-> | Hk].
  - apply (RInt_fun (fun _ => 0)); [intros t; rewrite Rmult_0_l, sin_0; reflexivity|]. eapply RInt_val; [apply (is_RInt_const (V := R_NormedModule) 0 (2 * PI) 0)|]. unfold scal; cbn. unfold mult; cbn. ring.
  - assert (IZR k <> 0) by (apply not_0_IZR; exact Hk). destruct (period_cos k) as (Ck & _).
    eapply RInt_val; [apply (RInt_antider (fun t => - cos (IZR k * t) / IZR k))|rewrite Ck, Rmult_0_r, cos_0; unfold Rdiv; ring].
    + intros t. eapply is_derive_eq; [auto_derive; first [exact I|reflexivity]|field; assumption].
    + intros t. apply (ex_derive_continuous (V := R_NormedModule)). auto_derive. exact I.
Qed.

Lemma azim_ortho m m' : is_RInt (fun p => azim m p * azim m' p) 0 (2 * PI) (if (m =? m')%Z then (if (m =? 0)%Z then 2 * PI else PI) else 0).
Proof.
  unfold azim. set (a := Z.of_nat (Z.abs_nat m)). set (b := Z.of_nat (Z.abs_nat m')). rewrite (INR_IZR_INZ (Z.abs_nat m)), (INR_IZR_INZ (Z.abs_nat m')). fold a b.
  assert (Ha : a = Z.abs m) by (unfold a; lia). assert (Hb : b = Z.abs m') by (unfold b; lia). clearbody a b.
  destruct (Z.ltb_spec m 0), (Z.ltb_spec m' 0).
  - apply (RInt_fun (fun p => 1 / 2 * cos (IZR (a - b) * p) + (- 1 / 2) * cos (IZR (a + b) * p))).
    + intros p. rewrite minus_IZR, plus_IZR, Rmult_minus_distr_r, Rmult_plus_distr_r, cos_minus, cos_plus. field.
    + eapply RInt_val; [apply RInt_lin; apply int_cos|]. replace (m =? m')%Z with (a - b =? 0)%Z by lia. replace (a + b =? 0)%Z with false by lia. replace (m =? 0)%Z with false by lia.
      destruct (a - b =? 0)%Z; field.
  - replace (m =? m')%Z with false by lia. apply (RInt_fun (fun p => 1 / 2 * sin (IZR (a - b) * p) + 1 / 2 * sin (IZR (a + b) * p))).
    + intros p. rewrite minus_IZR, plus_IZR, Rmult_minus_distr_r, Rmult_plus_distr_r, sin_minus, sin_plus. field.
    + eapply RInt_val; [apply RInt_lin; apply int_sin|ring].
  - replace (m =? m')%Z with false by lia. apply (RInt_fun (fun p => (- 1 / 2) * sin (IZR (a - b) * p) + 1 / 2 * sin (IZR (a + b) * p))).
    + intros p. rewrite minus_IZR, plus_IZR, Rmult_minus_distr_r, Rmult_plus_distr_r, sin_minus, sin_plus. field.
    + eapply RInt_val; [apply RInt_lin; apply int_sin|ring].
  - apply (RInt_fun (fun p => 1 / 2 * cos (IZR (a - b) * p) + 1 / 2 * cos (IZR (a + b) * p))).
    + intros p. rewrite minus_IZR, plus_IZR, Rmult_minus_distr_r, Rmult_plus_distr_r, cos_minus, cos_plus. field.
    + eapply RInt_val; [apply RInt_lin; apply int_cos|]. replace (m =? m')%Z with (a - b =? 0)%Z by lia. replace (a + b =? 0)%Z with ((a - b =? 0)%Z && (m =? 0)%Z) by lia.
      destruct (a - b =? 0)%Z, (m =? 0)%Z; cbn [andb]; field.
Qed.

(** ** Orthonormality *)
Definition snorm (l : nat) (m : Z) : R :=
  sqrt ((2 * INR l + 1) / (if (m =? 0)%Z then 4 * PI else 2 * PI) * INR (fact (l - Z.abs_nat m)) / INR (fact (l + Z.abs_nat m))) / (2 ^ l * INR (fact l)).

Lemma snorm_sq l m : snorm l m * snorm l m = (2 * INR l + 1) / (if (m =? 0)%Z then 4 * PI else 2 * PI) * INR (fact (l - Z.abs_nat m)) / INR (fact (l + Z.abs_nat m)) / (2 ^ l * INR (fact l)) ^ 2.
Proof.
  unfold snorm. set (q := (2 * INR l + 1) / _ * _ / _). assert (0 <= q).
  { unfold q. pose proof (pos_INR l). pose proof PI_RGT_0. apply Rmult_le_pos; [apply Rmult_le_pos|]; [|apply pos_INR|left; apply Rinv_0_lt_compat, INR_fact_lt_0].
    apply Rmult_le_pos; [lra|]. left. apply Rinv_0_lt_compat. destruct (m =? 0)%Z; lra. }
  pose proof (pow_lt 2 l ltac:(lra)). pose proof (INR_fact_lt_0 l).
  transitivity (sqrt q * sqrt q / (2 ^ l * INR (fact l)) ^ 2); [field; split; lra|]. rewrite sqrt_sqrt by assumption. reflexivity.
Qed.

Lemma real_sph_polar l m t p : real_sph l m (sin t * cos p) (sin t * sin p) (cos t) =
  snorm l m * (rodrigues l (l + Z.abs_nat m) (cos t) * sin t ^ Z.abs_nat m) * azim m p.
Proof.
  unfold real_sph, azim. rewrite re_im_trig. cbn [fst snd]. fold (snorm l m). destruct (m <? 0)%Z; ring.
Qed.

Lemma rodrigues_cont l n t : continuous (rodrigues l n) t.
Proof. apply poly_cont. unfold rodrigues. apply poly_derive_n, w_poly. Qed.

Lemma orthonormal l l' m m' : (Z.abs m <= Z.of_nat l)%Z -> (Z.abs m' <= Z.of_nat l')%Z ->
  sphere_int (fun x y z => real_sph l m x y z * real_sph l' m' x y z) (if (l =? l')%nat && (m =? m')%Z then 1 else 0).
Proof.
  intros Hm Hm'.
  pose (A := fun t => snorm l m * snorm l' m' * (rodrigues l (l + Z.abs_nat m) (cos t) * rodrigues l' (l' + Z.abs_nat m') (cos t) * sin t ^ (Z.abs_nat m + Z.abs_nat m') * sin t)).
  pose (B := fun p => azim m p * azim m' p).
  assert (F : forall t p, real_sph l m (sin t * cos p) (sin t * sin p) (cos t) * real_sph l' m' (sin t * cos p) (sin t * sin p) (cos t) * sin t = A t * B p).
  { intros t p. rewrite !real_sph_polar. unfold A, B. rewrite pow_add. ring. }
  destruct (Z.eqb_spec m m') as [<- | Hn].
  - set (mu := Z.abs_nat m) in *. rewrite andb_true_r.
    assert (HA : is_RInt A 0 PI (snorm l m * snorm l' m * (if (l =? l')%nat then 2 / (2 * INR l + 1) * (2 ^ l * INR (fact l)) ^ 2 * (INR (fact (l + mu)) / INR (fact (l - mu))) else 0))).
    { apply RInt_scale. pose proof (legendre l l' mu ltac:(lia) ltac:(lia)) as L. apply polar_subst in L.
      - eapply RInt_fun; [|exact L]. intros t. cbv beta. rewrite pow_add. replace (1 - cos t ^ 2) with (sin t * sin t) by (pose proof (sin2_cos2 t) as S2; unfold Rsqr in S2; cbn [pow]; lra).
        rewrite Rpow_mult_distr. ring.
      - intros t. apply (continuous_mult (K := R_AbsRing)); [apply (continuous_mult (K := R_AbsRing))|]; [|apply rodrigues_cont|apply rodrigues_cont].
        apply (ex_derive_continuous (V := R_NormedModule)). auto_derive. exact I. }
    pose proof (azim_ortho m m) as HB. rewrite Z.eqb_refl in HB. pose proof (sphere_product (fun x y z => real_sph l m x y z * real_sph l' m x y z) A B _ _ F HA HB) as P.
    eapply eq_ind; [exact P|]. destruct (Nat.eqb_spec l l') as [<- | Hl]; [|ring].
    rewrite snorm_sq. fold mu. pose proof (pos_INR l). pose proof (INR_fact_lt_0 (l + mu)). pose proof (INR_fact_lt_0 (l - mu)). pose proof (INR_fact_lt_0 l). pose proof (pow_lt 2 l ltac:(lra)). pose proof PI_RGT_0.
    destruct (m =? 0)%Z; field; repeat split; lra.
  - rewrite andb_false_r. pose proof (azim_ortho m m') as HB. replace (m =? m')%Z with false in HB by lia.
    assert (HA : exists u, is_RInt A 0 PI u).
    { apply (ex_RInt_continuous (V := R_CompleteNormedModule) A). intros t _. unfold A.
      assert (Cr : forall k n, continuous (fun t => rodrigues k n (cos t)) t).
      { intros k n. apply (continuous_comp cos (rodrigues k n)); [apply (ex_derive_continuous (V := R_NormedModule)); auto_derive; exact I|apply rodrigues_cont]. }
      apply (continuous_mult (K := R_AbsRing)); [apply continuous_const|]. apply (continuous_mult (K := R_AbsRing)); [apply (continuous_mult (K := R_AbsRing))|].
      - apply (continuous_mult (K := R_AbsRing)); apply Cr.
      - apply (ex_derive_continuous (V := R_NormedModule)). auto_derive. exact I.
      - apply (ex_derive_continuous (V := R_NormedModule)). auto_derive. exact I. }
    destruct HA as (u & HA). pose proof (sphere_product (fun x y z => real_sph l m x y z * real_sph l' m' x y z) A B _ _ F HA HB) as P. rewrite Rmult_0_r in P. exact P.
Qed.
