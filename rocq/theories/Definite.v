(** * C81: the overlap and kinetic energy matrices are positive definite *)

From Coq Require Import ZArith List Lia Bool Reals Lra.
From Coquelicot Require Import Coquelicot.
From Verif Require Import Base GaussInt GaussProd CartModel CartProofs HeapModel HeapProofs HeapSpec
  OneElModel OneElProofs OneElPairs OneElSpec OneElInt OneElThms OvDeriv.
Import ListNotations.
Open Scope R_scope.

(** ** Specification *)

(** a basis function with a coefficient: component number [b_m] of the shell at [b_p] *)
Record bfun := BF { b_w : R; b_p : Z; b_v : sview; b_comps : list (Z * Z * Z); b_m : nat }.
Definition bf_ok (h : heap) (t : bfun) : Prop :=
  std_shell h (b_p t) (b_v t) (b_comps t) /\ (v_L (b_v t) <= 9)%Z /\ exps_pos (b_v t) /\ (b_m t < length (b_comps t))%nat.
Definition b_comp (t : bfun) : Z * Z * Z := nth (b_m t) (b_comps t) (0, 0, 0)%Z.

(** the linear combination as a function on space *)
Definition combo (ts : list bfun) (x y z : R) : R := lsum (fun t => b_w t * phi_of (b_v t) (b_comp t) x y z) ts.

(** [e] is the matrix element which the library returns for this pair of basis functions *)
Definition computed (o : oneel) (h : heap) (t t' : bfun) (e : R) : Prop :=
  exists M X, fits M (b_v t) (b_v t') /\ oneel_call o h (b_p t) (b_p t') M = Ok X /\ elem_at X (b_v t') (b_m t) (b_m t') = Ok e.

(** the expectation value built from matrix elements *)
Definition quad (ts : list bfun) (S : bfun -> bfun -> R) : R := lsum (fun t => lsum (fun t' => b_w t * b_w t' * S t t') ts) ts.

(** ** Integrals of functions which are not negative *)
Lemma is_int_lower g v a b : (forall x, 0 <= g x) -> (forall x, continuous g x) -> is_int g v -> a <= b -> RInt (V := R_CompleteNormedModule) g a b <= v.
Proof.
  intros Hp Hc Hi Hab. destruct (Rle_lt_dec (RInt (V := R_CompleteNormedModule) g a b) v) as [H|H]; [exact H|exfalso].
  assert (EX : forall u w, ex_RInt g u w) by (intros u w; apply (ex_RInt_continuous (V := R_CompleteNormedModule)); intros; apply Hc).
  specialize (Hi (fun y => Rabs (y - v) < RInt (V := R_CompleteNormedModule) g a b - v)).
  destruct Hi as [Q S HQ HS HH].
  { assert (He : 0 < RInt (V := R_CompleteNormedModule) g a b - v) by lra. exists (mkposreal _ He). intros y Hy. exact Hy. }
  destruct HQ as (M & HM). destruct HS as (N & HN).
  set (A := Rmin (M - 1) a). set (B := Rmax (N + 1) b). assert (A1 : A < M) by (unfold A; pose proof (Rmin_l (M - 1) a); lra). assert (A2 : A <= a) by apply Rmin_r. assert (B1 : N < B) by (unfold B; pose proof (Rmax_l (N + 1) b); lra). assert (B2 : b <= B) by apply Rmax_r.
  destruct (HH A B (HM A A1) (HN B B1)) as (y & Hy1 & Hy2). cbn [fst snd] in Hy1.
  assert (Ey : y = RInt (V := R_CompleteNormedModule) g A B) by (symmetry; apply is_RInt_unique; exact Hy1).
  pose proof (RInt_Chasles (V := R_CompleteNormedModule) g A a B (EX _ _) (EX _ _)) as C1. pose proof (RInt_Chasles (V := R_CompleteNormedModule) g a b B (EX _ _) (EX _ _)) as C2.
  change (RInt (V := R_CompleteNormedModule) g A a + RInt (V := R_CompleteNormedModule) g a B = RInt (V := R_CompleteNormedModule) g A B) in C1. change (RInt (V := R_CompleteNormedModule) g a b + RInt (V := R_CompleteNormedModule) g b B = RInt (V := R_CompleteNormedModule) g a B) in C2.
  assert (P1 : 0 <= RInt (V := R_CompleteNormedModule) g A a) by (apply RInt_ge_0; [exact A2|apply EX|intros; apply Hp]). assert (P2 : 0 <= RInt (V := R_CompleteNormedModule) g b B) by (apply RInt_ge_0; [exact B2|apply EX|intros; apply Hp]).
  apply Rabs_def2 in Hy2. lra.
Qed.

Lemma is_int_nonneg g v : (forall x, 0 <= g x) -> (forall x, continuous g x) -> is_int g v -> 0 <= v.
Proof. intros Hp Hc Hi. pose proof (is_int_lower g v 0 0 Hp Hc Hi ltac:(lra)) as H. rewrite RInt_point in H. exact H. Qed.

Lemma is_int_zero_pos g : (forall x, 0 <= g x) -> (forall x, continuous g x) -> is_int g 0 -> forall x, g x = 0.
Proof.
  intros Hp Hc Hi x. destruct (Req_dec (g x) 0) as [E|N]; [exact E|exfalso]. assert (P : 0 < g x) by (pose proof (Hp x); lra).
  assert (L : locally (g x) (fun y => 0 < y)). { exists (mkposreal _ P). intros y Hy. change (Rabs (y - g x) < g x) in Hy. apply Rabs_lt_between in Hy. lra. }
  destruct (Hc x _ L) as (d & Hd). pose proof (cond_pos d) as Pd.
  assert (X : 0 < RInt (V := R_CompleteNormedModule) g (x - d / 2) (x + d / 2)).
  { apply RInt_gt_0; [lra| |intros; apply Hc]. intros y Hy. apply Hd. change (Rabs (y - x) < d). apply Rabs_lt_between. lra. }
  pose proof (is_int_lower g 0 (x - d / 2) (x + d / 2) Hp Hc Hi ltac:(lra)). lra.
Qed.

Lemma is_int_const k v : 0 <= k -> is_int (fun _ => k) v -> k = 0.
Proof.
  intros Hk Hi. destruct (Req_dec k 0) as [E|N]; [exact E|exfalso]. pose proof (is_int_lower (fun _ => k) v 0 ((Rabs v + 1) / k) ltac:(intros; lra) ltac:(intros; apply continuous_const_R) Hi) as H.
  rewrite RInt_const in H. unfold scal in H. cbn in H. unfold mult in H. cbn in H. pose proof (Rle_abs v). pose proof (Rabs_pos v). assert (D : 0 <= (Rabs v + 1) / k) by (unfold Rdiv; apply Rmult_le_pos; [lra|left; apply Rinv_0_lt_compat; lra]).
  specialize (H D). replace (((Rabs v + 1) / k - 0) * k) with (Rabs v + 1) in H by (field; lra). lra.
Qed.

Lemma is_int_lsum {A} (F : A -> R -> R) (v : A -> R) l : (forall x, In x l -> is_int (F x) (v x)) -> is_int (fun t => lsum (fun x => F x t) l) (lsum v l).
Proof.
  induction l as [|x l IH]; intros H; [apply is_int_zero|]. cbn [lsum fold_right]. apply is_int_plus; [apply H; left; reflexivity|]. apply IH. intros; apply H; right; assumption.
Qed.

Lemma lsum_continuous {A} (F : A -> R -> R) l x : (forall t, In t l -> continuous (F t) x) -> continuous (fun u => lsum (fun t => F t u) l) x.
Proof.
  induction l as [|t l IH]; intros H; [apply continuous_const_R|]. cbn [lsum fold_right]. apply (continuous_plus_R (F t) (fun u => lsum (fun t => F t u) l)); [apply H; left; reflexivity|]. apply IH. intros; apply H; right; assumption.
Qed.

(** ** A Gram form of products of functions of one variable *)
Section Gram.
Variable T : Type.
Variable c : T -> R.
Variables P Q S : T -> R -> R.
Variables ip iq is : T -> T -> R.
Variable ts : list T.
Hypothesis CP : forall t x, continuous (P t) x.
Hypothesis CQ : forall t x, continuous (Q t) x.
Hypothesis CS : forall t x, continuous (S t) x.
Hypothesis IP : forall t t', In t ts -> In t' ts -> is_int (fun x => P t x * P t' x) (ip t t').
Hypothesis IQ : forall t t', In t ts -> In t' ts -> is_int (fun x => Q t x * Q t' x) (iq t t').
Hypothesis IS : forall t t', In t ts -> In t' ts -> is_int (fun x => S t x * S t' x) (is t t').

Definition gfun (x y z : R) : R := lsum (fun t => c t * (P t x * Q t y * S t z)) ts.
Definition gq : R := lsum (fun t => lsum (fun t' => c t * c t' * (ip t t' * iq t t' * is t t')) ts) ts.
Let F1 (x y : R) : R := lsum (fun t => lsum (fun t' => c t * c t' * ((P t x * P t' x) * (Q t y * Q t' y) * is t t')) ts) ts.
Let F2 (x : R) : R := lsum (fun t => lsum (fun t' => c t * c t' * ((P t x * P t' x) * iq t t' * is t t')) ts) ts.

Lemma gsq x y z : gfun x y z * gfun x y z = lsum (fun t => lsum (fun t' => (c t * c t' * ((P t x * P t' x) * (Q t y * Q t' y))) * (S t z * S t' z)) ts) ts.
Proof. unfold gfun. rewrite (lsum_mult (fun t => c t * (P t x * Q t y * S t z)) (fun t => c t * (P t x * Q t y * S t z))). apply lsum_ext. intros t _. apply lsum_ext. intros t' _. ring. Qed.

Lemma i1 x y : is_int (fun z => gfun x y z * gfun x y z) (F1 x y).
Proof.
  apply (is_int_ext (fun z => lsum (fun t => lsum (fun t' => (c t * c t' * ((P t x * P t' x) * (Q t y * Q t' y))) * (S t z * S t' z)) ts) ts)); [intros z; symmetry; apply gsq|].
  apply is_int_lsum. intros t Ht. apply is_int_lsum. intros t' Ht'. eapply is_int_eq; [apply is_int_scal, IS; assumption|ring].
Qed.
Lemma i2 x : is_int (fun y => F1 x y) (F2 x).
Proof.
  apply (is_int_ext (fun y => lsum (fun t => lsum (fun t' => (c t * c t' * ((P t x * P t' x) * is t t')) * (Q t y * Q t' y)) ts) ts)); [intros y; apply lsum_ext; intros t _; apply lsum_ext; intros t' _; ring|].
  apply is_int_lsum. intros t Ht. apply is_int_lsum. intros t' Ht'. eapply is_int_eq; [apply is_int_scal, IQ; assumption|ring].
Qed.
Lemma i3 : is_int F2 gq.
Proof.
  apply (is_int_ext (fun x => lsum (fun t => lsum (fun t' => (c t * c t' * (iq t t' * is t t')) * (P t x * P t' x)) ts) ts)); [intros y; apply lsum_ext; intros t _; apply lsum_ext; intros t' _; ring|].
  apply is_int_lsum. intros t Ht. apply is_int_lsum. intros t' Ht'. eapply is_int_eq; [apply is_int_scal, IP; assumption|ring].
Qed.

Lemma c0 x y z : continuous (fun z => gfun x y z * gfun x y z) z.
Proof.
  assert (H : continuous (fun z => gfun x y z) z). { apply lsum_continuous. intros t _. apply (continuous_mult_R (fun _ => c t) (fun z => P t x * Q t y * S t z)); [apply continuous_const_R|]. apply (continuous_mult_R (fun _ => P t x * Q t y) (S t)); [apply continuous_const_R|apply CS]. }
  apply (continuous_mult_R (fun z => gfun x y z) (fun z => gfun x y z)); exact H.
Qed.
Lemma c1 x y : continuous (fun y => F1 x y) y.
Proof.
  apply lsum_continuous. intros t _. apply (lsum_continuous (fun t' y => c t * c t' * ((P t x * P t' x) * (Q t y * Q t' y) * is t t'))). intros t' _. apply (continuous_mult_R (fun _ => c t * c t') (fun y => (P t x * P t' x) * (Q t y * Q t' y) * is t t')); [apply continuous_const_R|].
  apply (continuous_mult_R (fun y => (P t x * P t' x) * (Q t y * Q t' y)) (fun _ => is t t')); [|apply continuous_const_R]. apply (continuous_mult_R (fun _ => P t x * P t' x) (fun y => Q t y * Q t' y)); [apply continuous_const_R|]. apply (continuous_mult_R (Q t) (Q t')); apply CQ.
Qed.
Lemma c2 x : continuous F2 x.
Proof.
  apply (lsum_continuous (fun t x => lsum (fun t' => c t * c t' * ((P t x * P t' x) * iq t t' * is t t')) ts)). intros t _. apply (lsum_continuous (fun t' x => c t * c t' * ((P t x * P t' x) * iq t t' * is t t'))). intros t' _. apply (continuous_mult_R (fun _ => c t * c t') (fun x => (P t x * P t' x) * iq t t' * is t t')); [apply continuous_const_R|].
  apply (continuous_mult_R (fun x => (P t x * P t' x) * iq t t') (fun _ => is t t')); [|apply continuous_const_R]. apply (continuous_mult_R (fun x => P t x * P t' x) (fun _ => iq t t')); [|apply continuous_const_R]. apply (continuous_mult_R (P t) (P t')); apply CP.
Qed.

Lemma p1 x y : 0 <= F1 x y.
Proof. apply (is_int_nonneg (fun z => gfun x y z * gfun x y z)); [intros; apply Rle_0_sqr|apply c0|apply i1]. Qed.
Lemma p2 x : 0 <= F2 x.
Proof. apply (is_int_nonneg (fun y => F1 x y)); [intros; apply p1|intros; apply c1|apply i2]. Qed.

Lemma gram_nonneg : 0 <= gq.
Proof. apply (is_int_nonneg F2); [apply p2|apply c2|apply i3]. Qed.

Lemma gram_zero : gq = 0 -> forall x y z, gfun x y z = 0.
Proof.
  intros H x y z. assert (Z2 : forall x, F2 x = 0) by (apply is_int_zero_pos; [apply p2|apply c2|rewrite <- H; apply i3]).
  assert (Z1 : forall y, F1 x y = 0) by (apply (is_int_zero_pos (fun y => F1 x y)); [intros; apply p1|intros; apply c1|rewrite <- (Z2 x); apply i2]).
  assert (Z0 : forall z, gfun x y z * gfun x y z = 0) by (apply (is_int_zero_pos (fun z => gfun x y z * gfun x y z)); [intros; apply Rle_0_sqr|intros; apply c0|rewrite <- (Z1 y); apply i1]).
  destruct (Rmult_integral _ _ (Z0 z)); assumption.
Qed.

(** a combination which does not depend on the position is zero *)
Lemma gram_const k : (forall x y z, gfun x y z = k) -> k = 0.
Proof.
  intros H. pose proof (i1 0 0) as I. apply (is_int_ext _ (fun _ => k * k)) in I; [|intros z; rewrite !H; reflexivity]. apply is_int_const in I; [|apply Rle_0_sqr]. destruct (Rmult_integral _ _ I); assumption.
Qed.

End Gram.

(** ** Products of derivatives *)
Lemma dcgZ_int aA aB A B c i j : 0 < aA -> 0 < aB -> (0 <= i)%Z -> is_int (fun x => dcgZ aA A c i x * dcgZ aB B c j x) (- d2v aA aB A B c i j).
Proof.
  intros HA HB Hi. unfold dcgZ. apply dcg_parts; [exact HA|exact HB|]. pose proof (d2cg_int aA (coord3 A c) aB (coord3 B c) HA HB (Z.to_nat i) (Z.to_nat j)) as H1.
  pose proof (d2cg_move _ _ _ _ _ _ _ HA HB H1) as H2. pose proof (d2v_int aA aB A B HA HB c i j Hi) as H3. unfold cgZ, d2cgZ in H3. pose proof (is_int_unique _ _ _ H2 H3) as E. rewrite <- E. exact H1.
Qed.

Lemma cgZ_cont a o c i x : continuous (cgZ a o c i) x.
Proof. unfold cgZ. apply cg_continuous. Qed.
Lemma dcgZ_cont a o c i x : continuous (dcgZ a o c i) x.
Proof. apply (ex_derive_continuous (dcgZ a o c i)). eexists. apply d2cg_derive. Qed.

(** ** Terms: one primitive of one basis function *)
Definition term : Type := bfun * (R * R).
Definition terms (ts : list bfun) : list term := flat_map (fun t => map (fun p => (t, p)) (v_prims (b_v t))) ts.
Definition t_c (u : term) : R := b_w (fst u) * fst (snd u) * norm_L (v_L (b_v (fst u))) (snd (snd u)).
Definition t_a (u : term) : R := snd (snd u).
Definition t_o (u : term) : R * R * R := v_origin (b_v (fst u)).
Definition t_n (u : term) : Z := fst (fst (b_comp (fst u))).
Definition t_l (u : term) : Z := snd (fst (b_comp (fst u))).
Definition t_m (u : term) : Z := snd (b_comp (fst u)).
Definition fac (d : bool) (c : Z) (i : Z) (u : term) (x : R) : R := if d then dcgZ (t_a u) (t_o u) c i x else cgZ (t_a u) (t_o u) c i x.
Definition ifac (d : bool) (c i j : Z) (u u' : term) : R := if d then - d2v (t_a u) (t_a u') (t_o u) (t_o u') c i j else osv (t_a u) (t_a u') (t_o u) (t_o u') c i j.

Lemma lsum_terms (f : term -> R) ts : lsum f (terms ts) = lsum (fun t => lsum (fun p => f (t, p)) (v_prims (b_v t))) ts.
Proof.
  unfold terms. induction ts as [|t ts IH]; [reflexivity|]. cbn [flat_map]. rewrite lsum_app, IH, lsum_map, lsum_cons. reflexivity.
Qed.

Lemma in_terms u ts : In u (terms ts) -> In (fst u) ts /\ In (snd u) (v_prims (b_v (fst u))).
Proof. unfold terms. intros H. apply in_flat_map in H. destruct H as (t & Ht & H). apply in_map_iff in H. destruct H as (p & <- & Hp). split; assumption. Qed.

Lemma fac_cont d c i u x : continuous (fac d c i u) x.
Proof. unfold fac. destruct d; [apply dcgZ_cont|apply cgZ_cont]. Qed.

Section Modes.
Variable k : Z.
Definition mP (u : term) : R -> R := fac (k =? 0)%Z 0 (t_n u) u.
Definition mQ (u : term) : R -> R := fac (k =? 1)%Z 1 (t_l u) u.
Definition mS (u : term) : R -> R := fac (k =? 2)%Z 2 (t_m u) u.
Definition miP (u u' : term) : R := ifac (k =? 0)%Z 0 (t_n u) (t_n u') u u'.
Definition miQ (u u' : term) : R := ifac (k =? 1)%Z 1 (t_l u) (t_l u') u u'.
Definition miS (u u' : term) : R := ifac (k =? 2)%Z 2 (t_m u) (t_m u') u u'.
Definition mode_fun (ts : list bfun) : R -> R -> R -> R := gfun term t_c mP mQ mS (terms ts).
Definition mode_q (ts : list bfun) : R := gq term t_c miP miQ miS (terms ts).

Variable h : heap.
Variable ts : list bfun.
Hypothesis OK : forall t, In t ts -> bf_ok h t.

Lemma term_ok u : In u (terms ts) -> 0 < t_a u /\ (0 <= t_n u)%Z /\ (0 <= t_l u)%Z /\ (0 <= t_m u)%Z.
Proof.
  intros H. apply in_terms in H. destruct H as (H1 & H2). destruct (OK _ H1) as (S1 & _ & X1 & B1). split.
  - unfold t_a. destruct u as [t [cf a]]. cbn [fst snd] in *. eapply X1, H2.
  - assert (N : nonneg3 (b_comp (fst u))) by (apply (std_nonneg _ _ _ _ _ S1); apply nth_In; exact B1). unfold t_n, t_l, t_m. destruct (b_comp (fst u)) as [[n l] m]. cbn [fst snd]. unfold nonneg3 in N. lia.
Qed.

Lemma ifac_int d c i j u u' : In u (terms ts) -> In u' (terms ts) -> (0 <= i)%Z -> is_int (fun x => fac d c i u x * fac d c j u' x) (ifac d c i j u u').
Proof.
  intros H H' Hi. destruct (term_ok u H) as (A1 & _). destruct (term_ok u' H') as (A2 & _). unfold fac, ifac. destruct d; [apply dcgZ_int|apply osv_int]; assumption.
Qed.

Lemma mode_nonneg : 0 <= mode_q ts.
Proof.
  apply (gram_nonneg term t_c mP mQ mS miP miQ miS); try (intros; apply fac_cont); intros u u' H H'; destruct (term_ok u H) as (_ & N1 & N2 & N3); apply ifac_int; assumption.
Qed.
Lemma mode_zero : mode_q ts = 0 -> forall x y z, mode_fun ts x y z = 0.
Proof.
  apply (gram_zero term t_c mP mQ mS miP miQ miS); try (intros; apply fac_cont); intros u u' H H'; destruct (term_ok u H) as (_ & N1 & N2 & N3); apply ifac_int; assumption.
Qed.
Lemma mode_const K : (forall x y z, mode_fun ts x y z = K) -> K = 0.
Proof.
  apply (gram_const term t_c mP mQ mS miS); try (intros; apply fac_cont); intros u u' H H'; destruct (term_ok u H) as (_ & N1 & N2 & N3); apply ifac_int; assumption.
Qed.
End Modes.

(** the combination itself *)
Lemma combo_mode ts x y z : combo ts x y z = mode_fun 3 ts x y z.
Proof.
  unfold mode_fun, gfun. rewrite lsum_terms. unfold combo. apply lsum_ext. intros t _. unfold phi_of, phi. rewrite <- lsum_scal. apply lsum_ext. intros [cf a] _. unfold t_c, mP, mQ, mS, fac, t_a, t_o, t_n, t_l, t_m. cbn [fst snd Z.eqb Pos.eqb].
  destruct (b_comp t) as [[n l] m]. cbn [fst snd]. rewrite gto_split. ring.
Qed.

(** its partial derivatives *)
Lemma combo_partial k ts : (0 <= k < 3)%Z -> is_partial k (combo ts) (mode_fun k ts).
Proof.
  intros Hk x y z. unfold mode_fun, gfun. rewrite lsum_terms.
  apply (is_derive_ext (fun s => lsum (fun t => b_w t * along k (phi_of (b_v t) (b_comp t)) x y z s) ts)).
  { intros s. unfold along, combo. destruct (k =? 0)%Z; [reflexivity|]. destruct (k =? 1)%Z; reflexivity. }
  apply (is_derive_lsum (fun t s => b_w t * along k (phi_of (b_v t) (b_comp t)) x y z s) (fun t => lsum (fun p => t_c (t, p) * (mP k (t, p) x * mQ k (t, p) y * mS k (t, p) z)) (v_prims (b_v t)))). intros t _.
  apply (is_derive_eq _ _ (b_w t * contr (dpfun k (v_L (b_v t)) (v_origin (b_v t)) (b_comp t)) (v_prims (b_v t)) x y z)).
  - apply (is_derive_scal (along k (phi_of (b_v t) (b_comp t)) x y z)). apply phi_partial, Hk.
  - unfold contr. rewrite <- lsum_scal. apply lsum_ext. intros [cf a] _. unfold t_c, mP, mQ, mS, fac, t_a, t_o, t_n, t_l, t_m, dpfun. cbn [fst snd]. destruct (b_comp t) as [[n l] m]. cbn [fst snd]. ring.
Qed.

(** the expectation values *)
Lemma quad_terms (val : term -> term -> R) (S : bfun -> bfun -> R) ts :
  (forall t t', In t ts -> In t' ts -> b_w t * b_w t' * S t t' = lsum (fun p => lsum (fun q => val (t, p) (t', q)) (v_prims (b_v t'))) (v_prims (b_v t))) ->
  quad ts S = lsum (fun u => lsum (fun u' => val u u') (terms ts)) (terms ts).
Proof.
  intros H. unfold quad. rewrite lsum_terms. apply lsum_ext. intros t Ht. rewrite (lsum_ext (fun t' => b_w t * b_w t' * S t t') (fun t' => lsum (fun p => lsum (fun q => val (t, p) (t', q)) (v_prims (b_v t'))) (v_prims (b_v t)))) by (intros t' Ht'; apply H; assumption).
  rewrite lsum_swap. apply lsum_ext. intros p _. rewrite lsum_terms. reflexivity.
Qed.

Lemma computed_value o h t t' e : heap_wf h -> bf_ok h t -> bf_ok h t' -> computed o h t t' e -> e = ovalue o (b_v t) (b_v t') (b_comp t) (b_comp t').
Proof.
  intros W (S1 & L1 & X1 & B1) (S2 & L2 & X2 & B2) (M & X & F & E & El). destruct (oneel_ok o h _ _ _ _ _ _ M W S1 S2 L1 L2 F) as (M' & E' & _ & V). rewrite E in E'. injection E' as <-.
  specialize (V (b_m t) (b_m t') (b_comp t) (b_comp t') (nth_error_nth' _ _ B1) (nth_error_nth' _ _ B2)). rewrite El in V. injection V as V. exact V.
Qed.

Lemma contracted_terms w w' (val : R -> R -> R) la lb : w * w' * contracted val la lb = lsum (fun p => lsum (fun q => w * w' * (fst p * fst q * val (snd p) (snd q))) lb) la.
Proof. unfold contracted. rewrite <- lsum_scal. apply lsum_ext. intros [c a] _. rewrite <- lsum_scal. apply lsum_ext. intros [c' a'] _. reflexivity. Qed.

Section Final.
Variable h : heap.
Variable ts : list bfun.
Variable S : bfun -> bfun -> R.
Hypothesis W : heap_wf h.
Hypothesis OK : forall t, In t ts -> bf_ok h t.

Lemma quad_overlap : (forall t t', In t ts -> In t' ts -> computed Overlap h t t' (S t t')) -> quad ts S = mode_q 3 ts.
Proof.
  intros HS. unfold mode_q, gq. apply quad_terms. intros t t' Ht Ht'. rewrite (computed_value _ _ _ _ _ W (OK t Ht) (OK t' Ht') (HS t t' Ht Ht')). unfold ovalue. rewrite contracted_terms. apply lsum_ext. intros [c a] _. apply lsum_ext. intros [c' a'] _.
  cbn [oentry]. unfold t_c, miP, miQ, miS, ifac, t_a, t_o, t_n, t_l, t_m. cbn [fst snd Z.eqb Pos.eqb]. unfold ov_entry. destruct (b_comp t) as [[n l] m]. destruct (b_comp t') as [[n' l'] m']. cbn [fst snd]. rewrite !nf_norm. ring.
Qed.

Lemma quad_kinetic : (forall t t', In t ts -> In t' ts -> computed Kinetic h t t' (S t t')) -> quad ts S = 1 / 2 * (mode_q 0 ts + mode_q 1 ts + mode_q 2 ts).
Proof.
  intros HS. unfold mode_q, gq. rewrite (quad_terms (fun u u' => 1 / 2 * (t_c u * t_c u' * (miP 0 u u' * miQ 0 u u' * miS 0 u u') + t_c u * t_c u' * (miP 1 u u' * miQ 1 u u' * miS 1 u u') + t_c u * t_c u' * (miP 2 u u' * miQ 2 u u' * miS 2 u u')))).
  - rewrite <- !lsum_plus, <- lsum_scal. apply lsum_ext. intros u _. rewrite <- !lsum_plus, <- lsum_scal. reflexivity.
  - intros t t' Ht Ht'. rewrite (computed_value _ _ _ _ _ W (OK t Ht) (OK t' Ht') (HS t t' Ht Ht')). unfold ovalue. rewrite contracted_terms. apply lsum_ext. intros [c a] _. apply lsum_ext. intros [c' a'] _.
    cbn [oentry]. unfold t_c, miP, miQ, miS, ifac, t_a, t_o, t_n, t_l, t_m. cbn [fst snd Z.eqb Pos.eqb]. unfold kin_entry. destruct (b_comp t) as [[n l] m]. destruct (b_comp t') as [[n' l'] m']. cbn [fst snd]. rewrite !nf_norm. replace (-0.5) with (- (1 / 2)) by lra. ring.
Qed.

Lemma overlap_definite : (forall t t', In t ts -> In t' ts -> computed Overlap h t t' (S t t')) ->
  0 <= quad ts S /\ (quad ts S = 0 -> forall x y z, combo ts x y z = 0).
Proof.
  intros HS. rewrite (quad_overlap HS). split; [apply (mode_nonneg 3 h ts OK)|]. intros H x y z. rewrite combo_mode. apply (mode_zero 3 h ts OK H).
Qed.

Lemma partials_zero_const (f : R -> R -> R -> R) : (forall k, (0 <= k < 3)%Z -> is_partial k f (fun _ _ _ => 0)) -> forall x y z, f x y z = f 0 0 0.
Proof.
  intros H x y z.
  assert (C : forall (g : R -> R) u v, (forall s, is_derive g s 0) -> g u = g v).
  { assert (C0 : forall (g : R -> R) u v, u < v -> (forall s, is_derive g s 0) -> g u = g v).
    { intros g u v L Hd. apply (eq_is_derive (V := R_NormedModule) g u v); [intros s _; apply Hd|exact L]. }
    intros g u v Hd. destruct (Rtotal_order u v) as [L|[->|L]]; [apply C0; assumption|reflexivity|symmetry; apply C0; [exact L|exact Hd]]. }
  transitivity (f 0 y z). { apply (C (fun s => f s y z)). intros s. exact (H 0%Z ltac:(lia) s y z). }
  transitivity (f 0 0 z). { apply (C (fun s => f 0 s z)). intros s. exact (H 1%Z ltac:(lia) 0 s z). }
  apply (C (fun s => f 0 0 s)). intros s. exact (H 2%Z ltac:(lia) 0 0 s).
Qed.

Lemma kinetic_definite : (forall t t', In t ts -> In t' ts -> computed Kinetic h t t' (S t t')) ->
  0 <= quad ts S /\ (quad ts S = 0 -> forall x y z, combo ts x y z = 0).
Proof.
  intros HS. rewrite (quad_kinetic HS). pose proof (mode_nonneg 0 h ts OK). pose proof (mode_nonneg 1 h ts OK). pose proof (mode_nonneg 2 h ts OK). split; [lra|]. intros E.
  assert (Z0 : forall k, (0 <= k < 3)%Z -> is_partial k (combo ts) (fun _ _ _ => 0)).
  { intros k Hk x y z. apply (is_derive_eq _ _ (mode_fun k ts x y z)); [apply combo_partial, Hk|]. apply (mode_zero k h ts OK). assert (k = 0 \/ k = 1 \/ k = 2)%Z as [-> | [-> | ->]] by lia; lra. }
  pose proof (partials_zero_const _ Z0) as K. intros x y z. rewrite K. apply (mode_const 3 h ts OK). intros u v w. rewrite <- combo_mode. apply K.
Qed.
End Final.

(** ** Main results *)
Lemma definite_thm o h ts S : o = Overlap \/ o = Kinetic -> heap_wf h -> (forall t, In t ts -> bf_ok h t) ->
  (forall t t', In t ts -> In t' ts -> computed o h t t' (S t t')) ->
  0 <= quad ts S /\ (quad ts S = 0 -> forall x y z, combo ts x y z = 0).
Proof. intros [-> | ->] W OK HS; [apply (overlap_definite h)|apply (kinetic_definite h)]; assumption. Qed.

Lemma computed_exists o h t t' : heap_wf h -> bf_ok h t -> bf_ok h t' -> computed o h t t' (ovalue o (b_v t) (b_v t') (b_comp t) (b_comp t')).
Proof.
  intros W (S1 & L1 & X1 & B1) (S2 & L2 & X2 & B2). pose (M := aundef (A := R) [(v_size (b_v t) * v_size (b_v t'))%Z]).
  assert (F : fits M (b_v t) (b_v t')) by (exists (v_size (b_v t) * v_size (b_v t'))%Z; split; [reflexivity|lia]).
  destruct (oneel_ok o h _ _ _ _ _ _ M W S1 S2 L1 L2 F) as (M' & E' & _ & V). exists M, M'. split; [exact F|]. split; [exact E'|].
  apply V; apply nth_error_nth'; assumption.
Qed.

Definition setw (t : bfun) (w : R) : bfun := BF w (b_p t) (b_v t) (b_comps t) (b_m t).

Lemma cauchy_schwarz_thm o h t t' e e1 e2 : o = Overlap \/ o = Kinetic -> heap_wf h -> bf_ok h t -> bf_ok h t' ->
  computed o h t t' e -> computed o h t t e1 -> computed o h t' t' e2 -> e * e <= e1 * e2.
Proof.
  intros Ho W O1 O2 C C1 C2.
  assert (Q : forall x y, 0 <= x * x * e1 + 2 * (x * y) * e + y * y * e2).
  { intros x y. pose (S := fun u u' => ovalue o (b_v u) (b_v u') (b_comp u) (b_comp u')).
    assert (OK : forall u, In u [setw t x; setw t' y] -> bf_ok h u) by (intros u [<-|[<-|[]]]; assumption).
    destruct (definite_thm o h [setw t x; setw t' y] S Ho W OK) as (P & _).
    { intros u u' Hu Hu'. apply computed_exists; [exact W|apply OK, Hu|apply OK, Hu']. }
    pose proof (computed_value o h t t' e W O1 O2 C) as E. pose proof (computed_value o h t t e1 W O1 O1 C1) as E1. pose proof (computed_value o h t' t' e2 W O2 O2 C2) as E2. change (e = S t t') in E. change (e1 = S t t) in E1. change (e2 = S t' t') in E2.
    assert (E' : S t' t = S t t').
    { destruct O1 as (S1 & L1 & X1 & B1). destruct O2 as (S2 & L2 & X2 & B2). unfold S. rewrite (ovalue_swap o h (b_p t') (b_p t) _ _ _ _ _ _ S2 S1 X2 X1) by (apply nth_In; assumption). destruct Ho as [-> | ->]; cbn [osign]; ring. }
    unfold quad, lsum in P. cbn [fold_right] in P. change (S (setw t x) (setw t x)) with (S t t) in P. change (S (setw t x) (setw t' y)) with (S t t') in P. change (S (setw t' y) (setw t x)) with (S t' t) in P. change (S (setw t' y) (setw t' y)) with (S t' t') in P. cbn [setw b_w] in P. rewrite E' in P. rewrite E, E1, E2. lra. }
  pose proof (Q 1 0) as P1. pose proof (Q 0 1) as P2. destruct (Req_dec e2 0) as [Z|NZ].
  - subst e2. destruct (Req_dec e 0) as [->|N]; [lra|]. pose proof (Q 1 (- (e1 + 1) / (2 * e))) as P3. replace (2 * (1 * (- (e1 + 1) / (2 * e))) * e) with (- (e1 + 1)) in P3 by (field; exact N). lra.
  - pose proof (Q e2 (- e)) as P3. replace (e2 * e2 * e1 + 2 * (e2 * - e) * e + - e * - e * e2) with (e2 * (e1 * e2 - e * e)) in P3 by ring. assert (0 < e2) by lra. apply Rmult_le_reg_l with e2; [assumption|]. lra.
Qed.

(** ** An instance *)
Lemma s_value v x y z : (forall c a, In (c, a) (v_prims v) -> 0 < c) -> v_prims v <> [] -> 0 < phi_of v (0, 0, 0)%Z x y z.
Proof.
  intros Hc Hn. unfold phi_of, phi. assert (P : forall l, (forall c a, In (c, a) l -> 0 < c) -> 0 <= lsum (fun '(cf, a) => cf * norm_L (v_L v) a * gto (v_origin v) (0, 0, 0)%Z a x y z) l /\ (l <> [] -> 0 < lsum (fun '(cf, a) => cf * norm_L (v_L v) a * gto (v_origin v) (0, 0, 0)%Z a x y z) l)).
  { induction l as [|[c a] l IH]; intros H; [unfold lsum; cbn; split; [lra|congruence]|]. rewrite lsum_cons. destruct (IH (fun c a Hi => H c a (or_intror Hi))) as (I & _).
    assert (0 < c * norm_L (v_L v) a * gto (v_origin v) (0, 0, 0)%Z a x y z). { apply Rmult_lt_0_compat; [apply Rmult_lt_0_compat; [eapply H; left; reflexivity|apply norm_L_pos]|]. unfold gto. destruct (v_origin v) as [[ox oy] oz]. cbn [Z.to_nat pow]. rewrite !Rmult_1_l. apply exp_pos. }
    split; [lra|]. intros _. lra. }
  apply (P _ Hc), Hn.
Qed.
