(** * The Bessel functions in double precision: accuracy *)

From Coq Require Import ZArith List Bool Lia Reals Lra Factorial.
From Coquelicot Require Import Coquelicot.
From Verif Require Import Base OneElProofs Loops Sums GaussInt OvDeriv SpecModel SpecExp SpecSpec SpecBoys BoysThms BesselProofs BesselAsym BesselThms BesselOrders FloatBase FloatBessel.
Import ListNotations.
Open Scope R_scope.

(** one step of the recurrence in double precision *)
Definition fc1 (l : nat) : R := b64 (INR l / (2 * INR l + 1)).
Definition fc2 (l : nat) : R := b64 ((INR l + 1) / (2 * INR l + 1)).
Definition fstep (f : nat -> R) (l : nat) : R :=
  b64 (b64 (match l with O => 0 | S m => b64 (0 + b64 (fc1 l * f m)) end + b64 (fc2 l * f (S l))) - f l).

Lemma lam_ratio l : 0 <= INR l / (2 * INR l + 1) <= 1 / 2 /\ 0 <= (INR l + 1) / (2 * INR l + 1) <= 1 /\ INR l / (2 * INR l + 1) + (INR l + 1) / (2 * INR l + 1) = 1.
Proof.
  pose proof (pos_INR l). assert (0 < / (2 * INR l + 1)) by (apply Rinv_0_lt_compat; lra). assert (X : (2 * INR l + 1) * / (2 * INR l + 1) = 1) by (apply Rinv_r; lra). unfold Rdiv.
  set (a := INR l) in *. set (i := / (2 * a + 1)) in *. assert (0 <= a * i) by (apply Rmult_le_pos; lra). lra.
Qed.

Lemma fstep_near f l B : (forall m, Rabs (f m) <= B) -> 1 <= B <= 10 ^ 10 -> Rabs (fstep f l - bess_step f l) <= 8 * ulp1 * B.
Proof.
  intros H HB. destruct (lam_ratio l) as (C1 & C2 & CS). set (p := INR l / (2 * INR l + 1)) in *. set (q := (INR l + 1) / (2 * INR l + 1)) in *.
  assert (Z0 : forall x, Rabs (x - x) <= 0) by (intros x; rewrite Rminus_eq_0, Rabs_R0; lra).
  assert (P1 : Rabs (fc1 l - p) <= ulp1 * (1 / 2) + tiny) by (unfold fc1; fold p; eapply Rle_trans; [apply b64_err|]; rewrite (Rabs_pos_eq p) by lra; pose proof ulp1_pos; apply Rplus_le_compat_r, Rmult_le_compat_l; lra).
  assert (P2 : Rabs (fc2 l - q) <= ulp1 + tiny) by (unfold fc2; fold q; eapply Rle_trans; [apply b64_err|]; rewrite (Rabs_pos_eq q) by lra; pose proof ulp1_pos; apply Rplus_le_compat_r; rewrite <- (Rmult_1_r ulp1) at 2; apply Rmult_le_compat_l; lra).
  assert (Ap : Rabs p <= 1 / 2) by (rewrite Rabs_pos_eq; lra). assert (Aq : Rabs q <= 1) by (rewrite Rabs_pos_eq; lra).
  assert (T2 : Rabs (b64 (fc2 l * f (S l)) - q * f (S l)) <= (21 / 10 * ulp1) * B).
  { eapply (fmul (fc2 l) q (ulp1 + tiny) 1 (f (S l)) (f (S l)) 0 B); [exact P2|exact Aq|apply Z0|apply H|]. unfold ulp1, tiny. lra. }
  assert (T1 : Rabs (match l with O => 0 | S m => b64 (0 + b64 (fc1 l * f m)) end - match l with O => 0 | S m => p * f m end) <= (11 / 10 * ulp1) * B).
  { destruct l as [|m]; [rewrite Rminus_eq_0, Rabs_R0; unfold ulp1; lra|]. rewrite Rplus_0_l, b64_idem. eapply (fmul (fc1 (S m)) p (ulp1 * (1 / 2) + tiny) (1 / 2) (f m) (f m) 0 B); [exact P1|exact Ap|apply Z0|apply H|]. unfold ulp1, tiny. lra. }
  set (X1 := match l with O => 0 | S m => b64 (0 + b64 (fc1 l * f m)) end) in *. set (Y1 := match l with O => 0 | S m => p * f m end) in *. set (X2 := b64 (fc2 l * f (S l))) in *.
  assert (M1 : Rabs Y1 <= B / 2) by (unfold Y1; destruct l as [|m]; [rewrite Rabs_R0; lra|]; rewrite Rabs_mult; apply Rle_trans with (1 / 2 * B); [apply Rmult_le_compat; try apply Rabs_pos; [exact Ap|apply H]|lra]).
  assert (M2 : Rabs (q * f (S l)) <= B) by (rewrite Rabs_mult; apply Rle_trans with (1 * B); [apply Rmult_le_compat; try apply Rabs_pos; [exact Aq|apply H]|lra]).
  assert (M3 : Rabs (Y1 + q * f (S l)) <= 3 / 2 * B) by (eapply Rle_trans; [apply Rabs_triang|lra]).
  assert (T3 : Rabs (b64 (X1 + X2) - (Y1 + q * f (S l))) <= (48 / 10 * ulp1) * B) by (eapply (fadd X1 Y1 _ X2 (q * f (S l))); [exact T1|exact T2|exact M3|]; unfold ulp1, tiny; lra).
  assert (E : bess_step f l = (Y1 + q * f (S l)) - f l).
  { unfold Y1. destruct l as [|m]; cbn [bess_step]; [|reflexivity]. unfold q. cbn [INR]. field. }
  rewrite E. unfold fstep. fold X1 X2. pose proof (H l) as Hl. eapply (fsub (b64 (X1 + X2)) (Y1 + q * f (S l)) _ (f l) (f l) 0); [exact T3|apply Z0|eapply Rle_trans; [apply Rabs_triang|rewrite Rabs_Ropp; apply Rplus_le_compat; [exact M3|exact Hl]]|]. unfold ulp1, tiny. lra.
Qed.

Lemma fstep_bound f l B : (forall m, Rabs (f m) <= B) -> 1 <= B <= 10 ^ 10 -> Rabs (fstep f l) <= 3 * B.
Proof.
  intros H HB. pose proof (fstep_near f l B H HB) as N. pose proof (bess_step_bound f l B H) as S. replace (fstep f l) with (bess_step f l + (fstep f l - bess_step f l)) by ring.
  eapply Rle_trans; [apply Rabs_triang|]. unfold ulp1 in N. lra.
Qed.

(** what column k of a row holds *)
Fixpoint fcol (t : nat -> R) (k l : nat) : R :=
  match k with O => b64 (t l) | S k => if (l <? 55)%nat then fstep (fcol t k) l else 0 end.

Lemma fcol_high t k l : (0 < k)%nat -> (55 <= l)%nat -> fcol t k l = 0.
Proof. intros Hk Hl. destruct k as [|k]; [lia|]. cbn [fcol]. rewrite (proj2 (Nat.ltb_ge l 55)) by lia. reflexivity. Qed.

(** a row whose entries beyond the table are zero *)
Definition row (t : nat -> R) (l : nat) : R := if (l <? 60)%nat then t l else 0.


Lemma fcol_bound t B k : (forall l, Rabs (t l) <= B) -> 1 <= B <= 100 -> (k <= 4)%nat -> forall l, Rabs (fcol t k l) <= 3 ^ k * (2 * B).
Proof.
  intros H HB. induction k as [|k IH]; intros Hk l.
  - cbn [fcol pow]. pose proof (b64_err (t l)) as E. pose proof (H l) as Hl. replace (b64 (t l)) with (t l + (b64 (t l) - t l)) by ring. eapply Rle_trans; [apply Rabs_triang|]. unfold ulp1, tiny in E. lra.
  - cbn [fcol]. assert (1 <= 3 ^ k) by (apply pow_R1_Rle; lra). assert (3 ^ k <= 27) by (replace 27 with (3 ^ 3) by ring; apply Rle_pow; [lra|lia]). assert (X : 1 * (2 * B) <= 3 ^ k * (2 * B)) by (apply Rmult_le_compat_r; lra). assert (Y : 3 ^ k * (2 * B) <= 27 * (2 * B)) by (apply Rmult_le_compat_r; lra).
    destruct (l <? 55)%nat; [|rewrite Rabs_R0; cbn [pow]; lra]. cbn [pow]. rewrite Rmult_assoc. apply fstep_bound; [intros m; apply IH; lia|lra].
Qed.

Lemma fl_small x : Rabs x <= 10 ^ 20 -> fl x = Ok (b64 x).
Proof. intros H. apply fl_ok. eapply Rle_trans; [exact H|]. apply Rle_pow; [lra|lia]. Qed.

Lemma b64_small x M : Rabs x <= M -> 1 <= M -> Rabs (b64 x) <= 2 * M.
Proof.
  intros H HM. pose proof (b64_err x) as E. replace (b64 x) with (x + (b64 x - x)) by ring. eapply Rle_trans; [apply Rabs_triang|]. assert (ulp1 * Rabs x <= 1 / 10 * M) by (apply Rmult_le_compat; [unfold ulp1; lra|apply Rabs_pos|unfold ulp1; lra|exact H]). unfold tiny in E. lra.
Qed.

Definition ffilled (t0 : Z -> nat -> R) (i k lam : Z) (tab : arr R) : Prop :=
  adims tab = [2000; 60; 10]%Z /\
  forall i' l k', (0 <= i' < 1601)%Z -> (0 <= l < 60)%Z -> (0 <= k' < 5)%Z ->
    aget tab [i'; l; k'] = Ok (if ((i' <? i) || ((i' =? i) && ((k' <? k) || ((k' =? k) && (l <? lam)))))%Z then fcol (t0 i') (Z.to_nat k') (Z.to_nat l) else 0).

Lemma ffilled_set t0 i k lam tab v : (0 <= i < 1601)%Z -> (0 <= lam < 60)%Z -> (0 <= k < 5)%Z -> ffilled t0 i k lam tab -> v = fcol (t0 i) (Z.to_nat k) (Z.to_nat lam) ->
  exists tab', aset tab [i; lam; k] v = Ok tab' /\ ffilled t0 i k (lam + 1) tab'.
Proof.
  intros Hi Hl Hk (D & C) Hv. destruct (aset_get tab [i; lam; k] v) as (tab' & E & D' & G & O); [rewrite D; apply inb3; lia|]. exists tab'. split; [exact E|]. split; [congruence|].
  intros i' l k' Hi' Hl' Hk'. destruct (list_eq_dec Z.eq_dec [i'; l; k'] [i; lam; k]) as [Q|Q].
  - injection Q as -> -> ->. rewrite G, Hv. replace (_ || _) with true; [reflexivity|]. symmetry. rewrite orb_true_iff, andb_true_iff, orb_true_iff, andb_true_iff, !Z.eqb_eq, !Z.ltb_lt. lia.
  - rewrite O by exact Q. rewrite C by assumption. f_equal.
    replace ((i' <? i) || ((i' =? i) && ((k' <? k) || ((k' =? k) && (l <? lam + 1)))))%Z with ((i' <? i) || ((i' =? i) && ((k' <? k) || ((k' =? k) && (l <? lam)))))%Z; [reflexivity|].
    apply eq_true_iff_eq. rewrite !orb_true_iff, !andb_true_iff, !orb_true_iff, !andb_true_iff, !Z.eqb_eq, !Z.ltb_lt. assert (~ (i' = i /\ l = lam /\ k' = k)%Z) by (intros (-> & -> & ->); apply Q; reflexivity). lia.
Qed.

Lemma ffilled_ext t0 i k lam i2 k2 lam2 tab : ffilled t0 i k lam tab ->
  (forall i' l k', (0 <= i' < 1601)%Z -> (0 <= l < 60)%Z -> (0 <= k' < 5)%Z ->
     (if ((i' <? i) || ((i' =? i) && ((k' <? k) || ((k' =? k) && (l <? lam)))))%Z then fcol (t0 i') (Z.to_nat k') (Z.to_nat l) else 0) =
     (if ((i' <? i2) || ((i' =? i2) && ((k' <? k2) || ((k' =? k2) && (l <? lam2)))))%Z then fcol (t0 i') (Z.to_nat k') (Z.to_nat l) else 0)) -> ffilled t0 i2 k2 lam2 tab.
Proof. intros (D & C) H. split; [exact D|]. intros i' l k' Hi Hl Hk. rewrite C by assumption. f_equal. apply H; assumption. Qed.

Lemma fderivative_ok t0 B i k lam tab : (0 <= i < 1601)%Z -> (0 <= lam < 55)%Z -> (1 <= k < 5)%Z -> ffilled t0 i k lam tab -> (forall l, Rabs (t0 i l) <= B) -> 1 <= B <= 100 ->
  fl_derivative tab k lam i = Ok (fcol (t0 i) (Z.to_nat k) (Z.to_nat lam)).
Proof.
  intros Hi Hl Hk (D & C) HB B1. unfold fl_derivative. rewrite (proj2 (Z.eqb_neq k 0)) by lia.
  assert (G : forall l, (0 <= l < 60)%Z -> aget tab [i; l; k - 1]%Z = Ok (fcol (t0 i) (Z.to_nat (k - 1)) (Z.to_nat l))).
  { intros l Hl'. rewrite C by lia. f_equal. replace (_ || _) with true; [reflexivity|]. symmetry. rewrite !orb_true_iff, !andb_true_iff, !orb_true_iff, !andb_true_iff, !Z.eqb_eq, !Z.ltb_lt. lia. }
  assert (Bd : forall l, Rabs (fcol (t0 i) (Z.to_nat (k - 1)) l) <= 20000).
  { intros l. eapply Rle_trans; [apply (fcol_bound (t0 i) B); [exact HB|exact B1|lia]|]. apply Rle_trans with (3 ^ 4 * (2 * B)); [apply Rmult_le_compat_r; [lra|apply Rle_pow; [lra|lia]]|lra]. }
  replace (Z.to_nat k) with (S (Z.to_nat (k - 1))) by lia. cbn [fcol]. set (j := Z.to_nat (k - 1)) in *. rewrite (proj2 (Nat.ltb_lt (Z.to_nat lam) 55)) by lia.
  set (f := fcol (t0 i) j) in *. set (L := Z.to_nat lam). destruct (lam_ratio L) as (C1 & C2 & _).
  assert (EL : IZR lam = INR L) by (unfold L; rewrite INR_IZR_INZ; f_equal; lia).
  assert (E2 : fl (2 * IZR lam) = Ok (IZR (2 * lam))) by (rewrite <- mult_IZR; apply fl_int; lia).
  assert (E3 : fl (IZR (2 * lam) + 1) = Ok (2 * INR L + 1)) by (rewrite <- plus_IZR, fl_int by lia; f_equal; rewrite plus_IZR, mult_IZR, EL; reflexivity).
  assert (E4 : fl (IZR lam + 1) = Ok (INR L + 1)) by (rewrite <- plus_IZR, fl_int by lia; f_equal; rewrite plus_IZR, EL; reflexivity).
  assert (E5 : fl ((INR L + 1) / (2 * INR L + 1)) = Ok (fc2 L)) by (apply fl_small; rewrite Rabs_pos_eq by lra; lra).
  assert (B5 : Rabs (fc2 L) <= 2) by (eapply Rle_trans; [apply (b64_small _ 1); [rewrite Rabs_pos_eq; lra|lra]|lra]).
  assert (M5 : Rabs (fc2 L * f (S L)) <= 2 * 20000) by (apply mult_bound; [exact B5|apply Bd]).
  assert (E6 : fl (fc2 L * f (S L)) = Ok (b64 (fc2 L * f (S L)))) by (apply fl_small; lra).
  assert (M6 : Rabs (b64 (fc2 L * f (S L))) <= 80000) by (eapply Rle_trans; [apply (b64_small _ (2 * 20000)); [exact M5|lra]|lra]).
  assert (E1 : (if (lam >? 0)%Z then let* l2 := fl (2 * IZR lam) in let* den := fl (l2 + 1) in let* q := fl (IZR lam / den) in let* t := aget tab [i; lam - 1; k - 1]%Z in let* p := fl (q * t) in fl (0 + p) else Ok 0)
    = Ok (match L with O => 0 | S m => b64 (0 + b64 (fc1 L * f m)) end) /\ Rabs (match L with O => 0 | S m => b64 (0 + b64 (fc1 L * f m)) end) <= 200000).
  { destruct (Z.eq_dec lam 0) as [E0|N].
    - unfold L. rewrite E0. change (0 >? 0)%Z with false. cbn iota. change (Z.to_nat 0) with O. split; [reflexivity|rewrite Rabs_R0; lra].
    - rewrite (proj2 (Z.gtb_gt lam 0)) by lia. rewrite E2. cbn [bind]. rewrite E3. cbn [bind]. rewrite EL.
      assert (E7 : fl (INR L / (2 * INR L + 1)) = Ok (fc1 L)) by (apply fl_small; rewrite Rabs_pos_eq by lra; lra). rewrite E7. cbn [bind]. rewrite G by lia. cbn [bind].
      assert (B7 : Rabs (fc1 L) <= 2) by (eapply Rle_trans; [apply (b64_small _ 1); [rewrite Rabs_pos_eq; lra|lra]|lra]).
      replace (Z.to_nat (lam - 1)) with (pred L) by (unfold L; lia). destruct L as [|m] eqn:EqL; [unfold L in EqL; lia|]. cbn [pred].
      assert (M7 : Rabs (fc1 (S m) * f m) <= 2 * 20000) by (apply mult_bound; [exact B7|apply Bd]). rewrite fl_small by lra. cbn [bind].
      assert (M8 : Rabs (b64 (fc1 (S m) * f m)) <= 80000) by (eapply Rle_trans; [apply (b64_small _ (2 * 20000)); [exact M7|lra]|lra]).
      assert (M9 : Rabs (0 + b64 (fc1 (S m) * f m)) <= 80000) by (rewrite Rplus_0_l; exact M8). split; [apply fl_small; lra|]. eapply Rle_trans; [apply (b64_small _ 80000); [exact M9|lra]|lra]. }
  destruct E1 as (E1 & M1). rewrite E1. cbn [bind]. rewrite E4. cbn [bind]. rewrite E2. cbn [bind]. rewrite E3. cbn [bind]. rewrite E5. cbn [bind]. rewrite (G (lam + 1)%Z) by lia. cbn [bind].
  replace (Z.to_nat (lam + 1)) with (S L) by (unfold L; lia). fold f. rewrite E6. cbn [bind].
  set (X1 := match L with O => 0 | S m => b64 (0 + b64 (fc1 L * f m)) end) in *. set (X2 := b64 (fc2 L * f (S L))) in *.
  assert (M : Rabs (X1 + X2) <= 280000) by (eapply Rle_trans; [apply Rabs_triang|lra]). rewrite fl_small by lra. cbn [bind]. rewrite (G lam) by lia. cbn [bind]. fold L f.
  assert (M' : Rabs (b64 (X1 + X2)) <= 560000) by (eapply Rle_trans; [apply (b64_small _ 280000); [exact M|lra]|lra]).
  rewrite fl_small; [reflexivity|]. eapply Rle_trans; [apply Rabs_triang|]. rewrite Rabs_Ropp. pose proof (Bd L). lra.
Qed.

Lemma fpretabulate_ok tab0 t0 B : holds_table0 tab0 t0 -> (forall i l, (0 <= i < 1601)%Z -> Rabs (t0 i l) <= B) -> 1 <= B <= 100 ->
  exists tab, fl_pretabulate tab0 bessel_table_init = Ok tab /\ adims tab = [2000; 60; 10]%Z /\
    forall i l k, (0 <= i < 1601)%Z -> (0 <= l < 60)%Z -> (0 <= k < 5)%Z -> aget tab [i; l; k] = Ok (fcol (t0 i) (Z.to_nat k) (Z.to_nat l)).
Proof.
  intros H0 HB B1. unfold fl_pretabulate.
  match goal with |- exists tab, for_range 0 1601 ?b ?s = _ /\ _ => destruct (for_range_ok (fun i tab => ffilled t0 i 0 0 tab) 0 1601 b s ltac:(lia)) as (tab & E & D & C) end.
  - split; [reflexivity|]. intros i' l k' Hi Hl Hk. unfold aget, bessel_table_init, aconst. cbn [adims acell]. replace (inb _ _) with true by (symmetry; apply inb3; lia).
    replace (_ || _) with false; [reflexivity|]. symmetry. apply not_true_iff_false. rewrite orb_true_iff, andb_true_iff, orb_true_iff, andb_true_iff, !Z.eqb_eq, !Z.ltb_lt. lia.
  - intros i tab Hi F.
    match goal with |- exists s', (let* t := for_range 0 60 ?b ?s in _) = _ /\ _ => destruct (for_range_ok (fun lam tab => ffilled t0 i 0 lam tab) 0 60 b s ltac:(lia) F) as (t1 & E1 & F1) end.
    { intros l tab1 Hl F1. rewrite H0 by lia. cbn [bind]. rewrite fl_ok by (eapply Rle_trans; [apply (HB i (Z.to_nat l)); lia|]; apply Rle_trans with (10 ^ 2); [lra|apply Rle_pow; [lra|lia]]). cbn [bind]. apply ffilled_set; [lia|lia|lia|exact F1|reflexivity]. }
    rewrite E1. cbn [bind].
    match goal with |- exists s', for_range 1 5 ?b ?s = _ /\ _ => destruct (for_range_ok (fun k tab => ffilled t0 i k 0 tab) 1 5 b s ltac:(lia)) as (t2 & E2 & F2) end.
    + apply (ffilled_ext _ _ _ _ _ _ _ _ F1). intros i' l k' Hi' Hl' Hk'.
      replace ((i' <? i) || ((i' =? i) && ((k' <? 1) || ((k' =? 1) && (l <? 0)))))%Z with ((i' <? i) || ((i' =? i) && ((k' <? 0) || ((k' =? 0) && (l <? 60)))))%Z; [reflexivity|].
      apply eq_true_iff_eq. rewrite !orb_true_iff, !andb_true_iff, !orb_true_iff, !andb_true_iff, !Z.eqb_eq, !Z.ltb_lt. lia.
    + intros k tab2 Hk F2.
      match goal with |- exists s', for_range 0 55 ?b ?s = _ /\ _ => destruct (for_range_ok (fun lam tab => ffilled t0 i k lam tab) 0 55 b s ltac:(lia) F2) as (t3 & E3 & F3) end.
      { intros l tab3 Hl F3. rewrite (fderivative_ok t0 B i k l tab3) by (assumption || lia || (intros; apply HB; lia)). cbn [bind]. apply ffilled_set; [lia|lia|lia|exact F3|reflexivity]. }
      exists t3. split; [exact E3|]. apply (ffilled_ext _ _ _ _ _ _ _ _ F3). intros i' l k' Hi' Hl' Hk'.
      destruct (Z_lt_dec l 55) as [L|L].
      * replace ((i' <? i) || ((i' =? i) && ((k' <? k + 1) || ((k' =? k + 1) && (l <? 0)))))%Z with ((i' <? i) || ((i' =? i) && ((k' <? k) || ((k' =? k) && (l <? 55)))))%Z; [reflexivity|].
        apply eq_true_iff_eq. rewrite !orb_true_iff, !andb_true_iff, !orb_true_iff, !andb_true_iff, !Z.eqb_eq, !Z.ltb_lt. lia.
      * destruct (Z.eq_dec k' k) as [-> |Nk].
        -- rewrite fcol_high by lia. destruct (_ || _), (_ || _); reflexivity.
        -- replace ((i' <? i) || ((i' =? i) && ((k' <? k + 1) || ((k' =? k + 1) && (l <? 0)))))%Z with ((i' <? i) || ((i' =? i) && ((k' <? k) || ((k' =? k) && (l <? 55)))))%Z; [reflexivity|].
           apply eq_true_iff_eq. rewrite !orb_true_iff, !andb_true_iff, !orb_true_iff, !andb_true_iff, !Z.eqb_eq, !Z.ltb_lt. lia.
    + exists t2. split; [exact E2|]. apply (ffilled_ext _ _ _ _ _ _ _ _ F2). intros i' l k' Hi' Hl' Hk'.
      replace ((i' <? i + 1) || ((i' =? i + 1) && ((k' <? 0) || ((k' =? 0) && (l <? 0)))))%Z with ((i' <? i) || ((i' =? i) && ((k' <? 5) || ((k' =? 5) && (l <? 0)))))%Z; [reflexivity|].
      apply eq_true_iff_eq. rewrite !orb_true_iff, !andb_true_iff, !orb_true_iff, !andb_true_iff, !Z.eqb_eq, !Z.ltb_lt. lia.
  - exists tab. split; [exact E|]. split; [exact D|]. intros i l k Hi Hl Hk. rewrite C by assumption. f_equal. rewrite (proj2 (Z.ltb_lt i 1601)) by lia. reflexivity.
Qed.

(** errors of the columns *)
Lemma fcol_error t f B eps : (forall l, Rabs (t l) <= B) -> 1 <= B <= 2 -> (forall l, (l < 60)%nat -> Rabs (t l - f l) <= eps) -> forall k l, (k <= 4)%nat -> (l + k <= 55)%nat -> (k = 0 \/ l < 55)%nat ->
  Rabs (fcol t k l - (Nat.iter k (fun g => bess_step g) f) l) <= 2 ^ k * (eps + 3 * ulp1) + 64 * 4 ^ k * ulp1.
Proof.
  intros HB B1 H. assert (E0 : 0 <= eps) by (eapply Rle_trans; [apply Rabs_pos|apply (H O); lia]). pose proof ulp1_pos as U. induction k as [|k IH]; intros l Hk4 Hl Hc.
  - cbn [fcol Nat.iter nat_rect pow]. pose proof (H l ltac:(lia)) as Hl'. pose proof (b64_err (t l)) as E. pose proof (HB l) as Hb. assert (ulp1 * Rabs (t l) <= ulp1 * 2) by (apply Rmult_le_compat_l; lra). replace (b64 (t l) - f l) with ((b64 (t l) - t l) + (t l - f l)) by ring.
    eapply Rle_trans; [apply Rabs_triang|]. unfold tiny, ulp1 in *. lra.
  - cbn [fcol]. rewrite (proj2 (Nat.ltb_lt l 55)) by lia. change (Nat.iter (S k) (fun g => bess_step g) f) with (bess_step (Nat.iter k (fun g => bess_step g) f)).
    set (g := Nat.iter k (fun g => bess_step g) f) in *. set (ek := 2 ^ k * (eps + 3 * ulp1) + 64 * 4 ^ k * ulp1) in *.
    assert (P2 : 0 <= 2 ^ k) by (apply pow_le; lra). assert (P4 : 0 <= 4 ^ k) by (apply pow_le; lra). assert (E1 : 0 <= ek) by (unfold ek; apply Rplus_le_le_0_compat; [apply Rmult_le_pos; lra|apply Rmult_le_pos; lra]).
    assert (B3 : forall m, Rabs (fcol t k m) <= 3 ^ k * 4) by (intros m; eapply Rle_trans; [apply (fcol_bound t B k HB ltac:(lra) ltac:(lia))|apply Rmult_le_compat_l; [apply pow_le; lra|lra]]).
    assert (K3 : 1 <= 3 ^ k * 4 <= 10 ^ 10) by (split; [assert (1 <= 3 ^ k) by (apply pow_R1_Rle; lra); lra|]; apply Rle_trans with (3 ^ 3 * 4); [apply Rmult_le_compat_r; [lra|apply Rle_pow; [lra|lia]]|lra]).
    pose proof (fstep_near (fcol t k) l (3 ^ k * 4) B3 K3) as N. assert (K34 : 3 ^ k <= 4 ^ k) by (apply pow_incr; lra).
    assert (N' : 8 * ulp1 * (3 ^ k * 4) <= 128 * 4 ^ k * ulp1) by (replace (8 * ulp1 * (3 ^ k * 4)) with (32 * ulp1 * 3 ^ k) by ring; apply Rle_trans with (32 * ulp1 * 4 ^ k); [apply Rmult_le_compat_l; lra|]; assert (0 <= 4 ^ k * ulp1) by (apply Rmult_le_pos; lra); lra).
    set (h := fun m => if (m + k <=? 55)%nat then fcol t k m - g m else 0).
    assert (Hh : forall m, Rabs (h m) <= ek).
    { intros m. unfold h. destruct (m + k <=? 55)%nat eqn:Q; [|rewrite Rabs_R0; exact E1]. apply Nat.leb_le in Q. apply IH; [lia|exact Q|]. destruct k; [left; reflexivity|right; lia]. }
    assert (S : bess_step (fcol t k) l - bess_step g l = bess_step h l).
    { assert (Hm : forall m, (m <= S l)%nat -> h m = fcol t k m - g m) by (intros m Hm; unfold h; rewrite (proj2 (Nat.leb_le (m + k) 55)) by lia; reflexivity). destruct l as [|m]; cbn [bess_step]; rewrite !Hm by lia; ring. }
    pose proof (bess_step_bound h l ek Hh) as T. rewrite <- S in T. replace (fstep (fcol t k) l - bess_step g l) with ((fstep (fcol t k) l - bess_step (fcol t k) l) + (bess_step (fcol t k) l - bess_step g l)) by ring.
    eapply Rle_trans; [apply Rabs_triang|]. eapply Rle_trans; [apply Rplus_le_compat; [exact N|exact T]|]. unfold ek. cbn [pow]. assert (0 <= 4 ^ k * ulp1) by (apply Rmult_le_pos; lra). lra.
Qed.
