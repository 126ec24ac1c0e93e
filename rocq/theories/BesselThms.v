(** * The Bessel table, its derivative columns, and the accuracy of modified_bessel_scaled *)

From Coq Require Import ZArith List Bool Lia Reals Lra Factorial.
From Coquelicot Require Import Coquelicot.
From Verif Require Import Base OneElProofs Loops Sums GaussInt OvDeriv SpecModel SpecExp SpecSpec SpecBoys BoysThms BesselProofs BesselAsym.
Import ListNotations.
Open Scope R_scope.

(** bessel_table_0 holds the values t0 *)
Definition holds_table0 (tab0 : arr R) (t0 : Z -> nat -> R) : Prop :=
  forall i l, (0 <= i < 1601)%Z -> (0 <= l < 60)%Z -> aget tab0 [i; l] = Ok (t0 i (Z.to_nat l)).

(** what column k of row i holds *)
Fixpoint col (t : nat -> R) (k l : nat) : R :=
  match k with O => t l | S k => if (l <? 55)%nat then bess_step (col t k) l else 0 end.

Definition filled (t0 : Z -> nat -> R) (i k lam : Z) (tab : arr R) : Prop :=
  adims tab = [2000; 60; 10]%Z /\
  forall i' l k', (0 <= i' < 1601)%Z -> (0 <= l < 60)%Z -> (0 <= k' < 5)%Z ->
    aget tab [i'; l; k'] = Ok (if ((i' <? i) || ((i' =? i) && ((k' <? k) || ((k' =? k) && (l <? lam)))))%Z then col (t0 i') (Z.to_nat k') (Z.to_nat l) else 0).

Lemma filled_set t0 i k lam tab v : (0 <= i < 1601)%Z -> (0 <= lam < 60)%Z -> (0 <= k < 5)%Z -> filled t0 i k lam tab -> v = col (t0 i) (Z.to_nat k) (Z.to_nat lam) ->
  exists tab', aset tab [i; lam; k] v = Ok tab' /\ filled t0 i k (lam + 1) tab'.
Proof.
  intros Hi Hl Hk (D & C) Hv. destruct (aset_get tab [i; lam; k] v) as (tab' & E & D' & G & O); [rewrite D; apply inb3; lia|]. exists tab'. split; [exact E|]. split; [congruence|].
  intros i' l k' Hi' Hl' Hk'. destruct (list_eq_dec Z.eq_dec [i'; l; k'] [i; lam; k]) as [Q|Q].
  - injection Q as -> -> ->. rewrite G, Hv. replace (_ || _) with true; [reflexivity|]. symmetry. rewrite orb_true_iff, andb_true_iff, orb_true_iff, andb_true_iff, !Z.eqb_eq, !Z.ltb_lt. lia.
  - rewrite O by exact Q. rewrite C by assumption. f_equal.
    replace ((i' <? i) || ((i' =? i) && ((k' <? k) || ((k' =? k) && (l <? lam + 1)))))%Z with ((i' <? i) || ((i' =? i) && ((k' <? k) || ((k' =? k) && (l <? lam)))))%Z; [reflexivity|].
    apply eq_true_iff_eq. rewrite !orb_true_iff, !andb_true_iff, !orb_true_iff, !andb_true_iff, !Z.eqb_eq, !Z.ltb_lt. assert (~ (i' = i /\ l = lam /\ k' = k)%Z) by (intros (-> & -> & ->); apply Q; reflexivity). lia.
Qed.

Lemma filled_ext t0 i k lam i2 k2 lam2 tab : filled t0 i k lam tab ->
  (forall i' l k', (0 <= i' < 1601)%Z -> (0 <= l < 60)%Z -> (0 <= k' < 5)%Z ->
     (if ((i' <? i) || ((i' =? i) && ((k' <? k) || ((k' =? k) && (l <? lam)))))%Z then col (t0 i') (Z.to_nat k') (Z.to_nat l) else 0) =
     (if ((i' <? i2) || ((i' =? i2) && ((k' <? k2) || ((k' =? k2) && (l <? lam2)))))%Z then col (t0 i') (Z.to_nat k') (Z.to_nat l) else 0)) -> filled t0 i2 k2 lam2 tab.
Proof. intros (D & C) H. split; [exact D|]. intros i' l k' Hi Hl Hk. rewrite C by assumption. f_equal. apply H; assumption. Qed.

Lemma derivative_ok t0 i k lam tab : (0 <= i < 1601)%Z -> (0 <= lam < 55)%Z -> (1 <= k < 5)%Z -> filled t0 i k lam tab ->
  bessel_derivative tab k lam i = Ok (col (t0 i) (Z.to_nat k) (Z.to_nat lam)).
Proof.
  intros Hi Hl Hk (D & C). unfold bessel_derivative. rewrite (proj2 (Z.eqb_neq k 0)) by lia.
  assert (G : forall l, (0 <= l < 60)%Z -> aget tab [i; l; k - 1]%Z = Ok (col (t0 i) (Z.to_nat (k - 1)) (Z.to_nat l))).
  { intros l Hl'. rewrite C by lia. f_equal. replace (_ || _) with true; [reflexivity|]. symmetry. rewrite !orb_true_iff, !andb_true_iff, !orb_true_iff, !andb_true_iff, !Z.eqb_eq, !Z.ltb_lt. lia. }
  replace (Z.to_nat k) with (S (Z.to_nat (k - 1))) by lia. cbn [col]. set (j := Z.to_nat (k - 1)) in *. rewrite (proj2 (Nat.ltb_lt (Z.to_nat lam) 55)) by lia.
  rewrite (G (lam + 1)%Z), (G lam) by lia. destruct (Z.eq_dec lam 0) as [-> |N].
  - change (0 >? 0)%Z with false. cbn [bind Z.to_nat bess_step]. f_equal. change (Z.to_nat (0 + 1)) with 1%nat. field.
  - rewrite (proj2 (Z.gtb_gt lam 0)) by lia. rewrite (G (lam - 1)%Z) by lia. cbn [bind]. f_equal. set (m := Z.to_nat (lam - 1)). replace (Z.to_nat lam) with (S m) by lia. replace (Z.to_nat (lam + 1)) with (S (S m)) by lia. cbn [bess_step].
    replace (IZR lam) with (INR (S m)) by (rewrite INR_IZR_INZ; f_equal; lia). reflexivity.
Qed.

Lemma col_high t k l : (0 < k)%nat -> (55 <= l)%nat -> col t k l = 0.
Proof. intros Hk Hl. destruct k as [|k]; [lia|]. cbn [col]. rewrite (proj2 (Nat.ltb_ge l 55)) by lia. reflexivity. Qed.

Lemma pretabulate_ok tab0 t0 : holds_table0 tab0 t0 ->
  exists tab, pretabulate_bessel tab0 bessel_table_init = Ok tab /\ adims tab = [2000; 60; 10]%Z /\
    forall i l k, (0 <= i < 1601)%Z -> (0 <= l < 60)%Z -> (0 <= k < 5)%Z -> aget tab [i; l; k] = Ok (col (t0 i) (Z.to_nat k) (Z.to_nat l)).
Proof.
  intros H0. unfold pretabulate_bessel.
  match goal with |- exists tab, for_range 0 1601 ?b ?s = _ /\ _ => destruct (for_range_ok (fun i tab => filled t0 i 0 0 tab) 0 1601 b s ltac:(lia)) as (tab & E & D & C) end.
  - split; [reflexivity|]. intros i' l k' Hi Hl Hk. unfold aget, bessel_table_init, aconst. cbn [adims acell]. replace (inb _ _) with true by (symmetry; apply inb3; lia).
    replace (_ || _) with false; [reflexivity|]. symmetry. apply not_true_iff_false. rewrite orb_true_iff, andb_true_iff, orb_true_iff, andb_true_iff, !Z.eqb_eq, !Z.ltb_lt. lia.
  - intros i tab Hi F.
    match goal with |- exists s', (let* t := for_range 0 60 ?b ?s in _) = _ /\ _ => destruct (for_range_ok (fun lam tab => filled t0 i 0 lam tab) 0 60 b s ltac:(lia) F) as (t1 & E1 & F1) end.
    { intros l tab1 Hl F1. rewrite H0 by lia. cbn [bind]. apply filled_set; [lia|lia|lia|exact F1|reflexivity]. }
    rewrite E1. cbn [bind].
    match goal with |- exists s', for_range 1 5 ?b ?s = _ /\ _ => destruct (for_range_ok (fun k tab => filled t0 i k 0 tab) 1 5 b s ltac:(lia)) as (t2 & E2 & F2) end.
    + apply (filled_ext _ _ _ _ _ _ _ _ F1). intros i' l k' Hi' Hl' Hk'.
      replace ((i' <? i) || ((i' =? i) && ((k' <? 1) || ((k' =? 1) && (l <? 0)))))%Z with ((i' <? i) || ((i' =? i) && ((k' <? 0) || ((k' =? 0) && (l <? 60)))))%Z; [reflexivity|].
      apply eq_true_iff_eq. rewrite !orb_true_iff, !andb_true_iff, !orb_true_iff, !andb_true_iff, !Z.eqb_eq, !Z.ltb_lt. lia.
    + intros k tab2 Hk F2.
      match goal with |- exists s', for_range 0 55 ?b ?s = _ /\ _ => destruct (for_range_ok (fun lam tab => filled t0 i k lam tab) 0 55 b s ltac:(lia) F2) as (t3 & E3 & F3) end.
      { intros l tab3 Hl F3. rewrite (derivative_ok t0 i k l tab3) by (assumption || lia). cbn [bind]. apply filled_set; [lia|lia|lia|exact F3|reflexivity]. }
      exists t3. split; [exact E3|]. apply (filled_ext _ _ _ _ _ _ _ _ F3). intros i' l k' Hi' Hl' Hk'.
      destruct (Z_lt_dec l 55) as [L|L].
      * replace ((i' <? i) || ((i' =? i) && ((k' <? k + 1) || ((k' =? k + 1) && (l <? 0)))))%Z with ((i' <? i) || ((i' =? i) && ((k' <? k) || ((k' =? k) && (l <? 55)))))%Z; [reflexivity|].
        apply eq_true_iff_eq. rewrite !orb_true_iff, !andb_true_iff, !orb_true_iff, !andb_true_iff, !Z.eqb_eq, !Z.ltb_lt. lia.
      * destruct (Z.eq_dec k' k) as [-> |Nk].
        -- rewrite col_high by lia. destruct (_ || _), (_ || _); reflexivity.
        -- replace ((i' <? i) || ((i' =? i) && ((k' <? k + 1) || ((k' =? k + 1) && (l <? 0)))))%Z with ((i' <? i) || ((i' =? i) && ((k' <? k) || ((k' =? k) && (l <? 55)))))%Z; [reflexivity|].
           apply eq_true_iff_eq. rewrite !orb_true_iff, !andb_true_iff, !orb_true_iff, !andb_true_iff, !Z.eqb_eq, !Z.ltb_lt. lia.
    + exists t2. split; [exact E2|]. apply (filled_ext _ _ _ _ _ _ _ _ F2). intros i' l k' Hi' Hl' Hk'.
      replace ((i' <? i + 1) || ((i' =? i + 1) && ((k' <? 0) || ((k' =? 0) && (l <? 0)))))%Z with ((i' <? i) || ((i' =? i) && ((k' <? 5) || ((k' =? 5) && (l <? 0)))))%Z; [reflexivity|].
      apply eq_true_iff_eq. rewrite !orb_true_iff, !andb_true_iff, !orb_true_iff, !andb_true_iff, !Z.eqb_eq, !Z.ltb_lt. lia.
  - exists tab. split; [exact E|]. split; [exact D|]. intros i l k Hi Hl Hk. rewrite C by assumption. f_equal. rewrite (proj2 (Z.ltb_lt i 1601)) by lia. reflexivity.
Qed.

(** the columns hold the derivatives of the tabulated values, as long as the recurrence does not leave the table *)
Lemma col_error t f eps : (forall l, (l < 60)%nat -> Rabs (t l - f l) <= eps) -> forall k l, (l + k <= 55)%nat -> (k = 0 \/ l < 55)%nat ->
  Rabs (col t k l - (Nat.iter k (fun g => bess_step g) f) l) <= 2 ^ k * eps.
Proof.
  intros H. assert (E0 : 0 <= eps) by (eapply Rle_trans; [apply Rabs_pos|apply (H O); lia]). induction k as [|k IH]; intros l Hl Hc.
  - cbn [col Nat.iter nat_rect pow]. rewrite Rmult_1_l. apply H. lia.
  - cbn [col]. rewrite (proj2 (Nat.ltb_lt l 55)) by lia. change (Nat.iter (S k) (fun g => bess_step g) f) with (bess_step (Nat.iter k (fun g => bess_step g) f)).
    set (g := Nat.iter k (fun g => bess_step g) f) in *. assert (E1 : 0 <= 2 ^ k * eps) by (apply Rmult_le_pos; [apply pow_le; lra|exact E0]).
    set (h := fun m => if (m + k <=? 55)%nat then col t k m - g m else 0).
    assert (Hh : forall m, Rabs (h m) <= 2 ^ k * eps).
    { intros m. unfold h. destruct (m + k <=? 55)%nat eqn:Q; [|rewrite Rabs_R0; exact E1]. apply Nat.leb_le in Q. apply IH; [exact Q|]. destruct k; [left; reflexivity|right; lia]. }
    replace (bess_step (col t k) l - bess_step g l) with (bess_step h l); [cbn [pow]; rewrite Rmult_assoc; apply bess_step_bound; exact Hh|].
    assert (Hm : forall m, (m <= S l)%nat -> h m = col t k m - g m) by (intros m Hm; unfold h; rewrite (proj2 (Nat.leb_le (m + k) 55)) by lia; reflexivity).
    destruct l as [|m]; cbn [bess_step]; rewrite !Hm by lia; ring.
Qed.

Lemma bessD_iter k n x : bessD k n x = Nat.iter k (fun g => bess_step g) (fun m => bessK m x) n.
Proof.
  revert n. induction k as [|k IH]; intros n; [reflexivity|]. cbn [bessD]. change (Nat.iter (S k) (fun g => bess_step g) (fun m => bessK m x) n) with (bess_step (Nat.iter k (fun g => bess_step g) (fun m => bessK m x)) n).
  destruct n as [|m]; cbn [bess_step]; rewrite !IH; reflexivity.
Qed.

(** bessel_table_0 holds the function values to within eps *)
Definition accurate_table0 (t0 : Z -> nat -> R) (eps : R) : Prop := forall i l, (0 <= i < 1601)%Z -> (l < 60)%nat -> Rabs (t0 i l - bessK l (IZR i / 100)) <= eps.

Lemma derivative_columns tab0 t0 eps : holds_table0 tab0 t0 -> accurate_table0 t0 eps ->
  exists tab, pretabulate_bessel tab0 bessel_table_init = Ok tab /\ adims tab = [2000; 60; 10]%Z /\
    forall i l k, (0 <= i < 1601)%Z -> (0 <= l < 60)%Z -> (0 <= k < 5)%Z -> (k = 0 \/ l < 55)%Z -> (l + k <= 55)%Z \/ k = 0%Z ->
      exists v, aget tab [i; l; k] = Ok v /\ Rabs (v - Derive_n (bessK (Z.to_nat l)) (Z.to_nat k) (IZR i / 100)) <= 2 ^ Z.to_nat k * eps.
Proof.
  intros H0 HA. destruct (pretabulate_ok tab0 t0 H0) as (tab & E & D & C). exists tab. split; [exact E|]. split; [exact D|]. intros i l k Hi Hl Hk Hc Hb. rewrite C by assumption. eexists. split; [reflexivity|].
  assert (Dn : forall k n x, Derive_n (bessK n) k x = bessD k n x).
  { clear. induction k as [|k IH]; intros n x; [reflexivity|]. cbn [Derive_n]. rewrite (Derive_ext _ (bessD k n)) by (intros; apply IH). apply is_derive_unique, bessD_derive. }
  rewrite Dn, bessD_iter. destruct (Z.eq_dec k 0) as [-> |N].
  - cbn [Z.to_nat col Nat.iter nat_rect pow]. rewrite Rmult_1_l. apply HA; lia.
  - apply (col_error (t0 i) (fun m => bessK m (IZR i / 100)) eps); [intros m Hm; apply HA; lia|lia|right; lia].
Qed.

Lemma combine5 b0 b1 b2 b3 b4 c0 c1 c2 c3 c4 dx F e : Rabs dx <= 1 / 200 -> Rabs (b0 - c0) <= e -> Rabs (b1 - c1) <= 2 * e -> Rabs (b2 - c2) <= 4 * e -> Rabs (b3 - c3) <= 8 * e -> Rabs (b4 - c4) <= 16 * e ->
  forall r, Rabs (F - rsum 5 (fun k => eterm dx k * nth k [c0; c1; c2; c3; c4] 0)) <= r ->
  Rabs (b0 + b1 * dx + b2 * (dx * dx) * (1 / 2) + b3 * (dx * dx * dx) * (1 / 6) + b4 * (dx * dx * dx * dx) * (1 / 24) - F) <= e * (102 / 100) + r.
Proof.
  intros D H0 H1 H2 H3 H4 r HF.
  assert (E : forall k d b, Rabs d <= b -> Rabs (eterm dx k * d) <= (1 / 200) ^ k * b).
  { intros k d b Hd. rewrite Rabs_mult. apply Rmult_le_compat; try apply Rabs_pos; [|exact Hd]. unfold eterm, Rdiv. rewrite Rabs_mult, <- RPow_abs.
    apply Rle_trans with ((1 / 200) ^ k * 1); [|unfold Rdiv; lra]. apply Rmult_le_compat; [apply pow_le, Rabs_pos|apply Rabs_pos| |].
    - apply pow_incr. split; [apply Rabs_pos|exact D].
    - rewrite Rabs_pos_eq by (left; apply Rinv_0_lt_compat, INR_fact_lt_0). rewrite <- Rinv_1. apply Rinv_le_contravar; [lra|]. change 1 with (INR 1). apply le_INR. pose proof (lt_O_fact k). lia. }
  replace (b0 + b1 * dx + b2 * (dx * dx) * (1 / 2) + b3 * (dx * dx * dx) * (1 / 6) + b4 * (dx * dx * dx * dx) * (1 / 24) - F)
    with ((eterm dx 0 * (b0 - c0) + eterm dx 1 * (b1 - c1) + eterm dx 2 * (b2 - c2) + eterm dx 3 * (b3 - c3) + eterm dx 4 * (b4 - c4)) + - (F - rsum 5 (fun k => eterm dx k * nth k [c0; c1; c2; c3; c4] 0))).
  2: { cbn [rsum nth]. unfold eterm. cbn [fact Nat.mul Nat.add pow]. rewrite !INR_IZR_INZ. cbn [Z.of_nat Pos.of_succ_nat Pos.succ]. field. }
  eapply Rle_trans; [apply Rabs_triang|]. rewrite Rabs_Ropp. apply Rplus_le_compat; [|exact HF].
  pose proof (E 0%nat _ _ H0). pose proof (E 1%nat _ _ H1). pose proof (E 2%nat _ _ H2). pose proof (E 3%nat _ _ H3). pose proof (E 4%nat _ _ H4).
  assert (He : 0 <= e) by (eapply Rle_trans; [apply Rabs_pos|exact H0]).
  repeat (eapply Rle_trans; [apply Rabs_triang|eapply Rle_trans; [apply Rplus_le_compat_l; eassumption|]]; match goal with |- Rabs ?a + ?b <= ?c => apply Rle_trans with (c - b + b); [apply Rplus_le_compat_r|lra] end).
  lra.
Qed.

(** ** Small arguments *)
Lemma bessK_at_0 n : bessK (S n) 0 = 0.
Proof. rewrite bessK_J. cbn [pow]. unfold Rdiv. ring. Qed.
Lemma bessK_0_at_0 : bessK 0 0 = 1.
Proof.
  rewrite bessK_J. unfold bpre. cbn [fact INR pow Nat.add].
  assert (I : is_RInt (V := R_NormedModule) (fun t => (1 - t ^ 2) ^ 0 * exp (0 * (t - 1))) (-1) 1 2).
  { apply (is_RInt_ext (V := R_NormedModule) (fun _ => 1)); [intros t _; rewrite Rmult_0_l, exp_0; cbn [pow]; ringR|]. apply (int_deriv (fun t => t)); [intros t; auto_derive; [exact I|reflexivity]|intros; auto_derive; exact I|ring]. }
  rewrite (RInt_same _ _ _ _ _ (bJ_int 0 0) I). field.
Qed.

Lemma small_taylor K n x : 0 <= x -> Rabs (bessK n x - rsum K (fun k => eterm x k * bessD k n 0)) <= 2 ^ K * eterm x K.
Proof.
  intros Hx. pose proof (taylor_both (2 ^ K) K (fun k => bessD k n) 0 x) as T. rewrite Rminus_0_r, (Rabs_pos_eq x Hx) in T. apply T; [intros; apply bessD_derive|]. intros s (Hs & _). apply bessD_bound. rewrite Rmin_left in Hs by lra. lra.
Qed.

Lemma small_ok n x : 0 <= x <= 1 / 10 ^ 7 ->
  Rabs ((match n with O => 1 - x | 1%nat => (1 - x) * x * (1 / 3) | 2%nat => (1 - x) * x * x * (1 / 15) | _ => 0 end) - bessK n x) <= 3 / 10 ^ 14.
Proof.
  intros (H0 & H1). assert (X2 : 0 <= x * x <= 1 / 10 ^ 14) by (split; [apply Rmult_le_pos; lra|]; apply Rle_trans with (1 / 10 ^ 7 * (1 / 10 ^ 7)); [apply Rmult_le_compat; lra|lra]).
  assert (X3 : 0 <= x * x * x <= 1 / 10 ^ 15) by (split; [apply Rmult_le_pos; lra|]; apply Rle_trans with (1 / 10 ^ 14 * (1 / 10 ^ 7)); [apply Rmult_le_compat; lra|lra]).
  destruct n as [|[|[|n]]].
  - pose proof (small_taylor 2 0 x H0) as T. cbn [rsum bessD bess_step] in T. rewrite bessK_at_0, bessK_0_at_0 in T. unfold eterm in T. cbn [fact pow INR Nat.add Nat.mul] in T. apply Rabs_le_between in T. apply Rabs_le. cbn [Rdiv] in *. lra.
  - pose proof (small_taylor 2 1 x H0) as T. cbn [rsum bessD bess_step] in T. rewrite !bessK_at_0, bessK_0_at_0 in T. unfold eterm in T. cbn [fact pow INR Nat.add Nat.mul] in T. apply Rabs_le_between in T. apply Rabs_le. lra.
  - pose proof (small_taylor 2 2 x H0) as T. cbn [rsum bessD bess_step] in T. rewrite !bessK_at_0 in T. unfold eterm in T. cbn [fact pow INR Nat.add Nat.mul] in T. apply Rabs_le_between in T. apply Rabs_le. lra.
  - pose proof (small_taylor 2 (S (S (S n))) x H0) as T. cbn [rsum bessD bess_step] in T. rewrite !bessK_at_0 in T. unfold eterm in T. cbn [fact pow Nat.add Nat.mul] in T. rewrite !INR_IZR_INZ in T. cbn [Z.of_nat Pos.of_succ_nat Pos.succ] in T. apply Rabs_le_between in T. apply Rabs_le. lra.
Qed.

(** ** The lookup *)
Lemma bessel_lookup tab0 t0 eps tab : holds_table0 tab0 t0 -> accurate_table0 t0 eps -> pretabulate_bessel tab0 bessel_table_init = Ok tab ->
  forall n x, (0 <= n <= 51)%Z -> 0 <= x <= 16 -> exists v, modified_bessel_scaled tab n x = Ok v /\ Rabs (v - bessK (Z.to_nat n) x) <= eps * (102 / 100) + 1 / 10 ^ 12.
Proof.
  intros HT HA E n x Hn Hx. assert (E0 : 0 <= eps) by (eapply Rle_trans; [apply Rabs_pos|apply (HA 0%Z O); lia]).
  unfold modified_bessel_scaled. destruct (Rle_dec x (1 / 10 ^ 7)) as [S|S].
  - eexists. split; [reflexivity|]. eapply Rle_trans; [|eapply Rle_trans; [apply (small_ok (Z.to_nat n) x ltac:(lra))|lra]]. right. f_equal. f_equal.
    destruct (Z.eqb_spec n 0) as [-> |N0]; [reflexivity|]. destruct (Z.eqb_spec n 1) as [-> |N1]; [reflexivity|]. destruct (Z.eqb_spec n 2) as [-> |N2]; [reflexivity|]. replace (Z.to_nat n) with (3 + Z.to_nat (n - 3))%nat by lia. reflexivity.
  - destruct (Rle_dec x 16); [|lra]. cbv zeta. destruct (c_round_near (x * 100) ltac:(lra)) as (K0 & KN). set (k := c_round (x * 100)) in *. rewrite (c_trunc_int k) by (assumption || lra).
    assert (K1 : (k <= 1600)%Z) by (apply int_le_half; lra).
    assert (D : Rabs (x - IZR k * (1 / 100)) <= 1 / 200) by (apply Rabs_le; lra).
    destruct (pretabulate_ok tab0 t0 HT) as (tab' & E' & _ & C). rewrite E in E'. injection E' as <-.
    rewrite !C by lia. cbn [bind]. eexists. split; [reflexivity|]. change (Z.to_nat 0) with 0%nat. change (Z.to_nat 1) with 1%nat. change (Z.to_nat 2) with 2%nat. change (Z.to_nat 3) with 3%nat. change (Z.to_nat 4) with 4%nat.
    assert (A : forall j, (j <= 4)%nat -> Rabs (col (t0 k) j (Z.to_nat n) - bessD j (Z.to_nat n) (IZR k * (1 / 100))) <= 2 ^ j * eps).
    { intros j Hj. rewrite bessD_iter. replace (IZR k * (1 / 100)) with (IZR k / 100) by field. apply (col_error (t0 k) (fun m => bessK m (IZR k / 100)) eps); [intros m Hm; apply HA; lia|lia|lia]. }
    pose proof (bess_taylor (Z.to_nat n) x (IZR k * (1 / 100)) ltac:(lra) ltac:(apply Rmult_le_pos; [apply IZR_le; exact K0|lra])) as T.
    set (N := Z.to_nat n) in *. set (x0 := IZR k * (1 / 100)) in *.
    eapply Rle_trans; [apply (combine5 _ _ _ _ _ (bessD 0 N x0) (bessD 1 N x0) (bessD 2 N x0) (bessD 3 N x0) (bessD 4 N x0) _ (bessK N x) eps D) with (r := 2 ^ 5 * eterm (Rabs (x - x0)) 5)|].
    + eapply Rle_trans; [apply (A 0%nat ltac:(lia))|cbn [pow]; lra].
    + eapply Rle_trans; [apply (A 1%nat ltac:(lia))|cbn [pow]; lra].
    + eapply Rle_trans; [apply (A 2%nat ltac:(lia))|cbn [pow]; lra].
    + eapply Rle_trans; [apply (A 3%nat ltac:(lia))|cbn [pow]; lra].
    + eapply Rle_trans; [apply (A 4%nat ltac:(lia))|cbn [pow]; lra].
    + eapply Rle_trans; [|exact T]. right. f_equal.
    + apply Rplus_le_compat_l. apply Rle_trans with (2 ^ 5 * ((1 / 200) ^ 5 / INR (fact 5))).
      * apply Rmult_le_compat_l; [apply pow_le; lra|]. unfold eterm. apply Rmult_le_compat_r; [left; apply Rinv_0_lt_compat, INR_fact_lt_0|]. apply pow_incr. split; [apply Rabs_pos|exact D].
      * replace (INR (fact 5)) with 120 by (rewrite INR_IZR_INZ; reflexivity). lra.
Qed.
