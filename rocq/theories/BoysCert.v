(** * The tabulated values of the Boys function are accurate

    Every entry of the table is compared with an enclosure of the exact value,
    computed by the downward recurrence in integer arithmetic. *)

From Coq Require Import ZArith List Bool Lia Reals Lra.
From Coquelicot Require Import Coquelicot.
From Verif Require Import OneElProofs BoysTable SpecExp SpecSpec SpecBoys.
Import ListNotations.
Open Scope Z_scope.

Definition sM : Z := 10 ^ 31.
Definition hstep (k : Z) (h : Z * Z) : Z * Z := let '(lo, hi) := h in (sM + (- hi) / (10 * k), sM - lo / (10 * k)).
Fixpoint hiter (k : nat) (h : Z * Z) : Z * Z := match k with O => h | S k' => hiter k' (hstep (Z.of_nat k) h) end.
Definition e1 : Z * Z := hiter 30 (0, sM).
Definition emul (a b : Z * Z) : Z * Z := (fst a * fst b / sM, - ((- (snd a * snd b)) / sM)).
Fixpoint row (cnt : nat) (i : Z) (E5 w5 lo w : Z) (acc : list (Z * Z)) : list (Z * Z) :=
  match cnt with
  | O => acc
  | S c => let d := 5 * (2 * Z.of_nat c + 1) in
           let lo' := (E5 + i * lo) / d in
           let w' := (w5 + i * w) / d + 2 in
           row c i E5 w5 lo' w' ((lo', w') :: acc)
  end.
Definition near (tol : Z) (t : Z) (h : Z * Z) : bool := (fst h + snd h - tol <=? t) && (t <=? fst h + tol).
Fixpoint all2 {A B} (f : A -> B -> bool) (l : list A) (m : list B) : bool :=
  match l, m with a :: l, b :: m => f a b && all2 f l m | [], _ => true | _, [] => false end.
Definition top_of (i : nat) : nat := (52 + i / 4)%nat.
Definition row_of (i : nat) (E : Z * Z) : list (Z * Z) :=
  row (top_of i) (Z.of_nat i) (5 * fst E) (5 * (snd E - fst E)) 0 (sM / (2 * Z.of_nat (top_of i) + 1) + 1) [].
Definition boys_tol : Z := 4 * 10 ^ 16.
Fixpoint rows_ok (T : list (list Z)) (i : nat) (E : Z * Z) : bool :=
  match T with
  | [] => true
  | r :: T => all2 (near boys_tol) r (row_of i E) && rows_ok T (S i) (emul E e1)
  end.

Lemma boys_certificate : rows_ok boys_rows 0 (sM, sM) && forallb (fun r => (length r =? 40)%nat) boys_rows && (length boys_rows =? 301)%nat = true.
Proof. vm_cast_no_check (@eq_refl bool true). Qed.

Open Scope R_scope.

Lemma sM_pos : 0 < IZR sM.
Proof. apply IZR_lt. unfold sM. lia. Qed.

(** r lies between lo and hi in units of 1/sM *)
Definition enc (r : R) (h : Z * Z) : Prop := IZR (fst h) <= r * IZR sM <= IZR (snd h).

Lemma div_floor a d : (0 < d)%Z -> IZR (a / d) <= IZR a / IZR d < IZR (a / d) + 1.
Proof.
  intros Hd. pose proof (IZR_lt 0 d Hd) as Hd'. pose proof (Z.div_mod a d ltac:(lia)) as E. pose proof (Z.mod_pos_bound a d Hd) as (B1 & B2).
  apply IZR_le in B1. apply IZR_lt in B2. apply (f_equal IZR) in E. rewrite plus_IZR, mult_IZR in E. split.
  - apply Rmult_le_reg_r with (IZR d); [exact Hd'|]. replace (IZR a / IZR d * IZR d) with (IZR a) by (field; lra). lra.
  - apply Rmult_lt_reg_r with (IZR d); [exact Hd'|]. replace (IZR a / IZR d * IZR d) with (IZR a) by (field; lra). lra.
Qed.

(** ** exp(-1/10) *)
Definition tenth : R := / 10.
Definition hval (k : nat) : R := erem k (- tenth) / eterm (- tenth) k.

Lemma eterm_nz k : eterm (- tenth) k <> 0.
Proof.
  induction k as [|k IH]; [rewrite eterm_0; lra|]. rewrite eterm_S. assert (P : 0 < INR (S k)) by (apply lt_0_INR; lia).
  apply Rmult_integral_contrapositive_currified; [exact IH|]. unfold Rdiv, tenth. apply Rmult_integral_contrapositive_currified; [lra|]. apply Rinv_neq_0_compat. lra.
Qed.

Lemma eterm_sign k : eterm (- tenth) k = (-1) ^ k * eterm tenth k.
Proof. induction k as [|k IH]; [rewrite !eterm_0; cbn; ring|]. rewrite !eterm_S, IH. cbn [pow]. unfold Rdiv. ring. Qed.

Lemma hval_bounds k : 0 <= hval k <= 1.
Proof.
  unfold hval. pose proof (erem_neg k tenth ltac:(unfold tenth; lra)) as (L & U). pose proof (eterm_nz k) as N. pose proof (eterm_sign k) as Es.
  assert (P : 0 < eterm tenth k).
  { destruct (eterm_pos tenth k ltac:(unfold tenth; lra)) as [P|P]; [exact P|]. exfalso. apply N. rewrite Es, <- P. ring. }
  replace (erem k (- tenth) / eterm (- tenth) k) with ((-1) ^ k * erem k (- tenth) / eterm tenth k).
  2: { rewrite Es. assert (S1 : (-1) ^ k * (-1) ^ k = 1) by (rewrite <- pow_add; replace (k + k)%nat with (2 * k)%nat by lia; apply pow_1_even).
       assert ((-1) ^ k <> 0) by (apply pow_nonzero; lra). apply (Rmult_eq_reg_r ((-1) ^ k)); [|assumption]. field_simplify; [|split; [lra|assumption]|lra]. f_equal. rewrite <- Rsqr_pow2. unfold Rsqr. rewrite S1. ring. }
  split; [apply Rmult_le_pos; [exact L|left; apply Rinv_0_lt_compat, P]|]. apply Rmult_le_reg_r with (eterm tenth k); [exact P|].
  replace ((-1) ^ k * erem k (- tenth) / eterm tenth k * eterm tenth k) with ((-1) ^ k * erem k (- tenth)) by (field; lra). lra.
Qed.

Lemma hval_step k : hval k = 1 - tenth / INR (S k) * hval (S k).
Proof.
  unfold hval. rewrite erem_S, eterm_S. pose proof (eterm_nz k). assert (P : 0 < INR (S k)) by (apply lt_0_INR; lia). unfold tenth in *. field. repeat split; lra.
Qed.

Lemma hstep_ok k h : (0 < Z.of_nat (S k))%Z -> enc (hval (S k)) h -> enc (hval k) (hstep (Z.of_nat (S k)) h).
Proof.
  intros _ (L & U). destruct h as [lo hi]. cbn [hstep fst snd] in *. unfold enc. cbn [fst snd]. rewrite hval_step.
  set (d := (10 * Z.of_nat (S k))%Z). assert (Hd : (0 < d)%Z) by (unfold d; lia). pose proof (IZR_lt 0 d Hd) as Hd'.
  assert (Ed : tenth / INR (S k) = / IZR d). { unfold d. rewrite mult_IZR, <- INR_IZR_INZ. unfold tenth. assert (0 < INR (S k)) by (apply lt_0_INR; lia). field. lra. }
  rewrite Ed, plus_IZR, minus_IZR. pose proof (div_floor lo d Hd) as (F1 & _). pose proof (div_floor (- hi) d Hd) as (F2 & _). rewrite opp_IZR in F2.
  assert (P : 0 < / IZR d) by (apply Rinv_0_lt_compat, Hd').
  assert (A1 : IZR lo / IZR d <= / IZR d * (hval (S k) * IZR sM)) by (unfold Rdiv; rewrite Rmult_comm; apply Rmult_le_compat_l; lra).
  assert (A2 : / IZR d * (hval (S k) * IZR sM) <= IZR hi / IZR d) by (unfold Rdiv; rewrite (Rmult_comm (IZR hi)); apply Rmult_le_compat_l; lra).
  replace (- IZR hi / IZR d) with (- (IZR hi / IZR d)) in F2 by (field; lra). split; lra.
Qed.

Lemma hiter_ok k h : enc (hval k) h -> enc (hval 0) (hiter k h).
Proof.
  revert h. induction k as [|k IH]; intros h H; [exact H|]. cbn [hiter]. apply IH. apply hstep_ok; [lia|exact H].
Qed.

Lemma e1_ok : enc (exp (- tenth)) e1.
Proof.
  replace (exp (- tenth)) with (hval 0) by (unfold hval; rewrite erem_0, eterm_0; field). apply hiter_ok. pose proof (hval_bounds 30) as (L & U). pose proof sM_pos. split; cbn [fst snd]; [apply Rmult_le_pos; lra|].
  rewrite <- (Rmult_1_l (IZR sM)) at 2. apply Rmult_le_compat_r; lra.
Qed.

Lemma emul_ok a b E F : 0 <= a -> 0 <= b -> enc a E -> enc b F -> (0 <= fst E)%Z -> (0 <= fst F)%Z -> enc (a * b) (emul E F).
Proof.
  intros Ha Hb (L1 & U1) (L2 & U2) P1 P2. destruct E as [l1 u1], F as [l2 u2]. unfold emul, enc. cbn [fst snd] in *. pose proof sM_pos as M0.
  assert (Hm : (0 < sM)%Z) by (unfold sM; lia). pose proof (div_floor (l1 * l2) sM Hm) as (F1 & _). pose proof (div_floor (- (u1 * u2)) sM Hm) as (F2 & _).
  apply IZR_le in P1. apply IZR_le in P2. rewrite opp_IZR. rewrite !opp_IZR, !mult_IZR in *.
  assert (Q1 : IZR l1 * IZR l2 <= a * IZR sM * (b * IZR sM)) by (apply Rmult_le_compat; lra).
  assert (Q2 : a * IZR sM * (b * IZR sM) <= IZR u1 * IZR u2) by (apply Rmult_le_compat; try lra; apply Rmult_le_pos; lra).
  assert (R1 : IZR l1 * IZR l2 / IZR sM <= a * b * IZR sM).
  { apply Rmult_le_reg_r with (IZR sM); [exact M0|]. replace (IZR l1 * IZR l2 / IZR sM * IZR sM) with (IZR l1 * IZR l2) by (field; lra). lra. }
  assert (R2 : a * b * IZR sM <= IZR u1 * IZR u2 / IZR sM).
  { apply Rmult_le_reg_r with (IZR sM); [exact M0|]. replace (IZR u1 * IZR u2 / IZR sM * IZR sM) with (IZR u1 * IZR u2) by (field; lra). lra. }
  replace (- (IZR u1 * IZR u2) / IZR sM) with (- (IZR u1 * IZR u2 / IZR sM)) in F2 by (field; lra). split; lra.
Qed.

Lemma emul_nonneg E F : (0 <= fst E)%Z -> (0 <= fst F)%Z -> (0 <= fst (emul E F))%Z.
Proof. intros H1 H2. unfold emul. cbn [fst]. apply Z.div_pos; [apply Z.mul_nonneg_nonneg; assumption|unfold sM; lia]. Qed.

(** ** One row *)
Definition encw (r : R) (h : Z * Z) : Prop := IZR (fst h) <= r * IZR sM <= IZR (fst h + snd h).

Lemma row_ok i (x : R) E5 w5 : x = IZR i / 10 -> (0 <= i)%Z -> IZR E5 <= 5 * exp (- x) * IZR sM <= IZR (E5 + w5) ->
  forall cnt lo w acc, encw (boys cnt x) (lo, w) -> (forall j, (j < length acc)%nat -> encw (boys (cnt + j) x) (nth j acc (0, 0)%Z)) ->
  length (row cnt i E5 w5 lo w acc) = (cnt + length acc)%nat /\
  forall j, (j < cnt + length acc)%nat -> encw (boys j x) (nth j (row cnt i E5 w5 lo w acc) (0, 0)%Z).
Proof.
  intros Hx Hi (EL & EU). induction cnt as [|c IH]; intros lo w acc Hb Hacc; [cbn [row]; split; [reflexivity|intros j Hj; apply Hacc; exact Hj]|].
  cbn [row]. set (d := (5 * (2 * Z.of_nat c + 1))%Z). cbv zeta.
  assert (Hd : (0 < d)%Z) by (unfold d; lia). pose proof (IZR_lt 0 d Hd) as Hd'. apply IZR_le in Hi.
  assert (Ed : IZR d = 5 * (2 * INR c + 1)). { unfold d. rewrite mult_IZR, plus_IZR, mult_IZR, <- INR_IZR_INZ. reflexivity. }
  assert (Eb : boys c x * IZR sM = (5 * exp (- x) * IZR sM + IZR i * (boys (S c) x * IZR sM)) / IZR d).
  { pose proof (boys_rec c x) as B. rewrite Ed. pose proof (pos_INR c). apply (Rmult_eq_reg_r (5 * (2 * INR c + 1))); [|lra].
    replace ((5 * exp (- x) * IZR sM + IZR i * (boys (S c) x * IZR sM)) / (5 * (2 * INR c + 1)) * (5 * (2 * INR c + 1))) with (5 * exp (- x) * IZR sM + IZR i * (boys (S c) x * IZR sM)) by (field; lra).
    replace (boys c x * IZR sM * (5 * (2 * INR c + 1))) with (5 * IZR sM * ((2 * INR c + 1) * boys c x)) by ring. rewrite B, Hx. field. }
  destruct Hb as (BL & BU). cbn [fst snd] in BL, BU.
  assert (N : encw (boys c x) ((E5 + i * lo) / d, (w5 + i * w) / d + 2)%Z).
  { unfold encw. cbn [fst snd]. rewrite Eb. pose proof (div_floor (E5 + i * lo) d Hd) as (F1 & F2). pose proof (div_floor (w5 + i * w) d Hd) as (_ & F4).
    rewrite ?plus_IZR, ?mult_IZR in *.
    assert (P : 0 < / IZR d) by (apply Rinv_0_lt_compat, Hd').
    assert (X1 : IZR i * IZR lo <= IZR i * (boys (S c) x * IZR sM)) by (apply Rmult_le_compat_l; lra).
    assert (X2 : IZR i * (boys (S c) x * IZR sM) <= IZR i * (IZR lo + IZR w)) by (apply Rmult_le_compat_l; lra). split.
    - apply Rle_trans with (1 := F1). unfold Rdiv. apply Rmult_le_compat_r; lra.
    - apply Rle_trans with ((IZR E5 + IZR i * IZR lo) / IZR d + (IZR w5 + IZR i * IZR w) / IZR d); [|lra].
      unfold Rdiv. rewrite <- Rmult_plus_distr_r. apply Rmult_le_compat_r; lra. }
  destruct (IH _ _ (((E5 + i * lo) / d, (w5 + i * w) / d + 2)%Z :: acc) N) as (Lr & Hr).
  - intros [|j] Hj; cbn [nth].
    + rewrite Nat.add_0_r. exact N.
    + replace (c + S j)%nat with (S c + j)%nat by lia. apply Hacc. cbn [length] in Hj. lia.
  - cbn [length] in *. split; [rewrite Lr; lia|]. intros j Hj. apply Hr. lia.
Qed.

Lemma all2_nth {A B} (f : A -> B -> bool) l m da db : all2 f l m = true -> forall j, (j < length l)%nat -> f (nth j l da) (nth j m db) = true /\ (j < length m)%nat.
Proof.
  revert m. induction l as [|a l IH]; intros m H j Hj; [cbn in Hj; lia|]. destruct m as [|b m]; [discriminate|]. cbn [all2] in H. apply andb_true_iff in H. destruct H as (H1 & H2).
  destruct j as [|j]; cbn [nth length]; [split; [exact H1|lia]|]. destruct (IH m H2 j ltac:(cbn in Hj; lia)) as (X & Y). split; [exact X|lia].
Qed.

Lemma rows_sound T : forall i E, rows_ok T i E = true -> enc (exp (- (INR i / 10))) E -> (0 <= fst E)%Z ->
  forall j n, (j < length T)%nat -> (n < length (nth j T []))%nat -> Rabs (IZR (nth n (nth j T []) 0%Z) / IZR sM - boys n (INR (i + j) / 10)) <= IZR boys_tol / IZR sM.
Proof.
  induction T as [|r T IH]; intros i E H HE HP j n Hj Hn; [cbn in Hj; lia|]. cbn [rows_ok] in H. apply andb_true_iff in H. destruct H as (H1 & H2). pose proof sM_pos as M0.
  destruct j as [|j].
  - cbn [nth] in *. rewrite Nat.add_0_r. destruct (all2_nth _ _ _ 0%Z (0, 0)%Z H1 n Hn) as (X & Y). unfold near in X. apply andb_true_iff in X. destruct X as (X1 & X2). apply Z.leb_le in X1. apply Z.leb_le in X2.
    destruct (row_ok (Z.of_nat i) (INR i / 10) (5 * fst E) (5 * (snd E - fst E)) ltac:(rewrite INR_IZR_INZ; reflexivity) ltac:(lia)) with (cnt := top_of i) (lo := 0%Z) (w := (sM / (2 * Z.of_nat (top_of i) + 1) + 1)%Z) (acc := @nil (Z * Z)) as (Lr & Hr).
    + destruct HE as (HL & HU). rewrite plus_IZR, !mult_IZR, minus_IZR. split; lra.
    + unfold encw. cbn [fst snd]. assert (Hx : 0 <= INR i / 10) by (pose proof (pos_INR i); lra). destruct (boys_bounds (top_of i) (INR i / 10) Hx) as (B1 & B2). split; [apply Rmult_le_pos; lra|].
      rewrite Z.add_0_l. set (d := (2 * Z.of_nat (top_of i) + 1)%Z). assert (Hd : (0 < d)%Z) by (unfold d; lia). pose proof (div_floor sM d Hd) as (_ & F). rewrite plus_IZR.
      assert (Ed : INR (2 * top_of i + 1) = IZR d) by (unfold d; rewrite INR_IZR_INZ; f_equal; lia). rewrite Ed in B2.
      apply Rle_trans with (/ IZR d * IZR sM); [apply Rmult_le_compat_r; lra|]. rewrite Rmult_comm. fold (IZR sM / IZR d). lra.
    + intros j Hj0. cbn in Hj0. lia.
    + unfold row_of in X1, X2, Y. rewrite Lr in Y. specialize (Hr n Y). destruct Hr as (R1 & R2).
      match goal with H : context [nth n (row ?a ?b ?c ?d ?e ?f ?g) ?z] |- _ => set (h := nth n (row a b c d e f g) z) in * end.
      apply IZR_le in X1. apply IZR_le in X2. rewrite minus_IZR, plus_IZR in X1. rewrite plus_IZR in X2, R2.
      replace (IZR (nth n r 0%Z) / IZR sM - boys n (INR i / 10)) with ((IZR (nth n r 0%Z) - boys n (INR i / 10) * IZR sM) / IZR sM) by (field; lra).
      unfold Rdiv. rewrite Rabs_mult, (Rabs_pos_eq (/ IZR sM)) by (left; apply Rinv_0_lt_compat, M0). apply Rmult_le_compat_r; [left; apply Rinv_0_lt_compat, M0|]. apply Rabs_le. split; lra.
  - cbn [nth] in *. replace (i + S j)%nat with (S i + j)%nat by lia. apply (IH (S i) (emul E e1)); [exact H2| |apply emul_nonneg; [exact HP|]|cbn [length] in Hj; lia|exact Hn].
    + replace (exp (- (INR (S i) / 10))) with (exp (- (INR i / 10)) * exp (- tenth)) by (rewrite <- exp_plus; f_equal; rewrite S_INR; unfold tenth; field).
      apply emul_ok; [left; apply exp_pos|left; apply exp_pos|exact HE|exact e1_ok|exact HP|]. apply Z.leb_le. vm_compute. reflexivity.
    + apply Z.leb_le. vm_compute. reflexivity.
Qed.

Lemma boys_table_accurate i n : (i <= 300)%nat -> (n <= 39)%nat -> Rabs (IZR (nth n (nth i boys_rows []) 0%Z) / 10 ^ 31 - boys n (INR i / 10)) <= 4 / 10 ^ 15.
Proof.
  intros Hi Hn. pose proof boys_certificate as C. apply andb_true_iff in C. destruct C as (C & C3). apply andb_true_iff in C. destruct C as (C1 & C2). apply Nat.eqb_eq in C3.
  assert (Hl : length (nth i boys_rows []) = 40%nat) by (rewrite forallb_forall in C2; apply Nat.eqb_eq, C2, nth_In; rewrite C3; lia).
  assert (EM : IZR sM = 10 ^ 31) by (unfold sM; rewrite (pow_IZR 10 31); reflexivity).
  assert (H0 : enc (exp (- (INR 0 / 10))) (sM, sM)) by (unfold enc; cbn [fst snd INR]; replace (- (0 / 10)) with 0 by field; rewrite exp_0; lra).
  pose proof (rows_sound boys_rows 0 (sM, sM) C1 H0 ltac:(unfold sM; cbn [fst]; lia) i n ltac:(rewrite C3; lia) ltac:(rewrite Hl; lia)) as H. rewrite Nat.add_0_l in H.
  rewrite <- EM. eapply Rle_trans; [exact H|]. rewrite EM. unfold boys_tol. right. replace (IZR (4 * 10 ^ 16)) with (4 * 10 ^ 16) by (rewrite mult_IZR; f_equal; rewrite (pow_IZR 10 16); reflexivity). replace (10 ^ 31) with (10 ^ 16 * 10 ^ 15) by (rewrite <- pow_add; reflexivity). field.
Qed.
