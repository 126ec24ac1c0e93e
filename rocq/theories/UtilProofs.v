(** * Entries of the real angular momentum matrices; small helpers of utils.c *)

From Coq Require Import ZArith List Lia Bool Reals Lra.
From Coquelicot Require Import Coquelicot.
From Verif Require Import Base Loops OneElModel OneElProofs LmatModel LmatProofs.
Import ListNotations.
Open Scope R_scope.

(** ** Explicit entries fixing the sign conventions *)

Lemma sg_even_sq m : sg m * sg m = 1.
Proof. apply sg_sq. Qed.

Lemma sqrt2_half : / sqrt 2 * / sqrt 2 = / 2.
Proof. rewrite <- Rinv_mult, sqrt_sqrt by lra. reflexivity. Qed.

Lemma wZ_entry L m1 m2 : (0 <= L)%Z -> (- L <= m1 <= L)%Z -> (- L <= m2 <= L)%Z ->
  wZ L m1 m2 = if (m2 =? - m1)%Z then - IZR m1 else 0.
Proof.
  intros HL H1 H2. unfold wZ, hatR. rewrite hat_four by assumption.
  assert (IM := four_im (vZ L) m1 m2). assert (T := sqrt2_half). assert (Q := sg_sq m1).
  destruct (Z_lt_le_dec m1 0) as [A1 | A1]; destruct (Z_lt_le_dec m2 0) as [A2 | A2];
    [| |destruct (Z.eq_dec m1 0) as [Z1 | Z1]|destruct (Z.eq_dec m1 0) as [Z1 | Z1]; destruct (Z.eq_dec m2 0) as [Z2 | Z2]].
  - rewrite (coeffs_neg m1 A1), (coeffs_neg m2 A2) in IM. cbv beta iota in IM. rewrite IM.
    destruct (Z.eqb_spec m2 (- m1)) as [E | E]; [lia|]. ring.
  - destruct (Z.eq_dec m2 0) as [Z2 | Z2].
    + subst m2. rewrite (coeffs_neg m1 A1), coeffs_zero in IM. rewrite IM.
      destruct (Z.eqb_spec 0 (- m1)) as [E | E]; [lia|]. unfold vZ. change (Z.abs 0) with 0%Z. change (- 0)%Z with 0%Z. ring.
    + rewrite (coeffs_neg m1 A1), coeffs_pos in IM by lia. rewrite IM. unfold vZ.
      destruct (Z.eqb_spec m2 (- m1)) as [E | E].
      * subst m2. rewrite Z.abs_opp. rewrite !Z.eqb_refl.
        replace (Z.abs m1) with (- m1)%Z by lia. rewrite Z.opp_involutive.
        replace (m1 =? - m1)%Z with false by (symmetry; apply Z.eqb_neq; lia).
        replace (- m1 =? m1)%Z with false by (symmetry; apply Z.eqb_neq; lia).
        assert (S1 : sg (- m1) = sg m1) by (unfold sg; rewrite Z.abs_opp; reflexivity).
        cbn [b2R]. rewrite ?S1, opp_IZR.
        transitivity (- IZR m1 * (/ sqrt 2 * / sqrt 2 + / sqrt 2 * / sqrt 2 * (sg m1 * sg m1))); [unfold Rdiv; ring|].
        rewrite T, Q. lra.
      * replace (- Z.abs m1 =? - Z.abs m2)%Z with false by (symmetry; apply Z.eqb_neq; lia).
        replace (- Z.abs m1 =? Z.abs m2)%Z with false by (symmetry; apply Z.eqb_neq; lia).
        replace (Z.abs m1 =? - Z.abs m2)%Z with false by (symmetry; apply Z.eqb_neq; lia).
        replace (Z.abs m1 =? Z.abs m2)%Z with false by (symmetry; apply Z.eqb_neq; lia). cbn [b2R]. ring.
  - subst m1. rewrite (coeffs_neg m2 A2), coeffs_zero in IM. rewrite IM.
    destruct (Z.eqb_spec m2 (- 0)) as [E | E]; [lia|]. unfold vZ. change (Z.abs 0) with 0%Z. change (- 0)%Z with 0%Z.
    replace (0 =? - Z.abs m2)%Z with false by (symmetry; apply Z.eqb_neq; lia).
    replace (0 =? Z.abs m2)%Z with false by (symmetry; apply Z.eqb_neq; lia). cbn [b2R]. ring.
  - rewrite (coeffs_neg m2 A2), coeffs_pos in IM by lia. rewrite IM. unfold vZ.
    destruct (Z.eqb_spec m2 (- m1)) as [E | E].
    + subst m2. rewrite Z.abs_opp. rewrite !Z.eqb_refl.
      replace (Z.abs m1) with m1 by lia.
      replace (m1 =? - m1)%Z with false by (symmetry; apply Z.eqb_neq; lia).
      replace (- m1 =? m1)%Z with false by (symmetry; apply Z.eqb_neq; lia).
      assert (S1 : sg (- m1) = sg m1) by (unfold sg; rewrite Z.abs_opp; reflexivity).
      cbn [b2R]. rewrite ?S1, opp_IZR.
      transitivity (- IZR m1 * (/ sqrt 2 * / sqrt 2 + / sqrt 2 * / sqrt 2 * (sg m1 * sg m1))); [unfold Rdiv; ring|].
      rewrite T, Q. lra.
    + replace (- Z.abs m1 =? - Z.abs m2)%Z with false by (symmetry; apply Z.eqb_neq; lia).
      replace (- Z.abs m1 =? Z.abs m2)%Z with false by (symmetry; apply Z.eqb_neq; lia).
      replace (Z.abs m1 =? - Z.abs m2)%Z with false by (symmetry; apply Z.eqb_neq; lia).
      replace (Z.abs m1 =? Z.abs m2)%Z with false by (symmetry; apply Z.eqb_neq; lia). cbn [b2R]. ring.
  - subst. rewrite coeffs_zero in IM. rewrite IM. cbn. ring.
  - subst m1. rewrite coeffs_zero, coeffs_pos in IM by lia. rewrite IM.
    destruct (Z.eqb_spec m2 (- 0)) as [E | E]; [lia|]. ring.
  - subst m2. rewrite coeffs_zero, coeffs_pos in IM by lia. rewrite IM.
    destruct (Z.eqb_spec 0 (- m1)) as [E | E]; [lia|]. ring.
  - rewrite !coeffs_pos in IM by lia. rewrite IM.
    destruct (Z.eqb_spec m2 (- m1)) as [E | E]; [lia|]. ring.
Qed.

Lemma wX_entry L : (1 <= L)%Z -> wX L 0 (-1) = sqrt (IZR (L * (L + 1)) / 2).
Proof.
  intros HL. unfold wX, hatR. rewrite hat_four by lia. assert (IM := four_im (vX L) 0 (-1)).
  rewrite coeffs_zero, (coeffs_neg (-1) eq_refl) in IM. rewrite IM.
  change (Z.abs 0) with 0%Z. change (- 0)%Z with 0%Z. change (Z.abs (-1)) with 1%Z. change (- (1))%Z with (-1)%Z.
  unfold vX, vP, vM.
  change (0 =? -1 + 1)%Z with true. change (0 =? -1 - 1)%Z with false. change (0 =? 1 + 1)%Z with false. change (0 =? 1 - 1)%Z with true.
  cbn [b2R].
  replace ((L - -1) * (L + -1 + 1))%Z with (L * (L + 1))%Z by ring.
  replace ((L + 1) * (L - 1 + 1))%Z with (L * (L + 1))%Z by ring.
  assert (Sg : sg (-1) = -1) by (unfold sg; change (Z.to_nat (Z.abs (-1))) with 1%nat; rewrite pow_1; reflexivity). rewrite Sg.
  rewrite sqrt_div_alt by lra. assert (sqrt 2 <> 0) by (apply Rgt_not_eq, sqrt_lt_R0; lra). set (u := sqrt (IZR (L * (L + 1)))); set (u1 := sqrt (IZR _)); set (u2 := sqrt (IZR _)); unfold Rdiv; set (w := / sqrt 2); lra.
Qed.

(** ** multiply_matrices *)

Lemma multiply_ok M N K (A B C : arr R) (fa fb fc : Z -> Z -> R) sc :
  (0 <= M)%Z -> (0 <= N)%Z -> (0 <= K)%Z -> adims C = [sc] -> (M * N <= sc)%Z ->
  (forall i k, (0 <= i < M)%Z -> (0 <= k < K)%Z -> aget A [(i * K + k)%Z] = Ok (fa i k)) ->
  (forall k j, (0 <= k < K)%Z -> (0 <= j < N)%Z -> aget B [(k * N + j)%Z] = Ok (fb k j)) ->
  (forall i j, (0 <= i < M)%Z -> (0 <= j < N)%Z -> aget C [(i * N + j)%Z] = Ok (fc i j)) ->
  exists C', multiply_matrices M N K A B C = Ok C' /\ adims C' = [sc] /\
    (forall i j, (0 <= i < M)%Z -> (0 <= j < N)%Z ->
       aget C' [(i * N + j)%Z] = Ok (fc i j + rsum (Z.to_nat K) (fun k => fa i (Z.of_nat k) * fb (Z.of_nat k) j))) /\
    (forall ix, ~ (exists i, ix = [i] /\ (0 <= i < M * N)%Z) -> aget C' ix = aget C ix).
Proof.
  intros HM HN HK Dc Hsz HA HB HC.
  assert (Hidx : forall i j i' j', (0 <= i < M)%Z -> (0 <= j < N)%Z -> (0 <= i' < M)%Z -> (0 <= j' < N)%Z ->
    (i * N + j = i' * N + j')%Z -> i = i' /\ j = j').
  { intros i j i' j' H1 H2 H3 H4 E. assert (i = i') by nia. subst. split; [reflexivity|lia]. }
  unfold multiply_matrices.
  destruct (for_range_ok (fun i0 (C' : arr R) => adims C' = [sc] /\
     (forall i j, (0 <= i < i0)%Z -> (0 <= j < N)%Z ->
       aget C' [(i * N + j)%Z] = Ok (fc i j + rsum (Z.to_nat K) (fun k => fa i (Z.of_nat k) * fb (Z.of_nat k) j))) /\
     (forall i j, (i0 <= i < M)%Z -> (0 <= j < N)%Z -> aget C' [(i * N + j)%Z] = Ok (fc i j)) /\
     (forall ix, ~ (exists i, ix = [i] /\ (0 <= i < M * N)%Z) -> aget C' ix = aget C ix)) 0 M
     (fun i => for_range 0 N (fun j C =>
        let* sum := for_range 0 K (fun k sum =>
          let* a := aget A [(i * K + k)%Z] in
          let* b := aget B [(k * N + j)%Z] in
          Ok (sum + a * b)) 0 in
        let* c := aget C [(i * N + j)%Z] in
        aset C [(i * N + j)%Z] (c + sum))) C) as (C' & E & I).
  - lia.
  - split; [exact Dc|]. split; [intros; lia|]. split; [intros; apply HC; lia|]. reflexivity.
  - intros i0 C1 Hi (D1 & P1 & P2 & P3).
    destruct (for_range_ok (fun j0 (C' : arr R) => adims C' = [sc] /\
     (forall i j, ((0 <= i < i0)%Z /\ (0 <= j < N)%Z) \/ (i = i0 /\ (0 <= j < j0)%Z) ->
       aget C' [(i * N + j)%Z] = Ok (fc i j + rsum (Z.to_nat K) (fun k => fa i (Z.of_nat k) * fb (Z.of_nat k) j))) /\
     (forall i j, (i0 < i < M)%Z /\ (0 <= j < N)%Z \/ (i = i0 /\ (j0 <= j < N)%Z) -> aget C' [(i * N + j)%Z] = Ok (fc i j)) /\
     (forall ix, ~ (exists i, ix = [i] /\ (0 <= i < M * N)%Z) -> aget C' ix = aget C ix)) 0 N
     (fun j C =>
        let* sum := for_range 0 K (fun k sum =>
          let* a := aget A [(i0 * K + k)%Z] in
          let* b := aget B [(k * N + j)%Z] in
          Ok (sum + a * b)) 0 in
        let* c := aget C [(i0 * N + j)%Z] in
        aset C [(i0 * N + j)%Z] (c + sum)) C1) as (C2 & E & D2 & Q1 & Q2 & Q3).
    + lia.
    + split; [exact D1|]. split; [|split; [|exact P3]].
      * intros i j [[H1 H2] | H1]; [apply P1; assumption|lia].
      * intros i j H. apply P2; lia.
    + intros j0 C2 Hj (D2 & Q1 & Q2 & Q3).
      destruct (for_range_ok (fun k s => s = rsum (Z.to_nat k) (fun k => fa i0 (Z.of_nat k) * fb (Z.of_nat k) j0)) 0 K
        (fun k sum => let* a := aget A [(i0 * K + k)%Z] in let* b := aget B [(k * N + j0)%Z] in Ok (sum + a * b)) 0) as (s & Es & Hs).
      * lia.
      * reflexivity.
      * intros k s Hk ->. rewrite HA, HB by lia. cbn [bind]. eexists. split; [reflexivity|].
        replace (Z.to_nat (k + 1)) with (S (Z.to_nat k)) by lia. cbn [rsum]. rewrite Z2Nat.id by lia. reflexivity.
      * rewrite Es. cbn [bind]. rewrite Q2 by (right; lia). cbn [bind].
        destruct (aset_get C2 [(i0 * N + j0)%Z] (fc i0 j0 + s)) as (C3 & E3 & D3 & G3 & O3); [rewrite D2; apply inb1; nia|].
        rewrite E3. exists C3. split; [reflexivity|]. split; [congruence|]. split; [|split].
        -- intros i j H. destruct (Z.eq_dec i i0) as [Ei | Ei]; [destruct (Z.eq_dec j j0) as [Ej | Ej]|].
           ++ rewrite Ei, Ej, G3, Hs. reflexivity.
           ++ rewrite O3; [apply Q1; lia|]. intros X. injection X as X. destruct (Hidx i j i0 j0); lia.
           ++ rewrite O3; [apply Q1; lia|]. intros X. injection X as X. destruct (Hidx i j i0 j0); lia.
        -- intros i j H. rewrite O3; [apply Q2; lia|]. intros X. injection X as X. destruct (Hidx i j i0 j0); lia.
        -- intros ix Hix. rewrite O3; [apply Q3; exact Hix|]. intros ->. apply Hix. eexists. split; [reflexivity|]. nia.
    + exists C2. split; [exact E|]. split; [exact D2|]. split; [|split; [|exact Q3]].
      * intros i j H1 H2. apply Q1. destruct (Z.eq_dec i i0); [right|left]; lia.
      * intros i j H1 H2. apply Q2. left. lia.
  - exists C'. split; [exact E|]. destruct I as (I1 & I2 & I3 & I4). split; [exact I1|]. split; [exact I2|exact I4].
Qed.

(** the same through the textbook matrix product, when the three operands are
    laid out row by row in arrays of exactly the right size *)
Lemma daxpy_reads n a (x y : arr R) (fx fy : Z -> R) szx szy :
  (0 <= n)%Z -> adims x = [szx] -> adims y = [szy] -> (n <= szx)%Z -> (n <= szy)%Z ->
  (forall k, (0 <= k < n)%Z -> aget x [k] = Ok (fx k)) ->
  (forall k, (0 <= k < n)%Z -> aget y [k] = Ok (fy k)) ->
  exists y', daxpy n a x y = Ok y' /\ adims y' = [szy] /\
    (forall k, (0 <= k < n)%Z -> aget y' [k] = Ok (fy k + a * fx k)) /\
    (forall ix, ~ (exists k, ix = [k] /\ (0 <= k < n)%Z) -> aget y' ix = aget y ix).
Proof.
  intros Hn Dx Dy Hx Hy Cx Cy.
  destruct (daxpy_ok n szx szy a x y fx fy Dx Dy ltac:(lia) ltac:(lia)) as (y' & E & D & G & O).
  - intros k Hk. apply (aget_inv _ _ _ (Cx k Hk)).
  - intros k Hk. apply (aget_inv _ _ _ (Cy k Hk)).
  - exists y'. split; [exact E|]. split; [exact D|]. split.
    + intros k Hk. apply aget_ok; [rewrite D; apply inb1; lia|apply G, Hk].
    + intros ix H. unfold aget. rewrite D, Dy, O; [reflexivity|]. intros k Hk ->. apply H. eauto.
Qed.

(** ** points_are_equal *)

Lemma points_iff a b : points_are_equal a b = true <->
  Rabs (fst (fst a) - fst (fst b)) < 1e-12 /\ Rabs (snd (fst a) - snd (fst b)) < 1e-12 /\ Rabs (snd a - snd b) < 1e-12.
Proof.
  destruct a as [[a0 a1] a2], b as [[b0 b1] b2]. cbn [points_are_equal fst snd].
  destruct (Rlt_dec _ _); [|split; [discriminate|tauto]]. destruct (Rlt_dec _ _); [|split; [discriminate|tauto]].
  destruct (Rlt_dec _ _); [|split; [discriminate|tauto]]. tauto.
Qed.

Lemma points_refl a : points_are_equal a a = true.
Proof. apply points_iff. rewrite !Rminus_diag_eq by reflexivity. rewrite Rabs_R0. repeat split; lra. Qed.

Lemma points_sym a b : points_are_equal a b = points_are_equal b a.
Proof.
  apply eq_true_iff_eq. rewrite !points_iff.
  rewrite (Rabs_minus_sym (fst (fst a))), (Rabs_minus_sym (snd (fst a))), (Rabs_minus_sym (snd a)). tauto.
Qed.

Lemma points_not_transitive : exists a b c,
  points_are_equal a b = true /\ points_are_equal b c = true /\ points_are_equal a c = false.
Proof.
  exists (0, 0, 0), (0.9e-12, 0, 0), (1.8e-12, 0, 0). split; [|split].
  - apply points_iff. cbn [fst snd]. rewrite (Rminus_diag_eq 0 0), Rabs_R0 by reflexivity.
    rewrite Rabs_left by lra. repeat split; lra.
  - apply points_iff. cbn [fst snd]. rewrite (Rminus_diag_eq 0 0), Rabs_R0 by reflexivity.
    rewrite Rabs_left by lra. repeat split; lra.
  - destruct (points_are_equal (0, 0, 0) (1.8e-12, 0, 0)) eqn:E; [|reflexivity].
    apply points_iff in E. cbn [fst snd] in E. rewrite Rabs_left in E by lra. lra.
Qed.

(** points declared equal are closer than 2e-12 *)
Lemma points_close a b : points_are_equal a b = true -> distance a b < 2e-12.
Proof.
  rewrite points_iff. destruct a as [[a0 a1] a2], b as [[b0 b1] b2]. cbn [fst snd]. intros (H0 & H1 & H2).
  unfold distance, distance_squared. rewrite <- (sqrt_Rsqr 2e-12) by lra. apply sqrt_lt_1_alt. unfold Rsqr.
  assert (Q : forall t, Rabs t < 1e-12 -> t * t <= 1e-12 * 1e-12).
  { intros t Ht. rewrite <- (Rabs_pos_eq (t * t)) by nra. rewrite Rabs_mult. assert (0 <= Rabs t) by apply Rabs_pos. nra. }
  apply Q in H0, H1, H2. assert (P := Rle_0_sqr (a0 - b0)); assert (P1 := Rle_0_sqr (a1 - b1)); assert (P2 := Rle_0_sqr (a2 - b2)); unfold Rsqr in *; split; lra.
Qed.
