(** * The local integrals of a pair of shells *)

From Coq Require Import ZArith List Lia Bool Reals Lra.
From Coquelicot Require Import Coquelicot.
From Verif Require Import Base Loops Sums GaussInt GaussProd NucPotSpec NucPot HeapModel OneElModel OneElProofs OneElPairs OneElSpec OneElInt LmatModel SpecModel SpecSpec SpecBoys BoysThms GfunThms SphProofs NucProofs OutercoreModel MmdModel MmdSpec MmdE MmdR MmdInt MmdD.
Import ListNotations.
Open Scope R_scope.

(** ** Propagation of an error of the special functions through the recursion *)

Lemma hpol_nonneg P X k : 0 <= P -> 0 <= X -> 0 <= hpol P X k /\ 0 <= hpol P X (S k).
Proof.
  intros HP HX. induction k as [|k (IH0 & IH1)].
  - cbn [hpol]. split; [lra|]. nra.
  - split; [exact IH1|]. rewrite hpol_SS. apply Rmult_le_pos; [exact HP|]. pose proof (pos_INR (S k)). nra.
Qed.

Section Err.
Variables (sh : (nat -> R) -> nat -> R) (p P : R).
Hypothesis HP : 0 <= P.
Hypothesis Hsh : forall f g e, (forall n, Rabs (f n - g n) <= e * p ^ n) -> forall n, Rabs (sh f n - sh g n) <= P * e * p ^ n.

Lemma hrec_err X f g e k : 0 <= e -> (forall n, Rabs (f n - g n) <= e * p ^ n) ->
  forall n, Rabs (hrec sh X f k n - hrec sh X g k n) <= hpol P (Rabs X) k * e * p ^ n.
Proof.
  intros He H0.
  assert (G : (forall n, Rabs (hrec sh X f k n - hrec sh X g k n) <= hpol P (Rabs X) k * e * p ^ n) /\
              (forall n, Rabs (hrec sh X f (S k) n - hrec sh X g (S k) n) <= hpol P (Rabs X) (S k) * e * p ^ n)).
  { induction k as [|k (IH0 & IH1)].
    - split; intros n; cbn [hrec hpol]; [rewrite Rmult_1_l; apply H0|].
      rewrite <- Rmult_minus_distr_l, Rabs_mult. replace (P * Rabs X * e * p ^ n) with (Rabs X * (P * e * p ^ n)) by ring.
      apply Rmult_le_compat_l; [apply Rabs_pos|apply Hsh; exact H0].
    - split; [exact IH1|]. intros n. rewrite !hrec_SS, hpol_SS.
      replace (INR (S k) * sh (hrec sh X f k) n + X * sh (hrec sh X f (S k)) n - (INR (S k) * sh (hrec sh X g k) n + X * sh (hrec sh X g (S k)) n))
        with (INR (S k) * (sh (hrec sh X f k) n - sh (hrec sh X g k) n) + X * (sh (hrec sh X f (S k)) n - sh (hrec sh X g (S k)) n)) by ring.
      replace (P * (INR (S k) * hpol P (Rabs X) k + Rabs X * hpol P (Rabs X) (S k)) * e * p ^ n)
        with (INR (S k) * (P * (hpol P (Rabs X) k * e) * p ^ n) + Rabs X * (P * (hpol P (Rabs X) (S k) * e) * p ^ n)) by ring.
      eapply Rle_trans; [apply Rabs_triang|]. rewrite !Rabs_mult. rewrite (Rabs_pos_eq (INR (S k))) by apply pos_INR.
      apply Rplus_le_compat; (apply Rmult_le_compat_l; [apply pos_INR || apply Rabs_pos|]); apply Hsh; assumption. }
  exact (proj1 G).
Qed.

Lemma raux_err X Y Z f g e t u v : 0 <= e -> (forall n, Rabs (f n - g n) <= e * p ^ n) ->
  Rabs (raux sh X Y Z f t u v 0 - raux sh X Y Z g t u v 0) <= hpol P (Rabs X) t * (hpol P (Rabs Y) u * (hpol P (Rabs Z) v * e)).
Proof.
  intros He H. unfold raux.
  assert (N : forall X k, 0 <= hpol P (Rabs X) k) by (intros X' k; apply hpol_nonneg; [exact HP|apply Rabs_pos]).
  eapply Rle_trans; [apply (hrec_err X _ _ (hpol P (Rabs Y) u * (hpol P (Rabs Z) v * e)))|].
  - apply Rmult_le_pos; [apply N|]. apply Rmult_le_pos; [apply N|exact He].
  - intros n. eapply Rle_trans; [apply (hrec_err Y _ _ (hpol P (Rabs Z) v * e))|].
    + apply Rmult_le_pos; [apply N|exact He].
    + intros n'. apply hrec_err; assumption.
    + lra.
  - rewrite pow_O. lra.
Qed.
End Err.

Lemma shR_err q f g e : (forall n, Rabs (f n - g n) <= e * (2 * q) ^ n) -> forall n, Rabs (shR f n - shR g n) <= 2 * q * e * (2 * q) ^ n.
Proof. intros H n. unfold shR. eapply Rle_trans; [apply H|]. cbn [pow]. lra. Qed.

Lemma shG_err q f g e : 0 <= q -> (forall n, Rabs (f n - g n) <= e * (2 * q) ^ n) -> forall n, Rabs (shG q f n - shG q g n) <= 4 * q * e * (2 * q) ^ n.
Proof.
  intros Hq H n. unfold shG. replace (f (S n) - 2 * q * f n - (g (S n) - 2 * q * g n)) with ((f (S n) - g (S n)) + - (2 * q) * (f n - g n)) by ring.
  eapply Rle_trans; [apply Rabs_triang|]. rewrite Rabs_mult, Rabs_Ropp, (Rabs_pos_eq (2 * q)) by lra. pose proof (H (S n)) as H1. pose proof (H n) as H2. cbn [pow] in H1.
  pose proof (Rmult_le_compat_l (2 * q) _ _ ltac:(lra) H2). lra.
Qed.

(** ** Evaluation of the loops *)

Lemma for_acc N (body : Z -> R -> res R) (f : nat -> R) s : (forall k s, (k < N)%nat -> body (Z.of_nat k) s = Ok (s + f k)) ->
  for_range 0 (Z.of_nat N) body s = Ok (s + rsum N f).
Proof.
  intros H. rewrite (acc_loop 0 (Z.of_nat N) body (fun k => f (Z.to_nat k)) s).
  - do 2 f_equal. replace (Z.of_nat N) with (0 + Z.of_nat N)%Z by lia. rewrite zsum_rsum. apply rsum_ext. intros k _. rewrite Z.add_0_l, Nat2Z.id. reflexivity.
  - lia.
  - intros i s' Hi. rewrite <- (Z2Nat.id i) at 1 by lia. apply H. lia.
Qed.

Section Prim.
Variables (a b c : R) (A B C : R * R * R).
Hypothesis Hq : 0 < a + b + c.
Notation q := (a + b + c).
Notation d := (mmd_geometry a b c A B C).
Notation E1 k := (pair_coef a b c (coord3 A k) (coord3 B k) (coord3 C k)).
Notation X1 k := ((a * coord3 A k + b * coord3 B k + c * coord3 C k) / q - coord3 C k).

Lemma coord3_of k (f : Z -> R) : (0 <= k < 3)%Z -> coord3 (f 0%Z, f 1%Z, f 2%Z) k = f k.
Proof. intros Hk. assert (k = 0 \/ k = 1 \/ k = 2)%Z as [-> | [-> | ->]] by lia; reflexivity. Qed.

Lemma geom_pair k i j t : (0 <= k < 3)%Z -> geom_coef d k i j t = E1 k (Z.to_nat i) (Z.to_nat j) (Z.to_nat t).
Proof.
  intros Hk. unfold geom_coef, pair_coef, mmd_geometry. cbn [md_q md_Q md_A md_B md_K].
  rewrite (coord3_of k (fun i => (a * coord3 A i + b * coord3 B i + c * coord3 C i) / q)) by exact Hk.
  rewrite (coord3_of k (fun i => exp (- (a * b / q) * (coord3 A i - coord3 B i) * (coord3 A i - coord3 B i)) * exp (- (a * c / q) * (coord3 A i - coord3 C i) * (coord3 A i - coord3 C i)) * exp (- (b * c / q) * (coord3 B i - coord3 C i) * (coord3 B i - coord3 C i)))) by exact Hk.
  reflexivity.
Qed.

Lemma geom_R2 : md_RQC2 d = X1 0%Z ^ 2 + X1 1%Z ^ 2 + X1 2%Z ^ 2.
Proof.
  unfold mmd_geometry. cbn [md_RQC2]. unfold distance_squared. destruct C as [[cx cy] cz].
  change (coord3 (cx, cy, cz) 0%Z) with cx. change (coord3 (cx, cy, cz) 1%Z) with cy. change (coord3 (cx, cy, cz) 2%Z) with cz. ring.
Qed.

Lemma mmd_sum_entry E Rr LA LB factor na la ma nb lb mb (r : nat -> nat -> nat -> R) :
  E_holds d LA LB E -> (0 <= na)%Z -> (0 <= la)%Z -> (0 <= ma)%Z -> (0 <= nb)%Z -> (0 <= lb)%Z -> (0 <= mb)%Z -> (na + la + ma = LA)%Z -> (nb + lb + mb = LB)%Z ->
  (forall t u v, (0 <= t)%Z -> (0 <= u)%Z -> (0 <= v)%Z -> (t + u + v <= LA + LB)%Z -> aget Rr [t; u; v; 0%Z] = Ok (r (Z.to_nat t) (Z.to_nat u) (Z.to_nat v))) ->
  (let* s :=
      for_range 0 (na + nb + 1) (fun t s =>
        let* Ex := aget E [0%Z; na; nb; t] in
        for_range 0 (la + lb + 1) (fun u s =>
          let* Ey := aget E [1%Z; la; lb; u] in
          for_range 0 (ma + mb + 1) (fun v s =>
            let* Ez := aget E [2%Z; ma; mb; v] in
            let* R_tuv := aget Rr [t; u; v; 0]%Z in
            Ok (s + Ex * Ey * Ez * R_tuv)) s) s) 0 in
    Ok (s * factor)) = Ok (tsum a b c A B C (Z.to_nat na) (Z.to_nat la) (Z.to_nat ma) (Z.to_nat nb) (Z.to_nat lb) (Z.to_nat mb) r * factor).
Proof.
  intros HE Hna Hla Hma Hnb Hlb Hmb SA SB HR.
  replace (na + nb + 1)%Z with (Z.of_nat (S (Z.to_nat na + Z.to_nat nb))) by lia.
  replace (la + lb + 1)%Z with (Z.of_nat (S (Z.to_nat la + Z.to_nat lb))) by lia.
  replace (ma + mb + 1)%Z with (Z.of_nat (S (Z.to_nat ma + Z.to_nat mb))) by lia.
  rewrite (for_acc (S (Z.to_nat na + Z.to_nat nb)) _ (fun t => rsum (S (Z.to_nat la + Z.to_nat lb)) (fun u => rsum (S (Z.to_nat ma + Z.to_nat mb)) (fun v =>
     E1 0%Z (Z.to_nat na) (Z.to_nat nb) t * E1 1%Z (Z.to_nat la) (Z.to_nat lb) u * E1 2%Z (Z.to_nat ma) (Z.to_nat mb) v * r t u v)))).
  - cbn [bind]. unfold tsum. rewrite Rplus_0_l. reflexivity.
  - intros t s Ht. rewrite HE by lia. cbn [bind]. rewrite geom_pair by lia. rewrite Nat2Z.id.
    apply for_acc. intros u s' Hu. rewrite HE by lia. cbn [bind]. rewrite geom_pair by lia. rewrite Nat2Z.id.
    apply for_acc. intros v s'' Hv. rewrite HE by lia. cbn [bind]. rewrite geom_pair by lia. rewrite HR by lia. cbn [bind]. rewrite !Nat2Z.id. reflexivity.
Qed.

Lemma rsum_abs n f g : (forall k, (k < n)%nat -> Rabs (f k) <= g k) -> Rabs (rsum n f) <= rsum n g.
Proof.
  induction n as [|n IH]; intros H; cbn [rsum]; [rewrite Rabs_R0; lra|]. eapply Rle_trans; [apply Rabs_triang|]. apply Rplus_le_compat; [apply IH; intros; apply H; lia|apply H; lia].
Qed.

Lemma rsum_minus n f g : rsum n f - rsum n g = rsum n (fun k => f k - g k).
Proof. induction n as [|n IH]; cbn [rsum]; [ring|]. rewrite <- IH. ring. Qed.

(** sum of the absolute values of the coefficients of one axis, weighted *)
Definition axis_weight (k : Z) (i j : nat) (P : R) : R := rsum (S (i + j)) (fun t => Rabs (E1 k i j t) * hpol P (Rabs (X1 k)) t).

Lemma tsum_err nA lA mA nB lB mB r r' P e :
  (forall t u v, (t <= nA + nB)%nat -> (u <= lA + lB)%nat -> (v <= mA + mB)%nat -> Rabs (r t u v - r' t u v) <= hpol P (Rabs (X1 0%Z)) t * (hpol P (Rabs (X1 1%Z)) u * (hpol P (Rabs (X1 2%Z)) v * e))) ->
  Rabs (tsum a b c A B C nA lA mA nB lB mB r - tsum a b c A B C nA lA mA nB lB mB r') <= e * (axis_weight 0 nA nB P * axis_weight 1 lA lB P * axis_weight 2 mA mB P).
Proof.
  intros H. unfold tsum. rewrite rsum_minus.
  eapply Rle_trans; [apply (rsum_abs _ _ (fun t => (e * (axis_weight 1 lA lB P * axis_weight 2 mA mB P)) * (Rabs (E1 0%Z nA nB t) * hpol P (Rabs (X1 0%Z)) t)))|].
  2:{ rewrite rsum_scal. fold (axis_weight 0 nA nB P). lra. }
  intros t Ht. rewrite rsum_minus.
  eapply Rle_trans; [apply (rsum_abs _ _ (fun u => (e * axis_weight 2 mA mB P * (Rabs (E1 0%Z nA nB t) * hpol P (Rabs (X1 0%Z)) t)) * (Rabs (E1 1%Z lA lB u) * hpol P (Rabs (X1 1%Z)) u)))|].
  2:{ rewrite rsum_scal. fold (axis_weight 1 lA lB P). lra. }
  intros u Hu. rewrite rsum_minus.
  eapply Rle_trans; [apply (rsum_abs _ _ (fun v => (e * (Rabs (E1 0%Z nA nB t) * hpol P (Rabs (X1 0%Z)) t) * (Rabs (E1 1%Z lA lB u) * hpol P (Rabs (X1 1%Z)) u)) * (Rabs (E1 2%Z mA mB v) * hpol P (Rabs (X1 2%Z)) v)))|].
  2:{ rewrite rsum_scal. fold (axis_weight 2 mA mB P). lra. }
  intros v Hv. rewrite <- Rmult_minus_distr_l, !Rabs_mult.
  pose proof (H t u v ltac:(lia) ltac:(lia) ltac:(lia)) as B1.
  eapply Rle_trans; [apply Rmult_le_compat_l; [|exact B1]; repeat apply Rmult_le_pos; apply Rabs_pos|]. lra.
Qed.

End Prim.

Lemma vals_extend (g : arr R) L (ex : nat -> R) e : (0 <= L)%Z -> 0 <= e -> (forall n, (0 <= n <= L)%Z -> exists v, aget g [n] = Ok v /\ Rabs (v - ex (Z.to_nat n)) <= e) ->
  exists f, vals_are g L f /\ forall n, Rabs (f n - ex n) <= e.
Proof.
  intros HL He H. exists (fun n => if le_dec n (Z.to_nat L) then match aget g [Z.of_nat n] with Ok v => v | Fail _ => 0 end else ex n). split.
  - intros n Hn. destruct (H n Hn) as (v & E & _). destruct (le_dec _ _); [|lia]. rewrite Z2Nat.id, E by lia. reflexivity.
  - intros n. destruct (le_dec n (Z.to_nat L)) as [Hle|Hgt]; [|rewrite Rminus_eq_0, Rabs_R0; exact He].
    destruct (H (Z.of_nat n)) as (v & E & Bv); [lia|]. rewrite E. rewrite Nat2Z.id in Bv. exact Bv.
Qed.

(** ** The special functions *)

(** error delta of the special function needed for r^(n-2) and angular momenta up to L, at the argument x *)
Definition special_error (daw : R -> res R) (n L : Z) (x delta : R) : Prop :=
  0 <= delta /\
  (n = 2%Z \/
   n = 1%Z /\ (x <= 30 \/ (L <= 15)%Z) /\ 15 / 10 ^ 15 <= delta \/
   n = 0%Z /\ x <= 12 /\ 15 / 10 ^ 10 <= delta \/
   n = 0%Z /\ 12 < x /\ exists dw, daw (sqrt x) = Ok dw /\ Rabs (dw - dawson_int (sqrt x)) <= delta).

(** growth factors of the recurrences for the G function *)
Lemma down_gain_mono x lo cnt : 0 <= x <= 12 -> 0 <= down_gain x lo cnt <= down_gain 12 lo cnt.
Proof.
  intros Hx. induction cnt as [|cnt IH]; cbn [down_gain]; [lra|].
  assert (P : 1 <= 2 * INR (lo + S cnt) - 1) by (assert (1 <= INR (lo + S cnt)) by (replace 1 with (INR 1) by reflexivity; apply le_INR; lia); lra).
  assert (Q : 0 < / (2 * INR (lo + S cnt) - 1)) by (apply Rinv_0_lt_compat; lra).
  split.
  - apply Rmult_le_pos; [lra|]. unfold Rdiv. apply Rmult_le_pos; lra.
  - apply Rmult_le_compat; [lra| |lra|].
    + unfold Rdiv. apply Rmult_le_pos; lra.
    + unfold Rdiv. apply Rmult_le_compat_r; lra.
Qed.

Fixpoint gain_max (k : nat) : R := match k with O => 1 | S k' => gain_max k' * Rmax 1 (24 / (2 * INR k - 1)) end.

Lemma gain_max_ge k : 1 <= gain_max k.
Proof. induction k as [|k IH]; cbn [gain_max]; [lra|]. pose proof (Rmax_l 1 (24 / (2 * INR (S k) - 1))). nra. Qed.

Lemma down_gain_le lo cnt : down_gain 12 lo cnt <= gain_max (lo + cnt).
Proof.
  induction cnt as [|cnt IH]; [apply gain_max_ge|]. rewrite <- plus_n_Sm. cbn [down_gain gain_max].
  assert (P : 1 <= INR (S (lo + cnt))) by (replace 1 with (INR 1) by reflexivity; apply le_INR; lia).
  pose proof (Rmax_r 1 (24 / (2 * INR (S (lo + cnt)) - 1))) as M. replace (lo + S cnt)%nat with (S (lo + cnt)) by lia. replace (2 * 12) with 24 by lra.
  pose proof (down_gain_mono 12 lo cnt ltac:(lra)) as (N & _).
  apply Rmult_le_compat; [exact N| |exact IH|exact M]. unfold Rdiv. apply Rmult_le_pos; [lra|]. left. apply Rinv_0_lt_compat. lra.
Qed.

Lemma gain_max_12 : gain_max 12 <= 120000.
Proof.
  cbn [gain_max]. rewrite !Rmax_right; rewrite !INR_IZR_INZ; cbn [Z.of_nat Pos.of_succ_nat Pos.succ]; lra.
Qed.

Lemma gain_max_bound k : gain_max k <= 120000.
Proof.
  destruct (le_lt_dec k 12) as [H|H].
  - eapply Rle_trans; [|apply gain_max_12]. replace 12%nat with (k + (12 - k))%nat by lia. generalize (12 - k)%nat. intros m. induction m as [|m IH]; [rewrite Nat.add_0_r; lra|].
    rewrite <- plus_n_Sm. cbn [gain_max]. pose proof (gain_max_ge (k + m)). pose proof (Rmax_l 1 (24 / (2 * INR (S (k + m)) - 1))). nra.
  - replace k with (12 + (k - 12))%nat by lia. generalize (k - 12)%nat. intros m. induction m as [|m IH]; [apply gain_max_12|].
    rewrite <- plus_n_Sm. cbn [gain_max]. assert (P : 13 <= INR (S (12 + m))) by (replace 13 with (INR 13) by (rewrite INR_IZR_INZ; reflexivity); apply le_INR; lia).
    rewrite Rmax_left; [lra|]. apply Rmult_le_reg_r with (2 * INR (S (12 + m)) - 1); [lra|]. unfold Rdiv. rewrite Rmult_assoc, Rinv_l by lra. lra.
Qed.

Lemma up_gain_bound x n : 12 < x -> (n <= 18)%nat -> 0 <= up_gain x n <= 1.
Proof.
  intros Hx Hn.
  assert (M : forall k, 0 <= up_gain x k <= up_gain 12 k).
  { induction k as [|k IH]; cbn [up_gain]; [lra|]. pose proof (pos_INR k) as Pk.
    assert (D : 0 <= (2 * INR k + 1) / (2 * x) <= (2 * INR k + 1) / (2 * 12)).
    { unfold Rdiv. assert (0 < / (2 * x)) by (apply Rinv_0_lt_compat; lra). assert (/ (2 * x) <= / (2 * 12)) by (apply Rinv_le_contravar; lra). split; [apply Rmult_le_pos; lra|]. apply Rmult_le_compat_l; lra. }
    split; [apply Rmult_le_pos; lra|]. apply Rmult_le_compat; lra. }
  split; [apply M|]. eapply Rle_trans; [apply M|].
  do 19 (destruct n as [|n]; [cbn [up_gain]; rewrite ?INR_IZR_INZ; cbn [Z.of_nat Pos.of_succ_nat Pos.succ]; lra|]). lia.
Qed.

Lemma special_gfun daw x L delta : (0 <= L <= 18)%Z -> 0 <= x -> special_error daw 0 L x delta ->
  exists g, gfun_values daw x L (aundef [100]%Z) = Ok g /\ forall n, (0 <= n <= L)%Z -> exists v, aget g [n] = Ok v /\ Rabs (v - gfun (Z.to_nat n) x) <= delta.
Proof.
  intros HL Hx (Hd & [H | [(H & _) | [(_ & Hs & Hb) | (_ & Hl & dw & Ed & Bd)]]]); [lia|lia| |].
  - destruct (gfun_small x L 100 (aundef [100]%Z) ltac:(lia) ltac:(lra) daw eq_refl ltac:(lia)) as (g & E & _ & V & _). exists g. split; [exact E|].
    intros n Hn. destruct (V n Hn) as (v & Ev & Bv). exists v. split; [exact Ev|]. eapply Rle_trans; [exact Bv|].
    pose proof (down_gain_mono x (Z.to_nat n) (Z.to_nat (L - n)) ltac:(lra)). pose proof (down_gain_le (Z.to_nat n) (Z.to_nat (L - n))). pose proof (gain_max_bound (Z.to_nat n + Z.to_nat (L - n))). lra.
  - destruct (gfun_large x L 100 (aundef [100]%Z) daw dw delta ltac:(lia) Hl Ed Bd eq_refl ltac:(lia)) as (g & E & _ & V & _). exists g. split; [exact E|].
    intros n Hn. destruct (V n Hn) as (v & Ev & Bv). exists v. split; [exact Ev|]. eapply Rle_trans; [exact Bv|].
    pose proof (up_gain_bound x (Z.to_nat n) Hl ltac:(lia)) as G. assert (S1 : 1 <= sqrt x) by (rewrite <- sqrt_1; apply sqrt_le_1; lra).
    assert (delta / sqrt x <= delta). { apply Rmult_le_reg_r with (sqrt x); [lra|]. unfold Rdiv. rewrite Rmult_assoc, Rinv_l by lra. nra. }
    assert (0 <= delta / sqrt x) by (unfold Rdiv; apply Rmult_le_pos; [exact Hd|]; left; apply Rinv_0_lt_compat; lra). nra.
Qed.

Lemma special_boys daw x L delta : (0 <= L <= 18)%Z -> 0 <= x -> special_error daw 1 L x delta ->
  exists g, boys_values x L (aundef [100]%Z) = Ok g /\ forall n, (0 <= n <= L)%Z -> exists v, aget g [n] = Ok v /\ Rabs (v - boys (Z.to_nat n) x) <= delta.
Proof.
  intros HL Hx (Hd & [H | [(_ & Hc & Hb) | [(H & _) | (H & _)]]]); [lia| |lia|lia].
  destruct (boys_values_accurate x L 100 (aundef [100]%Z) ltac:(lia) Hx Hc eq_refl ltac:(lia)) as (g & E & _ & V & _). exists g. split; [exact E|].
  intros n Hn. destruct (V n Hn) as (v & Ev & Bv). exists v. split; [exact Ev|]. lra.
Qed.
