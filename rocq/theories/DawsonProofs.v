(** * Chebyshev summation, parity and totality of Dawson's integral *)

From Coq Require Import ZArith List Lia Bool Reals Lra.
From Verif Require Import Base Loops DawsonTable DawsonModel OneElProofs.
Import ListNotations.
Open Scope R_scope.

(** ** Specification: Chebyshev polynomials of the first kind *)

Fixpoint cheb_pair (n : nat) (x : R) : R * R :=   (* (T_n, T_{n+1}) *)
  match n with
  | O => (1, x)
  | S k => let '(a, b) := cheb_pair k x in (b, 2 * x * b - a)
  end.
Definition cheb (n : nat) (x : R) : R := fst (cheb_pair n x).

Lemma cheb_0 x : cheb 0 x = 1. Proof. reflexivity. Qed.
Lemma cheb_1 x : cheb 1 x = x. Proof. reflexivity. Qed.
Lemma cheb_SS n x : cheb (S (S n)) x = 2 * x * cheb (S n) x - cheb n x.
Proof. unfold cheb. cbn [cheb_pair]. destruct (cheb_pair n x) as [a b]. reflexivity. Qed.

(** the defining property T_n(cos t) = cos (n t) *)
Lemma cheb_cos n t : cheb n (cos t) = cos (INR n * t).
Proof.
  enough (H : cheb n (cos t) = cos (INR n * t) /\ cheb (S n) (cos t) = cos (INR (S n) * t)) by apply H.
  induction n as [|n [I1 I2]].
  - split; [rewrite cheb_0, Rmult_0_l, cos_0; reflexivity|]. rewrite cheb_1. f_equal. cbn. ring.
  - split; [exact I2|]. rewrite cheb_SS, I1, I2.
    replace (INR (S (S n)) * t) with (INR (S n) * t + t) by (rewrite (S_INR (S n)); ring).
    replace (INR n * t) with (INR (S n) * t - t) by (rewrite S_INR; ring).
    rewrite cos_plus, cos_minus. ring.
Qed.

Lemma cheb_bound n x : -1 <= x <= 1 -> Rabs (cheb n x) <= 1.
Proof.
  intros H. rewrite <- (cos_acos x) by lra. rewrite cheb_cos. apply Rabs_le. apply COS_bound.
Qed.

(** sum_{k=0}^{n} a_k T_k(x) *)
Definition cheb_sum (n : nat) (a : nat -> R) (x : R) : R := rsum (S n) (fun k => a k * cheb k x).

Lemma clenshaw x (a : arr R) (f : nat -> R) degree : (0 <= degree)%Z ->
  (forall k, (k <= Z.to_nat degree)%nat -> aget a [Z.of_nat k] = Ok (f k)) ->
  chebyshev_series x a degree = Ok (cheb_sum (Z.to_nat degree) f x).
Proof.
  intros Hd Ha. unfold chebyshev_series. destruct (Z.ltb_spec degree 0); [lia|].
  destruct (for_down_ok (fun k '(yp1, yp2) => (0 <= k <= degree)%Z /\
     rsum (S (Z.to_nat k)) (fun j => f j * cheb j x) + (yp1 * cheb (S (Z.to_nat k)) x - yp2 * cheb (Z.to_nat k) x)
     = cheb_sum (Z.to_nat degree) f x)
     degree 1 (fun k '(yp1, yp2) => let* ak := aget a [k] in Ok ((x + x) * yp1 - yp2 + ak, yp1)) (0, 0)) as ([y1 y2] & E & I).
  - lia.
  - split; [lia|]. unfold cheb_sum. ring.
  - intros k [y1 y2] Hk (Hr & I).
    assert (G := Ha (Z.to_nat k) ltac:(lia)). rewrite Z2Nat.id in G by lia. rewrite G. cbn [bind].
    eexists. split; [reflexivity|]. split; [lia|]. rewrite <- I.
    replace (Z.to_nat k) with (S (Z.to_nat (k - 1))) by lia. set (n := Z.to_nat (k - 1)).
    cbn [rsum]. rewrite (cheb_SS n). ring.
  - rewrite E. cbn [bind]. assert (G := Ha 0%nat ltac:(lia)). change (Z.of_nat 0) with 0%Z in G. rewrite G. cbn [bind].
    destruct I as (_ & I). change (Z.to_nat (1 - 1)) with 0%nat in I. rewrite <- I. cbn [rsum]. rewrite cheb_0, cheb_1. f_equal. ring.
Qed.

Lemma chebyshev_negative_degree x a degree : (degree < 0)%Z -> chebyshev_series x a degree = Ok 0.
Proof. intros H. unfold chebyshev_series. destruct (Z.ltb_spec degree 0); [reflexivity|lia]. Qed.

(** ** The Chebyshev pieces *)

Definition piece (c : list (Z * Z)) (lo up x : R) : R :=
  cheb_sum (length c - 1) (fun k => dec (nth k c (0, 0)%Z)) ((x - (up + lo) / 2) / ((up - lo) / 2)).

Lemma dawson_chebyshev_ok c lo up x : c <> [] ->
  dawson_chebyshev c lo up x = Ok (if Rlt_dec 0 x then piece c lo up (Rabs x) else - piece c lo up (Rabs x)).
Proof.
  intros Hc. assert (L : (0 < length c)%nat) by (destruct c; [contradiction|cbn; lia]).
  unfold dawson_chebyshev, piece.
  rewrite (clenshaw _ _ (fun k => dec (nth k c (0, 0)%Z))).
  - cbn [bind]. replace (Z.to_nat (Z.of_nat (length c) - 1)) with (length c - 1)%nat by lia. reflexivity.
  - lia.
  - intros k Hk. rewrite (aget_oflist (map dec c) (Z.of_nat k) (dec (0, 0)%Z)).
    + rewrite Nat2Z.id, map_nth. reflexivity.
    + rewrite map_length. lia.
Qed.

(** ** The power series *)

(** (2j+1)!! *)
Fixpoint odd_fact (j : nat) : R := match j with O => 1 | S k => odd_fact k * (2 * INR (S k) + 1) end.

Lemma odd_fact_pos j : 0 < odd_fact j.
Proof. induction j as [|j IH]; cbn [odd_fact]; [lra|]. apply Rmult_lt_0_compat; [exact IH|]. assert (H := pos_INR (S j)). lra. Qed.

(** the j-th term of the series divided by x *)
Definition pterm (x : R) (j : nat) : R := (- 2 * x * x) ^ j / odd_fact j.

Lemma pterm_S x j : pterm x (S j) = pterm x j * (- 2 * x * x / (2 * INR (S j) + 1)).
Proof.
  unfold pterm. cbn [odd_fact]. assert (H := odd_fact_pos j). assert (H1 := pos_INR (S j)).
  rewrite <- tech_pow_Rmult. field. split; lra.
Qed.

Lemma pterm_opp x j : pterm (- x) j = pterm x j.
Proof. unfold pterm. f_equal. f_equal. ring. Qed.

(** what the loop computes: the sum of the first terms, stopping at the first
    term that is small compared with the sum *)
Lemma dawson_loop_spec fuel x : forall j sum,
  sum = rsum j (pterm x) ->
  dawson_loop fuel (- 2 * x * x) sum (pterm x j) (odd_fact j) ((- 2 * x * x) ^ j) (Z.of_nat j) = Fail NoFuel
  \/ exists N, (j < N)%nat /\
     dawson_loop fuel (- 2 * x * x) sum (pterm x j) (odd_fact j) ((- 2 * x * x) ^ j) (Z.of_nat j) = Ok (rsum N (pterm x)) /\
     Rabs (pterm x N) <= ldbl_epsilon / 2 * Rabs (rsum N (pterm x)).
Proof.
  induction fuel as [|fuel IH]; intros j sum Hs; [left; reflexivity|]. cbn [dawson_loop].
  replace (Z.of_nat j + 1)%Z with (Z.of_nat (S j)) by lia.
  replace (odd_fact j * IZR (Z.of_nat (S j) + Z.of_nat (S j) + 1)) with (odd_fact (S j))
    by (cbn [odd_fact]; rewrite !plus_IZR, <- INR_IZR_INZ; ring).
  replace ((-2 * x * x) ^ j * (-2 * x * x)) with ((-2 * x * x) ^ S j) by (cbn; ring).
  change ((-2 * x * x) ^ S j / odd_fact (S j)) with (pterm x (S j)).
  replace (sum + pterm x j) with (rsum (S j) (pterm x)) by (rewrite Hs; reflexivity).
  destruct (Rlt_dec _ _) as [H | H].
  - destruct (IH (S j) (rsum (S j) (pterm x)) eq_refl) as [E | (N & HN & E & B)]; [left; exact E|right].
    exists N. split; [lia|]. split; assumption.
  - right. exists (S j). split; [lia|]. split; [reflexivity|]. lra.
Qed.

Lemma pterm_abs_le x j : Rabs x <= 1 -> Rabs (pterm x j) <= (2 / 3) ^ j.
Proof.
  intros Hx. assert (X2 : 0 <= x * x <= 1) by (unfold Rabs in Hx; destruct (Rcase_abs x); nra).
  induction j as [|j IH].
  - unfold pterm. cbn. rewrite Rabs_pos_eq; lra.
  - rewrite pterm_S, Rabs_mult, Rmult_comm. cbn [pow]. apply Rmult_le_compat; try apply Rabs_pos; [|exact IH].
    assert (H1 := pos_INR j). rewrite S_INR in *.
    rewrite Rabs_left1.
    + apply (Rmult_le_reg_r (2 * (INR j + 1) + 1)); [lra|]. unfold Rdiv. rewrite Ropp_mult_distr_l, Rmult_assoc, Rinv_l by lra. nra.
    + apply Rmult_le_reg_r with (2 * (INR j + 1) + 1); [lra|]. unfold Rdiv. rewrite Rmult_assoc, Rinv_l by lra. nra.
Qed.

(** the even and odd partial sums bracket: 1/3 <= S_N for N >= 1 *)
Lemma psum_bounds x : Rabs x <= 1 -> forall n,
  1 / 3 <= rsum (S (n + n)) (pterm x) <= 1 /\ 1 / 3 <= rsum (S (S (n + n))) (pterm x) <= 1.
Proof.
  intros Hx. assert (X2 : 0 <= x * x <= 1) by (unfold Rabs in Hx; destruct (Rcase_abs x); nra).
  (* terms alternate and decrease in size *)
  assert (A : forall n, 0 <= pterm x (n + n) /\ - (2 / 3) * pterm x (n + n) <= pterm x (S (n + n)) <= 0).
  { induction n as [|n [I1 I2]].
    - rewrite pterm_S. cbn [plus]. replace (pterm x 0) with 1 by (unfold pterm; cbn; field). cbn [INR]. split; [lra|]. split; nra.
    - replace (S n + S n)%nat with (S (S (n + n))) by lia.
      assert (P : 0 <= pterm x (S (S (n + n)))).
      { rewrite pterm_S. assert (H1 := pos_INR (S (S (n + n)))). 
        replace (pterm x (S (n + n)) * (-2 * x * x / (2 * INR (S (S (n + n))) + 1)))
          with ((- pterm x (S (n + n))) * (2 * (x * x) * / (2 * INR (S (S (n + n))) + 1))) by (unfold Rdiv; ring).
        apply Rmult_le_pos; [lra|]. apply Rmult_le_pos; [lra|]. left. apply Rinv_0_lt_compat. lra. }
      split; [exact P|]. rewrite (pterm_S x (S (S (n + n)))).
      set (p := pterm x (S (S (n + n)))) in *. assert (H1 := pos_INR (S (n + n))).
      rewrite (S_INR (S (S (n + n)))), (S_INR (S (n + n))). set (k := INR (S (n + n))) in *.
      assert (Q : 0 <= x * x / (2 * (k + 1 + 1) + 1) <= 1 / 3).
      { split.
        - apply Rmult_le_pos; [lra|]. left. apply Rinv_0_lt_compat. lra.
        - apply Rmult_le_reg_r with (2 * (k + 1 + 1) + 1); [lra|]. unfold Rdiv. rewrite Rmult_assoc, Rinv_l by lra. lra. }
      replace (-2 * x * x / (2 * (k + 1 + 1) + 1)) with (-2 * (x * x / (2 * (k + 1 + 1) + 1))) by (unfold Rdiv; ring).
      set (q := x * x / (2 * (k + 1 + 1) + 1)) in *. split; nra. }
  (* sizes decrease also from odd to even *)
  assert (B : forall n, pterm x (S (S (n + n))) <= - (2 / 3) * pterm x (S (n + n))).
  { intros n. rewrite (pterm_S x (S (n + n))). destruct (A n) as (_ & A1 & A2).
    set (p := pterm x (S (n + n))) in *. assert (H1 := pos_INR (S (n + n))). rewrite (S_INR (S (n + n))). set (k := INR (S (n + n))) in *.
    assert (Q : 0 <= x * x / (2 * (k + 1) + 1) <= 1 / 3).
    { split.
      - apply Rmult_le_pos; [lra|]. left. apply Rinv_0_lt_compat. lra.
      - apply Rmult_le_reg_r with (2 * (k + 1) + 1); [lra|]. unfold Rdiv. rewrite Rmult_assoc, Rinv_l by lra. lra. }
    replace (-2 * x * x / (2 * (k + 1) + 1)) with (-2 * (x * x / (2 * (k + 1) + 1))) by (unfold Rdiv; ring).
    set (q := x * x / (2 * (k + 1) + 1)) in *. nra. }
  assert (M : forall n, 1 / 3 <= rsum (S (S (n + n))) (pterm x) /\ rsum (S (n + n)) (pterm x) <= 1).
  { induction n as [|n [I1 I2]].
    - destruct (A 0%nat) as (A1 & A2 & A3). cbn [plus rsum] in *. replace (pterm x 0) with 1 in * by (unfold pterm; cbn; field). lra.
    - replace (S n + S n)%nat with (S (S (n + n))) by lia.
      destruct (A n) as (A1 & A2 & A3). destruct (A (S n)) as (B1 & B2 & B3).
      replace (S n + S n)%nat with (S (S (n + n))) in * by lia.
      specialize (B n). cbn [rsum] in *. split; lra. }
  intros n. destruct (M n) as (M1 & M2). destruct (A n) as (A1 & A2 & A3).
  assert (E : rsum (S (S (n + n))) (pterm x) = rsum (S (n + n)) (pterm x) + pterm x (S (n + n))) by reflexivity.
  rewrite E in *. split; split; lra.
Qed.

Lemma psum_pos x N : Rabs x <= 1 -> (1 <= N)%nat -> 1 / 3 <= rsum N (pterm x) <= 1.
Proof.
  intros Hx HN. destruct (psum_bounds x Hx ((N - 1) / 2)) as (B1 & B2).
  assert (D := Nat.div_mod (N - 1) 2 ltac:(lia)). assert (M := Nat.mod_upper_bound (N - 1) 2 ltac:(lia)).
  set (k := ((N - 1) / 2)%nat) in *.
  destruct (Nat.eq_dec ((N - 1) mod 2) 0) as [E | E].
  - replace N with (S (k + k)) by lia. exact B1.
  - replace N with (S (S (k + k))) by lia. exact B2.
Qed.

(** the loop ends within 113 iterations *)
Lemma small_after : (2 / 3) ^ 113 <= ldbl_epsilon / 2 * (1 / 3).
Proof.
  unfold ldbl_epsilon.
  apply Rmult_le_reg_r with (3 ^ 113); [apply pow_lt; lra|].
  replace ((2 / 3) ^ 113 * 3 ^ 113) with (2 ^ 113) by (rewrite <- Rpow_mult_distr; f_equal; lra).
  apply Rmult_le_reg_r with (2 ^ 64); [apply pow_lt; lra|].
  replace (/ 2 ^ 63 / 2 * (1 / 3) * 3 ^ 113 * 2 ^ 64) with (3 ^ 112).
  2: { replace (2 ^ 64) with (2 ^ 63 * 2) by ring. change (3 ^ 113) with (3 * 3 ^ 112). field. }
  rewrite <- pow_add. rewrite !pow_IZR. apply IZR_le. vm_compute. discriminate.
Qed.


Lemma dawson_loop_ends x : Rabs x <= 1 -> forall fuel j sum, sum = rsum j (pterm x) -> (0 < fuel)%nat -> (113 <= fuel + j)%nat ->
  dawson_loop fuel (- 2 * x * x) sum (pterm x j) (odd_fact j) ((- 2 * x * x) ^ j) (Z.of_nat j) <> Fail NoFuel.
Proof.
  intros Hx. induction fuel as [|fuel IH]; intros j sum Hs H0 HF; [lia|]. cbn [dawson_loop].
  replace (Z.of_nat j + 1)%Z with (Z.of_nat (S j)) by lia.
  replace (odd_fact j * IZR (Z.of_nat (S j) + Z.of_nat (S j) + 1)) with (odd_fact (S j))
    by (cbn [odd_fact]; rewrite !plus_IZR, <- INR_IZR_INZ; ring).
  replace ((-2 * x * x) ^ j * (-2 * x * x)) with ((-2 * x * x) ^ S j) by (cbn; ring).
  change ((-2 * x * x) ^ S j / odd_fact (S j)) with (pterm x (S j)).
  replace (sum + pterm x j) with (rsum (S j) (pterm x)) by (rewrite Hs; reflexivity).
  destruct (Rlt_dec _ _) as [H | H]; [|discriminate].
  destruct (Nat.eq_dec fuel 0) as [-> | Hn]; [|apply IH; [reflexivity|lia|lia]].
  exfalso.
  assert (B := pterm_abs_le x (S j) Hx). assert (P := psum_pos x (S j) Hx ltac:(lia)).
  assert (Q : (2 / 3) ^ S j <= (2 / 3) ^ 113).
  { replace (S j) with (113 + (S j - 113))%nat by lia. rewrite pow_add.
    assert (0 < (2 / 3) ^ 113) by (apply pow_lt; lra).
    assert (W : (2 / 3) ^ (S j - 113) <= 1 ^ (S j - 113)) by (apply pow_incr; lra). rewrite pow1 in W.
    assert (0 <= (2 / 3) ^ (S j - 113)) by (apply pow_le; lra). nra. }
  assert (U := small_after). assert (EP : 0 < ldbl_epsilon / 2) by (unfold ldbl_epsilon; assert (0 < / 2 ^ 63) by (apply Rinv_0_lt_compat, pow_lt; lra); lra).
  rewrite Rabs_pos_eq in H by lra. nra.
Qed.

Definition dawson_fuel : nat := 113.

Lemma power_series_spec x : Rabs x <= 1 -> exists N, (1 <= N)%nat /\
  dawson_power_series dawson_fuel x = Ok (x * rsum N (pterm x)) /\
  (x <> 0 -> Rabs (pterm x N) <= ldbl_epsilon / 2 * Rabs (rsum N (pterm x))).
Proof.
  intros Hx. unfold dawson_power_series. destruct (Req_EM_T x 0) as [-> | Hn].
  - exists 1%nat. split; [lia|]. split; [f_equal; ring|]. congruence.
  - assert (S := dawson_loop_spec dawson_fuel x 0 0 eq_refl). assert (T := dawson_loop_ends x Hx dawson_fuel 0 0 eq_refl).
    replace (pterm x 0) with 1 in S, T by (unfold pterm; cbn; field). cbn [odd_fact pow Z.of_nat] in S, T.
    destruct S as [E | (N & HN & E & B)]; [exfalso; apply T; [unfold dawson_fuel; lia|unfold dawson_fuel; lia|exact E]|].
    exists N. split; [lia|]. rewrite E. cbn [bind]. auto.
Qed.

Lemma power_series_odd fuel x : dawson_power_series fuel (- x) =
  match dawson_power_series fuel x with Ok v => Ok (- v) | Fail e => Fail e end.
Proof.
  unfold dawson_power_series. destruct (Req_EM_T (- x) 0) as [E | E]; destruct (Req_EM_T x 0) as [F | F]; try lra.
  - f_equal. ring.
  - replace (-2 * - x * - x) with (-2 * x * x) by ring.
    destruct (dawson_loop fuel (-2 * x * x) 0 1 1 1 0); cbn [bind]; [|reflexivity]. f_equal. ring.
Qed.

(** ** The asymptotic expansion *)

Lemma asymptotic_odd x : x <> 0 -> dawson_asymptotic (- x) =
  match dawson_asymptotic x with Ok v => Ok (- v) | Fail e => Fail e end.
Proof.
  intros Hx. unfold dawson_asymptotic. replace (- x * - x) with (x * x) by ring.
  destruct (aset _ _ _) as [t|]; cbn [bind]; [|reflexivity]. destruct (aset t _ _) as [t'|]; cbn [bind]; [|reflexivity].
  destruct (asym_loop _ _ _ _ _ _) as [[t2 n]|]; cbn [bind]; [|reflexivity].
  destruct (for_down _ _ _ _) as [s|]; cbn [bind]; [|reflexivity]. f_equal. field. lra.
Qed.

(** ** The whole function is odd *)

Lemma chebyshev_piece_odd c lo up x : c <> [] -> x <> 0 -> dawson_chebyshev c lo up (- x) =
  match dawson_chebyshev c lo up x with Ok v => Ok (- v) | Fail e => Fail e end.
Proof.
  intros Hc Hx. rewrite !dawson_chebyshev_ok by exact Hc. rewrite Rabs_Ropp.
  destruct (Rlt_dec 0 (- x)); destruct (Rlt_dec 0 x); try lra; f_equal; ring.
Qed.

Lemma dawson_odd fuel x : dawsons_integral fuel (- x) =
  match dawsons_integral fuel x with Ok v => Ok (- v) | Fail e => Fail e end.
Proof.
  unfold dawsons_integral. rewrite Rabs_Ropp. destruct (Rle_dec (Rabs x) 1) as [H | H]; [apply power_series_odd|].
  assert (Hx : x <> 0) by (intros ->; rewrite Rabs_R0 in H; lra).
  repeat (destruct (Rle_dec _ _); [apply chebyshev_piece_odd; [discriminate|exact Hx]|]).
  apply asymptotic_odd. exact Hx.
Qed.

(** ** The asymptotic expansion does not fail *)

(** (2k-1)!! / (2 x^2)^k *)
Fixpoint aterm (x : R) (k : nat) : R :=
  match k with O => 1 | S j => aterm x j * (2 * INR j + 1) / (2 * x * x) end.

Definition holds_terms (x : R) (t : arr R) (n : Z) : Prop :=
  adims t = [51%Z] /\ forall k, (Z.of_nat k < n)%Z -> aget t [Z.of_nat k] = Ok (aterm x k).

Lemma asym_loop_ok x : x <> 0 -> forall fuel n t xn fa,
  (2 <= n <= 51)%Z -> (52 <= Z.of_nat fuel + n)%Z -> (0 < fuel)%nat ->
  holds_terms x t n -> xn <> 0 -> fa / xn = aterm x (Z.to_nat (n - 1)) ->
  (forall k, (1 < k < Z.to_nat n)%nat -> ldbl_epsilon / 2 <= aterm x k) ->
  exists t' n', asym_loop fuel t (x * x + x * x) xn fa n = Ok (t', n') /\ (2 <= n' <= 51)%Z /\
    holds_terms x t' (Z.min 51 (n' + 1)) /\
    (n' = 51%Z \/ aterm x (Z.to_nat n') < ldbl_epsilon / 2) /\
    (forall k, (1 < k < Z.to_nat n')%nat -> ldbl_epsilon / 2 <= aterm x k).
Proof.
  intros Hx. induction fuel as [|fuel IH]; intros n t xn fa Hn HF H0 Ht Hxn Hfa Hbig; [lia|].
  cbn [asym_loop]. unfold asymptotic_cutoff. destruct (Z.leb_spec n 50) as [L | L].
  2: { assert (n = 51%Z) by lia. subst n. exists t, 51%Z. split; [reflexivity|]. split; [lia|]. split; [exact Ht|]. split; [left; reflexivity|exact Hbig]. }
  assert (D : 2 * x * x <> 0) by nra.
  assert (E : fa * IZR (n + n - 1) / (xn * (x * x + x * x)) = aterm x (Z.to_nat n)).
  { replace (Z.to_nat n) with (S (Z.to_nat (n - 1))) by lia. cbn [aterm]. rewrite <- Hfa.
    rewrite INR_IZR_INZ, Z2Nat.id by lia. rewrite !minus_IZR, !plus_IZR. field. split; [exact Hxn|nra]. }
  destruct Ht as (Hd & Ht).
  destruct (aset_get t [n] (aterm x (Z.to_nat n))) as (t' & Es & Hd' & Hget & Hoth).
  { rewrite Hd. apply inb1. lia. }
  rewrite E, Es. cbn [bind]. rewrite Hget. cbn [bind].
  assert (T' : holds_terms x t' (n + 1)).
  { split; [congruence|]. intros k Hk. destruct (Z.eq_dec (Z.of_nat k) n) as [Q | Q].
    - rewrite Q, Hget. do 2 f_equal. lia.
    - rewrite Hoth by congruence. apply Ht. lia. }
  destruct (Rlt_dec _ _) as [Hs | Hs].
  - exists t', n. split; [reflexivity|]. split; [lia|]. split; [|split; [right; exact Hs|exact Hbig]].
    replace (Z.min 51 (n + 1)) with (n + 1)%Z by lia. exact T'.
  - apply IH; [lia|lia|lia|exact T'|nra| |].
    + rewrite E. f_equal. lia.
    + intros k Hk. destruct (Nat.eq_dec k (Z.to_nat n)) as [-> | Q]; [lra|]. apply Hbig. lia.
Qed.

Lemma asymptotic_ok x : x <> 0 -> exists N, (2 <= N <= 50)%nat /\
  dawson_asymptotic x = Ok (rsum (S N) (aterm x) / (2 * x)) /\
  (N = 50%nat \/ aterm x N < ldbl_epsilon / 2) /\
  (forall k, (1 < k < N)%nat -> ldbl_epsilon / 2 <= aterm x k).
Proof.
  intros Hx. unfold dawson_asymptotic, asymptotic_cutoff.
  destruct (aset_get (aundef [(50 + 1)%Z]) [0%Z] 1) as (t0 & E0 & D0 & G0 & O0); [apply inb1; lia|].
  rewrite E0. cbn [bind].
  destruct (aset_get t0 [1%Z] (1 / (x * x + x * x))) as (t1 & E1 & D1 & G1 & O1); [rewrite D0; apply inb1; lia|].
  rewrite E1. cbn [bind].
  destruct (asym_loop_ok x Hx 51 2 t1 (x * x + x * x) 1) as (t2 & n & E & Hn & (Hd & Ht) & Hex & Hbig).
  - lia.
  - lia.
  - lia.
  - split; [rewrite D1, D0; reflexivity|]. intros k Hk. destruct k as [|[|k]]; [| |lia].
    + cbn [Z.of_nat aterm]. rewrite O1 by discriminate. exact G0.
    + change (Z.of_nat 1) with 1%Z. rewrite G1. cbn [aterm]. f_equal. cbn [INR]. field. nra.
  - nra.
  - change (Z.to_nat (2 - 1)) with 1%nat. cbn [aterm INR]. field. nra.
  - intros k Hk. change (Z.to_nat 2) with 2%nat in Hk. lia.
  - rewrite E. cbn [bind].
    set (m := if (50 <? n)%Z then 50%Z else n).
    assert (Hm : (2 <= m <= 50)%Z /\ (m < Z.min 51 (n + 1))%Z) by (unfold m; destruct (Z.ltb_spec 50 n); lia).
    destruct (for_down_ok (fun k s => (-1 <= k <= m)%Z /\ s + rsum (Z.to_nat (k + 1)) (aterm x) = rsum (S (Z.to_nat m)) (aterm x))
       m 0 (fun n0 Sn => let* tn := aget t2 [n0] in Ok (Sn + tn)) 0) as (s & Es & Hs).
    + lia.
    + split; [lia|]. replace (Z.to_nat (m + 1)) with (S (Z.to_nat m)) by lia. ring.
    + intros k s Hk (Hr & I). assert (G := Ht (Z.to_nat k) ltac:(lia)). rewrite Z2Nat.id in G by lia. rewrite G. cbn [bind].
      eexists. split; [reflexivity|]. split; [lia|]. rewrite <- I.
      replace (Z.to_nat (k + 1)) with (S (Z.to_nat k)) by lia. replace (k - 1 + 1)%Z with k by lia. cbn [rsum]. ring.
    + rewrite Es. cbn [bind]. exists (Z.to_nat m). split; [lia|]. destruct Hs as (_ & Hs).
      change (Z.to_nat (0 - 1 + 1)) with 0%nat in Hs. cbn [rsum] in Hs. rewrite Rplus_0_r in Hs. rewrite Hs.
      split; [replace (2 * x) with (x + x) by ring; reflexivity|]. split.
      * unfold m. destruct (Z.ltb_spec 50 n) as [L | L]; [left; reflexivity|].
        destruct Hex as [-> | Hex]; [lia|]. right. exact Hex.
      * intros k Hk. apply Hbig. unfold m in Hk. destruct (Z.ltb_spec 50 n); lia.
Qed.

Lemma dawson_total x : exists v, dawsons_integral dawson_fuel x = Ok v.
Proof.
  unfold dawsons_integral. destruct (Rle_dec (Rabs x) 1) as [H | H].
  { destruct (power_series_spec x H) as (N & _ & E & _). rewrite E. eauto. }
  assert (Hx : x <> 0) by (intros ->; rewrite Rabs_R0 in H; lra).
  repeat (destruct (Rle_dec _ _); [rewrite dawson_chebyshev_ok by discriminate; eauto|]).
  destruct (asymptotic_ok x Hx) as (N & _ & E & _). eauto.
Qed.
