(** * Soundness of the certificate for the table of S_k(x) *)

From Coq Require Import ZArith List Bool Lia Reals Lra.
From Coquelicot Require Import Coquelicot.
From Verif Require Import OneElProofs SpecExp BoysTable BoysCert FermiTable FermiSk NucPot FermiTaylor FermiCert.
Import ListNotations.
Open Scope R_scope.

Lemma fM_val : IZR fM = 10 ^ 21.
Proof. unfold fM. rewrite (pow_IZR 10 21). reflexivity. Qed.

Lemma fM_pos : 0 < IZR fM.
Proof. unfold fM. apply IZR_lt. lia. Qed.

(** ** Rounded divisions *)
Definition hr (a1 a2 a3 a4 a5 : R) : R := (a1 + (a2 + (a3 + (a4 + a5 / 1000) / 800) / 600) / 400) / 200.

Lemma horner_ok c1 c2 c3 c4 c5 : Rabs (IZR (horner c1 c2 c3 c4 c5) - hr (IZR c1) (IZR c2) (IZR c3) (IZR c4) (IZR c5)) <= 101 / 100.
Proof.
  unfold horner, hr.
  pose proof (div_floor c5 1000 ltac:(lia)) as F5. set (x5 := (c5 / 1000)%Z) in *.
  pose proof (div_floor (c4 + x5) 800 ltac:(lia)) as F4. set (x4 := ((c4 + x5) / 800)%Z) in *. rewrite plus_IZR in F4.
  pose proof (div_floor (c3 + x4) 600 ltac:(lia)) as F3. set (x3 := ((c3 + x4) / 600)%Z) in *. rewrite plus_IZR in F3.
  pose proof (div_floor (c2 + x3) 400 ltac:(lia)) as F2. set (x2 := ((c2 + x3) / 400)%Z) in *. rewrite plus_IZR in F2.
  pose proof (div_floor (c1 + x2) 200 ltac:(lia)) as F1. set (x1 := ((c1 + x2) / 200)%Z) in *. rewrite plus_IZR in F1.
  apply Rabs_le. lra.
Qed.

Lemma hr_close a1 a2 a3 a4 a5 b1 b2 b3 b4 b5 e1 e2 e3 e4 e5 :
  Rabs (a1 - b1) <= e1 -> Rabs (a2 - b2) <= e2 -> Rabs (a3 - b3) <= e3 -> Rabs (a4 - b4) <= e4 -> Rabs (a5 - b5) <= e5 ->
  Rabs (hr a1 a2 a3 a4 a5 - hr b1 b2 b3 b4 b5) <= hr e1 e2 e3 e4 e5.
Proof.
  intros H1 H2 H3 H4 H5. apply Rabs_le_between in H1, H2, H3, H4, H5. unfold hr. apply Rabs_le. lra.
Qed.

Lemma hr_scal M a1 a2 a3 a4 a5 : hr (M * a1) (M * a2) (M * a3) (M * a4) (M * a5) = M * hr a1 a2 a3 a4 a5.
Proof. unfold hr. field. Qed.

(** ** One step of the Taylor expansion *)
Definition hh : R := / 200.

Lemma hr_tay n x : (5 <= n)%nat -> G n x + hr (G (n - 1) x) (G (n - 2) x) (G (n - 3) x) (G (n - 4) x) (G (n - 5) x) = tay 6 n x hh.
Proof.
  intros Hn. unfold tay, hr. cbn [rsum]. rewrite Nat.sub_0_r. unfold eterm, hh. cbn [pow Factorial.fact Nat.mul Nat.add]. rewrite !INR_IZR_INZ. cbn [Z.of_nat Pos.of_succ_nat Pos.succ]. field.
Qed.

Lemma step_close n x : (6 <= n)%nat -> x + hh <= 0 ->
  Rabs (G n (x + hh) - (G n x + hr (G (n - 1) x) (G (n - 2) x) (G (n - 3) x) (G (n - 4) x) (G (n - 5) x))) <= 17 / 10 ^ 17 * exp x.
Proof.
  intros Hn Hx. rewrite hr_tay by lia. assert (Hh : 0 <= hh) by (unfold hh; lra). pose proof (exp_pos x).
  assert (Eh : exp hh <= 101 / 100).
  { pose proof (erem_upper 1 hh Hh) as U. unfold erem, eterm in U. cbn [rsum pow Factorial.fact INR Nat.mul Nat.add] in U. pose proof (exp_pos hh). unfold hh in *. lra. }
  pose proof (tay_bound 6 n x hh (15 / 2 * (exp x * (101 / 100))) Hn Hh) as T.
  eapply Rle_trans; [apply T|].
  - intros s Hs. eapply Rle_trans; [apply G_bound; lra|]. rewrite exp_plus. assert (exp s <= exp hh) by (destruct (Req_dec s hh) as [-> | Hne]; [lra|left; apply exp_increasing; lra]). nra.
  - unfold eterm, hh. replace (INR (Factorial.fact 6)) with 720 by (rewrite INR_IZR_INZ; reflexivity). replace ((/ 200) ^ 6) with (1 / 64000000000000) by field. lra.
Qed.

Lemma adv_ok x e w1 w2 w3 w4 w5 : x + hh <= 0 -> e <= w1 -> w1 <= w2 -> w2 <= w3 -> w3 <= w4 -> w4 <= w5 ->
  forall l n a1 a2 a3 a4 a5, (6 <= n)%nat ->
  Rabs (IZR a1 - IZR fM * G (n - 1) x) <= w1 -> Rabs (IZR a2 - IZR fM * G (n - 2) x) <= w2 -> Rabs (IZR a3 - IZR fM * G (n - 3) x) <= w3 ->
  Rabs (IZR a4 - IZR fM * G (n - 4) x) <= w4 -> Rabs (IZR a5 - IZR fM * G (n - 5) x) <= w5 ->
  (forall j, (j < length l)%nat -> Rabs (IZR (nth j l 0%Z) - IZR fM * G (n + j) x) <= e) ->
  length (adv a1 a2 a3 a4 a5 l) = length l /\
  forall j, (j < length l)%nat -> Rabs (IZR (nth j (adv a1 a2 a3 a4 a5 l) 0%Z) - IZR fM * G (n + j) (x + hh)) <= e + hr w1 w2 w3 w4 w5 + 101 / 100 + IZR fM * (17 / 10 ^ 17 * exp x).
Proof.
  intros Hx E1 E2 E3 E4 E5. induction l as [|c l IH]; intros n a1 a2 a3 a4 a5 Hn H1 H2 H3 H4 H5 Hl; [split; [reflexivity|intros j Hj; cbn in Hj; lia]|].
  cbn [adv length]. pose proof (Hl 0%nat ltac:(cbn; lia)) as Hc. cbn [nth] in Hc. rewrite Nat.add_0_r in Hc.
  destruct (IH (S n) c a1 a2 a3 a4) as (L & R); try lia.
  - replace (S n - 1)%nat with n by lia. lra.
  - replace (S n - 2)%nat with (n - 1)%nat by lia. lra.
  - replace (S n - 3)%nat with (n - 2)%nat by lia. lra.
  - replace (S n - 4)%nat with (n - 3)%nat by lia. lra.
  - replace (S n - 5)%nat with (n - 4)%nat by lia. lra.
  - intros j Hj. specialize (Hl (S j) ltac:(cbn; lia)). cbn [nth] in Hl. replace (S n + j)%nat with (n + S j)%nat by lia. exact Hl.
  - split; [rewrite L; reflexivity|]. intros [|j] Hj; cbn [nth].
    + rewrite Nat.add_0_r. rewrite plus_IZR. pose proof (horner_ok a1 a2 a3 a4 a5) as Ho. pose proof (step_close n x Hn Hx) as St. pose proof (hr_close _ _ _ _ _ _ _ _ _ _ _ _ _ _ _ H1 H2 H3 H4 H5) as Hc5. rewrite hr_scal in Hc5.
      set (h1 := hr (G (n - 1) x) _ _ _ _) in *. pose proof fM_pos as M0.
      assert (St' : Rabs (IZR fM * G n (x + hh) - IZR fM * (G n x + h1)) <= IZR fM * (17 / 10 ^ 17 * exp x)) by (rewrite <- Rmult_minus_distr_l, Rabs_mult, (Rabs_pos_eq (IZR fM)) by lra; apply Rmult_le_compat_l; lra).
      apply Rabs_le_between in Ho, St', Hc5, Hc. apply Rabs_le. lra.
    + replace (n + S j)%nat with (S n + j)%nat by lia. apply R. cbn in Hj. lia.
Qed.

(** ** Orders 0 to -4 *)
Lemma prod_close p q v w dp dq bq bv : Rabs (p - v) <= dp -> Rabs (q - w) <= dq -> Rabs q <= bq -> Rabs v <= bv -> Rabs (p * q - v * w) <= dp * bq + bv * dq.
Proof.
  intros H1 H2 H3 H4. replace (p * q - v * w) with ((p - v) * q + v * (q - w)) by ring. eapply Rle_trans; [apply Rabs_triang|]. rewrite !Rabs_mult.
  pose proof (Rabs_pos (p - v)). pose proof (Rabs_pos q). pose proof (Rabs_pos v). pose proof (Rabs_pos (q - w)). apply Rplus_le_compat; apply Rmult_le_compat; assumption.
Qed.

Lemma lows_ok x q E : x <= 0 -> (0 <= q)%Z -> 0 <= E <= IZR fM / 1000 -> Rabs (IZR q - IZR fM * exp x) <= E ->
  let '(s, a, b, c, d) := lows q in
  Rabs (IZR s - IZR fM * G 5 x) <= E + 1 /\ Rabs (IZR a - IZR fM * G 4 x) <= E + 2 /\ Rabs (IZR b - IZR fM * G 3 x) <= 3 / 2 * E + 4 /\
  Rabs (IZR c - IZR fM * G 2 x) <= 4 * E + 10 /\ Rabs (IZR d - IZR fM * G 1 x) <= 12 * E + 30.
Proof.
  intros Hx Hq HE Hqe. unfold lows. cbv zeta. pose proof fM_pos as M0. set (M := IZR fM) in *. apply IZR_le in Hq.
  assert (M8 : 1000 < M) by (unfold M, fM; apply IZR_lt; lia).
  destruct (low_bounds x Hx) as (B0 & _ & B1 & _ & B2 & _ & B3 & _). cbn [G Sx].
  set (Q := exp x) in *. assert (HQ : 0 < Q) by apply exp_pos.
  (* order 0 *)
  assert (HMq : (0 < fM + q)%Z) by (apply lt_IZR; rewrite plus_IZR; fold M; lra).
  pose proof (div_floor (- (q * fM)) (fM + q) HMq) as (F1 & F2). set (s := (- (q * fM) / (fM + q))%Z) in *. rewrite opp_IZR, mult_IZR, plus_IZR in F1, F2. fold M in F1, F2.
  set (y := IZR q) in *. set (sr := - (y * M) / (M + y)) in *.
  assert (Es : sr * (M + y) = - (y * M)) by (unfold sr; field; lra).
  assert (Eu : S0 x * (1 + Q) = - Q) by (unfold S0; fold Q; field; lra).
  assert (Ls : Rabs (sr - M * S0 x) <= E).
  { assert (Ed : (sr - M * S0 x) * ((M + y) * (1 + Q)) = M * (M * Q - y)).
    { replace ((sr - M * S0 x) * ((M + y) * (1 + Q))) with (sr * (M + y) * (1 + Q) - M * (M + y) * (S0 x * (1 + Q))) by ring. rewrite Es, Eu. ring. }
    assert (P : M <= (M + y) * (1 + Q)) by nra. assert (P0 : 0 < (M + y) * (1 + Q)) by lra.
    apply (Rmult_le_reg_r ((M + y) * (1 + Q))); [exact P0|]. rewrite <- (Rabs_pos_eq ((M + y) * (1 + Q))) at 1 by lra. rewrite <- Rabs_mult, Ed, Rabs_mult, (Rabs_pos_eq M) by lra. rewrite Rabs_minus_sym. pose proof (Rabs_pos (y - M * Q)). nra. }
  assert (Rs : - M <= IZR s <= 0).
  { split.
    - assert (- fM <= s)%Z; [|unfold M; rewrite <- opp_IZR; apply IZR_le; assumption]. unfold s. apply Z.div_le_lower_bound; [exact HMq|]. apply le_IZR in Hq. unfold fM in *. nia.
    - apply Rle_trans with (1 := F1). assert (0 <= y * M) by (apply Rmult_le_pos; lra). assert (0 < / (M + y)) by (apply Rinv_0_lt_compat; lra). unfold sr, Rdiv. nra. }
  assert (D0 : Rabs (IZR s - M * S0 x) <= E + 1) by (apply Rabs_le_between in Ls; apply Rabs_le; lra).
  set (z := IZR s) in *. clear F1 F2.
  (* divisions by M *)
  assert (DV : forall n v e, Rabs (IZR n / M - v) <= e -> Rabs (IZR (n / fM) - v) <= e + 1).
  { intros n v e Hv. pose proof (div_floor n fM ltac:(unfold fM; lia)) as F. fold M in F. apply Rabs_le_between in Hv. apply Rabs_le. lra. }
  set (u := S0 x) in *. set (zr := z / M). assert (Ez : z = M * zr) by (unfold zr; field; lra).
  set (e := E / M). assert (EE : E = M * e) by (unfold e; field; lra). set (t := / M). assert (Et : M * t = 1) by (unfold t; field; lra). assert (Ht : 0 < t < 1 / 1000) by nra.
  assert (He : 0 <= e <= 1 / 1000) by nra.
  assert (Rz : -1 <= zr <= 0) by nra.
  assert (AB : forall p v k, Rabs (M * p - M * v) <= M * k <-> Rabs (p - v) <= k).
  { intros p v k. rewrite <- Rmult_minus_distr_l, Rabs_mult, (Rabs_pos_eq M) by lra. split; intros H; [apply (Rmult_le_reg_l M); lra|apply Rmult_le_compat_l; lra]. }
  assert (D0' : Rabs (zr - u) <= e + t) by (apply AB; rewrite <- Ez, Rmult_plus_distr_l, <- EE, Et; exact D0).
  (* order -1 *)
  set (a := (s * (fM + s) / fM)%Z).
  assert (D1 : Rabs (IZR a - M * S1m x) <= E + 2).
  { replace (E + 2) with (E + 1 + 1) by ring. apply DV. rewrite mult_IZR, plus_IZR. fold M. change (IZR s) with z. replace (z * (M + z) / M) with (M * (zr * (1 + zr))) by (rewrite Ez; field; lra).
    replace (E + 1) with (M * (e + t)) by (rewrite Rmult_plus_distr_l, <- EE, Et; ring). apply AB. unfold S1m. fold u. replace (zr * (1 + zr) - u * (1 + u)) with ((zr - u) * (1 + zr + u)) by ring. rewrite Rabs_mult. assert (Rabs (1 + zr + u) <= 1) by (apply Rabs_le; lra). pose proof (Rabs_pos (zr - u)). pose proof (Rabs_pos (1 + zr + u)). nra. }
  (* order -2 *)
  set (ar := IZR a / M). assert (Ea : IZR a = M * ar) by (unfold ar; field; lra).
  assert (D1' : Rabs (ar - S1m x) <= e + 2 * t) by (apply AB; rewrite <- Ea; replace (M * (e + 2 * t)) with (M * e + 2 * (M * t)) by ring; rewrite <- EE, Et; lra).
  assert (Ba : Rabs ar <= 254 / 1000) by (apply Rabs_le_between in D1', B1; apply Rabs_le; lra).
  set (wr := 1 + 2 * zr). assert (Bw : Rabs wr <= 1) by (unfold wr; apply Rabs_le; lra).
  assert (Dw : Rabs (wr - (1 + 2 * u)) <= 2 * (e + t)) by (unfold wr; apply Rabs_le_between in D0'; apply Rabs_le; lra).
  assert (Ew : IZR (fM + 2 * s) = M * wr) by (rewrite plus_IZR, mult_IZR; change (IZR s) with z; fold M; unfold wr; rewrite Ez; ring).
  set (b := (a * (fM + 2 * s) / fM)%Z).
  assert (D2 : Rabs (IZR b - M * S2m x) <= 3 / 2 * E + 4).
  { replace (3 / 2 * E + 4) with (3 / 2 * E + 3 + 1) by ring. apply DV. rewrite mult_IZR, Ew, Ea. replace (M * ar * (M * wr) / M) with (M * (ar * wr)) by (field; lra).
    apply Rle_trans with (M * (3 / 2 * e + 5 / 2 * t)); [|rewrite EE; nra]. apply AB. unfold S2m. fold u. eapply Rle_trans; [apply (prod_close _ _ _ _ _ _ 1 (1 / 4) D1' Dw Bw B1)|]. lra. }
  set (br := IZR b / M). assert (Eb : IZR b = M * br) by (unfold br; field; lra).
  assert (D2' : Rabs (br - S2m x) <= 3 / 2 * e + 4 * t) by (apply AB; rewrite <- Eb; replace (M * (3 / 2 * e + 4 * t)) with (3 / 2 * (M * e) + 4 * (M * t)) by ring; rewrite <- EE, Et; lra).
  assert (Bb : Rabs br <= 256 / 1000) by (apply Rabs_le_between in D2', B2; apply Rabs_le; lra).
  (* order -3 *)
  set (c := ((b * (fM + 2 * s) + 2 * (a * a)) / fM)%Z).
  assert (D3 : Rabs (IZR c - M * S3m x) <= 4 * E + 10).
  { replace (4 * E + 10) with (4 * E + 9 + 1) by ring. apply DV. rewrite plus_IZR, !mult_IZR, Ew, Ea, Eb. replace ((M * br * (M * wr) + 2 * (M * ar * (M * ar))) / M) with (M * (br * wr + 2 * (ar * ar))) by (field; lra).
    apply Rle_trans with (M * (4 * e + 9 * t)); [|rewrite EE; nra]. apply AB. unfold S3m. fold u.
    pose proof (prod_close _ _ _ _ _ _ 1 (1 / 4) D2' Dw Bw B2) as P1. pose proof (prod_close _ _ _ _ _ _ (254 / 1000) (1 / 4) D1' D1' Ba B1) as P2.
    apply Rabs_le_between in P1, P2. apply Rabs_le. lra. }
  set (cr := IZR c / M). assert (Ec : IZR c = M * cr) by (unfold cr; field; lra).
  assert (D3' : Rabs (cr - S3m x) <= 4 * e + 10 * t) by (apply AB; rewrite <- Ec; replace (M * (4 * e + 10 * t)) with (4 * (M * e) + 10 * (M * t)) by ring; rewrite <- EE, Et; lra).
  (* order -4 *)
  set (d := ((c * (fM + 2 * s) + 6 * (a * b)) / fM)%Z).
  assert (D4 : Rabs (IZR d - M * S4m x) <= 12 * E + 30).
  { replace (12 * E + 30) with (12 * E + 29 + 1) by ring. apply DV. rewrite plus_IZR, !mult_IZR, Ew, Ea, Eb, Ec. replace ((M * cr * (M * wr) + 6 * (M * ar * (M * br))) / M) with (M * (cr * wr + 6 * (ar * br))) by (field; lra).
    apply Rle_trans with (M * (12 * e + 29 * t)); [|rewrite EE; nra]. apply AB. unfold S4m. fold u.
    pose proof (prod_close _ _ _ _ _ _ 1 (3 / 8) D3' Dw Bw B3) as P1. pose proof (prod_close _ _ _ _ _ _ (256 / 1000) (1 / 4) D1' D2' Bb B1) as P2.
    apply Rabs_le_between in P1, P2. apply Rabs_le. lra. }
  repeat apply conj; assumption.
Qed.

(** ** The whole table *)
Definition inv (x : R) (q : Z) (c : list Z) (E : Z) : Prop :=
  (10 <= E)%Z /\ Rabs (IZR q - IZR fM * exp x) <= IZR E /\ length c = 7%nat /\ forall j, (j < 7)%nat -> Rabs (IZR (nth j c 0%Z) - IZR fM * G (6 + j) x) <= IZR E.

(** the columns of a row hold S_(-1) ... S_7, or at least S_2 ... S_7 *)
Definition row_near (first : nat) (r : list Z) (x : R) : Prop :=
  forall m, (first <= m < 10)%nat -> Rabs (IZR (nth m r 0%Z) - IZR fM * G (m + 3) x) <= 23 / 10 ^ 13 * (IZR fM * exp x).

Lemma nth_skip {A} n (l : list A) j d : nth j (skipn n l) d = nth (n + j) l d.
Proof. revert n. induction l as [|a l IH]; intros [|n]; cbn; try reflexivity; [destruct j; reflexivity|apply IH]. Qed.

Lemma close_ok t c tol : close tol t c = true -> Rabs (IZR t - IZR c) <= IZR tol.
Proof. intros H. apply Z.leb_le in H. rewrite <- minus_IZR, <- abs_IZR. apply IZR_le, H. Qed.

Lemma margin E q Q : (10 <= E)%Z -> Rabs (IZR q - Q) <= IZR E -> (E * 10000000000000 <= 5 * q)%Z ->
  IZR (16 * q / 10000000000000) + IZR E + 2 <= 23 / 10 ^ 13 * Q /\ IZR q <= Q * (1 + 1 / 10 ^ 12) /\ Q <= IZR q * (1 + 1 / 10 ^ 12) /\ 10 <= IZR E.
Proof.
  intros H0 H1 H2. apply IZR_le in H0, H2. rewrite !mult_IZR in H2. apply Rabs_le_between in H1. pose proof (div_floor (16 * q) 10000000000000 ltac:(lia)) as (F & _). rewrite mult_IZR in F. lra.
Qed.

Lemma hh_exp : Rabs (exp hh - (1 + hr 1 1 1 1 1)) <= 3 / 10 ^ 17 /\ hr 1 1 1 1 1 <= / 199.
Proof.
  assert (Hh : 0 <= hh) by (unfold hh; lra). pose proof (erem_upper 6 hh Hh) as U. pose proof (erem_upper 1 hh Hh) as U1.
  assert (E6 : rsum 6 (eterm hh) = 1 + hr 1 1 1 1 1). { cbn [rsum]. unfold eterm, hr, hh. cbn [pow Factorial.fact Nat.mul Nat.add]. rewrite !INR_IZR_INZ. cbn [Z.of_nat Pos.of_succ_nat Pos.succ]. field. }
  assert (L : 0 <= erem 6 hh) by (apply erem_nonneg; exact Hh).
  unfold erem in *. rewrite E6 in *. pose proof (exp_pos hh).
  assert (Eh : exp hh <= 101 / 100) by (unfold eterm in U1; cbn [rsum pow Factorial.fact INR Nat.mul Nat.add] in U1; unfold hh in *; lra).
  replace (eterm hh 6) with (1 / 46080000000000000) in U by (unfold eterm, hh; replace (INR (Factorial.fact 6)) with 720 by (rewrite INR_IZR_INZ; reflexivity); field).
  split; [apply Rabs_le; lra|unfold hr; lra].
Qed.

Lemma inv_step x q c E : x + hh <= 0 -> (0 < q)%Z -> (E * 10000000000000 <= 5 * q)%Z -> inv x q c E ->
  let '(s, a, b, e, d) := lows q in
  Rabs (IZR s - IZR fM * G 5 x) <= IZR E + 1 /\ Rabs (IZR a - IZR fM * G 4 x) <= IZR E + 2 /\
  inv (x + hh) (q + horner q q q q q) (adv s a b e d c) (E + E / 199 + 2 * q / 10000000000000000 + 8).
Proof.
  intros Hx Hq HE (I0 & I1 & I2 & I3). set (Q := IZR fM * exp x) in *. destruct (margin E q Q I0 I1 HE) as (M1 & M2 & M3 & M4).
  assert (Hh : hh = / 200) by reflexivity. assert (Hx0 : x <= 0) by lra. pose proof fM_pos as M0.
  assert (HQ : Q <= IZR fM) by (unfold Q; assert (exp x <= 1) by (destruct (Req_dec x 0) as [-> | Hn]; [rewrite exp_0; lra|rewrite <- exp_0; left; apply exp_increasing; lra]); nra).
  pose proof (lows_ok x q (IZR E) Hx0 ltac:(lia)) as LO. assert (HE0 : 0 <= IZR E <= IZR fM / 1000) by (apply IZR_le in HE; rewrite !mult_IZR in HE; lra).
  specialize (LO HE0 I1). destruct (lows q) as [[[[s a] b] e] d]. destruct LO as (L1 & L2 & L3 & L4 & L5).
  split; [exact L1|]. split; [exact L2|].
  set (E' := (E + E / 199 + 2 * q / 10000000000000000 + 8)%Z).
  assert (HE' : IZR E + IZR E / 199 + 2 * IZR q / 10 ^ 16 + 6 <= IZR E').
  { unfold E'. rewrite !plus_IZR. pose proof (div_floor E 199 ltac:(lia)) as F1. pose proof (div_floor (2 * q) 10000000000000000 ltac:(lia)) as F2. rewrite mult_IZR in F2. lra. }
  assert (P0 : 0 < Q) by (unfold Q; apply Rmult_lt_0_compat; [exact M0|apply exp_pos]).
  split; [apply le_IZR; lra|]. split; [|].
  - destruct hh_exp as (X1 & X2). rewrite exp_plus, plus_IZR, <- Rmult_assoc. fold Q. pose proof (horner_ok q q q q q) as Ho. set (y := IZR q) in *.
    replace (hr y y y y y) with (y * hr 1 1 1 1 1) in Ho by (rewrite <- hr_scal, Rmult_1_r; reflexivity). set (k := hr 1 1 1 1 1) in *.
    assert (Hk : 0 <= k) by (unfold k, hr; lra).
    replace (y + IZR (horner q q q q q) - Q * exp hh) with ((IZR (horner q q q q q) - y * k) + (y - Q) * (1 + k) - Q * (exp hh - (1 + k))) by ring.
    set (ho := IZR (horner q q q q q) - y * k) in *. set (dl := exp hh - (1 + k)) in *.
    assert (T1 : Rabs ((y - Q) * (1 + k)) <= IZR E * (1 + / 199)) by (rewrite Rabs_mult, (Rabs_pos_eq (1 + k)) by lra; apply Rmult_le_compat; try lra; apply Rabs_pos).
    assert (T2 : Rabs (Q * dl) <= Q * (3 / 10 ^ 17)) by (rewrite Rabs_mult, (Rabs_pos_eq Q) by lra; apply Rmult_le_compat_l; lra).
    apply Rabs_le_between in Ho, T1, T2. apply Rabs_le. lra.
  - pose proof (adv_ok x (IZR E) (IZR E + 1) (IZR E + 2) (3 / 2 * IZR E + 4) (4 * IZR E + 10) (12 * IZR E + 30) Hx ltac:(lra) ltac:(lra) ltac:(lra) ltac:(lra) ltac:(lra) c 6 s a b e d ltac:(lia) L1 L2 L3 L4 L5) as A.
    rewrite I2 in A. destruct (A I3) as (A1 & A2). split; [exact A1|]. intros j Hj. eapply Rle_trans; [apply A2, Hj|].
    replace (IZR fM * (17 / 10 ^ 17 * exp x)) with (17 / 10 ^ 17 * Q) by (unfold Q; ring). unfold hr. lra.
Qed.

Lemma fermi_sound T : forall x q c E, T <> [] -> x + INR (length T - 1) * hh <= 0 -> inv x q c E -> fermi_ok T q c E = true -> forallb (fun r => (length r =? 10)%nat) T = true ->
  forall i, (i < length T)%nat -> row_near (if (S i <? length T)%nat then 1 else 4) (nth i T []) (x + INR i * hh).
Proof.
  induction T as [|r T IH]; intros x q c E Hn Hx Hi Hc Hf i Hl; [congruence|].
  cbn [fermi_ok] in Hc. apply andb_true_iff in Hc. destruct Hc as (Hc & Hr). apply andb_true_iff in Hc. destruct Hc as (C1 & C2). apply Z.leb_le in C1. apply Z.ltb_lt in C2.
  cbn [forallb] in Hf. apply andb_true_iff in Hf. destruct Hf as (Hf1 & Hf). apply Nat.eqb_eq in Hf1.
  pose proof Hi as (I0 & I1 & I2 & I3). destruct (margin E q _ I0 I1 C1) as (M1 & M2 & M3 & M4).
  destruct T as [|r' T].
  - cbn [length] in Hl. assert (i = 0)%nat by lia. subst i. cbn [length Nat.ltb Nat.leb nth]. intros m Hm. rewrite Rmult_0_l, Rplus_0_r.
    destruct (all2_nth _ _ _ 0%Z 0%Z Hr (m - 4)%nat) as (X & _); [rewrite skipn_length; lia|]. apply close_ok in X. rewrite !nth_skip in X. replace (4 + (m - 4))%nat with m in X by lia.
    specialize (I3 (1 + (m - 4))%nat ltac:(lia)). replace (6 + (1 + (m - 4)))%nat with (m + 3)%nat in I3 by lia. apply Rabs_le_between in X, I3. apply Rabs_le. lra.
  - remember (r' :: T) as T1 eqn:ET. assert (Lp : (1 <= length T1)%nat) by (rewrite ET; cbn; lia). cbn [length] in Hx. replace (S (length T1) - 1)%nat with (S (length T1 - 1)) in Hx by lia. rewrite S_INR in Hx. pose proof (pos_INR (length T1 - 1)) as Hp. assert (Hh : 0 < hh) by (unfold hh; lra).
    pose proof (inv_step x q c E ltac:(nra) C2 C1 Hi) as St. destruct (lows q) as [[[[s a] b] e] d]. destruct St as (L1 & L2 & L3).
    rewrite ET in Hr at 1. apply andb_true_iff in Hr. destruct Hr as (Hr1 & Hr2).
    destruct i as [|i].
    + cbn [length]. replace (1 <? S (length T1))%nat with true by (symmetry; apply Nat.ltb_lt; lia). cbn [nth]. intros m Hm. rewrite Rmult_0_l, Rplus_0_r.
      destruct (all2_nth _ _ _ 0%Z 0%Z Hr1 (m - 1)%nat) as (X & _); [rewrite skipn_length; lia|]. apply close_ok in X. rewrite nth_skip in X. replace (1 + (m - 1))%nat with m in X by lia.
      assert (Y : Rabs (IZR (nth (m - 1) (a :: s :: c) 0%Z) - IZR fM * G (m + 3) x) <= IZR E + 2).
      { destruct m as [|[|[|m]]]; [lia| | |].
        - cbn [Nat.sub nth Nat.add]. exact L2.
        - cbn [Nat.sub nth Nat.add]. lra.
        - replace (S (S (S m)) - 1)%nat with (S (S m)) by lia. cbn [nth]. specialize (I3 m ltac:(lia)). replace (S (S (S m)) + 3)%nat with (6 + m)%nat by lia. lra. }
      apply Rabs_le_between in X, Y. apply Rabs_le. lra.
    + cbn [length nth]. change (S (S i) <? S (length T1))%nat with (S i <? length T1)%nat. replace (x + INR (S i) * hh) with (x + hh + INR i * hh) by (rewrite S_INR; ring).
      assert (Hx2 : x + hh + INR (length T1 - 1) * hh <= 0) by lra. apply (IH _ _ _ _ ltac:(rewrite ET; discriminate) Hx2 L3); [rewrite ET in *; exact Hr2|exact Hf|cbn in Hl; lia].
Qed.

(** ** The values at -10 *)
Fixpoint epow (n : nat) : Z * Z := match n with O => (sM, sM) | S n => emul (epow n) e1 end.

Lemma epow_ok n : enc (exp (- (INR n / 10))) (epow n) /\ (0 <= fst (epow n))%Z.
Proof.
  induction n as [|n (IH & IP)].
  - split; [|cbn [epow fst]; unfold sM; lia]. cbn [epow INR]. replace (- (0 / 10)) with 0 by field. rewrite exp_0. unfold enc. cbn [fst snd]. lra.
  - assert (P1 : (0 <= fst e1)%Z) by (apply Z.leb_le; vm_compute; reflexivity). split; [|cbn [epow]; apply emul_nonneg; assumption].
    replace (exp (- (INR (S n) / 10))) with (exp (- (INR n / 10)) * exp (- tenth)) by (rewrite <- exp_plus; f_equal; rewrite S_INR; unfold tenth; field).
    cbn [epow]. apply emul_ok; [left; apply exp_pos|left; apply exp_pos|exact IH|exact e1_ok|exact IP|exact P1].
Qed.

Lemma epow_100 : ((q_start * 10000000000 <=? fst (epow 100)) && (snd (epow 100) <=? (q_start + 1) * 10000000000))%Z = true.
Proof. vm_compute. reflexivity. Qed.

Lemma exp_m10 : IZR q_start <= IZR fM * exp (-10) <= IZR q_start + 1.
Proof.
  destruct (epow_ok 100) as ((H1 & H2) & _). pose proof epow_100 as C. apply andb_true_iff in C. destruct C as (C1 & C2). apply Z.leb_le, IZR_le in C1. apply Z.leb_le, IZR_le in C2.
  rewrite mult_IZR in C1. rewrite mult_IZR, plus_IZR in C2.
  replace (- (INR 100 / 10)) with (-10) in H1, H2 by (rewrite INR_IZR_INZ; cbn [Z.of_nat Pos.of_succ_nat Pos.succ]; field).
  replace (IZR sM) with (IZR fM * 10000000000) in H1, H2 by (rewrite <- mult_IZR; reflexivity). lra.
Qed.

Lemma start_col j : (j < 7)%nat -> Rabs (IZR (nth j c_start 0%Z) - IZR fM * first_terms 4 (S j) (-10)) <= 9.
Proof.
  intros Hj. pose proof exp_m10 as (A & B). unfold q_start, fM in *. cbn [first_terms]. rewrite !exp_nat. set (Q := exp (-10)) in *.
  assert (A1 : 45399929762484851 / 10 ^ 21 <= Q <= 45399929762484852 / 10 ^ 21) by lra. clear A B.
  assert (L : forall n, (45399929762484851 / 10 ^ 21) ^ n <= Q ^ n <= (45399929762484852 / 10 ^ 21) ^ n) by (intros n; split; apply pow_incr; lra).
  pose proof (L 2%nat) as L2. pose proof (L 3%nat) as L3. pose proof (L 4%nat) as L4. clear L.
  set (Q2 := Q ^ 2) in *. set (Q3 := Q ^ 3) in *. set (Q4 := Q ^ 4) in *. clearbody Q2 Q3 Q4. replace (Q ^ 1) with Q by ring. clearbody Q.
  rewrite !INR_IZR_INZ. cbn [Z.of_nat Pos.of_succ_nat Pos.succ].
  apply Rabs_le. do 7 (destruct j as [|j]; [cbn [nth c_start pow]; lra|]). lia.
Qed.

Lemma inv_start : inv (-10) q_start c_start 10.
Proof.
  split; [lia|]. pose proof exp_m10 as (A & B). pose proof fM_pos as M0. split; [apply Rabs_le; lra|]. split; [reflexivity|]. intros j Hj.
  pose proof (start_col j Hj) as S1. pose proof (first_terms_close 4 (S j) (-10) ltac:(lra)) as S2. change (Sx (S j)) with (G (6 + j)) in S2.
  assert (S3 : IZR fM * (exp (INR 5 * -10) / INR 5 ^ S j) <= 1).
  { rewrite exp_nat. set (Q := exp (-10)) in *. assert (HQ : 0 < Q <= 46 / 10 ^ 6) by (split; [apply exp_pos|unfold q_start, fM in *; lra]).
    assert (Q5 : Q ^ 5 <= (46 / 10 ^ 6) ^ 5) by (apply pow_incr; lra). assert (P5 : 0 <= Q ^ 5) by (apply pow_le; lra). assert (D : 1 <= INR 5 ^ S j) by (apply pow_R1_Rle; rewrite INR_IZR_INZ; apply IZR_le; lia).
    assert (Q ^ 5 / INR 5 ^ S j <= Q ^ 5) by (apply Rle_div_l; nra). unfold fM. lra. }
  assert (S4 : Rabs (IZR fM * G (6 + j) (-10) - IZR fM * first_terms 4 (S j) (-10)) <= 1) by (rewrite <- Rmult_minus_distr_l, Rabs_mult, (Rabs_pos_eq (IZR fM)) by lra; eapply Rle_trans; [apply Rmult_le_compat_l; [lra|exact S2]|exact S3]).
  apply Rabs_le_between in S1, S4. apply Rabs_le. lra.
Qed.

(** the entries used by the code: columns 1 ... 9 of the rows 0 ... 1999 and columns 4 ... 9 of row 2000 *)
Lemma fermi_table_accurate i m : (i <= 2000)%nat -> ((if (i <? 2000)%nat then 1 else 4) <= m < 10)%nat ->
  Rabs (IZR (nth m (nth i fermi_rows []) 0%Z) / 10 ^ 21 - G (m + 3) (-10 + INR i / 200)) <= 23 / 10 ^ 13 * exp (-10 + INR i / 200).
Proof.
  intros Hi Hm. pose proof fermi_certificate as C. apply andb_true_iff in C. destruct C as (C & C3). apply andb_true_iff in C. destruct C as (C1 & C2). apply Nat.eqb_eq in C3.
  pose proof (fermi_sound fermi_rows (-10) q_start c_start 10) as F. rewrite C3 in F.
  assert (X : -10 + INR (2001 - 1) * hh <= 0) by (rewrite INR_IZR_INZ; replace (Z.of_nat (2001 - 1)) with 2000%Z by reflexivity; unfold hh; lra).
  assert (Nn : fermi_rows <> []) by (intros N; rewrite N in C3; discriminate).
  specialize (F Nn X inv_start C1 C2 i ltac:(lia)). replace (S i <? 2001)%nat with (i <? 2000)%nat in F by (destruct (i <? 2000)%nat eqn:e; symmetry; [apply Nat.ltb_lt; apply Nat.ltb_lt in e; lia|apply Nat.ltb_ge; apply Nat.ltb_ge in e; lia]).
  specialize (F m Hm). unfold hh in F. change (INR i * / 200) with (INR i / 200) in F. set (y := -10 + INR i / 200) in *. pose proof fM_pos as M0. rewrite fM_val in *.
  apply (Rmult_le_reg_l (10 ^ 21)); [exact M0|]. rewrite <- (Rabs_pos_eq (10 ^ 21)) at 1 by lra. rewrite <- Rabs_mult, Rmult_minus_distr_l. replace (10 ^ 21 * (IZR (nth m (nth i fermi_rows []) 0%Z) / 10 ^ 21)) with (IZR (nth m (nth i fermi_rows []) 0%Z)) by (field; lra). lra.
Qed.
