(** * Arithmetic in double precision

    [b64 x]: the number nearest to x (ties to even) among those with 53 binary digits and
    exponents as in IEEE 754 binary64, including subnormal numbers (Flocq's FLT format).
    [fl x]: the result of a floating point operation whose exact result is x; a result that
    does not fit into a double is the fault Overflow. *)

From Coq Require Import ZArith Reals Lra Lia.
From Flocq Require Import Core Relative.
From Verif Require Import Base.
Open Scope R_scope.

Definition b64_exp : Z -> Z := FLT_exp (-1074) 53.
Definition b64 (x : R) : R := round radix2 b64_exp ZnearestE x.
(** numbers which a double can hold *)
Definition is_double (x : R) : Prop := generic_format radix2 b64_exp x /\ Rabs x < 2 ^ 1024.

Definition fl (x : R) : res R := if Rlt_dec (Rabs (b64 x)) (2 ^ 1024) then Ok (b64 x) else Fail Overflow.

(** unit roundoff, and a bound for the error of subnormal results *)
Definition ulp1 : R := 1 / 2 ^ 53.
Definition tiny : R := 1 / 10 ^ 60.

Local Instance b64_valid : Valid_exp b64_exp.
Proof. apply FLT_exp_valid. red. lia. Qed.

Lemma bpow_minus n : bpow radix2 (- Z.of_nat n) = / 2 ^ n.
Proof. rewrite bpow_opp. f_equal. rewrite <- (IZR_Zpower radix2) by lia. change (Zpower radix2 (Z.of_nat n)) with (2 ^ Z.of_nat n)%Z. rewrite <- pow_IZR. reflexivity. Qed.

Lemma small_power n : (200 <= n)%nat -> / 2 ^ n <= tiny.
Proof.
  intros H. replace n with (200 + (n - 200))%nat by lia. rewrite pow_add, Rinv_mult by (apply pow_nonzero; lra). unfold tiny.
  assert (1 <= 2 ^ (n - 200)) by (apply pow_R1_Rle; lra). assert (/ 2 ^ (n - 200) <= 1) by (rewrite <- Rinv_1; apply Rinv_le_contravar; lra).
  assert (X : / 2 ^ 200 <= 1 / 10 ^ 60) by lra. assert (0 < / 2 ^ 200) by lra. apply Rle_trans with (/ 2 ^ 200 * 1); [apply Rmult_le_compat_l; lra|lra].
Qed.

Lemma b64_err x : Rabs (b64 x - x) <= ulp1 * Rabs x + tiny.
Proof.
  destruct (error_N_FLT radix2 (-1074) 53 ltac:(lia) (fun x => negb (Z.even x)) x) as (eps & eta & He & Ht & _ & E).
  unfold b64, b64_exp. change ZnearestE with (Znearest (fun x => negb (Z.even x))). rewrite E. replace (x * (1 + eps) + eta - x) with (eps * x + eta) by ring.
  eapply Rle_trans; [apply Rabs_triang|]. rewrite Rabs_mult. apply Rplus_le_compat.
  - apply Rmult_le_compat_r; [apply Rabs_pos|]. eapply Rle_trans; [exact He|]. pose proof (bpow_minus 52) as Q. change (- Z.of_nat 52)%Z with (Z.opp 53 + 1)%Z in Q. rewrite Q. unfold ulp1. lra.
  - eapply Rle_trans; [exact Ht|]. pose proof (bpow_minus 1074) as Q. change (- Z.of_nat 1074)%Z with (-1074)%Z in Q. rewrite Q. pose proof (small_power 1074 ltac:(lia)). assert (0 < / 2 ^ 1074) by (apply Rinv_0_lt_compat, pow_lt; lra). lra.
Qed.

Lemma b64_le x y : x <= y -> b64 x <= b64 y.
Proof. intros H. apply round_le; [apply b64_valid|apply valid_rnd_N|exact H]. Qed.

Lemma b64_int n : (Z.abs n <= 2 ^ 53)%Z -> b64 (IZR n) = IZR n.
Proof.
  intros H. apply round_generic; [apply valid_rnd_N|]. destruct (Z.eq_dec (Z.abs n) (2 ^ 53)) as [E|E].
  - assert (G : generic_format radix2 b64_exp (bpow radix2 53)) by (apply generic_format_bpow; unfold b64_exp, FLT_exp; lia).
    change (bpow radix2 53) with (IZR (2 ^ 53)) in G. destruct (Z.abs_eq_or_opp n) as [A|A]; rewrite A in E; [rewrite E; exact G|]. replace n with (- 2 ^ 53)%Z by lia. rewrite opp_IZR. apply generic_format_opp. exact G.
  - replace (IZR n) with (F2R (Float radix2 n 0)) by (unfold F2R; cbn [Fnum Fexp bpow]; ring). apply generic_format_FLT. exists (Float radix2 n 0); [reflexivity| |]; cbn [Fnum Fexp]; [change (Zpower radix2 53) with (2 ^ 53)%Z; lia|lia].
Qed.

Lemma b64_idem x : b64 (b64 x) = b64 x.
Proof. apply round_generic; [apply valid_rnd_N|]. apply generic_format_round; [apply b64_valid|apply valid_rnd_N]. Qed.

Lemma b64_0 : b64 0 = 0. Proof. apply round_0, valid_rnd_N. Qed.

Lemma b64_nonneg x : 0 <= x -> 0 <= b64 x.
Proof. intros H. rewrite <- b64_0. apply b64_le, H. Qed.

Lemma ulp1_pos : 0 < ulp1 <= 12 / 10 ^ 17. Proof. unfold ulp1. lra. Qed.
Lemma tiny_pos : 0 < tiny. Proof. unfold tiny. lra. Qed.

Lemma big_enough x : x <= 2 ^ 1000 -> x + 1 < 2 ^ 1024.
Proof.
  intros H. replace 1024%nat with (1000 + 24)%nat by reflexivity. rewrite pow_add. assert (1 <= 2 ^ 1000) by (apply pow_R1_Rle; lra).
  assert (2 ^ 1000 * 4 <= 2 ^ 1000 * 2 ^ 24) by (apply Rmult_le_compat_l; lra). lra.
Qed.

Lemma fl_ok x : Rabs x <= 10 ^ 100 -> fl x = Ok (b64 x).
Proof.
  intros H. unfold fl. destruct (Rlt_dec (Rabs (b64 x)) (2 ^ 1024)) as [_|N]; [reflexivity|]. exfalso. apply N. pose proof (b64_err x) as E.
  assert (B : Rabs (b64 x) <= 2 * Rabs x + 1).
  { replace (b64 x) with (x + (b64 x - x)) by ring. eapply Rle_trans; [apply Rabs_triang|]. assert (ulp1 * Rabs x <= 1 * Rabs x) by (apply Rmult_le_compat_r; [apply Rabs_pos|unfold ulp1; lra]). unfold tiny in E. lra. }
  eapply Rle_lt_trans; [exact B|]. apply big_enough. apply Rle_trans with (2 * 10 ^ 100); [lra|]. apply Rle_trans with (2 ^ 1 * 2 ^ 400); [|rewrite <- pow_add; apply Rle_pow; [lra|lia]]. rewrite pow_1. apply Rmult_le_compat_l; [lra|].
  replace 400%nat with (4 * 100)%nat by reflexivity. rewrite pow_mult. apply pow_incr. lra.
Qed.

(** ** Propagation of errors *)
Lemma near_abs a A e M : Rabs (a - A) <= e -> Rabs A <= M -> Rabs a <= M + e.
Proof. intros H1 H2. replace a with (A + (a - A)) by ring. eapply Rle_trans; [apply Rabs_triang|lra]. Qed.

Lemma near_rnd a A e M d : Rabs (a - A) <= e -> Rabs A <= M -> e + ulp1 * (M + e) + tiny <= d -> Rabs (b64 a - A) <= d.
Proof.
  intros H1 H2 H. pose proof (near_abs a A e M H1 H2) as B. pose proof (b64_err a) as E. pose proof ulp1_pos. assert (ulp1 * Rabs a <= ulp1 * (M + e)) by (apply Rmult_le_compat_l; lra).
  replace (b64 a - A) with ((b64 a - a) + (a - A)) by ring. eapply Rle_trans; [apply Rabs_triang|lra].
Qed.

Lemma near_mult a A ea MA b B eb MB : Rabs (a - A) <= ea -> Rabs A <= MA -> Rabs (b - B) <= eb -> Rabs B <= MB -> Rabs (a * b - A * B) <= MA * eb + MB * ea + ea * eb.
Proof.
  intros H1 H2 H3 H4. replace (a * b - A * B) with (A * (b - B) + B * (a - A) + (a - A) * (b - B)) by ring.
  eapply Rle_trans; [apply Rabs_triang|]. apply Rplus_le_compat; [eapply Rle_trans; [apply Rabs_triang|]; apply Rplus_le_compat|]; rewrite Rabs_mult; apply Rmult_le_compat; try apply Rabs_pos; assumption.
Qed.

Lemma mult_bound A B MA MB : Rabs A <= MA -> Rabs B <= MB -> Rabs (A * B) <= MA * MB.
Proof. intros H1 H2. rewrite Rabs_mult. apply Rmult_le_compat; try apply Rabs_pos; assumption. Qed.

(** rounded product and sum *)
Lemma fmul a A ea MA b B eb MB d : Rabs (a - A) <= ea -> Rabs A <= MA -> Rabs (b - B) <= eb -> Rabs B <= MB ->
  MA * eb + MB * ea + ea * eb + ulp1 * (MA * MB + (MA * eb + MB * ea + ea * eb)) + tiny <= d -> Rabs (b64 (a * b) - A * B) <= d.
Proof. intros H1 H2 H3 H4 H. eapply near_rnd; [apply (near_mult a A ea MA b B eb MB); assumption|apply (mult_bound A B MA MB); assumption|exact H]. Qed.

Lemma fadd a A ea b B eb M d : Rabs (a - A) <= ea -> Rabs (b - B) <= eb -> Rabs (A + B) <= M -> ea + eb + ulp1 * (M + (ea + eb)) + tiny <= d -> Rabs (b64 (a + b) - (A + B)) <= d.
Proof. intros H1 H2 H3 H. eapply near_rnd; [|exact H3|exact H]. replace (a + b - (A + B)) with ((a - A) + (b - B)) by ring. eapply Rle_trans; [apply Rabs_triang|lra]. Qed.

Lemma fsub a A ea b B eb M d : Rabs (a - A) <= ea -> Rabs (b - B) <= eb -> Rabs (A - B) <= M -> ea + eb + ulp1 * (M + (ea + eb)) + tiny <= d -> Rabs (b64 (a - b) - (A - B)) <= d.
Proof. intros H1 H2 H3 H. eapply near_rnd; [|exact H3|exact H]. replace (a - b - (A - B)) with ((a - A) - (b - B)) by ring. eapply Rle_trans; [apply Rabs_triang|]. rewrite Rabs_Ropp. lra. Qed.

(** the same for the operations with overflow check *)
Lemma near_fl a A e M d : Rabs (a - A) <= e -> Rabs A <= M -> M + e <= 10 ^ 100 -> e + ulp1 * (M + e) + tiny <= d -> exists v, fl a = Ok v /\ Rabs (v - A) <= d.
Proof. intros H1 H2 H3 H. exists (b64 a). split; [apply fl_ok; eapply Rle_trans; [apply (near_abs a A e M H1 H2)|exact H3]|]. eapply near_rnd; eassumption. Qed.

Lemma fl_exact A M d : Rabs A <= M -> M <= 10 ^ 100 -> ulp1 * M + tiny <= d -> exists v, fl A = Ok v /\ Rabs (v - A) <= d.
Proof. intros H1 H2 H3. apply (near_fl A A 0 M d); [rewrite Rminus_eq_0, Rabs_R0; lra|exact H1|lra|lra]. Qed.

Lemma fl_mul a A ea MA b B eb MB d : Rabs (a - A) <= ea -> Rabs A <= MA -> Rabs (b - B) <= eb -> Rabs B <= MB -> MA * MB + (MA * eb + MB * ea + ea * eb) <= 10 ^ 100 ->
  MA * eb + MB * ea + ea * eb + ulp1 * (MA * MB + (MA * eb + MB * ea + ea * eb)) + tiny <= d -> exists v, fl (a * b) = Ok v /\ Rabs (v - A * B) <= d.
Proof. intros H1 H2 H3 H4 H5 H. eapply near_fl; [apply (near_mult a A ea MA b B eb MB); assumption|apply (mult_bound A B MA MB); assumption|exact H5|exact H]. Qed.

Lemma fl_add a A ea b B eb M d : Rabs (a - A) <= ea -> Rabs (b - B) <= eb -> Rabs (A + B) <= M -> M + (ea + eb) <= 10 ^ 100 -> ea + eb + ulp1 * (M + (ea + eb)) + tiny <= d ->
  exists v, fl (a + b) = Ok v /\ Rabs (v - (A + B)) <= d.
Proof. intros H1 H2 H3 H4 H. eapply near_fl; [|exact H3|exact H4|exact H]. replace (a + b - (A + B)) with ((a - A) + (b - B)) by ring. eapply Rle_trans; [apply Rabs_triang|lra]. Qed.

Lemma fl_sub a A ea b B eb M d : Rabs (a - A) <= ea -> Rabs (b - B) <= eb -> Rabs (A - B) <= M -> M + (ea + eb) <= 10 ^ 100 -> ea + eb + ulp1 * (M + (ea + eb)) + tiny <= d ->
  exists v, fl (a - b) = Ok v /\ Rabs (v - (A - B)) <= d.
Proof. intros H1 H2 H3 H4 H. eapply near_fl; [|exact H3|exact H4|exact H]. replace (a - b - (A - B)) with ((a - A) - (b - B)) by ring. eapply Rle_trans; [apply Rabs_triang|]. rewrite Rabs_Ropp. lra. Qed.

Lemma fl_int n : (Z.abs n <= 2 ^ 53)%Z -> fl (IZR n) = Ok (IZR n).
Proof.
  intros H. rewrite fl_ok; [rewrite (b64_int n H); reflexivity|]. rewrite <- abs_IZR. apply Rle_trans with (IZR (2 ^ 53)); [apply IZR_le; exact H|]. apply Rle_trans with (10 ^ 20); [lra|apply Rle_pow; [lra|lia]].
Qed.

(** rounding is not the identity *)
Lemma fl_third : exists v, fl (1 / 3) = Ok v /\ v <> 1 / 3.
Proof.
  exists (b64 (1 / 3)). split; [apply fl_ok; rewrite Rabs_pos_eq by lra; apply Rle_trans with 1; [lra|apply pow_R1_Rle; lra]|]. intros E.
  assert (G : generic_format radix2 b64_exp (1 / 3)) by (rewrite <- E; apply generic_format_round; [apply b64_valid|apply valid_rnd_N]).
  unfold generic_format, F2R in G. cbn [Fnum Fexp] in G. set (m := Ztrunc _) in G. assert (C : cexp radix2 b64_exp (1 / 3) = (-54)%Z).
  { unfold cexp. assert (M : mag radix2 (1 / 3) = (-1)%Z :> Z). { apply mag_unique. rewrite Rabs_pos_eq by lra. cbn. lra. } rewrite M. reflexivity. }
  rewrite C in G. change (bpow radix2 (-54)) with (/ IZR (2 ^ 54)) in G. assert (Q : IZR (2 ^ 54) = 3 * IZR m) by (rewrite (Rmult_comm 3); apply Rmult_eq_reg_r with (/ IZR (2 ^ 54)); [rewrite Rinv_r by (apply not_0_IZR; lia); rewrite Rmult_assoc, (Rmult_comm 3), <- Rmult_assoc, <- G; field|apply Rinv_neq_0_compat, not_0_IZR; lia]).
  change 3 with (IZR 3) in Q. rewrite <- mult_IZR in Q. apply eq_IZR in Q. lia.
Qed.
