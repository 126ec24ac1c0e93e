(** * Proofs about binomial.c and factorial.c *)

From Coq Require Import ZArith List Lia Bool Znumtheory.
From Verif Require Import Base BinomModel.
Import ListNotations.
Open Scope Z_scope.

(** ** Specification: Pascal's triangle *)
Fixpoint choose (n k : nat) : Z :=
  match n, k with
  | _, O => 1
  | O, S _ => 0
  | S n', S k' => choose n' k' + choose n' k
  end.

Fixpoint factz (n : nat) : Z :=
  match n with O => 1 | S n' => Z.of_nat (S n') * factz n' end.

(** n!! by steps of two *)
Fixpoint dfactz (n : nat) : Z :=
  match n with O => 1 | S O => 1 | S (S n' as m) => Z.of_nat (S (S n')) * dfactz n' end.

Lemma choose_0_r n : choose n 0 = 1.
Proof. destruct n; reflexivity. Qed.

Lemma choose_1_r n : choose n 1 = Z.of_nat n.
Proof.
  induction n as [|n IH]; [reflexivity|].
  change (choose (S n) 1) with (choose n 0 + choose n 1). rewrite choose_0_r, IH. lia.
Qed.

Lemma choose_gt n : forall k, (n < k)%nat -> choose n k = 0.
Proof.
  induction n as [|n IH]; intros [|k] H; try lia; [reflexivity|].
  change (choose (S n) (S k)) with (choose n k + choose n (S k)).
  rewrite !IH by lia. reflexivity.
Qed.

Lemma choose_diag n : choose n n = 1.
Proof.
  induction n as [|n IH]; [reflexivity|].
  change (choose (S n) (S n)) with (choose n n + choose n (S n)).
  rewrite IH, choose_gt by lia. reflexivity.
Qed.

Lemma choose_nonneg n : forall k, 0 <= choose n k.
Proof.
  induction n as [|n IH]; intros [|k]; try (simpl; lia).
  change (choose (S n) (S k)) with (choose n k + choose n (S k)).
  generalize (IH k) (IH (S k)). lia.
Qed.

Lemma choose_pos n : forall k, (k <= n)%nat -> 0 < choose n k.
Proof.
  induction n as [|n IH]; intros [|k] H; try (simpl; lia).
  change (choose (S n) (S k)) with (choose n k + choose n (S k)).
  generalize (IH k ltac:(lia)) (choose_nonneg n (S k)). lia.
Qed.

(** (d+1) C(n,d+1) = (n-d) C(n,d) *)
Lemma choose_step n : forall d,
  Z.of_nat (S d) * choose n (S d) = (Z.of_nat n - Z.of_nat d) * choose n d.
Proof.
  induction n as [|n IH]; intros d.
  - destruct d; simpl; lia.
  - change (choose (S n) (S d)) with (choose n d + choose n (S d)).
    destruct d as [|d].
    + rewrite choose_1_r, !choose_0_r. lia.
    + change (choose (S n) (S d)) with (choose n d + choose n (S d)).
      specialize (IH d) as IH1. specialize (IH (S d)) as IH2.
      nia.
Qed.

Lemma choose_sym n : forall k, (k <= n)%nat -> choose n k = choose n (n - k).
Proof.
  induction n as [|n IH]; intros [|k] H; try lia.
  - reflexivity.
  - rewrite Nat.sub_0_r, choose_diag. reflexivity.
  - change (choose (S n) (S k)) with (choose n k + choose n (S k)).
    destruct (Nat.eq_dec k n) as [->|Hne].
    + rewrite choose_diag, choose_gt by lia. replace (S n - S n)%nat with O by lia.
      rewrite choose_0_r. reflexivity.
    + replace (S n - S k)%nat with (S (n - S k)) by lia.
      change (choose (S n) (S (n - S k))) with (choose n (n - S k) + choose n (S (n - S k))).
      rewrite (IH (S k)) by lia. rewrite (IH k) by lia.
      replace (S (n - S k)) with (n - k)%nat by lia. lia.
Qed.

Lemma choose_mono1 n d : (2 * d + 1 <= n)%nat -> choose n d <= choose n (S d).
Proof.
  intros H. generalize (choose_step n d) (choose_nonneg n d) (choose_nonneg n (S d)). intros.
  assert (Z.of_nat (S d) <= Z.of_nat n - Z.of_nat d) by lia.
  assert (Z.of_nat (S d) * choose n d <= Z.of_nat (S d) * choose n (S d)) by nia.
  nia.
Qed.

Lemma choose_mono n k : (2 * k <= n)%nat -> forall d, (d <= k)%nat -> choose n d <= choose n k.
Proof.
  intros H d Hd. remember (k - d)%nat as m eqn:Em. revert d Hd Em.
  induction m as [|m IH]; intros d Hd Em.
  - replace d with k by lia. lia.
  - transitivity (choose n (S d)); [apply choose_mono1; lia | apply IH; lia].
Qed.

(** C(n,k) k! (n-k)! = n! ties the specification to factorials *)
Lemma choose_fact n : forall k, (k <= n)%nat -> choose n k * factz k * factz (n - k) = factz n.
Proof.
  intros k. induction k as [|k IH]; intros H.
  - rewrite choose_0_r, Nat.sub_0_r. change (factz 0) with 1. ring.
  - specialize (IH ltac:(lia)). generalize (choose_step n k). intros E.
    change (factz (S k)) with (Z.of_nat (S k) * factz k).
    replace (n - k)%nat with (S (n - S k)) in IH by lia.
    change (factz (S (n - S k))) with (Z.of_nat (S (n - S k)) * factz (n - S k)) in IH.
    replace (Z.of_nat (S (n - S k))) with (Z.of_nat n - Z.of_nat k) in IH by lia.
    rewrite <- IH.
    transitivity (Z.of_nat (S k) * choose n (S k) * factz k * factz (n - S k)); [ring|].
    rewrite E. ring.
Qed.

(** ** gcd *)

Lemma gcd_step x y : 0 < y -> Z.gcd y (x mod y) = Z.gcd x y.
Proof.
  intros H. rewrite (Z.gcd_comm y), Z.gcd_mod by lia. apply Z.gcd_comm.
Qed.

Lemma gcd_loop_ok k : forall x y fuel,
  0 <= y <= x -> y < 2 ^ Z.of_nat k -> (2 * k + 1 <= fuel)%nat ->
  gcd_loop fuel x y = Ok (Z.gcd x y).
Proof.
  induction k as [|k IH]; intros x y fuel Hxy Hy Hf.
  - simpl in Hy. assert (y = 0) by lia. subst.
    destruct fuel as [|fuel]; [lia|]. simpl. rewrite Z.gcd_0_r, Z.abs_eq by lia. reflexivity.
  - destruct fuel as [|fuel]; [lia|]. simpl gcd_loop.
    destruct (Z.gtb_spec y 0) as [Hy0|Hy0].
    2:{ assert (y = 0) by lia. subst. rewrite Z.gcd_0_r, Z.abs_eq by lia. reflexivity. }
    unfold umod at 1. replace (y =? 0) with false by lia. cbn [bind].
    assert (H1 := Z.mod_pos_bound x y ltac:(lia)).
    destruct fuel as [|fuel]; [lia|]. simpl gcd_loop.
    destruct (Z.gtb_spec (x mod y) 0) as [Hm|Hm].
    2:{ assert (Em : x mod y = 0) by lia. rewrite <- (gcd_step x y) by lia. rewrite Em.
        rewrite Z.gcd_0_r, Z.abs_eq by lia. reflexivity. }
    unfold umod. replace (x mod y =? 0) with false by lia. cbn [bind].
    assert (H2 := Z.mod_pos_bound y (x mod y) ltac:(lia)).
    assert (Hhalf : y mod (x mod y) < 2 ^ Z.of_nat k).
    { assert (2 ^ Z.of_nat (S k) = 2 * 2 ^ Z.of_nat k).
      { rewrite Nat2Z.inj_succ, Z.pow_succ_r by lia. reflexivity. }
      assert (2 * (y mod (x mod y)) < y); [|lia].
      assert (E := Z.div_mod y (x mod y) ltac:(lia)).
      assert (1 <= y / (x mod y)) by (apply Z.div_le_lower_bound; lia).
      nia. }
    rewrite IH by lia.
    f_equal. rewrite !gcd_step by lia. reflexivity.
Qed.

Lemma gcd_ui_ok x y : 0 <= x <= uint64_max -> 0 <= y <= uint64_max ->
  gcd_ui x y = Ok (Z.gcd x y).
Proof.
  intros Hx Hy. unfold gcd_ui.
  assert (Hp : forall z, z <= uint64_max -> z < 2 ^ Z.of_nat 64)
    by (intros; unfold uint64_max, u64_modulus in *; simpl Z.of_nat; lia).
  destruct (Z.ltb_spec y x) as [H|H].
  - (* after the swap x < y: one extra iteration puts them in order *)
    change 131%nat with (S 130). remember 130%nat as f eqn:Ef. cbn [gcd_loop].
    destruct (Z.gtb_spec x 0) as [H0|H0]; [|lia].
    unfold umod. replace (x =? 0) with false by lia. cbn [bind].
    rewrite Z.mod_small by lia.
    rewrite (gcd_loop_ok 64) by (try apply Hp; lia). reflexivity.
  - change 131%nat with (S 130). remember 130%nat as f eqn:Ef. cbn [gcd_loop].
    destruct (Z.gtb_spec y 0) as [H0|H0].
    + unfold umod. replace (y =? 0) with false by lia. cbn [bind].
      assert (Hm := Z.mod_pos_bound x y ltac:(lia)).
      rewrite (gcd_loop_ok 64) by (try apply Hp; lia).
      f_equal. apply gcd_step. lia.
    + assert (y = 0) by lia. assert (x = 0) by lia. subst. reflexivity.
Qed.

(** ** The main loop *)

Lemma u64_small x : 0 <= x <= uint64_max -> u64 x = x.
Proof. intros H. unfold u64, uint64_max in *. apply Z.mod_small. lia. Qed.

(** the overflow branch: dividing out the two gcds makes the denominator 1 *)
Lemma reduce_exact r n d c :
  0 < n -> 0 < d -> 0 < r -> d * c = n * r ->
  let g := Z.gcd n d in
  let nr := n / g in let dr := d / g in
  let g2 := Z.gcd r dr in
  dr / g2 = 1 /\ r / g2 * nr = c /\ 0 < g /\ 0 < g2 /\ 0 < nr <= n /\ 0 < dr <= d /\ 0 < r / g2 <= r.
Proof.
  intros Hn Hd Hr E g nr dr g2.
  assert (Hg : 0 < g).
  { unfold g. assert (H := Z.gcd_nonneg n d). assert (Z.gcd n d <> 0); [|lia].
    intros H0. apply Z.gcd_eq_0_l in H0. lia. }
  assert (En : n = g * nr).
  { unfold nr, g. rewrite <- Z.divide_div_mul_exact; [|lia|apply Z.gcd_divide_l].
    rewrite Z.mul_comm, Z.div_mul by lia. reflexivity. }
  assert (Ed : d = g * dr).
  { unfold dr, g. rewrite <- Z.divide_div_mul_exact; [|lia|apply Z.gcd_divide_r].
    rewrite Z.mul_comm, Z.div_mul by lia. reflexivity. }
  assert (Hnr : 0 < nr) by nia. assert (Hdr : 0 < dr) by nia.
  assert (Hcop : Z.gcd nr dr = 1).
  { unfold nr, dr, g. apply Z.gcd_div_gcd; [fold g; lia | reflexivity]. }
  assert (E2 : dr * c = nr * r) by nia.
  assert (Hdiv : (dr | r)).
  { apply Z.gauss with nr; [|rewrite Z.gcd_comm; exact Hcop].
    exists c. lia. }
  assert (Hg2 : g2 = dr).
  { unfold g2. rewrite Z.gcd_comm. apply Z.divide_gcd_iff in Hdiv; [exact Hdiv|lia]. }
  rewrite Hg2. rewrite Z.div_same by lia.
  destruct Hdiv as (q & Eq). subst r. rewrite Z.div_mul by lia.
  assert (0 < q) by nia.
  repeat split; try lia; try nia.
Qed.

Definition loop_inv (n0 : Z) (d n r : Z) : Prop :=
  1 <= d /\ n = n0 - (d - 1) /\ r = choose (Z.to_nat n0) (Z.to_nat (d - 1)).

Lemma binomial_loop_ok n0 : 0 < n0 <= uint64_max -> forall fuel d n r,
  loop_inv n0 d n r -> 2 * (d - 1 + Z.of_nat fuel) <= n0 -> r <= uint64_max ->
  exists v, binomial_loop fuel d n r = Ok v /\
    (v = choose (Z.to_nat n0) (Z.to_nat (d - 1 + Z.of_nat fuel)) \/
     v = 0 /\ exists j, Z.of_nat j <= d - 1 + Z.of_nat fuel /\
        uint64_max < choose (Z.to_nat n0) j + n0).
Proof.
  intros Hn0. induction fuel as [|fuel IH]; intros d n r (Hd & En & Er) Hf Hr.
  - exists r. simpl. split; [reflexivity|]. left. rewrite Er. f_equal. lia.
  - cbn [binomial_loop].
    assert (Hnpos : 0 < n) by lia.
    unfold udiv at 1. replace (n =? 0) with false by lia. cbn [bind].
    assert (Hstep : d * choose (Z.to_nat n0) (Z.to_nat d) = n * r).
    { generalize (choose_step (Z.to_nat n0) (Z.to_nat (d - 1))).
      replace (S (Z.to_nat (d - 1))) with (Z.to_nat d) by lia.
      rewrite !Z2Nat.id by lia. rewrite En, Er. intros ->. f_equal. }
    assert (Hrpos : 0 < r).
    { rewrite Er. apply choose_pos. lia. }
    assert (Hdle : d <= uint64_max) by lia.
    assert (Hcpos : 0 < choose (Z.to_nat n0) (Z.to_nat d)) by (apply choose_pos; lia).
    set (c := choose (Z.to_nat n0) (Z.to_nat d)) in *.
    assert (Hnext : c <= uint64_max ->
       exists v, binomial_loop fuel (u64 (d + 1)) (u64 (n - 1)) c = Ok v /\
       (v = choose (Z.to_nat n0) (Z.to_nat (d - 1 + Z.of_nat (S fuel))) \/
        v = 0 /\ exists j, Z.of_nat j <= d - 1 + Z.of_nat (S fuel) /\
           uint64_max < choose (Z.to_nat n0) j + n0)).
    { intros Hc. rewrite !u64_small by lia.
      destruct (IH (d + 1) (n - 1) c) as (v & Ev & Hv).
      - split; [lia|]. split; [lia|]. unfold c. f_equal. f_equal. lia.
      - lia.
      - exact Hc.
      - exists v. split; [exact Ev|].
        replace (d + 1 - 1 + Z.of_nat fuel) with (d - 1 + Z.of_nat (S fuel)) in Hv by lia.
        exact Hv. }
    destruct (Z.geb_spec r (uint64_max / n)) as [Hov|Hov].
    + destruct (reduce_exact r n d c Hnpos ltac:(lia) Hrpos Hstep)
        as (D1 & D2 & Hg & Hg2 & Hnr & Hdr & Hr1).
      rewrite gcd_ui_ok by lia. cbn [bind].
      unfold udiv at 1. replace (Z.gcd n d =? 0) with false by lia. cbn [bind].
      unfold udiv at 1. replace (Z.gcd n d =? 0) with false by lia. cbn [bind].
      rewrite gcd_ui_ok by lia. cbn [bind].
      unfold udiv at 1. replace (Z.gcd r (d / Z.gcd n d) =? 0) with false by lia. cbn [bind].
      unfold udiv at 1. replace (Z.gcd r (d / Z.gcd n d) =? 0) with false by lia. cbn [bind].
      unfold udiv at 1. replace (n / Z.gcd n d =? 0) with false by lia. cbn [bind].
      destruct (Z.geb_spec (r / Z.gcd r (d / Z.gcd n d)) (uint64_max / (n / Z.gcd n d))) as [Hov2|Hov2].
      * exists 0. split; [reflexivity|]. right. split; [reflexivity|].
        exists (Z.to_nat d). split; [lia|]. fold c.
        assert (uint64_max < (uint64_max / (n / Z.gcd n d) + 1) * (n / Z.gcd n d)).
        { assert (E := Z.div_mod uint64_max (n / Z.gcd n d) ltac:(lia)).
          assert (B := Z.mod_pos_bound uint64_max (n / Z.gcd n d) ltac:(lia)). lia. }
        nia.
      * rewrite D1, D2.
        assert (Hcle : c <= uint64_max).
        { assert (E := Z.div_mod uint64_max (n / Z.gcd n d) ltac:(lia)).
          assert (B := Z.mod_pos_bound uint64_max (n / Z.gcd n d) ltac:(lia)). nia. }
        rewrite (u64_small c) by lia.
        unfold udiv. change (1 =? 0) with false. cbn [bind]. rewrite Z.div_1_r.
        apply Hnext. exact Hcle.
    + assert (Hrn : r * n <= uint64_max).
      { assert (E := Z.div_mod uint64_max n ltac:(lia)).
        assert (B := Z.mod_pos_bound uint64_max n ltac:(lia)). nia. }
      rewrite (u64_small (r * n)) by nia.
      unfold udiv. replace (d =? 0) with false by lia. cbn [bind].
      replace (r * n / d) with c.
      2:{ replace (r * n) with (c * d) by lia. rewrite Z.div_mul by lia. reflexivity. }
      apply Hnext. nia.
Qed.

Lemma binomial_correct n k : 0 <= n <= uint64_max -> 0 <= k <= uint64_max ->
  exists v, binomial n k = Ok v /\
    (v = choose (Z.to_nat n) (Z.to_nat k) \/
     v = 0 /\ uint64_max < choose (Z.to_nat n) (Z.to_nat k) + n).
Proof.
  intros Hn Hk. unfold binomial.
  destruct (Z.eqb_spec k 0) as [->|Hk0].
  { exists 1. split; [reflexivity|]. left. rewrite choose_0_r. reflexivity. }
  destruct (Z.eqb_spec k 1) as [->|Hk1].
  { exists n. split; [reflexivity|]. left. change (Z.to_nat 1) with 1%nat.
    rewrite choose_1_r, Z2Nat.id by lia. reflexivity. }
  destruct (Z.geb_spec k n) as [Hge|Hlt].
  { eexists. split; [reflexivity|]. left. destruct (Z.eqb_spec k n) as [->|Hne].
    - rewrite choose_diag. reflexivity.
    - rewrite choose_gt by lia. reflexivity. }
  set (k' := if k >? n / 2 then u64 (n - k) else k).
  assert (Hk' : 0 <= k' /\ 2 * k' <= n /\ choose (Z.to_nat n) (Z.to_nat k') = choose (Z.to_nat n) (Z.to_nat k)).
  { unfold k'. destruct (Z.gtb_spec k (n / 2)) as [Hg|Hg].
    - rewrite u64_small by lia. split; [lia|]. split.
      + assert (E := Z.div_mod n 2 ltac:(lia)).
        assert (B := Z.mod_pos_bound n 2 ltac:(lia)). lia.
      + rewrite (choose_sym _ (Z.to_nat k)) by lia. f_equal. lia.
    - split; [lia|]. split; [|reflexivity].
      assert (E := Z.div_mod n 2 ltac:(lia)). assert (B := Z.mod_pos_bound n 2 ltac:(lia)). lia. }
  destruct Hk' as (Hk'0 & Hk'2 & Ek').
  destruct (binomial_loop_ok n ltac:(lia) (Z.to_nat k') 1 n 1) as (v & Ev & Hv).
  - split; [lia|]. split; [lia|]. simpl. rewrite choose_0_r. reflexivity.
  - lia.
  - unfold uint64_max, u64_modulus. lia.
  - exists v. split; [exact Ev|].
    replace (1 - 1 + Z.of_nat (Z.to_nat k')) with k' in Hv by lia.
    rewrite Ek' in Hv. destruct Hv as [Hv|(Hv & j & Hj & Hc)]; [left; exact Hv|right].
    split; [exact Hv|].
    assert (choose (Z.to_nat n) j <= choose (Z.to_nat n) (Z.to_nat k')) by (apply choose_mono; lia).
    lia.
Qed.

(** ** factorial.c *)

Lemma factz_pos n : 0 < factz n.
Proof.
  induction n as [|n IH]; [simpl; lia|].
  change (factz (S n)) with (Z.of_nat (S n) * factz n). nia.
Qed.

Lemma fact_table_ok : forall i, 0 <= i <= 20 ->
  aget (aoflist pretabulated_factorials) [i] = Ok (factz (Z.to_nat i)).
Proof.
  intros i Hi.
  assert (H : forall j, (j <= 20)%nat ->
    aget (aoflist pretabulated_factorials) [Z.of_nat j] = Ok (factz j)).
  { intros j Hj. do 21 (destruct j as [|j]; [reflexivity|]). lia. }
  rewrite <- (Z2Nat.id i) at 1 by lia. apply H. lia.
Qed.

Lemma factorial_ok n : 0 <= n -> factorial n = Ok (factz (Z.to_nat n)).
Proof.
  intros Hn. unfold factorial.
  remember (Z.to_nat (n - 20)) as fuel eqn:Ef. revert n Hn Ef.
  induction fuel as [|fuel IH]; intros n Hn Ef; cbn [factorial_rec];
    (destruct (Z.ltb_spec n 0); [lia|]); destruct (Z.leb_spec n 20) as [H20|H20].
  - apply fact_table_ok. lia.
  - lia.
  - lia.
  - rewrite IH by lia. cbn [bind]. f_equal.
    replace (Z.to_nat n) with (S (Z.to_nat (n - 1))) by lia.
    change (factz (S (Z.to_nat (n - 1)))) with (Z.of_nat (S (Z.to_nat (n - 1))) * factz (Z.to_nat (n - 1))).
    f_equal. lia.
Qed.

Lemma factorial_neg n : n < 0 -> factorial n = Ok 1.
Proof.
  intros Hn. unfold factorial. replace (Z.to_nat (n - 20)) with O by lia.
  cbn [factorial_rec]. destruct (Z.ltb_spec n 0); [reflexivity|lia].
Qed.

Lemma ratio_prod_ok n m : 0 <= m <= n ->
  exists p, factorial_ratio_prod n m = Ok p /\ p * factz (Z.to_nat m) = factz (Z.to_nat n).
Proof.
  intros H. unfold factorial_ratio_prod.
  destruct (for_range_ok (fun i p => p * factz (Z.to_nat m) = factz (Z.to_nat (i - 1)))
              (m + 1) (n + 1) (fun i prod => Ok (prod * i)) 1) as (p & E & Hp).
  - lia.
  - replace (m + 1 - 1) with m by lia. lia.
  - intros i p Hi Hp. eexists. split; [reflexivity|].
    replace (i + 1 - 1) with i by lia.
    replace (Z.to_nat i) with (S (Z.to_nat (i - 1))) by lia.
    change (factz (S (Z.to_nat (i - 1)))) with (Z.of_nat (S (Z.to_nat (i - 1))) * factz (Z.to_nat (i - 1))).
    rewrite <- Hp. replace (Z.of_nat (S (Z.to_nat (i - 1)))) with i by lia. ring.
  - exists p. split; [exact E|]. replace (n + 1 - 1) with n in Hp by lia. exact Hp.
Qed.

Lemma factorial_ratio_ok n m : 0 <= n -> 0 <= m ->
  exists a b, factorial_ratio n m = Ok (a, b) /\ 0 < b /\
    a * factz (Z.to_nat m) = b * factz (Z.to_nat n).
Proof.
  intros Hn Hm. unfold factorial_ratio.
  destruct (Z.eqb_spec n m) as [->|Hne].
  { exists 1, 1. repeat split; lia. }
  destruct (Z.ltb_spec n m) as [Hlt|Hge].
  - destruct (ratio_prod_ok m n ltac:(lia)) as (p & E & Hp). rewrite E. cbn [bind].
    exists 1, p. repeat split; [|lia].
    generalize (factz_pos (Z.to_nat m)) (factz_pos (Z.to_nat n)). nia.
  - destruct (ratio_prod_ok n m ltac:(lia)) as (p & E & Hp). rewrite E. cbn [bind].
    exists p, 1. repeat split; lia.
Qed.

Lemma double_factorial_ok n : -1 <= n <= 30 ->
  double_factorial n = Ok (dfactz (Z.to_nat n)).
Proof.
  intros H. unfold double_factorial, massert.
  replace ((n >=? -1) && (n <=? 30)) with true by lia. cbn [bind].
  destruct (Z.eqb_spec n (-1)) as [->|Hne]; [reflexivity|].
  assert (H' : forall j, (j <= 30)%nat ->
    aget (aoflist pretabulated_double_factorials) [Z.of_nat j] = Ok (dfactz j)).
  { intros j Hj. do 31 (destruct j as [|j]; [reflexivity|]). lia. }
  rewrite <- (Z2Nat.id n) at 1 by lia. apply H'. lia.
Qed.

Lemma double_factorial_abort n : n < -1 \/ 30 < n -> double_factorial n = Fail AssertFailed.
Proof.
  intros H. unfold double_factorial, massert.
  replace ((n >=? -1) && (n <=? 30)) with false by lia. reflexivity.
Qed.
