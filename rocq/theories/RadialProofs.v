(** * Radial quadrature: proofs *)

From Coq Require Import ZArith Reals Lra Lia List Bool.
From Coquelicot Require Import Coquelicot.
From Verif Require Import Base Loops Sums BinomModel HeapModel OneElModel ParamsModel RadialModel RadialSpec SphProofs.
Import ListNotations.
Open Scope R_scope.

(** ** Nodes and weights *)
Lemma log3_r_radius i n : log3_r i n = radius (IZR i / IZR (n + 1)).
Proof. unfold log3_r, radius. rewrite plus_IZR. f_equal. f_equal. ring. Qed.

Lemma xi_range i n : (1 <= i <= n)%Z -> 0 < IZR i / IZR (n + 1) < 1.
Proof.
  intros H. assert (0 < IZR i) by (apply IZR_lt; lia). assert (IZR i < IZR (n + 1)) by (apply IZR_lt; lia).
  split; [apply Rdiv_lt_0_compat; lra|]. apply (Rmult_lt_reg_r (IZR (n + 1))); [lra|]. unfold Rdiv. rewrite Rmult_assoc, Rinv_l by lra. lra.
Qed.

Lemma log3_w_radius i n : (1 <= i <= n)%Z -> log3_w i n = radius (IZR i / IZR (n + 1)) ^ 2 * radius' (IZR i / IZR (n + 1)) / IZR (n + 1).
Proof.
  intros H. pose proof (xi_range i n H) as X. unfold log3_w, radius, radius'. rewrite <- plus_IZR. set (xi := IZR i / IZR (n + 1)) in *.
  replace (1 - xi * xi * xi) with (1 - xi ^ 3) by ring. assert (0 < IZR (n + 1)) by (apply IZR_lt; lia).
  assert (xi ^ 3 < 1) by (cbn [pow]; nra). field. lra.
Qed.

Definition term (g : R -> R) (i n : Z) : R := log3_w i n * g (log3_r i n).

Lemma quadrature_terms g n : (0 <= n)%Z -> quadrature g n = zsum 1 (n + 1) (fun i => term g i n).
Proof.
  intros Hn. unfold quadrature, Rdiv. rewrite Rmult_comm, <- zsum_scal. apply zsum_ext. intros i Hi. unfold term.
  rewrite log3_w_radius, log3_r_radius by lia. cbv zeta. unfold Rdiv. ring.
Qed.

Lemma zsum_even_odd n f : (0 <= n)%Z -> zsum 1 (2 * n + 2) f = zsum 1 (n + 1) (fun i => f (2 * i)%Z) + zsum 0 (n + 1) (fun j => f (2 * j + 1)%Z).
Proof.
  intros Hn. rewrite <- (Z2Nat.id n Hn). induction (Z.to_nat n) as [|k IH].
  - change (2 * Z.of_nat 0 + 2)%Z with 2%Z. change (Z.of_nat 0 + 1)%Z with 1%Z. rewrite (zsum_nil 1 1) by lia. rewrite (zsum_first 1 2), (zsum_nil (1 + 1)), (zsum_first 0 1), (zsum_nil (0 + 1)) by lia. change (2 * 0 + 1)%Z with 1%Z. ring.
  - replace (2 * Z.of_nat (S k) + 2)%Z with (2 * Z.of_nat k + 2 + 1 + 1)%Z by lia. rewrite (zsum_last 1 (2 * Z.of_nat k + 2 + 1)), (zsum_last 1 (2 * Z.of_nat k + 2)) by lia. rewrite IH.
    replace (Z.of_nat (S k) + 1)%Z with (Z.of_nat k + 1 + 1)%Z by lia. rewrite (zsum_last 1 (Z.of_nat k + 1)), (zsum_last 0 (Z.of_nat k + 1)) by lia.
    replace (2 * Z.of_nat k + 2 + 1)%Z with (2 * (Z.of_nat k + 1) + 1)%Z by lia.
    replace (2 * (Z.of_nat k + 1))%Z with (2 * Z.of_nat k + 2)%Z by lia. ring.
Qed.

(** halving the spacing *)
Lemma quadrature_double g n : (0 <= n)%Z ->
  quadrature g (2 * n + 1) = 0.5 * quadrature g n + zsum 0 (n + 1) (fun j => term g (2 * j + 1) (2 * n + 1)).
Proof.
  intros Hn. rewrite !quadrature_terms by lia. replace (2 * n + 1 + 1)%Z with (2 * n + 2)%Z by lia. rewrite zsum_even_odd by lia. f_equal.
  rewrite <- zsum_scal. apply zsum_ext. intros i Hi. unfold term. rewrite !log3_w_radius, !log3_r_radius by lia.
  assert (E : IZR (2 * i) / IZR (2 * n + 1 + 1) = IZR i / IZR (n + 1)).
  { replace (2 * n + 1 + 1)%Z with (2 * (n + 1))%Z by lia. rewrite !mult_IZR. assert (0 < IZR (n + 1)) by (apply IZR_lt; lia). field. lra. }
  rewrite E. replace (2 * n + 1 + 1)%Z with (2 * (n + 1))%Z by lia. rewrite mult_IZR. assert (0 < IZR (n + 1)) by (apply IZR_lt; lia). replace 0.5 with (/ 2) by lra. field. lra.
Qed.

(** ** Storing points *)
Definition dims_ok (gp : gparams) (g : rgrid) : Prop :=
  adims (g_r g) = [max_grid] /\ adims (g_w g) = [max_grid] /\ adims (g_pot g) = [max_grid] /\
  adims (g_rN g) = [gp_n gp + 1; max_grid]%Z /\ adims (g_F1 g) = [gp_l1 gp + 1; max_grid]%Z /\ adims (g_F2 g) = [gp_l2 gp + 1; max_grid]%Z.

(** cell idx holds point i of the grid of nr points *)
Definition holds (gp : gparams) (g : rgrid) (idx i nr : Z) : Prop :=
  aget (g_w g) [idx] = Ok (log3_w i nr) /\ aget (g_pot g) [idx] = Ok (gp_pot gp (log3_r i nr)) /\
  (forall n, (0 <= n <= gp_n gp)%Z -> aget (g_rN g) [n; idx] = Ok (log3_r i nr ^ Z.to_nat n)) /\
  (forall l, (0 <= l <= gp_l1 gp)%Z -> aget (g_F1 g) [l; idx] = Ok (gp_f1 gp l (log3_r i nr))) /\
  (forall l, (0 <= l <= gp_l2 gp)%Z -> aget (g_F2 g) [l; idx] = Ok (gp_f2 gp l (log3_r i nr))).

Lemma rows_loop d (a : arr R) (f : Z -> R) idx : (0 <= d)%Z -> adims a = [d; max_grid] -> (0 <= idx < max_grid)%Z ->
  exists a', for_range 0 d (fun n a => aset a [n; idx] (f n)) a = Ok a' /\ adims a' = [d; max_grid] /\
    (forall n, (0 <= n < d)%Z -> aget a' [n; idx] = Ok (f n)) /\ (forall n j, j <> idx -> aget a' [n; j] = aget a [n; j]).
Proof.
  intros Hd Da Hi.
  destruct (for_range_ok (fun k (b : arr R) => adims b = [d; max_grid] /\ (forall n, (0 <= n < k)%Z -> aget b [n; idx] = Ok (f n)) /\ (forall n j, j <> idx -> aget b [n; j] = aget a [n; j]))
    0 d (fun n a => aset a [n; idx] (f n)) a Hd) as (a' & E & D & V & O).
  - split; [exact Da|]. split; [intros; lia|]. reflexivity.
  - intros k b Hk (D & V & O). destruct (aset_get b [k; idx] (f k)) as (b' & -> & D' & G & K); [rewrite D; apply inb2; lia|].
    exists b'. split; [reflexivity|]. split; [congruence|]. split.
    + intros n Hn. destruct (Z.eq_dec n k) as [-> | Hne]; [exact G|]. rewrite K by congruence. apply V. lia.
    + intros n j Hj. rewrite K by congruence. apply O. exact Hj.
  - exists a'. auto.
Qed.

Lemma store_ok gp i nr idx g : (0 <= gp_n gp)%Z -> (0 <= gp_l1 gp)%Z -> (0 <= gp_l2 gp)%Z -> dims_ok gp g -> (0 <= idx < max_grid)%Z ->
  exists g', store_point gp i nr idx g = Ok g' /\ dims_ok gp g' /\ g_nr g' = g_nr g /\ holds gp g' idx i nr /\
    (forall j a m, j <> idx -> holds gp g j a m -> holds gp g' j a m).
Proof.
  intros Hn H1 H2 (D1 & D2 & D3 & D4 & D5 & D6) Hi. unfold store_point.
  destruct (aset_get (g_r g) [idx] (log3_r i nr)) as (r' & -> & Dr & Gr & Kr); [rewrite D1; apply inb1; lia|].
  destruct (aset_get (g_w g) [idx] (log3_w i nr)) as (w' & -> & Dw & Gw & Kw); [rewrite D2; apply inb1; lia|].
  destruct (aset_get (g_pot g) [idx] (gp_pot gp (log3_r i nr))) as (p' & -> & Dp & Gp & Kp); [rewrite D3; apply inb1; lia|].
  destruct (rows_loop (gp_n gp + 1) (g_rN g) (fun n => log3_r i nr ^ Z.to_nat n) idx) as (n' & -> & Dn & Gn & Kn); [lia|exact D4|exact Hi|].
  destruct (rows_loop (gp_l1 gp + 1) (g_F1 g) (fun l => gp_f1 gp l (log3_r i nr)) idx) as (f1' & -> & Df1 & Gf1 & Kf1); [lia|exact D5|exact Hi|].
  destruct (rows_loop (gp_l2 gp + 1) (g_F2 g) (fun l => gp_f2 gp l (log3_r i nr)) idx) as (f2' & -> & Df2 & Gf2 & Kf2); [lia|exact D6|exact Hi|].
  rewrite !bind_ok. eexists. split; [reflexivity|]. split; [|split; [|split]].
  - unfold dims_ok. cbn. repeat split; congruence.
  - reflexivity.
  - unfold holds. cbn. repeat (split; [first [exact Gw|exact Gp|intros n Hn'; apply Gn; lia|intros l Hl; apply Gf1; lia]|]). intros l Hl; apply Gf2; lia.
  - intros j a m Hj (Aw & Ap & An & A1 & A2). unfold holds. cbn.
    split; [rewrite Kw by congruence; exact Aw|]. split; [rewrite Kp by congruence; exact Ap|].
    split; [intros n Hn'; rewrite Kn by exact Hj; apply An; exact Hn'|]. split; [intros l Hl; rewrite Kf1 by exact Hj; apply A1; exact Hl|].
    intros l Hl; rewrite Kf2 by exact Hj; apply A2; exact Hl.
Qed.

(** the grid contains the points of stages 0..s *)
Definition valid (mn : Z) (gp : gparams) (s : nat) (g : rgrid) : Prop :=
  dims_ok gp g /\ g_nr g = stage mn s /\
  (forall idx, (0 <= idx < mn)%Z -> holds gp g idx (idx + 1) mn) /\
  (forall t, (t < s)%nat -> forall j, (0 <= j <= stage mn t)%Z -> holds gp g (stage mn t + j) (2 * j + 1) (stage mn (S t))).

Lemma stage_mono mn s t : (0 <= mn)%Z -> (s <= t)%nat -> (stage mn s <= stage mn t)%Z.
Proof.
  intros Hm H. assert (P : forall k, (0 <= stage mn k)%Z) by (induction k; cbn [stage]; lia).
  induction H as [|t H IH]; [lia|]. cbn [stage]. pose proof (P t). lia.
Qed.
Lemma stage_nonneg mn s : (0 <= mn)%Z -> (0 <= stage mn s)%Z.
Proof. intros Hm. pose proof (stage_mono mn 0 s Hm ltac:(lia)). cbn [stage] in *. lia. Qed.
Lemma stage_lt mn s t : (0 <= mn)%Z -> (s < t)%nat -> (stage mn s < stage mn t)%Z.
Proof. intros Hm H. pose proof (stage_mono mn (S s) t Hm H). pose proof (stage_nonneg mn s Hm). cbn [stage] in *. lia. Qed.

Lemma create_valid mn gp : (0 < mn <= max_grid)%Z -> (0 <= gp_n gp)%Z -> (0 <= gp_l1 gp)%Z -> (0 <= gp_l2 gp)%Z -> exists g, create_grid mn gp = Ok g /\ valid mn gp 0 g.
Proof.
  intros Hm Hn H1 H2. unfold create_grid.
  destruct (for_range_ok (fun k g => dims_ok gp g /\ g_nr g = mn /\ forall idx, (0 <= idx < k - 1)%Z -> holds gp g idx (idx + 1) mn) 1 (mn + 1)
    (fun i g => store_point gp i mn (i - 1) g)
    (mkGrid mn (aconst [max_grid] 0) (aconst [max_grid] 0) (aconst [max_grid] 0) (aconst [gp_n gp + 1; max_grid]%Z 0) (aconst [gp_l1 gp + 1; max_grid]%Z 0) (aconst [gp_l2 gp + 1; max_grid]%Z 0)))
    as (g & E & D & N & V).
  - lia.
  - split; [unfold dims_ok; cbn; repeat split; reflexivity|]. split; [reflexivity|]. intros; lia.
  - intros i g Hi (D & N & V). destruct (store_ok gp i mn (i - 1) g Hn H1 H2 D ltac:(lia)) as (g' & E & D' & N' & W & K).
    exists g'. split; [exact E|]. split; [exact D'|]. split; [congruence|]. intros idx Hidx.
    destruct (Z.eq_dec idx (i - 1)) as [-> | Hne]; [replace (i - 1 + 1)%Z with i by lia; exact W|]. apply K; [exact Hne|]. apply V. lia.
  - exists g. split; [exact E|]. split; [exact D|]. split; [exact N|]. split; [intros idx Hidx; apply V; lia|]. intros t Ht; lia.
Qed.

Lemma expand_valid mn gp s t g : (0 < mn)%Z -> (0 <= gp_n gp)%Z -> (0 <= gp_l1 gp)%Z -> (0 <= gp_l2 gp)%Z ->
  valid mn gp s g -> (t <= s)%nat -> (stage mn (S t) <= max_grid)%Z ->
  exists g', expand_grid gp (stage mn (S t)) g = Ok g' /\ valid mn gp (Nat.max s (S t)) g'.
Proof.
  intros Hm Hn H1 H2 (D & N & V0 & VT) Hts Hc. unfold expand_grid. destruct (Z.gtb_spec (stage mn (S t)) max_grid); [lia|].
  destruct (Z.leb_spec (stage mn (S t)) (g_nr g)) as [Hle|Hgt].
  { exists g. split; [reflexivity|]. assert (S t <= s)%nat.
    { rewrite N in Hle. destruct (Nat.le_gt_cases (S t) s) as [X|X]; [exact X|]. pose proof (stage_lt mn s (S t) ltac:(lia) X). lia. }
    rewrite Nat.max_l by lia. split; [exact D|]. auto. }
  assert (s = t).
  { rewrite N in Hgt. destruct (Nat.le_gt_cases (S t) s) as [X|X]; [pose proof (stage_mono mn (S t) s ltac:(lia) X); lia|lia]. }
  subst s. rewrite Nat.max_r by lia. rewrite N. pose proof (stage_nonneg mn t ltac:(lia)) as Hs.
  assert (Eh : ((stage mn (S t) + 1) / 2 = stage mn t + 1)%Z) by (cbn [stage]; replace (2 * stage mn t + 1 + 1)%Z with ((stage mn t + 1) * 2)%Z by lia; apply Z.div_mul; lia).
  rewrite Eh.
  destruct (for_range_ok (fun k g => dims_ok gp g /\ (forall idx, (0 <= idx < mn)%Z -> holds gp g idx (idx + 1) mn) /\
     (forall u, (u < t)%nat -> forall j, (0 <= j <= stage mn u)%Z -> holds gp g (stage mn u + j) (2 * j + 1) (stage mn (S u))) /\
     (forall j, (0 <= j < k)%Z -> holds gp g (stage mn t + j) (2 * j + 1) (stage mn (S t)))) 0 (stage mn t + 1)
     (fun j g => store_point gp (2 * j + 1) (stage mn (S t)) (stage mn t + j) g) g) as (g' & E & D' & V0' & VT' & W').
  - lia.
  - split; [exact D|]. split; [exact V0|]. split; [exact VT|]. intros; lia.
  - intros j g1 Hj (D1 & V01 & VT1 & W1).
    assert (Hidx : (0 <= stage mn t + j < max_grid)%Z) by (cbn [stage] in Hc; lia).
    destruct (store_ok gp (2 * j + 1) (stage mn (S t)) (stage mn t + j) g1 Hn H1 H2 D1 Hidx) as (g2 & E2 & D2 & N2 & W2 & K2).
    exists g2. split; [exact E2|]. split; [exact D2|]. split; [|split].
    + intros idx Hi. apply K2; [|apply V01; exact Hi]. pose proof (stage_mono mn 0 t ltac:(lia) ltac:(lia)). cbn [stage] in *. lia.
    + intros u Hu j' Hj'. apply K2; [|apply VT1; assumption]. pose proof (stage_mono mn (S u) t ltac:(lia) Hu). cbn [stage] in *. lia.
    + intros j' Hj'. destruct (Z.eq_dec j' j) as [-> | Hne]; [exact W2|]. apply K2; [lia|]. apply W1. lia.
  - rewrite E, bind_ok. eexists. split; [reflexivity|]. unfold valid. cbn. split; [exact D'|]. split; [reflexivity|]. split; [exact V0'|].
    intros u Hu j Hj. destruct (Nat.eq_dec u t) as [-> | Hne]; [apply W'; lia|]. apply VT'; [lia|exact Hj].
Qed.

(** ** Summation *)
Definition integrand (gp : gparams) (n l1 l2 : Z) (r : R) : R := gp_pot gp r * gp_f1 gp l1 r * gp_f2 gp l2 r * r ^ Z.to_nat n.

Lemma add_points_ok gp g n l1 l2 lo hi sum (i nr : Z -> Z) : (lo <= hi)%Z -> (0 <= n <= gp_n gp)%Z -> (0 <= l1 <= gp_l1 gp)%Z -> (0 <= l2 <= gp_l2 gp)%Z ->
  (forall idx, (lo <= idx < hi)%Z -> holds gp g idx (i idx) (nr idx)) ->
  add_points g n l1 l2 lo hi sum = Ok (sum + zsum lo hi (fun idx => term (integrand gp n l1 l2) (i idx) (nr idx))).
Proof.
  intros H Hn H1 H2 V. unfold add_points. apply acc_loop; [exact H|]. intros idx v Hi. destruct (V idx Hi) as (A & B & C & D & E). cbv beta.
  rewrite A, bind_ok, B, bind_ok, (D l1 H1), bind_ok, (E l2 H2), bind_ok, (C n Hn), bind_ok. f_equal. unfold term, integrand. ring.
Qed.

Lemma first_sum mn gp s g n l1 l2 : (0 < mn)%Z -> valid mn gp s g -> (0 <= n <= gp_n gp)%Z -> (0 <= l1 <= gp_l1 gp)%Z -> (0 <= l2 <= gp_l2 gp)%Z ->
  add_points g n l1 l2 0 mn 0 = Ok (quadrature (integrand gp n l1 l2) mn).
Proof.
  intros Hm (_ & _ & V0 & _) Hn H1 H2. rewrite (add_points_ok gp g n l1 l2 0 mn 0 (fun idx => idx + 1)%Z (fun _ => mn)); try assumption; [|lia].
  f_equal. rewrite quadrature_terms by lia. rewrite Rplus_0_l, (zsum_shift 1 0 mn (fun i => term (integrand gp n l1 l2) i mn)). reflexivity.
Qed.

Lemma next_sum mn gp s t g n l1 l2 : (0 < mn)%Z -> valid mn gp s g -> (S t <= s)%nat -> (0 <= n <= gp_n gp)%Z -> (0 <= l1 <= gp_l1 gp)%Z -> (0 <= l2 <= gp_l2 gp)%Z ->
  add_points g n l1 l2 (stage mn t) (stage mn (S t)) (0.5 * quadrature (integrand gp n l1 l2) (stage mn t)) = Ok (quadrature (integrand gp n l1 l2) (stage mn (S t))).
Proof.
  intros Hm (_ & _ & _ & VT) Hts Hn H1 H2. pose proof (stage_nonneg mn t ltac:(lia)).
  rewrite (add_points_ok gp g n l1 l2 _ _ _ (fun idx => 2 * (idx - stage mn t) + 1)%Z (fun _ => stage mn (S t))); try assumption; [|cbn [stage]; lia|].
  - f_equal. change (stage mn (S t)) with (2 * stage mn t + 1)%Z at 1 2 3. rewrite quadrature_double by lia. f_equal.
    replace (stage mn t) with (0 + stage mn t)%Z at 1 by lia. replace (2 * stage mn t + 1)%Z with (stage mn t + 1 + stage mn t)%Z at 1 by lia.
    rewrite <- (zsum_shift (stage mn t)). apply zsum_ext. intros j Hj. change (stage mn (S t)) with (2 * stage mn t + 1)%Z. f_equal. lia.
  - intros idx Hidx. replace idx with (stage mn t + (idx - stage mn t))%Z at 1 by lia. apply VT; [lia|]. cbn [stage] in Hidx. lia.
Qed.

Lemma refine_ok mn gp screen tol n l1 l2 : (0 < mn)%Z -> (0 <= n <= gp_n gp)%Z -> (0 <= l1 <= gp_l1 gp)%Z -> (0 <= l2 <= gp_l2 gp)%Z ->
  let q := integrand gp n l1 l2 in
  forall fuel t s g, valid mn gp s g -> (t <= s)%nat -> (stage mn t <= max_grid)%Z -> (max_grid + 1 < 2 ^ Z.of_nat fuel * (stage mn t + 1))%Z ->
  (forall j, (j < t)%nat -> ~ accepted q mn screen tol j) ->
  exists v c g' s', refine fuel gp screen tol n l1 l2 (stage mn t) (quadrature q (stage mn t)) g = Ok (v, c, g') /\ valid mn gp s' g' /\ adaptive max_grid mn q screen tol v c.
Proof.
  intros Hm Hn H1 H2 q. induction fuel as [|fuel IH]; intros t s g V Hts Hc Hf Hrej; [change (2 ^ Z.of_nat 0)%Z with 1%Z in Hf; lia|].
  cbn [refine]. destruct (Z.gtb_spec (2 * stage mn t + 1) max_grid) as [Hgt|Hle].
  { exists (quadrature q (stage mn t)), false, g, s. split; [reflexivity|]. split; [exact V|]. exists t. split; [reflexivity|]. split; [exact Hc|]. split; [exact Hgt|exact Hrej]. }
  destruct (expand_valid mn gp s t g Hm ltac:(lia) ltac:(lia) ltac:(lia) V Hts Hle) as (g1 & E1 & V1).
  change (2 * stage mn t + 1)%Z with (stage mn (S t)) in *. rewrite E1, bind_ok.
  pose proof (next_sum mn gp _ t g1 n l1 l2 Hm V1 ltac:(lia) Hn H1 H2) as NS. fold q in NS. rewrite NS, bind_ok.
  assert (REC : ~ accepted q mn screen tol t -> exists v c g' s', refine fuel gp screen tol n l1 l2 (stage mn (S t)) (quadrature q (stage mn (S t))) g1 = Ok (v, c, g') /\ valid mn gp s' g' /\ adaptive max_grid mn q screen tol v c).
  { intros Hna. apply (IH (S t) (Nat.max s (S t)) g1 V1); [lia|exact Hle| |].
    - change (stage mn (S t)) with (2 * stage mn t + 1)%Z. replace (Z.of_nat (S fuel)) with (Z.of_nat fuel + 1)%Z in Hf by lia. rewrite Z.pow_add_r in Hf by lia. change (2 ^ 1)%Z with 2%Z in Hf. replace (2 * stage mn t + 1 + 1)%Z with (2 * (stage mn t + 1))%Z by lia. rewrite Z.mul_assoc. exact Hf.
    - intros j Hj. destruct (Nat.eq_dec j t) as [-> | Hne]; [exact Hna|]. apply Hrej. lia. }
  set (sus := match screen with Some s0 => if Rlt_dec (Rabs (quadrature q (stage mn (S t))) / Rabs s0) 0.001 then true else false | None => false end).
  assert (Hsus : if sus then ~ accepted q mn screen tol t else match screen with Some v => 0.001 <= Rabs (quadrature q (stage mn (S t))) / Rabs v | None => True end).
  { unfold sus, accepted. destruct screen as [s0|]; [|exact I]. destruct (Rlt_dec _ _) as [X|X]; [intros (_ & Y); lra|lra]. }
  destruct sus; [exact (REC Hsus)|].
  destruct (Rle_dec (Rabs (quadrature q (stage mn (S t)) - quadrature q (stage mn t))) tol) as [Hacc|Hn2].
  - eexists _, true, g1, _. split; [reflexivity|]. split; [exact V1|]. exists (S t). split; [reflexivity|]. split; [exact Hle|]. exists t. split; [reflexivity|]. split; [split; assumption|exact Hrej].
  - apply REC. intros (X & _). contradiction.
Qed.

Lemma calculate_ok fuel mn gp screen tol n l1 l2 s g : (0 < mn <= max_grid)%Z -> (0 <= n <= gp_n gp)%Z -> (0 <= l1 <= gp_l1 gp)%Z -> (0 <= l2 <= gp_l2 gp)%Z -> (14 <= fuel)%nat ->
  valid mn gp s g ->
  exists v c g' s', calculate_radial fuel mn gp screen tol n l1 l2 g = Ok (v, c, g') /\ valid mn gp s' g' /\
    match screen with Some x => if Rlt_dec (Rabs x) tol then v = x /\ c = true else adaptive max_grid mn (integrand gp n l1 l2) screen tol v c
    | None => adaptive max_grid mn (integrand gp n l1 l2) screen tol v c end.
Proof.
  intros Hm Hn H1 H2 Hf V. unfold calculate_radial.
  assert (G : exists v c g' s', (let* sum := add_points g n l1 l2 0 mn 0 in refine fuel gp screen tol n l1 l2 mn sum g) = Ok (v, c, g') /\ valid mn gp s' g' /\ adaptive max_grid mn (integrand gp n l1 l2) screen tol v c).
  { rewrite (first_sum mn gp s g n l1 l2 ltac:(lia) V Hn H1 H2), bind_ok.
    apply (refine_ok mn gp screen tol n l1 l2 ltac:(lia) Hn H1 H2 fuel 0 s g V); [lia|cbn [stage]; lia| |intros; lia].
    cbn [stage]. assert (2 ^ 14 <= 2 ^ Z.of_nat fuel)%Z by (apply Z.pow_le_mono_r; lia). unfold max_grid. change (2 ^ 14)%Z with 16384%Z in *. nia. }
  destruct screen as [x|]; [|exact G]. destruct (Rlt_dec (Rabs x) tol); [|exact G]. exists x, true, g, s. auto.
Qed.
