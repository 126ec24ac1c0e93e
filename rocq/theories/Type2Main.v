(** * The semilocal integrals *)

From Coq Require Import ZArith Reals Lra Lia List Bool.
From Coquelicot Require Import Coquelicot.
From Verif Require Import Base Loops BinomModel BinomProofs CartModel CartProofs HeapModel OneElModel OneElProofs OneElInt OneElPairs OneElSpec ParamsModel Sums
  SphModel SphSpec SphPoly SphProofs SphTables SphInt SphOrtho SphAngular SphThms SphSpan SphAdd LmatModel RadialModel RadialSpec PiBounds OutercoreModel OutercoreProofs
  NucPotSpec NucPot GaussMoment RadialTables Type2Model Type2Spec Type2Proj Type2Radial Type2Error Type2Value.
Import ListNotations.
Open Scope R_scope.

(** ** The computed angular factors are close to the exact ones *)
Lemma zsum_member lo hi f i : (forall k, (lo <= k < hi)%Z -> 0 <= f k) -> (lo <= i < hi)%Z -> f i <= zsum lo hi f.
Proof.
  intros H Hi. rewrite (zsum_split lo i hi) by lia. rewrite (zsum_first i hi) by lia.
  pose proof (zsum_nonneg lo i f ltac:(intros; apply H; lia)). pose proof (zsum_nonneg (i + 1) hi f ltac:(intros; apply H; lia)). lra.
Qed.

Lemma overlap_abs l mu L m a b c : (L + (a + b + c) <= 14)%nat -> (l <= L + (a + b + c))%nat -> (Z.abs m <= Z.of_nat L)%Z -> (Z.abs mu <= Z.of_nat l)%Z -> Rabs (moment2 l mu L m a b c) <= 1.
Proof.
  intros Hs Hl Hm Hmu.
  assert (S1 : zsum (- Z.of_nat l) (Z.of_nat l + 1) (fun mu => moment2 l mu L m a b c ^ 2) <= 1).
  { apply (overlaps_le_1 a b c L m l (fun mu => moment2 l mu L m a b c)); try lia. intros mu' Hmu'. eapply sphere_ext; [|apply (moment2_int l mu' L m a b c); try lia; left; lia]. intros x y z _. reflexivity. }
  pose proof (zsum_member (- Z.of_nat l) (Z.of_nat l + 1) (fun mu => moment2 l mu L m a b c ^ 2) mu (fun k _ => pow2_ge_0 _) ltac:(lia)) as S2. cbv beta in S2.
  set (w := moment2 l mu L m a b c) in *. apply Rabs_le. split; nra.
Qed.

Lemma omega_close l L m a b c k : (L + (a + b + c) <= 14)%nat -> (l <= L + (a + b + c))%nat -> (Z.abs m <= Z.of_nat L)%Z -> Rabs (omega_c l L m a b c k - omega l L m a b c k) <= 29 / 10 ^ 14.
Proof.
  intros Hs Hl Hm. unfold omega_c, omega. assert (T : 0 < 1 / 10 ^ 14) by (apply Rdiv_lt_0_compat; [lra|apply pow_lt; lra]).
  eapply Rle_trans; [apply (zsum_close _ _ _ _ (1 / 10 ^ 14)); [|lra|lia]|].
  - intros mu Hmu. rewrite <- Rmult_minus_distr_l, Rabs_mult. pose proof (overlap_abs l mu L m a b c Hs Hl Hm ltac:(lia)) as W. pose proof (Rabs_pos (moment2 l mu L m a b c)).
    assert (X : Rabs (significant_value (sph_value l mu k) - sph_value l mu k) <= 1 / 10 ^ 14).
    { unfold significant_value. destruct (Rlt_dec _ _) as [H1|H1]; [rewrite Rminus_0_l, Rabs_Ropp; lra|rewrite Rminus_eq_0, Rabs_R0; lra]. }
    apply Rle_trans with (1 * (1 / 10 ^ 14)); [|lra]. apply Rmult_le_compat; [assumption|apply Rabs_pos|exact W|exact X].
  - replace (29 / 10 ^ 14) with (29 * (1 / 10 ^ 14)) by lra. apply Rmult_le_compat_r; [lra|]. apply (IZR_le _ 29). lia.
Qed.

Lemma product_close x y X Y e1 e2 : Rabs (x - X) <= e1 -> Rabs (y - Y) <= e2 -> Rabs X <= 152 / 100 -> Rabs Y <= 152 / 100 ->
  Rabs (x * y - X * Y) <= e1 * (152 / 100 + e2) + 152 / 100 * e2.
Proof.
  intros H1 H2 H3 H4. replace (x * y - X * Y) with ((x - X) * y + X * (y - Y)) by ring. eapply Rle_trans; [apply Rabs_triang|]. rewrite !Rabs_mult.
  assert (Rabs y <= 152 / 100 + e2) by (replace y with (Y + (y - Y)) by ring; eapply Rle_trans; [apply Rabs_triang|lra]).
  apply Rplus_le_compat; apply Rmult_le_compat; try apply Rabs_pos; assumption.
Qed.

Lemma trunc_close thr x : 0 <= thr -> Rabs (trunc thr x - x) <= thr.
Proof. intros H. unfold trunc. destruct (Rlt_dec _ _) as [H1|H1]; [rewrite Rminus_0_l, Rabs_Ropp; lra|rewrite Rminus_eq_0, Rabs_R0; exact H]. Qed.

Lemma omega_pair thr l1 a b c kA l2 d e f kB L m1 m2 : 0 <= thr <= 1 / 10 ^ 14 -> (L + (a + b + c) <= 14)%nat -> (l1 <= L + (a + b + c))%nat -> (L + (d + e + f) <= 14)%nat -> (l2 <= L + (d + e + f))%nat ->
  (Z.abs m1 <= Z.of_nat L)%Z -> (Z.abs m2 <= Z.of_nat L)%Z ->
  Rabs (trunc thr (omega_c l1 L m1 a b c kA) * omega_c l2 L m2 d e f kB - omega l1 L m1 a b c kA * omega l2 L m2 d e f kB) <= 1 / 10 ^ 12 /\
  Rabs (omega l1 L m1 a b c kA * omega l2 L m2 d e f kB) <= 2311 / 1000.
Proof.
  intros Ht A1 A2 B1 B2 Hm1 Hm2. pose proof (omega_close l1 L m1 a b c kA A1 A2 Hm1) as CA. pose proof (omega_close l2 L m2 d e f kB B1 B2 Hm2) as CB.
  pose proof (omega_bound l1 L m1 a b c kA A1 A2 Hm1) as BA. pose proof (omega_bound l2 L m2 d e f kB B1 B2 Hm2) as BB. split.
  - eapply Rle_trans; [apply (product_close _ _ _ _ (30 / 10 ^ 14) (29 / 10 ^ 14)); [|exact CB|exact BA|exact BB]|lra].
    pose proof (trunc_close thr (omega_c l1 L m1 a b c kA) (proj1 Ht)) as T. set (u := trunc thr _) in *. set (v := omega_c l1 L m1 a b c kA) in *.
    replace (u - omega l1 L m1 a b c kA) with ((u - v) + (v - omega l1 L m1 a b c kA)) by ring. eapply Rle_trans; [apply Rabs_triang|]. lra.
  - rewrite Rabs_mult. apply Rle_trans with (152 / 100 * (152 / 100)); [|lra]. apply Rmult_le_compat; try apply Rabs_pos; assumption.
Qed.

(** type2_angular_sum *)
Definition ang2 (L : nat) (kA kB : R * R * R) (l1 a b c l2 d e f : nat) : R :=
  zsum (- Z.of_nat L) (Z.of_nat L + 1) (fun m => trunc (1 / 10 ^ 16) (omega_c l1 L m a b c kA) * omega_c l2 L m d e f kB).

Lemma ang2_computed st cols L kA kB l1 a b c l2 d e f vA vB : init_tables st -> (L + (a + b + c) <= 14)%nat -> (l1 <= L + (a + b + c))%nat -> (L + (d + e + f) <= 14)%nat -> (l2 <= L + (d + e + f))%nat ->
  (29 <= cols)%Z -> evaluate_real_spherical_harmonics_array st (Z.of_nat l1) kA (aundef [cols]) = Ok vA -> evaluate_real_spherical_harmonics_array st (Z.of_nat l2) kB (aundef [cols]) = Ok vB ->
  type2_angular_sum st (Z.of_nat L) (Z.of_nat l1) (Z.of_nat a) (Z.of_nat b) (Z.of_nat c) (Z.of_nat l2) (Z.of_nat d) (Z.of_nat e) (Z.of_nat f) vA vB = Ok (ang2 L kA kB l1 a b c l2 d e f).
Proof.
  intros HI A1 A2 B1 B2 Hc EA EB. unfold type2_angular_sum.
  destruct (loop_sum (- Z.of_nat L) (Z.of_nat L + 1) (fun _ : R => True) (fun _ : unit => True) (fun s _ => s)
    (fun m _ => trunc (1 / 10 ^ 16) (omega_c l1 L m a b c kA) * omega_c l2 L m d e f kB)
    (fun m sum => let* omega_1 := angular_type2_integral st (Z.of_nat l1) (Z.of_nat L) m (Z.of_nat a) (Z.of_nat b) (Z.of_nat c) vA in
      if Rlt_dec (Rabs omega_1) (1 / 10 ^ 16) then Ok sum
      else let* omega_2 := angular_type2_integral st (Z.of_nat l2) (Z.of_nat L) m (Z.of_nat d) (Z.of_nat e) (Z.of_nat f) vB in Ok (sum + omega_1 * omega_2)) 0) as (s & E & _ & V).
  - lia.
  - exact I.
  - intros m s Hm _. rewrite (omega_computed st cols l1 L m a b c kA vA HI A1 A2 ltac:(lia) ltac:(lia) EA). cbn [bind]. unfold trunc. destruct (Rlt_dec _ _) as [H1|H1].
    + exists s. split; [reflexivity|]. split; [exact I|]. intros _ _. ring.
    + rewrite (omega_computed st cols l2 L m d e f kB vB HI B1 B2 ltac:(lia) ltac:(lia) EB). cbn [bind]. eexists. split; [reflexivity|]. split; [exact I|]. intros _ _. ring.
  - rewrite E. f_equal. specialize (V Datatypes.tt I). cbv beta in V. rewrite V. unfold ang2. ring.
Qed.

Lemma ang2_close L kA kB l1 a b c l2 d e f : (L + (a + b + c) <= 14)%nat -> (l1 <= L + (a + b + c))%nat -> (L + (d + e + f) <= 14)%nat -> (l2 <= L + (d + e + f))%nat ->
  let exact := asum L unit_matrix (fun m => omega l1 L m a b c kA) (fun m => omega l2 L m d e f kB) in
  Rabs (ang2 L kA kB l1 a b c l2 d e f - exact) <= (2 * INR L + 1) * (1 / 10 ^ 12) /\ Rabs exact <= (2 * INR L + 1) * (2311 / 1000).
Proof.
  intros A1 A2 B1 B2 ex. unfold ex. rewrite asum_unit.
  assert (C : 2 * INR L + 1 = IZR (Z.of_nat L + 1 - - Z.of_nat L)) by (rewrite INR_IZR_INZ; replace (Z.of_nat L + 1 - - Z.of_nat L)%Z with (2 * Z.of_nat L + 1)%Z by lia; rewrite plus_IZR, mult_IZR; ring).
  rewrite C. assert (T : 0 <= 1 / 10 ^ 16 <= 1 / 10 ^ 14) by (split; lra). split.
  - unfold ang2. apply zsum_close; [|lra|lia]. intros m Hm. apply (omega_pair (1 / 10 ^ 16)); try assumption; lia.
  - rewrite <- (Rminus_0_r (zsum _ _ _)), <- (zsum_zero (- Z.of_nat L) (Z.of_nat L + 1) (fun _ => 0) (fun _ _ => eq_refl)).
    apply zsum_close; [|lra|lia]. intros m Hm. rewrite Rminus_0_r. apply (omega_pair (1 / 10 ^ 16)); try assumption; lia.
Qed.

(** ** Shells *)
Lemma component_ok s comps (i : nat) c : holds_comps s comps -> nth_error comps i = Some c -> component s (Z.of_nat i) = Ok c.
Proof.
  intros (_ & H) Hi. assert (Hl : (i < length comps)%nat) by (apply nth_error_Some; rewrite Hi; discriminate). specialize (H i Hl). rewrite (nth_error_nth comps i (0, 0, 0)%Z Hi) in H. destruct c as [[n l] m]. destruct H as (E1 & E2 & E3).
  unfold component. rewrite E1. cbn [bind]. rewrite E2. cbn [bind]. rewrite E3. reflexivity.
Qed.

Lemma first_momentum_ok s L comps : holds_comps s comps -> comps_of L comps -> comps <> [] -> first_momentum s = Ok L.
Proof.
  intros H HL Hn. destruct comps as [|[[n l] m] comps]; [contradiction|]. destruct H as (_ & H). specialize (H 0%nat ltac:(cbn; lia)). cbn [nth Z.of_nat] in H. destruct H as (E1 & E2 & E3).
  unfold first_momentum. change (3 * 0 + 0)%Z with 0%Z in E1. change (3 * 0 + 1)%Z with 1%Z in E2. change (3 * 0 + 2)%Z with 2%Z in E3. rewrite E1. cbn [bind]. rewrite E2. cbn [bind]. rewrite E3. cbn [bind]. f_equal. apply (HL n l m). left; reflexivity.
Qed.

Lemma read_prims_ok s prims : holds_prims s prims -> read_prims s = Ok prims.
Proof.
  intros (N & H). unfold read_prims. rewrite N.
  destruct (for_range_ok (fun k l => (0 <= k)%Z /\ l = firstn (Z.to_nat k) prims) 0 (Z.of_nat (length prims))
    (fun i l => let* c := aget (sv_coef s) [i] in let* a := aget (sv_alpha s) [i] in Ok (l ++ [(c, a)])) []) as (l & E & _ & El).
  - lia.
  - split; [lia|reflexivity].
  - intros k l Hk (Hk0 & ->). destruct (H (Z.to_nat k) ltac:(lia)) as (E1 & E2). rewrite Z2Nat.id in E1, E2 by lia. rewrite E1. cbn [bind]. rewrite E2. cbn [bind]. eexists. split; [reflexivity|]. split; [lia|].
    replace (Z.to_nat (k + 1)) with (S (Z.to_nat k)) by lia. rewrite <- surjective_pairing.
    assert (Hl : (Z.to_nat k < length prims)%nat) by lia. clear - Hl. revert Hl. generalize (Z.to_nat k) as n. intros n. revert prims. induction n as [|n IH]; intros [|x l] Hl; cbn in Hl; try lia; [reflexivity|]. cbn. f_equal. apply IH. lia.
  - rewrite E, El, Nat2Z.id, firstn_all. reflexivity.
Qed.

Lemma first_alpha s prims : holds_prims s prims -> prims <> [] -> exists c a, In (c, a) prims /\ aget (sv_alpha s) [0%Z] = Ok a.
Proof.
  intros (N & H) Hn. destruct prims as [|[c a] prims]; [contradiction|]. exists c, a. split; [left; reflexivity|]. apply (H 0%nat). cbn. lia.
Qed.

(** the direction: [org] is at C, or 2 alpha |C - org| > 1e-14 for the first exponent *)
Definition direction_known (org C : R * R * R) (prims : list (R * R)) : Prop :=
  org = C \/ exists c a l, prims = (c, a) :: l /\ 1 / 10 ^ 14 < 2 * a * len (minus3 C org).

Lemma against_ok s prims org C : holds_prims s prims -> (forall c a, In (c, a) prims -> 0 < a) -> prims <> [] -> direction_known org C prims ->
  exists a, 0 < a /\ aget (sv_alpha s) [0%Z] = Ok a /\ against (minus3 C org) (k_vector a (sub3 C org)).
Proof.
  intros HP Hpos Hn HD. destruct (first_alpha s prims HP Hn) as (c & a & Hin & E). exists a. split; [apply (Hpos _ _ Hin)|]. split; [exact E|].
  assert (Ha : 0 < a) by apply (Hpos _ _ Hin). destruct org as [[ox oy] oz]. destruct C as [[cx cy] cz]. cbn [minus3 sub3 k_vector against]. destruct HD as [HD|(c' & a' & l & El & Hk)].
  - left. injection HD as -> -> ->. repeat split; ring.
  - right. assert (a' = a) as ->. { subst prims. destruct HP as (_ & H). destruct (H 0%nat ltac:(cbn; lia)) as (_ & E2). cbn [Z.of_nat nth snd] in E2. rewrite E2 in E. injection E as E. exact E. }
    split; [exists (2 * a); split; [lra|]; f_equal; [f_equal|]; ring|].
    replace (-2 * (a * (cx - ox))) with (- (2 * a) * (cx - ox)) by ring. replace (-2 * (a * (cy - oy))) with (- (2 * a) * (cy - oy)) by ring. replace (-2 * (a * (cz - oz))) with (- (2 * a) * (cz - oz)) by ring.
    rewrite norm3_scale by lra. exact Hk.
Qed.

Lemma len_sq C org : sqrt (sq3 (sub3 C org)) = len (minus3 C org).
Proof. destruct org as [[ox oy] oz]. destruct C as [[cx cy] cz]. reflexivity. Qed.

(** ** The table of radial integrals *)
Definition table_of (t : rtable2) (L LA LB : nat) (q : nat -> nat -> nat -> R) : Prop :=
  forall l1 l2 n : nat, (l1 <= L + LA)%nat -> (l2 <= L + LB)%nat -> (n <= LA + LB)%nat -> get_radial_type2_integral t (Z.of_nat l1) (Z.of_nat l2) (Z.of_nat n) = Ok (q l1 l2 n).

Lemma radial_of_ok fuel par bessel erf A B CA CB U (L LA LB : nat) orgA orgB bra ket ca cb : (14 <= fuel)%nat ->
  vshell_is A (Z.of_nat LA) orgA bra ca -> vshell_is B (Z.of_nat LB) orgB ket cb -> pv_L U = Z.of_nat L ->
  powers_in (pv_prims U) (Z.of_nat LA + Z.of_nat LB) -> exponents_pos bra -> exponents_pos ket -> pot_exponents (pv_prims U) ->
  exists t q, radial_of fuel par bessel erf A B CA CB U (Z.of_nat LA) (Z.of_nat LB) = Ok t /\ table_of t L LA LB q.
Proof.
  intros Hf (EA & _ & PA & _) (EB & _ & PB & _) EL HP HB HK HE. unfold radial_of. rewrite (read_prims_ok _ _ PA). cbn [bind]. rewrite (read_prims_ok _ _ PB). cbn [bind]. rewrite EL, EA, EB.
  assert (S0 : forall V, 0 <= sq3 V) by (intros [[x y] z]; cbn [sq3]; pose proof (Rle_0_sqr x); pose proof (Rle_0_sqr y); pose proof (Rle_0_sqr z); unfold Rsqr in *; lra).
  assert (DEC : (sq3 CA < 1 / 10 ^ 14 /\ sq3 CB < 1 / 10 ^ 14) \/ ~ (sq3 CA < 1 / 10 ^ 14 /\ sq3 CB < 1 / 10 ^ 14)).
  { destruct (Rlt_dec (sq3 CA) (1 / 10 ^ 14)); destruct (Rlt_dec (sq3 CB) (1 / 10 ^ 14)); [left; split; assumption|right; tauto|right; tauto|right; tauto]. }
  destruct DEC as [(HA & HB')|HN].
  - destruct (type2_one_center (fun n a => gmom (Z.to_nat n) a) fuel par bessel erf (Z.of_nat L + Z.of_nat LA) (Z.of_nat L + Z.of_nat LB) (Z.of_nat LA + Z.of_nat LB) (sq3 CA) (sq3 CB) (pv_prims U) (Z.of_nat LA) bra (Z.of_nat LB) ket) as (t & E & G); try lia; try assumption.
    { intros n a Hn Ha. apply gauss_moment, Ha. }
    exists t, (fun l1 l2 n => if (Z.of_nat l1 =? 0)%Z && (Z.of_nat l2 =? 0)%Z then one_center (fun n a => gmom (Z.to_nat n) a) (pv_prims U) (Z.of_nat LA) bra (Z.of_nat LB) ket (Z.of_nat n) else 0). split; [exact E|].
    intros l1 l2 n H1 H2 H3. apply G; lia.
  - destruct (type2_table fuel par bessel erf (Z.of_nat L + Z.of_nat LA) (Z.of_nat L + Z.of_nat LB) (Z.of_nat LA + Z.of_nat LB) (sq3 CA) (sq3 CB) (pv_prims U) (Z.of_nat LA) bra (Z.of_nat LB) ket) as (t & E & G); try lia; try assumption; try apply S0.
    exists t, (fun l1 l2 n => match get_radial_type2_integral t (Z.of_nat l1) (Z.of_nat l2) (Z.of_nat n) with Ok v => v | Fail _ => 0 end). split; [exact E|].
    intros l1 l2 n H1 H2 H3. destruct (G (Z.of_nat l1) (Z.of_nat l2) (Z.of_nat n) ltac:(lia) ltac:(lia) ltac:(lia)) as (v & s & c & Ev & _). rewrite Ev. reflexivity.
Qed.

(** ** Filling a matrix *)
Lemma fill_matrix na nb (v : Z -> Z -> R) (entry : Z -> Z -> res R) M sz : adims M = [sz] -> (0 <= na)%Z -> (0 <= nb)%Z -> (na * nb <= sz)%Z ->
  (forall i j, (0 <= i < na)%Z -> (0 <= j < nb)%Z -> entry i j = Ok (v i j)) ->
  exists M', for_range 0 na (fun i => for_range 0 nb (fun j M => let* x := entry i j in aset M [i * nb + j]%Z x)) M = Ok M' /\ ismat M' sz na nb v /\ outside (na * nb) M M'.
Proof.
  intros D Ha Hb Hs HE.
  destruct (loop2_all 0 na 0 nb (fun M' => adims M' = [sz] /\ outside (na * nb) M M') (fun i j M' => aget M' [i * nb + j]%Z = Ok (v i j)) (fun i j M => let* x := entry i j in aset M [i * nb + j]%Z x) M Ha Hb) as (M' & E & (D' & O) & P).
  - split; [exact D|]. intros ix _. reflexivity.
  - intros i j M1 Hi Hj (D1 & O1). rewrite HE by assumption. cbn [bind]. pose proof (index_in na nb i j Hi Hj) as Hx.
    destruct (aset_get M1 [i * nb + j]%Z (v i j)) as (M2 & E2 & D2 & G2 & F2); [rewrite D1; apply inb1; lia|]. exists M2. split; [exact E2|]. split; [|split; [exact G2|]].
    + split; [congruence|]. intros ix Hix. rewrite F2; [apply O1, Hix|]. intros ->. apply Hix. eexists. split; [reflexivity|exact Hx].
    + intros i' j' Hi' Hj' Hn G. rewrite F2; [exact G|]. intros C. injection C as C. apply Hn. assert (i' = i /\ j' = j) as (-> & ->); [|reflexivity].
      assert (nb > 0)%Z by lia. assert (i' = (i' * nb + j') / nb)%Z by (rewrite Z.div_add_l by lia; rewrite Z.div_small by lia; lia). assert (i = (i * nb + j) / nb)%Z by (rewrite Z.div_add_l by lia; rewrite (Z.div_small j) by lia; lia). assert (i' = i) by congruence. subst. split; [congruence|]. lia.
  - exists M'. split; [exact E|]. split; [|exact O]. split; [exact D'|]. split; [exact Hs|exact P].
Qed.

Definition to_nats (c : Z * Z * Z) : nat * nat * nat := let '(n, l, m) := c in (Z.to_nat n, Z.to_nat l, Z.to_nat m).

Definition nth_comp (comps : list (Z * Z * Z)) (i : Z) : nat * nat * nat := to_nats (nth (Z.to_nat i) comps (0, 0, 0)%Z).

(** what type2_integrals computes *)
Lemma type2_value fuel par bessel erf st A B C U (L LA LB : nat) orgA orgB bra ket ca cb : (14 <= fuel)%nat -> init_tables st ->
  vshell_is A (Z.of_nat LA) orgA bra ca -> vshell_is B (Z.of_nat LB) orgB ket cb -> ca <> [] -> cb <> [] -> bra <> [] -> ket <> [] -> pv_L U = Z.of_nat L ->
  (L + LA <= 14)%nat -> (L + LB <= 14)%nat ->
  powers_in (pv_prims U) (Z.of_nat LA + Z.of_nat LB) -> exponents_pos bra -> exponents_pos ket -> pot_exponents (pv_prims U) -> direction_known orgA C bra -> direction_known orgB C ket ->
  exists t q kA kB, radial_of fuel par bessel erf A B (sub3 C orgA) (sub3 C orgB) U (Z.of_nat LA) (Z.of_nat LB) = Ok t /\ table_of t L LA LB q /\
    against (minus3 C orgA) kA /\ against (minus3 C orgB) kB /\
    forall M sz, adims M = [sz] -> (sv_size A * sv_size B <= sz)%Z ->
      exists M', type2_integrals fuel par bessel erf st true A B C U M = Ok M' /\ ismat M' sz (sv_size A) (sv_size B)
        (fun i j => computed (1 / 10 ^ 13) (1 / 10 ^ 16) L q (ang2 L kA kB) (nth_comp ca i) (nth_comp cb j) (minus3 C orgA) (minus3 C orgB) * (16 * PI * PI)) /\ outside (sv_size A * sv_size B) M M'.
Proof.
  intros Hf HI HA HB NA NB Na Nb EL LA14 LB14 HP HEb HEk HPE DA DB. pose proof HA as HA'. pose proof HB as HB'. destruct HA' as (EA & OA & PA & CA & KA). destruct HB' as (EB & OB & PB & CB & KB).
  destruct (radial_of_ok fuel par bessel erf A B (sub3 C orgA) (sub3 C orgB) U L LA LB orgA orgB bra ket ca cb Hf HA HB EL HP HEb HEk HPE) as (t & q & Et & Tq).
  destruct (against_ok A bra orgA C PA HEb Na DA) as (aA & aA0 & EaA & GA). destruct (against_ok B ket orgB C PB HEk Nb DB) as (aB & aB0 & EaB & GB).
  set (kA := k_vector aA (sub3 C orgA)) in *. set (kB := k_vector aB (sub3 C orgB)) in *.
  exists t, q, kA, kB. split; [exact Et|]. split; [exact Tq|]. split; [exact GA|]. split; [exact GB|]. intros M sz DM Hsz.
  destruct CA as (SA & CA0). destruct CB as (SB & CB0). pose proof (conj SA CA0 : holds_comps A ca) as CA. pose proof (conj SB CB0 : holds_comps B cb) as CB.
  destruct (memset0_get (sv_size A * sv_size B) sz M DM ltac:(lia)) as (M0 & E0 & D0 & _ & F0).
  set (lmax := Nat.max (Nat.max (L + LA) (L + LB)) L). destruct (harmonic_rows_ok st (3 * LMAX) (6 * LMAX) lmax kA kB HI ltac:(unfold lmax; lia) ltac:(unfold lmax, LMAX; lia) ltac:(unfold lmax, LMAX; lia)) as (rA & rB & Er & RA & RB).
  assert (ELM : Z.max (Z.max (Z.of_nat L + Z.of_nat LA) (Z.of_nat L + Z.of_nat LB)) (Z.of_nat L) = Z.of_nat lmax) by (unfold lmax; lia).
  unfold type2_integrals. cbn [massert bind]. rewrite E0. cbn [bind]. cbv zeta. rewrite (first_momentum_ok _ _ _ CA KA NA). cbn [bind]. rewrite (first_momentum_ok _ _ _ CB KB NB). cbn [bind].
  rewrite OA, OB, EaA. cbn [bind]. rewrite EaB. cbn [bind]. rewrite Et. cbn [bind]. rewrite EL, ELM. fold kA kB. rewrite Er. cbn [bind].
  set (v := fun i j => computed (1 / 10 ^ 13) (1 / 10 ^ 16) L q (ang2 L kA kB) (nth_comp ca i) (nth_comp cb j) (minus3 C orgA) (minus3 C orgB) * (16 * PI * PI)).
  set (entry := fun i j : Z => let* cA := component A i in let* cB := component B j in
    let* gamma := expansion_loops (1 / 10 ^ 13) cA cB (sub3 C orgA) (sub3 C orgB) (fun factor a b c d e f gamma =>
      let* sum := lambda_loops (1 / 10 ^ 16) t (Z.of_nat L) (a + b + c) (d + e + f) (fun lambda_1 lambda_2 QN sum =>
        let* vA := aget rA [lambda_1] in
        let* vB := aget rB [lambda_2] in
        let* ang := type2_angular_sum st (Z.of_nat L) lambda_1 a b c lambda_2 d e f vA vB in
        Ok (sum + QN * ang)) 0 in
      Ok (gamma + factor * sum)) 0 in Ok (gamma * (16 * PI * PI))).
  destruct (fill_matrix (sv_size A) (sv_size B) v entry M0 sz D0 ltac:(lia) ltac:(lia) Hsz) as (M' & EM & IM & OM).
  - intros i j Hi Hj. unfold entry.
    destruct (nth_error ca (Z.to_nat i)) as [cA|] eqn:NiA; [|apply nth_error_None in NiA; lia]. destruct (nth_error cb (Z.to_nat j)) as [cB|] eqn:NjB; [|apply nth_error_None in NjB; lia].
    pose proof (component_ok A ca (Z.to_nat i) cA CA NiA) as EcA. pose proof (component_ok B cb (Z.to_nat j) cB CB NjB) as EcB. rewrite Z2Nat.id in EcA, EcB by lia. rewrite EcA. cbn [bind]. rewrite EcB. cbn [bind].
    unfold v, nth_comp. rewrite (nth_error_nth ca _ (0, 0, 0)%Z NiA), (nth_error_nth cb _ (0, 0, 0)%Z NjB).
    destruct cA as [[nA lA] mA]. destruct cB as [[nB lB] mB]. cbn [to_nats]. pose proof (KA _ _ _ (nth_error_In _ _ NiA)) as (A1 & A2 & A3 & A4). pose proof (KB _ _ _ (nth_error_In _ _ NjB)) as (B1 & B2 & B3 & B4).
    rewrite <- (Z2Nat.id nA) at 1 by lia. rewrite <- (Z2Nat.id lA) at 1 by lia. rewrite <- (Z2Nat.id mA) at 1 by lia. rewrite <- (Z2Nat.id nB) at 1 by lia. rewrite <- (Z2Nat.id lB) at 1 by lia. rewrite <- (Z2Nat.id mB) at 1 by lia.
    assert (SmA : (Z.to_nat nA + Z.to_nat lA + Z.to_nat mA = LA)%nat) by lia. assert (SmB : (Z.to_nat nB + Z.to_nat lB + Z.to_nat mB = LB)%nat) by lia.
    clear EcA EcB NiA NjB A1 A2 A3 A4 B1 B2 B3 B4. revert SmA SmB. generalize (Z.to_nat nA) (Z.to_nat lA) (Z.to_nat mA) (Z.to_nat nB) (Z.to_nat lB) (Z.to_nat mB). clear nA lA mA nB lB mB. intros nA lA mA nB lB mB SmA SmB.
    assert (EX : minus3 C orgA = sub3 C orgA /\ minus3 C orgB = sub3 C orgB) by (split; reflexivity). destruct EX as (-> & ->).
    match goal with |- bind (expansion_loops _ _ _ _ _ ?BODY _) _ = _ => set (body := BODY) end.
    destruct (adds_expansion (fun _ : R => True) (fun _ : unit => True) (fun s _ => s) (1 / 10 ^ 13) nA lA mA nB lB mB (sub3 C orgA) (sub3 C orgB) body
      (fun a b c d e f _ => lamsum L (a + b + c) (fun l1 => lamsum L (d + e + f) (fun l2 => trunc (1 / 10 ^ 16) (q l1 l2 (a + b + c + (d + e + f))%nat) * ang2 L kA kB l1 a b c l2 d e f)))
      ltac:(lia) ltac:(lia) ltac:(lia) ltac:(lia) ltac:(lia) ltac:(lia)) with (s := 0) as (s & Es & _ & Vs).
    + intros a b c d e f w Ha Hb Hc Hd He Hf' s _. unfold body.
      rewrite <- (Nat2Z.inj_add a b), <- (Nat2Z.inj_add (a + b) c), <- (Nat2Z.inj_add d e), <- (Nat2Z.inj_add (d + e) f).
      match goal with |- context[lambda_loops _ _ _ _ _ ?BODY _] => set (body2 := BODY) end.
      destruct (adds_lambda (fun _ : R => True) (fun _ : unit => True) (fun s _ => s) (1 / 10 ^ 16) t L (a + b + c) (d + e + f) (fun l1 l2 => q l1 l2 (a + b + c + (d + e + f))%nat) body2
        (fun l1 l2 _ => ang2 L kA kB l1 a b c l2 d e f)) with (s := 0) as (s2 & Es2 & _ & Vs2).
      * intros l1 l2 H1 H2. rewrite <- Nat2Z.inj_add. apply Tq; lia.
      * intros l1 l2 w' H1 H2 s' _. unfold body2.
        destruct (RA l1 ltac:(unfold lmax; lia)) as (vA & GvA & EvA). destruct (RB l2 ltac:(unfold lmax; lia)) as (vB & GvB & EvB). rewrite GvA. cbn [bind]. rewrite GvB. cbn [bind].
        rewrite (ang2_computed st (6 * LMAX) L kA kB l1 a b c l2 d e f vA vB HI ltac:(lia) H1 ltac:(lia) H2 ltac:(unfold LMAX; lia) EvA EvB). cbn [bind]. eexists. split; [reflexivity|]. split; [exact I|]. intros _ _. ring.
      * exact I.
      * rewrite Es2. cbn [bind]. eexists. split; [reflexivity|]. split; [exact I|]. intros [] _. specialize (Vs2 Datatypes.tt I). cbv beta in Vs2. rewrite Vs2. ring.
    + exact I.
    + rewrite Es. cbn [bind]. f_equal. specialize (Vs Datatypes.tt I). cbv beta in Vs. rewrite Vs, Rplus_0_l. reflexivity.
  - exists M'. split; [|split; [exact IM|]].
    + rewrite <- EM. apply for_range_ext. intros i s Hi. apply for_range_ext. intros j s' Hj. unfold entry. destruct (component A i) as [cA|]; [|reflexivity]. cbn [bind]. destruct (component B j) as [cB|]; [|reflexivity]. cbn [bind].
      match goal with |- bind ?X _ = _ => destruct X end; reflexivity.
    + intros ix Hix. rewrite (OM ix Hix). apply F0. intros k Hk ->. apply Hix. eauto.
Qed.
