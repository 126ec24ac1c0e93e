(** * The spin-orbit integrals *)

From Coq Require Import ZArith Reals Lra Lia List Bool.
From Coquelicot Require Import Coquelicot.
From Verif Require Import Base Loops BinomModel BinomProofs CartModel CartProofs HeapModel OneElModel OneElProofs OneElInt OneElPairs OneElSpec ParamsModel Sums
  SphModel SphSpec SphPoly SphProofs SphTables SphInt SphOrtho SphAngular SphThms LmatModel NumSpec RadialModel RadialSpec PiBounds OutercoreModel OutercoreProofs
  NucPotSpec NucPot RadialTables Type2Model Type2Spec Type2Proj Type2Radial Type2Error Type2Value Type2Main Type2Acc SphMomentum.
Import ListNotations.
Open Scope R_scope.

Definition pick {T} (s : T * T * T) (k : Z) : T := let '(x, y, z) := s in if (k =? 0)%Z then x else if (k =? 1)%Z then y else z.

(** ** The angular sums *)
Definition small_entry (x : R) : bool := if Rlt_dec (Rabs x) zero_thresh then true else false.

Definition ang3 (L : nat) (Ws : (Z -> Z -> R) * (Z -> Z -> R) * (Z -> Z -> R)) (kA kB : R * R * R) (k : Z) (l1 a b c l2 d e f : nat) : R :=
  zsum (- Z.of_nat L) (Z.of_nat L + 1) (fun m1 => zsum (- Z.of_nat L) (Z.of_nat L + 1) (fun m2 =>
    if small_entry (pick Ws 0 m1 m2) && small_entry (pick Ws 1 m1 m2) && small_entry (pick Ws 2 m1 m2) then 0
    else trunc zero_thresh (omega_c l1 L m1 a b c kA) * omega_c l2 L m2 d e f kB * pick Ws k m1 m2)).

Lemma ang3_computed st cols L Ms Ws kA kB l1 a b c l2 d e f vA vB : init_tables st -> (L + (a + b + c) <= 14)%nat -> (l1 <= L + (a + b + c))%nat -> (L + (d + e + f) <= 14)%nat -> (l2 <= L + (d + e + f))%nat ->
  (29 <= cols)%Z -> evaluate_real_spherical_harmonics_array st (Z.of_nat l1) kA (aundef [cols]) = Ok vA -> evaluate_real_spherical_harmonics_array st (Z.of_nat l2) kB (aundef [cols]) = Ok vB ->
  (forall k, (0 <= k < 3)%Z -> entries (Z.of_nat L) (pick Ms k) (pick Ws k)) ->
  exists s, type3_angular_sum st (Z.of_nat L) Ms (Z.of_nat l1) (Z.of_nat a) (Z.of_nat b) (Z.of_nat c) (Z.of_nat l2) (Z.of_nat d) (Z.of_nat e) (Z.of_nat f) vA vB = Ok s /\
    forall k, (0 <= k < 3)%Z -> pick s k = ang3 L Ws kA kB k l1 a b c l2 d e f.
Proof.
  intros HI A1 A2 B1 B2 Hc EA EB HM. unfold type3_angular_sum. destruct Ms as [[Mx My] Mz].
  pose proof (HM 0%Z ltac:(lia)) as Hx. pose proof (HM 1%Z ltac:(lia)) as Hy. pose proof (HM 2%Z ltac:(lia)) as Hz. cbn [pick Z.eqb Pos.eqb] in Hx, Hy, Hz.
  set (term := fun m1 m2 k => if small_entry (pick Ws 0 m1 m2) && small_entry (pick Ws 1 m1 m2) && small_entry (pick Ws 2 m1 m2) then 0
    else trunc zero_thresh (omega_c l1 L m1 a b c kA) * omega_c l2 L m2 d e f kB * pick Ws k m1 m2).
  match goal with |- exists s, for_range _ _ ?B _ = _ /\ _ => set (body := B) end.
  destruct (adds_range (fun _ : R * R * R => True) (fun k : Z => (0 <= k < 3)%Z) (fun s k => pick s k) (- Z.of_nat L) (Z.of_nat L + 1) body
    (fun m1 k => zsum (- Z.of_nat L) (Z.of_nat L + 1) (fun m2 => term m1 m2 k))) with (s := (0, 0, 0)) as (s & E & _ & V).
  - lia.
  - intros m1 Hm1. unfold body. apply (adds_range (fun _ : R * R * R => True) (fun k : Z => (0 <= k < 3)%Z) (fun s k => pick s k) (- Z.of_nat L) (Z.of_nat L + 1) _ (fun m2 k => term m1 m2 k)); [lia|].
    intros m2 Hm2 [[sx sy] sz] _. replace ((2 * Z.of_nat L + 1) * (m1 + Z.of_nat L) + (m2 + Z.of_nat L))%Z with ((m1 + Z.of_nat L) * (2 * Z.of_nat L + 1) + (m2 + Z.of_nat L))%Z by ring.
    rewrite (Hx m1 m2), (Hy m1 m2), (Hz m1 m2) by lia. cbn [bind]. fold (small_entry (pick Ws 0 m1 m2)) (small_entry (pick Ws 1 m1 m2)) (small_entry (pick Ws 2 m1 m2)).
    unfold term. destruct (small_entry (pick Ws 0 m1 m2) && small_entry (pick Ws 1 m1 m2) && small_entry (pick Ws 2 m1 m2)).
    + eexists. split; [reflexivity|]. split; [exact I|]. intros k Hk. ring.
    + rewrite (omega_computed st cols l1 L m1 a b c kA vA HI A1 A2 ltac:(lia) ltac:(lia) EA). cbn [bind]. unfold trunc. destruct (Rlt_dec _ _) as [H1|H1].
      * eexists. split; [reflexivity|]. split; [exact I|]. intros k Hk. ring.
      * rewrite (omega_computed st cols l2 L m2 d e f kB vB HI B1 B2 ltac:(lia) ltac:(lia) EB). cbn [bind]. eexists. split; [reflexivity|]. split; [exact I|].
        intros k Hk. assert (k = 0 \/ k = 1 \/ k = 2)%Z as [-> | [-> | ->]] by lia; cbn [pick Z.eqb Pos.eqb]; reflexivity.
  - exact I.
  - exists s. split; [exact E|]. intros k Hk. rewrite (V k Hk). replace (pick (0, 0, 0) k) with 0 by (unfold pick; destruct (k =? 0)%Z; [|destruct (k =? 1)%Z]; reflexivity). rewrite Rplus_0_l. reflexivity.
Qed.

(** the entries of the generators *)
Lemma rsum_member n f k : (forall i, (i < n)%nat -> 0 <= f i) -> (k < n)%nat -> f k <= rsum n f.
Proof.
  induction n as [|n IH]; intros H Hk; [lia|]. cbn [rsum]. assert (NN : forall m, (m <= n)%nat -> 0 <= rsum m f).
  { induction m as [|m IHm]; intros Hm; cbn [rsum]; [lra|]. pose proof (H m ltac:(lia)). specialize (IHm ltac:(lia)). lra. }
  destruct (Nat.eq_dec k n) as [->|Hn]; [pose proof (NN n ltac:(lia)); lra|]. pose proof (IH ltac:(intros; apply H; lia) ltac:(lia)). pose proof (H n ltac:(lia)). lra.
Qed.

Lemma generator_bound (L : nat) X Y Z' p q : rotation_generators (Z.of_nat L) X Y Z' -> (- Z.of_nat L <= p <= Z.of_nat L)%Z -> (- Z.of_nat L <= q <= Z.of_nat L)%Z ->
  Rabs (X p q) <= INR L + 1 /\ Rabs (Y p q) <= INR L + 1 /\ Rabs (Z' p q) <= INR L + 1.
Proof.
  intros H Hp Hq. destruct (H p p Hp Hp) as (_ & _ & _ & _ & _ & _ & C). unfold kron in C. rewrite Z.eqb_refl in C. unfold mprod in C.
  set (n := Z.to_nat (2 * Z.of_nat L + 1)) in *. rewrite <- !rsum_plus in C.
  assert (S1 : rsum n (fun k => X p (Z.of_nat k - Z.of_nat L)%Z ^ 2 + Y p (Z.of_nat k - Z.of_nat L)%Z ^ 2 + Z' p (Z.of_nat k - Z.of_nat L)%Z ^ 2) = IZR (Z.of_nat L * (Z.of_nat L + 1))).
  { apply Rplus_eq_reg_l with (- IZR (Z.of_nat L * (Z.of_nat L + 1)) * 1). rewrite <- C at 1. rewrite <- rsum_plus. transitivity 0; [|ring]. apply rsum_zero. intros k Hk.
    destruct (H p (Z.of_nat k - Z.of_nat L)%Z Hp ltac:(unfold n in Hk; lia)) as (-> & -> & -> & _). ring. }
  pose proof (rsum_member n (fun k => X p (Z.of_nat k - Z.of_nat L)%Z ^ 2 + Y p (Z.of_nat k - Z.of_nat L)%Z ^ 2 + Z' p (Z.of_nat k - Z.of_nat L)%Z ^ 2) (Z.to_nat (q + Z.of_nat L))
    ltac:(intros; apply Rplus_le_le_0_compat; [apply Rplus_le_le_0_compat|]; apply pow2_ge_0) ltac:(unfold n; lia)) as S2. cbv beta in S2. rewrite S1 in S2.
  replace (Z.of_nat (Z.to_nat (q + Z.of_nat L)) - Z.of_nat L)%Z with q in S2 by lia. rewrite mult_IZR, plus_IZR, <- INR_IZR_INZ in S2. pose proof (pos_INR L).
  pose proof (pow2_ge_0 (X p q)). pose proof (pow2_ge_0 (Y p q)). pose proof (pow2_ge_0 (Z' p q)).
  assert (G : forall x, x ^ 2 <= INR L * (INR L + 1) -> Rabs x <= INR L + 1) by (intros x Hx; apply Rabs_le; split; nra).
  split; [apply G; lra|]. split; apply G; lra.
Qed.

Definition so_bound (L : nat) : R := (2 * INR L + 1) * ((2 * INR L + 1) * (2311 / 1000 * (INR L + 1))).
Definition so_delta (L : nat) : R := (2 * INR L + 1) * ((2 * INR L + 1) * (1 / 10 ^ 12 * (INR L + 1))).

Lemma count_m (L : nat) : 2 * INR L + 1 = IZR (Z.of_nat L + 1 - - Z.of_nat L).
Proof. rewrite INR_IZR_INZ. replace (Z.of_nat L + 1 - - Z.of_nat L)%Z with (2 * Z.of_nat L + 1)%Z by lia. rewrite plus_IZR, mult_IZR. ring. Qed.

Lemma ang3_close L Ws kA kB k l1 a b c l2 d e f : rotation_generators (Z.of_nat L) (pick Ws 0) (pick Ws 1) (pick Ws 2) -> (0 <= k < 3)%Z ->
  (L + (a + b + c) <= 14)%nat -> (l1 <= L + (a + b + c))%nat -> (L + (d + e + f) <= 14)%nat -> (l2 <= L + (d + e + f))%nat ->
  let exact := asum L (pick Ws k) (fun m => omega l1 L m a b c kA) (fun m => omega l2 L m d e f kB) in
  Rabs (ang3 L Ws kA kB k l1 a b c l2 d e f - exact) <= so_delta L /\ Rabs exact <= so_bound L.
Proof.
  intros HG Hk A1 A2 B1 B2 ex. unfold ex, so_delta, so_bound, asum. rewrite (count_m L). pose proof (pos_INR L) as HL.
  assert (T : 0 <= zero_thresh <= 1 / 10 ^ 14) by (unfold zero_thresh; split; lra).
  assert (BW : forall m1 m2, (- Z.of_nat L <= m1 <= Z.of_nat L)%Z -> (- Z.of_nat L <= m2 <= Z.of_nat L)%Z -> Rabs (pick Ws k m1 m2) <= INR L + 1).
  { intros m1 m2 H1 H2. destruct (generator_bound L _ _ _ m1 m2 HG H1 H2) as (G1 & G2 & G3). assert (k = 0 \/ k = 1 \/ k = 2)%Z as [-> | [-> | ->]] by lia; assumption. }
  assert (NN : 0 <= IZR (Z.of_nat L + 1 - - Z.of_nat L)) by (apply (IZR_le 0); lia).
  split.
  - unfold ang3. apply zsum_close; [|apply Rmult_le_pos; [exact NN|lra]|lia]. intros m1 Hm1. apply zsum_close; [|lra|lia]. intros m2 Hm2.
    destruct (omega_pair zero_thresh l1 a b c kA l2 d e f kB L m1 m2 T A1 A2 B1 B2 ltac:(lia) ltac:(lia)) as (P1 & P2).
    set (o1 := omega l1 L m1 a b c kA) in *. set (o2 := omega l2 L m2 d e f kB) in *. replace (o1 * pick Ws k m1 m2 * o2) with (o1 * o2 * pick Ws k m1 m2) by ring.
    destruct (_ && _ && _) eqn:Sm.
    + rewrite Rminus_0_l, Rabs_Ropp, Rabs_mult.
      assert (SW : Rabs (pick Ws k m1 m2) <= zero_thresh).
      { apply andb_true_iff in Sm. destruct Sm as (Sm & S3). apply andb_true_iff in Sm. destruct Sm as (S1 & S2). unfold small_entry in *.
        assert (k = 0 \/ k = 1 \/ k = 2)%Z as [-> | [-> | ->]] by lia; destruct (Rlt_dec (Rabs (pick Ws 0 m1 m2)) zero_thresh); try discriminate; destruct (Rlt_dec (Rabs (pick Ws 1 m1 m2)) zero_thresh); try discriminate;
          destruct (Rlt_dec (Rabs (pick Ws 2 m1 m2)) zero_thresh); try discriminate; lra. }
      apply Rle_trans with (2311 / 1000 * (1 / 10 ^ 14)); [apply Rmult_le_compat; try apply Rabs_pos; lra|]. apply Rle_trans with (1 / 10 ^ 12 * 1); [lra|]. apply Rmult_le_compat_l; lra.
    + rewrite <- Rmult_minus_distr_r, Rabs_mult. apply Rmult_le_compat; try apply Rabs_pos; [exact P1|apply BW; lia].
  - rewrite <- (Rminus_0_r (zsum _ _ _)). rewrite <- (zsum_zero (- Z.of_nat L) (Z.of_nat L + 1) (fun m1 => zsum (- Z.of_nat L) (Z.of_nat L + 1) (fun _ => 0))) by (intros; apply zsum_zero; reflexivity).
    apply zsum_close; [|apply Rmult_le_pos; [exact NN|lra]|lia]. intros m1 Hm1. apply zsum_close; [|lra|lia]. intros m2 Hm2. rewrite Rminus_0_r.
    destruct (omega_pair zero_thresh l1 a b c kA l2 d e f kB L m1 m2 T A1 A2 B1 B2 ltac:(lia) ltac:(lia)) as (P1 & P2).
    set (o1 := omega l1 L m1 a b c kA) in *. set (o2 := omega l2 L m2 d e f kB) in *. replace (o1 * pick Ws k m1 m2 * o2) with (o1 * o2 * pick Ws k m1 m2) by ring.
    rewrite Rabs_mult. apply Rmult_le_compat; try apply Rabs_pos; [exact P2|apply BW; lia].
Qed.

(** ** Filling three matrices *)
Definition is3mat (Ms : arr R * arr R * arr R) (sz : Z -> Z) (na nb : Z) (v : Z -> Z -> Z -> R) : Prop := forall k, (0 <= k < 3)%Z -> ismat (pick Ms k) (sz k) na nb (v k).
Definition outside3 (n : Z) (Ms Ms' : arr R * arr R * arr R) : Prop := forall k, (0 <= k < 3)%Z -> outside n (pick Ms k) (pick Ms' k).

Lemma by3 (P : Z -> Prop) : P 0%Z -> P 1%Z -> P 2%Z -> forall k, (0 <= k < 3)%Z -> P k.
Proof. intros H0 H1 H2 k Hk. assert (k = 0 \/ k = 1 \/ k = 2)%Z as [-> | [-> | ->]] by lia; assumption. Qed.

Lemma aset_new (M : arr R) sz i (x : R) : adims M = [sz] -> (0 <= i < sz)%Z -> exists M', aset M [i] x = Ok M' /\ adims M' = [sz] /\ aget M' [i] = Ok x /\ forall ix, ix <> [i] -> aget M' ix = aget M ix.
Proof. intros D Hi. destruct (aset_get M [i] x) as (M' & E & D' & G & F); [rewrite D; apply inb1; lia|]. exists M'. repeat split; try assumption. congruence. Qed.

Lemma fill_3 na nb (v : Z -> Z -> Z -> R) (entry : Z -> Z -> res (R * R * R)) Ms (sz : Z -> Z) : (forall k, (0 <= k < 3)%Z -> adims (pick Ms k) = [sz k]) -> (0 <= na)%Z -> (0 <= nb)%Z -> (forall k, (0 <= k < 3)%Z -> na * nb <= sz k)%Z ->
  (forall i j, (0 <= i < na)%Z -> (0 <= j < nb)%Z -> exists s, entry i j = Ok s /\ forall k, (0 <= k < 3)%Z -> pick s k = v k i j) ->
  exists Ms', for_range 0 na (fun i => for_range 0 nb (fun j '(mx, my, mz) => let* (x, y, z) := entry i j in
      let* mx := aset mx [i * nb + j]%Z x in let* my := aset my [i * nb + j]%Z y in let* mz := aset mz [i * nb + j]%Z z in Ok (mx, my, mz))) Ms = Ok Ms' /\ is3mat Ms' sz na nb v /\ outside3 (na * nb) Ms Ms'.
Proof.
  intros D Ha Hb Hs HE. pose proof (Hs 0%Z ltac:(lia)) as Hs0. pose proof (Hs 1%Z ltac:(lia)) as Hs1. pose proof (Hs 2%Z ltac:(lia)) as Hs2.
  destruct (loop2_all 0 na 0 nb (fun Ms' => forall k, (0 <= k < 3)%Z -> adims (pick Ms' k) = [sz k] /\ outside (na * nb) (pick Ms k) (pick Ms' k)) (fun i j Ms' => forall k, (0 <= k < 3)%Z -> aget (pick Ms' k) [i * nb + j]%Z = Ok (v k i j))
    (fun i j '(mx, my, mz) => let* (x, y, z) := entry i j in let* mx := aset mx [i * nb + j]%Z x in let* my := aset my [i * nb + j]%Z y in let* mz := aset mz [i * nb + j]%Z z in Ok (mx, my, mz)) Ms Ha Hb) as (Ms' & E & I' & P).
  - intros k Hk. split; [apply D, Hk|]. intros ix _. reflexivity.
  - intros i j [[mx my] mz] Hi Hj HI. destruct (HE i j Hi Hj) as ([[x y] z] & -> & Hv). cbn [bind]. pose proof (index_in na nb i j Hi Hj) as Hx.
    pose proof (Hv 0%Z ltac:(lia)) as V0. pose proof (Hv 1%Z ltac:(lia)) as V1. pose proof (Hv 2%Z ltac:(lia)) as V2. cbn [pick Z.eqb Pos.eqb] in V0, V1, V2.
    destruct (HI 0%Z ltac:(lia)) as (D0 & O0). destruct (HI 1%Z ltac:(lia)) as (D1 & O1). destruct (HI 2%Z ltac:(lia)) as (D2 & O2). cbn [pick Z.eqb Pos.eqb] in D0, D1, D2, O0, O1, O2.
    destruct (aset_new mx (sz 0%Z) (i * nb + j) x D0 ltac:(lia)) as (mx' & E0 & D0' & G0 & F0). destruct (aset_new my (sz 1%Z) (i * nb + j) y D1 ltac:(lia)) as (my' & E1 & D1' & G1 & F1). destruct (aset_new mz (sz 2%Z) (i * nb + j) z D2 ltac:(lia)) as (mz' & E2 & D2' & G2 & F2).
    exists (mx', my', mz'). rewrite E0. cbn [bind]. rewrite E1. cbn [bind]. rewrite E2. cbn [bind]. split; [reflexivity|].
    assert (NO : forall ix, ~ (exists k : Z, ix = [k] /\ (0 <= k < na * nb)%Z) -> ix <> [(i * nb + j)%Z]) by (intros ix Hix ->; apply Hix; eexists; split; [reflexivity|exact Hx]).
    split; [|split].
    + apply by3; cbn [pick Z.eqb Pos.eqb]; (split; [assumption|]); intros ix Hix; [rewrite F0 by (apply NO, Hix); apply O0, Hix|rewrite F1 by (apply NO, Hix); apply O1, Hix|rewrite F2 by (apply NO, Hix); apply O2, Hix].
    + apply by3; cbn [pick Z.eqb Pos.eqb]; congruence.
    + intros i' j' Hi' Hj' Hn G.
      assert (NE : [(i' * nb + j')%Z] <> [(i * nb + j)%Z]) by (intros C; injection C as C; apply Hn; destruct (index_inj nb i' j' i j Hj' Hj C) as (-> & ->); reflexivity).
      pose proof (G 0%Z ltac:(lia)) as g0. pose proof (G 1%Z ltac:(lia)) as g1. pose proof (G 2%Z ltac:(lia)) as g2. cbn [pick Z.eqb Pos.eqb] in g0, g1, g2.
      apply by3; cbn [pick Z.eqb Pos.eqb]; [rewrite F0|rewrite F1|rewrite F2]; assumption.
  - exists Ms'. split; [exact E|]. split; [|intros k Hk; apply I', Hk]. intros k Hk. split; [apply I', Hk|]. split; [apply Hs, Hk|]. intros i j Hi Hj. apply (P i j Hi Hj k Hk).
Qed.

Lemma scaled3 (k : Z) (g : R * R * R) c : pick (let '(x, y, z) := g in (x * c, y * c, z * c)) k = pick g k * c.
Proof. destruct g as [[x y] z]. cbn [pick]. destruct (k =? 0)%Z; [|destruct (k =? 1)%Z]; reflexivity. Qed.

Lemma plus3 (k : Z) x y z u v w q : pick (x + q * u, y + q * v, z + q * w) k = pick (x, y, z) k + q * pick (u, v, w) k.
Proof. cbn [pick]. destruct (k =? 0)%Z; [|destruct (k =? 1)%Z]; reflexivity. Qed.

Lemma zero3 k : pick (0, 0, 0) k = 0.
Proof. cbn [pick]. destruct (k =? 0)%Z; [|destruct (k =? 1)%Z]; reflexivity. Qed.

(** what spin_orbit_integrals computes *)
Lemma so_value fuel par bessel erf st A B C U (L LA LB : nat) orgA orgB bra ket ca cb : (14 <= fuel)%nat -> init_tables st ->
  vshell_is A (Z.of_nat LA) orgA bra ca -> vshell_is B (Z.of_nat LB) orgB ket cb -> ca <> [] -> cb <> [] -> bra <> [] -> ket <> [] -> pv_L U = Z.of_nat L ->
  (L + LA <= 14)%nat -> (L + LB <= 14)%nat ->
  powers_in (pv_prims U) (Z.of_nat LA + Z.of_nat LB) -> exponents_pos bra -> exponents_pos ket -> pot_exponents (pv_prims U) -> direction_known orgA C bra -> direction_known orgB C ket ->
  exists t q kA kB Ws, radial_of fuel par bessel erf A B (sub3 C orgA) (sub3 C orgB) U (Z.of_nat LA) (Z.of_nat LB) = Ok t /\ table_of t L LA LB q /\
    against (minus3 C orgA) kA /\ against (minus3 C orgB) kB /\ rotation_generators (Z.of_nat L) (pick Ws 0) (pick Ws 1) (pick Ws 2) /\
    (exists Ls sz, ((2 * Z.of_nat L + 1) * (2 * Z.of_nat L + 1) <= sz)%Z /\ construct_matrices_rsh (Z.of_nat L) (aconst [sz] 0, aconst [sz] 0, aconst [sz] 0) = Ok Ls /\ forall k, (0 <= k < 3)%Z -> entries (Z.of_nat L) (pick Ls k) (pick Ws k)) /\
    forall Ms (sz : Z -> Z), (forall k, (0 <= k < 3)%Z -> adims (pick Ms k) = [sz k]) -> (forall k, (0 <= k < 3)%Z -> sv_size A * sv_size B <= sz k)%Z ->
      exists Ms', spin_orbit_integrals fuel par bessel erf st true A B C U Ms = Ok Ms' /\ is3mat Ms' sz (sv_size A) (sv_size B)
        (fun k i j => computed zero_thresh zero_thresh L q (ang3 L Ws kA kB k) (nth_comp ca i) (nth_comp cb j) (minus3 C orgA) (minus3 C orgB) * (16 * PI * PI)) /\ outside3 (sv_size A * sv_size B) Ms Ms'.
Proof.
  intros Hf HI HA HB NA NB Na Nb EL LA14 LB14 HP HEb HEk HPE DA DB. pose proof HA as HA'. pose proof HB as HB'. destruct HA' as (EA & OA & PA & CA & KA). destruct HB' as (EB & OB & PB & CB & KB).
  destruct (radial_of_ok fuel par bessel erf A B (sub3 C orgA) (sub3 C orgB) U L LA LB orgA orgB bra ket ca cb Hf HA HB EL HP HEb HEk HPE) as (t & q & Et & Tq).
  destruct (against_ok A bra orgA C PA HEb Na DA) as (aA & aA0 & EaA & GA). destruct (against_ok B ket orgB C PB HEk Nb DB) as (aB & aB0 & EaB & GB).
  set (kA := k_vector aA (sub3 C orgA)) in *. set (kB := k_vector aB (sub3 C orgB)) in *.
  set (d2 := ((2 * Z.of_nat L + 1) * (2 * Z.of_nat L + 1))%Z).
  destruct (real_matrices (Z.of_nat L) d2 (aconst [d2] 0) (aconst [d2] 0) (aconst [d2] 0) ltac:(lia) ltac:(unfold d2; lia) eq_refl eq_refl eq_refl) as (lx & ly & lz & X & Y & Z' & EM & MX & MY & MZ & HG & _).
  exists t, q, kA, kB, (X, Y, Z'). split; [exact Et|]. split; [exact Tq|]. split; [exact GA|]. split; [exact GB|]. split; [exact HG|].
  assert (ENT : forall k, (0 <= k < 3)%Z -> entries (Z.of_nat L) (pick (lx, ly, lz) k) (pick (X, Y, Z') k)) by (apply by3; assumption).
  split; [exists (lx, ly, lz), d2; split; [unfold d2; lia|]; split; assumption|].
  intros [[Mx My] Mz] sz DM Hsz. pose proof (DM 0%Z ltac:(lia)) as DMx. pose proof (DM 1%Z ltac:(lia)) as DMy. pose proof (DM 2%Z ltac:(lia)) as DMz. cbn [pick Z.eqb Pos.eqb] in DMx, DMy, DMz. pose proof (Hsz 0%Z ltac:(lia)) as Hs0. pose proof (Hsz 1%Z ltac:(lia)) as Hs1. pose proof (Hsz 2%Z ltac:(lia)) as Hs2.
  destruct CA as (SA & CA0). destruct CB as (SB & CB0). pose proof (conj SA CA0 : holds_comps A ca) as CA. pose proof (conj SB CB0 : holds_comps B cb) as CB.
  destruct (memset0_get (sv_size A * sv_size B) (sz 0%Z) Mx DMx ltac:(lia)) as (M0 & E0 & D0 & _ & F0). destruct (memset0_get (sv_size A * sv_size B) (sz 1%Z) My DMy ltac:(lia)) as (M1 & E1 & D1 & _ & F1). destruct (memset0_get (sv_size A * sv_size B) (sz 2%Z) Mz DMz ltac:(lia)) as (M2 & E2 & D2 & _ & F2).
  set (lmax := Nat.max (Nat.max (L + LA) (L + LB)) L). destruct (harmonic_rows_ok st LMAX (2 * LMAX + 1) lmax kA kB HI ltac:(unfold lmax; lia) ltac:(unfold lmax, LMAX; lia) ltac:(unfold lmax, LMAX; lia)) as (rA & rB & Er & RA & RB).
  assert (ELM : Z.max (Z.max (Z.of_nat L + Z.of_nat LA) (Z.of_nat L + Z.of_nat LB)) (Z.of_nat L) = Z.of_nat lmax) by (unfold lmax; lia).
  unfold spin_orbit_integrals. cbn [massert bind]. rewrite E0. cbn [bind]. rewrite E1. cbn [bind]. rewrite E2. cbn [bind]. cbv zeta. rewrite (first_momentum_ok _ _ _ CA KA NA). cbn [bind]. rewrite (first_momentum_ok _ _ _ CB KB NB). cbn [bind].
  rewrite OA, OB, EaA. cbn [bind]. rewrite EaB. cbn [bind]. rewrite EL, ELM. fold kA kB d2. rewrite EM. cbn [bind]. rewrite Er. cbn [bind]. rewrite Et. cbn [bind].
  set (v := fun k i j => computed zero_thresh zero_thresh L q (ang3 L (X, Y, Z') kA kB k) (nth_comp ca i) (nth_comp cb j) (minus3 C orgA) (minus3 C orgB) * (16 * PI * PI)).
  set (entry := fun i j : Z => let* cA := component A i in let* cB := component B j in
    let* g := expansion_loops zero_thresh cA cB (sub3 C orgA) (sub3 C orgB) (fun factor a b c d e f '(gx, gy, gz) =>
      let* (sx, sy, sz) := lambda_loops zero_thresh t (Z.of_nat L) (a + b + c) (d + e + f) (fun lambda_1 lambda_2 QN '(sx, sy, sz) =>
        let* vA := aget rA [lambda_1] in
        let* vB := aget rB [lambda_2] in
        let* (ax, ay, az) := type3_angular_sum st (Z.of_nat L) (lx, ly, lz) lambda_1 a b c lambda_2 d e f vA vB in
        Ok (sx + QN * ax, sy + QN * ay, sz + QN * az)) (0, 0, 0) in
      Ok (gx + factor * sx, gy + factor * sy, gz + factor * sz)) (0, 0, 0) in Ok (let '(x, y, z) := g in (x * (16 * PI * PI), y * (16 * PI * PI), z * (16 * PI * PI)))).
  destruct (fill_3 (sv_size A) (sv_size B) v entry (M0, M1, M2) sz) as (M' & EF & IM & OM).
  - apply by3; assumption.
  - lia.
  - lia.
  - exact Hsz.
  - intros i j Hi Hj. unfold entry.
    destruct (nth_error ca (Z.to_nat i)) as [cA|] eqn:NiA; [|apply nth_error_None in NiA; lia]. destruct (nth_error cb (Z.to_nat j)) as [cB|] eqn:NjB; [|apply nth_error_None in NjB; lia].
    pose proof (component_ok A ca (Z.to_nat i) cA CA NiA) as EcA. pose proof (component_ok B cb (Z.to_nat j) cB CB NjB) as EcB. rewrite Z2Nat.id in EcA, EcB by lia. rewrite EcA. cbn [bind]. rewrite EcB. cbn [bind].
    unfold v, nth_comp. rewrite (nth_error_nth ca _ (0, 0, 0)%Z NiA), (nth_error_nth cb _ (0, 0, 0)%Z NjB).
    destruct cA as [[nA lA] mA]. destruct cB as [[nB lB] mB]. cbn [to_nats]. pose proof (KA _ _ _ (nth_error_In _ _ NiA)) as (A1 & A2 & A3 & A4). pose proof (KB _ _ _ (nth_error_In _ _ NjB)) as (B1 & B2 & B3 & B4).
    destruct (Z_of_nat_complete nA A1) as (n1 & ->). destruct (Z_of_nat_complete lA A2) as (n2 & ->). destruct (Z_of_nat_complete mA A3) as (n3 & ->).
    destruct (Z_of_nat_complete nB B1) as (n4 & ->). destruct (Z_of_nat_complete lB B2) as (n5 & ->). destruct (Z_of_nat_complete mB B3) as (n6 & ->). rewrite !Nat2Z.id.
    clear EcA EcB NiA NjB A1 A2 A3 B1 B2 B3. rename n1 into nA, n2 into lA, n3 into mA, n4 into nB, n5 into lB, n6 into mB.
    assert (EX : minus3 C orgA = sub3 C orgA /\ minus3 C orgB = sub3 C orgB) by (split; reflexivity). destruct EX as (-> & ->).
    match goal with |- exists s, bind (expansion_loops _ _ _ _ _ ?BODY _) _ = _ /\ _ => set (body := BODY) end.
    destruct (adds_expansion (fun _ : R * R * R => True) (fun k : Z => (0 <= k < 3)%Z) (fun s k => pick s k) zero_thresh nA lA mA nB lB mB (sub3 C orgA) (sub3 C orgB) body
      (fun a b c d e f k => lamsum L (a + b + c) (fun l1 => lamsum L (d + e + f) (fun l2 => trunc zero_thresh (q l1 l2 (a + b + c + (d + e + f))%nat) * ang3 L (X, Y, Z') kA kB k l1 a b c l2 d e f)))
      ltac:(lia) ltac:(lia) ltac:(lia) ltac:(lia) ltac:(lia) ltac:(lia)) with (s := (0, 0, 0)) as (s & Es & _ & Vs).
    + intros a b c d e f w Ha Hb Hc Hd He Hf' [[gx gy] gz] _. unfold body.
      rewrite <- (Nat2Z.inj_add a b), <- (Nat2Z.inj_add (a + b) c), <- (Nat2Z.inj_add d e), <- (Nat2Z.inj_add (d + e) f).
      match goal with |- context[lambda_loops _ _ _ _ _ ?BODY _] => set (body2 := BODY) end.
      destruct (adds_lambda (fun _ : R * R * R => True) (fun k : Z => (0 <= k < 3)%Z) (fun s k => pick s k) zero_thresh t L (a + b + c) (d + e + f) (fun l1 l2 => q l1 l2 (a + b + c + (d + e + f))%nat) body2
        (fun l1 l2 k => ang3 L (X, Y, Z') kA kB k l1 a b c l2 d e f)) with (s := (0, 0, 0)) as ([[sx sy] sz'] & Es2 & _ & Vs2).
      * intros l1 l2 H1 H2. rewrite <- Nat2Z.inj_add. apply Tq; lia.
      * intros l1 l2 w' H1 H2 [[tx ty] tz] _. unfold body2.
        destruct (RA l1 ltac:(unfold lmax; lia)) as (vA & GvA & EvA). destruct (RB l2 ltac:(unfold lmax; lia)) as (vB & GvB & EvB). rewrite GvA. cbn [bind]. rewrite GvB. cbn [bind].
        destruct (ang3_computed st (2 * LMAX + 1) L (lx, ly, lz) (X, Y, Z') kA kB l1 a b c l2 d e f vA vB HI ltac:(lia) H1 ltac:(lia) H2 ltac:(unfold LMAX; lia) EvA EvB ENT) as ([[ax ay] az] & -> & Ha3). cbn [bind].
        eexists. split; [reflexivity|]. split; [exact I|]. intros k Hk. rewrite plus3, (Ha3 k Hk). reflexivity.
      * exact I.
      * rewrite Es2. cbn [bind]. eexists. split; [reflexivity|]. split; [exact I|]. intros k Hk. rewrite plus3, (Vs2 k Hk), zero3, Rplus_0_l. reflexivity.
    + exact I.
    + rewrite Es. cbn [bind]. eexists. split; [reflexivity|]. intros k Hk. rewrite scaled3, (Vs k Hk), zero3, Rplus_0_l. reflexivity.
  - exists M'. split; [|split; [exact IM|]].
    + rewrite <- EF. apply for_range_ext. intros i s Hi. apply for_range_ext. intros j [[s1 s2] s3] Hj. unfold entry. destruct (component A i) as [cA|]; [|reflexivity]. cbn [bind]. destruct (component B j) as [cB|]; [|reflexivity]. cbn [bind].
      match goal with |- bind ?X _ = _ => destruct X as [[[? ?] ?]|] end; reflexivity.
    + intros k Hk ix Hix. rewrite (OM k Hk ix Hix). revert k Hk. apply by3; cbn [pick Z.eqb Pos.eqb]; [apply F0|apply F1|apply F2]; intros k Hk ->; apply Hix; eauto.
Qed.

(** ** Accuracy *)
(** matrices with the entries the routine computes are those of the angular momentum *)
Lemma computed_momentum (L : nat) sz Ls Ws : ((2 * Z.of_nat L + 1) * (2 * Z.of_nat L + 1) <= sz)%Z -> construct_matrices_rsh (Z.of_nat L) (aconst [sz] 0, aconst [sz] 0, aconst [sz] 0) = Ok Ls ->
  (forall k, (0 <= k < 3)%Z -> entries (Z.of_nat L) (pick Ls k) (pick Ws k)) -> forall k, (0 <= k < 3)%Z -> angular_momentum L k (pick Ws k).
Proof.
  intros Hs E HE.
  destruct (rsh_momentum L sz (aconst [sz] 0) (aconst [sz] 0) (aconst [sz] 0) Hs eq_refl eq_refl eq_refl) as (x & y & z & X & Y & Z' & E' & H1 & H2 & H3 & M1 & M2 & M3).
  rewrite E' in E. injection E as <-. assert (K : forall k, (0 <= k < 3)%Z -> entries (Z.of_nat L) (pick (x, y, z) k) (pick (X, Y, Z') k)) by (apply by3; assumption).
  assert (M : forall k, (0 <= k < 3)%Z -> angular_momentum L k (pick (X, Y, Z') k)) by (apply by3; assumption).
  intros k Hk. apply (momentum_ext L k (pick (X, Y, Z') k)); [|exact (M k Hk)]. intros p q Hp Hq. exact (entries_unique _ _ _ _ (K k Hk) (HE k Hk) p q Hp Hq).
Qed.

Lemma so_accurate fuel par bessel erf st A B C U (L LA LB : nat) orgA orgB bra ket ca cb : (14 <= fuel)%nat -> init_tables st ->
  vshell_is A (Z.of_nat LA) orgA bra ca -> vshell_is B (Z.of_nat LB) orgB ket cb -> ca <> [] -> cb <> [] -> bra <> [] -> ket <> [] -> pv_L U = Z.of_nat L ->
  (L + LA <= 14)%nat -> (L + LB <= 14)%nat ->
  powers_in (pv_prims U) (Z.of_nat LA + Z.of_nat LB) -> exponents_pos bra -> exponents_pos ket -> pot_exponents (pv_prims U) -> direction_known orgA C bra -> direction_known orgB C ket ->
  exists t Ws v, radial_of fuel par bessel erf A B (sub3 C orgA) (sub3 C orgB) U (Z.of_nat LA) (Z.of_nat LB) = Ok t /\
    rotation_generators (Z.of_nat L) (pick Ws 0) (pick Ws 1) (pick Ws 2) /\
    (forall k, (0 <= k < 3)%Z -> angular_momentum L k (pick Ws k)) /\
    (forall Ms (sz : Z -> Z), (forall k, (0 <= k < 3)%Z -> adims (pick Ms k) = [sz k]) -> (forall k, (0 <= k < 3)%Z -> sv_size A * sv_size B <= sz k)%Z ->
      exists Ms', spin_orbit_integrals fuel par bessel erf st true A B C U Ms = Ok Ms' /\ is3mat Ms' sz (sv_size A) (sv_size B) v /\ outside3 (sv_size A * sv_size B) Ms Ms') /\
    forall eps Qm, 0 <= eps -> 0 <= Qm -> radial_accuracy t L LA LB (pv_prims U) bra ket (separation orgA C) (separation orgB C) eps Qm ->
      forall k i j cA cB, (0 <= k < 3)%Z -> nth_error ca i = Some cA -> nth_error cb j = Some cB ->
        exists w, projected_integral L (pick Ws k) (radial_potential (pv_prims U)) C (phi (Z.of_nat LA) orgA bra cA) (phi (Z.of_nat LB) orgB ket cB) w /\
          Rabs (v k (Z.of_nat i) (Z.of_nat j) - w) <= expansion_error zero_thresh zero_thresh (so_bound L) (so_delta L) LA LB (separation orgA C) (separation orgB C) eps Qm.
Proof.
  intros Hf HI HA HB NA NB Na Nb EL LA14 LB14 HP HEb HEk HPE DA DB.
  destruct (so_value fuel par bessel erf st A B C U L LA LB orgA orgB bra ket ca cb Hf HI HA HB NA NB Na Nb EL LA14 LB14 HP HEb HEk HPE DA DB) as (t & q & kA & kB & Ws & Et & Tq & GA & GB & HG & HLs & HV).
  eexists t, Ws, _. split; [exact Et|]. split; [exact HG|]. split; [destruct HLs as (Ls & sz0 & Hs0 & ELs & HLs); exact (computed_momentum L sz0 Ls Ws Hs0 ELs HLs)|]. split; [exact HV|]. intros eps Qm He HQ HR k i j cA cB Hk Hi Hj. cbv beta.
  unfold nth_comp. rewrite !Nat2Z.id, (nth_error_nth ca _ (0, 0, 0)%Z Hi), (nth_error_nth cb _ (0, 0, 0)%Z Hj).
  destruct HA as (_ & _ & _ & _ & KA). destruct HB as (_ & _ & _ & _ & KB).
  destruct cA as [[nA lA] mA]. destruct cB as [[nB lB] mB]. pose proof (KA _ _ _ (nth_error_In _ _ Hi)) as (A1 & A2 & A3 & A4). pose proof (KB _ _ _ (nth_error_In _ _ Hj)) as (B1 & B2 & B3 & B4). clear Hi Hj KA KB.
  pose proof (pos_INR L). assert (T : 0 <= zero_thresh) by (unfold zero_thresh; lra).
  assert (P1 : 0 <= so_bound L) by (unfold so_bound; apply Rmult_le_pos; [lra|apply Rmult_le_pos; [lra|apply Rmult_le_pos; lra]]).
  assert (P2 : 0 <= so_delta L) by (unfold so_delta; apply Rmult_le_pos; [lra|apply Rmult_le_pos; [lra|apply Rmult_le_pos; lra]]).
  destruct (accuracy_core L (pick Ws k) zero_thresh zero_thresh (so_bound L) (so_delta L) (ang3 L Ws kA kB k) (pv_prims U) C orgA orgB (Z.of_nat LA) (Z.of_nat LB) bra ket
    (Z.to_nat nA) (Z.to_nat lA) (Z.to_nat mA) (Z.to_nat nB) (Z.to_nat lB) (Z.to_nat mB) kA kB q eps Qm) as (w & Hw & Ew); try assumption; try lia.
  - intros ni c a Hin. split; [apply (HP ni c a Hin)|apply (HPE ni c a Hin)].
  - intros l1 a b c l2 d e f H1 H2 H3 H4. exact (ang3_close L Ws kA kB k l1 a b c l2 d e f HG Hk H1 H2 H3 H4).
  - intros l1 l2 n Q H1 H2 H3 HQ'. rewrite !len_distance in HQ'. apply (HR l1 l2 n); try lia; [|exact HQ']. apply Tq; lia.
  - rewrite !len_distance in Ew. rewrite !Z2Nat.id in Hw by lia. replace (Z.to_nat nA + Z.to_nat lA + Z.to_nat mA)%nat with LA in Ew by lia. replace (Z.to_nat nB + Z.to_nat lB + Z.to_nat mB)%nat with LB in Ew by lia.
    exists w. split; [exact Hw|exact Ew].
Qed.
