(** * Accuracy of the semilocal integrals *)

From Coq Require Import ZArith Reals Lra Lia List Bool.
From Coquelicot Require Import Coquelicot.
From Verif Require Import Base Loops CartModel CartProofs HeapModel OneElModel OneElProofs OneElInt OneElPairs OneElSpec ParamsModel Sums
  SphModel SphSpec SphPoly SphProofs SphTables SphInt SphOrtho SphAngular SphThms RadialModel RadialSpec PiBounds OutercoreModel OutercoreProofs OutercoreRadial
  SpecSpec BesselThms NucPotSpec NucPot GaussMoment RadialTables Type2Model Type2Spec Type2Proj Type2Radial Type2Error Type2Value Type2Main.
Import ListNotations.
Open Scope R_scope.

Lemma error_bound thF thQ nA lA mA nB lB mB VA VB eps Qm M del :
  16 * PI * PI * error_size thF thQ nA lA mA nB lB mB VA VB eps Qm M del = expansion_error thF thQ M del (nA + lA + mA) (nB + lB + mB) (len VA) (len VB) eps Qm.
Proof. reflexivity. Qed.

(** the exact value of the sum computed from the table [q] and the angular sums [ang] *)
Lemma accuracy_core L W thF thQ M del ang pot C orgA orgB LA LB bra ket nA lA mA nB lB mB kA kB q eps Qm :
  0 <= thF -> 0 <= thQ -> 0 <= M -> 0 <= del -> 0 <= eps -> 0 <= Qm ->
  LA = Z.of_nat (nA + lA + mA) -> LB = Z.of_nat (nB + lB + mB) -> (L + (nA + lA + mA) <= 14)%nat -> (L + (nB + lB + mB) <= 14)%nat ->
  (forall c a, In (c, a) bra -> 0 < a) -> (forall c a, In (c, a) ket -> 0 < a) -> (forall ni c a, In (ni, c, a) pot -> (0 <= ni)%Z /\ 0 <= a) ->
  against (minus3 C orgA) kA -> against (minus3 C orgB) kB ->
  (forall l1 a b c l2 d e f, (L + (a + b + c) <= 14)%nat -> (l1 <= L + (a + b + c))%nat -> (L + (d + e + f) <= 14)%nat -> (l2 <= L + (d + e + f))%nat ->
     let exact := asum L W (fun m => omega l1 L m a b c kA) (fun m => omega l2 L m d e f kB) in Rabs (ang l1 a b c l2 d e f - exact) <= del /\ Rabs exact <= M) ->
  (forall l1 l2 n Q, (l1 <= L + (nA + lA + mA))%nat -> (l2 <= L + (nB + lB + mB))%nat -> (n <= nA + lA + mA + (nB + lB + mB))%nat ->
     radial_integral (radial_potential pot) (norm_L LA) (norm_L LB) bra ket (len (minus3 C orgA)) (len (minus3 C orgB)) l1 l2 n Q -> Rabs (q l1 l2 n - Q) <= eps /\ Rabs Q <= Qm) ->
  exists w, projected_integral L W (radial_potential pot) C (phi LA orgA bra (Z.of_nat nA, Z.of_nat lA, Z.of_nat mA)) (phi LB orgB ket (Z.of_nat nB, Z.of_nat lB, Z.of_nat mB)) w /\
    Rabs (computed thF thQ L q ang (nA, lA, mA) (nB, lB, mB) (minus3 C orgA) (minus3 C orgB) * (16 * PI * PI) - w)
      <= expansion_error thF thQ M del (nA + lA + mA) (nB + lB + mB) (len (minus3 C orgA)) (len (minus3 C orgB)) eps Qm.
Proof.
  intros HF HT HM Hd He HQm -> -> H14A H14B HB HK HP GA GB Hang Hq.
  set (VA := minus3 C orgA) in *. set (VB := minus3 C orgB) in *. set (LA := (nA + lA + mA)%nat) in *. set (LB := (nB + lB + mB)%nat) in *.
  assert (EX : forall l1 l2 n, exists Q, radial_integral (radial_potential pot) (norm_L (Z.of_nat LA)) (norm_L (Z.of_nat LB)) bra ket (len VA) (len VB) l1 l2 n Q).
  { intros l1 l2 n. apply radial_exists; try assumption; apply len_nonneg. }
  set (Q := fun l1 l2 n => real (Lim (fun b => RInt (fun r => r ^ 2 * radial_potential pot r * radial_factor (norm_L (Z.of_nat LA)) bra (len VA) l1 r * radial_factor (norm_L (Z.of_nat LB)) ket (len VB) l2 r * r ^ n) 0 b) p_infty)).
  assert (HQ : forall l1 l2 n, radial_integral (radial_potential pot) (norm_L (Z.of_nat LA)) (norm_L (Z.of_nat LB)) bra ket (len VA) (len VB) l1 l2 n (Q l1 l2 n)).
  { intros l1 l2 n. destruct (EX l1 l2 n) as (w & Hw). replace (Q l1 l2 n) with w; [exact Hw|]. unfold Q. destruct Hw as (_ & Hw). apply is_lim_unique in Hw. rewrite Hw. reflexivity. }
  exists (element L W Q (nA, lA, mA) (nB, lB, mB) VA VB kA kB). split.
  - apply element_integral; try assumption; try lia. intros l1 l2 n _ _ _. apply HQ.
  - unfold element, LA, LB. rewrite <- error_bound.
    match goal with |- Rabs (?x * ?k - ?k * ?y) <= _ => replace (x * k - k * y) with (k * (x - y)) by ring end.
    pose proof PI_RGT_0 as P0. rewrite Rabs_mult, (Rabs_pos_eq (16 * PI * PI)) by nra. apply Rmult_le_compat_l; [nra|].
    apply (computed_error thF thQ L q Q ang (fun l1 a b c l2 d e f => asum L W (fun m => omega l1 L m a b c kA) (fun m => omega l2 L m d e f kB))); try assumption.
    + intros l1 l2 n1 n2 H1 H2 H3 H4 _ _ _ _. apply Hq; try lia. apply HQ.
    + intros l1 a b c l2 d e f H1 H2 H3 H4 H5 H6 H7 H8. apply Hang; lia.
Qed.

Lemma expansion_error_mono thF thQ M del a b DA DB e1 e2 q1 q2 : 0 <= thF -> 0 <= thQ -> 0 <= M -> 0 <= del -> 0 <= DA -> 0 <= DB -> e1 <= e2 -> q1 <= q2 ->
  expansion_error thF thQ M del a b DA DB e1 q1 <= expansion_error thF thQ M del a b DA DB e2 q2.
Proof.
  intros. unfold expansion_error. pose proof PI_RGT_0. pose proof (pos_INR a). pose proof (pos_INR b). apply Rmult_le_compat_l; [nra|]. apply Rmult_le_compat_l; [apply Rmult_le_pos; lra|].
  apply Rplus_le_compat.
  - apply Rmult_le_compat_l; [apply Rmult_le_pos; apply pow_le; lra|]. apply Rplus_le_compat; apply Rmult_le_compat_r; lra.
  - apply Rmult_le_compat_l; [apply pow_le; lra|]. apply Rmult_le_compat_l; [assumption|]. apply Rmult_le_compat_r; lra.
Qed.

(** every entry of the table is within [eps] of the radial integral it stands for,
    and the radial integrals are at most [Qm] *)
Definition radial_accuracy (t : rtable2) (L LA LB : nat) (pot : list (Z * R * R)) (bra ket : list (R * R)) (DA DB eps Qm : R) : Prop :=
  forall (l1 l2 n : nat) v Q, (l1 <= L + LA)%nat -> (l2 <= L + LB)%nat -> (n <= LA + LB)%nat ->
    get_radial_type2_integral t (Z.of_nat l1) (Z.of_nat l2) (Z.of_nat n) = Ok v ->
    radial_integral (radial_potential pot) (norm_L (Z.of_nat LA)) (norm_L (Z.of_nat LB)) bra ket DA DB l1 l2 n Q -> Rabs (v - Q) <= eps /\ Rabs Q <= Qm.

Lemma len_distance C A : len (minus3 C A) = separation A C.
Proof. destruct A as [[ax ay] az]. destruct C as [[cx cy] cz]. reflexivity. Qed.

(** ** The semilocal integrals *)
Lemma type2_accurate fuel par bessel erf st A B C U (L LA LB : nat) orgA orgB bra ket ca cb : (14 <= fuel)%nat -> init_tables st ->
  vshell_is A (Z.of_nat LA) orgA bra ca -> vshell_is B (Z.of_nat LB) orgB ket cb -> ca <> [] -> cb <> [] -> bra <> [] -> ket <> [] -> pv_L U = Z.of_nat L ->
  (L + LA <= 14)%nat -> (L + LB <= 14)%nat ->
  powers_in (pv_prims U) (Z.of_nat LA + Z.of_nat LB) -> exponents_pos bra -> exponents_pos ket -> pot_exponents (pv_prims U) -> direction_known orgA C bra -> direction_known orgB C ket ->
  exists t v, radial_of fuel par bessel erf A B (sub3 C orgA) (sub3 C orgB) U (Z.of_nat LA) (Z.of_nat LB) = Ok t /\
    (forall M sz, adims M = [sz] -> (sv_size A * sv_size B <= sz)%Z ->
      exists M', type2_integrals fuel par bessel erf st true A B C U M = Ok M' /\ ismat M' sz (sv_size A) (sv_size B) v /\ outside (sv_size A * sv_size B) M M') /\
    forall eps Qm, 0 <= eps -> 0 <= Qm -> radial_accuracy t L LA LB (pv_prims U) bra ket (separation orgA C) (separation orgB C) eps Qm ->
      forall i j cA cB, nth_error ca i = Some cA -> nth_error cb j = Some cB ->
        exists w, semilocal_integral L (radial_potential (pv_prims U)) C (phi (Z.of_nat LA) orgA bra cA) (phi (Z.of_nat LB) orgB ket cB) w /\
          Rabs (v (Z.of_nat i) (Z.of_nat j) - w) <= expansion_error (1 / 10 ^ 13) (1 / 10 ^ 16) ((2 * INR L + 1) * (2311 / 1000)) ((2 * INR L + 1) * (1 / 10 ^ 12)) LA LB (separation orgA C) (separation orgB C) eps Qm.
Proof.
  intros Hf HI HA HB NA NB Na Nb EL LA14 LB14 HP HEb HEk HPE DA DB.
  destruct (type2_value fuel par bessel erf st A B C U L LA LB orgA orgB bra ket ca cb Hf HI HA HB NA NB Na Nb EL LA14 LB14 HP HEb HEk HPE DA DB) as (t & q & kA & kB & Et & Tq & GA & GB & HV).
  eexists t, _. split; [exact Et|]. split; [exact HV|]. intros eps Qm He HQ HR i j cA cB Hi Hj. cbv beta.
  unfold nth_comp. rewrite !Nat2Z.id, (nth_error_nth ca _ (0, 0, 0)%Z Hi), (nth_error_nth cb _ (0, 0, 0)%Z Hj).
  destruct HA as (_ & _ & _ & _ & KA). destruct HB as (_ & _ & _ & _ & KB).
  destruct cA as [[nA lA] mA]. destruct cB as [[nB lB] mB]. pose proof (KA _ _ _ (nth_error_In _ _ Hi)) as (A1 & A2 & A3 & A4). pose proof (KB _ _ _ (nth_error_In _ _ Hj)) as (B1 & B2 & B3 & B4). clear Hi Hj KA KB.
  pose proof (pos_INR L).
  destruct (accuracy_core L unit_matrix (1 / 10 ^ 13) (1 / 10 ^ 16) ((2 * INR L + 1) * (2311 / 1000)) ((2 * INR L + 1) * (1 / 10 ^ 12)) (ang2 L kA kB) (pv_prims U) C orgA orgB (Z.of_nat LA) (Z.of_nat LB) bra ket
    (Z.to_nat nA) (Z.to_nat lA) (Z.to_nat mA) (Z.to_nat nB) (Z.to_nat lB) (Z.to_nat mB) kA kB q eps Qm) as (w & Hw & Ew); try assumption; try lia; try lra.
  - intros ni c a Hin. split; [apply (HP ni c a Hin)|apply (HPE ni c a Hin)].
  - intros l1 a b c l2 d e f H1 H2 H3 H4. exact (ang2_close L kA kB l1 a b c l2 d e f H1 H2 H3 H4).
  - intros l1 l2 n Q H1 H2 H3 HQ'. rewrite !len_distance in HQ'. apply (HR l1 l2 n); try lia; [|exact HQ']. apply Tq; lia.
  - rewrite !len_distance in Ew. rewrite !Z2Nat.id in Hw by lia. replace (Z.to_nat nA + Z.to_nat lA + Z.to_nat mA)%nat with LA in Ew by lia. replace (Z.to_nat nB + Z.to_nat lB + Z.to_nat mB)%nat with LB in Ew by lia.
    exists w. split; [apply semilocal_projected, Hw|exact Ew].
Qed.

(** ** Both shells at the centre of the potential *)
Lemma factor_at_0 N prims l r : radial_factor N prims 0 l r = match l with O => lsum (fun '(c, a) => c * N a * exp (- a * (r * r))) prims | S _ => 0 end.
Proof.
  unfold radial_factor. destruct l as [|l].
  - apply lsum_ext. intros [c a] _. replace (2 * a * 0 * r) with 0 by ring. rewrite bessK_0_at_0. replace ((r - 0) * (r - 0)) with (r * r) by ring. ring.
  - transitivity (lsum (fun _ : R * R => 0 * 0) prims); [|rewrite lsum_scal; ring]. apply lsum_ext. intros [c a] _. replace (2 * a * 0 * r) with 0 by ring. rewrite bessK_at_0. ring.
Qed.

Lemma lsum_in {T} (k : R) (f g : T -> R) l : (forall x, In x l -> k * f x = g x) -> k * lsum f l = lsum g l.
Proof. intros H. rewrite <- lsum_scal. apply lsum_ext. exact H. Qed.

Lemma half_one_center pot LA bra LB ket (n : nat) : exponents_pos bra -> exponents_pos ket -> (forall ni c a, In (ni, c, a) pot -> (0 <= ni)%Z /\ 0 <= a) ->
  radial_integral (radial_potential pot) (norm_L LA) (norm_L LB) bra ket 0 0 0 0 n (one_center (fun n a => gmom (Z.to_nat n) a) pot LA bra LB ket (Z.of_nat n)).
Proof.
  intros HB HK HP. unfold radial_integral, one_center.
  set (term := fun (x y : R * R) (u : Z * R * R) (r : R) => let '(ca, aa) := x in let '(cb, ab) := y in let '(ni, ck, eta) := u in
    ca * gaussian_norm_factor LA 0 0 aa * (cb * gaussian_norm_factor LB 0 0 ab) * ck * (r ^ Z.to_nat (ni + Z.of_nat n) * exp (- (aa + ab + eta) * r ^ 2))).
  apply (half_ext (fun r => lsum (fun x => lsum (fun y => lsum (fun u => term x y u r) pot) ket) bra)).
  - intros r Hr. rewrite !factor_at_0. unfold radial_potential.
    match goal with |- _ = r ^ 2 * ?p * ?b * ?k * r ^ n => transitivity (r ^ 2 * r ^ n * p * k * b); [|ring] end.
    symmetry. apply lsum_in. intros [ca aa] Hx.
    match goal with |- r ^ 2 * r ^ n * ?p * ?k * ?b = _ => transitivity (r ^ 2 * r ^ n * b * p * k); [ring|] end.
    apply lsum_in. intros [cb ab] Hy.
    match goal with |- r ^ 2 * r ^ n * ?b * ?p * ?k = _ => transitivity (r ^ 2 * r ^ n * b * k * p); [ring|] end.
    apply lsum_in. intros [[ni ck] eta] Hu. destruct (HP _ _ _ Hu) as (Hni & _). unfold term. rewrite <- !nf_norm. unfold nf.
    replace (- (aa + ab + eta) * r ^ 2) with (- aa * (r * r) + - ab * (r * r) + - eta * (r * r)) by ring. rewrite !exp_plus.
    replace (Z.to_nat (ni + Z.of_nat n)) with (Z.to_nat ni + n)%nat by lia. rewrite pow_add, <- (pow_pot r ni Hr Hni). ring.
  - apply half_lsum. intros [ca aa] Hx. apply half_lsum. intros [cb ab] Hy. apply half_lsum. intros [[ni ck] eta] Hu. unfold term. apply half_scal.
    pose proof (HB _ _ Hx). pose proof (HK _ _ Hy). destruct (HP _ _ _ Hu). apply gauss_moment. lra.
Qed.

Lemma half_0 f : (forall r, 0 < r -> f r = 0) -> forall q, half_int f q -> q = 0.
Proof. intros H q Hq. apply (half_int_unique f); [exact Hq|]. apply (half_ext (fun _ => 0)); [|exact half_zero]. intros r Hr. symmetry. apply H, Hr. Qed.

(** the radial integrals of two shells at the centre are exact *)
Lemma one_center_accuracy fuel par bessel erf A B C U (L LA LB : nat) bra ket ca cb t Qm : (14 <= fuel)%nat ->
  vshell_is A (Z.of_nat LA) C bra ca -> vshell_is B (Z.of_nat LB) C ket cb -> pv_L U = Z.of_nat L ->
  powers_in (pv_prims U) (Z.of_nat LA + Z.of_nat LB) -> exponents_pos bra -> exponents_pos ket -> pot_exponents (pv_prims U) -> 0 <= Qm ->
  (forall (n : nat) Q, (n <= LA + LB)%nat -> radial_integral (radial_potential (pv_prims U)) (norm_L (Z.of_nat LA)) (norm_L (Z.of_nat LB)) bra ket 0 0 0 0 n Q -> Rabs Q <= Qm) ->
  radial_of fuel par bessel erf A B (sub3 C C) (sub3 C C) U (Z.of_nat LA) (Z.of_nat LB) = Ok t ->
  radial_accuracy t L LA LB (pv_prims U) bra ket (separation C C) (separation C C) 0 Qm.
Proof.
  intros Hf (EA & _ & PA & _) (EB & _ & PB & _) EL HP HB HK HE HQm HQ Et.
  assert (D0 : separation C C = 0). { destruct C as [[x y] z]. unfold separation. rewrite !Rminus_eq_0, Rmult_0_l, !Rplus_0_l. apply sqrt_0. }
  assert (S0 : sq3 (sub3 C C) < 1 / 10 ^ 14). { destruct C as [[x y] z]. unfold sq3, sub3. rewrite !Rminus_eq_0, Rmult_0_l, !Rplus_0_l. apply Rdiv_lt_0_compat; [lra|apply pow_lt; lra]. }
  unfold radial_of in Et. rewrite (read_prims_ok _ _ PA) in Et. cbn [bind] in Et. rewrite (read_prims_ok _ _ PB) in Et. cbn [bind] in Et. rewrite EL, EA, EB in Et.
  destruct (type2_one_center (fun n a => gmom (Z.to_nat n) a) fuel par bessel erf (Z.of_nat L + Z.of_nat LA) (Z.of_nat L + Z.of_nat LB) (Z.of_nat LA + Z.of_nat LB) (sq3 (sub3 C C)) (sq3 (sub3 C C)) (pv_prims U) (Z.of_nat LA) bra (Z.of_nat LB) ket) as (t' & Et' & G); try lia; try assumption.
  { intros n a Hn Ha. apply gauss_moment, Ha. }
  rewrite Et' in Et. injection Et as ->. rewrite D0.
  intros l1 l2 n v Q H1 H2 H3 Gv RQ. rewrite (G (Z.of_nat l1) (Z.of_nat l2) (Z.of_nat n) ltac:(lia) ltac:(lia) ltac:(lia)) in Gv. injection Gv as <-.
  assert (HPE : forall ni c a, In (ni, c, a) (pv_prims U) -> (0 <= ni)%Z /\ 0 <= a) by (intros ni c a Hin; split; [apply (HP ni c a Hin)|apply (HE ni c a Hin)]).
  destruct l1 as [|l1]; [destruct l2 as [|l2]|]; cbn [Z.of_nat Z.eqb andb].
  - pose proof (half_one_center (pv_prims U) (Z.of_nat LA) bra (Z.of_nat LB) ket n HB HK HPE) as H0. pose proof (half_int_unique _ _ _ H0 RQ) as E. rewrite E, Rminus_eq_0, Rabs_R0. split; [lra|]. apply (HQ n Q H3 RQ).
  - assert (Q = 0) as ->; [|rewrite Rminus_eq_0, Rabs_R0; lra]. eapply half_0; [|exact RQ]. intros r _. cbv beta. rewrite (factor_at_0 _ ket (S l2)). ring.
  - assert (Q = 0) as ->; [|rewrite Rminus_eq_0, Rabs_R0; lra]. eapply half_0; [|exact RQ]. intros r _. cbv beta. rewrite (factor_at_0 _ bra (S l1)). ring.
Qed.
