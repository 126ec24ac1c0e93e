(** * What the outercore integrals are (C49, C50, C51, C59) *)

From Coq Require Import ZArith List Lia Bool Reals Lra.
From Coquelicot Require Import Coquelicot.
From Verif Require Import Base Loops Sums BinomModel BinomProofs OneElModel OneElProofs OneElPairs OneElInt OneElSpec GaussProd LmatModel LmatProofs NumSpec UtilProofs NucPotSpec NucPot GaussMoment RadialModel RadialTables HeapShrink SphModel SphSpec SphProofs SphThms OutercoreModel OutercoreProofs OutercoreRadial OutercoreSpec OutercoreMain.
Import ListNotations.
Open Scope R_scope.

(** ** Solid harmonics *)
Lemma monomial_scale r x y z a b c : r <> 0 -> x ^ a * y ^ b * z ^ c = r ^ (a + b + c) * ((x / r) ^ a * (y / r) ^ b * (z / r) ^ c).
Proof.
  intros Hr. rewrite !pow_add. unfold Rdiv. rewrite !Rpow_mult_distr, !pow_inv.
  field. repeat split; apply pow_nonzero; exact Hr.
Qed.

Lemma solid_sum l m comps x y z : (l <= 40)%nat -> (Z.abs m <= Z.of_nat l)%Z -> components_of l comps ->
  lsum (fun '(r, s, t) => scoef l m r s * x ^ Z.to_nat r * y ^ Z.to_nat s * z ^ Z.to_nat t) comps = solid l m x y z.
Proof.
  intros Hl Hm (ND & Hin). unfold solid. set (r := sqrt (x ^ 2 + y ^ 2 + z ^ 2)).
  destruct (Req_dec r 0) as [Hr|Hr].
  - assert (Hs : x ^ 2 + y ^ 2 + z ^ 2 = 0) by (apply sqrt_eq_0; [nra|exact Hr]).
    assert (x = 0 /\ y = 0 /\ z = 0) as (-> & -> & ->) by (repeat split; nra).
    rewrite Hr. unfold Rdiv. rewrite !Rmult_0_l. destruct l as [|l].
    + assert (m = 0%Z) by lia. subst m. rewrite pow_O, Rmult_1_l.
      assert (C : real_sph 0 0 0 0 0 = real_sph 0 0 0 0 1) by reflexivity. rewrite C.
      rewrite <- (coefficients_sum 0 0 comps 0 0 1 ltac:(lia) ltac:(lia) ND Hin ltac:(ring)). apply lsum_ext. intros [[a b] c] Hc.
      apply Hin in Hc. assert (a = 0%Z /\ b = 0%Z /\ c = 0%Z) as (-> & -> & ->) by lia. reflexivity.
    + rewrite pow_i, Rmult_0_l by lia. rewrite (lsum_ext _ (fun _ => 0 * 0)); [rewrite lsum_scal; ring|]. intros [[a b] c] Hc. apply Hin in Hc.
      destruct (Z.eq_dec a 0) as [->|Na]; [|rewrite (pow_i (Z.to_nat a)) by lia; ring]. destruct (Z.eq_dec b 0) as [->|Nb]; [|rewrite (pow_i (Z.to_nat b)) by lia; ring].
      rewrite (pow_i (Z.to_nat c)) by lia. ring.
  - assert (Hr2 : r * r = x ^ 2 + y ^ 2 + z ^ 2) by (apply sqrt_sqrt; nra).
    assert (Hu : (x / r) ^ 2 + (y / r) ^ 2 + (z / r) ^ 2 = 1).
    { transitivity ((x ^ 2 + y ^ 2 + z ^ 2) / (r * r)); [field; exact Hr|]. rewrite <- Hr2. field. exact Hr. }
    rewrite <- (coefficients_sum l m comps _ _ _ Hl Hm ND Hin Hu). rewrite <- lsum_scal. apply lsum_ext. intros [[a b] c] Hc. apply Hin in Hc.
    replace (r ^ l) with (r ^ (Z.to_nat a + Z.to_nat b + Z.to_nat c)) by (f_equal; lia).
    transitivity (scoef l m a b * (x ^ Z.to_nat a * y ^ Z.to_nat b * z ^ Z.to_nat c)); [ring|]. rewrite (monomial_scale r x y z) by exact Hr. ring.
Qed.

Lemma from_sq C x y z : from C x y z ^ 2 = let '(cx, cy, cz) := C in (x - cx) ^ 2 + (y - cy) ^ 2 + (z - cz) ^ 2.
Proof. destruct C as [[cx cy] cz]. unfold from. apply pow2_sqrt. pose proof (pow2_ge_0 (x - cx)). pose proof (pow2_ge_0 (y - cy)). pose proof (pow2_ge_0 (z - cz)). lra. Qed.

Lemma orbital_sum o C cs m x y z : (oc_l o <= 40)%nat -> (Z.abs m <= Z.of_nat (oc_l o))%Z -> components_of (oc_l o) cs -> (forall c a, In (c, a) (oc_prims o) -> 0 < a) ->
  zsum 0 (Z.of_nat (length cs)) (fun c => sph_coef (oc_l o) cs (m + Z.of_nat (oc_l o)) c * phi (Z.of_nat (oc_l o)) C (oc_prims o) (comp cs c) x y z) = orbital o C m x y z.
Proof.
  intros Hl Hm Hc Hexp. set (l := oc_l o) in *.
  transitivity (lsum (fun c => let '(r, s, t) := c in scoef l m r s / ang_factor l * phi (Z.of_nat l) C (oc_prims o) (r, s, t) x y z) cs).
  { rewrite <- (zsum_lsum cs (0, 0, 0)%Z). apply zsum_ext. intros c _. unfold sph_coef, comp. destruct (nth (Z.to_nat c) cs (0, 0, 0)%Z) as [[r s] t]. replace (m + Z.of_nat l - Z.of_nat l)%Z with m by ring. reflexivity. }
  unfold orbital. pose proof (from_sq C x y z) as Hf. destruct C as [[cx cy] cz]. fold l.
  rewrite <- (solid_sum l m cs (x - cx) (y - cy) (z - cz) Hl Hm Hc).
  match goal with |- _ = ?a * ?b => replace (a * b) with (b * a) by ring end. set (RS := lsum (fun '(c, a) => c * norm_rad l a * _) _).
  transitivity (lsum (fun c => RS * (let '(r, s, t) := c in scoef l m r s * (x - cx) ^ Z.to_nat r * (y - cy) ^ Z.to_nat s * (z - cz) ^ Z.to_nat t)) cs); [|rewrite lsum_scal; ring].
  apply lsum_ext. intros [[r s] t] _. unfold phi. pose proof (ang_factor_pos l) as Ha. rewrite Rmult_comm. unfold RS.
  match goal with |- ?a * ?k = ?b * ?k' => transitivity (k * a); [ring|transitivity (k' * b); [|ring]] end. rewrite <- !lsum_scal. apply lsum_ext. intros [c a] Hin.
  rewrite <- (norms_agree l a (Hexp _ _ Hin)). unfold gto. rewrite Hf.
  replace (exp (- (a * ((x - cx) * (x - cx) + (y - cy) * (y - cy) + (z - cz) * (z - cz))))) with (exp (- a * ((x - cx) ^ 2 + (y - cy) ^ 2 + (z - cz) ^ 2))) by (f_equal; ring).
  field. lra.
Qed.

Lemma is_int3_zsum n (F : Z -> R -> R -> R -> R) (v : Z -> R) : (forall i, (0 <= i < n)%Z -> is_int3 (F i) (v i)) -> is_int3 (fun x y z => zsum 0 n (fun i => F i x y z)) (zsum 0 n v).
Proof.
  intros H. destruct (Z_lt_le_dec n 0) as [Hn|Hn].
  - rewrite zsum_nil by lia. apply (is_int3_ext (fun _ _ _ => 0)); [intros; rewrite zsum_nil by lia; reflexivity|apply is_int3_zero].
  - rewrite <- (Z2Nat.id n Hn). rewrite <- (Z2Nat.id n Hn) in H. revert H. generalize (Z.to_nat n). clear n Hn. intros n. induction n as [|n IH]; intros H.
    + apply (is_int3_ext (fun _ _ _ => 0)); [reflexivity|apply is_int3_zero].
    + rewrite Nat2Z.inj_succ in *. unfold Z.succ in *. rewrite zsum_last by lia.
      apply (is_int3_ext (fun x y z => zsum 0 (Z.of_nat n) (fun i => F i x y z) + F (Z.of_nat n) x y z)); [intros; rewrite zsum_last by lia; reflexivity|].
      apply is_int3_plus; [apply IH; intros i Hi; apply H; lia|apply H; lia].
Qed.

Lemma ovm_int LA LB A B la lb ca cb i j : (forall c a, In (c, a) la -> 0 < a) -> (forall c a, In (c, a) lb -> 0 < a) ->
  is_int3 (fun x y z => phi LA A la (comp ca i) x y z * phi LB B lb (comp cb j) x y z) (ovm LA LB A B la lb ca cb i j).
Proof.
  intros HA HB. unfold ovm. eapply is_int3_ext; [|apply (contr_int3 (pfun LA A (comp ca i)) (pfun LB B (comp cb j)) la lb); [exact HA|exact HB|]].
  - intros x y z. cbv beta. rewrite !phi_contr. reflexivity.
  - intros aA aB Ha Hb. apply ov_entry_int; assumption.
Qed.

(** ** Index shifts *)
Lemma zsum_m l f : zsum 0 (2 * Z.of_nat l + 1) f = zsum (- Z.of_nat l) (Z.of_nat l + 1) (fun m => f (m + Z.of_nat l)%Z).
Proof. rewrite (zsum_shift (Z.of_nat l) (- Z.of_nat l) (Z.of_nat l + 1) f). f_equal; lia. Qed.

Definition Wk (k : Z) (l : nat) (m m' : Z) : R := Wmat k l (m + Z.of_nat l) (m' + Z.of_nat l).

Lemma W_generators l : rotation_generators (Z.of_nat l) (Wk 0 l) (Wk 1 l) (Wk 2 l).
Proof.
  assert (E : forall k m m', Wk k l m m' = (if (k =? 0)%Z then wX (Z.of_nat l) m m' else if (k =? 1)%Z then wY (Z.of_nat l) m m' else wZ (Z.of_nat l) m m')).
  { intros k m m'. unfold Wk, Wmat. replace (m + Z.of_nat l - Z.of_nat l)%Z with m by ring. replace (m' + Z.of_nat l - Z.of_nat l)%Z with m' by ring. reflexivity. }
  destruct (real_matrices (Z.of_nat l) ((2 * Z.of_nat l + 1) * (2 * Z.of_nat l + 1)) (zeros ((2 * Z.of_nat l + 1) * (2 * Z.of_nat l + 1))) (zeros ((2 * Z.of_nat l + 1) * (2 * Z.of_nat l + 1))) (zeros ((2 * Z.of_nat l + 1) * (2 * Z.of_nat l + 1)))
    ltac:(lia) ltac:(lia) eq_refl eq_refl eq_refl) as (x & y & z & X & Y & W & E1 & HX & HY & HW & G & _).
  destruct (rsh_ok (Z.of_nat l) _ (zeros ((2 * Z.of_nat l + 1) * (2 * Z.of_nat l + 1))) (zeros ((2 * Z.of_nat l + 1) * (2 * Z.of_nat l + 1))) (zeros ((2 * Z.of_nat l + 1) * (2 * Z.of_nat l + 1))) ltac:(lia) (Z.le_refl _) eq_refl eq_refl eq_refl)
    as (x' & y' & z' & E2 & (_ & GX & _) & (_ & GY & _) & (_ & GZ & _)). rewrite E1 in E2. injection E2 as <- <- <-.
  assert (QX : forall p q, (- Z.of_nat l <= p <= Z.of_nat l)%Z -> (- Z.of_nat l <= q <= Z.of_nat l)%Z -> X p q = wX (Z.of_nat l) p q) by (intros p q Hp Hq; pose proof (HX p q Hp Hq) as Q1; rewrite (GX p q Hp Hq) in Q1; injection Q1 as ->; reflexivity).
  assert (QY : forall p q, (- Z.of_nat l <= p <= Z.of_nat l)%Z -> (- Z.of_nat l <= q <= Z.of_nat l)%Z -> Y p q = wY (Z.of_nat l) p q) by (intros p q Hp Hq; pose proof (HY p q Hp Hq) as Q1; rewrite (GY p q Hp Hq) in Q1; injection Q1 as ->; reflexivity).
  assert (QW : forall p q, (- Z.of_nat l <= p <= Z.of_nat l)%Z -> (- Z.of_nat l <= q <= Z.of_nat l)%Z -> W p q = wZ (Z.of_nat l) p q) by (intros p q Hp Hq; pose proof (HW p q Hp Hq) as Q1; rewrite (GZ p q Hp Hq) in Q1; injection Q1 as ->; reflexivity).
  assert (MP : forall f g f' g', (forall p q, (- Z.of_nat l <= p <= Z.of_nat l)%Z -> (- Z.of_nat l <= q <= Z.of_nat l)%Z -> f p q = f' p q) -> (forall p q, (- Z.of_nat l <= p <= Z.of_nat l)%Z -> (- Z.of_nat l <= q <= Z.of_nat l)%Z -> g p q = g' p q) ->
     forall p q, (- Z.of_nat l <= p <= Z.of_nat l)%Z -> (- Z.of_nat l <= q <= Z.of_nat l)%Z -> mprod (Z.of_nat l) f g p q = mprod (Z.of_nat l) f' g' p q).
  { intros f g f' g' Hf Hg p q Hp Hq. unfold mprod. apply rsum_ext. intros k Hk. rewrite Hf, Hg by lia. reflexivity. }
  assert (EX : forall p q, (- Z.of_nat l <= p <= Z.of_nat l)%Z -> (- Z.of_nat l <= q <= Z.of_nat l)%Z -> Wk 0 l p q = X p q) by (intros p q Hp Hq; rewrite E, QX by assumption; reflexivity).
  assert (EY : forall p q, (- Z.of_nat l <= p <= Z.of_nat l)%Z -> (- Z.of_nat l <= q <= Z.of_nat l)%Z -> Wk 1 l p q = Y p q) by (intros p q Hp Hq; rewrite E, QY by assumption; reflexivity).
  assert (EW : forall p q, (- Z.of_nat l <= p <= Z.of_nat l)%Z -> (- Z.of_nat l <= q <= Z.of_nat l)%Z -> Wk 2 l p q = W p q) by (intros p q Hp Hq; rewrite E, QW by assumption; reflexivity).
  intros p q Hp Hq. specialize (G p q Hp Hq). rewrite !EX, !EY, !EW by assumption.
  rewrite (MP _ _ _ _ EX EY), (MP _ _ _ _ EY EX), (MP _ _ _ _ EY EW), (MP _ _ _ _ EW EY), (MP _ _ _ _ EW EX), (MP _ _ _ _ EX EW), (MP _ _ _ _ EX EX), (MP _ _ _ _ EY EY), (MP _ _ _ _ EW EW) by assumption. exact G.
Qed.

(** ** The matrix elements as integrals *)
Lemma mmul_msum o (f g : Z -> Z -> R) i j : mmul (2 * Z.of_nat (oc_l o) + 1) f g i j = msum o (fun m => f i (m + Z.of_nat (oc_l o))%Z) (fun m => g (m + Z.of_nat (oc_l o))%Z j).
Proof. unfold mmul, msum. apply (zsum_m (oc_l o) (fun p => f i p * g p j)). Qed.

Lemma mmul_left o k (f g : Z -> Z -> R) i j : mmul (2 * Z.of_nat (oc_l o) + 1) f (mmul (2 * Z.of_nat (oc_l o) + 1) (Wmat k (oc_l o)) g) i j =
  msum2 o (Wk k (oc_l o)) (fun m => f i (m + Z.of_nat (oc_l o))%Z) (fun m => g (m + Z.of_nat (oc_l o))%Z j).
Proof.
  rewrite mmul_msum. unfold msum, msum2. apply zsum_ext. intros m _. unfold mmul. rewrite zsum_m. rewrite <- zsum_scal. apply zsum_ext. intros m' _. unfold Wk. ring.
Qed.

Lemma mmul_right o k (f g : Z -> Z -> R) i j : mmul (2 * Z.of_nat (oc_l o) + 1) (mmul (2 * Z.of_nat (oc_l o) + 1) f (Wmat k (oc_l o))) g i j =
  msum2 o (Wk k (oc_l o)) (fun m => f i (m + Z.of_nat (oc_l o))%Z) (fun m => g (m + Z.of_nat (oc_l o))%Z j).
Proof.
  rewrite mmul_msum. unfold msum, msum2. rewrite zsum_swap. apply zsum_ext. intros m _. unfold mmul. rewrite zsum_m. rewrite Rmult_comm, <- zsum_scal. apply zsum_ext. intros m' _. unfold Wk. ring.
Qed.

Lemma lsum_opp {T} (f : T -> R) l : lsum (fun x => - f x) l = - lsum f l.
Proof. rewrite (lsum_ext _ (fun x => -1 * f x)); [rewrite lsum_scal; ring|]. intros; ring. Qed.

Lemma outercore_value C LA LB oA oB la lb ca cb cart ta tb os k i j : (-1 <= k)%Z ->
  lsum (fun o => first_o C LA LB oA oB la lb ca cb cart ta tb o k i j) os + lsum (fun o => lsum (fun o' => second_o C LA LB oA oB la lb ca cb cart o o' k i j) os) os =
  let sh o m := (m + Z.of_nat (oc_l o))%Z in
  let Sa o m := cSa C LA oA la ca cart o i (sh o m) in let Sb o m := cSb C LB oB lb cb cart o (sh o m) j in
  let Ua o m := cUa cart ta o i (sh o m) in let Ub o m := cUb cart tb o (sh o m) j in
  if (k =? -1)%Z then arep_value os cdelta Sa Sb Ua Ub else so_value os (Wk k) cdelta Sa Sb Ua Ub.
Proof.
  intros Hk. cbv zeta. unfold arep_value, so_value, first_o, second_o, first_term, second_term. cbv zeta.
  assert (Same : forall o o', same_ljb o o' = true -> oc_l o = oc_l o').
  { intros o o' H. unfold same_ljb in H. apply andb_prop in H. apply Nat.eqb_eq. apply H. }
  destruct (k =? -1)%Z.
  - unfold Rminus. f_equal.
    + apply lsum_ext. intros o _. rewrite !mmul_msum. reflexivity.
    + rewrite <- lsum_opp. apply lsum_ext. intros o _. rewrite <- lsum_opp. apply lsum_ext. intros o' _. destruct (same_ljb o o') eqn:E; [|ring]. rewrite mmul_msum. apply Same in E. rewrite <- E. ring.
  - unfold Rminus. f_equal.
    + apply lsum_ext. intros o _. rewrite mmul_left, mmul_right. reflexivity.
    + rewrite <- lsum_opp. apply lsum_ext. intros o _. rewrite <- lsum_opp. apply lsum_ext. intros o' _. destruct (same_ljb o o') eqn:E; [|ring]. rewrite mmul_left. apply Same in E. rewrite <- E. ring.
Qed.

(** exponents of a contraction are positive *)
Definition exps (l : list (R * R)) : Prop := forall c a, In (c, a) l -> 0 < a.

Lemma ket_int (F : R -> R -> R -> R) o C cs (f : Z -> Z -> R) i m : oc_valid o -> components_of (oc_l o) cs -> (Z.abs m <= Z.of_nat (oc_l o))%Z ->
  (forall c, (0 <= c < Z.of_nat (length cs))%Z -> is_int3 (fun x y z => F x y z * phi (Z.of_nat (oc_l o)) C (oc_prims o) (comp cs c) x y z) (f i c)) ->
  is_int3 (fun x y z => F x y z * orbital o C m x y z) (to_ket (oc_l o) cs f i (m + Z.of_nat (oc_l o))).
Proof.
  intros (Hl & He & _) Hc Hm H. unfold to_ket.
  apply (is_int3_ext (fun x y z => zsum 0 (Z.of_nat (length cs)) (fun c => sph_coef (oc_l o) cs (m + Z.of_nat (oc_l o)) c * (F x y z * phi (Z.of_nat (oc_l o)) C (oc_prims o) (comp cs c) x y z)))).
  - intros x y z. rewrite <- (orbital_sum o C cs m x y z ltac:(lia) Hm Hc He). rewrite <- zsum_scal. apply zsum_ext. intros; ring.
  - apply is_int3_zsum. intros c Hcc. apply is_int3_scal. apply H, Hcc.
Qed.

Lemma bra_int (F : R -> R -> R -> R) o C cs (f : Z -> Z -> R) j m : oc_valid o -> components_of (oc_l o) cs -> (Z.abs m <= Z.of_nat (oc_l o))%Z ->
  (forall c, (0 <= c < Z.of_nat (length cs))%Z -> is_int3 (fun x y z => phi (Z.of_nat (oc_l o)) C (oc_prims o) (comp cs c) x y z * F x y z) (f c j)) ->
  is_int3 (fun x y z => orbital o C m x y z * F x y z) (to_bra (oc_l o) cs f (m + Z.of_nat (oc_l o)) j).
Proof.
  intros Hv Hc Hm H. apply (is_int3_ext (fun x y z => F x y z * orbital o C m x y z)); [intros; ring|].
  apply (ket_int F o C cs (fun i c => f c i) j m Hv Hc Hm). intros c Hcc. eapply is_int3_ext; [|apply H, Hcc]. intros; cbv beta; ring.
Qed.

Lemma outercore_true t1 A B C LA LB oA oB la lb ca cb cart ta tb ocs os out szs :
  vshell_is A LA oA la ca -> vshell_is B LB oB lb cb -> (0 <= LA <= 9)%Z -> (0 <= LB <= 9)%Z -> exps la -> exps lb ->
  (forall l, components_of l (cart l)) -> Forall2 (oc_is cart) ocs os -> List.Forall oc_valid os ->
  Forall2 (oc_t1 t1 A B C ta tb) ocs os ->
  (forall o i c, In o os -> (0 <= i < Z.of_nat (length ca))%Z -> (0 <= c < Z.of_nat (length (cart (oc_l o))))%Z ->
     is_int3 (fun x y z => phi LA oA la (comp ca i) x y z * oc_U o C x y z * phi (Z.of_nat (oc_l o)) C (oc_prims o) (comp (cart (oc_l o)) c) x y z) (ta o i c)) ->
  (forall o c j, In o os -> (0 <= c < Z.of_nat (length (cart (oc_l o))))%Z -> (0 <= j < Z.of_nat (length cb))%Z ->
     is_int3 (fun x y z => phi (Z.of_nat (oc_l o)) C (oc_prims o) (comp (cart (oc_l o)) c) x y z * (oc_U o C x y z * phi LB oB lb (comp cb j) x y z)) (tb o c j)) ->
  fits4 A B out szs ->
  exists out' SA UA SB UB delta ratio W,
    outercore_potential_integrals t1 A B C ocs out = Ok (out', map (fun '(pot, s) => (pot, move_shell s C)) ocs) /\ out4 (sv_size A * sv_size B) out out' /\
    (forall o i m, In o os -> (0 <= i < Z.of_nat (length ca))%Z -> (Z.abs m <= Z.of_nat (oc_l o))%Z ->
       is_int3 (fun x y z => phi LA oA la (comp ca i) x y z * orbital o C m x y z) (SA i o m) /\
       is_int3 (fun x y z => phi LA oA la (comp ca i) x y z * oc_U o C x y z * orbital o C m x y z) (UA i o m)) /\
    (forall o j m, In o os -> (0 <= j < Z.of_nat (length cb))%Z -> (Z.abs m <= Z.of_nat (oc_l o))%Z ->
       is_int3 (fun x y z => orbital o C m x y z * phi LB oB lb (comp cb j) x y z) (SB j o m) /\
       is_int3 (fun x y z => orbital o C m x y z * (oc_U o C x y z * phi LB oB lb (comp cb j) x y z)) (UB j o m)) /\
    (forall o o', In o os -> In o' os -> same_lj o o' ->
       half_int (fun r => oc_radial o r * ((radial_sum (oc_pot o) r + radial_sum (oc_pot o') r) / 2) * oc_radial o' r * r ^ 2) (delta o o')) /\
    (forall l, (l <= 9)%nat -> Rabs (ratio l - 1) <= 2 / 10 ^ 15) /\
    (forall l, rotation_generators (Z.of_nat l) (W 0%Z l) (W 1%Z l) (W 2%Z l)) /\
    four out' szs (sv_size A) (sv_size B) (fun k i j =>
      if (k =? -1)%Z then arep_value os (fun o o' => ratio (oc_l o) ^ 2 * delta o o') (SA i) (SB j) (UA i) (UB j)
      else so_value os (W k) (fun o o' => ratio (oc_l o) ^ 2 * delta o o') (SA i) (SB j) (UA i) (UB j)).
Proof.
  intros HA HB HLA HLB Ea Eb Hcart HO Hv Ht Hta Htb Hf.
  destruct (main_ok t1 A B C LA LB oA oB la lb ca cb HA HB HLA HLB cart ta tb ocs os out szs HO Ht Hv Hf) as (out' & E & O & F).
  exists out'. exists (fun i o m => cSa C LA oA la ca cart o i (m + Z.of_nat (oc_l o))%Z), (fun i o m => cUa cart ta o i (m + Z.of_nat (oc_l o))%Z).
  exists (fun j o m => cSb C LB oB lb cb cart o (m + Z.of_nat (oc_l o))%Z j), (fun j o m => cUb cart tb o (m + Z.of_nat (oc_l o))%Z j).
  exists (fun o o' => delta_val (oc_l o) (oc_prims o) (oc_prims o') (oc_pot o) (oc_pot o')), table_ratio, Wk.
  split; [exact E|]. split; [exact O|]. rewrite List.Forall_forall in Hv. split; [|split; [|split; [|split; [|split]]]].
  - intros o i m Ho Hi Hm. pose proof (Hv o Ho) as Hvo. split.
    + apply ket_int; [exact Hvo|apply Hcart|exact Hm|]. intros c Hc. apply ovm_int; [exact Ea|apply Hvo].
    + apply (ket_int (fun x y z => phi LA oA la (comp ca i) x y z * oc_U o C x y z)); [exact Hvo|apply Hcart|exact Hm|]. intros c Hc. apply Hta; assumption.
  - intros o j m Ho Hj Hm. pose proof (Hv o Ho) as Hvo. split.
    + apply (bra_int (phi LB oB lb (comp cb j))); [exact Hvo|apply Hcart|exact Hm|]. intros c Hc. apply ovm_int; [apply Hvo|exact Eb].
    + apply (bra_int (fun x y z => oc_U o C x y z * phi LB oB lb (comp cb j) x y z)); [exact Hvo|apply Hcart|exact Hm|]. intros c Hc. apply Htb; assumption.
  - intros o o' Ho Ho' (El & _). unfold oc_radial. rewrite <- El. destruct (Hv o Ho) as (_ & X1 & X2). destruct (Hv o' Ho') as (_ & Y1 & Y2). rewrite <- El in Y2. apply delta_int; assumption.
  - intros l Hl. apply table_ratio_bound. lia.
  - intros l. apply W_generators.
  - eapply four_ext; [|exact F]. intros k i j Hk _ _. cbv beta. rewrite outercore_value by lia. reflexivity.
Qed.

(** ** Exchange of bra and ket *)
Lemma ovm_sym LA LB A B la lb ca cb i j : exps la -> exps lb -> ovm LA LB A B la lb ca cb i j = ovm LB LA B A lb la cb ca j i.
Proof.
  intros HA HB. eapply is_int3_unique; [apply ovm_int; assumption|]. eapply is_int3_ext; [|apply ovm_int; assumption]. intros; cbv beta; ring.
Qed.

Lemma lsum_swap {S T} (f : S -> T -> R) l1 l2 : lsum (fun a => lsum (fun b => f a b) l2) l1 = lsum (fun b => lsum (fun a => f a b) l1) l2.
Proof.
  induction l1 as [|a l1 IH].
  - rewrite (lsum_ext (fun b => lsum (fun a => f a b) []) (fun b => 0 * 0)); [rewrite lsum_scal; unfold lsum; cbn; ring|]. intros; unfold lsum; cbn; ring.
  - rewrite lsum_cons, IH. rewrite (lsum_ext (fun b => lsum (fun a => f a b) (a :: l1)) (fun b => f a b + lsum (fun a => f a b) l1)); [|intros; reflexivity]. rewrite lsum_plus. reflexivity.
Qed.

Lemma msum_comm o f g : msum o f g = msum o g f.
Proof. unfold msum. apply zsum_ext. intros; ring. Qed.

Lemma msum2_anti o k f g : msum2 o (Wk k (oc_l o)) f g = - msum2 o (Wk k (oc_l o)) g f.
Proof.
  unfold msum2. rewrite zsum_swap. rewrite <- (Rmult_1_l (zsum _ _ (fun m => zsum _ _ (fun m' => g m * _ * f m')))), Ropp_mult_distr_l, <- zsum_scal. apply zsum_ext. intros m _.
  rewrite <- zsum_scal. apply zsum_ext. intros m' _. unfold Wk. rewrite (Wmat_anti k (oc_l o) (m + Z.of_nat (oc_l o)) (m' + Z.of_nat (oc_l o))). ring.
Qed.

Lemma same_sym o o' : same_ljb o o' = same_ljb o' o.
Proof. unfold same_ljb. rewrite Nat.eqb_sym, Z.eqb_sym. reflexivity. Qed.

Lemma msum_l o o' f g : oc_l o = oc_l o' -> msum o f g = msum o' f g.
Proof. intros E. unfold msum. rewrite E. reflexivity. Qed.
Lemma msum2_l o o' W f g : oc_l o = oc_l o' -> msum2 o W f g = msum2 o' W f g.
Proof. intros E. unfold msum2. rewrite E. reflexivity. Qed.

Lemma same_w o o' : same_ljb o o' = true -> oc_l o = oc_l o' /\ w_arep o = w_arep o' /\ w_so o = w_so o'.
Proof.
  unfold same_ljb. intros H. apply andb_prop in H. destruct H as (E1 & E2). apply Nat.eqb_eq in E1. apply Z.eqb_eq in E2.
  split; [exact E1|]. unfold w_arep, w_so. rewrite E1, E2. split; reflexivity.
Qed.

Lemma arep_value_sym os delta Sa Sb Ua Ub : (forall o o', In o os -> In o' os -> same_ljb o o' = true -> delta o o' = delta o' o) ->
  arep_value os delta Sa Sb Ua Ub = arep_value os delta Sb Sa Ub Ua.
Proof.
  intros Hd. unfold arep_value. f_equal.
  - apply lsum_ext. intros o _. rewrite (msum_comm o (Sa o)), (msum_comm o (Ua o)). ring.
  - rewrite lsum_swap. apply lsum_ext. intros o Ho. apply lsum_ext. intros o' Ho'. rewrite same_sym. destruct (same_ljb o o') eqn:E; [|reflexivity].
    destruct (same_w o o' E) as (E1 & E2 & E3). rewrite (Hd o o' Ho Ho' E), E2. rewrite (msum_l o o' _ _ E1). rewrite (msum_comm o'). reflexivity.
Qed.

Lemma so_value_anti os k delta Sa Sb Ua Ub : (forall o o', In o os -> In o' os -> same_ljb o o' = true -> delta o o' = delta o' o) ->
  so_value os (Wk k) delta Sa Sb Ua Ub = - so_value os (Wk k) delta Sb Sa Ub Ua.
Proof.
  intros Hd. unfold so_value.
  assert (E1 : lsum (fun o => w_so o * (msum2 o (Wk k (oc_l o)) (Ua o) (Sb o) + msum2 o (Wk k (oc_l o)) (Sa o) (Ub o))) os = - lsum (fun o => w_so o * (msum2 o (Wk k (oc_l o)) (Ub o) (Sa o) + msum2 o (Wk k (oc_l o)) (Sb o) (Ua o))) os).
  { rewrite <- lsum_opp. apply lsum_ext. intros o _. rewrite (msum2_anti o k (Ua o)), (msum2_anti o k (Sa o)). ring. }
  assert (E2 : lsum (fun o => lsum (fun o' => if same_ljb o o' then w_so o * delta o o' * msum2 o (Wk k (oc_l o)) (Sa o) (Sb o') else 0) os) os = - lsum (fun o => lsum (fun o' => if same_ljb o o' then w_so o * delta o o' * msum2 o (Wk k (oc_l o)) (Sb o) (Sa o') else 0) os) os).
  { rewrite lsum_swap. rewrite <- lsum_opp. apply lsum_ext. intros o Ho. rewrite <- lsum_opp. apply lsum_ext. intros o' Ho'. rewrite same_sym. destruct (same_ljb o o') eqn:E; [|ring].
    destruct (same_w o o' E) as (X1 & X2 & X3). rewrite (Hd o o' Ho Ho' E), X3. rewrite msum2_anti. rewrite X1. rewrite (msum2_l o o' _ _ _ X1). ring. }
  rewrite E1, E2. ring.
Qed.

Lemma msum_ext o f g f' g' : (forall m, f m = f' m) -> (forall m, g m = g' m) -> msum o f g = msum o f' g'.
Proof. intros H1 H2. apply zsum_ext. intros m _. rewrite H1, H2. reflexivity. Qed.
Lemma msum2_ext o W f g f' g' : (forall m, f m = f' m) -> (forall m, g m = g' m) -> msum2 o W f g = msum2 o W f' g'.
Proof. intros H1 H2. apply zsum_ext. intros m _. apply zsum_ext. intros m' _. rewrite H1, H2. reflexivity. Qed.

Lemma arep_value_ext os delta (Sa Sb Ua Ub Sa' Sb' Ua' Ub' : oc_data -> Z -> R) :
  (forall o m, In o os -> Sa o m = Sa' o m /\ Sb o m = Sb' o m /\ Ua o m = Ua' o m /\ Ub o m = Ub' o m) ->
  arep_value os delta Sa Sb Ua Ub = arep_value os delta Sa' Sb' Ua' Ub'.
Proof.
  intros H. unfold arep_value.
  assert (X1 : forall o, In o os -> forall m, Sa o m = Sa' o m) by (intros o Ho m; apply (H o m Ho)).
  assert (X2 : forall o, In o os -> forall m, Sb o m = Sb' o m) by (intros o Ho m; apply (H o m Ho)).
  assert (X3 : forall o, In o os -> forall m, Ua o m = Ua' o m) by (intros o Ho m; apply (H o m Ho)).
  assert (X4 : forall o, In o os -> forall m, Ub o m = Ub' o m) by (intros o Ho m; apply (H o m Ho)).
  apply f_equal2.
  - apply lsum_ext. intros o Ho. rewrite (msum_ext o _ _ _ _ (X3 o Ho) (X2 o Ho)), (msum_ext o _ _ _ _ (X1 o Ho) (X4 o Ho)). reflexivity.
  - apply lsum_ext. intros o Ho. apply lsum_ext. intros o' Ho'. rewrite (msum_ext o _ _ _ _ (X1 o Ho) (X2 o' Ho')). reflexivity.
Qed.

Lemma so_value_ext os W delta (Sa Sb Ua Ub Sa' Sb' Ua' Ub' : oc_data -> Z -> R) :
  (forall o m, In o os -> Sa o m = Sa' o m /\ Sb o m = Sb' o m /\ Ua o m = Ua' o m /\ Ub o m = Ub' o m) ->
  so_value os W delta Sa Sb Ua Ub = so_value os W delta Sa' Sb' Ua' Ub'.
Proof.
  intros H. unfold so_value.
  assert (X1 : forall o, In o os -> forall m, Sa o m = Sa' o m) by (intros o Ho m; apply (H o m Ho)).
  assert (X2 : forall o, In o os -> forall m, Sb o m = Sb' o m) by (intros o Ho m; apply (H o m Ho)).
  assert (X3 : forall o, In o os -> forall m, Ua o m = Ua' o m) by (intros o Ho m; apply (H o m Ho)).
  assert (X4 : forall o, In o os -> forall m, Ub o m = Ub' o m) by (intros o Ho m; apply (H o m Ho)).
  apply f_equal2.
  - apply lsum_ext. intros o Ho. rewrite (msum2_ext o _ _ _ _ _ (X3 o Ho) (X2 o Ho)), (msum2_ext o _ _ _ _ _ (X1 o Ho) (X4 o Ho)). reflexivity.
  - apply lsum_ext. intros o Ho. apply lsum_ext. intros o' Ho'. rewrite (msum2_ext o _ _ _ _ _ (X1 o Ho) (X2 o' Ho')). reflexivity.
Qed.

(** elements (i, j) of the four matrices, k = -1 averaged, 0 1 2 the spin-orbit components *)
Definition elem4 (out : mats) (nb k i j : Z) : res R :=
  let '(m0, m1, m2, m3) := out in aget (if (k =? -1)%Z then m0 else if (k =? 0)%Z then m1 else if (k =? 1)%Z then m2 else m3) [i * nb + j]%Z.

Lemma four_elem out szs na nb f k i j : four out szs na nb f -> (-1 <= k <= 2)%Z -> (0 <= i < na)%Z -> (0 <= j < nb)%Z -> elem4 out nb k i j = Ok (f k i j).
Proof.
  destruct out as [[[m0 m1] m2] m3], szs as [[[s0 s1] s2] s3]. intros ((_ & _ & F0) & (_ & _ & F1) & (_ & _ & F2) & (_ & _ & F3)) Hk Hi Hj. unfold elem4.
  assert (k = -1 \/ k = 0 \/ k = 1 \/ k = 2)%Z as [-> | [-> | [-> | ->]]] by lia; cbn [Z.eqb]; auto.
Qed.

Definition transpose (f : oc_data -> Z -> Z -> R) : oc_data -> Z -> Z -> R := fun o i j => f o j i.

Lemma outercore_exchange t1 A B C LA LB oA oB la lb ca cb cart ta tb ocs os out1 szs1 out2 szs2 :
  vshell_is A LA oA la ca -> vshell_is B LB oB lb cb -> (0 <= LA <= 9)%Z -> (0 <= LB <= 9)%Z -> exps la -> exps lb ->
  Forall2 (oc_is cart) ocs os -> List.Forall oc_valid os ->
  Forall2 (oc_t1 t1 A B C ta tb) ocs os -> Forall2 (oc_t1 t1 B A C (transpose tb) (transpose ta)) ocs os ->
  fits4 A B out1 szs1 -> fits4 B A out2 szs2 ->
  exists out1' out2' ocs', outercore_potential_integrals t1 A B C ocs out1 = Ok (out1', ocs') /\ outercore_potential_integrals t1 B A C ocs out2 = Ok (out2', ocs') /\
    forall i j, (0 <= i < sv_size A)%Z -> (0 <= j < sv_size B)%Z ->
      (exists v, elem4 out1' (sv_size B) (-1) i j = Ok v /\ elem4 out2' (sv_size A) (-1) j i = Ok v) /\
      forall k, (0 <= k <= 2)%Z -> exists v, elem4 out1' (sv_size B) k i j = Ok v /\ elem4 out2' (sv_size A) k j i = Ok (- v).
Proof.
  intros HA HB HLA HLB Ea Eb HO Hv Ht1 Ht2 Hf1 Hf2.
  destruct (main_ok t1 A B C LA LB oA oB la lb ca cb HA HB HLA HLB cart ta tb ocs os out1 szs1 HO Ht1 Hv Hf1) as (out1' & E1 & _ & F1).
  destruct (main_ok t1 B A C LB LA oB oA lb la cb ca HB HA HLB HLA cart (transpose tb) (transpose ta) ocs os out2 szs2 HO Ht2 Hv Hf2) as (out2' & E2 & _ & F2).
  exists out1', out2'. eexists. split; [exact E1|]. split; [exact E2|]. rewrite List.Forall_forall in Hv.
  assert (D : forall o o', In o os -> In o' os -> same_ljb o o' = true -> cdelta o o' = cdelta o' o).
  { intros o o' Ho Ho' Hs. destruct (same_w o o' Hs) as (El & _). unfold cdelta. rewrite <- El. f_equal. destruct (Hv o Ho) as (_ & X1 & X2). destruct (Hv o' Ho') as (_ & Y1 & Y2). rewrite <- El in Y2. apply delta_sym; assumption. }
  assert (V : forall k i j, (-1 <= k)%Z -> 
    lsum (fun o => first_o C LB LA oB oA lb la cb ca cart (transpose tb) (transpose ta) o k j i) os + lsum (fun o => lsum (fun o' => second_o C LB LA oB oA lb la cb ca cart o o' k j i) os) os =
    let sh o m := (m + Z.of_nat (oc_l o))%Z in
    let Sa o m := cSa C LA oA la ca cart o i (sh o m) in let Sb o m := cSb C LB oB lb cb cart o (sh o m) j in
    let Ua o m := cUa cart ta o i (sh o m) in let Ub o m := cUb cart tb o (sh o m) j in
    if (k =? -1)%Z then arep_value os cdelta Sb Sa Ub Ua else so_value os (Wk k) cdelta Sb Sa Ub Ua).
  { intros k i j Hk. rewrite outercore_value by exact Hk. cbv zeta.
    assert (Q1 : forall o m, In o os -> cSa C LB oB lb cb cart o j (m + Z.of_nat (oc_l o))%Z = cSb C LB oB lb cb cart o (m + Z.of_nat (oc_l o))%Z j).
    { intros o m Ho. unfold cSa, cSb, to_ket, to_bra. apply zsum_ext. intros c _. rewrite (ovm_sym LB (Z.of_nat (oc_l o)) oB C lb (oc_prims o) cb (cart (oc_l o)) j c Eb (proj1 (proj2 (Hv o Ho)))). ring. }
    assert (Q2 : forall o m, In o os -> cSb C LA oA la ca cart o (m + Z.of_nat (oc_l o))%Z i = cSa C LA oA la ca cart o i (m + Z.of_nat (oc_l o))%Z).
    { intros o m Ho. unfold cSa, cSb, to_ket, to_bra. apply zsum_ext. intros c _. rewrite (ovm_sym LA (Z.of_nat (oc_l o)) oA C la (oc_prims o) ca (cart (oc_l o)) i c Ea (proj1 (proj2 (Hv o Ho)))). ring. }
    destruct (k =? -1)%Z; [apply arep_value_ext|apply so_value_ext]; intros o m Ho; repeat split; auto. }
  intros i j Hi Hj. split.
  - eexists. split; [apply (four_elem _ _ _ _ _ _ _ _ F1); lia|]. rewrite (four_elem _ _ _ _ _ (-1) j i F2) by lia. f_equal. rewrite V by lia. rewrite outercore_value by lia. cbv zeta. change (-1 =? -1)%Z with true. cbv iota. symmetry. apply arep_value_sym. exact D.
  - intros k Hk. eexists. split; [apply (four_elem _ _ _ _ _ _ _ _ F1); lia|]. rewrite (four_elem _ _ _ _ _ k j i F2) by lia. f_equal. rewrite V by lia. rewrite outercore_value by lia. cbv zeta.
    replace (k =? -1)%Z with false by (symmetry; apply Z.eqb_neq; lia). cbv iota. apply so_value_anti. exact D.
Qed.

(** ** Normalisation, radial integrals, limits *)
Lemma norm_rad_normalised l a : 0 < a -> 0 < norm_rad l a /\ half_int (fun r => (norm_rad l a * (r ^ l * exp (- a * r ^ 2))) ^ 2 * r ^ 2) 1.
Proof.
  intros Ha. split; [apply norm_rad_pos, Ha|].
  pose proof (gmom_pos (2 * l + 2) (2 * a) ltac:(lra)) as G.
  apply (half_eq _ (norm_rad l a * norm_rad l a * gmom (2 * l + 2) (2 * a))).
  - apply (half_ext (fun r => norm_rad l a * norm_rad l a * (r ^ (2 * l + 2) * exp (- (2 * a) * r ^ 2)))).
    + intros r _. rewrite pow_add. replace (2 * l)%nat with (l + l)%nat by lia. rewrite pow_add. replace (exp (- (2 * a) * r ^ 2)) with (exp (- a * r ^ 2) * exp (- a * r ^ 2)) by (rewrite <- exp_plus; f_equal; ring). ring.
    + apply half_scal. apply gauss_moment. lra.
  - unfold norm_rad. pose proof (sqrt_lt_R0 _ G). rewrite <- (sqrt_sqrt (gmom (2 * l + 2) (2 * a))) at 3 by lra. field. lra.
Qed.

Lemma radial_factor l a : (l < 20)%nat -> 0 < a ->
  exists v n, radial_gto_norm_factor (Z.of_nat l) a = Ok v /\ 0 < n /\ half_int (fun r => (n * (r ^ l * exp (- a * r ^ 2))) ^ 2 * r ^ 2) 1 /\ Rabs (v - n) <= 2 / 10 ^ 15 * n.
Proof.
  intros Hl Ha. exists (table_ratio l * norm_rad l a), (norm_rad l a). split; [apply radial_norm_ok; assumption|]. destruct (norm_rad_normalised l a Ha) as (P & H). split; [exact P|]. split; [exact H|].
  replace (table_ratio l * norm_rad l a - norm_rad l a) with ((table_ratio l - 1) * norm_rad l a) by ring. rewrite Rabs_mult, (Rabs_pos_eq (norm_rad l a)) by lra.
  apply Rmult_le_compat_r; [lra|]. exact (table_ratio_bound l Hl).
Qed.

Lemma one_center_primitive L a1 a2 n zeta : (0 <= L)%Z -> (0 <= n)%Z -> 0 < a1 + a2 + zeta ->
  ((2 * L + n <= 31)%Z -> exists v, analytic_one_center_rpp_integral_primitive L a1 a2 n zeta = Ok v /\
     half_int (fun r => r ^ Z.to_nat (2 * L + n) * exp (- (a1 + a2 + zeta) * r ^ 2)) v) /\
  ((32 <= 2 * L + n)%Z -> Z.even n = true -> analytic_one_center_rpp_integral_primitive L a1 a2 n zeta = Fail AssertFailed).
Proof.
  intros HL Hn Ha. rewrite primitive_moment by assumption. split.
  - intros Hm. rewrite gaussian_integral_ok by (try lia; exact Ha). eexists. split; [reflexivity|]. apply gauss_moment. exact Ha.
  - intros Hm He. apply gaussian_integral_abort; [exact Hm|]. rewrite Z.add_comm, Z.even_add_mul_2. exact He.
Qed.

(** shells with 15 <= L <= 40 stop in the double factorial of the angular norm *)
Lemma ang_norm_abort lx ly lz : (15 <= lx + ly + lz)%Z -> ang_norm_factor lx ly lz = Fail AssertFailed.
Proof. intros H. unfold ang_norm_factor. rewrite double_factorial_abort by lia. reflexivity. Qed.

Lemma pair_rule A B C pot1 pot2 oc1 oc2 out : pv_L pot1 <> pv_L pot2 \/ pv_J pot1 <> pv_J pot2 -> outercore_part_2 A B C pot1 oc1 pot2 oc2 out = Ok out.
Proof. apply part_2_skip. Qed.

(** C51 *)
Definition normalisation_safe (L : Z) : Prop := forall alpha, 0 < alpha -> exists v, radial_gto_norm_factor L alpha = Ok v.

Lemma normalisation_limit L : (0 <= L)%Z -> (normalisation_safe L <-> (L <= 19)%Z).
Proof.
  intros HL. split.
  - intros H. destruct (Z_le_gt_dec L 19) as [|G]; [assumption|]. destruct (H 1 ltac:(lra)) as (v & E). rewrite radial_norm_outside in E by lia. discriminate.
  - intros H alpha Ha. exists (table_ratio (Z.to_nat L) * norm_rad (Z.to_nat L) alpha). rewrite <- radial_norm_ok by (try lia; assumption). rewrite Z2Nat.id by lia. reflexivity.
Qed.

Lemma normalisation_refuted : exists L, (0 <= L)%Z /\ radial_gto_norm_factor L 1 = Fail OutOfBounds.
Proof. exists 20%Z. split; [lia|]. apply radial_norm_outside. lia. Qed.
