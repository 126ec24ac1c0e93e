(** * High angular momenta: the radially local integrals abort *)

From Coq Require Import ZArith Reals Lra Lia List Bool.
From Coquelicot Require Import Coquelicot.
From Verif Require Import Base Loops BinomModel BinomProofs CartModel CartProofs HeapModel HeapProofs HeapSpec OneElModel OneElProofs OneElInt OneElPairs OneElSpec OneElThms ParamsModel Sums
  SphModel SphSpec SphPoly SphProofs SphTables SphInt SphOrtho SphAngular SphThms SphSpan SphAdd SpecSpec BesselProofs RadialModel RadialSpec PiBounds OutercoreModel OutercoreProofs OutercoreRadial NucModel NucProofs
  NucPotSpec NucPot NucPotThms GaussMoment RadialTables Type2Model Type2Spec Type2Proj Type2Radial Type2Error Type2Value Type2Main Type2Acc LocalModel LocalSpec LocalInt LocalExp LocalMain LocalAcc LocalThms.
Import ListNotations.
Open Scope R_scope.

(** a step that returns or aborts; a step that aborts *)
Definition oa {S} (m : S -> res S) : Prop := forall s, (exists s', m s = Ok s') \/ m s = Fail AssertFailed.
Definition ab {S} (m : S -> res S) : Prop := forall s, m s = Fail AssertFailed.

Lemma oa_range {S} lo hi (body : Z -> S -> res S) : (forall i, (lo <= i < hi)%Z -> oa (body i)) -> oa (for_range lo hi body).
Proof.
  intros H s. destruct (for_range_ok_or (fun _ => True) lo hi AssertFailed body s I) as [(s' & E & _)|E]; [|left; exists s'; exact E|right; exact E].
  intros i s0 Hi _. destruct (H i Hi s0) as [(s' & E)|E]; [left; exists s'; split; [exact E|exact I]|right; exact E].
Qed.

Lemma ab_range {S} lo hi (body : Z -> S -> res S) k : (forall i, (lo <= i < hi)%Z -> oa (body i)) -> (lo <= k < hi)%Z -> ab (body k) -> ab (for_range lo hi body).
Proof.
  intros H Hk A s. apply (for_range_fail_some (fun _ => True)); [exact I| |exists k; split; [exact Hk|intros s0 _; apply A]].
  intros i s0 Hi _. destruct (H i Hi s0) as [(s' & E)|E]; [left; exists s'; split; [exact E|exact I]|right; exact E].
Qed.

(** ** Angular integrals *)
Lemma type1_or st l a b c k : init_tables st -> (l <= 40)%nat -> 
  (exists v, angular_type1_integral st (Z.of_nat l) (Z.of_nat a) (Z.of_nat b) (Z.of_nat c) k = Ok v) \/
  angular_type1_integral st (Z.of_nat l) (Z.of_nat a) (Z.of_nat b) (Z.of_nat c) k = Fail AssertFailed.
Proof.
  intros HI H40. destruct (init_tables_ok st HI) as (S0 & M). unfold angular_type1_integral. apply (oa_range (- Z.of_nat l) (Z.of_nat l + 1)). intros mu Hmu s.
  match goal with |- context[let* sum2 := for_range 0 _ ?b 0 in _] => assert (O : oa (for_range 0 (Z.of_nat l + 1) b)) end.
  { apply oa_range. intros r Hr. apply oa_range. intros s' Hs. apply oa_range. intros t Ht v. destruct (Z.eqb_spec (r + s' + t) (Z.of_nat l)) as [E|E]; [|left; eexists; reflexivity].
    rewrite s2c_ok by lia. rewrite bind_ok. replace (Z.of_nat a + r)%Z with (Z.of_nat (a + Z.to_nat r)) by lia. replace (Z.of_nat b + s')%Z with (Z.of_nat (b + Z.to_nat s')) by lia. replace (Z.of_nat c + t)%Z with (Z.of_nat (c + Z.to_nat t)) by lia.
    destruct (iusp_or (a + Z.to_nat r) (b + Z.to_nat s') (c + Z.to_nat t)) as [(x & ->) | ->]; [left; eexists; reflexivity|right; reflexivity]. }
  destruct (O 0) as [(v & ->) | ->]; [|right; reflexivity]. rewrite bind_ok, evaluate_ok by (assumption || lia). left. eexists. reflexivity.
Qed.

Lemma type1_abort st a b c k : init_tables st -> (15 <= a + b + c <= 40)%nat ->
  angular_type1_integral st (Z.of_nat (a + b + c)) (Z.of_nat a) (Z.of_nat b) (Z.of_nat c) k = Fail AssertFailed.
Proof.
  intros HI H. destruct (init_tables_ok st HI) as (S0 & M). unfold angular_type1_integral. rewrite for_range_step by lia.
  match goal with |- bind ?X _ = _ => enough (X = Fail AssertFailed) as -> by reflexivity end. set (l := (a + b + c)%nat) in *.
  match goal with |- bind ?X _ = _ => enough (X = Fail AssertFailed) as -> by reflexivity end.
  assert (O : forall r s t v, (0 <= r < Z.of_nat l + 1)%Z -> (0 <= s < Z.of_nat l + 1)%Z -> (0 <= t < Z.of_nat l + 1)%Z ->
    let m := (if (r + s + t =? Z.of_nat l)%Z then let* y := spherical_to_cartesian_coef (Z.of_nat l) (- Z.of_nat l) r s t in
      let* u := integrate_unitary_sphere_polynomial (Z.of_nat a + r) (Z.of_nat b + s) (Z.of_nat c + t) in Ok (v + y * u) else Ok v) in (exists v', m = Ok v') \/ m = Fail AssertFailed).
  { intros r s' t v Hr Hs Ht m. unfold m. destruct (Z.eqb_spec (r + s' + t) (Z.of_nat l)) as [E|E]; [|left; eexists; reflexivity].
    rewrite s2c_ok by lia. rewrite bind_ok. replace (Z.of_nat a + r)%Z with (Z.of_nat (a + Z.to_nat r)) by lia. replace (Z.of_nat b + s')%Z with (Z.of_nat (b + Z.to_nat s')) by lia. replace (Z.of_nat c + t)%Z with (Z.of_nat (c + Z.to_nat t)) by lia.
    destruct (iusp_or (a + Z.to_nat r) (b + Z.to_nat s') (c + Z.to_nat t)) as [(x & ->) | ->]; [left; eexists; reflexivity|right; reflexivity]. }
  apply (ab_range 0 (Z.of_nat l + 1) _ (Z.of_nat a)); [|lia|].
  { intros r Hr. apply oa_range. intros s Hs. apply oa_range. intros t Ht v. apply O; assumption. }
  apply (ab_range 0 (Z.of_nat l + 1) _ (Z.of_nat b)); [|lia|].
  { intros s Hs. apply oa_range. intros t Ht v. apply O; try assumption; lia. }
  apply (ab_range 0 (Z.of_nat l + 1) _ (Z.of_nat c)); [|lia|].
  { intros t Ht v. apply O; try assumption; lia. }
  intros v. replace (Z.of_nat a + Z.of_nat b + Z.of_nat c =? Z.of_nat l)%Z with true by (symmetry; apply Z.eqb_eq; lia). rewrite s2c_ok by lia. rewrite bind_ok. rewrite <- !Nat2Z.inj_add.
  assert (EV : forall n, Nat.even (n + n) = true) by (intros n; rewrite Nat.even_add; destruct (Nat.even n); reflexivity).
  rewrite iusp_abort by (apply EV || lia). reflexivity.
Qed.

(** ** The sum over lambda *)
Lemma lambda_or st t (LM a b c : nat) q k : init_tables st -> table1_of t LM q -> (a + b + c <= LM)%nat -> (LM <= 40)%nat ->
  (exists v, local_lambda_loop st t (Z.of_nat LM) (Z.of_nat (a + b + c)) (Z.of_nat a) (Z.of_nat b) (Z.of_nat c) k = Ok v) \/
  local_lambda_loop st t (Z.of_nat LM) (Z.of_nat (a + b + c)) (Z.of_nat a) (Z.of_nat b) (Z.of_nat c) k = Fail AssertFailed.
Proof.
  intros HI HT Hn H40. unfold local_lambda_loop. apply (oa_range 0 (Z.of_nat LM + 1)). intros l Hl s. cbv beta. rewrite <- (Z2Nat.id l) by lia. rewrite !HT by lia. cbn [bind].
  destruct (Rlt_dec _ _); [left; eexists; reflexivity|]. destruct (type1_or st (Z.to_nat l) a b c k HI ltac:(lia)) as [(v & ->) | ->]; [left; eexists; reflexivity|right; reflexivity].
Qed.

Lemma lambda_abort st t (LM a b c : nat) q k : init_tables st -> table1_of t LM q -> (a + b + c = LM)%nat -> (15 <= LM <= 40)%nat -> 1 / 10 ^ 16 <= Rabs (q LM LM) ->
  local_lambda_loop st t (Z.of_nat LM) (Z.of_nat (a + b + c)) (Z.of_nat a) (Z.of_nat b) (Z.of_nat c) k = Fail AssertFailed.
Proof.
  intros HI HT Hn H40 HQ. unfold local_lambda_loop. apply (ab_range 0 (Z.of_nat LM + 1) _ (Z.of_nat LM)); [|lia|].
  - intros l Hl s. cbv beta. rewrite <- (Z2Nat.id l) by lia. rewrite !HT by lia. cbn [bind].
    destruct (Rlt_dec _ _); [left; eexists; reflexivity|]. destruct (type1_or st (Z.to_nat l) a b c k HI ltac:(lia)) as [(v & ->) | ->]; [left; eexists; reflexivity|right; reflexivity].
  - intros s. rewrite HT by lia. cbn [bind]. rewrite Hn. destruct (Rlt_dec _ _); [lra|]. rewrite <- Hn. rewrite type1_abort by (assumption || lia). reflexivity.
Qed.

(** ** The loops of the expansion *)
Lemma expansion_abort {S} thr nA lA mA nB lB mB VA VB (body : R -> Z -> Z -> Z -> Z -> Z -> Z -> S -> res S) : thr <= 1 ->
  (nA <= 40)%nat -> (lA <= 40)%nat -> (mA <= 40)%nat -> (nB <= 40)%nat -> (lB <= 40)%nat -> (mB <= 40)%nat ->
  (forall a b c d e f w, (a <= nA)%nat -> (b <= lA)%nat -> (c <= mA)%nat -> (d <= nB)%nat -> (e <= lB)%nat -> (f <= mB)%nat -> oa (body w (Z.of_nat a) (Z.of_nat b) (Z.of_nat c) (Z.of_nat d) (Z.of_nat e) (Z.of_nat f))) ->
  ab (body 1 (Z.of_nat nA) (Z.of_nat lA) (Z.of_nat mA) (Z.of_nat nB) (Z.of_nat lB) (Z.of_nat mB)) ->
  ab (expansion_loops thr (Z.of_nat nA, Z.of_nat lA, Z.of_nat mA) (Z.of_nat nB, Z.of_nat lB, Z.of_nat mB) VA VB body).
Proof.
  intros Ht H1 H2 H3 H4 H5 H6 HO HB. destruct VA as [[X Y] Z]. destruct VB as [[X' Y'] Z']. unfold expansion_loops.
  assert (U : forall k : nat, (k <= 40)%nat -> u64 (Z.of_nat k) = Z.of_nat k) by (intros k Hk; apply u64_small; assert (uint64_max = 18446744073709551615%Z) by reflexivity; lia).
  assert (BI : forall n k : nat, (n <= 40)%nat -> (k <= n)%nat -> binomial (u64 (Z.of_nat n)) (u64 (Z.of_nat k)) = Ok (choose n k)).
  { intros n k Hn Hk. rewrite !U by lia. rewrite binomial_small; [rewrite !Nat2Z.id; reflexivity|lia|]. assert (uint64_max = 18446744073709551615%Z) by reflexivity. lia. }
  assert (IX : forall (n : nat) (P : BinNums.Z -> Prop), (forall k, (k <= n)%nat -> P (Z.of_nat k)) -> forall i, (0 <= i < Z.of_nat n + 1)%Z -> P i).
  { intros n P HP i Hi. replace i with (Z.of_nat (Z.to_nat i)) by lia. apply HP. lia. }
  apply (ab_range _ _ _ (Z.of_nat nA)); [apply (IX nA (fun i => oa _)); intros a Ha s; rewrite BI by assumption; rewrite bind_ok; revert s|lia|intros s; rewrite BI by lia; rewrite bind_ok; revert s].
  - do 1 (apply oa_range; apply (IX lA (fun i => oa _)); intros b Hb s; rewrite BI by assumption; rewrite bind_ok; revert s). apply oa_range; apply (IX mA (fun i => oa _)); intros c Hc s; rewrite BI by assumption; rewrite bind_ok; revert s.
    apply oa_range; apply (IX nB (fun i => oa _)); intros d Hd s; rewrite BI by assumption; rewrite bind_ok; revert s. apply oa_range; apply (IX lB (fun i => oa _)); intros e He s; rewrite BI by assumption; rewrite bind_ok; revert s.
    apply oa_range; apply (IX mB (fun i => oa _)); intros f Hf s; rewrite BI by assumption; rewrite bind_ok. cbv zeta. destruct (Rlt_dec _ _); [left; eexists; reflexivity|]. apply HO; assumption.
  - apply (ab_range _ _ _ (Z.of_nat lA)); [apply (IX lA (fun i => oa _)); intros b Hb s; rewrite BI by assumption; rewrite bind_ok; revert s|lia|intros s; rewrite BI by lia; rewrite bind_ok; revert s].
    { apply oa_range; apply (IX mA (fun i => oa _)); intros c Hc s; rewrite BI by assumption; rewrite bind_ok; revert s.
      apply oa_range; apply (IX nB (fun i => oa _)); intros d Hd s; rewrite BI by assumption; rewrite bind_ok; revert s. apply oa_range; apply (IX lB (fun i => oa _)); intros e He s; rewrite BI by assumption; rewrite bind_ok; revert s.
      apply oa_range; apply (IX mB (fun i => oa _)); intros f Hf s; rewrite BI by assumption; rewrite bind_ok. cbv zeta. destruct (Rlt_dec _ _); [left; eexists; reflexivity|]. apply HO; try assumption; lia. }
    apply (ab_range _ _ _ (Z.of_nat mA)); [apply (IX mA (fun i => oa _)); intros c Hc s; rewrite BI by assumption; rewrite bind_ok; revert s|lia|intros s; rewrite BI by lia; rewrite bind_ok; revert s].
    { apply oa_range; apply (IX nB (fun i => oa _)); intros d Hd s; rewrite BI by assumption; rewrite bind_ok; revert s. apply oa_range; apply (IX lB (fun i => oa _)); intros e He s; rewrite BI by assumption; rewrite bind_ok; revert s.
      apply oa_range; apply (IX mB (fun i => oa _)); intros f Hf s; rewrite BI by assumption; rewrite bind_ok. cbv zeta. destruct (Rlt_dec _ _); [left; eexists; reflexivity|]. apply HO; try assumption; lia. }
    apply (ab_range _ _ _ (Z.of_nat nB)); [apply (IX nB (fun i => oa _)); intros d Hd s; rewrite BI by assumption; rewrite bind_ok; revert s|lia|intros s; rewrite BI by lia; rewrite bind_ok; revert s].
    { apply oa_range; apply (IX lB (fun i => oa _)); intros e He s; rewrite BI by assumption; rewrite bind_ok; revert s.
      apply oa_range; apply (IX mB (fun i => oa _)); intros f Hf s; rewrite BI by assumption; rewrite bind_ok. cbv zeta. destruct (Rlt_dec _ _); [left; eexists; reflexivity|]. apply HO; try assumption; lia. }
    apply (ab_range _ _ _ (Z.of_nat lB)); [apply (IX lB (fun i => oa _)); intros e He s; rewrite BI by assumption; rewrite bind_ok; revert s|lia|intros s; rewrite BI by lia; rewrite bind_ok; revert s].
    { apply oa_range; apply (IX mB (fun i => oa _)); intros f Hf s; rewrite BI by assumption; rewrite bind_ok. cbv zeta. destruct (Rlt_dec _ _); [left; eexists; reflexivity|]. apply HO; try assumption; lia. }
    apply (ab_range _ _ _ (Z.of_nat mB)); [apply (IX mB (fun i => oa _)); intros f Hf s; rewrite BI by assumption; rewrite bind_ok|lia|intros s; rewrite BI by lia; rewrite bind_ok].
    { cbv zeta. destruct (Rlt_dec _ _); [left; eexists; reflexivity|]. apply HO; try assumption; lia. }
    cbv zeta. rewrite !Z.sub_diag. change (Z.to_nat 0) with 0%nat. cbn [pow].
    assert (CN : forall n, choose n n = 1%Z) by (intros n; apply choose_diag). rewrite !CN, !Rmult_1_r. destruct (Rlt_dec _ _) as [Hl|Hl]; [rewrite Rabs_R1 in Hl; lra|]. apply HB.
Qed.

(** ** The call *)
Lemma fill_is_local sf ev (A B : vshell) o charge model mp p la lb i j buf : holds_prims A la -> holds_prims B lb -> (1 <= model <= 5)%Z -> params_are mp (model_arity model) p ->
  (0 <= i < sv_num A)%Z -> (0 <= j < sv_num B)%Z ->
  nuc_fill sf ev A B o charge model mp i j buf =
    pe_local ev A (snd (nth (Z.to_nat i) la (0, 0))) B (snd (nth (Z.to_nat j) lb (0, 0))) o (model_potential sf model (IZR charge) p) buf.
Proof.
  intros PA PB Hm Hp Hi Hj. destruct (prims_at A la i PA Hi) as (_ & Ga). destruct (prims_at B lb j PB Hj) as (_ & Gb).
  assert (Hc : (model = 1 \/ model = 2 \/ model = 3 \/ model = 4 \/ model = 5)%Z) by lia. clear Hm. unfold params_are in Hp.
  destruct Hc as [-> | [-> | [-> | [-> | ->]]]]; unfold nuc_fill, local_params, potential_fun; cbn -[aget aset Rmult Rplus pget]; cbn in Hp.
  all: try rewrite (Hp 0%Z) by lia; cbn -[aget aset Rmult Rplus pget].
  all: try rewrite (Hp 1%Z) by lia; cbn -[aget aset Rmult Rplus pget].
  all: try rewrite (Hp 2%Z) by lia; cbn -[aget aset Rmult Rplus pget].
  all: cbn; rewrite Ga, bind_ok, Gb, bind_ok; reflexivity.
Qed.

Lemma local_abort fuel par bessel st A B C U aA aB (LA LB : nat) orgA orgB bra ket ca cb M sz : (14 <= fuel)%nat -> init_tables st ->
  vshell_is A (Z.of_nat LA) orgA bra ca -> vshell_is B (Z.of_nat LB) orgB ket cb -> ca <> [] -> cb <> [] -> (15 <= LA + LB <= 40)%nat -> adims M = [sz] -> (sv_size A * sv_size B <= sz)%Z ->
  (forall v conv, adaptive 10000 2047 (pair_integrand bessel U LA LB aA aB (minus3 C orgA) (minus3 C orgB) (LA + LB) (LA + LB)) None (par_radial par) v conv -> 1 / 10 ^ 16 <= Rabs v) ->
  radially_local_integrals fuel par bessel st A aA B aB C U M = Fail AssertFailed.
Proof.
  intros Hf HI HA HB NA NB H15 DM Hsz HQ. destruct HA as (_ & OA & _ & CA & KA). destruct HB as (_ & OB & _ & CB & KB).
  destruct (local_table_ok fuel par bessel aA aB (minus3 C orgA) (minus3 C orgB) U LA LB Hf) as (t & q & Et & Tq & Ad).
  destruct (Ad (LA + LB)%nat (LA + LB)%nat (Nat.le_refl _) (Nat.le_refl _)) as (cv & Hc). apply HQ in Hc. clear HQ Ad. 
  assert (EX : minus3 C orgA = sub3 C orgA /\ minus3 C orgB = sub3 C orgB) by (split; reflexivity). destruct EX as (EXA & EXB). rewrite EXA, EXB in Et.
  destruct CA as (SA & CA0). destruct CB as (SB & CB0). pose proof (conj SA CA0 : holds_comps A ca) as CA. pose proof (conj SB CB0 : holds_comps B cb) as CB.
  assert (PA : (0 < sv_size A)%Z) by (destruct ca; [contradiction|cbn in SA; lia]). assert (PB : (0 < sv_size B)%Z) by (destruct cb; [contradiction|cbn in SB; lia]).
  destruct (memset0_get (sv_size A * sv_size B) sz M DM ltac:(lia)) as (M0 & E0 & D0 & _ & F0).
  unfold radially_local_integrals. rewrite (proj2 (Z.ltb_lt 0 (sv_size A)) PA), (proj2 (Z.ltb_lt 0 (sv_size B)) PB). cbn [massert bind]. rewrite E0. cbn [bind]. cbv zeta.
  rewrite (first_momentum_ok _ _ _ CA KA NA). cbn [bind]. rewrite (first_momentum_ok _ _ _ CB KB NB). cbn [bind]. rewrite OA, OB, Et. cbn [bind].
  rewrite for_range_step by lia. rewrite for_range_step by lia.
  destruct ca as [|cA ca']; [contradiction|]. destruct cb as [|cB cb']; [contradiction|].
  pose proof (component_ok A (cA :: ca') 0 cA CA eq_refl) as EcA. pose proof (component_ok B (cB :: cb') 0 cB CB eq_refl) as EcB. change (Z.of_nat 0) with 0%Z in EcA, EcB. rewrite EcA. cbn [bind]. rewrite EcB. cbn [bind].
  destruct cA as [[nA lA] mA]. destruct cB as [[nB lB] mB]. pose proof (KA _ _ _ (or_introl eq_refl)) as (A1 & A2 & A3 & A4). pose proof (KB _ _ _ (or_introl eq_refl)) as (B1 & B2 & B3 & B4).
  match goal with |- bind (bind (bind ?X _) _) _ = _ => enough (X = Fail AssertFailed) as -> by reflexivity end.
  assert (SmA : (Z.to_nat nA + Z.to_nat lA + Z.to_nat mA = LA)%nat) by lia. assert (SmB : (Z.to_nat nB + Z.to_nat lB + Z.to_nat mB = LB)%nat) by lia.
  rewrite <- (Z2Nat.id nA), <- (Z2Nat.id lA), <- (Z2Nat.id mA), <- (Z2Nat.id nB), <- (Z2Nat.id lB), <- (Z2Nat.id mB) by lia. revert SmA SmB.
  generalize (Z.to_nat nA) (Z.to_nat lA) (Z.to_nat mA) (Z.to_nat nB) (Z.to_nat lB) (Z.to_nat mB). clear nA lA mA nB lB mB A1 A2 A3 A4 B1 B2 B3 B4 KA KB CA CB EcA EcB SA SB CA0 CB0 NA NB. intros nA lA mA nB lB mB SmA SmB.
  apply expansion_abort; try lia.
  - assert (0 < 10 ^ 13) by (apply pow_lt; lra). lra.
  - intros a b c d e f w Ha Hb Hc' Hd He Hf' s.
    replace (Z.of_nat a + Z.of_nat b + Z.of_nat c + Z.of_nat d + Z.of_nat e + Z.of_nat f)%Z with (Z.of_nat (a + d + (b + e) + (c + f))) by lia. rewrite <- !Nat2Z.inj_add.
    destruct (lambda_or st t (LA + LB) (a + d) (b + e) (c + f) q (pair_k_vector aA aB (sub3 C orgA) (sub3 C orgB)) HI Tq ltac:(lia) ltac:(lia)) as [(v & ->) | ->]; [left; eexists; reflexivity|right; reflexivity].
  - intros s.
    replace (Z.of_nat nA + Z.of_nat lA + Z.of_nat mA + Z.of_nat nB + Z.of_nat lB + Z.of_nat mB)%Z with (Z.of_nat (nA + nB + (lA + lB) + (mA + mB))) by lia. rewrite <- !Nat2Z.inj_add.
    rewrite (lambda_abort st t (LA + LB) (nA + nB) (lA + lB) (mA + mB) q _ HI Tq ltac:(lia) ltac:(lia) Hc). reflexivity.
Qed.

Lemma nucleus_abort_thm : forall sf fuel par bessel st point h pA pB vA vB ca cb C charge model mp p M c1 a1 r1 c2 a2 r2,
  (14 <= fuel)%nat -> init_tables st -> heap_wf h -> std_shell h pA vA ca -> std_shell h pB vB cb -> fits M vA vB -> (15 <= v_L vA + v_L vB <= 40)%Z ->
  v_prims vA = (c1, a1) :: r1 -> v_prims vB = (c2, a2) :: r2 -> 1 / 10 ^ 13 <= Rabs (c1 * c2) -> (1 <= model <= 5)%Z -> params_are mp (model_arity model) p ->
  (forall v conv, adaptive 10000 2047 (fun r => model_potential sf model (IZR charge) p r * pair_gauss (norm_L (v_L vA) a1) (norm_L (v_L vB) a2) a1 a2 (v_origin vA) (v_origin vB) C r *
     bessel (v_L vA + v_L vB)%Z (pair_k a1 a2 (v_origin vA) (v_origin vB) C * r) * r ^ Z.to_nat (v_L vA + v_L vB)) None (par_radial par) v conv -> 1 / 10 ^ 16 <= Rabs v) ->
  nuc_call sf (finite_nucleus_eval fuel par bessel st point) true h pA pB C charge model mp M = Fail AssertFailed.
Proof.
  intros sf fuel par bessel st point h pA pB vA vB ca cb C charge model mp p M c1 a1 r1 c2 a2 r2 Hf HI HW SA SB (sz & DM & Hsz) H15 EpA EpB Hbig Hm Hp HQ.
  destruct (std_view h pA vA ca HW SA) as (A & VA & IA & ZA). destruct (std_view h pB vB cb HW SB) as (B & VB & IB & ZB).
  assert (HLA : (0 <= v_L vA)%Z) by (destruct SA as (_ & X & _); exact X). assert (HLB : (0 <= v_L vB)%Z) by (destruct SB as (_ & X & _); exact X).
  pose proof IA as (_ & _ & HPA & (SzA & HCA) & KA). pose proof IB as (_ & _ & HPB & (SzB & HCB) & KB).
  unfold nuc_call. rewrite VA. cbn [bind]. rewrite VB. cbn [bind]. rewrite nuc_as_loop.
  assert (NC : forall L, (0 <= L)%Z -> (0 < n_cart L)%Z) by (intros L HL; unfold n_cart; apply Z.quot_str_pos; nia).
  assert (NA : ca <> []) by (intros ->; pose proof (std_length _ _ _ _ SA) as X; pose proof (NC _ HLA); cbn in X; lia).
  assert (NB : cb <> []) by (intros ->; pose proof (std_length _ _ _ _ SB) as X; pose proof (NC _ HLB); cbn in X; lia).
  set (LA := Z.to_nat (v_L vA)). set (LB := Z.to_nat (v_L vB)). assert (ELA : v_L vA = Z.of_nat LA) by (unfold LA; lia). assert (ELB : v_L vB = Z.of_nat LB) by (unfold LB; lia).
  rewrite ELA in IA. rewrite ELB in IB.
  assert (NumA : (0 < sv_num A)%Z) by (destruct HPA as (X & _); rewrite X, EpA; cbn; lia). assert (NumB : (0 < sv_num B)%Z) by (destruct HPB as (X & _); rewrite X, EpB; cbn; lia).
  unfold nuc_loop. cbn [massert bind]. cbv zeta. destruct (memset0_get (sv_size A * sv_size B) sz M DM) as (M1 & E1 & _); [rewrite ZA, ZB; lia|]. rewrite E1, bind_ok.
  match goal with |- (let* (_, _) := ?F in _) = _ => enough (X : F = Fail AssertFailed) by (rewrite X; reflexivity) end.
  rewrite for_range_step by lia. destruct (prims_at A _ 0%Z HPA ltac:(lia)) as (GA & _). rewrite GA, bind_ok. rewrite for_range_step by lia. destruct (prims_at B _ 0%Z HPB ltac:(lia)) as (GB & _). rewrite GB, bind_ok.
  rewrite EpA, EpB. change (Z.to_nat 0) with 0%nat. cbn [nth fst]. destruct (Rlt_dec _ _) as [Hl|Hl]; [lra|].
  rewrite (fill_is_local sf _ A B C charge model mp p _ _ 0 0 _ HPA HPB Hm Hp) by lia. rewrite EpA, EpB. change (Z.to_nat 0) with 0%nat. cbn [nth snd finite_nucleus_eval pe_local].
  rewrite (local_abort fuel par bessel st A B C _ a1 a2 LA LB _ _ _ _ ca cb _ (sv_size A * sv_size B) Hf HI IA IB NA NB); [reflexivity|lia|reflexivity|lia|].
  intros v conv Had. apply (HQ v conv). eapply adaptive_ext; [|exact Had]. intros r. rewrite integrand_eq. rewrite <- ELA, <- ELB. replace (LA + LB)%nat with (Z.to_nat (v_L vA + v_L vB)) by lia. rewrite Z2Nat.id by lia. reflexivity.
Qed.

(** ** A call that aborts *)
Lemma bessK_pos n x : 0 < x -> 0 < bessK n x.
Proof.
  intros Hx. rewrite bessK_J. pose proof (bpre_pos n). apply Rmult_lt_0_compat; [apply Rmult_lt_0_compat; [apply pow_lt, Hx|apply Rinv_0_lt_compat; assumption]|].
  unfold bJ. apply RInt_gt_0; [lra| |].
  - intros t Ht. apply Rmult_lt_0_compat; [apply pow_lt; nra|apply exp_pos].
  - intros t _. apply (ex_derive_continuous (V := R_NormedModule)). auto_derive. exact I.
Qed.

Lemma zsum_pos lo hi f : (lo < hi)%Z -> (forall i, (lo <= i < hi)%Z -> 0 < f i) -> 0 < zsum lo hi f.
Proof.
  intros H Hf. rewrite zsum_first by exact H. pose proof (Hf lo ltac:(lia)). pose proof (zsum_nonneg (lo + 1) hi f (fun i Hi => Rlt_le _ _ (Hf i ltac:(lia)))). lra.
Qed.

Lemma quadrature_pos g n : (1 <= n)%Z -> (forall r, 0 < r -> 0 < g r) -> 0 < quadrature g n.
Proof.
  intros Hn Hg. unfold quadrature. assert (0 < IZR (n + 1)) by (apply (IZR_lt 0); lia). apply Rdiv_lt_0_compat; [|assumption]. apply zsum_pos; [lia|]. intros i Hi. cbv zeta.
  set (xi := IZR i / IZR (n + 1)). assert (X : 0 < xi < 1).
  { unfold xi. split; [apply Rdiv_lt_0_compat; [apply (IZR_lt 0); lia|assumption]|]. apply (Rmult_lt_reg_r (IZR (n + 1))); [assumption|]. unfold Rdiv. rewrite Rmult_assoc, Rinv_l, Rmult_1_r, Rmult_1_l by lra. apply IZR_lt. lia. }
  assert (X3 : 0 < xi ^ 3 < 1) by (split; [apply pow_lt; lra|]; cbn [pow]; nra).
  assert (R0 : 0 < radius xi). { unfold radius. assert (ln (1 - xi ^ 3) < 0) by (rewrite <- ln_1; apply ln_increasing; lra). lra. }
  assert (0 < radius' xi). { unfold radius'. apply Rdiv_lt_0_compat; [|lra]. apply Rmult_lt_0_compat; [lra|apply pow_lt; lra]. }
  apply Rmult_lt_0_compat; [|assumption]. apply Rmult_lt_0_compat; [apply Hg, R0|apply pow_lt, R0].
Qed.

Lemma quadrature_scal k g n : quadrature (fun r => k * g r) n = k * quadrature g n.
Proof. unfold quadrature. unfold Rdiv. rewrite <- Rmult_assoc. f_equal. rewrite <- zsum_scal. apply zsum_ext. intros i _. cbv zeta. ring. Qed.

Lemma lower_bound_finite (f : nat -> R) N : (forall s, 0 < f s) -> exists m, 0 < m /\ forall s, (s <= N)%nat -> m <= f s.
Proof.
  intros H. induction N as [|N (m & Hm & IH)].
  - exists (f 0%nat). split; [apply H|]. intros s Hs. replace s with 0%nat by lia. lra.
  - exists (Rmin m (f (S N))). split; [apply Rmin_pos; [exact Hm|apply H]|]. intros s Hs. destruct (Nat.eq_dec s (S N)) as [-> | Hne]; [apply Rmin_r|]. eapply Rle_trans; [apply Rmin_l|apply IH; lia].
Qed.

(** large charges make the radial integral exceed every bound *)
Lemma point_large NA NB a b A B C M : 0 < NA -> 0 < NB -> 0 < pair_k a b A B C ->
  exists charge : Z, (0 < charge)%Z /\ forall sf p tol v conv, adaptive 10000 2047 (fun r => model_potential sf 5 (IZR charge) p r * pair_gauss NA NB a b A B C r *
     bessK M (pair_k a b A B C * r) * r ^ M) None tol v conv -> 1 / 10 ^ 16 <= Rabs v.
Proof.
  intros HA HB Hk. set (g := fun r => / r * pair_gauss NA NB a b A B C r * bessK M (pair_k a b A B C * r) * r ^ M).
  assert (G : forall r, 0 < r -> 0 < g r).
  { intros r Hr. assert (P : 0 < pair_gauss NA NB a b A B C r).
    { unfold pair_gauss. pose proof PI_RGT_0. match goal with |- 0 < ?X * exp ?Y => assert (0 < X) end; [|apply Rmult_lt_0_compat; [assumption|apply exp_pos]]. assert (0 < NA * NB) by (apply Rmult_lt_0_compat; assumption). nra. }
    unfold g. apply Rmult_lt_0_compat; [|apply pow_lt, Hr]. apply Rmult_lt_0_compat; [|apply bessK_pos; apply Rmult_lt_0_compat; assumption]. apply Rmult_lt_0_compat; [apply Rinv_0_lt_compat, Hr|exact P]. }
  destruct (lower_bound_finite (fun s => quadrature g (stage 2047 s)) (Z.to_nat 10000)) as (m & Hm & Hb); [intros s; apply quadrature_pos; [pose proof (stage_ge s); lia|exact G]|].
  exists (Rdefinitions.up (1 / 10 ^ 16 / m)). assert (T : 0 < 1 / 10 ^ 16 / m) by (apply Rdiv_lt_0_compat; [apply Rdiv_lt_0_compat; [lra|apply pow_lt; lra]|exact Hm]).
  destruct (archimed (1 / 10 ^ 16 / m)) as (Up & _). set (z := Rdefinitions.up (1 / 10 ^ 16 / m)) in *. split; [apply lt_IZR; lra|].
  intros sf p tol v conv (s & -> & Hs & _). pose proof (stage_ge s).
  rewrite (quadrature_ext _ (fun r => - IZR z * g r)) by (intros r; unfold g; change (model_potential sf 5 (IZR z) p r) with (- IZR z / r); unfold Rdiv; ring).
  rewrite quadrature_scal, Rabs_mult, Rabs_Ropp. rewrite (Rabs_pos_eq (IZR z)) by lra. specialize (Hb s ltac:(lia)). rewrite (Rabs_pos_eq (quadrature _ _)) by lra.
  apply Rle_trans with (1 / 10 ^ 16 / m * m); [right; field; apply Rgt_not_eq, Hm|]. apply Rmult_le_compat; lra.
Qed.

Lemma norm_positive L a : 0 < norm_L L a.
Proof. unfold norm_L, Rpower. apply Rmult_lt_0_compat; apply exp_pos. Qed.

Lemma nucleus_refuted : exists h pA pB vA vB ca cb C charge M,
  heap_wf h /\ std_shell h pA vA ca /\ std_shell h pB vB cb /\ (v_L vA <= 10)%Z /\ (v_L vB <= 10)%Z /\ exps_pos vA /\ exps_pos vB /\ fits M vA vB /\
  (forall cA aA cB aB, In (cA, aA) (v_prims vA) -> In (cB, aB) (v_prims vB) -> pair_direction aA aB (v_origin vA) (v_origin vB) C) /\
  forall sf fuel par st point, (14 <= fuel)%nat -> init_tables st ->
    nuc_call sf (finite_nucleus_eval fuel par exact_bessel st point) true h pA pB C charge 5 None M = Fail AssertFailed.
Proof.
  destruct (shells_exist [(8%Z, (0, 0, 0)%R, [(1, 1)%R]); (7%Z, (0, 0, 0)%R, [(1, 1)%R])]) as (h & ps & W & F).
  { intros L o pr [E | [E | []]]; injection E as <- <- <-; lia. }
  inversion F as [|? pA ? ? HA F1]; subst. inversion F1 as [|? pB ? ? HB F2]; subst.
  destruct HA as (vA & ca & SA & LA & OA & PA). destruct HB as (vB & cb & SB & LB & OB & PB).
  assert (K : pair_k 1 1 (0, 0, 0) (0, 0, 0) (1, 0, 0) = 4).
  { unfold pair_k, pair_vector, separation. cbn [fst snd]. match goal with |- 2 * sqrt ?X = _ => replace X with (2 * 2) by ring end. rewrite sqrt_square by lra. ring. }
  destruct (point_large (norm_L 8 1) (norm_L 7 1) 1 1 (0, 0, 0) (0, 0, 0) (1, 0, 0) 15) as (charge & _ & HB0); [apply norm_positive|apply norm_positive|rewrite K; lra|].
  exists h, pA, pB, vA, vB, ca, cb, (1, 0, 0), charge, (aundef [1620%Z]).
  assert (NA := std_length _ _ _ _ SA). assert (NB := std_length _ _ _ _ SB). rewrite LA in NA. rewrite LB in NB.
  change (n_cart 8) with 45%Z in NA. change (n_cart 7) with 36%Z in NB.
  assert (HF : fits (aundef [1620%Z]) vA vB) by (exists 1620%Z; split; [reflexivity|]; rewrite (std_size _ _ _ _ SA), (std_size _ _ _ _ SB), NA, NB; lia).
  split; [exact W|]. split; [exact SA|]. split; [exact SB|]. split; [lia|]. split; [lia|].
  split; [intros c a; rewrite PA; intros [E | []]; injection E as <- <-; lra|]. split; [intros c a; rewrite PB; intros [E | []]; injection E as <- <-; lra|]. split; [exact HF|].
  split.
  { intros cA aA cB aB. rewrite PA, PB, OA, OB. intros [E | []] [E' | []]. injection E as <- <-. injection E' as <- <-. right. rewrite K. assert (0 < 10 ^ 14) by (apply pow_lt; lra). apply (Rmult_lt_reg_r (10 ^ 14)); [assumption|]. lra. }
  intros sf fuel par st point Hf HI.
  apply (nucleus_abort_thm sf fuel par exact_bessel st point h pA pB vA vB ca cb (1, 0, 0) charge 5 None (fun _ => 0) _ 1 1 [] 1 1 [] Hf HI W SA SB HF).
  - lia.
  - exact PA.
  - exact PB.
  - rewrite Rmult_1_l, Rabs_R1. assert (0 < 10 ^ 13) by (apply pow_lt; lra). lra.
  - lia.
  - intros i Hi. cbn in Hi. lia.
  - rewrite LA, LB, OA, OB. intros v conv H. exact (HB0 sf (fun _ => 0) (par_radial par) v conv H).
Qed.
