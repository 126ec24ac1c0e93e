(** * Nuclear attraction integrals of finite nuclei *)

From Coq Require Import ZArith Reals Lra Lia List Bool.
From Coquelicot Require Import Coquelicot.
From Verif Require Import Base Loops BinomModel BinomProofs CartModel CartProofs HeapModel HeapProofs HeapSpec OneElModel OneElProofs OneElInt OneElPairs OneElSpec OneElThms ParamsModel Sums
  SphModel SphSpec SphPoly SphProofs SphTables SphInt SphOrtho SphAngular SphThms SphSpan SphAdd SpecSpec BesselProofs RadialModel RadialSpec PiBounds OutercoreModel OutercoreProofs OutercoreRadial NucModel NucProofs
  NucPotSpec NucPot NucPotThms GaussMoment RadialTables Type2Model Type2Spec Type2Proj Type2Radial Type2Error Type2Value Type2Main Type2Acc LocalModel LocalSpec LocalInt LocalExp LocalMain LocalAcc.
Import ListNotations.
Open Scope R_scope.

(** ** The potentials of the nuclear models *)
Lemma bounded_interval (f : R -> R) a b : a <= b -> (forall x, a <= x <= b -> continuous f x) -> exists M, forall x, a <= x <= b -> Rabs (f x) <= M.
Proof.
  intros Hab Hc. destruct (continuity_ab_maj (fun x => Rabs (f x)) a b Hab) as (x & Hx & _).
  - intros c Hc'. apply continuity_pt_filterlim. apply (continuous_comp f Rabs); [apply Hc, Hc'|]. apply continuous_Rabs.
  - exists (Rabs (f x)). exact Hx.
Qed.

Lemma potential_charge_like V rho zn bad : potential_of V rho zn bad -> charge_like V.
Proof.
  intros ((w & D & _ & _) & L0 & Li).
  assert (CF : forall r, 0 < r -> continuous (fun s => s * V s) r) by (intros r Hr; apply (ex_derive_continuous (V := R_NormedModule)); exists (w r); apply D, Hr). split.
  - intros r Hr. apply (continuous_loc V (fun s => / s * (s * V s))).
    + exists (mkposreal r Hr). intros y Hy. assert (HR : Rabs (y - r) < r) by exact Hy. apply Rabs_def2 in HR. field. lra.
    + apply (continuous_mult (K := R_AbsRing) (fun s => / s) (fun s => s * V s)); [|apply CF, Hr]. apply (ex_derive_continuous (V := R_NormedModule)). auto_derive. lra.
  - pose proof (proj1 (filterlim_locally (F := at_right 0) (fun r => r * V r) 0) L0 (mkposreal 1 Rlt_0_1)) as (d & Hd).
    destruct (proj2 (is_lim_spec _ _ _) Li (mkposreal 1 Rlt_0_1)) as (T & HT). cbn in HT.
    set (a := d / 2). set (b := Rmax a (T + 1)). pose proof (cond_pos d) as Pd. assert (Pa : 0 < a) by (unfold a; lra). assert (Hab : a <= b) by apply Rmax_l.
    destruct (bounded_interval (fun s => s * V s) a b Hab) as (K & HK); [intros x Hx; apply CF; lra|].
    exists (Rmax K (Rabs zn + 1)). intros r Hr. pose proof (Rabs_pos zn).
    destruct (Rlt_le_dec r a) as [H1|H1]; [|destruct (Rle_lt_dec r b) as [H2|H2]].
    + eapply Rle_trans; [|apply Rmax_r]. specialize (Hd r). assert (B : ball 0 d r) by (change (Rabs (r - 0) < d); rewrite Rminus_0_r, Rabs_pos_eq by lra; unfold a in H1; lra).
      specialize (Hd B Hr). change (Rabs (r * V r - 0) < 1) in Hd. rewrite Rminus_0_r in Hd. lra.
    + eapply Rle_trans; [|apply Rmax_l]. apply HK. lra.
    + eapply Rle_trans; [|apply Rmax_r]. assert (HT' : T < r) by (pose proof (Rmax_r a (T + 1)); fold b in H0; lra). specialize (HT r HT').
      replace (r * V r) with ((r * V r - - zn) + - zn) by ring. eapply Rle_trans; [apply Rabs_triang|]. rewrite Rabs_Ropp. lra.
Qed.

(** the parameters of a model make sense *)
Definition good_model (sf : specfuns) (model : Z) (p : Z -> R) : Prop :=
  (model = 1%Z /\ 0 < p 0%Z) \/
  (model = 2%Z /\ 0 < p 0%Z /\ error_function (sf_erf sf)) \/
  (model = 3%Z /\ 0 < p 0%Z /\ 0 < p 1%Z /\ fermi_series (sf_sk sf)) \/
  (model = 4%Z /\ 0 < p 0%Z /\ 0 < p 1%Z /\ 0 <= p 2%Z /\ fermi_series (sf_sk sf)) \/
  model = 5%Z.

Lemma point_charge_like zn : charge_like (fun r => coulomb_potential_point r zn).
Proof.
  unfold coulomb_potential_point. split.
  - intros r Hr. apply (ex_derive_continuous (V := R_NormedModule)). auto_derive. lra.
  - exists (Rabs zn). intros r Hr. replace (r * (- zn / r)) with (- zn) by (field; lra). rewrite Rabs_Ropp. lra.
Qed.

Lemma model_charge_like sf model zn p : good_model sf model p -> charge_like (model_potential sf model zn p).
Proof.
  intros [(-> & H) | [(-> & H & E) | [(-> & Hc & Ha & E) | [(-> & Hc & Ha & Hk & E) | ->]]]].
  - eapply potential_charge_like. apply (ball_thm zn (p 0%Z) H).
  - eapply potential_charge_like. apply (gauss_thm (sf_erf sf) zn (p 0%Z) E H).
  - eapply potential_charge_like. apply (fermi_thm (sf_sk sf) zn (p 0%Z) (p 1%Z) E Hc Ha).
  - eapply potential_charge_like. apply (bubble_thm (sf_sk sf) zn (p 0%Z) (p 1%Z) (p 2%Z) E Hc Ha). apply Rgt_not_eq. apply bubble_norm_thm; assumption.
  - apply point_charge_like.
Qed.

(** ** The routine as integrator of the nuclear attraction loop *)
Lemma charge_like_thm : forall sf model zn p, good_model sf model p -> charge_like (model_potential sf model zn p).
Proof. exact model_charge_like. Qed.

Lemma local_eval_numbers fuel par bessel st point A B C (LA LB : nat) orgA orgB bra ket ca cb : (14 <= fuel)%nat -> init_tables st ->
  vshell_is A (Z.of_nat LA) orgA bra ca -> vshell_is B (Z.of_nat LB) orgB ket cb -> ca <> [] -> cb <> [] -> (LA + LB <= 14)%nat ->
  exists fl, local_eval_is (finite_nucleus_eval fuel par bessel st point) A B C fl /\
    forall V aA aB, exists q, (forall l n, (l <= LA + LB)%nat -> (n <= LA + LB)%nat -> exists c, adaptive 10000 2047 (pair_integrand bessel V LA LB aA aB (minus3 C orgA) (minus3 C orgB) l n) None (par_radial par) (q l n) c) /\
      forall i j, (0 <= i < sv_size A)%Z -> (0 <= j < sv_size B)%Z -> fl V aA aB (i * sv_size B + j)%Z =
        pair_computed q (nth_comp ca i) (nth_comp cb j) (minus3 C orgA) (minus3 C orgB) (pair_k_vector aA aB (minus3 C orgA) (minus3 C orgB)).
Proof.
  intros Hf HI HA HB NA NB H14. set (n := (sv_size A * sv_size B)%Z).
  exists (fun V aA aB k => match radially_local_integrals fuel par bessel st A aA B aB C V (aundef [n]) with Ok M => match aget M [k] with Ok x => x | Fail _ => 0 end | Fail _ => 0 end).
  assert (SB : (0 <= sv_size B)%Z) by (destruct HB as (_ & _ & _ & (E & _) & _); lia).
  split.
  - intros V aA aB buf Db. cbn [finite_nucleus_eval pe_local].
    destruct (local_value fuel par bessel st A B C V aA aB LA LB orgA orgB bra ket ca cb Hf HI HA HB NA NB H14) as (q & _ & HV).
    destruct (HV buf n Db ltac:(unfold n; lia)) as (M1 & E1 & (D1 & _ & G1) & _). destruct (HV (aundef [n]) n eq_refl ltac:(unfold n; lia)) as (M2 & E2 & (_ & _ & G2) & _).
    exists M1. split; [exact E1|]. split; [exact D1|]. intros k Hk. rewrite E2.
    assert (PB : (0 < sv_size B)%Z) by (destruct HB as (_ & _ & _ & (E & _) & _); destruct cb; [contradiction|cbn in E; lia]). pose proof (Z.div_mod k (sv_size B) ltac:(lia)) as Ek. pose proof (Z.mod_pos_bound k (sv_size B) PB) as Hm.
    assert (Hd : (0 <= k / sv_size B < sv_size A)%Z) by (unfold n in Hk; split; [apply Z.div_pos; lia|apply Z.div_lt_upper_bound; nia]).
    set (d := (k / sv_size B)%Z) in *. set (m := (k mod sv_size B)%Z) in *. clearbody d m. assert (Ek' : k = (d * sv_size B + m)%Z) by (rewrite Ek; ring). rewrite Ek', G1, G2 by assumption. reflexivity.
  - intros V aA aB. destruct (local_value fuel par bessel st A B C V aA aB LA LB orgA orgB bra ket ca cb Hf HI HA HB NA NB H14) as (q & Ad & HV). exists q. split; [exact Ad|].
    destruct (HV (aundef [n]) n eq_refl ltac:(unfold n; lia)) as (M2 & E2 & (_ & _ & G2) & _). intros i j Hi Hj. rewrite E2, G2 by assumption. reflexivity.
Qed.

(** ** Sums over pairs *)
Lemma pair_sum_accurate U C (A B : R * R * R) (LA LB : nat) bra ket nA lA mA nB lB mB bessel tol (fl : R -> R -> R) eps Qm : charge_like U -> (LA + LB <= 14)%nat ->
  (forall c a, In (c, a) bra -> 0 < a) -> (forall c a, In (c, a) ket -> 0 < a) ->
  (forall cA aA cB aB, In (cA, aA) bra -> In (cB, aB) ket -> pair_direction aA aB A B C /\ 0 <= eps aA aB /\ 0 <= Qm aA aB /\
     quadrature_accuracy bessel tol U (norm_L (Z.of_nat LA) aA) (norm_L (Z.of_nat LB) aB) aA aB A B C (LA + LB) (eps aA aB) (Qm aA aB)) ->
  (nA + lA + mA = LA)%nat -> (nB + lB + mB = LB)%nat ->
  (forall aA aB, exists q, (forall l n, (l <= LA + LB)%nat -> (n <= LA + LB)%nat -> exists c, adaptive 10000 2047 (pair_integrand bessel U LA LB aA aB (minus3 C A) (minus3 C B) l n) None tol (q l n) c) /\
      fl aA aB = pair_computed q (nA, lA, mA) (nB, lB, mB) (minus3 C A) (minus3 C B) (pair_k_vector aA aB (minus3 C A) (minus3 C B))) ->
  exists w, local_integral U C (phi (Z.of_nat LA) A bra (Z.of_nat nA, Z.of_nat lA, Z.of_nat mA)) (phi (Z.of_nat LB) B ket (Z.of_nat nB, Z.of_nat lB, Z.of_nat mB)) w /\
    Rabs (pair_sum bra ket fl - w) <= contracted_error LA LB (separation A C) (separation B C) bra ket eps Qm.
Proof.
  intros HU H14 HA HB HQ SA SB HF.
  set (F := fun (t u : R * R) x y z => (fst t * fst u) * ((norm_L (Z.of_nat LA) (snd t) * gto A (Z.of_nat nA, Z.of_nat lA, Z.of_nat mA) (snd t) x y z) * (norm_L (Z.of_nat LB) (snd u) * gto B (Z.of_nat nB, Z.of_nat lB, Z.of_nat mB) (snd u) x y z))).
  set (e := fun t u : R * R => let '(cA, aA) := t in let '(cB, aB) := u in
    Rabs (cA * cB) * (if Rlt_dec (Rabs (cA * cB)) (1 / 10 ^ 13) then local_size LA LB (separation A C) (separation B C) (Qm aA aB) else local_error LA LB (separation A C) (separation B C) (eps aA aB) (Qm aA aB))).
  destruct (space_int_sum U C (fun t x y z => lsum (fun u => F t u x y z) ket) (fun t => lsum (fun u => if Rlt_dec (Rabs (fst t * fst u)) 1e-13 then 0 else fst t * fst u * fl (snd t) (snd u)) ket) (fun t => lsum (e t) ket) bra) as (w & Hw & Ew).
  - intros [cA aA] Ht. apply space_int_sum. intros [cB aB] Hu. cbn [fst snd]. destruct (HQ cA aA cB aB Ht Hu) as (Hdir & He & HQm & Hacc). destruct (HF aA aB) as (q & Had & Efl).
    destruct (prim_accurate U C A B LA LB HU H14 aA aB nA lA mA nB lB mB bessel tol q (eps aA aB) (Qm aA aB) (HA _ _ Ht) (HB _ _ Hu) Hdir SA SB He HQm Hacc Had) as (v & Hv & Ev & Sv).
    exists (cA * cB * v). split; [exact (space_int_scal U C _ v (cA * cB) Hv)|]. unfold e.
    destruct (Rlt_dec (Rabs (cA * cB)) 1e-13) as [H1|H1]; destruct (Rlt_dec (Rabs (cA * cB)) (1 / 10 ^ 13)) as [H2|H2]; try lra.
    + replace (0 - cA * cB * v) with (- (cA * cB * v)) by ring. rewrite Rabs_Ropp, (Rabs_mult (cA * cB)). apply Rmult_le_compat_l; [apply Rabs_pos|exact Sv].
    + rewrite Efl, <- Rmult_minus_distr_l, (Rabs_mult (cA * cB)). apply Rmult_le_compat_l; [apply Rabs_pos|exact Ev].
  - exists w. split.
    + apply (space_int_ext U C (fun x y z => lsum (fun t => lsum (fun u => F t u x y z) ket) bra)); [|exact Hw].
      intros x y z. unfold phi. symmetry. rewrite Rmult_comm. apply lsum_in. intros [cA aA] _. rewrite Rmult_comm. apply lsum_in. intros [cB aB] _. unfold F. cbn [fst snd]. ring.
    + unfold pair_sum, contracted_error. eapply Rle_trans; [exact Ew|]. right. apply lsum_ext. intros [cA aA] _. apply lsum_ext. intros [cB aB] _. reflexivity.
Qed.

(** ** The call *)
Lemma finite_nucleus_thm : forall sf fuel par bessel st point h pA pB vA vB ca cb C charge model mp p M eps Qm,
  (14 <= fuel)%nat -> init_tables st -> heap_wf h -> std_shell h pA vA ca -> std_shell h pB vB cb -> fits M vA vB -> (v_L vA + v_L vB <= 14)%Z -> exps_pos vA -> exps_pos vB ->
  params_are mp (model_arity model) p -> good_model sf model p ->
  (forall cA aA cB aB, In (cA, aA) (v_prims vA) -> In (cB, aB) (v_prims vB) -> pair_direction aA aB (v_origin vA) (v_origin vB) C /\ 0 <= eps aA aB /\ 0 <= Qm aA aB /\
     quadrature_accuracy bessel (par_radial par) (model_potential sf model (IZR charge) p) (norm_L (v_L vA) aA) (norm_L (v_L vB) aB) aA aB (v_origin vA) (v_origin vB) C (Z.to_nat (v_L vA + v_L vB)) (eps aA aB) (Qm aA aB)) ->
  exists M', nuc_call sf (finite_nucleus_eval fuel par bessel st point) true h pA pB C charge model mp M = Ok M' /\ adims M' = adims M /\
    (forall i j cA cB, nth_error ca i = Some cA -> nth_error cb j = Some cB -> exists x w, elem_at M' vB i j = Ok x /\
      local_integral (model_potential sf model (IZR charge) p) C (phi_of vA cA) (phi_of vB cB) w /\
      Rabs (x - w) <= contracted_error (Z.to_nat (v_L vA)) (Z.to_nat (v_L vB)) (separation (v_origin vA) C) (separation (v_origin vB) C) (v_prims vA) (v_prims vB) eps Qm) /\
    (forall ix, (forall k, (0 <= k < v_size vA * v_size vB)%Z -> ix <> [k]) -> aget M' ix = aget M ix).
Proof.
  intros sf fuel par bessel st point h pA pB vA vB ca cb C charge model mp p M eps Qm Hf HI HW SA SB (sz & DM & Hsz) H14 PA PB Hp Hg HQ.
  assert (Hm : (1 <= model <= 5)%Z) by (destruct Hg as [(-> & _) | [(-> & _) | [(-> & _) | [(-> & _) | ->]]]]; lia).
  pose proof (model_charge_like sf model (IZR charge) p Hg) as HU. set (V := model_potential sf model (IZR charge) p) in *.
  destruct (std_view h pA vA ca HW SA) as (A & VA & IA & ZA). destruct (std_view h pB vB cb HW SB) as (B & VB & IB & ZB).
  pose proof SA as SA0. pose proof SB as SB0. destruct SA as (_ & LA0 & _). destruct SB as (_ & LB0 & _).
  assert (HLA : (0 <= v_L vA)%Z) by exact LA0. assert (HLB : (0 <= v_L vB)%Z) by exact LB0. clear LA0 LB0.
  pose proof IA as (_ & _ & HPA & (SzA & HCA) & KA). pose proof IB as (_ & _ & HPB & (SzB & HCB) & KB).
  unfold nuc_call. rewrite VA. cbn [bind]. rewrite VB. cbn [bind]. rewrite nuc_as_loop.
  assert (NC : forall L, (0 <= L)%Z -> (0 < n_cart L)%Z) by (intros L HL; unfold n_cart; apply Z.quot_str_pos; nia).
  assert (NA : ca <> []) by (intros ->; pose proof (std_length _ _ _ _ SA0) as X; pose proof (NC _ HLA); cbn in X; lia).
  assert (NB : cb <> []) by (intros ->; pose proof (std_length _ _ _ _ SB0) as X; pose proof (NC _ HLB); cbn in X; lia).
  set (LA := Z.to_nat (v_L vA)). set (LB := Z.to_nat (v_L vB)). assert (ELA : v_L vA = Z.of_nat LA) by (unfold LA; lia). assert (ELB : v_L vB = Z.of_nat LB) by (unfold LB; lia).
  rewrite ELA in IA. rewrite ELB in IB.
  destruct (local_eval_numbers fuel par bessel st point A B C LA LB _ _ _ _ ca cb Hf HI IA IB NA NB ltac:(lia)) as (fl & Hev & Hfl).
  destruct (nuc_loop_ok (nuc_fill sf (finite_nucleus_eval fuel par bessel st point) A B C charge model mp) A B M sz (v_prims vA) (v_prims vB)
    (fun a b k => fl V a b k) HPA HPB DM ltac:(lia) ltac:(lia) ltac:(rewrite ZA, ZB; exact Hsz)) as (M' & E & DM' & G & O).
  { intros i j buf Hi Hj Db _. apply fill_local; assumption. }
  exists M'. split; [exact E|]. split; [exact DM'|]. split.
  2:{ rewrite ZA, ZB in O. exact O. }
  intros i j cA cB Hi Hj.
  assert (Hi' : (i < length ca)%nat) by (apply nth_error_Some; rewrite Hi; discriminate). assert (Hj' : (j < length cb)%nat) by (apply nth_error_Some; rewrite Hj; discriminate).
  pose proof (index_in (sv_size A) (sv_size B) (Z.of_nat i) (Z.of_nat j) ltac:(lia) ltac:(lia)) as Hk.
  unfold elem_at. rewrite <- ZB. rewrite (G _ Hk). eexists. 
  destruct cA as [[nA lA] mA]. destruct cB as [[nB lB] mB]. pose proof (KA _ _ _ (nth_error_In _ _ Hi)) as (A1 & A2 & A3 & A4). pose proof (KB _ _ _ (nth_error_In _ _ Hj)) as (B1 & B2 & B3 & B4).
  destruct (pair_sum_accurate V C (v_origin vA) (v_origin vB) LA LB (v_prims vA) (v_prims vB) (Z.to_nat nA) (Z.to_nat lA) (Z.to_nat mA) (Z.to_nat nB) (Z.to_nat lB) (Z.to_nat mB) bessel (par_radial par)
    (fun a b => fl V a b (Z.of_nat i * sv_size B + Z.of_nat j)%Z) eps Qm) as (w & Hw & Ew); try assumption; try lia.
  - intros c1 a1 c2 a2 I1 I2. destruct (HQ c1 a1 c2 a2 I1 I2) as (Q1 & Q2 & Q3 & Q4). split; [exact Q1|]. split; [exact Q2|]. split; [exact Q3|]. rewrite <- ELA, <- ELB. replace (LA + LB)%nat with (Z.to_nat (v_L vA + v_L vB)) by lia. exact Q4.
  - intros aA aB. destruct (Hfl V aA aB) as (q & Had & Eq). exists q. split; [exact Had|]. rewrite Eq by lia. unfold nth_comp. rewrite !Nat2Z.id, (nth_error_nth ca _ (0, 0, 0)%Z Hi), (nth_error_nth cb _ (0, 0, 0)%Z Hj). reflexivity.
  - exists w. split; [reflexivity|]. split; [|exact Ew]. unfold phi_of. rewrite ELA, ELB. rewrite !Z2Nat.id in Hw by lia. exact Hw.
Qed.

(** the specified element is unique *)
Lemma local_unique_thm : forall U C f g v w, local_integral U C f g v -> local_integral U C f g w -> v = w.
Proof. intros U C f g v w. apply space_int_unique. Qed.

(** bounds as required by the theorem exist for every pair of primitives *)
Lemma max_over (P : nat -> nat -> R -> Prop) N : (forall l n e e', P l n e -> e <= e' -> P l n e') -> (forall l n, exists e, 0 <= e /\ P l n e) ->
  exists e, 0 <= e /\ forall l n, (l <= N)%nat -> (n <= N)%nat -> P l n e.
Proof.
  intros Mo H. assert (F1 : forall K l, exists e, 0 <= e /\ forall n, (n <= K)%nat -> P l n e).
  { intros K l. induction K as [|K (e & He & IH)].
    - destruct (H l 0%nat) as (e & He & P0). exists e. split; [exact He|]. intros n Hn. replace n with 0%nat by lia. exact P0.
    - destruct (H l (S K)) as (e' & He' & P'). exists (e + e'). split; [lra|]. intros n Hn. destruct (Nat.eq_dec n (S K)) as [-> | Hne]; [apply (Mo _ _ _ _ P'); lra|]. apply (Mo _ _ e); [apply IH; lia|lra]. }
  assert (F2 : forall K, exists e, 0 <= e /\ forall l n, (l <= K)%nat -> (n <= N)%nat -> P l n e).
  { intros K. induction K as [|K (e & He & IH)].
    - destruct (F1 N 0%nat) as (e & He & P0). exists e. split; [exact He|]. intros l n Hl Hn. replace l with 0%nat by lia. apply P0, Hn.
    - destruct (F1 N (S K)) as (e' & He' & P'). exists (e + e'). split; [lra|]. intros l n Hl Hn. destruct (Nat.eq_dec l (S K)) as [-> | Hne]; [apply (Mo _ _ e'); [apply P', Hn|lra]|]. apply (Mo _ _ e); [apply IH; lia|lra]. }
  apply F2.
Qed.

Lemma stage_ge s : (Z.of_nat s + 2047 <= stage 2047 s)%Z.
Proof. induction s as [|s IH]; cbn [stage]; lia. Qed.

Lemma accuracy_exists_thm : forall bessel tol U NA NB a b A B C lm, charge_like U -> 0 < a -> 0 < b -> exists eps Qm, 0 <= eps /\ 0 <= Qm /\ quadrature_accuracy bessel tol U NA NB a b A B C lm eps Qm.
Proof.
  intros bessel tol U NA NB a b A B C lm HU Ha Hb.
  destruct (max_over (fun l n e => forall v conv Q,
    adaptive 10000 2047 (fun r => U r * pair_gauss NA NB a b A B C r * bessel (Z.of_nat l) (pair_k a b A B C * r) * r ^ n) None tol v conv ->
    pair_radial U NA NB a b A B C l n Q -> Rabs (v - Q) <= e /\ Rabs Q <= e) lm) as (e & He & HP).
  - intros l n e e' H Hle v conv Q H1 H2. destruct (H v conv Q H1 H2). split; lra.
  - intros l n. destruct (pair_radial_exists U NA NB a b A B C l n HU ltac:(lra)) as (Q & HQ). set (g := fun r => U r * pair_gauss NA NB a b A B C r * bessel (Z.of_nat l) (pair_k a b A B C * r) * r ^ n).
    exists (Rabs Q + zsum 0 10001 (fun s => Rabs (quadrature g (stage 2047 (Z.to_nat s)) - Q))).
    assert (P0 : 0 <= zsum 0 10001 (fun s => Rabs (quadrature g (stage 2047 (Z.to_nat s)) - Q))) by (apply zsum_nonneg; intros; apply Rabs_pos). pose proof (Rabs_pos Q). split; [lra|].
    intros v conv Q' (s & -> & Hs & _) HQ'. rewrite (half_int_unique _ _ _ HQ' HQ). split; [|lra]. pose proof (stage_ge s).
    pose proof (zsum_member 0 10001 (fun s => Rabs (quadrature g (stage 2047 (Z.to_nat s)) - Q)) (Z.of_nat s) (fun k _ => Rabs_pos _) ltac:(lia)) as X. cbv beta in X. rewrite Nat2Z.id in X. lra.
  - exists e, e. split; [exact He|]. split; [exact He|]. intros l n v conv Q Hl Hn H1 H2. exact (HP l n Hl Hn v conv Q H1 H2).
Qed.
