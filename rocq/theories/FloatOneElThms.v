(** * C80: the overlap integrals computed in double precision *)

From Coq Require Import ZArith List Bool Lia Reals Lra.
From Flocq Require Import Core Relative.
From Verif Require Import Base GaussInt GaussProd CartModel CartProofs HeapModel HeapProofs HeapSpec OneElModel OneElProofs OneElPairs OneElSpec OneElInt OneElThms
  FloatBase FloatCalc FloatOneEl FloatOverlap FloatTable FloatContr.
Import ListNotations.
Open Scope R_scope.

(** the API call *)
Definition fl_overlap_call (lexp : R -> res R) (lpow : R -> R -> res R) (h : heap) (pA pB : Z) (M : arr R) : res (arr R) :=
  let* A := view_shell h pA in let* B := view_shell h pB in fl_overlap_integrals lexp lpow A B M.

(** ** Specification *)

(** coefficients, exponents and coordinates as they occur in basis sets and molecules *)
Definition moderate (v : sview) : Prop :=
  (forall c a, In (c, a) (v_prims v) -> Rabs c <= 10 ^ 6 /\ / 10 ^ 8 <= a <= 10 ^ 10) /\ forall k, Rabs (coord3 (v_origin v) k) <= 10 ^ 4.

(** the scale of a pair of primitives: the product of the norms, of (pi / p)^(3/2) and of a
    length for every power of a coordinate *)
Definition len (A B : R * R * R) (a b : R) (k : Z) : R := 2 * (Rabs (coord3 A k) + Rabs (coord3 B k) + / 10 ^ 30) + 3 / sqrt (a + b).
Definition prim_scale (LA LB : Z) (A B : R * R * R) (cA cB : Z * Z * Z) (a b : R) : R :=
  let '(nA, lA, mA) := cA in let '(nB, lB, mB) := cB in
  norm_L LA a * norm_L LB b * sqrt (PI / (a + b)) ^ 3 *
  (len A B a b 0 ^ Z.to_nat (nA + nB) * len A B a b 1 ^ Z.to_nat (lA + lB) * len A B a b 2 ^ Z.to_nat (mA + mB)).
Definition scale (vA vB : sview) (cA cB : Z * Z * Z) : R :=
  lsum (fun '(c, a) => lsum (fun '(c', a') => (Rabs c + / 10 ^ 30) * (Rabs c' + / 10 ^ 30) * prim_scale (v_L vA) (v_L vB) (v_origin vA) (v_origin vB) cA cB a a') (v_prims vB)) (v_prims vA).

Definition npairs (vA vB : sview) : Z := (Z.of_nat (length (v_prims vA)) * Z.of_nat (length (v_prims vB)))%Z.

(** ** Proofs *)
Lemma prim_scale_mag LA LB A B cA cB a b : ov_mag LA LB A B cA cB a b = prim_scale LA LB A B cA cB a b.
Proof.
  destruct cA as [[nA lA] mA]. destruct cB as [[nB lB] mB]. unfold ov_mag, prim_scale. rewrite !nf_norm. unfold Wc, dd, gg, len, eta. ring.
Qed.

Lemma lsum_ext2 {X} (f g : X -> R) l : (forall x, f x = g x) -> lsum f l = lsum g l.
Proof. intros H. induction l as [|x l IH]; [reflexivity|]. cbn [lsum fold_right]. unfold lsum in IH. rewrite IH, H. reflexivity. Qed.

Lemma scale_mag vA vB cA cB : magsum (ov_mag (v_L vA) (v_L vB) (v_origin vA) (v_origin vB) cA cB) (v_prims vA) (v_prims vB) = scale vA vB cA cB.
Proof. unfold magsum, scale. apply lsum_ext2. intros [c a]. apply lsum_ext2. intros [c' a']. rewrite prim_scale_mag. reflexivity. Qed.

Lemma fl_overlap_thm lexp lpow h pA pB vA vB ca cb M : libm_exp lexp -> libm_pow lpow -> heap_wf h ->
  std_shell h pA vA ca -> std_shell h pB vB cb -> (v_L vA <= 9)%Z -> (v_L vB <= 9)%Z -> moderate vA -> moderate vB -> (npairs vA vB <= 10000)%Z -> fits M vA vB ->
  exists M', fl_overlap_call lexp lpow h pA pB M = Ok M' /\ only_matrix M M' vA vB /\
    forall m n cA cB, nth_error ca m = Some cA -> nth_error cb n = Some cB ->
      exists v s, elem_at M' vB m n = Ok v /\ is_int3 (fun x y z => phi_of vA cA x y z * phi_of vB cB x y z) s /\
        Rabs (v - s) <= (100 + 10 * IZR (v_L vA + v_L vB) + 2 * IZR (npairs vA vB)) / 2 ^ 53 * scale vA vB cA cB.
Proof.
  intros HE HP W SA SB LA LB (MA & OA) (MB & OB) NP F.
  assert (XA : exps_pos vA) by (intros c a Hin; destruct (MA c a Hin); lra). assert (XB : exps_pos vB) by (intros c a Hin; destruct (MB c a Hin); lra).
  destruct (overlap_true h pA pB vA vB ca cb M W SA SB LA LB XA XB F) as (Me & Ee & _ & Ve).
  destruct (oneel_ok Overlap h pA pB vA vB ca cb M W SA SB LA LB F) as (Me' & Ee' & _ & Ve'). rewrite Ee in Ee'. injection Ee' as <-.
  destruct F as (sz & D & Hsz).
  destruct (std_view h pA vA ca W SA) as (sA & EA & IA & ZA).
  destruct (std_view h pB vB cb W SB) as (sB & EB & IB & ZB).
  pose proof (std_size _ _ _ _ SA) as NA. pose proof (std_size _ _ _ _ SB) as NB.
  assert (LA0 : (0 <= v_L vA)%Z) by (destruct SA as (_ & H & _); exact H).
  assert (LB0 : (0 <= v_L vB)%Z) by (destruct SB as (_ & H & _); exact H).
  unfold fl_overlap_call. rewrite EA, EB. cbn [bind]. rewrite fl_overlap_contract.
  set (cix := fun k => nth (Z.to_nat (k / sv_size sB)) ca (0, 0, 0)%Z). set (cjx := fun k => nth (Z.to_nat (k mod sv_size sB)) cb (0, 0, 0)%Z).
  assert (PrA : holds_prims sA (v_prims vA)) by apply IA. assert (PrB : holds_prims sB (v_prims vB)) by apply IB.
  assert (NN : (sv_num sA * sv_num sB)%Z = npairs vA vB) by (unfold npairs; rewrite (proj1 PrA), (proj1 PrB); reflexivity).
  assert (LR : 0 <= IZR (v_L vA + v_L vB) <= 18) by (split; apply IZR_le; lia).
  destruct (fl_contract_ok (fl_overlap_shell_pair lexp lpow sA sB) sA sB M (v_prims vA) (v_prims vB) sz
    (fun a b k => ov_mag (v_L vA) (v_L vB) (v_origin vA) (v_origin vB) (cix k) (cjx k) a b)
    (fun a b k => ov_entry (v_L vA) (v_L vB) (v_origin vA) (v_origin vB) (cix k) (cjx k) a b) (Kp (v_L vA) (v_L vB)) PrA PrB D) as (M' & E' & D' & C' & F').
  - intros c a Hin. exact (MA c a Hin).
  - intros c a Hin. exact (MB c a Hin).
  - rewrite NN. exact NP.
  - lia.
  - lia.
  - lia.
  - unfold Kp. lra.
  - intros a b buf Ha Hb Db. destruct (fl_pair_ok sA sB (v_L vA) (v_L vB) (v_origin vA) (v_origin vB) (v_prims vA) (v_prims vB) ca cb IA IB ltac:(lia) ltac:(lia) OA OB lexp lpow HE HP a b buf _ Ha Hb Db ltac:(lia)) as (buf' & Eb & Db' & Cb).
    exists buf'. split; [exact Eb|]. split; [exact Db'|]. intros k Hk. assert (SB0 : (0 < sv_size sB)%Z) by nia.
    pose proof (Z.div_mod k (sv_size sB) ltac:(lia)) as DM. pose proof (Z.mod_pos_bound k (sv_size sB) SB0) as MB0. assert (Q : (0 <= k / sv_size sB < sv_size sA)%Z) by (split; [apply Z.div_pos; lia|apply Z.div_lt_upper_bound; lia]).
    destruct (Cb (Z.to_nat (k / sv_size sB)) (Z.to_nat (k mod sv_size sB))) as (v & Ev & Hv); [lia|lia|]. exists v. split; [|exact Hv]. rewrite !Z2Nat.id in Ev by lia. replace k with (k / sv_size sB * sv_size sB + k mod sv_size sB)%Z at 1 by lia. exact Ev.
  - exists M'. split; [exact E'|]. split; [split; [congruence|]; intros k Hk; apply F'; rewrite ZA, ZB; intros k' Hk' Eq; injection Eq as ->; lia|].
    intros m n cA cB Em En. assert (Hm : (m < length ca)%nat) by (apply nth_error_Some; congruence). assert (Hn : (n < length cb)%nat) by (apply nth_error_Some; congruence).
    destruct (C' (Z.of_nat m * sv_size sB + Z.of_nat n)%Z) as (v & Ev & Hv); [rewrite ZA, ZB; nia|].
    assert (Ic : cix (Z.of_nat m * sv_size sB + Z.of_nat n)%Z = cA).
    { unfold cix. assert (E1 : ((Z.of_nat m * sv_size sB + Z.of_nat n) / sv_size sB)%Z = Z.of_nat m) by (rewrite Z.div_add_l by lia; rewrite Z.div_small by lia; lia). rewrite E1, Nat2Z.id. apply nth_error_nth, Em. }
    assert (Jc : cjx (Z.of_nat m * sv_size sB + Z.of_nat n)%Z = cB).
    { unfold cjx. assert (E2 : ((Z.of_nat m * sv_size sB + Z.of_nat n) mod sv_size sB)%Z = Z.of_nat n) by (rewrite Z.add_comm, Z.mod_add by lia; apply Z.mod_small; lia). rewrite E2, Nat2Z.id. apply nth_error_nth, En. }
    rewrite Ic, Jc in Hv. destruct (Ve m n cA cB Em En) as (s & Es & Is). rewrite (Ve' m n cA cB Em En) in Es. injection Es as Es.
    exists v, s. split; [unfold elem_at; rewrite <- ZB; apply aget_ok; [rewrite D'; apply inb1; rewrite ZB; nia|exact Ev]|]. split; [exact Is|].
    rewrite <- Es. unfold ovalue, oentry. change (fun a b => ov_mag (v_L vA) (v_L vB) (v_origin vA) (v_origin vB) cA cB a b) with (ov_mag (v_L vA) (v_L vB) (v_origin vA) (v_origin vB) cA cB) in Hv. rewrite scale_mag, NN in Hv. pose proof (ap_M _ _ _ _ Hv) as S0. destruct Hv as (_ & Hv). eapply Rle_trans; [exact Hv|]. apply Rmult_le_compat_r; [exact S0|].
    unfold ulp1, Kp, Rdiv. rewrite Rmult_1_l. assert (N0 : 0 <= IZR (npairs vA vB)) by (apply IZR_le; unfold npairs; lia). apply Rmult_le_compat_r; [left; apply Rinv_0_lt_compat, pow_lt; lra|]. lra.
Qed.

(** ** A correctly rounded library meets the assumptions *)
Definition cr_exp (x : R) : res R := fl (exp x).
Definition cr_pow (x y : R) : res R := fl (Rpower x y).

Lemma b64_err_min x : Rabs (b64 x - x) <= ulp1 * 2 * Rabs x + / 2 ^ 1074.
Proof.
  destruct (error_N_FLT radix2 (-1074) 53 ltac:(lia) (fun x => negb (Z.even x)) x) as (eps & e & He & Ht & _ & E).
  unfold b64, b64_exp. change ZnearestE with (Znearest (fun x => negb (Z.even x))). rewrite E. replace (x * (1 + eps) + e - x) with (eps * x + e) by ring.
  eapply Rle_trans; [apply Rabs_triang|]. rewrite Rabs_mult. apply Rplus_le_compat.
  - apply Rmult_le_compat_r; [apply Rabs_pos|]. eapply Rle_trans; [exact He|]. pose proof (bpow_minus 52) as Q. change (- Z.of_nat 52)%Z with (Z.opp 53 + 1)%Z in Q. rewrite Q. unfold ulp1. lra.
  - eapply Rle_trans; [exact Ht|]. pose proof (bpow_minus 1074) as Q. change (- Z.of_nat 1074)%Z with (-1074)%Z in Q. rewrite Q. assert (0 < / 2 ^ 1074) by (apply Rinv_0_lt_compat, pow_lt; lra). lra.
Qed.

Lemma cr_exp_ok : libm_exp cr_exp.
Proof.
  intros x Hx. exists (b64 (exp x)). pose proof (exp_pos x) as P. assert (E1 : exp x <= 3) by (apply Rle_trans with (exp 1); [destruct (Req_dec x 1) as [->|]; [lra|left; apply exp_increasing; lra]|apply exp_le_3]).
  split; [apply fl_ok; rewrite Rabs_pos_eq by lra; apply Rle_trans with (10 ^ 1); [lra|apply Rle_pow; [lra|lia]]|].
  eapply Rle_trans; [apply b64_err_min|]. rewrite (Rabs_pos_eq (exp x)) by lra. assert (/ 2 ^ 1074 <= / 2 ^ 1070) by (apply Rinv_le_contravar; [apply pow_lt; lra|apply Rle_pow; [lra|lia]]). lra.
Qed.

Lemma cr_pow_ok : libm_pow cr_pow.
Proof.
  intros x y Hx (H1 & H2). exists (b64 (Rpower x y)). pose proof (exp_pos (y * ln x)) as P. change (exp (y * ln x)) with (Rpower x y) in P.
  split; [apply fl_ok_hi; rewrite Rabs_pos_eq by lra; unfold hi; lra|].
  pose proof (b64_err_lo (Rpower x y)) as E. rewrite (Rabs_pos_eq (Rpower x y)) in E by lra. eapply Rle_trans; [exact E|]. pose proof ulp1_pos as U. unfold lo. assert (ulp1 * (1 / 1000) * / 2 ^ 1000 <= ulp1 * (1 / 1000) * Rpower x y) by (apply Rmult_le_compat_l; lra). assert (0 <= ulp1 * Rpower x y) by (apply Rmult_le_pos; lra). lra.
Qed.

(** the scale of the self-overlap of an s function with coefficient 1 *)
Lemma scale_s v a : v_L v = 0%Z -> v_prims v = [(1, a)] -> 0 < a -> scale v v (0, 0, 0)%Z (0, 0, 0)%Z <= 1001 / 1000.
Proof.
  intros HL HPr Ha. unfold scale. rewrite HPr. cbn [lsum fold_right]. rewrite !Rplus_0_r. unfold prim_scale. rewrite HL. cbn [Z.add Z.to_nat pow]. rewrite !Rmult_1_r.
  unfold norm_L. replace (0 / 2) with 0 by field. rewrite !Rpower_O by lra. rewrite !Rmult_1_r. pose proof PI_RGT_0 as HPi.
  assert (Q : 0 < 2 * a / PI) by (unfold Rdiv; apply Rmult_lt_0_compat; [lra|apply Rinv_0_lt_compat, HPi]).
  assert (Q2 : 0 < PI / (a + a)) by (unfold Rdiv; apply Rmult_lt_0_compat; [lra|apply Rinv_0_lt_compat; lra]).
  rewrite <- Rpower_plus. rewrite <- (Rpower_sqrt (PI / (a + a))) by exact Q2. rewrite <- !Rpower_plus.
  replace (PI / (a + a)) with (/ (2 * a / PI)) by (field; lra). replace (Rpower (/ (2 * a / PI)) (/ 2 + (/ 2 + / 2))) with (Rpower (2 * a / PI) (- (3 / 4 + 3 / 4))) by (unfold Rpower; rewrite ln_Rinv by exact Q; f_equal; field).
  rewrite Rpower_Ropp, Rinv_r by (pose proof (exp_pos ((3 / 4 + 3 / 4) * ln (2 * a / PI))); unfold Rpower; lra). rewrite Rabs_R1. lra.
Qed.

Lemma fl_s_normalised lexp lpow h p v comps a M : libm_exp lexp -> libm_pow lpow -> heap_wf h -> std_shell h p v comps -> v_L v = 0%Z -> v_prims v = [(1, a)] -> moderate v -> fits M v v ->
  exists M' x, fl_overlap_call lexp lpow h p p M = Ok M' /\ elem_at M' v 0 0 = Ok x /\ Rabs (x - 1) <= 12 / 10 ^ 15.
Proof.
  intros HE HP W S HL HPr Mo F. assert (Ha : 0 < a) by (destruct Mo as (Mo & _); destruct (Mo 1 a ltac:(rewrite HPr; left; reflexivity)); lra).
  assert (NP : npairs v v = 1%Z) by (unfold npairs; rewrite HPr; reflexivity).
  assert (XA : exps_pos v) by (intros c b Hin; destruct Mo as (Mo & _); destruct (Mo c b Hin); lra).
  destruct (fl_overlap_thm lexp lpow h p p v v comps comps M HE HP W S S ltac:(lia) ltac:(lia) Mo Mo ltac:(lia) F) as (M' & E & _ & V).
  destruct (overlap_true h p p v v comps comps M W S S ltac:(lia) ltac:(lia) XA XA F) as (Me & Ee & _ & Ve).
  pose proof (s_normalised h p v comps a M Me W S HL HPr Ha F Ee) as S1.
  assert (C0 : nth_error comps 0 = Some (0, 0, 0)%Z).
  { pose proof (std_size _ _ _ _ S) as N. destruct S as (_ & _ & Hsz & (ord & HC) & _). rewrite HL in *. change (n_cart 0) with 1%Z in Hsz. destruct comps as [|[[n l] m] [|? ?]]; cbn [length] in N; try lia. cbn [nth_error].
    destruct (components_complete ord 0 ltac:(lia)) as (l' & El & _ & Hi & _). rewrite HC in El. injection El as <-. assert (Hin : In (n, l, m) [(n, l, m)]) by (left; reflexivity). apply Hi in Hin. f_equal. f_equal; [f_equal|]; lia. }
  destruct (V 0%nat 0%nat _ _ C0 C0) as (x & s & Ex & Is & B). destruct (Ve 0%nat 0%nat _ _ C0 C0) as (s' & Es & Is'). rewrite Es in S1. injection S1 as ->. pose proof (is_int3_unique _ _ _ Is Is') as ->.
  exists M', x. split; [exact E|]. split; [exact Ex|]. eapply Rle_trans; [exact B|]. rewrite HL, NP. cbn [Z.add]. pose proof (scale_s v a HL HPr Ha) as SS.
  apply Rle_trans with ((100 + 10 * 0 + 2 * 1) / 2 ^ 53 * (1001 / 1000)); [apply Rmult_le_compat_l; lra|lra].
Qed.
