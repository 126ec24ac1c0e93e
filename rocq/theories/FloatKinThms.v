(** * C93: the kinetic energy and momentum integrals computed in double precision *)

From Coq Require Import ZArith List Bool Lia Reals Lra.
From Verif Require Import Base GaussInt GaussProd CartModel CartProofs HeapModel HeapProofs HeapSpec OneElModel OneElProofs OneElPairs OneElSpec OneElInt OneElThms
  FloatBase FloatCalc FloatOneEl FloatOverlap FloatTable FloatContr FloatOneElThms FloatKinModel FloatKin FloatKinPairs.
Import ListNotations.
Open Scope R_scope.

(** the API calls *)
Definition fl_kinetic_call (lexp : R -> res R) (lpow : R -> R -> res R) (h : heap) (pA pB : Z) (M : arr R) : res (arr R) :=
  let* A := view_shell h pA in let* B := view_shell h pB in fl_kinetic_integrals lexp lpow A B M.
Definition fl_momentum_call (lexp : R -> res R) (lpow : R -> R -> res R) (h : heap) (pA pB : Z) (Ms : arr R * arr R * arr R) : res (arr R * arr R * arr R) :=
  let* A := view_shell h pA in let* B := view_shell h pB in fl_momentum_integrals lexp lpow A B Ms.

(** ** Specification *)

(** what one derivative of a primitive of exponent a with power n of a coordinate costs, over
    lengths up to l *)
Definition deriv_scale (a : R) (n : Z) (l : R) : R := 2 * a * l + IZR n / l.

Definition comp (c : Z * Z * Z) (k : Z) : Z := let '(n, l, m) := c in if (k =? 0)%Z then n else if (k =? 1)%Z then l else m.

Definition kin_scale (vA vB : sview) (cA cB : Z * Z * Z) : R :=
  let lap a b k := deriv_scale a (comp cA k) (len (v_origin vA) (v_origin vB) a b k) ^ 2 + 2 * a in
  lsum (fun '(c, a) => lsum (fun '(c', a') => (Rabs c + / 10 ^ 30) * (Rabs c' + / 10 ^ 30) *
    (prim_scale (v_L vA) (v_L vB) (v_origin vA) (v_origin vB) cA cB a a' * (1 / 2 * (lap a a' 0%Z + lap a a' 1%Z + lap a a' 2%Z)))) (v_prims vB)) (v_prims vA).

Definition mom_scale (k : Z) (vA vB : sview) (cA cB : Z * Z * Z) : R :=
  lsum (fun '(c, a) => lsum (fun '(c', a') => (Rabs c + / 10 ^ 30) * (Rabs c' + / 10 ^ 30) *
    (prim_scale (v_L vA) (v_L vB) (v_origin vA) (v_origin vB) cA cB a a' * deriv_scale a (comp cA k) (len (v_origin vA) (v_origin vB) a a' k))) (v_prims vB)) (v_prims vA).

Definition nth3 {X} (k : Z) (t : X * X * X) : X := let '(x, y, z) := t in if (k =? 0)%Z then x else if (k =? 1)%Z then y else z.

(** ** Proofs *)
Lemma W_len A B a b k : Wc a b A B k = len A B a b k.
Proof. unfold Wc, dd, gg, len, eta. ring. Qed.

Lemma kin_scale_mag vA vB cA cB :
  magsum (fun a b => kin_mag (v_L vA) (v_L vB) (v_origin vA) (v_origin vB) a b cA cB) (v_prims vA) (v_prims vB) = kin_scale vA vB cA cB.
Proof.
  unfold magsum, kin_scale. cbv zeta. apply lsum_ext2. intros [c a]. apply lsum_ext2. intros [c' a']. unfold cmag, eta. f_equal.
  destruct cA as [[nA lA] mA]. destruct cB as [[nB lB] mB]. unfold kin_mag, prim_scale, col, f2, f1, deriv_scale, comp. cbv beta zeta. cbn [Z.eqb Pos.eqb]. rewrite !nf_norm, !W_len. ring.
Qed.

Lemma mom_scale_mag k vA vB cA cB : (0 <= k < 3)%Z ->
  magsum (fun a b => mom_mag (v_L vA) (v_L vB) (v_origin vA) (v_origin vB) a b k cA cB) (v_prims vA) (v_prims vB) = mom_scale k vA vB cA cB.
Proof.
  intros Hk. unfold magsum, mom_scale. cbv zeta. apply lsum_ext2. intros [c a]. apply lsum_ext2. intros [c' a']. unfold cmag, eta. f_equal.
  destruct cA as [[nA lA] mA]. destruct cB as [[nB lB] mB]. assert (Ek : k = 0%Z \/ k = 1%Z \/ k = 2%Z) by lia.
  destruct Ek as [-> | [-> | ->]]; unfold mom_mag, pmag, prim_scale, col, f1, deriv_scale, comp; cbn [Z.eqb Pos.eqb]; rewrite !nf_norm, !W_len; ring.
Qed.

(** a matrix filled with rounded values *)
Lemma fill_ap sA sB ca cb (vv : Z -> Z -> Z -> Z -> Z -> Z -> res R) (Q : Z * Z * Z -> Z * Z * Z -> R -> Prop) M d :
  holds_comps sA ca -> holds_comps sB cb -> adims M = [d] -> (sv_size sA * sv_size sB <= d)%Z ->
  (forall n1 l1 m1 n2 l2 m2, In (n1, l1, m1) ca -> In (n2, l2, m2) cb -> exists v, vv n1 l1 m1 n2 l2 m2 = Ok v /\ Q (n1, l1, m1) (n2, l2, m2) v) ->
  exists M', fill_components sA sB vv M = Ok M' /\ adims M' = [d] /\
    forall m n, (m < length ca)%nat -> (n < length cb)%nat -> exists v, acell M' [(Z.of_nat m * sv_size sB + Z.of_nat n)%Z] = Some v /\ Q (nth m ca (0, 0, 0)%Z) (nth n cb (0, 0, 0)%Z) v.
Proof.
  intros CA CB D Hd G.
  destruct (fill_components_ok sA sB ca cb vv (fun x y => let '(n1, l1, m1) := x in let '(n2, l2, m2) := y in getR (vv n1 l1 m1 n2 l2 m2)) M d) as (M' & E' & D' & C' & _); [exact CA|exact CB|exact D|exact Hd| |].
  - intros na la' ma nb lb' mb Ia Ib. destruct (G _ _ _ _ _ _ Ia Ib) as (v & Ev & _). rewrite Ev. reflexivity.
  - exists M'. split; [exact E'|]. split; [exact D'|]. intros m n Hm Hn. rewrite (C' m n Hm Hn).
    pose proof (nth_In ca (0, 0, 0)%Z Hm) as I1. pose proof (nth_In cb (0, 0, 0)%Z Hn) as I2.
    destruct (nth m ca (0, 0, 0)%Z) as [[n1 l1] m1]. destruct (nth n cb (0, 0, 0)%Z) as [[n2 l2] m2]. destruct (G _ _ _ _ _ _ I1 I2) as (v & Ev & Hv). rewrite Ev. exists v. split; [reflexivity|exact Hv].
Qed.

Section Shells.
Variables (sA sB : vshell) (LA LB : Z) (A B : R * R * R) (la lb : list (R * R)) (ca cb : list (Z * Z * Z)).
Hypothesis HA : vshell_is sA LA A la ca.
Hypothesis HB : vshell_is sB LB B lb cb.
Hypothesis LA0 : (0 <= LA <= 9)%Z.
Hypothesis LB0 : (0 <= LB <= 9)%Z.
Hypothesis PA : okpt A.
Hypothesis PB : okpt B.
Variables (lexp : R -> res R) (lpow : R -> R -> res R).
Hypothesis HE : libm_exp lexp.
Hypothesis HP : libm_pow lpow.

Definition pair_good (pair : R -> R -> arr R -> res (arr R)) (mg : R -> R -> Z * Z * Z -> Z * Z * Z -> R) (entry : Z * Z * Z -> Z * Z * Z -> R -> R -> R) (K : R) : Prop :=
  forall aA aB M d, okexp aA -> okexp aB -> adims M = [d] -> (sv_size sA * sv_size sB <= d)%Z ->
  exists M', pair aA aB M = Ok M' /\ adims M' = [d] /\
    forall m n, (m < length ca)%nat -> (n < length cb)%nat -> exists v, acell M' [(Z.of_nat m * sv_size sB + Z.of_nat n)%Z] = Some v /\
      mag10 233 (mg aA aB (nth m ca (0, 0, 0)%Z) (nth n cb (0, 0, 0)%Z)) /\
      ap K (mg aA aB (nth m ca (0, 0, 0)%Z) (nth n cb (0, 0, 0)%Z)) (entry (nth m ca (0, 0, 0)%Z) (nth n cb (0, 0, 0)%Z) aA aB) v.

Lemma table_get T dim l1 l2 (Q : Z -> Z -> Z -> R -> Prop) : adims T = [3; dim; dim]%Z -> (l1 < dim)%Z -> (l2 < dim)%Z ->
  (forall c i j, (0 <= c < 3)%Z -> (0 <= i <= l1)%Z -> (0 <= j <= l2)%Z -> exists v, acell T [c; i; j] = Some v /\ Q c i j v) ->
  forall c i j, (0 <= c < 3)%Z -> (0 <= i <= l1)%Z -> (0 <= j <= l2)%Z -> exists v, aget T [c; i; j] = Ok v /\ Q c i j v.
Proof. intros D H1 H2 C c i j Hc Hi Hj. destruct (C c i j Hc Hi Hj) as (v & Ev & Hv). exists v. split; [|exact Hv]. apply aget_ok; [|exact Ev]. rewrite D. apply inb3. lia. Qed.

Lemma fl_kin_pair : (LA + LB <= 14)%Z -> pair_good (fl_kinetic_shell_pair lexp lpow sA sB) (kin_mag LA LB A B) (kin_entry LA LB A B) (Kkin LA LB).
Proof.
  intros RS aA aB M d OA OB D Hd. destruct HA as (EA & GA & QA & CA & KA). destruct HB as (EB & GB & QB & CB & KB).
  unfold fl_kinetic_shell_pair. rewrite EA, EB, GA, GB. change (max_basis_L + 2)%Z with 12%Z.
  destruct (fl_norm_ok lpow LA aA HP OA LA0) as (_ & NA & -> & HNA). destruct (fl_norm_ok lpow LB aB HP OB LB0) as (_ & NB & -> & HNB). cbn [bind].
  destruct (fl_table_ok lexp 12 (LA + 2) (LB + 2) aA aB A B HE OA OB PA PB) as (T & -> & DT & CT); [lia..|]. cbn [bind].
  destruct (fl_d_table_ok (fl_d2_cell T aA) LA LB (okD2 aA aB A B) LA0 LB0) as (D2 & -> & DD & CD).
  { intros c i j Hc Hi Hj. apply (fl_d2_ok aA aB A B OA OB PA PB T 12 LA LB); try assumption; lia. } cbn [bind].
  apply (fill_ap sA sB ca cb _ (fun x y v => mag10 233 (kin_mag LA LB A B aA aB x y) /\ ap (Kkin LA LB) (kin_mag LA LB A B aA aB x y) (kin_entry LA LB A B x y aA aB) v)); try assumption.
  intros n1 l1 m1 n2 l2 m2 I1 I2. apply KA in I1. apply KB in I2. apply fl_kin_value_ok; try assumption; try lia.
  - intros c i j Hc Hi Hj. apply (table_get T 12 (LA + 2) (LB + 2) _ DT); try assumption; lia.
  - intros c i j Hc Hi Hj. apply (table_get D2 10 LA LB _ DD); try assumption; lia.
Qed.

(** one of the three momentum matrices *)
Definition mom_part (k : Z) (alpha_A alpha_B : R) (b : arr R) : res (arr R) :=
  let* N_A := fl_norm_factor lpow (sv_L sA) 0 0 alpha_A in
  let* N_B := fl_norm_factor lpow (sv_L sB) 0 0 alpha_B in
  let* T := fl_os_table lexp (max_basis_L + 1) (sv_L sA + 1) (sv_L sB + 1) alpha_A alpha_B (sv_org sA) (sv_org sB) in
  let* D1 := fl_d_table (fl_d1_cell T alpha_A) (sv_L sA) (sv_L sB) in
  let sel c := if (k =? c)%Z then D1 else T in
  fill_components sA sB (fl_mom_value N_A N_B (sel 0%Z) (sel 1%Z) (sel 2%Z)) b.

Lemma momentum_parts aA aB b0 b1 b2 x y z : mom_part 0 aA aB b0 = Ok x -> mom_part 1 aA aB b1 = Ok y -> mom_part 2 aA aB b2 = Ok z ->
  fl_momentum_shell_pair lexp lpow sA sB aA aB (b0, b1, b2) = Ok (x, y, z).
Proof.
  unfold mom_part, fl_momentum_shell_pair. destruct (fl_norm_factor lpow (sv_L sA) 0 0 aA) as [NA|]; [|discriminate]. destruct (fl_norm_factor lpow (sv_L sB) 0 0 aB) as [NB|]; [|discriminate]. cbn [bind].
  destruct (fl_os_table _ _ _ _ _ _ _ _) as [T|]; [|discriminate]. cbn [bind]. destruct (fl_d_table _ _ _) as [D1|]; [|discriminate]. cbn [bind]. cbv zeta. cbn [Z.eqb Pos.eqb]. intros -> -> ->. reflexivity.
Qed.

Lemma fl_mom_pair k : (0 <= k < 3)%Z -> (LA + LB <= 16)%Z -> pair_good (mom_part k) (fun a b => mom_mag LA LB A B a b k) (mom_entry LA LB A B k) (Kmom LA LB).
Proof.
  intros Hk RS aA aB M d OA OB D Hd. destruct HA as (EA & GA & QA & CA & KA). destruct HB as (EB & GB & QB & CB & KB).
  unfold mom_part. rewrite EA, EB, GA, GB. change (max_basis_L + 1)%Z with 11%Z.
  destruct (fl_norm_ok lpow LA aA HP OA LA0) as (_ & NA & -> & HNA). destruct (fl_norm_ok lpow LB aB HP OB LB0) as (_ & NB & -> & HNB). cbn [bind].
  destruct (fl_table_ok lexp 11 (LA + 1) (LB + 1) aA aB A B HE OA OB PA PB) as (T & -> & DT & CT); [lia..|]. cbn [bind].
  destruct (fl_d_table_ok (fl_d1_cell T aA) LA LB (okD1 aA aB A B) LA0 LB0) as (D1 & -> & DD & CD).
  { intros c i j Hc Hi Hj. apply (fl_d1_ok aA aB A B OA OB PA PB T 11 LA LB); try assumption; lia. } cbn [bind]. cbv zeta.
  apply (fill_ap sA sB ca cb _ (fun x y v => mag10 233 (mom_mag LA LB A B aA aB k x y) /\ ap (Kmom LA LB) (mom_mag LA LB A B aA aB k x y) (mom_entry LA LB A B k x y aA aB) v)); try assumption.
  intros n1 l1 m1 n2 l2 m2 I1 I2. apply KA in I1. apply KB in I2. apply fl_mom_value_ok; try assumption; try lia.
  intros c t i j Hc -> Hi Hj. unfold pmag, eK, pick.
  assert (Es : (if (c =? 0)%Z then if (k =? 0)%Z then D1 else T else if (c =? 1)%Z then if (k =? 1)%Z then D1 else T else if (k =? 2)%Z then D1 else T) = if (k =? c)%Z then D1 else T).
  { assert (Ec : c = 0%Z \/ c = 1%Z \/ c = 2%Z) by lia. destruct Ec as [-> | [-> | ->]]; reflexivity. }
  rewrite Es. destruct (k =? c)%Z.
  - destruct (table_get D1 10 LA LB (okD1 aA aB A B) DD ltac:(lia) ltac:(lia) CD c i j Hc Hi Hj) as (v & Ev & Hv). exists v. split; [exact Ev|exact Hv].
  - destruct (table_get T 11 (LA + 1) (LB + 1) _ DT ltac:(lia) ltac:(lia) CT c i j Hc ltac:(lia) ltac:(lia)) as (v & Ev & Hv). exists v. split; [exact Ev|]. rewrite Rplus_0_r. exact Hv.
Qed.

(** ** Contraction *)
Lemma fl_contract_std pair mg entry K M sz : pair_good pair mg entry K -> 0 <= K <= 10 ^ 3 ->
  (forall c a, In (c, a) la -> okcoef c /\ okexp a) -> (forall c a, In (c, a) lb -> okcoef c /\ okexp a) -> (Z.of_nat (length la) * Z.of_nat (length lb) <= 10000)%Z ->
  adims M = [sz] -> (sv_size sA * sv_size sB <= sz)%Z ->
  exists M', fl_contract_loop pair sA sB M = Ok M' /\ adims M' = [sz] /\
    (forall ix, (forall k, (0 <= k < sv_size sA * sv_size sB)%Z -> ix <> [k]) -> acell M' ix = acell M ix) /\
    forall m n cA cB, nth_error ca m = Some cA -> nth_error cb n = Some cB ->
      exists v, acell M' [(Z.of_nat m * sv_size sB + Z.of_nat n)%Z] = Some v /\
        ap (K + 204 / 100 + 101 / 100 * IZR (Z.of_nat (length la) * Z.of_nat (length lb))) (magsum (fun a b => mg a b cA cB) la lb) (contracted (entry cA cB) la lb) v.
Proof.
  intros HG HK MA MB NP D Hsz. assert (PrA : holds_prims sA la) by apply HA. assert (PrB : holds_prims sB lb) by apply HB.
  assert (SA : sv_size sA = Z.of_nat (length ca)) by (destruct HA as (_ & _ & _ & CA & _); apply (proj1 CA)). assert (SB : sv_size sB = Z.of_nat (length cb)) by (destruct HB as (_ & _ & _ & CB & _); apply (proj1 CB)).
  set (cix := fun k => nth (Z.to_nat (k / sv_size sB)) ca (0, 0, 0)%Z). set (cjx := fun k => nth (Z.to_nat (k mod sv_size sB)) cb (0, 0, 0)%Z).
  assert (NN : (sv_num sA * sv_num sB)%Z = (Z.of_nat (length la) * Z.of_nat (length lb))%Z) by (rewrite (proj1 PrA), (proj1 PrB); reflexivity).
  destruct (fl_contract_ok pair sA sB M la lb sz (fun a b k => mg a b (cix k) (cjx k)) (fun a b k => entry (cix k) (cjx k) a b) K PrA PrB D MA MB) as (M' & E' & D' & C' & F'); try lia; try exact HK.
  - intros a b buf Ha Hb Db. destruct (HG a b buf _ Ha Hb Db ltac:(lia)) as (buf' & Eb & Db' & Cb).
    exists buf'. split; [exact Eb|]. split; [exact Db'|]. intros k Hk. assert (SB0 : (0 < sv_size sB)%Z) by nia.
    pose proof (Z.div_mod k (sv_size sB) ltac:(lia)) as DM. pose proof (Z.mod_pos_bound k (sv_size sB) SB0) as MB0. assert (Q : (0 <= k / sv_size sB < sv_size sA)%Z) by (split; [apply Z.div_pos; lia|apply Z.div_lt_upper_bound; lia]).
    destruct (Cb (Z.to_nat (k / sv_size sB)) (Z.to_nat (k mod sv_size sB))) as (v & Ev & Hv); [lia|lia|]. exists v. split; [|exact Hv]. rewrite !Z2Nat.id in Ev by lia. replace k with (k / sv_size sB * sv_size sB + k mod sv_size sB)%Z at 1 by lia. exact Ev.
  - exists M'. split; [exact E'|]. split; [exact D'|]. split; [exact F'|]. intros m n cA cB Em En.
    assert (Hm : (m < length ca)%nat) by (apply nth_error_Some; congruence). assert (Hn : (n < length cb)%nat) by (apply nth_error_Some; congruence).
    destruct (C' (Z.of_nat m * sv_size sB + Z.of_nat n)%Z) as (v & Ev & Hv); [nia|]. exists v. split; [exact Ev|].
    assert (Ic : cix (Z.of_nat m * sv_size sB + Z.of_nat n)%Z = cA).
    { unfold cix. assert (E1 : ((Z.of_nat m * sv_size sB + Z.of_nat n) / sv_size sB)%Z = Z.of_nat m) by (rewrite Z.div_add_l by lia; rewrite Z.div_small by lia; lia). rewrite E1, Nat2Z.id. apply nth_error_nth, Em. }
    assert (Jc : cjx (Z.of_nat m * sv_size sB + Z.of_nat n)%Z = cB).
    { unfold cjx. assert (E2 : ((Z.of_nat m * sv_size sB + Z.of_nat n) mod sv_size sB)%Z = Z.of_nat n) by (rewrite Z.add_comm, Z.mod_add by lia; apply Z.mod_small; lia). rewrite E2, Nat2Z.id. apply nth_error_nth, En. }
    rewrite Ic, Jc, NN in Hv. exact Hv.
Qed.

(** the three matrices of the momentum routine are contracted side by side *)
Lemma loop_side {S1 S2 S3 S} (P : S1 -> S2 -> S3 -> S) lo hi b1 b2 b3 b :
  (forall i s1 s2 s3 t1 t2 t3, b1 i s1 = Ok t1 -> b2 i s2 = Ok t2 -> b3 i s3 = Ok t3 -> b i (P s1 s2 s3) = Ok (P t1 t2 t3)) ->
  forall s1 s2 s3 t1 t2 t3, for_range lo hi b1 s1 = Ok t1 -> for_range lo hi b2 s2 = Ok t2 -> for_range lo hi b3 s3 = Ok t3 -> for_range lo hi b (P s1 s2 s3) = Ok (P t1 t2 t3).
Proof.
  intros H. unfold for_range. generalize (Z.to_nat (hi - lo)) as n. intros n. revert lo. induction n as [|n IH]; intros l s1 s2 s3 t1 t2 t3; cbn [loop_up].
  - intros E1 E2 E3. injection E1 as ->. injection E2 as ->. injection E3 as ->. reflexivity.
  - destruct (b1 l s1) as [u1|] eqn:U1; cbn [bind]; [|discriminate]. destruct (b2 l s2) as [u2|] eqn:U2; cbn [bind]; [|discriminate]. destruct (b3 l s3) as [u3|] eqn:U3; cbn [bind]; [|discriminate].
    intros E1 E2 E3. rewrite (H _ _ _ _ _ _ _ U1 U2 U3). cbn [bind]. apply IH; assumption.
Qed.

Lemma fl_momentum_contract M0 M1 M2 x y z :
  fl_contract_loop (mom_part 0) sA sB M0 = Ok x -> fl_contract_loop (mom_part 1) sA sB M1 = Ok y -> fl_contract_loop (mom_part 2) sA sB M2 = Ok z ->
  fl_momentum_integrals lexp lpow sA sB (M0, M1, M2) = Ok (x, y, z).
Proof.
  unfold fl_contract_loop, fl_momentum_integrals. cbv zeta. set (size := (sv_size sA * sv_size sB)%Z).
  destruct (memset0 size M0) as [m0|]; cbn [bind]; [|discriminate]. destruct (memset0 size M1) as [m1|]; cbn [bind]; [|discriminate]. destruct (memset0 size M2) as [m2|]; cbn [bind]; [|discriminate].
  match goal with |- context [for_range 0 (sv_num sA) ?b (m0, aconst [size] 0)] => destruct (for_range 0 (sv_num sA) b (m0, aconst [size] 0)) as [[x0 u0]|] eqn:E0; cbn [bind]; [|discriminate] end.
  intros E; injection E as ->.
  match goal with |- context [for_range 0 (sv_num sA) ?b (m1, aconst [size] 0)] => destruct (for_range 0 (sv_num sA) b (m1, aconst [size] 0)) as [[x1 u1]|] eqn:E1; cbn [bind]; [|discriminate] end.
  intros E; injection E as ->.
  match goal with |- context [for_range 0 (sv_num sA) ?b (m2, aconst [size] 0)] => destruct (for_range 0 (sv_num sA) b (m2, aconst [size] 0)) as [[x2 u2]|] eqn:E2; cbn [bind]; [|discriminate] end.
  intros E; injection E as ->.
  pose (P := fun (s1 s2 s3 : arr R * arr R) => (fst s1, fst s2, fst s3, (snd s1, snd s2, snd s3))).
  change (m0, m1, m2, (aconst [size] 0, aconst [size] 0, aconst [size] 0)) with (P (m0, aconst [size] 0) (m1, aconst [size] 0) (m2, aconst [size] 0)).
  erewrite (loop_side P); [| |exact E0|exact E1|exact E2]; [reflexivity|].
  intros i s1 s2 s3 t1 t2 t3. apply (loop_side P). clear. intros j [a1 b1] [a2 b2] [a3 b3] t1 t2 t3. unfold P. cbn [fst snd].
  destruct (aget (sv_alpha sA) [i]) as [ai|]; cbn [bind]; [|discriminate]. destruct (aget (sv_alpha sB) [j]) as [aj|]; cbn [bind]; [|discriminate]. destruct (aget (sv_coef sA) [i]) as [ci|]; cbn [bind]; [|discriminate]. destruct (aget (sv_coef sB) [j]) as [cj|]; cbn [bind]; [|discriminate].
  destruct (mom_part 0 ai aj b1) as [c1|] eqn:P1; cbn [bind]; [|discriminate]. destruct (mom_part 1 ai aj b2) as [c2|] eqn:P2; cbn [bind]; [|discriminate]. destruct (mom_part 2 ai aj b3) as [c3|] eqn:P3; cbn [bind]; [|discriminate].
  rewrite (momentum_parts _ _ _ _ _ _ _ _ P1 P2 P3). cbn [bind]. destruct (fl (ci * cj)) as [cc|]; cbn [bind]; [|discriminate].
  fold size. destruct (fl_daxpy size cc c1 a1) as [r1|]; cbn [bind]; [|discriminate]. destruct (fl_daxpy size cc c2 a2) as [r2|]; cbn [bind]; [|discriminate]. destruct (fl_daxpy size cc c3 a3) as [r3|]; cbn [bind]; [|discriminate].
  intros E1 E2 E3. injection E1 as <-. injection E2 as <-. injection E3 as <-. reflexivity.
Qed.

End Shells.

Lemma fl_kinetic_contract lexp lpow A B M : fl_kinetic_integrals lexp lpow A B M = fl_contract_loop (fl_kinetic_shell_pair lexp lpow A B) A B M.
Proof. reflexivity. Qed.

Lemma round_final K n s v t Mg : ap (K + 204 / 100 + 101 / 100 * IZR n) Mg s v -> (0 <= n)%Z -> K + 204 / 100 <= t -> Rabs (v - s) <= (t + 2 * IZR n) / 2 ^ 53 * Mg.
Proof.
  intros H Hn Ht. pose proof (ap_M _ _ _ _ H) as S0. destruct H as (_ & Hv). eapply Rle_trans; [exact Hv|]. apply Rmult_le_compat_r; [exact S0|].
  unfold ulp1, Rdiv. rewrite Rmult_1_l. assert (N0 : 0 <= IZR n) by (apply IZR_le; lia). apply Rmult_le_compat_r; [left; apply Rinv_0_lt_compat, pow_lt; lra|]. lra.
Qed.

Lemma fl_kinetic_thm lexp lpow h pA pB vA vB ca cb M : libm_exp lexp -> libm_pow lpow -> heap_wf h ->
  std_shell h pA vA ca -> std_shell h pB vB cb -> (v_L vA <= 9)%Z -> (v_L vB <= 9)%Z -> (v_L vA + v_L vB <= 14)%Z -> moderate vA -> moderate vB -> (npairs vA vB <= 10000)%Z -> fits M vA vB ->
  exists M', fl_kinetic_call lexp lpow h pA pB M = Ok M' /\ only_matrix M M' vA vB /\
    forall m n cA cB, nth_error ca m = Some cA -> nth_error cb n = Some cB ->
      exists v lap t, elem_at M' vB m n = Ok v /\ is_laplacian (phi_of vB cB) lap /\ is_int3 (fun x y z => phi_of vA cA x y z * (- (1 / 2) * lap x y z)) t /\
        Rabs (v - t) <= (130 + 10 * IZR (v_L vA + v_L vB) + 2 * IZR (npairs vA vB)) / 2 ^ 53 * kin_scale vA vB cA cB.
Proof.
  intros HE HP W SA SB LA LB LS (MA & OA) (MB & OB) NP F.
  assert (XA : exps_pos vA) by (intros c a Hin; destruct (MA c a Hin); lra). assert (XB : exps_pos vB) by (intros c a Hin; destruct (MB c a Hin); lra).
  destruct (kinetic_true h pA pB vA vB ca cb M W SA SB LA LB XA XB F) as (Me & Ee & _ & Ve).
  destruct (oneel_ok Kinetic h pA pB vA vB ca cb M W SA SB LA LB F) as (Me' & Ee' & _ & Ve'). rewrite Ee in Ee'. injection Ee' as <-.
  destruct F as (sz & D & Hsz).
  destruct (std_view h pA vA ca W SA) as (sA & EA & IA & ZA).
  destruct (std_view h pB vB cb W SB) as (sB & EB & IB & ZB).
  pose proof (std_size _ _ _ _ SA) as NA. pose proof (std_size _ _ _ _ SB) as NB.
  assert (LA0 : (0 <= v_L vA)%Z) by (destruct SA as (_ & H & _); exact H).
  assert (LB0 : (0 <= v_L vB)%Z) by (destruct SB as (_ & H & _); exact H).
  assert (LR : 0 <= IZR (v_L vA + v_L vB) <= 14) by (split; apply IZR_le; lia).
  unfold fl_kinetic_call. rewrite EA, EB. cbn [bind]. rewrite fl_kinetic_contract.
  destruct (fl_contract_std sA sB (v_L vA) (v_L vB) (v_origin vA) (v_origin vB) (v_prims vA) (v_prims vB) ca cb IA IB
    (fl_kinetic_shell_pair lexp lpow sA sB) (kin_mag (v_L vA) (v_L vB) (v_origin vA) (v_origin vB)) (kin_entry (v_L vA) (v_L vB) (v_origin vA) (v_origin vB)) (Kkin (v_L vA) (v_L vB)) M sz) as (M' & E' & D' & F' & C'); try assumption; try lia.
  - apply (fl_kin_pair sA sB _ _ _ _ (v_prims vA) (v_prims vB)); try assumption; lia.
  - unfold Kkin. lra.
  - exists M'. split; [exact E'|]. split; [split; [congruence|]; intros k Hk; apply F'; rewrite ZA, ZB; intros k' Hk' Eq; injection Eq as ->; lia|].
    intros m n cA cB Em En. assert (Hm : (m < length ca)%nat) by (apply nth_error_Some; congruence). assert (Hn : (n < length cb)%nat) by (apply nth_error_Some; congruence).
    destruct (C' m n cA cB Em En) as (v & Ev & Hv). destruct (Ve m n cA cB Em En) as (lap & t & Hl & Es & Is). rewrite (Ve' m n cA cB Em En) in Es. injection Es as Es.
    exists v, lap, t. split; [unfold elem_at; rewrite <- ZB; apply aget_ok; [rewrite D'; apply inb1; rewrite ZB; nia|exact Ev]|]. split; [exact Hl|]. split; [exact Is|].
    rewrite kin_scale_mag in Hv. fold (npairs vA vB) in Hv. unfold ovalue, oentry in Es. rewrite Es in Hv. apply (round_final _ _ _ _ _ _ Hv); [unfold npairs; lia|unfold Kkin; lra].
Qed.

Lemma fl_momentum_thm lexp lpow h pA pB vA vB ca cb Ms : libm_exp lexp -> libm_pow lpow -> heap_wf h ->
  std_shell h pA vA ca -> std_shell h pB vB cb -> (v_L vA <= 9)%Z -> (v_L vB <= 9)%Z -> (v_L vA + v_L vB <= 16)%Z -> moderate vA -> moderate vB -> (npairs vA vB <= 10000)%Z ->
  (forall k, fits (nth3 k Ms) vA vB) ->
  exists Ms', fl_momentum_call lexp lpow h pA pB Ms = Ok Ms' /\
    forall k, (0 <= k < 3)%Z -> only_matrix (nth3 k Ms) (nth3 k Ms') vA vB /\
    forall m n cA cB, nth_error ca m = Some cA -> nth_error cb n = Some cB ->
      exists v d t, elem_at (nth3 k Ms') vB m n = Ok v /\ is_partial k (phi_of vB cB) d /\ is_int3 (fun x y z => phi_of vA cA x y z * d x y z) t /\
        Rabs (v - - t) <= (115 + 10 * IZR (v_L vA + v_L vB) + 2 * IZR (npairs vA vB)) / 2 ^ 53 * mom_scale k vA vB cA cB.
Proof.
  intros HE HP W SA SB LA LB LS (MA & OA) (MB & OB) NP F.
  assert (XA : exps_pos vA) by (intros c a Hin; destruct (MA c a Hin); lra). assert (XB : exps_pos vB) by (intros c a Hin; destruct (MB c a Hin); lra).
  destruct (std_view h pA vA ca W SA) as (sA & EA & IA & ZA).
  destruct (std_view h pB vB cb W SB) as (sB & EB & IB & ZB).
  pose proof (std_size _ _ _ _ SA) as NA. pose proof (std_size _ _ _ _ SB) as NB.
  assert (LA0 : (0 <= v_L vA)%Z) by (destruct SA as (_ & H & _); exact H).
  assert (LB0 : (0 <= v_L vB)%Z) by (destruct SB as (_ & H & _); exact H).
  assert (LR : 0 <= IZR (v_L vA + v_L vB) <= 16) by (split; apply IZR_le; lia).
  assert (One : forall k, (0 <= k < 3)%Z -> exists M', fl_contract_loop (mom_part sA sB lexp lpow k) sA sB (nth3 k Ms) = Ok M' /\ only_matrix (nth3 k Ms) M' vA vB /\
    forall m n cA cB, nth_error ca m = Some cA -> nth_error cb n = Some cB ->
      exists v d t, elem_at M' vB m n = Ok v /\ is_partial k (phi_of vB cB) d /\ is_int3 (fun x y z => phi_of vA cA x y z * d x y z) t /\
        Rabs (v - - t) <= (115 + 10 * IZR (v_L vA + v_L vB) + 2 * IZR (npairs vA vB)) / 2 ^ 53 * mom_scale k vA vB cA cB).
  { intros k Hk. destruct (F k) as (sz & D & Hsz).
    pose (o := if (k =? 0)%Z then MomX else if (k =? 1)%Z then MomY else MomZ).
    assert (Ho : (o = MomX \/ o = MomY \/ o = MomZ) /\ mom_k o = k /\ forall x y c d, oentry o x y c d = mom_entry x y c d k).
    { assert (Ek : k = 0%Z \/ k = 1%Z \/ k = 2%Z) by lia. unfold o. destruct Ek as [-> | [-> | ->]]; cbn [Z.eqb Pos.eqb]; (split; [auto|]; split; [reflexivity|]; intros; reflexivity). }
    clearbody o. destruct Ho as (Ho & Hok & Hoe).
    destruct (momentum_true o h pA pB vA vB ca cb (nth3 k Ms) Ho W SA SB LA LB XA XB (F k)) as (Me & Ee & _ & Ve).
    destruct (oneel_ok o h pA pB vA vB ca cb (nth3 k Ms) W SA SB LA LB (F k)) as (Me' & Ee' & _ & Ve'). rewrite Ee in Ee'. injection Ee' as <-.
    destruct (fl_contract_std sA sB (v_L vA) (v_L vB) (v_origin vA) (v_origin vB) (v_prims vA) (v_prims vB) ca cb IA IB
      (mom_part sA sB lexp lpow k) (fun a b => mom_mag (v_L vA) (v_L vB) (v_origin vA) (v_origin vB) a b k) (mom_entry (v_L vA) (v_L vB) (v_origin vA) (v_origin vB) k) (Kmom (v_L vA) (v_L vB)) (nth3 k Ms) sz) as (M' & E' & D' & F' & C'); try assumption; try lia.
    - apply (fl_mom_pair sA sB _ _ _ _ (v_prims vA) (v_prims vB)); try assumption; lia.
    - unfold Kmom. lra.
    - exists M'. split; [exact E'|]. split; [split; [congruence|]; intros k' Hk'; apply F'; rewrite ZA, ZB; intros k2 Hk2 Eq; injection Eq as ->; lia|].
      intros m n cA cB Em En. assert (Hm : (m < length ca)%nat) by (apply nth_error_Some; congruence). assert (Hn : (n < length cb)%nat) by (apply nth_error_Some; congruence).
      destruct (C' m n cA cB Em En) as (v & Ev & Hv). destruct (Ve m n cA cB Em En) as (d & t & Hl & Es & Is). rewrite (Ve' m n cA cB Em En) in Es. injection Es as Es. rewrite Hok in Hl.
      exists v, d, t. split; [unfold elem_at; rewrite <- ZB; apply aget_ok; [rewrite D'; apply inb1; rewrite ZB; nia|exact Ev]|]. split; [exact Hl|]. split; [exact Is|].
      rewrite mom_scale_mag in Hv by exact Hk. fold (npairs vA vB) in Hv. unfold ovalue in Es. rewrite Hoe in Es. rewrite Es in Hv. apply (round_final _ _ _ _ _ _ Hv); [unfold npairs; lia|unfold Kmom; lra]. }
  destruct Ms as [[M0 M1] M2].
  destruct (One 0%Z ltac:(lia)) as (x & Ex & Rx). destruct (One 1%Z ltac:(lia)) as (y & Ey & Ry). destruct (One 2%Z ltac:(lia)) as (z & Ez & Rz).
  exists (x, y, z). split; [unfold fl_momentum_call; rewrite EA, EB; cbn [bind]; apply fl_momentum_contract; assumption|].
  intros k Hk. assert (Ek : k = 0%Z \/ k = 1%Z \/ k = 2%Z) by lia. destruct Ek as [-> | [-> | ->]]; [exact Rx|exact Ry|exact Rz].
Qed.
