(** * Rounding errors of the overlap integrals: contraction *)

From Coq Require Import ZArith List Bool Lia Reals Lra.
From Verif Require Import Base GaussInt GaussProd HeapModel OneElModel OneElProofs OneElPairs FloatBase FloatCalc FloatOneEl FloatOverlap FloatTable.
Import ListNotations.
Open Scope R_scope.

Definition getR (r : res R) : R := match r with Ok v => v | Fail _ => 0 end.

(** ** One pair of primitives *)
Section PairVal.
Variables (LA LB : Z) (A B : R * R * R).

Definition ov_mag (cA cB : Z * Z * Z) (aA aB : R) : R :=
  let '(nA, lA, mA) := cA in let '(nB, lB, mB) := cB in
  nf LA aA * nf LB aB * (sqrt (PI / (aA + aB)) * Wc aA aB A B 0 ^ Z.to_nat (nA + nB)) * (sqrt (PI / (aA + aB)) * Wc aA aB A B 1 ^ Z.to_nat (lA + lB)) * (sqrt (PI / (aA + aB)) * Wc aA aB A B 2 ^ Z.to_nat (mA + mB)).

Definition Kp : R := 965 / 10 + 10 * IZR (LA + LB).

Lemma mag_col aA aB c n : okexp aA -> okexp aB -> okpt A -> okpt B -> mag10 (5 + n * 5) (sqrt (PI / (aA + aB)) * Wc aA aB A B c ^ n).
Proof. intros OA OB HA HB. apply mag10_mul; [apply mag_s; assumption|]. apply mag10_pow. apply mag_W; [assumption|assumption|apply HA|apply HB]. Qed.

Lemma Kc_sum a b c : Kc a + Kc b + Kc c = 66 + 10 * INR (a + b + c).
Proof. unfold Kc. rewrite !plus_INR. ring. Qed.

Lemma ov_mag_ok lpow nA lA mA nB lB mB aA aB : libm_pow lpow -> okexp aA -> okexp aB -> okpt A -> okpt B -> (0 <= LA <= 9)%Z -> (0 <= LB <= 9)%Z ->
  (0 <= nA /\ 0 <= lA /\ 0 <= mA /\ nA + lA + mA = LA)%Z -> (0 <= nB /\ 0 <= lB /\ 0 <= mB /\ nB + lB + mB = LB)%Z ->
  mag10 233 (ov_mag (nA, lA, mA) (nB, lB, mB) aA aB).
Proof.
  intros HP OA OB HA HB RA RB CA CB. unfold ov_mag. destruct (fl_norm_ok lpow LA aA HP OA RA) as (M1 & _). destruct (fl_norm_ok lpow LB aB HP OB RB) as (M2 & _).
  eapply mag10_weak; [apply mag10_mul; [apply mag10_mul; [apply mag10_mul; [apply mag10_mul; [exact M1|exact M2]|]|]|]; apply mag_col; assumption|]. lia.
Qed.

Lemma fl_value_ok lpow T nA lA mA nB lB mB aA aB dim NA NB : libm_pow lpow -> okexp aA -> okexp aB -> okpt A -> okpt B -> (0 <= LA <= 9)%Z -> (0 <= LB <= 9)%Z -> (LA < dim)%Z -> (LB < dim)%Z ->
  (0 <= nA /\ 0 <= lA /\ 0 <= mA /\ nA + lA + mA = LA)%Z -> (0 <= nB /\ 0 <= lB /\ 0 <= mB /\ nB + lB + mB = LB)%Z ->
  adims T = [3; dim; dim]%Z -> (forall c i j, (0 <= c < 3)%Z -> (0 <= i <= LA)%Z -> (0 <= j <= LB)%Z -> exists v, acell T [c; i; j] = Some v /\ okT aA aB A B c i j v) ->
  ap 13 (nf LA aA) (nf LA aA) NA -> ap 13 (nf LB aB) (nf LB aB) NB ->
  exists v, (let* n := fl (NA * NB) in let* s0 := aget T [0%Z; nA; nB] in let* v := fl (n * s0) in let* s1 := aget T [1%Z; lA; lB] in let* v := fl (v * s1) in let* s2 := aget T [2%Z; mA; mB] in fl (v * s2)) = Ok v /\
    ap Kp (ov_mag (nA, lA, mA) (nB, lB, mB) aA aB) (ov_entry LA LB A B (nA, lA, mA) (nB, lB, mB) aA aB) v.
Proof.
  intros HP OA OB HA HB RA RB DA DB CA CB D C HNA HNB. destruct (fl_norm_ok lpow LA aA HP OA RA) as (M1 & _). destruct (fl_norm_ok lpow LB aB HP OB RB) as (M2 & _).
  assert (G : forall c i j, (0 <= c < 3)%Z -> (0 <= i <= LA)%Z -> (0 <= j <= LB)%Z -> exists v, aget T [c; i; j] = Ok v /\ okT aA aB A B c i j v).
  { intros c i j H1 H2 H3. destruct (C c i j H1 H2 H3) as (v & Ev & Hv). exists v. split; [|exact Hv]. apply aget_ok; [|exact Ev]. rewrite D. apply inb3. lia. }
  destruct (ap_fmul _ _ _ _ _ _ _ _ HNA HNB ltac:(lra) ltac:(lra) (mag10_inr _ _ (mag10_mul _ _ _ _ M1 M2) ltac:(lia))) as (n & -> & Hn). cbn [bind].
  destruct (G 0%Z nA nB ltac:(lia) ltac:(lia) ltac:(lia)) as (s0 & -> & Hs0). destruct (G 1%Z lA lB ltac:(lia) ltac:(lia) ltac:(lia)) as (s1 & -> & Hs1). destruct (G 2%Z mA mB ltac:(lia) ltac:(lia) ltac:(lia)) as (s2 & -> & Hs2). cbn [bind].
  pose proof (mag_col aA aB 0 (Z.to_nat (nA + nB)) OA OB HA HB) as G0. pose proof (mag_col aA aB 1 (Z.to_nat (lA + lB)) OA OB HA HB) as G1. pose proof (mag_col aA aB 2 (Z.to_nat (mA + mB)) OA OB HA HB) as G2.
  pose proof (mag10_mul _ _ _ _ (mag10_mul _ _ _ _ M1 M2) G0) as E0. pose proof (mag10_mul _ _ _ _ E0 G1) as E1. pose proof (mag10_mul _ _ _ _ E1 G2) as E2.
  pose proof (Kc_b (Z.to_nat (nA + nB)) ltac:(lia)) as K0. pose proof (Kc_b (Z.to_nat (lA + lB)) ltac:(lia)) as K1. pose proof (Kc_b (Z.to_nat (mA + mB)) ltac:(lia)) as K2.
  pose proof (Kc_sum (Z.to_nat (nA + nB)) (Z.to_nat (lA + lB)) (Z.to_nat (mA + mB))) as KS. replace (INR (Z.to_nat (nA + nB) + Z.to_nat (lA + lB) + Z.to_nat (mA + mB))) with (IZR (LA + LB)) in KS by (rewrite INR_IZR_INZ; f_equal; lia).
  destruct (ap_fmul _ _ _ _ _ _ _ _ Hn Hs0 ltac:(lra) ltac:(lra) (mag10_inr _ _ E0 ltac:(lia))) as (v0 & -> & Hv0). cbn [bind].
  destruct (ap_fmul _ _ _ _ _ _ _ _ Hv0 Hs1 ltac:(lra) ltac:(lra) (mag10_inr _ _ E1 ltac:(lia))) as (v1 & -> & Hv1). cbn [bind].
  destruct (ap_fmul _ _ _ _ _ _ _ _ Hv1 Hs2 ltac:(lra) ltac:(lra) (mag10_inr _ _ E2 ltac:(lia))) as (v2 & -> & Hv2). exists v2. split; [reflexivity|].
  eapply ap_weak; [exact Hv2|unfold Kp; lra|unfold Kp; lra|unfold ov_mag; lra].
Qed.

End PairVal.

Section Shells.
Variables (sA sB : vshell) (LA LB : Z) (A B : R * R * R) (la lb : list (R * R)) (ca cb : list (Z * Z * Z)).
Hypothesis HA : vshell_is sA LA A la ca.
Hypothesis HB : vshell_is sB LB B lb cb.
Hypothesis LA0 : (0 <= LA <= 9)%Z.
Hypothesis LB0 : (0 <= LB <= 9)%Z.
Hypothesis PA : okpt A.
Hypothesis PB : okpt B.
Variables (lexp : R -> res R) (lpow : R -> R -> res R).
Hypothesis HE : libm_exp lexp.
Hypothesis HP : libm_pow lpow.

Lemma fl_pair_ok aA aB M d : okexp aA -> okexp aB -> adims M = [d] -> (sv_size sA * sv_size sB <= d)%Z ->
  exists M', fl_overlap_shell_pair lexp lpow sA sB aA aB M = Ok M' /\ adims M' = [d] /\
    forall m n, (m < length ca)%nat -> (n < length cb)%nat -> exists v, acell M' [(Z.of_nat m * sv_size sB + Z.of_nat n)%Z] = Some v /\
      mag10 233 (ov_mag LA LB A B (nth m ca (0, 0, 0)%Z) (nth n cb (0, 0, 0)%Z) aA aB) /\
      ap (Kp LA LB) (ov_mag LA LB A B (nth m ca (0, 0, 0)%Z) (nth n cb (0, 0, 0)%Z) aA aB) (ov_entry LA LB A B (nth m ca (0, 0, 0)%Z) (nth n cb (0, 0, 0)%Z) aA aB) v.
Proof.
  intros OA OB D Hd. destruct HA as (EA & GA & QA & CA & KA). destruct HB as (EB & GB & QB & CB & KB).
  unfold fl_overlap_shell_pair. rewrite EA, EB, GA, GB. unfold max_basis_L.
  destruct (fl_norm_ok lpow LA aA HP OA LA0) as (_ & NA & -> & HNA). destruct (fl_norm_ok lpow LB aB HP OB LB0) as (_ & NB & -> & HNB). cbn [bind].
  destruct (fl_table_ok lexp 10 LA LB aA aB A B HE OA OB PA PB) as (T & -> & DT & CT); [lia..|]. cbn [bind].
  assert (G : forall x y, In x ca -> In y cb -> exists v, (let '(nA, lA, mA) := x in let '(nB, lB, mB) := y in let* n := fl (NA * NB) in let* s0 := aget T [0%Z; nA; nB] in let* v := fl (n * s0) in let* s1 := aget T [1%Z; lA; lB] in let* v := fl (v * s1) in let* s2 := aget T [2%Z; mA; mB] in fl (v * s2)) = Ok v /\
     mag10 233 (ov_mag LA LB A B x y aA aB) /\ ap (Kp LA LB) (ov_mag LA LB A B x y aA aB) (ov_entry LA LB A B x y aA aB) v).
  { intros [[nA lA] mA] [[nB lB] mB] Ix Iy. apply KA in Ix. apply KB in Iy. destruct (fl_value_ok LA LB A B lpow T nA lA mA nB lB mB aA aB 10 NA NB) as (v & Ev & Hv); try assumption; try lia. exists v. split; [exact Ev|]. split; [|exact Hv]. apply (ov_mag_ok LA LB A B lpow); assumption. }
  match goal with |- context [fill_components sA sB ?vv ?MM] =>
    destruct (fill_components_ok sA sB ca cb vv (fun x y => let '(n1, l1, m1) := x in let '(n2, l2, m2) := y in getR (vv n1 l1 m1 n2 l2 m2)) MM d) as (M' & E' & D' & C' & _); [exact CA|exact CB|exact D|exact Hd| |] end.
  - intros na la' ma nb lb' mb Ia Ib. destruct (G _ _ Ia Ib) as (v & Ev & _). cbv beta iota in Ev. rewrite Ev. reflexivity.
  - exists M'. split; [exact E'|]. split; [exact D'|]. intros m n Hm Hn. rewrite (C' m n Hm Hn). destruct (G _ _ (nth_In ca (0, 0, 0)%Z Hm) (nth_In cb (0, 0, 0)%Z Hn)) as (v & Ev & Hv).
    destruct (nth m ca (0, 0, 0)%Z) as [[n1 l1] m1]. destruct (nth n cb (0, 0, 0)%Z) as [[n2 l2] m2]. rewrite Ev. exists v. split; [reflexivity|exact Hv].
Qed.

End Shells.

(** ** daxpy *)
Lemma fl_daxpy_ok n szx szy a (x y : arr R) (Qx Qy Q : Z -> R -> Prop) : adims x = [szx] -> adims y = [szy] -> (0 <= n <= szx)%Z -> (n <= szy)%Z ->
  (forall k, (0 <= k < n)%Z -> exists v, acell x [k] = Some v /\ Qx k v) -> (forall k, (0 <= k < n)%Z -> exists v, acell y [k] = Some v /\ Qy k v) ->
  (forall k v w, (0 <= k < n)%Z -> Qx k v -> Qy k w -> exists t s, fl (a * v) = Ok t /\ fl (w + t) = Ok s /\ Q k s) ->
  exists y', fl_daxpy n a x y = Ok y' /\ adims y' = [szy] /\ (forall k, (0 <= k < n)%Z -> exists v, acell y' [k] = Some v /\ Q k v) /\
    (forall ix, (forall k, (0 <= k < n)%Z -> ix <> [k]) -> acell y' ix = acell y ix).
Proof.
  intros Dx Dy Hn Hn2 Cx Cy HQ. unfold fl_daxpy.
  match goal with |- context [for_range 0 n ?b ?s] => destruct (for_range_ok (fun i (M' : arr R) => adims M' = [szy] /\
     (forall k, (0 <= k < i)%Z -> exists v, acell M' [k] = Some v /\ Q k v) /\ (forall k, (i <= k < n)%Z -> exists v, acell M' [k] = Some v /\ Qy k v) /\
     (forall ix, (forall k, (0 <= k < n)%Z -> ix <> [k]) -> acell M' ix = acell y ix)) 0 n b s) as (M' & E & H) end.
  - lia.
  - split; [exact Dy|]. split; [intros; lia|]. split; [exact Cy|auto].
  - intros i M1 Hi (D1 & C1 & C1' & F1). destruct (C1' i ltac:(lia)) as (w & Ew & Hw). destruct (Cx i Hi) as (v & Ev & Hv). destruct (HQ i v w Hi Hv Hw) as (t & s & Et & Es & Hs).
    rewrite (aget_ok M1 [i] w) by (try (rewrite D1; apply inb1; lia); exact Ew). rewrite (aget_ok x [i] v) by (try (rewrite Dx; apply inb1; lia); exact Ev). cbn [bind]. rewrite Et. cbn [bind]. rewrite Es. cbn [bind].
    destruct (aset_ok M1 [i] s) as (M2 & E2 & D2 & C2 & F2); [rewrite D1; apply inb1; lia|].
    exists M2. split; [exact E2|]. split; [congruence|]. split; [|split].
    + intros k Hk. destruct (Z.eq_dec k i) as [->|Ne]; [exists s; split; [exact C2|exact Hs]|]. rewrite F2 by congruence. apply C1. lia.
    + intros k Hk. rewrite F2 by (intros Eq; injection Eq; lia). apply C1'. lia.
    + intros ix Hix. rewrite F2; [apply F1, Hix|]. apply Hix. lia.
  - exists M'. destruct H as (H1 & H2 & _ & H4). auto.
Qed.

(** ** Contraction *)
Definition fl_contract_loop (pair : R -> R -> arr R -> res (arr R)) (A B : vshell) (M : arr R) : res (arr R) :=
  let size := (sv_size A * sv_size B)%Z in
  let* M := memset0 size M in
  let* (M, _) :=
    for_range 0 (sv_num A) (fun i =>
    for_range 0 (sv_num B) (fun j '(M, buf) =>
      let* alpha_i := aget (sv_alpha A) [i] in
      let* alpha_j := aget (sv_alpha B) [j] in
      let* coef_A_i := aget (sv_coef A) [i] in
      let* coef_B_j := aget (sv_coef B) [j] in
      let* buf := pair alpha_i alpha_j buf in
      let* c := fl (coef_A_i * coef_B_j) in
      let* M := fl_daxpy size c buf M in
      Ok (M, buf))) (M, aconst [size] 0) in
  Ok M.

Lemma fl_overlap_contract lexp lpow A B M : fl_overlap_integrals lexp lpow A B M = fl_contract_loop (fl_overlap_shell_pair lexp lpow A B) A B M.
Proof. reflexivity. Qed.

Definition okcoef (c : R) : Prop := Rabs c <= 10 ^ 6.
Definition cmag (c : R) : R := Rabs c + eta.

Lemma cmag_mag c : okcoef c -> mag10 30 (cmag c).
Proof. intros H. unfold okcoef in H. unfold cmag, mag10, eta. pose proof (Rabs_pos c). lra. Qed.

Definition magsum (mg : R -> R -> R) (la lb : list (R * R)) : R := lsum (fun '(ca, aa) => lsum (fun '(cb, ab) => cmag ca * cmag cb * mg aa ab) lb) la.

Lemma rsum_nonneg n f : (forall k, (k < n)%nat -> 0 <= f k) -> 0 <= rsum n f.
Proof. induction n as [|n IH]; intros H; cbn [rsum]; [lra|]. pose proof (IH ltac:(intros; apply H; lia)). pose proof (H n ltac:(lia)). lra. Qed.
Lemma rsum_bound n f b : (forall k, (k < n)%nat -> f k <= b) -> rsum n f <= INR n * b.
Proof. induction n as [|n IH]; intros H; cbn [rsum]; [cbn [INR]; lra|]. pose proof (IH ltac:(intros; apply H; lia)). pose proof (H n ltac:(lia)). rewrite S_INR. lra. Qed.

Lemma fl_contract_ok pair (A B : vshell) (M : arr R) la lb sz (mg vx : R -> R -> Z -> R) K :
  holds_prims A la -> holds_prims B lb -> adims M = [sz] ->
  (forall c a, In (c, a) la -> okcoef c /\ okexp a) -> (forall c a, In (c, a) lb -> okcoef c /\ okexp a) -> (sv_num A * sv_num B <= 10000)%Z ->
  (0 <= sv_size A)%Z -> (0 <= sv_size B)%Z -> (sv_size A * sv_size B <= sz)%Z -> 0 <= K <= 10 ^ 3 ->
  (forall aa ab buf, okexp aa -> okexp ab -> adims buf = [(sv_size A * sv_size B)%Z] ->
     exists buf', pair aa ab buf = Ok buf' /\ adims buf' = [(sv_size A * sv_size B)%Z] /\
       forall k, (0 <= k < sv_size A * sv_size B)%Z -> exists v, acell buf' [k] = Some v /\ mag10 233 (mg aa ab k) /\ ap K (mg aa ab k) (vx aa ab k) v) ->
  exists M', fl_contract_loop pair A B M = Ok M' /\ adims M' = [sz] /\
    (forall k, (0 <= k < sv_size A * sv_size B)%Z -> exists v, acell M' [k] = Some v /\
       ap (K + 204 / 100 + 101 / 100 * IZR (sv_num A * sv_num B)) (magsum (fun aa ab => mg aa ab k) la lb) (contracted (fun aa ab => vx aa ab k) la lb) v) /\
    (forall ix, (forall k, (0 <= k < sv_size A * sv_size B)%Z -> ix <> [k]) -> acell M' ix = acell M ix).
Proof.
  intros (NA & HA) (NB & HB) DM PA PB Hnn SA SB Hsz HK Hpair. unfold fl_contract_loop. cbv zeta.
  set (size := (sv_size A * sv_size B)%Z) in *.
  assert (Hs0 : (0 <= size)%Z) by (unfold size; nia).
  destruct (memset0_ok size sz M DM) as (M1 & E1 & D1 & C1 & F1); [lia|].
  rewrite E1. cbn [bind].
  pose (fA := fun i => nth i la (0, 0)). pose (fB := fun j => nth j lb (0, 0)).
  pose (term := fun k i j => fst (fA i) * fst (fB j) * vx (snd (fA i)) (snd (fB j)) k).
  pose (tmag := fun k i j => cmag (fst (fA i)) * cmag (fst (fB j)) * mg (snd (fA i)) (snd (fB j)) k).
  assert (OKA : forall i, (i < length la)%nat -> okcoef (fst (fA i)) /\ okexp (snd (fA i))) by (intros i Hi; apply (PA (fst (fA i))); rewrite <- surjective_pairing; apply nth_In; exact Hi).
  assert (OKB : forall i, (i < length lb)%nat -> okcoef (fst (fB i)) /\ okexp (snd (fB i))) by (intros i Hi; apply (PB (fst (fB i))); rewrite <- surjective_pairing; apply nth_In; exact Hi).
  assert (TM : forall k i j, (0 <= k < size)%Z -> (i < length la)%nat -> (j < length lb)%nat -> mag10 293 (tmag k i j)).
  { intros k i j Hk Hi Hj. destruct (OKA i Hi) as (c1 & e1). destruct (OKB j Hj) as (c2 & e2). destruct (Hpair _ _ (aconst [size] 0) e1 e2 eq_refl) as (b0 & _ & _ & Hv). destruct (Hv k Hk) as (v0 & _ & Mv & _).
    exact (mag10_mul _ _ _ _ (mag10_mul _ _ _ _ (cmag_mag _ c1) (cmag_mag _ c2)) Mv). }
  pose (KK := fun n : Z => K + 204 / 100 + 101 / 100 * IZR n).
  pose (pm := fun k (i j : nat) => rsum i (fun i' => rsum (length lb) (tmag k i')) + rsum j (tmag k i)).
  pose (pv := fun k (i j : nat) => rsum i (fun i' => rsum (length lb) (term k i')) + rsum j (term k i)).
  assert (PM0 : forall k i j, (0 <= k < size)%Z -> (i < length la)%nat -> (j <= length lb)%nat -> 0 <= pm k i j).
  { intros k i j Hk Hi Hj. unfold pm. apply Rplus_le_le_0_compat; apply rsum_nonneg; intros i' Hi'; [apply rsum_nonneg; intros j' Hj'|]; left; eapply mag10_pos, TM; try exact Hk; lia. }
  assert (PM1 : forall k i j, (0 <= k < size)%Z -> (i < length la)%nat -> (j < length lb)%nat -> inr (pm k i j + tmag k i j)).
  { intros k i j Hk Hi Hj. pose proof (PM0 k i j Hk Hi ltac:(lia)) as P0. apply (inr_between 293 297 (tmag k i j) (pm k i j + tmag k i j) (10 ^ 4 * 10 ^ 293) (TM k i j Hk Hi Hj)); try lia; [lra| |].
    - assert (U : forall i' j', (i' < length la)%nat -> (j' < length lb)%nat -> tmag k i' j' <= 10 ^ 293) by (intros i' j' Hi' Hj'; apply (TM k i' j' Hk Hi' Hj')).
      assert (U1 : rsum i (fun i' => rsum (length lb) (tmag k i')) <= INR i * (INR (length lb) * 10 ^ 293)) by (apply rsum_bound; intros i' Hi'; apply rsum_bound; intros j' Hj'; apply U; lia).
      assert (U2 : rsum j (tmag k i) <= INR j * 10 ^ 293) by (apply rsum_bound; intros j' Hj'; apply U; lia).
      pose proof (U i j Hi Hj) as U3. unfold pm. apply Rle_trans with ((INR i * INR (length lb) + INR j + 1) * 10 ^ 293); [rewrite !Rmult_plus_distr_r, Rmult_assoc, Rmult_1_l; lra|]. apply Rmult_le_compat_r; [left; apply pow_lt; lra|].
      rewrite <- mult_INR, <- plus_INR, <- S_INR, INR_IZR_INZ. replace (10 ^ 4) with (IZR 10000) by lra. apply IZR_le. nia.
    - apply (mag10_mul 4 293); unfold mag10; split; lra. }
  pose (Inv := fun (i j : Z) (st : arr R * arr R) => adims (fst st) = [sz] /\ adims (snd st) = [size] /\
     (forall k, (0 <= k < size)%Z -> exists v, acell (fst st) [k] = Some v /\ ap (KK (i * sv_num B + j)%Z) (pm k (Z.to_nat i) (Z.to_nat j)) (pv k (Z.to_nat i) (Z.to_nat j)) v) /\
     (forall ix, (forall k, (0 <= k < size)%Z -> ix <> [k]) -> acell (fst st) ix = acell M ix)).
  match goal with |- context [for_range 0 (sv_num A) ?b ?s] =>
    destruct (for_range_ok (fun i st => Inv i 0%Z st) 0 (sv_num A) b s) as ((M2 & buf2) & E2 & I2) end.
  - lia.
  - split; [exact D1|]. split; [reflexivity|]. split; [|exact F1].
    intros k Hk. cbn [fst]. exists 0. split; [apply C1, Hk|]. unfold pm, pv. cbn [Z.to_nat rsum]. rewrite Rplus_0_r. apply (ap_weak 0 0); [apply ap_exact; rewrite Rabs_R0; lra| | |lra]; unfold KK; cbn [Z.mul Z.add]; lra.
  - intros i st Hi Hinv. cbv beta.
    match goal with |- context [for_range 0 (sv_num B) ?b ?s] =>
      destruct (for_range_ok (fun j st => Inv i j st) 0 (sv_num B) b s) as (st2 & E2 & I2) end.
    + lia.
    + exact Hinv.
    + intros j (M2 & buf2) Hj (D2 & Db2 & C2 & F2). cbn [fst snd] in *.
      destruct (HA (Z.to_nat i)) as (GcA & GaA); [lia|]. destruct (HB (Z.to_nat j)) as (GcB & GaB); [lia|].
      rewrite Z2Nat.id in GcA, GaA, GcB, GaB by lia.
      fold (fA (Z.to_nat i)) in GcA, GaA. fold (fB (Z.to_nat j)) in GcB, GaB.
      rewrite GcA, GaA, GcB, GaB. cbn [bind].
      destruct (OKA (Z.to_nat i) ltac:(lia)) as (c1 & e1). destruct (OKB (Z.to_nat j) ltac:(lia)) as (c2 & e2).
      destruct (Hpair _ _ buf2 e1 e2 Db2) as (buf3 & -> & D3 & C3). cbn [bind].
      assert (A1 : ap 0 (cmag (fst (fA (Z.to_nat i)))) (fst (fA (Z.to_nat i))) (fst (fA (Z.to_nat i)))) by (apply ap_exact; pose proof eta_b; unfold cmag; lra).
      assert (A2 : ap 0 (cmag (fst (fB (Z.to_nat j)))) (fst (fB (Z.to_nat j))) (fst (fB (Z.to_nat j)))) by (apply ap_exact; pose proof eta_b; unfold cmag; lra).
      pose proof (mag10_mul _ _ _ _ (cmag_mag _ c1) (cmag_mag _ c2)) as Mcc.
      destruct (ap_fmul 0 0 _ _ _ _ _ _ A1 A2 ltac:(lra) ltac:(lra) (mag10_inr _ _ Mcc ltac:(lia))) as (c & -> & Hc). cbn [bind].
      assert (NNb : (0 <= i * sv_num B + j < sv_num A * sv_num B)%Z) by nia.
      assert (KKb : K + 204 / 100 <= KK (i * sv_num B + j)%Z <= 2 * 10 ^ 4).
      { unfold KK. assert (0 <= IZR (i * sv_num B + j) <= 10000) by (split; apply IZR_le; lia). lra. }
      destruct (fl_daxpy_ok size size sz c buf3 M2 (fun k v => ap K (mg (snd (fA (Z.to_nat i))) (snd (fB (Z.to_nat j))) k) (vx (snd (fA (Z.to_nat i))) (snd (fB (Z.to_nat j))) k) v)
        (fun k v => ap (KK (i * sv_num B + j)%Z) (pm k (Z.to_nat i) (Z.to_nat j)) (pv k (Z.to_nat i) (Z.to_nat j)) v)
        (fun k v => ap (KK (i * sv_num B + (j + 1))%Z) (pm k (Z.to_nat i) (Z.to_nat (j + 1))) (pv k (Z.to_nat i) (Z.to_nat (j + 1))) v) D3 D2 ltac:(lia) ltac:(lia)) as (M4 & -> & D4 & C4 & F4).
      * intros k Hk. destruct (C3 k Hk) as (v & Ev & _ & Hv). exists v. split; assumption.
      * exact C2.
      * intros k v w Hk Hv Hw. pose proof (TM k (Z.to_nat i) (Z.to_nat j) Hk ltac:(lia) ltac:(lia)) as Mt.
        destruct (ap_fmul _ _ _ _ _ _ _ _ Hc Hv ltac:(lra) ltac:(lra) (mag10_inr _ _ Mt ltac:(lia))) as (t & Et & Ht).
        destruct (ap_fadd (KK (i * sv_num B + j)%Z) _ _ _ _ _ _ _ _ Hw Ht ltac:(lra) ltac:(lra) ltac:(lra) (PM1 k (Z.to_nat i) (Z.to_nat j) Hk ltac:(lia) ltac:(lia))) as (s & Es & Hs).
        exists t, s. split; [exact Et|]. split; [exact Es|]. replace (Z.to_nat (j + 1)) with (S (Z.to_nat j)) by lia. unfold pm, pv in *. cbn [rsum]. rewrite <- !Rplus_assoc.
        eapply ap_weak; [exact Hs| | |unfold tmag; lra]; unfold KK in *; rewrite Z.add_assoc, (plus_IZR (i * sv_num B + j) 1); lra.
      * cbn [bind]. eexists. split; [reflexivity|]. split; [exact D4|]. split; [exact D3|]. cbn [fst]. split; [exact C4|]. intros ix Hix. rewrite F4 by exact Hix. apply F2, Hix.
    + exists st2. split; [exact E2|]. destruct I2 as (D2 & Db2 & C2 & F2). split; [exact D2|]. split; [exact Db2|].
      split; [|exact F2]. intros k Hk. destruct (C2 k Hk) as (v & Ev & Hv). exists v. split; [exact Ev|].
      replace ((i + 1) * sv_num B + 0)%Z with (i * sv_num B + sv_num B)%Z by ring. unfold pm, pv in *. replace (Z.to_nat (i + 1)) with (S (Z.to_nat i)) by lia. rewrite NB, Nat2Z.id in Hv. rewrite NB. cbn [rsum Z.to_nat]. rewrite !Rplus_0_r. exact Hv.
  - rewrite E2. cbn [bind]. destruct I2 as (D2 & Db2 & C2 & F2). cbn [fst] in *.
    exists M2. split; [reflexivity|]. split; [exact D2|]. split; [|exact F2].
    intros k Hk. destruct (C2 k Hk) as (v & Ev & Hv). exists v. split; [exact Ev|]. rewrite Z.add_0_r in Hv. unfold pm, pv in Hv. cbn [Z.to_nat rsum] in Hv. rewrite !Rplus_0_r in Hv. rewrite NA, Nat2Z.id in Hv. rewrite NA.
    assert (S1 : contracted (fun aa ab => vx aa ab k) la lb = rsum (length la) (fun i' => rsum (length lb) (term k i'))).
    { unfold contracted. rewrite (lsum_rsum _ la (0, 0)). apply rsum_ext. intros i Hi. fold (fA i). rewrite (surjective_pairing (fA i)). cbv beta iota. rewrite (lsum_rsum _ lb (0, 0)). apply rsum_ext. intros j Hj. fold (fB j). rewrite (surjective_pairing (fB j)) at 1. reflexivity. }
    assert (S2 : magsum (fun aa ab => mg aa ab k) la lb = rsum (length la) (fun i' => rsum (length lb) (tmag k i'))).
    { unfold magsum. rewrite (lsum_rsum _ la (0, 0)). apply rsum_ext. intros i Hi. fold (fA i). rewrite (surjective_pairing (fA i)). cbv beta iota. rewrite (lsum_rsum _ lb (0, 0)). apply rsum_ext. intros j Hj. fold (fB j). rewrite (surjective_pairing (fB j)) at 1. reflexivity. }
    rewrite S1, S2. exact Hv.
Qed.
