(** * The local integrals as the user sees them (C40-C43, C61, C62) *)

From Coq Require Import ZArith List Lia Bool Reals Lra.
From Coquelicot Require Import Coquelicot.
From Verif Require Import Base Loops Sums GaussInt GaussProd NucPotSpec NucPot HeapModel HeapProofs HeapSpec OneElModel OneElProofs OneElPairs OneElSpec OneElInt OneElThms LmatModel SpecModel SpecSpec SpecBoys BoysThms GfunThms SphProofs NucProofs OutercoreModel MmdModel MmdSpec MmdE MmdR MmdInt MmdD MmdProofs MmdMain.
Import ListNotations.
Open Scope R_scope.

(** ** Loops that accumulate with an error *)
Lemma loop_approx {St Ix} lo hi (Inv : St -> Prop) (Dom : Ix -> Prop) (val : St -> Ix -> R) (t w : Z -> Ix -> R) (body : Z -> St -> res St) s0 :
  (lo <= hi)%Z -> Inv s0 ->
  (forall i s, (lo <= i < hi)%Z -> Inv s -> exists s', body i s = Ok s' /\ Inv s' /\ forall x, Dom x -> Rabs (val s' x - (val s x + t i x)) <= w i x) ->
  exists s', for_range lo hi body s0 = Ok s' /\ Inv s' /\ forall x, Dom x -> Rabs (val s' x - (val s0 x + zsum lo hi (fun i => t i x))) <= zsum lo hi (fun i => w i x).
Proof.
  intros H I0 B.
  destruct (for_range_ok (fun k s => Inv s /\ (forall x, Dom x -> Rabs (val s x - (val s0 x + zsum lo k (fun i => t i x))) <= zsum lo k (fun i => w i x)) /\ (lo <= k)%Z) lo hi body s0 H)
    as (s' & E & I & V & _).
  - split; [exact I0|]. split; [|lia]. intros x _. rewrite !zsum_nil by lia. rewrite Rplus_0_r, Rminus_eq_0, Rabs_R0. lra.
  - intros k s Hk (I & V & L). destruct (B k s Hk I) as (s' & E & I' & V'). exists s'. split; [exact E|]. split; [exact I'|].
    split; [|lia]. intros x Hx. rewrite !zsum_last by lia.
    replace (val s' x - (val s0 x + (zsum lo k (fun i => t i x) + t k x))) with ((val s' x - (val s x + t k x)) + (val s x - (val s0 x + zsum lo k (fun i => t i x)))) by ring.
    eapply Rle_trans; [apply Rabs_triang|]. pose proof (V x Hx). pose proof (V' x Hx). lra.
  - exists s'. auto.
Qed.

(** ** Contraction coefficients below the threshold are dropped *)
Definition negligible (c : R) : Prop := Rabs c < 1 / 10 ^ 14.
Definition kept (l : list (R * R)) : list (R * R) := filter (fun p => if Rlt_dec (Rabs (fst p)) (1 / 10 ^ 14) then false else true) l.

Lemma lsum_kept l f : lsum (fun p => if Rlt_dec (Rabs (fst p)) zero_thresh then 0 else f p) l = lsum f (kept l).
Proof.
  unfold kept. assert (Z0 : zero_thresh = 1 / 10 ^ 14) by (unfold zero_thresh; lra). rewrite Z0.
  induction l as [|p l IH]; [reflexivity|]. rewrite lsum_cons. cbn [filter].
  destruct (Rlt_dec (Rabs (fst p)) (1 / 10 ^ 14)); [rewrite IH; ring|]. rewrite lsum_cons, IH. reflexivity.
Qed.

Lemma kept_in c a l : In (c, a) (kept l) -> In (c, a) l.
Proof. unfold kept. intros H. apply filter_In in H. apply H. Qed.

Lemma kept_all l : (forall c a, In (c, a) l -> 1 / 10 ^ 14 <= Rabs c) -> kept l = l.
Proof.
  intros H. unfold kept. induction l as [|[c a] l IH]; [reflexivity|]. cbn [filter fst]. destruct (Rlt_dec _ _) as [Hlt|_].
  - exfalso. pose proof (H c a (or_introl eq_refl)). lra.
  - rewrite IH; [reflexivity|]. intros c' a' Hin. apply (H c' a'). right. exact Hin.
Qed.

(** double sum over the kept primitives *)
Definition prim_sum (pa pb : list (R * R)) (g : R * R -> R * R -> R) : R := lsum (fun p => lsum (fun q => g p q) (kept pb)) (kept pa).

Section Contract.
Variables (sA sB : vshell) (LA LB : Z) (A B : R * R * R) (pa pb : list (R * R)) (ca cb : list (Z * Z * Z)).
Hypothesis HA : vshell_is sA LA A pa ca.
Hypothesis HB : vshell_is sB LB B pb cb.
Hypothesis LA9 : (0 <= LA <= 9)%Z.
Hypothesis LB9 : (0 <= LB <= 9)%Z.

Notation size := (sv_size sA * sv_size sB)%Z.
Definition compA (k : Z) : Z * Z * Z := nth (Z.to_nat (k / sv_size sB)) ca (0, 0, 0)%Z.
Definition compB (k : Z) : Z * Z * Z := nth (Z.to_nat (k mod sv_size sB)) cb (0, 0, 0)%Z.

Definition value_k (n : Z) (C : R * R * R) (c : R) (k : Z) : R := prim_sum pa pb (fun p q => fst p * fst q * pair_value n LA LB A B C c (snd p) (snd q) (compA k) (compB k)).
Definition weight_k (n : Z) (C : R * R * R) (c : R) (k : Z) : R := prim_sum pa pb (fun p q => Rabs (fst p * fst q) * pair_weight n LA LB A B C c (snd p) (snd q) (compA k) (compB k)).

Lemma size_nonneg : (0 <= size)%Z.
Proof. destruct HA as (_ & _ & _ & (EA & _) & _). destruct HB as (_ & _ & _ & (EB & _) & _). nia. Qed.

Lemma pair_cells daw n aA aB c C M delta : 0 < aA + aB + c -> (n = 0 \/ n = 1 \/ n = 2)%Z -> adims M = [size] ->
  special_error daw n (LA + LB) (pair_arg aA aB c A B C) delta ->
  exists M', mmd_primitive_pair daw n sA aA sB aB C c M = Ok M' /\ adims M' = [size] /\
    forall k, (0 <= k < size)%Z -> exists v, aget M' [k] = Ok v /\
       Rabs (v - pair_value n LA LB A B C c aA aB (compA k) (compB k)) <= delta * pair_weight n LA LB A B C c aA aB (compA k) (compB k).
Proof.
  intros Hq Hn D Hs. destruct (mmd_pair_ok sA sB LA LB A B pa pb ca cb HA HB LA9 LB9 daw n aA aB c C M size delta Hq Hn D ltac:(lia) Hs) as (M' & E & D' & V & _).
  exists M'. split; [exact E|]. split; [exact D'|]. intros k Hk.
  destruct HA as (_ & _ & _ & (EA & _) & _). destruct HB as (_ & _ & _ & (EB & _) & _).
  assert (Hb : (0 < sv_size sB)%Z) by nia.
  pose proof (Z.div_mod k (sv_size sB) ltac:(lia)) as DM. pose proof (Z.mod_pos_bound k (sv_size sB) Hb) as Hm.
  assert (Hd : (0 <= k / sv_size sB < sv_size sA)%Z). { split; [apply Z.div_pos; lia|]. apply Z.div_lt_upper_bound; lia. }
  destruct (V (Z.to_nat (k / sv_size sB)) (Z.to_nat (k mod sv_size sB))) as (v & Ev & Bv); [lia|lia|].
  exists v. split; [|exact Bv]. apply acell_aget; [rewrite D'; apply inb1; lia|].
  rewrite <- Ev. f_equal. f_equal. rewrite !Z2Nat.id by lia. lia.
Qed.

Lemma type1_mmd_ok daw n C c M sz delta : (n = 0 \/ n = 1 \/ n = 2)%Z -> adims M = [sz] -> (size <= sz)%Z ->
  (forall cA aA cB aB, In (cA, aA) (kept pa) -> In (cB, aB) (kept pb) -> 0 < aA + aB + c /\ special_error daw n (LA + LB) (pair_arg aA aB c A B C) delta) ->
  exists M', type1_mmd daw sA sB C c n M = Ok M' /\ adims M' = [sz] /\
    (forall k, (0 <= k < size)%Z -> exists v, aget M' [k] = Ok v /\ Rabs (v - value_k n C c k) <= delta * weight_k n C c k) /\
    (forall ix, (forall k, (0 <= k < size)%Z -> ix <> [k]) -> aget M' ix = aget M ix).
Proof.
  intros Hn D Hsz Hs. unfold type1_mmd.
  replace ((n =? 0)%Z || (n =? 1)%Z || (n =? 2)%Z) with true by (destruct Hn as [-> | [-> | ->]]; reflexivity). cbn [massert bind]. cbv zeta.
  pose proof size_nonneg as Hn0. pose proof HA as (_ & _ & PA & _). pose proof HB as (_ & _ & PB & _).
  destruct (memset0_get size sz M D) as (M1 & E1 & D1 & C1 & F1); [lia|]. rewrite E1, bind_ok.
  pose (Inv := fun st : arr R * arr R => adims (fst st) = [sz] /\ adims (snd st) = [size] /\
     (forall k, (0 <= k < size)%Z -> readable (fst st) [k]) /\ (forall ix, (forall k, (0 <= k < size)%Z -> ix <> [k]) -> aget (fst st) ix = aget M ix)).
  pose (Dom := fun k : Z => (0 <= k < size)%Z).
  pose (val := fun (st : arr R * arr R) (k : Z) => cellv (fst st) [k]).
  pose (skip := fun (p : R * R) (x : R) => if Rlt_dec (Rabs (fst p)) zero_thresh then 0 else x).
  pose (t := fun i j k => let p := nth (Z.to_nat i) pa (0, 0) in let q := nth (Z.to_nat j) pb (0, 0) in
     fst p * fst q * pair_value n LA LB A B C c (snd p) (snd q) (compA k) (compB k)).
  pose (w := fun i j k => let p := nth (Z.to_nat i) pa (0, 0) in let q := nth (Z.to_nat j) pb (0, 0) in
     delta * (Rabs (fst p * fst q) * pair_weight n LA LB A B C c (snd p) (snd q) (compA k) (compB k))).
  pose proof (proj1 PA) as NA. pose proof (proj1 PB) as NB.
  assert (KEPT : forall (l : list (R * R)) i, (0 <= i < Z.of_nat (length l))%Z -> ~ Rabs (fst (nth (Z.to_nat i) l (0, 0))) < zero_thresh -> In (fst (nth (Z.to_nat i) l (0, 0)), snd (nth (Z.to_nat i) l (0, 0))) (kept l)).
  { intros l i Hi Hge. rewrite <- surjective_pairing. unfold kept. apply filter_In. split; [apply nth_In; lia|]. destruct (Rlt_dec _ _) as [Hlt|]; [|reflexivity]. exfalso. apply Hge. unfold zero_thresh. lra. }
  match goal with |- context [for_range 0 (sv_num sA) ?b ?s] =>
    destruct (loop_approx 0 (sv_num sA) Inv Dom val (fun i k => skip (nth (Z.to_nat i) pa (0, 0)) (zsum 0 (sv_num sB) (fun j => skip (nth (Z.to_nat j) pb (0, 0)) (t i j k))))
       (fun i k => skip (nth (Z.to_nat i) pa (0, 0)) (zsum 0 (sv_num sB) (fun j => skip (nth (Z.to_nat j) pb (0, 0)) (w i j k)))) b s) as ((M2 & buf2) & E2 & I2 & V2) end.
  - lia.
  - split; [exact D1|]. split; [reflexivity|]. split; [intros k Hk; exists 0; apply C1; exact Hk|exact F1].
  - intros i st Hi HI. destruct (prims_at sA pa i PA Hi) as (Gc & Ga). rewrite Gc, bind_ok.
    destruct (Rlt_dec (Rabs (fst (nth (Z.to_nat i) pa (0, 0)))) zero_thresh) as [Hlt|Hge].
    + exists st. split; [reflexivity|]. split; [exact HI|]. intros k _. unfold skip. destruct (Rlt_dec _ _); [|contradiction]. rewrite Rplus_0_r, Rminus_eq_0, Rabs_R0. lra.
    + unfold skip at 1 3. destruct (Rlt_dec (Rabs (fst (nth (Z.to_nat i) pa (0, 0)))) zero_thresh) as [Hlt|_]; [contradiction|].
      apply (loop_approx 0 (sv_num sB) Inv Dom val (fun j k => skip (nth (Z.to_nat j) pb (0, 0)) (t i j k)) (fun j k => skip (nth (Z.to_nat j) pb (0, 0)) (w i j k))); [lia|exact HI|].
      intros j (M2 & buf2) Hj (D2 & Db & R2 & F2). destruct (prims_at sB pb j PB Hj) as (Gcb & Gab). rewrite Gcb, bind_ok.
      unfold skip, val. destruct (Rlt_dec (Rabs (fst (nth (Z.to_nat j) pb (0, 0)))) zero_thresh) as [Hltb|Hgeb].
      * exists (M2, buf2). split; [reflexivity|]. split; [split; [exact D2|]; split; [exact Db|]; split; [exact R2|exact F2]|]. intros k _. rewrite Rplus_0_r, Rminus_eq_0, Rabs_R0. lra.
      * rewrite Ga, bind_ok, Gab, bind_ok. cbn [fst snd] in *.
        destruct (Hs _ _ _ _ (KEPT pa i ltac:(lia) Hge) (KEPT pb j ltac:(lia) Hgeb)) as (Hq & Hsp).
        destruct (pair_cells daw n (snd (nth (Z.to_nat i) pa (0, 0))) (snd (nth (Z.to_nat j) pb (0, 0))) c C buf2 delta Hq Hn Db Hsp) as (buf3 & E3 & D3 & V3). rewrite E3, bind_ok.
        destruct (daxpy_get size size sz (fst (nth (Z.to_nat i) pa (0, 0)) * fst (nth (Z.to_nat j) pb (0, 0))) buf3 M2 D3 D2 ltac:(lia) ltac:(lia)) as (M3 & E4 & D4 & V4 & F4).
        { intros k Hk. destruct (V3 k Hk) as (v & Ev & _). exists v. exact Ev. } { exact R2. }
        rewrite E4, bind_ok. exists (M3, buf3). split; [reflexivity|]. split.
        -- split; [exact D4|]. split; [exact D3|]. split; [intros k Hk; eexists; apply V4; exact Hk|]. cbn [fst]. intros ix Hix. rewrite F4 by exact Hix. apply F2. exact Hix.
        -- intros k Hk. cbn [fst]. rewrite (cellv_ok _ _ _ (V4 k Hk)). destruct (V3 k Hk) as (v & Ev & Bv). rewrite (cellv_ok _ _ _ Ev). unfold t, w. cbv zeta.
           match goal with |- Rabs (?m + ?cc * v - (?m + ?cc * ?pv)) <= _ => replace (m + cc * v - (m + cc * pv)) with (cc * (v - pv)) by ring end.
           rewrite Rabs_mult.
           match goal with |- _ <= delta * (?x * ?y) => replace (delta * (x * y)) with (x * (delta * y)) by ring end.
           apply Rmult_le_compat_l; [apply Rabs_pos|exact Bv].
  - rewrite E2, bind_ok. destruct I2 as (D2 & _ & R2 & F2). cbn [fst] in *. exists M2. split; [reflexivity|]. split; [exact D2|].
    split; [|exact F2]. intros k Hk. eexists. split; [apply readable_cellv; apply R2; exact Hk|].
    specialize (V2 k Hk). unfold val in V2. cbn [fst] in V2. rewrite (cellv_ok _ _ _ (C1 k Hk)), Rplus_0_l in V2.
    assert (SUM : forall g : R * R -> R * R -> R, zsum 0 (sv_num sA) (fun i => skip (nth (Z.to_nat i) pa (0, 0)) (zsum 0 (sv_num sB) (fun j => skip (nth (Z.to_nat j) pb (0, 0)) (g (nth (Z.to_nat i) pa (0, 0)) (nth (Z.to_nat j) pb (0, 0)))))) = prim_sum pa pb g).
    { intros g. rewrite NA, NB. unfold prim_sum. rewrite <- lsum_kept. rewrite <- (zsum_lsum pa (0, 0)). apply zsum_ext. intros i _. unfold skip at 1.
      destruct (Rlt_dec _ _); [reflexivity|]. rewrite <- lsum_kept. rewrite <- (zsum_lsum pb (0, 0)). reflexivity. }
    unfold value_k, weight_k. rewrite <- SUM. eapply Rle_trans; [exact V2|].
    unfold w. rewrite (SUM (fun p q => delta * (Rabs (fst p * fst q) * pair_weight n LA LB A B C c (snd p) (snd q) (compA k) (compB k)))).
    unfold prim_sum. rewrite <- lsum_scal. right. apply lsum_ext. intros p _. rewrite <- lsum_scal. reflexivity.
Qed.

(** the whole potential *)
Definition pot_value (C : R * R * R) (terms : list (Z * R * R)) (k : Z) : R := lsum (fun '(n, cf, al) => cf * value_k n C al k) terms.
Definition pot_weight (C : R * R * R) (terms : list (Z * R * R)) (k : Z) : R := lsum (fun '(n, cf, al) => Rabs cf * weight_k n C al k) terms.

Definition terms_ok daw (C : R * R * R) (terms : list (Z * R * R)) (delta : R) : Prop :=
  forall n cf al, In (n, cf, al) terms -> (n = 0 \/ n = 1 \/ n = 2)%Z /\
    forall cA aA cB aB, In (cA, aA) (kept pa) -> In (cB, aB) (kept pb) -> 0 < aA + aB + al /\ special_error daw n (LA + LB) (pair_arg aA aB al A B C) delta.

Lemma type1_integrals_ok daw C pot M sz delta : 0 <= delta -> adims M = [sz] -> (size <= sz)%Z -> terms_ok daw C (pv_prims pot) delta ->
  exists M', type1_integrals daw true sA sB C (Some pot) M = Ok M' /\ adims M' = [sz] /\
    (forall k, (0 <= k < size)%Z -> exists v, aget M' [k] = Ok v /\ Rabs (v - pot_value C (pv_prims pot) k) <= delta * pot_weight C (pv_prims pot) k) /\
    (forall ix, (forall k, (0 <= k < size)%Z -> ix <> [k]) -> aget M' ix = aget M ix).
Proof.
  intros Hdl D Hsz HT. unfold type1_integrals. cbn [massert bind]. cbv zeta. pose proof size_nonneg as Hn0.
  destruct (memset0_get size sz M D) as (M1 & E1 & D1 & C1 & F1); [lia|]. rewrite E1, bind_ok.
  set (step := fun (r : res (arr R * arr R)) '(pow_k, coef_k, alpha_k) =>
        let* (M, buf) := r in
        let* buf := type1_mmd daw sA sB C alpha_k pow_k buf in
        let* M := daxpy size coef_k buf M in
        Ok (M, buf)).
  assert (G : forall terms M0 buf0 done, terms_ok daw C terms delta -> adims M0 = [sz] -> adims buf0 = [size] ->
     (forall k, (0 <= k < size)%Z -> exists v, aget M0 [k] = Ok v /\ Rabs (v - pot_value C done k) <= delta * pot_weight C done k) ->
     (forall ix, (forall k, (0 <= k < size)%Z -> ix <> [k]) -> aget M0 ix = aget M ix) ->
     exists M' buf', fold_left step terms (Ok (M0, buf0)) = Ok (M', buf') /\ adims M' = [sz] /\
       (forall k, (0 <= k < size)%Z -> exists v, aget M' [k] = Ok v /\ Rabs (v - pot_value C (done ++ terms) k) <= delta * pot_weight C (done ++ terms) k) /\
       (forall ix, (forall k, (0 <= k < size)%Z -> ix <> [k]) -> aget M' ix = aget M ix)).
  { induction terms as [|[[n cf] al] terms IH]; intros M0 buf0 done HT0 D0 Db V0 F0.
    - exists M0, buf0. split; [reflexivity|]. split; [exact D0|]. rewrite app_nil_r. split; [exact V0|exact F0].
    - destruct (HT0 n cf al (or_introl eq_refl)) as (Hn & Hsp).
      destruct (type1_mmd_ok daw n C al buf0 size delta Hn Db ltac:(lia) Hsp) as (buf1 & E2 & D2 & V2 & _).
      destruct (daxpy_get size size sz cf buf1 M0 D2 D0 ltac:(lia) ltac:(lia)) as (M2 & E3 & D3 & V3 & F3).
      { intros k Hk. destruct (V2 k Hk) as (v & Ev & _). exists v. exact Ev. }
      { intros k Hk. destruct (V0 k Hk) as (v & Ev & _). exists v. exact Ev. }
      assert (ST : step (Ok (M0, buf0)) (n, cf, al) = Ok (M2, buf1)).
      { unfold step. rewrite bind_ok, E2, bind_ok, E3. reflexivity. }
      cbn [fold_left]. rewrite ST.
      replace (done ++ (n, cf, al) :: terms) with ((done ++ [(n, cf, al)]) ++ terms) by (rewrite <- app_assoc; reflexivity).
      apply IH; [intros n' cf' al' Hin; apply (HT0 n' cf' al'); right; exact Hin|exact D3|exact D2| |intros ix Hix; rewrite F3 by exact Hix; apply F0; exact Hix].
      intros k Hk. eexists. split; [apply V3; exact Hk|]. destruct (V0 k Hk) as (v0 & Ev0 & B0). destruct (V2 k Hk) as (v2 & Ev2 & B2).
      rewrite (cellv_ok _ _ _ Ev0), (cellv_ok _ _ _ Ev2). unfold pot_value, pot_weight in *. rewrite !lsum_app, !lsum_cons. change (lsum _ nil) with 0. rewrite !Rplus_0_r.
      match goal with |- Rabs (v0 + cf * v2 - (?p0 + cf * ?p2)) <= delta * (?w0 + Rabs cf * ?w2) =>
        replace (v0 + cf * v2 - (p0 + cf * p2)) with ((v0 - p0) + cf * (v2 - p2)) by ring; replace (delta * (w0 + Rabs cf * w2)) with (delta * w0 + Rabs cf * (delta * w2)) by ring end.
      eapply Rle_trans; [apply Rabs_triang|]. apply Rplus_le_compat; [exact B0|]. rewrite Rabs_mult. apply Rmult_le_compat_l; [apply Rabs_pos|exact B2]. }
  destruct (G (pv_prims pot) M1 (aconst [size] 0) [] HT D1 eq_refl) as (M' & buf' & E' & D' & V' & F').
  - intros k Hk. exists 0. split; [apply C1; exact Hk|]. unfold pot_value, pot_weight. change (lsum _ nil) with 0. rewrite Rminus_eq_0, Rabs_R0. lra.
  - exact F1.
  - exists M'. split; [refine (eq_trans (f_equal (fun x => bind x _) E') _); reflexivity|]. split; [exact D'|]. split; [exact V'|exact F'].
Qed.
End Contract.
