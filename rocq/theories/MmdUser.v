(** * Packaged lemmas for C40-C43, C61, C62 *)

From Coq Require Import ZArith List Lia Bool Reals Lra.
From Coquelicot Require Import Coquelicot.
From Verif Require Import Base Loops Sums CartModel CartProofs GaussInt GaussProd NucPotSpec NucPot HeapModel HeapProofs HeapSpec OneElModel OneElProofs OneElPairs OneElSpec OneElInt OneElThms LmatModel SpecModel SpecSpec SpecBoys BoysThms GfunThms SphProofs NucProofs OutercoreModel MmdModel MmdSpec MmdE MmdR MmdInt MmdD MmdProofs MmdMain MmdThms.
Import ListNotations.
Open Scope R_scope.

(** ** Linearity of [local_int] *)
Lemma local_ext n C F G v : (forall x y z, F x y z = G x y z) -> local_int n C F v -> local_int n C G v.
Proof.
  intros HE [(E & H) | [(E & H) | (E & H)]]; [left|right; left|right; right]; (split; [exact E|]); [eapply is_int3_ext; eassumption|eapply kernel_ext; eassumption|eapply kernel_ext; eassumption].
Qed.
Lemma local_scal n C F k v : local_int n C F v -> local_int n C (fun x y z => k * F x y z) (k * v).
Proof.
  intros [(E & H) | [(E & H) | (E & H)]]; [left|right; left|right; right]; (split; [exact E|]); [apply is_int3_scal|apply kernel_scal|apply kernel_scal]; exact H.
Qed.
Lemma local_plus n C F G v w : local_int n C F v -> local_int n C G w -> local_int n C (fun x y z => F x y z + G x y z) (v + w).
Proof.
  intros [(E & H) | [(E & H) | (E & H)]] [(E' & H') | [(E' & H') | (E' & H')]]; try lia; [left|right; left|right; right]; (split; [exact E|]); [apply is_int3_plus|apply kernel_plus|apply kernel_plus]; assumption.
Qed.
Lemma local_zero n C : (n = 0 \/ n = 1 \/ n = 2)%Z -> local_int n C (fun _ _ _ => 0) 0.
Proof. intros [E | [E | E]]; [right; right|right; left|left]; (split; [exact E|]); [apply kernel_zero|apply kernel_zero|apply is_int3_zero]. Qed.
Lemma local_lsum {T} n C (F : T -> R -> R -> R -> R) (v : T -> R) l : (n = 0 \/ n = 1 \/ n = 2)%Z -> (forall a, In a l -> local_int n C (F a) (v a)) ->
  local_int n C (fun x y z => lsum (fun a => F a x y z) l) (lsum v l).
Proof.
  intros Hn. induction l as [|a l IH]; intros H; [apply local_zero; exact Hn|].
  apply (local_ext n C (fun x y z => F a x y z + lsum (fun a => F a x y z) l)); [intros; rewrite lsum_cons; reflexivity|]. rewrite lsum_cons.
  apply local_plus; [apply H; left; reflexivity|apply IH; intros a' Hin; apply H; right; exact Hin].
Qed.

(** the integral of F times the potential: sum over its terms c r^(n-2) exp(-alpha r^2) *)
Fixpoint pot_int (C : R * R * R) (terms : list (Z * R * R)) (F : R -> R -> R -> R) (v : R) : Prop :=
  match terms with
  | [] => v = 0
  | (n, cf, al) :: rest => exists v1 v2, local_int n C (fun x y z => F x y z * exp (- (al * rho2 C x y z))) v1 /\ pot_int C rest F v2 /\ v = cf * v1 + v2
  end.

Lemma prim_sum_int n C al LA LB A B pa pb cA cB : (n = 0 \/ n = 1 \/ n = 2)%Z ->
  (forall c1 a1 c2 a2, In (c1, a1) (kept pa) -> In (c2, a2) (kept pb) -> 0 < a1 + a2 + al) ->
  local_int n C (fun x y z => phi LA A (kept pa) cA x y z * phi LB B (kept pb) cB x y z * exp (- (al * rho2 C x y z)))
    (prim_sum pa pb (fun p q => fst p * fst q * pair_value n LA LB A B C al (snd p) (snd q) cA cB)).
Proof.
  intros Hn Hpos. unfold prim_sum.
  apply (local_ext n C (fun x y z => lsum (fun p => lsum (fun q => fst p * fst q * (pfun LA A cA (snd p) x y z * pfun LB B cB (snd q) x y z * exp (- (al * rho2 C x y z)))) (kept pb)) (kept pa))).
  - intros x y z. rewrite !phi_contr. unfold contr.
    transitivity (lsum (fun p => (lsum (fun q => fst q * pfun LB B cB (snd q) x y z) (kept pb) * exp (- (al * rho2 C x y z))) * (fst p * pfun LA A cA (snd p) x y z)) (kept pa)); [|rewrite lsum_scal; ring].
    apply lsum_ext. intros p _.
    transitivity (lsum (fun q => (fst p * pfun LA A cA (snd p) x y z * exp (- (al * rho2 C x y z))) * (fst q * pfun LB B cB (snd q) x y z)) (kept pb)); [|rewrite lsum_scal; ring].
    apply lsum_ext. intros q _. ring.
  - apply local_lsum; [exact Hn|]. intros [c1 a1] I1. apply local_lsum; [exact Hn|]. intros [c2 a2] I2. apply local_scal. cbn [snd]. apply pair_value_int; [|exact Hn]. eapply Hpos; eassumption.
Qed.

(** ** The call *)
(** type1_integrals.c 43-102 on shells in the heap *)
Definition type1_call (daw : R -> res R) (init : bool) (h : heap) (pA pB : Z) (C : R * R * R) (potential : option vpot) (M : arr R) : res (arr R) :=
  let* A := view_shell h pA in let* B := view_shell h pB in type1_integrals daw init A B C potential M.

(** the functions of a shell without the primitives of negligible coefficient *)
Definition phi_kept (v : sview) : Z * Z * Z -> R -> R -> R -> R := phi (v_L v) (v_origin v) (kept (v_prims v)).

(** all powers are 0, 1 or 2, all exponents give convergent integrals, and delta
    bounds the error of the special functions *)
Definition within (daw : R -> res R) (vA vB : sview) (C : R * R * R) (terms : list (Z * R * R)) (delta : R) : Prop :=
  terms_ok (v_L vA) (v_L vB) (v_origin vA) (v_origin vB) (v_prims vA) (v_prims vB) daw C terms delta.

(** amplification of that error *)
Definition amplification (vA vB : sview) (C : R * R * R) (terms : list (Z * R * R)) (cA cB : Z * Z * Z) : R :=
  lsum (fun '(n, cf, al) => Rabs cf * lsum (fun p => lsum (fun q => Rabs (fst p * fst q) * pair_weight n (v_L vA) (v_L vB) (v_origin vA) (v_origin vB) C al (snd p) (snd q) cA cB) (kept (v_prims vB))) (kept (v_prims vA))) terms.

Lemma pot_value_int daw vA vB C terms delta cA cB : within daw vA vB C terms delta ->
  pot_int C terms (fun x y z => phi_kept vA cA x y z * phi_kept vB cB x y z)
    (lsum (fun '(n, cf, al) => cf * prim_sum (v_prims vA) (v_prims vB) (fun p q => fst p * fst q * pair_value n (v_L vA) (v_L vB) (v_origin vA) (v_origin vB) C al (snd p) (snd q) cA cB)) terms).
Proof.
  intros H. induction terms as [|[[n cf] al] terms IH]; [reflexivity|]. cbn [pot_int]. rewrite lsum_cons.
  destruct (H n cf al (or_introl eq_refl)) as (Hn & Hp).
  eexists _, _. split; [|split; [apply IH; intros n' cf' al' Hin; apply (H n' cf' al'); right; exact Hin|reflexivity]].
  apply prim_sum_int; [exact Hn|]. intros c1 a1 c2 a2 I1 I2. apply (Hp c1 a1 c2 a2 I1 I2).
Qed.

(** nothing else in the matrix is written *)
Definition only_block (M M' : arr R) (vA vB : sview) : Prop :=
  adims M' = adims M /\ forall k, ~ (0 <= k < v_size vA * v_size vB)%Z -> aget M' [k] = aget M [k].

Lemma type1_thm daw h pA pB vA vB ca cb C pot M delta : heap_wf h ->
  std_shell h pA vA ca -> std_shell h pB vB cb -> (v_L vA <= 9)%Z -> (v_L vB <= 9)%Z -> fits M vA vB ->
  0 <= delta -> within daw vA vB C (pv_prims pot) delta ->
  exists M', type1_call daw true h pA pB C (Some pot) M = Ok M' /\ only_block M M' vA vB /\
    forall m n cA cB, nth_error ca m = Some cA -> nth_error cb n = Some cB ->
      exists s v, elem_at M' vB m n = Ok s /\ pot_int C (pv_prims pot) (fun x y z => phi_kept vA cA x y z * phi_kept vB cB x y z) v /\
        Rabs (s - v) <= delta * amplification vA vB C (pv_prims pot) cA cB.
Proof.
  intros W SA SB LA LB (sz & D & Hsz) Hdl HT.
  destruct (std_view h pA vA ca W SA) as (sA & EA & IA & ZA).
  destruct (std_view h pB vB cb W SB) as (sB & EB & IB & ZB).
  pose proof (std_size _ _ _ _ SA) as NA. pose proof (std_size _ _ _ _ SB) as NB.
  assert (LA0 : (0 <= v_L vA)%Z) by (destruct SA as (_ & H & _); exact H).
  assert (LB0 : (0 <= v_L vB)%Z) by (destruct SB as (_ & H & _); exact H).
  unfold type1_call. rewrite EA, EB. cbn [bind].
  destruct (type1_integrals_ok sA sB _ _ _ _ _ _ ca cb IA IB ltac:(lia) ltac:(lia) daw C pot M sz delta Hdl D ltac:(rewrite ZA, ZB; exact Hsz) HT) as (M' & E' & D' & V' & F').
  exists M'. split; [exact E'|]. split.
  - split; [congruence|]. intros k Hk. apply F'. rewrite ZA, ZB. intros k' Hk' Eq. injection Eq as ->. lia.
  - intros m n cA cB Em En.
    assert (Hm : (m < length ca)%nat) by (apply nth_error_Some; congruence).
    assert (Hn : (n < length cb)%nat) by (apply nth_error_Some; congruence).
    assert (Hk : (0 <= Z.of_nat m * sv_size sB + Z.of_nat n < sv_size sA * sv_size sB)%Z) by (rewrite ZA, ZB, NA, NB; nia).
    destruct (V' _ Hk) as (s & Es & Bs). exists s. eexists. split; [unfold elem_at; rewrite <- ZB; exact Es|]. split; [apply (pot_value_int daw vA vB C (pv_prims pot) delta cA cB HT)|].
    assert (CA : compA sB ca (Z.of_nat m * sv_size sB + Z.of_nat n) = cA).
    { unfold compA. rewrite Z.div_add_l by lia. rewrite Z.div_small by lia. rewrite Z.add_0_r, Nat2Z.id. apply nth_error_nth. exact Em. }
    assert (CB : compB sB cb (Z.of_nat m * sv_size sB + Z.of_nat n) = cB).
    { unfold compB. rewrite Z.add_comm, Z.mod_add by lia. rewrite Z.mod_small by lia. rewrite Nat2Z.id. apply nth_error_nth. exact En. }
    unfold pot_value, pot_weight, value_k, weight_k in Bs. rewrite CA, CB in Bs. exact Bs.
Qed.

(** ** Sum over the terms, NULL, powers that are not documented *)
Lemma daxpy_out n a x y y' : (0 <= n)%Z -> daxpy n a x y = Ok y' ->
  adims y' = adims y /\ (forall ix, inb (adims y) ix = false -> acell y' ix = acell y ix) /\
  (forall ix, (forall k, (0 <= k < n)%Z -> ix <> [k]) -> aget y' ix = aget y ix) /\
  forall k, (0 <= k < n)%Z -> exists yk xk, aget y [k] = Ok yk /\ aget x [k] = Ok xk /\ aget y' [k] = Ok (yk + a * xk).
Proof.
  intros Hn H. unfold daxpy in H.
  pose (I := fun i (s : arr R) => adims s = adims y /\ (forall ix, inb (adims y) ix = false -> acell s ix = acell y ix) /\
    (forall ix, (forall k, (0 <= k < i)%Z -> ix <> [k]) -> aget s ix = aget y ix) /\
    (forall k, (0 <= k < i)%Z -> exists yk xk, aget y [k] = Ok yk /\ aget x [k] = Ok xk /\ aget s [k] = Ok (yk + a * xk))).
  assert (R : I n y').
  { revert H. apply (for_range_inv I 0 n); [exact Hn| |].
    - split; [reflexivity|]. split; [auto|]. split; [auto|]. intros k Hk; lia.
    - intros i s s' Hi (G1 & G2 & G3 & G4) Hs.
      destruct (aget s [i]) as [yi|] eqn:E1; [|discriminate Hs]. cbn [bind] in Hs. destruct (aget x [i]) as [xi|] eqn:E2; [|discriminate Hs]. cbn [bind] in Hs.
      assert (Hb : inb (adims s) [i] = true) by (apply aget_inv in E1; tauto).
      destruct (aset_get s [i] (yi + a * xi) Hb) as (s2 & F1 & F2 & F3 & F4). rewrite F1 in Hs. injection Hs as <-.
      split; [congruence|]. split; [|split].
      + intros ix Hix. unfold aset in F1. rewrite Hb in F1. injection F1 as <-. cbn [acell]. rewrite ix_eqb_neq; [apply G2; exact Hix|]. intros ->. rewrite G1 in Hb. congruence.
      + intros ix Hix. rewrite F4; [apply G3; intros k Hk; apply Hix; lia|apply Hix; lia].
      + intros k Hk. destruct (Z.eq_dec k i) as [->|Ne].
        * exists yi, xi. split; [|auto]. rewrite <- E1. symmetry. apply G3. intros k Hk' Eq. injection Eq as ->. lia.
        * destruct (G4 k ltac:(lia)) as (yk & xk & K1 & K2 & K3). exists yk, xk. split; [exact K1|]. split; [exact K2|]. rewrite F4 by congruence. exact K3. }
  exact R.
Qed.

Section Terms.
Variable daw : R -> res R.
Variables sA sB : vshell.
Variable C : R * R * R.
Notation size := (sv_size sA * sv_size sB)%Z.
Hypothesis Hsize : (0 <= size)%Z.

Definition plain (b : arr R) : Prop := adims b = [size] /\ (forall ix, inb [size] ix = false -> acell b ix = Some 0) /\ forall k, (0 <= k < size)%Z -> readable b [k].

Lemma memset_plain b : plain b -> memset0 size b = Ok (aconst [size] 0).
Proof.
  intros (D & F & _). destruct (memset0_ok size size b D ltac:(lia)) as (b' & E & D' & C' & F'). rewrite E. f_equal. destruct b' as [d c]. cbn [adims acell] in *. subst d. unfold aconst. f_equal.
  apply FunctionalExtensionality.functional_extensionality. intros ix. destruct (inb [size] ix) eqn:Eb.
  - destruct ix as [|k [|k' ix]]; cbn in Eb; [discriminate Eb|apply C'; lia|rewrite andb_false_r in Eb; discriminate Eb].
  - rewrite F'; [apply F; exact Eb|]. intros k Hk ->. assert (Eb2 := proj2 (inb1 size k) Hk); congruence.
Qed.

Lemma plain_const : plain (aconst [size] 0).
Proof. split; [reflexivity|]. split; [reflexivity|]. intros k Hk. exists 0. apply aget_ok; [apply inb1; exact Hk|reflexivity]. Qed.

Lemma daxpy_plain a x y y' : plain y -> daxpy size a x y = Ok y' -> plain y'.
Proof.
  intros (D & F & _) H. destruct (daxpy_out _ _ _ _ _ Hsize H) as (D' & F' & _ & V'). split; [congruence|]. split; [intros ix Hix; rewrite F' by (rewrite D; exact Hix); apply F; exact Hix|].
  intros k Hk. destruct (V' k Hk) as (? & ? & _ & _ & E). eexists; exact E.
Qed.

Lemma term_plain n al b r : plain b -> type1_mmd daw sA sB C al n b = r ->
  r = type1_mmd daw sA sB C al n (aconst [size] 0) /\ forall b', r = Ok b' -> plain b'.
Proof.
  intros Hb <-. split.
  - unfold type1_mmd. destruct (massert _); cbn [bind]; [|reflexivity]. cbv zeta. rewrite (memset_plain b Hb), (memset_plain _ plain_const). reflexivity.
  - intros b'. unfold type1_mmd. destruct (massert _); cbn [bind]; [|discriminate]. cbv zeta. rewrite (memset_plain b Hb), bind_ok. intros H.
    match type of H with bind ?X _ = _ => destruct X as [[M1 bf]|] eqn:E end; [|discriminate H]. cbn [bind] in H. injection H as <-.
    destruct (Z_le_gt_dec 0 (sv_num sA)) as [Hn|Hn]; [|rewrite for_range_nil in E by lia; injection E as <- <-; apply plain_const].
    cut (plain (fst (M1, bf))); [auto|]. revert E. apply (for_range_inv (fun _ (st : arr R * arr R) => plain (fst st)) 0 (sv_num sA)); [exact Hn|apply plain_const|].
    intros i s s' _ Hs. destruct (aget (sv_coef sA) [i]) as [cA|]; [|discriminate]. cbn [bind]. destruct (Rlt_dec (Rabs cA) zero_thresh); [intros E; injection E as <-; exact Hs|].
    destruct (Z_le_gt_dec 0 (sv_num sB)) as [Hn'|Hn']; [|rewrite for_range_nil by lia; intros E; injection E as <-; exact Hs].
    apply (for_range_inv (fun _ (st : arr R * arr R) => plain (fst st)) 0 (sv_num sB)); [exact Hn'|exact Hs|].
    intros j [m bf1] s2 _ Hm. destruct (aget (sv_coef sB) [j]) as [cB|]; [|discriminate]. cbn [bind]. destruct (Rlt_dec (Rabs cB) zero_thresh); [intros E; injection E as <-; exact Hm|].
    destruct (aget (sv_alpha sA) [i]); [|discriminate]. cbn [bind]. destruct (aget (sv_alpha sB) [j]); [|discriminate]. cbn [bind].
    destruct (mmd_primitive_pair _ _ _ _ _ _ _ _ _); [|discriminate]. cbn [bind]. destruct (daxpy _ _ _ m) eqn:E3; [|discriminate]. cbn [bind]. intros E; injection E as <-. cbn [fst] in *. eapply daxpy_plain; eassumption.
Qed.

(** what one term contributes *)
Notation one n al := (type1_mmd daw sA sB C al n (aconst [size] 0)).
Definition term_at (k : Z) (t : Z * R * R) (v : R) : Prop := let '(n, _, al) := t in exists b, one n al = Ok b /\ aget b [k] = Ok v.

Notation stepf := (fun (r : res (arr R * arr R)) '(pow_k, coef_k, alpha_k) =>
        let* (M, buf) := r in
        let* buf := type1_mmd daw sA sB C alpha_k pow_k buf in
        let* M := daxpy size coef_k buf M in
        Ok (M, buf)).

Lemma step_fail terms f : fold_left stepf terms (Fail f) = Fail f.
Proof. induction terms as [|[[n cf] al] terms IH]; [reflexivity|]. cbn [fold_left bind]. exact IH. Qed.

Lemma terms_sum terms M b M' b' : plain b -> fold_left stepf terms (Ok (M, b)) = Ok (M', b') ->
  adims M' = adims M /\ (forall ix, (forall k, (0 <= k < size)%Z -> ix <> [k]) -> aget M' ix = aget M ix) /\
  (forall n cf al, In (n, cf, al) terms -> (n = 0 \/ n = 1 \/ n = 2)%Z) /\
  forall k m, (0 <= k < size)%Z -> aget M [k] = Ok m -> exists vs, Forall2 (term_at k) terms vs /\ aget M' [k] = Ok (m + lsum (fun p => snd (fst (fst p)) * snd p) (combine terms vs)).
Proof.
  revert M b. induction terms as [|[[n cf] al] terms IH]; intros M b Hb H.
  - cbn [fold_left] in H. injection H as <- <-. split; [reflexivity|]. split; [reflexivity|]. split; [intros ? ? ? []|]. intros k m _ Hm. exists []. split; [constructor|]. cbn [combine lsum fold_right]. rewrite Rplus_0_r. exact Hm.
  - cbn [fold_left bind] in H. destruct (type1_mmd daw sA sB C al n b) as [b1|] eqn:E1; [|cbn [bind] in H; rewrite step_fail in H; discriminate H]. cbn [bind] in H.
    destruct (term_plain _ _ _ _ Hb E1) as (G1 & G2).
    assert (Hp : (n = 0 \/ n = 1 \/ n = 2)%Z).
    { unfold type1_mmd in E1. destruct ((n =? 0)%Z || (n =? 1)%Z || (n =? 2)%Z) eqn:En; [lia|discriminate E1]. }
    destruct (daxpy size cf b1 M) as [M1|] eqn:E2; [|cbn [bind] in H; rewrite step_fail in H; discriminate H]. cbn [bind] in H.
    destruct (daxpy_out _ _ _ _ _ Hsize E2) as (D1 & _ & F1 & V1).
    destruct (IH _ _ (G2 _ eq_refl) H) as (D2 & F2 & P2 & V2).
    split; [congruence|]. split; [intros ix Hix; rewrite F2, F1 by exact Hix; reflexivity|]. split; [intros n' cf' al' [Eq | Hin]; [injection Eq as <- <- <-; exact Hp|eapply P2; exact Hin]|].
    intros k m Hk Hm. destruct (V1 k Hk) as (yk & xk & K1 & K2 & K3). assert (yk = m) by congruence. subst yk. destruct (V2 k _ Hk K3) as (vs & Q1 & Q2).
    exists (xk :: vs). split; [constructor; [exists b1; auto|exact Q1]|]. cbn [combine]. rewrite lsum_cons. cbn [fst snd]. rewrite Q2. f_equal. ring.
Qed.

Lemma type1_terms M sz pot M' : adims M = [sz] -> (size <= sz)%Z -> type1_integrals daw true sA sB C (Some pot) M = Ok M' ->
  adims M' = adims M /\ (forall ix, (forall k, (0 <= k < size)%Z -> ix <> [k]) -> aget M' ix = aget M ix) /\
  (forall n cf al, In (n, cf, al) (pv_prims pot) -> (n = 0 \/ n = 1 \/ n = 2)%Z) /\
  forall k, (0 <= k < size)%Z -> exists vs, Forall2 (term_at k) (pv_prims pot) vs /\ aget M' [k] = Ok (lsum (fun p => snd (fst (fst p)) * snd p) (combine (pv_prims pot) vs)).
Proof.
  intros D Hs H. unfold type1_integrals in H. cbn [massert bind] in H. cbv zeta in H.
  destruct (memset0_get size sz M D) as (M1 & E1 & D1 & C1 & F1); [lia|]. rewrite E1, bind_ok in H.
  match type of H with bind ?X _ = _ => destruct X as [[M2 b2]|] eqn:E2 end; [|discriminate H]. cbn [bind] in H. injection H as <-.
  destruct (terms_sum _ _ _ _ _ plain_const E2) as (D2 & F2 & P2 & V2).
  split; [congruence|]. split; [intros ix Hix; rewrite F2, F1 by exact Hix; reflexivity|]. split; [exact P2|]. intros k Hk. destruct (V2 k 0 Hk (C1 k Hk)) as (vs & Q1 & Q2). exists vs. split; [exact Q1|]. rewrite Q2. f_equal. ring.
Qed.
Lemma term_alone M sz n al k v : adims M = [sz] -> (size <= sz)%Z -> (exists b, one n al = Ok b /\ aget b [k] = Ok v) -> (0 <= k < size)%Z -> forall L J,
  exists M', type1_integrals daw true sA sB C (Some (mkVPot L J [(n, 1, al)])) M = Ok M' /\ aget M' [k] = Ok v.
Proof.
  intros D Hs (b & E & V) Hk L J. unfold type1_integrals. cbn [massert bind]. cbv zeta.
  destruct (memset0_get size sz M D) as (M1 & E1 & D1 & C1 & F1); [lia|]. rewrite E1, bind_ok. cbn [pv_prims fold_left bind]. rewrite E, bind_ok.
  destruct (term_plain _ _ _ _ plain_const E) as (_ & P). destruct (P _ eq_refl) as (Db & _ & Rb).
  destruct (daxpy_get size size sz 1 b M1 Db D1 ltac:(lia) ltac:(lia)) as (M2 & E2 & D2 & V2 & _); [exact Rb|intros k0 Hk0; exists 0; apply C1; exact Hk0|].
  rewrite E2, !bind_ok. exists M2. split; [reflexivity|]. rewrite V2 by exact Hk. rewrite (cellv_ok _ _ _ (C1 k Hk)), (cellv_ok _ _ _ V). f_equal. ring.
Qed.
End Terms.

Definition single (pot : vpot) (n : Z) (al : R) : vpot := mkVPot (pv_L pot) (pv_J pot) [(n, 1, al)].

Lemma linear_thm daw h pA pB vA vB ca cb C pot M M' : heap_wf h -> std_shell h pA vA ca -> std_shell h pB vB cb -> fits M vA vB ->
  type1_call daw true h pA pB C (Some pot) M = Ok M' ->
  only_block M M' vA vB /\
  forall k, (0 <= k < v_size vA * v_size vB)%Z -> exists vs,
    Forall2 (fun '(n, cf, al) v => (n = 0 \/ n = 1 \/ n = 2)%Z /\ exists Mt, type1_call daw true h pA pB C (Some (single pot n al)) M = Ok Mt /\ aget Mt [k] = Ok v) (pv_prims pot) vs /\
    aget M' [k] = Ok (lsum (fun '((n, cf, al), v) => cf * v) (combine (pv_prims pot) vs)).
Proof.
  intros W SA SB (sz & D & Hsz) H.
  destruct (std_view h pA vA ca W SA) as (sA & EA & IA & ZA).
  destruct (std_view h pB vB cb W SB) as (sB & EB & IB & ZB).
  pose proof (std_size _ _ _ _ SA) as NA. pose proof (std_size _ _ _ _ SB) as NB.
  unfold type1_call in *. rewrite EA, EB in *. cbn [bind] in *. rewrite <- ZA, <- ZB in *.
  assert (Hp : (0 <= sv_size sA * sv_size sB)%Z) by (rewrite NA, NB; nia).
  destruct (type1_terms daw sA sB C Hp M sz pot M' D Hsz H) as (D' & F' & P' & V').
  split; [split; [exact D'|]; intros k Hk; apply F'; rewrite <- ZA, <- ZB in Hk; intros k' Hk' Eq; injection Eq as ->; lia|].
  intros k Hk. destruct (V' k Hk) as (vs & Q1 & Q2). exists vs. split.
  - clear Q2. revert Q1 P'. generalize (pv_prims pot). intros l Q1. induction Q1 as [|[[n cf] al] v l vs Ht Q1 IH]; intros P'; [constructor|]. constructor; [|apply IH; intros; eapply P'; right; eassumption].
    split; [eapply P'; left; reflexivity|]. destruct (term_alone daw sA sB C Hp M sz n al k v D Hsz Ht Hk (pv_L pot) (pv_J pot)) as (Mt & T1 & T2). exists Mt. split; [exact T1|exact T2].
  - rewrite Q2. f_equal. apply lsum_ext. intros [[[n cf] al] v] _. reflexivity.
Qed.

Lemma null_thm daw h pA pB vA vB ca cb C M : heap_wf h -> std_shell h pA vA ca -> std_shell h pB vB cb -> fits M vA vB ->
  exists M', type1_call daw true h pA pB C None M = Ok M' /\ only_block M M' vA vB /\ forall k, (0 <= k < v_size vA * v_size vB)%Z -> aget M' [k] = Ok 0.
Proof.
  intros W SA SB (sz & D & Hsz).
  destruct (std_view h pA vA ca W SA) as (sA & EA & IA & ZA).
  destruct (std_view h pB vB cb W SB) as (sB & EB & IB & ZB).
  pose proof (std_size _ _ _ _ SA) as NA. pose proof (std_size _ _ _ _ SB) as NB.
  unfold type1_call, type1_integrals. rewrite EA, EB. cbn [bind massert]. cbv zeta. rewrite ZA, ZB.
  destruct (memset0_get (v_size vA * v_size vB) sz M D) as (M1 & E1 & D1 & C1 & F1); [rewrite NA, NB in *; nia|].
  rewrite E1, bind_ok. exists M1. split; [reflexivity|]. split; [split; [congruence|]|exact C1]. intros k Hk. apply F1. intros k' Hk' Eq. injection Eq as ->. lia.
Qed.

Lemma power_thm daw h pA pB vA vB ca cb C pot M n cf al : heap_wf h -> std_shell h pA vA ca -> std_shell h pB vB cb -> fits M vA vB ->
  In (n, cf, al) (pv_prims pot) -> (n < 0 \/ 2 < n)%Z -> forall M', type1_call daw true h pA pB C (Some pot) M <> Ok M'.
Proof.
  intros W SA SB (sz & D & Hsz) Hin Hn M' H.
  destruct (std_view h pA vA ca W SA) as (sA & EA & IA & ZA).
  destruct (std_view h pB vB cb W SB) as (sB & EB & IB & ZB).
  pose proof (std_size _ _ _ _ SA) as NA. pose proof (std_size _ _ _ _ SB) as NB.
  unfold type1_call in *. rewrite EA, EB in *. cbn [bind] in *. rewrite <- ZA, <- ZB in *.
  assert (Hp : (0 <= sv_size sA * sv_size sB)%Z) by (rewrite NA, NB; nia).
  destruct (type1_terms daw sA sB C Hp M sz pot M' D Hsz H) as (_ & _ & P' & _). specialize (P' _ _ _ Hin). lia.
Qed.

Lemma power_first_thm daw h pA pB vA vB ca cb C L J n cf al rest M : heap_wf h -> std_shell h pA vA ca -> std_shell h pB vB cb -> fits M vA vB ->
  (n < 0 \/ 2 < n)%Z -> type1_call daw true h pA pB C (Some (mkVPot L J ((n, cf, al) :: rest))) M = Fail AssertFailed.
Proof.
  intros W SA SB (sz & D & Hsz) Hn.
  destruct (std_view h pA vA ca W SA) as (sA & EA & IA & ZA).
  destruct (std_view h pB vB cb W SB) as (sB & EB & IB & ZB).
  pose proof (std_size _ _ _ _ SA) as NA. pose proof (std_size _ _ _ _ SB) as NB.
  unfold type1_call, type1_integrals. rewrite EA, EB. cbn [bind massert]. cbv zeta. rewrite ZA, ZB.
  destruct (memset0_get (v_size vA * v_size vB) sz M D) as (M1 & E1 & D1 & C1 & F1); [rewrite NA, NB in *; nia|].
  rewrite E1, bind_ok. cbn [pv_prims fold_left bind]. 
  assert (T : forall b, type1_mmd daw sA sB C al n b = Fail AssertFailed).
  { intros b. unfold type1_mmd. replace ((n =? 0)%Z || (n =? 1)%Z || (n =? 2)%Z) with false by lia. reflexivity. }
  rewrite T. cbn [bind]. rewrite <- ZA, <- ZB. rewrite step_fail. reflexivity.
Qed.

Lemma uninit_thm daw h pA pB vA vB ca cb C pot M : heap_wf h -> std_shell h pA vA ca -> std_shell h pB vB cb ->
  type1_call daw false h pA pB C pot M = Fail AssertFailed.
Proof.
  intros W SA SB. destruct (std_view h pA vA ca W SA) as (sA & EA & _). destruct (std_view h pB vB cb W SB) as (sB & EB & _).
  unfold type1_call. rewrite EA, EB. reflexivity.
Qed.

(** ** Terms of power 2 *)
(** a potential without 1/r and 1/r^2 terms *)
Definition pot_fun (C : R * R * R) (terms : list (Z * R * R)) (x y z : R) : R := lsum (fun '(n, cf, al) => cf * exp (- (al * rho2 C x y z))) terms.

Lemma pot_int_2 C terms F v : (forall n cf al, In (n, cf, al) terms -> n = 2%Z) -> pot_int C terms F v -> is_int3 (fun x y z => F x y z * pot_fun C terms x y z) v.
Proof.
  revert v. induction terms as [|[[n cf] al] terms IH]; intros v H2 H.
  - cbn [pot_int] in H. subst v. eapply is_int3_ext; [|apply is_int3_zero]. intros. unfold pot_fun. cbn [lsum fold_right]. ring.
  - cbn [pot_int] in H. destruct H as (v1 & v2 & H1 & H3 & ->). assert (n = 2%Z) by (eapply H2; left; reflexivity). subst n.
    destruct H1 as [(_ & H1) | [(E & _) | (E & _)]]; try discriminate E.
    assert (G := IH v2 (fun n c a Hin => H2 n c a (or_intror Hin)) H3).
    eapply is_int3_ext; [|apply (is_int3_plus _ _ _ _ (is_int3_scal _ cf _ H1) G)]. intros x y z. unfold pot_fun. rewrite lsum_cons. ring.
Qed.

Definition power2 (vA vB : sview) (terms : list (Z * R * R)) : Prop :=
  (forall n cf al, In (n, cf, al) terms -> n = 2%Z) /\
  forall n cf al cA aA cB aB, In (n, cf, al) terms -> In (cA, aA) (kept (v_prims vA)) -> In (cB, aB) (kept (v_prims vB)) -> 0 < aA + aB + al.

Lemma gaussian_thm daw h pA pB vA vB ca cb C pot M : heap_wf h -> std_shell h pA vA ca -> std_shell h pB vB cb ->
  (v_L vA <= 9)%Z -> (v_L vB <= 9)%Z -> fits M vA vB -> power2 vA vB (pv_prims pot) ->
  exists M', type1_call daw true h pA pB C (Some pot) M = Ok M' /\ only_block M M' vA vB /\
    forall m n cA cB, nth_error ca m = Some cA -> nth_error cb n = Some cB ->
      exists s, elem_at M' vB m n = Ok s /\ is_int3 (fun x y z => phi_kept vA cA x y z * phi_kept vB cB x y z * pot_fun C (pv_prims pot) x y z) s.
Proof.
  intros W SA SB LA LB HF (H2 & HP).
  assert (Hw : within daw vA vB C (pv_prims pot) 0).
  { intros n cf al Hin. rewrite (H2 _ _ _ Hin) in *. split; [lia|]. intros cA aA cB aB I1 I2. split; [eapply HP; eassumption|]. split; [lra|]. left. reflexivity. }
  destruct (type1_thm daw h pA pB vA vB ca cb C pot M 0 W SA SB LA LB HF (Rle_refl 0) Hw) as (M' & E & F & V).
  exists M'. split; [exact E|]. split; [exact F|]. intros m n cA cB Hm Hn. destruct (V m n cA cB Hm Hn) as (s & v & V1 & V2 & V3).
  exists s. split; [exact V1|]. rewrite Rmult_0_l in V3. assert (s = v) as -> by (apply Rabs_le_between in V3; lra).
  apply pot_int_2; [exact H2|]. exact V2.
Qed.

(** ** The arrays of the scheme *)
Lemma expansion_thm a b c A B C L_A L_B : 0 < a + b + c -> (0 <= L_A <= 9)%Z -> (0 <= L_B <= 9)%Z ->
  exists E, setup_E_array (mmd_geometry a b c A B C) L_A L_B = Ok E /\
    forall k i j, (0 <= k < 3)%Z -> (Z.of_nat i <= L_A)%Z -> (Z.of_nat j <= L_B)%Z ->
      exists e : nat -> R, (forall t, (t <= i + j)%nat -> aget E [k; Z.of_nat i; Z.of_nat j; Z.of_nat t] = Ok (e t)) /\
        forall x, cg a (coord3 A k) i x * cg b (coord3 B k) j x * exp (- (c * ((x - coord3 C k) * (x - coord3 C k)))) =
          rsum (S (i + j)) (fun t => e t * hermite_gaussian (a + b + c) ((a * coord3 A k + b * coord3 B k + c * coord3 C k) / (a + b + c)) t x).
Proof.
  intros Hq HA HB. destruct (setup_E_ok (mmd_geometry a b c A B C) L_A L_B Hq HA HB) as (E & EE & H). exists E. split; [exact EE|].
  intros k i j Hk Hi Hj. exists (fun t => pair_coef a b c (coord3 A k) (coord3 B k) (coord3 C k) i j t). split.
  - intros t Ht. rewrite H by lia. rewrite geom_pair by exact Hk. rewrite !Nat2Z.id. reflexivity.
  - intros x. apply product_expansion. exact Hq.
Qed.

Lemma boys0_fun q X Y Z : boys 0 (q * (X ^ 2 + Y ^ 2 + Z ^ 2)) = RInt (fun s => phi3 (mR q s) 0 0 0 X Y Z) 0 1.
Proof. rewrite <- raux_R. unfold raux. cbn. ring. Qed.
Lemma gfun0_fun q X Y Z : gfun 0 (q * (X ^ 2 + Y ^ 2 + Z ^ 2)) = RInt (fun s => phi3 (mG q s) 0 0 0 X Y Z) 0 1.
Proof. rewrite <- raux_G. unfold raux. cbn. ring. Qed.

Lemma coulomb_thm a b c A B C L_A L_B bs : (0 <= L_A <= 9)%Z -> (0 <= L_B <= 9)%Z ->
  (forall n, (0 <= n <= L_A + L_B)%Z -> aget bs [n] = Ok (boys (Z.to_nat n) (pair_arg a b c A B C))) ->
  exists Rr D, setup_R_array (mmd_geometry a b c A B C) bs L_A L_B = Ok Rr /\
    partials (fun X Y Z => boys 0 ((a + b + c) * (X ^ 2 + Y ^ 2 + Z ^ 2))) D /\
    forall t u v, (Z.of_nat t + Z.of_nat u + Z.of_nat v <= L_A + L_B)%Z ->
      aget Rr [Z.of_nat t; Z.of_nat u; Z.of_nat v; 0%Z] = Ok (D t u v (pair_X a b c A B C 0) (pair_X a b c A B C 1) (pair_X a b c A B C 2)).
Proof.
  intros HA HB Hb. destruct (setup_R_ok (mmd_geometry a b c A B C) bs L_A L_B (fun n => boys n (pair_arg a b c A B C)) HA HB Hb) as (Rr & E & V).
  exists Rr. eexists. split; [exact E|]. split; [apply (phi3_partials (mR (a + b + c))); [apply mR_cont|intros; apply boys0_fun]|].
  intros t u v Ht. rewrite V by lia. rewrite <- raux_R. unfold Rv, auxv. rewrite !Nat2Z.id. reflexivity.
Qed.

Lemma coulomb_G_thm a b c A B C L_A L_B bs : (0 <= L_A <= 9)%Z -> (0 <= L_B <= 9)%Z ->
  (forall n, (0 <= n <= L_A + L_B)%Z -> aget bs [n] = Ok (gfun (Z.to_nat n) (pair_arg a b c A B C))) ->
  exists Rr D, setup_G_array (mmd_geometry a b c A B C) bs L_A L_B = Ok Rr /\
    partials (fun X Y Z => gfun 0 ((a + b + c) * (X ^ 2 + Y ^ 2 + Z ^ 2))) D /\
    forall t u v, (Z.of_nat t + Z.of_nat u + Z.of_nat v <= L_A + L_B)%Z ->
      aget Rr [Z.of_nat t; Z.of_nat u; Z.of_nat v; 0%Z] = Ok (D t u v (pair_X a b c A B C 0) (pair_X a b c A B C 1) (pair_X a b c A B C 2)).
Proof.
  intros HA HB Hb. destruct (setup_G_ok (mmd_geometry a b c A B C) bs L_A L_B (fun n => gfun n (pair_arg a b c A B C)) HA HB Hb) as (Rr & E & V).
  exists Rr. eexists. split; [exact E|]. split; [apply (phi3_partials (mG (a + b + c))); [apply mG_cont|intros; apply gfun0_fun]|].
  intros t u v Ht. rewrite V by lia. rewrite <- raux_G. unfold Gv, auxv. rewrite !Nat2Z.id. reflexivity.
Qed.
