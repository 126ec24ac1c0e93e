(** * A concrete outercore set meeting the hypotheses of the outercore theorems *)

From Coq Require Import ZArith List Lia Bool Reals Lra.
From Coquelicot Require Import Coquelicot.
From Verif Require Import Base Loops Sums CartProofs OneElModel OneElProofs OneElPairs OneElInt OneElSpec GaussProd HeapModel HeapProofs HeapShrink NucPotSpec GaussMoment SphThms OutercoreModel OutercoreProofs OutercoreRadial OutercoreSpec OutercoreMain OutercoreThms.
Import ListNotations.
Open Scope R_scope.

Definition w_cart (l : nat) : list (Z * Z * Z) := canon_up (Z.of_nat l).

Lemma w_cart_ok l : components_of l (w_cart l).
Proof. split; [apply nodup_canon_up|]. intros r s t. apply in_canon_up. Qed.

Definition w_A : vshell := mkV 0 1 (aoflist [0; 0; 0]%Z) 1 (aoflist [1]) (aoflist [2]) (0, 0, 1).
Definition w_B : vshell := mkV 2 6 (aoflist [0; 0; 2; 0; 1; 1; 0; 2; 0; 1; 0; 1; 1; 1; 0; 2; 0; 0]%Z) 1 (aoflist [1]) (aoflist [1 / 2]) (1, 0, -1).
Definition w_oc (a : R) : vshell := mkV 1 3 (aoflist [0; 0; 1; 0; 1; 0; 1; 0; 0]%Z) 1 (aoflist [1]) (aoflist [a]) (7, 7, 7).
Definition w_o (J : Z) (a : R) : oc_data := mkOc 1 J [(2%Z, 3, 1 / 4)] [(1, a)].
Definition w_os : list oc_data := [w_o 1 1; w_o 3 2; w_o 3 (1 / 3)].
Definition w_pots : list (vpot * vshell) := [(mkVPot 1 1 [(2%Z, 3, 1 / 4)], w_oc 1); (mkVPot 1 3 [(2%Z, 3, 1 / 4)], w_oc 2); (mkVPot 1 3 [(2%Z, 3, 1 / 4)], w_oc (1 / 3))].
Definition w_C : R * R * R := (0, 0, 0).

(** the product of a primitive with the Gaussian of the potential *)
Definition w_prims (o : oc_data) : list (R * R) :=
  match oc_prims o with [(c, a)] => [(c * 3 * norm_L 1 a / norm_L 1 (a + 1 / 4), a + 1 / 4)] | _ => [] end.
Definition w_ta (o : oc_data) : Z -> Z -> R := ovm 0 1 (0, 0, 1) w_C [(1, 2)] (w_prims o) [(0, 0, 0)%Z] (w_cart 1).
Definition w_tb (o : oc_data) : Z -> Z -> R := ovm 1 2 w_C (1, 0, -1) (w_prims o) [(1, 1 / 2)] (w_cart 1) (w_cart 2).

Lemma norm_L_pos L a : 0 < a -> 0 < norm_L L a.
Proof. intros H. unfold norm_L. apply Rmult_lt_0_compat; unfold Rpower; apply exp_pos. Qed.

Lemma w_product J a c x y z : 0 < a -> oc_U (w_o J a) w_C x y z * phi 1 w_C [(1, a)] c x y z = phi 1 w_C (w_prims (w_o J a)) c x y z.
Proof.
  intros Ha. unfold phi, w_prims, oc_U. cbn [oc_prims w_o oc_pot lsum fold_right radial_sum p_coef]. unfold radial_term. cbn [p_pow p_exp].
  change (2 - 2)%Z with 0%Z. unfold rpow_int. cbn [powerRZ].
  assert (E : forall c, gto w_C c (a + 1 / 4) x y z = gto w_C c a x y z * exp (- (1 / 4) * (from w_C x y z * from w_C x y z))).
  { intros [[n l] m]. unfold gto, w_C. replace (from (0, 0, 0) x y z * from (0, 0, 0) x y z) with (from (0, 0, 0) x y z ^ 2) by ring. rewrite from_sq. cbn [fst snd]. rewrite (Rmult_assoc _ (exp _) (exp _)). rewrite <- exp_plus. f_equal. f_equal. field. }
  unfold p_coef, p_exp, p_pow in *. cbn [fst snd] in *. unfold lsum. cbn [fold_right]. rewrite E. pose proof (norm_L_pos 1 (a + 1 / 4) ltac:(lra)). change (2 - 2)%Z with 0%Z. cbn [powerRZ]. field. lra.
Qed.

(** a routine computing these integrals; the matrices are told apart by their sizes *)
Definition w_fill (f : Z -> Z -> R) (nc : Z) (M : arr R) : res (arr R) :=
  Ok (mkArr (adims M) (fun ix => match ix with [k] => Some (f (k / nc) (k mod nc))%Z | _ => None end)).
Definition w_t1 : t1_routine := fun X Y _ _ M =>
  let* a := aget (sv_alpha (if (sv_size X =? 3)%Z then X else Y)) [0]%Z in
  let o := w_o 1 a in
  w_fill (if (sv_size X =? 1)%Z then w_ta o else if (sv_size X =? 6)%Z then transpose w_tb o else if (sv_size Y =? 6)%Z then w_tb o else transpose w_ta o) (sv_size Y) M.

Lemma fill_gives f nr nc M sz : (0 < nc)%Z -> adims M = [sz] -> (nr * nc <= sz)%Z -> exists M', w_fill f nc M = Ok M' /\ ismat M' sz nr nc f.
Proof.
  intros Hc D Hs. eexists. split; [reflexivity|]. split; [exact D|]. split; [exact Hs|]. intros i j Hi Hj. unfold aget. cbn [adims acell]. rewrite D.
  replace (inb [sz] [i * nc + j]%Z) with true by (symmetry; apply inb1; nia). rewrite Z.div_add_l, Z.div_small, Z.add_0_r by lia. rewrite Z.add_comm, Z.mod_add, Z.mod_small by lia. reflexivity.
Qed.

Ltac seven i H := repeat (destruct i as [|i]; [repeat split; reflexivity|]); cbn in H; lia.

Lemma w_shell L n cart comps c a org : n = Z.of_nat (length comps) -> comps_of L comps ->
  (forall i, (i < length comps)%nat -> let '(x, y, z) := nth i comps (0, 0, 0)%Z in
    aget (aoflist cart) [3 * Z.of_nat i + 0]%Z = Ok x /\ aget (aoflist cart) [3 * Z.of_nat i + 1]%Z = Ok y /\ aget (aoflist cart) [3 * Z.of_nat i + 2]%Z = Ok z) ->
  vshell_is (mkV L n (aoflist cart) 1 (aoflist [c]) (aoflist [a]) org) L org [(c, a)] comps.
Proof.
  intros Hn Hc H. split; [reflexivity|]. split; [reflexivity|]. split; [|split; [split; [exact Hn|exact H]|exact Hc]].
  split; [reflexivity|]. intros i Hi. destruct i as [|i]; [split; reflexivity|cbn in Hi; lia].
Qed.

Lemma comps_up l : comps_of (Z.of_nat l) (w_cart l).
Proof. intros n k m H. apply in_canon_up in H. tauto. Qed.

Lemma w_A_is : vshell_is w_A 0 (0, 0, 1) [(1, 2)] [(0, 0, 0)%Z].
Proof. apply w_shell; [reflexivity|exact (comps_up 0)|]. intros i Hi. seven i Hi. Qed.
Lemma w_B_is : vshell_is w_B 2 (1, 0, -1) [(1, 1 / 2)] (w_cart 2).
Proof. apply w_shell; [reflexivity|exact (comps_up 2)|]. change (w_cart 2) with [(0, 0, 2); (0, 1, 1); (0, 2, 0); (1, 0, 1); (1, 1, 0); (2, 0, 0)]%Z. intros i Hi. seven i Hi. Qed.
Lemma w_oc_is a : vshell_is (w_oc a) 1 (7, 7, 7) [(1, a)] (w_cart 1).
Proof. apply w_shell; [reflexivity|exact (comps_up 1)|]. change (w_cart 1) with [(0, 0, 1); (0, 1, 0); (1, 0, 0)]%Z. intros i Hi. seven i Hi. Qed.

Lemma w_all (P : vpot * vshell -> oc_data -> Prop) :
  (forall J a, 0 < a -> P (mkVPot 1 J [(2%Z, 3, 1 / 4)], w_oc a) (w_o J a)) -> Forall2 P w_pots w_os.
Proof. intros H. repeat constructor; apply H; lra. Qed.

Lemma w_data : Forall2 (oc_is w_cart) w_pots w_os.
Proof. apply w_all. intros J a Ha. repeat (split; [reflexivity|]). exists (7, 7, 7). exact (w_oc_is a). Qed.

Lemma w_one (o : oc_data) (P : R -> Prop) : In o w_os -> (exists J a, o = w_o J a /\ 0 < a).
Proof. intros [<- | [<- | [<- | []]]]; do 2 eexists; (split; [reflexivity|lra]). Qed.

Lemma w_valid : List.Forall oc_valid w_os.
Proof.
  apply List.Forall_forall. intros o Ho. destruct (w_one o (fun _ => True) Ho) as (J & a & -> & Ha). split; [cbn; lia|]. split.
  - intros c b [E|[]]. injection E as <- <-. exact Ha.
  - intros n c z [E|[]]. injection E as <- <- <-. cbn. repeat split; try lia; lra.
Qed.

Lemma w_t1_ok : Forall2 (oc_t1 w_t1 w_A w_B w_C w_ta w_tb) w_pots w_os.
Proof.
  apply w_all. intros J a Ha. split; intros M sz D Hs; (refine (_ (fill_gives _ _ _ M sz _ D Hs)); [intros X; exact X|]); cbn; lia.
Qed.
Lemma w_t1_swapped : Forall2 (oc_t1 w_t1 w_B w_A w_C (transpose w_tb) (transpose w_ta)) w_pots w_os.
Proof.
  apply w_all. intros J a Ha. split; intros M sz D Hs; (refine (_ (fill_gives _ _ _ M sz _ D Hs)); [intros X; exact X|]); cbn; lia.
Qed.

Lemma w_prims_pos J a : 0 < a -> exps (w_prims (w_o J a)).
Proof. intros Ha c b [E|[]]. injection E as <- <-. lra. Qed.

Lemma one_exp c a : 0 < a -> exps [(c, a)].
Proof. intros Ha d b [E|[]]. injection E as <- <-. exact Ha. Qed.

Lemma w_ta_int o i c : In o w_os -> (0 <= i < Z.of_nat (length [(0, 0, 0)%Z]))%Z -> (0 <= c < Z.of_nat (length (w_cart (oc_l o))))%Z ->
  is_int3 (fun x y z => phi 0 (0, 0, 1) [(1, 2)] (comp [(0, 0, 0)%Z] i) x y z * oc_U o w_C x y z * phi (Z.of_nat (oc_l o)) w_C (oc_prims o) (comp (w_cart (oc_l o)) c) x y z) (w_ta o i c).
Proof.
  intros Ho _ _. destruct (w_one o (fun _ => True) Ho) as (J & a & -> & Ha). eapply is_int3_ext; [|apply ovm_int; [apply one_exp; lra|exact (w_prims_pos J a Ha)]].
  intros x y z. cbv beta. rewrite Rmult_assoc. f_equal. symmetry. apply (w_product J a _ x y z Ha).
Qed.
Lemma w_tb_int o c j : In o w_os -> (0 <= c < Z.of_nat (length (w_cart (oc_l o))))%Z -> (0 <= j < Z.of_nat (length (w_cart 2)))%Z ->
  is_int3 (fun x y z => phi (Z.of_nat (oc_l o)) w_C (oc_prims o) (comp (w_cart (oc_l o)) c) x y z * (oc_U o w_C x y z * phi 2 (1, 0, -1) [(1, 1 / 2)] (comp (w_cart 2) j) x y z)) (w_tb o c j).
Proof.
  intros Ho _ _. destruct (w_one o (fun _ => True) Ho) as (J & a & -> & Ha). eapply is_int3_ext; [|apply ovm_int; [exact (w_prims_pos J a Ha)|apply one_exp; lra]].
  intros x y z. cbv beta. rewrite <- (w_product J a _ x y z Ha). cbn [oc_l oc_prims w_o]. change (Z.of_nat 1) with 1%Z. ring.
Qed.

Lemma w_fits : fits4 w_A w_B (zeros 6, zeros 6, zeros 6, zeros 6) (6, 6, 6, 6)%Z /\ fits4 w_B w_A (zeros 6, zeros 6, zeros 6, zeros 6) (6, 6, 6, 6)%Z.
Proof. split; (repeat split; cbn; lia). Qed.
