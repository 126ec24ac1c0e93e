(** * The outercore integrals with the library's own type-1 routine (C59) *)

From Coq Require Import ZArith List Lia Bool Reals Lra.
From Coquelicot Require Import Coquelicot.
From Verif Require Import Base Loops Sums HeapModel HeapProofs OneElModel OneElProofs OneElPairs OneElInt OneElSpec GaussInt GaussProd HeapShrink NumSpec NucPotSpec SphThms OutercoreModel OutercoreProofs OutercoreRadial OutercoreSpec OutercoreMain OutercoreThms MmdModel MmdSpec MmdE MmdR MmdInt MmdD MmdProofs MmdMain MmdThms MmdUser.
Import ListNotations.
Open Scope R_scope.

(** libgrpp_type1_integrals after libgrpp_init *)
Definition own_t1 (daw : R -> res R) : t1_routine := fun X Y C pot M => type1_integrals daw true X Y C (Some pot) M.

(** no coefficient is below the threshold 1e-14 *)
Definition none_negligible (l : list (R * R)) : Prop := forall c a, In (c, a) l -> 1 / 10 ^ 14 <= Rabs c.

Definition gaussian_terms (l : list (Z * R * R)) : Prop := forall n cf al, In (n, cf, al) l -> n = 2%Z /\ 0 <= al.

(** value of the integral of a pair of contractions with a potential *)
Definition g_value (LA LB : Z) (A B : R * R * R) (pa pb : list (R * R)) (C : R * R * R) (terms : list (Z * R * R)) (cA cB : Z * Z * Z) : R :=
  lsum (fun '(n, cf, al) => cf * prim_sum pa pb (fun p q => fst p * fst q * pair_value n LA LB A B C al (snd p) (snd q) cA cB)) terms.

Lemma g_value_int LA LB A B pa pb C terms cA cB : exps pa -> exps pb -> none_negligible pa -> none_negligible pb -> gaussian_terms terms ->
  is_int3 (fun x y z => phi LA A pa cA x y z * phi LB B pb cB x y z * pot_fun C terms x y z) (g_value LA LB A B pa pb C terms cA cB).
Proof.
  intros HA HB NA NB HT. unfold g_value.
  apply (pot_int_2 C terms (fun x y z => phi LA A pa cA x y z * phi LB B pb cB x y z)); [intros n cf al Hin; apply (HT _ _ _ Hin)|].
  induction terms as [|[[n cf] al] terms IH]; [reflexivity|]. cbn [pot_int]. rewrite lsum_cons.
  destruct (HT n cf al (or_introl eq_refl)) as (Hn & Hp).
  eexists _, _. split; [|split; [apply IH; intros n' cf' al' Hin; apply (HT n' cf' al'); right; exact Hin|reflexivity]].
  assert (G := prim_sum_int n C al LA LB A B pa pb cA cB ltac:(lia)). rewrite (kept_all pa NA), (kept_all pb NB) in G. apply G.
  intros c1 a1 c2 a2 I1 I2. pose proof (HA _ _ I1). pose proof (HB _ _ I2). lra.
Qed.

Lemma own_gives daw sA sB LA LB A B pa pb ca cb C pot : vshell_is sA LA A pa ca -> vshell_is sB LB B pb cb -> (0 <= LA <= 9)%Z -> (0 <= LB <= 9)%Z ->
  exps pa -> exps pb -> gaussian_terms (pv_prims pot) ->
  t1_gives (own_t1 daw) sA sB C pot (fun i j => g_value LA LB A B pa pb C (pv_prims pot) (comp ca i) (comp cb j)).
Proof.
  intros HA HB LA9 LB9 PA PB HT M sz D Hsz.
  assert (W : terms_ok LA LB A B pa pb daw C (pv_prims pot) 0).
  { intros n cf al Hin. destruct (HT _ _ _ Hin) as (-> & Hal). split; [lia|]. intros cA aA cB aB I1 I2. apply kept_in in I1, I2. pose proof (PA _ _ I1). pose proof (PB _ _ I2).
    split; [lra|]. split; [lra|]. left. reflexivity. }
  destruct (type1_integrals_ok sA sB LA LB A B pa pb ca cb HA HB LA9 LB9 daw C pot M sz 0 (Rle_refl 0) D Hsz W) as (M' & E & D' & V & _).
  exists M'. split; [exact E|]. split; [exact D'|]. split; [exact Hsz|]. intros i j Hi Hj.
  destruct (V (i * sv_size sB + j)%Z ltac:(nia)) as (v & Ev & Bv). rewrite Ev. f_equal. rewrite Rmult_0_l in Bv.
  assert (CA : compA sB ca (i * sv_size sB + j) = comp ca i) by (unfold compA, comp; rewrite Z.div_add_l by lia; rewrite Z.div_small by lia; rewrite Z.add_0_r; reflexivity).
  assert (CB : compB sB cb (i * sv_size sB + j) = comp cb j) by (unfold compB, comp; rewrite Z.add_comm, Z.mod_add by lia; rewrite Z.mod_small by lia; reflexivity).
  unfold pot_value, value_k in Bv. rewrite CA, CB in Bv. unfold g_value. apply Rabs_le_between in Bv. lra.
Qed.

Lemma pot_fun_U o C x y z : gaussian_terms (oc_pot o) -> pot_fun C (oc_pot o) x y z = oc_U o C x y z.
Proof.
  unfold oc_U. generalize (oc_pot o). intros l. induction l as [|[[n cf] al] l IH]; intros HT; [reflexivity|].
  unfold pot_fun. rewrite lsum_cons. cbn [radial_sum]. rewrite <- IH by (intros n' cf' al' Hin; apply (HT n' cf' al'); right; exact Hin).
  unfold pot_fun. f_equal. destruct (HT n cf al (or_introl eq_refl)) as (-> & _). unfold radial_term, rpow_int, p_coef, p_pow, p_exp. cbn [fst snd]. change (2 - 2)%Z with 0%Z. cbn [powerRZ].
  rewrite Rmult_1_l. f_equal. f_equal. replace (from C x y z * from C x y z) with (from C x y z ^ 2) by ring. rewrite from_sq. unfold rho2. destruct C as [[cx cy] cz]. ring.
Qed.

Lemma moved_is s L org prims comps C : vshell_is s L org prims comps -> vshell_is (move_shell s C) L C prims comps.
Proof. intros (H1 & H2 & H3 & H4 & H5). split; [exact H1|]. split; [reflexivity|]. split; [exact H3|]. split; [exact H4|exact H5]. Qed.

Lemma outercore_own daw A B C LA LB oA oB la lb ca cb cart ocs os out szs :
  vshell_is A LA oA la ca -> vshell_is B LB oB lb cb -> (0 <= LA <= 9)%Z -> (0 <= LB <= 9)%Z -> exps la -> exps lb ->
  none_negligible la -> none_negligible lb ->
  (forall l, components_of l (cart l)) -> Forall2 (oc_is cart) ocs os -> List.Forall oc_valid os ->
  (forall o, In o os -> gaussian_terms (oc_pot o) /\ none_negligible (oc_prims o)) ->
  fits4 A B out szs ->
  exists out' SA UA SB UB delta ratio W,
    outercore_potential_integrals (own_t1 daw) A B C ocs out = Ok (out', map (fun '(pot, s) => (pot, move_shell s C)) ocs) /\ out4 (sv_size A * sv_size B) out out' /\
    (forall o i m, In o os -> (0 <= i < Z.of_nat (length ca))%Z -> (Z.abs m <= Z.of_nat (oc_l o))%Z ->
       is_int3 (fun x y z => phi LA oA la (comp ca i) x y z * orbital o C m x y z) (SA i o m) /\
       is_int3 (fun x y z => phi LA oA la (comp ca i) x y z * oc_U o C x y z * orbital o C m x y z) (UA i o m)) /\
    (forall o j m, In o os -> (0 <= j < Z.of_nat (length cb))%Z -> (Z.abs m <= Z.of_nat (oc_l o))%Z ->
       is_int3 (fun x y z => orbital o C m x y z * phi LB oB lb (comp cb j) x y z) (SB j o m) /\
       is_int3 (fun x y z => orbital o C m x y z * (oc_U o C x y z * phi LB oB lb (comp cb j) x y z)) (UB j o m)) /\
    (forall o o', In o os -> In o' os -> same_lj o o' ->
       half_int (fun r => oc_radial o r * ((radial_sum (oc_pot o) r + radial_sum (oc_pot o') r) / 2) * oc_radial o' r * r ^ 2) (delta o o')) /\
    (forall l, (l <= 9)%nat -> Rabs (ratio l - 1) <= 2 / 10 ^ 15) /\
    (forall l, rotation_generators (Z.of_nat l) (W 0%Z l) (W 1%Z l) (W 2%Z l)) /\
    four out' szs (sv_size A) (sv_size B) (fun k i j =>
      if (k =? -1)%Z then arep_value os (fun o o' => ratio (oc_l o) ^ 2 * delta o o') (SA i) (SB j) (UA i) (UB j)
      else so_value os (W k) (fun o o' => ratio (oc_l o) ^ 2 * delta o o') (SA i) (SB j) (UA i) (UB j)).
Proof.
  intros HA HB LA9 LB9 PA PB NA NB HC HO HV HG HF.
  pose (ta := fun o i c => g_value LA (Z.of_nat (oc_l o)) oA C la (oc_prims o) C (oc_pot o) (comp ca i) (comp (cart (oc_l o)) c)).
  pose (tb := fun o c j => g_value (Z.of_nat (oc_l o)) LB C oB (oc_prims o) lb C (oc_pot o) (comp (cart (oc_l o)) c) (comp cb j)).
  assert (HV' : forall o, In o os -> oc_valid o) by (apply List.Forall_forall; exact HV).
  apply (outercore_true (own_t1 daw) A B C LA LB oA oB la lb ca cb cart ta tb ocs os out szs); try assumption.
  - clear HF. revert HO HG HV'. clear HV. intros HO. induction HO as [|[pot s] o ocs os Ho HO IH]; intros HG HV'; [constructor|].
    constructor; [|apply IH; intros o' Hin; [apply HG|apply HV']; right; exact Hin].
    destruct (HG o (or_introl eq_refl)) as (G1 & G2). destruct (HV' o (or_introl eq_refl)) as (V1 & V2 & V3). destruct Ho as (_ & _ & E3 & org & HS). cbn [fst snd] in *.
    unfold oc_t1. cbn [fst snd]. assert (HS' := moved_is _ _ _ _ _ C HS). split.
    + unfold tb. rewrite <- E3 in *. apply (own_gives daw); try assumption. lia.
    + unfold ta. rewrite <- E3 in *. apply (own_gives daw); try assumption. lia.
  - intros o i c Hin Hi Hc. destruct (HG o Hin) as (G1 & G2). destruct (HV' o Hin) as (V1 & V2 & V3). eapply is_int3_ext; [|apply g_value_int; assumption].
    intros x y z. cbv beta. rewrite pot_fun_U by exact G1. ring.
  - intros o c j Hin Hc Hj. destruct (HG o Hin) as (G1 & G2). destruct (HV' o Hin) as (V1 & V2 & V3). eapply is_int3_ext; [|apply g_value_int; assumption].
    intros x y z. cbv beta. rewrite pot_fun_U by exact G1. ring.
Qed.
