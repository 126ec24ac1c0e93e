(** * Attraction to a point charge: the integrals of -Z/r (C62), and the limits of the local integrals (C63) *)

From Coq Require Import ZArith List Lia Bool Reals Lra.
From Coquelicot Require Import Coquelicot.
From Verif Require Import Base Loops Sums CartModel CartProofs GaussInt GaussProd NucPotSpec NucPot HeapModel HeapProofs HeapSpec OneElModel OneElProofs OneElPairs OneElSpec OneElInt OneElThms LmatModel SpecModel SpecSpec SpecBoys BoysThms GfunThms SphProofs NucModel NucProofs OutercoreModel MmdModel MmdSpec MmdE MmdR MmdInt MmdD MmdProofs MmdMain MmdThms MmdUser.
Import ListNotations.
Open Scope R_scope.

(** sum over the pairs of primitives whose coefficient product is at least 1e-13 *)
Definition big_pairs (pa pb : list (R * R)) (g : R * R -> R * R -> R) : R :=
  lsum (fun p => lsum (fun q => if Rlt_dec (Rabs (fst p * fst q)) 1e-13 then 0 else g p q) pb) pa.

Lemma nuc_loop_approx fill (A B : vshell) M sz la lb (g w : R * R -> R * R -> Z -> R) : holds_prims A la -> holds_prims B lb -> adims M = [sz] ->
  (0 <= sv_size A)%Z -> (0 <= sv_size B)%Z -> (sv_size A * sv_size B <= sz)%Z ->
  (forall i j p q buf, nth_error la i = Some p -> nth_error lb j = Some q -> adims buf = [(sv_size A * sv_size B)%Z] -> 1e-13 <= Rabs (fst p * fst q) ->
     exists buf', fill (Z.of_nat i) (Z.of_nat j) buf = Ok buf' /\ adims buf' = [(sv_size A * sv_size B)%Z] /\
       forall k, (0 <= k < sv_size A * sv_size B)%Z -> exists v, aget buf' [k] = Ok v /\ Rabs (v - g p q k) <= w p q k) ->
  exists M', nuc_loop fill true A B M = Ok M' /\ adims M' = [sz] /\
    (forall k, (0 <= k < sv_size A * sv_size B)%Z -> exists v, aget M' [k] = Ok v /\
       Rabs (v - big_pairs la lb (fun p q => fst p * fst q * g p q k)) <= big_pairs la lb (fun p q => Rabs (fst p * fst q) * w p q k)) /\
    (forall ix, (forall k, (0 <= k < sv_size A * sv_size B)%Z -> ix <> [k]) -> aget M' ix = aget M ix).
Proof.
  intros PA PB DM SA SB Hsz Hf. unfold nuc_loop. cbn [massert bind]. cbv zeta. set (n := (sv_size A * sv_size B)%Z) in *.
  assert (Hn : (0 <= n)%Z) by (unfold n; nia).
  destruct (memset0_get n sz M DM) as (M1 & E1 & D1 & C1 & F1); [lia|]. rewrite E1, bind_ok.
  pose (Inv := fun st : arr R * arr R => adims (fst st) = [sz] /\ adims (snd st) = [n] /\
     (forall k, (0 <= k < n)%Z -> readable (fst st) [k]) /\ (forall ix, (forall k, (0 <= k < n)%Z -> ix <> [k]) -> aget (fst st) ix = aget M ix)).
  pose (Dom := fun k : Z => (0 <= k < n)%Z).
  pose (val := fun (st : arr R * arr R) (k : Z) => cellv (fst st) [k]).
  pose (tt := fun (h : R * R -> R * R -> R) i j => let p := nth (Z.to_nat i) la (0, 0) in let q := nth (Z.to_nat j) lb (0, 0) in
     if Rlt_dec (Rabs (fst p * fst q)) 1e-13 then 0 else h p q).
  pose proof (proj1 PA) as NA. pose proof (proj1 PB) as NB.
  match goal with |- context [for_range 0 (sv_num A) ?b ?s] =>
    destruct (loop_approx 0 (sv_num A) Inv Dom val (fun i k => zsum 0 (sv_num B) (fun j => tt (fun p q => fst p * fst q * g p q k) i j))
       (fun i k => zsum 0 (sv_num B) (fun j => tt (fun p q => Rabs (fst p * fst q) * w p q k) i j)) b s) as ((M2 & buf2) & E2 & I2 & V2) end.
  - lia.
  - split; [exact D1|]. split; [reflexivity|]. split; [intros k Hk; exists 0; apply C1; exact Hk|exact F1].
  - intros i st Hi HI. destruct (prims_at A la i PA Hi) as (Gc & Ga). rewrite Gc, bind_ok.
    apply (loop_approx 0 (sv_num B) Inv Dom val (fun j k => tt (fun p q => fst p * fst q * g p q k) i j) (fun j k => tt (fun p q => Rabs (fst p * fst q) * w p q k) i j)); [lia|exact HI|].
    intros j (M2 & buf2) Hj (D2 & Db & R2 & F2). destruct (prims_at B lb j PB Hj) as (Gcb & Gab). rewrite Gcb, bind_ok.
    unfold tt. cbv zeta. unfold val. destruct (Rlt_dec (Rabs (fst (nth (Z.to_nat i) la (0, 0)) * fst (nth (Z.to_nat j) lb (0, 0)))) 1e-13) as [Hlt|Hge].
    + exists (M2, buf2). split; [reflexivity|]. split; [split; [exact D2|]; split; [exact Db|]; split; [exact R2|exact F2]|]. intros k _. rewrite Rplus_0_r, Rminus_eq_0, Rabs_R0. lra.
    + cbn [fst snd] in *.
      destruct (Hf (Z.to_nat i) (Z.to_nat j) (nth (Z.to_nat i) la (0, 0)) (nth (Z.to_nat j) lb (0, 0)) buf2) as (buf3 & E3 & D3 & V3);
        [apply nth_error_nth'; lia|apply nth_error_nth'; lia|exact Db|lra|]. rewrite !Z2Nat.id in E3 by lia. rewrite E3, bind_ok.
      destruct (daxpy_get n n sz (fst (nth (Z.to_nat i) la (0, 0)) * fst (nth (Z.to_nat j) lb (0, 0))) buf3 M2 D3 D2 ltac:(lia) ltac:(lia)) as (M3 & E4 & D4 & V4 & F4).
      { intros k Hk. destruct (V3 k Hk) as (v & Ev & _). exists v. exact Ev. } { exact R2. }
      rewrite E4, bind_ok. exists (M3, buf3). split; [reflexivity|]. split.
      * split; [exact D4|]. split; [exact D3|]. split; [intros k Hk; eexists; apply V4; exact Hk|]. cbn [fst]. intros ix Hix. rewrite F4 by exact Hix. apply F2. exact Hix.
      * intros k Hk. cbn [fst]. rewrite (cellv_ok _ _ _ (V4 k Hk)). destruct (V3 k Hk) as (v & Ev & Bv). rewrite (cellv_ok _ _ _ Ev).
        match goal with |- Rabs (?m + ?cc * v - (?m + ?cc * ?pv)) <= _ => replace (m + cc * v - (m + cc * pv)) with (cc * (v - pv)) by ring end.
        rewrite Rabs_mult. apply Rmult_le_compat_l; [apply Rabs_pos|exact Bv].
  - rewrite E2, bind_ok. destruct I2 as (D2 & _ & R2 & F2). cbn [fst] in *. exists M2. split; [reflexivity|]. split; [exact D2|].
    split; [|exact F2]. intros k Hk. eexists. split; [apply readable_cellv; apply R2; exact Hk|].
    specialize (V2 k Hk). unfold val in V2. cbn [fst] in V2. rewrite (cellv_ok _ _ _ (C1 k Hk)), Rplus_0_l in V2.
    assert (SUM : forall h : R * R -> R * R -> R, zsum 0 (sv_num A) (fun i => zsum 0 (sv_num B) (fun j => tt h i j)) = big_pairs la lb h).
    { intros h. rewrite NA, NB. unfold big_pairs. rewrite <- (zsum_lsum la (0, 0)). apply zsum_ext. intros i _. rewrite <- (zsum_lsum lb (0, 0)). reflexivity. }
    rewrite !SUM in V2. exact V2.
Qed.

Lemma big_scal la lb g c : big_pairs la lb (fun p q => c * g p q) = c * big_pairs la lb g.
Proof.
  unfold big_pairs. rewrite <- lsum_scal. apply lsum_ext. intros p _. rewrite <- lsum_scal. apply lsum_ext. intros q _. destruct (Rlt_dec _ _); ring.
Qed.
Lemma big_ext la lb g h : (forall p q, g p q = h p q) -> big_pairs la lb g = big_pairs la lb h.
Proof. intros H. unfold big_pairs. apply lsum_ext. intros p _. apply lsum_ext. intros q _. rewrite H. reflexivity. Qed.

(** the product of the two functions, without the negligible pairs *)
Definition density (vA vB : sview) (cA cB : Z * Z * Z) (x y z : R) : R :=
  big_pairs (v_prims vA) (v_prims vB) (fun p q => fst p * fst q * (pfun (v_L vA) (v_origin vA) cA (snd p) x y z * pfun (v_L vB) (v_origin vB) cB (snd q) x y z)).

(** the point-charge integrator is that of the McMurchie-Davidson scheme *)
Definition point_mmd (ev : prim_eval) : Prop :=
  forall A aA B aB o zeta buf, pe_point ev A aA B aB o zeta buf = mmd_n1_primitive_shell_pair A aA B aB o zeta buf.

(** amplification of the error of the Boys function *)
Definition coulomb_amplification (vA vB : sview) (C : R * R * R) (cA cB : Z * Z * Z) : R :=
  big_pairs (v_prims vA) (v_prims vB) (fun p q => Rabs (fst p * fst q) * pair_weight 1 (v_L vA) (v_L vB) (v_origin vA) (v_origin vB) C 0 (snd p) (snd q) cA cB).

(** the Boys function is available for every pair of primitives *)
Definition boys_range (vA vB : sview) (C : R * R * R) : Prop :=
  (v_L vA + v_L vB <= 15)%Z \/
  forall cA aA cB aB, In (cA, aA) (v_prims vA) -> In (cB, aB) (v_prims vB) -> 1e-13 <= Rabs (cA * cB) -> pair_arg aA aB 0 (v_origin vA) (v_origin vB) C <= 30.

Lemma point_integral_thm sf ev h pA pB vA vB ca cb C charge M : point_mmd ev -> heap_wf h -> std_shell h pA vA ca -> std_shell h pB vB cb ->
  (v_L vA <= 9)%Z -> (v_L vB <= 9)%Z -> exps_pos vA -> exps_pos vB -> fits M vA vB -> boys_range vA vB C ->
  exists M', conv_call sf ev PointCharge true h pA pB C charge M = Ok M' /\ only_block M M' vA vB /\
    forall m n cA cB, nth_error ca m = Some cA -> nth_error cb n = Some cB ->
      exists s v, elem_at M' vB m n = Ok s /\ kernel_int w1 C (density vA vB cA cB) v /\
        Rabs (s - - IZR charge * v) <= 15 / 10 ^ 15 * Rabs (IZR charge) * coulomb_amplification vA vB C cA cB.
Proof.
  intros Hev W SA SB LA LB PA PB (sz & D & Hsz) HR. unfold conv_call.
  destruct (std_view h pA vA ca W SA) as (sA & EA & IA & ZA).
  destruct (std_view h pB vB cb W SB) as (sB & EB & IB & ZB).
  pose proof (std_size _ _ _ _ SA) as NA. pose proof (std_size _ _ _ _ SB) as NB.
  assert (LA0 : (0 <= v_L vA)%Z) by (destruct SA as (_ & H & _); exact H).
  assert (LB0 : (0 <= v_L vB)%Z) by (destruct SB as (_ & H & _); exact H).
  rewrite EA, EB. cbn [bind]. unfold nuclear_attraction_point_charge. rewrite nuc_as_loop.
  pose proof IA as (_ & _ & QA & _). pose proof IB as (_ & _ & QB & _).
  assert (LA9 : (0 <= v_L vA <= 9)%Z) by lia. assert (LB9 : (0 <= v_L vB <= 9)%Z) by lia.
  assert (Hsz0 : (0 <= sv_size sA * sv_size sB)%Z) by (rewrite ZA, ZB, NA, NB; nia).
  pose (val := fun (p q : R * R) k => pair_value 1 (v_L vA) (v_L vB) (v_origin vA) (v_origin vB) C 0 (snd p) (snd q) (compA sB ca k) (compB sB cb k)).
  pose (wt := fun (p q : R * R) k => pair_weight 1 (v_L vA) (v_L vB) (v_origin vA) (v_origin vB) C 0 (snd p) (snd q) (compA sB ca k) (compB sB cb k)).
  destruct (nuc_loop_approx (nuc_fill sf ev sA sB C charge 0 None) sA sB M sz (v_prims vA) (v_prims vB)
     (fun p q k => - IZR charge * val p q k) (fun p q k => 15 / 10 ^ 15 * Rabs (IZR charge) * wt p q k) QA QB D) as (M' & E & D' & V & F).
  - rewrite ZA, NA; lia.
  - rewrite ZB, NB; lia.
  - rewrite ZA, ZB; exact Hsz.
  - intros i j [c1 a1] [c2 a2] buf Ei Ej Db Hbig. cbn [fst snd] in *.
    assert (Hi : (0 <= Z.of_nat i < sv_num sA)%Z) by (rewrite (proj1 QA); assert (i < length (v_prims vA))%nat by (apply nth_error_Some; congruence); lia).
    assert (Hj : (0 <= Z.of_nat j < sv_num sB)%Z) by (rewrite (proj1 QB); assert (j < length (v_prims vB))%nat by (apply nth_error_Some; congruence); lia).
    destruct (prims_at sA _ _ QA Hi) as (_ & Ga). destruct (prims_at sB _ _ QB Hj) as (_ & Gb). rewrite Nat2Z.id in Ga, Gb.
    rewrite (nth_error_nth _ _ (0, 0) Ei) in Ga. rewrite (nth_error_nth _ _ (0, 0) Ej) in Gb. cbn [snd] in Ga, Gb.
    unfold nuc_fill. change (0 =? model_point_charge)%Z with true. cbv iota. rewrite Ga, bind_ok, Gb, bind_ok, Hev.
    assert (I1 := nth_error_In _ _ Ei). assert (I2 := nth_error_In _ _ Ej).
    assert (Hq : 0 < a1 + a2 + 0) by (pose proof (PA _ _ I1); pose proof (PB _ _ I2); lra).
    assert (Hsp : special_error (fun _ => Fail NoFuel) 1 (v_L vA + v_L vB) (pair_arg a1 a2 0 (v_origin vA) (v_origin vB) C) (15 / 10 ^ 15)).
    { split; [lra|]. right. left. split; [reflexivity|]. split; [|lra]. destruct HR as [HR|HR]; [right; exact HR|left; eapply HR; eassumption]. }
    destruct (pair_cells sA sB _ _ _ _ _ _ ca cb IA IB LA9 LB9 (fun _ => Fail NoFuel) 1 a1 a2 0 C buf (15 / 10 ^ 15) Hq ltac:(lia) Db Hsp) as (b1 & E1 & D1 & V1).
    change (mmd_primitive_pair (fun _ => Fail NoFuel) 1 sA a1 sB a2 C 0 buf) with (mmd_n1_primitive_shell_pair sA a1 sB a2 C 0 buf) in E1. rewrite E1, bind_ok.
    destruct (scale_loop _ (IZR (-1 * charge)) b1 (fun k => cellv b1 [k]) Hsz0 D1) as (b2 & E2 & D2 & V2).
    { intros k Hk. destruct (V1 k Hk) as (v & Ev & _). rewrite (cellv_ok _ _ _ Ev). exact Ev. }
    exists b2. split; [exact E2|]. split; [exact D2|]. intros k Hk. eexists. split; [apply V2; exact Hk|].
    destruct (V1 k Hk) as (v & Ev & Bv). rewrite (cellv_ok _ _ _ Ev). rewrite mult_IZR. unfold val, wt. cbn [snd].
    match goal with |- Rabs (v * (-1 * ?z) - - ?z * ?pv) <= _ => replace (v * (-1 * z) - - z * pv) with (- z * (v - pv)) by ring end.
    rewrite Rabs_mult, Rabs_Ropp.
    match goal with |- _ <= ?d * ?z * ?y => replace (d * z * y) with (z * (d * y)) by ring end. apply Rmult_le_compat_l; [apply Rabs_pos|exact Bv].
  - exists M'. split; [exact E|]. split; [split; [congruence|]; intros k Hk; apply F; rewrite ZA, ZB; intros k' Hk' Eq; injection Eq as ->; lia|].
    intros m n cA cB Em En.
    assert (Hm : (m < length ca)%nat) by (apply nth_error_Some; congruence).
    assert (Hn : (n < length cb)%nat) by (apply nth_error_Some; congruence).
    assert (Hk : (0 <= Z.of_nat m * sv_size sB + Z.of_nat n < sv_size sA * sv_size sB)%Z) by (rewrite ZA, ZB, NA, NB; nia).
    destruct (V _ Hk) as (s & Es & Bs).
    assert (CA : compA sB ca (Z.of_nat m * sv_size sB + Z.of_nat n) = cA).
    { unfold compA. rewrite Z.div_add_l by lia. rewrite Z.div_small by lia. rewrite Z.add_0_r, Nat2Z.id. apply nth_error_nth. exact Em. }
    assert (CB : compB sB cb (Z.of_nat m * sv_size sB + Z.of_nat n) = cB).
    { unfold compB. rewrite Z.add_comm, Z.mod_add by lia. rewrite Z.mod_small by lia. rewrite Nat2Z.id. apply nth_error_nth. exact En. }
    unfold val, wt in Bs. rewrite CA, CB in Bs.
    exists s, (big_pairs (v_prims vA) (v_prims vB) (fun p q => fst p * fst q * pair_value 1 (v_L vA) (v_L vB) (v_origin vA) (v_origin vB) C 0 (snd p) (snd q) cA cB)).
    split; [unfold elem_at; rewrite <- ZB; exact Es|]. split.
    + assert (G : local_int 1 C (density vA vB cA cB) (big_pairs (v_prims vA) (v_prims vB) (fun p q => fst p * fst q * pair_value 1 (v_L vA) (v_L vB) (v_origin vA) (v_origin vB) C 0 (snd p) (snd q) cA cB))).
      { unfold density, big_pairs. apply local_lsum; [lia|]. intros [c1 a1] I1. apply local_lsum; [lia|]. intros [c2 a2] I2. destruct (Rlt_dec _ _); [apply local_zero; lia|]. cbn [fst snd].
        apply local_scal. assert (Hq : 0 < a1 + a2 + 0) by (pose proof (PA _ _ I1); pose proof (PB _ _ I2); lra).
        eapply local_ext; [|apply (pair_value_int 1 (v_L vA) (v_L vB) (v_origin vA) (v_origin vB) C 0 a1 a2 cA cB Hq); lia].
        intros x y z. cbv beta. rewrite Rmult_0_l, Ropp_0, exp_0, Rmult_1_r. reflexivity. }
      destruct G as [(Eq & _) | [(_ & G) | (Eq & _)]]; [discriminate Eq|exact G|discriminate Eq].
    + unfold coulomb_amplification. rewrite <- !big_scal.
      rewrite (big_ext _ _ (fun p q => fst p * fst q * (- IZR charge * pair_value 1 (v_L vA) (v_L vB) (v_origin vA) (v_origin vB) C 0 (snd p) (snd q) cA cB))
                           (fun p q => - IZR charge * (fst p * fst q * pair_value 1 (v_L vA) (v_L vB) (v_origin vA) (v_origin vB) C 0 (snd p) (snd q) cA cB))) in Bs by (intros; ring).
      eapply Rle_trans; [exact Bs|]. right. apply big_ext. intros; ring.
Qed.

(** ** Where the scheme stops *)
Lemma boys_values_abort x L : (16 <= L <= 98)%Z -> 30 < x -> boys_values x L (aundef [100]%Z) = Fail AssertFailed.
Proof.
  intros HL Hx. unfold boys_values. destruct (memset0_get (L + 1) 100 (aundef [100]%Z) eq_refl ltac:(lia)) as (b1 & -> & D1 & _). cbn [bind].
  apply (for_range_fail (fun _ (b : arr R) => adims b = [100]%Z) 0 (L + 1) 16); [lia|exact D1| |].
  - intros i s Hi Hs. destruct (boys_accurate i x ltac:(lia) ltac:(lra) ltac:(right; lia)) as (v & E & _). rewrite E, bind_ok.
    destruct (aset_get s [i] v) as (s' & E' & D' & _); [rewrite Hs; apply inb1; lia|]. exists s'. split; [exact E'|congruence].
  - intros s _. rewrite boys_aborts by (lia || lra). reflexivity.
Qed.

Lemma n1_abort (sA sB : vshell) a1 a2 C c buf : (16 <= sv_L sA + sv_L sB <= 98)%Z -> 30 < pair_arg a1 a2 c (sv_org sA) (sv_org sB) C ->
  mmd_n1_primitive_shell_pair sA a1 sB a2 C c buf = Fail AssertFailed.
Proof.
  intros HL Hx. unfold mmd_n1_primitive_shell_pair. cbv zeta. rewrite geom_R2.
  change (md_q (mmd_geometry a1 a2 c (sv_org sA) (sv_org sB) C)) with (a1 + a2 + c).
  match goal with |- context [boys_values ?x _ _] => change x with (pair_arg a1 a2 c (sv_org sA) (sv_org sB) C) end.
  rewrite boys_values_abort by assumption. reflexivity.
Qed.

Lemma first_prim s l c a r : holds_prims s l -> l = (c, a) :: r -> (0 < sv_num s)%Z /\ aget (sv_coef s) [0%Z] = Ok c /\ aget (sv_alpha s) [0%Z] = Ok a.
Proof.
  intros H ->. assert (N : (0 < sv_num s)%Z) by (rewrite (proj1 H); cbn [length]; lia). split; [exact N|].
  destruct (prims_at s _ 0 H ltac:(lia)) as (G1 & G2). cbn in G1, G2. split; assumption.
Qed.

Lemma for_first {St} hi (body : Z -> St -> res St) s f : (0 < hi)%Z -> body 0%Z s = Fail f -> for_range 0 hi body s = Fail f.
Proof. intros H E. rewrite for_range_step by exact H. rewrite E. reflexivity. Qed.

Lemma abort_thm daw h pA pB vA vB ca cb C L J cf al rest c1 a1 r1 c2 a2 r2 M : heap_wf h -> std_shell h pA vA ca -> std_shell h pB vB cb -> fits M vA vB ->
  v_prims vA = (c1, a1) :: r1 -> v_prims vB = (c2, a2) :: r2 -> 1 / 10 ^ 14 <= Rabs c1 -> 1 / 10 ^ 14 <= Rabs c2 ->
  (16 <= v_L vA + v_L vB <= 98)%Z -> 30 < pair_arg a1 a2 al (v_origin vA) (v_origin vB) C ->
  type1_call daw true h pA pB C (Some (mkVPot L J ((1%Z, cf, al) :: rest))) M = Fail AssertFailed.
Proof.
  intros W SA SB (sz & D & Hsz) P1 P2 B1 B2 HL Hx.
  destruct (std_view h pA vA ca W SA) as (sA & EA & IA & ZA).
  destruct (std_view h pB vB cb W SB) as (sB & EB & IB & ZB).
  pose proof (std_size _ _ _ _ SA) as NA. pose proof (std_size _ _ _ _ SB) as NB.
  assert (Hsz0 : (0 <= sv_size sA * sv_size sB)%Z) by (rewrite ZA, ZB, NA, NB; nia). rewrite <- ZA, <- ZB in Hsz.
  destruct IA as (LA & OA & QA & _). destruct IB as (LB & OB & QB & _).
  destruct (first_prim _ _ _ _ _ QA P1) as (NumA & GA & AA). destruct (first_prim _ _ _ _ _ QB P2) as (NumB & GB & AB).
  unfold type1_call, type1_integrals. rewrite EA, EB. cbn [bind massert]. cbv zeta.
  destruct (memset0_get _ sz M D ltac:(split; [exact Hsz0|exact Hsz])) as (M1 & E1 & _). rewrite E1, bind_ok. cbn [pv_prims fold_left bind].
  assert (T : type1_mmd daw sA sB C al 1 (aconst [(sv_size sA * sv_size sB)%Z] 0) = Fail AssertFailed).
  { unfold type1_mmd. change ((1 =? 0)%Z || (1 =? 1)%Z || (1 =? 2)%Z) with true. cbn [massert bind]. cbv zeta.
    rewrite (memset_plain sA sB Hsz0 _ (plain_const sA sB)), bind_ok.
    match goal with |- bind ?X _ = _ => assert (F : X = Fail AssertFailed) end; [|rewrite F; reflexivity].
    apply for_first; [exact NumA|]. rewrite GA, bind_ok. destruct (Rlt_dec (Rabs c1) zero_thresh) as [H|_]; [unfold zero_thresh in H; lra|].
    apply for_first; [exact NumB|]. rewrite GB, bind_ok. destruct (Rlt_dec (Rabs c2) zero_thresh) as [H|_]; [unfold zero_thresh in H; lra|].
    rewrite AA, bind_ok, AB, bind_ok. cbn [mmd_primitive_pair Z.eqb Pos.eqb].
    change (mmd_primitive_pair daw 1 sA a1 sB a2 C al (aconst [(sv_size sA * sv_size sB)%Z] 0)) with (mmd_n1_primitive_shell_pair sA a1 sB a2 C al (aconst [(sv_size sA * sv_size sB)%Z] 0)).
    rewrite n1_abort; [reflexivity|rewrite LA, LB; exact HL|rewrite OA, OB; exact Hx]. }
  rewrite T. cbn [bind]. rewrite step_fail. reflexivity.
Qed.

Lemma point_abort_thm sf ev h pA pB vA vB ca cb C charge c1 a1 r1 c2 a2 r2 M : point_mmd ev -> heap_wf h -> std_shell h pA vA ca -> std_shell h pB vB cb -> fits M vA vB ->
  v_prims vA = (c1, a1) :: r1 -> v_prims vB = (c2, a2) :: r2 -> 1e-13 <= Rabs (c1 * c2) ->
  (16 <= v_L vA + v_L vB <= 98)%Z -> 30 < pair_arg a1 a2 0 (v_origin vA) (v_origin vB) C ->
  conv_call sf ev PointCharge true h pA pB C charge M = Fail AssertFailed.
Proof.
  intros Hev W SA SB (sz & D & Hsz) P1 P2 B1 HL Hx.
  destruct (std_view h pA vA ca W SA) as (sA & EA & IA & ZA).
  destruct (std_view h pB vB cb W SB) as (sB & EB & IB & ZB).
  pose proof (std_size _ _ _ _ SA) as NA. pose proof (std_size _ _ _ _ SB) as NB.
  assert (Hsz0 : (0 <= sv_size sA * sv_size sB)%Z) by (rewrite ZA, ZB, NA, NB; nia). rewrite <- ZA, <- ZB in Hsz.
  destruct IA as (LA & OA & QA & _). destruct IB as (LB & OB & QB & _).
  destruct (first_prim _ _ _ _ _ QA P1) as (NumA & GA & AA). destruct (first_prim _ _ _ _ _ QB P2) as (NumB & GB & AB).
  unfold conv_call. rewrite EA, EB. cbn [bind]. unfold nuclear_attraction_point_charge. rewrite nuc_as_loop. unfold nuc_loop. cbn [massert bind]. cbv zeta.
  destruct (memset0_get _ sz M D ltac:(split; [exact Hsz0|exact Hsz])) as (M1 & E1 & _). rewrite E1, bind_ok.
  match goal with |- bind ?X _ = _ => assert (F : X = Fail AssertFailed) end; [|rewrite F; reflexivity].
  apply for_first; [exact NumA|]. rewrite GA, bind_ok. apply for_first; [exact NumB|]. rewrite GB, bind_ok. destruct (Rlt_dec _ _) as [H|_]; [lra|].
  unfold nuc_fill. change (0 =? model_point_charge)%Z with true. cbv iota. rewrite AA, bind_ok, AB, bind_ok, Hev.
  rewrite n1_abort; [reflexivity|rewrite LA, LB; exact HL|rewrite OA, OB; exact Hx].
Qed.

(** a loop that ends normally has passed through each index *)
Lemma for_range_visit {St} (Inv : St -> Prop) lo hi k (body : Z -> St -> res St) s s' : (lo <= k < hi)%Z -> Inv s ->
  (forall i s s', (lo <= i < hi)%Z -> Inv s -> body i s = Ok s' -> Inv s') -> for_range lo hi body s = Ok s' ->
  exists s1 s2, Inv s1 /\ body k s1 = Ok s2.
Proof.
  intros Hk I0 HI H. rewrite (for_range_split lo k hi) in H by lia.
  destruct (for_range lo k body s) as [s1|] eqn:E1; [|discriminate H]. cbn [bind] in H.
  assert (I1 : Inv s1). { revert E1. apply (for_range_inv (fun _ => Inv)); [lia|exact I0|]. intros i t t' Hi It Et. eapply HI; [|exact It|exact Et]. lia. }
  rewrite for_range_step in H by lia. destruct (body k s1) as [s2|] eqn:E2; [|discriminate H]. exists s1, s2. auto.
Qed.

Lemma aset_dims {T} (a a' : arr T) ix v : aset a ix v = Ok a' -> adims a' = adims a /\ inb (adims a) ix = true.
Proof. unfold aset. destruct (inb (adims a) ix) eqn:E; [|discriminate]. intros H; injection H as <-. auto. Qed.

Lemma setup_E_10 d L_A L_B E : (10 <= L_A)%Z -> (0 <= L_B)%Z -> setup_E_array d L_A L_B = Ok E -> False.
Proof.
  intros HA HB H. unfold setup_E_array in H. cbv zeta in H.
  pose (Inv := fun E : arr R => adims E = [3; 10; 10; 20]%Z).
  revert H.
  match goal with |- for_range 0 3 ?b _ = _ -> _ => set (body := b) end. intros H.
  pose (cellf := fun coord i j t (E : arr R) => 
    if (t =? 0)%Z then
      if (i =? 0)%Z && (j =? 0)%Z then aset E [coord; 0; 0; 0]%Z (coord3 (md_K d) coord)
      else if (i =? 1)%Z && (j =? 0)%Z then
        let* e := aget E [coord; 0; 0; 0]%Z in
        aset E [coord; 1; 0; 0]%Z ((coord3 (md_Q d) coord - coord3 (md_A d) coord) * e)
      else if (i =? 0)%Z && (j =? 1)%Z then
        let* e := aget E [coord; 0; 0; 0]%Z in
        aset E [coord; 0; 1; 0]%Z ((coord3 (md_Q d) coord - coord3 (md_B d) coord) * e)
      else if (i =? 0)%Z then
        let* e0 := aget E [coord; i; j - 1; 0]%Z in
        let* e1 := aget E [coord; i; j - 1; 1]%Z in
        aset E [coord; i; j; 0]%Z ((coord3 (md_Q d) coord - coord3 (md_B d) coord) * e0 + e1)
      else
        let* e0 := aget E [coord; i - 1; j; 0]%Z in
        let* e1 := aget E [coord; i - 1; j; 1]%Z in
        aset E [coord; i; j; 0]%Z ((coord3 (md_Q d) coord - coord3 (md_A d) coord) * e0 + e1)
    else
      let* E_ijt :=
        if (i >? 0)%Z then
          let* e := aget E [coord; i - 1; j; t - 1]%Z in
          Ok (0 + 1 / (2 * md_q d * IZR t) * IZR i * e)
        else Ok 0 in
      let* E_ijt :=
        if (j >? 0)%Z then
          let* e := aget E [coord; i; j - 1; t - 1]%Z in
          Ok (E_ijt + 1 / (2 * md_q d * IZR t) * IZR j * e)
        else Ok E_ijt in
      aset E [coord; i; j; t] E_ijt).
  change body with (fun coord => for_range 0 (L_A + 1) (fun i => for_range 0 (L_B + 1) (fun j => for_range 0 (i + j + 1) (fun t => cellf coord i j t)))) in H. clear body.
  assert (Keep : forall coord i j t E E', Inv E -> cellf coord i j t E = Ok E' -> Inv E').
  { intros coord i j t E0 E' I0 G. unfold cellf in G. unfold Inv in *.
    repeat match type of G with
    | bind ?X _ = Ok _ => destruct X eqn:?; cbn [bind] in G; [|discriminate G]
    | (if ?b then _ else _) = Ok _ => destruct b eqn:?
    end; apply aset_dims in G; destruct G as (G & _); congruence. }
  assert (K1 : forall coord i j E E', Inv E -> for_range 0 (i + j + 1) (fun t => cellf coord i j t) E = Ok E' -> Inv E').
  { intros coord i j E0 E' I0 G. destruct (Z_le_gt_dec 0 (i + j + 1)) as [Hle|Hgt]; [|rewrite for_range_nil in G by lia; injection G as <-; exact I0].
    revert G. apply (for_range_inv (fun _ => Inv)); [exact Hle|exact I0|]. intros t s s' _ Is. apply Keep. exact Is. }
  assert (K2 : forall coord i E E', Inv E -> for_range 0 (L_B + 1) (fun j => for_range 0 (i + j + 1) (fun t => cellf coord i j t)) E = Ok E' -> Inv E').
  { intros coord i E0 E' I0. apply (for_range_inv (fun _ => Inv)); [lia|exact I0|]. intros j s s' _ Is. apply K1. exact Is. }
  assert (K3 : forall coord E E', Inv E -> for_range 0 (L_A + 1) (fun i => for_range 0 (L_B + 1) (fun j => for_range 0 (i + j + 1) (fun t => cellf coord i j t))) E = Ok E' -> Inv E').
  { intros coord E0 E' I0. apply (for_range_inv (fun _ => Inv)); [lia|exact I0|]. intros i s s' _ Is. apply K2. exact Is. }
  destruct (for_range_visit Inv 0 3 0 _ _ _ ltac:(lia) (eq_refl : Inv (aundef [3; 10; 10; 20]%Z)) (fun c s s' _ => K3 c s s') H) as (s1 & s1' & I1 & H1).
  destruct (for_range_visit Inv 0 (L_A + 1) 10 _ _ _ ltac:(lia) I1 (fun i s s' _ => K2 0%Z i s s') H1) as (s2 & s2' & I2 & H2).
  destruct (for_range_visit Inv 0 (L_B + 1) 0 _ _ _ ltac:(lia) I2 (fun j s s' _ => K1 0%Z 10%Z j s s') H2) as (s3 & s3' & I3 & H3).
  destruct (for_range_visit Inv 0 (10 + 0 + 1) 0 _ _ _ ltac:(lia) I3 (fun t s s' _ => Keep 0%Z 10%Z 0%Z t s s') H3) as (s4 & s4' & I4 & H4).
  unfold cellf in H4. cbn [Z.eqb Pos.eqb andb] in H4.
  destruct (aget s4 _) eqn:G1; cbn [bind] in H4; [|discriminate H4]. destruct (aget s4 [0%Z; (10 - 1)%Z; 0%Z; 1%Z]) eqn:G2; cbn [bind] in H4; [|discriminate H4].
  apply aset_dims in H4. destruct H4 as (_ & Hb). unfold Inv in I4. rewrite I4 in Hb. discriminate Hb.
Qed.

Lemma pair_10 daw n sA aA sB aB C c M M' : (0 <= n <= 2)%Z -> (10 <= sv_L sA)%Z -> (0 <= sv_L sB)%Z -> mmd_primitive_pair daw n sA aA sB aB C c M = Ok M' -> False.
Proof.
  intros Hn HA HB H. unfold mmd_primitive_pair in H.
  repeat match type of H with (if ?b then _ else _) = Ok _ => destruct b eqn:? end; [| | |lia];
    unfold mmd_n0_primitive_shell_pair, mmd_n1_primitive_shell_pair, mmd_n2_primitive_shell_pair in H; cbv zeta in H;
    repeat match type of H with bind (setup_E_array ?d ?x ?y) _ = Ok _ => destruct (setup_E_array d x y) eqn:EE; [exact (setup_E_10 _ _ _ _ HA HB EE)|discriminate H]
      | bind ?X _ = Ok _ => destruct X eqn:?; cbn [bind] in H; [|discriminate H] end.
Qed.

Lemma l10_thm daw h pA pB vA vB ca cb C L J n cf al rest c1 a1 r1 c2 a2 r2 M : heap_wf h -> std_shell h pA vA ca -> std_shell h pB vB cb -> fits M vA vB ->
  v_prims vA = (c1, a1) :: r1 -> v_prims vB = (c2, a2) :: r2 -> 1 / 10 ^ 14 <= Rabs c1 -> 1 / 10 ^ 14 <= Rabs c2 -> (10 <= v_L vA)%Z ->
  forall M', type1_call daw true h pA pB C (Some (mkVPot L J ((n, cf, al) :: rest))) M <> Ok M'.
Proof.
  intros W SA SB (sz & D & Hsz) P1 P2 B1 B2 HL M' H.
  destruct (std_view h pA vA ca W SA) as (sA & EA & IA & ZA).
  destruct (std_view h pB vB cb W SB) as (sB & EB & IB & ZB).
  pose proof (std_size _ _ _ _ SA) as NA. pose proof (std_size _ _ _ _ SB) as NB.
  assert (Hsz0 : (0 <= sv_size sA * sv_size sB)%Z) by (rewrite ZA, ZB, NA, NB; nia). rewrite <- ZA, <- ZB in Hsz.
  assert (LB0 : (0 <= v_L vB)%Z) by (destruct SB as (_ & G & _); exact G).
  destruct IA as (LA & OA & QA & _). destruct IB as (LB & OB & QB & _).
  destruct (first_prim _ _ _ _ _ QA P1) as (NumA & GA & AA). destruct (first_prim _ _ _ _ _ QB P2) as (NumB & GB & AB).
  unfold type1_call, type1_integrals in H. rewrite EA, EB in H. cbn [bind massert] in H. cbv zeta in H.
  destruct (memset0_get _ sz M D ltac:(split; [exact Hsz0|exact Hsz])) as (M1 & E1 & _). rewrite E1, bind_ok in H. cbn [pv_prims fold_left bind] in H.
  assert (T : exists f, type1_mmd daw sA sB C al n (aconst [(sv_size sA * sv_size sB)%Z] 0) = Fail f).
  { unfold type1_mmd. destruct ((n =? 0)%Z || (n =? 1)%Z || (n =? 2)%Z) eqn:En; cbn [bind massert]; [|eexists; reflexivity]. cbv zeta.
    rewrite (memset_plain sA sB Hsz0 _ (plain_const sA sB)), bind_ok.
    rewrite for_range_step by exact NumA. rewrite GA, bind_ok. destruct (Rlt_dec (Rabs c1) zero_thresh) as [G|_]; [unfold zero_thresh in G; lra|].
    rewrite (for_range_step 0 (sv_num sB)) by exact NumB. rewrite GB, bind_ok. destruct (Rlt_dec (Rabs c2) zero_thresh) as [G|_]; [unfold zero_thresh in G; lra|].
    rewrite AA, bind_ok, AB, bind_ok. destruct (mmd_primitive_pair _ _ _ _ _ _ _ _ _) as [b|f] eqn:EE; [|exists f; reflexivity].
    exfalso. apply pair_10 in EE; [exact EE|lia|rewrite LA; exact HL|rewrite LB; exact LB0]. }
  destruct T as (f & T). rewrite T in H. cbn [bind] in H. rewrite step_fail in H. discriminate H.
Qed.

(** ** A simple form of the hypotheses *)
(** the routine for Dawson's integral has error at most eps *)
Definition dawson_accurate (daw : R -> res R) (eps : R) : Prop := forall x, 0 <= x -> exists d, daw x = Ok d /\ Rabs (d - dawson_int x) <= eps.

Lemma within_simple daw vA vB C terms : (v_L vA + v_L vB <= 15)%Z -> exps_pos vA -> exps_pos vB -> dawson_accurate daw (15 / 10 ^ 10) ->
  (forall n cf al, In (n, cf, al) terms -> (0 <= n <= 2)%Z /\ 0 <= al) -> within daw vA vB C terms (15 / 10 ^ 10).
Proof.
  intros LAB PA PB HD HP n cf al Hin. destruct (HP _ _ _ Hin) as (Hn & Hal). split; [lia|]. intros cA aA cB aB I1 I2. apply kept_in in I1, I2. pose proof (PA _ _ I1). pose proof (PB _ _ I2).
  split; [lra|]. split; [lra|]. assert (C3 : (n = 2 \/ n = 1 \/ n = 0)%Z) by lia. destruct C3 as [-> | [-> | ->]]; [left; reflexivity|right; left; split; [reflexivity|]; split; [right; exact LAB|lra]|].
  right. right. destruct (Rle_dec (pair_arg aA aB al (v_origin vA) (v_origin vB) C) 12) as [Le|Gt]; [left; split; [reflexivity|]; split; [exact Le|lra]|].
  right. split; [reflexivity|]. split; [lra|]. apply HD. apply sqrt_pos.
Qed.

Lemma local_thm daw h pA pB vA vB ca cb C pot M : heap_wf h -> std_shell h pA vA ca -> std_shell h pB vB cb ->
  (v_L vA <= 9)%Z -> (v_L vB <= 9)%Z -> (v_L vA + v_L vB <= 15)%Z -> exps_pos vA -> exps_pos vB -> fits M vA vB ->
  dawson_accurate daw (15 / 10 ^ 10) -> (forall n cf al, In (n, cf, al) (pv_prims pot) -> (0 <= n <= 2)%Z /\ 0 <= al) ->
  exists M', type1_call daw true h pA pB C (Some pot) M = Ok M' /\ only_block M M' vA vB /\
    forall m n cA cB, nth_error ca m = Some cA -> nth_error cb n = Some cB ->
      exists s v, elem_at M' vB m n = Ok s /\ pot_int C (pv_prims pot) (fun x y z => phi_kept vA cA x y z * phi_kept vB cB x y z) v /\
        Rabs (s - v) <= 15 / 10 ^ 10 * amplification vA vB C (pv_prims pot) cA cB.
Proof.
  intros W SA SB LA LB LAB PA PB HF HD HP. apply type1_thm; try assumption; [lra|]. apply within_simple; assumption.
Qed.

Lemma no_result_refuted : exists h pA pB vA vB ca cb C pot M,
  heap_wf h /\ std_shell h pA vA ca /\ std_shell h pB vB cb /\ (v_L vA <= 10)%Z /\ (v_L vB <= 10)%Z /\ exps_pos vA /\ exps_pos vB /\ fits M vA vB /\
  (forall n cf al, In (n, cf, al) (pv_prims pot) -> (0 <= n <= 2)%Z /\ 0 <= al) /\
  forall daw, type1_call daw true h pA pB C (Some pot) M = Fail AssertFailed.
Proof.
  destruct (shells_exist [(9%Z, (0, 0, 0)%R, [(1, 40)%R]); (7%Z, (0, 0, 0)%R, [(1, 40)%R])]) as (h & ps & W & F).
  { intros L o pr [E | [E | []]]; injection E as <- <- <-; lia. }
  inversion F as [|? pA ? ? HA F1]; subst. inversion F1 as [|? pB ? ? HB F2]; subst.
  destruct HA as (vA & ca & SA & LA & OA & PA). destruct HB as (vB & cb & SB & LB & OB & PB).
  exists h, pA, pB, vA, vB, ca, cb, (1, 0, 0), (mkVPot 0 0 [(1%Z, 1, 0)]), (aundef [1980%Z]).
  assert (NA := std_length _ _ _ _ SA). assert (NB := std_length _ _ _ _ SB). rewrite LA in NA. rewrite LB in NB.
  change (n_cart 9) with 55%Z in NA. change (n_cart 7) with 36%Z in NB.
  assert (HF : fits (aundef [1980%Z]) vA vB) by (exists 1980%Z; split; [reflexivity|]; rewrite (std_size _ _ _ _ SA), (std_size _ _ _ _ SB), NA, NB; lia).
  split; [exact W|]. split; [exact SA|]. split; [exact SB|]. split; [lia|]. split; [lia|].
  split; [intros c a; rewrite PA; intros [E | []]; injection E as <- <-; lra|]. split; [intros c a; rewrite PB; intros [E | []]; injection E as <- <-; lra|]. split; [exact HF|].
  split; [intros n cf al [E | []]; injection E as <- <- <-; split; [lia|lra]|].
  intros daw. eapply abort_thm; try eassumption; [rewrite Rabs_R1; lra|rewrite Rabs_R1; lra|rewrite LA, LB; lia|].
  rewrite OA, OB. unfold pair_arg, pair_X. cbn [coord3 Z.eqb]. unfold coord3. cbn [Z.eqb Pos.eqb fst snd]. lra.
Qed.
