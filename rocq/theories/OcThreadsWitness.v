(** * Two threads with one operator at two centres: a wrong result *)

From Coq Require Import ZArith List Lia Bool Reals Lra.
From Coquelicot Require Import Coquelicot.
From Verif Require Import Base Loops Sums BinomModel BinomProofs CartModel CartProofs HeapModel HeapProofs HeapSpec OneElModel OneElProofs OneElPairs OneElSpec OneElThms
  GaussProd OneElInt LmatModel LmatProofs NumSpec NucPotSpec NucPot GaussMoment HeapShrink SphModel SphSpec SphPoly SphProofs SphThms UtilProofs OvGradModel OvGradProofs OvGradThms OutercoreModel OutercoreProofs OutercoreRadial OutercoreSpec OutercoreMain OutercoreThms
  MmdModel MmdSpec MmdMain MmdThms MmdUser MmdOuter GrppModel GrppFull GrppHeap GrppGrad GrppThms GrppWitness ParamsModel Type2Model DawsonUse GrppOwnThms FortranNorm OcThreads OcThreadsProofs.
Import ListNotations.
Open Scope R_scope.

(** an outercore potential 80 exp(-6 r^2) with L = 0, J = 1/2 *)
Definition tU : vpot := mkVPot 0 1 [(2%Z, 80, 6)].
Definition C1 : R * R * R := (0, 0, 0).
Definition C2 : R * R * R := (0, 0, 2).


Lemma sph_s : sph_coef 0 [(0, 0, 0)%Z] 0 0 = 1.
Proof.
  pose proof PI_RGT_0 as HP. pose proof (sqrt_lt_R0 PI HP) as HS.
  assert (E : scoef 0 0 0 0 = sqrt (1 / (4 * PI))).
  { unfold scoef. cbn [Z.abs_nat Z.add Z.ltb Z.compare Z.of_nat Z.sub Z.opp Z.odd orb]. unfold normf. cbn -[Rmult Rdiv sqrt PI IZR].
    unfold hcf, bcf, ccf, ch, rsum. cbn -[Rmult Rdiv sqrt PI IZR]. replace ((2 * 0 + 1) / (4 * PI) * 1 / 1) with (1 / (4 * PI)) by (field; lra). field. }
  unfold sph_coef, comp. cbn [nth Z.to_nat]. change (0 - Z.of_nat 0)%Z with 0%Z. rewrite E. unfold ang_factor. change (dfactz (2 * 0 + 1)) with 1%Z. rewrite sqrt_1.
  assert (Q : sqrt (1 / (4 * PI)) = 1 / (2 * sqrt PI)).
  { apply sqrt_lem_1; [apply Rlt_le, Rdiv_lt_0_compat; lra|apply Rlt_le, Rdiv_lt_0_compat; lra|].
    transitivity (1 / (4 * (sqrt PI * sqrt PI))); [field; lra|]. rewrite sqrt_sqrt by lra. reflexivity. }
  rewrite Q. field. lra.
Qed.

Lemma s_overlap C : ovm 0 0 C1 C [(1, 1)] [(1, 1)] [(0, 0, 0)%Z] [(0, 0, 0)%Z] 0 0 = exp (- (coord3 C 0 ^ 2 + coord3 C 1 ^ 2 + coord3 C 2 ^ 2) / 2).
Proof.
  pose proof PI_RGT_0 as HP. unfold ovm, contracted, comp. cbn [nth Z.to_nat]. unfold lsum. cbn [fold_right].
  assert (O : forall x, os_pair 1 0 1 x 0 0 = sqrt (PI / 2) * exp (- (x ^ 2) / 2)).
  { intros x. unfold os_pair. cbv zeta. cbn -[Rmult Rdiv sqrt PI IZR exp Rplus Rminus Ropp pow]. replace (1 + 1) with 2 by ring. f_equal. f_equal. field. }
  pose proof (self_entry 0 C1 0 0 0 1 ltac:(lra) ltac:(lia) ltac:(lia) ltac:(lia) eq_refl) as Sf. unfold ov_entry, osv in Sf. cbn [Z.to_nat odd_prod] in Sf.
  assert (Z1 : forall k, coord3 C1 k = 0) by (intros k; unfold coord3, C1; destruct (k =? 0)%Z; [reflexivity|]; destruct (k =? 1)%Z; reflexivity).
  rewrite !Z1, O in Sf. replace (- 0 ^ 2 / 2) with 0 in Sf by field. rewrite exp_0 in Sf.
  unfold ov_entry, osv. cbn [Z.to_nat]. rewrite !Z1, !O.
  replace (- (coord3 C 0 ^ 2 + coord3 C 1 ^ 2 + coord3 C 2 ^ 2) / 2) with (- coord3 C 0 ^ 2 / 2 + (- coord3 C 1 ^ 2 / 2 + - coord3 C 2 ^ 2 / 2)) by field. rewrite !exp_plus.
  transitivity ((nf 0 1 * nf 0 1 * (sqrt (PI / 2) * 1) * (sqrt (PI / 2) * 1) * (sqrt (PI / 2) * 1)) * (exp (- coord3 C 0 ^ 2 / 2) * (exp (- coord3 C 1 ^ 2 / 2) * exp (- coord3 C 2 ^ 2 / 2)))); [ring|].
  rewrite Sf. ring.
Qed.

Lemma s_overlap' C : ovm 0 0 C C1 [(1, 1)] [(1, 1)] [(0, 0, 0)%Z] [(0, 0, 0)%Z] 0 0 = exp (- (coord3 C 0 ^ 2 + coord3 C 1 ^ 2 + coord3 C 2 ^ 2) / 2).
Proof.
  rewrite <- s_overlap. unfold ovm, contracted, comp. cbn [nth Z.to_nat]. unfold lsum. cbn [fold_right].
  assert (O : forall x y, os_pair 1 y 1 x 0 0 = os_pair 1 x 1 y 0 0).
  { intros x y. unfold os_pair. cbv zeta. cbn -[Rmult Rdiv sqrt PI IZR exp Rplus Rminus Ropp pow]. f_equal. f_equal. ring. }
  unfold ov_entry, osv. cbn [Z.to_nat]. rewrite (O (coord3 C1 0)), (O (coord3 C1 1)), (O (coord3 C1 2)). ring.
Qed.

Definition tdelta : R := table_ratio 0 ^ 2 * delta_val 0 [(1, 1)] [(1, 1)] (pv_prims tU) (pv_prims tU).

Lemma tdelta_big : 9 <= tdelta.
Proof.
  pose proof (table_ratio_bound 0 ltac:(lia)) as HB. unfold table_eps in HB. apply Rabs_le_between in HB.
  assert (E : delta_val 0 [(1, 1)] [(1, 1)] (pv_prims tU) (pv_prims tU) = 10).
  { pose proof PI_RGT_0 as HP. unfold delta_val, one_center_val, tU. cbn [pv_prims]. unfold lsum. cbn [fold_right]. change (Z.to_nat 2) with 2%nat. change (2 * 0 + 2)%nat with 2%nat. unfold norm_rad. change (2 * 0 + 2)%nat with 2%nat.
    assert (G : forall a, 0 < a -> GaussMoment.gmom 2 a = 1 / (4 * a) * sqrt (PI / a)) by (intros a Ha; change 2%nat with (2 * 1)%nat at 1; rewrite (GaussMoment.gmom_even 1 a Ha); change (dfactz (2 * 1 - 1)) with 1%Z; f_equal; cbn [Nat.add pow]; field; lra).
    replace (1 + 1 + 6) with 8 by ring. rewrite (G 8) by lra. replace (2 * 1) with 2 by ring. pose proof (GaussMoment.gmom_pos 2 2 ltac:(lra)) as Gp.
    assert (Q : / sqrt (GaussMoment.gmom 2 2) * / sqrt (GaussMoment.gmom 2 2) = / GaussMoment.gmom 2 2) by (rewrite <- Rinv_mult, sqrt_sqrt by lra; reflexivity).
    rewrite Q, (G 2) by lra.
    assert (S8 : sqrt (PI / 2) = 2 * sqrt (PI / 8)).
    { apply sqrt_lem_1; [lra|pose proof (sqrt_pos (PI / 8)); lra|]. transitivity (4 * (sqrt (PI / 8) * sqrt (PI / 8))); [ring|]. rewrite sqrt_sqrt by lra. field. }
    rewrite S8. pose proof (sqrt_lt_R0 (PI / 8) ltac:(lra)). field. lra. }
  unfold tdelta. rewrite E. nra.
Qed.

(** ** Steps of one thread *)
Inductive prs {A} : prog A -> omem -> prog A -> omem -> Prop :=
| prs_refl q m : prs q m q m
| prs_rd p k f m q' m' : prs (f (m p k)) m q' m' -> prs (Rd p k f) m q' m'
| prs_wr p k v q m q' m' : prs q (omem_set m p k v) q' m' -> prs (Wr p k v q) m q' m'.

Lemma prs_trans {A} (q q' q'' : prog A) m m' m'' : prs q m q' m' -> prs q' m' q'' m'' -> prs q m q'' m''.
Proof. intros H. induction H as [q m|p k f m q' m' H IH|p k v q m q' m' H IH]; intros H2; [exact H2|apply prs_rd, IH, H2|apply prs_wr, IH, H2]. Qed.

Lemma prs_bind {A B} (q q' : prog A) (f : A -> prog B) m m' : prs q m q' m' -> prs (pbind q f) m (pbind q' f) m'.
Proof. intros H. induction H as [q m|p k g m q' m' H IH|p k v q m q' m' H IH]; cbn [pbind]; [apply prs_refl|apply prs_rd, IH|apply prs_wr, IH]. Qed.

Lemma prs_treach {A} (q : prog A) m q' m' : prs q m q' m' -> forall ts n, nth_error ts n = Some q -> treach (ts, m) (put_nth ts n q', m').
Proof.
  assert (PP : forall (ts : list (prog A)) n x y, put_nth (put_nth ts n x) n y = put_nth ts n y) by (intros ts; induction ts as [|z ts IH]; intros [|n] x y; cbn; congruence || reflexivity).
  assert (PS : forall (ts : list (prog A)) n x, nth_error ts n = Some x -> put_nth ts n x = ts) by (intros ts; induction ts as [|z ts IH]; intros [|n] x E; cbn in *; try congruence; f_equal; apply IH; exact E).
  assert (PN : forall (ts : list (prog A)) n x y, nth_error ts n = Some x -> nth_error (put_nth ts n y) n = Some y) by (intros ts; induction ts as [|z ts IH]; intros [|n] x y E; cbn in *; try congruence; eapply IH; exact E).
  intros H. induction H as [q m|p k f m q' m' H IH|p k v q m q' m' H IH]; intros ts n Hn.
  - rewrite (PS _ _ _ Hn). apply treach_refl.
  - specialize (IH _ n (PN _ _ _ (f (m p k)) Hn)). rewrite PP in IH. eapply treach_step; [econstructor; [exact Hn|reflexivity]|exact IH].
  - specialize (IH _ n (PN _ _ _ q Hn)). rewrite PP in IH. eapply treach_step; [econstructor; [exact Hn|reflexivity]|exact IH].
Qed.

(** the shell at p has origin C in the memory m *)
Definition hold (m : omem) (p : Z) (C : R * R * R) : Prop := (m p 0%Z, m p 1%Z, m p 2%Z) = C.

Lemma put_run p C m : exists m', prs (put_origin p C) m (Done (Ok tt)) m' /\ hold m' p C.
Proof.
  eexists. split; [unfold put_origin; apply prs_wr, prs_wr, prs_wr, prs_refl|]. unfold hold, omem_set. rewrite !Z.eqb_refl. cbn [andb Z.eqb Pos.eqb]. destruct C as [[x y] z]. reflexivity.
Qed.

Lemma get_run p C m : hold m p C -> prs (get_origin p) m (Done (Ok C)) m.
Proof. intros <-. unfold get_origin. apply prs_rd, prs_rd, prs_rd, prs_refl. Qed.

Section Witness.
Variables (fuel : nat) (par : params) (bessel : Z -> R -> R) (erf : R -> R) (st : rsh_store).
Let rt := own_routines fuel par bessel erf st.
Variables (A B s : vshell) (org : R * R * R) (p : Z) (out : mats).
Let cs := [(0, 0, 0)%Z].
Hypothesis HA : vshell_is A 0 C1 [(1, 1)] cs.
Hypothesis HB : vshell_is B 0 C1 [(1, 1)] cs.
Hypothesis HS : vshell_is s 0 org [(1, 1)] cs.
Hypothesis Hout : let '(m0, m1, m2, m3) := out in adims m0 = [1%Z] /\ adims m1 = [1%Z] /\ adims m2 = [1%Z] /\ adims m3 = [1%Z].

Definition tgv : gview := mkGv None [] [] [(tU, s)].

Let SA : sv_size A = 1%Z. Proof. apply HA. Qed.
Let SB : sv_size B = 1%Z. Proof. apply HB. Qed.

Lemma gauss_U : gaussian_terms (pv_prims tU).
Proof. intros n cf al [E|[]]. injection E as <- <- <-. split; [reflexivity|lra]. Qed.

Lemma one_exps : exps [(1, 1)].
Proof. intros c a [E|[]]. injection E as <- <-. lra. Qed.

Lemma zero_mat M : adims M = [1%Z] -> exists M', memset0 1 M = Ok M' /\ ismat M' 1 1 1 (fun _ _ => 0).
Proof. intros D. destruct (memset_mat M 1 1 1 D ltac:(lia) ltac:(lia) ltac:(lia)) as (M' & E & F). exists M'. split; [exact E|exact F]. Qed.

Let szs := (1, 1, 1, 1)%Z.

Lemma before_ok C : exists bufs sums, full_before rt A B C tgv out = Ok (bufs, sums) /\ four bufs szs 1 1 (fun _ _ _ => 0) /\ four sums szs 1 1 (fun _ _ _ => 0).
Proof.
  destruct out as [[[m0 m1] m2] m3]. destruct Hout as (D0 & D1 & D2 & D3). unfold full_before. rewrite SA, SB. change (1 * 1)%Z with 1%Z. cbv zeta.
  destruct (zero_mat m0 D0) as (n0 & -> & F0). destruct (zero_mat m1 D1) as (n1 & -> & F1). destruct (zero_mat m2 D2) as (n2 & -> & F2). destruct (zero_mat m3 D3) as (n3 & -> & F3). rewrite !bind_ok.
  cbn [tgv gv_local gv_arep gv_esop fold_left].
  pose proof (own_null own_dawson A B C ltac:(rewrite SA; lia) ltac:(rewrite SB; lia)) as N. rewrite SA, SB in N.
  destruct (N (aconst [1%Z] 0) 1%Z eq_refl ltac:(lia)) as (b & Eb & Fb). unfold rt. cbn [own_routines rt_type1]. rewrite Eb, bind_ok.
  destruct (daxpy_mat 1 1 1 b n0 1 1 _ _ ltac:(lia) ltac:(lia) Fb F0) as (a & Ea & Fa & _). change (1 * 1)%Z with 1%Z in Ea. rewrite Ea, !bind_ok.
  eexists _, _. split; [reflexivity|]. pose proof (zeros_mat 1 1 ltac:(lia) ltac:(lia)) as Z0. split; [exact (conj Fb (conj Z0 (conj Z0 Z0)))|]. split; [|exact (conj F1 (conj F2 F3))].
  eapply ismat_ext; [|exact Fa]. intros i j _ _. cbv beta. ring.
Qed.

Lemma part_1_run C o szs0 : four o szs0 1 1 (fun _ _ _ => 0) -> exists o1 f, outercore_part_1 (rt_oc rt) A B C tU s o = Ok o1 /\ four o1 szs0 1 1 f.
Proof.
  intros F. pose proof (moved_is _ _ _ _ _ C HS) as HM.
  pose proof (own_gives own_dawson (move_shell s C) B 0 0 C C1 [(1, 1)] [(1, 1)] cs cs C tU HM HB ltac:(lia) ltac:(lia) one_exps one_exps gauss_U) as Tb.
  pose proof (own_gives own_dawson A (move_shell s C) 0 0 C1 C [(1, 1)] [(1, 1)] cs cs C tU HA HM ltac:(lia) ltac:(lia) one_exps one_exps gauss_U) as Ta.
  rewrite <- SA in F at 1. rewrite <- SB in F.
  destruct (part_1_ok (rt_oc rt) A B C 0 0 C1 C1 [(1, 1)] [(1, 1)] cs cs HA HB ltac:(lia) ltac:(lia) tU s 0 org [(1, 1)] cs _ _ o szs0 _ HS ltac:(lia) Tb Ta F) as (o1 & E & _ & F1).
  rewrite SA, SB in F1. eexists o1, _. split; [exact E|exact F1].
Qed.

Lemma part_2_run C o szs0 f : four o szs0 1 1 f -> exists o2, outercore_part_2 A B C tU s tU s o = Ok o2 /\
  four o2 szs0 1 1 (fun k i j => f k i j + second_term 0 1 (esop_factor tU 0) tdelta (to_ket 0 cs (ovm 0 0 C1 C [(1, 1)] [(1, 1)] cs cs)) (to_bra 0 cs (ovm 0 0 C C1 [(1, 1)] [(1, 1)] cs cs)) k i j).
Proof.
  intros F. pose proof (moved_is _ _ _ _ _ C HS) as HM.
  assert (PU : pot_in_range 0 (pv_prims tU)) by (intros n c z [E|[]]; injection E as <- <- <-; split; [lia|]; split; [cbn; lia|lra]).
  assert (Hdel : calculate_delta_integral tU (move_shell s C) tU (move_shell s C) = Ok tdelta)
    by (apply (delta_ok 0 _ _ [(1, 1)] [(1, 1)] tU tU); [lia|reflexivity|reflexivity|reflexivity|apply HM|apply HM|exact one_exps|exact one_exps|exact PU|exact PU]).
  rewrite <- SA in F at 1. rewrite <- SB in F.
  destruct (part_2_ok A B C 0 0 C1 C1 [(1, 1)] [(1, 1)] cs cs HA HB ltac:(lia) ltac:(lia) tU tU s s 0 org org [(1, 1)] [(1, 1)] cs tdelta o szs0 f HS HS ltac:(lia) eq_refl eq_refl eq_refl Hdel F) as (o2 & E & _ & F2).
  rewrite SA, SB in F2. exists o2. split; [exact E|].
  assert (W : arep_factor tU 0 = 1).
  { unfold arep_factor, j_below. cbn [pv_J tU]. destruct (Rlt_dec (1 / 2) 0); [lra|]. cbn [Z.add]. field. }
  change (Z.of_nat 0) with 0%Z in F2. rewrite W in F2. exact F2.
Qed.

(** the value of the averaged matrix of the second part: - delta <a|m><m|b> *)
Lemma second_value C : second_term 0 1 (esop_factor tU 0) tdelta (to_ket 0 cs (ovm 0 0 C1 C [(1, 1)] [(1, 1)] cs cs)) (to_bra 0 cs (ovm 0 0 C C1 [(1, 1)] [(1, 1)] cs cs)) (-1) 0 0 =
  - (tdelta * exp (- (coord3 C 0 ^ 2 + coord3 C 1 ^ 2 + coord3 C 2 ^ 2) / 2) ^ 2).
Proof.
  unfold second_term. change (-1 =? -1)%Z with true. cbv iota zeta. change (2 * Z.of_nat 0 + 1)%Z with 1%Z. unfold mmul.
  assert (Z1 : forall f, zsum 0 1 f = f 0%Z) by (intros f; rewrite zsum_first, zsum_nil by lia; ring).
  rewrite Z1. unfold to_ket, to_bra. cbn [length cs]. change (Z.of_nat 1) with 1%Z. rewrite !Z1. unfold cs. rewrite sph_s, s_overlap, s_overlap'. ring.
Qed.

(** a thread about to read the origins in the second part *)
Definition waiting (sums o1 : mats) : prog mats :=
  pbind (pbind (pbind (pbind (get_origin p) (fun x2 => pbind (get_origin p) (fun x1 => Done (part_2_from A B tU (move_shell s x1) tU (move_shell s x2) o1))))
     (pfold (fun o' out => part_2_prog A B C1 (tU, p, s) o' out) [])) (pfold (fun o out => pfold (fun o' out => part_2_prog A B C1 o o' out) [(tU, p, s)] out) []))
  (fun bufs => Done (full_after A B bufs sums)).

Lemma pause C : exists sums o1 f, four sums szs 1 1 (fun _ _ _ => 0) /\ four o1 szs 1 1 f /\
  forall m, exists m', prs (full_prog rt A B C tgv [p] out) m (waiting sums o1) m' /\ hold m' p C.
Proof.
  destruct (before_ok C) as (bufs & sums & Eb & Fb & Fs). destruct bufs as [[[b0 b1] b2] b3]. destruct Fb as (F0 & F1 & F2 & F3).
  destruct (zero_mat b0 (proj1 F0)) as (n0 & E0 & G0). destruct (zero_mat b1 (proj1 F1)) as (n1 & E1 & G1). destruct (zero_mat b2 (proj1 F2)) as (n2 & E2 & G2). destruct (zero_mat b3 (proj1 F3)) as (n3 & E3 & G3).
  destruct (part_1_run C (n0, n1, n2, n3) szs (conj G0 (conj G1 (conj G2 G3)))) as (o1 & f & E4 & G4).
  exists sums, o1, f. split; [exact Fs|]. split; [exact G4|]. intros m.
  unfold full_prog. change (rt_init rt) with true. cbn [massert]. rewrite bind_ok, Eb. cbn [pbind]. unfold waiting.
  destruct (put_run p C m) as (m1 & R1 & H1). destruct (put_run p C m1) as (m2 & R2 & H2). destruct (put_run p C m2) as (m3 & R3 & H3). destruct (put_run p C m3) as (m4 & R4 & H4).
  exists m4. split; [|exact H4]. apply prs_bind. unfold oc_prog. rewrite SA, SB. change (1 * 1)%Z with 1%Z. rewrite E0, bind_ok, E1, bind_ok, E2, bind_ok, E3, bind_ok. cbn [pbind].
  change (ocrefs tgv [p]) with [(tU, p, s)]. cbn [pfold].
  eapply prs_trans; [apply prs_bind, prs_bind; exact R1|]. cbn [pbind].
  eapply prs_trans; [apply prs_bind, prs_bind; unfold part_1_prog; apply prs_bind; exact R2|]. cbn [pbind].
  eapply prs_trans; [apply prs_bind, prs_bind, prs_bind; exact (get_run p C m2 H2)|]. cbn [pbind].
  eapply prs_trans; [apply prs_bind, prs_bind, prs_bind; exact (get_run p C m2 H2)|]. cbn [pbind].
  eapply prs_trans; [apply prs_bind, prs_bind, prs_bind; exact (get_run p C m2 H2)|]. cbn [pbind].
  eapply prs_trans; [apply prs_bind, prs_bind, prs_bind; exact (get_run p C m2 H2)|]. cbn [pbind].
  change (part_1_from (rt_oc rt) A B C tU s (move_shell s C) (move_shell s C) (move_shell s C) (move_shell s C) (n0, n1, n2, n3)) with (outercore_part_1 (rt_oc rt) A B C tU s (n0, n1, n2, n3)).
  rewrite E4. cbn [pbind].
  apply prs_bind, prs_bind. unfold part_2_prog. rewrite !Z.eqb_refl. cbn [negb].
  eapply prs_trans; [apply prs_bind; exact R3|]. cbn [pbind]. eapply prs_trans; [apply prs_bind; exact R4|]. cbn [pbind]. apply prs_refl.
Qed.

Lemma resume C sums o1 f : four sums szs 1 1 (fun _ _ _ => 0) -> four o1 szs 1 1 f ->
  exists X, aget (mat_k X (-1)) [0%Z] = Ok (f (-1)%Z 0%Z 0%Z - tdelta * exp (- (coord3 C 0 ^ 2 + coord3 C 1 ^ 2 + coord3 C 2 ^ 2) / 2) ^ 2) /\
    forall m, hold m p C -> prs (waiting sums o1) m (Done (Ok X)) m.
Proof.
  intros Fs F1. destruct (part_2_run C o1 szs f F1) as (o2 & E2 & F2).
  assert (Ef : exists X, full_after A B o2 sums = Ok X /\ aget (mat_k X (-1)) [0%Z] = Ok (f (-1)%Z 0%Z 0%Z - tdelta * exp (- (coord3 C 0 ^ 2 + coord3 C 1 ^ 2 + coord3 C 2 ^ 2) / 2) ^ 2)).
  { destruct o2 as [[[a0 a1] a2] a3], sums as [[[c0 c1] c2] c3]. destruct F2 as (P0 & P1 & P2 & P3). destruct Fs as (Q0 & Q1 & Q2 & Q3). unfold full_after. rewrite SA, SB. change (1 * 1)%Z with 1%Z. cbv zeta.
    assert (DX : forall X Y fx fy, ismat X 1 1 1 fx -> ismat Y 1 1 1 fy -> exists Y', daxpy 1 1 X Y = Ok Y' /\ ismat Y' 1 1 1 (fun i j => fy i j + 1 * fx i j)).
    { intros X Y fx fy HX HY. destruct (daxpy_mat 1 1 1 X Y 1 1 _ _ ltac:(lia) ltac:(lia) HX HY) as (Y' & E & F & _). exists Y'. split; [exact E|exact F]. }
    destruct (DX _ _ _ _ P0 Q0) as (x0 & -> & X0). destruct (DX _ _ _ _ P1 Q1) as (x1 & -> & _). destruct (DX _ _ _ _ P2 Q2) as (x2 & -> & _). destruct (DX _ _ _ _ P3 Q3) as (x3 & -> & _).
    rewrite !bind_ok. eexists. split; [reflexivity|]. cbn [mat_k]. change (-1 =? -1)%Z with true. cbv iota.
    destruct X0 as (_ & _ & G). pose proof (G 0%Z 0%Z ltac:(lia) ltac:(lia)) as G0. change (0 * 1 + 0)%Z with 0%Z in G0.
    etransitivity; [exact G0|]. f_equal. rewrite second_value. ring. }
  destruct Ef as (X & EX & VX). exists X. split; [exact VX|]. intros m Hm. unfold waiting.
  eapply prs_trans; [apply prs_bind, prs_bind, prs_bind, prs_bind; exact (get_run p C m Hm)|]. cbn [pbind].
  eapply prs_trans; [apply prs_bind, prs_bind, prs_bind, prs_bind; exact (get_run p C m Hm)|]. cbn [pbind].
  assert (E : part_2_from A B tU (move_shell s C) tU (move_shell s C) o1 = Ok o2).
  { rewrite <- E2. unfold outercore_part_2. destruct o1 as [[[a0 a1] a2] a3]. rewrite !Z.eqb_refl. reflexivity. }
  rewrite E. cbn [pbind pfold]. rewrite EX. apply prs_refl.
Qed.
End Witness.
