(** * The GRPP operator and its matrices under rigid motions (C84) *)

From Coq Require Import ZArith List Lia Bool Reals Lra Permutation.
From Coquelicot Require Import Coquelicot.
From Verif Require Import Base Loops Sums CartModel CartProofs HeapModel HeapProofs HeapSpec HeapGrpp OneElModel OneElProofs OneElPairs OneElSpec OneElThms
  GaussProd OneElInt LmatModel LmatProofs NumSpec NucPotSpec NucPot GaussMoment RadialModel RadialTables HeapShrink SphModel SphSpec SphProofs SphThms SphMomentum UtilProofs OvGradModel OvDeriv OvGradProofs OvGradThms OutercoreModel OutercoreProofs OutercoreRadial OutercoreSpec OutercoreMain OutercoreThms
  MmdModel MmdSpec MmdMain MmdThms MmdUser MmdNuc MmdOuter GrppModel GrppFull GrppHeap GrppGrad GrppGrad2 GrppThms GrppGrad3 GrppTerm GrppTermGrad GrppLocal GrppOc GrppWitness
  ParamsModel Type2Model Type2Spec Type2Proj Type2Radial Type2Main Type2Acc Type2So DawsonUse GrppOwnSpec GrppOwn GrppOwnThms Hermit RotSphere RotMomentum RotProj RotLocal.
From Verif Require RigidPoly Rigid RigidThms.
Import ListNotations.
Open Scope R_scope.

(** ** The operator *)
Lemma element_sum_three {T} (V : Z -> T -> fn3 -> fn3 -> R -> Prop) (V' : T -> fn3 -> fn3 -> R -> Prop) f g f' g' (d a b c : R) l :
  (forall x u0 u1 u2, In x l -> V 0%Z x f g u0 -> V 1%Z x f g u1 -> V 2%Z x f g u2 -> V' x f' g' (d * (a * u0 + b * u1 + c * u2))) ->
  forall v0 v1 v2, element_sum (V 0%Z) l f g v0 -> element_sum (V 1%Z) l f g v1 -> element_sum (V 2%Z) l f g v2 -> element_sum V' l f' g' (d * (a * v0 + b * v1 + c * v2)).
Proof.
  induction l as [|x l IH]; intros H v0 v1 v2; cbn [element_sum]; [intros -> -> ->; ring|].
  intros (x0 & y0 & X0 & Y0 & ->) (x1 & y1 & X1 & Y1 & ->) (x2 & y2 & X2 & Y2 & ->). exists (d * (a * x0 + b * x1 + c * x2)), (d * (a * y0 + b * y1 + c * y2)).
  split; [apply H; auto; left; reflexivity|]. split; [apply IH; auto; intros; apply H; auto; right; assumption|ring].
Qed.

Lemma element_sum_in {T} (V V' : T -> fn3 -> fn3 -> R -> Prop) l f g f' g' : (forall x u, In x l -> V x f g u -> V' x f' g' u) -> forall u, element_sum V l f g u -> element_sum V' l f' g' u.
Proof.
  induction l as [|x l IH]; intros H u; cbn [element_sum]; [exact (fun x => x)|]. intros (a & b & Ha & Hb & ->). exists a, b. split; [apply H; [left; reflexivity|exact Ha]|]. split; [apply IH; [intros; apply H; [right|]; assumption|exact Hb]|reflexivity].
Qed.

(** the contents of the operator: angular momenta up to 31, exponents of the local part not negative *)
Definition gv_fine (n : nat) (gv : gview) : Prop :=
  exps_ok (gv_local gv) /\ forall U, In U (gv_arep gv ++ gv_esop gv) -> (n + Z.to_nat (pv_L U) <= 40)%nat.

Lemma grpp_rot O t C gv os delta n f f' g g' (v : Z -> R) k : orthogonal O -> gpn n f -> gpn n g -> gv_fine n gv -> oc_fine os -> Rigid.carried O t f f' -> Rigid.carried O t g g' -> (-1 <= k < 3)%Z ->
  (forall j, (-1 <= j < 3)%Z -> grpp_V C gv (oc_V C os delta Wk) j f g (v j)) ->
  grpp_V (Rigid.moved3 O t C) gv (oc_V (Rigid.moved3 O t C) os delta Wk) k f' g' (turned O v k).
Proof.
  intros HO Hf Hg (HL & HU) HF Cf Cg Hk HV.
  destruct (HV (-1)%Z ltac:(lia)) as (am & bm & Bm & Em & (u & w & Hu & Hw & Ea)). cbn [Z.eqb] in *.
  destruct (HV 0%Z ltac:(lia)) as (a0 & b0 & B0 & E0 & A0). destruct (HV 1%Z ltac:(lia)) as (a1 & b1 & B1 & E1 & A1). destruct (HV 2%Z ltac:(lia)) as (a2 & b2 & B2 & E2 & A2). cbn [Z.eqb] in A0, A1, A2.
  set (bv := fun j => if (j =? -1)%Z then bm else if (j =? 0)%Z then b0 else if (j =? 1)%Z then b1 else b2).
  assert (Oc : oc_V (Rigid.moved3 O t C) os delta Wk k f' g' (turned O bv k)).
  { apply (oc_rot O t C os delta f f' g g'); [exact HO|exact (gpn_gp n f Hf)|exact (gpn_gp n g Hg)|exact HF|exact Cf|exact Cg|exact Hk|]. intros j Hj. assert (j = -1 \/ j = 0 \/ j = 1 \/ j = 2)%Z as [-> | [-> | [-> | ->]]] by lia; assumption. }
  exists (if (k =? -1)%Z then am else det3 O * (O k 0%Z * a0 + O k 1%Z * a1 + O k 2%Z * a2)), (turned O bv k). split; [exact Oc|]. unfold turned in *. destruct (Z.eqb_spec k (-1)) as [-> |Hn]; split.
  - exact Em.
  - exists u, w. split; [apply (local_rot O t C _ f f' g g'); [exact HO|exact (gpn_gp n f Hf)|exact (gpn_gp n g Hg)|exact HL|exact Cf|exact Cg|exact Hu]|]. split; [|exact Ea].
    revert Hw. apply element_sum_in. intros U z Hin Hz. apply (semilocal_rot O t C U n f f' g g'); try assumption. apply HU, in_or_app. left. exact Hin.
  - unfold RigidPoly.sum3. rewrite E0, E1, E2. unfold bv. cbn [Z.eqb Pos.eqb]. ring.
  - refine (element_sum_three (fun j U f g x => exists w, spin_orbit_V C U j f g w /\ x = 2 / (2 * IZR (pv_L U) + 1) * w) _ f g f' g' (det3 O) (O k 0%Z) (O k 1%Z) (O k 2%Z) (gv_esop gv) _ a0 a1 a2 A0 A1 A2).
    intros U u0 u1 u2 Hin (w0 & W0 & ->) (w1 & W1 & ->) (w2 & W2 & ->).
    set (wv := fun j => if (j =? 0)%Z then w0 else if (j =? 1)%Z then w1 else w2).
    exists (det3 O * RigidPoly.sum3 (fun j => O k j * wv j)). split.
    + apply (spin_orbit_rot O t C U n f f' g g' wv k); try assumption; [apply HU, in_or_app; right; exact Hin|lia|]. intros j Hj. assert (j = 0 \/ j = 1 \/ j = 2)%Z as [-> | [-> | ->]] by lia; assumption.
    + unfold RigidPoly.sum3, wv. cbn [Z.eqb Pos.eqb]. ring.
Qed.

(** ** Linear combinations *)
Lemma bra_sum (V : Z -> fn3 -> fn3 -> R -> Prop) k {T} (l : list T) (F : T -> fn3) g (w v : T -> R) : bilinear V -> l <> [] -> (forall a, In a l -> V k (F a) g (v a)) ->
  V k (fun x y z => lsum (fun a => w a * F a x y z) l) g (lsum (fun a => w a * v a) l).
Proof.
  intros (B1 & B2 & B3). induction l as [|a l IH]; intros Hne H; [contradiction|]. destruct l as [|b l].
  - pose proof (B2 k _ _ _ _ _ (w a - 1) (H a (or_introl eq_refl)) (H a (or_introl eq_refl))) as E. replace (lsum (fun a => w a * v a) [a]) with (v a + (w a - 1) * v a) by (unfold lsum; cbn; ring).
    eapply B1; [| |exact E]; intros x y z; [unfold lsum; cbn; ring|reflexivity].
  - pose proof (B2 k _ _ _ _ _ (w a) (IH ltac:(discriminate) (fun c Hc => H c (or_intror Hc))) (H a (or_introl eq_refl))) as E. rewrite lsum_cons, Rplus_comm.
    eapply B1; [| |exact E]; intros x y z; cbv beta; [rewrite (lsum_cons _ a); ring|reflexivity].
Qed.

Lemma ket_sum (V : Z -> fn3 -> fn3 -> R -> Prop) k {T} (l : list T) f (F : T -> fn3) (w v : T -> R) : bilinear V -> l <> [] -> (forall a, In a l -> V k f (F a) (v a)) ->
  V k f (fun x y z => lsum (fun a => w a * F a x y z) l) (lsum (fun a => w a * v a) l).
Proof.
  intros (B1 & B2 & B3). induction l as [|a l IH]; intros Hne H; [contradiction|]. destruct l as [|b l].
  - pose proof (B3 k _ _ _ _ _ (w a - 1) (H a (or_introl eq_refl)) (H a (or_introl eq_refl))) as E. replace (lsum (fun a => w a * v a) [a]) with (v a + (w a - 1) * v a) by (unfold lsum; cbn; ring).
    eapply B1; [| |exact E]; intros x y z; [reflexivity|unfold lsum; cbn; ring].
  - pose proof (B3 k _ _ _ _ _ (w a) (IH ltac:(discriminate) (fun c Hc => H c (or_intror Hc))) (H a (or_introl eq_refl))) as E. rewrite lsum_cons, Rplus_comm.
    eapply B1; [| |exact E]; intros x y z; cbv beta; [reflexivity|rewrite (lsum_cons _ a); ring].
Qed.

Definition nthc (l : list (Z * Z * Z)) (m : nat) : Z * Z * Z := nth m l (0, 0, 0)%Z.

Lemma rotated_value V k vA vB ca cb D cA cB (w : nat -> nat -> R) : bilinear V -> ca <> [] -> cb <> [] ->
  (forall m n, (m < length ca)%nat -> (n < length cb)%nat -> V k (phi_of vA (nthc ca m)) (phi_of vB (nthc cb n)) (w m n)) ->
  V k (fun x y z => lsum (fun c' => D cA c' * phi_of vA c' x y z) ca) (fun x y z => lsum (fun c' => D cB c' * phi_of vB c' x y z) cb) (RigidThms.rotated_sum D ca cb cA cB w).
Proof.
  intros HB Na Nb H. assert (Sa : seq 0 (length ca) <> []) by (destruct ca; [contradiction|discriminate]). assert (Sb : seq 0 (length cb) <> []) by (destruct cb; [contradiction|discriminate]).
  assert (E : V k (fun x y z => lsum (fun m => D cA (nthc ca m) * phi_of vA (nthc ca m) x y z) (seq 0 (length ca))) (fun x y z => lsum (fun n => D cB (nthc cb n) * phi_of vB (nthc cb n) x y z) (seq 0 (length cb)))
     (lsum (fun m => D cA (nthc ca m) * lsum (fun n => D cB (nthc cb n) * w m n) (seq 0 (length cb))) (seq 0 (length ca)))).
  { refine (bra_sum V k (seq 0 (length ca)) (fun m => phi_of vA (nthc ca m)) _ (fun m => D cA (nthc ca m)) _ HB Sa _). intros m Hm. apply in_seq in Hm.
    refine (ket_sum V k (seq 0 (length cb)) _ (fun n => phi_of vB (nthc cb n)) (fun n => D cB (nthc cb n)) _ HB Sb _). intros n Hn. apply in_seq in Hn. apply H; lia. }
  replace (RigidThms.rotated_sum D ca cb cA cB w) with (lsum (fun m => D cA (nthc ca m) * lsum (fun n => D cB (nthc cb n) * w m n) (seq 0 (length cb))) (seq 0 (length ca))).
  - eapply (proj1 HB); [| |exact E]; intros x y z; cbv beta; [exact (RigidThms.seq_nth (fun c' => D cA c' * phi_of vA c' x y z) (0, 0, 0)%Z ca)|exact (RigidThms.seq_nth (fun c' => D cB c' * phi_of vB c' x y z) (0, 0, 0)%Z cb)].
  - unfold RigidThms.rotated_sum. apply lsum_ext. intros m _. rewrite <- lsum_scal. apply lsum_ext. intros n _. unfold nthc. ring.
Qed.

(** ** Basis functions *)
Lemma phi_gpn v c : (0 <= v_L v <= 9)%Z -> exps_pos v -> nonneg3 c -> (let '(n, l, m) := c in n + l + m = v_L v)%Z -> gpn 9 (phi_of v c).
Proof.
  intros HL HX Hn Hs. exists (map (fun p => (snd p, v_origin v, [(fst p * norm_L (v_L v) (snd p), RigidThms.cmono c)])) (v_prims v)). split.
  - intros T HT. apply in_map_iff in HT. destruct HT as ((cf, a) & <- & Hin). split; [exact (HX cf a Hin)|]. intros q [<-|[]]. cbn [snd fst]. destruct c as [[n l] m]. unfold RigidThms.cmono. unfold nonneg3 in Hn. cbn. lia.
  - intros x y z. unfold phi_of, phi. rewrite lsum_map. apply lsum_ext. intros (cf, a) _. rewrite RigidThms.gto_pg. unfold Rigid.gval, Rigid.gtp, Rigid.gto_, Rigid.gtq, Rigid.pg, RigidPoly.meval, lsum. cbn [fst snd fold_right]. ring.
Qed.

Lemma comp_in h p v comps c : std_shell h p v comps -> In c comps -> nonneg3 c /\ (let '(n, l, m) := c in n + l + m = v_L v)%Z.
Proof.
  intros S Hin. destruct (RigidThms.std_complete _ _ _ _ S) as (_ & Hi). destruct c as [[n l] m]. apply Hi in Hin. unfold nonneg3. lia.
Qed.

Lemma rotated_abs D ca cb cA cB w w' e : (forall m n, (m < length ca)%nat -> (n < length cb)%nat -> Rabs (w m n - w' m n) <= e) ->
  Rabs (RigidThms.rotated_sum D ca cb cA cB w - RigidThms.rotated_sum D ca cb cA cB w') <= RigidThms.rotated_sum (fun c c' => Rabs (D c c')) ca cb cA cB (fun _ _ => e).
Proof.
  intros H. unfold RigidThms.rotated_sum.
  assert (G : forall l f f' b, (forall m : nat, In m l -> Rabs (f m - f' m) <= b m) -> Rabs (lsum f l - lsum f' l) <= lsum b l).
  { induction l as [|a l IH]; intros f f' b Hl; [unfold lsum; cbn; rewrite Rminus_0_r, Rabs_R0; lra|]. rewrite !lsum_cons. replace (f a + lsum f l - (f' a + lsum f' l)) with ((f a - f' a) + (lsum f l - lsum f' l)) by ring. eapply Rle_trans; [apply Rabs_triang|]. apply Rplus_le_compat; [apply Hl; left; reflexivity|apply IH; intros; apply Hl; right; assumption]. }
  apply G. intros m Hm. apply G. intros n Hn. apply in_seq in Hm. apply in_seq in Hn. rewrite <- Rmult_minus_distr_l, !Rabs_mult. apply Rmult_le_compat_l; [apply Rmult_le_pos; apply Rabs_pos|apply H; lia].
Qed.

Lemma det_abs O : orthogonal O -> Rabs (det3 O) = 1.
Proof.
  intros HO. pose proof (det_sq O HO) as E. assert (F : Rabs (det3 O) * Rabs (det3 O) = 1) by (rewrite <- Rabs_mult, E; apply Rabs_R1). pose proof (Rabs_pos (det3 O)) as P. assert (G : (Rabs (det3 O) - 1) * (Rabs (det3 O) + 1) = 0) by (replace ((Rabs (det3 O) - 1) * (Rabs (det3 O) + 1)) with (Rabs (det3 O) * Rabs (det3 O) - 1) by ring; rewrite F; ring).
  apply Rmult_integral in G. destruct G; lra.
Qed.

(** errors of the three components, turned *)
Definition turned_error (O : mat) (e : Z -> R) (k : Z) : R := if (k =? -1)%Z then e (-1)%Z else RigidPoly.sum3 (fun j => Rabs (O k j) * e j).

Lemma turned_close O (u v e : Z -> R) k : orthogonal O -> (-1 <= k < 3)%Z -> (forall j, (-1 <= j < 3)%Z -> Rabs (u j - v j) <= e j) -> Rabs (turned O u k - turned O v k) <= turned_error O e k.
Proof.
  intros HO Hk H. unfold turned, turned_error. destruct (Z.eqb_spec k (-1)) as [_|Hn]; [apply H; lia|]. rewrite <- Rmult_minus_distr_l, Rabs_mult, det_abs, Rmult_1_l by exact HO. unfold RigidPoly.sum3.
  replace (O k 0%Z * u 0%Z + O k 1%Z * u 1%Z + O k 2%Z * u 2%Z - (O k 0%Z * v 0%Z + O k 1%Z * v 1%Z + O k 2%Z * v 2%Z)) with (O k 0%Z * (u 0%Z - v 0%Z) + O k 1%Z * (u 1%Z - v 1%Z) + O k 2%Z * (u 2%Z - v 2%Z)) by ring.
  assert (G : forall j, (0 <= j < 3)%Z -> Rabs (O k j * (u j - v j)) <= Rabs (O k j) * e j) by (intros j Hj; rewrite Rabs_mult; apply Rmult_le_compat_l; [apply Rabs_pos|apply H; lia]).
  eapply Rle_trans; [apply Rabs_triang|]. apply Rplus_le_compat; [|apply G; lia]. eapply Rle_trans; [apply Rabs_triang|]. apply Rplus_le_compat; apply G; lia.
Qed.

(** ** The calls *)
Lemma finite_choice {A} (d : A) (P : nat -> A -> Prop) N : (forall m, (m < N)%nat -> exists x, P m x) -> exists f, forall m, (m < N)%nat -> P m (f m).
Proof.
  induction N as [|N IH]; intros H; [exists (fun _ => d); intros; lia|]. destruct IH as (f & Hf); [intros; apply H; lia|]. destruct (H N ltac:(lia)) as (x & Hx).
  exists (fun m => if Nat.eqb m N then x else f m). intros m Hm. destruct (Nat.eqb_spec m N) as [-> |Hn]; [exact Hx|apply Hf; lia].
Qed.

Definition elem_of (M : mats) (vB : sview) (k : Z) (m n : nat) : R := match elem_at (mat_k M k) vB m n with Ok s => s | Fail _ => 0 end.

Lemma ready_fine fuel par bessel erf C gv vA vB e1 eps Qm : own_ready fuel par bessel erf C gv vA vB e1 eps Qm -> gv_fine 9 gv.
Proof.
  intros (LA & LB & LAB & PA & PB & NA & NB & (He1 & HL) & HU). split.
  - intros U' E n cf al Hin. rewrite E in HL. destruct HL as (HL & _). apply (HL n cf al Hin).
  - intros U Hin. destruct (HU U Hin) as ((X1 & X2 & X3 & X4 & X5 & _) & _). lia.
Qed.

Lemma oc_ready_fine ocs os : oc_ready ocs os -> oc_fine os.
Proof.
  intros (cart & _ & _ & HV & HG) o Ho. rewrite List.Forall_forall in HV. destruct (HV o Ho) as (X1 & X2 & X3). split; [lia|]. split; [exact X2|apply (HG o Ho)].
Qed.

Lemma grpp_block_thm O : RigidPoly.orthogonal O -> exists D, RigidThms.rotates_monomials O D /\
  forall fuel par bessel erf st t h h1 pA pB pA' pB' g gv ocp os vA vB vA' vB' ca cb ca' cb' C out out1 e1 eps Qm e1' eps' Qm',
  (14 <= fuel)%nat -> init_tables st -> heap_wf h -> std_shell h pA vA ca -> std_shell h pB vB cb -> std_shell h pA' vA' ca' -> std_shell h pB' vB' cb' ->
  grpp_at h g gv ocp -> ~ In pA ocp -> ~ In pB ocp -> ~ In pA' ocp -> ~ In pB' ocp -> oc_ready (gv_oc gv) os ->
  RigidThms.moved_shell O t vA vA' -> RigidThms.moved_shell O t vB vB' ->
  own_ready fuel par bessel erf C gv vA vB e1 eps Qm -> own_ready fuel par bessel erf (Rigid.moved3 O t C) gv vA' vB' e1' eps' Qm' ->
  room4 vA vB out -> room4 vA' vB' out1 -> reached C ocp h h1 ->
  exists X hX Y hY E E',
    full_grpp_integrals (own_routines fuel par bessel erf st) h pA pB g C out = Ok (X, hX) /\ reached C ocp h hX /\
    full_grpp_integrals (own_routines fuel par bessel erf st) h1 pA' pB' g (Rigid.moved3 O t C) out1 = Ok (Y, hY) /\
    (forall k, (-1 <= k < 3)%Z -> RigidThms.elements (mat_k X k) vB (length ca) (length cb) (E k) /\ RigidThms.elements (mat_k Y k) vB' (length ca') (length cb') (E' k)) /\
    forall k i j, (-1 <= k < 3)%Z -> (i < length ca)%nat -> (j < length cb)%nat ->
      Rabs ((if (k =? -1)%Z then E (-1)%Z i j else det3 O * RigidPoly.sum3 (fun q => O k q * E q i j)) - RigidThms.rotated_sum D ca' cb' (nth i ca (0, 0, 0)%Z) (nth j cb (0, 0, 0)%Z) (E' k))
      <= (if (k =? -1)%Z then grpp_error C gv vA vB e1 eps Qm (-1) else RigidPoly.sum3 (fun q => Rabs (O k q) * grpp_error C gv vA vB e1 eps Qm q))
         + RigidThms.rotated_sum (fun c c' => Rabs (D c c')) ca' cb' (nth i ca (0, 0, 0)%Z) (nth j cb (0, 0, 0)%Z) (fun _ _ => grpp_error (Rigid.moved3 O t C) gv vA' vB' e1' eps' Qm' k).
Proof.
  intros HO. exists (RigidThms.rotD O). split.
  { intros L comps n l m x y z HL HC Hn Hl Hm Hs. pose proof (RigidThms.rotD_ok O L comps (n, l, m) x y z HL HC (conj Hn (conj Hl Hm)) Hs) as H. unfold RigidThms.cmono at 1 in H. unfold RigidPoly.mval at 1 in H. rewrite H. apply lsum_ext. intros [[n' l'] m'] _. reflexivity. }
  intros fuel par bessel erf st t h h1 pA pB pA' pB' g gv ocp os vA vB vA' vB' ca cb ca' cb' C out out1 e1 eps Qm e1' eps' Qm' Hf HI W SA SB SA' SB' G NA NB NA' NB' HOc MA MB HR HR' Rm Rm' Rc.
  set (C' := Rigid.moved3 O t C) in *.
  destruct (own_elements fuel par bessel erf st h h pA pB g gv ocp os vA vB ca cb C out e1 eps Qm Hf HI W SA SB G NA NB (reached_refl C ocp h W) Rm HOc HR) as (X & hX & EX & _ & RX & VX).
  destruct (reached_grpp _ _ _ _ _ _ W Rc G) as (gv' & G1 & Hgv). pose proof (reached_std _ _ _ _ _ _ _ Rc SA' NA') as SA1. pose proof (reached_std _ _ _ _ _ _ _ Rc SB' NB') as SB1. pose proof (proj1 Rc) as W1.
  pose proof (oc_ready_moved C gv gv' os Hgv HOc) as HO1.
  assert (HR1 : own_ready fuel par bessel erf C' gv' vA' vB' e1' eps' Qm') by (destruct Hgv as [-> | ->]; exact HR').
  destruct (own_elements fuel par bessel erf st h1 h1 pA' pB' g gv' ocp os vA' vB' ca' cb' C' out1 e1' eps' Qm' Hf HI W1 SA1 SB1 G1 NA' NB' (reached_refl C' ocp h1 W1) Rm' HO1 HR1) as (Y & hY & EY & _ & _ & VY).
  exists X, hX, Y, hY, (elem_of X vB), (elem_of Y vB'). split; [exact EX|]. split; [exact RX|]. split; [exact EY|].
  assert (GX : forall k i j, (-1 <= k < 3)%Z -> (i < length ca)%nat -> (j < length cb)%nat -> exists v, elem_at (mat_k X k) vB i j = Ok (elem_of X vB k i j) /\ grpp_V C gv (oc_V C os own_delta Wk) k (phi_of vA (nthc ca i)) (phi_of vB (nthc cb j)) v /\ Rabs (elem_of X vB k i j - v) <= grpp_error C gv vA vB e1 eps Qm k).
  { intros k i j Hk Hi Hj. destruct (VX k i j _ _ Hk (nth_error_nth' ca (0, 0, 0)%Z Hi) (nth_error_nth' cb (0, 0, 0)%Z Hj)) as (s & v & Es & Vs & Bs). exists v. unfold elem_of. rewrite Es. auto. }
  assert (GY : forall k i j, (-1 <= k < 3)%Z -> (i < length ca')%nat -> (j < length cb')%nat -> exists v, elem_at (mat_k Y k) vB' i j = Ok (elem_of Y vB' k i j) /\ grpp_V C' gv (oc_V C' os own_delta Wk) k (phi_of vA' (nthc ca' i)) (phi_of vB' (nthc cb' j)) v /\ Rabs (elem_of Y vB' k i j - v) <= grpp_error C' gv vA' vB' e1' eps' Qm' k).
  { intros k i j Hk Hi Hj. destruct (VY k i j _ _ Hk (nth_error_nth' ca' (0, 0, 0)%Z Hi) (nth_error_nth' cb' (0, 0, 0)%Z Hj)) as (s & v & Es & Vs & Bs). exists v. unfold elem_of. rewrite Es. split; [reflexivity|]. destruct Hgv as [-> | ->]; split; assumption. }
  split. { intros k Hk. split; intros m n Hm Hn; [destruct (GX k m n Hk Hm Hn) as (v & E & _)|destruct (GY k m n Hk Hm Hn) as (v & E & _)]; exact E. }
  intros k i j Hk Hi Hj. change (nth i ca (0, 0, 0)%Z) with (nthc ca i). change (nth j cb (0, 0, 0)%Z) with (nthc cb j).
  assert (HS : exists v : Z -> R, forall q, (-1 <= q < 3)%Z -> grpp_V C gv (oc_V C os own_delta Wk) q (phi_of vA (nthc ca i)) (phi_of vB (nthc cb j)) (v q) /\ Rabs (elem_of X vB q i j - v q) <= grpp_error C gv vA vB e1 eps Qm q).
  { destruct (GX (-1)%Z i j ltac:(lia) Hi Hj) as (x & _ & X1). destruct (GX 0%Z i j ltac:(lia) Hi Hj) as (x0 & _ & X2). destruct (GX 1%Z i j ltac:(lia) Hi Hj) as (x1 & _ & X3). destruct (GX 2%Z i j ltac:(lia) Hi Hj) as (x2 & _ & X4).
    exists (fun q => if (q =? -1)%Z then x else if (q =? 0)%Z then x0 else if (q =? 1)%Z then x1 else x2). intros q Hq. assert (q = -1 \/ q = 0 \/ q = 1 \/ q = 2)%Z as [-> | [-> | [-> | ->]]] by lia; assumption. }
  destruct HS as (v & Hv).
  assert (HW : exists w : nat -> nat -> R, forall m, (m < length ca')%nat -> forall n, (n < length cb')%nat -> grpp_V C' gv (oc_V C' os own_delta Wk) k (phi_of vA' (nthc ca' m)) (phi_of vB' (nthc cb' n)) (w m n) /\ Rabs (elem_of Y vB' k m n - w m n) <= grpp_error C' gv vA' vB' e1' eps' Qm' k).
  { pose (P := fun m n x => grpp_V C' gv (oc_V C' os own_delta Wk) k (phi_of vA' (nthc ca' m)) (phi_of vB' (nthc cb' n)) x /\ Rabs (elem_of Y vB' k m n - x) <= grpp_error C' gv vA' vB' e1' eps' Qm' k).
    apply (finite_choice (fun _ : nat => 0) (fun m f => forall n, (n < length cb')%nat -> P m n (f n)) (length ca')). intros m Hm. apply (finite_choice 0 (P m)). intros n Hn. destruct (GY k m n Hk Hm Hn) as (x & _ & Hx). exists x. exact Hx. }
  destruct HW as (w & Hw). pose proof HR as (LA & LB & _ & PA & PB & _).
  assert (IA : In (nthc ca i) ca) by (apply nth_In, Hi). assert (IB : In (nthc cb j) cb) by (apply nth_In, Hj).
  destruct (comp_in _ _ _ _ _ SA IA) as (KA & QA). destruct (comp_in _ _ _ _ _ SB IB) as (KB & QB).
  pose proof (RigidThms.std_complete _ _ _ _ SA') as CA. pose proof (RigidThms.std_complete _ _ _ _ SB') as CB. rewrite (proj1 MA) in CA. rewrite (proj1 MB) in CB.
  assert (Na : ca' <> []). { intros E. pose proof (std_length _ _ _ _ SA) as Z1. pose proof (std_length _ _ _ _ SA') as Z2. rewrite (proj1 MA) in Z2. rewrite E in Z2. cbn [length] in Z2. lia. }
  assert (Nb : cb' <> []). { intros E. pose proof (std_length _ _ _ _ SB) as Z1. pose proof (std_length _ _ _ _ SB') as Z2. rewrite (proj1 MB) in Z2. rewrite E in Z2. cbn [length] in Z2. lia. }
  assert (T1 : grpp_V C' gv (oc_V C' os own_delta Wk) k (fun x y z => lsum (fun c' => RigidThms.rotD O (nthc ca i) c' * phi_of vA' c' x y z) ca') (fun x y z => lsum (fun c' => RigidThms.rotD O (nthc cb j) c' * phi_of vB' c' x y z) cb') (turned O v k)).
  { apply (grpp_rot O t C gv os own_delta 9 (phi_of vA (nthc ca i)) _ (phi_of vB (nthc cb j)) _ v k HO).
    - apply phi_gpn; assumption.
    - apply phi_gpn; assumption.
    - eapply ready_fine; exact HR.
    - eapply oc_ready_fine; exact HOc.
    - intros x y z. apply RigidThms.phi_moved; (assumption || lia).
    - intros x y z. apply RigidThms.phi_moved; (assumption || lia).
    - exact Hk.
    - intros q Hq. apply (Hv q Hq). }
  pose proof (rotated_value _ k vA' vB' ca' cb' (RigidThms.rotD O) (nthc ca i) (nthc cb j) w (bilinear_grpp C' gv _ (bilinear_oc C' os own_delta Wk)) Na Nb (fun m n Hm Hn => proj1 (Hw m Hm n Hn))) as T2.
  pose proof (grpp_unique _ _ _ _ _ _ _ _ _ _ T1 T2) as EQ.
  pose proof (turned_close O (fun q => elem_of X vB q i j) v (grpp_error C gv vA vB e1 eps Qm) k HO Hk (fun q Hq => proj2 (Hv q Hq))) as B1.
  pose proof (rotated_abs (RigidThms.rotD O) ca' cb' (nthc ca i) (nthc cb j) (elem_of Y vB' k) w _ (fun m n Hm Hn => proj2 (Hw m Hm n Hn))) as B2.
  change (if (k =? -1)%Z then elem_of X vB (-1)%Z i j else det3 O * RigidPoly.sum3 (fun q => O k q * elem_of X vB q i j)) with (turned O (fun q => elem_of X vB q i j) k).
  change (if (k =? -1)%Z then grpp_error C gv vA vB e1 eps Qm (-1) else RigidPoly.sum3 (fun q => Rabs (O k q) * grpp_error C gv vA vB e1 eps Qm q)) with (turned_error O (grpp_error C gv vA vB e1 eps Qm) k).
  match goal with |- Rabs (?x - ?y) <= _ => replace (x - y) with ((x - turned O v k) - (y - turned O v k)) by ring end.
  eapply Rle_trans; [apply Rabs_triang|]. rewrite Rabs_Ropp. apply Rplus_le_compat; [exact B1|]. rewrite EQ. exact B2.
Qed.

(** ** Pairs of shells and their moved copies are ready together *)
Lemma moved_distance O t C org : RigidPoly.orthogonal O -> len (minus3 (Rigid.moved3 O t C) (Rigid.moved3 O t org)) = len (minus3 C org).
Proof.
  intros HO. destruct C as [[c0 c1] c2]. destruct org as [[o0 o1] o2]. unfold Rigid.moved3, minus3, len, norm3. cbn [coord3]. f_equal.
  pose proof (RotSphere.rot_dot O) as _. destruct HO as (H & _).
  assert (E : forall j k, (0 <= j < 3)%Z -> (0 <= k < 3)%Z -> O 0%Z j * O 0%Z k + O 1%Z j * O 1%Z k + O 2%Z j * O 2%Z k = RigidPoly.delta j k) by (intros j k Hj Hk; exact (H j k Hj Hk)).
  pose proof (E 0 0 ltac:(lia) ltac:(lia))%Z as E00. pose proof (E 1 1 ltac:(lia) ltac:(lia))%Z as E11. pose proof (E 2 2 ltac:(lia) ltac:(lia))%Z as E22. pose proof (E 0 1 ltac:(lia) ltac:(lia))%Z as E01. pose proof (E 0 2 ltac:(lia) ltac:(lia))%Z as E02. pose proof (E 1 2 ltac:(lia) ltac:(lia))%Z as E12.
  unfold RigidPoly.delta in *. cbn [Z.eqb Pos.eqb] in *. unfold Rigid.mv, coord3. cbn [Z.eqb Pos.eqb].
  set (d0 := c0 - o0). set (d1 := c1 - o1). set (d2 := c2 - o2).
  transitivity ((O 0%Z 0%Z * O 0%Z 0%Z + O 1%Z 0%Z * O 1%Z 0%Z + O 2%Z 0%Z * O 2%Z 0%Z) * (d0 * d0) + (O 0%Z 1%Z * O 0%Z 1%Z + O 1%Z 1%Z * O 1%Z 1%Z + O 2%Z 1%Z * O 2%Z 1%Z) * (d1 * d1) + (O 0%Z 2%Z * O 0%Z 2%Z + O 1%Z 2%Z * O 1%Z 2%Z + O 2%Z 2%Z * O 2%Z 2%Z) * (d2 * d2)
     + 2 * ((O 0%Z 0%Z * O 0%Z 1%Z + O 1%Z 0%Z * O 1%Z 1%Z + O 2%Z 0%Z * O 2%Z 1%Z) * (d0 * d1) + (O 0%Z 0%Z * O 0%Z 2%Z + O 1%Z 0%Z * O 1%Z 2%Z + O 2%Z 0%Z * O 2%Z 2%Z) * (d0 * d2) + (O 0%Z 1%Z * O 0%Z 2%Z + O 1%Z 1%Z * O 1%Z 2%Z + O 2%Z 1%Z * O 2%Z 2%Z) * (d1 * d2))).
  - unfold d0, d1, d2. ring.
  - rewrite E00, E11, E22, E01, E02, E12. ring.
Qed.

Lemma known_moved O t C org prims : RigidPoly.orthogonal O -> direction_known org C prims -> direction_known (Rigid.moved3 O t org) (Rigid.moved3 O t C) prims.
Proof.
  intros HO [-> | (c & a & l & E & H)]; [left; reflexivity|right]. exists c, a, l. split; [exact E|]. rewrite moved_distance by exact HO. exact H.
Qed.

Lemma shells_ready_moved O t C gv vA vB vA' vB' : RigidPoly.orthogonal O -> RigidThms.moved_shell O t vA vA' -> RigidThms.moved_shell O t vB vB' -> shells_ready C gv vA vB -> shells_ready (Rigid.moved3 O t C) gv vA' vB'.
Proof.
  intros HO (EA1 & EA2 & EA3) (EB1 & EB2 & EB3). unfold shells_ready, exps_pos, significant. rewrite EA1, EA2, EA3, EB1, EB2, EB3.
  intros (LA & LB & LAB & XA & XB & YA & YB & PA & PB & DA & DB & HL & HU). repeat lazymatch goal with |- _ /\ _ => split; [assumption || (apply known_moved; assumption)|] end. assumption.
Qed.

Lemma ready_one fuel par bessel erf C gv vA vB : shells_ready C gv vA vB -> exists e1 eps Qm, own_ready fuel par bessel erf C gv vA vB e1 eps Qm.
Proof. intros H. destruct (ready_both fuel par bessel erf C gv vA vB H) as (e1 & eps & Qm & _ & _ & _ & H1 & _). exists e1, eps, Qm. exact H1. Qed.

Lemma rigid_errors_thm fuel par bessel erf O t C gv vA vB vA' vB' : RigidPoly.orthogonal O -> RigidThms.moved_shell O t vA vA' -> RigidThms.moved_shell O t vB vB' -> shells_ready C gv vA vB ->
  exists e1 eps Qm e1' eps' Qm', own_ready fuel par bessel erf C gv vA vB e1 eps Qm /\ own_ready fuel par bessel erf (Rigid.moved3 O t C) gv vA' vB' e1' eps' Qm'.
Proof.
  intros HO MA MB H. destruct (ready_one fuel par bessel erf C gv vA vB H) as (e1 & eps & Qm & H1). destruct (ready_one fuel par bessel erf _ gv vA' vB' (shells_ready_moved O t C gv vA vB vA' vB' HO MA MB H)) as (e1' & eps' & Qm' & H2).
  exists e1, eps, Qm, e1', eps', Qm'. split; assumption.
Qed.

Lemma one_more h L o pr : heap_wf h -> (0 <= L)%Z -> exists h' p, heap_wf h' /\ keeps h h' /\ has_data h' (L, o, pr) p.
Proof.
  intros W HL. destruct (halloc h (ODbls (map fst pr))) as [p1 h1] eqn:E1. destruct (halloc_wf _ _ _ _ W E1) as (W1 & B1 & K1).
  destruct (halloc h1 (ODbls (map snd pr))) as [p2 h2] eqn:E2. destruct (halloc_wf _ _ _ _ W1 E2) as (W2 & B2 & K2).
  destruct (new_shell_std OrderDirac h2 o L (Z.of_nat (length pr)) p1 p2 (map fst pr) (map snd pr) W2) as (p & h' & v & comps & E & W' & S & HL' & HO & HP & K).
  { exact HL. } { apply K2, B1. } { exact B2. } { rewrite map_length. lia. } { rewrite map_length. lia. }
  exists h', p. split; [exact W'|]. split; [intros q x Hq; apply K, K2, K1, Hq|]. exists v, comps. split; [exact S|]. split; [exact HL'|]. split; [exact HO|]. rewrite HP, combine_split_fs, Nat2Z.id, firstn_all. reflexivity.
Qed.
