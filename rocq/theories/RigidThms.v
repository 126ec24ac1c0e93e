(** * C82: momentum integrals and blocks of shells under rigid motions *)

From Coq Require Import ZArith List Lia Bool Reals Lra.
From Coquelicot Require Import Coquelicot.
From Verif Require Import Base GaussInt GaussProd CartModel CartProofs HeapModel HeapProofs HeapSpec
  OneElModel OneElProofs OneElPairs OneElSpec OneElInt OneElThms Definite RigidPoly Rigid.
Import ListNotations.
Open Scope R_scope.

(** ** Momentum *)
Definition mom_op (k : Z) : oneel := if (k =? 0)%Z then MomX else if (k =? 1)%Z then MomY else MomZ.

Definition dphi (k : Z) (u : bfun) : R -> R -> R -> R := contr (dpfun k (v_L (b_v u)) (v_origin (b_v u)) (b_comp u)) (v_prims (b_v u)).

Lemma mode_fun_dphi k us x y z : (0 <= k < 3)%Z -> mode_fun k us x y z = lsum (fun u => b_w u * dphi k u x y z) us.
Proof.
  intros Hk. unfold mode_fun, gfun. rewrite lsum_terms. apply lsum_ext. intros t _. unfold dphi, contr. rewrite <- lsum_scal. apply lsum_ext. intros [cf a] _. unfold t_c, mP, mQ, mS, fac, t_a, t_o, t_n, t_l, t_m, dpfun. cbn [fst snd]. destruct (b_comp t) as [[n l] m]. cbn [fst snd]. ring.
Qed.

Lemma computed_mom k h t u e : (0 <= k < 3)%Z -> heap_wf h -> bf_ok h t -> bf_ok h u -> computed (mom_op k) h t u e ->
  is_int3 (fun x y z => phi_of (b_v t) (b_comp t) x y z * dphi k u x y z) (- e).
Proof.
  intros Hk W (S1 & L1 & X1 & B1) (S2 & L2 & X2 & B2) (M & X & F & E & El).
  assert (Ho : mom_op k = MomX \/ mom_op k = MomY \/ mom_op k = MomZ) by (unfold mom_op; destruct (k =? 0)%Z; [auto|]; destruct (k =? 1)%Z; auto).
  assert (Ek : mom_k (mom_op k) = k) by (assert (k = 0 \/ k = 1 \/ k = 2)%Z as [-> | [-> | ->]] by lia; reflexivity).
  destruct (momentum_true (mom_op k) h _ _ _ _ _ _ M Ho W S1 S2 L1 L2 X1 X2 F) as (M' & E' & _ & V). rewrite E in E'. injection E' as <-.
  destruct (V (b_m t) (b_m u) (b_comp t) (b_comp u) (nth_error_nth' _ _ B1) (nth_error_nth' _ _ B2)) as (d & s & P & El' & I). rewrite El in El'. injection El' as Ee. rewrite Ee, Ropp_involutive. rewrite Ek in P.
  eapply is_int3_ext; [|exact I]. intros x y z. cbv beta. f_equal. specialize (P x y z). apply is_derive_unique in P. rewrite <- P. apply is_derive_unique. apply phi_partial, Hk.
Qed.

Section Mom.
Variable h : heap.
Variables ts us : list bfun.
Hypothesis W : heap_wf h.
Hypothesis OT : forall t, In t ts -> bf_ok h t.
Hypothesis OU : forall t, In t us -> bf_ok h t.
Variable S : Z -> bfun -> bfun -> R.
Hypothesis HS : forall k t u, (0 <= k < 3)%Z -> In t ts -> In u us -> computed (mom_op k) h t u (S k t u).

Lemma cross_mom_int k : (0 <= k < 3)%Z -> is_int3 (fun x y z => mode_fun 3 ts x y z * mode_fun k us x y z) (- cross ts us (S k)).
Proof.
  intros Hk. apply (is_int3_ext (fun x y z => lsum (fun t => lsum (fun u => (b_w t * b_w u) * (phi_of (b_v t) (b_comp t) x y z * dphi k u x y z)) us) ts)).
  { intros x y z. rewrite <- combo_mode, mode_fun_dphi by exact Hk. unfold combo. rewrite lsum_mult. apply lsum_ext. intros t _. apply lsum_ext. intros u _. ring. }
  apply (is_int3_eq _ (lsum (fun t => lsum (fun u => (b_w t * b_w u) * - S k t u) us) ts)).
  - apply is_int3_lsum. intros t Ht. apply is_int3_lsum. intros u Hu. apply is_int3_scal. apply (computed_mom k h); [exact Hk|exact W|apply OT, Ht|apply OU, Hu|apply HS; assumption].
  - unfold cross. replace (- lsum (fun t => lsum (fun u => b_w t * b_w u * S k t u) us) ts) with ((- 1) * lsum (fun t => lsum (fun u => b_w t * b_w u * S k t u) us) ts) by ring. rewrite <- lsum_scal. apply lsum_ext. intros t _. rewrite <- lsum_scal. apply lsum_ext. intros u _. ring.
Qed.
End Mom.

Lemma rigid_momentum_thm O t h ts us ts' us' S : orthogonal O -> heap_wf h ->
  (forall b, In b (ts ++ us ++ ts' ++ us') -> bf_ok h b) ->
  carried O t (combo ts) (combo ts') -> carried O t (combo us) (combo us') ->
  (forall k a b, (0 <= k < 3)%Z -> In a ts -> In b us -> computed (mom_op k) h a b (S k a b)) -> (forall k a b, (0 <= k < 3)%Z -> In a ts' -> In b us' -> computed (mom_op k) h a b (S k a b)) ->
  forall k, (0 <= k < 3)%Z -> cross ts' us' (S k) = sum3 (fun j => O k j * cross ts us (S j)).
Proof.
  intros HO W OK C1 C2 HS HS' k Hk.
  assert (O1 : forall b, In b ts -> bf_ok h b) by (intros b Hb; apply OK, in_or_app; left; exact Hb). assert (O2 : forall b, In b us -> bf_ok h b) by (intros b Hb; apply OK, in_or_app; right; apply in_or_app; left; exact Hb).
  assert (O3 : forall b, In b ts' -> bf_ok h b) by (intros b Hb; apply OK, in_or_app; right; apply in_or_app; right; apply in_or_app; left; exact Hb). assert (O4 : forall b, In b us' -> bf_ok h b) by (intros b Hb; apply OK, in_or_app; right; apply in_or_app; right; apply in_or_app; right; exact Hb).
  pose proof (cross_mom_int h ts' us' W O3 O4 S HS' k Hk) as I'.
  pose proof (fun j (Hj : (0 <= j < 3)%Z) => cross_mom_int h ts us W O1 O2 S HS j Hj) as I.
  assert (M : forall j, (0 <= j < 3)%Z -> is_int3 (fun x y z => mode_fun 3 ts (iv O t 0 x y z) (iv O t 1 x y z) (iv O t 2 x y z) * mode_fun j us (iv O t 0 x y z) (iv O t 1 x y z) (iv O t 2 x y z)) (- cross ts us (S j))).
  { intros j Hj. destruct (gp_move O t _ HO (mode_gp2 h ts us O1 O2 3 j ltac:(lia) ltac:(lia))) as (v & V1 & V2). rewrite (is_int3_unique _ _ _ (I j Hj) V1). exact V2. }
  pose proof (is_int3_plus _ _ _ _ (is_int3_plus _ _ _ _ (is_int3_scal _ (O k 0%Z) _ (M 0%Z ltac:(lia))) (is_int3_scal _ (O k 1%Z) _ (M 1%Z ltac:(lia)))) (is_int3_scal _ (O k 2%Z) _ (M 2%Z ltac:(lia)))) as T. cbv beta in T.
  assert (E : - cross ts' us' (S k) = O k 0%Z * - cross ts us (S 0%Z) + O k 1%Z * - cross ts us (S 1%Z) + O k 2%Z * - cross ts us (S 2%Z)).
  { apply (is_int3_unique _ _ _ I'). eapply is_int3_ext; [|exact T]. intros x y z. cbv beta. rewrite (combo_grad O t us us' HO C2 k x y z Hk). rewrite <- !combo_mode. rewrite (carried_iv O t _ _ HO C1). ring. }
  unfold sum3. lra.
Qed.

(** ** Rotated components of a shell *)
Definition cmono (c : Z * Z * Z) : mono := let '(n, l, m) := c in (Z.to_nat n, Z.to_nat l, Z.to_nat m).
Definition mono_eqb (a b : mono) : bool := let '(i, j, k) := a in let '(i', j', k') := b in Nat.eqb i i' && Nat.eqb j j' && Nat.eqb k k'.
Lemma mono_eqb_ok a b : mono_eqb a b = true <-> a = b.
Proof.
  destruct a as [[i j] k]. destruct b as [[i' j'] k']. unfold mono_eqb. rewrite !andb_true_iff, !Nat.eqb_eq. split; [intros ((-> & ->) & ->); reflexivity|intros E; injection E as -> -> ->; auto].
Qed.

Definition hom (n : nat) (q : mpoly) : Prop := forall t, In t q -> tdeg (snd t) = n.
Lemma hom_mul n n' a b : hom n a -> hom n' b -> hom (n + n') (mmul a b).
Proof.
  intros Ha Hb t Ht. unfold mmul in Ht. apply in_flat_map in Ht. destruct Ht as (u & Hu & Ht). apply in_map_iff in Ht. destruct Ht as (w & <- & Hw). cbn [snd]. specialize (Ha u Hu). specialize (Hb w Hw). destruct (snd u) as [[i j] k]. destruct (snd w) as [[i' j'] k']. unfold mm, tdeg in *. lia.
Qed.
Lemma hom_pow n a m : hom n a -> hom (m * n) (mpow a m).
Proof. intros Ha. induction m as [|m IH]; [intros t [<-|[]]; reflexivity|]. cbn [mpow]. change (S m * n)%nat with (n + m * n)%nat. apply hom_mul; assumption. Qed.
Lemma hom_linp O i : hom 1 (linp O i).
Proof. intros t [<-|[<-|[<-|[]]]]; reflexivity. Qed.
Lemma hom_asubm O m : hom (tdeg m) (asubm (linp O 0) (linp O 1) (linp O 2) m).
Proof.
  destruct m as [[i j] k]. unfold asubm, tdeg. rewrite <- (Nat.mul_1_r i) at 1. rewrite <- (Nat.mul_1_r j) at 1. rewrite <- (Nat.mul_1_r k) at 1. apply hom_mul; [apply hom_mul|]; apply hom_pow, hom_linp.
Qed.

(** coefficient of a monomial *)
Definition mcoef (q : mpoly) (m : mono) : R := lsum (fun t => if mono_eqb (snd t) m then fst t else 0) q.

Lemma lsum_pick {A} (f : A -> R) a l : NoDup l -> In a l -> (forall b, In b l -> b <> a -> f b = 0) -> lsum f l = f a.
Proof.
  induction l as [|b l IH]; intros ND Hin H0; [destruct Hin|]. inversion ND as [|? ? Nb NDl]; subst. rewrite lsum_cons. destruct Hin as [->|Hin].
  - rewrite (lsum_ext f (fun _ => 0)). 2:{ intros c Hc. apply H0; [right; exact Hc|]. intros ->. apply Nb, Hc. }
    assert (Z0 : lsum (fun _ : A => 0) l = 0) by (clear; induction l as [|x l IH]; [reflexivity|]; rewrite lsum_cons, IH; ring). rewrite Z0. ring.
  - rewrite IH; [|exact NDl|exact Hin|intros c Hc; apply H0; right; exact Hc]. rewrite H0; [ring|left; reflexivity|]. intros ->. apply Nb, Hin.
Qed.

(** [comps] lists the components of angular momentum L, each once *)
Definition complete (L : Z) (comps : list (Z * Z * Z)) : Prop :=
  NoDup comps /\ forall r s t, In (r, s, t) comps <-> (0 <= r /\ 0 <= s /\ 0 <= t /\ r + s + t = L)%Z.

Lemma std_complete h p v comps : std_shell h p v comps -> complete (v_L v) comps.
Proof.
  intros (_ & HL & _ & (ord & HC) & _). destruct (components_complete ord (v_L v) HL) as (l & El & ND & Hi & _). rewrite HC in El. injection El as <-. split; assumption.
Qed.

Lemma group_monomials L comps q x y z : complete L comps -> hom (Z.to_nat L) q -> (0 <= L)%Z ->
  meval q x y z = lsum (fun c => mcoef q (cmono c) * mval (cmono c) x y z) comps.
Proof.
  intros (ND & HI) Hq HL. induction q as [|[w m] q IH].
  - unfold meval, mcoef, lsum at 1. cbn [fold_right]. symmetry. transitivity (lsum (fun _ : Z * Z * Z => 0) comps); [apply lsum_ext; intros c _; unfold lsum; cbn; ring|]. clear. induction comps as [|c l IH]; [reflexivity|]. rewrite lsum_cons, IH. ring.
  - rewrite meval_cons. rewrite IH by (intros t Ht; apply Hq; right; exact Ht). cbn [fst snd].
    transitivity (lsum (fun c => (if mono_eqb m (cmono c) then w else 0) * mval (cmono c) x y z) comps + lsum (fun c => mcoef q (cmono c) * mval (cmono c) x y z) comps).
    2:{ rewrite <- lsum_plus. apply lsum_ext. intros c _. unfold mcoef at 2. rewrite lsum_cons. cbn [fst snd]. unfold mcoef. ring. }
    f_equal. specialize (Hq (w, m) (or_introl eq_refl)). cbn [snd] in Hq. destruct m as [[i j] k]. unfold tdeg in Hq.
    rewrite (lsum_pick _ (Z.of_nat i, Z.of_nat j, Z.of_nat k)).
    + unfold cmono. rewrite !Nat2Z.id. replace (mono_eqb (i, j, k) (i, j, k)) with true by (symmetry; apply mono_eqb_ok; reflexivity). reflexivity.
    + exact ND.
    + apply HI. lia.
    + intros [[r s] t] Hb Hne. destruct (mono_eqb (i, j, k) (cmono (r, s, t))) eqn:E; [|ring]. exfalso. apply mono_eqb_ok in E. unfold cmono in E. injection E as E1 E2 E3. apply HI in Hb. apply Hne. repeat f_equal; lia.
Qed.

(** the coefficients of the rotated components *)
Definition rotD (O : mat) (c c' : Z * Z * Z) : R := mcoef (rsub O [(1, cmono c)]) (cmono c').

Lemma rotD_ok O L comps c x y z : (0 <= L)%Z -> complete L comps -> nonneg3 c -> (let '(n, l, m) := c in n + l + m = L)%Z ->
  mval (cmono c) (tr O 0 x y z) (tr O 1 x y z) (tr O 2 x y z) = lsum (fun c' => rotD O c c' * mval (cmono c') x y z) comps.
Proof.
  intros HL HC Hn Hs. transitivity (meval (rsub O [(1, cmono c)]) x y z).
  - rewrite meval_rsub. unfold meval, lsum. cbn [fold_right fst snd]. ring.
  - apply (group_monomials L); [exact HC| |exact HL]. intros t Ht. unfold rsub, asub in Ht. cbn [flat_map] in Ht. rewrite app_nil_r in Ht. unfold mscal in Ht. apply in_map_iff in Ht. destruct Ht as (u & <- & Hu). cbn [snd] in *. rewrite (hom_asubm O (cmono c) u Hu). destruct c as [[n l] m]. unfold cmono, tdeg, nonneg3 in *. lia.
Qed.

Lemma iv_mv O t k x y z : orthogonal O -> (0 <= k < 3)%Z -> iv O t k (mv O t 0 x y z) (mv O t 1 x y z) (mv O t 2 x y z) = crd k x y z.
Proof.
  intros (H & _) Hk. unfold mv, iv, tr. assert (E0 := H k 0%Z Hk ltac:(lia)). assert (E1 := H k 1%Z Hk ltac:(lia)). assert (E2 := H k 2%Z Hk ltac:(lia)). unfold sum3 in *.
  transitivity ((O 0%Z k * O 0%Z 0%Z + O 1%Z k * O 1%Z 0%Z + O 2%Z k * O 2%Z 0%Z) * x + (O 0%Z k * O 0%Z 1%Z + O 1%Z k * O 1%Z 1%Z + O 2%Z k * O 2%Z 1%Z) * y + (O 0%Z k * O 0%Z 2%Z + O 1%Z k * O 1%Z 2%Z + O 2%Z k * O 2%Z 2%Z) * z); [ring|].
  rewrite E0, E1, E2. unfold delta, crd. assert (k = 0 \/ k = 1 \/ k = 2)%Z as [-> | [-> | ->]] by lia; cbn [Z.eqb Pos.eqb]; ring.
Qed.

Lemma gto_pg o c a x y z : gto o c a x y z = pg a o [(1, cmono c)] x y z.
Proof.
  destruct c as [[n l] m]. rewrite gto_split. unfold pg, meval, lsum, mval, gauss3, cgZ, cg, cmono. cbn [fold_right fst snd].
  replace (- (a * ((x - coord3 o 0) * (x - coord3 o 0) + (y - coord3 o 1) * (y - coord3 o 1) + (z - coord3 o 2) * (z - coord3 o 2)))) with (- (a * ((x - coord3 o 0) * (x - coord3 o 0))) + - (a * ((y - coord3 o 1) * (y - coord3 o 1))) + - (a * ((z - coord3 o 2) * (z - coord3 o 2)))) by ring. rewrite !exp_plus. ring.
Qed.

(** [v'] is the shell [v] carried along by the motion *)
Definition moved_shell (O : mat) (t : R * R * R) (v v' : sview) : Prop :=
  v_L v' = v_L v /\ v_prims v' = v_prims v /\ v_origin v' = moved3 O t (v_origin v).

Lemma phi_moved O t v v' comps c x y z : orthogonal O -> (0 <= v_L v)%Z -> moved_shell O t v v' -> complete (v_L v) comps -> nonneg3 c -> (let '(n, l, m) := c in n + l + m = v_L v)%Z ->
  lsum (fun c' => rotD O c c' * phi_of v' c' (mv O t 0 x y z) (mv O t 1 x y z) (mv O t 2 x y z)) comps = phi_of v c x y z.
Proof.
  intros HO HL (E1 & E2 & E3) HC Hn Hs. unfold phi_of, phi. rewrite E1, E2, E3.
  transitivity (lsum (fun c' => lsum (fun p => rotD O c c' * (fst p * norm_L (v_L v) (snd p) * gto (moved3 O t (v_origin v)) c' (snd p) (mv O t 0 x y z) (mv O t 1 x y z) (mv O t 2 x y z))) (v_prims v)) comps).
  { apply lsum_ext. intros c' _. rewrite <- lsum_scal. apply lsum_ext. intros [cf a] _. reflexivity. }
  rewrite lsum_swap. apply lsum_ext. intros [cf a] _. cbn [fst snd].
  assert (G : gto (v_origin v) c a x y z = pg a (moved3 O t (v_origin v)) (rsub O [(1, cmono c)]) (mv O t 0 x y z) (mv O t 1 x y z) (mv O t 2 x y z)).
  { rewrite gto_pg. rewrite <- pg_iv by exact HO. rewrite !iv_mv by (exact HO || lia). reflexivity. }
  rewrite G. unfold pg. rewrite meval_rsub. unfold meval at 1, lsum at 2. cbn [fold_right fst snd]. rewrite Rmult_1_l, Rplus_0_r. rewrite (rotD_ok O (v_L v) comps c _ _ _ HL HC Hn Hs).
  match goal with |- _ = ?k * (?s * ?g) => transitivity ((k * g) * s); [|ring] end. rewrite <- lsum_scal. apply lsum_ext. intros c' _. rewrite gto_pg. unfold pg, meval, lsum. cbn [fold_right fst snd]. ring.
Qed.

(** the rotated component of a moved shell as a list of basis functions *)
Definition rot_list (O : mat) (c : Z * Z * Z) (p' : Z) (v' : sview) (comps' : list (Z * Z * Z)) : list bfun :=
  map (fun m' => BF (rotD O c (nth m' comps' (0, 0, 0)%Z)) p' v' comps' m') (seq 0 (length comps')).

Lemma seq_nth {A} (f : A -> R) d l : lsum (fun k => f (nth k l d)) (seq 0 (length l)) = lsum f l.
Proof.
  induction l as [|a l IH]; [reflexivity|]. cbn [length seq]. rewrite !lsum_cons. cbn [nth]. rewrite <- seq_shift, lsum_map. rewrite <- IH. reflexivity.
Qed.

Lemma rot_list_carried O t h t0 p' v' comps' : orthogonal O -> bf_ok h t0 -> b_w t0 = 1 -> std_shell h p' v' comps' -> moved_shell O t (b_v t0) v' ->
  carried O t (combo [t0]) (combo (rot_list O (b_comp t0) p' v' comps')).
Proof.
  intros HO (S1 & L1 & X1 & B1) Hw S2 HM x y z. unfold combo at 2. unfold lsum. cbn [fold_right]. rewrite Hw, Rmult_1_l, Rplus_0_r.
  unfold combo, rot_list. rewrite lsum_map. unfold b_comp at 2. cbn [b_w b_v b_comps b_m].
  rewrite (seq_nth (fun c' => rotD O (b_comp t0) c' * phi_of v' c' (mv O t 0 x y z) (mv O t 1 x y z) (mv O t 2 x y z))).
  pose proof (std_complete _ _ _ _ S2) as HC. assert (EL : v_L v' = v_L (b_v t0)) by apply HM. rewrite EL in HC.
  assert (HI : In (b_comp t0) (b_comps t0)) by (apply nth_In; exact B1).
  apply phi_moved; [exact HO|apply S1|exact HM|exact HC|apply (std_nonneg _ _ _ _ _ S1 HI)|].
  destruct (std_complete _ _ _ _ S1) as (_ & Hi). destruct (b_comp t0) as [[n l] m]. apply Hi in HI. lia.
Qed.

Lemma rot_list_ok O h c p' v' comps' b : std_shell h p' v' comps' -> (v_L v' <= 9)%Z -> exps_pos v' -> In b (rot_list O c p' v' comps') -> bf_ok h b.
Proof.
  intros S2 L2 X2 Hb. unfold rot_list in Hb. apply in_map_iff in Hb. destruct Hb as (m' & <- & Hm). apply in_seq in Hm. split; [exact S2|]. cbn [b_v b_comps b_m]. split; [exact L2|]. split; [exact X2|lia].
Qed.

(** sum of the elements of the moved block with the coefficients of the two rotated components *)
Definition rotated_sum (D : Z * Z * Z -> Z * Z * Z -> R) (ca' cb' : list (Z * Z * Z)) (cA cB : Z * Z * Z) (E : nat -> nat -> R) : R :=
  lsum (fun m' => lsum (fun n' => D cA (nth m' ca' (0, 0, 0)%Z) * D cB (nth n' cb' (0, 0, 0)%Z) * E m' n') (seq 0 (length cb'))) (seq 0 (length ca')).

Lemma cross_rot O cA cB pA vA ca pB vB cb S (E : nat -> nat -> R) :
  (forall m n w w', (m < length ca)%nat -> (n < length cb)%nat -> S (BF w pA vA ca m) (BF w' pB vB cb n) = E m n) ->
  cross (rot_list O cA pA vA ca) (rot_list O cB pB vB cb) S = rotated_sum (rotD O) ca cb cA cB E.
Proof.
  intros H. unfold cross, rotated_sum, rot_list. rewrite lsum_map. apply lsum_ext. intros m' Hm. rewrite lsum_map. apply lsum_ext. intros n' Hn. cbn [b_w]. apply in_seq in Hm. apply in_seq in Hn. rewrite H by lia. reflexivity.
Qed.

Section Block.
Variables (O : mat) (t : R * R * R) (h : heap) (pA pB pA' pB' : Z) (vA vB vA' vB' : sview) (ca cb ca' cb' : list (Z * Z * Z)).
Hypothesis HO : orthogonal O.
Hypothesis W : heap_wf h.
Hypothesis SA : std_shell h pA vA ca.
Hypothesis SB : std_shell h pB vB cb.
Hypothesis SA' : std_shell h pA' vA' ca'.
Hypothesis SB' : std_shell h pB' vB' cb'.
Hypothesis LA : (v_L vA <= 9)%Z.
Hypothesis LB : (v_L vB <= 9)%Z.
Hypothesis XA : exps_pos vA.
Hypothesis XB : exps_pos vB.
Hypothesis MA : moved_shell O t vA vA'.
Hypothesis MB : moved_shell O t vB vB'.
Variables m n : nat.
Hypothesis Hm : (m < length ca)%nat.
Hypothesis Hn : (n < length cb)%nat.

Let a := BF 1 pA vA ca m.
Let b := BF 1 pB vB cb n.
Let as_ := rot_list O (b_comp a) pA' vA' ca'.
Let bs_ := rot_list O (b_comp b) pB' vB' cb'.

Lemma blk_a : bf_ok h a.
Proof. split; [exact SA|]. split; [exact LA|]. split; [exact XA|exact Hm]. Qed.
Lemma blk_b : bf_ok h b.
Proof. split; [exact SB|]. split; [exact LB|]. split; [exact XB|exact Hn]. Qed.
Lemma blk_as x : In x as_ -> bf_ok h x.
Proof. destruct MA as (E1 & E2 & _). apply rot_list_ok; [exact SA'|rewrite E1; exact LA|]. intros cf al. rewrite E2. apply XA. Qed.
Lemma blk_bs x : In x bs_ -> bf_ok h x.
Proof. destruct MB as (E1 & E2 & _). apply rot_list_ok; [exact SB'|rewrite E1; exact LB|]. intros cf al. rewrite E2. apply XB. Qed.
Lemma blk_all x : In x ([a] ++ [b] ++ as_ ++ bs_) -> bf_ok h x.
Proof. intros H. apply in_app_iff in H. destruct H as [[<-|[]]|H]; [apply blk_a|]. apply in_app_iff in H. destruct H as [[<-|[]]|H]; [apply blk_b|]. apply in_app_iff in H. destruct H; [apply blk_as|apply blk_bs]; assumption. Qed.

Let V o := fun u u' => ovalue o (b_v u) (b_v u') (b_comp u) (b_comp u').

Lemma blk_cross o : cross [a] [b] (V o) = V o a b.
Proof. unfold cross, lsum. cbn [fold_right]. cbn [b_w a b]. ring. Qed.

Lemma block_even o : o = Overlap \/ o = Kinetic -> V o a b = rotated_sum (rotD O) ca' cb' (b_comp a) (b_comp b) (fun m' n' => V o (BF 1 pA' vA' ca' m') (BF 1 pB' vB' cb' n')).
Proof.
  intros Ho. rewrite <- (cross_rot O (b_comp a) (b_comp b) pA' vA' ca' pB' vB' cb' (V o)) by reflexivity. rewrite <- blk_cross. symmetry.
  apply (rigid_thm o O t h [a] [b] as_ bs_ (V o) Ho HO W blk_all).
  - apply (rot_list_carried O t h); [exact HO|apply blk_a|reflexivity|exact SA'|exact MA].
  - apply (rot_list_carried O t h); [exact HO|apply blk_b|reflexivity|exact SB'|exact MB].
  - intros x y [<-|[]] [<-|[]]. apply computed_exists; [exact W|apply blk_a|apply blk_b].
  - intros x y Hx Hy. apply computed_exists; [exact W|apply blk_as, Hx|apply blk_bs, Hy].
Qed.

Lemma block_mom k : (0 <= k < 3)%Z -> sum3 (fun j => O k j * V (mom_op j) a b) = rotated_sum (rotD O) ca' cb' (b_comp a) (b_comp b) (fun m' n' => V (mom_op k) (BF 1 pA' vA' ca' m') (BF 1 pB' vB' cb' n')).
Proof.
  intros Hk. rewrite <- (cross_rot O (b_comp a) (b_comp b) pA' vA' ca' pB' vB' cb' (V (mom_op k))) by reflexivity. unfold sum3. rewrite <- !blk_cross. symmetry.
  apply (rigid_momentum_thm O t h [a] [b] as_ bs_ (fun k => V (mom_op k)) HO W blk_all).
  - apply (rot_list_carried O t h); [exact HO|apply blk_a|reflexivity|exact SA'|exact MA].
  - apply (rot_list_carried O t h); [exact HO|apply blk_b|reflexivity|exact SB'|exact MB].
  - intros j x y _ [<-|[]] [<-|[]]. apply computed_exists; [exact W|apply blk_a|apply blk_b].
  - intros j x y _ Hx Hy. apply computed_exists; [exact W|apply blk_as, Hx|apply blk_bs, Hy].
  - exact Hk.
Qed.
End Block.

(** ** Main result on blocks *)

(** [D] expresses rotated monomials by monomials *)
Definition rotates_monomials (O : mat) (D : Z * Z * Z -> Z * Z * Z -> R) : Prop :=
  forall L comps n l m x y z, (0 <= L)%Z -> complete L comps -> (0 <= n)%Z -> (0 <= l)%Z -> (0 <= m)%Z -> (n + l + m = L)%Z ->
    tr O 0 x y z ^ Z.to_nat n * tr O 1 x y z ^ Z.to_nat l * tr O 2 x y z ^ Z.to_nat m = lsum (fun '(n', l', m') => D (n, l, m) (n', l', m') * (x ^ Z.to_nat n' * y ^ Z.to_nat l' * z ^ Z.to_nat m')) comps.

(** [E] holds the elements of the block [X] *)
Definition elements (X : arr R) (vB : sview) (na nb : nat) (E : nat -> nat -> R) : Prop :=
  forall m n, (m < na)%nat -> (n < nb)%nat -> elem_at X vB m n = Ok (E m n).

Lemma rigid_block_thm O : orthogonal O -> exists D, rotates_monomials O D /\
  forall t h pA pB pA' pB' vA vB vA' vB' ca cb ca' cb', heap_wf h ->
  std_shell h pA vA ca -> std_shell h pB vB cb -> std_shell h pA' vA' ca' -> std_shell h pB' vB' cb' ->
  (v_L vA <= 9)%Z -> (v_L vB <= 9)%Z -> exps_pos vA -> exps_pos vB -> moved_shell O t vA vA' -> moved_shell O t vB vB' ->
  forall (M M' : arr R), fits M vA vB -> fits M' vA' vB' ->
  (forall o, o = Overlap \/ o = Kinetic -> exists X X' E E', oneel_call o h pA pB M = Ok X /\ oneel_call o h pA' pB' M' = Ok X' /\
     elements X vB (length ca) (length cb) E /\ elements X' vB' (length ca') (length cb') E' /\
     forall m n, (m < length ca)%nat -> (n < length cb)%nat -> E m n = rotated_sum D ca' cb' (nth m ca (0, 0, 0)%Z) (nth n cb (0, 0, 0)%Z) E') /\
  (exists E E' : Z -> nat -> nat -> R, (forall k, (0 <= k < 3)%Z -> exists X X', oneel_call (mom_op k) h pA pB M = Ok X /\ oneel_call (mom_op k) h pA' pB' M' = Ok X' /\
     elements X vB (length ca) (length cb) (E k) /\ elements X' vB' (length ca') (length cb') (E' k)) /\
     forall k m n, (0 <= k < 3)%Z -> (m < length ca)%nat -> (n < length cb)%nat ->
       sum3 (fun j => O k j * E j m n) = rotated_sum D ca' cb' (nth m ca (0, 0, 0)%Z) (nth n cb (0, 0, 0)%Z) (E' k)).
Proof.
  intros HO. exists (rotD O). split.
  { intros L comps n l m x y z HL HC Hn Hl Hm Hs. pose proof (rotD_ok O L comps (n, l, m) x y z HL HC (conj Hn (conj Hl Hm)) Hs) as H. unfold cmono at 1 in H. unfold mval at 1 in H. rewrite H. apply lsum_ext. intros [[n' l'] m'] _. reflexivity. }
  intros t h pA pB pA' pB' vA vB vA' vB' ca cb ca' cb' W SA SB SA' SB' LA LB XA XB MA MB M M' F F'.
  assert (LA' : (v_L vA' <= 9)%Z) by (destruct MA as (E1 & _); lia). assert (LB' : (v_L vB' <= 9)%Z) by (destruct MB as (E1 & _); lia).
  pose (E := fun o m n => ovalue o vA vB (nth m ca (0, 0, 0)%Z) (nth n cb (0, 0, 0)%Z)). pose (E' := fun o m n => ovalue o vA' vB' (nth m ca' (0, 0, 0)%Z) (nth n cb' (0, 0, 0)%Z)).
  assert (EX : forall o, exists X, oneel_call o h pA pB M = Ok X /\ elements X vB (length ca) (length cb) (E o)).
  { intros o. destruct (oneel_ok o h pA pB vA vB ca cb M W SA SB LA LB F) as (X & EX & _ & V). exists X. split; [exact EX|]. intros m n Hm Hn. apply V; apply nth_error_nth'; assumption. }
  assert (EX' : forall o, exists X, oneel_call o h pA' pB' M' = Ok X /\ elements X vB' (length ca') (length cb') (E' o)).
  { intros o. destruct (oneel_ok o h pA' pB' vA' vB' ca' cb' M' W SA' SB' LA' LB' F') as (X & EX0 & _ & V). exists X. split; [exact EX0|]. intros m n Hm Hn. apply V; apply nth_error_nth'; assumption. }
  split.
  - intros o Ho. destruct (EX o) as (X & X1 & X2). destruct (EX' o) as (X' & X1' & X2'). exists X, X', (E o), (E' o). split; [exact X1|]. split; [exact X1'|]. split; [exact X2|]. split; [exact X2'|]. intros m n Hm Hn.
    exact (block_even O t h pA pB pA' pB' vA vB vA' vB' ca cb ca' cb' HO W SA SB SA' SB' LA LB XA XB MA MB m n Hm Hn o Ho).
  - exists (fun k => E (mom_op k)), (fun k => E' (mom_op k)). split.
    + intros k _. destruct (EX (mom_op k)) as (X & X1 & X2). destruct (EX' (mom_op k)) as (X' & X1' & X2'). exists X, X'. auto.
    + intros k m n Hk Hm Hn. exact (block_mom O t h pA pB pA' pB' vA vB vA' vB' ca cb ca' cb' HO W SA SB SA' SB' LA LB XA XB MA MB m n Hm Hn k Hk).
Qed.
