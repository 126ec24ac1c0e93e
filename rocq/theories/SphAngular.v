(** * angular_integrals.c: the angular integrals of types 1 and 2 *)

From Coq Require Import ZArith Reals Lra Lia List Bool.
From Coquelicot Require Import Coquelicot.
From Verif Require Import Base Loops BinomModel BinomProofs CartModel CartProofs OneElModel OneElProofs OneElInt Sums SphModel SphSpec SphPoly SphProofs SphTables SphInt SphOrtho SphCert.
Import ListNotations.
Open Scope R_scope.

(** ** Linearity of the integral over the sphere *)
Lemma sphere_val f (u v : R) : sphere_int f u -> u = v -> sphere_int f v.
Proof. intros H <-. exact H. Qed.

Lemma sphere_lin f g (u v c d : R) : sphere_int f u -> sphere_int g v -> sphere_int (fun x y z => c * f x y z + d * g x y z) (c * u + d * v).
Proof.
  intros (F & F1 & F2) (G & G1 & G2). exists (fun p => c * F p + d * G p). split.
  - intros p. eapply RInt_fun; [|apply (RInt_lin _ _ _ _ _ _ c d (F1 p) (G1 p))]. intros t. cbv beta. ring.
  - apply RInt_lin; assumption.
Qed.

Lemma sphere_ext f g (u : R) : (forall x y z, x ^ 2 + y ^ 2 + z ^ 2 = 1 -> f x y z = g x y z) -> sphere_int f u -> sphere_int g u.
Proof.
  intros E (F & F1 & F2). exists F. split; [|exact F2]. intros p. eapply RInt_fun; [|exact (F1 p)]. intros t. cbv beta. rewrite E; [reflexivity|].
  pose proof (sin2_cos2 t) as H1. pose proof (sin2_cos2 p) as H2. unfold Rsqr in *. transitivity (sin t * sin t * (sin p * sin p + cos p * cos p) + cos t * cos t); [ring|]. rewrite H2. lra.
Qed.

Lemma sphere_zero : sphere_int (fun _ _ _ => 0) 0.
Proof.
  assert (Z0 : forall a b, is_RInt (fun _ : R => 0) a b 0).
  { intros a b. eapply RInt_val; [apply (is_RInt_const (V := R_NormedModule) a b 0)|unfold scal; cbn; unfold mult; cbn; ring]. }
  eapply sphere_val; [apply (sphere_product _ (fun _ => 0) (fun _ => 0) 0 0); [intros; ring|apply Z0|apply Z0]|ring].
Qed.

Lemma sphere_lsum {A} (l : list A) (f : A -> R -> R -> R -> R) (v : A -> R) : (forall a, In a l -> sphere_int (f a) (v a)) ->
  sphere_int (fun x y z => lsum (fun a => f a x y z) l) (lsum v l).
Proof.
  induction l as [|a l IH]; intros H; [exact sphere_zero|].
  pose proof (sphere_lin _ _ _ _ 1 1 (H a (or_introl eq_refl)) (IH (fun b Hb => H b (or_intror Hb)))) as P.
  unfold lsum in *; cbn [fold_right] in *. eapply sphere_val; [|instantiate (1 := 1 * v a + 1 * fold_right (fun b s => v b + s) 0 l); ring].
  eapply sphere_ext; [|exact P]. intros x y z _. cbv beta. ring.
Qed.

Lemma sphere_scal f (u c : R) : sphere_int f u -> sphere_int (fun x y z => c * f x y z) (c * u).
Proof. intros H. pose proof (sphere_lin _ _ _ _ c 0 H H) as P. eapply sphere_val; [eapply sphere_ext; [|exact P]|ring]. intros x y z _. cbv beta. ring. Qed.

(** ** The inner sums *)
Definition even3 (i j k : nat) : bool := Nat.even i && Nat.even j && Nat.even k.

(** the value of the monomial integral, 0 when the routine aborts *)
Definition iusp (i j k : nat) : R :=
  match integrate_unitary_sphere_polynomial (Z.of_nat i) (Z.of_nat j) (Z.of_nat k) with Ok v => v | Fail _ => 0 end.

Lemma iusp_total i j k : (i + j + k <= 29)%nat \/ Nat.odd (i + j + k) = true ->
  integrate_unitary_sphere_polynomial (Z.of_nat i) (Z.of_nat j) (Z.of_nat k) = Ok (iusp i j k) /\ sphere_int (mono3 i j k) (iusp i j k).
Proof.
  intros H. destruct (iusp_ok i j k) as (v & E & S).
  - intros (Ei & Ej & Ek & C). destruct H as [H|H]; [lia|]. rewrite !Nat.odd_add, <- !Nat.negb_even, Ei, Ej, Ek in H. discriminate.
  - unfold iusp. rewrite E. auto.
Qed.

Lemma iusp_or i j k : (exists v, integrate_unitary_sphere_polynomial (Z.of_nat i) (Z.of_nat j) (Z.of_nat k) = Ok v) \/
  integrate_unitary_sphere_polynomial (Z.of_nat i) (Z.of_nat j) (Z.of_nat k) = Fail AssertFailed.
Proof.
  destruct (even3 i j k) eqn:E.
  - unfold even3 in E. apply andb_prop in E. destruct E as (E & Ek). apply andb_prop in E. destruct E as (Ei & Ej).
    destruct (Nat.le_gt_cases (i + j + k) 29); [left; destruct (iusp_total i j k) as (E & _); [auto|eexists; exact E]|right; apply iusp_abort; assumption].
  - left. destruct (iusp_ok i j k) as (v & Ev & _); [|eexists; exact Ev]. intros (Ei & Ej & Ek & _). unfold even3 in E. rewrite Ei, Ej, Ek in E. discriminate.
Qed.

(** the integral of a monomial times a harmonic *)
Definition moment1 (l : nat) (m : Z) (a b c : nat) : R :=
  lsum (fun '(r, s, t) => scoef l m r s * iusp (a + Z.to_nat r) (b + Z.to_nat s) (c + Z.to_nat t)) (canon_up (Z.of_nat l)).

Lemma moment1_int l m a b c : (l <= 40)%nat -> (Z.abs m <= Z.of_nat l)%Z -> (a + b + c + l <= 29)%nat \/ Nat.odd (a + b + c + l) = true ->
  sphere_int (fun x y z => mono3 a b c x y z * real_sph l m x y z) (moment1 l m a b c).
Proof.
  intros Hl Hm H.
  pose proof (sphere_lsum (canon_up (Z.of_nat l)) (fun rst x y z => let '(r, s, t) := rst in scoef l m r s * mono3 (a + Z.to_nat r) (b + Z.to_nat s) (c + Z.to_nat t) x y z)
    (fun '(r, s, t) => scoef l m r s * iusp (a + Z.to_nat r) (b + Z.to_nat s) (c + Z.to_nat t))) as P.
  eapply sphere_ext; [|apply P].
  - intros x y z Hu. cbv beta. rewrite <- cart_poly_unit by assumption. unfold cart_poly. rewrite <- OneElInt.lsum_scal. apply OneElInt.lsum_ext. intros [[r s] t] _. unfold mono3. rewrite !pow_add. ring.
  - intros [[r s] t] Hin. apply in_canon_up in Hin. apply sphere_scal. apply iusp_total.
    replace (a + Z.to_nat r + (b + Z.to_nat s) + (c + Z.to_nat t))%nat with (a + b + c + l)%nat by lia. exact H.
Qed.

Lemma lsum_up n : forall lo f, lsum f (up_nat n lo) = zsum lo (lo + Z.of_nat n) f.
Proof.
  induction n as [|n IH]; intros lo f; [rewrite zsum_nil by lia; reflexivity|].
  cbn [up_nat]. rewrite OneElInt.lsum_cons, IH, (zsum_first lo) by lia. do 2 f_equal. lia.
Qed.

Lemma lsum_canon_up l f : lsum f (canon_up (Z.of_nat l)) =
  zsum 0 (Z.of_nat l + 1) (fun r => zsum 0 (Z.of_nat l + 1) (fun s => zsum 0 (Z.of_nat l + 1) (fun t => if (r + s + t =? Z.of_nat l)%Z then f (r, s, t) else 0))).
Proof.
  assert (U : forall g, lsum g (up (Z.of_nat l)) = zsum 0 (Z.of_nat l + 1) g) by (intros g; unfold up; rewrite lsum_up; f_equal; lia).
  unfold canon_up. rewrite lsum_flat_map, U. apply zsum_ext. intros r _. rewrite lsum_flat_map, U. apply zsum_ext. intros s _. rewrite lsum_flat_map, U. apply zsum_ext. intros t _.
  destruct (r + s + t =? Z.of_nat l)%Z; unfold lsum; cbn; ring.
Qed.

(** ** Type 1 *)
Lemma type1_ok st l a b c k : store_ok st -> (Z.of_nat l <= rsh_lmax st)%Z -> (l <= 40)%nat ->
  (a + b + c + l <= 29)%nat \/ Nat.odd (a + b + c + l) = true ->
  angular_type1_integral st (Z.of_nat l) (Z.of_nat a) (Z.of_nat b) (Z.of_nat c) k =
    Ok (zsum (- Z.of_nat l) (Z.of_nat l + 1) (fun mu => moment1 l mu a b c * cart_poly l mu (unit_vector k))).
Proof.
  intros S0 Hl H40 H. unfold angular_type1_integral.
  rewrite (acc_loop (- Z.of_nat l) (Z.of_nat l + 1) _ (fun mu => moment1 l mu a b c * cart_poly l mu (unit_vector k))); [f_equal; ring|lia|].
  intros mu v Hmu. cbv beta.
  rewrite (acc_loop 0 (Z.of_nat l + 1) _ (fun r => zsum 0 (Z.of_nat l + 1) (fun s => zsum 0 (Z.of_nat l + 1) (fun t => if (r + s + t =? Z.of_nat l)%Z then
     scoef l mu r s * iusp (a + Z.to_nat r) (b + Z.to_nat s) (c + Z.to_nat t) else 0)))).
  - rewrite bind_ok, evaluate_ok by (assumption || lia). rewrite bind_ok. do 2 f_equal. unfold moment1. rewrite lsum_canon_up, Rplus_0_l. reflexivity.
  - lia.
  - intros r v1 Hr. apply acc_loop; [lia|]. intros s v2 Hs. apply acc_loop; [lia|]. intros t v3 Ht.
    destruct (Z.eqb_spec (r + s + t) (Z.of_nat l)) as [E|E]; [|f_equal; ring]. rewrite s2c_ok by lia. rewrite bind_ok.
    destruct (iusp_total (a + Z.to_nat r) (b + Z.to_nat s) (c + Z.to_nat t)) as (Eu & _).
    { replace (a + Z.to_nat r + (b + Z.to_nat s) + (c + Z.to_nat t))%nat with (a + b + c + l)%nat by lia. exact H. }
    replace (Z.of_nat a + r)%Z with (Z.of_nat (a + Z.to_nat r)) by lia. replace (Z.of_nat b + s)%Z with (Z.of_nat (b + Z.to_nat s)) by lia. replace (Z.of_nat c + t)%Z with (Z.of_nat (c + Z.to_nat t)) by lia.
    rewrite Eu, bind_ok. reflexivity.
Qed.

(** ** Type 2 *)
Definition moment2 (l : nat) (mu : Z) (L : nat) (m : Z) (a b c : nat) : R :=
  lsum (fun '(u, v, w) => scoef L m u v * moment1 l mu (a + Z.to_nat u) (b + Z.to_nat v) (c + Z.to_nat w)) (canon_up (Z.of_nat L)).

Lemma moment2_int l mu L m a b c : (l <= 40)%nat -> (L <= 40)%nat -> (Z.abs mu <= Z.of_nat l)%Z -> (Z.abs m <= Z.of_nat L)%Z ->
  (a + b + c + l + L <= 29)%nat \/ Nat.odd (a + b + c + l + L) = true ->
  sphere_int (fun x y z => mono3 a b c x y z * real_sph l mu x y z * real_sph L m x y z) (moment2 l mu L m a b c).
Proof.
  intros Hl HL Hmu Hm H.
  pose proof (sphere_lsum (canon_up (Z.of_nat L)) (fun uvw x y z => let '(u, v, w) := uvw in scoef L m u v * (mono3 (a + Z.to_nat u) (b + Z.to_nat v) (c + Z.to_nat w) x y z * real_sph l mu x y z))
    (fun '(u, v, w) => scoef L m u v * moment1 l mu (a + Z.to_nat u) (b + Z.to_nat v) (c + Z.to_nat w))) as P.
  eapply sphere_ext; [|apply P].
  - intros x y z Hu. cbv beta. rewrite <- (cart_poly_unit L m) by assumption. unfold cart_poly. rewrite <- OneElInt.lsum_scal. apply OneElInt.lsum_ext. intros [[u v] w] _. unfold mono3. rewrite !pow_add. ring.
  - intros [[u v] w] Hin. apply in_canon_up in Hin. apply sphere_scal. apply moment1_int; [exact Hl|exact Hmu|].
    replace (a + Z.to_nat u + (b + Z.to_nat v) + (c + Z.to_nat w) + l)%nat with (a + b + c + l + L)%nat by lia. exact H.
Qed.

Lemma skip_zero x : (x = 0 \/ 1 / 10 <= Rabs x) -> (if Rlt_dec (Rabs x) zero_thresh then x = 0 else x <> 0).
Proof.
  intros H. assert (T : 0 < zero_thresh < 1 / 10).
  { unfold zero_thresh. pose proof (pow_lt 10 14 ltac:(lra)). split; [apply Rdiv_lt_0_compat; lra|]. apply (Rmult_lt_reg_r (10 ^ 14)); [lra|]. cbn [pow]. lra. }
  destruct (Rlt_dec _ _) as [Hl|Hl]; destruct H as [H|H]; [exact H|lra| |].
  - exfalso. apply Hl. rewrite H, Rabs_R0. lra.
  - intros E. rewrite E, Rabs_R0 in H. lra.
Qed.

(** the terms the routine keeps *)
Definition kept (x : R) : R := if Rlt_dec (Rabs x) zero_thresh then 0 else x.

Lemma type2_ok st l L m a b c vals : store_ok st -> (Z.of_nat l <= rsh_lmax st)%Z -> (Z.of_nat L <= rsh_lmax st)%Z -> (l <= 20)%nat -> (L <= 20)%nat ->
  (Z.abs m <= Z.of_nat L)%Z -> (forall mu, (Z.abs mu <= Z.of_nat l)%Z -> readable vals [mu + Z.of_nat l]%Z) ->
  (a + b + c + l + L <= 29)%nat \/ Nat.odd (a + b + c + l + L) = true ->
  angular_type2_integral st (Z.of_nat l) (Z.of_nat L) m (Z.of_nat a) (Z.of_nat b) (Z.of_nat c) vals =
    Ok (zsum (- Z.of_nat l) (Z.of_nat l + 1) (fun mu => moment2 l mu L m a b c * kept (cellv vals [mu + Z.of_nat l]%Z))).
Proof.
  intros S0 Hl HL H20 H20' Hm Hv H. unfold angular_type2_integral.
  destruct (get_ok st l S0 Hl) as (tl & -> & Ntl & Tl). destruct (get_ok st L S0 HL) as (tL & -> & NtL & TL). rewrite !bind_ok. cbv zeta. rewrite Ntl, NtL.
  rewrite (acc_loop (- Z.of_nat l) (Z.of_nat l + 1) _ (fun mu => moment2 l mu L m a b c * kept (cellv vals [mu + Z.of_nat l]%Z))); [f_equal; ring|lia|].
  intros mu v Hmu. rewrite (readable_cellv _ _ (Hv mu ltac:(lia))), bind_ok. unfold kept. destruct (Rlt_dec _ _) as [Hs|Hs]; [f_equal; ring|].
  rewrite (acc_loop 0 (n_cart (Z.of_nat L)) _ (fun i => let '(u, v, w) := nth (Z.to_nat i) (canon_up (Z.of_nat L)) d3 in
     scoef L m u v * moment1 l mu (a + Z.to_nat u) (b + Z.to_nat v) (c + Z.to_nat w))).
  - rewrite bind_ok. do 2 f_equal. unfold moment2. rewrite Rplus_0_l. f_equal. rewrite <- (zsum_lsum _ d3), length_canon_up by lia. reflexivity.
  - apply n_cart_nonneg.
  - intros i v1 Hi. destruct (TL i Hi) as (-> & -> & -> & C). rewrite !bind_ok, C, bind_ok by lia.
    destruct (nth_canon_up L i Hi) as (u & v2 & w & -> & Hu & Hv2 & Hw & Huvw). cbn [fst snd].
    pose proof (skip_zero (scoef L m u v2) (scoef_gap L m u v2 H20' Hm Hu Hv2 ltac:(lia))) as Sk. destruct (Rlt_dec _ _) as [Hs1|Hs1].
    { rewrite Sk. f_equal. ring. }
    rewrite (acc_loop 0 (n_cart (Z.of_nat l)) _ (fun j => let '(r, s, t) := nth (Z.to_nat j) (canon_up (Z.of_nat l)) d3 in
       scoef L m u v2 * (scoef l mu r s * iusp (a + Z.to_nat u + Z.to_nat r) (b + Z.to_nat v2 + Z.to_nat s) (c + Z.to_nat w + Z.to_nat t)))).
    + do 2 f_equal. unfold moment1. rewrite <- OneElInt.lsum_scal. rewrite <- (zsum_lsum _ d3), length_canon_up by lia. apply zsum_ext. intros j _.
      destruct (nth (Z.to_nat j) (canon_up (Z.of_nat l)) d3) as [[r s] t]. reflexivity.
    + apply n_cart_nonneg.
    + intros j v3 Hj. destruct (Tl j Hj) as (-> & -> & -> & C'). rewrite !bind_ok, C', bind_ok by lia.
      destruct (nth_canon_up l j Hj) as (r & s & t & -> & Hr & Hs2 & Ht & Hrst). cbn [fst snd].
      pose proof (skip_zero (scoef l mu r s) (scoef_gap l mu r s H20 ltac:(lia) Hr Hs2 ltac:(lia))) as Sk2. destruct (Rlt_dec _ _) as [Hs3|Hs3].
      { rewrite Sk2. f_equal. ring. }
      destruct (iusp_total (a + Z.to_nat u + Z.to_nat r) (b + Z.to_nat v2 + Z.to_nat s) (c + Z.to_nat w + Z.to_nat t)) as (Eu & _).
      { replace (a + Z.to_nat u + Z.to_nat r + (b + Z.to_nat v2 + Z.to_nat s) + (c + Z.to_nat w + Z.to_nat t))%nat with (a + b + c + l + L)%nat by lia. exact H. }
      replace (Z.of_nat a + r + u)%Z with (Z.of_nat (a + Z.to_nat u + Z.to_nat r)) by lia. replace (Z.of_nat b + s + v2)%Z with (Z.of_nat (b + Z.to_nat v2 + Z.to_nat s)) by lia.
      replace (Z.of_nat c + t + w)%Z with (Z.of_nat (c + Z.to_nat w + Z.to_nat t)) by lia. rewrite Eu, bind_ok. f_equal. ring.
Qed.

(** ** When the routine aborts *)
Lemma type2_or st l L m a b c vals : store_ok st -> (Z.of_nat l <= rsh_lmax st)%Z -> (Z.of_nat L <= rsh_lmax st)%Z ->
  (Z.abs m <= Z.of_nat L)%Z -> (forall mu, (Z.abs mu <= Z.of_nat l)%Z -> readable vals [mu + Z.of_nat l]%Z) ->
  (exists v, angular_type2_integral st (Z.of_nat l) (Z.of_nat L) m (Z.of_nat a) (Z.of_nat b) (Z.of_nat c) vals = Ok v) \/
  angular_type2_integral st (Z.of_nat l) (Z.of_nat L) m (Z.of_nat a) (Z.of_nat b) (Z.of_nat c) vals = Fail AssertFailed.
Proof.
  intros S0 Hl HL Hm Hv. unfold angular_type2_integral.
  destruct (get_ok st l S0 Hl) as (tl & -> & Ntl & Tl). destruct (get_ok st L S0 HL) as (tL & -> & NtL & TL). rewrite !bind_ok. cbv zeta. rewrite Ntl, NtL.
  match goal with |- context [for_range (- Z.of_nat l) _ ?b ?s] => destruct (for_range_ok_or (fun _ : R => True) (- Z.of_nat l) (Z.of_nat l + 1) AssertFailed b s I) as [(v & E & _) | E] end;
    [|left; eexists; exact E|right; exact E].
  intros mu v Hmu _. rewrite (readable_cellv _ _ (Hv mu ltac:(lia))), bind_ok. destruct (Rlt_dec _ _) as [Hs|Hs]; [left; eexists; auto|].
  match goal with |- context [for_range 0 (n_cart (Z.of_nat L)) ?b ?s] => destruct (for_range_ok_or (fun _ : R => True) 0 (n_cart (Z.of_nat L)) AssertFailed b s I) as [(v1 & -> & _) | ->] end;
    [|rewrite bind_ok; left; eexists; auto|right; reflexivity].
  intros i v1 Hi _. destruct (TL i Hi) as (-> & -> & -> & C). rewrite !bind_ok, C, bind_ok by lia. destruct (Rlt_dec _ _) as [Hs1|Hs1]; [left; eexists; auto|].
  match goal with |- context [for_range 0 (n_cart (Z.of_nat l)) ?b ?s] => destruct (for_range_ok_or (fun _ : R => True) 0 (n_cart (Z.of_nat l)) AssertFailed b s I) as [(v2 & -> & _) | ->] end;
    [|left; eexists; auto|right; reflexivity].
  intros j v3 Hj _. destruct (Tl j Hj) as (-> & -> & -> & C'). rewrite !bind_ok, C', bind_ok by lia. destruct (Rlt_dec _ _) as [Hs2|Hs2]; [left; eexists; auto|].
  destruct (nth_canon_up l j Hj) as (r & s & t & -> & Hr & Hs3 & Ht & Hrst). destruct (nth_canon_up L i Hi) as (u & w & q & -> & Hu & Hw & Hq & Huwq). cbn [fst snd].
  replace (Z.of_nat a + r + u)%Z with (Z.of_nat (a + Z.to_nat r + Z.to_nat u)) by lia. replace (Z.of_nat b + s + w)%Z with (Z.of_nat (b + Z.to_nat s + Z.to_nat w)) by lia.
  replace (Z.of_nat c + t + q)%Z with (Z.of_nat (c + Z.to_nat t + Z.to_nat q)) by lia.
  destruct (iusp_or (a + Z.to_nat r + Z.to_nat u) (b + Z.to_nat s + Z.to_nat w) (c + Z.to_nat t + Z.to_nat q)) as [(x & ->) | ->]; [left; rewrite bind_ok; eexists; auto|right; reflexivity].
Qed.

(** the coefficient of z^l in S_l0 *)
Lemma scoef_pole l : (l <= 20)%nat -> 1 / 10 <= Rabs (scoef l 0 0 0).
Proof.
  intros Hl. unfold scoef. change (Z.abs_nat 0) with 0%nat. change ((0 + 0 <? Z.of_nat 0)%Z || Z.odd (0 + 0 - Z.of_nat 0)) with false.
  change (Z.to_nat ((0 + 0 - Z.of_nat 0) / 2)) with 0%nat. cbv iota zeta. change (bcf (0 <? 0)%Z 0 0 0) with (gcf false 0 0).
  assert (gcf false 0 0 = 1) as ->.
  { unfold gcf. cbn. unfold ch. cbn. ring. }
  rewrite Rmult_1_r. apply normf_hcf; [exact Hl|cbn; lia|cbn; lia].
Qed.

Lemma thresh_lt x : 1 / 10 <= Rabs x -> ~ Rabs x < zero_thresh.
Proof.
  intros H C. assert (T : zero_thresh < 1 / 10).
  { unfold zero_thresh. pose proof (pow_lt 10 14 ltac:(lra)). apply (Rmult_lt_reg_r (10 ^ 14)); [lra|]. cbn [pow]. lra. }
  lra.
Qed.

Lemma find_canon_up l r s t : (0 <= r)%Z -> (0 <= s)%Z -> (0 <= t)%Z -> (r + s + t = Z.of_nat l)%Z ->
  exists i, (0 <= i < n_cart (Z.of_nat l))%Z /\ nth (Z.to_nat i) (canon_up (Z.of_nat l)) d3 = (r, s, t).
Proof.
  intros Hr Hs Ht E. assert (Hin : In (r, s, t) (canon_up (Z.of_nat l))) by (apply in_canon_up; auto). apply (In_nth _ _ d3) in Hin. destruct Hin as (n & Hn & En).
  exists (Z.of_nat n). pose proof (length_canon_up (Z.of_nat l) ltac:(lia)). split; [lia|]. rewrite Nat2Z.id. exact En.
Qed.

Lemma type2_abort st l L a b c vals : store_ok st -> (Z.of_nat l <= rsh_lmax st)%Z -> (Z.of_nat L <= rsh_lmax st)%Z -> (l <= 20)%nat -> (L <= 20)%nat ->
  (forall mu, (Z.abs mu <= Z.of_nat l)%Z -> readable vals [mu + Z.of_nat l]%Z) -> zero_thresh <= Rabs (cellv vals [Z.of_nat l]) ->
  Nat.even a = true -> Nat.even b = true -> Nat.even (c + l + L) = true -> (29 < a + b + c + l + L)%nat ->
  angular_type2_integral st (Z.of_nat l) (Z.of_nat L) 0 (Z.of_nat a) (Z.of_nat b) (Z.of_nat c) vals = Fail AssertFailed.
Proof.
  intros S0 Hl HL H20 H20' Hv Hk Ea Eb Ec Hbig.
  destruct (type2_or st l L 0 a b c vals S0 Hl HL ltac:(lia) Hv) as [(v & E)|E]; [exfalso|exact E]. unfold angular_type2_integral in E.
  destruct (get_ok st l S0 Hl) as (tl & Etl & Ntl & Tl). destruct (get_ok st L S0 HL) as (tL & EtL & NtL & TL). rewrite Etl, EtL in E. rewrite !bind_ok in E. cbv zeta in E. rewrite Ntl, NtL in E.
  match type of E with for_range _ _ ?b _ = _ => assert (F : forall s0, b 0%Z s0 = Fail AssertFailed) end.
  { intros v0. cbv beta. rewrite (readable_cellv _ _ (Hv 0%Z ltac:(lia))), bind_ok. change (cellv vals [Z.of_nat l]) with (cellv vals [0 + Z.of_nat l]%Z) in Hk. destruct (Rlt_dec _ _) as [Hs|Hs]; [lra|].
    match goal with |- bind ?X _ = _ => enough (X = Fail AssertFailed) as -> by reflexivity end.
    destruct (find_canon_up L 0 0 (Z.of_nat L) ltac:(lia) ltac:(lia) ltac:(lia) ltac:(lia)) as (i0 & Hi0 & Ei0).
    destruct (find_canon_up l 0 0 (Z.of_nat l) ltac:(lia) ltac:(lia) ltac:(lia) ltac:(lia)) as (j0 & Hj0 & Ej0).
    apply (for_range_fail_some (fun _ => True)); [exact I| |].
    - intros i v1 Hi _. destruct (TL i Hi) as (-> & -> & -> & C). rewrite !bind_ok, C, bind_ok by lia. destruct (Rlt_dec _ _) as [Hs1|Hs1]; [left; eexists; auto|].
      match goal with |- context [for_range 0 (n_cart (Z.of_nat l)) ?b ?s] => destruct (for_range_ok_or (fun _ : R => True) 0 (n_cart (Z.of_nat l)) AssertFailed b s I) as [(v2 & -> & _) | ->] end;
        [|left; eexists; auto|right; reflexivity].
      intros j v3 Hj _. destruct (Tl j Hj) as (-> & -> & -> & C'). rewrite !bind_ok, C', bind_ok by lia. destruct (Rlt_dec _ _) as [Hs2|Hs2]; [left; eexists; auto|].
      destruct (nth_canon_up l j Hj) as (r & s & t & -> & Hr & Hs3 & Ht & Hrst). destruct (nth_canon_up L i Hi) as (u & w & q & -> & Hu & Hw & Hq & Huwq). cbn [fst snd].
      replace (Z.of_nat a + r + u)%Z with (Z.of_nat (a + Z.to_nat r + Z.to_nat u)) by lia. replace (Z.of_nat b + s + w)%Z with (Z.of_nat (b + Z.to_nat s + Z.to_nat w)) by lia.
      replace (Z.of_nat c + t + q)%Z with (Z.of_nat (c + Z.to_nat t + Z.to_nat q)) by lia.
      destruct (iusp_or (a + Z.to_nat r + Z.to_nat u) (b + Z.to_nat s + Z.to_nat w) (c + Z.to_nat t + Z.to_nat q)) as [(x & ->) | ->]; [left; rewrite bind_ok; eexists; auto|right; reflexivity].
    - exists i0. split; [exact Hi0|]. intros v1 _. destruct (TL i0 Hi0) as (-> & -> & -> & C). rewrite !bind_ok, C, bind_ok by lia. rewrite Ei0. cbn [fst snd].
      destruct (Rlt_dec _ _) as [Hs1|Hs1]; [exfalso; exact (thresh_lt _ (scoef_pole L H20') Hs1)|].
      apply (for_range_fail_some (fun _ => True)); [exact I| |].
      + intros j v3 Hj _. destruct (Tl j Hj) as (-> & -> & -> & C'). rewrite !bind_ok, C', bind_ok by lia. destruct (Rlt_dec _ _) as [Hs2|Hs2]; [left; eexists; auto|].
        destruct (nth_canon_up l j Hj) as (r & s & t & -> & Hr & Hs3 & Ht & Hrst). cbn [fst snd].
        replace (Z.of_nat a + r + 0)%Z with (Z.of_nat (a + Z.to_nat r)) by lia. replace (Z.of_nat b + s + 0)%Z with (Z.of_nat (b + Z.to_nat s)) by lia.
        replace (Z.of_nat c + t + Z.of_nat L)%Z with (Z.of_nat (c + Z.to_nat t + L)) by lia.
        destruct (iusp_or (a + Z.to_nat r) (b + Z.to_nat s) (c + Z.to_nat t + L)) as [(x & ->) | ->]; [left; rewrite bind_ok; eexists; auto|right; reflexivity].
      + exists j0. split; [exact Hj0|]. intros v2 _. destruct (Tl j0 Hj0) as (-> & -> & -> & C'). rewrite !bind_ok, C', bind_ok by lia. rewrite Ej0. cbn [fst snd].
        destruct (Rlt_dec _ _) as [Hs2|Hs2]; [exfalso; exact (thresh_lt _ (scoef_pole l H20) Hs2)|].
        replace (Z.of_nat a + 0 + 0)%Z with (Z.of_nat a) by lia. replace (Z.of_nat b + 0 + 0)%Z with (Z.of_nat b) by lia. replace (Z.of_nat c + Z.of_nat l + Z.of_nat L)%Z with (Z.of_nat (c + l + L)) by lia.
        rewrite iusp_abort by (assumption || lia). reflexivity. }
  rewrite (for_range_split _ 0) in E by lia. match type of E with bind ?X _ = _ => destruct X as [v1|]; [|discriminate] end. rewrite bind_ok in E.
  rewrite for_range_step in E by lia. rewrite F in E. discriminate.
Qed.
