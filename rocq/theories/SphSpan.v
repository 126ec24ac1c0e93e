(** * Polynomials on the sphere as sums of spherical harmonics, and the expansion
      of a plane wave times such a polynomial *)

From Coq Require Import ZArith Reals Lra Lia List Bool Wf_nat.
From Coquelicot Require Import Coquelicot.
From Verif Require Import Base BinomProofs CartModel CartProofs OneElModel OneElProofs OneElInt GaussInt Sums SpecExp SpecSpec BesselProofs SphModel SphSpec SphPoly SphProofs SphTables SphInt SphOrtho SphAngular SphHarm SphThms SphTri SphHecke SphPlane.
Import ListNotations.
Open Scope R_scope.

(** ** The harmonics as polynomials *)
Definition htri (l : nat) (m : Z) : tri := map (fun '(r, s, t) => (scoef l m r s, (Z.to_nat r, Z.to_nat s, Z.to_nat t))) (canon_up (Z.of_nat l)).

Lemma htri_e l m x y z : te (htri l m) x y z = cart_poly l m (x, y, z).
Proof. unfold te, htri, cart_poly. rewrite lsum_map. apply lsum_ext. intros ((r, s), t) _. ring. Qed.

Lemma htri_homog l m : homog l (htri l m).
Proof.
  intros c i j k Hi. apply in_map_iff in Hi. destruct Hi as (((r, s), t) & E & Hm). injection E as _ <- <- <-. apply in_canon_up in Hm. lia.
Qed.

Lemma htri_harm l m : (l <= 40)%nat -> (Z.abs m <= Z.of_nat l)%Z -> tharm (htri l m).
Proof.
  intros Hl Hm. destruct (cart_poly_harmonic l m Hl Hm) as (fx & fy & fz & fxx & fyy & fzz & D). intros x y z. rewrite tlap_e.
  assert (Ex : forall x y z, fx x y z = te (tdx (htri l m)) x y z) by (intros x' y' z'; apply (der_uniq (fun t => cart_poly l m (t, y', z')) x'); [apply D|]; eapply der_fun; [|apply tdx_ok]; intros t; apply htri_e).
  assert (Ey : forall x y z, fy x y z = te (tdy (htri l m)) x y z) by (intros x' y' z'; apply (der_uniq (fun t => cart_poly l m (x', t, z')) y'); [apply D|]; eapply der_fun; [|apply tdy_ok]; intros t; apply htri_e).
  assert (Ez : forall x y z, fz x y z = te (tdz (htri l m)) x y z) by (intros x' y' z'; apply (der_uniq (fun t => cart_poly l m (x', y', t)) z'); [apply D|]; eapply der_fun; [|apply tdz_ok]; intros t; apply htri_e).
  destruct (D x y z) as (_ & D1 & _ & D2 & _ & D3 & Z0). rewrite <- Z0. f_equal; [f_equal|].
  - apply (der_uniq (fun t => fx t y z) x); [|exact D1]. eapply der_fun; [|apply tdx_ok]. intros t. symmetry. apply Ex.
  - apply (der_uniq (fun t => fy x t z) y); [|exact D2]. eapply der_fun; [|apply tdy_ok]. intros t. symmetry. apply Ey.
  - apply (der_uniq (fun t => fz x y t) z); [|exact D3]. eapply der_fun; [|apply tdz_ok]. intros t. symmetry. apply Ez.
Qed.

Lemma htri_sph l m x y z : (l <= 40)%nat -> (Z.abs m <= Z.of_nat l)%Z -> x ^ 2 + y ^ 2 + z ^ 2 = 1 -> te (htri l m) x y z = real_sph l m x y z.
Proof. intros Hl Hm Hu. rewrite htri_e. apply cart_poly_unit; assumption. Qed.

Lemma sph_wave a b c t l m : (l <= 40)%nat -> (Z.abs m <= Z.of_nat l)%Z -> a ^ 2 + b ^ 2 + c ^ 2 = 1 ->
  sphere_int (fun x y z => exp (t * (a * x + b * y + c * z)) * real_sph l m x y z) (4 * PI * exp t * bessK l t * real_sph l m a b c).
Proof.
  intros Hl Hm Hu. rewrite <- (htri_sph l m a b c Hl Hm Hu). eapply sphere_ext; [|apply (plane_wave a b c t l (htri l m) Hu (htri_homog l m) (htri_harm l m Hl Hm))].
  intros x y z Hs. cbv beta. rewrite (htri_sph l m x y z Hl Hm Hs). reflexivity.
Qed.

(** ** Spans *)
Inductive span (d : nat) : (R -> R -> R -> R) -> Prop :=
| span_sph l m : (l <= d)%nat -> Nat.even (d - l) = true -> (Z.abs m <= Z.of_nat l)%Z -> span d (real_sph l m)
| span_zero : span d (fun _ _ _ => 0)
| span_lin f g a b : span d f -> span d g -> span d (fun x y z => a * f x y z + b * g x y z)
| span_ext f g : (forall x y z, x ^ 2 + y ^ 2 + z ^ 2 = 1 -> f x y z = g x y z) -> span d f -> span d g.

Lemma span_up d f : span d f -> span (S (S d)) f.
Proof.
  intros H. induction H as [l m Hl He Hm| |f g a b _ IH1 _ IH2|f g E _ IH].
  - apply span_sph; [lia| |exact Hm]. replace (S (S d) - l)%nat with (S (S (d - l))) by lia. exact He.
  - apply span_zero.
  - apply span_lin; assumption.
  - eapply span_ext; [exact E|exact IH].
Qed.

Lemma span_ups q d f : span d f -> span (d + 2 * q) f.
Proof. intros H. induction q as [|q IH]; [rewrite Nat.mul_0_r, Nat.add_0_r; exact H|]. replace (d + 2 * S q)%nat with (S (S (d + 2 * q))) by lia. apply span_up, IH. Qed.

Lemma span_scal d f a : span d f -> span d (fun x y z => a * f x y z).
Proof. intros H. eapply span_ext; [|apply (span_lin d f f a 0 H H)]. intros. cbv beta. ring. Qed.

Lemma span_rsum d n (f : nat -> R -> R -> R -> R) : (forall i, (i < n)%nat -> span d (f i)) -> span d (fun x y z => rsum n (fun i => f i x y z)).
Proof.
  intros H. induction n as [|n IH]; [apply span_zero|]. cbn [rsum]. eapply span_ext; [|apply (span_lin d (fun x y z => rsum n (fun i => f i x y z)) (f n) 1 1); [apply IH; intros; apply H; lia|apply H; lia]]. intros. cbv beta. ring.
Qed.

Lemma span_lsum {A} d (l : list A) (f : A -> R -> R -> R -> R) : (forall i, In i l -> span d (f i)) -> span d (fun x y z => lsum (fun i => f i x y z) l).
Proof.
  intros H. induction l as [|i l IH]; [apply span_zero|]. eapply span_ext; [|apply (span_lin d (f i) (fun x y z => lsum (fun i => f i x y z) l) 1 1); [apply H; left; reflexivity|apply IH; intros; apply H; right; assumption]]. intros. cbv beta. rewrite lsum_cons. ring.
Qed.

(** ** Powers of z times the azimuthal part *)
Lemma real_sph_tpart mu n (sg : bool) x y z : (mu = 0%nat -> sg = false) ->
  real_sph (mu + n) (if sg then - Z.of_nat mu else Z.of_nat mu) x y z = snorm (mu + n) (if sg then - Z.of_nat mu else Z.of_nat mu) * (rodrigues (mu + n) (mu + n + mu) z * tpart sg mu x y).
Proof.
  intros H. assert (E : Z.abs_nat (if sg then - Z.of_nat mu else Z.of_nat mu) = mu) by (destruct sg; lia). unfold real_sph. cbv zeta. fold (snorm (mu + n) (if sg then - Z.of_nat mu else Z.of_nat mu)).
  unfold snorm. rewrite E.
  assert (E2 : ((if sg then - Z.of_nat mu else Z.of_nat mu) <? 0)%Z = sg) by (destruct sg; [apply Z.ltb_lt; destruct mu; [discriminate (H eq_refl)|lia]|apply Z.ltb_ge; lia]). rewrite E2. unfold tpart. destruct sg; ring.
Qed.

Lemma snorm_pos l m : 0 < snorm l m.
Proof.
  unfold snorm. apply Rdiv_lt_0_compat; [|apply Rmult_lt_0_compat; [apply pow_lt; lra|apply fact_pos]]. apply sqrt_lt_R0. pose proof (pos_INR l). pose proof PI_RGT_0.
  apply Rdiv_lt_0_compat; [|apply fact_pos]. apply Rmult_lt_0_compat; [|apply fact_pos]. apply Rdiv_lt_0_compat; [lra|]. destruct (m =? 0)%Z; lra.
Qed.

Lemma ccf_0 l n : ccf l n 0 <> 0.
Proof.
  unfold ccf. rewrite ch_0. cbn [pow]. rewrite !Nat.mul_0_r, !Nat.sub_0_r. assert (0 < INR (fact (2 * l)) / INR (fact n)) by (apply Rdiv_lt_0_compat; apply fact_pos). lra.
Qed.

Lemma zpow_span_aux sg mu p : (mu = 0%nat -> sg = false) -> span (mu + p) (fun x y z => z ^ p * tpart sg mu x y).
Proof.
  intros Hsg. induction p as [p IH] using lt_wf_ind.
  pose proof (real_sph_tpart mu p sg) as RS. set (m := if sg then (- Z.of_nat mu)%Z else Z.of_nat mu) in *.
  assert (Hm : (Z.abs m <= Z.of_nat (mu + p))%Z) by (unfold m; destruct sg; lia).
  pose proof (snorm_pos (mu + p) m) as Sp. pose proof (ccf_0 (mu + p) p) as C0.
  set (low := fun x y z => rsum (Nat.div2 p) (fun i => ccf (mu + p) p (S i) * (z ^ (p - 2 * S i) * tpart sg mu x y))).
  assert (Hh : (2 * Nat.div2 p <= p)%nat) by (pose proof (Nat.div2_odd p); destruct (Nat.odd p); cbn [Nat.b2n] in *; lia).
  assert (Lw : span (mu + p) low).
  { unfold low. apply (span_rsum (mu + p) (Nat.div2 p) (fun i x y z => ccf (mu + p) p (S i) * (z ^ (p - 2 * S i) * tpart sg mu x y))). intros i Hi. apply (span_scal (mu + p) (fun x y z => z ^ (p - 2 * S i) * tpart sg mu x y)).
    assert (E : (mu + p = mu + (p - 2 * S i) + 2 * S i)%nat) by lia. rewrite E. apply span_ups, IH. lia. }
  assert (Hs : span (mu + p) (real_sph (mu + p) m)) by (apply span_sph; [lia|rewrite Nat.sub_diag; reflexivity|exact Hm]).
  eapply span_ext; [|apply (span_lin _ _ _ (/ (snorm (mu + p) m * ccf (mu + p) p 0)) (- / ccf (mu + p) p 0) Hs Lw)].
  intros x y z _. cbv beta. rewrite (RS x y z Hsg). pose proof (rodrigues_sum (mu + p) p z ltac:(lia)) as RO. replace (mu + p - p)%nat with mu in RO by lia. rewrite RO, rsum_first. replace (p - 2 * 0)%nat with p by lia.
  unfold low. rewrite (rsum_ext _ (fun i => ccf (mu + p) p (S i) * (z ^ (p - 2 * S i) * tpart sg mu x y)) (fun i => tpart sg mu x y * (ccf (mu + p) p (S i) * z ^ (p - 2 * S i)))) by (intros; ring). rewrite rsum_scal. field. split; [exact C0|lra].
Qed.

Lemma zpow_span sg mu p : span (mu + p) (fun x y z => z ^ p * tpart sg mu x y).
Proof.
  destruct (Nat.eq_dec mu 0) as [E0|E0]; [destruct sg|].
  - subst mu. eapply span_ext; [|apply span_zero]. intros. cbn. ring.
  - apply zpow_span_aux. reflexivity.
  - apply zpow_span_aux. contradiction.
Qed.

Lemma zq_span sg mu q : forall p, span (mu + p + 2 * q) (fun x y z => (1 - z ^ 2) ^ q * (z ^ p * tpart sg mu x y)).
Proof.
  induction q as [|q IH]; intros p.
  - rewrite Nat.mul_0_r, Nat.add_0_r. eapply span_ext; [|apply (zpow_span sg mu p)]. intros. cbn [pow]. ring.
  - pose proof (span_up _ _ (IH p)) as H1. pose proof (IH (S (S p))) as H2. replace (mu + S (S p) + 2 * q)%nat with (S (S (mu + p + 2 * q))) in H2 by lia. replace (mu + p + 2 * S q)%nat with (S (S (mu + p + 2 * q))) by lia.
    eapply span_ext; [|apply (span_lin _ _ _ 1 (-1) H1 H2)]. intros x y z _. cbv beta. cbn [pow]. ring.
Qed.

(** ** Monomials in x and y *)
Inductive span2 (n : nat) : (R -> R -> R) -> Prop :=
| s2_base sg mu q : (mu + 2 * q = n)%nat -> span2 n (fun x y => (x ^ 2 + y ^ 2) ^ q * tpart sg mu x y)
| s2_zero : span2 n (fun _ _ => 0)
| s2_lin f g a b : span2 n f -> span2 n g -> span2 n (fun x y => a * f x y + b * g x y)
| s2_ext f g : (forall x y, f x y = g x y) -> span2 n f -> span2 n g.

Lemma tpart_x_mul sg m x y : x * tpart sg (S m) x y = (tpart sg (S (S m)) x y + (x ^ 2 + y ^ 2) * tpart sg m x y) / 2.
Proof. unfold tpart. cbn [re_im_pow]. destruct (re_im_pow m x y) as (u, v). destruct sg; cbn [fst snd]; field. Qed.
Lemma tpart_y_mul sg m x y : y * tpart sg (S m) x y = (if sg then -1 else 1) * (tpart (negb sg) (S (S m)) x y - (x ^ 2 + y ^ 2) * tpart (negb sg) m x y) / 2.
Proof. unfold tpart. cbn [re_im_pow]. destruct (re_im_pow m x y) as (u, v). destruct sg; cbn [fst snd negb]; field. Qed.

Lemma s2_x n f : span2 n f -> span2 (S n) (fun x y => x * f x y).
Proof.
  intros H. induction H as [sg mu q E| |f g a b _ IH1 _ IH2|f g E _ IH].
  - destruct mu as [|m].
    + destruct sg; [eapply s2_ext; [|apply s2_zero]; intros; cbn; ring|]. eapply s2_ext; [|apply (s2_base (S n) false 1 q); lia]. intros x y. cbn. ring.
    + eapply s2_ext; [|apply (s2_lin (S n) _ _ (/ 2) (/ 2) (s2_base (S n) sg (S (S m)) q ltac:(lia)) (s2_base (S n) sg m (S q) ltac:(lia)))].
      intros x y. cbv beta. transitivity ((x ^ 2 + y ^ 2) ^ q * (x * tpart sg (S m) x y)); [|ring]. rewrite (tpart_x_mul sg m x y). cbn [pow]. field.
  - eapply s2_ext; [|apply s2_zero]. intros; cbv beta; ring.
  - eapply s2_ext; [|apply (s2_lin (S n) _ _ a b IH1 IH2)]. intros; cbv beta; ring.
  - eapply s2_ext; [|exact IH]. intros; cbv beta; rewrite E; reflexivity.
Qed.

Lemma s2_y n f : span2 n f -> span2 (S n) (fun x y => y * f x y).
Proof.
  intros H. induction H as [sg mu q E| |f g a b _ IH1 _ IH2|f g E _ IH].
  - destruct mu as [|m].
    + destruct sg; [eapply s2_ext; [|apply s2_zero]; intros; cbn; ring|]. eapply s2_ext; [|apply (s2_base (S n) true 1 q); lia]. intros x y. cbn. ring.
    + set (s := if sg then -1 else 1). eapply s2_ext; [|apply (s2_lin (S n) _ _ (s / 2) (- s / 2) (s2_base (S n) (negb sg) (S (S m)) q ltac:(lia)) (s2_base (S n) (negb sg) m (S q) ltac:(lia)))].
      intros x y. cbv beta. transitivity ((x ^ 2 + y ^ 2) ^ q * (y * tpart sg (S m) x y)); [|ring]. rewrite (tpart_y_mul sg m x y). fold s. cbn [pow]. field.
  - eapply s2_ext; [|apply s2_zero]. intros; cbv beta; ring.
  - eapply s2_ext; [|apply (s2_lin (S n) _ _ a b IH1 IH2)]. intros; cbv beta; ring.
  - eapply s2_ext; [|exact IH]. intros; cbv beta; rewrite E; reflexivity.
Qed.

Lemma s2_mono i j : span2 (i + j) (fun x y => x ^ i * y ^ j).
Proof.
  induction i as [|i IH].
  - cbn [Nat.add]. induction j as [|j IH]; [eapply s2_ext; [|apply (s2_base 0 false 0 0); reflexivity]; intros; cbn; ring|]. eapply s2_ext; [|apply (s2_y j _ IH)]. intros; cbn [pow]; ring.
  - cbn [Nat.add]. eapply s2_ext; [|apply (s2_x _ _ IH)]. intros; cbn [pow]; ring.
Qed.

Lemma s2_span n f k : span2 n f -> span (n + k) (fun x y z => f x y * z ^ k).
Proof.
  intros H. induction H as [sg mu q E| |f g a b _ IH1 _ IH2|f g E _ IH].
  - replace (n + k)%nat with (mu + k + 2 * q)%nat by lia. eapply span_ext; [|apply (zq_span sg mu q k)]. intros x y z Hu. cbv beta. replace (1 - z ^ 2) with (x ^ 2 + y ^ 2) by lra. ring.
  - eapply span_ext; [|apply span_zero]. intros; cbv beta; ring.
  - eapply span_ext; [|apply (span_lin _ _ _ a b IH1 IH2)]. intros; cbv beta; ring.
  - eapply span_ext; [|exact IH]. intros; cbv beta; rewrite E; reflexivity.
Qed.

Lemma mono_span i j k : span (i + j + k) (mono3 i j k).
Proof. eapply span_ext; [|apply (s2_span _ _ k (s2_mono i j))]. intros; unfold mono3; ring. Qed.

Lemma tri_span d p : homog d p -> span d (te p).
Proof.
  intros H. unfold te. eapply span_ext; [|apply (span_lsum d p (fun m x y z => match m with (c, (i, j, k)) => c * (x ^ i * y ^ j * z ^ k) end))].
  - intros x y z _. cbv beta. apply lsum_ext. intros (c, ((i, j), k)) _. reflexivity.
  - intros (c, ((i, j), k)) Hi. apply span_scal. rewrite <- (H _ _ _ _ Hi). apply mono_span.
Qed.

(** a monomial times a harmonic *)
Lemma mono_sph_span a b c L m : (L <= 40)%nat -> (Z.abs m <= Z.of_nat L)%Z -> span (a + b + c + L) (fun x y z => x ^ a * y ^ b * z ^ c * real_sph L m x y z).
Proof.
  intros HL Hm. eapply span_ext; [|apply (tri_span _ (tmul [(1, (a, b, c))] (htri L m)))].
  - intros x y z Hu. rewrite te_mul, te_cons, te_nil, (htri_sph L m x y z HL Hm Hu). ring.
  - apply homog_mul; [|apply htri_homog]. intros e i j k [E|[]]. injection E as _ <- <- <-. reflexivity.
Qed.

(** ** The expansion *)
Lemma zsum_lin lo hi f g a b : zsum lo hi (fun i => a * f i + b * g i) = a * zsum lo hi f + b * zsum lo hi g.
Proof. rewrite zsum_plus, !zsum_scal. reflexivity. Qed.

Lemma zsum_delta lo hi (m : Z) (f : Z -> R) : (lo <= m < hi)%Z -> (forall i, (lo <= i < hi)%Z -> i <> m -> f i = 0) -> zsum lo hi f = f m.
Proof.
  intros H Z0. rewrite (zsum_split lo m hi) by lia. rewrite (zsum_first m hi) by lia. rewrite (zsum_zero lo m) by (intros; apply Z0; lia). rewrite (zsum_zero (m + 1) hi) by (intros; apply Z0; lia). ring.
Qed.

Lemma rsum_delta n (l : nat) (f : nat -> R) : (l < n)%nat -> (forall i, (i < n)%nat -> i <> l -> f i = 0) -> rsum n f = f l.
Proof.
  induction n as [|n IH]; [lia|]. intros Hl Z0. cbn [rsum]. destruct (Nat.eq_dec l n) as [->|Hn].
  - rewrite (rsum_zero n) by (intros; apply Z0; lia). ring.
  - rewrite IH; [|lia|intros; apply Z0; lia]. rewrite (Z0 n) by lia. ring.
Qed.

Definition wave_sum (d : nat) (t : R) (w : nat -> Z -> R) (a b c : R) : R :=
  rsum (S d) (fun l => if Nat.even (d - l) then bessK l t * zsum (- Z.of_nat l) (Z.of_nat l + 1) (fun m => w l m * real_sph l m a b c) else 0).

(** the value of the angular integral of a plane wave times a member of the span: its
    coefficients are the overlaps with the harmonics *)
Lemma span_wave d f : (d <= 40)%nat -> span d f -> exists w : nat -> Z -> R,
  (forall l m, (Z.abs m <= Z.of_nat l)%Z -> sphere_int (fun x y z => f x y z * real_sph l m x y z) (w l m)) /\
  (forall l m, (Z.abs m <= Z.of_nat l)%Z -> (d < l)%nat \/ Nat.even (d - l) = false -> w l m = 0) /\
  (forall a b c t, a ^ 2 + b ^ 2 + c ^ 2 = 1 -> sphere_int (fun x y z => exp (t * (a * x + b * y + c * z)) * f x y z) (4 * PI * exp t * wave_sum d t w a b c)).
Proof.
  intros Hd H. induction H as [l m Hl He Hm| |f g p q H1 (w1 & A1 & Z1 & W1) H2 (w2 & A2 & Z2 & W2)|f g E _ (w & A & Z0 & W)].
  - exists (fun l' m' => if (Nat.eqb l l' && Z.eqb m m')%bool then 1 else 0). split; [|split].
    + intros l' m' Hm'. pose proof (orthonormal l l' m m' Hm Hm') as O. exact O.
    + intros l' m' Hm' Hz. destruct (Nat.eqb_spec l l') as [->|]; [|reflexivity]. destruct Hz as [Hz|Hz]; [lia|congruence].
    + intros a b c t Hu. eapply sphere_val; [apply sph_wave; [lia|exact Hm|exact Hu]|]. unfold wave_sum.
      rewrite (rsum_delta (S d) l); [|lia|].
      * rewrite He. rewrite (zsum_delta _ _ m); [rewrite Nat.eqb_refl, Z.eqb_refl; cbn [andb]; ring|lia|]. intros i Hi Hn. rewrite Nat.eqb_refl, (proj2 (Z.eqb_neq m i)) by auto. cbn [andb]. ring.
      * intros i Hi Hn. destruct (Nat.even (d - i)); [|reflexivity]. rewrite zsum_zero; [ring|]. intros j Hj. rewrite (proj2 (Nat.eqb_neq l i)) by auto. cbn [andb]. ring.
  - exists (fun _ _ => 0). split; [|split].
    + intros l m _. eapply sphere_ext; [|apply sphere_zero]. intros; cbv beta; ring.
    + reflexivity.
    + intros a b c t _. eapply sphere_val; [eapply sphere_ext; [|apply sphere_zero]; intros; cbv beta; ring|]. unfold wave_sum. rewrite rsum_zero; [ring|]. intros l _. destruct (Nat.even (d - l)); [|reflexivity]. rewrite zsum_zero; [ring|]. intros; ring.
  - exists (fun l m => p * w1 l m + q * w2 l m). split; [|split].
    + intros l m Hm. eapply sphere_ext; [|apply (sphere_lin _ _ _ _ p q (A1 l m Hm) (A2 l m Hm))]. intros; cbv beta; ring.
    + intros l m Hm Hz. rewrite (Z1 l m Hm Hz), (Z2 l m Hm Hz). ring.
    + intros a b c t Hu. eapply sphere_val; [eapply sphere_ext; [|apply (sphere_lin _ _ _ _ p q (W1 a b c t Hu) (W2 a b c t Hu))]; intros; cbv beta; ring|].
      assert (EW : wave_sum d t (fun l m => p * w1 l m + q * w2 l m) a b c = p * wave_sum d t w1 a b c + q * wave_sum d t w2 a b c); [|rewrite EW; ring].
      unfold wave_sum. rewrite <- !rsum_scal, <- rsum_plus. apply rsum_ext. intros l _. destruct (Nat.even (d - l)); [|ring]. rewrite (zsum_ext _ _ _ (fun m => p * (w1 l m * real_sph l m a b c) + q * (w2 l m * real_sph l m a b c))) by (intros; ring). rewrite zsum_lin. ring.
  - exists w. split; [|split; [exact Z0|]].
    + intros l m Hm. eapply sphere_ext; [|apply (A l m Hm)]. intros x y z Hu; cbv beta; rewrite (E _ _ _ Hu); reflexivity.
    + intros a b c t Hu. eapply sphere_ext; [|apply (W a b c t Hu)]. intros x y z Hu'; cbv beta; rewrite (E _ _ _ Hu'); reflexivity.
Qed.

(** the coefficients are determined by the integrals, so any overlaps will do *)
Lemma span_wave_with d f (w : nat -> Z -> R) : (d <= 40)%nat -> span d f ->
  (forall l m, (l <= d)%nat -> Nat.even (d - l) = true -> (Z.abs m <= Z.of_nat l)%Z -> sphere_int (fun x y z => f x y z * real_sph l m x y z) (w l m)) ->
  forall a b c t, a ^ 2 + b ^ 2 + c ^ 2 = 1 -> sphere_int (fun x y z => exp (t * (a * x + b * y + c * z)) * f x y z) (4 * PI * exp t * wave_sum d t w a b c).
Proof.
  intros Hd Hs Hw a b c t Hu. destruct (span_wave d f Hd Hs) as (w' & A & _ & W). eapply sphere_val; [apply (W a b c t Hu)|]. f_equal. unfold wave_sum. apply rsum_ext. intros l Hl. destruct (Nat.even (d - l)) eqn:Ev; [|reflexivity]. f_equal. apply zsum_ext. intros m Hm. f_equal. eapply sphere_uniq; [apply A; lia|apply Hw; [lia|exact Ev|lia]].
Qed.
