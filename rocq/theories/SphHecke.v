(** * Integrals of powers of a linear form times a harmonic polynomial *)

From Coq Require Import ZArith Reals Lra Lia List Bool Wf_nat.
From Coquelicot Require Import Coquelicot.
From Verif Require Import Base BinomProofs OneElModel OneElProofs OneElInt Sums SphModel SphSpec SphPoly SphProofs SphInt SphOrtho SphAngular SphHarm SphTri.
Import ListNotations.
Open Scope R_scope.

Definition tscal (a : R) (p : tri) : tri := map (fun '(c, e) => (a * c, e)) p.
Lemma te_scal a p x y z : te (tscal a p) x y z = a * te p x y z.
Proof. induction p as [|(c, ((i, j), k)) p IH]; [cbn; ring|]. cbn [tscal map]. fold (tscal a p). rewrite !te_cons, IH. ring. Qed.
Lemma tint_scal a p : tint (tscal a p) = a * tint p.
Proof. induction p as [|(c, ((i, j), k)) p IH]; [cbn; ring|]. cbn [tscal map]. fold (tscal a p). unfold tint in *. rewrite !lsum_cons, IH. ring. Qed.
Lemma homog_scal d a p : homog d p -> homog d (tscal a p).
Proof. intros H c i j k Hi. apply in_map_iff in Hi. destruct Hi as ((c', e) & E & Hm). injection E as _ ->. apply (H c'), Hm. Qed.

Definition mmul (m m' : R * (nat * nat * nat)) : R * (nat * nat * nat) :=
  let '(c, (i, j, k)) := m in let '(c', (i', j', k')) := m' in (c * c', (i + i', j + j', k + k')%nat).
Definition tmul (p q : tri) : tri := flat_map (fun m => map (mmul m) q) p.

Lemma te_mul p q x y z : te (tmul p q) x y z = te p x y z * te q x y z.
Proof.
  induction p as [|(c, ((i, j), k)) p IH]; [cbn; ring|]. unfold tmul in *. cbn [flat_map]. rewrite te_app, te_cons, IH, Rmult_plus_distr_r. f_equal.
  clear. induction q as [|(c', ((i', j'), k')) q IH]; [cbn; ring|]. cbn [map mmul]. rewrite !te_cons, IH, !pow_add. ring.
Qed.

Lemma homog_mul d e p q : homog d p -> homog e q -> homog (d + e) (tmul p q).
Proof.
  intros H1 H2 c i j k Hi. apply in_flat_map in Hi. destruct Hi as ((c1, ((i1, j1), k1)) & Hm & Hi). apply in_map_iff in Hi. destruct Hi as ((c2, ((i2, j2), k2)) & E & Hq).
  injection E as _ <- <- <-. specialize (H1 _ _ _ _ Hm). specialize (H2 _ _ _ _ Hq). lia.
Qed.

Definition tlin (a b c : R) : tri := [(a, (1, 0, 0)%nat); (b, (0, 1, 0)%nat); (c, (0, 0, 1)%nat)].
Fixpoint tpow (p : tri) (n : nat) : tri := match n with O => [(1, (0, 0, 0)%nat)] | S n => tmul p (tpow p n) end.

Lemma te_pow p n x y z : te (tpow p n) x y z = te p x y z ^ n.
Proof. induction n as [|n IH]; [cbn; ring|]. cbn [tpow pow]. rewrite te_mul, IH. reflexivity. Qed.
Lemma te_lin a b c x y z : te (tlin a b c) x y z = a * x + b * y + c * z.
Proof. unfold tlin. rewrite !te_cons, te_nil. ring. Qed.
Lemma homog_lin a b c : homog 1 (tlin a b c).
Proof. intros e i j k [E|[E|[E|[]]]]; injection E as _ <- <- <-; reflexivity. Qed.
Lemma homog_pow d p n : homog d p -> homog (n * d) (tpow p n).
Proof.
  intros H. induction n as [|n IH]; cbn [tpow].
  - intros e i j k [E|[]]. injection E as _ <- <- <-. reflexivity.
  - cbn [Nat.mul]. apply homog_mul; assumption.
Qed.

(** a polynomial whose Laplacian vanishes *)
Definition tharm (p : tri) : Prop := forall x y z, te (tlap p) x y z = 0.

Section Direction.
Variables a b c : R.
Hypothesis unit : a ^ 2 + b ^ 2 + c ^ 2 = 1.

Let F (n : nat) (H : tri) : tri := tmul (tpow (tlin a b c) n) H.
Definition along (H : tri) : tri := tscal a (tdx H) ++ tscal b (tdy H) ++ tscal c (tdz H).

Lemma F_e n H x y z : te (F n H) x y z = (a * x + b * y + c * z) ^ n * te H x y z.
Proof. unfold F. rewrite te_mul, te_pow, te_lin. reflexivity. Qed.

Lemma F_homog n d H : homog d H -> homog (n + d) (F n H).
Proof. intros Hh. unfold F. apply homog_mul; [|exact Hh]. rewrite <- (Nat.mul_1_r n) at 1. apply homog_pow, homog_lin. Qed.

Lemma along_e H x y z : te (along H) x y z = a * te (tdx H) x y z + b * te (tdy H) x y z + c * te (tdz H) x y z.
Proof. unfold along. rewrite !te_app, !te_scal. ring. Qed.

Lemma along_homog d H : homog (S d) H -> homog d (along H).
Proof. intros Hh. unfold along. repeat apply homog_app; apply homog_scal; [apply homog_dx|apply homog_dy|apply homog_dz]; exact Hh. Qed.

(** d/dt of (k t + w)^n f(t) *)
Lemma lin_prod (k w : R) n (f : R -> R) t (f' : R) : is_derive f t f' ->
  is_derive (fun s => (k * s + w) ^ n * f s) t (INR n * k * ((k * t + w) ^ pred n * f t) + (k * t + w) ^ n * f').
Proof.
  intros Hf. assert (L : is_derive (fun s => (k * s + w) ^ n) t (INR n * k * (k * t + w) ^ pred n)).
  { auto_derive; [trivial|]. ring. }
  eapply der_val; [apply (is_derive_mult (fun s => (k * s + w) ^ n) f t _ _ L Hf); intros; apply Rmult_comm|]. unfold plus, mult; cbn. ring.
Qed.

Lemma F_dx n H x y z : te (tdx (F n H)) x y z = INR n * a * te (F (pred n) H) x y z + te (F n (tdx H)) x y z.
Proof.
  apply (der_uniq (fun t => te (F n H) t y z) x); [apply tdx_ok|]. rewrite !F_e.
  eapply der_val; [eapply der_fun; [|apply (lin_prod a (b * y + c * z) n (fun t => te H t y z) x _ (tdx_ok H x y z))]|].
  - intros t. cbv beta. rewrite F_e. f_equal. f_equal. ring.
  - replace (a * x + (b * y + c * z)) with (a * x + b * y + c * z) by ring. reflexivity.
Qed.
Lemma F_dy n H x y z : te (tdy (F n H)) x y z = INR n * b * te (F (pred n) H) x y z + te (F n (tdy H)) x y z.
Proof.
  apply (der_uniq (fun t => te (F n H) x t z) y); [apply tdy_ok|]. rewrite !F_e.
  eapply der_val; [eapply der_fun; [|apply (lin_prod b (a * x + c * z) n (fun t => te H x t z) y _ (tdy_ok H x y z))]|].
  - intros t. cbv beta. rewrite F_e. f_equal. f_equal. ring.
  - replace (b * y + (a * x + c * z)) with (a * x + b * y + c * z) by ring. reflexivity.
Qed.
Lemma F_dz n H x y z : te (tdz (F n H)) x y z = INR n * c * te (F (pred n) H) x y z + te (F n (tdz H)) x y z.
Proof.
  apply (der_uniq (fun t => te (F n H) x y t) z); [apply tdz_ok|]. rewrite !F_e.
  eapply der_val; [eapply der_fun; [|apply (lin_prod c (a * x + b * y) n (fun t => te H x y t) z _ (tdz_ok H x y z))]|].
  - intros t. cbv beta. rewrite F_e. f_equal. f_equal. ring.
  - replace (c * z + (a * x + b * y)) with (a * x + b * y + c * z) by ring. reflexivity.
Qed.

Lemma tdx_lin p q r s t : (forall x y z, te p x y z = s * te q x y z + t * te r x y z) -> forall x y z, te (tdx p) x y z = s * te (tdx q) x y z + t * te (tdx r) x y z.
Proof.
  intros E x y z. apply (der_uniq (fun u => te p u y z) x); [apply tdx_ok|]. eapply der_fun; [|apply (der_lin _ _ x s t _ _ (tdx_ok q x y z) (tdx_ok r x y z))]. intros u. cbv beta. symmetry. apply E.
Qed.
Lemma tdy_lin p q r s t : (forall x y z, te p x y z = s * te q x y z + t * te r x y z) -> forall x y z, te (tdy p) x y z = s * te (tdy q) x y z + t * te (tdy r) x y z.
Proof.
  intros E x y z. apply (der_uniq (fun u => te p x u z) y); [apply tdy_ok|]. eapply der_fun; [|apply (der_lin _ _ y s t _ _ (tdy_ok q x y z) (tdy_ok r x y z))]. intros u. cbv beta. symmetry. apply E.
Qed.
Lemma tdz_lin p q r s t : (forall x y z, te p x y z = s * te q x y z + t * te r x y z) -> forall x y z, te (tdz p) x y z = s * te (tdz q) x y z + t * te (tdz r) x y z.
Proof.
  intros E x y z. apply (der_uniq (fun u => te p x y u) z); [apply tdz_ok|]. eapply der_fun; [|apply (der_lin _ _ z s t _ _ (tdz_ok q x y z) (tdz_ok r x y z))]. intros u. cbv beta. symmetry. apply E.
Qed.

Lemma F_lap n H x y z : te (tlap (F n H)) x y z =
  INR n * INR (pred n) * te (F (pred (pred n)) H) x y z + 2 * INR n * te (F (pred n) (along H)) x y z + te (F n (tlap H)) x y z.
Proof.
  rewrite tlap_e.
  rewrite (tdx_lin (tdx (F n H)) (F (pred n) H) (F n (tdx H)) (INR n * a) 1) by (intros; rewrite F_dx; ring).
  rewrite (tdy_lin (tdy (F n H)) (F (pred n) H) (F n (tdy H)) (INR n * b) 1) by (intros; rewrite F_dy; ring).
  rewrite (tdz_lin (tdz (F n H)) (F (pred n) H) (F n (tdz H)) (INR n * c) 1) by (intros; rewrite F_dz; ring).
  rewrite !F_dx, !F_dy, !F_dz, !F_e, along_e, tlap_e. set (u := (a * x + b * y + c * z)). 
  transitivity (INR n * INR (pred n) * (u ^ pred (pred n) * te H x y z) * (a ^ 2 + b ^ 2 + c ^ 2) + 2 * INR n * (u ^ pred n * (a * te (tdx H) x y z + b * te (tdy H) x y z + c * te (tdz H) x y z))
    + u ^ n * (te (tdx (tdx H)) x y z + te (tdy (tdy H)) x y z + te (tdz (tdz H)) x y z)); [ring|]. rewrite unit. ring.
Qed.

Lemma along_harm H : tharm H -> tharm (along H).
Proof.
  intros Hh x y z.
  assert (Zx : forall x y z, te (tdx (tlap H)) x y z = 0) by (intros; rewrite (tdx_same (tlap H) [] Hh); reflexivity).
  assert (Zy : forall x y z, te (tdy (tlap H)) x y z = 0) by (intros; rewrite (tdy_same (tlap H) [] Hh); reflexivity).
  assert (Zz : forall x y z, te (tdz (tlap H)) x y z = 0) by (intros; rewrite (tdz_same (tlap H) [] Hh); reflexivity).
  assert (A1 : forall p, (forall x y z, te p x y z = te (along H) x y z) -> forall x y z, te (tdx p) x y z = a * te (tdx (tdx H)) x y z + b * te (tdx (tdy H)) x y z + c * te (tdx (tdz H)) x y z).
  { intros p E x' y' z'. rewrite (tdx_lin p (tdx H) (tscal b (tdy H) ++ tscal c (tdz H)) a 1) by (intros; rewrite E, along_e, te_app, !te_scal; ring).
    rewrite (tdx_lin (tscal b (tdy H) ++ tscal c (tdz H)) (tdy H) (tdz H) b c) by (intros; rewrite te_app, !te_scal; ring). ring. }
  assert (A2 : forall p, (forall x y z, te p x y z = te (along H) x y z) -> forall x y z, te (tdy p) x y z = a * te (tdy (tdx H)) x y z + b * te (tdy (tdy H)) x y z + c * te (tdy (tdz H)) x y z).
  { intros p E x' y' z'. rewrite (tdy_lin p (tdx H) (tscal b (tdy H) ++ tscal c (tdz H)) a 1) by (intros; rewrite E, along_e, te_app, !te_scal; ring).
    rewrite (tdy_lin (tscal b (tdy H) ++ tscal c (tdz H)) (tdy H) (tdz H) b c) by (intros; rewrite te_app, !te_scal; ring). ring. }
  assert (A3 : forall p, (forall x y z, te p x y z = te (along H) x y z) -> forall x y z, te (tdz p) x y z = a * te (tdz (tdx H)) x y z + b * te (tdz (tdy H)) x y z + c * te (tdz (tdz H)) x y z).
  { intros p E x' y' z'. rewrite (tdz_lin p (tdx H) (tscal b (tdy H) ++ tscal c (tdz H)) a 1) by (intros; rewrite E, along_e, te_app, !te_scal; ring).
    rewrite (tdz_lin (tscal b (tdy H) ++ tscal c (tdz H)) (tdy H) (tdz H) b c) by (intros; rewrite te_app, !te_scal; ring). ring. }
  (* derivatives of a three-term sum *)
  assert (L3 : forall (D : tri -> tri), (forall p q r s t, (forall x y z, te p x y z = s * te q x y z + t * te r x y z) -> forall x y z, te (D p) x y z = s * te (D q) x y z + t * te (D r) x y z) ->
     forall p q1 q2 q3, (forall x y z, te p x y z = a * te q1 x y z + b * te q2 x y z + c * te q3 x y z) -> forall x y z, te (D p) x y z = a * te (D q1) x y z + b * te (D q2) x y z + c * te (D q3) x y z).
  { intros D DL p q1 q2 q3 E x' y' z'. rewrite (DL p q1 (tscal b q2 ++ tscal c q3) a 1) by (intros; rewrite E, te_app, !te_scal; ring).
    rewrite (DL (tscal b q2 ++ tscal c q3) q2 q3 b c) by (intros; rewrite te_app, !te_scal; ring). ring. }
  rewrite tlap_e.
  rewrite (L3 tdx tdx_lin _ _ _ _ (A1 (along H) (fun _ _ _ => eq_refl))).
  rewrite (L3 tdy tdy_lin _ _ _ _ (A2 (along H) (fun _ _ _ => eq_refl))).
  rewrite (L3 tdz tdz_lin _ _ _ _ (A3 (along H) (fun _ _ _ => eq_refl))).
  (* the derivatives of the Laplacian *)
  assert (S3 : forall (D : tri -> tri), (forall p q r s t, (forall x y z, te p x y z = s * te q x y z + t * te r x y z) -> forall x y z, te (D p) x y z = s * te (D q) x y z + t * te (D r) x y z) ->
     forall x y z, te (D (tlap H)) x y z = te (D (tdx (tdx H))) x y z + te (D (tdy (tdy H))) x y z + te (D (tdz (tdz H))) x y z).
  { intros D DL x' y' z'. rewrite (DL (tlap H) (tdx (tdx H)) (tdy (tdy H) ++ tdz (tdz H)) 1 1) by (intros; rewrite tlap_e, te_app; ring).
    rewrite (DL (tdy (tdy H) ++ tdz (tdz H)) (tdy (tdy H)) (tdz (tdz H)) 1 1) by (intros; rewrite te_app; ring). ring. }
  specialize (Zx x y z). specialize (Zy x y z). specialize (Zz x y z). rewrite (S3 tdx tdx_lin) in Zx. rewrite (S3 tdy tdy_lin) in Zy. rewrite (S3 tdz tdz_lin) in Zz.
  rewrite (tdx_same (tdx (tdy H)) (tdy (tdx H))) in * by (apply tdxy).
  (* bring all third derivatives to a normal form *)
  assert (E1 : te (tdx (tdx (tdy H))) x y z = te (tdy (tdx (tdx H))) x y z) by (rewrite (tdx_same (tdx (tdy H)) (tdy (tdx H)) (tdxy H)); apply tdxy).
  assert (E2 : te (tdx (tdx (tdz H))) x y z = te (tdz (tdx (tdx H))) x y z) by (rewrite (tdx_same (tdx (tdz H)) (tdz (tdx H)) (tdxz H)); apply tdxz).
  assert (E3 : te (tdy (tdy (tdx H))) x y z = te (tdx (tdy (tdy H))) x y z) by (rewrite <- (tdy_same (tdx (tdy H)) (tdy (tdx H)) (tdxy H)); symmetry; apply tdxy).
  assert (E4 : te (tdy (tdy (tdz H))) x y z = te (tdz (tdy (tdy H))) x y z) by (rewrite (tdy_same (tdy (tdz H)) (tdz (tdy H)) (tdyz H)); apply tdyz).
  assert (E5 : te (tdz (tdz (tdx H))) x y z = te (tdx (tdz (tdz H))) x y z) by (rewrite <- (tdz_same (tdx (tdz H)) (tdz (tdx H)) (tdxz H)); symmetry; apply tdxz).
  assert (E6 : te (tdz (tdz (tdy H))) x y z = te (tdy (tdz (tdz H))) x y z) by (rewrite <- (tdz_same (tdy (tdz H)) (tdz (tdy H)) (tdyz H)); symmetry; apply tdyz).
  rewrite <- (tdx_same (tdx (tdy H)) (tdy (tdx H)) (tdxy H)), E1, E2, E3, E4, E5, E6.
  transitivity (a * (te (tdx (tdx (tdx H))) x y z + te (tdx (tdy (tdy H))) x y z + te (tdx (tdz (tdz H))) x y z)
    + b * (te (tdy (tdx (tdx H))) x y z + te (tdy (tdy (tdy H))) x y z + te (tdy (tdz (tdz H))) x y z)
    + c * (te (tdz (tdx (tdx H))) x y z + te (tdz (tdy (tdy H))) x y z + te (tdz (tdz (tdz H))) x y z)); [ring|]. rewrite Zx, Zy, Zz. ring.
Qed.

(** the coefficients *)
Definition cc (i l : nat) : R := 4 * PI * INR (fact (l + 2 * i)) / (2 ^ i * INR (fact i) * odf (S (i + l))).
Definition fh (n l : nat) : R := if (l <=? n)%nat && Nat.even (n - l) then cc (Nat.div2 (n - l)) l else 0.

Lemma fact_S n : INR (fact (S n)) = INR (S n) * INR (fact n).
Proof. cbn [fact]. rewrite <- mult_INR. reflexivity. Qed.
Lemma fact_pos n : 0 < INR (fact n).
Proof. apply lt_0_INR, lt_O_fact. Qed.

Lemma cc_i i l : INR (l + 2 * S i) * INR (pred (l + 2 * S i)) * cc i l = cc (S i) l * (2 * INR (S i) * (2 * INR (S i + l) + 1)).
Proof.
  unfold cc. replace (l + 2 * S i)%nat with (S (S (l + 2 * i))) by lia. cbn [pred]. rewrite !fact_S. change (odf (S (S i + l))) with ((2 * INR (S i + l) + 1) * odf (S i + l)).
  cbn [pow]. change (S i + l)%nat with (S (i + l)). pose proof (fact_pos i). pose proof (odf_pos (S (i + l))). pose proof (pos_INR (S (i + l))). assert (0 < 2 ^ i) by (apply pow_lt; lra).
  pose proof (lt_0_INR (S i) ltac:(lia)). field. repeat split; try lra.
Qed.

Lemma cc_l i l : INR (S l + 2 * i) * cc i l = cc i (S l) * (2 * INR (i + S l) + 1).
Proof.
  unfold cc. change (S l + 2 * i)%nat with (S (l + 2 * i)). rewrite fact_S. replace (i + S l)%nat with (S (i + l)) by lia. change (odf (S (S (i + l)))) with ((2 * INR (S (i + l)) + 1) * odf (S (i + l))).
  pose proof (fact_pos i). pose proof (odf_pos (S (i + l))). pose proof (pos_INR (S (i + l))). assert (0 < 2 ^ i) by (apply pow_lt; lra). field. repeat split; try lra.
Qed.

Lemma fh_yes i l : fh (l + 2 * i) l = cc i l.
Proof.
  unfold fh. destruct (Nat.leb_spec l (l + 2 * i)) as [_|C]; [|lia]. replace (l + 2 * i - l)%nat with (2 * i)%nat by lia. rewrite Nat.even_mul, Nat.div2_double. reflexivity.
Qed.

Lemma fh_rec n l : INR n * INR (pred n) * fh (pred (pred n)) l + 2 * INR n * (INR l * fh (pred n) (pred l)) = INR (n + l) * INR (S (n + l)) * fh n l.
Proof.
  destruct (((l <=? n)%nat && Nat.even (n - l))) eqn:E.
  - apply andb_prop in E. destruct E as (E1 & E2). apply Nat.leb_le in E1. apply even_div2 in E2. revert E2. generalize (Nat.div2 (n - l)). intros i E2. assert (E : n = (l + 2 * i)%nat) by lia. clear E1 E2. subst n. rewrite fh_yes.
    assert (T1 : INR (l + 2 * i) * INR (pred (l + 2 * i)) * fh (pred (pred (l + 2 * i))) l = cc i l * (2 * INR i * (2 * INR (i + l) + 1))).
    { destruct i as [|i'].
      - rewrite Nat.mul_0_r, Nat.add_0_r. destruct l as [|[|l]]; [cbn [INR]; ring|cbn [pred INR]; ring|]. cbn [pred]. unfold fh. destruct (Nat.leb_spec (S (S l)) l) as [C|_]; [lia|]. cbn [andb INR]. ring.
      - rewrite <- cc_i. replace (pred (pred (l + 2 * S i'))) with (l + 2 * i')%nat by lia. rewrite fh_yes. reflexivity. }
    assert (T2 : INR (l + 2 * i) * (INR l * fh (pred (l + 2 * i)) (pred l)) = INR l * (cc i l * (2 * INR (i + l) + 1))).
    { destruct l as [|l]; [cbn [INR]; ring|]. cbn [pred]. replace (pred (S l + 2 * i)) with (l + 2 * i)%nat by lia. rewrite fh_yes, <- cc_l. ring. }
    rewrite T1. apply (f_equal (Rmult 2)) in T2. rewrite <- Rmult_assoc in T2. rewrite T2. rewrite S_INR, !plus_INR, mult_INR. cbn [INR]. ring.
  - assert (Z0 : fh n l = 0) by (unfold fh; rewrite E; reflexivity). rewrite Z0.
    assert (Z1 : INR n * INR (pred n) * fh (pred (pred n)) l = 0).
    { destruct n as [|[|n]]; [cbn [INR]; ring|cbn [pred INR]; ring|]. cbn [pred]. unfold fh. destruct ((l <=? n)%nat && Nat.even (n - l)) eqn:E'; [|ring]. exfalso.
      apply andb_prop in E'. destruct E' as (E1 & E2). apply Nat.leb_le in E1. rewrite (proj2 (Nat.leb_le l (S (S n)))) in E by lia. replace (S (S n) - l)%nat with (S (S (n - l))) in E by lia. cbn [andb Nat.even] in E. congruence. }
    assert (Z2 : INR n * (INR l * fh (pred n) (pred l)) = 0).
    { destruct n as [|n]; [cbn [INR]; ring|]. destruct l as [|l]; [cbn [INR]; ring|]. cbn [pred]. unfold fh. cbn [Nat.leb Nat.sub] in E. rewrite E. ring. }
    rewrite Z1. apply (f_equal (Rmult 2)) in Z2. rewrite <- Rmult_assoc in Z2. rewrite Z2. ring.
Qed.

Lemma tint_const H x y z : homog 0 H -> tint H = 4 * PI * te H x y z.
Proof.
  induction H as [|(e, ((i, j), k)) H IH]; intros Hh; [cbn; ring|]. destruct (homog_cons _ _ _ Hh) as (_ & H2). specialize (Hh e i j k (or_introl eq_refl)). assert (i = 0 /\ j = 0 /\ k = 0)%nat as (-> & -> & ->) by lia.
  rewrite te_cons. unfold tint. rewrite lsum_cons. fold (tint H). rewrite (IH H2). unfold mv. cbn [even3 Nat.even andb Nat.div2 odf Nat.add INR pow]. field.
Qed.

Lemma hecke_tint : forall d n l, (n + l = d)%nat -> forall H, homog l H -> tharm H -> tint (F n H) = fh n l * te H a b c.
Proof.
  intros d. induction d as [d IH] using lt_wf_ind. intros n l Hd H Hh Hz.
  assert (R1 : tint (tlap (F n H)) = INR n * INR (pred n) * tint (F (pred (pred n)) H) + 2 * INR n * tint (F (pred n) (along H))).
  { transitivity (tint (tscal (INR n * INR (pred n)) (F (pred (pred n)) H) ++ tscal (2 * INR n) (F (pred n) (along H)))).
    - apply tint_same. intros x y z. rewrite F_lap, te_app, !te_scal. rewrite (F_e n (tlap H)), (Hz x y z). ring.
    - rewrite tint_app, !tint_scal. reflexivity. }
  rewrite (tint_lap (n + l)) in R1 by (apply F_homog, Hh).
  destruct (Nat.eq_dec d 0) as [E0|E0].
  - assert (n = 0 /\ l = 0)%nat as (-> & ->) by lia. rewrite (tint_same (F 0 H) H) by (intros; rewrite F_e; cbn [pow]; ring). rewrite (tint_const H a b c Hh). unfold fh, cc. cbn. field.
  - assert (P : 0 < INR (n + l) * INR (S (n + l))) by (apply Rmult_lt_0_compat; apply lt_0_INR; lia).
    assert (T1 : INR n * INR (pred n) * tint (F (pred (pred n)) H) = INR n * INR (pred n) * fh (pred (pred n)) l * te H a b c).
    { destruct n as [|[|n]]; [cbn [INR]; ring|cbn [pred INR]; ring|]. cbn [pred]. rewrite (IH (n + l)%nat ltac:(lia) n l eq_refl H Hh Hz). ring. }
    assert (T2 : INR n * tint (F (pred n) (along H)) = INR n * (INR l * fh (pred n) (pred l)) * te H a b c).
    { destruct n as [|n]; [cbn [INR]; ring|]. cbn [pred]. destruct l as [|l].
      - assert (Z0 : forall x y z, te (F n (along H)) x y z = te [] x y z).
        { intros. destruct (homog0_d H Hh) as (E1 & E2 & E3). rewrite F_e, along_e, E1, E2, E3, !te_nil. ring. }
        rewrite (tint_same _ _ Z0). cbn [INR]. unfold tint. cbn [lsum fold_right]. ring.
      - cbn [pred]. rewrite (IH (n + l)%nat ltac:(lia) n l eq_refl (along H) (along_homog l H Hh) (along_harm H Hz)). rewrite along_e.
        pose proof (tri_euler (S l) H a b c Hh) as EU. rewrite EU. ring. }
    rewrite T1 in R1. rewrite (Rmult_assoc 2), T2 in R1.
    apply (Rmult_eq_reg_l (INR (n + l) * INR (S (n + l)))); [|lra]. rewrite R1. rewrite <- (Rmult_assoc _ (fh n l)), <- fh_rec. ring.
Qed.

Theorem hecke n l H : homog l H -> tharm H -> sphere_int (fun x y z => (a * x + b * y + c * z) ^ n * te H x y z) (fh n l * te H a b c).
Proof.
  intros Hh Hz. rewrite <- (hecke_tint (n + l) n l eq_refl H Hh Hz). eapply sphere_ext; [|apply tint_ok]. intros x y z _. apply F_e.
Qed.

End Direction.
