(** * Polynomials in three variables and their integrals over the unit sphere *)

From Coq Require Import ZArith Reals Lra Lia List Bool.
From Coquelicot Require Import Coquelicot.
From Verif Require Import Base BinomProofs OneElModel OneElProofs OneElInt Sums SphModel SphSpec SphPoly SphProofs SphInt SphOrtho SphAngular SphHarm.
Import ListNotations.
Open Scope R_scope.

(** sums of terms c x^i y^j z^k *)
Definition tri := list (R * (nat * nat * nat)).

Definition te (p : tri) (x y z : R) : R := lsum (fun '(c, (i, j, k)) => c * (x ^ i * y ^ j * z ^ k)) p.

Lemma te_nil x y z : te [] x y z = 0.
Proof. reflexivity. Qed.
Lemma te_cons c i j k p x y z : te ((c, (i, j, k)) :: p) x y z = c * (x ^ i * y ^ j * z ^ k) + te p x y z.
Proof. reflexivity. Qed.
Lemma te_app p q x y z : te (p ++ q) x y z = te p x y z + te q x y z.
Proof. apply lsum_app. Qed.

(** ** Integrals *)

Definition mv (i j k : nat) : R :=
  if even3 i j k then 4 * PI * odf (Nat.div2 i) * odf (Nat.div2 j) * odf (Nat.div2 k) / odf (S (Nat.div2 i + Nat.div2 j + Nat.div2 k)) else 0.

Lemma even_div2 n : Nat.even n = true -> n = (2 * Nat.div2 n)%nat.
Proof. intros H. pose proof (Nat.div2_odd n) as E. rewrite <- Nat.negb_even, H in E. cbn [negb Nat.b2n] in E. lia. Qed.

Lemma mv_int i j k : sphere_int (mono3 i j k) (mv i j k).
Proof.
  unfold mv, even3. destruct (Nat.even i) eqn:Ei; [destruct (Nat.even j) eqn:Ej; [destruct (Nat.even k) eqn:Ek|]|]; cbn [andb].
  - rewrite (even_div2 i Ei) at 1. rewrite (even_div2 j Ej) at 1. rewrite (even_div2 k Ek) at 1. apply mono3_even.
  - apply mono3_odd. right. right. rewrite <- Nat.negb_even, Ek. reflexivity.
  - apply mono3_odd. right. left. rewrite <- Nat.negb_even, Ej. reflexivity.
  - apply mono3_odd. left. rewrite <- Nat.negb_even, Ei. reflexivity.
Qed.

Definition tint (p : tri) : R := lsum (fun '(c, (i, j, k)) => c * mv i j k) p.

Lemma tint_ok p : sphere_int (te p) (tint p).
Proof.
  eapply sphere_ext; [|apply (sphere_lsum p (fun m x y z => match m with (c, (i, j, k)) => c * mono3 i j k x y z end) (fun m => match m with (c, (i, j, k)) => c * mv i j k end))].
  - intros x y z _. unfold te. apply lsum_ext. intros (c, ((i, j), k)) _. reflexivity.
  - intros (c, ((i, j), k)) _. apply sphere_scal, mv_int.
Qed.

Lemma tint_same p q : (forall x y z, te p x y z = te q x y z) -> tint p = tint q.
Proof. intros H. apply (sphere_uniq (te q)); [|apply tint_ok]. eapply sphere_ext; [|apply tint_ok]. intros. apply H. Qed.

Lemma tint_app p q : tint (p ++ q) = tint p + tint q.
Proof. apply lsum_app. Qed.

(** ** Derivatives *)
Definition d1 (m : R * (nat * nat * nat)) : tri := let '(c, (i, j, k)) := m in match i with O => [] | S i' => [(c * INR i, (i', j, k))] end.
Definition d2 (m : R * (nat * nat * nat)) : tri := let '(c, (i, j, k)) := m in match j with O => [] | S j' => [(c * INR j, (i, j', k))] end.
Definition d3' (m : R * (nat * nat * nat)) : tri := let '(c, (i, j, k)) := m in match k with O => [] | S k' => [(c * INR k, (i, j, k'))] end.
Definition tdx (p : tri) : tri := flat_map d1 p.
Definition tdy (p : tri) : tri := flat_map d2 p.
Definition tdz (p : tri) : tri := flat_map d3' p.
Definition tlap (p : tri) : tri := tdx (tdx p) ++ tdy (tdy p) ++ tdz (tdz p).

Lemma pow_der_S i t : is_derive (fun s => s ^ S i) t (INR (S i) * t ^ i).
Proof. apply (pow_der (S i)). Qed.

Lemma der_plus (f g : R -> R) x (u v : R) : is_derive f x u -> is_derive g x v -> is_derive (fun t => f t + g t) x (u + v).
Proof. intros Hf Hg. apply (is_derive_plus (K := R_AbsRing) (V := R_NormedModule)); assumption. Qed.

Lemma der_val (f : R -> R) x (u v : R) : is_derive f x u -> u = v -> is_derive f x v.
Proof. intros H <-. exact H. Qed.

Lemma der_fun (f g : R -> R) x (u : R) : (forall t, f t = g t) -> is_derive f x u -> is_derive g x u.
Proof. intros E. apply is_derive_ext. exact E. Qed.

Lemma der_zero x : is_derive (fun _ : R => 0) x 0.
Proof. apply (is_derive_const (K := R_AbsRing) (V := R_NormedModule)). Qed.

Lemma tdx_ok p x y z : is_derive (fun t => te p t y z) x (te (tdx p) x y z).
Proof.
  induction p as [|(c, ((i, j), k)) p IH]; [apply der_zero|].
  unfold tdx. cbn [flat_map]. rewrite te_app. apply (der_plus (fun t => c * (t ^ i * y ^ j * z ^ k)) (fun t => te p t y z)); [|exact IH].
  cbn [d1]. destruct i as [|i].
  - eapply der_val; [eapply der_fun; [|apply (is_derive_const (K := R_AbsRing) (V := R_NormedModule) (c * (1 * y ^ j * z ^ k)))]; reflexivity|reflexivity].
  - rewrite te_cons, te_nil. eapply der_val; [eapply der_fun; [|apply (is_derive_scal (fun t => t ^ S i) x (c * y ^ j * z ^ k)), pow_der_S]|].
    + intros t. cbv beta. ring.
    + ring.
Qed.

Lemma tdy_ok p x y z : is_derive (fun t => te p x t z) y (te (tdy p) x y z).
Proof.
  induction p as [|(c, ((i, j), k)) p IH]; [apply der_zero|].
  unfold tdy. cbn [flat_map]. rewrite te_app. apply (der_plus (fun t => c * (x ^ i * t ^ j * z ^ k)) (fun t => te p x t z)); [|exact IH].
  cbn [d2]. destruct j as [|j].
  - eapply der_val; [eapply der_fun; [|apply (is_derive_const (K := R_AbsRing) (V := R_NormedModule) (c * (x ^ i * 1 * z ^ k)))]; reflexivity|reflexivity].
  - rewrite te_cons, te_nil. eapply der_val; [eapply der_fun; [|apply (is_derive_scal (fun t => t ^ S j) y (c * x ^ i * z ^ k)), pow_der_S]|].
    + intros t. cbv beta. ring.
    + ring.
Qed.

Lemma tdz_ok p x y z : is_derive (fun t => te p x y t) z (te (tdz p) x y z).
Proof.
  induction p as [|(c, ((i, j), k)) p IH]; [apply der_zero|].
  unfold tdz. cbn [flat_map]. rewrite te_app. apply (der_plus (fun t => c * (x ^ i * y ^ j * t ^ k)) (fun t => te p x y t)); [|exact IH].
  cbn [d3']. destruct k as [|k].
  - eapply der_val; [eapply der_fun; [|apply (is_derive_const (K := R_AbsRing) (V := R_NormedModule) (c * (x ^ i * y ^ j * 1)))]; reflexivity|reflexivity].
  - rewrite te_cons, te_nil. eapply der_val; [eapply der_fun; [|apply (is_derive_scal (fun t => t ^ S k) z (c * x ^ i * y ^ j)), pow_der_S]|].
    + intros t. cbv beta. ring.
    + ring.
Qed.

Lemma der_uniq (f : R -> R) x (u v : R) : is_derive f x u -> is_derive f x v -> u = v.
Proof. intros H1 H2. rewrite <- (is_derive_unique f x u H1). apply is_derive_unique, H2. Qed.

(** equal polynomials have equal derivatives *)
Lemma tdx_same p q : (forall x y z, te p x y z = te q x y z) -> forall x y z, te (tdx p) x y z = te (tdx q) x y z.
Proof. intros H x y z. apply (der_uniq (fun t => te p t y z) x); [apply tdx_ok|]. eapply der_fun; [|apply tdx_ok]. intros t. symmetry. apply H. Qed.
Lemma tdy_same p q : (forall x y z, te p x y z = te q x y z) -> forall x y z, te (tdy p) x y z = te (tdy q) x y z.
Proof. intros H x y z. apply (der_uniq (fun t => te p x t z) y); [apply tdy_ok|]. eapply der_fun; [|apply tdy_ok]. intros t. symmetry. apply H. Qed.
Lemma tdz_same p q : (forall x y z, te p x y z = te q x y z) -> forall x y z, te (tdz p) x y z = te (tdz q) x y z.
Proof. intros H x y z. apply (der_uniq (fun t => te p x y t) z); [apply tdz_ok|]. eapply der_fun; [|apply tdz_ok]. intros t. symmetry. apply H. Qed.

Lemma tlap_e p x y z : te (tlap p) x y z = te (tdx (tdx p)) x y z + te (tdy (tdy p)) x y z + te (tdz (tdz p)) x y z.
Proof. unfold tlap. rewrite !te_app. ring. Qed.

Lemma tlap_same p q : (forall x y z, te p x y z = te q x y z) -> forall x y z, te (tlap p) x y z = te (tlap q) x y z.
Proof.
  intros H x y z. rewrite !tlap_e. rewrite (tdx_same (tdx p) (tdx q) (tdx_same p q H)), (tdy_same (tdy p) (tdy q) (tdy_same p q H)), (tdz_same (tdz p) (tdz q) (tdz_same p q H)). reflexivity.
Qed.

(** mixed derivatives *)
Lemma tdxy p x y z : te (tdx (tdy p)) x y z = te (tdy (tdx p)) x y z.
Proof.
  induction p as [|(c, ((i, j), k)) p IH]; [reflexivity|]. unfold tdx, tdy in *. cbn [flat_map]. rewrite !flat_map_app, !te_app, IH. f_equal.
  destruct i, j; cbn [d1 d2 flat_map app]; rewrite ?te_cons, ?te_nil; ring.
Qed.
Lemma tdxz p x y z : te (tdx (tdz p)) x y z = te (tdz (tdx p)) x y z.
Proof.
  induction p as [|(c, ((i, j), k)) p IH]; [reflexivity|]. unfold tdx, tdz in *. cbn [flat_map]. rewrite !flat_map_app, !te_app, IH. f_equal.
  destruct i, k; cbn [d1 d3' flat_map app]; rewrite ?te_cons, ?te_nil; ring.
Qed.
Lemma tdyz p x y z : te (tdy (tdz p)) x y z = te (tdz (tdy p)) x y z.
Proof.
  induction p as [|(c, ((i, j), k)) p IH]; [reflexivity|]. unfold tdy, tdz in *. cbn [flat_map]. rewrite !flat_map_app, !te_app, IH. f_equal.
  destruct j, k; cbn [d2 d3' flat_map app]; rewrite ?te_cons, ?te_nil; ring.
Qed.

(** ** Homogeneous polynomials *)
Definition homog (d : nat) (p : tri) : Prop := forall c i j k, In (c, (i, j, k)) p -> (i + j + k = d)%nat.

Lemma homog_cons d m p : homog d (m :: p) -> homog d [m] /\ homog d p.
Proof. intros H. split; intros c i j k Hi; apply (H c); [destruct Hi as [->|[]]; left; reflexivity|right; exact Hi]. Qed.
Lemma homog_app d p q : homog d p -> homog d q -> homog d (p ++ q).
Proof. intros H1 H2 c i j k Hi. apply in_app_or in Hi. destruct Hi; [apply (H1 c)|apply (H2 c)]; assumption. Qed.

Lemma homog_dx d p : homog (S d) p -> homog d (tdx p).
Proof.
  intros H c i j k Hi. apply in_flat_map in Hi. destruct Hi as ((c', ((i', j'), k')) & Hm & Hi). specialize (H _ _ _ _ Hm). cbn [d1] in Hi. destruct i' as [|i']; [destruct Hi|]. destruct Hi as [E|[]]. injection E as <- <- <- <-. lia.
Qed.
Lemma homog_dy d p : homog (S d) p -> homog d (tdy p).
Proof.
  intros H c i j k Hi. apply in_flat_map in Hi. destruct Hi as ((c', ((i', j'), k')) & Hm & Hi). specialize (H _ _ _ _ Hm). cbn [d2] in Hi. destruct j' as [|j']; [destruct Hi|]. destruct Hi as [E|[]]. injection E as <- <- <- <-. lia.
Qed.
Lemma homog_dz d p : homog (S d) p -> homog d (tdz p).
Proof.
  intros H c i j k Hi. apply in_flat_map in Hi. destruct Hi as ((c', ((i', j'), k')) & Hm & Hi). specialize (H _ _ _ _ Hm). cbn [d3'] in Hi. destruct k' as [|k']; [destruct Hi|]. destruct Hi as [E|[]]. injection E as <- <- <- <-. lia.
Qed.
Lemma homog0_d p : homog 0 p -> tdx p = [] /\ tdy p = [] /\ tdz p = [].
Proof.
  induction p as [|(c, ((i, j), k)) p IH]; intros H; [repeat split|]. destruct (homog_cons _ _ _ H) as (H1 & H2). destruct (IH H2) as (E1 & E2 & E3).
  specialize (H c i j k (or_introl eq_refl)). unfold tdx, tdy, tdz in *. cbn [flat_map]. rewrite E1, E2, E3. destruct i, j, k; try lia. repeat split; reflexivity.
Qed.

(** Euler's relation *)
Lemma tri_euler d p x y z : homog d p -> x * te (tdx p) x y z + y * te (tdy p) x y z + z * te (tdz p) x y z = INR d * te p x y z.
Proof.
  induction p as [|(c, ((i, j), k)) p IH]; intros H; [cbn; ring|]. destruct (homog_cons _ _ _ H) as (_ & H2). specialize (IH H2). specialize (H c i j k (or_introl eq_refl)). subst d.
  unfold tdx, tdy, tdz in *. cbn [flat_map]. rewrite !te_app, te_cons, !Rmult_plus_distr_l, <- IH, !plus_INR.
  assert (E1 : x * te (d1 (c, (i, j, k))) x y z = INR i * (c * (x ^ i * y ^ j * z ^ k))) by (destruct i; cbn [d1]; rewrite ?te_cons, ?te_nil; [cbn [INR]; ring|cbn [pow]; ring]).
  assert (E2 : y * te (d2 (c, (i, j, k))) x y z = INR j * (c * (x ^ i * y ^ j * z ^ k))) by (destruct j; cbn [d2]; rewrite ?te_cons, ?te_nil; [cbn [INR]; ring|cbn [pow]; ring]).
  assert (E3 : z * te (d3' (c, (i, j, k))) x y z = INR k * (c * (x ^ i * y ^ j * z ^ k))) by (destruct k; cbn [d3']; rewrite ?te_cons, ?te_nil; [cbn [INR]; ring|cbn [pow]; ring]).
  rewrite E1, E2, E3. ring.
Qed.

(** the Laplacian of a monomial *)
Definition D2 (i : nat) (f : nat -> R) : R := match i with S (S i') => INR i * INR (S i') * f i' | _ => 0 end.

Lemma D2_even a (G : nat -> R) (f : nat -> R) : (forall a', f (2 * a')%nat = odf a' * G a') -> D2 (2 * a) f = 2 * INR a * (odf a * G (pred a)).
Proof.
  intros H. destruct a as [|a]; [cbn; ring|]. replace (2 * S a)%nat with (S (S (2 * a))) by lia. cbn [D2 pred odf]. rewrite H, !S_INR, INR_dbl. ring.
Qed.

Lemma mv_lap i j k : D2 i (fun i' => mv i' j k) + D2 j (fun j' => mv i j' k) + D2 k (fun k' => mv i j k') = INR (i + j + k) * INR (S (i + j + k)) * mv i j k.
Proof.
  destruct (even3 i j k) eqn:E3.
  - unfold even3 in E3. apply andb_prop in E3. destruct E3 as (E3 & Ek). apply andb_prop in E3. destruct E3 as (Ei & Ej).
    rewrite (even_div2 i Ei), (even_div2 j Ej), (even_div2 k Ek). generalize (Nat.div2 i) (Nat.div2 j) (Nat.div2 k). intros a b c.
    assert (M : forall a b c, mv (2 * a) (2 * b) (2 * c) = 4 * PI * odf a * odf b * odf c / odf (S (a + b + c))).
    { clear. intros a b c. unfold mv, even3. assert (E : forall n, Nat.even (2 * n) = true) by (intros; rewrite Nat.even_mul; reflexivity). rewrite !E. cbn [andb]. rewrite !Nat.div2_double. reflexivity. }
    rewrite (D2_even a (fun a' => 4 * PI * odf b * odf c / odf (S (a' + b + c)))) by (intros; rewrite M; unfold Rdiv; ring).
    rewrite (D2_even b (fun b' => 4 * PI * odf a * odf c / odf (S (a + b' + c)))) by (intros; rewrite M; unfold Rdiv; ring).
    rewrite (D2_even c (fun c' => 4 * PI * odf a * odf b / odf (S (a + b + c')))) by (intros; rewrite M; unfold Rdiv; ring).
    rewrite M. set (s := (a + b + c)%nat).
    assert (P : forall n (W : R), (n = 0 \/ S (pred n) = n)%nat -> forall t, (t = s)%nat -> 2 * INR n * (odf n * (W / odf t)) = 2 * INR n * (odf n * (W / odf s))) by (intros; subst; reflexivity).
    assert (Q1 : 2 * INR a * (odf a * (4 * PI * odf b * odf c / odf (S (pred a + b + c)))) = 2 * INR a * (4 * PI * odf a * odf b * odf c / odf s)).
    { destruct a as [|a']; [cbn [INR]; ring|]. cbn [pred]. replace (S (a' + b + c)) with s by (unfold s; lia). unfold Rdiv. ring. }
    assert (Q2 : 2 * INR b * (odf b * (4 * PI * odf a * odf c / odf (S (a + pred b + c)))) = 2 * INR b * (4 * PI * odf a * odf b * odf c / odf s)).
    { destruct b as [|b']; [cbn [INR]; ring|]. cbn [pred]. replace (S (a + b' + c)) with s by (unfold s; lia). unfold Rdiv. ring. }
    assert (Q3 : 2 * INR c * (odf c * (4 * PI * odf a * odf b / odf (S (a + b + pred c)))) = 2 * INR c * (4 * PI * odf a * odf b * odf c / odf s)).
    { destruct c as [|c']; [cbn [INR]; ring|]. cbn [pred]. replace (S (a + b + c')) with s by (unfold s; lia). unfold Rdiv. ring. }
    rewrite Q1, Q2, Q3. replace (2 * a + 2 * b + 2 * c)%nat with (2 * s)%nat by (unfold s; lia). rewrite S_INR, INR_dbl. cbn [odf].
    pose proof (odf_pos s). pose proof (pos_INR s). assert (Es : INR s = INR a + INR b + INR c) by (unfold s; rewrite !plus_INR; reflexivity). rewrite Es in *. field. split; [lra|]. lra.
  - assert (Z1 : mv i j k = 0) by (unfold mv; rewrite E3; reflexivity). rewrite Z1.
    assert (X : forall n f, (forall n', n = S (S n') -> f n' = 0) -> D2 n f = 0) by (intros n f H; destruct n as [|[|n]]; cbn; [reflexivity..|]; rewrite (H n eq_refl); ring).
    rewrite !X; [ring|..]; intros n' ->; unfold mv; replace (even3 _ _ _) with false; try reflexivity; symmetry; exact E3.
Qed.

(** the integral of the Laplacian of a homogeneous polynomial *)
Lemma tint_lap d p : homog d p -> tint (tlap p) = INR d * INR (S d) * tint p.
Proof.
  intros H. induction p as [|(c, ((i, j), k)) p IH]; [cbn; ring|]. destruct (homog_cons _ _ _ H) as (_ & H2). specialize (IH H2). specialize (H c i j k (or_introl eq_refl)).
  assert (E : tint (tlap ((c, (i, j, k)) :: p)) = c * (D2 i (fun i' => mv i' j k) + D2 j (fun j' => mv i j' k) + D2 k (fun k' => mv i j k')) + tint (tlap p)).
  { unfold tlap, tdx, tdy, tdz. cbn [flat_map]. rewrite !flat_map_app, !tint_app.
    assert (T1 : tint (flat_map d1 (d1 (c, (i, j, k)))) = c * D2 i (fun i' => mv i' j k)) by (destruct i as [|[|i]]; cbn [d1 flat_map app D2]; unfold tint; rewrite ?lsum_cons; cbn [lsum fold_right]; try ring; rewrite !S_INR; ring).
    assert (T2 : tint (flat_map d2 (d2 (c, (i, j, k)))) = c * D2 j (fun j' => mv i j' k)) by (destruct j as [|[|j]]; cbn [d2 flat_map app D2]; unfold tint; rewrite ?lsum_cons; cbn [lsum fold_right]; try ring; rewrite !S_INR; ring).
    assert (T3 : tint (flat_map d3' (d3' (c, (i, j, k)))) = c * D2 k (fun k' => mv i j k')) by (destruct k as [|[|k]]; cbn [d3' flat_map app D2]; unfold tint; rewrite ?lsum_cons; cbn [lsum fold_right]; try ring; rewrite !S_INR; ring).
    rewrite T1, T2, T3. ring. }
  rewrite E, mv_lap, IH, H. unfold tint. rewrite lsum_cons. ring.
Qed.
