(** * The polynomials of the coefficient tables are harmonic *)

From Coq Require Import ZArith Reals Lra Lia List Bool.
From Coquelicot Require Import Coquelicot.
From Verif Require Import Base BinomProofs CartModel CartProofs OneElModel OneElProofs OneElInt GaussInt Sums SphModel SphSpec SphPoly SphProofs SphTables SphInt.
Import ListNotations.
Open Scope R_scope.

(** a function with its partial derivatives and its Laplacian *)
Definition has_lap (f lap : R -> R -> R -> R) : Prop :=
  exists fx fy fz fxx fyy fzz : R -> R -> R -> R, forall x y z,
    is_derive (fun t => f t y z) x (fx x y z) /\ is_derive (fun t => fx t y z) x (fxx x y z) /\
    is_derive (fun t => f x t z) y (fy x y z) /\ is_derive (fun t => fy x t z) y (fyy x y z) /\
    is_derive (fun t => f x y t) z (fz x y z) /\ is_derive (fun t => fz x y t) z (fzz x y z) /\
    fxx x y z + fyy x y z + fzz x y z = lap x y z.

Lemma lap_harmonic f lap : has_lap f lap -> (forall x y z, lap x y z = 0) -> harmonic f.
Proof.
  intros (fx & fy & fz & fxx & fyy & fzz & H) Z. exists fx, fy, fz, fxx, fyy, fzz. intros x y z. rewrite <- (Z x y z). apply H.
Qed.

Lemma der_lin (f g : R -> R) x a b (u v : R) : is_derive f x u -> is_derive g x v -> is_derive (fun t => a * f t + b * g t) x (a * u + b * v).
Proof. intros Hf Hg. apply (is_derive_plus (K := R_AbsRing) (V := R_NormedModule) (fun t => a * f t) (fun t => b * g t)); apply is_derive_scal; assumption. Qed.

Lemma lap_lin f g p q a b : has_lap f p -> has_lap g q -> has_lap (fun x y z => a * f x y z + b * g x y z) (fun x y z => a * p x y z + b * q x y z).
Proof.
  intros (fx & fy & fz & fxx & fyy & fzz & H) (gx & gy & gz & gxx & gyy & gzz & G).
  exists (fun x y z => a * fx x y z + b * gx x y z), (fun x y z => a * fy x y z + b * gy x y z), (fun x y z => a * fz x y z + b * gz x y z),
    (fun x y z => a * fxx x y z + b * gxx x y z), (fun x y z => a * fyy x y z + b * gyy x y z), (fun x y z => a * fzz x y z + b * gzz x y z).
  intros x y z. destruct (H x y z) as (h1 & h2 & h3 & h4 & h5 & h6 & h7). destruct (G x y z) as (g1 & g2 & g3 & g4 & g5 & g6 & g7).
  repeat (split; [apply der_lin; assumption|]). rewrite <- h7, <- g7. ring.
Qed.

Lemma lap_ext f g p q : (forall x y z, f x y z = g x y z) -> (forall x y z, p x y z = q x y z) -> has_lap f p -> has_lap g q.
Proof.
  intros E E' (fx & fy & fz & fxx & fyy & fzz & H). exists fx, fy, fz, fxx, fyy, fzz. intros x y z. destruct (H x y z) as (h1 & h2 & h3 & h4 & h5 & h6 & h7).
  split; [eapply is_derive_ext; [|exact h1]; intros; apply E|]. split; [exact h2|].
  split; [eapply is_derive_ext; [|exact h3]; intros; apply E|]. split; [exact h4|].
  split; [eapply is_derive_ext; [|exact h5]; intros; apply E|]. split; [exact h6|]. rewrite h7. apply E'.
Qed.

Lemma lap_zero : has_lap (fun _ _ _ => 0) (fun _ _ _ => 0).
Proof.
  exists (fun _ _ _ => 0), (fun _ _ _ => 0), (fun _ _ _ => 0), (fun _ _ _ => 0), (fun _ _ _ => 0), (fun _ _ _ => 0). intros x y z.
  repeat (split; [apply (is_derive_const (K := R_AbsRing) (V := R_NormedModule))|]). ring.
Qed.

Lemma lap_rsum n (f p : nat -> R -> R -> R -> R) : (forall i, (i < n)%nat -> has_lap (f i) (p i)) -> has_lap (fun x y z => rsum n (fun i => f i x y z)) (fun x y z => rsum n (fun i => p i x y z)).
Proof.
  induction n as [|n IH]; intros H; [exact lap_zero|]. cbn [rsum].
  eapply lap_ext; [| |apply (lap_lin _ _ _ _ 1 1 (IH (fun i Hi => H i ltac:(lia))) (H n ltac:(lia)))]; intros; cbv beta; ring.
Qed.

(** real and imaginary part of (x + i y)^mu *)
Definition tx (sg : bool) (mu : nat) (x y : R) : R := INR mu * tpart sg (pred mu) x y.
Definition ty (sg : bool) (mu : nat) (x y : R) : R := if sg then INR mu * tpart false (pred mu) x y else - (INR mu * tpart true (pred mu) x y).

Ltac rr := match goal with |- ?a = ?b => change (@eq R a b) end; ring.

Lemma re_im_der mu x y :
  is_derive (fun t => fst (re_im_pow mu t y)) x (INR mu * fst (re_im_pow (pred mu) x y)) /\
  is_derive (fun t => snd (re_im_pow mu t y)) x (INR mu * snd (re_im_pow (pred mu) x y)) /\
  is_derive (fun t => fst (re_im_pow mu x t)) y (- (INR mu * snd (re_im_pow (pred mu) x y))) /\
  is_derive (fun t => snd (re_im_pow mu x t)) y (INR mu * fst (re_im_pow (pred mu) x y)).
Proof.
  induction mu as [|mu (I1 & I2 & I3 & I4)].
  - cbn. repeat split; (eapply is_derive_eq; [apply (is_derive_const (K := R_AbsRing) (V := R_NormedModule))|]); unfold zero; cbn; ring.
  - assert (E1 : forall x y, fst (re_im_pow (S mu) x y) = x * fst (re_im_pow mu x y) - y * snd (re_im_pow mu x y)) by (intros a b; cbn [re_im_pow]; destruct (re_im_pow mu a b); reflexivity).
    assert (E2 : forall x y, snd (re_im_pow (S mu) x y) = x * snd (re_im_pow mu x y) + y * fst (re_im_pow mu x y)) by (intros a b; cbn [re_im_pow]; destruct (re_im_pow mu a b); reflexivity).
    cbn [pred]. rewrite S_INR.
    (* mu * z * z^(mu-1) = mu * z^mu *)
    assert (M : INR mu * (x * fst (re_im_pow (pred mu) x y) - y * snd (re_im_pow (pred mu) x y)) = INR mu * fst (re_im_pow mu x y) /\
                INR mu * (x * snd (re_im_pow (pred mu) x y) + y * fst (re_im_pow (pred mu) x y)) = INR mu * snd (re_im_pow mu x y)).
    { destruct mu as [|k]; [cbn; split; ring|]. cbn [pred re_im_pow]. destruct (re_im_pow k x y). cbn [fst snd]. split; ring. }
    destruct M as (M1 & M2).
    set (A := fun x y => fst (re_im_pow mu x y)) in *. set (B := fun x y => snd (re_im_pow mu x y)) in *.
    change (fst (re_im_pow mu x y)) with (A x y) in *. change (snd (re_im_pow mu x y)) with (B x y) in *.
    set (a := fst (re_im_pow (pred mu) x y)) in *. set (b := snd (re_im_pow (pred mu) x y)) in *.
    assert (J1 : is_derive (fun t => A t y) x (INR mu * a)) by exact I1. assert (J2 : is_derive (fun t => B t y) x (INR mu * b)) by exact I2.
    assert (J3 : is_derive (fun t => A x t) y (- (INR mu * b))) by exact I3. assert (J4 : is_derive (fun t => B x t) y (INR mu * a)) by exact I4.
    assert (U : forall (f g : R -> R) t c d u v, is_derive f t u -> is_derive g t v -> is_derive (fun s => s * f s + c * g s + d) t (f t + t * u + c * v)).
    { intros f g t c d u v Hf Hg. eapply is_derive_eq; [auto_derive; [repeat split; eexists; eassumption|reflexivity]|].
      change (fun x0 : R => f x0) with f. change (fun x0 : R => g x0) with g. rewrite (is_derive_unique f t u Hf), (is_derive_unique g t v Hg). ring. }
    split; [|split; [|split]].
    + eapply is_derive_ext; [intros t; symmetry; apply E1|]. apply (is_derive_ext (fun t => t * A t y + (- y) * B t y + 0)); [intros t; unfold A, B; rr|].
      eapply is_derive_eq; [apply (U _ _ x (- y) 0 _ _ J1 J2)|]. lra.
    + eapply is_derive_ext; [intros t; symmetry; apply E2|]. apply (is_derive_ext (fun t => t * B t y + y * A t y + 0)); [intros t; unfold A, B; rr|].
      eapply is_derive_eq; [apply (U _ _ x y 0 _ _ J2 J1)|]. lra.
    + eapply is_derive_ext; [intros t; symmetry; apply E1|]. apply (is_derive_ext (fun t => - 1 * (t * B x t + (- x) * A x t + 0))); [intros t; unfold A, B; rr|].
      eapply is_derive_eq; [apply (is_derive_scal _ y (-1)); apply (U _ _ y (- x) 0 _ _ J4 J3)|]. unfold scal, mult; cbn. unfold mult; cbn. lra.
    + eapply is_derive_ext; [intros t; symmetry; apply E2|]. apply (is_derive_ext (fun t => t * A x t + x * B x t + 0)); [intros t; unfold A, B; rr|].
      eapply is_derive_eq; [apply (U _ _ y x 0 _ _ J3 J4)|]. lra. 
  Unshelve. all: exact 0.
Qed.

Lemma tpart_x sg mu x y : is_derive (fun t => tpart sg mu t y) x (tx sg mu x y).
Proof. destruct (re_im_der mu x y) as (A & B & C & D). unfold tpart, tx, tpart. destruct sg; assumption. Qed.
Lemma tpart_y sg mu x y : is_derive (fun t => tpart sg mu x t) y (ty sg mu x y).
Proof. destruct (re_im_der mu x y) as (A & B & C & D). unfold tpart, ty, tpart. destruct sg; assumption. Qed.

Lemma euler sg mu x y : x * tx sg mu x y + y * ty sg mu x y = INR mu * tpart sg mu x y.
Proof.
  unfold tx, ty, tpart. destruct mu as [|k]; [cbn [INR]; destruct sg; ring|]. cbn [pred re_im_pow]. destruct (re_im_pow k x y) as [a b]. destruct sg; cbn [fst snd]; ring.
Qed.

Definition txx (sg : bool) (mu : nat) (x y : R) : R := INR mu * tx sg (pred mu) x y.
Definition tyy (sg : bool) (mu : nat) (x y : R) : R := if sg then INR mu * ty false (pred mu) x y else - (INR mu * ty true (pred mu) x y).
Lemma tx_x sg mu x y : is_derive (fun t => tx sg mu t y) x (txx sg mu x y).
Proof. unfold tx, txx. apply (is_derive_scal). apply tpart_x. Qed.
Lemma ty_y sg mu x y : is_derive (fun t => ty sg mu x t) y (tyy sg mu x y).
Proof.
  unfold ty, tyy. destruct sg; [apply (is_derive_scal); apply tpart_y|].
  apply (is_derive_opp (K := R_AbsRing) (V := R_NormedModule)). apply (is_derive_scal). apply tpart_y.
Qed.
Lemma t_harm sg mu x y : txx sg mu x y + tyy sg mu x y = 0.
Proof. unfold txx, tyy, tx, ty. destruct sg; ring. Qed.

(** one term z^a (x^2+y^2+z^2)^i T *)
Definition term (sg : bool) (mu a i : nat) (x y z : R) : R := z ^ a * (x ^ 2 + y ^ 2 + z ^ 2) ^ i * tpart sg mu x y.
Definition term_lap (sg : bool) (mu a i : nat) (x y z : R) : R :=
  2 * INR i * (2 * INR i + 1 + 2 * INR a + 2 * INR mu) * term sg mu a (pred i) x y z + INR a * INR (pred a) * term sg mu (pred (pred a)) i x y z.

(** powers of a quadratic *)
Lemma q_der i c t : is_derive (fun s => (s ^ 2 + c) ^ i) t (2 * INR i * t * (t ^ 2 + c) ^ pred i).
Proof.
  eapply is_derive_eq; [auto_derive; first [exact I|reflexivity]|]. replace (t * (t * 1) + c) with (t ^ 2 + c) by ring. ring.
Qed.
Lemma q_der2 i c t : is_derive (fun s => 2 * INR i * s * (s ^ 2 + c) ^ pred i) t (2 * INR i * (t ^ 2 + c) ^ pred i + 4 * INR i * INR (pred i) * t ^ 2 * (t ^ 2 + c) ^ pred (pred i)).
Proof.
  pose proof (q_der (pred i) c t) as H. set (g := fun s => (s ^ 2 + c) ^ pred i) in *.
  eapply is_derive_ext; [intros s; change ((s ^ 2 + c) ^ pred i) with (g s); reflexivity|]. change ((t ^ 2 + c) ^ pred i) with (g t).
  eapply is_derive_eq; [auto_derive; [eexists; exact H|reflexivity]|]. change (fun x : R => g x) with g. rewrite (is_derive_unique g t _ H). ring.
Qed.

Lemma prod_der (f g f' g' : R -> R) t f2 g2 : (forall s, is_derive f s (f' s)) -> (forall s, is_derive g s (g' s)) -> is_derive f' t f2 -> is_derive g' t g2 ->
  is_derive (fun s => f s * g s) t (f' t * g t + f t * g' t) /\ is_derive (fun s => f' s * g s + f s * g' s) t (f2 * g t + 2 * (f' t * g' t) + f t * g2).
Proof.
  intros Hf Hg Hf' Hg'. pose proof (Hf t) as Ft. pose proof (Hg t) as Gt. split.
  - eapply is_derive_eq; [auto_derive; [repeat split; eexists; eassumption|reflexivity]|]. change (fun x : R => f x) with f. change (fun x : R => g x) with g.
    rewrite (is_derive_unique f t _ Ft), (is_derive_unique g t _ Gt). ring.
  - eapply is_derive_eq; [auto_derive; [repeat split; eexists; eassumption|reflexivity]|]. change (fun x : R => f x) with f. change (fun x : R => g x) with g.
    change (fun x : R => f' x) with f'. change (fun x : R => g' x) with g'.
    rewrite (is_derive_unique f t _ Ft), (is_derive_unique g t _ Gt), (is_derive_unique f' t _ Hf'), (is_derive_unique g' t _ Hg'). ring.
Qed.

Lemma pow_der a t : is_derive (fun s => s ^ a) t (INR a * t ^ pred a).
Proof. eapply is_derive_eq; [auto_derive; first [exact I|reflexivity]|]. ring. Qed.
Lemma pow_der2 a t : is_derive (fun s => INR a * s ^ pred a) t (INR a * INR (pred a) * t ^ pred (pred a)).
Proof. eapply is_derive_eq; [auto_derive; first [exact I|reflexivity]|]. ring. Qed.

Lemma term_has_lap sg mu a i : has_lap (term sg mu a i) (term_lap sg mu a i).
Proof.
  set (T := tpart sg mu). set (rho := fun x y z : R => x ^ 2 + y ^ 2 + z ^ 2).
  exists (fun x y z => z ^ a * (2 * INR i * x * rho x y z ^ pred i * T x y + rho x y z ^ i * tx sg mu x y)),
    (fun x y z => z ^ a * (2 * INR i * y * rho x y z ^ pred i * T x y + rho x y z ^ i * ty sg mu x y)),
    (fun x y z => T x y * (INR a * z ^ pred a * rho x y z ^ i + z ^ a * (2 * INR i * z * rho x y z ^ pred i))),
    (fun x y z => z ^ a * ((2 * INR i * rho x y z ^ pred i + 4 * INR i * INR (pred i) * x ^ 2 * rho x y z ^ pred (pred i)) * T x y + 2 * (2 * INR i * x * rho x y z ^ pred i * tx sg mu x y) + rho x y z ^ i * txx sg mu x y)),
    (fun x y z => z ^ a * ((2 * INR i * rho x y z ^ pred i + 4 * INR i * INR (pred i) * y ^ 2 * rho x y z ^ pred (pred i)) * T x y + 2 * (2 * INR i * y * rho x y z ^ pred i * ty sg mu x y) + rho x y z ^ i * tyy sg mu x y)),
    (fun x y z => T x y * (INR a * INR (pred a) * z ^ pred (pred a) * rho x y z ^ i + 2 * (INR a * z ^ pred a * (2 * INR i * z * rho x y z ^ pred i)) + z ^ a * (2 * INR i * rho x y z ^ pred i + 4 * INR i * INR (pred i) * z ^ 2 * rho x y z ^ pred (pred i)))).
  intros x y z.
  assert (Rx : forall s n, rho s y z ^ n = (s ^ 2 + (y ^ 2 + z ^ 2)) ^ n) by (intros s n; unfold rho; f_equal; ring).
  assert (Ry : forall s n, rho x s z ^ n = (s ^ 2 + (x ^ 2 + z ^ 2)) ^ n) by (intros s n; unfold rho; f_equal; ring).
  assert (Rz : forall s n, rho x y s ^ n = (s ^ 2 + (x ^ 2 + y ^ 2)) ^ n) by (intros s n; unfold rho; f_equal; ring).
  destruct (prod_der (fun s => (s ^ 2 + (y ^ 2 + z ^ 2)) ^ i) (fun s => T s y) _ _ x _ _ (fun s => q_der i (y ^ 2 + z ^ 2) s) (fun s => tpart_x sg mu s y) (q_der2 i _ x) (tx_x sg mu x y)) as (X1 & X2).
  destruct (prod_der (fun s => (s ^ 2 + (x ^ 2 + z ^ 2)) ^ i) (fun s => T x s) _ _ y _ _ (fun s => q_der i (x ^ 2 + z ^ 2) s) (fun s => tpart_y sg mu x s) (q_der2 i _ y) (ty_y sg mu x y)) as (Y1 & Y2).
  destruct (prod_der (fun s => s ^ a) (fun s => (s ^ 2 + (x ^ 2 + y ^ 2)) ^ i) _ _ z _ _ (fun s => pow_der a s) (fun s => q_der i (x ^ 2 + y ^ 2) s) (pow_der2 a z) (q_der2 i _ z)) as (Z1 & Z2).
  cbv beta in X1, X2, Y1, Y2, Z1, Z2.
  split; [|split; [|split; [|split; [|split; [|split]]]]].
  - rewrite !Rx. eapply is_derive_ext; [|apply (is_derive_scal _ x (z ^ a) _ X1)]. intros s. cbv beta. unfold term. rewrite <- Rx. unfold rho, T. rr.
  - rewrite !Rx. eapply is_derive_ext; [|apply (is_derive_scal _ x (z ^ a) _ X2)]. intros s. cbv beta. rewrite <- !Rx. unfold rho, T. rr.
  - rewrite !Ry. eapply is_derive_ext; [|apply (is_derive_scal _ y (z ^ a) _ Y1)]. intros s. cbv beta. unfold term. rewrite <- Ry. unfold rho, T. rr.
  - rewrite !Ry. eapply is_derive_ext; [|apply (is_derive_scal _ y (z ^ a) _ Y2)]. intros s. cbv beta. rewrite <- !Ry. unfold rho, T. rr.
  - rewrite !Rz. eapply is_derive_ext; [|apply (is_derive_scal _ z (T x y) _ Z1)]. intros s. cbv beta. unfold term. rewrite <- Rz. unfold rho, T. rr.
  - rewrite !Rz. eapply is_derive_ext; [|apply (is_derive_scal _ z (T x y) _ Z2)]. intros s. cbv beta. rewrite <- !Rz. unfold rho, T. rr.
  - pose proof (t_harm sg mu x y) as TH. pose proof (euler sg mu x y) as EU. fold T in EU.
    unfold term_lap, term. fold (rho x y z). fold T. set (r := rho x y z). set (A0 := T x y) in *.
    assert (P1 : INR i * INR (pred i) * (x ^ 2 + y ^ 2 + z ^ 2) * r ^ pred (pred i) = INR i * INR (pred i) * r ^ pred i).
    { destruct i as [|[|i]]; [cbn; ring|cbn; ring|]. cbn [pred]. change (r ^ S i) with (r * r ^ i). unfold r at 2, rho. ring. }
    assert (P2 : INR a * z ^ pred a * z = INR a * z ^ a) by (destruct a as [|a]; cbn [pred pow INR]; ring).
    assert (P3 : INR i * INR (pred i) = INR i * (INR i - 1)) by (destruct i as [|i]; [cbn; ring|cbn [pred]; rewrite S_INR; ring]).
    transitivity (z ^ a * A0 * (6 * INR i * r ^ pred i) + 4 * z ^ a * A0 * (INR i * INR (pred i) * (x ^ 2 + y ^ 2 + z ^ 2) * r ^ pred (pred i))
       + 4 * z ^ a * INR i * r ^ pred i * (x * tx sg mu x y + y * ty sg mu x y) + z ^ a * r ^ i * (txx sg mu x y + tyy sg mu x y)
       + A0 * (INR a * INR (pred a) * z ^ pred (pred a) * r ^ i) + 4 * A0 * (INR a * z ^ pred a * z) * INR i * r ^ pred i); [ring|].
    rewrite P1, P2, P3, TH, EU. ring.
Qed.

(** the coefficients satisfy the recurrence *)
Lemma ccf_rec l n mu i : (n + mu = l)%nat -> (2 * S i <= n)%nat ->
  2 * INR (S i) * (2 * INR (S i) + 1 + 2 * INR (n - 2 * S i) + 2 * INR mu) * ccf l n (S i) + INR (n - 2 * i) * INR (pred (n - 2 * i)) * ccf l n i = 0.
Proof.
  intros E H. unfold ccf.
  assert (C : ch l (S i) * INR (S i) = ch l i * INR (l - i)).
  { unfold ch. rewrite !INR_IZR_INZ, <- !mult_IZR. f_equal. pose proof (choose_fact l i ltac:(lia)) as A. pose proof (choose_fact l (S i) ltac:(lia)) as B.
    replace (l - i)%nat with (S (l - S i)) in A |- * by lia. set (p := (l - S i)%nat) in *. change (factz (S i)) with (Z.of_nat (S i) * factz i)%Z in B. change (factz (S p)) with (Z.of_nat (S p) * factz p)%Z in A.
    pose proof (BinomProofs.factz_pos i). pose proof (BinomProofs.factz_pos p). apply (Z.mul_reg_r _ _ (factz i * factz p)); [nia|]. lia. }
  replace (fact (2 * l - 2 * i)) with (S (S (2 * l - 2 * S i)) * (S (2 * l - 2 * S i) * fact (2 * l - 2 * S i)))%nat by (replace (2 * l - 2 * i)%nat with (S (S (2 * l - 2 * S i))) by lia; reflexivity).
  replace (fact (n - 2 * i)) with (S (S (n - 2 * S i)) * (S (n - 2 * S i) * fact (n - 2 * S i)))%nat by (replace (n - 2 * i)%nat with (S (S (n - 2 * S i))) by lia; reflexivity).
  replace (n - 2 * i)%nat with (S (S (n - 2 * S i))) by lia. cbn [pred]. set (q := (n - 2 * S i)%nat) in *.
  replace (2 * l - 2 * S i)%nat with (2 * (l - S i))%nat by lia. set (p := (l - S i)%nat) in *.
  rewrite !mult_INR. assert (Eq : 2 * INR (S i) + 1 + 2 * INR q + 2 * INR mu = INR (S (2 * p))).
  { rewrite (S_INR (2 * p)). replace (2 * p)%nat with (2 * (S i + q + mu))%nat by (unfold p, q; lia). rewrite INR_dbl, !plus_INR. ring. }
  rewrite Eq. replace (l - i)%nat with (S p) in C by (unfold p; lia).
  assert (D : INR (S (S (2 * p))) = 2 * INR (S p)) by (rewrite (S_INR (S (2 * p))), (S_INR (2 * p)), (S_INR p), INR_dbl; ring). rewrite D.
  pose proof (lt_0_INR (S q) ltac:(lia)). pose proof (lt_0_INR (S (S q)) ltac:(lia)). pose proof (INR_fact_lt_0 q). cbn [pow].
  transitivity (2 * INR (S (2 * p)) * ((-1) * (-1) ^ i) * (INR (fact (2 * p)) / INR (fact q)) * (ch l (S i) * INR (S i) - ch l i * INR (S p))); [field; repeat split; lra|].
  rewrite C. ring.
Qed.

(** the homogeneous polynomial of the table *)
Lemma cart_poly_terms l m x y z : (l <= 40)%nat -> (Z.abs m <= Z.of_nat l)%Z -> cart_poly l m (x, y, z) =
  rsum (S (Nat.div2 (l - Z.abs_nat m))) (fun i => normf l m * ccf l (l - Z.abs_nat m) i * term (m <? 0)%Z (Z.abs_nat m) (l - Z.abs_nat m - 2 * i) i x y z).
Proof.
  intros Hl Hm. unfold cart_poly. rewrite (coefficients_homog l m (canon_up (Z.of_nat l)) x y z Hl Hm (nodup_canon_up _) (fun r s t => in_canon_up _ r s t)).
  rewrite <- rsum_scal. apply rsum_ext. intros i _. unfold term. ring.
Qed.

Lemma rsum_telescope n (a b : nat -> R) : a O = 0 -> b n = 0 -> (forall i, (i < n)%nat -> a (S i) + b i = 0) -> rsum (S n) (fun i => a i + b i) = 0.
Proof.
  intros A B H. assert (G : forall k, (k <= n)%nat -> rsum (S k) (fun i => a i + b i) = b k).
  { induction k as [|k IH]; intros Hk; [cbn [rsum]; rewrite A; ring|]. change (rsum (S (S k)) (fun i => a i + b i)) with (rsum (S k) (fun i => a i + b i) + (a (S k) + b (S k))).
    rewrite (IH ltac:(lia)). pose proof (H k ltac:(lia)). lra. }
  rewrite (G n (le_n _)). exact B.
Qed.

Theorem cart_poly_harmonic l m : (l <= 40)%nat -> (Z.abs m <= Z.of_nat l)%Z -> harmonic (fun x y z => cart_poly l m (x, y, z)).
Proof.
  intros Hl Hm. set (mu := Z.abs_nat m). set (n := (l - mu)%nat). assert (Hmu : (n + mu = l)%nat) by (unfold n, mu; lia). set (sg := (m <? 0)%Z). set (h := Nat.div2 n).
  assert (Hh : (2 * h <= n <= 2 * h + 1)%nat) by (unfold h; pose proof (Nat.div2_odd n); destruct (Nat.odd n); cbn [Nat.b2n] in *; lia).
  apply (lap_harmonic _ (fun x y z => rsum (S h) (fun i => normf l m * ccf l n i * term_lap sg mu (n - 2 * i) i x y z))).
  - eapply lap_ext; [intros x y z; symmetry; apply (cart_poly_terms l m x y z Hl Hm)|intros; reflexivity|]. fold mu n sg h.
    apply (lap_rsum (S h) (fun i x y z => normf l m * ccf l n i * term sg mu (n - 2 * i) i x y z) (fun i x y z => normf l m * ccf l n i * term_lap sg mu (n - 2 * i) i x y z)).
    intros i _. eapply lap_ext; [| |apply (lap_lin _ _ _ _ (normf l m * ccf l n i) 0 (term_has_lap sg mu (n - 2 * i) i) lap_zero)]; intros; cbv beta; ring.
  - intros x y z. unfold term_lap.
    rewrite (rsum_ext _ _ (fun i => (normf l m * ccf l n i * (2 * INR i * (2 * INR i + 1 + 2 * INR (n - 2 * i) + 2 * INR mu) * term sg mu (n - 2 * i) (pred i) x y z))
       + (normf l m * ccf l n i * (INR (n - 2 * i) * INR (pred (n - 2 * i)) * term sg mu (pred (pred (n - 2 * i))) i x y z)))) by (intros; ring).
    apply rsum_telescope.
    + cbn [INR]. ring.
    + assert (E : INR (n - 2 * h) * INR (pred (n - 2 * h)) = 0) by (assert (C : (n - 2 * h = 0 \/ n - 2 * h = 1)%nat) by lia; destruct C as [-> | ->]; cbn; ring). rewrite E. ring.
    + intros i Hi. replace (pred (pred (n - 2 * i))) with (n - 2 * S i)%nat by lia. change (pred (S i)) with i.
      pose proof (ccf_rec l n mu i Hmu ltac:(lia)) as C. set (t := term sg mu (n - 2 * S i) i x y z).
      transitivity (normf l m * t * (2 * INR (S i) * (2 * INR (S i) + 1 + 2 * INR (n - 2 * S i) + 2 * INR mu) * ccf l n (S i) + INR (n - 2 * i) * INR (pred (n - 2 * i)) * ccf l n i)); [ring|].
      rewrite C. ring.
Qed.
