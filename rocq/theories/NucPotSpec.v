(** * Specification of the electrostatics of a spherical charge density

    Written without reference to the code: a potential (energy of an electron)
    belongs to a charge density when it solves Poisson's equation, is not too
    singular at the origin and is -Z/r far away. *)

From Coq Require Import ZArith Reals Lra Lia.
From Coquelicot Require Import Coquelicot.
From Verif Require Import GaussInt FermiSk.
Open Scope R_scope.

(** r V is continuously differentiable for r > 0 and, apart from the points
    [bad], (r V)'' = 4 pi r rho *)
Definition poisson (V rho : R -> R) (bad : R -> Prop) : Prop :=
  exists w : R -> R,
    (forall r, 0 < r -> is_derive (fun s => s * V s) r (w r)) /\
    (forall r, 0 < r -> continuous w r) /\
    (forall r, 0 < r -> ~ bad r -> is_derive w r (4 * PI * r * rho r)).

Definition potential_of (V rho : R -> R) (zn : R) (bad : R -> Prop) : Prop :=
  poisson V rho bad /\
  filterlim (fun r => r * V r) (at_right 0) (locally 0) /\
  is_lim (fun r => r * V r) p_infty (- zn).

(** the integral from 0 to infinity *)
Definition half_int (f : R -> R) (v : R) : Prop :=
  (forall T, 0 < T -> ex_RInt f 0 T) /\ is_lim (fun T => RInt f 0 T) p_infty v.

(** total charge and mean square radius of a density *)
Definition total_charge (rho : R -> R) (zn : R) : Prop := half_int (fun r => 4 * PI * r ^ 2 * rho r) zn.
Definition mean_square_radius (rho : R -> R) (zn v : R) : Prop := half_int (fun r => 4 * PI * r ^ 4 * rho r / zn) v.

(** the function tabulated in specfunc_fermi_sk.c: S_k(x) = sum over n >= 1 of (-1)^n e^(n x) / n^k, x <= 0 *)
Definition fermi_series (Sk : Z -> R -> R) : Prop :=
  forall k x, (2 <= k <= 7)%Z -> x <= 0 -> is_series (fun n => (-1) ^ S n * exp (INR (S n) * x) / INR (S n) ^ Z.to_nat k) (Sk k x).

(** the error function *)
Definition error_function (erf : R -> R) : Prop := forall x, erf x = 2 / sqrt PI * RInt (fun t => exp (- (t * t))) 0 x.

(** the specification determines the potential *)
Lemma deriv_zero_const (f : R -> R) a b : a <= b -> (forall r, a <= r <= b -> is_derive f r 0) -> f a = f b.
Proof.
  intros Hab H. destruct (Req_dec a b) as [-> | Hne]; [reflexivity|].
  destruct (MVT_gen f a b (fun _ => 0)) as (c & Hc & E).
  - intros r Hr. rewrite Rmin_left, Rmax_right in Hr by lra. apply H. lra.
  - intros r Hr. rewrite Rmin_left, Rmax_right in Hr by lra. apply continuity_pt_filterlim. apply (ex_derive_continuous f r). exists 0. apply H. lra.
  - lra.
Qed.

Lemma const_except (f : R -> R) r0 a b : 0 < a -> a <= b -> (forall r, 0 < r -> continuous f r) ->
  (forall r, 0 < r -> r <> r0 -> is_derive f r 0) -> f a = f b.
Proof.
  intros Ha Hab C D.
  assert (Two : forall x y, 0 < x -> x <= y -> (forall r, x < r < y -> r <> r0) -> f x = f y).
  { intros x y Hx Hxy Hn. destruct (Req_dec x y) as [-> | Hne]; [reflexivity|].
    destruct (MVT_gen f x y (fun _ => 0)) as (c & Hc & E).
    - intros r Hr. rewrite Rmin_left, Rmax_right in Hr by lra. apply D; [lra|]. apply Hn. lra.
    - intros r Hr. rewrite Rmin_left, Rmax_right in Hr by lra. apply continuity_pt_filterlim. apply C. lra.
    - lra. }
  destruct (Rle_dec a r0) as [H1|H1]; [destruct (Rle_dec r0 b) as [H2|H2]|].
  - rewrite (Two a r0) by (try lra; intros; lra). apply Two; try lra. intros; lra.
  - apply Two; try lra. intros; lra.
  - apply Two; try lra. intros; lra.
Qed.

Lemma right0 (f : R -> R) : filterlim f (at_right 0) (locally 0) -> forall e, 0 < e -> exists d, 0 < d /\ forall s, 0 < s < d -> Rabs (f s) < e.
Proof.
  intros H e He. pose proof (proj1 (filterlim_locally (F := at_right 0) f 0) H (mkposreal e He)) as (d & Hd).
  exists d. split; [apply (cond_pos d)|]. intros s Hs.
  assert (B : ball 0 d s) by (unfold ball; cbn; unfold AbsRing_ball, abs, minus, plus, opp; cbn; apply Rabs_def1; lra).
  specialize (Hd s B ltac:(lra)). unfold ball in Hd. cbn in Hd. unfold AbsRing_ball, abs, minus, plus, opp in Hd. cbn in Hd.
  rewrite Ropp_0, Rplus_0_r in Hd. exact Hd.
Qed.

Lemma potential_unique V1 V2 rho zn r0 : potential_of V1 rho zn (fun r => r = r0) -> potential_of V2 rho zn (fun r => r = r0) ->
  forall r, 0 < r -> V1 r = V2 r.
Proof.
  intros ((w1 & D1 & C1 & P1) & O1 & L1) ((w2 & D2 & C2 & P2) & O2 & L2) r Hr.
  pose (d := fun s => w1 s - w2 s). pose (u := fun s => s * V1 s - s * V2 s).
  assert (Cd : forall s, 0 < s -> continuous d s).
  { intros s Hs. apply (continuous_minus w1 w2 s); [apply C1|apply C2]; exact Hs. }
  assert (Dd : forall s, 0 < s -> s <> r0 -> is_derive d s 0).
  { intros s Hs Hne. pose proof (is_derive_minus _ _ _ _ _ (P1 s Hs Hne) (P2 s Hs Hne)) as H.
    apply (is_derive_eq _ _ _ _ H). unfold minus, plus, opp. cbn. ring. }
  pose (k := d 1).
  assert (Hk : forall s, 0 < s -> d s = k).
  { intros s Hs. destruct (Rle_dec s 1); [apply (const_except d r0); lra || assumption|symmetry; apply (const_except d r0); lra || assumption]. }
  assert (Du : forall s, 0 < s -> is_derive (fun s => u s - k * s) s 0).
  { intros s Hs. pose proof (is_derive_minus _ _ _ _ _ (D1 s Hs) (D2 s Hs)) as H.
    assert (H2 : is_derive (fun s => k * s) s k) by (auto_derive; [trivial|ring]).
    apply (is_derive_eq _ _ _ _ (is_derive_minus _ _ _ _ _ H H2)). unfold minus, plus, opp. cbn. rewrite <- (Hk s Hs). unfold d. ring. }
  pose (m := u 1 - k * 1).
  assert (Hu : forall s, 0 < s -> u s = m + k * s).
  { intros s Hs. unfold m. destruct (Rle_dec s 1) as [H|H].
    - pose proof (deriv_zero_const (fun s => u s - k * s) s 1 H ltac:(intros; apply Du; lra)) as E. cbn in E. lra.
    - pose proof (deriv_zero_const (fun s => u s - k * s) 1 s ltac:(lra) ltac:(intros; apply Du; lra)) as E. cbn in E. lra. }
  assert (M : forall e, 0 < e -> Rabs m < e).
  { intros e He. destruct (right0 _ O1 (e / 3) ltac:(lra)) as (d1 & Hd1 & B1). destruct (right0 _ O2 (e / 3) ltac:(lra)) as (d2 & Hd2 & B2).
    assert (Hkp : 0 < e / 3 / (1 + Rabs k)) by (pose proof (Rabs_pos k); apply Rdiv_lt_0_compat; lra).
    pose (s := Rmin (Rmin d1 d2) (e / 3 / (1 + Rabs k)) / 2).
    assert (Hs : 0 < Rmin (Rmin d1 d2) (e / 3 / (1 + Rabs k))) by (repeat apply Rmin_pos; assumption).
    pose proof (Rmin_l (Rmin d1 d2) (e / 3 / (1 + Rabs k))). pose proof (Rmin_r (Rmin d1 d2) (e / 3 / (1 + Rabs k))).
    pose proof (Rmin_l d1 d2). pose proof (Rmin_r d1 d2).
    assert (S0 : 0 < s) by (unfold s; lra).
    specialize (B1 s ltac:(unfold s in *; lra)). specialize (B2 s ltac:(unfold s in *; lra)).
    pose proof (Hu s S0) as E. unfold u in E.
    replace m with (s * V1 s + - (s * V2 s) + - (k * s)) by lra.
    assert (Bk : Rabs (k * s) <= e / 3).
    { rewrite Rabs_mult, (Rabs_pos_eq s) by lra. pose proof (Rabs_pos k).
      apply Rle_trans with ((1 + Rabs k) * (e / 3 / (1 + Rabs k))); [|right; field; lra]. apply Rmult_le_compat; unfold s in *; lra. }
    pose proof (Rabs_triang (s * V1 s + - (s * V2 s)) (- (k * s))) as T1. pose proof (Rabs_triang (s * V1 s) (- (s * V2 s))) as T2.
    rewrite Rabs_Ropp in T1, T2. lra. }
  assert (M0 : m = 0).
  { destruct (Req_dec m 0) as [|Hne]; [assumption|]. specialize (M (Rabs m) (Rabs_pos_lt _ Hne)). lra. }
  assert (K0 : k = 0).
  { destruct (Req_dec k 0) as [|Hne]; [assumption|exfalso].
    pose proof (is_lim_minus' _ _ _ _ _ L1 L2) as Lu. replace (- zn - - zn) with 0 in Lu by ring.
    apply is_lim_spec in Lu. destruct (Lu (mkposreal (Rabs k) (Rabs_pos_lt _ Hne))) as (B & HB). cbn [pos] in HB.
    set (s := Rmax 1 (B + 1)). assert (Hs : 1 <= s) by apply Rmax_l. assert (Hs2 : B + 1 <= s) by apply Rmax_r.
    specialize (HB s ltac:(lra)). rewrite Rminus_0_r in HB. pose proof (Hu s ltac:(lra)) as E. unfold u in E. rewrite E, M0, Rplus_0_l, Rabs_mult, (Rabs_pos_eq s) in HB by lra.
    pose proof (Rabs_pos_lt _ Hne). nra. }
  pose proof (Hu r Hr) as E. rewrite M0, K0 in E. unfold u in E. apply (Rmult_eq_reg_l r); lra.
Qed.
