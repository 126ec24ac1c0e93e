(** * The angular momentum matrices and the real spherical harmonics *)

From Coq Require Import ZArith Reals Lra Lia List Bool.
From Coquelicot Require Import Coquelicot.
From Verif Require Import Base Sums OneElModel OneElProofs SphSpec SphPoly SphProofs SphOrtho SphSpan LmatModel LmatProofs UtilProofs NumSpec SphRot Type2Spec.
Import ListNotations.
Open Scope R_scope.

(** ** Derivatives of the factors *)
Lemma rod_derive l n t : is_derive (rodrigues l n) t (rodrigues l (S n) t).
Proof. apply (poly_step (fun t => (t ^ 2 - 1) ^ l) n t). apply w_poly. Qed.

(** (t^2 - 1) u^(n+1) + 2 (n - l) t u^(n) + n (n - 1 - 2 l) u^(n-1) = 0 *)
Lemma rod_ode l n t : (t ^ 2 - 1) * rodrigues l (S n) t + 2 * (INR n - INR l) * t * rodrigues l n t + INR n * (INR n - 1 - 2 * INR l) * rodrigues l (pred n) t = 0.
Proof.
  revert t. induction n as [|n IH]; intros t.
  -    assert (D : is_derive (fun t => (t ^ 2 - 1) ^ l) t (INR l * (2 * t) * (t ^ 2 - 1) ^ pred l)) by (apply (is_derive_pow (fun t => t ^ 2 - 1)); auto_derive; [exact I|ring]).
    pose proof (is_derive_unique _ _ _ D : rodrigues l 1 t = _) as E1. assert (E0 : rodrigues l 0 t = (t ^ 2 - 1) ^ l) by reflexivity. cbn [pred]. rewrite E1, E0. cbn [INR]. destruct l as [|l]; [cbn [INR]; ring|]. cbn [pred]. rewrite <- (tech_pow_Rmult (t ^ 2 - 1) l). ring.
  - assert (D : is_derive (fun t => (t ^ 2 - 1) * rodrigues l (S n) t + 2 * (INR n - INR l) * t * rodrigues l n t + INR n * (INR n - 1 - 2 * INR l) * rodrigues l (pred n) t) t
      (2 * t * rodrigues l (S n) t + (t ^ 2 - 1) * rodrigues l (S (S n)) t + 2 * (INR n - INR l) * (rodrigues l n t + t * rodrigues l (S n) t) + INR n * (INR n - 1 - 2 * INR l) * rodrigues l (S (pred n)) t)).
    { pose proof (rod_derive l (S n) t) as D1. pose proof (rod_derive l n t) as D2. pose proof (rod_derive l (pred n) t) as D3.
      auto_derive.
      - repeat split; eexists; eassumption.
      - pose proof (is_derive_unique _ _ _ D1 : Derive (fun x : R => rodrigues l (S n) x) t = _) as U1. pose proof (is_derive_unique _ _ _ D2 : Derive (fun x : R => rodrigues l n x) t = _) as U2.
        pose proof (is_derive_unique _ _ _ D3 : Derive (fun x : R => rodrigues l (pred n) x) t = _) as U3. rewrite U1, U2, U3. ring. }
    assert (Z0 : 2 * t * rodrigues l (S n) t + (t ^ 2 - 1) * rodrigues l (S (S n)) t + 2 * (INR n - INR l) * (rodrigues l n t + t * rodrigues l (S n) t) + INR n * (INR n - 1 - 2 * INR l) * rodrigues l (S (pred n)) t = 0).
    { apply is_derive_unique in D. rewrite <- D. rewrite (Derive_ext _ (fun _ => 0)) by exact IH. apply Derive_const. }
    cbn [pred]. rewrite S_INR. destruct n as [|n]; [cbn [pred INR] in *; lra|]. cbn [pred] in Z0. rewrite <- Z0. ring.
Qed.

Lemma rod_lower l m t : (1 <= m)%nat -> 2 * INR m * t * rodrigues l (l + m) t - (1 - t ^ 2) * rodrigues l (l + S m) t = (INR l + INR m) * (INR l - INR m + 1) * rodrigues l (l + pred m) t.
Proof.
  intros Hm. pose proof (rod_ode l (l + m) t) as E. rewrite plus_INR in E. replace (S (l + m)) with (l + S m)%nat in E by lia. replace (pred (l + m)) with (l + pred m)%nat in E by lia. lra.
Qed.

Lemma rim_derive n (X Y : R -> R) t X' Y' : is_derive X t X' -> is_derive Y t Y' ->
  is_derive (fun t => fst (re_im_pow n (X t) (Y t))) t (INR n * (fst (re_im_pow (pred n) (X t) (Y t)) * X' - snd (re_im_pow (pred n) (X t) (Y t)) * Y')) /\
  is_derive (fun t => snd (re_im_pow n (X t) (Y t))) t (INR n * (snd (re_im_pow (pred n) (X t) (Y t)) * X' + fst (re_im_pow (pred n) (X t) (Y t)) * Y')).
Proof.
  intros HX HY. induction n as [|n (IH1 & IH2)].
  - cbn [re_im_pow fst snd INR]. rewrite !Rmult_0_l. split; apply @is_derive_const.
  - assert (ST : forall u, re_im_pow (S n) (X u) (Y u) = (X u * fst (re_im_pow n (X u) (Y u)) - Y u * snd (re_im_pow n (X u) (Y u)), X u * snd (re_im_pow n (X u) (Y u)) + Y u * fst (re_im_pow n (X u) (Y u)))).
    { intros u. cbn [re_im_pow]. destruct (re_im_pow n (X u) (Y u)). reflexivity. }
    set (F := fun u => fst (re_im_pow n (X u) (Y u))) in *. set (G := fun u => snd (re_im_pow n (X u) (Y u))) in *.
    assert (EX : ex_derive X t) by (eexists; exact HX). assert (EY : ex_derive Y t) by (eexists; exact HY). assert (EF : ex_derive F t) by (eexists; exact IH1). assert (EG : ex_derive G t) by (eexists; exact IH2).
    assert (REL : INR n * fst (re_im_pow n (X t) (Y t)) = INR n * (X t * fst (re_im_pow (pred n) (X t) (Y t)) - Y t * snd (re_im_pow (pred n) (X t) (Y t))) /\
                  INR n * snd (re_im_pow n (X t) (Y t)) = INR n * (X t * snd (re_im_pow (pred n) (X t) (Y t)) + Y t * fst (re_im_pow (pred n) (X t) (Y t)))).
    { destruct n as [|n]; [cbn [INR]; split; ring|]. cbn [pred re_im_pow]. destruct (re_im_pow n (X t) (Y t)) as [a b]. cbn [fst snd]. split; reflexivity. }
    pose proof (is_derive_unique _ _ _ HX : Derive (fun x : R => X x) t = _) as UX. pose proof (is_derive_unique _ _ _ HY : Derive (fun x : R => Y x) t = _) as UY.
    pose proof (is_derive_unique _ _ _ IH1 : Derive (fun x : R => F x) t = _) as UF. pose proof (is_derive_unique _ _ _ IH2 : Derive (fun x : R => G x) t = _) as UG.
    destruct REL as (R1 & R2). cbn [pred]. rewrite S_INR. split.
    + apply (is_derive_ext (fun u => X u * F u - Y u * G u)); [intros u; rewrite ST; reflexivity|]. auto_derive; [repeat split; assumption|].
      rewrite UX, UY, UF, UG. unfold F, G.
      set (a := fst (re_im_pow n (X t) (Y t))) in *. set (b := snd (re_im_pow n (X t) (Y t))) in *.
      transitivity (X' * a - Y' * b + (INR n * a * X' - INR n * b * Y')); [rewrite R1, R2; ring|ring].
    + apply (is_derive_ext (fun u => X u * G u + Y u * F u)); [intros u; rewrite ST; reflexivity|]. auto_derive; [repeat split; assumption|].
      rewrite UX, UY, UF, UG. unfold F, G.
      set (a := fst (re_im_pow n (X t) (Y t))) in *. set (b := snd (re_im_pow n (X t) (Y t))) in *.
      transitivity (X' * b + Y' * a + (INR n * b * X' + INR n * a * Y')); [rewrite R1, R2; ring|ring].
Qed.

(** ** Normalisation *)
Lemma snorm_pos l m : 0 < snorm l m.
Proof.
  unfold snorm. apply Rdiv_lt_0_compat; [|apply Rmult_lt_0_compat; [apply pow_lt; lra|apply INR_fact_lt_0]]. apply sqrt_lt_R0. pose proof PI_RGT_0. pose proof (pos_INR l).
  apply Rdiv_lt_0_compat; [|apply INR_fact_lt_0]. apply Rmult_lt_0_compat; [|apply INR_fact_lt_0]. apply Rdiv_lt_0_compat; [lra|]. destruct (m =? 0)%Z; lra.
Qed.

Lemma cc_nonneg l m : 0 <= cc l m.
Proof. unfold cc. destruct (m =? 0)%Z; [apply sqrt_pos|]. apply Rmult_le_pos; [apply sqrt_pos|lra]. Qed.

Lemma cc_sq (l m : nat) : (m <= l)%nat -> cc (Z.of_nat l) (Z.of_nat m) * cc (Z.of_nat l) (Z.of_nat m) = (INR l - INR m) * (INR l + INR m + 1) * (if (m =? 0)%nat then / 2 else / 4).
Proof.
  intros H. unfold cc. destruct (Z.eqb_spec (Z.of_nat m) 0) as [E|E].
  - assert (m = 0)%nat as -> by lia. cbn [Nat.eqb INR]. rewrite sqrt_sqrt; [rewrite mult_IZR, plus_IZR, <- INR_IZR_INZ; field|]. apply Rmult_le_pos; [apply (IZR_le 0); nia|lra].
  - rewrite (proj2 (Nat.eqb_neq m 0)) by lia. assert (0 <= IZR ((Z.of_nat l - Z.of_nat m) * (Z.of_nat l + Z.of_nat m + 1))) by (apply (IZR_le 0); nia).
    transitivity (sqrt (IZR ((Z.of_nat l - Z.of_nat m) * (Z.of_nat l + Z.of_nat m + 1))) * sqrt (IZR ((Z.of_nat l - Z.of_nat m) * (Z.of_nat l + Z.of_nat m + 1))) / 4); [field|].
    rewrite sqrt_sqrt by assumption. rewrite mult_IZR, minus_IZR, !plus_IZR, <- !INR_IZR_INZ. field.
Qed.

Definition half_of (m : nat) : R := if (m =? 0)%nat then 1 else / 2.

Lemma snorm_up (l m : nat) : (m < l)%nat -> snorm l (Z.of_nat m) * half_of m = cc (Z.of_nat l) (Z.of_nat m) * snorm l (Z.of_nat (S m)).
Proof.
  intros H. apply Rsqr_inj.
  - apply Rmult_le_pos; [left; apply snorm_pos|]. unfold half_of. destruct (m =? 0)%nat; lra.
  - apply Rmult_le_pos; [apply cc_nonneg|left; apply snorm_pos].
  - unfold Rsqr. transitivity (snorm l (Z.of_nat m) * snorm l (Z.of_nat m) * (half_of m * half_of m)); [ring|].
    transitivity (cc (Z.of_nat l) (Z.of_nat m) * cc (Z.of_nat l) (Z.of_nat m) * (snorm l (Z.of_nat (S m)) * snorm l (Z.of_nat (S m)))); [|ring].
    rewrite cc_sq, !snorm_sq by lia. rewrite !Zabs2Nat.id. rewrite (proj2 (Z.eqb_neq (Z.of_nat (S m)) 0)) by lia.
    replace (l - m)%nat with (S (l - S m)) by lia. replace (l + S m)%nat with (S (l + m)) by lia. rewrite !fact_simpl, !mult_INR.
    assert (E1 : INR (S (l - S m)) = INR l - INR m) by (rewrite <- minus_INR by lia; f_equal; lia). assert (E2 : INR (S (l + m)) = INR l + INR m + 1) by (rewrite S_INR, plus_INR; ring). rewrite E1, E2.
    assert (P1 : INR l - INR m <> 0) by (rewrite <- E1; apply not_0_INR; lia). assert (P2 : INR l + INR m + 1 <> 0) by (rewrite <- E2; apply not_0_INR; lia).
    assert (F1 := INR_fact_neq_0 (l - S m)). assert (F2 := INR_fact_neq_0 (l + m)). assert (F3 := INR_fact_neq_0 l). assert (F4 : 2 ^ l <> 0) by (apply pow_nonzero; lra). pose proof PI_RGT_0.
    unfold half_of. destruct m as [|m]; cbn [Nat.eqb Z.of_nat Z.eqb]; cbn [INR] in *; field; repeat split; try assumption; lra.
Qed.

Lemma snorm_down (l m : nat) : (m < l)%nat -> snorm l (Z.of_nat (S m)) * (/ 2 * ((INR l + INR (S m)) * (INR l - INR (S m) + 1))) = cc (Z.of_nat l) (Z.of_nat m) * snorm l (Z.of_nat m).
Proof.
  intros H. pose proof (snorm_up l m H) as U. pose proof (cc_sq l m ltac:(lia)) as Q. rewrite S_INR. unfold half_of in U.
  set (c := cc _ _) in *. set (s := snorm l (Z.of_nat (S m))) in *. set (s0 := snorm l (Z.of_nat m)) in *. clearbody c s s0. destruct m as [|m]; cbn [Nat.eqb] in *.
  - transitivity (s * (c * c)); [rewrite Q; cbn [INR]; field|]. rewrite Rmult_1_r in U. rewrite U. ring.
  - transitivity (s * (2 * (c * c))); [rewrite Q; field|]. transitivity (2 * c * (c * s)); [ring|]. rewrite <- U. field.
Qed.

Lemma snorm_abs l m : snorm l m = snorm l (Z.of_nat (Z.abs_nat m)).
Proof. unfold snorm. rewrite Zabs2Nat.id. destruct (Z.eqb_spec m 0); destruct (Z.eqb_spec (Z.of_nat (Z.abs_nat m)) 0); try lia; reflexivity. Qed.

Lemma rod_beyond l n t : (2 * l < n)%nat -> rodrigues l n t = 0.
Proof.
  intros H. assert (LR : lead (2 * l) 1 (fun t => (t ^ 2 - 1) ^ l)) by apply lead_w. apply (lead_beyond _ _ _ n LR H).
Qed.

(** ** Sums with two terms *)
Section AT.
Variables (l : nat) (x y z : R).
Hypothesis US : x * x + y * y + z * z = 1.
Let r (k : nat) : R := rodrigues l (l + k) z.
Definition part (b : bool) (m : nat) (x y : R) : R := if b then snd (re_im_pow m x y) else fst (re_im_pow m x y).
Let H (b : bool) (m : nat) : R := snorm l (Z.of_nat m) * r m * part b m x y.

Lemma sph_H p : real_sph l p x y z = H (p <? 0)%Z (Z.abs_nat p).
Proof. unfold H, r, part. rewrite <- snorm_abs. reflexivity. Qed.

Lemma two_terms (b : bool) (m : nat) al be : (m <= l)%nat ->
  zsum (- Z.of_nat l) (Z.of_nat l + 1) (fun p => (if eqb (p <? 0)%Z b then if (Z.abs p =? Z.of_nat m + 1)%Z then al else if (Z.of_nat m =? Z.abs p + 1)%Z then be else 0 else 0) * real_sph l p x y z)
  = (if (m <? l)%nat then al * H b (S m) else 0) + (if (m =? 0)%nat then 0 else be * H b (pred m)).
Proof.
  intros Hm. set (sgn := fun k : nat => if b then (- Z.of_nat k)%Z else Z.of_nat k).
  transitivity (zsum (- Z.of_nat l) (Z.of_nat l + 1) (fun p => (if (p =? sgn (S m))%Z then al * H b (S m) else 0) + (if (p =? sgn (pred m))%Z then (if (m =? 0)%nat then 0 else be * H b (pred m)) else 0))).
  - apply zsum_ext. intros p Hp. rewrite sph_H.
    assert (H0 : H true 0 = 0) by (unfold H, part; cbn [re_im_pow snd]; ring).
    destruct (Z.ltb_spec p 0) as [P|P]; destruct b; cbn [eqb]; unfold sgn.
    + destruct (Z.eqb_spec (Z.abs p) (Z.of_nat m + 1)); destruct (Z.eqb_spec p (- Z.of_nat (S m))); try lia.
      * destruct (Z.eqb_spec p (- Z.of_nat (pred m))); [lia|]. replace (Z.abs_nat p) with (S m) by lia. ring.
      * destruct (Z.eqb_spec (Z.of_nat m) (Z.abs p + 1)); destruct (Z.eqb_spec p (- Z.of_nat (pred m))); try lia; [|ring].
        rewrite (proj2 (Nat.eqb_neq m 0)) by lia. replace (Z.abs_nat p) with (pred m) by lia. ring.
    + destruct (Z.eqb_spec p (Z.of_nat (S m))); [lia|]. destruct (Z.eqb_spec p (Z.of_nat (pred m))); [lia|]. ring.
    + destruct (Z.eqb_spec p (- Z.of_nat (S m))); [lia|]. destruct (Z.eqb_spec p (- Z.of_nat (pred m))); [|ring].
      assert (m = 0 \/ m = 1)%nat as [-> | ->] by lia; cbn [Nat.eqb pred]; [ring|]. rewrite H0. ring.
    + destruct (Z.eqb_spec (Z.abs p) (Z.of_nat m + 1)); destruct (Z.eqb_spec p (Z.of_nat (S m))); try lia.
      * destruct (Z.eqb_spec p (Z.of_nat (pred m))); [lia|]. replace (Z.abs_nat p) with (S m) by lia. ring.
      * destruct (Z.eqb_spec (Z.of_nat m) (Z.abs p + 1)); destruct (Z.eqb_spec p (Z.of_nat (pred m))); try lia; [| |ring].
        -- rewrite (proj2 (Nat.eqb_neq m 0)) by lia. replace (Z.abs_nat p) with (pred m) by lia. ring.
        -- assert (m = 0)%nat as -> by lia. cbn [Nat.eqb]. ring.
  - rewrite zsum_plus. f_equal.
    + destruct (Nat.ltb_spec m l).
      * rewrite (zsum_delta _ _ (sgn (S m))) by (unfold sgn; destruct b; first [lia|intros i _ Hi; rewrite (proj2 (Z.eqb_neq _ _) Hi); reflexivity]). rewrite Z.eqb_refl. reflexivity.
      * apply zsum_zero. intros i Hi. destruct (Z.eqb_spec i (sgn (S m))) as [E|E]; [|reflexivity]. exfalso. unfold sgn in E. destruct b; lia.
    + rewrite (zsum_delta _ _ (sgn (pred m))) by (unfold sgn; destruct b; first [lia|intros i _ Hi; rewrite (proj2 (Z.eqb_neq _ _) Hi); reflexivity]). rewrite Z.eqb_refl. reflexivity.
Qed.

(** the two terms of the derivatives *)
Lemma up_term b m : (m <= l)%nat -> snorm l (Z.of_nat m) * (half_of m * r (S m) * part b (S m) x y) = if (m <? l)%nat then cc (Z.of_nat l) (Z.of_nat m) * H b (S m) else 0.
Proof.
  intros Hm. destruct (Nat.ltb_spec m l) as [L0|L0].
  - unfold H. transitivity (snorm l (Z.of_nat m) * half_of m * r (S m) * part b (S m) x y); [ring|]. rewrite (snorm_up l m L0). ring.
  - unfold r. rewrite rod_beyond by lia. ring.
Qed.

Lemma down_term b m : (S m <= l)%nat -> snorm l (Z.of_nat (S m)) * (/ 2 * ((INR l + INR (S m)) * (INR l - INR (S m) + 1) * r m) * part b m x y) = cc (Z.of_nat l) (Z.of_nat m) * H b m.
Proof.
  intros Hm. unfold H. transitivity (snorm l (Z.of_nat (S m)) * (/ 2 * ((INR l + INR (S m)) * (INR l - INR (S m) + 1))) * r m * part b m x y); [ring|]. rewrite (snorm_down l m Hm). ring.
Qed.
End AT.

(** ** The derivative along a rotation *)
Lemma rim_S m x y : fst (re_im_pow (S m) x y) = x * fst (re_im_pow m x y) - y * snd (re_im_pow m x y) /\ snd (re_im_pow (S m) x y) = x * snd (re_im_pow m x y) + y * fst (re_im_pow m x y).
Proof. cbn [re_im_pow]. destruct (re_im_pow m x y). split; reflexivity. Qed.

Definition part' (b : bool) (m : nat) (x y X' Y' : R) : R :=
  INR m * (if b then snd (re_im_pow (pred m) x y) * X' + fst (re_im_pow (pred m) x y) * Y' else fst (re_im_pow (pred m) x y) * X' - snd (re_im_pow (pred m) x y) * Y').

Lemma sph_derive l m (X Y Zf : R -> R) X' Y' Z' x y z : X 0 = x -> Y 0 = y -> Zf 0 = z -> is_derive X 0 X' -> is_derive Y 0 Y' -> is_derive Zf 0 Z' ->
  is_derive (fun t => real_sph l m (X t) (Y t) (Zf t)) 0
    (snorm l (Z.of_nat (Z.abs_nat m)) * (rodrigues l (l + S (Z.abs_nat m)) z * Z' * part (m <? 0)%Z (Z.abs_nat m) x y + rodrigues l (l + Z.abs_nat m) z * part' (m <? 0)%Z (Z.abs_nat m) x y X' Y')).
Proof.
  intros Ex Ey Ez HX HY HZ. set (mu := Z.abs_nat m). set (b := (m <? 0)%Z).
  apply (is_derive_ext (fun t => snorm l (Z.of_nat mu) * (rodrigues l (l + mu) (Zf t) * part b mu (X t) (Y t)))).
  { intros t. pose proof (sph_H l (X t) (Y t) (Zf t) m) as E. cbv zeta in E. fold mu b in E. rewrite E, Rmult_assoc. reflexivity. }
  apply is_derive_scal with (k := snorm l (Z.of_nat mu)).
  assert (D1 : is_derive (fun t => rodrigues l (l + mu) (Zf t)) 0 (rodrigues l (l + S mu) z * Z')).
  { rewrite Rmult_comm. apply (is_derive_comp (rodrigues l (l + mu)) Zf 0 (rodrigues l (l + S mu) z) Z'); [|exact HZ]. rewrite Ez. replace (l + S mu)%nat with (S (l + mu)) by lia. apply rod_derive. }
  assert (D2 : is_derive (fun t => part b mu (X t) (Y t)) 0 (part' b mu x y X' Y')).
  { destruct (rim_derive mu X Y 0 X' Y' HX HY) as (P1 & P2). rewrite Ex, Ey in P1, P2. unfold part, part'. destruct b; assumption. }
  rewrite <- Ex, <- Ey, <- Ez in *. 
  evar_last; [apply (is_derive_mult (fun t => rodrigues l (l + mu) (Zf t)) (fun t => part b mu (X t) (Y t)) 0 _ _ D1 D2); intros; apply Rmult_comm|]. reflexivity.
Qed.

Section AXES.
Variables (l m : nat) (x y z : R).
Hypothesis US : x * x + y * y + z * z = 1.
Hypothesis Hm : (m <= l)%nat.
Let r (k : nat) : R := rodrigues l (l + k) z.

Lemma lower_at : (1 <= m)%nat -> 2 * INR m * z * r m - (x * x + y * y) * r (S m) = (INR l + INR m) * (INR l - INR m + 1) * r (pred m).
Proof. intros H1. pose proof (rod_lower l m z H1) as E. fold (r m) (r (S m)) (r (pred m)) in E. replace (1 - z ^ 2) with (x * x + y * y) in E by lra. exact E. Qed.

Lemma x_axis b : (b = true -> m <> 0)%nat -> r (S m) * y * part b m x y + r m * part' b m x y 0 (- z)
  = (if b then -1 else 1) * (half_of m * r (S m) * part (negb b) (S m) x y + (if (m =? 0)%nat then 0 else / 2 * ((INR l + INR m) * (INR l - INR m + 1) * r (pred m)) * part (negb b) (pred m) x y)).
Proof.
  intros B0. pose proof lower_at as LO. unfold half_of, part, part'. destruct m as [|n].
  - destruct b; [lia|]. cbn. ring.
  - cbn [Nat.eqb]. rewrite <- LO by lia. cbn [pred]. destruct (rim_S n x y) as (F1 & F2). destruct (rim_S (S n) x y) as (G1 & G2).
    destruct b; cbn [negb]; rewrite ?G1, ?G2, ?F1, ?F2; field.
Qed.

Lemma y_axis b : (b = true -> m <> 0)%nat -> r (S m) * (- x) * part b m x y + r m * part' b m x y z 0
  = - (half_of m * r (S m) * part b (S m) x y) + (if (m =? 0)%nat then 0 else / 2 * ((INR l + INR m) * (INR l - INR m + 1) * r (pred m)) * part b (pred m) x y).
Proof.
  intros B0. pose proof lower_at as LO. unfold half_of, part, part'. destruct m as [|n].
  - destruct b; [lia|]. cbn. ring.
  - cbn [Nat.eqb]. rewrite <- LO by lia. cbn [pred]. destruct (rim_S n x y) as (F1 & F2). destruct (rim_S (S n) x y) as (G1 & G2).
    destruct b; rewrite ?G1, ?G2, ?F1, ?F2; field.
Qed.

Lemma z_axis b : r (S m) * 0 * part b m x y + r m * part' b m x y (- y) x = (if b then 1 else -1) * (INR m * r m * part (negb b) m x y).
Proof.
  unfold part, part'. destruct m as [|n].
  - cbn [INR]. ring.
  - cbn [pred]. destruct (rim_S n x y) as (F1 & F2). destruct b; cbn [negb]; rewrite ?F1, ?F2; ring.
Qed.

Lemma both_terms b : snorm l (Z.of_nat m) * (half_of m * r (S m) * part b (S m) x y) = (if (m <? l)%nat then cc (Z.of_nat l) (Z.of_nat m) * (snorm l (Z.of_nat (S m)) * r (S m) * part b (S m) x y) else 0) /\
  snorm l (Z.of_nat m) * (if (m =? 0)%nat then 0 else / 2 * ((INR l + INR m) * (INR l - INR m + 1) * r (pred m)) * part b (pred m) x y)
  = (if (m =? 0)%nat then 0 else cc (Z.of_nat l) (Z.of_nat (pred m)) * (snorm l (Z.of_nat (pred m)) * r (pred m) * part b (pred m) x y)).
Proof.
  split; [apply (up_term l x y z b m Hm)|]. destruct m as [|n]; [cbn [Nat.eqb]; ring|]. cbn [Nat.eqb pred]. apply (down_term l x y z b n Hm).
Qed.
End AXES.

Lemma momentum_x (l : nat) : angular_momentum l 0 (wX (Z.of_nat l)).
Proof.
  intros m x y z Hm US. cbn [rotate Z.eqb].
  evar_last; [apply (sph_derive l m (fun _ => x) (fun t => y * cos t - z * sin t) (fun t => y * sin t + z * cos t) 0 (- z) y x y z)|].
  - reflexivity.
  - rewrite cos_0, sin_0. ring.
  - rewrite cos_0, sin_0. ring.
  - apply @is_derive_const.
  - auto_derive; [exact I|rewrite cos_0, sin_0; ring].
  - auto_derive; [exact I|rewrite cos_0, sin_0; ring].
  - set (mu := Z.abs_nat m). assert (Hmu : (mu <= l)%nat) by lia. set (b := (m <? 0)%Z). assert (B0 : b = true -> mu <> 0%nat) by (intros B0; apply Z.ltb_lt in B0; lia). pose proof (x_axis l mu x y z US Hmu b B0) as AX. cbv zeta in AX. rewrite AX. clear AX.
    pose proof (both_terms l mu x y z Hmu (negb b)) as TT. cbv zeta in TT. destruct TT as (T1 & T2).
    rewrite (zsum_ext _ _ _ (fun p => (if eqb (p <? 0)%Z (negb b) then if (Z.abs p =? Z.of_nat mu + 1)%Z then (if b then 1 else -1) * cc (Z.of_nat l) (Z.of_nat mu) else if (Z.of_nat mu =? Z.abs p + 1)%Z then (if b then 1 else -1) * cc (Z.of_nat l) (Z.of_nat (pred mu)) else 0 else 0) * real_sph l p x y z)).
    + match goal with |- _ = - zsum _ _ (fun p => (if _ then if _ then ?al else if _ then ?be else 0 else 0) * _) => pose proof (two_terms l x y z (negb b) mu al be Hmu) as T3 end. cbv zeta in T3. rewrite T3. clear T3. match goal with |- ?s * (?g * (?u + ?d)) = _ => replace (s * (g * (u + d))) with (g * (s * u + s * d)) by ring end. rewrite T1, T2. destruct (mu <? l)%nat, (mu =? 0)%nat, b; ring.
    + intros p Hp. f_equal. rewrite wX_eX by lia. unfold eX. fold b. replace (Z.abs m) with (Z.of_nat mu) by lia.
      destruct (p <? 0)%Z eqn:EP, b; cbn [xorb negb eqb]; try reflexivity;
        (destruct (Z.eqb_spec (Z.abs p) (Z.of_nat mu + 1)); [reflexivity|]; destruct (Z.eqb_spec (Z.of_nat mu) (Z.abs p + 1)); [|ring]; replace (Z.of_nat (pred mu)) with (Z.abs p) by lia; reflexivity).
Qed.

Lemma momentum_y (l : nat) : angular_momentum l 1 (wY (Z.of_nat l)).
Proof.
  intros m x y z Hm US. cbn [rotate Z.eqb].
  evar_last; [apply (sph_derive l m (fun t => x * cos t + z * sin t) (fun _ => y) (fun t => z * cos t - x * sin t) z 0 (- x) x y z)|].
  - rewrite cos_0, sin_0. ring.
  - reflexivity.
  - rewrite cos_0, sin_0. ring.
  - auto_derive; [exact I|rewrite cos_0, sin_0; ring].
  - apply @is_derive_const.
  - auto_derive; [exact I|rewrite cos_0, sin_0; ring].
  - set (mu := Z.abs_nat m). assert (Hmu : (mu <= l)%nat) by lia. set (b := (m <? 0)%Z). assert (B0 : b = true -> mu <> 0%nat) by (intros B0; apply Z.ltb_lt in B0; lia). pose proof (y_axis l mu x y z US Hmu b B0) as AX. cbv zeta in AX. rewrite AX. clear AX.
    pose proof (both_terms l mu x y z Hmu b) as TT. cbv zeta in TT. destruct TT as (T1 & T2).
    rewrite (zsum_ext _ _ _ (fun p => (if eqb (p <? 0)%Z b then if (Z.abs p =? Z.of_nat mu + 1)%Z then cc (Z.of_nat l) (Z.of_nat mu) else if (Z.of_nat mu =? Z.abs p + 1)%Z then - cc (Z.of_nat l) (Z.of_nat (pred mu)) else 0 else 0) * real_sph l p x y z)).
    + match goal with |- _ = - zsum _ _ (fun p => (if _ then if _ then ?al else if _ then ?be else 0 else 0) * _) => pose proof (two_terms l x y z b mu al be Hmu) as T3 end. cbv zeta in T3. rewrite T3. clear T3. match goal with |- ?s * (- ?u + ?d) = _ => replace (s * (- u + d)) with (- (s * u) + s * d) by ring end. rewrite T1, T2. destruct (mu <? l)%nat, (mu =? 0)%nat; ring.
    + intros p Hp. f_equal. rewrite wY_eY by lia. unfold eY. fold b. replace (Z.abs m) with (Z.of_nat mu) by lia.
      destruct (p <? 0)%Z eqn:EP, b; cbn [xorb negb eqb]; try reflexivity;
        (destruct (Z.eqb_spec (Z.abs p) (Z.of_nat mu + 1)); [reflexivity|]; destruct (Z.eqb_spec (Z.of_nat mu) (Z.abs p + 1)); [|ring]; replace (Z.of_nat (pred mu)) with (Z.abs p) by lia; reflexivity).
Qed.

Lemma momentum_z (l : nat) : angular_momentum l 2 (wZ (Z.of_nat l)).
Proof.
  intros m x y z Hm US. cbn [rotate Z.eqb].
  evar_last; [apply (sph_derive l m (fun t => x * cos t - y * sin t) (fun t => x * sin t + y * cos t) (fun _ => z) (- y) x 0 x y z)|].
  - rewrite cos_0, sin_0. ring.
  - rewrite cos_0, sin_0. ring.
  - reflexivity.
  - auto_derive; [exact I|rewrite cos_0, sin_0; ring].
  - auto_derive; [exact I|rewrite cos_0, sin_0; ring].
  - apply @is_derive_const.
  - pose proof (z_axis l (Z.abs_nat m) x y z ltac:(lia) (m <? 0)%Z) as AX. cbv zeta in AX. rewrite AX. clear AX. rewrite (zsum_delta _ _ (- m)%Z); [|lia|].
    + rewrite wZ_entry by lia. rewrite (proj2 (Z.eqb_eq m (- - m))) by lia. rewrite opp_IZR. pose proof (sph_H l x y z (- m)) as E. cbv zeta in E. rewrite E. clear E. replace (Z.abs_nat (- m)) with (Z.abs_nat m) by lia.
      destruct (Z.eq_dec m 0) as [-> | N]; [cbn [Z.abs_nat INR Z.opp]; ring|]. replace (- m <? 0)%Z with (negb (m <? 0)%Z) by (destruct (Z.ltb_spec m 0), (Z.ltb_spec (- m) 0); try reflexivity; lia).
      rewrite (INR_IZR_INZ (Z.abs_nat m)), Zabs2Nat.id_abs. destruct (Z.ltb_spec m 0); [rewrite Z.abs_neq, opp_IZR by lia|rewrite Z.abs_eq by lia]; ring.
    + intros p Hp Np. rewrite wZ_entry by lia. rewrite (proj2 (Z.eqb_neq m (- p))) by lia. ring.
Qed.

(** ** The matrices of the library *)
Lemma momentum_ext l k V W : (forall p q, (- Z.of_nat l <= p <= Z.of_nat l)%Z -> (- Z.of_nat l <= q <= Z.of_nat l)%Z -> V p q = W p q) -> angular_momentum l k V -> angular_momentum l k W.
Proof. intros E H m x y z Hm US. rewrite (zsum_ext _ _ _ (fun p => V p m * real_sph l p x y z)); [exact (H m x y z Hm US)|]. intros p Hp. rewrite E by lia. reflexivity. Qed.

Lemma rsh_momentum (l : nat) sz (x0 y0 z0 : arr R) : ((2 * Z.of_nat l + 1) * (2 * Z.of_nat l + 1) <= sz)%Z -> adims x0 = [sz] -> adims y0 = [sz] -> adims z0 = [sz] ->
  exists x y z X Y Z, construct_matrices_rsh (Z.of_nat l) (x0, y0, z0) = Ok (x, y, z) /\
    entries (Z.of_nat l) x X /\ entries (Z.of_nat l) y Y /\ entries (Z.of_nat l) z Z /\
    angular_momentum l 0 X /\ angular_momentum l 1 Y /\ angular_momentum l 2 Z.
Proof.
  intros Hs D1 D2 D3. destruct (rsh_ok (Z.of_nat l) sz x0 y0 z0 ltac:(lia) Hs D1 D2 D3) as (x & y & z & E & (A1 & A2 & A3) & (B1 & B2 & B3) & (C1 & C2 & C3)).
  exists x, y, z, (wX (Z.of_nat l)), (wY (Z.of_nat l)), (wZ (Z.of_nat l)). split; [exact E|]. split; [exact A2|]. split; [exact B2|]. split; [exact C2|].
  split; [apply momentum_x|]. split; [apply momentum_y|apply momentum_z].
Qed.

(** any three matrices whose entries the routine has computed *)
Lemma entries_unique L (x : arr R) X X' : entries L x X -> entries L x X' -> forall p q, (- L <= p <= L)%Z -> (- L <= q <= L)%Z -> X p q = X' p q.
Proof. intros H H' p q Hp Hq. specialize (H p q Hp Hq). specialize (H' p q Hp Hq). congruence. Qed.
