(** * The value of a potential in double precision: error bounds *)

From Coq Require Import ZArith List Lia Bool Reals Lra.
From Flocq Require Import Core.
From Verif Require Import Base CartModel CartProofs HeapModel HeapProofs HeapShrink HeapSpec FloatBase FloatCalc FloatOneEl FloatOverlap FloatPotModel.
Import ListNotations.
Open Scope R_scope.

(** the sizes of the terms without the exponentials *)
Definition term_scale (r : R) (x : Z * R * R) : R := (Rabs (p_coef x) + / 10 ^ 30) * powerRZ r (p_pow x - 2).
Fixpoint pot_scale (l : list (Z * R * R)) (r : R) : R :=
  match l with [] => 0 | x :: l' => term_scale r x + pot_scale l' r end.

(** powers 0..10, coefficients up to 1e10, exponents between 1e-8 and 1e10 *)
Definition moderate_term (x : Z * R * R) : Prop := (0 <= p_pow x <= 10)%Z /\ Rabs (p_coef x) <= 10 ^ 10 /\ / 10 ^ 8 <= p_exp x <= 10 ^ 10.

Lemma pot_scale_app l1 l2 r : pot_scale (l1 ++ l2) r = pot_scale l1 r + pot_scale l2 r.
Proof. induction l1 as [|x l1 IH]; cbn [app pot_scale]; [ring|]. rewrite IH. ring. Qed.

Lemma mag10_powerRZ e x k m : mag10 e x -> (- m <= k <= m)%Z -> mag10 (Z.to_nat m * e) (powerRZ x k).
Proof.
  intros H K. pose proof (mag10_pos _ _ H) as P. destruct k as [|q|q]; cbn [powerRZ].
  - eapply mag10_weak; [apply mag10_1|lia].
  - eapply mag10_weak; [apply mag10_pow, H|]. apply Nat.mul_le_mono_r. lia.
  - apply mag10_inv. eapply mag10_weak; [apply mag10_pow, H|]. apply Nat.mul_le_mono_r. lia.
Qed.

Lemma fl_exp_ok lexp t u k : libm_exp lexp -> 0 <= t -> ap k t (- t) u -> 0 <= k <= 100 -> exists e, lexp u = Ok e /\ ap (k + 21 / 10) 1 (exp (- t)) e.
Proof.
  intros HL T0 (_ & Hu) K. pose proof ulp1_pos as U. assert (TE : Rabs (- u - t) <= k * ulp1 * (1 + t)).
  { replace (- u - t) with (- (u - - t)) by ring. rewrite Rabs_Ropp. eapply Rle_trans; [exact Hu|]. apply Rmult_le_compat_l; [apply Rmult_le_pos; lra|lra]. }
  pose proof (ap_exp k t (- u) T0 TE ltac:(lra)) as HE. rewrite Ropp_involutive in HE.
  assert (KU : k * ulp1 <= 1 / 1000) by (apply Rle_trans with (100 * (12 / 10 ^ 17)); [apply Rmult_le_compat; lra|lra]).
  assert (UT : k * ulp1 * (1 + t) <= 1 / 1000 * (1 + t)) by (apply Rmult_le_compat_r; lra).
  assert (T1 : u <= 1) by (apply Rabs_le_inv in TE; lra). destruct (HL u T1) as (e & -> & He). exists e. split; [reflexivity|].
  destruct HE as (HE1 & HE2). split; [exact HE1|]. replace (e - exp (- t)) with ((e - exp u) + (exp u - exp (- t))) by ring. eapply Rle_trans; [apply Rabs_triang|].
  assert (KU' : (k + 1 / 1000) * ulp1 * 1 <= 1 / 100) by lra.
  assert (X2 : exp u <= 101 / 100) by (replace (exp u) with (exp (- t) + (exp u - exp (- t))) by ring; eapply Rle_trans; [apply Rle_abs|]; eapply Rle_trans; [apply Rabs_triang|]; lra).
  assert (Y : 2 * ulp1 * exp u <= 2 * ulp1 * (101 / 100)) by (apply Rmult_le_compat_l; lra).
  assert (Z : / 2 ^ 1070 <= 1 / 100 * ulp1). { apply Rle_trans with tiny; [apply small_power; lia|unfold tiny, ulp1; lra]. } lra.
Qed.

Section Radius.
Variable r : R.
Hypothesis Hr : / 10 ^ 10 <= r <= 10 ^ 4.

Lemma mag_r : mag10 10 r. Proof. split; [lra|]. apply Rle_trans with (10 ^ 4); [lra|]. apply Rle_pow; [lra|lia]. Qed.

Lemma mag_term x : moderate_term x -> mag10 120 (term_scale r x).
Proof.
  intros (N & C & _). unfold term_scale. replace 120%nat with (30 + 90)%nat by reflexivity. pose proof (Rabs_pos (p_coef x)) as P. apply mag10_mul.
  - split; [lra|]. apply Rle_trans with (10 ^ 10 + 1); [lra|]. apply Rle_trans with (10 ^ 11); [lra|apply Rle_pow; [lra|lia]].
  - eapply mag10_weak; [apply (mag10_powerRZ 10 r _ 8 mag_r); lia|lia].
Qed.

Lemma scale_pos x : moderate_term x -> 0 < term_scale r x. Proof. intros H. exact (mag10_pos _ _ (mag_term x H)). Qed.

Lemma pot_scale_bound l : Forall moderate_term l -> 0 <= pot_scale l r <= INR (length l) * 10 ^ 120.
Proof.
  induction 1 as [|x l H _ IH]; cbn [pot_scale length]; [cbn [INR]; lra|]. rewrite S_INR. pose proof (mag_term x H) as M. pose proof (scale_pos x H) as P. destruct M as (_ & M). lra.
Qed.

(** one term *)
Lemma fl_term_ok lexp lpow n c a r_2 : libm_exp lexp -> libm_pow lpow -> moderate_term (n, c, a) -> ap (102 / 100) (r * r) (r * r) r_2 ->
  exists pw s u e t, lpow r (IZR (n - 2)) = Ok pw /\ fl (c * pw) = Ok s /\ fl (- a * r_2) = Ok u /\ lexp u = Ok e /\ fl (s * e) = Ok t /\
    ap 9 (term_scale r (n, c, a)) (c * radial_term (n, c, a) r) t.
Proof.
  intros HE HP MT H2. pose proof (mag_term _ MT) as MM. destruct MT as (N & C & A). unfold term_scale, radial_term, rpow_int in *. cbn [p_pow p_coef p_exp fst snd] in *.
  pose proof mag_r as MR. pose proof (mag10_pos _ _ MR) as R0. pose proof (mag10_powerRZ 10 r (n - 2) 8 MR ltac:(lia)) as MP. pose proof (mag10_inr _ _ MP ltac:(lia)) as (I1 & I2). pose proof (mag10_pos _ _ MP) as PP.
  destruct (HP r (IZR (n - 2)) R0) as (pw & Epw & Hw); [rewrite <- powerRZ_Rpower by exact R0; unfold lo, hi in *; split; assumption|]. rewrite <- powerRZ_Rpower in Hw by exact R0.
  set (P := powerRZ r (n - 2)) in *. assert (Aw : ap 2 P P pw) by (split; [rewrite Rabs_pos_eq; lra|exact Hw]).
  assert (Ac : ap 0 (Rabs c + / 10 ^ 30) c c) by (apply ap_exact; lra).
  destruct (ap_fmul _ _ _ _ _ _ _ _ Ac Aw ltac:(lra) ltac:(lra) (mag10_inr _ _ MM ltac:(lia))) as (t & Et & Ht).
  assert (MA : mag10 10 a) by (split; [apply Rle_trans with (/ 10 ^ 8); [lra|lra]|lra]). assert (Aa : ap 0 a (- a) (- a)) by (apply ap_exact; rewrite Rabs_Ropp, Rabs_pos_eq; lra).
  destruct (ap_fmul _ _ _ _ _ _ _ _ Aa H2 ltac:(lra) ltac:(lra) (mag10_inr _ _ (mag10_mul _ _ _ _ MA (mag10_mul _ _ _ _ MR MR)) ltac:(lia))) as (u & Eu & Hu).
  assert (T0 : 0 <= a * (r * r)) by (apply Rmult_le_pos; [lra|apply Rmult_le_pos; lra]). replace (- a * (r * r)) with (- (a * (r * r))) in * by ring.
  destruct (fl_exp_ok lexp _ _ _ HE T0 Hu ltac:(lra)) as (e & Ee & He).
  destruct (ap_fmul _ _ _ 1 _ _ _ _ Ht He ltac:(lra) ltac:(lra) ltac:(rewrite Rmult_1_r; exact (mag10_inr _ _ MM ltac:(lia)))) as (v & Ev & Hv). exists pw, t, u, e, v. split; [exact Epw|]. split; [exact Et|]. split; [exact Eu|]. split; [exact Ee|]. split; [exact Ev|]. rewrite Rmult_1_r in Hv. rewrite <- Rmult_assoc.
  eapply ap_weak; [exact Hv|lra|lra|lra].
Qed.
End Radius.

Lemma fl_potential_thm lexp lpow h p v r : libm_exp lexp -> libm_pow lpow -> heap_wf h -> pot_at h p v -> / 10 ^ 10 <= r <= 10 ^ 4 -> (forall x, In x (pv_prims v) -> moderate_term x) -> (length (pv_prims v) <= 1000)%nat ->
  exists y, fl_potential_value lexp lpow h p r = Ok y /\ Rabs (y - radial_sum (pv_prims v) r) <= (9 + 2 * INR (length (pv_prims v))) / 2 ^ 53 * pot_scale (pv_prims v) r.
Proof.
  intros HE HP W (x & lp & lc & la & Ex & (Hp & Hc & Ha) & _ & Hn & Hnc & Hna & _ & _ & EP) Hr HM HL. pose proof (proj2 W _ _ Ex) as Wx. unfold fl_potential_value, load_pot, hload.
  destruct (Z.eqb_spec p 0) as [P0|P0]; [lia|]. rewrite Ex. cbn [bind]. pose proof (mag_r r Hr) as MR. pose proof (mag10_pos _ _ MR) as R0.
  assert (A0 : ap 0 r r r) by (apply ap_exact; rewrite Rabs_pos_eq; lra).
  destruct (ap_fmul _ _ _ _ _ _ _ _ A0 A0 ltac:(lra) ltac:(lra) (mag10_inr _ _ (mag10_mul _ _ _ _ MR MR) ltac:(lia))) as (r2 & -> & H2). cbn [bind].
  assert (H2' : ap (102 / 100) (r * r) (r * r) r2) by (eapply ap_weak; [exact H2|lra|lra|lra]). clear H2.
  set (Z3 := zip3 lp lc la) in *. assert (LZ : (Z.to_nat (pot_num x) <= length Z3)%nat) by (apply zip3_length; lia).
  assert (LP : length (pv_prims v) = Z.to_nat (pot_num x)) by (rewrite EP, firstn_length; lia).
  assert (FM : forall k, (k <= Z.to_nat (pot_num x))%nat -> Forall moderate_term (firstn k Z3)).
  { intros k Hk. apply Forall_forall. intros y Hy. apply HM. rewrite EP. rewrite <- (firstn_skipn k (firstn (Z.to_nat (pot_num x)) Z3)). apply in_or_app. left. rewrite firstn_firstn, Nat.min_l by lia. exact Hy. }
  match goal with |- exists y, for_range 0 ?n ?b 0 = Ok y /\ _ => destruct (for_range_ok (fun i val => ap (9 + 101 / 100 * IZR i) (pot_scale (firstn (Z.to_nat i) Z3) r) (radial_sum (firstn (Z.to_nat i) Z3) r) val) 0 n b 0) as (y & E & Y) end.
  - lia.
  - cbn [Z.to_nat firstn pot_scale radial_sum]. split; [rewrite Rabs_R0; lra|rewrite Rminus_eq_0, Rabs_R0; lra].
  - intros i val Hi IH. destruct (elem_in_list lc i) as (c & _ & Ec); [lia|]. destruct (elem_in_list la i) as (a & _ & Ea); [lia|]. destruct (elem_in_list lp i) as (e & _ & Ep); [lia|].
    rewrite (get_int_ok h _ _ i e W Hp Ep), (get_dbl_ok h _ _ i c W Hc Ec), (get_dbl_ok h _ _ i a W Ha Ea) by lia. cbn [bind].
    pose proof (zip3_nth lp lc la (Z.to_nat i) e c a Ep Ec Ea) as EZ. fold Z3 in EZ. pose proof (firstn_snoc Z3 (Z.to_nat i) (e, c, a) EZ) as FS.
    pose proof (FM (S (Z.to_nat i)) ltac:(lia)) as F1. rewrite FS in F1. apply Forall_app in F1. destruct F1 as (F1 & F2). inversion F2 as [|? ? MT _]; subst.
    destruct (fl_term_ok r Hr lexp lpow e c a r2 HE HP MT H2') as (pw & s & u & ex & t & -> & E1 & E2 & E3 & E4 & Ht). cbn [bind]. rewrite E1. cbn [bind]. rewrite E2. cbn [bind]. rewrite E3. cbn [bind]. rewrite E4. cbn [bind].
    pose proof (IZR_le _ _ (proj1 Hi)) as I0. assert (I1 : IZR i <= 1000) by (replace 1000 with (IZR 1000) by reflexivity; apply IZR_le; lia).
    destruct (pot_scale_bound r Hr _ F1) as (B0 & B1). pose proof (mag_term r Hr _ MT) as MM.
    assert (IR : inr (pot_scale (firstn (Z.to_nat i) Z3) r + term_scale r (e, c, a))).
    { assert (M2 : mag10 130 (10 ^ 130)) by (split; [apply Rle_trans with 1; [rewrite <- Rinv_1; apply Rinv_le_contravar; [lra|]|]; apply pow_R1_Rle; lra|lra]).
      apply (inr_between 120 130 (term_scale r (e, c, a)) _ (10 ^ 130)); [exact MM|lra| |exact M2|lia|lia].
      assert (LL : INR (length (firstn (Z.to_nat i) Z3)) <= 1000) by (replace 1000 with (INR 1000) by (rewrite INR_IZR_INZ; reflexivity); apply le_INR; rewrite firstn_length; lia).
      assert (X1 : INR (length (firstn (Z.to_nat i) Z3)) * 10 ^ 120 <= 1000 * 10 ^ 120) by (apply Rmult_le_compat_r; [apply pow_le; lra|exact LL]).
      destruct MM as (_ & MM). replace (10 ^ 130) with (10 ^ 10 * 10 ^ 120) by (rewrite <- pow_add; reflexivity). assert (0 < 10 ^ 120) by (apply pow_lt; lra). lra. }
    destruct (ap_fadd (9 + 101 / 100 * IZR i) _ _ _ _ _ _ _ _ IH Ht ltac:(lra) ltac:(lra) ltac:(lra) IR) as (w & -> & Hw). exists w. split; [reflexivity|].
    replace (Z.to_nat (i + 1)) with (S (Z.to_nat i)) by lia. rewrite FS, pot_scale_app, radial_sum_app. cbn [pot_scale radial_sum]. rewrite !Rplus_0_r. cbn [p_coef fst snd]. rewrite plus_IZR.
    replace (9 + 101 / 100 * (IZR i + 1)) with (9 + 101 / 100 * IZR i + 101 / 100) by ring. exact Hw.
  - exists y. split; [exact E|]. destruct Y as (_ & Y). rewrite <- EP in Y. eapply Rle_trans; [exact Y|]. rewrite LP, INR_IZR_INZ, Z2Nat.id by lia. pose proof (IZR_le _ _ (proj1 Hn)) as N0.
    assert (S0 : 0 <= pot_scale (pv_prims v) r) by (rewrite EP; apply (pot_scale_bound r Hr _ (FM _ (Nat.le_refl _)))). apply Rmult_le_compat_r; [exact S0|]. unfold ulp1. lra.
Qed.
