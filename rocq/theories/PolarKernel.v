(** * Superpositions of Gaussians: the two orders of integration give the same *)

From Coq Require Import ZArith List Lia Bool Reals Lra.
From Coquelicot Require Import Coquelicot.
From Verif Require Import Base Loops Sums GaussInt GaussProd CartModel CartProofs HeapModel HeapProofs HeapSpec
  OneElModel OneElProofs OneElPairs OneElSpec OneElInt OneElThms ParamsModel NucPotSpec NucPot NucModel NucProofs RadialModel RadialSpec RadialTables RadialMiss SpecSpec SphModel SphSpec SphProofs SphInt SphOrtho SphAngular SphAdd SphThms Type2Spec
  LocalModel LocalSpec LocalAcc LocalThms NucBound Definite RotSphere RotProj GrppRigid FiniteNuc GaussMoment PolarInt PolarSpace MmdSpec MmdInt.
From Verif Require RigidPoly Rigid RigidThms Type2Radial.
Import ListNotations.
Open Scope R_scope.

Lemma c2_fst (f : R -> R) x y : continuous f x -> continuity_2d_pt (fun u v => f u) x y.
Proof. intros H. apply (continuity_1d_2d_pt_comp f (fun u v => u)); [apply continuity_pt_filterlim, H|apply continuity_2d_pt_id1]. Qed.
Lemma c2_snd (f : R -> R) x y : continuous f y -> continuity_2d_pt (fun u v => f v) x y.
Proof. intros H. apply (continuity_1d_2d_pt_comp f (fun u v => v)); [apply continuity_pt_filterlim, H|apply continuity_2d_pt_id2]. Qed.
Lemma c2_gauss x y : continuity_2d_pt (fun u v => exp (- (u ^ 2 * v ^ 2))) x y.
Proof.
  apply (continuity_1d_2d_pt_comp exp (fun u v => - (u ^ 2 * v ^ 2))); [apply derivable_continuous_pt, derivable_pt_exp|]. apply continuity_2d_pt_opp. apply continuity_2d_pt_mult.
  - apply (c2_fst (fun u => u ^ 2)). apply (ex_derive_continuous (V := R_NormedModule)). auto_derive. exact I.
  - apply (c2_snd (fun u => u ^ 2)). apply (ex_derive_continuous (V := R_NormedModule)). auto_derive. exact I.
Qed.

Section Exchange.
Variables (f w : R -> R) (Hf : forall r, continuous f r) (Hw : forall u, continuous w u).

(** both are parameter integrals over [0, b] of a function c(t) exp(-(x^2 t^2)) *)
Definition pint (c : R -> R) (b x : R) : R := RInt (fun t => c t * exp (- (x ^ 2 * t ^ 2))) 0 b.

Lemma pint_fun_cont c x t : (forall t, continuous c t) -> continuous (fun t : R => c t * exp (- (x ^ 2 * t ^ 2))) t.
Proof.
  intros Hc. apply (continuous_mult_R c (fun t => exp (- (x ^ 2 * t ^ 2)))); [apply Hc|]. apply (ex_derive_continuous (V := R_NormedModule)). auto_derive. exact I.
Qed.
Lemma pint_ex c b x : (forall t, continuous c t) -> ex_RInt (fun t => c t * exp (- (x ^ 2 * t ^ 2))) 0 b.
Proof. intros Hc. apply (ex_RInt_continuous (V := R_CompleteNormedModule)). intros t _. apply pint_fun_cont, Hc. Qed.
Lemma pint_is c b x : (forall t, continuous c t) -> is_RInt (fun t => c t * exp (- (x ^ 2 * t ^ 2))) 0 b (pint c b x).
Proof. intros Hc. apply (RInt_correct (V := R_CompleteNormedModule)), pint_ex, Hc. Qed.

Lemma pint_cont c b x : (forall t, continuous c t) -> continuous (pint c b) x.
Proof.
  intros Hc. apply (ex_derive_continuous (V := R_NormedModule)). eexists. unfold pint. apply (is_derive_RInt_param (fun x t => c t * exp (- (x ^ 2 * t ^ 2))) 0 b x).
  - exists (mkposreal 1 Rlt_0_1). intros y _ t _. auto_derive. exact I.
  - intros t _. apply (continuity_2d_pt_ext (fun u v => c v * (- (2 * u * v ^ 2) * exp (- (u ^ 2 * v ^ 2))))).
    + intros u v. symmetry. apply is_derive_unique. auto_derive; [exact I|]. req. cbn [pow]. ring.
    + apply continuity_2d_pt_mult; [apply c2_snd, Hc|]. apply continuity_2d_pt_mult; [|apply c2_gauss]. apply continuity_2d_pt_opp. apply continuity_2d_pt_mult.
      * apply (c2_fst (fun u => 2 * u)). apply (ex_derive_continuous (V := R_NormedModule)). auto_derive. exact I.
      * apply (c2_snd (fun u => u ^ 2)). apply (ex_derive_continuous (V := R_NormedModule)). auto_derive. exact I.
  - exists (mkposreal 1 Rlt_0_1). intros y _. apply pint_ex, Hc.
Qed.

Lemma pint_derive r N : is_derive (fun N => pint w N r) N (w N * exp (- (r ^ 2 * N ^ 2))).
Proof.
  unfold pint. apply (is_derive_RInt (fun t => w t * exp (- (r ^ 2 * t ^ 2))) (fun N => RInt (fun t => w t * exp (- (r ^ 2 * t ^ 2))) 0 N) 0 N).
  - exists (mkposreal 1 Rlt_0_1). intros y _. apply (RInt_correct (V := R_CompleteNormedModule)), pint_ex, Hw.
  - apply pint_fun_cont, Hw.
Qed.

Lemma exchange T N : is_RInt (fun u => w u * pint f T u) 0 N (RInt (fun r => f r * pint w N r) 0 T).
Proof.
  assert (D : forall N, is_derive (fun N => RInt (fun r => f r * pint w N r) 0 T) N (w N * pint f T N)).
  { clear N. intros N. eapply is_derive_eq; [apply (is_derive_RInt_param (fun N r => f r * pint w N r) 0 T N)|].
    - exists (mkposreal 1 Rlt_0_1). intros y _ t _. eexists. apply (is_derive_scal (fun N => pint w N t)), pint_derive.
    - intros t _. apply (continuity_2d_pt_ext (fun u v => f v * (w u * exp (- (u ^ 2 * v ^ 2))))).
      + intros u v. symmetry. apply is_derive_unique. replace (u ^ 2 * v ^ 2) with (v ^ 2 * u ^ 2) by ring. apply (is_derive_scal (fun N => pint w N v)), pint_derive.
      + apply continuity_2d_pt_mult; [apply c2_snd, Hf|]. apply continuity_2d_pt_mult; [apply c2_fst, Hw|apply c2_gauss].
    - exists (mkposreal 1 Rlt_0_1). intros y _. apply (ex_RInt_continuous (V := R_CompleteNormedModule)). intros t _. apply (continuous_mult_R f (pint w y)); [apply Hf|apply pint_cont, Hw].
    - apply is_RInt_unique. eapply is_RInt_ext; [|apply (is_RInt_scal (V := R_NormedModule) _ 0 T (w N) _ (pint_is f T N Hf))]. intros t _. symmetry. apply is_derive_unique. eapply is_derive_eq; [apply (is_derive_scal (fun N => pint w N t)), pint_derive|]. change (f t * (w N * exp (- (t ^ 2 * N ^ 2))) = w N * (f t * exp (- (N ^ 2 * t ^ 2)))). replace (N ^ 2 * t ^ 2) with (t ^ 2 * N ^ 2) by ring. ring. }
  set (A := fun N => RInt (fun r => f r * pint w N r) 0 T) in *.
  assert (A0 : A 0 = 0).
  { unfold A. transitivity (RInt (fun _ : R => 0) 0 T); [|rewrite RInt_const; unfold scal; cbn; unfold mult; cbn; ring]. apply RInt_ext. intros t _. unfold pint. rewrite (RInt_point (V := R_CompleteNormedModule) 0). unfold zero. cbn. ring. }
  replace (RInt (fun r => f r * pint w N r) 0 T) with (A N - A 0) by (rewrite A0; unfold A; ring). apply (is_RInt_derive A (fun u => w u * pint f T u)).
  - intros x _. apply D.
  - intros x _. apply (continuous_mult_R w (pint f T)); [apply Hw|apply pint_cont, Hf].
Qed.
End Exchange.

(** ** The tail of r^2 e^(-r) *)
Definition tail (x : R) : R := (x ^ 2 + 2 * x + 2) * exp (- x).
Lemma tail_int a b : is_RInt (fun r => r ^ 2 * exp (- r)) a b (tail a - tail b).
Proof.
  replace (tail a - tail b) with ((fun x => - tail x) b - (fun x => - tail x) a) by (cbv beta; ring). apply (is_RInt_derive (fun x => - tail x) (fun r => r ^ 2 * exp (- r))).
  - intros x _. unfold tail. auto_derive; [exact I|]. req. cbn [pow]. ring.
  - intros x _. apply (ex_derive_continuous (V := R_NormedModule)). auto_derive. exact I.
Qed.
Lemma tail_pos x : 0 <= x -> 0 <= tail x.
Proof. intros H. apply Rmult_le_pos; [pose proof (pow2_ge_0 x); lra|left; apply exp_pos]. Qed.
Lemma tail_lim : is_lim tail p_infty 0.
Proof.
  assert (B : is_lim (fun x => 5 * (x ^ 2 * exp (- x))) p_infty 0) by (replace (Finite 0) with (Rbar_mult 5 0) by (cbn; f_equal; ring); apply is_lim_scal_l, decay_lim).
  apply (is_lim_le_le_loc (fun _ => 0) (fun x => 5 * (x ^ 2 * exp (- x)))); [|apply is_lim_const|exact B].
  exists 1. intros x Hx. split; [apply tail_pos; lra|]. unfold tail. rewrite <- Rmult_assoc. apply Rmult_le_compat_r; [left; apply exp_pos|]. nra.
Qed.

(** ** Bounds *)
Lemma rint_bound (f h : R -> R) a b v V : a <= b -> is_RInt f a b v -> is_RInt h a b V -> (forall x, a < x < b -> Rabs (f x) <= h x) -> Rabs v <= V.
Proof.
  intros Hab Hf Hh B. apply Rabs_le. split.
  - apply (is_RInt_le (fun x => - h x) f a b (- V) v Hab); [apply (is_RInt_opp (V := R_NormedModule) h a b V Hh)|exact Hf|]. intros x Hx. specialize (B x Hx). apply Rabs_le_between in B. lra.
  - apply (is_RInt_le f h a b v V Hab Hf Hh). intros x Hx. specialize (B x Hx). apply Rabs_le_between in B. lra.
Qed.

Lemma add_sub (x y : R) : x + y - x = y.
Proof. ring. Qed.
Lemma half_tail (f : R -> R) v a B : half_int f v -> 0 < a -> (forall S, a < S -> Rabs (RInt f a S) <= B) -> Rabs (v - RInt f 0 a) <= B.
Proof.
  intros (E & L) Ha H. assert (G : forall S, a < S -> Rabs (RInt f 0 S - RInt f 0 a) <= B).
  { intros S HS. rewrite <- (RInt_Chasles (V := R_CompleteNormedModule) f 0 a S).
    - change (plus (RInt f 0 a) (RInt f a S)) with (RInt f 0 a + RInt f a S). pose proof (H S HS) as X. rewrite add_sub. exact X.
    - apply E, Ha.
    - apply (ex_RInt_Chasles_2 (V := R_CompleteNormedModule) f 0 a S); [lra|]. apply E. lra. }
  apply Rabs_le. assert (P : forall S, a < S -> - B + RInt f 0 a <= RInt f 0 S <= B + RInt f 0 a).
  { intros S HS. specialize (G S HS). apply Rabs_le_between in G. lra. }
  assert (Q1 : Rbar_le (- B + RInt f 0 a) v). { apply (is_lim_le_loc (fun _ => - B + RInt f 0 a) (fun S => RInt f 0 S) p_infty); [|apply is_lim_const|exact L]. exists a. intros S HS. apply P, HS. }
  assert (Q2 : Rbar_le v (B + RInt f 0 a)). { apply (is_lim_le_loc (fun S => RInt f 0 S) (fun _ => B + RInt f 0 a) p_infty); [|exact L|apply is_lim_const]. exists a. intros S HS. apply P, HS. }
  change (- B + RInt f 0 a <= v) in Q1. change (v <= B + RInt f 0 a) in Q2. split; lra.
Qed.

(** [w] is the weight of the kernel [U] *)
Definition weight_of (w U : R -> R) : Prop :=
  (forall u, continuous w u) /\ (forall u, 0 < u -> 0 <= w u) /\ (exists c, 0 <= c /\ forall u, 1 <= u -> w u <= c * u) /\
  (forall N, 0 < N -> exists M, 0 <= M /\ forall u, 0 < u < N -> w u <= M) /\
  (forall r, 0 < r -> half_int (fun u => w u * exp (- (u ^ 2 * r ^ 2))) (U r)) /\
  exists V : R -> R, (forall r, continuous V r) /\ forall r, 0 < r -> r ^ 2 * U r = V r.

Lemma w1_weight : weight_of w1 (fun r => 1 / r).
Proof.
  assert (P : 0 < 2 / sqrt PI) by (apply Rdiv_lt_0_compat; [lra|apply sqrt_lt_R0, PI_RGT_0]). unfold w1. repeat split.
  - intros u. apply continuous_const.
  - intros u _. lra.
  - exists (2 / sqrt PI). split; [lra|]. intros u Hu. rewrite <- (Rmult_1_r (2 / sqrt PI)) at 1. apply Rmult_le_compat_l; lra.
  - intros N HN. exists (2 / sqrt PI). split; [lra|]. intros u _. lra.
  - apply one_over_r. assumption.
  - apply one_over_r. assumption.
  - exists (fun r => r). split; [intros r; apply continuous_id|]. intros r Hr. field. lra.
Qed.
Lemma w2_weight : weight_of w2 (fun r => 1 / r ^ 2).
Proof.
  unfold w2. repeat split.
  - intros u. apply (ex_derive_continuous (V := R_NormedModule)). auto_derive. exact I.
  - intros u Hu. lra.
  - exists 2. split; [lra|]. intros u Hu. lra.
  - intros N HN. exists (2 * N). split; [lra|]. intros u Hu. lra.
  - apply one_over_r2. assumption.
  - apply one_over_r2. assumption.
  - exists (fun r => 1). split; [intros r; apply continuous_const|]. intros r Hr. field. lra.
Qed.

Section Kernel.
Variables (w U g : R -> R) (II : R -> R) (Q : R).
Hypothesis HW : weight_of w U.
Hypothesis Hg : quick g.
Hypothesis HI : forall u, 0 < u -> half_int (fun r => r ^ 2 * g r * exp (- (u ^ 2 * r ^ 2))) (II u).
Hypothesis HQ : half_int (fun u => w u * II u) Q.

Let phi (r : R) : R := r ^ 2 * g r.
Lemma phi_cont r : continuous phi r.
Proof. apply (continuous_mult_R (fun r => r ^ 2) g); [|apply Hg]. apply (ex_derive_continuous (V := R_NormedModule)). auto_derive. exact I. Qed.

Lemma kernel_short c N r : 0 <= c -> (forall u, 1 <= u -> w u <= c * u) -> 1 <= N -> 0 < r -> Rabs (U r - pint w N r) <= c / 2 * exp (- (N ^ 2 * r ^ 2)) / r ^ 2.
Proof.
  intros Hc Bc HN Hr. destruct HW as (Hw & W0 & _ & _ & HU & _). assert (Hr2 : 0 < r ^ 2) by (apply pow_lt, Hr).
  replace (pint w N r) with (RInt (fun u => w u * exp (- (u ^ 2 * r ^ 2))) 0 N) by (unfold pint; apply RInt_ext; intros t _; rewrite (Rmult_comm (t ^ 2)); reflexivity).
  apply half_tail; [apply HU, Hr|lra|]. intros S HS.
  assert (E : is_RInt (fun u => w u * exp (- (u ^ 2 * r ^ 2))) N S (RInt (fun u => w u * exp (- (u ^ 2 * r ^ 2))) N S)).
  { apply (RInt_correct (V := R_CompleteNormedModule)). apply (ex_RInt_continuous (V := R_CompleteNormedModule)). intros t _. apply (continuous_mult_R w (fun t => exp (- (t ^ 2 * r ^ 2)))); [apply Hw|]. apply (ex_derive_continuous (V := R_NormedModule)). auto_derive. exact I. }
  assert (D : is_RInt (fun u => c * u * exp (- (u ^ 2 * r ^ 2))) N S (- (c / 2 * exp (- (S ^ 2 * r ^ 2)) / r ^ 2) - - (c / 2 * exp (- (N ^ 2 * r ^ 2)) / r ^ 2))).
  { apply (is_RInt_derive (fun u => - (c / 2 * exp (- (u ^ 2 * r ^ 2)) / r ^ 2)) (fun u => c * u * exp (- (u ^ 2 * r ^ 2)))).
    - intros x _. auto_derive; [exact I|]. req. cbn [pow]. field. lra.
    - intros x _. apply (ex_derive_continuous (V := R_NormedModule)). auto_derive. exact I. }
  eapply Rle_trans; [apply (rint_bound _ _ N S _ _ ltac:(lra) E D)|].
  - intros x Hx. rewrite Rabs_mult, (Rabs_pos_eq (exp _)) by (left; apply exp_pos). apply Rmult_le_compat_r; [left; apply exp_pos|]. rewrite Rabs_pos_eq by (apply W0; lra). apply Bc. lra.
  - assert (0 <= c / 2 * exp (- (S ^ 2 * r ^ 2)) / r ^ 2); [|lra]. apply Rmult_le_pos; [apply Rmult_le_pos; [lra|left; apply exp_pos]|left; apply Rinv_0_lt_compat, Hr2].
Qed.

Lemma gauss_tail K T u : 0 <= K -> (forall r, 0 < r -> Rabs (g r) <= K * exp (- r)) -> 0 < T -> 0 < u -> Rabs (II u - pint phi T u) <= K * tail T.
Proof.
  intros HK B HT Hu. unfold pint. apply half_tail; [apply HI, Hu|exact HT|]. intros S HS.
  assert (E : is_RInt (fun r => phi r * exp (- (u ^ 2 * r ^ 2))) T S (RInt (fun r => phi r * exp (- (u ^ 2 * r ^ 2))) T S)).
  { apply (RInt_correct (V := R_CompleteNormedModule)). apply (ex_RInt_continuous (V := R_CompleteNormedModule)). intros t _. apply pint_fun_cont, phi_cont. }
  eapply Rle_trans; [apply (rint_bound _ _ T S _ _ ltac:(lra) E (is_RInt_scal (V := R_NormedModule) _ T S K _ (tail_int T S)))|].
  - intros x Hx. change (scal K (x ^ 2 * exp (- x))) with (K * (x ^ 2 * exp (- x))). unfold phi. rewrite !Rabs_mult, (Rabs_pos_eq (x ^ 2)), (Rabs_pos_eq (exp _)) by (apply pow2_ge_0 || left; apply exp_pos).
    specialize (B x ltac:(lra)). assert (E1 : exp (- (u ^ 2 * x ^ 2)) <= 1). { rewrite <- exp_0. apply exp_le. pose proof (Rmult_le_pos _ _ (pow2_ge_0 u) (pow2_ge_0 x)). lra. }
    pose proof (exp_pos (- (u ^ 2 * x ^ 2))). pose proof (exp_pos (- x)). apply (Rle_trans _ (x ^ 2 * (K * exp (- x)) * 1)); [|lra]. apply Rmult_le_compat; try lra.
    + apply Rmult_le_pos; [apply pow2_ge_0|apply Rabs_pos].
    + apply Rmult_le_compat_l; [apply pow2_ge_0|exact B].
  - change (scal K (tail T - tail S)) with (K * (tail T - tail S)). apply Rmult_le_compat_l; [exact HK|]. pose proof (tail_pos S ltac:(lra)). lra.
Qed.

Lemma kernel_ex T : 0 < T -> ex_RInt (fun r => r ^ 2 * U r * g r) 0 T.
Proof.
  intros HT. destruct HW as (_ & _ & _ & _ & _ & V & HV & E). apply (ex_RInt_ext (fun r => V r * g r)).
  - intros x Hx. rewrite Rmin_left, Rmax_right in Hx by lra. rewrite <- E by lra. reflexivity.
  - apply (ex_RInt_continuous (V := R_CompleteNormedModule)). intros t _. apply (continuous_mult_R V g); [apply HV|apply Hg].
Qed.

Lemma kernel_error : exists A : R -> R, is_lim A p_infty 0 /\ forall N, 1 <= N -> exists B, forall T, 0 < T -> Rabs (RInt (fun r => r ^ 2 * U r * g r) 0 T - RInt (fun u => w u * II u) 0 N) <= A N + B * tail T.
Proof.
  destruct HW as (Hw & W0 & (c & Hc & Bc) & WM & _ & _). destruct Hg as (Cg & K & HK & Bg).
  exists (fun N => K * (c / 2) * exp 1 / N). split.
  { replace (Finite 0) with (Rbar_mult (K * (c / 2) * exp 1) 0) by (cbn; f_equal; ring). apply is_lim_scal_l. apply (is_lim_ext (fun N => / N)); [reflexivity|]. replace (Finite 0) with (Rbar_inv p_infty) by reflexivity. apply is_lim_inv; [apply is_lim_id|discriminate]. }
  intros N HN. destruct (WM N ltac:(lra)) as (M & M0 & MB). exists (N * (M * K)). intros T HT.
  assert (E1 : is_RInt (fun r => phi r * pint w N r) 0 T (RInt (fun r => phi r * pint w N r) 0 T)).
  { apply (RInt_correct (V := R_CompleteNormedModule)). apply (ex_RInt_continuous (V := R_CompleteNormedModule)). intros t _. apply (continuous_mult_R phi (pint w N)); [apply phi_cont|apply pint_cont, Hw]. }
  set (Y := RInt (fun r => phi r * pint w N r) 0 T) in *.
  assert (S1 : Rabs (RInt (fun r => r ^ 2 * U r * g r) 0 T - Y) <= K * (c / 2) * exp 1 / N).
  { assert (D : is_RInt (fun r => K * (c / 2) * exp 1 * exp (- (N * r))) 0 T (- (K * (c / 2) * exp 1 / N * exp (- (N * T))) - - (K * (c / 2) * exp 1 / N * exp (- (N * 0))))).
    { apply (is_RInt_derive (fun r => - (K * (c / 2) * exp 1 / N * exp (- (N * r)))) (fun r => K * (c / 2) * exp 1 * exp (- (N * r)))).
      - intros x _. auto_derive; [exact I|]. req. field. lra.
      - intros x _. apply (ex_derive_continuous (V := R_NormedModule)). auto_derive. exact I. }
    eapply Rle_trans; [apply (rint_bound _ _ 0 T _ _ ltac:(lra) (is_RInt_minus (V := R_NormedModule) _ _ 0 T _ _ (RInt_correct (V := R_CompleteNormedModule) _ 0 T (kernel_ex T HT)) E1) D)|].
    - intros r Hr. cbv beta. change (Rabs (r ^ 2 * U r * g r - phi r * pint w N r) <= K * (c / 2) * exp 1 * exp (- (N * r))). unfold phi. replace (r ^ 2 * U r * g r - r ^ 2 * g r * pint w N r) with (g r * (r ^ 2 * (U r - pint w N r))) by ring. rewrite Rabs_mult, Rabs_mult, (Rabs_pos_eq (r ^ 2)) by apply pow2_ge_0.
      pose proof (kernel_short c N r Hc Bc HN ltac:(lra)) as KS. specialize (Bg r ltac:(lra)). assert (Hr2 : 0 < r ^ 2) by (apply pow_lt; lra).
      assert (X1 : Rabs (g r) <= K). { eapply Rle_trans; [exact Bg|]. rewrite <- (Rmult_1_r K) at 2. apply Rmult_le_compat_l; [exact HK|]. rewrite <- exp_0. apply exp_le. lra. }
      assert (X2 : r ^ 2 * Rabs (U r - pint w N r) <= c / 2 * (exp 1 * exp (- (N * r)))).
      { eapply Rle_trans; [apply Rmult_le_compat_l; [lra|exact KS]|]. replace (r ^ 2 * (c / 2 * exp (- (N ^ 2 * r ^ 2)) / r ^ 2)) with (c / 2 * exp (- (N ^ 2 * r ^ 2))) by (field; lra). apply Rmult_le_compat_l; [lra|]. rewrite <- exp_plus. apply exp_le. pose proof (pow2_ge_0 (N * r - / 2)). lra. }
      replace (K * (c / 2) * exp 1 * exp (- (N * r))) with (K * (c / 2 * (exp 1 * exp (- (N * r))))) by ring. apply Rmult_le_compat; [apply Rabs_pos|apply Rmult_le_pos; [lra|apply Rabs_pos]|exact X1|exact X2].
    - replace (- (N * 0)) with 0 by ring. rewrite exp_0. assert (0 <= K * (c / 2) * exp 1 / N * exp (- (N * T))); [|lra]. apply Rmult_le_pos; [|left; apply exp_pos]. apply Rmult_le_pos; [|left; apply Rinv_0_lt_compat; lra]. apply Rmult_le_pos; [apply Rmult_le_pos; lra|left; apply exp_pos]. }
  assert (S2 : Rabs (RInt (fun u => w u * II u) 0 N - Y) <= N * (M * K) * tail T).
  { destruct HQ as (EQ & _).
    eapply Rle_trans; [apply (rint_bound _ (fun _ => M * (K * tail T)) 0 N _ _ ltac:(lra) (is_RInt_minus (V := R_NormedModule) _ _ 0 N _ _ (RInt_correct (V := R_CompleteNormedModule) _ 0 N (EQ N ltac:(lra))) (exchange phi w phi_cont Hw T N)) (is_RInt_const (V := R_NormedModule) 0 N (M * (K * tail T))))|].
    - intros u Hu. change (Rabs (w u * II u - w u * pint phi T u) <= M * (K * tail T)). replace (w u * II u - w u * pint phi T u) with (w u * (II u - pint phi T u)) by ring. rewrite Rabs_mult, (Rabs_pos_eq (w u)) by (apply W0; lra). apply Rmult_le_compat; [apply W0; lra|apply Rabs_pos|apply MB; lra|apply gauss_tail; lra || assumption].
    - change (scal (N - 0) (M * (K * tail T))) with ((N - 0) * (M * (K * tail T))). right. ring. }
  replace (RInt (fun r => r ^ 2 * U r * g r) 0 T - RInt (fun u => w u * II u) 0 N) with ((RInt (fun r => r ^ 2 * U r * g r) 0 T - Y) + - (RInt (fun u => w u * II u) 0 N - Y)) by ring. eapply Rle_trans; [apply Rabs_triang|]. rewrite Rabs_Ropp. lra.
Qed.

Theorem kernel_exchange : half_int (fun r => r ^ 2 * U r * g r) Q.
Proof.
  split; [exact kernel_ex|]. destruct kernel_error as (A & LA & E). destruct HQ as (_ & LQ).
  apply is_lim_spec. intros eps. assert (He : 0 < eps / 4) by (destruct eps; cbn; lra). apply is_lim_spec in LA. apply is_lim_spec in LQ. pose proof tail_lim as LT. apply is_lim_spec in LT.
  destruct (LA (mkposreal _ He)) as (N1 & H1). destruct (LQ (mkposreal _ He)) as (N2 & H2). set (N := Rmax 1 (Rmax (N1 + 1) (N2 + 1))).
  assert (B1 : 1 <= N) by apply Rmax_l. assert (B2 : N1 < N) by (pose proof (Rmax_r 1 (Rmax (N1 + 1) (N2 + 1))); pose proof (Rmax_l (N1 + 1) (N2 + 1)); unfold N; lra). assert (B3 : N2 < N) by (pose proof (Rmax_r 1 (Rmax (N1 + 1) (N2 + 1))); pose proof (Rmax_r (N1 + 1) (N2 + 1)); unfold N; lra).
  specialize (H1 N B2). specialize (H2 N B3). destruct (E N B1) as (B & EB). cbn [pos] in H1, H2. set (b := Rabs B + 1). assert (Hb : 0 < b) by (unfold b; pose proof (Rabs_pos B); lra).
  assert (Hd : 0 < eps / 4 / b) by (apply Rdiv_lt_0_compat; lra). destruct (LT (mkposreal _ Hd)) as (T0 & HT). exists (Rmax 0 T0). intros T HTT. pose proof (Rmax_l 0 T0). pose proof (Rmax_r 0 T0). specialize (HT T ltac:(lra)). cbn [pos] in HT.
  specialize (EB T ltac:(lra)). rewrite Rminus_0_r in HT, H1. assert (X : B * tail T <= eps / 4).
  { eapply Rle_trans; [apply Rle_abs|]. rewrite Rabs_mult. apply (Rle_trans _ (b * (eps / 4 / b))); [|right; field; lra]. apply Rmult_le_compat; try apply Rabs_pos; [unfold b; lra|left; exact HT]. }
  pose proof (Rle_abs (A N)). replace (RInt (fun r => r ^ 2 * U r * g r) 0 T - Q) with ((RInt (fun r => r ^ 2 * U r * g r) 0 T - RInt (fun u => w u * II u) 0 N) + (RInt (fun u => w u * II u) 0 N - Q)) by ring. eapply Rle_lt_trans; [apply Rabs_triang|]. lra.
Qed.
End Kernel.

(** ** The kernel integral is the integral over space *)
Lemma one_gpn p C : 0 < p -> gpn 0 (fun x y z => exp (- (p * rho2 C x y z))).
Proof.
  intros Hp. exists [(p, C, [(1, (0, 0, 0)%nat)])]. split.
  - intros T [<-|[]]. split; [exact Hp|]. intros t [<-|[]]. cbn. lia.
  - intros x y z. unfold lsum. cbn [fold_right]. rewrite Rplus_0_r. unfold Rigid.gval, Rigid.pg, Rigid.gtp, Rigid.gto_, Rigid.gtq. cbn [fst snd]. unfold RigidPoly.meval, lsum, RigidPoly.mval, RigidPoly.gauss3. cbn [fold_right fst snd pow]. destruct C as [[cx cy] cz]. unfold rho2. change (coord3 (cx, cy, cz) 0) with cx. change (coord3 (cx, cy, cz) 1) with cy. change (coord3 (cx, cy, cz) 2) with cz. rewrite !Rmult_1_r, Rplus_0_r, Rmult_1_l. f_equal. ring.
Qed.

Theorem space_kernel w U n F C v : weight_of w U -> gpn n F -> (n <= 40)%nat -> kernel_int w C F v -> space_int U C F v.
Proof.
  intros HW HF Hn (II & HI & HQ). destruct (gpn_polar n F C HF Hn) as (g & v0 & (Qg & Sg & _ & _)). exists g. split.
  - destruct C as [[cx cy] cz]. intros r Hr. exact (Sg r Hr).
  - apply (kernel_exchange w U g II v HW Qg); [|exact HQ]. intros u Hu. assert (G2 : gpn (n + 0) (fun x y z => F x y z * exp (- (u ^ 2 * rho2 C x y z)))) by (apply (gpn_mul n 0 F (fun x y z => exp (- (u ^ 2 * rho2 C x y z))) HF), one_gpn, pow_lt, Hu).
    destruct (gpn_polar _ _ C G2 ltac:(lia)) as (g2 & v2 & (_ & S2 & I2 & H2)). rewrite (is_int3_unique _ _ _ (HI u Hu) I2). eapply half_ext; [|exact H2]. intros r Hr. cbv beta. rewrite Rmult_assoc. f_equal.
    apply (sphere_uniq _ _ _ (S2 r Hr)). rewrite Rmult_comm. eapply sphere_ext; [|apply (sphere_scal _ _ (exp (- (u ^ 2 * r ^ 2))) (Sg r Hr))]. intros x y z Hs. cbv beta. rewrite Rmult_comm. f_equal. f_equal. f_equal. f_equal. destruct C as [[cx cy] cz]. unfold rho2. change (coord3 (cx, cy, cz) 0) with cx. change (coord3 (cx, cy, cz) 1) with cy. change (coord3 (cx, cy, cz) 2) with cz. transitivity (r ^ 2 * (x ^ 2 + y ^ 2 + z ^ 2)); [rewrite Hs|]; ring.
Qed.
