(** * Integrals over space in Cartesian and in spherical coordinates *)

From Coq Require Import ZArith List Lia Bool Reals Lra.
From Coquelicot Require Import Coquelicot.
From Verif Require Import Base GaussInt GaussProd OneElModel OneElProofs OneElInt NucPotSpec NucPot GaussMoment SphSpec SphInt SphAngular LocalSpec LocalAcc Type2Radial OutercoreRadial RadialClass.
From Verif Require RigidPoly.
Import ListNotations.
Open Scope R_scope.

Lemma exp_le x y : x <= y -> exp x <= exp y.
Proof. intros [H | ->]; [left; apply exp_increasing, H|right; reflexivity]. Qed.

Ltac req := match goal with |- @eq _ ?a ?b => change (@eq R a b) end.

(** ** Integrals of (r^2 - z^2)^m h(z) over |z| <= r *)
Definition lens (m : nat) (h : R -> R) (r : R) : R := RInt (fun z => (r ^ 2 - z ^ 2) ^ m * h z) (- r) r.

Lemma cont_pow (f : R -> R) n x : continuous f x -> continuous (fun y => f y ^ n) x.
Proof.
  intros H. induction n as [|n IH]; [apply continuous_const|]. apply (continuous_mult_R f (fun y => f y ^ n)); assumption.
Qed.
Lemma lens_fun_cont m h r x : (forall x, continuous h x) -> continuous (fun z => (r ^ 2 - z ^ 2) ^ m * h z) x.
Proof.
  intros H. apply (continuous_mult_R (fun z => (r ^ 2 - z ^ 2) ^ m) h); [|apply H]. apply (cont_pow (fun z => r ^ 2 - z ^ 2)). apply (ex_derive_continuous (V := R_NormedModule)). auto_derive. exact I.
Qed.
Lemma lens_is m h r : (forall x, continuous h x) -> is_RInt (fun z => (r ^ 2 - z ^ 2) ^ m * h z) (- r) r (lens m h r).
Proof.
  intros H. apply (RInt_correct (V := R_CompleteNormedModule)). apply (ex_RInt_continuous (V := R_CompleteNormedModule)). intros z _. apply lens_fun_cont, H.
Qed.
Lemma sq_cont h : (forall x : R, continuous h x) -> forall x : R, continuous (fun z : R => z ^ 2 * h z) x.
Proof. intros H x. apply (continuous_mult_R (fun z => z ^ 2) h); [|apply H]. apply (ex_derive_continuous (V := R_NormedModule)). auto_derive. exact I. Qed.

Lemma lens_S m h r : (forall x, continuous h x) -> lens (S m) h r = r ^ 2 * lens m h r - lens m (fun z => z ^ 2 * h z) r.
Proof.
  intros H. apply (RInt_uniq (fun z => (r ^ 2 - z ^ 2) ^ S m * h z) (- r) r); [apply lens_is, H|].
  eapply RInt_val; [eapply RInt_fun; [|apply (RInt_lin _ _ _ _ _ _ (r ^ 2) (-1) (lens_is m h r H) (lens_is m (fun z : R => z ^ 2 * h z) r (sq_cont h H)))]|ring]. intros z. cbv beta. change ((r ^ 2 - z ^ 2) ^ S m) with ((r ^ 2 - z ^ 2) * (r ^ 2 - z ^ 2) ^ m). ring.
Qed.

Lemma lens0_derive h r : (forall x, continuous h x) -> is_derive (lens 0 h) r (h r + h (- r)).
Proof.
  intros H. set (P := fun x => RInt h 0 x).
  assert (DP : forall x, is_derive P x (h x)).
  { intros x. apply (is_derive_RInt (V := R_NormedModule) h P 0 x); [|apply H]. apply filter_forall. intros y. apply (RInt_correct (V := R_CompleteNormedModule)). apply (ex_RInt_continuous (V := R_CompleteNormedModule)). intros z _. apply H. }
  assert (E : forall y, P y - P (- y) = lens 0 h y).
  { intros y. pose proof (RInt_antider P h (- y) y DP H) as A. apply (RInt_uniq h (- y) y _ _ A). eapply RInt_fun; [|apply lens_is, H]. intros z. cbv beta. cbn [pow]. ring. }
  apply (is_derive_ext (fun y => P y - P (- y))); [exact E|]. eapply is_derive_eq.
  - apply (is_derive_minus P (fun y => P (- y))); [apply DP|]. apply (is_derive_comp P (fun y => - y) r (h (- r)) (-1)); [apply DP|]. auto_derive; [exact I|ring].
  - unfold minus, plus, opp, scal; cbn. unfold mult; cbn. ring.
Qed.

Lemma lens_derive m : forall h r, (forall x, continuous h x) -> is_derive (lens (S m) h) r (2 * INR (S m) * r * lens m h r).
Proof.
  induction m as [|m IH]; intros h r H.
  - apply (is_derive_ext (fun r => r ^ 2 * lens 0 h r - lens 0 (fun z => z ^ 2 * h z) r)); [intros t; symmetry; apply lens_S, H|]. eapply is_derive_eq.
    + apply (is_derive_minus (fun r => r ^ 2 * lens 0 h r) (lens 0 (fun z => z ^ 2 * h z))); [|apply lens0_derive, sq_cont, H]. apply (is_derive_mult (fun r => r ^ 2) (lens 0 h) r (2 * r)); [auto_derive; [exact I|ring]|apply lens0_derive, H|intros; apply Rmult_comm].
    + unfold minus, plus, opp, scal, mult; cbn. unfold mult; cbn. ring.
  - apply (is_derive_ext (fun r => r ^ 2 * lens (S m) h r - lens (S m) (fun z => z ^ 2 * h z) r)); [intros t; symmetry; apply lens_S, H|]. eapply is_derive_eq.
    + apply (is_derive_minus (fun r => r ^ 2 * lens (S m) h r) (lens (S m) (fun z => z ^ 2 * h z))); [|apply IH, sq_cont, H]. apply (is_derive_mult (fun r => r ^ 2) (lens (S m) h) r (2 * r)); [auto_derive; [exact I|ring]|apply IH, H|intros; apply Rmult_comm].
    + unfold minus, plus, opp, scal. cbn -[INR lens pow]. unfold mult. cbn -[INR lens pow]. rewrite (S_INR (S m)). rewrite (lens_S m h r H) at 1 2. ring.
Qed.

Lemma lens_cont m h r : (forall x, continuous h x) -> continuous (lens m h) r.
Proof.
  intros H. apply (ex_derive_continuous (V := R_NormedModule)). destruct m; eexists; [apply lens0_derive|apply lens_derive]; exact H.
Qed.

Lemma lens_zero m h : lens m h 0 = 0.
Proof. unfold lens. rewrite Ropp_0. exact (RInt_point (V := R_CompleteNormedModule) 0 _). Qed.

Lemma lens_bound m h r M : (forall x, continuous h x) -> 0 <= r -> (forall z, Rabs z <= r -> Rabs (h z) <= M) -> Rabs (lens m h r) <= 2 * r * (r ^ (2 * m) * M).
Proof.
  intros H Hr HM. replace (2 * r) with (r - - r) by ring. apply (abs_RInt_le_const (fun z => (r ^ 2 - z ^ 2) ^ m * h z)); [lra|eexists; apply lens_is, H|]. intros z Hz.
  assert (Az : Rabs z <= r) by (apply Rabs_le; lra). rewrite Rabs_mult. apply Rmult_le_compat; [apply Rabs_pos|apply Rabs_pos| |apply HM, Az]. rewrite <- RPow_abs, pow_mult. apply pow_incr. split; [apply Rabs_pos|].
  assert (0 <= z ^ 2 <= r ^ 2). { split; [apply pow2_ge_0|]. rewrite <- (pow2_abs z). apply pow_incr. split; [apply Rabs_pos|exact Az]. }
  rewrite Rabs_right by lra. lra.
Qed.

(** ** The radial integral *)
Section Radial.
Variables (p : R) (h : R -> R) (J : R).
Hypothesis Hp : 0 < p.
Hypothesis Hc : forall x, continuous h x.
Hypothesis Hlim : forall m, is_lim (fun r => exp (- (p * r ^ 2)) * lens m h r) p_infty 0.
Hypothesis HJ : is_int (fun z => exp (- (p * z ^ 2)) * h z) J.

Let w m r := r * (exp (- (p * r ^ 2)) * lens m h r).
Lemma w_cont m r : continuous (w m) r.
Proof.
  apply (continuous_mult_R (fun r => r) (fun r => exp (- (p * r ^ 2)) * lens m h r)); [apply continuous_id|]. apply (continuous_mult_R (fun r => exp (- (p * r ^ 2))) (lens m h)); [|apply lens_cont, Hc]. apply (ex_derive_continuous (V := R_NormedModule)). auto_derive. exact I.
Qed.
Lemma w_is m T : is_RInt (w m) 0 T (RInt (w m) 0 T).
Proof. apply (RInt_correct (V := R_CompleteNormedModule)). apply (ex_RInt_continuous (V := R_CompleteNormedModule)). intros z _. apply w_cont. Qed.

Lemma gl_derive m r l : is_derive (lens m h) r l -> is_derive (fun r => exp (- (p * r ^ 2)) * lens m h r) r (- (2 * p * r) * exp (- (p * r ^ 2)) * lens m h r + exp (- (p * r ^ 2)) * l).
Proof.
  intros H. eapply is_derive_eq; [apply (is_derive_mult (fun r => exp (- (p * r ^ 2))) (lens m h) r (- (2 * p * r) * exp (- (p * r ^ 2)))); [auto_derive; [exact I|cbn [pow]; ring]|exact H|intros; apply Rmult_comm]|]. reflexivity.
Qed.

Lemma w_step m T : RInt (w (S m)) 0 T = INR (S m) / p * RInt (w m) 0 T - exp (- (p * T ^ 2)) * lens (S m) h T / (2 * p).
Proof.
  set (F := fun r => - (exp (- (p * r ^ 2)) * lens (S m) h r / (2 * p))).
  assert (D : forall r, is_derive F r (w (S m) r - INR (S m) / p * w m r)).
  { intros r. unfold F, w. apply (is_derive_ext (fun r => - / (2 * p) * (exp (- (p * r ^ 2)) * lens (S m) h r))); [intros t; req; field; lra|].
    eapply is_derive_eq; [apply (is_derive_scal (fun r => exp (- (p * r ^ 2)) * lens (S m) h r)), gl_derive, lens_derive, Hc|]. req. field. lra. }
  assert (A : is_RInt (fun r => w (S m) r - INR (S m) / p * w m r) 0 T (F T - F 0)).
  { apply RInt_antider; [exact D|]. intros t. apply (continuous_minus (w (S m)) (fun r => INR (S m) / p * w m r)); [apply w_cont|]. apply (continuous_mult_R (fun _ => INR (S m) / p) (w m)); [apply continuous_const|apply w_cont]. }
  assert (B : is_RInt (fun r => w (S m) r - INR (S m) / p * w m r) 0 T (1 * RInt (w (S m)) 0 T + - (INR (S m) / p) * RInt (w m) 0 T)).
  { eapply RInt_fun; [|apply (RInt_lin _ _ _ _ _ _ 1 (- (INR (S m) / p)) (w_is (S m) T) (w_is m T))]. intros t. cbv beta. ring. }
  pose proof (RInt_uniq _ _ _ _ _ A B) as E. unfold F in E. rewrite lens_zero in E. lra.
Qed.

Lemma gh_cont x : continuous (fun z => exp (- (p * z ^ 2)) * h z) x.
Proof. apply (continuous_mult_R (fun z => exp (- (p * z ^ 2))) h); [|apply Hc]. apply (ex_derive_continuous (V := R_NormedModule)). auto_derive. exact I. Qed.

Lemma w_base T : RInt (w 0) 0 T = / (2 * p) * lens 0 (fun z => exp (- (p * z ^ 2)) * h z) T - exp (- (p * T ^ 2)) * lens 0 h T / (2 * p).
Proof.
  set (g := fun z => exp (- (p * z ^ 2)) * h z).
  set (F := fun r => / (2 * p) * lens 0 g r - exp (- (p * r ^ 2)) * lens 0 h r / (2 * p)).
  assert (D : forall r, is_derive F r (w 0 r)).
  { intros r. unfold F, w. apply (is_derive_ext (fun r => / (2 * p) * lens 0 g r + - / (2 * p) * (exp (- (p * r ^ 2)) * lens 0 h r))); [intros t; req; field; lra|].
    eapply is_derive_eq; [apply (is_derive_plus (fun r => / (2 * p) * lens 0 g r) (fun r => - / (2 * p) * (exp (- (p * r ^ 2)) * lens 0 h r))); [apply (is_derive_scal (lens 0 g)), lens0_derive, gh_cont|apply (is_derive_scal (fun r => exp (- (p * r ^ 2)) * lens 0 h r)), gl_derive, lens0_derive, Hc]|].
    unfold plus. cbn -[lens pow]. unfold g. replace ((- r) ^ 2) with (r ^ 2) by ring. req. field. lra. }
  pose proof (RInt_antider F (w 0) 0 T D (w_cont 0)) as A. pose proof (RInt_uniq _ _ _ _ _ (w_is 0 T) A) as E. unfold F in E. rewrite !lens_zero in E. rewrite E. unfold g. req. field. lra.
Qed.

Lemma lens_int g v : (forall x, continuous g x) -> is_int g v -> is_lim (lens 0 g) p_infty v.
Proof.
  intros Hg H. apply is_lim_spec. intros eps. specialize (H (ball v eps)). destruct H as [Q S HQ HS HQS].
  { exists eps. intros y Hy. exact Hy. }
  destruct HQ as (a & Ha). destruct HS as (b & Hb). exists (Rmax b (- a)). intros r Hr. pose proof (Rmax_l b (- a)). pose proof (Rmax_r b (- a)).
  destruct (HQS (- r) r (Ha (- r) ltac:(lra)) (Hb r ltac:(lra))) as (y & Hy & By). cbn [fst snd] in Hy.
  assert (E : lens 0 g r = y) by (apply (RInt_uniq g (- r) r); [|exact Hy]; eapply RInt_fun; [|apply lens_is, Hg]; intros z; cbv beta; cbn [pow]; ring). rewrite E. exact By.
Qed.

Lemma lens_half m : half_int (w m) (INR (fact m) / (2 * p ^ S m) * J).
Proof.
  split; [intros T _; eexists; apply w_is|]. induction m as [|m IH].
  - apply (is_lim_ext (fun T => / (2 * p) * lens 0 (fun z => exp (- (p * z ^ 2)) * h z) T + - / (2 * p) * (exp (- (p * T ^ 2)) * lens 0 h T))); [intros T; rewrite w_base; field; lra|].
    replace (Finite (INR (fact 0) / (2 * p ^ 1) * J)) with (Rbar_plus (Rbar_mult (/ (2 * p)) J) (Rbar_mult (- / (2 * p)) 0)) by (cbn; f_equal; field; lra).
    apply (is_lim_plus _ _ p_infty (Rbar_mult (/ (2 * p)) J) (Rbar_mult (- / (2 * p)) 0)); [apply (is_lim_scal_l _ (/ (2 * p)) p_infty J), lens_int; [apply gh_cont|exact HJ]|apply (is_lim_scal_l _ (- / (2 * p)) p_infty 0), Hlim|cbn; reflexivity].
  - apply (is_lim_ext (fun T => INR (S m) / p * RInt (w m) 0 T + - / (2 * p) * (exp (- (p * T ^ 2)) * lens (S m) h T))); [intros T; rewrite w_step; field; lra|].
    replace (Finite (INR (fact (S m)) / (2 * p ^ S (S m)) * J)) with (Rbar_plus (Rbar_mult (INR (S m) / p) (INR (fact m) / (2 * p ^ S m) * J)) (Rbar_mult (- / (2 * p)) 0)).
    2:{ change (fact (S m)) with (S m * fact m)%nat. rewrite mult_INR. cbn -[INR pow]. f_equal. change (p ^ S (S m)) with (p * p ^ S m). pose proof (pow_lt p (S m) Hp). field. lra. }
    apply (is_lim_plus _ _ p_infty (Rbar_mult (INR (S m) / p) (INR (fact m) / (2 * p ^ S m) * J)) (Rbar_mult (- / (2 * p)) 0)); [apply (is_lim_scal_l _ (INR (S m) / p) p_infty (INR (fact m) / (2 * p ^ S m) * J)), IH|apply (is_lim_scal_l _ (- / (2 * p)) p_infty 0), Hlim|cbn; reflexivity].
Qed.
End Radial.

(** ** A power times a Gaussian displaced along the axis *)
Definition hax (p D : R) (k : nat) (z : R) : R := (z - D) ^ k * exp (2 * p * D * z - p * D ^ 2).
Lemma hax_cont p D k x : continuous (hax p D k) x.
Proof. unfold hax. apply (continuous_mult_R (fun z => (z - D) ^ k) (fun z => exp (2 * p * D * z - p * D ^ 2))); [apply (cont_pow (fun z => z - D))|]; apply (ex_derive_continuous (V := R_NormedModule)); auto_derive; exact I. Qed.

Lemma hax_gauss p D k z : exp (- (p * z ^ 2)) * hax p D k z = cg p D k z.
Proof. unfold hax, cg. replace (- (p * ((z - D) * (z - D)))) with (- (p * z ^ 2) + (2 * p * D * z - p * D ^ 2)) by ring. rewrite exp_plus. ring. Qed.

Lemma hax_decay p D k m : 0 < p -> exists K, 0 <= K /\ forall r, 0 <= r -> Rabs (r * (exp (- (p * r ^ 2)) * lens m (hax p D k) r)) <= K * (r ^ 2 * exp (- r)).
Proof.
  intros Hp. set (d := Rabs D). assert (Hd : 0 <= d) by apply Rabs_pos. set (n := (2 * m + k)%nat). set (c := 2 + 2 * p * d).
  exists (2 * (INR (fact n) * (exp (d + 1) * exp (c ^ 2 / (4 * p))))). split.
  { pose proof (INR_fact_lt_0 n). pose proof (exp_pos (d + 1)). pose proof (exp_pos (c ^ 2 / (4 * p))). repeat apply Rmult_le_pos; lra. }
  intros r Hr.
  assert (B : Rabs (lens m (hax p D k) r) <= 2 * r * (r ^ (2 * m) * ((r + d) ^ k * exp (2 * p * d * r)))).
  { apply lens_bound; [apply hax_cont|exact Hr|]. intros z Hz. unfold hax. rewrite Rabs_mult, (Rabs_right (exp _)) by (apply Rle_ge; left; apply exp_pos). apply Rmult_le_compat; [apply Rabs_pos|left; apply exp_pos| |].
    - rewrite <- RPow_abs. apply pow_incr. split; [apply Rabs_pos|]. unfold Rminus. eapply Rle_trans; [apply Rabs_triang|]. rewrite Rabs_Ropp. fold d. lra.
    - apply exp_le. assert (D * z <= d * r). { eapply Rle_trans; [apply Rle_abs|]. rewrite Rabs_mult. apply Rmult_le_compat; [apply Rabs_pos|apply Rabs_pos|apply Rle_refl|exact Hz]. }
      assert (0 <= p * D ^ 2) by (apply Rmult_le_pos; [lra|apply pow2_ge_0]). pose proof (Rmult_le_compat_l (2 * p) _ _ ltac:(lra) H). lra. }
  rewrite !Rabs_mult, (Rabs_right r), (Rabs_right (exp _)) by (try (apply Rle_ge; left; apply exp_pos); lra).
  assert (P1 : r ^ (2 * m) * (r + d) ^ k <= INR (fact n) * exp (r + d + 1)).
  { eapply Rle_trans; [|apply pow_exp; lra]. unfold n. rewrite pow_add. apply Rmult_le_compat; [apply pow_le, Hr|apply pow_le; lra| |]; apply pow_incr; lra. }
  assert (P2 : exp (- (p * r ^ 2)) * (exp (2 * p * d * r) * exp (r + d + 1)) <= exp (d + 1) * exp (c ^ 2 / (4 * p)) * exp (- r)).
  { rewrite <- !exp_plus. apply exp_le. assert (0 <= p * (r - c / (2 * p)) ^ 2) by (apply Rmult_le_pos; [lra|apply pow2_ge_0]).
    replace (p * (r - c / (2 * p)) ^ 2) with (p * r ^ 2 - c * r + c ^ 2 / (4 * p)) in H by (field; lra). unfold c in *. lra. }
  pose proof (INR_fact_lt_0 n). pose proof (exp_pos (- (p * r ^ 2))). pose proof (exp_pos (2 * p * d * r)).
  apply Rle_trans with (r * (exp (- (p * r ^ 2)) * (2 * r * (r ^ (2 * m) * ((r + d) ^ k * exp (2 * p * d * r)))))).
  { apply Rmult_le_compat_l; [exact Hr|]. apply Rmult_le_compat_l; [lra|exact B]. }
  replace (r * (exp (- (p * r ^ 2)) * (2 * r * (r ^ (2 * m) * ((r + d) ^ k * exp (2 * p * d * r)))))) with (2 * r ^ 2 * (exp (- (p * r ^ 2)) * exp (2 * p * d * r) * (r ^ (2 * m) * (r + d) ^ k))) by ring.
  replace (2 * (INR (fact n) * (exp (d + 1) * exp (c ^ 2 / (4 * p)))) * (r ^ 2 * exp (- r))) with (2 * r ^ 2 * (INR (fact n) * (exp (d + 1) * exp (c ^ 2 / (4 * p)) * exp (- r)))) by ring.
  apply Rmult_le_compat_l; [pose proof (pow2_ge_0 r); lra|].
  apply Rle_trans with (exp (- (p * r ^ 2)) * exp (2 * p * d * r) * (INR (fact n) * exp (r + d + 1))); [apply Rmult_le_compat_l; [apply Rmult_le_pos; lra|exact P1]|].
  replace (exp (- (p * r ^ 2)) * exp (2 * p * d * r) * (INR (fact n) * exp (r + d + 1))) with (INR (fact n) * (exp (- (p * r ^ 2)) * (exp (2 * p * d * r) * exp (r + d + 1)))) by ring. apply Rmult_le_compat_l; [lra|exact P2].
Qed.

Lemma decay_lim : is_lim (fun r => r ^ 2 * exp (- r)) p_infty 0.
Proof. apply (is_lim_ext (fun T => T ^ 2 * exp (- T / 1))); [intros T; do 2 f_equal; field|]. apply exp_decay. lra. Qed.

Lemma hax_lim p D k m : 0 < p -> is_lim (fun r => exp (- (p * r ^ 2)) * lens m (hax p D k) r) p_infty 0.
Proof.
  intros Hp. destruct (hax_decay p D k m Hp) as (K & HK & B). apply (lim_squeeze _ (fun r => K * (r ^ 2 * exp (- r)))).
  - exists 1. intros r Hr. eapply Rle_trans; [|apply B; lra]. rewrite (Rabs_mult r), (Rabs_right r) by lra. pose proof (Rabs_pos (exp (- (p * r ^ 2)) * lens m (hax p D k) r)). nra.
  - replace (Finite 0) with (Rbar_mult K 0) by (cbn; f_equal; ring). apply (is_lim_scal_l _ K p_infty 0), decay_lim.
Qed.

(** ** One monomial *)
Definition amono (p D : R) (i j k : nat) (x y z : R) : R := x ^ i * y ^ j * (z - D) ^ k * exp (- (p * (x * x + y * y + (z - D) * (z - D)))).

(** functions on the half line which are continuous and small at both ends *)
Definition small (f : R -> R) : Prop := (forall r, continuous f r) /\ exists K, 0 <= K /\ forall r, 0 <= r -> Rabs (f r) <= K * (r ^ 2 * exp (- r)).

Lemma gm_odd p a : RigidPoly.gm p (2 * a + 1) = 0.
Proof. induction a as [|a IH]; [reflexivity|]. replace (2 * S a + 1)%nat with (S (S (2 * a + 1))) by lia. rewrite RigidPoly.gm_SS, IH. ring. Qed.
Lemma gm_even p a : 0 < p -> RigidPoly.gm p (2 * a) = odf a / (2 * p) ^ a * sqrt (PI / p).
Proof.
  intros Hp. induction a as [|a IH]; [cbn; field|]. replace (2 * S a)%nat with (S (S (2 * a))) by lia. rewrite RigidPoly.gm_SS, IH, S_INR, INR_dbl. cbn [odf pow]. pose proof (pow_lt (2 * p) a ltac:(lra)). field. lra.
Qed.

Lemma amono_int3 p D i j k : 0 < p -> is_int3 (amono p D i j k) (RigidPoly.gm p i * RigidPoly.gm p j * RigidPoly.gm p k).
Proof.
  intros Hp. eapply is_int3_ext; [|apply (is_int3_prod (cg p 0 i) (cg p 0 j) (cg p D k)); apply RigidPoly.gm_int, Hp].
  intros x y z. unfold amono, cg. rewrite !Rminus_0_r. replace (- (p * (x * x + y * y + (z - D) * (z - D)))) with (- (p * (x * x)) + (- (p * (y * y)) + - (p * ((z - D) * (z - D))))) by ring. rewrite !exp_plus. ring.
Qed.

(** the polar angle *)
Lemma polar_theta p D k m r : 0 < r -> is_RInt (fun t => (r * sin t) ^ (2 * m) * (r * cos t - D) ^ k * exp (- (p * (r ^ 2 - 2 * r * D * cos t + D ^ 2))) * sin t) 0 PI (/ r * (exp (- (p * r ^ 2)) * lens m (hax p D k) r)).
Proof.
  intros Hr. set (f := fun z => (r ^ 2 - z ^ 2) ^ m * hax p D k z). assert (Cf : forall x, continuous f x) by (intros x; apply lens_fun_cont, hax_cont). set (P := fun x => RInt f 0 x).
  assert (DP : forall x, is_derive P x (f x)).
  { intros x. apply (is_derive_RInt (V := R_NormedModule) f P 0 x); [|apply Cf]. apply filter_forall. intros y. apply (RInt_correct (V := R_CompleteNormedModule)). apply (ex_RInt_continuous (V := R_CompleteNormedModule)). intros z _. apply Cf. }
  assert (E : P r - P (- r) = lens m (hax p D k) r) by (apply (RInt_uniq f (- r) r); [apply (RInt_antider P f (- r) r DP Cf)|apply lens_is, hax_cont]).
  assert (A : is_RInt (fun t => f (r * cos t) * (r * sin t)) 0 PI (- P (r * cos PI) - - P (r * cos 0))).
  { apply (RInt_antider (fun t => - P (r * cos t))).
    - intros t. eapply is_derive_eq; [apply (is_derive_opp (fun t => P (r * cos t))), (is_derive_comp P (fun t => r * cos t) t (f (r * cos t)) (- (r * sin t))); [apply DP|auto_derive; [exact I|ring]]|]. unfold opp, scal; cbn. unfold mult; cbn. ring.
    - intros t. apply (continuous_mult_R (fun t => f (r * cos t)) (fun t => r * sin t)); [apply (continuous_comp (fun t => r * cos t) f); [|apply Cf]|]; apply (ex_derive_continuous (V := R_NormedModule)); auto_derive; exact I. }
  rewrite cos_PI, cos_0 in A. replace (- P (r * -1) - - P (r * 1)) with (lens m (hax p D k) r) in A by (rewrite <- E; replace (r * -1) with (- r) by ring; replace (r * 1) with r by ring; ring).
  eapply RInt_val; [eapply RInt_fun; [|apply (RInt_scale _ _ _ _ (/ r * exp (- (p * r ^ 2))) A)]|ring]. intros t. cbv beta. unfold f, hax.
  replace (r ^ 2 - (r * cos t) ^ 2) with ((r * sin t) ^ 2) by (pose proof (sin2_cos2 t) as S; unfold Rsqr in S; replace (r ^ 2) with (r ^ 2 * (sin t * sin t + cos t * cos t)) by (rewrite S; ring); ring).
  rewrite <- pow_mult. replace (- (p * (r ^ 2 - 2 * r * D * cos t + D ^ 2))) with (- (p * r ^ 2) + (2 * p * D * (r * cos t) - p * D ^ 2)) by ring. rewrite exp_plus. field. lra.
Qed.

(** the sphere of radius r *)
Definition apolar (p D : R) (i j k : nat) (r : R) : R :=
  if (Nat.even i && Nat.even j)%bool then 2 * PI * odf (Nat.div2 i) * odf (Nat.div2 j) / (2 ^ (Nat.div2 i + Nat.div2 j) * INR (fact (Nat.div2 i + Nat.div2 j))) * (r * (exp (- (p * r ^ 2)) * lens (Nat.div2 i + Nat.div2 j) (hax p D k) r)) else 0.

Lemma amono_theta p D i j k r t q : amono p D i j k (0 + r * (sin t * cos q)) (0 + r * (sin t * sin q)) (0 + r * cos t) * sin t =
  (r * sin t) ^ (i + j) * (r * cos t - D) ^ k * exp (- (p * (r ^ 2 - 2 * r * D * cos t + D ^ 2))) * sin t * tt i j q.
Proof.
  unfold amono, tt. rewrite !Rplus_0_l. replace (r * (sin t * cos q) * (r * (sin t * cos q)) + r * (sin t * sin q) * (r * (sin t * sin q)) + (r * cos t - D) * (r * cos t - D)) with (r ^ 2 - 2 * r * D * cos t + D ^ 2).
  - rewrite pow_add. replace (r * (sin t * cos q)) with (r * sin t * cos q) by ring. replace (r * (sin t * sin q)) with (r * sin t * sin q) by ring. rewrite !Rpow_mult_distr. ring.
  - pose proof (sin2_cos2 t) as S. pose proof (sin2_cos2 q) as S'. unfold Rsqr in S, S'.
    replace (r * (sin t * cos q) * (r * (sin t * cos q)) + r * (sin t * sin q) * (r * (sin t * sin q))) with (r * r * (sin t * sin t) * (sin q * sin q + cos q * cos q)) by ring. rewrite S'.
    replace (r ^ 2) with (r * r * (sin t * sin t + cos t * cos t)) by (rewrite S; ring). ring.
Qed.

Lemma amono_sphere p D i j k r : 0 < r -> sphere_int (fun x y z => amono p D i j k (0 + r * x) (0 + r * y) (0 + r * z)) (apolar p D i j k r / r ^ 2).
Proof.
  intros Hr. unfold apolar. destruct (Nat.even i && Nat.even j)%bool eqn:Ee.
  - apply andb_true_iff in Ee. destruct Ee as (Ei & Ej). apply Nat.even_spec in Ei. apply Nat.even_spec in Ej. destruct Ei as (a & ->). destruct Ej as (b & ->). rewrite !Nat.div2_double.
    eapply sphere_val; [eapply (sphere_product _ (fun t => (r * sin t) ^ (2 * (a + b)) * (r * cos t - D) ^ k * exp (- (p * (r ^ 2 - 2 * r * D * cos t + D ^ 2))) * sin t) (tt (2 * a) (2 * b))); [|apply polar_theta, Hr|apply full_even]|].
    + intros t q. rewrite amono_theta. replace (2 * a + 2 * b)%nat with (2 * (a + b))%nat by lia. reflexivity.
    + pose proof (pow_lt 2 (a + b) ltac:(lra)). pose proof (INR_fact_lt_0 (a + b)). field. repeat split; lra.
  - assert (Ho : Nat.odd i = true \/ Nat.odd j = true). { apply andb_false_iff in Ee. rewrite <- !Nat.negb_even. destruct Ee as [-> | ->]; [left|right]; reflexivity. }
    eapply sphere_val; [apply (sphere_product _ (fun t => (r * sin t) ^ (i + j) * (r * cos t - D) ^ k * exp (- (p * (r ^ 2 - 2 * r * D * cos t + D ^ 2))) * sin t) (tt i j) (RInt (fun t => (r * sin t) ^ (i + j) * (r * cos t - D) ^ k * exp (- (p * (r ^ 2 - 2 * r * D * cos t + D ^ 2))) * sin t) 0 PI) 0); [| |apply full_odd, Ho]|].
    + intros t q. apply amono_theta.
    + apply (RInt_correct (V := R_CompleteNormedModule)). apply (ex_RInt_continuous (V := R_CompleteNormedModule)). intros t _. apply (ex_derive_continuous (V := R_NormedModule)). auto_derive. exact I.
    + unfold Rdiv. ring.
Qed.

Lemma apolar_half p D i j k : 0 < p -> half_int (apolar p D i j k) (RigidPoly.gm p i * RigidPoly.gm p j * RigidPoly.gm p k).
Proof.
  intros Hp. unfold apolar. destruct (Nat.even i && Nat.even j)%bool eqn:Ee.
  - apply andb_true_iff in Ee. destruct Ee as (Ei & Ej). apply Nat.even_spec in Ei. apply Nat.even_spec in Ej. destruct Ei as (a & ->). destruct Ej as (b & ->). rewrite !Nat.div2_double.
    eapply half_eq; [apply half_scal, (lens_half p (hax p D k) (RigidPoly.gm p k) Hp (hax_cont p D k) (fun m => hax_lim p D k m Hp))|].
    + eapply is_int_ext; [|apply (RigidPoly.gm_int p D k Hp)]. intros z. symmetry. apply hax_gauss.
    + rewrite !gm_even by exact Hp. pose proof (pow_lt 2 (a + b) ltac:(lra)). pose proof (INR_fact_lt_0 (a + b)). pose proof PI_RGT_0.
      replace (odf a / (2 * p) ^ a * sqrt (PI / p) * (odf b / (2 * p) ^ b * sqrt (PI / p)) * RigidPoly.gm p k) with (odf a / (2 * p) ^ a * (odf b / (2 * p) ^ b) * (sqrt (PI / p) * sqrt (PI / p)) * RigidPoly.gm p k) by ring.
      rewrite sqrt_sqrt by (left; apply Rdiv_lt_0_compat; lra). rewrite !Rpow_mult_distr. cbn [pow]. rewrite !pow_add in *. pose proof (pow_lt p a Hp). pose proof (pow_lt p b Hp). pose proof (pow_lt 2 a ltac:(lra)). pose proof (pow_lt 2 b ltac:(lra)). field. repeat split; lra.
  - assert (E0 : RigidPoly.gm p i * RigidPoly.gm p j = 0).
    { apply andb_false_iff in Ee. rewrite <- !Nat.negb_odd in Ee. destruct Ee as [Ee|Ee]; apply negb_false_iff, Nat.odd_spec in Ee; destruct Ee as (a & ->); rewrite gm_odd; ring. }
    rewrite E0, Rmult_0_l. exact half_zero.
Qed.

Lemma apolar_small p D i j k : 0 < p -> small (apolar p D i j k).
Proof.
  intros Hp. unfold apolar. destruct (Nat.even i && Nat.even j)%bool.
  - set (c := 2 * PI * odf (Nat.div2 i) * odf (Nat.div2 j) / (2 ^ (Nat.div2 i + Nat.div2 j) * INR (fact (Nat.div2 i + Nat.div2 j)))). set (m := (Nat.div2 i + Nat.div2 j)%nat). split.
    + intros r. apply (continuous_mult_R (fun _ => c)); [apply continuous_const|]. apply w_cont, hax_cont.
    + destruct (hax_decay p D k m Hp) as (K & HK & B). exists (Rabs c * K). split; [apply Rmult_le_pos; [apply Rabs_pos|exact HK]|]. intros r Hr. rewrite Rabs_mult, Rmult_assoc. apply Rmult_le_compat_l; [apply Rabs_pos|apply B, Hr].
  - split; [intros r; apply continuous_const|]. exists 0. split; [lra|]. intros r Hr. rewrite Rabs_R0, Rmult_0_l. lra.
Qed.
