(** * Integrals of Hermite Gaussians with Gaussians, 1/r and 1/r^2 *)

From Coq Require Import ZArith List Lia Bool Reals Lra.
From Coquelicot Require Import Coquelicot.
From Verif Require Import Base Loops Sums GaussInt GaussProd NucPotSpec NucPot HeapModel OneElModel OneElProofs OneElInt LmatModel SpecModel SpecSpec SpecBoys GfunThms OutercoreModel MmdModel MmdSpec MmdE MmdR.
Import ListNotations.
Open Scope R_scope.

(** ** One dimension *)

Section Herm.
Variables (q Q : R).
Hypothesis Hq : 0 < q.
Notation HG := (hermite_gaussian q Q).

Lemma herm_next t x : HG (S t) x = - 2 * q * (INR t * HG (pred t) x + (Q - x) * HG t x).
Proof. rewrite !hermite_closed. unfold hfun_. rewrite hpol_S. ring. Qed.

Lemma herm_0 x : HG 0 x = exp (- (q * ((x - Q) * (x - Q)))).
Proof. rewrite hermite_closed. unfold hfun_. cbn [hpol]. rewrite Rmult_1_l. f_equal. field. Qed.

Lemma herm_derive t (x : R) : is_derive (HG t) x (- HG (S t) x).
Proof.
  apply (is_derive_ext (fun y => hfun_ (- 2 * q) t (Q - y))); [intros y; symmetry; apply hermite_closed|].
  assert (DL : is_derive (fun Y : R => Q - Y) x (-1)) by (auto_derive; [exact I|ring]).
  eapply is_derive_eq; [apply (is_derive_comp (hfun_ (- 2 * q) t) (fun Y => Q - Y) x _ _ (hfun_derive _ t (Q - x)) DL)|].
  match goal with |- _ = ?y => change ((-1) * hfun_ (- 2 * q) (S t) (Q - x) = y) end. rewrite hermite_closed. ring.
Qed.

Lemma herm_cont t (x : R) : continuous (HG t) x.
Proof. apply (ex_derive_continuous (HG t)). eexists. apply herm_derive. Qed.

Lemma herm_lim t : forall i (l : Rbar), l = p_infty \/ l = m_infty -> is_lim (fun x => (x - Q) ^ i * HG t x) l 0 /\ is_lim (fun x => (x - Q) ^ i * HG (S t) x) l 0.
Proof.
  assert (Base : forall i (l : Rbar), l = p_infty \/ l = m_infty -> is_lim (fun x => (x - Q) ^ i * HG 0 x) l 0).
  { intros i l Hl. apply (is_lim_ext (cg q Q i)); [intros x; unfold cg; rewrite herm_0; reflexivity|]. apply cg_lim; assumption. }
  assert (Step : forall t, (forall i (l : Rbar), l = p_infty \/ l = m_infty -> is_lim (fun x => (x - Q) ^ i * HG t x) l 0) ->
     (forall i (l : Rbar), l = p_infty \/ l = m_infty -> is_lim (fun x => (x - Q) ^ i * HG (pred t) x) l 0) ->
     forall i (l : Rbar), l = p_infty \/ l = m_infty -> is_lim (fun x => (x - Q) ^ i * HG (S t) x) l 0).
  { intros t' H1 H2 i l Hl. apply (is_lim_ext (fun x => (- 2 * q * INR t') * ((x - Q) ^ i * HG (pred t') x) + 2 * q * ((x - Q) ^ S i * HG t' x))).
    { intros x. rewrite herm_next. cbn [pow]. ring. }
    apply (lim_eq _ _ ((- 2 * q * INR t') * 0 + 2 * q * 0)); [|ring].
    apply is_lim_plus'; apply (is_lim_scal_l _ _ _ 0); [apply H2|apply H1]; exact Hl. }
  induction t as [|t IH]; intros i l Hl.
  - split; [apply Base; exact Hl|]. apply Step; [exact Base|exact Base|exact Hl].
  - split; [apply IH; exact Hl|]. apply Step; [intros; apply IH; assumption|intros; apply IH; assumption|exact Hl].
Qed.

Section W.
Variables (w C : R).
Hypothesis Hw : 0 <= w.
Let g (x : R) := exp (- (w * (x - C) ^ 2)).

Lemma g_bound x : 0 < g x <= 1.
Proof.
  unfold g. split; [apply exp_pos|]. rewrite <- exp_0 at 1. destruct (Req_dec (w * (x - C) ^ 2) 0) as [-> | Hne]; [rewrite Ropp_0; lra|].
  left. apply exp_increasing. assert (0 <= (x - C) ^ 2) by (apply pow2_ge_0). nra.
Qed.

Lemma g_derive (x : R) : is_derive g x (- 2 * w * (x - C) * g x).
Proof. unfold g. auto_derive; [exact I|]. cbn [INR pow]. unfold Rminus. ringR. Qed.

Lemma g_cont (x : R) : continuous g x.
Proof. apply (ex_derive_continuous g). eexists. apply g_derive. Qed.

Lemma herm_g_lim t (l : Rbar) : l = p_infty \/ l = m_infty -> is_lim (fun x => HG t x * g x) l 0.
Proof.
  intros Hl. pose proof (proj1 (herm_lim t 0 l Hl)) as L.
  apply (is_lim_le_le_loc (fun x => - Rabs ((x - Q) ^ 0 * HG t x)) (fun x => Rabs ((x - Q) ^ 0 * HG t x))).
  - assert (B : forall x, - Rabs ((x - Q) ^ 0 * HG t x) <= HG t x * g x <= Rabs ((x - Q) ^ 0 * HG t x)).
    { intros x. cbn [pow]. rewrite Rmult_1_l. pose proof (g_bound x). pose proof (Rle_abs (HG t x)). pose proof (Rle_abs (- HG t x)). rewrite Rabs_Ropp in *. pose proof (Rabs_pos (HG t x)). split; nra. }
    destruct Hl as [-> | ->]; exists 0; intros x _; apply B.
  - apply (lim_eq _ _ (- 0)); [|ring]. apply is_lim_opp with (l := Finite 0). apply (lim_eq _ _ (Rabs 0)); [|apply Rabs_R0]. apply (is_lim_comp_continuous _ Rabs l 0 L). apply (continuous_Rabs 0).
  - apply (lim_eq _ _ (Rabs 0)); [|apply Rabs_R0]. apply (is_lim_comp_continuous _ Rabs l 0 L). apply (continuous_Rabs 0).
Qed.

Definition herm_m : R := - 2 * (q * w / (q + w)).

Lemma herm_base : is_int (fun x => HG 0 x * g x) (sqrt (PI / (q + w)) * hfun_ herm_m 0 (Q - C)).
Proof.
  assert (V : hfun_ herm_m 0 (Q - C) = exp (- (q * w / (q + w)) * (Q - C) * (Q - C))).
  { unfold hfun_, herm_m. cbn [hpol]. rewrite Rmult_1_l. f_equal. field. lra. }
  rewrite V. destruct (Req_dec w 0) as [E|E].
  - assert (Hh : 0 < q / 2) by lra. pose proof (pair_base (q / 2) Q (q / 2) Q Hh Hh) as B.
    apply (is_int_ext (cgp (q / 2) Q (q / 2) Q 0 0)).
    { intros x. unfold cgp, cg, g. cbn [pow]. rewrite !Rmult_1_l, herm_0, E, Rmult_0_l, Ropp_0, exp_0, Rmult_1_r, <- exp_plus. f_equal. field. }
    apply (is_int_eq _ _ _ B). rewrite E, Rplus_0_r. replace (q / 2 + q / 2) with q by field. f_equal. f_equal. field. lra.
  - assert (Hw' : 0 < w) by lra. pose proof (pair_base q Q w C Hq Hw') as B.
    apply (is_int_ext (cgp q Q w C 0 0)); [|exact B].
    intros x. unfold cgp, cg, g. cbn [pow]. rewrite !Rmult_1_l, herm_0. do 3 f_equal. ring.
Qed.

Lemma herm_g_derive t (x : R) : is_derive (fun x => HG t x * g x) x (- HG (S t) x * g x + HG t x * (- 2 * w * (x - C) * g x)).
Proof.
  apply (is_derive_mult (HG t) g x (- HG (S t) x) (- 2 * w * (x - C) * g x) (herm_derive t x) (g_derive x)). intros a b. apply Rmult_comm.
Qed.

Lemma herm_int_step t I0 I1 : is_int (fun x => HG (pred t) x * g x) I0 -> is_int (fun x => HG t x * g x) I1 ->
  is_int (fun x => HG (S t) x * g x) (herm_m * (INR t * I0 + (Q - C) * I1)).
Proof.
  intros H0 H1.
  assert (P : is_int (fun x => - HG (S t) x * g x + HG t x * (- 2 * w * (x - C) * g x)) (0 - 0)).
  { apply (is_int_deriv (fun x => HG t x * g x)).
    - apply herm_g_derive.
    - intros x. apply continuous_plus_R.
      + apply continuous_mult_R; [|apply g_cont]. apply (continuous_ext (fun x => (-1) * HG (S t) x)); [intros y; change (@eq R ((-1) * hermite_gaussian q Q (S t) y) (- hermite_gaussian q Q (S t) y)); ring|]. apply continuous_mult_R; [apply continuous_const_R|apply herm_cont].
      + apply continuous_mult_R; [apply herm_cont|]. apply continuous_mult_R; [|apply g_cont]. apply continuous_mult_R; [apply continuous_const_R|].
        apply continuous_minus_R; [apply continuous_id|apply continuous_const_R].
    - apply herm_g_lim. right. reflexivity.
    - apply herm_g_lim. left. reflexivity. }
  apply (is_int_ext (fun x => (- q / (q + w)) * (- HG (S t) x * g x + HG t x * (- 2 * w * (x - C) * g x)) + herm_m * (INR t * (HG (pred t) x * g x) + (Q - C) * (HG t x * g x)))).
  { intros x. unfold herm_m.
    replace (HG t x * (- 2 * w * (x - C) * g x)) with (- 2 * w * g x * ((x - Q) * HG t x + (Q - C) * HG t x)) by ring.
    rewrite hermite_shift by exact Hq. field. lra. }
  apply (is_int_eq _ ((- q / (q + w)) * (0 - 0) + herm_m * (INR t * I0 + (Q - C) * I1))); [|ring].
  apply is_int_plus; [apply is_int_scal; exact P|]. apply is_int_scal. apply is_int_plus; apply is_int_scal; assumption.
Qed.

Lemma herm_int t : is_int (fun x => HG t x * exp (- (w * (x - C) ^ 2))) (sqrt (PI / (q + w)) * hfun_ herm_m t (Q - C)).
Proof.
  assert (G : is_int (fun x => HG t x * g x) (sqrt (PI / (q + w)) * hfun_ herm_m t (Q - C)) /\ is_int (fun x => HG (S t) x * g x) (sqrt (PI / (q + w)) * hfun_ herm_m (S t) (Q - C))).
  { induction t as [|t (IH0 & IH1)].
    - split; [apply herm_base|]. eapply is_int_eq; [apply (herm_int_step 0 _ _ herm_base herm_base)|]. unfold hfun_. cbn [hpol INR]. ring.
    - split; [exact IH1|]. eapply is_int_eq; [apply (herm_int_step (S t) _ _ IH0 IH1)|]. unfold hfun_. rewrite hpol_SS. ring. }
  exact (proj1 G).
Qed.
End W.
End Herm.

(** ** The kernels are 1/r and 1/r^2 *)

Lemma one_over_r rho : 0 < rho -> half_int (fun u => w1 u * exp (- (u ^ 2 * rho ^ 2))) (1 / rho).
Proof.
  intros Hr. assert (Hpi : 0 < sqrt PI) by (apply sqrt_lt_R0, PI_RGT_0).
  apply (half_eq _ (2 / sqrt PI / rho * (sqrt PI / 2) - 2 / sqrt PI / rho * erf0 (rho * 0))).
  2:{ rewrite Rmult_0_r. unfold erf0. rewrite RInt_point. match goal with |- context [zero] => change zero with 0 end. field. lra. }
  apply (half_deriv (fun u => 2 / sqrt PI / rho * erf0 (rho * u))).
  - intros u. apply (is_derive_eq _ u (2 / sqrt PI / rho * (rho * gauss (rho * u)))).
    + apply (is_derive_scal (fun u => erf0 (rho * u))).
      apply (is_derive_comp erf0 (fun u => rho * u) u (gauss (rho * u)) rho); [apply is_derive_erf0|]. auto_derive; [exact I|ring].
    + unfold w1, gauss. replace (- (rho * u * (rho * u))) with (- (u ^ 2 * rho ^ 2)) by ring. field. lra.
  - intros u. apply (ex_derive_continuous (fun u => w1 u * exp (- (u ^ 2 * rho ^ 2)))). unfold w1. auto_derive. exact I.
  - apply (is_lim_scal_l (fun u => erf0 (rho * u)) _ p_infty (sqrt PI / 2)).
    apply (is_lim_comp erf0 (fun u => rho * u) p_infty (sqrt PI / 2) p_infty).
    + apply erf0_lim.
    + apply (lim_scal_inf rho (fun u => u)); [exact Hr|left; reflexivity|apply is_lim_id].
    + exists 0. intros y _. discriminate.
Qed.

Lemma one_over_r2 rho : 0 < rho -> half_int (fun u => w2 u * exp (- (u ^ 2 * rho ^ 2))) (1 / rho ^ 2).
Proof.
  intros Hr. assert (Hr2 : 0 < rho ^ 2) by (apply pow_lt; exact Hr).
  apply (half_eq _ (- 1 / rho ^ 2 * 0 - (- 1 / rho ^ 2 * exp (- (rho ^ 2 * (0 * 0)))))).
  2:{ replace (- (rho ^ 2 * (0 * 0))) with 0 by ring. rewrite exp_0. field. lra. }
  apply (half_deriv (fun u => - 1 / rho ^ 2 * exp (- (rho ^ 2 * (u * u))))).
  - intros u. apply (is_derive_eq _ u (- 1 / rho ^ 2 * (- (rho ^ 2) * (2 * u) * exp (- (rho ^ 2 * (u * u)))))).
    + apply (is_derive_scal (fun u => exp (- (rho ^ 2 * (u * u))))). set (r2 := rho ^ 2). auto_derive; [exact I|]. ring.
    + unfold w2. replace (rho ^ 2 * (u * u)) with (u ^ 2 * rho ^ 2) by ring. field. lra.
  - intros u. apply (ex_derive_continuous (fun u => w2 u * exp (- (u ^ 2 * rho ^ 2)))). unfold w2. auto_derive. exact I.
  - apply (is_lim_scal_l _ _ p_infty 0). apply lim_exp_p. exact Hr2.
Qed.

(** ** Substitutions in the integral over u *)

Lemma sub_lim q : 0 < q -> is_lim (fun u => q / (q + u ^ 2)) p_infty 0.
Proof.
  intros Hq. apply (lim_eq _ _ (q * 0)); [|ring]. unfold Rdiv. apply (is_lim_scal_l (fun u => / (q + u ^ 2)) q p_infty 0).
  apply (is_lim_inv (fun u => q + u ^ 2) p_infty p_infty); [|discriminate].
  apply (is_lim_le_p_loc (fun u => u)); [|apply is_lim_id]. exists 1. intros u Hu. nra.
Qed.

Section Subst.
Variables (q : R) (g : R -> R).
Hypothesis Hq : 0 < q.
Hypothesis Hg : forall s, continuous g s.

Lemma den_pos u : 0 < q + u ^ 2.
Proof. assert (0 <= u ^ 2) by (apply pow2_ge_0). lra. Qed.

Lemma prim_derive (k : R -> R) (Hk : forall s, continuous k s) (s : R) : is_derive (fun s => RInt k 0 s) s (k s).
Proof.
  apply (is_derive_RInt (V := R_NormedModule) k _ 0 s).
  - apply filter_forall. intros y. apply (RInt_correct (V := R_CompleteNormedModule)). apply ex_RInt_cont. exact Hk.
  - apply Hk.
Qed.

Lemma subst_r : half_int (fun u => w1 u * (sqrt (PI / (q + u ^ 2)) ^ 3 * g (u ^ 2 / (q + u ^ 2)))) (2 * PI / q * RInt (fun s => g (s ^ 2)) 0 1).
Proof.
  assert (Hk : forall s, continuous (fun s => g (s ^ 2)) s).
  { intros s. apply (continuous_comp (fun s => s ^ 2) g); [|apply Hg]. apply (ex_derive_continuous (fun s => s ^ 2)). auto_derive. exact I. }
  set (Phi := fun s => RInt (fun s => g (s ^ 2)) 0 s).
  set (Sf := fun u => u / sqrt (q + u ^ 2)).
  assert (HD : forall u, is_derive Sf u (q / (sqrt (q + u ^ 2) * (q + u ^ 2)))).
  { intros u. pose proof (den_pos u) as Hd. assert (Hs : 0 < sqrt (q + u ^ 2)) by (apply sqrt_lt_R0; exact Hd).
    unfold Sf. auto_derive; [split; [exact Hd|]; split; [|exact I]; apply Rgt_not_eq; cbn [pow] in Hs; exact Hs|].
    cbn [INR pow] in *. rewrite Rmult_1_r in *. assert (Hss : sqrt (q + u * u) * sqrt (q + u * u) = q + u * u) by (apply sqrt_sqrt; lra).
    set (s := sqrt (q + u * u)) in *. rewrite <- Hss. replace q with (s * s - u * u) by lra. field. lra. }
  assert (SQ : forall u, Sf u ^ 2 = u ^ 2 / (q + u ^ 2)).
  { intros u. pose proof (den_pos u) as Hd. unfold Sf. unfold Rdiv. rewrite Rpow_mult_distr, pow_inv, pow2_sqrt by lra. reflexivity. }
  assert (Hlim : is_lim Sf p_infty 1).
  { apply (is_lim_ext_loc (fun u => sqrt (1 - q / (q + u ^ 2)))).
    { exists 0. intros u Hu. pose proof (den_pos u) as Hd. rewrite <- (sqrt_pow2 (Sf u)).
      - f_equal. rewrite SQ. field. lra.
      - unfold Sf. apply Rmult_le_pos; [lra|]. left. apply Rinv_0_lt_compat, sqrt_lt_R0. exact Hd. }
    apply (lim_eq _ _ (sqrt (1 - 0))); [|rewrite Rminus_0_r; apply sqrt_1].
    apply (is_lim_comp_continuous (fun u => 1 - q / (q + u ^ 2)) sqrt p_infty (1 - 0)).
    - apply is_lim_minus'; [apply is_lim_const|apply sub_lim; exact Hq].
    - apply continuous_sqrt. }
  assert (HPhi : forall s, is_derive Phi s (g (s ^ 2))) by (intros s; apply (prim_derive (fun s => g (s ^ 2)) Hk)).
  assert (Hpi := PI_RGT_0). assert (Hsp : 0 < sqrt PI) by (apply sqrt_lt_R0; exact Hpi).
  apply (half_eq _ (2 * PI / q * Phi 1 - 2 * PI / q * Phi (Sf 0))).
  2:{ unfold Sf. replace (0 / sqrt (q + 0 ^ 2)) with 0 by (unfold Rdiv; ring). unfold Phi at 2. rewrite RInt_point. match goal with |- context [zero] => change zero with 0 end. unfold Phi. ring. }
  apply (half_deriv (fun u => 2 * PI / q * Phi (Sf u))).
  - intros u. pose proof (den_pos u) as Hd. assert (Hs : 0 < sqrt (q + u ^ 2)) by (apply sqrt_lt_R0; exact Hd).
    eapply is_derive_eq; [apply (is_derive_scal (fun u => Phi (Sf u))); apply (is_derive_comp Phi Sf u _ _ (HPhi (Sf u)) (HD u))|].
    match goal with |- _ = ?y => change (2 * PI / q * (q / (sqrt (q + u ^ 2) * (q + u ^ 2)) * g (Sf u ^ 2)) = y) end.
    rewrite SQ. unfold w1. rewrite sqrt_div_alt by exact Hd.
    assert (E1 : sqrt PI * sqrt PI = PI) by (apply sqrt_sqrt; lra). assert (E2 : sqrt (q + u ^ 2) * sqrt (q + u ^ 2) = q + u ^ 2) by (apply sqrt_sqrt; lra).
    generalize (g (u ^ 2 / (q + u ^ 2))). intros G. set (sp := sqrt PI) in *. set (D := sqrt (q + u ^ 2)) in *. rewrite <- E1, <- E2. clearbody D sp. field. lra.
  - intros u. apply continuous_mult_R; [apply continuous_const_R|]. pose proof (den_pos u) as Hd. apply continuous_mult_R.
    + apply (ex_derive_continuous (fun u => sqrt (PI / (q + u ^ 2)) ^ 3)). auto_derive. repeat split; try (apply Rgt_not_eq; cbn [pow] in Hd; exact Hd).
      apply Rmult_lt_0_compat; [exact Hpi|]. apply Rinv_0_lt_compat. cbn [pow] in Hd. exact Hd.
    + apply (continuous_comp (fun u => u ^ 2 / (q + u ^ 2)) g); [|apply Hg]. apply (ex_derive_continuous (fun u => u ^ 2 / (q + u ^ 2))). auto_derive. apply Rgt_not_eq. cbn [pow] in Hd. exact Hd.
  - apply (is_lim_scal_l (fun u => Phi (Sf u)) _ p_infty (Phi 1)). apply (is_lim_comp_continuous Sf Phi p_infty 1 Hlim).
    apply (ex_derive_continuous Phi). eexists. apply HPhi.
Qed.

Lemma subst_r2 : half_int (fun u => w2 u * (sqrt (PI / (q + u ^ 2)) ^ 3 * g (u ^ 2 / (q + u ^ 2)))) (2 * Rpower PI 1.5 / sqrt q * RInt (fun s => g (1 - s ^ 2)) 0 1).
Proof.
  assert (Hk : forall s, continuous (fun s => g (1 - s ^ 2)) s).
  { intros s. apply (continuous_comp (fun s => 1 - s ^ 2) g); [|apply Hg]. apply (ex_derive_continuous (fun s => 1 - s ^ 2)). auto_derive. exact I. }
  set (Phi := fun s => RInt (fun s => g (1 - s ^ 2)) 0 s).
  assert (Hsq : 0 < sqrt q) by (apply sqrt_lt_R0; exact Hq).
  set (Wf := fun u => sqrt q / sqrt (q + u ^ 2)).
  assert (HD : forall u, is_derive Wf u (- (sqrt q * u / (sqrt (q + u ^ 2) * (q + u ^ 2))))).
  { intros u. pose proof (den_pos u) as Hd. assert (Hs : 0 < sqrt (q + u ^ 2)) by (apply sqrt_lt_R0; exact Hd).
    unfold Wf. auto_derive; [split; [exact Hd|]; split; [|exact I]; apply Rgt_not_eq; cbn [pow] in Hs; exact Hs|].
    cbn [INR pow] in *. rewrite Rmult_1_r in *. assert (Hss : sqrt (q + u * u) * sqrt (q + u * u) = q + u * u) by (apply sqrt_sqrt; lra).
    set (s := sqrt (q + u * u)) in *. rewrite <- Hss. field. lra. }
  assert (SQ : forall u, 1 - Wf u ^ 2 = u ^ 2 / (q + u ^ 2)).
  { intros u. pose proof (den_pos u) as Hd. unfold Wf. unfold Rdiv. rewrite Rpow_mult_distr, pow_inv, !pow2_sqrt by lra. field. lra. }
  assert (Hlim : is_lim Wf p_infty 0).
  { apply (is_lim_ext_loc (fun u => sqrt (q / (q + u ^ 2)))).
    { exists 0. intros u Hu. pose proof (den_pos u) as Hd. apply sqrt_div_alt. exact Hd. }
    apply (lim_eq _ _ (sqrt 0)); [|apply sqrt_0].
    apply (is_lim_comp_continuous (fun u => q / (q + u ^ 2)) sqrt p_infty 0); [apply sub_lim; exact Hq|apply continuous_sqrt]. }
  assert (HPhi : forall s, is_derive Phi s (g (1 - s ^ 2))) by (intros s; apply (prim_derive (fun s => g (1 - s ^ 2)) Hk)).
  assert (Hpi := PI_RGT_0). assert (Hsp : 0 < sqrt PI) by (apply sqrt_lt_R0; exact Hpi).
  assert (HP : Rpower PI 1.5 = sqrt PI ^ 3).
  { replace 1.5 with (/ 2 + 1) by lra. rewrite Rpower_plus, Rpower_sqrt, Rpower_1 by exact Hpi.
    rewrite <- (sqrt_sqrt PI) at 2 by lra. ring. }
  rewrite HP. set (c := 2 * sqrt PI ^ 3 / sqrt q).
  apply (half_eq _ (- c * Phi 0 - - c * Phi (Wf 0))).
  2:{ unfold Wf. replace (sqrt q / sqrt (q + 0 ^ 2)) with 1 by (replace (q + 0 ^ 2) with q by ring; field; lra). unfold Phi at 1. rewrite RInt_point. match goal with |- context [zero] => change zero with 0 end. unfold Phi. ring. }
  apply (half_deriv (fun u => - c * Phi (Wf u))).
  - intros u. pose proof (den_pos u) as Hd. assert (Hs : 0 < sqrt (q + u ^ 2)) by (apply sqrt_lt_R0; exact Hd).
    eapply is_derive_eq; [apply (is_derive_scal (fun u => Phi (Wf u))); apply (is_derive_comp Phi Wf u _ _ (HPhi (Wf u)) (HD u))|].
    match goal with |- _ = ?y => change (- c * (- (sqrt q * u / (sqrt (q + u ^ 2) * (q + u ^ 2))) * g (1 - Wf u ^ 2)) = y) end.
    rewrite SQ. unfold w2. rewrite sqrt_div_alt by exact Hd.
    assert (E2 : sqrt (q + u ^ 2) * sqrt (q + u ^ 2) = q + u ^ 2) by (apply sqrt_sqrt; lra).
    generalize (g (u ^ 2 / (q + u ^ 2))). intros G. unfold c. set (D := sqrt (q + u ^ 2)) in *. rewrite <- E2. set (sp := sqrt PI) in *. set (sq := sqrt q) in *. clearbody D sp sq. field. lra.
  - intros u. pose proof (den_pos u) as Hd. apply continuous_mult_R; [apply (ex_derive_continuous w2); unfold w2; auto_derive; exact I|]. apply continuous_mult_R.
    + apply (ex_derive_continuous (fun u => sqrt (PI / (q + u ^ 2)) ^ 3)). auto_derive. repeat split; try (apply Rgt_not_eq; cbn [pow] in Hd; exact Hd).
      apply Rmult_lt_0_compat; [exact Hpi|]. apply Rinv_0_lt_compat. cbn [pow] in Hd. exact Hd.
    + apply (continuous_comp (fun u => u ^ 2 / (q + u ^ 2)) g); [|apply Hg]. apply (ex_derive_continuous (fun u => u ^ 2 / (q + u ^ 2))). auto_derive. apply Rgt_not_eq. cbn [pow] in Hd. exact Hd.
  - apply (is_lim_scal_l (fun u => Phi (Wf u)) _ p_infty (Phi 0)). apply (is_lim_comp_continuous Wf Phi p_infty 0 Hlim).
    apply (ex_derive_continuous Phi). eexists. apply HPhi.
Qed.
End Subst.
