(** * Accuracy of Dawson's integral

    The integral solves D' = 1 - 2 x D.  Each piece of the code is a function whose
    residual in this equation is small; the error is bounded by comparison. *)

From Coq Require Import ZArith List Lia Bool Reals Lra.
From Coquelicot Require Import Coquelicot.
From Verif Require Import Base DawsonTable DawsonModel OneElProofs DawsonProofs GfunThms FermiTaylor.
Import ListNotations.
Open Scope R_scope.

(** ** The differential equation *)

Lemma dawson_int_prod y : dawson_int y = exp (- y ^ 2) * RInt (fun t => exp (t ^ 2)) 0 y.
Proof.
  unfold dawson_int. change (exp (- y ^ 2) * RInt (fun t => exp (t ^ 2)) 0 y) with (scal (exp (- y ^ 2)) (RInt (fun t => exp (t ^ 2)) 0 y)).
  rewrite <- RInt_scal.
  - apply RInt_ext. intros t _. change (exp (t ^ 2 - y ^ 2) = exp (- y ^ 2) * exp (t ^ 2)). rewrite <- exp_plus. f_equal. ring.
  - apply (ex_RInt_continuous (V := R_CompleteNormedModule)). intros t _. apply (ex_derive_continuous (V := R_NormedModule)). auto_derive. exact I.
Qed.

Ltac eqr := match goal with |- ?a = ?b => change (@eq R a b) end.
Ltac dexp := auto_derive; [exact I|]; cbn [pow]; rewrite ?Rmult_1_r; ring.

Lemma dawson_deriv y : is_derive dawson_int y (1 - 2 * y * dawson_int y).
Proof.
  apply (is_derive_ext (fun y => exp (- y ^ 2) * RInt (fun t => exp (t ^ 2)) 0 y)); [intros t; symmetry; apply dawson_int_prod|].
  assert (F : is_derive (fun y => RInt (fun t => exp (t ^ 2)) 0 y) y (exp (y ^ 2))).
  { apply (is_derive_RInt (V := R_NormedModule) (fun t => exp (t ^ 2)) (fun y => RInt (fun t => exp (t ^ 2)) 0 y) 0 y).
    - exists (mkposreal 1 ltac:(lra)). intros z _. apply (RInt_correct (V := R_CompleteNormedModule)). apply (ex_RInt_continuous (V := R_CompleteNormedModule)). intros t _. apply (ex_derive_continuous (V := R_NormedModule)). auto_derive. exact I.
    - apply (ex_derive_continuous (V := R_NormedModule)). auto_derive. exact I. }
  assert (E : is_derive (fun y => exp (- y ^ 2)) y (- (2 * y) * exp (- y ^ 2))) by dexp.
  pose proof (is_derive_mult (fun y => exp (- y ^ 2)) (fun y => RInt (fun t => exp (t ^ 2)) 0 y) y _ _ E F Rmult_comm) as M.
  cbn in M. rewrite dawson_int_prod.
  replace (1 - 2 * y * (exp (- y ^ 2) * RInt (fun t => exp (t ^ 2)) 0 y)) with (plus (mult (- (2 * y) * exp (- y ^ 2)) (RInt (fun t => exp (t ^ 2)) 0 y)) (mult (exp (- y ^ 2)) (exp (y ^ 2)))); [exact M|].
  change (- (2 * y) * exp (- y ^ 2) * RInt (fun t => exp (t ^ 2)) 0 y + exp (- y ^ 2) * exp (y ^ 2) = 1 - 2 * y * (exp (- y ^ 2) * RInt (fun t => exp (t ^ 2)) 0 y)).
  assert (X : exp (- y ^ 2) * exp (y ^ 2) = 1) by (rewrite <- exp_plus, Rplus_opp_l; apply exp_0). rewrite X. ring.
Qed.

Lemma dawson_0 : dawson_int 0 = 0.
Proof. unfold dawson_int. apply @RInt_point. Qed.

Lemma dawson_int_odd y : dawson_int (- y) = - dawson_int y.
Proof.
  rewrite !dawson_int_prod. replace ((- y) ^ 2) with (y ^ 2) by ring.
  assert (E : RInt (fun t => exp (t ^ 2)) 0 (- y) = - RInt (fun t => exp (t ^ 2)) 0 y).
  { assert (X : forall a b, ex_RInt (V := R_CompleteNormedModule) (fun t => exp (t ^ 2)) a b) by (intros; apply (ex_RInt_continuous (V := R_CompleteNormedModule)); intros t _; apply (ex_derive_continuous (V := R_NormedModule)); auto_derive; exact I).
    assert (J := RInt_correct (V := R_CompleteNormedModule) _ _ _ (X (- 0) (- y))). apply (is_RInt_comp_opp (V := R_NormedModule)) in J. rewrite Ropp_0 in J.
    apply (is_RInt_unique (V := R_CompleteNormedModule)) in J. rewrite <- J.
    change (- RInt (fun t => exp (t ^ 2)) 0 y) with (opp (RInt (fun t => exp (t ^ 2)) 0 y)). rewrite <- RInt_opp by apply X.
    apply RInt_ext. intros t _. change (- exp ((- t) ^ 2) = - exp (t ^ 2)). do 2 f_equal. ring. }
  rewrite E. ring.
Qed.

(** comparison: if f' + 2 s f <= g' + 2 s g on [a, x] and f <= g at a then f <= g at x *)
Lemma compare (f f' g g' : R -> R) a x : a <= x ->
  (forall s, a <= s <= x -> is_derive f s (f' s)) -> (forall s, a <= s <= x -> is_derive g s (g' s)) ->
  (forall s, a <= s <= x -> f' s + 2 * s * f s <= g' s + 2 * s * g s) -> f a <= g a -> f x <= g x.
Proof.
  intros Hax Hf Hg H H0.
  assert (M : exp (a ^ 2) * (g a - f a) <= exp (x ^ 2) * (g x - f x)).
  { apply (mono (fun s => exp (s ^ 2) * (g s - f s)) (fun s => exp (s ^ 2) * (g' s + 2 * s * g s - (f' s + 2 * s * f s))) a x Hax).
    - intros s Hs. pose proof (Hf s Hs) as F. pose proof (Hg s Hs) as G.
      assert (E : is_derive (fun s => exp (s ^ 2)) s (2 * s * exp (s ^ 2))) by dexp.
      pose proof (is_derive_mult (fun s => exp (s ^ 2)) (fun s => minus (g s) (f s)) s _ _ E (is_derive_minus g f s _ _ G F) Rmult_comm) as P.
      replace (exp (s ^ 2) * (g' s + 2 * s * g s - (f' s + 2 * s * f s))) with (plus (mult (2 * s * exp (s ^ 2)) (minus (g s) (f s))) (mult (exp (s ^ 2)) (minus (g' s) (f' s)))); [exact P|].
      change (2 * s * exp (s ^ 2) * (g s - f s) + exp (s ^ 2) * (g' s - f' s) = exp (s ^ 2) * (g' s + 2 * s * g s - (f' s + 2 * s * f s))). ring.
    - intros s Hs. apply Rmult_le_pos; [left; apply exp_pos|]. specialize (H s Hs). lra. }
  pose proof (exp_pos (a ^ 2)). pose proof (exp_pos (x ^ 2)).
  assert (0 <= exp (a ^ 2) * (g a - f a)) by (apply Rmult_le_pos; lra). assert (0 <= exp (x ^ 2) * (g x - f x)) by lra.
  apply Rnot_lt_le. intros C. assert (exp (x ^ 2) * (g x - f x) < 0) by nra. lra.
Qed.

(** an approximate solution of the equation whose residual is at most 2 s K stays within K *)
Lemma residual_close (p p' : R -> R) a x K : 0 <= a <= x ->
  (forall s, a <= s <= x -> is_derive p s (p' s)) ->
  (forall s, a <= s <= x -> Rabs (p' s + 2 * s * p s - 1) <= 2 * s * K) ->
  Rabs (p a - dawson_int a) <= K -> Rabs (p x - dawson_int x) <= K.
Proof.
  intros Ha Hp Hr H0.
  assert (U : p x <= dawson_int x + K).
  { apply (compare p p' (fun s => dawson_int s + K) (fun s => 1 - 2 * s * dawson_int s) a x); [lra|exact Hp| | |].
    - intros s _. replace (1 - 2 * s * dawson_int s) with (plus (1 - 2 * s * dawson_int s) 0) by apply Rplus_0_r.
      apply (is_derive_plus dawson_int (fun _ => K) s); [apply dawson_deriv|apply @is_derive_const].
    - intros s Hs. specialize (Hr s Hs). apply Rabs_le_between in Hr. lra.
    - apply Rabs_le_between in H0. lra. }
  assert (L : dawson_int x + (- K) <= p x).
  { apply (compare (fun s => dawson_int s + (- K)) (fun s => 1 - 2 * s * dawson_int s) p p' a x); [lra| |exact Hp| |].
    - intros s _. replace (1 - 2 * s * dawson_int s) with (plus (1 - 2 * s * dawson_int s) 0) by apply Rplus_0_r.
      apply (is_derive_plus dawson_int (fun _ => - K) s); [apply dawson_deriv|apply @is_derive_const].
    - intros s Hs. specialize (Hr s Hs). apply Rabs_le_between in Hr. lra.
    - apply Rabs_le_between in H0. lra. }
  apply Rabs_le. lra.
Qed.

(** ** Calculus of Chebyshev series with integer coefficients *)

(** the sum of l_i T_(k+i) *)
Fixpoint chs (l : list Z) (k : nat) (t : R) : R :=
  match l with [] => 0 | a :: r => IZR a * cheb k t + chs r (S k) t end.

(** V n = U_(n-2) *)
Fixpoint cV_pair (n : nat) (t : R) : R * R :=
  match n with O => (-1, 0) | S k => let '(a, b) := cV_pair k t in (b, 2 * t * b - a) end.
Definition cV (n : nat) (t : R) : R := fst (cV_pair n t).

Lemma cV_SS n t : cV (S (S n)) t = 2 * t * cV (S n) t - cV n t.
Proof. unfold cV. cbn [cV_pair]. destruct (cV_pair n t). reflexivity. Qed.

Lemma cV_T n t : cV (S (S n)) t = 2 * cheb n t + cV n t.
Proof.
  enough (cV (S (S n)) t = 2 * cheb n t + cV n t /\ cV (S (S (S n))) t = 2 * cheb (S n) t + cV (S n) t) by tauto.
  induction n as [|n (H1 & H2)].
  - unfold cV. cbn. split; ring.
  - split; [exact H2|]. rewrite (cV_SS (S (S n))), H2, cheb_SS. pose proof (cV_SS n t). lra.
Qed.

Lemma cheb_deriv n t : is_derive (cheb n) t (INR n * cV (S n) t).
Proof.
  enough (is_derive (cheb n) t (INR n * cV (S n) t) /\ is_derive (cheb (S n)) t (INR (S n) * cV (S (S n)) t)) by tauto.
  induction n as [|n (H1 & H2)].
  - split.
    + apply (is_derive_ext (fun _ => 1)); [intros; reflexivity|]. cbn [INR]. rewrite Rmult_0_l. apply @is_derive_const.
    + apply (is_derive_ext (fun x => x)); [intros; reflexivity|]. replace (INR 1 * cV 2 t) with 1 by (unfold cV; cbn; ring). apply @is_derive_id.
  - split; [exact H2|]. apply (is_derive_ext (fun x => 2 * x * cheb (S n) x - cheb n x)); [intros; symmetry; apply cheb_SS|].
    assert (X : is_derive (fun x => 2 * x) t 2) by (auto_derive; [exact I|ring]).
    pose proof (is_derive_minus _ _ t _ _ (is_derive_mult (fun x => 2 * x) (cheb (S n)) t _ _ X H2 Rmult_comm) H1) as P.
    replace (INR (S (S n)) * cV (S (S (S n))) t) with (minus (plus (mult 2 (cheb (S n) t)) (mult (2 * t) (INR (S n) * cV (S (S n)) t))) (INR n * cV (S n) t)); [exact P|].
    change (2 * cheb (S n) t + 2 * t * (INR (S n) * cV (S (S n)) t) - INR n * cV (S n) t = INR (S (S n)) * cV (S (S (S n))) t).
    pose proof (cV_SS (S n) t) as A. pose proof (cV_T (S n) t) as B. rewrite (S_INR (S n)), (S_INR n). rewrite A.
    assert (C : 2 * cheb (S n) t = 2 * t * cV (S (S n)) t - 2 * cV (S n) t) by lra. rewrite C. ring.
Qed.

(** the sum of l_i V_(k+i) *)
Fixpoint cvs (l : list Z) (k : nat) (t : R) : R :=
  match l with [] => 0 | a :: r => IZR a * cV k t + cvs r (S k) t end.

(** k l_0, (k+1) l_1, ... *)
Fixpoint weigh (k : Z) (l : list Z) : list Z := match l with [] => [] | a :: r => (k * a)%Z :: weigh (k + 1) r end.

Lemma chs_deriv l : forall k t, is_derive (chs l k) t (cvs (weigh (Z.of_nat k) l) (S k) t).
Proof.
  induction l as [|a r IH]; intros k t; cbn [chs weigh cvs]; [apply @is_derive_const|].
  assert (X : is_derive (fun t => IZR a * cheb k t) t (IZR a * (INR k * cV (S k) t))) by (apply (is_derive_scal (cheb k) t (IZR a)); apply cheb_deriv).
  replace (Z.of_nat k + 1)%Z with (Z.of_nat (S k)) by lia.
  pose proof (is_derive_plus _ _ t _ _ X (IH (S k) t)) as P. rewrite mult_IZR, <- INR_IZR_INZ.
  replace (INR k * IZR a * cV (S k) t) with (IZR a * (INR k * cV (S k) t)) by ring. exact P.
Qed.

(** sums over every second element *)
Fixpoint evens (l : list Z) : list Z := match l with [] => [] | a :: r => let s := evens r in (a + nth 1 s 0)%Z :: s end.

Lemma evens_ok l : forall k t, cvs l (S (S k)) t = 2 * chs (evens l) k t + IZR (nth 0 (evens l) 0%Z) * cV k t + IZR (nth 1 (evens l) 0%Z) * cV (S k) t.
Proof.
  induction l as [|a r IH]; intros k t; cbn [cvs evens chs].
  - cbn [nth]. ring.
  - rewrite (IH (S k) t). cbn [nth chs]. change (nth 1 (_ :: evens r) 0%Z) with (nth 0 (evens r) 0%Z). rewrite plus_IZR, cV_T. ring.
Qed.

Fixpoint ladd (l m : list Z) : list Z :=
  match l, m with [], _ => m | _, [] => l | a :: r, b :: s => (a + b)%Z :: ladd r s end.

Lemma ladd_ok l : forall m k t, chs (ladd l m) k t = chs l k t + chs m k t.
Proof.
  induction l as [|a r IH]; intros [|b m] k t; cbn [ladd chs]; try ring.
  rewrite IH, plus_IZR. ring.
Qed.

Lemma lscale_ok c l : forall k t, chs (map (Z.mul c) l) k t = IZR c * chs l k t.
Proof. induction l as [|a r IH]; intros k t; cbn [map chs]; [ring|]. rewrite IH, mult_IZR. ring. Qed.

(** coefficients of the derivative and of the product with 2 t *)
Definition lderiv (l : list Z) : list Z := let s := evens (weigh 1 (tl l)) in ladd (map (Z.mul 2) s) [(- nth 0 s 0)%Z].
Definition ltimes (l : list Z) : list Z := match l with [] => [] | a :: r => ladd (0%Z :: (2 * a)%Z :: r) r end.

Lemma lderiv_ok l t : is_derive (chs l 0) t (chs (lderiv l) 0 t).
Proof.
  replace (chs (lderiv l) 0 t) with (cvs (weigh 0 l) 1 t); [apply (chs_deriv l 0 t)|].
  unfold lderiv. rewrite ladd_ok, lscale_ok. cbn [chs].
  destruct l as [|a r]; cbn [weigh tl cvs].
  - cbn. ring.
  - change (weigh (0 + 1) r) with (weigh 1 r). rewrite Z.mul_0_l, Rmult_0_l, Rplus_0_l. rewrite evens_ok.
    rewrite opp_IZR. unfold cV at 1 2. cbn [cV_pair fst]. rewrite cheb_0. ring.
Qed.

Lemma chs_times l : forall k t, 2 * t * chs l (S k) t = chs l (S (S k)) t + chs l k t.
Proof. induction l as [|a r IH]; intros k t; cbn [chs]; [ring|]. rewrite (cheb_SS k). specialize (IH (S k) t). lra. Qed.

Lemma ltimes_ok l t : chs (ltimes l) 0 t = 2 * t * chs l 0 t.
Proof.
  destruct l as [|a r]; unfold ltimes; [cbn; ring|]. rewrite ladd_ok. cbn [chs]. rewrite Rmult_plus_distr_l, (chs_times r 0 t), mult_IZR, cheb_0, cheb_1. ring.
Qed.

Fixpoint labs (l : list Z) : Z := match l with [] => 0%Z | a :: r => (Z.abs a + labs r)%Z end.

Lemma labs_ok l : forall k t, -1 <= t <= 1 -> Rabs (chs l k t) <= IZR (labs l).
Proof.
  induction l as [|a r IH]; intros k t Ht; cbn [chs labs]; [rewrite Rabs_R0; lra|].
  rewrite plus_IZR. eapply Rle_trans; [apply Rabs_triang|]. apply Rplus_le_compat; [|apply IH; exact Ht].
  rewrite Rabs_mult, abs_IZR. pose proof (cheb_bound k t Ht). rewrite <- (Rmult_1_r (Rabs (IZR a))) at 2. apply Rmult_le_compat_l; [apply Rabs_pos|assumption].
Qed.

(** values at the ends *)
Fixpoint lsumz (l : list Z) : Z := match l with [] => 0%Z | a :: r => (a + lsumz r)%Z end.
Fixpoint laltz (l : list Z) : Z := match l with [] => 0%Z | a :: r => (a - laltz r)%Z end.

Lemma cheb_at_1 n : cheb n 1 = 1.
Proof. enough (cheb n 1 = 1 /\ cheb (S n) 1 = 1) by tauto. induction n as [|n (H1 & H2)]; [split; reflexivity|]. split; [exact H2|]. rewrite cheb_SS, H1, H2. ring. Qed.

Lemma cheb_at_m1 n : cheb n (-1) = (-1) ^ n.
Proof. enough (cheb n (-1) = (-1) ^ n /\ cheb (S n) (-1) = (-1) ^ S n) by tauto. induction n as [|n (H1 & H2)]; [split; [reflexivity|cbn; ring]|]. split; [exact H2|]. rewrite cheb_SS, H1, H2. cbn [pow]. ring. Qed.

Lemma chs_at_1 l : forall k, chs l k 1 = IZR (lsumz l).
Proof. induction l as [|a r IH]; intros k; cbn [chs lsumz]; [reflexivity|]. rewrite IH, cheb_at_1, plus_IZR. ring. Qed.

Lemma chs_at_m1 l : forall k, chs l k (-1) = (-1) ^ k * IZR (laltz l).
Proof. induction l as [|a r IH]; intros k; cbn [chs laltz]; [ring|]. rewrite IH, cheb_at_m1, minus_IZR. cbn [pow]. ring. Qed.

(** ** The pieces *)

(** the coefficients times 10^44 *)
Definition coefs (c : list (Z * Z)) : list Z := map (fun '(m, e) => (m * 10 ^ (44 - e))%Z) c.

Lemma piece_chs c lo up x : (forall m e, In (m, e) c -> (0 <= e <= 44)%Z) ->
  piece c lo up x = chs (coefs c) 0 ((x - (up + lo) / 2) / ((up - lo) / 2)) / IZR (10 ^ 44).
Proof.
  intros Hc. unfold piece. set (t := _ / _). unfold cheb_sum.
  assert (HW : forall e, (0 <= e <= 44)%Z -> IZR (10 ^ 44) = IZR (10 ^ e) * IZR (10 ^ (44 - e))) by (intros e He; rewrite <- mult_IZR, <- Z.pow_add_r by lia; do 2 f_equal; lia).
  assert (Q : IZR (10 ^ 44) <> 0) by (apply IZR_neq; discriminate).
  set (W := IZR (10 ^ 44)) in *. clearbody W.
  assert (G : forall c k, (forall m e, In (m, e) c -> (0 <= e <= 44)%Z) -> rsum (length c) (fun i => dec (nth i c (0, 0)%Z) * cheb (k + i) t) = chs (coefs c) k t / W).
  { clear c Hc. induction c as [|(m, e) r IH]; intros k Hc; [cbn [length rsum coefs map chs]; field; exact Q|].
    cbn [length]. rewrite rsum_S_left. cbn [nth]. rewrite Nat.add_0_r.
    rewrite (rsum_ext _ _ (fun i => dec (nth i r (0, 0)%Z) * cheb (S k + i) t)) by (intros i _; do 2 f_equal; lia).
    rewrite IH by (intros m0 e0 HI; apply (Hc m0 e0); right; exact HI). unfold coefs at 2. cbn [map chs]. fold (coefs r).
    assert (He : (0 <= e <= 44)%Z) by (apply (Hc m e); left; reflexivity).
    assert (P : IZR (10 ^ e) <> 0) by (apply IZR_neq; apply Z.pow_nonzero; lia).
    unfold dec. cbn [fst snd]. rewrite mult_IZR. specialize (HW e He).
    set (p := IZR (10 ^ e)) in *. set (q := IZR (10 ^ (44 - e))) in *. clearbody p q. set (cc := chs _ _ _). clearbody cc. rewrite HW in *. assert (q <> 0) by (intros ->; apply Q; ring). field. split; assumption. }
  destruct c as [|u r]; [cbn [length Nat.sub rsum nth coefs map chs]; unfold dec; cbn [fst snd]; unfold Rdiv; rewrite !Rmult_0_l; ring|].
  rewrite <- (G (u :: r) 0%nat Hc). cbn [length]. replace (S (length r) - 1)%nat with (length r) by lia. reflexivity.
Qed.

(** midpoint M / 8, half length H / 8; residual times 8 H 10^44 *)
Definition resid (M H : Z) (l : list Z) : list Z :=
  ladd (map (Z.mul 64) (lderiv l)) (ladd (map (Z.mul (2 * M * H)) l) (ladd (map (Z.mul (H * H)) (ltimes l)) [(- (8 * H) * 10 ^ 44)%Z])).

Definition exps_small (c : list (Z * Z)) : bool := forallb (fun '(_, e) => (0 <=? e)%Z && (e <=? 44)%Z) c.

(** K in units of 10^-24: at the left end lo = (M - H) / 8 the residual is at most 2 lo K *)
Definition piece_check (c : list (Z * Z)) (M H K : Z) : bool :=
  exps_small c && (0 <? H)%Z && (H <? M)%Z && (labs (resid M H (coefs c)) <=? 2 * (M - H) * H * K * 10 ^ 20)%Z.

Lemma exps_small_ok c : exps_small c = true -> forall m e, In (m, e) c -> (0 <= e <= 44)%Z.
Proof. intros H m e HI. unfold exps_small in H. rewrite forallb_forall in H. specialize (H _ HI). cbn in H. apply andb_prop in H. destruct H as (A & B). apply Z.leb_le in A. apply Z.leb_le in B. lia. Qed.

Lemma piece_close c M H K x : piece_check c M H K = true ->
  IZR (M - H) / 8 <= x <= IZR (M + H) / 8 ->
  Rabs (piece c (IZR (M - H) / 8) (IZR (M + H) / 8) (IZR (M - H) / 8) - dawson_int (IZR (M - H) / 8)) <= IZR K / 10 ^ 24 ->
  Rabs (piece c (IZR (M - H) / 8) (IZR (M + H) / 8) x - dawson_int x) <= IZR K / 10 ^ 24.
Proof.
  intros C Hx H0. unfold piece_check in C. apply andb_prop in C. destruct C as (C & CB). apply andb_prop in C. destruct C as (C & CM). apply andb_prop in C. destruct C as (CE & CH).
  apply Z.ltb_lt in CH. apply Z.ltb_lt in CM. apply Z.leb_le in CB. pose proof (exps_small_ok c CE) as HE.
  apply IZR_lt in CH. apply IZR_lt in CM. apply IZR_le in CB.
  set (l := coefs c) in *. set (m := IZR M) in *. set (h := IZR H) in *. rewrite plus_IZR, minus_IZR in *. fold m h in Hx, H0 |- *.
  set (lo := (m - h) / 8) in *. set (up := (m + h) / 8) in *. set (W := IZR (10 ^ 44)) in *.
  assert (HW : 0 < W) by (apply IZR_lt; reflexivity).
  set (tt := fun s => (s - (up + lo) / 2) / ((up - lo) / 2)).
  assert (Eh : (up - lo) / 2 = h / 8) by (unfold up, lo; field). assert (Em : (up + lo) / 2 = m / 8) by (unfold up, lo; field).
  apply (residual_close (piece c lo up) (fun s => chs (lderiv l) 0 (tt s) * (8 / h) / W) lo x (IZR K / 10 ^ 24)); [unfold lo in *; lra| | |exact H0].
  - intros s _. apply (is_derive_ext (fun s => chs l 0 (tt s) / W)); [intros r; symmetry; apply piece_chs; exact HE|].
    assert (T : is_derive tt s (8 / h)) by (unfold tt; rewrite Eh, Em; auto_derive; [lra|field; lra]).
    pose proof (is_derive_comp (chs l 0) tt s _ _ (lderiv_ok l (tt s)) T) as P.
    pose proof (is_derive_scal _ s (/ W) _ P) as P2. apply (is_derive_ext (fun s => / W * chs l 0 (tt s))); [intros; unfold Rdiv; apply Rmult_comm|].
    replace (chs (lderiv l) 0 (tt s) * (8 / h) / W) with (/ W * scal (8 / h) (chs (lderiv l) 0 (tt s))); [exact P2|].
    change (/ W * (8 / h * chs (lderiv l) 0 (tt s)) = chs (lderiv l) 0 (tt s) * (8 / h) / W). unfold Rdiv. ring.
  - intros s Hs. rewrite piece_chs by exact HE. fold l W (tt s). 
    assert (Ht : -1 <= tt s <= 1).
    { unfold tt. rewrite Eh, Em. unfold lo in Hs. assert (Q : (s - m / 8) / (h / 8) = (8 * s - m) / h) by (field; lra). rewrite Q.
      split; [apply Rle_div_r|apply Rle_div_l]; lra. }
    assert (Es : s = m / 8 + h / 8 * tt s) by (unfold tt; rewrite Eh, Em; field; lra).
    assert (ER : chs (lderiv l) 0 (tt s) * (8 / h) / W + 2 * s * (chs l 0 (tt s) / W) - 1 = chs (resid M H l) 0 (tt s) / (8 * h * W)).
    { unfold resid. rewrite !ladd_ok, !lscale_ok, ltimes_ok. cbn [chs]. rewrite !mult_IZR, opp_IZR, mult_IZR, cheb_0. fold m h W.
      rewrite Es at 2. field. split; lra. }
    rewrite ER. unfold Rdiv. rewrite Rabs_mult, (Rabs_pos_eq (/ (8 * h * W))) by (left; apply Rinv_0_lt_compat; repeat (assumption || apply Rmult_lt_0_compat); lra).
    apply Rle_div_l; [repeat (assumption || apply Rmult_lt_0_compat); lra|].
    eapply Rle_trans; [apply labs_ok; exact Ht|]. fold l in CB. eapply Rle_trans; [exact CB|]. rewrite !mult_IZR, minus_IZR. fold m h.
    assert (HK : 0 <= IZR K). { assert (0 <= IZR (labs (resid M H l))) by (eapply Rle_trans; [apply Rabs_pos|apply (labs_ok _ 0 0); lra]). rewrite !mult_IZR, minus_IZR in CB. fold m h in CB. apply Rnot_lt_le. intros N. assert (0 < 2 * (m - h) * h) by (repeat (assumption || apply Rmult_lt_0_compat); lra). assert (0 < IZR (10 ^ 20)) by (apply IZR_lt; reflexivity). assert (2 * (m - h) * h * IZR K * IZR (10 ^ 20) < 0); [|lra]. replace (2 * (m - h) * h * IZR K * IZR (10 ^ 20)) with (- (2 * (m - h) * h * - IZR K * IZR (10 ^ 20))) by ring. apply Ropp_lt_gt_0_contravar. repeat (assumption || apply Rmult_lt_0_compat); lra. }
    assert (EW : W = IZR (10 ^ 20) * 10 ^ 24) by (unfold W; change (10 ^ 44)%Z with (10 ^ 20 * 10 ^ Z.of_nat 24)%Z; rewrite mult_IZR, <- pow_IZR; reflexivity).
    set (w20 := IZR (10 ^ 20)) in *. clearbody w20. replace w20 with (W / 10 ^ 24) by (rewrite EW; field; apply pow_nonzero; lra).
    replace (2 * s * (IZR K * / 10 ^ 24) * (8 * h * W)) with (2 * (8 * s) * h * IZR K * (W / 10 ^ 24)) by (unfold Rdiv; ring).
    apply Rmult_le_compat_r; [left; apply Rdiv_lt_0_compat; [exact HW|apply pow_lt; lra]|]. apply Rmult_le_compat_r; [exact HK|]. apply Rmult_le_compat_r; [lra|]. unfold lo in Hs. lra.
Qed.

(** ** The power series *)

Lemma pseries_deriv N s : is_derive (fun s => s * rsum N (pterm s)) s (1 - 2 * s * (s * rsum N (pterm s)) - (2 * INR N + 1) * pterm s N).
Proof.
  induction N as [|N IH].
  - apply (is_derive_ext (fun _ => 0)); [intros t; eqr; cbn [rsum]; ring|]. replace (1 - 2 * s * (s * rsum 0 (pterm s)) - (2 * INR 0 + 1) * pterm s 0) with 0 by (unfold pterm; cbn; field). apply @is_derive_const.
  - apply (is_derive_ext (fun s => s * rsum N (pterm s) + s * pterm s N)); [intros t; eqr; cbn [rsum]; ring|].
    assert (E : is_derive (fun s => s * pterm s N) s ((2 * INR N + 1) * pterm s N)).
    { unfold pterm. pose proof (odd_fact_pos N). destruct N as [|N].
      - assert (H0 : forall t : R, t = t * ((-2 * t * t) ^ 0 / odd_fact 0)) by (intros t; cbn [pow odd_fact]; field). apply (is_derive_ext (fun s : R => s) _ s _ H0). replace ((2 * INR 0 + 1) * ((-2 * s * s) ^ 0 / odd_fact 0)) with 1 by (eqr; cbn; field). apply @is_derive_id.
      - set (w := odd_fact (S N)) in *. clearbody w. auto_derive; [lra|]. cbn [pred]. change (match N with O => 1 | S _ => INR N + 1 end) with (INR (S N)). rewrite <- tech_pow_Rmult. field. lra. }
    pose proof (is_derive_plus _ _ s _ _ IH E) as P.
    replace (1 - 2 * s * (s * rsum (S N) (pterm s)) - (2 * INR (S N) + 1) * pterm s (S N)) with (plus (1 - 2 * s * (s * rsum N (pterm s)) - (2 * INR N + 1) * pterm s N) ((2 * INR N + 1) * pterm s N)); [exact P|].
    change (1 - 2 * s * (s * rsum N (pterm s)) - (2 * INR N + 1) * pterm s N + (2 * INR N + 1) * pterm s N = 1 - 2 * s * (s * rsum (S N) (pterm s)) - (2 * INR (S N) + 1) * pterm s (S N)).
    cbn [rsum]. rewrite pterm_S. rewrite S_INR. pose proof (pos_INR N). field. lra.
Qed.

(** the absolute value of x times the N-th term *)
Definition pbig (N : nat) (x : R) : R := 2 ^ N * x ^ (2 * N + 1) / odd_fact N.

Lemma pbig_abs N x : 0 <= x -> pbig N x = x * Rabs (pterm x N).
Proof.
  intros Hx. unfold pbig, pterm, Rdiv. rewrite Rabs_mult, (Rabs_pos_eq (/ odd_fact N)) by (left; apply Rinv_0_lt_compat, odd_fact_pos). rewrite <- RPow_abs.
  replace (Rabs (-2 * x * x)) with (2 * (x * x)) by (rewrite Rabs_left1; [ring|nra]). rewrite !Rpow_mult_distr. replace (x ^ (2 * N + 1)) with (x * (x ^ N * x ^ N)); [ring|].
  rewrite <- pow_add. replace (2 * N + 1)%nat with (S (N + N)) by lia. cbn [pow]. ring.
Qed.

Lemma pbig_deriv N s : is_derive (pbig N) s ((2 * INR N + 1) * (2 ^ N * s ^ (2 * N) / odd_fact N)).
Proof.
  unfold pbig. pose proof (odd_fact_pos N). auto_derive; [exact I|]. replace (pred (N + (N + 0) + 1)) with (2 * N)%nat by lia.
  rewrite plus_INR, plus_INR, plus_INR. cbn [INR]. replace (N + (N + 0))%nat with (2 * N)%nat by lia. field. lra.
Qed.

Lemma pterm_pos_form N s : 0 <= s -> Rabs (pterm s N) = 2 ^ N * s ^ (2 * N) / odd_fact N.
Proof.
  intros Hs. unfold pterm, Rdiv. rewrite Rabs_mult, (Rabs_pos_eq (/ odd_fact N)) by (left; apply Rinv_0_lt_compat, odd_fact_pos). rewrite <- RPow_abs.
  replace (Rabs (-2 * s * s)) with (2 * (s * s)) by (rewrite Rabs_left1; [ring|nra]). rewrite !Rpow_mult_distr. replace (2 * N)%nat with (N + N)%nat by lia. rewrite pow_add. ring.
Qed.

Lemma pseries_close N x : 0 <= x -> Rabs (x * rsum N (pterm x) - dawson_int x) <= x * Rabs (pterm x N).
Proof.
  intros Hx. rewrite <- pbig_abs by exact Hx.
  set (q := fun s => s * rsum N (pterm s)). set (q' := fun s => 1 - 2 * s * (s * rsum N (pterm s)) - (2 * INR N + 1) * pterm s N).
  set (g' := fun s => (2 * INR N + 1) * (2 ^ N * s ^ (2 * N) / odd_fact N)).
  assert (R : forall s, 0 <= s -> Rabs ((2 * INR N + 1) * pterm s N) <= g' s).
  { intros s Hs. pose proof (pos_INR N). rewrite Rabs_mult, (Rabs_pos_eq (2 * INR N + 1)) by lra. rewrite pterm_pos_form by exact Hs. unfold g'. lra. }
  assert (P : forall s, 0 <= s -> 0 <= 2 * s * pbig N s) by (intros s Hs; rewrite pbig_abs by exact Hs; apply Rmult_le_pos; [lra|]; apply Rmult_le_pos; [lra|apply Rabs_pos]).
  assert (Z0 : pbig N 0 = 0) by (rewrite pbig_abs by lra; ring).
  assert (U : q x <= dawson_int x + pbig N x).
  { apply (compare q q' (fun s => dawson_int s + pbig N s) (fun s => 1 - 2 * s * dawson_int s + g' s) 0 x Hx).
    - intros s _. apply pseries_deriv.
    - intros s _. apply (is_derive_plus dawson_int (pbig N) s); [apply dawson_deriv|apply pbig_deriv].
    - intros s Hs. unfold q', q. pose proof (R s ltac:(lra)) as B. pose proof (P s ltac:(lra)) as B2. apply Rabs_le_between in B. lra.
    - unfold q. rewrite dawson_0, Z0. lra. }
  assert (L : dawson_int x <= q x + pbig N x).
  { apply (compare dawson_int (fun s => 1 - 2 * s * dawson_int s) (fun s => q s + pbig N s) (fun s => q' s + g' s) 0 x Hx).
    - intros s _. apply dawson_deriv.
    - intros s _. apply (is_derive_plus q (pbig N) s); [apply pseries_deriv|apply pbig_deriv].
    - intros s Hs. unfold q', q. pose proof (R s ltac:(lra)) as B. pose proof (P s ltac:(lra)) as B2. apply Rabs_le_between in B. lra.
    - unfold q. rewrite dawson_0, Z0. lra. }
  apply Rabs_le. unfold q in U, L. lra.
Qed.

(** ** Chaining the pieces *)

Lemma piece_lo c M H : exps_small c = true -> (0 < H)%Z -> piece c (IZR (M - H) / 8) (IZR (M + H) / 8) (IZR (M - H) / 8) = IZR (laltz (coefs c)) / IZR (10 ^ 44).
Proof.
  intros C HH. rewrite piece_chs by (apply exps_small_ok; exact C). apply IZR_lt in HH.
  replace ((IZR (M - H) / 8 - (IZR (M + H) / 8 + IZR (M - H) / 8) / 2) / ((IZR (M + H) / 8 - IZR (M - H) / 8) / 2)) with (-1).
  - rewrite chs_at_m1. cbn [pow]. rewrite Rmult_1_l. reflexivity.
  - rewrite plus_IZR, minus_IZR. field. lra.
Qed.

Lemma piece_up c M H : exps_small c = true -> (0 < H)%Z -> piece c (IZR (M - H) / 8) (IZR (M + H) / 8) (IZR (M + H) / 8) = IZR (lsumz (coefs c)) / IZR (10 ^ 44).
Proof.
  intros C HH. rewrite piece_chs by (apply exps_small_ok; exact C). apply IZR_lt in HH.
  replace ((IZR (M + H) / 8 - (IZR (M + H) / 8 + IZR (M - H) / 8) / 2) / ((IZR (M + H) / 8 - IZR (M - H) / 8) / 2)) with 1.
  - rewrite chs_at_1. reflexivity.
  - rewrite plus_IZR, minus_IZR. field. lra.
Qed.

Lemma check_exps c M H K : piece_check c M H K = true -> exps_small c = true /\ (0 < H < M)%Z.
Proof. intros C. unfold piece_check in C. apply andb_prop in C. destruct C as (C & _). apply andb_prop in C. destruct C as (C & CM). apply andb_prop in C. destruct C as (CE & CH). apply Z.ltb_lt in CH. apply Z.ltb_lt in CM. auto. Qed.

Lemma small_diff a b k : (Z.abs (a - b) <= k * 10 ^ 20)%Z -> Rabs (IZR a / IZR (10 ^ 44) - IZR b / IZR (10 ^ 44)) <= IZR k / 10 ^ 24.
Proof.
  intros H. apply IZR_le in H. rewrite abs_IZR, minus_IZR, mult_IZR in H.
  assert (E : IZR (10 ^ 44) = IZR (10 ^ 20) * 10 ^ 24) by (change (10 ^ 44)%Z with (10 ^ 20 * 10 ^ Z.of_nat 24)%Z; rewrite mult_IZR, <- pow_IZR; reflexivity).
  assert (P : 0 < IZR (10 ^ 20)) by (apply IZR_lt; reflexivity). assert (Q : 0 < 10 ^ 24) by (apply pow_lt; lra).
  rewrite E. set (w := IZR (10 ^ 20)) in *. set (v := 10 ^ 24) in *. clearbody w v.
  replace (IZR a / (w * v) - IZR b / (w * v)) with ((IZR a - IZR b) * / (w * v)) by (field; lra). rewrite Rabs_mult, (Rabs_pos_eq (/ _)) by (left; apply Rinv_0_lt_compat; apply Rmult_lt_0_compat; assumption).
  apply Rle_div_l; [apply Rmult_lt_0_compat; assumption|]. replace (IZR k / v * (w * v)) with (IZR k * w) by (field; lra). exact H.
Qed.

Definition near (c : list (Z * Z)) (M H K : Z) : Prop :=
  forall x, IZR (M - H) / 8 <= x <= IZR (M + H) / 8 -> Rabs (piece c (IZR (M - H) / 8) (IZR (M + H) / 8) x - dawson_int x) <= IZR K / 10 ^ 24.

Lemma near_start c M H K b e : piece_check c M H K = true -> Rabs (IZR b / IZR (10 ^ 44) - dawson_int (IZR (M - H) / 8)) <= IZR e / 10 ^ 24 -> (Z.abs (laltz (coefs c) - b) <=? (K - e) * 10 ^ 20)%Z = true -> near c M H K.
Proof.
  intros C B L x Hx. apply (piece_close c M H K x C Hx). destruct (check_exps _ _ _ _ C) as (CE & CH). rewrite piece_lo by (assumption || lia).
  apply Z.leb_le in L. pose proof (small_diff _ _ _ L) as S. rewrite minus_IZR in S.
  replace (IZR (laltz (coefs c)) / IZR (10 ^ 44) - dawson_int (IZR (M - H) / 8)) with (IZR (laltz (coefs c)) / IZR (10 ^ 44) - IZR b / IZR (10 ^ 44) + (IZR b / IZR (10 ^ 44) - dawson_int (IZR (M - H) / 8))) by ring.
  eapply Rle_trans; [apply Rabs_triang|]. replace (IZR K / 10 ^ 24) with ((IZR K - IZR e) / 10 ^ 24 + IZR e / 10 ^ 24) by (unfold Rdiv; ring). apply Rplus_le_compat; assumption.
Qed.

Lemma near_next c1 M1 H1 K1 c2 M2 H2 K2 : near c1 M1 H1 K1 -> exps_small c1 = true -> (0 < H1)%Z -> (M1 + H1)%Z = (M2 - H2)%Z -> piece_check c2 M2 H2 K2 = true ->
  (Z.abs (laltz (coefs c2) - lsumz (coefs c1)) <=? (K2 - K1) * 10 ^ 20)%Z = true -> near c2 M2 H2 K2.
Proof.
  intros N C1 HH E C2 L. apply (near_start c2 M2 H2 K2 (lsumz (coefs c1)) K1 C2); [|exact L].
  rewrite <- E, <- (piece_up c1 M1 H1 C1 HH). apply N. apply IZR_lt in HH. rewrite plus_IZR, minus_IZR. lra.
Qed.

(** Dawson's integral at 1: the sum of 30 terms *)
Fixpoint pnum (n : nat) : Z * Z * Z :=   (* (2n-1)!!, (-2)^n, (2n-1)!! times the sum of n terms *)
  match n with O => (1, 1, 0)%Z | S k => let '(f, p, s) := pnum k in let g := (2 * Z.of_nat k + 1)%Z in ((f * g)%Z, (-2 * p)%Z, (s * g + p)%Z) end.

Lemma pnum_ok n : let '(f, p, s) := pnum n in
  (f <> 0)%Z /\ IZR p = (-2) ^ n /\ IZR f * (2 * INR n + 1) = odd_fact n /\ IZR s / IZR f = rsum n (pterm 1).
Proof.
  induction n as [|n IH].
  - cbn. repeat split; [lia|lra|field].
  - cbn [pnum]. destruct (pnum n) as [[f p] s]. destruct IH as (F & P & O & S).
    assert (G : IZR (2 * Z.of_nat n + 1) = 2 * INR n + 1) by (rewrite plus_IZR, mult_IZR, <- INR_IZR_INZ; reflexivity).
    pose proof (pos_INR n) as Pn. assert (F' : IZR f <> 0) by (apply IZR_neq; exact F).
    split; [apply Z.neq_mul_0; split; [exact F|lia]|]. split; [rewrite mult_IZR, P; cbn [pow]; ring|]. split.
    + rewrite mult_IZR, G, O. cbn [odd_fact]. reflexivity.
    + cbn [rsum]. rewrite <- S. unfold pterm. rewrite <- O, plus_IZR, !mult_IZR, G, P. replace (-2 * 1 * 1) with (-2) by ring. field. split; [lra|exact F'].
Qed.

Lemma dawson_at_1 : Rabs (IZR (laltz (coefs daw_1_175)) / IZR (10 ^ 44) - dawson_int 1) <= 100 / 10 ^ 24.
Proof.
  pose proof (pseries_close 30 1 ltac:(lra)) as B. rewrite !Rmult_1_l in B. pose proof (pnum_ok 30) as P.
  assert (T : Rabs (pterm 1 30) <= 1 / 10 ^ 24).
  { pose proof (pnum_ok 31) as P1. rewrite pterm_pos_form by lra. rewrite pow1, Rmult_1_r.
    destruct (pnum 30) as [[f p] s] eqn:E30. destruct P as (F & _ & O & _). rewrite <- O.
    assert (Ef : f = fst (fst (pnum 30))) by (rewrite E30; reflexivity). vm_compute in Ef. subst f.
    rewrite INR_IZR_INZ. change (Z.of_nat 30) with 30%Z. apply Rle_div_l; lra. }
  destruct (pnum 30) as [[f p] s] eqn:E30. destruct P as (F & _ & _ & S). rewrite <- S in B.
  assert (Ef : f = fst (fst (pnum 30))) by (rewrite E30; reflexivity). assert (Es : s = snd (pnum 30)) by (rewrite E30; reflexivity). vm_compute in Ef, Es.
  set (u := IZR (laltz (coefs daw_1_175)) / IZR (10 ^ 44)). replace (u - dawson_int 1) with (u - IZR s / IZR f + (IZR s / IZR f - dawson_int 1)) by ring.
  eapply Rle_trans; [apply Rabs_triang|].
  assert (C : Rabs (u - IZR s / IZR f) <= 99 / 10 ^ 24); [|lra].
  unfold u. assert (El : exists z, z = laltz (coefs daw_1_175)) by eauto. destruct El as (z & El). rewrite <- El. vm_compute in El. change (10 ^ 44)%Z with 100000000000000000000000000000000000000000000%Z. subst s f z. apply Rabs_le. split; lra.
Qed.
