(** * The integral over the sphere of exp(t k.u) times a harmonic polynomial *)

From Coq Require Import ZArith Reals Lra Lia List Bool Wf_nat.
From Coquelicot Require Import Coquelicot.
From Verif Require Import Base BinomProofs OneElModel OneElProofs OneElInt GaussInt Sums SpecExp SpecSpec BesselProofs SphModel SphSpec SphPoly SphProofs SphInt SphOrtho SphAngular SphHarm SphTri SphHecke.
Import ListNotations.
Open Scope R_scope.

(** ** Uniform limits *)
Lemma rint_close (f g : R -> R) a b u v e : a <= b -> is_RInt f a b u -> is_RInt g a b v -> (forall t, Rabs (f t - g t) <= e) -> Rabs (u - v) <= (b - a) * e.
Proof.
  intros Hab Hf Hg H. pose proof (RInt_lin _ _ _ _ _ _ 1 (-1) Hf Hg) as D.
  assert (D' : is_RInt (fun t => f t - g t) a b (u - v)) by (eapply RInt_val; [eapply RInt_fun; [|exact D]; intros; cbv beta; ring|ring]).
  apply (norm_RInt_le_const (V := R_NormedModule) (fun t => f t - g t) a b (u - v) e Hab); [|exact D']. intros x _. apply H.
Qed.

Lemma unif_rint (f : nat -> R -> R) (g : R -> R) a b (v : nat -> R) : (forall n, is_RInt (f n) a b (v n)) ->
  (forall e : posreal, exists N, forall n, (N <= n)%nat -> forall t, Rabs (f n t - g t) < e) -> exists w : R, is_lim_seq v w /\ is_RInt g a b w.
Proof.
  intros Hf Hu. destruct (filterlim_RInt (V := R_CompleteNormedModule) f a b eventually _ g v Hf) as (w & H1 & H2).
  - apply filterlim_locally. intros e. destruct (Hu e) as (N & HN). exists N. intros n Hn t. apply (HN n Hn t).
  - exists w. split; [exact H1|exact H2].
Qed.

Lemma on_sphere t p : (sin t * cos p) ^ 2 + (sin t * sin p) ^ 2 + cos t ^ 2 = 1.
Proof.
  pose proof (sin2_cos2 t) as H1. pose proof (sin2_cos2 p) as H2. unfold Rsqr in *. transitivity (sin t * sin t * (sin p * sin p + cos p * cos p) + cos t * cos t); [ring|]. rewrite H2. lra.
Qed.

Lemma sphere_lim (f : nat -> R -> R -> R -> R) (g : R -> R -> R -> R) (v : nat -> R) : (forall n, sphere_int (f n) (v n)) ->
  (forall e : posreal, exists N, forall n, (N <= n)%nat -> forall x y z, x ^ 2 + y ^ 2 + z ^ 2 = 1 -> Rabs (f n x y z - g x y z) < e) ->
  exists w : R, is_lim_seq v w /\ sphere_int g w.
Proof.
  intros Hf Hu.
  set (fs := fun n p t => f n (sin t * cos p) (sin t * sin p) (cos t) * sin t). set (gs := fun p t => g (sin t * cos p) (sin t * sin p) (cos t) * sin t).
  assert (Us : forall e : posreal, exists N, forall n, (N <= n)%nat -> forall p t, Rabs (fs n p t - gs p t) < e).
  { intros e. destruct (Hu e) as (N & HN). exists N. intros n Hn p t. unfold fs, gs. specialize (HN n Hn _ _ _ (on_sphere t p)). rewrite <- Rmult_minus_distr_r, Rabs_mult.
    pose proof (Rabs_pos (f n (sin t * cos p) (sin t * sin p) (cos t) - g (sin t * cos p) (sin t * sin p) (cos t))). assert (Rabs (sin t) <= 1) by (apply Rabs_le; apply SIN_bound). pose proof (Rabs_pos (sin t)). nra. }
  assert (Fi : forall n p, is_RInt (fs n p) 0 PI (RInt (fs n p) 0 PI)).
  { intros n p. destruct (Hf n) as (G & G1 & _). apply (RInt_correct (V := R_CompleteNormedModule)). exists (G p). apply G1. }
  assert (Fo : forall n, is_RInt (fun p => RInt (fs n p) 0 PI) 0 (2 * PI) (v n)).
  { intros n. destruct (Hf n) as (G & G1 & G2). eapply RInt_fun; [|exact G2]. intros p. symmetry. apply (is_RInt_unique (V := R_CompleteNormedModule)). apply G1. }
  assert (Gi : forall p, is_RInt (gs p) 0 PI (RInt (gs p) 0 PI)).
  { intros p. destruct (unif_rint (fun n => fs n p) (gs p) 0 PI (fun n => RInt (fs n p) 0 PI) (fun n => Fi n p)) as (w & _ & Hw).
    - intros e. destruct (Us e) as (N & HN). exists N. intros n Hn t. apply HN, Hn.
    - apply (RInt_correct (V := R_CompleteNormedModule)). exists w. exact Hw. }
  destruct (unif_rint (fun n p => RInt (fs n p) 0 PI) (fun p => RInt (gs p) 0 PI) 0 (2 * PI) v Fo) as (w & L & W).
  - intros e. assert (0 < PI) by apply PI_RGT_0. assert (Pe : 0 < e / (2 * PI)) by (apply Rdiv_lt_0_compat; [apply cond_pos|lra]).
    destruct (Us (mkposreal _ Pe)) as (N & HN). exists N. intros n Hn p. eapply Rle_lt_trans; [apply (rint_close _ _ 0 PI _ _ (e / (2 * PI)) ltac:(lra) (Fi n p) (Gi p))|].
    + intros t. left. apply (HN n Hn p t).
    + pose proof (cond_pos e). replace ((PI - 0) * (e / (2 * PI))) with (e / 2) by (field; lra). lra.
  - exists w. split; [exact L|]. exists (fun p => RInt (gs p) 0 PI). split; [exact Gi|exact W].
Qed.

(** ** Bounds *)
Lemma te_bound p : exists M, 0 <= M /\ forall x y z, x ^ 2 + y ^ 2 + z ^ 2 = 1 -> Rabs (te p x y z) <= M.
Proof.
  induction p as [|(c, ((i, j), k)) p (M & HM & IH)].
  - exists 0. split; [lra|]. intros. rewrite te_nil, Rabs_R0. lra.
  - exists (Rabs c + M). split; [pose proof (Rabs_pos c); lra|]. intros x y z H. rewrite te_cons. eapply Rle_trans; [apply Rabs_triang|]. apply Rplus_le_compat; [|apply IH, H].
    rewrite Rabs_mult. rewrite <- (Rmult_1_r (Rabs c)) at 2. apply Rmult_le_compat_l; [apply Rabs_pos|].
    assert (B : forall s n, s ^ 2 <= 1 -> 0 <= Rabs (s ^ n) <= 1).
    { intros s n Hs. rewrite <- RPow_abs. split; [apply pow_le, Rabs_pos|]. rewrite <- (pow1 n). apply pow_incr. split; [apply Rabs_pos|]. apply Rabs_le. nra. }
    rewrite !Rabs_mult. pose proof (pow2_ge_0 x). pose proof (pow2_ge_0 y). pose proof (pow2_ge_0 z).
    destruct (B x i ltac:(lra)), (B y j ltac:(lra)), (B z k ltac:(lra)). generalize dependent (Rabs (x ^ i)). generalize dependent (Rabs (y ^ j)). generalize dependent (Rabs (z ^ k)). intros.
    assert (0 <= r1 * r0 <= 1) by nra. nra.
Qed.

Lemma cauchy3 a b c x y z : a ^ 2 + b ^ 2 + c ^ 2 = 1 -> x ^ 2 + y ^ 2 + z ^ 2 = 1 -> Rabs (a * x + b * y + c * z) <= 1.
Proof. intros H1 H2. apply Rabs_le. pose proof (pow2_ge_0 (a - x)). pose proof (pow2_ge_0 (b - y)). pose proof (pow2_ge_0 (c - z)). pose proof (pow2_ge_0 (a + x)). pose proof (pow2_ge_0 (b + y)). pose proof (pow2_ge_0 (c + z)). split; nra. Qed.

Lemma eterm_mono y T K : 0 <= y <= T -> eterm y K <= eterm T K.
Proof. intros H. unfold eterm. apply Rmult_le_compat_r; [left; apply Rinv_0_lt_compat, fact_pos|]. apply pow_incr, H. Qed.

Lemma erem_unif T K y : Rabs y <= T -> Rabs (erem K y) <= eterm T K * exp T.
Proof.
  intros H. eapply Rle_trans; [apply erem_abs|]. pose proof (Rabs_pos y). apply Rmult_le_compat.
  - apply eterm_pos, Rabs_pos.
  - eapply Rle_trans; [|apply Rmax_l]. lra.
  - apply eterm_mono. lra.
  - apply Rmax_lub; [pose proof (exp_ineq1_le T); lra|]. assert (y <= T) by (eapply Rle_trans; [apply RRle_abs|exact H]). destruct (Req_dec y T) as [->|]; [lra|]. left. apply exp_increasing. lra.
Qed.

Lemma eterm_small T C : forall e : posreal, exists N, forall n, (N <= n)%nat -> Rabs (eterm T n * C) < e.
Proof.
  intros e. assert (L : is_lim_seq (fun n => eterm T n * C) (0 * C)).
  { apply (is_lim_seq_scal_r (fun n => eterm T n) C 0). apply is_lim_seq_Reals. intros eps He. destruct (cv_speed_pow_fact T eps He) as (N & HN). exists N. exact HN. }
  rewrite Rmult_0_l in L. apply is_lim_seq_spec in L. destruct (L e) as (N & HN). exists N. intros n Hn. specialize (HN n Hn). rewrite Rminus_0_r in HN. exact HN.
Qed.

Lemma pow_below_1 x l : 0 <= x <= 1 -> Rabs (x ^ l) <= 1.
Proof. intros H. rewrite Rabs_pos_eq by (apply pow_le; lra). pose proof (pow_incr x 1 l H) as P. rewrite pow1 in P. exact P. Qed.

(** ** The moments of (1 - s^2)^l *)
Definition dmom (j l : nat) : R := if Nat.even j then 2 * (2 ^ l * INR (fact l)) * odf (Nat.div2 j) / odf (S (l + Nat.div2 j)) else 0.

Lemma dmom_int j l : is_RInt (fun s => s ^ j * (1 - s ^ 2) ^ l) (-1) 1 (dmom j l).
Proof.
  assert (Pc : poly (fun s => s ^ j * (1 - s ^ 2) ^ l)).
  { apply poly_mul; [apply poly_pow, poly_id|]. apply poly_pow. eapply poly_ext; [|apply (poly_plus (fun _ => 1) (fun s => -1 * s ^ 2)); [apply poly_const|apply poly_mul; [apply poly_const|apply poly_pow, poly_id]]]. intros t. cbv beta. ring. }
  assert (C : forall t, continuous (fun s => s ^ j * (1 - s ^ 2) ^ l) t) by (intros; apply poly_cont, Pc).
  assert (X : ex_RInt (V := R_CompleteNormedModule) (fun s => s ^ j * (1 - s ^ 2) ^ l) (-1) 1) by (apply ex_RInt_continuous; intros; apply C).
  pose proof (RInt_correct (V := R_CompleteNormedModule) _ _ _ X) as I. set (v := RInt _ _ _) in I. 
  pose proof (polar_subst _ v C I) as P.
  assert (P' : is_RInt (tt j (2 * l + 1)) 0 PI v).
  { eapply RInt_fun; [|exact P]. intros t. cbv beta. unfold tt. replace (1 - cos t ^ 2) with (sin t ^ 2) by (pose proof (sin2_cos2 t) as S2; unfold Rsqr in S2; cbn [pow]; lra). rewrite <- pow_mult, pow_add. ring. }
  eapply RInt_val; [exact I|]. apply (RInt_uniq (tt j (2 * l + 1)) 0 PI); [exact P'|]. unfold dmom. destruct (Nat.even j) eqn:Ej.
  - rewrite (even_div2 j Ej) at 1. apply half_even.
  - assert (O : Nat.odd j = true) by (rewrite <- Nat.negb_even, Ej; reflexivity). apply Nat.odd_spec in O. destruct O as (m & ->). replace (2 * l + 1)%nat with (S (2 * l)) by lia. apply half_odd.
Qed.

(** 2 i! 2^i odf i = 2 (2i)! *)
Lemma fact_even i : INR (fact (2 * i)) = 2 ^ i * INR (fact i) * odf i.
Proof.
  induction i as [|i IH]; [cbn; ring|]. replace (2 * S i)%nat with (S (S (2 * i))) by lia. rewrite !fact_S, IH, !S_INR, INR_dbl. cbn [pow odf]. ring.
Qed.

Lemma fh_dmom j l : fh (l + j) l / INR (fact (l + j)) = 4 * PI / bpre l * (dmom j l / INR (fact j)).
Proof.
  unfold dmom. destruct (Nat.even j) eqn:Ej.
  - rewrite (even_div2 j Ej). generalize (Nat.div2 j). intros i. rewrite Nat.div2_double, fh_yes. unfold cc, bpre. rewrite fact_even. replace (i + l)%nat with (l + i)%nat by lia. rewrite pow_add.
    pose proof (fact_pos i). pose proof (fact_pos l). pose proof (fact_pos (l + 2 * i)). pose proof (odf_pos i). pose proof (odf_pos (S (l + i))). assert (0 < 2 ^ i) by (apply pow_lt; lra). assert (0 < 2 ^ l) by (apply pow_lt; lra). field. repeat split; lra.
  - unfold fh. replace (l + j - l)%nat with j by lia. rewrite Ej, andb_false_r. unfold Rdiv. ring.
Qed.

(** partial sums of the exponential against (1 - s^2)^l *)
Lemma bessel_series t l : is_lim_seq (fun N => rsum (l + N) (fun n => eterm t n * fh n l)) (4 * PI * exp t * bessK l t).
Proof.
  set (f := fun (N : nat) (s : R) => rsum N (eterm (t * s)) * (1 - s ^ 2) ^ l).
  assert (If : forall N, is_RInt (f N) (-1) 1 (rsum N (fun j => t ^ j / INR (fact j) * dmom j l))).
  { intros N. induction N as [|N IH].
    - cbn [rsum]. eapply RInt_fun; [|eapply RInt_val; [apply (is_RInt_const (V := R_NormedModule) (-1) 1 0)|unfold scal; cbn; unfold mult; cbn; ring]]. intros s. unfold f. cbn [rsum]. ring.
    - cbn [rsum]. eapply RInt_val; [eapply RInt_fun; [|apply (RInt_lin _ _ _ _ _ _ 1 (t ^ N / INR (fact N)) IH (dmom_int N l))]|ring]. intros s. unfold f. cbn [rsum]. unfold eterm. rewrite Rpow_mult_distr. unfold Rdiv. ring. }
  assert (Is : is_RInt (fun s => (1 - s ^ 2) ^ l * exp (t * s)) (-1) 1 (exp t * bJ l t)).
  { eapply RInt_fun; [|apply (RInt_scale _ _ _ _ (exp t) (bJ_int l t))]. intros s. cbv beta. rewrite <- Rmult_assoc, (Rmult_comm (exp t)), Rmult_assoc, <- exp_plus. f_equal. f_equal. ring. }
  (* clamp outside [-1,1] to have uniform convergence on the whole line *)
  set (cl := fun s : R => Rmax (-1) (Rmin 1 s)). assert (Cl : forall s, -1 <= s <= 1 -> cl s = s) by (intros s Hs; unfold cl; rewrite Rmin_right, Rmax_right by lra; reflexivity).
  assert (Cb : forall s, -1 <= cl s <= 1) by (intros s; unfold cl; split; [apply Rmax_l|apply Rmax_lub; [lra|apply Rmin_l]]).
  destruct (unif_rint (fun N s => f N (cl s)) (fun s => (1 - cl s ^ 2) ^ l * exp (t * cl s)) (-1) 1 (fun N => rsum N (fun j => t ^ j / INR (fact j) * dmom j l))) as (w & L & W).
  { intros N. eapply (is_RInt_ext (V := R_NormedModule)); [|apply If]. intros s Hs. rewrite Rmin_left, Rmax_right in Hs by lra. cbv beta. rewrite Cl by lra. reflexivity. }
  { intros e. destruct (eterm_small (Rabs t) (exp (Rabs t)) e) as (N & HN). exists N. intros n Hn s. eapply Rle_lt_trans; [|apply (HN n Hn)]. eapply Rle_trans; [|apply RRle_abs].
    unfold f. replace (rsum n (eterm (t * cl s)) * (1 - cl s ^ 2) ^ l - (1 - cl s ^ 2) ^ l * exp (t * cl s)) with (- ((1 - cl s ^ 2) ^ l * erem n (t * cl s))) by (unfold erem; ring).
    rewrite Rabs_Ropp, Rabs_mult. specialize (Cb s). assert (U : Rabs (t * cl s) <= Rabs t) by (rewrite Rabs_mult; assert (Rabs (cl s) <= 1) by (apply Rabs_le; lra); pose proof (Rabs_pos t); nra).
    pose proof (erem_unif (Rabs t) n _ U) as V. assert (0 <= (1 - cl s ^ 2) <= 1) by nra. assert (Rabs ((1 - cl s ^ 2) ^ l) <= 1) by (apply pow_below_1; assumption).
    pose proof (Rabs_pos ((1 - cl s ^ 2) ^ l)). pose proof (Rabs_pos (erem n (t * cl s))). nra. }
  assert (Ew : w = exp t * bJ l t).
  { apply (RInt_uniq (fun s => (1 - cl s ^ 2) ^ l * exp (t * cl s)) (-1) 1); [exact W|]. eapply (is_RInt_ext (V := R_NormedModule)); [|exact Is]. intros s Hs. rewrite Rmin_left, Rmax_right in Hs by lra. cbv beta. rewrite Cl by lra. reflexivity. }
  assert (E : forall N, rsum (l + N) (fun n => eterm t n * fh n l) = t ^ l * (4 * PI / bpre l) * rsum N (fun j => t ^ j / INR (fact j) * dmom j l)).
  { intros N. rewrite rsum_split, rsum_zero, Rplus_0_l, <- rsum_scal.
    - apply rsum_ext. intros j _. unfold eterm. pose proof (fh_dmom j l) as Q. rewrite pow_add. pose proof (fact_pos j). pose proof (fact_pos (l + j)).
      transitivity (t ^ l * t ^ j * (fh (l + j) l / INR (fact (l + j)))); [field; lra|]. rewrite Q. pose proof (bpre_pos l). field. lra.
    - intros k Hk. unfold fh. destruct (Nat.leb_spec l k); [lia|]. cbn [andb]. ring. }
  eapply is_lim_seq_ext; [intros N; symmetry; apply E|]. rewrite bessK_J.
  pose proof (is_lim_seq_scal_l _ (t ^ l * (4 * PI / bpre l)) _ L) as L2. replace (4 * PI * exp t * (t ^ l / bpre l * bJ l t)) with (t ^ l * (4 * PI / bpre l) * w); [exact L2|].
  rewrite Ew. unfold Rdiv. ring.
Qed.

(** ** The plane wave *)
Theorem plane_wave a b c t l H : a ^ 2 + b ^ 2 + c ^ 2 = 1 -> homog l H -> tharm H ->
  sphere_int (fun x y z => exp (t * (a * x + b * y + c * z)) * te H x y z) (4 * PI * exp t * bessK l t * te H a b c).
Proof.
  intros Hu Hh Hz. destruct (te_bound H) as (M & HM & Bd).
  set (f := fun (N : nat) x y z => rsum (l + N) (eterm (t * (a * x + b * y + c * z))) * te H x y z).
  assert (If : forall N, sphere_int (f N) (rsum (l + N) (fun n => eterm t n * fh n l) * te H a b c)).
  { intros N. unfold f. generalize (l + N)%nat. clear N f. intros N. induction N as [|N IH].
    - cbn [rsum]. eapply sphere_val; [eapply sphere_ext; [|exact sphere_zero]|]; intros; cbv beta; ring.
    - cbn [rsum]. eapply sphere_val; [eapply sphere_ext; [|apply (sphere_lin _ _ _ _ 1 (eterm t N) IH (hecke a b c Hu N l H Hh Hz))]|ring]. intros x y z _. cbv beta. unfold eterm. rewrite Rpow_mult_distr. unfold Rdiv. ring. }
  destruct (sphere_lim f (fun x y z => exp (t * (a * x + b * y + c * z)) * te H x y z) _ If) as (w & L & W).
  - intros e. destruct (eterm_small (Rabs t) (exp (Rabs t) * M) e) as (N & HN). exists N. intros n Hn x y z Hs. unfold f.
    eapply Rle_lt_trans; [|apply (HN (l + n)%nat ltac:(lia))]. eapply Rle_trans; [|apply RRle_abs].
    rewrite <- Rmult_minus_distr_r, Rabs_mult. specialize (Bd x y z Hs). rewrite <- Rmult_assoc. apply Rmult_le_compat; [apply Rabs_pos..| |exact Bd].
    rewrite <- Rabs_Ropp. replace (- (rsum (l + n) (eterm (t * (a * x + b * y + c * z))) - exp (t * (a * x + b * y + c * z)))) with (erem (l + n) (t * (a * x + b * y + c * z))) by (unfold erem; ring).
    apply erem_unif. rewrite Rabs_mult. pose proof (cauchy3 a b c x y z Hu Hs). pose proof (Rabs_pos t). nra.
  - eapply sphere_val; [exact W|].
    assert (L2 : is_lim_seq (fun N => rsum (l + N) (fun n => eterm t n * fh n l) * te H a b c) (4 * PI * exp t * bessK l t * te H a b c)) by (apply (is_lim_seq_scal_r _ (te H a b c) _ (bessel_series t l))).
    pose proof (is_lim_seq_unique _ _ L) as U1. pose proof (is_lim_seq_unique _ _ L2) as U2. rewrite U1 in U2. injection U2. auto.
Qed.
