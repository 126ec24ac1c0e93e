(** * The auxiliary arrays as derivatives, and the integrals of a pair of primitives *)

From Coq Require Import ZArith List Lia Bool Reals Lra.
From Coquelicot Require Import Coquelicot.
From Verif Require Import Base Loops Sums GaussInt GaussProd NucPotSpec NucPot HeapModel OneElModel OneElProofs OneElInt LmatModel SpecModel SpecSpec SpecBoys GfunThms OutercoreModel MmdModel MmdSpec MmdE MmdR MmdInt.
Import ListNotations.
Open Scope R_scope.

(** ** The recursion with the exact base is an integral over [0,1] *)

Definition mR (q s : R) : R := - 2 * (q * s ^ 2).
Definition mG (q s : R) : R := - 2 * (q * (1 - s ^ 2)).

Lemma mR_cont q s : continuous (mR q) s.
Proof. apply (ex_derive_continuous (mR q)). unfold mR. auto_derive. exact I. Qed.
Lemma mG_cont q s : continuous (mG q) s.
Proof. apply (ex_derive_continuous (mG q)). unfold mG. auto_derive. exact I. Qed.

Definition phi3 (m : R) (t u v : nat) (X Y Z : R) : R := hfun_ m t X * (hfun_ m u Y * hfun_ m v Z).

Lemma hfun_cont (m : R -> R) k X : (forall s, continuous m s) -> forall s, continuous (fun s => hfun_ (m s) k X) s.
Proof.
  intros Hm s. unfold hfun_. apply continuous_mult_R; [apply (proj1 (cont_hpol m X k Hm s))|].
  apply (continuous_comp (fun s => m s * X ^ 2 / 2) exp); [|apply continuous_exp].
  apply (continuous_ext (fun s => m s * (X ^ 2 / 2))); [intros y; match goal with |- ?a = ?b => change (@eq R a b) end; field|].
  apply continuous_mult_R; [apply Hm|apply continuous_const_R].
Qed.

Lemma phi3_cont (m : R -> R) t u v X Y Z : (forall s, continuous m s) -> forall s, continuous (fun s => phi3 (m s) t u v X Y Z) s.
Proof. intros Hm s. unfold phi3. apply continuous_mult_R; [|apply continuous_mult_R]; apply hfun_cont; exact Hm. Qed.

Lemma exp_split3 m X Y Z : exp (m * (X ^ 2 + Y ^ 2 + Z ^ 2) / 2) = exp (m * X ^ 2 / 2) * (exp (m * Y ^ 2 / 2) * exp (m * Z ^ 2 / 2)).
Proof. rewrite <- !exp_plus. f_equal. field. Qed.

Lemma raux_R q X Y Z t u v :
  raux shR X Y Z (fun n => (-2 * q) ^ n * boys n (q * (X ^ 2 + Y ^ 2 + Z ^ 2))) t u v 0 = RInt (fun s => phi3 (mR q s) t u v X Y Z) 0 1.
Proof.
  assert (Hm := mR_cont q).
  assert (Hw : forall s, continuous (fun s => exp (mR q s * (X ^ 2 + Y ^ 2 + Z ^ 2) / 2)) s).
  { intros s. apply (ex_derive_continuous (fun s => exp (mR q s * (X ^ 2 + Y ^ 2 + Z ^ 2) / 2))). unfold mR. auto_derive. exact I. }
  rewrite (raux_moment (mR q) (mR q) shR Hm Hm) with (w := fun s => exp (mR q s * (X ^ 2 + Y ^ 2 + Z ^ 2) / 2)).
  - apply RInt_ext. intros s _. unfold phi3, hfun_. rewrite exp_split3. cbn [pow]. ringR.
  - intros f w Hw' Hf n. unfold shR. rewrite Hf. apply RInt_ext. intros s _. cbn [pow]. ringR.
  - exact Hw.
  - intros n. unfold boys. rewrite <- RInt_scal_R.
    + apply RInt_ext. intros s _. unfold mR. rewrite Rpow_mult_distr. rewrite !Rpow_mult_distr, <- pow_mult.
      replace (- (q * (X ^ 2 + Y ^ 2 + Z ^ 2)) * s ^ 2) with (- 2 * (q * s ^ 2) * (X ^ 2 + Y ^ 2 + Z ^ 2) / 2) by field. ringR.
    + apply cont_int. intros s. apply boys_fun_der.
Qed.

Lemma raux_G q X Y Z t u v :
  raux (shG q) X Y Z (fun n => (2 * q) ^ n * gfun n (q * (X ^ 2 + Y ^ 2 + Z ^ 2))) t u v 0 = RInt (fun s => phi3 (mG q s) t u v X Y Z) 0 1.
Proof.
  assert (Hm := mG_cont q).
  pose (p := fun s : R => 2 * (q * s ^ 2)).
  assert (Hp : forall s, continuous p s).
  { intros s. apply (ex_derive_continuous p). unfold p. auto_derive. exact I. }
  assert (Hw : forall s, continuous (fun s => exp (mG q s * (X ^ 2 + Y ^ 2 + Z ^ 2) / 2)) s).
  { intros s. apply (ex_derive_continuous (fun s => exp (mG q s * (X ^ 2 + Y ^ 2 + Z ^ 2) / 2))). unfold mG. auto_derive. exact I. }
  rewrite (raux_moment p (mG q) (shG q) Hp Hm) with (w := fun s => exp (mG q s * (X ^ 2 + Y ^ 2 + Z ^ 2) / 2)).
  - apply RInt_ext. intros s _. unfold phi3, hfun_. rewrite exp_split3. cbn [pow]. ringR.
  - intros f w Hw' Hf n. unfold shG. rewrite !Hf.
    assert (EX : forall k, ex_RInt (fun s => p s ^ k * w s) 0 1).
    { intros k. apply ex_RInt_cont. intros s. apply continuous_mult_R; [|apply Hw']. clear - Hp. induction k as [|k IH]; cbn [pow]; [apply continuous_const_R|]. apply continuous_mult_R; [apply Hp|exact IH]. }
    transitivity (RInt (fun s => p s ^ S n * w s) 0 1 + (- (2 * q)) * RInt (fun s => p s ^ n * w s) 0 1); [ring|].
    rewrite <- RInt_scal_R by apply EX. rewrite <- RInt_plus_R; [|apply EX|apply ex_RInt_scal_R, EX].
    apply RInt_ext. intros s _. unfold mG, p. cbn [pow]. ringR.
  - exact Hw.
  - intros n. unfold gfun. rewrite <- RInt_scal_R.
    + apply RInt_ext. intros s _. unfold mG, p. rewrite !Rpow_mult_distr, <- pow_mult.
      replace (- (q * (X ^ 2 + Y ^ 2 + Z ^ 2)) * (1 - s ^ 2)) with (- 2 * (q * (1 - s ^ 2)) * (X ^ 2 + Y ^ 2 + Z ^ 2) / 2) by field. ringR.
    + apply cont_int. intros s. apply gfun_der.
Qed.

(** ** Mixed partial derivatives *)

(** [D t u v] are the mixed partial derivatives of [f] *)
Definition partials (f : R -> R -> R -> R) (D : nat -> nat -> nat -> R -> R -> R -> R) : Prop :=
  (forall X Y Z, D 0%nat 0%nat 0%nat X Y Z = f X Y Z) /\
  (forall t u v X Y Z, is_derive (fun x => D t u v x Y Z) X (D (S t) u v X Y Z)) /\
  (forall t u v X Y Z, is_derive (fun y => D t u v X y Z) Y (D t (S u) v X Y Z)) /\
  (forall t u v X Y Z, is_derive (fun z => D t u v X Y z) Z (D t u (S v) X Y Z)).

Lemma cont2_m (m : R -> R) x s : (forall s, continuous m s) -> continuity_2d_pt (fun _ v => m v) x s.
Proof.
  intros Hm. apply (continuity_1d_2d_pt_comp m (fun _ v => v)); [|apply continuity_2d_pt_id2].
  apply continuity_pt_filterlim. apply Hm.
Qed.

Lemma cont2_hfun (m : R -> R) k x s : (forall s, continuous m s) -> continuity_2d_pt (fun X v => hfun_ (m v) k X) x s.
Proof.
  intros Hm. unfold hfun_. apply continuity_2d_pt_mult.
  - assert (G : continuity_2d_pt (fun X v => hpol (m v) X k) x s /\ continuity_2d_pt (fun X v => hpol (m v) X (S k)) x s).
    { induction k as [|k (IH0 & IH1)].
      - cbn [hpol]. split; [apply continuity_2d_pt_const|]. apply continuity_2d_pt_mult; [apply cont2_m; exact Hm|apply continuity_2d_pt_id1].
      - split; [exact IH1|]. apply continuity_2d_pt_ext with (fun X v => m v * (INR (S k) * hpol (m v) X k + X * hpol (m v) X (S k))); [intros X v; symmetry; apply hpol_SS|].
        apply continuity_2d_pt_mult; [apply cont2_m; exact Hm|]. apply continuity_2d_pt_plus; apply continuity_2d_pt_mult; [apply continuity_2d_pt_const|exact IH0|apply continuity_2d_pt_id1|exact IH1]. }
    exact (proj1 G).
  - apply (continuity_1d_2d_pt_comp exp (fun X v => m v * X ^ 2 / 2)); [apply derivable_continuous_pt, derivable_pt_exp|].
    apply continuity_2d_pt_ext with (fun X v => m v * (X * X) * / 2); [intros; unfold Rdiv; cbn [pow]; ring|].
    apply continuity_2d_pt_mult; [|apply continuity_2d_pt_const]. apply continuity_2d_pt_mult; [apply cont2_m; exact Hm|]. apply continuity_2d_pt_mult; apply continuity_2d_pt_id1.
Qed.

Lemma int_hfun_derive (m W : R -> R) k (X : R) : (forall s, continuous m s) -> (forall s, continuous W s) ->
  is_derive (fun X => RInt (fun s => hfun_ (m s) k X * W s) 0 1) X (RInt (fun s => hfun_ (m s) (S k) X * W s) 0 1).
Proof.
  intros Hm HW. set (f := fun X s => hfun_ (m s) k X * W s).
  assert (Df : forall x s, is_derive (fun x => f x s) x (hfun_ (m s) (S k) x * W s)).
  { intros x s. unfold f. apply (is_derive_ext (fun x => W s * hfun_ (m s) k x)); [intros y; apply Rmult_comm|].
    rewrite (Rmult_comm _ (W s)). apply is_derive_scal. apply hfun_derive. }
  assert (H : is_derive (fun x => RInt (fun s => f x s) 0 1) X (RInt (fun s => Derive (fun x => f x s) X) 0 1)).
  { apply (is_derive_RInt_param f 0 1 X).
    - apply filter_forall. intros x s _. eexists. apply Df.
    - intros s _. apply continuity_2d_pt_ext with (fun x s => hfun_ (m s) (S k) x * W s); [intros x y; symmetry; apply is_derive_unique, Df|].
      apply continuity_2d_pt_mult; [apply cont2_hfun; exact Hm|apply cont2_m; exact HW].
    - apply filter_forall. intros x. apply ex_RInt_cont. intros s. unfold f. apply continuous_mult_R; [apply hfun_cont; exact Hm|apply HW]. }
  eapply is_derive_eq; [exact H|]. apply RInt_ext. intros s _. apply is_derive_unique, Df.
Qed.

Lemma phi3_partials (m : R -> R) f : (forall s, continuous m s) ->
  (forall X Y Z, f X Y Z = RInt (fun s => phi3 (m s) 0 0 0 X Y Z) 0 1) ->
  partials f (fun t u v X Y Z => RInt (fun s => phi3 (m s) t u v X Y Z) 0 1).
Proof.
  intros Hm Hf. split; [intros; symmetry; apply Hf|].
  assert (HC : forall k X s, continuous (fun s => hfun_ (m s) k X) s) by (intros; apply hfun_cont; exact Hm).
  split; [|split]; intros t u v X Y Z.
  - apply (int_hfun_derive m (fun s => hfun_ (m s) u Y * hfun_ (m s) v Z) t X Hm). intros s. apply continuous_mult_R; apply HC.
  - apply (is_derive_ext (fun y => RInt (fun s => hfun_ (m s) u y * (hfun_ (m s) t X * hfun_ (m s) v Z)) 0 1)); [intros y; apply RInt_ext; intros s _; unfold phi3; ringR|].
    eapply is_derive_eq; [apply (int_hfun_derive m (fun s => hfun_ (m s) t X * hfun_ (m s) v Z) u Y Hm); intros s; apply continuous_mult_R; apply HC|].
    apply RInt_ext. intros s _. unfold phi3. ringR.
  - apply (is_derive_ext (fun z => RInt (fun s => hfun_ (m s) v z * (hfun_ (m s) t X * hfun_ (m s) u Y)) 0 1)); [intros y; apply RInt_ext; intros s _; unfold phi3; ringR|].
    eapply is_derive_eq; [apply (int_hfun_derive m (fun s => hfun_ (m s) t X * hfun_ (m s) u Y) v Z Hm); intros s; apply continuous_mult_R; apply HC|].
    apply RInt_ext. intros s _. unfold phi3. ringR.
Qed.

(** ** The integral of a product of primitives *)

Lemma is_int_rsum (f : nat -> R -> R) (v : nat -> R) n : (forall k, (k < n)%nat -> is_int (f k) (v k)) -> is_int (fun x => rsum n (fun k => f k x)) (rsum n v).
Proof.
  induction n as [|n IH]; intros H; cbn [rsum]; [apply is_int_zero|]. apply is_int_plus; [apply IH; intros; apply H; lia|apply H; lia].
Qed.

Section Pair.
Variables (a b c : R).
Hypothesis Hq : 0 < a + b + c.
Notation q := (a + b + c).

(** one coordinate: values at A, B, C *)
Definition axis_sum (A B C : R) (i j : nat) (m : R) : R :=
  rsum (S (i + j)) (fun t => pair_coef a b c A B C i j t * hfun_ m t ((a * A + b * B + c * C) / q - C)).

Definition axis_fun (A B C : R) (i j : nat) (x : R) : R := cg a A i x * cg b B j x * exp (- (c * ((x - C) * (x - C)))).

Lemma axis_int A B C i j w : 0 <= w ->
  is_int (fun x => axis_fun A B C i j x * exp (- (w * (x - C) ^ 2))) (sqrt (PI / (q + w)) * axis_sum A B C i j (herm_m q w)).
Proof.
  intros Hw. unfold axis_fun, axis_sum. rewrite <- rsum_scal.
  apply (is_int_ext (fun x => rsum (S (i + j)) (fun t => pair_coef a b c A B C i j t * (hermite_gaussian q ((a * A + b * B + c * C) / q) t x * exp (- (w * (x - C) ^ 2)))))).
  - intros x. rewrite product_expansion by exact Hq. rewrite (Rmult_comm _ (exp _)), <- rsum_scal. apply rsum_ext. intros t _. ring.
  - apply (is_int_eq _ (rsum (S (i + j)) (fun t => pair_coef a b c A B C i j t * (sqrt (PI / (q + w)) * hfun_ (herm_m q w) t ((a * A + b * B + c * C) / q - C))))).
    + apply is_int_rsum. intros t _. apply is_int_scal. apply herm_int; assumption.
    + apply rsum_ext. intros t _. ring.
Qed.

Variables (A B C : R * R * R) (nA lA mA nB lB mB : nat).
Notation F1 k := (axis_fun (coord3 A k) (coord3 B k) (coord3 C k)).
Notation S1 k := (axis_sum (coord3 A k) (coord3 B k) (coord3 C k)).
Definition pair_fun (x y z : R) : R := F1 0%Z nA nB x * F1 1%Z lA lB y * F1 2%Z mA mB z.
Definition pair_g (m : R) : R := S1 0%Z nA nB m * S1 1%Z lA lB m * S1 2%Z mA mB m.

Lemma pair_fun_int w : 0 <= w ->
  is_int3 (fun x y z => pair_fun x y z * exp (- (w * rho2 C x y z))) (sqrt (PI / (q + w)) ^ 3 * pair_g (herm_m q w)).
Proof.
  intros Hw.
  apply (is_int3_ext (fun x y z => (F1 0%Z nA nB x * exp (- (w * (x - coord3 C 0) ^ 2))) * (F1 1%Z lA lB y * exp (- (w * (y - coord3 C 1) ^ 2))) * (F1 2%Z mA mB z * exp (- (w * (z - coord3 C 2) ^ 2))))).
  { intros x y z. unfold pair_fun, rho2. destruct C as [[cx cy] cz]. change (coord3 (cx, cy, cz) 0%Z) with cx. change (coord3 (cx, cy, cz) 1%Z) with cy. change (coord3 (cx, cy, cz) 2%Z) with cz.
    replace (- (w * ((x - cx) ^ 2 + (y - cy) ^ 2 + (z - cz) ^ 2))) with (- (w * (x - cx) ^ 2) + (- (w * (y - cy) ^ 2) + - (w * (z - cz) ^ 2))) by ring.
    rewrite !exp_plus. ring. }
  apply (is_int3_eq _ ((sqrt (PI / (q + w)) * S1 0%Z nA nB (herm_m q w)) * (sqrt (PI / (q + w)) * S1 1%Z lA lB (herm_m q w)) * (sqrt (PI / (q + w)) * S1 2%Z mA mB (herm_m q w)))).
  - apply is_int3_prod; apply axis_int; exact Hw.
  - unfold pair_g. ring.
Qed.

Lemma pair_g_cont (m : R -> R) : (forall s, continuous m s) -> forall s, continuous (fun s => pair_g (m s)) s.
Proof.
  intros Hm s.
  assert (R : forall n (f : nat -> R -> R), (forall k s, continuous (f k) s) -> continuous (fun s => rsum n (fun k => f k s)) s).
  { intros n f Hf. induction n as [|n IH]; cbn [rsum]; [apply continuous_const_R|]. apply continuous_plus_R; [exact IH|apply Hf]. }
  unfold pair_g, axis_sum. apply continuous_mult_R; [apply continuous_mult_R|]; apply R; intros k s'; (apply continuous_mult_R; [apply continuous_const_R|]); apply hfun_cont; exact Hm.
Qed.

(** r^0 *)
Lemma hfun_zero t X : hfun_ 0 t X = match t with O => 1 | S _ => 0 end.
Proof.
  unfold hfun_. replace (0 * X ^ 2 / 2) with 0 by field. rewrite exp_0, Rmult_1_r. destruct t as [|t]; [reflexivity|]. rewrite hpol_S. ring.
Qed.

Lemma axis_sum_zero A' B' C' i j : axis_sum A' B' C' i j 0 = pair_coef a b c A' B' C' i j 0.
Proof.
  unfold axis_sum. rewrite rsum_S_left. rewrite hfun_zero.
  replace (rsum (i + j) _) with 0; [ring|]. symmetry. induction (i + j)%nat as [|n IH]; cbn [rsum]; [reflexivity|]. rewrite IH, hfun_zero. ring.
Qed.

Lemma pair_int2 : is_int3 pair_fun (Rpower (PI / q) 1.5 *
  (pair_coef a b c (coord3 A 0) (coord3 B 0) (coord3 C 0) nA nB 0 * pair_coef a b c (coord3 A 1) (coord3 B 1) (coord3 C 1) lA lB 0 * pair_coef a b c (coord3 A 2) (coord3 B 2) (coord3 C 2) mA mB 0)).
Proof.
  apply (is_int3_ext (fun x y z => pair_fun x y z * exp (- (0 * rho2 C x y z)))).
  { intros x y z. rewrite Rmult_0_l, Ropp_0, exp_0. ring. }
  eapply is_int3_eq; [apply (pair_fun_int 0); lra|].
  assert (Hpi := PI_RGT_0). assert (P : 0 < PI / q) by (apply Rdiv_lt_0_compat; lra).
  unfold pair_g. unfold herm_m. replace (- 2 * (q * 0 / (q + 0))) with 0 by (unfold Rdiv; ring). rewrite !axis_sum_zero. f_equal.
  rewrite Rplus_0_r. replace 1.5 with (/ 2 + 1) by lra. rewrite Rpower_plus, Rpower_sqrt, Rpower_1 by exact P.
  assert (SS : sqrt (PI / q) * sqrt (PI / q) = PI / q) by (apply sqrt_sqrt; lra). set (r := sqrt (PI / q)) in *. rewrite <- SS. ring.
Qed.

Lemma pair_int1 : kernel_int w1 C pair_fun (2 * PI / q * RInt (fun s => pair_g (mR q s)) 0 1).
Proof.
  exists (fun u => sqrt (PI / (q + u ^ 2)) ^ 3 * pair_g (herm_m q (u ^ 2))). split.
  - intros u Hu. apply pair_fun_int. apply pow2_ge_0.
  - apply (half_ext (fun u => w1 u * (sqrt (PI / (q + u ^ 2)) ^ 3 * (fun s => pair_g (- 2 * (q * s))) (u ^ 2 / (q + u ^ 2))))).
    { intros u Hu. unfold herm_m. do 3 f_equal. unfold Rdiv. ring. }
    apply (subst_r q (fun s => pair_g (- 2 * (q * s))) Hq).
    intros s. apply (pair_g_cont (fun s => - 2 * (q * s))). intros s'. apply (ex_derive_continuous (fun s => - 2 * (q * s))). auto_derive. exact I.
Qed.

Lemma pair_int0 : kernel_int w2 C pair_fun (2 * Rpower PI 1.5 / sqrt q * RInt (fun s => pair_g (mG q s)) 0 1).
Proof.
  exists (fun u => sqrt (PI / (q + u ^ 2)) ^ 3 * pair_g (herm_m q (u ^ 2))). split.
  - intros u Hu. apply pair_fun_int. apply pow2_ge_0.
  - apply (half_ext (fun u => w2 u * (sqrt (PI / (q + u ^ 2)) ^ 3 * (fun s => pair_g (- 2 * (q * s))) (u ^ 2 / (q + u ^ 2))))).
    { intros u Hu. unfold herm_m. do 3 f_equal. unfold Rdiv. ring. }
    apply (subst_r2 q (fun s => pair_g (- 2 * (q * s))) Hq).
    intros s. apply (pair_g_cont (fun s => - 2 * (q * s))). intros s'. apply (ex_derive_continuous (fun s => - 2 * (q * s))). auto_derive. exact I.
Qed.

(** the triple sum of integrals *)
Notation E1 k := (pair_coef a b c (coord3 A k) (coord3 B k) (coord3 C k)).
Notation X1 k := ((a * coord3 A k + b * coord3 B k + c * coord3 C k) / q - coord3 C k).
Definition tsum (r : nat -> nat -> nat -> R) : R :=
  rsum (S (nA + nB)) (fun t => rsum (S (lA + lB)) (fun u => rsum (S (mA + mB)) (fun v => E1 0%Z nA nB t * E1 1%Z lA lB u * E1 2%Z mA mB v * r t u v))).

Lemma RInt_rsum n (f : nat -> R -> R) : (forall k s, continuous (f k) s) -> rsum n (fun k => RInt (f k) 0 1) = RInt (fun s => rsum n (fun k => f k s)) 0 1.
Proof.
  intros H. symmetry. apply (is_RInt_unique (V := R_CompleteNormedModule)). apply rsum_int. intros k _. apply (RInt_correct (V := R_CompleteNormedModule)). apply ex_RInt_cont. apply H.
Qed.

Lemma rsum_cont n (f : nat -> R -> R) : (forall k s, continuous (f k) s) -> forall s, continuous (fun s => rsum n (fun k => f k s)) s.
Proof. intros Hf s. induction n as [|n IH]; cbn [rsum]; [apply continuous_const_R|]. apply continuous_plus_R; [exact IH|apply Hf]. Qed.

Lemma tsum_int (m : R -> R) : (forall s, continuous m s) ->
  tsum (fun t u v => RInt (fun s => phi3 (m s) t u v (X1 0%Z) (X1 1%Z) (X1 2%Z)) 0 1) = RInt (fun s => pair_g (m s)) 0 1.
Proof.
  intros Hm. unfold tsum.
  assert (C3 : forall t u v s, continuous (fun s => E1 0%Z nA nB t * E1 1%Z lA lB u * E1 2%Z mA mB v * phi3 (m s) t u v (X1 0%Z) (X1 1%Z) (X1 2%Z)) s).
  { intros t u v s. apply continuous_mult_R; [apply continuous_const_R|apply phi3_cont; exact Hm]. }
  rewrite (rsum_ext (S (nA + nB)) _ (fun t => RInt (fun s => rsum (S (lA + lB)) (fun u => rsum (S (mA + mB)) (fun v => E1 0%Z nA nB t * E1 1%Z lA lB u * E1 2%Z mA mB v * phi3 (m s) t u v (X1 0%Z) (X1 1%Z) (X1 2%Z)))) 0 1)).
  - rewrite RInt_rsum.
    + apply RInt_ext. intros s _. unfold pair_g, axis_sum.
      rewrite (Rmult_comm (rsum _ _) (rsum (S (lA + lB)) _)) at 1.
      rewrite (rsum_ext (S (nA + nB)) _ (fun t => (rsum (S (lA + lB)) (fun u => E1 1%Z lA lB u * hfun_ (m s) u (X1 1%Z)) * rsum (S (mA + mB)) (fun v => E1 2%Z mA mB v * hfun_ (m s) v (X1 2%Z))) * (E1 0%Z nA nB t * hfun_ (m s) t (X1 0%Z)))).
      * rewrite rsum_scal. ringR.
      * intros t _. rewrite (rsum_ext (S (lA + lB)) _ (fun u => (E1 0%Z nA nB t * hfun_ (m s) t (X1 0%Z) * rsum (S (mA + mB)) (fun v => E1 2%Z mA mB v * hfun_ (m s) v (X1 2%Z))) * (E1 1%Z lA lB u * hfun_ (m s) u (X1 1%Z)))).
        -- rewrite rsum_scal. ring.
        -- intros u _. rewrite (rsum_ext (S (mA + mB)) _ (fun v => (E1 0%Z nA nB t * hfun_ (m s) t (X1 0%Z) * (E1 1%Z lA lB u * hfun_ (m s) u (X1 1%Z))) * (E1 2%Z mA mB v * hfun_ (m s) v (X1 2%Z)))).
           ++ rewrite rsum_scal. ring.
           ++ intros v _. unfold phi3. ring.
    + intros t s. apply rsum_cont. intros u s'. apply rsum_cont. intros v s''. apply C3.
  - intros t _. rewrite <- RInt_rsum by (intros u s; apply rsum_cont; intros v s'; apply C3). apply rsum_ext. intros u _.
    rewrite <- RInt_rsum by (intros v s; apply C3). apply rsum_ext. intros v _. rewrite RInt_scal_R; [reflexivity|]. apply ex_RInt_cont. apply phi3_cont. exact Hm.
Qed.
End Pair.
