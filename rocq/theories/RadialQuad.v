(** * The radial integrals of the library's integrands: convergence of the quadrature *)

From Coq Require Import ZArith Reals Lra Lia List Bool.
From Coquelicot Require Import Coquelicot.
From Verif Require Import Base Sums OneElModel OneElProofs OneElSpec OneElInt GaussInt NucPotSpec NucPot SpecModel SpecSpec BesselProofs BesselData BesselUse MmdMain RadialSpec RadialTables RadialWitness Type2Spec Type2Radial
  RadialConv RadialRate RadialClass RadialConvSpec.
Import ListNotations.
Open Scope R_scope.

(** ** The integrand as a sum *)
Definition qterms (NA NB : R -> R) (F G : R -> R -> R) (pot : list (Z * R * R)) (bra ket : list (R * R)) (n : nat) (r : R) : R :=
  lsum (fun '(ni, ck, eta) => lsum (fun '(ca, aa) => lsum (fun '(cb, ab) => (ck * (ca * NA aa) * (cb * NB ab)) * (r ^ (Z.to_nat ni + n) * exp (- eta * (r * r)) * F aa r * G ab r)) ket) bra) pot.

Lemma qterms_eq NA NB F G pot bra ket n r : 0 < r -> (forall ni c a, In (ni, c, a) pot -> (0 <= ni)%Z) ->
  qterms NA NB F G pot bra ket n r = r ^ 2 * (radial_potential pot r * lsum (fun '(c, a) => c * NA a * F a r) bra * lsum (fun '(c, a) => c * NB a * G a r) ket * r ^ n).
Proof.
  intros Hr HP. unfold qterms, radial_potential. set (FA := lsum (fun '(c, a) => c * NA a * F a r) bra). set (FB := lsum (fun '(c, a) => c * NB a * G a r) ket).
  transitivity ((r ^ 2 * FA * FB * r ^ n) * lsum (fun '(n0, c, a) => c * powerRZ r (n0 - 2) * exp (- a * (r * r))) pot); [|ring].
  rewrite <- OneElInt.lsum_scal. apply OneElInt.lsum_ext. intros ((ni, ck), eta) Hp. pose proof (HP _ _ _ Hp) as Hn.
  transitivity ((ck * r ^ (Z.to_nat ni + n) * exp (- eta * (r * r)) * FB) * FA).
  - unfold FA. rewrite <- OneElInt.lsum_scal. apply OneElInt.lsum_ext. intros (ca, aa) _.
    transitivity ((ck * r ^ (Z.to_nat ni + n) * exp (- eta * (r * r)) * (ca * NA aa * F aa r)) * FB); [|ring].
    unfold FB. rewrite <- OneElInt.lsum_scal. apply OneElInt.lsum_ext. intros (cb, ab) _. ring.
  - rewrite pow_add, <- (pow_pot r ni Hr Hn). ring.
Qed.

Lemma tame_terms NA NB D E (y1 y2 : R -> R -> R) pot bra ket n : (forall c a, In (c, a) bra -> 0 < a) -> (forall c a, In (c, a) ket -> 0 < a) -> (forall ni c a, In (ni, c, a) pot -> 0 <= a) ->
  (forall c a, In (c, a) bra -> mild (y1 a)) -> (forall c a, In (c, a) ket -> mild (y2 a)) ->
  tame (qterms NA NB (fun a r => exp (- a * ((r - D) * (r - D))) * y1 a r) (fun a r => exp (- a * ((r - E) * (r - E))) * y2 a r) pot bra ket n).
Proof.
  intros HB HK HP M1 M2. unfold qterms.
  apply (under_ext _ (fun r => lsum (fun x => (fun '(ni, ck, eta) r => lsum (fun '(ca, aa) => lsum (fun '(cb, ab) => (ck * (ca * NA aa) * (cb * NB ab)) * (r ^ (Z.to_nat ni + n) * exp (- eta * (r * r)) * (exp (- aa * ((r - D) * (r - D))) * y1 aa r) * (exp (- ab * ((r - E) * (r - E))) * y2 ab r))) ket) bra) x r) pot)).
  { intros r. apply OneElInt.lsum_ext. intros ((ni, ck), eta) _. reflexivity. }
  apply under_lsum; [apply w_exp|]. intros ((ni, ck), eta) Hp. pose proof (HP _ _ _ Hp) as He.
  apply (under_ext _ (fun r => lsum (fun x => (fun '(ca, aa) r => lsum (fun '(cb, ab) => (ck * (ca * NA aa) * (cb * NB ab)) * (r ^ (Z.to_nat ni + n) * exp (- eta * (r * r)) * (exp (- aa * ((r - D) * (r - D))) * y1 aa r) * (exp (- ab * ((r - E) * (r - E))) * y2 ab r))) ket) x r) bra)).
  { intros r. apply OneElInt.lsum_ext. intros (ca, aa) _. reflexivity. }
  apply under_lsum; [apply w_exp|]. intros (ca, aa) Ha. pose proof (HB _ _ Ha) as Ha'.
  apply (under_ext _ (fun r => lsum (fun x => (fun '(cb, ab) r => (ck * (ca * NA aa) * (cb * NB ab)) * (r ^ (Z.to_nat ni + n) * exp (- eta * (r * r)) * (exp (- aa * ((r - D) * (r - D))) * y1 aa r) * (exp (- ab * ((r - E) * (r - E))) * y2 ab r))) x r) ket)).
  { intros r. apply OneElInt.lsum_ext. intros (cb, ab) _. reflexivity. }
  apply under_lsum; [apply w_exp|]. intros (cb, ab) Hb. pose proof (HK _ _ Hb) as Hb'.
  apply (under_scal (fun r => exp (- r)) (ck * (ca * NA aa) * (cb * NB ab)) (fun r => r ^ (Z.to_nat ni + n) * exp (- eta * (r * r)) * (exp (- aa * ((r - D) * (r - D))) * y1 aa r) * (exp (- ab * ((r - E) * (r - E))) * y2 ab r))).
  apply tame_prim; [exact He|exact Ha'|lra|apply (M1 _ _ Ha)|apply (M2 _ _ Hb)].
Qed.

(** ** The lists the library works with *)
Lemma rpp_kept pot r : rpp pot r = radial_potential (kept_pot pot) r.
Proof.
  unfold rpp, radial_potential, kept_pot. induction pot as [|((ni, c), a) pot IH]; [reflexivity|]. cbn [lsum fold_right filter]. unfold lsum in IH. rewrite IH. destruct (matters c); [reflexivity|ring].
Qed.

Lemma norm_factor L a : gaussian_norm_factor L 0 0 a = norm_L L a.
Proof. apply nf_norm. Qed.

Lemma function_kept bessel L f C l r : radial_function bessel L f C l r = lsum (fun '(c, a) => c * norm_L L a * (exp (- a * ((r - C) * (r - C))) * bessel l (2 * a * C * r))) (kept f).
Proof.
  unfold radial_function, kept. induction f as [|(c, a) f IH]; [reflexivity|]. cbn [lsum fold_right filter]. unfold lsum in IH. rewrite IH. destruct (matters c); [|ring]. cbn [fold_right]. f_equal. rewrite norm_factor. ring.
Qed.

Lemma in_kept f c a : In (c, a) (kept f) -> In (c, a) f.
Proof. intros H. apply filter_In in H. apply H. Qed.
Lemma in_kept_pot p n c a : In (n, c, a) (kept_pot p) -> In (n, c, a) p.
Proof. intros H. apply filter_In in H. apply H. Qed.
Lemma in_abs f c a : In (c, a) (abs_prims f) -> exists c', In (c', a) f.
Proof. intros H. apply in_map_iff in H. destruct H as ((c', a') & E & I). injection E as <- <-. exists c'. exact I. Qed.
Lemma in_abs_pot p n c a : In (n, c, a) (abs_pot p) -> exists c', In (n, c', a) p.
Proof. intros H. apply in_map_iff in H. destruct H as (((n', c'), a') & E & I). injection E as <- <- <-. exists c'. exact I. Qed.

(** ** Comparison of integrands *)
Lemma zsum_diff lo hi f g w : (forall i, (lo <= i < hi)%Z -> Rabs (f i - g i) <= w i) -> Rabs (zsum lo hi f - zsum lo hi g) <= zsum lo hi w.
Proof.
  revert lo. refine (zsum_ind (fun lo => (forall i, (lo <= i < hi)%Z -> Rabs (f i - g i) <= w i) -> Rabs (zsum lo hi f - zsum lo hi g) <= zsum lo hi w) hi _ _).
  - intros lo Hlo _. rewrite !zsum_nil by lia. rewrite Rminus_0_r, Rabs_R0. lra.
  - intros lo Hlo IH H. rewrite !(zsum_first lo) by lia. specialize (IH ltac:(intros; apply H; lia)). specialize (H lo ltac:(lia)).
    replace (f lo + zsum (lo + 1) hi f - (g lo + zsum (lo + 1) hi g)) with ((f lo - g lo) + (zsum (lo + 1) hi f - zsum (lo + 1) hi g)) by ring. eapply Rle_trans; [apply Rabs_triang|]. lra.
Qed.

Lemma grid_pos n i : (1 <= i <= n)%Z -> 0 < radius (IZR i / IZR (n + 1)) /\ 0 <= radius' (IZR i / IZR (n + 1)).
Proof.
  intros Hi. pose proof (grid_in n i ltac:(lia)) as Gi. assert (0 < IZR i / IZR (n + 1)) by (apply Rdiv_lt_0_compat; apply IZR_lt; lia). set (xi := IZR i / IZR (n + 1)) in *. pose proof (u_pos xi ltac:(lra)) as U. split.
  - unfold radius. assert (ln (1 - xi ^ 3) < 0); [|lra]. rewrite <- ln_1. apply ln_increasing; [exact U|]. pose proof (pow_lt xi 3 ltac:(lra)). lra.
  - unfold radius', Rdiv. apply Rmult_le_pos; [pose proof (pow2_ge_0 xi); lra|left; apply Rinv_0_lt_compat, U].
Qed.

Lemma quadrature_diff g1 g2 w n : (1 <= n)%Z -> (forall r, 0 < r -> Rabs (g1 r - g2 r) <= w r) -> Rabs (quadrature g1 n - quadrature g2 n) <= quadrature w n.
Proof.
  intros Hn H. unfold quadrature, Rdiv at 1 3 5. rewrite <- Rmult_minus_distr_r, Rabs_mult. assert (0 < / IZR (n + 1)) by (apply Rinv_0_lt_compat, IZR_lt; lia). rewrite (Rabs_pos_eq (/ _)) by lra. apply Rmult_le_compat_r; [lra|].
  apply zsum_diff. intros i Hi. cbv zeta. destruct (grid_pos n i ltac:(lia)) as (R0 & R1). set (xi := IZR i / IZR (n + 1)) in *. rewrite <- !Rmult_minus_distr_r, !Rabs_mult, (Rabs_pos_eq (radius' xi)), (Rabs_pos_eq (radius xi ^ 2)) by (try apply pow2_ge_0; assumption).
  apply Rmult_le_compat_r; [exact R1|]. apply Rmult_le_compat_r; [apply pow2_ge_0|]. apply H, R0.
Qed.

Lemma quadrature_scal c w n : quadrature (fun r => c * w r) n = c * quadrature w n.
Proof.
  unfold quadrature. cbv zeta. rewrite (zsum_ext 1 (n + 1) _ (fun i => c * (w (radius (IZR i / IZR (n + 1))) * radius (IZR i / IZR (n + 1)) ^ 2 * radius' (IZR i / IZR (n + 1))))) by (intros i _; ring).
  rewrite zsum_scal. unfold Rdiv. ring.
Qed.

Lemma lsum_abs {A} (f w : A -> R) l : (forall x, In x l -> Rabs (f x) <= w x) -> Rabs (lsum f l) <= lsum w l.
Proof.
  induction l as [|x l IH]; intros H; [unfold lsum; simpl; rewrite Rabs_R0; lra|]. cbn [lsum fold_right]. eapply Rle_trans; [apply Rabs_triang|]. apply Rplus_le_compat; [apply H; left; reflexivity|apply IH; intros; apply H; right; assumption].
Qed.

Lemma bare_map N f C r : bare_factor N (abs_prims f) C r = lsum (fun '(c, a) => Rabs c * N a * exp (- a * ((r - C) * (r - C)))) f.
Proof. unfold bare_factor, abs_prims. induction f as [|(c, a) f IH]; [reflexivity|]. cbn [map lsum fold_right]. unfold lsum in IH. rewrite IH. reflexivity. Qed.

Lemma pot_abs pot r : 0 < r -> Rabs (radial_potential pot r) <= radial_potential (abs_pot pot) r.
Proof.
  intros Hr. assert (E : radial_potential (abs_pot pot) r = lsum (fun '(n, c, a) => Rabs c * powerRZ r (n - 2) * exp (- a * (r * r))) pot).
  { unfold radial_potential, abs_pot. induction pot as [|((n, c), a) pot IH]; [reflexivity|]. cbn [map lsum fold_right]. unfold lsum in IH. rewrite IH. reflexivity. }
  rewrite E. apply lsum_abs. intros ((n, c), a) _. rewrite !Rabs_mult. rewrite (Rabs_pos_eq (exp _)) by (left; apply exp_pos). rewrite (Rabs_pos_eq (powerRZ _ _)) by (left; apply powerRZ_lt, Hr). lra.
Qed.

(** factors with Bessel functions that differ by at most del *)
Lemma factor_bound L f C r (y : R -> R) B : (forall c a, In (c, a) f -> Rabs (y a) <= B) -> Rabs (lsum (fun '(c, a) => c * norm_L L a * (exp (- a * ((r - C) * (r - C))) * y a)) f) <= B * bare_factor (norm_L L) (abs_prims f) C r.
Proof.
  intros H. rewrite bare_map, <- OneElInt.lsum_scal. apply lsum_abs. intros (c, a) I. specialize (H _ _ I). pose proof (norm_L_pos L a) as Np. pose proof (exp_pos (- a * ((r - C) * (r - C)))) as Ep.
  rewrite !Rabs_mult, (Rabs_pos_eq (norm_L L a)), (Rabs_pos_eq (exp _)) by lra. set (e := exp _) in *. set (N := norm_L L a) in *. pose proof (Rabs_pos c) as cp.
  assert (Q : 0 <= Rabs c * N * e) by (apply Rmult_le_pos; [apply Rmult_le_pos; [exact cp|left; exact Np]|left; exact Ep]). replace (Rabs c * N * (e * Rabs (y a))) with (Rabs (y a) * (Rabs c * N * e)) by ring. apply Rmult_le_compat_r; assumption.
Qed.

Lemma factor_diff L f C r (y z : R -> R) : lsum (fun '(c, a) => c * norm_L L a * (exp (- a * ((r - C) * (r - C))) * y a)) f - lsum (fun '(c, a) => c * norm_L L a * (exp (- a * ((r - C) * (r - C))) * z a)) f =
  lsum (fun '(c, a) => c * norm_L L a * (exp (- a * ((r - C) * (r - C))) * (y a - z a))) f.
Proof. induction f as [|(c, a) f IH]; [unfold lsum; simpl; ring|]. cbn [lsum fold_right]. unfold lsum in IH. rewrite <- IH. ring. Qed.

(** ** The rule for the type-2 integrands *)
Definition bessel_error (bessel : Z -> R -> R) (l : Z) (del : R) : Prop := forall x, 0 <= x -> Rabs (bessel l x - bessK (Z.to_nat l) x) <= del.

Theorem type2_rule bessel pot LA bra CA LB ket CB l1 l2 n del :
  exponents_pos bra -> exponents_pos ket -> (forall ni c a, In (ni, c, a) pot -> (0 <= ni)%Z /\ 0 <= a) -> 0 <= CA -> 0 <= CB -> 0 <= del -> bessel_error bessel l1 del -> bessel_error bessel l2 del ->
  exists q w K, radial_integral (radial_potential (kept_pot pot)) (norm_L LA) (norm_L LB) (kept bra) (kept ket) CA CB (Z.to_nat l1) (Z.to_nat l2) (Z.to_nat n) q /\
    weight_integral (kept_pot pot) (norm_L LA) (norm_L LB) (kept bra) (kept ket) CA CB (Z.to_nat n) w /\
    forall m, (1 <= m)%Z -> Rabs (quadrature (type2_integrand bessel pot LA bra CA LB ket CB l1 l2 n) m - q) <= del * (2 + del) * w + K / IZR (m + 1) ^ 2.
Proof.
  intros HB HK HP HCA HCB Hdel E1 E2. set (bra' := kept bra). set (ket' := kept ket). set (pot' := kept_pot pot). set (k := Z.to_nat n).
  assert (HB' : forall c a, In (c, a) bra' -> 0 < a) by (intros c a I; apply (HB c), in_kept, I).
  assert (HK' : forall c a, In (c, a) ket' -> 0 < a) by (intros c a I; apply (HK c), in_kept, I).
  assert (HPn : forall ni c a, In (ni, c, a) pot' -> (0 <= ni)%Z) by (intros ni c a I; apply (HP ni c a), in_kept_pot, I).
  assert (HPa : forall ni c a, In (ni, c, a) pot' -> 0 <= a) by (intros ni c a I; apply (HP ni c a), in_kept_pot, I).
  set (y1 := fun a r => bessK (Z.to_nat l1) (2 * a * CA * r)). set (y2 := fun a r => bessK (Z.to_nat l2) (2 * a * CB * r)).
  set (H := qterms (norm_L LA) (norm_L LB) (fun a r => exp (- a * ((r - CA) * (r - CA))) * y1 a r) (fun a r => exp (- a * ((r - CB) * (r - CB))) * y2 a r) pot' bra' ket' k).
  assert (TH : tame H).
  { apply tame_terms; try assumption; intros c a I; apply mild_bess; [pose proof (HB' _ _ I)|pose proof (HK' _ _ I)]; repeat apply Rmult_le_pos; lra. }
  set (g := fun r => radial_potential pot' r * lsum (fun '(c, a) => c * norm_L LA a * (exp (- a * ((r - CA) * (r - CA))) * y1 a r)) bra' * lsum (fun '(c, a) => c * norm_L LB a * (exp (- a * ((r - CB) * (r - CB))) * y2 a r)) ket' * r ^ k).
  assert (Hg : forall r, 0 < r -> H r = r ^ 2 * g r) by (intros r Hr; apply (qterms_eq (norm_L LA) (norm_L LB) (fun a r => exp (- a * ((r - CA) * (r - CA))) * y1 a r) (fun a r => exp (- a * ((r - CB) * (r - CB))) * y2 a r)); [exact Hr|exact HPn]).
  destruct (tame_int H TH) as (q & Hq). destruct (tame_rate H g q TH Hg Hq) as (K1 & K10 & R1).
  set (V := qterms (norm_L LA) (norm_L LB) (fun a r => exp (- a * ((r - CA) * (r - CA))) * 1) (fun a r => exp (- a * ((r - CB) * (r - CB))) * 1) (abs_pot pot') (abs_prims bra') (abs_prims ket') k).
  assert (TV : tame V).
  { apply (tame_terms (norm_L LA) (norm_L LB) CA CB (fun _ _ => 1) (fun _ _ => 1)); try (intros; exact mild_one).
    - intros c a I. destruct (in_abs _ _ _ I) as (c' & I'). apply (HB' _ _ I').
    - intros c a I. destruct (in_abs _ _ _ I) as (c' & I'). apply (HK' _ _ I').
    - intros ni c a I. destruct (in_abs_pot _ _ _ _ I) as (c' & I'). apply (HPa _ _ _ I'). }
  set (wf := fun r => radial_potential (abs_pot pot') r * bare_factor (norm_L LA) (abs_prims bra') CA r * bare_factor (norm_L LB) (abs_prims ket') CB r * r ^ k).
  assert (Hw : forall r, 0 < r -> V r = r ^ 2 * wf r).
  { intros r Hr. unfold V. rewrite qterms_eq; [|exact Hr|intros ni c a I; destruct (in_abs_pot _ _ _ _ I) as (c' & I'); apply (HPn _ _ _ I')]. unfold wf, bare_factor. do 2 f_equal. f_equal; [f_equal|]; apply OneElInt.lsum_ext; intros (c, a) _; ring. }
  destruct (tame_int V TV) as (w & Hv). destruct (tame_rate V wf w TV Hw Hv) as (K2 & K20 & R2).
  exists q, w, (K1 + del * (2 + del) * K2). split; [|split].
  - unfold radial_integral. apply (half_ext H); [|exact Hq]. intros r Hr. rewrite Hg by exact Hr. unfold g, radial_factor, y1, y2.
    replace (lsum (fun '(c, a) => c * norm_L LA a * (exp (- a * ((r - CA) * (r - CA))) * bessK (Z.to_nat l1) (2 * a * CA * r))) bra') with (lsum (fun '(c, a) => c * norm_L LA a * exp (- a * ((r - CA) * (r - CA))) * bessK (Z.to_nat l1) (2 * a * CA * r)) bra') by (apply OneElInt.lsum_ext; intros (c, a) _; ring).
    replace (lsum (fun '(c, a) => c * norm_L LB a * (exp (- a * ((r - CB) * (r - CB))) * bessK (Z.to_nat l2) (2 * a * CB * r))) ket') with (lsum (fun '(c, a) => c * norm_L LB a * exp (- a * ((r - CB) * (r - CB))) * bessK (Z.to_nat l2) (2 * a * CB * r)) ket') by (apply OneElInt.lsum_ext; intros (c, a) _; ring).
    ring.
  - unfold weight_integral. apply (half_ext V); [|exact Hv]. intros r Hr. rewrite Hw by exact Hr. unfold wf. ring.
  - intros m Hm. specialize (R1 m Hm). specialize (R2 m Hm).
    assert (D : Rabs (quadrature (type2_integrand bessel pot LA bra CA LB ket CB l1 l2 n) m - quadrature g m) <= quadrature (fun r => del * (2 + del) * wf r) m).
    { apply quadrature_diff; [exact Hm|]. intros r Hr. unfold type2_integrand. rewrite rpp_kept, !function_kept. fold bra' ket' pot' k. unfold g.
      assert (A1 : forall c a, In (c, a) bra' -> 0 <= 2 * a * CA * r) by (intros c a I; pose proof (HB' _ _ I); repeat apply Rmult_le_pos; lra).
      assert (A2 : forall c a, In (c, a) ket' -> 0 <= 2 * a * CB * r) by (intros c a I; pose proof (HK' _ _ I); repeat apply Rmult_le_pos; lra).
      pose proof (factor_bound LA bra' CA r (fun a => bessel l1 (2 * a * CA * r) - y1 a r) del (fun c a I => E1 _ (A1 c a I))) as d1. pose proof (factor_diff LA bra' CA r (fun a => bessel l1 (2 * a * CA * r)) (fun a => y1 a r)) as e1. cbv beta in e1, d1. rewrite <- e1 in d1. clear e1.
      pose proof (factor_bound LB ket' CB r (fun a => bessel l2 (2 * a * CB * r) - y2 a r) del (fun c a I => E2 _ (A2 c a I))) as d2. pose proof (factor_diff LB ket' CB r (fun a => bessel l2 (2 * a * CB * r)) (fun a => y2 a r)) as e2. cbv beta in e2, d2. rewrite <- e2 in d2. clear e2.
      assert (f2 : Rabs (lsum (fun '(c, a) => c * norm_L LB a * (exp (- a * ((r - CB) * (r - CB))) * y2 a r)) ket') <= 1 * bare_factor (norm_L LB) (abs_prims ket') CB r).
      { apply (factor_bound LB ket' CB r (fun a => y2 a r)). intros c a I. unfold y2. pose proof (bessK_bounds (Z.to_nat l2) _ (A2 c a I)). rewrite Rabs_pos_eq; lra. }
      assert (f1 : Rabs (lsum (fun '(c, a) => c * norm_L LA a * (exp (- a * ((r - CA) * (r - CA))) * bessel l1 (2 * a * CA * r))) bra') <= (1 + del) * bare_factor (norm_L LA) (abs_prims bra') CA r).
      { apply (factor_bound LA bra' CA r (fun a => bessel l1 (2 * a * CA * r))). intros c a I. pose proof (E1 _ (A1 c a I)) as e. pose proof (bessK_bounds (Z.to_nat l1) _ (A1 c a I)) as b. apply Rabs_le_between in e. apply Rabs_le. lra. }
      pose proof (pot_abs pot' r Hr) as p0.
      set (a := lsum (fun '(c, a) => c * norm_L LA a * (exp (- a * ((r - CA) * (r - CA))) * bessel l1 (2 * a * CA * r))) bra') in *. set (a' := lsum (fun '(c, a) => c * norm_L LA a * (exp (- a * ((r - CA) * (r - CA))) * y1 a r)) bra') in *.
      set (b := lsum (fun '(c, a) => c * norm_L LB a * (exp (- a * ((r - CB) * (r - CB))) * bessel l2 (2 * a * CB * r))) ket') in *. set (b' := lsum (fun '(c, a) => c * norm_L LB a * (exp (- a * ((r - CB) * (r - CB))) * y2 a r)) ket') in *. set (p := radial_potential pot' r) in *. set (P := radial_potential (abs_pot pot') r) in *. set (BA := bare_factor _ _ CA r) in *. set (BB := bare_factor _ _ CB r) in *.
      replace (p * a * b * r ^ k - p * a' * b' * r ^ k) with (p * r ^ k * (a * (b - b') + b' * (a - a'))) by ring. unfold wf. fold P BA BB.
      replace (del * (2 + del) * (P * BA * BB * r ^ k)) with (P * r ^ k * ((1 + del) * BA * (del * BB) + 1 * BB * (del * BA))) by ring.
      rewrite Rabs_mult, (Rabs_mult p), (Rabs_pos_eq (r ^ k)) by (apply pow_le; lra). apply Rmult_le_compat; [apply Rmult_le_pos; [apply Rabs_pos|apply pow_le; lra]|apply Rabs_pos|apply Rmult_le_compat_r; [apply pow_le; lra|exact p0]|].
      eapply Rle_trans; [apply Rabs_triang|]. rewrite !Rabs_mult. apply Rplus_le_compat; apply Rmult_le_compat; try apply Rabs_pos; assumption. }
    rewrite quadrature_scal in D. assert (c0 : 0 <= del * (2 + del)) by (apply Rmult_le_pos; lra).
    assert (QW : quadrature wf m <= w + K2 / IZR (m + 1) ^ 2) by (apply Rabs_le_between in R2; lra).
    assert (del * (2 + del) * quadrature wf m <= del * (2 + del) * (w + K2 / IZR (m + 1) ^ 2)) by (apply Rmult_le_compat_l; assumption).
    set (Qo := quadrature (type2_integrand _ _ _ _ _ _ _ _ _ _ _) m) in *. replace (Qo - q) with ((Qo - quadrature g m) + (quadrature g m - q)) by ring. eapply Rle_trans; [apply Rabs_triang|].
    replace ((K1 + del * (2 + del) * K2) / IZR (m + 1) ^ 2) with (K1 / IZR (m + 1) ^ 2 + del * (2 + del) * (K2 / IZR (m + 1) ^ 2)) by (unfold Rdiv; ring). lra.
Qed.
