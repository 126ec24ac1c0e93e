(** * Radial normalisation and one-centre radial integrals of the outercore shells *)

From Coq Require Import ZArith List Lia Bool Reals Lra.
From Coquelicot Require Import Coquelicot.
From Verif Require Import Base Loops Sums BinomModel BinomProofs OneElModel OneElProofs OneElInt OneElSpec NucPotSpec NucPot GaussMoment RadialModel RadialTables HeapShrink SphProofs PiBounds OutercoreModel OutercoreProofs.
Import ListNotations.
Open Scope R_scope.

(** ** The primitive integral *)
Lemma primitive_moment L a1 a2 n zeta : (0 <= L)%Z -> (0 <= n)%Z ->
  analytic_one_center_rpp_integral_primitive L a1 a2 n zeta = gaussian_integral (2 * L + n) (a1 + a2 + zeta).
Proof.
  intros HL Hn. unfold analytic_one_center_rpp_integral_primitive, gaussian_integral.
  rewrite !Z.rem_mod_nonneg by lia. replace ((2 * L + n) mod 2)%Z with (n mod 2)%Z by (rewrite (Z.mul_comm 2 L), Z.add_comm, Z_mod_plus_full; reflexivity).
  destruct (Z.eqb_spec (n mod 2) 0) as [E|E].
  - rewrite !Z.quot_div_nonneg by lia. replace ((2 * L + n) / 2)%Z with (L + n / 2)%Z by (rewrite (Z.mul_comm 2 L), Z.div_add_l by lia; reflexivity). reflexivity.
  - assert (1 <= n)%Z by (destruct (Z.eq_dec n 0) as [-> | ?]; [exfalso; apply E; reflexivity|lia]).
    rewrite !Z.quot_div_nonneg by lia. replace ((2 * L + n - 1) / 2)%Z with (L + (n - 1) / 2)%Z.
    2:{ replace (2 * L + n - 1)%Z with (L * 2 + (n - 1))%Z by ring. rewrite Z.div_add_l by lia. reflexivity. }
    reflexivity.
Qed.

(** ** Normalisation *)
(** the factor that normalises r^l exp(-a r^2) over 0 < r with weight r^2 *)
Definition norm_rad (l : nat) (a : R) : R := / sqrt (gmom (2 * l + 2) (2 * a)).

Lemma norm_rad_pos l a : 0 < a -> 0 < norm_rad l a.
Proof. intros Ha. unfold norm_rad. apply Rinv_0_lt_compat, sqrt_lt_R0, gmom_pos. lra. Qed.

Lemma dfact_pos l : (0 < dfactz (2 * l + 1))%Z.
Proof. induction l as [|l IH]; [reflexivity|]. replace (2 * S l + 1)%nat with (S (S (2 * l + 1))) by lia. cbn [dfactz]. lia. Qed.

Lemma gmom_norm l a : 0 < a -> gmom (2 * l + 2) (2 * a) = IZR (dfactz (2 * l + 1)) / (2 ^ (l + 2) * (2 * a) ^ (l + 1)) * sqrt (PI / (2 * a)).
Proof.
  intros Ha. replace (2 * l + 2)%nat with (2 * (l + 1))%nat by lia. rewrite gmom_even by lra. replace (2 * (l + 1) - 1)%nat with (2 * l + 1)%nat by lia.
  replace (l + 1 + 1)%nat with (l + 2)%nat by lia. reflexivity.
Qed.

Lemma Rpower_sq x y : Rpower x y * Rpower x y = Rpower x (2 * y).
Proof. rewrite <- Rpower_plus. f_equal. lra. Qed.

(** the Cartesian normalisation of the library and the angular factor combine to it *)
Lemma norms_agree l a : 0 < a -> norm_L (Z.of_nat l) a / ang_factor l = norm_rad l a.
Proof.
  intros Ha. pose proof PI_RGT_0 as HP. pose proof (ang_factor_pos l) as Hang. pose proof (dfact_pos l) as Hd. apply IZR_lt in Hd.
  assert (HnL : 0 < norm_L (Z.of_nat l) a) by (unfold norm_L; apply Rmult_lt_0_compat; apply exp_pos).
  pose proof (norm_rad_pos l a Ha) as Hr.
  assert (P : 0 < norm_L (Z.of_nat l) a / ang_factor l) by (apply Rdiv_lt_0_compat; assumption).
  apply Rsqr_inj; [lra|lra|]. unfold Rsqr.
  set (D := IZR (dfactz (2 * l + 1))) in *.
  assert (E1 : norm_L (Z.of_nat l) a * norm_L (Z.of_nat l) a = (2 * a / PI) * sqrt (2 * a / PI) * (4 * a) ^ l).
  { unfold norm_L. assert (X : 0 < 2 * a / PI) by (apply Rdiv_lt_0_compat; lra).
    transitivity (Rpower (2 * a / PI) (3 / 4) * Rpower (2 * a / PI) (3 / 4) * (Rpower (4 * a) (IZR (Z.of_nat l) / 2) * Rpower (4 * a) (IZR (Z.of_nat l) / 2))); [ring|].
    rewrite !Rpower_sq. f_equal.
    - replace (2 * (3 / 4)) with (1 + / 2) by field. rewrite Rpower_plus, Rpower_1, Rpower_sqrt by exact X. reflexivity.
    - replace (2 * (IZR (Z.of_nat l) / 2)) with (INR l) by (rewrite INR_IZR_INZ; field). apply Rpower_pow. lra. }
  assert (E2 : ang_factor l * ang_factor l = D / (4 * PI)).
  { unfold ang_factor. fold D. pose proof (sqrt_lt_R0 PI HP).
    transitivity (sqrt D * sqrt D / (4 * (sqrt PI * sqrt PI))); [field; lra|]. rewrite !sqrt_sqrt by lra. reflexivity. }
  assert (E3 : norm_rad l a * norm_rad l a = / gmom (2 * l + 2) (2 * a)).
  { unfold norm_rad. rewrite <- Rinv_mult. f_equal. apply sqrt_sqrt. left. apply gmom_pos. lra. }
  transitivity (norm_L (Z.of_nat l) a * norm_L (Z.of_nat l) a / (ang_factor l * ang_factor l)); [field; lra|].
  rewrite E1, E2, E3, gmom_norm by exact Ha. fold D.
  assert (Ep : sqrt (PI / (2 * a)) * sqrt (2 * a / PI) = 1).
  { rewrite <- sqrt_mult_alt; [|left; apply Rdiv_lt_0_compat; lra]. replace (PI / (2 * a) * (2 * a / PI)) with 1 by (field; lra). apply sqrt_1. }
  set (s1 := sqrt (PI / (2 * a))) in *. set (s2 := sqrt (2 * a / PI)) in *.
  assert (S1 : s1 <> 0) by (intros X; rewrite X in Ep; lra).
  replace s2 with (/ s1) by (apply (Rmult_eq_reg_l s1); [rewrite Ep; field; exact S1|exact S1]).
  replace ((4 * a) ^ l) with (2 ^ l * (2 * a) ^ l) by (rewrite <- Rpow_mult_distr; f_equal; ring).
  replace (2 ^ (l + 2)) with (4 * 2 ^ l) by (rewrite pow_add; cbn [pow]; ring). replace ((2 * a) ^ (l + 1)) with (2 * a * (2 * a) ^ l) by (rewrite pow_add; cbn [pow]; ring).
  field. repeat split; first [exact S1 | apply pow_nonzero; lra | lra].
Qed.

Lemma norm_rad_scale l a : 0 < a -> norm_rad l a = norm_rad l 1 * Rpower a (0.75 + IZR (Z.of_nat l) / 2).
Proof.
  intros Ha. rewrite <- !norms_agree by lra. pose proof (ang_factor_pos l). unfold norm_L. pose proof PI_RGT_0 as HP.
  replace (2 * a / PI) with (2 * 1 / PI * a) by (field; lra). replace (4 * a) with (4 * 1 * a) by ring.
  rewrite <- !Rpower_mult_distr by (try (apply Rdiv_lt_0_compat); lra).
  replace 0.75 with (3 / 4) by lra. rewrite Rpower_plus. field. lra.
Qed.

(** ** The table *)
Lemma pow4_le x y : 0 <= x -> 0 <= y -> x ^ 4 <= y ^ 4 -> x <= y.
Proof.
  intros Hx Hy H. destruct (Rle_lt_dec x y) as [|L]; [assumption|exfalso]. assert (y * y < x * x) by nra. assert (y * y * (y * y) < x * x * (x * x)) by nra.
  cbn [pow] in H. nra.
Qed.

Definition table_eps : R := 2 / 10 ^ 15.

Lemma radial_table_ok l : (l < 20)%nat -> exists f, aget (aoflist radial_norm_table) [Z.of_nat l] = Ok f /\ 0 < f /\ Rabs (f / norm_rad l 1 - 1) <= table_eps.
Proof.
  intros Hl. exists (nth l radial_norm_table 0).
  split; [rewrite (aget_oflist radial_norm_table (Z.of_nat l) 0) by (cbn [length radial_norm_table]; lia); rewrite Nat2Z.id; reflexivity|].
  set (f := nth l radial_norm_table 0). set (D := IZR (dfactz (2 * l + 1))). set (q := D / (2 ^ (l + 2) * 2 ^ (l + 1))).
  assert (G : gmom (2 * l + 2) (2 * 1) = q * sqrt (PI / 2)).
  { rewrite gmom_norm by lra. unfold q, D. replace (2 * 1) with 2 by ring. reflexivity. }
  assert (Gp : 0 < gmom (2 * l + 2) (2 * 1)) by (apply gmom_pos; lra).
  assert (Ef : f / norm_rad l 1 = f * sqrt (gmom (2 * l + 2) (2 * 1))).
  { unfold norm_rad. field. pose proof (sqrt_lt_R0 _ Gp). lra. }
  set (x := f * sqrt (gmom (2 * l + 2) (2 * 1))) in *.
  assert (X4 : x ^ 4 = f ^ 4 * q ^ 2 * (PI / 2)).
  { unfold x. pose proof (sqrt_sqrt _ (Rlt_le _ _ Gp)) as E. pose proof PI_RGT_0. pose proof (sqrt_sqrt (PI / 2) ltac:(lra)) as E2. rewrite G in E |- *.
    set (s := sqrt (q * sqrt (PI / 2))) in *. set (t := sqrt (PI / 2)) in *. transitivity (f ^ 4 * ((s * s) * (s * s))); [ring|]. rewrite E. transitivity (f ^ 4 * q ^ 2 * (t * t)); [ring|]. rewrite E2. reflexivity. }
  pose proof PI_lower as PL. pose proof PI_upper as PU.
  assert (B : 0 < f /\ (1 - table_eps) ^ 4 <= f ^ 4 * q ^ 2 * (PI / 2) <= (1 + table_eps) ^ 4).
  { clear X4 Ef. clearbody x. clear x Gp G. unfold table_eps, q, D, f. clear q D f.
    do 20 (destruct l as [|l]; [cbn [nth radial_norm_table]; match goal with |- context [dfactz ?k] => let v := eval vm_compute in (dfactz k) in change (dfactz k) with v end;
      cbn [Nat.add]; match goal with |- _ < ?a /\ _ <= ?b * (PI / 2) <= _ => set (w := b); assert (Hw : w = b) by reflexivity; clearbody w end; split; [lra|]; split;
      [apply Rle_trans with (w * (314159265358979323 / 10 ^ 17 / 2)); [|apply Rmult_le_compat_l; [rewrite Hw; lra|lra]]; rewrite Hw; lra
      |apply Rle_trans with (w * (314159265358979324 / 10 ^ 17 / 2)); [apply Rmult_le_compat_l; [rewrite Hw; lra|lra]|]; rewrite Hw; lra]|]). lia. }
  destruct B as (Bf & B1 & B2). split; [exact Bf|]. rewrite Ef. rewrite <- X4 in B1, B2.
  assert (Hx : 0 < x) by (unfold x; apply Rmult_lt_0_compat; [exact Bf|apply sqrt_lt_R0; exact Gp]).
  assert (He : 0 < table_eps < 1) by (unfold table_eps; lra).
  apply pow4_le in B1; [|lra|lra]. apply pow4_le in B2; [|lra|lra]. apply Rabs_le. lra.
Qed.

(** the ratio of a table entry to the exact factor *)
Definition table_ratio (l : nat) : R := nth l radial_norm_table 0 / norm_rad l 1.

Lemma table_ratio_bound l : (l < 20)%nat -> Rabs (table_ratio l - 1) <= table_eps.
Proof.
  intros Hl. destruct (radial_table_ok l Hl) as (f & E & _ & B). rewrite (aget_oflist radial_norm_table (Z.of_nat l) 0) in E by (cbn [length radial_norm_table]; lia).
  rewrite Nat2Z.id in E. injection E as <-. exact B.
Qed.

Lemma radial_norm_ok l a : (l < 20)%nat -> 0 < a -> radial_gto_norm_factor (Z.of_nat l) a = Ok (table_ratio l * norm_rad l a).
Proof.
  intros Hl Ha. unfold radial_gto_norm_factor. rewrite (aget_oflist radial_norm_table (Z.of_nat l) 0) by (cbn [length radial_norm_table]; lia).
  rewrite Nat2Z.id, bind_ok. f_equal. rewrite (norm_rad_scale l a Ha). unfold table_ratio. pose proof (norm_rad_pos l 1 ltac:(lra)). field. lra.
Qed.

Lemma radial_norm_outside l a : (20 <= l)%Z -> radial_gto_norm_factor l a = Fail OutOfBounds.
Proof.
  intros Hl. unfold radial_gto_norm_factor, aget. replace (inb (adims (aoflist radial_norm_table)) [l]) with false; [reflexivity|].
  symmetry. cbn [inb adims aoflist length radial_norm_table]. change (Z.of_nat 20) with 20%Z. apply andb_false_iff. left. apply andb_false_iff. right. apply Z.ltb_ge. lia.
Qed.

(** ** Contracted one-centre integrals *)
Definition radial_fun (l : nat) (prims : list (R * R)) (r : R) : R := lsum (fun '(c, a) => c * (norm_rad l a * (r ^ l * exp (- a * r ^ 2)))) prims.

Definition pot_in_range (l : nat) (pot : list (Z * R * R)) : Prop := forall n c z, In (n, c, z) pot -> (0 <= n)%Z /\ (2 * Z.of_nat l + n <= 31)%Z /\ 0 <= z.

Lemma half_lsum {T} (f : T -> R -> R) (v : T -> R) (l : list T) : (forall x, In x l -> half_int (f x) (v x)) -> half_int (fun r => lsum (fun x => f x r) l) (lsum v l).
Proof.
  induction l as [|x l IH]; intros H.
  - apply (half_eq _ (0 * gmom 0 1)); [|cbn [lsum fold_right]; unfold lsum; cbn; ring]. apply (half_ext (fun r => 0 * (r ^ 0 * exp (- 1 * r ^ 2)))); [intros r _; unfold lsum; cbn [fold_right]; ring|].
    apply half_scal. apply gauss_moment. lra.
  - apply (half_ext (fun r => f x r + lsum (fun x => f x r) l)); [intros; reflexivity|]. rewrite lsum_cons. apply half_plus; [apply H; left; reflexivity|]. apply IH. intros y Hy. apply H. right. exact Hy.
Qed.

Lemma radial_sum_lsum pot r : radial_sum pot r = lsum (fun '(n, c, z) => c * (powerRZ r (n - 2) * exp (- z * (r * r)))) pot.
Proof. induction pot as [|[[n c] z] p IH]; [reflexivity|]. cbn [radial_sum]. rewrite IH. reflexivity. Qed.

Lemma powerRZ_shift r n : 0 < r -> (0 <= n)%Z -> powerRZ r (n - 2) * r ^ 2 = r ^ Z.to_nat n.
Proof.
  intros Hr Hn. replace (r ^ 2) with (powerRZ r 2) by reflexivity. rewrite <- powerRZ_add by lra. replace (n - 2 + 2)%Z with n by ring.
  rewrite <- (Z2Nat.id n Hn) at 1. rewrite <- pow_powerRZ. reflexivity.
Qed.

(** the exact value of the one-centre integral of two shells *)
Definition one_center_val (l : nat) (p1 p2 : list (R * R)) (pot : list (Z * R * R)) : R :=
  lsum (fun '(c, a) => lsum (fun '(c', a') => lsum (fun '(n, u, z) => norm_rad l a * norm_rad l a' * c * c' * u * gmom (2 * l + Z.to_nat n) (a + a' + z)) pot) p2) p1.

Lemma one_center_int l p1 p2 pot : (forall c a, In (c, a) p1 -> 0 < a) -> (forall c a, In (c, a) p2 -> 0 < a) -> pot_in_range l pot ->
  half_int (fun r => radial_fun l p1 r * radial_sum pot r * radial_fun l p2 r * r ^ 2) (one_center_val l p1 p2 pot).
Proof.
  intros H1 H2 HP. unfold one_center_val.
  apply (half_ext (fun r => lsum (fun p : R * R => let '(c, a) := p in lsum (fun q : R * R => let '(c', a') := q in lsum (fun t : Z * R * R => let '(n, u, z) := t in
     norm_rad l a * norm_rad l a' * c * c' * u * (r ^ (2 * l + Z.to_nat n) * exp (- (a + a' + z) * r ^ 2))) pot) p2) p1)).
  - intros r Hr. unfold radial_fun. rewrite radial_sum_lsum.
    transitivity (lsum (fun p : R * R => let '(c, a) := p in c * (norm_rad l a * (r ^ l * exp (- a * r ^ 2))) * (lsum (fun '(n, c, z) => c * (powerRZ r (n - 2) * exp (- z * (r * r)))) pot * lsum (fun '(c, a) => c * (norm_rad l a * (r ^ l * exp (- a * r ^ 2)))) p2 * r ^ 2)) p1).
    2:{ set (S1 := lsum _ pot). set (S2 := lsum _ p2). match goal with |- _ = ?f * S1 * S2 * ?q => transitivity ((S1 * S2 * q) * f); [|ring] end. rewrite <- lsum_scal. apply lsum_ext. intros [c a] _. ring. }
    apply lsum_ext. intros [c a] _.
    transitivity (lsum (fun q : R * R => let '(c', a') := q in c * (norm_rad l a * (r ^ l * exp (- a * r ^ 2))) * r ^ 2 * (lsum (fun '(n, c, z) => c * (powerRZ r (n - 2) * exp (- z * (r * r)))) pot) * (c' * (norm_rad l a' * (r ^ l * exp (- a' * r ^ 2))))) p2).
    2:{ match goal with |- _ = _ * (?x1 * ?x2 * _) => transitivity ((c * (norm_rad l a * (r ^ l * exp (- a * r ^ 2))) * r ^ 2 * x1) * x2); [generalize x1; intros S1|ring] end. rewrite <- lsum_scal. apply lsum_ext. intros [c' a'] _. reflexivity. }
    apply lsum_ext. intros [c' a'] _.
    transitivity ((c * (norm_rad l a * (r ^ l * exp (- a * r ^ 2))) * r ^ 2 * (c' * (norm_rad l a' * (r ^ l * exp (- a' * r ^ 2))))) * lsum (fun '(n, c, z) => c * (powerRZ r (n - 2) * exp (- z * (r * r)))) pot); [|ring].
    rewrite <- lsum_scal. apply lsum_ext. intros [[n u] z] Hin. destruct (HP _ _ _ Hin) as (Hn & _ & _).
    rewrite pow_add. replace (2 * l)%nat with (l + l)%nat by lia. rewrite pow_add. rewrite <- (powerRZ_shift r n Hr Hn).
    replace (exp (- (a + a' + z) * r ^ 2)) with (exp (- a * r ^ 2) * exp (- a' * r ^ 2) * exp (- z * (r * r))); [ring|]. rewrite <- !exp_plus. f_equal. ring.
  - apply half_lsum. intros [c a] Ha. apply half_lsum. intros [c' a'] Ha'. apply half_lsum. intros [[n u] z] Hin.
    apply half_scal. apply gauss_moment. destruct (HP _ _ _ Hin) as (_ & _ & Hz). pose proof (H1 _ _ Ha). pose proof (H2 _ _ Ha'). lra.
Qed.

Lemma sum_potential_ok l a a' fac pot s : 0 < a -> 0 < a' -> pot_in_range l pot ->
  sum_potential (Z.of_nat l) a a' fac pot s = Ok (s + lsum (fun '(n, u, z) => fac * u * gmom (2 * l + Z.to_nat n) (a + a' + z)) pot).
Proof.
  intros Ha Ha' HP. unfold sum_potential. revert s. induction pot as [|[[n u] z] pot IH]; intros s.
  - cbn [fold_left]. unfold lsum. cbn [fold_right]. rewrite Rplus_0_r. reflexivity.
  - cbn [fold_left]. rewrite bind_ok. destruct (HP n u z (or_introl eq_refl)) as (Hn & Hn2 & Hz).
    rewrite primitive_moment by lia. rewrite gaussian_integral_ok by (try lia; lra). rewrite bind_ok. rewrite IH by (intros ? ? ? H; apply (HP _ _ _ (or_intror H))).
    rewrite lsum_cons. replace (Z.to_nat (2 * Z.of_nat l + n)) with (2 * l + Z.to_nat n)%nat by lia. f_equal. ring.
Qed.

Lemma prims_loop (g : R -> R -> R -> res R) (v : R -> R -> R) s (l : list (R * R)) z0 : holds_prims s l ->
  (forall c a z, In (c, a) l -> g c a z = Ok (z + v c a)) ->
  for_range 0 (sv_num s) (fun i z => let* c := aget (sv_coef s) [i] in let* a := aget (sv_alpha s) [i] in g c a z) z0 = Ok (z0 + lsum (fun '(c, a) => v c a) l).
Proof.
  intros (Hn & Hp) Hg. rewrite Hn. rewrite (acc_loop 0 (Z.of_nat (length l)) _ (fun i => let '(c, a) := nth (Z.to_nat i) l (0, 0) in v c a) z0 ltac:(lia)).
  - f_equal. f_equal. exact (zsum_lsum l (0, 0) (fun '(c, a) => v c a)).
  - intros i z Hi. destruct (Hp (Z.to_nat i) ltac:(lia)) as (E1 & E2). rewrite Z2Nat.id in E1, E2 by lia. rewrite E1, E2, !bind_ok.
    assert (Hin : In (nth (Z.to_nat i) l (0, 0)) l) by (apply nth_In; lia). destruct (nth (Z.to_nat i) l (0, 0)) as [c a]. apply Hg. exact Hin.
Qed.

Lemma contracted_ok l s1 s2 p1 p2 pot : (l < 20)%nat -> pv_L pot = Z.of_nat l -> holds_prims s1 p1 -> holds_prims s2 p2 ->
  (forall c a, In (c, a) p1 -> 0 < a) -> (forall c a, In (c, a) p2 -> 0 < a) -> pot_in_range l (pv_prims pot) ->
  analytic_one_center_rpp_integral_contracted s1 s2 pot = Ok (table_ratio l ^ 2 * one_center_val l p1 p2 (pv_prims pot)).
Proof.
  intros Hl EL HP1 HP2 H1 H2 HP. unfold analytic_one_center_rpp_integral_contracted. rewrite EL. cbv zeta.
  transitivity (Ok (0 + lsum (fun '(c, a) => lsum (fun '(c', a') => lsum (fun '(n, u, z) => (table_ratio l * norm_rad l a * (table_ratio l * norm_rad l a') * c * c') * u * gmom (2 * l + Z.to_nat n) (a + a' + z)) (pv_prims pot)) p2) p1)).
  - apply (prims_loop (fun coef_i alpha_i sum => let* N_i := radial_gto_norm_factor (Z.of_nat l) alpha_i in
      for_range 0 (sv_num s2) (fun j sum => let* coef_j := aget (sv_coef s2) [j] in let* alpha_j := aget (sv_alpha s2) [j] in let* N_j := radial_gto_norm_factor (Z.of_nat l) alpha_j in
      sum_potential (Z.of_nat l) alpha_i alpha_j (N_i * N_j * coef_i * coef_j) (pv_prims pot) sum) sum)); [exact HP1|].
    intros c a z Hin. rewrite radial_norm_ok by (try exact Hl; apply (H1 _ _ Hin)). rewrite bind_ok.
    apply (prims_loop (fun coef_j alpha_j sum => let* N_j := radial_gto_norm_factor (Z.of_nat l) alpha_j in
      sum_potential (Z.of_nat l) a alpha_j (table_ratio l * norm_rad l a * N_j * c * coef_j) (pv_prims pot) sum)); [exact HP2|].
    intros c' a' z' Hin'. rewrite radial_norm_ok by (try exact Hl; apply (H2 _ _ Hin')). rewrite bind_ok.
    apply sum_potential_ok; [apply (H1 _ _ Hin)|apply (H2 _ _ Hin')|exact HP].
  - f_equal. rewrite Rplus_0_l. unfold one_center_val. rewrite <- lsum_scal. apply lsum_ext. intros [c a] _. rewrite <- lsum_scal. apply lsum_ext. intros [c' a'] _. rewrite <- lsum_scal. apply lsum_ext. intros [[n u] z] _. ring.
Qed.

Definition delta_val (l : nat) (p1 p2 : list (R * R)) (u1 u2 : list (Z * R * R)) : R := 1 / 2 * (one_center_val l p1 p2 u1 + one_center_val l p1 p2 u2).

Lemma delta_ok l s1 s2 p1 p2 pot1 pot2 : (l < 20)%nat -> pv_L pot1 = Z.of_nat l -> pv_L pot2 = Z.of_nat l -> pv_J pot1 = pv_J pot2 -> holds_prims s1 p1 -> holds_prims s2 p2 ->
  (forall c a, In (c, a) p1 -> 0 < a) -> (forall c a, In (c, a) p2 -> 0 < a) -> pot_in_range l (pv_prims pot1) -> pot_in_range l (pv_prims pot2) ->
  calculate_delta_integral pot1 s1 pot2 s2 = Ok (table_ratio l ^ 2 * delta_val l p1 p2 (pv_prims pot1) (pv_prims pot2)).
Proof.
  intros Hl E1 E2 EJ HP1 HP2 H1 H2 U1 U2. unfold calculate_delta_integral. rewrite E1, E2, EJ, !Z.eqb_refl. cbn [negb orb].
  rewrite (contracted_ok l s1 s2 p1 p2 pot1), (contracted_ok l s1 s2 p1 p2 pot2) by assumption. rewrite !bind_ok. f_equal. unfold delta_val. lra.
Qed.

Lemma delta_int l p1 p2 u1 u2 : (forall c a, In (c, a) p1 -> 0 < a) -> (forall c a, In (c, a) p2 -> 0 < a) -> pot_in_range l u1 -> pot_in_range l u2 ->
  half_int (fun r => radial_fun l p1 r * ((radial_sum u1 r + radial_sum u2 r) / 2) * radial_fun l p2 r * r ^ 2) (delta_val l p1 p2 u1 u2).
Proof.
  intros H1 H2 HU1 HU2. unfold delta_val.
  apply (half_ext (fun r => 1 / 2 * (radial_fun l p1 r * radial_sum u1 r * radial_fun l p2 r * r ^ 2 + radial_fun l p1 r * radial_sum u2 r * radial_fun l p2 r * r ^ 2))); [intros; field|].
  apply half_scal. apply half_plus; apply one_center_int; assumption.
Qed.

Lemma delta_sym l p1 p2 u1 u2 : (forall c a, In (c, a) p1 -> 0 < a) -> (forall c a, In (c, a) p2 -> 0 < a) -> pot_in_range l u1 -> pot_in_range l u2 ->
  delta_val l p1 p2 u1 u2 = delta_val l p2 p1 u2 u1.
Proof.
  intros H1 H2 HU1 HU2. eapply half_int_unique; [apply delta_int; assumption|].
  apply (half_ext (fun r => radial_fun l p2 r * ((radial_sum u2 r + radial_sum u1 r) / 2) * radial_fun l p1 r * r ^ 2)); [intros; field|]. apply delta_int; assumption.
Qed.
