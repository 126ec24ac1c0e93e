(** * Spherical harmonics and angular integrals: the statements used in the properties *)

From Coq Require Import ZArith Reals Lra Lia List Bool.
From Coquelicot Require Import Coquelicot.
From Verif Require Import Base BinomProofs CartModel CartProofs OneElModel OneElProofs OneElInt Sums SphModel SphSpec SphPoly SphProofs SphTables SphInt SphOrtho SphCert SphAngular SphHarm.
Import ListNotations.
Open Scope R_scope.

Definition init_tables (st : rsh_store) : Prop := create_real_spherical_harmonic_coeffs_tables 40 [] = Ok st.

Lemma init_tables_ok st : init_tables st -> store_ok st /\ rsh_lmax st = 40%Z.
Proof.
  intros H. destruct (create_ok 40 [] ltac:(lia)) as (st' & E & S & M & _).
  - intros l t Hn. destruct l; discriminate.
  - unfold init_tables in H. rewrite E in H. injection H as <-. split; [exact S|]. rewrite M. reflexivity.
Qed.

Lemma init_tables_exist : exists st, init_tables st.
Proof. destruct (create_ok 40 [] ltac:(lia)) as (st' & E & _); [intros l t Hn; destruct l; discriminate|]. exists st'. exact E. Qed.

(** ** C33 *)
Lemma sphere_monomials_thm : forall i j k : nat,
  let run := integrate_unitary_sphere_polynomial (Z.of_nat i) (Z.of_nat j) (Z.of_nat k) in
  if Nat.even i && Nat.even j && Nat.even k && (29 <? i + j + k)%nat
  then run = Fail AssertFailed
  else exists v, run = Ok v /\ sphere_int (fun x y z => x ^ i * y ^ j * z ^ k) v.
Proof.
  intros i j k run. destruct (Nat.even i && Nat.even j && Nat.even k && (29 <? i + j + k)%nat) eqn:E.
  - apply andb_prop in E. destruct E as (E & Eb). apply andb_prop in E. destruct E as (E & Ek). apply andb_prop in E. destruct E as (Ei & Ej). apply Nat.ltb_lt in Eb. apply iusp_abort; assumption.
  - apply iusp_ok. intros (Ei & Ej & Ek & H). rewrite Ei, Ej, Ek in E. cbn [andb] in E. apply Nat.ltb_ge in E. lia.
Qed.

Lemma sphere_unique_thm : forall (f : R -> R -> R -> R) (u v : R), sphere_int f u -> sphere_int f v -> u = v.
Proof. exact sphere_uniq. Qed.

(** ** C54 *)
Lemma tables_hold_coefficients_thm : forall st l m, init_tables st -> (l <= 40)%nat -> (Z.abs m <= Z.of_nat l)%Z ->
  exists t, get_real_spherical_harmonic_table st (Z.of_nat l) = Ok t /\
    (forall i, (0 <= i < rt_n t)%Z -> exists rx ry rz y : _,
       aget (rt_comb t) [3 * i]%Z = Ok rx /\ aget (rt_comb t) [3 * i + 1]%Z = Ok ry /\ aget (rt_comb t) [3 * i + 2]%Z = Ok rz /\
       (0 <= rx /\ 0 <= ry /\ 0 <= rz /\ rx + ry + rz = Z.of_nat l)%Z /\
       aget (rt_coef t) [(m + Z.of_nat l) * rt_n t + i]%Z = Ok y /\
       spherical_to_cartesian_coef (Z.of_nat l) m rx ry rz = Ok y) /\
    (forall rx ry rz, (0 <= rx)%Z -> (0 <= ry)%Z -> (0 <= rz)%Z -> (rx + ry + rz = Z.of_nat l)%Z ->
       exists i, (0 <= i < rt_n t)%Z /\ aget (rt_comb t) [3 * i]%Z = Ok rx /\ aget (rt_comb t) [3 * i + 1]%Z = Ok ry /\ aget (rt_comb t) [3 * i + 2]%Z = Ok rz).
Proof.
  intros st l m H Hl Hm. destruct (init_tables_ok st H) as (S0 & M). destruct (get_ok st l S0 ltac:(lia)) as (t & E & Nt & T). exists t. split; [exact E|]. rewrite Nt. split.
  - intros i Hi. destruct (T i Hi) as (A & B & C & D). destruct (nth_canon_up l i Hi) as (r & s & w & En & Hr & Hs & Hw & Hsum). specialize (D m ltac:(lia)).
    rewrite En in A, B, C, D. cbn [fst snd] in A, B, C, D. exists r, s, w, (scoef l m r s). repeat (split; [first [assumption|lia]|]). apply s2c_ok; lia.
  - intros rx ry rz Hx Hy Hz Hs. destruct (find_canon_up l rx ry rz Hx Hy Hz Hs) as (i & Hi & En). exists i. split; [exact Hi|].
    destruct (T i Hi) as (A & B & C & D). rewrite En in A, B, C. cbn [fst snd] in A, B, C. auto.
Qed.

(** the polynomial sum of coef(r,s,t) x^r y^s z^t over all r+s+t = l *)
Definition components_of (l : nat) (comps : list (Z * Z * Z)) : Prop :=
  NoDup comps /\ forall r s t, In (r, s, t) comps <-> (0 <= r /\ 0 <= s /\ 0 <= t /\ r + s + t = Z.of_nat l)%Z.
Definition cart_sum (coef : Z -> Z -> Z -> R) (comps : list (Z * Z * Z)) (x y z : R) : R :=
  fold_right (fun '(r, s, t) acc => coef r s t * x ^ Z.to_nat r * y ^ Z.to_nat s * z ^ Z.to_nat t + acc) 0 comps.

Lemma cart_sum_lsum coef comps x y z : cart_sum coef comps x y z = lsum (fun '(r, s, t) => coef r s t * x ^ Z.to_nat r * y ^ Z.to_nat s * z ^ Z.to_nat t) comps.
Proof. unfold cart_sum, lsum. induction comps as [|[[r s] t] c IH]; [reflexivity|]. cbn [fold_right]. rewrite IH. reflexivity. Qed.

Lemma coefficients_thm : forall l m, (l <= 40)%nat -> (Z.abs m <= Z.of_nat l)%Z ->
  exists coef : Z -> Z -> Z -> R,
    (forall r s t, (0 <= r)%Z -> (0 <= s)%Z -> (0 <= t)%Z -> (r + s + t = Z.of_nat l)%Z -> spherical_to_cartesian_coef (Z.of_nat l) m r s t = Ok (coef r s t)) /\
    forall comps, components_of l comps ->
      (forall x y z, x ^ 2 + y ^ 2 + z ^ 2 = 1 -> cart_sum coef comps x y z = real_sph l m x y z) /\
      harmonic (cart_sum coef comps).
Proof.
  intros l m Hl Hm. exists (fun r s _ => scoef l m r s). split; [intros r s t Hr Hs Ht E; apply s2c_ok; lia|].
  intros comps (ND & Hin). split.
  - intros x y z Hu. rewrite cart_sum_lsum. apply coefficients_sum; assumption.
  - assert (G : forall x y z, cart_sum (fun r s _ => scoef l m r s) comps x y z = cart_poly l m (x, y, z)).
    { intros x y z. rewrite cart_sum_lsum. unfold cart_poly. rewrite (coefficients_homog l m comps x y z Hl Hm ND Hin).
      rewrite (coefficients_homog l m (canon_up (Z.of_nat l)) x y z Hl Hm (nodup_canon_up _) (fun r s t => in_canon_up _ r s t)). reflexivity. }
    destruct (cart_poly_harmonic l m Hl Hm) as (fx & fy & fz & fxx & fyy & fzz & Hh). exists fx, fy, fz, fxx, fyy, fzz. intros x y z.
    destruct (Hh x y z) as (h1 & h2 & h3 & h4 & h5 & h6 & h7).
    split; [eapply is_derive_ext; [|exact h1]; intros; symmetry; apply G|]. split; [exact h2|].
    split; [eapply is_derive_ext; [|exact h3]; intros; symmetry; apply G|]. split; [exact h4|].
    split; [eapply is_derive_ext; [|exact h5]; intros; symmetry; apply G|]. split; [exact h6|exact h7].
Qed.

Definition norm3 (a b c : R) : R := sqrt (a * a + b * b + c * c).
(** the value expected from an evaluation at the vector (a, b, c) *)
Definition sph_value (l : nat) (m : Z) (k : R * R * R) : R :=
  let '(a, b, c) := k in
  if Rlt_dec (1 / 10 ^ 14) (norm3 a b c) then real_sph l m (a / norm3 a b c) (b / norm3 a b c) (c / norm3 a b c)
  else if (l =? 0)%nat then 1 / sqrt (4 * PI) else 0.

Lemma real_sph_0 m x y z : (Z.abs m <= 0)%Z -> real_sph 0 m x y z = 1 / sqrt (4 * PI).
Proof.
  intros Hm. assert (m = 0%Z) as -> by lia. unfold real_sph. cbn. unfold rodrigues. cbn.
  replace ((2 * 0 + 1) / (4 * PI) * 1 / 1) with (/ (4 * PI)) by (field; apply PI_neq0). pose proof PI_RGT_0. rewrite sqrt_inv. field. apply Rgt_not_eq, sqrt_lt_R0. lra.
Qed.

Lemma sph_value_ok l m k : (l <= 40)%nat -> (Z.abs m <= Z.of_nat l)%Z -> cart_poly l m (unit_vector k) = sph_value l m k.
Proof.
  intros Hl Hm. destruct k as [[a b] c]. unfold sph_value. pose proof (unit_vector_norm (a, b, c)) as N. unfold unit_vector in *. unfold norm3. destruct (Rlt_dec _ _) as [H|H].
  - apply cart_poly_unit; [exact Hl|exact Hm|]. destruct N as [(A & B & C)|N]; [exfalso|exact N].
    set (q := sqrt (a * a + b * b + c * c)) in *. assert (0 < q) by (pose proof (pow_lt 10 14 ltac:(lra)); assert (0 < 1 / 10 ^ 14)%R by (apply Rdiv_lt_0_compat; lra); lra).
    assert (Q : q * q = a * a + b * b + c * c) by (apply sqrt_sqrt; pose proof (Rle_0_sqr a); pose proof (Rle_0_sqr b); pose proof (Rle_0_sqr c); unfold Rsqr in *; lra).
    assert (Z1 : forall t, t / q = 0 -> t = 0) by (intros t Ht; apply (Rmult_eq_reg_r (/ q)); [unfold Rdiv in Ht; lra|apply Rinv_neq_0_compat; lra]).
    apply Z1 in A, B, C. subst. nra.
  - clear N. destruct (Nat.eqb_spec l 0) as [-> | Hn].
    + rewrite <- (real_sph_0 m 0 0 1 Hm). rewrite <- (cart_poly_unit 0 m 0 0 1) by (first [lia|ring]). unfold cart_poly. apply OneElInt.lsum_ext. intros [[r s] t] Hin. apply in_canon_up in Hin.
      assert (r = 0 /\ s = 0 /\ t = 0)%Z as (-> & -> & ->) by lia. cbn [Z.to_nat pow]. ring.
    + unfold cart_poly. transitivity (lsum (fun _ : Z * Z * Z => 0) (canon_up (Z.of_nat l))); [|unfold lsum; induction (canon_up (Z.of_nat l)); [reflexivity|cbn [fold_right]; lra]].
      apply OneElInt.lsum_ext. intros [[r s] t] Hin. apply in_canon_up in Hin. assert (P : 0 ^ Z.to_nat r * 0 ^ Z.to_nat s * 0 ^ Z.to_nat t = 0).
      { rewrite <- !pow_add. apply pow_i. lia. } transitivity (scoef l m r s * (0 ^ Z.to_nat r * 0 ^ Z.to_nat s * 0 ^ Z.to_nat t)); [ring|rewrite P; ring].
Qed.

Lemma evaluation_thm : forall st l m k, init_tables st -> (l <= 40)%nat -> (Z.abs m <= Z.of_nat l)%Z ->
  evaluate_real_spherical_harmonic st (Z.of_nat l) m k = Ok (sph_value l m k).
Proof.
  intros st l m k H Hl Hm. destruct (init_tables_ok st H) as (S0 & M). rewrite (evaluate_ok st l m k S0) by lia. rewrite sph_value_ok by assumption. reflexivity.
Qed.

Lemma array_evaluation_thm : forall st l k arr d, init_tables st -> (l <= 40)%nat -> adims arr = [d] -> (2 * Z.of_nat l + 1 <= d)%Z ->
  exists out, evaluate_real_spherical_harmonics_array st (Z.of_nat l) k arr = Ok out /\ adims out = [d] /\
    (forall m, (Z.abs m <= Z.of_nat l)%Z -> aget out [m + Z.of_nat l]%Z = evaluate_real_spherical_harmonic st (Z.of_nat l) m k) /\
    (forall i, (i < 0 \/ 2 * Z.of_nat l < i)%Z -> aget out [i] = aget arr [i]).
Proof.
  intros st l k arr d H Hl Hd Hs. destruct (init_tables_ok st H) as (S0 & M). destruct (evaluate_array_ok st l k arr d S0 ltac:(lia) Hl Hd Hs) as (out & E & D & V & F).
  exists out. split; [exact E|]. split; [exact D|]. split.
  - intros m Hm. rewrite (V m Hm). symmetry. apply evaluate_ok; [exact S0|lia|exact Hl|exact Hm].
  - intros i Hi. apply F. intros m Hm C. injection C as C. lia.
Qed.

Lemma orthonormal_thm : forall l l' m m', (Z.abs m <= Z.of_nat l)%Z -> (Z.abs m' <= Z.of_nat l')%Z ->
  sphere_int (fun x y z => real_sph l m x y z * real_sph l' m' x y z) (if (l =? l')%nat && (m =? m')%Z then 1 else 0).
Proof. exact orthonormal. Qed.

(** ** C58: the angular integrals *)
Lemma angular_type1_thm : forall st l a b c k, init_tables st -> (l <= 40)%nat -> (a + b + c + l <= 29)%nat \/ Nat.odd (a + b + c + l) = true ->
  exists w : Z -> R,
    (forall mu, (Z.abs mu <= Z.of_nat l)%Z -> sphere_int (fun x y z => x ^ a * y ^ b * z ^ c * real_sph l mu x y z) (w mu)) /\
    angular_type1_integral st (Z.of_nat l) (Z.of_nat a) (Z.of_nat b) (Z.of_nat c) k =
      Ok (zsum (- Z.of_nat l) (Z.of_nat l + 1) (fun mu => w mu * sph_value l mu k)).
Proof.
  intros st l a b c k H Hl Hs. destruct (init_tables_ok st H) as (S0 & M). exists (fun mu => moment1 l mu a b c). split.
  - intros mu Hmu. apply (moment1_int l mu a b c Hl Hmu Hs).
  - rewrite (type1_ok st l a b c k S0) by (first [lia|assumption]). f_equal. apply zsum_ext. intros mu Hmu. rewrite sph_value_ok by lia. reflexivity.
Qed.

(** values below 1e-14 are taken as zero *)
Definition significant_value (x : R) : R := if Rlt_dec (Rabs x) (1 / 10 ^ 14) then 0 else x.

Lemma angular_type2_thm : forall st l L m a b c k arr d vals, init_tables st -> (l <= 20)%nat -> (L <= 20)%nat -> (Z.abs m <= Z.of_nat L)%Z ->
  adims arr = [d] -> (2 * Z.of_nat l + 1 <= d)%Z -> evaluate_real_spherical_harmonics_array st (Z.of_nat l) k arr = Ok vals ->
  (a + b + c + l + L <= 29)%nat \/ Nat.odd (a + b + c + l + L) = true ->
  exists w : Z -> R,
    (forall mu, (Z.abs mu <= Z.of_nat l)%Z -> sphere_int (fun x y z => x ^ a * y ^ b * z ^ c * real_sph l mu x y z * real_sph L m x y z) (w mu)) /\
    angular_type2_integral st (Z.of_nat l) (Z.of_nat L) m (Z.of_nat a) (Z.of_nat b) (Z.of_nat c) vals =
      Ok (zsum (- Z.of_nat l) (Z.of_nat l + 1) (fun mu => w mu * significant_value (sph_value l mu k))).
Proof.
  intros st l L m a b c k arr d vals H Hl HL Hm Hd Hs Ev Hp. destruct (init_tables_ok st H) as (S0 & M). exists (fun mu => moment2 l mu L m a b c).
  destruct (evaluate_array_ok st l k arr d S0 ltac:(lia) ltac:(lia) Hd Hs) as (out & E & D & V & F). rewrite E in Ev. injection Ev as <-. split.
  - intros mu Hmu. apply (moment2_int l mu L m a b c); first [lia|assumption].
  - rewrite (type2_ok st l L m a b c out S0); try lia; try assumption.
    + f_equal. apply zsum_ext. intros mu Hmu. f_equal. assert (Hm2 : (Z.abs mu <= Z.of_nat l)%Z) by lia. rewrite (cellv_ok _ _ _ (V mu Hm2)). rewrite sph_value_ok by lia. reflexivity.
    + intros mu Hmu. exists (cart_poly l mu (unit_vector k)). apply V. exact Hmu.
Qed.

(** ** C34 *)
Lemma no_abort_thm : forall st l L m a b c k arr d vals, init_tables st -> (L + (a + b + c) <= 14)%nat -> (l <= L + (a + b + c))%nat -> (Z.abs m <= Z.of_nat L)%Z ->
  adims arr = [d] -> (2 * Z.of_nat l + 1 <= d)%Z -> evaluate_real_spherical_harmonics_array st (Z.of_nat l) k arr = Ok vals ->
  exists v, angular_type2_integral st (Z.of_nat l) (Z.of_nat L) m (Z.of_nat a) (Z.of_nat b) (Z.of_nat c) vals = Ok v.
Proof.
  intros st l L m a b c k arr d vals H Hs Hl Hm Hd Hs2 Ev. destruct (angular_type2_thm st l L m a b c k arr d vals H) as (w & _ & E); try lia; try assumption. eexists; exact E.
Qed.

Definition dec3 : forall a b : Z * Z * Z, {a = b} + {a <> b}.
Proof. decide equality; [apply Z.eq_dec|decide equality; apply Z.eq_dec]. Defined.

Lemma cart_poly_pole l : (l <= 20)%nat -> cart_poly l 0 (0, 0, 1) = scoef l 0 0 0.
Proof.
  intros Hl. unfold cart_poly. destruct (find_canon_up l 0 0 (Z.of_nat l)) as (i & Hi & En); [lia|lia|lia|lia|].
  assert (G : forall c : list (Z * Z * Z), NoDup c -> (forall r s t, In (r, s, t) c -> 0 <= r /\ 0 <= s /\ 0 <= t /\ r + s + t = Z.of_nat l)%Z ->
    lsum (fun '(r, s, t) => scoef l 0 r s * 0 ^ Z.to_nat r * 0 ^ Z.to_nat s * 1 ^ Z.to_nat t) c = if in_dec dec3 (0, 0, Z.of_nat l)%Z c then scoef l 0 0 0 else 0).
  { induction c as [|[[r s] t] c IH]; intros ND Hc; [reflexivity|]. rewrite OneElInt.lsum_cons. inversion ND as [|? ? Hnin ND']; subst.
    rewrite IH by (try assumption; intros; apply Hc; right; assumption). destruct (Hc r s t (or_introl eq_refl)) as (Hr & Hs & Ht & E).
    destruct (in_dec _ (0, 0, Z.of_nat l)%Z c) as [I1|I1]; destruct (in_dec _ (0, 0, Z.of_nat l)%Z ((r, s, t) :: c)) as [I2|I2].
    - assert (r <> 0 \/ s <> 0)%Z as Hne.
      { destruct (Z.eq_dec r 0); [|auto]. destruct (Z.eq_dec s 0); [|auto]. exfalso. apply Hnin. subst. replace t with (Z.of_nat l) by lia. exact I1. }
      destruct Hne; [rewrite (pow_i (Z.to_nat r)) by lia|rewrite (pow_i (Z.to_nat s)) by lia]; ring.
    - exfalso. apply I2. right. exact I1.
    - destruct I2 as [I2|I2]; [|contradiction]. injection I2 as -> -> ->. cbn [Z.to_nat pow]. rewrite pow1. ring.
    - assert (r <> 0 \/ s <> 0)%Z as Hne.
      { destruct (Z.eq_dec r 0); [|auto]. destruct (Z.eq_dec s 0); [|auto]. exfalso. apply I2. left. f_equal; [f_equal|]; lia. }
      destruct Hne; [rewrite (pow_i (Z.to_nat r)) by lia|rewrite (pow_i (Z.to_nat s)) by lia]; ring. }
  rewrite G; [|apply nodup_canon_up|intros r s t Hin; apply in_canon_up in Hin; lia].
  destruct (in_dec _ _ _) as [_|C]; [reflexivity|]. exfalso. apply C. apply in_canon_up. lia.
Qed.

Lemma abort_thm : forall st L n arr d vals, init_tables st -> (L <= 10)%nat -> (n <= 10)%nat -> (15 <= L + n)%nat ->
  adims arr = [d] -> (2 * Z.of_nat (L + n) + 1 <= d)%Z -> evaluate_real_spherical_harmonics_array st (Z.of_nat (L + n)) (0, 0, 1) arr = Ok vals ->
  angular_type2_integral st (Z.of_nat (L + n)) (Z.of_nat L) 0 0 0 (Z.of_nat n) vals = Fail AssertFailed.
Proof.
  intros st L n arr d vals H HL Hn Hs Hd Hs2 Ev. destruct (init_tables_ok st H) as (S0 & M).
  destruct (evaluate_array_ok st (L + n) (0, 0, 1) arr d S0 ltac:(lia) ltac:(lia) Hd Hs2) as (out & E & D & V & F). rewrite E in Ev. injection Ev as <-.
  change 0%Z with (Z.of_nat 0) at 2 3. apply type2_abort; try lia; try assumption; try reflexivity.
  - intros mu Hmu. exists (cart_poly (L + n) mu (unit_vector (0, 0, 1))). apply V. exact Hmu.
  - replace (Z.of_nat (L + n)) with (0 + Z.of_nat (L + n))%Z by lia. assert (H0 : (Z.abs 0 <= Z.of_nat (L + n))%Z) by lia. rewrite (cellv_ok _ _ _ (V 0%Z H0)).
    assert (Q : sqrt (0 * 0 + 0 * 0 + 1 * 1) = 1) by (replace (0 * 0 + 0 * 0 + 1 * 1) with 1 by ring; apply sqrt_1).
    assert (T : 1 / 10 ^ 14 < 1) by (pose proof (pow_lt 10 14 ltac:(lra)); apply (Rmult_lt_reg_r (10 ^ 14)); [lra|]; cbn [pow]; lra).
    rewrite unit_vector_scaled by (rewrite Q; exact T). rewrite Q. replace (0 / 1) with 0 by field. replace (1 / 1) with 1 by field.
    rewrite cart_poly_pole by lia. pose proof (scoef_pole (L + n) ltac:(lia)) as P. apply Rnot_lt_le. apply thresh_lt. exact P.
  - replace (n + (L + n) + L)%nat with (2 * (n + L))%nat by lia. apply Nat.even_spec. exists (n + L)%nat. reflexivity.
Qed.

Lemma abort_refuted_thm : exists st L m a b c l k arr vals, init_tables st /\ (L <= 10)%nat /\ (a + b + c <= 10)%nat /\ (l <= L + (a + b + c))%nat /\ (Z.abs m <= Z.of_nat L)%Z /\
  evaluate_real_spherical_harmonics_array st (Z.of_nat l) k arr = Ok vals /\
  angular_type2_integral st (Z.of_nat l) (Z.of_nat L) m (Z.of_nat a) (Z.of_nat b) (Z.of_nat c) vals = Fail AssertFailed.
Proof.
  destruct init_tables_exist as (st & H). destruct (array_evaluation_thm st 15 (0, 0, 1) (aundef [31%Z]) 31 H ltac:(lia) eq_refl ltac:(lia)) as (vals & E & _).
  exists st, 5%nat, 0%Z, 0%nat, 0%nat, 10%nat, 15%nat, (0, 0, 1), (aundef [31%Z]), vals. split; [exact H|]. repeat (split; [lia|]). split; [exact E|].
  apply (abort_thm st 5 10 (aundef [31%Z]) 31 vals H); try lia; [reflexivity|exact E].
Qed.
