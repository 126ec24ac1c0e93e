(** * spherical_harmonics.c: the tables and the evaluation of the harmonics *)

From Coq Require Import ZArith Reals Lra Lia List Bool.
From Coquelicot Require Import Coquelicot.
From Verif Require Import Base Loops BinomModel BinomProofs CartModel CartProofs OneElModel OneElProofs OneElInt Sums SphModel SphSpec SphPoly SphProofs.
Import ListNotations.
Open Scope Z_scope.

Lemma read_triples_nth n : forall i a l, read_triples n i a = Ok l -> length l = n /\
  forall q d, (q < n)%nat -> aget a [3 * (i + Z.of_nat q)] = Ok (fst (fst (nth q l d))) /\
    aget a [3 * (i + Z.of_nat q) + 1] = Ok (snd (fst (nth q l d))) /\ aget a [3 * (i + Z.of_nat q) + 2] = Ok (snd (nth q l d)).
Proof.
  induction n as [|n IH]; intros i a l H; cbn [read_triples] in H.
  - injection H as <-. split; [reflexivity|]. intros; lia.
  - rewrite Z.add_0_r in H. destruct (aget a [3 * i]) as [x|] eqn:Ex; [|discriminate]. rewrite bind_ok in H.
    destruct (aget a [3 * i + 1]) as [y|] eqn:Ey; [|discriminate]. rewrite bind_ok in H.
    destruct (aget a [3 * i + 2]) as [z|] eqn:Ez; [|discriminate]. rewrite bind_ok in H.
    destruct (read_triples n (i + 1) a) as [rest|] eqn:Er; [|discriminate]. rewrite bind_ok in H. injection H as <-.
    destruct (IH _ _ _ Er) as (Len & Q). split; [cbn [length]; lia|]. intros q d Hq. destruct q as [|q]; cbn [nth fst snd].
    + rewrite Z.add_0_r. auto.
    + replace (i + Z.of_nat (S q)) with (i + 1 + Z.of_nat q) by lia. apply Q. lia.
Qed.

(** a table holding the exponents [canon_up] and the coefficients of the direct formula *)
Definition d3 : Z * Z * Z := (0, 0, 0).
Definition table_ok (l : nat) (t : rsh_table) : Prop :=
  rt_n t = n_cart (Z.of_nat l) /\
  forall i, 0 <= i < n_cart (Z.of_nat l) ->
    aget (rt_comb t) [3 * i] = Ok (fst (fst (nth (Z.to_nat i) (canon_up (Z.of_nat l)) d3))) /\
    aget (rt_comb t) [3 * i + 1] = Ok (snd (fst (nth (Z.to_nat i) (canon_up (Z.of_nat l)) d3))) /\
    aget (rt_comb t) [3 * i + 2] = Ok (snd (nth (Z.to_nat i) (canon_up (Z.of_nat l)) d3)) /\
    forall m, - Z.of_nat l <= m <= Z.of_nat l ->
      aget (rt_coef t) [(m + Z.of_nat l) * n_cart (Z.of_nat l) + i] =
        Ok (scoef l m (fst (fst (nth (Z.to_nat i) (canon_up (Z.of_nat l)) d3))) (snd (fst (nth (Z.to_nat i) (canon_up (Z.of_nat l)) d3)))).

Lemma nth_canon_up l i : 0 <= i < n_cart (Z.of_nat l) -> exists r s t, nth (Z.to_nat i) (canon_up (Z.of_nat l)) d3 = (r, s, t) /\
  0 <= r /\ 0 <= s /\ 0 <= t /\ r + s + t = Z.of_nat l.
Proof.
  intros Hi. destruct (nth (Z.to_nat i) (canon_up (Z.of_nat l)) d3) as [[r s] t] eqn:E. exists r, s, t. split; [reflexivity|].
  apply in_canon_up. rewrite <- E. apply nth_In. pose proof (length_canon_up (Z.of_nat l) ltac:(lia)). lia.
Qed.

Lemma n_cart_nonneg l : 0 <= n_cart (Z.of_nat l).
Proof. pose proof (length_canon_up (Z.of_nat l) ltac:(lia)). lia. Qed.

Lemma idx_inj N a b i j : 0 <= i < N -> 0 <= j < N -> a * N + i = b * N + j -> a = b /\ i = j.
Proof. intros Hi Hj E. assert (a = b) by nia. subst. lia. Qed.

Lemma tabulate_ok l : (l <= 40)%nat -> exists t, tabulate_real_spherical_harmonic_coeffs (Z.of_nat l) = Ok t /\ table_ok l t.
Proof.
  intros Hl. unfold tabulate_real_spherical_harmonic_coeffs. destruct (generate_combinations_canon (Z.of_nat l) ltac:(lia)) as (a & -> & Da & Ra). rewrite bind_ok.
  cbv zeta. set (N := n_cart (Z.of_nat l)) in *. pose proof (n_cart_nonneg l) as HN. fold N in HN.
  pose proof (length_canon_up (Z.of_nat l) ltac:(lia)) as Len. fold N in Len. destruct (read_triples_nth _ _ _ _ Ra) as (_ & Q).
  assert (Q' : forall i, 0 <= i < N -> aget a [3 * i] = Ok (fst (fst (nth (Z.to_nat i) (canon_up (Z.of_nat l)) d3))) /\
     aget a [3 * i + 1] = Ok (snd (fst (nth (Z.to_nat i) (canon_up (Z.of_nat l)) d3))) /\
     aget a [3 * i + 2] = Ok (snd (nth (Z.to_nat i) (canon_up (Z.of_nat l)) d3))).
  { intros i Hi. specialize (Q (Z.to_nat i) d3 ltac:(lia)). replace (0 + Z.of_nat (Z.to_nat i)) with i in Q by lia. exact Q. }
  destruct (loop2_all (- Z.of_nat l) (Z.of_nat l + 1) 0 N (fun c : arr R => adims c = [(2 * Z.of_nat l + 1) * N])
    (fun m i c => aget c [(m + Z.of_nat l) * N + i] = Ok (scoef l m (fst (fst (nth (Z.to_nat i) (canon_up (Z.of_nat l)) d3))) (snd (fst (nth (Z.to_nat i) (canon_up (Z.of_nat l)) d3)))))
    (fun m icomb coeffs =>
      let* lx := aget a [3 * icomb] in
      let* ly := aget a [3 * icomb + 1] in
      let* lz := aget a [3 * icomb + 2] in
      let* u := spherical_to_cartesian_coef (Z.of_nat l) m lx ly lz in
      aset coeffs [(m + Z.of_nat l) * N + icomb] u) (aconst [(2 * Z.of_nat l + 1) * N] 0%R)) as (c & E & D & V).
  - lia.
  - lia.
  - reflexivity.
  - intros m i c Hm Hi Dc. destruct (Q' i Hi) as (-> & -> & ->). rewrite !bind_ok.
    destruct (nth_canon_up l i Hi) as (r & s & t & -> & Hr & Hs & Ht & Hrst). cbn [fst snd].
    rewrite s2c_ok by lia. rewrite bind_ok.
    destruct (aset_get c [(m + Z.of_nat l) * N + i] (scoef l m r s)) as (c' & E & D' & G & K).
    { rewrite Dc. apply inb1. nia. }
    exists c'. split; [exact E|]. split; [congruence|]. split; [exact G|]. intros m' i' Hm' Hi' Hne P. rewrite K; [exact P|].
    intros X. injection X as X. apply idx_inj in X; [|exact Hi'|exact Hi]. destruct X as (X1 & X2). apply Hne. f_equal; lia.
  - rewrite E, bind_ok. eexists. split; [reflexivity|]. split; [reflexivity|]. cbn [rt_comb rt_coef]. fold N. intros i Hi. destruct (Q' i Hi) as (A & B & C).
    split; [exact A|]. split; [exact B|]. split; [exact C|]. intros m Hm. apply V; lia.
Qed.

(** a store holding correct tables for 0..lmax *)
Definition store_ok (st : rsh_store) : Prop := forall l t, nth_error st l = Some t -> table_ok l t.

Lemma create_ok Lmax st : Lmax <= 40 -> store_ok st -> exists st', create_real_spherical_harmonic_coeffs_tables Lmax st = Ok st' /\
  store_ok st' /\ rsh_lmax st' = Z.max Lmax (rsh_lmax st) /\ exists ext, st' = st ++ ext.
Proof.
  intros HL S0. unfold create_real_spherical_harmonic_coeffs_tables. destruct (Z.leb_spec Lmax (rsh_lmax st)).
  { exists st. split; [reflexivity|]. split; [exact S0|]. split; [lia|]. exists []. rewrite app_nil_r. reflexivity. }
  destruct (for_range_ok (fun L s => store_ok s /\ rsh_lmax s = L - 1 /\ exists ext, s = st ++ ext) (rsh_lmax st + 1) (Lmax + 1)
     (fun L st => let* t := tabulate_real_spherical_harmonic_coeffs L in Ok (st ++ [t])) st) as (s' & E & S' & M & X).
  - lia.
  - split; [exact S0|]. split; [lia|]. exists []. rewrite app_nil_r. reflexivity.
  - intros L s HLr (Ss & M & ext & Ex). unfold rsh_lmax in *. assert (0 <= L) by lia.
    destruct (tabulate_ok (Z.to_nat L) ltac:(lia)) as (t & Et & Tt). rewrite Z2Nat.id in Et by lia. rewrite Et, bind_ok. eexists. split; [reflexivity|]. split; [|split].
    + intros k tk Hk. destruct (Nat.lt_ge_cases k (length s)) as [Hlt|Hge].
      * rewrite nth_error_app1 in Hk by exact Hlt. exact (Ss k tk Hk).
      * rewrite nth_error_app2 in Hk by exact Hge. destruct (k - length s)%nat as [|q] eqn:Eq.
        -- cbn in Hk. injection Hk as <-. replace k with (Z.to_nat L) by lia. exact Tt.
        -- cbn in Hk. destruct q; discriminate.
    + rewrite app_length. cbn [length]. lia.
    + exists (ext ++ [t]). rewrite Ex, <- app_assoc. reflexivity.
  - exists s'. split; [exact E|]. split; [exact S'|]. split; [lia|exact X].
Qed.

Lemma get_ok st l : store_ok st -> Z.of_nat l <= rsh_lmax st -> exists t, get_real_spherical_harmonic_table st (Z.of_nat l) = Ok t /\ table_ok l t.
Proof.
  intros S0 Hl. unfold get_real_spherical_harmonic_table. destruct (Z.gtb_spec (Z.of_nat l) (rsh_lmax st)); [lia|].
  destruct (Z.ltb_spec (Z.of_nat l) 0); [lia|]. rewrite Nat2Z.id. unfold rsh_lmax in *.
  destruct (nth_error st l) as [t|] eqn:E; [|apply nth_error_None in E; lia]. exists t. split; [reflexivity|]. exact (S0 l t E).
Qed.

(** ** Evaluation *)
Lemma powers_ok l x : 0 <= l < 200 -> exists a, powers_table l x = Ok a /\ forall i, 0 <= i <= l -> aget a [i] = Ok (x ^ Z.to_nat i)%R.
Proof.
  intros Hl. unfold powers_table. destruct (aset_get (aundef [200] : arr R) [0] 1%R) as (a0 & -> & D0 & G0 & K0).
  { apply inb1. lia. } rewrite bind_ok.
  destruct (for_range_ok (fun k (a : arr R) => adims a = [200] /\ forall i, 0 <= i < k -> aget a [i] = Ok (x ^ Z.to_nat i)%R) 1 (l + 1)
    (fun i a => let* p := aget a [i - 1] in aset a [i] (p * x)%R) a0) as (a & E & D & V).
  - lia.
  - split; [exact D0|]. intros i Hi. replace i with 0 by lia. exact G0.
  - intros k a Hk (D & V). rewrite V, bind_ok by lia. destruct (aset_get a [k] (x ^ Z.to_nat (k - 1) * x)%R) as (a' & E & D' & G & K).
    { rewrite D. apply inb1. lia. }
    exists a'. split; [exact E|]. split; [congruence|]. intros i Hi. destruct (Z.eq_dec i k) as [-> | Hn].
    + rewrite G. f_equal. replace (Z.to_nat k) with (S (Z.to_nat (k - 1))) by lia. cbn [pow]. ring.
    + rewrite K by congruence. apply V. lia.
  - exists a. split; [exact E|]. intros i Hi. apply V. lia.
Qed.

(** the polynomial of the table *)
Definition cart_poly (l : nat) (m : Z) (k : R * R * R) : R :=
  let '(x, y, z) := k in
  lsum (fun '(r, s, t) => scoef l m r s * x ^ Z.to_nat r * y ^ Z.to_nat s * z ^ Z.to_nat t)%R (canon_up (Z.of_nat l)).

Lemma cart_poly_sum l m x y z : cart_poly l m (x, y, z) = zsum 0 (n_cart (Z.of_nat l)) (fun i =>
  let '(r, s, t) := nth (Z.to_nat i) (canon_up (Z.of_nat l)) d3 in (scoef l m r s * x ^ Z.to_nat r * y ^ Z.to_nat s * z ^ Z.to_nat t)%R).
Proof.
  unfold cart_poly. rewrite <- (length_canon_up (Z.of_nat l)) by lia. rewrite <- (zsum_lsum _ d3). reflexivity.
Qed.

Lemma evaluate_ok st l m k : store_ok st -> Z.of_nat l <= rsh_lmax st -> (l <= 40)%nat -> Z.abs m <= Z.of_nat l ->
  evaluate_real_spherical_harmonic st (Z.of_nat l) m k = Ok (cart_poly l m (unit_vector k)).
Proof.
  intros S0 Hl Hl40 Hm. unfold evaluate_real_spherical_harmonic. destruct (get_ok st l S0 Hl) as (t & -> & Tn & T). rewrite bind_ok.
  destruct (unit_vector k) as [[x y] z]. destruct (powers_ok (Z.of_nat l) x ltac:(lia)) as (px & -> & Px).
  destruct (powers_ok (Z.of_nat l) y ltac:(lia)) as (py & -> & Py). destruct (powers_ok (Z.of_nat l) z ltac:(lia)) as (pz & -> & Pz). rewrite !bind_ok.
  cbv zeta. rewrite Tn, cart_poly_sum. set (N := n_cart (Z.of_nat l)) in *.
  rewrite (acc_loop 0 N _ (fun i => let '(r, s, t) := nth (Z.to_nat i) (canon_up (Z.of_nat l)) d3 in (scoef l m r s * x ^ Z.to_nat r * y ^ Z.to_nat s * z ^ Z.to_nat t)%R)).
  - f_equal. ring.
  - apply n_cart_nonneg.
  - intros i v Hi. destruct (T i Hi) as (-> & -> & -> & C). rewrite !bind_ok. rewrite C by lia. rewrite bind_ok.
    destruct (nth_canon_up l i Hi) as (r & s & w & -> & Hr & Hs & Ht & Hrst). cbn [fst snd].
    rewrite Px, Py, Pz by lia. rewrite !bind_ok. reflexivity.
Qed.

Lemma evaluate_array_ok st l k arr d : store_ok st -> Z.of_nat l <= rsh_lmax st -> (l <= 40)%nat -> adims arr = [d] -> 2 * Z.of_nat l + 1 <= d ->
  exists out, evaluate_real_spherical_harmonics_array st (Z.of_nat l) k arr = Ok out /\ adims out = [d] /\
    (forall m, Z.abs m <= Z.of_nat l -> aget out [m + Z.of_nat l] = Ok (cart_poly l m (unit_vector k))) /\
    (forall ix, (forall m, Z.abs m <= Z.of_nat l -> ix <> [m + Z.of_nat l]) -> aget out ix = aget arr ix).
Proof.
  intros S0 Hl Hl40 Da Hd. unfold evaluate_real_spherical_harmonics_array. destruct (get_ok st l S0 Hl) as (t & -> & Tn & T). rewrite bind_ok.
  destruct (unit_vector k) as [[x y] z]. destruct (powers_ok (Z.of_nat l) x ltac:(lia)) as (px & -> & Px).
  destruct (powers_ok (Z.of_nat l) y ltac:(lia)) as (py & -> & Py). destruct (powers_ok (Z.of_nat l) z ltac:(lia)) as (pz & -> & Pz). rewrite !bind_ok.
  destruct (memset0_get (2 * Z.of_nat l + 1) d arr Da ltac:(lia)) as (M & -> & DM & Z0 & FM). rewrite bind_ok. cbv zeta. rewrite Tn.
  set (N := n_cart (Z.of_nat l)) in *.
  pose (term := fun i m => let '(r, s, t) := nth (Z.to_nat i) (canon_up (Z.of_nat l)) d3 in (scoef l m r s * x ^ Z.to_nat r * y ^ Z.to_nat s * z ^ Z.to_nat t)%R).
  pose (Inv := fun o : Base.arr R => adims o = [d] /\ (forall m, Z.abs m <= Z.of_nat l -> readable o [m + Z.of_nat l]) /\
     (forall ix, (forall m, Z.abs m <= Z.of_nat l -> ix <> [m + Z.of_nat l]) -> aget o ix = aget arr ix)).
  match goal with |- context [for_range 0 N ?b M] => set (body := b) end.
  destruct (loop_sum 0 N Inv (fun m => Z.abs m <= Z.of_nat l) (fun o m => cellv o [m + Z.of_nat l]) term body M) as (o & E & (Do & Ro & Fo) & V).
  - apply n_cart_nonneg.
  - split; [exact DM|]. split.
    + intros m Hm. eexists. apply Z0. lia.
    + intros ix Hix. apply FM. intros q Hq. replace q with (q - Z.of_nat l + Z.of_nat l) by lia. apply Hix. lia.
  - intros i o Hi (Do & Ro & Fo). unfold body. destruct (T i Hi) as (-> & -> & -> & C). rewrite !bind_ok.
    unfold term. destruct (nth_canon_up l i Hi) as (r & s & w & En & Hr & Hs & Ht & Hrst). rewrite En in C |- *. cbn [fst snd] in *.
    rewrite Px, Py, Pz by lia. rewrite !bind_ok. cbv zeta.
    match goal with |- context [for_range _ _ ?b o] => set (body1 := b) end.
    destruct (loop1_upd (- Z.of_nat l) (Z.of_nat l + 1) Inv (fun m => Z.abs m <= Z.of_nat l) (fun i m => m = i) (fun o m => cellv o [m + Z.of_nat l])
      (fun m v => v + scoef l m r s * x ^ Z.to_nat r * y ^ Z.to_nat s * z ^ Z.to_nat w)%R body1 o) as (o' & E & I' & V & _).
    + lia.
    + split; [exact Do|]. split; [exact Ro|exact Fo].
    + intros i1 j1 m _ _ -> ->. reflexivity.
    + intros m o1 Hm (D1 & R1 & F1). unfold body1. rewrite C by lia. rewrite bind_ok. rewrite (readable_cellv o1 [m + Z.of_nat l]) by (apply R1; lia). rewrite bind_ok.
      edestruct (aset_get o1 [m + Z.of_nat l]) as (o2 & E & D2 & G & K); [rewrite D1; apply inb1; lia|]. rewrite E. exists o2. split; [reflexivity|]. split; [split; [congruence|split]|split].
      * intros m' Hm'. destruct (Z.eq_dec m' m) as [-> | Hn]; [eexists; exact G|]. destruct (R1 m' Hm') as (v & Ev). exists v. rewrite K; [exact Ev|]. intros X; injection X; lia.
      * intros ix Hix. rewrite K; [apply F1; exact Hix|]. apply Hix. lia.
      * intros m' Hm' ->. rewrite (cellv_ok _ _ _ G). ring.
      * intros m' Hm' Hn. unfold cellv. rewrite K; [reflexivity|]. intros X; injection X; lia.
    + intros i1 m. destruct (Z.eq_dec m i1); [left|right]; assumption.
    + exists o'. split; [exact E|]. split; [exact I'|]. intros m Hm. apply (V m); [lia|exact Hm|reflexivity].
  - exists o. split; [exact E|]. split; [exact Do|]. split; [|exact Fo]. intros m Hm. rewrite (readable_cellv _ _ (Ro m Hm)). f_equal. rewrite (V m Hm).
    rewrite (cellv_ok M _ 0%R) by (apply Z0; lia). rewrite cart_poly_sum. fold N. unfold term. ring.
Qed.

(** ** Values *)
Lemma unit_vector_norm k : match unit_vector k with (x, y, z) => (x = 0 /\ y = 0 /\ z = 0 \/ x ^ 2 + y ^ 2 + z ^ 2 = 1)%R end.
Proof.
  destruct k as [[a b] c]. unfold unit_vector. destruct (Rlt_dec _ _) as [H|H]; [right|left; auto].
  set (q := sqrt (a * a + b * b + c * c)) in *. assert (0 < q)%R by (pose proof (pow_lt 10 14 ltac:(lra)); assert (0 < 1 / 10 ^ 14)%R by (apply Rdiv_lt_0_compat; lra); lra).
  assert (Q : (q * q = a * a + b * b + c * c)%R) by (apply sqrt_sqrt; pose proof (Rle_0_sqr a); pose proof (Rle_0_sqr b); pose proof (Rle_0_sqr c); unfold Rsqr in *; lra).
  transitivity ((a * a + b * b + c * c) / (q * q))%R; [field; lra|]. rewrite <- Q. field. lra.
Qed.

Lemma unit_vector_scaled a b c : (1 / 10 ^ 14 < sqrt (a * a + b * b + c * c))%R ->
  unit_vector (a, b, c) = (a / sqrt (a * a + b * b + c * c), b / sqrt (a * a + b * b + c * c), c / sqrt (a * a + b * b + c * c))%R.
Proof. intros H. unfold unit_vector. destruct (Rlt_dec _ _); [reflexivity|contradiction]. Qed.

Lemma cart_poly_unit l m x y z : (l <= 40)%nat -> Z.abs m <= Z.of_nat l -> (x ^ 2 + y ^ 2 + z ^ 2 = 1)%R -> cart_poly l m (x, y, z) = real_sph l m x y z.
Proof.
  intros Hl Hm Hu. unfold cart_poly. apply coefficients_sum; [exact Hl|exact Hm|apply nodup_canon_up| |exact Hu].
  intros r s t. apply in_canon_up.
Qed.
