(** * Tables of radial integrals: proofs *)

From Coq Require Import ZArith Reals Lra Lia List Bool.
From Coquelicot Require Import Coquelicot.
From Verif Require Import Base Loops Sums BinomModel BinomProofs HeapModel OneElModel OneElProofs OneElInt ParamsModel NucPotSpec NucPot GaussMoment RadialModel RadialSpec RadialProofs.
Import ListNotations.
Open Scope R_scope.

(** ** Type 1 *)
Lemma adaptive_ext cap mn f g s tol v c : (forall r, f r = g r) -> adaptive cap mn f s tol v c -> adaptive cap mn g s tol v c.
Proof.
  intros E. assert (Q : forall n, quadrature f n = quadrature g n) by (intros n; unfold quadrature; f_equal; apply zsum_ext; intros i _; cbv zeta; rewrite E; reflexivity).
  assert (A : forall j, accepted f mn s tol j <-> accepted g mn s tol j) by (intros j; unfold accepted; rewrite !Q; reflexivity).
  intros (k & V & C & H). exists k. rewrite <- Q. split; [exact V|]. split; [exact C|]. destruct c.
  - destruct H as (s' & -> & Acc & N). exists s'. split; [reflexivity|]. split; [apply A, Acc|]. intros j Hj X. apply (N j Hj), A, X.
  - destruct H as (H & N). split; [exact H|]. intros j Hj X. apply (N j Hj), A, X.
Qed.

Lemma type1_table fuel par bessel p lmax : (0 <= lmax)%Z -> (14 <= fuel)%nat ->
  exists t, tabulate_radial_type1_integrals fuel par bessel p lmax lmax = Ok t /\
    forall l n, (0 <= l <= lmax)%Z -> (0 <= n <= lmax)%Z -> exists v c, get_radial_type1_integral t l n = Ok v /\
      adaptive 10000 2047 (type1_integrand bessel (r1_pot p) (r1_k p) (r1_alpha_A p) (r1_alpha_B p) (r1_CA_2 p) (r1_CB_2 p) (r1_prefactor p) l n) None (par_radial par) v c.
Proof.
  intros Hl Hf. unfold tabulate_radial_type1_integrals. set (gp := gparams1 bessel p lmax lmax).
  destruct (create_valid min_grid_1 gp) as (g0 & E0 & V0); [unfold min_grid_1, max_grid; lia|cbn; lia..|].
  rewrite E0, bind_ok.
  destruct (loop2_all 0 (lmax + 1) 0 (lmax + 1)
    (fun st : arr R * rgrid => adims (fst st) = [(lmax + 1) * (lmax + 1)]%Z /\ exists s, valid min_grid_1 gp s (snd st))
    (fun l n st => exists v c, aget (fst st) [l * (lmax + 1) + n]%Z = Ok v /\ adaptive max_grid min_grid_1 (integrand gp n 0 l) None (par_radial par) v c)
    (fun lambda n st => let '(data, g) := st in
      let* (Q, _, g) := calculate_radial fuel min_grid_1 gp None (par_radial par) n 0 lambda g in
      let* data := aset data [lambda * (lmax + 1) + n]%Z Q in Ok (data, g))
    (aconst [(lmax + 1) * (lmax + 1)]%Z 0, g0)) as ([data g'] & E & _ & P).
  - lia.
  - lia.
  - split; [reflexivity|]. exists 0%nat. exact V0.
  - intros l n [d g] Hl' Hn' (D & s & V). cbn [fst snd] in D, V.
    destruct (calculate_ok fuel min_grid_1 gp None (par_radial par) n 0 l s g) as (v & c & g1 & s1 & E1 & V1 & A1); [unfold min_grid_1, max_grid; lia|cbn; lia|cbn; lia|cbn; lia|exact Hf|exact V|].
    rewrite E1, bind_ok. destruct (aset_get d [l * (lmax + 1) + n]%Z v) as (d' & -> & D' & G & K); [rewrite D; apply inb1; nia|].
    exists (d', g1). split; [reflexivity|]. cbn [fst snd]. split; [split; [congruence|exists s1; exact V1]|]. split; [exists v, c; split; [exact G|exact A1]|].
    intros l' n' Hl2 Hn2 Hne (v' & c' & G' & A'). exists v', c'. split; [|exact A']. rewrite K; [exact G'|]. intros X. injection X as X. apply Hne.
    assert (l' = l) by nia. subst l'. f_equal. lia.
  - rewrite E, bind_ok. eexists. split; [reflexivity|]. intros l n Hl' Hn'. destruct (P l n ltac:(lia) ltac:(lia)) as (v & c & G & A).
    exists v, c. split; [exact G|]. revert A. unfold max_grid, min_grid_1. apply adaptive_ext. intros r. unfold integrand, type1_integrand, gp, gparams1, radial_type1_integrand_fun. cbn.
    replace (r * r1_k p) with (r1_k p * r) by ring. replace (r1_k p * r - (r1_alpha_A p + r1_alpha_B p) * (r * (r * 1))) with (r1_k p * r - (r1_alpha_A p + r1_alpha_B p) * r * r) by ring. reflexivity.
Qed.

(** with fewer powers than angular momenta the index runs out of the table *)
Lemma type1_table_oob fuel par bessel p lmax nmax : (0 <= nmax < lmax)%Z -> (14 <= fuel)%nat ->
  tabulate_radial_type1_integrals fuel par bessel p lmax nmax = Fail OutOfBounds.
Proof.
  intros Hn Hf. unfold tabulate_radial_type1_integrals. set (gp := gparams1 bessel p lmax nmax).
  destruct (create_valid min_grid_1 gp) as (g0 & E0 & V0); [unfold min_grid_1, max_grid; lia|cbn; lia..|].
  rewrite E0, bind_ok.
  set (Inv := fun st : arr R * rgrid => adims (fst st) = [(lmax + 1) * (nmax + 1)]%Z /\ exists s, valid min_grid_1 gp s (snd st)).
  assert (B : forall l n st, (0 <= l < lmax + 1)%Z -> (0 <= n < nmax + 1)%Z -> Inv st -> exists v g1, (exists s1, valid min_grid_1 gp s1 g1) /\
     (let '(data, g) := st in
      let* (Q, _, g) := calculate_radial fuel min_grid_1 gp None (par_radial par) n 0 l g in
      let* data := aset data [l * (lmax + 1) + n]%Z Q in Ok (data, g)) = (let* data := aset (fst st) [l * (lmax + 1) + n]%Z v in Ok (data, g1))).
  { intros l n [d g] Hl' Hn' (D & s & V). cbn [fst snd] in D, V.
    destruct (calculate_ok fuel min_grid_1 gp None (par_radial par) n 0 l s g) as (v & c & g1 & s1 & E1 & V1 & A1); [unfold min_grid_1, max_grid; lia|cbn; lia|cbn; lia|cbn; lia|exact Hf|exact V|].
    exists v, g1. split; [exists s1; exact V1|]. rewrite E1, bind_ok. reflexivity. }
  assert (C : forall l n st, (0 <= l < lmax + 1)%Z -> (0 <= n < nmax + 1)%Z -> Inv st ->
     (exists st', (let '(data, g) := st in
      let* (Q, _, g) := calculate_radial fuel min_grid_1 gp None (par_radial par) n 0 l g in
      let* data := aset data [l * (lmax + 1) + n]%Z Q in Ok (data, g)) = Ok st' /\ Inv st') \/
     (let '(data, g) := st in
      let* (Q, _, g) := calculate_radial fuel min_grid_1 gp None (par_radial par) n 0 l g in
      let* data := aset data [l * (lmax + 1) + n]%Z Q in Ok (data, g)) = Fail OutOfBounds).
  { intros l n st Hl' Hn' I0. destruct (B l n st Hl' Hn' I0) as (v & g1 & V1 & EQ). rewrite EQ. destruct I0 as (D & _).
    destruct (inb (adims (fst st)) [l * (lmax + 1) + n]%Z) eqn:Eb.
    - destruct (aset_get (fst st) [l * (lmax + 1) + n]%Z v Eb) as (d' & -> & D' & _). left. exists (d', g1). split; [reflexivity|]. split; [cbn; congruence|exact V1].
    - right. unfold aset. rewrite Eb. reflexivity. }
  match goal with |- bind ?X _ = _ => replace X with (@Fail (arr R * rgrid) OutOfBounds); [reflexivity|symmetry] end.
  apply (for_range_fail_some Inv).
  - split; [reflexivity|exists 0%nat; exact V0].
  - intros l st Hl' I0. apply (for_range_ok_or Inv); [exact I0|]. intros n st' Hn' I1. apply C; assumption.
  - exists (nmax + 1)%Z. split; [lia|]. intros st I0. apply (for_range_fail_some Inv); [exact I0|intros n st' Hn' I1; apply C; try assumption; lia|].
    exists 0%Z. split; [lia|]. intros st' I1. destruct (B (nmax + 1)%Z 0%Z st' ltac:(lia) ltac:(lia) I1) as (v & g1 & _ & ->). destruct I1 as (D & _).
    unfold aset. rewrite D. replace (inb [(lmax + 1) * (nmax + 1)]%Z [(nmax + 1) * (lmax + 1) + 0]%Z) with false; [reflexivity|].
    symmetry. cbn [inb]. apply andb_false_iff. left. apply andb_false_iff. right. apply Z.ltb_ge. lia.
Qed.

(** ** Moments *)
Lemma gaussian_integral_ok n a : (0 <= n <= 31)%Z -> 0 < a -> gaussian_integral n a = Ok (gmom (Z.to_nat n) a).
Proof.
  intros Hn Ha. unfold gaussian_integral. rewrite Z.rem_mod_nonneg by lia. destruct (Z.eqb_spec (n mod 2) 0) as [E|E].
  - rewrite Z.quot_div_nonneg by lia. rewrite double_factorial_ok by (Z.div_mod_to_equations; lia). rewrite bind_ok. f_equal.
    set (k := Z.to_nat (n / 2)). assert (Hk : n = (2 * Z.of_nat k)%Z) by (unfold k; rewrite Z2Nat.id by (apply Z.div_pos; lia); Z.div_mod_to_equations; lia).
    replace (n / 2)%Z with (Z.of_nat k) by (unfold k; rewrite Z2Nat.id by (apply Z.div_pos; lia); reflexivity).
    replace (Z.to_nat n) with (2 * k)%nat by lia. rewrite gmom_even by exact Ha. replace (Z.to_nat (2 * Z.of_nat k - 1)) with (2 * k - 1)%nat by lia.
    replace (Z.of_nat k + 1)%Z with (Z.of_nat (k + 1)) by lia. rewrite <- !pow_powerRZ. reflexivity.
  - assert (1 <= n)%Z by (destruct (Z.eq_dec n 0) as [-> | ?]; [exfalso; apply E; reflexivity|lia]). rewrite Z.quot_div_nonneg by lia. rewrite factorial_ok by (Z.div_mod_to_equations; lia). rewrite bind_ok. f_equal.
    set (k := Z.to_nat ((n - 1) / 2)). assert (Hk : n = (2 * Z.of_nat k + 1)%Z) by (unfold k; rewrite Z2Nat.id by (Z.div_mod_to_equations; lia); Z.div_mod_to_equations; lia).
    replace ((n - 1) / 2)%Z with (Z.of_nat k) by (unfold k; rewrite Z2Nat.id by (Z.div_mod_to_equations; lia); reflexivity).
    replace (Z.to_nat n) with (2 * k + 1)%nat by lia. rewrite gmom_odd by exact Ha.
    replace (Z.of_nat k + 1)%Z with (Z.of_nat (k + 1)) by lia. rewrite <- !pow_powerRZ. reflexivity.
Qed.

Lemma gaussian_integral_abort n a : (32 <= n)%Z -> Z.even n = true -> gaussian_integral n a = Fail AssertFailed.
Proof.
  intros Hn E. unfold gaussian_integral. rewrite Z.rem_mod_nonneg by lia. rewrite Zeven_mod in E. apply Zeq_bool_eq in E. rewrite E. cbn [Z.eqb].
  rewrite Z.quot_div_nonneg by lia. rewrite double_factorial_abort by (Z.div_mod_to_equations; lia). reflexivity.
Qed.

(** ** Screening never faults *)
Definition powers_in (pot : pprims) (nmax : Z) : Prop := forall ni c a, In (ni, c, a) pot -> (0 <= ni /\ ni + nmax <= 31)%Z.
Definition exponents_pos (f : prims) : Prop := forall c a, In (c, a) f -> 0 < a.
Definition pot_exponents (pot : pprims) : Prop := forall ni c a, In (ni, c, a) pot -> 0 <= a.

Lemma screening_ok bessel erf CA_2 CB_2 bra ket pot l1 l2 n nmax : (0 <= n <= nmax)%Z -> powers_in pot nmax -> exponents_pos bra -> exponents_pos ket -> pot_exponents pot ->
  exists s, screening_radial_type2 bessel erf CA_2 CB_2 bra ket pot l1 l2 n = Ok s.
Proof.
  intros Hn HP HB HK HE. unfold screening_radial_type2. generalize (Some 0). 
  assert (HL : forall x, In x (list_prod (list_prod bra ket) pot) -> In (fst (fst x)) bra /\ In (snd (fst x)) ket /\ In (snd x) pot).
  { intros [[b k] q] H. apply in_prod_iff in H. destruct H as [H ?]. apply in_prod_iff in H. destruct H. auto. }
  induction (list_prod (list_prod bra ket) pot) as [|[[[ci aa] [cj ab]] [[ni ck] eta]] l IH]; intros acc; cbn [screening_loop]; [eexists; reflexivity|].
  destruct (HL ((ci, aa), (cj, ab), (ni, ck, eta)) (or_introl eq_refl)) as (H1 & H2 & H3). cbn [fst snd] in H1, H2, H3.
  assert (IH' : forall acc, exists s, screening_loop (fun '((ci, aa), (cj, ab), (ni, ck, eta)) =>
    screening_radial_type2_integral_primitive bessel erf l1 l2 (n + ni) CA_2 CB_2 aa ab (2 * aa * sqrt CA_2) (2 * ab * sqrt CB_2) eta) l acc = Ok s).
  { intros a0. apply IH. intros x Hx. apply HL. right. exact Hx. }
  assert (G : exists s, screening_radial_type2_integral_primitive bessel erf l1 l2 (n + ni) CA_2 CB_2 aa ab (2 * aa * sqrt CA_2) (2 * ab * sqrt CB_2) eta = Ok s).
  { unfold screening_radial_type2_integral_primitive. destruct (_ && _); [eexists; reflexivity|]. destruct (_ && _); [eexists; reflexivity|]. destruct (_ && _).
    - rewrite gaussian_integral_ok; [eexists; reflexivity|pose proof (HP _ _ _ H3); lia|]. pose proof (HB _ _ H1). pose proof (HK _ _ H2). pose proof (HE _ _ _ H3). lra.
    - destruct (find_maximum _ _ _); eexists; reflexivity. }
  destruct G as (s & ->). rewrite bind_ok. destruct s; [eexists; reflexivity|apply IH'|apply IH'].
Qed.

(** ** Folds *)
Lemma fold_lsum {A} (f : A -> R) (l : list A) v : fold_left (fun v x => v + f x) l v = v + lsum f l.
Proof. revert v. induction l as [|x l IH]; intros v; cbn [fold_left]; [cbn; ring|]. rewrite IH, lsum_cons. ring. Qed.

Lemma pot_value_rpp pot r : pot_value (shrink_pot pot) r = rpp pot r.
Proof.
  unfold pot_value, rpp. transitivity (fold_left (fun v x => v + (fun '(n, c, a) => c * rpow_int r (n - 2) * exp (- a * (r * r))) x) (shrink_pot pot) 0).
  { generalize 0 as v. induction (shrink_pot pot) as [|[[n c] a] l IH]; intros v; cbn [fold_left]; [reflexivity|apply IH]. }
  rewrite fold_lsum, Rplus_0_l. unfold shrink_pot. induction pot as [|[[n c] a] l IH]; [reflexivity|]. cbn [filter]. rewrite (lsum_cons _ (n, c, a) l). unfold matters at 1.
  destruct (Rlt_dec _ _); [rewrite lsum_cons|]; rewrite IH; [reflexivity|ring].
Qed.

Lemma contracted_radial bessel L f C l r : radial_type2_integrand_fun_contracted bessel (shrink_norm L f) C l r = radial_function bessel L f C l r.
Proof.
  unfold radial_type2_integrand_fun_contracted, radial_function.
  transitivity (fold_left (fun v x => v + (fun '(c, a) => c * exp (- a * ((r - C) * (r - C))) * bessel l (2 * a * C * r)) x) (shrink_norm L f) 0).
  { generalize 0 as v. induction (shrink_norm L f) as [|[c a] k IH]; intros v; cbn [fold_left]; [reflexivity|apply IH]. }
  rewrite fold_lsum, Rplus_0_l. unfold shrink_norm. induction f as [|[c a] k IH]; [reflexivity|]. cbn [filter]. rewrite (lsum_cons _ (c, a) k). unfold matters at 1.
  destruct (Rlt_dec _ _); [cbn [map]; rewrite lsum_cons|]; rewrite IH; [reflexivity|ring].
Qed.

Lemma in_shrink_norm L f c a : In (c, a) (shrink_norm L f) -> exists c', In (c', a) f.
Proof. unfold shrink_norm. intros H. apply in_map_iff in H. destruct H as ([c' a'] & E & H). injection E as _ <-. apply filter_In in H. exists c'. apply H. Qed.

(** ** Type 2 *)
Lemma idx2_inj d2 dn a b n a' b' n' : (0 <= b < d2)%Z -> (0 <= b' < d2)%Z -> (0 <= n < dn)%Z -> (0 <= n' < dn)%Z ->
  (d2 * dn * a + dn * b + n = d2 * dn * a' + dn * b' + n')%Z -> a = a' /\ b = b' /\ n = n'.
Proof.
  intros Hb Hb' Hn Hn' E. assert (X : (dn * (d2 * a + b) + n = dn * (d2 * a' + b') + n')%Z) by lia.
  assert (Y : (d2 * a + b = d2 * a' + b')%Z) by nia. assert (a = a') by nia. subst a'. repeat split; lia.
Qed.

Lemma type2_table fuel par bessel erf l1_max l2_max n_max CA_2 CB_2 pot LA bra LB ket :
  (14 <= fuel)%nat -> (0 <= l1_max)%Z -> (0 <= l2_max)%Z -> (0 <= n_max)%Z -> powers_in pot n_max -> exponents_pos bra -> exponents_pos ket -> pot_exponents pot ->
  0 <= CA_2 -> 0 <= CB_2 -> ~ (CA_2 < 1 / 10 ^ 14 /\ CB_2 < 1 / 10 ^ 14) ->
  exists t, tabulate_radial_type2_integrals fuel par bessel erf l1_max l2_max n_max CA_2 CB_2 pot LA bra LB ket = Ok t /\
    forall l1 l2 n, (0 <= l1 <= l1_max)%Z -> (0 <= l2 <= l2_max)%Z -> (0 <= n <= n_max)%Z -> exists v s c,
      get_radial_type2_integral t l1 l2 n = Ok v /\
      screening_radial_type2 bessel erf CA_2 CB_2 (shrink_norm LA bra) (shrink_norm LB ket) (shrink_pot pot) l1 l2 n = Ok s /\
      let g := type2_integrand bessel pot LA bra (sqrt CA_2) LB ket (sqrt CB_2) l1 l2 n in
      match s with Some x => if Rlt_dec (Rabs x) (1 / 10 ^ 16) then v = x else adaptive 10000 31 g s (1 / 10 ^ 16) v c
      | None => adaptive 10000 31 g None (1 / 10 ^ 16) v c end.
Proof.
  intros Hf H1 H2 Hn HP HB HK HE HA2 HB2 Hc. unfold tabulate_radial_type2_integrals.
  replace ((if Rlt_dec CA_2 (1 / 10 ^ 14) then true else false) && (if Rlt_dec CB_2 (1 / 10 ^ 14) then true else false)) with false
    by (destruct (Rlt_dec CA_2 _); [destruct (Rlt_dec CB_2 _); [exfalso; apply Hc; split; assumption|reflexivity]|reflexivity]).
  rewrite !sqrt_sqrt by assumption. cbv zeta.
  set (gp := gparams2 bessel (shrink_norm LA bra) (shrink_norm LB ket) (shrink_pot pot) (sqrt CA_2) (sqrt CB_2) l1_max l2_max n_max).
  assert (SC : forall l1 l2 n, (0 <= n <= n_max)%Z -> exists s, screening_radial_type2 bessel erf CA_2 CB_2 (shrink_norm LA bra) (shrink_norm LB ket) (shrink_pot pot) l1 l2 n = Ok s).
  { intros l1 l2 n Hn'. apply (screening_ok _ _ _ _ _ _ _ _ _ _ n_max); [exact Hn'| | | |].
    - intros ni c a Hin. apply filter_In in Hin. apply (HP ni c a), Hin.
    - intros c a Hin. apply in_shrink_norm in Hin. destruct Hin as (c' & Hin). exact (HB _ _ Hin).
    - intros c a Hin. apply in_shrink_norm in Hin. destruct Hin as (c' & Hin). exact (HK _ _ Hin).
    - intros ni c a Hin. apply filter_In in Hin. apply (HE ni c a), Hin. }
  destruct (create_valid min_grid_2 gp) as (g0 & E0 & V0); [unfold min_grid_2, max_grid; lia|cbn; lia..|].
  rewrite E0, bind_ok.
  assert (T : type2_tolerance par = 1 / 10 ^ 16) by (unfold type2_tolerance, Rdiv; ring). rewrite T.
  set (dim := ((l1_max + 1) * (l2_max + 1) * (n_max + 1))%Z).
  set (I := fun st : arr R * rgrid => adims (fst st) = [dim] /\ exists s, valid min_grid_2 gp s (snd st)).
  set (W := fun (l1 l2 n : Z) (st : arr R * rgrid) => exists v s c, aget (fst st) [(l2_max + 1) * (n_max + 1) * l1 + (n_max + 1) * l2 + n]%Z = Ok v /\
     screening_radial_type2 bessel erf CA_2 CB_2 (shrink_norm LA bra) (shrink_norm LB ket) (shrink_pot pot) l1 l2 n = Ok s /\
     match s with Some x => if Rlt_dec (Rabs x) (1 / 10 ^ 16) then v = x else adaptive max_grid min_grid_2 (integrand gp n l1 l2) s (1 / 10 ^ 16) v c
     | None => adaptive max_grid min_grid_2 (integrand gp n l1 l2) None (1 / 10 ^ 16) v c end).
  set (body := fun (l1 l2 n : Z) (st : arr R * rgrid) => let '(data, g) := st in
      let* screened := screening_radial_type2 bessel erf CA_2 CB_2 (shrink_norm LA bra) (shrink_norm LB ket) (shrink_pot pot) l1 l2 n in
      let* (Q, _, g) := calculate_radial fuel min_grid_2 gp screened (1 / 10 ^ 16) n l1 l2 g in
      let* data := aset data [(l2_max + 1) * (n_max + 1) * l1 + (n_max + 1) * l2 + n]%Z Q in
      Ok (data, g)).
  assert (STEP : forall l1 l2 n st, (0 <= l1 < l1_max + 1)%Z -> (0 <= l2 < l2_max + 1)%Z -> (0 <= n < n_max + 1)%Z -> I st ->
     exists st', body l1 l2 n st = Ok st' /\ I st' /\ W l1 l2 n st' /\
       forall a b m, (0 <= b < l2_max + 1)%Z -> (0 <= m < n_max + 1)%Z -> (a, b, m) <> (l1, l2, n) -> W a b m st -> W a b m st').
  { intros l1 l2 n [d g] Hl1 Hl2 Hn' (D & s & V). cbn [fst snd] in D, V. unfold body.
    destruct (SC l1 l2 n ltac:(lia)) as (sc & Esc). rewrite Esc, bind_ok.
    destruct (calculate_ok fuel min_grid_2 gp sc (1 / 10 ^ 16) n l1 l2 s g) as (v & c & g1 & s1 & E1 & V1 & A1); [unfold min_grid_2, max_grid; lia|cbn; lia|cbn; lia|cbn; lia|exact Hf|exact V|].
    rewrite E1, bind_ok. destruct (aset_get d [(l2_max + 1) * (n_max + 1) * l1 + (n_max + 1) * l2 + n]%Z v) as (d' & -> & D' & G & K).
    { rewrite D. apply inb1. unfold dim. assert ((l2_max + 1) * (n_max + 1) * l1 <= (l2_max + 1) * (n_max + 1) * l1_max)%Z by (apply Z.mul_le_mono_nonneg_l; nia).
      assert ((n_max + 1) * l2 <= (n_max + 1) * l2_max)%Z by (apply Z.mul_le_mono_nonneg_l; lia). split; [nia|]. nia. }
    exists (d', g1). split; [reflexivity|]. split; [split; [cbn; congruence|exists s1; exact V1]|]. split.
    - exists v, sc, c. split; [exact G|]. split; [exact Esc|]. destruct sc as [x|]; [destruct (Rlt_dec (Rabs x) (1 / 10 ^ 16)); [apply A1|exact A1]|exact A1].
    - intros a b m Hb Hm Hne (v' & s' & c' & G' & S' & A'). exists v', s', c'. split; [|split; assumption]. cbn [fst] in *. rewrite K; [exact G'|].
      intros X. injection X as X. apply Hne. destruct (idx2_inj (l2_max + 1) (n_max + 1) a b m l1 l2 n) as (-> & -> & ->); try assumption; reflexivity. }
  destruct (loop1_all 0 (l1_max + 1) I (fun l1 st => forall l2 n, (0 <= l2 < l2_max + 1)%Z -> (0 <= n < n_max + 1)%Z -> W l1 l2 n st)
     (fun l1 => for_range 0 (l2_max + 1) (fun l2 => for_range 0 (n_max + 1) (body l1 l2))) (aconst [dim] 0, g0)) as ([data g'] & E & _ & P).
  - lia.
  - split; [reflexivity|exists 0%nat; exact V0].
  - intros l1 st Hl1 I0.
    (* track everything already there *)
    assert (KEEP : exists st', for_range 0 (l2_max + 1) (fun l2 => for_range 0 (n_max + 1) (body l1 l2)) st = Ok st' /\
       (I st' /\ forall a b m, (0 <= a < l1)%Z -> (0 <= b < l2_max + 1)%Z -> (0 <= m < n_max + 1)%Z -> W a b m st -> W a b m st') /\
       forall b m, (0 <= b < l2_max + 1)%Z -> (0 <= m < n_max + 1)%Z -> W l1 b m st').
    { apply (loop2_all 0 (l2_max + 1) 0 (n_max + 1) (fun st' => I st' /\ forall a b m, (0 <= a < l1)%Z -> (0 <= b < l2_max + 1)%Z -> (0 <= m < n_max + 1)%Z -> W a b m st -> W a b m st')
        (fun b m st' => W l1 b m st') (body l1) st); [lia|lia|split; [exact I0|auto]|].
      intros l2 n st1 Hl2 Hn' (I1 & K1). destruct (STEP l1 l2 n st1 Hl1 Hl2 Hn' I1) as (st2 & E2 & I2 & W2 & K2).
      exists st2. split; [exact E2|]. split; [split; [exact I2|]|split; [exact W2|]].
      - intros a b m Ha Hb Hm Hw. apply K2; [exact Hb|exact Hm|intros X; injection X as -> _ _; lia|]. apply K1; assumption.
      - intros b m Hb Hm Hne Hw. apply K2; [exact Hb|exact Hm|intros X; injection X as -> ->; apply Hne; reflexivity|exact Hw]. }
    destruct KEEP as (st' & E & (I' & K') & P'). exists st'. split; [exact E|]. split; [exact I'|]. split; [exact P'|].
    intros a Ha Hw l2 n Hl2 Hn'. apply K'; try assumption. apply Hw; assumption.
  - match goal with |- exists t, bind ?X _ = _ /\ _ => change X with (for_range 0 (l1_max + 1) (fun l1 => for_range 0 (l2_max + 1) (fun l2 => for_range 0 (n_max + 1) (body l1 l2))) (aconst [dim] 0, g0)) end.
    rewrite E, bind_ok. eexists. split; [reflexivity|]. intros l1 l2 n Hl1 Hl2 Hn'.
    destruct (P l1 ltac:(lia) l2 n ltac:(lia) ltac:(lia)) as (v & s & c & G & S1 & A). exists v, s, c. split; [exact G|]. split; [exact S1|].
    assert (EX : forall r, integrand gp n l1 l2 r = type2_integrand bessel pot LA bra (sqrt CA_2) LB ket (sqrt CB_2) l1 l2 n r).
    { intros r. unfold integrand, type2_integrand, gp, gparams2. cbn [gp_pot gp_f1 gp_f2]. rewrite pot_value_rpp, !contracted_radial. reflexivity. }
    cbv zeta. destruct s as [x|]; [destruct (Rlt_dec (Rabs x) (1 / 10 ^ 16)); [exact A|]|]; exact (adaptive_ext _ _ _ _ _ _ _ _ EX A).
Qed.

(** ** One centre *)
Lemma n_loop nmax L (f : Z -> res R) (g : Z -> R) (data : arr R) : (0 <= nmax)%Z -> (nmax + 1 <= L)%Z -> adims data = [L] -> (forall n, (0 <= n <= nmax)%Z -> f n = Ok (g n)) ->
  (forall n, (0 <= n < L)%Z -> exists v, aget data [n] = Ok v) ->
  exists d', for_range 0 (nmax + 1) (fun n data => let* val := f n in let* old := aget data [n] in aset data [n] (old + val)) data = Ok d' /\ adims d' = [L] /\
    forall n v, (0 <= n < L)%Z -> aget data [n] = Ok v -> aget d' [n] = Ok (v + if (n <=? nmax)%Z then g n else 0).
Proof.
  intros Hn HL D F Rd.
  destruct (for_range_ok (fun k d => adims d = [L] /\ forall n v, (0 <= n < L)%Z -> aget data [n] = Ok v -> aget d [n] = Ok (v + if (n <? k)%Z then g n else 0)) 0 (nmax + 1)
    (fun n data => let* val := f n in let* old := aget data [n] in aset data [n] (old + val)) data) as (d' & E & D' & P).
  - lia.
  - split; [exact D|]. intros n v H0 H. destruct (Z.ltb_spec n 0); [lia|]. rewrite Rplus_0_r. exact H.
  - intros k d Hk (Dd & P). rewrite F by lia. rewrite bind_ok. destruct (Rd k ltac:(lia)) as (v0 & E0). pose proof (P k v0 ltac:(lia) E0) as Pk.
    destruct (Z.ltb_spec k k) in Pk; [lia|]. rewrite Rplus_0_r in Pk. rewrite Pk, bind_ok.
    destruct (aset_get d [k] (v0 + g k)) as (d1 & -> & D1 & G & K); [rewrite Dd; apply inb1; lia|]. exists d1. split; [reflexivity|]. split; [congruence|].
    intros n v H0 Hv. destruct (Z.eq_dec n k) as [-> | Hne].
    + assert (v = v0) by congruence. subst v. rewrite G. destruct (Z.ltb_spec k (k + 1)); [reflexivity|lia].
    + rewrite K by congruence. rewrite (P n v H0 Hv). destruct (Z.ltb_spec n k), (Z.ltb_spec n (k + 1)); try lia; reflexivity.
  - exists d'. split; [exact E|]. split; [exact D'|]. intros n v H0 Hv. rewrite (P n v H0 Hv). destruct (Z.ltb_spec n (nmax + 1)), (Z.leb_spec n nmax); try lia; reflexivity.
Qed.

Definition cells (L : Z) (d : arr R) (b : Z -> R) : Prop := adims d = [L] /\ forall n, (0 <= n < L)%Z -> aget d [n] = Ok (b n).

Lemma fold_add {A} L (step : res (arr R) -> A -> res (arr R)) (e : A -> Z -> R) (l : list A) :
  (forall x d b, In x l -> cells L d b -> exists d', step (Ok d) x = Ok d' /\ cells L d' (fun n => b n + e x n)) ->
  forall d b, cells L d b -> exists d', fold_left step l (Ok d) = Ok d' /\ cells L d' (fun n => b n + lsum (fun x => e x n) l).
Proof.
  induction l as [|x l IH]; intros H d b C; cbn [fold_left].
  - exists d. split; [reflexivity|]. destruct C as (D & C). split; [exact D|]. intros n Hn. rewrite C by exact Hn. cbn. f_equal. ring.
  - destruct (H x d b (or_introl eq_refl) C) as (d1 & -> & C1). destruct (IH ltac:(intros; apply H; [right|]; assumption) d1 _ C1) as (d2 & E2 & D2 & C2).
    exists d2. split; [exact E2|]. split; [exact D2|]. intros n Hn. rewrite C2 by exact Hn. rewrite lsum_cons. f_equal. ring.
Qed.

Definition half_moments (m : Z -> R -> R) : Prop :=
  forall n a, (0 <= n)%Z -> 0 < a -> half_int (fun r => r ^ Z.to_nat n * exp (- a * r ^ 2)) (m n a).

Lemma half_int_unique f u v : half_int f u -> half_int f v -> u = v.
Proof. intros (_ & A) (_ & B). apply is_lim_unique in A. apply is_lim_unique in B. rewrite A in B. injection B as B. exact B. Qed.

Lemma one_center_ok m nmax LA LB bra ket pot L : half_moments m -> (0 <= nmax)%Z -> (nmax + 1 <= L)%Z -> powers_in pot nmax -> exponents_pos bra -> exponents_pos ket -> pot_exponents pot ->
  exists d', one_center_table nmax LA LB bra ket pot (aconst [L] 0) = Ok d' /\ cells L d' (fun n => if (n <=? nmax)%Z then one_center m pot LA bra LB ket n else 0).
Proof.
  intros HM Hn HL HP HB HK HE.
  assert (GM : forall n a, (0 <= n <= 31)%Z -> 0 < a -> gaussian_integral n a = Ok (m n a)).
  { intros n a Hn' Ha. rewrite gaussian_integral_ok by assumption. f_equal. apply (half_int_unique (fun r => r ^ Z.to_nat n * exp (- a * r ^ 2))); [apply gauss_moment, Ha|apply HM; [lia|exact Ha]]. }
  unfold one_center_table.
  set (e3 := fun ca aa cb ab (x : Z * R * R) (n : Z) => let '(ni, ck, eta) := x in if (n <=? nmax)%Z then ca * gaussian_norm_factor LA 0 0 aa * (cb * gaussian_norm_factor LB 0 0 ab) * ck * m (ni + n)%Z (aa + ab + eta) else 0).
  destruct (fold_add L (fun d '(ca, aa) => fold_left (fun d '(cb, ab) => fold_left (fun (d : res (arr R)) '(ni, ck, eta) =>
        let* data := d in
        for_range 0 (nmax + 1) (fun n data =>
          let* val := gaussian_integral (ni + n) (aa + ab + eta) in
          let* old := aget data [n] in
          aset data [n] (old + ca * gaussian_norm_factor LA 0 0 aa * (cb * gaussian_norm_factor LB 0 0 ab) * ck * val)) data) pot d) ket d)
    (fun '(ca, aa) n => lsum (fun '(cb, ab) => lsum (fun x => e3 ca aa cb ab x n) pot) ket) bra) with (d := aconst [L] 0) (b := fun _ : Z => 0) as (d' & E & D & C).
  - intros [ca aa] d b Hin C.
    destruct (fold_add L (fun d '(cb, ab) => fold_left (fun (d : res (arr R)) '(ni, ck, eta) =>
        let* data := d in
        for_range 0 (nmax + 1) (fun n data =>
          let* val := gaussian_integral (ni + n) (aa + ab + eta) in
          let* old := aget data [n] in
          aset data [n] (old + ca * gaussian_norm_factor LA 0 0 aa * (cb * gaussian_norm_factor LB 0 0 ab) * ck * val)) data) pot d)
     (fun '(cb, ab) n => lsum (fun x => e3 ca aa cb ab x n) pot) ket) with (d := d) (b := b) as (d1 & E1 & D1 & C1); [|exact C|].
    + intros [cb ab] d0 b0 Hin0 C0.
      destruct (fold_add L (fun (d : res (arr R)) '(ni, ck, eta) =>
        let* data := d in
        for_range 0 (nmax + 1) (fun n data =>
          let* val := gaussian_integral (ni + n) (aa + ab + eta) in
          let* old := aget data [n] in
          aset data [n] (old + ca * gaussian_norm_factor LA 0 0 aa * (cb * gaussian_norm_factor LB 0 0 ab) * ck * val)) data) (e3 ca aa cb ab) pot) with (d := d0) (b := b0) as (d2 & E2 & D2 & C2); [|exact C0|].
      * intros [[ni ck] eta] d1 b1 Hin1 (D1 & C1). rewrite bind_ok. pose proof (HP _ _ _ Hin1). pose proof (HB _ _ Hin). pose proof (HK _ _ Hin0). pose proof (HE _ _ _ Hin1).
        set (q := ca * gaussian_norm_factor LA 0 0 aa * (cb * gaussian_norm_factor LB 0 0 ab) * ck).
        destruct (n_loop nmax L (fun n => let* val := gaussian_integral (ni + n) (aa + ab + eta) in Ok (q * val)) (fun n => q * m (ni + n)%Z (aa + ab + eta)) d1) as (d2 & E2 & D2 & C2); try assumption.
        -- intros n Hn'. rewrite GM by (lia || lra). reflexivity.
        -- intros n Hn'. exists (b1 n). apply C1, Hn'.
        -- exists d2. split.
           ++ etransitivity; [|exact E2]. apply for_range_ext. intros n s Hn'. cbv beta. rewrite GM by (lia || lra). rewrite !bind_ok. reflexivity.
           ++ split; [exact D2|]. intros n Hn'. rewrite (C2 n (b1 n) Hn' (C1 n Hn')). unfold e3. destruct (Z.leb_spec n nmax); reflexivity.
      * exists d2. split; [exact E2|]. split; [exact D2|exact C2].
    + exists d1. split; [exact E1|]. split; [exact D1|]. intros n Hn'. rewrite (C1 n Hn'). f_equal. f_equal. apply lsum_ext. intros [cb ab] _. reflexivity.
  - split; [reflexivity|]. intros n Hn'. apply aget_ok; [apply inb1; exact Hn'|reflexivity].
  - exists d'. split; [exact E|]. split; [exact D|]. intros n Hn'. rewrite (C n Hn'). f_equal. rewrite Rplus_0_l. unfold one_center. destruct (Z.leb_spec n nmax) as [Hle|Hgt].
    + apply lsum_ext. intros [ca aa] _. apply lsum_ext. intros [cb ab] _. apply lsum_ext. intros [[ni ck] eta] _. unfold e3. destruct (Z.leb_spec n nmax); [reflexivity|lia].
    + transitivity (lsum (fun _ : R * R => 0 * 0) bra); [|rewrite lsum_scal; ring]. apply lsum_ext. intros [ca aa] _. transitivity (lsum (fun _ : R * R => 0 * 0) ket); [|rewrite lsum_scal; ring].
      apply lsum_ext. intros [cb ab] _. transitivity (lsum (fun _ : Z * R * R => 0 * 0) pot); [|rewrite lsum_scal; ring]. apply lsum_ext. intros [[ni ck] eta] _. unfold e3. destruct (Z.leb_spec n nmax); [lia|ring].
Qed.

Lemma type2_one_center m fuel par bessel erf l1_max l2_max n_max CA_2 CB_2 pot LA bra LB ket : half_moments m ->
  (0 <= l1_max)%Z -> (0 <= l2_max)%Z -> (0 <= n_max)%Z -> powers_in pot n_max -> exponents_pos bra -> exponents_pos ket -> pot_exponents pot ->
  CA_2 < 1 / 10 ^ 14 -> CB_2 < 1 / 10 ^ 14 ->
  exists t, tabulate_radial_type2_integrals fuel par bessel erf l1_max l2_max n_max CA_2 CB_2 pot LA bra LB ket = Ok t /\
    forall l1 l2 n, (0 <= l1 <= l1_max)%Z -> (0 <= l2 <= l2_max)%Z -> (0 <= n <= n_max)%Z ->
      get_radial_type2_integral t l1 l2 n = Ok (if (l1 =? 0)%Z && (l2 =? 0)%Z then one_center m pot LA bra LB ket n else 0).
Proof.
  intros HM H1 H2 Hn HP HB HK HE HA2 HB2. unfold tabulate_radial_type2_integrals.
  destruct (Rlt_dec CA_2 _); [|contradiction]. destruct (Rlt_dec CB_2 _); [|contradiction]. cbn [andb].
  assert (HL : (n_max + 1 <= (l1_max + 1) * (l2_max + 1) * (n_max + 1))%Z) by nia.
  destruct (one_center_ok m n_max LA LB bra ket pot ((l1_max + 1) * (l2_max + 1) * (n_max + 1)) HM Hn HL HP HB HK HE) as (d & -> & D & C).
  rewrite bind_ok. eexists. split; [reflexivity|]. intros l1 l2 n Hl1 Hl2 Hn'. unfold get_radial_type2_integral. cbn [t2_data t2_l2_max t2_n_max].
  rewrite C.
  - f_equal. destruct (Z.eqb_spec l1 0) as [-> | Z1].
    + destruct (Z.eqb_spec l2 0) as [-> | Z2]; cbn [andb].
      * replace ((l2_max + 1) * (n_max + 1) * 0 + (n_max + 1) * 0 + n)%Z with n by lia. destruct (Z.leb_spec n n_max); [reflexivity|lia].
      * match goal with |- (if (?x <=? _)%Z then _ else _) = _ => destruct (Z.leb_spec x n_max); [exfalso; nia|reflexivity] end.
    + cbn [andb]. match goal with |- (if (?x <=? _)%Z then _ else _) = _ => destruct (Z.leb_spec x n_max) as [Hx|Hx]; [exfalso|reflexivity] end.
      assert ((l2_max + 1) * (n_max + 1) * 1 <= (l2_max + 1) * (n_max + 1) * l1)%Z by (apply Z.mul_le_mono_nonneg_l; nia). nia.
  - assert ((l2_max + 1) * (n_max + 1) * l1 <= (l2_max + 1) * (n_max + 1) * l1_max)%Z by (apply Z.mul_le_mono_nonneg_l; nia).
    assert ((n_max + 1) * l2 <= (n_max + 1) * l2_max)%Z by (apply Z.mul_le_mono_nonneg_l; lia). split; [nia|]. nia.
Qed.
