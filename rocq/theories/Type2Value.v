(** * What the loops of the semilocal and spin-orbit routines compute *)

From Coq Require Import ZArith Reals Lra Lia List Bool.
From Coquelicot Require Import Coquelicot.
From Verif Require Import Base Loops BinomModel BinomProofs CartModel HeapModel OneElModel OneElProofs OneElInt OneElPairs ParamsModel Sums
  SphModel SphSpec SphPoly SphProofs SphTables SphInt SphOrtho SphAngular SphThms SphSpan SphAdd LmatModel RadialModel PiBounds OutercoreModel OutercoreProofs Type2Model Type2Proj Type2Radial Type2Error.
Import ListNotations.
Open Scope R_scope.

Lemma zsum_nat n f : zsum 0 (Z.of_nat n + 1) f = rsum (S n) (fun k => f (Z.of_nat k)).
Proof. replace (Z.of_nat n + 1)%Z with (0 + Z.of_nat (S n))%Z by lia. rewrite zsum_rsum. apply rsum_ext. intros k _. f_equal. Qed.

Section LOOPS.
Context {St Ix : Type}.
Variables (Inv : St -> Prop) (Dom : Ix -> Prop) (val : St -> Ix -> R).

Definition adds (m : St -> res St) (t : Ix -> R) : Prop :=
  forall s, Inv s -> exists s', m s = Ok s' /\ Inv s' /\ forall x, Dom x -> val s' x = val s x + t x.

Lemma adds_ext m t t' : (forall x, Dom x -> t x = t' x) -> adds m t -> adds m t'.
Proof. intros E H s I0. destruct (H s I0) as (s' & Es & I1 & V). exists s'. split; [exact Es|]. split; [exact I1|]. intros x Hx. rewrite V, E by exact Hx. reflexivity. Qed.

Lemma adds_none t : (forall x, Dom x -> t x = 0) -> adds (fun s => Ok s) t.
Proof. intros H s I0. exists s. split; [reflexivity|]. split; [exact I0|]. intros x Hx. rewrite H by exact Hx. ring. Qed.

Lemma adds_range lo hi body (t : Z -> Ix -> R) : (lo <= hi)%Z -> (forall i, (lo <= i < hi)%Z -> adds (body i) (t i)) -> adds (for_range lo hi body) (fun x => zsum lo hi (fun i => t i x)).
Proof. intros Hh H s I0. apply (loop_sum lo hi Inv Dom val t body s Hh I0). intros i s' Hi I1. apply (H i Hi s' I1). Qed.

Lemma adds_nat n body (t : nat -> Ix -> R) : (forall i, (i <= n)%nat -> adds (body (Z.of_nat i)) (t i)) -> adds (for_range 0 (Z.of_nat n + 1) body) (fun x => rsum (S n) (fun i => t i x)).
Proof.
  intros H. apply (adds_ext _ (fun x => zsum 0 (Z.of_nat n + 1) (fun i => t (Z.to_nat i) x))).
  - intros x _. rewrite zsum_nat. apply rsum_ext. intros k _. rewrite Nat2Z.id. reflexivity.
  - apply adds_range; [lia|]. intros i Hi. replace i with (Z.of_nat (Z.to_nat i)) at 1 by lia. apply H. lia.
Qed.

Lemma adds_expansion thr nA lA mA nB lB mB VA VB body (g : nat -> nat -> nat -> nat -> nat -> nat -> Ix -> R) :
  (nA <= 40)%nat -> (lA <= 40)%nat -> (mA <= 40)%nat -> (nB <= 40)%nat -> (lB <= 40)%nat -> (mB <= 40)%nat ->
  (forall a b c d e f w, (a <= nA)%nat -> (b <= lA)%nat -> (c <= mA)%nat -> (d <= nB)%nat -> (e <= lB)%nat -> (f <= mB)%nat ->
     adds (body w (Z.of_nat a) (Z.of_nat b) (Z.of_nat c) (Z.of_nat d) (Z.of_nat e) (Z.of_nat f)) (fun x => w * g a b c d e f x)) ->
  adds (expansion_loops thr (Z.of_nat nA, Z.of_nat lA, Z.of_nat mA) (Z.of_nat nB, Z.of_nat lB, Z.of_nat mB) VA VB body)
    (fun x => fsum (nA, lA, mA) (fun a b c => fsum (nB, lB, mB) (fun d e f => trunc thr (bfac (nA, lA, mA) VA a b c * bfac (nB, lB, mB) VB d e f) * g a b c d e f x))).
Proof.
  intros H1 H2 H3 H4 H5 H6 HB. destruct VA as [[X Y] Z]. destruct VB as [[X' Y'] Z']. unfold expansion_loops, fsum.
  assert (U : forall k : nat, (k <= 40)%nat -> u64 (Z.of_nat k) = Z.of_nat k) by (intros k Hk; apply u64_small; assert (uint64_max = 18446744073709551615%Z) by reflexivity; lia).
  assert (BI : forall n k : nat, (n <= 40)%nat -> (k <= n)%nat -> binomial (u64 (Z.of_nat n)) (u64 (Z.of_nat k)) = Ok (choose n k)).
  { intros n k Hn Hk. rewrite !U by lia. rewrite binomial_small; [rewrite !Nat2Z.id; reflexivity|lia|]. assert (uint64_max = 18446744073709551615%Z) by reflexivity. lia. }
  assert (PW : forall (v : R) (n k : nat), v ^ Z.to_nat (Z.of_nat n - Z.of_nat k) = v ^ (n - k)) by (intros v n k; f_equal; lia).
  apply adds_nat. intros a Ha. rewrite BI by assumption. cbn [bind]. rewrite PW.
  apply adds_nat. intros b Hb. rewrite BI by assumption. cbn [bind]. rewrite PW.
  apply adds_nat. intros c Hc. rewrite BI by assumption. cbn [bind]. rewrite PW.
  apply adds_nat. intros d Hd. rewrite BI by assumption. cbn [bind]. rewrite PW.
  apply adds_nat. intros e He. rewrite BI by assumption. cbn [bind]. rewrite PW.
  apply adds_nat. intros f Hf. rewrite BI by assumption. cbn [bind]. rewrite PW.
  assert (EW : IZR (choose nA a) * IZR (choose lA b) * IZR (choose mA c) * IZR (choose nB d) * IZR (choose lB e) * IZR (choose mB f) * X ^ (nA - a) * Y ^ (lA - b) * Z ^ (mA - c) * X' ^ (nB - d) * Y' ^ (lB - e) * Z' ^ (mB - f)
    = bfac (nA, lA, mA) (X, Y, Z) a b c * bfac (nB, lB, mB) (X', Y', Z') d e f) by (unfold bfac, ch; ring).
  rewrite EW. unfold trunc. destruct (Rlt_dec _ _) as [Hl|Hl]; [apply adds_none; intros; ring|]. apply HB; assumption.
Qed.

Lemma adds_lambda thr t L nA nB (q : nat -> nat -> R) body (g : nat -> nat -> Ix -> R) :
  (forall l1 l2, (l1 <= L + nA)%nat -> (l2 <= L + nB)%nat -> get_radial_type2_integral t (Z.of_nat l1) (Z.of_nat l2) (Z.of_nat nA + Z.of_nat nB) = Ok (q l1 l2)) ->
  (forall l1 l2 w, (l1 <= L + nA)%nat -> (l2 <= L + nB)%nat -> adds (body (Z.of_nat l1) (Z.of_nat l2) w) (fun x => w * g l1 l2 x)) ->
  adds (lambda_loops thr t (Z.of_nat L) (Z.of_nat nA) (Z.of_nat nB) body) (fun x => lamsum L nA (fun l1 => lamsum L nB (fun l2 => trunc thr (q l1 l2) * g l1 l2 x))).
Proof.
  intros HQ HB. unfold lambda_loops, lamsum.
  apply (adds_range _ _ _ (fun l1 x => if (Z.rem (Z.of_nat L + Z.of_nat nA - l1) 2 =? 0)%Z then lamsum L nB (fun l2 => trunc thr (q (Z.to_nat l1) l2) * g (Z.to_nat l1) l2 x) else 0)); [lia|].
  intros l1 H1. destruct (_ =? 0)%Z; [|apply adds_none; reflexivity]. cbn [negb]. unfold lamsum.
  apply (adds_range _ _ _ (fun l2 x => if (Z.rem (Z.of_nat L + Z.of_nat nB - l2) 2 =? 0)%Z then trunc thr (q (Z.to_nat l1) (Z.to_nat l2)) * g (Z.to_nat l1) (Z.to_nat l2) x else 0)); [lia|].
  intros l2 H2. destruct (_ =? 0)%Z; [|apply adds_none; reflexivity]. cbn [negb].
  pose proof (HQ (Z.to_nat l1) (Z.to_nat l2) ltac:(lia) ltac:(lia)) as E. pose proof (fun w => HB (Z.to_nat l1) (Z.to_nat l2) w ltac:(lia) ltac:(lia)) as HB'. rewrite !Z2Nat.id in E, HB' by lia. rewrite E. cbn [bind].
  unfold trunc. destruct (Rlt_dec _ _) as [Hl|Hl]; [apply adds_none; intros; ring|]. apply HB'.
Qed.
End LOOPS.

(** ** Rows of harmonics *)
Definition has_rows (st : rsh_store) (cols : Z) (k : R * R * R) (lmax : nat) (r : arr (arr R)) : Prop :=
  forall l : nat, (l <= lmax)%nat -> exists v, aget r [Z.of_nat l] = Ok v /\ evaluate_real_spherical_harmonics_array st (Z.of_nat l) k (aundef [cols]) = Ok v.

Lemma harmonic_rows_ok st rows cols (lmax : nat) kA kB : init_tables st -> (lmax <= 40)%nat -> (Z.of_nat lmax < rows)%Z -> (2 * Z.of_nat lmax + 1 <= cols)%Z ->
  exists rA rB, harmonic_rows st rows cols (Z.of_nat lmax) kA kB = Ok (rA, rB) /\ has_rows st cols kA lmax rA /\ has_rows st cols kB lmax rB.
Proof.
  intros HI Hl Hr Hc. unfold harmonic_rows.
  destruct (loop1_all 0 (Z.of_nat lmax + 1) (fun s : arr (arr R) * arr (arr R) => adims (fst s) = [rows] /\ adims (snd s) = [rows])
    (fun i s => (exists v, aget (fst s) [i] = Ok v /\ evaluate_real_spherical_harmonics_array st i kA (aundef [cols]) = Ok v) /\ (exists v, aget (snd s) [i] = Ok v /\ evaluate_real_spherical_harmonics_array st i kB (aundef [cols]) = Ok v))
    (fun lambda '(rA, rB) =>
    let* vA := evaluate_real_spherical_harmonics_array st lambda kA (aundef [cols]) in
    let* rA := aset rA [lambda] vA in
    let* vB := evaluate_real_spherical_harmonics_array st lambda kB (aundef [cols]) in
    let* rB := aset rB [lambda] vB in
    Ok (rA, rB)) (aundef [rows], aundef [rows])) as ([rA rB] & E & _ & P).
  - lia.
  - split; reflexivity.
  - intros i [rA rB] Hi (DA & DB). cbn [fst snd] in DA, DB. replace i with (Z.of_nat (Z.to_nat i)) by lia. set (l := Z.to_nat i).
    destruct (array_evaluation_thm st l kA (aundef [cols]) cols HI ltac:(lia) eq_refl ltac:(lia)) as (vA & EA & _).
    destruct (array_evaluation_thm st l kB (aundef [cols]) cols HI ltac:(lia) eq_refl ltac:(lia)) as (vB & EB & _).
    destruct (aset_get rA [Z.of_nat l] vA) as (rA' & SA & DA' & GA & OA); [rewrite DA; apply inb1; lia|].
    destruct (aset_get rB [Z.of_nat l] vB) as (rB' & SB & DB' & GB & OB); [rewrite DB; apply inb1; lia|].
    exists (rA', rB'). rewrite EA. cbn [bind]. rewrite SA. cbn [bind]. rewrite EB. cbn [bind]. rewrite SB. cbn [bind]. split; [reflexivity|]. cbn [fst snd]. split; [split; congruence|]. split; [split; eauto|].
    intros i' Hi' ((v & G1 & E1) & (v' & G2 & E2)). assert (N : [i'] <> [Z.of_nat l]) by (intros C; injection C as C; lia).
    split; [exists v|exists v']; (split; [|assumption]); [rewrite (OA _ N)|rewrite (OB _ N)]; assumption.
  - exists rA, rB. split; [exact E|]. split; intros l Hl'; destruct (P (Z.of_nat l) ltac:(lia)) as (PA & PB); cbn [fst snd] in PA, PB; assumption.
Qed.

(** ** The computed angular factors *)
Definition omega_c (l L : nat) (m : Z) (a b c : nat) (k : R * R * R) : R :=
  zsum (- Z.of_nat l) (Z.of_nat l + 1) (fun mu => moment2 l mu L m a b c * significant_value (sph_value l mu k)).

Lemma omega_computed st cols l L m a b c k vals : init_tables st -> (L + (a + b + c) <= 14)%nat -> (l <= L + (a + b + c))%nat -> (Z.abs m <= Z.of_nat L)%Z ->
  (2 * Z.of_nat l + 1 <= cols)%Z -> evaluate_real_spherical_harmonics_array st (Z.of_nat l) k (aundef [cols]) = Ok vals ->
  angular_type2_integral st (Z.of_nat l) (Z.of_nat L) m (Z.of_nat a) (Z.of_nat b) (Z.of_nat c) vals = Ok (omega_c l L m a b c k).
Proof.
  intros HI Hs Hl Hm Hc Ev. destruct (angular_type2_thm st l L m a b c k (aundef [cols]) cols vals HI ltac:(lia) ltac:(lia) Hm eq_refl Hc Ev ltac:(left; lia)) as (w & Hw & E).
  rewrite E. f_equal. unfold omega_c. apply zsum_ext. intros mu Hmu. f_equal. eapply sphere_uniq; [apply Hw; lia|].
  eapply sphere_ext; [|apply (moment2_int l mu L m a b c); try lia; left; lia]. intros x y z _. reflexivity.
Qed.

Lemma omega_sq l L m a b c k : (L + (a + b + c) <= 14)%nat -> (l <= L + (a + b + c))%nat -> (Z.abs m <= Z.of_nat L)%Z -> omega l L m a b c k ^ 2 <= (2 * INR l + 1) / (4 * PI).
Proof.
  intros Hs Hl Hm.
  assert (OV : forall mu, (Z.abs mu <= Z.of_nat l)%Z -> sphere_int (fun x y z => x ^ a * y ^ b * z ^ c * real_sph l mu x y z * real_sph L m x y z) (moment2 l mu L m a b c)).
  { intros mu Hmu. eapply sphere_ext; [|apply (moment2_int l mu L m a b c); try lia; left; lia]. intros x y z _. reflexivity. }
  assert (DIR : forall e, (let '(ex, ey, ez) := e in ex ^ 2 + ey ^ 2 + ez ^ 2 = 1 /\ forall mu, (Z.abs mu <= Z.of_nat l)%Z -> sph_value l mu k = real_sph l mu ex ey ez) -> omega l L m a b c k ^ 2 <= (2 * INR l + 1) / (4 * PI)).
  { intros [[ex ey] ez] (Hu & He). unfold omega. rewrite (zsum_ext _ _ _ (fun mu => moment2 l mu L m a b c * real_sph l mu ex ey ez)) by (intros mu Hmu; rewrite He by lia; reflexivity).
    apply (angular_bound a b c L m l (fun mu => moment2 l mu L m a b c) ex ey ez); try lia; assumption. }
  destruct k as [[ka kb] kc]. destruct (Rlt_dec (1 / 10 ^ 14) (norm3 ka kb kc)) as [Hk|Hk].
  - apply (DIR (ka / norm3 ka kb kc, kb / norm3 ka kb kc, kc / norm3 ka kb kc)). assert (0 < 1 / 10 ^ 14) by (apply Rdiv_lt_0_compat; [lra|apply pow_lt; lra]). pose proof (norm3_sq ka kb kc) as SQ. set (D := norm3 ka kb kc) in *. split.
    + replace ((ka / D) ^ 2 + (kb / D) ^ 2 + (kc / D) ^ 2) with ((ka * ka + kb * kb + kc * kc) / (D * D)) by (field; lra). rewrite <- SQ. field. lra.
    + intros mu _. unfold sph_value. fold D. destruct (Rlt_dec _ _); [reflexivity|contradiction].
  - destruct l as [|l].
    + apply (DIR (0, 0, 1)). split; [ring|]. intros mu Hmu. rewrite real_sph_0 by exact Hmu. unfold sph_value. destruct (Rlt_dec _ _); [contradiction|reflexivity].
    + assert (O0 : omega (S l) L m a b c (ka, kb, kc) = 0) by (unfold omega; apply zsum_zero; intros mu _; unfold sph_value; destruct (Rlt_dec _ _); [contradiction|]; cbn [Nat.eqb]; ring).
      rewrite O0. pose proof PI_RGT_0. pose proof (pos_INR (S l)). replace (0 ^ 2) with 0 by ring. apply Rdiv_le_0_compat; lra.
Qed.

Lemma omega_bound l L m a b c k : (L + (a + b + c) <= 14)%nat -> (l <= L + (a + b + c))%nat -> (Z.abs m <= Z.of_nat L)%Z -> Rabs (omega l L m a b c k) <= 152 / 100.
Proof.
  intros Hs Hl Hm. pose proof (omega_sq l L m a b c k Hs Hl Hm) as Q. assert (INR l <= 14) by (replace 14 with (INR 14) by (cbn; ring); apply le_INR; lia). pose proof (pos_INR l).
  pose proof PI_lower as P3. assert (P4 : 314 / 100 < PI) by (eapply Rlt_trans; [|exact P3]; lra). clear P3.
  assert (B : omega l L m a b c k ^ 2 <= 29 / (1256 / 100)).
  { eapply Rle_trans; [exact Q|]. apply Rle_trans with ((2 * INR l + 1) / (1256 / 100)); [|lra]. apply Rmult_le_compat_l; [lra|]. apply Rinv_le_contravar; lra. }
  set (w := omega l L m a b c k) in *. apply Rabs_le. split; nra.
Qed.
