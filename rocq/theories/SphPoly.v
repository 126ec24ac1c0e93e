(** * Expansion of the real spherical harmonics in monomials *)

From Coq Require Import ZArith Reals Lra Lia List Permutation.
From Coquelicot Require Import Coquelicot.
From Verif Require Import BinomProofs OneElProofs OneElInt Sums CartProofs SphSpec.
Open Scope R_scope.

(** ** Sums *)

Lemma rsum_plus n f g : rsum n (fun k => f k + g k) = rsum n f + rsum n g.
Proof. induction n as [|n IH]; cbn [rsum]; [ring|rewrite IH; ring]. Qed.
Lemma rsum_scal n c f : rsum n (fun k => c * f k) = c * rsum n f.
Proof. induction n as [|n IH]; cbn [rsum]; [ring|rewrite IH; ring]. Qed.
Lemma rsum_first n f : rsum (S n) f = f O + rsum n (fun k => f (S k)).
Proof. induction n as [|n IH]; [cbn; ring|]. cbn [rsum] in *. rewrite IH. ring. Qed.
Lemma rsum_zero n f : (forall k, (k < n)%nat -> f k = 0) -> rsum n f = 0.
Proof. induction n as [|n IH]; intros H; cbn [rsum]; [reflexivity|]. rewrite IH, H by (intros; try apply H; lia). ring. Qed.
Lemma rsum_swap n m (f : nat -> nat -> R) : rsum n (fun i => rsum m (fun j => f i j)) = rsum m (fun j => rsum n (fun i => f i j)).
Proof.
  induction n as [|n IH]; cbn [rsum]; [symmetry; apply rsum_zero; reflexivity|]. rewrite IH, <- rsum_plus. reflexivity.
Qed.
Lemma rsum_split n k f : rsum (n + k) f = rsum n f + rsum k (fun i => f (n + i)%nat).
Proof. induction k as [|k IH]; [rewrite Nat.add_0_r; cbn; ring|]. rewrite Nat.add_succ_r. cbn [rsum]. rewrite IH. ring. Qed.

(** ** Binomial coefficients as reals *)
Definition ch (n k : nat) : R := IZR (choose n k).

Lemma ch_0 n : ch n 0 = 1.
Proof. unfold ch. rewrite choose_0_r. reflexivity. Qed.
Lemma ch_S n k : ch (S n) (S k) = ch n k + ch n (S k).
Proof. unfold ch. change (choose (S n) (S k)) with (choose n k + choose n (S k))%Z. apply plus_IZR. Qed.
Lemma ch_gt n k : (n < k)%nat -> ch n k = 0.
Proof. intros H. unfold ch. rewrite choose_gt by exact H. reflexivity. Qed.
Lemma ch_diag n : ch n n = 1.
Proof. unfold ch. rewrite choose_diag. reflexivity. Qed.

(** sum over k <= n + 1 with a Pascal coefficient *)
Lemma pascal_sum n (f : nat -> R) : rsum (S (S n)) (fun k => ch (S n) k * f k) = rsum (S n) (fun k => ch n k * f (S k)) + rsum (S n) (fun k => ch n k * f k).
Proof.
  rewrite rsum_first. rewrite (rsum_ext (S n) (fun k => ch (S n) (S k) * f (S k)) (fun k => ch n k * f (S k) + ch n (S k) * f (S k))) by (intros; rewrite ch_S; ring).
  rewrite rsum_plus. rewrite (rsum_first n (fun k => ch n k * f k)). cbn [rsum]. rewrite (ch_gt n (S n)) by lia. rewrite !ch_0. ring.
Qed.

Lemma binom_thm n a b : (a + b) ^ n = rsum (S n) (fun k => ch n k * (a ^ k * b ^ (n - k))).
Proof.
  induction n as [|n IH]; [cbn; rewrite ch_0; ring|].
  rewrite (pascal_sum n (fun k => a ^ k * b ^ (S n - k))). cbn [pow]. rewrite IH, Rmult_plus_distr_r, <- !rsum_scal. f_equal; apply rsum_ext; intros k Hk.
  - cbn [pow]. change (S n - S k)%nat with (n - k)%nat. ring.
  - replace (S n - k)%nat with (S (n - k)) by lia. cbn [pow]. ring.
Qed.

(** ** Real and imaginary part of (x + iy)^n *)

(** real and imaginary part of i^n *)
Fixpoint ipow (n : nat) : R * R := match n with O => (1, 0) | S n' => let '(a, b) := ipow n' in (- b, a) end.

Lemma re_im_expand n x y :
  fst (re_im_pow n x y) = rsum (S n) (fun k => ch n k * (fst (ipow (n - k)) * x ^ k * y ^ (n - k))) /\
  snd (re_im_pow n x y) = rsum (S n) (fun k => ch n k * (snd (ipow (n - k)) * x ^ k * y ^ (n - k))).
Proof.
  induction n as [|n (IHa & IHb)]; [cbn; rewrite ch_0; split; ring|].
  cbn [re_im_pow]. destruct (re_im_pow n x y) as (a, b). cbn [fst snd] in *. subst a b.
  rewrite (pascal_sum n (fun k => fst (ipow (S n - k)) * x ^ k * y ^ (S n - k))), (pascal_sum n (fun k => snd (ipow (S n - k)) * x ^ k * y ^ (S n - k))).
  split.
  - unfold Rminus. rewrite Ropp_mult_distr_l, <- !rsum_scal. f_equal; apply rsum_ext; intros k Hk.
    + change (S n - S k)%nat with (n - k)%nat. cbn [pow]. ring.
    + replace (S n - k)%nat with (S (n - k)) by lia. cbn [ipow pow]. destruct (ipow (n - k)); cbn [fst snd]. ring.
  - rewrite <- !rsum_scal. f_equal; apply rsum_ext; intros k Hk.
    + change (S n - S k)%nat with (n - k)%nat. cbn [pow]. ring.
    + replace (S n - k)%nat with (S (n - k)) by lia. cbn [ipow pow]. destruct (ipow (n - k)); cbn [fst snd]. ring.
Qed.

(** ** The factor (x^2 + y^2)^j (x + iy)^mu *)

(** coefficient of x^p in the real (sg = false) or imaginary part *)
Definition gcf (sg : bool) (mu : nat) (p : Z) : R :=
  if (p <? 0)%Z then 0 else ch mu (Z.to_nat p) * (if sg then snd (ipow (mu - Z.to_nat p)) else fst (ipow (mu - Z.to_nat p))).

Lemma gcf_out sg mu p : (p < 0 \/ Z.of_nat mu < p)%Z -> gcf sg mu p = 0.
Proof. intros H. unfold gcf. destruct (Z.ltb_spec p 0); [reflexivity|]. rewrite ch_gt by lia. ring. Qed.

Fixpoint bcf (sg : bool) (mu j : nat) (p : Z) : R :=
  match j with O => gcf sg mu p | S j' => bcf sg mu j' (p - 2) + bcf sg mu j' p end.

Lemma bcf_out sg mu j : forall p, (p < 0 \/ Z.of_nat mu + 2 * Z.of_nat j < p)%Z -> bcf sg mu j p = 0.
Proof.
  induction j as [|j IH]; intros p H; cbn [bcf]; [apply gcf_out; lia|]. rewrite !IH by lia. ring.
Qed.

Lemma bcf_sum sg mu j : forall p, rsum (S j) (fun k => ch j k * gcf sg mu (p - 2 * Z.of_nat k)) = bcf sg mu j p.
Proof.
  induction j as [|j IH]; intros p; cbn [bcf].
  - cbn [rsum]. rewrite ch_0. change (2 * Z.of_nat 0)%Z with 0%Z. rewrite Z.sub_0_r. ring.
  - rewrite (pascal_sum j (fun k => gcf sg mu (p - 2 * Z.of_nat k))), <- !IH. f_equal. apply rsum_ext. intros k _. do 2 f_equal. lia.
Qed.

Definition tpart (sg : bool) (mu : nat) (x y : R) : R := if sg then snd (re_im_pow mu x y) else fst (re_im_pow mu x y).

Lemma gcf_poly sg mu x y : rsum (S mu) (fun p => gcf sg mu (Z.of_nat p) * (x ^ p * y ^ (mu - p))) = tpart sg mu x y.
Proof.
  unfold tpart. destruct (re_im_expand mu x y) as (Ea & Eb). destruct sg; [rewrite Eb|rewrite Ea]; apply rsum_ext; intros p Hp; unfold gcf;
    (destruct (Z.ltb_spec (Z.of_nat p) 0); [lia|]); rewrite Nat2Z.id; ring.
Qed.

Lemma bcf_poly sg mu x y : forall j, rsum (S (mu + 2 * j)) (fun p => bcf sg mu j (Z.of_nat p) * (x ^ p * y ^ (mu + 2 * j - p))) = (x ^ 2 + y ^ 2) ^ j * tpart sg mu x y.
Proof.
  induction j as [|j IH].
  - rewrite Nat.mul_0_r, Nat.add_0_r. cbn [bcf pow]. rewrite gcf_poly. ring.
  - change ((x ^ 2 + y ^ 2) ^ S j) with ((x ^ 2 + y ^ 2) * (x ^ 2 + y ^ 2) ^ j). rewrite Rmult_assoc, <- IH. set (N := (mu + 2 * j)%nat).
    replace (mu + 2 * S j)%nat with (S (S N)) by (unfold N; lia).
    rewrite (rsum_ext _ _ (fun p => bcf sg mu j (Z.of_nat p - 2) * (x ^ p * y ^ (S (S N) - p)) + bcf sg mu j (Z.of_nat p) * (x ^ p * y ^ (S (S N) - p))))
      by (intros; cbn [bcf]; ring).
    rewrite rsum_plus. rewrite Rmult_plus_distr_r. f_equal.
    + rewrite rsum_first, rsum_first. rewrite !(bcf_out sg mu j) by lia. rewrite <- rsum_scal, !Rmult_0_l, !Rplus_0_l. apply rsum_ext. intros p Hp.
      replace (Z.of_nat (S (S p)) - 2)%Z with (Z.of_nat p) by lia. replace (S (S N) - S (S p))%nat with (N - p)%nat by lia. cbn [pow]. ring.
    + cbn [rsum]. rewrite (bcf_out sg mu j (Z.of_nat (S N))), (bcf_out sg mu j (Z.of_nat (S (S N)))) by (unfold N; lia).
      rewrite !Rmult_0_l, !Rplus_0_r. rewrite Rmult_plus_distr_l, <- rsum_scal. f_equal.
      * apply rsum_ext. intros p Hp. replace (S (S N) - p)%nat with (S (S (N - p))) by lia. cbn [pow]. ring.
      * replace (S (S N) - N)%nat with 2%nat by lia. rewrite Nat.sub_diag. cbn [pow]. ring.
Qed.

(** ** The factor depending on z *)

(** sum over i of (number of terms n/2 + 1) of C(l,i) (-1)^i (2l-2i)!/(n-2i)! times C(i,j) *)
Definition ccf (l n i : nat) : R := ch l i * (-1) ^ i * (INR (fact (2 * l - 2 * i)) / INR (fact (n - 2 * i))).
Definition hcf (l n j : nat) : R := rsum (S (Nat.div2 n) - j) (fun q => ccf l n (j + q) * ch (j + q) j).

Lemma hcf_poly l n r2 z : rsum (S (Nat.div2 n)) (fun j => hcf l n j * (z ^ (n - 2 * j) * r2 ^ j)) =
  rsum (S (Nat.div2 n)) (fun i => ccf l n i * (z ^ (n - 2 * i) * (r2 + z ^ 2) ^ i)).
Proof.
  set (h := Nat.div2 n). assert (Hh : (2 * h <= n)%nat) by (unfold h; pose proof (Nat.div2_odd n); destruct (Nat.odd n); cbn [Nat.b2n] in *; lia).
  rewrite (rsum_ext (S h) _ (fun j => rsum (S h) (fun i => ccf l n i * ch i j * (z ^ (n - 2 * j) * r2 ^ j)))).
  2:{ intros j Hj. unfold hcf. fold h. replace (S h) with (j + (S h - j))%nat at 2 by lia. rewrite (rsum_split j).
      rewrite (rsum_zero j) by (intros i Hi; rewrite ch_gt by lia; ring). rewrite Rplus_0_l, Rmult_comm, <- rsum_scal. apply rsum_ext. intros q _. ring. }
  rewrite rsum_swap. apply rsum_ext. intros i Hi. rewrite binom_thm.
  rewrite <- Rmult_assoc, <- rsum_scal. replace (S h) with (S i + (h - i))%nat by lia. rewrite rsum_split.
  rewrite (rsum_zero (h - i)) by (intros q Hq; rewrite ch_gt by lia; ring). rewrite Rplus_0_r. apply rsum_ext. intros j Hj.
  assert (E : z ^ (n - 2 * j) = z ^ (n - 2 * i) * (z ^ 2) ^ (i - j)) by (rewrite <- pow_mult, <- pow_add; f_equal; lia). rewrite E. ring.
Qed.

(** Rodrigues' formula *)
Definition ffact (e k : nat) : R := if (k <=? e)%nat then INR (fact e) / INR (fact (e - k)) else 0.

Lemma ffact_S e k : ffact e (S k) = ffact e k * INR (e - k).
Proof.
  unfold ffact. destruct (Nat.leb_spec (S k) e) as [H|H]; destruct (Nat.leb_spec k e) as [H2|H2]; try lia.
  - replace (e - k)%nat with (S (e - S k)) by lia. change (fact (S (e - S k))) with (S (e - S k) * fact (e - S k))%nat. rewrite mult_INR.
    pose proof (INR_fact_neq_0 (e - S k)). pose proof (not_0_INR (S (e - S k)) ltac:(lia)). field. split; assumption.
  - replace (e - k)%nat with 0%nat by lia. cbn [INR]. ring.
  - ring.
Qed.

Lemma rsum_derive N (f g : nat -> R -> R) x : (forall i, (i < N)%nat -> is_derive (f i) x (g i x)) -> is_derive (fun y => rsum N (fun i => f i y)) x (rsum N (fun i => g i x)).
Proof.
  induction N as [|N IH]; intros H; cbn [rsum]; [apply (is_derive_const 0)|].
  apply (is_derive_plus (fun y => rsum N (fun i => f i y)) (f N)); [apply IH; intros; apply H; lia|apply H; lia].
Qed.

Lemma derive_n_poly N (c : nat -> R) (e : nat -> nat) k : forall x,
  Derive_n (fun t => rsum N (fun i => c i * t ^ e i)) k x = rsum N (fun i => c i * (ffact (e i) k * x ^ (e i - k))).
Proof.
  induction k as [|k IH]; intros x; cbn [Derive_n].
  - apply rsum_ext. intros i _. unfold ffact. cbn [Nat.leb]. rewrite Nat.sub_0_r. field. apply INR_fact_neq_0.
  - rewrite (Derive_ext _ (fun x => rsum N (fun i => c i * (ffact (e i) k * x ^ (e i - k)))) x IH). apply is_derive_unique.
    apply (rsum_derive N (fun i x => c i * (ffact (e i) k * x ^ (e i - k))) (fun i x => c i * (ffact (e i) (S k) * x ^ (e i - S k)))).
    intros i _. auto_derive; [trivial|]. rewrite ffact_S. replace (Init.Nat.pred (e i - k)) with (e i - S k)%nat by lia. ring.
Qed.

Lemma rodrigues_sum l n z : (n <= l)%nat -> rodrigues l (l + (l - n)) z = rsum (S (Nat.div2 n)) (fun i => ccf l n i * z ^ (n - 2 * i)).
Proof.
  intros Hn. unfold rodrigues.
  rewrite (Derive_n_ext _ (fun t => rsum (S l) (fun i => (ch l i * (-1) ^ i) * t ^ (2 * l - 2 * i)))).
  2:{ intros t. replace (t ^ 2 - 1) with (-1 + t ^ 2) by ring. rewrite binom_thm. apply rsum_ext. intros i Hi.
      rewrite <- pow_mult. replace (2 * (l - i))%nat with (2 * l - 2 * i)%nat by lia. ring. }
  rewrite (derive_n_poly (S l) (fun i => ch l i * (-1) ^ i) (fun i => (2 * l - 2 * i)%nat)).
  set (h := Nat.div2 n). assert (Hh : (2 * h <= n /\ n < 2 * S h)%nat) by (unfold h; pose proof (Nat.div2_odd n); destruct (Nat.odd n); cbn [Nat.b2n] in *; lia).
  replace (S l) with (S h + (l - h))%nat by lia. rewrite rsum_split.
  rewrite (rsum_zero (l - h)).
  2:{ intros q Hq. unfold ffact. destruct (Nat.leb_spec (l + (l - n)) (2 * l - 2 * (S h + q))); [lia|ring]. }
  rewrite Rplus_0_r. apply rsum_ext. intros i Hi. unfold ffact, ccf. destruct (Nat.leb_spec (l + (l - n)) (2 * l - 2 * i)); [|lia].
  replace (2 * l - 2 * i - (l + (l - n)))%nat with (n - 2 * i)%nat by lia. ring.
Qed.

(** ** Summation over the components of degree l *)

Lemma lsum_perm {A} (f : A -> R) l l' : Permutation l l' -> lsum f l = lsum f l'.
Proof. unfold lsum. induction 1; cbn [fold_right]; lra. Qed.

Lemma lsum_app {A} (f : A -> R) l l' : lsum f (l ++ l') = lsum f l + lsum f l'.
Proof. unfold lsum. induction l as [|a l IH]; cbn [app fold_right]; [ring|]. rewrite IH. ring. Qed.

(** the list of components ordered by r + s *)
Definition by_degree (l : nat) : list (Z * Z * Z) :=
  flat_map (fun N => map (fun r => (Z.of_nat r, Z.of_nat (N - r), Z.of_nat (l - N))) (seq 0 (S N))) (seq 0 (S l)).

Lemma lsum_seq n (f : nat -> R) : lsum f (seq 0 n) = rsum n f.
Proof. induction n as [|n IH]; [reflexivity|]. rewrite seq_S, lsum_app, IH. cbn [rsum]. unfold lsum. cbn [fold_right]. cbn. ring. Qed.

Lemma lsum_map {A B} (g : A -> B) (f : B -> R) l : lsum f (map g l) = lsum (fun a => f (g a)) l.
Proof. unfold lsum. induction l as [|a l IH]; cbn [map fold_right]; [reflexivity|]. rewrite IH. reflexivity. Qed.

Lemma lsum_flat_map {A B} (g : A -> list B) (f : B -> R) l : lsum f (flat_map g l) = lsum (fun a => lsum f (g a)) l.
Proof. induction l as [|a l IH]; [reflexivity|]. cbn [flat_map]. rewrite lsum_app, IH. reflexivity. Qed.

Lemma in_by_degree l r s t : In (r, s, t) (by_degree l) <-> (0 <= r /\ 0 <= s /\ 0 <= t /\ r + s + t = Z.of_nat l)%Z.
Proof.
  unfold by_degree. rewrite in_flat_map. split.
  - intros (N & HN & H). apply in_map_iff in H. destruct H as (q & E & Hq). apply in_seq in HN. apply in_seq in Hq. injection E as <- <- <-. lia.
  - intros H. exists (Z.to_nat (r + s)). split; [apply in_seq; lia|]. apply in_map_iff. exists (Z.to_nat r). split; [|apply in_seq; lia].
    f_equal; [f_equal|]; lia.
Qed.

Lemma nodup_by_degree l : NoDup (by_degree l).
Proof.
  unfold by_degree. apply nodup_flat_map.
  - apply seq_NoDup.
  - intros N _. apply FinFun.Injective_map_NoDup; [|apply seq_NoDup]. intros a b E. injection E. lia.
  - intros N N' [[r s] t] HN HN' Ha Hb. apply in_map_iff in Ha. apply in_map_iff in Hb. destruct Ha as (q & E & Hq). destruct Hb as (q' & E' & Hq').
    apply in_seq in HN, HN', Hq, Hq'. injection E as <- <- <-. injection E'. lia.
Qed.

Lemma components_sum l comps (f : Z * Z * Z -> R) : NoDup comps ->
  (forall r s t, In (r, s, t) comps <-> (0 <= r /\ 0 <= s /\ 0 <= t /\ r + s + t = Z.of_nat l)%Z) ->
  lsum f comps = rsum (S l) (fun N => rsum (S N) (fun r => f (Z.of_nat r, Z.of_nat (N - r), Z.of_nat (l - N)))).
Proof.
  intros HN Hin. rewrite (lsum_perm f comps (by_degree l)).
  - unfold by_degree. rewrite lsum_flat_map, lsum_seq. apply rsum_ext. intros N _. rewrite lsum_map, lsum_seq. reflexivity.
  - apply NoDup_Permutation; [exact HN|apply nodup_by_degree|]. intros [[r s] t]. rewrite Hin, in_by_degree. tauto.
Qed.

(** terms that are zero unless N = mu + 2j *)
Lemma every_second mu n (G : nat -> R) : (forall N, (N < mu)%nat -> G N = 0) -> (forall j, G (mu + 2 * j + 1)%nat = 0) ->
  rsum (S (mu + n)) G = rsum (S (Nat.div2 n)) (fun j => G (mu + 2 * j)%nat).
Proof.
  intros H0 H1. replace (S (mu + n)) with (mu + S n)%nat by lia. rewrite rsum_split, (rsum_zero mu) by exact H0. rewrite Rplus_0_l.
  assert (K : forall n, rsum (S n) (fun i => G (mu + i)%nat) = rsum (S (Nat.div2 n)) (fun j => G (mu + 2 * j)%nat) /\
                        rsum (S (S n)) (fun i => G (mu + i)%nat) = rsum (S (Nat.div2 (S n))) (fun j => G (mu + 2 * j)%nat)).
  { clear n. induction n as [|n (IH1 & IH2)].
    - split; [reflexivity|]. cbn [Nat.div2 rsum]. specialize (H1 0%nat). rewrite Nat.mul_0_r, Nat.add_0_r in *. rewrite H1. ring.
    - split; [exact IH2|]. cbn [rsum] in *. rewrite IH1 at 1. clear IH1 IH2.
      change (Nat.div2 (S (S n))) with (S (Nat.div2 n)). cbn [rsum].
      pose proof (Nat.div2_odd n) as E. destruct (Nat.odd n); cbn [Nat.b2n] in E.
      + replace (mu + S n)%nat with (mu + 2 * (S (Nat.div2 n)))%nat by lia. replace (mu + S (S n))%nat with (mu + 2 * S (Nat.div2 n) + 1)%nat by lia. rewrite H1. ring.
      + replace (mu + S n)%nat with (mu + 2 * (Nat.div2 n) + 1)%nat by lia. replace (mu + S (S n))%nat with (mu + 2 * S (Nat.div2 n))%nat by lia. rewrite H1. ring. }
  apply K.
Qed.
