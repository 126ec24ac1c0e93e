(** * Proofs about the Cartesian component generators. *)

From Coq Require Import ZArith List Lia Bool FinFun.
From Verif Require Import Base CartModel.
Import ListNotations.
Open Scope Z_scope.

(** [n, n-1, ..., 0] *)
Fixpoint down_nat (n : nat) : list Z :=
  match n with O => [] | S n' => Z.of_nat n' :: down_nat n' end.
Definition down (n : Z) : list Z := down_nat (Z.to_nat (n + 1)).

Fixpoint up_nat (n : nat) (lo : Z) : list Z :=
  match n with O => [] | S n' => lo :: up_nat n' (lo + 1) end.
Definition up (n : Z) : list Z := up_nat (Z.to_nat (n + 1)) 0.

(** the canonical enumeration *)
Definition canon (L : Z) : list (Z * Z * Z) :=
  flat_map (fun r => map (fun s => (r, s, L - r - s)) (down (L - r))) (down L).

Lemma down_cons n : 0 <= n -> down n = n :: down (n - 1).
Proof.
  intros H. unfold down.
  replace (Z.to_nat (n + 1)) with (S (Z.to_nat (n - 1 + 1))) by lia.
  simpl. f_equal. lia.
Qed.

Lemma down_nil n : n < 0 -> down n = [].
Proof. intros H. unfold down. replace (Z.to_nat (n + 1)) with O by lia. reflexivity. Qed.

Lemma in_down_nat n x : In x (down_nat n) <-> 0 <= x < Z.of_nat n.
Proof.
  induction n as [|n IH]; simpl; [lia|]. rewrite IH. lia.
Qed.

Lemma in_down n x : In x (down n) <-> 0 <= x <= n.
Proof. unfold down. rewrite in_down_nat. lia. Qed.

Lemma nodup_down n : NoDup (down n).
Proof.
  unfold down. induction (Z.to_nat (n + 1)) as [|k IH]; simpl; constructor; [|exact IH].
  rewrite in_down_nat. lia.
Qed.

Lemma length_down n : -1 <= n -> Z.of_nat (length (down n)) = n + 1.
Proof.
  intros H. unfold down.
  assert (E : forall k, length (down_nat k) = k) by (induction k; simpl; congruence).
  rewrite E. lia.
Qed.

Lemma in_canon L r s t :
  In (r, s, t) (canon L) <-> 0 <= r /\ 0 <= s /\ 0 <= t /\ r + s + t = L.
Proof.
  unfold canon. rewrite in_flat_map. split.
  - intros (x & Hx & Hin). rewrite in_down in Hx.
    rewrite in_map_iff in Hin. destruct Hin as (y & E & Hy).
    rewrite in_down in Hy. injection E as <- <- <-. lia.
  - intros (H1 & H2 & H3 & H4). exists r. split; [rewrite in_down; lia|].
    rewrite in_map_iff. exists s. split; [f_equal; lia | rewrite in_down; lia].
Qed.

Lemma nodup_flat_map {A B} (f : A -> list B) l :
  NoDup l -> (forall x, In x l -> NoDup (f x)) ->
  (forall x y z, In x l -> In y l -> In z (f x) -> In z (f y) -> x = y) ->
  NoDup (flat_map f l).
Proof.
  induction l as [|a l IH]; intros Hl Hf Hd; simpl; [constructor|].
  inversion Hl as [|? ? Hna Hnd]; subst.
  assert (H1 : NoDup (f a)) by (apply Hf; left; reflexivity).
  assert (H2 : NoDup (flat_map f l)).
  { apply IH; [exact Hnd | intros; apply Hf; right; assumption |].
    intros x y z Hx Hy. apply Hd; right; assumption. }
  clear IH. revert H1. assert (Hdis : forall z, In z (f a) -> ~ In z (flat_map f l)).
  { intros z Hz Hz'. rewrite in_flat_map in Hz'. destruct Hz' as (y & Hy & Hz').
    assert (a = y) by (eapply Hd; [left; reflexivity | right; exact Hy | exact Hz | exact Hz']).
    subst. contradiction. }
  revert Hdis. induction (f a) as [|b fl IHf]; intros Hdis H1; simpl; [exact H2|].
  inversion H1 as [|? ? Hnb Hnd']; subst. constructor.
  - rewrite in_app_iff. intros [H|H]; [contradiction|].
    apply (Hdis b); [left; reflexivity | exact H].
  - apply IHf; [|exact Hnd']. intros z Hz. apply Hdis. right. exact Hz.
Qed.

Lemma nodup_canon L : NoDup (canon L).
Proof.
  unfold canon. apply nodup_flat_map.
  - apply nodup_down.
  - intros r _. apply Injective_map_NoDup; [|apply nodup_down].
    intros x y E. injection E. auto.
  - intros x y z _ _ Hx Hy. rewrite in_map_iff in Hx, Hy.
    destruct Hx as (s1 & E1 & _). destruct Hy as (s2 & E2 & _). congruence.
Qed.

Lemma length_flat_map_down L : forall r, -1 <= r <= L ->
  2 * Z.of_nat (length (flat_map (fun r => map (fun s => (r, s, L - r - s)) (down (L - r))) (down r)))
  = (r + 1) * (2 * L - r + 2).
Proof.
  intros r [Hr1 Hr2].
  remember (Z.to_nat (r + 1)) as n eqn:En. revert r Hr1 Hr2 En.
  induction n as [|n IH]; intros r Hr1 Hr2 En.
  - assert (r = -1) by lia. subst. rewrite down_nil by lia. reflexivity.
  - rewrite down_cons by lia. simpl flat_map.
    rewrite app_length, map_length, Nat2Z.inj_add, length_down by lia.
    specialize (IH (r - 1)). rewrite Z.mul_add_distr_l, IH by lia. ring.
Qed.

Lemma length_canon2 L : -1 <= L -> 2 * Z.of_nat (length (canon L)) = (L + 1) * (L + 2).
Proof.
  intros H. unfold canon. rewrite length_flat_map_down by lia. ring.
Qed.

Lemma length_canon L : -1 <= L -> Z.of_nat (length (canon L)) = n_cart L.
Proof.
  intros H. unfold n_cart. rewrite <- length_canon2 by exact H.
  rewrite Z.mul_comm, Z.quot_mul; lia.
Qed.

Lemma n_cart_2 L : -1 <= L -> 2 * n_cart L = (L + 1) * (L + 2).
Proof. intros H. rewrite <- length_canon by exact H. apply length_canon2, H. Qed.

(** ** The array holds a list of triples *)

Definition triple_nth (l : list (Z * Z * Z)) (k : Z) : Z * Z * Z := nth (Z.to_nat k) l (0, 0, 0).

Definition holds (cap : Z) (l : list (Z * Z * Z)) (st : gst) : Prop :=
  adims (fst st) = [cap] /\ snd st = Z.of_nat (length l) /\
  forall k, 0 <= k < Z.of_nat (length l) ->
    acell (fst st) [3 * k + 0] = Some (fst (fst (triple_nth l k))) /\
    acell (fst st) [3 * k + 1] = Some (snd (fst (triple_nth l k))) /\
    acell (fst st) [3 * k + 2] = Some (snd (triple_nth l k)).

(** [emits body l]: running [body] appends exactly the triples [l] *)
Definition emits (cap : Z) (body : gst -> res gst) (l : list (Z * Z * Z)) : Prop :=
  forall acc st, holds cap acc st ->
    3 * (Z.of_nat (length acc) + Z.of_nat (length l)) <= cap ->
    exists st', body st = Ok st' /\ holds cap (acc ++ l) st'.

Lemma emits_put3 cap r s t : emits cap (put3 r s t) [(r, s, t)].
Proof.
  intros acc [a count] (Hd & Hc & Hk) Hcap. cbn [fst snd length] in *.
  unfold put3. subst count. set (c := Z.of_nat (length acc)) in *.
  destruct (aset_ok a [3 * c + 0] r) as (a1 & E1 & D1 & G1 & O1).
  { rewrite Hd. apply inb1. lia. }
  rewrite E1. cbn [bind].
  destruct (aset_ok a1 [3 * c + 1] s) as (a2 & E2 & D2 & G2 & O2).
  { rewrite D1, Hd. apply inb1. lia. }
  rewrite E2. cbn [bind].
  destruct (aset_ok a2 [3 * c + 2] t) as (a3 & E3 & D3 & G3 & O3).
  { rewrite D2, D1, Hd. apply inb1. lia. }
  rewrite E3. cbn [bind].
  eexists; split; [reflexivity|]. split; [cbn [fst]; congruence|].
  split; [cbn [snd]; rewrite app_length; cbn [length]; lia|].
  rewrite app_length. cbn [length fst]. intros k Hk'.
  assert (Hne : forall x y : Z, x <> y -> [x] <> [y]) by (intros x y Hxy E; injection E; exact Hxy).
  destruct (Z.eq_dec k c) as [->|Hkc].
  - unfold triple_nth. unfold c. rewrite Nat2Z.id, app_nth2, Nat.sub_diag by lia. cbn [nth fst snd]. fold c.
    rewrite (O3 [3 * c + 0]), (O3 [3 * c + 1]), (O2 [3 * c + 0]) by (apply Hne; lia).
    rewrite G3, G2, G1. auto.
  - assert (Hlt : 0 <= k < c) by lia.
    destruct (Hk k Hlt) as (A0 & A1 & A2).
    unfold triple_nth. rewrite app_nth1 by lia. fold (triple_nth acc k).
    rewrite O3, O2, O1 by (apply Hne; lia).
    rewrite O3, O2, O1 by (apply Hne; lia).
    rewrite O3, O2, O1 by (apply Hne; lia). auto.
Qed.

Lemma emits_nil cap : emits cap (fun st => Ok st) [].
Proof.
  intros acc st H _. exists st. split; [reflexivity|]. rewrite app_nil_r. exact H.
Qed.

Lemma emits_for_down cap (body : Z -> gst -> res gst) (f : Z -> list (Z * Z * Z)) n :
  (forall i, 0 <= i <= n -> emits cap (body i) (f i)) ->
  emits cap (for_down n 0 body) (flat_map f (down n)).
Proof.
  intros Hb.
  assert (Hsmall : n < 0 \/ 0 <= n) by lia.
  destruct Hsmall as [Hn|Hn].
  { intros acc st H _. rewrite down_nil by lia. rewrite for_down_nil by lia.
    exists st. simpl. rewrite app_nil_r. auto. }
  remember (Z.to_nat (n + 1)) as m eqn:Em. revert n Hn Hb Em.
  induction m as [|m IH]; intros n Hn Hb Em; [lia|].
  intros acc st H Hcap. rewrite down_cons in * by lia. simpl flat_map in *.
  rewrite app_length in Hcap. rewrite for_down_step by lia.
  destruct (Hb n ltac:(lia) acc st H) as (st1 & E1 & H1); [lia|].
  rewrite E1. simpl.
  destruct (Z.eq_dec n 0) as [->|Hnz].
  - rewrite for_down_nil by lia. exists st1. rewrite (down_nil (0 - 1)) by lia. simpl.
    rewrite app_nil_r. auto.
  - destruct (IH (n - 1) ltac:(lia)) with (acc := acc ++ f n) (st := st1) as (st2 & E2 & H2).
    + intros i Hi. apply Hb. lia.
    + lia.
    + exact H1.
    + rewrite app_length. lia.
    + exists st2. rewrite app_assoc. auto.
Qed.

Lemma emits_ext cap body l l' : l = l' -> emits cap body l -> emits cap body l'.
Proof. intros ->. auto. Qed.

Lemma flat_map_ext_in {A B} (f g : A -> list B) l :
  (forall x, In x l -> f x = g x) -> flat_map f l = flat_map g l.
Proof.
  induction l as [|a l IH]; intros H; simpl; [reflexivity|].
  rewrite H by (left; reflexivity). rewrite IH; [reflexivity|].
  intros x Hx. apply H. right. exact Hx.
Qed.

Lemma flat_map_single {A B} (f : A -> B) l : flat_map (fun x => [f x]) l = map f l.
Proof. induction l as [|a l IH]; simpl; congruence. Qed.

(** the guard [if (x == c)] inside a descending loop selects one element *)
Lemma flat_map_guard {B} (f : Z -> B) c n :
  flat_map (fun x => if x =? c then [f x] else []) (down n)
  = if (0 <=? c) && (c <=? n) then [f c] else [].
Proof.
  destruct (Z_lt_dec n 0) as [Hn|Hn].
  { rewrite down_nil by lia.
    destruct (Z.leb_spec 0 c); destruct (Z.leb_spec c n); simpl; try reflexivity; lia. }
  remember (Z.to_nat (n + 1)) as m eqn:Em. revert n Hn Em.
  induction m as [|m IH]; intros n Hn Em; [lia|].
  rewrite down_cons by lia. cbn [flat_map].
  destruct (Z.eq_dec n 0) as [->|Hnz].
  - rewrite (down_nil (0 - 1)) by lia. cbn [flat_map].
    destruct (Z.eqb_spec 0 c); destruct (Z.leb_spec 0 c); destruct (Z.leb_spec c 0);
      simpl; subst; try reflexivity; lia.
  - rewrite IH by lia.
    destruct (Z.eqb_spec n c); destruct (Z.leb_spec 0 c); destruct (Z.leb_spec c n);
      destruct (Z.leb_spec c (n - 1)); simpl; subst; try reflexivity; lia.
Qed.

(** and so does the guard on the middle loop *)
Lemma flat_map_guard_le {B} (f : Z -> B) c n :
  c <= n ->
  flat_map (fun x => if (0 <=? c - x) && (c - x <=? n) then [f x] else []) (down n)
  = map f (down c).
Proof.
  intros Hc.
  destruct (Z_lt_dec n 0) as [Hn|Hn].
  { rewrite !down_nil by lia. reflexivity. }
  remember (Z.to_nat (n - c)) as m eqn:Em. revert n Hn Hc Em.
  induction m as [|m IH]; intros n Hn Hc Em.
  - assert (n = c) by lia. subst.
    rewrite (flat_map_ext_in _ (fun x => [f x])); [apply flat_map_single|].
    intros x Hx. rewrite in_down in Hx.
    destruct (Z.leb_spec 0 (c - x)); destruct (Z.leb_spec (c - x) c); simpl; try reflexivity; lia.
  - rewrite (down_cons n) by lia. cbn [flat_map].
    destruct (Z.leb_spec 0 (c - n)); [lia|]. simpl.
    destruct (Z.eq_dec n 0) as [->|Hnz].
    + rewrite (down_nil (0 - 1)), (down_nil c) by lia. reflexivity.
    + rewrite <- (IH (n - 1)) by lia.
      apply flat_map_ext_in. intros x Hx. rewrite in_down in Hx.
      destruct (Z.leb_spec 0 (c - x)); destruct (Z.leb_spec (c - x) n);
        destruct (Z.leb_spec (c - x) (n - 1)); simpl; try reflexivity; lia.
Qed.

Lemma dirac_list_eq L : 0 <= L ->
  flat_map (fun r => flat_map (fun s => flat_map (fun t =>
     if r + s + t =? L then [(r, s, t)] else []) (down L)) (down L)) (down L) = canon L.
Proof.
  intros HL. unfold canon. apply flat_map_ext_in. intros r Hr. rewrite in_down in Hr.
  transitivity (flat_map (fun s => if (0 <=? (L - r) - s) && ((L - r) - s <=? L)
                                   then [(r, s, L - r - s)] else []) (down L)).
  - apply flat_map_ext_in. intros s Hs.
    rewrite (flat_map_ext_in _ (fun t => if t =? L - r - s then [(r, s, t)] else [])).
    + rewrite (flat_map_guard (fun t => (r, s, t))). reflexivity.
    + intros t _. destruct (Z.eqb_spec (r + s + t) L); destruct (Z.eqb_spec t (L - r - s));
        try reflexivity; lia.
  - apply (flat_map_guard_le (fun s => (r, s, L - r - s))). lia.
Qed.

Definition dirac_loops (L : Z) : gst -> res gst :=
  for_down L 0 (fun r => for_down L 0 (fun s => for_down L 0 (fun t st =>
      if r + s + t =? L then put3 r s t st else Ok st))).

Definition turbomole_loops (L : Z) : gst -> res gst :=
  for_down L 0 (fun r => for_down (L - r) 0 (fun s st => let t := L - r - s in put3 r s t st)).

Lemma emits_dirac cap L : 0 <= L -> emits cap (dirac_loops L) (canon L).
Proof.
  intros HL. eapply emits_ext; [apply dirac_list_eq; exact HL|].
  unfold dirac_loops. apply emits_for_down. intros r Hr.
  apply emits_for_down. intros s Hs. apply emits_for_down. intros t Ht.
  destruct (r + s + t =? L); [apply emits_put3 | apply emits_nil].
Qed.

Lemma emits_turbomole cap L : 0 <= L -> emits cap (turbomole_loops L) (canon L).
Proof.
  intros HL. unfold canon, turbomole_loops. apply emits_for_down. intros r Hr.
  rewrite <- flat_map_single. apply emits_for_down. intros s Hs. apply emits_put3.
Qed.

Lemma emits_order o cap L (a : arr Z) : 0 <= L -> adims a = [cap] ->
  3 * n_cart L <= cap ->
  exists st, cartesian_generator o L a = Ok (n_cart L, st) /\ holds cap (canon L) st.
Proof.
  intros HL Hd Hcap.
  assert (H0 : holds cap [] (a, 0)).
  { split; [exact Hd|]. split; [reflexivity|]. simpl. intros; lia. }
  destruct o; unfold cartesian_generator.
  - destruct (emits_dirac cap L HL [] (a, 0) H0) as (st & E & H).
    { cbn [length]. rewrite length_canon by lia. lia. }
    unfold cartesian_generator_dirac. unfold dirac_loops in E. rewrite E. simpl.
    exists st. auto.
  - destruct (emits_turbomole cap L HL [] (a, 0) H0) as (st & E & H).
    { cbn [length]. rewrite length_canon by lia. lia. }
    unfold cartesian_generator_turbomole. unfold turbomole_loops in E. rewrite E. simpl.
    exists st. auto.
Qed.

Lemma holds_get cap l st : holds cap l st -> 3 * Z.of_nat (length l) <= cap ->
  forall i, 0 <= i < Z.of_nat (length l) ->
  aget (fst st) [3 * i + 0] = Ok (fst (fst (triple_nth l i))) /\
  aget (fst st) [3 * i + 1] = Ok (snd (fst (triple_nth l i))) /\
  aget (fst st) [3 * i + 2] = Ok (snd (triple_nth l i)).
Proof.
  intros (Hd & Hc & Hk) Hcap i Hi. destruct (Hk i Hi) as (A0 & A1 & A2).
  repeat split; apply aget_ok; try assumption; rewrite Hd; apply inb1; lia.
Qed.

Lemma read_triples_holds cap l st : holds cap l st -> 3 * Z.of_nat (length l) <= cap ->
  forall n i, 0 <= i -> i + Z.of_nat n = Z.of_nat (length l) ->
  read_triples n i (fst st) = Ok (skipn (Z.to_nat i) l).
Proof.
  intros H Hcap.
  induction n as [|n IH]; intros i Hi E; cbn [read_triples].
  - rewrite skipn_all2 by lia. reflexivity.
  - destruct (holds_get cap l st H Hcap i ltac:(lia)) as (A0 & A1 & A2).
    rewrite A0. cbn [bind]. rewrite A1. cbn [bind]. rewrite A2.
    cbn [bind]. rewrite IH by lia. cbn [bind].
    f_equal. replace (Z.to_nat (i + 1)) with (S (Z.to_nat i)) by lia.
    unfold triple_nth.
    assert (Hlen : (Z.to_nat i < length l)%nat) by lia.
    clear -Hlen. revert Hlen. generalize (Z.to_nat i) as k. intros k. revert k.
    induction l as [|[[x y] z] l IHl]; intros k Hk; [simpl in Hk; lia|].
    destruct k as [|k]; [reflexivity|]. simpl in Hk.
    change (skipn (S (S k)) ((x, y, z) :: l)) with (skipn (S k) l).
    change (skipn (S k) ((x, y, z) :: l)) with (skipn k l).
    change (nth (S k) ((x, y, z) :: l) (0, 0, 0)) with (nth k l (0, 0, 0)).
    apply IHl. lia.
Qed.

Lemma shell_components_canon o L : 0 <= L -> shell_components o L = Ok (canon L).
Proof.
  intros HL. unfold shell_components, generate_shell_cartesians.
  destruct (emits_order o (3 * n_cart L) L (aconst [3 * n_cart L] 0) HL eq_refl) as (st & E & H); [lia|].
  rewrite E. simpl. destruct st as [a c]. cbn [bind].
  change a with (fst (a, c)). rewrite (read_triples_holds (3 * n_cart L) (canon L) (a, c) H).
  - reflexivity.
  - rewrite length_canon by lia. lia.
  - lia.
  - rewrite length_canon by lia. generalize (length_canon L ltac:(lia)). lia.
Qed.

(** ** Index lookup *)

Lemma search_found cap l st n l0 m : holds cap l st -> 3 * Z.of_nat (length l) <= cap ->
  forall fuel index, 0 <= index -> index + Z.of_nat fuel = Z.of_nat (length l) ->
  exists k, search_nlm fuel (fst st) n l0 m index = Ok k /\ index <= k <= Z.of_nat (length l) /\
    (forall j, index <= j < k -> triple_nth l j <> (n, l0, m)) /\
    (k < Z.of_nat (length l) -> triple_nth l k = (n, l0, m)).
Proof.
  intros H Hcap. induction fuel as [|fuel IH]; intros index Hi E.
  - exists index. simpl. split; [reflexivity|]. split; [lia|]. split; intros; lia.
  - destruct (holds_get cap l st H Hcap index ltac:(lia)) as (A0 & A1 & A2).
    cbn [search_nlm]. rewrite A0. cbn [bind].
    assert (Hnext : triple_nth l index <> (n, l0, m) ->
      exists k, search_nlm fuel (fst st) n l0 m (index + 1) = Ok k /\ index <= k <= Z.of_nat (length l) /\
      (forall j, index <= j < k -> triple_nth l j <> (n, l0, m)) /\
      (k < Z.of_nat (length l) -> triple_nth l k = (n, l0, m))).
    { intros Hne. destruct (IH (index + 1)) as (k & Ek & Hk & Hj & Hk'); [lia|lia|].
      exists k. split; [exact Ek|]. split; [lia|]. split; [|exact Hk'].
      intros j Hj'. destruct (Z.eq_dec j index) as [->|]; [exact Hne|apply Hj; lia]. }
    destruct (triple_nth l index) as [[x y] z] eqn:Ex. simpl in *.
    destruct (Z.eqb_spec x n) as [->|Hx]; cbn [negb].
    2:{ apply Hnext. congruence. }
    rewrite A1. cbn [bind].
    destruct (Z.eqb_spec y l0) as [->|Hy]; cbn [negb].
    2:{ apply Hnext. congruence. }
    rewrite A2. cbn [bind].
    destruct (Z.eqb_spec z m) as [->|Hz]; cbn [negb].
    2:{ apply Hnext. congruence. }
    exists index. split; [reflexivity|]. split; [lia|]. split; [intros; lia | intros _; exact Ex].
Qed.

Lemma nlm_to_linear_canon o n l m : 0 <= n + l + m ->
  exists k, nlm_to_linear o n l m = Ok k /\ 0 <= k <= n_cart (n + l + m) /\
    (0 <= n -> 0 <= l -> 0 <= m ->
       k < n_cart (n + l + m) /\ triple_nth (canon (n + l + m)) k = (n, l, m)) /\
    (n < 0 \/ l < 0 \/ m < 0 -> k = n_cart (n + l + m)).
Proof.
  intros HL. unfold nlm_to_linear, generate_shell_cartesians.
  destruct (emits_order o (3 * n_cart (n + l + m)) (n + l + m) (aconst [3 * n_cart (n + l + m)] 0) HL eq_refl)
    as (st & E & H); [lia|].
  rewrite E. simpl. destruct st as [a c]. cbn [bind].
  assert (Hlen := length_canon (n + l + m) ltac:(lia)).
  destruct (search_found _ _ _ n l m H ltac:(rewrite Hlen; lia) (Z.to_nat (n_cart (n + l + m))) 0)
    as (k & Ek & Hk & Hj & Hf); [lia|lia|].
  exists k. split; [exact Ek|]. split; [lia|].
  split.
  - intros Hn Hl Hm.
    assert (Hin : In (n, l, m) (canon (n + l + m))) by (apply in_canon; lia).
    apply In_nth with (d := (0, 0, 0)) in Hin. destruct Hin as (q & Hq & Eq).
    assert (Hlt : k < Z.of_nat (length (canon (n + l + m)))).
    { destruct (Z_lt_dec k (Z.of_nat (length (canon (n + l + m))))) as [|Hge]; [assumption|].
      exfalso. apply (Hj (Z.of_nat q)); [lia|]. unfold triple_nth. rewrite Nat2Z.id. exact Eq. }
    split; [lia|]. apply Hf. exact Hlt.
  - intros Hneg. destruct (Z_lt_dec k (Z.of_nat (length (canon (n + l + m))))) as [Hlt|Hge]; [|lia].
    specialize (Hf Hlt). exfalso.
    assert (Hin : In (n, l, m) (canon (n + l + m))).
    { rewrite <- Hf. unfold triple_nth. apply nth_In. lia. }
    apply in_canon in Hin. lia.
Qed.

Lemma nlm_to_linear_minus1 o n l m : n + l + m = -1 -> nlm_to_linear o n l m = Ok 0.
Proof.
  intros H. unfold nlm_to_linear. rewrite H. destruct o; reflexivity.
Qed.

(** ** The ascending generator of spherical_harmonics.c *)

Lemma emits_for_range cap (body : Z -> gst -> res gst) (f : Z -> list (Z * Z * Z)) :
  forall n lo, (forall i, lo <= i < lo + Z.of_nat n -> emits cap (body i) (f i)) ->
  emits cap (for_range lo (lo + Z.of_nat n) body) (flat_map f (up_nat n lo)).
Proof.
  induction n as [|n IH]; intros lo Hb acc st H Hcap.
  - rewrite for_range_nil by lia. exists st. simpl. rewrite app_nil_r. auto.
  - rewrite for_range_step by lia. simpl flat_map in *. rewrite app_length in Hcap.
    destruct (Hb lo ltac:(lia) acc st H) as (st1 & E1 & H1); [lia|].
    rewrite E1. cbn [bind].
    destruct (IH (lo + 1)) with (acc := acc ++ f lo) (st := st1) as (st2 & E2 & H2).
    + intros i Hi. apply Hb. lia.
    + exact H1.
    + rewrite app_length. lia.
    + exists st2. replace (lo + Z.of_nat (S n)) with (lo + 1 + Z.of_nat n) by lia.
      rewrite app_assoc. auto.
Qed.

Lemma emits_for_up cap (body : Z -> gst -> res gst) (f : Z -> list (Z * Z * Z)) L :
  -1 <= L -> (forall i, emits cap (body i) (f i)) ->
  emits cap (for_range 0 (L + 1) body) (flat_map f (up L)).
Proof.
  intros HL Hb. unfold up.
  assert (E : L + 1 = 0 + Z.of_nat (Z.to_nat (L + 1))) by lia.
  rewrite E at 1. apply emits_for_range. intros i _. apply Hb.
Qed.

Definition canon_up (L : Z) : list (Z * Z * Z) :=
  flat_map (fun i => flat_map (fun j => flat_map (fun k =>
     if i + j + k =? L then [(i, j, k)] else []) (up L)) (up L)) (up L).

Lemma in_up_nat n : forall lo x, In x (up_nat n lo) <-> lo <= x < lo + Z.of_nat n.
Proof.
  induction n as [|n IH]; intros lo x; simpl; [lia|]. rewrite IH. lia.
Qed.

Lemma in_up n x : In x (up n) <-> 0 <= x <= n.
Proof. unfold up. rewrite in_up_nat. lia. Qed.

Lemma nodup_up n : NoDup (up n).
Proof.
  unfold up. generalize 0 as lo. induction (Z.to_nat (n + 1)) as [|k IH]; intros lo; simpl; constructor; [|apply IH].
  rewrite in_up_nat. lia.
Qed.

Lemma in_canon_up L i j k :
  In (i, j, k) (canon_up L) <-> 0 <= i /\ 0 <= j /\ 0 <= k /\ i + j + k = L.
Proof.
  unfold canon_up. rewrite in_flat_map. split.
  - intros (x & Hx & Hin). rewrite in_flat_map in Hin. destruct Hin as (y & Hy & Hin).
    rewrite in_flat_map in Hin. destruct Hin as (z & Hz & Hin).
    rewrite in_up in Hx, Hy, Hz.
    destruct (Z.eqb_spec (x + y + z) L); [|destruct Hin].
    destruct Hin as [E|[]]. injection E as <- <- <-. lia.
  - intros (H1 & H2 & H3 & H4). exists i. split; [rewrite in_up; lia|].
    rewrite in_flat_map. exists j. split; [rewrite in_up; lia|].
    rewrite in_flat_map. exists k. split; [rewrite in_up; lia|].
    destruct (Z.eqb_spec (i + j + k) L); [left; reflexivity|lia].
Qed.

Lemma nodup_canon_up L : NoDup (canon_up L).
Proof.
  unfold canon_up. apply nodup_flat_map; [apply nodup_up | |].
  - intros i _. apply nodup_flat_map; [apply nodup_up| |].
    + intros j _. apply nodup_flat_map; [apply nodup_up| |].
      * intros k _. destruct (i + j + k =? L); repeat constructor. intros [].
      * intros k k' z _ _ Hk Hk'.
        destruct (i + j + k =? L); [|destruct Hk]. destruct (i + j + k' =? L); [|destruct Hk'].
        destruct Hk as [<-|[]]. destruct Hk' as [E|[]]. congruence.
    + intros j j' z _ _ Hk Hk'. rewrite in_flat_map in Hk, Hk'.
      destruct Hk as (k & _ & Hk). destruct Hk' as (k' & _ & Hk').
      destruct (i + j + k =? L); [|destruct Hk]. destruct (i + j' + k' =? L); [|destruct Hk'].
      destruct Hk as [<-|[]]. destruct Hk' as [E|[]]. congruence.
  - intros i i' z _ _ Hk Hk'. rewrite in_flat_map in Hk, Hk'.
    destruct Hk as (j & _ & Hk). destruct Hk' as (j' & _ & Hk').
    rewrite in_flat_map in Hk, Hk'.
    destruct Hk as (k & _ & Hk). destruct Hk' as (k' & _ & Hk').
    destruct (i + j + k =? L); [|destruct Hk]. destruct (i' + j' + k' =? L); [|destruct Hk'].
    destruct Hk as [<-|[]]. destruct Hk' as [E|[]]. congruence.
Qed.

Lemma length_canon_up L : -1 <= L -> Z.of_nat (length (canon_up L)) = n_cart L.
Proof.
  intros HL. rewrite <- length_canon by exact HL. f_equal.
  apply Nat.le_antisymm; apply NoDup_incl_length; try apply nodup_canon; try apply nodup_canon_up;
  intros [[x y] z]; rewrite in_canon, in_canon_up; tauto.
Qed.

Lemma generate_combinations_canon L : 0 <= L ->
  exists a, generate_cartesian_combinations L = Ok (a, n_cart L) /\
            adims a = [3 * n_cart L] /\
            read_triples (Z.to_nat (n_cart L)) 0 a = Ok (canon_up L).
Proof.
  intros HL. unfold generate_cartesian_combinations.
  assert (Hem : emits (3 * n_cart L)
     (for_range 0 (L + 1) (fun i => for_range 0 (L + 1) (fun j => for_range 0 (L + 1) (fun k st =>
         if i + j + k =? L then put3 i j k st else Ok st)))) (canon_up L)).
  { unfold canon_up.
    apply emits_for_up; [lia|]. intros i. apply emits_for_up; [lia|]. intros j.
    apply emits_for_up; [lia|]. intros k.
    destruct (i + j + k =? L); [apply emits_put3 | apply emits_nil]. }
  destruct (Hem [] (aconst [3 * n_cart L] 0, 0)) as ([a c] & E & H).
  - split; [reflexivity|]. split; [reflexivity|]. simpl. intros; lia.
  - cbn [length]. rewrite length_canon_up by lia. lia.
  - exists a. rewrite E. simpl in H.
    assert (Hc : c = n_cart L).
    { destruct H as (_ & Hc & _). simpl in Hc. rewrite Hc. apply length_canon_up. lia. }
    subst c. split; [reflexivity|]. split; [apply H|].
    change a with (fst (a, n_cart L)).
    rewrite (read_triples_holds (3 * n_cart L) (canon_up L) (a, n_cart L) H); [reflexivity| | lia |].
    + rewrite length_canon_up by lia. lia.
    + rewrite length_canon_up by lia. generalize (length_canon_up L ltac:(lia)). lia.
Qed.

(** ** Packaged statements *)

Lemma components_complete o L : 0 <= L ->
  exists l, shell_components o L = Ok l /\ NoDup l /\
    (forall r s t, In (r, s, t) l <-> 0 <= r /\ 0 <= s /\ 0 <= t /\ r + s + t = L) /\
    2 * Z.of_nat (length l) = (L + 1) * (L + 2) /\
    Z.of_nat (length l) = n_cart L.
Proof.
  intros HL. exists (canon L). split; [apply shell_components_canon; exact HL|].
  split; [apply nodup_canon|]. split; [intros; apply in_canon|].
  split; [apply length_canon2; lia | apply length_canon; lia].
Qed.

Lemma generator_fills_buffer o L (a : arr Z) : 0 <= L -> adims a = [3 * n_cart L] ->
  exists a', cartesian_generator o L a = Ok (n_cart L, (a', n_cart L)) /\
    adims a' = adims a /\
    forall i, 0 <= i < 3 * n_cart L -> exists v, acell a' [i] = Some v.
Proof.
  intros HL Hd.
  destruct (emits_order o (3 * n_cart L) L a HL Hd ltac:(lia)) as ([a' c] & E & H1 & H2 & H3).
  cbn [fst snd] in *. assert (Hlen := length_canon L ltac:(lia)).
  exists a'. split; [rewrite E, H2, Hlen; reflexivity|]. split; [congruence|].
  intros i Hi.
  assert (Hk : 0 <= i / 3 < Z.of_nat (length (canon L))).
  { split; [apply Z.div_pos; lia | apply Z.div_lt_upper_bound; lia]. }
  destruct (H3 _ Hk) as (A0 & A1 & A2).
  assert (Hm := Z.mod_pos_bound i 3 ltac:(lia)). assert (Ei := Z.div_mod i 3 ltac:(lia)).
  assert (Hc : i = 3 * (i / 3) + 0 \/ i = 3 * (i / 3) + 1 \/ i = 3 * (i / 3) + 2) by lia.
  destruct Hc as [Hc|[Hc|Hc]]; rewrite Hc; eauto.
Qed.

Lemma orders_coincide L : shell_components OrderDirac L = shell_components OrderTurbomole L.
Proof.
  destruct (Z_lt_dec L 0) as [HL|HL].
  - unfold shell_components, generate_shell_cartesians, cartesian_generator,
      cartesian_generator_dirac, cartesian_generator_turbomole.
    rewrite !for_down_nil by lia. reflexivity.
  - rewrite !shell_components_canon by lia. reflexivity.
Qed.

Lemma nth_error_triple l k : 0 <= k < Z.of_nat (length l) ->
  nth_error l (Z.to_nat k) = Some (triple_nth l k).
Proof. intros H. unfold triple_nth. apply nth_error_nth'. lia. Qed.

Lemma nlm_lookup_found o n l m : 0 <= n -> 0 <= l -> 0 <= m ->
  exists comps k, shell_components o (n + l + m) = Ok comps /\
    nlm_to_linear o n l m = Ok k /\ 0 <= k < n_cart (n + l + m) /\
    nth_error comps (Z.to_nat k) = Some (n, l, m) /\
    (forall j, nth_error comps j = Some (n, l, m) -> Z.of_nat j = k).
Proof.
  intros Hn Hl Hm. destruct (nlm_to_linear_canon o n l m ltac:(lia)) as (k & E & Hk & Hf & _).
  destruct (Hf Hn Hl Hm) as (Hlt & Et).
  assert (Hlen := length_canon (n + l + m) ltac:(lia)).
  assert (Hnth : nth_error (canon (n + l + m)) (Z.to_nat k) = Some (n, l, m)).
  { rewrite nth_error_triple by lia. congruence. }
  exists (canon (n + l + m)), k.
  split; [apply shell_components_canon; lia|]. split; [exact E|]. split; [lia|].
  split; [exact Hnth|]. intros j Hj.
  assert (j = Z.to_nat k); [|lia].
  eapply NoDup_nth_error; [apply (nodup_canon (n + l + m)) | | congruence].
  apply nth_error_Some. congruence.
Qed.

Lemma nlm_lookup_missing o n l m : -1 <= n + l + m -> n < 0 \/ l < 0 \/ m < 0 ->
  nlm_to_linear o n l m = Ok (n_cart (n + l + m)).
Proof.
  intros HL Hneg. destruct (Z.eq_dec (n + l + m) (-1)) as [E|E].
  - rewrite nlm_to_linear_minus1 by exact E. rewrite E. reflexivity.
  - destruct (nlm_to_linear_canon o n l m ltac:(lia)) as (k & Ek & _ & _ & Hm).
    rewrite Ek, (Hm Hneg). reflexivity.
Qed.

Lemma sph_combinations_complete L : 0 <= L ->
  exists a l, generate_cartesian_combinations L = Ok (a, n_cart L) /\
    read_triples (Z.to_nat (n_cart L)) 0 a = Ok l /\ NoDup l /\
    (forall r s t, In (r, s, t) l <-> 0 <= r /\ 0 <= s /\ 0 <= t /\ r + s + t = L) /\
    Z.of_nat (length l) = n_cart L.
Proof.
  intros HL. destruct (generate_combinations_canon L HL) as (a & E & _ & R).
  exists a, (canon_up L). split; [exact E|]. split; [exact R|].
  split; [apply nodup_canon_up|]. split; [intros; apply in_canon_up|].
  apply length_canon_up. lia.
Qed.
