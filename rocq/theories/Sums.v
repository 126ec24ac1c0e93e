(** * Sums over integer ranges and loops that accumulate them *)

From Coq Require Import ZArith List Lia Bool Reals.
From Verif Require Import Base OneElModel OneElProofs Loops.
Import ListNotations.
Open Scope Z_scope.

(** sum of f over lo <= i < hi *)
Fixpoint zsum_aux (n : nat) (lo : Z) (f : Z -> R) : R :=
  match n with O => 0%R | S n' => (f lo + zsum_aux n' (lo + 1) f)%R end.
Definition zsum (lo hi : Z) (f : Z -> R) : R := zsum_aux (Z.to_nat (hi - lo)) lo f.

Lemma zsum_nil lo hi f : hi <= lo -> zsum lo hi f = 0%R.
Proof. intros H. unfold zsum. replace (Z.to_nat (hi - lo)) with 0%nat by lia. reflexivity. Qed.

Lemma zsum_first lo hi f : lo < hi -> zsum lo hi f = (f lo + zsum (lo + 1) hi f)%R.
Proof.
  intros H. unfold zsum. replace (Z.to_nat (hi - lo)) with (S (Z.to_nat (hi - (lo + 1)))) by lia. reflexivity.
Qed.

Lemma zsum_ind (P : Z -> Prop) hi : (forall lo, hi <= lo -> P lo) -> (forall lo, lo < hi -> P (lo + 1) -> P lo) -> forall lo, P lo.
Proof.
  intros H0 H1 lo. remember (Z.to_nat (hi - lo)) as n eqn:En. revert lo En.
  induction n as [|n IH]; intros lo En; [apply H0; lia|]. apply H1; [lia|]. apply IH. lia.
Qed.

Lemma zsum_ext lo hi f g : (forall i, lo <= i < hi -> f i = g i) -> zsum lo hi f = zsum lo hi g.
Proof.
  revert lo. refine (zsum_ind (fun lo => (forall i, lo <= i < hi -> f i = g i) -> zsum lo hi f = zsum lo hi g) hi _ _).
  - intros lo Hlo _. rewrite !zsum_nil by lia. reflexivity.
  - intros lo Hlo IH H. rewrite !(zsum_first lo) by lia. rewrite H by lia. f_equal. apply IH. intros i Hi. apply H. lia.
Qed.

Lemma zsum_plus lo hi f g : zsum lo hi (fun i => f i + g i)%R = (zsum lo hi f + zsum lo hi g)%R.
Proof.
  revert lo. refine (zsum_ind (fun lo => zsum lo hi (fun i => f i + g i)%R = (zsum lo hi f + zsum lo hi g)%R) hi _ _).
  - intros lo Hlo. rewrite !zsum_nil by lia. ring.
  - intros lo Hlo IH. rewrite !(zsum_first lo) by lia. rewrite IH. ring.
Qed.

Lemma zsum_scal lo hi c f : zsum lo hi (fun i => c * f i)%R = (c * zsum lo hi f)%R.
Proof.
  revert lo. refine (zsum_ind (fun lo => zsum lo hi (fun i => c * f i)%R = (c * zsum lo hi f)%R) hi _ _).
  - intros lo Hlo. rewrite !zsum_nil by lia. ring.
  - intros lo Hlo IH. rewrite !(zsum_first lo) by lia. rewrite IH. ring.
Qed.

Lemma zsum_zero lo hi f : (forall i, lo <= i < hi -> f i = 0%R) -> zsum lo hi f = 0%R.
Proof.
  intros H. rewrite (zsum_ext lo hi f (fun _ => 0 * 0)%R); [rewrite zsum_scal; ring|].
  intros i Hi. rewrite H by exact Hi. ring.
Qed.

Lemma zsum_split lo mid hi f : lo <= mid <= hi -> zsum lo hi f = (zsum lo mid f + zsum mid hi f)%R.
Proof.
  revert lo. refine (zsum_ind (fun lo => lo <= mid <= hi -> zsum lo hi f = (zsum lo mid f + zsum mid hi f)%R) hi _ _).
  - intros lo Hlo H. replace mid with lo by lia. rewrite (zsum_nil lo lo) by lia. ring.
  - intros lo Hlo IH H. destruct (Z.eq_dec lo mid) as [-> | Hn].
    + rewrite (zsum_nil mid mid) by lia. ring.
    + rewrite (zsum_first lo hi), (zsum_first lo mid) by lia. rewrite IH by lia. ring.
Qed.

Lemma zsum_last lo hi f : lo <= hi -> zsum lo (hi + 1) f = (zsum lo hi f + f hi)%R.
Proof.
  intros H. rewrite (zsum_split lo hi (hi + 1)) by lia. rewrite (zsum_first hi) by lia. rewrite (zsum_nil (hi + 1)) by lia. ring.
Qed.

Lemma zsum_shift d lo hi f : zsum lo hi (fun i => f (i + d)) = zsum (lo + d) (hi + d) f.
Proof.
  revert lo. refine (zsum_ind (fun lo => zsum lo hi (fun i => f (i + d)) = zsum (lo + d) (hi + d) f) hi _ _).
  - intros lo Hlo. rewrite !zsum_nil by lia. reflexivity.
  - intros lo Hlo IH. rewrite (zsum_first lo), (zsum_first (lo + d)) by lia. rewrite IH. do 2 f_equal. lia.
Qed.

Lemma zsum_swap lo hi lo2 hi2 (f : Z -> Z -> R) :
  zsum lo hi (fun i => zsum lo2 hi2 (fun j => f i j)) = zsum lo2 hi2 (fun j => zsum lo hi (fun i => f i j)).
Proof.
  revert lo. refine (zsum_ind (fun lo => zsum lo hi (fun i => zsum lo2 hi2 (fun j => f i j)) = zsum lo2 hi2 (fun j => zsum lo hi (fun i => f i j))) hi _ _).
  - intros lo Hlo. rewrite zsum_nil by lia. symmetry. apply zsum_zero. intros j _. apply zsum_nil. lia.
  - intros lo Hlo IH. rewrite (zsum_first lo) by lia. rewrite IH, <- zsum_plus. apply zsum_ext. intros j _.
    rewrite (zsum_first lo) by lia. reflexivity.
Qed.

Lemma zsum_lsum {A} (l : list A) (d : A) (f : A -> R) : zsum 0 (Z.of_nat (length l)) (fun i => f (nth (Z.to_nat i) l d)) = lsum f l.
Proof.
  induction l as [|x l IH]; [reflexivity|].
  rewrite zsum_first by (cbn [length]; lia). change (lsum f (x :: l)) with (f x + lsum f l)%R. f_equal.
  rewrite <- IH. replace (Z.of_nat (length (x :: l))) with (Z.of_nat (length l) + 1) by (cbn [length]; lia).
  rewrite <- (zsum_shift 1). apply zsum_ext. intros i Hi. replace (Z.to_nat (i + 1)) with (S (Z.to_nat i)) by lia. reflexivity.
Qed.

(** ** Loops adding to cells *)

Lemma loop_sum {St Ix} lo hi (Inv : St -> Prop) (Dom : Ix -> Prop) (val : St -> Ix -> R) (t : Z -> Ix -> R) (body : Z -> St -> res St) s0 :
  lo <= hi -> Inv s0 ->
  (forall i s, lo <= i < hi -> Inv s -> exists s', body i s = Ok s' /\ Inv s' /\ forall x, Dom x -> val s' x = (val s x + t i x)%R) ->
  exists s', for_range lo hi body s0 = Ok s' /\ Inv s' /\ forall x, Dom x -> val s' x = (val s0 x + zsum lo hi (fun i => t i x))%R.
Proof.
  intros H I0 B.
  destruct (for_range_ok (fun k s => Inv s /\ (forall x, Dom x -> val s x = (val s0 x + zsum lo k (fun i => t i x))%R) /\ lo <= k) lo hi body s0 H)
    as (s' & E & I & V & _).
  - split; [exact I0|]. split; [|lia]. intros x _. rewrite zsum_nil by lia. ring.
  - intros k s Hk (I & V & L). destruct (B k s Hk I) as (s' & E & I' & V'). exists s'. split; [exact E|]. split; [exact I'|].
    split; [|lia]. intros x Hx. rewrite V', V, zsum_last by assumption. ring.
  - exists s'. auto.
Qed.

(** the number in a cell, 0 when it cannot be read *)
Definition cellv (a : arr R) (ix : list Z) : R := match aget a ix with Ok v => v | Fail _ => 0%R end.

Lemma cellv_ok a ix v : aget a ix = Ok v -> cellv a ix = v.
Proof. unfold cellv. intros ->. reflexivity. Qed.

Definition readable (a : arr R) (ix : list Z) : Prop := exists v, aget a ix = Ok v.

Lemma readable_cellv a ix : readable a ix -> aget a ix = Ok (cellv a ix).
Proof. intros (v & H). unfold cellv. rewrite H. reflexivity. Qed.

Lemma acell_aget {A} (a : arr A) ix v : inb (adims a) ix = true -> acell a ix = Some v -> aget a ix = Ok v.
Proof. intros H C. apply aget_ok; assumption. Qed.

(** memset and daxpy stated through reads *)
Lemma memset0_get n sz (M : arr R) : adims M = [sz] -> 0 <= n <= sz ->
  exists M', memset0 n M = Ok M' /\ adims M' = [sz] /\ (forall k, 0 <= k < n -> aget M' [k] = Ok 0%R) /\
    (forall ix, (forall k, 0 <= k < n -> ix <> [k]) -> aget M' ix = aget M ix).
Proof.
  intros D Hn. destruct (memset0_ok n sz M D Hn) as (M' & E & D' & C & F). exists M'. split; [exact E|]. split; [exact D'|]. split.
  - intros k Hk. apply acell_aget; [rewrite D'; apply inb1; lia|apply C; exact Hk].
  - intros ix Hix. unfold aget. rewrite D', D, F by exact Hix. reflexivity.
Qed.

Lemma daxpy_get n szx szy a (x y : arr R) : adims x = [szx] -> adims y = [szy] -> 0 <= n <= szx -> n <= szy ->
  (forall k, 0 <= k < n -> readable x [k]) -> (forall k, 0 <= k < n -> readable y [k]) ->
  exists y', daxpy n a x y = Ok y' /\ adims y' = [szy] /\
    (forall k, 0 <= k < n -> aget y' [k] = Ok (cellv y [k] + a * cellv x [k])%R) /\
    (forall ix, (forall k, 0 <= k < n -> ix <> [k]) -> aget y' ix = aget y ix).
Proof.
  intros Dx Dy Hn Hn2 Cx Cy.
  assert (CC : forall (b : arr R) k, aget b [k] = Ok (cellv b [k]) -> acell b [k] = Some (cellv b [k])).
  { intros b k Hb. apply aget_inv in Hb. tauto. }
  destruct (daxpy_ok n szx szy a x y (fun k => cellv x [k]) (fun k => cellv y [k]) Dx Dy Hn Hn2) as (y' & E & D' & C & F).
  - intros k Hk. apply CC, readable_cellv, Cx, Hk.
  - intros k Hk. apply CC, readable_cellv, Cy, Hk.
  - exists y'. split; [exact E|]. split; [exact D'|]. split.
    + intros k Hk. apply acell_aget; [rewrite D'; apply inb1; lia|apply C; exact Hk].
    + intros ix Hix. unfold aget. rewrite D', Dy, F by exact Hix. reflexivity.
Qed.
