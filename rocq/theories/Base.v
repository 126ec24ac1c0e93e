(** * Base: outcomes, loops and bounded arrays used by every model file.

    Nothing here models a particular C function; it fixes how C control flow
    and C memory are represented.

    - [res]: a C call either returns or ends in undefined behaviour / abort.
    - [for_range lo hi body s]: [for (int i = lo; i < hi; i++) body].
    - [for_down hi lo body s]: [for (int i = hi; i >= lo; i--) body].
    - [arr A]: a C array object with fixed dimensions; a cell is [None] until it
      is first written (automatic storage, malloc) or starts as [Some z]
      (calloc).  Reading an unwritten cell and indexing outside a dimension are
      faults. *)

From Coq Require Import ZArith List Lia Bool.
Import ListNotations.
Open Scope Z_scope.

Inductive fault :=
| OutOfBounds        (* index outside the array object *)
| Uninitialised      (* read of a cell that was never written *)
| AssertFailed       (* assert() *)
| ProcessExit        (* exit() *)
| UseAfterFree       (* access through a pointer to a freed block *)
| DoubleFree         (* free() of a block that is not live *)
| NullDeref          (* access through NULL *)
| WrongObject        (* access to a block at another type than it has *)
| DivByZero          (* integer division by zero *)
| Overflow           (* floating point result outside the range of double *)
| NoFuel.            (* model artefact: a while loop exceeded the fuel given to
                        it; theorems about such loops show it does not occur *)

Inductive res (A : Type) :=
| Ok (a : A)
| Fail (f : fault).
Arguments Ok {A} a.
Arguments Fail {A} f.

Definition bind {A B} (m : res A) (k : A -> res B) : res B :=
  match m with Ok a => k a | Fail f => Fail f end.

Declare Scope res_scope.
Delimit Scope res_scope with res.
Notation "'let*' x ':=' m 'in' k" := (bind m (fun x => k))
  (at level 200, x pattern, m at level 100, k at level 200, right associativity) : res_scope.
Open Scope res_scope.

Lemma bind_ok {A B} (a : A) (k : A -> res B) : bind (Ok a) k = k a.
Proof. reflexivity. Qed.

(** ** Loops *)

Fixpoint loop_up {St : Type} (n : nat) (i : Z) (body : Z -> St -> res St) (s : St) : res St :=
  match n with
  | O => Ok s
  | S n' => let* s' := body i s in loop_up n' (i + 1) body s'
  end.

(** [for (int i = lo; i < hi; i++) body] *)
Definition for_range {St} (lo hi : Z) (body : Z -> St -> res St) (s : St) : res St :=
  loop_up (Z.to_nat (hi - lo)) lo body s.

Fixpoint loop_down {St : Type} (n : nat) (i : Z) (body : Z -> St -> res St) (s : St) : res St :=
  match n with
  | O => Ok s
  | S n' => let* s' := body i s in loop_down n' (i - 1) body s'
  end.

(** [for (int i = hi; i >= lo; i--) body] *)
Definition for_down {St} (hi lo : Z) (body : Z -> St -> res St) (s : St) : res St :=
  loop_down (Z.to_nat (hi - lo + 1)) hi body s.

Lemma for_range_nil {St} lo hi (body : Z -> St -> res St) s :
  hi <= lo -> for_range lo hi body s = Ok s.
Proof.
  intros H. unfold for_range.
  replace (Z.to_nat (hi - lo)) with O by lia. reflexivity.
Qed.

Lemma for_range_step {St} lo hi (body : Z -> St -> res St) s :
  lo < hi ->
  for_range lo hi body s = (let* s' := body lo s in for_range (lo + 1) hi body s').
Proof.
  intros H. unfold for_range.
  replace (Z.to_nat (hi - lo)) with (S (Z.to_nat (hi - (lo + 1)))) by lia.
  reflexivity.
Qed.

Lemma for_down_nil {St} hi lo (body : Z -> St -> res St) s :
  hi < lo -> for_down hi lo body s = Ok s.
Proof.
  intros H. unfold for_down.
  replace (Z.to_nat (hi - lo + 1)) with O by lia. reflexivity.
Qed.

Lemma for_down_step {St} hi lo (body : Z -> St -> res St) s :
  lo <= hi ->
  for_down hi lo body s = (let* s' := body hi s in for_down (hi - 1) lo body s').
Proof.
  intros H. unfold for_down.
  replace (Z.to_nat (hi - lo + 1)) with (S (Z.to_nat (hi - 1 - lo + 1))) by lia.
  reflexivity.
Qed.

Lemma for_range_split {St} lo mid hi (body : Z -> St -> res St) s :
  lo <= mid -> mid <= hi ->
  for_range lo hi body s =
  (let* s' := for_range lo mid body s in for_range mid hi body s').
Proof.
  intros H1 H2.
  remember (Z.to_nat (mid - lo)) as n eqn:En.
  revert lo s H1 En. induction n as [|n IH]; intros lo s H1 En.
  - assert (lo = mid) by lia. subst. rewrite (for_range_nil mid mid) by lia. reflexivity.
  - rewrite (for_range_step lo hi) by lia. rewrite (for_range_step lo mid) by lia.
    destruct (body lo s) as [s'|f]; simpl; [|reflexivity].
    apply IH; lia.
Qed.

Lemma for_range_last {St} lo hi (body : Z -> St -> res St) s :
  lo < hi ->
  for_range lo hi body s =
  (let* s' := for_range lo (hi - 1) body s in body (hi - 1) s').
Proof.
  intros H. rewrite (for_range_split lo (hi - 1) hi) by lia.
  destruct (for_range lo (hi - 1) body s) as [s'|f]; simpl; [|reflexivity].
  rewrite for_range_step by lia.
  destruct (body (hi - 1) s') as [s''|f]; simpl; [|reflexivity].
  apply for_range_nil; lia.
Qed.

(** Total-correctness rule: an invariant that the body re-establishes. *)
Lemma for_range_ok {St} (I : Z -> St -> Prop) lo hi (body : Z -> St -> res St) s :
  lo <= hi ->
  I lo s ->
  (forall i s, lo <= i < hi -> I i s -> exists s', body i s = Ok s' /\ I (i + 1) s') ->
  exists s', for_range lo hi body s = Ok s' /\ I hi s'.
Proof.
  intros Hle H0 Hstep.
  remember (Z.to_nat (hi - lo)) as n eqn:En.
  revert lo s Hle H0 En Hstep. induction n as [|n IH]; intros lo s Hle H0 En Hstep.
  - assert (lo = hi) by lia. subst. exists s. split; [apply for_range_nil; lia | exact H0].
  - rewrite for_range_step by lia.
    destruct (Hstep lo s) as (s1 & E1 & H1); [lia | exact H0 |].
    rewrite E1. simpl.
    apply IH; [lia | exact H1 | lia |].
    intros i t Hi. apply Hstep. lia.
Qed.

(** Partial-correctness rule: if the loop returned, the invariant holds. *)
Lemma for_range_inv {St} (I : Z -> St -> Prop) lo hi (body : Z -> St -> res St) s s' :
  lo <= hi ->
  I lo s ->
  (forall i s s', lo <= i < hi -> I i s -> body i s = Ok s' -> I (i + 1) s') ->
  for_range lo hi body s = Ok s' -> I hi s'.
Proof.
  intros Hle H0 Hstep.
  remember (Z.to_nat (hi - lo)) as n eqn:En.
  revert lo s Hle H0 En Hstep. induction n as [|n IH]; intros lo s Hle H0 En Hstep.
  - assert (lo = hi) by lia. subst. rewrite for_range_nil by lia.
    intros E; injection E as <-. exact H0.
  - rewrite for_range_step by lia.
    destruct (body lo s) as [s1|f] eqn:E1; simpl; [|discriminate].
    apply IH; [lia | eapply Hstep; [|exact H0|exact E1]; lia | lia |].
    intros i t t' Hi. apply Hstep. lia.
Qed.

(** Failure rule: the invariant holds up to [k], where the body fails. *)
Lemma for_range_fail {St} (I : Z -> St -> Prop) lo hi k f (body : Z -> St -> res St) s :
  lo <= k < hi ->
  I lo s ->
  (forall i s, lo <= i < k -> I i s -> exists s', body i s = Ok s' /\ I (i + 1) s') ->
  (forall s, I k s -> body k s = Fail f) ->
  for_range lo hi body s = Fail f.
Proof.
  intros Hk H0 Hstep Hfail.
  rewrite (for_range_split lo k hi) by lia.
  destruct (for_range_ok I lo k body s) as (s1 & E1 & H1); [lia | exact H0 | exact Hstep |].
  rewrite E1. simpl. rewrite for_range_step by lia.
  rewrite (Hfail s1 H1). reflexivity.
Qed.

Lemma for_down_ok {St} (I : Z -> St -> Prop) hi lo (body : Z -> St -> res St) s :
  lo - 1 <= hi ->
  I hi s ->
  (forall i s, lo <= i <= hi -> I i s -> exists s', body i s = Ok s' /\ I (i - 1) s') ->
  exists s', for_down hi lo body s = Ok s' /\ I (lo - 1) s'.
Proof.
  intros Hle H0 Hstep.
  remember (Z.to_nat (hi - lo + 1)) as n eqn:En.
  revert hi s Hle H0 En Hstep. induction n as [|n IH]; intros hi s Hle H0 En Hstep.
  - assert (hi = lo - 1) by lia. subst. exists s. split; [apply for_down_nil; lia | exact H0].
  - rewrite for_down_step by lia.
    destruct (Hstep hi s) as (s1 & E1 & H1); [lia | exact H0 |].
    rewrite E1. simpl.
    apply IH; [lia | exact H1 | lia |].
    intros i t Hi. apply Hstep. lia.
Qed.

Lemma for_range_ext {St} lo hi (b1 b2 : Z -> St -> res St) s :
  (forall i s, lo <= i < hi -> b1 i s = b2 i s) ->
  for_range lo hi b1 s = for_range lo hi b2 s.
Proof.
  remember (Z.to_nat (hi - lo)) as n eqn:En.
  revert lo s En. induction n as [|n IH]; intros lo s En H.
  - rewrite !for_range_nil by lia. reflexivity.
  - rewrite !(for_range_step lo hi) by lia.
    rewrite H by lia. destruct (b2 lo s) as [s1|f]; simpl; [|reflexivity].
    apply IH; [lia|]. intros i t Hi. apply H. lia.
Qed.

(** ** Arrays *)

Record arr (A : Type) := mkArr {
  adims : list Z;
  acell : list Z -> option A
}.
Arguments mkArr {A} _ _.
Arguments adims {A} _.
Arguments acell {A} _ _.

(** index list [ix] is inside the dimensions [d] *)
Fixpoint inb (d ix : list Z) : bool :=
  match d, ix with
  | [], [] => true
  | n :: d', i :: ix' => (0 <=? i) && (i <? n) && inb d' ix'
  | _, _ => false
  end.

Definition ix_eqb (x y : list Z) : bool :=
  if list_eq_dec Z.eq_dec x y then true else false.

Lemma ix_eqb_refl x : ix_eqb x x = true.
Proof. unfold ix_eqb. destruct (list_eq_dec Z.eq_dec x x); congruence. Qed.

Lemma ix_eqb_neq x y : x <> y -> ix_eqb x y = false.
Proof. unfold ix_eqb. destruct (list_eq_dec Z.eq_dec x y); congruence. Qed.

Lemma ix_eqb_true x y : ix_eqb x y = true -> x = y.
Proof. unfold ix_eqb. destruct (list_eq_dec Z.eq_dec x y); congruence. Qed.

Definition aget {A} (a : arr A) (ix : list Z) : res A :=
  if inb (adims a) ix then
    match acell a ix with Some v => Ok v | None => Fail Uninitialised end
  else Fail OutOfBounds.

Definition aset {A} (a : arr A) (ix : list Z) (v : A) : res (arr A) :=
  if inb (adims a) ix then
    Ok (mkArr (adims a) (fun ix' => if ix_eqb ix' ix then Some v else acell a ix'))
  else Fail OutOfBounds.

(** automatic storage / malloc: contents indeterminate *)
Definition aundef {A} (d : list Z) : arr A := mkArr d (fun _ => None).
(** calloc / memset 0 *)
Definition aconst {A} (d : list Z) (z : A) : arr A := mkArr d (fun _ => Some z).
(** an initialised 1-d array with the given contents *)
Definition aoflist {A} (l : list A) : arr A :=
  mkArr [Z.of_nat (length l)]
        (fun ix => match ix with [i] => if i <? 0 then None else nth_error l (Z.to_nat i)
                              | _ => None end).

Lemma aget_ok {A} (a : arr A) ix v :
  inb (adims a) ix = true -> acell a ix = Some v -> aget a ix = Ok v.
Proof. intros H1 H2. unfold aget. rewrite H1, H2. reflexivity. Qed.

Lemma aget_inv {A} (a : arr A) ix v :
  aget a ix = Ok v -> inb (adims a) ix = true /\ acell a ix = Some v.
Proof.
  unfold aget. destruct (inb (adims a) ix); [|discriminate].
  destruct (acell a ix); [|discriminate]. intros E; injection E as ->. auto.
Qed.

Lemma aset_ok {A} (a : arr A) ix v :
  inb (adims a) ix = true ->
  exists a', aset a ix v = Ok a' /\ adims a' = adims a /\
             acell a' ix = Some v /\
             (forall ix', ix' <> ix -> acell a' ix' = acell a ix').
Proof.
  intros H. unfold aset. rewrite H. eexists; split; [reflexivity|]. simpl.
  split; [reflexivity|]. split; [rewrite ix_eqb_refl; reflexivity|].
  intros ix' Hne. rewrite ix_eqb_neq by exact Hne. reflexivity.
Qed.

Lemma inb1 n i : inb [n] [i] = true <-> 0 <= i < n.
Proof. simpl. rewrite andb_true_r, andb_true_iff, Z.leb_le, Z.ltb_lt. tauto. Qed.

Lemma inb2 n m i j : inb [n; m] [i; j] = true <-> 0 <= i < n /\ 0 <= j < m.
Proof.
  simpl. rewrite andb_true_r, !andb_true_iff, !Z.leb_le, !Z.ltb_lt. tauto.
Qed.

Lemma inb3 n m k i j l :
  inb [n; m; k] [i; j; l] = true <-> 0 <= i < n /\ 0 <= j < m /\ 0 <= l < k.
Proof.
  simpl. rewrite andb_true_r, !andb_true_iff, !Z.leb_le, !Z.ltb_lt. tauto.
Qed.

Lemma inb4 n m k q i j l r :
  inb [n; m; k; q] [i; j; l; r] = true <->
  0 <= i < n /\ 0 <= j < m /\ 0 <= l < k /\ 0 <= r < q.
Proof.
  simpl. rewrite andb_true_r, !andb_true_iff, !Z.leb_le, !Z.ltb_lt. tauto.
Qed.

Lemma aget_oflist {A} (l : list A) i d :
  0 <= i < Z.of_nat (length l) -> aget (aoflist l) [i] = Ok (nth (Z.to_nat i) l d).
Proof.
  intros H. apply aget_ok.
  - apply inb1. exact H.
  - simpl. replace (i <? 0) with false by (symmetry; apply Z.ltb_ge; lia).
    apply nth_error_nth'. lia.
Qed.

(** a C assert *)
Definition massert (b : bool) : res unit := if b then Ok tt else Fail AssertFailed.
