(** * C81: overlap and kinetic energy matrices are positive definite

    [bfun]: one component of a shell with a coefficient; [combo ts]: the linear combination of
    these basis functions as a function on space; [computed o h t t' e]: the library writes [e]
    as the element of operator [o] for this pair of basis functions; [quad ts S]: the sum of
    coefficient * coefficient * element over all pairs (Definite.v). *)

From Coq Require Import ZArith List Lia Bool Reals Lra.
From Coquelicot Require Import Coquelicot.
From Verif Require Import Base GaussInt GaussProd CartModel CartProofs HeapModel HeapProofs HeapSpec
  OneElModel OneElProofs OneElPairs OneElSpec OneElInt OneElThms Definite.
Import ListNotations.
Open Scope R_scope.

(** C81: for any list of basis functions with any coefficients, the expectation value computed from the
library's overlap (or kinetic energy) matrix elements is not negative, and it is zero only when
the linear combination is the zero function. *)
Theorem C81_positive_definite : forall o h ts S,
  o = Overlap \/ o = Kinetic -> heap_wf h -> (forall t, In t ts -> bf_ok h t) ->
  (forall t t', In t ts -> In t' ts -> computed o h t t' (S t t')) ->
  0 <= quad ts S /\ (quad ts S = 0 -> forall x y z, combo ts x y z = 0).
Proof. exact definite_thm. Qed.
Print Assumptions C81_positive_definite.

(** C81: the square of an off-diagonal element is at most the product of the two diagonal ones. *)
Theorem C81_cauchy_schwarz : forall o h t t' e e1 e2,
  o = Overlap \/ o = Kinetic -> heap_wf h -> bf_ok h t -> bf_ok h t' ->
  computed o h t t' e -> computed o h t t e1 -> computed o h t' t' e2 -> e * e <= e1 * e2.
Proof. exact cauchy_schwarz_thm. Qed.
Print Assumptions C81_cauchy_schwarz.

(** the elements exist for all shells up to L = 9, so the hypotheses can be met for every basis *)
Example C81_elements : forall o h t t', heap_wf h -> bf_ok h t -> bf_ok h t' -> exists e, computed o h t t' e.
Proof. intros o h t t' W H H'. eexists. apply computed_exists; assumption. Qed.

(** two s functions on different centres: the value is strictly positive for both operators *)
Example C81_case : exists h ts, length ts = 2%nat /\ heap_wf h /\ (forall t, In t ts -> bf_ok h t) /\
  (forall o, exists S, forall t t', In t ts -> In t' ts -> computed o h t t' (S t t')) /\
  forall o S, o = Overlap \/ o = Kinetic -> (forall t t', In t ts -> In t' ts -> computed o h t t' (S t t')) -> 0 < quad ts S.
Proof.
  destruct (shells_exist [(0%Z, (0, 0, 1), [(1, 3); (1 / 2, 1)]); (0%Z, (1, 0, -1), [(2, 1 / 5)])]) as (h & ps & W & F).
  { intros L o pr [E | [E | []]]; injection E as <- <- <-; lia. }
  inversion F as [|? pA ? ? HA F1]; subst. inversion F1 as [|? pB ? ? HB F2]; subst.
  destruct HA as (vA & ca & SA & LA & OA & PA). destruct HB as (vB & cb & SB & LB & OB & PB).
  assert (NA := std_length _ _ _ _ SA). assert (NB := std_length _ _ _ _ SB). rewrite LA in NA. rewrite LB in NB. change (n_cart 0) with 1%Z in NA, NB.
  assert (CA : nth 0 ca (0, 0, 0)%Z = (0, 0, 0)%Z).
  { pose proof (nth_In ca (0, 0, 0)%Z (n := 0) ltac:(lia)) as I. destruct SA as (_ & HL & _ & (ord & HC) & _). destruct (components_complete ord (v_L vA) HL) as (l & El & _ & Hi & _). rewrite HC in El. injection El as <-. destruct (nth 0 ca (0, 0, 0)%Z) as [[n l] m]. apply Hi in I. rewrite LA in I. repeat f_equal; lia. }
  assert (CB : nth 0 cb (0, 0, 0)%Z = (0, 0, 0)%Z).
  { pose proof (nth_In cb (0, 0, 0)%Z (n := 0) ltac:(lia)) as I. destruct SB as (_ & HL & _ & (ord & HC) & _). destruct (components_complete ord (v_L vB) HL) as (l & El & _ & Hi & _). rewrite HC in El. injection El as <-. destruct (nth 0 cb (0, 0, 0)%Z) as [[n l] m]. apply Hi in I. rewrite LB in I. repeat f_equal; lia. }
  assert (OK : forall t, In t [BF 1 pA vA ca 0; BF 2 pB vB cb 0] -> bf_ok h t).
  { intros t [<-|[<-|[]]]; (split; [assumption|]); cbn [b_v b_comps b_m]; (split; [lia|]); (split; [|lia]); intros c a; [rewrite PA; intros [E|[E|[]]]; injection E as <- <-; lra|rewrite PB; intros [E|[]]; injection E as <- <-; lra]. }
  exists h, [BF 1 pA vA ca 0; BF 2 pB vB cb 0]. split; [reflexivity|]. split; [exact W|]. split; [exact OK|]. split.
  { intros o. exists (fun u u' => ovalue o (b_v u) (b_v u') (b_comp u) (b_comp u')). intros t t' Ht Ht'. apply computed_exists; [exact W|apply OK, Ht|apply OK, Ht']. }
  intros o S Ho HS. destruct (definite_thm o h _ S Ho W OK HS) as (P & Z). destruct (Req_dec (quad [BF 1 pA vA ca 0; BF 2 pB vB cb 0] S) 0) as [E|N]; [exfalso|lra].
  specialize (Z E 0 0 0). unfold combo, lsum in Z. cbn [fold_right] in Z. unfold b_comp in Z. cbn [b_w b_v b_comps b_m] in Z. rewrite CA, CB in Z.
  assert (A1 : 0 < phi_of vA (0, 0, 0)%Z 0 0 0) by (apply s_value; rewrite PA; [intros c a [X|[X|[]]]; injection X as <- <-; lra|discriminate]).
  assert (B1 : 0 < phi_of vB (0, 0, 0)%Z 0 0 0) by (apply s_value; rewrite PB; [intros c a [X|[]]; injection X as <- <-; lra|discriminate]). lra.
Qed.
