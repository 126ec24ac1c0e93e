(** * C85: GRPP integrals evaluated by several threads

    [job], [job_prog], [thread_prog], [apart], [same_centres], [call_result], [thread_result],
    [origins]: OcThreadsThms.v.  [treach (qs, m) s]: the threads qs, started with the origins m
    in the shared shells, reach s by taking steps in any order, a step being one load or store
    of a coordinate of an outercore shell; [finished s]: all threads are done (OcThreads.v). *)

From Coq Require Import ZArith List Lia Bool Reals Lra.
From Coquelicot Require Import Coquelicot.
From Verif Require Import Base Loops Sums BinomModel BinomProofs CartModel CartProofs HeapModel HeapProofs HeapSpec OneElModel OneElProofs OneElPairs OneElSpec OneElThms
  GaussProd OneElInt OvGradModel OvGradProofs OvGradThms OutercoreModel OutercoreProofs GrppModel GrppFull GrppHeap GrppGrad GrppThms GrppTermGrad GrppWitness ParamsModel Type2Model GrppOwnThms OcThreads OcThreadsProofs OcThreadsWitness OcThreadsThms.
Import ListNotations.
Open Scope R_scope.

(** C85: any number of threads, each making any number of calls with any shells and operators: when an
outercore shell used by two different threads is used by both at one centre only, every thread
ends with the matrices which its calls give when made alone, whatever the order of the steps.
Missing: threads which share an operator and use it at different centres, for which the claim
is false (C85_shared_operator_refuted). *)
Theorem C85_threads_partial : forall rt h (l : list (list (job * list Z))) qs m s,
  heap_wf h -> Forall2 (thread_prog rt h) l qs -> apart l -> same_centres l ->
  treach (qs, m) s -> finished s -> fst s = map (fun js => Done (thread_result rt h js)) l.
Proof. exact threads_thm. Qed.
Print Assumptions C85_threads_partial.

(** C85: no thread waits for another: from every reachable state all threads can be run to the end. *)
Theorem C85_finish : forall (qs : list (prog (list mats))) m s,
  treach (qs, m) s -> exists s', treach s s' /\ finished s'.
Proof. exact finish_thm. Qed.
Print Assumptions C85_finish.

(** C85: two threads which use one operator object at two centres: there are a heap, two s shells, an
operator with one outercore shell and an order of the steps for which the first thread ends with
a matrix element which differs by at least 7 from the one its call gives when made alone. *)
Theorem C85_shared_operator_refuted : forall fuel par bessel erf st,
  let rt := own_routines fuel par bessel erf st in
  exists h pA pB g ocp vA vB ca cb C C' out q q' s X Y h' x y,
    heap_wf h /\ std_shell h pA vA ca /\ std_shell h pB vB cb /\ ~ In pA ocp /\ ~ In pB ocp /\ C <> C' /\
    thread_prog rt h [(mkJob pA pB g C out, ocp)] q /\ thread_prog rt h [(mkJob pA pB g C' out, ocp)] q' /\
    treach ([q; q'], origins h) s /\ finished s /\ nth_error (fst s) 0 = Some (Done (Ok [X])) /\
    full_grpp_integrals rt h pA pB g C out = Ok (Y, h') /\
    aget (mat_k X (-1)) [0%Z] = Ok x /\ aget (mat_k Y (-1)) [0%Z] = Ok y /\ 7 <= x - y.
Proof. exact race_thm. Qed.
Print Assumptions C85_shared_operator_refuted.

(** two threads with one operator at one centre, the first making two calls: the hypotheses of
C85_threads_partial are met *)
Example C85_case rt : exists h l qs, heap_wf h /\ length l = 2%nat /\ Forall2 (thread_prog rt h) l qs /\ apart l /\ same_centres l /\
  (exists js js' j ocp j' ocp' p, nth_error l 0 = Some js /\ nth_error l 1 = Some js' /\ length js = 2%nat /\ In (j, ocp) js /\ In (j', ocp') js' /\ In p ocp /\ In p ocp').
Proof.
  destruct grpp_scene as (h & pA & pB & p & g & S0 & vA & vB & ca & cb & W & SA & SB & NA & NB & _ & _ & _ & _ & _ & _ & _ & G).
  destruct (std_view h pA vA ca W SA) as (A & EA & _ & _). destruct (std_view h pB vB cb W SB) as (B & EB & _ & _).
  set (z := aconst [1%Z] 0). set (j := mkJob pA pB g C1 (z, z, z, z)). set (j' := mkJob pB pA g C1 (z, z, z, z)).
  set (q := full_prog rt A B C1 (mkGv None [] [] [(tU, S0)]) [p] (z, z, z, z)). set (q' := full_prog rt B A C1 (mkGv None [] [] [(tU, S0)]) [p] (z, z, z, z)).
  assert (J : job_prog rt h j [p] q) by (exists A, B, (mkGv None [] [] [(tU, S0)]); repeat (split; [assumption|]); reflexivity).
  assert (J' : job_prog rt h j' [p] q') by (exists B, A, (mkGv None [] [] [(tU, S0)]); repeat (split; [assumption|]); reflexivity).
  exists h, [[(j, [p]); (j', [p])]; [(j', [p])]], [seq_prog [q; q']; seq_prog [q']].
  split; [exact W|]. split; [reflexivity|]. split.
  { constructor; [exists [q; q']; split; [constructor; [exact J|constructor; [exact J'|constructor]]|reflexivity]|].
    constructor; [exists [q']; split; [constructor; [exact J'|constructor]|reflexivity]|constructor]. }
  assert (El : forall js a o, In js [[(j, [p]); (j', [p])]; [(j', [p])]] -> In (a, o) js -> (a = j \/ a = j') /\ o = [p]).
  { intros js a o [<-|[<-|[]]] Hin; cbn [In] in Hin; repeat (destruct Hin as [Hin|Hin]; [injection Hin as <- <-; split; [auto|reflexivity]|]); destruct Hin. }
  split; [|split].
  - intros js js' a o a' o' H1 H2 H3 H4. destruct (El _ _ _ H1 H3) as (Ea & _). destruct (El _ _ _ H2 H4) as (_ & ->).
    destruct Ea as [->| ->]; cbn [jb_bra jb_ket j j']; split; (intros [E|[]]; congruence).
  - intros i i' js js' a o a' o' x _ H1 H2 H3 H4 _ _. destruct (El _ _ _ (nth_error_In _ _ H1) H3) as (Ea & _). destruct (El _ _ _ (nth_error_In _ _ H2) H4) as (Ea' & _).
    destruct Ea as [->| ->], Ea' as [->| ->]; reflexivity.
  - exists [(j, [p]); (j', [p])], [(j', [p])], j, [p], j', [p], p. repeat split; try reflexivity; left; reflexivity.
Qed.
