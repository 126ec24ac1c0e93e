(** * GRPP integrals evaluated by several threads: theorems (C85) *)

From Coq Require Import ZArith List Lia Bool Reals Lra.
From Coquelicot Require Import Coquelicot.
From Verif Require Import Base Loops Sums BinomModel BinomProofs CartModel CartProofs HeapModel HeapProofs HeapSpec OneElModel OneElProofs OneElPairs OneElSpec OneElThms
  GaussProd OneElInt OvGradModel OvGradProofs OvGradThms OutercoreModel OutercoreProofs GrppModel GrppFull GrppHeap GrppGrad GrppThms GrppTermGrad GrppWitness ParamsModel Type2Model GrppOwnThms OcThreads OcThreadsProofs OcThreadsWitness.
Import ListNotations.
Open Scope R_scope.

(** what a thread is asked for: the integrals between the shells at two addresses with the operator
    at an address, its centre, and the four matrices to be filled *)
Record job := mkJob { jb_bra : Z; jb_ket : Z; jb_op : Z; jb_C : R * R * R; jb_out : mats }.

(** the program of the thread; the outercore shells of the operator are at the addresses [ocp] *)
Definition job_prog (rt : routines) (h : heap) (j : job) (ocp : list Z) (q : prog mats) : Prop :=
  exists A B gv, view_shell h (jb_bra j) = Ok A /\ view_shell h (jb_ket j) = Ok B /\ grpp_at h (jb_op j) gv ocp /\ q = full_prog rt A B (jb_C j) gv ocp (jb_out j).

(** the origins in the heap *)
Definition origins (h : heap) : omem := fun p k => match hblk h p with Some (OShell s) => coord3 (sh_origin s) k | _ => 0 end.

(** the program of a thread which makes the calls [js] one after the other *)
Definition thread_prog (rt : routines) (h : heap) (js : list (job * list Z)) (q : prog (list mats)) : Prop :=
  exists qs, Forall2 (fun jo q => job_prog rt h (fst jo) (snd jo) q) js qs /\ q = seq_prog qs.

(** no call uses an outercore shell of the operator of any call as bra or ket *)
Definition apart (l : list (list (job * list Z))) : Prop :=
  forall js js' j ocp j' ocp', In js l -> In js' l -> In (j, ocp) js -> In (j', ocp') js' -> ~ In (jb_bra j) ocp' /\ ~ In (jb_ket j) ocp'.

(** an outercore shell used by two different threads is used by both at one centre only *)
Definition same_centres (l : list (list (job * list Z))) : Prop :=
  forall i i' js js' j ocp j' ocp' p, i <> i' -> nth_error l i = Some js -> nth_error l i' = Some js' -> In (j, ocp) js -> In (j', ocp') js' -> In p ocp -> In p ocp' -> jb_C j = jb_C j'.

(** the matrices a single call of libgrpp_full_grpp_integrals gives *)
Definition call_result (rt : routines) (h : heap) (j : job) : res mats :=
  let* (X, _) := full_grpp_integrals rt h (jb_bra j) (jb_ket j) (jb_op j) (jb_C j) (jb_out j) in Ok X.

Lemma job_alone rt h j ocp q : heap_wf h -> job_prog rt h j ocp q -> alone (jb_C j) q = call_result rt h j.
Proof.
  intros W (A & B & gv & EA & EB & G & ->).
  assert (Len : length ocp = length (gv_oc gv)).
  { destruct G as (x & pa & pe & po & G). destruct G as (_ & _ & _ & _ & _ & _ & _ & _ & _ & _ & _ & _ & F). apply forall2_nth in F. destruct F as (F & _). rewrite map_length in F. exact F. }
  rewrite (full_alone rt A B (jb_C j) gv ocp (jb_out j) Len). unfold call_result, full_grpp_integrals.
  destruct (massert (rt_init rt)) as [u|e]; [|reflexivity]. rewrite !bind_ok, EA, bind_ok, EB, bind_ok, (view_grpp_at h _ gv ocp W G), bind_ok.
  destruct (full_sum rt A B (jb_C j) gv (jb_out j)) as [X|e]; [|reflexivity]. rewrite bind_ok.
  destruct (place_ok h (jb_op j) gv ocp (jb_C j) W G) as (h' & E & _). rewrite E. reflexivity.
Qed.

(** the results of the calls of a thread *)
Definition thread_result (rt : routines) (h : heap) (js : list (job * list Z)) : res (list mats) := all_ok (map (fun jo => call_result rt h (fst jo)) js).

Lemma job_solo rt h j ocp q : heap_wf h -> job_prog rt h j ocp q -> (forall D V, guarded (stores ocp (jb_C j)) D V q) /\ forall V, fst (solo V q) = call_result rt h j.
Proof.
  intros W J. pose proof (job_alone rt h j ocp q W J) as E. destruct J as (A & B & gv & _ & _ & _ & ->).
  pose proof (full_safe rt A B (jb_C j) gv ocp (jb_out j) (fun _ _ => False)) as S.
  split.
  - intros D V. destruct (safe_guarded _ _ _ _ V S (fun _ _ (H : False) => match H with end)) as (G & _). exact (guarded_more _ _ _ D V (fun _ _ (H : False) => match H with end) G).
  - intros V. destruct (safe_guarded _ _ _ _ V S (fun _ _ (H : False) => match H with end)) as (_ & Es). rewrite Es. exact E.
Qed.

Lemma thread_solo rt h js q : heap_wf h -> thread_prog rt h js q ->
  (forall D V, guarded (fun p k v => exists j ocp, In (j, ocp) js /\ stores ocp (jb_C j) p k v) D V q) /\ forall V, fst (solo V q) = thread_result rt h js.
Proof.
  intros W (qs & F & ->). split.
  - apply seq_guarded. intros q Hq D V.
    assert (H : exists jo, In jo js /\ job_prog rt h (fst jo) (snd jo) q).
    { clear - F Hq. induction F as [|jo q0 l qs H F IH]; [destruct Hq|]. destruct Hq as [->|Hq]; [exists jo; split; [left; reflexivity|exact H]|]. destruct (IH Hq) as (jo' & Hin & Hj). exists jo'. split; [right; exact Hin|exact Hj]. }
    destruct H as ([j ocp] & Hin & J). destruct (job_solo rt h j ocp q W J) as (G & _). eapply guarded_mono; [|apply G]. intros p k v Hs. exists j, ocp. split; [exact Hin|exact Hs].
  - intros V. unfold thread_result.
    assert (El : qs = map fst (combine qs js)) by (clear - F; induction F as [|jo q0 l qs H F IH]; [reflexivity|cbn [combine map fst]; f_equal; exact IH]).
    assert (Er : map (fun jo => call_result rt h (fst jo)) js = map (fun x => (fun jo => call_result rt h (fst jo)) (snd x)) (combine qs js)) by (clear - F; induction F as [|jo q0 l qs H F IH]; [reflexivity|cbn [combine map fst snd] in *; f_equal; exact IH]).
    rewrite Er, El at 1. apply (seq_solo (combine qs js) (fun jo => call_result rt h (fst jo))). intros q [j ocp] Hin V'.
    assert (J : job_prog rt h j ocp q).
    { clear - F Hin. induction F as [|jo q0 l qs H F IH]; [destruct Hin|]. destruct Hin as [E|Hin]; [injection E as -> ->; exact H|exact (IH Hin)]. }
    cbn [fst]. exact (proj2 (job_solo rt h j ocp q W J) V').
Qed.

Lemma threads_thm rt h (l : list (list (job * list Z))) qs m s : heap_wf h -> Forall2 (thread_prog rt h) l qs -> apart l -> same_centres l ->
  treach (qs, m) s -> finished s -> fst s = map (fun js => Done (thread_result rt h js)) l.
Proof.
  intros W F _ Hs Hr Hf. set (ts := map (fun x : list (job * list Z) * prog (list mats) => mkTask (fun p k v => exists j ocp, In (j, ocp) (fst x) /\ stores ocp (jb_C j) p k v) (snd x) m) (combine l qs)).
  assert (Em : map tk_q ts = qs) by (unfold ts; clear - F; induction F as [|js q l qs H F IH]; [reflexivity|cbn [combine map tk_q snd]; f_equal; exact IH]).
  assert (Nt : forall i t, nth_error ts i = Some t -> exists js, nth_error l i = Some js /\ tk_ok t = (fun p k v => exists j ocp, In (j, ocp) js /\ stores ocp (jb_C j) p k v)).
  { intros i t. unfold ts. rewrite nth_error_map. clear - F. revert i. induction F as [|js q l qs H F IH]; intros i; [destruct i; discriminate|]. destruct i as [|i]; cbn [combine nth_error option_map].
    - intros E. injection E as <-. exists js. split; reflexivity.
    - apply IH. }
  assert (HC : compatible ts).
  { intros i i' t t' p k v w Ne Ht Ht'. destruct (Nt i t Ht) as (js & Hj & ->). destruct (Nt i' t' Ht') as (js' & Hj' & ->). intros (j & ocp & Hin & Hp & ->) (j' & ocp' & Hin' & Hp' & ->).
    rewrite (Hs i i' js js' j ocp j' ocp' p Ne Hj Hj' Hin Hin' Hp Hp'). reflexivity. }
  assert (Sf : forall t, In t ts -> guarded (tk_ok t) (fun _ _ => False) (tk_V t) (tk_q t)).
  { intros t Ht. unfold ts in Ht. clear - W F Ht. induction F as [|js q l qs H F IH]; [destruct Ht|]. destruct Ht as [<-|Ht]; [|exact (IH Ht)]. cbn [tk_ok tk_q tk_V fst snd]. apply (thread_solo rt h js q W H). }
  rewrite <- Em in Hr. rewrite (threads_result ts m s HC Sf Hr Hf). unfold ts. clear - W F.
  induction F as [|js q l qs H F IH]; [reflexivity|]. cbn [combine map tk_V tk_q fst snd]. f_equal; [|exact IH]. f_equal. exact (proj2 (thread_solo rt h js q W H) m).
Qed.

Lemma finish_thm (qs : list (prog (list mats))) m s : treach (qs, m) s -> exists s', treach s s' /\ finished s'.
Proof. intros _. apply can_finish. Qed.

(** ** One operator at two centres *)
Lemma grpp_scene : exists h pA pB pS g S0 vA vB ca cb, heap_wf h /\ std_shell h pA vA ca /\ std_shell h pB vB cb /\ pA <> pS /\ pB <> pS /\
  v_L vA = 0%Z /\ v_origin vA = C1 /\ v_prims vA = [(1, 1)] /\ v_L vB = 0%Z /\ v_origin vB = C1 /\ v_prims vB = [(1, 1)] /\
  (exists o, vshell_is S0 0 o [(1, 1)] [(0, 0, 0)%Z]) /\ grpp_at h g (mkGv None [] [] [(tU, S0)]) [pS].
Proof.
  destruct (shells_exist [(0%Z, C1, [(1, 1)]); (0%Z, C1, [(1, 1)]); (0%Z, (5, 5, 5), [(1, 1)])]) as (h & ps & W & F).
  { intros L o pr [E | [E | [E | []]]]; injection E as <- <- <-; lia. }
  inversion F as [|? pA ? ? HA F1]; subst. inversion F1 as [|? pB ? ? HB F2]; subst. inversion F2 as [|? pS ? ? HS F3]; subst.
  destruct HA as (vA & ca & SA & LA & OA & PA). destruct HB as (vB & cb & SB & LB & OB & PB). destruct HS as (vS & cs & SS & LS & OS & PS).
  destruct (pot_exists h 0 1 (pv_prims tU) W) as (u & h1 & W1 & K1 & EU).
  destruct (halloc h1 (OPtrs [u])) as [q h2] eqn:E2. destruct (halloc_wf _ _ _ _ W1 E2) as (W2 & B2 & K2).
  destruct (halloc h2 (OPtrs [pS])) as [r h3] eqn:E3. destruct (halloc_wf _ _ _ _ W2 E3) as (W3 & B3 & K3).
  destruct (halloc h3 (OGrpp (mkGrpp 0 0 1 0 0 0 q r))) as [g h4] eqn:E4. destruct (halloc_wf _ _ _ _ W3 E4) as (W4 & B4 & K4).
  assert (K : keeps h h4) by (intros a o Hq; apply K4, K3, K2, K1, Hq).
  assert (EU4 : view_pot h4 u = Ok tU) by (eapply view_keeps; [|exact EU]; intros a o Hq; apply K4, K3, K2, Hq).
  pose proof (std_old _ _ _ _ _ K SA) as SA4. pose proof (std_old _ _ _ _ _ K SB) as SB4. pose proof (std_old _ _ _ _ _ K SS) as SS4.
  destruct (std_view h4 pS vS cs W4 SS4) as (S0 & ES & VS & _). rewrite (std_canon _ _ _ _ SS4), LS, PS in VS.
  exists h4, pA, pB, pS, g, S0, vA, vB, ca, cb. repeat (split; [assumption || idtac|]).
  - eapply shell_ptr_neq; [exact SA|exact SS|]. rewrite OA, OS. unfold C1. intros E. injection E. intros. lra.
  - eapply shell_ptr_neq; [exact SB|exact SS|]. rewrite OB, OS. unfold C1. intros E. injection E. intros. lra.
  - eexists. exact VS.
  - exists (mkGrpp 0 0 1 0 0 0 q r), [], [], [u]. split; [exact B4|]. cbn [gv_local gv_arep gv_esop gv_oc g_UL g_n_arep g_n_esop g_n_oc g_Uarep g_Uesop g_Uoc g_ocshells map fst snd]. split; [reflexivity|].
    split; [reflexivity|]. split; [left; reflexivity|]. split; [constructor|]. split; [reflexivity|]. split; [left; reflexivity|]. split; [constructor|]. split; [reflexivity|].
    split; [right; exists []; apply K4, K3; exact B2|]. split; [constructor; [exact EU4|constructor]|]. split; [right; exists []; apply K4; exact B3|]. constructor; [exact ES|constructor].
Qed.

Lemma prs_solo {A} (q : prog A) m q' m' : prs q m q' m' -> solo m q = solo m' q'.
Proof. intros H. induction H; [reflexivity|exact IHprs|exact IHprs]. Qed.

Lemma race_thm fuel par bessel erf st : let rt := own_routines fuel par bessel erf st in
  exists h pA pB g ocp vA vB ca cb C C' out q q' s X Y h' x y,
    heap_wf h /\ std_shell h pA vA ca /\ std_shell h pB vB cb /\ ~ In pA ocp /\ ~ In pB ocp /\ C <> C' /\
    thread_prog rt h [(mkJob pA pB g C out, ocp)] q /\ thread_prog rt h [(mkJob pA pB g C' out, ocp)] q' /\
    treach ([q; q'], origins h) s /\ finished s /\ nth_error (fst s) 0 = Some (Done (Ok [X])) /\
    full_grpp_integrals rt h pA pB g C out = Ok (Y, h') /\
    aget (mat_k X (-1)) [0%Z] = Ok x /\ aget (mat_k Y (-1)) [0%Z] = Ok y /\ 7 <= x - y.
Proof.
  intros rt. destruct grpp_scene as (h & pA & pB & p & g & S0 & vA & vB & ca & cb & W & SA & SB & NA & NB & LA & OA & PA & LB & OB & PB & (o & VS) & G).
  destruct (std_view h pA vA ca W SA) as (A & EA & VA & _). rewrite (std_canon _ _ _ _ SA), LA, OA, PA in VA. change (canon 0) with [(0, 0, 0)%Z] in VA.
  destruct (std_view h pB vB cb W SB) as (B & EB & VB & _). rewrite (std_canon _ _ _ _ SB), LB, OB, PB in VB. change (canon 0) with [(0, 0, 0)%Z] in VB.
  set (z := aconst [1%Z] 0). set (out := (z, z, z, z)).
  assert (Ho : let '(m0, m1, m2, m3) := out in adims m0 = [1%Z] /\ adims m1 = [1%Z] /\ adims m2 = [1%Z] /\ adims m3 = [1%Z]) by (repeat split; reflexivity).
  destruct (pause fuel par bessel erf st A B S0 o p out VA VB VS Ho C1) as (sums & o1 & f & Fs & F1 & R1).
  destruct (pause fuel par bessel erf st A B S0 o p out VA VB VS Ho C2) as (sums2 & o2 & f2 & Fs2 & F2 & R2).
  destruct (resume A B S0 o p VA VB VS C1 sums o1 f Fs F1) as (Y & VY & RY).
  destruct (resume A B S0 o p VA VB VS C2 sums o1 f Fs F1) as (X & VX & RX).
  destruct (resume A B S0 o p VA VB VS C2 sums2 o2 f2 Fs2 F2) as (Y2 & VY2 & RY2).
  set (q0 := full_prog rt A B C1 (tgv S0) [p] out). set (q0' := full_prog rt A B C2 (tgv S0) [p] out).
  set (k := fun x : mats => Done (Ok [x])). set (q := pbind q0 k). set (q' := pbind q0' k).
  assert (J1 : job_prog rt h (mkJob pA pB g C1 out) [p] q0) by (exists A, B, (tgv S0); repeat (split; [assumption|]); reflexivity).
  assert (J2 : job_prog rt h (mkJob pA pB g C2 out) [p] q0') by (exists A, B, (tgv S0); repeat (split; [assumption|]); reflexivity).
  assert (T1 : thread_prog rt h [(mkJob pA pB g C1 out, [p])] q) by (exists [q0]; split; [constructor; [exact J1|constructor]|reflexivity]).
  assert (T2 : thread_prog rt h [(mkJob pA pB g C2 out, [p])] q') by (exists [q0']; split; [constructor; [exact J2|constructor]|reflexivity]).
  destruct (R1 (origins h)) as (m1 & P1 & H1). destruct (R2 m1) as (m2 & P2 & H2).
  assert (Good : call_result rt h (mkJob pA pB g C1 out) = Ok Y).
  { rewrite <- (job_alone rt h _ [p] q0 W J1). cbn [jb_C]. pose proof (proj2 (safe_guarded _ _ _ _ (origins h) (full_safe rt A B C1 (tgv S0) [p] out (fun _ _ => False)) (fun _ _ (H : False) => match H with end))) as E.
    unfold q0. rewrite <- E. etransitivity; [exact (f_equal fst (prs_solo _ _ _ _ P1))|]. exact (f_equal fst (prs_solo _ _ _ _ (RY m1 H1))). }
  unfold call_result in Good. cbn [jb_bra jb_ket jb_op jb_C jb_out] in Good. destruct (full_grpp_integrals rt h pA pB g C1 out) as [[Y' h']|e] eqn:EY; [|discriminate Good]. cbn [bind] in Good. injection Good as ->.
  exists h, pA, pB, g, [p], vA, vB, ca, cb, C1, C2, out, q, q', ([Done (Ok [X]); Done (Ok [Y2])], m2), X, Y, h'. eexists _, _.
  split; [exact W|]. split; [exact SA|]. split; [exact SB|]. split; [intros [E|[]]; congruence|]. split; [intros [E|[]]; congruence|].
  split; [unfold C1, C2; intros E; injection E; intros; lra|]. split; [exact T1|]. split; [exact T2|].
  split.
  { set (w := pbind (waiting A B S0 p sums o1) k). set (w2 := pbind (waiting A B S0 p sums2 o2) k).
    pose proof (prs_treach _ _ _ _ (prs_bind _ _ k _ _ P1) [q; q'] 0%nat eq_refl) as S1. cbn [put_nth] in S1. eapply treach_trans; [exact S1|].
    pose proof (prs_treach _ _ _ _ (prs_bind _ _ k _ _ P2) [w; q'] 1%nat eq_refl) as S2. cbn [put_nth] in S2. eapply treach_trans; [exact S2|].
    pose proof (prs_treach _ _ _ _ (prs_bind _ _ k _ _ (RY2 m2 H2)) [w; w2] 1%nat eq_refl) as S3. cbn [put_nth] in S3. eapply treach_trans; [exact S3|].
    exact (prs_treach _ _ _ _ (prs_bind _ _ k _ _ (RX m2 H2)) [w; Done (Ok [Y2])] 0%nat eq_refl). }
  split; [intros a [<-|[<-|[]]]; eauto|]. split; [reflexivity|]. split; [exact EY|]. split; [exact VX|]. split; [exact VY|].
  assert (E1 : - (coord3 C1 0 ^ 2 + coord3 C1 1 ^ 2 + coord3 C1 2 ^ 2) / 2 = 0) by (unfold coord3, C1; cbn [Z.eqb Pos.eqb]; field).
  assert (E2 : - (coord3 C2 0 ^ 2 + coord3 C2 1 ^ 2 + coord3 C2 2 ^ 2) / 2 = - 2) by (unfold coord3, C2; cbn [Z.eqb Pos.eqb]; field).
  rewrite E1, E2, exp_0. pose proof tdelta_big as TB.
  assert (Ex : exp (- 2) ^ 2 <= 1 / 5).
  { replace (exp (- 2) ^ 2) with (exp (- 4)) by (replace (- 4) with (- 2 + - 2) by ring; rewrite exp_plus; ring). change (- 4) with (Ropp 4). rewrite exp_Ropp. pose proof (exp_ineq1_le 4) as I. replace (1 / 5) with (/ 5) by field. apply Rinv_le_contravar; lra. }
  set (e2 := exp (- 2) ^ 2) in *. nra.
Qed.
