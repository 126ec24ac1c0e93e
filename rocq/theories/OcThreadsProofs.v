(** * GRPP integrals evaluated by several threads: invariant *)

From Coq Require Import ZArith List Lia Bool Reals.
From Verif Require Import Base CartModel HeapModel HeapSpec OneElModel LmatModel OvGradModel OutercoreModel GrppModel GrppFull GrppHeap OcThreads.
Import ListNotations.
Open Scope R_scope.

(** the result of a program when every load of coordinate k gives that of C *)
Fixpoint alone {A} (C : R * R * R) (q : prog A) : res A :=
  match q with
  | Done r => r
  | Rd p k f => alone C (f (coord3 C k))
  | Wr p k v q => alone C q
  end.

(** every load is of a cell of K or of one stored before, only the origin C is stored, and only into shells in own *)
Fixpoint safe {A} (own : list Z) (C : R * R * R) (K : Z -> Z -> Prop) (q : prog A) : Prop :=
  match q with
  | Done _ => True
  | Rd p k f => K p k /\ safe own C K (f (coord3 C k))
  | Wr p k v q => In p own /\ v = coord3 C k /\ safe own C (fun a b => K a b \/ (a = p /\ b = k)) q
  end.

Lemma alone_bind {A B} C (q : prog A) (f : A -> prog B) : alone C (pbind q f) = bind (alone C q) (fun a => alone C (f a)).
Proof. induction q as [[a|e]|p k g IH|p k v q IH]; cbn [pbind alone bind]; [reflexivity|reflexivity|apply IH|apply IH]. Qed.

Lemma safe_bind {A B} own C (q : prog A) (f : A -> prog B) : (forall a K, safe own C K (f a)) -> forall K, safe own C K q -> safe own C K (pbind q f).
Proof.
  intros Hf. induction q as [[a|e]|p k g IH|p k v q IH]; intros K; cbn [pbind safe].
  - intros _. apply Hf.
  - intros _. exact I.
  - intros (HK & H). split; [exact HK|]. apply IH. exact H.
  - intros (H1 & H2 & H). split; [exact H1|]. split; [exact H2|]. apply IH. exact H.
Qed.

Lemma safe_pfold {T S} own C (f : T -> S -> prog S) l : (forall x s K, In x l -> safe own C K (f x s)) -> forall s K, safe own C K (pfold f l s).
Proof.
  induction l as [|x l IH]; intros H s K; cbn [pfold]; [exact I|]. apply safe_bind; [|apply H; left; reflexivity]. intros a K'. apply IH. intros y s' K'' Hy. apply H. right. exact Hy.
Qed.

Lemma alone_pfold {T S} C (f : T -> S -> prog S) (g : T -> S -> res S) l : (forall x s, alone C (f x s) = g x s) ->
  forall s, alone C (pfold f l s) = fold_left (fun r x => bind r (g x)) l (Ok s).
Proof.
  intros H. induction l as [|x l IH]; intros s; cbn [pfold fold_left]; [reflexivity|]. rewrite alone_bind, H, bind_ok. destruct (g x s) as [s'|e].
  - rewrite bind_ok. apply IH.
  - cbn [bind]. clear. induction l as [|x l IH]; [reflexivity|]. exact IH.
Qed.

(** ** The outercore part *)
Lemma put_safe own C p K : In p own -> safe own C K (put_origin p C).
Proof. intros H. unfold put_origin. cbn [safe]. repeat (split; [assumption || reflexivity|]). exact I. Qed.

Lemma part_1_safe own t1 A B C o out K : In (snd (fst o)) own -> safe own C K (part_1_prog t1 A B C o out).
Proof.
  destruct o as [[pot p] s]. cbn [fst snd]. intros H. unfold part_1_prog, put_origin, get_origin. cbn [pbind safe].
  repeat (split; [first [exact H|reflexivity|auto]|]). exact I.
Qed.

Lemma part_2_safe own A B C o o' out K : In (snd (fst o)) own -> In (snd (fst o')) own -> safe own C K (part_2_prog A B C o o' out).
Proof.
  destruct o as [[pot p] s], o' as [[pot' p'] s']. cbn [fst snd]. intros H H'. unfold part_2_prog, put_origin, get_origin.
  destruct (negb (pv_L pot =? pv_L pot')%Z); [exact I|]. destruct (negb (pv_J pot =? pv_J pot')%Z); [exact I|]. cbn [pbind safe].
  repeat (split; [first [exact H|exact H'|reflexivity|auto 12]|]). exact I.
Qed.

Lemma part_1_alone t1 A B C pot p s out : alone C (part_1_prog t1 A B C (pot, p, s) out) = outercore_part_1 t1 A B C pot s out.
Proof. destruct C as [[cx cy] cz]. reflexivity. Qed.

Lemma part_2_alone A B C pot p s pot' p' s' out : alone C (part_2_prog A B C (pot, p, s) (pot', p', s') out) = outercore_part_2 A B C pot s pot' s' out.
Proof.
  destruct C as [[cx cy] cz], out as [[[m0 m1] m2] m3]. unfold part_2_prog, outercore_part_2.
  destruct (negb (pv_L pot =? pv_L pot')%Z); [reflexivity|]. destruct (negb (pv_J pot =? pv_J pot')%Z); reflexivity.
Qed.

Lemma oc_safe own t1 A B C ocs out K : (forall o, In o ocs -> In (snd (fst o)) own) -> safe own C K (oc_prog t1 A B C ocs out).
Proof.
  intros H. destruct out as [[[m0 m1] m2] m3]. unfold oc_prog. apply safe_bind; [|exact I]. intros o1 K1.
  apply safe_bind; [|apply safe_pfold; intros [[pot p] s] u K2 Hin; apply put_safe; exact (H _ Hin)]. intros _ K2.
  apply safe_bind; [|apply safe_pfold; intros o s K3 Hin; apply part_1_safe; exact (H _ Hin)]. intros o2 K3.
  apply safe_pfold. intros o s K4 Hin. apply safe_pfold. intros o' s' K5 Hin'. apply part_2_safe; [exact (H _ Hin)|exact (H _ Hin')].
Qed.

Lemma fold_fail {T S} (g : T -> S -> res S) e l : fold_left (fun r x => bind r (g x)) l (Fail e) = Fail e.
Proof. induction l as [|x l IH]; [reflexivity|]. exact IH. Qed.

Lemma fold_map_eq {T U S} (h : T -> U) (g : T -> S -> res S) (g' : U -> S -> res S) l : (forall x s, In x l -> g x s = g' (h x) s) ->
  forall r, fold_left (fun r x => bind r (g x)) l r = fold_left (fun r x => bind r (g' x)) (map h l) r.
Proof.
  induction l as [|x l IH]; intros H r; [reflexivity|]. cbn [map fold_left]. rewrite <- IH by (intros y s Hy; apply H; right; exact Hy). f_equal.
  destruct r as [s|e]; [|reflexivity]. cbn [bind]. apply H. left. reflexivity.
Qed.

Lemma fold_ext {T S} (f g : res S -> T -> res S) l : (forall r x, f r x = g r x) -> forall r, fold_left f l r = fold_left g l r.
Proof. intros H. induction l as [|x l IH]; intros r; [reflexivity|]. cbn [fold_left]. rewrite H. apply IH. Qed.

Lemma oc_alone t1 A B C (ocs : list ocref) ocs2 out : map (fun '(pot, p, s) => (pot, s)) ocs = ocs2 ->
  alone C (oc_prog t1 A B C ocs out) = (let* (out', _) := outercore_potential_integrals t1 A B C ocs2 out in Ok out').
Proof.
  intros <-. destruct out as [[[m0 m1] m2] m3]. unfold oc_prog, outercore_potential_integrals. rewrite alone_bind. cbn [alone].
  destruct (memset0 (sv_size A * sv_size B) m0) as [n0|e]; [|reflexivity]. rewrite !bind_ok.
  destruct (memset0 (sv_size A * sv_size B) m1) as [n1|e]; [|reflexivity]. rewrite !bind_ok.
  destruct (memset0 (sv_size A * sv_size B) m2) as [n2|e]; [|reflexivity]. rewrite !bind_ok.
  destruct (memset0 (sv_size A * sv_size B) m3) as [n3|e]; [|reflexivity]. rewrite !bind_ok.
  cbv beta. rewrite alone_bind.
  assert (P : alone C (pfold (fun '(_, p, _) (_ : unit) => put_origin p C) ocs tt) = Ok tt).
  { rewrite (alone_pfold C _ (fun _ _ => Ok tt)) by (intros [[pot p] s] u; reflexivity). clear. induction ocs as [|x l IH]; [reflexivity|exact IH]. }
  rewrite P, bind_ok. cbv beta. rewrite alone_bind.
  rewrite (alone_pfold C (part_1_prog t1 A B C) (fun (o : ocref) (s : mats) => let '(pot, p, sh) := o in outercore_part_1 t1 A B C pot sh s)) by (intros [[pot p] s] u; apply part_1_alone).
  set (mv := fun x : ocref => let '(pot, s) := let '(pot, _, s) := x in (pot, s) in (pot, move_shell s C)).
  assert (M : map (fun '(pot, s) => (pot, move_shell s C)) (map (fun '(pot, _, s) => (pot, s)) ocs) = map mv ocs) by (rewrite map_map; reflexivity). rewrite M. clear M.
  rewrite (fold_map_eq mv _ (fun o s => let '(pot, sh) := o in outercore_part_1 t1 A B C pot sh s)) by (intros [[pot p] s] u _; reflexivity).
  rewrite (fold_ext (fun r x => bind r ((fun (o : vpot * vshell) (s : mats) => let '(pot, sh) := o in outercore_part_1 t1 A B C pot sh s) x)) (fun (r : res mats) '(pot, nlj) => let* out := r in outercore_part_1 t1 A B C pot nlj out)) by (intros r [pot s]; reflexivity).
  unfold mats. match goal with |- context [fold_left ?f (map mv ocs) (Ok (n0, n1, n2, n3))] => destruct (fold_left f (map mv ocs) (Ok (n0, n1, n2, n3))) as [o1|e] end; [|reflexivity]. rewrite !bind_ok.
  rewrite (alone_pfold C (fun (o : ocref) (out : mats) => pfold (fun (o' : ocref) (out0 : mats) => part_2_prog A B C o o' out0) ocs out) (fun (o : ocref) (s : mats) => fold_left (fun r x => bind r ((fun o' s' => let '(pot, p, sh) := o in let '(pot', p', sh') := o' in outercore_part_2 A B C pot sh pot' sh' s') x)) ocs (Ok s)))
    by (intros [[pot p] s] u; apply alone_pfold; intros [[pot' p'] s'] u'; apply part_2_alone).
  rewrite (fold_map_eq mv _ (fun o s => let '(pot, sh) := o in fold_left (fun r x => bind r ((fun o' s' => let '(pot', sh') := o' in outercore_part_2 A B C pot sh pot' sh' s') x)) (map mv ocs) (Ok s))).
  2:{ intros [[pot p] s] u _. cbn [mv]. apply fold_map_eq. intros [[pot' p'] s'] u' _. reflexivity. }
  rewrite (fold_ext (fun r x => bind r ((fun (o : vpot * vshell) (s : mats) => let '(pot, sh) := o in fold_left (fun r x => bind r ((fun o' s' => let '(pot', sh') := o' in outercore_part_2 A B C pot sh pot' sh' s') x)) (map mv ocs) (Ok s)) x)) (fun (r : res mats) '(pot1, nlj1) => fold_left (fun (r : res mats) '(pot2, nlj2) => let* out := r in outercore_part_2 A B C pot1 nlj1 pot2 nlj2 out) (map mv ocs) r)).
  - unfold mats. match goal with |- context [fold_left ?f (map mv ocs) (Ok o1)] => destruct (fold_left f (map mv ocs) (Ok o1)) as [o2|e] end; reflexivity.
  - intros r [pot s]. destruct r as [a|e]; cbn [bind].
    + apply fold_ext. intros r' [pot' s']. reflexivity.
    + rewrite (fold_ext (fun (r : res mats) '(pot2, nlj2) => let* out := r in outercore_part_2 A B C pot s pot2 nlj2 out) (fun r x => bind r ((fun o' s' => let '(pot', sh') := o' in outercore_part_2 A B C pot s pot' sh' s') x))) by (intros r' [pot' s']; reflexivity). symmetry. apply fold_fail.
Qed.

(** ** The whole call *)
Lemma full_sum_parts rt A B C gv out : full_sum rt A B C gv out =
  (let* (bufs, sums) := full_before rt A B C gv out in
   let* (bufs, _) := outercore_potential_integrals (rt_oc rt) A B C (gv_oc gv) bufs in
   full_after A B bufs sums).
Proof.
  unfold full_sum, full_before, full_after. destruct out as [[[m0 m1] m2] m3].
  assert (BE : forall X Y Z' (x : res X) (k : X -> res Y) (f : Y -> res Z') (k' : X -> res Z'), (forall a, k' a = bind (k a) f) -> bind x k' = bind (bind x k) f).
  { intros X Y Z' x k f k' H. destruct x; [apply H|reflexivity]. }
  do 6 (apply BE; intros ?). apply BE. intros [b a9]. apply BE. intros [[[[[bx by_] bz] sx] sy] sz]. rewrite bind_ok.
  destruct (outercore_potential_integrals _ _ _ _ _ _) as [[bufs r]|e]; [|reflexivity]. rewrite !bind_ok. destruct bufs as [[[b0 b1] b2] b3]. reflexivity.
Qed.

Lemma ocrefs_views gv ocp : length ocp = length (gv_oc gv) -> map (fun '(pot, p, s) => (pot, s)) (ocrefs gv ocp) = gv_oc gv.
Proof.
  unfold ocrefs. rewrite map_map. generalize (gv_oc gv). intros l. revert ocp. induction l as [|[pot s] l IH]; intros [|p ocp] E; try discriminate; [reflexivity|].
  cbn [combine map]. f_equal. apply IH. injection E as E. exact E.
Qed.

Lemma ocrefs_own gv ocp o : In o (ocrefs gv ocp) -> In (snd (fst o)) ocp.
Proof. unfold ocrefs. intros H. apply in_map_iff in H. destruct H as ([[pot s] p] & <- & H). cbn [fst snd]. exact (in_combine_r _ _ _ _ H). Qed.

Lemma full_alone rt A B C gv ocp out : length ocp = length (gv_oc gv) ->
  alone C (full_prog rt A B C gv ocp out) = (let* _ := massert (rt_init rt) in full_sum rt A B C gv out).
Proof.
  intros E. unfold full_prog. rewrite alone_bind. cbn [alone]. destruct (rt_init rt); [|reflexivity]. cbn [massert]. rewrite !bind_ok, full_sum_parts.
  destruct (full_before rt A B C gv out) as [[bufs sums]|e]; [|reflexivity]. rewrite !bind_ok, alone_bind, (oc_alone _ _ _ _ _ _ _ (ocrefs_views gv ocp E)).
  destruct (outercore_potential_integrals _ _ _ _ _ _) as [[b r]|e]; reflexivity.
Qed.

Lemma full_safe rt A B C gv ocp out K : safe ocp C K (full_prog rt A B C gv ocp out).
Proof.
  unfold full_prog. apply safe_bind; [|exact I]. intros [bufs sums] K'. apply safe_bind; [intros a K''; exact I|]. apply oc_safe. intros o Ho. exact (ocrefs_own gv ocp o Ho).
Qed.

(** ** A thread on its own, from any memory *)
Fixpoint solo {A} (V : omem) (q : prog A) : res A * omem :=
  match q with
  | Done r => (r, V)
  | Rd p k f => solo V (f (V p k))
  | Wr p k v q => solo (omem_set V p k v) q
  end.

(** every load is of a cell in D or of one stored before; only allowed values are stored.  V: the memory as this thread
    has left it *)
Fixpoint guarded {A} (ok : Z -> Z -> R -> Prop) (D : Z -> Z -> Prop) (V : omem) (q : prog A) : Prop :=
  match q with
  | Done _ => True
  | Rd p k f => D p k /\ guarded ok D V (f (V p k))
  | Wr p k v q => ok p k v /\ guarded ok (fun a b => D a b \/ (a = p /\ b = k)) (omem_set V p k v) q
  end.

Definition stores (own : list Z) (C : R * R * R) (p k : Z) (v : R) : Prop := In p own /\ v = coord3 C k.

Lemma guarded_mono {A} (ok ok' : Z -> Z -> R -> Prop) (q : prog A) : (forall p k v, ok p k v -> ok' p k v) ->
  forall D V, guarded ok D V q -> guarded ok' D V q.
Proof. intros H. induction q as [r|p k f IH|p k v q IH]; intros D V; cbn [guarded]; [auto|intros (H1 & H2); split; [exact H1|apply IH; exact H2]|intros (H1 & H2); split; [apply H; exact H1|apply IH; exact H2]]. Qed.

Lemma guarded_more {A} ok (q : prog A) : forall (D D' : Z -> Z -> Prop) V, (forall p k, D p k -> D' p k) -> guarded ok D V q -> guarded ok D' V q.
Proof.
  induction q as [r|p k f IH|p k v q IH]; intros D D' V H; cbn [guarded]; [auto|intros (H1 & H2); split; [apply H; exact H1|]; exact (IH _ _ _ _ H H2)|].
  intros (H1 & H2). split; [exact H1|]. eapply IH; [|exact H2]. intros a b [Hab|Hab]; [left; apply H; exact Hab|right; exact Hab].
Qed.

Lemma safe_guarded {A} own C (q : prog A) : forall K V, safe own C K q -> (forall p k, K p k -> V p k = coord3 C k) -> guarded (stores own C) K V q /\ fst (solo V q) = alone C q.
Proof.
  induction q as [r|p k f IH|p k v q IH]; intros K V; cbn [safe guarded solo alone]; [auto| |].
  - intros (H1 & H2) HV. rewrite (HV p k H1). destruct (IH _ K V H2 HV) as (G & E). split; [split; [exact H1|exact G]|exact E].
  - intros (H1 & -> & H2) HV. destruct (IH _ (omem_set V p k (coord3 C k)) H2) as (G & E).
    + intros a b Hab. unfold omem_set. destruct ((a =? p)%Z && (b =? k)%Z) eqn:Eb.
      * apply andb_true_iff in Eb. destruct Eb as (_ & Eb). apply Z.eqb_eq in Eb. subst b. reflexivity.
      * destruct Hab as [Hab|(-> & ->)]; [exact (HV a b Hab)|]. rewrite !Z.eqb_refl in Eb. discriminate Eb.
    + split; [split; [split; [exact H1|reflexivity]|exact G]|exact E].
Qed.

Lemma guarded_bind {A B} ok (q : prog A) (f : A -> prog B) : (forall a D V, guarded ok D V (f a)) -> forall D V, guarded ok D V q -> guarded ok D V (pbind q f).
Proof.
  intros Hf. induction q as [[a|e]|p k g IH|p k v q IH]; intros D V; cbn [pbind guarded]; [intros _; apply Hf|auto|intros (H1 & H2); split; [exact H1|apply IH; exact H2]|intros (H1 & H2); split; [exact H1|apply IH; exact H2]].
Qed.

Lemma solo_bind {A B} (q : prog A) (f : A -> prog B) : forall V, solo V (pbind q f) = match solo V q with (Ok a, V') => solo V' (f a) | (Fail e, V') => (Fail e, V') end.
Proof. induction q as [[a|e]|p k g IH|p k v q IH]; intros V; cbn [pbind solo]; [reflexivity|reflexivity|apply IH|apply IH]. Qed.

(** the results of several calls *)
Fixpoint all_ok {A} (l : list (res A)) : res (list A) :=
  match l with [] => Ok [] | r :: l => let* x := r in let* xs := all_ok l in Ok (x :: xs) end.

Lemma seq_solo {A T} (l : list (prog A * T)) (r : T -> res A) : (forall q t, In (q, t) l -> forall V, fst (solo V q) = r t) ->
  forall V, fst (solo V (seq_prog (map fst l))) = all_ok (map (fun x => r (snd x)) l).
Proof.
  induction l as [|[q t] l IH]; intros H V; [reflexivity|]. cbn [map fst snd seq_prog all_ok]. rewrite solo_bind. pose proof (H q t (or_introl eq_refl) V) as E.
  destruct (solo V q) as [x V']. cbn [fst] in E. rewrite <- E. destruct x as [x|e]; [|reflexivity]. rewrite bind_ok, solo_bind.
  specialize (IH (fun q t Hin => H q t (or_intror Hin)) V'). destruct (solo V' (seq_prog (map fst l))) as [xs V'']. cbn [fst] in IH. rewrite <- IH. destruct xs; reflexivity.
Qed.

Lemma seq_guarded {A} ok (l : list (prog A)) : (forall q, In q l -> forall D V, guarded ok D V q) -> forall D V, guarded ok D V (seq_prog l).
Proof.
  induction l as [|q l IH]; intros H D V; cbn [seq_prog]; [exact I|]. apply guarded_bind; [|apply H; left; reflexivity]. intros a D' V'.
  apply guarded_bind; [intros; exact I|]. apply IH. intros q' Hq. apply H. right. exact Hq.
Qed.

(** ** Any number of threads *)
Record task (A : Type) := mkTask { tk_ok : Z -> Z -> R -> Prop; tk_q : prog A; tk_V : omem }.
Arguments tk_ok {A}. Arguments tk_q {A}. Arguments tk_V {A}. Arguments mkTask {A}.

(** two threads which store into the same cell store the same value *)
Definition compatible {A} (l : list (task A)) : Prop := forall i j s t p k v w, i <> j -> nth_error l i = Some s -> nth_error l j = Some t -> tk_ok s p k v -> tk_ok t p k w -> v = w.

Definition fine {A} (m : omem) (t : task A) (q : prog A) : Prop :=
  exists V, fst (solo V q) = fst (solo (tk_V t) (tk_q t)) /\ exists D, guarded (tk_ok t) D V q /\ forall p k, D p k -> tk_ok t p k (V p k) /\ m p k = V p k.

Lemma put_nth_same {A} (l : list A) n x : forall i, nth_error (put_nth l n x) i = if Nat.eqb i n then (if Nat.ltb n (length l) then Some x else None) else nth_error l i.
Proof.
  revert n. induction l as [|y l IH]; intros n i.
  - destruct n; cbn [put_nth length]; destruct (Nat.eqb_spec i 0), i; cbn; try reflexivity; try lia; destruct (Nat.eqb i n); reflexivity.
  - destruct n as [|n]; cbn [put_nth]; destruct i as [|i]; cbn [nth_error length Nat.eqb]; try reflexivity. rewrite IH. change (S n <? S (length l))%nat with (n <? length l)%nat. reflexivity.
Qed.

Definition inv {A} (l : list (task A)) (s : list (prog A) * omem) : Prop :=
  length (fst s) = length l /\ forall n q, nth_error (fst s) n = Some q -> exists t, nth_error l n = Some t /\ fine (snd s) t q.

Lemma set_same m p k v : omem_set m p k v p k = v.
Proof. unfold omem_set. rewrite !Z.eqb_refl. reflexivity. Qed.

Lemma set_other m p k v a b : (a, b) <> (p, k) -> omem_set m p k v a b = m a b.
Proof. intros N. unfold omem_set. destruct (Z.eqb_spec a p) as [->|]; [|reflexivity]. destruct (Z.eqb_spec b k) as [->|]; [congruence|reflexivity]. Qed.

Lemma cell_dec (a b p k : Z) : (a, b) = (p, k) \/ (a, b) <> (p, k).
Proof. destruct (Z.eq_dec a p) as [->|]; [|right; congruence]. destruct (Z.eq_dec b k) as [->|]; [left; reflexivity|right; congruence]. Qed.

Lemma inv_step {A} (l : list (task A)) s s' : compatible l -> inv l s -> tstep s s' -> inv l s'.
Proof.
  intros HC (Len & HI) Hs. destruct Hs as [n ts m q q' m' Hn Hp]. cbn [fst snd] in *. assert (Hlt : (n < length ts)%nat) by (apply nth_error_Some; congruence).
  assert (Lp : length (put_nth ts n q') = length ts) by (clear; revert n; induction ts as [|y ts IH]; intros [|n]; cbn; congruence || reflexivity).
  split; [cbn [fst]; congruence|]. cbn [fst snd]. destruct (HI n q Hn) as (t & Ht & (V & Ea & D & Sk & Hk)).
  intros i r. rewrite put_nth_same. destruct q as [rr|p k f|p k v q2]; cbn [pstep] in Hp; [discriminate| |]; injection Hp as <- <-.
  - destruct (Nat.eqb_spec i n) as [->|Ne]; [|intros Hi; exact (HI i r Hi)]. replace (n <? length ts)%nat with true by (symmetry; apply Nat.ltb_lt; exact Hlt). intros E. injection E as <-.
    destruct Sk as (Kp & Sk). destruct (Hk p k Kp) as (_ & Em). rewrite Em. exists t. split; [exact Ht|]. exists V. split; [exact Ea|]. exists D. split; [exact Sk|exact Hk].
  - destruct Sk as (Hok & Sk). destruct (Nat.eqb_spec i n) as [->|Ne].
    + replace (n <? length ts)%nat with true by (symmetry; apply Nat.ltb_lt; exact Hlt). intros E. injection E as <-. exists t. split; [exact Ht|]. exists (omem_set V p k v). split; [exact Ea|]. eexists. split; [exact Sk|].
      intros a b Hab. destruct (cell_dec a b p k) as [E|N]; [injection E as -> ->; rewrite !set_same; split; [exact Hok|reflexivity]|]. rewrite !set_other by exact N.
      destruct Hab as [Hab|(-> & ->)]; [exact (Hk a b Hab)|congruence].
    + intros Hi. destruct (HI i r Hi) as (t' & Ht' & (V' & Ea' & D' & Sk' & Hk')). exists t'. split; [exact Ht'|]. exists V'. split; [exact Ea'|]. exists D'. split; [exact Sk'|].
      intros a b Hab. destruct (Hk' a b Hab) as (Ha & Em). split; [exact Ha|]. destruct (cell_dec a b p k) as [E|N]; [|rewrite set_other by exact N; exact Em]. injection E as -> ->. rewrite set_same.
      exact (HC n i t t' p k v (V' p k) ltac:(congruence) Ht Ht' Hok Ha).
Qed.

Lemma inv_reach {A} (l : list (task A)) s s' : compatible l -> inv l s -> treach s s' -> inv l s'.
Proof. intros HC HI Hr. induction Hr as [s|s s1 s2 Hs Hr IH]; [exact HI|]. apply IH. exact (inv_step l s s1 HC HI Hs). Qed.

Lemma threads_result {A} (l : list (task A)) m s : compatible l -> (forall t, In t l -> guarded (tk_ok t) (fun _ _ => False) (tk_V t) (tk_q t)) ->
  treach (map tk_q l, m) s -> finished s -> fst s = map (fun t => Done (fst (solo (tk_V t) (tk_q t)))) l.
Proof.
  intros HC HS Hr Hf. assert (I0 : inv l (map tk_q l, m)).
  { split; [cbn [fst]; apply map_length|]. cbn [fst snd]. intros n q Hn. rewrite nth_error_map in Hn. destruct (nth_error l n) as [t|] eqn:Et; [|discriminate]. injection Hn as <-.
    exists t. split; [reflexivity|]. exists (tk_V t). split; [reflexivity|]. exists (fun _ _ => False). split; [apply HS; eapply nth_error_In; exact Et|intros p k []]. }
  destruct (inv_reach l _ s HC I0 Hr) as (Len & HI). destruct s as [ts m']. cbn [fst snd] in *.
  assert (F : forall n q, nth_error ts n = Some q -> exists t, nth_error l n = Some t /\ q = Done (fst (solo (tk_V t) (tk_q t)))).
  { intros n q Hn. destruct (HI n q Hn) as (t & Ht & (V & Ea & _)). destruct (Hf q (nth_error_In _ _ Hn)) as (r & ->). exists t. split; [exact Ht|]. cbn [solo fst] in Ea. rewrite Ea. reflexivity. }
  clear - Len F. revert l Len F. induction ts as [|q ts IH]; intros [|t l] Len F; try discriminate; [reflexivity|]. cbn [map]. f_equal.
  - destruct (F O q eq_refl) as (t' & E & ->). cbn in E. injection E as <-. reflexivity.
  - apply IH; [injection Len as Len; exact Len|]. intros n q' Hn. exact (F (S n) q' Hn).
Qed.

(** ** Every execution can be completed *)
Lemma treach_trans {A} (s s' s'' : list (prog A) * omem) : treach s s' -> treach s' s'' -> treach s s''.
Proof. intros H. induction H as [s|s s1 s2 Hs Hr IH]; [auto|]. intros H2. eapply treach_step; [exact Hs|apply IH; exact H2]. Qed.

Lemma run_one {A} (q : prog A) : forall ts n m, nth_error ts n = Some q -> exists r m', treach (ts, m) (put_nth ts n (Done r), m').
Proof.
  assert (PP : forall (ts : list (prog A)) n x y, put_nth (put_nth ts n x) n y = put_nth ts n y) by (intros ts; induction ts as [|z ts IH]; intros [|n] x y; cbn; congruence || reflexivity).
  assert (PS : forall (ts : list (prog A)) n x, nth_error ts n = Some x -> put_nth ts n x = ts) by (intros ts; induction ts as [|z ts IH]; intros [|n] x E; cbn in *; try congruence; f_equal; apply IH; exact E).
  assert (PN : forall (ts : list (prog A)) n x y, nth_error ts n = Some x -> nth_error (put_nth ts n y) n = Some y) by (intros ts; induction ts as [|z ts IH]; intros [|n] x y E; cbn in *; try congruence; eapply IH; exact E).
  induction q as [r|p k f IH|p k v q IH]; intros ts n m Hn.
  - exists r, m. rewrite (PS _ _ _ Hn). apply treach_refl.
  - destruct (IH (m p k) (put_nth ts n (f (m p k))) n m (PN _ _ _ _ Hn)) as (r & m' & Hr). exists r, m'. rewrite PP in Hr. eapply treach_step; [|exact Hr]. econstructor; [exact Hn|reflexivity].
  - destruct (IH (put_nth ts n q) n (omem_set m p k v) (PN _ _ _ _ Hn)) as (r & m' & Hr). exists r, m'. rewrite PP in Hr. eapply treach_step; [|exact Hr]. econstructor; [exact Hn|reflexivity].
Qed.

Lemma put_nth_app {A} (a b : list A) x y : put_nth (a ++ x :: b) (length a) y = a ++ y :: b.
Proof. induction a as [|z a IH]; [reflexivity|]. cbn. f_equal. exact IH. Qed.

Lemma can_finish {A} (s : list (prog A) * omem) : exists s', treach s s' /\ finished s'.
Proof.
  destruct s as [ts m].
  assert (G : forall (ts done : list (prog A)) m, (forall q, In q done -> exists r, q = Done r) -> exists s', treach (done ++ ts, m) s' /\ finished s').
  { clear. induction ts as [|q ts IH]; intros done m Hd.
    - exists (done ++ [], m). split; [apply treach_refl|]. intros q Hq. cbn [fst] in Hq. rewrite app_nil_r in Hq. exact (Hd q Hq).
    - destruct (run_one q (done ++ q :: ts) (length done) m) as (r & m' & Hr); [rewrite nth_error_app2, Nat.sub_diag by lia; reflexivity|]. rewrite put_nth_app in Hr.
      destruct (IH (done ++ [Done r]) m') as (s' & H1 & H2); [intros q' Hq; apply in_app_iff in Hq; destruct Hq as [Hq|[<-|[]]]; [exact (Hd q' Hq)|eauto]|].
      rewrite <- app_assoc in H1. exists s'. split; [eapply treach_trans; [exact Hr|exact H1]|exact H2]. }
  exact (G ts [] m (fun q (H : In q []) => match H with end)).
Qed.
