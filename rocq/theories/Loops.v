(** * Loops whose iterations establish independent facts *)

From Coq Require Import ZArith List Lia Bool.
From Verif Require Import Base.
Import ListNotations.
Open Scope Z_scope.

(** every iteration establishes its own fact and keeps those of the others *)
Lemma loop1_all {St} lo hi (Inv : St -> Prop) (P : Z -> St -> Prop) (body : Z -> St -> res St) s0 :
  lo <= hi -> Inv s0 ->
  (forall i s, lo <= i < hi -> Inv s -> exists s', body i s = Ok s' /\ Inv s' /\ P i s' /\
     forall i', lo <= i' < i -> P i' s -> P i' s') ->
  exists s', for_range lo hi body s0 = Ok s' /\ Inv s' /\ forall i, lo <= i < hi -> P i s'.
Proof.
  intros H I0 B.
  destruct (for_range_ok (fun k s => Inv s /\ forall i, lo <= i < k -> P i s) lo hi body s0 H) as (s' & E & I & A).
  - split; [exact I0|]. intros; lia.
  - intros k s Hk (I & A). destruct (B k s Hk I) as (s' & E & I' & Pk & K). exists s'. split; [exact E|].
    split; [exact I'|]. intros i Hi. destruct (Z.eq_dec i k) as [-> | Hn]; [exact Pk|].
    apply K; [lia|]. apply A; lia.
  - exists s'. auto.
Qed.

Lemma loop2_all {St} lo hi lo2 hi2 (Inv : St -> Prop) (P : Z -> Z -> St -> Prop) (body : Z -> Z -> St -> res St) s0 :
  lo <= hi -> lo2 <= hi2 -> Inv s0 ->
  (forall i j s, lo <= i < hi -> lo2 <= j < hi2 -> Inv s ->
     exists s', body i j s = Ok s' /\ Inv s' /\ P i j s' /\
       forall i' j', lo <= i' < hi -> lo2 <= j' < hi2 -> (i', j') <> (i, j) -> P i' j' s -> P i' j' s') ->
  exists s', for_range lo hi (fun i => for_range lo2 hi2 (body i)) s0 = Ok s' /\ Inv s' /\
    forall i j, lo <= i < hi -> lo2 <= j < hi2 -> P i j s'.
Proof.
  intros H H2 I0 B.
  destruct (loop1_all lo hi Inv (fun i s => forall j, lo2 <= j < hi2 -> P i j s)
              (fun i => for_range lo2 hi2 (body i)) s0 H I0) as (s' & E & I & A).
  - intros i s Hi I.
    destruct (for_range_ok (fun k s1 => Inv s1 /\ (forall j, lo2 <= j < k -> P i j s1) /\
        forall i', lo <= i' < i -> (forall j, lo2 <= j < hi2 -> P i' j s) -> forall j, lo2 <= j < hi2 -> P i' j s1)
        lo2 hi2 (body i) s H2) as (s' & E & I' & A & K).
    + split; [exact I|]. split; [intros; lia|]. intros i' Hi' Q j Hj. apply Q, Hj.
    + intros k s1 Hk (I1 & A1 & K1). destruct (B i k s1 Hi Hk I1) as (s2 & E & I2 & Pk & K). exists s2.
      split; [exact E|]. split; [exact I2|]. split.
      * intros j Hj. destruct (Z.eq_dec j k) as [-> | Hn]; [exact Pk|]. apply K; try lia; [congruence|]. apply A1; lia.
      * intros i' Hi' Q j Hj. apply K; try lia; [intros E'; injection E'; lia|]. apply K1; assumption.
    + exists s'. split; [exact E|]. split; [exact I'|]. split; [exact A|]. intros i' Hi' Q j Hj. apply K; assumption.
  - exists s'. split; [exact E|]. split; [exact I|]. intros i j Hi Hj. apply A; assumption.
Qed.

(** a loop computing a value by a pure recurrence *)
Lemma loop_pure {St} lo hi (f : Z -> St -> St) (body : Z -> St -> res St) s0 :
  (forall i s, lo <= i < hi -> body i s = Ok (f i s)) ->
  for_range lo hi body s0 = for_range lo hi (fun i s => Ok (f i s)) s0.
Proof. intros H. apply for_range_ext. exact H. Qed.

(** writing a cell, stated through reads *)
Lemma aset_get {A} (a : arr A) ix v : inb (adims a) ix = true ->
  exists a', aset a ix v = Ok a' /\ adims a' = adims a /\ aget a' ix = Ok v /\
    (forall ix', ix' <> ix -> aget a' ix' = aget a ix').
Proof.
  intros H. destruct (aset_ok a ix v H) as (a' & E & D & C & O). exists a'. split; [exact E|]. split; [exact D|]. split.
  - apply aget_ok; [rewrite D; exact H|exact C].
  - intros ix' N. unfold aget. rewrite D, O by exact N. reflexivity.
Qed.

(** ** Loops that update disjoint sets of cells in place *)

(** [val s x] is what cell x of state s holds; iteration i maps the cells of
    its own set by [upd] and leaves the others alone *)
Lemma loop1_upd {St Ix V} lo hi (Inv : St -> Prop) (Dom : Ix -> Prop) (own : Z -> Ix -> Prop)
  (val : St -> Ix -> V) (upd : Ix -> V -> V) (body : Z -> St -> res St) s0 :
  lo <= hi -> Inv s0 ->
  (forall i j x, lo <= i < hi -> lo <= j < hi -> own i x -> own j x -> i = j) ->
  (forall i s, lo <= i < hi -> Inv s -> exists s', body i s = Ok s' /\ Inv s' /\
     (forall x, Dom x -> own i x -> val s' x = upd x (val s x)) /\
     (forall x, Dom x -> ~ own i x -> val s' x = val s x)) ->
  (forall i x, own i x \/ ~ own i x) ->
  exists s', for_range lo hi body s0 = Ok s' /\ Inv s' /\
    (forall i x, lo <= i < hi -> Dom x -> own i x -> val s' x = upd x (val s0 x)) /\
    (forall x, Dom x -> (forall i, lo <= i < hi -> ~ own i x) -> val s' x = val s0 x).
Proof.
  intros H I0 Dj B Dec.
  destruct (for_range_ok (fun k s => Inv s /\
     (forall i x, lo <= i < k -> Dom x -> own i x -> val s x = upd x (val s0 x)) /\
     (forall x, Dom x -> (forall i, lo <= i < k -> ~ own i x) -> val s x = val s0 x)) lo hi body s0 H) as (s' & E & I & A & U).
  - split; [exact I0|]. split; [intros; lia|]. intros x _ _. reflexivity.
  - intros k s Hk (I & A & U). destruct (B k s Hk I) as (s' & E & I' & O & K). exists s'. split; [exact E|].
    split; [exact I'|]. split.
    + intros i x Hi Dx Hx. destruct (Z.eq_dec i k) as [-> | Hn].
      * rewrite (O x Dx Hx). f_equal. apply U; [exact Dx|]. intros i Hi' Hx'. assert (i = k) by (apply (Dj i k x); [lia|lia|exact Hx'|exact Hx]). lia.
      * rewrite K; [apply (A i); [lia|exact Dx|exact Hx]|exact Dx|]. intros Hx'. assert (i = k) by (apply (Dj i k x); [lia|lia|exact Hx|exact Hx']). lia.
    + intros x Dx Hx. rewrite K; [apply U; [exact Dx|intros i Hi; apply Hx; lia]|exact Dx|apply Hx; lia].
  - exists s'. auto.
Qed.

(** three nested loops, one cell per iteration *)
Lemma loop3_upd {St V} n1 n2 n3 (Inv : St -> Prop) (val : St -> Z * Z * Z -> V) (upd : Z * Z * Z -> V -> V)
  (body : Z -> Z -> Z -> St -> res St) s0 : 0 <= n1 -> 0 <= n2 -> 0 <= n3 -> Inv s0 ->
  (forall a i j s, 0 <= a < n1 -> 0 <= i < n2 -> 0 <= j < n3 -> Inv s ->
     exists s', body a i j s = Ok s' /\ Inv s' /\ val s' (a, i, j) = upd (a, i, j) (val s (a, i, j)) /\
       (forall a' i' j', 0 <= a' < n1 -> 0 <= i' < n2 -> 0 <= j' < n3 -> (a', i', j') <> (a, i, j) ->
          val s' (a', i', j') = val s (a', i', j'))) ->
  exists s', for_range 0 n1 (fun a => for_range 0 n2 (fun i => for_range 0 n3 (fun j => body a i j))) s0 = Ok s' /\ Inv s' /\
    (forall a i j, 0 <= a < n1 -> 0 <= i < n2 -> 0 <= j < n3 -> val s' (a, i, j) = upd (a, i, j) (val s0 (a, i, j))).
Proof.
  intros H1 H2 H3 I0 B.
  set (Dom := fun x : Z * Z * Z => 0 <= fst (fst x) < n1 /\ 0 <= snd (fst x) < n2 /\ 0 <= snd x < n3).
  destruct (loop1_upd 0 n1 Inv Dom (fun a x => fst (fst x) = a) val upd
     (fun a => for_range 0 n2 (fun i => for_range 0 n3 (fun j => body a i j))) s0) as (s' & E & I & A & _).
  - lia.
  - exact I0.
  - intros i j x _ _ <- <-. reflexivity.
  - intros a s Ha I.
    destruct (loop1_upd 0 n2 Inv Dom (fun i x => fst x = (a, i)) val upd
       (fun i => for_range 0 n3 (fun j => body a i j)) s) as (s' & E & I' & A & U).
    + lia.
    + exact I.
    + intros i j x _ _ -> X. injection X as ->. reflexivity.
    + intros i s1 Hi I1.
      destruct (loop1_upd 0 n3 Inv Dom (fun j x => x = (a, i, j)) val upd (fun j => body a i j) s1) as (s' & E & I' & A & U).
      * lia.
      * exact I1.
      * intros j j' x _ _ -> X. injection X as ->. reflexivity.
      * intros j s2 Hj I2. destruct (B a i j s2 Ha Hi Hj I2) as (s' & E & I' & P & Q). exists s'.
        split; [exact E|]. split; [exact I'|]. split.
        -- intros x Dx ->. exact P.
        -- intros [[a' i'] j'] (D1 & D2 & D3) Hx. apply Q; assumption.
      * intros j x. destruct x as [[x1 x2] x3].
        destruct (Z.eq_dec x1 a); [destruct (Z.eq_dec x2 i); [destruct (Z.eq_dec x3 j)|]|]; [left; congruence|right; congruence|right; congruence|right; congruence].
      * exists s'. split; [exact E|]. split; [exact I'|]. split.
        -- intros [[x1 x2] x3] Dx Hx. cbn in Hx. injection Hx as -> ->. destruct Dx as (D1 & D2 & D3). apply (A x3); [exact D3|split; [exact D1|split; [exact D2|exact D3]]|reflexivity].
        -- intros x Dx Hx. apply U; [exact Dx|]. intros j Hj ->. apply Hx. reflexivity.
    + intros i x. destruct x as [[x1 x2] x3]. destruct (Z.eq_dec x1 a); [destruct (Z.eq_dec x2 i)|]; cbn; [left; congruence|right; congruence|right; congruence].
    + exists s'. split; [exact E|]. split; [exact I'|]. split.
      * intros [[x1 x2] x3] Dx Hx. cbn in Hx. subst x1. destruct Dx as (D1 & D2 & D3). apply (A x2); [exact D2|split; [exact D1|split; [exact D2|exact D3]]|reflexivity].
      * intros x Dx Hx. apply U; [exact Dx|]. intros i Hi Hx'. apply Hx. rewrite Hx'. reflexivity.
  - intros i x. destruct (Z.eq_dec (fst (fst x)) i); [left|right]; assumption.
  - exists s'. split; [exact E|]. split; [exact I|]. intros a i j Ha Hi Hj.
    apply (A a); [exact Ha| |reflexivity]. split; [exact Ha|]. split; [exact Hi|exact Hj].
Qed.

(** a loop whose iterations succeed or fail with [f], one of which always fails *)
Lemma for_range_fail_some {St} (Inv : St -> Prop) lo hi f (body : Z -> St -> res St) s : Inv s ->
  (forall i s, lo <= i < hi -> Inv s -> (exists s', body i s = Ok s' /\ Inv s') \/ body i s = Fail f) ->
  (exists k, lo <= k < hi /\ forall s, Inv s -> body k s = Fail f) ->
  for_range lo hi body s = Fail f.
Proof.
  intros I0 B (k & Hk & F).
  remember (Z.to_nat (hi - lo)) as n eqn:En. revert lo s I0 B Hk En.
  induction n as [|n IH]; intros lo s I0 B Hk En; [lia|].
  rewrite for_range_step by lia. destruct (B lo s ltac:(lia) I0) as [(s' & E & I')|E]; rewrite E; [|reflexivity].
  rewrite bind_ok. destruct (Z.eq_dec lo k) as [->|Hn].
  - rewrite F in E by exact I0. discriminate.
  - apply IH; [exact I'| |lia|lia]. intros i s1 Hi. apply B. lia.
Qed.

Lemma for_range_ok_or {St} (Inv : St -> Prop) lo hi f (body : Z -> St -> res St) s : Inv s ->
  (forall i s, lo <= i < hi -> Inv s -> (exists s', body i s = Ok s' /\ Inv s') \/ body i s = Fail f) ->
  (exists s', for_range lo hi body s = Ok s' /\ Inv s') \/ for_range lo hi body s = Fail f.
Proof.
  intros I0 B. remember (Z.to_nat (hi - lo)) as n eqn:En. revert lo s I0 B En.
  induction n as [|n IH]; intros lo s I0 B En.
  - left. exists s. split; [apply for_range_nil; lia|exact I0].
  - rewrite for_range_step by lia. destruct (B lo s ltac:(lia) I0) as [(s' & E & I')|E]; rewrite E; [|right; reflexivity].
    rewrite bind_ok. apply IH; [exact I'| |lia]. intros i s1 Hi. apply B. lia.
Qed.
