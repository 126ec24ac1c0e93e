(** * Invariants of the initialisation machine *)

From Coq Require Import ZArith List Lia Bool FinFun.
From Verif Require Import InitModel.
Import ListNotations.
Open Scope Z_scope.

(** ** Specification vocabulary: projections of the log (newest first) *)

Definition rsh_of (l : list event) : list Z :=
  flat_map (fun e => match e with EvRsh L => [L] | _ => [] end) l.
Definition rows_of (l : list event) : list Z :=
  flat_map (fun e => match e with EvRow i => [i] | _ => [] end) l.
Definition effects_of (l : list event) : list call :=
  flat_map (fun e => match e with EvEffect _ c => [c] | _ => [] end) l.

(** all tables are there *)
Definition tables_complete (l : list event) : Prop :=
  (forall L, 0 <= L <= 40 -> In (EvRsh L) l) /\ (forall i, 0 <= i <= 1600 -> In (EvRow i) l).

(** state of the library according to the calls that took effect *)
Definition last_is_init (l : list call) : bool :=
  match l with CallInit :: _ => true | _ => false end.

(** initialisations that took effect in the uninitialised state *)
Fixpoint fresh_inits (l : list call) : nat :=
  match l with
  | [] => 0
  | CallInit :: r => (if last_is_init r then 0 else 1) + fresh_inits r
  | _ :: r => fresh_inits r
  end.

(** every answer of libgrpp_is_initialized in the log is right *)
Fixpoint answers_right (l : list event) : Prop :=
  match l with
  | [] => True
  | EvQuery _ v :: r => (v = if last_is_init (effects_of r) then 1 else 0) /\ answers_right r
  | _ :: r => answers_right r
  end.

(** tables were complete at every return from libgrpp_init and every answer 1 *)
Fixpoint complete_when_reported (l : list event) : Prop :=
  match l with
  | [] => True
  | EvQuery _ 1 :: r => tables_complete r /\ complete_when_reported r
  | EvReturn _ CallInit :: r => tables_complete r /\ complete_when_reported r
  | _ :: r => complete_when_reported r
  end.

(** ** Lists *)
Lemma nth_upd {A} (l : list A) : forall n k x, nth_error (upd l n x) k =
  if Nat.eqb k n then (match nth_error l n with Some _ => Some x | None => None end) else nth_error l k.
Proof.
  induction l as [|y l IH]; intros [|n] [|k] x; cbn; try reflexivity.
  - destruct (Nat.eqb k n); reflexivity.
  - rewrite IH. reflexivity.
Qed.

Lemma upd_length {A} (l : list A) : forall n x, length (upd l n x) = length l.
Proof. induction l; intros [|n] x; cbn; auto. Qed.

(** ** Mutual exclusion *)
Definition in_crit (p : pc) : bool := match p with Outside => false | _ => true end.

Definition mutex (m : machine) : Prop :=
  forall n t, nth_error (m_threads m) n = Some t ->
    (in_crit (t_pc t) = true <-> sh_lock (m_shared m) = Some n).

Definition lock_live (m : machine) : Prop :=
  forall n, sh_lock (m_shared m) = Some n -> (n < length (m_threads m))%nat.

Lemma mutex_start ps : mutex (start ps).
Proof.
  intros n t H. cbn in *. rewrite nth_error_map in H. destruct (nth_error ps n); [|discriminate].
  injection H as <-. cbn. split; discriminate.
Qed.

Lemma tstep_lock n t s t' s' : tstep n t s = Some (t', s') ->
  (in_crit (t_pc t) = true <-> sh_lock s = Some n) ->
  (in_crit (t_pc t') = true <-> sh_lock s' = Some n) /\
  (forall k, k <> n -> (sh_lock s' = Some k <-> sh_lock s = Some k)).
Proof.
  intros H Hl. destruct t as [p todo]. cbn [t_pc] in *. unfold tstep in H. cbn [t_pc t_todo] in H.
  assert (H0 : in_crit p = true -> forall k, k <> n -> (@None nat = Some k <-> sh_lock s = Some k)).
  { intros Hc k Hk. apply Hl in Hc. rewrite Hc. split; [discriminate|congruence]. }
  destruct p; cbn [in_crit] in *.
  - destruct todo as [|[] r]; [discriminate| | |].
    + destruct (sh_lock s) eqn:E; [discriminate|]. injection H as <- <-. cbn.
      split; [tauto|]. intros k Hk. split; congruence.
    + destruct (sh_lock s) eqn:E; [discriminate|]. injection H as <- <-. cbn.
      split; [tauto|]. intros k Hk. split; congruence.
    + injection H as <- <-. cbn. split; [exact Hl|tauto].
  - destruct (sh_flag s =? 0).
    + injection H as <- <-. split; [|tauto]. destruct (40 <=? sh_lmax s); cbn; tauto.
    + injection H as <- <-. cbn. tauto.
  - destruct (L <=? 40); injection H as <- <-; cbn; tauto.
  - destruct (i <=? 1600); injection H as <- <-; cbn; tauto.
  - injection H as <- <-; cbn; tauto.
  - injection H as <- <-; cbn. split; [split; discriminate|]. auto.
  - injection H as <- <-; cbn; tauto.
  - injection H as <- <-; cbn. split; [split; discriminate|]. auto.
Qed.

Lemma mutex_step m m' : mutex m -> mstep m m' -> mutex m'.
Proof.
  intros I [n t t' s' Hn Hs] k tk Hk. cbn [m_threads m_shared] in *.
  destruct (tstep_lock _ _ _ _ _ Hs (I _ _ Hn)) as [A B].
  rewrite nth_upd, Hn in Hk. destruct (Nat.eqb_spec k n) as [->|Hkn].
  - injection Hk as <-. exact A.
  - rewrite (B k Hkn). apply I. exact Hk.
Qed.

Lemma msteps_inv (P : machine -> Prop) : (forall m m', P m -> mstep m m' -> P m') ->
  forall m m', msteps m m' -> P m -> P m'.
Proof. intros H m m' R. induction R; eauto. Qed.

Lemma mutex_reachable ps m : reachable ps m -> mutex m.
Proof. intros R. apply (msteps_inv mutex mutex_step _ _ R). apply mutex_start. Qed.

Lemma live_reachable ps m : reachable ps m -> lock_live m.
Proof.
  intros R. apply (msteps_inv (fun m => lock_live m)) with (2 := R); [|discriminate].
  clear. intros m m' I [n t t' s' Hn Hs] k Hk. cbn [m_threads m_shared] in *.
  rewrite upd_length.
  assert (Hlt : (n < length (m_threads m))%nat) by (apply nth_error_Some; congruence).
  destruct (Nat.eq_dec k n) as [->|Hkn]; [exact Hlt|].
  apply I. revert Hk. destruct t as [p todo]. unfold tstep in Hs. cbn [t_pc t_todo] in Hs.
  destruct p; [destruct todo as [|[] r]; [discriminate| | |]|..];
  repeat match type of Hs with
  | (match ?x with _ => _ end) = _ => destruct x eqn:?; try discriminate Hs
  | (if ?x then _ else _) = _ => destruct x eqn:?; try discriminate Hs
  end; injection Hs as <- <-; cbn [sh_lock]; congruence.
Qed.

(** ** The data invariant, indexed by the position of the lock holder *)

Definition zdown (n : nat) : list Z := map Z.of_nat (rev (seq 0 n)).   (* n-1, ..., 0 *)

Lemma zdown_S n : zdown (S n) = Z.of_nat n :: zdown n.
Proof. unfold zdown. rewrite seq_S, rev_app_distr. reflexivity. Qed.

Lemma in_zdown n k : In k (zdown n) <-> 0 <= k < Z.of_nat n.
Proof.
  unfold zdown. rewrite in_map_iff. split.
  - intros (x & <- & H). rewrite <- in_rev, in_seq in H. lia.
  - intros H. exists (Z.to_nat k). rewrite Z2Nat.id by lia. split; [reflexivity|].
    rewrite <- in_rev, in_seq. lia.
Qed.

Opaque zdown.

Fixpoint times {A} (n : nat) (l : list A) : list A := match n with O => [] | S n' => l ++ times n' l end.

(** position of the holder: None when nobody constructs tables *)
Inductive phase := PhIdle | PhRsh (k : nat) | PhBes (k : nat).

Definition phase_of_pc (p : pc) : phase :=
  match p with
  | InitRsh L => PhRsh (Z.to_nat L)
  | InitBessel i => PhBes (Z.to_nat i)
  | InitFlag => PhBes 1601
  | _ => PhIdle
  end.

Definition data_inv (ph : phase) (s : shared) : Prop :=
  let l := sh_log s in
  let built := fresh_inits (effects_of l) in
  sh_flag s = (if last_is_init (effects_of l) then 1 else 0) /\
  answers_right l /\ complete_when_reported l /\
  match ph with
  | PhIdle =>
      rows_of l = times built (zdown 1601) /\
      ((sh_lmax s = -1 /\ rsh_of l = [] /\ built = 0%nat) \/ (sh_lmax s = 40 /\ rsh_of l = zdown 41))  /\
      (built <> 0%nat -> sh_lmax s = 40) /\ (last_is_init (effects_of l) = true -> built <> 0%nat)
  | PhRsh k =>
      sh_flag s = 0 /\ rows_of l = [] /\ built = 0%nat /\ sh_lmax s = -1 /\ rsh_of l = zdown k /\ (k <= 41)%nat
  | PhBes k =>
      sh_flag s = 0 /\ rows_of l = zdown k ++ times built (zdown 1601) /\
      sh_lmax s = 40 /\ rsh_of l = zdown 41 /\ (k <= 1601)%nat
  end.

Lemma in_rsh_of L l : In L (rsh_of l) <-> In (EvRsh L) l.
Proof.
  unfold rsh_of. rewrite in_flat_map. split.
  - intros (e & He & Hi). destruct e; cbn in Hi; try tauto. destruct Hi as [<-|[]]. exact He.
  - intros H. exists (EvRsh L). cbn. auto.
Qed.

Lemma in_rows_of i l : In i (rows_of l) <-> In (EvRow i) l.
Proof.
  unfold rows_of. rewrite in_flat_map. split.
  - intros (e & He & Hi). destruct e; cbn in Hi; try tauto. destruct Hi as [<-|[]]. exact He.
  - intros H. exists (EvRow i). cbn. auto.
Qed.

Lemma complete_from l k n : (0 < n)%nat -> rsh_of l = zdown 41 -> rows_of l = k ++ times n (zdown 1601) ->
  tables_complete l.
Proof.
  intros Hn H1 H2. split.
  - intros L HL. apply in_rsh_of. rewrite H1. apply in_zdown. lia.
  - intros i Hi. apply in_rows_of. rewrite H2. apply in_or_app. right.
    destruct n; [lia|]. cbn [times]. apply in_or_app. left. apply in_zdown. lia.
Qed.

Lemma idle_complete s : data_inv PhIdle s -> sh_flag s = 1 -> tables_complete (sh_log s).
Proof.
  intros (F & _ & _ & Rw & Rs & B1 & B2) H. rewrite F in H.
  destruct (last_is_init _) eqn:E; [|discriminate].
  specialize (B2 eq_refl). specialize (B1 B2).
  destruct Rs as [(Hm & _ & _)|(_ & Hr)]; [lia|].
  apply (complete_from _ [] (fresh_inits (effects_of (sh_log s)))); auto. lia.
Qed.

Lemma effects_cons e l : effects_of (e :: l) = match e with EvEffect _ c => c :: effects_of l | _ => effects_of l end.
Proof. destruct e; reflexivity. Qed.
Lemma rows_cons e l : rows_of (e :: l) = match e with EvRow i => i :: rows_of l | _ => rows_of l end.
Proof. destruct e; reflexivity. Qed.
Lemma rsh_cons e l : rsh_of (e :: l) = match e with EvRsh i => i :: rsh_of l | _ => rsh_of l end.
Proof. destruct e; reflexivity. Qed.

Ltac open_data :=
  unfold data_inv; cbn [sh_flag sh_lmax sh_log]; cbv zeta;
  rewrite ?effects_cons, ?rows_cons, ?rsh_cons;
  cbn [answers_right].

(** a query by any thread preserves the invariant *)
Lemma data_query n ph s : data_inv ph s ->
  data_inv ph (mkShared (sh_lock s) (sh_flag s) (sh_lmax s) (EvQuery n (sh_flag s) :: sh_log s)).
Proof.
  intros D. pose proof D as (F & A & C & X).
  open_data.
  split; [exact F|]. split; [split; [exact F|exact A]|]. split.
  - cbn [complete_when_reported]. rewrite F.
    destruct (last_is_init (effects_of (sh_log s))) eqn:E; [|exact C].
    split; [|exact C].
    destruct ph.
    + apply idle_complete; [exact D|]. exact F.
    + destruct X as (X & _). lia.
    + destruct X as (X & _). lia.
  - exact X.
Qed.

(** ** Steps of the lock holder *)

Definition hold_inv (p : pc) (s : shared) : Prop :=
  data_inv (phase_of_pc p) s /\
  match p with
  | InitLeave => sh_flag s = 1
  | InitRsh L => 0 <= L
  | InitBessel i => 0 <= i
  | _ => True
  end.

Lemma fresh_cons_init l : fresh_inits (CallInit :: l) = ((if last_is_init l then 0 else 1) + fresh_inits l)%nat.
Proof. reflexivity. Qed.

Lemma hold_step n t s t' s' : in_crit (t_pc t) = true -> hold_inv (t_pc t) s ->
  tstep n t s = Some (t', s') -> hold_inv (t_pc t') s'.
Proof.
  intros Hc (D & X) H. destruct t as [p todo]. cbn [t_pc] in *.
  unfold tstep in H. cbn [t_pc t_todo] in H.
  pose proof D as (F & A & C & Y).
  destruct p; cbn [in_crit phase_of_pc] in *; [discriminate|..].
  - (* InitEnter *)
    destruct Y as (Rw & Rs & B1 & B2).
    destruct (Z.eqb_spec (sh_flag s) 0) as [F0|F0].
    + injection H as <- <-. cbn [set_pc t_pc].
      destruct Rs as [(Hm & Hr & Hb)|(Hm & Hr)]; rewrite Hm.
      * change (40 <=? -1) with false. cbn iota. split; [|lia]. cbn [phase_of_pc].
        unfold data_inv. repeat split; auto; try lia.
        rewrite Rw, Hb. reflexivity.
      * change (40 <=? 40) with true. cbn iota. split; [|lia]. cbn [phase_of_pc].
        change (Z.to_nat 0) with 0%nat. unfold data_inv. repeat split; auto; try lia.
    + injection H as <- <-. cbn [set_pc t_pc].
      assert (E : last_is_init (effects_of (sh_log s)) = true) by (destruct (last_is_init _); [reflexivity|lia]).
      split.
      * cbn [phase_of_pc]. open_data.
        rewrite fresh_cons_init, E. cbn [last_is_init Nat.add].
        rewrite E in *. repeat split; auto.
      * cbn [sh_flag]. rewrite F, E. reflexivity.
  - (* InitRsh *)
    destruct Y as (F0 & Rw & Hb & Hm & Hr & Hk).
    destruct (Z.leb_spec L 40) as [HL|HL]; injection H as <- <-; cbn [set_pc t_pc].
    + split; [|lia]. cbn [phase_of_pc]. replace (Z.to_nat (L + 1)) with (S (Z.to_nat L)) by lia.
      open_data.
      repeat split; auto; try lia.
      rewrite zdown_S, Z2Nat.id by lia. f_equal. exact Hr.
    + split; [|lia]. cbn [phase_of_pc]. change (Z.to_nat 0) with 0%nat.
      unfold data_inv. cbn [sh_flag sh_lmax sh_log].
      repeat split; auto; try lia.
      * rewrite Hb. exact Rw.
      * replace 41%nat with (Z.to_nat L) by lia. exact Hr.
  - (* InitBessel *)
    destruct Y as (F0 & Rw & Hm & Hr & Hk).
    destruct (Z.leb_spec i 1600) as [HL|HL]; injection H as <- <-; cbn [set_pc t_pc].
    + split; [|lia]. cbn [phase_of_pc]. replace (Z.to_nat (i + 1)) with (S (Z.to_nat i)) by lia.
      open_data.
      repeat split; auto; try lia.
      rewrite zdown_S, Z2Nat.id by lia. cbn [app]. f_equal. exact Rw.
    + split; [|exact I]. cbn [phase_of_pc]. replace 1601%nat with (Z.to_nat i) by lia.
      unfold data_inv. repeat split; auto.
  - (* InitFlag *)
    destruct Y as (F0 & Rw & Hm & Hr & Hk). injection H as <- <-. cbn [set_pc t_pc].
    assert (E : last_is_init (effects_of (sh_log s)) = false) by (destruct (last_is_init _); [lia|reflexivity]).
    split; [|reflexivity]. cbn [phase_of_pc].
    open_data.
    rewrite fresh_cons_init, E. cbn [last_is_init Nat.add times].
    repeat split; auto.
  - (* InitLeave *)
    injection H as <- <-. cbn [set_pc t_pc]. split; [|exact I]. cbn [phase_of_pc].
    pose proof (idle_complete _ D X) as TC.
    open_data.
    destruct Y as (Rw & Rs & B1 & B2). repeat split; auto; apply TC.
  - (* FinEnter *)
    injection H as <- <-. cbn [set_pc t_pc]. split; [|exact I]. cbn [phase_of_pc].
    destruct Y as (Rw & Rs & B1 & B2).
    open_data.
    cbn [last_is_init fresh_inits].
    repeat split; auto; try discriminate.
    rewrite F. destruct (last_is_init _); reflexivity.
  - (* FinLeave *)
    injection H as <- <-. cbn [set_pc t_pc]. split; [|exact I]. cbn [phase_of_pc].
    destruct Y as (Rw & Rs & B1 & B2).
    open_data.
    repeat split; auto.
Qed.

Definition minv (m : machine) : Prop :=
  mutex m /\
  match sh_lock (m_shared m) with
  | None => data_inv PhIdle (m_shared m)
  | Some n => exists t, nth_error (m_threads m) n = Some t /\ hold_inv (t_pc t) (m_shared m)
  end.

Lemma hold_query n p s : hold_inv p s ->
  hold_inv p (mkShared (sh_lock s) (sh_flag s) (sh_lmax s) (EvQuery n (sh_flag s) :: sh_log s)).
Proof. intros (D & X). split; [apply data_query; exact D|]. destruct p; exact X. Qed.

Lemma outside_hold p s : in_crit p = false -> hold_inv p s -> data_inv PhIdle s.
Proof. destruct p; try discriminate. intros _ (D & _). exact D. Qed.

Lemma minv_step m m' : minv m -> mstep m m' -> minv m'.
Proof.
  intros (M & D) St. split; [eapply mutex_step; eauto|].
  destruct St as [n t t' s' Hn Hs]. cbn [m_threads m_shared] in *.
  destruct (tstep_lock _ _ _ _ _ Hs (M _ _ Hn)) as [A B].
  destruct (in_crit (t_pc t)) eqn:Ec.
  - assert (El : sh_lock (m_shared m) = Some n) by (apply (M _ _ Hn); exact Ec).
    rewrite El in D. destruct D as (t0 & Hn0 & D). rewrite Hn in Hn0. injection Hn0 as <-.
    pose proof (hold_step _ _ _ _ _ Ec D Hs) as D'.
    destruct (in_crit (t_pc t')) eqn:Ec'.
    + destruct A as [A _]. rewrite (A eq_refl). exists t'. split; [|exact D'].
      rewrite nth_upd, Nat.eqb_refl, Hn. reflexivity.
    + destruct (sh_lock s') as [k|] eqn:Ek.
      * destruct (Nat.eq_dec k n) as [->|Hk]; [destruct A as [_ A]; specialize (A eq_refl); discriminate|].
        pose proof (proj1 (B k Hk) eq_refl). congruence.
      * apply outside_hold with (t_pc t'); assumption.
  - destruct t as [p todo]. cbn [t_pc] in *. destruct p; try discriminate.
    unfold tstep in Hs. cbn [t_pc t_todo] in Hs. destruct todo as [|[] r]; [discriminate| | |].
    + destruct (sh_lock (m_shared m)) eqn:El; [discriminate|]. injection Hs as <- <-. cbn [sh_lock].
      eexists. rewrite nth_upd, Nat.eqb_refl, Hn. split; [reflexivity|]. split; [exact D|exact I].
    + destruct (sh_lock (m_shared m)) eqn:El; [discriminate|]. injection Hs as <- <-. cbn [sh_lock].
      eexists. rewrite nth_upd, Nat.eqb_refl, Hn. split; [reflexivity|]. split; [exact D|exact I].
    + injection Hs as <- <-. cbn [sh_lock].
      destruct (sh_lock (m_shared m)) as [k|] eqn:El; [|].
      * destruct D as (t & Hk & D). exists t. rewrite nth_upd.
        destruct (Nat.eqb_spec k n) as [->|Hkn].
        -- exfalso. rewrite Hn in Hk. injection Hk as <-. apply (M _ _ Hn) in El. discriminate.
        -- split; [exact Hk|]. rewrite <- El. apply hold_query. exact D.
      * rewrite <- El. apply data_query. exact D.
Qed.

Lemma minv_reachable ps m : reachable ps m -> minv m.
Proof.
  intros R. apply (msteps_inv minv minv_step _ _ R). split; [apply mutex_start|].
  change (sh_lock (m_shared (start ps))) with (@None nat). cbn iota.
  split; [reflexivity|]. split; [exact I|]. split; [exact I|]. split; [reflexivity|].
  split; [left; repeat split|]. split; [|discriminate]. intros H. contradiction H. reflexivity.
Qed.

(** ** Consequences *)

Lemma any_phase ps m : reachable ps m -> exists ph, data_inv ph (m_shared m).
Proof.
  intros R. destruct (minv_reachable _ _ R) as (_ & D).
  destruct (sh_lock (m_shared m)).
  - destruct D as (t & _ & D & _). eauto.
  - eauto.
Qed.

Lemma reported_complete ps m : reachable ps m -> complete_when_reported (sh_log (m_shared m)).
Proof. intros R. destruct (any_phase _ _ R) as (ph & _ & _ & C & _). exact C. Qed.

Lemma all_answers_right ps m : reachable ps m -> answers_right (sh_log (m_shared m)).
Proof. intros R. destruct (any_phase _ _ R) as (ph & _ & A & _). exact A. Qed.

Lemma flag_right ps m : reachable ps m ->
  sh_flag (m_shared m) = if last_is_init (effects_of (sh_log (m_shared m))) then 1 else 0.
Proof. intros R. destruct (any_phase _ _ R) as (ph & F & _). exact F. Qed.

Lemma nodup_zdown n : NoDup (zdown n).
Proof.
  Transparent zdown.
  unfold zdown. apply FinFun.Injective_map_NoDup; [intros a b; lia|]. apply NoDup_rev, seq_NoDup.
Qed.
Opaque zdown.

Lemma rsh_once ps m : reachable ps m -> NoDup (rsh_of (sh_log (m_shared m))).
Proof.
  intros R. destruct (any_phase _ _ R) as (ph & _ & _ & _ & X). destruct ph.
  - destruct X as (_ & [(_ & -> & _)|(_ & ->)] & _); [constructor|apply nodup_zdown].
  - destruct X as (_ & _ & _ & _ & -> & _). apply nodup_zdown.
  - destruct X as (_ & _ & _ & -> & _). apply nodup_zdown.
Qed.

Fixpoint countz (x : Z) (l : list Z) : nat :=
  match l with [] => 0 | y :: r => ((if Z.eq_dec y x then 1 else 0) + countz x r)%nat end.

Lemma countz_app x l1 l2 : countz x (l1 ++ l2) = (countz x l1 + countz x l2)%nat.
Proof. induction l1; cbn; [reflexivity|]. rewrite IHl1. lia. Qed.

Lemma countz_zdown i n : countz i (zdown n) = if (0 <=? i) && (i <? Z.of_nat n) then 1%nat else 0%nat.
Proof.
  induction n as [|n IH].
  - cbn. destruct (Z.leb_spec 0 i), (Z.ltb_spec i 0); cbn; try reflexivity; lia.
  - rewrite zdown_S. cbn [countz]. rewrite IH.
    destruct (Z.eq_dec (Z.of_nat n) i), (Z.leb_spec 0 i), (Z.ltb_spec i (Z.of_nat n)), (Z.ltb_spec i (Z.of_nat (S n)));
      cbn; try reflexivity; lia.
Qed.

Lemma countz_times i n k : countz i (times n (zdown k)) = (n * countz i (zdown k))%nat.
Proof. induction n; [reflexivity|]. cbn [times]. rewrite countz_app, IHn. cbn. lia. Qed.

(** when nobody is inside a library call, row 0..1600 have each been filled once
    per initialisation that took effect in the uninitialised state *)
Lemma rows_per_init ps m : reachable ps m ->
  Forall (fun t => t_pc t = Outside) (m_threads m) ->
  forall i, 0 <= i <= 1600 ->
  countz i (rows_of (sh_log (m_shared m))) = fresh_inits (effects_of (sh_log (m_shared m))).
Proof.
  intros R Hout i Hi. pose proof (live_reachable _ _ R) as LL.
  destruct (minv_reachable _ _ R) as (M & D).
  destruct (sh_lock (m_shared m)) as [n|] eqn:E.
  - specialize (LL n E). destruct D as (t & Hn & _).
    pose proof (proj1 (Forall_forall _ _) Hout t (nth_error_In _ _ Hn)) as Ho. cbn in Ho.
    apply (M _ _ Hn) in E. rewrite Ho in E. discriminate.
  - destruct D as (_ & _ & _ & Rw & _). rewrite Rw, countz_times, countz_zdown.
    destruct (Z.leb_spec 0 i), (Z.ltb_spec i (Z.of_nat 1601)); cbn; lia.
Qed.

(** ** Programs without finalisation *)

Definition no_fin_thread (t : thread) : Prop :=
  ~ In CallFinalize (t_todo t) /\ t_pc t <> FinEnter /\ t_pc t <> FinLeave.

Definition no_fin (m : machine) : Prop :=
  Forall no_fin_thread (m_threads m) /\ ~ In CallFinalize (effects_of (sh_log (m_shared m))).

Lemma Forall_upd {A} (P : A -> Prop) l : forall n x, Forall P l -> P x -> Forall P (upd l n x).
Proof.
  induction l; intros [|n] x H Hx; cbn; auto; inversion H; subst; constructor; auto.
Qed.

Lemma no_fin_step m m' : no_fin m -> mstep m m' -> no_fin m'.
Proof.
  intros (T & E) [n t t' s' Hn Hs]. cbn [m_threads m_shared].
  pose proof (proj1 (Forall_forall _ _) T t (nth_error_In _ _ Hn)) as (T1 & T2 & T3).
  destruct t as [p todo]. cbn [t_pc t_todo] in *. unfold tstep in Hs. cbn [t_pc t_todo] in Hs.
  assert (Q : no_fin_thread t' /\ ~ In CallFinalize (effects_of (sh_log s'))).
  { destruct p; try congruence.
    - destruct todo as [|[] r]; [discriminate| | |].
      + destruct (sh_lock (m_shared m)); [discriminate|]. injection Hs as <- <-.
        split; [|exact E]. repeat split; cbn; try discriminate. intros H. apply T1. right. exact H.
      + exfalso. apply T1. left. reflexivity.
      + injection Hs as <- <-. split; [|exact E]. repeat split; cbn; try discriminate. intros H. apply T1. right. exact H.
    - destruct (sh_flag (m_shared m) =? 0); injection Hs as <- <-.
      + split; [|exact E]. destruct (40 <=? sh_lmax (m_shared m)); repeat split; cbn; try discriminate; exact T1.
      + split; [repeat split; cbn; try discriminate; exact T1|]. cbn. intros [H|H]; [discriminate|]. apply E, H.
    - destruct (L <=? 40); injection Hs as <- <-; (split; [repeat split; cbn; try discriminate; exact T1|exact E]).
    - destruct (i <=? 1600); injection Hs as <- <-; (split; [repeat split; cbn; try discriminate; exact T1|exact E]).
    - injection Hs as <- <-. split; [repeat split; cbn; try discriminate; exact T1|]. cbn. intros [H|H]; [discriminate|]. apply E, H.
    - injection Hs as <- <-. split; [repeat split; cbn; try discriminate; exact T1|exact E]. }
  split; [apply Forall_upd; [exact T|apply Q]|apply Q].
Qed.

Lemma no_fin_reachable ps m : (forall p, In p ps -> ~ In CallFinalize p) -> reachable ps m -> no_fin m.
Proof.
  intros Hp R. apply (msteps_inv no_fin no_fin_step _ _ R). split; [|cbn; tauto].
  cbn. apply Forall_forall. intros t Ht. apply in_map_iff in Ht. destruct Ht as (p & <- & Hi).
  repeat split; cbn; try discriminate. apply Hp, Hi.
Qed.

Lemma fresh_no_fin l : ~ In CallFinalize l -> ~ In CallQuery l -> (fresh_inits l <= 1)%nat /\
  (last_is_init l = false -> fresh_inits l = 0%nat).
Proof.
  induction l as [|[] r IH]; intros H Hq; cbn; [lia| | |].
  - destruct IH as [I1 I2]; [intros X; apply H; right; exact X|intros X; apply Hq; right; exact X|].
    split; [|discriminate]. destruct (last_is_init r) eqn:E; [lia|]. rewrite I2 by reflexivity. lia.
  - exfalso. apply H. left. reflexivity.
  - exfalso. apply Hq. left. reflexivity.
Qed.

Lemma effects_no_query ps m : reachable ps m -> ~ In CallQuery (effects_of (sh_log (m_shared m))).
Proof.
  intros R. apply (msteps_inv (fun m => ~ In CallQuery (effects_of (sh_log (m_shared m))))) with (2 := R); [|cbn; tauto].
  clear. intros m m' E [n t t' s' Hn Hs]. cbn [m_threads m_shared].
  destruct t as [p todo]. unfold tstep in Hs. cbn [t_pc t_todo] in Hs.
  destruct p; [destruct todo as [|[] r]; [discriminate| | |]|..];
  repeat match type of Hs with
  | (match ?x with _ => _ end) = _ => destruct x eqn:?; try discriminate Hs
  | (if ?x then _ else _) = _ => destruct x eqn:?; try discriminate Hs
  end; injection Hs as <- <-; cbn; try exact E; (intros [H|H]; [discriminate|]; apply E, H).
Qed.

Lemma nodup_count l : (forall i, (countz i l <= 1)%nat) -> NoDup l.
Proof.
  induction l as [|x l IH]; intros H; constructor.
  - intros Hin. specialize (H x). cbn in H. destruct (Z.eq_dec x x); [|congruence].
    assert (1 <= countz x l)%nat; [|lia]. clear -Hin. induction l as [|y l IH]; [destruct Hin|].
    cbn. destruct Hin as [->|Hin]; [destruct (Z.eq_dec x x); [lia|congruence]|]. specialize (IH Hin). lia.
  - apply IH. intros i. specialize (H i). cbn in H. lia.
Qed.

(** C12: each table is built at most once in every interleaving *)
Lemma init_builds_once ps m : (forall p, In p ps -> ~ In CallFinalize p) -> reachable ps m ->
  NoDup (rsh_of (sh_log (m_shared m))) /\ NoDup (rows_of (sh_log (m_shared m))).
Proof.
  intros Hp R. split; [eapply rsh_once; eauto|].
  destruct (no_fin_reachable _ _ Hp R) as (_ & NF). pose proof (effects_no_query _ _ R) as NQ.
  destruct (fresh_no_fin _ NF NQ) as [F1 F2].
  destruct (any_phase _ _ R) as (ph & F & _ & _ & X). destruct ph.
  - destruct X as (-> & _). destruct (fresh_inits _) as [|[|]]; [constructor| |lia].
    cbn [times]. rewrite app_nil_r. apply nodup_zdown.
  - destruct X as (_ & -> & _). constructor.
  - destruct X as (F0 & -> & _). rewrite F2 by (destruct (last_is_init _); [lia|reflexivity]).
    cbn [times]. rewrite app_nil_r. apply nodup_zdown.
Qed.

(** ** Progress and termination *)

Definition pc_cost (p : pc) : Z :=
  match p with
  | Outside => 0
  | InitEnter => 1700
  | InitRsh L => 1650 + (41 - L)
  | InitBessel i => 3 + (1601 - i)
  | InitFlag => 2
  | InitLeave => 1
  | FinEnter => 2
  | FinLeave => 1
  end.

Definition thread_cost (t : thread) : Z := pc_cost (t_pc t) + 1701 * Z.of_nat (length (t_todo t)).
Fixpoint cost (l : list thread) : Z := match l with [] => 0 | t :: r => thread_cost t + cost r end.

Lemma cost_upd l : forall n t t', nth_error l n = Some t -> cost (upd l n t') = cost l - thread_cost t + thread_cost t'.
Proof.
  induction l as [|x l IH]; intros [|n] t t' H; cbn in *; try discriminate.
  - injection H as ->. lia.
  - rewrite (IH _ _ t' H). lia.
Qed.

Lemma minv_cost_step m m' : minv m -> mstep m m' -> cost (m_threads m') + 1 <= cost (m_threads m).
Proof.
  intros (M & D) [n t t' s' Hn Hs]. cbn [m_threads m_shared] in *.
  rewrite (cost_upd _ _ _ _ Hn).
  assert (Hl : t_pc t = InitEnter -> data_inv PhIdle (m_shared m)).
  { intros Ep. assert (El : sh_lock (m_shared m) = Some n) by (apply (M _ _ Hn); rewrite Ep; reflexivity).
    rewrite El in D. destruct D as (t0 & Hn0 & D & _). rewrite Hn in Hn0. injection Hn0 as <-.
    rewrite Ep in D. exact D. }
  destruct t as [p todo]. unfold tstep in Hs. cbn [t_pc t_todo] in *.
  destruct p.
  - destruct todo as [|[] r]; [discriminate| | |].
    + destruct (sh_lock (m_shared m)); [discriminate|]. injection Hs as <- <-. unfold thread_cost. cbn [t_pc t_todo pc_cost length]. lia.
    + destruct (sh_lock (m_shared m)); [discriminate|]. injection Hs as <- <-. unfold thread_cost. cbn [t_pc t_todo pc_cost length]. lia.
    + injection Hs as <- <-. unfold thread_cost. cbn [t_pc t_todo pc_cost length]. lia.
  - specialize (Hl eq_refl). destruct Hl as (_ & _ & _ & _ & Rs & _).
    destruct (sh_flag (m_shared m) =? 0); injection Hs as <- <-; unfold thread_cost; cbn [set_pc t_pc t_todo pc_cost length]; [|lia].
    destruct Rs as [(-> & _)|(-> & _)]; cbn [Z.leb Z.compare Pos.compare Pos.compare_cont pc_cost]; lia.
  - destruct (Z.leb_spec L 40); injection Hs as <- <-; unfold thread_cost; cbn [set_pc t_pc t_todo pc_cost length]; [lia|].
    assert (El : sh_lock (m_shared m) = Some n) by (apply (M _ _ Hn); reflexivity).
    rewrite El in D. destruct D as (t0 & Hn0 & D & _). rewrite Hn in Hn0. injection Hn0 as <-.
    cbn [t_pc phase_of_pc] in D. destruct D as (_ & _ & _ & D). lia.
  - destruct (Z.leb_spec i 1600); injection Hs as <- <-; unfold thread_cost; cbn [set_pc t_pc t_todo pc_cost length]; [lia|].
    assert (El : sh_lock (m_shared m) = Some n) by (apply (M _ _ Hn); reflexivity).
    rewrite El in D. destruct D as (t0 & Hn0 & D & _). rewrite Hn in Hn0. injection Hn0 as <-.
    cbn [t_pc phase_of_pc] in D. destruct D as (_ & _ & _ & D). lia.
  - injection Hs as <- <-; unfold thread_cost; cbn [set_pc t_pc t_todo pc_cost length]; lia.
  - injection Hs as <- <-; unfold thread_cost; cbn [set_pc t_pc t_todo pc_cost length]; lia.
  - injection Hs as <- <-; unfold thread_cost; cbn [set_pc t_pc t_todo pc_cost length]; lia.
  - injection Hs as <- <-; unfold thread_cost; cbn [set_pc t_pc t_todo pc_cost length]; lia.
Qed.

(** no deadlock: an unfinished machine can move *)
Lemma progress ps m : reachable ps m -> ~ finished m -> exists m', mstep m m'.
Proof.
  intros R NF. destruct (minv_reachable _ _ R) as (M & D).
  destruct (sh_lock (m_shared m)) as [n|] eqn:El.
  - destruct D as (t & Hn & _). pose proof (proj2 (M _ _ Hn) El) as Hc.
    assert (Q : exists t' s', tstep n t (m_shared m) = Some (t', s')).
    { destruct t as [p todo]. unfold tstep. cbn [t_pc] in *. destruct p; try discriminate;
        repeat match goal with |- context [if ?b then _ else _] => destruct b end; eauto. }
    destruct Q as (t' & s' & Q). exists (mkMachine (upd (m_threads m) n t') s'). econstructor; eauto.
  - assert (Q : exists n t, nth_error (m_threads m) n = Some t /\ ~ (t_pc t = Outside /\ t_todo t = [])).
    { unfold finished in NF. clear -NF. induction (m_threads m) as [|t l IH].
      - exfalso. apply NF. constructor.
      - assert (Hd : (t_pc t = Outside /\ t_todo t = []) \/ ~ (t_pc t = Outside /\ t_todo t = [])).
        { destruct (t_pc t), (t_todo t); (left; split; reflexivity) || (right; intros [? ?]; discriminate). }
        destruct Hd as [Hd|Hd]; [|exists 0%nat, t; split; [reflexivity|exact Hd]].
        destruct IH as (n & t' & H1 & H2); [intros F; apply NF; constructor; assumption|].
        exists (S n), t'. split; assumption. }
    destruct Q as (n & t & Hn & Ht).
    assert (Ho : t_pc t = Outside).
    { destruct (t_pc t) eqn:E; [reflexivity|..]; (assert (X : in_crit (t_pc t) = true) by (rewrite E; reflexivity));
        apply (M _ _ Hn) in X; congruence. }
    assert (Q : exists t' s', tstep n t (m_shared m) = Some (t', s')).
    { destruct t as [p todo]. cbn [t_pc] in Ho. subst p. unfold tstep. cbn [t_pc t_todo].
      destruct todo as [|[] r]; [exfalso; apply Ht; split; reflexivity| | |]; rewrite ?El; eauto. }
    destruct Q as (t' & s' & Q). exists (mkMachine (upd (m_threads m) n t') s'). econstructor; eauto.
Qed.

Inductive msteps_n : nat -> machine -> machine -> Prop :=
| msn_0 : forall m, msteps_n 0 m m
| msn_S : forall n m1 m2 m3, msteps_n n m1 m2 -> mstep m2 m3 -> msteps_n (S n) m1 m3.

Lemma msn_reach ps n m : msteps_n n (start ps) m -> reachable ps m.
Proof.
  intros H. remember (start ps) as m0. induction H; subst; [constructor|]. econstructor; [apply IHmsteps_n; reflexivity|eassumption].
Qed.

Definition total_calls (ps : list (list call)) : nat := fold_right (fun p a => (length p + a)%nat) 0%nat ps.

Lemma cost_start ps : cost (m_threads (start ps)) = 1701 * Z.of_nat (total_calls ps).
Proof.
  cbn [start m_threads]. induction ps as [|p ps IH]; [reflexivity|].
  cbn [map cost total_calls fold_right]. fold (total_calls ps).
  rewrite IH. unfold thread_cost. cbn [t_pc pc_cost t_todo]. lia.
Qed.

Lemma cost_nonneg ps m : reachable ps m -> 0 <= cost (m_threads m).
Proof.
  intros R.
  assert (I : forall m', msteps (start ps) m' -> Forall (fun t => 0 <= pc_cost (t_pc t)) (m_threads m')).
  { clear m R. intros m R. remember (start ps) as ms eqn:Es. induction R; subst.
    - cbn. apply Forall_forall. intros t Ht. apply in_map_iff in Ht. destruct Ht as (p & <- & _). cbn. lia.
    - pose proof (IHR eq_refl) as IH. destruct (minv_reachable _ _ R) as (M & D).
      destruct H as [n t t' s' Hn Hs]. cbn [m_threads]. apply Forall_upd; [exact IH|].
      pose proof (proj1 (Forall_forall _ _) IH t (nth_error_In _ _ Hn)) as Ht.
      assert (Hl : t_pc t = InitEnter -> data_inv PhIdle (m_shared m2)).
      { intros Ep. assert (El : sh_lock (m_shared m2) = Some n) by (apply (M _ _ Hn); rewrite Ep; reflexivity).
        rewrite El in D. destruct D as (t0 & Hn0 & D & _). rewrite Hn in Hn0. injection Hn0 as <-.
        rewrite Ep in D. exact D. }
      destruct t as [p todo]. unfold tstep in Hs. cbn [t_pc t_todo] in *.
      destruct p; [destruct todo as [|[] r]; [discriminate| | |]|..].
      1,2: destruct (sh_lock (m_shared m2)); [discriminate|]; injection Hs as <- <-; cbn; lia.
      + injection Hs as <- <-; cbn; lia.
      + specialize (Hl eq_refl). destruct Hl as (_ & _ & _ & _ & Rs & _).
        destruct (sh_flag (m_shared m2) =? 0); injection Hs as <- <-; cbn [set_pc t_pc]; [|cbn; lia].
        destruct Rs as [(-> & _)|(-> & _)]; cbn; lia.
      + destruct (Z.leb_spec L 40); injection Hs as <- <-; cbn [set_pc t_pc pc_cost] in *; lia.
      + destruct (Z.leb_spec i 1600); injection Hs as <- <-; cbn [set_pc t_pc pc_cost] in *; lia.
      + injection Hs as <- <-; cbn; lia.
      + injection Hs as <- <-; cbn; lia.
      + injection Hs as <- <-; cbn; lia.
      + injection Hs as <- <-; cbn; lia. }
  specialize (I _ R). clear R. induction (m_threads m) as [|t l IH]; [cbn; lia|].
  inversion I; subst. specialize (IH H2). cbn [cost]. unfold thread_cost. lia.
Qed.

(** every execution is finite: its length is bounded by the number of calls *)
Lemma bounded ps n m : msteps_n n (start ps) m -> Z.of_nat n <= 1701 * Z.of_nat (total_calls ps).
Proof.
  intros H.
  assert (Q : Z.of_nat n + cost (m_threads m) <= cost (m_threads (start ps))).
  { remember (start ps) as m0. induction H; [cbn; lia|]. subst.
    pose proof (minv_cost_step _ _ (minv_reachable _ _ (msn_reach _ _ _ H)) H0). specialize (IHmsteps_n eq_refl). lia. }
  rewrite cost_start in Q. pose proof (cost_nonneg _ _ (msn_reach _ _ _ H)). lia.
Qed.

(** ** One thread: the answers are determined by the program *)

Fixpoint answers (st : bool) (p : list call) : list Z :=
  match p with
  | [] => []
  | CallInit :: r => answers true r
  | CallFinalize :: r => answers false r
  | CallQuery :: r => (if st then 1 else 0) :: answers st r
  end.

Definition queries_of (l : list event) : list Z :=
  flat_map (fun e => match e with EvQuery _ v => [v] | _ => [] end) l.

Definition about_to (p : pc) (st : bool) : bool :=
  match p with
  | InitEnter | InitRsh _ | InitBessel _ | InitFlag => true
  | FinEnter => false
  | _ => st
  end.

Definition seq_inv (p : list call) (m : machine) : Prop :=
  exists t, m_threads m = [t] /\
    rev (queries_of (sh_log (m_shared m))) ++
      answers (about_to (t_pc t) (last_is_init (effects_of (sh_log (m_shared m))))) (t_todo t) = answers false p.

Lemma seq_answers p m : reachable [p] m -> seq_inv p m.
Proof.
  intros R. pose proof R as R0. unfold reachable in R. remember (start [p]) as m0. induction R.
  - subst. exists (mkThread Outside p). split; reflexivity.
  - subst. assert (R1 : reachable [p] m2) by exact R. specialize (IHR eq_refl R1).
    destruct IHR as (t & Ht & E). pose proof (flag_right _ _ R1) as F.
    destruct H as [n t0 t' s' Hn Hs]. cbn [m_threads m_shared] in *. rewrite Ht in *.
    destruct n as [|[|n]]; try discriminate. cbn in Hn. injection Hn as <-.
    exists t'. split; [reflexivity|]. rewrite <- E. clear E R R0 R1.
    destruct t as [pp todo]. unfold tstep in Hs. cbn [t_pc t_todo] in *.
    destruct pp; [destruct todo as [|[] r]; [discriminate| | |]|..].
    1,2: destruct (sh_lock (m_shared m2)); [discriminate|]; injection Hs as <- <-; reflexivity.
    + injection Hs as <- <-. cbn [m_shared t_pc t_todo sh_log about_to answers].
      rewrite effects_cons.
      match goal with |- context [queries_of (EvQuery 0 ?v :: ?l)] =>
        change (queries_of (EvQuery 0 v :: l)) with (v :: queries_of l) end.
      cbn [rev]. rewrite <- app_assoc. cbn [app]. rewrite F. reflexivity.
    + destruct (sh_flag (m_shared m2) =? 0) eqn:E0; injection Hs as <- <-; cbn [set_pc t_pc t_todo sh_log]; [|reflexivity].
      destruct (40 <=? sh_lmax (m_shared m2)); reflexivity.
    + destruct (L <=? 40); injection Hs as <- <-; reflexivity.
    + destruct (i <=? 1600); injection Hs as <- <-; reflexivity.
    + injection Hs as <- <-; reflexivity.
    + injection Hs as <- <-; reflexivity.
    + injection Hs as <- <-; reflexivity.
    + injection Hs as <- <-; reflexivity.
Qed.

Lemma sequential_answers p m : reachable [p] m -> finished m ->
  rev (queries_of (sh_log (m_shared m))) = answers false p.
Proof.
  intros R F. destruct (seq_answers _ _ R) as (t & Ht & E). unfold finished in F. rewrite Ht in F.
  inversion F as [|? ? (_ & Hd) _]; subst. rewrite Hd in E. cbn [answers] in E. rewrite app_nil_r in E. exact E.
Qed.

(** the programs run to completion *)
Lemma msteps_trans m1 m2 m3 : msteps m1 m2 -> msteps m2 m3 -> msteps m1 m3.
Proof. intros H1 H2. revert H1. induction H2; intros H1; [exact H1|]. econstructor; [apply IHmsteps, H1|eassumption]. Qed.

Lemma finished_dec m : finished m \/ ~ finished m.
Proof.
  unfold finished. induction (m_threads m) as [|t l [IH|IH]].
  - left. constructor.
  - assert (Hd : (t_pc t = Outside /\ t_todo t = []) \/ ~ (t_pc t = Outside /\ t_todo t = [])).
    { destruct (t_pc t), (t_todo t); (left; split; reflexivity) || (right; intros [? ?]; discriminate). }
    destruct Hd; [left; constructor; assumption|right; intros H1; inversion H1; tauto].
  - right. intros H; inversion H; tauto.
Qed.

Lemma completes ps m : reachable ps m -> exists m', msteps m m' /\ finished m'.
Proof.
  intros R. remember (Z.to_nat (cost (m_threads m))) as k eqn:Hk.
  revert m R Hk. induction k as [k IH] using (well_founded_induction lt_wf). intros m R Hk.
  destruct (finished_dec m) as [F|F]; [exists m; split; [constructor|exact F]|].
  destruct (progress _ _ R F) as (m1 & S1).
  pose proof (minv_cost_step _ _ (minv_reachable _ _ R) S1) as C.
  assert (R1 : reachable ps m1) by (econstructor; eassumption).
  pose proof (cost_nonneg _ _ R1). pose proof (cost_nonneg _ _ R).
  destruct (IH (Z.to_nat (cost (m_threads m1)))) with (m := m1) as (m' & S2 & F2); [lia|exact R1|reflexivity|].
  exists m'. split; [|exact F2]. eapply msteps_trans; [econstructor; [constructor|exact S1]|exact S2].
Qed.
