(** * Overlap gradients evaluated by several threads (C27)

    The loop of overlap_gradient_diff_bra_contribution (overlap_gradient.c 114-146)
    modifies the component list stored in the bra shell object while it works
    (lines 126, 129, 138, 141) and restores it afterwards.  Here the accesses of
    that loop to the component lists of its two shells are split into loads and
    stores and interleaved with those of other threads (sequentially consistent
    memory; one step = one memory access).

    Simplifications: the numerical work between the accesses is left out: the
    numbers a thread reads determine which entries of the auxiliary matrices it
    combines and with which factor (line 132), so the log of numbers read is
    recorded instead of the matrix entries.  A call contributes at most two
    passes of the loop (lines 76-81); a thread runs one pass here. *)

From Coq Require Import ZArith List Lia Bool.
From Verif Require Import Base CartModel CartProofs.
Import ListNotations.
Open Scope Z_scope.

(** one access to the component list number [p], cell [a] *)
Inductive mop :=
| MLoad (p a : Z)      (* read the cell into the register *)
| MStore (p a d : Z)   (* write register + d into the cell *)
| MRead (p a : Z).     (* read the cell as a result *)

Definition memory := Z -> Z -> Z.

Definition mem_set (m : memory) (p a v : Z) : memory :=
  fun q b => if (q =? p) && (b =? a) then v else m q b.

Record mthread := mkMThread { mt_ops : list mop; mt_reg : Z; mt_log : list Z }.

Definition mop_step (o : mop) (st : Z * list Z * memory) : Z * list Z * memory :=
  let '(r, l, m) := st in
  match o with
  | MLoad p a => (m p a, l, m)
  | MStore p a d => (r, l, mem_set m p a (r + d))
  | MRead p a => (r, l ++ [m p a], m)
  end.

(** [x += d] on a cell of the bra list, overlap_gradient.c 126, 129, 138, 141 *)
Definition mbump (p a d : Z) : list mop := [MLoad p a; MStore p a d].

(** overlap_gradient.c 221-223: nlm_to_linear reads the three exponents *)
Definition mlook (p i : Z) : list mop := [MRead p (3 * i); MRead p (3 * i + 1); MRead p (3 * i + 2)].

(** overlap_gradient.c 118-143, one iteration; line 131-132 reads the exponent again *)
Definition miter (L pA pB k i j : Z) : list mop :=
  (if 0 <? L then mbump pA (3 * i + k) (-1) ++ mlook pA i ++ mlook pB j ++ mbump pA (3 * i + k) 1 ++ [MRead pA (3 * i + k)] else [])
  ++ mbump pA (3 * i + k) 1 ++ mlook pA i ++ mlook pB j ++ mbump pA (3 * i + k) (-1).

Definition zseq (n : Z) : list Z := map Z.of_nat (seq 0 (Z.to_nat n)).

(** overlap_gradient.c 114-146 *)
Definition mprog (L pA pB nA nB : Z) : list mop :=
  flat_map (fun k => flat_map (fun i => flat_map (fun j => miter L pA pB k i j) (zseq nB)) (zseq nA)) (zseq 3).

(** a machine: the threads and the lists *)
Record mmach := mkMMach { mm_threads : list mthread; mm_mem : memory }.

Fixpoint mupd {A} (l : list A) (n : nat) (x : A) : list A :=
  match l, n with
  | [], _ => []
  | _ :: r, O => x :: r
  | y :: r, S n' => y :: mupd r n' x
  end.

(** thread [n] makes its next access *)
Definition mm_move (n : nat) (M : mmach) : option mmach :=
  match nth_error (mm_threads M) n with
  | Some t =>
      match mt_ops t with
      | [] => None
      | o :: ops =>
          let '(r, l, m) := mop_step o (mt_reg t, mt_log t, mm_mem M) in
          Some (mkMMach (mupd (mm_threads M) n (mkMThread ops r l)) m)
      end
  | None => None
  end.

(** run a schedule: the list of thread numbers in the order of their accesses *)
Fixpoint mm_run (sched : list nat) (M : mmach) : option mmach :=
  match sched with
  | [] => Some M
  | n :: r => match mm_move n M with Some M' => mm_run r M' | None => None end
  end.

(** a call: bra and ket (angular momentum, list pointer, number of components) *)
Record mcall := mkMCall { mc_LA : Z; mc_pA : Z; mc_nA : Z; mc_pB : Z; mc_nB : Z }.

Definition mstart (calls : list mcall) (m : memory) : mmach :=
  mkMMach (map (fun c => mkMThread (mprog (mc_LA c) (mc_pA c) (mc_pB c) (mc_nA c) (mc_nB c)) 0 []) calls) m.

(** the thread has completed its call *)
Definition mdone (M : mmach) (n : nat) (t : mthread) : Prop := nth_error (mm_threads M) n = Some t /\ mt_ops t = [].

(** ** Specification: what one pass must look up, from the exponents alone *)

Definition triple (m : memory) (p i : Z) : list Z := [m p (3 * i); m p (3 * i + 1); m p (3 * i + 2)].
Definition triple_bumped (m : memory) (p i k d : Z) : list Z :=
  map (fun q => m p (3 * i + q) + (if q =? k then d else 0)) [0; 1; 2].

Definition expected_log (m : memory) (c : mcall) : list Z :=
  flat_map (fun k => flat_map (fun i => flat_map (fun j =>
    (if 0 <? mc_LA c then triple_bumped m (mc_pA c) i k (-1) ++ triple m (mc_pB c) j ++ [m (mc_pA c) (3 * i + k)] else [])
    ++ triple_bumped m (mc_pA c) i k 1 ++ triple m (mc_pB c) j)
    (zseq (mc_nB c))) (zseq (mc_nA c))) (zseq 3).

(** the components of two s, p, ... shells in memory *)
Definition holds_comps (m : memory) (p : Z) (l : list (Z * Z * Z)) : Prop :=
  forall i c, nth_error l i = Some c ->
    m p (3 * Z.of_nat i) = fst (fst c) /\ m p (3 * Z.of_nat i + 1) = snd (fst c) /\ m p (3 * Z.of_nat i + 2) = snd c.

(** ** One thread *)

Definition mrun (ops : list mop) (st : Z * list Z * memory) : Z * list Z * memory := fold_left (fun s o => mop_step o s) ops st.

Lemma mrun_app a b st : mrun (a ++ b) st = mrun b (mrun a st).
Proof. apply fold_left_app. Qed.

Definition same_mem (m m' : memory) : Prop := forall p a, m p a = m' p a.

Lemma mrun_bump p a d r l m : mrun (mbump p a d) (r, l, m) = (m p a, l, mem_set m p a (m p a + d)).
Proof. reflexivity. Qed.

Lemma mrun_look p i r l m : mrun (mlook p i) (r, l, m) = (r, l ++ triple m p i, m).
Proof. unfold mrun, mlook, triple. cbn [fold_left mop_step]. rewrite <- !app_assoc. reflexivity. Qed.

Lemma mem_set_eq m p a v q b : mem_set m p a v q b = if (q =? p) && (b =? a) then v else m q b.
Proof. reflexivity. Qed.

Lemma mrun_block pA pB k i j d r l m m0 : pA <> pB -> 0 <= k < 3 -> same_mem m m0 ->
  exists r' m', mrun (mbump pA (3 * i + k) d ++ mlook pA i ++ mlook pB j ++ mbump pA (3 * i + k) (- d)) (r, l, m)
    = (r', l ++ triple_bumped m0 pA i k d ++ triple m0 pB j, m') /\ same_mem m' m0.
Proof.
  intros Hp Hk Hm. rewrite mrun_app, mrun_bump, mrun_app, mrun_look, mrun_app, mrun_look, mrun_bump.
  eexists. eexists. split; [f_equal; f_equal|].
  - rewrite <- app_assoc. f_equal. f_equal.
    + unfold triple, triple_bumped. cbn [map].
      rewrite !mem_set_eq, !Z.eqb_refl. cbn [andb]. rewrite !Hm.
      assert (K : k = 0 \/ k = 1 \/ k = 2) by lia. destruct K as [-> | [-> | ->]];
        repeat match goal with |- context [?a =? ?b] => destruct (Z.eqb_spec a b); try lia end;
        rewrite ?Z.add_0_r; reflexivity.
    + unfold triple. rewrite !mem_set_eq. destruct (Z.eqb_spec pB pA); [congruence|]. cbn [andb]. rewrite !Hm. reflexivity.
  - intros p a. rewrite !mem_set_eq, !Z.eqb_refl. cbn [andb].
    destruct (Z.eqb_spec p pA) as [-> | ]; cbn [andb]; [|apply Hm].
    destruct (Z.eqb_spec a (3 * i + k)) as [-> | ]; [rewrite Hm; lia|apply Hm].
Qed.

Lemma mrun_iter c m k i j r l m0 : mc_pA c <> mc_pB c -> 0 <= k < 3 -> same_mem m m0 ->
  exists r' m', mrun (miter (mc_LA c) (mc_pA c) (mc_pB c) k i j) (r, l, m) = (r', l ++
    ((if 0 <? mc_LA c then triple_bumped m0 (mc_pA c) i k (-1) ++ triple m0 (mc_pB c) j ++ [m0 (mc_pA c) (3 * i + k)] else [])
     ++ triple_bumped m0 (mc_pA c) i k 1 ++ triple m0 (mc_pB c) j), m') /\ same_mem m' m0.
Proof.
  intros Hp Hk Hm. unfold miter. destruct (0 <? mc_LA c).
  - destruct (mrun_block (mc_pA c) (mc_pB c) k i j (-1) r l m m0 Hp Hk Hm) as (r1 & m1 & E1 & Hm1).
    change (- (-1)) with 1 in E1.
    match goal with |- context [mrun (?X ++ ?Y) _] => replace (X ++ Y) with
      ((mbump (mc_pA c) (3 * i + k) (-1) ++ mlook (mc_pA c) i ++ mlook (mc_pB c) j ++ mbump (mc_pA c) (3 * i + k) 1) ++
        [MRead (mc_pA c) (3 * i + k)] ++ Y) by (rewrite <- !app_assoc; reflexivity) end.
    rewrite mrun_app, E1, mrun_app.
    set (l1 := l ++ triple_bumped m0 (mc_pA c) i k (-1) ++ triple m0 (mc_pB c) j).
    change (mrun [MRead (mc_pA c) (3 * i + k)] (r1, l1, m1)) with (r1, l1 ++ [m1 (mc_pA c) (3 * i + k)], m1).
    destruct (mrun_block (mc_pA c) (mc_pB c) k i j 1 r1 (l1 ++ [m1 (mc_pA c) (3 * i + k)]) m1 m0 Hp Hk Hm1) as (r2 & m2 & E2 & Hm2).
    change (Z.opp 1) with (-1) in E2. rewrite E2. exists r2, m2. split; [|exact Hm2]. unfold l1. rewrite Hm1, <- !app_assoc. reflexivity.
  - cbn [app]. apply mrun_block; assumption.
Qed.

Lemma mrun_flat_map {A} (f : A -> list mop) (g : A -> list Z) (m0 : memory) (xs : list A) :
  (forall x r l m, In x xs -> same_mem m m0 -> exists r' m', mrun (f x) (r, l, m) = (r', l ++ g x, m') /\ same_mem m' m0) ->
  forall r l m, same_mem m m0 -> exists r' m', mrun (flat_map f xs) (r, l, m) = (r', l ++ flat_map g xs, m') /\ same_mem m' m0.
Proof.
  induction xs as [|x xs IH]; intros H r l m Hm.
  - exists r, m. split; [|exact Hm]. cbn. rewrite app_nil_r. reflexivity.
  - cbn [flat_map]. rewrite mrun_app. destruct (H x r l m (or_introl eq_refl) Hm) as (r1 & m1 & E1 & Hm1). rewrite E1.
    destruct (IH (fun y r l m Hy => H y r l m (or_intror Hy)) r1 (l ++ g x) m1 Hm1) as (r2 & m2 & E2 & Hm2).
    exists r2, m2. rewrite E2, app_assoc. split; [reflexivity|exact Hm2].
Qed.

Lemma mprog_run c m0 : mc_pA c <> mc_pB c ->
  exists r' m', mrun (mprog (mc_LA c) (mc_pA c) (mc_pB c) (mc_nA c) (mc_nB c)) (0, [], m0) = (r', expected_log m0 c, m') /\ same_mem m' m0.
Proof.
  intros Hp. unfold mprog, expected_log.
  destruct (mrun_flat_map (fun k => flat_map (fun i => flat_map (fun j => miter (mc_LA c) (mc_pA c) (mc_pB c) k i j) (zseq (mc_nB c))) (zseq (mc_nA c)))
    (fun k => flat_map (fun i => flat_map (fun j =>
    (if 0 <? mc_LA c then triple_bumped m0 (mc_pA c) i k (-1) ++ triple m0 (mc_pB c) j ++ [m0 (mc_pA c) (3 * i + k)] else [])
    ++ triple_bumped m0 (mc_pA c) i k 1 ++ triple m0 (mc_pB c) j)
    (zseq (mc_nB c))) (zseq (mc_nA c))) m0 (zseq 3)) with (r := 0) (l := @nil Z) (m := m0) as (r' & m' & E & Hm).
  - intros k r l m Hk Hm. apply mrun_flat_map; [|exact Hm]. intros i r1 l1 m1 _ Hm1.
    apply mrun_flat_map; [|exact Hm1]. intros j r2 l2 m2 _ Hm2. apply mrun_iter; [exact Hp| |exact Hm2].
    change (zseq 3) with [0; 1; 2] in Hk. cbn in Hk. lia.
  - intros p a. reflexivity.
  - exists r', m'. split; [exact E|exact Hm].
Qed.

(** ** Many threads *)

(** lists a program touches and those it writes *)
Definition op_ok (pA pB : Z) (o : mop) : Prop :=
  match o with MLoad p _ | MRead p _ => p = pA \/ p = pB | MStore p _ _ => p = pA end.

Lemma mprog_ok L pA pB nA nB : Forall (op_ok pA pB) (mprog L pA pB nA nB).
Proof.
  apply Forall_forall. intros o Ho. unfold mprog in Ho.
  apply in_flat_map in Ho. destruct Ho as (k & _ & Ho). apply in_flat_map in Ho. destruct Ho as (i & _ & Ho).
  apply in_flat_map in Ho. destruct Ho as (j & _ & Ho). unfold miter, mbump, mlook in Ho.
  destruct (0 <? L); cbn in Ho; repeat (destruct Ho as [<- | Ho]; [cbn; tauto|]); destruct Ho.
Qed.

(** no thread's bra shell is used by another thread *)
Definition disjoint_bras (calls : list mcall) : Prop :=
  forall n n' c c', n <> n' -> nth_error calls n = Some c -> nth_error calls n' = Some c' ->
    mc_pA c <> mc_pA c' /\ mc_pA c <> mc_pB c'.

Definition tinv (m0 : memory) (M : mmach) (n : nat) (c : mcall) : Prop :=
  exists t don m, nth_error (mm_threads M) n = Some t /\
    mprog (mc_LA c) (mc_pA c) (mc_pB c) (mc_nA c) (mc_nB c) = don ++ mt_ops t /\
    mrun don (0, [], m0) = (mt_reg t, mt_log t, m) /\
    (forall a, mm_mem M (mc_pA c) a = m (mc_pA c) a /\ mm_mem M (mc_pB c) a = m (mc_pB c) a).

Lemma mupd_same {A} (l : list A) n x y : nth_error l n = Some y -> nth_error (mupd l n x) n = Some x.
Proof. revert n. induction l as [|z l IH]; intros [|n] H; try discriminate; [reflexivity|]. apply IH. exact H. Qed.
Lemma mupd_other {A} (l : list A) n n' x : n <> n' -> nth_error (mupd l n x) n' = nth_error l n'.
Proof. revert n n'. induction l as [|z l IH]; intros [|n] [|n'] H; try reflexivity; [congruence|]. apply IH. congruence. Qed.
Lemma mupd_length {A} (l : list A) n x : length (mupd l n x) = length l.
Proof. revert n. induction l as [|z l IH]; intros [|n]; cbn; [reflexivity|reflexivity|reflexivity|]. rewrite IH. reflexivity. Qed.

Lemma mrun_one don o st : mrun (don ++ [o]) st = mop_step o (mrun don st).
Proof. rewrite mrun_app. reflexivity. Qed.

Definition minv (calls : list mcall) (m0 : memory) (M : mmach) : Prop :=
  length (mm_threads M) = length calls /\
  (forall n c, nth_error calls n = Some c -> tinv m0 M n c) /\
  (forall p a, (forall n c, nth_error calls n = Some c -> mc_pA c <> p) -> mm_mem M p a = m0 p a).

Lemma minv_move calls m0 n M M' : disjoint_bras calls -> minv calls m0 M -> mm_move n M = Some M' -> minv calls m0 M'.
Proof.
  intros Dj (Hlen & Ti & Ho) E. unfold mm_move in E.
  destruct (nth_error (mm_threads M) n) as [t|] eqn:Et; [|discriminate].
  destruct (mt_ops t) as [|o ops] eqn:Eo; [discriminate|].
  destruct (nth_error calls n) as [c|] eqn:Ec.
  2: { apply nth_error_None in Ec. assert ((n < length (mm_threads M))%nat) by (apply nth_error_Some; congruence). lia. }
  destruct (Ti n c Ec) as (t' & don & m & Et' & Ep & Er & Em). rewrite Et in Et'. injection Et' as <-. rewrite Eo in Ep.
  assert (Ok : op_ok (mc_pA c) (mc_pB c) o).
  { pose proof (mprog_ok (mc_LA c) (mc_pA c) (mc_pB c) (mc_nA c) (mc_nB c)) as F. rewrite Ep in F.
    apply Forall_app in F. destruct F as (_ & F). inversion F. assumption. }
  destruct (mop_step o (mt_reg t, mt_log t, mm_mem M)) as [[r l] mm] eqn:Es. injection E as <-.
  assert (W : forall p a, p <> mc_pA c -> mm p a = mm_mem M p a).
  { intros p a Hp. destruct o; cbn in Es; injection Es as <- <- <-; try reflexivity. cbn in Ok. subst. unfold mem_set.
    destruct (Z.eqb_spec p (mc_pA c)); [congruence|reflexivity]. }
  split; [cbn; rewrite mupd_length; exact Hlen|]. split.
  - intros n' c' Ec'. destruct (Nat.eq_dec n n') as [<-|Hn].
    + rewrite Ec in Ec'. injection Ec' as <-.
      destruct (mop_step o (mt_reg t, mt_log t, m)) as [[r1 l1] m1] eqn:Es1.
      exists (mkMThread ops r l), (don ++ [o]), m1. cbn [mm_threads mm_mem mt_ops mt_reg mt_log].
      split; [eapply mupd_same; exact Et|]. split; [rewrite <- app_assoc; exact Ep|].
      rewrite mrun_one, Er, Es1.
      destruct o as [p a|p a d|p a]; cbn in Es, Es1, Ok; injection Es as <- <- <-; injection Es1 as <- <- <-.
      * split; [|exact Em]. do 2 f_equal. destruct Ok as [-> | ->]; symmetry; apply Em.
      * split; [reflexivity|]. intros b. unfold mem_set.
        destruct ((mc_pA c =? p) && (b =? a)), ((mc_pB c =? p) && (b =? a)); split; try reflexivity; apply Em.
      * split; [|exact Em]. do 4 f_equal. destruct Ok as [-> | ->]; symmetry; apply Em.
    + destruct (Ti n' c' Ec') as (t2 & don2 & m2 & Et2 & Ep2 & Er2 & Em2).
      exists t2, don2, m2. cbn [mm_threads mm_mem]. split; [rewrite mupd_other by exact Hn; exact Et2|]. split; [exact Ep2|].
      split; [exact Er2|]. intros a. destruct (Dj n n' c c' Hn Ec Ec') as (D1 & D2).
      rewrite !W by congruence. apply Em2.
  - intros p a Hp. cbn [mm_mem]. rewrite W; [apply Ho; exact Hp|]. intros ->. exact (Hp n c Ec eq_refl).
Qed.

Lemma minv_run calls m0 sched : forall M M', disjoint_bras calls -> minv calls m0 M -> mm_run sched M = Some M' -> minv calls m0 M'.
Proof.
  induction sched as [|n r IH]; intros M M' Dj I E; cbn in E; [congruence|].
  destruct (mm_move n M) as [M1|] eqn:E1; [|discriminate]. eapply IH; [exact Dj| |exact E]. eapply minv_move; eassumption.
Qed.

Lemma minv_start calls m0 : minv calls m0 (mstart calls m0).
Proof.
  split; [apply map_length|]. split; [|reflexivity]. intros n c Ec. unfold tinv, mstart. cbn [mm_threads mm_mem].
  rewrite nth_error_map, Ec. cbn [option_map]. eexists. exists [], m0. split; [reflexivity|]. cbn. repeat split.
Qed.

(** the provable half of C27 *)
Lemma disjoint_threads calls m0 sched M n c t : disjoint_bras calls -> (forall n c, nth_error calls n = Some c -> mc_pA c <> mc_pB c) ->
  mm_run sched (mstart calls m0) = Some M -> nth_error calls n = Some c -> mdone M n t ->
  mt_log t = expected_log m0 c /\ (forall a, mm_mem M (mc_pA c) a = m0 (mc_pA c) a).
Proof.
  intros Dj Hp E Ec (Et & Eo).
  destruct (minv_run calls m0 sched _ _ Dj (minv_start calls m0) E) as (_ & Ti & _).
  destruct (Ti n c Ec) as (t' & don & m & Et' & Ep & Er & Em). rewrite Et in Et'. injection Et' as <-.
  rewrite Eo, app_nil_r in Ep. destruct (mprog_run c m0 (Hp n c Ec)) as (r' & m' & Er' & Hm). rewrite Ep, Er in Er'.
  injection Er' as _ <- <-. split; [reflexivity|]. intros a. rewrite (proj1 (Em a)). apply Hm.
Qed.

Lemma sum_mupd {A} (f : A -> nat) (l : list A) n x y : nth_error l n = Some y ->
  (list_sum (map f (mupd l n x)) + f y = list_sum (map f l) + f x)%nat.
Proof.
  revert n. induction l as [|z l IH]; intros [|n] H; try discriminate; cbn in H |- *.
  - injection H as ->. lia.
  - specialize (IH n H). unfold list_sum in *. lia.
Qed.

(** every thread can always finish: no schedule blocks *)
Lemma threads_can_finish calls m0 sched M : mm_run sched (mstart calls m0) = Some M ->
  exists rest M', mm_run rest M = Some M' /\ length (mm_threads M') = length calls /\ forall n t, nth_error (mm_threads M') n = Some t -> mt_ops t = [].
Proof.
  intros E.
  assert (HL : length (mm_threads M) = length calls).
  { assert (G : forall sched M1 M2, mm_run sched M1 = Some M2 -> length (mm_threads M2) = length (mm_threads M1)).
    { clear. induction sched as [|n r IH]; intros M1 M2 E; cbn in E; [congruence|].
      destruct (mm_move n M1) as [M3|] eqn:E3; [|discriminate]. rewrite (IH _ _ E). unfold mm_move in E3.
      destruct (nth_error _ _); [|discriminate]. destruct (mt_ops m); [discriminate|].
      destruct (mop_step _ _) as [[? ?] ?]. injection E3 as <-. cbn. apply mupd_length. }
    rewrite (G _ _ _ E). apply map_length. }
  clear E sched. rewrite <- HL. clear HL calls m0.
  set (work := fun M : mmach => list_sum (map (fun t => length (mt_ops t)) (mm_threads M))).
  remember (work M) as w eqn:Hw. revert M Hw. induction w as [|w IH]; intros M Hw.
  - exists [], M. split; [reflexivity|]. split; [reflexivity|]. intros n t Ht. unfold work in Hw.
    assert (In t (mm_threads M)) as Hin by (eapply nth_error_In; exact Ht).
    apply in_split in Hin. destruct Hin as (l1 & l2 & El). rewrite El, map_app, list_sum_app in Hw. cbn in Hw.
    destruct (mt_ops t); [reflexivity|cbn in Hw; lia].
  - assert (exists n t o ops, nth_error (mm_threads M) n = Some t /\ mt_ops t = o :: ops) as (n & t & o & ops & Et & Eo).
    { unfold work in Hw. clear IH. revert Hw. generalize (mm_threads M). induction l as [|t l IH]; cbn; [discriminate|].
      destruct (mt_ops t) as [|o ops] eqn:Eo; intros Hw.
      - destruct (IH Hw) as (n & t' & o & ops & H). exists (S n), t', o, ops. exact H.
      - exists 0%nat, t, o, ops. split; [reflexivity|exact Eo]. }
    destruct (mop_step o (mt_reg t, mt_log t, mm_mem M)) as [[r l] mm] eqn:Es.
    assert (Emv : mm_move n M = Some (mkMMach (mupd (mm_threads M) n (mkMThread ops r l)) mm)).
    { unfold mm_move. rewrite Et, Eo, Es. reflexivity. }
    destruct (IH (mkMMach (mupd (mm_threads M) n (mkMThread ops r l)) mm)) as (rest & M' & E & Hl & F).
    { unfold work in *. cbn [mm_threads].
      pose proof (sum_mupd (fun t => length (mt_ops t)) (mm_threads M) n (mkMThread ops r l) t Et) as Q. cbv beta in Q. rewrite Eo in Q. cbn [mt_ops length] in Q. unfold work in Hw. lia. }
    exists (n :: rest), M'. cbn. rewrite Emv. split; [exact E|]. split; [rewrite Hl; cbn; apply mupd_length|exact F].
Qed.

(** ** The refuted half *)

(** two p shells: list 1 is the bra of both calls, list 2 the ket *)
Definition p_lists : memory := fun p a => nth (Z.to_nat a) [1; 0; 0; 0; 1; 0; 0; 0; 1] 0.

Lemma p_lists_hold p : holds_comps p_lists p (canon 1).
Proof.
  intros i c H. assert (Hl : (i < length (canon 1))%nat) by (apply nth_error_Some; congruence).
  replace (canon 1) with [(1, 0, 0); (0, 1, 0); (0, 0, 1)] in * by (vm_compute; reflexivity). cbn in Hl.
  destruct i as [|[|[|i]]]; cbn in H; try lia; injection H as <-; repeat split.
Qed.

Definition p_call : mcall := mkMCall 1 1 3 2 3.

(** both threads load the exponent before either stores it, so one decrement is lost;
    then the first thread runs to its end, then the second *)
Definition bad_schedule : list nat :=
  [0; 1; 0; 1]%nat ++ repeat 0%nat (27 * 21 - 2) ++ repeat 1%nat (27 * 21 - 2).

Lemma shared_bra_race : exists sched M t0 t1,
  mm_run sched (mstart [p_call; p_call] p_lists) = Some M /\ mdone M 0 t0 /\ mdone M 1 t1 /\
  mt_log t1 <> expected_log p_lists p_call /\ mm_mem M 1 0 = 2.
Proof.
  exists bad_schedule.
  destruct (mm_run bad_schedule (mstart [p_call; p_call] p_lists)) as [M|] eqn:E.
  2: { exfalso. assert (Q : (match mm_run bad_schedule (mstart [p_call; p_call] p_lists) with Some _ => true | None => false end) = true) by (vm_compute; reflexivity).
       rewrite E in Q. discriminate. }
  assert (Q : match mm_run bad_schedule (mstart [p_call; p_call] p_lists) with
    | Some M => match nth_error (mm_threads M) 0, nth_error (mm_threads M) 1 with
        | Some t0, Some t1 => match mt_ops t0, mt_ops t1 with
            | [], [] => negb (nth 0 (mt_log t1) 0 =? nth 0 (expected_log p_lists p_call) 0) && (mm_mem M 1 0 =? 2)
            | _, _ => false end
        | _, _ => false end
    | None => false end = true) by (vm_compute; reflexivity).
  rewrite E in Q.
  destruct (nth_error (mm_threads M) 0) as [t0|] eqn:E0; [|discriminate].
  destruct (nth_error (mm_threads M) 1) as [t1|] eqn:E1; [|discriminate].
  destruct (mt_ops t0) eqn:O0; [|discriminate]. destruct (mt_ops t1) eqn:O1; [|discriminate].
  apply andb_true_iff in Q. destruct Q as (Q1 & Q2). apply Z.eqb_eq in Q2. apply negb_true_iff, Z.eqb_neq in Q1.
  exists M, t0, t1. split; [reflexivity|]. split; [split; assumption|]. split; [split; assumption|]. split; [|exact Q2].
  intros Heq. rewrite Heq in Q1. contradiction.
Qed.
