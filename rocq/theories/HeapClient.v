(** * Client histories of a GRPP object.

    A history is a list of library calls made by a client that builds one GRPP
    object out of potentials and shells it constructs itself, possibly
    interleaved.  [client_program] runs the history, deletes the GRPP object and
    then deletes the objects that were never handed over. *)

From Coq Require Import ZArith List Lia Bool Reals Permutation.
From Verif Require Import Base CartModel CartProofs HeapModel HeapProofs HeapShrink HeapGrpp.
Import ListNotations.
Open Scope Z_scope.

Inductive cop :=
| CNewPot (L J : Z) (powers : list Z) (coeffs alpha : list R)
| CNewShell (ord : cart_order) (origin : R * R * R) (L : Z) (coeffs alpha : list R)
| CSetLocal (k : option nat)            (* None: NULL *)
| CAddAveraged (k : option nat)
| CAddSpinOrbit (k : option nat)
| CAddOutercore (k s : option nat).

Record cst := mkCst { c_heap : heap; c_pots : list ptr; c_shells : list ptr }.

(** the client fills temporary arrays, calls the constructor, frees the arrays *)
Definition client_new_pot (h : heap) L J (lp : list Z) (lc la : list R) : res (ptr * heap) :=
  let '(tp, h) := halloc h (OInts lp) in
  let '(tc, h) := halloc h (ODbls lc) in
  let '(ta, h) := halloc h (ODbls la) in
  let* (p, h) := new_potential h L J (Z.of_nat (length lc)) tp tc ta in
  let* h := hfree h tp in
  let* h := hfree h tc in
  let* h := hfree h ta in
  Ok (p, h).

Definition client_new_shell (h : heap) ord origin L (lc la : list R) : res (ptr * heap) :=
  let '(tc, h) := halloc h (ODbls lc) in
  let '(ta, h) := halloc h (ODbls la) in
  let* (p, h) := new_shell ord h origin L (Z.of_nat (length lc)) tc ta in
  let* h := hfree h tc in
  let* h := hfree h ta in
  Ok (p, h).

Definition pick (l : list ptr) (k : option nat) : ptr :=
  match k with None => 0 | Some k => nth k l 0 end.

Definition cstep (g : ptr) (s : cst) (o : cop) : res cst :=
  match o with
  | CNewPot L J lp lc la =>
      let* (p, h) := client_new_pot (c_heap s) L J lp lc la in
      Ok (mkCst h (c_pots s ++ [p]) (c_shells s))
  | CNewShell ord origin L lc la =>
      let* (p, h) := client_new_shell (c_heap s) ord origin L lc la in
      Ok (mkCst h (c_pots s) (c_shells s ++ [p]))
  | CSetLocal k =>
      let* h := set_local_potential (c_heap s) g (pick (c_pots s) k) in
      Ok (mkCst h (c_pots s) (c_shells s))
  | CAddAveraged k =>
      let* h := add_averaged_potential (c_heap s) g (pick (c_pots s) k) in
      Ok (mkCst h (c_pots s) (c_shells s))
  | CAddSpinOrbit k =>
      let* h := add_spin_orbit_potential (c_heap s) g (pick (c_pots s) k) in
      Ok (mkCst h (c_pots s) (c_shells s))
  | CAddOutercore k k' =>
      let* h := add_outercore_potential (c_heap s) g (pick (c_pots s) k) (pick (c_shells s) k') in
      Ok (mkCst h (c_pots s) (c_shells s))
  end.

Fixpoint crun (g : ptr) (s : cst) (ops : list cop) : res cst :=
  match ops with [] => Ok s | o :: ops' => let* s' := cstep g s o in crun g s' ops' end.

(** which objects a history hands over *)
Definition opt_list {A} (o : option A) : list A := match o with Some a => [a] | None => [] end.
Definition op_pots (o : cop) : list nat :=
  match o with
  | CSetLocal k | CAddAveraged k | CAddSpinOrbit k | CAddOutercore k _ => opt_list k
  | _ => []
  end.
Definition op_shells (o : cop) : list nat :=
  match o with CAddOutercore _ k => opt_list k | _ => [] end.

Definition mem (k : nat) (l : list nat) : bool := existsb (Nat.eqb k) l.

Fixpoint delete_all (del : heap -> ptr -> res heap) (h : heap) (ps : list ptr) : res heap :=
  match ps with [] => Ok h | p :: ps' => let* h := del h p in delete_all del h ps' end.

Definition leftovers (l : list ptr) (used : list nat) : list ptr :=
  map (fun k => nth k l 0) (filter (fun k => negb (mem k used)) (seq 0 (length l))).

Definition client_program (h : heap) (ops : list cop) : res heap :=
  let '(g, h) := new_grpp h in
  let* s := crun g (mkCst h [] []) ops in
  let* h := delete_grpp (c_heap s) g in
  let* h := delete_all delete_potential h (leftovers (c_pots s) (flat_map op_pots ops)) in
  delete_all delete_shell h (leftovers (c_shells s) (flat_map op_shells ops)).

(** ** Legal histories: arguments in range, every handed-over object exists and
    was not handed over before, at most 100 additions of each kind *)
Record counts := mkCounts { n_a : nat; n_e : nat; n_o : nat }.

Fixpoint legal (np ns : nat) (up us : list nat) (c : counts) (ops : list cop) : Prop :=
  let ok_pot k := match k with Some k => (k < np)%nat /\ ~ In k up | None => True end in
  let ok_shell k := match k with Some k => (k < ns)%nat /\ ~ In k us | None => True end in
  match ops with
  | [] => True
  | o :: ops' =>
      match o with
      | CNewPot _ _ lp lc la =>
          length lp = length lc /\ length la = length lc /\ legal (S np) ns up us c ops'
      | CNewShell _ _ L lc la =>
          0 <= L /\ length la = length lc /\ legal np (S ns) up us c ops'
      | CSetLocal k => ok_pot k /\ legal np ns (opt_list k ++ up) us c ops'
      | CAddAveraged k => ok_pot k /\ (n_a c < 100)%nat /\
          legal np ns (opt_list k ++ up) us (mkCounts (S (n_a c)) (n_e c) (n_o c)) ops'
      | CAddSpinOrbit k => ok_pot k /\ (n_e c < 100)%nat /\
          legal np ns (opt_list k ++ up) us (mkCounts (n_a c) (S (n_e c)) (n_o c)) ops'
      | CAddOutercore k k' => ok_pot k /\ ok_shell k' /\ (n_o c < 100)%nat /\
          legal np ns (opt_list k ++ up) (opt_list k' ++ us) (mkCounts (n_a c) (n_e c) (S (n_o c))) ops'
      end
  end.

(** ** Contents of the container, as computed from the history alone *)

(** what a reader of the GRPP structure sees: the local potential and the first
    n entries of each pointer array *)
Definition read_ptrs (h : heap) (u : ptr) (n : Z) : option (list ptr) :=
  if n =? 0 then Some []
  else match hblk h u with Some (OPtrs l) => Some (firstn (Z.to_nat n) l) | _ => None end.

Definition read_grpp (h : heap) (g : ptr)
  : option (ptr * option (list ptr) * option (list ptr) * option (list ptr) * option (list ptr)) :=
  match hblk h g with
  | Some (OGrpp x) => Some (g_UL x, read_ptrs h (g_Uarep x) (g_n_arep x),
      read_ptrs h (g_Uesop x) (g_n_esop x), read_ptrs h (g_Uoc x) (g_n_oc x),
      read_ptrs h (g_ocshells x) (g_n_oc x))
  | _ => None
  end.

Definition last_local (ops : list cop) (k0 : option nat) : option nat :=
  fold_left (fun acc o => match o with CSetLocal k => k | _ => acc end) ops k0.
Definition averaged_of (ops : list cop) : list (option nat) :=
  flat_map (fun o => match o with CAddAveraged k => [k] | _ => [] end) ops.
Definition spin_orbit_of (ops : list cop) : list (option nat) :=
  flat_map (fun o => match o with CAddSpinOrbit k => [k] | _ => [] end) ops.
Definition oc_pots_of (ops : list cop) : list (option nat) :=
  flat_map (fun o => match o with CAddOutercore k _ => [k] | _ => [] end) ops.
Definition oc_shells_of (ops : list cop) : list (option nat) :=
  flat_map (fun o => match o with CAddOutercore _ k => [k] | _ => [] end) ops.

(** ** Proofs *)

Lemma client_new_pot_rep h0 h cs L J lp lc la : heap_wf h0 -> rep h0 h cs ->
  length lp = length lc -> length la = length lc ->
  exists h' x, client_new_pot h L J lp lc la = Ok (pr_ptr x, h') /\
    rep h0 h' (pot_cells x ++ cs) /\ pr_L x = L /\ pr_J x = J /\
    pot_prims x = filter keep_new (zip3 lp lc la) /\
    pr_n x = Z.of_nat (length (pot_prims x)) /\ pot_sized x.
Proof.
  intros W0 R0 H1 H2. unfold client_new_pot.
  destruct (halloc h _) as [tp h1] eqn:A1.
  destruct (rep_alloc _ _ _ _ _ _ W0 R0 A1) as [R1 _].
  destruct (halloc h1 _) as [tc h2] eqn:A2.
  destruct (rep_alloc _ _ _ _ _ _ W0 R1 A2) as [R2 _].
  destruct (halloc h2 _) as [ta h3] eqn:A3.
  destruct (rep_alloc _ _ _ _ _ _ W0 R2 A3) as [R3 _].
  destruct (new_potential_rep h0 h3 _ L J (Z.of_nat (length lc)) tp tc ta lp lc la W0 R3)
    as (h4 & x & E4 & R4 & XL & XJ & Xr).
  - destruct R3 as (_ & _ & _ & D & _). repeat split; apply D; simpl; tauto.
  - lia.
  - unfold nprim_ok; lia.
  - unfold nprim_ok; lia.
  - cbv zeta in Xr. rewrite E4, bind_ok.
    assert (R5 : rep h0 h4 ((tp, OInts lp) :: (tc, ODbls lc) :: (ta, ODbls la) :: pot_cells x ++ cs)).
    { eapply rep_perm; [|exact R4]. permx. }
    destruct (rep_free _ _ _ _ _ R5) as (h5 & E5 & R6 & _). rewrite E5, bind_ok.
    destruct (rep_free _ _ _ _ _ R6) as (h6 & E6 & R7 & _). rewrite E6, bind_ok.
    destruct (rep_free _ _ _ _ _ R7) as (h7 & E7 & R8 & _). rewrite E7, bind_ok.
    exists h7, x. split; [reflexivity|]. split; [exact R8|]. split; [exact XL|]. split; [exact XJ|].
    destruct Xr as (Xn & Xp & Xc & Xa & _).
    rewrite Nat2Z.id in *.
    assert (Hz : (length (zip3 lp lc la) <= length lc)%nat).
    { clear. revert lc la. induction lp as [|p lp IH]; intros [|c lc] [|a la]; simpl; try lia.
      specialize (IH lc la). lia. }
    rewrite firstn_all2 in * by exact Hz.
    assert (Hle : (length (filter keep_new (zip3 lp lc la)) <= length lc)%nat).
    { pose proof (filter_length_le keep_new (zip3 lp lc la)). lia. }
    assert (Hpr : pot_prims x = filter keep_new (zip3 lp lc la)).
    { unfold pot_prims. rewrite Xn, Xp, Xc, Xa, Nat2Z.id. apply firstn_front. }
    split; [exact Hpr|]. split; [rewrite Hpr; exact Xn|].
    unfold pot_sized, nprim_ok. rewrite Xn, Xp, Xc, Xa.
    rewrite !front_length by (rewrite map_length, Nat2Z.id; lia). rewrite Nat2Z.id. lia.
Qed.

Lemma client_new_shell_rep h0 h cs ord origin L lc la : heap_wf h0 -> rep h0 h cs ->
  0 <= L -> length la = length lc ->
  exists h' x, client_new_shell h ord origin L lc la = Ok (sr_ptr x, h') /\
    rep h0 h' (shell_cells x ++ cs) /\ sr_L x = L /\ sr_origin x = origin /\
    sr_n x = Z.of_nat (length lc) /\ sr_coeffs x = lc /\ sr_alpha x = la /\
    sr_list x = flat3 (canon L) /\ sr_size x = n_cart L.
Proof.
  intros W0 R0 HL H2. unfold client_new_shell.
  destruct (halloc h _) as [tc h2] eqn:A2.
  destruct (rep_alloc _ _ _ _ _ _ W0 R0 A2) as [R2 _].
  destruct (halloc h2 _) as [ta h3] eqn:A3.
  destruct (rep_alloc _ _ _ _ _ _ W0 R2 A3) as [R3 _].
  destruct (new_shell_rep ord h0 h3 _ origin L (Z.of_nat (length lc)) tc ta lc la W0 R3 HL)
    as (h4 & x & E4 & R4 & XL & Xs & Xn & Xo & Xl & Xc & Xa & _).
  - destruct R3 as (_ & _ & _ & D & _). apply D; simpl; tauto.
  - destruct R3 as (_ & _ & _ & D & _). apply D; simpl; tauto.
  - unfold nprim_ok; lia.
  - unfold nprim_ok; lia.
  - rewrite E4, bind_ok.
    assert (R5 : rep h0 h4 ((tc, ODbls lc) :: (ta, ODbls la) :: shell_cells x ++ cs)).
    { eapply rep_perm; [|exact R4]. permx. }
    destruct (rep_free _ _ _ _ _ R5) as (h5 & E5 & R6 & _). rewrite E5, bind_ok.
    destruct (rep_free _ _ _ _ _ R6) as (h6 & E6 & R7 & _). rewrite E6, bind_ok.
    exists h6, x. split; [reflexivity|]. split; [exact R7|].
    rewrite Nat2Z.id in *. rewrite firstn_all in Xc. rewrite firstn_all2 in Xa by lia.
    tauto.
Qed.

(** unused objects, in order of creation *)
Definition unused (used : list nat) (n : nat) : list nat :=
  filter (fun k => negb (mem k used)) (seq 0 n).

Lemma mem_in k l : mem k l = true <-> In k l.
Proof.
  unfold mem. rewrite existsb_exists. split.
  - intros (x & Hx & E). apply Nat.eqb_eq in E. subst. exact Hx.
  - intros H. exists k. split; [exact H|apply Nat.eqb_refl].
Qed.

Lemma in_unused k used n : In k (unused used n) <-> (k < n)%nat /\ ~ In k used.
Proof.
  unfold unused. rewrite filter_In, in_seq.
  rewrite <- mem_in. destruct (mem k used); simpl; split; intros [A B]; split; try lia; try tauto; discriminate.
Qed.

Lemma unused_snoc used n : (forall k, In k used -> (k < n)%nat) ->
  unused used (S n) = unused used n ++ [n].
Proof.
  intros H. unfold unused. rewrite seq_S, filter_snoc. simpl.
  destruct (mem n used) eqn:E; [|reflexivity]. apply mem_in in E. apply H in E. lia.
Qed.

Lemma unused_cons k used n : unused (k :: used) n = filter (fun j => negb (Nat.eqb j k)) (unused used n).
Proof.
  unfold unused. induction (seq 0 n) as [|j l IH]; [reflexivity|].
  cbn [filter]. unfold mem at 1. cbn [existsb]. fold (mem j used).
  destruct (Nat.eqb j k) eqn:E1; destruct (mem j used) eqn:E2; cbn [negb orb filter];
    rewrite ?E1; cbn [negb]; rewrite IH; reflexivity.
Qed.

Lemma nodup_unused used n : NoDup (unused used n).
Proof. unfold unused. apply NoDup_filter. apply seq_NoDup. Qed.

Section Take.
  Context {X : Type} (cells : X -> list (Z * obj)).
  Definition all_cells (fp : list (nat * X)) : list (Z * obj) := flat_map (fun kx => cells (snd kx)) fp.
  Definition drop_key (k : nat) (fp : list (nat * X)) := filter (fun kx => negb (Nat.eqb (fst kx) k)) fp.

  Lemma drop_key_fst k fp : map fst (drop_key k fp) = filter (fun j => negb (Nat.eqb j k)) (map fst fp).
  Proof.
    unfold drop_key. induction fp as [|(j & x) fp IH]; [reflexivity|].
    cbn [filter map fst]. destruct (Nat.eqb j k); cbn [negb map fst]; rewrite IH; reflexivity.
  Qed.

  Lemma drop_key_notin k fp : ~ In k (map fst fp) -> drop_key k fp = fp.
  Proof.
    unfold drop_key. induction fp as [|(j & x) fp IH]; [reflexivity|].
    cbn [map fst filter In]. intros H. destruct (Nat.eqb_spec j k); [exfalso; apply H; left; assumption|].
    cbn [negb]. rewrite IH by tauto. reflexivity.
  Qed.

  Lemma take_perm k fp x : NoDup (map fst fp) -> In (k, x) fp ->
    Permutation (all_cells fp) (cells x ++ all_cells (drop_key k fp)).
  Proof.
    induction fp as [|(j & y) fp IH]; [intros _ []|].
    cbn [map fst]. intros Hnd Hin. inversion Hnd as [|? ? Hn Hnd']; subst.
    destruct Hin as [Heq|Hin].
    - injection Heq as -> ->. unfold drop_key. cbn [filter fst]. rewrite Nat.eqb_refl. cbn [negb].
      fold (drop_key k fp). rewrite drop_key_notin by exact Hn. apply Permutation_refl.
    - assert (Hne : j <> k).
      { intros ->. apply Hn. change k with (fst (k, x)). apply in_map. exact Hin. }
      unfold drop_key. cbn [filter fst]. destruct (Nat.eqb_spec j k); [congruence|]. cbn [negb].
      fold (drop_key k fp). unfold all_cells. cbn [flat_map snd]. fold (all_cells fp) (all_cells (drop_key k fp)).
      eapply Permutation_trans; [apply Permutation_app_head; apply IH; assumption|].
      apply Permutation_app_swap_app.
  Qed.

  Lemma in_drop_key k fp kx : In kx (drop_key k fp) -> In kx fp.
  Proof. unfold drop_key. intros H. apply filter_In in H. tauto. Qed.
End Take.

Definition in_range (n : nat) (k : option nat) : Prop :=
  match k with Some k => (k < n)%nat | None => True end.

Record ghost := mkGhost { gh_u : option nat; gh_a : list (option nat); gh_e : list (option nat);
  gh_o : list (option nat); gh_s : list (option nat) }.

Definition gh_step (x : ghost) (o : cop) : ghost :=
  match o with
  | CSetLocal k => mkGhost k (gh_a x) (gh_e x) (gh_o x) (gh_s x)
  | CAddAveraged k => mkGhost (gh_u x) (gh_a x ++ [k]) (gh_e x) (gh_o x) (gh_s x)
  | CAddSpinOrbit k => mkGhost (gh_u x) (gh_a x) (gh_e x ++ [k]) (gh_o x) (gh_s x)
  | CAddOutercore k k' => mkGhost (gh_u x) (gh_a x) (gh_e x) (gh_o x ++ [k]) (gh_s x ++ [k'])
  | _ => x
  end.

Lemma gh_fold ops : forall x, fold_left gh_step ops x =
  mkGhost (last_local ops (gh_u x)) (gh_a x ++ averaged_of ops) (gh_e x ++ spin_orbit_of ops)
    (gh_o x ++ oc_pots_of ops) (gh_s x ++ oc_shells_of ops).
Proof.
  induction ops as [|o ops IH]; intros x.
  - cbn. rewrite !app_nil_r. destruct x; reflexivity.
  - cbn [fold_left]. rewrite IH. destruct o; cbn; rewrite <- ?app_assoc; reflexivity.
Qed.

(** container contents [g] match the ghost record, all indices exist *)
Record matches (s : cst) (g : grpp_rep) (x : ghost) : Prop := {
  mt_u : optr (gr_ul g) = pick (c_pots s) (gh_u x);
  mt_a : map optr (gr_a g) = map (pick (c_pots s)) (gh_a x);
  mt_e : map optr (gr_e g) = map (pick (c_pots s)) (gh_e x);
  mt_o : map optr (gr_o g) = map (pick (c_pots s)) (gh_o x);
  mt_s : map sptr (gr_s g) = map (pick (c_shells s)) (gh_s x);
  mt_ur : in_range (length (c_pots s)) (gh_u x);
  mt_ar : forall k, In k (gh_a x) -> in_range (length (c_pots s)) k;
  mt_er : forall k, In k (gh_e x) -> in_range (length (c_pots s)) k;
  mt_or : forall k, In k (gh_o x) -> in_range (length (c_pots s)) k;
  mt_sr : forall k, In k (gh_s x) -> in_range (length (c_shells s)) k }.

Lemma pick_app l x k : in_range (length l) k -> pick (l ++ [x]) k = pick l k.
Proof. destruct k as [k|]; cbn; [|reflexivity]. intros H. apply app_nth1. exact H. Qed.

Lemma map_pick_app l x ks : (forall k, In k ks -> in_range (length l) k) ->
  map (pick (l ++ [x])) ks = map (pick l) ks.
Proof. intros H. apply map_ext_in. intros k Hk. apply pick_app. auto. Qed.

Lemma in_range_snoc {A} (l : list A) x k : in_range (length l) k -> in_range (length (l ++ [x])) k.
Proof. destruct k as [k|]; cbn; [|tauto]. rewrite app_length. cbn [length]. intros; lia. Qed.

Lemma matches_pots h h' l sh g x p : matches (mkCst h l sh) g x -> matches (mkCst h' (l ++ [p]) sh) g x.
Proof.
  intros [A B C D E F G H I J]. cbn [c_pots c_shells] in *.
  constructor; cbn [c_pots c_shells]; rewrite ?map_pick_app, ?pick_app; try assumption;
    intros; eauto using in_range_snoc.
Qed.

Lemma matches_shells h h' l sh g x p : matches (mkCst h l sh) g x -> matches (mkCst h' l (sh ++ [p])) g x.
Proof.
  intros [A B C D E F G H I J]. cbn [c_pots c_shells] in *.
  constructor; cbn [c_pots c_shells]; rewrite ?map_pick_app, ?pick_app; try assumption;
    intros; eauto using in_range_snoc.
Qed.

Lemma matches_heap h h' l sh g x : matches (mkCst h l sh) g x -> matches (mkCst h' l sh) g x.
Proof. intros [A B C D E F G H I J]. constructor; assumption. Qed.

Lemma in_snoc_range n (l : list (option nat)) k : (forall j, In j l -> in_range n j) -> in_range n k ->
  forall j, In j (l ++ [k]) -> in_range n j.
Proof. intros H Hk j Hj. apply in_app_or in Hj. destruct Hj as [Hj|[<-|[]]]; auto. Qed.

Lemma ok_in_range n (l : list nat) k :
  match k with Some k => (k < n)%nat /\ ~ In k l | None => True end -> in_range n k.
Proof. destruct k; cbn; tauto. Qed.

Record cinv (h0 : heap) (g0 : ptr) (s : cst) (up us : list nat) (c : counts)
            (g : grpp_rep) (fp : list (nat * pot_rep)) (fs : list (nat * shell_rep)) : Prop := {
  ci_rep : rep h0 (c_heap s) (grpp_cells g ++ all_cells pot_cells fp ++ all_cells shell_cells fs);
  ci_g : gr_ptr g = g0;
  ci_ok : grpp_ok g;
  ci_a : length (gr_a g) = n_a c;
  ci_e : length (gr_e g) = n_e c;
  ci_o : length (gr_o g) = n_o c;
  ci_up : forall k, In k up -> (k < length (c_pots s))%nat;
  ci_us : forall k, In k us -> (k < length (c_shells s))%nat;
  ci_fp : map fst fp = unused up (length (c_pots s));
  ci_fs : map fst fs = unused us (length (c_shells s));
  ci_pp : forall k x, In (k, x) fp -> nth k (c_pots s) 0 = pr_ptr x;
  ci_ps : forall k x, In (k, x) fs -> nth k (c_shells s) 0 = sr_ptr x }.

Definition opt_take {X} (k : option nat) (fp : list (nat * X)) : list (nat * X) :=
  match k with Some k => drop_key k fp | None => fp end.

Lemma take_pot (l : list ptr) up fp k :
  map fst fp = unused up (length l) ->
  (forall j x, In (j, x) fp -> nth j l 0 = pr_ptr x) ->
  match k with Some k => (k < length l)%nat /\ ~ In k up | None => True end ->
  exists o, pick l k = optr o /\
    Permutation (all_cells pot_cells fp) (ocells o ++ all_cells pot_cells (opt_take k fp)) /\
    map fst (opt_take k fp) = unused (opt_list k ++ up) (length l) /\
    (forall j x, In (j, x) (opt_take k fp) -> nth j l 0 = pr_ptr x).
Proof.
  intros Hf Hp Hk. destruct k as [k|].
  - assert (Hin : In k (map fst fp)) by (rewrite Hf; apply in_unused; exact Hk).
    apply in_map_iff in Hin. destruct Hin as ((k' & x) & Hk' & Hin). cbn in Hk'. subst k'.
    exists (Some x). cbn [pick optr ocells opt_take opt_list app].
    split; [apply Hp; exact Hin|]. split.
    + apply take_perm; [rewrite Hf; apply nodup_unused|exact Hin].
    + split; [rewrite drop_key_fst, Hf, unused_cons; reflexivity|].
      intros j y Hj. apply Hp. eapply in_drop_key. exact Hj.
  - exists None. cbn. split; [reflexivity|]. split; [apply Permutation_refl|]. tauto.
Qed.

Lemma take_shell (l : list ptr) us fs k :
  map fst fs = unused us (length l) ->
  (forall j x, In (j, x) fs -> nth j l 0 = sr_ptr x) ->
  match k with Some k => (k < length l)%nat /\ ~ In k us | None => True end ->
  exists o, pick l k = sptr o /\
    Permutation (all_cells shell_cells fs) (scells o ++ all_cells shell_cells (opt_take k fs)) /\
    map fst (opt_take k fs) = unused (opt_list k ++ us) (length l) /\
    (forall j x, In (j, x) (opt_take k fs) -> nth j l 0 = sr_ptr x).
Proof.
  intros Hf Hp Hk. destruct k as [k|].
  - assert (Hin : In k (map fst fs)) by (rewrite Hf; apply in_unused; exact Hk).
    apply in_map_iff in Hin. destruct Hin as ((k' & x) & Hk' & Hin). cbn in Hk'. subst k'.
    exists (Some x). cbn [pick sptr scells opt_take opt_list app].
    split; [apply Hp; exact Hin|]. split.
    + apply take_perm; [rewrite Hf; apply nodup_unused|exact Hin].
    + split; [rewrite drop_key_fst, Hf, unused_cons; reflexivity|].
      intros j y Hj. apply Hp. eapply in_drop_key. exact Hj.
  - exists None. cbn. split; [reflexivity|]. split; [apply Permutation_refl|]. tauto.
Qed.

Lemma in_opt_app k l (n : nat) : (forall j, In j l -> (j < n)%nat) ->
  match k with Some k => (k < n)%nat /\ ~ In k l | None => True end ->
  forall j, In j (opt_list k ++ l) -> (j < n)%nat.
Proof.
  intros H Hk j Hj. destruct k as [k|]; cbn in Hj; [|auto].
  destruct Hj as [<-|Hj]; [tauto|auto].
Qed.

Lemma all_cells_snoc {X} (cells : X -> list (Z * obj)) fp k x :
  all_cells cells (fp ++ [(k, x)]) = all_cells cells fp ++ cells x.
Proof. unfold all_cells. rewrite flat_map_snoc. reflexivity. Qed.

Lemma nth_app_old {A} (l : list A) x d j : (j < length l)%nat -> nth j (l ++ [x]) d = nth j l d.
Proof. intros H. apply app_nth1. exact H. Qed.

Lemma nth_app_new {A} (l : list A) x d : nth (length l) (l ++ [x]) d = x.
Proof. rewrite app_nth2 by lia. rewrite Nat.sub_diag. reflexivity. Qed.

Lemma crun_inv h0 g0 ops : heap_wf h0 -> forall s up us c g fp fs x,
  cinv h0 g0 s up us c g fp fs -> matches s g x ->
  legal (length (c_pots s)) (length (c_shells s)) up us c ops ->
  exists s' c' g' fp' fs', crun g0 s ops = Ok s' /\
    cinv h0 g0 s' (rev (flat_map op_pots ops) ++ up) (rev (flat_map op_shells ops) ++ us) c' g' fp' fs' /\
    matches s' g' (fold_left gh_step ops x).
Proof.
  intros W0. induction ops as [|o ops IH]; intros s up us c g fp fs gh I Hmt Hl.
  - exists s, c, g, fp, fs. split; [reflexivity|]. split; [exact I|exact Hmt].
  - destruct I as [Hr Hg Hok Ha He Ho Hup Hus Hfp Hfs Hpp Hps].
    assert (Hrev : forall (A B C : list nat), rev (A ++ B) ++ C = rev B ++ (rev A ++ C)).
    { intros. rewrite rev_app_distr, app_assoc. reflexivity. }
    assert (Hro : forall k : option nat, rev (opt_list k) = opt_list k) by (intros [k|]; reflexivity).
    cbn [crun flat_map fold_left]. rewrite !Hrev.
    destruct Hok as (Ok1 & Ok2 & Ok3 & Ok4).
    destruct o as [L J lp lc la|ord origin L lc la|k|k|k|k k']; cbn [legal] in Hl; cbn [cstep op_pots op_shells].
    + destruct Hl as (H1 & H2 & Hl).
      destruct (client_new_pot_rep h0 _ _ L J lp lc la W0 Hr H1 H2) as (h' & x & E & R1 & _).
      rewrite E, !bind_ok.
      apply (IH _ up us c g (fp ++ [(length (c_pots s), x)]) fs gh).
      * constructor; cbn [c_heap c_pots c_shells]; try assumption.
        -- eapply rep_perm; [|exact R1]. rewrite all_cells_snoc. permx.
        -- repeat split; assumption.
        -- intros k Hk. rewrite app_length. apply Hup in Hk. lia.
        -- rewrite map_app, app_length. cbn [map fst length]. rewrite Nat.add_1_r, unused_snoc by exact Hup.
           rewrite Hfp. reflexivity.
        -- intros k y Hk. apply in_app_or in Hk. destruct Hk as [Hk|[Hk|[]]].
           ++ rewrite nth_app_old; [apply Hpp; exact Hk|].
              assert (Hin : In k (map fst fp)) by (change k with (fst (k, y)); apply in_map; exact Hk).
              rewrite Hfp in Hin. apply in_unused in Hin. tauto.
           ++ injection Hk as <- <-. apply nth_app_new.
      * destruct s. cbn [c_pots c_shells c_heap] in *. first [eapply matches_pots; exact Hmt | eapply matches_shells; exact Hmt].
      * cbn [c_pots c_shells]. rewrite app_length. cbn [length]. rewrite Nat.add_1_r. exact Hl.
    + destruct Hl as (H1 & H2 & Hl).
      destruct (client_new_shell_rep h0 _ _ ord origin L lc la W0 Hr H1 H2) as (h' & x & E & R1 & _).
      rewrite E, !bind_ok.
      apply (IH _ up us c g fp (fs ++ [(length (c_shells s), x)]) gh).
      * constructor; cbn [c_heap c_pots c_shells]; try assumption.
        -- eapply rep_perm; [|exact R1]. rewrite all_cells_snoc. permx.
        -- repeat split; assumption.
        -- intros k Hk. rewrite app_length. apply Hus in Hk. lia.
        -- rewrite map_app, app_length. cbn [map fst length]. rewrite Nat.add_1_r, unused_snoc by exact Hus.
           rewrite Hfs. reflexivity.
        -- intros k y Hk. apply in_app_or in Hk. destruct Hk as [Hk|[Hk|[]]].
           ++ rewrite nth_app_old; [apply Hps; exact Hk|].
              assert (Hin : In k (map fst fs)) by (change k with (fst (k, y)); apply in_map; exact Hk).
              rewrite Hfs in Hin. apply in_unused in Hin. tauto.
           ++ injection Hk as <- <-. apply nth_app_new.
      * destruct s. cbn [c_pots c_shells c_heap] in *. first [eapply matches_pots; exact Hmt | eapply matches_shells; exact Hmt].
      * cbn [c_pots c_shells]. rewrite app_length. cbn [length]. rewrite Nat.add_1_r. exact Hl.
    + destruct Hl as (Hk & Hl).
      destruct (take_pot _ _ _ _ Hfp Hpp Hk) as (x & Ex & Px & Fx & Nx).
      rewrite Ex. rewrite <- Hg.
      destruct (set_local_rep h0 (c_heap s) g x
        (all_cells pot_cells (opt_take k fp) ++ all_cells shell_cells fs)) as (h' & E & R1).
      { eapply rep_perm; [|exact Hr]. permx_norm. apply Permutation_app_head. rewrite app_assoc.
        apply Permutation_app_tail. exact Px. }
      rewrite E, !bind_ok, Hg, Hro.
      destruct Hmt as [M1 M2 M3 M4 M5 M6 M7 M8 M9 M10].
      assert (Hmt' : matches (mkCst h' (c_pots s) (c_shells s)) (mkGrppRep (gr_ptr g) (gr_ua g) (gr_ue g) (gr_uo g) (gr_us g) x (gr_a g) (gr_e g) (gr_o g) (gr_s g)) (gh_step gh (CSetLocal k))).
      { pose proof (ok_in_range _ _ _ Hk). constructor; cbn; rewrite ?map_app; cbn [map]; try congruence; try assumption; apply in_snoc_range; assumption. }
      eapply (IH _ (opt_list k ++ up) us c _ (opt_take k fp) fs _); [|eassumption|exact Hl].
      constructor; cbn [c_heap c_pots c_shells n_a n_e n_o]; try assumption; try reflexivity;
        try (apply in_opt_app; assumption);
        unfold grpp_ok, with_a, with_e, with_oc; cbn [gr_ptr gr_a gr_e gr_o gr_s]; rewrite ?app_length;
        cbn [length]; solve [assumption | repeat split; lia].
    + destruct Hl as (Hk & Hc & Hl).
      destruct (take_pot _ _ _ _ Hfp Hpp Hk) as (x & Ex & Px & Fx & Nx).
      rewrite Ex. rewrite <- Hg.
      destruct (add_averaged_rep h0 (c_heap s) g x
        (all_cells pot_cells (opt_take k fp) ++ all_cells shell_cells fs) W0) as (h' & ua & E & R1).
      { eapply rep_perm; [|exact Hr]. permx_norm. apply Permutation_app_head. rewrite app_assoc.
        apply Permutation_app_tail. exact Px. }
      { lia. }
      rewrite E, !bind_ok, Hg, Hro.
      destruct Hmt as [M1 M2 M3 M4 M5 M6 M7 M8 M9 M10].
      assert (Hmt' : matches (mkCst h' (c_pots s) (c_shells s)) (with_a g ua (gr_a g ++ [x])) (gh_step gh (CAddAveraged k))).
      { pose proof (ok_in_range _ _ _ Hk). constructor; cbn; rewrite ?map_app; cbn [map]; try congruence; try assumption; apply in_snoc_range; assumption. }
      eapply (IH _ (opt_list k ++ up) us _ _ (opt_take k fp) fs _); [|eassumption|exact Hl].
      constructor; cbn [c_heap c_pots c_shells n_a n_e n_o]; try assumption; try reflexivity;
        try (apply in_opt_app; assumption);
        unfold grpp_ok, with_a, with_e, with_oc; cbn [gr_ptr gr_a gr_e gr_o gr_s]; rewrite ?app_length;
        cbn [length]; solve [assumption | repeat split; lia].
    + destruct Hl as (Hk & Hc & Hl).
      destruct (take_pot _ _ _ _ Hfp Hpp Hk) as (x & Ex & Px & Fx & Nx).
      rewrite Ex. rewrite <- Hg.
      destruct (add_spin_orbit_rep h0 (c_heap s) g x
        (all_cells pot_cells (opt_take k fp) ++ all_cells shell_cells fs) W0) as (h' & ua & E & R1).
      { eapply rep_perm; [|exact Hr]. permx_norm. apply Permutation_app_head. rewrite app_assoc.
        apply Permutation_app_tail. exact Px. }
      { lia. }
      rewrite E, !bind_ok, Hg, Hro.
      destruct Hmt as [M1 M2 M3 M4 M5 M6 M7 M8 M9 M10].
      assert (Hmt' : matches (mkCst h' (c_pots s) (c_shells s)) (with_e g ua (gr_e g ++ [x])) (gh_step gh (CAddSpinOrbit k))).
      { pose proof (ok_in_range _ _ _ Hk). constructor; cbn; rewrite ?map_app; cbn [map]; try congruence; try assumption; apply in_snoc_range; assumption. }
      eapply (IH _ (opt_list k ++ up) us _ _ (opt_take k fp) fs _); [|eassumption|exact Hl].
      constructor; cbn [c_heap c_pots c_shells n_a n_e n_o]; try assumption; try reflexivity;
        try (apply in_opt_app; assumption);
        unfold grpp_ok, with_a, with_e, with_oc; cbn [gr_ptr gr_a gr_e gr_o gr_s]; rewrite ?app_length;
        cbn [length]; solve [assumption | repeat split; lia].
    + destruct Hl as (Hk & Hk' & Hc & Hl).
      destruct (take_pot _ _ _ _ Hfp Hpp Hk) as (x & Ex & Px & Fx & Nx).
      destruct (take_shell _ _ _ _ Hfs Hps Hk') as (y & Ey & Py & Fy & Ny).
      rewrite Ex, Ey. rewrite <- Hg.
      destruct (add_outercore_rep h0 (c_heap s) g x y
        (all_cells pot_cells (opt_take k fp) ++ all_cells shell_cells (opt_take k' fs)) W0 Ok4)
        as (h' & uo & u' & E & R1).
      { eapply rep_perm; [|exact Hr]. permx_norm. apply Permutation_app_head.
        eapply Permutation_trans; [apply Permutation_app; [exact Px|exact Py]|]. permx. }
      { lia. }
      rewrite E, !bind_ok, Hg, !Hro.
      destruct Hmt as [M1 M2 M3 M4 M5 M6 M7 M8 M9 M10].
      assert (Hmt' : matches (mkCst h' (c_pots s) (c_shells s)) (with_oc g uo u' (gr_o g ++ [x]) (gr_s g ++ [y])) (gh_step gh (CAddOutercore k k'))).
      { pose proof (ok_in_range _ _ _ Hk). pose proof (ok_in_range _ _ _ Hk'). constructor; cbn; rewrite ?map_app; cbn [map]; try congruence; try assumption; apply in_snoc_range; assumption. }
      eapply (IH _ (opt_list k ++ up) (opt_list k' ++ us) _ _ (opt_take k fp) (opt_take k' fs) _); [|eassumption|exact Hl].
      constructor; cbn [c_heap c_pots c_shells n_a n_e n_o]; try assumption; try reflexivity;
        try (apply in_opt_app; assumption);
        unfold grpp_ok, with_a, with_e, with_oc; cbn [gr_ptr gr_a gr_e gr_o gr_s]; rewrite ?app_length;
        cbn [length]; solve [assumption | repeat split; lia].
Qed.

Lemma unused_ext u1 u2 n : (forall k, In k u1 <-> In k u2) -> unused u1 n = unused u2 n.
Proof.
  intros H. unfold unused. apply filter_ext. intros k.
  f_equal. destruct (mem k u1) eqn:E1; destruct (mem k u2) eqn:E2; try reflexivity;
    rewrite <- ?not_true_iff_false in *; rewrite mem_in in *; firstorder.
Qed.

Lemma delete_all_pots h0 (l : list ptr) (fp : list (nat * pot_rep)) : forall h cs,
  (forall k x, In (k, x) fp -> nth k l 0 = pr_ptr x) ->
  rep h0 h (all_cells pot_cells fp ++ cs) ->
  exists h', delete_all delete_potential h (map (fun k => nth k l 0) (map fst fp)) = Ok h' /\ rep h0 h' cs.
Proof.
  induction fp as [|(k & x) fp IH]; intros h cs Hn R0; cbn [map delete_all fst].
  - eauto.
  - unfold all_cells in R0. cbn [flat_map snd] in R0. rewrite <- app_assoc in R0.
    rewrite (Hn k x) by (left; reflexivity).
    destruct (delete_potential_rep _ _ _ _ R0) as (h1 & E1 & R1 & _). rewrite E1, bind_ok.
    apply IH; [|exact R1]. intros j y Hj. apply Hn. right. exact Hj.
Qed.

Lemma delete_all_shells h0 (l : list ptr) (fp : list (nat * shell_rep)) : forall h cs,
  (forall k x, In (k, x) fp -> nth k l 0 = sr_ptr x) ->
  rep h0 h (all_cells shell_cells fp ++ cs) ->
  exists h', delete_all delete_shell h (map (fun k => nth k l 0) (map fst fp)) = Ok h' /\ rep h0 h' cs.
Proof.
  induction fp as [|(k & x) fp IH]; intros h cs Hn R0; cbn [map delete_all fst].
  - eauto.
  - unfold all_cells in R0. cbn [flat_map snd] in R0. rewrite <- app_assoc in R0.
    rewrite (Hn k x) by (left; reflexivity).
    destruct (delete_shell_rep _ _ _ _ R0) as (h1 & E1 & R1 & _). rewrite E1, bind_ok.
    apply IH; [|exact R1]. intros j y Hj. apply Hn. right. exact Hj.
Qed.

Lemma client_program_safe h ops : heap_wf h ->
  legal 0 0 [] [] (mkCounts 0 0 0) ops ->
  exists h', client_program h ops = Ok h' /\ forall p, hblk h' p = hblk h p.
Proof.
  intros W0 Hl. unfold client_program.
  destruct (new_grpp h) as [g0 h1] eqn:Eg.
  pose proof (new_grpp_rep h h [] g0 h1 W0 (rep_start h W0) Eg) as R1.
  destruct (crun_inv h g0 ops W0 (mkCst h1 [] []) [] [] (mkCounts 0 0 0)
    (mkGrppRep g0 0 0 0 0 None [] [] [] []) [] [] (mkGhost None [] [] [] []))
    as (s & c & g & fp & fs & E & I & _).
  - constructor; cbn; try reflexivity; try tauto.
    repeat split; cbn; lia.
  - constructor; cbn; tauto.
  - exact Hl.
  - rewrite E, bind_ok. destruct I as [Hr Hg Hok Ha He Ho Hup Hus Hfp Hfs Hpp Hps].
    rewrite <- Hg. destruct (delete_grpp_rep _ _ _ _ Hr Hok) as (h2 & E2 & R2).
    rewrite E2, bind_ok. unfold leftovers.
    fold (unused (flat_map op_pots ops) (length (c_pots s))).
    fold (unused (flat_map op_shells ops) (length (c_shells s))).
    rewrite (unused_ext _ (flat_map op_pots ops)) in Hfp
      by (intros k; rewrite app_nil_r; symmetry; apply in_rev).
    rewrite (unused_ext _ (flat_map op_shells ops)) in Hfs
      by (intros k; rewrite app_nil_r; symmetry; apply in_rev).
    rewrite <- Hfp, <- Hfs.
    destruct (delete_all_pots _ _ _ _ _ Hpp R2) as (h3 & E3 & R3). rewrite E3, bind_ok.
    rewrite <- (app_nil_r (all_cells shell_cells fs)) in R3.
    destruct (delete_all_shells _ _ _ _ _ Hps R3) as (h4 & E4 & R4).
    exists h4. split; [exact E4|]. apply rep_end. exact R4.
Qed.
