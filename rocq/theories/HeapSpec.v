(** * Observational specification of shells and potentials, and the packaged
      lemmas for C06-C11. *)

From Coq Require Import ZArith List Lia Bool Reals Lra Permutation.
From Verif Require Import Base CartModel CartProofs HeapModel HeapProofs HeapShrink HeapGrpp HeapClient.
Import ListNotations.
Open Scope Z_scope.

(** ** What a client sees of a shell *)
Record sview := mkSview {
  v_L : Z; v_size : Z; v_origin : R * R * R;
  v_list : list Z;                 (* the integers of the component list *)
  v_prims : list (R * R) }.        (* (coefficient, exponent) pairs in order *)

(** at address p there is an intact shell object with contents v *)
Definition shell_at (h : heap) (p : ptr) (v : sview) : Prop :=
  exists s lc la,
    hblk h p = Some (OShell s) /\
    hblk h (sh_cart_list s) = Some (OInts (v_list v)) /\
    hblk h (sh_coeffs s) = Some (ODbls lc) /\
    hblk h (sh_alpha s) = Some (ODbls la) /\
    NoDup [p; sh_cart_list s; sh_coeffs s; sh_alpha s] /\
    0 <= sh_num s <= Z.of_nat (length lc) /\ sh_num s <= Z.of_nat (length la) /\
    v_L v = sh_L s /\ v_size v = sh_cart_size s /\ v_origin v = sh_origin s /\
    v_prims v = combine (firstn (Z.to_nat (sh_num s)) lc) (firstn (Z.to_nat (sh_num s)) la).

(** ** What a client sees of a potential *)
Record pview := mkPview { pv_L : Z; pv_J : Z; pv_prims : list prim }.

Definition pot_at (h : heap) (p : ptr) (v : pview) : Prop :=
  exists x lp lc la,
    hblk h p = Some (OPot x) /\
    arrays_hold h (pot_powers x) (pot_coeffs x) (pot_alpha x) lp lc la /\
    NoDup [p; pot_powers x; pot_coeffs x; pot_alpha x] /\
    0 <= pot_num x <= Z.of_nat (length lp) /\
    pot_num x <= Z.of_nat (length lc) /\ pot_num x <= Z.of_nat (length la) /\
    pv_L v = pot_L x /\ pv_J v = pot_J x /\
    pv_prims v = firstn (Z.to_nat (pot_num x)) (zip3 lp lc la).

(** ** Arbitrary later activity of the caller *)
Inductive wr := WStore (p : ptr) (o : obj) | WFree (p : ptr) | WAlloc (o : obj).

Definition wr_step (h : heap) (w : wr) : res heap :=
  match w with
  | WStore p o => hstore h p o
  | WFree p => hfree h p
  | WAlloc o => Ok (snd (halloc h o))
  end.

Fixpoint wr_run (h : heap) (ws : list wr) : res heap :=
  match ws with [] => Ok h | w :: ws' => let* h := wr_step h w in wr_run h ws' end.

(** the activity only touches blocks that satisfy P *)
Definition wr_target (P : ptr -> Prop) (w : wr) : Prop :=
  match w with WStore p _ | WFree p => P p | WAlloc _ => True end.

(** blocks owned by the caller: live in h, or allocated after h' *)
Definition callers (h h' : heap) (p : ptr) : Prop := hblk h p <> None \/ hnext h' <= p.

Lemma wr_step_frame h w h' (P : ptr -> Prop) : heap_wf h -> wr_step h w = Ok h' -> wr_target P w ->
  heap_wf h' /\ hnext h <= hnext h' /\
  forall q, ~ P q -> q < hnext h -> hblk h' q = hblk h q.
Proof.
  intros [W1 W2] E T. destruct w as [p o|p|o]; cbn in E, T.
  - unfold hstore in E. destruct (Z.eqb_spec p 0); [discriminate|].
    destruct (hblk h p) eqn:X; [|discriminate]. injection E as <-. cbn [hnext hblk].
    split; [|split; [lia|]].
    + split; cbn [hnext hblk]; [exact W1|]. intros q o'. destruct (Z.eqb_spec q p) as [->|]; [|apply W2].
      intros _. exact (W2 _ _ X).
    + intros q Hq _. destruct (Z.eqb_spec q p) as [->|]; [tauto|reflexivity].
  - unfold hfree in E. destruct (Z.eqb_spec p 0).
    + injection E as <-. split; [split; assumption|]. split; [lia|reflexivity].
    + destruct (hblk h p) eqn:X; [|discriminate]. injection E as <-. cbn [hnext hblk].
      split; [|split; [lia|]].
      * split; cbn [hnext hblk]; [exact W1|]. intros q o'. destruct (Z.eqb_spec q p) as [->|]; [discriminate|apply W2].
      * intros q Hq _. destruct (Z.eqb_spec q p) as [->|]; [tauto|reflexivity].
  - unfold halloc in E. cbn in E. injection E as <-. cbn [hnext hblk].
    split; [|split; [lia|]].
    + split; cbn [hnext hblk]; [lia|]. intros q o'. destruct (Z.eqb_spec q (hnext h)) as [->|]; [lia|].
      intros Hq. apply W2 in Hq. lia.
    + intros q _ Hq. destruct (Z.eqb_spec q (hnext h)); [lia|reflexivity].
Qed.

Lemma wr_run_frame (P : ptr -> Prop) ws : forall h h', heap_wf h -> wr_run h ws = Ok h' ->
  Forall (wr_target P) ws ->
  heap_wf h' /\ forall q, ~ P q -> q < hnext h -> hblk h' q = hblk h q.
Proof.
  induction ws as [|w ws IH]; intros h h' W E F.
  - cbn in E. injection E as <-. split; [exact W|]. reflexivity.
  - cbn [wr_run] in E. destruct (wr_step h w) as [h1|] eqn:E1; [|discriminate]. rewrite bind_ok in E.
    inversion F; subst.
    destruct (wr_step_frame _ _ _ P W E1) as (W1 & N1 & F1); [assumption|].
    destruct (IH _ _ W1 E) as (W2 & F2); [assumption|].
    split; [exact W2|]. intros q Hq Hlt. rewrite F2 by (try assumption; lia). apply F1; assumption.
Qed.

(** ** From the specification to cell lists and back *)
Definition hminus (h : heap) (ps : list ptr) : heap :=
  mkHeap (hnext h) (fun q => if existsb (Z.eqb q) ps then None else hblk h q).

Lemma existsb_in q ps : existsb (Z.eqb q) ps = true <-> In q ps.
Proof.
  rewrite existsb_exists. split.
  - intros (x & Hx & E). apply Z.eqb_eq in E. congruence.
  - intros H. exists q. split; [exact H|apply Z.eqb_refl].
Qed.

Lemma hminus_wf h ps : heap_wf h -> heap_wf (hminus h ps).
Proof.
  intros [W1 W2]. split; cbn; [exact W1|]. intros p o. destruct (existsb (Z.eqb p) ps); [discriminate|apply W2].
Qed.

Lemma rep_intro h cs : heap_wf h -> NoDup (map fst cs) ->
  (forall p o, In (p, o) cs -> hblk h p = Some o) ->
  rep (hminus h (map fst cs)) h cs.
Proof.
  intros W Hnd Hc. split; [exact W|]. split; [cbn; lia|]. split; [exact Hnd|]. split.
  - intros p o Hin. split; [apply Hc; exact Hin|]. cbn.
    assert (X : existsb (Z.eqb p) (map fst cs) = true).
    { apply existsb_in. change p with (fst (p, o)). apply in_map. exact Hin. }
    rewrite X. reflexivity.
  - intros p Hn. cbn. destruct (existsb (Z.eqb p) (map fst cs)) eqn:E; [|reflexivity].
    apply existsb_in in E. tauto.
Qed.

Lemma rep_hminus_end h h' cs : rep (hminus h (map fst cs)) h' cs ->
  (forall p o, In (p, o) cs -> hblk h p = Some o) -> forall p, hblk h' p = hblk h p.
Proof.
  intros (_ & _ & _ & D & E) Hc p.
  destruct (existsb (Z.eqb p) (map fst cs)) eqn:X.
  - apply existsb_in in X. apply in_map_iff in X. destruct X as ((q & o) & Hq & Hin). cbn in Hq. subst q.
    rewrite (Hc _ _ Hin). apply (D _ _ Hin).
  - rewrite E; [cbn; rewrite X; reflexivity|]. intro Hc'. apply existsb_in in Hc'. congruence.
Qed.

Definition shell_sized (x : shell_rep) : Prop := nprim_ok (sr_n x) (sr_coeffs x) /\ nprim_ok (sr_n x) (sr_alpha x).

Definition sview_of (x : shell_rep) : sview :=
  mkSview (sr_L x) (sr_size x) (sr_origin x) (sr_list x)
    (combine (firstn (Z.to_nat (sr_n x)) (sr_coeffs x)) (firstn (Z.to_nat (sr_n x)) (sr_alpha x))).

Lemma shell_cells_at h x : NoDup (map fst (shell_cells x)) -> shell_sized x ->
  (forall p o, In (p, o) (shell_cells x) -> hblk h p = Some o) -> shell_at h (sr_ptr x) (sview_of x).
Proof.
  intros Hnd [[S1 S2] [_ S3]] Hc. unfold shell_at.
  exists (mkShell (sr_L x) (sr_size x) (sr_cart x) (sr_n x) (sr_pc x) (sr_pa x) (sr_origin x)), (sr_coeffs x), (sr_alpha x).
  cbn [sh_cart_list sh_coeffs sh_alpha sh_num sh_L sh_cart_size sh_origin sview_of v_L v_size v_origin v_list v_prims].
  repeat split; try (apply Hc; unfold shell_cells; simpl; tauto); try lia. exact Hnd.
Qed.

Lemma shell_at_cells h p v : shell_at h p v -> exists x, sr_ptr x = p /\ sview_of x = v /\ shell_sized x /\
  NoDup (map fst (shell_cells x)) /\ (forall q o, In (q, o) (shell_cells x) -> hblk h q = Some o).
Proof.
  intros (s & lc & la & H1 & H2 & H3 & H4 & Hnd & Hn1 & Hn2 & EL & ES & EO & EP).
  destruct v as [vL vs vo vl vp]. cbn in EL, ES, EO, EP, H2. subst.
  destruct s as [L size cart n pc pa origin]. cbn in *.
  exists (mkShellRep p cart pc pa L size n origin vl lc la). cbn.
  split; [reflexivity|]. split; [reflexivity|]. split; [unfold shell_sized, nprim_ok; cbn; lia|].
  split; [exact Hnd|]. intros q o [H|[H|[H|[H|[]]]]]; injection H as <- <-; assumption.
Qed.

Definition pview_of (x : pot_rep) : pview := mkPview (pr_L x) (pr_J x) (pot_prims x).

Lemma pot_cells_at h x : NoDup (map fst (pot_cells x)) -> pot_sized x ->
  (forall p o, In (p, o) (pot_cells x) -> hblk h p = Some o) -> pot_at h (pr_ptr x) (pview_of x).
Proof.
  intros Hnd (S1 & [_ S2] & [_ S3]) Hc. unfold pot_at.
  exists (mkPot (pr_L x) (pr_J x) (pr_n x) (pr_pp x) (pr_pc x) (pr_pa x)), (pr_powers x), (pr_coeffs x), (pr_alpha x).
  cbn [pot_powers pot_coeffs pot_alpha pot_num pot_L pot_J pview_of pv_L pv_J pv_prims]. unfold arrays_hold.
  repeat split; try (apply Hc; unfold pot_cells; simpl; tauto); try lia. exact Hnd.
Qed.

Lemma pot_at_cells h p v : pot_at h p v -> exists x, pr_ptr x = p /\ pview_of x = v /\ pot_sized x /\
  NoDup (map fst (pot_cells x)) /\ (forall q o, In (q, o) (pot_cells x) -> hblk h q = Some o).
Proof.
  intros (s & lp & lc & la & H1 & (H2 & H3 & H4) & Hnd & Hn1 & Hn2 & Hn3 & EL & EJ & EP).
  destruct v as [vL vJ vp]. cbn in EL, EJ, EP. subst.
  destruct s as [L J n pp pc pa]. cbn in *.
  exists (mkPotRep p pp pc pa L J n lp lc la). cbn.
  split; [reflexivity|]. split; [reflexivity|]. split; [unfold pot_sized, nprim_ok; cbn; lia|].
  split; [exact Hnd|]. intros q o [H|[H|[H|[H|[]]]]]; injection H as <- <-; assumption.
Qed.

Lemma nodup_app_l {A} (l1 l2 : list A) : NoDup (l1 ++ l2) -> NoDup l1.
Proof.
  induction l1 as [|a l1 IH]; intros H; [constructor|]. cbn in H. inversion H; subst.
  constructor; [intro Hc; apply H2; apply in_or_app; tauto|auto].
Qed.

Lemma rep_nodup_l h0 h c1 c2 : rep h0 h (c1 ++ c2) -> NoDup (map fst c1).
Proof. intros (_ & _ & H & _). rewrite map_app in H. eapply nodup_app_l. exact H. Qed.

Lemma rep_in_l h0 h c1 c2 p o : rep h0 h (c1 ++ c2) -> In (p, o) c1 -> hblk h p = Some o.
Proof. intros (_ & _ & _ & D & _) H. apply D. apply in_or_app. tauto. Qed.

(** an object whose blocks are not among the targets survives any activity *)
Lemma shell_at_frame h h' x : (forall q o, In (q, o) (shell_cells x) -> hblk h' q = hblk h q) ->
  (forall q o, In (q, o) (shell_cells x) -> hblk h q = Some o) ->
  NoDup (map fst (shell_cells x)) -> shell_sized x -> shell_at h' (sr_ptr x) (sview_of x).
Proof.
  intros H1 H2 H3 H4. apply shell_cells_at; try assumption.
  intros p o Hin. rewrite (H1 _ _ Hin). apply H2. exact Hin.
Qed.

(** ** C06 *)

Definition components_ints (o : cart_order) (L : Z) (l : list Z) : Prop :=
  exists comps, shell_components o L = Ok comps /\ l = flat3 comps.

Lemma combine_firstn {A B} (l1 : list A) (l2 : list B) n :
  combine (firstn n l1) (firstn n l2) = firstn n (combine l1 l2).
Proof. symmetry. apply combine_firstn. Qed.

Lemma new_shell_spec ord h origin L n coeffs alpha lc la :
  heap_wf h -> 0 <= L ->
  hblk h coeffs = Some (ODbls lc) -> hblk h alpha = Some (ODbls la) ->
  0 <= n <= Z.of_nat (length lc) -> n <= Z.of_nat (length la) ->
  exists p h' v, new_shell ord h origin L n coeffs alpha = Ok (p, h') /\
    shell_at h' p v /\ hblk h p = None /\ heap_wf h' /\
    v_L v = L /\ v_size v = n_cart L /\ v_origin v = origin /\ components_ints ord L (v_list v) /\
    v_prims v = firstn (Z.to_nat n) (combine lc la) /\
    (forall q o, hblk h q = Some o -> hblk h' q = Some o) /\
    (forall ws h'', Forall (wr_target (callers h h')) ws -> wr_run h' ws = Ok h'' -> shell_at h'' p v) /\
    (exists h'', delete_shell h' p = Ok h'' /\ forall q, hblk h'' q = hblk h q).
Proof.
  intros W HL Hc Ha Hn Hn2.
  destruct (new_shell_rep ord h h [] origin L n coeffs alpha lc la W (rep_start h W) HL Hc Ha)
    as (h' & x & E & R0 & XL & Xs & Xn & Xo & Xl & Xc & Xa & Xp & Nx); [unfold nprim_ok; lia..|].
  assert (Sz : shell_sized x).
  { unfold shell_sized, nprim_ok. rewrite Xn, Xc, Xa, !firstn_length. lia. }
  assert (Hcells : forall q o, In (q, o) (shell_cells x) -> hblk h' q = Some o)
    by (intros q o Hin; eapply rep_in_l; [exact R0|exact Hin]).
  assert (Hfresh : forall q o, In (q, o) (shell_cells x) -> hblk h q = None).
  { intros q o Hin. destruct R0 as (_ & _ & _ & D & _). apply (D q o). apply in_or_app. tauto. }
  assert (W' : heap_wf h') by (destruct R0; assumption).
  exists (sr_ptr x), h', (sview_of x). split; [exact E|].
  split. { apply shell_cells_at; try assumption. eapply rep_nodup_l. exact R0. }
  split. { eapply Hfresh. left. reflexivity. }
  split; [exact W'|]. cbn. split; [exact XL|]. split; [exact Xs|]. split; [exact Xo|].
  split. { exists (canon L). split; [apply shell_components_canon; exact HL|exact Xl]. }
  split. { rewrite Xn, Xc, Xa, !firstn_firstn, Nat.min_id. apply combine_firstn. }
  split. { intros q o Hq. eapply rep_old; [exact R0|exact Hq]. }
  split.
  - intros ws h'' F Ew. destruct (wr_run_frame _ _ _ _ W' Ew F) as (W'' & Fr).
    apply (shell_at_frame h' h''); try assumption; [|eapply rep_nodup_l; exact R0].
    intros q o Hin. apply Fr.
    + intros [Hq|Hq]; [apply Hq; eapply Hfresh; exact Hin|].
      destruct W' as [_ W']. apply Hcells in Hin. apply W' in Hin. lia.
    + destruct W' as [_ W']. apply Hcells in Hin. apply W' in Hin. lia.
  - destruct (delete_shell_rep _ _ _ _ R0) as (h'' & E'' & R'' & _).
    exists h''. split; [exact E''|]. apply rep_end. exact R''.
Qed.

Lemma deep_copy_spec ord h src v :
  heap_wf h -> shell_at h src v -> 0 <= v_L v ->
  exists p h' v', shell_deep_copy ord h src = Ok (p, h') /\
    shell_at h' p v' /\ p <> src /\ hblk h p = None /\ heap_wf h' /\
    v_L v' = v_L v /\ v_origin v' = v_origin v /\ v_prims v' = v_prims v /\
    v_size v' = n_cart (v_L v) /\ components_ints ord (v_L v) (v_list v') /\
    shell_at h' src v /\
    (forall ws h'', Forall (wr_target (callers h h')) ws -> wr_run h' ws = Ok h'' -> shell_at h'' p v') /\
    (exists h'', delete_shell h' p = Ok h'' /\ forall q, hblk h'' q = hblk h q).
Proof.
  intros W Hat HL. pose proof Hat as (s & lc & la & H1 & H2 & H3 & H4 & Hnd & Hn1 & Hn2 & EL & ES & EO & EP).
  unfold shell_deep_copy, load_shell, hload.
  assert (Hsrc : 0 < src) by (destruct W as [_ W]; apply W in H1; lia).
  destruct (Z.eqb_spec src 0); [lia|]. rewrite H1, !bind_ok.
  rewrite EL in HL.
  destruct (new_shell_spec ord h (sh_origin s) (sh_L s) (sh_num s) (sh_coeffs s) (sh_alpha s) lc la
     W HL H3 H4 Hn1 Hn2) as (p & h' & v' & E & A & F & W' & VL & VS & VO & VC & VP & Old & Wr & Del).
  exists p, h', v'. split; [exact E|]. split; [exact A|].
  split; [congruence|]. split; [exact F|]. split; [exact W'|].
  split; [congruence|]. split; [congruence|]. split; [rewrite VP, EP; symmetry; apply combine_firstn|].
  split; [congruence|]. split; [rewrite EL; exact VC|].
  split.
  { exists s, lc, la. repeat split; try (apply Old; assumption); try assumption; try lia. }
  split; [exact Wr|exact Del].
Qed.

(** ** C07 *)

Definition above_thresh (x : R * R) : bool := if Rlt_dec (/ 10 ^ 14)%R (Rabs (fst x)) then true else false.

Lemma above_keep x : above_thresh x = keep_pair x.
Proof. reflexivity. Qed.

Lemma compacted_firstn {A} (ks l : list A) : firstn (length ks) (compacted ks l) = ks.
Proof. unfold compacted. rewrite firstn_app, Nat.sub_diag, firstn_all. cbn. apply app_nil_r. Qed.

Lemma combine_split_fs {A B} (l : list (A * B)) : combine (map fst l) (map snd l) = l.
Proof. induction l as [|(a & b) l IH]; cbn; congruence. Qed.

Lemma shrink_spec h p v : heap_wf h -> shell_at h p v ->
  exists h', shell_shrink h p = Ok h' /\ heap_wf h' /\
    shell_at h' p (mkSview (v_L v) (v_size v) (v_origin v) (v_list v) (filter above_thresh (v_prims v))) /\
    (forall q s, hblk h p = Some (OShell s) -> q <> p -> q <> sh_coeffs s -> q <> sh_alpha s ->
       hblk h' q = hblk h q).
Proof.
  intros W Hat. destruct (shell_at_cells _ _ _ Hat) as (x & <- & <- & Sz & Hnd & Hc).
  pose proof (rep_intro h _ W Hnd Hc) as R0.
  rewrite <- (app_nil_r (shell_cells x)) in R0 at 2.
  destruct Sz as [S1 S2].
  destruct (shell_shrink_rep _ _ _ _ R0 S1 S2) as (h' & E & N & R1). cbv zeta in R1.
  set (ks := filter keep_pair (firstn (Z.to_nat (sr_n x)) (combine (sr_coeffs x) (sr_alpha x)))) in *.
  exists h'. split; [exact E|]. split; [destruct R1; assumption|]. split.
  - match type of R1 with rep _ _ (shell_cells ?y ++ _) => set (x' := y) in * end.
    assert (Hlen : (length ks <= Z.to_nat (sr_n x))%nat) by (unfold ks; apply filter_firstn_le).
    assert (Hcl : forall (k l : list R), length k = length ks -> sr_n x <= Z.of_nat (length l) ->
              Z.of_nat (length ks) <= Z.of_nat (length (compacted k l))).
    { intros k l Hk Hl. unfold compacted. rewrite app_length, skipn_length. lia. }
    assert (A : shell_at h' (sr_ptr x') (sview_of x')).
    { apply shell_cells_at.
      - eapply rep_nodup_l. exact R1.
      - unfold shell_sized, nprim_ok in *. cbn.
        split; (split; [lia|]); apply Hcl; rewrite ?map_length; try reflexivity; lia.
      - intros q o Hin. eapply rep_in_l; [exact R1|exact Hin]. }
    replace (mkSview _ _ _ _ _) with (sview_of x'); [exact A|].
    unfold sview_of. cbn. f_equal.
    rewrite Nat2Z.id.
    rewrite <- (map_length fst ks) at 1. rewrite compacted_firstn.
    rewrite <- (map_length snd ks). rewrite compacted_firstn.
    rewrite combine_split_fs. unfold ks. rewrite <- combine_firstn. reflexivity.
  - intros q s Hs Q1 Q2 Q3.
    rewrite (Hc (sr_ptr x) _ (or_introl eq_refl)) in Hs. injection Hs as <-. cbn in Q2, Q3.
    destruct R1 as (_ & _ & _ & D & F).
    destruct (Z.eq_dec q (sr_cart x)) as [->|Q4].
    + rewrite (Hc (sr_cart x) (OInts (sr_list x))) by (unfold shell_cells; simpl; tauto).
      apply (D (sr_cart x) (OInts (sr_list x))). unfold shell_cells; simpl; tauto.
    + rewrite F; [|cbn; intros [X|[X|[X|[X|[]]]]]; congruence].
      cbn. destruct (Z.eqb_spec q (sr_ptr x)); [congruence|]. destruct (Z.eqb_spec q (sr_cart x)); [congruence|].
      destruct (Z.eqb_spec q (sr_pc x)); [congruence|]. destruct (Z.eqb_spec q (sr_pa x)); [congruence|].
      reflexivity.
Qed.

Lemma filter_idem {A} (f : A -> bool) l : filter f (filter f l) = filter f l.
Proof.
  induction l as [|a l IH]; cbn; [reflexivity|]. destruct (f a) eqn:E; [|exact IH].
  cbn. rewrite E, IH. reflexivity.
Qed.

Lemma shrink_idempotent h p v h1 h2 : heap_wf h -> shell_at h p v ->
  shell_shrink h p = Ok h1 -> shell_shrink h1 p = Ok h2 ->
  exists v1, shell_at h1 p v1 /\ shell_at h2 p v1.
Proof.
  intros W A E1 E2. destruct (shrink_spec h p v W A) as (h1' & E1' & W1 & A1 & _).
  rewrite E1 in E1'. injection E1' as <-.
  destruct (shrink_spec h1 p _ W1 A1) as (h2' & E2' & _ & A2 & _).
  rewrite E2 in E2'. injection E2' as <-. cbn in A2. rewrite filter_idem in A2.
  eexists; split; eassumption.
Qed.

(** value of the contracted function at a point where the primitive with
    exponent a has the value phi a *)
Lemma shrink_value phi (l : list (R * R)) M :
  (forall c a, In (c, a) l -> (Rabs (phi a) <= M)%R) -> (0 <= M)%R ->
  (Rabs (contr_sum phi l - contr_sum phi (filter above_thresh l))
   <= INR (length l - length (filter above_thresh l)) * (/ 10 ^ 14 * M))%R.
Proof. exact (contr_drop_error phi l M). Qed.

(** ** C08 *)

Definition at_least_thresh (x : prim) : bool := if Rle_dec (/ 10 ^ 14)%R (Rabs (p_coef x)) then true else false.
Definition above_thresh3 (x : prim) : bool := if Rlt_dec (/ 10 ^ 14)%R (Rabs (p_coef x)) then true else false.

Lemma keep_new_spec l : filter keep_new l = filter at_least_thresh l.
Proof.
  apply filter_ext. intros x. unfold keep_new, at_least_thresh, zero_thresh.
  destruct (Rlt_dec _ _); destruct (Rle_dec _ _); try reflexivity; lra.
Qed.

Lemma pot_at_old h h' p v : pot_at h p v -> (forall q o, hblk h q = Some o -> hblk h' q = Some o) -> pot_at h' p v.
Proof.
  intros (x & lp & lc & la & H1 & (H2 & H3 & H4) & H) Old. exists x, lp, lc, la.
  split; [auto|]. split; [unfold arrays_hold; auto|exact H].
Qed.

Lemma new_potential_spec h L J n powers coeffs alpha lp lc la :
  heap_wf h -> arrays_hold h powers coeffs alpha lp lc la ->
  0 <= n <= Z.of_nat (length lp) -> n <= Z.of_nat (length lc) -> n <= Z.of_nat (length la) ->
  exists p h', new_potential h L J n powers coeffs alpha = Ok (p, h') /\ heap_wf h' /\
    pot_at h' p (mkPview L J (filter at_least_thresh (firstn (Z.to_nat n) (zip3 lp lc la)))) /\
    hblk h p = None /\
    (forall q o, hblk h q = Some o -> hblk h' q = Some o) /\
    (exists h'', delete_potential h' p = Ok h'' /\ forall q, hblk h'' q = hblk h q).
Proof.
  intros W A Hn Hc Ha.
  destruct (new_potential_rep h h [] L J n powers coeffs alpha lp lc la W (rep_start h W) A)
    as (h' & x & E & R0 & XL & XJ & Xr); [unfold nprim_ok; lia..|]. cbv zeta in Xr.
  destruct Xr as (Xn & Xp & Xc & Xa & Xptr & Nx).
  set (ks := filter keep_new (firstn (Z.to_nat n) (zip3 lp lc la))) in *.
  assert (Hlen : (length ks <= Z.to_nat n)%nat) by (unfold ks; apply filter_firstn_le).
  assert (Hpr : pot_prims x = ks).
  { unfold pot_prims. rewrite Xn, Xp, Xc, Xa, Nat2Z.id. apply firstn_front. }
  exists (pr_ptr x), h'. split; [exact E|]. split; [destruct R0; assumption|]. split.
  - replace (mkPview L J _) with (pview_of x).
    + apply pot_cells_at.
      * eapply rep_nodup_l. exact R0.
      * unfold pot_sized, nprim_ok. rewrite Xn, Xp, Xc, Xa, !front_length by (rewrite map_length; lia). lia.
      * intros q o Hin. eapply rep_in_l; [exact R0|exact Hin].
    + unfold pview_of. rewrite XL, XJ, Hpr. unfold ks. rewrite keep_new_spec. reflexivity.
  - split.
    { destruct R0 as (_ & _ & _ & D & _). eapply D. left. reflexivity. }
    split; [intros q o Hq; eapply rep_old; [exact R0|exact Hq]|].
    destruct (delete_potential_rep _ _ _ _ R0) as (h'' & E'' & R'' & _).
    exists h''. split; [exact E''|]. apply rep_end. exact R''.
Qed.

Lemma shrink_potential_spec h src v :
  heap_wf h -> pot_at h src v ->
  exists p h', shrink_potential h src = Ok (p, h') /\ heap_wf h' /\
    pot_at h' p (mkPview (pv_L v) (pv_J v) (filter above_thresh3 (pv_prims v))) /\
    pot_at h' src v /\ hblk h p = None /\
    (forall q o, hblk h q = Some o -> hblk h' q = Some o) /\
    (exists h'', delete_potential h' p = Ok h'' /\ forall q, hblk h'' q = hblk h q).
Proof.
  intros W Hat. destruct (pot_at_cells _ _ _ Hat) as (x & <- & <- & Sz & Hnd & Hc).
  pose proof (rep_intro h _ W Hnd Hc) as R0.
  rewrite <- (app_nil_r (pot_cells x)) in R0 at 2.
  destruct (shrink_potential_rep _ _ _ _ (hminus_wf _ _ W) R0 Sz)
    as (h' & y & E & R1 & YL & YJ & Yp & Yn & Ys).
  assert (Old : forall q o, hblk h q = Some o -> hblk h' q = Some o).
  { intros q o Hq. destruct (existsb (Z.eqb q) (map fst (pot_cells x))) eqn:X.
    - apply existsb_in in X. apply in_map_iff in X. destruct X as ((q' & o') & Hq' & Hin). cbn in Hq'. subst q'.
      rewrite (Hc _ _ Hin) in Hq. injection Hq as <-.
      destruct R1 as (_ & _ & _ & D & _). apply D. rewrite app_nil_r. apply in_or_app. right. exact Hin.
    - eapply rep_old; [exact R1|]. unfold hminus. cbn [hblk]. rewrite X. exact Hq. }
  exists (pr_ptr y), h'. split; [exact E|]. split; [destruct R1; assumption|]. split.
  - replace (mkPview _ _ _) with (pview_of y).
    + apply pot_cells_at; [eapply rep_nodup_l; exact R1|exact Ys|].
      intros q o Hin. eapply rep_in_l; [exact R1|exact Hin].
    + unfold pview_of. cbn. rewrite YL, YJ, Yp. reflexivity.
  - split; [apply pot_at_old with h; assumption|]. split.
    { destruct (hblk h (pr_ptr y)) eqn:X; [|reflexivity]. exfalso.
      destruct R1 as (_ & _ & Hnd1 & D & _).
      destruct (D (pr_ptr y) (OPot (mkPot (pr_L y) (pr_J y) (pr_n y) (pr_pp y) (pr_pc y) (pr_pa y)))) as [_ D2];
        [left; reflexivity|].
      unfold hminus in D2. cbn [hblk] in D2. rewrite X in D2.
      destruct (existsb (Z.eqb (pr_ptr y)) (map fst (pot_cells x))) eqn:Y; [|discriminate].
      apply existsb_in in Y. rewrite map_app in Hnd1. cbn [pot_cells map fst app] in Hnd1.
      inversion Hnd1 as [|? ? Hn _]; subst. apply Hn. do 3 right.
      exact Y. }
    split; [exact Old|].
    destruct (delete_potential_rep _ _ _ _ R1) as (h'' & E'' & R'' & _).
    exists h''. split; [exact E''|]. rewrite app_nil_r in R''. apply rep_hminus_end with (pot_cells x); assumption.
Qed.

Lemma potential_value_spec h p v r : heap_wf h -> pot_at h p v ->
  potential_value h p r = Ok (radial_sum (pv_prims v) r).
Proof.
  intros W Hat. destruct (pot_at_cells _ _ _ Hat) as (x & <- & <- & Sz & Hnd & Hc).
  pose proof (rep_intro h _ W Hnd Hc) as R0.
  rewrite <- (app_nil_r (pot_cells x)) in R0 at 2.
  apply (potential_value_rep _ _ _ _ _ R0 Sz).
Qed.

Lemma new_value_error l r :
  (Rabs (radial_sum l r - radial_sum (filter at_least_thresh l) r)
   <= / 10 ^ 14 * abs_radial_sum (filter (fun x => negb (at_least_thresh x)) l) r)%R.
Proof.
  apply (drop_error at_least_thresh). intros x. unfold at_least_thresh, zero_thresh.
  destruct (Rle_dec _ _); [discriminate|]. intros _. lra.
Qed.

Lemma shrink_value_error l r :
  (Rabs (radial_sum l r - radial_sum (filter above_thresh3 l) r)
   <= / 10 ^ 14 * abs_radial_sum (filter (fun x => negb (above_thresh3 x)) l) r)%R.
Proof.
  apply (drop_error above_thresh3). intros x. unfold above_thresh3, zero_thresh.
  destruct (Rlt_dec _ _); [discriminate|]. intros _. lra.
Qed.

(** ** C09 contents *)

Lemma read_ptrs_rep {A} (f : A -> ptr) h0 h u l cs :
  rep h0 h (arr_cell f u l ++ cs) ->
  read_ptrs h (arr_ptr u l) (Z.of_nat (length l)) = Some (map f l).
Proof.
  intros R0. unfold read_ptrs. destruct l as [|a l]; [reflexivity|].
  destruct (Z.eqb_spec (Z.of_nat (length (a :: l))) 0); [cbn [length] in *; lia|].
  cbn [arr_ptr]. rewrite (rep_in_l _ _ _ _ u _ R0) by (left; reflexivity).
  rewrite Nat2Z.id. f_equal. unfold front.
  rewrite <- (map_length f (a :: l)). rewrite firstn_app, Nat.sub_diag, firstn_all. cbn [firstn]. apply app_nil_r.
Qed.

Lemma client_contents h ops : heap_wf h ->
  legal 0 0 [] [] (mkCounts 0 0 0) ops ->
  exists s, (let '(g, h1) := new_grpp h in crun g (mkCst h1 [] []) ops) = Ok s /\
    read_grpp (c_heap s) (fst (new_grpp h)) =
      Some (pick (c_pots s) (last_local ops None),
            Some (map (pick (c_pots s)) (averaged_of ops)),
            Some (map (pick (c_pots s)) (spin_orbit_of ops)),
            Some (map (pick (c_pots s)) (oc_pots_of ops)),
            Some (map (pick (c_shells s)) (oc_shells_of ops))).
Proof.
  intros W0 Hl.
  destruct (new_grpp h) as [g0 h1] eqn:Eg. cbn [fst].
  pose proof (new_grpp_rep h h [] g0 h1 W0 (rep_start h W0) Eg) as R1.
  destruct (crun_inv h g0 ops W0 (mkCst h1 [] []) [] [] (mkCounts 0 0 0)
    (mkGrppRep g0 0 0 0 0 None [] [] [] []) [] [] (mkGhost None [] [] [] []))
    as (s & c & g & fp & fs & E & I & M).
  - constructor; cbn; try reflexivity; try tauto.
    repeat split; cbn; lia.
  - constructor; cbn; tauto.
  - exact Hl.
  - exists s. split; [exact E|]. rewrite gh_fold in M. cbn [gh_u gh_a gh_e gh_o gh_s app] in M.
    destruct M as [M1 M2 M3 M4 M5 _ _ _ _ _]. cbn [gh_u gh_a gh_e gh_o gh_s] in *.
    destruct I as [Hr Hg Hok _ _ _ _ _ _ _ _ _].
    set (cs := all_cells pot_cells fp ++ all_cells shell_cells fs) in *.
    unfold read_grpp. rewrite <- Hg.
    rewrite (rep_in_l _ _ _ _ (gr_ptr g) (OGrpp (grpp_struct g)) Hr) by (left; reflexivity).
    unfold grpp_struct. cbn [g_UL g_Uarep g_n_arep g_Uesop g_n_esop g_Uoc g_n_oc g_ocshells].
    unfold grpp_cells in Hr. set (sc := (gr_ptr g, OGrpp (grpp_struct g))) in *.
    assert (RA : exists cs', rep h (c_heap s) (arr_cell optr (gr_ua g) (gr_a g) ++ cs')).
    { exists (sc :: ocells (gr_ul g) ++ flat_map ocells (gr_a g) ++
        arr_cell optr (gr_ue g) (gr_e g) ++ flat_map ocells (gr_e g) ++
        arr_cell optr (gr_uo g) (gr_o g) ++ flat_map ocells (gr_o g) ++
        arr_cell sptr (gr_us g) (gr_s g) ++ flat_map scells (gr_s g) ++ cs).
      eapply rep_perm; [|exact Hr]. permx. }
    assert (RE : exists cs', rep h (c_heap s) (arr_cell optr (gr_ue g) (gr_e g) ++ cs')).
    { exists (sc :: ocells (gr_ul g) ++ arr_cell optr (gr_ua g) (gr_a g) ++ flat_map ocells (gr_a g) ++
        flat_map ocells (gr_e g) ++
        arr_cell optr (gr_uo g) (gr_o g) ++ flat_map ocells (gr_o g) ++
        arr_cell sptr (gr_us g) (gr_s g) ++ flat_map scells (gr_s g) ++ cs).
      eapply rep_perm; [|exact Hr]. permx. }
    assert (RO : exists cs', rep h (c_heap s) (arr_cell optr (gr_uo g) (gr_o g) ++ cs')).
    { exists (sc :: ocells (gr_ul g) ++ arr_cell optr (gr_ua g) (gr_a g) ++ flat_map ocells (gr_a g) ++
        arr_cell optr (gr_ue g) (gr_e g) ++ flat_map ocells (gr_e g) ++
        flat_map ocells (gr_o g) ++
        arr_cell sptr (gr_us g) (gr_s g) ++ flat_map scells (gr_s g) ++ cs).
      eapply rep_perm; [|exact Hr]. permx. }
    assert (RS : exists cs', rep h (c_heap s) (arr_cell sptr (gr_us g) (gr_s g) ++ cs')).
    { exists (sc :: ocells (gr_ul g) ++ arr_cell optr (gr_ua g) (gr_a g) ++ flat_map ocells (gr_a g) ++
        arr_cell optr (gr_ue g) (gr_e g) ++ flat_map ocells (gr_e g) ++
        arr_cell optr (gr_uo g) (gr_o g) ++ flat_map ocells (gr_o g) ++ flat_map scells (gr_s g) ++ cs).
      eapply rep_perm; [|exact Hr]. permx. }
    destruct RA as (c1 & RA). destruct RE as (c2 & RE). destruct RO as (c3 & RO). destruct RS as (c4 & RS).
    rewrite (read_ptrs_rep _ _ _ _ _ _ RA), (read_ptrs_rep _ _ _ _ _ _ RE), (read_ptrs_rep _ _ _ _ _ _ RO).
    destruct Hok as (_ & _ & _ & Hlen). rewrite <- Hlen. rewrite (read_ptrs_rep _ _ _ _ _ _ RS).
    rewrite M1, M2, M3, M4, M5. reflexivity.
Qed.

(** ** C10: the 101st addition *)

Lemma crun_app g ops1 : forall s ops2, crun g s (ops1 ++ ops2) = (let* s' := crun g s ops1 in crun g s' ops2).
Proof.
  induction ops1 as [|o ops1 IH]; intros s ops2; [reflexivity|].
  cbn [app crun]. destruct (cstep g s o); [|reflexivity]. rewrite !bind_ok. apply IH.
Qed.

Lemma client_overflow h ops o : heap_wf h ->
  legal 0 0 [] [] (mkCounts 0 0 0) ops ->
  (length (averaged_of ops) = 100%nat /\ (exists k, o = CAddAveraged k)) \/
  (length (spin_orbit_of ops) = 100%nat /\ (exists k, o = CAddSpinOrbit k)) \/
  (length (oc_pots_of ops) = 100%nat /\ (exists k k', o = CAddOutercore k k')) ->
  client_program h (ops ++ [o]) = Fail OutOfBounds.
Proof.
  intros W0 Hl Ho. unfold client_program.
  destruct (new_grpp h) as [g0 h1] eqn:Eg.
  pose proof (new_grpp_rep h h [] g0 h1 W0 (rep_start h W0) Eg) as R1.
  destruct (crun_inv h g0 ops W0 (mkCst h1 [] []) [] [] (mkCounts 0 0 0)
    (mkGrppRep g0 0 0 0 0 None [] [] [] []) [] [] (mkGhost None [] [] [] []))
    as (s & c & g & fp & fs & E & I & M).
  - constructor; cbn; try reflexivity; try tauto.
    repeat split; cbn; lia.
  - constructor; cbn; tauto.
  - exact Hl.
  - rewrite gh_fold in M. cbn [gh_u gh_a gh_e gh_o gh_s app] in M.
    destruct M as [M1 M2 M3 M4 M5 _ _ _ _ _]. cbn [gh_u gh_a gh_e gh_o gh_s] in *.
    destruct I as [Hr Hg Hok _ _ _ _ _ _ _ _ _].
    rewrite crun_app, E, bind_ok. cbn [crun cstep].
    apply (f_equal (@length _)) in M2, M3, M4. rewrite !map_length in M2, M3, M4.
    destruct Ho as [(Hn & k & ->)|[(Hn & k & ->)|(Hn & k & k' & ->)]]; cbn [cstep]; rewrite <- Hg.
    + erewrite add_averaged_full; [reflexivity|exact Hr|congruence].
    + erewrite add_spin_orbit_full; [reflexivity|exact Hr|congruence].
    + erewrite add_outercore_full; [reflexivity| |exact Hr|congruence]. apply Hok.
Qed.

(** ** C11: installing the installed local potential again *)

Lemma reset_local_dangling h0 h g x cs : rep h0 h (grpp_cells g ++ cs) -> grpp_ok g -> gr_ul g = Some x ->
  exists h1, set_local_potential h (gr_ptr g) (pr_ptr x) = Ok h1 /\
    hblk h1 (pr_ptr x) = None /\
    delete_grpp h1 (gr_ptr g) = Fail UseAfterFree /\
    (forall p, set_local_potential h1 (gr_ptr g) p = Fail UseAfterFree).
Proof.
  intros R0 Hok Hul.
  unfold set_local_potential at 1, load_grpp.
  rewrite (rep_load _ _ _ (gr_ptr g) _ R0) by (left; reflexivity).
  rewrite !bind_ok. unfold grpp_struct.
  cbn [g_UL g_n_arep g_Uarep g_n_esop g_Uesop g_n_oc g_Uoc g_ocshells].
  unfold grpp_cells in R0. rewrite Hul. cbn [optr].
  set (sc := (gr_ptr g, OGrpp (grpp_struct g))) in *.
  set (rest := arr_cell optr (gr_ua g) (gr_a g) ++ flat_map ocells (gr_a g) ++
    arr_cell optr (gr_ue g) (gr_e g) ++ flat_map ocells (gr_e g) ++
    arr_cell optr (gr_uo g) (gr_o g) ++ flat_map ocells (gr_o g) ++
    arr_cell sptr (gr_us g) (gr_s g) ++ flat_map scells (gr_s g)) in *.
  rewrite Hul in R0. cbn [ocells] in R0.
  assert (R0' : rep h0 h (pot_cells x ++ sc :: rest ++ cs)).
  { eapply rep_perm; [|exact R0]. permx. }
  assert (Hx : 0 < pr_ptr x) by (eapply rep_pos; [exact R0'|left; reflexivity]).
  destruct (Z.eqb_spec (pr_ptr x) 0); [lia|].
  destruct (delete_potential_rep _ _ _ _ R0') as (h1 & E1 & R1 & N1).
  rewrite E1, bind_ok. unfold sc in R1.
  edestruct (rep_store _ _ _ _ _ (OGrpp (mkGrpp (Z.of_nat (length (gr_a g)))
      (Z.of_nat (length (gr_e g))) (Z.of_nat (length (gr_o g))) (pr_ptr x)
      (arr_ptr (gr_ua g) (gr_a g)) (arr_ptr (gr_ue g) (gr_e g)) (arr_ptr (gr_uo g) (gr_o g))
      (arr_ptr (gr_us g) (gr_s g)))) R1) as (h2 & E2 & R2 & _).
  exists h2. split; [exact E2|].
  assert (Hgx : gr_ptr g <> pr_ptr x).
  { destruct R0' as (_ & _ & Hnd & _). cbn in Hnd. inversion Hnd as [|? ? Hn _]; subst.
    intro Heq. apply Hn. do 3 right. left. exact Heq. }
  assert (Hdead : hblk h2 (pr_ptr x) = None).
  { destruct R2 as (_ & _ & _ & _ & F). rewrite F.
    - destruct R0' as (_ & _ & _ & D & _). eapply D. left. reflexivity.
    - destruct R0' as (_ & _ & Hnd & _). cbn [pot_cells app map fst] in Hnd.
      inversion Hnd as [|? ? Hn _]; subst. cbn [map fst]. intros Hin. apply Hn. do 3 right. exact Hin. }
  split; [exact Hdead|].
  assert (Hg : 0 < gr_ptr g) by (eapply rep_pos; [exact R2|left; reflexivity]).
  assert (Hdel : delete_potential h2 (pr_ptr x) = Fail UseAfterFree).
  { unfold delete_potential. destruct (Z.eqb_spec (pr_ptr x) 0); [lia|].
    unfold load_pot, hload. destruct (Z.eqb_spec (pr_ptr x) 0); [lia|]. rewrite Hdead. reflexivity. }
  split.
  - unfold delete_grpp. destruct (Z.eqb_spec (gr_ptr g) 0); [lia|].
    unfold load_grpp. rewrite (rep_load _ _ _ (gr_ptr g) _ R2) by (left; reflexivity).
    rewrite !bind_ok. cbn [g_UL]. destruct (Z.eqb_spec (pr_ptr x) 0); [lia|]. rewrite Hdel. reflexivity.
  - intros p. unfold set_local_potential, load_grpp. rewrite (rep_load _ _ _ (gr_ptr g) _ R2) by (left; reflexivity).
    rewrite !bind_ok. cbn [g_UL]. destruct (Z.eqb_spec (pr_ptr x) 0); [lia|]. rewrite Hdel. reflexivity.
Qed.

Lemma hstore_nonzero h p o h' : hstore h p o = Ok h' -> p <> 0.
Proof. unfold hstore. destruct (Z.eqb_spec p 0); [discriminate|tauto]. Qed.

Lemma new_potential_nonzero h L J n a b c p h' : new_potential h L J n a b c = Ok (p, h') -> p <> 0.
Proof.
  unfold new_potential. destruct (halloc h _) as [pot h1]. destruct (halloc h1 _) as [pp h2].
  destruct (halloc h2 _) as [pc h3]. destruct (halloc h3 _) as [pa h4].
  destruct (for_range _ _ _ _) as [(h5 & k)|]; [|discriminate]. rewrite bind_ok.
  destruct (hstore h5 pot _) as [h6|] eqn:E; [|discriminate]. rewrite bind_ok.
  intros H. injection H as <- <-. eapply hstore_nonzero. exact E.
Qed.

Lemma client_new_pot_nonzero h L J lp lc la p h' : client_new_pot h L J lp lc la = Ok (p, h') -> p <> 0.
Proof.
  unfold client_new_pot. destruct (halloc h _) as [t1 h1]. destruct (halloc h1 _) as [t2 h2].
  destruct (halloc h2 _) as [t3 h3].
  destruct (new_potential _ _ _ _ _ _ _) as [(p' & h4)|] eqn:E; [|discriminate]. rewrite bind_ok.
  destruct (hfree h4 _); [|discriminate]. rewrite bind_ok.
  destruct (hfree _ _); [|discriminate]. rewrite bind_ok.
  destruct (hfree _ _); [|discriminate]. rewrite bind_ok.
  intros H. injection H as <- <-. eapply new_potential_nonzero. exact E.
Qed.

Lemma pots_nonzero g ops : forall s s', crun g s ops = Ok s' ->
  (forall p, In p (c_pots s) -> p <> 0) -> forall p, In p (c_pots s') -> p <> 0.
Proof.
  induction ops as [|o ops IH]; intros s s' E Hs.
  - cbn in E. injection E as <-. exact Hs.
  - cbn [crun] in E. destruct (cstep g s o) as [s1|] eqn:E1; [|discriminate]. rewrite bind_ok in E.
    apply (IH _ _ E). clear E IH s'.
    destruct o; cbn [cstep] in E1.
    + destruct (client_new_pot _ _ _ _ _ _) as [(q & h')|] eqn:E2; [|discriminate].
      rewrite bind_ok in E1. injection E1 as <-. cbn [c_pots]. intros p Hp. apply in_app_or in Hp.
      destruct Hp as [Hp|[<-|[]]]; [auto|]. eapply client_new_pot_nonzero. exact E2.
    + destruct (client_new_shell _ _ _ _ _ _) as [(q & h')|]; [|discriminate].
      rewrite bind_ok in E1. injection E1 as <-. exact Hs.
    + destruct (set_local_potential _ _ _); [|discriminate]. rewrite bind_ok in E1. injection E1 as <-. exact Hs.
    + destruct (add_averaged_potential _ _ _); [|discriminate]. rewrite bind_ok in E1. injection E1 as <-. exact Hs.
    + destruct (add_spin_orbit_potential _ _ _); [|discriminate]. rewrite bind_ok in E1. injection E1 as <-. exact Hs.
    + destruct (add_outercore_potential _ _ _ _); [|discriminate]. rewrite bind_ok in E1. injection E1 as <-. exact Hs.
Qed.

Lemma client_reset_local h ops k : heap_wf h ->
  legal 0 0 [] [] (mkCounts 0 0 0) ops ->
  last_local ops None = Some k ->
  client_program h (ops ++ [CSetLocal (Some k)]) = Fail UseAfterFree.
Proof.
  intros W0 Hl Hk. unfold client_program.
  destruct (new_grpp h) as [g0 h1] eqn:Eg.
  pose proof (new_grpp_rep h h [] g0 h1 W0 (rep_start h W0) Eg) as R1.
  destruct (crun_inv h g0 ops W0 (mkCst h1 [] []) [] [] (mkCounts 0 0 0)
    (mkGrppRep g0 0 0 0 0 None [] [] [] []) [] [] (mkGhost None [] [] [] []))
    as (s & c & g & fp & fs & E & I & M).
  - constructor; cbn; try reflexivity; try tauto.
    repeat split; cbn; lia.
  - constructor; cbn; tauto.
  - exact Hl.
  - rewrite gh_fold in M. cbn [gh_u gh_a gh_e gh_o gh_s app] in M.
    destruct M as [M1 _ _ _ _ M6 _ _ _ _]. cbn [gh_u gh_a gh_e gh_o gh_s] in *.
    destruct I as [Hr Hg Hok _ _ _ _ _ _ _ _ _].
    rewrite crun_app, E, bind_ok. cbn [crun cstep]. rewrite <- Hk, <- M1.
    destruct (gr_ul g) as [x|] eqn:Hul.
    + destruct (reset_local_dangling _ _ _ _ _ Hr Hok Hul) as (h2 & E2 & _ & E3 & _).
      cbn [optr]. rewrite <- Hg, E2. rewrite !bind_ok. cbn [c_heap]. rewrite E3. reflexivity.
    + (* the installed pointer cannot be NULL *)
      exfalso. cbn [optr] in M1. rewrite Hk in M1. cbn [pick] in M1.
      rewrite Hk in M6. cbn in M6.
      apply (pots_nonzero g0 ops (mkCst h1 [] []) s E) with (nth k (c_pots s) 0);
        [cbn; tauto| |symmetry; exact M1].
      apply nth_In. exact M6.
Qed.

Lemma legal_repeat np ns up us n : forall c, (n_a c + n <= 100)%nat ->
  legal np ns up us c (repeat (CAddAveraged None) n).
Proof.
  induction n as [|n IH]; intros c H; [exact I|].
  cbn [repeat legal opt_list app]. split; [exact I|]. split; [lia|]. apply IH. cbn [n_a]. lia.
Qed.
