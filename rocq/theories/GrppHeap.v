(** * The operator in memory: what the integrals read and the one thing they write *)

From Coq Require Import ZArith List Lia Bool Reals Lra Permutation.
From Verif Require Import Base Loops Sums CartModel CartProofs HeapModel HeapProofs HeapSpec OneElModel OneElProofs OneElPairs OneElSpec OneElThms
  GaussProd OneElInt SphProofs OvGradModel OvGradProofs OvGradThms OutercoreModel OutercoreProofs OutercoreMain OutercoreThms GrppModel GrppFull.
Import ListNotations.
Open Scope Z_scope.

(** ** The operator [gv] is stored at address [g], its outercore shells at [ocp] *)
Definition ptrs_at (h : heap) (u : Z) (ps : list Z) : Prop := ps = [] \/ exists rest, hblk h u = Some (OPtrs (ps ++ rest)).

Definition grpp_at (h : heap) (g : Z) (gv : gview) (ocp : list Z) : Prop :=
  exists x pa pe po,
    hblk h g = Some (OGrpp x) /\
    (match gv_local gv with None => g_UL x = 0 | Some v => view_pot h (g_UL x) = Ok v end) /\
    g_n_arep x = Z.of_nat (length pa) /\ ptrs_at h (g_Uarep x) pa /\ Forall2 (fun p v => view_pot h p = Ok v) pa (gv_arep gv) /\
    g_n_esop x = Z.of_nat (length pe) /\ ptrs_at h (g_Uesop x) pe /\ Forall2 (fun p v => view_pot h p = Ok v) pe (gv_esop gv) /\
    g_n_oc x = Z.of_nat (length po) /\ ptrs_at h (g_Uoc x) po /\ Forall2 (fun p v => view_pot h p = Ok v) po (map fst (gv_oc gv)) /\
    ptrs_at h (g_ocshells x) ocp /\ Forall2 (fun p v => view_shell h p = Ok v) ocp (map snd (gv_oc gv)).

(** the heap with the shells in the list moved to C *)
Definition at_origin (s : shell) (C : R * R * R) : shell :=
  mkShell (sh_L s) (sh_cart_size s) (sh_cart_list s) (sh_num s) (sh_coeffs s) (sh_alpha s) C.

Definition moved_obj (C : R * R * R) (o : obj) : obj := match o with OShell s => OShell (at_origin s C) | _ => o end.

Definition moved_heap (C : R * R * R) (ps : list Z) (h : heap) : heap :=
  mkHeap (hnext h) (fun q => if existsb (Z.eqb q) ps then option_map (moved_obj C) (hblk h q) else hblk h q).

Lemma existsb_In q ps : existsb (Z.eqb q) ps = true <-> In q ps.
Proof. rewrite existsb_exists. split; [intros (x & H & E); apply Z.eqb_eq in E; congruence|intros H; exists q; split; [exact H|apply Z.eqb_refl]]. Qed.

Lemma existsb_notIn q ps : existsb (Z.eqb q) ps = false <-> ~ In q ps.
Proof. rewrite <- existsb_In. destruct (existsb (Z.eqb q) ps); split; congruence. Qed.

Lemma moved_wf C ps h : heap_wf h -> heap_wf (moved_heap C ps h).
Proof.
  intros (W1 & W2). split; [exact W1|]. intros q o. cbn [moved_heap hblk hnext]. destruct (existsb (Z.eqb q) ps); [|apply W2].
  destruct (hblk h q) as [o'|] eqn:E; [|discriminate]. intros _. eapply W2. exact E.
Qed.

Lemma moved_not_shell C ps h q o : hblk h q = Some o -> (forall s, o <> OShell s) -> hblk (moved_heap C ps h) q = Some o.
Proof. intros E N. cbn [moved_heap hblk]. rewrite E. destruct (existsb (Z.eqb q) ps); [|reflexivity]. destruct o; cbn; try reflexivity. destruct (N s); reflexivity. Qed.

Lemma moved_twice C ps h q : hblk (moved_heap C ps (moved_heap C ps h)) q = hblk (moved_heap C ps h) q.
Proof. cbn [moved_heap hblk]. destruct (existsb (Z.eqb q) ps); [|reflexivity]. destruct (hblk h q) as [o|]; [|reflexivity]. destruct o; reflexivity. Qed.

(** ** Reading is not affected by more blocks, nor (but for origins) by moved shells *)
Definition keeps (h h' : heap) : Prop := forall q o, hblk h q = Some o -> hblk h' q = Some o.

Lemma keeps_load h h' q o : keeps h h' -> hload h q = Ok o -> hload h' q = Ok o.
Proof. unfold hload. intros K. destruct (q =? 0); [discriminate|]. destruct (hblk h q) as [o'|] eqn:E; [|discriminate]. intros H. injection H as ->. rewrite (K _ _ E). reflexivity. Qed.

Lemma load_moved C ps h q o : hload h q = Ok o -> (forall s, o <> OShell s) -> hload (moved_heap C ps h) q = Ok o.
Proof.
  unfold hload. intros H N. destruct (q =? 0); [discriminate|]. destruct (hblk h q) as [o'|] eqn:E; [|discriminate]. injection H as ->.
  rewrite (moved_not_shell C ps h q o E N). reflexivity.
Qed.

(** loads of objects that are no shells agree *)
Definition same_data (h h' : heap) : Prop := forall q o, hload h q = Ok o -> (forall s, o <> OShell s) -> hload h' q = Ok o.

Lemma keeps_data h h' : keeps h h' -> same_data h h'.
Proof. intros K q o H _. eapply keeps_load; eassumption. Qed.
Lemma moved_data C ps h : same_data h (moved_heap C ps h).
Proof. intros q o. apply load_moved. Qed.

Ltac bindinv H :=
  match type of H with
  | bind ?X _ = Ok _ => let E := fresh "E" in destruct X eqn:E; [|discriminate H]; cbn [bind] in H
  end.

Lemma view_pot_data h h' p v : same_data h h' -> view_pot h p = Ok v -> view_pot h' p = Ok v.
Proof.
  intros K H. unfold view_pot, load_pot in *. destruct (hload h p) as [o|] eqn:E; [|discriminate]. cbn [bind] in H.
  destruct o; try discriminate. cbn [bind] in H. rewrite (K _ _ E) by discriminate. cbn [bind].
  destruct (hload h (pot_powers p0)) as [o1|] eqn:E1; [|discriminate]. cbn [bind] in H.
  destruct (hload h (pot_coeffs p0)) as [o2|] eqn:E2; [|discriminate]. cbn [bind] in H.
  destruct (hload h (pot_alpha p0)) as [o3|] eqn:E3; [|discriminate]. cbn [bind] in H.
  destruct o1; try discriminate. destruct o2; try discriminate. destruct o3; try discriminate.
  rewrite (K _ _ E1), (K _ _ E2), (K _ _ E3) by discriminate. exact H.
Qed.

Lemma view_shell_keeps h h' p v : keeps h h' -> view_shell h p = Ok v -> view_shell h' p = Ok v.
Proof.
  intros K H. unfold view_shell, load_shell in *. destruct (hload h p) as [o|] eqn:E; [|discriminate]. cbn [bind] in H.
  destruct o; try discriminate. cbn [bind] in H. rewrite (keeps_load _ _ _ _ K E). cbn [bind].
  destruct (hload h (sh_cart_list s)) as [o1|] eqn:E1; [|discriminate]. cbn [bind] in H.
  destruct (hload h (sh_coeffs s)) as [o2|] eqn:E2; [|discriminate]. cbn [bind] in H.
  destruct (hload h (sh_alpha s)) as [o3|] eqn:E3; [|discriminate]. cbn [bind] in H.
  rewrite (keeps_load _ _ _ _ K E1), (keeps_load _ _ _ _ K E2), (keeps_load _ _ _ _ K E3). exact H.
Qed.

Lemma view_shell_moved C ps h p v : view_shell h p = Ok v -> view_shell (moved_heap C ps h) p = Ok (if existsb (Z.eqb p) ps then move_shell v C else v).
Proof.
  intros H. unfold view_shell, load_shell in *. destruct (hload h p) as [o|] eqn:E; [|discriminate]. cbn [bind] in H.
  destruct o; try discriminate. cbn [bind] in H.
  destruct (hload h (sh_cart_list s)) as [o1|] eqn:E1; [|discriminate]. cbn [bind] in H.
  destruct (hload h (sh_coeffs s)) as [o2|] eqn:E2; [|discriminate]. cbn [bind] in H.
  destruct (hload h (sh_alpha s)) as [o3|] eqn:E3; [|discriminate]. cbn [bind] in H.
  destruct o1; try discriminate. destruct o2; try discriminate. destruct o3; try discriminate. injection H as <-.
  assert (Ep : hload (moved_heap C ps h) p = Ok (OShell (if existsb (Z.eqb p) ps then at_origin s C else s))).
  { unfold hload in *. destruct (p =? 0); [discriminate|]. cbn [moved_heap hblk]. destruct (hblk h p) as [o|] eqn:Eb; [|discriminate]. injection E as ->.
    destruct (existsb (Z.eqb p) ps); reflexivity. }
  rewrite Ep. cbn [bind].
  replace (sh_cart_list (if existsb (Z.eqb p) ps then at_origin s C else s)) with (sh_cart_list s) by (destruct (existsb (Z.eqb p) ps); reflexivity).
  replace (sh_coeffs (if existsb (Z.eqb p) ps then at_origin s C else s)) with (sh_coeffs s) by (destruct (existsb (Z.eqb p) ps); reflexivity).
  replace (sh_alpha (if existsb (Z.eqb p) ps then at_origin s C else s)) with (sh_alpha s) by (destruct (existsb (Z.eqb p) ps); reflexivity).
  rewrite (load_moved C ps h _ _ E1), (load_moved C ps h _ _ E2), (load_moved C ps h _ _ E3) by discriminate. cbn [bind].
  destruct (existsb (Z.eqb p) ps); reflexivity.
Qed.

Definition moved_gv (C : R * R * R) (gv : gview) : gview :=
  mkGv (gv_local gv) (gv_arep gv) (gv_esop gv) (map (fun '(p, s) => (p, move_shell s C)) (gv_oc gv)).

Lemma full_sum_moved rt A B C gv out : full_sum rt A B C (moved_gv C gv) out = full_sum rt A B C gv out.
Proof.
  assert (E : forall t1 o, outercore_potential_integrals t1 A B C (gv_oc (moved_gv C gv)) o = outercore_potential_integrals t1 A B C (gv_oc gv) o).
  { intros t1 o. unfold outercore_potential_integrals. cbn [moved_gv gv_oc]. rewrite map_map.
    replace (map (fun x : vpot * vshell => let '(pot, s) := let '(p, s) := x in (p, move_shell s C) in (pot, move_shell s C)) (gv_oc gv))
      with (map (fun '(pot, s) => (pot, move_shell s C)) (gv_oc gv)); [reflexivity|].
    apply map_ext. intros [p s]. reflexivity. }
  unfold full_sum. cbn [moved_gv gv_local gv_arep gv_esop] in *. destruct out as [[[m0 m1] m2] m3].
  assert (BE : forall X Y (x : res X) (k k' : X -> res Y), (forall a, k a = k' a) -> bind x k = bind x k').
  { intros X Y x k k' H. destruct x; [apply H|reflexivity]. }
  do 6 (apply BE; intros ?). apply BE. intros [b a9]. apply BE. intros [[[[[bx by_] bz] sx] sy] sz]. rewrite E. reflexivity.
Qed.

(** ** The operator is read *)
Lemma ptrs_get h u ps i p : heap_wf h -> ptrs_at h u ps -> nth_error ps i = Some p -> get_ptr h u (Z.of_nat i) = Ok p.
Proof.
  intros W [-> | (rest & E)] H; [destruct i; discriminate|]. unfold get_ptr. rewrite (heap_wf_nonzero h u _ W E). cbn [bind]. unfold elem.
  destruct (Z.ltb_spec (Z.of_nat i) 0); [lia|]. rewrite Nat2Z.id, nth_error_app1, H; [reflexivity|]. apply nth_error_Some. congruence.
Qed.

Lemma read_seq_list {T} (f : Z -> res T) l : forall k, (forall i v, nth_error l i = Some v -> f (k + Z.of_nat i) = Ok v) -> read_seq f k (length l) = Ok l.
Proof.
  induction l as [|v l IH]; intros k H; [reflexivity|]. cbn [length read_seq]. pose proof (H O v eq_refl) as H0. change (Z.of_nat 0) with 0 in H0. rewrite Z.add_0_r in H0. rewrite H0, bind_ok.
  rewrite IH, bind_ok; [reflexivity|]. intros i w Hi. replace (k + 1 + Z.of_nat i) with (k + Z.of_nat (S i)) by lia. apply H. exact Hi.
Qed.

Lemma forall2_nth {T U} (P : T -> U -> Prop) l m : Forall2 P l m -> length l = length m /\ forall i u, nth_error m i = Some u -> exists t, nth_error l i = Some t /\ P t u.
Proof.
  induction 1 as [|t u l m H F (L & IH)]; [split; [reflexivity|]; intros [|i]; discriminate|]. cbn [length]. split; [congruence|].
  intros [|i] v Hv; cbn in *; [injection Hv as <-; eauto|apply IH; exact Hv].
Qed.

Lemma view_grpp_at h g gv ocp : heap_wf h -> grpp_at h g gv ocp -> view_grpp h g = Ok gv.
Proof.
  intros W (x & pa & pe & po & Eg & Hl & Na & Pa & Fa & Ne & Pe & Fe & No & Po & Fo & Ps & Fs).
  unfold view_grpp, load_grpp. rewrite (heap_wf_nonzero h g _ W Eg), !bind_ok.
  assert (El : (if g_UL x =? 0 then Ok None else let* p := view_pot h (g_UL x) in Ok (Some p)) = Ok (gv_local gv)).
  { destruct (gv_local gv) as [v|]; [|rewrite Hl; reflexivity]. destruct (Z.eqb_spec (g_UL x) 0) as [E0|]; [rewrite E0 in Hl; discriminate Hl|]. rewrite Hl. reflexivity. }
  rewrite El, bind_ok.
  assert (RA : forall ps u l, ptrs_at h u ps -> Forall2 (fun p v => view_pot h p = Ok v) ps l ->
     read_seq (fun i => let* p := get_ptr h u i in view_pot h p) 0 (Z.to_nat (Z.of_nat (length ps))) = Ok l).
  { intros ps u l P F. destruct (forall2_nth _ _ _ F) as (Len & Nth). rewrite Nat2Z.id, Len. apply read_seq_list. intros i v Hi. destruct (Nth i v Hi) as (p & Ep & Ev).
    rewrite Z.add_0_l, (ptrs_get h u ps i p W P Ep), bind_ok. exact Ev. }
  rewrite Na, (RA pa _ _ Pa Fa), bind_ok, Ne, (RA pe _ _ Pe Fe), bind_ok, No.
  destruct (forall2_nth _ _ _ Fo) as (Lo & No2). destruct (forall2_nth _ _ _ Fs) as (Ls & Ns2). rewrite map_length in Lo, Ls.
  rewrite Nat2Z.id, Lo. rewrite (read_seq_list _ (gv_oc gv)); [rewrite bind_ok; destruct gv; reflexivity|].
  intros i [vp vs] Hi. rewrite Z.add_0_l.
  destruct (No2 i vp) as (p & Ep & Vp); [rewrite nth_error_map, Hi; reflexivity|].
  destruct (Ns2 i vs) as (s & Es & Vs); [rewrite nth_error_map, Hi; reflexivity|].
  rewrite (ptrs_get h _ _ i p W Po Ep), bind_ok, (ptrs_get h _ _ i s W Ps Es), bind_ok, Vp, bind_ok, Vs, bind_ok. reflexivity.
Qed.

Lemma view_is_shell h p v : view_shell h p = Ok v -> exists s, hblk h p = Some (OShell s) /\ p <> 0.
Proof.
  unfold view_shell, load_shell, hload. destruct (Z.eqb_spec p 0); [discriminate|]. destruct (hblk h p) as [o|]; [|discriminate]. destruct o; try discriminate. eauto.
Qed.

(** ** The outercore shells are moved *)
Lemma place_ok h g gv ocp C : heap_wf h -> grpp_at h g gv ocp ->
  exists h', place_oc_shells h g C = Ok h' /\ hnext h' = hnext h /\ forall q, hblk h' q = hblk (moved_heap C ocp h) q.
Proof.
  intros W (x & pa & pe & po & Eg & Hl & Na & Pa & Fa & Ne & Pe & Fe & No & Po & Fo & Ps & Fs).
  unfold place_oc_shells, load_grpp at 1. rewrite (heap_wf_nonzero h g _ W Eg), !bind_ok.
  assert (Len : length po = length ocp).
  { destruct (forall2_nth _ _ _ Fo) as (Lo & _). destruct (forall2_nth _ _ _ Fs) as (Ls & _). rewrite map_length in Lo, Ls. congruence. }
  rewrite No, Len.
  destruct (for_range_ok (fun i s => hnext s = hnext h /\ forall q, hblk s q = hblk (moved_heap C (firstn (Z.to_nat i) ocp) h) q) 0 (Z.of_nat (length ocp))
    (fun i h0 => let* p := get_ptr h0 (g_ocshells x) i in let* s := load_shell h0 p in
      hstore h0 p (OShell (mkShell (sh_L s) (sh_cart_size s) (sh_cart_list s) (sh_num s) (sh_coeffs s) (sh_alpha s) C))) h ltac:(lia)) as (h' & E & Nx & V).
  - split; [reflexivity|]. intros q. cbn [Z.to_nat firstn moved_heap hblk existsb]. reflexivity.
  - intros i s Hi (Nx & V).
    assert (Ws : heap_wf s).
    { destruct (moved_wf C (firstn (Z.to_nat i) ocp) h W) as (W1 & W2). split; [rewrite Nx; exact W1|]. intros q o. rewrite V, Nx. apply W2. }
    destruct (nth_error ocp (Z.to_nat i)) as [p|] eqn:Ep; [|apply nth_error_None in Ep; lia].
    assert (Ps' : ptrs_at s (g_ocshells x) ocp).
    { destruct Ps as [-> | (rest & Er)]; [left; reflexivity|right]. exists rest. rewrite V. apply moved_not_shell; [exact Er|discriminate]. }
    pose proof (ptrs_get s _ ocp (Z.to_nat i) p Ws Ps' Ep) as Eq. rewrite Z2Nat.id in Eq by lia. rewrite Eq, bind_ok.
    destruct (forall2_nth _ _ _ Fs) as (Ls & _).
    assert (Hv : exists v, view_shell h p = Ok v).
    { clear - Fs Ep. revert Ep. generalize (Z.to_nat i). induction Fs as [|a b l m H F IH]; intros [|k] Hk; cbn in Hk; try discriminate; [injection Hk as <-; eauto|apply (IH k); exact Hk]. }
    destruct Hv as (v & Hv). destruct (view_is_shell h p v Hv) as (s0 & Es0 & Pn).
    set (s1 := if existsb (Z.eqb p) (firstn (Z.to_nat i) ocp) then at_origin s0 C else s0).
    assert (Es : hblk s p = Some (OShell s1)).
    { rewrite V. cbn [moved_heap hblk]. rewrite Es0. unfold s1. destruct (existsb (Z.eqb p) (firstn (Z.to_nat i) ocp)); reflexivity. }
    unfold load_shell. rewrite (heap_wf_nonzero s p _ Ws Es), !bind_ok. unfold hstore. destruct (Z.eqb_spec p 0); [contradiction|]. rewrite Es.
    eexists. split; [reflexivity|]. cbn [hnext hblk]. split; [exact Nx|]. intros q.
    replace (Z.to_nat (i + 1)) with (S (Z.to_nat i)) by lia.
    assert (Fi : firstn (S (Z.to_nat i)) ocp = firstn (Z.to_nat i) ocp ++ [p]).
    { clear - Ep. revert Ep. generalize (Z.to_nat i). induction ocp as [|a l IH]; intros [|k] Hk; cbn in Hk; try discriminate; [injection Hk as ->; reflexivity|].
      change (firstn (S (S k)) (a :: l)) with (a :: firstn (S k) l). change (firstn (S k) (a :: l)) with (a :: firstn k l). cbn [app]. f_equal. apply IH. exact Hk. }
    rewrite Fi. cbn [moved_heap hblk]. rewrite existsb_app. cbn [existsb]. rewrite orb_false_r.
    destruct (Z.eqb_spec q p) as [->|Nq].
    + rewrite orb_true_r, Es0. cbn [option_map moved_obj]. f_equal. f_equal. unfold s1, at_origin. destruct (existsb (Z.eqb p) (firstn (Z.to_nat i) ocp)); reflexivity.
    + rewrite orb_false_r. rewrite V. reflexivity.
  - exists h'. split; [exact E|]. split; [exact Nx|]. intros q. rewrite V, Nat2Z.id, firstn_all. reflexivity.
Qed.

(** ** The whole call *)
Lemma std_shell_view h p v comps : heap_wf h -> std_shell h p v comps -> exists s, view_shell h p = Ok s /\ vshell_is s (v_L v) (v_origin v) (v_prims v) comps /\ sv_size s = v_size v.
Proof. apply std_view. Qed.

Lemma full_call rt h A B g gv ocp C pA pB out out' : heap_wf h -> rt_init rt = true -> view_shell h pA = Ok A -> view_shell h pB = Ok B -> grpp_at h g gv ocp ->
  full_sum rt A B C gv out = Ok out' ->
  exists h', full_grpp_integrals rt h pA pB g C out = Ok (out', h') /\ hnext h' = hnext h /\ forall q, hblk h' q = hblk (moved_heap C ocp h) q.
Proof.
  intros W I EA EB G E. unfold full_grpp_integrals. rewrite I. cbn [massert bind]. rewrite EA, bind_ok, EB, bind_ok, (view_grpp_at h g gv ocp W G), bind_ok, E, bind_ok.
  destruct (place_ok h g gv ocp C W G) as (h' & E' & Nx & V). rewrite E', bind_ok. eauto.
Qed.

(** ** Frames *)
Lemma ptrs_data h h' u ps : heap_wf h -> same_data h h' -> ptrs_at h u ps -> ptrs_at h' u ps.
Proof.
  intros W K [-> | (rest & E)]; [left; reflexivity|right]. exists rest.
  pose proof (K u _ (heap_wf_nonzero h u _ W E) ltac:(discriminate)) as L. unfold hload in L. destruct (u =? 0); [discriminate|]. destruct (hblk h' u); [|discriminate]. injection L as ->. reflexivity.
Qed.

Lemma forall2_imp {T U} (P Q : T -> U -> Prop) l m : (forall a b, In a l -> P a b -> Q a b) -> Forall2 P l m -> Forall2 Q l m.
Proof.
  intros H F. induction F as [|a b l m Hab F IH]; constructor; [apply H; [left; reflexivity|exact Hab]|].
  apply IH. intros a' b' Hin. apply H. right. exact Hin.
Qed.

Lemma grpp_keeps h h' g gv ocp : heap_wf h -> keeps h h' -> grpp_at h g gv ocp -> grpp_at h' g gv ocp.
Proof.
  intros W K (x & pa & pe & po & Eg & Hl & Na & Pa & Fa & Ne & Pe & Fe & No & Po & Fo & Ps & Fs). pose proof (keeps_data _ _ K) as KD.
  exists x, pa, pe, po. split; [apply K; exact Eg|]. split.
  { destruct (gv_local gv); [|exact Hl]. eapply view_pot_data; eassumption. }
  assert (VP : forall l m, Forall2 (fun p v => view_pot h p = Ok v) l m -> Forall2 (fun p v => view_pot h' p = Ok v) l m).
  { intros l m. apply forall2_imp. intros a b _. apply view_pot_data. exact KD. }
  split; [exact Na|]. split; [eapply ptrs_data; eassumption|]. split; [apply VP; exact Fa|].
  split; [exact Ne|]. split; [eapply ptrs_data; eassumption|]. split; [apply VP; exact Fe|].
  split; [exact No|]. split; [eapply ptrs_data; eassumption|]. split; [apply VP; exact Fo|].
  split; [eapply ptrs_data; eassumption|]. eapply forall2_imp; [|exact Fs]. intros a b _. apply view_shell_keeps. exact K.
Qed.

Lemma grpp_moved h g gv ocp C : heap_wf h -> grpp_at h g gv ocp -> grpp_at (moved_heap C ocp h) g (moved_gv C gv) ocp.
Proof.
  intros W (x & pa & pe & po & Eg & Hl & Na & Pa & Fa & Ne & Pe & Fe & No & Po & Fo & Ps & Fs). pose proof (moved_data C ocp h) as KD.
  exists x, pa, pe, po. split; [apply moved_not_shell; [exact Eg|discriminate]|]. cbn [moved_gv gv_local gv_arep gv_esop gv_oc]. split.
  { destruct (gv_local gv); [|exact Hl]. eapply view_pot_data; eassumption. }
  assert (VP : forall l m, Forall2 (fun p v => view_pot h p = Ok v) l m -> Forall2 (fun p v => view_pot (moved_heap C ocp h) p = Ok v) l m).
  { intros l m. apply forall2_imp. intros a b _. apply view_pot_data. exact KD. }
  split; [exact Na|]. split; [eapply ptrs_data; eassumption|]. split; [apply VP; exact Fa|].
  split; [exact Ne|]. split; [eapply ptrs_data; eassumption|]. split; [apply VP; exact Fe|].
  split; [exact No|]. split; [eapply ptrs_data; eassumption|]. rewrite !map_map.
  replace (map (fun a : vpot * vshell => fst (let '(p, s) := a in (p, move_shell s C))) (gv_oc gv)) with (map fst (gv_oc gv)) by (apply map_ext; intros [? ?]; reflexivity).
  replace (map (fun a : vpot * vshell => snd (let '(p, s) := a in (p, move_shell s C))) (gv_oc gv)) with (map (fun s => move_shell s C) (map snd (gv_oc gv)))
    by (rewrite map_map; apply map_ext; intros [? ?]; reflexivity).
  split; [apply VP; exact Fo|]. split; [eapply ptrs_data; eassumption|].
  assert (M : Forall2 (fun p v => view_shell (moved_heap C ocp h) p = Ok (move_shell v C)) ocp (map snd (gv_oc gv))).
  { eapply forall2_imp; [|exact Fs]. intros a b Hin Hv. rewrite (view_shell_moved C ocp h a b Hv), (proj2 (existsb_In a ocp) Hin). reflexivity. }
  clear - M. revert M. generalize (moved_heap C ocp h). intros hh M. induction M as [|a b l m H M IH]; constructor; assumption.
Qed.

Lemma std_moved h p v comps C ps : std_shell h p v comps -> ~ In p ps -> std_shell (moved_heap C ps h) p v comps.
Proof.
  intros ((s & lc & la & H1 & H2 & H3 & H4 & Rest) & Rest2) N. split; [|exact Rest2]. exists s, lc, la. split.
  - cbn [moved_heap hblk]. rewrite (proj2 (existsb_notIn p ps) N). exact H1.
  - split; [apply moved_not_shell; [exact H2|discriminate]|]. split; [apply moved_not_shell; [exact H3|discriminate]|].
    split; [apply moved_not_shell; [exact H4|discriminate]|exact Rest].
Qed.

(** blocks allocated beside [h0] stay beside the moved [h0] *)
Lemma rep_moved h0 h h2 cs C ps : rep h0 h cs -> (forall q, In q ps -> hblk h0 q <> None) -> hnext h2 = hnext h ->
  (forall q, hblk h2 q = hblk (moved_heap C ps h) q) -> rep (moved_heap C ps h0) h2 cs.
Proof.
  intros (W & Nx & ND & In1 & Out1) Live E2 V. destruct (moved_wf C ps h W) as (W1 & W2). split.
  - split; [rewrite E2; exact W1|]. intros q o. rewrite V, E2. apply W2.
  - split; [rewrite E2; exact Nx|]. split; [exact ND|]. split.
    + intros p o Hin. destruct (In1 p o Hin) as (Ha & Hb).
      assert (Np : ~ In p ps) by (intros Hp; apply (Live p Hp); exact Hb). rewrite V. cbn [moved_heap hblk]. rewrite (proj2 (existsb_notIn p ps) Np). auto.
    + intros p Hp. rewrite V. cbn [moved_heap hblk]. rewrite (Out1 p Hp). reflexivity.
Qed.

Lemma ocp_live h g gv ocp : grpp_at h g gv ocp -> forall q, In q ocp -> hblk h q <> None.
Proof.
  intros (x & pa & pe & po & Eg & Hl & Na & Pa & Fa & Ne & Pe & Fe & No & Po & Fo & Ps & Fs) q Hq.
  destruct (forall2_nth _ _ _ Fs) as (Ls & _). clear - Fs Hq. induction Fs as [|a b l m H F IH]; [contradiction|]. destruct Hq as [->|Hq]; [|apply IH; exact Hq].
  destruct (view_is_shell h q b H) as (s & E & _). congruence.
Qed.

Lemma same_blocks_keeps h h' : (forall q, hblk h' q = hblk h q) -> keeps h h'.
Proof. intros V q o H. rewrite V. exact H. Qed.
