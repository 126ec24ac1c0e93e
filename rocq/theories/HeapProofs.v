(** * Proofs about the heap model: cells, constructors, destructors. *)

From Coq Require Import ZArith List Lia Bool Reals Permutation.
From Verif Require Import Base CartModel CartProofs HeapModel.
Import ListNotations.
Open Scope Z_scope.

(** ** Well-formed heaps and cell lists *)

(** addresses in use are positive and below the allocation mark *)
Definition heap_wf (h : heap) : Prop :=
  0 < hnext h /\ forall p o, hblk h p = Some o -> 0 < p < hnext h.

(** [h] is [h0] plus exactly the blocks [cs] *)
Definition rep (h0 h : heap) (cs : list (Z * obj)) : Prop :=
  heap_wf h /\ hnext h0 <= hnext h /\
  NoDup (map fst cs) /\
  (forall p o, In (p, o) cs -> hblk h p = Some o /\ hblk h0 p = None) /\
  (forall p, ~ In p (map fst cs) -> hblk h p = hblk h0 p).

Lemma rep_start h : heap_wf h -> rep h h [].
Proof.
  intros W. repeat split; try (apply W); try lia; try constructor; simpl in *; try tauto.
  - destruct W as [_ W]. destruct (W _ _ H); lia.
  - destruct W as [_ W]. destruct (W _ _ H); lia.
Qed.

Lemma rep_end h0 h : rep h0 h [] -> forall p, hblk h p = hblk h0 p.
Proof. intros (_ & _ & _ & _ & H) p. apply H. simpl; tauto. Qed.

Lemma rep_perm h0 h cs cs' : Permutation cs cs' -> rep h0 h cs -> rep h0 h cs'.
Proof.
  intros P (A & B & C & D & E). unfold rep.
  split; [exact A|]. split; [exact B|]. split.
  - eapply Permutation_NoDup; [apply Permutation_map; exact P|exact C].
  - split.
    + intros p o Hin. apply D. eapply Permutation_in; [apply Permutation_sym; exact P|exact Hin].
    + intros p Hn. apply E. intro Hc. apply Hn.
      eapply Permutation_in; [apply Permutation_map; exact P|exact Hc].
Qed.

Lemma rep_pos h0 h cs p o : rep h0 h cs -> In (p, o) cs -> 0 < p < hnext h.
Proof.
  intros (W & _ & _ & D & _) Hin. destruct (D _ _ Hin) as [H _].
  destruct W as [_ W]. exact (W _ _ H).
Qed.

Lemma rep_load h0 h cs p o : rep h0 h cs -> In (p, o) cs -> hload h p = Ok o.
Proof.
  intros R0 Hin. pose proof (rep_pos _ _ _ _ _ R0 Hin).
  destruct R0 as (_ & _ & _ & D & _). destruct (D _ _ Hin) as [H1 _].
  unfold hload. destruct (Z.eqb_spec p 0); [lia|]. rewrite H1. reflexivity.
Qed.

Lemma rep_alloc h0 h cs o p h' : heap_wf h0 ->
  rep h0 h cs -> halloc h o = (p, h') -> rep h0 h' ((p, o) :: cs) /\ p = hnext h.
Proof.
  intros W0 (W & B & C & D & E) H. unfold halloc in H. injection H as <- <-.
  destruct W as [Wp W]. split; [|reflexivity].
  assert (Hfresh : hblk h (hnext h) = None).
  { destruct (hblk h (hnext h)) eqn:X; [|reflexivity]. destruct (W _ _ X); lia. }
  assert (Hnin : ~ In (hnext h) (map fst cs)).
  { intro Hc. apply in_map_iff in Hc. destruct Hc as ((q & o') & Hq & Hin). simpl in Hq. subst q.
    destruct (D _ _ Hin) as [X _]. congruence. }
  unfold rep; cbn [hnext hblk map fst]. split; [|split; [lia|]]; [|split; [constructor; assumption|]].
  - split; cbn [hnext hblk]; [lia|]. intros q o'. destruct (Z.eqb_spec q (hnext h)).
    + intros _. lia.
    + intros X. destruct (W _ _ X). lia.
  - split.
    + intros q o' [Heq|Hin].
      * injection Heq as <- <-. rewrite Z.eqb_refl. split; [reflexivity|].
        destruct (hblk h0 (hnext h)) eqn:X; [|reflexivity]. destruct W0 as [_ W0].
        destruct (W0 _ _ X). lia.
      * destruct (Z.eqb_spec q (hnext h)) as [->|].
        -- exfalso. apply Hnin. change (hnext h) with (fst (hnext h, o')). apply in_map. exact Hin.
        -- apply D. exact Hin.
    + intros q Hq. destruct (Z.eqb_spec q (hnext h)) as [->|]; [simpl in Hq; tauto|].
      apply E. simpl in Hq. tauto.
Qed.

Lemma rep_store h0 h cs p o o' : rep h0 h ((p, o) :: cs) ->
  exists h', hstore h p o' = Ok h' /\ rep h0 h' ((p, o') :: cs) /\ hnext h' = hnext h.
Proof.
  intros R0. assert (Hin : In (p, o) ((p, o) :: cs)) by (left; reflexivity).
  pose proof (rep_pos _ _ _ _ _ R0 Hin) as Hp.
  destruct R0 as (W & B & C & D & E). unfold hstore.
  destruct (Z.eqb_spec p 0); [lia|]. destruct (D _ _ Hin) as [X X0]. rewrite X.
  eexists; split; [reflexivity|]. split; [|reflexivity].
  cbn [map fst] in C. inversion C as [|? ? Hnin Hnd]; subst.
  unfold rep; cbn [hnext hblk map fst]. split; [|split; [exact B|split; [exact C|]]].
  - destruct W as [Wp W]. split; [exact Wp|]. cbn [hnext hblk]. intros q o''.
    destruct (Z.eqb_spec q p); [intros _; lia|apply W].
  - split.
    + intros q o'' [Heq|Hin'].
      * injection Heq as <- <-. rewrite Z.eqb_refl. tauto.
      * destruct (Z.eqb_spec q p) as [->|].
        -- exfalso. apply Hnin. change p with (fst (p, o'')). apply in_map. exact Hin'.
        -- apply D. right. exact Hin'.
    + intros q Hq. destruct (Z.eqb_spec q p) as [->|]; [simpl in Hq; tauto|]. apply E. exact Hq.
Qed.

Lemma rep_free h0 h cs p o : rep h0 h ((p, o) :: cs) ->
  exists h', hfree h p = Ok h' /\ rep h0 h' cs /\ hnext h' = hnext h.
Proof.
  intros R0. assert (Hin : In (p, o) ((p, o) :: cs)) by (left; reflexivity).
  pose proof (rep_pos _ _ _ _ _ R0 Hin) as Hp.
  destruct R0 as (W & B & C & D & E). unfold hfree.
  destruct (Z.eqb_spec p 0); [lia|]. destruct (D _ _ Hin) as [X X0]. rewrite X.
  eexists; split; [reflexivity|]. split; [|reflexivity].
  cbn [map fst] in C. inversion C as [|? ? Hnin Hnd]; subst.
  unfold rep; cbn [hnext hblk]. split; [|split; [exact B|split; [exact Hnd|]]].
  - destruct W as [Wp W]. split; [exact Wp|]. cbn [hnext hblk]. intros q o''.
    destruct (Z.eqb_spec q p); [discriminate|apply W].
  - split.
    + intros q o'' Hin'. destruct (Z.eqb_spec q p) as [->|].
      * exfalso. apply Hnin. change p with (fst (p, o'')). apply in_map. exact Hin'.
      * apply D. right. exact Hin'.
    + intros q Hq. destruct (Z.eqb_spec q p) as [->|]; [symmetry; exact X0|].
      apply E. simpl. intros [Heq|Hc]; [congruence|tauto].
Qed.

(** blocks of the starting heap are still there *)
Lemma rep_old h0 h cs p o : rep h0 h cs -> hblk h0 p = Some o -> hblk h p = Some o.
Proof.
  intros (_ & _ & _ & D & E) H. rewrite E; [exact H|].
  intro Hc. apply in_map_iff in Hc. destruct Hc as ((q & o') & Hq & Hin). simpl in Hq. subst q.
  destruct (D _ _ Hin). congruence.
Qed.

Lemma rep_load_old h0 h cs p o : heap_wf h0 -> rep h0 h cs -> hblk h0 p = Some o -> hload h p = Ok o.
Proof.
  intros [_ W] R0 H. pose proof (rep_old _ _ _ _ _ R0 H). unfold hload.
  destruct (W _ _ H). destruct (Z.eqb_spec p 0); [lia|]. rewrite H0. reflexivity.
Qed.

(** ** List helpers *)

Lemma list_set_length {A} (l : list A) n v : length (list_set l n v) = length l.
Proof. revert n; induction l; intros [|n]; simpl; auto. Qed.

Lemma elem_ok {A} (l : list A) i v : nth_error l (Z.to_nat i) = Some v -> 0 <= i -> elem l i = Ok v.
Proof. intros H Hi. unfold elem. destruct (Z.ltb_spec i 0); [lia|]. rewrite H. reflexivity. Qed.

Lemma elem_app {A} (l1 l2 : list A) v : elem (l1 ++ v :: l2) (Z.of_nat (length l1)) = Ok v.
Proof.
  apply elem_ok; [|lia]. rewrite Nat2Z.id. rewrite nth_error_app2 by lia.
  rewrite Nat.sub_diag. reflexivity.
Qed.

Lemma list_set_app {A} (l1 l2 : list A) v w :
  list_set (l1 ++ w :: l2) (length l1) v = l1 ++ v :: l2.
Proof. induction l1; simpl; [reflexivity|]. f_equal. exact IHl1. Qed.

Lemma elem_set_app {A} (l1 l2 : list A) v w :
  elem_set (l1 ++ w :: l2) (Z.of_nat (length l1)) v = Ok (l1 ++ v :: l2).
Proof.
  unfold elem_set. rewrite app_length; simpl length.
  destruct (Z.leb_spec 0 (Z.of_nat (length l1))); [|lia].
  destruct (Z.ltb_spec (Z.of_nat (length l1)) (Z.of_nat (length l1 + S (length l2)))); [|lia].
  simpl. rewrite Nat2Z.id. rewrite list_set_app. reflexivity.
Qed.

Lemma elem_set_full {A} (l : list A) i v : Z.of_nat (length l) <= i -> elem_set l i v = Fail OutOfBounds.
Proof.
  intros H. unfold elem_set. destruct (Z.ltb_spec i (Z.of_nat (length l))); [lia|].
  rewrite andb_false_r. reflexivity.
Qed.

Lemma repeat_split {A} (z : A) (n k : nat) : (k < n)%nat ->
  repeat z (n - k) = z :: repeat z (n - S k).
Proof. intros H. replace (n - k)%nat with (S (n - S k)) by lia. reflexivity. Qed.

Lemma elem_in_list {A} (l : list A) i : 0 <= i < Z.of_nat (length l) ->
  exists v, elem l i = Ok v /\ nth_error l (Z.to_nat i) = Some v.
Proof.
  intros H. destruct (nth_error l (Z.to_nat i)) as [v|] eqn:E.
  - exists v. split; [apply elem_ok; [exact E|lia]|reflexivity].
  - apply nth_error_None in E. lia.
Qed.

Lemma firstn_snoc {A} (l : list A) n v : nth_error l n = Some v ->
  firstn (S n) l = firstn n l ++ [v].
Proof. revert n; induction l as [|a l IH]; intros [|n] H; simpl in *; try discriminate.
  - injection H as ->. reflexivity.
  - f_equal. apply IH. exact H.
Qed.

Lemma nth_error_combine {A B} (l1 : list A) (l2 : list B) n x y :
  nth_error l1 n = Some x -> nth_error l2 n = Some y -> nth_error (combine l1 l2) n = Some (x, y).
Proof.
  revert l2 n; induction l1 as [|a l1 IH]; intros [|b l2] [|n]; simpl; try discriminate.
  - intros H1 H2. injection H1 as ->. injection H2 as ->. reflexivity.
  - apply IH.
Qed.

(** ** Typed access lemmas *)

Lemma rep_set_dbl h0 h cs p l1 l2 w v i :
  rep h0 h ((p, ODbls (l1 ++ w :: l2)) :: cs) -> i = Z.of_nat (length l1) ->
  exists h', set_dbl h p i v = Ok h' /\ rep h0 h' ((p, ODbls (l1 ++ v :: l2)) :: cs).
Proof.
  intros R0 ->. unfold set_dbl. rewrite (rep_load _ _ _ p _ R0) by (left; reflexivity).
  rewrite bind_ok. rewrite elem_set_app. rewrite bind_ok.
  destruct (rep_store _ _ _ _ _ (ODbls (l1 ++ v :: l2)) R0) as (h' & E & R1 & _). eauto.
Qed.

Lemma rep_set_int h0 h cs p l1 l2 w v i :
  rep h0 h ((p, OInts (l1 ++ w :: l2)) :: cs) -> i = Z.of_nat (length l1) ->
  exists h', set_int h p i v = Ok h' /\ rep h0 h' ((p, OInts (l1 ++ v :: l2)) :: cs).
Proof.
  intros R0 ->. unfold set_int. rewrite (rep_load _ _ _ p _ R0) by (left; reflexivity).
  rewrite bind_ok. rewrite elem_set_app. rewrite bind_ok.
  destruct (rep_store _ _ _ _ _ (OInts (l1 ++ v :: l2)) R0) as (h' & E & R1 & _). eauto.
Qed.

Lemma rep_set_ptr h0 h cs p l1 l2 w v i :
  rep h0 h ((p, OPtrs (l1 ++ w :: l2)) :: cs) -> i = Z.of_nat (length l1) ->
  exists h', set_ptr h p i v = Ok h' /\ rep h0 h' ((p, OPtrs (l1 ++ v :: l2)) :: cs).
Proof.
  intros R0 ->. unfold set_ptr. rewrite (rep_load _ _ _ p _ R0) by (left; reflexivity).
  rewrite bind_ok. rewrite elem_set_app. rewrite bind_ok.
  destruct (rep_store _ _ _ _ _ (OPtrs (l1 ++ v :: l2)) R0) as (h' & E & R1 & _). eauto.
Qed.

(** ** Cells of the three kinds of objects *)

Record pot_rep := mkPotRep {
  pr_ptr : ptr; pr_pp : ptr; pr_pc : ptr; pr_pa : ptr;
  pr_L : Z; pr_J : Z; pr_n : Z;
  pr_powers : list Z; pr_coeffs : list R; pr_alpha : list R }.

Definition pot_cells (x : pot_rep) : list (Z * obj) :=
  [ (pr_ptr x, OPot (mkPot (pr_L x) (pr_J x) (pr_n x) (pr_pp x) (pr_pc x) (pr_pa x)));
    (pr_pp x, OInts (pr_powers x)); (pr_pc x, ODbls (pr_coeffs x)); (pr_pa x, ODbls (pr_alpha x)) ].

Record shell_rep := mkShellRep {
  sr_ptr : ptr; sr_cart : ptr; sr_pc : ptr; sr_pa : ptr;
  sr_L : Z; sr_size : Z; sr_n : Z; sr_origin : R * R * R;
  sr_list : list Z; sr_coeffs : list R; sr_alpha : list R }.

Definition shell_cells (x : shell_rep) : list (Z * obj) :=
  [ (sr_ptr x, OShell (mkShell (sr_L x) (sr_size x) (sr_cart x) (sr_n x) (sr_pc x) (sr_pa x) (sr_origin x)));
    (sr_cart x, OInts (sr_list x)); (sr_pc x, ODbls (sr_coeffs x)); (sr_pa x, ODbls (sr_alpha x)) ].

(** permutation bookkeeping *)
Ltac perm :=
  cbn [app];
  lazymatch goal with
  | |- Permutation (?x :: ?l) ?r =>
      let rec go r k :=
        lazymatch r with
        | x :: ?t => k (@nil (Z * obj)) t
        | ?y :: ?t => go t ltac:(fun p s => k constr:(y :: p) s)
        end in
      go r ltac:(fun p s =>
        change (Permutation (x :: l) (p ++ x :: s)); apply Permutation_cons_app; perm)
  | |- Permutation ?l ?l => apply Permutation_refl
  end.

Lemma delete_potential_rep h0 h x cs : rep h0 h (pot_cells x ++ cs) ->
  exists h', delete_potential h (pr_ptr x) = Ok h' /\ rep h0 h' cs /\ hnext h' = hnext h.
Proof.
  intros R0. unfold delete_potential.
  assert (Hin : In (pr_ptr x, OPot (mkPot (pr_L x) (pr_J x) (pr_n x) (pr_pp x) (pr_pc x) (pr_pa x)))
                   (pot_cells x ++ cs)) by (left; reflexivity).
  pose proof (rep_pos _ _ _ _ _ R0 Hin) as Hp.
  destruct (Z.eqb_spec (pr_ptr x) 0); [lia|].
  unfold load_pot. rewrite (rep_load _ _ _ _ _ R0 Hin). rewrite !bind_ok.
  cbn [pot_powers pot_coeffs pot_alpha].
  unfold pot_cells in R0. cbn [app] in R0.
  eapply rep_perm in R0; [|apply perm_swap].
  destruct (rep_free _ _ _ _ _ R0) as (h1 & E1 & R1 & N1). rewrite E1, bind_ok.
  eapply rep_perm in R1; [|apply perm_swap].
  destruct (rep_free _ _ _ _ _ R1) as (h2 & E2 & R2 & N2). rewrite E2, bind_ok.
  eapply rep_perm in R2; [|apply perm_swap].
  destruct (rep_free _ _ _ _ _ R2) as (h3 & E3 & R3 & N3). rewrite E3, bind_ok.
  destruct (rep_free _ _ _ _ _ R3) as (h4 & E4 & R4 & N4). rewrite E4.
  exists h4. split; [reflexivity|]. split; [exact R4|congruence].
Qed.

Lemma delete_shell_rep h0 h x cs : rep h0 h (shell_cells x ++ cs) ->
  exists h', delete_shell h (sr_ptr x) = Ok h' /\ rep h0 h' cs /\ hnext h' = hnext h.
Proof.
  intros R0. unfold delete_shell.
  assert (Hin : In (sr_ptr x, OShell (mkShell (sr_L x) (sr_size x) (sr_cart x) (sr_n x) (sr_pc x) (sr_pa x) (sr_origin x)))
                   (shell_cells x ++ cs)) by (left; reflexivity).
  unfold load_shell. rewrite (rep_load _ _ _ _ _ R0 Hin). rewrite !bind_ok.
  cbn [sh_cart_list sh_coeffs sh_alpha].
  unfold shell_cells in R0. cbn [app] in R0.
  eapply rep_perm in R0; [|apply perm_swap].
  destruct (rep_free _ _ _ _ _ R0) as (h1 & E1 & R1 & N1). rewrite E1, bind_ok.
  eapply rep_perm in R1; [|apply perm_swap].
  destruct (rep_free _ _ _ _ _ R1) as (h2 & E2 & R2 & N2). rewrite E2, bind_ok.
  eapply rep_perm in R2; [|apply perm_swap].
  destruct (rep_free _ _ _ _ _ R2) as (h3 & E3 & R3 & N3). rewrite E3, bind_ok.
  destruct (rep_free _ _ _ _ _ R3) as (h4 & E4 & R4 & N4). rewrite E4.
  exists h4. split; [reflexivity|]. split; [exact R4|congruence].
Qed.

(** ** Shell constructor *)

Fixpoint flat3 (l : list (Z * Z * Z)) : list Z :=
  match l with [] => [] | (r, s, t) :: l' => r :: s :: t :: flat3 l' end.

Lemma arr_list_triples n : forall i a l, read_triples n i a = Ok l ->
  arr_list (3 * n) (3 * i) a = Ok (flat3 l).
Proof.
  induction n as [|n IH]; intros i a l H.
  - simpl in H. injection H as <-. reflexivity.
  - replace (3 * S n)%nat with (S (S (S (3 * n)))) by lia.
    cbn [arr_list]. cbn [read_triples] in H.
    rewrite Z.add_0_r in H.
    destruct (aget a [3 * i]) as [r|]; [|discriminate]. rewrite bind_ok in *.
    destruct (aget a [3 * i + 1]) as [s|]; [|discriminate]. rewrite bind_ok in *.
    replace (3 * i + 1 + 1) with (3 * i + 2) by lia.
    destruct (aget a [3 * i + 2]) as [t|]; [|discriminate]. rewrite bind_ok in *.
    destruct (read_triples n (i + 1) a) as [rest|] eqn:E; [|discriminate]. rewrite bind_ok in H.
    injection H as <-.
    replace (3 * i + 2 + 1) with (3 * (i + 1)) by lia.
    rewrite (IH _ _ _ E). reflexivity.
Qed.

Lemma generate_cart_h o h L : 0 <= L ->
  generate_shell_cartesians_h o h L = Ok (halloc h (OInts (flat3 (canon L)))).
Proof.
  intros HL. unfold generate_shell_cartesians_h.
  pose proof (shell_components_canon o L HL) as H. unfold shell_components in H.
  destruct (generate_shell_cartesians o L) as [a|]; [|discriminate]. rewrite bind_ok in *.
  pose proof (n_cart_2 L ltac:(lia)).
  replace (Z.to_nat (3 * n_cart L)) with (3 * Z.to_nat (n_cart L))%nat by nia.
  apply arr_list_triples in H. change (3 * 0) with 0 in H. rewrite H. reflexivity.
Qed.

Definition nprim_ok (n : Z) (l : list R) := 0 <= n <= Z.of_nat (length l).

Lemma new_shell_rep ord h0 h cs origin L n coeffs alpha lc la :
  heap_wf h0 -> rep h0 h cs -> 0 <= L ->
  hblk h coeffs = Some (ODbls lc) -> hblk h alpha = Some (ODbls la) ->
  nprim_ok n lc -> nprim_ok n la ->
  exists h' x, new_shell ord h origin L n coeffs alpha = Ok (sr_ptr x, h') /\
    rep h0 h' (shell_cells x ++ cs) /\
    sr_L x = L /\ sr_size x = n_cart L /\ sr_n x = n /\ sr_origin x = origin /\
    sr_list x = flat3 (canon L) /\
    sr_coeffs x = firstn (Z.to_nat n) lc /\ sr_alpha x = firstn (Z.to_nat n) la /\
    sr_ptr x = hnext h /\ hnext h' = hnext h + 4.
Proof.
  intros W0 R0 HL Hc Ha [Hn Hnc] [_ Hna]. unfold new_shell.
  assert (Wh : heap_wf h) by (destruct R0; assumption).
  destruct (halloc h _) as [shell h1] eqn:A1.
  destruct (rep_alloc _ _ _ _ _ _ W0 R0 A1) as [R1 P1].
  rewrite generate_cart_h by exact HL. rewrite bind_ok.
  destruct (halloc h1 _) as [cart h2] eqn:A2.
  destruct (rep_alloc _ _ _ _ _ _ W0 R1 A2) as [R2 P2].
  destruct (halloc h2 _) as [pc h3] eqn:A3.
  destruct (rep_alloc _ _ _ _ _ _ W0 R2 A3) as [R3 P3].
  destruct (halloc h3 _) as [pa h4] eqn:A4.
  destruct (rep_alloc _ _ _ _ _ _ W0 R3 A4) as [R4 P4].
  assert (N1 : hnext h1 = hnext h + 1) by (unfold halloc in A1; injection A1 as <- <-; reflexivity).
  assert (N2 : hnext h2 = hnext h1 + 1) by (unfold halloc in A2; injection A2 as <- <-; reflexivity).
  assert (N3 : hnext h3 = hnext h2 + 1) by (unfold halloc in A3; injection A3 as <- <-; reflexivity).
  assert (N4 : hnext h4 = hnext h3 + 1) by (unfold halloc in A4; injection A4 as <- <-; reflexivity).
  (* bring the struct cell to the front *)
  set (zc := zeros 0%R n) in *.
  assert (R5 : rep h0 h4 ((shell, OShell (mkShell L 0 0 0 0 0 origin)) :: (cart, OInts (flat3 (canon L)))
             :: (pc, ODbls zc) :: (pa, ODbls zc) :: cs)).
  { eapply rep_perm; [|exact R4].
    perm. }
  destruct (rep_store _ _ _ _ _ (OShell (mkShell L (n_cart L) cart n pc pa origin)) R5)
    as (h5 & E5 & R6 & N5). rewrite E5, bind_ok.
  set (sc := (shell, OShell (mkShell L (n_cart L) cart n pc pa origin))) in *.
  set (cc := (cart, OInts (flat3 (canon L)))) in *.
  destruct (for_range_ok (fun i h' =>
      rep h0 h' ((pc, ODbls (firstn (Z.to_nat i) lc ++ repeat 0%R (Z.to_nat n - Z.to_nat i)))
              :: (pa, ODbls (firstn (Z.to_nat i) la ++ repeat 0%R (Z.to_nat n - Z.to_nat i)))
              :: sc :: cc :: cs) /\ hnext h' = hnext h5 /\
      hblk h' coeffs = Some (ODbls lc) /\ hblk h' alpha = Some (ODbls la))
      0 n (fun i h =>
      let* c := get_dbl h coeffs i in
      let* h := set_dbl h pc i c in
      let* a := get_dbl h alpha i in
      set_dbl h pa i a) h5) as (h6 & E6 & R7 & N6 & _ & _).
  - lia.
  - split; [|split; [reflexivity|]].
    + cbn [Z.to_nat firstn app]. rewrite Nat.sub_0_r. unfold zc, zeros in R6.
      eapply rep_perm; [|exact R6].
      perm.
    + (* the caller's arrays are still live and unchanged *)
      assert (Hpres : forall q o, hblk h q = Some o -> hblk h5 q = Some o).
      { intros q o Hq. destruct Wh as [_ Wh]. destruct (Wh _ _ Hq) as [Hq1 Hq2].
        unfold hstore in E5. destruct (Z.eqb_spec shell 0); [discriminate|].
        destruct (hblk h4 shell); [|discriminate]. injection E5 as <-. cbn [hblk].
        destruct (Z.eqb_spec q shell); [lia|].
        unfold halloc in *. injection A4 as <- <-. injection A3 as <- <-.
        injection A2 as <- <-. injection A1 as <- <-. cbn [hblk hnext] in *.
        repeat (match goal with |- context [?a =? ?b] => destruct (Z.eqb_spec a b); [lia|] end).
        exact Hq. }
      split; apply Hpres; assumption.
  - intros i h' Hi (R7 & N7 & Hc' & Ha').
    assert (Wh' : heap_wf h') by (destruct R7; assumption).
    assert (Hcpos : 0 < coeffs < hnext h') by (apply Wh' in Hc'; exact Hc').
    assert (Hapos : 0 < alpha < hnext h') by (apply Wh' in Ha'; exact Ha').
    destruct (elem_in_list lc i) as (c & Ec & Ec'); [lia|].
    destruct (elem_in_list la i) as (a & Ea & Ea'); [lia|].
    assert (Hcold : coeffs < hnext h) by (destruct Wh as [_ Wh]; destruct (Wh _ _ Hc); lia).
    assert (Haold : alpha < hnext h) by (destruct Wh as [_ Wh]; destruct (Wh _ _ Ha); lia).
    unfold get_dbl at 1. unfold hload. destruct (Z.eqb_spec coeffs 0); [lia|]. rewrite Hc'.
    rewrite !bind_ok, Ec, bind_ok.
    rewrite (repeat_split _ (Z.to_nat n) (Z.to_nat i)) in R7 by lia.
    assert (Hl : forall l : list R, n <= Z.of_nat (length l) ->
                 i = Z.of_nat (length (firstn (Z.to_nat i) l))).
    { intros l Hl. rewrite firstn_length. lia. }
    destruct (rep_set_dbl _ _ _ _ _ _ _ c i R7 (Hl lc ltac:(lia))) as (h8 & E8 & R8).
    rewrite E8, bind_ok.
    assert (Hold8 : forall q, q < hnext h -> hblk h8 q = hblk h' q /\ hnext h8 = hnext h').
    { intros q Hq. unfold set_dbl, hload in E8. destruct (pc =? 0); [discriminate|].
      destruct (hblk h' pc) as [[]|] eqn:X; try discriminate. rewrite bind_ok in E8.
      destruct (elem_set l i c); [|discriminate]. rewrite bind_ok in E8.
      unfold hstore in E8. destruct (pc =? 0); [discriminate|]. rewrite X in E8.
      injection E8 as <-. cbn [hblk hnext]. split; [|reflexivity].
      destruct (Z.eqb_spec q pc); [lia|reflexivity]. }
    destruct (Hold8 alpha Haold) as [Ha8 N8]. destruct (Hold8 coeffs Hcold) as [Hc8 _].
    unfold get_dbl at 1. unfold hload. destruct (Z.eqb_spec alpha 0); [lia|]. rewrite Ha8, Ha'.
    rewrite !bind_ok, Ea, bind_ok.
    eapply rep_perm in R8; [|apply perm_swap].
    destruct (rep_set_dbl _ _ _ _ _ _ _ a i R8 (Hl la ltac:(lia))) as (h9 & E9 & R9).
    rewrite E9. eexists; split; [reflexivity|].
    assert (Hold9 : forall q, q < hnext h -> hblk h9 q = hblk h8 q /\ hnext h9 = hnext h8).
    { intros q Hq. unfold set_dbl, hload in E9. destruct (pa =? 0); [discriminate|].
      destruct (hblk h8 pa) as [[]|] eqn:X; try discriminate. rewrite bind_ok in E9.
      destruct (elem_set l i a); [|discriminate]. rewrite bind_ok in E9.
      unfold hstore in E9. destruct (pa =? 0); [discriminate|]. rewrite X in E9.
      injection E9 as <-. cbn [hblk hnext]. split; [|reflexivity].
      destruct (Z.eqb_spec q pa); [lia|reflexivity]. }
    destruct (Hold9 alpha Haold) as [Ha9 N9]. destruct (Hold9 coeffs Hcold) as [Hc9 _].
    split; [|split; [congruence|split; congruence]].
    replace (Z.to_nat (i + 1)) with (S (Z.to_nat i)) by lia.
    rewrite (firstn_snoc lc _ _ Ec'), (firstn_snoc la _ _ Ea').
    rewrite <- !app_assoc. cbn [app].
    eapply rep_perm; [apply perm_swap|exact R9].
  - rewrite E6, bind_ok.
    rewrite Nat.sub_diag in R7. cbn [repeat] in R7. rewrite !app_nil_r in R7.
    exists h6, (mkShellRep shell cart pc pa L (n_cart L) n origin (flat3 (canon L))
                  (firstn (Z.to_nat n) lc) (firstn (Z.to_nat n) la)).
    cbn [sr_ptr sr_L sr_size sr_n sr_origin sr_list sr_coeffs sr_alpha].
    split; [reflexivity|]. split.
    + unfold shell_cells; cbn. fold sc cc. eapply rep_perm; [|exact R7].
      perm.
    + repeat split; try reflexivity; lia.
Qed.

(** ** Frame facts of single element writes *)

Lemma set_dbl_frame h p i v h' : set_dbl h p i v = Ok h' ->
  hnext h' = hnext h /\ forall q, q <> p -> hblk h' q = hblk h q.
Proof.
  unfold set_dbl, hload. destruct (p =? 0); [discriminate|].
  destruct (hblk h p) as [[]|] eqn:X; try discriminate. rewrite bind_ok.
  destruct (elem_set l i v); [|discriminate]. rewrite bind_ok.
  unfold hstore. destruct (p =? 0); [discriminate|]. rewrite X. intros E.
  injection E as <-. cbn [hblk hnext]. split; [reflexivity|]. intros q Hq.
  destruct (Z.eqb_spec q p); [lia|reflexivity].
Qed.

Lemma set_int_frame h p i v h' : set_int h p i v = Ok h' ->
  hnext h' = hnext h /\ forall q, q <> p -> hblk h' q = hblk h q.
Proof.
  unfold set_int, hload. destruct (p =? 0); [discriminate|].
  destruct (hblk h p) as [[]|] eqn:X; try discriminate. rewrite bind_ok.
  destruct (elem_set l i v); [|discriminate]. rewrite bind_ok.
  unfold hstore. destruct (p =? 0); [discriminate|]. rewrite X. intros E.
  injection E as <-. cbn [hblk hnext]. split; [reflexivity|]. intros q Hq.
  destruct (Z.eqb_spec q p); [lia|reflexivity].
Qed.

Lemma set_ptr_frame h p i v h' : set_ptr h p i v = Ok h' ->
  hnext h' = hnext h /\ forall q, q <> p -> hblk h' q = hblk h q.
Proof.
  unfold set_ptr, hload. destruct (p =? 0); [discriminate|].
  destruct (hblk h p) as [[]|] eqn:X; try discriminate. rewrite bind_ok.
  destruct (elem_set l i v); [|discriminate]. rewrite bind_ok.
  unfold hstore. destruct (p =? 0); [discriminate|]. rewrite X. intros E.
  injection E as <-. cbn [hblk hnext]. split; [reflexivity|]. intros q Hq.
  destruct (Z.eqb_spec q p); [lia|reflexivity].
Qed.

Lemma halloc_frame h o p h' : halloc h o = (p, h') ->
  p = hnext h /\ hnext h' = hnext h + 1 /\ forall q, q <> p -> hblk h' q = hblk h q.
Proof.
  unfold halloc. intros E. injection E as <- <-. cbn [hnext hblk].
  split; [reflexivity|]. split; [reflexivity|]. intros q Hq.
  destruct (Z.eqb_spec q (hnext h)); [lia|reflexivity].
Qed.

Lemma hstore_frame h p o h' : hstore h p o = Ok h' ->
  hnext h' = hnext h /\ forall q, q <> p -> hblk h' q = hblk h q.
Proof.
  unfold hstore. destruct (p =? 0); [discriminate|]. destruct (hblk h p); [|discriminate].
  intros E. injection E as <-. cbn [hnext hblk]. split; [reflexivity|].
  intros q Hq. destruct (Z.eqb_spec q p); [lia|reflexivity].
Qed.

Lemma get_dbl_ok h p l i v : heap_wf h -> hblk h p = Some (ODbls l) ->
  nth_error l (Z.to_nat i) = Some v -> 0 <= i -> get_dbl h p i = Ok v.
Proof.
  intros [_ W] H Hn Hi. destruct (W _ _ H). unfold get_dbl, hload.
  destruct (Z.eqb_spec p 0); [lia|]. rewrite H, bind_ok. apply elem_ok; assumption.
Qed.

Lemma get_int_ok h p l i v : heap_wf h -> hblk h p = Some (OInts l) ->
  nth_error l (Z.to_nat i) = Some v -> 0 <= i -> get_int h p i = Ok v.
Proof.
  intros [_ W] H Hn Hi. destruct (W _ _ H). unfold get_int, hload.
  destruct (Z.eqb_spec p 0); [lia|]. rewrite H, bind_ok. apply elem_ok; assumption.
Qed.

(** ** Primitive lists and compaction *)

(** a primitive: power of r, coefficient, exponent *)
Notation prim := (Z * R * R)%type.

Fixpoint zip3 (lp : list Z) (lc la : list R) : list prim :=
  match lp, lc, la with
  | p :: lp', c :: lc', a :: la' => (p, c, a) :: zip3 lp' lc' la'
  | _, _, _ => []
  end.

Definition p_pow (x : prim) : Z := fst (fst x).
Definition p_coef (x : prim) : R := snd (fst x).
Definition p_exp (x : prim) : R := snd x.

Lemma zip3_nth lp : forall lc la n p c a,
  nth_error lp n = Some p -> nth_error lc n = Some c -> nth_error la n = Some a ->
  nth_error (zip3 lp lc la) n = Some (p, c, a).
Proof.
  induction lp as [|p0 lp IH]; intros [|c0 lc] [|a0 la] [|n] p c a; simpl; try discriminate.
  - intros H1 H2 H3. injection H1 as ->. injection H2 as ->. injection H3 as ->. reflexivity.
  - apply IH.
Qed.

Lemma zip3_firstn lp : forall lc la n,
  zip3 (firstn n lp) (firstn n lc) (firstn n la) = firstn n (zip3 lp lc la).
Proof.
  induction lp as [|p lp IH]; intros [|c lc] [|a la] [|n]; simpl; try reflexivity.
  f_equal. apply IH.
Qed.

(** kept by the constructor: potential.c 37-39 *)
Definition keep_new (x : prim) : bool :=
  if Rlt_dec (Rabs (p_coef x)) zero_thresh then false else true.

(** kept by the shrinking functions: shell.c 72, potential.c 97 *)
Definition keep_shrink (x : prim) : bool :=
  if Rlt_dec zero_thresh (Rabs (p_coef x)) then true else false.

Lemma filter_snoc {A} (f : A -> bool) l x :
  filter f (l ++ [x]) = filter f l ++ (if f x then [x] else []).
Proof. rewrite filter_app. simpl. destruct (f x); reflexivity. Qed.

Lemma filter_length_le {A} (f : A -> bool) l : (length (filter f l) <= length l)%nat.
Proof. induction l as [|a l IH]; simpl; [lia|]. destruct (f a); simpl; lia. Qed.

Lemma filter_firstn_le {A} (f : A -> bool) l n : (length (filter f (firstn n l)) <= n)%nat.
Proof.
  eapply Nat.le_trans; [apply filter_length_le|]. rewrite firstn_length. lia.
Qed.

(** contents of an array after [ks] values were written to the front of a
    zero-filled array of size n *)
Definition front {A} (z : A) (ks : list A) (n : Z) : list A :=
  ks ++ repeat z (Z.to_nat n - length ks).

Lemma front_cons {A} (z : A) ks n : (length ks < Z.to_nat n)%nat ->
  front z ks n = ks ++ z :: repeat z (Z.to_nat n - S (length ks)).
Proof. intros H. unfold front. rewrite repeat_split by exact H. reflexivity. Qed.

Lemma front_snoc {A} (z : A) ks n v : (length ks < Z.to_nat n)%nat ->
  ks ++ v :: repeat z (Z.to_nat n - S (length ks)) = front z (ks ++ [v]) n.
Proof.
  intros H. unfold front. rewrite <- app_assoc. cbn [app]. rewrite app_length. cbn [length].
  do 3 f_equal. lia.
Qed.

Definition arrays_hold (h : heap) (pp pc pa : ptr) (lp : list Z) (lc la : list R) : Prop :=
  hblk h pp = Some (OInts lp) /\ hblk h pc = Some (ODbls lc) /\ hblk h pa = Some (ODbls la).

Lemma new_potential_rep h0 h cs L J n powers coeffs alpha lp lc la :
  heap_wf h0 -> rep h0 h cs ->
  arrays_hold h powers coeffs alpha lp lc la ->
  0 <= n <= Z.of_nat (length lp) -> nprim_ok n lc -> nprim_ok n la ->
  exists h' x, new_potential h L J n powers coeffs alpha = Ok (pr_ptr x, h') /\
    rep h0 h' (pot_cells x ++ cs) /\
    pr_L x = L /\ pr_J x = J /\
    let ks := filter keep_new (firstn (Z.to_nat n) (zip3 lp lc la)) in
    pr_n x = Z.of_nat (length ks) /\
    pr_powers x = front 0 (map p_pow ks) n /\
    pr_coeffs x = front 0%R (map p_coef ks) n /\
    pr_alpha x = front 0%R (map p_exp ks) n /\
    pr_ptr x = hnext h /\ hnext h' = hnext h + 4.
Proof.
  intros W0 R0 (Hp & Hc & Ha) Hn [_ Hnc] [_ Hna]. unfold new_potential.
  assert (Wh : heap_wf h) by (destruct R0; assumption).
  destruct (halloc h _) as [pot h1] eqn:A1.
  destruct (rep_alloc _ _ _ _ _ _ W0 R0 A1) as [R1 _].
  destruct (halloc h1 _) as [pp h2] eqn:A2.
  destruct (rep_alloc _ _ _ _ _ _ W0 R1 A2) as [R2 _].
  destruct (halloc h2 _) as [pc h3] eqn:A3.
  destruct (rep_alloc _ _ _ _ _ _ W0 R2 A3) as [R3 _].
  destruct (halloc h3 _) as [pa h4] eqn:A4.
  destruct (rep_alloc _ _ _ _ _ _ W0 R3 A4) as [R4 _].
  destruct (halloc_frame _ _ _ _ A1) as (P1 & N1 & F1).
  destruct (halloc_frame _ _ _ _ A2) as (P2 & N2 & F2).
  destruct (halloc_frame _ _ _ _ A3) as (P3 & N3 & F3).
  destruct (halloc_frame _ _ _ _ A4) as (P4 & N4 & F4).
  assert (Hold : forall q, q < hnext h -> hblk h4 q = hblk h q).
  { intros q Hq. rewrite F4, F3, F2, F1 by lia. reflexivity. }
  assert (Bp : powers < hnext h) by (destruct Wh as [_ Wh]; destruct (Wh _ _ Hp); lia).
  assert (Bc : coeffs < hnext h) by (destruct Wh as [_ Wh]; destruct (Wh _ _ Hc); lia).
  assert (Ba : alpha < hnext h) by (destruct Wh as [_ Wh]; destruct (Wh _ _ Ha); lia).
  set (zs := zip3 lp lc la).
  set (ks := fun i => filter keep_new (firstn (Z.to_nat i) zs)).
  destruct (for_range_ok (fun i '(h', k) =>
      k = Z.of_nat (length (ks i)) /\
      rep h0 h' ((pc, ODbls (front 0%R (map p_coef (ks i)) n))
              :: (pp, OInts (front 0 (map p_pow (ks i)) n))
              :: (pa, ODbls (front 0%R (map p_exp (ks i)) n))
              :: (pot, OPot (mkPot 0 0 0 0 0 0)) :: cs) /\ hnext h' = hnext h4 /\
      forall q, q < hnext h -> hblk h' q = hblk h q)
      0 n (fun i '(h, n) =>
      let* c := get_dbl h coeffs i in
      if Rlt_dec (Rabs c) zero_thresh then Ok (h, n)
      else
        let* h := set_dbl h pc n c in
        let* k := get_int h powers i in
        let* h := set_int h pp n k in
        let* a := get_dbl h alpha i in
        let* h := set_dbl h pa n a in
        Ok (h, n + 1)) (h4, 0)) as ((h6 & k6) & E6 & K6 & R6 & N6 & F6).
  - lia.
  - split; [reflexivity|]. split; [|split; [reflexivity|exact Hold]].
    unfold ks, front. cbn [Z.to_nat firstn filter map app length]. rewrite Nat.sub_0_r.
    eapply rep_perm; [|exact R4]. unfold zeros. perm.
  - intros i (h', k) Hi (-> & R7 & N7 & F7).
    assert (Wh' : heap_wf h') by (destruct R7; assumption).
    destruct (elem_in_list lc i) as (c & _ & Ec); [lia|].
    destruct (elem_in_list la i) as (a & _ & Ea); [lia|].
    destruct (elem_in_list lp i) as (e & _ & Ep); [lia|].
    rewrite (get_dbl_ok h' coeffs lc i c) by (try assumption; try lia; rewrite F7 by lia; assumption).
    rewrite bind_ok.
    assert (Hks : ks (i + 1) = ks i ++ (if keep_new (e, c, a) then [(e, c, a)] else [])).
    { unfold ks. replace (Z.to_nat (i + 1)) with (S (Z.to_nat i)) by lia.
      rewrite (firstn_snoc zs _ (e, c, a)) by (apply zip3_nth; assumption).
      apply filter_snoc. }
    assert (Hlen : (length (ks i) < Z.to_nat n)%nat).
    { unfold ks. pose proof (filter_firstn_le keep_new zs (Z.to_nat i)). lia. }
    unfold keep_new in Hks. cbn [p_coef fst snd] in Hks.
    destruct (Rlt_dec (Rabs c) zero_thresh) as [Hlt|Hge].
    + rewrite app_nil_r in Hks. eexists; split; [reflexivity|]. rewrite Hks.
      split; [reflexivity|]. split; [exact R7|]. split; assumption.
    + rewrite !front_cons in R7 by (rewrite map_length; exact Hlen).
      destruct (rep_set_dbl _ _ _ _ _ _ _ c (Z.of_nat (length (ks i))) R7) as (h8 & E8 & R8);
        [rewrite map_length; reflexivity|].
      destruct (set_dbl_frame _ _ _ _ _ E8) as (N8 & F8).
      rewrite E8, bind_ok.
      assert (Wh8 : heap_wf h8) by (destruct R8; assumption).
      rewrite (get_int_ok h8 powers lp i e)
        by (try assumption; try lia; rewrite F8, F7 by lia; assumption).
      rewrite bind_ok.
      eapply rep_perm in R8; [|apply perm_swap].
      destruct (rep_set_int _ _ _ _ _ _ _ e (Z.of_nat (length (ks i))) R8) as (h9 & E9 & R9);
        [rewrite map_length; reflexivity|].
      destruct (set_int_frame _ _ _ _ _ E9) as (N9 & F9).
      rewrite E9, bind_ok.
      assert (Wh9 : heap_wf h9) by (destruct R9; assumption).
      rewrite (get_dbl_ok h9 alpha la i a)
        by (try assumption; try lia; rewrite F9, F8, F7 by lia; assumption).
      rewrite bind_ok.
      assert (R9' : rep h0 h9
        ((pa, ODbls (map p_exp (ks i) ++ 0%R :: repeat 0%R (Z.to_nat n - S (length (map p_exp (ks i))))))
         :: (pc, ODbls (map p_coef (ks i) ++ c :: repeat 0%R (Z.to_nat n - S (length (map p_coef (ks i))))))
         :: (pp, OInts (map p_pow (ks i) ++ e :: repeat 0 (Z.to_nat n - S (length (map p_pow (ks i))))))
         :: (pot, OPot (mkPot 0 0 0 0 0 0)) :: cs)).
      { eapply rep_perm; [|exact R9]. perm. }
      destruct (rep_set_dbl _ _ _ _ _ _ _ a (Z.of_nat (length (ks i))) R9') as (h10 & E10 & R10);
        [rewrite map_length; reflexivity|].
      destruct (set_dbl_frame _ _ _ _ _ E10) as (N10 & F10).
      rewrite E10, bind_ok. eexists; split; [reflexivity|].
      rewrite Hks, !map_app, app_length. cbn [map p_coef p_pow p_exp fst snd length].
      split; [lia|]. split; [|split; [congruence|]].
      * rewrite !front_snoc in R10 by (rewrite map_length; exact Hlen).
        eapply rep_perm; [|exact R10]. perm.
      * intros q Hq. rewrite F10, F9, F8, F7 by lia. reflexivity.
  - rewrite E6, bind_ok.
    assert (R7 : rep h0 h6 ((pot, OPot (mkPot 0 0 0 0 0 0))
              :: (pp, OInts (front 0 (map p_pow (ks n)) n))
              :: (pc, ODbls (front 0%R (map p_coef (ks n)) n))
              :: (pa, ODbls (front 0%R (map p_exp (ks n)) n)) :: cs)).
    { eapply rep_perm; [|exact R6]. perm. }
    destruct (rep_store _ _ _ _ _ (OPot (mkPot L J k6 pp pc pa)) R7) as (h7 & E7 & R8 & N7).
    rewrite E7, bind_ok.
    exists h7, (mkPotRep pot pp pc pa L J k6 (front 0 (map p_pow (ks n)) n)
                 (front 0%R (map p_coef (ks n)) n) (front 0%R (map p_exp (ks n)) n)).
    cbn. split; [reflexivity|]. split; [exact R8|].
    repeat split; try reflexivity; try assumption; lia.
Qed.
