(** * Proofs: GRPP containers and client histories. *)

From Coq Require Import ZArith List Lia Bool Reals Permutation.
From Verif Require Import Base CartModel CartProofs HeapModel HeapProofs HeapShrink.
Import ListNotations.
Open Scope Z_scope.

(** permutations of lists built from [::], [++] and opaque lists *)
Ltac permx_norm := rewrite ?app_nil_r, <- ?app_assoc; cbn [app].
Ltac permx :=
  permx_norm;
  lazymatch goal with
  | |- Permutation ?l ?l => apply Permutation_refl
  | |- Permutation (?x :: ?l) ?r =>
      let rec go r k :=
        lazymatch r with
        | x :: ?t => k (@nil (Z * obj)) t
        | ?y :: ?t => go t ltac:(fun p s => k constr:(y :: p) s)
        | ?Y ++ ?t => go t ltac:(fun p s => k constr:(Y ++ p) s)
        end in
      go r ltac:(fun p s =>
        replace r with (p ++ x :: s) by (permx_norm; reflexivity);
        apply Permutation_cons_app; permx)
  | |- Permutation (?A ++ ?l) ?r =>
      let rec go r k :=
        lazymatch r with
        | A ++ ?t => k (@nil (Z * obj)) t
        | A => k (@nil (Z * obj)) (@nil (Z * obj))
        | ?y :: ?t => go t ltac:(fun p s => k constr:(y :: p) s)
        | ?Y ++ ?t => go t ltac:(fun p s => k constr:(Y ++ p) s)
        end in
      go r ltac:(fun p s =>
        replace r with (p ++ A ++ s) by (permx_norm; reflexivity);
        apply (Permutation_trans (l' := A ++ p ++ s)); [apply Permutation_app_head | apply Permutation_app_swap_app]; permx)
  | |- Permutation ?A ?r =>
      let rec go r k :=
        lazymatch r with
        | A ++ ?t => k (@nil (Z * obj)) t
        | A => k (@nil (Z * obj)) (@nil (Z * obj))
        | ?y :: ?t => go t ltac:(fun p s => k constr:(y :: p) s)
        | ?Y ++ ?t => go t ltac:(fun p s => k constr:(Y ++ p) s)
        end in
      idtac
  end.

Definition optr (o : option pot_rep) : ptr := match o with Some x => pr_ptr x | None => 0 end.
Definition ocells (o : option pot_rep) : list (Z * obj) :=
  match o with Some x => pot_cells x | None => [] end.
Definition sptr (o : option shell_rep) : ptr := match o with Some x => sr_ptr x | None => 0 end.
Definition scells (o : option shell_rep) : list (Z * obj) :=
  match o with Some x => shell_cells x | None => [] end.

Record grpp_rep := mkGrppRep {
  gr_ptr : ptr; gr_ua : ptr; gr_ue : ptr; gr_uo : ptr; gr_us : ptr;
  gr_ul : option pot_rep;
  gr_a : list (option pot_rep); gr_e : list (option pot_rep);
  gr_o : list (option pot_rep); gr_s : list (option shell_rep) }.

(** the pointer array of one kind: absent while nothing was added *)
Definition arr_ptr {A} (u : ptr) (l : list A) : ptr := match l with [] => 0 | _ => u end.
Definition arr_cell {A} (f : A -> ptr) (u : ptr) (l : list A) : list (Z * obj) :=
  match l with [] => [] | _ => [(u, OPtrs (front 0 (map f l) max_number_potentials))] end.

Definition grpp_struct (g : grpp_rep) : grpp :=
  mkGrpp (Z.of_nat (length (gr_a g))) (Z.of_nat (length (gr_e g))) (Z.of_nat (length (gr_o g)))
         (optr (gr_ul g)) (arr_ptr (gr_ua g) (gr_a g)) (arr_ptr (gr_ue g) (gr_e g))
         (arr_ptr (gr_uo g) (gr_o g)) (arr_ptr (gr_us g) (gr_s g)).

Definition grpp_cells (g : grpp_rep) : list (Z * obj) :=
  (gr_ptr g, OGrpp (grpp_struct g)) ::
  ocells (gr_ul g) ++
  arr_cell optr (gr_ua g) (gr_a g) ++ flat_map ocells (gr_a g) ++
  arr_cell optr (gr_ue g) (gr_e g) ++ flat_map ocells (gr_e g) ++
  arr_cell optr (gr_uo g) (gr_o g) ++ flat_map ocells (gr_o g) ++
  arr_cell sptr (gr_us g) (gr_s g) ++ flat_map scells (gr_s g).

Definition grpp_ok (g : grpp_rep) : Prop :=
  (length (gr_a g) <= 100)%nat /\ (length (gr_e g) <= 100)%nat /\
  (length (gr_o g) <= 100)%nat /\ length (gr_s g) = length (gr_o g).

Lemma delete_opt_rep h0 h o cs : rep h0 h (ocells o ++ cs) ->
  exists h', (if optr o =? 0 then Ok h else delete_potential h (optr o)) = Ok h' /\ rep h0 h' cs.
Proof.
  intros R0. destruct o as [x|].
  - cbn [optr ocells] in *.
    assert (Hp : 0 < pr_ptr x).
    { eapply rep_pos; [exact R0|]. left. reflexivity. }
    destruct (Z.eqb_spec (pr_ptr x) 0); [lia|].
    destruct (delete_potential_rep _ _ _ _ R0) as (h' & E & R1 & _). eauto.
  - cbn in *. eauto.
Qed.

Lemma delete_sopt_rep h0 h o cs : rep h0 h (scells o ++ cs) ->
  exists h', (if sptr o =? 0 then Ok h else delete_shell h (sptr o)) = Ok h' /\ rep h0 h' cs.
Proof.
  intros R0. destruct o as [x|].
  - cbn [sptr scells] in *.
    assert (Hp : 0 < sr_ptr x).
    { eapply rep_pos; [exact R0|]. left. reflexivity. }
    destruct (Z.eqb_spec (sr_ptr x) 0); [lia|].
    destruct (delete_shell_rep _ _ _ _ R0) as (h' & E & R1 & _). eauto.
  - cbn in *. eauto.
Qed.

Lemma get_ptr_rep h0 h cs u l i v : rep h0 h cs -> In (u, OPtrs l) cs ->
  nth_error l (Z.to_nat i) = Some v -> 0 <= i -> get_ptr h u i = Ok v.
Proof.
  intros R0 Hin Hn Hi. unfold get_ptr. rewrite (rep_load _ _ _ _ _ R0 Hin), bind_ok.
  apply elem_ok; assumption.
Qed.

Lemma nth_front {A} (z : A) ks n i v : nth_error ks i = Some v -> nth_error (front z ks n) i = Some v.
Proof.
  intros H. unfold front. rewrite nth_error_app1; [exact H|].
  apply nth_error_Some. congruence.
Qed.

Lemma skipn_nth {A} (l : list A) n v : nth_error l n = Some v -> skipn n l = v :: skipn (S n) l.
Proof.
  revert n; induction l as [|a l IH]; intros [|n] H; try discriminate.
  - injection H as ->. reflexivity.
  - cbn [skipn]. apply IH. exact H.
Qed.

Lemma delete_pots_rep h0 h u l cs :
  rep h0 h (arr_cell optr u l ++ flat_map ocells l ++ cs) ->
  exists h', delete_pots h (Z.of_nat (length l)) (arr_ptr u l) = Ok h' /\
    rep h0 h' (arr_cell optr u l ++ cs).
Proof.
  intros R0. unfold delete_pots.
  destruct (for_range_ok (fun i h' =>
     rep h0 h' (arr_cell optr u l ++ flat_map ocells (skipn (Z.to_nat i) l) ++ cs))
     0 (Z.of_nat (length l)) (fun i h =>
    let* p := get_ptr h (arr_ptr u l) i in
    if p =? 0 then Ok h else delete_potential h p) h) as (h' & E & R1).
  - lia.
  - exact R0.
  - intros i h' Hi R1.
    destruct (elem_in_list l i) as (o & _ & Eo); [lia|].
    assert (Hu : arr_ptr u l = u) by (destruct l; [simpl in Hi; lia|reflexivity]).
    assert (Hin : In (u, OPtrs (front 0 (map optr l) max_number_potentials))
              (arr_cell optr u l ++ flat_map ocells (skipn (Z.to_nat i) l) ++ cs)).
    { apply in_or_app. left. destruct l; [simpl in Hi; lia|]. left. reflexivity. }
    rewrite Hu.
    rewrite (get_ptr_rep _ _ _ _ _ i (optr o) R1 Hin);
      [|apply nth_front; apply map_nth_error; exact Eo|lia].
    rewrite bind_ok.
    rewrite (skipn_nth _ _ _ Eo) in R1. cbn [flat_map] in R1.
    destruct (delete_opt_rep h0 h' o (arr_cell optr u l ++ flat_map ocells (skipn (S (Z.to_nat i)) l) ++ cs))
      as (h'' & E2 & R2).
    + eapply rep_perm; [|exact R1]. permx.
    + exists h''. split; [exact E2|]. replace (Z.to_nat (i + 1)) with (S (Z.to_nat i)) by lia. exact R2.
  - exists h'. split; [exact E|]. rewrite Nat2Z.id, skipn_all in R1. exact R1.
Qed.

Lemma free_arr_rep {A} (f : A -> ptr) h0 h u l cs :
  rep h0 h (arr_cell f u l ++ cs) ->
  exists h', hfree h (arr_ptr u l) = Ok h' /\ rep h0 h' cs.
Proof.
  intros R0. destruct l as [|a l].
  - cbn in *. unfold hfree. cbn. eauto.
  - cbn [arr_ptr]. cbn [arr_cell app] in R0.
    destruct (rep_free _ _ _ _ _ R0) as (h' & E & R1 & _). eauto.
Qed.

Lemma delete_oc_rep h0 h uo us (lo : list (option pot_rep)) ls cs :
  length ls = length lo ->
  rep h0 h (arr_cell optr uo lo ++ arr_cell sptr us ls ++ flat_map ocells lo ++ flat_map scells ls ++ cs) ->
  exists h', for_range 0 (Z.of_nat (length lo)) (fun i h =>
      let* p := get_ptr h (arr_ptr uo lo) i in
      let* h := if p =? 0 then Ok h else delete_potential h p in
      let* s := get_ptr h (arr_ptr us ls) i in
      if s =? 0 then Ok h else delete_shell h s) h = Ok h' /\
    rep h0 h' (arr_cell optr uo lo ++ arr_cell sptr us ls ++ cs).
Proof.
  intros Hlen R0.
  destruct (for_range_ok (fun i h' =>
     rep h0 h' (arr_cell optr uo lo ++ arr_cell sptr us ls ++
        flat_map ocells (skipn (Z.to_nat i) lo) ++ flat_map scells (skipn (Z.to_nat i) ls) ++ cs))
     0 (Z.of_nat (length lo)) (fun i h =>
      let* p := get_ptr h (arr_ptr uo lo) i in
      let* h := if p =? 0 then Ok h else delete_potential h p in
      let* s := get_ptr h (arr_ptr us ls) i in
      if s =? 0 then Ok h else delete_shell h s) h) as (h' & E & R1).
  - lia.
  - exact R0.
  - intros i h' Hi R1.
    destruct (elem_in_list lo i) as (o & _ & Eo); [lia|].
    destruct (elem_in_list ls i) as (s & _ & Es); [lia|].
    assert (Hu : arr_ptr uo lo = uo) by (destruct lo; [simpl in Hi; lia|reflexivity]).
    assert (Hs : arr_ptr us ls = us) by (destruct ls; [simpl in *; lia|reflexivity]).
    assert (Hin : In (uo, OPtrs (front 0 (map optr lo) max_number_potentials)) (arr_cell optr uo lo)).
    { destruct lo; [simpl in Hi; lia|]. left. reflexivity. }
    assert (Hins : In (us, OPtrs (front 0 (map sptr ls) max_number_potentials)) (arr_cell sptr us ls)).
    { destruct ls; [simpl in *; lia|]. left. reflexivity. }
    rewrite Hu, Hs.
    rewrite (get_ptr_rep _ _ _ _ _ i (optr o) R1 (in_or_app _ _ _ (or_introl Hin)));
      [|apply nth_front; apply map_nth_error; exact Eo|lia].
    rewrite bind_ok.
    rewrite (skipn_nth _ _ _ Eo), (skipn_nth _ _ _ Es) in R1. cbn [flat_map] in R1.
    destruct (delete_opt_rep h0 h' o (arr_cell optr uo lo ++ arr_cell sptr us ls ++
       flat_map ocells (skipn (S (Z.to_nat i)) lo) ++ scells s ++
       flat_map scells (skipn (S (Z.to_nat i)) ls) ++ cs))
      as (h2 & E2 & R2).
    { eapply rep_perm; [|exact R1]. permx. }
    rewrite E2, bind_ok.
    erewrite (get_ptr_rep _ _ _ us _ i (sptr s) R2);
      [|apply in_or_app; right; apply in_or_app; left; exact Hins
       |apply nth_front; apply map_nth_error; exact Es|lia].
    rewrite bind_ok.
    destruct (delete_sopt_rep h0 h2 s (arr_cell optr uo lo ++ arr_cell sptr us ls ++
       flat_map ocells (skipn (S (Z.to_nat i)) lo) ++
       flat_map scells (skipn (S (Z.to_nat i)) ls) ++ cs))
      as (h3 & E3 & R3).
    { eapply rep_perm; [|exact R2]. permx. }
    exists h3. split; [exact E3|]. replace (Z.to_nat (i + 1)) with (S (Z.to_nat i)) by lia. exact R3.
  - exists h'. split; [exact E|]. rewrite Nat2Z.id, skipn_all in R1.
    rewrite <- Hlen, skipn_all in R1. exact R1.
Qed.

Lemma delete_grpp_rep h0 h g cs : rep h0 h (grpp_cells g ++ cs) -> grpp_ok g ->
  exists h', delete_grpp h (gr_ptr g) = Ok h' /\ rep h0 h' cs.
Proof.
  intros R0 (_ & _ & _ & Hlen). unfold delete_grpp.
  assert (Hp : 0 < gr_ptr g) by (eapply rep_pos; [exact R0|left; reflexivity]).
  destruct (Z.eqb_spec (gr_ptr g) 0); [lia|].
  unfold load_grpp. rewrite (rep_load _ _ _ (gr_ptr g) _ R0) by (left; reflexivity).
  rewrite !bind_ok. unfold grpp_struct.
  cbn [g_UL g_n_arep g_Uarep g_n_esop g_Uesop g_n_oc g_Uoc g_ocshells].
  unfold grpp_cells in R0.
  set (sc := (gr_ptr g, OGrpp (grpp_struct g))) in *.
  destruct (delete_opt_rep h0 h (gr_ul g)
    (sc :: arr_cell optr (gr_ua g) (gr_a g) ++ flat_map ocells (gr_a g) ++
    arr_cell optr (gr_ue g) (gr_e g) ++ flat_map ocells (gr_e g) ++
    arr_cell optr (gr_uo g) (gr_o g) ++ flat_map ocells (gr_o g) ++
    arr_cell sptr (gr_us g) (gr_s g) ++ flat_map scells (gr_s g) ++ cs)) as (h1 & E1 & R1).
  { eapply rep_perm; [|exact R0]. permx. }
  rewrite E1, bind_ok.
  destruct (delete_pots_rep h0 h1 (gr_ua g) (gr_a g)
    (sc :: arr_cell optr (gr_ue g) (gr_e g) ++ flat_map ocells (gr_e g) ++
    arr_cell optr (gr_uo g) (gr_o g) ++ flat_map ocells (gr_o g) ++
    arr_cell sptr (gr_us g) (gr_s g) ++ flat_map scells (gr_s g) ++ cs)) as (h2 & E2 & R2).
  { eapply rep_perm; [|exact R1]. permx. }
  rewrite E2, bind_ok.
  destruct (free_arr_rep _ _ _ _ _ _ R2) as (h3 & E3 & R3). rewrite E3, bind_ok.
  destruct (delete_pots_rep h0 h3 (gr_ue g) (gr_e g)
    (sc :: arr_cell optr (gr_uo g) (gr_o g) ++ flat_map ocells (gr_o g) ++
    arr_cell sptr (gr_us g) (gr_s g) ++ flat_map scells (gr_s g) ++ cs)) as (h4 & E4 & R4).
  { eapply rep_perm; [|exact R3]. permx. }
  rewrite E4, bind_ok.
  destruct (free_arr_rep _ _ _ _ _ _ R4) as (h5 & E5 & R5). rewrite E5, bind_ok.
  destruct (delete_oc_rep h0 h5 (gr_uo g) (gr_us g) (gr_o g) (gr_s g) (sc :: cs) Hlen) as (h6 & E6 & R6).
  { eapply rep_perm; [|exact R5]. permx. }
  rewrite E6, bind_ok.
  destruct (free_arr_rep _ _ _ _ _ _ R6) as (h7 & E7 & R7). rewrite E7, bind_ok.
  destruct (free_arr_rep _ _ _ _ _ _ R7) as (h8 & E8 & R8). rewrite E8, bind_ok.
  unfold sc in R8. destruct (rep_free _ _ _ _ _ R8) as (h9 & E9 & R9 & _). eauto.
Qed.

Lemma set_local_rep h0 h g o cs : rep h0 h (grpp_cells g ++ ocells o ++ cs) ->
  exists h', set_local_potential h (gr_ptr g) (optr o) = Ok h' /\
    rep h0 h' (grpp_cells (mkGrppRep (gr_ptr g) (gr_ua g) (gr_ue g) (gr_uo g) (gr_us g) o
                (gr_a g) (gr_e g) (gr_o g) (gr_s g)) ++ cs).
Proof.
  intros R0. unfold set_local_potential, load_grpp.
  rewrite (rep_load _ _ _ (gr_ptr g) _ R0) by (left; reflexivity).
  rewrite !bind_ok. unfold grpp_struct.
  cbn [g_UL g_n_arep g_Uarep g_n_esop g_Uesop g_n_oc g_Uoc g_ocshells].
  unfold grpp_cells in R0.
  set (sc := (gr_ptr g, OGrpp (grpp_struct g))) in *.
  set (rest := arr_cell optr (gr_ua g) (gr_a g) ++ flat_map ocells (gr_a g) ++
    arr_cell optr (gr_ue g) (gr_e g) ++ flat_map ocells (gr_e g) ++
    arr_cell optr (gr_uo g) (gr_o g) ++ flat_map ocells (gr_o g) ++
    arr_cell sptr (gr_us g) (gr_s g) ++ flat_map scells (gr_s g)) in *.
  destruct (delete_opt_rep h0 h (gr_ul g) (sc :: ocells o ++ rest ++ cs)) as (h1 & E1 & R1).
  { eapply rep_perm; [|exact R0]. permx. }
  rewrite E1, bind_ok. unfold sc in R1.
  edestruct (rep_store _ _ _ _ _ (OGrpp (mkGrpp (Z.of_nat (length (gr_a g)))
      (Z.of_nat (length (gr_e g))) (Z.of_nat (length (gr_o g))) (optr o)
      (arr_ptr (gr_ua g) (gr_a g)) (arr_ptr (gr_ue g) (gr_e g)) (arr_ptr (gr_uo g) (gr_o g))
      (arr_ptr (gr_us g) (gr_s g)))) R1) as (h2 & E2 & R2 & _).
  exists h2. split; [exact E2|].
  eapply rep_perm; [|exact R2]. unfold grpp_cells, grpp_struct. cbn [gr_ptr gr_ua gr_ue gr_uo gr_us gr_ul gr_a gr_e gr_o gr_s].
  fold rest. permx.
Qed.

(** Adding one pointer to an array of one kind (grpp.c 33-37) *)
Lemma add_ptr_rep {A} (f : A -> ptr) h0 h u l (x : A) cs : heap_wf h0 ->
  rep h0 h (arr_cell f u l ++ cs) -> (length l < 100)%nat ->
  exists u' h1 h2,
    (if Z.of_nat (length l) =? 0 then new_ptr_array h else (arr_ptr u l, h)) = (u', h1) /\
    set_ptr h1 u' (Z.of_nat (length l)) (f x) = Ok h2 /\
    arr_ptr u' (l ++ [x]) = u' /\
    rep h0 h2 (arr_cell f u' (l ++ [x]) ++ cs).
Proof.
  intros W0 R0 Hl.
  assert (Hget : forall h1 u', rep h0 h1 ((u', OPtrs (front 0 (map f l) max_number_potentials)) :: cs) ->
     exists h2, set_ptr h1 u' (Z.of_nat (length l)) (f x) = Ok h2 /\
       arr_ptr u' (l ++ [x]) = u' /\
       rep h0 h2 (arr_cell f u' (l ++ [x]) ++ cs)).
  { intros h1 u' R1. rewrite front_cons in R1 by (rewrite map_length; exact Hl).
    destruct (rep_set_ptr _ _ _ _ _ _ _ (f x) (Z.of_nat (length l)) R1) as (h2 & E2 & R2);
      [rewrite map_length; reflexivity|].
    exists h2. split; [exact E2|]. split; [destruct l; reflexivity|].
    rewrite front_snoc in R2 by (rewrite map_length; exact Hl).
    assert (Hc : arr_cell f u' (l ++ [x]) = [(u', OPtrs (front 0 (map f l ++ [f x]) max_number_potentials))]).
    { destruct l; cbn [app arr_cell]; [reflexivity|]. cbn [map app]. rewrite map_app. reflexivity. }
    rewrite Hc. exact R2. }
  destruct l as [|a l].
  - cbn [length Z.of_nat]. rewrite Z.eqb_refl. unfold new_ptr_array.
    destruct (halloc h _) as [u' h1] eqn:A1.
    destruct (rep_alloc _ _ _ _ _ _ W0 R0 A1) as [R1 _].
    destruct (Hget h1 u') as (h2 & X).
    { eapply rep_perm; [|exact R1]. cbn. apply Permutation_refl. }
    exists u', h1, h2. split; [reflexivity|exact X].
  - destruct (Z.eqb_spec (Z.of_nat (length (a :: l))) 0); [simpl in *; lia|].
    cbn [arr_cell app] in R0. destruct (Hget h u R0) as (h2 & X).
    exists u, h, h2. split; [reflexivity|exact X].
Qed.

Lemma add_ptr_full {A} (f : A -> ptr) h0 h u l (v : ptr) cs :
  rep h0 h (arr_cell f u l ++ cs) -> length l = 100%nat ->
  set_ptr h (arr_ptr u l) 100 v = Fail OutOfBounds.
Proof.
  intros R0 Hl. destruct l as [|a l]; [discriminate|]. cbn [arr_cell app] in R0.
  unfold set_ptr. cbn [arr_ptr]. rewrite (rep_load _ _ _ u _ R0) by (left; reflexivity).
  rewrite bind_ok, elem_set_full; [reflexivity|].
  rewrite front_length; [reflexivity|]. rewrite map_length. rewrite Hl. vm_compute. lia.
Qed.

Definition with_a g ua a := mkGrppRep (gr_ptr g) ua (gr_ue g) (gr_uo g) (gr_us g) (gr_ul g)
  a (gr_e g) (gr_o g) (gr_s g).
Definition with_e g ue e := mkGrppRep (gr_ptr g) (gr_ua g) ue (gr_uo g) (gr_us g) (gr_ul g)
  (gr_a g) e (gr_o g) (gr_s g).
Definition with_oc g uo us o s := mkGrppRep (gr_ptr g) (gr_ua g) (gr_ue g) uo us (gr_ul g)
  (gr_a g) (gr_e g) o s.

Lemma flat_map_snoc {A B} (f : A -> list B) l x : flat_map f (l ++ [x]) = flat_map f l ++ f x.
Proof. rewrite flat_map_app. cbn. rewrite app_nil_r. reflexivity. Qed.

Lemma of_nat_snoc {A} (l : list A) x : Z.of_nat (length l) + 1 = Z.of_nat (length (l ++ [x])).
Proof. rewrite app_length. simpl. lia. Qed.

Lemma add_averaged_rep h0 h g o cs : heap_wf h0 ->
  rep h0 h (grpp_cells g ++ ocells o ++ cs) -> (length (gr_a g) < 100)%nat ->
  exists h' ua, add_averaged_potential h (gr_ptr g) (optr o) = Ok h' /\
    rep h0 h' (grpp_cells (with_a g ua (gr_a g ++ [o])) ++ cs).
Proof.
  intros W0 R0 Hl. unfold add_averaged_potential, load_grpp.
  rewrite (rep_load _ _ _ (gr_ptr g) _ R0) by (left; reflexivity).
  rewrite !bind_ok. unfold grpp_struct.
  cbn [g_UL g_n_arep g_Uarep g_n_esop g_Uesop g_n_oc g_Uoc g_ocshells].
  unfold grpp_cells in R0.
  set (sc := (gr_ptr g, OGrpp (grpp_struct g))) in *.
  set (rest := arr_cell optr (gr_ue g) (gr_e g) ++ flat_map ocells (gr_e g) ++
    arr_cell optr (gr_uo g) (gr_o g) ++ flat_map ocells (gr_o g) ++
    arr_cell sptr (gr_us g) (gr_s g) ++ flat_map scells (gr_s g)) in *.
  destruct (add_ptr_rep optr h0 h (gr_ua g) (gr_a g) o
     (sc :: ocells (gr_ul g) ++ flat_map ocells (gr_a g) ++ ocells o ++ rest ++ cs) W0)
    as (u' & h1 & h2 & E1 & E2 & Ep & R2); [|exact Hl|].
  { eapply rep_perm; [|exact R0]. permx. }
  rewrite E1, E2, bind_ok.
  assert (R3 : rep h0 h2 (sc :: arr_cell optr u' (gr_a g ++ [o]) ++ ocells (gr_ul g) ++
       flat_map ocells (gr_a g) ++ ocells o ++ rest ++ cs)).
  { eapply rep_perm; [|exact R2]. permx. }
  unfold sc in R3.
  edestruct (rep_store _ _ _ _ _ (OGrpp (mkGrpp (Z.of_nat (length (gr_a g)) + 1)
      (Z.of_nat (length (gr_e g))) (Z.of_nat (length (gr_o g))) (optr (gr_ul g))
      u' (arr_ptr (gr_ue g) (gr_e g)) (arr_ptr (gr_uo g) (gr_o g))
      (arr_ptr (gr_us g) (gr_s g)))) R3) as (h3 & E3 & R4 & _).
  exists h3, u'. split; [exact E3|].
  rewrite (of_nat_snoc _ o) in R4. rewrite <- Ep in R4 at 1.
  eapply rep_perm; [|exact R4]. unfold grpp_cells, grpp_struct, with_a.
  cbn [gr_ptr gr_ua gr_ue gr_uo gr_us gr_ul gr_a gr_e gr_o gr_s].
  rewrite flat_map_snoc. fold rest. permx.
Qed.

Lemma add_averaged_full h0 h g (v : ptr) cs :
  rep h0 h (grpp_cells g ++ cs) -> length (gr_a g) = 100%nat ->
  add_averaged_potential h (gr_ptr g) v = Fail OutOfBounds.
Proof.
  intros R0 Hl. unfold add_averaged_potential, load_grpp.
  rewrite (rep_load _ _ _ (gr_ptr g) _ R0) by (left; reflexivity).
  rewrite !bind_ok. unfold grpp_struct.
  cbn [g_UL g_n_arep g_Uarep g_n_esop g_Uesop g_n_oc g_Uoc g_ocshells].
  rewrite Hl. change (Z.of_nat 100 =? 0) with false. cbv iota. change (Z.of_nat 100) with 100.
  unfold grpp_cells in R0.
  set (sc := (gr_ptr g, OGrpp (grpp_struct g))) in *.
  erewrite (add_ptr_full optr h0 h (gr_ua g) (gr_a g) _
    (sc :: ocells (gr_ul g) ++ flat_map ocells (gr_a g) ++
     arr_cell optr (gr_ue g) (gr_e g) ++ flat_map ocells (gr_e g) ++
     arr_cell optr (gr_uo g) (gr_o g) ++ flat_map ocells (gr_o g) ++
     arr_cell sptr (gr_us g) (gr_s g) ++ flat_map scells (gr_s g) ++ cs)); [reflexivity| |exact Hl].
  eapply rep_perm; [|exact R0]. permx.
Qed.

Lemma add_spin_orbit_rep h0 h g o cs : heap_wf h0 ->
  rep h0 h (grpp_cells g ++ ocells o ++ cs) -> (length (gr_e g) < 100)%nat ->
  exists h' ue, add_spin_orbit_potential h (gr_ptr g) (optr o) = Ok h' /\
    rep h0 h' (grpp_cells (with_e g ue (gr_e g ++ [o])) ++ cs).
Proof.
  intros W0 R0 Hl. unfold add_spin_orbit_potential, load_grpp.
  rewrite (rep_load _ _ _ (gr_ptr g) _ R0) by (left; reflexivity).
  rewrite !bind_ok. unfold grpp_struct.
  cbn [g_UL g_n_arep g_Uarep g_n_esop g_Uesop g_n_oc g_Uoc g_ocshells].
  unfold grpp_cells in R0.
  set (sc := (gr_ptr g, OGrpp (grpp_struct g))) in *.
  set (rest := arr_cell optr (gr_ua g) (gr_a g) ++ flat_map ocells (gr_a g)) in *.
  set (rest2 := arr_cell optr (gr_uo g) (gr_o g) ++ flat_map ocells (gr_o g) ++
    arr_cell sptr (gr_us g) (gr_s g) ++ flat_map scells (gr_s g)) in *.
  destruct (add_ptr_rep optr h0 h (gr_ue g) (gr_e g) o
     (sc :: ocells (gr_ul g) ++ flat_map ocells (gr_e g) ++ ocells o ++ rest ++ rest2 ++ cs) W0)
    as (u' & h1 & h2 & E1 & E2 & Ep & R2); [|exact Hl|].
  { eapply rep_perm; [|exact R0]. unfold rest. permx. }
  rewrite E1, E2, bind_ok.
  assert (R3 : rep h0 h2 (sc :: arr_cell optr u' (gr_e g ++ [o]) ++ ocells (gr_ul g) ++
       flat_map ocells (gr_e g) ++ ocells o ++ rest ++ rest2 ++ cs)).
  { eapply rep_perm; [|exact R2]. permx. }
  unfold sc in R3.
  edestruct (rep_store _ _ _ _ _ (OGrpp (mkGrpp (Z.of_nat (length (gr_a g)))
      (Z.of_nat (length (gr_e g)) + 1) (Z.of_nat (length (gr_o g))) (optr (gr_ul g))
      (arr_ptr (gr_ua g) (gr_a g)) u' (arr_ptr (gr_uo g) (gr_o g))
      (arr_ptr (gr_us g) (gr_s g)))) R3) as (h3 & E3 & R4 & _).
  exists h3, u'. split; [exact E3|].
  rewrite (of_nat_snoc _ o) in R4. rewrite <- Ep in R4 at 1.
  eapply rep_perm; [|exact R4]. unfold grpp_cells, grpp_struct, with_e.
  cbn [gr_ptr gr_ua gr_ue gr_uo gr_us gr_ul gr_a gr_e gr_o gr_s].
  rewrite flat_map_snoc. fold rest2. unfold rest. permx.
Qed.

Lemma add_spin_orbit_full h0 h g (v : ptr) cs :
  rep h0 h (grpp_cells g ++ cs) -> length (gr_e g) = 100%nat ->
  add_spin_orbit_potential h (gr_ptr g) v = Fail OutOfBounds.
Proof.
  intros R0 Hl. unfold add_spin_orbit_potential, load_grpp.
  rewrite (rep_load _ _ _ (gr_ptr g) _ R0) by (left; reflexivity).
  rewrite !bind_ok. unfold grpp_struct.
  cbn [g_UL g_n_arep g_Uarep g_n_esop g_Uesop g_n_oc g_Uoc g_ocshells].
  rewrite Hl. change (Z.of_nat 100 =? 0) with false. cbv iota. change (Z.of_nat 100) with 100.
  unfold grpp_cells in R0.
  set (sc := (gr_ptr g, OGrpp (grpp_struct g))) in *.
  erewrite (add_ptr_full optr h0 h (gr_ue g) (gr_e g) _
    (sc :: ocells (gr_ul g) ++ arr_cell optr (gr_ua g) (gr_a g) ++ flat_map ocells (gr_a g) ++
     flat_map ocells (gr_e g) ++
     arr_cell optr (gr_uo g) (gr_o g) ++ flat_map ocells (gr_o g) ++
     arr_cell sptr (gr_us g) (gr_s g) ++ flat_map scells (gr_s g) ++ cs)); [reflexivity| |exact Hl].
  eapply rep_perm; [|exact R0]. permx.
Qed.

Lemma add_outercore_rep h0 h g o s cs : heap_wf h0 -> length (gr_s g) = length (gr_o g) ->
  rep h0 h (grpp_cells g ++ ocells o ++ scells s ++ cs) -> (length (gr_o g) < 100)%nat ->
  exists h' uo us, add_outercore_potential h (gr_ptr g) (optr o) (sptr s) = Ok h' /\
    rep h0 h' (grpp_cells (with_oc g uo us (gr_o g ++ [o]) (gr_s g ++ [s])) ++ cs).
Proof.
  intros W0 Hs R0 Hl. unfold add_outercore_potential, load_grpp.
  rewrite (rep_load _ _ _ (gr_ptr g) _ R0) by (left; reflexivity).
  rewrite !bind_ok. unfold grpp_struct.
  cbn [g_UL g_n_arep g_Uarep g_n_esop g_Uesop g_n_oc g_Uoc g_ocshells].
  unfold grpp_cells in R0.
  set (sc := (gr_ptr g, OGrpp (grpp_struct g))) in *.
  set (rest := arr_cell optr (gr_ua g) (gr_a g) ++ flat_map ocells (gr_a g) ++
    arr_cell optr (gr_ue g) (gr_e g) ++ flat_map ocells (gr_e g)) in *.
  set (rest2 := sc :: ocells (gr_ul g) ++ rest ++ flat_map ocells (gr_o g) ++ ocells o ++
     flat_map scells (gr_s g) ++ scells s ++ cs).
  assert (R1 : rep h0 h (arr_cell optr (gr_uo g) (gr_o g) ++ arr_cell sptr (gr_us g) (gr_s g) ++ rest2)).
  { eapply rep_perm; [|exact R0]. unfold rest2, rest. permx. }
  (* the two pointer arrays exist after the allocation step *)
  assert (HA : exists uo us h1,
     (if Z.of_nat (length (gr_o g)) =? 0
      then let '(uo, h') := new_ptr_array h in let '(us, h') := new_ptr_array h' in (uo, us, h')
      else (arr_ptr (gr_uo g) (gr_o g), arr_ptr (gr_us g) (gr_s g), h)) = (uo, us, h1) /\
     rep h0 h1 ((uo, OPtrs (front 0 (map optr (gr_o g)) max_number_potentials))
             :: (us, OPtrs (front 0 (map sptr (gr_s g)) max_number_potentials)) :: rest2)).
  { destruct (gr_o g) as [|o1 lo] eqn:Eo.
    - destruct (gr_s g) as [|s1 ls] eqn:Es; [|discriminate].
      cbn [length Z.of_nat]. rewrite Z.eqb_refl. unfold new_ptr_array.
      destruct (halloc h _) as [uo h1] eqn:A1.
      destruct (rep_alloc _ _ _ _ _ _ W0 R1 A1) as [R2 _].
      destruct (halloc h1 _) as [us h2] eqn:A2.
      destruct (rep_alloc _ _ _ _ _ _ W0 R2 A2) as [R3 _].
      exists uo, us, h2. split; [reflexivity|].
      eapply rep_perm; [|exact R3]. cbn. apply perm_swap.
    - destruct (gr_s g) as [|s1 ls] eqn:Es; [discriminate|].
      destruct (Z.eqb_spec (Z.of_nat (length (o1 :: lo))) 0); [simpl in *; lia|].
      exists (gr_uo g), (gr_us g), h. split; [reflexivity|]. exact R1. }
  destruct HA as (uo & us & h1 & E1 & R2). rewrite E1.
  rewrite !front_cons in R2 by (rewrite map_length; change (Z.to_nat max_number_potentials) with 100%nat; lia).
  destruct (rep_set_ptr _ _ _ _ _ _ _ (optr o) (Z.of_nat (length (gr_o g))) R2) as (h2 & E2 & R3);
    [rewrite map_length; reflexivity|].
  rewrite E2, bind_ok.
  eapply rep_perm in R3; [|apply perm_swap].
  destruct (rep_set_ptr _ _ _ _ _ _ _ (sptr s) (Z.of_nat (length (gr_o g))) R3) as (h3 & E3 & R4);
    [rewrite map_length; congruence|].
  rewrite E3, bind_ok.
  rewrite !front_snoc in R4 by (rewrite map_length; change (Z.to_nat max_number_potentials) with 100%nat; lia).
  set (co := (uo, OPtrs (front 0 (map optr (gr_o g) ++ [optr o]) max_number_potentials))) in *.
  set (cu := (us, OPtrs (front 0 (map sptr (gr_s g) ++ [sptr s]) max_number_potentials))) in *.
  set (tl := ocells (gr_ul g) ++ rest ++ flat_map ocells (gr_o g) ++ ocells o ++
     flat_map scells (gr_s g) ++ scells s ++ cs).
  assert (R5 : rep h0 h3 (sc :: co :: cu :: tl)).
  { eapply rep_perm; [|exact R4]. unfold rest2, tl. permx. }
  unfold sc in R5.
  edestruct (rep_store _ _ _ _ _ (OGrpp (mkGrpp (Z.of_nat (length (gr_a g)))
      (Z.of_nat (length (gr_e g))) (Z.of_nat (length (gr_o g)) + 1) (optr (gr_ul g))
      (arr_ptr (gr_ua g) (gr_a g)) (arr_ptr (gr_ue g) (gr_e g)) uo us)) R5) as (h4 & E4 & R6 & _).
  exists h4, uo, us. split; [exact E4|].
  rewrite (of_nat_snoc _ o) in R6.
  eapply rep_perm; [|exact R6]. unfold grpp_cells, grpp_struct, with_oc.
  cbn [gr_ptr gr_ua gr_ue gr_uo gr_us gr_ul gr_a gr_e gr_o gr_s].
  assert (Hc : arr_cell optr uo (gr_o g ++ [o]) = [co]).
  { unfold co. destruct (gr_o g); cbn [app arr_cell]; [reflexivity|]. cbn [map app]. rewrite map_app. reflexivity. }
  assert (Hc2 : arr_cell sptr us (gr_s g ++ [s]) = [cu]).
  { unfold cu. destruct (gr_s g); cbn [app arr_cell]; [reflexivity|]. cbn [map app]. rewrite map_app. reflexivity. }
  rewrite Hc, Hc2.
  assert (Hp : arr_ptr uo (gr_o g ++ [o]) = uo) by (destruct (gr_o g); reflexivity).
  assert (Hp2 : arr_ptr us (gr_s g ++ [s]) = us) by (destruct (gr_s g); reflexivity).
  rewrite Hp, Hp2, !flat_map_snoc. unfold tl, rest. permx.
Qed.

Lemma add_outercore_full h0 h g (v w : ptr) cs : length (gr_s g) = length (gr_o g) ->
  rep h0 h (grpp_cells g ++ cs) -> length (gr_o g) = 100%nat ->
  add_outercore_potential h (gr_ptr g) v w = Fail OutOfBounds.
Proof.
  intros Hs R0 Hl. unfold add_outercore_potential, load_grpp.
  rewrite (rep_load _ _ _ (gr_ptr g) _ R0) by (left; reflexivity).
  rewrite !bind_ok. unfold grpp_struct.
  cbn [g_UL g_n_arep g_Uarep g_n_esop g_Uesop g_n_oc g_Uoc g_ocshells].
  rewrite Hl. change (Z.of_nat 100 =? 0) with false. cbv iota. change (Z.of_nat 100) with 100.
  unfold grpp_cells in R0.
  set (sc := (gr_ptr g, OGrpp (grpp_struct g))) in *.
  erewrite (add_ptr_full optr h0 h (gr_uo g) (gr_o g) _
    (sc :: ocells (gr_ul g) ++ arr_cell optr (gr_ua g) (gr_a g) ++ flat_map ocells (gr_a g) ++
     arr_cell optr (gr_ue g) (gr_e g) ++ flat_map ocells (gr_e g) ++
     flat_map ocells (gr_o g) ++
     arr_cell sptr (gr_us g) (gr_s g) ++ flat_map scells (gr_s g) ++ cs)); [reflexivity| |exact Hl].
  eapply rep_perm; [|exact R0]. permx.
Qed.

Lemma new_grpp_rep h0 h cs p h' : heap_wf h0 -> rep h0 h cs -> new_grpp h = (p, h') ->
  rep h0 h' (grpp_cells (mkGrppRep p 0 0 0 0 None [] [] [] []) ++ cs).
Proof.
  intros W0 R0 E. unfold new_grpp in E.
  destruct (rep_alloc _ _ _ _ _ _ W0 R0 E) as [R1 _]. exact R1.
Qed.
