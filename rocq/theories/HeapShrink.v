(** * Proofs: shrinking shells and potentials, potential values, copies. *)

From Coq Require Import ZArith List Lia Bool Reals Lra Permutation.
From Verif Require Import Base CartModel CartProofs HeapModel HeapProofs.
Import ListNotations.
Open Scope Z_scope.

(** ** Shell shrinking (in place) *)

Definition keep_pair (x : R * R) : bool :=
  if Rlt_dec zero_thresh (Rabs (fst x)) then true else false.

(** array contents while compacting: kept values, then the old tail *)
Definition compacted {A} (ks l : list A) : list A := ks ++ skipn (length ks) l.

Lemma compacted_split {A} (ks l : list A) i v :
  (length ks <= i)%nat -> nth_error l i = Some v ->
  nth_error (compacted ks l) i = Some v.
Proof.
  intros H Hn. unfold compacted. rewrite nth_error_app2 by lia.
  rewrite <- Hn. clear Hn v. revert i l H. induction (length ks) as [|n IH]; intros i l H.
  - rewrite Nat.sub_0_r. reflexivity.
  - destruct i as [|i]; [lia|]. destruct l as [|a l]; simpl.
    + destruct (i - n)%nat; reflexivity.
    + apply IH. lia.
Qed.

Lemma skipn_cons_nth {A} (l : list A) n : (n < length l)%nat ->
  exists w, skipn n l = w :: skipn (S n) l.
Proof.
  revert n; induction l as [|a l IH]; intros n H; simpl in H; [lia|].
  destruct n as [|n]; [exists a; reflexivity|].
  destruct (IH n) as [w Hw]; [lia|]. exists w. simpl. rewrite Hw. simpl. reflexivity.
Qed.

Lemma compacted_cons {A} (ks l : list A) : (length ks < length l)%nat ->
  exists w, compacted ks l = ks ++ w :: skipn (S (length ks)) l.
Proof.
  intros H. unfold compacted. destruct (skipn_cons_nth l (length ks) H) as [w Hw].
  exists w. rewrite Hw. reflexivity.
Qed.

Lemma compacted_snoc {A} (ks l : list A) v :
  ks ++ v :: skipn (S (length ks)) l = compacted (ks ++ [v]) l.
Proof.
  unfold compacted. rewrite <- app_assoc. cbn [app]. rewrite app_length. cbn [length].
  rewrite Nat.add_1_r. reflexivity.
Qed.

Lemma shell_shrink_rep h0 h x cs :
  rep h0 h (shell_cells x ++ cs) ->
  nprim_ok (sr_n x) (sr_coeffs x) -> nprim_ok (sr_n x) (sr_alpha x) ->
  let ks := filter keep_pair (firstn (Z.to_nat (sr_n x)) (combine (sr_coeffs x) (sr_alpha x))) in
  exists h', shell_shrink h (sr_ptr x) = Ok h' /\ hnext h' = hnext h /\
    rep h0 h' (shell_cells (mkShellRep (sr_ptr x) (sr_cart x) (sr_pc x) (sr_pa x) (sr_L x)
       (sr_size x) (Z.of_nat (length ks)) (sr_origin x) (sr_list x)
       (compacted (map fst ks) (sr_coeffs x)) (compacted (map snd ks) (sr_alpha x))) ++ cs).
Proof.
  destruct x as [p cart pc pa L size n origin cl lc la].
  unfold shell_cells, nprim_ok. cbn [sr_ptr sr_cart sr_pc sr_pa sr_L sr_size sr_n sr_origin
    sr_list sr_coeffs sr_alpha app].
  intros R0 [Hn Hnc] [_ Hna]. unfold shell_shrink, load_shell.
  rewrite (rep_load _ _ _ p _ R0) by (left; reflexivity). rewrite !bind_ok.
  cbn [sh_num sh_coeffs sh_alpha sh_L sh_cart_size sh_cart_list sh_origin].
  set (zs := combine lc la) in *.
  set (ks := fun i => filter keep_pair (firstn (Z.to_nat i) zs)).
  set (scell := (p, OShell (mkShell L size cart n pc pa origin))) in *.
  destruct (for_range_ok (fun i '(h', k) =>
      k = Z.of_nat (length (ks i)) /\ hnext h' = hnext h /\
      rep h0 h' ((pc, ODbls (compacted (map fst (ks i)) lc))
              :: (pa, ODbls (compacted (map snd (ks i)) la))
              :: scell :: (cart, OInts cl) :: cs))
      0 n (fun i '(h, nprim) =>
      let* c := get_dbl h pc i in
      if Rlt_dec zero_thresh (Rabs c) then
        let* h := set_dbl h pc nprim c in
        let* a := get_dbl h pa i in
        let* h := set_dbl h pa nprim a in
        Ok (h, nprim + 1)
      else Ok (h, nprim)) (h, 0)) as ((h6 & k6) & E6 & K6 & N6 & R6).
  - lia.
  - split; [reflexivity|]. split; [reflexivity|]. unfold ks, compacted.
    cbn [Z.to_nat firstn filter map length skipn app].
    eapply rep_perm; [|exact R0]. unfold scell. perm.
  - intros i (h', k) Hi (-> & N7 & R7).
    assert (Wh' : heap_wf h') by (destruct R7; assumption).
    assert (Hpc : hblk h' pc = Some (ODbls (compacted (map fst (ks i)) lc))).
    { destruct R7 as (_ & _ & _ & D & _). apply D. left. reflexivity. }
    assert (Hpa : hblk h' pa = Some (ODbls (compacted (map snd (ks i)) la))).
    { destruct R7 as (_ & _ & _ & D & _). apply D. right; left. reflexivity. }
    assert (Hne : pa <> pc).
    { destruct R7 as (_ & _ & Hnd & _). cbn [map fst] in Hnd.
      inversion Hnd as [|? ? Hx _]; subst. intro; subst. apply Hx. left. reflexivity. }
    assert (Hlen : (length (ks i) <= Z.to_nat i)%nat).
    { unfold ks. apply filter_firstn_le. }
    destruct (elem_in_list lc i) as (c & _ & Ec); [lia|].
    destruct (elem_in_list la i) as (a & _ & Ea); [lia|].
    rewrite (get_dbl_ok h' pc _ i c Wh' Hpc);
      [|apply compacted_split; [rewrite map_length; exact Hlen|exact Ec] | lia].
    rewrite bind_ok.
    assert (Hks : ks (i + 1) = ks i ++ (if keep_pair (c, a) then [(c, a)] else [])).
    { unfold ks. replace (Z.to_nat (i + 1)) with (S (Z.to_nat i)) by lia.
      rewrite (firstn_snoc zs _ (c, a)) by (apply nth_error_combine; assumption).
      apply filter_snoc. }
    unfold keep_pair in Hks. cbn [fst] in Hks.
    destruct (Rlt_dec zero_thresh (Rabs c)) as [Hlt|Hge].
    + destruct (compacted_cons (map fst (ks i)) lc) as [w1 Hw1]; [rewrite map_length; lia|].
      destruct (compacted_cons (map snd (ks i)) la) as [w2 Hw2]; [rewrite map_length; lia|].
      rewrite Hw1 in R7. 
      destruct (rep_set_dbl _ _ _ _ _ _ _ c (Z.of_nat (length (ks i))) R7) as (h8 & E8 & R8);
        [rewrite map_length; reflexivity|].
      destruct (set_dbl_frame _ _ _ _ _ E8) as (N8 & F8).
      rewrite E8, bind_ok.
      assert (Wh8 : heap_wf h8) by (destruct R8; assumption).
      rewrite (get_dbl_ok h8 pa (compacted (map snd (ks i)) la) i a Wh8);
       [|rewrite F8 by exact Hne; exact Hpa
        |apply compacted_split; [rewrite map_length; exact Hlen|exact Ea] | lia].
      rewrite bind_ok. rewrite Hw2 in R8.
      eapply rep_perm in R8; [|apply perm_swap].
      destruct (rep_set_dbl _ _ _ _ _ _ _ a (Z.of_nat (length (ks i))) R8) as (h9 & E9 & R9);
        [rewrite map_length; reflexivity|].
      destruct (set_dbl_frame _ _ _ _ _ E9) as (N9 & F9).
      rewrite E9, bind_ok. eexists; split; [reflexivity|].
      rewrite Hks, !map_app, app_length. cbn [map fst snd length].
      split; [lia|]. split; [congruence|].
      rewrite !compacted_snoc in R9. eapply rep_perm; [apply perm_swap|exact R9].
    + rewrite app_nil_r in Hks. rewrite Hks. eexists; split; [reflexivity|].
      split; [reflexivity|]. split; [exact N7|exact R7].
  - rewrite E6, bind_ok. 
    assert (R7 : rep h0 h6 (scell :: (cart, OInts cl)
                :: (pc, ODbls (compacted (map fst (ks n)) lc))
                :: (pa, ODbls (compacted (map snd (ks n)) la)) :: cs)).
    { eapply rep_perm; [|exact R6]. perm. }
    unfold scell in R7.
    destruct (rep_store _ _ _ _ _ (OShell (mkShell L size cart k6 pc pa origin)) R7)
      as (h7 & E7 & R8 & N8).
    exists h7. split; [exact E7|]. split; [congruence|].
    rewrite K6 in R8. exact R8.
Qed.

(** ** Potential shrinking *)

Lemma zip3_front ks n : zip3 (front 0 (map p_pow ks) n) (front 0%R (map p_coef ks) n) (front 0%R (map p_exp ks) n)
   = ks ++ repeat (0, 0%R, 0%R) (Z.to_nat n - length ks).
Proof.
  unfold front. rewrite !map_length. generalize (Z.to_nat n - length ks)%nat as m. intros m.
  induction ks as [|((e & c) & a) ks IH]; cbn.
  - induction m as [|m IHm]; simpl; [reflexivity|]. f_equal. exact IHm.
  - f_equal. exact IH.
Qed.

Lemma firstn_front ks n : firstn (length ks)
  (zip3 (front 0 (map p_pow ks) n) (front 0%R (map p_coef ks) n) (front 0%R (map p_exp ks) n)) = ks.
Proof.
  rewrite zip3_front. rewrite firstn_app, Nat.sub_diag, firstn_all. cbn. apply app_nil_r.
Qed.

Lemma front_length {A} (z : A) ks n : (length ks <= Z.to_nat n)%nat -> length (front z ks n) = Z.to_nat n.
Proof. intros H. unfold front. rewrite app_length, repeat_length. lia. Qed.

Lemma keep_shrink_new x : keep_shrink x = true -> keep_new x = true.
Proof.
  unfold keep_shrink, keep_new. destruct (Rlt_dec zero_thresh _); [|discriminate].
  destruct (Rlt_dec _ zero_thresh); [|reflexivity]. lra.
Qed.

Lemma filter_keep_new_shrink l : filter keep_new (filter keep_shrink l) = filter keep_shrink l.
Proof.
  induction l as [|x l IH]; simpl; [reflexivity|].
  destruct (keep_shrink x) eqn:E; [|exact IH]. simpl. rewrite (keep_shrink_new _ E). f_equal. exact IH.
Qed.

Definition pot_prims (x : pot_rep) : list prim :=
  firstn (Z.to_nat (pr_n x)) (zip3 (pr_powers x) (pr_coeffs x) (pr_alpha x)).

Definition pot_sized (x : pot_rep) : Prop :=
  0 <= pr_n x <= Z.of_nat (length (pr_powers x)) /\
  nprim_ok (pr_n x) (pr_coeffs x) /\ nprim_ok (pr_n x) (pr_alpha x).

Lemma shrink_potential_rep h0 h x cs :
  heap_wf h0 -> rep h0 h (pot_cells x ++ cs) -> pot_sized x ->
  exists h' y, shrink_potential h (pr_ptr x) = Ok (pr_ptr y, h') /\
    rep h0 h' (pot_cells y ++ pot_cells x ++ cs) /\
    pr_L y = pr_L x /\ pr_J y = pr_J x /\
    pot_prims y = filter keep_shrink (pot_prims x) /\
    pr_n y = Z.of_nat (length (pot_prims y)) /\ pot_sized y.
Proof.
  intros W0 R0 (Hn & [_ Hnc] & [_ Hna]). unfold shrink_potential, load_pot.
  rewrite (rep_load _ _ _ (pr_ptr x) _ R0) by (left; reflexivity). rewrite !bind_ok.
  cbn [pot_num pot_powers pot_coeffs pot_alpha pot_L pot_J].
  set (n := pr_n x) in *.
  assert (Wh : heap_wf h) by (destruct R0; assumption).
  assert (Hx : arrays_hold h (pr_pp x) (pr_pc x) (pr_pa x) (pr_powers x) (pr_coeffs x) (pr_alpha x)).
  { destruct R0 as (_ & _ & _ & D & _). repeat split; apply D; unfold pot_cells; simpl; tauto. }
  destruct Hx as (Hp & Hc & Ha).
  destruct (halloc h _) as [np h1] eqn:A1.
  destruct (rep_alloc _ _ _ _ _ _ W0 R0 A1) as [R1 _].
  destruct (halloc h1 _) as [nc h2] eqn:A2.
  destruct (rep_alloc _ _ _ _ _ _ W0 R1 A2) as [R2 _].
  destruct (halloc h2 _) as [na h3] eqn:A3.
  destruct (rep_alloc _ _ _ _ _ _ W0 R2 A3) as [R3 _].
  destruct (halloc_frame _ _ _ _ A1) as (P1 & N1 & F1).
  destruct (halloc_frame _ _ _ _ A2) as (P2 & N2 & F2).
  destruct (halloc_frame _ _ _ _ A3) as (P3 & N3 & F3).
  assert (Bp : pr_pp x < hnext h) by (destruct Wh as [_ Wh]; destruct (Wh _ _ Hp); lia).
  assert (Bc : pr_pc x < hnext h) by (destruct Wh as [_ Wh]; destruct (Wh _ _ Hc); lia).
  assert (Ba : pr_pa x < hnext h) by (destruct Wh as [_ Wh]; destruct (Wh _ _ Ha); lia).
  set (lp := pr_powers x) in *. set (lc := pr_coeffs x) in *. set (la := pr_alpha x) in *.
  set (zs := zip3 lp lc la).
  set (ks := fun i => filter keep_shrink (firstn (Z.to_nat i) zs)).
  destruct (for_range_ok (fun i '(h', k) =>
      k = Z.of_nat (length (ks i)) /\
      rep h0 h' ((np, OInts (front 0 (map p_pow (ks i)) n))
              :: (nc, ODbls (front 0%R (map p_coef (ks i)) n))
              :: (na, ODbls (front 0%R (map p_exp (ks i)) n)) :: pot_cells x ++ cs) /\
      hnext h' = hnext h3 /\
      forall q, q < hnext h -> hblk h' q = hblk h q)
      0 n (fun i '(h, k) =>
      let* c := get_dbl h (pr_pc x) i in
      if Rlt_dec zero_thresh (Rabs c) then
        let* e := get_int h (pr_pp x) i in
        let* h := set_int h np k e in
        let* h := set_dbl h nc k c in
        let* a := get_dbl h (pr_pa x) i in
        let* h := set_dbl h na k a in
        Ok (h, k + 1)
      else Ok (h, k)) (h3, 0)) as ((h6 & k6) & E6 & K6 & R6 & N6 & F6).
  - lia.
  - split; [reflexivity|]. split; [|split; [reflexivity|]].
    + unfold ks, front. cbn [Z.to_nat firstn filter map app length]. rewrite Nat.sub_0_r.
      eapply rep_perm; [|exact R3]. unfold zeros. unfold pot_cells. perm.
    + intros q Hq. rewrite F3, F2, F1 by lia. reflexivity.
  - intros i (h', k) Hi (-> & R7 & N7 & F7).
    assert (Wh' : heap_wf h') by (destruct R7; assumption).
    destruct (elem_in_list lc i) as (c & _ & Ec); [lia|].
    destruct (elem_in_list la i) as (a & _ & Ea); [lia|].
    destruct (elem_in_list lp i) as (e & _ & Ep); [lia|].
    rewrite (get_dbl_ok h' (pr_pc x) lc i c) by (try assumption; try lia; rewrite F7 by lia; assumption).
    rewrite bind_ok.
    assert (Hks : ks (i + 1) = ks i ++ (if keep_shrink (e, c, a) then [(e, c, a)] else [])).
    { unfold ks. replace (Z.to_nat (i + 1)) with (S (Z.to_nat i)) by lia.
      rewrite (firstn_snoc zs _ (e, c, a)) by (apply zip3_nth; assumption).
      apply filter_snoc. }
    assert (Hlen : (length (ks i) < Z.to_nat n)%nat).
    { unfold ks. pose proof (filter_firstn_le keep_shrink zs (Z.to_nat i)). lia. }
    unfold keep_shrink in Hks. cbn [p_coef fst snd] in Hks.
    destruct (Rlt_dec zero_thresh (Rabs c)) as [Hlt|Hge].
    + rewrite (get_int_ok h' (pr_pp x) lp i e)
        by (try assumption; try lia; rewrite F7 by lia; assumption).
      rewrite bind_ok.
      rewrite !front_cons in R7 by (rewrite map_length; exact Hlen).
      destruct (rep_set_int _ _ _ _ _ _ _ e (Z.of_nat (length (ks i))) R7) as (h8 & E8 & R8);
        [rewrite map_length; reflexivity|].
      destruct (set_int_frame _ _ _ _ _ E8) as (N8 & F8).
      rewrite E8, bind_ok.
      eapply rep_perm in R8; [|apply perm_swap].
      destruct (rep_set_dbl _ _ _ _ _ _ _ c (Z.of_nat (length (ks i))) R8) as (h9 & E9 & R9);
        [rewrite map_length; reflexivity|].
      destruct (set_dbl_frame _ _ _ _ _ E9) as (N9 & F9).
      rewrite E9, bind_ok.
      assert (Wh9 : heap_wf h9) by (destruct R9; assumption).
      rewrite (get_dbl_ok h9 (pr_pa x) la i a)
        by (try assumption; try lia; rewrite F9, F8, F7 by lia; assumption).
      rewrite bind_ok.
      assert (R9' : rep h0 h9
        ((na, ODbls (map p_exp (ks i) ++ 0%R :: repeat 0%R (Z.to_nat n - S (length (map p_exp (ks i))))))
         :: (np, OInts (map p_pow (ks i) ++ e :: repeat 0 (Z.to_nat n - S (length (map p_pow (ks i))))))
         :: (nc, ODbls (map p_coef (ks i) ++ c :: repeat 0%R (Z.to_nat n - S (length (map p_coef (ks i))))))
         :: pot_cells x ++ cs)).
      { eapply rep_perm; [|exact R9]. unfold pot_cells. perm. }
      destruct (rep_set_dbl _ _ _ _ _ _ _ a (Z.of_nat (length (ks i))) R9') as (h10 & E10 & R10);
        [rewrite map_length; reflexivity|].
      destruct (set_dbl_frame _ _ _ _ _ E10) as (N10 & F10).
      rewrite E10, bind_ok. eexists; split; [reflexivity|].
      rewrite Hks, !map_app, app_length. cbn [map p_coef p_pow p_exp fst snd length].
      split; [lia|]. split; [|split; [congruence|]].
      * rewrite !front_snoc in R10 by (rewrite map_length; exact Hlen).
        eapply rep_perm; [|exact R10]. unfold pot_cells. perm.
      * intros q Hq. rewrite F10, F9, F8, F7 by lia. reflexivity.
    + rewrite app_nil_r in Hks. eexists; split; [reflexivity|]. rewrite Hks.
      split; [reflexivity|]. split; [exact R7|]. split; assumption.
  - rewrite E6, bind_ok.
    assert (Hlen : (length (ks n) <= Z.to_nat n)%nat) by (unfold ks; apply filter_firstn_le).
    assert (W6 : heap_wf h6) by (destruct R6; assumption).
    destruct (new_potential_rep h0 h6 _ (pr_L x) (pr_J x) k6 np nc na
      (front 0 (map p_pow (ks n)) n) (front 0%R (map p_coef (ks n)) n) (front 0%R (map p_exp (ks n)) n)
      W0 R6) as (h7 & y & E7 & R7 & YL & YJ & Yrest).
    + destruct R6 as (_ & _ & _ & D & _). repeat split; apply D; simpl; tauto.
    + rewrite front_length by (rewrite map_length; exact Hlen). lia.
    + unfold nprim_ok. rewrite front_length by (rewrite map_length; exact Hlen). lia.
    + unfold nprim_ok. rewrite front_length by (rewrite map_length; exact Hlen). lia.
    + cbv zeta in Yrest. rewrite K6, Nat2Z.id, firstn_front in Yrest.
      unfold ks in Yrest at 1. rewrite filter_keep_new_shrink in Yrest.
      fold (ks n) in Yrest.
      rewrite (filter_keep_new_shrink (firstn (Z.to_nat n) zs) : filter keep_new (ks n) = ks n) in Yrest.
      destruct Yrest as (Yn & Yp & Yc & Ya & _ & _).
      rewrite E7, bind_ok.
      assert (R8 : rep h0 h7 ((np, OInts (front 0 (map p_pow (ks n)) n))
              :: (nc, ODbls (front 0%R (map p_coef (ks n)) n))
              :: (na, ODbls (front 0%R (map p_exp (ks n)) n)) :: pot_cells y ++ pot_cells x ++ cs)).
      { eapply rep_perm; [|exact R7]. unfold pot_cells. perm. }
      destruct (rep_free _ _ _ _ _ R8) as (h8 & E8 & R9 & _). rewrite E8, bind_ok.
      destruct (rep_free _ _ _ _ _ R9) as (h9 & E9 & R10 & _). rewrite E9, bind_ok.
      destruct (rep_free _ _ _ _ _ R10) as (h10 & E10 & R11 & _). rewrite E10, bind_ok.
      exists h10, y. split; [reflexivity|]. split; [exact R11|].
      split; [exact YL|]. split; [exact YJ|].
      assert (Hpr : pot_prims y = ks n).
      { unfold pot_prims. rewrite Yn, Yp, Yc, Ya, Nat2Z.id. apply firstn_front. }
      split; [exact Hpr|]. split; [rewrite Hpr; exact Yn|].
      unfold pot_sized, nprim_ok. rewrite Yn, Yp, Yc, Ya.
      rewrite !front_length by (rewrite map_length; lia). lia.
Qed.

(** ** Value of a potential *)

(** the radial function of a list of terms *)
Definition radial_term (x : prim) (r : R) : R :=
  (rpow_int r (p_pow x - 2) * exp (- p_exp x * (r * r)))%R.

Fixpoint radial_sum (l : list prim) (r : R) : R :=
  match l with [] => 0%R | x :: l' => (p_coef x * radial_term x r + radial_sum l' r)%R end.

Lemma radial_sum_app l1 l2 r : radial_sum (l1 ++ l2) r = (radial_sum l1 r + radial_sum l2 r)%R.
Proof. induction l1; simpl; [lra|]. rewrite IHl1. lra. Qed.

Lemma zip3_length lp : forall lc la n, (n <= length lp)%nat -> (n <= length lc)%nat -> (n <= length la)%nat ->
  (n <= length (zip3 lp lc la))%nat.
Proof.
  induction lp as [|p lp IH]; intros [|c lc] [|a la] [|n]; simpl; intros; try lia.
  specialize (IH lc la n). lia.
Qed.

Lemma potential_value_rep h0 h x cs r : rep h0 h (pot_cells x ++ cs) -> pot_sized x ->
  potential_value h (pr_ptr x) r = Ok (radial_sum (pot_prims x) r).
Proof.
  intros R0 (Hn & [_ Hnc] & [_ Hna]). unfold potential_value, load_pot.
  rewrite (rep_load _ _ _ (pr_ptr x) _ R0) by (left; reflexivity). rewrite !bind_ok.
  cbn [pot_num pot_powers pot_coeffs pot_alpha].
  assert (Wh : heap_wf h) by (destruct R0; assumption).
  assert (Hx : arrays_hold h (pr_pp x) (pr_pc x) (pr_pa x) (pr_powers x) (pr_coeffs x) (pr_alpha x)).
  { destruct R0 as (_ & _ & _ & D & _). repeat split; apply D; unfold pot_cells; simpl; tauto. }
  destruct Hx as (Hp & Hc & Ha).
  destruct (for_range_ok (fun i val =>
     val = radial_sum (firstn (Z.to_nat i) (zip3 (pr_powers x) (pr_coeffs x) (pr_alpha x))) r)
     0 (pr_n x) (fun i val =>
    let* n := get_int h (pr_pp x) i in
    let* c := get_dbl h (pr_pc x) i in
    let* a := get_dbl h (pr_pa x) i in
    Ok (val + c * rpow_int r (n - 2) * exp (- a * (r * r)))%R) 0%R) as (v & E & V).
  - lia.
  - reflexivity.
  - intros i val Hi ->.
    destruct (elem_in_list (pr_coeffs x) i) as (c & _ & Ec); [lia|].
    destruct (elem_in_list (pr_alpha x) i) as (a & _ & Ea); [lia|].
    destruct (elem_in_list (pr_powers x) i) as (e & _ & Ep); [lia|].
    rewrite (get_int_ok h _ _ i e Wh Hp Ep) by lia.
    rewrite (get_dbl_ok h _ _ i c Wh Hc Ec) by lia.
    rewrite (get_dbl_ok h _ _ i a Wh Ha Ea) by lia.
    rewrite !bind_ok. eexists; split; [reflexivity|].
    replace (Z.to_nat (i + 1)) with (S (Z.to_nat i)) by lia.
    rewrite (firstn_snoc _ _ (e, c, a)) by (apply zip3_nth; assumption).
    rewrite radial_sum_app. unfold radial_sum at 3, radial_term. cbn [p_coef p_pow p_exp fst snd]. lra.
  - rewrite E, V. reflexivity.
Qed.

(** ** Effect of dropping small terms *)

Fixpoint abs_radial_sum (l : list prim) (r : R) : R :=
  match l with [] => 0%R | x :: l' => (Rabs (radial_term x r) + abs_radial_sum l' r)%R end.

Lemma drop_error (keep : prim -> bool) l r :
  (forall x, keep x = false -> (Rabs (p_coef x) <= zero_thresh)%R) ->
  (Rabs (radial_sum l r - radial_sum (filter keep l) r)
   <= zero_thresh * abs_radial_sum (filter (fun x => negb (keep x)) l) r)%R.
Proof.
  intros Hk. induction l as [|x l IH]; simpl.
  - rewrite Rminus_0_r, Rabs_R0, Rmult_0_r. lra.
  - destruct (keep x) eqn:E; simpl.
    + replace (p_coef x * radial_term x r + radial_sum l r -
        (p_coef x * radial_term x r + radial_sum (filter keep l) r))%R
        with (radial_sum l r - radial_sum (filter keep l) r)%R by lra. exact IH.
    + replace (p_coef x * radial_term x r + radial_sum l r - radial_sum (filter keep l) r)%R
        with (p_coef x * radial_term x r + (radial_sum l r - radial_sum (filter keep l) r))%R by lra.
      eapply Rle_trans; [apply Rabs_triang|]. rewrite Rabs_mult.
      pose proof (Hk _ E). pose proof (Rabs_pos (radial_term x r)).
      assert (Rabs (p_coef x) * Rabs (radial_term x r) <= zero_thresh * Rabs (radial_term x r))%R
        by (apply Rmult_le_compat_r; assumption).
      lra.
Qed.

(** the same for contracted shell functions: [phi a] is the value of the
    primitive with exponent a at some point *)
Fixpoint contr_sum (phi : R -> R) (l : list (R * R)) : R :=
  match l with [] => 0%R | (c, a) :: l' => (c * phi a + contr_sum phi l')%R end.

Lemma contr_drop_error phi l M :
  (forall c a, In (c, a) l -> (Rabs (phi a) <= M)%R) -> (0 <= M)%R ->
  (Rabs (contr_sum phi l - contr_sum phi (filter keep_pair l))
   <= INR (length l - length (filter keep_pair l)) * (zero_thresh * M))%R.
Proof.
  intros HM HM0. induction l as [|(c & a) l IH].
  - cbn. rewrite Rminus_0_r, Rabs_R0. lra.
  - assert (IH' := IH (fun c' a' Hin => HM c' a' (or_intror Hin))). clear IH.
    pose proof (filter_length_le keep_pair l).
    assert (Hsm : keep_pair (c, a) = false -> (Rabs c <= zero_thresh)%R).
    { unfold keep_pair. cbn [fst]. destruct (Rlt_dec zero_thresh (Rabs c)); [discriminate|]. intros _; lra. }
    cbn [filter contr_sum].
    destruct (keep_pair (c, a)).
    + cbn [contr_sum length]. rewrite Nat.sub_succ.
      replace (c * phi a + contr_sum phi l - (c * phi a + contr_sum phi (filter keep_pair l)))%R
        with (contr_sum phi l - contr_sum phi (filter keep_pair l))%R by lra. exact IH'.
    + cbn [length]. rewrite Nat.sub_succ_l by assumption. rewrite S_INR.
      replace (c * phi a + contr_sum phi l - contr_sum phi (filter keep_pair l))%R
        with (c * phi a + (contr_sum phi l - contr_sum phi (filter keep_pair l)))%R by lra.
      eapply Rle_trans; [apply Rabs_triang|]. rewrite Rabs_mult.
      assert (Rabs c * Rabs (phi a) <= zero_thresh * M)%R.
      { apply Rmult_le_compat; try apply Rabs_pos; [auto|]. apply (HM c). left. reflexivity. }
      lra.
Qed.
