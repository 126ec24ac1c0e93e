(** * Shells with normalised coefficients: proofs *)

From Coq Require Import ZArith List Lia Bool Reals Lra Permutation.
From Verif Require Import Base CartModel CartProofs HeapModel HeapProofs HeapShrink HeapSpec OneElModel OneElProofs OneElPairs OneElSpec OneElInt OneElThms RadialModel NormcoefModel.
Import ListNotations.
Open Scope Z_scope.

(** a primitive with its norm multiplied into the coefficient *)
Definition with_norm (L : Z) (x : R * R) : R * R := ((fst x * norm_L L (snd x))%R, snd x).

Lemma factor_norm L a : gaussian_norm_factor L 0 0 a = norm_L L a.
Proof. unfold gaussian_norm_factor, norm_L. rewrite !Z.add_0_r. f_equal; f_equal; lra. Qed.

Lemma normcoef_rep h0 h x cs :
  rep h0 h (shell_cells x ++ cs) -> nprim_ok (sr_n x) (sr_coeffs x) -> nprim_ok (sr_n x) (sr_alpha x) ->
  let ks := map (with_norm (sr_L x)) (firstn (Z.to_nat (sr_n x)) (combine (sr_coeffs x) (sr_alpha x))) in
  exists h', shell_mult_normcoef h (sr_ptr x) = Ok h' /\ hnext h' = hnext h /\
    rep h0 h' (shell_cells (mkShellRep (sr_ptr x) (sr_cart x) (sr_pc x) (sr_pa x) (sr_L x)
       (sr_size x) (sr_n x) (sr_origin x) (sr_list x) (compacted (map fst ks) (sr_coeffs x)) (sr_alpha x)) ++ cs).
Proof.
  destruct x as [p cart pc pa L size n origin cl lc la].
  unfold shell_cells, nprim_ok. cbn [sr_ptr sr_cart sr_pc sr_pa sr_L sr_size sr_n sr_origin sr_list sr_coeffs sr_alpha app].
  intros R0 [Hn Hnc] [_ Hna]. unfold shell_mult_normcoef, load_shell.
  rewrite (rep_load _ _ _ p _ R0) by (left; reflexivity). rewrite !bind_ok.
  cbn [sh_num sh_coeffs sh_alpha sh_L sh_cart_size sh_cart_list sh_origin].
  set (zs := combine lc la) in *. set (ks := fun i => map (with_norm L) (firstn (Z.to_nat i) zs)).
  set (scell := (p, OShell (mkShell L size cart n pc pa origin))) in *.
  assert (LZ : n <= Z.of_nat (length zs)) by (unfold zs; rewrite combine_length; lia).
  match goal with |- exists h', for_range 0 n ?b h = Ok h' /\ _ =>
    destruct (for_range_ok (fun i h' => hnext h' = hnext h /\ rep h0 h' ((pc, ODbls (compacted (map fst (ks i)) lc)) :: (pa, ODbls la) :: scell :: (cart, OInts cl) :: cs)) 0 n b h) as (h6 & E6 & N6 & R6) end.
  - lia.
  - split; [reflexivity|]. unfold ks, compacted. cbn [Z.to_nat firstn map length skipn app]. eapply rep_perm; [|exact R0]. unfold scell. perm.
  - intros i h' Hi (N7 & R7). assert (Wh' : heap_wf h') by (destruct R7; assumption).
    assert (Hpc : hblk h' pc = Some (ODbls (compacted (map fst (ks i)) lc))) by (destruct R7 as (_ & _ & _ & D & _); apply D; left; reflexivity).
    assert (Hpa : hblk h' pa = Some (ODbls la)) by (destruct R7 as (_ & _ & _ & D & _); apply D; right; left; reflexivity).
    assert (Hlen : length (ks i) = Z.to_nat i) by (unfold ks; rewrite map_length, firstn_length; lia).
    destruct (elem_in_list lc i) as (c & _ & Ec); [lia|]. destruct (elem_in_list la i) as (a & _ & Ea); [lia|].
    rewrite (get_dbl_ok h' pa la i a Wh' Hpa Ea) by lia. rewrite bind_ok.
    rewrite (get_dbl_ok h' pc _ i c Wh' Hpc); [|apply compacted_split; [rewrite map_length; lia|exact Ec]|lia]. rewrite bind_ok.
    destruct (compacted_cons (map fst (ks i)) lc) as [w Hw]; [rewrite map_length; lia|]. rewrite Hw in R7.
    destruct (rep_set_dbl _ _ _ _ _ _ _ (c * gaussian_norm_factor L 0 0 a)%R i R7) as (h8 & E8 & R8); [rewrite map_length; lia|].
    destruct (set_dbl_frame _ _ _ _ _ E8) as (N8 & _). exists h8. split; [exact E8|]. split; [congruence|].
    rewrite compacted_snoc in R8. replace (ks (i + 1)) with (ks i ++ [with_norm L (c, a)]).
    + rewrite map_app. cbn [map fst with_norm snd]. rewrite <- factor_norm. exact R8.
    + unfold ks. replace (Z.to_nat (i + 1)) with (S (Z.to_nat i)) by lia. rewrite (firstn_snoc zs _ (c, a)) by (apply nth_error_combine; assumption). rewrite map_app. reflexivity.
  - exists h6. split; [exact E6|]. split; [exact N6|]. eapply rep_perm; [|exact R6]. unfold scell. change (map (with_norm L) (firstn (Z.to_nat n) zs)) with (ks n). perm.
Qed.

(** the shell after the call, as a client sees it *)
Lemma normed_view x : shell_sized x ->
  let y := mkShellRep (sr_ptr x) (sr_cart x) (sr_pc x) (sr_pa x) (sr_L x) (sr_size x) (sr_n x) (sr_origin x) (sr_list x)
    (compacted (map fst (map (with_norm (sr_L x)) (firstn (Z.to_nat (sr_n x)) (combine (sr_coeffs x) (sr_alpha x))))) (sr_coeffs x)) (sr_alpha x) in
  shell_sized y /\ sview_of y = mkSview (sr_L x) (sr_size x) (sr_origin x) (sr_list x) (map (with_norm (sr_L x)) (v_prims (sview_of x))).
Proof.
  intros [[S1 S2] [_ S3]]. cbv zeta. set (n := Z.to_nat (sr_n x)). set (zs := firstn n (combine (sr_coeffs x) (sr_alpha x))). set (ks := map (with_norm (sr_L x)) zs).
  assert (LK : length ks = n) by (unfold ks, zs; rewrite map_length, firstn_length, combine_length; lia). split.
  - unfold shell_sized, nprim_ok. cbn [sr_n sr_coeffs sr_alpha]. split; [|lia]. split; [lia|]. unfold compacted. rewrite app_length, skipn_length, map_length, LK. unfold n. lia.
  - unfold sview_of. cbn [sr_n sr_coeffs sr_alpha sr_L sr_size sr_origin sr_list v_prims]. fold n. f_equal.
    assert (F1 : firstn n (compacted (map fst ks) (sr_coeffs x)) = map fst ks) by (rewrite <- LK at 1; rewrite <- (map_length fst ks); apply compacted_firstn).
    assert (F2 : firstn n (sr_alpha x) = map snd ks).
    { unfold ks. rewrite map_map. unfold with_norm. cbn [snd]. unfold zs. rewrite <- combine_firstn.
      assert (G : forall (l m : list R), length l = length m -> map (fun y => snd y) (combine l m) = m) by (induction l as [|u l IH]; intros [|w m] Q; cbn in *; try discriminate; [reflexivity|f_equal; apply IH; lia]).
      symmetry. apply G. rewrite !firstn_length. unfold n. lia. }
    transitivity (combine (map fst ks) (map snd ks)); [rewrite F1, F2; reflexivity|]. rewrite combine_split_fs. unfold ks, zs. rewrite combine_firstn. reflexivity.
Qed.

Lemma normcoef_spec h p v : heap_wf h -> shell_at h p v ->
  exists h', shell_mult_normcoef h p = Ok h' /\ heap_wf h' /\
    shell_at h' p (mkSview (v_L v) (v_size v) (v_origin v) (v_list v) (map (with_norm (v_L v)) (v_prims v))) /\
    (forall q s, hblk h p = Some (OShell s) -> q <> sh_coeffs s -> hblk h' q = hblk h q).
Proof.
  intros W Hat. destruct (shell_at_cells _ _ _ Hat) as (x & <- & <- & Sz & Hnd & Hc).
  pose proof (rep_intro h _ W Hnd Hc) as R0. rewrite <- (app_nil_r (shell_cells x)) in R0 at 2.
  destruct (normcoef_rep _ _ _ _ R0 (proj1 Sz) (proj2 Sz)) as (h' & E & N & R1). cbv zeta in R1.
  destruct (normed_view x Sz) as (Sy & Vy). cbv zeta in Sy, Vy. match type of R1 with rep _ _ (shell_cells ?y ++ _) => set (x' := y) in * end.
  exists h'. split; [exact E|]. split; [destruct R1; assumption|]. split.
  - assert (A : shell_at h' (sr_ptr x') (sview_of x')).
    { apply shell_cells_at; [eapply rep_nodup_l; exact R1|exact Sy|]. intros q o Hin. eapply rep_in_l; [exact R1|exact Hin]. }
    rewrite Vy in A. exact A.
  - intros q s Hs Q. rewrite (Hc (sr_ptr x) _ (or_introl eq_refl)) in Hs. injection Hs as <-. cbn [sh_coeffs] in Q.
    destruct R1 as (_ & _ & _ & D & F).
    destruct (Z.eq_dec q (sr_ptr x)) as [->|Q1]; [rewrite (Hc (sr_ptr x) _ (or_introl eq_refl)); apply (D (sr_ptr x)); left; reflexivity|].
    destruct (Z.eq_dec q (sr_cart x)) as [->|Q4]; [rewrite (Hc (sr_cart x) (OInts (sr_list x))) by (unfold shell_cells; simpl; tauto); apply (D (sr_cart x) (OInts (sr_list x))); unfold shell_cells; simpl; tauto|].
    destruct (Z.eq_dec q (sr_pa x)) as [->|Q5]; [rewrite (Hc (sr_pa x) (ODbls (sr_alpha x))) by (unfold shell_cells; simpl; tauto); apply (D (sr_pa x) (ODbls (sr_alpha x))); unfold shell_cells; simpl; tauto|].
    rewrite F; [|cbn; intros [X|[X|[X|[X|[]]]]]; congruence].
    cbn. destruct (Z.eqb_spec q (sr_ptr x)); [congruence|]. destruct (Z.eqb_spec q (sr_cart x)); [congruence|].
    destruct (Z.eqb_spec q (sr_pc x)); [congruence|]. destruct (Z.eqb_spec q (sr_pa x)); [congruence|]. reflexivity.
Qed.

(** the contracted functions: with normalised Gaussians before, with plain Gaussians after the call *)
Lemma shell_at_unique h p v w : shell_at h p v -> shell_at h p w -> v = w.
Proof.
  destruct v as [vl vs vo vi vp], w as [wl ws wo wi wp].
  intros (s & lc & la & H1 & H2 & H3 & H4 & _ & _ & _ & E1 & E2 & E3 & E4) (t & mc & ma & J1 & J2 & J3 & J4 & _ & _ & _ & F1 & F2 & F3 & F4).
  cbn [v_L v_size v_origin v_list v_prims] in *. rewrite H1 in J1. injection J1 as <-. rewrite H2 in J2. rewrite H3 in J3. rewrite H4 in J4.
  injection J2 as ->. injection J3 as <-. injection J4 as <-. subst. reflexivity.
Qed.

Lemma normcoef_function h p v h' v' : heap_wf h -> shell_at h p v -> shell_mult_normcoef h p = Ok h' -> shell_at h' p v' ->
  v_origin v' = v_origin v /\ v_list v' = v_list v /\
  forall c x y z, lsum (fun '(cf, a) => (cf * gto (v_origin v') c a x y z)%R) (v_prims v') = phi_of v c x y z.
Proof.
  intros W A E A'. destruct (normcoef_spec h p v W A) as (h1 & E1 & _ & A1 & _). rewrite E in E1. injection E1 as <-.
  rewrite (shell_at_unique _ _ _ _ A' A1). cbn [v_prims v_origin v_list]. split; [reflexivity|]. split; [reflexivity|]. intros c x y z. unfold phi_of, phi. clear A1.
  induction (v_prims v) as [|[cf a] l IH]; [reflexivity|]. cbn [map]. rewrite !lsum_cons, IH. reflexivity.
Qed.

(** a second call multiplies by the norm once more *)
Lemma normcoef_twice h p v h1 h2 v' : heap_wf h -> shell_at h p v -> shell_mult_normcoef h p = Ok h1 -> shell_mult_normcoef h1 p = Ok h2 -> shell_at h2 p v' ->
  v_prims v' = map (fun '(c, a) => ((c * norm_L (v_L v) a ^ 2)%R, a)) (v_prims v).
Proof.
  intros W A E1 E2 A'. destruct (normcoef_spec h p v W A) as (k1 & F1 & W1 & A1 & _). rewrite E1 in F1. injection F1 as <-.
  destruct (normcoef_spec h1 p _ W1 A1) as (k2 & F2 & _ & A2 & _). rewrite E2 in F2. injection F2 as <-.
  rewrite (shell_at_unique _ _ _ _ A' A2). cbn [v_prims v_L]. rewrite map_map. apply map_ext. intros [c a]. unfold with_norm. cbn [fst snd]. f_equal. ring.
Qed.

Lemma shrunk_view x : shell_sized x ->
  let ks := filter keep_pair (firstn (Z.to_nat (sr_n x)) (combine (sr_coeffs x) (sr_alpha x))) in
  let y := mkShellRep (sr_ptr x) (sr_cart x) (sr_pc x) (sr_pa x) (sr_L x) (sr_size x) (Z.of_nat (length ks)) (sr_origin x) (sr_list x)
    (compacted (map fst ks) (sr_coeffs x)) (compacted (map snd ks) (sr_alpha x)) in
  shell_sized y /\ sview_of y = mkSview (sr_L x) (sr_size x) (sr_origin x) (sr_list x) (filter above_thresh (v_prims (sview_of x))).
Proof.
  intros [S1 S2]. cbv zeta. set (ks := filter keep_pair (firstn (Z.to_nat (sr_n x)) (combine (sr_coeffs x) (sr_alpha x)))). unfold nprim_ok in *.
  assert (Hlen : (length ks <= Z.to_nat (sr_n x))%nat) by (unfold ks; apply filter_firstn_le).
  assert (Hcl : forall (k l : list R), length k = length ks -> sr_n x <= Z.of_nat (length l) -> Z.of_nat (length ks) <= Z.of_nat (length (compacted k l))).
  { intros k l Hk Hl. unfold compacted. rewrite app_length, skipn_length. lia. }
  split.
  - unfold shell_sized, nprim_ok. cbn [sr_n sr_coeffs sr_alpha]. split; (split; [lia|]); apply Hcl; rewrite ?map_length; try reflexivity; lia.
  - unfold sview_of. cbn [sr_n sr_coeffs sr_alpha sr_L sr_size sr_origin sr_list v_prims]. f_equal. rewrite Nat2Z.id.
    rewrite <- (map_length fst ks) at 1. rewrite compacted_firstn. rewrite <- (map_length snd ks). rewrite compacted_firstn.
    rewrite combine_split_fs. unfold ks. rewrite <- combine_firstn. reflexivity.
Qed.

Lemma working_shell_rep ord h0 h cs src v : heap_wf h0 -> rep h0 h cs -> shell_at h src v -> 0 <= v_L v ->
  exists h' x, working_shell ord h src = Ok (sr_ptr x, h') /\ rep h0 h' (shell_cells x ++ cs) /\ shell_sized x /\
    v_L (sview_of x) = v_L v /\ v_origin (sview_of x) = v_origin v /\
    v_prims (sview_of x) = map (with_norm (v_L v)) (filter above_thresh (v_prims v)).
Proof.
  intros W0 Rh Hat HL. pose proof Hat as (s & lc & la & H1 & H2 & H3 & H4 & Hnd & Hn1 & Hn2 & EL & ES & EO & EP).
  unfold working_shell, shell_deep_copy, load_shell, hload.
  assert (Hsrc : 0 < src) by (destruct Rh as ([_ W'] & _); apply W' in H1; lia).
  destruct (Z.eqb_spec src 0); [lia|]. rewrite H1, !bind_ok. rewrite EL in HL.
  destruct (new_shell_rep ord h0 h cs (sh_origin s) (sh_L s) (sh_num s) (sh_coeffs s) (sh_alpha s) lc la W0 Rh HL H3 H4)
    as (h1 & x & E & R0 & XL & Xs & Xn & Xo & Xl & Xc & Xa & Xp & Nx); [unfold nprim_ok; lia..|].
  assert (Sz : shell_sized x) by (unfold shell_sized, nprim_ok; rewrite Xn, Xc, Xa, !firstn_length; lia).
  rewrite E, bind_ok.
  destruct (shell_shrink_rep _ _ _ _ R0 (proj1 Sz) (proj2 Sz)) as (h2 & E2 & N2 & R2). cbv zeta in R2. rewrite E2, bind_ok.
  destruct (shrunk_view x Sz) as (Sy & Vy). cbv zeta in Sy, Vy. match type of R2 with rep _ _ (shell_cells ?y ++ _) => set (x2 := y) in * end.
  destruct (normcoef_rep _ _ _ _ R2 (proj1 Sy) (proj2 Sy)) as (h3 & E3 & N3 & R3). cbv zeta in R3. change (sr_ptr x2) with (sr_ptr x) in E3. rewrite E3, bind_ok.
  destruct (normed_view x2 Sy) as (Sz3 & V3). cbv zeta in Sz3, V3. match type of R3 with rep _ _ (shell_cells ?y ++ _) => set (x3 := y) in * end.
  exists h3, x3. split; [reflexivity|]. split; [exact R3|]. split; [exact Sz3|].
  rewrite V3. cbn [v_L v_origin v_prims]. change (sr_L x2) with (sr_L x). change (sr_origin x2) with (sr_origin x).
  split; [congruence|]. split; [congruence|].
  rewrite Vy. cbn [v_prims]. rewrite EL, XL, EP. do 2 f_equal. unfold sview_of. cbn [v_prims]. rewrite Xn, Xc, Xa, !firstn_firstn, Nat.min_id. reflexivity.
Qed.

Lemma shell_at_rep h0 h x cs : rep h0 h (shell_cells x ++ cs) -> shell_sized x -> shell_at h (sr_ptr x) (sview_of x).
Proof. intros R S. apply shell_cells_at; [eapply rep_nodup_l; exact R|exact S|]. intros q o Hin. eapply rep_in_l; [exact R|exact Hin]. Qed.

Lemma shell_fresh h0 h x cs : rep h0 h (shell_cells x ++ cs) -> hblk h0 (sr_ptr x) = None.
Proof.
  intros (_ & _ & _ & D & _). apply (D (sr_ptr x) (OShell (mkShell (sr_L x) (sr_size x) (sr_cart x) (sr_n x) (sr_pc x) (sr_pa x) (sr_origin x)))). left. reflexivity.
Qed.

Lemma norm_list L l : map (with_norm L) (filter above_thresh l) = shrink_norm L l.
Proof.
  unfold shrink_norm. induction l as [|[c a] l IH]; [reflexivity|]. cbn [filter]. unfold above_thresh at 1. cbn [fst].
  replace (1 / 10 ^ 14)%R with (/ 10 ^ 14)%R in * by (unfold Rdiv; rewrite Rmult_1_l; reflexivity).
  destruct (Rlt_dec (/ 10 ^ 14) (Rabs c)); [cbn [map]; rewrite IH; unfold with_norm; cbn [fst snd]; rewrite factor_norm; reflexivity|exact IH].
Qed.

Lemma working_shell_spec ord h src v : heap_wf h -> shell_at h src v -> 0 <= v_L v ->
  exists p h' v', working_shell ord h src = Ok (p, h') /\ shell_at h' p v' /\ hblk h p = None /\ heap_wf h' /\
    v_L v' = v_L v /\ v_origin v' = v_origin v /\ v_prims v' = map (with_norm (v_L v)) (filter above_thresh (v_prims v)) /\
    v_prims v' = shrink_norm (v_L v) (v_prims v) /\
    (forall q o, hblk h q = Some o -> hblk h' q = Some o) /\
    (exists h'', delete_shell h' p = Ok h'' /\ forall q, hblk h'' q = hblk h q).
Proof.
  intros W Hat HL. destruct (working_shell_rep ord h h [] src v W (rep_start h W) Hat HL) as (h' & x & E & R & S & VL & VO & VP).
  exists (sr_ptr x), h', (sview_of x). split; [exact E|]. split; [eapply shell_at_rep; eassumption|]. split; [eapply shell_fresh; exact R|].
  split; [destruct R; assumption|]. split; [exact VL|]. split; [exact VO|]. split; [exact VP|]. split; [rewrite VP; apply norm_list|].
  split. { intros q o Hq. eapply rep_old; [exact R|exact Hq]. }
  destruct (delete_shell_rep _ _ _ _ R) as (h4 & E4 & R4 & _). exists h4. split; [exact E4|]. apply rep_end. exact R4.
Qed.

(** blocks taken out of the base heap can be put back *)
Lemma rep_absorb h h' c1 c2 : rep (hminus h (map fst c2)) h' (c1 ++ c2) -> (forall p o, In (p, o) c2 -> hblk h p = Some o) -> rep h h' c1.
Proof.
  intros (W & N & Nd & D & F) Hc. split; [exact W|]. split; [exact N|]. rewrite map_app in Nd, F. split; [clear - Nd; induction (map fst c1) as [|a l IH]; [constructor|]; cbn [app] in Nd; inversion Nd as [|? ? N1 N2]; subst; constructor; [intros I; apply N1; apply in_or_app; left; exact I|apply IH; exact N2]|]. split.
  - intros p o Hin. destruct (D p o) as (D1 & D2); [apply in_or_app; left; exact Hin|]. split; [exact D1|]. cbn [hminus hblk] in D2.
    destruct (existsb (Z.eqb p) (map fst c2)) eqn:X; [|exact D2]. exfalso. apply existsb_in in X.
    assert (I1 : In p (map fst c1)) by (apply in_map_iff; exists (p, o); split; [reflexivity|exact Hin]).
    clear - Nd I1 X. induction (map fst c1) as [|a l IH]; [destruct I1|]. cbn [app] in Nd. inversion Nd as [|? ? N1 N2]; subst.
    destruct I1 as [->|I1]; [apply N1; apply in_or_app; right; exact X|apply IH; assumption].
  - intros p Hp. destruct (existsb (Z.eqb p) (map fst c2)) eqn:X.
    + apply existsb_in in X. apply in_map_iff in X. destruct X as ([q o] & <- & Hin). cbn [fst]. rewrite (Hc _ _ Hin). apply D. apply in_or_app. right. exact Hin.
    + rewrite F; [cbn [hminus hblk]; rewrite X; reflexivity|]. intros I. apply in_app_or in I. destruct I as [I|I]; [tauto|]. apply existsb_in in I. congruence.
Qed.

Lemma type2_inputs_spec ord h pot bra ket vp vb vk : heap_wf h -> pot_at h pot vp -> shell_at h bra vb -> shell_at h ket vk -> 0 <= v_L vb -> 0 <= v_L vk ->
  exists pp pb pk h' vb' vk', type2_inputs ord h pot bra ket = Ok (pp, pb, pk, h') /\ heap_wf h' /\
    pot_at h' pp (mkPview (pv_L vp) (pv_J vp) (filter above_thresh3 (pv_prims vp))) /\
    shell_at h' pb vb' /\ v_origin vb' = v_origin vb /\ v_prims vb' = map (with_norm (v_L vb)) (filter above_thresh (v_prims vb)) /\
    shell_at h' pk vk' /\ v_origin vk' = v_origin vk /\ v_prims vk' = map (with_norm (v_L vk)) (filter above_thresh (v_prims vk)) /\
    (forall q o, hblk h q = Some o -> hblk h' q = Some o) /\
    (exists h'', type2_cleanup h' pp pb pk = Ok h'' /\ forall q, hblk h'' q = hblk h q).
Proof.
  intros W Hp Hb Hk Lb Lk. unfold type2_inputs.
  destruct (pot_at_cells _ _ _ Hp) as (x & <- & <- & Sz & Hnd & Hc).
  pose proof (rep_intro h _ W Hnd Hc) as R0. rewrite <- (app_nil_r (pot_cells x)) in R0 at 2.
  destruct (shrink_potential_rep _ _ _ _ (hminus_wf _ _ W) R0 Sz) as (h1 & y & E1 & R1 & YL & YJ & Yp & Yn & Ys).
  rewrite app_nil_r in R1. apply (rep_absorb h h1 _ _) in R1; [|exact Hc]. rewrite E1, bind_ok.
  assert (Hold : forall p v, shell_at h p v -> forall h2 cs, rep h h2 cs -> shell_at h2 p v).
  { intros p v (s & lc & la & H1 & H2 & H3 & H4 & Q) h2 cs R. exists s, lc, la. split; [eapply rep_old; eassumption|]. split; [eapply rep_old; eassumption|]. split; [eapply rep_old; eassumption|]. split; [eapply rep_old; eassumption|]. exact Q. }
  destruct (working_shell_rep ord h h1 _ bra vb W R1 (Hold _ _ Hb _ _ R1) Lb) as (h2 & xb & E2 & R2 & Sb & _ & Ob & Pb). rewrite E2, bind_ok.
  destruct (working_shell_rep ord h h2 _ ket vk W R2 (Hold _ _ Hk _ _ R2) Lk) as (h3 & xk & E3 & R3 & Sk & _ & Ok & Pk). rewrite E3, bind_ok.
  exists (pr_ptr y), (sr_ptr xb), (sr_ptr xk), h3, (sview_of xb), (sview_of xk). split; [reflexivity|]. split; [destruct R3; assumption|].
  assert (R3b : rep h h3 (shell_cells xb ++ (shell_cells xk ++ pot_cells y))).
  { eapply rep_perm; [|exact R3]. rewrite !app_assoc. apply Permutation_app_tail. apply Permutation_app_comm. }
  assert (R3p : rep h h3 (pot_cells y ++ (shell_cells xb ++ shell_cells xk))).
  { eapply rep_perm; [|exact R3b]. rewrite app_assoc. apply Permutation_app_comm. }
  split.
  { replace (mkPview _ _ _) with (pview_of y).
    - apply pot_cells_at; [eapply rep_nodup_l; exact R3p|exact Ys|]. intros q o Hin. eapply rep_in_l; [exact R3p|exact Hin].
    - unfold pview_of. cbn. rewrite YL, YJ, Yp. reflexivity. }
  split; [eapply shell_at_rep; eassumption|]. split; [exact Ob|]. split; [exact Pb|].
  split; [eapply shell_at_rep; eassumption|]. split; [exact Ok|]. split; [exact Pk|].
  split. { intros q o Hq. eapply rep_old; [exact R3|exact Hq]. }
  unfold type2_cleanup. destruct (delete_potential_rep _ _ _ _ R3p) as (h4 & E4 & R4 & _). rewrite E4, bind_ok.
  destruct (delete_shell_rep _ _ _ _ R4) as (h5 & E5 & R5 & _). rewrite E5, bind_ok. rewrite <- (app_nil_r (shell_cells xk)) in R5.
  destruct (delete_shell_rep _ _ _ _ R5) as (h6 & E6 & R6 & _). exists h6. split; [exact E6|]. apply rep_end. exact R6.
Qed.
