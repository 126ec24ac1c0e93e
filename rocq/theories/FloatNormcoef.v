(** * Normalised coefficients in double precision: proofs *)

From Coq Require Import ZArith List Lia Bool Reals Lra Permutation.
From Verif Require Import Base CartModel CartProofs HeapModel HeapProofs HeapShrink HeapSpec OneElModel OneElProofs OneElPairs OneElSpec OneElInt
  FloatBase FloatCalc FloatOneEl FloatOverlap FloatTable FloatOneElThms NormcoefModel Normcoef FloatNormcoefModel.
Import ListNotations.
Open Scope Z_scope.

(** the coefficient the routine stores *)
Definition fl_coef (lpow : R -> R -> res R) (L : Z) (x : R * R) : R :=
  match (let* N := fl_norm_factor lpow L 0 0 (snd x) in fl (fst x * N)%R) with Ok v => v | Fail _ => 0%R end.

Lemma fl_coef_ok lpow L c a : libm_pow lpow -> 0 <= L <= 9 -> (Rabs c <= 10 ^ 6)%R -> (/ 10 ^ 8 <= a <= 10 ^ 10)%R ->
  exists N, fl_norm_factor lpow L 0 0 a = Ok N /\ fl (c * N)%R = Ok (fl_coef lpow L (c, a)) /\
    (Rabs (fl_coef lpow L (c, a) - c * norm_L L a) <= 15 / 2 ^ 53 * ((Rabs c + / 10 ^ 30) * norm_L L a))%R.
Proof.
  intros HP HL Hc Ha. destruct (fl_norm_ok lpow L a HP) as (Mn & N & E & A); [unfold okexp; lra|exact HL|].
  rewrite nf_norm in Mn, A. pose proof (Rabs_pos c) as Pc. set (e := (/ 10 ^ 30)%R). assert (He : (0 < e <= 1)%R) by (unfold e; lra).
  assert (A1 : ap 0 (Rabs c + e) c c) by (apply ap_exact; lra).
  destruct (ap_fmul 0 13 (Rabs c + e) (norm_L L a) c c (norm_L L a) N A1 A) as (v & Ev & _ & B); [lra|lra| |].
  { unfold inr, lo, hi. unfold mag10 in Mn. unfold e. split.
    - apply Rle_trans with (/ 10 ^ 30 * / 10 ^ 64)%R; [lra|]. apply Rmult_le_compat; lra.
    - apply Rle_trans with ((10 ^ 6 + 1) * 10 ^ 64)%R; [apply Rmult_le_compat; lra|lra]. }
  exists N. split; [exact E|]. assert (F : fl_coef lpow L (c, a) = v) by (unfold fl_coef; cbn [fst snd]; rewrite E, bind_ok, Ev; reflexivity).
  rewrite F. split; [exact Ev|]. eapply Rle_trans; [exact B|]. unfold ulp1. assert (0 < norm_L L a)%R by (unfold mag10 in Mn; lra).
  assert (0 <= (Rabs c + e) * norm_L L a)%R by (apply Rmult_le_pos; lra). set (Q := ((Rabs c + e) * norm_L L a)%R) in *. lra.
Qed.

Definition fl_with (lpow : R -> R -> res R) (L : Z) (x : R * R) : R * R := (fl_coef lpow L x, snd x).

Lemma fl_normcoef_rep lpow h0 h x cs : libm_pow lpow -> 0 <= sr_L x <= 9 ->
  rep h0 h (shell_cells x ++ cs) -> nprim_ok (sr_n x) (sr_coeffs x) -> nprim_ok (sr_n x) (sr_alpha x) ->
  (forall c a, In (c, a) (firstn (Z.to_nat (sr_n x)) (combine (sr_coeffs x) (sr_alpha x))) -> (Rabs c <= 10 ^ 6 /\ / 10 ^ 8 <= a <= 10 ^ 10)%R) ->
  let ks := map (fl_with lpow (sr_L x)) (firstn (Z.to_nat (sr_n x)) (combine (sr_coeffs x) (sr_alpha x))) in
  exists h', fl_shell_mult_normcoef lpow h (sr_ptr x) = Ok h' /\ hnext h' = hnext h /\
    rep h0 h' (shell_cells (mkShellRep (sr_ptr x) (sr_cart x) (sr_pc x) (sr_pa x) (sr_L x)
       (sr_size x) (sr_n x) (sr_origin x) (sr_list x) (compacted (map fst ks) (sr_coeffs x)) (sr_alpha x)) ++ cs).
Proof.
  destruct x as [p cart pc pa L size n origin cl lc la]. intros HP HL.
  unfold shell_cells, nprim_ok. cbn [sr_ptr sr_cart sr_pc sr_pa sr_L sr_size sr_n sr_origin sr_list sr_coeffs sr_alpha app] in *.
  intros R0 [Hn Hnc] [_ Hna] Hm. unfold fl_shell_mult_normcoef, load_shell.
  rewrite (rep_load _ _ _ p _ R0) by (left; reflexivity). rewrite !bind_ok.
  cbn [sh_num sh_coeffs sh_alpha sh_L sh_cart_size sh_cart_list sh_origin].
  set (zs := combine lc la) in *. set (ks := fun i => map (fl_with lpow L) (firstn (Z.to_nat i) zs)).
  set (scell := (p, OShell (mkShell L size cart n pc pa origin))) in *.
  assert (LZ : n <= Z.of_nat (length zs)) by (unfold zs; rewrite combine_length; lia).
  match goal with |- exists h', for_range 0 n ?b h = Ok h' /\ _ =>
    destruct (for_range_ok (fun i h' => hnext h' = hnext h /\ rep h0 h' ((pc, ODbls (compacted (map fst (ks i)) lc)) :: (pa, ODbls la) :: scell :: (cart, OInts cl) :: cs)) 0 n b h) as (h6 & E6 & N6 & R6) end.
  - lia.
  - split; [reflexivity|]. unfold ks, compacted. cbn [Z.to_nat firstn map length skipn app]. eapply rep_perm; [|exact R0]. unfold scell. perm.
  - intros i h' Hi (N7 & R7). assert (Wh' : heap_wf h') by (destruct R7; assumption).
    assert (Hpc : hblk h' pc = Some (ODbls (compacted (map fst (ks i)) lc))) by (destruct R7 as (_ & _ & _ & D & _); apply D; left; reflexivity).
    assert (Hpa : hblk h' pa = Some (ODbls la)) by (destruct R7 as (_ & _ & _ & D & _); apply D; right; left; reflexivity).
    assert (Hlen : length (ks i) = Z.to_nat i) by (unfold ks; rewrite map_length, firstn_length; lia).
    destruct (elem_in_list lc i) as (c & _ & Ec); [lia|]. destruct (elem_in_list la i) as (a & _ & Ea); [lia|].
    assert (Ez : nth_error zs (Z.to_nat i) = Some (c, a)) by (apply nth_error_combine; assumption).
    assert (Iz : In (c, a) (firstn (Z.to_nat n) zs)).
    { apply nth_error_In with (Z.to_nat i). rewrite <- Ez. rewrite <- (firstn_skipn (Z.to_nat n) zs) at 2. rewrite nth_error_app1; [reflexivity|]. rewrite firstn_length. lia. }
    destruct (Hm c a Iz) as (Bc & Ba). destruct (fl_coef_ok lpow L c a HP HL Bc Ba) as (N & EN & EV & _).
    rewrite (get_dbl_ok h' pa la i a Wh' Hpa Ea) by lia. rewrite bind_ok, EN, bind_ok.
    rewrite (get_dbl_ok h' pc _ i c Wh' Hpc); [|apply compacted_split; [rewrite map_length; lia|exact Ec]|lia]. rewrite bind_ok, EV, bind_ok.
    destruct (compacted_cons (map fst (ks i)) lc) as [w Hw]; [rewrite map_length; lia|]. rewrite Hw in R7.
    destruct (rep_set_dbl _ _ _ _ _ _ _ (fl_coef lpow L (c, a)) i R7) as (h8 & E8 & R8); [rewrite map_length; lia|].
    destruct (set_dbl_frame _ _ _ _ _ E8) as (N8 & _). exists h8. split; [exact E8|]. split; [congruence|].
    rewrite compacted_snoc in R8. replace (ks (i + 1)) with (ks i ++ [fl_with lpow L (c, a)]).
    + rewrite map_app. exact R8.
    + unfold ks. replace (Z.to_nat (i + 1)) with (S (Z.to_nat i)) by lia. rewrite (firstn_snoc zs _ (c, a)) by exact Ez. rewrite map_app. reflexivity.
  - exists h6. split; [exact E6|]. split; [exact N6|]. eapply rep_perm; [|exact R6]. unfold scell. change (map (fl_with lpow L) (firstn (Z.to_nat n) zs)) with (ks n). perm.
Qed.

Lemma fl_normcoef_thm lpow h p v : libm_pow lpow -> heap_wf h -> shell_at h p v -> 0 <= v_L v <= 9 -> moderate v ->
  exists h' v', fl_shell_mult_normcoef lpow h p = Ok h' /\ heap_wf h' /\ shell_at h' p v' /\
    v_L v' = v_L v /\ v_size v' = v_size v /\ v_origin v' = v_origin v /\ v_list v' = v_list v /\
    (forall q s, hblk h p = Some (OShell s) -> q <> sh_coeffs s -> hblk h' q = hblk h q) /\
    Forall2 (fun '(c, a) '(c', a') => a' = a /\ (Rabs (c' - c * norm_L (v_L v) a) <= 15 / 2 ^ 53 * ((Rabs c + / 10 ^ 30) * norm_L (v_L v) a))%R) (v_prims v) (v_prims v').
Proof.
  intros HP W Hat HL (Mo & _). destruct (shell_at_cells _ _ _ Hat) as (x & <- & <- & Sz & Hnd & Hc).
  pose proof (rep_intro h _ W Hnd Hc) as R0. rewrite <- (app_nil_r (shell_cells x)) in R0 at 2.
  cbn [sview_of v_L v_prims v_size v_origin v_list] in *. rewrite combine_firstn in *.
  destruct (fl_normcoef_rep lpow _ _ _ _ HP HL R0 (proj1 Sz) (proj2 Sz) Mo) as (h' & E & N & R1). cbv zeta in R1.
  match type of R1 with rep _ _ (shell_cells ?y ++ _) => set (x' := y) in * end.
  set (n := Z.to_nat (sr_n x)) in *. set (zs := firstn n (combine (sr_coeffs x) (sr_alpha x))) in *. set (ks := map (fl_with lpow (sr_L x)) zs) in *.
  destruct Sz as [[S1 S2] [_ S3]].
  assert (LK : length ks = n) by (unfold ks, zs; rewrite map_length, firstn_length, combine_length; lia).
  assert (Sy : shell_sized x').
  { unfold shell_sized, nprim_ok, x'. cbn [sr_n sr_coeffs sr_alpha]. split; [|lia]. split; [lia|]. unfold compacted. rewrite app_length, skipn_length, map_length, LK. unfold n. lia. }
  exists h', (sview_of x'). split; [exact E|]. split; [destruct R1; assumption|]. split; [apply (shell_at_rep _ _ _ _ R1 Sy)|].
  split; [reflexivity|]. split; [reflexivity|]. split; [reflexivity|]. split; [reflexivity|].
  split.
  { intros q s Hs Q. rewrite (Hc (sr_ptr x) _ (or_introl eq_refl)) in Hs. injection Hs as <-. cbn [sh_coeffs] in Q.
    destruct R1 as (_ & _ & _ & D & F).
    destruct (Z.eq_dec q (sr_ptr x)) as [->|Q1]; [rewrite (Hc (sr_ptr x) _ (or_introl eq_refl)); apply (D (sr_ptr x)); left; reflexivity|].
    destruct (Z.eq_dec q (sr_cart x)) as [->|Q4]; [rewrite (Hc (sr_cart x) (OInts (sr_list x))) by (unfold shell_cells; simpl; tauto); apply (D (sr_cart x) (OInts (sr_list x))); unfold shell_cells; simpl; tauto|].
    destruct (Z.eq_dec q (sr_pa x)) as [->|Q5]; [rewrite (Hc (sr_pa x) (ODbls (sr_alpha x))) by (unfold shell_cells; simpl; tauto); apply (D (sr_pa x) (ODbls (sr_alpha x))); unfold shell_cells; simpl; tauto|].
    rewrite F; [|cbn; intros [X|[X|[X|[X|[]]]]]; congruence].
    cbn. destruct (Z.eqb_spec q (sr_ptr x)); [congruence|]. destruct (Z.eqb_spec q (sr_cart x)); [congruence|].
    destruct (Z.eqb_spec q (sr_pc x)); [congruence|]. destruct (Z.eqb_spec q (sr_pa x)); [congruence|]. reflexivity. }
  assert (V : v_prims (sview_of x') = ks).
  { unfold sview_of, x'. cbn [sr_n sr_coeffs sr_alpha v_prims]. fold n.
    assert (F1 : firstn n (compacted (map fst ks) (sr_coeffs x)) = map fst ks) by (rewrite <- LK at 1; rewrite <- (map_length fst ks); apply compacted_firstn).
    assert (F2 : firstn n (sr_alpha x) = map snd ks).
    { unfold ks. rewrite map_map. unfold fl_with. cbn [snd]. unfold zs. rewrite <- combine_firstn.
      assert (G : forall (l m : list R), length l = length m -> map (fun y => snd y) (combine l m) = m) by (induction l as [|u l IH]; intros [|w m] Q; cbn in *; try discriminate; [reflexivity|f_equal; apply IH; lia]).
      symmetry. apply G. rewrite !firstn_length. unfold n. lia. }
    rewrite F1, F2. apply combine_split_fs. }
  rewrite V. unfold ks. clear - Mo HP HL. induction zs as [|[c a] l IH]; [constructor|]. cbn [map]. constructor.
  - unfold fl_with. cbn [snd]. split; [reflexivity|]. destruct (Mo c a (or_introl eq_refl)) as (Bc & Ba). destruct (fl_coef_ok lpow (sr_L x) c a HP HL Bc Ba) as (_ & _ & _ & B). exact B.
  - apply IH. intros c' a' H. apply Mo. right. exact H.
Qed.
