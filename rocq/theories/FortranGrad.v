(** * The Fortran entry points of the gradients *)

From Coq Require Import ZArith List Lia Bool Reals Lra Permutation.
From Verif Require Import Base CartModel CartProofs HeapModel HeapProofs HeapShrink HeapSpec OneElModel OneElProofs OneElSpec
  OvGradModel OvGradProofs OvGradThms OutercoreModel GrppModel GrppFull GrppHeap GrppGrad GrppGrad2 GrppThms GrppGrad3 GrppTerm GrppTermGrad FortranModel FortranProofs.
Import ListNotations.
Open Scope Z_scope.

Lemma view_denotes h a v : denotes_view h a v -> exists s, denotes h a s.
Proof. intros (lc & la & H1 & H2 & H3 & H4 & H5 & _). eexists. exists lc, la. repeat (split; [eassumption|]). reflexivity. Qed.

Lemma new_shell_view ord h0 h cs a v : heap_wf h0 -> rep h0 h cs -> denotes_view h0 a v ->
  exists h' x, make_shell ord h a = Ok (sr_ptr x, h') /\ rep h0 h' (shell_cells x ++ cs) /\ is_std x (v_L v) (v_origin v) (v_prims v) /\
    v = mkSview (v_L v) (n_cart (v_L v)) (v_origin v) (flat3 (canon (v_L v))) (v_prims v) /\ 0 <= v_L v.
Proof.
  intros W0 R0 (lc & la & HL & Hc & Ha & Nc & Na & ->).
  destruct (new_shell_rep ord h0 h cs (fs_origin a) (fs_L a) (fs_num a) (fs_coeffs a) (fs_alpha a) lc la W0 R0 HL
    (rep_old _ _ _ _ _ R0 Hc) (rep_old _ _ _ _ _ R0 Ha) Nc Na) as (h' & x & E & R1 & E1 & E2 & E3 & E4 & E5 & E6 & E7 & _).
  exists h', x. split; [exact E|]. split; [exact R1|]. cbn [v_L v_origin v_prims]. split; [|split; [reflexivity|exact HL]].
  split.
  - unfold sview_of. rewrite E1, E2, E3, E4, E5, E6, E7, !firstn_firstn, !Nat.min_id. reflexivity.
  - unfold shell_sized, nprim_ok. rewrite E3, E6, E7, !firstn_length. unfold nprim_ok in *. lia.
Qed.

Lemma with_potential_call {Out} ord h a b L J u vA vB U : heap_wf h -> denotes_view h a vA -> denotes_view h b vB -> denotes_pot h L J u U ->
  exists h1 pA pB pU, heap_wf h1 /\ std_shell h1 pA vA (canon (v_L vA)) /\ std_shell h1 pB vB (canon (v_L vB)) /\ view_pot h1 pU = Ok U /\
    forall (call : heap -> ptr -> ptr -> ptr -> res (heap * Out)) h2 out,
      call h1 pA pB pU = Ok (h2, out) -> heap_wf h2 -> (forall q, hblk h2 q = hblk h1 q) ->
      exists h', with_potential ord h a b L J u call = Ok (h', out) /\ heap_wf h' /\ forall q, hblk h' q = hblk h q.
Proof.
  intros W DA DB DU. pose proof DU as (lp & lc & la & (Hp & _ & _) & Hn & _ & _ & _).
  destruct (copy_powers_rep h h [] _ _ _ W (rep_start h W) Hp Hn) as (pw & h1 & E1 & R1).
  destruct (new_pot_step h h1 _ L J u U pw lp W R1 DU Hp (or_introl eq_refl)) as (h2 & xU & E2 & R2 & VU).
  destruct (new_shell_view ord h h2 _ a vA W R2 DA) as (hA & xA & EA & RA & VA & FA & LA).
  destruct (new_shell_view ord h hA _ b vB W RA DB) as (hB & xB & EB & RB & VB & FB & LB).
  exists hB, (sr_ptr xA), (sr_ptr xB), (pr_ptr xU). split; [exact (rep_wf _ _ _ RB)|].
  set (ws := (pw, OInts (firstn (Z.to_nat (fp_num u)) lp))) in *.
  split; [|split; [|split]].
  - assert (RA' : rep h hB (shell_cells xA ++ shell_cells xB ++ pot_cells xU ++ [ws])) by (eapply rep_perm; [|exact RB]; cells).
    pose proof (std_of_cells _ _ _ _ _ _ _ LA RA' VA) as S. rewrite <- FA in S. exact S.
  - pose proof (std_of_cells _ _ _ _ _ _ _ LB RB VB) as S. rewrite <- FB in S. exact S.
  - apply (pr_view_ok _ _ _ xU U (fp_num u) RB); [inlist|exact VU].
  - intros call h3 out E3 W3 S3. unfold with_potential. rewrite E1. cbn [bind]. rewrite E2. cbn [bind]. rewrite EA. cbn [bind]. rewrite EB. cbn [bind].
    rewrite E3. cbn [bind]. pose proof (rep_same _ _ _ _ RB W3 S3) as R3.
    destruct (delete_four _ _ xA xB xU pw (snd ws) out R3) as (h4 & E4 & R4). rewrite E4.
    exists h4. split; [reflexivity|]. split; [exact (rep_wf _ _ _ R4)|exact (rep_end _ _ R4)].
Qed.

Lemma type1_gradient_fortran V rt ord h a b C u U vA vB e :
  bilinear1 V -> heap_wf h -> rt_init rt = true -> denotes_view h a vA -> denotes_view h b vB -> denotes_pot h 0 0 u U -> (0 <= e)%R ->
  around (accurate1 V (fun A B => rt_type1 rt A B C (Some U)) e) vA vB ->
  exists bra ket, deriv_close V vA vB (canon (v_L vA)) (canon (v_L vB)) e bra ket /\
    forall oob D grad, may_overread oob vA vB -> told_apart [v_origin vA; v_origin vB; C; D] -> grad_fits grad vA vB ->
      exists h' grad', type1_integrals_gradient_ oob rt ord h a b C u D grad = Ok (h', grad') /\ heap_wf h' /\ (forall q, hblk h' q = hblk h q) /\
        only_grad grad grad' vA vB /\ holds_gradient grad' vA vB (canon (v_L vA)) (canon (v_L vB)) C D bra ket.
Proof.
  intros HV W I DA DB DU He HA. destruct (@with_potential_call (arr R) ord h a b 0 0 u vA vB U W DA DB DU) as (h1 & pA & pB & pU & W1 & SA & SB & VU & K).
  destruct (type1_gradient_thm V rt h1 pA pB C pU U vA vB _ _ e HV W1 I SA SB VU He HA) as (bra & ket & Hd & H).
  exists bra, ket. split; [exact Hd|]. intros oob D grad Ho Ht Hg. destruct (H ord oob D grad Ho Ht Hg) as (h2 & grad' & E & W2 & S2 & O2 & G2).
  destruct (K (fun h pA pB pU => type1_integrals_gradient ord oob rt h pA pB C pU D grad) h2 grad' E W2 S2) as (h' & E' & W' & S').
  exists h', grad'. repeat (split; [assumption|]). assumption.
Qed.

Lemma type2_gradient_fortran V rt ord h a b C L u U vA vB e :
  bilinear1 V -> heap_wf h -> rt_init rt = true -> null_is_zero rt -> denotes_view h a vA -> denotes_view h b vB -> denotes_pot h L 0 u U -> (0 <= e)%R ->
  around (accurate1 V (fun A B => rt_type2 rt A B C U) e) vA vB ->
  exists bra ket, deriv_close V vA vB (canon (v_L vA)) (canon (v_L vB)) e bra ket /\
    forall oob D grad, may_overread oob vA vB -> told_apart [v_origin vA; v_origin vB; C; D] -> grad_fits grad vA vB ->
      exists h' grad', type2_integrals_gradient_ oob rt ord h a b C L u D grad = Ok (h', grad') /\ heap_wf h' /\ (forall q, hblk h' q = hblk h q) /\
        only_grad grad grad' vA vB /\ holds_gradient grad' vA vB (canon (v_L vA)) (canon (v_L vB)) C D bra ket.
Proof.
  intros HV W I N DA DB DU He HA. destruct (@with_potential_call (arr R) ord h a b L 0 u vA vB U W DA DB DU) as (h1 & pA & pB & pU & W1 & SA & SB & VU & K).
  destruct (type2_gradient_thm V rt h1 pA pB C pU U vA vB _ _ e HV W1 I N SA SB VU He HA) as (bra & ket & Hd & H).
  exists bra, ket. split; [exact Hd|]. intros oob D grad Ho Ht Hg. destruct (H ord oob D grad Ho Ht Hg) as (h2 & grad' & E & W2 & S2 & O2 & G2).
  destruct (K (fun h pA pB pU => type2_integrals_gradient ord oob rt h pA pB C pU D grad) h2 grad' E W2 S2) as (h' & E' & W' & S').
  exists h', grad'. repeat (split; [assumption|]). assumption.
Qed.

Lemma spin_orbit_gradient_fortran V rt ord h a b C L u U vA vB e :
  (forall k, bilinear1 (V k)) -> heap_wf h -> rt_init rt = true -> null_is_zero rt -> denotes_view h a vA -> denotes_view h b vB -> denotes_pot h L 0 u U -> (0 <= e)%R ->
  around (accurate3 V (fun A B => rt_so rt A B C U) e) vA vB ->
  exists bra ket, (forall k, 0 <= k < 3 -> deriv_close (V k) vA vB (canon (v_L vA)) (canon (v_L vB)) e (bra k) (ket k)) /\
    forall oob D grad, may_overread oob vA vB -> told_apart [v_origin vA; v_origin vB; C; D] -> (forall k, 0 <= k < 3 -> grad_fits (pick3 grad k) vA vB) ->
      exists h' grad', spin_orbit_integrals_gradient_ oob rt ord h a b C L u D grad = Ok (h', grad') /\ heap_wf h' /\ (forall q, hblk h' q = hblk h q) /\
        forall k, 0 <= k < 3 -> only_grad (pick3 grad k) (pick3 grad' k) vA vB /\ holds_gradient (pick3 grad' k) vA vB (canon (v_L vA)) (canon (v_L vB)) C D (bra k) (ket k).
Proof.
  intros HV W I N DA DB DU He HA. destruct (@with_potential_call (arr R * arr R * arr R) ord h a b L 0 u vA vB U W DA DB DU) as (h1 & pA & pB & pU & W1 & SA & SB & VU & K).
  destruct (spin_orbit_gradient_thm V rt h1 pA pB C pU U vA vB _ _ e HV W1 I N SA SB VU He HA) as (bra & ket & Hd & H).
  exists bra, ket. split; [exact Hd|]. intros oob D grad Ho Ht Hg. destruct (H ord oob D grad Ho Ht Hg) as (h2 & grad' & E & W2 & S2 & G2).
  destruct (K (fun h pA pB pU => spin_orbit_integrals_gradient ord oob rt h pA pB C pU D grad) h2 grad' E W2 S2) as (h' & E' & W' & S').
  exists h', grad'. repeat (split; [assumption|]). assumption.
Qed.
