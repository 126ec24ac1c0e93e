(** * The Fortran entry points: what they create, call and delete *)

From Coq Require Import ZArith List Lia Bool Reals Permutation.
From Verif Require Import Base CartModel CartProofs HeapModel HeapProofs HeapShrink HeapSpec OneElModel OneElProofs OneElSpec
  OutercoreModel GrppModel GrppHeap GrppTerm FortranModel.
Import ListNotations.
Open Scope Z_scope.

(** ** What the arguments denote *)

(** the shell a C caller obtains from libgrpp_new_shell for these arguments *)
Definition denotes (h : heap) (a : fshell) (s : vshell) : Prop :=
  exists lc la, 0 <= fs_L a /\ hblk h (fs_coeffs a) = Some (ODbls lc) /\ hblk h (fs_alpha a) = Some (ODbls la) /\
    nprim_ok (fs_num a) lc /\ nprim_ok (fs_num a) la /\
    s = mkV (fs_L a) (n_cart (fs_L a)) (aoflist (flat3 (canon (fs_L a)))) (fs_num a)
          (aoflist (firstn (Z.to_nat (fs_num a)) lc)) (aoflist (firstn (Z.to_nat (fs_num a)) la)) (fs_origin a).

(** as a client sees it *)
Definition denotes_view (h : heap) (a : fshell) (v : sview) : Prop :=
  exists lc la, 0 <= fs_L a /\ hblk h (fs_coeffs a) = Some (ODbls lc) /\ hblk h (fs_alpha a) = Some (ODbls la) /\
    nprim_ok (fs_num a) lc /\ nprim_ok (fs_num a) la /\
    v = mkSview (fs_L a) (n_cart (fs_L a)) (fs_origin a) (flat3 (canon (fs_L a)))
          (combine (firstn (Z.to_nat (fs_num a)) lc) (firstn (Z.to_nat (fs_num a)) la)).

(** the potential a C caller obtains from libgrpp_new_potential: the primitives
    with a coefficient below 1e-14 are left out *)
Definition denotes_pot (h : heap) (L J : Z) (u : fpot) (U : vpot) : Prop :=
  exists lp lc la, arrays_hold h (fp_powers u) (fp_coeffs u) (fp_alpha u) lp lc la /\
    0 <= fp_num u <= Z.of_nat (length lp) /\ nprim_ok (fp_num u) lc /\ nprim_ok (fp_num u) la /\
    U = mkVPot L J (filter keep_new (firstn (Z.to_nat (fp_num u)) (zip3 lp lc la))).

(** ** Views of created objects *)
Definition sr_view (x : shell_rep) : vshell :=
  mkV (sr_L x) (sr_size x) (aoflist (sr_list x)) (sr_n x) (aoflist (sr_coeffs x)) (aoflist (sr_alpha x)) (sr_origin x).

Lemma sr_view_ok h0 h cs x : rep h0 h cs -> incl (shell_cells x) cs -> view_shell h (sr_ptr x) = Ok (sr_view x).
Proof.
  intros R0 I. unfold view_shell, load_shell.
  rewrite (rep_load _ _ _ _ _ R0 (I _ (or_introl eq_refl))). cbn [bind sh_cart_list sh_coeffs sh_alpha].
  rewrite (rep_load _ _ _ _ _ R0 (I _ (or_intror (or_introl eq_refl)))). cbn [bind].
  rewrite (rep_load _ _ _ _ _ R0 (I _ (or_intror (or_intror (or_introl eq_refl))))). cbn [bind].
  rewrite (rep_load _ _ _ _ _ R0 (I _ (or_intror (or_intror (or_intror (or_introl eq_refl)))))). reflexivity.
Qed.

Lemma combine_zip3 lp : forall lc la, combine (combine lp lc) la = zip3 lp lc la.
Proof. induction lp as [|p lp IH]; intros [|c lc] [|a la]; simpl; try reflexivity. f_equal. apply IH. Qed.

Definition pr_is (x : pot_rep) (U : vpot) (n : Z) : Prop :=
  let ks := pv_prims U in
  pr_L x = pv_L U /\ pr_J x = pv_J U /\ pr_n x = Z.of_nat (length ks) /\ (length ks <= Z.to_nat n)%nat /\
  pr_powers x = front 0 (map p_pow ks) n /\ pr_coeffs x = front 0%R (map p_coef ks) n /\ pr_alpha x = front 0%R (map p_exp ks) n.

Lemma pr_view_ok h0 h cs x U n : rep h0 h cs -> incl (pot_cells x) cs -> pr_is x U n -> view_pot h (pr_ptr x) = Ok U.
Proof.
  intros R0 I (EL & EJ & En & Hl & Ep & Ec & Ea). unfold view_pot, load_pot.
  rewrite (rep_load _ _ _ _ _ R0 (I _ (or_introl eq_refl))). cbn [bind pot_powers pot_coeffs pot_alpha pot_num pot_L pot_J].
  rewrite (rep_load _ _ _ _ _ R0 (I _ (or_intror (or_introl eq_refl)))). cbn [bind].
  rewrite (rep_load _ _ _ _ _ R0 (I _ (or_intror (or_intror (or_introl eq_refl))))). cbn [bind].
  rewrite (rep_load _ _ _ _ _ R0 (I _ (or_intror (or_intror (or_intror (or_introl eq_refl)))))). cbn [bind].
  rewrite Ep, Ec, Ea, En, Nat2Z.id, combine_zip3, firstn_front, EL, EJ.
  assert (F : forall {A} (z : A) (f : prim -> A), (length (pv_prims U) <=? length (front z (map f (pv_prims U)) n))%nat = true).
  { intros A z f. apply Nat.leb_le. rewrite front_length by (rewrite map_length; exact Hl). exact Hl. }
  rewrite !F. cbn [andb]. destruct U. reflexivity.
Qed.

(** ** Steps *)
Lemma copy_loop_rep h0 h cs n powers lp p : rep h0 h ((p, OInts (HeapModel.zeros 0 n)) :: cs) ->
  hblk h0 powers = Some (OInts lp) -> 0 <= n <= Z.of_nat (length lp) -> heap_wf h0 ->
  exists h', copy_loop h n powers p = Ok h' /\ rep h0 h' ((p, OInts (firstn (Z.to_nat n) lp)) :: cs).
Proof.
  intros R0 Hp Hn W0. unfold copy_loop.
  destruct (for_range_ok (fun i h' => rep h0 h' ((p, OInts (firstn (Z.to_nat i) lp ++ repeat 0 (Z.to_nat n - Z.to_nat i))) :: cs))
    0 n (fun i h => let* k := get_int h powers i in set_int h p i k) h) as (h' & E & R1).
  - lia.
  - cbn [Z.to_nat firstn app]. rewrite Nat.sub_0_r. exact R0.
  - intros i h1 Hi R1. destruct (elem_in_list lp i) as (e & _ & Ee); [lia|].
    rewrite (get_int_ok h1 powers lp i e (proj1 R1) (rep_old _ _ _ _ _ R1 Hp) Ee ltac:(lia)).
    rewrite bind_ok. rewrite (repeat_split _ (Z.to_nat n) (Z.to_nat i)) in R1 by lia.
    destruct (rep_set_int _ _ _ _ _ _ _ e i R1) as (h2 & E2 & R2); [rewrite firstn_length; lia|].
    rewrite E2. exists h2. split; [reflexivity|]. replace (Z.to_nat (i + 1)) with (S (Z.to_nat i)) by lia.
    rewrite (firstn_snoc lp _ _ Ee), <- app_assoc. exact R2.
  - rewrite E. exists h'. split; [reflexivity|]. rewrite Nat.sub_diag in R1. cbn [repeat] in R1. rewrite app_nil_r in R1. exact R1.
Qed.

Lemma copy_powers_rep h0 h cs n powers lp : heap_wf h0 -> rep h0 h cs ->
  hblk h0 powers = Some (OInts lp) -> 0 <= n <= Z.of_nat (length lp) ->
  exists p h', copy_powers h n powers = Ok (p, h') /\ rep h0 h' ((p, OInts (firstn (Z.to_nat n) lp)) :: cs).
Proof.
  intros W0 R0 Hp Hn. unfold copy_powers. destruct (halloc h _) as [p h1] eqn:A1.
  destruct (rep_alloc _ _ _ _ _ _ W0 R0 A1) as [R1 _].
  destruct (copy_loop_rep _ _ _ _ _ _ _ R1 Hp Hn W0) as (h' & E & R2). rewrite E. cbn [bind]. eauto.
Qed.

Lemma new_shell_step ord h0 h cs a s : heap_wf h0 -> rep h0 h cs -> denotes h0 a s ->
  exists h' x, make_shell ord h a = Ok (sr_ptr x, h') /\ rep h0 h' (shell_cells x ++ cs) /\ sr_view x = s /\
    sr_list x = flat3 (canon (fs_L a)).
Proof.
  intros W0 R0 (lc & la & HL & Hc & Ha & Nc & Na & ->).
  destruct (new_shell_rep ord h0 h cs (fs_origin a) (fs_L a) (fs_num a) (fs_coeffs a) (fs_alpha a) lc la W0 R0 HL
    (rep_old _ _ _ _ _ R0 Hc) (rep_old _ _ _ _ _ R0 Ha) Nc Na) as (h' & x & E & R1 & E1 & E2 & E3 & E4 & E5 & E6 & E7 & _).
  exists h', x. split; [exact E|]. split; [exact R1|]. split; [|exact E5].
  unfold sr_view. rewrite E1, E2, E3, E4, E5, E6, E7. reflexivity.
Qed.

Lemma new_pot_step h0 h cs L J u U pw lp : heap_wf h0 -> rep h0 h cs -> denotes_pot h0 L J u U ->
  hblk h0 (fp_powers u) = Some (OInts lp) -> In (pw, OInts (firstn (Z.to_nat (fp_num u)) lp)) cs ->
  exists h' x, new_potential h L J (fp_num u) pw (fp_coeffs u) (fp_alpha u) = Ok (pr_ptr x, h') /\
    rep h0 h' (pot_cells x ++ cs) /\ pr_is x U (fp_num u).
Proof.
  intros W0 R0 (lp' & lc & la & (Hp & Hc & Ha) & Hn & Nc & Na & ->) Hp' Hin.
  rewrite Hp in Hp'. injection Hp' as <-.
  destruct (new_potential_rep h0 h cs L J (fp_num u) pw (fp_coeffs u) (fp_alpha u) (firstn (Z.to_nat (fp_num u)) lp') lc la W0 R0)
    as (h' & x & E & R1 & E1 & E2 & E3 & E4 & E5 & E6 & _).
  - split; [destruct R0 as (_ & _ & _ & D & _); apply (D _ _ Hin)|]. split; eapply rep_old; eassumption.
  - rewrite firstn_length. lia.
  - exact Nc.
  - exact Na.
  - exists h', x. split; [exact E|]. split; [exact R1|].
    assert (EZ : firstn (Z.to_nat (fp_num u)) (zip3 (firstn (Z.to_nat (fp_num u)) lp') lc la) = firstn (Z.to_nat (fp_num u)) (zip3 lp' lc la)).
    { rewrite <- !zip3_firstn, firstn_firstn, Nat.min_id. reflexivity. }
    cbv zeta in E3, E4, E5, E6. rewrite EZ in *. unfold pr_is. cbn [pv_L pv_J pv_prims].
    repeat (split; [assumption|]). split; [apply filter_firstn_le|]. repeat (split; [assumption|]). assumption.
Qed.

(** the routine called leaves the heap as it was *)
Lemma rep_same h0 h1 h2 cs : rep h0 h1 cs -> heap_wf h2 -> (forall q, hblk h2 q = hblk h1 q) -> rep (mkHeap 0 (hblk h0)) h2 cs.
Proof.
  intros (W & B & C & D & E) W2 S. split; [exact W2|]. split; [cbn; destruct W2; lia|]. split; [exact C|]. split.
  - intros p o Hin. rewrite S. exact (D _ _ Hin).
  - intros p Hn. rewrite S. exact (E _ Hn).
Qed.

Lemma rep_wf h0 h cs : rep h0 h cs -> heap_wf h.
Proof. intros (W & _). exact W. Qed.

Ltac cells := unfold shell_cells, pot_cells; cbn [app]; perm.
Ltac inlist := intros ? ?; rewrite ?in_app_iff; tauto.

(** ** The two frames *)

(** the outcome of a Fortran call compared with the outcome of the C call *)
Definition same_as_c {Out} (h : heap) (fortran : res (heap * Out)) (c : res Out) : Prop :=
  match c with
  | Ok out => exists h', fortran = Ok (h', out) /\ heap_wf h' /\ forall q, hblk h' q = hblk h q
  | Fail f => fortran = Fail f
  end.

Lemma with_shells_run {Out} ord h a b A B : heap_wf h -> denotes h a A -> denotes h b B ->
  exists h1 xA xB, rep h h1 (shell_cells xB ++ shell_cells xA) /\ sr_view xA = A /\ sr_view xB = B /\
    sr_list xA = flat3 (canon (fs_L a)) /\ sr_list xB = flat3 (canon (fs_L b)) /\
    forall call : heap -> ptr -> ptr -> res (heap * Out),
      with_shells ord h a b call =
        (let* (h, out) := call h1 (sr_ptr xA) (sr_ptr xB) in
         let* h := delete_shell h (sr_ptr xA) in
         let* h := delete_shell h (sr_ptr xB) in
         Ok (h, out)).
Proof.
  intros W DA DB. destruct (new_shell_step ord h h [] a A W (rep_start h W) DA) as (hA & xA & EA & RA & VA & LA).
  destruct (new_shell_step ord h hA _ b B W RA DB) as (hB & xB & EB & RB & VB & LB).
  exists hB, xA, xB. rewrite app_nil_r in RB. repeat (split; [assumption|]). intros call.
  unfold with_shells. rewrite EA. cbn [bind]. rewrite EB. reflexivity.
Qed.

Lemma delete_two h0 h xA xB : rep h0 h (shell_cells xB ++ shell_cells xA) ->
  exists h', (let* h := delete_shell h (sr_ptr xA) in delete_shell h (sr_ptr xB)) = Ok h' /\ rep h0 h' [].
Proof.
  intros R0. assert (R1 : rep h0 h (shell_cells xA ++ shell_cells xB)) by (eapply rep_perm; [apply Permutation_app_comm|exact R0]).
  destruct (delete_shell_rep _ _ _ _ R1) as (h1 & E1 & R2 & _). rewrite E1. cbn [bind].
  rewrite <- (app_nil_r (shell_cells xB)) in R2. destruct (delete_shell_rep _ _ _ _ R2) as (h2 & E2 & R3 & _). eauto.
Qed.

Lemma with_shells_reads {Out} ord h a b A B (f : vshell -> vshell -> Out -> res Out) out : heap_wf h -> denotes h a A -> denotes h b B ->
  same_as_c h (with_shells ord h a b (reads2 f out)) (f A B out).
Proof.
  intros W DA DB. destruct (@with_shells_run Out ord h a b A B W DA DB) as (h1 & xA & xB & R1 & VA & VB & _ & _ & E).
  rewrite E. unfold reads2.
  rewrite (sr_view_ok _ _ _ xA R1) by inlist. cbn [bind]. rewrite (sr_view_ok _ _ _ xB R1) by inlist. cbn [bind].
  rewrite VA, VB. destruct (f A B out) as [out'|x]; cbn [bind same_as_c]; [|reflexivity].
  destruct (delete_two _ _ _ _ R1) as (h2 & E2 & R2). destruct (delete_shell h1 (sr_ptr xA)) as [h3|]; cbn [bind] in *; [|discriminate].
  rewrite E2. cbn [bind]. exists h2. split; [reflexivity|]. split; [exact (rep_wf _ _ _ R2)|exact (rep_end _ _ R2)].
Qed.

Lemma with_potential_run {Out} ord h a b L J u A B U : heap_wf h -> denotes h a A -> denotes h b B -> denotes_pot h L J u U ->
  exists h1 xA xB xU pw pws, rep h h1 (shell_cells xB ++ shell_cells xA ++ pot_cells xU ++ [(pw, pws)]) /\
    sr_view xA = A /\ sr_view xB = B /\ pr_is xU U (fp_num u) /\
    forall call : heap -> ptr -> ptr -> ptr -> res (heap * Out),
      with_potential ord h a b L J u call =
        (let* (h, out) := call h1 (sr_ptr xA) (sr_ptr xB) (pr_ptr xU) in
         let* h := delete_shell h (sr_ptr xA) in
         let* h := delete_shell h (sr_ptr xB) in
         let* h := delete_potential h (pr_ptr xU) in
         let* h := hfree h pw in
         Ok (h, out)).
Proof.
  intros W DA DB DU. pose proof DU as (lp & lc & la & (Hp & _ & _) & Hn & _ & _ & _).
  destruct (copy_powers_rep h h [] _ _ _ W (rep_start h W) Hp Hn) as (pw & h1 & E1 & R1).
  destruct (new_pot_step h h1 _ L J u U pw lp W R1 DU Hp (or_introl eq_refl)) as (h2 & xU & E2 & R2 & VU).
  destruct (new_shell_step ord h h2 _ a A W R2 DA) as (hA & xA & EA & RA & VA & _).
  destruct (new_shell_step ord h hA _ b B W RA DB) as (hB & xB & EB & RB & VB & _).
  exists hB, xA, xB, xU, pw, (OInts (firstn (Z.to_nat (fp_num u)) lp)). repeat (split; [assumption|]). intros call.
  unfold with_potential. rewrite E1. cbn [bind]. rewrite E2. cbn [bind]. rewrite EA. cbn [bind]. rewrite EB. reflexivity.
Qed.

Lemma delete_four {Out} h0 h xA xB xU pw pws (out : Out) : rep h0 h (shell_cells xB ++ shell_cells xA ++ pot_cells xU ++ [(pw, pws)]) ->
  exists h', (let* h := delete_shell h (sr_ptr xA) in
              let* h := delete_shell h (sr_ptr xB) in
              let* h := delete_potential h (pr_ptr xU) in
              let* h := hfree h pw in
              Ok (h, out)) = Ok (h', out) /\ rep h0 h' [].
Proof.
  intros R0. eapply (rep_perm _ _ _ (shell_cells xA ++ shell_cells xB ++ pot_cells xU ++ [(pw, pws)])) in R0; [|cells].
  destruct (delete_shell_rep _ _ _ _ R0) as (h1 & E1 & R1 & _). rewrite E1. cbn [bind].
  destruct (delete_shell_rep _ _ _ _ R1) as (h2 & E2 & R2 & _). rewrite E2. cbn [bind].
  destruct (delete_potential_rep _ _ _ _ R2) as (h3 & E3 & R3 & _). rewrite E3. cbn [bind].
  destruct (rep_free _ _ _ _ _ R3) as (h4 & E4 & R4 & _). rewrite E4. cbn [bind]. eauto.
Qed.

Lemma with_potential_reads {Out} ord h a b L J u A B U (f : vshell -> vshell -> vpot -> Out -> res Out) out :
  heap_wf h -> denotes h a A -> denotes h b B -> denotes_pot h L J u U ->
  same_as_c h (with_potential ord h a b L J u (reads3 f out)) (f A B U out).
Proof.
  intros W DA DB DU. destruct (@with_potential_run Out ord h a b L J u A B U W DA DB DU) as (h1 & xA & xB & xU & pw & pws & R1 & VA & VB & VU & E).
  rewrite E. unfold reads3.
  rewrite (sr_view_ok _ _ _ xA R1) by inlist. cbn [bind]. rewrite (sr_view_ok _ _ _ xB R1) by inlist. cbn [bind].
  rewrite (pr_view_ok _ _ _ xU U _ R1) by (try exact VU; inlist). cbn [bind].
  rewrite VA, VB. destruct (f A B U out) as [out'|x]; cbn [bind same_as_c]; [|reflexivity].
  destruct (delete_four _ _ _ _ _ _ _ out' R1) as (h2 & E2 & R2). rewrite E2.
  exists h2. split; [reflexivity|]. split; [exact (rep_wf _ _ _ R2)|exact (rep_end _ _ R2)].
Qed.

(** ** The outercore entry points *)
Definition moved_rep (x : shell_rep) (C : R * R * R) : shell_rep :=
  mkShellRep (sr_ptr x) (sr_cart x) (sr_pc x) (sr_pa x) (sr_L x) (sr_size x) (sr_n x) C (sr_list x) (sr_coeffs x) (sr_alpha x).

Lemma set_origin_rep h0 h x cs C : rep h0 h (shell_cells x ++ cs) ->
  exists h', set_origin h (sr_ptr x) C = Ok h' /\ rep h0 h' (shell_cells (moved_rep x C) ++ cs).
Proof.
  intros R0. unfold set_origin, load_shell. rewrite (rep_load _ _ _ _ _ R0 (or_introl eq_refl)). cbn [bind].
  destruct (rep_store _ _ _ _ _ (OShell (mkShell (sr_L x) (sr_size x) (sr_cart x) (sr_n x) (sr_pc x) (sr_pa x) C)) R0) as (h1 & E1 & R1 & _).
  cbn [sh_L sh_cart_size sh_cart_list sh_num sh_coeffs sh_alpha]. eauto.
Qed.

Lemma part_1_call t1 ord h a b C L J u n pc pa A B U oc out :
  heap_wf h -> denotes h a A -> denotes h b B -> denotes_pot h L J u U -> denotes h (mkFs C L n pc pa) oc ->
  same_as_c h (outercore_potential_integrals_part_1_ t1 ord h a b C L J u n pc pa out) (outercore_part_1 t1 A B C U oc out).
Proof.
  intros W DA DB DU DO. pose proof DU as (lp & lc & la & (Hp & _ & _) & Hn & _ & _ & _).
  destruct (copy_powers_rep h h [] _ _ _ W (rep_start h W) Hp Hn) as (pw & h1 & E1 & R1).
  destruct (new_shell_step ord h h1 _ a A W R1 DA) as (hA & xA & EA & RA & VA & _).
  destruct (new_shell_step ord h hA _ b B W RA DB) as (hB & xB & EB & RB & VB & _).
  destruct (new_pot_step h hB _ L J u U pw lp W RB DU Hp) as (hU & xU & EU & RU & VU); [rewrite !in_app_iff; right; right; left; reflexivity|].
  destruct (new_shell_step ord h hU _ _ oc W RU DO) as (hO & xO & EO & RO & VO & _).
  unfold outercore_potential_integrals_part_1_. rewrite E1. cbn [bind]. rewrite EA. cbn [bind]. rewrite EB. cbn [bind]. rewrite EU. cbn [bind].
  change (new_shell ord hU C L n pc pa) with (make_shell ord hU (mkFs C L n pc pa)). rewrite EO. cbn [bind].
  rewrite (sr_view_ok _ _ _ xA RO) by inlist. cbn [bind]. rewrite (sr_view_ok _ _ _ xB RO) by inlist. cbn [bind].
  rewrite (pr_view_ok _ _ _ xU U _ RO) by (try exact VU; inlist). cbn [bind].
  rewrite (sr_view_ok _ _ _ xO RO) by inlist. cbn [bind].
  rewrite VA, VB, VO. destruct (outercore_part_1 t1 A B C U oc out) as [out'|x]; cbn [bind same_as_c]; [|reflexivity].
  destruct (set_origin_rep _ _ _ _ C RO) as (h2 & E2 & R2). rewrite E2. cbn [bind].
  set (ws := (pw, OInts (firstn (Z.to_nat (fp_num u)) lp))) in *.
  eapply (rep_perm _ _ _ (shell_cells xA ++ shell_cells xB ++ pot_cells xU ++ shell_cells (moved_rep xO C) ++ [ws])) in R2; [|cells].
  destruct (delete_shell_rep _ _ _ _ R2) as (h3 & E3 & R3 & _). rewrite E3. cbn [bind].
  destruct (delete_shell_rep _ _ _ _ R3) as (h4 & E4 & R4 & _). rewrite E4. cbn [bind].
  destruct (delete_potential_rep _ _ _ _ R4) as (h5 & E5 & R5 & _). rewrite E5. cbn [bind].
  destruct (delete_shell_rep _ _ _ _ R5) as (h6 & E6 & R6 & _). change (sr_ptr (moved_rep xO C)) with (sr_ptr xO) in E6. rewrite E6. cbn [bind].
  destruct (rep_free _ _ _ _ _ R6) as (h7 & E7 & R7 & _). rewrite E7. cbn [bind].
  exists h7. split; [reflexivity|]. split; [exact (rep_wf _ _ _ R7)|exact (rep_end _ _ R7)].
Qed.

Lemma part_2_call ord h a b C L1 J1 u1 n1 c1 a1 L2 J2 u2 n2 c2 a2 A B U1 oc1 U2 oc2 out :
  heap_wf h -> denotes h a A -> denotes h b B ->
  denotes_pot h L1 J1 u1 U1 -> denotes h (mkFs C L1 n1 c1 a1) oc1 -> denotes_pot h L2 J2 u2 U2 -> denotes h (mkFs C L2 n2 c2 a2) oc2 ->
  same_as_c h (outercore_potential_integrals_part_2_ ord h a b C L1 J1 u1 n1 c1 a1 L2 J2 u2 n2 c2 a2 out)
    (outercore_part_2 A B C U1 oc1 U2 oc2 out).
Proof.
  intros W DA DB DU1 DO1 DU2 DO2. pose proof DU1 as (lp1 & lc1 & la1 & (Hp1 & _ & _) & Hn1 & _ & _ & _).
  pose proof DU2 as (lp2 & lc2 & la2 & (Hp2 & _ & _) & Hn2 & _ & _ & _).
  unfold outercore_potential_integrals_part_2_.
  destruct (halloc h _) as [pw1 h1] eqn:A1. destruct (rep_alloc _ _ _ _ _ _ W (rep_start h W) A1) as [R1 _].
  destruct (halloc h1 _) as [pw2 h2] eqn:A2. destruct (rep_alloc _ _ _ _ _ _ W R1 A2) as [R2 _].
  eapply rep_perm in R2; [|apply perm_swap].
  destruct (copy_loop_rep _ _ _ _ _ _ _ R2 Hp1 Hn1 W) as (h3 & E3 & R3). rewrite E3. cbn [bind].
  eapply rep_perm in R3; [|apply perm_swap].
  destruct (copy_loop_rep _ _ _ _ _ _ _ R3 Hp2 Hn2 W) as (h4 & E4 & R4). rewrite E4. cbn [bind].
  destruct (new_shell_step ord h h4 _ a A W R4 DA) as (hA & xA & EA & RA & VA & _). rewrite EA. cbn [bind].
  destruct (new_shell_step ord h hA _ b B W RA DB) as (hB & xB & EB & RB & VB & _). rewrite EB. cbn [bind].
  destruct (new_pot_step h hB _ L1 J1 u1 U1 pw1 lp1 W RB DU1 Hp1) as (hU1 & xU1 & EU1 & RU1 & VU1); [rewrite !in_app_iff; right; right; right; left; reflexivity|].
  rewrite EU1. cbn [bind].
  destruct (new_shell_step ord h hU1 _ _ oc1 W RU1 DO1) as (hO1 & xO1 & EO1 & RO1 & VO1 & _).
  change (new_shell ord hU1 C L1 n1 c1 a1) with (make_shell ord hU1 (mkFs C L1 n1 c1 a1)). rewrite EO1. cbn [bind].
  destruct (new_pot_step h hO1 _ L2 J2 u2 U2 pw2 lp2 W RO1 DU2 Hp2) as (hU2 & xU2 & EU2 & RU2 & VU2); [rewrite !in_app_iff; right; right; right; right; left; reflexivity|].
  rewrite EU2. cbn [bind].
  destruct (new_shell_step ord h hU2 _ _ oc2 W RU2 DO2) as (hO2 & xO2 & EO2 & RO2 & VO2 & _).
  change (new_shell ord hU2 C L2 n2 c2 a2) with (make_shell ord hU2 (mkFs C L2 n2 c2 a2)). rewrite EO2. cbn [bind].
  rewrite (sr_view_ok _ _ _ xA RO2) by inlist. cbn [bind]. rewrite (sr_view_ok _ _ _ xB RO2) by inlist. cbn [bind].
  rewrite (pr_view_ok _ _ _ xU1 U1 _ RO2) by (try exact VU1; inlist). cbn [bind].
  rewrite (sr_view_ok _ _ _ xO1 RO2) by inlist. cbn [bind].
  rewrite (pr_view_ok _ _ _ xU2 U2 _ RO2) by (try exact VU2; inlist). cbn [bind].
  rewrite (sr_view_ok _ _ _ xO2 RO2) by inlist. cbn [bind].
  rewrite VA, VB, VO1, VO2. destruct (outercore_part_2 A B C U1 oc1 U2 oc2 out) as [out'|x]; cbn [bind same_as_c]; [|reflexivity].
  set (ws1 := (pw1, OInts (firstn (Z.to_nat (fp_num u1)) lp1))) in *. set (ws2 := (pw2, OInts (firstn (Z.to_nat (fp_num u2)) lp2))) in *.
  assert (M : exists h5 y1 y2, (if L1 =? L2 then if J1 =? J2 then let* h := set_origin hO2 (sr_ptr xO1) C in set_origin h (sr_ptr xO2) C else Ok hO2 else Ok hO2) = Ok h5 /\
    sr_ptr y1 = sr_ptr xO1 /\ sr_ptr y2 = sr_ptr xO2 /\
    rep h h5 (shell_cells xA ++ shell_cells xB ++ pot_cells xU1 ++ pot_cells xU2 ++ shell_cells y1 ++ shell_cells y2 ++ [ws1; ws2])).
  { assert (N : exists h5 y1 y2, Ok hO2 = Ok h5 /\ sr_ptr y1 = sr_ptr xO1 /\ sr_ptr y2 = sr_ptr xO2 /\
      rep h h5 (shell_cells xA ++ shell_cells xB ++ pot_cells xU1 ++ pot_cells xU2 ++ shell_cells y1 ++ shell_cells y2 ++ [ws1; ws2])).
    { exists hO2, xO1, xO2. repeat (split; [reflexivity|]). eapply rep_perm; [|exact RO2]. cells. }
    destruct (L1 =? L2); [|exact N]. destruct (J1 =? J2); [|exact N].
    eapply (rep_perm _ _ _ (shell_cells xO1 ++ shell_cells xO2 ++ shell_cells xA ++ shell_cells xB ++ pot_cells xU1 ++ pot_cells xU2 ++ [ws1; ws2])) in RO2; [|cells].
    destruct (set_origin_rep _ _ _ _ C RO2) as (h5 & E5 & R5). rewrite E5. cbn [bind].
    eapply (rep_perm _ _ _ (shell_cells xO2 ++ shell_cells (moved_rep xO1 C) ++ shell_cells xA ++ shell_cells xB ++ pot_cells xU1 ++ pot_cells xU2 ++ [ws1; ws2])) in R5; [|cells].
    destruct (set_origin_rep _ _ _ _ C R5) as (h6 & E6 & R6). rewrite E6.
    exists h6, (moved_rep xO1 C), (moved_rep xO2 C). repeat (split; [reflexivity|]). eapply rep_perm; [|exact R6]. cells. }
  destruct M as (h5 & y1 & y2 & E5 & Y1 & Y2 & R5). rewrite E5. cbn [bind].
  destruct (delete_shell_rep _ _ _ _ R5) as (h6 & E6 & R6 & _). rewrite E6. cbn [bind].
  destruct (delete_shell_rep _ _ _ _ R6) as (h7 & E7 & R7 & _). rewrite E7. cbn [bind].
  destruct (delete_potential_rep _ _ _ _ R7) as (h8 & E8 & R8 & _). rewrite E8. cbn [bind].
  destruct (delete_potential_rep _ _ _ _ R8) as (h9 & E9 & R9 & _). rewrite E9. cbn [bind].
  destruct (delete_shell_rep _ _ _ _ R9) as (h10 & E10 & R10 & _). rewrite Y1 in E10. rewrite E10. cbn [bind].
  destruct (delete_shell_rep _ _ _ _ R10) as (h11 & E11 & R11 & _). rewrite Y2 in E11. rewrite E11. cbn [bind].
  destruct (rep_free _ _ _ _ _ R11) as (h12 & E12 & R12 & _). rewrite E12. cbn [bind].
  destruct (rep_free _ _ _ _ _ R12) as (h13 & E13 & R13 & _). rewrite E13. cbn [bind].
  exists h13. split; [reflexivity|]. split; [exact (rep_wf _ _ _ R13)|exact (rep_end _ _ R13)].
Qed.

(** ** What a C caller gets from the constructors *)
Lemma objects ord h a s L J u U : heap_wf h -> denotes h a s -> denotes_pot h L J u U ->
  exists p h', new_shell ord h (fs_origin a) (fs_L a) (fs_num a) (fs_coeffs a) (fs_alpha a) = Ok (p, h') /\ view_shell h' p = Ok s /\
  exists q h2, new_potential h' L J (fp_num u) (fp_powers u) (fp_coeffs u) (fp_alpha u) = Ok (q, h2) /\ view_pot h2 q = Ok U /\ view_shell h2 p = Ok s.
Proof.
  intros W DA (lp & lc & la & (Hp & Hc & Ha) & Hn & Nc & Na & ->).
  destruct (new_shell_step ord h h [] a s W (rep_start h W) DA) as (h1 & x & E & R1 & V & _).
  exists (sr_ptr x), h1. split; [exact E|]. split; [rewrite (sr_view_ok _ _ _ x R1) by inlist; congruence|].
  destruct (new_potential_rep h h1 _ L J (fp_num u) (fp_powers u) (fp_coeffs u) (fp_alpha u) lp lc la W R1)
    as (h2 & y & E2 & R2 & E3 & E4 & E5 & E6 & E7 & E8 & _); [split; [|split]; eapply rep_old; eassumption|exact Hn|exact Nc|exact Na|].
  exists (pr_ptr y), h2. split; [exact E2|]. split.
  - apply (pr_view_ok _ _ _ y _ (fp_num u) R2); [inlist|]. unfold pr_is. cbn [pv_L pv_J pv_prims].
    repeat (split; [assumption|]). split; [apply filter_firstn_le|]. repeat (split; [assumption|]). assumption.
  - rewrite (sr_view_ok _ _ _ x R2) by inlist. congruence.
Qed.
