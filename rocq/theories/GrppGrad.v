(** * The GRPP gradient: the matrices of the differentiated shells and one contribution *)

From Coq Require Import ZArith List Lia Bool Reals Lra Permutation.
From Coquelicot Require Import Coquelicot.
From Verif Require Import Base Loops Sums CartModel CartProofs HeapModel HeapProofs HeapSpec OneElModel OneElProofs OneElPairs OneElSpec OneElThms
  GaussProd OneElInt SphProofs LmatModel UtilProofs OvGradModel OvDeriv OvGradProofs OvGradThms OutercoreModel OutercoreProofs OutercoreMain OutercoreThms GrppModel GrppFull GrppHeap.
Import ListNotations.
Open Scope Z_scope.

(** the four matrices of the operator between shells with the contents vA and vB are f *)
Definition evaluates (rt : routines) (C : R * R * R) (gv : gview) (vA vB : sview) (f : Z -> Z -> Z -> R) : Prop :=
  forall A B, vshell_is A (v_L vA) (v_origin vA) (v_prims vA) (canon (v_L vA)) -> vshell_is B (v_L vB) (v_origin vB) (v_prims vB) (canon (v_L vB)) ->
  forall out szs, fits4 A B out szs -> exists out', full_sum rt A B C gv out = Ok out' /\ four out' szs (sv_size A) (sv_size B) f.

Lemma evaluates_moved rt C gv vA vB f : evaluates rt C gv vA vB f -> evaluates rt C (moved_gv C gv) vA vB f.
Proof. intros H A B HA HB out szs F. rewrite full_sum_moved. apply H; assumption. Qed.

Lemma one_full rt h0 h1 cs x cs' px pc g gv ocp C vx vc (bra : bool) f : heap_wf h0 -> rep h0 h1 cs -> Permutation cs (shell_cells x ++ cs') -> sr_ptr x = px ->
  is_std x (v_L vx) (v_origin vx) (v_prims vx) -> 0 <= v_L vx -> v_size vx = n_cart (v_L vx) -> v_list vx = flat3 (canon (v_L vx)) ->
  std_shell h0 pc vc (canon (v_L vc)) -> grpp_at h0 g gv ocp -> rt_init rt = true ->
  evaluates rt C gv (if bra then vx else vc) (if bra then vc else vx) f ->
  exists M h2, full_grpp_integrals rt h1 (if bra then px else pc) (if bra then pc else px) g C (zero4 (v_size vc * v_size vx)) = Ok (M, h2) /\
    rep (moved_heap C ocp h0) h2 cs /\
    four M (v_size vc * v_size vx, v_size vc * v_size vx, v_size vc * v_size vx, v_size vc * v_size vx)
      (v_size (if bra then vx else vc)) (v_size (if bra then vc else vx)) f.
Proof.
  intros W0 R0 P Ex Sx Lx Zx Lxl Sc G I Ev.
  assert (R1 : rep h0 h1 (shell_cells x ++ cs')) by (eapply rep_perm; [exact P|exact R0]).
  assert (W1 : heap_wf h1) by (destruct R0; assumption).
  assert (K : keeps h0 h1) by (intros q o Hq; eapply rep_old; [exact R0|exact Hq]).
  pose proof (std_of_cells h0 h1 x cs' (v_L vx) _ _ Lx R1 Sx) as SX. rewrite Ex in SX.
  assert (SX' : std_shell h1 px vx (canon (v_L vx))).
  { destruct vx as [L sz o li pr]. cbn [v_L v_size v_origin v_list v_prims] in *. subst sz li. exact SX. }
  assert (SC : std_shell h1 pc vc (canon (v_L vc))) by (eapply std_old; [exact K|exact Sc]).
  destruct (std_view h1 px vx _ W1 SX') as (X & EX & HX & ZX). destruct (std_view h1 pc vc _ W1 SC) as (Y & EY & HY & ZY).
  pose proof (std_size _ _ _ _ SX') as NX. pose proof (std_size _ _ _ _ SC) as NC.
  set (n := v_size vc * v_size vx).
  assert (Fz : forall A B, sv_size A * sv_size B = n -> fits4 A B (zero4 n) (n, n, n, n)).
  { intros A B E. unfold zero4. repeat split; rewrite E; lia. }
  destruct bra.
  - destruct (Ev X Y HX HY (zero4 n) (n, n, n, n) (Fz X Y ltac:(unfold n; nia))) as (M & EM & FM).
    destruct (full_call rt h1 X Y g gv ocp C px pc _ _ W1 I EX EY (grpp_keeps _ _ _ _ _ W0 K G) EM) as (h2 & E2 & Nx & V2).
    exists M, h2. split; [exact E2|]. split; [eapply rep_moved; [exact R0|exact (ocp_live _ _ _ _ G)|exact Nx|exact V2]|]. rewrite <- ZX, <- ZY. exact FM.
  - destruct (Ev Y X HY HX (zero4 n) (n, n, n, n) (Fz Y X ltac:(unfold n; nia))) as (M & EM & FM).
    destruct (full_call rt h1 Y X g gv ocp C pc px _ _ W1 I EY EX (grpp_keeps _ _ _ _ _ W0 K G) EM) as (h2 & E2 & Nx & V2).
    exists M, h2. split; [exact E2|]. split; [eapply rep_moved; [exact R0|exact (ocp_live _ _ _ _ G)|exact Nx|exact V2]|]. rewrite <- ZX, <- ZY. exact FM.
Qed.

Lemma load_rep_shell h0 h x cs : rep h0 h (shell_cells x ++ cs) -> exists s, load_shell h (sr_ptr x) = Ok s /\ sh_cart_size s = sr_size x.
Proof.
  intros R0. eexists. unfold load_shell. rewrite (rep_load _ _ _ (sr_ptr x) _ R0 (or_introl eq_refl)), bind_ok. split; reflexivity.
Qed.

Definition pick {T} (bra : bool) (x y : T) : T := if bra then x else y.

(** matrix of the four blocks *)
Definition four_exact (M : mats) (na nb : Z) (f : Z -> Z -> Z -> R) : Prop := four M (na * nb, na * nb, na * nb, na * nb) na nb f.

Lemma diff_gaussian_ok ord rt (bra : bool) h pA pB g gv ocp C vA vB ca cb fu fd :
  heap_wf h -> rt_init rt = true -> std_shell h pA vA ca -> std_shell h pB vB cb -> grpp_at h g gv ocp -> ~ In pA ocp -> ~ In pB ocp ->
  evaluates rt C gv (if bra then up_view vA else vA) (if bra then vB else up_view vB) fu ->
  (0 < v_L (if bra then vA else vB) -> evaluates rt C gv (if bra then down_view vA else vA) (if bra then vB else down_view vB) fd) ->
  exists down up sd su h', diff_gaussian ord rt bra h pA pB g C = Ok (down, up, sd, su, h') /\ heap_wf h' /\
    (forall q, hblk h' q = hblk (moved_heap C ocp h) q) /\
    su = n_cart (v_L (if bra then vA else vB) + 1) /\
    four_exact up (if bra then su else v_size vA) (if bra then v_size vB else su) fu /\
    match down with
    | None => v_L (if bra then vA else vB) = 0 /\ sd = 0
    | Some D => 0 < v_L (if bra then vA else vB) /\ sd = n_cart (v_L (if bra then vA else vB) - 1) /\
        four_exact D (if bra then sd else v_size vA) (if bra then v_size vB else sd) fd
    end.
Proof.
  intros W I SA SB G NA NB Eu Ed.
  set (vd := if bra then vA else vB). set (vc := if bra then vB else vA). set (pd := if bra then pA else pB). set (pc := if bra then pB else pA).
  assert (SD : exists cd, std_shell h pd vd cd) by (unfold pd, vd; destruct bra; eauto). destruct SD as (cd & SD).
  assert (SC : std_shell h pc vc (canon (v_L vc))).
  { unfold pc, vc. destruct bra; [pose proof (std_canon _ _ _ _ SB) as <-; exact SB|pose proof (std_canon _ _ _ _ SA) as <-; exact SA]. }
  assert (NC : ~ In pc ocp) by (unfold pc; destruct bra; assumption).
  assert (Eu' : evaluates rt C gv (if bra then up_view vd else vc) (if bra then vc else up_view vd) fu) by (unfold vd, vc; destruct bra; exact Eu).
  assert (Ed' : 0 < v_L vd -> evaluates rt C gv (if bra then down_view vd else vc) (if bra then vc else down_view vd) fd) by (unfold vd, vc; destruct bra; exact Ed).
  clear Eu Ed. pose proof SD as (At & HL & _).
  destruct (differentiate_rep ord h pd vd W At HL) as (pm & pp & h1 & xp & E & Ep & Sp & Cases).
  unfold diff_gaussian. fold pd. fold pc. rewrite E, bind_ok. clear E.
  pose proof (std_size _ _ _ _ SC) as NCs.
  assert (Wm : forall hh, heap_wf hh -> heap_wf (moved_heap C ocp hh)) by (intros; apply moved_wf; assumption).
  assert (Zup : sr_size xp = n_cart (v_L vd + 1)) by (destruct Sp as (Q & _); exact (f_equal v_size Q)).
  assert (LDC : forall hh cs, rep h hh cs -> exists sc, load_shell hh pc = Ok sc /\ sh_cart_size sc = v_size vc).
  { intros hh cs R0. destruct (std_loads hh pc vc (canon (v_L vc)) ltac:(destruct R0; assumption)) as (sc & Es & _ & Zs & _); [|eauto].
    eapply std_old; [|exact SC]. intros q o Hq. eapply rep_old; [exact R0|exact Hq]. }
  destruct Cases as [(HL0 & Epm & R0)|(HLp & xm & Em & Hpm & R0 & Sm)].
  - assert (R1 : rep h h1 (shell_cells xp ++ [])) by (rewrite app_nil_r; exact R0).
    rewrite Epm. cbn [Z.eqb]. rewrite !bind_ok. destruct (load_rep_shell _ _ _ _ R1) as (sp & Esp & Zsp). rewrite Ep in Esp. rewrite Esp, bind_ok.
    destruct (LDC h1 _ R0) as (sc & Esc & Zsc). rewrite Esc, !bind_ok, Zsc, Zsp, Zup.
    destruct (one_full rt h h1 _ xp [] pp pc g gv ocp C (up_view vd) vc bra fu W R0 ltac:(rewrite app_nil_r; reflexivity) Ep Sp ltac:(cbn; lia) eq_refl eq_refl SC G I Eu') as (M & h2 & E2 & R2 & FM).
    cbn [up_view v_size] in E2.
    replace (if bra then pp else pA) with (if bra then pp else pc) by (unfold pc; destruct bra; reflexivity).
    replace (if bra then pB else pp) with (if bra then pc else pp) by (unfold pc; destruct bra; reflexivity).
    rewrite E2, !bind_ok. rewrite <- (app_nil_r (shell_cells xp)) in R2.
    destruct (delete_shell_rep _ _ _ _ R2) as (h3 & D3 & R3 & _). rewrite Ep in D3. rewrite D3, bind_ok.
    eexists None, M, _, _, h3. split; [reflexivity|]. split; [destruct R3; assumption|]. split; [intros q; rewrite (rep_end _ _ R3); reflexivity|].
    split; [reflexivity|]. split; [|split; [exact HL0|reflexivity]].
    unfold four_exact. unfold vd, vc in *. destruct bra; cbn [up_view v_size] in FM; [rewrite (Z.mul_comm (v_size vB)) in FM|]; exact FM.
  - assert (R1 : rep h h1 (shell_cells xm ++ shell_cells xp)).
    { eapply rep_perm; [|exact R0]. apply Permutation_app_comm. }
    assert (Zdn : sr_size xm = n_cart (v_L vd - 1)) by (destruct Sm as (Q & _); exact (f_equal v_size Q)).
    destruct (Z.eqb_spec pm 0); [lia|].
    destruct (load_rep_shell _ _ _ _ R1) as (sm & Esm & Zsm). rewrite Em in Esm. rewrite Esm, !bind_ok.
    destruct (load_rep_shell _ _ _ _ R0) as (sp & Esp & Zsp). rewrite Ep in Esp. rewrite Esp, bind_ok.
    destruct (LDC h1 _ R0) as (sc & Esc & Zsc). rewrite Esc, !bind_ok, Zsc, Zsp, Zup, Zsm, Zdn.
    destruct (one_full rt h h1 _ xm (shell_cells xp) pm pc g gv ocp C (down_view vd) vc bra fd W R0 (Permutation_app_comm _ _) Em Sm ltac:(cbn; lia) eq_refl eq_refl SC G I (Ed' HLp)) as (Md & h2 & E2 & R2 & FD).
    cbn [down_view v_size] in E2.
    replace (if bra then pm else pA) with (if bra then pm else pc) by (unfold pc; destruct bra; reflexivity).
    replace (if bra then pB else pm) with (if bra then pc else pm) by (unfold pc; destruct bra; reflexivity).
    rewrite E2, !bind_ok.
    destruct (one_full rt (moved_heap C ocp h) h2 _ xp (shell_cells xm) pp pc g (moved_gv C gv) ocp C (up_view vd) vc bra fu (Wm h W) R2 (Permutation_refl _) Ep Sp ltac:(cbn; lia) eq_refl eq_refl
       (std_moved _ _ _ _ _ _ SC NC) (grpp_moved _ _ _ _ C W G) I (evaluates_moved _ _ _ _ _ _ Eu')) as (M & h3 & E3 & R3 & FM).
    cbn [up_view v_size] in E3.
    replace (if bra then pp else pA) with (if bra then pp else pc) by (unfold pc; destruct bra; reflexivity).
    replace (if bra then pB else pp) with (if bra then pc else pp) by (unfold pc; destruct bra; reflexivity).
    rewrite E3, !bind_ok.
    assert (R4 : rep (moved_heap C ocp (moved_heap C ocp h)) h3 (shell_cells xm ++ shell_cells xp)) by (eapply rep_perm; [apply Permutation_app_comm|exact R3]).
    destruct (delete_shell_rep _ _ _ _ R4) as (h4 & D4 & R5 & _). rewrite Em in D4. rewrite D4, bind_ok.
    rewrite <- (app_nil_r (shell_cells xp)) in R5.
    destruct (delete_shell_rep _ _ _ _ R5) as (h5 & D5 & R6 & _). rewrite Ep in D5. rewrite D5, bind_ok.
    eexists (Some Md), M, _, _, h5. split; [reflexivity|]. split; [destruct R6; assumption|]. split; [intros q; rewrite (rep_end _ _ R6); apply moved_twice|].
    split; [reflexivity|]. split.
    + unfold four_exact. unfold vd, vc in *. destruct bra; cbn [up_view v_size] in FM; [rewrite (Z.mul_comm (v_size vB)) in FM|]; exact FM.
    + split; [exact HLp|]. split; [reflexivity|]. unfold four_exact. unfold vd, vc in *. destruct bra; cbn [down_view v_size] in FD; [rewrite (Z.mul_comm (v_size vB)) in FD|]; exact FD.
Qed.

(** ** Four numbers, four arrays *)
Definition t4 := (R * R * R * R)%type.
Definition mk4 (f : Z -> R) : t4 := (f (-1), f 0, f 1, f 2).
Definition tadd (a : t4) (c : R) (b : t4) : t4 :=
  let '(a0, a1, a2, a3) := a in let '(b0, b1, b2, b3) := b in (a0 + c * b0, a1 + c * b1, a2 + c * b2, a3 + c * b3)%R.

Definition read4 (read : arr R -> res R) (M : mats) : res t4 :=
  let '(m0, m1, m2, m3) := M in
  let* a := read m0 in let* b := read m1 in let* c := read m2 in let* d := read m3 in Ok (a, b, c, d).

Definition get4 (M : mats) (ix : list Z) : res t4 := read4 (fun m => aget m ix) M.

Definition dims4 (M : mats) (szs : Z * Z * Z * Z) : Prop :=
  let '(m0, m1, m2, m3) := M in let '(s0, s1, s2, s3) := szs in adims m0 = [3; s0] /\ adims m1 = [3; s1] /\ adims m2 = [3; s2] /\ adims m3 = [3; s3].

Definition min4 (n : Z) (szs : Z * Z * Z * Z) : Prop := let '(s0, s1, s2, s3) := szs in n <= s0 /\ n <= s1 /\ n <= s2 /\ n <= s3.

(** all four arrays agree on the indices of P *)
Definition agree4 (P : list Z -> Prop) (M M' : mats) : Prop :=
  let '(m0, m1, m2, m3) := M in let '(m0', m1', m2', m3') := M' in
  (forall ix, P ix -> aget m0' ix = aget m0 ix) /\ (forall ix, P ix -> aget m1' ix = aget m1 ix) /\
  (forall ix, P ix -> aget m2' ix = aget m2 ix) /\ (forall ix, P ix -> aget m3' ix = aget m3 ix).

Lemma agree4_get P M M' ix : agree4 P M M' -> P ix -> get4 M' ix = get4 M ix.
Proof.
  destruct M as [[[m0 m1] m2] m3], M' as [[[n0 n1] n2] n3]. intros (H0 & H1 & H2 & H3) Hp. unfold get4, read4. rewrite H0, H1, H2, H3 by exact Hp. reflexivity.
Qed.

Lemma agree4_refl P M : agree4 P M M.
Proof. destruct M as [[[m0 m1] m2] m3]. repeat split; reflexivity. Qed.

Lemma agree4_trans (P : list Z -> Prop) M1 M2 M3 : agree4 P M1 M2 -> agree4 P M2 M3 -> agree4 P M1 M3.
Proof.
  destruct M1 as [[[m0 m1] m2] m3], M2 as [[[n0 n1] n2] n3], M3 as [[[k0 k1] k2] k3]. intros (A0 & A1 & A2 & A3) (B0 & B1 & B2 & B3).
  repeat split; intros ix Hp; [rewrite B0, A0|rewrite B1, A1|rewrite B2, A2|rewrite B3, A3]; auto.
Qed.

Lemma agree4_imp (P Q : list Z -> Prop) M M' : (forall ix, Q ix -> P ix) -> agree4 P M M' -> agree4 Q M M'.
Proof. destruct M as [[[m0 m1] m2] m3], M' as [[[n0 n1] n2] n3]. intros H (A0 & A1 & A2 & A3). repeat split; auto. Qed.

Lemma four_get M szs na nb f i j : four M szs na nb f -> 0 <= i < na -> 0 <= j < nb -> get4 M [i * nb + j] = Ok (mk4 (fun k => f k i j)).
Proof.
  destruct M as [[[m0 m1] m2] m3], szs as [[[s0 s1] s2] s3]. intros ((_ & _ & F0) & (_ & _ & F1) & (_ & _ & F2) & (_ & _ & F3)) Hi Hj.
  unfold get4, read4, mk4. rewrite F0, F1, F2, F3 by assumption. reflexivity.
Qed.

Lemma grad_add_ok read c M k ic ix g sz a d : adims g = [3; sz] -> 0 <= ic < 3 -> 0 <= ix < sz -> aget g [ic; ix] = Ok a -> read M k = Ok d ->
  exists g', grad_add read c M k ic ix g = Ok g' /\ adims g' = [3; sz] /\ aget g' [ic; ix] = Ok (a + c * d)%R /\ forall ix', ix' <> [ic; ix] -> aget g' ix' = aget g ix'.
Proof.
  intros D Hi Hx Ea Ed. unfold grad_add. rewrite Ea, bind_ok, Ed, bind_ok.
  destruct (aset_get g [ic; ix] (a + c * d)%R) as (g' & E & D' & V & F); [rewrite D; apply inb2; lia|]. exists g'. rewrite E. repeat split; try assumption; congruence.
Qed.

Lemma grad_add4_ok read c M k ic ix g szs t d : dims4 g szs -> 0 <= ic < 3 -> 0 <= ix -> min4 (ix + 1) szs -> get4 g [ic; ix] = Ok t -> read4 (fun m => read m k) M = Ok d ->
  exists g', grad_add4 read c M k ic ix g = Ok g' /\ dims4 g' szs /\ get4 g' [ic; ix] = Ok (tadd t c d) /\ agree4 (fun ix' => ix' <> [ic; ix]) g g'.
Proof.
  destruct M as [[[m0 m1] m2] m3], g as [[[g0 g1] g2] g3], szs as [[[s0 s1] s2] s3]. intros (D0 & D1 & D2 & D3) Hi Hx (X0 & X1 & X2 & X3) Et Ed.
  unfold get4, read4 in Et, Ed. bindinv Et. bindinv Et. bindinv Et. bindinv Et. injection Et as <-. bindinv Ed. bindinv Ed. bindinv Ed. bindinv Ed. injection Ed as <-.
  unfold grad_add4.
  destruct (grad_add_ok read c m0 k ic ix g0 s0 _ _ D0 Hi ltac:(lia) E E3) as (g0' & F0 & D0' & V0 & A0). rewrite F0, bind_ok.
  destruct (grad_add_ok read c m1 k ic ix g1 s1 _ _ D1 Hi ltac:(lia) E0 E4) as (g1' & F1 & D1' & V1 & A1). rewrite F1, bind_ok.
  destruct (grad_add_ok read c m2 k ic ix g2 s2 _ _ D2 Hi ltac:(lia) E1 E5) as (g2' & F2 & D2' & V2 & A2). rewrite F2, bind_ok.
  destruct (grad_add_ok read c m3 k ic ix g3 s3 _ _ D3 Hi ltac:(lia) E2 E6) as (g3' & F3 & D3' & V3 & A3). rewrite F3, bind_ok.
  exists (g0', g1', g2', g3'). split; [reflexivity|]. split; [repeat split; assumption|]. split; [|repeat split; assumption].
  unfold get4, read4. rewrite V0, V1, V2, V3. reflexivity.
Qed.

(** ** Positions of components *)
Definition comp_eqb (c d : Z * Z * Z) : bool :=
  let '(a1, a2, a3) := c in let '(b1, b2, b3) := d in (a1 =? b1) && (a2 =? b2) && (a3 =? b3).

Lemma comp_eqb_eq c d : comp_eqb c d = true <-> c = d.
Proof.
  destruct c as [[a1 a2] a3], d as [[b1 b2] b3]. unfold comp_eqb. rewrite !andb_true_iff, !Z.eqb_eq. split; [intros ((-> & ->) & ->); reflexivity|intros H; injection H as -> -> ->; auto].
Qed.

Fixpoint posn (l : list (Z * Z * Z)) (c : Z * Z * Z) : Z :=
  match l with [] => 0 | d :: l => if comp_eqb c d then 0 else 1 + posn l c end.

Lemma posn_nth l c : In c l -> nth_error l (Z.to_nat (posn l c)) = Some c /\ 0 <= posn l c < Z.of_nat (length l).
Proof.
  induction l as [|d l IH]; [contradiction|]. intros Hin. cbn [posn length]. destruct (comp_eqb c d) eqn:E.
  - apply comp_eqb_eq in E as ->. split; [reflexivity|lia].
  - destruct Hin as [-> |Hin]; [rewrite (proj2 (comp_eqb_eq c c) eq_refl) in E; discriminate|]. destruct (IH Hin) as (Hn & Hr).
    split; [|lia]. replace (Z.to_nat (1 + posn l c)) with (S (Z.to_nat (posn l c))) by lia. exact Hn.
Qed.

Lemma nlm_add_shift c k d : nlm_add c k d = shift c k d.
Proof. destruct c as [[n l] m]. reflexivity. Qed.
Lemma nlm_get_expo c k : nlm_get c k = expo c k.
Proof. destruct c as [[n l] m]. reflexivity. Qed.

Lemma nlm_index_in ord L c : 0 <= L -> In c (canon L) -> nlm_index ord c = Ok (posn (canon L) c).
Proof.
  intros HL Hin. destruct (posn_nth _ _ Hin) as (Hn & Hr). pose proof (nlm_position ord L _ c HL Hn) as E. rewrite Z2Nat.id in E by lia. destruct c as [[n l] m]. exact E.
Qed.

Lemma nlm_index_out ord L c k : 0 < L -> In c (canon L) -> 0 <= k < 3 -> expo c k = 0 -> nlm_index ord (shift c k (-1)) = Ok (n_cart (L - 1)).
Proof.
  intros HL Hin Hk He. destruct c as [[n l] m]. apply in_canon in Hin.
  assert (k = 0 \/ k = 1 \/ k = 2) as [-> | [-> | ->]] by lia; cbn [shift expo Z.eqb Pos.eqb nlm_index] in *; rewrite nlm_lookup_missing by lia; f_equal; f_equal; lia.
Qed.

Lemma expo_nonneg L c k : In c (canon L) -> 0 <= L -> 0 <= expo c k.
Proof. intros H HL. destruct c as [[n l] m]. apply in_canon in H. unfold expo. destruct (k =? 0); [lia|]. destruct (k =? 1); lia. Qed.

Lemma read_nlm_ok h P L i c : heap_wf h -> hblk h P = Some (OInts (flat3 (canon L))) -> nth_error (canon L) i = Some c -> read_nlm h P (Z.of_nat i) = Ok c.
Proof.
  intros W Hb Hi. unfold read_nlm. rewrite (get_comp h P _ i c 0 W Hb Hi), (get_comp h P _ i c 1 W Hb Hi), (get_comp h P _ i c 2 W Hb Hi) by lia. rewrite !bind_ok.
  destruct c as [[n l] m]. reflexivity.
Qed.

(** an undiagnosed read of an allocated block always yields something *)
Lemma junk_read M szs na nb f junk idx : four M szs na nb f -> szs = (na * nb, na * nb, na * nb, na * nb) -> 0 <= nb -> exists d, read4 (fun m => read_at (Some junk) m idx) M = Ok d.
Proof.
  destruct M as [[[m0 m1] m2] m3]. intros F -> Hnb. destruct F as (F0 & F1 & F2 & F3).
  assert (R : forall m g, ismat m (na * nb) na nb g -> exists d, read_at (Some junk) m idx = Ok d).
  { intros m g (D & _ & G). unfold read_at. rewrite D. destruct (inb [na * nb] [idx]) eqn:I; [|eauto].
    apply inb1 in I. assert (0 < nb) by (destruct (Z.eq_dec nb 0) as [-> |]; [rewrite Z.mul_0_r in I; lia|lia]). pose proof (Z.mod_pos_bound idx nb ltac:(lia)). pose proof (Z.div_mod idx nb ltac:(lia)).
    exists (g (idx / nb) (idx mod nb)). rewrite <- G; [f_equal; f_equal; lia| |assumption]. split; [apply Z.div_pos; lia|apply Z.div_lt_upper_bound; [lia|rewrite (Z.mul_comm nb na); lia]]. }
  destruct (R m0 _ F0) as (a & Ea). destruct (R m1 _ F1) as (b & Eb). destruct (R m2 _ F2) as (c & Ec). destruct (R m3 _ F3) as (d & Ed).
  exists (a, b, c, d). unfold read4. rewrite Ea, Eb, Ec, Ed. reflexivity.
Qed.

Lemma checked_read M szs na nb f oob i j : four M szs na nb f -> 0 <= i < na -> 0 <= j < nb ->
  read4 (fun m => read_at oob m (nb * i + j)) M = Ok (mk4 (fun k => f k i j)).
Proof.
  intros F Hi Hj. pose proof (four_get _ _ _ _ _ i j F Hi Hj) as G. destruct M as [[[m0 m1] m2] m3]. unfold get4, read4 in *. rewrite Z.mul_comm.
  destruct oob as [g|]; [|exact G].
  assert (R : forall m v, aget m [i * nb + j] = Ok v -> read_at (Some g) m (i * nb + j) = Ok v).
  { intros m v E. unfold read_at. destruct (inb (adims m) [i * nb + j]) eqn:I; [exact E|]. unfold aget in E. rewrite I in E. discriminate. }
  bindinv G. bindinv G. bindinv G. bindinv G. rewrite (R _ _ E), (R _ _ E0), (R _ _ E1), (R _ _ E2). exact G.
Qed.

(** derivative of the matrix elements of the pair (i, j) along coordinate c, from the matrices fu, fd of the L+1 and L-1 shells *)
Definition bra_value (L : Z) (fu fd : Z -> Z -> Z -> R) (cA : Z * Z * Z) (j c k : Z) : R :=
  (fu k (posn (canon (L + 1)) (shift cA c 1)) j - IZR (expo cA c) * (if 0 <? expo cA c then fd k (posn (canon (L - 1)) (shift cA c (-1))) j else 0))%R.
Definition ket_value (L : Z) (fu fd : Z -> Z -> Z -> R) (i : Z) (cB : Z * Z * Z) (c k : Z) : R :=
  (fu k i (posn (canon (L + 1)) (shift cB c 1)) - IZR (expo cB c) * (if 0 <? expo cB c then fd k i (posn (canon (L - 1)) (shift cB c (-1))) else 0))%R.

Definition dvalue (bra : bool) (LA LB : Z) (fu fd : Z -> Z -> Z -> R) (cA cB : Z * Z * Z) (i j c k : Z) : R :=
  if bra then bra_value LA fu fd cA j c k else ket_value LB fu fd i cB c k.

Lemma tadd2 t f n u d d0 : (n = 0%R \/ d = d0) -> tadd (tadd t (- (f * n)) d) f u = tadd t f (tadd u (- n) d0).
Proof.
  destruct t as [[[t0 t1] t2] t3], u as [[[u0 u1] u2] u3], d as [[[e0 e1] e2] e3], d0 as [[[x0 x1] x2] x3]. unfold tadd. intros [-> |H].
  - f_equal; [f_equal; [f_equal|]|]; ring.
  - injection H as -> -> -> ->. f_equal; [f_equal; [f_equal|]|]; ring.
Qed.

Section CBody.
  Variables (ord : cart_order) (bra : bool) (h : heap) (sA sB : shell) (LA LB : Z) (down : option mats) (up : mats) (sd su : Z) (fu fd : Z -> Z -> Z -> R) (f : R).
  Notation LD := (if bra then LA else LB).
  Hypothesis W : heap_wf h.
  Hypothesis HLA : 0 <= LA.
  Hypothesis HLB : 0 <= LB.
  Hypothesis HA : hblk h (sh_cart_list sA) = Some (OInts (flat3 (canon LA))).
  Hypothesis HB : hblk h (sh_cart_list sB) = Some (OInts (flat3 (canon LB))).
  Hypothesis ZA : sh_cart_size sA = n_cart LA.
  Hypothesis ZB : sh_cart_size sB = n_cart LB.
  Hypothesis Hsu : su = n_cart (LD + 1).
  Hypothesis Hup : four_exact up (if bra then su else n_cart LA) (if bra then n_cart LB else su) fu.
  Hypothesis Hdown : match down with
    | None => LD = 0 /\ sd = 0
    | Some D => 0 < LD /\ sd = n_cart (LD - 1) /\ four_exact D (if bra then sd else n_cart LA) (if bra then n_cart LB else sd) fd
    end.

  Lemma canon_range L i c : 0 <= L -> nth_error (canon L) i = Some c -> (0 <= Z.of_nat i < n_cart L) /\ In c (canon L).
  Proof.
    intros HL Hi. pose proof (length_canon L ltac:(lia)). assert ((i < length (canon L))%nat) by (apply nth_error_Some; congruence). split; [lia|eapply nth_error_In; exact Hi].
  Qed.

  Lemma posn_up L c k : 0 <= L -> In c (canon L) -> 0 <= k < 3 -> In (shift c k 1) (canon (L + 1)) /\ 0 <= posn (canon (L + 1)) (shift c k 1) < n_cart (L + 1).
  Proof.
    intros HL Hin Hk. pose proof (expo_nonneg L c k Hin HL). assert (H1 : In (shift c k 1) (canon (L + 1))) by (apply shift_in_canon; [exact Hin|exact Hk|lia]).
    split; [exact H1|]. destruct (posn_nth _ _ H1) as (_ & Hr). rewrite length_canon in Hr by lia. exact Hr.
  Qed.

  Lemma posn_down L c k : 0 < L -> In c (canon L) -> 0 <= k < 3 -> 0 < expo c k -> In (shift c k (-1)) (canon (L - 1)) /\ 0 <= posn (canon (L - 1)) (shift c k (-1)) < n_cart (L - 1).
  Proof.
    intros HL Hin Hk He. assert (H1 : In (shift c k (-1)) (canon (L + -1))) by (apply shift_in_canon; [exact Hin|exact Hk|lia]). change (L + -1) with (L - 1) in H1.
    split; [exact H1|]. destruct (posn_nth _ _ H1) as (_ & Hr). rewrite length_canon in Hr by lia. exact Hr.
  Qed.

  (** the read of the L-1 matrices *)
  Lemma down_read oob c i j cA cB D : down = Some D -> 0 <= c < 3 -> nth_error (canon LA) i = Some cA -> nth_error (canon LB) j = Some cB ->
    exists bi ki, nlm_index ord (if bra then nlm_add cA c (-1) else cA) = Ok bi /\ nlm_index ord (if bra then cB else nlm_add cB c (-1)) = Ok ki /\
      let idx := (if bra then sh_cart_size sB else sd) * bi + ki in
      (0 < expo (if bra then cA else cB) c ->
         read4 (fun m => read_at oob m idx) D = Ok (mk4 (fun k => if bra then fd k (posn (canon (LA - 1)) (shift cA c (-1))) (Z.of_nat j) else fd k (Z.of_nat i) (posn (canon (LB - 1)) (shift cB c (-1)))))) /\
      (expo (if bra then cA else cB) c = 0 -> idx = (if bra then n_cart LB * sd + Z.of_nat j else sd * Z.of_nat i + sd)) /\
      (forall junk, exists d, read4 (fun m => read_at (Some junk) m idx) D = Ok d).
  Proof.
    intros Ed Hc Hi Hj. rewrite Ed in Hdown. destruct Hdown as (HLp & Hsd & FD).
    destruct (canon_range LA i cA HLA Hi) as (Ri & InA). destruct (canon_range LB j cB HLB Hj) as (Rj & InB).
    assert (PA : nlm_index ord cA = Ok (Z.of_nat i)) by (destruct cA as [[n l] m]; apply (nlm_position ord LA i (n, l, m) HLA Hi)).
    assert (PB : nlm_index ord cB = Ok (Z.of_nat j)) by (destruct cB as [[n l] m]; apply (nlm_position ord LB j (n, l, m) HLB Hj)).
    assert (Nb : 0 <= (if bra then n_cart LB else sd)).
    { destruct bra; [lia|]. rewrite Hsd. pose proof (length_canon (LB - 1) ltac:(lia)). lia. }
    assert (J : forall idx junk, exists d, read4 (fun m => read_at (Some junk) m idx) D = Ok d) by (intros; eapply junk_read; [exact FD|reflexivity|exact Nb]).
    destruct bra.
    - rewrite nlm_add_shift. pose proof (expo_nonneg LA cA c InA HLA) as Ee. destruct (Z.eq_dec (expo cA c) 0) as [E0|E0].
      + exists (n_cart (LA - 1)), (Z.of_nat j). split; [apply nlm_index_out; assumption|]. split; [exact PB|]. cbv zeta. split; [lia|]. split; [|apply J]. intros _. rewrite ZB, Hsd. reflexivity.
      + destruct (posn_down LA cA c HLp InA Hc ltac:(lia)) as (Hin & Hr).
        exists (posn (canon (LA - 1)) (shift cA c (-1))), (Z.of_nat j). split; [apply nlm_index_in; [lia|exact Hin]|]. split; [exact PB|]. cbv zeta. split; [|split; [lia|apply J]].
        intros _. rewrite ZB. rewrite Hsd in FD. eapply checked_read; [exact FD|exact Hr|exact Rj].
    - rewrite nlm_add_shift. pose proof (expo_nonneg LB cB c InB HLB) as Ee. destruct (Z.eq_dec (expo cB c) 0) as [E0|E0].
      + exists (Z.of_nat i), (n_cart (LB - 1)). split; [exact PA|]. split; [apply nlm_index_out; assumption|]. cbv zeta. split; [lia|]. split; [|apply J]. intros _. rewrite Hsd. reflexivity.
      + destruct (posn_down LB cB c HLp InB Hc ltac:(lia)) as (Hin & Hr).
        exists (Z.of_nat i), (posn (canon (LB - 1)) (shift cB c (-1))). split; [exact PA|]. split; [apply nlm_index_in; [lia|exact Hin]|]. cbv zeta. split; [|split; [lia|apply J]].
        intros _. rewrite Hsd. rewrite Hsd in FD. eapply checked_read; [exact FD|exact Ri|exact Hr].
  Qed.

  Lemma up_read c i j cA cB : 0 <= c < 3 -> nth_error (canon LA) i = Some cA -> nth_error (canon LB) j = Some cB ->
    exists bi ki, nlm_index ord (if bra then nlm_add cA c 1 else cA) = Ok bi /\ nlm_index ord (if bra then cB else nlm_add cB c 1) = Ok ki /\
      read4 (fun m => aget m [(if bra then sh_cart_size sB else su) * bi + ki]) up =
        Ok (mk4 (fun k => if bra then fu k (posn (canon (LA + 1)) (shift cA c 1)) (Z.of_nat j) else fu k (Z.of_nat i) (posn (canon (LB + 1)) (shift cB c 1)))).
  Proof.
    intros Hc Hi Hj. destruct (canon_range LA i cA HLA Hi) as (Ri & InA). destruct (canon_range LB j cB HLB Hj) as (Rj & InB).
    assert (PA : nlm_index ord cA = Ok (Z.of_nat i)) by (destruct cA as [[n l] m]; apply (nlm_position ord LA i (n, l, m) HLA Hi)).
    assert (PB : nlm_index ord cB = Ok (Z.of_nat j)) by (destruct cB as [[n l] m]; apply (nlm_position ord LB j (n, l, m) HLB Hj)).
    destruct bra.
    - rewrite nlm_add_shift. destruct (posn_up LA cA c HLA InA Hc) as (Hin & Hr).
      exists (posn (canon (LA + 1)) (shift cA c 1)), (Z.of_nat j). split; [apply nlm_index_in; [lia|exact Hin]|]. split; [exact PB|]. rewrite ZB. rewrite Hsu in Hup.
      exact (checked_read up _ _ _ fu None _ _ Hup Hr Rj).
    - rewrite nlm_add_shift. destruct (posn_up LB cB c HLB InB Hc) as (Hin & Hr).
      exists (Z.of_nat i), (posn (canon (LB + 1)) (shift cB c 1)). split; [exact PA|]. split; [apply nlm_index_in; [lia|exact Hin]|]. rewrite Hsu. rewrite Hsu in Hup.
      exact (checked_read up _ _ _ fu None _ _ Hup Ri Hr).
  Qed.

  Lemma cbody_ok oob c i j cA cB grad szs t : dims4 grad szs -> min4 (n_cart LA * n_cart LB) szs -> 0 <= c < 3 ->
    nth_error (canon LA) i = Some cA -> nth_error (canon LB) j = Some cB -> get4 grad [c; Z.of_nat i * n_cart LB + Z.of_nat j] = Ok t ->
    (oob <> None \/ LD = 0 \/ 0 < expo (if bra then cA else cB) c \/ (bra = false /\ Z.of_nat i < n_cart LA - 1)) ->
    exists grad', contribution_body ord oob bra (0 <? LD) h sA sB down up sd su f c (Z.of_nat i) (Z.of_nat j) grad = Ok grad' /\ dims4 grad' szs /\
      get4 grad' [c; Z.of_nat i * n_cart LB + Z.of_nat j] = Ok (tadd t f (mk4 (dvalue bra LA LB fu fd cA cB (Z.of_nat i) (Z.of_nat j) c))) /\
      agree4 (fun ix => ix <> [c; Z.of_nat i * n_cart LB + Z.of_nat j]) grad grad'.
  Proof.
    intros D4 M4 Hc Hi Hj Et Hok. destruct (canon_range LA i cA HLA Hi) as (Ri & InA). destruct (canon_range LB j cB HLB Hj) as (Rj & InB).
    unfold contribution_body. rewrite (read_nlm_ok h _ LA i cA W HA Hi), bind_ok, (read_nlm_ok h _ LB j cB W HB Hj), bind_ok, ZB.
    set (ix := Z.of_nat i * n_cart LB + Z.of_nat j) in *.
    assert (Hx : 0 <= ix /\ min4 (ix + 1) szs).
    { pose proof (in_range_idx _ _ _ _ Ri Rj) as Q. fold ix in Q. split; [lia|]. destruct szs as [[[s0 s1] s2] s3]. destruct M4 as (? & ? & ? & ?). repeat split; lia. }
    destruct Hx as (Hx & M4').
    destruct (up_read c i j cA cB Hc Hi Hj) as (ub & uk & Eub & Euk & Eup). rewrite ZB in Eup.
    set (u := mk4 (fun k => if bra then fu k (posn (canon (LA + 1)) (shift cA c 1)) (Z.of_nat j) else fu k (Z.of_nat i) (posn (canon (LB + 1)) (shift cB c 1)))) in *.
    set (d0 := mk4 (fun k => if 0 <? expo (if bra then cA else cB) c then (if bra then fd k (posn (canon (LA - 1)) (shift cA c (-1))) (Z.of_nat j) else fd k (Z.of_nat i) (posn (canon (LB - 1)) (shift cB c (-1)))) else 0%R)).
    set (n := expo (if bra then cA else cB) c) in *.
    assert (Val : mk4 (dvalue bra LA LB fu fd cA cB (Z.of_nat i) (Z.of_nat j) c) = tadd u (- IZR n) d0).
    { unfold dvalue, bra_value, ket_value, u, d0, n, mk4, tadd. destruct bra; (destruct (0 <? _)); (f_equal; [f_equal; [f_equal|]|]); ring. }
    rewrite Val. clear Val.
    assert (UP : forall gr t0, dims4 gr szs -> get4 gr [c; ix] = Ok t0 -> exists gr',
      (let* bra_index := nlm_index ord (if bra then nlm_add cA c 1 else cA) in
       let* ket_index := nlm_index ord (if bra then cB else nlm_add cB c 1) in
       grad_add4 (fun M k => aget M [k]) f up ((if bra then n_cart LB else su) * bra_index + ket_index) c ix gr) = Ok gr' /\ dims4 gr' szs /\
       get4 gr' [c; ix] = Ok (tadd t0 f u) /\ agree4 (fun ix' => ix' <> [c; ix]) gr gr').
    { intros gr t0 Dg Eg. rewrite Eub, bind_ok, Euk, bind_ok. apply (grad_add4_ok _ f up _ c ix gr szs t0 u Dg Hc Hx M4' Eg). exact Eup. }
    cbv zeta. destruct (Z.ltb_spec 0 LD) as [HLp|HL0].
    - assert (ED : exists D, down = Some D) by (generalize Hdown; case down; [intros D _; exists D; reflexivity|intros (? & _); lia]).
      destruct ED as (D & Ed). rewrite Ed.
      destruct (down_read oob c i j cA cB D Ed Hc Hi Hj) as (db & dk & Edb & Edk & Rpos & Rout & Rjunk). rewrite Edb, bind_ok, Edk, bind_ok. cbv zeta in *. rewrite ZB in Rpos, Rjunk, Rout.
      fold n in Rpos, Rout.
      assert (Ee : 0 <= n) by (unfold n; destruct bra; [exact (expo_nonneg LA cA c InA HLA)|exact (expo_nonneg LB cB c InB HLB)]).
      assert (Rd : exists d, read4 (fun m => read_at oob m ((if bra then n_cart LB else sd) * db + dk)) D = Ok d /\ (IZR n = 0%R \/ d = d0)).
      { destruct (Z.eq_dec n 0) as [N0|N0].
        - assert (Q : exists d, read4 (fun m => read_at oob m ((if bra then n_cart LB else sd) * db + dk)) D = Ok d).
          { destruct oob as [junk|]; [exact (Rjunk junk)|]. destruct Hok as [Hok|[Hok|[Hok|(Hbr & Hi1)]]]; [congruence|lia|lia|].
            rewrite (Rout N0). clear - Hbr Hi1 Hdown Ed Ri HLp. rewrite Ed in Hdown. destruct Hdown as (_ & Hsd & FD). destruct bra; [discriminate|].
            assert (Hp : 0 < sd) by (rewrite Hsd; pose proof (n_cart_2 (LB - 1) ltac:(lia)); nia).
            pose proof (checked_read D _ _ _ fd None (Z.of_nat i + 1) 0 FD ltac:(lia) ltac:(lia)) as Q. eexists. rewrite <- Q. f_equal. 
            replace (sd * (Z.of_nat i + 1) + 0) with (sd * Z.of_nat i + sd) by ring. reflexivity. }
          destruct Q as (d & Q). exists d. split; [exact Q|left; rewrite N0; reflexivity].
        - rewrite Rpos by lia. eexists. split; [reflexivity|right]. unfold d0. fold n. destruct (Z.ltb_spec 0 n); [reflexivity|lia]. }
      destruct Rd as (d & Erd & Hd).
      assert (En : nlm_get (if bra then cA else cB) c = n) by (unfold n; rewrite nlm_get_expo; reflexivity). rewrite ?En.
      destruct (grad_add4_ok (read_at oob) (- (f * IZR n)) D _ c ix grad szs t d D4 Hc Hx M4' Et Erd) as (g1 & E1 & D1 & V1 & A1). rewrite E1, bind_ok.
      destruct (UP g1 _ D1 V1) as (g2 & E2 & D2 & V2 & A2). rewrite E2. exists g2. split; [reflexivity|]. split; [exact D2|]. split; [|eapply agree4_trans; eassumption].
      rewrite V2. f_equal. apply tadd2. exact Hd.
    - rewrite bind_ok. destruct (UP grad t D4 Et) as (g2 & E2 & D2 & V2 & A2). rewrite E2. exists g2. split; [reflexivity|]. split; [exact D2|]. split; [|exact A2].
      rewrite V2. f_equal.
      assert (N0 : n = 0).
      { unfold n. destruct bra; [destruct cA as [[n1 l1] m1]; apply in_canon in InA|destruct cB as [[n1 l1] m1]; apply in_canon in InB]; unfold expo; destruct (c =? 0); try lia; destruct (c =? 1); lia. }
      rewrite N0. clear. destruct t as [[[t0 t1] t2] t3], u as [[[u0 u1] u2] u3], d0 as [[[x0 x1] x2] x3]. unfold tadd. f_equal; [f_equal; [f_equal|]|]; ring.
  Qed.

  (** the read outside the block *)
  Lemma cbody_fail c i j cA cB grad szs t : dims4 grad szs -> 0 <= c < 3 ->
    nth_error (canon LA) i = Some cA -> nth_error (canon LB) j = Some cB -> get4 grad [c; Z.of_nat i * n_cart LB + Z.of_nat j] = Ok t ->
    0 < LD -> expo (if bra then cA else cB) c = 0 -> (bra = true \/ Z.of_nat i = n_cart LA - 1) ->
    contribution_body ord None bra (0 <? LD) h sA sB down up sd su f c (Z.of_nat i) (Z.of_nat j) grad = Fail OutOfBounds.
  Proof.
    intros D4 Hc Hi Hj Et HLp N0 Hout. destruct (canon_range LA i cA HLA Hi) as (Ri & InA). destruct (canon_range LB j cB HLB Hj) as (Rj & InB).
    unfold contribution_body. rewrite (read_nlm_ok h _ LA i cA W HA Hi), bind_ok, (read_nlm_ok h _ LB j cB W HB Hj), bind_ok, ZB.
    cbv zeta. destruct (Z.ltb_spec 0 LD) as [_|HL0]; [|lia].
    assert (ED : exists D, down = Some D) by (generalize Hdown; case down; [intros D _; exists D; reflexivity|intros (? & _); lia]).
    destruct ED as (D & Ed). rewrite Ed.
    destruct (down_read None c i j cA cB D Ed Hc Hi Hj) as (db & dk & Edb & Edk & _ & Rout & _). rewrite Edb, bind_ok, Edk, bind_ok. cbv zeta in *. rewrite ZB in Rout.
    rewrite (Rout N0).
    assert (Bad : exists m0 m1 m2 m3 n, D = (m0, m1, m2, m3) /\ adims m0 = [n] /\ n <= (if bra then n_cart LB * sd + Z.of_nat j else sd * Z.of_nat i + sd)).
    { rewrite Ed in Hdown. destruct Hdown as (_ & Hsd & FD). destruct D as [[[m0 m1] m2] m3]. exists m0, m1, m2, m3. destruct FD as ((Q & _) & _). eexists. split; [reflexivity|]. split; [exact Q|].
      destruct bra; [nia|]. destruct Hout as [|Hout]; [discriminate|]. nia. }
    destruct Bad as (m0 & m1 & m2 & m3 & n & -> & Dm & Hn). destruct grad as [[[g0 g1] g2] g3]. unfold grad_add4, grad_add.
    assert (Eb : inb (adims m0) [if bra then n_cart LB * sd + Z.of_nat j else sd * Z.of_nat i + sd] = false).
    { rewrite Dm. destruct (inb [n] _) eqn:I; [|reflexivity]. apply inb1 in I. lia. }
    assert (Bad : read_at None m0 (if bra then n_cart LB * sd + Z.of_nat j else sd * Z.of_nat i + sd) = Fail OutOfBounds) by (unfold read_at, aget; rewrite Eb; reflexivity).
    unfold get4, read4 in Et. bindinv Et. rewrite bind_ok, Bad. reflexivity.
  Qed.
End CBody.

(** ** One contribution *)

Definition out_block (n : Z) (ix : list Z) : Prop := ~ exists c x, ix = [c; x] /\ 0 <= c < 3 /\ 0 <= x < n.
Definition full_block (n : Z) (M : mats) : Prop := forall c x, 0 <= c < 3 -> 0 <= x < n -> exists t, get4 M [c; x] = Ok t.

(** the heaps that occur: the initial one, or that with the outercore shells moved *)
Definition reached (C : R * R * R) (ocp : list Z) (h h1 : heap) : Prop :=
  heap_wf h1 /\ ((forall q, hblk h1 q = hblk h q) \/ (forall q, hblk h1 q = hblk (moved_heap C ocp h) q)).

Lemma moved_blocks C ocp h h1 q : (forall q, hblk h1 q = hblk h q) -> hblk (moved_heap C ocp h1) q = hblk (moved_heap C ocp h) q.
Proof. intros E. unfold moved_heap. cbn [hblk]. rewrite E. reflexivity. Qed.

Lemma reached_moved C ocp h h1 : reached C ocp h h1 -> forall q, hblk (moved_heap C ocp h1) q = hblk (moved_heap C ocp h) q.
Proof.
  intros (_ & [E|E]) q; [apply moved_blocks; exact E|]. rewrite (moved_blocks _ _ _ _ q E). apply moved_twice.
Qed.

Lemma reached_std C ocp h h1 p v comps : reached C ocp h h1 -> std_shell h p v comps -> ~ In p ocp -> std_shell h1 p v comps.
Proof.
  intros (W & [E|E]) S N; [eapply std_old; [|exact S]|eapply std_old; [|apply (std_moved _ _ _ _ C ocp S N)]]; apply same_blocks_keeps; exact E.
Qed.

Lemma reached_grpp C ocp h h1 g gv : heap_wf h -> reached C ocp h h1 -> grpp_at h g gv ocp -> exists gv', grpp_at h1 g gv' ocp /\ (gv' = gv \/ gv' = moved_gv C gv).
Proof.
  intros W0 (W & [E|E]) G.
  - exists gv. split; [|left; reflexivity]. eapply grpp_keeps; [exact W0|apply same_blocks_keeps; exact E|exact G].
  - exists (moved_gv C gv). split; [|right; reflexivity]. eapply grpp_keeps; [apply moved_wf; exact W0|apply same_blocks_keeps; exact E|apply grpp_moved; [exact W0|exact G]].
Qed.

Lemma evaluates_either rt C gv gv' vA vB f : gv' = gv \/ gv' = moved_gv C gv -> evaluates rt C gv vA vB f -> evaluates rt C gv' vA vB f.
Proof. intros [-> | ->] H; [exact H|apply evaluates_moved; exact H]. Qed.

(** contents of the component list of a loaded shell *)
Lemma std_list h p v s : heap_wf h -> std_shell h p v (canon (v_L v)) -> load_shell h p = Ok s ->
  hblk h (sh_cart_list s) = Some (OInts (flat3 (canon (v_L v)))) /\ sh_cart_size s = v_size v /\ sh_L s = v_L v /\ sh_origin s = v_origin v.
Proof.
  intros W S E. destruct (std_loads h p v (canon (v_L v)) W S) as (s' & E' & HL & HZ & HO & HB). assert (s' = s) by congruence. subst s'.
  repeat split; assumption.
Qed.

Lemma cloop_ok ord (bra : bool) h sA sB LA LB down up sd su fu fd f oob use grad szs :
  heap_wf h -> 0 <= LA -> 0 <= LB ->
  hblk h (sh_cart_list sA) = Some (OInts (flat3 (canon LA))) -> hblk h (sh_cart_list sB) = Some (OInts (flat3 (canon LB))) ->
  sh_cart_size sA = n_cart LA -> sh_cart_size sB = n_cart LB ->
  su = n_cart ((if bra then LA else LB) + 1) ->
  four_exact up (if bra then su else n_cart LA) (if bra then n_cart LB else su) fu ->
  match down with
  | None => (if bra then LA else LB) = 0 /\ sd = 0
  | Some D => 0 < (if bra then LA else LB) /\ sd = n_cart ((if bra then LA else LB) - 1) /\ four_exact D (if bra then sd else n_cart LA) (if bra then n_cart LB else sd) fd
  end ->
  use = (0 <? (if bra then LA else LB)) -> dims4 grad szs -> min4 (n_cart LA * n_cart LB) szs -> full_block (n_cart LA * n_cart LB) grad ->
  (oob <> None \/ (if bra then LA else LB) = 0) ->
  exists grad', for_range 0 3 (fun icoord => for_range 0 (sh_cart_size sA) (fun i => for_range 0 (sh_cart_size sB) (fun j =>
      contribution_body ord oob bra use h sA sB down up sd su f icoord i j))) grad = Ok grad' /\
    dims4 grad' szs /\ agree4 (out_block (n_cart LA * n_cart LB)) grad grad' /\ full_block (n_cart LA * n_cart LB) grad' /\
    forall c i j cA cB t, 0 <= c < 3 -> nth_error (canon LA) i = Some cA -> nth_error (canon LB) j = Some cB -> get4 grad [c; Z.of_nat i * n_cart LB + Z.of_nat j] = Ok t ->
      get4 grad' [c; Z.of_nat i * n_cart LB + Z.of_nat j] = Ok (tadd t f (mk4 (dvalue bra LA LB fu fd cA cB (Z.of_nat i) (Z.of_nat j) c))).
Proof.
  intros W HLA HLB HA HB ZA ZB Hsu Hup Hdn -> D4 M4 Fl Hoob. rewrite ZA, ZB.
  pose proof (length_canon LA ltac:(lia)) as NA. pose proof (length_canon LB ltac:(lia)) as NB.
  set (comp := fun L (i : Z) => nth (Z.to_nat i) (canon L) (0, 0, 0)).
  assert (Comp : forall L i, 0 <= L -> 0 <= i < n_cart L -> nth_error (canon L) (Z.to_nat i) = Some (comp L i)).
  { intros L i HL Hi. apply nth_error_nth'. pose proof (length_canon L ltac:(lia)). lia. }
  destruct (loop3_upd 3 (n_cart LA) (n_cart LB)
     (fun g => dims4 g szs /\ agree4 (out_block (n_cart LA * n_cart LB)) grad g /\ full_block (n_cart LA * n_cart LB) g)
     (fun g x => let '(c, i, j) := x in get4 g [c; i * n_cart LB + j])
     (fun x v => let '(c, i, j) := x in let* t := v in Ok (tadd t f (mk4 (dvalue bra LA LB fu fd (comp LA i) (comp LB j) i j c))))
     (contribution_body ord oob bra (0 <? (if bra then LA else LB)) h sA sB down up sd su f) grad) as (g' & E & (D & Ag & Fg) & V).
  - lia.
  - lia.
  - lia.
  - split; [exact D4|]. split; [apply agree4_refl|exact Fl].
  - intros c i j g Hc Hi Hj (Dg & Ag & Fg).
    pose proof (Comp LA i HLA Hi) as Ci. pose proof (Comp LB j HLB Hj) as Cj.
    pose proof (in_range_idx i j _ _ Hi Hj) as Hx. destruct (Fg c _ Hc Hx) as (t & Et).
    destruct (cbody_ok ord bra h sA sB LA LB down up sd su fu fd f W HLA HLB HA HB ZB Hsu Hup Hdn oob c (Z.to_nat i) (Z.to_nat j) _ _ g szs t Dg M4 Hc Ci Cj)
      as (g' & E & D' & V' & A').
    { rewrite !Z2Nat.id by lia. exact Et. }
    { destruct Hoob; [left; assumption|right; left; assumption]. }
    rewrite !Z2Nat.id in E, V', A' by lia.
    exists g'. split; [exact E|]. split; [split; [exact D'|split]|split].
    + eapply agree4_trans; [exact Ag|]. eapply agree4_imp; [|exact A']. intros ix Ho Eq. apply Ho. exists c, (i * n_cart LB + j). auto.
    + intros c' x' Hc' Hx'. destruct (list_eq_dec Z.eq_dec [c'; x'] [c; i * n_cart LB + j]) as [Eq|Ne]; [rewrite Eq; eauto|].
      rewrite (agree4_get _ _ _ _ A' Ne). apply Fg; assumption.
    + rewrite Et. exact V'.
    + intros a' i' j' Ha' Hi' Hj' Ne. apply (agree4_get _ _ _ _ A'). intros Eq. injection Eq as -> Eq. apply Ne.
      assert (i' = i) by nia. subst. f_equal. lia.
  - exists g'. split; [exact E|]. split; [exact D|]. split; [exact Ag|]. split; [exact Fg|].
    intros c i j cA cB t Hc Hi Hj Et.
    assert (Hil : (i < length (canon LA))%nat) by (apply nth_error_Some; congruence).
    assert (Hjl : (j < length (canon LB))%nat) by (apply nth_error_Some; congruence).
    specialize (V c (Z.of_nat i) (Z.of_nat j) Hc ltac:(lia) ltac:(lia)). cbn beta iota in V. rewrite V, Et, bind_ok.
    unfold comp. rewrite !Nat2Z.id, (nth_error_nth _ _ _ Hi), (nth_error_nth _ _ _ Hj). reflexivity.
Qed.

Section Contr.
  Variables (ord : cart_order) (oob : option (Z -> R)) (rt : routines) (h : heap) (pA pB g : Z) (gv : gview) (ocp : list Z) (C : R * R * R) (vA vB : sview).
  Variables (fuA fdA fuB fdB : Z -> Z -> Z -> R).
  Hypothesis W : heap_wf h.
  Hypothesis I : rt_init rt = true.
  Hypothesis SA : std_shell h pA vA (canon (v_L vA)).
  Hypothesis SB : std_shell h pB vB (canon (v_L vB)).
  Hypothesis G : grpp_at h g gv ocp.
  Hypothesis NA : ~ In pA ocp.
  Hypothesis NB : ~ In pB ocp.
  Hypothesis EuA : evaluates rt C gv (up_view vA) vB fuA.
  Hypothesis EdA : 0 < v_L vA -> evaluates rt C gv (down_view vA) vB fdA.
  Hypothesis EuB : evaluates rt C gv vA (up_view vB) fuB.
  Hypothesis EdB : 0 < v_L vB -> evaluates rt C gv vA (down_view vB) fdB.

  Definition dval (bra : bool) (cA cB : Z * Z * Z) (i j c k : Z) : R :=
    dvalue bra (v_L vA) (v_L vB) (if bra then fuA else fuB) (if bra then fdA else fdB) cA cB i j c k.

  Lemma contr_ok (bra : bool) f h1 grad szs : reached C ocp h h1 -> dims4 grad szs -> min4 (v_size vA * v_size vB) szs -> full_block (v_size vA * v_size vB) grad ->
    (oob <> None \/ v_L (if bra then vA else vB) = 0) ->
    exists h2 grad', gradient_contribution ord oob rt bra h1 pA pB g C f grad = Ok (h2, grad') /\
      gradient_diff_contribution ord oob rt bra h1 pA pB g C f grad = Ok (h2, grad') /\
      heap_wf h2 /\ (forall q, hblk h2 q = hblk (moved_heap C ocp h) q) /\
      dims4 grad' szs /\ agree4 (out_block (v_size vA * v_size vB)) grad grad' /\ full_block (v_size vA * v_size vB) grad' /\
      forall c i j cA cB t, 0 <= c < 3 -> nth_error (canon (v_L vA)) i = Some cA -> nth_error (canon (v_L vB)) j = Some cB -> get4 grad [c; Z.of_nat i * v_size vB + Z.of_nat j] = Ok t ->
        get4 grad' [c; Z.of_nat i * v_size vB + Z.of_nat j] = Ok (tadd t f (mk4 (dval bra cA cB (Z.of_nat i) (Z.of_nat j) c))).
  Proof.
    intros Rc D4 M4 Fl Hoob. pose proof (proj1 Rc) as W1.
    pose proof (reached_std _ _ _ _ _ _ _ Rc SA NA) as SA1. pose proof (reached_std _ _ _ _ _ _ _ Rc SB NB) as SB1.
    destruct (reached_grpp _ _ _ _ _ _ W Rc G) as (gv' & G1 & Hgv).
    pose proof SA as (_ & HLA & ZA & _). pose proof SB as (_ & HLB & ZB & _).
    destruct (diff_gaussian_ok ord rt bra h1 pA pB g gv' ocp C vA vB _ _ (if bra then fuA else fuB) (if bra then fdA else fdB) W1 I SA1 SB1 G1 NA NB)
      as (down & up & sd & su & h2 & E & W2 & V2 & Hsu & Hup & Hdn).
    { apply (evaluates_either _ _ gv _ _ _ _ Hgv). destruct bra; [exact EuA|exact EuB]. }
    { intros HLp. apply (evaluates_either _ _ gv _ _ _ _ Hgv). destruct bra; [exact (EdA HLp)|exact (EdB HLp)]. }
    assert (V2' : forall q, hblk h2 q = hblk (moved_heap C ocp h) q) by (intros q; rewrite V2; apply (reached_moved _ _ _ _ Rc)).
    assert (Rc2 : reached C ocp h h2) by (split; [exact W2|right; exact V2']).
    pose proof (reached_std _ _ _ _ _ _ _ Rc2 SA NA) as SA2. pose proof (reached_std _ _ _ _ _ _ _ Rc2 SB NB) as SB2.
    destruct (std_loads h2 pA vA _ W2 SA2) as (sA & ELA & HsLA & HzA & _ & HcA). destruct (std_loads h2 pB vB _ W2 SB2) as (sB & ELB & HsLB & HzB & _ & HcB).
    unfold gradient_contribution, gradient_diff_contribution. rewrite E. cbn [bind]. rewrite ELA, !bind_ok, ELB, !bind_ok.
    replace (sh_L (if bra then sA else sB)) with (if bra then v_L vA else v_L vB) by (destruct bra; congruence).
    assert (Esd : (0 <? sd) = (0 <? (if bra then v_L vA else v_L vB))).
    { assert (Q : (if bra then v_L vA else v_L vB) = v_L (if bra then vA else vB)) by (destruct bra; reflexivity). rewrite Q.
      destruct down as [M|]; [|destruct Hdn as (-> & ->); reflexivity]. destruct Hdn as (Hp & -> & _).
      pose proof (n_cart_2 (v_L (if bra then vA else vB) - 1) ltac:(lia)) as Q1. assert (0 < n_cart (v_L (if bra then vA else vB) - 1)) by nia.
      destruct (Z.ltb_spec 0 (n_cart (v_L (if bra then vA else vB) - 1))), (Z.ltb_spec 0 (v_L (if bra then vA else vB))); lia. }
    rewrite Esd. rewrite ZA, ZB in *.
    destruct (cloop_ok ord bra h2 sA sB (v_L vA) (v_L vB) down up sd su (if bra then fuA else fuB) (if bra then fdA else fdB) f oob (0 <? (if bra then v_L vA else v_L vB)) grad szs W2 HLA HLB HcA HcB HzA HzB)
      as (g' & Eg & Dg & Ag & Fg & Vg).
    - rewrite Hsu. destruct bra; reflexivity.
    - exact Hup.
    - clear - Hdn. destruct bra; exact Hdn.
    - reflexivity.
    - exact D4.
    - exact M4.
    - exact Fl.
    - destruct bra; exact Hoob.
    - rewrite Eg, !bind_ok. exists h2, g'. split; [reflexivity|]. split; [reflexivity|]. split; [exact W2|]. split; [exact V2'|]. split; [exact Dg|]. split; [exact Ag|]. split; [exact Fg|exact Vg].
  Qed.
End Contr.
