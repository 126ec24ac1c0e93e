(** * The Fortran module compared with the C routine for outercore potentials (C86) *)

From Coq Require Import ZArith List Lia Bool Reals Permutation.
From Verif Require Import Base CartModel CartProofs HeapModel HeapProofs HeapShrink HeapSpec ParamsModel OneElModel OneElProofs OneElSpec
  OutercoreModel OutercoreProofs NucModel GrppModel GrppHeap GrppTerm FortranModel FortranProofs FortranModule.
Import ListNotations.
Open Scope Z_scope.

(** the potential and the shell a C caller obtains from the constructors for row i (counted from
    0) of the arrays; the origin of the shell is any *)
Definition row_denotes (f : focs) (i : nat) (x : vpot * vshell) : Prop :=
  exists L J n lp lc la sn sc sa o,
    nth_error (fo_L f) i = Some L /\ nth_error (fo_J f) i = Some J /\ nth_error (fo_num f) i = Some n /\
    nth_error (fo_powers f) i = Some lp /\ nth_error (fo_coeffs f) i = Some lc /\ nth_error (fo_alpha f) i = Some la /\
    nth_error (fo_snum f) i = Some sn /\ nth_error (fo_scoeffs f) i = Some sc /\ nth_error (fo_salpha f) i = Some sa /\
    0 <= L /\ 0 <= n <= Z.of_nat (length lp) /\ nprim_ok n lc /\ nprim_ok n la /\ nprim_ok sn sc /\ nprim_ok sn sa /\
    x = (mkVPot L J (filter keep_new (firstn (Z.to_nat n) (zip3 lp lc la))),
         mkV L (n_cart L) (aoflist (flat3 (canon L))) sn (aoflist (firstn (Z.to_nat sn) sc)) (aoflist (firstn (Z.to_nat sn) sa)) o).

Lemma fnth_ok {A} (l : list A) (i : nat) x : nth_error l i = Some x -> fnth l (1 + Z.of_nat i) = Ok x.
Proof. intros E. unfold fnth. replace (1 <=? 1 + Z.of_nat i) with true by (symmetry; apply Z.leb_le; lia). replace (Z.to_nat (1 + Z.of_nat i - 1)) with i by lia. rewrite E. reflexivity. Qed.

Lemma denotes_old h h' a s : (forall p o, hblk h p = Some o -> hblk h' p = Some o) -> denotes h a s -> denotes h' a s.
Proof. intros K (lc & la & HL & Hc & Ha & H). exists lc, la. split; [exact HL|]. split; [exact (K _ _ Hc)|]. split; [exact (K _ _ Ha)|exact H]. Qed.

Lemma with_row_same {Out} h f i U s C (call : heap -> focarg -> res (heap * Out)) c : heap_wf h -> row_denotes f i (U, s) ->
  (forall h' L J u n pc pa, heap_wf h' -> (forall p o, hblk h p = Some o -> hblk h' p = Some o) -> L = pv_L U -> J = pv_J U ->
    denotes_pot h' L J u U -> denotes h' (mkFs C L n pc pa) (move_shell s C) -> same_as_c h' (call h' (L, J, u, n, pc, pa)) c) ->
  same_as_c h (with_row h f (1 + Z.of_nat i) call) c.
Proof.
  intros W (L & J & n & lp & lc & la & sn & sc & sa & o & E1 & E2 & E3 & E4 & E5 & E6 & E7 & E8 & E9 & HL & Hn & Nc & Na & Sc & Sa & E) HC.
  injection E as -> ->. unfold with_row.
  rewrite (fnth_ok _ _ _ E1), bind_ok, (fnth_ok _ _ _ E2), bind_ok, (fnth_ok _ _ _ E3), bind_ok, (fnth_ok _ _ _ E4), bind_ok, (fnth_ok _ _ _ E5), bind_ok, (fnth_ok _ _ _ E6), bind_ok, (fnth_ok _ _ _ E7), bind_ok, (fnth_ok _ _ _ E8), bind_ok, (fnth_ok _ _ _ E9), bind_ok.
  destruct (halloc h (OInts lp)) as [p1 h1] eqn:A1. destruct (rep_alloc _ _ _ _ _ _ W (rep_start h W) A1) as [R1 _].
  destruct (halloc h1 (ODbls lc)) as [p2 h2] eqn:A2. destruct (rep_alloc _ _ _ _ _ _ W R1 A2) as [R2 _].
  destruct (halloc h2 (ODbls la)) as [p3 h3] eqn:A3. destruct (rep_alloc _ _ _ _ _ _ W R2 A3) as [R3 _].
  destruct (halloc h3 (ODbls sc)) as [p4 h4] eqn:A4. destruct (rep_alloc _ _ _ _ _ _ W R3 A4) as [R4 _].
  destruct (halloc h4 (ODbls sa)) as [p5 h5] eqn:A5. destruct (rep_alloc _ _ _ _ _ _ W R4 A5) as [R5 _].
  assert (B : forall p o, In (p, o) [(p5, ODbls sa); (p4, ODbls sc); (p3, ODbls la); (p2, ODbls lc); (p1, OInts lp)] -> hblk h5 p = Some o) by (intros p x Hin; destruct R5 as (_ & _ & _ & D & _); apply (D _ _ Hin)).
  specialize (HC h5 L J (mkFp n p1 p2 p3) sn p4 p5 (rep_wf _ _ _ R5) (fun p x Hx => rep_old _ _ _ _ _ R5 Hx) eq_refl eq_refl).
  assert (DP : denotes_pot h5 L J (mkFp n p1 p2 p3) (mkVPot L J (filter keep_new (firstn (Z.to_nat n) (zip3 lp lc la))))).
  { exists lp, lc, la. cbn [fp_num fp_powers fp_coeffs fp_alpha]. split; [split; [|split]; apply B; cbn; tauto|]. split; [exact Hn|]. split; [exact Nc|]. split; [exact Na|reflexivity]. }
  assert (DS : denotes h5 (mkFs C L sn p4 p5) (move_shell (mkV L (n_cart L) (aoflist (flat3 (canon L))) sn (aoflist (firstn (Z.to_nat sn) sc)) (aoflist (firstn (Z.to_nat sn) sa)) o) C)).
  { exists sc, sa. cbn [fs_L fs_coeffs fs_alpha fs_num fs_origin]. split; [exact HL|]. split; [apply B; cbn; tauto|]. split; [apply B; cbn; tauto|]. split; [exact Sc|]. split; [exact Sa|reflexivity]. }
  specialize (HC DP DS). cbv iota zeta beta.
  destruct c as [out'|x]; cbn [same_as_c] in HC |- *; [|rewrite HC; reflexivity].
  destruct HC as (h6 & Ec & W6 & S6). rewrite Ec, bind_ok. pose proof (rep_same _ _ _ _ R5 W6 S6) as R6.
  destruct (rep_free _ _ _ _ _ R6) as (h7 & E7' & R7 & _). rewrite E7', bind_ok.
  destruct (rep_free _ _ _ _ _ R7) as (h8 & E8' & R8 & _). rewrite E8', bind_ok.
  destruct (rep_free _ _ _ _ _ R8) as (h9 & E9' & R9 & _). rewrite E9', bind_ok.
  destruct (rep_free _ _ _ _ _ R9) as (h10 & E10 & R10 & _). rewrite E10, bind_ok.
  destruct (rep_free _ _ _ _ _ R10) as (h11 & E11 & R11 & _). rewrite E11, bind_ok.
  exists h11. split; [reflexivity|]. split; [exact (rep_wf _ _ _ R11)|exact (rep_end _ _ R11)].
Qed.

(** a loop over the rows *)
Lemma rows_loop {Out X} (h0 : heap) (body : Z -> heap * Out -> res (heap * Out)) (g : X -> Out -> res Out) : forall (l : list X) (i : nat) h out,
  heap_wf h -> (forall q, hblk h q = hblk h0 q) ->
  (forall k x h out, nth_error l k = Some x -> heap_wf h -> (forall q, hblk h q = hblk h0 q) -> same_as_c h (body (1 + Z.of_nat (i + k)) (h, out)) (g x out)) ->
  same_as_c h0 (for_range (1 + Z.of_nat i) (Z.of_nat (i + length l) + 1) body (h, out)) (fold_left (fun (r : res Out) x => let* o := r in g x o) l (Ok out)).
Proof.
  assert (FF : forall (l : list X) e, fold_left (fun (r : res Out) x => let* o := r in g x o) l (Fail e) = Fail e) by (intros l e; induction l as [|x l IH]; [reflexivity|exact IH]).
  induction l as [|x l IH]; intros i h out W S HB; cbn [length fold_left].
  - rewrite for_range_nil by lia. cbn [same_as_c]. exists h. split; [reflexivity|]. split; [exact W|exact S].
  - rewrite for_range_step by lia. pose proof (HB O x h out eq_refl W S) as Hx. rewrite Nat.add_0_r in Hx. rewrite bind_ok. destruct (g x out) as [out'|e]; cbn [same_as_c] in Hx.
    + destruct Hx as (h' & -> & W' & S'). rewrite bind_ok. replace (1 + Z.of_nat i + 1) with (1 + Z.of_nat (Datatypes.S i)) by lia. replace (i + Datatypes.S (length l))%nat with (Datatypes.S i + length l)%nat by lia.
      apply IH; [exact W'|intros q; rewrite S'; apply S|]. intros k y h2 out2 Hk W2 S2. replace (Datatypes.S i + k)%nat with (i + Datatypes.S k)%nat by lia. exact (HB (Datatypes.S k) y h2 out2 Hk W2 S2).
    + rewrite Hx, FF. reflexivity.
Qed.

Lemma move_twice s C : move_shell (move_shell s C) C = move_shell s C.
Proof. destruct s. reflexivity. Qed.

Lemma part_1_moved t1 A B C U s out : outercore_part_1 t1 A B C U (move_shell s C) out = outercore_part_1 t1 A B C U s out.
Proof. destruct s. reflexivity. Qed.

Lemma ncart_n L : ncart L = n_cart L.
Proof. reflexivity. Qed.

Lemma denotes_size h a A : denotes h a A -> sv_size A = n_cart (fs_L a).
Proof. intros (lc & la & _ & _ & _ & _ & _ & ->). reflexivity. Qed.

Lemma module_thm t1 ord h a b C num f ocs A B out : heap_wf h -> denotes h a A -> denotes h b B -> num = Z.of_nat (length ocs) ->
  (forall i x, nth_error ocs i = Some x -> row_denotes f i x) ->
  same_as_c h (module_outercore t1 ord h a b C num f out) (let* (o, _) := outercore_potential_integrals t1 A B C ocs out in Ok o).
Proof.
  intros W DA DB -> HR. unfold module_outercore, outercore_potential_integrals. cbv zeta. change (ncart (fs_L a)) with (n_cart (fs_L a)). change (ncart (fs_L b)) with (n_cart (fs_L b)). rewrite <- (denotes_size h a A DA), <- (denotes_size h b B DB).
  destruct out as [[[arep sx] sy] sz].
  destruct (memset0 _ arep) as [m0|e]; [|reflexivity]. rewrite !bind_ok.
  destruct (memset0 _ sx) as [m1|e]; [|reflexivity]. rewrite !bind_ok.
  destruct (memset0 _ sy) as [m2|e]; [|reflexivity]. rewrite !bind_ok.
  destruct (memset0 _ sz) as [m3|e]; [|reflexivity]. rewrite !bind_ok.
  set (mo := map (fun '(pot, s) => (pot, move_shell s C)) ocs).
  set (g1 := fun (x : vpot * vshell) (o : mats) => outercore_part_1 t1 A B C (fst x) (snd x) o).
  set (g2 := fun (x y : vpot * vshell) (o : mats) => outercore_part_2 A B C (fst x) (snd x) (fst y) (snd y) o).
  assert (F1 : forall l r, fold_left (fun (r : res mats) '(pot, nlj) => let* out := r in outercore_part_1 t1 A B C pot nlj out) l r = fold_left (fun (r : res mats) x => let* o := r in g1 x o) l r).
  { intros l. induction l as [|[U s] l IH]; intros r; [reflexivity|]. cbn [fold_left]. apply IH. }
  assert (F2 : forall U1 s1 l r, fold_left (fun (r : res mats) '(pot2, nlj2) => let* out := r in outercore_part_2 A B C U1 s1 pot2 nlj2 out) l r = let* o := r in fold_left (fun (r : res mats) y => let* o := r in g2 (U1, s1) y o) l (Ok o)).
  { intros U1 s1 l. induction l as [|[U s] l IH]; intros r; [destruct r; reflexivity|]. cbn [fold_left]. rewrite IH. destruct r as [o|e]; [rewrite !bind_ok|reflexivity].
    change (g2 (U1, s1) (U, s) o) with (outercore_part_2 A B C U1 s1 U s o). destruct (outercore_part_2 A B C U1 s1 U s o) as [o'|e]; [reflexivity|]. cbn [bind].
    clear. induction l as [|y l IH]; [reflexivity|exact IH]. }
  assert (F3 : forall l r, fold_left (fun (r : res mats) '(pot1, nlj1) => fold_left (fun (r : res mats) '(pot2, nlj2) => let* out := r in outercore_part_2 A B C pot1 nlj1 pot2 nlj2 out) mo r) l r
    = fold_left (fun (r : res mats) x => let* o := r in fold_left (fun (r : res mats) y => let* o := r in g2 x y o) mo (Ok o)) l r).
  { intros l. induction l as [|[U s] l IH]; intros r; [reflexivity|]. cbn [fold_left]. rewrite F2. apply IH. }
  rewrite F1.
  assert (Mn : forall k x, nth_error mo k = Some x -> exists U s, x = (U, move_shell s C) /\ row_denotes f k (U, s)).
  { intros k x Hk. unfold mo in Hk. rewrite nth_error_map in Hk. destruct (nth_error ocs k) as [[U s]|] eqn:E; [|discriminate]. injection Hk as <-. exists U, s. split; [reflexivity|exact (HR k _ E)]. }
  assert (Lm : length ocs = length mo) by (unfold mo; rewrite map_length; reflexivity). rewrite Lm.
  assert (Old : forall h', (forall q, hblk h' q = hblk h q) -> forall p o, hblk h p = Some o -> hblk h' p = Some o) by (intros h' S p o E; rewrite S; exact E).
  set (b1 := fun (i : Z) '(h, out) => with_row h f i (fun h '(L, J, u, n, pc, pa) => outercore_potential_integrals_part_1_ t1 ord h a b C L J u n pc pa out)).
  pose proof (rows_loop h b1 g1 mo 0 h (m0, m1, m2, m3) W (fun _ => eq_refl)) as P1. cbn [Nat.add] in P1. change (1 + Z.of_nat 0) with 1 in P1.
  assert (Q1 : same_as_c h (for_range 1 (Z.of_nat (length mo) + 1) b1 (h, (m0, m1, m2, m3))) (fold_left (fun (r : res mats) x => let* o := r in g1 x o) mo (Ok (m0, m1, m2, m3)))).
  { apply P1. intros k x h' out' Hk W' S'. destruct (Mn k x Hk) as (U & s & -> & Rk). unfold b1, g1. cbn [fst snd].
    apply (with_row_same h' f k U s C); [exact W'|exact Rk|]. intros h2 L J u n pc pa W2 K2 _ _ DU DS.
    exact (part_1_call t1 ord h2 a b C L J u n pc pa A B U _ out' W2 (denotes_old _ _ _ _ K2 (denotes_old _ _ _ _ (Old h' S') DA)) (denotes_old _ _ _ _ K2 (denotes_old _ _ _ _ (Old h' S') DB)) DU DS). }
  clear P1.
  set (b2 := fun (i j : Z) '(h, out) => with_row h f i (fun h '(L1, J1, u1, n1, c1, a1) => with_row h f j (fun h '(L2, J2, u2, n2, c2, a2) => outercore_potential_integrals_part_2_ ord h a b C L1 J1 u1 n1 c1 a1 L2 J2 u2 n2 c2 a2 out))).
  set (r1 := fold_left (fun (r : res mats) x => let* o := r in g1 x o) mo (Ok (m0, m1, m2, m3))) in Q1.
  change (same_as_c h (let* (h, out) := for_range 1 (Z.of_nat (length mo) + 1) b1 (h, (m0, m1, m2, m3)) in for_range 1 (Z.of_nat (length mo) + 1) (fun i s => for_range 1 (Z.of_nat (length mo) + 1) (b2 i) s) (h, out))
    (let* (o, _) := let* out := r1 in let* out := fold_left (fun (r : res mats) '(pot1, nlj1) => fold_left (fun (r : res mats) '(pot2, nlj2) => let* out := r in outercore_part_2 A B C pot1 nlj1 pot2 nlj2 out) mo r) mo (Ok out) in Ok (out, mo) in Ok o)).
  destruct r1 as [out1|e]; cbn [same_as_c] in Q1; [|rewrite Q1; reflexivity].
  destruct Q1 as (h1 & E1 & W1 & S1). rewrite E1, !bind_ok, F3.
  change (same_as_c h (for_range 1 (Z.of_nat (length mo) + 1) (fun i s => for_range 1 (Z.of_nat (length mo) + 1) (b2 i) s) (h1, out1))
    (let* (o, _) := let* out := fold_left (fun (r : res mats) x => let* o := r in fold_left (fun (r : res mats) y => let* o := r in g2 x y o) mo (Ok o)) mo (Ok out1) in Ok (out, mo) in Ok o)).
  assert (Q2 : same_as_c h (for_range 1 (Z.of_nat (length mo) + 1) (fun i s => for_range 1 (Z.of_nat (length mo) + 1) (b2 i) s) (h1, out1))
    (fold_left (fun (r : res mats) x => let* o := r in fold_left (fun (r : res mats) y => let* o := r in g2 x y o) mo (Ok o)) mo (Ok out1))).
  { apply (rows_loop h (fun i s => for_range 1 (Z.of_nat (length mo) + 1) (b2 i) s) (fun x o => fold_left (fun (r : res mats) y => let* o := r in g2 x y o) mo (Ok o)) mo 0 h1 out1 W1 S1).
    intros k x h' out' Hk W' S'. destruct (Mn k x Hk) as (U & s & -> & Rk).
    apply (rows_loop h' (b2 (1 + Z.of_nat (0 + k))) (g2 (U, move_shell s C)) mo 0 h' out' W' (fun _ => eq_refl)).
    intros k2 y h2 out2 Hk2 W2 S2. destruct (Mn k2 y Hk2) as (U2 & s2 & -> & Rk2). unfold b2, g2. cbn [fst snd Nat.add].
    assert (S2' : forall q, hblk h2 q = hblk h q) by (intros q; rewrite S2; apply S').
    apply (with_row_same h2 f k U s C); [exact W2|exact Rk|]. intros h3 L J u n pc pa W3 K3 _ _ DU DS.
    apply (with_row_same h3 f k2 U2 s2 C); [exact W3|exact Rk2|]. intros h4 L' J' u' n' pc' pa' W4 K4 _ _ DU' DS'.
    apply part_2_call; [exact W4| | | |exact (denotes_old _ _ _ _ K4 DS)|exact DU'|exact DS'].
    - exact (denotes_old _ _ _ _ K4 (denotes_old _ _ _ _ K3 (denotes_old _ _ _ _ (Old h2 S2') DA))).
    - exact (denotes_old _ _ _ _ K4 (denotes_old _ _ _ _ K3 (denotes_old _ _ _ _ (Old h2 S2') DB))).
    - destruct DU as (lp & lc & la & (H1 & H2 & H3) & H4). exists lp, lc, la. split; [split; [|split]; apply K4; assumption|exact H4]. }
  set (r2 := fold_left (fun (r : res mats) x => let* o := r in fold_left (fun (r : res mats) y => let* o := r in g2 x y o) mo (Ok o)) mo (Ok out1)) in Q2 |- *. destruct r2 as [out2|e]; exact Q2.
Qed.

(** ** The gradient routine of the module has no body *)
Lemma module_gradient_thm h a b C num f D (v : R) (size : Z) : 0 < size ->
  exists grad, length grad = 12%nat /\ Forall (fun m => adims m = [size]) grad /\
    exists grad' m x, module_outercore_gradient h a b C num f D grad = Ok (h, grad') /\ nth_error grad' 0 = Some m /\ aget m [0] = Ok x /\ x <> v.
Proof.
  intros Hs. exists (repeat (aconst [size] (v + 1)%R) 12). split; [reflexivity|]. split; [repeat constructor|].
  exists (repeat (aconst [size] (v + 1)%R) 12), (aconst [size] (v + 1)%R), (v + 1)%R. split; [reflexivity|]. split; [reflexivity|]. split.
  - apply aget_aconst. lia.
  - intros E. apply (Rlt_irrefl v). rewrite <- E at 2. apply Rlt_plus_1.
Qed.

(** ** Scalars *)
Open Scope R_scope.

(** only the variable at p is changed, to v *)
Definition only_set (m : fvars) (p : Z) (v : R) (m' : fvars) : Prop :=
  fv_real m' p = v /\ (forall q, q <> p -> fv_real m' q = fv_real m q) /\ forall q, fv_int m' q = fv_int m q.

Lemma store_only m p v : only_set m p v (store_real m p v).
Proof. unfold only_set, store_real. cbn [fv_real fv_int]. rewrite Z.eqb_refl. split; [reflexivity|]. split; [|reflexivity]. intros q Hq. destruct (Z.eqb_spec q p) as [E|_]; [contradiction|reflexivity]. Qed.

Lemma scalars_thm Sk erf m p q1 q2 q3 q4 q5 : forall out,
  (set_radial_tolerance_ m p q1 = set_radial p (fv_real m q1) /\ set_angular_screening_tolerance_ m p q1 = set_angular p (fv_real m q1) /\
   set_modified_bessel_tolerance_ m p q1 = set_bessel p (fv_real m q1) /\ set_cartesian_order_ m p q1 = set_order p (fv_int m q1) /\ set_default_parameters_ p = set_defaults p) /\
  only_set m out (rms_radius_johnson_1985 (fv_int m q1)) (estimate_nuclear_rms_radius_johnson_1985_ m q1 out) /\
  only_set m out (rms_radius_golovko_2008 (fv_int m q1)) (estimate_nuclear_rms_radius_golovko_2008_ m q1 out) /\
  only_set m out (charge_density_ball (fv_real m q1) (fv_real m q2) (fv_real m q3)) (charge_density_ball_ m q1 q2 q3 out) /\
  only_set m out (charge_density_gaussian (fv_real m q1) (fv_real m q2) (fv_real m q3)) (charge_density_gaussian_ m q1 q2 q3 out) /\
  only_set m out (charge_density_fermi Sk (fv_real m q1) (fv_real m q2) (fv_real m q3) (fv_real m q4)) (charge_density_fermi_ Sk m q1 q2 q3 q4 out) /\
  only_set m out (charge_density_fermi_bubble Sk (fv_real m q1) (fv_real m q2) (fv_real m q3) (fv_real m q4) (fv_real m q5)) (charge_density_fermi_bubble_ Sk m q1 q2 q3 q4 q5 out) /\
  only_set m out (coulomb_potential_point (fv_real m q1) (fv_real m q2)) (coulomb_potential_point_ m q1 q2 out) /\
  only_set m out (coulomb_potential_ball (fv_real m q1) (fv_real m q2) (fv_real m q3)) (coulomb_potential_ball_ m q1 q2 q3 out) /\
  only_set m out (coulomb_potential_gaussian erf (fv_real m q1) (fv_real m q2) (fv_real m q3)) (coulomb_potential_gaussian_ erf m q1 q2 q3 out) /\
  only_set m out (coulomb_potential_fermi Sk (fv_real m q1) (fv_real m q2) (fv_real m q3) (fv_real m q4)) (coulomb_potential_fermi_ Sk m q1 q2 q3 q4 out) /\
  only_set m out (coulomb_potential_fermi_bubble Sk (fv_real m q1) (fv_real m q2) (fv_real m q3) (fv_real m q4) (fv_real m q5)) (coulomb_potential_fermi_bubble_ Sk m q1 q2 q3 q4 q5 out) /\
  only_set m out (rms_radius_fermi Sk (fv_int m q1) (fv_real m q3) (fv_real m q4)) (rms_radius_fermi_ Sk m q1 q3 q4 out) /\
  only_set m out (rms_radius_fermi_bubble Sk (fv_int m q1) (fv_real m q3) (fv_real m q4) (fv_real m q5)) (rms_radius_fermi_bubble_ Sk m q1 q3 q4 q5 out).
Proof. intros out. split; [repeat (split; [reflexivity|]); reflexivity|]. repeat (split; [apply store_only|]). apply store_only. Qed.

(** the parameters of the Fermi model: c and a may be the variable R_rms, but not the same *)
Lemma fermi_parameters_thm m R_rms c a err : c <> a ->
  let m' := estimate_fermi_model_parameters_ m R_rms c a err in
  (forall q, q <> err -> fv_int m' q = fv_int m q) /\ (forall q, q <> c -> q <> a -> fv_real m' q = fv_real m q) /\
  match estimate_fermi_model_parameters (fv_real m R_rms) with
  | Some (c0, a0) => fv_int m' err = 1%Z /\ fv_real m' c = c0 /\ fv_real m' a = a0
  | None => fv_int m' err = (-1)%Z /\ fv_real m' c = fv_real m c
  end.
Proof.
  intros Hca. unfold estimate_fermi_model_parameters_, estimate_fermi_model_parameters. cbn [store_real fv_real]. rewrite Z.eqb_refl.
  assert (Ne : forall q p : Z, q <> p -> (q =? p)%Z = false) by (intros q p H; apply Z.eqb_neq; exact H).
  destruct (Rlt_dec _ 0) as [H|H]; cbn [store_int store_real fv_int fv_real].
  - split; [intros q Hq; rewrite (Ne q err Hq); reflexivity|]. split; [intros q _ Hq; rewrite (Ne q a Hq); reflexivity|]. rewrite Z.eqb_refl, (Ne c a Hca). split; reflexivity.
  - split; [intros q Hq; rewrite (Ne q err Hq); reflexivity|]. split; [intros q Hq Hq'; rewrite (Ne q c Hq), (Ne q a Hq'); reflexivity|].
    rewrite !Z.eqb_refl, (Ne a c (not_eq_sym Hca)). split; [reflexivity|]. split; reflexivity.
Qed.
