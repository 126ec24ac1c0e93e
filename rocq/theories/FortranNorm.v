(** * The two Fortran-only entry points: one overlap integral, the radial norm *)

From Coq Require Import ZArith List Lia Lra Bool Reals Permutation.
From Coquelicot Require Import Coquelicot.
From Verif Require Import Base CartModel CartProofs HeapModel HeapProofs HeapShrink HeapSpec GaussInt GaussProd OneElModel OneElProofs OneElPairs OneElSpec OneElInt
  OneElThms NucPotSpec NucPot BinomProofs RadialModel GaussMoment OutercoreModel OutercoreProofs OutercoreRadial OutercoreThms GrppModel GrppHeap GrppTerm FortranModel FortranProofs.
Import ListNotations.
Open Scope Z_scope.

(** the primitives in the caller's arrays *)
Definition gaussians (h : heap) (num : Z) (pc pa : ptr) (prims : list (R * R)) : Prop :=
  exists lc la, hblk h pc = Some (ODbls lc) /\ hblk h pa = Some (ODbls la) /\ nprim_ok num lc /\ nprim_ok num la /\
    prims = combine (firstn (Z.to_nat num) lc) (firstn (Z.to_nat num) la).

Definition one_comp (x : shell_rep) (n l m : Z) (rest : list Z) : shell_rep :=
  mkShellRep (sr_ptr x) (sr_cart x) (sr_pc x) (sr_pa x) (sr_L x) 1 (sr_n x) (sr_origin x) (n :: l :: m :: rest) (sr_coeffs x) (sr_alpha x).

Lemma set_component_rep h0 h x cs n l m u v w rest : rep h0 h (shell_cells x ++ cs) -> sr_list x = u :: v :: w :: rest ->
  exists h', set_component h (sr_ptr x) n l m = Ok h' /\ rep h0 h' (shell_cells (one_comp x n l m rest) ++ cs).
Proof.
  intros R0 EL. unfold set_component, load_shell. rewrite (rep_load _ _ _ _ _ R0 (or_introl eq_refl)). cbn [bind sh_L sh_cart_size sh_cart_list sh_num sh_coeffs sh_alpha sh_origin].
  destruct (rep_store _ _ _ _ _ (OShell (mkShell (sr_L x) 1 (sr_cart x) (sr_n x) (sr_pc x) (sr_pa x) (sr_origin x))) R0) as (h1 & E1 & R1 & _).
  rewrite E1. cbn [bind]. eapply rep_perm in R1; [|apply perm_swap]. rewrite EL in R1.
  destruct (rep_set_int _ _ _ _ [] _ _ n 0 R1 eq_refl) as (h2 & E2 & R2). rewrite E2. cbn [bind app] in *.
  destruct (rep_set_int _ _ _ _ [n] _ _ l 1 R2 eq_refl) as (h3 & E3 & R3). rewrite E3. cbn [bind app] in *.
  destruct (rep_set_int _ _ _ _ [n; l] _ _ m 2 R3 eq_refl) as (h4 & E4 & R4). rewrite E4. cbn [app] in *.
  exists h4. split; [reflexivity|]. eapply rep_perm; [|exact R4]. unfold one_comp, shell_cells. cbn [sr_ptr sr_cart sr_pc sr_pa sr_L sr_size sr_n sr_origin sr_list sr_coeffs sr_alpha app]. apply perm_swap.
Qed.

Lemma aget_list {A} (l : list A) i x : nth_error l i = Some x -> aget (aoflist l) [Z.of_nat i] = Ok x.
Proof.
  intros H. assert ((i < length l)%nat) by (apply nth_error_Some; congruence).
  apply aget_ok; [cbn; apply inb1; lia|]. cbn. rewrite Nat2Z.id. destruct (Z.of_nat i <? 0) eqn:E; [lia|]. exact H.
Qed.

Lemma combine_prims (num : Z) (lc la : list R) org L sz cl : nprim_ok num lc -> nprim_ok num la ->
  holds_prims (mkV L sz cl num (aoflist (firstn (Z.to_nat num) lc)) (aoflist (firstn (Z.to_nat num) la)) org)
    (combine (firstn (Z.to_nat num) lc) (firstn (Z.to_nat num) la)).
Proof.
  intros Hc Ha. unfold nprim_ok in *.
  assert (Lc : length (firstn (Z.to_nat num) lc) = Z.to_nat num) by (rewrite firstn_length; lia).
  assert (La : length (firstn (Z.to_nat num) la) = Z.to_nat num) by (rewrite firstn_length; lia).
  split; cbn [sv_num sv_coef sv_alpha]; rewrite combine_length, Lc, La, Nat.min_id; [lia|].
  intros i Hi. rewrite combine_nth by congruence. cbn [fst snd].
  split; apply aget_list, nth_error_nth'; lia.
Qed.

Lemma evaluate_overlap ord h oA nA lA mA numA cA aA prA oB nB lB mB numB cB aB prB out sz :
  heap_wf h -> 0 <= nA -> 0 <= lA -> 0 <= mA -> nA + lA + mA <= 9 -> 0 <= nB -> 0 <= lB -> 0 <= mB -> nB + lB + mB <= 9 ->
  gaussians h numA cA aA prA -> gaussians h numB cB aB prB -> adims out = [sz] -> 1 <= sz ->
  exists h' out', evaluate_overlap_integral_contracted_ ord h oA nA lA mA numA cA aA oB nB lB mB numB cB aB out = Ok (h', out') /\
    heap_wf h' /\ (forall q, hblk h' q = hblk h q) /\ adims out' = [sz] /\ (forall ix, ix <> [0] -> acell out' ix = acell out ix) /\
    aget out' [0] = Ok (contracted (ov_entry (nA + lA + mA) (nB + lB + mB) oA oB (nA, lA, mA) (nB, lB, mB)) prA prB).
Proof.
  intros W HnA HlA HmA HLA HnB HlB HmB HLB (lcA & laA & PcA & PaA & NcA & NaA & ->) (lcB & laB & PcB & PaB & NcB & NaB & ->) D Hsz.
  unfold evaluate_overlap_integral_contracted_. set (a := mkFs oA _ _ _ _). set (b := mkFs oB _ _ _ _).
  assert (DA : denotes h a _) by (exists lcA, laA; cbn [a fs_L fs_coeffs fs_alpha fs_num fs_origin]; repeat (split; [first [assumption | lia]|]); reflexivity).
  assert (DB : denotes h b _) by (exists lcB, laB; cbn [b fs_L fs_coeffs fs_alpha fs_num fs_origin]; repeat (split; [first [assumption | lia]|]); reflexivity).
  destruct (@with_shells_run (arr R) ord h a b _ _ W DA DB) as (h1 & xA & xB & R1 & VA & VB & LA & LB & E). rewrite E. clear E.
  cbn [a b fs_L fs_coeffs fs_alpha fs_num fs_origin] in *.
  assert (NE : forall L, 0 <= L -> exists u v w rest, flat3 (canon L) = u :: v :: w :: rest).
  { intros L HL. destruct (canon L) as [|[[u v] w] r] eqn:EL; [pose proof (length_canon2 L ltac:(lia)) as Q; rewrite EL in Q; cbn in Q; nia|]. cbn. eauto. }
  destruct (NE (nA + lA + mA) ltac:(lia)) as (uA & vA & wA & rA & ELA). destruct (NE (nB + lB + mB) ltac:(lia)) as (uB & vB & wB & rB & ELB).
  rewrite ELA in LA. rewrite ELB in LB.
  eapply (rep_perm _ _ _ (shell_cells xA ++ shell_cells xB)) in R1; [|apply Permutation_app_comm].
  destruct (set_component_rep _ _ _ _ nA lA mA _ _ _ _ R1 LA) as (h2 & E2 & R2). rewrite E2. cbn [bind].
  eapply (rep_perm _ _ _ (shell_cells xB ++ _)) in R2; [|apply Permutation_app_comm].
  destruct (set_component_rep _ _ _ _ nB lB mB _ _ _ _ R2 LB) as (h3 & E3 & R3). rewrite E3. cbn [bind].
  unfold reads2.
  change (sr_ptr xA) with (sr_ptr (one_comp xA nA lA mA rA)). change (sr_ptr xB) with (sr_ptr (one_comp xB nB lB mB rB)).
  set (yA := one_comp xA nA lA mA rA) in *. set (yB := one_comp xB nB lB mB rB) in *.
  rewrite (sr_view_ok _ _ _ yA R3) by inlist. cbn [bind]. rewrite (sr_view_ok _ _ _ yB R3) by inlist. cbn [bind].
  assert (SH : forall x org n l m rest num lc la, sr_view x = mkV (n + l + m) (n_cart (n + l + m)) (aoflist (flat3 (canon (n + l + m)))) num (aoflist (firstn (Z.to_nat num) lc)) (aoflist (firstn (Z.to_nat num) la)) org ->
     0 <= n -> 0 <= l -> 0 <= m -> nprim_ok num lc -> nprim_ok num la ->
     vshell_is (sr_view (one_comp x n l m rest)) (n + l + m) org (combine (firstn (Z.to_nat num) lc) (firstn (Z.to_nat num) la)) [(n, l, m)]).
  { intros x org n l m rest num lc la V Hn Hl Hm Nc Na. 
    pose proof (f_equal sv_L V) as V1. pose proof (f_equal sv_num V) as V4. pose proof (f_equal sv_org V) as V8.
    pose proof (f_equal sv_coef V) as Ec. pose proof (f_equal sv_alpha V) as Ea. cbn [sr_view sv_L sv_num sv_org sv_coef sv_alpha] in V1, V4, V8, Ec, Ea.
    split; [exact V1|]. split; [exact V8|]. split.
    - pose proof (combine_prims num lc la org (n + l + m) 1 (aoflist (n :: l :: m :: rest)) Nc Na) as HP.
      unfold sr_view, one_comp. cbn [sr_ptr sr_cart sr_pc sr_pa sr_L sr_size sr_n sr_origin sr_list sr_coeffs sr_alpha].
      unfold holds_prims in *. cbn [sv_num sv_coef sv_alpha] in *. rewrite V4.
      rewrite Ec, Ea. exact HP.
    - split; [split; [reflexivity|]|].
      + intros i Hi. cbn [length] in Hi. assert (i = 0%nat) by lia. subst i. cbn [nth]. split; [|split].
        * apply (aget_list (n :: l :: m :: rest) 0); reflexivity.
        * apply (aget_list (n :: l :: m :: rest) 1); reflexivity.
        * apply (aget_list (n :: l :: m :: rest) 2); reflexivity.
      + intros n' l' m' [E | []]. injection E as <- <- <-. lia. }
  pose proof (SH xA oA nA lA mA rA numA lcA laA VA HnA HlA HmA NcA NaA) as SA.
  pose proof (SH xB oB nB lB mB rB numB lcB laB VB HnB HlB HmB NcB NaB) as SB.
  fold yA in SA. fold yB in SB.
  destruct (overlap_result _ _ _ _ _ _ _ _ _ _ SA SB ltac:(lia) ltac:(lia) out sz ltac:(lia) ltac:(lia) D) as (out' & E & D' & G & F).
  { cbn. lia. }
  rewrite E. cbn [bind].
  destruct (delete_two _ _ _ _ R3) as (h4 & E4 & R4). destruct (delete_shell h3 (sr_ptr yA)) as [h5|]; cbn [bind] in *; [|discriminate].
  rewrite E4. cbn [bind]. exists h4, out'. split; [reflexivity|]. split; [exact (rep_wf _ _ _ R4)|]. split; [exact (rep_end _ _ R4)|]. split; [exact D'|].
  split.
  - intros ix Hix. apply F. intros k Hk ->. change (0 <= k < 1 * 1) in Hk. apply Hix. f_equal. lia.
  - specialize (G 0%nat 0%nat ltac:(cbn; lia) ltac:(cbn; lia)). apply aget_ok; [rewrite D'; apply inb1; lia|]. exact G.
Qed.

(** ** The radial norm *)
Open Scope R_scope.

Lemma odd_prod_dfact l : odd_prod l = IZR (dfactz (Z.to_nat (2 * Z.of_nat l - 1))).
Proof.
  induction l as [|l IH]; [reflexivity|]. cbn [odd_prod]. rewrite IH.
  destruct l as [|l]; [change (Z.to_nat (2 * Z.of_nat 0 - 1)) with 0%nat; change (Z.to_nat (2 * Z.of_nat 1 - 1)) with 1%nat; cbn [dfactz INR]; lra|].
  replace (Z.to_nat (2 * Z.of_nat (S l) - 1)) with (S (2 * l)) by lia.
  replace (Z.to_nat (2 * Z.of_nat (S (S l)) - 1)) with (S (S (S (2 * l)))) by lia.
  cbn [dfactz]. change (match (2 * l)%nat with O => 1%Z | S n' => (Z.of_nat (S (S n')) * dfactz n')%Z end) with (dfactz (S (2 * l))).
  rewrite mult_IZR. rewrite <- INR_IZR_INZ, !S_INR, mult_INR. cbn [INR]. rewrite Rmult_comm. f_equal. lra.
Qed.

Lemma os_pair_same a b A k : 0 < a -> 0 < b -> os_pair a A b A k k = odd_prod k * (1 / (2 * (a + b))) ^ k * sqrt (PI / (a + b)).
Proof.
  intros Ha Hb. unfold os_pair. cbv zeta.
  replace ((a * A + b * A) / (a + b) - A) with 0 by (field; lra).
  rewrite (proj1 (os_centred _ _ k k)), OneElThms.gmom_even.
  replace (A - A) with 0 by ring. rewrite !Rmult_0_r, exp_0, Rmult_1_r. reflexivity.
Qed.

Lemma radial_entry l a b : 0 < a -> 0 < b ->
  ov_entry (Z.of_nat l) (Z.of_nat l) (0, 0, 0) (0, 0, 0) (Z.of_nat l, 0%Z, 0%Z) (Z.of_nat l, 0%Z, 0%Z) a b =
  odd_prod l * (norm_rad l a * norm_rad l b * GaussMoment.gmom (2 * l + 2) (a + b)).
Proof.
  intros Ha Hb. pose proof PI_RGT_0 as HP. unfold ov_entry, osv. rewrite Nat2Z.id. cbn [Z.to_nat]. rewrite !os_pair_same by assumption. rewrite !nf_norm.
  rewrite <- !norms_agree by assumption. pose proof (ang_factor_pos l) as Hang.
  replace (2 * l + 2)%nat with (2 * (l + 1))%nat by lia. rewrite GaussMoment.gmom_even by lra.
  replace (2 * (l + 1) - 1)%nat with (2 * l + 1)%nat by lia.
  pose proof (dfact_pos l) as Hd. apply IZR_lt in Hd.
  assert (E2 : ang_factor l * ang_factor l = IZR (dfactz (2 * l + 1)) / (4 * PI)).
  { unfold ang_factor. pose proof (sqrt_lt_R0 PI HP). set (D := IZR (dfactz (2 * l + 1))) in *.
    transitivity (sqrt D * sqrt D / (4 * (sqrt PI * sqrt PI))); [field; lra|]. rewrite !sqrt_sqrt by lra. reflexivity. }
  set (D := IZR (dfactz (2 * l + 1))) in *. set (p := a + b). assert (Hp : 0 < p) by (unfold p; lra).
  set (s := sqrt (PI / p)). assert (Es : s * s = PI / p) by (apply sqrt_sqrt; left; apply Rdiv_lt_0_compat; lra).
  set (NA := norm_L _ a). set (NB := norm_L _ b). set (o := odd_prod l). cbn [odd_prod pow].
  transitivity (NA * NB * o * (1 / (2 * p)) ^ l * (s * s) * s); [ring|]. rewrite Es.
  transitivity (o * (NA * NB / (ang_factor l * ang_factor l) * (D / (2 ^ (l + 1 + 1) * p ^ (l + 1)) * s))); [|field; repeat split; try lra; apply pow_nonzero; lra].
  rewrite E2. replace (1 / (2 * p)) with (/ 2 * / p) by (field; lra). rewrite Rpow_mult_distr, !pow_inv, !pow_add, !pow_1.
  assert (2 ^ l <> 0) by (apply pow_nonzero; lra). assert (p ^ l <> 0) by (apply pow_nonzero; lra).
  field. repeat split; try lra; assumption.
Qed.

(** the contracted radial function with primitives normalised by k *)
Definition radial_fun (l : nat) (k : R -> R) (prims : list (R * R)) (r : R) : R :=
  lsum (fun '(c, a) => c * (k a * (r ^ l * exp (- a * r ^ 2)))) prims.

Lemma radial_norm_int l k prims : (forall c a, In (c, a) prims -> 0 < a) ->
  half_int (fun r => (radial_fun l k prims r) ^ 2 * r ^ 2) (contracted (fun a b => k a * k b * GaussMoment.gmom (2 * l + 2) (a + b)) prims prims).
Proof.
  intros Hp.
  apply (half_ext (fun r => lsum (fun '(c, a) => lsum (fun '(d, b) => c * d * (k a * k b) * (r ^ (2 * l + 2) * exp (- (a + b) * r ^ 2))) prims) prims)).
  { intros r _. unfold radial_fun. replace (2 * l + 2)%nat with (l + l + 2)%nat by lia. set (f := fun '(c, a) => c * (k a * (r ^ l * exp (- a * r ^ 2)))).
    transitivity (r ^ 2 * (lsum f prims * lsum f prims)); [|ring]. rewrite lsum_mult, <- lsum_scal. apply lsum_ext. intros [c a] _. rewrite <- lsum_scal.
    apply lsum_ext. intros [d b] _. unfold f. replace (- (a + b) * r ^ 2) with (- a * r ^ 2 + - b * r ^ 2) by ring. rewrite exp_plus, !pow_add. ring. }
  set (F := fun (x : R * R) r => lsum (fun y : R * R => fst x * fst y * (k (snd x) * k (snd y)) * (r ^ (2 * l + 2) * exp (- (snd x + snd y) * r ^ 2))) prims).
  set (V := fun x : R * R => lsum (fun y : R * R => fst x * fst y * (k (snd x) * k (snd y)) * GaussMoment.gmom (2 * l + 2) (snd x + snd y)) prims).
  apply (half_ext (fun r => lsum (fun x => F x r) prims)).
  { intros r _. apply lsum_ext. intros [c a] _. apply lsum_ext. intros [d b] _. reflexivity. }
  apply (half_eq _ (lsum V prims)).
  - apply half_lsum. intros [c a] Hin. unfold F, V.
    apply (half_lsum (fun y r => c * fst y * (k a * k (snd y)) * (r ^ (2 * l + 2) * exp (- (a + snd y) * r ^ 2)))). intros [d b] Hin'.
    apply half_scal, gauss_moment. pose proof (Hp _ _ Hin). pose proof (Hp _ _ Hin'). cbn. lra.
  - unfold contracted. apply lsum_ext. intros [c a] _. apply lsum_ext. intros [d b] _. cbn [fst snd]. ring.
Qed.

Lemma half_positive f v r : (forall x, continuous f x) -> (forall x, 0 <= f x) -> 0 < r -> 0 < f r -> half_int f v -> 0 < v.
Proof.
  intros C P Hr Hf (X & Lv).
  assert (XF : forall a b, ex_RInt f a b) by (intros a b; apply (ex_RInt_continuous (V := R_CompleteNormedModule)); intros; apply C).
  assert (N : exists d, 0 < d < r /\ forall x, Rabs (x - r) < d -> 0 < f x).
  { destruct (C r (fun y => 0 < y)) as (e & He).
    - exists (mkposreal _ Hf). intros y Hy. cbn in Hy. unfold ball in Hy. cbn in Hy. unfold AbsRing_ball, abs, minus, plus, opp in Hy. cbn in Hy.
      unfold Rabs in Hy. destruct (Rcase_abs _) in Hy; lra.
    - exists (Rmin e (r / 2)). pose proof (cond_pos e). split; [split; [apply Rmin_glb_lt; lra|pose proof (Rmin_r e (r / 2)); lra]|].
      intros x Hx. apply He. unfold ball. cbn. unfold AbsRing_ball, abs, minus, plus, opp. cbn. pose proof (Rmin_l e (r / 2)). change (Rabs (x - r) < e). lra. }
  destruct N as (d & Hd & Hpos).
  set (c := RInt f (r - d) (r + d)). assert (Hc : 0 < c).
  { apply RInt_gt_0; [lra| |intros; apply C]. intros x Hx. apply Hpos. apply Rabs_def1; lra. }
  apply Rlt_le_trans with c; [exact Hc|].
  apply (is_lim_le_loc (fun _ => c) (fun T => RInt f 0 T) p_infty c v); [|apply is_lim_const|exact Lv].
  exists (r + d). intros T HT.
  assert (E1 : RInt f 0 T = RInt f 0 (r - d) + (c + RInt f (r + d) T)).
  { unfold c. pose proof (RInt_Chasles (V := R_CompleteNormedModule) f 0 (r - d) T (XF _ _) (XF _ _)) as Q1. pose proof (RInt_Chasles (V := R_CompleteNormedModule) f (r - d) (r + d) T (XF _ _) (XF _ _)) as Q2.
    rewrite <- Q1, <- Q2. reflexivity. }
  assert (0 <= RInt f 0 (r - d)) by (apply RInt_ge_0; [lra|apply XF|intros; apply P]).
  assert (0 <= RInt f (r + d) T) by (apply RInt_ge_0; [lra|apply XF|intros; apply P]).
  rewrite E1. lra.
Qed.

Lemma radial_fun_cont l k prims r : continuous (radial_fun l k prims) r.
Proof.
  apply (ex_derive_continuous (K := R_AbsRing) (V := R_NormedModule)). induction prims as [|[c a] t IH].
  - apply (ex_derive_ext (fun _ => 0)); [reflexivity|apply ex_derive_const].
  - apply (ex_derive_ext (fun x => c * (k a * (x ^ l * exp (- a * x ^ 2))) + radial_fun l k t x)); [reflexivity|].
    apply (ex_derive_plus (K := R_AbsRing) (V := R_NormedModule)); [|exact IH]. auto_derive. exact I.
Qed.

(** k normalises the radial primitives of angular momentum l *)
Definition normalises (l : nat) (k : R -> R) : Prop :=
  forall a, 0 < a -> 0 < k a /\ half_int (fun r => (k a * (r ^ l * exp (- a * r ^ 2))) ^ 2 * r ^ 2) 1.

Lemma normalises_rad l k a : normalises l k -> 0 < a -> k a = norm_rad l a.
Proof.
  intros N Ha. destruct (N a Ha) as (Hk & HI).
  assert (H2 : half_int (fun r => (k a * (r ^ l * exp (- a * r ^ 2))) ^ 2 * r ^ 2) (k a * k a * GaussMoment.gmom (2 * l + 2) (2 * a))).
  { apply (half_ext (fun r => k a * k a * (r ^ (2 * l + 2) * exp (- (2 * a) * r ^ 2)))); [|apply half_scal, gauss_moment; lra].
    intros r _. replace (2 * l + 2)%nat with (l + l + 2)%nat by lia. replace (- (2 * a) * r ^ 2) with (- a * r ^ 2 + - a * r ^ 2) by ring. rewrite exp_plus, !pow_add. ring. }
  pose proof (RadialTables.half_int_unique _ _ _ HI H2) as E. pose proof (GaussMoment.gmom_pos (2 * l + 2) (2 * a) ltac:(lra)) as Hg.
  unfold norm_rad. set (g := GaussMoment.gmom _ _) in *.
  assert (Hs : 0 < sqrt g) by (apply sqrt_lt_R0; exact Hg).
  assert (E2 : k a * sqrt g = 1).
  { apply Rsqr_inj; [apply Rlt_le, Rmult_lt_0_compat; assumption|lra|]. unfold Rsqr. transitivity (k a * k a * (sqrt g * sqrt g)); [ring|]. rewrite sqrt_sqrt by lra. lra. }
  apply (Rmult_eq_reg_r (sqrt g)); [rewrite E2; field; lra|lra].
Qed.

Lemma norm_factor ord h L num pc pa prims k : heap_wf h -> (0 <= L <= 9)%Z -> gaussians h num pc pa prims -> (forall c a, In (c, a) prims -> 0 < a) ->
  normalises (Z.to_nat L) k -> (exists r, 0 < r /\ radial_fun (Z.to_nat L) k prims r <> 0) ->
  exists h' v, radial_gto_norm_factor_ ord h L num pc pa = Ok (h', v) /\ heap_wf h' /\ (forall q, hblk h' q = hblk h q) /\ 0 < v /\
    half_int (fun r => (v * radial_fun (Z.to_nat L) k prims r) ^ 2 * r ^ 2) 1.
Proof.
  intros W HL HG Hp N (r & Hr & Hnz). unfold radial_gto_norm_factor_.
  destruct (evaluate_overlap ord h (0, 0, 0) L 0 0 num pc pa prims (0, 0, 0) L 0 0 num pc pa prims (aconst [1%Z] 0) 1 W) as (h' & out & E & W' & S & D & _ & G); try lia; try assumption; try reflexivity.
  rewrite E. cbn [bind]. rewrite G. cbn [bind]. rewrite double_factorial_ok by lia. cbn [bind].
  set (l := Z.to_nat L) in *. assert (EL : L = Z.of_nat l) by (unfold l; lia).
  set (I0 := contracted (fun a b => k a * k b * GaussMoment.gmom (2 * l + 2) (a + b)) prims prims).
  pose proof (radial_norm_int l k prims Hp) as HI. fold I0 in HI.
  assert (HI0 : 0 < I0).
  { apply (half_positive (fun r => radial_fun l k prims r ^ 2 * r ^ 2) _ r); [| | exact Hr | |exact HI].
    - intros x. pose proof (radial_fun_cont l k prims x) as C.
      apply (continuous_ext (fun r => radial_fun l k prims r * radial_fun l k prims r * (r * r))); [intros; match goal with |- ?a = ?b => change (@eq R a b) end; ring|].
      apply (continuous_mult (K := R_AbsRing)); [apply (continuous_mult (K := R_AbsRing)); exact C|apply (continuous_mult (K := R_AbsRing)); apply continuous_id].
    - intros x. apply Rmult_le_pos; apply pow2_ge_0.
    - apply Rmult_lt_0_compat; [|apply pow_lt; exact Hr]. rewrite <- Rsqr_pow2. apply Rsqr_pos_lt. exact Hnz. }
  assert (Es : contracted (ov_entry (L + 0 + 0) (L + 0 + 0) (0, 0, 0) (0, 0, 0) (L, 0%Z, 0%Z) (L, 0%Z, 0%Z)) prims prims = odd_prod l * I0).
  { replace (L + 0 + 0)%Z with (Z.of_nat l) by lia. rewrite EL. unfold I0, contracted. rewrite <- lsum_scal. apply lsum_ext. intros [c a] Hin. rewrite <- lsum_scal. apply lsum_ext. intros [d b] Hin'.
    pose proof (Hp _ _ Hin). pose proof (Hp _ _ Hin'). rewrite radial_entry by assumption. rewrite !(normalises_rad l k) by assumption. ring. }
  rewrite Es. replace (Z.to_nat (2 * L - 1)) with (Z.to_nat (2 * Z.of_nat l - 1)) by lia. rewrite <- odd_prod_dfact.
  assert (Ho : 0 < odd_prod l).
  { clear. induction l as [|l IH]; [cbn; lra|]. cbn [odd_prod]. pose proof (pos_INR l). apply Rmult_lt_0_compat; lra. }
  assert (Hso : 0 < sqrt (odd_prod l)) by (apply sqrt_lt_R0; exact Ho). assert (Hsi : 0 < sqrt I0) by (apply sqrt_lt_R0; exact HI0).
  exists h', (sqrt (odd_prod l) / sqrt (odd_prod l * I0)). split; [reflexivity|]. split; [exact W'|]. split; [exact S|].
  rewrite sqrt_mult by lra. replace (sqrt (odd_prod l) / (sqrt (odd_prod l) * sqrt I0)) with (/ sqrt I0) by (field; lra).
  split; [apply Rinv_0_lt_compat; exact Hsi|].
  apply (half_eq _ (/ sqrt I0 * / sqrt I0 * I0)).
  - eapply half_ext; [|apply half_scal; exact HI]. intros x _. cbv beta. ring.
  - rewrite <- (sqrt_sqrt I0) at 3 by lra. field. lra.
Qed.
