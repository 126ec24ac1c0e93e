(** * The local term with the library's own type-1 routine (C29, C30) *)

From Coq Require Import ZArith List Lia Bool Reals Lra Permutation.
From Coquelicot Require Import Coquelicot.
From Verif Require Import Base Loops Sums CartModel CartProofs HeapModel HeapProofs HeapSpec HeapGrpp OneElModel OneElProofs OneElPairs OneElSpec OneElThms
  GaussProd OneElInt SphProofs LmatModel UtilProofs OvGradModel OvDeriv OvGradProofs OvGradThms OutercoreModel OutercoreProofs OutercoreMain OutercoreThms
  MmdModel MmdSpec MmdMain MmdThms MmdUser MmdNuc MmdOuter GrppModel GrppFull GrppHeap GrppGrad GrppGrad2 GrppThms GrppGrad3 GrppTerm GrppTermGrad.
Import ListNotations.
Open Scope Z_scope.

(** ** Only the contents of a shell matter *)
Definition same_content (A A' : vshell) : Prop :=
  sv_L A = sv_L A' /\ sv_size A = sv_size A' /\ sv_num A = sv_num A' /\ sv_org A = sv_org A' /\
  (forall i, 0 <= i < sv_num A -> aget (sv_coef A) [i] = aget (sv_coef A') [i] /\ aget (sv_alpha A) [i] = aget (sv_alpha A') [i]) /\
  (forall i, 0 <= i < sv_size A -> aget (sv_cart A) [3 * i + 0] = aget (sv_cart A') [3 * i + 0] /\ aget (sv_cart A) [3 * i + 1] = aget (sv_cart A') [3 * i + 1] /\ aget (sv_cart A) [3 * i + 2] = aget (sv_cart A') [3 * i + 2]).

Lemma content_same A A' L o prims comps : vshell_is A L o prims comps -> vshell_is A' L o prims comps -> same_content A A'.
Proof.
  intros (H1 & H2 & (H3 & H3') & (H4 & H4') & _) (K1 & K2 & (K3 & K3') & (K4 & K4') & _).
  split; [congruence|]. split; [congruence|]. split; [congruence|]. split; [congruence|]. split.
  - intros i Hi. specialize (H3' (Z.to_nat i) ltac:(lia)). specialize (K3' (Z.to_nat i) ltac:(lia)). rewrite Z2Nat.id in H3', K3' by lia. destruct H3' as (-> & ->), K3' as (-> & ->). auto.
  - intros i Hi. specialize (H4' (Z.to_nat i) ltac:(lia)). specialize (K4' (Z.to_nat i) ltac:(lia)). rewrite Z2Nat.id in H4', K4' by lia.
    destruct (nth (Z.to_nat i) comps (0, 0, 0)) as [[n l] m]. destruct H4' as (-> & -> & ->), K4' as (-> & -> & ->). auto.
Qed.

Lemma bind_ext {X Y} (m : res X) (f g : X -> res Y) : (forall x, f x = g x) -> bind m f = bind m g.
Proof. intros H. destruct m; cbn [bind]; [apply H|reflexivity]. Qed.

Lemma fill_same A A' B B' value M : same_content A A' -> same_content B B' -> fill_components A B value M = fill_components A' B' value M.
Proof.
  intros (_ & SA & _ & _ & _ & CA) (_ & SB & _ & _ & _ & CB). unfold fill_components. rewrite <- SA, <- SB. apply for_range_ext. intros m s Hm. apply for_range_ext. intros n s' Hn.
  destruct (CA m Hm) as (-> & -> & ->). destruct (CB n Hn) as (-> & -> & ->). reflexivity.
Qed.

Lemma mmd_pair_same daw n A A' aA B B' aB C al M : same_content A A' -> same_content B B' -> mmd_primitive_pair daw n A aA B aB C al M = mmd_primitive_pair daw n A' aA B' aB C al M.
Proof.
  intros HA HB. pose proof HA as (LA & _ & _ & OA & _). pose proof HB as (LB & _ & _ & OB & _).
  unfold mmd_primitive_pair, mmd_n2_primitive_shell_pair, mmd_n1_primitive_shell_pair, mmd_n0_primitive_shell_pair, mmd_sum. cbv zeta. rewrite LA, LB, OA, OB.
  destruct (n =? 2); [apply bind_ext; intros E; apply fill_same; assumption|]. destruct (n =? 1); [|destruct (n =? 0); [|reflexivity]];
  (apply bind_ext; intros bs; apply bind_ext; intros E; apply bind_ext; intros Rr; apply fill_same; assumption).
Qed.

Lemma type1_mmd_same daw A A' B B' C al n M : same_content A A' -> same_content B B' -> type1_mmd daw A B C al n M = type1_mmd daw A' B' C al n M.
Proof.
  intros HA HB. pose proof HA as (_ & SA & NA & _ & PA & _). pose proof HB as (_ & SB & NB & _ & PB & _). unfold type1_mmd. cbv zeta. rewrite <- SA, <- SB, <- NA, <- NB.
  apply bind_ext. intros _. apply bind_ext. intros M1. f_equal. apply for_range_ext. intros i s Hi. destruct (PA i Hi) as (-> & ->). apply bind_ext. intros c. destruct (Rlt_dec _ _); [reflexivity|].
  apply for_range_ext. intros j [M2 buf] Hj. destruct (PB j Hj) as (-> & ->). apply bind_ext. intros c'. destruct (Rlt_dec _ _); [reflexivity|]. apply bind_ext. intros a. apply bind_ext. intros a'.
  rewrite (mmd_pair_same daw n A A' a B B' a' C al buf HA HB). reflexivity.
Qed.

Lemma type1_same daw init A A' B B' C pot M : same_content A A' -> same_content B B' -> type1_integrals daw init A B C pot M = type1_integrals daw init A' B' C pot M.
Proof.
  intros HA HB. pose proof HA as (_ & SA & _). pose proof HB as (_ & SB & _). unfold type1_integrals. cbv zeta. rewrite <- SA, <- SB.
  apply bind_ext. intros _. apply bind_ext. intros M1. destruct pot as [pot|]; [|reflexivity]. f_equal.
  generalize (Ok (M1, aconst [sv_size A * sv_size B] 0%R) : res (arr R * arr R)). induction (pv_prims pot) as [|[[n cf] al] l IH]; intros r; [reflexivity|]. cbn [fold_left]. rewrite <- IH. f_equal.
  apply bind_ext. intros [M2 buf]. rewrite (type1_mmd_same daw A A' B B' C al n buf HA HB). reflexivity.
Qed.

(** a shell with given contents *)
Definition plain_shell (v : sview) : vshell :=
  mkV (v_L v) (Z.of_nat (length (canon (v_L v)))) (aoflist (flat3 (canon (v_L v)))) (Z.of_nat (length (v_prims v))) (aoflist (map fst (v_prims v))) (aoflist (map snd (v_prims v))) (v_origin v).

Lemma nth_error_flat3 l : forall i a b c, nth_error l i = Some (a, b, c) ->
  nth_error (flat3 l) (3 * i) = Some a /\ nth_error (flat3 l) (3 * i + 1) = Some b /\ nth_error (flat3 l) (3 * i + 2) = Some c.
Proof.
  induction l as [|[[x y] z] l IH]; intros i a b c H; [destruct i; discriminate|]. destruct i as [|i].
  - injection H as -> -> ->. cbn. auto.
  - cbn [nth_error] in H. destruct (IH i a b c H) as (H1 & H2 & H3). replace (3 * S i)%nat with (S (S (S (3 * i))))%nat by lia. cbn [flat3 nth_error flat_map app Nat.add] in *. auto.
Qed.

Lemma plain_shell_of v : 0 <= v_L v -> shell_of (plain_shell v) v.
Proof.
  intros HL. split; [reflexivity|]. split; [reflexivity|]. split; [|split].
  - split; [reflexivity|]. intros i Hi. cbn [plain_shell sv_coef sv_alpha].
    assert (Hn := nth_error_nth' (v_prims v) (0, 0)%R Hi). split; apply aget_oflist_error; rewrite nth_error_map, Hn; reflexivity.
  - split; [reflexivity|]. intros i Hi. assert (Hn := nth_error_nth' (canon (v_L v)) (0, 0, 0) Hi). destruct (nth i (canon (v_L v)) (0, 0, 0)) as [[a b] c].
    destruct (nth_error_flat3 _ _ _ _ _ Hn) as (H1 & H2 & H3). cbn [plain_shell sv_cart].
    replace (3 * Z.of_nat i + 0) with (Z.of_nat (3 * i)) by lia. replace (3 * Z.of_nat i + 1) with (Z.of_nat (3 * i + 1)) by lia. replace (3 * Z.of_nat i + 2) with (Z.of_nat (3 * i + 2)) by lia.
    split; [|split]; apply aget_oflist_error; assumption.
  - intros n l m Hin. apply in_canon in Hin. lia.
Qed.

(** ** The matrix elements of the local potential *)
Definition local_V (C : R * R * R) (terms : list (Z * R * R)) (f g : fn3) (v : R) : Prop := pot_int C terms (fun x y z => f x y z * g x y z)%R v.

Lemma pot_int_ext C terms F G v : (forall x y z, F x y z = G x y z) -> pot_int C terms F v -> pot_int C terms G v.
Proof.
  intros H. revert v. induction terms as [|[[n cf] al] terms IH]; intros v; [exact (fun x => x)|]. cbn [pot_int]. intros (v1 & v2 & H1 & H2 & ->). exists v1, v2.
  split; [eapply local_ext; [|exact H1]; intros; cbv beta; rewrite H; reflexivity|]. split; [apply IH; exact H2|reflexivity].
Qed.

Lemma pot_int_add C terms F G s : forall v w, pot_int C terms F v -> pot_int C terms G w -> pot_int C terms (fun x y z => F x y z + s * G x y z)%R (v + s * w)%R.
Proof.
  induction terms as [|[[n cf] al] terms IH]; intros v w; cbn [pot_int]; [intros -> ->; ring|]. intros (v1 & v2 & H1 & H2 & ->) (w1 & w2 & K1 & K2 & ->).
  exists (v1 + s * w1)%R, (v2 + s * w2)%R. split; [|split; [apply IH; assumption|ring]].
  eapply (local_ext n C (fun x y z => F x y z * exp (- (al * rho2 C x y z)) + s * (G x y z * exp (- (al * rho2 C x y z))))%R); [intros; ring|].
  apply local_plus; [exact H1|apply local_scal; exact K1].
Qed.

Lemma bilinear_local C terms : bilinear1 (local_V C terms).
Proof.
  unfold local_V. split; [|split].
  - intros f f' g g' v Hf Hg. apply pot_int_ext. intros. rewrite Hf, Hg. reflexivity.
  - intros f f' g v v' s H H'. eapply pot_int_ext; [|exact (pot_int_add C terms _ _ s v v' H H')]. intros. cbv beta. ring.
  - intros f g g' v v' s H H'. eapply pot_int_ext; [|exact (pot_int_add C terms _ _ s v v' H H')]. intros. cbv beta. ring.
Qed.

(** ** The routine computes them, with a value that does not depend on the output buffer *)
Lemma type1_value daw A B vA vB C U delta : shell_of A vA -> shell_of B vB -> 0 <= v_L vA <= 9 -> 0 <= v_L vB <= 9 -> (0 <= delta)%R -> within daw vA vB C (pv_prims U) delta ->
  exists f, gives1 (type1_integrals daw true A B C (Some U)) (sv_size A) (sv_size B) f.
Proof.
  intros HA HB LA LB Hd Hw. set (n := sv_size A * sv_size B). pose proof (shell_size _ _ HA) as NA. pose proof (shell_size _ _ HB) as NB. assert (Hn : 0 <= n) by (unfold n; nia).
  set (step := fun (r : res (arr R * arr R)) '(pow_k, coef_k, alpha_k) =>
        let* (M, buf) := r in
        let* buf := type1_mmd daw A B C alpha_k pow_k buf in
        let* M := daxpy n coef_k buf M in
        Ok (M, buf)).
  assert (G : forall terms buf, within daw vA vB C terms delta -> adims buf = [n] -> exists F : (Z -> R) -> Z -> R, forall M sz g, adims M = [sz] -> n <= sz -> (forall k, 0 <= k < n -> aget M [k] = Ok (g k)) ->
    exists M' buf', fold_left step terms (Ok (M, buf)) = Ok (M', buf') /\ adims M' = [sz] /\ forall k, 0 <= k < n -> aget M' [k] = Ok (F g k)).
  { induction terms as [|[[p cf] al] terms IH]; intros buf HT Db.
    - exists (fun g => g). intros M sz g D Hsz Hg. exists M, buf. split; [reflexivity|]. split; [exact D|exact Hg].
    - destruct (HT p cf al (or_introl eq_refl)) as (Hp & Hsp).
      destruct (type1_mmd_ok A B _ _ _ _ _ _ _ _ HA HB LA LB daw p C al buf n delta Hp Db ltac:(unfold n; lia) Hsp) as (buf1 & E1 & D1 & V1 & _).
      destruct (IH buf1) as (F & HF); [intros p' cf' al' Hin; apply (HT p' cf' al'); right; exact Hin|exact D1|].
      exists (fun g => F (fun k => g k + cf * cellv buf1 [k])%R). intros M sz g D Hsz Hg.
      destruct (daxpy_get n n sz cf buf1 M D1 D ltac:(lia) Hsz) as (M2 & E2 & D2 & V2 & _).
      { intros k Hk. destruct (V1 k Hk) as (v & Ev & _). exists v. exact Ev. }
      { intros k Hk. exists (g k). apply Hg. exact Hk. }
      destruct (HF M2 sz (fun k => g k + cf * cellv buf1 [k])%R D2 Hsz) as (M' & buf' & E' & D' & V').
      { intros k Hk. rewrite (V2 k Hk), (cellv_ok _ _ _ (Hg k Hk)). reflexivity. }
      exists M', buf'. split; [|split; [exact D'|exact V']]. cbn [fold_left]. rewrite <- E'. f_equal. unfold step. rewrite bind_ok, E1, bind_ok, E2. reflexivity. }
  destruct (G (pv_prims U) (aconst [n] 0%R) Hw eq_refl) as (F & HF). exists (fun i j => F (fun _ => 0%R) (i * sv_size B + j)).
  intros M sz D Hsz. unfold type1_integrals. cbn [massert]. rewrite bind_ok. cbv zeta. fold n. destruct (memset0_get n sz M D ltac:(unfold n in *; lia)) as (M1 & -> & D1 & C1 & _). rewrite bind_ok.
  destruct (HF M1 sz (fun _ => 0%R) D1 Hsz C1) as (M' & buf' & E' & D' & V'). exists M'. split; [refine (eq_trans (f_equal (fun x => bind x _) E') _); reflexivity|].
  split; [exact D'|]. split; [exact Hsz|]. intros i j Hi Hj. apply V'. unfold n. nia.
Qed.

Lemma own_local_accurate daw C U vA vB delta e : 0 <= v_L vA <= 9 -> 0 <= v_L vB <= 9 -> none_negligible (v_prims vA) -> none_negligible (v_prims vB) ->
  (0 <= delta)%R -> within daw vA vB C (pv_prims U) delta ->
  (forall cA cB, In cA (canon (v_L vA)) -> In cB (canon (v_L vB)) -> delta * amplification vA vB C (pv_prims U) cA cB <= e)%R ->
  accurate1 (local_V C (pv_prims U)) (fun A B => type1_integrals daw true A B C (Some U)) e vA vB.
Proof.
  intros LA LB NA NB Hd Hw He. pose proof (plain_shell_of vA ltac:(lia)) as PA. pose proof (plain_shell_of vB ltac:(lia)) as PB.
  destruct (type1_value daw _ _ vA vB C U delta PA PB LA LB Hd Hw) as (f & Hf). exists f. split.
  - intros A B HA HB M sz D Hsz. pose proof (content_same _ _ _ _ _ _ HA PA) as CA. pose proof (content_same _ _ _ _ _ _ HB PB) as CB.
    pose proof CA as (_ & SA & _). pose proof CB as (_ & SB & _). rewrite (type1_same daw true _ _ _ _ C (Some U) M CA CB). rewrite SA, SB in *. apply Hf; assumption.
  - intros i j cA cB Hi Hj. set (A := plain_shell vA) in *. set (B := plain_shell vB) in *. set (n := sv_size A * sv_size B).
    destruct (type1_integrals_ok A B _ _ _ _ _ _ _ _ PA PB LA LB daw C U (aconst [n] 0%R) n delta Hd eq_refl ltac:(unfold n; lia) Hw) as (M' & E & _ & V & _).
    destruct (Hf (aconst [n] 0%R) n eq_refl ltac:(unfold n; lia)) as (M2 & E2 & (_ & _ & F2)). rewrite E in E2. injection E2 as <-.
    assert (Bi : (i < length (canon (v_L vA)))%nat) by (apply nth_error_Some; congruence). assert (Bj : (j < length (canon (v_L vB)))%nat) by (apply nth_error_Some; congruence).
    assert (Hi' : 0 <= Z.of_nat i < sv_size A) by (unfold A, plain_shell; cbn [sv_size]; lia). assert (Hj' : 0 <= Z.of_nat j < sv_size B) by (unfold B, plain_shell; cbn [sv_size]; lia).
    specialize (F2 _ _ Hi' Hj'). destruct (V (Z.of_nat i * sv_size B + Z.of_nat j) ltac:(unfold n; nia)) as (v & Ev & Bv). rewrite F2 in Ev. injection Ev as <-.
    eexists. split; [|eapply Rle_trans; [exact Bv|]].
    + unfold local_V. pose proof (pot_value_int daw vA vB C (pv_prims U) delta cA cB Hw) as Q. unfold phi_kept in Q. rewrite (kept_all _ NA), (kept_all _ NB) in Q.
      unfold pot_value, value_k. unfold compA, compB. rewrite Z.div_add_l, Z.div_small, Z.add_0_r by lia. rewrite (Z.add_comm _ (Z.of_nat j)), Z.mod_add, Z.mod_small by lia. rewrite !Nat2Z.id.
      rewrite (nth_error_nth _ _ _ Hi), (nth_error_nth _ _ _ Hj). exact Q.
    + unfold pot_weight, weight_k. unfold compA, compB. rewrite Z.div_add_l, Z.div_small, Z.add_0_r by lia. rewrite (Z.add_comm _ (Z.of_nat j)), Z.mod_add, Z.mod_small by lia. rewrite !Nat2Z.id.
      rewrite (nth_error_nth _ _ _ Hi), (nth_error_nth _ _ _ Hj). apply He; eapply nth_error_In; eassumption.
Qed.

(** ** The gradient of the local term *)

(** no primitive of the shells that occur falls below the threshold 1e-14 *)
Definition keeps_all (vA vB : sview) : Prop := around (fun x y => none_negligible (v_prims x) /\ none_negligible (v_prims y)) vA vB.

(** the coefficients, also of the differentiated primitives, are not below the threshold *)
Definition significant (v : sview) : Prop := forall c a, In (c, a) (v_prims v) -> (1 / 10 ^ 14 <= Rabs c /\ 1 / 10 ^ 14 <= Rabs c * sqrt a)%R.

Lemma norm_ratio L a : (0 < a)%R -> (norm_L (L + 1) a = norm_L L a * (2 * sqrt a))%R.
Proof.
  intros Ha. unfold norm_L. rewrite plus_IZR. replace ((IZR L + 1) / 2)%R with (IZR L / 2 + / 2)%R by field. rewrite Rpower_plus, (Rpower_sqrt (4 * a)) by lra.
  rewrite sqrt_mult by lra. replace (sqrt 4) with 2%R; [ring|]. replace 4%R with (2 * 2)%R by ring. symmetry. apply sqrt_square. lra.
Qed.

Lemma significant_up v : exps_pos v -> significant v -> none_negligible (v_prims (up_view v)).
Proof.
  intros P H c a Hin. cbn [v_prims up_view] in Hin. unfold up_prims in Hin. apply in_map_iff in Hin. destruct Hin as ([c' a'] & E & Hin). injection E as <- <-.
  pose proof (P _ _ Hin) as Ha. destruct (H _ _ Hin) as (_ & H2). pose proof (MmdMain.norm_L_pos (v_L v) a') as Np. pose proof (sqrt_lt_R0 _ Ha) as Sp.
  rewrite (norm_ratio _ _ Ha), Rabs_mult. replace (2 * a' * norm_L (v_L v) a' / (norm_L (v_L v) a' * (2 * sqrt a')))%R with (sqrt a'); [rewrite (Rabs_pos_eq (sqrt a')) by lra; exact H2|].
  rewrite <- (sqrt_sqrt a') at 2 by lra. field. lra.
Qed.

Lemma significant_down v : exps_pos v -> significant v -> none_negligible (v_prims (down_view v)).
Proof.
  intros P H c a Hin. cbn [v_prims down_view] in Hin. unfold down_prims in Hin. apply in_map_iff in Hin. destruct Hin as ([c' a'] & E & Hin). injection E as <- <-.
  pose proof (P _ _ Hin) as Ha. destruct (H _ _ Hin) as (_ & H2). pose proof (MmdMain.norm_L_pos (v_L v - 1) a') as Np. pose proof (sqrt_lt_R0 _ Ha) as Sp.
  rewrite Rabs_mult. replace (v_L v) with (v_L v - 1 + 1) at 1 by lia. rewrite (norm_ratio _ _ Ha). replace (norm_L (v_L v - 1) a' * (2 * sqrt a') / norm_L (v_L v - 1) a')%R with (2 * sqrt a')%R by (field; lra).
  rewrite (Rabs_pos_eq (2 * sqrt a')) by lra. pose proof (Rmult_le_pos _ _ (Rabs_pos c') (Rlt_le _ _ Sp)). lra.
Qed.

Lemma significant_keeps vA vB : exps_pos vA -> exps_pos vB -> significant vA -> significant vB -> keeps_all vA vB.
Proof.
  intros PA PB HA HB. assert (NA : none_negligible (v_prims vA)) by (intros c a Hin; apply (HA _ _ Hin)). assert (NB : none_negligible (v_prims vB)) by (intros c a Hin; apply (HB _ _ Hin)).
  split; [split; [apply significant_up; assumption|exact NB]|]. split; [intros _; split; [apply significant_down; assumption|exact NB]|].
  split; [split; [exact NA|apply significant_up; assumption]|]. intros _; split; [exact NA|apply significant_down; assumption].
Qed.

(** what an error delta of the special functions amounts to in the elements *)
Definition error_bound (vA vB : sview) (C : R * R * R) (terms : list (Z * R * R)) (delta e : R) : Prop :=
  around (fun x y => forall cA cB, In cA (canon (v_L x)) -> In cB (canon (v_L y)) -> delta * amplification x y C terms cA cB <= e)%R vA vB.

Lemma around_and (P Q : sview -> sview -> Prop) vA vB : around P vA vB -> around Q vA vB -> around (fun x y => P x y /\ Q x y) vA vB.
Proof. intros (H1 & H2 & H3 & H4) (K1 & K2 & K3 & K4). repeat split; auto. Qed.

Lemma around_levels vA vB n : 0 <= v_L vA -> 0 <= v_L vB -> v_L vA + 1 <= n -> v_L vB + 1 <= n ->
  around (fun x y => 0 <= v_L x <= n /\ 0 <= v_L y <= n /\ v_L x + v_L y <= v_L vA + v_L vB + 1) vA vB.
Proof. intros. repeat split; cbn [v_L up_view down_view]; lia. Qed.

Lemma exps_up v : exps_pos v -> exps_pos (up_view v).
Proof. intros H c a. cbn [v_prims up_view]. unfold up_prims. intros Hin. apply in_map_iff in Hin. destruct Hin as ([c' a'] & E & Hin). injection E as <- <-. exact (H _ _ Hin). Qed.

Lemma exps_down v : exps_pos v -> exps_pos (down_view v).
Proof. intros H c a. cbn [v_prims down_view]. unfold down_prims. intros Hin. apply in_map_iff in Hin. destruct Hin as ([c' a'] & E & Hin). injection E as <- <-. exact (H _ _ Hin). Qed.

Lemma around_exps vA vB : exps_pos vA -> exps_pos vB -> around (fun x y => exps_pos x /\ exps_pos y) vA vB.
Proof. intros. split; [|split; [|split]]; try intros; (split; [|assumption]) || (split; [assumption|]); (apply exps_up || apply exps_down); assumption. Qed.

Lemma own_around daw C U vA vB delta e : 0 <= v_L vA <= 8 -> 0 <= v_L vB <= 8 -> keeps_all vA vB -> (0 <= delta)%R -> around (fun x y => within daw x y C (pv_prims U) delta) vA vB ->
  error_bound vA vB C (pv_prims U) delta e -> around (accurate1 (local_V C (pv_prims U)) (fun A B => type1_integrals daw true A B C (Some U)) e) vA vB.
Proof.
  intros LA LB K Hd Hw He. pose proof (around_levels vA vB 9 ltac:(lia) ltac:(lia) ltac:(lia) ltac:(lia)) as Lv.
  eapply around_impl; [|exact (around_and _ _ _ _ (around_and _ _ _ _ Lv K) (around_and _ _ _ _ Hw He))].
  intros x y (((Lx & Ly & _) & Nx & Ny) & Wx & Ex). apply own_local_accurate with delta; assumption.
Qed.

(** the gradient of the local term computed with the library's own routine, for the powers 0, 1 and 2 *)
Lemma local_own_gradient daw rt h pA pB C pot U vA vB ca cb e :
  heap_wf h -> rt_init rt = true -> rt_type1 rt = type1_integrals daw true -> std_shell h pA vA ca -> std_shell h pB vB cb -> view_pot h pot = Ok U -> (0 <= e)%R ->
  v_L vA <= 8 -> v_L vB <= 8 -> v_L vA + v_L vB <= 14 -> exps_pos vA -> exps_pos vB -> significant vA -> significant vB ->
  dawson_accurate daw (15 / 10 ^ 10) -> (forall n cf al, In (n, cf, al) (pv_prims U) -> 0 <= n <= 2 /\ (0 <= al)%R) ->
  error_bound vA vB C (pv_prims U) (15 / 10 ^ 10) e ->
  exists bra ket, deriv_close (local_V C (pv_prims U)) vA vB ca cb e bra ket /\
    forall ord oob D grad, may_overread oob vA vB -> told_apart [v_origin vA; v_origin vB; C; D] -> grad_fits grad vA vB ->
      exists h' grad', type1_integrals_gradient ord oob rt h pA pB C pot D grad = Ok (h', grad') /\ heap_wf h' /\ (forall q, hblk h' q = hblk h q) /\
        only_grad grad grad' vA vB /\ holds_gradient grad' vA vB ca cb C D bra ket.
Proof.
  intros W I R1 SA SB EU He LA LB LAB PA PB ZA ZB HD HP HE. pose proof (significant_keeps _ _ PA PB ZA ZB) as K.
  pose proof (proj1 (proj2 SA)) as LA0. pose proof (proj1 (proj2 SB)) as LB0.
  apply (type1_gradient_thm (local_V C (pv_prims U)) rt h pA pB C pot U vA vB ca cb e); try assumption; [apply bilinear_local|]. rewrite R1. apply own_around with (15 / 10 ^ 10)%R; try assumption; try lia; [lra|].
  pose proof (around_levels vA vB 9 ltac:(lia) ltac:(lia) ltac:(lia) ltac:(lia)) as Lv.
  eapply around_impl; [|exact (around_and _ _ _ _ Lv (around_exps _ _ PA PB))]. intros x y ((_ & _ & Lxy) & Px & Py). apply within_simple; try assumption. lia.
Qed.

(** terms of power 2: the exact integrals over space *)
Definition int_V (C : R * R * R) (terms : list (Z * R * R)) (f g : fn3) (v : R) : Prop := is_int3 (fun x y z => f x y z * g x y z * pot_fun C terms x y z)%R v.

Lemma gaussian_own_gradient daw rt h pA pB C pot U vA vB ca cb :
  heap_wf h -> rt_init rt = true -> rt_type1 rt = type1_integrals daw true -> std_shell h pA vA ca -> std_shell h pB vB cb -> view_pot h pot = Ok U ->
  v_L vA <= 8 -> v_L vB <= 8 -> exps_pos vA -> exps_pos vB -> significant vA -> significant vB -> gaussian_terms (pv_prims U) ->
  exists bra ket, deriv_close (int_V C (pv_prims U)) vA vB ca cb 0 bra ket /\
    forall ord oob D grad, may_overread oob vA vB -> told_apart [v_origin vA; v_origin vB; C; D] -> grad_fits grad vA vB ->
      exists h' grad', type1_integrals_gradient ord oob rt h pA pB C pot D grad = Ok (h', grad') /\ heap_wf h' /\ (forall q, hblk h' q = hblk h q) /\
        only_grad grad grad' vA vB /\ holds_gradient grad' vA vB ca cb C D bra ket.
Proof.
  intros W I R1 SA SB EU LA LB PA PB ZA ZB HG. pose proof (significant_keeps _ _ PA PB ZA ZB) as K.
  pose proof (proj1 (proj2 SA)) as LA0. pose proof (proj1 (proj2 SB)) as LB0.
  destruct (type1_gradient_thm (local_V C (pv_prims U)) rt h pA pB C pot U vA vB ca cb 0) as (bra & ket & Hd & Hr); try assumption; [apply bilinear_local|apply Rle_refl| |].
  - rewrite R1. apply own_around with 0%R; try assumption; try lia; [apply Rle_refl| |].
    + eapply around_impl; [|exact (around_exps _ _ PA PB)]. intros x y (Px & Py) n cf al Hin. destruct (HG _ _ _ Hin) as (-> & Hal). split; [lia|].
      intros cA aA cB aB I1 I2. apply kept_in in I1, I2. pose proof (Px _ _ I1). pose proof (Py _ _ I2). split; [lra|]. split; [apply Rle_refl|]. left. reflexivity.
    + eapply around_impl; [|exact K]. intros x y _ cA cB _ _. rewrite Rmult_0_l. apply Rle_refl.
  - exists bra, ket. split; [|exact Hr]. assert (P2 : forall n cf al, In (n, cf, al) (pv_prims U) -> n = 2) by (intros n cf al Hin; apply (HG _ _ _ Hin)).
    intros c i j cA cB Hc Hi Hj. destruct (Hd c i j cA cB Hc Hi Hj) as ((v & V1 & B1) & (w & V2 & B2)). split; [exists v|exists w]; (split; [apply pot_int_2; [exact P2|assumption]|assumption]).
Qed.
