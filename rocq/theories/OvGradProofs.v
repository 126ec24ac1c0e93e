(** * The differentiated shells and the overlap gradient: heap part *)

From Coq Require Import ZArith List Lia Bool Reals Lra Permutation.
From Coquelicot Require Import Coquelicot.
From Verif Require Import Base CartModel CartProofs HeapModel HeapProofs HeapSpec GaussProd
  OneElModel OneElProofs OneElPairs OneElSpec OneElInt OneElThms Loops LmatModel OvGradModel OvDeriv.
Import ListNotations.
Open Scope Z_scope.

Definition with_coeffs (x : shell_rep) (l : list R) : shell_rep :=
  mkShellRep (sr_ptr x) (sr_cart x) (sr_pc x) (sr_pa x) (sr_L x) (sr_size x) (sr_n x) (sr_origin x) (sr_list x) l (sr_alpha x).

Lemma firstn_skipn_nth {A} (l : list A) k v : nth_error l k = Some v -> l = firstn k l ++ v :: skipn (S k) l.
Proof.
  revert l; induction k as [|k IH]; intros [|a l] H; try discriminate; cbn in *.
  - injection H as ->. reflexivity.
  - f_equal. apply IH. exact H.
Qed.

Lemma skipn_nth_cons {A} (l : list A) k v : nth_error l k = Some v -> skipn k l = v :: skipn (S k) l.
Proof.
  revert l; induction k as [|k IH]; intros [|a l] H; try discriminate; cbn in *.
  - injection H as ->. reflexivity.
  - apply IH. exact H.
Qed.

Lemma rescale_rep h0 h x cs p s la fac : heap_wf h0 -> rep h0 h (shell_cells x ++ cs) ->
  hblk h0 p = Some (OShell s) -> hblk h0 (sh_alpha s) = Some (ODbls la) ->
  0 <= sh_num s <= Z.of_nat (length la) -> length (sr_coeffs x) = Z.to_nat (sh_num s) ->
  exists h', rescale_coeffs h p (sr_ptr x) fac = Ok h' /\
    rep h0 h' (shell_cells (with_coeffs x (map (fun '(c, a) => (c * fac a)%R) (combine (sr_coeffs x) (firstn (Z.to_nat (sh_num s)) la)))) ++ cs).
Proof.
  intros W0 R0 Hp Ha Hn Hl. unfold rescale_coeffs, load_shell at 1.
  rewrite (rep_load_old _ _ _ _ _ W0 R0 Hp), !bind_ok.
  set (n := sh_num s) in *. set (g := fun '(c, a) => (c * fac a)%R).
  set (prs := combine (sr_coeffs x) (firstn (Z.to_nat n) la)).
  assert (Lp : length prs = Z.to_nat n) by (unfold prs; rewrite combine_length, firstn_length; lia).
  destruct (for_range_ok (fun k h => rep h0 h (shell_cells (with_coeffs x (map g (firstn (Z.to_nat k) prs) ++ skipn (Z.to_nat k) (sr_coeffs x))) ++ cs))
     0 n (fun i h => let* alpha := get_dbl h (sh_alpha s) i in let* sq := load_shell h (sr_ptr x) in
        let* c := get_dbl h (sh_coeffs sq) i in set_dbl h (sh_coeffs sq) i (c * fac alpha)%R) h) as (h' & E & R').
  - lia.
  - change (Z.to_nat 0) with 0%nat. cbn [firstn skipn map app]. destruct x; exact R0.
  - intros k h1 Hk R1.
    set (l1 := map g (firstn (Z.to_nat k) prs)) in *.
    assert (Ll : length l1 = Z.to_nat k) by (unfold l1; rewrite map_length, firstn_length; lia).
    assert (W1 : heap_wf h1) by (destruct R1; assumption).
    destruct (nth_error la (Z.to_nat k)) as [a|] eqn:Ea; [|apply nth_error_None in Ea; lia].
    destruct (nth_error (sr_coeffs x) (Z.to_nat k)) as [c|] eqn:Ec; [|apply nth_error_None in Ec; lia].
    rewrite (get_dbl_ok h1 _ la k a W1 (rep_old _ _ _ _ _ R1 Ha) Ea) by lia. rewrite bind_ok.
    unfold load_shell at 1. erewrite (rep_load _ _ _ _ _ R1) by (left; reflexivity). cbn [bind sh_coeffs with_coeffs sr_pc].
    rewrite (skipn_nth_cons _ _ _ Ec) in R1.
    assert (R2 : rep h0 h1 ((sr_pc x, ODbls (l1 ++ c :: skipn (S (Z.to_nat k)) (sr_coeffs x))) ::
        [(sr_ptr x, OShell (mkShell (sr_L x) (sr_size x) (sr_cart x) (sr_n x) (sr_pc x) (sr_pa x) (sr_origin x)));
         (sr_cart x, OInts (sr_list x)); (sr_pa x, ODbls (sr_alpha x))] ++ cs)).
    { eapply rep_perm; [|exact R1]. unfold shell_cells, with_coeffs. cbn [sr_ptr sr_cart sr_pc sr_pa sr_L sr_size sr_n sr_origin sr_list sr_coeffs sr_alpha].
      perm. }
    assert (Hb : hblk h1 (sr_pc x) = Some (ODbls (l1 ++ c :: skipn (S (Z.to_nat k)) (sr_coeffs x)))).
    { destruct R2 as (_ & _ & _ & D & _). apply (D _ _ (or_introl eq_refl)). }
    rewrite (get_dbl_ok h1 _ _ k c W1 Hb) by (try lia; rewrite nth_error_app2, Ll, Nat.sub_diag by lia; reflexivity).
    rewrite bind_ok.
    destruct (rep_set_dbl _ _ _ _ _ _ _ (c * fac a)%R k R2) as (h2 & E2 & R3); [lia|].
    exists h2. split; [exact E2|].
    replace (Z.to_nat (k + 1)) with (S (Z.to_nat k)) by lia.
    assert (En : nth_error prs (Z.to_nat k) = Some (c, a)).
    { unfold prs. apply nth_error_combine; [exact Ec|]. rewrite nth_error_firstn_lt by lia. exact Ea. }
    rewrite (firstn_snoc _ _ _ En), map_app. cbn [map].
    replace ((map g (firstn (Z.to_nat k) prs) ++ [g (c, a)]) ++ skipn (S (Z.to_nat k)) (sr_coeffs x))
      with (l1 ++ (c * fac a)%R :: skipn (S (Z.to_nat k)) (sr_coeffs x)) by (rewrite <- app_assoc; reflexivity).
    eapply rep_perm; [|exact R3]. unfold shell_cells, with_coeffs. cbn [sr_ptr sr_cart sr_pc sr_pa sr_L sr_size sr_n sr_origin sr_list sr_coeffs sr_alpha].
    perm.
  - exists h'. split; [exact E|].
    replace (firstn (Z.to_nat n) prs) with prs in R' by (symmetry; apply firstn_all2; lia).
    rewrite skipn_all2, app_nil_r in R' by lia. exact R'.
Qed.

(** a freshly built shell seen through its cells *)
Definition is_std (x : shell_rep) (L : Z) (o : R * R * R) (prims : list (R * R)) : Prop :=
  sview_of x = mkSview L (n_cart L) o (flat3 (canon L)) prims /\ shell_sized x.

Lemma std_of_cells h0 h x cs L o prims : 0 <= L -> rep h0 h (shell_cells x ++ cs) -> is_std x L o prims ->
  std_shell h (sr_ptr x) (mkSview L (n_cart L) o (flat3 (canon L)) prims) (canon L).
Proof.
  intros HL R0 (E & Sz). split; [|split; [exact HL|split; [reflexivity|split; [|reflexivity]]]].
  - rewrite <- E. apply shell_cells_at; [eapply rep_nodup_l; exact R0|exact Sz|].
    intros p o' Hin. eapply rep_in_l; [exact R0|exact Hin].
  - exists OrderDirac. apply shell_components_canon. exact HL.
Qed.

Lemma combine_map_l {A B C} (f : A * B -> C) (la : list A) (lb : list B) : length la = length lb ->
  combine (map f (combine la lb)) lb = map (fun p => (f p, snd p)) (combine la lb).
Proof.
  revert lb; induction la as [|a la IH]; intros [|b lb] H; try discriminate; [reflexivity|].
  cbn. f_equal. apply IH. cbn in H. lia.
Qed.

Lemma nf_factor a L : norm_factor a L = norm_L L a.
Proof.
  unfold norm_factor, norm_L. replace 0.75%R with (3 / 4)%R by lra. replace (0.5 * IZR L)%R with (IZR L / 2)%R by lra. reflexivity.
Qed.

(** one new shell with rescaled coefficients *)
Lemma new_scaled_rep ord h0 h cs p s lc la L fac : heap_wf h0 -> rep h0 h cs -> 0 <= L ->
  hblk h0 p = Some (OShell s) -> hblk h0 (sh_coeffs s) = Some (ODbls lc) -> hblk h0 (sh_alpha s) = Some (ODbls la) ->
  0 <= sh_num s <= Z.of_nat (length lc) -> sh_num s <= Z.of_nat (length la) ->
  exists x h1 h', new_shell ord h (sh_origin s) L (sh_num s) (sh_coeffs s) (sh_alpha s) = Ok (sr_ptr x, h1) /\
    rescale_coeffs h1 p (sr_ptr x) fac = Ok h' /\ rep h0 h' (shell_cells x ++ cs) /\ 0 < sr_ptr x /\
    is_std x L (sh_origin s) (map (fun '(c, a) => (c * fac a, a)%R)
       (combine (firstn (Z.to_nat (sh_num s)) lc) (firstn (Z.to_nat (sh_num s)) la))).
Proof.
  intros W0 R0 HL Hp Hc Ha Hn Hn2.
  destruct (new_shell_rep ord h0 h cs (sh_origin s) L (sh_num s) (sh_coeffs s) (sh_alpha s) lc la W0 R0 HL
     (rep_old _ _ _ _ _ R0 Hc) (rep_old _ _ _ _ _ R0 Ha)) as (h1 & x & E & R1 & XL & Xs & Xn & Xo & Xl & Xc & Xa & Xp & _);
    [unfold nprim_ok; lia..|].
  destruct (rescale_rep h0 h1 x cs p s la fac W0 R1 Hp Ha) as (h' & E' & R2); [lia|rewrite Xc, firstn_length; lia|].
  set (x' := with_coeffs _ _) in R2.
  exists x', h1, h'. split; [exact E|]. split; [exact E'|]. split; [exact R2|].
  split. { apply (rep_pos _ _ _ (sr_ptr x') _ R2 (or_introl eq_refl)). }
  split.
  - unfold sview_of, x', with_coeffs. cbn [sr_L sr_size sr_origin sr_list sr_n sr_coeffs sr_alpha].
    rewrite XL, Xs, Xo, Xl, Xn, Xc, Xa. f_equal.
    assert (Lc : length (firstn (Z.to_nat (sh_num s)) lc) = Z.to_nat (sh_num s)) by (rewrite firstn_length; lia).
    assert (La : length (firstn (Z.to_nat (sh_num s)) la) = Z.to_nat (sh_num s)) by (rewrite firstn_length; lia).
    rewrite (firstn_all2 (n := Z.to_nat (sh_num s)) (map _ _)) by (rewrite map_length, combine_length; lia).
    rewrite (firstn_all2 (n := Z.to_nat (sh_num s)) (firstn _ la)) by lia.
    rewrite combine_map_l by lia. apply map_ext. intros [c a]. reflexivity.
  - unfold shell_sized, nprim_ok, x', with_coeffs. cbn [sr_n sr_coeffs sr_alpha]. rewrite Xn, Xa, Xc, map_length, combine_length, !firstn_length. lia.
Qed.

(** the shells made by differentiate_shell *)
Definition down_view (v : sview) : sview :=
  mkSview (v_L v - 1) (n_cart (v_L v - 1)) (v_origin v) (flat3 (canon (v_L v - 1))) (down_prims (v_L v) (v_prims v)).
Definition up_view (v : sview) : sview :=
  mkSview (v_L v + 1) (n_cart (v_L v + 1)) (v_origin v) (flat3 (canon (v_L v + 1))) (up_prims (v_L v) (v_prims v)).

Lemma prims_map_ext (f g : R -> R) l : (forall a, f a = g a) ->
  map (fun '(c, a) => (c * f a, a)%R) l = map (fun '(c, a) => (c * g a, a)%R) l.
Proof. intros H. apply map_ext. intros [c a]. rewrite H. reflexivity. Qed.

Lemma differentiate_rep ord h p v : heap_wf h -> shell_at h p v -> 0 <= v_L v ->
  exists pm pp h' xp, differentiate_shell ord h p = Ok (pm, pp, h') /\ sr_ptr xp = pp /\
    is_std xp (v_L v + 1) (v_origin v) (up_prims (v_L v) (v_prims v)) /\
    ((v_L v = 0 /\ pm = 0 /\ rep h h' (shell_cells xp)) \/
     (0 < v_L v /\ exists xm, sr_ptr xm = pm /\ 0 < pm /\ rep h h' (shell_cells xp ++ shell_cells xm) /\
        is_std xm (v_L v - 1) (v_origin v) (down_prims (v_L v) (v_prims v)))).
Proof.
  intros W (s & lc & la & H1 & H2 & H3 & H4 & Hnd & Hn1 & Hn2 & EL & ES & EO & EP) HL.
  unfold differentiate_shell, load_shell at 1.
  rewrite (rep_load_old h h [] p _ W (rep_start h W) H1), !bind_ok.
  rewrite <- EL. destruct (Z.ltb_spec 0 (v_L v)).
  - destruct (new_scaled_rep ord h h [] p s lc la (v_L v - 1) (fun alpha => (norm_factor alpha (v_L v) / norm_factor alpha (v_L v - 1))%R)
       W (rep_start h W) ltac:(lia) H1 H3 H4 Hn1 Hn2) as (xm & h1 & h2 & E1 & E2 & R2 & Pm & Sm).
    rewrite E1, bind_ok, E2, !bind_ok.
    destruct (new_scaled_rep ord h h2 _ p s lc la (v_L v + 1) (fun alpha => (2 * alpha * norm_factor alpha (v_L v) / norm_factor alpha (v_L v + 1))%R)
       W R2 ltac:(lia) H1 H3 H4 Hn1 Hn2) as (xp & h3 & h4 & E3 & E4 & R4 & Pp & Sp).
    rewrite E3, bind_ok, E4, !bind_ok.
    exists (sr_ptr xm), (sr_ptr xp), h4, xp. split; [reflexivity|]. split; [reflexivity|].
    rewrite EO. rewrite <- EP in Sp, Sm. split.
    + unfold up_prims. erewrite prims_map_ext in Sp; [exact Sp|]. intros a. cbv beta. rewrite !nf_factor. reflexivity.
    + right. split; [lia|]. exists xm. split; [reflexivity|]. split; [exact Pm|]. rewrite app_nil_r in R4. split; [exact R4|].
      unfold down_prims. erewrite prims_map_ext in Sm; [exact Sm|]. intros a. cbv beta. rewrite !nf_factor. reflexivity.
  - rewrite !bind_ok.
    destruct (new_scaled_rep ord h h [] p s lc la (v_L v + 1) (fun alpha => (2 * alpha * norm_factor alpha (v_L v) / norm_factor alpha (v_L v + 1))%R)
       W (rep_start h W) ltac:(lia) H1 H3 H4 Hn1 Hn2) as (xp & h3 & h4 & E3 & E4 & R4 & Pp & Sp).
    rewrite E3, bind_ok, E4, !bind_ok.
    exists 0, (sr_ptr xp), h4, xp. split; [reflexivity|]. split; [reflexivity|].
    rewrite EO. rewrite <- EP in Sp. rewrite app_nil_r in R4. split.
    + unfold up_prims. erewrite prims_map_ext in Sp; [exact Sp|]. intros a. cbv beta. rewrite !nf_factor. reflexivity.
    + left. split; [lia|]. auto.
Qed.

(** ** C24 *)

Lemma canon_nonneg L c : In c (canon L) -> 0 <= L -> nonneg3 c.
Proof. destruct c as [[n l] m]. rewrite in_canon. unfold nonneg3. lia. Qed.

Lemma std_canon h p v comps : std_shell h p v comps -> comps = canon (v_L v).
Proof.
  intros (_ & HL & _ & (ord & HC) & _). rewrite shell_components_canon in HC by exact HL. injection HC as <-. reflexivity.
Qed.

Lemma shift_in_canon L c k d : In c (canon L) -> 0 <= k < 3 -> 0 <= expo c k + d -> In (shift c k d) (canon (L + d)).
Proof.
  destruct c as [[n l] m]. rewrite in_canon. intros H Hk He.
  assert (k = 0 \/ k = 1 \/ k = 2) as [-> | [-> | ->]] by lia; cbn [shift expo Z.eqb Pos.eqb] in *; rewrite in_canon; lia.
Qed.

Lemma differentiate_spec ord h p v comps : heap_wf h -> std_shell h p v comps ->
  exists pm pp h' vm vp cm cp, differentiate_shell ord h p = Ok (pm, pp, h') /\ heap_wf h' /\
    std_shell h' p v comps /\
    std_shell h' pp vp cp /\ v_L vp = v_L v + 1 /\ v_origin vp = v_origin v /\
    (v_L v = 0 -> pm = 0) /\
    (0 < v_L v -> std_shell h' pm vm cm /\ v_L vm = v_L v - 1 /\ v_origin vm = v_origin v) /\
    (forall c k x y z, In c comps -> 0 <= k < 3 ->
       In (shift c k 1) cp /\ (0 < expo c k -> In (shift c k (-1)) cm) /\
       is_derive (fun t => phi (v_L v) (set_coord (v_origin v) k t) (v_prims v) c x y z) (coord3 (v_origin v) k)
         (phi_of vp (shift c k 1) x y z -
          IZR (expo c k) * (if 0 <? expo c k then phi_of vm (shift c k (-1)) x y z else 0))%R) /\
    (exists h1 h2, (if pm =? 0 then Ok h' else delete_shell h' pm) = Ok h1 /\ delete_shell h1 pp = Ok h2 /\
       forall q, hblk h2 q = hblk h q).
Proof.
  intros W Sd. pose proof Sd as (At & HL & Hsz & HC & HF). pose proof (std_canon _ _ _ _ Sd) as ->.
  destruct (differentiate_rep ord h p v W At HL) as (pm & pp & h' & xp & E & Ep & Sp & Cases).
  assert (Der : forall c k x y z, In c (canon (v_L v)) -> 0 <= k < 3 ->
       In (shift c k 1) (canon (v_L v + 1)) /\ (0 < expo c k -> In (shift c k (-1)) (canon (v_L v - 1))) /\
       is_derive (fun t => phi (v_L v) (set_coord (v_origin v) k t) (v_prims v) c x y z) (coord3 (v_origin v) k)
         (phi_of (up_view v) (shift c k 1) x y z -
          IZR (expo c k) * (if 0 <? expo c k then phi_of (down_view v) (shift c k (-1)) x y z else 0))%R).
  { intros c k x y z Hc Hk. assert (N := canon_nonneg _ _ Hc HL).
    assert (0 <= expo c k).
    { destruct c as [[n l] m]. destruct N as (N1 & N2 & N3). unfold expo. destruct (k =? 0); [lia|]. destruct (k =? 1); lia. }
    split; [apply shift_in_canon; [exact Hc|exact Hk|lia]|]. split.
    { intros Hp. apply (shift_in_canon _ c k (-1)); [exact Hc|exact Hk|lia]. }
    apply (phi_center_der (v_L v) (v_origin v) (v_prims v) c k x y z Hk N). }
  destruct Cases as [(HL0 & Epm & R0)|(HLp & xm & Em & Hpm & R0 & Sm)].
  - exists pm, pp, h', (down_view v), (up_view v), (canon (v_L v - 1)), (canon (v_L v + 1)).
    assert (R1 : rep h h' (shell_cells xp ++ [])) by (rewrite app_nil_r; exact R0).
    split; [exact E|]. split; [destruct R0; assumption|].
    split. { split; [|split; [exact HL|split; [exact Hsz|split; [exact HC|exact HF]]]]. eapply shell_at_old; [|exact At]. intros q o Hq. eapply rep_old; [exact R0|exact Hq]. }
    split. { rewrite <- Ep. apply (std_of_cells h h' xp [] (v_L v + 1) _ _ ltac:(lia) R1 Sp). }
    split; [reflexivity|]. split; [reflexivity|]. split; [intros _; exact Epm|]. split; [lia|]. split; [exact Der|].
    rewrite Epm. exists h'. rewrite <- Ep. destruct (delete_shell_rep _ _ _ _ R1) as (h2 & E2 & R2 & _).
    exists h2. split; [reflexivity|]. split; [exact E2|]. apply rep_end. exact R2.
  - exists pm, pp, h', (down_view v), (up_view v), (canon (v_L v - 1)), (canon (v_L v + 1)).
    assert (R1 : rep h h' (shell_cells xm ++ shell_cells xp)).
    { eapply rep_perm; [|exact R0]. apply Permutation_app_comm. }
    split; [exact E|]. split; [destruct R0; assumption|].
    split. { split; [|split; [exact HL|split; [exact Hsz|split; [exact HC|exact HF]]]]. eapply shell_at_old; [|exact At]. intros q o Hq. eapply rep_old; [exact R0|exact Hq]. }
    split. { rewrite <- Ep. apply (std_of_cells h h' xp _ (v_L v + 1) _ _ ltac:(lia) R0 Sp). }
    split; [reflexivity|]. split; [reflexivity|]. split; [lia|].
    split. { intros _. split; [|split; reflexivity]. rewrite <- Em. apply (std_of_cells h h' xm _ (v_L v - 1) _ _ ltac:(lia) R1 Sm). }
    split; [exact Der|].
    destruct (Z.eqb_spec pm 0); [lia|]. rewrite <- Em, <- Ep.
    destruct (delete_shell_rep _ _ _ _ R1) as (h1 & E1 & R2 & _).
    rewrite <- (app_nil_r (shell_cells xp)) in R2.
    destruct (delete_shell_rep _ _ _ _ R2) as (h2 & E2 & R3 & _).
    exists h1, h2. split; [exact E1|]. split; [exact E2|]. apply rep_end. exact R3.
Qed.

(** ** The overlap matrices with the differentiated shells *)

Definition holds_matrix (M : arr R) (vA vB : sview) (ca cb : list (Z * Z * Z)) : Prop :=
  adims M = [v_size vA * v_size vB] /\
  forall m n cA cB, nth_error ca m = Some cA -> nth_error cb n = Some cB -> elem_at M vB m n = Ok (ovalue Overlap vA vB cA cB).

Lemma fresh_overlap h pA pB vA vB ca cb : heap_wf h -> std_shell h pA vA ca -> std_shell h pB vB cb ->
  v_L vA <= 9 -> v_L vB <= 9 ->
  exists sA sB A B M, load_shell h pA = Ok sA /\ load_shell h pB = Ok sB /\ sh_cart_size sA = v_size vA /\ sh_cart_size sB = v_size vB /\
    view_shell h pA = Ok A /\ view_shell h pB = Ok B /\
    overlap_integrals A B (aconst [v_size vA * v_size vB] 0%R) = Ok M /\ holds_matrix M vA vB ca cb.
Proof.
  intros W SA SB LA LB.
  destruct (oneel_ok Overlap h pA pB vA vB ca cb (aconst [v_size vA * v_size vB] 0%R) W SA SB LA LB) as (M & E & (D & _) & V).
  { exists (v_size vA * v_size vB). split; [reflexivity|lia]. }
  cbn in E. unfold overlap_call in E.
  destruct SA as ((sA & lcA & laA & A1 & _ & _ & _ & _ & _ & _ & _ & A2 & _) & _).
  destruct SB as ((sB & lcB & laB & B1 & _ & _ & _ & _ & _ & _ & _ & B2 & _) & _).
  destruct (view_shell h pA) as [A|] eqn:EA; [|discriminate].
  destruct (view_shell h pB) as [B|] eqn:EB; [|discriminate]. cbn [bind] in E.
  exists sA, sB, A, B, M. unfold load_shell. rewrite (heap_wf_nonzero _ _ _ W A1), (heap_wf_nonzero _ _ _ W B1).
  split; [reflexivity|]. split; [reflexivity|]. split; [congruence|]. split; [congruence|].
  split; [reflexivity|]. split; [reflexivity|]. split; [exact E|]. split; [exact D|exact V].
Qed.

Lemma std_old h h' p v comps : (forall q o, hblk h q = Some o -> hblk h' q = Some o) -> std_shell h p v comps -> std_shell h' p v comps.
Proof. intros F (S1 & S2). split; [eapply shell_at_old; eassumption|exact S2]. Qed.

Definition same_heap (h h' : heap) : Prop := heap_wf h' /\ forall q, hblk h' q = hblk h q.

Lemma diff_overlap_ok ord h pA pB vA vB ca cb : heap_wf h -> std_shell h pA vA ca -> std_shell h pB vB cb ->
  v_L vA <= 8 -> v_L vB <= 9 ->
  exists down up h', diff_bra_overlap_integrals ord h pA pB = Ok (down, up, h') /\ same_heap h h' /\
    holds_matrix up (up_view vA) vB (canon (v_L vA + 1)) cb /\
    match down with
    | None => v_L vA = 0
    | Some D => 0 < v_L vA /\ holds_matrix D (down_view vA) vB (canon (v_L vA - 1)) cb
    end.
Proof.
  intros W SA SB LA LB. pose proof SA as (At & HL & _).
  destruct (differentiate_rep ord h pA vA W At HL) as (pm & pp & h' & xp & E & Ep & Sp & Cases).
  unfold diff_bra_overlap_integrals. rewrite E, bind_ok. clear E.
  destruct Cases as [(HL0 & Epm & R0)|(HLp & xm & Em & Hpm & R0 & Sm)].
  - assert (R1 : rep h h' (shell_cells xp ++ [])) by (rewrite app_nil_r; exact R0).
    assert (W' : heap_wf h') by (destruct R0; assumption).
    assert (SB' : std_shell h' pB vB cb) by (eapply std_old; [|exact SB]; intros q o Hq; eapply rep_old; [exact R0|exact Hq]).
    pose proof (std_of_cells h h' xp [] (v_L vA + 1) _ _ ltac:(lia) R1 Sp) as SP. rewrite Ep in SP.
    destruct (fresh_overlap h' pp pB (up_view vA) vB (canon (v_L vA + 1)) cb W' SP SB' ltac:(cbn; lia) LB)
      as (sP & sB & P & B & Mu & E1 & E2 & Z1 & Z2 & V1 & V2 & EM & HM).
    rewrite E2, !bind_ok, V2, !bind_ok, E1, !bind_ok, Epm. cbn [Z.eqb bind]. rewrite V1, bind_ok, Z1, Z2, EM, !bind_ok.
    destruct (delete_shell_rep _ _ _ _ R1) as (h2 & D2 & R2 & _). rewrite <- Ep, D2, bind_ok.
    exists None, Mu, h2. split; [reflexivity|]. split; [split; [destruct R2; assumption|apply rep_end; exact R2]|].
    split; [exact HM|exact HL0].
  - assert (R1 : rep h h' (shell_cells xm ++ shell_cells xp)).
    { eapply rep_perm; [|exact R0]. apply Permutation_app_comm. }
    assert (W' : heap_wf h') by (destruct R0; assumption).
    assert (SB' : std_shell h' pB vB cb) by (eapply std_old; [|exact SB]; intros q o Hq; eapply rep_old; [exact R0|exact Hq]).
    pose proof (std_of_cells h h' xp _ (v_L vA + 1) _ _ ltac:(lia) R0 Sp) as SP. rewrite Ep in SP.
    pose proof (std_of_cells h h' xm _ (v_L vA - 1) _ _ ltac:(lia) R1 Sm) as SM. rewrite Em in SM.
    destruct (fresh_overlap h' pp pB (up_view vA) vB (canon (v_L vA + 1)) cb W' SP SB' ltac:(cbn; lia) LB)
      as (sP & sB & P & B & Mu & E1 & E2 & Z1 & Z2 & V1 & V2 & EM & HM).
    destruct (fresh_overlap h' pm pB (down_view vA) vB (canon (v_L vA - 1)) cb W' SM SB' ltac:(cbn; lia) LB)
      as (sM & sB' & P' & B' & Md & E1' & E2' & Z1' & Z2' & V1' & V2' & EM' & HM').
    rewrite V2 in V2'. injection V2' as <-. rewrite E2 in E2'. injection E2' as <-.
    rewrite E2, !bind_ok, V2, !bind_ok, E1, !bind_ok. destruct (Z.eqb_spec pm 0); [lia|].
    rewrite E1', bind_ok, V1', bind_ok, Z1', Z2, EM', !bind_ok, V1, bind_ok, Z1, EM, !bind_ok.
    destruct (delete_shell_rep _ _ _ _ R1) as (h1 & D1 & R2 & _). rewrite Em in D1. rewrite D1, bind_ok.
    rewrite <- (app_nil_r (shell_cells xp)) in R2.
    destruct (delete_shell_rep _ _ _ _ R2) as (h2 & D2 & R3 & _). rewrite <- Ep, D2, bind_ok.
    exists (Some Md), Mu, h2. split; [reflexivity|]. split; [split; [destruct R3; assumption|apply rep_end; exact R3]|].
    split; [exact HM|]. split; [exact HLp|exact HM'].
Qed.

(** ** The component list, changed in place and restored *)

Definition lupd (l : list (Z * Z * Z)) (i : nat) (c : Z * Z * Z) := firstn i l ++ c :: skipn (S i) l.

Lemma lupd_same l i c : nth_error l i = Some c -> lupd l i c = l.
Proof. intros H. unfold lupd. symmetry. apply firstn_skipn_nth. exact H. Qed.

Lemma nth_lupd l i c : (i < length l)%nat -> nth_error (lupd l i c) i = Some c.
Proof.
  intros H. unfold lupd. rewrite nth_error_app2; rewrite firstn_length_le by lia; [|lia]. rewrite Nat.sub_diag. reflexivity.
Qed.

Lemma lupd_lupd l i c c' : (i < length l)%nat -> lupd (lupd l i c) i c' = lupd l i c'.
Proof.
  intros H. unfold lupd. assert (Hl : length (firstn i l) = i) by (rewrite firstn_length; lia).
  rewrite firstn_app, Hl, Nat.sub_diag. cbn [firstn]. rewrite app_nil_r, firstn_firstn, Nat.min_id. f_equal. f_equal.
  rewrite skipn_app, Hl. rewrite skipn_all2 by lia. replace (S i - i)%nat with 1%nat by lia. reflexivity.
Qed.

Lemma length_lupd l i c : (i < length l)%nat -> length (lupd l i c) = length l.
Proof. intros H. unfold lupd. rewrite app_length, firstn_length. cbn [length]. rewrite skipn_length. lia. Qed.

Lemma flat3_app l1 l2 : flat3 (l1 ++ l2) = flat3 l1 ++ flat3 l2.
Proof. induction l1 as [|[[a b] c] l1 IH]; [reflexivity|]. cbn. rewrite IH. reflexivity. Qed.

Lemma length_flat3 l : length (flat3 l) = (3 * length l)%nat.
Proof. induction l as [|[[a b] c] l IH]; [reflexivity|]. cbn [flat3 length]. rewrite IH. lia. Qed.

Lemma flat3_set l i c k v : nth_error l i = Some c -> 0 <= k < 3 ->
  elem_set (flat3 l) (3 * Z.of_nat i + k) v = Ok (flat3 (lupd l i (shift c k (v - expo c k)))).
Proof.
  intros H Hk. assert (Hi : (i < length l)%nat) by (apply nth_error_Some; congruence).
  rewrite (firstn_skipn_nth l i c H) at 1. unfold lupd. rewrite !flat3_app.
  assert (Hl : length (flat3 (firstn i l)) = (3 * i)%nat) by (rewrite length_flat3, firstn_length; lia).
  destruct c as [[n l0] m].
  assert (k = 0 \/ k = 1 \/ k = 2) as [-> | [-> | ->]] by lia; cbn [shift expo Z.eqb Pos.eqb flat3].
  - replace (3 * Z.of_nat i + 0) with (Z.of_nat (length (flat3 (firstn i l)))) by lia. rewrite elem_set_app.
    do 3 f_equal. lia.
  - replace (flat3 (firstn i l) ++ n :: l0 :: m :: flat3 (skipn (S i) l)) with
      ((flat3 (firstn i l) ++ [n]) ++ l0 :: m :: flat3 (skipn (S i) l)) by (rewrite <- app_assoc; reflexivity).
    replace (3 * Z.of_nat i + 1) with (Z.of_nat (length (flat3 (firstn i l) ++ [n]))) by (rewrite app_length; cbn [length]; lia).
    rewrite elem_set_app, <- app_assoc. cbn [app]. do 4 f_equal. lia.
  - replace (flat3 (firstn i l) ++ n :: l0 :: m :: flat3 (skipn (S i) l)) with
      ((flat3 (firstn i l) ++ [n; l0]) ++ m :: flat3 (skipn (S i) l)) by (rewrite <- app_assoc; reflexivity).
    replace (3 * Z.of_nat i + 2) with (Z.of_nat (length (flat3 (firstn i l) ++ [n; l0]))) by (rewrite app_length; cbn [length]; lia).
    rewrite elem_set_app, <- app_assoc. cbn [app]. do 5 f_equal. lia.
Qed.

Lemma get_comp h P l i c k : heap_wf h -> hblk h P = Some (OInts (flat3 l)) -> nth_error l i = Some c -> 0 <= k < 3 ->
  get_int h P (3 * Z.of_nat i + k) = Ok (expo c k).
Proof.
  intros W Hb H Hk. apply (get_int_ok h P _ _ _ W Hb); [|lia].
  pose proof (nth_flat3 l i ltac:(apply nth_error_Some; congruence)) as Hn. rewrite (nth_error_nth _ _ (0, 0, 0) H) in Hn.
  destruct c as [[a b] d]. destruct Hn as (N0 & N1 & N2).
  assert (k = 0 \/ k = 1 \/ k = 2) as [-> | [-> | ->]] by lia; cbn [expo Z.eqb Pos.eqb].
  - replace (Z.to_nat (3 * Z.of_nat i + 0)) with (3 * i + 0)%nat by lia. exact N0.
  - replace (Z.to_nat (3 * Z.of_nat i + 1)) with (3 * i + 1)%nat by lia. exact N1.
  - replace (Z.to_nat (3 * Z.of_nat i + 2)) with (3 * i + 2)%nat by lia. exact N2.
Qed.

Lemma bump_ok h P l i c k d : heap_wf h -> hblk h P = Some (OInts (flat3 l)) -> nth_error l i = Some c -> 0 <= k < 3 ->
  exists h', bump h P (3 * Z.of_nat i + k) d = Ok h' /\ heap_wf h' /\
    hblk h' P = Some (OInts (flat3 (lupd l i (shift c k d)))) /\ (forall q, q <> P -> hblk h' q = hblk h q).
Proof.
  intros W Hb H Hk. unfold bump. rewrite (get_comp h P l i c k W Hb H Hk), bind_ok.
  unfold set_int. rewrite (heap_wf_nonzero h P _ W Hb), bind_ok.
  rewrite (flat3_set l i c k _ H Hk), bind_ok.
  replace (expo c k + d - expo c k) with d by lia.
  assert (HP : 0 < P) by (destruct W as [_ W]; apply W in Hb; lia).
  unfold hstore. destruct (Z.eqb_spec P 0); [lia|]. rewrite Hb.
  eexists. split; [reflexivity|]. split.
  - destruct W as [W1 W2]. split; [exact W1|]. cbn. intros q o. destruct (Z.eqb_spec q P) as [->|]; [intros _; apply W2 in Hb; exact Hb|apply W2].
  - cbn. rewrite Z.eqb_refl. split; [reflexivity|]. intros q Hq. destruct (Z.eqb_spec q P); [contradiction|reflexivity].
Qed.

Lemma linear_ok ord h P l i n1 n2 n3 : heap_wf h -> hblk h P = Some (OInts (flat3 l)) -> nth_error l i = Some (n1, n2, n3) ->
  linear_index ord h P (3 * Z.of_nat i) = nlm_to_linear ord n1 n2 n3.
Proof.
  intros W Hb H. unfold linear_index.
  pose proof (get_comp h P l i _ 0 W Hb H ltac:(lia)) as G0. pose proof (get_comp h P l i _ 1 W Hb H ltac:(lia)) as G1.
  pose proof (get_comp h P l i _ 2 W Hb H ltac:(lia)) as G2. rewrite Z.add_0_r in G0. rewrite G0, G1, G2. reflexivity.
Qed.

Lemma nlm_position ord L i c : 0 <= L -> nth_error (canon L) i = Some c ->
  (let '(n, l, m) := c in nlm_to_linear ord n l m) = Ok (Z.of_nat i).
Proof.
  intros HL H. destruct c as [[n l] m].
  assert (Hin : In (n, l, m) (canon L)) by (eapply nth_error_In; exact H).
  apply in_canon in Hin.
  destruct (nlm_lookup_found ord n l m ltac:(lia) ltac:(lia) ltac:(lia)) as (comps & k & E & F & R & N & U).
  replace (n + l + m) with L in * by lia. rewrite shell_components_canon in E by exact HL. injection E as <-.
  rewrite F. f_equal. symmetry. apply U. exact H.
Qed.

(** ** The loop body *)

Definition comp_lists (h : heap) (sA sB : shell) (LA LB : Z) : Prop :=
  heap_wf h /\ sh_L sA = LA /\ sh_cart_list sA <> sh_cart_list sB /\
  hblk h (sh_cart_list sA) = Some (OInts (flat3 (canon LA))) /\ hblk h (sh_cart_list sB) = Some (OInts (flat3 (canon LB))).

Lemma expo_shift c k d : 0 <= k < 3 -> expo (shift c k d) k = expo c k + d.
Proof.
  intros Hk. destruct c as [[n l] m]. assert (k = 0 \/ k = 1 \/ k = 2) as [-> | [-> | ->]] by lia; reflexivity.
Qed.

Lemma shift_shift c k d e : shift (shift c k d) k e = shift c k (d + e).
Proof.
  destruct c as [[n l] m]. unfold shift. destruct (k =? 0); [rewrite Z.add_assoc; reflexivity|].
  destruct (k =? 1); rewrite Z.add_assoc; reflexivity.
Qed.

Lemma shift_0 c k : shift c k 0 = c.
Proof. destruct c as [[n l] m]. unfold shift. destruct (k =? 0); [|destruct (k =? 1)]; rewrite Z.add_0_r; reflexivity. Qed.

(** shift, look up, shift back: the pattern of lines 127-130 and 139-142 *)
Lemma bumped_lookup ord h sA sB LA LB i c k d (K : heap -> Z -> res (heap * arr R)) :
  comp_lists h sA sB LA LB -> nth_error (canon LA) i = Some c -> 0 <= k < 3 -> forall j, 0 <= LB -> (j < length (canon LB))%nat ->
  exists h1, same_heap h h1 /\
  (let* h := bump h (sh_cart_list sA) (3 * Z.of_nat i + k) d in
   let* bra := linear_index ord h (sh_cart_list sA) (3 * Z.of_nat i) in
   let* ket := linear_index ord h (sh_cart_list sB) (3 * Z.of_nat j) in
   let* h := bump h (sh_cart_list sA) (3 * Z.of_nat i + k) (- d) in
   K h (sh_cart_size sB * bra + ket)) =
  (let* bra := (let '(n1, n2, n3) := shift c k d in nlm_to_linear ord n1 n2 n3) in
   K h1 (sh_cart_size sB * bra + Z.of_nat j)).
Proof.
  intros (W & EL & Hne & HA & HB) Hi Hk j HLB Hj.
  assert (Hil : (i < length (canon LA))%nat) by (apply nth_error_Some; congruence).
  destruct (bump_ok h _ _ i c k d W HA Hi Hk) as (h1 & E1 & W1 & B1 & F1).
  assert (N1 := nth_lupd (canon LA) i (shift c k d) Hil).
  destruct (bump_ok h1 _ _ i (shift c k d) k (- d) W1 B1 N1 Hk) as (h2 & E2 & W2 & B2 & F2).
  exists h2. split.
  - split; [exact W2|]. intros q. destruct (Z.eq_dec q (sh_cart_list sA)) as [->|Hq].
    + rewrite B2, HA. rewrite lupd_lupd by exact Hil. rewrite shift_shift, Z.add_opp_diag_r, shift_0.
      rewrite lupd_same by exact Hi. reflexivity.
    + rewrite F2, F1 by exact Hq. reflexivity.
  - rewrite E1, bind_ok.
    destruct (nth_error (canon LB) j) as [[[m1 m2] m3]|] eqn:Ej; [|apply nth_error_None in Ej; lia].
    destruct (shift c k d) as [[n1 n2] n3] eqn:Es.
    rewrite (linear_ok ord h1 _ _ i n1 n2 n3 W1 B1 N1).
    assert (HB1 : hblk h1 (sh_cart_list sB) = Some (OInts (flat3 (canon LB)))) by (rewrite F1 by congruence; exact HB).
    rewrite (linear_ok ord h1 _ _ j m1 m2 m3 W1 HB1 Ej).
    rewrite (nlm_position ord LB j (m1, m2, m3) HLB Ej : nlm_to_linear ord m1 m2 m3 = _).
    destruct (nlm_to_linear ord n1 n2 n3) as [b|]; [|reflexivity]. rewrite !bind_ok, E2, bind_ok. reflexivity.
Qed.

Lemma comp_lists_same h h1 sA sB LA LB : same_heap h h1 -> comp_lists h sA sB LA LB -> comp_lists h1 sA sB LA LB.
Proof.
  intros (W & F) (_ & E & Hne & HA & HB). split; [exact W|]. split; [exact E|]. split; [exact Hne|]. rewrite !F. split; assumption.
Qed.

Lemma same_heap_trans h h1 h2 : same_heap h h1 -> same_heap h1 h2 -> same_heap h h2.
Proof. intros (W1 & F1) (W2 & F2). split; [exact W2|]. intros q. rewrite F2. apply F1. Qed.

Lemma aget_matrix M vA vB ca cb m n cA cB : holds_matrix M vA vB ca cb -> nth_error ca m = Some cA -> nth_error cb n = Some cB ->
  aget M [v_size vB * Z.of_nat m + Z.of_nat n] = Ok (ovalue Overlap vA vB cA cB).
Proof.
  intros (_ & V) Hm Hn. specialize (V m n cA cB Hm Hn). unfold elem_at in V. rewrite Z.mul_comm in V. exact V.
Qed.

Lemma nth_in_canon L c : In c (canon L) -> exists m, nth_error (canon L) m = Some c.
Proof. intros H. apply In_nth_error in H. exact H. Qed.

Definition bgrad_value (vA vB : sview) (cA cB : Z * Z * Z) (k : Z) : R :=
  grad_value (v_L vA) (v_L vB) (v_origin vA) (v_origin vB) (v_prims vA) (v_prims vB) cA cB k.

Section Body.
  Variables (ord : cart_order) (oob : option (Z -> R)) (vA vB : sview) (sA sB : shell) (down : option (arr R)) (up : arr R) (f : R) (sz : Z).
  Hypothesis (HLA : 0 <= v_L vA) (HLB : 0 <= v_L vB).
  Hypothesis (SzB : v_size vB = n_cart (v_L vB)) (EsB : sh_cart_size sB = v_size vB).
  Hypothesis (Hup : holds_matrix up (up_view vA) vB (canon (v_L vA + 1)) (canon (v_L vB))).
  Hypothesis (Hdown : match down with
    | None => v_L vA = 0
    | Some D => 0 < v_L vA /\ holds_matrix D (down_view vA) vB (canon (v_L vA - 1)) (canon (v_L vB))
    end).
  Hypothesis (Hsz : n_cart (v_L vA) * v_size vB <= sz).

  Lemma lenB : v_size vB = Z.of_nat (length (canon (v_L vB))).
  Proof. rewrite SzB. symmetry. apply length_canon. lia. Qed.

  (** the read of the lower matrix *)
  Lemma read_down D cA cB k j n1 n2 n3 : down = Some D -> In cA (canon (v_L vA)) -> 0 <= k < 3 -> nth_error (canon (v_L vB)) j = Some cB ->
    shift cA k (-1) = (n1, n2, n3) ->
    exists bra, nlm_to_linear ord n1 n2 n3 = Ok bra /\
    let idx := v_size vB * bra + Z.of_nat j in
    (0 < expo cA k -> forall o, read_at o D idx = Ok (ovalue Overlap (down_view vA) vB (n1, n2, n3) cB)) /\
    (expo cA k = 0 -> read_at None D idx = Fail OutOfBounds /\ forall g, exists x, read_at (Some g) D idx = Ok x).
  Proof.
    intros -> HcA Hk Hj Es. destruct Hdown as (HLp & HD). clear Hdown.
    pose proof (canon_nonneg _ _ HcA HLA) as N.
    assert (Ee : 0 <= expo cA k).
    { destruct cA as [[n l] m]. destruct N as (N1 & N2 & N3). unfold expo. destruct (k =? 0); [lia|]. destruct (k =? 1); lia. }
    assert (Hjl : (j < length (canon (v_L vB)))%nat) by (apply nth_error_Some; congruence).
    destruct (Z.eq_dec (expo cA k) 0) as [E0|E0].
    - assert (Hs : n1 + n2 + n3 = v_L vA - 1 /\ (n1 < 0 \/ n2 < 0 \/ n3 < 0)).
      { destruct cA as [[n l] m]. apply in_canon in HcA. 
        assert (k = 0 \/ k = 1 \/ k = 2) as [-> | [-> | ->]] by lia; cbn [shift expo Z.eqb Pos.eqb] in *; injection Es as <- <- <-; lia. }
      destruct Hs as (Hs & Hneg). exists (n_cart (v_L vA - 1)).
      split; [rewrite <- Hs; apply nlm_lookup_missing; [lia|exact Hneg]|]. cbv zeta. split; [lia|]. intros _.
      destruct HD as (DD & _). pose proof lenB.
      assert (I : inb (adims D) [v_size vB * n_cart (v_L vA - 1) + Z.of_nat j] = false).
      { rewrite DD. cbn [v_size down_view]. unfold inb. cbn.
        destruct (Z.ltb_spec (v_size vB * n_cart (v_L vA - 1) + Z.of_nat j) (n_cart (v_L vA - 1) * v_size vB)); [lia|].
        rewrite andb_false_r. reflexivity. }
      unfold read_at. rewrite I. split; [|intros g; eauto]. unfold aget. rewrite I. reflexivity.
    - assert (Hin : In (n1, n2, n3) (canon (v_L vA - 1))).
      { rewrite <- Es. apply (shift_in_canon _ cA k (-1)); [exact HcA|exact Hk|lia]. }
      destruct (nth_in_canon _ _ Hin) as (m & Hm). exists (Z.of_nat m).
      split; [apply (nlm_position ord (v_L vA - 1) m (n1, n2, n3) ltac:(lia) Hm)|]. cbv zeta. split; [|lia]. intros _ o.
      pose proof (aget_matrix _ _ _ _ _ _ _ _ _ HD Hm Hj) as G. unfold read_at. destruct o as [g|]; [|exact G].
      destruct (inb (adims D) _) eqn:I; [exact G|]. unfold aget in G. rewrite I in G. discriminate.
  Qed.

  Lemma read_up cA cB k j n1 n2 n3 : In cA (canon (v_L vA)) -> 0 <= k < 3 -> nth_error (canon (v_L vB)) j = Some cB ->
    shift cA k 1 = (n1, n2, n3) ->
    exists bra, nlm_to_linear ord n1 n2 n3 = Ok bra /\
      aget up [v_size vB * bra + Z.of_nat j] = Ok (ovalue Overlap (up_view vA) vB (n1, n2, n3) cB).
  Proof.
    intros HcA Hk Hj Es. pose proof (canon_nonneg _ _ HcA HLA) as N.
    assert (Ee : 0 <= expo cA k).
    { destruct cA as [[n l] m]. destruct N as (N1 & N2 & N3). unfold expo. destruct (k =? 0); [lia|]. destruct (k =? 1); lia. }
    assert (Hin : In (n1, n2, n3) (canon (v_L vA + 1))).
    { rewrite <- Es. apply (shift_in_canon _ cA k 1); [exact HcA|exact Hk|lia]. }
    destruct (nth_in_canon _ _ Hin) as (m & Hm). exists (Z.of_nat m).
    split; [apply (nlm_position ord (v_L vA + 1) m (n1, n2, n3) ltac:(lia) Hm)|]. apply (aget_matrix _ _ _ _ _ _ _ _ _ Hup Hm Hj).
  Qed.

  Lemma body_ok h grad k i j cA cB : comp_lists h sA sB (v_L vA) (v_L vB) -> adims grad = [3; sz] ->
    0 <= k < 3 -> nth_error (canon (v_L vA)) i = Some cA -> nth_error (canon (v_L vB)) j = Some cB ->
    (oob <> None \/ v_L vA = 0 \/ 0 < expo cA k) ->
    let ix := [k; Z.of_nat i * v_size vB + Z.of_nat j] in forall g, aget grad ix = Ok g ->
    exists h' grad', ovgrad_body ord oob sA sB down up f k (Z.of_nat i) (Z.of_nat j) (h, grad) = Ok (h', grad') /\
      same_heap h h' /\ adims grad' = adims grad /\ aget grad' ix = Ok (g + f * bgrad_value vA vB cA cB k)%R /\
      forall ix', ix' <> ix -> aget grad' ix' = aget grad ix'.
  Proof.
    intros CL Dg Hk Hi Hj Hok ix g Hg. pose proof CL as (W & EL & _).
    assert (Hil : (i < length (canon (v_L vA)))%nat) by (apply nth_error_Some; congruence).
    assert (Hjl : (j < length (canon (v_L vB)))%nat) by (apply nth_error_Some; congruence).
    assert (HcA : In cA (canon (v_L vA))) by (eapply nth_error_In; exact Hi).
    pose proof lenB as LB'. pose proof (length_canon (v_L vA) ltac:(lia)) as LA'.
    assert (Iix : forall gr : arr R, adims gr = [3; sz] -> inb (adims gr) ix = true).
    { intros gr ->. apply inb2. nia. }
    (* the L+1 part from any heap with the same lists *)
    assert (UP : forall h0 gr0 g0, same_heap h h0 -> adims gr0 = [3; sz] -> aget gr0 ix = Ok g0 ->
       exists h' gr', (let* h := bump h0 (sh_cart_list sA) (3 * Z.of_nat i + k) 1 in
          let* bra_index := linear_index ord h (sh_cart_list sA) (3 * Z.of_nat i) in
          let* ket_index := linear_index ord h (sh_cart_list sB) (3 * Z.of_nat j) in
          let* h := bump h (sh_cart_list sA) (3 * Z.of_nat i + k) (-1) in
          let* u := aget up [(sh_cart_size sB * bra_index + ket_index)%Z] in
          let* g := aget gr0 [k; Z.of_nat i * sh_cart_size sB + Z.of_nat j] in
          let* grad := aset gr0 [k; Z.of_nat i * sh_cart_size sB + Z.of_nat j] (g + f * u)%R in
          Ok (h, grad)) = Ok (h', gr') /\ same_heap h h' /\ adims gr' = [3; sz] /\
          aget gr' ix = Ok (g0 + f * ovalue Overlap (up_view vA) vB (shift cA k 1) cB)%R /\
          forall ix', ix' <> ix -> aget gr' ix' = aget gr0 ix').
    { intros h0 gr0 g0 Sm D0 G0.
      destruct (bumped_lookup ord h0 sA sB _ _ i cA k 1
         (fun h idx => let* u := aget up [idx] in let* g := aget gr0 [k; Z.of_nat i * sh_cart_size sB + Z.of_nat j] in
            let* grad := aset gr0 [k; Z.of_nat i * sh_cart_size sB + Z.of_nat j] (g + f * u)%R in Ok (h, grad))
         (comp_lists_same _ _ _ _ _ _ Sm CL) Hi Hk j HLB Hjl) as (h1 & Sm1 & EE).
      cbv beta in EE. change (- (1)) with (-1) in EE. rewrite EE. clear EE.
      destruct (shift cA k 1) as [[n1 n2] n3] eqn:Es.
      destruct (read_up cA cB k j n1 n2 n3 HcA Hk Hj Es) as (bra & Eb & Eu).
      rewrite Eb, bind_ok, EsB, Eu, bind_ok. fold ix. rewrite G0, bind_ok.
      destruct (aset_get gr0 ix (g0 + f * ovalue Overlap (up_view vA) vB (n1, n2, n3) cB)%R (Iix gr0 D0)) as (gr' & E' & D' & V' & F').
      rewrite E', bind_ok. exists h1, gr'. split; [reflexivity|]. split; [eapply same_heap_trans; eassumption|].
      split; [congruence|]. split; [exact V'|exact F']. }
    assert (Gv : forall d, (0 < expo cA k -> d = ovalue Overlap (down_view vA) vB (shift cA k (-1)) cB) -> 0 <= expo cA k ->
       (g - f * IZR (expo cA k) * d + f * ovalue Overlap (up_view vA) vB (shift cA k 1) cB = g + f * bgrad_value vA vB cA cB k)%R).
    { intros d Hd He. unfold bgrad_value, grad_value. unfold ovalue in *. cbn [oentry up_view down_view v_L v_origin v_prims] in *.
      destruct (Z.ltb_spec 0 (expo cA k)).
      - rewrite Hd by lia. ring.
      - replace (expo cA k) with 0 by lia. ring. }
    pose proof (canon_nonneg _ _ HcA HLA) as N.
    assert (Ee : 0 <= expo cA k).
    { destruct cA as [[n l] m]. destruct N as (N1 & N2 & N3). unfold expo. destruct (k =? 0); [lia|]. destruct (k =? 1); lia. }
    unfold ovgrad_body. rewrite EL.
    destruct (Z.ltb_spec 0 (v_L vA)) as [HLp|HL0].
    - pose proof read_down as RD. destruct down as [D|] eqn:Ed; [|lia].
      match goal with |- exists h' grad', bind ?X _ = _ /\ _ => set (dn := X) end.
      assert (DN : exists h1 gr1 d, dn = Ok (h1, gr1) /\ same_heap h h1 /\ adims gr1 = [3; sz] /\
         (0 < expo cA k -> d = ovalue Overlap (down_view vA) vB (shift cA k (-1)) cB) /\
         aget gr1 ix = Ok (g - f * IZR (expo cA k) * d)%R /\ forall ix', ix' <> ix -> aget gr1 ix' = aget grad ix').
      { unfold dn. clear dn.
        destruct (bumped_lookup ord h sA sB _ _ i cA k (-1)
           (fun h idx => let* n := get_int h (sh_cart_list sA) (3 * Z.of_nat i + k) in
              let* d := read_at oob D idx in
              let* g := aget grad [k; Z.of_nat i * sh_cart_size sB + Z.of_nat j] in
              let* grad := aset grad [k; Z.of_nat i * sh_cart_size sB + Z.of_nat j] (g - f * IZR n * d)%R in Ok (h, grad))
           CL Hi Hk j HLB Hjl) as (h1 & Sm1 & EE).
        cbv beta in EE. change (- (-1)) with 1 in EE. rewrite EE. clear EE.
        destruct (shift cA k (-1)) as [[n1 n2] n3] eqn:Es.
        destruct (RD D cA cB k j n1 n2 n3 eq_refl HcA Hk Hj Es) as (bra & Eb & Rpos & Rzero). cbv zeta in Rpos, Rzero.
        rewrite Eb, bind_ok.
        pose proof (comp_lists_same _ _ _ _ _ _ Sm1 CL) as (W1 & _ & _ & HA1 & _).
        rewrite (get_comp h1 _ _ i cA k W1 HA1 Hi Hk), bind_ok, EsB.
        assert (Rd : exists d, read_at oob D (v_size vB * bra + Z.of_nat j) = Ok d /\
           (0 < expo cA k -> d = ovalue Overlap (down_view vA) vB (n1, n2, n3) cB)).
        { destruct (Z.eq_dec (expo cA k) 0) as [E0|E0].
          - destruct (Rzero E0) as (_ & Rg). destruct oob as [gg|]; [|destruct Hok as [Hok|[Hok|Hok]]; [congruence|lia|lia]].
            destruct (Rg gg) as (x & Ex). exists x. split; [exact Ex|lia].
          - eexists. split; [apply Rpos; lia|reflexivity]. }
        destruct Rd as (d & Ed' & Hd). rewrite Ed', bind_ok. fold ix. rewrite Hg, bind_ok.
        destruct (aset_get grad ix (g - f * IZR (expo cA k) * d)%R (Iix grad Dg)) as (gr' & E' & D' & V' & F').
        rewrite E', bind_ok. exists h1, gr', d. split; [reflexivity|]. split; [exact Sm1|]. split; [congruence|].
        split; [exact Hd|]. split; [exact V'|exact F']. }
      destruct DN as (h1 & gr1 & d & E1 & Sm1 & D1 & Hd & V1 & F1). rewrite E1, bind_ok.
      destruct (UP h1 gr1 _ Sm1 D1 V1) as (h' & gr' & E' & Sm' & D' & V' & F'). rewrite E'.
      exists h', gr'. split; [reflexivity|]. split; [exact Sm'|]. split; [congruence|].
      split; [rewrite V'; f_equal; apply Gv; [exact Hd|exact Ee]|]. intros ix' Hx. rewrite F', F1 by exact Hx. reflexivity.
    - rewrite bind_ok.
      destruct (UP h grad g (conj W (fun q => eq_refl)) Dg Hg) as (h' & gr' & E' & Sm' & D' & V' & F'). rewrite E'.
      exists h', gr'. split; [reflexivity|]. split; [exact Sm'|]. split; [congruence|].
      split; [|exact F']. rewrite V'. f_equal. rewrite <- (Gv 0%R); [ring| |exact Ee].
      intros Hp. exfalso. destruct cA as [[n l] m]. apply in_canon in HcA. unfold expo in Hp.
      destruct (k =? 0); [lia|]. destruct (k =? 1); lia.
  Qed.

  Lemma body_fail h grad k i j cA cB : comp_lists h sA sB (v_L vA) (v_L vB) ->
    0 <= k < 3 -> nth_error (canon (v_L vA)) i = Some cA -> nth_error (canon (v_L vB)) j = Some cB ->
    oob = None -> 0 < v_L vA -> expo cA k = 0 ->
    ovgrad_body ord oob sA sB down up f k (Z.of_nat i) (Z.of_nat j) (h, grad) = Fail OutOfBounds.
  Proof.
    intros CL Hk Hi Hj Ho HLp He. pose proof CL as (W & EL & _).
    assert (Hjl : (j < length (canon (v_L vB)))%nat) by (apply nth_error_Some; congruence).
    assert (HcA : In cA (canon (v_L vA))) by (eapply nth_error_In; exact Hi).
    unfold ovgrad_body. rewrite EL. destruct (Z.ltb_spec 0 (v_L vA)); [|lia].
    pose proof read_down as RD. destruct down as [D|] eqn:Ed; [|lia].
    destruct (bumped_lookup ord h sA sB _ _ i cA k (-1)
       (fun h idx => let* n := get_int h (sh_cart_list sA) (3 * Z.of_nat i + k) in
          let* d := read_at oob D idx in
          let* g := aget grad [k; Z.of_nat i * sh_cart_size sB + Z.of_nat j] in
          let* grad := aset grad [k; Z.of_nat i * sh_cart_size sB + Z.of_nat j] (g - f * IZR n * d)%R in Ok (h, grad))
       CL Hi Hk j HLB Hjl) as (h1 & Sm1 & EE).
    cbv beta in EE. change (- (-1)) with 1 in EE. rewrite EE. clear EE.
    destruct (shift cA k (-1)) as [[n1 n2] n3] eqn:Es.
    destruct (RD D cA cB k j n1 n2 n3 eq_refl HcA Hk Hj Es) as (bra & Eb & Rpos & Rzero). cbv zeta in Rpos, Rzero.
    rewrite Eb, bind_ok.
    pose proof (comp_lists_same _ _ _ _ _ _ Sm1 CL) as (W1 & _ & _ & HA1 & _).
    rewrite (get_comp h1 _ _ i cA k W1 HA1 Hi Hk), bind_ok, EsB, Ho.
    destruct (Rzero He) as (-> & _). reflexivity.
  Qed.
End Body.
