(** * Specification of the one-electron integrals and the packaged lemmas for
      C16-C23.

    The specification side: contracted Cartesian Gaussians as functions on
    space, iterated integrals over the whole space ([is_int3] of GaussProd.v,
    built on Coquelicot's [is_RInt_gen]) and Coquelicot derivatives. *)

From Coq Require Import ZArith List Lia Bool Reals Lra.
From Coquelicot Require Import Coquelicot.
From Verif Require Import Base GaussInt GaussProd CartModel CartProofs HeapModel HeapProofs HeapSpec
  OneElModel OneElProofs OneElPairs.
Import ListNotations.
Open Scope Z_scope.

(** ** What the functions are *)

(** (2a/pi)^(3/4) (4a)^(L/2) *)
Definition norm_L (L : Z) (a : R) : R := (Rpower (2 * a / PI) (3 / 4) * Rpower (4 * a) (IZR L / 2))%R.

(** (x-X)^n (y-Y)^l (z-Z)^m exp(-a |r-R|^2) *)
Definition gto (o : R * R * R) (c : Z * Z * Z) (a x y z : R) : R :=
  let '(ox, oy, oz) := o in let '(n, l, m) := c in
  ((x - ox) ^ Z.to_nat n * (y - oy) ^ Z.to_nat l * (z - oz) ^ Z.to_nat m *
   exp (- (a * ((x - ox) * (x - ox) + (y - oy) * (y - oy) + (z - oz) * (z - oz)))))%R.

(** the contracted function of component [c] *)
Definition phi (L : Z) (o : R * R * R) (prims : list (R * R)) (c : Z * Z * Z) (x y z : R) : R :=
  lsum (fun '(cf, a) => (cf * norm_L L a * gto o c a x y z)%R) prims.

Definition phi_of (v : sview) : Z * Z * Z -> R -> R -> R -> R := phi (v_L v) (v_origin v) (v_prims v).

(** ** Shells as made by the constructor *)

(** at [p] there is an intact shell with contents [v] whose component list is
    the one for its angular momentum *)
Definition std_shell (h : heap) (p : Z) (v : sview) (comps : list (Z * Z * Z)) : Prop :=
  shell_at h p v /\ 0 <= v_L v /\ v_size v = n_cart (v_L v) /\
  (exists ord, shell_components ord (v_L v) = Ok comps) /\ v_list v = flat3 comps.

Definition exps_pos (v : sview) : Prop := forall c a, In (c, a) (v_prims v) -> (0 < a)%R.

(** the three API calls on heap shells *)
Definition overlap_call (h : heap) (pA pB : Z) (M : arr R) : res (arr R) :=
  let* A := view_shell h pA in let* B := view_shell h pB in overlap_integrals A B M.
Definition kinetic_call (h : heap) (pA pB : Z) (M : arr R) : res (arr R) :=
  let* A := view_shell h pA in let* B := view_shell h pB in kinetic_integrals A B M.
Definition momentum_call (h : heap) (pA pB : Z) (Ms : arr R * arr R * arr R) : res (arr R * arr R * arr R) :=
  let* A := view_shell h pA in let* B := view_shell h pB in momentum_integrals A B Ms.

Lemma new_shell_std ord h origin L n coeffs alpha lc la :
  heap_wf h -> 0 <= L ->
  hblk h coeffs = Some (ODbls lc) -> hblk h alpha = Some (ODbls la) ->
  0 <= n <= Z.of_nat (length lc) -> n <= Z.of_nat (length la) ->
  exists p h' v comps, new_shell ord h origin L n coeffs alpha = Ok (p, h') /\ heap_wf h' /\
    std_shell h' p v comps /\ v_L v = L /\ v_origin v = origin /\
    v_prims v = firstn (Z.to_nat n) (combine lc la) /\
    (forall q o, hblk h q = Some o -> hblk h' q = Some o).
Proof.
  intros W HL Hc Ha Hn Hn2.
  destruct (new_shell_spec ord h origin L n coeffs alpha lc la W HL Hc Ha Hn Hn2)
    as (p & h' & v & E & S & _ & W' & E1 & E2 & E3 & (comps & C1 & C2) & E4 & F & _).
  exists p, h', v, comps. unfold std_shell. rewrite E1.
  split; [exact E|]. split; [exact W'|]. split.
  { split; [exact S|]. split; [exact HL|]. split; [exact E2|]. split; [exists ord; exact C1|exact C2]. }
  auto.
Qed.

(** ** From heap shells to the arrays the routines read *)

Lemma nth_flat3 comps : forall i, (i < length comps)%nat ->
  let '(n, l, m) := nth i comps (0, 0, 0) in
  nth_error (flat3 comps) (3 * i + 0) = Some n /\
  nth_error (flat3 comps) (3 * i + 1) = Some l /\
  nth_error (flat3 comps) (3 * i + 2) = Some m.
Proof.
  induction comps as [|[[n l] m] comps IH]; intros i Hi; [cbn in Hi; lia|].
  destruct i as [|i]; [cbn; auto|]. cbn [nth].
  specialize (IH i ltac:(cbn in Hi; lia)). destruct (nth i comps (0, 0, 0)) as [[n' l'] m'].
  replace (3 * S i + 0)%nat with (S (S (S (3 * i + 0)))) by lia.
  replace (3 * S i + 1)%nat with (S (S (S (3 * i + 1)))) by lia.
  replace (3 * S i + 2)%nat with (S (S (S (3 * i + 2)))) by lia. exact IH.
Qed.

Lemma aget_oflist_error {A} (l : list A) i v : nth_error l i = Some v -> aget (aoflist l) [Z.of_nat i] = Ok v.
Proof.
  intros H. assert (Hi : (i < length l)%nat) by (apply nth_error_Some; congruence).
  apply aget_ok; [apply inb1; lia|]. cbn [aoflist acell].
  replace (Z.of_nat i <? 0) with false by (symmetry; apply Z.ltb_ge; lia). rewrite Nat2Z.id. exact H.
Qed.

Lemma nth_error_firstn_lt {A} (l : list A) : forall n i, (i < n)%nat -> nth_error (firstn n l) i = nth_error l i.
Proof.
  induction l as [|x l IH]; intros n i H; [rewrite firstn_nil; reflexivity|].
  destruct n as [|n]; [lia|]. destruct i as [|i]; [reflexivity|]. cbn. apply IH. lia.
Qed.

Lemma heap_wf_nonzero h p o : heap_wf h -> hblk h p = Some o -> hload h p = Ok o.
Proof.
  intros W H. unfold hload. destruct (p =? 0) eqn:E.
  - apply Z.eqb_eq in E. subst. destruct W as [_ W]. apply W in H. lia.
  - rewrite H. reflexivity.
Qed.

Lemma std_view h p v comps : heap_wf h -> std_shell h p v comps ->
  exists s, view_shell h p = Ok s /\ vshell_is s (v_L v) (v_origin v) (v_prims v) comps /\
    sv_size s = v_size v.
Proof.
  intros W ((s & lc & la & H1 & H2 & H3 & H4 & _ & Hn & Hn2 & EL & ES & EO & EP) & HL & Hsz & (ord & HC) & HF).
  exists (mkV (sh_L s) (sh_cart_size s) (aoflist (v_list v)) (sh_num s) (aoflist lc) (aoflist la) (sh_origin s)).
  split; [|split; [|cbn; congruence]].
  - unfold view_shell, load_shell. rewrite (heap_wf_nonzero h p _ W H1). cbn [bind].
    rewrite (heap_wf_nonzero h _ _ W H2), (heap_wf_nonzero h _ _ W H3), (heap_wf_nonzero h _ _ W H4). reflexivity.
  - destruct (components_complete ord (v_L v) HL) as (l & El & _ & Hin & _ & Hlen).
    rewrite HC in El. injection El as <-.
    split; [cbn; congruence|]. split; [cbn; congruence|].
    assert (Lp : length (v_prims v) = Z.to_nat (sh_num s)).
    { rewrite EP, combine_length, !firstn_length. lia. }
    split; [|split].
    + split; [cbn [sv_num]; lia|]. intros i Hi. cbn [sv_coef sv_alpha].
      assert (Hc : exists c, nth_error lc i = Some c) by (destruct (nth_error lc i) eqn:E; [eauto|apply nth_error_None in E; lia]).
      assert (Ha : exists a, nth_error la i = Some a) by (destruct (nth_error la i) eqn:E; [eauto|apply nth_error_None in E; lia]).
      destruct Hc as (c & Hc). destruct Ha as (a & Ha).
      assert (En : nth i (v_prims v) (0, 0)%R = (c, a)).
      { apply nth_error_nth. rewrite EP. apply nth_error_combine; rewrite nth_error_firstn_lt by lia; assumption. }
      rewrite En. cbn [fst snd]. split; apply aget_oflist_error; assumption.
    + split; [cbn [sv_size]; lia|]. intros i Hi. cbn [sv_cart].
      pose proof (nth_flat3 comps i Hi) as Hn3. rewrite HF.
      destruct (nth i comps (0, 0, 0)) as [[n l] m]. destruct Hn3 as (N0 & N1 & N2).
      replace (3 * Z.of_nat i + 0) with (Z.of_nat (3 * i + 0)) by lia.
      replace (3 * Z.of_nat i + 1) with (Z.of_nat (3 * i + 1)) by lia.
      replace (3 * Z.of_nat i + 2) with (Z.of_nat (3 * i + 2)) by lia.
      split; [|split]; apply aget_oflist_error; assumption.
    + intros n l m Hin'. apply Hin in Hin'. lia.
Qed.

(** ** Any list of shells can be built in one heap (used for the examples) *)

Definition shell_data : Type := Z * (R * R * R) * list (R * R).

Definition has_data (h : heap) (d : shell_data) (p : Z) : Prop :=
  let '(L, o, pr) := d in
  exists v comps, std_shell h p v comps /\ v_L v = L /\ v_origin v = o /\ v_prims v = pr.

Lemma shell_at_old h h' p v : (forall q o, hblk h q = Some o -> hblk h' q = Some o) -> shell_at h p v -> shell_at h' p v.
Proof.
  intros F (s & lc & la & H1 & H2 & H3 & H4 & R0). exists s, lc, la.
  split; [apply F, H1|]. split; [apply F, H2|]. split; [apply F, H3|]. split; [apply F, H4|exact R0].
Qed.

Lemma has_data_old h h' d p : (forall q o, hblk h q = Some o -> hblk h' q = Some o) -> has_data h d p -> has_data h' d p.
Proof.
  intros F. destruct d as [[L o] pr]. intros (v & comps & (S1 & S2) & R0). exists v, comps.
  split; [split; [eapply shell_at_old; eassumption|exact S2]|exact R0].
Qed.

Lemma halloc_wf h o p h' : heap_wf h -> halloc h o = (p, h') ->
  heap_wf h' /\ hblk h' p = Some o /\ (forall q x, hblk h q = Some x -> hblk h' q = Some x).
Proof.
  intros (W1 & W2) E. unfold halloc in E. injection E as <- <-. cbn.
  rewrite Z.eqb_refl. split; [|split; [reflexivity|]].
  - split; [cbn; lia|]. cbn. intros q x. destruct (Z.eqb_spec q (hnext h)); [lia|]. intros H. apply W2 in H. lia.
  - intros q x H. destruct (Z.eqb_spec q (hnext h)); [apply W2 in H; lia|exact H].
Qed.

Lemma shells_exist (ds : list shell_data) : (forall L o pr, In (L, o, pr) ds -> 0 <= L) ->
  exists h ps, heap_wf h /\ Forall2 (has_data h) ds ps.
Proof.
  induction ds as [|[[L o] pr] ds IH]; intros H.
  - exists (mkHeap 1 (fun _ => None)), []. split; [|constructor]. split; [cbn; lia|]. cbn. discriminate.
  - destruct IH as (h & ps & W & F); [intros L' o' pr' Hin; apply (H L' o' pr'); right; exact Hin|].
    destruct (halloc h (ODbls (map fst pr))) as [p1 h1] eqn:E1. destruct (halloc_wf _ _ _ _ W E1) as (W1 & B1 & K1).
    destruct (halloc h1 (ODbls (map snd pr))) as [p2 h2] eqn:E2. destruct (halloc_wf _ _ _ _ W1 E2) as (W2 & B2 & K2).
    destruct (new_shell_std OrderDirac h2 o L (Z.of_nat (length pr)) p1 p2 (map fst pr) (map snd pr) W2)
      as (p & h' & v & comps & E & W' & S & HL & HO & HP & K).
    { apply (H L o pr). left. reflexivity. }
    { apply K2, B1. } { exact B2. } { rewrite map_length. lia. } { rewrite map_length. lia. }
    exists h', (p :: ps). split; [exact W'|]. constructor.
    + exists v, comps. split; [exact S|]. split; [exact HL|]. split; [exact HO|].
      rewrite HP, combine_split_fs, Nat2Z.id, firstn_all. reflexivity.
    + clear - F K K1 K2. induction F as [|d q ds ps Hd F IH]; constructor; [|exact IH].
      eapply has_data_old; [|exact Hd]. intros q' x Hq. apply K, K2, K1, Hq.
Qed.
