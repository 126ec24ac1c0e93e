(** * Nuclear attraction: which potential is integrated (C48, C56) *)

From Coq Require Import ZArith List Lia Bool Reals Lra.
From Verif Require Import Base CartModel CartProofs HeapModel HeapProofs HeapSpec OneElModel OneElProofs OneElSpec OneElInt OneElPairs OneElThms Loops Sums NucModel.
Import ListNotations.
Open Scope Z_scope.

(** the part of the loop body that fills the buffer for the primitives i, j *)
Definition nuc_fill sf ev (A B : vshell) charge_origin charge model model_params (i j : Z) (buf : arr R) : res (arr R) :=
  if (model =? model_point_charge)%Z then
    let* alpha_A := aget (sv_alpha A) [i] in
    let* alpha_B := aget (sv_alpha B) [j] in
    let* buf := pe_point ev A alpha_A B alpha_B charge_origin 0 buf in
    for_range 0 (sv_size A * sv_size B) (fun k buf =>
      let* v := aget buf [k] in aset buf [k] (v * IZR (-1 * charge))%R) buf
  else if (model =? model_charged_ball)%Z || (model =? model_gaussian)%Z || (model =? model_fermi)%Z
       || (model =? model_fermi_bubble)%Z || (model =? model_point_charge_numerical)%Z then
    let* params := local_params model charge model_params in
    let* V := potential_fun sf model params in
    let* alpha_A := aget (sv_alpha A) [i] in
    let* alpha_B := aget (sv_alpha B) [j] in
    pe_local ev A alpha_A B alpha_B charge_origin V buf
  else Fail ProcessExit.

Definition nuc_loop (fill : Z -> Z -> arr R -> res (arr R)) (init : bool) (A B : vshell) (M : arr R) : res (arr R) :=
  let* _ := massert init in
  let size := (sv_size A * sv_size B)%Z in
  let* M := memset0 size M in
  let* (M, _) :=
    for_range 0 (sv_num A) (fun i st =>
      let* coef_A_i := aget (sv_coef A) [i] in
      for_range 0 (sv_num B) (fun j '(M, buf) =>
        let* coef_B_j := aget (sv_coef B) [j] in
        if Rlt_dec (Rabs (coef_A_i * coef_B_j)) 1e-13 then Ok (M, buf)
        else
          let* buf := fill i j buf in
          let* M := daxpy size (coef_A_i * coef_B_j) buf M in
          Ok (M, buf)) st) (M, aconst [size] 0%R) in
  Ok M.

Lemma nuc_as_loop sf ev init A B o charge model mp M :
  nuclear_attraction_integrals sf ev init A B o charge model mp M = nuc_loop (nuc_fill sf ev A B o charge model mp) init A B M.
Proof. reflexivity. Qed.

(** ** Specification *)

(** sum over pairs of primitives (coefficient, exponent); pairs with a product of
    coefficients below 1e-13 in magnitude are left out *)
Definition pair_sum (la lb : list (R * R)) (e : R -> R -> R) : R :=
  lsum (fun p => lsum (fun q => if Rlt_dec (Rabs (fst p * fst q)) 1e-13 then 0 else fst p * fst q * e (snd p) (snd q))%R lb) la.

(** the integrator of a radially local potential writes the whole buffer with the
    numbers [fl V alpha_A alpha_B k] *)
Definition local_eval_is ev (A B : vshell) o (fl : (R -> R) -> R -> R -> Z -> R) : Prop :=
  forall V aA aB buf, adims buf = [sv_size A * sv_size B] ->
    exists buf', pe_local ev A aA B aB o V buf = Ok buf' /\ adims buf' = [sv_size A * sv_size B] /\
      forall k, 0 <= k < sv_size A * sv_size B -> aget buf' [k] = Ok (fl V aA aB k).

Definition point_eval_is ev (A B : vshell) o (fp : R -> R -> R -> Z -> R) : Prop :=
  forall zeta aA aB buf, adims buf = [sv_size A * sv_size B] ->
    exists buf', pe_point ev A aA B aB o zeta buf = Ok buf' /\ adims buf' = [sv_size A * sv_size B] /\
      forall k, 0 <= k < sv_size A * sv_size B -> aget buf' [k] = Ok (fp zeta aA aB k).

(** the matrix is filled with [g k] and nothing else of the caller's array changes *)
Definition matrix_is (M M' : arr R) (n : Z) (g : Z -> R) : Prop :=
  adims M' = adims M /\ (forall k, 0 <= k < n -> aget M' [k] = Ok (g k)) /\
  (forall ix, (forall k, 0 <= k < n -> ix <> [k]) -> aget M' ix = aget M ix).

Lemma prims_at (s : vshell) l i : holds_prims s l -> 0 <= i < sv_num s ->
  aget (sv_coef s) [i] = Ok (fst (nth (Z.to_nat i) l (0, 0)%R)) /\ aget (sv_alpha s) [i] = Ok (snd (nth (Z.to_nat i) l (0, 0)%R)).
Proof.
  intros (N & H) Hi. destruct (H (Z.to_nat i)) as (H1 & H2); [lia|]. rewrite Z2Nat.id in H1, H2 by lia. split; assumption.
Qed.

Lemma nuc_loop_ok fill (A B : vshell) M sz la lb e : holds_prims A la -> holds_prims B lb -> adims M = [sz] ->
  0 <= sv_size A -> 0 <= sv_size B -> sv_size A * sv_size B <= sz ->
  (forall i j buf, 0 <= i < sv_num A -> 0 <= j < sv_num B -> adims buf = [sv_size A * sv_size B] ->
     (1e-13 <= Rabs (fst (nth (Z.to_nat i) la (0, 0)) * fst (nth (Z.to_nat j) lb (0, 0))))%R ->
     exists buf', fill i j buf = Ok buf' /\ adims buf' = [sv_size A * sv_size B] /\
       forall k, 0 <= k < sv_size A * sv_size B ->
         aget buf' [k] = Ok (e (snd (nth (Z.to_nat i) la (0, 0)%R)) (snd (nth (Z.to_nat j) lb (0, 0)%R)) k)) ->
  exists M', nuc_loop fill true A B M = Ok M' /\ matrix_is M M' (sv_size A * sv_size B) (fun k => pair_sum la lb (fun a b => e a b k)).
Proof.
  intros PA PB DM SA SB Hsz Hf. unfold nuc_loop. cbn [massert bind]. cbv zeta. set (n := sv_size A * sv_size B) in *.
  assert (Hn : 0 <= n) by (unfold n; nia).
  destruct (memset0_get n sz M DM) as (M1 & E1 & D1 & C1 & F1); [lia|]. rewrite E1, bind_ok.
  pose (Inv := fun st : arr R * arr R => adims (fst st) = [sz] /\ adims (snd st) = [n] /\
     (forall k, 0 <= k < n -> readable (fst st) [k]) /\ (forall ix, (forall k, 0 <= k < n -> ix <> [k]) -> aget (fst st) ix = aget M ix)).
  pose (Dom := fun k : Z => 0 <= k < n).
  pose (val := fun (st : arr R * arr R) (k : Z) => cellv (fst st) [k]).
  pose (t := fun i j k => let p := nth (Z.to_nat i) la (0, 0)%R in let q := nth (Z.to_nat j) lb (0, 0)%R in
     (if Rlt_dec (Rabs (fst p * fst q)) 1e-13 then 0 else fst p * fst q * e (snd p) (snd q) k)%R).
  pose proof (proj1 PA) as NA. pose proof (proj1 PB) as NB.
  match goal with |- context [for_range 0 (sv_num A) ?b ?s] =>
    destruct (loop_sum 0 (sv_num A) Inv Dom val (fun i k => zsum 0 (sv_num B) (fun j => t i j k)) b s) as ((M2 & buf2) & E2 & I2 & V2) end.
  - lia.
  - split; [exact D1|]. split; [reflexivity|]. split; [intros k Hk; exists 0%R; apply C1; exact Hk|exact F1].
  - intros i st Hi HI. destruct (prims_at A la i PA Hi) as (Gc & Ga). rewrite Gc, bind_ok.
    apply (loop_sum 0 (sv_num B) Inv Dom val (t i)); [lia|exact HI|].
    intros j (M2 & buf2) Hj (D2 & Db & R2 & F2). destruct (prims_at B lb j PB Hj) as (Gcb & Gab). rewrite Gcb, bind_ok.
    unfold t, val. destruct (Rlt_dec _ _) as [Hlt|Hge].
    + exists (M2, buf2). split; [reflexivity|]. split; [split; [exact D2|]; split; [exact Db|]; split; [exact R2|exact F2]|]. intros k _. ring.
    + destruct (Hf i j buf2 Hi Hj Db (Rnot_lt_le _ _ Hge)) as (buf3 & E3 & D3 & V3). rewrite E3, bind_ok. cbn [fst snd] in *.
      destruct (daxpy_get n n sz (fst (nth (Z.to_nat i) la (0, 0)%R) * fst (nth (Z.to_nat j) lb (0, 0)%R)) buf3 M2 D3 D2 ltac:(lia) ltac:(lia))
        as (M3 & E4 & D4 & V4 & F4).
      { intros k Hk. eexists. apply V3. exact Hk. } { exact R2. }
      rewrite E4, bind_ok. exists (M3, buf3). split; [reflexivity|]. split.
      * split; [exact D4|]. split; [exact D3|]. split; [intros k Hk; eexists; apply V4; exact Hk|]. cbn [fst].
        intros ix Hix. rewrite F4 by exact Hix. apply F2. exact Hix.
      * intros k Hk. cbn [fst]. rewrite (cellv_ok _ _ _ (V4 k Hk)), (cellv_ok _ _ _ (V3 k Hk)). reflexivity.
  - rewrite E2, bind_ok. destruct I2 as (D2 & _ & R2 & F2). exists M2. split; [reflexivity|]. split; [cbn [fst] in D2; congruence|].
    split; [|exact F2]. intros k Hk. rewrite (readable_cellv M2 [k]) by (apply R2; exact Hk). f_equal.
    specialize (V2 k Hk). unfold val in V2. cbn [fst] in V2. rewrite V2, (cellv_ok _ _ _ (C1 k Hk)), Rplus_0_l.
    unfold pair_sum. rewrite NA, NB.
    rewrite <- (zsum_lsum la (0, 0)%R). apply zsum_ext. intros i Hi.
    rewrite <- (zsum_lsum lb (0, 0)%R). reflexivity.
Qed.

(** ** What is integrated for each model code *)

(** specification: the potential of a model code with its documented parameters *)
Definition model_potential (sf : specfuns) (model : Z) (zn : R) (p : Z -> R) : R -> R :=
  fun r =>
  if model =? 1 then coulomb_potential_ball r zn (p 0)
  else if model =? 2 then coulomb_potential_gaussian (sf_erf sf) r zn (p 0)
  else if model =? 3 then coulomb_potential_fermi (sf_sk sf) r zn (p 0) (p 1)
  else if model =? 4 then coulomb_potential_fermi_bubble (sf_sk sf) r zn (p 0) (p 1) (p 2)
  else coulomb_potential_point r zn.

(** number of model parameters the caller has to supply *)
Definition model_arity (model : Z) : Z :=
  if model =? 1 then 1 else if model =? 2 then 1 else if model =? 3 then 2 else if model =? 4 then 3 else 0.

Definition params_are (mp : option (arr R)) (n : Z) (p : Z -> R) : Prop := forall i, 0 <= i < n -> pget mp i = Ok (p i).

Lemma fill_local sf ev (A B : vshell) o charge model mp p la lb fl i j buf : holds_prims A la -> holds_prims B lb ->
  local_eval_is ev A B o fl -> 1 <= model <= 5 -> params_are mp (model_arity model) p ->
  0 <= i < sv_num A -> 0 <= j < sv_num B -> adims buf = [sv_size A * sv_size B] ->
  exists buf', nuc_fill sf ev A B o charge model mp i j buf = Ok buf' /\ adims buf' = [sv_size A * sv_size B] /\
    forall k, 0 <= k < sv_size A * sv_size B -> aget buf' [k] =
      Ok (fl (model_potential sf model (IZR charge) p) (snd (nth (Z.to_nat i) la (0, 0)%R)) (snd (nth (Z.to_nat j) lb (0, 0)%R)) k).
Proof.
  intros PA PB Hev Hm Hp Hi Hj Db. destruct (prims_at A la i PA Hi) as (_ & Ga). destruct (prims_at B lb j PB Hj) as (_ & Gb).
  assert (Hc : model = 1 \/ model = 2 \/ model = 3 \/ model = 4 \/ model = 5) by lia. clear Hm.
  unfold params_are in Hp.
  destruct Hc as [-> | [-> | [-> | [-> | ->]]]]; unfold nuc_fill, local_params, potential_fun; cbn -[aget aset Rmult Rplus pget];
    cbn in Hp.
  all: try rewrite (Hp 0) by lia; cbn -[aget aset Rmult Rplus pget].
  all: try rewrite (Hp 1) by lia; cbn -[aget aset Rmult Rplus pget].
  all: try rewrite (Hp 2) by lia; cbn -[aget aset Rmult Rplus pget].
  all: cbn; rewrite Ga, bind_ok, Gb, bind_ok.
  - exact (Hev (fun r => coulomb_potential_ball r (IZR charge) (p 0)) _ _ buf Db).
  - exact (Hev (fun r => coulomb_potential_gaussian (sf_erf sf) r (IZR charge) (p 0)) _ _ buf Db).
  - exact (Hev (fun r => coulomb_potential_fermi (sf_sk sf) r (IZR charge) (p 0) (p 1)) _ _ buf Db).
  - exact (Hev (fun r => coulomb_potential_fermi_bubble (sf_sk sf) r (IZR charge) (p 0) (p 1) (p 2)) _ _ buf Db).
  - exact (Hev (fun r => coulomb_potential_point r (IZR charge)) _ _ buf Db).
Qed.

Lemma scale_loop n c (buf : arr R) f : 0 <= n -> adims buf = [n] -> (forall k, 0 <= k < n -> aget buf [k] = Ok (f k)) ->
  exists buf', for_range 0 n (fun k buf => let* v := aget buf [k] in aset buf [k] (v * c)%R) buf = Ok buf' /\ adims buf' = [n] /\
    forall k, 0 <= k < n -> aget buf' [k] = Ok (f k * c)%R.
Proof.
  intros Hn D Hf.
  destruct (for_range_ok (fun m b => adims b = [n] /\ (forall k, 0 <= k < m -> aget b [k] = Ok (f k * c)%R) /\
     (forall k, m <= k < n -> aget b [k] = Ok (f k))) 0 n (fun k buf => let* v := aget buf [k] in aset buf [k] (v * c)%R) buf) as (b & E & D' & H1 & _).
  - exact Hn.
  - split; [exact D|]. split; [lia|exact Hf].
  - intros m b Hm (Db & H1 & H2). rewrite (H2 m) by lia. rewrite bind_ok.
    destruct (aset_get b [m] (f m * c)%R) as (b2 & E & D2 & G & F); [rewrite Db, inb1; lia|].
    exists b2. split; [exact E|]. split; [congruence|]. split.
    + intros k Hk. destruct (Z.eq_dec k m) as [-> | Hne]; [exact G|]. rewrite F by congruence. apply H1. lia.
    + intros k Hk. rewrite F by (intros Heq; injection Heq; lia). apply H2. lia.
  - exists b. split; [exact E|]. split; [exact D'|exact H1].
Qed.

Lemma fill_point sf ev (A B : vshell) o charge mp la lb fp i j buf : holds_prims A la -> holds_prims B lb ->
  0 <= sv_size A * sv_size B -> point_eval_is ev A B o fp ->
  0 <= i < sv_num A -> 0 <= j < sv_num B -> adims buf = [sv_size A * sv_size B] ->
  exists buf', nuc_fill sf ev A B o charge 0 mp i j buf = Ok buf' /\ adims buf' = [sv_size A * sv_size B] /\
    forall k, 0 <= k < sv_size A * sv_size B -> aget buf' [k] =
      Ok (fp 0 (snd (nth (Z.to_nat i) la (0, 0))) (snd (nth (Z.to_nat j) lb (0, 0))) k * - IZR charge)%R.
Proof.
  intros PA PB Hn Hev Hi Hj Db. destruct (prims_at A la i PA Hi) as (_ & Ga). destruct (prims_at B lb j PB Hj) as (_ & Gb).
  unfold nuc_fill. change (0 =? model_point_charge)%Z with true. cbv iota. rewrite Ga, bind_ok, Gb, bind_ok.
  destruct (Hev 0%R (snd (nth (Z.to_nat i) la (0, 0)%R)) (snd (nth (Z.to_nat j) lb (0, 0)%R)) buf Db) as (b & E & D & G). rewrite E, bind_ok.
  destruct (scale_loop _ (IZR (-1 * charge)) b _ Hn D G) as (b' & E' & D' & G'). exists b'. split; [exact E'|]. split; [exact D'|].
  intros k Hk. rewrite (G' k Hk). rewrite mult_IZR. f_equal. ring.
Qed.

(** ** Calls on the caller's shells *)

Section Calls.
Variables (sf : specfuns) (ev : prim_eval).

Definition nuc_call (init : bool) (h : heap) (pA pB : Z) o charge model mp M : res (arr R) :=
  let* A := view_shell h pA in
  let* B := view_shell h pB in
  nuclear_attraction_integrals sf ev init A B o charge model mp M.

(** the convenience routines *)
Inductive nuc_routine := PointCharge | Ball (r_rms : R) | GaussianModel (r_rms : R) | Fermi (c a : R) | FermiBubble (c a k : R).

Definition conv_call (rt : nuc_routine) (init : bool) (h : heap) (pA pB : Z) o charge M : res (arr R) :=
  let* A := view_shell h pA in
  let* B := view_shell h pB in
  match rt with
  | PointCharge => nuclear_attraction_point_charge sf ev init A B o charge M
  | Ball r => nuclear_attraction_charged_ball sf ev init A B o charge r M
  | GaussianModel r => nuclear_attraction_gaussian_model sf ev init A B o charge r M
  | Fermi c a => nuclear_attraction_fermi_model sf ev init A B o charge c a M
  | FermiBubble c a k => nuclear_attraction_fermi_bubble_model sf ev init A B o charge c a k M
  end.

(** the matrix holds, for every element, the sum over primitive pairs of the
    integrals of potential [V]; [fl] is what the integrator of a local potential computes *)
Definition integrates (fl : vshell -> vshell -> R * R * R -> (R -> R) -> R -> R -> Z -> R) h pA pB vA vB o (V : R -> R) (M M' : arr R) : Prop :=
  exists A B, view_shell h pA = Ok A /\ view_shell h pB = Ok B /\
    matrix_is M M' (v_size vA * v_size vB) (fun k => pair_sum (v_prims vA) (v_prims vB) (fun a b => fl A B o V a b k)).

Lemma std_prims h p v comps s : heap_wf h -> std_shell h p v comps -> view_shell h p = Ok s ->
  holds_prims s (v_prims v) /\ sv_size s = v_size v /\ 0 <= sv_size s.
Proof.
  intros W Sd V. destruct (std_view h p v comps W Sd) as (s' & V' & (_ & _ & P & _) & Hs). rewrite V in V'. injection V' as <-.
  split; [exact P|]. split; [exact Hs|]. rewrite Hs, (std_size _ _ _ _ Sd). lia.
Qed.

Section Local.
Variable fl : vshell -> vshell -> R * R * R -> (R -> R) -> R -> R -> Z -> R.
Hypothesis Hfl : forall A B o, local_eval_is ev A B o (fl A B o).

(** C48, general routine: the potential integrated is that of the model code with the given parameters *)
Lemma nuc_general h pA pB vA vB ca cb o charge model mp p M : heap_wf h ->
  std_shell h pA vA ca -> std_shell h pB vB cb -> fits M vA vB -> 1 <= model <= 5 -> params_are mp (model_arity model) p ->
  exists M', nuc_call true h pA pB o charge model mp M = Ok M' /\
    integrates fl h pA pB vA vB o (model_potential sf model (IZR charge) p) M M'.
Proof.
  intros W SA SB (sz & DM & Hsz) Hm Hp. unfold nuc_call.
  destruct (std_view h pA vA ca W SA) as (A & VA & _). destruct (std_view h pB vB cb W SB) as (B & VB & _).
  rewrite VA, bind_ok, VB, bind_ok. destruct (std_prims _ _ _ _ _ W SA VA) as (PA & ZA & NA). destruct (std_prims _ _ _ _ _ W SB VB) as (PB & ZB & NB).
  rewrite nuc_as_loop.
  destruct (nuc_loop_ok (nuc_fill sf ev A B o charge model mp) A B M sz (v_prims vA) (v_prims vB)
    (fun a b k => fl A B o (model_potential sf model (IZR charge) p) a b k) PA PB DM NA NB) as (M' & E & HM).
  - rewrite ZA, ZB. exact Hsz.
  - intros i j buf Hi Hj Db _. apply fill_local; try assumption. apply Hfl.
  - exists M'. split; [exact E|]. exists A, B. split; [exact VA|]. split; [exact VB|]. rewrite ZA, ZB in HM. exact HM.
Qed.

Lemma wrapper_get l i : 0 <= i < 10 -> (Z.to_nat i < length l)%nat -> pget (wrapper_params l) i = Ok (nth (Z.to_nat i) l 0%R).
Proof.
  intros Hi Hl. unfold pget, wrapper_params. apply aget_ok; [apply inb1; cbn; lia|]. cbn [acell].
  replace (i <? 0) with false by lia. apply nth_error_nth'. exact Hl.
Qed.

(** the potential each convenience routine really integrates *)
Definition conv_potential (rt : nuc_routine) (charge : Z) : R -> R :=
  let zn := IZR charge in
  match rt with
  | PointCharge => fun r => coulomb_potential_point r zn
  | Ball _ => fun r => coulomb_potential_ball r zn zn
  | GaussianModel _ => fun r => coulomb_potential_gaussian (sf_erf sf) r zn zn
  | Fermi c _ => fun r => coulomb_potential_fermi (sf_sk sf) r zn zn c
  | FermiBubble c a _ => fun r => coulomb_potential_fermi_bubble (sf_sk sf) r zn zn c a
  end.

Lemma conv_integrates rt h pA pB vA vB ca cb o charge M : rt <> PointCharge -> heap_wf h ->
  std_shell h pA vA ca -> std_shell h pB vB cb -> fits M vA vB ->
  exists M', conv_call rt true h pA pB o charge M = Ok M' /\ integrates fl h pA pB vA vB o (conv_potential rt charge) M M'.
Proof.
  intros Hrt W SA SB HM. destruct rt as [|r|r|c a|c a k]; [congruence| | | |].
  - exact (nuc_general h pA pB vA vB ca cb o charge 1 (wrapper_params [IZR charge; r]) (fun i => nth (Z.to_nat i) [IZR charge; r] 0%R) M W SA SB HM
      ltac:(lia) ltac:(intros i Hi; apply wrapper_get; cbn in *; lia)).
  - exact (nuc_general h pA pB vA vB ca cb o charge 2 (wrapper_params [IZR charge; r]) (fun i => nth (Z.to_nat i) [IZR charge; r] 0%R) M W SA SB HM
      ltac:(lia) ltac:(intros i Hi; apply wrapper_get; cbn in *; lia)).
  - exact (nuc_general h pA pB vA vB ca cb o charge 3 (wrapper_params [IZR charge; c; a]) (fun i => nth (Z.to_nat i) [IZR charge; c; a] 0%R) M W SA SB HM
      ltac:(lia) ltac:(intros i Hi; apply wrapper_get; cbn in *; lia)).
  - exact (nuc_general h pA pB vA vB ca cb o charge 4 (wrapper_params [IZR charge; c; a; k]) (fun i => nth (Z.to_nat i) [IZR charge; c; a; k] 0%R) M W SA SB HM
      ltac:(lia) ltac:(intros i Hi; apply wrapper_get; cbn in *; lia)).
Qed.
End Local.

(** point charge: minus the charge times the integrals of 1/r, given by the
    analytic evaluator with a zero exponent *)
Lemma conv_point h pA pB vA vB ca cb o charge M fp : heap_wf h ->
  std_shell h pA vA ca -> std_shell h pB vB cb -> fits M vA vB ->
  (forall A B o, point_eval_is ev A B o (fp A B o)) ->
  exists M' A B, conv_call PointCharge true h pA pB o charge M = Ok M' /\ view_shell h pA = Ok A /\ view_shell h pB = Ok B /\
    matrix_is M M' (v_size vA * v_size vB) (fun k => pair_sum (v_prims vA) (v_prims vB) (fun a b => - IZR charge * fp A B o 0 a b k)%R).
Proof.
  intros W SA SB (sz & DM & Hsz) Hfp. unfold conv_call.
  destruct (std_view h pA vA ca W SA) as (A & VA & _). destruct (std_view h pB vB cb W SB) as (B & VB & _).
  rewrite VA, bind_ok, VB, bind_ok. destruct (std_prims _ _ _ _ _ W SA VA) as (PA & ZA & NA). destruct (std_prims _ _ _ _ _ W SB VB) as (PB & ZB & NB).
  unfold nuclear_attraction_point_charge. rewrite nuc_as_loop.
  destruct (nuc_loop_ok (nuc_fill sf ev A B o charge 0 None) A B M sz (v_prims vA) (v_prims vB)
    (fun a b k => (- IZR charge * fp A B o 0 a b k)%R) PA PB DM NA NB) as (M' & E & HM).
  - rewrite ZA, ZB. exact Hsz.
  - intros i j buf Hi Hj Db _. destruct (fill_point sf ev A B o charge None (v_prims vA) (v_prims vB) (fp A B o) i j buf PA PB) as (b & Eb & D & G); try assumption; [nia|apply Hfp|].
    exists b. split; [exact Eb|]. split; [exact D|]. intros k Hk. rewrite (G k Hk). f_equal. ring.
  - exists M', A, B. split; [exact E|]. split; [reflexivity|]. split; [reflexivity|]. rewrite ZA, ZB in HM. exact HM.
Qed.

(** uninitialised library *)
Lemma nuc_uninit h pA pB vA vB ca cb o charge model mp M : heap_wf h -> std_shell h pA vA ca -> std_shell h pB vB cb ->
  nuc_call false h pA pB o charge model mp M = Fail AssertFailed.
Proof.
  intros W SA SB. unfold nuc_call.
  destruct (std_view h pA vA ca W SA) as (A & VA & _). destruct (std_view h pB vB cb W SB) as (B & VB & _).
  rewrite VA, bind_ok, VB, bind_ok. reflexivity.
Qed.

(** ** C56 *)

Definition known_model (m : Z) : Prop := 0 <= m <= 5.

(** a pair of primitives that is not skipped *)
Definition significant (vA vB : sview) : Prop :=
  exists cA aA cB aB, In (cA, aA) (v_prims vA) /\ In (cB, aB) (v_prims vB) /\ (1e-13 <= Rabs (cA * cB))%R.

Lemma unknown_fill A B o charge model mp i j buf : ~ known_model model -> nuc_fill sf ev A B o charge model mp i j buf = Fail ProcessExit.
Proof.
  intros Hm. unfold known_model in Hm. unfold nuc_fill, model_point_charge, model_charged_ball, model_gaussian, model_fermi, model_fermi_bubble, model_point_charge_numerical.
  destruct (Z.eqb_spec model 0); [lia|]. destruct (Z.eqb_spec model 1); [lia|]. destruct (Z.eqb_spec model 2); [lia|].
  destruct (Z.eqb_spec model 3); [lia|]. destruct (Z.eqb_spec model 4); [lia|]. destruct (Z.eqb_spec model 5); [lia|]. reflexivity.
Qed.

Lemma unknown_exits h pA pB vA vB ca cb o charge model mp M : heap_wf h ->
  std_shell h pA vA ca -> std_shell h pB vB cb -> fits M vA vB -> ~ known_model model ->
  significant vA vB -> nuc_call true h pA pB o charge model mp M = Fail ProcessExit.
Proof.
  intros W SA SB (sz & DM & Hsz) Hm (cA & aA & cB & aB & IA & IB & Hbig). unfold nuc_call.
  destruct (std_view h pA vA ca W SA) as (A & VA & _). destruct (std_view h pB vB cb W SB) as (B & VB & _).
  rewrite VA, bind_ok, VB, bind_ok. destruct (std_prims _ _ _ _ _ W SA VA) as (PA & ZA & NA). destruct (std_prims _ _ _ _ _ W SB VB) as (PB & ZB & NB).
  rewrite nuc_as_loop. unfold nuc_loop. cbn [massert bind]. cbv zeta.
  destruct (memset0_get (sv_size A * sv_size B) sz M DM) as (M1 & E1 & _); [nia|]. rewrite E1, bind_ok.
  pose proof (proj1 PA) as LA. pose proof (proj1 PB) as LB.
  destruct (In_nth _ _ (0, 0)%R IA) as (i & Hi & Ei). destruct (In_nth _ _ (0, 0)%R IB) as (j & Hj & Ej).
  match goal with |- (let* (_, _) := ?F in _) = _ => enough (X : F = Fail ProcessExit) by (rewrite X; reflexivity) end.
  apply (for_range_fail_some (fun _ => True)); [exact I| |].
  - intros k st Hk _. destruct (prims_at A _ k PA Hk) as (Gc & _). rewrite Gc, bind_ok.
    apply (for_range_ok_or (fun _ => True)); [exact I|]. intros m (N & buf) Hm' _.
    destruct (prims_at B _ m PB Hm') as (Gb & _). rewrite Gb, bind_ok.
    destruct (Rlt_dec _ _); [left; eauto|right]. rewrite unknown_fill by exact Hm. reflexivity.
  - exists (Z.of_nat i). split; [lia|]. intros st _. destruct (prims_at A _ (Z.of_nat i) PA ltac:(lia)) as (Gc & _). rewrite Gc, bind_ok.
    apply (for_range_fail_some (fun _ => True)); [exact I| |].
    + intros m (N & buf) Hm' _. destruct (prims_at B _ m PB Hm') as (Gb & _). rewrite Gb, bind_ok.
      destruct (Rlt_dec _ _); [left; eauto|right]. rewrite unknown_fill by exact Hm. reflexivity.
    + exists (Z.of_nat j). split; [lia|]. intros (N & buf) _. destruct (prims_at B _ (Z.of_nat j) PB ltac:(lia)) as (Gb & _). rewrite Gb, bind_ok.
      rewrite !Nat2Z.id, Ei, Ej. cbn [fst]. destruct (Rlt_dec _ _); [lra|]. rewrite unknown_fill by exact Hm. reflexivity.
Qed.

Lemma pair_sum_zero la lb e : (forall cA aA cB aB, In (cA, aA) la -> In (cB, aB) lb -> (Rabs (cA * cB) < 1e-13)%R) -> pair_sum la lb e = 0%R.
Proof.
  intros H. unfold pair_sum. rewrite (lsum_ext _ (fun _ => 0%R)).
  { clear. unfold lsum. induction la as [|x l IH]; [reflexivity|]. cbn. rewrite IH. ring. }
  intros (cA & aA) HA. rewrite (lsum_ext _ (fun _ => 0%R)).
  - clear. induction lb; [reflexivity|]. unfold lsum in *. cbn. rewrite IHlb. ring.
  - intros (cB & aB) HB. cbn [fst snd]. destruct (Rlt_dec _ _); [reflexivity|]. exfalso. eauto.
Qed.

Lemma unknown_returns h pA pB vA vB ca cb o charge model mp M : heap_wf h ->
  std_shell h pA vA ca -> std_shell h pB vB cb -> fits M vA vB -> ~ known_model model ->
  ~ significant vA vB -> exists M', nuc_call true h pA pB o charge model mp M = Ok M' /\
    matrix_is M M' (v_size vA * v_size vB) (fun _ => 0%R).
Proof.
  intros W SA SB (sz & DM & Hsz) Hm Hns. unfold nuc_call.
  destruct (std_view h pA vA ca W SA) as (A & VA & _). destruct (std_view h pB vB cb W SB) as (B & VB & _).
  rewrite VA, bind_ok, VB, bind_ok. destruct (std_prims _ _ _ _ _ W SA VA) as (PA & ZA & NA). destruct (std_prims _ _ _ _ _ W SB VB) as (PB & ZB & NB).
  rewrite nuc_as_loop. pose proof (proj1 PA) as LA. pose proof (proj1 PB) as LB.
  destruct (nuc_loop_ok (nuc_fill sf ev A B o charge model mp) A B M sz (v_prims vA) (v_prims vB)
    (fun a b k => 0%R) PA PB DM NA NB) as (M' & E & HM).
  - rewrite ZA, ZB. exact Hsz.
  - intros i j buf Hi Hj Db Hbig. exfalso. apply Hns.
    exists (fst (nth (Z.to_nat i) (v_prims vA) (0, 0)%R)), (snd (nth (Z.to_nat i) (v_prims vA) (0, 0)%R)),
      (fst (nth (Z.to_nat j) (v_prims vB) (0, 0)%R)), (snd (nth (Z.to_nat j) (v_prims vB) (0, 0)%R)).
    rewrite <- !surjective_pairing. split; [apply nth_In; lia|]. split; [apply nth_In; lia|]. exact Hbig.
  - exists M'. split; [exact E|]. rewrite ZA, ZB in HM. destruct HM as (D & V & F). split; [exact D|]. split; [|exact F].
    intros k Hk. rewrite (V k Hk). f_equal. apply pair_sum_zero. intros cA aA cB aB IA IB.
    destruct (Rlt_dec (Rabs (cA * cB)) 1e-13) as [|Hge]; [assumption|]. exfalso. apply Hns. exists cA, aA, cB, aB. split; [exact IA|]. split; [exact IB|lra].
Qed.
End Calls.
