(** * Nuclear attraction: parameters ignored by the convenience routines *)

From Coq Require Import ZArith List Lia Bool Reals Lra.
From Verif Require Import Base CartModel CartProofs HeapModel HeapProofs HeapSpec OneElModel OneElProofs OneElSpec OneElInt OneElPairs OneElThms Loops Sums NucModel NucProofs.
Import ListNotations.
Open Scope Z_scope.

(** the potential asked for *)
Definition requested_potential (sf : specfuns) (rt : nuc_routine) (charge : Z) : R -> R :=
  let zn := IZR charge in
  match rt with
  | PointCharge => fun r => coulomb_potential_point r zn
  | Ball r_rms => fun r => coulomb_potential_ball r zn r_rms
  | GaussianModel r_rms => fun r => coulomb_potential_gaussian (sf_erf sf) r zn r_rms
  | Fermi c a => fun r => coulomb_potential_fermi (sf_sk sf) r zn c a
  | FermiBubble c a k => fun r => coulomb_potential_fermi_bubble (sf_sk sf) r zn c a k
  end.

(** the same routine with another value of its last parameter *)
Definition other_last (rt : nuc_routine) (x : R) : nuc_routine :=
  match rt with
  | PointCharge => PointCharge
  | Ball _ => Ball x
  | GaussianModel _ => GaussianModel x
  | Fermi c _ => Fermi c x
  | FermiBubble c a _ => FermiBubble c a x
  end.

Lemma last_ignored sf ev rt x init h pA pB o charge M :
  conv_call sf ev (other_last rt x) init h pA pB o charge M = conv_call sf ev rt init h pA pB o charge M.
Proof. destruct rt; reflexivity. Qed.

(** an integrator that samples the potential at r = 1 *)
Definition sampler : prim_eval :=
  {| pe_point := fun A aA B aB o zeta buf => Ok {| adims := adims buf; acell := fun _ => Some 1%R |};
     pe_local := fun A aA B aB o V buf => Ok {| adims := adims buf; acell := fun _ => Some (V 1%R) |} |}.

Definition sampled (A B : vshell) (o : R * R * R) (V : R -> R) (a b : R) (k : Z) : R := V 1%R.

Lemma sampler_local A B o : local_eval_is sampler A B o (sampled A B o).
Proof.
  intros V aA aB buf D. eexists. split; [reflexivity|]. split; [exact D|]. intros k Hk. apply aget_ok; [|reflexivity].
  cbn [adims]. rewrite D. apply inb1. lia.
Qed.

Lemma sampler_point A B o : point_eval_is sampler A B o (fun _ _ _ _ => 1%R).
Proof.
  intros V aA aB buf D. eexists. split; [reflexivity|]. split; [exact D|]. intros k Hk. apply aget_ok; [|reflexivity].
  cbn [adims]. rewrite D. apply inb1. lia.
Qed.

Lemma ball_at_1 : coulomb_potential_ball 1 1 (1 / 2) = (-1)%R /\ coulomb_potential_ball 1 1 1 <> (-1)%R.
Proof.
  assert (S : (sqrt (5 / 3) * sqrt (5 / 3) = 5 / 3)%R) by (apply sqrt_sqrt; lra).
  assert (P : (0 < sqrt (5 / 3))%R) by (apply sqrt_lt_R0; lra).
  unfold coulomb_potential_ball. set (s := sqrt (5 / 3)) in *. split.
  - destruct (Rle_dec _ _) as [H|H]; [exfalso; nra|]. field.
  - destruct (Rle_dec _ _) as [H|H]; [|exfalso; nra]. intros E.
    replace (s * 1)%R with s in E by ring. rewrite S in E.
    assert (E2 : (- (1) * (3 - 1 * 1 / (5 / 3)) = -1 * (2 * s))%R) by (rewrite <- E; field; lra).
    assert (s = 6 / 5)%R by lra. nra.
Qed.

Lemma ball_refuted : exists ev fl h pA pB vA vB ca cb o charge r_rms M M',
  (forall A B o, local_eval_is ev A B o (fl A B o)) /\ heap_wf h /\ std_shell h pA vA ca /\ std_shell h pB vB cb /\ fits M vA vB /\
  0 < charge /\ (0 < r_rms)%R /\
  forall sf, conv_call sf ev (Ball r_rms) true h pA pB o charge M = Ok M' /\
    ~ integrates fl h pA pB vA vB o (requested_potential sf (Ball r_rms) charge) M M'.
Proof.
  destruct (shells_exist [(0, (0, 0, 0)%R, [(1, 1)%R])]) as (h & ps & W & F).
  { intros L o pr [E | []]. injection E as <- <- <-. lia. }
  inversion F as [|? p ? ? HB' F1]; subst. destruct HB' as (v & comps & Sd & HL & HO & HP).
  assert (N := std_length _ _ _ _ Sd). rewrite HL in N. change (n_cart 0) with 1 in N. rewrite <- (std_size _ _ _ _ Sd) in N.
  assert (Fit : fits (aundef [1]) v v) by (exists 1; split; [reflexivity|]; rewrite N; lia).
  destruct (conv_integrates (mkSpec (fun x => x) (fun _ x => x)) sampler sampled sampler_local (Ball (1 / 2)) h p p v v comps comps (0, 0, 0)%R 1 (aundef [1])
     ltac:(discriminate) W Sd Sd Fit) as (M' & E & (A & B & _ & _ & _ & V & _)).
  exists sampler, sampled, h, p, p, v, v, comps, comps, (0, 0, 0)%R, 1, (1 / 2)%R, (aundef [1]), M'.
  split; [exact sampler_local|]. split; [exact W|]. split; [exact Sd|]. split; [exact Sd|]. split; [exact Fit|].
  split; [lia|]. split; [lra|]. intros sf. split; [exact E|]. intros (A' & B' & _ & _ & _ & V' & _).
  specialize (V 0 ltac:(rewrite N; lia)). specialize (V' 0 ltac:(rewrite N; lia)). rewrite V in V'. injection V' as Eq.
  revert Eq. rewrite HP. unfold pair_sum, lsum, sampled. cbn [fold_right fst snd].
  destruct (Rlt_dec _ _) as [H|H]; [rewrite Rmult_1_l, Rabs_R1 in H; lra|].
  unfold conv_potential, requested_potential. destruct ball_at_1 as (E1 & E2). change (IZR 1) with 1%R. rewrite E1. intros Eq. apply E2. lra.
Qed.

Lemma unknown_refuted : exists h pA pB vA vB ca cb model M,
  heap_wf h /\ std_shell h pA vA ca /\ std_shell h pB vB cb /\ fits M vA vB /\ v_prims vA <> [] /\ v_prims vB <> [] /\
  ~ known_model model /\ forall sf ev o charge mp, exists M', nuc_call sf ev true h pA pB o charge model mp M = Ok M' /\ aget M' [0] = Ok 0%R.
Proof.
  destruct (shells_exist [(0, (0, 0, 0)%R, [(1e-7, 1)%R])]) as (h & ps & W & F).
  { intros L o pr [E | []]. injection E as <- <- <-. lia. }
  inversion F as [|? p ? ? HB' F1]; subst. destruct HB' as (v & comps & Sd & HL & HO & HP).
  assert (N := std_length _ _ _ _ Sd). rewrite HL in N. change (n_cart 0) with 1 in N. rewrite <- (std_size _ _ _ _ Sd) in N.
  assert (Fit : fits (aundef [1]) v v) by (exists 1; split; [reflexivity|]; rewrite N; lia).
  assert (K : ~ known_model 77) by (unfold known_model; lia).
  assert (NS : ~ significant v v).
  { intros (cA & aA & cB & aB & IA & IB & Hb). rewrite HP in IA, IB. destruct IA as [EA | []]. destruct IB as [EB | []].
    injection EA as <- <-. injection EB as <- <-. rewrite Rabs_pos_eq in Hb; lra. }
  exists h, p, p, v, v, comps, comps, 77, (aundef [1]).
  split; [exact W|]. split; [exact Sd|]. split; [exact Sd|]. split; [exact Fit|]. split; [rewrite HP; discriminate|]. split; [rewrite HP; discriminate|].
  split; [exact K|]. intros sf ev o charge mp.
  destruct (unknown_returns sf ev h p p v v comps comps o charge 77 mp (aundef [1]) W Sd Sd Fit K NS) as (M' & E & _ & V & _).
  exists M'. split; [exact E|]. apply (V 0). rewrite N. lia.
Qed.

(** ** The theorems with all parameters spelled out *)

(** every local-potential integral is computed as [fl] *)
Definition local_integrals (ev : prim_eval) (fl : vshell -> vshell -> R * R * R -> (R -> R) -> R -> R -> Z -> R) : Prop :=
  forall A B o, local_eval_is ev A B o (fl A B o).

Lemma general_thm sf ev fl h pA pB vA vB ca cb o charge model mp p M : local_integrals ev fl -> heap_wf h ->
  std_shell h pA vA ca -> std_shell h pB vB cb -> fits M vA vB -> 1 <= model <= 5 -> params_are mp (model_arity model) p ->
  exists M', nuc_call sf ev true h pA pB o charge model mp M = Ok M' /\
    integrates fl h pA pB vA vB o (model_potential sf model (IZR charge) p) M M'.
Proof. intros H. apply nuc_general. exact H. Qed.

Lemma point_thm sf ev fp h pA pB vA vB ca cb o charge M : heap_wf h ->
  std_shell h pA vA ca -> std_shell h pB vB cb -> fits M vA vB ->
  (forall A B o, point_eval_is ev A B o (fp A B o)) ->
  exists M' A B, conv_call sf ev PointCharge true h pA pB o charge M = Ok M' /\ view_shell h pA = Ok A /\ view_shell h pB = Ok B /\
    matrix_is M M' (v_size vA * v_size vB) (fun k => pair_sum (v_prims vA) (v_prims vB) (fun a b => - IZR charge * fp A B o 0 a b k)%R).
Proof. apply conv_point. Qed.

Lemma convenience_thm sf ev fl rt h pA pB vA vB ca cb o charge M : local_integrals ev fl -> rt <> PointCharge -> heap_wf h ->
  std_shell h pA vA ca -> std_shell h pB vB cb -> fits M vA vB ->
  exists M', conv_call sf ev rt true h pA pB o charge M = Ok M' /\
    integrates fl h pA pB vA vB o (conv_potential sf rt charge) M M'.
Proof. intros H. apply conv_integrates. exact H. Qed.

Lemma unknown_thm sf ev h pA pB vA vB ca cb o charge model mp M : heap_wf h ->
  std_shell h pA vA ca -> std_shell h pB vB cb -> fits M vA vB -> ~ known_model model ->
  significant vA vB -> nuc_call sf ev true h pA pB o charge model mp M = Fail ProcessExit.
Proof. apply unknown_exits. Qed.

Lemma unknown_zero_thm sf ev h pA pB vA vB ca cb o charge model mp M : heap_wf h ->
  std_shell h pA vA ca -> std_shell h pB vB cb -> fits M vA vB -> ~ known_model model ->
  ~ significant vA vB -> exists M', nuc_call sf ev true h pA pB o charge model mp M = Ok M' /\
    matrix_is M M' (v_size vA * v_size vB) (fun _ => 0%R).
Proof. apply unknown_returns. Qed.

Lemma uninit_thm sf ev h pA pB vA vB ca cb o charge model mp M : heap_wf h -> std_shell h pA vA ca -> std_shell h pB vB cb ->
  nuc_call sf ev false h pA pB o charge model mp M = Fail AssertFailed.
Proof. apply nuc_uninit. Qed.
