(** * Packaged lemmas for C16-C23 *)

From Coq Require Import ZArith List Lia Bool Reals Lra.
From Coquelicot Require Import Coquelicot.
From Verif Require Import Base GaussInt GaussProd CartModel CartProofs HeapModel HeapProofs HeapSpec
  OneElModel OneElProofs OneElPairs OneElSpec OneElInt.
Import ListNotations.
Open Scope R_scope.

(** the five matrices a caller can ask for *)
Inductive oneel := Overlap | Kinetic | MomX | MomY | MomZ.

(** calling the routine; for momentum the three output matrices start with the
    same contents and one of them is returned *)
Definition oneel_call (o : oneel) (h : heap) (pA pB : Z) (M : arr R) : res (arr R) :=
  match o with
  | Overlap => overlap_call h pA pB M
  | Kinetic => kinetic_call h pA pB M
  | MomX => let* (x, _, _) := momentum_call h pA pB (M, M, M) in Ok x
  | MomY => let* (_, y, _) := momentum_call h pA pB (M, M, M) in Ok y
  | MomZ => let* (_, _, z) := momentum_call h pA pB (M, M, M) in Ok z
  end.

(** a caller's matrix large enough for the pair *)
Definition fits (M : arr R) (vA vB : sview) : Prop :=
  exists sz, adims M = [sz] /\ (v_size vA * v_size vB <= sz)%Z.

(** element (m, n) of the row-major matrix *)
Definition elem_at (M : arr R) (vB : sview) (m n : nat) : res R :=
  aget M [(Z.of_nat m * v_size vB + Z.of_nat n)%Z].

(** only the elements of the matrix proper are written *)
Definition only_matrix (M M' : arr R) (vA vB : sview) : Prop :=
  adims M' = adims M /\
  forall k, ~ (0 <= k < v_size vA * v_size vB)%Z -> acell M' [k] = acell M [k].

Definition mom_k (o : oneel) : Z := match o with MomY => 1%Z | MomZ => 2%Z | _ => 0%Z end.

Definition oentry (o : oneel) (LA LB : Z) (A B : R * R * R) : Z * Z * Z -> Z * Z * Z -> R -> R -> R :=
  match o with
  | Overlap => ov_entry LA LB A B
  | Kinetic => kin_entry LA LB A B
  | _ => mom_entry LA LB A B (mom_k o)
  end.

(** the value of an element, as computed *)
Definition ovalue (o : oneel) (vA vB : sview) (cA cB : Z * Z * Z) : R :=
  contracted (oentry o (v_L vA) (v_L vB) (v_origin vA) (v_origin vB) cA cB) (v_prims vA) (v_prims vB).

Lemma std_size h p v comps : std_shell h p v comps -> v_size v = Z.of_nat (length comps).
Proof.
  intros (_ & HL & Hsz & (ord & HC) & _). destruct (components_complete ord (v_L v) HL) as (l & El & _ & _ & _ & Hlen).
  rewrite HC in El. injection El as <-. congruence.
Qed.

Lemma oneel_ok o h pA pB vA vB ca cb M : heap_wf h ->
  std_shell h pA vA ca -> std_shell h pB vB cb -> (v_L vA <= 9)%Z -> (v_L vB <= 9)%Z -> fits M vA vB ->
  exists M', oneel_call o h pA pB M = Ok M' /\ only_matrix M M' vA vB /\
    forall m n cA cB, nth_error ca m = Some cA -> nth_error cb n = Some cB ->
      elem_at M' vB m n = Ok (ovalue o vA vB cA cB).
Proof.
  intros W SA SB LA LB (sz & D & Hsz).
  destruct (std_view h pA vA ca W SA) as (sA & EA & IA & ZA).
  destruct (std_view h pB vB cb W SB) as (sB & EB & IB & ZB).
  pose proof (std_size _ _ _ _ SA) as NA. pose proof (std_size _ _ _ _ SB) as NB.
  assert (LA0 : (0 <= v_L vA)%Z) by (destruct SA as (_ & H & _); exact H).
  assert (LB0 : (0 <= v_L vB)%Z) by (destruct SB as (_ & H & _); exact H).
  assert (Fin : forall M' entry, matrix_result sA sB (v_prims vA) (v_prims vB) ca cb M M' sz entry ->
     only_matrix M M' vA vB /\ forall m n cA cB, nth_error ca m = Some cA -> nth_error cb n = Some cB ->
       elem_at M' vB m n = Ok (contracted (entry cA cB) (v_prims vA) (v_prims vB))).
  { intros M' entry (D' & H' & F'). split.
    - split; [congruence|]. intros k Hk. apply F'. rewrite ZA, ZB. intros k' Hk' Eq. injection Eq as ->. lia.
    - intros m n cA cB Em En.
      assert (Hm : (m < length ca)%nat) by (apply nth_error_Some; congruence).
      assert (Hn : (n < length cb)%nat) by (apply nth_error_Some; congruence).
      pose proof (H' m n Hm Hn) as H. rewrite ZB in H.
      rewrite (nth_error_nth _ _ _ Em), (nth_error_nth _ _ _ En) in H.
      unfold elem_at. apply aget_ok; [|exact H]. rewrite D'. apply inb1. nia. }
  unfold oneel_call, overlap_call, kinetic_call, momentum_call. rewrite EA, EB. cbn [bind].
  destruct o.
  - destruct (overlap_result sA sB _ _ _ _ _ _ ca cb IA IB LA0 LB0 M sz LA LB D) as (M' & E' & R'); [lia|].
    exists M'. split; [exact E'|]. apply (Fin M' _ R').
  - destruct (kinetic_result sA sB _ _ _ _ _ _ ca cb IA IB LA0 LB0 M sz LA LB D) as (M' & E' & R'); [lia|].
    exists M'. split; [exact E'|]. apply (Fin M' _ R').
  - destruct (momentum_result sA sB _ _ _ _ _ _ ca cb IA IB LA0 LB0 M M M sz LA LB D D D) as (X & Y & Z' & E' & RX & RY & RZ); [lia|].
    exists X. split; [rewrite E'; reflexivity|]. apply (Fin X _ RX).
  - destruct (momentum_result sA sB _ _ _ _ _ _ ca cb IA IB LA0 LB0 M M M sz LA LB D D D) as (X & Y & Z' & E' & RX & RY & RZ); [lia|].
    exists Y. split; [rewrite E'; reflexivity|]. apply (Fin Y _ RY).
  - destruct (momentum_result sA sB _ _ _ _ _ _ ca cb IA IB LA0 LB0 M M M sz LA LB D D D) as (X & Y & Z' & E' & RX & RY & RZ); [lia|].
    exists Z'. split; [rewrite E'; reflexivity|]. apply (Fin Z' _ RZ).
Qed.

(** ** C16 *)

Lemma oneel_safe o h pA pB vA vB ca cb M : heap_wf h ->
  std_shell h pA vA ca -> std_shell h pB vB cb -> (v_L vA <= 9)%Z -> (v_L vB <= 9)%Z -> fits M vA vB ->
  exists M', oneel_call o h pA pB M = Ok M' /\ only_matrix M M' vA vB /\
    forall m n, (m < length ca)%nat -> (n < length cb)%nat -> exists x, elem_at M' vB m n = Ok x.
Proof.
  intros W SA SB LA LB F. destruct (oneel_ok o h pA pB vA vB ca cb M W SA SB LA LB F) as (M' & E & O & V).
  exists M'. split; [exact E|]. split; [exact O|]. intros m n Hm Hn.
  destruct (nth_error ca m) eqn:Em; [|apply nth_error_None in Em; lia].
  destruct (nth_error cb n) eqn:En; [|apply nth_error_None in En; lia].
  eexists. apply V; eassumption.
Qed.

Lemma oneel_overrun o h pA pB vA vB ca cb M : heap_wf h ->
  std_shell h pA vA ca -> std_shell h pB vB cb -> v_prims vA <> [] -> v_prims vB <> [] -> fits M vA vB ->
  (10 <= v_L vA \/ 10 <= v_L vB)%Z ->
  oneel_call o h pA pB M = Fail OutOfBounds.
Proof.
  intros W SA SB PA PB (sz & D & Hsz) Hbad.
  destruct (std_view h pA vA ca W SA) as (sA & EA & IA & ZA).
  destruct (std_view h pB vB cb W SB) as (sB & EB & IB & ZB).
  assert (LA0 : (0 <= v_L vA)%Z) by (destruct SA as (_ & H & _); exact H).
  assert (LB0 : (0 <= v_L vB)%Z) by (destruct SB as (_ & H & _); exact H).
  rewrite <- ZA, <- ZB in Hsz.
  unfold oneel_call, overlap_call, kinetic_call, momentum_call. rewrite EA, EB. cbn [bind].
  destruct o.
  - apply (overlap_fail sA sB _ _ _ _ _ _ ca cb IA IB LA0 LB0 Hbad PA PB M sz D Hsz).
  - apply (kinetic_fail sA sB _ _ _ _ _ _ ca cb IA IB LA0 LB0 Hbad PA PB M sz D Hsz).
  - rewrite (momentum_fail sA sB _ _ _ _ _ _ ca cb IA IB LA0 LB0 Hbad PA PB M M M sz D D D Hsz). reflexivity.
  - rewrite (momentum_fail sA sB _ _ _ _ _ _ ca cb IA IB LA0 LB0 Hbad PA PB M M M sz D D D Hsz). reflexivity.
  - rewrite (momentum_fail sA sB _ _ _ _ _ _ ca cb IA IB LA0 LB0 Hbad PA PB M M M sz D D D Hsz). reflexivity.
Qed.

(** ** C17, C19, C20: the elements are the integrals *)

Lemma std_nonneg h p v comps c : std_shell h p v comps -> In c comps -> nonneg3 c.
Proof.
  intros (_ & HL & _ & (ord & HC) & _) Hin. destruct (components_complete ord (v_L v) HL) as (l & El & _ & Hi & _).
  rewrite HC in El. injection El as <-. destruct c as [[n l'] m]. apply Hi in Hin. unfold nonneg3. lia.
Qed.

Lemma overlap_true h pA pB vA vB ca cb M : heap_wf h ->
  std_shell h pA vA ca -> std_shell h pB vB cb -> (v_L vA <= 9)%Z -> (v_L vB <= 9)%Z ->
  exps_pos vA -> exps_pos vB -> fits M vA vB ->
  exists M', oneel_call Overlap h pA pB M = Ok M' /\ only_matrix M M' vA vB /\
    forall m n cA cB, nth_error ca m = Some cA -> nth_error cb n = Some cB ->
      exists s, elem_at M' vB m n = Ok s /\
        is_int3 (fun x y z => phi_of vA cA x y z * phi_of vB cB x y z) s.
Proof.
  intros W SA SB LA LB XA XB F. destruct (oneel_ok Overlap h pA pB vA vB ca cb M W SA SB LA LB F) as (M' & E & O & V).
  exists M'. split; [exact E|]. split; [exact O|]. intros m n cA cB Em En.
  eexists. split; [apply V; eassumption|]. unfold ovalue, oentry.
  eapply is_int3_ext; [|apply (contr_int3 (pfun (v_L vA) (v_origin vA) cA) (pfun (v_L vB) (v_origin vB) cB)
       (v_prims vA) (v_prims vB)); [exact XA|exact XB|]].
  - intros x y z. unfold phi_of. rewrite <- !phi_contr. reflexivity.
  - intros aA aB HA HB. apply ov_entry_int; assumption.
Qed.

Lemma kinetic_true h pA pB vA vB ca cb M : heap_wf h ->
  std_shell h pA vA ca -> std_shell h pB vB cb -> (v_L vA <= 9)%Z -> (v_L vB <= 9)%Z ->
  exps_pos vA -> exps_pos vB -> fits M vA vB ->
  exists M', oneel_call Kinetic h pA pB M = Ok M' /\ only_matrix M M' vA vB /\
    forall m n cA cB, nth_error ca m = Some cA -> nth_error cb n = Some cB ->
      exists lap t, is_laplacian (phi_of vB cB) lap /\ elem_at M' vB m n = Ok t /\
        is_int3 (fun x y z => phi_of vA cA x y z * (- (1 / 2) * lap x y z)) t.
Proof.
  intros W SA SB LA LB XA XB F. destruct (oneel_ok Kinetic h pA pB vA vB ca cb M W SA SB LA LB F) as (M' & E & O & V).
  exists M'. split; [exact E|]. split; [exact O|]. intros m n cA cB Em En.
  do 2 eexists. split; [apply phi_laplacian|]. split; [apply V; eassumption|]. unfold ovalue, oentry.
  eapply is_int3_ext; [|apply (contr_int3 (pfun (v_L vA) (v_origin vA) cA)
       (fun a x y z => - (1 / 2) * lap_pfun (v_L vB) (v_origin vB) cB a x y z)
       (v_prims vA) (v_prims vB)); [exact XA|exact XB|]].
  - intros x y z. unfold phi_of. rewrite <- !phi_contr. f_equal. unfold contr. rewrite <- lsum_scal.
    apply lsum_ext. intros [c a] _. cbn [fst snd]. ring.
  - intros aA aB HA HB. apply kin_entry_int; try assumption. apply (std_nonneg _ _ _ _ _ SA). eapply nth_error_In, Em.
Qed.

Lemma momentum_true o h pA pB vA vB ca cb M : o = MomX \/ o = MomY \/ o = MomZ -> heap_wf h ->
  std_shell h pA vA ca -> std_shell h pB vB cb -> (v_L vA <= 9)%Z -> (v_L vB <= 9)%Z ->
  exps_pos vA -> exps_pos vB -> fits M vA vB ->
  exists M', oneel_call o h pA pB M = Ok M' /\ only_matrix M M' vA vB /\
    forall m n cA cB, nth_error ca m = Some cA -> nth_error cb n = Some cB ->
      exists d t, is_partial (mom_k o) (phi_of vB cB) d /\ elem_at M' vB m n = Ok (- t) /\
        is_int3 (fun x y z => phi_of vA cA x y z * d x y z) t.
Proof.
  intros Ho W SA SB LA LB XA XB F. destruct (oneel_ok o h pA pB vA vB ca cb M W SA SB LA LB F) as (M' & E & O & V).
  exists M'. split; [exact E|]. split; [exact O|]. intros m n cA cB Em En.
  assert (Hk : (0 <= mom_k o < 3)%Z) by (destruct o; cbn; lia).
  exists (contr (dpfun (mom_k o) (v_L vB) (v_origin vB) cB) (v_prims vB)), (- ovalue o vA vB cA cB).
  split; [apply phi_partial, Hk|]. split; [rewrite Ropp_involutive; apply V; eassumption|].
  assert (H : is_int3 (fun x y z => contr (pfun (v_L vA) (v_origin vA) cA) (v_prims vA) x y z *
     contr (fun a x y z => - 1 * dpfun (mom_k o) (v_L vB) (v_origin vB) cB a x y z) (v_prims vB) x y z) (ovalue o vA vB cA cB)).
  { unfold ovalue, oentry. apply contr_int3; [exact XA|exact XB|]. intros aA aB HA HB.
    assert (N : nonneg3 cA) by (apply (std_nonneg _ _ _ _ _ SA); eapply nth_error_In, Em).
    destruct Ho as [-> | [-> | ->]]; apply mom_entry_int; assumption. }
  apply (is_int3_scal _ (- 1)) in H.
  eapply is_int3_ext; [|eapply is_int3_eq; [exact H|ring]].
  intros x y z. cbv beta. unfold phi_of. rewrite <- phi_contr.
  match goal with |- ?u = ?f * ?d => transitivity (f * (- 1 * (- 1 * d))); [|ring] end.
  rewrite <- Rmult_assoc, (Rmult_comm (- 1)), Rmult_assoc. f_equal. f_equal.
  unfold contr. rewrite <- lsum_scal. apply lsum_ext. intros [c a] _. cbn [fst snd]. ring.
Qed.

(** ** C18-C20: exchanging the shells *)

Lemma osv_sym aA aB A B c i j : 0 < aA -> 0 < aB -> osv aA aB A B c i j = osv aB aA B A c j i.
Proof.
  intros HA HB. eapply is_int_unique; [apply (osv_int aA aB A B HA HB)|].
  apply (is_int_ext (fun x => cgZ aB B c j x * cgZ aA A c i x)); [intros; ring|]. apply osv_int; assumption.
Qed.

Lemma d2v_sym aA aB A B c i j : (0 <= i)%Z -> (0 <= j)%Z -> 0 < aA -> 0 < aB -> d2v aA aB A B c i j = d2v aB aA B A c j i.
Proof.
  intros Hi Hj HA HB. eapply is_int_unique; [apply (d2v_int aA aB A B HA HB c i j Hi)|].
  apply d2cg_move; [exact HA|exact HB|].
  apply (is_int_ext (fun x => cgZ aB B c j x * d2cgZ aA A c i x)); [unfold cgZ, d2cgZ; intros; ring|].
  apply d2v_int; assumption.
Qed.

Lemma d1v_anti aA aB A B c i j : (0 <= i)%Z -> (0 <= j)%Z -> 0 < aA -> 0 < aB -> d1v aA aB A B c i j = - d1v aB aA B A c j i.
Proof.
  intros Hi Hj HA HB. eapply is_int_unique; [apply (d1v_int aA aB A B HA HB c i j Hi)|].
  apply int_by_parts1; [exact HA|exact HB|].
  apply (is_int_ext (fun x => cgZ aB B c j x * dcgZ aA A c i x)); [unfold cgZ, dcgZ; intros; ring|].
  apply d1v_int; assumption.
Qed.

(** the sign of the transposed matrix *)
Definition osign (o : oneel) : R := match o with Overlap | Kinetic => 1 | _ => - 1 end.

Lemma oentry_swap o LA LB A B cA cB aA aB : nonneg3 cA -> nonneg3 cB -> 0 < aA -> 0 < aB ->
  oentry o LA LB A B cA cB aA aB = osign o * oentry o LB LA B A cB cA aB aA.
Proof.
  intros NA NB HA HB. destruct cA as [[nA lA] mA]. destruct cB as [[nB lB] mB].
  destruct NA as (A1 & A2 & A3). destruct NB as (B1 & B2 & B3).
  assert (E0 : forall c i j, osv aA aB A B c i j = osv aB aA B A c j i) by (intros; apply osv_sym; assumption).
  assert (P : forall k c i j, (0 <= i)%Z -> (0 <= j)%Z -> pick A B k c aA aB i j =
     (if (k =? c)%Z then - 1 else 1) * pick B A k c aB aA j i).
  { intros k c i j Hi Hj. unfold pick. destruct (k =? c)%Z.
    - rewrite d1v_anti by assumption. ring.
    - rewrite E0. ring. }
  destruct o; cbn [oentry osign mom_k]; unfold ov_entry, kin_entry, mom_entry.
  - rewrite !E0. ring.
  - rewrite !E0. rewrite !(d2v_sym aA aB A B) by assumption. ring.
  - rewrite !P by assumption. cbn [Z.eqb Pos.eqb]. ring.
  - rewrite !P by assumption. cbn [Z.eqb Pos.eqb]. ring.
  - rewrite !P by assumption. cbn [Z.eqb Pos.eqb]. ring.
Qed.

Lemma lsum_swap {A B} (f : A -> B -> R) la lb : lsum (fun x => lsum (fun y => f x y) lb) la = lsum (fun y => lsum (fun x => f x y) la) lb.
Proof.
  induction la as [|x la IH].
  - change (0 = lsum (fun _ : B => 0) lb). induction lb as [|y lb IHb]; [reflexivity|]. rewrite lsum_cons, <- IHb. ring.
  - rewrite lsum_cons, IH, <- lsum_plus. apply lsum_ext. intros y _. reflexivity.
Qed.

Lemma contracted_alt val la lb : contracted val la lb = lsum (fun p => lsum (fun q => fst p * fst q * val (snd p) (snd q)) lb) la.
Proof. unfold contracted. apply lsum_ext. intros [c a] _. apply lsum_ext. intros [c' a'] _. reflexivity. Qed.

Lemma contracted_ext (P Q : R -> Prop) v1 v2 la lb : (forall c a, In (c, a) la -> P a) -> (forall c a, In (c, a) lb -> Q a) ->
  (forall a b, P a -> Q b -> v1 a b = v2 a b) -> contracted v1 la lb = contracted v2 la lb.
Proof.
  intros HA HB H. rewrite !contracted_alt. apply lsum_ext. intros [c a] Hin. apply lsum_ext. intros [c' a'] Hin'.
  cbn [fst snd]. rewrite H; [reflexivity|eapply HA, Hin|eapply HB, Hin'].
Qed.

Lemma contracted_swap v la lb : contracted v la lb = contracted (fun a b => v b a) lb la.
Proof.
  rewrite !contracted_alt, lsum_swap. apply lsum_ext. intros q _. apply lsum_ext. intros p _. ring.
Qed.

Lemma contracted_scal k v la lb : contracted (fun a b => k * v a b) la lb = k * contracted v la lb.
Proof.
  rewrite !contracted_alt, <- lsum_scal. apply lsum_ext. intros p _. rewrite <- lsum_scal. apply lsum_ext. intros q _. ring.
Qed.

Lemma ovalue_swap o h pA pB vA vB ca cb cA cB : std_shell h pA vA ca -> std_shell h pB vB cb ->
  exps_pos vA -> exps_pos vB -> In cA ca -> In cB cb ->
  ovalue o vA vB cA cB = osign o * ovalue o vB vA cB cA.
Proof.
  intros SA SB XA XB IA IB. unfold ovalue. rewrite contracted_swap, <- contracted_scal.
  apply (contracted_ext (fun a => 0 < a) (fun a => 0 < a)); [exact XB|exact XA|].
  intros a b Ha Hb. apply oentry_swap; [apply (std_nonneg _ _ _ _ _ SA IA)|apply (std_nonneg _ _ _ _ _ SB IB)|exact Hb|exact Ha].
Qed.

Lemma oneel_transpose o h pA pB vA vB ca cb M N X Y : heap_wf h ->
  std_shell h pA vA ca -> std_shell h pB vB cb -> (v_L vA <= 9)%Z -> (v_L vB <= 9)%Z ->
  exps_pos vA -> exps_pos vB -> fits M vA vB -> fits N vB vA ->
  oneel_call o h pA pB M = Ok X -> oneel_call o h pB pA N = Ok Y ->
  forall m n, (m < length ca)%nat -> (n < length cb)%nat ->
    exists x, elem_at X vB m n = Ok (osign o * x) /\ elem_at Y vA n m = Ok x.
Proof.
  intros W SA SB LA LB XA XB FM FN EX EY m n Hm Hn.
  destruct (oneel_ok o h pA pB vA vB ca cb M W SA SB LA LB FM) as (M' & E & _ & V).
  destruct (oneel_ok o h pB pA vB vA cb ca N W SB SA LB LA FN) as (N' & E' & _ & V').
  rewrite EX in E. injection E as <-. rewrite EY in E'. injection E' as <-.
  destruct (nth_error ca m) as [cA|] eqn:Em; [|apply nth_error_None in Em; lia].
  destruct (nth_error cb n) as [cB|] eqn:En; [|apply nth_error_None in En; lia].
  exists (ovalue o vB vA cB cA). split; [|apply V'; assumption].
  rewrite (V m n cA cB Em En). f_equal.
  apply (ovalue_swap o h pA pB vA vB ca cb cA cB SA SB XA XB); eapply nth_error_In; eassumption.
Qed.

(** ** C21 *)

Definition shift3 (o t : R * R * R) : R * R * R :=
  let '(x, y, z) := o in let '(a, b, c) := t in (x + a, y + b, z + c).

(** [v'] is [v] moved by [t] *)
Definition moved (v v' : sview) (t : R * R * R) : Prop :=
  v_L v' = v_L v /\ v_prims v' = v_prims v /\ v_origin v' = shift3 (v_origin v) t.

Lemma coord3_shift o t c : coord3 (shift3 o t) c = coord3 o c + coord3 t c.
Proof. destruct o as [[x y] z]. destruct t as [[a b] d]. unfold coord3, shift3. destruct (c =? 0)%Z; [|destruct (c =? 1)%Z]; reflexivity. Qed.

Lemma os_pair_shift a A b B t i j : 0 < a -> 0 < b -> os_pair a (A + t) b (B + t) i j = os_pair a A b B i j.
Proof.
  intros Ha Hb. unfold os_pair. cbv zeta.
  replace ((a * (A + t) + b * (B + t)) / (a + b) - (A + t)) with ((a * A + b * B) / (a + b) - A) by (field; lra).
  replace ((a * (A + t) + b * (B + t)) / (a + b) - (B + t)) with ((a * A + b * B) / (a + b) - B) by (field; lra).
  replace (A + t - (B + t)) with (A - B) by ring. reflexivity.
Qed.

Lemma osv_shift aA aB A B t c i j : 0 < aA -> 0 < aB -> osv aA aB (shift3 A t) (shift3 B t) c i j = osv aA aB A B c i j.
Proof. intros HA HB. unfold osv. rewrite !coord3_shift. apply os_pair_shift; assumption. Qed.

Lemma oentry_shift o LA LB A B t cA cB aA aB : 0 < aA -> 0 < aB ->
  oentry o LA LB (shift3 A t) (shift3 B t) cA cB aA aB = oentry o LA LB A B cA cB aA aB.
Proof.
  intros HA HB. destruct cA as [[nA lA] mA]. destruct cB as [[nB lB] mB].
  assert (E0 : forall c i j, osv aA aB (shift3 A t) (shift3 B t) c i j = osv aA aB A B c i j) by (intros; apply osv_shift; assumption).
  assert (E2 : forall c i j, d2v aA aB (shift3 A t) (shift3 B t) c i j = d2v aA aB A B c i j).
  { intros. unfold d2v. rewrite !E0. reflexivity. }
  assert (E1 : forall c i j, d1v aA aB (shift3 A t) (shift3 B t) c i j = d1v aA aB A B c i j).
  { intros. unfold d1v. rewrite !E0. reflexivity. }
  assert (P : forall k c i j, pick (shift3 A t) (shift3 B t) k c aA aB i j = pick A B k c aA aB i j).
  { intros. unfold pick. destruct (k =? c)%Z; auto. }
  destruct o; cbn [oentry]; unfold ov_entry, kin_entry, mom_entry; rewrite ?E0, ?E2, ?P; reflexivity.
Qed.

Lemma comps_same_L h p v c h' p' v' c' : std_shell h p v c -> std_shell h' p' v' c' -> v_L v' = v_L v ->
  c' = c /\ v_size v' = v_size v.
Proof.
  intros (_ & HL & Hs & (ord & HC) & _) (_ & HL' & Hs' & (ord' & HC') & _) E. rewrite E in *. split; [|congruence].
  assert (forall o o', shell_components o (v_L v) = shell_components o' (v_L v)).
  { intros [] []; try reflexivity; [apply orders_coincide|symmetry; apply orders_coincide]. }
  rewrite (H ord' ord) in HC'. congruence.
Qed.

Lemma oneel_translation o h pA pB pA' pB' vA vB vA' vB' ca cb ca' cb' t M X X' : heap_wf h ->
  std_shell h pA vA ca -> std_shell h pB vB cb -> std_shell h pA' vA' ca' -> std_shell h pB' vB' cb' ->
  moved vA vA' t -> moved vB vB' t -> (v_L vA <= 9)%Z -> (v_L vB <= 9)%Z ->
  exps_pos vA -> exps_pos vB -> fits M vA vB ->
  oneel_call o h pA pB M = Ok X -> oneel_call o h pA' pB' M = Ok X' ->
  forall k, acell X' [k] = acell X [k].
Proof.
  intros W SA SB SA' SB' (LA' & PA' & OA') (LB' & PB' & OB') LA LB XA XB F E E' k.
  destruct (comps_same_L _ _ _ _ _ _ _ _ SA SA' LA') as (-> & ZA).
  destruct (comps_same_L _ _ _ _ _ _ _ _ SB SB' LB') as (-> & ZB).
  assert (F' : fits M vA' vB') by (destruct F as (sz & D & H); exists sz; rewrite ZA, ZB; auto).
  destruct (oneel_ok o h pA pB vA vB ca cb M W SA SB LA LB F) as (Y & EY & (OD & OF) & V).
  destruct (oneel_ok o h pA' pB' vA' vB' ca cb M W SA' SB' ltac:(lia) ltac:(lia) F') as (Y' & EY' & (OD' & OF') & V').
  rewrite E in EY. injection EY as <-. rewrite E' in EY'. injection EY' as <-.
  destruct (Z_le_dec 0 k) as [H0|H0]; [destruct (Z_lt_dec k (v_size vA * v_size vB)) as [H1|H1]|].
  2,3: rewrite OF, OF' by (rewrite ?ZA, ?ZB; lia); reflexivity.
  pose proof (std_size _ _ _ _ SA) as NA. pose proof (std_size _ _ _ _ SB) as NB.
  assert (Hb : (0 < v_size vB)%Z) by nia.
  pose proof (Z.div_mod k (v_size vB) ltac:(lia)) as Ek. pose proof (Z.mod_pos_bound k (v_size vB) Hb) as Hm.
  assert (Hq : (0 <= k / v_size vB < v_size vA)%Z).
  { split; [apply Z.div_pos; lia|]. apply Z.div_lt_upper_bound; lia. }
  destruct (nth_error ca (Z.to_nat (k / v_size vB))) as [cA|] eqn:Em; [|apply nth_error_None in Em; lia].
  destruct (nth_error cb (Z.to_nat (k mod v_size vB))) as [cB|] eqn:En; [|apply nth_error_None in En; lia].
  pose proof (V _ _ _ _ Em En) as G. pose proof (V' _ _ _ _ Em En) as G'. unfold elem_at in G, G'.
  rewrite ZB in G'. rewrite !Z2Nat.id in G, G' by lia.
  replace (k / v_size vB * v_size vB + k mod v_size vB)%Z with k in G, G' by lia.
  apply aget_inv in G. apply aget_inv in G'. destruct G as (_ & ->). destruct G' as (_ & ->). f_equal.
  unfold ovalue. rewrite LA', LB', PA', PB', OA', OB'.
  apply (contracted_ext (fun a => 0 < a) (fun a => 0 < a)); [exact XA|exact XB|].
  intros a b Ha Hb'. apply oentry_shift; assumption.
Qed.

(** ** C22 *)

(** [v] is the contraction [v1] followed by [v2], on the same centre *)
Definition concatenated (v1 v2 v : sview) : Prop :=
  v_L v = v_L v1 /\ v_L v = v_L v2 /\ v_origin v = v_origin v1 /\ v_origin v = v_origin v2 /\
  v_prims v = v_prims v1 ++ v_prims v2.

(** [v'] is [v] with every contraction coefficient multiplied by [k] *)
Definition scaled (k : R) (v v' : sview) : Prop :=
  v_L v' = v_L v /\ v_origin v' = v_origin v /\ v_prims v' = map (fun '(c, a) => (k * c, a)) (v_prims v).

Lemma contracted_app_l v l1 l2 lb : contracted v (l1 ++ l2) lb = contracted v l1 lb + contracted v l2 lb.
Proof. unfold contracted. apply lsum_app. Qed.

Lemma contracted_app_r v la l1 l2 : contracted v la (l1 ++ l2) = contracted v la l1 + contracted v la l2.
Proof. rewrite contracted_swap, contracted_app_l. rewrite !(contracted_swap v la). reflexivity. Qed.

Lemma contracted_map_l k v la lb : contracted v (map (fun '(c, a) => (k * c, a)) la) lb = k * contracted v la lb.
Proof.
  rewrite !contracted_alt, lsum_map, <- lsum_scal. apply lsum_ext. intros [c a] _. rewrite <- lsum_scal.
  apply lsum_ext. intros q _. cbn [fst snd]. ring.
Qed.

Lemma contracted_map_r k v la lb : contracted v la (map (fun '(c, a) => (k * c, a)) lb) = k * contracted v la lb.
Proof. rewrite contracted_swap, contracted_map_l, <- (contracted_swap v). reflexivity. Qed.

Lemma shape_of h p v comps p1 v1 comps1 : std_shell h p v comps -> std_shell h p1 v1 comps1 -> v_L v = v_L v1 ->
  comps = comps1 /\ v_size v = v_size v1.
Proof. intros S1 S2 E. apply (comps_same_L _ _ _ _ _ _ _ _ S2 S1 E). Qed.

Lemma oneel_add_bra o h pA pA1 pA2 pB vA vA1 vA2 vB ca ca1 ca2 cb M X X1 X2 : heap_wf h ->
  std_shell h pA vA ca -> std_shell h pA1 vA1 ca1 -> std_shell h pA2 vA2 ca2 -> std_shell h pB vB cb ->
  concatenated vA1 vA2 vA -> (v_L vA <= 9)%Z -> (v_L vB <= 9)%Z -> fits M vA vB ->
  oneel_call o h pA pB M = Ok X -> oneel_call o h pA1 pB M = Ok X1 -> oneel_call o h pA2 pB M = Ok X2 ->
  forall m n, (m < length ca)%nat -> (n < length cb)%nat ->
    exists x1 x2, elem_at X1 vB m n = Ok x1 /\ elem_at X2 vB m n = Ok x2 /\ elem_at X vB m n = Ok (x1 + x2).
Proof.
  intros W SA SA1 SA2 SB (L1 & L2 & O1 & O2 & P) LA LB (sz & D & Hsz) E E1 E2 m n Hm Hn.
  destruct (shape_of _ _ _ _ _ _ _ SA SA1 L1) as (<- & Z1). destruct (shape_of _ _ _ _ _ _ _ SA SA2 L2) as (<- & Z2).
  destruct (oneel_ok o h pA pB vA vB ca cb M W SA SB LA LB) as (Y & EY & _ & V); [exists sz; auto|].
  destruct (oneel_ok o h pA1 pB vA1 vB ca cb M W SA1 SB ltac:(lia) LB) as (Y1 & EY1 & _ & V1); [exists sz; rewrite <- Z1; auto|].
  destruct (oneel_ok o h pA2 pB vA2 vB ca cb M W SA2 SB ltac:(lia) LB) as (Y2 & EY2 & _ & V2); [exists sz; rewrite <- Z2; auto|].
  rewrite E in EY. injection EY as <-. rewrite E1 in EY1. injection EY1 as <-. rewrite E2 in EY2. injection EY2 as <-.
  destruct (nth_error ca m) as [cA|] eqn:Em; [|apply nth_error_None in Em; lia].
  destruct (nth_error cb n) as [cB|] eqn:En; [|apply nth_error_None in En; lia].
  do 2 eexists. split; [apply (V1 m n cA cB Em En)|]. split; [apply (V2 m n cA cB Em En)|].
  rewrite (V m n cA cB Em En). f_equal. unfold ovalue. rewrite <- L1, <- L2, <- O1, <- O2, P. apply contracted_app_l.
Qed.

Lemma oneel_scale_bra o h pA pA1 pB vA vA1 vB ca ca1 cb k M X X1 : heap_wf h ->
  std_shell h pA vA ca -> std_shell h pA1 vA1 ca1 -> std_shell h pB vB cb ->
  scaled k vA vA1 -> (v_L vA <= 9)%Z -> (v_L vB <= 9)%Z -> fits M vA vB ->
  oneel_call o h pA pB M = Ok X -> oneel_call o h pA1 pB M = Ok X1 ->
  forall m n, (m < length ca)%nat -> (n < length cb)%nat ->
    exists x, elem_at X vB m n = Ok x /\ elem_at X1 vB m n = Ok (k * x).
Proof.
  intros W SA SA1 SB (L1 & O1 & P) LA LB (sz & D & Hsz) E E1 m n Hm Hn.
  destruct (shape_of _ _ _ _ _ _ _ SA1 SA L1) as (-> & Z1).
  destruct (oneel_ok o h pA pB vA vB ca cb M W SA SB LA LB) as (Y & EY & _ & V); [exists sz; auto|].
  destruct (oneel_ok o h pA1 pB vA1 vB ca cb M W SA1 SB ltac:(lia) LB) as (Y1 & EY1 & _ & V1); [exists sz; rewrite Z1; auto|].
  rewrite E in EY. injection EY as <-. rewrite E1 in EY1. injection EY1 as <-.
  destruct (nth_error ca m) as [cA|] eqn:Em; [|apply nth_error_None in Em; lia].
  destruct (nth_error cb n) as [cB|] eqn:En; [|apply nth_error_None in En; lia].
  eexists. split; [apply (V m n cA cB Em En)|].
  rewrite (V1 m n cA cB Em En). f_equal. unfold ovalue. rewrite L1, O1, P. apply contracted_map_l.
Qed.

Lemma oneel_add_ket o h pA pB pB1 pB2 vA vB vB1 vB2 ca cb cb1 cb2 M X X1 X2 : heap_wf h ->
  std_shell h pA vA ca -> std_shell h pB vB cb -> std_shell h pB1 vB1 cb1 -> std_shell h pB2 vB2 cb2 ->
  concatenated vB1 vB2 vB -> (v_L vA <= 9)%Z -> (v_L vB <= 9)%Z -> fits M vA vB ->
  oneel_call o h pA pB M = Ok X -> oneel_call o h pA pB1 M = Ok X1 -> oneel_call o h pA pB2 M = Ok X2 ->
  forall m n, (m < length ca)%nat -> (n < length cb)%nat ->
    exists x1 x2, elem_at X1 vB m n = Ok x1 /\ elem_at X2 vB m n = Ok x2 /\ elem_at X vB m n = Ok (x1 + x2).
Proof.
  intros W SA SB SB1 SB2 (L1 & L2 & O1 & O2 & P) LA LB (sz & D & Hsz) E E1 E2 m n Hm Hn.
  destruct (shape_of _ _ _ _ _ _ _ SB SB1 L1) as (<- & Z1). destruct (shape_of _ _ _ _ _ _ _ SB SB2 L2) as (<- & Z2).
  destruct (oneel_ok o h pA pB vA vB ca cb M W SA SB LA LB) as (Y & EY & _ & V); [exists sz; auto|].
  destruct (oneel_ok o h pA pB1 vA vB1 ca cb M W SA SB1 LA ltac:(lia)) as (Y1 & EY1 & _ & V1); [exists sz; rewrite <- Z1; auto|].
  destruct (oneel_ok o h pA pB2 vA vB2 ca cb M W SA SB2 LA ltac:(lia)) as (Y2 & EY2 & _ & V2); [exists sz; rewrite <- Z2; auto|].
  rewrite E in EY. injection EY as <-. rewrite E1 in EY1. injection EY1 as <-. rewrite E2 in EY2. injection EY2 as <-.
  destruct (nth_error ca m) as [cA|] eqn:Em; [|apply nth_error_None in Em; lia].
  destruct (nth_error cb n) as [cB|] eqn:En; [|apply nth_error_None in En; lia].
  unfold elem_at in *. rewrite <- Z1 in V1. rewrite <- Z2 in V2.
  do 2 eexists. split; [apply (V1 m n cA cB Em En)|]. split; [apply (V2 m n cA cB Em En)|].
  rewrite (V m n cA cB Em En). f_equal. unfold ovalue. rewrite <- L1, <- L2, <- O1, <- O2, P. apply contracted_app_r.
Qed.

Lemma oneel_scale_ket o h pA pB pB1 vA vB vB1 ca cb cb1 k M X X1 : heap_wf h ->
  std_shell h pA vA ca -> std_shell h pB vB cb -> std_shell h pB1 vB1 cb1 ->
  scaled k vB vB1 -> (v_L vA <= 9)%Z -> (v_L vB <= 9)%Z -> fits M vA vB ->
  oneel_call o h pA pB M = Ok X -> oneel_call o h pA pB1 M = Ok X1 ->
  forall m n, (m < length ca)%nat -> (n < length cb)%nat ->
    exists x, elem_at X vB m n = Ok x /\ elem_at X1 vB m n = Ok (k * x).
Proof.
  intros W SA SB SB1 (L1 & O1 & P) LA LB (sz & D & Hsz) E E1 m n Hm Hn.
  destruct (shape_of _ _ _ _ _ _ _ SB1 SB L1) as (-> & Z1).
  destruct (oneel_ok o h pA pB vA vB ca cb M W SA SB LA LB) as (Y & EY & _ & V); [exists sz; auto|].
  destruct (oneel_ok o h pA pB1 vA vB1 ca cb M W SA SB1 LA ltac:(lia)) as (Y1 & EY1 & _ & V1); [exists sz; rewrite Z1; auto|].
  rewrite E in EY. injection EY as <-. rewrite E1 in EY1. injection EY1 as <-.
  destruct (nth_error ca m) as [cA|] eqn:Em; [|apply nth_error_None in Em; lia].
  destruct (nth_error cb n) as [cB|] eqn:En; [|apply nth_error_None in En; lia].
  unfold elem_at in *. rewrite Z1 in V1.
  eexists. split; [apply (V m n cA cB Em En)|].
  rewrite (V1 m n cA cB Em En). f_equal. unfold ovalue. rewrite L1, O1, P. apply contracted_map_r.
Qed.

(** ** C23 *)

(** (2k-1)!! as a product of odd numbers *)
Fixpoint odd_prod (k : nat) : R := match k with O => 1 | S k' => odd_prod k' * (2 * INR k' + 1) end.

(** moments of a Gaussian about its centre *)
Fixpoint gmom (pf s0 : R) (k : nat) : R :=
  match k with
  | O => s0
  | S k' => match k' with O => 0 | S k'' => INR k' * pf * gmom pf s0 k'' end
  end.

Lemma gmom_SS pf s0 k : gmom pf s0 (S (S k)) = INR (S k) * pf * gmom pf s0 k.
Proof. reflexivity. Qed.

Lemma os_row0_centred pf s0 j : os_row0 0 pf s0 j = gmom pf s0 j /\ os_row0 0 pf s0 (S j) = gmom pf s0 (S j).
Proof.
  induction j as [|j [IH1 IH2]]; [cbn; split; ring|]. split; [exact IH2|].
  rewrite gmom_SS, <- IH1. change (os_row0 0 pf s0 (S (S j))) with (0 * os_row0 0 pf s0 (S j) + INR (S j) * pf * os_row0 0 pf s0 j). ring.
Qed.

Lemma os_centred pf s0 i : forall j, os 0 0 pf s0 i j = gmom pf s0 (i + j) /\ os 0 0 pf s0 (S i) j = gmom pf s0 (S i + j).
Proof.
  assert (Hrow : forall i j, (forall j, os 0 0 pf s0 i j = gmom pf s0 (i + j)) ->
      (match i with O => True | S i' => forall j, os 0 0 pf s0 i' j = gmom pf s0 (i' + j) end) ->
      os 0 0 pf s0 (S i) j = gmom pf s0 (S i + j)).
  { intros k j H H'.
    change (os 0 0 pf s0 (S k) j) with (0 * os 0 0 pf s0 k j + INR k * pf * (match k with O => 0 | S k'' => os 0 0 pf s0 k'' j end)
       + INR j * pf * os 0 0 pf s0 k (pred j)).
    destruct k as [|k]; destruct j as [|j]; cbn [pred].
    - cbn. ring.
    - rewrite !H. cbn [Nat.add]. rewrite gmom_SS. change (INR 0) with 0. ring.
    - rewrite !H'. replace (S (S k) + 0)%nat with (S (S (k + 0))) by lia. rewrite gmom_SS.
      replace (k + 0)%nat with k by lia. change (INR 0) with 0. ring.
    - rewrite !H', !H. replace (S (S k) + S j)%nat with (S (S (k + S j))) by lia. rewrite gmom_SS.
      replace (S k + j)%nat with (k + S j)%nat by lia. rewrite !S_INR, plus_INR, S_INR. ring. }
  induction i as [|i IH]; intros j.
  - assert (H0 : forall j, os 0 0 pf s0 0 j = gmom pf s0 (0 + j)) by (intros; apply os_row0_centred).
    split; [apply H0|]. apply Hrow; [exact H0|exact I].
  - split; [apply IH|]. apply Hrow; [intros; apply IH|intros; apply IH].
Qed.

Lemma gmom_even pf s0 k : gmom pf s0 (k + k) = odd_prod k * pf ^ k * s0.
Proof.
  induction k as [|k IH]; [cbn; ring|].
  replace (S k + S k)%nat with (S (S (k + k))) by lia. rewrite gmom_SS, IH. cbn [odd_prod pow]. rewrite S_INR, plus_INR. ring.
Qed.

Lemma os_pair_self a A k : 0 < a -> os_pair a A a A k k = odd_prod k * (1 / (4 * a)) ^ k * sqrt (PI / (2 * a)).
Proof.
  intros Ha. unfold os_pair. cbv zeta.
  replace ((a * A + a * A) / (a + a) - A) with 0 by (field; lra).
  rewrite (proj1 (os_centred _ _ k k)), gmom_even.
  replace (A - A) with 0 by ring. rewrite !Rmult_0_r, exp_0, Rmult_1_r.
  replace (2 * (a + a)) with (4 * a) by ring. replace (a + a) with (2 * a) by ring. reflexivity.
Qed.

Lemma self_entry L A n l m a : 0 < a -> (0 <= n)%Z -> (0 <= l)%Z -> (0 <= m)%Z -> (n + l + m = L)%Z ->
  ov_entry L L A A (n, l, m) (n, l, m) a a =
  odd_prod (Z.to_nat n) * odd_prod (Z.to_nat l) * odd_prod (Z.to_nat m).
Proof.
  intros Ha Hn Hl Hm HL. unfold ov_entry, osv. rewrite !os_pair_self by exact Ha. rewrite nf_norm. unfold norm_L.
  set (q := 2 * a / PI).
  assert (Hq : 0 < q) by (apply Rdiv_lt_0_compat; [lra|apply PI_RGT_0]).
  set (P1 := Rpower q (3 / 4)). set (P2 := Rpower (4 * a) (IZR L / 2)).
  assert (E2 : P2 * P2 = (4 * a) ^ (Z.to_nat n) * (4 * a) ^ (Z.to_nat l) * (4 * a) ^ (Z.to_nat m)).
  { unfold P2. rewrite <- Rpower_plus. replace (IZR L / 2 + IZR L / 2) with (INR (Z.to_nat L)).
    - rewrite Rpower_pow by lra. replace (Z.to_nat L) with (Z.to_nat n + Z.to_nat l + Z.to_nat m)%nat by lia. rewrite !pow_add. reflexivity.
    - rewrite INR_IZR_INZ, Z2Nat.id by lia. lra. }
  assert (Es : sqrt (PI / (2 * a)) = Rpower q (- (1 / 2))).
  { rewrite Rpower_Ropp. replace (1 / 2) with (/ 2) by lra. rewrite Rpower_sqrt by exact Hq.
    rewrite <- sqrt_inv. f_equal. unfold q. pose proof PI_neq0. field. split; [assumption|lra]. }
  assert (E1 : P1 * P1 * (sqrt (PI / (2 * a)) * sqrt (PI / (2 * a)) * sqrt (PI / (2 * a))) = 1).
  { rewrite Es. unfold P1. rewrite <- !Rpower_plus. replace (3 / 4 + 3 / 4 + (- (1 / 2) + - (1 / 2) + - (1 / 2))) with 0 by lra.
    apply Rpower_O. exact Hq. }
  assert (Ep : forall k, (1 / (4 * a)) ^ k * (4 * a) ^ k = 1).
  { intros k. rewrite <- Rpow_mult_distr. replace (1 / (4 * a) * (4 * a)) with 1 by (field; lra). apply pow1. }
  set (s := sqrt (PI / (2 * a))) in *.
  set (on := odd_prod (Z.to_nat n)). set (ol := odd_prod (Z.to_nat l)). set (om := odd_prod (Z.to_nat m)).
  pose proof (Ep (Z.to_nat n)) as En. pose proof (Ep (Z.to_nat l)) as El. pose proof (Ep (Z.to_nat m)) as Em.
  set (tn := (1 / (4 * a)) ^ Z.to_nat n) in *. set (tl := (1 / (4 * a)) ^ Z.to_nat l) in *. set (tm := (1 / (4 * a)) ^ Z.to_nat m) in *.
  set (un := (4 * a) ^ Z.to_nat n) in *. set (ul := (4 * a) ^ Z.to_nat l) in *. set (um := (4 * a) ^ Z.to_nat m) in *.
  transitivity ((on * ol * om) * (P1 * P1 * (s * s * s)) * (P2 * P2 * tn * tl * tm)); [ring|].
  rewrite E1, E2. transitivity (on * ol * om * ((tn * un) * (tl * ul) * (tm * um))); [ring|].
  rewrite En, El, Em. ring.
Qed.

Lemma self_overlap h p v comps a M X m : heap_wf h -> std_shell h p v comps -> (v_L v <= 9)%Z ->
  v_prims v = [(1, a)] -> 0 < a -> fits M v v -> oneel_call Overlap h p p M = Ok X ->
  forall n l k, nth_error comps m = Some (n, l, k) ->
    elem_at X v m m = Ok (odd_prod (Z.to_nat n) * odd_prod (Z.to_nat l) * odd_prod (Z.to_nat k)).
Proof.
  intros W SV LV P Ha F E n l k Em.
  destruct (oneel_ok Overlap h p p v v comps comps M W SV SV LV LV F) as (Y & EY & _ & V).
  rewrite E in EY. injection EY as <-. rewrite (V m m _ _ Em Em). f_equal.
  unfold ovalue. rewrite P. unfold contracted, lsum. cbn [fold_right oentry].
  destruct SV as (_ & HL & _ & (ord & HC) & _). destruct (components_complete ord (v_L v) HL) as (l' & El & _ & Hi & _).
  rewrite HC in El. injection El as <-. apply nth_error_In in Em. apply Hi in Em.
  rewrite self_entry by lia || exact Ha. ring.
Qed.

(** ** Corollaries and helpers for the property file *)

Lemma std_length h p v comps : std_shell h p v comps -> Z.of_nat (length comps) = n_cart (v_L v).
Proof. intros H. rewrite <- (std_size _ _ _ _ H). apply H. Qed.

Lemma std_comps h p v comps L l : std_shell h p v comps -> v_L v = L -> shell_components OrderDirac L = Ok l -> comps = l.
Proof.
  intros (_ & HL & _ & (ord & HC) & _) E H. rewrite E in *. destruct ord; [|rewrite <- orders_coincide in HC]; congruence.
Qed.

Lemma documented_L_overrun :
  exists h pA pB vA vB ca cb, heap_wf h /\ std_shell h pA vA ca /\ std_shell h pB vB cb /\
    v_L vA = max_basis_L /\ v_L vB = 0%Z /\ exps_pos vA /\ exps_pos vB /\
    forall o M, fits M vA vB -> oneel_call o h pA pB M = Fail OutOfBounds.
Proof.
  destruct (shells_exist [(10%Z, (0, 0, 0), [(1, 1)]); (0%Z, (0, 0, 1), [(1, 1)])]) as (h & ps & W & F).
  { intros L o pr [E | [E | []]]; injection E as <- <- <-; lia. }
  inversion F as [|? pA ? ? HA F1]; subst. inversion F1 as [|? pB ? ? HB F2]; subst.
  destruct HA as (vA & ca & SA & LA & OA & PA). destruct HB as (vB & cb & SB & LB & OB & PB).
  exists h, pA, pB, vA, vB, ca, cb. split; [exact W|]. split; [exact SA|]. split; [exact SB|].
  split; [exact LA|]. split; [exact LB|].
  split; [intros c a; rewrite PA; intros [E | []]; injection E as <- <-; lra|].
  split; [intros c a; rewrite PB; intros [E | []]; injection E as <- <-; lra|].
  intros o M HF. eapply oneel_overrun; try eassumption; [rewrite PA; discriminate|rewrite PB; discriminate|lia].
Qed.

Lemma overlap_symmetric h pA pB vA vB ca cb M N X Y : heap_wf h ->
  std_shell h pA vA ca -> std_shell h pB vB cb -> (v_L vA <= 9)%Z -> (v_L vB <= 9)%Z ->
  exps_pos vA -> exps_pos vB -> fits M vA vB -> fits N vB vA ->
  oneel_call Overlap h pA pB M = Ok X -> oneel_call Overlap h pB pA N = Ok Y ->
  forall m n, (m < length ca)%nat -> (n < length cb)%nat ->
    exists x, elem_at X vB m n = Ok x /\ elem_at Y vA n m = Ok x.
Proof.
  intros W SA SB LA LB EA EB FM FN HX HY m n Hm Hn.
  destruct (oneel_transpose Overlap h pA pB vA vB ca cb M N X Y W SA SB LA LB EA EB FM FN HX HY m n Hm Hn) as (x & H1 & H2).
  exists x. cbn [osign] in H1. rewrite Rmult_1_l in H1. auto.
Qed.

Lemma kinetic_symmetric h pA pB vA vB ca cb M N X Y : heap_wf h ->
  std_shell h pA vA ca -> std_shell h pB vB cb -> (v_L vA <= 9)%Z -> (v_L vB <= 9)%Z ->
  exps_pos vA -> exps_pos vB -> fits M vA vB -> fits N vB vA ->
  oneel_call Kinetic h pA pB M = Ok X -> oneel_call Kinetic h pB pA N = Ok Y ->
  forall m n, (m < length ca)%nat -> (n < length cb)%nat ->
    exists x, elem_at X vB m n = Ok x /\ elem_at Y vA n m = Ok x.
Proof.
  intros W SA SB LA LB EA EB FM FN HX HY m n Hm Hn.
  destruct (oneel_transpose Kinetic h pA pB vA vB ca cb M N X Y W SA SB LA LB EA EB FM FN HX HY m n Hm Hn) as (x & H1 & H2).
  exists x. cbn [osign] in H1. rewrite Rmult_1_l in H1. auto.
Qed.

Lemma momentum_antisymmetric o h pA pB vA vB ca cb M N X Y : o = MomX \/ o = MomY \/ o = MomZ -> heap_wf h ->
  std_shell h pA vA ca -> std_shell h pB vB cb -> (v_L vA <= 9)%Z -> (v_L vB <= 9)%Z ->
  exps_pos vA -> exps_pos vB -> fits M vA vB -> fits N vB vA ->
  oneel_call o h pA pB M = Ok X -> oneel_call o h pB pA N = Ok Y ->
  forall m n, (m < length ca)%nat -> (n < length cb)%nat ->
    exists x, elem_at X vB m n = Ok (- x) /\ elem_at Y vA n m = Ok x.
Proof.
  intros Ho W SA SB LA LB EA EB FM FN HX HY m n Hm Hn.
  destruct (oneel_transpose o h pA pB vA vB ca cb M N X Y W SA SB LA LB EA EB FM FN HX HY m n Hm Hn) as (x & H1 & H2).
  exists x. replace (- x) with (osign o * x); [auto|]. destruct Ho as [-> | [-> | ->]]; cbn [osign]; ring.
Qed.

Lemma s_normalised h p v comps a M X : heap_wf h -> std_shell h p v comps -> v_L v = 0%Z ->
  v_prims v = [(1, a)] -> 0 < a -> fits M v v -> oneel_call Overlap h p p M = Ok X ->
  elem_at X v 0 0 = Ok 1.
Proof.
  intros W SV L0 P Ha F E.
  assert (C : comps = [(0, 0, 0)%Z]) by (apply (std_comps h p v comps 0%Z _ SV L0); reflexivity).
  rewrite (self_overlap h p v comps a M X 0 W SV ltac:(lia) P Ha F E 0%Z 0%Z 0%Z) by (rewrite C; reflexivity).
  change (Z.to_nat 0) with 0%nat. cbn [odd_prod]. f_equal. ring.
Qed.

(** the first component of an f shell is x^3 *)
Lemma std_first h p v comps : std_shell h p v comps -> v_L v = 3%Z -> nth_error comps 0 = Some (3, 0, 0)%Z.
Proof.
  intros S E.
  rewrite (std_comps h p v comps 3%Z (canon 3) S E (shell_components_canon OrderDirac 3 ltac:(lia))). vm_compute. reflexivity.
Qed.
