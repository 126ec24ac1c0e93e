(** * C92: overlap gradients and momentum integrals *)

From Coq Require Import ZArith List Lia Bool Reals Lra Permutation.
From Coquelicot Require Import Coquelicot.
From Verif Require Import Base CartModel CartProofs HeapModel HeapProofs HeapSpec GaussProd
  OneElModel OneElProofs OneElPairs OneElSpec OneElInt OneElThms Loops LmatModel UtilProofs OvGradModel OvDeriv OvGradProofs OvGradThms.
Import ListNotations.
Open Scope R_scope.

(** the momentum integral of direction k *)
Definition mom_of (k : Z) : oneel := if (k =? 0)%Z then MomX else if (k =? 1)%Z then MomY else MomZ.

Lemma mom_raw LA LB A B cA cB aA aB k : (0 <= k < 3)%Z -> nonneg3 cA ->
  mom_entry LA LB A B k cA cB aA aB =
  - (norm_L LA aA * norm_L LB aB * (2 * aA * raw_entry A B (shift cA k 1) cB aA aB - IZR (expo cA k) * (if (0 <? expo cA k)%Z then raw_entry A B (shift cA k (-1)) cB aA aB else 0))).
Proof.
  intros Hk Hc. unfold mom_entry, raw_entry, pick, d1v. destruct cA as [[nA lA] mA]. destruct cB as [[nB lB] mB]. destruct Hc as (N1 & N2 & N3). rewrite !nf_norm.
  assert (k = 0 \/ k = 1 \/ k = 2)%Z as [-> | [-> | ->]] by lia; cbn [shift expo Z.eqb Pos.eqb].
  - replace (nA + -1)%Z with (nA - 1)%Z by lia. destruct (Z.leb_spec 1 nA), (Z.ltb_spec 0 nA); try lia; ring.
  - replace (lA + -1)%Z with (lA - 1)%Z by lia. destruct (Z.leb_spec 1 lA), (Z.ltb_spec 0 lA); try lia; ring.
  - replace (mA + -1)%Z with (mA - 1)%Z by lia. destruct (Z.leb_spec 1 mA), (Z.ltb_spec 0 mA); try lia; ring.
Qed.

Lemma contracted_lin (F G H : R -> R -> R) u v PA PB : (forall a b, F a b = u * G a b + v * H a b) -> contracted F PA PB = u * contracted G PA PB + v * contracted H PA PB.
Proof.
  intros E. unfold contracted. induction PA as [|[ca aa] l IH]; [unfold lsum; cbn [fold_right]; ring|]. rewrite !lsum_cons. rewrite IH. cbn [fst snd].
  enough (X : lsum (fun '(cb, ab) => ca * cb * F aa ab) PB = u * lsum (fun '(cb, ab) => ca * cb * G aa ab) PB + v * lsum (fun '(cb, ab) => ca * cb * H aa ab) PB) by (rewrite X; ring).
  clear IH. induction PB as [|[cb ab] l' IH']; [unfold lsum; cbn [fold_right]; ring|]. rewrite !lsum_cons, IH', E. ring.
Qed.

Lemma gradient_value_momentum LA LB A B PA PB cA cB k : (0 <= k < 3)%Z -> nonneg3 cA ->
  grad_value LA LB A B PA PB cA cB k = - contracted (mom_entry LA LB A B k cA cB) PA PB.
Proof.
  intros Hk Hc. unfold grad_value, up_prims, down_prims.
  rewrite (contracted_raw (LA + 1) LB A B (shift cA k 1) cB (fun a => 2 * a * norm_L LA a)), (contracted_raw (LA - 1) LB A B (shift cA k (-1)) cB (fun a => norm_L LA a)).
  destruct (0 <? expo cA k)%Z eqn:E.
  - rewrite (contracted_lin (mom_entry LA LB A B k cA cB) (fun aA aB => 2 * aA * norm_L LA aA * norm_L LB aB * raw_entry A B (shift cA k 1) cB aA aB) (fun aA aB => norm_L LA aA * norm_L LB aB * raw_entry A B (shift cA k (-1)) cB aA aB) (- 1) (IZR (expo cA k))); [ring|].
    intros a b. rewrite (mom_raw LA LB A B cA cB a b k Hk Hc), E. ring.
  - rewrite (contracted_lin (mom_entry LA LB A B k cA cB) (fun aA aB => 2 * aA * norm_L LA aA * norm_L LB aB * raw_entry A B (shift cA k 1) cB aA aB) (fun _ _ => 0) (- 1) 0); [ring|].
    intros a b. rewrite (mom_raw LA LB A B cA cB a b k Hk Hc), E. ring.
Qed.

Lemma gradient_is_momentum : forall ord (junk : Z -> R) h pA pB vA vB ca cb point grad h' grad' k M X i j cA cB,
  heap_wf h -> std_shell h pA vA ca -> std_shell h pB vB cb -> separate h pA pB -> (v_L vA <= 8)%Z -> (v_L vB <= 9)%Z -> grad_fits grad vA vB -> fits M vA vB -> (0 <= k < 3)%Z ->
  points_are_equal (v_origin vA) (v_origin vB) = false -> nth_error ca i = Some cA -> nth_error cb j = Some cB ->
  overlap_gradient ord (Some junk) h pA pB point grad = Ok (h', grad') -> oneel_call (mom_of k) h pA pB M = Ok X ->
  exists p, elem_at X vB i j = Ok p /\
    grad_at grad' vB k i j = Ok ((if points_are_equal (v_origin vB) point then p else 0) - (if points_are_equal (v_origin vA) point then p else 0)).
Proof.
  intros ord junk h pA pB vA vB ca cb point grad h' grad' k M X i j cA cB W SA SB Sep LA LB FG FM Hk NE Hi Hj EG EM.
  destruct (overlap_gradient_ok ord (Some junk) h pA pB vA vB ca cb point grad W SA SB Sep LA LB FG ltac:(left; discriminate)) as (h1 & g1 & E1 & _ & _ & V). rewrite EG in E1. injection E1 as <- <-.
  destruct (oneel_ok (mom_of k) h pA pB vA vB ca cb M W SA SB ltac:(lia) LB FM) as (X1 & E2 & _ & V2). rewrite EM in E2. injection E2 as <-.
  exists (ovalue (mom_of k) vA vB cA cB). split; [apply V2; assumption|]. rewrite (V k i j cA cB Hk Hi Hj), NE. f_equal. unfold bgrad_value.
  assert (N : nonneg3 cA) by (apply (std_nonneg h pA vA ca cA SA); eapply nth_error_In; exact Hi).
  rewrite (gradient_value_momentum _ _ _ _ _ _ cA cB k Hk N).
  assert (E : ovalue (mom_of k) vA vB cA cB = contracted (mom_entry (v_L vA) (v_L vB) (v_origin vA) (v_origin vB) k cA cB) (v_prims vA) (v_prims vB)).
  { assert (k = 0 \/ k = 1 \/ k = 2)%Z as [-> | [-> | ->]] by lia; reflexivity. }
  rewrite E. destruct (points_are_equal (v_origin vA) point), (points_are_equal (v_origin vB) point); ring.
Qed.
