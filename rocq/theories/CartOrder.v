(** * The order of Cartesian components in closed form *)

From Coq Require Import ZArith List Lia Bool Sorting.Sorted.
From Verif Require Import Base CartModel CartProofs.
Import ListNotations.
Open Scope Z_scope.

Lemma nth_down n k : 0 <= k <= n -> nth_error (down n) (Z.to_nat k) = Some (n - k).
Proof.
  intros H. revert n H. remember (Z.to_nat k) as m eqn:E. revert k E. induction m as [|m IH]; intros k E n H.
  - rewrite down_cons by lia. cbn. f_equal. lia.
  - rewrite down_cons by lia. cbn [nth_error]. rewrite (IH (k - 1) ltac:(lia)) by lia. f_equal. lia.
Qed.

Lemma length_block L r : 0 <= r <= L -> length (map (fun s => (r, s, L - r - s)) (down (L - r))) = Z.to_nat (L - r + 1).
Proof. intros H. rewrite map_length. assert (E := length_down (L - r) ltac:(lia)). lia. Qed.

Lemma nth_canon_from L n l : 0 <= n -> 0 <= l -> n + l <= L -> forall d, n + Z.of_nat d <= L ->
  exists off, 2 * off = (L - n) * (L - n + 1) - (L - n - Z.of_nat d) * (L - n - Z.of_nat d + 1) /\ 0 <= off /\
  nth_error (flat_map (fun r => map (fun s => (r, s, L - r - s)) (down (L - r))) (down (n + Z.of_nat d)))
    (Z.to_nat (off + (L - n - l))) = Some (n, l, L - n - l).
Proof.
  intros Hn Hl HL. induction d as [|d IH]; intros Hd.
  - exists 0. split; [cbn [Z.of_nat]; ring|]. split; [lia|]. rewrite down_cons by lia. cbn [flat_map].
    rewrite nth_error_app1 by (rewrite length_block by lia; lia).
    replace (n + Z.of_nat 0) with n by lia. rewrite Z.add_0_l.
    rewrite (map_nth_error (fun s => (n, s, L - n - s)) _ (down (L - n)) (nth_down (L - n) (L - n - l) ltac:(lia))).
    replace (L - n - (L - n - l)) with l by lia. reflexivity.
  - destruct IH as (off & E & P & IH); [lia|]. exists (L - (n + Z.of_nat (S d)) + 1 + off). split; [nia|]. split; [lia|].
    rewrite (down_cons (n + Z.of_nat (S d))) by lia. cbn [flat_map].
    rewrite nth_error_app2 by (rewrite length_block by lia; lia). rewrite length_block by lia.
    replace (n + Z.of_nat (S d) - 1) with (n + Z.of_nat d) by lia. rewrite <- IH. f_equal. lia.
Qed.

(** position of a component *)
Lemma nth_canon n l m : 0 <= n -> 0 <= l -> 0 <= m ->
  nth_error (canon (n + l + m)) (Z.to_nat ((l + m) * (l + m + 1) / 2 + m)) = Some (n, l, m).
Proof.
  intros Hn Hl Hm. destruct (nth_canon_from (n + l + m) n l Hn Hl ltac:(lia) (Z.to_nat (l + m)) ltac:(lia)) as (off & E & P & H).
  unfold canon. replace (n + Z.of_nat (Z.to_nat (l + m))) with (n + l + m) in H by lia.
  replace (n + l + m - n - l) with m in H by lia.
  replace ((l + m) * (l + m + 1) / 2) with off; [exact H|].
  apply Z.div_unique_exact; [lia|]. nia.
Qed.

Lemma position_formula o n l m : 0 <= n -> 0 <= l -> 0 <= m ->
  nlm_to_linear o n l m = Ok ((l + m) * (l + m + 1) / 2 + m) /\
  exists comps, shell_components o (n + l + m) = Ok comps /\
    nth_error comps (Z.to_nat ((l + m) * (l + m + 1) / 2 + m)) = Some (n, l, m).
Proof.
  intros Hn Hl Hm. destruct (nlm_lookup_found o n l m Hn Hl Hm) as (comps & k & E & F & R & N & U).
  assert (C := shell_components_canon o (n + l + m) ltac:(lia)). rewrite C in E. injection E as <-.
  assert (G := nth_canon n l m Hn Hl Hm). split.
  - rewrite F. f_equal. rewrite <- (U _ G). rewrite Z2Nat.id; [reflexivity|].
    apply Z.add_nonneg_nonneg; [|lia]. apply Z.div_pos; nia.
  - exists (canon (n + l + m)). split; [exact C|exact G].
Qed.
