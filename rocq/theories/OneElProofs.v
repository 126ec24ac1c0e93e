(** * Closed forms of the one-electron integral routines *)

From Coq Require Import ZArith List Lia Bool Reals Lra.
From Verif Require Import Base GaussInt GaussProd HeapModel OneElModel.
Import ListNotations.
Open Scope Z_scope.

(** ** Triple loops that fill a table *)

Definition before (c i j c' i' j' : Z) : Prop :=
  c' < c \/ (c' = c /\ (i' < i \/ (i' = i /\ j' < j))).

Section Fill3.
Variable V : Type.
Variable d : list Z.
Variables imax jmax : Z.
Variable val : Z -> Z -> Z -> V.
Variable body : Z -> Z -> Z -> arr V -> res (arr V).
Hypothesis Hi : 0 <= imax.
Hypothesis Hj : 0 <= jmax.

Definition rng (c i j : Z) : Prop := 0 <= c < 3 /\ 0 <= i <= imax /\ 0 <= j <= jmax.

Hypothesis Hbody : forall T c i j, rng c i j -> adims T = d ->
  (forall c' i' j', rng c' i' j' -> before c i j c' i' j' -> acell T [c'; i'; j'] = Some (val c' i' j')) ->
  exists T', body c i j T = Ok T' /\ adims T' = d /\
    acell T' [c; i; j] = Some (val c i j) /\
    (forall ix, ix <> [c; i; j] -> acell T' ix = acell T ix).

Let Inv (c i j : Z) (T : arr V) : Prop :=
  adims T = d /\ forall c' i' j', rng c' i' j' -> before c i j c' i' j' -> acell T [c'; i'; j'] = Some (val c' i' j').

Lemma fill3_ok T0 : adims T0 = d ->
  exists T, for_range 0 3 (fun c => for_range 0 (imax + 1) (fun i => for_range 0 (jmax + 1) (fun j => body c i j))) T0 = Ok T
   /\ adims T = d /\ forall c i j, rng c i j -> acell T [c; i; j] = Some (val c i j).
Proof.
  intros H0.
  destruct (for_range_ok (fun c T => Inv c 0 0 T) 0 3
    (fun c => for_range 0 (imax + 1) (fun i => for_range 0 (jmax + 1) (fun j => body c i j))) T0) as (T & E & D & C).
  - lia.
  - split; [exact H0|]. unfold rng, before. intros; lia.
  - intros c T Hc Hinv.
    destruct (for_range_ok (fun i T => Inv c i 0 T) 0 (imax + 1)
      (fun i => for_range 0 (jmax + 1) (fun j => body c i j)) T) as (T1 & E1 & D1 & C1); [lia|exact Hinv| |].
    + intros i T1 Hi1 Hinv1.
      destruct (for_range_ok (fun j T => Inv c i j T) 0 (jmax + 1) (fun j => body c i j) T1)
        as (T2 & E2 & D2 & C2); [lia|exact Hinv1| |].
      * intros j T2 Hj2 (D2 & C2). destruct (Hbody T2 c i j) as (T3 & E3 & D3 & C3 & F3); [unfold rng; lia|exact D2|exact C2|].
        exists T3. split; [exact E3|]. split; [exact D3|].
        intros c' i' j' Hr Hb.
        destruct (list_eq_dec Z.eq_dec [c'; i'; j'] [c; i; j]) as [Eq|Ne].
        -- injection Eq as -> -> ->. exact C3.
        -- rewrite F3 by exact Ne. apply C2; [exact Hr|].
           unfold before in *. destruct Hb as [Hb|(-> & [Hb|(-> & Hb)])]; [lia|lia|].
           destruct (Z.eq_dec j' j); [subst; congruence|lia].
      * exists T2. split; [exact E2|]. split; [exact D2|]. intros c' i' j' Hr Hb. apply C2; [exact Hr|].
        unfold before, rng in *. lia.
    + exists T1. split; [exact E1|]. split; [exact D1|]. intros c' i' j' Hr Hb. apply C1; [exact Hr|].
      unfold before, rng in *. lia.
  - exists T. split; [exact E|]. split; [exact D|]. intros c i j Hr. apply C; [exact Hr|].
    unfold before, rng in *. lia.
Qed.

End Fill3.

(** ** The Obara-Saika table *)

Lemma os_Z_row0 XPA XPB pf s00 j : 0 < j ->
  os XPA XPB pf s00 0 (Z.to_nat j) =
  (XPB * os XPA XPB pf s00 0 (Z.to_nat (j - 1))
   + (if 0 <? j - 1 then IZR (j - 1) * pf * os XPA XPB pf s00 0 (Z.to_nat (j - 2)) else 0))%R.
Proof.
  intros H. destruct (Z.to_nat j) as [|k] eqn:E; [lia|].
  replace (Z.to_nat (j - 1)) with k by lia.
  assert (Ej : IZR (j - 1) = INR k) by (rewrite INR_IZR_INZ; f_equal; lia).
  cbn [os os_row0]. destruct (0 <? j - 1) eqn:E1.
  - apply Z.ltb_lt in E1. rewrite Ej. destruct k as [|k]; [lia|].
    replace (Z.to_nat (j - 2)) with k by lia. reflexivity.
  - apply Z.ltb_ge in E1. destruct k as [|k]; [|lia]. cbn [INR]. ring.
Qed.

Lemma os_Z_row XPA XPB pf s00 i j : 0 < i -> 0 <= j ->
  os XPA XPB pf s00 (Z.to_nat i) (Z.to_nat j) =
  (XPA * os XPA XPB pf s00 (Z.to_nat (i - 1)) (Z.to_nat j)
   + (if 0 <? i - 1 then IZR (i - 1) * pf * os XPA XPB pf s00 (Z.to_nat (i - 2)) (Z.to_nat j) else 0)
   + (if 0 <? j then IZR j * pf * os XPA XPB pf s00 (Z.to_nat (i - 1)) (Z.to_nat (j - 1)) else 0))%R.
Proof.
  intros H Hj. destruct (Z.to_nat i) as [|k] eqn:E; [lia|].
  replace (Z.to_nat (i - 1)) with k by lia.
  assert (Ei : IZR (i - 1) = INR k) by (rewrite INR_IZR_INZ; f_equal; lia).
  assert (Ej : IZR j = INR (Z.to_nat j)) by (rewrite INR_IZR_INZ; f_equal; lia).
  cbn [os]. f_equal; [f_equal|].
  - destruct (0 <? i - 1) eqn:E1.
    + apply Z.ltb_lt in E1. rewrite Ei. destruct k as [|k]; [lia|].
      replace (Z.to_nat (i - 2)) with k by lia. reflexivity.
    + apply Z.ltb_ge in E1. destruct k as [|k]; [|lia]. cbn [INR]. ring.
  - destruct (0 <? j) eqn:E1.
    + apply Z.ltb_lt in E1. rewrite Ej. replace (Z.to_nat (j - 1)) with (pred (Z.to_nat j)) by lia. reflexivity.
    + apply Z.ltb_ge in E1. replace (Z.to_nat j) with 0%nat by lia. cbn [INR]. ring.
Qed.

(** the value the table must hold *)
Definition osv (aA aB : R) (A B : R * R * R) (c i j : Z) : R :=
  os_pair aA (coord3 A c) aB (coord3 B c) (Z.to_nat i) (Z.to_nat j).

Lemma os_cell_ok T c i j dim imax jmax XPA XPB pf s00 :
  adims T = [3; dim; dim] -> imax < dim -> jmax < dim ->
  0 <= c < 3 -> 0 <= i <= imax -> 0 <= j <= jmax ->
  (forall i' j', 0 <= i' <= imax -> 0 <= j' <= jmax -> i' < i \/ (i' = i /\ j' < j) ->
     acell T [c; i'; j'] = Some (os XPA XPB pf s00 (Z.to_nat i') (Z.to_nat j'))) ->
  os_cell T c i j s00 XPA XPB pf = aset T [c; i; j] (os XPA XPB pf s00 (Z.to_nat i) (Z.to_nat j)).
Proof.
  intros D Hi Hj Hc Hii Hjj C. unfold os_cell.
  assert (G : forall i' j', 0 <= i' <= imax -> 0 <= j' <= jmax -> i' < i \/ (i' = i /\ j' < j) ->
     aget T [c; i'; j'] = Ok (os XPA XPB pf s00 (Z.to_nat i') (Z.to_nat j'))).
  { intros i' j' H1 H2 H3. apply aget_ok; [|apply C; assumption]. rewrite D. apply inb3. lia. }
  destruct (i + j =? 0) eqn:E0.
  { apply Z.eqb_eq in E0. replace i with 0 by lia. replace j with 0 by lia. reflexivity. }
  apply Z.eqb_neq in E0. destruct (i =? 0) eqn:E1.
  - apply Z.eqb_eq in E1. subst i. rewrite G by lia. cbn [bind]. change (Z.to_nat 0) with 0%nat in *.
    rewrite (os_Z_row0 XPA XPB pf s00 j) by lia.
    destruct (0 <? j - 1) eqn:E2; cbn [bind].
    + apply Z.ltb_lt in E2. rewrite G by lia. cbn [bind]. f_equal. cbn [Z.to_nat]. ring.
    + f_equal. cbn [Z.to_nat]. ring.
  - apply Z.eqb_neq in E1. rewrite G by lia. cbn [bind].
    rewrite (os_Z_row XPA XPB pf s00 i j) by lia.
    destruct (0 <? i - 1) eqn:E2; cbn [bind].
    + apply Z.ltb_lt in E2. rewrite G by lia. cbn [bind].
      destruct (0 <? j) eqn:E3.
      * apply Z.ltb_lt in E3. rewrite G by lia. cbn [bind]. f_equal. ring.
      * cbn [bind]. f_equal. ring.
    + destruct (0 <? j) eqn:E3.
      * apply Z.ltb_lt in E3. rewrite G by lia. cbn [bind]. f_equal. ring.
      * cbn [bind]. f_equal. ring.
Qed.

Lemma os_table_ok dim imax jmax aA aB A B : 0 <= imax < dim -> 0 <= jmax < dim ->
  exists T, os_table dim imax jmax aA aB A B = Ok T /\ adims T = [3; dim; dim] /\
    forall c i j, 0 <= c < 3 -> 0 <= i <= imax -> 0 <= j <= jmax ->
      acell T [c; i; j] = Some (osv aA aB A B c i j).
Proof.
  intros Hi Hj. unfold os_table.
  destruct (fill3_ok R [3; dim; dim] imax jmax (osv aA aB A B)
     (fun c i j T => os_cell T c i j
        (sqrt (PI / (aA + aB)) * exp (- (aA * aB / (aA + aB)) * (coord3 A c - coord3 B c) * (coord3 A c - coord3 B c)))%R
        ((aA * coord3 A c + aB * coord3 B c) / (aA + aB) - coord3 A c)%R
        ((aA * coord3 A c + aB * coord3 B c) / (aA + aB) - coord3 B c)%R
        (1 / (2 * (aA + aB)))%R) ltac:(lia) ltac:(lia)) with (T0 := @aundef R [3; dim; dim]) as (T & E & D & C).
  - intros T c i j (Hc & Hi1 & Hj1) D C.
    destruct (aset_ok T [c; i; j] (osv aA aB A B c i j)) as (T' & E' & D' & C1 & C2).
    { rewrite D. apply inb3. lia. }
    exists T'. split; [|rewrite D'; auto].
    rewrite <- E'. apply (os_cell_ok T c i j dim imax jmax); try assumption; try lia.
    intros i' j' H1 H2 H3. apply C; [unfold rng; lia|unfold before; lia].
  - reflexivity.
  - exists T. split; [exact E|]. split; [exact D|]. intros c i j H1 H2 H3. apply C. unfold rng. lia.
Qed.

(** ** Out-of-range bounds *)

Lemma os_cell_oob T c i j dim XPA XPB pf s00 : adims T = [3; dim; dim] -> 1 <= dim ->
  0 <= c < 3 -> 0 <= i -> 0 <= j -> (i = dim /\ j = 0) \/ (i = 0 /\ j = dim) ->
  (exists T', os_cell T c i j s00 XPA XPB pf = Ok T') -> False.
Proof.
  intros D Hd Hc Hi Hj H (T' & E). unfold os_cell in E.
  destruct (i + j =? 0) eqn:E0; [apply Z.eqb_eq in E0; lia|].
  match type of E with bind ?m _ = _ => destruct m as [v|f]; cbn [bind] in E; [|discriminate] end.
  unfold aset in E. rewrite D in E.
  destruct (inb [3; dim; dim] [c; i; j]) eqn:Eb; [|discriminate].
  apply inb3 in Eb. lia.
Qed.

(** ** Component loop, daxpy, memset *)

Lemma two_loop_fill {V} (na nb : Z) (d : list Z) (val : Z -> Z -> V)
  (body : Z -> Z -> arr V -> res (arr V)) (M0 : arr V) :
  0 <= na -> 0 <= nb -> adims M0 = d ->
  (forall m n M, 0 <= m < na -> 0 <= n < nb -> adims M = d ->
     exists M', body m n M = Ok M' /\ adims M' = d /\ acell M' [m * nb + n] = Some (val m n) /\
       forall ix, ix <> [m * nb + n] -> acell M' ix = acell M ix) ->
  exists M, for_range 0 na (fun m => for_range 0 nb (fun n => body m n)) M0 = Ok M /\ adims M = d /\
    (forall m n, 0 <= m < na -> 0 <= n < nb -> acell M [m * nb + n] = Some (val m n)) /\
    (forall ix, (forall k, 0 <= k < na * nb -> ix <> [k]) -> acell M ix = acell M0 ix).
Proof.
  intros Hna Hnb D0 Hb.
  pose (Inv := fun m n (M : arr V) => adims M = d /\
    (forall m' n', 0 <= m' < na -> 0 <= n' < nb -> m' < m \/ (m' = m /\ n' < n) ->
       acell M [m' * nb + n'] = Some (val m' n')) /\
    (forall ix, (forall k, 0 <= k < na * nb -> ix <> [k]) -> acell M ix = acell M0 ix)).
  destruct (for_range_ok (fun m M => Inv m 0 M) 0 na (fun m => for_range 0 nb (fun n => body m n)) M0)
    as (M & E & D & C & F).
  - exact Hna.
  - split; [exact D0|]. split; [intros; lia|auto].
  - intros m M Hm Hinv.
    destruct (for_range_ok (fun n M => Inv m n M) 0 nb (fun n => body m n) M) as (M1 & E1 & D1 & C1 & F1).
    + exact Hnb.
    + exact Hinv.
    + intros n M1 Hn (D1 & C1 & F1). destruct (Hb m n M1 Hm Hn D1) as (M2 & E2 & D2 & C2 & F2).
      exists M2. split; [exact E2|]. split; [exact D2|]. split.
      * intros m' n' Hm' Hn' Hlt.
        destruct (list_eq_dec Z.eq_dec [m' * nb + n'] [m * nb + n]) as [Eq|Ne].
        -- injection Eq as Eq. assert (m' = m) by nia. assert (n' = n) by nia. subst. exact C2.
        -- rewrite F2 by exact Ne. apply C1; try assumption.
           destruct Hlt as [Hlt|(-> & Hlt)]; [lia|]. right. split; [reflexivity|].
           destruct (Z.eq_dec n' n); [subst; congruence|lia].
      * intros ix Hix. rewrite F2; [apply F1, Hix|]. apply Hix. nia.
    + exists M1. split; [exact E1|]. split; [exact D1|]. split; [|exact F1].
      intros m' n' Hm' Hn' Hlt. apply C1; try assumption. lia.
  - exists M. split; [exact E|]. split; [exact D|]. split; [|exact F]. intros m n Hm Hn. apply C; try assumption. lia.
Qed.

Lemma memset0_ok n sz (M : arr R) : adims M = [sz] -> 0 <= n <= sz ->
  exists M', memset0 n M = Ok M' /\ adims M' = [sz] /\
    (forall k, 0 <= k < n -> acell M' [k] = Some 0%R) /\
    (forall ix, (forall k, 0 <= k < n -> ix <> [k]) -> acell M' ix = acell M ix).
Proof.
  intros D Hn. unfold memset0.
  destruct (for_range_ok (fun i (M' : arr R) => adims M' = [sz] /\
     (forall k, 0 <= k < i -> acell M' [k] = Some 0%R) /\
     (forall ix, (forall k, 0 <= k < n -> ix <> [k]) -> acell M' ix = acell M ix)) 0 n
     (fun i y => aset y [i] 0%R) M) as (M' & E & H).
  - lia.
  - split; [exact D|]. split; [intros; lia|auto].
  - intros i M1 Hi (D1 & C1 & F1).
    destruct (aset_ok M1 [i] 0%R) as (M2 & E2 & D2 & C2 & F2); [rewrite D1; apply inb1; lia|].
    exists M2. split; [exact E2|]. split; [congruence|]. split.
    + intros k Hk. destruct (Z.eq_dec k i) as [->|Ne]; [exact C2|]. rewrite F2 by congruence. apply C1. lia.
    + intros ix Hix. rewrite F2; [apply F1, Hix|]. apply Hix. lia.
  - exists M'. auto.
Qed.

Lemma daxpy_ok n szx szy a (x y : arr R) (fx fy : Z -> R) :
  adims x = [szx] -> adims y = [szy] -> 0 <= n <= szx -> n <= szy ->
  (forall k, 0 <= k < n -> acell x [k] = Some (fx k)) ->
  (forall k, 0 <= k < n -> acell y [k] = Some (fy k)) ->
  exists y', daxpy n a x y = Ok y' /\ adims y' = [szy] /\
    (forall k, 0 <= k < n -> acell y' [k] = Some (fy k + a * fx k)%R) /\
    (forall ix, (forall k, 0 <= k < n -> ix <> [k]) -> acell y' ix = acell y ix).
Proof.
  intros Dx Dy Hn Hn2 Cx Cy. unfold daxpy.
  destruct (for_range_ok (fun i (M' : arr R) => adims M' = [szy] /\
     (forall k, 0 <= k < i -> acell M' [k] = Some (fy k + a * fx k)%R) /\
     (forall k, i <= k < n -> acell M' [k] = Some (fy k)) /\
     (forall ix, (forall k, 0 <= k < n -> ix <> [k]) -> acell M' ix = acell y ix)) 0 n
     (fun i y => let* yi := aget y [i] in let* xi := aget x [i] in aset y [i] (yi + a * xi)%R) y) as (M' & E & H).
  - lia.
  - split; [exact Dy|]. split; [intros; lia|]. split; [exact Cy|auto].
  - intros i M1 Hi (D1 & C1 & C1' & F1).
    rewrite (aget_ok M1 [i] (fy i)) by (try (rewrite D1; apply inb1); try apply C1'; lia).
    rewrite (aget_ok x [i] (fx i)) by (try (rewrite Dx; apply inb1); try apply Cx; lia).
    cbn [bind].
    destruct (aset_ok M1 [i] (fy i + a * fx i)%R) as (M2 & E2 & D2 & C2 & F2); [rewrite D1; apply inb1; lia|].
    exists M2. split; [exact E2|]. split; [congruence|]. split; [|split].
    + intros k Hk. destruct (Z.eq_dec k i) as [->|Ne]; [exact C2|]. rewrite F2 by congruence. apply C1. lia.
    + intros k Hk. rewrite F2 by (intros Eq; injection Eq; lia). apply C1'. lia.
    + intros ix Hix. rewrite F2; [apply F1, Hix|]. apply Hix. lia.
  - exists M'. destruct H as (H1 & H2 & _ & H4). auto.
Qed.

(** ** Finite sums *)

Fixpoint rsum (n : nat) (f : nat -> R) : R :=
  match n with O => 0%R | S k => (rsum k f + f k)%R end.

Definition lsum {A} (f : A -> R) (l : list A) : R := fold_right (fun x s => (f x + s)%R) 0%R l.

Lemma rsum_ext n f g : (forall k, (k < n)%nat -> f k = g k) -> rsum n f = rsum n g.
Proof. induction n as [|n IH]; intros H; cbn [rsum]; [reflexivity|]. rewrite IH, H by (intros; try apply H; lia). reflexivity. Qed.

Lemma rsum_S_left n f : rsum (S n) f = (f 0%nat + rsum n (fun k => f (S k)))%R.
Proof.
  induction n as [|n IH]; [cbn [rsum]; ring|].
  cbn [rsum] in *. rewrite IH. ring.
Qed.

Lemma lsum_rsum {A} (f : A -> R) (l : list A) d : lsum f l = rsum (length l) (fun k => f (nth k l d)).
Proof.
  induction l as [|x l IH]; [reflexivity|].
  cbn [lsum fold_right length]. rewrite rsum_S_left. cbn [nth]. f_equal. exact IH.
Qed.

(** ** The contraction loop shared by overlap.c 48-60 and kinetic.c 47-59 *)

Definition contract_loop (pair : R -> R -> arr R -> res (arr R)) (A B : vshell) (M : arr R) : res (arr R) :=
  let size := sv_size A * sv_size B in
  let* M := memset0 size M in
  let* (M, _) :=
    for_range 0 (sv_num A) (fun i =>
    for_range 0 (sv_num B) (fun j '(M, buf) =>
      let* alpha_i := aget (sv_alpha A) [i] in
      let* alpha_j := aget (sv_alpha B) [j] in
      let* coef_A_i := aget (sv_coef A) [i] in
      let* coef_B_j := aget (sv_coef B) [j] in
      let* buf := pair alpha_i alpha_j buf in
      let* M := daxpy size (coef_A_i * coef_B_j)%R buf M in
      Ok (M, buf))) (M, aconst [size] 0%R) in
  Ok M.

Lemma overlap_contract A B M : overlap_integrals A B M = contract_loop (overlap_shell_pair A B) A B M.
Proof. reflexivity. Qed.

Lemma kinetic_contract A B M : kinetic_integrals A B M = contract_loop (kinetic_shell_pair A B) A B M.
Proof. reflexivity. Qed.

(** the arrays of the shell hold these primitives (coefficient, exponent) *)
Definition holds_prims (s : vshell) (l : list (R * R)) : Prop :=
  sv_num s = Z.of_nat (length l) /\
  forall i, (i < length l)%nat ->
    aget (sv_coef s) [Z.of_nat i] = Ok (fst (nth i l (0, 0)%R)) /\
    aget (sv_alpha s) [Z.of_nat i] = Ok (snd (nth i l (0, 0)%R)).

(** the value accumulated for one matrix element *)
Definition contracted (val : R -> R -> R) (la lb : list (R * R)) : R :=
  lsum (fun '(ca, aa) => lsum (fun '(cb, ab) => (ca * cb * val aa ab)%R) lb) la.

Lemma contract_loop_ok (P : R -> Prop) pair (A B : vshell) (M : arr R) la lb sz (val : R -> R -> Z -> R) :
  holds_prims A la -> holds_prims B lb -> adims M = [sz] ->
  (forall c a, In (c, a) la -> P a) -> (forall c a, In (c, a) lb -> P a) ->
  0 <= sv_size A -> 0 <= sv_size B -> sv_size A * sv_size B <= sz ->
  (forall aa ab buf, P aa -> P ab -> adims buf = [sv_size A * sv_size B] ->
     exists buf', pair aa ab buf = Ok buf' /\ adims buf' = [sv_size A * sv_size B] /\
       forall k, 0 <= k < sv_size A * sv_size B -> acell buf' [k] = Some (val aa ab k)) ->
  exists M', contract_loop pair A B M = Ok M' /\ adims M' = [sz] /\
    (forall k, 0 <= k < sv_size A * sv_size B ->
       acell M' [k] = Some (contracted (fun aa ab => val aa ab k) la lb)) /\
    (forall ix, (forall k, 0 <= k < sv_size A * sv_size B -> ix <> [k]) -> acell M' ix = acell M ix).
Proof.
  intros (NA & HA) (NB & HB) DM PA PB SA SB Hsz Hpair. unfold contract_loop. cbv zeta.
  set (size := sv_size A * sv_size B) in *.
  assert (Hs0 : 0 <= size) by (unfold size; nia).
  destruct (memset0_ok size sz M DM) as (M1 & E1 & D1 & C1 & F1); [lia|].
  rewrite E1. cbn [bind].
  pose (fA := fun i => nth i la (0, 0)%R). pose (fB := fun j => nth j lb (0, 0)%R).
  pose (term := fun k i j => (fst (fA i) * fst (fB j) * val (snd (fA i)) (snd (fB j)) k)%R).
  pose (Inv := fun (i j : Z) (st : arr R * arr R) => adims (fst st) = [sz] /\ adims (snd st) = [size] /\
     (forall k, 0 <= k < size -> acell (fst st) [k] =
        Some (rsum (Z.to_nat i) (fun i' => rsum (length lb) (term k i')) + rsum (Z.to_nat j) (term k (Z.to_nat i)))%R) /\
     (forall ix, (forall k, 0 <= k < size -> ix <> [k]) -> acell (fst st) ix = acell M ix)).
  match goal with |- context [for_range 0 (sv_num A) ?b ?s] =>
    destruct (for_range_ok (fun i st => Inv i 0 st) 0 (sv_num A) b s) as ((M2 & buf2) & E2 & I2) end.
  - lia.
  - split; [exact D1|]. split; [reflexivity|]. split; [|exact F1].
    intros k Hk. cbn [fst]. rewrite C1 by exact Hk. cbn [Z.to_nat rsum]. f_equal. ring.
  - intros i st Hi Hinv. cbv beta.
    match goal with |- context [for_range 0 (sv_num B) ?b ?s] =>
      destruct (for_range_ok (fun j st => Inv i j st) 0 (sv_num B) b s) as (st2 & E2 & I2) end.
    + lia.
    + exact Hinv.
    + intros j (M2 & buf2) Hj (D2 & Db2 & C2 & F2). cbn [fst snd] in *.
      destruct (HA (Z.to_nat i)) as (GcA & GaA); [lia|]. destruct (HB (Z.to_nat j)) as (GcB & GaB); [lia|].
      rewrite Z2Nat.id in GcA, GaA, GcB, GaB by lia.
      fold (fA (Z.to_nat i)) in GcA, GaA. fold (fB (Z.to_nat j)) in GcB, GaB.
      rewrite GcA, GaA, GcB, GaB. cbn [bind].
      destruct (Hpair (snd (fA (Z.to_nat i))) (snd (fB (Z.to_nat j))) buf2) as (buf3 & E3 & D3 & C3).
      { apply (PA (fst (fA (Z.to_nat i)))). rewrite <- surjective_pairing. apply nth_In. lia. }
      { apply (PB (fst (fB (Z.to_nat j)))). rewrite <- surjective_pairing. apply nth_In. lia. }
      { exact Db2. }
      rewrite E3. cbn [bind].
      destruct (daxpy_ok size size sz (fst (fA (Z.to_nat i)) * fst (fB (Z.to_nat j)))%R buf3 M2 _ _ D3 D2
         ltac:(lia) ltac:(lia) C3 C2) as (M4 & E4 & D4 & C4 & F4).
      rewrite E4. cbn [bind]. eexists. split; [reflexivity|]. split; [exact D4|]. split; [exact D3|]. cbn [fst]. split.
      * intros k Hk. rewrite C4 by exact Hk. f_equal.
        replace (Z.to_nat (j + 1)) with (S (Z.to_nat j)) by lia. cbn [rsum].
        change (term k (Z.to_nat i) (Z.to_nat j)) with
          (fst (fA (Z.to_nat i)) * fst (fB (Z.to_nat j)) * val (snd (fA (Z.to_nat i))) (snd (fB (Z.to_nat j))) k)%R.
        ring.
      * intros ix Hix. rewrite F4 by exact Hix. apply F2, Hix.
    + exists st2. split; [exact E2|]. destruct I2 as (D2 & Db2 & C2 & F2). split; [exact D2|]. split; [exact Db2|].
      split; [|exact F2]. intros k Hk. rewrite C2 by exact Hk. f_equal.
      replace (Z.to_nat (i + 1)) with (S (Z.to_nat i)) by lia. rewrite NB, Nat2Z.id. cbn [rsum Z.to_nat]. ring.
  - rewrite E2. cbn [bind]. destruct I2 as (D2 & Db2 & C2 & F2). cbn [fst] in *.
    exists M2. split; [reflexivity|]. split; [exact D2|]. split; [|exact F2].
    intros k Hk. rewrite C2 by exact Hk. f_equal. rewrite NA, Nat2Z.id. cbn [Z.to_nat rsum].
    unfold contracted. rewrite (lsum_rsum _ la (0, 0)%R). rewrite Rplus_0_r. apply rsum_ext. intros i Hi.
    fold (fA i). rewrite (surjective_pairing (fA i)). cbv beta iota. rewrite (lsum_rsum _ lb (0, 0)%R).
    apply rsum_ext. intros j Hj. fold (fB j). rewrite (surjective_pairing (fB j)) at 1. reflexivity.
Qed.

(** ** Component loop *)

(** the component array of the shell holds these triples *)
Definition holds_comps (s : vshell) (comps : list (Z * Z * Z)) : Prop :=
  sv_size s = Z.of_nat (length comps) /\
  forall i, (i < length comps)%nat ->
    let '(n, l, m) := nth i comps (0, 0, 0) in
    aget (sv_cart s) [3 * Z.of_nat i + 0] = Ok n /\
    aget (sv_cart s) [3 * Z.of_nat i + 1] = Ok l /\
    aget (sv_cart s) [3 * Z.of_nat i + 2] = Ok m.

Lemma fill_components_ok (A B : vshell) ca cb value (val : Z * Z * Z -> Z * Z * Z -> R) M d :
  holds_comps A ca -> holds_comps B cb -> adims M = [d] -> sv_size A * sv_size B <= d ->
  (forall na la ma nb lb mb, In (na, la, ma) ca -> In (nb, lb, mb) cb ->
     value na la ma nb lb mb = Ok (val (na, la, ma) (nb, lb, mb))) ->
  exists M', fill_components A B value M = Ok M' /\ adims M' = [d] /\
    (forall m n, (m < length ca)%nat -> (n < length cb)%nat ->
       acell M' [Z.of_nat m * sv_size B + Z.of_nat n] =
         Some (val (nth m ca (0, 0, 0)) (nth n cb (0, 0, 0)))) /\
    (forall ix, (forall k, 0 <= k < sv_size A * sv_size B -> ix <> [k]) -> acell M' ix = acell M ix).
Proof.
  intros (SA & HA) (SB & HB) D Hd Hv. unfold fill_components.
  destruct (two_loop_fill (sv_size A) (sv_size B) [d]
    (fun m n => val (nth (Z.to_nat m) ca (0, 0, 0)) (nth (Z.to_nat n) cb (0, 0, 0)))
    (fun m n M =>
      let* n_A := aget (sv_cart A) [3 * m + 0] in
      let* l_A := aget (sv_cart A) [3 * m + 1] in
      let* m_A := aget (sv_cart A) [3 * m + 2] in
      let* n_B := aget (sv_cart B) [3 * n + 0] in
      let* l_B := aget (sv_cart B) [3 * n + 1] in
      let* m_B := aget (sv_cart B) [3 * n + 2] in
      let* v := value n_A l_A m_A n_B l_B m_B in
      aset M [m * sv_size B + n] v) M) as (M' & E' & D' & C' & F').
  - lia.
  - lia.
  - exact D.
  - intros m n M1 Hm Hn D1.
    specialize (HA (Z.to_nat m) ltac:(lia)). specialize (HB (Z.to_nat n) ltac:(lia)).
    destruct (nth (Z.to_nat m) ca (0, 0, 0)) as [[na la] ma] eqn:Ea.
    destruct (nth (Z.to_nat n) cb (0, 0, 0)) as [[nb lb] mb] eqn:Eb.
    rewrite Z2Nat.id in HA, HB by lia.
    destruct HA as (-> & -> & ->). destruct HB as (-> & -> & ->). cbn [bind].
    rewrite Hv; [|rewrite <- Ea; apply nth_In; lia|rewrite <- Eb; apply nth_In; lia]. cbn [bind].
    destruct (aset_ok M1 [m * sv_size B + n] (val (na, la, ma) (nb, lb, mb))) as (M2 & E2 & D2 & C2 & F2).
    { rewrite D1. apply inb1. nia. }
    exists M2. split; [exact E2|]. split; [congruence|]. split; [exact C2|exact F2].
  - exists M'. split; [exact E'|]. split; [exact D'|]. split; [|exact F'].
    intros m n Hm Hn. rewrite C' by lia. rewrite !Nat2Z.id. reflexivity.
Qed.
