(** * Closed forms of one pair of primitives; the contracted matrices *)

From Coq Require Import ZArith List Lia Bool Reals Lra.
From Verif Require Import Base GaussInt GaussProd HeapModel OneElModel OneElProofs.
Import ListNotations.
Open Scope Z_scope.

Definition tget (T : arr R) (dim imax jmax : Z) (val : Z -> Z -> Z -> R) : Prop :=
  adims T = [3; dim; dim] /\ forall c i j, 0 <= c < 3 -> 0 <= i <= imax -> 0 <= j <= jmax ->
    acell T [c; i; j] = Some (val c i j).

Lemma tget_get T dim imax jmax val c i j : tget T dim imax jmax val -> imax < dim -> jmax < dim ->
  0 <= c < 3 -> 0 <= i <= imax -> 0 <= j <= jmax -> aget T [c; i; j] = Ok (val c i j).
Proof.
  intros (D & C) H1 H2 H3 H4 H5. apply aget_ok; [|apply C; assumption]. rewrite D. apply inb3. lia.
Qed.

(** kinetic.c 131-140 and momentum.c 153-160 as functions of the table *)
Definition d2v (aA aB : R) (A B : R * R * R) (c i j : Z) : R :=
  (4 * aA * aA * osv aA aB A B c (i + 2) j - 2 * aA * IZR (2 * i + 1) * osv aA aB A B c i j
   + (if 2 <=? i then IZR (i * (i - 1)) * osv aA aB A B c (i - 2) j else 0))%R.

Definition d1v (aA aB : R) (A B : R * R * R) (c i j : Z) : R :=
  (2 * aA * osv aA aB A B c (i + 1) j - (if 1 <=? i then IZR i * osv aA aB A B c (i - 1) j else 0))%R.

Lemma d2_table_ok T LA LB aA aB A B : 0 <= LA < 10 -> 0 <= LB < 10 ->
  tget T 12 (LA + 2) (LB + 2) (osv aA aB A B) ->
  exists D, d2_table T LA LB aA = Ok D /\ tget D 10 LA LB (d2v aA aB A B).
Proof.
  intros HA HB HT. unfold d2_table, max_basis_L.
  destruct (fill3_ok R [3; 10; 10] LA LB (d2v aA aB A B)
    (fun coord i j D2 =>
      let* a := aget T [coord; i + 2; j] in
      let D2_ij := (0 + 4 * aA * aA * a)%R in
      let* b := aget T [coord; i; j] in
      let D2_ij := (D2_ij - 2 * aA * IZR (2 * i + 1) * b)%R in
      let* D2_ij :=
        if 2 <=? i then
          let* c := aget T [coord; i - 2; j] in
          Ok (D2_ij + IZR (i * (i - 1)) * c)%R
        else Ok D2_ij in
      aset D2 [coord; i; j] D2_ij) ltac:(lia) ltac:(lia)) with (T0 := @aundef R [3; 10; 10]) as (D & E & DD & C).
  - intros D c i j (Hc & Hi & Hj) DD _.
    rewrite !(tget_get T 12 (LA + 2) (LB + 2) _ _ _ _ HT) by lia. cbn [bind].
    destruct (aset_ok D [c; i; j] (d2v aA aB A B c i j)) as (D' & E' & DD' & C1 & C2); [rewrite DD; apply inb3; lia|].
    exists D'. split; [|rewrite DD'; auto]. rewrite <- E'. unfold d2v.
    destruct (2 <=? i) eqn:E2.
    + apply Z.leb_le in E2. rewrite !(tget_get T 12 (LA + 2) (LB + 2) _ _ _ _ HT) by lia. cbn [bind].
      f_equal. ring.
    + cbn [bind]. f_equal. ring.
  - reflexivity.
  - exists D. split; [exact E|]. split; [exact DD|]. intros c i j H1 H2 H3. apply C. unfold rng. lia.
Qed.

Lemma d1_table_ok T LA LB aA aB A B : 0 <= LA < 10 -> 0 <= LB < 10 ->
  tget T 11 (LA + 1) (LB + 1) (osv aA aB A B) ->
  exists D, d1_table T LA LB aA = Ok D /\ tget D 10 LA LB (d1v aA aB A B).
Proof.
  intros HA HB HT. unfold d1_table, max_basis_L.
  destruct (fill3_ok R [3; 10; 10] LA LB (d1v aA aB A B)
    (fun coord i j D1 =>
      let* a := aget T [coord; i + 1; j] in
      let D1_ij := (0 + 2 * aA * a)%R in
      let* D1_ij :=
        if 1 <=? i then
          let* c := aget T [coord; i - 1; j] in
          Ok (D1_ij - IZR i * c)%R
        else Ok D1_ij in
      aset D1 [coord; i; j] D1_ij) ltac:(lia) ltac:(lia)) with (T0 := @aundef R [3; 10; 10]) as (D & E & DD & C).
  - intros D c i j (Hc & Hi & Hj) DD _.
    rewrite !(tget_get T 11 (LA + 1) (LB + 1) _ _ _ _ HT) by lia. cbn [bind].
    destruct (aset_ok D [c; i; j] (d1v aA aB A B c i j)) as (D' & E' & DD' & C1 & C2); [rewrite DD; apply inb3; lia|].
    exists D'. split; [|rewrite DD'; auto]. rewrite <- E'. unfold d1v.
    destruct (1 <=? i) eqn:E2.
    + apply Z.leb_le in E2. rewrite !(tget_get T 11 (LA + 1) (LB + 1) _ _ _ _ HT) by lia. cbn [bind].
      f_equal. ring.
    + cbn [bind]. f_equal. ring.
  - reflexivity.
  - exists D. split; [exact E|]. split; [exact DD|]. intros c i j H1 H2 H3. apply C. unfold rng. lia.
Qed.

(** ** A shell with known contents *)

Definition comps_of (L : Z) (comps : list (Z * Z * Z)) : Prop :=
  forall n l m, In (n, l, m) comps -> 0 <= n /\ 0 <= l /\ 0 <= m /\ n + l + m = L.

Definition vshell_is (s : vshell) (L : Z) (org : R * R * R) (prims : list (R * R)) (comps : list (Z * Z * Z)) : Prop :=
  sv_L s = L /\ sv_org s = org /\ holds_prims s prims /\ holds_comps s comps /\ comps_of L comps.

(** entries for one pair of primitives *)
Section Entries.
Variables (LA LB : Z) (A B : R * R * R).

Definition nf (L : Z) (a : R) : R := gaussian_norm_factor L 0 0 a.

Definition ov_entry (cA cB : Z * Z * Z) (aA aB : R) : R :=
  let '(nA, lA, mA) := cA in let '(nB, lB, mB) := cB in
  (nf LA aA * nf LB aB * osv aA aB A B 0 nA nB * osv aA aB A B 1 lA lB * osv aA aB A B 2 mA mB)%R.

Definition kin_entry (cA cB : Z * Z * Z) (aA aB : R) : R :=
  let '(nA, lA, mA) := cA in let '(nB, lB, mB) := cB in
  (-0.5 * nf LA aA * nf LB aB *
   (d2v aA aB A B 0 nA nB * osv aA aB A B 1 lA lB * osv aA aB A B 2 mA mB +
    osv aA aB A B 0 nA nB * d2v aA aB A B 1 lA lB * osv aA aB A B 2 mA mB +
    osv aA aB A B 0 nA nB * osv aA aB A B 1 lA lB * d2v aA aB A B 2 mA mB))%R.

Definition pick (k c : Z) (aA aB : R) : Z -> Z -> R :=
  if k =? c then d1v aA aB A B c else osv aA aB A B c.

Definition mom_entry (k : Z) (cA cB : Z * Z * Z) (aA aB : R) : R :=
  let '(nA, lA, mA) := cA in let '(nB, lB, mB) := cB in
  (- nf LA aA * nf LB aB * pick k 0 aA aB nA nB * pick k 1 aA aB lA lB * pick k 2 aA aB mA mB)%R.

End Entries.

(** a buffer holding [entry] for every pair of components *)
Definition holds_matrix (M : arr R) (nb : Z) (ca cb : list (Z * Z * Z)) (entry : Z * Z * Z -> Z * Z * Z -> R) : Prop :=
  forall m n, (m < length ca)%nat -> (n < length cb)%nat ->
    acell M [Z.of_nat m * nb + Z.of_nat n] = Some (entry (nth m ca (0, 0, 0)) (nth n cb (0, 0, 0))).

Section Shells.
Variables (sA sB : vshell) (LA LB : Z) (A B : R * R * R) (la lb : list (R * R)) (ca cb : list (Z * Z * Z)).
Hypothesis HA : vshell_is sA LA A la ca.
Hypothesis HB : vshell_is sB LB B lb cb.
Hypothesis LA0 : 0 <= LA.
Hypothesis LB0 : 0 <= LB.

Lemma overlap_pair_ok aA aB M d : LA <= 9 -> LB <= 9 -> adims M = [d] -> sv_size sA * sv_size sB <= d ->
  exists M', overlap_shell_pair sA sB aA aB M = Ok M' /\ adims M' = [d] /\
    holds_matrix M' (sv_size sB) ca cb (fun x y => ov_entry LA LB A B x y aA aB).
Proof.
  intros HLA HLB D Hd. destruct HA as (EA & OA & PA & CA & KA). destruct HB as (EB & OB & PB & CB & KB).
  unfold overlap_shell_pair. cbv zeta. rewrite EA, EB, OA, OB. unfold max_basis_L.
  destruct (os_table_ok 10 LA LB aA aB A B) as (T & ET & HT); [lia..|]. rewrite ET. cbn [bind].
  change (tget T 10 LA LB (osv aA aB A B)) in HT.
  match goal with |- context [fill_components sA sB ?vv ?MM] =>
    destruct (fill_components_ok sA sB ca cb vv (fun x y => ov_entry LA LB A B x y aA aB) MM d) as (M' & E' & D' & C' & _); [exact CA|exact CB|exact D|exact Hd| |] end.
  - intros na lA ma nb lB mb Ia Ib. apply KA in Ia. apply KB in Ib.
    rewrite !(tget_get T 10 LA LB _ _ _ _ HT) by lia. cbn [bind].
    reflexivity.
  - exists M'. split; [exact E'|]. split; [exact D'|]. exact C'.
Qed.

Lemma kinetic_pair_ok aA aB M d : LA <= 9 -> LB <= 9 -> adims M = [d] -> sv_size sA * sv_size sB <= d ->
  exists M', kinetic_shell_pair sA sB aA aB M = Ok M' /\ adims M' = [d] /\
    holds_matrix M' (sv_size sB) ca cb (fun x y => kin_entry LA LB A B x y aA aB).
Proof.
  intros HLA HLB D Hd. destruct HA as (EA & OA & PA & CA & KA). destruct HB as (EB & OB & PB & CB & KB).
  unfold kinetic_shell_pair. cbv zeta. rewrite EA, EB, OA, OB. change (max_basis_L + 2) with 12.
  destruct (os_table_ok 12 (LA + 2) (LB + 2) aA aB A B) as (T & ET & HT); [lia..|]. rewrite ET. cbn [bind].
  change (tget T 12 (LA + 2) (LB + 2) (osv aA aB A B)) in HT.
  destruct (d2_table_ok T LA LB aA aB A B) as (D2 & ED & HD); [lia|lia|exact HT|]. rewrite ED. cbn [bind].
  match goal with |- context [fill_components sA sB ?vv ?MM] =>
    destruct (fill_components_ok sA sB ca cb vv (fun x y => kin_entry LA LB A B x y aA aB) MM d) as (M' & E' & D' & C' & _); [exact CA|exact CB|exact D|exact Hd| |] end.
  - intros na lA ma nb lB mb Ia Ib. apply KA in Ia. apply KB in Ib.
    rewrite !(tget_get T 12 (LA + 2) (LB + 2) _ _ _ _ HT) by lia.
    rewrite !(tget_get D2 10 LA LB _ _ _ _ HD) by lia. cbn [bind].
    reflexivity.
  - exists M'. split; [exact E'|]. split; [exact D'|]. exact C'.
Qed.

Lemma momentum_pair_ok aA aB bx by_ bz d : LA <= 9 -> LB <= 9 ->
  adims bx = [d] -> adims by_ = [d] -> adims bz = [d] -> sv_size sA * sv_size sB <= d ->
  exists x y z, momentum_shell_pair sA sB aA aB (bx, by_, bz) = Ok (x, y, z) /\
    adims x = [d] /\ adims y = [d] /\ adims z = [d] /\
    holds_matrix x (sv_size sB) ca cb (fun u v => mom_entry LA LB A B 0 u v aA aB) /\
    holds_matrix y (sv_size sB) ca cb (fun u v => mom_entry LA LB A B 1 u v aA aB) /\
    holds_matrix z (sv_size sB) ca cb (fun u v => mom_entry LA LB A B 2 u v aA aB).
Proof.
  intros HLA HLB Dx Dy Dz Hd. destruct HA as (EA & OA & PA & CA & KA). destruct HB as (EB & OB & PB & CB & KB).
  unfold momentum_shell_pair. cbv zeta. rewrite EA, EB, OA, OB. change (max_basis_L + 1) with 11.
  destruct (os_table_ok 11 (LA + 1) (LB + 1) aA aB A B) as (T & ET & HT); [lia..|]. rewrite ET. cbn [bind].
  change (tget T 11 (LA + 1) (LB + 1) (osv aA aB A B)) in HT.
  destruct (d1_table_ok T LA LB aA aB A B) as (D1 & ED & HD); [lia|lia|exact HT|]. rewrite ED. cbn [bind].
  assert (Step : forall k t0 t1 t2 M, 0 <= k < 3 -> adims M = [d] ->
     t0 = (if k =? 0 then D1 else T) -> t1 = (if k =? 1 then D1 else T) -> t2 = (if k =? 2 then D1 else T) ->
     exists M', fill_components sA sB (fun n_A l_A m_A n_B l_B m_B =>
        let* v0 := aget t0 [0; n_A; n_B] in
        let* v1 := aget t1 [1; l_A; l_B] in
        let* v2 := aget t2 [2; m_A; m_B] in
        Ok (- gaussian_norm_factor LA 0 0 aA * gaussian_norm_factor LB 0 0 aB * v0 * v1 * v2)%R) M = Ok M' /\ adims M' = [d] /\
        holds_matrix M' (sv_size sB) ca cb (fun u v => mom_entry LA LB A B k u v aA aB)).
  { intros k t0 t1 t2 M Hk DM E0 E1 E2.
    match goal with |- context [fill_components sA sB ?vv ?MM] =>
    destruct (fill_components_ok sA sB ca cb vv (fun x y => mom_entry LA LB A B k x y aA aB) MM d) as (M' & E' & D' & C' & _); [exact CA|exact CB|exact DM|exact Hd| |] end.
    - intros na lA ma nb lB mb Ia Ib. apply KA in Ia. apply KB in Ib.
      assert (G : forall c t i j, 0 <= c < 3 -> 0 <= i <= LA -> 0 <= j <= LB -> t = (if k =? c then D1 else T) ->
         aget t [c; i; j] = Ok (pick A B k c aA aB i j)).
      { intros c t i j Hc Hi Hj Et. unfold pick. subst t. destruct (k =? c).
        - apply (tget_get D1 10 LA LB _ _ _ _ HD); lia.
        - apply (tget_get T 11 (LA + 1) (LB + 1) _ _ _ _ HT); lia. }
      rewrite (G 0 t0) by (lia || exact E0). rewrite (G 1 t1) by (lia || exact E1). rewrite (G 2 t2) by (lia || exact E2).
      cbn [bind].
      reflexivity.
    - exists M'. split; [exact E'|]. split; [exact D'|]. exact C'. }
  destruct (Step 0 D1 T T bx) as (x & Ex & Dx' & Hx); try reflexivity; try lia; try assumption.
  destruct (Step 1 T D1 T by_) as (y & Ey & Dy' & Hy); try reflexivity; try lia; try assumption.
  destruct (Step 2 T T D1 bz) as (z & Ez & Dz' & Hz); try reflexivity; try lia; try assumption.
  exists x, y, z. rewrite Ex. cbn [bind]. rewrite Ey. cbn [bind]. rewrite Ez. cbn [bind].
  split; [reflexivity|]. auto 10.
Qed.

(** ** Contracted matrices *)

Lemma holds_to_index M entry : sv_size sB = Z.of_nat (length cb) -> sv_size sA = Z.of_nat (length ca) ->
  holds_matrix M (sv_size sB) ca cb entry ->
  forall k, 0 <= k < sv_size sA * sv_size sB ->
    acell M [k] = Some (entry (nth (Z.to_nat (k / sv_size sB)) ca (0, 0, 0)) (nth (Z.to_nat (k mod sv_size sB)) cb (0, 0, 0))).
Proof.
  intros EB EA H k Hk. assert (Hb : 0 < sv_size sB) by nia.
  pose proof (Z.div_mod k (sv_size sB) ltac:(lia)) as E. pose proof (Z.mod_pos_bound k (sv_size sB) Hb) as Hm.
  assert (Hq : 0 <= k / sv_size sB < sv_size sA).
  { split; [apply Z.div_pos; lia|]. apply Z.div_lt_upper_bound; lia. }
  pose proof (H (Z.to_nat (k / sv_size sB)) (Z.to_nat (k mod sv_size sB)) ltac:(lia) ltac:(lia)) as G.
  rewrite !Z2Nat.id in G by lia. replace (k / sv_size sB * sv_size sB + k mod sv_size sB) with k in G by lia. exact G.
Qed.

Lemma index_to_holds M entry : sv_size sB = Z.of_nat (length cb) -> sv_size sA = Z.of_nat (length ca) ->
  (forall k, 0 <= k < sv_size sA * sv_size sB ->
    acell M [k] = Some (entry (nth (Z.to_nat (k / sv_size sB)) ca (0, 0, 0)) (nth (Z.to_nat (k mod sv_size sB)) cb (0, 0, 0)))) ->
  holds_matrix M (sv_size sB) ca cb entry.
Proof.
  intros EB EA H m n Hm Hn. rewrite H by nia.
  assert (E1 : (Z.of_nat m * sv_size sB + Z.of_nat n) / sv_size sB = Z.of_nat m).
  { rewrite Z.div_add_l by lia. rewrite Z.div_small by lia. lia. }
  assert (E2 : (Z.of_nat m * sv_size sB + Z.of_nat n) mod sv_size sB = Z.of_nat n).
  { rewrite Z.add_comm, Z.mod_add by lia. apply Z.mod_small. lia. }
  rewrite E1, E2, !Nat2Z.id. reflexivity.
Qed.

(** what an integral routine leaves in the caller's matrix *)
Definition matrix_result (M M' : arr R) (sz : Z) (entry : Z * Z * Z -> Z * Z * Z -> R -> R -> R) : Prop :=
  adims M' = [sz] /\
  holds_matrix M' (sv_size sB) ca cb (fun x y => contracted (entry x y) la lb) /\
  (forall ix, (forall k, 0 <= k < sv_size sA * sv_size sB -> ix <> [k]) -> acell M' ix = acell M ix).

Lemma contract_result pair entry M sz :
  adims M = [sz] -> sv_size sA * sv_size sB <= sz ->
  (forall aA aB buf, adims buf = [sv_size sA * sv_size sB] ->
     exists buf', pair aA aB buf = Ok buf' /\ adims buf' = [sv_size sA * sv_size sB] /\
       holds_matrix buf' (sv_size sB) ca cb (fun x y => entry x y aA aB)) ->
  exists M', contract_loop pair sA sB M = Ok M' /\ matrix_result M M' sz entry.
Proof.
  intros D Hsz Hp. destruct HA as (EA & OA & PA & CA & KA). destruct HB as (EB & OB & PB & CB & KB).
  pose proof (proj1 CA) as SA. pose proof (proj1 CB) as SB.
  destruct (contract_loop_ok (fun _ => True) pair sA sB M la lb sz
    (fun aA aB k => entry (nth (Z.to_nat (k / sv_size sB)) ca (0, 0, 0)) (nth (Z.to_nat (k mod sv_size sB)) cb (0, 0, 0)) aA aB))
    as (M' & E' & D' & C' & F'); try assumption; try lia; try (intros; exact I).
  - intros aA aB buf _ _ Db. destruct (Hp aA aB buf Db) as (buf' & E1 & D1 & H1).
    exists buf'. split; [exact E1|]. split; [exact D1|].
    exact (holds_to_index buf' (fun x y => entry x y aA aB) SB SA H1).
  - exists M'. split; [exact E'|]. split; [exact D'|]. split; [|exact F'].
    apply (index_to_holds M' (fun x y => contracted (entry x y) la lb)); assumption.
Qed.

Lemma overlap_result M sz : LA <= 9 -> LB <= 9 -> adims M = [sz] -> sv_size sA * sv_size sB <= sz ->
  exists M', overlap_integrals sA sB M = Ok M' /\ matrix_result M M' sz (ov_entry LA LB A B).
Proof.
  intros HLA HLB D Hsz. rewrite overlap_contract. apply contract_result; [exact D|exact Hsz|].
  intros aA aB buf Db. apply overlap_pair_ok; try assumption. lia.
Qed.

Lemma kinetic_result M sz : LA <= 9 -> LB <= 9 -> adims M = [sz] -> sv_size sA * sv_size sB <= sz ->
  exists M', kinetic_integrals sA sB M = Ok M' /\ matrix_result M M' sz (kin_entry LA LB A B).
Proof.
  intros HLA HLB D Hsz. rewrite kinetic_contract. apply contract_result; [exact D|exact Hsz|].
  intros aA aB buf Db. apply kinetic_pair_ok; try assumption. lia.
Qed.

Lemma momentum_result Mx My Mz sz : LA <= 9 -> LB <= 9 ->
  adims Mx = [sz] -> adims My = [sz] -> adims Mz = [sz] -> sv_size sA * sv_size sB <= sz ->
  exists X Y Z, momentum_integrals sA sB (Mx, My, Mz) = Ok (X, Y, Z) /\
    matrix_result Mx X sz (mom_entry LA LB A B 0) /\
    matrix_result My Y sz (mom_entry LA LB A B 1) /\
    matrix_result Mz Z sz (mom_entry LA LB A B 2).
Proof.
  intros HLA HLB Dx Dy Dz Hsz.
  pose proof HA as (EA & OA & (NA & GA) & (SA & _) & KA). pose proof HB as (EB & OB & (NB & GB) & (SB & _) & KB).
  unfold momentum_integrals. cbv zeta. set (size := sv_size sA * sv_size sB) in *.
  assert (Hs0 : 0 <= size) by (unfold size; nia).
  destruct (memset0_ok size sz Mx Dx) as (X1 & Ex1 & Dx1 & Cx1 & Fx1); [lia|].
  destruct (memset0_ok size sz My Dy) as (Y1 & Ey1 & Dy1 & Cy1 & Fy1); [lia|].
  destruct (memset0_ok size sz Mz Dz) as (Z1 & Ez1 & Dz1 & Cz1 & Fz1); [lia|].
  rewrite Ex1. cbn [bind]. rewrite Ey1. cbn [bind]. rewrite Ez1. cbn [bind].
  pose (fA := fun i => nth i la (0, 0)%R). pose (fB := fun j => nth j lb (0, 0)%R).
  pose (ent := fun (q k : Z) aA aB => mom_entry LA LB A B q (nth (Z.to_nat (k / sv_size sB)) ca (0, 0, 0))
                 (nth (Z.to_nat (k mod sv_size sB)) cb (0, 0, 0)) aA aB).
  pose (term := fun q k i j => (fst (fA i) * fst (fB j) * ent q k (snd (fA i)) (snd (fB j)))%R).
  pose (I1 := fun q (M0 : arr R) (i j : Z) (M : arr R) => adims M = [sz] /\
     (forall k, 0 <= k < size -> acell M [k] =
        Some (rsum (Z.to_nat i) (fun i' => rsum (length lb) (term q k i')) + rsum (Z.to_nat j) (term q k (Z.to_nat i)))%R) /\
     (forall ix, (forall k, 0 <= k < size -> ix <> [k]) -> acell M ix = acell M0 ix)).
  pose (Inv := fun (i j : Z) (st : arr R * arr R * arr R * (arr R * arr R * arr R)) =>
     let '(X, Y, Z', (bx, by_, bz)) := st in
     I1 0 Mx i j X /\ I1 1 My i j Y /\ I1 2 Mz i j Z' /\
     adims bx = [size] /\ adims by_ = [size] /\ adims bz = [size]).
  assert (Hax : forall q M0 i j M2 buf, I1 q M0 i j M2 -> 0 <= i -> 0 <= j -> adims buf = [size] ->
     (forall k, 0 <= k < size -> acell buf [k] = Some (ent q k (snd (fA (Z.to_nat i))) (snd (fB (Z.to_nat j))))) ->
     exists M4, daxpy size (fst (fA (Z.to_nat i)) * fst (fB (Z.to_nat j)))%R buf M2 = Ok M4 /\ I1 q M0 i (j + 1) M4).
  { intros q M0 i j M2 buf (D2 & C2 & F2) Hi Hj D3 C3.
    destruct (daxpy_ok size size sz (fst (fA (Z.to_nat i)) * fst (fB (Z.to_nat j)))%R buf M2 _ _ D3 D2
         ltac:(lia) ltac:(lia) C3 C2) as (M4 & E4 & D4 & C4 & F4).
    exists M4. split; [exact E4|]. split; [exact D4|]. split.
    - intros k Hk. rewrite C4 by exact Hk. f_equal.
      replace (Z.to_nat (j + 1)) with (S (Z.to_nat j)) by lia. cbn [rsum].
      change (term q k (Z.to_nat i) (Z.to_nat j)) with
          (fst (fA (Z.to_nat i)) * fst (fB (Z.to_nat j)) * ent q k (snd (fA (Z.to_nat i))) (snd (fB (Z.to_nat j))))%R.
      ring.
    - intros ix Hix. rewrite F4 by exact Hix. apply F2, Hix. }
  assert (Hnext : forall q M0 i M2, 0 <= i -> I1 q M0 i (sv_num sB) M2 -> I1 q M0 (i + 1) 0 M2).
  { intros q M0 i M2 Hi (D2 & C2 & F2). split; [exact D2|]. split; [|exact F2]. intros k Hk. rewrite C2 by exact Hk. f_equal.
    replace (Z.to_nat (i + 1)) with (S (Z.to_nat i)) by lia. rewrite NB, Nat2Z.id. cbn [rsum Z.to_nat]. ring. }
  assert (Hend : forall q M0 M2, I1 q M0 (sv_num sA) 0 M2 -> matrix_result M0 M2 sz (mom_entry LA LB A B q)).
  { intros q M0 M2 (D2 & C2 & F2). split; [exact D2|]. split; [|exact F2].
    apply (index_to_holds M2 (fun x y => contracted (mom_entry LA LB A B q x y) la lb)); [assumption|assumption|]. intros k Hk. rewrite C2 by exact Hk. f_equal.
    rewrite NA, Nat2Z.id. cbn [Z.to_nat rsum].
    unfold contracted. rewrite (lsum_rsum _ la (0, 0)%R). rewrite Rplus_0_r. apply rsum_ext. intros i Hi.
    fold (fA i). rewrite (surjective_pairing (fA i)). cbv beta iota. rewrite (lsum_rsum _ lb (0, 0)%R).
    apply rsum_ext. intros j Hj. fold (fB j). rewrite (surjective_pairing (fB j)) at 1. reflexivity. }
  assert (Hstart : forall q M0 M2, adims M2 = [sz] -> (forall k, 0 <= k < size -> acell M2 [k] = Some 0%R) ->
     (forall ix, (forall k, 0 <= k < size -> ix <> [k]) -> acell M2 ix = acell M0 ix) -> I1 q M0 0 0 M2).
  { intros q M0 M2 D2 C2 F2. split; [exact D2|]. split; [|exact F2]. intros k Hk. rewrite C2 by exact Hk.
    cbn [Z.to_nat rsum]. f_equal. ring. }
  match goal with |- context [for_range 0 (sv_num sA) ?b ?s] =>
    destruct (for_range_ok (fun i st => Inv i 0 st) 0 (sv_num sA) b s) as ([[[X2 Y2] Z2] [[bx2 by2] bz2]] & E2 & I2) end.
  - lia.
  - unfold Inv. split; [apply Hstart; assumption|]. split; [apply Hstart; assumption|].
    split; [apply Hstart; assumption|]. auto.
  - intros i st Hi Hinv. cbv beta.
    match goal with |- context [for_range 0 (sv_num sB) ?b ?s] =>
      destruct (for_range_ok (fun j st => Inv i j st) 0 (sv_num sB) b s) as (st2 & E2 & I2) end.
    + lia.
    + exact Hinv.
    + intros j [[[X2 Y2] Z2] [[bx2 by2] bz2]] Hj (Ix & Iy & Iz & Dbx & Dby & Dbz).
      destruct (GA (Z.to_nat i)) as (GcA & GaA); [lia|]. destruct (GB (Z.to_nat j)) as (GcB & GaB); [lia|].
      rewrite Z2Nat.id in GcA, GaA, GcB, GaB by lia.
      fold (fA (Z.to_nat i)) in GcA, GaA. fold (fB (Z.to_nat j)) in GcB, GaB.
      rewrite GcA, GaA, GcB, GaB. cbn [bind].
      destruct (momentum_pair_ok (snd (fA (Z.to_nat i))) (snd (fB (Z.to_nat j))) bx2 by2 bz2 size HLA HLB Dbx Dby Dbz)
        as (x & y & z & E3 & Dx3 & Dy3 & Dz3 & Hx & Hy & Hz); [unfold size; lia|].
      rewrite E3. cbn [bind].
      destruct (Hax 0 Mx i j X2 x Ix) as (X4 & E4 & I4); [lia|lia|exact Dx3| |].
      { intros k Hk. unfold ent. exact (holds_to_index x (fun u v => mom_entry LA LB A B 0 u v _ _) SB SA Hx k Hk). }
      destruct (Hax 1 My i j Y2 y Iy) as (Y4 & E5 & I5); [lia|lia|exact Dy3| |].
      { intros k Hk. unfold ent. exact (holds_to_index y (fun u v => mom_entry LA LB A B 1 u v _ _) SB SA Hy k Hk). }
      destruct (Hax 2 Mz i j Z2 z Iz) as (Z4 & E6 & I6); [lia|lia|exact Dz3| |].
      { intros k Hk. unfold ent. exact (holds_to_index z (fun u v => mom_entry LA LB A B 2 u v _ _) SB SA Hz k Hk). }
      rewrite E4. cbn [bind]. rewrite E5. cbn [bind]. rewrite E6. cbn [bind].
      eexists. split; [reflexivity|]. unfold Inv. auto 10.
    + exists st2. split; [exact E2|]. destruct st2 as [[[X2 Y2] Z2] [[bx2 by2] bz2]].
      destruct I2 as (Ix & Iy & Iz & Dbx & Dby & Dbz). unfold Inv.
      split; [apply Hnext; [lia|assumption]|]. split; [apply Hnext; [lia|assumption]|].
      split; [apply Hnext; [lia|assumption]|]. auto.
  - rewrite E2. cbn [bind]. destruct I2 as (Ix & Iy & Iz & _).
    exists X2, Y2, Z2. split; [reflexivity|]. auto.
Qed.

End Shells.

(** ** Angular momenta beyond the scratch arrays *)

Lemma os_table_fail dim imax jmax aA aB A B : 2 <= dim -> 0 <= imax -> 0 <= jmax -> dim <= imax \/ dim <= jmax ->
  os_table dim imax jmax aA aB A B = Fail OutOfBounds.
Proof.
  intros Hd Hi Hj Hbad. unfold os_table. cbv zeta. rewrite for_range_step by lia.
  match goal with |- bind ?m _ = _ => enough (E : m = Fail OutOfBounds) by (rewrite E; reflexivity) end.
  set (pf := (1 / (2 * (aA + aB)))%R).
  set (XA := ((aA * coord3 A 0 + aB * coord3 B 0) / (aA + aB) - coord3 A 0)%R).
  set (XB := ((aA * coord3 A 0 + aB * coord3 B 0) / (aA + aB) - coord3 B 0)%R).
  set (s0 := (sqrt (PI / (aA + aB)) * exp (- (aA * aB / (aA + aB)) * (coord3 A 0 - coord3 B 0) * (coord3 A 0 - coord3 B 0)))%R).
  pose (val := fun i j => os XA XB pf s0 (Z.to_nat i) (Z.to_nat j)).
  pose (Inv := fun i j (T : arr R) => adims T = [3; dim; dim] /\
     forall i' j', 0 <= i' -> 0 <= j' <= jmax -> (i' < i \/ (i' = i /\ j' < j)) -> acell T [0; i'; j'] = Some (val i' j')).
  assert (Cell : forall i j T, 0 <= i < dim -> 0 <= j <= jmax -> j < dim -> jmax < dim \/ i = 0 -> Inv i j T ->
     exists T', os_cell T 0 i j s0 XA XB pf = Ok T' /\ Inv i (j + 1) T').
  { intros i j T Hi1 Hj1 Hj2 Hor (D & C).
    destruct (aset_ok T [0; i; j] (val i j)) as (T' & E' & D' & C1 & C2); [rewrite D; apply inb3; lia|].
    exists T'. split.
    - rewrite <- E'. apply (os_cell_ok T 0 i j dim (dim - 1) (Z.min jmax (dim - 1))); try assumption; try lia.
      intros i' j' H1 H2 H3. apply C; lia.
    - split; [congruence|]. intros i' j' H1 H2 H3.
      destruct (list_eq_dec Z.eq_dec [0; i'; j'] [0; i; j]) as [Eq|Ne].
      + injection Eq as -> ->. exact C1.
      + rewrite C2 by exact Ne. apply C; try assumption.
        destruct H3 as [H3|(-> & H3)]; [lia|]. right. split; [reflexivity|].
        destruct (Z.eq_dec j' j); [subst; congruence|lia]. }
  destruct (Z_le_gt_dec dim jmax) as [Hjb|Hjb].
  - (* the first row already runs over *)
    rewrite for_range_step by lia.
    match goal with |- bind ?m _ = _ => enough (E : m = Fail OutOfBounds) by (rewrite E; reflexivity) end.
    apply (for_range_fail (fun j T => Inv 0 j T) 0 (jmax + 1) dim).
    + lia.
    + split; [reflexivity|]. intros; lia.
    + intros j T Hjr HI. apply Cell; try lia. exact HI.
    + intros T (D & C).
      assert (G : forall j', 0 <= j' < dim -> aget T [0; 0; j'] = Ok (val 0 j')).
      { intros j' H. apply aget_ok; [rewrite D; apply inb3; lia|]. apply C; lia. }
      assert (F : forall v, aset T [0; 0; dim] v = Fail OutOfBounds).
      { intros v. unfold aset. rewrite D. destruct (inb [3; dim; dim] [0; 0; dim]) eqn:Eb; [apply inb3 in Eb; lia|reflexivity]. }
      unfold os_cell. replace (0 + dim =? 0) with false by (symmetry; apply Z.eqb_neq; lia). cbn [Z.eqb].
      rewrite G by lia. cbn [bind]. destruct (0 <? dim - 1); [rewrite G by lia|]; cbn [bind]; apply F.
  - (* all rows up to dim fit; row dim does not *)
    apply (for_range_fail (fun i T => Inv i 0 T) 0 (imax + 1) dim).
    + lia.
    + split; [reflexivity|]. intros; lia.
    + intros i T Hir HI.
      destruct (for_range_ok (fun j T => Inv i j T) 0 (jmax + 1) (fun j T => os_cell T 0 i j s0 XA XB pf) T)
        as (T' & E' & D' & C'); [lia|exact HI| |].
      * intros j T1 Hjr HI1. apply Cell; try lia. exact HI1.
      * exists T'. split; [exact E'|]. split; [exact D'|]. intros i' j' H1 H2 H3. apply C'; lia.
    + intros T (D & C). rewrite for_range_step by lia.
      assert (G : forall i', 0 <= i' < dim -> aget T [0; i'; 0] = Ok (val i' 0)).
      { intros i' H. apply aget_ok; [rewrite D; apply inb3; lia|]. apply C; lia. }
      assert (F : forall v, aset T [0; dim; 0] v = Fail OutOfBounds).
      { intros v. unfold aset. rewrite D. destruct (inb [3; dim; dim] [0; dim; 0]) eqn:Eb; [apply inb3 in Eb; lia|reflexivity]. }
      unfold os_cell. replace (dim + 0 =? 0) with false by (symmetry; apply Z.eqb_neq; lia).
      replace (dim =? 0) with false by (symmetry; apply Z.eqb_neq; lia).
      rewrite G by lia. cbn [bind]. destruct (0 <? dim - 1); [rewrite G by lia|]; cbn [bind Z.ltb Z.compare]; rewrite F; reflexivity.
Qed.

Section Fails.
Variables (sA sB : vshell) (LA LB : Z) (A B : R * R * R) (la lb : list (R * R)) (ca cb : list (Z * Z * Z)).
Hypothesis HA : vshell_is sA LA A la ca.
Hypothesis HB : vshell_is sB LB B lb cb.
Hypothesis LA0 : 0 <= LA.
Hypothesis LB0 : 0 <= LB.
Hypothesis Hbad : 10 <= LA \/ 10 <= LB.
Hypothesis Hla : la <> [].
Hypothesis Hlb : lb <> [].

Lemma contract_fail pair M sz : (forall a b buf, pair a b buf = Fail OutOfBounds) ->
  adims M = [sz] -> sv_size sA * sv_size sB <= sz ->
  contract_loop pair sA sB M = Fail OutOfBounds.
Proof.
  intros Hp D Hsz. destruct HA as (EA & OA & (NA & GA) & CA & KA). destruct HB as (EB & OB & (NB & GB) & CB & KB).
  pose proof (proj1 CA) as SA. pose proof (proj1 CB) as SB.
  unfold contract_loop. cbv zeta.
  destruct (memset0_ok (sv_size sA * sv_size sB) sz M D) as (M1 & E1 & _); [nia|]. rewrite E1. cbn [bind].
  assert (HlA : (0 < length la)%nat) by (destruct la; [congruence|cbn; lia]).
  assert (HlB : (0 < length lb)%nat) by (destruct lb; [congruence|cbn; lia]).
  rewrite for_range_step by lia. rewrite for_range_step by lia.
  destruct (GA 0%nat HlA) as (GA1 & GA2). destruct (GB 0%nat HlB) as (GB1 & GB2). cbn [Z.of_nat] in *.
  rewrite GA1, GA2, GB1, GB2. cbn [bind]. rewrite Hp. reflexivity.
Qed.

Lemma overlap_fail M sz : adims M = [sz] -> sv_size sA * sv_size sB <= sz -> overlap_integrals sA sB M = Fail OutOfBounds.
Proof.
  intros D Hsz. rewrite overlap_contract. apply (contract_fail _ M sz); try assumption.
  intros a b buf. unfold overlap_shell_pair. cbv zeta. destruct HA as (-> & _). destruct HB as (-> & _).
  rewrite os_table_fail by (unfold max_basis_L; lia). reflexivity.
Qed.

Lemma kinetic_fail M sz : adims M = [sz] -> sv_size sA * sv_size sB <= sz -> kinetic_integrals sA sB M = Fail OutOfBounds.
Proof.
  intros D Hsz. rewrite kinetic_contract. apply (contract_fail _ M sz); try assumption.
  intros a b buf. unfold kinetic_shell_pair. cbv zeta. destruct HA as (-> & _). destruct HB as (-> & _).
  rewrite os_table_fail by (unfold max_basis_L; lia). reflexivity.
Qed.

Lemma momentum_fail Mx My Mz sz : adims Mx = [sz] -> adims My = [sz] -> adims Mz = [sz] ->
  sv_size sA * sv_size sB <= sz -> momentum_integrals sA sB (Mx, My, Mz) = Fail OutOfBounds.
Proof.
  intros Dx Dy Dz Hsz. destruct HA as (EA & OA & (NA & GA) & CA & KA). destruct HB as (EB & OB & (NB & GB) & CB & KB).
  pose proof (proj1 CA) as SA. pose proof (proj1 CB) as SB.
  unfold momentum_integrals. cbv zeta.
  destruct (memset0_ok (sv_size sA * sv_size sB) sz Mx Dx) as (X1 & E1 & _); [nia|]. rewrite E1. cbn [bind].
  destruct (memset0_ok (sv_size sA * sv_size sB) sz My Dy) as (Y1 & E2 & _); [nia|]. rewrite E2. cbn [bind].
  destruct (memset0_ok (sv_size sA * sv_size sB) sz Mz Dz) as (Z1 & E3 & _); [nia|]. rewrite E3. cbn [bind].
  assert (HlA : (0 < length la)%nat) by (destruct la; [congruence|cbn; lia]).
  assert (HlB : (0 < length lb)%nat) by (destruct lb; [congruence|cbn; lia]).
  rewrite for_range_step by lia. rewrite for_range_step by lia.
  destruct (GA 0%nat HlA) as (GA1 & GA2). destruct (GB 0%nat HlB) as (GB1 & GB2). cbn [Z.of_nat] in *.
  rewrite GA1, GA2, GB1, GB2. cbn [bind].
  unfold momentum_shell_pair. cbv zeta. rewrite EA, EB.
  rewrite os_table_fail by (unfold max_basis_L; lia). reflexivity.
Qed.

End Fails.
