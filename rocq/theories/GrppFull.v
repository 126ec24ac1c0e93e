(** * The full GRPP integrals are the sum of their parts (C28) *)

From Coq Require Import ZArith List Lia Bool Reals Lra.
From Verif Require Import Base Loops Sums CartModel CartProofs HeapModel HeapProofs HeapSpec OneElModel OneElProofs OneElPairs OneElSpec OneElThms
  GaussProd OneElInt SphProofs OvGradModel OvGradProofs OvGradThms OutercoreModel OutercoreProofs OutercoreMain OutercoreThms GrppModel.
Import ListNotations.
Open Scope R_scope.

(** ** What a component routine does: it overwrites the leading block of any matrix with given values *)
Definition gives1 (f : arr R -> res (arr R)) (na nb : Z) (v : Z -> Z -> R) : Prop :=
  forall M sz, adims M = [sz] -> (na * nb <= sz)%Z -> exists M', f M = Ok M' /\ ismat M' sz na nb v.

Definition gives3 (f : arr R * arr R * arr R -> res (arr R * arr R * arr R)) (na nb : Z) (v : Z -> Z -> Z -> R) : Prop :=
  forall M0 M1 M2 s0 s1 s2, adims M0 = [s0] -> adims M1 = [s1] -> adims M2 = [s2] -> (na * nb <= s0)%Z -> (na * nb <= s1)%Z -> (na * nb <= s2)%Z ->
    exists M0' M1' M2', f (M0, M1, M2) = Ok (M0', M1', M2') /\ ismat M0' s0 na nb (v 0%Z) /\ ismat M1' s1 na nb (v 1%Z) /\ ismat M2' s2 na nb (v 2%Z).

Definition gives4 (f : mats -> res (mats * list (vpot * vshell))) (A B : vshell) (v : Z -> Z -> Z -> R) : Prop :=
  forall out szs, fits4 A B out szs -> exists out' ocs, f out = Ok (out', ocs) /\ four out' szs (sv_size A) (sv_size B) v.

Lemma outside_memset n M M' : (forall ix, (forall k, (0 <= k < n)%Z -> ix <> [k]) -> aget M' ix = aget M ix) -> outside n M M'.
Proof. intros H ix Hix. apply H. intros k Hk ->. apply Hix. eauto. Qed.

Lemma memset_full M sz nr nc : adims M = [sz] -> (0 <= nr)%Z -> (0 <= nc)%Z -> (nr * nc <= sz)%Z ->
  exists M', memset0 (nr * nc) M = Ok M' /\ ismat M' sz nr nc (fun _ _ => 0) /\ outside (nr * nc) M M'.
Proof.
  intros D Hr Hc Hsz. destruct (memset0_get (nr * nc) sz M D ltac:(nia)) as (M' & E & D' & C & F).
  exists M'. split; [exact E|]. split; [split; [exact D'|]; split; [exact Hsz|]; intros i j Hi Hj; apply C; apply index_in; assumption|].
  apply outside_memset. exact F.
Qed.

Section Full.
Variables (rt : routines) (A B : vshell) (C : R * R * R).
Notation na := (sv_size A).
Notation nb := (sv_size B).
Hypothesis Na : (0 <= na)%Z.
Hypothesis Nb : (0 <= nb)%Z.
Notation size := (na * nb)%Z.

Lemma arep_fold v2 l : (forall U, In U l -> gives1 (rt_type2 rt A B C U) na nb (v2 U)) ->
  forall buf arep s0 s1 f g, ismat buf s0 na nb f -> ismat arep s1 na nb g ->
  exists buf' arep' f', fold_left (fun (r : res (arr R * arr R)) U =>
      let* (buf_arep, arep) := r in
      let* buf_arep := rt_type2 rt A B C U buf_arep in
      let* arep := daxpy size 1 buf_arep arep in
      Ok (buf_arep, arep)) l (Ok (buf, arep)) = Ok (buf', arep') /\ ismat buf' s0 na nb f' /\
    ismat arep' s1 na nb (fun i j => g i j + lsum (fun U => v2 U i j) l) /\ outside size arep arep'.
Proof.
  induction l as [|U l IH]; intros H2 buf arep s0 s1 f g Hb Ha.
  - exists buf, arep, f. split; [reflexivity|]. split; [exact Hb|]. split; [|apply outside_refl].
    eapply ismat_ext; [|exact Ha]. intros. cbn [lsum fold_right]. ring.
  - cbn [fold_left]. rewrite bind_ok. pose proof Hb as (Db & Sb & _).
    destruct (H2 U (or_introl eq_refl) buf s0 Db Sb) as (b1 & E1 & M1). rewrite E1, bind_ok.
    destruct (daxpy_mat na nb 1 b1 arep s0 s1 _ _ Na Nb M1 Ha) as (a1 & E2 & M2 & O2). rewrite E2, bind_ok.
    destruct (IH (fun U' HU => H2 U' (or_intror HU)) b1 a1 s0 s1 _ _ M1 M2) as (b2 & a2 & f' & E3 & M3 & M4 & O3).
    exists b2, a2, f'. split; [exact E3|]. split; [exact M3|]. split; [|eapply outside_trans; [exact O2|exact O3]].
    eapply ismat_ext; [|exact M4]. intros i j Hi Hj. cbv beta. rewrite lsum_cons. ring.
Qed.

Definition so_weight (U : vpot) : R := 2 / IZR (2 * pv_L U + 1).

Lemma so_fold v3 l : (forall U, In U l -> gives3 (rt_so rt A B C U) na nb (v3 U)) ->
  forall bx by_ bz sx sy sz t0 t1 t2 s0 s1 s2 fx fy fz g0 g1 g2,
  ismat bx t0 na nb fx -> ismat by_ t1 na nb fy -> ismat bz t2 na nb fz ->
  ismat sx s0 na nb g0 -> ismat sy s1 na nb g1 -> ismat sz s2 na nb g2 ->
  exists bx' by' bz' sx' sy' sz' fx' fy' fz', fold_left (fun (r : res (arr R * arr R * arr R * arr R * arr R * arr R)) U =>
      let* (bx, by_, bz, sx, sy, sz) := r in
      let* (bx, by_, bz) := rt_so rt A B C U (bx, by_, bz) in
      let L := pv_L U in
      let* sx := daxpy size (2 / IZR (2 * L + 1)) bx sx in
      let* sy := daxpy size (2 / IZR (2 * L + 1)) by_ sy in
      let* sz := daxpy size (2 / IZR (2 * L + 1)) bz sz in
      Ok (bx, by_, bz, sx, sy, sz)) l (Ok (bx, by_, bz, sx, sy, sz)) = Ok (bx', by', bz', sx', sy', sz') /\
    ismat bx' t0 na nb fx' /\ ismat by' t1 na nb fy' /\ ismat bz' t2 na nb fz' /\
    ismat sx' s0 na nb (fun i j => g0 i j + lsum (fun U => so_weight U * v3 U 0%Z i j) l) /\
    ismat sy' s1 na nb (fun i j => g1 i j + lsum (fun U => so_weight U * v3 U 1%Z i j) l) /\
    ismat sz' s2 na nb (fun i j => g2 i j + lsum (fun U => so_weight U * v3 U 2%Z i j) l) /\
    outside size sx sx' /\ outside size sy sy' /\ outside size sz sz'.
Proof.
  induction l as [|U l IH]; intros H3 bx by_ bz sx sy sz t0 t1 t2 s0 s1 s2 fx fy fz g0 g1 g2 Bx By Bz Sx Sy Sz.
  - exists bx, by_, bz, sx, sy, sz, fx, fy, fz. split; [reflexivity|]. do 3 (split; [assumption|]).
    split; [|split; [|split; [|auto using outside_refl]]]; (eapply ismat_ext; [|eassumption]); intros; cbn [lsum fold_right]; ring.
  - cbn [fold_left]. rewrite bind_ok. pose proof Bx as (Dx & Zx & _). pose proof By as (Dy & Zy & _). pose proof Bz as (Dz & Zz & _).
    destruct (H3 U (or_introl eq_refl) bx by_ bz t0 t1 t2 Dx Dy Dz Zx Zy Zz) as (b0 & b1 & b2 & E & M0 & M1 & M2). rewrite E, bind_ok.
    destruct (daxpy_mat na nb (so_weight U) b0 sx t0 s0 _ _ Na Nb M0 Sx) as (x' & Ex & Mx & Ox).
    destruct (daxpy_mat na nb (so_weight U) b1 sy t1 s1 _ _ Na Nb M1 Sy) as (y' & Ey & My & Oy).
    destruct (daxpy_mat na nb (so_weight U) b2 sz t2 s2 _ _ Na Nb M2 Sz) as (z' & Ez & Mz & Oz).
    unfold so_weight in Ex, Ey, Ez. cbv zeta. rewrite Ex, bind_ok, Ey, bind_ok, Ez, bind_ok.
    destruct (IH (fun U' HU => H3 U' (or_intror HU)) b0 b1 b2 x' y' z' t0 t1 t2 s0 s1 s2 _ _ _ _ _ _ M0 M1 M2 Mx My Mz)
      as (bx' & by' & bz' & sx' & sy' & sz' & fx' & fy' & fz' & E' & B0 & B1 & B2 & S0 & S1 & S2 & O0 & O1 & O2).
    exists bx', by', bz', sx', sy', sz', fx', fy', fz'. split; [exact E'|]. do 3 (split; [assumption|]).
    split; [|split; [|split; [|split; [|split]]]]; try (eapply outside_trans; eassumption);
      (eapply ismat_ext; [|eassumption]); intros i j Hi Hj; cbv beta; rewrite lsum_cons; unfold so_weight; ring.
Qed.

Definition parts (v1 : Z -> Z -> R) (v2 : vpot -> Z -> Z -> R) (v3 : vpot -> Z -> Z -> Z -> R) (v4 : Z -> Z -> Z -> R) (gv : gview) (k i j : Z) : R :=
  if (k =? -1)%Z then v1 i j + lsum (fun U => v2 U i j) (gv_arep gv) + v4 k i j
  else lsum (fun U => so_weight U * v3 U k i j) (gv_esop gv) + v4 k i j.

Lemma full_sum_ok gv out szs v1 v2 v3 v4 : fits4 A B out szs ->
  gives1 (rt_type1 rt A B C (gv_local gv)) na nb v1 ->
  (forall U, In U (gv_arep gv) -> gives1 (rt_type2 rt A B C U) na nb (v2 U)) ->
  (forall U, In U (gv_esop gv) -> gives3 (rt_so rt A B C U) na nb (v3 U)) ->
  gives4 (outercore_potential_integrals (rt_oc rt) A B C (gv_oc gv)) A B v4 ->
  exists out', full_sum rt A B C gv out = Ok out' /\ out4 size out out' /\ four out' szs na nb (parts v1 v2 v3 v4 gv).
Proof.
  intros F H1 H2 H3 H4. destruct out as [[[m0 m1] m2] m3], szs as [[[s0 s1] s2] s3].
  destruct F as ((D0 & Z0) & (D1 & Z1) & (D2 & Z2) & (D3 & Z3)). unfold full_sum.
  destruct (memset_full m0 s0 na nb D0 Na Nb Z0) as (a0 & E0 & M0 & O0). rewrite E0, bind_ok.
  destruct (memset_full m1 s1 na nb D1 Na Nb Z1) as (x0 & E1 & M1 & O1). rewrite E1, bind_ok.
  destruct (memset_full m2 s2 na nb D2 Na Nb Z2) as (y0 & E2 & M2 & O2). rewrite E2, bind_ok.
  destruct (memset_full m3 s3 na nb D3 Na Nb Z3) as (z0 & E3 & M3 & O3). rewrite E3, bind_ok.
  assert (P : ismat (aconst [size] 0) size na nb (fun _ _ => 0)).
  { split; [reflexivity|]. split; [lia|]. intros i j Hi Hj. apply aget_ok; [apply inb1; apply index_in; assumption|reflexivity]. }
  destruct (H1 (aconst [size] 0) size eq_refl ltac:(lia)) as (b1 & E4 & M4). rewrite E4, bind_ok.
  destruct (daxpy_mat na nb 1 b1 a0 size s0 _ _ Na Nb M4 M0) as (a1 & E5 & M5 & O5). rewrite E5, bind_ok.
  destruct (arep_fold v2 (gv_arep gv) H2 b1 a1 size s0 _ _ M4 M5) as (b2 & a2 & f2 & E6 & M6 & M7 & O6). rewrite E6, bind_ok.
  destruct (so_fold v3 (gv_esop gv) H3 _ _ _ x0 y0 z0 _ _ _ s1 s2 s3 _ _ _ _ _ _ P P P M1 M2 M3)
    as (bx & by_ & bz & sx & sy & sz & fx & fy & fz & E7 & Bx & By & Bz & Sx & Sy & Sz & Ox & Oy & Oz). cbv zeta in E7. cbv zeta. rewrite E7, bind_ok.
  destruct (H4 (b2, bx, by_, bz) (size, size, size, size)) as (out4' & ocs & E8 & F8).
  { destruct M6 as (Q0 & _), Bx as (Q1 & _), By as (Q2 & _), Bz as (Q3 & _). repeat split; try assumption; lia. }
  rewrite E8, bind_ok. destruct out4' as [[[c0 c1] c2] c3]. destruct F8 as (G0 & G1 & G2 & G3).
  destruct (daxpy_mat na nb 1 c0 a2 size s0 _ _ Na Nb G0 M7) as (r0 & R0 & T0 & U0). rewrite R0, bind_ok.
  destruct (daxpy_mat na nb 1 c1 sx size s1 _ _ Na Nb G1 Sx) as (r1 & R1 & T1 & U1). rewrite R1, bind_ok.
  destruct (daxpy_mat na nb 1 c2 sy size s2 _ _ Na Nb G2 Sy) as (r2 & R2 & T2 & U2). rewrite R2, bind_ok.
  destruct (daxpy_mat na nb 1 c3 sz size s3 _ _ Na Nb G3 Sz) as (r3 & R3 & T3 & U3). rewrite R3, bind_ok.
  exists (r0, r1, r2, r3). split; [reflexivity|]. split.
  - split; [exact (outside_trans _ _ _ _ O0 (outside_trans _ _ _ _ O5 (outside_trans _ _ _ _ O6 U0)))|].
    split; [exact (outside_trans _ _ _ _ O1 (outside_trans _ _ _ _ Ox U1))|].
    split; [exact (outside_trans _ _ _ _ O2 (outside_trans _ _ _ _ Oy U2))|exact (outside_trans _ _ _ _ O3 (outside_trans _ _ _ _ Oz U3))].
  - repeat split; try (apply T0); try (apply T1); try (apply T2); try (apply T3).
    + intros i j Hi Hj. rewrite (proj2 (proj2 T0) i j Hi Hj). f_equal. cbv beta. unfold parts. cbn [Z.eqb Pos.eqb]. ring.
    + intros i j Hi Hj. rewrite (proj2 (proj2 T1) i j Hi Hj). f_equal. cbv beta. unfold parts. cbn [Z.eqb Pos.eqb]. ring.
    + intros i j Hi Hj. rewrite (proj2 (proj2 T2) i j Hi Hj). f_equal. cbv beta. unfold parts. cbn [Z.eqb Pos.eqb]. ring.
    + intros i j Hi Hj. rewrite (proj2 (proj2 T3) i j Hi Hj). f_equal. cbv beta. unfold parts. cbn [Z.eqb Pos.eqb]. ring.
Qed.

End Full.
