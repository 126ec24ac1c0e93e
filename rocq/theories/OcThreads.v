(** * GRPP integrals evaluated by several threads (C85)

    The outercore part of the GRPP integrals writes the origin of the operator into
    the outercore shells owned by the operator (outercore_integrals.c 107-111,
    162-164, 297-302) and the overlap and type-1 routines read it back from there.
    Here these stores and loads are interleaved with those of other threads
    (sequentially consistent memory; one step = one load or store of a double).

    Everything else a call touches is either private to it (the buffers and the
    four output matrices) or only read (shells, potentials, tables), and is taken
    over from the models OutercoreModel and GrppModel.

    Simplification: a routine which is called with an outercore shell reads the
    three coordinates of its origin once, when it is called; in C it reads them
    again for every pair of primitives.  The bra and ket shells of the threads are
    not outercore shells of an operator in use. *)

From Coq Require Import ZArith List Lia Bool Reals.
From Verif Require Import Base CartModel HeapModel OneElModel LmatModel OvGradModel OutercoreModel GrppModel.
Import ListNotations.
Open Scope R_scope.

(** ** Programs *)

(** a program which loads and stores coordinates of origins: [p] is the address of
    a shell, [k] = 0, 1, 2 the coordinate *)
Inductive prog (A : Type) : Type :=
| Done (r : res A)
| Rd (p k : Z) (f : R -> prog A)
| Wr (p k : Z) (v : R) (q : prog A).
Arguments Done {A}. Arguments Rd {A}. Arguments Wr {A}.

Fixpoint pbind {A B} (q : prog A) (f : A -> prog B) : prog B :=
  match q with
  | Done (Ok a) => f a
  | Done (Fail e) => Done (Fail e)
  | Rd p k g => Rd p k (fun v => pbind (g v) f)
  | Wr p k v q => Wr p k v (pbind q f)
  end.

Fixpoint pfold {T S} (f : T -> S -> prog S) (l : list T) (s : S) : prog S :=
  match l with [] => Done (Ok s) | x :: l => pbind (f x s) (pfold f l) end.

(** outercore_integrals.c 108-110 = 162-164 = 297-299 = 300-302 *)
Definition put_origin (p : Z) (C : R * R * R) : prog unit :=
  Wr p 0 (coord3 C 0) (Wr p 1 (coord3 C 1) (Wr p 2 (coord3 C 2) (Done (Ok tt)))).

(** the origin as a routine reads it *)
Definition get_origin (p : Z) : prog (R * R * R) :=
  Rd p 0 (fun x => Rd p 1 (fun y => Rd p 2 (fun z => Done (Ok (x, y, z))))).

(** an outercore potential, the address of its shell and the contents of the shell;
    the origin in the contents is not used *)
Definition ocref := (vpot * Z * vshell)%type.

(** outercore_integrals.c 166-270: the shell as the four calls of lines 195, 196,
    214, 215 see it is [ocSb], [ocSa], [ocUb], [ocUa] *)
Definition part_1_from (t1 : t1_routine) (A B : vshell) (C : R * R * R) (pot : vpot) (oc ocSb ocSa ocUb ocUa : vshell) (out : mats) : res mats :=
  let '(arep, sx, sy, sz) := out in
  let L := sv_L oc in
  let size_A := sv_size A in
  let size_B := sv_size B in
  let size_nlj := sv_size oc in
  let dim := (2 * L + 1)%Z in
  let* SC := sph_coefs L oc in
  let* S_b_cart := overlap_integrals ocSb B (zeros (size_nlj * size_B)) in
  let* S_a_cart := overlap_integrals A ocSa (zeros (size_A * size_nlj)) in
  let* S_a := transform_to_sph_basis_ket size_A size_nlj dim S_a_cart (zeros (size_A * dim)) SC in
  let* S_b := transform_to_sph_basis_bra size_nlj dim size_B S_b_cart (zeros (dim * size_B)) SC in
  let* U_b_cart := t1 ocUb B C pot (zeros (size_nlj * size_B)) in
  let* U_a_cart := t1 A ocUa C pot (zeros (size_A * size_nlj)) in
  let* U_a := transform_to_sph_basis_ket size_A size_nlj dim U_a_cart (zeros (size_A * dim)) SC in
  let* U_b := transform_to_sph_basis_bra size_nlj dim size_B U_b_cart (zeros (dim * size_B)) SC in
  let* buf := multiply_matrices size_A size_B dim S_a U_b (zeros (size_A * size_B)) in
  let* buf := multiply_matrices size_A size_B dim U_a S_b buf in
  let* arep := daxpy (size_A * size_B) (arep_factor pot L) buf arep in
  let* (lx, ly, lz) := construct_matrices_rsh L (zeros (dim * dim), zeros (dim * dim), zeros (dim * dim)) in
  let* (buf, so_x) := so_first dim size_A size_B S_a S_b U_a U_b lx (zeros (dim * Z.max size_A size_B)) (zeros (size_A * size_B)) in
  let* (buf, so_y) := so_first dim size_A size_B S_a S_b U_a U_b ly buf (zeros (size_A * size_B)) in
  let* (_, so_z) := so_first dim size_A size_B S_a S_b U_a U_b lz buf (zeros (size_A * size_B)) in
  let* sx := daxpy (size_A * size_B) (esop_factor pot L) so_x sx in
  let* sy := daxpy (size_A * size_B) (esop_factor pot L) so_y sy in
  let* sz := daxpy (size_A * size_B) (esop_factor pot L) so_z sz in
  Ok (arep, sx, sy, sz).

(** outercore_integrals.c 304-390: the shells as the two calls of lines 344, 345 see
    them are [oc2] and [oc1] *)
Definition part_2_from (A B : vshell) (pot1 : vpot) (oc1 : vshell) (pot2 : vpot) (oc2 : vshell) (out : mats) : res mats :=
  let '(arep, sx, sy, sz) := out in
  let size_A := sv_size A in
  let size_B := sv_size B in
  let L := pv_L pot1 in
  let dim := (2 * L + 1)%Z in
  let size_nlj := sv_size oc1 in
  let* delta := calculate_delta_integral pot1 oc1 pot2 oc2 in
  let* SC := sph_coefs L oc1 in
  let* S_b_cart := overlap_integrals oc2 B (zeros (size_nlj * size_B)) in
  let* S_a_cart := overlap_integrals A oc1 (zeros (size_A * size_nlj)) in
  let* S_a := transform_to_sph_basis_ket size_A size_nlj dim S_a_cart (zeros (size_A * dim)) SC in
  let* S_b := transform_to_sph_basis_bra size_nlj dim size_B S_b_cart (zeros (dim * size_B)) SC in
  let* buf := multiply_matrices size_A size_B dim S_a S_b (zeros (size_A * size_B)) in
  let* arep := daxpy (size_A * size_B) (-1 * delta * arep_factor pot1 L) buf arep in
  let* (lx, ly, lz) := construct_matrices_rsh L (zeros (dim * dim), zeros (dim * dim), zeros (dim * dim)) in
  let* (buf, so_x) := so_second dim size_A size_B S_a S_b lx (zeros (dim * size_B)) (zeros (size_A * size_B)) in
  let* (buf, so_y) := so_second dim size_A size_B S_a S_b ly buf (zeros (size_A * size_B)) in
  let* (_, so_z) := so_second dim size_A size_B S_a S_b lz buf (zeros (size_A * size_B)) in
  let* sx := daxpy (size_A * size_B) (-1 * delta * esop_factor pot1 L) so_x sx in
  let* sy := daxpy (size_A * size_B) (-1 * delta * esop_factor pot1 L) so_y sy in
  let* sz := daxpy (size_A * size_B) (-1 * delta * esop_factor pot1 L) so_z sz in
  Ok (arep, sx, sy, sz).

(** outercore_integrals.c 147-270.  The origin is read by the calls of lines 195,
    196, 214, 215, in this order; what happens between them is private, so it is
    put after the last of them *)
Definition part_1_prog (t1 : t1_routine) (A B : vshell) (C : R * R * R) (o : ocref) (out : mats) : prog mats :=
  let '(pot, p, s) := o in
  pbind (put_origin p C) (fun _ =>
  pbind (get_origin p) (fun o1 => pbind (get_origin p) (fun o2 => pbind (get_origin p) (fun o3 => pbind (get_origin p) (fun o4 =>
    Done (part_1_from t1 A B C pot s (move_shell s o1) (move_shell s o2) (move_shell s o3) (move_shell s o4) out)))))).

(** outercore_integrals.c 277-390 *)
Definition part_2_prog (A B : vshell) (C : R * R * R) (o o' : ocref) (out : mats) : prog mats :=
  let '(pot1, p1, s1) := o in
  let '(pot2, p2, s2) := o' in
  if negb (pv_L pot1 =? pv_L pot2)%Z then Done (Ok out)
  else if negb (pv_J pot1 =? pv_J pot2)%Z then Done (Ok out)
  else
    pbind (put_origin p1 C) (fun _ => pbind (put_origin p2 C) (fun _ =>
    pbind (get_origin p2) (fun o2 => pbind (get_origin p1) (fun o1 =>
      Done (part_2_from A B pot1 (move_shell s1 o1) pot2 (move_shell s2 o2) out))))).

(** outercore_integrals.c 83-140 *)
Definition oc_prog (t1 : t1_routine) (A B : vshell) (C : R * R * R) (ocs : list ocref) (out : mats) : prog mats :=
  let '(arep, sx, sy, sz) := out in
  let size := (sv_size A * sv_size B)%Z in
  pbind (Done (let* arep := memset0 size arep in let* sx := memset0 size sx in let* sy := memset0 size sy in let* sz := memset0 size sz in Ok (arep, sx, sy, sz))) (fun out =>
  pbind (pfold (fun '(_, p, _) (_ : unit) => put_origin p C) ocs tt) (fun _ =>
  pbind (pfold (part_1_prog t1 A B C) ocs out) (fun out =>
  pfold (fun o out => pfold (fun o' out => part_2_prog A B C o o' out) ocs out) ocs out))).

(** full_grpp_integrals.c 40-83: the parts before the outercore part; the buffers and
    the four matrices *)
Definition full_before (rt : routines) (A B : vshell) (C : R * R * R) (gv : gview) (out : mats) : res (mats * mats) :=
  let size := (sv_size A * sv_size B)%Z in
  let buf := aconst [size] 0 in
  let '(arep, sx, sy, sz) := out in
  let* arep := memset0 size arep in
  let* sx := memset0 size sx in
  let* sy := memset0 size sy in
  let* sz := memset0 size sz in
  let* buf_arep := rt_type1 rt A B C (gv_local gv) buf in
  let* arep := daxpy size 1 buf_arep arep in
  let* (buf_arep, arep) :=
    fold_left (fun (r : res (arr R * arr R)) U =>
      let* (buf_arep, arep) := r in
      let* buf_arep := rt_type2 rt A B C U buf_arep in
      let* arep := daxpy size 1 buf_arep arep in
      Ok (buf_arep, arep)) (gv_arep gv) (Ok (buf_arep, arep)) in
  let* (bx, by_, bz, sx, sy, sz) :=
    fold_left (fun (r : res (arr R * arr R * arr R * arr R * arr R * arr R)) U =>
      let* (bx, by_, bz, sx, sy, sz) := r in
      let* (bx, by_, bz) := rt_so rt A B C U (bx, by_, bz) in
      let L := pv_L U in
      let* sx := daxpy size (2 / IZR (2 * L + 1)) bx sx in
      let* sy := daxpy size (2 / IZR (2 * L + 1)) by_ sy in
      let* sz := daxpy size (2 / IZR (2 * L + 1)) bz sz in
      Ok (bx, by_, bz, sx, sy, sz)) (gv_esop gv) (Ok (buf, buf, buf, sx, sy, sz)) in
  Ok ((buf_arep, bx, by_, bz), (arep, sx, sy, sz)).

(** full_grpp_integrals.c 91-94 *)
Definition full_after (A B : vshell) (bufs sums : mats) : res mats :=
  let size := (sv_size A * sv_size B)%Z in
  let '(buf_arep, bx, by_, bz) := bufs in
  let '(arep, sx, sy, sz) := sums in
  let* arep := daxpy size 1 buf_arep arep in
  let* sx := daxpy size 1 bx sx in
  let* sy := daxpy size 1 by_ sy in
  let* sz := daxpy size 1 bz sz in
  Ok (arep, sx, sy, sz).

(** the outercore potentials of [gv] with the addresses [ocp] of their shells *)
Definition ocrefs (gv : gview) (ocp : list Z) : list ocref := map (fun '((pot, s), p) => (pot, p, s)) (combine (gv_oc gv) ocp).

(** full_grpp_integrals.c 27-104, run by one thread *)
Definition full_prog (rt : routines) (A B : vshell) (C : R * R * R) (gv : gview) (ocp : list Z) (out : mats) : prog mats :=
  pbind (Done (let* _ := massert (rt_init rt) in full_before rt A B C gv out)) (fun '(bufs, sums) =>
  pbind (oc_prog (rt_oc rt) A B C (ocrefs gv ocp) bufs) (fun bufs => Done (full_after A B bufs sums))).

(** a thread makes several calls one after the other and keeps the results; a failed
    assertion ends it *)
Fixpoint seq_prog {A} (l : list (prog A)) : prog (list A) :=
  match l with [] => Done (Ok []) | q :: l => pbind q (fun x => pbind (seq_prog l) (fun xs => Done (Ok (x :: xs)))) end.

(** ** Threads *)

(** the coordinates of the origins *)
Definition omem := Z -> Z -> R.
Definition omem_set (m : omem) (p k : Z) (v : R) : omem := fun q j => if (q =? p)%Z && (j =? k)%Z then v else m q j.

Definition pstep {A} (q : prog A) (m : omem) : option (prog A * omem) :=
  match q with
  | Done _ => None
  | Rd p k f => Some (f (m p k), m)
  | Wr p k v q => Some (q, omem_set m p k v)
  end.

Fixpoint put_nth {A} (l : list A) (n : nat) (x : A) : list A :=
  match l, n with [], _ => [] | _ :: r, O => x :: r | y :: r, S n => y :: put_nth r n x end.

(** thread [n] makes one step *)
Inductive tstep {A} : list (prog A) * omem -> list (prog A) * omem -> Prop :=
| tstep_thread n ts m q q' m' : nth_error ts n = Some q -> pstep q m = Some (q', m') -> tstep (ts, m) (put_nth ts n q', m').

Inductive treach {A} : list (prog A) * omem -> list (prog A) * omem -> Prop :=
| treach_refl s : treach s s
| treach_step s s' s'' : tstep s s' -> treach s' s'' -> treach s s''.

Definition finished {A} (s : list (prog A) * omem) : Prop := forall q, In q (fst s) -> exists r, q = Done r.
