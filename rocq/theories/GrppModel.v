(** * Model of libgrpp/full_grpp_integrals.c and libgrpp/grpp_integrals_gradient.c

    The component routines (type-1, type-2 and spin-orbit integrals) are a record
    of functions, so that the statements hold for whatever these compute; the
    type-1 component is instantiated with the model of MmdModel and the outercore
    component is the model of OutercoreModel.

    The four matrices arep, so_x, so_y, so_z go together as [mats].  A gradient is
    three distinct blocks of equal size, here one array with dimensions [3; size];
    the four gradients go together as [mats] as well.  Buffers that are allocated
    and freed inside one function are local arrays of exactly the calloc'ed size. *)

From Coq Require Import ZArith List Lia Bool Reals.
From Verif Require Import Base CartModel HeapModel OneElModel LmatModel OvGradModel OutercoreModel.
Import ListNotations.
Open Scope R_scope.

(** the component integral routines: type1_integrals.c 37, type2_integrals.c 34,
    spin_orbit_integrals.c 41; a NULL local potential is [None] *)
Record routines := mkRt {
  rt_init : bool;
  rt_type1 : vshell -> vshell -> R * R * R -> option vpot -> arr R -> res (arr R);
  rt_type2 : vshell -> vshell -> R * R * R -> vpot -> arr R -> res (arr R);
  rt_so : vshell -> vshell -> R * R * R -> vpot -> arr R * arr R * arr R -> res (arr R * arr R * arr R) }.

(** the routine the outercore integrals call for their type-1 matrices *)
Definition rt_oc (rt : routines) : t1_routine := fun A B C pot M => rt_type1 rt A B C (Some pot) M.

(** ** Reading the operator *)

(** the potential object [p] as the integral routines see it: the first
    num_primitives entries of its three arrays *)
Definition view_pot (h : heap) (p : Z) : res vpot :=
  let* x := load_pot h p in
  let* ow := hload h (pot_powers x) in
  let* oc := hload h (pot_coeffs x) in
  let* oa := hload h (pot_alpha x) in
  match ow, oc, oa with
  | OInts lw, ODbls lc, ODbls la =>
      let n := Z.to_nat (pot_num x) in
      if ((n <=? length lw) && (n <=? length lc) && (n <=? length la))%nat
      then Ok (mkVPot (pot_L x) (pot_J x) (firstn n (combine (combine lw lc) la)))
      else Fail OutOfBounds
  | _, _, _ => Fail WrongObject
  end.

(** f(0), ..., f(n-1) *)
Fixpoint read_seq {A} (f : Z -> res A) (i : Z) (n : nat) : res (list A) :=
  match n with
  | O => Ok []
  | S n => let* a := f i in let* l := read_seq f (i + 1) n in Ok (a :: l)
  end.

(** the operator as the integral routines see it *)
Record gview := mkGv {
  gv_local : option vpot;
  gv_arep : list vpot;
  gv_esop : list vpot;
  gv_oc : list (vpot * vshell) }.

Definition view_grpp (h : heap) (g : Z) : res gview :=
  let* x := load_grpp h g in
  let* loc := if (g_UL x =? 0)%Z then Ok None else let* p := view_pot h (g_UL x) in Ok (Some p) in
  let* la := read_seq (fun i => let* p := get_ptr h (g_Uarep x) i in view_pot h p) 0 (Z.to_nat (g_n_arep x)) in
  let* le := read_seq (fun i => let* p := get_ptr h (g_Uesop x) i in view_pot h p) 0 (Z.to_nat (g_n_esop x)) in
  let* lo := read_seq (fun i =>
      let* p := get_ptr h (g_Uoc x) i in
      let* s := get_ptr h (g_ocshells x) i in
      let* vp := view_pot h p in
      let* vs := view_shell h s in
      Ok (vp, vs)) 0 (Z.to_nat (g_n_oc x)) in
  Ok (mkGv loc la le lo).

(** outercore_integrals.c 108-112: the origins of the outercore shells are
    overwritten with the origin of the operator *)
Definition place_oc_shells (h : heap) (g : Z) (C : R * R * R) : res heap :=
  let* x := load_grpp h g in
  for_range 0 (g_n_oc x) (fun i h =>
    let* p := get_ptr h (g_ocshells x) i in
    let* s := load_shell h p in
    hstore h p (OShell (mkShell (sh_L s) (sh_cart_size s) (sh_cart_list s) (sh_num s) (sh_coeffs s) (sh_alpha s) C))) h.

(** ** The integrals *)

(** full_grpp_integrals.c 40-103 on the contents of the structures *)
Definition full_sum (rt : routines) (A B : vshell) (C : R * R * R) (gv : gview) (out : mats) : res mats :=
  let size := (sv_size A * sv_size B)%Z in
  let buf := aconst [size] 0 in
  let '(arep, sx, sy, sz) := out in
  let* arep := memset0 size arep in
  let* sx := memset0 size sx in
  let* sy := memset0 size sy in
  let* sz := memset0 size sz in
  let* buf_arep := rt_type1 rt A B C (gv_local gv) buf in
  let* arep := daxpy size 1 buf_arep arep in
  let* (buf_arep, arep) :=
    fold_left (fun (r : res (arr R * arr R)) U =>
      let* (buf_arep, arep) := r in
      let* buf_arep := rt_type2 rt A B C U buf_arep in
      let* arep := daxpy size 1 buf_arep arep in
      Ok (buf_arep, arep)) (gv_arep gv) (Ok (buf_arep, arep)) in
  let* (bx, by_, bz, sx, sy, sz) :=
    fold_left (fun (r : res (arr R * arr R * arr R * arr R * arr R * arr R)) U =>
      let* (bx, by_, bz, sx, sy, sz) := r in
      let* (bx, by_, bz) := rt_so rt A B C U (bx, by_, bz) in
      let L := pv_L U in
      let* sx := daxpy size (2 / IZR (2 * L + 1)) bx sx in
      let* sy := daxpy size (2 / IZR (2 * L + 1)) by_ sy in
      let* sz := daxpy size (2 / IZR (2 * L + 1)) bz sz in
      Ok (bx, by_, bz, sx, sy, sz)) (gv_esop gv) (Ok (buf, buf, buf, sx, sy, sz)) in
  let* (bufs, _) := outercore_potential_integrals (rt_oc rt) A B C (gv_oc gv) (buf_arep, bx, by_, bz) in
  let '(buf_arep, bx, by_, bz) := bufs in
  let* arep := daxpy size 1 buf_arep arep in
  let* sx := daxpy size 1 bx sx in
  let* sy := daxpy size 1 by_ sy in
  let* sz := daxpy size 1 bz sz in
  Ok (arep, sx, sy, sz).

(** full_grpp_integrals.c 27-104.  The structures are read before the first
    integral is computed and the outercore shells are moved at the end.  In C the
    reads and the moves are interleaved with the computation; nothing the
    computation writes is read again, unless the bra or the ket is itself one of
    the outercore shells of the operator (excluded where this is used). *)
Definition full_grpp_integrals (rt : routines) (h : heap) (pA pB g : Z) (C : R * R * R) (out : mats) : res (mats * heap) :=
  let* _ := massert (rt_init rt) in
  let* A := view_shell h pA in
  let* B := view_shell h pB in
  let* gv := view_grpp h g in
  let* out := full_sum rt A B C gv out in
  let* h := place_oc_shells h g C in
  Ok (out, h).

(** ** The gradient *)

Definition zero4 (n : Z) : mats := (aconst [n] 0, aconst [n] 0, aconst [n] 0, aconst [n] 0).

(** grpp_integrals_gradient.c 914-1016; the functions 515-588 (bra) and 709-784
    (ket) are this one with diff_bra fixed.  The result: the matrices with the
    L-1 shell (or NULL), with the L+1 shell, cart_size_down, cart_size_up *)
Definition diff_gaussian (ord : cart_order) (rt : routines) (diff_bra : bool) (h : heap) (pA pB g : Z) (C : R * R * R)
    : res (option mats * mats * Z * Z * heap) :=
  let pd := if diff_bra then pA else pB in
  let pc := if diff_bra then pB else pA in
  let* (pm, pp, h) := differentiate_shell ord h pd in
  let* size_down := if (pm =? 0)%Z then Ok 0%Z else let* sm := load_shell h pm in Ok (sh_cart_size sm) in
  let* sp := load_shell h pp in
  let size_up := sh_cart_size sp in
  let* sc := load_shell h pc in
  let* (down, h) :=
    if (pm =? 0)%Z then Ok (None, h)
    else
      let* (M, h) := full_grpp_integrals rt h (if diff_bra then pm else pA) (if diff_bra then pB else pm) g C
                       (zero4 (sh_cart_size sc * size_down)) in
      Ok (Some M, h) in
  let* (up, h) := full_grpp_integrals rt h (if diff_bra then pp else pA) (if diff_bra then pB else pp) g C
                    (zero4 (sh_cart_size sc * size_up)) in
  let* h := if (pm =? 0)%Z then Ok h else delete_shell h pm in
  let* h := delete_shell h pp in
  Ok (down, up, size_down, size_up, h).

(** grad[icoord][index] += c * M[k] for one of the four gradients *)
Definition grad_add (read : arr R -> Z -> res R) (c : R) (M : arr R) (k icoord index : Z) (grad : arr R) : res (arr R) :=
  let* g := aget grad [icoord; index] in
  let* d := read M k in
  aset grad [icoord; index] (g + c * d).

Definition grad_add4 (read : arr R -> Z -> res R) (c : R) (M : mats) (k icoord index : Z) (grad : mats) : res mats :=
  let '(m0, m1, m2, m3) := M in
  let '(g0, g1, g2, g3) := grad in
  let* g0 := grad_add read c m0 k icoord index g0 in
  let* g1 := grad_add read c m1 k icoord index g1 in
  let* g2 := grad_add read c m2 k icoord index g2 in
  let* g3 := grad_add read c m3 k icoord index g3 in
  Ok (g0, g1, g2, g3).

(** the local copy nlm[3] of a component; nlm[icoord] += d *)
Definition read_nlm (h : heap) (list_ptr i : Z) : res (Z * Z * Z) :=
  let* n := get_int h list_ptr (3 * i + 0)%Z in
  let* l := get_int h list_ptr (3 * i + 1)%Z in
  let* m := get_int h list_ptr (3 * i + 2)%Z in
  Ok (n, l, m).
Definition nlm_add (c : Z * Z * Z) (icoord d : Z) : Z * Z * Z :=
  let '(n, l, m) := c in
  if (icoord =? 0)%Z then (n + d, l, m)%Z else if (icoord =? 1)%Z then (n, l + d, m)%Z else (n, l, m + d)%Z.
Definition nlm_get (c : Z * Z * Z) (icoord : Z) : Z :=
  let '(n, l, m) := c in if (icoord =? 0)%Z then n else if (icoord =? 1)%Z then l else m.
Definition nlm_index (ord : cart_order) (c : Z * Z * Z) : res Z := let '(n, l, m) := c in nlm_to_linear ord n l m.

(** grpp_integrals_gradient.c 836-893, and 439-486 (bra), 633-680 (ket).
    [use_down] is the condition of the if statement 855, 458, 652.  A read of the
    L-1 matrices outside their blocks gives what [oob] says (OvGradModel). *)
Definition contribution_body (ord : cart_order) (oob : option (Z -> R)) (diff_bra use_down : bool) (h : heap) (sA sB : shell)
    (down : option mats) (up : mats) (size_down size_up : Z) (factor : R) (icoord i j : Z) (grad : mats) : res mats :=
  let* bra := read_nlm h (sh_cart_list sA) i in
  let* ket := read_nlm h (sh_cart_list sB) j in
  let index := (i * sh_cart_size sB + j)%Z in
  let* grad :=
    if use_down then
      let* bra_index := nlm_index ord (if diff_bra then nlm_add bra icoord (-1) else bra) in
      let* ket_index := nlm_index ord (if diff_bra then ket else nlm_add ket icoord (-1)) in
      let n := nlm_get (if diff_bra then bra else ket) icoord in
      let row_len := if diff_bra then sh_cart_size sB else size_down in
      match down with
      | None => Fail NullDeref
      | Some M => grad_add4 (read_at oob) (- (factor * IZR n)) M (row_len * bra_index + ket_index) icoord index grad
      end
    else Ok grad in
  let* bra_index := nlm_index ord (if diff_bra then nlm_add bra icoord 1 else bra) in
  let* ket_index := nlm_index ord (if diff_bra then ket else nlm_add ket icoord 1) in
  let row_len := if diff_bra then sh_cart_size sB else size_up in
  grad_add4 (fun M k => aget M [k]) factor up (row_len * bra_index + ket_index) icoord index grad.

(** grpp_integrals_gradient.c 786-900, with the condition cart_size_down > 0 *)
Definition gradient_contribution (ord : cart_order) (oob : option (Z -> R)) (rt : routines) (diff_bra : bool) (h : heap) (pA pB g : Z)
    (C : R * R * R) (factor : R) (grad : mats) : res (heap * mats) :=
  let* (down, up, size_down, size_up, h) := diff_gaussian ord rt diff_bra h pA pB g C in
  let* sA := load_shell h pA in
  let* sB := load_shell h pB in
  let* grad :=
    for_range 0 3 (fun icoord =>
    for_range 0 (sh_cart_size sA) (fun i =>
    for_range 0 (sh_cart_size sB) (fun j =>
      contribution_body ord oob diff_bra (0 <? size_down)%Z h sA sB down up size_down size_up factor icoord i j))) grad in
  Ok (h, grad).

(** grpp_integrals_gradient.c 403-501 (diff_bra true) and 597-695 (false), with
    the condition L > 0 on the differentiated shell *)
Definition gradient_diff_contribution (ord : cart_order) (oob : option (Z -> R)) (rt : routines) (diff_bra : bool) (h : heap) (pA pB g : Z)
    (C : R * R * R) (factor : R) (grad : mats) : res (heap * mats) :=
  let* (down, up, size_down, size_up, h) := diff_gaussian ord rt diff_bra h pA pB g C in
  let* sA := load_shell h pA in
  let* sB := load_shell h pB in
  let* grad :=
    for_range 0 3 (fun icoord =>
    for_range 0 (sh_cart_size sA) (fun i =>
    for_range 0 (sh_cart_size sB) (fun j =>
      contribution_body ord oob diff_bra (0 <? sh_L (if diff_bra then sA else sB))%Z h sA sB down up size_down size_up factor icoord i j))) grad in
  Ok (h, grad).

Definition clear3 (n : Z) (grad : arr R) : res (arr R) :=
  for_range 0 3 (fun icoord => for_range 0 n (fun k grad => aset grad [icoord; k] 0)) grad.

(** grpp_integrals_gradient.c 280-393.  The four memsets per coordinate 299-302
    touch different blocks and are done gradient by gradient. *)
Definition full_grpp_integrals_gradient (ord : cart_order) (oob : option (Z -> R)) (rt : routines) (h : heap) (pA pB g : Z)
    (C D : R * R * R) (grad : mats) : res (heap * mats) :=
  let* sA := load_shell h pA in
  let* sB := load_shell h pB in
  let buf_size := (sh_cart_size sA * sh_cart_size sB)%Z in
  let '(g0, g1, g2, g3) := grad in
  let* g0 := clear3 buf_size g0 in
  let* g1 := clear3 buf_size g1 in
  let* g2 := clear3 buf_size g2 in
  let* g3 := clear3 buf_size g3 in
  let A := sh_origin sA in
  let B := sh_origin sB in
  let st := (h, (g0, g1, g2, g3)) in
  if points_are_equal A C && points_are_equal B C then Ok st
  else if negb (points_are_equal A D) && negb (points_are_equal B D) && negb (points_are_equal C D) then Ok st
  else
    let contribution (bra : bool) (f : R) (st : heap * mats) :=
      gradient_contribution ord oob rt bra (fst st) pA pB g C f (snd st) in
    let diff_contribution (bra : bool) (f : R) (st : heap * mats) :=
      gradient_diff_contribution ord oob rt bra (fst st) pA pB g C f (snd st) in
    let* st :=
      if negb (points_are_equal A C) && negb (points_are_equal C B) && negb (points_are_equal A B) then
        let* st := if points_are_equal A D then contribution true 1 st else Ok st in
        let* st := if points_are_equal B D then contribution false 1 st else Ok st in
        if points_are_equal C D then
          let* st := contribution true (-1) st in
          contribution false (-1) st
        else Ok st
      else Ok st in
    let* st :=
      if points_are_equal A B && negb (points_are_equal A C) then
        if points_are_equal A D then
          let* st := diff_contribution true 1 st in
          diff_contribution false 1 st
        else
          let* st := diff_contribution true (-1) st in
          diff_contribution false (-1) st
      else Ok st in
    let* st :=
      if negb (points_are_equal A C) && points_are_equal C B then
        if points_are_equal A D then contribution true 1 st else contribution true (-1) st
      else Ok st in
    if points_are_equal A C && negb (points_are_equal C B) then
      if points_are_equal B D then contribution false 1 st else contribution false (-1) st
    else Ok st.

(** ** The gradients of the single terms *)

(** grpp_integrals_gradient.c 1022-1033: the blocks of a gradient in the heap.
    Their contents are followed in an array of dimensions [3; size] beside it. *)
Definition alloc_gradients (h : heap) (pA pB : Z) : res (Z * arr R * heap) :=
  let* sA := load_shell h pA in
  let* sB := load_shell h pB in
  let size := (sh_cart_size sA * sh_cart_size sB)%Z in
  let '(p, h) := halloc h (OPtrs [0; 0; 0]%Z) in
  let '(x, h) := halloc h (ODbls (HeapModel.zeros 0 size)) in
  let* h := set_ptr h p 0 x in
  let '(y, h) := halloc h (ODbls (HeapModel.zeros 0 size)) in
  let* h := set_ptr h p 1 y in
  let '(z, h) := halloc h (ODbls (HeapModel.zeros 0 size)) in
  let* h := set_ptr h p 2 z in
  Ok (p, aconst [3%Z; size] 0, h).

(** grpp_integrals_gradient.c 1039-1044 *)
Definition dealloc_gradients (h : heap) (p : Z) : res heap :=
  let* x := get_ptr h p 0 in
  let* h := hfree h x in
  let* y := get_ptr h p 1 in
  let* h := hfree h y in
  let* z := get_ptr h p 2 in
  let* h := hfree h z in
  hfree h p.

(** grpp_integrals_gradient.c 123-154 *)
Definition type1_integrals_gradient (ord : cart_order) (oob : option (Z -> R)) (rt : routines) (h : heap) (pA pB : Z) (C : R * R * R)
    (pot : Z) (D : R * R * R) (grad : arr R) : res (heap * arr R) :=
  let '(g, h) := new_grpp h in
  let* h := set_local_potential h g pot in
  let* (px, gx, h) := alloc_gradients h pA pB in
  let* (py, gy, h) := alloc_gradients h pA pB in
  let* (pz, gz, h) := alloc_gradients h pA pB in
  let* (h, gr) := full_grpp_integrals_gradient ord oob rt h pA pB g C D (grad, gx, gy, gz) in
  let '(grad, _, _, _) := gr in
  let* h := dealloc_gradients h px in
  let* h := dealloc_gradients h py in
  let* h := dealloc_gradients h pz in
  let* x := load_grpp h g in
  let* h := hstore h g (OGrpp (mkGrpp (g_n_arep x) (g_n_esop x) (g_n_oc x) 0 (g_Uarep x) (g_Uesop x) (g_Uoc x) (g_ocshells x))) in
  let* h := delete_grpp h g in
  Ok (h, grad).

(** grpp_integrals_gradient.c 161-192 *)
Definition type2_integrals_gradient (ord : cart_order) (oob : option (Z -> R)) (rt : routines) (h : heap) (pA pB : Z) (C : R * R * R)
    (pot : Z) (D : R * R * R) (grad : arr R) : res (heap * arr R) :=
  let '(g, h) := new_grpp h in
  let* h := add_averaged_potential h g pot in
  let* (px, gx, h) := alloc_gradients h pA pB in
  let* (py, gy, h) := alloc_gradients h pA pB in
  let* (pz, gz, h) := alloc_gradients h pA pB in
  let* (h, gr) := full_grpp_integrals_gradient ord oob rt h pA pB g C D (grad, gx, gy, gz) in
  let '(grad, _, _, _) := gr in
  let* h := dealloc_gradients h px in
  let* h := dealloc_gradients h py in
  let* h := dealloc_gradients h pz in
  let* x := load_grpp h g in
  let* h := hstore h g (OGrpp (mkGrpp 0 (g_n_esop x) (g_n_oc x) (g_UL x) (g_Uarep x) (g_Uesop x) (g_Uoc x) (g_ocshells x))) in
  let* h := delete_grpp h g in
  Ok (h, grad).

(** the loop 231-237: the three gradients go together *)
Definition rescale3 (n : Z) (c : R) (grad : arr R * arr R * arr R) : res (arr R * arr R * arr R) :=
  for_range 0 3 (fun icoord => for_range 0 n (fun i grad =>
    let '(gx, gy, gz) := grad in
    let* x := aget gx [icoord; i] in
    let* gx := aset gx [icoord; i] (x * c) in
    let* y := aget gy [icoord; i] in
    let* gy := aset gy [icoord; i] (y * c) in
    let* z := aget gz [icoord; i] in
    let* gz := aset gz [icoord; i] (z * c) in
    Ok (gx, gy, gz))) grad.

(** grpp_integrals_gradient.c 199-243 *)
Definition spin_orbit_integrals_gradient (ord : cart_order) (oob : option (Z -> R)) (rt : routines) (h : heap) (pA pB : Z) (C : R * R * R)
    (pot : Z) (D : R * R * R) (grad : arr R * arr R * arr R) : res (heap * (arr R * arr R * arr R)) :=
  let '(g, h) := new_grpp h in
  let* h := add_spin_orbit_potential h g pot in
  let* (pa, ga, h) := alloc_gradients h pA pB in
  let '(gx, gy, gz) := grad in
  let* (h, gr) := full_grpp_integrals_gradient ord oob rt h pA pB g C D (ga, gx, gy, gz) in
  let '(_, gx, gy, gz) := gr in
  let* p := load_pot h pot in
  let* sA := load_shell h pA in
  let* sB := load_shell h pB in
  let* grad := rescale3 (sh_cart_size sA * sh_cart_size sB) ((2 * IZR (pot_L p) + 1) / 2) (gx, gy, gz) in
  let* h := dealloc_gradients h pa in
  let* x := load_grpp h g in
  let* h := hstore h g (OGrpp (mkGrpp (g_n_arep x) 0 (g_n_oc x) (g_UL x) (g_Uarep x) (g_Uesop x) (g_Uoc x) (g_ocshells x))) in
  let* h := delete_grpp h g in
  Ok (h, grad).

(** grpp_integrals_gradient.c 246-272; the caller's two pointer arrays are the list [ocs] *)
Definition outercore_integrals_gradient (ord : cart_order) (oob : option (Z -> R)) (rt : routines) (h : heap) (pA pB : Z) (C : R * R * R)
    (ocs : list (Z * Z)) (D : R * R * R) (grad : mats) : res (heap * mats) :=
  let '(g, h) := new_grpp h in
  let* h := fold_left (fun (r : res heap) '(pot, oc) => let* h := r in add_outercore_potential h g pot oc) ocs (Ok h) in
  let* (h, grad) := full_grpp_integrals_gradient ord oob rt h pA pB g C D grad in
  let* x := load_grpp h g in
  let* h := hstore h g (OGrpp (mkGrpp (g_n_arep x) (g_n_esop x) 0 (g_UL x) (g_Uarep x) (g_Uesop x) (g_Uoc x) (g_ocshells x))) in
  let* h := delete_grpp h g in
  Ok (h, grad).
