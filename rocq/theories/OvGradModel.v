(** * Model of libgrpp/diff_gaussian.c and libgrpp/overlap_gradient.c

    The three rows grad[0..2] are three distinct blocks of equal size, here one
    array with dimensions [3; size].  The matrices overlap_down and overlap_up
    are arrays of exactly the calloc'ed size; overlap_down is [None] for the
    NULL pointer. *)

From Coq Require Import ZArith List Lia Bool Reals.
From Verif Require Import Base CartModel HeapModel OneElModel LmatModel.
Import ListNotations.
Open Scope R_scope.

(** diff_gaussian.c 70-73 (the argument L is an int) *)
Definition norm_factor (alpha : R) (L : Z) : R :=
  Rpower (2 * alpha / PI) 0.75 * Rpower (4 * alpha) (0.5 * IZR L).

(** the loops diff_gaussian.c 42-48 and 56-62: coeffs[i] of the new shell [q]
    is multiplied by a factor depending on the exponent *)
Definition rescale_coeffs (h : heap) (src q : Z) (fac : R -> R) : res heap :=
  let* s := load_shell h src in
  for_range 0 (sh_num s) (fun i h =>
    let* alpha := get_dbl h (sh_alpha s) i in
    let* sq := load_shell h q in
    let* c := get_dbl h (sh_coeffs sq) i in
    set_dbl h (sh_coeffs sq) i (c * fac alpha)) h.

(** diff_gaussian.c 35-63; returns (shell_minus, shell_plus) *)
Definition differentiate_shell (ord : cart_order) (h : heap) (p : Z) : res (Z * Z * heap) :=
  let* s := load_shell h p in
  let L := sh_L s in
  let* (minus, h) :=
    if (0 <? L)%Z then
      let* (q, h) := new_shell ord h (sh_origin s) (L - 1) (sh_num s) (sh_coeffs s) (sh_alpha s) in
      let* h := rescale_coeffs h p q (fun alpha => norm_factor alpha L / norm_factor alpha (L - 1)) in
      Ok (q, h)
    else Ok (0%Z, h) in
  let* (plus, h) := new_shell ord h (sh_origin s) (L + 1) (sh_num s) (sh_coeffs s) (sh_alpha s) in
  let* h := rescale_coeffs h p plus (fun alpha => 2 * alpha * norm_factor alpha L / norm_factor alpha (L + 1)) in
  Ok (minus, plus, h).

(** overlap_gradient.c 166-213; the result: overlap_down (or NULL), overlap_up *)
Definition diff_bra_overlap_integrals (ord : cart_order) (h : heap) (pA pB : Z)
    : res (option (arr R) * arr R * heap) :=
  let* (pm, pp, h) := differentiate_shell ord h pA in
  let* sB := load_shell h pB in
  let* B := view_shell h pB in
  let* sp := load_shell h pp in
  let* down :=
    if (pm =? 0)%Z then Ok None
    else
      let* sm := load_shell h pm in
      let* Am := view_shell h pm in
      let* M := overlap_integrals Am B (aconst [(sh_cart_size sm * sh_cart_size sB)%Z] 0) in
      Ok (Some M) in
  let* Ap := view_shell h pp in
  let* up := overlap_integrals Ap B (aconst [(sh_cart_size sp * sh_cart_size sB)%Z] 0) in
  let* h := if (pm =? 0)%Z then Ok h else delete_shell h pm in
  let* h := delete_shell h pp in
  Ok (down, up, h).

(** a read from a matrix.  With [None] the read is checked.  With [Some f] a
    read outside the block yields whatever number [f] gives, which is what an
    undiagnosed out-of-bounds read does. *)
Definition read_at (oob : option (Z -> R)) (M : arr R) (k : Z) : res R :=
  match oob with
  | None => aget M [k]
  | Some f => if inb (adims M) [k] then aget M [k] else Ok (f k)
  end.

(** bra_nlm[icoord] += d, in the component list of the shell *)
Definition bump (h : heap) (list_ptr : Z) (k d : Z) : res heap :=
  let* v := get_int h list_ptr k in set_int h list_ptr k (v + d)%Z.

(** nlm_to_linear(nlm) for a pointer into a component list.  Its private copy
    of the component list is allocated and freed inside the call and is not
    represented in the heap. *)
Definition linear_index (ord : cart_order) (h : heap) (list_ptr k : Z) : res Z :=
  let* n := get_int h list_ptr k in
  let* l := get_int h list_ptr (k + 1)%Z in
  let* m := get_int h list_ptr (k + 2)%Z in
  nlm_to_linear ord n l m.

(** overlap_gradient.c 117-146, the body of the three loops *)
Definition ovgrad_body (ord : cart_order) (oob : option (Z -> R)) (sA sB : shell) (down : option (arr R)) (up : arr R)
    (factor : R) (icoord i j : Z) (st : heap * arr R) : res (heap * arr R) :=
  let '(h, grad) := st in
  let bra_nlm := (3 * i)%Z in
  let ket_nlm := (3 * j)%Z in
  let index := (i * sh_cart_size sB + j)%Z in
  let* (h, grad) :=
    if (0 <? sh_L sA)%Z then
      let* h := bump h (sh_cart_list sA) (bra_nlm + icoord) (-1) in
      let* bra_index := linear_index ord h (sh_cart_list sA) bra_nlm in
      let* ket_index := linear_index ord h (sh_cart_list sB) ket_nlm in
      let* h := bump h (sh_cart_list sA) (bra_nlm + icoord) 1 in
      let* n := get_int h (sh_cart_list sA) (bra_nlm + icoord) in
      let* d := match down with
                | None => Fail NullDeref
                | Some M => read_at oob M (sh_cart_size sB * bra_index + ket_index)%Z
                end in
      let* g := aget grad [icoord; index] in
      let* grad := aset grad [icoord; index] (g - factor * IZR n * d) in
      Ok (h, grad)
    else Ok (h, grad) in
  let* h := bump h (sh_cart_list sA) (bra_nlm + icoord) 1 in
  let* bra_index := linear_index ord h (sh_cart_list sA) bra_nlm in
  let* ket_index := linear_index ord h (sh_cart_list sB) ket_nlm in
  let* h := bump h (sh_cart_list sA) (bra_nlm + icoord) (-1) in
  let* u := aget up [(sh_cart_size sB * bra_index + ket_index)%Z] in
  let* g := aget grad [icoord; index] in
  let* grad := aset grad [icoord; index] (g + factor * u) in
  Ok (h, grad).

(** overlap_gradient.c 92-152 *)
Definition diff_bra_contribution (ord : cart_order) (oob : option (Z -> R)) (h : heap) (pA pB : Z) (grad : arr R) (factor : R)
    : res (heap * arr R) :=
  let* (down, up, h) := diff_bra_overlap_integrals ord h pA pB in
  let* sA := load_shell h pA in
  let* sB := load_shell h pB in
  for_range 0 3 (fun icoord =>
  for_range 0 (sh_cart_size sA) (fun i =>
  for_range 0 (sh_cart_size sB) (fun j =>
    ovgrad_body ord oob sA sB down up factor icoord i j))) (h, grad).

(** overlap_gradient.c 41-82 *)
Definition overlap_gradient (ord : cart_order) (oob : option (Z -> R)) (h : heap) (pA pB : Z) (point : R * R * R) (grad : arr R)
    : res (heap * arr R) :=
  let* sA := load_shell h pA in
  let* sB := load_shell h pB in
  let buf_size := (sh_cart_size sA * sh_cart_size sB)%Z in
  let* grad := for_range 0 3 (fun icoord => for_range 0 buf_size (fun k grad => aset grad [icoord; k] 0)) grad in
  if points_are_equal (sh_origin sA) (sh_origin sB) then Ok (h, grad)
  else
    let* (h, grad) :=
      if points_are_equal (sh_origin sA) point then diff_bra_contribution ord oob h pA pB grad 1 else Ok (h, grad) in
    if points_are_equal (sh_origin sB) point then diff_bra_contribution ord oob h pA pB grad (-1) else Ok (h, grad).
