(** * Model of the Cartesian component generators and the index lookup.

    Sources: libgrpp/parameters.c 94-134, libgrpp/shell.c 31-32, 98-101, 116-124,
    libgrpp/overlap_gradient.c 219-241, libgrpp/spherical_harmonics.c 283-304. *)

From Coq Require Import ZArith List Lia Bool.
From Verif Require Import Base.
Import ListNotations.
Open Scope Z_scope.

(** number of components: parameters.c 97, 119; shell.c 31, 118.
    C integer division truncates; the dividend is non-negative for L >= -1. *)
Definition n_cart (L : Z) : Z := Z.quot ((L + 1) * (L + 2)) 2.

(** state of the generators: the output array [int *cart_list] and [count] *)
Definition gst : Type := arr Z * Z.

(** parameters.c 103-106 (and 125-129): three writes and [count++] *)
Definition put3 (r s t : Z) (st : gst) : res gst :=
  let '(a, count) := st in
  let* a1 := aset a [3 * count + 0] r in
  let* a2 := aset a1 [3 * count + 1] s in
  let* a3 := aset a2 [3 * count + 2] t in
  Ok (a3, count + 1).

(** parameters.c 94-113 *)
Definition cartesian_generator_dirac (L : Z) (cart_list : arr Z) : res (Z * gst) :=
  let* st :=
    for_down L 0 (fun r =>
    for_down L 0 (fun s =>
    for_down L 0 (fun t st =>
      if r + s + t =? L then put3 r s t st else Ok st))) (cart_list, 0) in
  Ok (n_cart L, st).

(** parameters.c 116-134 *)
Definition cartesian_generator_turbomole (L : Z) (cart_list : arr Z) : res (Z * gst) :=
  let* st :=
    for_down L 0 (fun r =>
    for_down (L - r) 0 (fun s st =>
      let t := L - r - s in put3 r s t st)) (cart_list, 0) in
  Ok (n_cart L, st).

(** spherical_harmonics.c 283-304 (the generator used for real spherical
    harmonics); loops run upwards.  The result is [(combinations, n)]. *)
Definition generate_cartesian_combinations (L : Z) : res gst :=
  let combinations := aconst [3 * n_cart L] 0 in
  for_range 0 (L + 1) (fun i =>
  for_range 0 (L + 1) (fun j =>
  for_range 0 (L + 1) (fun k st =>
    if i + j + k =? L then put3 i j k st else Ok st))) (combinations, 0).

(** The value of [libgrpp_params.cartesian_generator]: one of the two built-in
    functions (custom callbacks set through libgrpp_set_cartesian_generator are
    outside the model). *)
Inductive cart_order := OrderDirac | OrderTurbomole.

Definition cartesian_generator (o : cart_order) : Z -> arr Z -> res (Z * gst) :=
  match o with
  | OrderDirac => cartesian_generator_dirac
  | OrderTurbomole => cartesian_generator_turbomole
  end.

(** shell.c 116-124; the returned array together with the allocated size *)
Definition generate_shell_cartesians (o : cart_order) (L : Z) : res (arr Z) :=
  let ncart := n_cart L in
  let cart_list := aconst [3 * ncart] 0 in
  let* (_, (a, _)) := cartesian_generator o L cart_list in
  Ok a.

(** overlap_gradient.c 229-236: linear search; returns the first matching
    position, or [cart_size].  [fuel] is the number of remaining iterations. *)
Fixpoint search_nlm (fuel : nat) (a : arr Z) (n l m index : Z) : res Z :=
  match fuel with
  | O => Ok index
  | S fuel' =>
      let* c0 := aget a [3 * index + 0] in
      if negb (c0 =? n) then search_nlm fuel' a n l m (index + 1) else
      let* c1 := aget a [3 * index + 1] in
      if negb (c1 =? l) then search_nlm fuel' a n l m (index + 1) else
      let* c2 := aget a [3 * index + 2] in
      if negb (c2 =? m) then search_nlm fuel' a n l m (index + 1) else
      Ok index
  end.

(** overlap_gradient.c 219-241.  For n+l+m < -1 the C code would pass a
    non-negative-but-wrong size to calloc; callers only produce n+l+m >= -1. *)
Definition nlm_to_linear (o : cart_order) (n l m : Z) : res Z :=
  let L := n + l + m in
  let cart_size := n_cart L in
  let* cart_list := generate_shell_cartesians o L in
  search_nlm (Z.to_nat cart_size) cart_list n l m 0.

(** Reading the finished array back as a list of triples (used to state what
    "the component list" is; this is what callers do with
    [cart_list[3*i+0..2]], e.g. overlap.c 128-133). *)
Fixpoint read_triples (n : nat) (i : Z) (a : arr Z) : res (list (Z * Z * Z)) :=
  match n with
  | O => Ok []
  | S n' =>
      let* r := aget a [3 * i + 0] in
      let* s := aget a [3 * i + 1] in
      let* t := aget a [3 * i + 2] in
      let* rest := read_triples n' (i + 1) a in
      Ok ((r, s, t) :: rest)
  end.

(** the component list of a new shell (shell.c 31-32) *)
Definition shell_components (o : cart_order) (L : Z) : res (list (Z * Z * Z)) :=
  let* a := generate_shell_cartesians o L in
  read_triples (Z.to_nat (n_cart L)) 0 a.
