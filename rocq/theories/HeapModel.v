(** * Heap model: shells, potentials and GRPP containers.

    Sources: libgrpp/shell.c, libgrpp/potential.c, libgrpp/grpp.c,
    libgrpp/libgrpp.h (structures).

    A heap maps addresses to live blocks.  Address 0 is NULL.  Addresses are
    never reused (simplification: this makes every use of a freed pointer
    visible as a fault, it does not hide any).  A block is either an array or one
    of the library's structures; struct fields are read and written as a whole.
    malloc/calloc are assumed to succeed (the C code does not check either). *)

From Coq Require Import ZArith List Lia Bool Reals.
From Verif Require Import Base CartModel.
Import ListNotations.
Open Scope Z_scope.

Notation ptr := Z (only parsing).

(** LIBGRPP_ZERO_THRESH, libgrpp.h *)
Definition zero_thresh : R := (/ 10 ^ 14)%R.

(** libgrpp.h: libgrpp_potential_t *)
Record potential := mkPot {
  pot_L : Z; pot_J : Z; pot_num : Z;
  pot_powers : ptr; pot_coeffs : ptr; pot_alpha : ptr }.

(** libgrpp.h: libgrpp_shell_t *)
Record shell := mkShell {
  sh_L : Z; sh_cart_size : Z; sh_cart_list : ptr;
  sh_num : Z; sh_coeffs : ptr; sh_alpha : ptr;
  sh_origin : R * R * R }.

(** libgrpp.h: libgrpp_grpp_t *)
Record grpp := mkGrpp {
  g_n_arep : Z; g_n_esop : Z; g_n_oc : Z;
  g_UL : ptr; g_Uarep : ptr; g_Uesop : ptr; g_Uoc : ptr; g_ocshells : ptr }.

Inductive obj :=
| OInts (l : list Z)
| ODbls (l : list R)
| OPtrs (l : list ptr)
| OPot (p : potential)
| OShell (s : shell)
| OGrpp (g : grpp).

Record heap := mkHeap { hnext : Z; hblk : Z -> option obj }.

Definition halloc (h : heap) (o : obj) : ptr * heap :=
  (hnext h, mkHeap (hnext h + 1) (fun q => if q =? hnext h then Some o else hblk h q)).

Definition hload (h : heap) (p : ptr) : res obj :=
  if p =? 0 then Fail NullDeref
  else match hblk h p with Some o => Ok o | None => Fail UseAfterFree end.

Definition hstore (h : heap) (p : ptr) (o : obj) : res heap :=
  if p =? 0 then Fail NullDeref
  else match hblk h p with
       | Some _ => Ok (mkHeap (hnext h) (fun q => if q =? p then Some o else hblk h q))
       | None => Fail UseAfterFree
       end.

(** free(): NULL is allowed *)
Definition hfree (h : heap) (p : ptr) : res heap :=
  if p =? 0 then Ok h
  else match hblk h p with
       | Some _ => Ok (mkHeap (hnext h) (fun q => if q =? p then None else hblk h q))
       | None => Fail DoubleFree
       end.

(** typed access *)
Definition load_pot h p := let* o := hload h p in
  match o with OPot x => Ok x | _ => Fail WrongObject end.
Definition load_shell h p := let* o := hload h p in
  match o with OShell x => Ok x | _ => Fail WrongObject end.
Definition load_grpp h p := let* o := hload h p in
  match o with OGrpp x => Ok x | _ => Fail WrongObject end.

(** element access into array blocks *)
Fixpoint list_set {A} (l : list A) (n : nat) (v : A) : list A :=
  match l, n with
  | [], _ => []
  | _ :: l', O => v :: l'
  | x :: l', S n' => x :: list_set l' n' v
  end.

Definition elem {A} (l : list A) (i : Z) : res A :=
  if i <? 0 then Fail OutOfBounds
  else match nth_error l (Z.to_nat i) with Some v => Ok v | None => Fail OutOfBounds end.

Definition elem_set {A} (l : list A) (i : Z) (v : A) : res (list A) :=
  if (0 <=? i) && (i <? Z.of_nat (length l)) then Ok (list_set l (Z.to_nat i) v)
  else Fail OutOfBounds.

Definition get_int h p i := let* o := hload h p in
  match o with OInts l => elem l i | _ => Fail WrongObject end.
Definition get_dbl h p i := let* o := hload h p in
  match o with ODbls l => elem l i | _ => Fail WrongObject end.
Definition get_ptr h p i := let* o := hload h p in
  match o with OPtrs l => elem l i | _ => Fail WrongObject end.
Definition set_int h p i v := let* o := hload h p in
  match o with OInts l => let* l' := elem_set l i v in hstore h p (OInts l') | _ => Fail WrongObject end.
Definition set_dbl h p i v := let* o := hload h p in
  match o with ODbls l => let* l' := elem_set l i v in hstore h p (ODbls l') | _ => Fail WrongObject end.
Definition set_ptr h p i v := let* o := hload h p in
  match o with OPtrs l => let* l' := elem_set l i v in hstore h p (OPtrs l') | _ => Fail WrongObject end.

(** calloc of n elements *)
Definition zeros {A} (z : A) (n : Z) : list A := repeat z (Z.to_nat n).

(** contents of an int array object as a list *)
Fixpoint arr_list (n : nat) (i : Z) (a : arr Z) : res (list Z) :=
  match n with
  | O => Ok []
  | S n' => let* v := aget a [i] in let* rest := arr_list n' (i + 1) a in Ok (v :: rest)
  end.

(** shell.c 116-124 in the heap; the generator is the one of CartModel *)
Definition generate_shell_cartesians_h (o : cart_order) (h : heap) (L : Z) : res (ptr * heap) :=
  let* a := generate_shell_cartesians o L in
  let* l := arr_list (Z.to_nat (3 * n_cart L)) 0 a in
  Ok (halloc h (OInts l)).

(** shell.c 23-43.  [origin] is passed by value: lines 28-30 read it at call
    time.  [coeffs], [alpha] are pointers to caller memory. *)
Definition new_shell (ord : cart_order) (h : heap) (origin : R * R * R) (L num_primitives : Z)
    (coeffs alpha : ptr) : res (ptr * heap) :=
  let '(shell, h) := halloc h (OShell (mkShell L 0 0 0 0 0 origin)) in
  let* (cart, h) := generate_shell_cartesians_h ord h L in
  let '(pc, h) := halloc h (ODbls (zeros 0%R num_primitives)) in
  let '(pa, h) := halloc h (ODbls (zeros 0%R num_primitives)) in
  let* h := hstore h shell (OShell (mkShell L (n_cart L) cart num_primitives pc pa origin)) in
  let* h :=
    for_range 0 num_primitives (fun i h =>
      let* c := get_dbl h coeffs i in
      let* h := set_dbl h pc i c in
      let* a := get_dbl h alpha i in
      set_dbl h pa i a) h in
  Ok (shell, h).

(** shell.c 49-60 *)
Definition shell_deep_copy (ord : cart_order) (h : heap) (src : ptr) : res (ptr * heap) :=
  let* s := load_shell h src in
  new_shell ord h (sh_origin s) (sh_L s) (sh_num s) (sh_coeffs s) (sh_alpha s).

(** shell.c 67-80; loop state: heap and nprim *)
Definition shell_shrink (h : heap) (p : ptr) : res heap :=
  let* s := load_shell h p in
  let* (h, nprim) :=
    for_range 0 (sh_num s) (fun i '(h, nprim) =>
      let* c := get_dbl h (sh_coeffs s) i in
      if Rlt_dec zero_thresh (Rabs c) then
        let* h := set_dbl h (sh_coeffs s) nprim c in
        let* a := get_dbl h (sh_alpha s) i in
        let* h := set_dbl h (sh_alpha s) nprim a in
        Ok (h, nprim + 1)
      else Ok (h, nprim)) (h, 0) in
  hstore h p (OShell (mkShell (sh_L s) (sh_cart_size s) (sh_cart_list s) nprim
                              (sh_coeffs s) (sh_alpha s) (sh_origin s))).

(** shell.c 98-101 *)
Definition get_shell_size (h : heap) (p : ptr) : res Z :=
  let* s := load_shell h p in Ok (sh_cart_size s).

(** shell.c 107-113 *)
Definition delete_shell (h : heap) (p : ptr) : res heap :=
  let* s := load_shell h p in
  let* h := hfree h (sh_cart_list s) in
  let* h := hfree h (sh_coeffs s) in
  let* h := hfree h (sh_alpha s) in
  hfree h p.

(** potential.c 22-46; loop state: heap and pot->num_primitives (the field is
    kept in the loop state and stored at the end; nothing reads it in between) *)
Definition new_potential (h : heap) (L J num_primitives : Z) (powers coeffs alpha : ptr)
    : res (ptr * heap) :=
  let '(pot, h) := halloc h (OPot (mkPot 0 0 0 0 0 0)) in
  let '(pp, h) := halloc h (OInts (zeros 0 num_primitives)) in
  let '(pc, h) := halloc h (ODbls (zeros 0%R num_primitives)) in
  let '(pa, h) := halloc h (ODbls (zeros 0%R num_primitives)) in
  let* (h, n) :=
    for_range 0 num_primitives (fun i '(h, n) =>
      let* c := get_dbl h coeffs i in
      if Rlt_dec (Rabs c) zero_thresh then Ok (h, n)
      else
        let* h := set_dbl h pc n c in
        let* k := get_int h powers i in
        let* h := set_int h pp n k in
        let* a := get_dbl h alpha i in
        let* h := set_dbl h pa n a in
        Ok (h, n + 1)) (h, 0) in
  let* h := hstore h pot (OPot (mkPot L J n pp pc pa)) in
  Ok (pot, h).

(** potential.c 52-62 *)
Definition delete_potential (h : heap) (p : ptr) : res heap :=
  if p =? 0 then Ok h
  else
    let* x := load_pot h p in
    let* h := hfree h (pot_powers x) in
    let* h := hfree h (pot_coeffs x) in
    let* h := hfree h (pot_alpha x) in
    hfree h p.

(** potential.c 88-115 *)
Definition shrink_potential (h : heap) (src : ptr) : res (ptr * heap) :=
  let* s := load_pot h src in
  let n := pot_num s in
  let '(np, h) := halloc h (OInts (zeros 0 n)) in
  let '(nc, h) := halloc h (ODbls (zeros 0%R n)) in
  let '(na, h) := halloc h (ODbls (zeros 0%R n)) in
  let* (h, k) :=
    for_range 0 n (fun i '(h, k) =>
      let* c := get_dbl h (pot_coeffs s) i in
      if Rlt_dec zero_thresh (Rabs c) then
        let* e := get_int h (pot_powers s) i in
        let* h := set_int h np k e in
        let* h := set_dbl h nc k c in
        let* a := get_dbl h (pot_alpha s) i in
        let* h := set_dbl h na k a in
        Ok (h, k + 1)
      else Ok (h, k)) (h, 0) in
  let* (new_pot, h) := new_potential h (pot_L s) (pot_J s) k np nc na in
  let* h := hfree h np in
  let* h := hfree h nc in
  let* h := hfree h na in
  Ok (new_pot, h).

(** pow(r, n - 2) with an integer exponent.  For negative exponents this is
    the reciprocal power; at r = 0 C's pow gives infinity, Coq's inverse gives
    an unspecified number, so theorems restrict to r <> 0 or n >= 2. *)
Definition rpow_int (r : R) (k : Z) : R := powerRZ r k.

(** potential.c 70-81 *)
Definition potential_value (h : heap) (p : ptr) (r : R) : res R :=
  let* x := load_pot h p in
  for_range 0 (pot_num x) (fun i val =>
    let* n := get_int h (pot_powers x) i in
    let* c := get_dbl h (pot_coeffs x) i in
    let* a := get_dbl h (pot_alpha x) i in
    Ok (val + c * rpow_int r (n - 2) * exp (- a * (r * r)))%R) 0%R.

(** LIBGRPP_MAX_NUMBER_POTENTIALS, grpp.c 12 *)
Definition max_number_potentials : Z := 100.

(** grpp.c 15-18 *)
Definition new_grpp (h : heap) : ptr * heap := halloc h (OGrpp (mkGrpp 0 0 0 0 0 0 0 0)).

(** grpp.c 21-28 *)
Definition set_local_potential (h : heap) (g pot : ptr) : res heap :=
  let* x := load_grpp h g in
  let* h := if g_UL x =? 0 then Ok h else delete_potential h (g_UL x) in
  hstore h g (OGrpp (mkGrpp (g_n_arep x) (g_n_esop x) (g_n_oc x) pot
                            (g_Uarep x) (g_Uesop x) (g_Uoc x) (g_ocshells x))).

Definition new_ptr_array (h : heap) : ptr * heap :=
  halloc h (OPtrs (zeros 0 max_number_potentials)).

(** grpp.c 31-38 *)
Definition add_averaged_potential (h : heap) (g pot : ptr) : res heap :=
  let* x := load_grpp h g in
  let '(ua, h) := if g_n_arep x =? 0 then new_ptr_array h else (g_Uarep x, h) in
  let* h := set_ptr h ua (g_n_arep x) pot in
  hstore h g (OGrpp (mkGrpp (g_n_arep x + 1) (g_n_esop x) (g_n_oc x) (g_UL x)
                            ua (g_Uesop x) (g_Uoc x) (g_ocshells x))).

(** grpp.c 41-48 *)
Definition add_spin_orbit_potential (h : heap) (g pot : ptr) : res heap :=
  let* x := load_grpp h g in
  let '(ue, h) := if g_n_esop x =? 0 then new_ptr_array h else (g_Uesop x, h) in
  let* h := set_ptr h ue (g_n_esop x) pot in
  hstore h g (OGrpp (mkGrpp (g_n_arep x) (g_n_esop x + 1) (g_n_oc x) (g_UL x)
                            (g_Uarep x) ue (g_Uoc x) (g_ocshells x))).

(** grpp.c 51-61 *)
Definition add_outercore_potential (h : heap) (g pot oc_shell : ptr) : res heap :=
  let* x := load_grpp h g in
  let '(uo, us, h) :=
    if g_n_oc x =? 0 then
      let '(uo, h) := new_ptr_array h in
      let '(us, h) := new_ptr_array h in (uo, us, h)
    else (g_Uoc x, g_ocshells x, h) in
  let* h := set_ptr h uo (g_n_oc x) pot in
  let* h := set_ptr h us (g_n_oc x) oc_shell in
  hstore h g (OGrpp (mkGrpp (g_n_arep x) (g_n_esop x) (g_n_oc x + 1) (g_UL x)
                            (g_Uarep x) (g_Uesop x) uo us)).

(** grpp.c 77-81, 87-91, 97-100: delete the non-NULL potentials of an array *)
Definition delete_pots (h : heap) (n : Z) (u : ptr) : res heap :=
  for_range 0 n (fun i h =>
    let* p := get_ptr h u i in
    if p =? 0 then Ok h else delete_potential h p) h.

(** grpp.c 64-109 *)
Definition delete_grpp (h : heap) (g : ptr) : res heap :=
  if g =? 0 then Ok h
  else
    let* x := load_grpp h g in
    let* h := if g_UL x =? 0 then Ok h else delete_potential h (g_UL x) in
    let* h := delete_pots h (g_n_arep x) (g_Uarep x) in
    let* h := hfree h (g_Uarep x) in
    let* h := delete_pots h (g_n_esop x) (g_Uesop x) in
    let* h := hfree h (g_Uesop x) in
    let* h := for_range 0 (g_n_oc x) (fun i h =>
      let* p := get_ptr h (g_Uoc x) i in
      let* h := if p =? 0 then Ok h else delete_potential h p in
      let* s := get_ptr h (g_ocshells x) i in
      if s =? 0 then Ok h else delete_shell h s) h in
    let* h := hfree h (g_Uoc x) in
    let* h := hfree h (g_ocshells x) in
    hfree h g.
