(** * Model of libgrpp/fortran.c

    Every argument of a Fortran entry point is a pointer; scalars and the points
    (arrays of three numbers) are read at the call and are values here, the
    arrays of coefficients, exponents and powers are pointers into the heap, and
    the output matrices are arrays passed along.  int32_t and int are both Z.
    The wrappers 29-71 and 1000-1081, which create nothing, are in FortranModule.v. *)

From Coq Require Import ZArith List Lia Bool Reals.
From Verif Require Import Base CartModel BinomModel HeapModel OneElModel OutercoreModel NucModel MmdModel SphModel RadialModel Type2Model GrppModel.
Import ListNotations.
Open Scope Z_scope.

(** the arguments "contracted Gaussian": origin, L, num_primitives, coeffs, alpha *)
Record fshell := mkFs { fs_origin : R * R * R; fs_L : Z; fs_num : Z; fs_coeffs : ptr; fs_alpha : ptr }.

(** the arguments of a pseudopotential: num_primitives, powers, coeffs, alpha *)
Record fpot := mkFp { fp_num : Z; fp_powers : ptr; fp_coeffs : ptr; fp_alpha : ptr }.

Definition make_shell (ord : cart_order) (h : heap) (a : fshell) : res (ptr * heap) :=
  new_shell ord h (fs_origin a) (fs_L a) (fs_num a) (fs_coeffs a) (fs_alpha a).

(** the copying loop, e.g. 103-105 *)
Definition copy_loop (h : heap) (n : Z) (powers p : ptr) : res heap :=
  for_range 0 n (fun i h =>
    let* k := get_int h powers i in
    set_int h p i k) h.

(** with the calloc, e.g. 101-105 *)
Definition copy_powers (h : heap) (n : Z) (powers : ptr) : res (ptr * heap) :=
  let '(p, h) := halloc h (OInts (HeapModel.zeros 0 n)) in
  let* h := copy_loop h n powers p in
  Ok (p, h).

(** the common frame of 709-993: construct A and B, call, delete A and B *)
Definition with_shells {Out} (ord : cart_order) (h : heap) (a b : fshell)
    (call : heap -> ptr -> ptr -> res (heap * Out)) : res (heap * Out) :=
  let* (pA, h) := make_shell ord h a in
  let* (pB, h) := make_shell ord h b in
  let* (h, out) := call h pA pB in
  let* h := delete_shell h pA in
  let* h := delete_shell h pB in
  Ok (h, out).

(** the common frame of 78-222 and 443-633: copy the powers, construct the
    potential, A and B, call, delete A, B and the potential, free the copy *)
Definition with_potential {Out} (ord : cart_order) (h : heap) (a b : fshell) (L J : Z) (u : fpot)
    (call : heap -> ptr -> ptr -> ptr -> res (heap * Out)) : res (heap * Out) :=
  let* (pw, h) := copy_powers h (fp_num u) (fp_powers u) in
  let* (pU, h) := new_potential h L J (fp_num u) pw (fp_coeffs u) (fp_alpha u) in
  let* (pA, h) := make_shell ord h a in
  let* (pB, h) := make_shell ord h b in
  let* (h, out) := call h pA pB pU in
  let* h := delete_shell h pA in
  let* h := delete_shell h pB in
  let* h := delete_potential h pU in
  let* h := hfree h pw in
  Ok (h, out).

(** a C routine that reads the two shells (and the potential) and writes only
    its output arrays *)
Definition reads2 {Out} (f : vshell -> vshell -> Out -> res Out) (out : Out) (h : heap) (pA pB : ptr) : res (heap * Out) :=
  let* A := view_shell h pA in
  let* B := view_shell h pB in
  let* out := f A B out in Ok (h, out).

Definition reads3 {Out} (f : vshell -> vshell -> vpot -> Out -> res Out) (out : Out) (h : heap) (pA pB pU : ptr) : res (heap * Out) :=
  let* A := view_shell h pA in
  let* B := view_shell h pB in
  let* U := view_pot h pU in
  let* out := f A B U out in Ok (h, out).

(** 78-117 *)
Definition type1_integrals_ daw init ord h a b (rpp_origin : R * R * R) (u : fpot) (matrix : arr R) : res (heap * arr R) :=
  with_potential ord h a b 0 0 u (reads3 (fun A B U M => type1_integrals daw init A B rpp_origin (Some U) M) matrix).

(** 124-165 *)
Definition type2_integrals_ fuel par bessel erf st init ord h a b (pot_origin : R * R * R) (pot_L : Z) (u : fpot) (matrix : arr R) : res (heap * arr R) :=
  with_potential ord h a b pot_L 0 u (reads3 (fun A B U M => type2_integrals fuel par bessel erf st init A B pot_origin U M) matrix).

(** 172-222 *)
Definition spin_orbit_integrals_ fuel par bessel erf st init ord h a b (pot_origin : R * R * R) (pot_L : Z) (u : fpot)
    (so_x so_y so_z : arr R) : res (heap * (arr R * arr R * arr R)) :=
  with_potential ord h a b pot_L 0 u
    (reads3 (fun A B U M => spin_orbit_integrals fuel par bessel erf st init A B pot_origin U M) (so_x, so_y, so_z)).

(** the assignments to shell->origin in outercore_integrals.c (both parts move
    the outercore shell to the origin of the operator) *)
Definition set_origin (h : heap) (p : ptr) (C : R * R * R) : res heap :=
  let* s := load_shell h p in
  hstore h p (OShell (mkShell (sh_L s) (sh_cart_size s) (sh_cart_list s) (sh_num s) (sh_coeffs s) (sh_alpha s) C)).

(** 231-316; the routine is the one of outercore_integrals.c with its type-1
    matrices from [t1] *)
Definition outercore_potential_integrals_part_1_ (t1 : t1_routine) ord h a b (pot_origin : R * R * R) (pot_L pot_J : Z) (u : fpot)
    (oc_num : Z) (oc_coeffs oc_alpha : ptr) (out : mats) : res (heap * mats) :=
  let* (pw, h) := copy_powers h (fp_num u) (fp_powers u) in
  let* (pA, h) := make_shell ord h a in
  let* (pB, h) := make_shell ord h b in
  let* (pU, h) := new_potential h pot_L pot_J (fp_num u) pw (fp_coeffs u) (fp_alpha u) in
  let* (pO, h) := new_shell ord h pot_origin pot_L oc_num oc_coeffs oc_alpha in
  let* A := view_shell h pA in
  let* B := view_shell h pB in
  let* U := view_pot h pU in
  let* oc := view_shell h pO in
  let* out := outercore_part_1 t1 A B pot_origin U oc out in
  let* h := set_origin h pO pot_origin in
  let* h := delete_shell h pA in
  let* h := delete_shell h pB in
  let* h := delete_potential h pU in
  let* h := delete_shell h pO in
  let* h := hfree h pw in
  Ok (h, out).

(** 325-436 *)
Definition outercore_potential_integrals_part_2_ ord h a b (pot_origin : R * R * R)
    (L1 J1 : Z) (u1 : fpot) (oc1_num : Z) (oc1_coeffs oc1_alpha : ptr)
    (L2 J2 : Z) (u2 : fpot) (oc2_num : Z) (oc2_coeffs oc2_alpha : ptr) (out : mats) : res (heap * mats) :=
  let '(pw1, h) := halloc h (OInts (HeapModel.zeros 0 (fp_num u1))) in
  let '(pw2, h) := halloc h (OInts (HeapModel.zeros 0 (fp_num u2))) in
  let* h := copy_loop h (fp_num u1) (fp_powers u1) pw1 in
  let* h := copy_loop h (fp_num u2) (fp_powers u2) pw2 in
  let* (pA, h) := make_shell ord h a in
  let* (pB, h) := make_shell ord h b in
  let* (pU1, h) := new_potential h L1 J1 (fp_num u1) pw1 (fp_coeffs u1) (fp_alpha u1) in
  let* (pO1, h) := new_shell ord h pot_origin L1 oc1_num oc1_coeffs oc1_alpha in
  let* (pU2, h) := new_potential h L2 J2 (fp_num u2) pw2 (fp_coeffs u2) (fp_alpha u2) in
  let* (pO2, h) := new_shell ord h pot_origin L2 oc2_num oc2_coeffs oc2_alpha in
  let* A := view_shell h pA in
  let* B := view_shell h pB in
  let* U1 := view_pot h pU1 in
  let* O1 := view_shell h pO1 in
  let* U2 := view_pot h pU2 in
  let* O2 := view_shell h pO2 in
  let* out := outercore_part_2 A B pot_origin U1 O1 U2 O2 out in
  let* h := if L1 =? L2 then if J1 =? J2 then
      let* h := set_origin h pO1 pot_origin in set_origin h pO2 pot_origin else Ok h else Ok h in
  let* h := delete_shell h pA in
  let* h := delete_shell h pB in
  let* h := delete_potential h pU1 in
  let* h := delete_potential h pU2 in
  let* h := delete_shell h pO1 in
  let* h := delete_shell h pO2 in
  let* h := hfree h pw1 in
  let* h := hfree h pw2 in
  Ok (h, out).

(** 443-490; the three matrices of the caller are the rows of one array *)
Definition type1_integrals_gradient_ oob rt ord h a b (rpp_origin : R * R * R) (u : fpot) (point_3d : R * R * R) (grad : arr R) : res (heap * arr R) :=
  with_potential ord h a b 0 0 u
    (fun h pA pB pU => type1_integrals_gradient ord oob rt h pA pB rpp_origin pU point_3d grad).

(** 497-546 *)
Definition type2_integrals_gradient_ oob rt ord h a b (pot_origin : R * R * R) (pot_L : Z) (u : fpot) (point_3d : R * R * R) (grad : arr R) : res (heap * arr R) :=
  with_potential ord h a b pot_L 0 u
    (fun h pA pB pU => type2_integrals_gradient ord oob rt h pA pB pot_origin pU point_3d grad).

(** 553-633 *)
Definition spin_orbit_integrals_gradient_ oob rt ord h a b (pot_origin : R * R * R) (pot_L : Z) (u : fpot) (point_3d : R * R * R)
    (grad : arr R * arr R * arr R) : res (heap * (arr R * arr R * arr R)) :=
  with_potential ord h a b pot_L 0 u
    (fun h pA pB pU => spin_orbit_integrals_gradient ord oob rt h pA pB pot_origin pU point_3d grad).

(** 668-671 and 673-676 for one shell *)
Definition set_component (h : heap) (p : ptr) (n l m : Z) : res heap :=
  let* s := load_shell h p in
  let* h := hstore h p (OShell (mkShell (sh_L s) 1 (sh_cart_list s) (sh_num s) (sh_coeffs s) (sh_alpha s) (sh_origin s))) in
  let* h := set_int h (sh_cart_list s) 0 n in
  let* h := set_int h (sh_cart_list s) 1 l in
  set_int h (sh_cart_list s) 2 m.

(** 641-682; [overlap_integral] is the block the result is written to *)
Definition evaluate_overlap_integral_contracted_ ord h
    (origin_A : R * R * R) (n_A l_A m_A num_A : Z) (coeffs_A alpha_A : ptr)
    (origin_B : R * R * R) (n_B l_B m_B num_B : Z) (coeffs_B alpha_B : ptr) (overlap_integral : arr R) : res (heap * arr R) :=
  with_shells ord h (mkFs origin_A (n_A + l_A + m_A) num_A coeffs_A alpha_A) (mkFs origin_B (n_B + l_B + m_B) num_B coeffs_B alpha_B)
    (fun h pA pB =>
      let* h := set_component h pA n_A l_A m_A in
      let* h := set_component h pB n_B l_B m_B in
      reads2 overlap_integrals overlap_integral h pA pB).

(** 689-702 *)
Definition radial_gto_norm_factor_ ord h (L num_primitives : Z) (coeffs alpha : ptr) : res (heap * R) :=
  let origin := (0, 0, 0)%R in
  let* (h, s) := evaluate_overlap_integral_contracted_ ord h origin L 0 0 num_primitives coeffs alpha
                   origin L 0 0 num_primitives coeffs alpha (aconst [1] 0%R) in
  let* s := aget s [0] in
  let* f := double_factorial (2 * L - 1) in
  Ok (h, (sqrt (IZR f) / sqrt s)%R).

(** 709-733 *)
Definition overlap_integrals_ ord h a b (matrix : arr R) := with_shells ord h a b (reads2 overlap_integrals matrix).

(** 740-764 *)
Definition kinetic_energy_integrals_ ord h a b (matrix : arr R) := with_shells ord h a b (reads2 kinetic_integrals matrix).

(** 771-797 *)
Definition momentum_integrals_ ord h a b (mx my mz : arr R) := with_shells ord h a b (reads2 momentum_integrals (mx, my, mz)).

(** 804-834 *)
Definition nuclear_attraction_integrals_ sf ev init ord h a b (charge_origin : R * R * R) (charge nuclear_model : Z) (model_params : option (arr R)) (matrix : arr R) :=
  with_shells ord h a b (reads2 (fun A B M => nuclear_attraction_integrals sf ev init A B charge_origin charge nuclear_model model_params M) matrix).

(** 837-864 *)
Definition nuclear_attraction_integrals_point_charge_ sf ev init ord h a b (charge_origin : R * R * R) (charge : Z) (matrix : arr R) :=
  with_shells ord h a b (reads2 (fun A B M => nuclear_attraction_point_charge sf ev init A B charge_origin charge M) matrix).

(** 867-895 *)
Definition nuclear_attraction_integrals_charged_ball_ sf ev init ord h a b (charge_origin : R * R * R) (charge : Z) (r_rms : R) (matrix : arr R) :=
  with_shells ord h a b (reads2 (fun A B M => nuclear_attraction_charged_ball sf ev init A B charge_origin charge r_rms M) matrix).

(** 898-926 *)
Definition nuclear_attraction_integrals_gaussian_model_ sf ev init ord h a b (charge_origin : R * R * R) (charge : Z) (r_rms : R) (matrix : arr R) :=
  with_shells ord h a b (reads2 (fun A B M => nuclear_attraction_gaussian_model sf ev init A B charge_origin charge r_rms M) matrix).

(** 929-959 *)
Definition nuclear_attraction_integrals_fermi_model_ sf ev init ord h a b (charge_origin : R * R * R) (charge : Z) (c a_ : R) (matrix : arr R) :=
  with_shells ord h a b (reads2 (fun A B M => nuclear_attraction_fermi_model sf ev init A B charge_origin charge c a_ M) matrix).

(** 962-993 *)
Definition nuclear_attraction_integrals_fermi_bubble_model_ sf ev init ord h a b (charge_origin : R * R * R) (charge : Z) (c a_ k : R) (matrix : arr R) :=
  with_shells ord h a b (reads2 (fun A B M => nuclear_attraction_fermi_bubble_model sf ev init A B charge_origin charge c a_ k M) matrix).
