(** * Model of the Fortran module test_libgrpp_f90/libgrpp.f90 (outercore potentials) and of the
    entry points of libgrpp/fortran.c which create no objects

    The two-dimensional arrays of the module are lists of rows; x(i, :) is passed to an entry
    point as a contiguous copy of row i, made before the call and released after it.  A
    subscript outside an array is a fault. *)

From Coq Require Import ZArith List Lia Bool Reals.
From Verif Require Import Base CartModel HeapModel ParamsModel OneElModel OutercoreModel NucModel FortranModel.
Import ListNotations.
Open Scope Z_scope.

(** x(i) *)
Definition fnth {A} (l : list A) (i : Z) : res A :=
  if 1 <=? i then match nth_error l (Z.to_nat (i - 1)) with Some x => Ok x | None => Fail OutOfBounds end else Fail OutOfBounds.

(** the arguments oc_shells_L, oc_shells_J, rpp_num_primitives, rpp_powers, rpp_coeffs, rpp_alpha,
    oc_shells_num_primitives, oc_shells_coeffs, oc_shells_alpha: libgrpp.f90 263-264 *)
Record focs := mkFocs { fo_L : list Z; fo_J : list Z; fo_num : list Z; fo_powers : list (list Z); fo_coeffs : list (list R); fo_alpha : list (list R);
  fo_snum : list Z; fo_scoeffs : list (list R); fo_salpha : list (list R) }.

(** what an entry point receives for the outercore shell i: L, J, the potential, the number of
    primitives of the shell, its coefficients and exponents *)
Definition focarg : Type := Z * Z * fpot * Z * ptr * ptr.

(** oc_shells_L(i), oc_shells_J(i), rpp_num_primitives(i), rpp_powers(i, :), ...: libgrpp.f90 319-321,
    335-337, 338-340 *)
Definition with_row {Out} (h : heap) (f : focs) (i : Z) (call : heap -> focarg -> res (heap * Out)) : res (heap * Out) :=
  let* L := fnth (fo_L f) i in
  let* J := fnth (fo_J f) i in
  let* n := fnth (fo_num f) i in
  let* lp := fnth (fo_powers f) i in
  let* lc := fnth (fo_coeffs f) i in
  let* la := fnth (fo_alpha f) i in
  let* sn := fnth (fo_snum f) i in
  let* sc := fnth (fo_scoeffs f) i in
  let* sa := fnth (fo_salpha f) i in
  let '(p1, h) := halloc h (OInts lp) in
  let '(p2, h) := halloc h (ODbls lc) in
  let '(p3, h) := halloc h (ODbls la) in
  let '(p4, h) := halloc h (ODbls sc) in
  let '(p5, h) := halloc h (ODbls sa) in
  let* (h, out) := call h (L, J, mkFp n p1 p2 p3, sn, p4, p5) in
  let* h := hfree h p5 in
  let* h := hfree h p4 in
  let* h := hfree h p3 in
  let* h := hfree h p2 in
  let* h := hfree h p1 in
  Ok (h, out).

(** libgrpp.f90 303-304 *)
Definition ncart (L : Z) : Z := Z.quot ((L + 1) * (L + 2)) 2.

(** libgrpp.f90 260-349 *)
Definition module_outercore (t1 : t1_routine) (ord : cart_order) (h : heap) (a b : fshell) (C : R * R * R) (num : Z) (f : focs) (out : mats) : res (heap * mats) :=
  let size := ncart (fs_L a) * ncart (fs_L b) in
  let '(arep, sx, sy, sz) := out in
  let* arep := memset0 size arep in
  let* sx := memset0 size sx in
  let* sy := memset0 size sy in
  let* sz := memset0 size sz in
  let* (h, out) := for_range 1 (num + 1) (fun i '(h, out) =>
    with_row h f i (fun h '(L, J, u, n, pc, pa) =>
      outercore_potential_integrals_part_1_ t1 ord h a b C L J u n pc pa out)) (h, (arep, sx, sy, sz)) in
  for_range 1 (num + 1) (fun i s =>
    for_range 1 (num + 1) (fun j '(h, out) =>
      with_row h f i (fun h '(L1, J1, u1, n1, c1, a1) =>
        with_row h f j (fun h '(L2, J2, u2, n2, c2, a2) =>
          outercore_potential_integrals_part_2_ ord h a b C L1 J1 u1 n1 c1 a1 L2 J2 u2 n2 c2 a2 out))) s) (h, out).

(** libgrpp.f90 351-417: no statements; the twelve matrices are grad *)
Definition module_outercore_gradient (h : heap) (a b : fshell) (C : R * R * R) (num : Z) (f : focs) (point_3d : R * R * R) (grad : list (arr R)) : res (heap * list (arr R)) :=
  Ok (h, grad).

(** ** Entry points for scalars: every argument is the address of a variable *)
Record fvars := mkVars { fv_real : Z -> R; fv_int : Z -> Z }.

Definition store_real (m : fvars) (p : Z) (v : R) : fvars := mkVars (fun q => if q =? p then v else fv_real m q) (fv_int m).
Definition store_int (m : fvars) (p v : Z) : fvars := mkVars (fv_real m) (fun q => if q =? p then v else fv_int m q).

(** fortran.c 29-56 *)
Definition set_default_parameters_ (p : params) : params := set_defaults p.
Definition set_radial_tolerance_ (m : fvars) (p : params) (tolerance : Z) : params := set_radial p (fv_real m tolerance).
Definition set_angular_screening_tolerance_ (m : fvars) (p : params) (tolerance : Z) : params := set_angular p (fv_real m tolerance).
Definition set_modified_bessel_tolerance_ (m : fvars) (p : params) (tolerance : Z) : params := set_bessel p (fv_real m tolerance).
Definition set_cartesian_order_ (m : fvars) (p : params) (order : Z) : res params := set_order p (fv_int m order).

(** fortran.c 1000-1009 *)
Definition estimate_nuclear_rms_radius_johnson_1985_ (m : fvars) (A R_rms : Z) : fvars := store_real m R_rms (rms_radius_johnson_1985 (fv_int m A)).
Definition estimate_nuclear_rms_radius_golovko_2008_ (m : fvars) (A R_rms : Z) : fvars := store_real m R_rms (rms_radius_golovko_2008 (fv_int m A)).

(** fortran.c 1012-1015 with nuclear_models.c 68-80 on the addresses c and a *)
Definition estimate_fermi_model_parameters_ (m : fvars) (R_rms c a err_code : Z) : fvars :=
  let r := fv_real m R_rms in
  let m := store_real m a (2.3 / (4 * ln 3))%R in
  let c2 := (5 / 3 * r * r - 7 / 3 * PI * PI * fv_real m a * fv_real m a)%R in
  if Rlt_dec c2 0 then store_int m err_code (-1)
  else store_int (store_real m c (sqrt c2)) err_code 1.

(** fortran.c 1018-1033 *)
Definition charge_density_ball_ (m : fvars) (r Z_ R_rms rho : Z) := store_real m rho (charge_density_ball (fv_real m r) (fv_real m Z_) (fv_real m R_rms)).
Definition charge_density_gaussian_ (m : fvars) (r Z_ R_rms rho : Z) := store_real m rho (charge_density_gaussian (fv_real m r) (fv_real m Z_) (fv_real m R_rms)).
Definition charge_density_fermi_ Sk (m : fvars) (r Z_ c a rho : Z) := store_real m rho (charge_density_fermi Sk (fv_real m r) (fv_real m Z_) (fv_real m c) (fv_real m a)).
(** fortran.c 1036-1039 *)
Definition charge_density_fermi_bubble_ Sk (m : fvars) (r Z_ c a k rho : Z) := store_real m rho (charge_density_fermi_bubble Sk (fv_real m r) (fv_real m Z_) (fv_real m c) (fv_real m a) (fv_real m k)).
(** fortran.c 1042-1069 *)
Definition coulomb_potential_point_ (m : fvars) (r Z_ pot : Z) := store_real m pot (coulomb_potential_point (fv_real m r) (fv_real m Z_)).
Definition coulomb_potential_ball_ (m : fvars) (r Z_ R_rms pot : Z) := store_real m pot (coulomb_potential_ball (fv_real m r) (fv_real m Z_) (fv_real m R_rms)).
Definition coulomb_potential_gaussian_ erf (m : fvars) (r Z_ R_rms pot : Z) := store_real m pot (coulomb_potential_gaussian erf (fv_real m r) (fv_real m Z_) (fv_real m R_rms)).
Definition coulomb_potential_fermi_ Sk (m : fvars) (r Z_ c a pot : Z) := store_real m pot (coulomb_potential_fermi Sk (fv_real m r) (fv_real m Z_) (fv_real m c) (fv_real m a)).
Definition coulomb_potential_fermi_bubble_ Sk (m : fvars) (r Z_ c a k pot : Z) := store_real m pot (coulomb_potential_fermi_bubble Sk (fv_real m r) (fv_real m Z_) (fv_real m c) (fv_real m a) (fv_real m k)).
(** fortran.c 1072-1081; Z is an integer here *)
Definition rms_radius_fermi_ Sk (m : fvars) (Z_ c a r_rms : Z) := store_real m r_rms (rms_radius_fermi Sk (fv_int m Z_) (fv_real m c) (fv_real m a)).
Definition rms_radius_fermi_bubble_ Sk (m : fvars) (Z_ c a k r_rms : Z) := store_real m r_rms (rms_radius_fermi_bubble Sk (fv_int m Z_) (fv_real m c) (fv_real m a) (fv_real m k)).
