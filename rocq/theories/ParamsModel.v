(** * Library parameters (parameters.c) *)

From Coq Require Import ZArith List Lia Bool Reals.
From Verif Require Import Base CartModel.
Import ListNotations.
Open Scope Z_scope.

(** parameters.h 16-23: the global libgrpp_params *)
Record params := mkParams {
  par_radial : R; par_angular : R; par_bessel : R; par_order : cart_order }.

(** the literal 1e-16 *)
Definition tol16 : R := (/ 10 ^ 16)%R.

(** parameters.c 17-27 *)
Definition initial_params : params := mkParams tol16 tol16 tol16 OrderDirac.

(** parameters.c 42-48 *)
Definition set_radial (p : params) (t : R) : params := mkParams t (par_angular p) (par_bessel p) (par_order p).
(** parameters.c 51-57 *)
Definition set_angular (p : params) (t : R) : params := mkParams (par_radial p) t (par_bessel p) (par_order p).
(** parameters.c 60-66 *)
Definition set_bessel (p : params) (t : R) : params := mkParams (par_radial p) (par_angular p) t (par_order p).
(** parameters.c 85-91; the two generators defined in the library stand for the
    function pointer *)
Definition set_generator (p : params) (g : cart_order) : params :=
  mkParams (par_radial p) (par_angular p) (par_bessel p) g.

(** parameters.h 11-14: enumeration values *)
Definition code_dirac : Z := 0.
Definition code_turbomole : Z := 1.

(** parameters.c 69-82 *)
Definition set_order (p : params) (order : Z) : res params :=
  let* _ := massert ((order =? code_dirac) || (order =? code_turbomole)) in
  if order =? code_dirac then Ok (set_generator p OrderDirac)
  else if order =? code_turbomole then Ok (set_generator p OrderTurbomole)
  else Ok p.

(** parameters.c 30-39 *)
Definition set_defaults (p : params) : params :=
  let p := set_radial p tol16 in
  let p := set_angular p tol16 in
  let p := set_bessel p tol16 in
  set_generator p OrderDirac.

Inductive pop :=
| PRadial (t : R) | PAngular (t : R) | PBessel (t : R) | POrder (code : Z) | PGenerator (g : cart_order) | PDefaults.

Definition pstep (p : params) (o : pop) : res params :=
  match o with
  | PRadial t => Ok (set_radial p t)
  | PAngular t => Ok (set_angular p t)
  | PBessel t => Ok (set_bessel p t)
  | POrder c => set_order p c
  | PGenerator g => Ok (set_generator p g)
  | PDefaults => Ok (set_defaults p)
  end.

Fixpoint prun (p : params) (ops : list pop) : res params :=
  match ops with [] => Ok p | o :: r => let* p' := pstep p o in prun p' r end.
