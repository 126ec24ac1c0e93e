(** * Library initialisation and finalisation, run by any number of threads.

    Interleaving (sequentially consistent) semantics.  The two bodies guarded by
    [#pragma omp critical] use the same unnamed critical section, modelled by one
    lock.  Table construction is split into one step per spherical harmonic table
    and one step per Bessel table row; [libgrpp_is_initialized] reads the flag
    without taking the lock.  Not modelled: weaker memory models, the numerical
    contents of the tables. *)

From Coq Require Import ZArith List Lia Bool.
Import ListNotations.
Open Scope Z_scope.

Inductive call := CallInit | CallFinalize | CallQuery.

(** program counter of a thread *)
Inductive pc :=
| Outside                 (* between library calls *)
| InitEnter               (* init_finalize.c 22: inside the critical section *)
| InitRsh (L : Z)         (* spherical_harmonics.c 57-59: about to test L <= Lmax *)
| InitBessel (i : Z)      (* specfunc_scaled_mod_sph_bessel.c 47: about to test i <= 1600 *)
| InitFlag                (* init_finalize.c 27 *)
| InitLeave               (* init_finalize.c 28-29: leave the critical section *)
| FinEnter                (* init_finalize.c 46 *)
| FinLeave.

Record thread := mkThread { t_pc : pc; t_todo : list call }.

(** what happened so far, newest first *)
Inductive event :=
| EvRsh (L : Z)                   (* table of order L constructed *)
| EvRow (i : Z)                   (* Bessel table row i filled *)
| EvEffect (t : nat) (c : call)   (* the call took effect: flag written or found as wanted *)
| EvReturn (t : nat) (c : call)
| EvQuery (t : nat) (v : Z).

Record shared := mkShared {
  sh_lock : option nat;
  sh_flag : Z;                    (* libgrpp_initialized, init_finalize.c 13 *)
  sh_lmax : Z;                    (* rsh_tables_lmax, spherical_harmonics.c 32 *)
  sh_log : list event }.

Definition set_pc (t : thread) (p : pc) : thread := mkThread p (t_todo t).

(** one step of thread number [n], if it can move *)
Definition tstep (n : nat) (t : thread) (s : shared) : option (thread * shared) :=
  match t_pc t with
  | Outside =>
      match t_todo t with
      | [] => None
      | CallQuery :: r =>        (* init_finalize.c 33-36 *)
          Some (mkThread Outside r,
                mkShared (sh_lock s) (sh_flag s) (sh_lmax s) (EvQuery n (sh_flag s) :: sh_log s))
      | CallInit :: r =>         (* init_finalize.c 21: enter the critical section *)
          match sh_lock s with
          | None => Some (mkThread InitEnter r, mkShared (Some n) (sh_flag s) (sh_lmax s) (sh_log s))
          | Some _ => None
          end
      | CallFinalize :: r =>     (* init_finalize.c 44 *)
          match sh_lock s with
          | None => Some (mkThread FinEnter r, mkShared (Some n) (sh_flag s) (sh_lmax s) (sh_log s))
          | Some _ => None
          end
      end
  | InitEnter =>                 (* init_finalize.c 23-24, spherical_harmonics.c 50-57 *)
      if sh_flag s =? 0 then
        Some (set_pc t (if 40 <=? sh_lmax s then InitBessel 0 else InitRsh (sh_lmax s + 1)), s)
      else
        Some (set_pc t InitLeave, mkShared (sh_lock s) (sh_flag s) (sh_lmax s) (EvEffect n CallInit :: sh_log s))
  | InitRsh L =>                 (* spherical_harmonics.c 57-60 *)
      if L <=? 40 then
        Some (set_pc t (InitRsh (L + 1)), mkShared (sh_lock s) (sh_flag s) (sh_lmax s) (EvRsh L :: sh_log s))
      else
        Some (set_pc t (InitBessel 0), mkShared (sh_lock s) (sh_flag s) 40 (sh_log s))
  | InitBessel i =>              (* specfunc_scaled_mod_sph_bessel.c 47-60 *)
      if i <=? 1600 then
        Some (set_pc t (InitBessel (i + 1)), mkShared (sh_lock s) (sh_flag s) (sh_lmax s) (EvRow i :: sh_log s))
      else Some (set_pc t InitFlag, s)
  | InitFlag =>                  (* init_finalize.c 27 *)
      Some (set_pc t InitLeave, mkShared (sh_lock s) 1 (sh_lmax s) (EvEffect n CallInit :: sh_log s))
  | InitLeave =>
      Some (set_pc t Outside, mkShared None (sh_flag s) (sh_lmax s) (EvReturn n CallInit :: sh_log s))
  | FinEnter =>                  (* init_finalize.c 46-48 *)
      Some (set_pc t FinLeave,
            mkShared (sh_lock s) (if sh_flag s =? 1 then 0 else sh_flag s) (sh_lmax s)
              (EvEffect n CallFinalize :: sh_log s))
  | FinLeave =>
      Some (set_pc t Outside, mkShared None (sh_flag s) (sh_lmax s) (EvReturn n CallFinalize :: sh_log s))
  end.

Record machine := mkMachine { m_threads : list thread; m_shared : shared }.

Fixpoint upd {A} (l : list A) (n : nat) (x : A) : list A :=
  match l, n with
  | [], _ => []
  | _ :: r, O => x :: r
  | y :: r, S n' => y :: upd r n' x
  end.

(** any thread may move *)
Inductive mstep (m : machine) : machine -> Prop :=
| mstep_intro : forall n t t' s',
    nth_error (m_threads m) n = Some t ->
    tstep n t (m_shared m) = Some (t', s') ->
    mstep m (mkMachine (upd (m_threads m) n t') s').

Inductive msteps : machine -> machine -> Prop :=
| msteps_refl : forall m, msteps m m
| msteps_step : forall m1 m2 m3, msteps m1 m2 -> mstep m2 m3 -> msteps m1 m3.

(** start of the process: static initialisers, init_finalize.c 13,
    spherical_harmonics.c 31-32 *)
Definition start (programs : list (list call)) : machine :=
  mkMachine (map (mkThread Outside) programs) (mkShared None 0 (-1) []).

Definition reachable (programs : list (list call)) (m : machine) : Prop := msteps (start programs) m.

Definition finished (m : machine) : Prop :=
  Forall (fun t => t_pc t = Outside /\ t_todo t = []) (m_threads m).
