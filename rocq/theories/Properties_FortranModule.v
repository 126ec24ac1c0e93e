(** * C86: the Fortran module

    [module_outercore], [module_outercore_gradient]: the two routines with a body in
    libgrpp.f90; [row_denotes f i x]: row i of the argument arrays describes the potential and
    the outercore shell x (FortranModuleProofs.v); [denotes], [same_as_c]: as in C53;
    [only_set m p v m']: m' is m with the variable at p set to v. *)

From Coq Require Import ZArith List Lia Bool Reals.
From Verif Require Import Base CartModel CartProofs HeapModel HeapProofs HeapShrink HeapSpec ParamsModel OneElModel OneElProofs OneElSpec
  OutercoreModel NucModel GrppModel GrppHeap GrppTerm FortranModel FortranProofs FortranThms FortranModule FortranModuleProofs.
Import ListNotations.
Open Scope Z_scope.

(** C86: the outercore integrals of the Fortran module are those of the C routine for the potentials and
shells which the rows of the arrays describe, with the same fault if there is one, and all
temporary objects are released. *)
Theorem C86_outercore : forall t1 ord h a b C num f ocs A B out,
  heap_wf h -> denotes h a A -> denotes h b B -> num = Z.of_nat (length ocs) ->
  (forall i x, nth_error ocs i = Some x -> row_denotes f i x) ->
  same_as_c h (module_outercore t1 ord h a b C num f out) (let* (o, _) := outercore_potential_integrals t1 A B C ocs out in Ok o).
Proof. exact module_thm. Qed.
Print Assumptions C86_outercore.

(** C86: the gradient routine of the module has no statements: whatever the derivative is, there are
contents of the twelve matrices with which the call does not give it. *)
Theorem C86_gradient_refuted : forall h a b C num f D (v : R) (size : Z),
  0 < size ->
  exists grad, length grad = 12%nat /\ Forall (fun m => adims m = [size]) grad /\
    exists grad' m x, module_outercore_gradient h a b C num f D grad = Ok (h, grad') /\ nth_error grad' 0 = Some m /\ aget m [0] = Ok x /\ x <> v.
Proof. exact module_gradient_thm. Qed.
Print Assumptions C86_gradient_refuted.

Open Scope R_scope.

(** C86: parameters, charge densities, potentials and radii: each entry point stores the value of the C
function at the values before the call, also when the result replaces an argument, and changes
nothing else. *)
Theorem C86_scalars : forall Sk erf m p q1 q2 q3 q4 q5,
  forall out,
  (set_radial_tolerance_ m p q1 = set_radial p (fv_real m q1) /\ set_angular_screening_tolerance_ m p q1 = set_angular p (fv_real m q1) /\
   set_modified_bessel_tolerance_ m p q1 = set_bessel p (fv_real m q1) /\ set_cartesian_order_ m p q1 = set_order p (fv_int m q1) /\ set_default_parameters_ p = set_defaults p) /\
  only_set m out (rms_radius_johnson_1985 (fv_int m q1)) (estimate_nuclear_rms_radius_johnson_1985_ m q1 out) /\
  only_set m out (rms_radius_golovko_2008 (fv_int m q1)) (estimate_nuclear_rms_radius_golovko_2008_ m q1 out) /\
  only_set m out (charge_density_ball (fv_real m q1) (fv_real m q2) (fv_real m q3)) (charge_density_ball_ m q1 q2 q3 out) /\
  only_set m out (charge_density_gaussian (fv_real m q1) (fv_real m q2) (fv_real m q3)) (charge_density_gaussian_ m q1 q2 q3 out) /\
  only_set m out (charge_density_fermi Sk (fv_real m q1) (fv_real m q2) (fv_real m q3) (fv_real m q4)) (charge_density_fermi_ Sk m q1 q2 q3 q4 out) /\
  only_set m out (charge_density_fermi_bubble Sk (fv_real m q1) (fv_real m q2) (fv_real m q3) (fv_real m q4) (fv_real m q5)) (charge_density_fermi_bubble_ Sk m q1 q2 q3 q4 q5 out) /\
  only_set m out (coulomb_potential_point (fv_real m q1) (fv_real m q2)) (coulomb_potential_point_ m q1 q2 out) /\
  only_set m out (coulomb_potential_ball (fv_real m q1) (fv_real m q2) (fv_real m q3)) (coulomb_potential_ball_ m q1 q2 q3 out) /\
  only_set m out (coulomb_potential_gaussian erf (fv_real m q1) (fv_real m q2) (fv_real m q3)) (coulomb_potential_gaussian_ erf m q1 q2 q3 out) /\
  only_set m out (coulomb_potential_fermi Sk (fv_real m q1) (fv_real m q2) (fv_real m q3) (fv_real m q4)) (coulomb_potential_fermi_ Sk m q1 q2 q3 q4 out) /\
  only_set m out (coulomb_potential_fermi_bubble Sk (fv_real m q1) (fv_real m q2) (fv_real m q3) (fv_real m q4) (fv_real m q5)) (coulomb_potential_fermi_bubble_ Sk m q1 q2 q3 q4 q5 out) /\
  only_set m out (rms_radius_fermi Sk (fv_int m q1) (fv_real m q3) (fv_real m q4)) (rms_radius_fermi_ Sk m q1 q3 q4 out) /\
  only_set m out (rms_radius_fermi_bubble Sk (fv_int m q1) (fv_real m q3) (fv_real m q4) (fv_real m q5)) (rms_radius_fermi_bubble_ Sk m q1 q3 q4 q5 out).
Proof. exact scalars_thm. Qed.
Print Assumptions C86_scalars.

(** C86: the estimate of the parameters of the Fermi model, also when one of the results replaces R_rms. *)
Theorem C86_fermi_parameters : forall m R_rms c a err,
  c <> a ->
  let m' := estimate_fermi_model_parameters_ m R_rms c a err in
  (forall q, q <> err -> fv_int m' q = fv_int m q) /\ (forall q, q <> c -> q <> a -> fv_real m' q = fv_real m q) /\
  match estimate_fermi_model_parameters (fv_real m R_rms) with
  | Some (c0, a0) => fv_int m' err = 1%Z /\ fv_real m' c = c0 /\ fv_real m' a = a0
  | None => fv_int m' err = (-1)%Z /\ fv_real m' c = fv_real m c
  end.
Proof. exact fermi_parameters_thm. Qed.
Print Assumptions C86_fermi_parameters.

Open Scope Z_scope.

(** arrays with two outercore shells of which the second has fewer primitives than the arrays have
columns *)
Definition rows2 : focs := mkFocs [0; 1] [1; 3] [2; 1] [[2; 1]; [2; 0]] [[1; 3]; [5; 0]]%R [[1; 2]; [4; 0]]%R [2; 1] [[1; 1]; [1; 0]]%R [[1; 6]; [2; 0]]%R.

Example C86_case t1 ord : exists a A ocs, heap_wf fheap /\ denotes fheap a A /\ sv_size A = 3 /\ length ocs = 2%nat /\ (forall i x, nth_error ocs i = Some x -> row_denotes rows2 i x) /\
  (forall out, same_as_c fheap (module_outercore t1 ord fheap a a (0, 0, 2)%R 2 rows2 out) (let* (o, _) := outercore_potential_integrals t1 A A (0, 0, 2)%R ocs out in Ok o)).
Proof.
  destruct fheap_shell as (A & DA & SA & _).
  assert (R0 : exists x, row_denotes rows2 0 x).
  { eexists. exists 0, 1, 2, [2; 1], [1; 3]%R, [1; 2]%R, 2, [1; 1]%R, [1; 6]%R, (0, 0, 0)%R. repeat (split; [first [reflexivity | lia | unfold nprim_ok; cbn; lia | cbn; lia]|]). reflexivity. }
  assert (R1 : exists x, row_denotes rows2 1 x).
  { eexists. exists 1, 3, 1, [2; 0], [5; 0]%R, [4; 0]%R, 1, [1; 0]%R, [2; 0]%R, (0, 0, 0)%R. repeat (split; [first [reflexivity | lia | unfold nprim_ok; cbn; lia | cbn; lia]|]). reflexivity. }
  destruct R0 as (x0 & R0). destruct R1 as (x1 & R1).
  assert (HR : forall i x, nth_error [x0; x1] i = Some x -> row_denotes rows2 i x).
  { intros [|[|i]] x E; cbn in E; [injection E as <-; exact R0|injection E as <-; exact R1|destruct i; discriminate E]. }
  exists fshellA, A, [x0; x1]. split; [exact fheap_wf|]. split; [exact DA|]. split; [exact SA|]. split; [reflexivity|]. split; [exact HR|].
  intros out. apply (module_thm t1 ord fheap fshellA fshellA (0, 0, 2)%R 2 rows2 [x0; x1] A A out fheap_wf DA DA eq_refl HR).
Qed.
