(** * C96: normalised coefficients and the working copies of the type-2 radial integrals

    [shell_mult_normcoef]: libgrpp_shell_mult_normcoef; [type2_inputs], [type2_cleanup]: the shrunk
    potential and the two working copies with which a table of type-2 radial integrals is computed,
    and their deletion (NormcoefModel.v).  [shell_at h p v], [pot_at h p v]: an intact shell or
    potential with contents v (HeapSpec.v); [norm_L], [gto], [phi_of]: norm, Gaussian and contracted
    function (OneElSpec.v); [with_norm L (c, a)] = (c norm_L L a, a) (Normcoef.v);
    [above_thresh]: |c| > 1e-14; [shrink_norm]: the list of primitives from which RadialModel.v
    computes the integrals.  The power function is the one of positive numbers. *)

From Coq Require Import ZArith List Lia Bool Reals Lra.
From Verif Require Import Base CartModel HeapModel HeapProofs HeapShrink HeapSpec OneElModel OneElProofs OneElPairs OneElSpec RadialModel NormcoefModel Normcoef.
From Verif Require Properties_Heap.
Import ListNotations.
Open Scope Z_scope.

(** C96: the call never faults, multiplies every coefficient by the norm of its own primitive, and changes no block other than the
array of coefficients: exponents, component list, origin and every other object stay as they were. *)
Theorem C96_normcoef : forall h p v,
  heap_wf h -> shell_at h p v ->
  exists h', shell_mult_normcoef h p = Ok h' /\ heap_wf h' /\
    shell_at h' p (mkSview (v_L v) (v_size v) (v_origin v) (v_list v) (map (with_norm (v_L v)) (v_prims v))) /\
    (forall q s, hblk h p = Some (OShell s) -> q <> sh_coeffs s -> hblk h' q = hblk h q).
Proof. exact normcoef_spec. Qed.
Print Assumptions C96_normcoef.

(** C96: with plain Gaussians the new coefficients describe the function that the old ones describe with normalised Gaussians, for
every component and at every point. *)
Theorem C96_same_function : forall h p v h' v',
  heap_wf h -> shell_at h p v -> shell_mult_normcoef h p = Ok h' -> shell_at h' p v' ->
  v_origin v' = v_origin v /\ v_list v' = v_list v /\
  forall c x y z, lsum (fun '(cf, a) => (cf * gto (v_origin v') c a x y z)%R) (v_prims v') = phi_of v c x y z.
Proof. exact normcoef_function. Qed.
Print Assumptions C96_same_function.

(** C96: the call is not idempotent: made twice it multiplies by the square of the norm. *)
Theorem C96_twice : forall h p v h1 h2 v',
  heap_wf h -> shell_at h p v -> shell_mult_normcoef h p = Ok h1 -> shell_mult_normcoef h1 p = Ok h2 -> shell_at h2 p v' ->
  v_prims v' = map (fun '(c, a) => ((c * norm_L (v_L v) a ^ 2)%R, a)) (v_prims v).
Proof. exact normcoef_twice. Qed.
Print Assumptions C96_twice.

(** C96: a working copy holds the primitives above the threshold, in order, with their norms; it leaves every existing block alone
and deleting it restores the heap.  Its primitives are those of the model of the radial integrals. *)
Theorem C96_working_copy : forall ord h src v,
  heap_wf h -> shell_at h src v -> 0 <= v_L v ->
  exists p h' v', working_shell ord h src = Ok (p, h') /\ shell_at h' p v' /\ hblk h p = None /\ heap_wf h' /\
    v_L v' = v_L v /\ v_origin v' = v_origin v /\ v_prims v' = map (with_norm (v_L v)) (filter above_thresh (v_prims v)) /\
    v_prims v' = shrink_norm (v_L v) (v_prims v) /\
    (forall q o, hblk h q = Some o -> hblk h' q = Some o) /\
    (exists h'', delete_shell h' p = Ok h'' /\ forall q, hblk h'' q = hblk h q).
Proof. exact working_shell_spec. Qed.
Print Assumptions C96_working_copy.

(** C96: the potential and the two working copies are made without a fault, even when bra and ket are the same shell; none of the
caller's blocks is changed and the clean-up frees exactly what was made. *)
Theorem C96_inputs : forall ord h pot bra ket vp vb vk,
  heap_wf h -> pot_at h pot vp -> shell_at h bra vb -> shell_at h ket vk -> 0 <= v_L vb -> 0 <= v_L vk ->
  exists pp pb pk h' vb' vk', type2_inputs ord h pot bra ket = Ok (pp, pb, pk, h') /\ heap_wf h' /\
    pot_at h' pp (mkPview (pv_L vp) (pv_J vp) (filter above_thresh3 (pv_prims vp))) /\
    shell_at h' pb vb' /\ v_origin vb' = v_origin vb /\ v_prims vb' = map (with_norm (v_L vb)) (filter above_thresh (v_prims vb)) /\
    shell_at h' pk vk' /\ v_origin vk' = v_origin vk /\ v_prims vk' = map (with_norm (v_L vk)) (filter above_thresh (v_prims vk)) /\
    (forall q o, hblk h q = Some o -> hblk h' q = Some o) /\
    (exists h'', type2_cleanup h' pp pb pk = Ok h'' /\ forall q, hblk h'' q = hblk h q).
Proof. exact type2_inputs_spec. Qed.
Print Assumptions C96_inputs.

(** a shell with two primitives; its working copy has both, with their norms *)
Example C96_case : exists h p v, heap_wf h /\ shell_at h p v /\ v_L v = 1 /\ v_prims v = [(1, 3); (2, 4)]%R /\
  map (with_norm 1) (filter above_thresh (v_prims v)) = [(1 * norm_L 1 3, 3); (2 * norm_L 1 4, 4)]%R.
Proof.
  destruct (new_shell_spec OrderDirac Properties_Heap.heap_with_arrays (0, 0, 1)%R 1 2 1 2 [1; 2]%R [3; 4]%R Properties_Heap.heap_with_arrays_wf)
    as (p & h & v & E & A & _ & W & VL & _ & _ & _ & P & _); [lia|reflexivity|reflexivity|cbn; lia|cbn; lia|].
  exists h, p, v. split; [exact W|]. split; [exact A|]. split; [exact VL|]. change (firstn (Z.to_nat 2) (combine [1; 2]%R [3; 4]%R)) with [(1, 3); (2, 4)]%R in P. split; [exact P|]. rewrite P.
  cbn [filter]. unfold above_thresh. cbn [fst]. destruct (Rlt_dec (/ 10 ^ 14) (Rabs 1)) as [_|B]; [|exfalso; apply B; rewrite Rabs_pos_eq; lra].
  destruct (Rlt_dec (/ 10 ^ 14) (Rabs 2)) as [_|B]; [|exfalso; apply B; rewrite Rabs_pos_eq; lra]. reflexivity.
Qed.

(** the norm of the first primitive is not 1, so that the call changes the shell *)
Example C96_changes : (norm_L 0 (PI / 2) = 1 /\ norm_L 2 (PI / 2) = 2 * PI)%R.
Proof.
  pose proof PI_RGT_0 as H. unfold norm_L. replace (2 * (PI / 2) / PI)%R with 1%R by (field; lra). unfold Rpower. rewrite ln_1, !Rmult_0_r, exp_0.
  replace (0 / 2 * ln (4 * (PI / 2)))%R with 0%R by (unfold Rdiv; ring). rewrite exp_0. split; [ring|].
  replace (2 / 2 * ln (4 * (PI / 2)))%R with (ln (4 * (PI / 2))) by field. rewrite exp_ln by lra. field.
Qed.

(** a potential and two shells, bra and ket being the same object *)
Example C96_inputs_case : exists h pot bra vp vb, heap_wf h /\ pot_at h pot vp /\ shell_at h bra vb /\ v_L vb = 1 /\ v_prims vb = [(1, 3); (2, 4)]%R.
Proof.
  destruct (new_shell_spec OrderDirac Properties_Heap.heap_with_arrays (0, 0, 1)%R 1 2 1 2 [1; 2]%R [3; 4]%R Properties_Heap.heap_with_arrays_wf)
    as (p & h & v & E & A & _ & W & VL & _ & _ & _ & P & Old & _); [lia|reflexivity|reflexivity|cbn; lia|cbn; lia|].
  destruct (new_potential_spec h 1 3 2 3 1 2 [2; 1]%Z [1; 2]%R [3; 4]%R W) as (q & h' & E' & W' & A' & Q); [repeat split; apply Old; reflexivity|cbn; lia|cbn; lia|cbn; lia|].
  exists h', q, p, (mkPview 1 3 (filter at_least_thresh [(2%Z, 1, 3); (1%Z, 2, 4)]%R)), v. split; [exact W'|]. split; [exact A'|].
  split; [|split; [exact VL|exact P]].
  destruct A as (s & lc & la & H1 & H2 & H3 & H4 & A). exists s, lc, la. destruct Q as (_ & Q & _). repeat (split; [apply Q; assumption|]). exact A.
Qed.
