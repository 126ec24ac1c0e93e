(** * C06-C11: shells, potentials and GRPP objects on the heap *)

From Coq Require Import ZArith List Lia Bool Reals Lra.
From Verif Require Import Base CartModel CartProofs HeapModel HeapProofs HeapShrink HeapGrpp HeapClient HeapSpec HeapNull.
Import ListNotations.
Open Scope Z_scope.

(** C06: a constructed shell holds the given data in its own fresh blocks: no
    activity [ws] of the caller on the caller's blocks changes it, and deleting
    it restores the heap exactly. *)
Theorem C06_new_shell_owns_copies : forall ord h origin L n coeffs alpha lc la,
  heap_wf h -> 0 <= L ->
  hblk h coeffs = Some (ODbls lc) -> hblk h alpha = Some (ODbls la) ->
  0 <= n <= Z.of_nat (length lc) -> n <= Z.of_nat (length la) ->
  exists p h' v, new_shell ord h origin L n coeffs alpha = Ok (p, h') /\
    shell_at h' p v /\ hblk h p = None /\ heap_wf h' /\
    v_L v = L /\ v_size v = n_cart L /\ v_origin v = origin /\ components_ints ord L (v_list v) /\
    v_prims v = firstn (Z.to_nat n) (combine lc la) /\
    (forall q o, hblk h q = Some o -> hblk h' q = Some o) /\
    (forall ws h'', Forall (wr_target (callers h h')) ws -> wr_run h' ws = Ok h'' -> shell_at h'' p v) /\
    (exists h'', delete_shell h' p = Ok h'' /\ forall q, hblk h'' q = hblk h q).
Proof. exact new_shell_spec. Qed.
Print Assumptions C06_new_shell_owns_copies.

(** C06: a deep copy has the same data, is untouched by any later activity of the
    caller (including on the original), leaves the original intact, and
    deleting it leaves the original as it was. *)
Theorem C06_deep_copy_independent : forall ord h src v,
  heap_wf h -> shell_at h src v -> 0 <= v_L v ->
  exists p h' v', shell_deep_copy ord h src = Ok (p, h') /\
    shell_at h' p v' /\ p <> src /\ hblk h p = None /\ heap_wf h' /\
    v_L v' = v_L v /\ v_origin v' = v_origin v /\ v_prims v' = v_prims v /\
    v_size v' = n_cart (v_L v) /\ components_ints ord (v_L v) (v_list v') /\
    shell_at h' src v /\
    (forall ws h'', Forall (wr_target (callers h h')) ws -> wr_run h' ws = Ok h'' -> shell_at h'' p v') /\
    (exists h'', delete_shell h' p = Ok h'' /\ forall q, hblk h'' q = hblk h q).
Proof. exact deep_copy_spec. Qed.
Print Assumptions C06_deep_copy_independent.

Definition heap_with_arrays : heap :=
  mkHeap 4 (fun p => if p =? 1 then Some (ODbls [1; 2]%R) else if p =? 2 then Some (ODbls [3; 4]%R)
                     else if p =? 3 then Some (OInts [2; 1]) else None).

Example heap_with_arrays_wf : heap_wf heap_with_arrays.
Proof.
  split; [cbn; lia|]. intros p o. unfold heap_with_arrays. cbn [hblk hnext].
  destruct (Z.eqb_spec p 1); [lia|]. destruct (Z.eqb_spec p 2); [lia|]. destruct (Z.eqb_spec p 3); [lia|discriminate].
Qed.

Example C06_case : exists p h v,
  new_shell OrderDirac heap_with_arrays (0, 0, 1)%R 1 2 1 2 = Ok (p, h) /\ shell_at h p v /\
  v_prims v = [(1, 3); (2, 4)]%R /\ v_size v = 3 /\
  Forall (wr_target (callers heap_with_arrays h)) [WStore 1 (ODbls [7; 7]%R); WFree 2].
Proof.
  destruct (new_shell_spec OrderDirac heap_with_arrays (0, 0, 1)%R 1 2 1 2 [1; 2]%R [3; 4]%R heap_with_arrays_wf)
    as (p & h & v & E & A & _ & _ & _ & Sz & _ & _ & P & _); [lia|reflexivity|reflexivity|cbn; lia|cbn; lia|].
  exists p, h, v. repeat split; [exact E|exact A|rewrite P; reflexivity|rewrite Sz; reflexivity|].
  constructor; [left; discriminate|constructor; [left; discriminate|constructor]].
Qed.

(** C07: shrinking keeps, in order, exactly the primitives with |c| > 1e-14 together
    with their exponents and changes nothing else. *)
Theorem C07_shrink_keeps_exactly_large : forall h p v,
  heap_wf h -> shell_at h p v ->
  exists h', shell_shrink h p = Ok h' /\ heap_wf h' /\
    shell_at h' p (mkSview (v_L v) (v_size v) (v_origin v) (v_list v) (filter above_thresh (v_prims v))) /\
    (forall q s, hblk h p = Some (OShell s) -> q <> p -> q <> sh_coeffs s -> q <> sh_alpha s ->
       hblk h' q = hblk h q).
Proof. exact shrink_spec. Qed.
Print Assumptions C07_shrink_keeps_exactly_large.

(** C07: shrinking again changes nothing. *)
Theorem C07_shrink_idempotent : forall h p v h1 h2,
  heap_wf h -> shell_at h p v ->
  shell_shrink h p = Ok h1 -> shell_shrink h1 p = Ok h2 ->
  exists v1, shell_at h1 p v1 /\ shell_at h2 p v1.
Proof. exact shrink_idempotent. Qed.
Print Assumptions C07_shrink_idempotent.

(** C07: the contracted function changes by at most 1e-14 times the largest primitive
    value for every dropped primitive. *)
Theorem C07_shrink_value_error : forall phi (l : list (R * R)) M,
  (forall c a, In (c, a) l -> (Rabs (phi a) <= M)%R) -> (0 <= M)%R ->
  (Rabs (contr_sum phi l - contr_sum phi (filter above_thresh l))
   <= INR (length l - length (filter above_thresh l)) * (/ 10 ^ 14 * M))%R.
Proof. exact shrink_value. Qed.
Print Assumptions C07_shrink_value_error.

Example C07_case : exists p h v h',
  new_shell OrderDirac (mkHeap 3 (fun p => if p =? 1 then Some (ODbls [1; 0; 2]%R)
     else if p =? 2 then Some (ODbls [3; 4; 5]%R) else None)) (0, 0, 0)%R 0 3 1 2 = Ok (p, h) /\
  shell_shrink h p = Ok h' /\ shell_at h' p v /\ v_prims v = [(1, 3); (2, 5)]%R.
Proof.
  set (h0 := mkHeap 3 _).
  assert (W : heap_wf h0).
  { split; [cbn; lia|]. intros p o. unfold h0. cbn [hblk hnext].
    destruct (Z.eqb_spec p 1); [lia|]. destruct (Z.eqb_spec p 2); [lia|discriminate]. }
  destruct (new_shell_spec OrderDirac h0 (0, 0, 0)%R 0 3 1 2 [1; 0; 2]%R [3; 4; 5]%R W)
    as (p & h & v & E & A & _ & W' & _ & _ & _ & _ & P & _); [lia|reflexivity|reflexivity|cbn; lia|cbn; lia|].
  destruct (shrink_spec h p v W' A) as (h' & E' & _ & A' & _).
  eexists p, h, _, h'. repeat split; [exact E|exact E'|exact A'|].
  cbn [v_prims]. rewrite P. change (firstn _ _) with [(1, 3); (0, 4); (2, 5)]%R. cbn [filter].
  unfold above_thresh. cbn [fst].
  assert (T : (0 < / 10 ^ 14 < 1)%R).
  { split; [apply Rinv_0_lt_compat, pow_lt; lra|]. rewrite <- Rinv_1. apply Rinv_lt_contravar.
    - rewrite Rmult_1_l. apply pow_lt; lra.
    - apply Rlt_pow_R1; [lra|lia]. }
  rewrite Rabs_R1, Rabs_R0, (Rabs_right 2) by lra.
  destruct (Rlt_dec _ 1); [|lra]. destruct (Rlt_dec _ 0); [lra|]. destruct (Rlt_dec _ 2); [|lra]. reflexivity.
Qed.

(** C08: a constructed potential holds exactly the terms with |c| >= 1e-14, in
    order, in fresh blocks; deleting it restores the heap. *)
Theorem C08_constructor_keeps_terms : forall h L J n powers coeffs alpha lp lc la,
  heap_wf h -> arrays_hold h powers coeffs alpha lp lc la ->
  0 <= n <= Z.of_nat (length lp) -> n <= Z.of_nat (length lc) -> n <= Z.of_nat (length la) ->
  exists p h', new_potential h L J n powers coeffs alpha = Ok (p, h') /\ heap_wf h' /\
    pot_at h' p (mkPview L J (filter at_least_thresh (firstn (Z.to_nat n) (zip3 lp lc la)))) /\
    hblk h p = None /\
    (forall q o, hblk h q = Some o -> hblk h' q = Some o) /\
    (exists h'', delete_potential h' p = Ok h'' /\ forall q, hblk h'' q = hblk h q).
Proof. exact new_potential_spec. Qed.
Print Assumptions C08_constructor_keeps_terms.

(** C08: a shrunk potential holds exactly the terms with |c| > 1e-14, in order; the
    source is unchanged and both can be deleted. *)
Theorem C08_shrink_keeps_terms : forall h src v,
  heap_wf h -> pot_at h src v ->
  exists p h', shrink_potential h src = Ok (p, h') /\ heap_wf h' /\
    pot_at h' p (mkPview (pv_L v) (pv_J v) (filter above_thresh3 (pv_prims v))) /\
    pot_at h' src v /\ hblk h p = None /\
    (forall q o, hblk h q = Some o -> hblk h' q = Some o) /\
    (exists h'', delete_potential h' p = Ok h'' /\ forall q, hblk h'' q = hblk h q).
Proof. exact shrink_potential_spec. Qed.
Print Assumptions C08_shrink_keeps_terms.

(** C08: the value of a potential is the sum of c r^(n-2) exp(-a r^2). *)
Theorem C08_value_is_radial_sum : forall h p v r,
  heap_wf h -> pot_at h p v ->
  potential_value h p r = Ok (radial_sum (pv_prims v) r).
Proof. exact potential_value_spec. Qed.
Print Assumptions C08_value_is_radial_sum.

(** C08: dropping at construction changes the value by at most 1e-14 times the sum of
    the dropped radial factors. *)
Theorem C08_constructor_value_error : forall l r,
  (Rabs (radial_sum l r - radial_sum (filter at_least_thresh l) r)
   <= / 10 ^ 14 * abs_radial_sum (filter (fun x => negb (at_least_thresh x)) l) r)%R.
Proof. exact new_value_error. Qed.
Print Assumptions C08_constructor_value_error.

(** C08: the same for shrinking. *)
Theorem C08_shrink_value_error : forall l r,
  (Rabs (radial_sum l r - radial_sum (filter above_thresh3 l) r)
   <= / 10 ^ 14 * abs_radial_sum (filter (fun x => negb (above_thresh3 x)) l) r)%R.
Proof. exact shrink_value_error. Qed.
Print Assumptions C08_shrink_value_error.

Example C08_radial_sum_meaning : forall r : R, radial_sum [(2, 3%R, 1%R); (3, 5%R, 4%R)] r =
  (3 * powerRZ r 0 * exp (- 1 * r ^ 2) + 5 * powerRZ r 1 * exp (- 4 * r ^ 2))%R.
Proof.
  intros r. unfold radial_sum, radial_term, p_pow, p_coef, p_exp. cbn [fst snd].
  unfold rpow_int. change (2 - 2) with 0. change (3 - 2) with 1. replace (r ^ 2)%R with (r * r)%R by ring.
  replace (- (1) * (r * r))%R with (-1 * (r * r))%R by ring. cbv beta. ring_simplify. reflexivity.
Qed.

Example C08_case : exists p h, new_potential heap_with_arrays 1 3 2 3 1 2 = Ok (p, h) /\
  pot_at h p (mkPview 1 3 (filter at_least_thresh [(2, 1%R, 3%R); (1, 2%R, 4%R)])).
Proof.
  destruct (new_potential_spec heap_with_arrays 1 3 2 3 1 2 [2; 1] [1; 2]%R [3; 4]%R heap_with_arrays_wf)
    as (p & h & E & _ & A & _); [repeat split|cbn; lia|cbn; lia|cbn; lia|].
  exists p, h. split; [exact E|exact A].
Qed.

(** C09: every legal history, of any length and starting from any heap, runs without
    a memory fault and ends with exactly the initial heap. *)
Theorem C09_client_program_safe_and_leak_free : forall h ops,
  heap_wf h ->
  legal 0 0 [] [] (mkCounts 0 0 0) ops ->
  exists h', client_program h ops = Ok h' /\ forall p, hblk h' p = hblk h p.
Proof. exact client_program_safe. Qed.
Print Assumptions C09_client_program_safe_and_leak_free.

(** C09: the container's contents are the objects handed over, in order, and the last
    local potential. *)
Theorem C09_client_contents : forall h ops,
  heap_wf h ->
  legal 0 0 [] [] (mkCounts 0 0 0) ops ->
  exists s, (let '(g, h1) := new_grpp h in crun g (mkCst h1 [] []) ops) = Ok s /\
    read_grpp (c_heap s) (fst (new_grpp h)) =
      Some (pick (c_pots s) (last_local ops None),
            Some (map (pick (c_pots s)) (averaged_of ops)),
            Some (map (pick (c_pots s)) (spin_orbit_of ops)),
            Some (map (pick (c_pots s)) (oc_pots_of ops)),
            Some (map (pick (c_shells s)) (oc_shells_of ops))).
Proof. exact client_contents. Qed.
Print Assumptions C09_client_contents.

(** C09: destroying no potential or no container (the null pointer) changes nothing in any heap; a shell must exist, the
    destructor of shells reads through the null pointer. *)
Theorem C09_delete_null : forall h,
  delete_potential h 0 = Ok h /\ delete_grpp h 0 = Ok h /\ delete_shell h 0 = Fail NullDeref.
Proof. exact delete_null. Qed.
Print Assumptions C09_delete_null.

Example C09_case : legal 0 0 [] [] (mkCounts 0 0 0)
  [CNewPot 0 0 [2] [1%R] [1%R]; CNewPot 1 0 [2] [1%R] [1%R]; CNewShell OrderDirac (0, 0, 0)%R 1 [1%R] [2%R];
   CSetLocal (Some 0%nat); CNewPot 1 0 [2] [1%R] [1%R]; CAddOutercore (Some 1%nat) (Some 0%nat);
   CSetLocal (Some 2%nat); CAddAveraged None].
Proof. cbn. repeat split; auto; try lia; intuition lia. Qed.

(** C09: handing the same potential over twice is outside the protocol: it is
    released twice. *)
Example C09_duplicate_handover_faults :
  client_program (mkHeap 1 (fun _ => None))
    [CNewPot 0 0 [] [] []; CAddAveraged (Some 0%nat); CAddAveraged (Some 0%nat)] = Fail UseAfterFree.
Proof. vm_compute. reflexivity. Qed.

(** C10 as stated ("any number of additions is safe") is false.  The full
    statement: every history that is legal except for the number of additions
    runs without a fault. *)
Definition C10_full : Prop := forall h n, heap_wf h ->
  exists h', client_program h (repeat (CAddAveraged None) n) = Ok h'.

(** C10: after any legal history with 100 additions of a kind, the next addition of
    that kind writes outside its block. *)
Theorem C10_capacity_overflow : forall h ops o,
  heap_wf h ->
  legal 0 0 [] [] (mkCounts 0 0 0) ops ->
  (length (averaged_of ops) = 100%nat /\ (exists k, o = CAddAveraged k)) \/
  (length (spin_orbit_of ops) = 100%nat /\ (exists k, o = CAddSpinOrbit k)) \/
  (length (oc_pots_of ops) = 100%nat /\ (exists k k', o = CAddOutercore k k')) ->
  client_program h (ops ++ [o]) = Fail OutOfBounds.
Proof. exact client_overflow. Qed.
Print Assumptions C10_capacity_overflow.

Example C10_hundred_is_fine : exists h',
  client_program (mkHeap 1 (fun _ => None)) (repeat (CAddAveraged None) 100) = Ok h'.
Proof.
  destruct (client_program_safe (mkHeap 1 (fun _ => None)) (repeat (CAddAveraged None) 100)) as (h' & E & _).
  - split; [cbn; lia|discriminate].
  - apply legal_repeat. cbn. lia.
  - exists h'. exact E.
Qed.

Example C10_case : legal 0 0 [] [] (mkCounts 0 0 0) (repeat (CAddAveraged None) 100) /\
  length (averaged_of (repeat (CAddAveraged None) 100)) = 100%nat.
Proof. split; [apply legal_repeat; cbn; lia|reflexivity]. Qed.

(** C10: the full statement is refuted by 101 additions. *)
Theorem C10_capacity_refuted : ~ C10_full.
Proof.
  intros H. destruct (H (mkHeap 1 (fun _ => None)) 101%nat) as [h' E].
  - split; [cbn; lia|discriminate].
  - change (repeat (CAddAveraged None) 101) with (repeat (CAddAveraged None) 100 ++ [CAddAveraged None]) in E.
    rewrite client_overflow in E; [discriminate| | |].
    + split; [cbn; lia|discriminate].
    + apply C10_case.
    + left. split; [reflexivity|exists None; reflexivity].
Qed.
Print Assumptions C10_capacity_refuted.

(** C11: installing the already installed local potential again leaves a dangling
    pointer behind: after every legal history, the deletion of the object then
    reads freed memory.  This refutes "re-setting is harmless" for every
    history with a local potential. *)
Theorem C11_reset_same_local_refuted : forall h ops k,
  heap_wf h ->
  legal 0 0 [] [] (mkCounts 0 0 0) ops ->
  last_local ops None = Some k ->
  client_program h (ops ++ [CSetLocal (Some k)]) = Fail UseAfterFree.
Proof. exact client_reset_local. Qed.
Print Assumptions C11_reset_same_local_refuted.

Example C11_case : legal 0 0 [] [] (mkCounts 0 0 0) [CNewPot 0 0 [2] [1%R] [1%R]; CSetLocal (Some 0%nat)] /\
  last_local [CNewPot 0 0 [2] [1%R] [1%R]; CSetLocal (Some 0%nat)] None = Some 0%nat.
Proof. split; [cbn; repeat split; auto; lia|reflexivity]. Qed.
