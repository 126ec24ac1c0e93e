(** * C53, C67: the Fortran interface

    [denotes h a s]: the arrays behind the arguments a are in the heap h and s is the
    shell they describe; [denotes_pot] likewise for potentials (terms with a coefficient
    below 1e-14 are left out).  C53_objects: these are the objects that the C
    constructors make from the same arrays.
    [same_as_c h f c]: if the C routine returns, the Fortran entry point returns the same
    output and a heap with the same blocks as before the call (everything allocated is
    freed, nothing else is touched); if the C routine stops with a fault, so does the
    entry point.
    [gaussians h n pc pa prims]: the first n elements of two arrays. *)

From Coq Require Import ZArith List Lia Lra Bool Reals.
From Coquelicot Require Import Coquelicot.
From Verif Require Import Base CartModel CartProofs HeapModel HeapProofs HeapShrink HeapSpec GaussInt GaussProd OneElModel OneElProofs OneElPairs OneElSpec OneElInt NucModel NucPotSpec SphModel RadialModel
  OutercoreModel OutercoreRadial MmdModel Type2Model OvGradModel OvGradProofs OvGradThms GrppModel GrppHeap GrppFull GrppGrad GrppGrad2 GrppThms GrppGrad3 GrppTerm GrppTermGrad FortranModel FortranProofs FortranGrad FortranNorm FortranThms.
Import ListNotations.
Open Scope Z_scope.

(** C53: the denoted shell and potential are those the C constructors make. *)
Theorem C53_objects : forall ord h a s L J u U,
  heap_wf h -> denotes h a s -> denotes_pot h L J u U ->
  exists p h', new_shell ord h (fs_origin a) (fs_L a) (fs_num a) (fs_coeffs a) (fs_alpha a) = Ok (p, h') /\ view_shell h' p = Ok s /\
  exists q h2, new_potential h' L J (fp_num u) (fp_powers u) (fp_coeffs u) (fp_alpha u) = Ok (q, h2) /\ view_pot h2 q = Ok U /\ view_shell h2 p = Ok s.
Proof. exact objects. Qed.
Print Assumptions C53_objects.

(** C53: overlap, kinetic energy and momentum. *)
Theorem C53_one_electron : forall ord h a b A B,
  heap_wf h -> denotes h a A -> denotes h b B ->
  (forall M, same_as_c h (overlap_integrals_ ord h a b M) (overlap_integrals A B M)) /\
  (forall M, same_as_c h (kinetic_energy_integrals_ ord h a b M) (kinetic_integrals A B M)) /\
  (forall mx my mz, same_as_c h (momentum_integrals_ ord h a b mx my mz) (momentum_integrals A B (mx, my, mz))).
Proof. exact one_electron_calls. Qed.
Print Assumptions C53_one_electron.

(** C53: nuclear attraction, general and for each model of the nucleus. *)
Theorem C53_nuclear_attraction : forall sf ev init ord h a b A B O charge,
  heap_wf h -> denotes h a A -> denotes h b B ->
  (forall model params M, same_as_c h (nuclear_attraction_integrals_ sf ev init ord h a b O charge model params M) (nuclear_attraction_integrals sf ev init A B O charge model params M)) /\
  (forall M, same_as_c h (nuclear_attraction_integrals_point_charge_ sf ev init ord h a b O charge M) (nuclear_attraction_point_charge sf ev init A B O charge M)) /\
  (forall r M, same_as_c h (nuclear_attraction_integrals_charged_ball_ sf ev init ord h a b O charge r M) (nuclear_attraction_charged_ball sf ev init A B O charge r M)) /\
  (forall r M, same_as_c h (nuclear_attraction_integrals_gaussian_model_ sf ev init ord h a b O charge r M) (nuclear_attraction_gaussian_model sf ev init A B O charge r M)) /\
  (forall c t M, same_as_c h (nuclear_attraction_integrals_fermi_model_ sf ev init ord h a b O charge c t M) (nuclear_attraction_fermi_model sf ev init A B O charge c t M)) /\
  (forall c t k M, same_as_c h (nuclear_attraction_integrals_fermi_bubble_model_ sf ev init ord h a b O charge c t k M) (nuclear_attraction_fermi_bubble_model sf ev init A B O charge c t k M)).
Proof. exact nuclear_calls. Qed.
Print Assumptions C53_nuclear_attraction.

(** C53: local potential. *)
Theorem C53_local : forall daw init ord h a b C u A B U M,
  heap_wf h -> denotes h a A -> denotes h b B -> denotes_pot h 0 0 u U ->
  same_as_c h (type1_integrals_ daw init ord h a b C u M) (type1_integrals daw init A B C (Some U) M).
Proof. exact type1_call. Qed.
Print Assumptions C53_local.

(** C53: averaged and spin-orbit potentials. *)
Theorem C53_semilocal : forall fuel par bessel erf st init ord h a b C L u A B U,
  heap_wf h -> denotes h a A -> denotes h b B -> denotes_pot h L 0 u U ->
  (forall M, same_as_c h (type2_integrals_ fuel par bessel erf st init ord h a b C L u M) (type2_integrals fuel par bessel erf st init A B C U M)) /\
  (forall mx my mz, same_as_c h (spin_orbit_integrals_ fuel par bessel erf st init ord h a b C L u mx my mz) (spin_orbit_integrals fuel par bessel erf st init A B C U (mx, my, mz))).
Proof. exact semilocal_calls. Qed.
Print Assumptions C53_semilocal.

(** C53: outercore potentials, the sum over one potential. *)
Theorem C53_outercore_diagonal : forall t1 ord h a b C L J u n pc pa A B U oc out,
  heap_wf h -> denotes h a A -> denotes h b B -> denotes_pot h L J u U -> denotes h (mkFs C L n pc pa) oc ->
  same_as_c h (outercore_potential_integrals_part_1_ t1 ord h a b C L J u n pc pa out) (outercore_part_1 t1 A B C U oc out).
Proof. exact part_1_call. Qed.
Print Assumptions C53_outercore_diagonal.

(** C53: outercore potentials, pairs. *)
Theorem C53_outercore_pair : forall ord h a b C L1 J1 u1 n1 c1 a1 L2 J2 u2 n2 c2 a2 A B U1 oc1 U2 oc2 out,
  heap_wf h -> denotes h a A -> denotes h b B ->
  denotes_pot h L1 J1 u1 U1 -> denotes h (mkFs C L1 n1 c1 a1) oc1 -> denotes_pot h L2 J2 u2 U2 -> denotes h (mkFs C L2 n2 c2 a2) oc2 ->
  same_as_c h (outercore_potential_integrals_part_2_ ord h a b C L1 J1 u1 n1 c1 a1 L2 J2 u2 n2 c2 a2 out)
    (outercore_part_2 A B C U1 oc1 U2 oc2 out).
Proof. exact part_2_call. Qed.
Print Assumptions C53_outercore_pair.

(** C53: the gradient of a local potential: the entry point meets the specification that C30 states for the C routine, and the heap is unchanged. *)
Theorem C53_local_gradient : forall V rt ord h a b C u U vA vB e,
  bilinear1 V -> heap_wf h -> rt_init rt = true -> denotes_view h a vA -> denotes_view h b vB -> denotes_pot h 0 0 u U -> (0 <= e)%R ->
  around (accurate1 V (fun A B => rt_type1 rt A B C (Some U)) e) vA vB ->
  exists bra ket, deriv_close V vA vB (canon (v_L vA)) (canon (v_L vB)) e bra ket /\
    forall oob D grad, may_overread oob vA vB -> told_apart [v_origin vA; v_origin vB; C; D] -> grad_fits grad vA vB ->
      exists h' grad', type1_integrals_gradient_ oob rt ord h a b C u D grad = Ok (h', grad') /\ heap_wf h' /\ (forall q, hblk h' q = hblk h q) /\
        only_grad grad grad' vA vB /\ holds_gradient grad' vA vB (canon (v_L vA)) (canon (v_L vB)) C D bra ket.
Proof. exact type1_gradient_fortran. Qed.
Print Assumptions C53_local_gradient.

(** C53: the same for an averaged potential. *)
Theorem C53_semilocal_gradient : forall V rt ord h a b C L u U vA vB e,
  bilinear1 V -> heap_wf h -> rt_init rt = true -> null_is_zero rt -> denotes_view h a vA -> denotes_view h b vB -> denotes_pot h L 0 u U -> (0 <= e)%R ->
  around (accurate1 V (fun A B => rt_type2 rt A B C U) e) vA vB ->
  exists bra ket, deriv_close V vA vB (canon (v_L vA)) (canon (v_L vB)) e bra ket /\
    forall oob D grad, may_overread oob vA vB -> told_apart [v_origin vA; v_origin vB; C; D] -> grad_fits grad vA vB ->
      exists h' grad', type2_integrals_gradient_ oob rt ord h a b C L u D grad = Ok (h', grad') /\ heap_wf h' /\ (forall q, hblk h' q = hblk h q) /\
        only_grad grad grad' vA vB /\ holds_gradient grad' vA vB (canon (v_L vA)) (canon (v_L vB)) C D bra ket.
Proof. exact type2_gradient_fortran. Qed.
Print Assumptions C53_semilocal_gradient.

(** C53: the same for a spin-orbit potential. *)
Theorem C53_spin_orbit_gradient : forall V rt ord h a b C L u U vA vB e,
  (forall k, bilinear1 (V k)) -> heap_wf h -> rt_init rt = true -> null_is_zero rt -> denotes_view h a vA -> denotes_view h b vB -> denotes_pot h L 0 u U -> (0 <= e)%R ->
  around (accurate3 V (fun A B => rt_so rt A B C U) e) vA vB ->
  exists bra ket, (forall k, 0 <= k < 3 -> deriv_close (V k) vA vB (canon (v_L vA)) (canon (v_L vB)) e (bra k) (ket k)) /\
    forall oob D grad, may_overread oob vA vB -> told_apart [v_origin vA; v_origin vB; C; D] -> (forall k, 0 <= k < 3 -> grad_fits (pick3 grad k) vA vB) ->
      exists h' grad', spin_orbit_integrals_gradient_ oob rt ord h a b C L u D grad = Ok (h', grad') /\ heap_wf h' /\ (forall q, hblk h' q = hblk h q) /\
        forall k, 0 <= k < 3 -> only_grad (pick3 grad k) (pick3 grad' k) vA vB /\ holds_gradient (pick3 grad' k) vA vB (canon (v_L vA)) (canon (v_L vB)) C D (bra k) (ket k).
Proof. exact spin_orbit_gradient_fortran. Qed.
Print Assumptions C53_spin_orbit_gradient.

(** C53: the overlap of two single contracted functions, an entry point without a counterpart in C: the integral of their product, written to one element. *)
Theorem C53_single_overlap : forall ord h oA nA lA mA numA cA aA prA oB nB lB mB numB cB aB prB out sz,
  heap_wf h -> 0 <= nA -> 0 <= lA -> 0 <= mA -> nA + lA + mA <= 9 -> 0 <= nB -> 0 <= lB -> 0 <= mB -> nB + lB + mB <= 9 ->
  gaussians h numA cA aA prA -> gaussians h numB cB aB prB ->
  (forall c a, In (c, a) prA -> (0 < a)%R) -> (forall c a, In (c, a) prB -> (0 < a)%R) -> adims out = [sz] -> 1 <= sz ->
  exists h' out' s, evaluate_overlap_integral_contracted_ ord h oA nA lA mA numA cA aA oB nB lB mB numB cB aB out = Ok (h', out') /\
    heap_wf h' /\ (forall q, hblk h' q = hblk h q) /\ adims out' = [sz] /\ (forall ix, ix <> [0] -> acell out' ix = acell out ix) /\ aget out' [0] = Ok s /\
    is_int3 (fun x y z => (phi (nA + lA + mA) oA prA (nA, lA, mA) x y z * phi (nB + lB + mB) oB prB (nB, lB, mB) x y z)%R) s.
Proof. exact overlap_of_two. Qed.
Print Assumptions C53_single_overlap.

Open Scope R_scope.

(** C67: for primitives normalised by k, the returned factor v makes the contracted radial function normalised: the integral of (v R(r) r)^2 is 1; v is positive. *)
Theorem C67_radial_norm : forall ord h L num pc pa prims k,
  heap_wf h -> (0 <= L <= 9)%Z -> gaussians h num pc pa prims -> (forall c a, In (c, a) prims -> 0 < a) ->
  normalises (Z.to_nat L) k -> (exists r, 0 < r /\ radial_fun (Z.to_nat L) k prims r <> 0) ->
  exists h' v, radial_gto_norm_factor_ ord h L num pc pa = Ok (h', v) /\ heap_wf h' /\ (forall q, hblk h' q = hblk h q) /\ 0 < v /\
    half_int (fun r => (v * radial_fun (Z.to_nat L) k prims r) ^ 2 * r ^ 2) 1.
Proof. exact norm_factor. Qed.
Print Assumptions C67_radial_norm.

(** ** Cases meeting the hypotheses *)

Open Scope Z_scope.

Example C53_case : exists A B U,
  heap_wf fheap /\ denotes fheap fshellA A /\ denotes fheap fshellA B /\ denotes_pot fheap 1 0 (mkFp 2 3 4 2) U /\
  sv_size A = 3 /\ sv_num A = 2 /\ pv_prims U = [(2, 1%R, 1%R)].
Proof.
  destruct fheap_shell as (A & DA & S1 & S2). destruct fheap_pot as (U & DU & EU). exists A, A, U.
  split; [exact fheap_wf|]. split; [exact DA|]. split; [exact DA|]. split; [exact DU|]. split; [exact S1|]. split; [exact S2|exact EU].
Qed.

Example C67_case : heap_wf fheap /\ gaussians fheap 2 1 2 fgauss /\ (forall c a, In (c, a) fgauss -> (0 < a)%R) /\
  normalises 1 (norm_rad 1) /\ (exists r, (0 < r)%R /\ radial_fun 1 (norm_rad 1) fgauss r <> 0%R).
Proof.
  split; [exact fheap_wf|]. split; [exact fheap_gaussians|]. split; [intros c a [E | [E | []]]; injection E as <- <-; lra|].
  split; [exact (norm_rad_normalises 1)|exact fheap_radial].
Qed.
