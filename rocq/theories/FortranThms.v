(** * The Fortran entry points compared with the C routines *)

From Coq Require Import ZArith List Lia Lra Bool Reals.
From Coquelicot Require Import Coquelicot.
From Verif Require Import Base CartModel CartProofs HeapModel HeapProofs HeapShrink HeapSpec GaussInt GaussProd OneElModel OneElProofs OneElPairs OneElSpec OneElInt NucModel SphModel RadialModel
  OutercoreModel OutercoreProofs OutercoreRadial OutercoreThms MmdModel Type2Model GrppModel GrppHeap GrppTerm FortranModel FortranProofs FortranNorm.
Import ListNotations.
Open Scope Z_scope.

Lemma one_electron_calls ord h a b A B : heap_wf h -> denotes h a A -> denotes h b B ->
  (forall M, same_as_c h (overlap_integrals_ ord h a b M) (overlap_integrals A B M)) /\
  (forall M, same_as_c h (kinetic_energy_integrals_ ord h a b M) (kinetic_integrals A B M)) /\
  (forall mx my mz, same_as_c h (momentum_integrals_ ord h a b mx my mz) (momentum_integrals A B (mx, my, mz))).
Proof.
  intros W DA DB. split; [|split]; intros; [apply (with_shells_reads ord h a b A B overlap_integrals)|apply (with_shells_reads ord h a b A B kinetic_integrals)|apply (with_shells_reads ord h a b A B momentum_integrals)]; assumption.
Qed.

Lemma nuclear_calls sf ev init ord h a b A B O charge : heap_wf h -> denotes h a A -> denotes h b B ->
  (forall model params M, same_as_c h (nuclear_attraction_integrals_ sf ev init ord h a b O charge model params M) (nuclear_attraction_integrals sf ev init A B O charge model params M)) /\
  (forall M, same_as_c h (nuclear_attraction_integrals_point_charge_ sf ev init ord h a b O charge M) (nuclear_attraction_point_charge sf ev init A B O charge M)) /\
  (forall r M, same_as_c h (nuclear_attraction_integrals_charged_ball_ sf ev init ord h a b O charge r M) (nuclear_attraction_charged_ball sf ev init A B O charge r M)) /\
  (forall r M, same_as_c h (nuclear_attraction_integrals_gaussian_model_ sf ev init ord h a b O charge r M) (nuclear_attraction_gaussian_model sf ev init A B O charge r M)) /\
  (forall c t M, same_as_c h (nuclear_attraction_integrals_fermi_model_ sf ev init ord h a b O charge c t M) (nuclear_attraction_fermi_model sf ev init A B O charge c t M)) /\
  (forall c t k M, same_as_c h (nuclear_attraction_integrals_fermi_bubble_model_ sf ev init ord h a b O charge c t k M) (nuclear_attraction_fermi_bubble_model sf ev init A B O charge c t k M)).
Proof.
  intros W DA DB. repeat match goal with |- _ /\ _ => split end; intros.
  - apply (with_shells_reads ord h a b A B (fun A B M => nuclear_attraction_integrals sf ev init A B O charge model params M)); assumption.
  - apply (with_shells_reads ord h a b A B (fun A B M => nuclear_attraction_point_charge sf ev init A B O charge M)); assumption.
  - apply (with_shells_reads ord h a b A B (fun A B M => nuclear_attraction_charged_ball sf ev init A B O charge r M)); assumption.
  - apply (with_shells_reads ord h a b A B (fun A B M => nuclear_attraction_gaussian_model sf ev init A B O charge r M)); assumption.
  - apply (with_shells_reads ord h a b A B (fun A B M => nuclear_attraction_fermi_model sf ev init A B O charge c t M)); assumption.
  - apply (with_shells_reads ord h a b A B (fun A B M => nuclear_attraction_fermi_bubble_model sf ev init A B O charge c t k M)); assumption.
Qed.

Lemma type1_call daw init ord h a b C u A B U M : heap_wf h -> denotes h a A -> denotes h b B -> denotes_pot h 0 0 u U ->
  same_as_c h (type1_integrals_ daw init ord h a b C u M) (type1_integrals daw init A B C (Some U) M).
Proof. intros. apply (with_potential_reads ord h a b 0 0 u A B U (fun A B U M => type1_integrals daw init A B C (Some U) M)); assumption. Qed.

Lemma semilocal_calls fuel par bessel erf st init ord h a b C L u A B U : heap_wf h -> denotes h a A -> denotes h b B -> denotes_pot h L 0 u U ->
  (forall M, same_as_c h (type2_integrals_ fuel par bessel erf st init ord h a b C L u M) (type2_integrals fuel par bessel erf st init A B C U M)) /\
  (forall mx my mz, same_as_c h (spin_orbit_integrals_ fuel par bessel erf st init ord h a b C L u mx my mz) (spin_orbit_integrals fuel par bessel erf st init A B C U (mx, my, mz))).
Proof.
  intros. split; intros; [apply (with_potential_reads ord h a b L 0 u A B U (fun A B U M => type2_integrals fuel par bessel erf st init A B C U M))|apply (with_potential_reads ord h a b L 0 u A B U (fun A B U M => spin_orbit_integrals fuel par bessel erf st init A B C U M))]; assumption.
Qed.

(** the overlap of two single functions *)
Lemma overlap_of_two ord h oA nA lA mA numA cA aA prA oB nB lB mB numB cB aB prB out sz :
  heap_wf h -> 0 <= nA -> 0 <= lA -> 0 <= mA -> nA + lA + mA <= 9 -> 0 <= nB -> 0 <= lB -> 0 <= mB -> nB + lB + mB <= 9 ->
  gaussians h numA cA aA prA -> gaussians h numB cB aB prB ->
  (forall c a, In (c, a) prA -> (0 < a)%R) -> (forall c a, In (c, a) prB -> (0 < a)%R) -> adims out = [sz] -> 1 <= sz ->
  exists h' out' s, evaluate_overlap_integral_contracted_ ord h oA nA lA mA numA cA aA oB nB lB mB numB cB aB out = Ok (h', out') /\
    heap_wf h' /\ (forall q, hblk h' q = hblk h q) /\ adims out' = [sz] /\ (forall ix, ix <> [0] -> acell out' ix = acell out ix) /\ aget out' [0] = Ok s /\
    is_int3 (fun x y z => (phi (nA + lA + mA) oA prA (nA, lA, mA) x y z * phi (nB + lB + mB) oB prB (nB, lB, mB) x y z)%R) s.
Proof.
  intros W H1 H2 H3 H4 H5 H6 H7 H8 GA GB PA PB D Hsz.
  destruct (evaluate_overlap ord h oA nA lA mA numA cA aA prA oB nB lB mB numB cB aB prB out sz W H1 H2 H3 H4 H5 H6 H7 H8 GA GB D Hsz) as (h' & out' & E & W' & S & D' & F & G).
  exists h', out'. eexists. repeat (split; [eassumption|]).
  exact (ovm_int (nA + lA + mA) (nB + lB + mB) oA oB prA prB [(nA, lA, mA)] [(nB, lB, mB)] 0 0 PA PB).
Qed.

(** ** A concrete heap of a Fortran caller *)
Definition fheap : heap := mkHeap 5 (fun q => if q =? 1 then Some (ODbls [1; 2]%R) else if q =? 2 then Some (ODbls [1; 3]%R)
  else if q =? 3 then Some (OInts [2; 1]) else if q =? 4 then Some (ODbls [1; 0]%R) else None).

Lemma fheap_wf : heap_wf fheap.
Proof.
  split; [cbn; lia|]. intros p o H. cbn in *. repeat match type of H with (if ?b then _ else _) = _ => destruct b eqn:?; [lia|] end. discriminate.
Qed.

Definition fgauss : list (R * R) := [(1, 1); (2, 3)]%R.

Lemma fheap_gaussians : gaussians fheap 2 1 2 fgauss.
Proof. exists [1; 2]%R, [1; 3]%R. repeat (split; [first [reflexivity | unfold nprim_ok; cbn; lia]|]). reflexivity. Qed.

Definition fshellA : fshell := mkFs (0, 0, 1)%R 1 2 1 2.

Lemma fheap_shell : exists s, denotes fheap fshellA s /\ sv_size s = 3 /\ sv_num s = 2.
Proof. eexists. split; [exists [1; 2]%R, [1; 3]%R; cbn; repeat (split; [first [reflexivity | lia | unfold nprim_ok; cbn; lia]|]); reflexivity|]. split; reflexivity. Qed.

(** of the two terms the one with coefficient 0 is dropped *)
Lemma fheap_pot : exists U, denotes_pot fheap 1 0 (mkFp 2 3 4 2) U /\ pv_prims U = [(2, 1%R, 1%R)].
Proof.
  eexists. split; [exists [2; 1], [1; 0]%R, [1; 3]%R; split; [split; [|split]; reflexivity|]; repeat (split; [first [unfold nprim_ok; cbn; lia]|]); reflexivity|].
  cbn [pv_prims fp_num]. change (Z.to_nat 2) with 2%nat. cbn [zip3 firstn filter]. unfold keep_new. cbn [p_coef fst snd].
  unfold p_coef, p_pow, p_exp, HeapModel.zero_thresh. cbn [fst snd]. rewrite Rabs_R0, Rabs_R1.
  destruct (Rlt_dec 1 _) as [H | _]; [exfalso; lra|]. destruct (Rlt_dec 0 _) as [_ | H]; [reflexivity|exfalso; lra].
Qed.

Open Scope R_scope.

Lemma norm_rad_normalises l : normalises l (norm_rad l).
Proof.
  intros a Ha. split; [apply norm_rad_pos; exact Ha|].
  pose proof (FortranNorm.radial_norm_int l (norm_rad l) [(1, a)]) as H. unfold radial_fun, contracted, lsum in H. cbn [fold_right] in H.
  eapply NucPot.half_eq; [eapply NucPot.half_ext; [|apply H; intros c b [E | []]; injection E as <- <-; exact Ha]; intros r _; cbv beta; ring|].
  unfold norm_rad. replace (a + a) with (2 * a) by ring. pose proof (GaussMoment.gmom_pos (2 * l + 2) (2 * a) ltac:(lra)) as Hg.
  set (g := GaussMoment.gmom (2 * l + 2) (2 * a)) in *. assert (Hs : 0 < sqrt g) by (apply sqrt_lt_R0; exact Hg). assert (Eg : sqrt g * sqrt g = g) by (apply sqrt_sqrt; lra).
  transitivity (/ sqrt g * / sqrt g * (sqrt g * sqrt g)); [rewrite Eg; ring|field; lra].
Qed.

Lemma fheap_radial : exists r, 0 < r /\ radial_fun 1 (norm_rad 1) fgauss r <> 0.
Proof.
  exists 1. split; [lra|]. unfold radial_fun, lsum, fgauss. cbn [fold_right].
  pose proof (norm_rad_pos 1 1 ltac:(lra)) as H1. pose proof (norm_rad_pos 1 3 ltac:(lra)) as H3.
  apply Rgt_not_eq. set (e1 := exp _). set (e3 := exp _). assert (0 < e1) by apply exp_pos. assert (0 < e3) by apply exp_pos. rewrite pow1.
  assert (0 < norm_rad 1 1 * e1) by (apply Rmult_lt_0_compat; assumption). assert (0 < norm_rad 1 3 * e3) by (apply Rmult_lt_0_compat; assumption). lra.
Qed.
