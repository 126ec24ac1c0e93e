(** * C89: integrals in spherical coordinates around any point, and the two routines for a point charge

    [local_integral U C f g v]: the integrals of f g over the spheres around C, multiplied by
    r^2 U(r) and integrated over the radius, give v (LocalSpec.v); [space_int] is the same for a
    single function.  [radial_sum terms]: the sum of c r^(n-2) exp(-a r^2).  [density]: the
    product of two contracted functions without the products of coefficients which the code
    skips.  [gpn d F]: F is a sum of polynomials of degree up to d times Gaussians at any places
    (RotProj.v).  [kernel_int], [is_int3]: the integrals used for C17, C61 and C62, in Cartesian
    coordinates (MmdSpec.v, GaussProd.v).  [attracted], [covered], [total_error] as for C87,
    [felt], [fine], [sum_error] as for C88. *)

From Coq Require Import ZArith List Lia Bool Reals Lra.
From Coquelicot Require Import Coquelicot.
From Verif Require Import Base GaussInt GaussProd CartModel CartProofs HeapModel HeapProofs HeapSpec NumSpec
  OneElModel OneElProofs OneElPairs OneElSpec OneElInt OneElThms ParamsModel NucPotSpec NucPot NucModel NucProofs SpecModel SpecSpec SphModel SphThms Type2Spec
  LocalModel LocalSpec LocalAcc LocalThms NucBound OutercoreModel OutercoreProofs OutercoreSpec MmdModel MmdSpec MmdInt MmdMain MmdThms MmdUser MmdNuc MmdOuter Definite RotProj FiniteNuc Attraction PolarSpace PolarKernel PolarThms.
From Verif Require RigidPoly Rigid RigidThms.
From Verif Require Properties_OneEl Properties_FiniteNuc.
Import ListNotations.
Open Scope R_scope.

(** C89: the integral in Cartesian coordinates of a sum of polynomials times Gaussians is its integral in spherical
coordinates around any point. *)
Theorem C89_coordinates : forall d F C v, gpn d F -> (d <= 40)%nat -> is_int3 F v -> space_int (fun _ => 1) C F v.
Proof. exact space_one_thm. Qed.
Print Assumptions C89_coordinates.

(** C89: the integrals with 1/r and 1/r^2 written as superpositions of Gaussians are the integrals with 1/r and 1/r^2:
the two integrations may be exchanged. *)
Theorem C89_superpositions : forall d F C v, gpn d F -> (d <= 40)%nat ->
  (kernel_int w1 C F v -> space_int (fun r => 1 / r) C F v) /\ (kernel_int w2 C F v -> space_int (fun r => 1 / r ^ 2) C F v).
Proof. exact space_kernel_thm. Qed.
Print Assumptions C89_superpositions.

(** C89: the computed overlap integrals are the integrals over space in spherical coordinates around any point. *)
Theorem C89_overlap : forall h pA pB vA vB ca cb M C,
  heap_wf h -> std_shell h pA vA ca -> std_shell h pB vB cb -> (v_L vA <= 9)%Z -> (v_L vB <= 9)%Z -> exps_pos vA -> exps_pos vB -> fits M vA vB ->
  exists M', oneel_call Overlap h pA pB M = Ok M' /\
    forall m n cA cB, nth_error ca m = Some cA -> nth_error cb n = Some cB ->
      exists s, elem_at M' vB m n = Ok s /\ local_integral (fun _ => 1) C (phi_of vA cA) (phi_of vB cB) s.
Proof. exact polar_overlap_thm. Qed.
Print Assumptions C89_overlap.

(** C89: the computed local pseudopotential integrals are, within the error stated for C61, the integrals over space of
bra times ket times the radial function of the potential. *)
Theorem C89_local_potential : forall daw h pA pB vA vB ca cb C pot M,
  heap_wf h -> std_shell h pA vA ca -> std_shell h pB vB cb ->
  (v_L vA <= 9)%Z -> (v_L vB <= 9)%Z -> (v_L vA + v_L vB <= 15)%Z -> exps_pos vA -> exps_pos vB -> fits M vA vB ->
  dawson_accurate daw (15 / 10 ^ 10) -> (forall n cf al, In (n, cf, al) (pv_prims pot) -> (0 <= n <= 2)%Z /\ 0 <= al) ->
  exists M', type1_call daw true h pA pB C (Some pot) M = Ok M' /\ only_block M M' vA vB /\
    forall m n cA cB, nth_error ca m = Some cA -> nth_error cb n = Some cB ->
      exists s v, elem_at M' vB m n = Ok s /\ local_integral (radial_sum (pv_prims pot)) C (phi_kept vA cA) (phi_kept vB cB) v /\
        Rabs (s - v) <= 15 / 10 ^ 10 * amplification vA vB C (pv_prims pot) cA cB.
Proof. exact polar_local_thm. Qed.
Print Assumptions C89_local_potential.

(** C89: the computed attraction to a point charge is, within the error stated for C62, the integral over space of the
product of the functions times -Z/r. *)
Theorem C89_point_charge : forall sf ev h pA pB vA vB ca cb C charge M,
  point_mmd ev -> heap_wf h -> std_shell h pA vA ca -> std_shell h pB vB cb ->
  (v_L vA <= 9)%Z -> (v_L vB <= 9)%Z -> exps_pos vA -> exps_pos vB -> fits M vA vB -> boys_range vA vB C ->
  exists M', conv_call sf ev PointCharge true h pA pB C charge M = Ok M' /\ only_block M M' vA vB /\
    forall m n cA cB, nth_error ca m = Some cA -> nth_error cb n = Some cB ->
      exists s v, elem_at M' vB m n = Ok s /\ space_int (fun r => - IZR charge / r) C (density vA vB cA cB) v /\
        Rabs (s - v) <= 15 / 10 ^ 15 * Rabs (IZR charge) * coulomb_amplification vA vB C cA cB.
Proof. exact polar_point_thm. Qed.
Print Assumptions C89_point_charge.

(** C89: the routine for point charges and the numerical routine for nuclei with the point model agree on every matrix
element between linear combinations of basis functions, up to the errors of both. *)
Theorem C89_two_routines : forall sf ev fuel par bessel st point h C charge mp p eps Qm ts us V V',
  point_mmd ev -> (14 <= fuel)%nat -> init_tables st -> heap_wf h -> params_are mp (model_arity 5) p ->
  covered h C ts us -> fine h bessel (par_radial par) (model_potential sf 5 (IZR charge) p) C eps Qm ts us ->
  (forall t u, In t ts -> In u us -> attracted sf ev h C charge t u (V t u)) ->
  (forall t u, In t ts -> In u us -> felt sf fuel par bessel st point h C charge 5 mp t u (V' t u)) ->
  Rabs (Rigid.cross ts us V - Rigid.cross ts us V') <= Rabs (IZR charge) * total_error C ts us + sum_error C eps Qm ts us.
Proof. exact two_routines_thm. Qed.
Print Assumptions C89_two_routines.

(** C89: no model of a nucleus attracts more than the point charge as computed by the routine for point charges, up to
the errors of both. *)
Theorem C89_finite_nuclei_attract_less : forall sf ev fuel par bessel st point h C charge model mp p eps Qm ts V V',
  point_mmd ev -> (14 <= fuel)%nat -> init_tables st -> heap_wf h -> params_are mp (model_arity model) p -> good_model sf model p -> (0 <= charge)%Z ->
  covered h C ts ts -> fine h bessel (par_radial par) (model_potential sf model (IZR charge) p) C eps Qm ts ts ->
  (forall t u, In t ts -> In u ts -> attracted sf ev h C charge t u (V t u)) ->
  (forall t u, In t ts -> In u ts -> felt sf fuel par bessel st point h C charge model mp t u (V' t u)) ->
  quad ts V <= quad ts V' + (IZR charge * total_error C ts ts + sum_error C eps Qm ts ts).
Proof. exact analytic_most_thm. Qed.
Print Assumptions C89_finite_nuclei_attract_less.

(** a component of a d shell and one of a p shell near uranium *)
Example C89_case : forall sf bessel tol, exists h ts, heap_wf h /\ length ts = 2%nat /\ covered h (1, 1, 1) ts ts /\
  good_model sf 1 (fun _ => 1 / 100) /\ params_are (Some (aoflist [1 / 100])) (model_arity 1) (fun _ => 1 / 100) /\ params_are None (model_arity 5) (fun _ => 0) /\
  (forall model p, good_model sf model p -> exists e q, fine h bessel tol (model_potential sf model (IZR 92) p) (1, 1, 1) (fun _ _ _ _ => e) (fun _ _ _ _ => q) ts ts).
Proof.
  intros sf bessel tol. destruct (shells_exist [Properties_OneEl.d_shell; Properties_OneEl.p_shell]) as (h & ps & W & F).
  { intros L o pr [E | [E | []]]; injection E as <- <- <-; lia. }
  inversion F as [|? pA ? ? HA F1]; subst. inversion F1 as [|? pB ? ? HB F2]; subst.
  destruct HA as (vA & ca & SA & LA & OA & PA). destruct HB as (vB & cb & SB & LB & OB & PB).
  assert (NA := std_length _ _ _ _ SA). assert (NB := std_length _ _ _ _ SB). rewrite LA in NA. rewrite LB in NB. change (n_cart 2) with 6%Z in NA. change (n_cart 1) with 3%Z in NB.
  assert (XA : exps_pos vA) by (intros c a; rewrite PA; intros [E | [E | []]]; injection E as <- <-; lra).
  assert (XB : exps_pos vB) by (intros c a; rewrite PB; intros [E | [E | []]]; injection E as <- <-; lra).
  assert (KA : bf_ok h (BF 1 pA vA ca 1)) by (split; [exact SA|]; split; [cbn [b_v]; lia|]; split; [exact XA|cbn [b_m b_comps]; lia]).
  assert (KB : bf_ok h (BF 1 pB vB cb 1)) by (split; [exact SB|]; split; [cbn [b_v]; lia|]; split; [exact XB|cbn [b_m b_comps]; lia]).
  assert (AB : forall c, In c [1; 1 / 2; 2; -1] -> 1 / 2 <= Rabs c) by (intros c [<-|[<-|[<-|[<-|[]]]]]; [rewrite Rabs_right by lra|rewrite Rabs_right by lra|rewrite Rabs_right by lra|rewrite Rabs_left by lra]; lra).
  assert (QA : forall c a, In (c, a) (v_prims vA) -> In c [1; 1 / 2; 2; -1]) by (intros c a; rewrite PA; intros [E | [E | []]]; injection E as <- <-; cbn; tauto).
  assert (QB : forall c a, In (c, a) (v_prims vB) -> In c [1; 1 / 2; 2; -1]) by (intros c a; rewrite PB; intros [E | [E | []]]; injection E as <- <-; cbn; tauto).
  exists h, [BF 1 pA vA ca 1; BF 1 pB vB cb 1]. split; [exact W|]. split; [reflexivity|]. split; [|split; [left; split; [reflexivity|lra]|split; [intros i Hi; cbn in Hi; assert (i = 0%Z) as -> by lia; reflexivity|split; [intros i Hi; cbn in Hi; lia|]]]].
  - assert (OK : forall t, In t [BF 1 pA vA ca 1; BF 1 pB vB cb 1] -> bf_ok h t /\ (v_L (b_v t) <= 2)%Z /\ forall c a, In (c, a) (v_prims (b_v t)) -> In c [1; 1 / 2; 2; -1]).
    { intros t [<-|[<-|[]]]; [split; [exact KA|split; [cbn [b_v]; lia|exact QA]]|split; [exact KB|split; [cbn [b_v]; lia|exact QB]]]. }
    split; [intros t Ht; apply OK, Ht|]. split; [intros t Ht; apply OK, Ht|]. intros t u Ht Hu. destruct (OK t Ht) as (_ & L1 & N1). destruct (OK u Hu) as (_ & L2 & N2). split; [|left; lia].
    intros c a c' a' I1 I2. rewrite Rabs_mult. pose proof (AB _ (N1 _ _ I1)) as Q1. pose proof (AB _ (N2 _ _ I2)) as Q2. pose proof (Rmult_le_compat (1 / 2) (Rabs c) (1 / 2) (Rabs c') ltac:(lra) ltac:(lra) Q1 Q2). lra.
  - intros model p Hg. apply fine_exists; [apply charge_like_thm, Hg| | | |].
    + intros t [<-|[<-|[]]]; assumption.
    + intros t [<-|[<-|[]]]; assumption.
    + intros t u [<-|[<-|[]]] [<-|[<-|[]]]; cbn [b_v]; lia.
    + intros t u cA aA cB aB [<-|[<-|[]]] [<-|[<-|[]]]; cbn [b_v]; rewrite ?PA, ?PB, ?OA, ?OB; intros [E1|[E1|[]]] [E2|[E2|[]]]; injection E1 as <- <-; injection E2 as <- <-; apply Properties_FiniteNuc.direction_y; unfold pair_vector; lra.
Qed.

(** a Gaussian has an integral around any point *)
Example C89_gaussian : forall a C, 0 < a -> gpn 0 (fun x y z => exp (- (a * rho2 C x y z))) /\ exists v, is_int3 (fun x y z => exp (- (a * rho2 C x y z))) v.
Proof. intros a C Ha. pose proof (one_gpn a C Ha) as G. split; [exact G|]. destruct (gpn_polar 0 _ C G ltac:(lia)) as (g & v & (_ & _ & H & _)). exists v. exact H. Qed.
