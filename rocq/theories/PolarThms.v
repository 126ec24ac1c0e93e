(** * C89: the integrals of the library as integrals over space in spherical coordinates; the two routines for a point charge *)

From Coq Require Import ZArith List Lia Bool Reals Lra.
From Coquelicot Require Import Coquelicot.
From Verif Require Import Base Loops Sums GaussInt GaussProd CartModel CartProofs HeapModel HeapProofs HeapSpec NumSpec
  OneElModel OneElProofs OneElPairs OneElSpec OneElInt OneElThms ParamsModel NucPotSpec NucPot NucModel NucProofs RadialModel RadialSpec RadialTables RadialMiss SpecModel SpecSpec SphModel SphSpec SphProofs SphInt SphOrtho SphAngular SphAdd SphThms Type2Spec
  LocalModel LocalSpec LocalAcc LocalThms NucBound OutercoreModel OutercoreProofs OutercoreSpec MmdModel MmdSpec MmdInt MmdMain MmdThms MmdUser MmdNuc MmdOuter Definite RotSphere RotProj GrppRigid FiniteNuc Attraction GaussMoment PolarInt PolarSpace PolarKernel.
From Verif Require RigidPoly Rigid RigidThms Type2Radial.
Import ListNotations.
Open Scope R_scope.

(** ** Specification *)

(** the radial function of a potential: the sum of c r^(n-2) exp(-a r^2) *)
Definition radial_sum (terms : list (Z * R * R)) (r : R) : R := lsum (fun '(n, c, a) => c * (powerRZ r (n - 2) * exp (- (a * r ^ 2)))) terms.

(** ** Integrals *)
Lemma prz1 r : powerRZ r (1 - 2) = / r.
Proof. change (powerRZ r (1 - 2)) with (/ (r ^ 1)). rewrite pow_1. reflexivity. Qed.
Lemma prz2 r : powerRZ r (0 - 2) = / (r ^ 2).
Proof. reflexivity. Qed.
Lemma local_space n m F C v : gpn m F -> (m <= 40)%nat -> local_int n C F v -> space_int (fun r => powerRZ r (n - 2)) C F v.
Proof.
  intros HF Hm [(-> & H) | [(-> & H) | (-> & H)]].
  - destruct (space_one m F C v HF Hm H) as (s & A & B). exists s. split; [exact A|]. eapply half_ext; [|exact B]. intros r Hr. cbv beta. change (powerRZ r (2 - 2)) with 1. ring.
  - destruct (space_kernel w1 _ m F C v w1_weight HF Hm H) as (s & A & B). exists s. split; [exact A|]. eapply half_ext; [|exact B]. intros r Hr. cbv beta. rewrite prz1. unfold Rdiv. ring.
  - destruct (space_kernel w2 _ m F C v w2_weight HF Hm H) as (s & A & B). exists s. split; [exact A|]. eapply half_ext; [|exact B]. intros r Hr. cbv beta. rewrite prz2. unfold Rdiv. ring.
Qed.

Lemma space_pot_plus U U' C F v v' : space_int U C F v -> space_int U' C F v' -> space_int (fun r => U r + U' r) C F (v + v').
Proof.
  intros (s & A & H) (s' & A' & H'). exists s. split; [exact A|]. eapply half_ext; [|apply (half_plus _ _ _ _ H H')]. intros r Hr. cbv beta. destruct C as [[cx cy] cz]. rewrite (sphere_uniq _ _ _ (A' r Hr) (A r Hr)). ring.
Qed.
Lemma space_pot_scal k U C F v : space_int U C F v -> space_int (fun r => k * U r) C F (k * v).
Proof. intros (s & A & H). exists s. split; [exact A|]. eapply half_ext; [|apply (half_scal k _ _ H)]. intros r Hr. cbv beta. ring. Qed.
Lemma space_pot_ext U U' C F v : (forall r, 0 < r -> U r = U' r) -> space_int U C F v -> space_int U' C F v.
Proof. intros E (s & A & H). exists s. split; [exact A|]. eapply half_ext; [|exact H]. intros r Hr. cbv beta. rewrite E by exact Hr. reflexivity. Qed.

Lemma angular_of m F C : gpn m F -> (m <= 40)%nat -> exists s, angular_part C F s.
Proof. intros HF Hm. destruct (gpn_polar m F C HF Hm) as (g & v & (_ & S & _)). exists g. destruct C as [[cx cy] cz]. intros r Hr. exact (S r Hr). Qed.

Lemma space_gauss U a m F C v : gpn m F -> (m <= 40)%nat -> space_int U C (fun x y z => F x y z * exp (- (a * rho2 C x y z))) v -> space_int (fun r => U r * exp (- (a * r ^ 2))) C F v.
Proof.
  intros HF Hm (s & A & H). destruct (angular_of m F C HF Hm) as (s' & A'). exists s'. split; [exact A'|]. eapply half_ext; [|exact H]. intros r Hr. cbv beta. destruct C as [[cx cy] cz]. unfold angular_part in A, A'.
  replace (s r) with (exp (- (a * r ^ 2)) * s' r); [ring|]. apply (fun X => sphere_uniq _ _ _ X (A r Hr)). eapply sphere_ext; [|apply (sphere_scal _ _ (exp (- (a * r ^ 2))) (A' r Hr))]. intros x y z Hs. cbv beta. rewrite Rmult_comm. f_equal. f_equal. f_equal. f_equal. unfold rho2. transitivity (r ^ 2 * (x ^ 2 + y ^ 2 + z ^ 2)); [rewrite Hs|]; ring.
Qed.

Lemma pot_space m F C terms v : gpn m F -> (m <= 40)%nat -> (forall n c a, In (n, c, a) terms -> 0 <= a) -> pot_int C terms F v -> space_int (radial_sum terms) C F v.
Proof.
  intros HF Hm. revert v. induction terms as [|[[n c] a] terms IH]; intros v Ha H.
  - cbn [pot_int] in H. subst v. destruct (angular_of m F C HF Hm) as (s & A). exists s. split; [exact A|]. eapply half_ext; [|apply Type2Radial.half_zero]. intros r _. unfold radial_sum, lsum. cbn [fold_right]. ring.
  - cbn [pot_int] in H. destruct H as (v1 & v2 & H1 & H2 & ->). specialize (IH v2 (fun n' c' a' I' => Ha n' c' a' (or_intror I')) H2).
    assert (G : space_int (fun r => powerRZ r (n - 2) * exp (- (a * r ^ 2))) C F v1).
    { destruct (Ha n c a (or_introl eq_refl)) as [Ap|A0].
      - apply (space_gauss _ a m F C v1 HF Hm). apply (local_space n (m + 0)); [|lia|exact H1]. apply (gpn_mul m 0 F (fun x y z => exp (- (a * rho2 C x y z))) HF), one_gpn, Ap.
      - subst a. apply (space_gauss _ 0 m F C v1 HF Hm). apply (local_space n m); [|exact Hm|exact H1]. eapply gpn_ext; [|exact HF]. intros x y z. cbv beta. rewrite Rmult_0_l, Ropp_0, exp_0. ring. }
    eapply space_pot_ext; [|apply (space_pot_plus _ _ C F _ _ (space_pot_scal c _ C F v1 G) IH)]. intros r _. unfold radial_sum. rewrite lsum_cons. reflexivity.
Qed.

(** ** Products of basis functions *)
Lemma pfun_gpn L o c a : (0 <= L <= 9)%Z -> 0 < a -> nonneg3 c -> (let '(n, l, m) := c in n + l + m = L)%Z -> gpn 9 (pfun L o c a).
Proof.
  intros HL Ha Hn Hs. exists [(a, o, [(norm_L L a, RigidThms.cmono c)])]. split.
  - intros T [<-|[]]. split; [exact Ha|]. intros q [<-|[]]. cbn [snd fst]. destruct c as [[n l] m]. unfold RigidThms.cmono. unfold nonneg3 in Hn. cbn. lia.
  - intros x y z. unfold pfun. rewrite RigidThms.gto_pg. unfold Rigid.gval, Rigid.gtp, Rigid.gto_, Rigid.gtq, Rigid.pg, RigidPoly.meval, lsum. cbn [fst snd fold_right]. ring.
Qed.

Definition comp_of (v : sview) (c : Z * Z * Z) : Prop := nonneg3 c /\ (let '(n, l, m) := c in n + l + m = v_L v)%Z.
Lemma comp_of_in h p v comps i c : std_shell h p v comps -> nth_error comps i = Some c -> comp_of v c /\ (0 <= v_L v)%Z.
Proof.
  intros S E. destruct (GrppRigid.comp_in h p v comps c S (nth_error_In _ _ E)) as (N & X). split; [split; assumption|]. destruct c as [[? ?] ?]. unfold nonneg3 in N. lia.
Qed.

Lemma phi_list_gpn L o l c : (0 <= L <= 9)%Z -> (forall k a, In (k, a) l -> 0 < a) -> nonneg3 c -> (let '(n, l, m) := c in n + l + m = L)%Z -> gpn 9 (phi L o l c).
Proof.
  intros HL Ha Hn Hs. unfold phi. eapply gpn_ext; [|apply (gpn_lsum 9 (fun p x y z => fst p * pfun L o c (snd p) x y z) l)].
  - intros x y z. cbv beta. apply lsum_ext. intros [k a] _. cbn [fst snd]. unfold pfun. ring.
  - intros [k a] Hin. cbn [fst snd]. apply gpn_scal, pfun_gpn; try assumption. exact (Ha k a Hin).
Qed.
Lemma kept_gpn v c : (0 <= v_L v <= 9)%Z -> exps_pos v -> comp_of v c -> gpn 9 (phi_kept v c).
Proof.
  intros HL HX (Hn & Hs). apply phi_list_gpn; try assumption. intros k a Hin. apply filter_In in Hin. exact (HX k a (proj1 Hin)).
Qed.
Lemma density_gpn vA vB cA cB : (0 <= v_L vA <= 9)%Z -> (0 <= v_L vB <= 9)%Z -> exps_pos vA -> exps_pos vB -> comp_of vA cA -> comp_of vB cB -> gpn 18 (density vA vB cA cB).
Proof.
  intros LA LB XA XB (NA & SA) (NB & SB). unfold density, big_pairs.
  apply (gpn_lsum 18 (fun p x y z => lsum (fun q => if Rlt_dec (Rabs (fst p * fst q)) 1e-13 then 0 else fst p * fst q * (pfun (v_L vA) (v_origin vA) cA (snd p) x y z * pfun (v_L vB) (v_origin vB) cB (snd q) x y z)) (v_prims vB))). intros [c a] Hp.
  apply (gpn_lsum 18 (fun q x y z => if Rlt_dec (Rabs (fst (c, a) * fst q)) 1e-13 then 0 else fst (c, a) * fst q * (pfun (v_L vA) (v_origin vA) cA (snd (c, a)) x y z * pfun (v_L vB) (v_origin vB) cB (snd q) x y z))). intros [c' a'] Hq. cbn [fst snd].
  destruct (Rlt_dec _ _); [apply gpn_zero|]. apply gpn_scal. apply (gpn_mul 9 9); apply pfun_gpn; try assumption; [exact (XA c a Hp)|exact (XB c' a' Hq)].
Qed.

(** ** The theorems *)
Lemma polar_overlap_thm : forall h pA pB vA vB ca cb M C,
  heap_wf h -> std_shell h pA vA ca -> std_shell h pB vB cb -> (v_L vA <= 9)%Z -> (v_L vB <= 9)%Z -> exps_pos vA -> exps_pos vB -> fits M vA vB ->
  exists M', oneel_call Overlap h pA pB M = Ok M' /\
    forall m n cA cB, nth_error ca m = Some cA -> nth_error cb n = Some cB ->
      exists s, elem_at M' vB m n = Ok s /\ local_integral (fun _ => 1) C (phi_of vA cA) (phi_of vB cB) s.
Proof.
  intros h pA pB vA vB ca cb M C W SA SB LA LB XA XB F. destruct (overlap_true h pA pB vA vB ca cb M W SA SB LA LB XA XB F) as (M' & E & _ & V). exists M'. split; [exact E|]. intros m n cA cB EA EB. destruct (V m n cA cB EA EB) as (s & Es & Hs). exists s. split; [exact Es|].
  destruct (comp_of_in _ _ _ _ _ _ SA EA) as ((NA & CA) & LA0). destruct (comp_of_in _ _ _ _ _ _ SB EB) as ((NB & CB) & LB0).
  apply (space_one (9 + 9) (fun x y z => phi_of vA cA x y z * phi_of vB cB x y z) C s); [|lia|exact Hs]. apply (gpn_mul 9 9); apply phi_gpn; try assumption; lia.
Qed.

Lemma polar_local_thm : forall daw h pA pB vA vB ca cb C pot M,
  heap_wf h -> std_shell h pA vA ca -> std_shell h pB vB cb ->
  (v_L vA <= 9)%Z -> (v_L vB <= 9)%Z -> (v_L vA + v_L vB <= 15)%Z -> exps_pos vA -> exps_pos vB -> fits M vA vB ->
  dawson_accurate daw (15 / 10 ^ 10) -> (forall n cf al, In (n, cf, al) (pv_prims pot) -> (0 <= n <= 2)%Z /\ 0 <= al) ->
  exists M', type1_call daw true h pA pB C (Some pot) M = Ok M' /\ only_block M M' vA vB /\
    forall m n cA cB, nth_error ca m = Some cA -> nth_error cb n = Some cB ->
      exists s v, elem_at M' vB m n = Ok s /\ local_integral (radial_sum (pv_prims pot)) C (phi_kept vA cA) (phi_kept vB cB) v /\
        Rabs (s - v) <= 15 / 10 ^ 10 * amplification vA vB C (pv_prims pot) cA cB.
Proof.
  intros daw h pA pB vA vB ca cb C pot M W SA SB LA LB L15 XA XB F HD HT. destruct (local_thm daw h pA pB vA vB ca cb C pot M W SA SB LA LB L15 XA XB F HD HT) as (M' & E & OB & V). exists M'. split; [exact E|]. split; [exact OB|].
  intros m n cA cB EA EB. destruct (V m n cA cB EA EB) as (s & v & Es & Hv & Hb). exists s, v. split; [exact Es|]. split; [|exact Hb].
  destruct (comp_of_in _ _ _ _ _ _ SA EA) as (CA & LA0). destruct (comp_of_in _ _ _ _ _ _ SB EB) as (CB & LB0).
  apply (pot_space (9 + 9) (fun x y z => phi_kept vA cA x y z * phi_kept vB cB x y z) C (pv_prims pot) v); [|lia|intros n' c' a' Hin; apply (HT _ _ _ Hin)|exact Hv]. apply (gpn_mul 9 9); apply kept_gpn; try assumption; lia.
Qed.

Lemma polar_point_thm : forall sf ev h pA pB vA vB ca cb C charge M,
  point_mmd ev -> heap_wf h -> std_shell h pA vA ca -> std_shell h pB vB cb ->
  (v_L vA <= 9)%Z -> (v_L vB <= 9)%Z -> exps_pos vA -> exps_pos vB -> fits M vA vB -> boys_range vA vB C ->
  exists M', conv_call sf ev PointCharge true h pA pB C charge M = Ok M' /\ only_block M M' vA vB /\
    forall m n cA cB, nth_error ca m = Some cA -> nth_error cb n = Some cB ->
      exists s v, elem_at M' vB m n = Ok s /\ space_int (fun r => - IZR charge / r) C (density vA vB cA cB) v /\
        Rabs (s - v) <= 15 / 10 ^ 15 * Rabs (IZR charge) * coulomb_amplification vA vB C cA cB.
Proof.
  intros sf ev h pA pB vA vB ca cb C charge M Hev W SA SB LA LB XA XB F HR. destruct (point_integral_thm sf ev h pA pB vA vB ca cb C charge M Hev W SA SB LA LB XA XB F HR) as (M' & E & OB & V). exists M'. split; [exact E|]. split; [exact OB|].
  intros m n cA cB EA EB. destruct (V m n cA cB EA EB) as (s & v & Es & Hv & Hb). exists s, (- IZR charge * v). split; [exact Es|]. split; [|exact Hb].
  destruct (comp_of_in _ _ _ _ _ _ SA EA) as (CA & LA0). destruct (comp_of_in _ _ _ _ _ _ SB EB) as (CB & LB0).
  eapply space_pot_ext; [|apply space_pot_scal, (space_kernel w1 _ 18 _ C v w1_weight); [apply density_gpn; try assumption; lia|lia|exact Hv]]. intros r _. cbv beta. unfold Rdiv. ring.
Qed.

(** the two routines for a point charge *)
Lemma attracted_cross sf ev h C charge ts us V : point_mmd ev -> heap_wf h -> covered h C ts us -> (forall t u, In t ts -> In u us -> attracted sf ev h C charge t u (V t u)) ->
  exists Q, space_int (fun r => - IZR charge / r) C (fun x y z => combo ts x y z * combo us x y z) Q /\ Rabs (Rigid.cross ts us V - Q) <= Rabs (IZR charge) * total_error C ts us.
Proof.
  intros Hev W HC HV. destruct (cross_value sf ev h C charge Hev W ts us V HC HV) as (Q & K & B). exists (- IZR charge * Q). split.
  - destruct HC as (H1 & H2 & _). eapply space_pot_ext; [|apply space_pot_scal, (space_kernel w1 _ (9 + 9) _ C Q w1_weight); [apply (gpn_mul 9 9); [apply (combo_gpn h ts H1)|apply (combo_gpn h us H2)]|lia|exact K]]. intros r _. cbv beta. unfold Rdiv. ring.
  - replace (Rigid.cross ts us V - - IZR charge * Q) with (Rigid.cross ts us V + IZR charge * Q) by ring. exact B.
Qed.

Lemma point_pot sf zn p r : 0 < r -> model_potential sf 5 zn p r = - zn / r.
Proof. intros Hr. unfold model_potential. cbn [Z.eqb Pos.eqb]. unfold coulomb_potential_point. reflexivity. Qed.

Lemma two_routines_thm : forall sf ev fuel par bessel st point h C charge mp p eps Qm ts us V V',
  point_mmd ev -> (14 <= fuel)%nat -> init_tables st -> heap_wf h -> params_are mp (model_arity 5) p ->
  covered h C ts us -> fine h bessel (par_radial par) (model_potential sf 5 (IZR charge) p) C eps Qm ts us ->
  (forall t u, In t ts -> In u us -> attracted sf ev h C charge t u (V t u)) ->
  (forall t u, In t ts -> In u us -> felt sf fuel par bessel st point h C charge 5 mp t u (V' t u)) ->
  Rabs (Rigid.cross ts us V - Rigid.cross ts us V') <= Rabs (IZR charge) * total_error C ts us + sum_error C eps Qm ts us.
Proof.
  intros sf ev fuel par bessel st point h C charge mp p eps Qm ts us V V' Hev Hf HI W Hp HC HF HV HV'.
  destruct (attracted_cross sf ev h C charge ts us V Hev W HC HV) as (Q & K & B).
  destruct (felt_cross sf fuel par bessel st point h charge 5 mp p Hf HI W Hp ltac:(right; right; right; right; reflexivity) C eps Qm ts us V' HF HV') as (Q' & K' & B').
  assert (E : Q = Q'). { destruct K as (s & A & H), K' as (s' & A' & H'). assert (local_integral (fun r => - IZR charge / r) C (combo ts) (combo us) Q) by (exists s; split; assumption).
    assert (local_integral (fun r => - IZR charge / r) C (combo ts) (combo us) Q') by (exists s'; split; [exact A'|]; eapply half_ext; [|exact H']; intros r Hr; cbv beta; rewrite point_pot by exact Hr; reflexivity). eapply local_unique_thm; eassumption. }
  subst Q'. replace (Rigid.cross ts us V - Rigid.cross ts us V') with ((Rigid.cross ts us V - Q) + - (Rigid.cross ts us V' - Q)) by ring. eapply Rle_trans; [apply Rabs_triang|]. rewrite Rabs_Ropp. lra.
Qed.

Lemma analytic_most_thm : forall sf ev fuel par bessel st point h C charge model mp p eps Qm ts V V',
  point_mmd ev -> (14 <= fuel)%nat -> init_tables st -> heap_wf h -> params_are mp (model_arity model) p -> good_model sf model p -> (0 <= charge)%Z ->
  covered h C ts ts -> fine h bessel (par_radial par) (model_potential sf model (IZR charge) p) C eps Qm ts ts ->
  (forall t u, In t ts -> In u ts -> attracted sf ev h C charge t u (V t u)) ->
  (forall t u, In t ts -> In u ts -> felt sf fuel par bessel st point h C charge model mp t u (V' t u)) ->
  quad ts V <= quad ts V' + (IZR charge * total_error C ts ts + sum_error C eps Qm ts ts).
Proof.
  intros sf ev fuel par bessel st point h C charge model mp p eps Qm ts V V' Hev Hf HI W Hp Hg Hz HC HF HV HV'.
  destruct (attracted_cross sf ev h C charge ts ts V Hev W HC HV) as (Q & K & B). destruct (felt_cross sf fuel par bessel st point h charge model mp p Hf HI W Hp Hg C eps Qm ts ts V' HF HV') as (Q' & K' & B').
  assert (L : Q <= Q'). { apply (square_le (fun r => - IZR charge / r) (model_potential sf model (IZR charge) p) C (combo ts) Q Q'); [|exact K|exact K']. intros r Hr. pose proof (proj1 (attractive_thm sf model (IZR charge) p Hg (IZR_le 0 _ Hz)) r Hr) as (L & _). eapply Rle_trans; [|exact L]. right. unfold Rdiv. ring. }
  change (Rigid.cross ts ts V) with (quad ts V) in B. change (Rigid.cross ts ts V') with (quad ts V') in B'. rewrite (Rabs_pos_eq (IZR charge)) in B by (apply (IZR_le 0), Hz). apply Rabs_le_between in B. apply Rabs_le_between in B'. lra.
Qed.

Lemma space_one_thm : forall d F C v, gpn d F -> (d <= 40)%nat -> is_int3 F v -> space_int (fun _ => 1) C F v.
Proof. exact space_one. Qed.
Lemma space_kernel_thm : forall d F C v, gpn d F -> (d <= 40)%nat ->
  (kernel_int w1 C F v -> space_int (fun r => 1 / r) C F v) /\ (kernel_int w2 C F v -> space_int (fun r => 1 / r ^ 2) C F v).
Proof.
  intros d F C v HF Hd. split; intros H; [apply (space_kernel w1 _ d F C v w1_weight HF Hd H)|apply (space_kernel w2 _ d F C v w2_weight HF Hd H)].
Qed.
