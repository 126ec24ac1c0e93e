(** * C88: the attraction to a finite nucleus over a basis: sign, symmetry, rigid motions and comparison of models *)

From Coq Require Import ZArith List Lia Bool Reals Lra.
From Coquelicot Require Import Coquelicot.
From Verif Require Import Base Loops Sums GaussInt GaussProd CartModel CartProofs HeapModel HeapProofs HeapSpec
  OneElModel OneElProofs OneElPairs OneElSpec OneElInt OneElThms ParamsModel NucPotSpec NucPot NucModel NucProofs RadialModel RadialSpec RadialTables RadialMiss SpecSpec SphModel SphSpec SphProofs SphInt SphOrtho SphAngular SphAdd SphThms Type2Spec
  LocalModel LocalSpec LocalAcc LocalThms NucBound Definite RotSphere RotProj GrppRigid.
From Verif Require RigidPoly Rigid RigidThms.
Import ListNotations.
Open Scope R_scope.

(** ** Specification *)

(** [e] is the matrix element which the library returns for this pair of basis functions and a
    nucleus at [C] *)
Definition felt sf fuel par bessel st point (h : heap) (C : R * R * R) (charge model : Z) mp (t u : bfun) (e : R) : Prop :=
  exists M X, fits M (b_v t) (b_v u) /\ nuc_call sf (finite_nucleus_eval fuel par bessel st point) true h (b_p t) (b_p u) C charge model mp M = Ok X /\ elem_at X (b_v u) (b_m t) (b_m u) = Ok e.

(** the pairs for which C68 applies, with the accuracies [eps] and sizes [Qm] of their radial integrals *)
Definition pair_fine bessel tol (U : R -> R) C (eps Qm : bfun -> bfun -> R -> R -> R) (t u : bfun) : Prop :=
  (v_L (b_v t) + v_L (b_v u) <= 14)%Z /\
  forall cA aA cB aB, In (cA, aA) (v_prims (b_v t)) -> In (cB, aB) (v_prims (b_v u)) ->
    pair_direction aA aB (v_origin (b_v t)) (v_origin (b_v u)) C /\ 0 <= eps t u aA aB /\ 0 <= Qm t u aA aB /\
    quadrature_accuracy bessel tol U (norm_L (v_L (b_v t)) aA) (norm_L (v_L (b_v u)) aB) aA aB (v_origin (b_v t)) (v_origin (b_v u)) C (Z.to_nat (v_L (b_v t) + v_L (b_v u))) (eps t u aA aB) (Qm t u aA aB).
Definition fine (h : heap) bessel tol U C eps Qm (ts us : list bfun) : Prop :=
  (forall t, In t ts -> bf_ok h t) /\ (forall u, In u us -> bf_ok h u) /\ forall t u, In t ts -> In u us -> pair_fine bessel tol U C eps Qm t u.

(** the error of one element (C68) *)
Definition pair_error C (eps Qm : bfun -> bfun -> R -> R -> R) (t u : bfun) : R :=
  contracted_error (Z.to_nat (v_L (b_v t))) (Z.to_nat (v_L (b_v u))) (separation (v_origin (b_v t)) C) (separation (v_origin (b_v u)) C) (v_prims (b_v t)) (v_prims (b_v u)) (eps t u) (Qm t u).
(** and of the element between two linear combinations *)
Definition sum_error C eps Qm (ts us : list bfun) : R := lsum (fun t => lsum (fun u => Rabs (b_w t * b_w u) * pair_error C eps Qm t u) us) ts.

(** ** The integral of the square of a function over a potential *)
Lemma half_nonneg f v : half_int f v -> (forall r, 0 < r -> 0 <= f r) -> 0 <= v.
Proof. intros H P. pose proof (half_ge f v 0 1 2 H P) as G. rewrite Rmult_0_l in G. apply G; try lra. intros r Hr. apply P. lra. Qed.

Lemma square_le U U' C f v v' : (forall r, 0 < r -> U r <= U' r) -> space_int U C (fun x y z => f x y z * f x y z) v -> space_int U' C (fun x y z => f x y z * f x y z) v' -> v <= v'.
Proof.
  intros HU (s & A & H) (s' & A' & H'). assert (E : forall r, 0 < r -> s' r = s r /\ 0 <= s r).
  { intros r Hr. destruct C as [[cx cy] cz]. split; [exact (sphere_uniq _ _ _ (A' r Hr) (A r Hr))|]. apply (sphere_pos _ _ (A r Hr)). intros x y z _. cbv beta. apply Rle_0_sqr. }
  assert (0 <= v' + -1 * v); [|lra]. apply (half_nonneg _ _ (half_plus _ _ _ _ H' (half_scal (-1) _ _ H))). intros r Hr. cbv beta. destruct (E r Hr) as (-> & P). specialize (HU r Hr).
  replace (r ^ 2 * U' r * s r + -1 * (r ^ 2 * U r * s r)) with (r ^ 2 * s r * (U' r - U r)) by ring. apply Rmult_le_pos; [apply Rmult_le_pos; [apply pow2_ge_0|exact P]|lra].
Qed.

Lemma square_neg U C f v : (forall r, 0 < r -> U r <= 0) -> space_int U C (fun x y z => f x y z * f x y z) v -> v <= 0.
Proof.
  intros HU (s & A & H). assert (P : forall r, 0 < r -> 0 <= s r).
  { intros r Hr. destruct C as [[cx cy] cz]. apply (sphere_pos _ _ (A r Hr)). intros x y z _. cbv beta. apply Rle_0_sqr. }
  assert (0 <= -1 * v); [|lra]. apply (half_nonneg _ _ (half_scal (-1) _ _ H)). intros r Hr. cbv beta. specialize (HU r Hr). specialize (P r Hr).
  replace (-1 * (r ^ 2 * U r * s r)) with (r ^ 2 * s r * (- U r)) by ring. apply Rmult_le_pos; [apply Rmult_le_pos; [apply pow2_ge_0|exact P]|lra].
Qed.

(** ** Rigid motions *)
Lemma sph00 x y z : real_sph 0 0 x y z = real_sph 0 0 0 0 1.
Proof. reflexivity. Qed.
Lemma sph00_nz : real_sph 0 0 0 0 1 <> 0.
Proof.
  intros E. pose proof (orthonormal 0 0 0 0 ltac:(lia) ltac:(lia)) as H. assert (Z : sphere_int (fun x y z => real_sph 0 0 x y z * real_sph 0 0 x y z) 0).
  { eapply sphere_ext; [|apply sphere_zero]. intros x y z _. cbv beta. rewrite !sph00, E. ring. }
  pose proof (sphere_uniq _ _ _ H Z) as D. cbn in D. lra.
Qed.

Lemma gpn_sphere O F C r n : orthogonal O -> gpn n F -> (n <= 40)%nat ->
  exists v, sphere_int (fun x y z => F (coord3 C 0 + r * x) (coord3 C 1 + r * y) (coord3 C 2 + r * z)) v /\
    sphere_int (rotf O (fun x y z => F (coord3 C 0 + r * x) (coord3 C 1 + r * y) (coord3 C 2 + r * z))) v.
Proof.
  intros HO HF Hn. destruct (gpn_wave O F C r 0 0 n HO HF ltac:(lia) ltac:(lia)) as (v & A & B). set (c := real_sph 0 0 0 0 1) in *. pose proof sph00_nz as Hc. fold c in Hc. exists (/ c * v). split.
  - eapply sphere_ext; [|apply (sphere_scal _ _ (/ c) A)]. intros x y z _. cbv beta. rewrite sph00. fold c. field. exact Hc.
  - eapply sphere_ext; [|apply (sphere_scal _ _ (/ c) B)]. intros x y z _. unfold rotf. rewrite sph00. fold c. field. exact Hc.
Qed.

Lemma space_rot O t U C F n v : orthogonal O -> gpn n F -> (n <= 40)%nat -> space_int U C F v ->
  space_int U (Rigid.moved3 O t C) (fun x y z => F (Rigid.iv O t 0 x y z) (Rigid.iv O t 1 x y z) (Rigid.iv O t 2 x y z)) v.
Proof.
  intros HO HF Hn (s & A & H). exists s. split; [|exact H]. set (C' := Rigid.moved3 O t C).
  assert (G : forall r, 0 < r -> sphere_int (fun x y z => F (Rigid.iv O t 0 (coord3 C' 0 + r * x) (coord3 C' 1 + r * y) (coord3 C' 2 + r * z)) (Rigid.iv O t 1 (coord3 C' 0 + r * x) (coord3 C' 1 + r * y) (coord3 C' 2 + r * z)) (Rigid.iv O t 2 (coord3 C' 0 + r * x) (coord3 C' 1 + r * y) (coord3 C' 2 + r * z))) (s r)).
  { intros r Hr. destruct (gpn_sphere O F C r n HO HF Hn) as (w & W1 & W2). assert (E : w = s r) by (destruct C as [[cx cy] cz]; exact (sphere_uniq _ _ _ W1 (A r Hr))). subst w.
    eapply sphere_ext; [|exact W2]. intros x y z _. unfold rotf, C'. rewrite !iv_sphere by (exact HO || lia). reflexivity. }
  clearbody C'. destruct C' as [[cx cy] cz]. exact G.
Qed.

(** products and sums of polynomials times Gaussians *)
Lemma degle_scal n k q : degle n q -> degle n (RigidPoly.mscal k q).
Proof. intros H t Ht. unfold RigidPoly.mscal in Ht. apply in_map_iff in Ht. destruct Ht as (u & <- & Hu). exact (H u Hu). Qed.
Lemma degle_shift n d0 d1 d2 q : degle n q -> degle n (RigidPoly.mshift d0 d1 d2 q).
Proof. intros H. apply degle_asub; try exact H; intros t [<-|[<-|[]]]; cbn; lia. Qed.
Lemma gpn_ext n F G : (forall x y z, F x y z = G x y z) -> gpn n F -> gpn n G.
Proof. intros H (l & Hl & E). exists l. split; [exact Hl|]. intros. rewrite <- H. apply E. Qed.
Lemma gpn_zero n : gpn n (fun _ _ _ => 0).
Proof. exists []. split; [intros T []|]. reflexivity. Qed.
Lemma gpn_plus n F G : gpn n F -> gpn n G -> gpn n (fun x y z => F x y z + G x y z).
Proof.
  intros (l & Hl & E) (l' & Hl' & E'). exists (l ++ l'). split; [intros T HT; apply in_app_iff in HT; destruct HT; auto|]. intros. rewrite lsum_app, E, E'. reflexivity.
Qed.
Lemma gpn_scal n k F : gpn n F -> gpn n (fun x y z => k * F x y z).
Proof.
  intros (l & Hl & E). exists (map (fun T => (fst T, RigidPoly.mscal k (snd T))) l). split.
  - intros T HT. apply in_map_iff in HT. destruct HT as (T' & <- & HT'). destruct (Hl T' HT') as (A & B). split; [exact A|]. apply degle_scal, B.
  - intros. rewrite lsum_map, E, <- lsum_scal. apply lsum_ext. intros T _. unfold Rigid.gval, Rigid.pg, Rigid.gtp, Rigid.gto_, Rigid.gtq. cbn [fst snd]. rewrite RigidPoly.meval_scal. ring.
Qed.
Lemma gpn_lsum {A} n (F : A -> R -> R -> R -> R) l : (forall a, In a l -> gpn n (F a)) -> gpn n (fun x y z => lsum (fun a => F a x y z) l).
Proof.
  induction l as [|a l IH]; intros H; [apply gpn_zero|]. apply (gpn_plus n (F a) (fun x y z => lsum (fun a => F a x y z) l)); [apply H; left; reflexivity|]. apply IH. intros; apply H; right; assumption.
Qed.
Lemma gpn_prod n n' a o q b o' q' : 0 < a -> 0 < b -> degle n q -> degle n' q' -> gpn (n + n') (fun x y z => Rigid.pg a o q x y z * Rigid.pg b o' q' x y z).
Proof.
  intros Ha Hb Hq Hq'. set (p := a + b). set (P := fun k => (a * coord3 o k + b * coord3 o' k) / p).
  set (K := exp (- (a * b / p * ((coord3 o 0 - coord3 o' 0) * (coord3 o 0 - coord3 o' 0) + (coord3 o 1 - coord3 o' 1) * (coord3 o 1 - coord3 o' 1) + (coord3 o 2 - coord3 o' 2) * (coord3 o 2 - coord3 o' 2))))).
  exists [(p, (P 0%Z, P 1%Z, P 2%Z), RigidPoly.mscal K (RigidPoly.mmul (RigidPoly.mshift (P 0%Z - coord3 o 0) (P 1%Z - coord3 o 1) (P 2%Z - coord3 o 2) q) (RigidPoly.mshift (P 0%Z - coord3 o' 0) (P 1%Z - coord3 o' 1) (P 2%Z - coord3 o' 2) q')))]. split.
  - intros T [<-|[]]. split; [cbn; unfold p; lra|]. unfold Rigid.gtq. cbn [snd]. apply degle_scal, degle_mul; apply degle_shift; assumption.
  - intros x y z. unfold lsum. cbn [fold_right]. rewrite Rplus_0_r. unfold Rigid.gval, Rigid.pg, Rigid.gtp, Rigid.gto_, Rigid.gtq. cbn [fst snd]. change (coord3 (P 0%Z, P 1%Z, P 2%Z) 0) with (P 0%Z). change (coord3 (P 0%Z, P 1%Z, P 2%Z) 1) with (P 1%Z). change (coord3 (P 0%Z, P 1%Z, P 2%Z) 2) with (P 2%Z).
    rewrite RigidPoly.meval_scal, RigidPoly.meval_mul, !RigidPoly.meval_shift.
    replace (x - P 0%Z + (P 0%Z - coord3 o 0)) with (x - coord3 o 0) by ring. replace (y - P 1%Z + (P 1%Z - coord3 o 1)) with (y - coord3 o 1) by ring. replace (z - P 2%Z + (P 2%Z - coord3 o 2)) with (z - coord3 o 2) by ring.
    replace (x - P 0%Z + (P 0%Z - coord3 o' 0)) with (x - coord3 o' 0) by ring. replace (y - P 1%Z + (P 1%Z - coord3 o' 1)) with (y - coord3 o' 1) by ring. replace (z - P 2%Z + (P 2%Z - coord3 o' 2)) with (z - coord3 o' 2) by ring.
    assert (G : RigidPoly.gauss3 a (x - coord3 o 0) (y - coord3 o 1) (z - coord3 o 2) * RigidPoly.gauss3 b (x - coord3 o' 0) (y - coord3 o' 1) (z - coord3 o' 2) = K * RigidPoly.gauss3 p (x - P 0%Z) (y - P 1%Z) (z - P 2%Z)).
    { unfold RigidPoly.gauss3, K. rewrite <- !exp_plus. f_equal. unfold P, p. field. lra. }
    transitivity (RigidPoly.meval q (x - coord3 o 0) (y - coord3 o 1) (z - coord3 o 2) * RigidPoly.meval q' (x - coord3 o' 0) (y - coord3 o' 1) (z - coord3 o' 2) * (RigidPoly.gauss3 a (x - coord3 o 0) (y - coord3 o 1) (z - coord3 o 2) * RigidPoly.gauss3 b (x - coord3 o' 0) (y - coord3 o' 1) (z - coord3 o' 2))); [ring|]. rewrite G. ring.
Qed.
Lemma gpn_mul n n' F G : gpn n F -> gpn n' G -> gpn (n + n') (fun x y z => F x y z * G x y z).
Proof.
  intros (l & Hl & E) (l' & Hl' & E'). apply (gpn_ext _ (fun x y z => lsum (fun T => lsum (fun T' => Rigid.gval T x y z * Rigid.gval T' x y z) l') l)).
  - intros x y z. rewrite E, E'. rewrite lsum_mult. reflexivity.
  - apply gpn_lsum. intros T HT. apply gpn_lsum. intros T' HT'. destruct (Hl T HT). destruct (Hl' T' HT'). apply gpn_prod; assumption.
Qed.

Lemma combo_gpn h ts : (forall t, In t ts -> bf_ok h t) -> gpn 9 (combo ts).
Proof.
  intros H. apply gpn_lsum. intros t Ht. apply gpn_scal. destruct (H t Ht) as (S & L & X & B).
  destruct (comp_in h _ _ _ (b_comp t) S (nth_In _ _ B)) as (N & Sm). assert (0 <= v_L (b_v t))%Z by (destruct (b_comp t) as [[n l] m]; unfold nonneg3 in N; lia). apply phi_gpn; try assumption. lia.
Qed.

(** ** The elements *)
Section Elements.
Variables (sf : specfuns) (fuel : nat) (par : params) (bessel : Z -> R -> R) (st : rsh_store) (point : vshell -> R -> vshell -> R -> R * R * R -> R -> arr R -> res (arr R)) (h : heap) (charge model : Z) (mp : option (arr R)) (p : Z -> R).
Hypothesis Hf : (14 <= fuel)%nat.
Hypothesis HI : init_tables st.
Hypothesis W : heap_wf h.
Hypothesis Hp : params_are mp (model_arity model) p.
Hypothesis Hg : good_model sf model p.
Let U := model_potential sf model (IZR charge) p.
Let tol := par_radial par.

Lemma felt_value C eps Qm t u e : bf_ok h t -> bf_ok h u -> pair_fine bessel tol U C eps Qm t u -> felt sf fuel par bessel st point h C charge model mp t u e ->
  exists v, space_int U C (fun x y z => phi_of (b_v t) (b_comp t) x y z * phi_of (b_v u) (b_comp u) x y z) v /\ Rabs (e - v) <= pair_error C eps Qm t u.
Proof.
  intros (S1 & L1 & X1 & B1) (S2 & L2 & X2 & B2) (H14 & HQ) (M & X & F & E & El).
  destruct (finite_nucleus_thm sf fuel par bessel st point h _ _ _ _ _ _ C charge model mp p M (eps t u) (Qm t u) Hf HI W S1 S2 F H14 X1 X2 Hp Hg HQ) as (M' & E' & _ & V & _). rewrite E in E'. injection E' as <-.
  destruct (V (b_m t) (b_m u) (b_comp t) (b_comp u) (nth_error_nth' _ _ B1) (nth_error_nth' _ _ B2)) as (s & v & Es & Hv & Hb). rewrite El in Es. injection Es as <-. exists v. split; [exact Hv|exact Hb].
Qed.

Lemma felt_exists C eps Qm t u : bf_ok h t -> bf_ok h u -> pair_fine bessel tol U C eps Qm t u -> exists e, felt sf fuel par bessel st point h C charge model mp t u e.
Proof.
  intros (S1 & L1 & X1 & B1) (S2 & L2 & X2 & B2) (H14 & HQ).
  assert (F : fits (aundef [(v_size (b_v t) * v_size (b_v u))%Z]) (b_v t) (b_v u)) by (eexists; split; [reflexivity|lia]).
  destruct (finite_nucleus_thm sf fuel par bessel st point h _ _ _ _ _ _ C charge model mp p _ (eps t u) (Qm t u) Hf HI W S1 S2 F H14 X1 X2 Hp Hg HQ) as (M' & E' & _ & V & _).
  destruct (V (b_m t) (b_m u) (b_comp t) (b_comp u) (nth_error_nth' _ _ B1) (nth_error_nth' _ _ B2)) as (s & v & Es & _). exists s. eexists _, M'. split; [exact F|]. split; assumption.
Qed.

Lemma felt_cross C eps Qm ts us V : fine h bessel tol U C eps Qm ts us -> (forall t u, In t ts -> In u us -> felt sf fuel par bessel st point h C charge model mp t u (V t u)) ->
  exists Q, space_int U C (fun x y z => combo ts x y z * combo us x y z) Q /\ Rabs (Rigid.cross ts us V - Q) <= sum_error C eps Qm ts us.
Proof.
  intros (H1 & H2 & HC) HV. unfold Rigid.cross, sum_error.
  destruct (space_int_sum U C (fun t x y z => lsum (fun u => b_w t * b_w u * (phi_of (b_v t) (b_comp t) x y z * phi_of (b_v u) (b_comp u) x y z)) us) (fun t => lsum (fun u => b_w t * b_w u * V t u) us) (fun t => lsum (fun u => Rabs (b_w t * b_w u) * pair_error C eps Qm t u) us) ts) as (w & Hw & Ew).
  - intros t Ht. apply space_int_sum. intros u Hu. destruct (felt_value C eps Qm t u (V t u) (H1 t Ht) (H2 u Hu) (HC t u Ht Hu) (HV t u Ht Hu)) as (v & Hv & Ev). exists (b_w t * b_w u * v). split; [apply (space_int_scal U C _ v (b_w t * b_w u) Hv)|].
    rewrite <- Rmult_minus_distr_l, (Rabs_mult (b_w t * b_w u)). apply Rmult_le_compat_l; [apply Rabs_pos|exact Ev].
  - exists w. split; [|exact Ew]. eapply space_int_ext; [|exact Hw]. intros x y z. cbv beta. unfold combo. rewrite lsum_mult. apply lsum_ext. intros t _. apply lsum_ext. intros u _. ring.
Qed.
End Elements.

(** ** Theorems *)
Lemma finite_sign_thm : forall sf fuel par bessel st point h charge model mp p C eps Qm ts V,
  (14 <= fuel)%nat -> init_tables st -> heap_wf h -> params_are mp (model_arity model) p -> good_model sf model p -> (0 <= charge)%Z ->
  fine h bessel (par_radial par) (model_potential sf model (IZR charge) p) C eps Qm ts ts ->
  (forall t u, In t ts -> In u ts -> felt sf fuel par bessel st point h C charge model mp t u (V t u)) -> quad ts V <= sum_error C eps Qm ts ts.
Proof.
  intros sf fuel par bessel st point h charge model mp p C eps Qm ts V Hf HI W Hp Hg Hz HF HV. destruct (felt_cross sf fuel par bessel st point h charge model mp p Hf HI W Hp Hg C eps Qm ts ts V HF HV) as (Q & HQ & B).
  change (Rigid.cross ts ts V) with (quad ts V) in B. assert (Q <= 0). { apply (square_neg _ C (combo ts) Q) in HQ; [exact HQ|]. intros r Hr. apply (proj1 (attractive_thm sf model (IZR charge) p Hg (IZR_le 0 _ Hz)) r Hr). }
  pose proof (Rle_abs (quad ts V - Q)). lra.
Qed.

Lemma finite_symmetric_thm : forall sf fuel par bessel st point h charge model mp p C eps Qm t u e e',
  (14 <= fuel)%nat -> init_tables st -> heap_wf h -> params_are mp (model_arity model) p -> good_model sf model p ->
  bf_ok h t -> bf_ok h u -> pair_fine bessel (par_radial par) (model_potential sf model (IZR charge) p) C eps Qm t u -> pair_fine bessel (par_radial par) (model_potential sf model (IZR charge) p) C eps Qm u t ->
  felt sf fuel par bessel st point h C charge model mp t u e -> felt sf fuel par bessel st point h C charge model mp u t e' ->
  Rabs (e - e') <= pair_error C eps Qm t u + pair_error C eps Qm u t.
Proof.
  intros sf fuel par bessel st point h charge model mp p C eps Qm t u e e' Hf HI W Hp Hg O1 O2 F F' H H'.
  destruct (felt_value sf fuel par bessel st point h charge model mp p Hf HI W Hp Hg C eps Qm t u e O1 O2 F H) as (v & K & B). destruct (felt_value sf fuel par bessel st point h charge model mp p Hf HI W Hp Hg C eps Qm u t e' O2 O1 F' H') as (v' & K' & B').
  assert (E : v' = v). { eapply space_int_unique; [exact K'|]. eapply space_int_ext; [|exact K]. intros x y z. cbv beta. ring. } subst v'.
  replace (e - e') with ((e - v) + - (e' - v)) by ring. eapply Rle_trans; [apply Rabs_triang|]. rewrite Rabs_Ropp. lra.
Qed.

Lemma finite_rigid_thm : forall sf fuel par bessel st point h charge model mp p O t C eps Qm eps' Qm' ts us ts' us' V V',
  (14 <= fuel)%nat -> init_tables st -> heap_wf h -> params_are mp (model_arity model) p -> good_model sf model p -> orthogonal O ->
  fine h bessel (par_radial par) (model_potential sf model (IZR charge) p) C eps Qm ts us -> fine h bessel (par_radial par) (model_potential sf model (IZR charge) p) (Rigid.moved3 O t C) eps' Qm' ts' us' ->
  Rigid.carried O t (combo ts) (combo ts') -> Rigid.carried O t (combo us) (combo us') ->
  (forall a b, In a ts -> In b us -> felt sf fuel par bessel st point h C charge model mp a b (V a b)) ->
  (forall a b, In a ts' -> In b us' -> felt sf fuel par bessel st point h (Rigid.moved3 O t C) charge model mp a b (V' a b)) ->
  Rabs (Rigid.cross ts' us' V' - Rigid.cross ts us V) <= sum_error C eps Qm ts us + sum_error (Rigid.moved3 O t C) eps' Qm' ts' us'.
Proof.
  intros sf fuel par bessel st point h charge model mp p O t C eps Qm eps' Qm' ts us ts' us' V V' Hf HI W Hp Hg HO F F' Ct Cu HV HV'.
  destruct (felt_cross sf fuel par bessel st point h charge model mp p Hf HI W Hp Hg C eps Qm ts us V F HV) as (Q & K & B). destruct (felt_cross sf fuel par bessel st point h charge model mp p Hf HI W Hp Hg (Rigid.moved3 O t C) eps' Qm' ts' us' V' F' HV') as (Q' & K' & B').
  pose proof (space_rot O t _ C _ (9 + 9) Q HO (gpn_mul 9 9 _ _ (combo_gpn h ts (proj1 F)) (combo_gpn h us (proj1 (proj2 F)))) ltac:(lia) K) as K2.
  assert (E : Q' = Q). { eapply space_int_unique; [exact K'|]. eapply space_int_ext; [|exact K2]. intros x y z. cbv beta. rewrite (Rigid.carried_iv O t _ _ HO Ct), (Rigid.carried_iv O t _ _ HO Cu). reflexivity. }
  subst Q'. replace (Rigid.cross ts' us' V' - Rigid.cross ts us V) with ((Rigid.cross ts' us' V' - Q) + - (Rigid.cross ts us V - Q)) by ring. eapply Rle_trans; [apply Rabs_triang|]. rewrite Rabs_Ropp. lra.
Qed.

Lemma finite_order_thm : forall sf fuel par bessel st point h C charge model mp p eps Qm charge' model' mp' p' eps' Qm' ts V V',
  (14 <= fuel)%nat -> init_tables st -> heap_wf h -> params_are mp (model_arity model) p -> good_model sf model p -> params_are mp' (model_arity model') p' -> good_model sf model' p' ->
  (forall r, 0 < r -> model_potential sf model (IZR charge) p r <= model_potential sf model' (IZR charge') p' r) ->
  fine h bessel (par_radial par) (model_potential sf model (IZR charge) p) C eps Qm ts ts -> fine h bessel (par_radial par) (model_potential sf model' (IZR charge') p') C eps' Qm' ts ts ->
  (forall t u, In t ts -> In u ts -> felt sf fuel par bessel st point h C charge model mp t u (V t u)) ->
  (forall t u, In t ts -> In u ts -> felt sf fuel par bessel st point h C charge' model' mp' t u (V' t u)) ->
  quad ts V <= quad ts V' + (sum_error C eps Qm ts ts + sum_error C eps' Qm' ts ts).
Proof.
  intros sf fuel par bessel st point h C charge model mp p eps Qm charge' model' mp' p' eps' Qm' ts V V' Hf HI W Hp Hg Hp' Hg' HU F F' HV HV'.
  destruct (felt_cross sf fuel par bessel st point h charge model mp p Hf HI W Hp Hg C eps Qm ts ts V F HV) as (Q & K & B). destruct (felt_cross sf fuel par bessel st point h charge' model' mp' p' Hf HI W Hp' Hg' C eps' Qm' ts ts V' F' HV') as (Q' & K' & B').
  pose proof (square_le _ _ C (combo ts) Q Q' HU K K'). change (Rigid.cross ts ts V) with (quad ts V) in B. change (Rigid.cross ts ts V') with (quad ts V') in B'.
  apply Rabs_le_between in B. apply Rabs_le_between in B'. lra.
Qed.

(** the point nucleus attracts most *)
Lemma finite_weaker_thm : forall sf fuel par bessel st point h C charge model mp p eps Qm mp' p' eps' Qm' ts V V',
  (14 <= fuel)%nat -> init_tables st -> heap_wf h -> params_are mp (model_arity model) p -> good_model sf model p -> params_are mp' (model_arity 5) p' -> (0 <= charge)%Z ->
  fine h bessel (par_radial par) (model_potential sf 5 (IZR charge) p') C eps' Qm' ts ts -> fine h bessel (par_radial par) (model_potential sf model (IZR charge) p) C eps Qm ts ts ->
  (forall t u, In t ts -> In u ts -> felt sf fuel par bessel st point h C charge 5 mp' t u (V' t u)) ->
  (forall t u, In t ts -> In u ts -> felt sf fuel par bessel st point h C charge model mp t u (V t u)) ->
  quad ts V' <= quad ts V + (sum_error C eps' Qm' ts ts + sum_error C eps Qm ts ts).
Proof.
  intros sf fuel par bessel st point h C charge model mp p eps Qm mp' p' eps' Qm' ts V V' Hf HI W Hp Hg Hp' Hz F' F HV' HV.
  apply (finite_order_thm sf fuel par bessel st point h C charge 5 mp' p' eps' Qm' charge model mp p eps Qm ts V' V); try assumption; [right; right; right; right; reflexivity|].
  intros r Hr. pose proof (proj1 (attractive_thm sf model (IZR charge) p Hg (IZR_le 0 _ Hz)) r Hr) as (L & _). eapply Rle_trans; [|exact L]. unfold model_potential. cbn [Z.eqb Pos.eqb]. unfold coulomb_potential_point. right. reflexivity.
Qed.

(** accuracies as required exist for every list of basis functions *)
Lemma fine_exists h bessel tol U C ts us : charge_like U -> (forall t, In t ts -> bf_ok h t) -> (forall u, In u us -> bf_ok h u) ->
  (forall t u, In t ts -> In u us -> (v_L (b_v t) + v_L (b_v u) <= 14)%Z) ->
  (forall t u cA aA cB aB, In t ts -> In u us -> In (cA, aA) (v_prims (b_v t)) -> In (cB, aB) (v_prims (b_v u)) -> pair_direction aA aB (v_origin (b_v t)) (v_origin (b_v u)) C) ->
  exists e q, fine h bessel tol U C (fun _ _ _ _ => e) (fun _ _ _ _ => q) ts us.
Proof.
  intros HU H1 H2 H14 HD.
  assert (Mo : forall NA NB a b A B lm e q e' q', quadrature_accuracy bessel tol U NA NB a b A B C lm e q -> e <= e' -> q <= q' -> quadrature_accuracy bessel tol U NA NB a b A B C lm e' q').
  { intros NA NB a b A B lm e q e' q' H He Hq l n v conv Q Hl Hn HA HR. destruct (H l n v conv Q Hl Hn HA HR). split; lra. }
  assert (All : forall {T} (l : list T) (P : T -> R -> R -> Prop), (forall x e q e' q', P x e q -> e <= e' -> q <= q' -> P x e' q') -> (forall x, In x l -> exists e q, 0 <= e /\ 0 <= q /\ P x e q) -> exists e q, 0 <= e /\ 0 <= q /\ forall x, In x l -> P x e q).
  { intros T l P HM. induction l as [|x l IH]; intros HP; [exists 0, 0; split; [lra|]; split; [lra|]; intros x []|].
    destruct (HP x (or_introl eq_refl)) as (e & q & He & Hq & Hx). destruct IH as (e' & q' & He' & Hq' & Hl); [intros y Hy; apply HP; right; exact Hy|].
    exists (e + e'), (q + q'). split; [lra|]. split; [lra|]. intros y [<-|Hy]; [apply (HM _ _ _ _ _ Hx); lra|apply (HM _ _ _ _ _ (Hl y Hy)); lra]. }
  set (P1 := fun (t u : bfun) (x y : R * R) (e q : R) => quadrature_accuracy bessel tol U (norm_L (v_L (b_v t)) (snd x)) (norm_L (v_L (b_v u)) (snd y)) (snd x) (snd y) (v_origin (b_v t)) (v_origin (b_v u)) C (Z.to_nat (v_L (b_v t) + v_L (b_v u))) e q).
  destruct (All bfun ts (fun t e q => forall u, In u us -> forall x, In x (v_prims (b_v t)) -> forall y, In y (v_prims (b_v u)) -> P1 t u x y e q)) as (e & q & He & Hq & HP).
  - intros t e q e' q' H Le Lq u Hu x Hx y Hy. apply (Mo _ _ _ _ _ _ _ e q); [exact (H u Hu x Hx y Hy)|exact Le|exact Lq].
  - intros t Ht. apply All; [intros u e q e' q' H Le Lq x Hx y Hy; apply (Mo _ _ _ _ _ _ _ e q); [exact (H x Hx y Hy)|exact Le|exact Lq]|].
    intros u Hu. apply All; [intros x e q e' q' H Le Lq y Hy; apply (Mo _ _ _ _ _ _ _ e q); [exact (H y Hy)|exact Le|exact Lq]|].
    intros [cA aA] Hx. apply All; [intros y e q e' q' H Le Lq; apply (Mo _ _ _ _ _ _ _ e q); [exact H|exact Le|exact Lq]|].
    intros [cB aB] Hy. destruct (H1 t Ht) as (_ & _ & X1 & _). destruct (H2 u Hu) as (_ & _ & X2 & _). apply accuracy_exists_thm; [exact HU|exact (X1 _ _ Hx)|exact (X2 _ _ Hy)].
  - exists e, q. split; [exact H1|]. split; [exact H2|]. intros t u Ht Hu. split; [exact (H14 t u Ht Hu)|]. intros cA aA cB aB I1 I2. split; [exact (HD t u cA aA cB aB Ht Hu I1 I2)|]. split; [exact He|]. split; [exact Hq|].
    exact (HP t Ht u Hu (cA, aA) I1 (cB, aB) I2).
Qed.
