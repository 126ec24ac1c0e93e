(** * Sums of polynomials times Gaussians: the Cartesian integral is the integral in spherical coordinates around any point *)

From Coq Require Import ZArith List Lia Bool Reals Lra.
From Coquelicot Require Import Coquelicot.
From Verif Require Import Base Loops Sums GaussInt GaussProd CartModel CartProofs HeapModel HeapProofs HeapSpec
  OneElModel OneElProofs OneElPairs OneElSpec OneElInt OneElThms ParamsModel NucPotSpec NucPot NucModel NucProofs RadialModel RadialSpec RadialTables RadialMiss SpecSpec SphModel SphSpec SphProofs SphInt SphOrtho SphAngular SphAdd SphThms Type2Spec
  LocalModel LocalSpec LocalAcc LocalThms NucBound Definite RotSphere RotProj GrppRigid FiniteNuc GaussMoment PolarInt.
From Verif Require RigidPoly Rigid RigidThms Type2Radial.
Import ListNotations.
Open Scope R_scope.

(** ** Functions of the radius *)

(** continuous and decreasing exponentially *)
Definition quick (g : R -> R) : Prop := (forall r, continuous g r) /\ exists K, 0 <= K /\ forall r, 0 < r -> Rabs (g r) <= K * exp (- r).

Lemma quick_zero : quick (fun _ => 0).
Proof. split; [intros r; apply continuous_const|]. exists 0. split; [lra|]. intros r _. rewrite Rabs_R0, Rmult_0_l. lra. Qed.
Lemma quick_scal c g : quick g -> quick (fun r => c * g r).
Proof.
  intros (H & K & HK & B). split; [intros r; apply (continuous_mult_R (fun _ => c) g); [apply continuous_const|apply H]|]. exists (Rabs c * K). split; [apply Rmult_le_pos; [apply Rabs_pos|exact HK]|].
  intros r Hr. rewrite Rabs_mult, Rmult_assoc. apply Rmult_le_compat_l; [apply Rabs_pos|apply B, Hr].
Qed.
Lemma quick_plus f g : quick f -> quick g -> quick (fun r => f r + g r).
Proof.
  intros (H & K & HK & B) (H' & K' & HK' & B'). split; [intros r; apply (continuous_plus (V := R_NormedModule) f g); [apply H|apply H']|]. exists (K + K'). split; [lra|].
  intros r Hr. eapply Rle_trans; [apply Rabs_triang|]. rewrite Rmult_plus_distr_r. apply Rplus_le_compat; [apply B, Hr|apply B', Hr].
Qed.

(** the quotient of a differentiable function vanishing at 0 by its argument *)
Definition over (l : R -> R) (l0 r : R) : R := if Req_EM_T r 0 then l0 else l r / r.
Lemma over_val l l0 r : r <> 0 -> over l l0 r = l r / r.
Proof. intros H. unfold over. destruct (Req_EM_T r 0); [contradiction|reflexivity]. Qed.
Lemma over_cont l l0 r : (forall r, continuous l r) -> l 0 = 0 -> is_derive l 0 l0 -> continuous (over l l0) r.
Proof.
  intros Hc H0 HD. destruct (Req_EM_T r 0) as [-> | Hr].
  - apply continuity_pt_filterlim. apply is_derive_Reals in HD. intros eps He. destruct (HD eps He) as (d & Hd). exists d. split; [apply cond_pos|]. intros x ((_ & Hx) & Hx2).
    cbn in *. unfold R_dist in *. unfold over at 2. destruct (Req_EM_T 0 0); [|lra]. rewrite over_val by (intros E; apply Hx; symmetry; exact E).
    rewrite Rminus_0_r in Hx2. specialize (Hd x (fun E => Hx (eq_sym E)) Hx2). rewrite Rplus_0_l, H0, Rminus_0_r in Hd. exact Hd.
  - apply (continuous_ext_loc _ (fun r => l r * / r)).
    + exists (mkposreal (Rabs r) (Rabs_pos_lt r Hr)). intros y Hy. symmetry. apply over_val. intros ->. cbn in Hy. unfold AbsRing_ball, abs, minus, plus, opp in Hy. cbn in Hy. rewrite Rplus_0_l, Rabs_Ropp in Hy. lra.
    + apply (continuous_mult_R l (fun r => / r)); [apply Hc|]. apply (ex_derive_continuous (V := R_NormedModule)). auto_derive. exact Hr.
Qed.

(** ** Monomials centred on the axis *)
Definition gpolar (p D : R) (i j k : nat) (r : R) : R :=
  if (Nat.even i && Nat.even j)%bool then 2 * PI * odf (Nat.div2 i) * odf (Nat.div2 j) / (2 ^ (Nat.div2 i + Nat.div2 j) * INR (fact (Nat.div2 i + Nat.div2 j))) * (exp (- (p * r ^ 2)) * over (lens (Nat.div2 i + Nat.div2 j) (hax p D k)) (Derive (lens (Nat.div2 i + Nat.div2 j) (hax p D k)) 0) r) else 0.

Lemma gpolar_val p D i j k r : r <> 0 -> gpolar p D i j k r = apolar p D i j k r / r ^ 2.
Proof.
  intros Hr. unfold gpolar, apolar. destruct (Nat.even i && Nat.even j)%bool; [|unfold Rdiv; ring]. rewrite over_val by exact Hr. pose proof (pow_lt 2 (Nat.div2 i + Nat.div2 j) ltac:(lra)). pose proof (INR_fact_lt_0 (Nat.div2 i + Nat.div2 j)). field. repeat split; lra.
Qed.
Lemma lens_D0 m h : (forall x, continuous h x) -> is_derive (lens m h) 0 (Derive (lens m h) 0).
Proof.
  intros H. apply Derive_correct. destruct m as [|m]; [exists (h 0 + h (- 0)); apply lens0_derive, H|]. eexists. apply lens_derive, H.
Qed.
Lemma gpolar_quick p D i j k : 0 < p -> quick (gpolar p D i j k).
Proof.
  intros Hp. split.
  - intros r. unfold gpolar. destruct (Nat.even i && Nat.even j)%bool; [|apply continuous_const]. set (c := _ / _). set (m := (_ + _)%nat).
    apply (continuous_mult_R (fun _ => c)); [apply continuous_const|]. apply (continuous_mult_R (fun r => exp (- (p * r ^ 2)))).
    + apply (ex_derive_continuous (V := R_NormedModule)). auto_derive. exact I.
    + apply over_cont; [intros x; apply lens_cont, hax_cont|apply lens_zero|apply lens_D0, hax_cont].
  - destruct (apolar_small p D i j k Hp) as (_ & K & HK & B). exists K. split; [exact HK|]. intros r Hr. rewrite gpolar_val by lra. specialize (B r ltac:(lra)). pose proof (pow_lt r 2 Hr) as P.
    unfold Rdiv. rewrite Rabs_mult, Rabs_inv, (Rabs_pos_eq (r ^ 2)) by lra. apply (Rmult_le_reg_r (r ^ 2)); [exact P|]. rewrite Rmult_assoc, Rinv_l, Rmult_1_r by lra. rewrite Rmult_assoc, (Rmult_comm (exp (- r))). exact B.
Qed.

(** what is claimed of F around C: the integrals over the spheres, and over space *)
Definition polar (C : R * R * R) (F : R -> R -> R -> R) (g : R -> R) (v : R) : Prop :=
  quick g /\ (forall r, 0 < r -> sphere_int (fun x y z => F (coord3 C 0 + r * x) (coord3 C 1 + r * y) (coord3 C 2 + r * z)) (g r)) /\
  is_int3 F v /\ half_int (fun r => r ^ 2 * g r) v.

Lemma polar_ext C F G g v : (forall x y z, F x y z = G x y z) -> polar C F g v -> polar C G g v.
Proof.
  intros E (A & B & D & H). split; [exact A|]. split; [|split; [|exact H]].
  - intros r Hr. eapply sphere_ext; [|apply B, Hr]. intros x y z _. cbv beta. apply E.
  - eapply is_int3_ext; [|exact D]. exact E.
Qed.
Lemma polar_zero C : polar C (fun _ _ _ => 0) (fun _ => 0) 0.
Proof.
  split; [apply quick_zero|]. split; [intros r _; apply sphere_zero|]. split; [apply is_int3_zero|]. eapply half_ext; [|apply Type2Radial.half_zero]. intros r _. cbv beta. ring.
Qed.
Lemma polar_plus C F G f g v w : polar C F f v -> polar C G g w -> polar C (fun x y z => F x y z + G x y z) (fun r => f r + g r) (v + w).
Proof.
  intros (A & B & D & H) (A' & B' & D' & H'). split; [apply quick_plus; assumption|]. split; [|split].
  - intros r Hr. eapply sphere_val; [eapply sphere_ext; [|apply (sphere_lin _ _ _ _ 1 1 (B r Hr) (B' r Hr))]|ring]. intros x y z _. cbv beta. ring.
  - apply is_int3_plus; assumption.
  - eapply half_ext; [|apply (half_plus _ _ _ _ H H')]. intros r _. cbv beta. ring.
Qed.
Lemma polar_scal C F g v k : polar C F g v -> polar C (fun x y z => k * F x y z) (fun r => k * g r) (k * v).
Proof.
  intros (A & B & D & H). split; [apply quick_scal, A|]. split; [|split].
  - intros r Hr. apply (sphere_scal _ _ k (B r Hr)).
  - apply is_int3_scal, D.
  - eapply half_ext; [|apply (half_scal k _ _ H)]. intros r _. cbv beta. ring.
Qed.
Definition has_polar C F : Prop := exists g v, polar C F g v.
Lemma has_polar_lsum {A} C (F : A -> R -> R -> R -> R) l : (forall a, In a l -> has_polar C (F a)) -> has_polar C (fun x y z => lsum (fun a => F a x y z) l).
Proof.
  induction l as [|a l IH]; intros H; [exists (fun _ => 0), 0; apply polar_zero|]. destruct (H a ltac:(left; reflexivity)) as (f & v & P). destruct IH as (g & w & Q); [intros; apply H; right; assumption|].
  exists (fun r => f r + g r), (v + w). apply (polar_plus C (F a) (fun x y z => lsum (fun a => F a x y z) l) f g v w P Q).
Qed.

Lemma amono_polar p D i j k : 0 < p -> polar (0, 0, 0) (amono p D i j k) (gpolar p D i j k) (RigidPoly.gm p i * RigidPoly.gm p j * RigidPoly.gm p k).
Proof.
  intros Hp. split; [apply gpolar_quick, Hp|]. split; [|split; [apply amono_int3, Hp|]].
  - intros r Hr. rewrite gpolar_val by lra. change (coord3 (0, 0, 0) 0) with 0. change (coord3 (0, 0, 0) 1) with 0. change (coord3 (0, 0, 0) 2) with 0. apply amono_sphere, Hr.
  - eapply half_ext; [|apply (apolar_half p D i j k), Hp]. intros r Hr. cbv beta. rewrite gpolar_val by lra. field. lra.
Qed.

Lemma axis_polar p D q : 0 < p -> has_polar (0, 0, 0) (Rigid.pg p (0, 0, D) q).
Proof.
  intros Hp. assert (H : has_polar (0, 0, 0) (fun x y z => lsum (fun t : R * RigidPoly.mono => fst t * amono p D (fst (fst (snd t))) (snd (fst (snd t))) (snd (snd t)) x y z) q)).
  { apply has_polar_lsum. intros t _. eexists. eexists. apply polar_scal, amono_polar, Hp. }
  destruct H as (g & v & P). exists g, v. eapply polar_ext; [|exact P]. intros x y z. unfold Rigid.pg. change (coord3 (0, 0, D) 0) with 0. change (coord3 (0, 0, D) 1) with 0. change (coord3 (0, 0, D) 2) with D. rewrite !Rminus_0_r. unfold RigidPoly.meval. rewrite Rmult_comm, <- lsum_scal. apply lsum_ext. intros [c [[i j] k]] _. unfold amono, RigidPoly.gauss3, RigidPoly.mval. cbn [fst snd]. ring.
Qed.

(** ** Turning a point onto the axis *)
Definition hh (c : R) (v : Z -> R) : RigidPoly.mat := fun i j => RigidPoly.delta i j - c * (v i * v j).
Lemma hh_orth c v : c * (v 0%Z ^ 2 + v 1%Z ^ 2 + v 2%Z ^ 2) = 2 -> orthogonal (hh c v).
Proof.
  intros H. assert (G : forall i k, (0 <= i < 3)%Z -> (0 <= k < 3)%Z -> RigidPoly.sum3 (fun j => hh c v i j * hh c v k j) = RigidPoly.delta i k).
  { intros i k Hi Hk. unfold RigidPoly.sum3. transitivity (RigidPoly.delta i k + c * (v i * v k) * (c * (v 0%Z ^ 2 + v 1%Z ^ 2 + v 2%Z ^ 2) - 2)); [|rewrite H; ring]. unfold hh.
    assert (i = 0 \/ i = 1 \/ i = 2)%Z as Ei by lia. assert (k = 0 \/ k = 1 \/ k = 2)%Z as Ek by lia. destruct Ei as [-> | [-> | ->]]; destruct Ek as [-> | [-> | ->]]; unfold RigidPoly.delta; cbn [Z.eqb Pos.eqb]; ring. }
  split; [|exact G]. intros i k Hi Hk. rewrite <- (G i k Hi Hk). unfold RigidPoly.sum3, hh.
  assert (S : forall j, RigidPoly.delta j i = RigidPoly.delta i j) by (intros; unfold RigidPoly.delta; rewrite Z.eqb_sym; reflexivity). assert (S' : forall j, RigidPoly.delta j k = RigidPoly.delta k j) by (intros; unfold RigidPoly.delta; rewrite Z.eqb_sym; reflexivity). rewrite !S, !S'. ring.
Qed.

Lemma to_axis (a b c : R) : exists O D, orthogonal O /\ O 0%Z 2%Z * D = a /\ O 1%Z 2%Z * D = b /\ O 2%Z 2%Z * D = c.
Proof.
  set (D := sqrt (a ^ 2 + b ^ 2 + c ^ 2)). assert (HD : D * D = a ^ 2 + b ^ 2 + c ^ 2) by (apply sqrt_sqrt; pose proof (pow2_ge_0 a); pose proof (pow2_ge_0 b); pose proof (pow2_ge_0 c); lra). assert (D0 : 0 <= D) by apply sqrt_pos.
  pose (v := fun i : Z => if (i =? 0)%Z then a else if (i =? 1)%Z then b else c - D).
  destruct (Req_EM_T (D * (D - c)) 0) as [E|E].
  - exists RigidPoly.delta, c. assert (A : a = 0 /\ b = 0). { apply Rmult_integral in E. assert (a ^ 2 + b ^ 2 = 0) by (destruct E as [E|E]; [rewrite E in HD; pose proof (pow2_ge_0 a); pose proof (pow2_ge_0 b); pose proof (pow2_ge_0 c); lra|replace D with c in HD by lra; lra]).
      pose proof (pow2_ge_0 a). pose proof (pow2_ge_0 b). split; apply Rsqr_0_uniq; unfold Rsqr; lra. }
    destruct A as (-> & ->). split; [|unfold RigidPoly.delta; cbn [Z.eqb Pos.eqb]; repeat split; ring].
    split; intros i k Hi Hk; assert (i = 0 \/ i = 1 \/ i = 2)%Z as Ei by lia; assert (k = 0 \/ k = 1 \/ k = 2)%Z as Ek by lia; destruct Ei as [-> | [-> | ->]]; destruct Ek as [-> | [-> | ->]]; unfold RigidPoly.sum3, RigidPoly.delta; cbn [Z.eqb Pos.eqb]; ring.
  - assert (D <> 0 /\ D - c <> 0) as (E1 & E2) by (split; intros X; apply E; rewrite X; ring).
    exists (hh (/ (D * (D - c))) v), D. split.
    + apply hh_orth. unfold v. cbn [Z.eqb Pos.eqb]. apply (Rmult_eq_reg_l (D * (D - c))); [|exact E]. rewrite <- Rmult_assoc, Rinv_r, Rmult_1_l by exact E. transitivity (a ^ 2 + b ^ 2 + c ^ 2 - 2 * c * D + D * D); [ring|]. rewrite <- HD. ring.
    + unfold hh, v, RigidPoly.delta. cbn [Z.eqb Pos.eqb]. repeat split; field; (split; assumption).
Qed.

Lemma tr_back O k x y z : orthogonal O -> (0 <= k < 3)%Z -> RigidPoly.tr (transp O) k (RigidPoly.tr O 0 x y z) (RigidPoly.tr O 1 x y z) (RigidPoly.tr O 2 x y z) = if (k =? 0)%Z then x else if (k =? 1)%Z then y else z.
Proof.
  intros (_ & H) Hk. unfold RigidPoly.tr, transp. assert (E0 := H k 0%Z Hk ltac:(lia)). assert (E1 := H k 1%Z Hk ltac:(lia)). assert (E2 := H k 2%Z Hk ltac:(lia)). unfold RigidPoly.sum3 in *.
  transitivity ((O k 0%Z * O 0%Z 0%Z + O k 1%Z * O 0%Z 1%Z + O k 2%Z * O 0%Z 2%Z) * x + (O k 0%Z * O 1%Z 0%Z + O k 1%Z * O 1%Z 1%Z + O k 2%Z * O 1%Z 2%Z) * y + (O k 0%Z * O 2%Z 0%Z + O k 1%Z * O 2%Z 1%Z + O k 2%Z * O 2%Z 2%Z) * z); [ring|]. rewrite E0, E1, E2.
  assert (k = 0 \/ k = 1 \/ k = 2)%Z as [-> | [-> | ->]] by lia; unfold RigidPoly.delta; cbn [Z.eqb Pos.eqb]; ring.
Qed.

Lemma term_polar C p o q n : 0 < p -> degle n q -> (n <= 40)%nat -> has_polar C (Rigid.pg p o q).
Proof.
  intros Hp Hq Hn. destruct (to_axis (coord3 o 0 - coord3 C 0) (coord3 o 1 - coord3 C 1) (coord3 o 2 - coord3 C 2)) as (O & D & HO & X & Y & Z).
  set (q' := RigidPoly.rsub (transp O) q). assert (Hq' : degle n q') by (apply degle_asub; try exact Hq; intros t [<-|[<-|[<-|[]]]]; cbn; lia).
  set (F' := Rigid.pg p (0, 0, D) q').
  assert (E : forall x y z, F' (Rigid.iv O C 0 x y z) (Rigid.iv O C 1 x y z) (Rigid.iv O C 2 x y z) = Rigid.pg p o q x y z).
  { intros x y z. unfold F'. rewrite Rigid.pg_iv by exact HO. assert (M : forall k, (0 <= k < 3)%Z -> coord3 (Rigid.moved3 O C (0, 0, D)) k = coord3 o k).
    { intros k Hk. assert (k = 0 \/ k = 1 \/ k = 2)%Z as [-> | [-> | ->]] by lia; unfold Rigid.moved3, Rigid.mv.
      - change (O 0%Z 0%Z * 0 + O 0%Z 1%Z * 0 + O 0%Z 2%Z * D + coord3 C 0 = coord3 o 0). lra.
      - change (O 1%Z 0%Z * 0 + O 1%Z 1%Z * 0 + O 1%Z 2%Z * D + coord3 C 1 = coord3 o 1). lra.
      - change (O 2%Z 0%Z * 0 + O 2%Z 1%Z * 0 + O 2%Z 2%Z * D + coord3 C 2 = coord3 o 2). lra. }
    unfold Rigid.pg. rewrite !M by lia. unfold q'. rewrite !RigidPoly.meval_rsub, !tr_back by (exact HO || lia). reflexivity. }
  assert (GN : gpn n F'). { exists [(p, (0, 0, D), q')]. split; [intros T [<-|[]]; split; [exact Hp|exact Hq']|]. intros. unfold lsum. cbn [fold_right]. rewrite Rplus_0_r. reflexivity. }
  destruct (axis_polar p D q' Hp) as (g & v & A & B & I3 & H). fold F' in B, I3. exists g, v. split; [exact A|]. split; [|split; [|exact H]].
  - intros r Hr. destruct (gpn_sphere O F' (0, 0, 0) r n HO GN Hn) as (w & W1 & W2). rewrite <- (sphere_uniq _ _ _ W1 (B r Hr)). eapply sphere_ext; [|exact W2]. intros x y z _. rewrite <- E. unfold rotf.
    assert (M : forall k, (0 <= k < 3)%Z -> coord3 C k = coord3 (Rigid.moved3 O C (0, 0, 0)) k).
    { intros k Hk. assert (k = 0 \/ k = 1 \/ k = 2)%Z as [-> | [-> | ->]] by lia; unfold Rigid.moved3, Rigid.mv.
      - change (coord3 C 0 = O 0%Z 0%Z * 0 + O 0%Z 1%Z * 0 + O 0%Z 2%Z * 0 + coord3 C 0). ring.
      - change (coord3 C 1 = O 1%Z 0%Z * 0 + O 1%Z 1%Z * 0 + O 1%Z 2%Z * 0 + coord3 C 1). ring.
      - change (coord3 C 2 = O 2%Z 0%Z * 0 + O 2%Z 1%Z * 0 + O 2%Z 2%Z * 0 + coord3 C 2). ring. }
    rewrite !(M 0%Z), !(M 1%Z), !(M 2%Z) by lia. rewrite !iv_sphere by (exact HO || lia). reflexivity.
  - destruct (Rigid.gp_move O C F' HO (gpn_gp n F' GN)) as (w & W1 & W2). rewrite (is_int3_unique _ _ _ I3 W1). eapply is_int3_ext; [|exact W2]. exact E.
Qed.

Theorem gpn_polar n F C : gpn n F -> (n <= 40)%nat -> has_polar C F.
Proof.
  intros (l & Hl & E) Hn. assert (H : has_polar C (fun x y z => lsum (fun T => Rigid.gval T x y z) l)).
  { apply has_polar_lsum. intros T HT. destruct (Hl T HT) as (A & B). apply (term_polar C (Rigid.gtp T) (Rigid.gto_ T) (Rigid.gtq T) n A B Hn). }
  destruct H as (g & v & P). exists g, v. eapply polar_ext; [|exact P]. intros; symmetry; apply E.
Qed.

(** the integral of F over space *)
Theorem space_one n F C v : gpn n F -> (n <= 40)%nat -> is_int3 F v -> space_int (fun _ => 1) C F v.
Proof.
  intros HF Hn HI. destruct (gpn_polar n F C HF Hn) as (g & w & (_ & B & I3 & H)). rewrite (is_int3_unique _ _ _ HI I3). exists g. split.
  - destruct C as [[cx cy] cz]. intros r Hr. exact (B r Hr).
  - eapply half_ext; [|exact H]. intros r _. cbv beta. ring.
Qed.
