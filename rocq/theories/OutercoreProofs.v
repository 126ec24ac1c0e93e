(** * What the outercore routines compute, in terms of their building blocks *)

From Coq Require Import ZArith List Lia Bool Reals Lra.
From Verif Require Import Base Loops Sums BinomModel BinomProofs OneElModel OneElProofs OneElPairs LmatModel LmatProofs UtilProofs SphModel SphProofs OutercoreModel.
Import ListNotations.
Open Scope R_scope.

(** ** Matrices stored by rows *)
Definition ismat (M : arr R) (sz nr nc : Z) (f : Z -> Z -> R) : Prop :=
  adims M = [sz] /\ (nr * nc <= sz)%Z /\ forall i j, (0 <= i < nr)%Z -> (0 <= j < nc)%Z -> aget M [i * nc + j]%Z = Ok (f i j).

Lemma ismat_ext M sz nr nc f g : (forall i j, (0 <= i < nr)%Z -> (0 <= j < nc)%Z -> f i j = g i j) -> ismat M sz nr nc f -> ismat M sz nr nc g.
Proof. intros E (D & S & G). split; [exact D|]. split; [exact S|]. intros i j Hi Hj. rewrite G by assumption. f_equal. apply E; assumption. Qed.

Lemma index_in nr nc i j : (0 <= i < nr)%Z -> (0 <= j < nc)%Z -> (0 <= i * nc + j < nr * nc)%Z.
Proof. nia. Qed.

Lemma index_inj nc i j i' j' : (0 <= j < nc)%Z -> (0 <= j' < nc)%Z -> (i * nc + j = i' * nc + j')%Z -> i = i' /\ j = j'.
Proof. intros Hj Hj' E. assert (i = i') by nia. subst. split; [reflexivity|lia]. Qed.

Lemma index_split nr nc k : (0 < nc)%Z -> (0 <= k < nr * nc)%Z -> exists i j, (0 <= i < nr)%Z /\ (0 <= j < nc)%Z /\ k = (i * nc + j)%Z.
Proof.
  intros Hnc Hk. exists (k / nc)%Z, (k mod nc)%Z. pose proof (Z.mod_pos_bound k nc Hnc). pose proof (Z.div_mod k nc ltac:(lia)).
  split; [split; [apply Z.div_pos; lia|apply Z.div_lt_upper_bound; nia]|]. split; [assumption|lia].
Qed.

Lemma aget_aconst n z k : (0 <= k < n)%Z -> aget (aconst [n] (z : R)) [k] = Ok z.
Proof. intros H. apply aget_ok; [apply inb1; exact H|reflexivity]. Qed.

Lemma zeros_mat nr nc : (0 <= nr)%Z -> (0 <= nc)%Z -> ismat (zeros (nr * nc)) (nr * nc) nr nc (fun _ _ => 0).
Proof.
  intros Hr Hc. split; [reflexivity|]. split; [lia|]. intros i j Hi Hj. apply aget_aconst. apply index_in; assumption.
Qed.

Lemma rsum_zsum n (f : Z -> R) : rsum n (fun k => f (Z.of_nat k)) = zsum 0 (Z.of_nat n) f.
Proof.
  induction n as [|n IH]; [reflexivity|]. rewrite Nat2Z.inj_succ. unfold Z.succ. rewrite zsum_last by lia. rewrite <- IH. reflexivity.
Qed.

Lemma memset_mat M sz nr nc : adims M = [sz] -> (0 <= nr)%Z -> (0 <= nc)%Z -> (nr * nc <= sz)%Z ->
  exists M', memset0 (nr * nc) M = Ok M' /\ ismat M' sz nr nc (fun _ _ => 0).
Proof.
  intros D Hr Hc Hsz. destruct (memset0_get (nr * nc) sz M D ltac:(nia)) as (M' & E & D' & C & _).
  exists M'. split; [exact E|]. split; [exact D'|]. split; [exact Hsz|]. intros i j Hi Hj. apply C. apply index_in; assumption.
Qed.

Definition mmul (K : Z) (f g : Z -> Z -> R) (i j : Z) : R := zsum 0 K (fun k => f i k * g k j).

Lemma mul_mat M N K A B C sa sb sc fa fb fc : (0 <= M)%Z -> (0 <= N)%Z -> (0 <= K)%Z ->
  ismat A sa M K fa -> ismat B sb K N fb -> ismat C sc M N fc ->
  exists C', multiply_matrices M N K A B C = Ok C' /\ ismat C' sc M N (fun i j => fc i j + mmul K fa fb i j).
Proof.
  intros HM HN HK (Da & Sa & Ga) (Db & Sb & Gb) (Dc & Sc & Gc).
  destruct (multiply_ok M N K A B C fa fb fc sc HM HN HK Dc Sc Ga Gb Gc) as (C' & E & D & G & _).
  exists C'. split; [exact E|]. split; [exact D|]. split; [exact Sc|]. intros i j Hi Hj. rewrite G by assumption. f_equal. f_equal.
  rewrite (rsum_zsum (Z.to_nat K) (fun k => fa i k * fb k j)). rewrite Z2Nat.id by lia. reflexivity.
Qed.

Lemma daxpy_mat nr nc a X Y sx sy fx fy : (0 <= nr)%Z -> (0 <= nc)%Z -> ismat X sx nr nc fx -> ismat Y sy nr nc fy ->
  exists Y', daxpy (nr * nc) a X Y = Ok Y' /\ ismat Y' sy nr nc (fun i j => fy i j + a * fx i j) /\
    (forall ix, ~ (exists k, ix = [k] /\ (0 <= k < nr * nc)%Z) -> aget Y' ix = aget Y ix).
Proof.
  intros Hr Hc (Dx & Sx & Gx) (Dy & Sy & Gy).
  assert (P : forall (f : Z -> Z -> R) (Mx : arr R), (forall i j, (0 <= i < nr)%Z -> (0 <= j < nc)%Z -> aget Mx [i * nc + j]%Z = Ok (f i j)) ->
    forall k, (0 <= k < nr * nc)%Z -> aget Mx [k] = Ok (f (k / nc)%Z (k mod nc)%Z)).
  { intros f Mx G k Hk. assert (Hp : (0 < nc)%Z) by nia. pose proof (Z.mod_pos_bound k nc Hp). pose proof (Z.div_mod k nc ltac:(lia)) as Ek.
    rewrite <- (G (k / nc)%Z (k mod nc)%Z); [f_equal; f_equal; lia| |assumption]. split; [apply Z.div_pos; lia|apply Z.div_lt_upper_bound; nia]. }
  destruct (daxpy_reads (nr * nc) a X Y (fun k => fx (k / nc)%Z (k mod nc)%Z) (fun k => fy (k / nc)%Z (k mod nc)%Z) sx sy ltac:(nia) Dx Dy Sx Sy (P _ _ Gx) (P _ _ Gy))
    as (Y' & E & D & G & O).
  exists Y'. split; [exact E|]. split; [|exact O]. split; [exact D|]. split; [exact Sy|]. intros i j Hi Hj. rewrite G by (apply index_in; assumption).
  assert (E1 : ((i * nc + j) / nc)%Z = i) by (symmetry; apply (Z.div_unique _ _ i j); [left; lia|lia]).
  assert (E2 : ((i * nc + j) mod nc)%Z = j) by (symmetry; apply (Z.mod_unique _ _ i j); [left; lia|lia]).
  rewrite E1, E2. reflexivity.
Qed.

Lemma dot_loop K (f g : Z -> res R) (vf vg : Z -> R) : (0 <= K)%Z ->
  (forall k, (0 <= k < K)%Z -> f k = Ok (vf k)) -> (forall k, (0 <= k < K)%Z -> g k = Ok (vg k)) ->
  for_range 0 K (fun k s => let* u := f k in let* a := g k in Ok (s + u * a)) 0 = Ok (zsum 0 K (fun k => vf k * vg k)).
Proof.
  intros HK Hf Hg. rewrite (acc_loop 0 K _ (fun k => vf k * vg k)%R 0 HK).
  - f_equal. ring.
  - intros k s Hk. rewrite Hf, Hg by exact Hk. reflexivity.
Qed.

Lemma transform_mat (bra ket : Z) (body : Z -> Z -> arr R -> res (arr R)) (row : Z -> Z -> Z) (v : Z -> Z -> R) nr nc sz M :
  (0 <= bra)%Z -> (0 <= ket)%Z -> adims M = [sz] -> (nr * nc <= sz)%Z ->
  (forall p q, (0 <= p < bra)%Z -> (0 <= q < ket)%Z -> (0 <= row p q < nr * nc)%Z) ->
  (forall p q p' q', (0 <= p < bra)%Z -> (0 <= q < ket)%Z -> (0 <= p' < bra)%Z -> (0 <= q' < ket)%Z -> (p', q') <> (p, q) -> row p' q' <> row p q) ->
  (forall p q A, (0 <= p < bra)%Z -> (0 <= q < ket)%Z -> body p q A = aset A [row p q] (v p q)) ->
  exists M', for_range 0 bra (fun p => for_range 0 ket (body p)) M = Ok M' /\ adims M' = [sz] /\
    forall p q, (0 <= p < bra)%Z -> (0 <= q < ket)%Z -> aget M' [row p q] = Ok (v p q).
Proof.
  intros Hb Hk D Hsz Hrow Hinj Hbody.
  apply (loop2_all 0 bra 0 ket (fun A : arr R => adims A = [sz]) (fun p q (A : arr R) => aget A [row p q] = Ok (v p q))); try assumption.
  intros p q A Hp Hq DA. rewrite Hbody by assumption. pose proof (Hrow p q Hp Hq).
  destruct (aset_get A [row p q] (v p q)) as (A' & E & DA' & G & O); [rewrite DA; apply inb1; lia|].
  exists A'. split; [exact E|]. split; [congruence|]. split; [exact G|]. intros p' q' Hp' Hq' Hne Ho. rewrite O; [exact Ho|].
  intros X. injection X as X. apply (Hinj p q p' q' Hp Hq Hp' Hq' Hne X).
Qed.

Lemma ket_mat na nc ns A_in A_out SC si so ss fa fs : (0 <= na)%Z -> (0 <= nc)%Z -> (0 <= ns)%Z ->
  ismat A_in si na nc fa -> ismat SC ss ns nc fs -> adims A_out = [so] -> (na * ns <= so)%Z ->
  exists A', transform_to_sph_basis_ket na nc ns A_in A_out SC = Ok A' /\ ismat A' so na ns (fun i p => zsum 0 nc (fun c => fs p c * fa i c)).
Proof.
  intros Ha Hc Hs (Da & Sa & Ga) (Ds & Ss & Gs) Do So. unfold transform_to_sph_basis_ket.
  destruct (transform_mat na ns (fun i j A_out => let* s := for_range 0 nc (fun icart s => let* u := aget SC [nc * j + icart]%Z in let* a := aget A_in [i * nc + icart]%Z in Ok (s + u * a)) 0 in aset A_out [i * ns + j]%Z s)
      (fun i p => i * ns + p)%Z (fun i p => zsum 0 nc (fun c => fs p c * fa i c)) na ns so A_out Ha Hs Do So)
    as (A' & E & D & G).
  - intros p q Hp Hq. apply index_in; assumption.
  - intros p q p' q' Hp Hq Hp' Hq' Hne X. apply index_inj in X; [|assumption|assumption]. apply Hne. f_equal; tauto.
  - intros p q A Hp Hq. rewrite (dot_loop nc _ _ (fun c => fs q c) (fun c => fa p c) Hc); [rewrite bind_ok; reflexivity| |].
    + intros k Hk. rewrite (Z.mul_comm nc q). apply Gs; assumption.
    + intros k Hk. apply Ga; assumption.
  - exists A'. split; [exact E|]. split; [exact D|]. split; [exact So|]. exact G.
Qed.

Lemma bra_mat nc ns nb A_in A_out SC si so ss fa fs : (0 <= nc)%Z -> (0 <= ns)%Z -> (0 <= nb)%Z ->
  ismat A_in si nc nb fa -> ismat SC ss ns nc fs -> adims A_out = [so] -> (ns * nb <= so)%Z ->
  exists A', transform_to_sph_basis_bra nc ns nb A_in A_out SC = Ok A' /\ ismat A' so ns nb (fun p j => zsum 0 nc (fun c => fs p c * fa c j)).
Proof.
  intros Hc Hs Hb (Da & Sa & Ga) (Ds & Ss & Gs) Do So. unfold transform_to_sph_basis_bra.
  destruct (transform_mat nb ns (fun j i A_out => let* s := for_range 0 nc (fun icart s => let* u := aget SC [nc * i + icart]%Z in let* a := aget A_in [icart * nb + j]%Z in Ok (s + u * a)) 0 in aset A_out [i * nb + j]%Z s)
      (fun j p => p * nb + j)%Z (fun j p => zsum 0 nc (fun c => fs p c * fa c j)) ns nb so A_out Hb Hs Do So)
    as (A' & E & D & G).
  - intros p q Hp Hq. apply index_in; assumption.
  - intros p q p' q' Hp Hq Hp' Hq' Hne X. apply index_inj in X; [|assumption|assumption]. apply Hne. f_equal; tauto.
  - intros p q A Hp Hq. rewrite (dot_loop nc _ _ (fun c => fs q c) (fun c => fa c p) Hc); [rewrite bind_ok; reflexivity| |].
    + intros k Hk. rewrite (Z.mul_comm nc q). apply Gs; assumption.
    + intros k Hk. apply Ga; assumption.
  - exists A'. split; [exact E|]. split; [exact D|]. split; [exact So|]. intros p j Hp Hj. apply G; assumption.
Qed.

(** ** Expansion coefficients of the spherical components *)
Definition comp (cs : list (Z * Z * Z)) (i : Z) : Z * Z * Z := nth (Z.to_nat i) cs (0, 0, 0)%Z.

Lemma comp_in cs i : (0 <= i < Z.of_nat (length cs))%Z -> In (comp cs i) cs.
Proof. intros H. apply nth_In. lia. Qed.

Definition ang_factor (l : nat) : R := 1 / (2 * sqrt PI) * sqrt (IZR (dfactz (2 * l + 1))).

Lemma ang_factor_pos l : 0 < ang_factor l.
Proof.
  unfold ang_factor. apply Rmult_lt_0_compat.
  - apply Rdiv_lt_0_compat; [lra|]. pose proof (sqrt_lt_R0 PI PI_RGT_0). lra.
  - apply sqrt_lt_R0. apply IZR_lt. induction l as [|l IH]; [reflexivity|]. replace (2 * S l + 1)%nat with (S (S (2 * l + 1))) by lia.
    cbn [dfactz]. lia.
Qed.

(** coefficient of Cartesian component number c in the spherical component m *)
Definition sph_coef (l : nat) (cs : list (Z * Z * Z)) (p c : Z) : R :=
  let '(r, s, _) := comp cs c in scoef l (p - Z.of_nat l) r s / ang_factor l.

Lemma sph_coefs_ok l s cs : (l <= 14)%nat -> holds_comps s cs -> comps_of (Z.of_nat l) cs ->
  exists SC, sph_coefs (Z.of_nat l) s = Ok SC /\ ismat SC ((2 * Z.of_nat l + 1) * sv_size s) (2 * Z.of_nat l + 1) (sv_size s) (sph_coef l cs).
Proof.
  intros Hl (Hsz & Hc) Hcs. unfold sph_coefs. set (L := Z.of_nat l). assert (HL : (0 <= L)%Z) by (unfold L; lia).
  assert (Hs0 : (0 <= sv_size s)%Z) by lia.
  destruct (loop2_all (- L) (L + 1) 0 (sv_size s) (fun A : arr R => adims A = [(2 * L + 1) * sv_size s]%Z)
    (fun m c (A : arr R) => aget A [sv_size s * (m + L) + c]%Z = Ok (sph_coef l cs (m + L) c))
    (fun m icart SC =>
      let* rx := aget (sv_cart s) [3 * icart + 0]%Z in
      let* ry := aget (sv_cart s) [3 * icart + 1]%Z in
      let* rz := aget (sv_cart s) [3 * icart + 2]%Z in
      let* c := spherical_to_cartesian_coef L m rx ry rz in
      let* n := ang_norm_factor rx ry rz in
      aset SC [sv_size s * (m + L) + icart]%Z (c / n)) (aconst [(2 * L + 1) * sv_size s]%Z 0)) as (A & E & D & G); [lia|lia|reflexivity| |].
  - intros m c A Hm Hcc DA. specialize (Hc (Z.to_nat c) ltac:(lia)). rewrite Z2Nat.id in Hc by lia.
    fold (comp cs c) in Hc. pose proof (comp_in cs c ltac:(lia)) as Hin. unfold sph_coef. destruct (comp cs c) as [[r t] u] eqn:Ecp.
    destruct Hc as (-> & -> & ->). rewrite !bind_ok. destruct (Hcs _ _ _ Hin) as (P1 & P2 & P3 & P4).
    unfold L. rewrite s2c_ok by (try lia; unfold L in *; lia). rewrite bind_ok. unfold ang_norm_factor. rewrite P4. rewrite double_factorial_ok by lia. rewrite !bind_ok.
    replace (Z.to_nat (2 * Z.of_nat l + 1)) with (2 * l + 1)%nat by lia. fold (ang_factor l). fold L.
    replace (m + L - L)%Z with m by ring.
    destruct (aset_get A [sv_size s * (m + L) + c]%Z (scoef l m r t / ang_factor l)) as (A' & E & DA' & G & O); [rewrite DA; apply inb1; nia|].
    exists A'. split; [exact E|]. split; [congruence|]. split; [exact G|]. intros m' c' Hm' Hc' Hne Ho. rewrite O; [exact Ho|].
    intros X. injection X as X. apply Hne. assert (m' = m) by nia. subst. f_equal. lia.
  - exists A. split; [exact E|]. split; [exact D|]. split; [lia|]. intros p c Hp Hcc.
    specialize (G (p - L)%Z c ltac:(lia) Hcc). replace (p - L + L)%Z with p in G by ring. rewrite (Z.mul_comm p). exact G.
Qed.

(** ** Angular momentum matrices *)
Definition Wmat (k : Z) (l : nat) (p q : Z) : R :=
  let L := Z.of_nat l in
  if (k =? 0)%Z then wX L (p - L) (q - L) else if (k =? 1)%Z then wY L (p - L) (q - L) else wZ L (p - L) (q - L).

Lemma Wmat_anti k l p q : Wmat k l q p = - Wmat k l p q.
Proof. unfold Wmat. destruct (k =? 0)%Z; [apply anti_x|]. destruct (k =? 1)%Z; [apply anti_y|apply anti_z]. Qed.

Lemma rsh_mats l : let d := (2 * Z.of_nat l + 1)%Z in
  exists x y z, construct_matrices_rsh (Z.of_nat l) (zeros (d * d), zeros (d * d), zeros (d * d)) = Ok (x, y, z) /\
    ismat x (d * d) d d (Wmat 0 l) /\ ismat y (d * d) d d (Wmat 1 l) /\ ismat z (d * d) d d (Wmat 2 l).
Proof.
  intros d. set (L := Z.of_nat l). assert (HL : (0 <= L)%Z) by (unfold L; lia).
  destruct (rsh_ok L (d * d) (zeros (d * d)) (zeros (d * d)) (zeros (d * d)) HL ltac:(unfold d; fold L; lia) eq_refl eq_refl eq_refl)
    as (x & y & z & E & (D1 & G1 & _) & (D2 & G2 & _) & (D3 & G3 & _)).
  exists x, y, z. split; [exact E|].
  assert (P : forall (M : arr R) v w, adims M = adims (zeros (d * d)) ->
     (forall p q, (- L <= p <= L)%Z -> (- L <= q <= L)%Z -> aget M [((p + L) * (2 * L + 1) + (q + L))%Z] = Ok (v p q)) ->
     (forall p q, w p q = v (p - L)%Z (q - L)%Z) -> ismat M (d * d) d d w).
  { intros M v w D G Hw. split; [exact D|]. split; [lia|]. intros i j Hi Hj. unfold d in *. fold L in Hi, Hj. rewrite Hw. rewrite <- G by lia. f_equal. f_equal. fold L. ring. }
  split; [exact (P x _ _ D1 G1 ltac:(reflexivity))|]. split; [exact (P y _ _ D2 G2 ltac:(reflexivity))|exact (P z _ _ D3 G3 ltac:(reflexivity))].
Qed.

(** ** Overlap blocks *)
Definition ovm (LA LB : Z) (A B : R * R * R) (la lb : list (R * R)) (ca cb : list (Z * Z * Z)) (i j : Z) : R :=
  contracted (ov_entry LA LB A B (comp ca i) (comp cb j)) la lb.

Lemma overlap_mat sA sB LA LB A B la lb ca cb M sz : vshell_is sA LA A la ca -> vshell_is sB LB B lb cb ->
  (0 <= LA <= 9)%Z -> (0 <= LB <= 9)%Z -> adims M = [sz] -> (sv_size sA * sv_size sB <= sz)%Z ->
  exists M', overlap_integrals sA sB M = Ok M' /\ ismat M' sz (sv_size sA) (sv_size sB) (ovm LA LB A B la lb ca cb).
Proof.
  intros HA HB HLA HLB D Hsz.
  destruct (overlap_result sA sB LA LB A B la lb ca cb HA HB ltac:(lia) ltac:(lia) M sz ltac:(lia) ltac:(lia) D Hsz) as (M' & E & D' & G & _).
  exists M'. split; [exact E|]. split; [exact D'|]. split; [exact Hsz|]. intros i j Hi Hj.
  destruct HA as (_ & _ & _ & (SA & _) & _). destruct HB as (_ & _ & _ & (SB & _) & _).
  specialize (G (Z.to_nat i) (Z.to_nat j) ltac:(lia) ltac:(lia)). rewrite !Z2Nat.id in G by lia. apply aget_ok; [|exact G].
  rewrite D'. apply inb1. pose proof (index_in _ _ i j Hi Hj). lia.
Qed.

(** the routine t1 fills the matrix of the pair X, Y with f *)
Definition t1_gives (t1 : t1_routine) (X Y : vshell) (C : R * R * R) (pot : vpot) (f : Z -> Z -> R) : Prop :=
  forall M sz, adims M = [sz] -> (sv_size X * sv_size Y <= sz)%Z ->
    exists M', t1 X Y C pot M = Ok M' /\ ismat M' sz (sv_size X) (sv_size Y) f.

(** what an operation does to the four matrices: entries, and nothing outside *)
Definition outside (n : Z) (M M' : arr R) : Prop := forall ix, ~ (exists k, ix = [k] /\ (0 <= k < n)%Z) -> aget M' ix = aget M ix.

Lemma outside_refl n M : outside n M M.
Proof. intros ix _. reflexivity. Qed.

Lemma outside_trans n M1 M2 M3 : outside n M1 M2 -> outside n M2 M3 -> outside n M1 M3.
Proof. intros H1 H2 ix Hix. rewrite (H2 ix Hix). apply H1, Hix. Qed.

Definition four (out : mats) (szs : Z * Z * Z * Z) (na nb : Z) (f : Z -> Z -> Z -> R) : Prop :=
  let '(m0, m1, m2, m3) := out in let '(s0, s1, s2, s3) := szs in
  ismat m0 s0 na nb (f (-1)%Z) /\ ismat m1 s1 na nb (f 0%Z) /\ ismat m2 s2 na nb (f 1%Z) /\ ismat m3 s3 na nb (f 2%Z).

Definition out4 (n : Z) (out out' : mats) : Prop :=
  let '(m0, m1, m2, m3) := out in let '(m0', m1', m2', m3') := out' in
  outside n m0 m0' /\ outside n m1 m1' /\ outside n m2 m2' /\ outside n m3 m3'.

Lemma out4_refl n o : out4 n o o.
Proof. destruct o as [[[a b] c] d]. repeat split; apply outside_refl. Qed.

Lemma out4_trans n o1 o2 o3 : out4 n o1 o2 -> out4 n o2 o3 -> out4 n o1 o3.
Proof.
  destruct o1 as [[[a b] c] d], o2 as [[[a2 b2] c2] d2], o3 as [[[a3 b3] c3] d3]. intros (A & B & C & D) (A' & B' & C' & D').
  split; [eapply outside_trans; eassumption|]. split; [eapply outside_trans; eassumption|]. split; eapply outside_trans; eassumption.
Qed.

Lemma four_ext o szs na nb f g : (forall k i j, (-1 <= k <= 2)%Z -> (0 <= i < na)%Z -> (0 <= j < nb)%Z -> f k i j = g k i j) -> four o szs na nb f -> four o szs na nb g.
Proof.
  intros E. destruct o as [[[a b] c] d], szs as [[[s0 s1] s2] s3]. intros (A & B & C & D).
  split; [eapply ismat_ext; [|exact A]; intros; apply E; lia|]. split; [eapply ismat_ext; [|exact B]; intros; apply E; lia|].
  split; [eapply ismat_ext; [|exact C]; intros; apply E; lia|]. eapply ismat_ext; [|exact D]; intros; apply E; lia.
Qed.

(** spherical components from Cartesian ones *)
Definition to_ket (l : nat) (cs : list (Z * Z * Z)) (f : Z -> Z -> R) (i p : Z) : R := zsum 0 (Z.of_nat (length cs)) (fun c => sph_coef l cs p c * f i c).
Definition to_bra (l : nat) (cs : list (Z * Z * Z)) (f : Z -> Z -> R) (p j : Z) : R := zsum 0 (Z.of_nat (length cs)) (fun c => sph_coef l cs p c * f c j).

(** matrix k of (averaged, x, y, z) for one projector, from <a|m>, <m|b>, <a|U|m>, <m|U|b> *)
Definition first_term (l : nat) (fa fe : R) (Sa Sb Ua Ub : Z -> Z -> R) (k i j : Z) : R :=
  let d := (2 * Z.of_nat l + 1)%Z in
  if (k =? -1)%Z then fa * (mmul d Sa Ub i j + mmul d Ua Sb i j)
  else fe * (mmul d Ua (mmul d (Wmat k l) Sb) i j + mmul d (mmul d Sa (Wmat k l)) Ub i j).

(** and for a pair of projectors *)
Definition second_term (l : nat) (fa fe : R) (delta : R) (Sa Sb : Z -> Z -> R) (k i j : Z) : R :=
  let d := (2 * Z.of_nat l + 1)%Z in
  if (k =? -1)%Z then - (delta * (fa * mmul d Sa Sb i j))
  else - (delta * (fe * mmul d Sa (mmul d (Wmat k l) Sb) i j)).

Lemma moved s L org C prims cs : vshell_is s L org prims cs -> vshell_is (move_shell s C) L C prims cs.
Proof. intros (H1 & _ & H3 & H4 & H5). split; [exact H1|]. split; [reflexivity|]. split; [exact H3|]. split; [exact H4|exact H5]. Qed.

Lemma mmul_ext d f f' g g' i j : (forall k, (0 <= k < d)%Z -> f i k = f' i k) -> (forall k, (0 <= k < d)%Z -> g k j = g' k j) -> mmul d f g i j = mmul d f' g' i j.
Proof. intros E1 E2. unfold mmul. apply zsum_ext. intros k Hk. rewrite E1, E2 by exact Hk. reflexivity. Qed.

Section Parts.
Variables (t1 : t1_routine) (A B : vshell) (C : R * R * R) (LA LB : Z) (oA oB : R * R * R) (la lb : list (R * R)) (ca cb : list (Z * Z * Z)).
Hypothesis HA : vshell_is A LA oA la ca.
Hypothesis HB : vshell_is B LB oB lb cb.
Hypothesis HLA : (0 <= LA <= 9)%Z.
Hypothesis HLB : (0 <= LB <= 9)%Z.

Let na := sv_size A.
Let nb := sv_size B.

Lemma sizes_pos : (0 <= na)%Z /\ (0 <= nb)%Z.
Proof. destruct HA as (_ & _ & _ & (SA & _) & _). destruct HB as (_ & _ & _ & (SB & _) & _). unfold na, nb. lia. Qed.

Lemma part_1_ok pot oc l o prims cs ta tb out szs f : vshell_is oc (Z.of_nat l) o prims cs -> (l <= 9)%nat ->
  t1_gives t1 (move_shell oc C) B C pot tb -> t1_gives t1 A (move_shell oc C) C pot ta -> four out szs na nb f ->
  exists out', outercore_part_1 t1 A B C pot oc out = Ok out' /\ out4 (na * nb) out out' /\
    four out' szs na nb (fun k i j => f k i j + first_term l (arep_factor pot (Z.of_nat l)) (esop_factor pot (Z.of_nat l))
      (to_ket l cs (ovm LA (Z.of_nat l) oA C la prims ca cs)) (to_bra l cs (ovm (Z.of_nat l) LB C oB prims lb cs cb)) (to_ket l cs ta) (to_bra l cs tb) k i j).
Proof.
  intros Hoc Hl Htb Hta Hf. destruct out as [[[arep sx] sy] sz], szs as [[[s0 s1] s2] s3]. destruct Hf as (F0 & F1 & F2 & F3).
  pose proof (moved _ _ _ C _ _ Hoc) as Hm. destruct sizes_pos as (Na & Nb).
  assert (EL : sv_L oc = Z.of_nat l) by apply Hoc. assert (Sz : sv_size oc = Z.of_nat (length cs)) by apply Hoc.
  assert (Sm : sv_size (move_shell oc C) = Z.of_nat (length cs)) by exact Sz.
  unfold outercore_part_1. rewrite EL. cbv zeta. fold na nb. rewrite Sz. set (L := Z.of_nat l) in *. set (d := (2 * L + 1)%Z).
  set (n := Z.of_nat (length cs)) in *. assert (Hd : (0 <= d)%Z) by (unfold d, L; lia). assert (Hn : (0 <= n)%Z) by (unfold n; lia).
  destruct (sph_coefs_ok l (move_shell oc C) cs ltac:(lia)) as (SC & E1 & M1); [apply Hm|apply Hm|]. fold L in E1, M1. rewrite E1, bind_ok.
  rewrite Sm in M1. fold d in M1.
  destruct (overlap_mat (move_shell oc C) B L LB C oB prims lb cs cb (zeros (n * nb)) (n * nb) Hm HB ltac:(unfold L; lia) HLB eq_refl) as (Sbc & E2 & M2); [rewrite Sm; fold nb; lia|].
  rewrite E2, bind_ok. rewrite Sm in M2. fold nb in M2.
  destruct (overlap_mat A (move_shell oc C) LA L oA C la prims ca cs (zeros (na * n)) (na * n) HA Hm HLA ltac:(unfold L; lia) eq_refl) as (Sac & E3 & M3); [rewrite Sm; fold na; lia|].
  rewrite E3, bind_ok. rewrite Sm in M3. fold na in M3.
  destruct (ket_mat na n d Sac (zeros (na * d)) SC _ (na * d) _ _ _ Na Hn Hd M3 M1 eq_refl ltac:(lia)) as (Sa & E4 & M4). rewrite E4, bind_ok.
  destruct (bra_mat n d nb Sbc (zeros (d * nb)) SC _ (d * nb) _ _ _ Hn Hd Nb M2 M1 eq_refl ltac:(lia)) as (Sb & E5 & M5). rewrite E5, bind_ok.
  destruct (Htb (zeros (n * nb)) (n * nb)%Z eq_refl) as (Ubc & E6 & M6); [rewrite Sm; fold nb; lia|]. rewrite E6, bind_ok. rewrite Sm in M6. fold nb in M6.
  destruct (Hta (zeros (na * n)) (na * n)%Z eq_refl) as (Uac & E7 & M7); [rewrite Sm; fold na; lia|]. rewrite E7, bind_ok. rewrite Sm in M7. fold na in M7.
  destruct (ket_mat na n d Uac (zeros (na * d)) SC _ (na * d) _ _ _ Na Hn Hd M7 M1 eq_refl ltac:(lia)) as (Ua & E8 & M8). rewrite E8, bind_ok.
  destruct (bra_mat n d nb Ubc (zeros (d * nb)) SC _ (d * nb) _ _ _ Hn Hd Nb M6 M1 eq_refl ltac:(lia)) as (Ub & E9 & M9). rewrite E9, bind_ok.
  fold (to_ket l cs (ovm LA L oA C la prims ca cs)) in M4. fold (to_bra l cs (ovm L LB C oB prims lb cs cb)) in M5. fold (to_ket l cs ta) in M8. fold (to_bra l cs tb) in M9.
  set (fSa := to_ket l cs (ovm LA L oA C la prims ca cs)) in *. set (fSb := to_bra l cs (ovm L LB C oB prims lb cs cb)) in *. set (fUa := to_ket l cs ta) in *. set (fUb := to_bra l cs tb) in *.
  change (ismat Sa (na * d) na d fSa) in M4. change (ismat Sb (d * nb) d nb fSb) in M5. change (ismat Ua (na * d) na d fUa) in M8. change (ismat Ub (d * nb) d nb fUb) in M9.
  clearbody fSa fSb fUa fUb.
  destruct (mul_mat na nb d Sa Ub (zeros (na * nb)) _ _ _ _ _ _ Na Nb Hd M4 M9 (zeros_mat na nb Na Nb)) as (buf & E10 & M10). rewrite E10, bind_ok.
  destruct (mul_mat na nb d Ua Sb buf _ _ _ _ _ _ Na Nb Hd M8 M5 M10) as (buf2 & E11 & M11). rewrite E11, bind_ok.
  destruct (daxpy_mat na nb (arep_factor pot L) buf2 arep _ _ _ _ Na Nb M11 F0) as (arep' & E12 & M12 & O12). rewrite E12, bind_ok.
  destruct (rsh_mats l) as (lx & ly & lz & E13 & X1 & X2 & X3). cbv zeta in X1, X2, X3, E13. fold L d in E13, X1, X2, X3. rewrite E13, bind_ok.
  assert (SO : forall lk k b (bsz : Z) sbuf, ismat lk (d * d) d d (Wmat k l) -> adims b = [bsz] -> (d * nb <= bsz)%Z -> (d * na <= bsz)%Z -> ismat sbuf (na * nb) na nb (fun _ _ => 0) ->
     exists b' s', so_first d na nb Sa Sb Ua Ub lk b sbuf = Ok (b', s') /\ adims b' = [bsz] /\
       ismat s' (na * nb) na nb (fun i j => mmul d fUa (mmul d (Wmat k l) fSb) i j + mmul d (mmul d fSa (Wmat k l)) fUb i j)).
  { intros lk k b bsz sbuf Hlk Db Hb1 Hb2 Hs. unfold so_first.
    destruct (memset_mat b bsz d nb Db Hd Nb Hb1) as (b1 & Q1 & P1). rewrite Q1, bind_ok.
    destruct (mul_mat d nb d lk Sb b1 _ _ _ _ _ _ Hd Nb Hd Hlk M5 P1) as (b2 & Q2 & P2). rewrite Q2, bind_ok.
    destruct (mul_mat na nb d Ua b2 sbuf _ _ _ _ _ _ Na Nb Hd M8 P2 Hs) as (t & Q3 & P3). rewrite Q3, bind_ok.
    destruct (memset_mat b2 bsz d na (proj1 P2) Hd Na Hb2) as (b3 & Q4 & P4). rewrite Q4, bind_ok.
    assert (P4' : ismat b3 bsz na d (fun _ _ => 0)).
    { destruct (memset0_get (d * na) bsz b2 (proj1 P2) ltac:(nia)) as (b3' & Q4' & D4 & G4 & _). rewrite Q4 in Q4'. injection Q4' as <-.
      split; [exact D4|]. split; [lia|]. intros i j Hi Hj. apply G4. pose proof (index_in na d i j Hi Hj). lia. }
    destruct (mul_mat na d d Sa lk b3 _ _ _ _ _ _ Na Hd Hd M4 Hlk P4') as (b4 & Q5 & P5). rewrite Q5, bind_ok.
    destruct (mul_mat na nb d b4 Ub t _ _ _ _ _ _ Na Nb Hd P5 M9 P3) as (t2 & Q6 & P6). rewrite Q6, bind_ok.
    exists b4, t2. split; [reflexivity|]. split; [apply P5|]. eapply ismat_ext; [|exact P6]. intros i j Hi Hj. cbv beta.
    rewrite Rplus_0_l. f_equal; apply mmul_ext; intros; ring. }
  assert (Mx : (d * nb <= d * Z.max na nb)%Z /\ (d * na <= d * Z.max na nb)%Z) by nia. destruct Mx as (Mx1 & Mx2).
  destruct (SO lx 0%Z (zeros (d * Z.max na nb)) (d * Z.max na nb)%Z (zeros (na * nb)) X1 eq_refl Mx1 Mx2 (zeros_mat na nb Na Nb)) as (b1 & s1' & Q1 & Db1 & P1).
  rewrite Q1, bind_ok.
  destruct (SO ly 1%Z b1 _ (zeros (na * nb)) X2 Db1 Mx1 Mx2 (zeros_mat na nb Na Nb)) as (b2 & s2' & Q2 & Db2 & P2). rewrite Q2, bind_ok.
  destruct (SO lz 2%Z b2 _ (zeros (na * nb)) X3 Db2 Mx1 Mx2 (zeros_mat na nb Na Nb)) as (b3 & s3' & Q3 & Db3 & P3). rewrite Q3, bind_ok.
  destruct (daxpy_mat na nb (esop_factor pot L) s1' sx _ _ _ _ Na Nb P1 F1) as (sx' & E14 & M14 & O14). rewrite E14, bind_ok.
  destruct (daxpy_mat na nb (esop_factor pot L) s2' sy _ _ _ _ Na Nb P2 F2) as (sy' & E15 & M15 & O15). rewrite E15, bind_ok.
  destruct (daxpy_mat na nb (esop_factor pot L) s3' sz _ _ _ _ Na Nb P3 F3) as (sz' & E16 & M16 & O16). rewrite E16, bind_ok.
  eexists. split; [reflexivity|]. split; [exact (conj O12 (conj O14 (conj O15 O16)))|].
  unfold four, first_term. fold L d. change (0 =? -1)%Z with false. change (1 =? -1)%Z with false. change (2 =? -1)%Z with false. change (-1 =? -1)%Z with true. cbv iota.
  split; [|split; [|split]].
  - eapply ismat_ext; [|exact M12]. intros i j Hi Hj. cbv beta. ring.
  - exact M14.
  - exact M15.
  - exact M16.
Qed.

Lemma part_2_ok pot1 pot2 oc1 oc2 l o1 o2 prims1 prims2 cs delta out szs f : vshell_is oc1 (Z.of_nat l) o1 prims1 cs -> vshell_is oc2 (Z.of_nat l) o2 prims2 cs -> (l <= 9)%nat ->
  pv_L pot1 = Z.of_nat l -> pv_L pot2 = Z.of_nat l -> pv_J pot1 = pv_J pot2 ->
  calculate_delta_integral pot1 (move_shell oc1 C) pot2 (move_shell oc2 C) = Ok delta -> four out szs na nb f ->
  exists out', outercore_part_2 A B C pot1 oc1 pot2 oc2 out = Ok out' /\ out4 (na * nb) out out' /\
    four out' szs na nb (fun k i j => f k i j + second_term l (arep_factor pot1 (Z.of_nat l)) (esop_factor pot1 (Z.of_nat l)) delta
      (to_ket l cs (ovm LA (Z.of_nat l) oA C la prims1 ca cs)) (to_bra l cs (ovm (Z.of_nat l) LB C oB prims2 lb cs cb)) k i j).
Proof.
  intros Hoc1 Hoc2 Hl P1L P2L HJ Hdel Hf. destruct out as [[[arep sx] sy] sz], szs as [[[s0 s1] s2] s3]. destruct Hf as (F0 & F1 & F2 & F3).
  pose proof (moved _ _ _ C _ _ Hoc1) as Hm1. pose proof (moved _ _ _ C _ _ Hoc2) as Hm2. destruct sizes_pos as (Na & Nb).
  assert (Sm1 : sv_size (move_shell oc1 C) = Z.of_nat (length cs)) by apply Hm1. assert (Sm2 : sv_size (move_shell oc2 C) = Z.of_nat (length cs)) by apply Hm2.
  unfold outercore_part_2. rewrite HJ, P1L, P2L, !Z.eqb_refl. cbn [negb]. cbv zeta. rewrite Hdel, bind_ok. fold na nb. rewrite Sm1. set (L := Z.of_nat l) in *. set (d := (2 * L + 1)%Z).
  set (n := Z.of_nat (length cs)) in *. assert (Hd : (0 <= d)%Z) by (unfold d, L; lia). assert (Hn : (0 <= n)%Z) by (unfold n; lia).
  destruct (sph_coefs_ok l (move_shell oc1 C) cs ltac:(lia)) as (SC & E1 & M1); [apply Hm1|apply Hm1|]. fold L in E1, M1. rewrite E1, bind_ok.
  rewrite Sm1 in M1. fold d in M1.
  destruct (overlap_mat (move_shell oc2 C) B L LB C oB prims2 lb cs cb (zeros (n * nb)) (n * nb) Hm2 HB ltac:(unfold L; lia) HLB eq_refl) as (Sbc & E2 & M2); [rewrite Sm2; fold nb; lia|].
  rewrite E2, bind_ok. rewrite Sm2 in M2. fold nb in M2.
  destruct (overlap_mat A (move_shell oc1 C) LA L oA C la prims1 ca cs (zeros (na * n)) (na * n) HA Hm1 HLA ltac:(unfold L; lia) eq_refl) as (Sac & E3 & M3); [rewrite Sm1; fold na; lia|].
  rewrite E3, bind_ok. rewrite Sm1 in M3. fold na in M3.
  destruct (ket_mat na n d Sac (zeros (na * d)) SC _ (na * d) _ _ _ Na Hn Hd M3 M1 eq_refl ltac:(lia)) as (Sa & E4 & M4). rewrite E4, bind_ok.
  destruct (bra_mat n d nb Sbc (zeros (d * nb)) SC _ (d * nb) _ _ _ Hn Hd Nb M2 M1 eq_refl ltac:(lia)) as (Sb & E5 & M5). rewrite E5, bind_ok.
  set (fSa := to_ket l cs (ovm LA L oA C la prims1 ca cs)) in *. set (fSb := to_bra l cs (ovm L LB C oB prims2 lb cs cb)) in *.
  change (ismat Sa (na * d) na d fSa) in M4. change (ismat Sb (d * nb) d nb fSb) in M5.
  clearbody fSa fSb.
  destruct (mul_mat na nb d Sa Sb (zeros (na * nb)) _ _ _ _ _ _ Na Nb Hd M4 M5 (zeros_mat na nb Na Nb)) as (buf & E10 & M10). rewrite E10, bind_ok.
  destruct (daxpy_mat na nb (-1 * delta * arep_factor pot1 L) buf arep _ _ _ _ Na Nb M10 F0) as (arep' & E12 & M12 & O12). rewrite E12, bind_ok.
  destruct (rsh_mats l) as (lx & ly & lz & E13 & X1 & X2 & X3). cbv zeta in X1, X2, X3, E13. fold L d in E13, X1, X2, X3. rewrite E13, bind_ok.
  assert (SO : forall lk k b (bsz : Z) sbuf, ismat lk (d * d) d d (Wmat k l) -> adims b = [bsz] -> (d * nb <= bsz)%Z -> ismat sbuf (na * nb) na nb (fun _ _ => 0) ->
     exists b' s', so_second d na nb Sa Sb lk b sbuf = Ok (b', s') /\ adims b' = [bsz] /\
       ismat s' (na * nb) na nb (fun i j => mmul d fSa (mmul d (Wmat k l) fSb) i j)).
  { intros lk k b bsz sbuf Hlk Db Hb1 Hs. unfold so_second.
    destruct (memset_mat b bsz d nb Db Hd Nb Hb1) as (b1 & Q1 & P1). rewrite Q1, bind_ok.
    destruct (mul_mat d nb d lk Sb b1 _ _ _ _ _ _ Hd Nb Hd Hlk M5 P1) as (b2 & Q2 & P2). rewrite Q2, bind_ok.
    destruct (mul_mat na nb d Sa b2 sbuf _ _ _ _ _ _ Na Nb Hd M4 P2 Hs) as (t & Q3 & P3). rewrite Q3, bind_ok.
    exists b2, t. split; [reflexivity|]. split; [apply P2|]. eapply ismat_ext; [|exact P3]. intros i j Hi Hj. cbv beta.
    rewrite Rplus_0_l. apply mmul_ext; intros; ring. }
  destruct (SO lx 0%Z (zeros (d * nb)) (d * nb)%Z (zeros (na * nb)) X1 eq_refl ltac:(lia) (zeros_mat na nb Na Nb)) as (b1 & s1' & Q1 & Db1 & P1).
  rewrite Q1, bind_ok.
  destruct (SO ly 1%Z b1 _ (zeros (na * nb)) X2 Db1 ltac:(lia) (zeros_mat na nb Na Nb)) as (b2 & s2' & Q2 & Db2 & P2). rewrite Q2, bind_ok.
  destruct (SO lz 2%Z b2 _ (zeros (na * nb)) X3 Db2 ltac:(lia) (zeros_mat na nb Na Nb)) as (b3 & s3' & Q3 & Db3 & P3). rewrite Q3, bind_ok.
  destruct (daxpy_mat na nb (-1 * delta * esop_factor pot1 L) s1' sx _ _ _ _ Na Nb P1 F1) as (sx' & E14 & M14 & O14). rewrite E14, bind_ok.
  destruct (daxpy_mat na nb (-1 * delta * esop_factor pot1 L) s2' sy _ _ _ _ Na Nb P2 F2) as (sy' & E15 & M15 & O15). rewrite E15, bind_ok.
  destruct (daxpy_mat na nb (-1 * delta * esop_factor pot1 L) s3' sz _ _ _ _ Na Nb P3 F3) as (sz' & E16 & M16 & O16). rewrite E16, bind_ok.
  eexists. split; [reflexivity|]. split; [exact (conj O12 (conj O14 (conj O15 O16)))|].
  unfold four, second_term. fold L d. change (0 =? -1)%Z with false. change (1 =? -1)%Z with false. change (2 =? -1)%Z with false. change (-1 =? -1)%Z with true. cbv iota.
  split; [|split; [|split]]; (eapply ismat_ext; [|eassumption]; intros i j Hi Hj; cbv beta; ring).
Qed.

Lemma part_2_skip pot1 pot2 oc1 oc2 out : pv_L pot1 <> pv_L pot2 \/ pv_J pot1 <> pv_J pot2 -> outercore_part_2 A B C pot1 oc1 pot2 oc2 out = Ok out.
Proof.
  intros H. unfold outercore_part_2. destruct out as [[[a b] c] d]. destruct (Z.eqb_spec (pv_L pot1) (pv_L pot2)) as [e1|]; cbn [negb]; [|reflexivity].
  destruct (Z.eqb_spec (pv_J pot1) (pv_J pot2)) as [e2|]; cbn [negb]; [|reflexivity]. destruct H as [H|H]; [destruct (H e1)|destruct (H e2)].
Qed.
End Parts.
