(** * The auxiliary arrays of the 1/r and 1/r^2 integrals *)

From Coq Require Import ZArith List Lia Bool Reals Lra.
From Coquelicot Require Import Coquelicot.
From Verif Require Import Base Loops Sums GaussInt GaussProd HeapModel OneElModel OneElProofs OneElInt LmatModel SpecModel SpecSpec SpecBoys OutercoreModel MmdModel MmdSpec MmdE.
Import ListNotations.
Open Scope R_scope.

(** H_0 = g, H_(k+1) = k sh H_(k-1) + X sh H_k *)
Fixpoint hrec (sh : (nat -> R) -> nat -> R) (X : R) (g : nat -> R) (k : nat) : nat -> R :=
  match k with
  | O => g
  | S k' => match k' with
            | O => fun n => X * sh g n
            | S k'' => fun n => INR k' * sh (hrec sh X g k'') n + X * sh (hrec sh X g k') n
            end
  end.

Lemma hrec_SS sh X g k n : hrec sh X g (S (S k)) n = INR (S k) * sh (hrec sh X g k) n + X * sh (hrec sh X g (S k)) n.
Proof. reflexivity. Qed.
Lemma hrec_S sh X g k n : hrec sh X g (S k) n = INR k * sh (hrec sh X g (pred k)) n + X * sh (hrec sh X g k) n.
Proof. destruct k as [|k]; [cbn [hrec INR pred]; ring|apply hrec_SS]. Qed.

Definition raux (sh : (nat -> R) -> nat -> R) (X Y Z : R) (base : nat -> R) (t u v : nat) : nat -> R :=
  hrec sh X (hrec sh Y (hrec sh Z base v) u) t.

Section Aux.
Variables (d : mmd_data) (L_A L_B : Z) (base : Z -> res R) (red : arr R -> Z -> Z -> Z -> Z -> res R).
Variables (sh : (nat -> R) -> nat -> R) (b : nat -> R).
Let X := coord3 (md_Q d) 0 - coord3 (md_C d) 0.
Let Y := coord3 (md_Q d) 1 - coord3 (md_C d) 1.
Let Zc := coord3 (md_Q d) 2 - coord3 (md_C d) 2.
Let L := (L_A + L_B)%Z.

Definition auxv (t u v n : Z) : R := raux sh (coord3 (md_Q d) 0 - coord3 (md_C d) 0) (coord3 (md_Q d) 1 - coord3 (md_C d) 1) (coord3 (md_Q d) 2 - coord3 (md_C d) 2) b (Z.to_nat t) (Z.to_nat u) (Z.to_nat v) (Z.to_nat n).

Lemma setup_aux_ok : (0 <= L_A <= 9)%Z -> (0 <= L_B <= 9)%Z ->
  (forall n, (0 <= n <= L)%Z -> base n = Ok (b (Z.to_nat n))) ->
  (forall Rr t u v n (f : nat -> R), (0 <= n)%Z -> aget Rr [t; u; v; n + 1]%Z = Ok (f (Z.to_nat (n + 1))) -> aget Rr [t; u; v; n] = Ok (f (Z.to_nat n)) ->
     red Rr t u v n = Ok (sh f (Z.to_nat n))) ->
  exists Rr, setup_aux d L_A L_B base red = Ok Rr /\
    forall t u v n, (0 <= t)%Z -> (0 <= u)%Z -> (0 <= v)%Z -> (0 <= n)%Z -> (t + u + v + n <= L)%Z -> aget Rr [t; u; v; n] = Ok (auxv t u v n).
Proof.
  intros HA HB Hbase Hred. unfold setup_aux. cbv zeta. fold L X Y Zc.
  assert (HL : (0 <= L <= 18)%Z) by (unfold L; lia).
  pose (before := fun t u v n t' u' v' n' : Z => (t' < t \/ t' = t /\ (u' < u \/ u' = u /\ (v' < v \/ v' = v /\ n' < n)))%Z).
  pose (Inv := fun t u v n (E : arr R) => adims E = [20; 20; 20; 20]%Z /\ forall t' u' v' n', (0 <= t')%Z -> (0 <= u')%Z -> (0 <= v')%Z -> (0 <= n')%Z -> (t' + u' + v' + n' <= L)%Z ->
     before t u v n t' u' v' n' -> aget E [t'; u'; v'; n'] = Ok (auxv t' u' v' n')).
  match goal with |- context [for_range 0 (L + 1) ?bb ?s] => destruct (for_range_ok (fun t E => Inv t 0%Z 0%Z 0%Z E) 0 (L + 1) bb s) as (E & EE & DD & HH) end.
  - lia.
  - split; [reflexivity|]. unfold before. intros; lia.
  - intros t E Ht HI.
    match goal with |- context [for_range 0 (L + 1) ?bb ?s] => destruct (for_range_ok (fun u E => Inv t u 0%Z 0%Z E) 0 (L + 1) bb s) as (E1 & EE1 & DD1 & HH1) end.
    + lia.
    + exact HI.
    + clear E HI. intros u E Hu HI.
      match goal with |- context [for_range 0 (L + 1) ?bb ?s] => destruct (for_range_ok (fun v E => Inv t u v 0%Z E) 0 (L + 1) bb s) as (E2 & EE2 & DD2 & HH2) end.
      * lia.
      * exact HI.
      * clear E HI. intros v E Hv HI. rewrite Z.gtb_ltb. destruct (Z.ltb_spec L (t + u + v)) as [Hbig|Hsm].
        { exists E. split; [reflexivity|]. destruct HI as (DE & HE). split; [exact DE|]. intros t' u' v' n' H1 H2 H3 H4 H5 Hb. apply HE; [assumption..|]. unfold before in *. lia. }
        match goal with |- context [for_range 0 (L - (t + u + v) + 1) ?bb ?s] => destruct (for_range_ok (fun n E => Inv t u v n E) 0 (L - (t + u + v) + 1) bb s) as (E3 & EE3 & DD3 & HH3) end.
        -- lia.
        -- exact HI.
        -- clear E HI. intros n E Hn (DE & HE).
           assert (Fin : forall x, x = auxv t u v n -> exists E', aset E [t; u; v; n] x = Ok E' /\ Inv t u v (n + 1)%Z E').
           { intros x ->. destruct (aset_get E [t; u; v; n] (auxv t u v n)) as (E' & Ea & Da & Ga & Fa).
             { rewrite DE. apply inb4; lia. }
             exists E'. split; [exact Ea|]. split; [congruence|]. intros t' u' v' n' H1 H2 H3 H4 H5 Hb.
             destruct (Z.eq_dec t' t) as [-> | N1]; [destruct (Z.eq_dec u' u) as [-> | N2]; [destruct (Z.eq_dec v' v) as [-> | N3]; [destruct (Z.eq_dec n' n) as [-> | N4]; [exact Ga|]|]|]|];
               (rewrite Fa by congruence; apply HE; [assumption..|]; unfold before in *; lia). }
           assert (Rd : forall t' u' v', (0 <= t')%Z -> (0 <= u')%Z -> (0 <= v')%Z -> (t' + u' + v' < t + u + v)%Z -> (t' < t \/ t' = t /\ (u' < u \/ u' = u /\ v' < v))%Z ->
              red E t' u' v' n = Ok (sh (fun k => auxv t' u' v' (Z.of_nat k)) (Z.to_nat n))).
           { intros t' u' v' H1 H2 H3 H4 H5. apply (Hred E t' u' v' n (fun k => auxv t' u' v' (Z.of_nat k))); [lia| |]; rewrite Z2Nat.id by lia; apply HE; try lia; unfold before; lia. }
           assert (HS : forall k : Z, (0 < k)%Z -> Z.to_nat k = S (Z.to_nat (k - 1))) by (intros k Hk; rewrite <- Z2Nat.inj_succ by lia; f_equal; lia).
           assert (Eta : forall t' u' v', (fun k => auxv t' u' v' (Z.of_nat k)) = raux sh X Y Zc b (Z.to_nat t') (Z.to_nat u') (Z.to_nat v')).
           { intros t' u' v'. apply FunctionalExtensionality.functional_extensionality. intros k. unfold auxv. rewrite Nat2Z.id. reflexivity. }
           destruct (Z.eqb_spec (t + u + v) 0) as [E0|E0].
           { rewrite (Hbase n) by lia. rewrite bind_ok. apply Fin. unfold auxv. replace t with 0%Z by lia. replace u with 0%Z by lia. replace v with 0%Z by lia. reflexivity. }
           destruct (Z.eqb_spec (t + u) 0) as [E1|E1].
           { assert (t = 0)%Z by lia. assert (u = 0)%Z by lia. subst t u. rewrite (Rd 0%Z 0%Z (v - 1)%Z) by lia. rewrite Z.gtb_ltb.
             assert (V : auxv 0 0 v n = (if (1 <? v)%Z then IZR (v - 1) * sh (fun k => auxv 0 0 (v - 2) (Z.of_nat k)) (Z.to_nat n) else 0) + Zc * sh (fun k => auxv 0 0 (v - 1) (Z.of_nat k)) (Z.to_nat n)).
             { rewrite !Eta. unfold auxv, raux. change (Z.to_nat 0) with 0%nat. cbn [hrec]. rewrite (HS v) by lia. rewrite hrec_S. destruct (Z.ltb_spec 1 v) as [Hv1|Hv1].
               - rewrite INR_IZR_INZ, Z2Nat.id by lia. replace (Z.to_nat (v - 2)) with (pred (Z.to_nat (v - 1))) by lia. reflexivity.
               - replace (v - 1)%Z with 0%Z by lia. change (Z.to_nat 0) with 0%nat. cbn [INR]. fold Zc. ring. }
             destruct (Z.ltb_spec 1 v) as [Hv1|Hv1].
             - rewrite (Rd 0%Z 0%Z (v - 2)%Z) by lia. rewrite !bind_ok. apply Fin. rewrite V. ring.
             - rewrite !bind_ok. apply Fin. rewrite V. ring. }
           destruct (Z.eqb_spec t 0) as [E2|E2].
           { subst t. rewrite (Rd 0%Z (u - 1)%Z v) by lia. rewrite Z.gtb_ltb.
             assert (V : auxv 0 u v n = (if (1 <? u)%Z then IZR (u - 1) * sh (fun k => auxv 0 (u - 2) v (Z.of_nat k)) (Z.to_nat n) else 0) + Y * sh (fun k => auxv 0 (u - 1) v (Z.of_nat k)) (Z.to_nat n)).
             { rewrite !Eta. unfold auxv, raux. change (Z.to_nat 0) with 0%nat. cbn [hrec]. rewrite (HS u) by lia. rewrite hrec_S. destruct (Z.ltb_spec 1 u) as [Hv1|Hv1].
               - rewrite INR_IZR_INZ, Z2Nat.id by lia. replace (Z.to_nat (u - 2)) with (pred (Z.to_nat (u - 1))) by lia. reflexivity.
               - replace (u - 1)%Z with 0%Z by lia. change (Z.to_nat 0) with 0%nat. cbn [INR]. fold Y. fold Zc. ring. }
             destruct (Z.ltb_spec 1 u) as [Hv1|Hv1].
             - rewrite (Rd 0%Z (u - 2)%Z v) by lia. rewrite !bind_ok. apply Fin. rewrite V. ring.
             - rewrite !bind_ok. apply Fin. rewrite V. ring. }
           rewrite (Rd (t - 1)%Z u v) by lia. rewrite Z.gtb_ltb.
           assert (V : auxv t u v n = (if (1 <? t)%Z then IZR (t - 1) * sh (fun k => auxv (t - 2) u v (Z.of_nat k)) (Z.to_nat n) else 0) + X * sh (fun k => auxv (t - 1) u v (Z.of_nat k)) (Z.to_nat n)).
           { rewrite !Eta. unfold auxv, raux. rewrite (HS t) by lia. rewrite hrec_S. destruct (Z.ltb_spec 1 t) as [Hv1|Hv1].
             - rewrite INR_IZR_INZ, Z2Nat.id by lia. replace (Z.to_nat (t - 2)) with (pred (Z.to_nat (t - 1))) by lia. reflexivity.
             - replace (t - 1)%Z with 0%Z by lia. change (Z.to_nat 0) with 0%nat. cbn [INR]. fold X Y Zc. ring. }
           destruct (Z.ltb_spec 1 t) as [Hv1|Hv1].
           ++ rewrite (Rd (t - 2)%Z u v) by lia. rewrite !bind_ok. apply Fin. rewrite V. ring.
           ++ rewrite !bind_ok. apply Fin. rewrite V. ring.
        -- exists E3. split; [exact EE3|]. split; [exact DD3|]. intros t' u' v' n' H1 H2 H3 H4 H5 Hb. apply HH3; [assumption..|]. unfold before in *. lia.
      * exists E2. split; [exact EE2|]. split; [exact DD2|]. intros t' u' v' n' H1 H2 H3 H4 H5 Hb. apply HH2; [assumption..|]. unfold before in *. lia.
    + exists E1. split; [exact EE1|]. split; [exact DD1|]. intros t' u' v' n' H1 H2 H3 H4 H5 Hb. apply HH1; [assumption..|]. unfold before in *. lia.
  - exists E. split; [exact EE|]. intros t u v n H1 H2 H3 H4 H5. apply HH; [assumption..|]. unfold before. lia.
Qed.
End Aux.

(** the two shift operators *)
Definition shR (f : nat -> R) (n : nat) : R := f (S n).
Definition shG (q : R) (f : nat -> R) (n : nat) : R := f (S n) - 2 * q * f n.

Definition vals_are (b : arr R) (L : Z) (f : nat -> R) : Prop := forall n, (0 <= n <= L)%Z -> aget b [n] = Ok (f (Z.to_nat n)).

Definition Rv (d : mmd_data) (f : nat -> R) : Z -> Z -> Z -> Z -> R := auxv d shR (fun n => (-2 * md_q d) ^ n * f n).
Definition Gv (d : mmd_data) (f : nat -> R) : Z -> Z -> Z -> Z -> R := auxv d (shG (md_q d)) (fun n => (2 * md_q d) ^ n * f n).

Lemma setup_R_ok d bs L_A L_B f : (0 <= L_A <= 9)%Z -> (0 <= L_B <= 9)%Z -> vals_are bs (L_A + L_B) f ->
  exists Rr, setup_R_array d bs L_A L_B = Ok Rr /\
    forall t u v n, (0 <= t)%Z -> (0 <= u)%Z -> (0 <= v)%Z -> (0 <= n)%Z -> (t + u + v + n <= L_A + L_B)%Z -> aget Rr [t; u; v; n] = Ok (Rv d f t u v n).
Proof.
  intros HA HB Hf. unfold setup_R_array, Rv. cbv zeta. apply setup_aux_ok; [exact HA|exact HB| |].
  - intros n Hn. rewrite Hf by exact Hn. rewrite bind_ok. rewrite <- (Z2Nat.id n) at 1 by lia. rewrite <- pow_powerRZ. reflexivity.
  - intros Rr t u v n g Hn H1 _. rewrite H1. unfold shR. do 2 f_equal. lia.
Qed.

Lemma setup_G_ok d bs L_A L_B f : (0 <= L_A <= 9)%Z -> (0 <= L_B <= 9)%Z -> vals_are bs (L_A + L_B) f ->
  exists Rr, setup_G_array d bs L_A L_B = Ok Rr /\
    forall t u v n, (0 <= t)%Z -> (0 <= u)%Z -> (0 <= v)%Z -> (0 <= n)%Z -> (t + u + v + n <= L_A + L_B)%Z -> aget Rr [t; u; v; n] = Ok (Gv d f t u v n).
Proof.
  intros HA HB Hf. unfold setup_G_array, Gv. cbv zeta. apply setup_aux_ok; [exact HA|exact HB| |].
  - intros n Hn. rewrite Hf by exact Hn. rewrite bind_ok. rewrite <- (Z2Nat.id n) at 1 by lia. rewrite <- pow_powerRZ. reflexivity.
  - intros Rr t u v n g Hn H1 H2. rewrite H1, H2, !bind_ok. unfold shG. replace (Z.to_nat (n + 1)) with (S (Z.to_nat n)) by lia. reflexivity.
Qed.

(** ** Integral representation *)

Lemma cont_hpol (m : R -> R) X k : (forall s, continuous m s) -> forall s, continuous (fun s => hpol (m s) X k) s /\ continuous (fun s => hpol (m s) X (S k)) s.
Proof.
  intros Hm. induction k as [|k IH]; intros s.
  - split; [apply continuous_const_R|]. cbn [hpol]. apply continuous_mult_R; [apply Hm|apply continuous_const_R].
  - destruct (IH s) as (I1 & I2). split; [exact I2|].
    apply (continuous_ext (fun s => m s * (INR (S k) * hpol (m s) X k + X * hpol (m s) X (S k)))); [intros y; symmetry; apply hpol_SS|].
    apply continuous_mult_R; [apply Hm|]. apply continuous_plus_R; (apply continuous_mult_R; [apply continuous_const_R|assumption]).
Qed.

Lemma RInt_scal_R (f : R -> R) k a b : ex_RInt f a b -> RInt (fun s => k * f s) a b = k * RInt f a b.
Proof. intros H. exact (RInt_scal (V := R_CompleteNormedModule) f a b k H). Qed.
Lemma RInt_plus_R (f g : R -> R) a b : ex_RInt f a b -> ex_RInt g a b -> RInt (fun s => f s + g s) a b = RInt f a b + RInt g a b.
Proof. intros H1 H2. exact (RInt_plus (V := R_CompleteNormedModule) f g a b H1 H2). Qed.
Lemma ex_RInt_scal_R (f : R -> R) k a b : ex_RInt f a b -> ex_RInt (fun s => k * f s) a b.
Proof. intros H. exact (ex_RInt_scal (V := R_NormedModule) f a b k H). Qed.
Lemma ex_RInt_cont (f : R -> R) a b : (forall s, continuous f s) -> ex_RInt f a b.
Proof. intros H. apply (ex_RInt_continuous (V := R_CompleteNormedModule)). intros s _. apply H. Qed.

Section Moments.
Variables (p m : R -> R) (sh : (nat -> R) -> nat -> R).
Hypothesis Hp : forall s, continuous p s.
Hypothesis Hm : forall s, continuous m s.
(** sh multiplies the weight by m *)
Hypothesis Hsh : forall f w, (forall s, continuous w s) -> (forall n, f n = RInt (fun s => p s ^ n * w s) 0 1) ->
  forall n, sh f n = RInt (fun s => p s ^ n * (m s * w s)) 0 1.

Lemma cont_pow n s : continuous (fun s => p s ^ n) s.
Proof.
  induction n as [|n IH]; cbn [pow]; [apply continuous_const_R|]. apply continuous_mult_R; [apply Hp|exact IH].
Qed.

Lemma hrec_moment X k : forall f w, (forall s, continuous w s) -> (forall n, f n = RInt (fun s => p s ^ n * w s) 0 1) ->
  forall n, hrec sh X f k n = RInt (fun s => p s ^ n * (hpol (m s) X k * w s)) 0 1.
Proof.
  intros f w Hw Hf.
  assert (G : forall n, hrec sh X f k n = RInt (fun s => p s ^ n * (hpol (m s) X k * w s)) 0 1 /\ hrec sh X f (S k) n = RInt (fun s => p s ^ n * (hpol (m s) X (S k) * w s)) 0 1).
  { induction k as [|k IH]; intros n.
    - cbn [hrec hpol]. split.
      + rewrite Hf. apply RInt_ext. intros s _. cbv beta. ringR.
      + rewrite (Hsh f w Hw Hf). rewrite <- RInt_scal_R.
        2:{ apply ex_RInt_cont. intros s. apply continuous_mult_R; [apply cont_pow|]. apply continuous_mult_R; [apply Hm|apply Hw]. }
        apply RInt_ext. intros s _. ringR.
    - split; [apply IH|]. rewrite hrec_SS.
      assert (C : forall j s, continuous (fun s => hpol (m s) X j * w s) s) by (intros j s; apply continuous_mult_R; [apply (proj1 (cont_hpol m X j Hm s))|apply Hw]).
      rewrite (Hsh (hrec sh X f k) (fun s => hpol (m s) X k * w s) (C k)) by (intros n'; apply IH).
      rewrite (Hsh (hrec sh X f (S k)) (fun s => hpol (m s) X (S k) * w s) (C (S k))) by (intros n'; apply IH).
      assert (EX : forall j, ex_RInt (fun s => p s ^ n * (m s * (hpol (m s) X j * w s))) 0 1).
      { intros j. apply ex_RInt_cont. intros s. apply continuous_mult_R; [apply cont_pow|]. apply continuous_mult_R; [apply Hm|apply C]. }
      rewrite <- !RInt_scal_R by apply EX. rewrite <- RInt_plus_R.
      + apply RInt_ext. intros s _. rewrite hpol_SS. ringR.
      + apply ex_RInt_scal_R. apply EX.
      + apply ex_RInt_scal_R. apply EX. }
  intros n. apply G.
Qed.

Lemma raux_moment X Y Z f w : (forall s, continuous w s) -> (forall n, f n = RInt (fun s => p s ^ n * w s) 0 1) ->
  forall t u v n, raux sh X Y Z f t u v n = RInt (fun s => p s ^ n * (hpol (m s) X t * (hpol (m s) Y u * (hpol (m s) Z v * w s)))) 0 1.
Proof.
  intros Hw Hf t u v n. unfold raux.
  assert (C : forall X j (w : R -> R), (forall s, continuous w s) -> forall s, continuous (fun s => hpol (m s) X j * w s) s) by (intros X' j w' Hw' s; apply continuous_mult_R; [apply (proj1 (cont_hpol m X' j Hm s))|apply Hw']).
  apply (hrec_moment X t _ (fun s => hpol (m s) Y u * (hpol (m s) Z v * w s))); [apply C; apply C; exact Hw|].
  apply (hrec_moment Y u _ (fun s => hpol (m s) Z v * w s)); [apply C; exact Hw|].
  apply (hrec_moment Z v _ w); [exact Hw|exact Hf].
Qed.
End Moments.
