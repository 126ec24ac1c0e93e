(** * Statements about the angular momentum matrices, packaged for C32 *)

From Coq Require Import ZArith List Lia Bool Reals Lra.
From Verif Require Import Base Loops OneElModel OneElProofs LmatModel LmatProofs UtilProofs.
Import ListNotations.
Open Scope R_scope.

(** entry (m1, m2) of a (2L+1) x (2L+1) matrix stored row by row *)
Definition entries (L : Z) (M : arr R) (f : Z -> Z -> R) : Prop :=
  forall p q, (- L <= p <= L)%Z -> (- L <= q <= L)%Z -> aget M [((p + L) * (2 * L + 1) + (q + L))%Z] = Ok (f p q).

(** textbook matrix product over m = -L .. L *)
Definition mprod (L : Z) (A B : Z -> Z -> R) (p q : Z) : R :=
  rsum (Z.to_nat (2 * L + 1)) (fun k => A p (Z.of_nat k - L)%Z * B (Z.of_nat k - L)%Z q).

Definition kron (p q : Z) : R := if (p =? q)%Z then 1 else 0.

Lemma mprod_rmul L A B p q : mprod L A B p q = rmul L A B p q.
Proof.
  unfold mprod, rmul, ms. generalize (Z.to_nat (2 * L + 1)). intros n.
  assert (G : forall k, lsum (fun k0 => A p k0 * B k0 q) (map (fun k0 => (Z.of_nat k0 - L)%Z) (seq k n)) =
     rsum n (fun j => A p (Z.of_nat (k + j) - L)%Z * B (Z.of_nat (k + j) - L)%Z q)).
  { induction n as [|n IH]; intros k; [reflexivity|]. rewrite rsum_S_left. cbn [seq map]. unfold lsum in *. cbn [fold_right].
    rewrite IH. rewrite Nat.add_0_r. f_equal. apply rsum_ext. intros j _. replace (S k + j)%nat with (k + S j)%nat by lia. reflexivity. }
  rewrite G. reflexivity.
Qed.

(** the generators of rotations in the basis of real harmonics of degree L *)
Definition rotation_generators (L : Z) (X Y Z : Z -> Z -> R) : Prop :=
  forall p q, (- L <= p <= L)%Z -> (- L <= q <= L)%Z ->
    X q p = - X p q /\ Y q p = - Y p q /\ Z q p = - Z p q /\
    mprod L X Y p q - mprod L Y X p q = Z p q /\
    mprod L Y Z p q - mprod L Z Y p q = X p q /\
    mprod L Z X p q - mprod L X Z p q = Y p q /\
    mprod L X X p q + mprod L Y Y p q + mprod L Z Z p q = - IZR (L * (L + 1)) * kron p q.

Lemma real_matrices L sz (x0 y0 z0 : arr R) : (0 <= L)%Z -> ((2 * L + 1) * (2 * L + 1) <= sz)%Z ->
  adims x0 = [sz] -> adims y0 = [sz] -> adims z0 = [sz] ->
  exists x y z X Y Z, construct_matrices_rsh L (x0, y0, z0) = Ok (x, y, z) /\
    entries L x X /\ entries L y Y /\ entries L z Z /\ rotation_generators L X Y Z /\
    (forall p q, (- L <= p <= L)%Z -> (- L <= q <= L)%Z -> Z p q = if (q =? - p)%Z then - IZR p else 0) /\
    ((1 <= L)%Z -> X 0%Z (-1)%Z = sqrt (IZR (L * (L + 1)) / 2)) /\
    (forall k, ~ (0 <= k < (2 * L + 1) * (2 * L + 1))%Z -> acell x [k] = acell x0 [k] /\ acell y [k] = acell y0 [k] /\ acell z [k] = acell z0 [k]).
Proof.
  intros HL Hs D1 D2 D3. destruct (rsh_ok L sz x0 y0 z0 HL Hs D1 D2 D3) as (x & y & z & E & (A1 & A2 & A3) & (B1 & B2 & B3) & (C1 & C2 & C3)).
  exists x, y, z, (wX L), (wY L), (wZ L). split; [exact E|]. split; [exact A2|]. split; [exact B2|]. split; [exact C2|]. split; [|split; [|split]].
  - intros p q Hp Hq. rewrite !mprod_rmul. split; [apply anti_x; assumption|]. split; [apply anti_y; assumption|]. split; [apply anti_z; assumption|].
    split; [apply comm_xy; assumption|]. split; [apply comm_yz; assumption|]. split; [apply comm_zx; assumption|].
    rewrite casimir by assumption. unfold dl, kron, b2R. destruct (p =? q)%Z; reflexivity.
  - intros p q Hp Hq. apply wZ_entry; assumption.
  - apply wX_entry.
  - intros k Hk. auto.
Qed.

(** the matrices over complex harmonics: [Y] stores i times the operator, so
    that all three are real *)
Lemma complex_matrices L sz (x0 y0 z0 : arr R) : (0 <= L)%Z -> ((2 * L + 1) * (2 * L + 1) <= sz)%Z ->
  adims x0 = [sz] -> adims y0 = [sz] -> adims z0 = [sz] ->
  exists x y z X Y Z, construct_matrices_csh L (x0, y0, z0) = Ok (x, y, z) /\
    entries L x X /\ entries L y Y /\ entries L z Z /\
    (forall p q, (- L <= p <= L)%Z -> (- L <= q <= L)%Z ->
       X p q + Y p q = sqrt (IZR ((L - q) * (L + q + 1))) * kron p (q + 1) /\
       X p q - Y p q = sqrt (IZR ((L + q) * (L - q + 1))) * kron p (q - 1) /\
       Z p q = IZR q * kron p q /\
       mprod L X Y p q - mprod L Y X p q = - Z p q /\
       mprod L Y Z p q - mprod L Z Y p q = - X p q /\
       mprod L Z X p q - mprod L X Z p q = Y p q /\
       mprod L X X p q - mprod L Y Y p q + mprod L Z Z p q = IZR (L * (L + 1)) * kron p q).
Proof.
  intros HL Hs D1 D2 D3. destruct (csh_ok L sz x0 y0 z0 HL Hs D1 D2 D3) as (x & y & z & E & (A1 & A2 & A3) & (B1 & B2 & B3) & (C1 & C2 & C3)).
  exists x, y, z, (vX L), (vY L), (vZ L). split; [exact E|]. split; [exact A2|]. split; [exact B2|]. split; [exact C2|].
  intros p q Hp Hq. rewrite !mprod_rmul.
  split; [unfold vX, vY, vP, vM, kron, b2R; lra|]. split; [unfold vX, vY, vP, vM, kron, b2R; lra|]. split; [reflexivity|].
  split; [apply comm_XY; assumption|]. split; [apply comm_YZ; assumption|]. split; [apply comm_ZX; assumption|].
  rewrite casimir_csh by assumption. reflexivity.
Qed.
