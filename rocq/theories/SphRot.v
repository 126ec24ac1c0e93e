(** * Rotations of the real spherical harmonics *)

From Coq Require Import ZArith Reals Lra Lia List Bool.
From Coquelicot Require Import Coquelicot.
From Verif Require Import Base Sums OneElModel OneElProofs SphSpec SphPoly SphProofs SphOrtho SphSpan LmatModel LmatProofs UtilProofs NumSpec.
Import ListNotations.
Open Scope R_scope.

(** ** The entries of the matrices *)
Definition cc (L m : Z) : R := if (m =? 0)%Z then sqrt (IZR (L * (L + 1)) / 2) else sqrt (IZR ((L - m) * (L + m + 1))) / 2.

Definition eX (L p q : Z) : R :=
  if xorb (p <? 0)%Z (q <? 0)%Z then
    (if (q <? 0)%Z then 1 else -1) * (if (Z.abs p =? Z.abs q + 1)%Z then cc L (Z.abs q) else if (Z.abs q =? Z.abs p + 1)%Z then cc L (Z.abs p) else 0)
  else 0.

Definition eY (L p q : Z) : R :=
  if xorb (p <? 0)%Z (q <? 0)%Z then 0
  else if (Z.abs p =? Z.abs q + 1)%Z then cc L (Z.abs q) else if (Z.abs q =? Z.abs p + 1)%Z then - cc L (Z.abs p) else 0.

Lemma vP_up L q : vP L (q + 1) q = sqrt (IZR ((L - q) * (L + q + 1))).
Proof. unfold vP. rewrite Z.eqb_refl. cbn [b2R]. ring. Qed.

(** the four complex entries behind a real one *)
Lemma vP_cases L a b : (0 <= a)%Z -> (0 <= b)%Z ->
  vP L a b = (if (a =? b + 1)%Z then sqrt (IZR ((L - b) * (L + b + 1))) else 0) /\
  vP L (- a) (- b) = (if (b =? a + 1)%Z then sqrt (IZR ((L - a) * (L + a + 1))) else 0) /\
  vP L (- a) b = 0 /\ vP L a (- b) = (if (a + b =? 1)%Z then sqrt (IZR (L * (L + 1))) else 0) /\
  vM L a b = (if (b =? a + 1)%Z then sqrt (IZR ((L - a) * (L + a + 1))) else 0) /\
  vM L (- a) (- b) = (if (a =? b + 1)%Z then sqrt (IZR ((L - b) * (L + b + 1))) else 0) /\
  vM L a (- b) = 0 /\ vM L (- a) b = (if (a + b =? 1)%Z then sqrt (IZR (L * (L + 1))) else 0).
Proof.
  intros Ha Hb. unfold vP, vM.
  repeat split;
    repeat match goal with |- context[(?u =? ?w)%Z] => destruct (Z.eqb_spec u w); try lia end; cbn [b2R]; try ring; rewrite Rmult_1_r; f_equal; f_equal; try (subst; ring).
  - assert (b = 0 \/ b = 1)%Z as [-> | ->] by lia; ring.
  - assert (b = 0 \/ b = 1)%Z as [-> | ->] by lia; ring.
Qed.

Lemma sqrt2_pos : 0 < / sqrt 2.
Proof. apply Rinv_0_lt_compat, sqrt_lt_R0. lra. Qed.

Lemma sqrt_half x : 0 <= x -> sqrt (x / 2) = sqrt x * / sqrt 2.
Proof. intros H. rewrite sqrt_div_alt by lra. reflexivity. Qed.

Lemma wX_eX L p q : (0 <= L)%Z -> (- L <= p <= L)%Z -> (- L <= q <= L)%Z -> wX L p q = eX L p q.
Proof.
  intros HL Hp Hq. unfold wX, hatR. rewrite hat_four by assumption. assert (IM := four_im (vX L) p q).
  destruct (vP_cases L (Z.abs p) (Z.abs q) ltac:(lia) ltac:(lia)) as (P1 & P2 & P3 & P4 & M1 & M2 & M3 & M4).
  unfold eX. assert (T := sqrt2_half). assert (HL2 : 0 <= IZR (L * (L + 1))) by (apply (IZR_le 0); nia).
  assert (SA : forall m, sg (Z.abs m) = sg m) by (intros m; unfold sg; rewrite Z.abs_eq by lia; reflexivity).
  assert (SR : (Z.abs p = Z.abs q + 1)%Z \/ (Z.abs q = Z.abs p + 1)%Z -> sg p = - sg q).
  { intros [E | E]; [rewrite <- (SA p), E, sg_succ, SA; reflexivity|rewrite <- (SA q), E, sg_succ, SA; ring]. }
  assert (S0 : sg 0 = 1) by reflexivity.
  assert (SV : sg q = 1 \/ sg q = -1) by (rewrite sg_even_odd; destruct (Z.even q); auto).
  assert (HF : 0.5 = / 2) by lra.
  destruct (Z_lt_le_dec p 0) as [A1 | A1]; [|destruct (Z.eq_dec p 0) as [-> | Z1]]; (destruct (Z_lt_le_dec q 0) as [A2 | A2]; [|destruct (Z.eq_dec q 0) as [-> | Z2]]).
  all: try rewrite (coeffs_neg p A1) in IM; try rewrite (coeffs_neg q A2) in IM; try rewrite (coeffs_pos p ltac:(lia)) in IM; try rewrite (coeffs_pos q ltac:(lia)) in IM; try rewrite coeffs_zero in IM; rewrite IM; unfold vX; rewrite ?P1, ?P2, ?P3, ?P4, ?M1, ?M2, ?M3, ?M4; clear IM P1 P2 P3 P4 M1 M2 M3 M4.
  all: repeat match goal with |- context[(?u <? 0)%Z] => destruct (Z.ltb_spec u 0); try lia end; cbn [xorb].
  all: unfold cc; repeat match goal with |- context[(?u =? ?w)%Z] => destruct (Z.eqb_spec u w); try lia end.
  all: rewrite ?sqrt_half by exact HL2; rewrite HF; generalize dependent (/ sqrt 2); intros h T; try ring.
  all: try rewrite (SR ltac:(lia)); rewrite ?S0; change (Z.abs 0) with 0%Z; try replace ((L - 0) * (L + 0 + 1))%Z with (L * (L + 1))%Z by ring; try ring.
  all: match goal with |- context[sqrt (IZR ?e)] => assert (TK : h * h * sqrt (IZR e) = sqrt (IZR e) / 2) by (rewrite T; field); clear T; generalize dependent (sqrt (IZR e)); intros K TK end.
  all: try (destruct SV as [SV | SV]; rewrite SV; lra).
  all: pose proof (SR ltac:(lia)) as S1; rewrite S0 in S1; destruct SV as [SV | SV]; rewrite ?SV in *; lra.
Qed.

Lemma wY_eY L p q : (0 <= L)%Z -> (- L <= p <= L)%Z -> (- L <= q <= L)%Z -> wY L p q = eY L p q.
Proof.
  intros HL Hp Hq. unfold wY, hatR. rewrite hat_four by assumption. assert (IM := four_re (vY L) p q).
  destruct (vP_cases L (Z.abs p) (Z.abs q) ltac:(lia) ltac:(lia)) as (P1 & P2 & P3 & P4 & M1 & M2 & M3 & M4).
  unfold eY. assert (T := sqrt2_half). assert (HL2 : 0 <= IZR (L * (L + 1))) by (apply (IZR_le 0); nia).
  assert (SA : forall m, sg (Z.abs m) = sg m) by (intros m; unfold sg; rewrite Z.abs_eq by lia; reflexivity).
  assert (SR : (Z.abs p = Z.abs q + 1)%Z \/ (Z.abs q = Z.abs p + 1)%Z -> sg p = - sg q).
  { intros [E | E]; [rewrite <- (SA p), E, sg_succ, SA; reflexivity|rewrite <- (SA q), E, sg_succ, SA; ring]. }
  assert (S0 : sg 0 = 1) by reflexivity.
  assert (SV : sg q = 1 \/ sg q = -1) by (rewrite sg_even_odd; destruct (Z.even q); auto).
  assert (HF : 0.5 = / 2) by lra.
  destruct (Z_lt_le_dec p 0) as [A1 | A1]; [|destruct (Z.eq_dec p 0) as [-> | Z1]]; (destruct (Z_lt_le_dec q 0) as [A2 | A2]; [|destruct (Z.eq_dec q 0) as [-> | Z2]]).
  all: try rewrite (coeffs_neg p A1) in IM; try rewrite (coeffs_neg q A2) in IM; try rewrite (coeffs_pos p ltac:(lia)) in IM; try rewrite (coeffs_pos q ltac:(lia)) in IM; try rewrite coeffs_zero in IM; rewrite IM; unfold vY; rewrite ?P1, ?P2, ?P3, ?P4, ?M1, ?M2, ?M3, ?M4; clear IM P1 P2 P3 P4 M1 M2 M3 M4.
  all: repeat match goal with |- context[(?u <? 0)%Z] => destruct (Z.ltb_spec u 0); try lia end; cbn [xorb].
  all: unfold cc; repeat match goal with |- context[(?u =? ?w)%Z] => destruct (Z.eqb_spec u w); try lia end.
  all: rewrite ?sqrt_half by exact HL2; rewrite HF; generalize dependent (/ sqrt 2); intros h T; try ring.
  all: try rewrite (SR ltac:(lia)); rewrite ?S0; change (Z.abs 0) with 0%Z; try replace ((L - 0) * (L + 0 + 1))%Z with (L * (L + 1))%Z by ring; try ring.
  all: match goal with |- context[sqrt (IZR ?e)] => assert (TK : h * h * sqrt (IZR e) = sqrt (IZR e) / 2) by (rewrite T; field); clear T; generalize dependent (sqrt (IZR e)); intros K TK end.
  all: try (destruct SV as [SV | SV]; rewrite SV; lra).
  all: pose proof (SR ltac:(lia)) as S1; rewrite S0 in S1; destruct SV as [SV | SV]; rewrite ?SV in *; lra.
Qed.
