(** * What the errors of the tabulated S_k(x) do to densities, radii and potentials *)

From Coq Require Import ZArith List Bool Lia Reals Lra.
From Coquelicot Require Import Coquelicot.
From Verif Require Import Base FermiSkModel FermiAcc NucPotSpec NucModel NucPot NucPotThms NucBound FermiTaylor.
Open Scope R_scope.

Definition dl : R := 3 / 10 ^ 11.

Section Close.
Variables Sk Tk : Z -> R -> R.
Hypothesis HS : fermi_series Sk.
Hypothesis HT : forall k x, (2 <= k <= 7)%Z -> x <= 0 -> Rabs (Tk k x - Sk k x) <= dl * exp x.

Lemma S_range k x : (2 <= k <= 7)%Z -> x <= 0 -> 3 / 4 * exp x <= - Sk k x.
Proof. intros Hk Hx. rewrite (Sk_Sx Sk HS k x Hk Hx). apply Sx_lower; [lia|exact Hx]. Qed.

(** terms p * S_k with p <= 0 are close in relative terms *)
Lemma T_rel k x : (2 <= k <= 7)%Z -> x <= 0 -> 0 < - Sk k x /\ - Sk k x * (1 - 4 / 10 ^ 11) <= - Tk k x <= - Sk k x * (1 + 4 / 10 ^ 11).
Proof.
  intros Hk Hx. pose proof (S_range k x Hk Hx) as L. pose proof (HT k x Hk Hx) as H. pose proof (exp_pos x). unfold dl in H. apply Rabs_le_between in H. split; [lra|]. split; lra.
Qed.

Lemma T_abs k x : (2 <= k <= 7)%Z -> x <= 0 -> Rabs (Tk k x - Sk k x) <= dl.
Proof. intros Hk Hx. eapply Rle_trans; [apply HT; assumption|]. assert (exp x <= 1) by (rewrite <- exp_0; apply exp_le; exact Hx). unfold dl. lra. Qed.

Variables c a : R.
Hypothesis Hc : 0 < c.
Hypothesis Ha : 0 < a.

Lemma neg_ca : - c / a <= 0.
Proof. assert (0 < c / a) by (apply Rdiv_lt_0_compat; assumption). unfold Rdiv in *. lra. Qed.

Lemma norm_rel : 1 <= fermi_model_norm_factor Sk c a /\ fermi_model_norm_factor Sk c a * (1 - 4 / 10 ^ 11) <= fermi_model_norm_factor Tk c a <= fermi_model_norm_factor Sk c a * (1 + 4 / 10 ^ 11).
Proof.
  destruct (T_rel 3 (- c / a) ltac:(lia) neg_ca) as (P & L & U). unfold fermi_model_norm_factor. cbv zeta.
  set (p := 6 * (a * a * a) / (c * c * c)). assert (Pp : 0 < p) by (unfold p; apply Rdiv_lt_0_compat; [assert (0 < a * a * a) by (repeat apply Rmult_lt_0_compat; lra); lra|repeat apply Rmult_lt_0_compat; lra]).
  set (b := PI * PI * (a * a) / (c * c)). assert (Pb : 0 <= b). { unfold b. apply Rmult_le_pos; [apply Rmult_le_pos; nra|left; apply Rinv_0_lt_compat; nra]. }
  set (s := - Sk 3%Z (- c / a)) in *. set (t := - Tk 3%Z (- c / a)) in *. replace (Sk 3%Z (- c / a)) with (- s) by (unfold s; ring). replace (Tk 3%Z (- c / a)) with (- t) by (unfold t; ring).
  assert (0 <= p * s) by (apply Rmult_le_pos; lra). assert (p * (s * (1 - 4 / 10 ^ 11)) <= p * t) by (apply Rmult_le_compat_l; lra). assert (p * t <= p * (s * (1 + 4 / 10 ^ 11))) by (apply Rmult_le_compat_l; lra).
  repeat split; lra.
Qed.

(** densities *)
Lemma density_close_fermi r zn : Rabs (charge_density_fermi Tk r zn c a - charge_density_fermi Sk r zn c a) <= 5 / 10 ^ 11 * Rabs (charge_density_fermi Sk r zn c a).
Proof.
  destruct norm_rel as (N1 & N2 & N3). unfold charge_density_fermi. cbv zeta. set (N := fermi_model_norm_factor Sk c a) in *. set (N' := fermi_model_norm_factor Tk c a) in *.
  pose proof PI_RGT_0. pose proof (exp_pos ((r - c) / a)). assert (Pc : 0 < c * c * c) by (repeat apply Rmult_lt_0_compat; lra).
  replace (3 * zn / (4 * PI * (c * c * c) * N') / (1 + exp ((r - c) / a)) - 3 * zn / (4 * PI * (c * c * c) * N) / (1 + exp ((r - c) / a))) with (3 * zn / (4 * PI * (c * c * c) * N) / (1 + exp ((r - c) / a)) * ((N - N') / N')) by (field; repeat split; lra).
  rewrite Rabs_mult, Rmult_comm. apply Rmult_le_compat_r; [apply Rabs_pos|]. unfold Rdiv. rewrite Rabs_mult, (Rabs_pos_eq (/ N')) by (left; apply Rinv_0_lt_compat; lra). apply Rle_div_l; [lra|]. apply Rabs_le. lra.
Qed.

(** a quantity p + m s with p >= 0 and m >= 0 *)
Lemma rel_plus p m s t e : 0 <= p -> 0 <= m -> 0 <= e -> s * (1 - e) <= t <= s * (1 + e) -> (p + m * s) * (1 - e) <= p + m * t <= (p + m * s) * (1 + e).
Proof.
  intros Hp Hm He (L & U). assert (m * (s * (1 - e)) <= m * t) by (apply Rmult_le_compat_l; assumption). assert (m * t <= m * (s * (1 + e))) by (apply Rmult_le_compat_l; assumption). assert (0 <= p * e) by (apply Rmult_le_pos; assumption). split; lra.
Qed.

Lemma frac_pos x y : 0 <= x -> 0 < y -> 0 <= x / y.
Proof. intros Hx Hy. apply Rmult_le_pos; [exact Hx|left; apply Rinv_0_lt_compat; exact Hy]. Qed.

Lemma bubble_norm_rel k : 0 <= k -> 1 + 3 / 5 * k <= fermi_bubble_model_norm_factor Sk c a k /\
  fermi_bubble_model_norm_factor Sk c a k * (1 - 4 / 10 ^ 11) <= fermi_bubble_model_norm_factor Tk c a k <= fermi_bubble_model_norm_factor Sk c a k * (1 + 4 / 10 ^ 11).
Proof.
  intros Hk. destruct norm_rel as (N1 & N2 & N3). destruct (T_rel 5 (- c / a) ltac:(lia) neg_ca) as (P & L & U). unfold fermi_bubble_model_norm_factor. cbv zeta.
  set (N := fermi_model_norm_factor Sk c a) in *. set (N' := fermi_model_norm_factor Tk c a) in *. pose proof PI_RGT_0 as HP.
  set (p2 := 2 * PI * PI * (a * a) * k / (c * c)). set (p4 := 7 * PI * PI * PI * PI * (a * (a * (a * a))) * k / (5 * (c * (c * (c * c))))). set (m := 72 * (a * (a * (a * (a * a)))) * k / (c * (c * (c * (c * c))))).
  assert (A2 : 0 < a * a) by nra. assert (A3 : 0 < a * (a * a)) by nra. assert (A4 : 0 < a * (a * (a * a))) by nra. assert (A5 : 0 < a * (a * (a * (a * a)))) by nra.
  assert (C2 : 0 < c * c) by nra. assert (C3 : 0 < c * (c * c)) by nra. assert (C4 : 0 < c * (c * (c * c))) by nra. assert (C5 : 0 < c * (c * (c * (c * c)))) by nra.
  assert (HP2 : 0 < PI * PI) by nra. assert (HP4 : 0 < PI * PI * PI * PI) by (repeat (assumption || apply Rmult_lt_0_compat)).
  assert (B2 : 0 <= p2) by (unfold p2; apply frac_pos; [|exact C2]; apply Rmult_le_pos; [|exact Hk]; nra).
  assert (B4 : 0 <= p4) by (unfold p4; apply frac_pos; [|lra]; apply Rmult_le_pos; [|exact Hk]; replace (7 * PI * PI * PI * PI) with (7 * (PI * PI * PI * PI)) by ring; nra).
  assert (Bm : 0 <= m) by (unfold m; apply frac_pos; [|exact C5]; apply Rmult_le_pos; [|exact Hk]; nra).
  set (s := - Sk 5%Z (- c / a)) in *. set (t := - Tk 5%Z (- c / a)) in *. replace (Sk 5%Z (- c / a)) with (- s) by (unfold s; ring). replace (Tk 5%Z (- c / a)) with (- t) by (unfold t; ring).
  destruct (rel_plus (3 / 5 * k + p2 + p4) m s t (4 / 10 ^ 11)) as (R1 & R2); [lra|exact Bm|lra|split; lra|]. assert (0 <= m * s) by (apply Rmult_le_pos; lra).
  repeat split; lra.
Qed.

Lemma density_close_bubble r zn k : 0 <= k -> Rabs (charge_density_fermi_bubble Tk r zn c a k - charge_density_fermi_bubble Sk r zn c a k) <= 5 / 10 ^ 11 * Rabs (charge_density_fermi_bubble Sk r zn c a k).
Proof.
  intros Hk. destruct (bubble_norm_rel k Hk) as (N1 & N2 & N3). unfold charge_density_fermi_bubble. cbv zeta. set (N := fermi_bubble_model_norm_factor Sk c a k) in *. set (N' := fermi_bubble_model_norm_factor Tk c a k) in *.
  pose proof PI_RGT_0. pose proof (exp_pos ((r - c) / a)). assert (Pc : 0 < c * c * c) by (repeat apply Rmult_lt_0_compat; lra). set (f := 1 + k * (r / c) ^ 2).
  replace (3 * zn / (4 * PI * (c * c * c) * N') * f / (1 + exp ((r - c) / a)) - 3 * zn / (4 * PI * (c * c * c) * N) * f / (1 + exp ((r - c) / a))) with (3 * zn / (4 * PI * (c * c * c) * N) * f / (1 + exp ((r - c) / a)) * ((N - N') / N')) by (field; repeat split; lra).
  rewrite Rabs_mult, Rmult_comm. apply Rmult_le_compat_r; [apply Rabs_pos|]. unfold Rdiv. rewrite Rabs_mult, (Rabs_pos_eq (/ N')) by (left; apply Rinv_0_lt_compat; lra). apply Rle_div_l; [lra|]. apply Rabs_le. lra.
Qed.

(** radii *)
Lemma sqrt_rel x y e : 0 <= x -> 0 <= e <= 1 -> x * (1 - e) ^ 2 <= y <= x * (1 + e) ^ 2 -> Rabs (sqrt y - sqrt x) <= e * sqrt x.
Proof.
  intros Hx He (L & U). assert (S1 : sqrt (x * (1 - e) ^ 2) = sqrt x * (1 - e)) by (rewrite sqrt_mult, sqrt_pow2 by (try lra; apply pow2_ge_0); reflexivity). assert (S2 : sqrt (x * (1 + e) ^ 2) = sqrt x * (1 + e)) by (rewrite sqrt_mult, sqrt_pow2 by (try lra; apply pow2_ge_0); reflexivity).
  apply sqrt_le_1_alt in L, U. rewrite S1 in L. rewrite S2 in U. apply Rabs_le. lra.
Qed.

Lemma quotient_rel K B B' N N' : 0 <= K -> 0 <= B -> 0 < N -> B * (1 - 4 / 10 ^ 11) <= B' <= B * (1 + 4 / 10 ^ 11) -> N * (1 - 4 / 10 ^ 11) <= N' <= N * (1 + 4 / 10 ^ 11) ->
  K / N * B * (1 - 5 / 10 ^ 11) ^ 2 <= K / N' * B' <= K / N * B * (1 + 5 / 10 ^ 11) ^ 2.
Proof.
  intros HK HB HN (B1 & B2) (N1 & N2). assert (P : 0 < N') by lra.
  assert (I1 : 0 < / N) by (apply Rinv_0_lt_compat; lra). assert (I2 : 0 < / N') by (apply Rinv_0_lt_compat; lra). assert (E1 : N * / N = 1) by (field; lra). assert (E2 : N' * / N' = 1) by (field; lra).
  (* / N' between / N times 1/(1+e) and 1/(1-e) *)
  assert (J1 : / N' * (1 - 4 / 10 ^ 11) <= / N). { apply (Rmult_le_reg_l N'); [exact P|]. replace (N' * (/ N' * (1 - 4 / 10 ^ 11))) with (N' * / N' * (1 - 4 / 10 ^ 11)) by ring. rewrite E2. assert (N * (1 - 4 / 10 ^ 11) * / N <= N' * / N) by (apply Rmult_le_compat_r; lra). replace (N * (1 - 4 / 10 ^ 11) * / N) with (N * / N * (1 - 4 / 10 ^ 11)) in H by ring. rewrite E1 in H. lra. }
  assert (J2 : / N <= / N' * (1 + 4 / 10 ^ 11)). { apply (Rmult_le_reg_l N'); [exact P|]. replace (N' * (/ N' * (1 + 4 / 10 ^ 11))) with (N' * / N' * (1 + 4 / 10 ^ 11)) by ring. rewrite E2. assert (N' * / N <= N * (1 + 4 / 10 ^ 11) * / N) by (apply Rmult_le_compat_r; lra). replace (N * (1 + 4 / 10 ^ 11) * / N) with (N * / N * (1 + 4 / 10 ^ 11)) in H by ring. rewrite E1 in H. lra. }
  replace (K / N * B * (1 - 5 / 10 ^ 11) ^ 2) with (K * (/ N * B * (1 - 5 / 10 ^ 11) ^ 2)) by (unfold Rdiv; ring). replace (K / N' * B') with (K * (/ N' * B')) by (unfold Rdiv; ring). replace (K / N * B * (1 + 5 / 10 ^ 11) ^ 2) with (K * (/ N * B * (1 + 5 / 10 ^ 11) ^ 2)) by (unfold Rdiv; ring).
  set (u := / N) in *. set (v := / N') in *. clearbody u v.
  split; apply Rmult_le_compat_l; try exact HK.
  - apply Rle_trans with (v * (B * (1 - 4 / 10 ^ 11))); [|apply Rmult_le_compat_l; lra].
    assert (u * B <= v * (1 + 4 / 10 ^ 11) * B) by (apply Rmult_le_compat_r; lra). set (w := u * B) in *. set (z := v * B) in *. assert (0 <= z) by (apply Rmult_le_pos; lra). replace (v * (1 + 4 / 10 ^ 11) * B) with (z * (1 + 4 / 10 ^ 11)) in H by (unfold z; ring). replace (v * (B * (1 - 4 / 10 ^ 11))) with (z * (1 - 4 / 10 ^ 11)) by (unfold z; ring). clearbody w z. lra.
  - apply Rle_trans with (v * (B * (1 + 4 / 10 ^ 11))); [apply Rmult_le_compat_l; lra|].
    assert (v * (1 - 4 / 10 ^ 11) * B <= u * B) by (apply Rmult_le_compat_r; lra). set (w := u * B) in *. set (z := v * B) in *. assert (0 <= z) by (apply Rmult_le_pos; lra). replace (v * (1 - 4 / 10 ^ 11) * B) with (z * (1 - 4 / 10 ^ 11)) in H by (unfold z; ring). replace (v * (B * (1 + 4 / 10 ^ 11))) with (z * (1 + 4 / 10 ^ 11)) by (unfold z; ring). clearbody w z. lra.
Qed.

Lemma r4_rel : 0 <= 1 + 10 / 3 * a * a * PI * PI / (c * c) + 7 / 3 * PI ^ 4 * a ^ 4 / c ^ 4 - 120 * a ^ 5 / c ^ 5 * Sk 5%Z (- c / a) /\
  (1 + 10 / 3 * a * a * PI * PI / (c * c) + 7 / 3 * PI ^ 4 * a ^ 4 / c ^ 4 - 120 * a ^ 5 / c ^ 5 * Sk 5%Z (- c / a)) * (1 - 4 / 10 ^ 11) <=
  1 + 10 / 3 * a * a * PI * PI / (c * c) + 7 / 3 * PI ^ 4 * a ^ 4 / c ^ 4 - 120 * a ^ 5 / c ^ 5 * Tk 5%Z (- c / a) <=
  (1 + 10 / 3 * a * a * PI * PI / (c * c) + 7 / 3 * PI ^ 4 * a ^ 4 / c ^ 4 - 120 * a ^ 5 / c ^ 5 * Sk 5%Z (- c / a)) * (1 + 4 / 10 ^ 11).
Proof.
  destruct (T_rel 5 (- c / a) ltac:(lia) neg_ca) as (P & L & U). pose proof PI_RGT_0 as HP.
  set (p2 := 10 / 3 * a * a * PI * PI / (c * c)). set (p4 := 7 / 3 * PI ^ 4 * a ^ 4 / c ^ 4). set (m := 120 * a ^ 5 / c ^ 5).
  assert (B2 : 0 <= p2) by (unfold p2; apply frac_pos; [assert (0 < a * a) by nra; assert (0 < PI * PI) by nra; assert (0 < a * a * (PI * PI)) by nra; lra|nra]).
  assert (B4 : 0 <= p4) by (unfold p4; apply frac_pos; [|apply pow_lt, Hc]; assert (0 < PI ^ 4) by (apply pow_lt, HP); assert (0 < a ^ 4) by (apply pow_lt, Ha); nra).
  assert (Bm : 0 <= m) by (unfold m; apply frac_pos; [|apply pow_lt, Hc]; assert (0 < a ^ 5) by (apply pow_lt, Ha); lra).
  set (s := - Sk 5%Z (- c / a)) in *. set (t := - Tk 5%Z (- c / a)) in *. replace (Sk 5%Z (- c / a)) with (- s) by (unfold s; ring). replace (Tk 5%Z (- c / a)) with (- t) by (unfold t; ring).
  destruct (rel_plus (1 + p2 + p4) m s t (4 / 10 ^ 11)) as (R1 & R2); [lra|exact Bm|lra|split; lra|]. assert (0 <= m * s) by (apply Rmult_le_pos; lra). repeat split; lra.
Qed.

Lemma r6_rel : 0 <= 1 + 7 * a * a * PI * PI / (c * c) + 49 / 3 * PI ^ 4 * a ^ 4 / c ^ 4 + 31 / 3 * PI ^ 6 * a ^ 6 / c ^ 6 - 5040 * a ^ 7 / c ^ 7 * Sk 7%Z (- c / a) /\
  (1 + 7 * a * a * PI * PI / (c * c) + 49 / 3 * PI ^ 4 * a ^ 4 / c ^ 4 + 31 / 3 * PI ^ 6 * a ^ 6 / c ^ 6 - 5040 * a ^ 7 / c ^ 7 * Sk 7%Z (- c / a)) * (1 - 4 / 10 ^ 11) <=
  1 + 7 * a * a * PI * PI / (c * c) + 49 / 3 * PI ^ 4 * a ^ 4 / c ^ 4 + 31 / 3 * PI ^ 6 * a ^ 6 / c ^ 6 - 5040 * a ^ 7 / c ^ 7 * Tk 7%Z (- c / a) <=
  (1 + 7 * a * a * PI * PI / (c * c) + 49 / 3 * PI ^ 4 * a ^ 4 / c ^ 4 + 31 / 3 * PI ^ 6 * a ^ 6 / c ^ 6 - 5040 * a ^ 7 / c ^ 7 * Sk 7%Z (- c / a)) * (1 + 4 / 10 ^ 11).
Proof.
  destruct (T_rel 7 (- c / a) ltac:(lia) neg_ca) as (P & L & U). pose proof PI_RGT_0 as HP.
  set (p2 := 7 * a * a * PI * PI / (c * c)). set (p4 := 49 / 3 * PI ^ 4 * a ^ 4 / c ^ 4). set (p6 := 31 / 3 * PI ^ 6 * a ^ 6 / c ^ 6). set (m := 5040 * a ^ 7 / c ^ 7).
  assert (B2 : 0 <= p2) by (unfold p2; apply frac_pos; [assert (0 < a * a) by nra; assert (0 < PI * PI) by nra; assert (0 < a * a * (PI * PI)) by nra; lra|nra]).
  assert (B4 : 0 <= p4) by (unfold p4; apply frac_pos; [|apply pow_lt, Hc]; assert (0 < PI ^ 4) by (apply pow_lt, HP); assert (0 < a ^ 4) by (apply pow_lt, Ha); nra).
  assert (B6 : 0 <= p6) by (unfold p6; apply frac_pos; [|apply pow_lt, Hc]; assert (0 < PI ^ 6) by (apply pow_lt, HP); assert (0 < a ^ 6) by (apply pow_lt, Ha); nra).
  assert (Bm : 0 <= m) by (unfold m; apply frac_pos; [|apply pow_lt, Hc]; assert (0 < a ^ 7) by (apply pow_lt, Ha); lra).
  set (s := - Sk 7%Z (- c / a)) in *. set (t := - Tk 7%Z (- c / a)) in *. replace (Sk 7%Z (- c / a)) with (- s) by (unfold s; ring). replace (Tk 7%Z (- c / a)) with (- t) by (unfold t; ring).
  destruct (rel_plus (1 + p2 + p4 + p6) m s t (4 / 10 ^ 11)) as (R1 & R2); [lra|exact Bm|lra|split; lra|]. assert (0 <= m * s) by (apply Rmult_le_pos; lra). repeat split; lra.
Qed.

Lemma rms_close_fermi (zn : Z) : zn <> 0%Z -> Rabs (rms_radius_fermi Tk zn c a - rms_radius_fermi Sk zn c a) <= 5 / 10 ^ 11 * rms_radius_fermi Sk zn c a.
Proof.
  intros Hz. apply IZR_neq in Hz. destruct norm_rel as (N1 & N). destruct r4_rel as (B0 & B). unfold rms_radius_fermi. cbv zeta. pose proof PI_RGT_0 as HP.
  set (NS := fermi_model_norm_factor Sk c a) in *. set (NT := fermi_model_norm_factor Tk c a) in *.
  set (BS := 1 + _ + _ - 120 * a ^ 5 / c ^ 5 * Sk 5%Z (- c / a)) in *. set (BT := 1 + _ + _ - 120 * a ^ 5 / c ^ 5 * Tk 5%Z (- c / a)) in *. clearbody BS BT.
  assert (HNT : 0 < NT) by lra.
  replace (4 * PI * (3 * IZR zn / (4 * PI * (c * c * c) * NS)) / IZR zn * c ^ 5 / 5 * BS) with (3 * c ^ 2 / 5 / NS * BS) by (field; repeat split; lra).
  replace (4 * PI * (3 * IZR zn / (4 * PI * (c * c * c) * NT)) / IZR zn * c ^ 5 / 5 * BT) with (3 * c ^ 2 / 5 / NT * BT) by (field; repeat split; lra).
  assert (K0 : 0 <= 3 * c ^ 2 / 5) by (pose proof (pow2_ge_0 c); lra).
  apply sqrt_rel; [apply Rmult_le_pos; [apply frac_pos; lra|exact B0]|lra|]. apply quotient_rel; try assumption; lra.
Qed.

Lemma rms_close_bubble (zn : Z) k : zn <> 0%Z -> 0 <= k -> Rabs (rms_radius_fermi_bubble Tk zn c a k - rms_radius_fermi_bubble Sk zn c a k) <= 5 / 10 ^ 11 * rms_radius_fermi_bubble Sk zn c a k.
Proof.
  intros Hz Hk. apply IZR_neq in Hz. destruct (bubble_norm_rel k Hk) as (N1 & N). destruct r4_rel as (B0 & B). destruct r6_rel as (D0 & D). unfold rms_radius_fermi_bubble. cbv zeta. pose proof PI_RGT_0 as HP.
  set (NS := fermi_bubble_model_norm_factor Sk c a k) in *. set (NT := fermi_bubble_model_norm_factor Tk c a k) in *.
  set (BS := 1 + _ + _ - 120 * a ^ 5 / c ^ 5 * Sk 5%Z (- c / a)) in *. set (BT := 1 + _ + _ - 120 * a ^ 5 / c ^ 5 * Tk 5%Z (- c / a)) in *. clearbody BS BT.
  set (DS := 1 + _ + _ + _ - 5040 * a ^ 7 / c ^ 7 * Sk 7%Z (- c / a)) in *. set (DT := 1 + _ + _ + _ - 5040 * a ^ 7 / c ^ 7 * Tk 7%Z (- c / a)) in *. clearbody DS DT.
  assert (HNT : 0 < NT) by lra.
  replace (4 * PI * (3 * IZR zn / (4 * PI * (c * c * c) * NS)) / IZR zn * (c ^ 5 / 5 * BS + k / (c * c) * (c ^ 7 / 7 * DS))) with (3 * c ^ 2 / 5 / NS * (BS + 5 / 7 * k * DS)) by (field; repeat split; lra).
  replace (4 * PI * (3 * IZR zn / (4 * PI * (c * c * c) * NT)) / IZR zn * (c ^ 5 / 5 * BT + k / (c * c) * (c ^ 7 / 7 * DT))) with (3 * c ^ 2 / 5 / NT * (BT + 5 / 7 * k * DT)) by (field; repeat split; lra).
  assert (K0 : 0 <= 3 * c ^ 2 / 5) by (pose proof (pow2_ge_0 c); lra). destruct D as (D1 & D2).
  assert (E0 : 0 <= 5 / 7 * k * DS) by (apply Rmult_le_pos; lra). assert (E1 : 5 / 7 * k * (DS * (1 - 4 / 10 ^ 11)) <= 5 / 7 * k * DT) by (apply Rmult_le_compat_l; lra). assert (E2 : 5 / 7 * k * DT <= 5 / 7 * k * (DS * (1 + 4 / 10 ^ 11))) by (apply Rmult_le_compat_l; lra).
  apply sqrt_rel; [apply Rmult_le_pos; [apply frac_pos; lra|lra]|lra|]. apply quotient_rel; try assumption; lra.
Qed.

(** potentials *)
Lemma quot_close Y Y' N N' D M : 0 < N -> 0 < N' -> 0 <= Y / N <= 1 -> Rabs (Y' - Y) <= D -> Rabs (N' - N) <= M -> Rabs (Y' / N' - Y / N) <= (D + M) / N'.
Proof.
  intros HN HN' HY HD HM. replace (Y' / N' - Y / N) with (((Y' - Y) - Y / N * (N' - N)) / N') by (field; lra). set (k := Y / N) in *. unfold Rdiv. rewrite Rabs_mult, (Rabs_pos_eq (/ N')) by (left; apply Rinv_0_lt_compat; lra).
  apply Rmult_le_compat_r; [left; apply Rinv_0_lt_compat; lra|]. eapply Rle_trans; [apply Rabs_triang|]. rewrite Rabs_Ropp, Rabs_mult, (Rabs_pos_eq k) by lra. pose proof (Rabs_pos (N' - N)). nra.
Qed.

Lemma cube_exp y : 0 <= y -> (1 + y) * exp (- y) <= 1 /\ (1 + y) ^ 2 * exp (- y) <= 4 /\ (1 + y) ^ 3 * exp (- y) <= 4.
Proof.
  intros Hy. assert (Ee : exp y * exp (- y) = 1) by (rewrite <- exp_plus, Rplus_opp_r; apply exp_0). pose proof (exp_pos (- y)) as P. pose proof (exp_pos y) as P2.
  assert (A1 : 1 + y <= exp y) by (destruct (Req_dec y 0) as [-> | Hn]; [rewrite exp_0; lra|left; apply exp_ineq1; lra]).
  assert (A3 : (1 + y) ^ 3 <= 4 * exp y).
  { assert (Z : (1 + y) / 3 <= exp ((y - 2) / 3)). { destruct (Req_dec ((y - 2) / 3) 0) as [E | Hn]; [rewrite E, exp_0; lra|]. left. eapply Rle_lt_trans; [|apply exp_ineq1; exact Hn]. lra. }
    assert (C3 : ((1 + y) / 3) ^ 3 <= exp ((y - 2) / 3) ^ 3) by (apply pow_incr; lra).
    assert (X : exp ((y - 2) / 3) ^ 3 = exp y * exp (-2)) by (cbn [pow]; rewrite Rmult_1_r, <- !exp_plus; f_equal; field). rewrite X in C3.
    assert (E2 : exp (-2) <= 4 / 27).
    { assert (E1 : 27 / 10 <= exp 1). { pose proof (SpecExp.erem_nonneg 5 1 ltac:(lra)) as U. unfold SpecExp.erem, SpecExp.eterm in U. cbn [OneElProofs.rsum pow Factorial.fact Nat.mul Nat.add] in U. rewrite !INR_IZR_INZ in U. cbn [Z.of_nat Pos.of_succ_nat Pos.succ] in U. lra. }
      assert (X2 : exp (-2) * (exp 1 * exp 1) = 1) by (rewrite <- !exp_plus; replace (-2 + (1 + 1)) with 0 by ring; apply exp_0). pose proof (exp_pos (-2)). nra. }
    assert (exp y * exp (-2) <= exp y * (4 / 27)) by (apply Rmult_le_compat_l; lra). replace (((1 + y) / 3) ^ 3) with ((1 + y) ^ 3 / 27) in C3 by field. lra. }
  assert (A2 : (1 + y) ^ 2 <= 4 * exp y) by (apply Rle_trans with (2 := A3); assert (0 <= (1 + y) ^ 2) by apply pow2_ge_0; replace ((1 + y) ^ 3) with ((1 + y) ^ 2 * (1 + y)) by ring; nra).
  repeat split; [replace 1 with (exp y * exp (- y)) at 2 by exact Ee; nra| |]; replace 4 with (4 * exp y * exp (- y)) by (rewrite Rmult_assoc, Ee; ring); apply Rmult_le_compat_r; lra.
Qed.

Hypothesis Hac : a <= c.

Lemma ratio : exists t, a = t * c /\ 0 < t <= 1 /\ t = a / c.
Proof. exists (a / c). split; [field; lra|]. split; [|reflexivity]. split; [apply Rdiv_lt_0_compat; lra|apply Rle_div_l; lra]. Qed.

(** far from the nucleus *)
Lemma outside_exp r : c <= r -> let y := (r - c) / c in 0 <= y /\ r = (1 + y) * c /\ exp ((c - r) / a) <= exp (- y).
Proof.
  intros Hr y. assert (Hy : 0 <= y) by (unfold y; apply frac_pos; lra). split; [exact Hy|]. split; [unfold y; field; lra|]. apply exp_le. unfold y.
  assert (Hi : / c <= / a) by (apply Rinv_le_contravar; lra). replace ((c - r) / a) with (- ((r - c) * / a)) by (field; lra). replace (- ((r - c) / c)) with (- ((r - c) * / c)) by (field; lra). apply Ropp_le_contravar, Rmult_le_compat_l; lra.
Qed.

Lemma norm_abs : Rabs (fermi_model_norm_factor Tk c a - fermi_model_norm_factor Sk c a) <= 6 * (a / c) ^ 3 * dl.
Proof.
  unfold fermi_model_norm_factor. cbv zeta. pose proof (T_abs 3 (- c / a) ltac:(lia) neg_ca) as H. set (s := Sk 3%Z _) in *. set (u := Tk 3%Z _) in *.
  replace (1 + PI * PI * (a * a) / (c * c) - 6 * (a * a * a) / (c * c * c) * u - (1 + PI * PI * (a * a) / (c * c) - 6 * (a * a * a) / (c * c * c) * s)) with (- (6 * (a / c) ^ 3 * (u - s))) by (field; lra).
  assert (0 <= 6 * (a / c) ^ 3) by (assert (0 < (a / c) ^ 3) by (apply pow_lt, Rdiv_lt_0_compat; assumption); lra).
  rewrite Rabs_Ropp, Rabs_mult, Rabs_pos_eq by assumption. apply Rmult_le_compat_l; assumption.
Qed.

Lemma bounded_fermi r : 0 < r -> -1 <= r * coulomb_potential_fermi Sk r 1 c a <= 0.
Proof.
  intros Hr. pose proof (weaker_than_point _ (fun r => charge_density_fermi Sk r 1 c a) 1 _ 0 (proj1 (fermi_thm Sk 1 c a HS Hc Ha)) ltac:(intros q []) ltac:(intros q _; apply rho_fermi_nonneg; (assumption || lra))) as (H & _). destruct (H r Hr) as (L & U).
  apply Rle_div_l in L; [|lra]. split; [lra|]. nra.
Qed.

Lemma scale_error zn r Y Y' B : 0 < r -> Rabs (Y' - Y) <= B -> Rabs (- zn / r * Y' - - zn / r * Y) <= B * Rabs zn / r.
Proof.
  intros Hr H. rewrite <- Rmult_minus_distr_l, Rabs_mult. unfold Rdiv. rewrite Rabs_mult, Rabs_Ropp, (Rabs_pos_eq (/ r)) by (left; apply Rinv_0_lt_compat, Hr).
  replace (B * Rabs zn * / r) with (Rabs zn * / r * B) by ring. apply Rmult_le_compat_l; [apply Rmult_le_pos; [apply Rabs_pos|left; apply Rinv_0_lt_compat, Hr]|exact H].
Qed.

Lemma mul_close p s u e : 0 <= p -> Rabs (u - s) <= e -> Rabs (p * u - p * s) <= p * e.
Proof. intros Hp H. rewrite <- Rmult_minus_distr_l, Rabs_mult, Rabs_pos_eq by exact Hp. apply Rmult_le_compat_l; assumption. Qed.

Lemma potential_close_fermi r zn : 0 < r -> Rabs (coulomb_potential_fermi Tk r zn c a - coulomb_potential_fermi Sk r zn c a) <= 1 / 10 ^ 9 * (a / c) ^ 2 * Rabs zn / r.
Proof.
  intros Hr. pose proof (bounded_fermi r Hr) as Bd. destruct norm_rel as (N1 & N2 & N3). pose proof norm_abs as NA. destruct ratio as (t & Et & Ht & Et2). rewrite <- Et2 in *.
  unfold coulomb_potential_fermi in *. cbv zeta in *. set (N := fermi_model_norm_factor Sk c a) in *. set (N' := fermi_model_norm_factor Tk c a) in *. clearbody N N'.
  assert (HN' : 1 - 1 / 10 ^ 10 <= N') by lra. assert (T2 : 0 < t ^ 2 <= 1) by (split; [apply pow_lt; lra|rewrite <- (pow1 2); apply pow_incr; lra]). assert (T3 : 0 < t ^ 3 <= t ^ 2) by (split; [apply pow_lt; lra|replace (t ^ 3) with (t * t ^ 2) by ring; nra]).
  assert (Fin : forall Y Y', r * (- 1 / (N * r) * Y) <= 0 -> -1 <= r * (- 1 / (N * r) * Y) -> Rabs (Y' - Y) <= 21 * t ^ 2 * dl -> Rabs (- zn / (N' * r) * Y' - - zn / (N * r) * Y) <= 1 / 10 ^ 9 * t ^ 2 * Rabs zn / r).
  { intros Y Y' H1 H2 H3. replace (- zn / (N' * r) * Y') with (- zn / r * (Y' / N')) by (field; lra). replace (- zn / (N * r) * Y) with (- zn / r * (Y / N)) by (field; lra). apply scale_error; [exact Hr|].
    replace (r * (-1 / (N * r) * Y)) with (- (Y / N)) in H1, H2 by (field; lra).
    eapply Rle_trans; [apply (quot_close Y Y' N N' _ _ ltac:(lra) ltac:(lra) ltac:(lra) H3 NA)|]. apply Rle_div_l; [lra|]. unfold dl. nra. }
  pose proof neg_ca as NC. pose proof (T_abs 3 (- c / a) ltac:(lia) NC) as D3.
  destruct (Rlt_dec c r) as [Hcr | Hcr].
  - destruct Bd as (Bd1 & Bd2). apply Fin; [exact Bd2|exact Bd1|]. destruct (outside_exp r ltac:(lra)) as (Hy & Er & Hexp). set (y := (r - c) / c) in *. destruct (cube_exp y Hy) as (X1 & _).
    assert (NX : (c - r) / a <= 0) by (replace ((c - r) / a) with (- ((r - c) / a)) by (field; lra); assert (0 <= (r - c) / a) by (apply frac_pos; lra); lra).
    pose proof (HT 2 _ ltac:(lia) NX) as E2. pose proof (HT 3 _ ltac:(lia) NX) as E3. set (s2 := Sk 2%Z _) in *. set (u2 := Tk 2%Z _) in *. set (s3 := Sk 3%Z ((c - r) / a)) in *. set (u3 := Tk 3%Z ((c - r) / a)) in *.
    assert (D : 0 < dl) by (unfold dl; lra). set (w := exp ((c - r) / a)) in *. pose proof (exp_pos ((c - r) / a)) as Pw. fold w in Pw.
    assert (W1 : (1 + y) * w <= 1) by (eapply Rle_trans; [apply Rmult_le_compat_l; [lra|exact Hexp]|exact X1]). assert (W0 : w <= 1) by nra.
    replace (3 * (a * a) * r / (c * c * c)) with (3 * t ^ 2 * (1 + y)) by (rewrite Et, Er; field; lra). replace (6 * (a * a * a) / (c * c * c)) with (6 * t ^ 3) by (rewrite Et; field; lra).
    pose proof (mul_close (3 * t ^ 2 * (1 + y)) s2 u2 _ ltac:(apply Rmult_le_pos; lra) E2) as M2. pose proof (mul_close (6 * t ^ 3) s3 u3 _ ltac:(lra) E3) as M3.
    assert (Q2 : 3 * t ^ 2 * (1 + y) * (dl * w) <= 3 * t ^ 2 * dl) by (replace (3 * t ^ 2 * (1 + y) * (dl * w)) with (3 * t ^ 2 * dl * ((1 + y) * w)) by ring; assert (0 < 3 * t ^ 2 * dl) by nra; nra).
    assert (Q3 : 6 * t ^ 3 * (dl * w) <= 6 * t ^ 2 * dl) by (assert (0 < dl * w <= dl) by nra; nra).
    assert (Q4 : 6 * t ^ 3 * dl <= 6 * t ^ 2 * dl) by nra.
    apply Rabs_le_between in M2, M3, NA. apply Rabs_le. split; lra.
  - destruct Bd as (Bd1 & Bd2). apply Fin; [exact Bd2|exact Bd1|].
    assert (NX : (r - c) / a <= 0) by (replace ((r - c) / a) with (- ((c - r) / a)) by (field; lra); assert (0 <= (c - r) / a) by (apply frac_pos; lra); lra).
    pose proof (T_abs 2 _ ltac:(lia) NX) as E2. pose proof (T_abs 3 _ ltac:(lia) NX) as E3. set (s2 := Sk 2%Z _) in *. set (u2 := Tk 2%Z _) in *. set (s3 := Sk 3%Z ((r - c) / a)) in *. set (u3 := Tk 3%Z ((r - c) / a)) in *. set (s0 := Sk 3%Z (- c / a)) in *. set (u0 := Tk 3%Z (- c / a)) in *.
    assert (D : 0 < dl) by (unfold dl; lra). set (q := r / c). assert (Hq : 0 < q <= 1) by (unfold q; split; [apply Rdiv_lt_0_compat; lra|apply Rle_div_l; lra]).
    replace (3 * (a * a) * r / (c * c * c)) with (3 * t ^ 2 * q) by (unfold q; rewrite Et; field; lra). replace (6 * (a * a * a) / (c * c * c)) with (6 * t ^ 3) by (rewrite Et; field; lra).
    pose proof (mul_close (3 * t ^ 2 * q) s2 u2 _ ltac:(apply Rmult_le_pos; lra) E2) as M2. pose proof (mul_close (6 * t ^ 3) s3 u3 _ ltac:(lra) E3) as M3. pose proof (mul_close (6 * t ^ 3) s0 u0 _ ltac:(lra) D3) as M4.
    assert (Q2 : 3 * t ^ 2 * q * dl <= 3 * t ^ 2 * dl) by (apply Rmult_le_compat_r; nra). assert (Q4 : 6 * t ^ 3 * dl <= 6 * t ^ 2 * dl) by nra.
    apply Rabs_le_between in M2, M3, M4. apply Rabs_le. split; lra.
Qed.

Lemma bubble_norm_abs k : 0 <= k -> Rabs (fermi_bubble_model_norm_factor Tk c a k - fermi_bubble_model_norm_factor Sk c a k) <= (6 + 72 * k) * (a / c) ^ 2 * dl.
Proof.
  intros Hk. unfold fermi_bubble_model_norm_factor. cbv zeta. pose proof norm_abs as NA. set (N := fermi_model_norm_factor Sk c a) in *. set (N' := fermi_model_norm_factor Tk c a) in *. clearbody N N'.
  pose proof (T_abs 5 (- c / a) ltac:(lia) neg_ca) as H. set (s := Sk 5%Z _) in *. set (u := Tk 5%Z _) in *. destruct ratio as (t & Et & Ht & Et2). rewrite <- Et2 in *.
  set (p2 := 2 * PI * PI * (a * a) * k / (c * c)). set (p4 := 7 * PI * PI * PI * PI * (a * (a * (a * a))) * k / (5 * (c * (c * (c * c))))).
  replace (72 * (a * (a * (a * (a * a)))) * k / (c * (c * (c * (c * c))))) with (72 * k * t ^ 5) by (rewrite Et; field; lra).
  assert (T2 : 0 < t ^ 2) by (apply pow_lt; lra). assert (T3 : 0 < t ^ 3 <= t ^ 2) by (split; [apply pow_lt; lra|replace (t ^ 3) with (t * t ^ 2) by ring; nra]). assert (T5 : 0 < t ^ 5 <= t ^ 2) by (split; [apply pow_lt; lra|replace (t ^ 5) with (t ^ 3 * t ^ 2) by ring; assert (t ^ 3 <= 1) by (rewrite <- (pow1 3); apply pow_incr; lra); nra]).
  assert (Pk : 0 <= 72 * k * t ^ 5) by (apply Rmult_le_pos; lra). pose proof (mul_close _ s u dl Pk H) as M. assert (D : 0 < dl) by (unfold dl; lra).
  assert (Q1 : 6 * t ^ 3 * dl <= 6 * t ^ 2 * dl) by nra. assert (Q2 : 72 * k * t ^ 5 * dl <= 72 * k * t ^ 2 * dl) by (apply Rmult_le_compat_r; [lra|apply Rmult_le_compat_l; lra]).
  apply Rabs_le_between in NA, M. apply Rabs_le. split; lra.
Qed.

Lemma bounded_bubble r k : 0 < r -> 0 <= k -> -1 <= r * coulomb_potential_fermi_bubble Sk r 1 c a k <= 0.
Proof.
  intros Hr Hk. pose proof (weaker_than_point _ (fun r => charge_density_fermi_bubble Sk r 1 c a k) 1 _ 0 (proj1 (bubble_thm Sk 1 c a k HS Hc Ha (Rgt_not_eq _ _ (bubble_norm_thm _ _ _ _ HS Hc Ha Hk)))) ltac:(intros q []) ltac:(intros q _; apply rho_bubble_nonneg; (assumption || lra))) as (H & _). destruct (H r Hr) as (L & U).
  apply Rle_div_l in L; [|lra]. split; [lra|]. nra.
Qed.

Lemma term_le p d e P : 0 <= p -> Rabs d <= e -> p * e <= P -> - P <= p * d <= P.
Proof. intros Hp Hd HP. apply Rabs_le_between. rewrite Rabs_mult, Rabs_pos_eq by exact Hp. eapply Rle_trans; [|exact HP]. apply Rmult_le_compat_l; assumption. Qed.

Lemma potential_close_bubble r zn k : 0 < r -> 0 <= k -> Rabs (coulomb_potential_fermi_bubble Tk r zn c a k - coulomb_potential_fermi_bubble Sk r zn c a k) <= 2 / 10 ^ 8 * (a / c) ^ 2 * Rabs zn / r.
Proof.
  intros Hr Hk. pose proof (bounded_bubble r k Hr Hk) as Bd. destruct (bubble_norm_rel k Hk) as (N1 & N2 & N3). pose proof (bubble_norm_abs k Hk) as NA. destruct ratio as (t & Et & Ht & Et2). rewrite <- Et2 in *.
  unfold coulomb_potential_fermi_bubble in *. cbv zeta in *. set (N := fermi_bubble_model_norm_factor Sk c a k) in *. set (N' := fermi_bubble_model_norm_factor Tk c a k) in *. clearbody N N'.
  assert (HN' : (1 + 3 / 5 * k) * (1 - 4 / 10 ^ 11) <= N') by (eapply Rle_trans; [apply Rmult_le_compat_r; [lra|exact N1]|exact N2]).
  assert (T2 : 0 < t ^ 2 <= 1) by (split; [apply pow_lt; lra|rewrite <- (pow1 2); apply pow_incr; lra]).
  assert (T3 : 0 < t ^ 3 <= t ^ 2) by (split; [apply pow_lt; lra|replace (t ^ 3) with (t * t ^ 2) by ring; nra]). assert (T4 : 0 < t ^ 4 <= t ^ 2) by (split; [apply pow_lt; lra|replace (t ^ 4) with (t ^ 2 * t ^ 2) by ring; nra]). assert (T5 : 0 < t ^ 5 <= t ^ 2) by (split; [apply pow_lt; lra|replace (t ^ 5) with (t ^ 3 * t ^ 2) by ring; nra]).
  assert (D : 0 < dl) by (unfold dl; lra).
  assert (Fin : forall F0 F2 F0' F2', r * (- 1 / (N * r) * 3 / c ^ 3 * (F0 + k / (c * c) * F2)) <= 0 -> -1 <= r * (- 1 / (N * r) * 3 / c ^ 3 * (F0 + k / (c * c) * F2)) ->
    Rabs (3 / c ^ 3 * (F0' - F0)) <= 15 * t ^ 2 * dl -> Rabs (3 / c ^ 5 * (F2' - F2)) <= 282 * t ^ 2 * dl ->
    Rabs (- zn / (N' * r) * 3 / c ^ 3 * (F0' + k / (c * c) * F2') - - zn / (N * r) * 3 / c ^ 3 * (F0 + k / (c * c) * F2)) <= 2 / 10 ^ 8 * t ^ 2 * Rabs zn / r).
  { intros F0 F2 F0' F2' H1 H2 H3 H4. set (Y := 3 / c ^ 3 * (F0 + k / (c * c) * F2)). set (Y' := 3 / c ^ 3 * (F0' + k / (c * c) * F2')).
    replace (- zn / (N' * r) * 3 / c ^ 3 * (F0' + k / (c * c) * F2')) with (- zn / r * (Y' / N')) by (unfold Y'; field; repeat split; lra). replace (- zn / (N * r) * 3 / c ^ 3 * (F0 + k / (c * c) * F2)) with (- zn / r * (Y / N)) by (unfold Y; field; repeat split; lra). apply scale_error; [exact Hr|].
    replace (r * (-1 / (N * r) * 3 / c ^ 3 * (F0 + k / (c * c) * F2))) with (- (Y / N)) in H1, H2 by (unfold Y; field; repeat split; lra).
    assert (HY : Rabs (Y' - Y) <= (15 + 282 * k) * t ^ 2 * dl).
    { replace (Y' - Y) with (3 / c ^ 3 * (F0' - F0) + k * (3 / c ^ 5 * (F2' - F2))) by (unfold Y, Y'; field; lra). eapply Rle_trans; [apply Rabs_triang|]. rewrite (Rabs_mult k), (Rabs_pos_eq k) by lra.
      assert (k * Rabs (3 / c ^ 5 * (F2' - F2)) <= k * (282 * t ^ 2 * dl)) by (apply Rmult_le_compat_l; assumption). lra. }
    eapply Rle_trans; [apply (quot_close Y Y' N N' _ _ ltac:(lra) ltac:(lra) ltac:(lra) HY NA)|]. apply Rle_div_l; [lra|].
    apply Rle_trans with (2 / 10 ^ 8 * t ^ 2 * ((1 + 3 / 5 * k) * (1 - 4 / 10 ^ 11))); [|apply Rmult_le_compat_l; lra].
    replace ((15 + 282 * k) * t ^ 2 * dl + (6 + 72 * k) * t ^ 2 * dl) with (t ^ 2 * ((21 + 354 * k) * dl)) by ring. replace (2 / 10 ^ 8 * t ^ 2 * ((1 + 3 / 5 * k) * (1 - 4 / 10 ^ 11))) with (t ^ 2 * (2 / 10 ^ 8 * ((1 + 3 / 5 * k) * (1 - 4 / 10 ^ 11)))) by ring.
    apply Rmult_le_compat_l; [lra|]. unfold dl. lra. }
  pose proof neg_ca as NC. pose proof (T_abs 3 (- c / a) ltac:(lia) NC) as D3. pose proof (T_abs 5 (- c / a) ltac:(lia) NC) as D5. set (z3 := Sk 3%Z (- c / a)) in *. set (v3 := Tk 3%Z (- c / a)) in *. set (z5 := Sk 5%Z (- c / a)) in *. set (v5 := Tk 5%Z (- c / a)) in *.
  assert (P2 : 0 < t ^ 2 * dl) by (apply Rmult_lt_0_compat; lra). assert (P3 : t ^ 3 * dl <= t ^ 2 * dl) by (apply Rmult_le_compat_r; lra). assert (P4 : t ^ 4 * dl <= t ^ 2 * dl) by (apply Rmult_le_compat_r; lra). assert (P5 : t ^ 5 * dl <= t ^ 2 * dl) by (apply Rmult_le_compat_r; lra). assert (P3p : 0 < t ^ 3 * dl) by (apply Rmult_lt_0_compat; lra). assert (P4p : 0 < t ^ 4 * dl) by (apply Rmult_lt_0_compat; lra).
  assert (K3 : - (2 * t ^ 2 * dl) <= 2 * t ^ 3 * (v3 - z3) <= 2 * t ^ 2 * dl) by (apply (term_le _ _ dl); [lra|exact D3|lra]).
  assert (K5 : - (24 * t ^ 2 * dl) <= 24 * t ^ 5 * (v5 - z5) <= 24 * t ^ 2 * dl) by (apply (term_le _ _ dl); [lra|exact D5|lra]).
  destruct (Rlt_dec r c) as [Hcr | Hcr].
  - assert (NX : (r - c) / a <= 0) by (replace ((r - c) / a) with (- ((c - r) / a)) by (field; lra); assert (0 <= (c - r) / a) by (apply frac_pos; lra); lra).
    pose proof (T_abs 2 _ ltac:(lia) NX) as E2. pose proof (T_abs 3 _ ltac:(lia) NX) as E3. pose proof (T_abs 4 _ ltac:(lia) NX) as E4. pose proof (T_abs 5 _ ltac:(lia) NX) as E5.
    set (s2 := Sk 2%Z ((r - c) / a)) in *. set (u2 := Tk 2%Z ((r - c) / a)) in *. set (s3 := Sk 3%Z ((r - c) / a)) in *. set (u3 := Tk 3%Z ((r - c) / a)) in *.
    set (s4 := Sk 4%Z ((r - c) / a)) in *. set (u4 := Tk 4%Z ((r - c) / a)) in *. set (s5 := Sk 5%Z ((r - c) / a)) in *. set (u5 := Tk 5%Z ((r - c) / a)) in *.
    destruct Bd as (Bd1 & Bd2). set (q := r / c). assert (Er : r = q * c) by (unfold q; field; lra). assert (Hq : 0 < q <= 1) by (unfold q; split; [apply Rdiv_lt_0_compat; lra|apply Rle_div_l; lra]).
    assert (Q2 : 0 < q ^ 2 <= 1) by (split; [apply pow_lt; lra|rewrite <- (pow1 2); apply pow_incr; lra]). assert (Q3 : 0 < q ^ 3 <= 1) by (split; [apply pow_lt; lra|rewrite <- (pow1 3); apply pow_incr; lra]).
    apply Fin; [exact Bd2|exact Bd1| |].
    + match goal with |- Rabs ?X <= _ => replace X with (- (3 * (q * t ^ 2 * (u2 - s2))) + 3 * (2 * t ^ 3 * (u3 - s3)) - 3 * (2 * t ^ 3 * (v3 - z3))) end.
      2: { rewrite Et. replace r with (q * c) by (symmetry; exact Er). field. lra. }
      pose proof (term_le (q * t ^ 2) (u2 - s2) dl (t ^ 2 * dl) ltac:(apply Rmult_le_pos; lra) E2 ltac:(assert (q * (t ^ 2 * dl) <= 1 * (t ^ 2 * dl)) by (apply Rmult_le_compat_r; lra); lra)) as M2. pose proof (term_le (2 * t ^ 3) (u3 - s3) dl (2 * t ^ 2 * dl) ltac:(lra) E3 ltac:(lra)) as M3. apply Rabs_le. split; lra.
    + match goal with |- Rabs ?X <= _ => replace X with (- (3 * (q ^ 3 * t ^ 2 * (u2 - s2))) + 3 * (6 * q ^ 2 * t ^ 3 * (u3 - s3)) - 3 * (18 * q * t ^ 4 * (u4 - s4)) + 3 * (24 * t ^ 5 * (u5 - s5)) - 3 * (24 * t ^ 5 * (v5 - z5))) end.
      2: { rewrite Et. replace r with (q * c) by (symmetry; exact Er). field. lra. }
      pose proof (term_le (q ^ 3 * t ^ 2) (u2 - s2) dl (t ^ 2 * dl) ltac:(apply Rmult_le_pos; lra) E2 ltac:(assert (q ^ 3 * (t ^ 2 * dl) <= 1 * (t ^ 2 * dl)) by (apply Rmult_le_compat_r; lra); lra)) as M2.
      pose proof (term_le (6 * q ^ 2 * t ^ 3) (u3 - s3) dl (6 * t ^ 2 * dl) ltac:(apply Rmult_le_pos; lra) E3 ltac:(assert (q ^ 2 * (t ^ 3 * dl) <= 1 * (t ^ 3 * dl)) by (apply Rmult_le_compat_r; lra); lra)) as M3.
      pose proof (term_le (18 * q * t ^ 4) (u4 - s4) dl (18 * t ^ 2 * dl) ltac:(apply Rmult_le_pos; lra) E4 ltac:(assert (q * (t ^ 4 * dl) <= 1 * (t ^ 4 * dl)) by (apply Rmult_le_compat_r; lra); lra)) as M4.
      pose proof (term_le (24 * t ^ 5) (u5 - s5) dl (24 * t ^ 2 * dl) ltac:(lra) E5 ltac:(lra)) as M5. apply Rabs_le. split; lra.
  - assert (NX : (c - r) / a <= 0) by (replace ((c - r) / a) with (- ((r - c) / a)) by (field; lra); assert (0 <= (r - c) / a) by (apply frac_pos; lra); lra).
    destruct (outside_exp r ltac:(lra)) as (Hy & Er & Hexp). set (y := (r - c) / c) in *. destruct (cube_exp y Hy) as (X1 & X2 & X3).
    pose proof (HT 2 _ ltac:(lia) NX) as E2. pose proof (HT 3 _ ltac:(lia) NX) as E3. pose proof (HT 4 _ ltac:(lia) NX) as E4. pose proof (HT 5 _ ltac:(lia) NX) as E5.
    set (s2 := Sk 2%Z ((c - r) / a)) in *. set (u2 := Tk 2%Z ((c - r) / a)) in *. set (s3 := Sk 3%Z ((c - r) / a)) in *. set (u3 := Tk 3%Z ((c - r) / a)) in *.
    set (s4 := Sk 4%Z ((c - r) / a)) in *. set (u4 := Tk 4%Z ((c - r) / a)) in *. set (s5 := Sk 5%Z ((c - r) / a)) in *. set (u5 := Tk 5%Z ((c - r) / a)) in *.
    set (w := exp ((c - r) / a)) in *. pose proof (exp_pos ((c - r) / a)) as Pw. fold w in Pw. clearbody w.
    set (q := 1 + y) in *. assert (Hq : 1 <= q) by (unfold q; lra). clearbody q y.
    assert (Q2 : 0 < q ^ 2) by (apply pow_lt; lra). assert (Q3 : 0 < q ^ 3) by (apply pow_lt; lra).
    assert (W1 : q * w <= 1) by (eapply Rle_trans; [apply Rmult_le_compat_l; [lra|exact Hexp]|exact X1]). assert (W2 : q ^ 2 * w <= 4) by (eapply Rle_trans; [apply Rmult_le_compat_l; [lra|exact Hexp]|exact X2]). assert (W3 : q ^ 3 * w <= 4) by (eapply Rle_trans; [apply Rmult_le_compat_l; [lra|exact Hexp]|exact X3]). assert (W0 : w <= 1) by (apply Rle_trans with (2 := W1); rewrite <- (Rmult_1_l w) at 1; apply Rmult_le_compat_r; lra).
    assert (P3' : 0 < t ^ 3 * dl) by (apply Rmult_lt_0_compat; lra). assert (P4' : 0 < t ^ 4 * dl) by (apply Rmult_lt_0_compat; lra). assert (P5' : 0 < t ^ 5 * dl) by (apply Rmult_lt_0_compat; lra).
    destruct Bd as (Bd1 & Bd2). apply Fin; [exact Bd2|exact Bd1| |].
    + match goal with |- Rabs ?X <= _ => replace X with (- (3 * (2 * t ^ 3 * (v3 - z3))) + 3 * (q * t ^ 2 * (u2 - s2)) + 3 * (2 * t ^ 3 * (u3 - s3))) end.
      2: { rewrite Et, Er. field. lra. }
      pose proof (term_le (q * t ^ 2) (u2 - s2) (dl * w) (t ^ 2 * dl) ltac:(apply Rmult_le_pos; lra) E2 ltac:(assert (q * w * (t ^ 2 * dl) <= 1 * (t ^ 2 * dl)) by (apply Rmult_le_compat_r; lra); lra)) as M2.
      pose proof (term_le (2 * t ^ 3) (u3 - s3) (dl * w) (2 * t ^ 2 * dl) ltac:(lra) E3 ltac:(assert (w * (t ^ 3 * dl) <= 1 * (t ^ 3 * dl)) by (apply Rmult_le_compat_r; lra); lra)) as M3. apply Rabs_le. split; lra.
    + match goal with |- Rabs ?X <= _ => replace X with (- (3 * (24 * t ^ 5 * (v5 - z5))) + 3 * (q ^ 3 * t ^ 2 * (u2 - s2)) + 3 * (6 * q ^ 2 * t ^ 3 * (u3 - s3)) + 3 * (18 * q * t ^ 4 * (u4 - s4)) + 3 * (24 * t ^ 5 * (u5 - s5))) end.
      2: { rewrite Et, Er. field. lra. }
      pose proof (term_le (q ^ 3 * t ^ 2) (u2 - s2) (dl * w) (4 * t ^ 2 * dl) ltac:(apply Rmult_le_pos; lra) E2 ltac:(assert (q ^ 3 * w * (t ^ 2 * dl) <= 4 * (t ^ 2 * dl)) by (apply Rmult_le_compat_r; lra); lra)) as M2.
      pose proof (term_le (6 * q ^ 2 * t ^ 3) (u3 - s3) (dl * w) (24 * t ^ 2 * dl) ltac:(apply Rmult_le_pos; lra) E3 ltac:(assert (q ^ 2 * w * (t ^ 3 * dl) <= 4 * (t ^ 3 * dl)) by (apply Rmult_le_compat_r; lra); lra)) as M3.
      pose proof (term_le (18 * q * t ^ 4) (u4 - s4) (dl * w) (18 * t ^ 2 * dl) ltac:(apply Rmult_le_pos; lra) E4 ltac:(assert (q * w * (t ^ 4 * dl) <= 1 * (t ^ 4 * dl)) by (apply Rmult_le_compat_r; lra); lra)) as M4.
      pose proof (term_le (24 * t ^ 5) (u5 - s5) (dl * w) (24 * t ^ 2 * dl) ltac:(lra) E5 ltac:(assert (w * (t ^ 5 * dl) <= 1 * (t ^ 5 * dl)) by (apply Rmult_le_compat_r; lra); lra)) as M5. apply Rabs_le. split; lra.
Qed.
End Close.

(** ** The tabulated function *)
Lemma tabulated_close Sk : fermi_series Sk -> forall k x, (2 <= k <= 7)%Z -> x <= 0 -> Rabs (tabulated_sk k x - Sk k x) <= dl * exp x.
Proof. intros HS k x Hk Hx. destruct (sk_accuracy_thm Sk k x HS Hk Hx) as (v & E & B & _). unfold tabulated_sk. rewrite E. exact B. Qed.

Lemma fermi_density_thm : forall Sk r zn c a, fermi_series Sk -> 0 < c -> 0 < a ->
  Rabs (charge_density_fermi tabulated_sk r zn c a - charge_density_fermi Sk r zn c a) <= 5 / 10 ^ 11 * Rabs (charge_density_fermi Sk r zn c a).
Proof. intros Sk r zn c a HS Hc Ha. apply density_close_fermi; [exact HS|exact (tabulated_close Sk HS)|exact Hc|exact Ha]. Qed.

Lemma bubble_density_thm : forall Sk r zn c a k, fermi_series Sk -> 0 < c -> 0 < a -> 0 <= k ->
  Rabs (charge_density_fermi_bubble tabulated_sk r zn c a k - charge_density_fermi_bubble Sk r zn c a k) <= 5 / 10 ^ 11 * Rabs (charge_density_fermi_bubble Sk r zn c a k).
Proof. intros Sk r zn c a k HS Hc Ha Hk. apply density_close_bubble; [exact HS|exact (tabulated_close Sk HS)|exact Hc|exact Ha|exact Hk]. Qed.

Lemma fermi_radius_thm : forall Sk (zn : Z) c a, fermi_series Sk -> zn <> 0%Z -> 0 < c -> 0 < a ->
  Rabs (rms_radius_fermi tabulated_sk zn c a - rms_radius_fermi Sk zn c a) <= 5 / 10 ^ 11 * rms_radius_fermi Sk zn c a.
Proof. intros Sk zn c a HS Hz Hc Ha. apply rms_close_fermi; [exact HS|exact (tabulated_close Sk HS)|exact Hc|exact Ha|exact Hz]. Qed.

Lemma bubble_radius_thm : forall Sk (zn : Z) c a k, fermi_series Sk -> zn <> 0%Z -> 0 < c -> 0 < a -> 0 <= k ->
  Rabs (rms_radius_fermi_bubble tabulated_sk zn c a k - rms_radius_fermi_bubble Sk zn c a k) <= 5 / 10 ^ 11 * rms_radius_fermi_bubble Sk zn c a k.
Proof. intros Sk zn c a k HS Hz Hc Ha Hk. apply rms_close_bubble; [exact HS|exact (tabulated_close Sk HS)|exact Hc|exact Ha|exact Hz|exact Hk]. Qed.

Lemma fermi_potential_thm : forall Sk r zn c a, fermi_series Sk -> 0 < a -> a <= c -> 0 < r ->
  Rabs (coulomb_potential_fermi tabulated_sk r zn c a - coulomb_potential_fermi Sk r zn c a) <= 1 / 10 ^ 9 * (a / c) ^ 2 * Rabs zn / r.
Proof. intros Sk r zn c a HS Ha Hac Hr. apply potential_close_fermi; [exact HS|exact (tabulated_close Sk HS)|lra|exact Ha|exact Hac|exact Hr]. Qed.

Lemma bubble_potential_thm : forall Sk r zn c a k, fermi_series Sk -> 0 < a -> a <= c -> 0 <= k -> 0 < r ->
  Rabs (coulomb_potential_fermi_bubble tabulated_sk r zn c a k - coulomb_potential_fermi_bubble Sk r zn c a k) <= 2 / 10 ^ 8 * (a / c) ^ 2 * Rabs zn / r.
Proof. intros Sk r zn c a k HS Ha Hac Hk Hr. apply potential_close_bubble; [exact HS|exact (tabulated_close Sk HS)|lra|exact Ha|exact Hac|exact Hr|exact Hk]. Qed.
