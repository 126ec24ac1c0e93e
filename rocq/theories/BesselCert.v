(** * The computations by which the table of Bessel functions is certified *)

From Coq Require Import ZArith List Bool.
From Verif Require Import BesselRow BesselRows1 BesselRows2 BesselRows3 BesselRows4 BesselData.
Import ListNotations.
Open Scope Z_scope.

Definition pows : list Z := Eval compute in map (fun k => 10 ^ Z.of_nat k) (seq 0 41).

(** a literal in units of 10^(-34), cut off below *)
Definition dec (m e : Z) : Z := if 34 <? e then 0 else nth (Z.to_nat (34 - e)) pows 0 * m.

(** digits and exponents are in the ranges expected *)
Definition lit_ok (m e : Z) : bool := (0 <=? e) && (0 <=? m) && (m <? 100000000000000000).
Fixpoint row_ok (r : brow) : bool := match r with bnil => true | bcons m e r => lit_ok m e && row_ok r end.

(** the sum of the violations of the three-term recurrence at x = i/100 *)
Fixpoint residue (i k a b : Z) (r : brow) (s : Z) : Z :=
  match r with
  | bnil => s
  | bcons m e r => let c := dec m e in residue i (k + 200) b c r (s + Z.abs (i * (a - c) - k * b))
  end.

Definition row_check (i : Z) (r : brow) : bool :=
  row_ok r && (blen r =? 60)%nat && (dec (fst (bnth r 59)) (snd (bnth r 59)) =? 0) &&
  match r with bcons m e (bcons m' e' r') => residue i 300 (dec m e) (dec m' e') r' 0 <=? 36 * 10 ^ 21 | _ => false end.

(** 50 (1 - 2 x K_0(x)) at x = i/100 *)
Definition wval (i : Z) (r : brow) : Z := 50 * 10 ^ 34 - i * dec (fst (bnth r 0)) (snd (bnth r 0)).
Definition qexp : Z := 980198673306755302.

Fixpoint rows_check (i : Z) (w : Z) (t : list brow) : bool :=
  match t with
  | [] => true
  | r :: t => let w' := wval i r in row_check i r && (Z.abs (w' * 10 ^ 18 - qexp * w) <=? 18 * 10 ^ 37) && rows_check (i + 1) w' t
  end.

(** the last row of a part, from which the next one continues *)
Definition wlast (i : Z) (t : list brow) : Z := wval i (last t bnil).

Definition head_ok : bool := match bessel_rows_1 with r :: _ => (fst (bnth r 0) =? 10 ^ 16) && (snd (bnth r 0) =? 16) && forallb (fun l => fst (bnth r l) =? 0) (seq 1 59) | [] => false end.

Lemma cert_0 : head_ok = true.
Proof. vm_cast_no_check (eq_refl true). Qed.
Lemma cert_1 : rows_check 1 (wval 0 (hd bnil bessel_rows_1)) (tl bessel_rows_1) = true.
Proof. vm_cast_no_check (eq_refl true). Qed.
Lemma cert_2 : rows_check 400 (wlast 399 bessel_rows_1) bessel_rows_2 = true.
Proof. vm_cast_no_check (eq_refl true). Qed.
Lemma cert_3 : rows_check 800 (wlast 799 bessel_rows_2) bessel_rows_3 = true.
Proof. vm_cast_no_check (eq_refl true). Qed.
Lemma cert_4 : rows_check 1200 (wlast 1199 bessel_rows_3) bessel_rows_4 = true.
Proof. vm_cast_no_check (eq_refl true). Qed.
Lemma lengths : length bessel_rows_1 = 400%nat /\ length bessel_rows_2 = 400%nat /\ length bessel_rows_3 = 400%nat /\ length bessel_rows_4 = 401%nat.
Proof. repeat split; reflexivity. Qed.
