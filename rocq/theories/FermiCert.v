(** * The tabulated values of S_k(x) are accurate

    The values at -10 are continued in steps of 1/200 by Taylor polynomials in
    integer arithmetic; every entry of the table is compared with the result. *)

From Coq Require Import ZArith List Bool Lia Reals Lra.
From Coquelicot Require Import Coquelicot.
From Verif Require Import OneElProofs SpecExp BoysTable BoysCert FermiTable FermiSk NucPot FermiTaylor.
Import ListNotations.
Open Scope Z_scope.

Definition fM : Z := 1000000000000000000000.

(** c1 h + c2 h^2/2 + c3 h^3/6 + c4 h^4/24 + c5 h^5/120 with h = 1/200 *)
Definition horner (c1 c2 c3 c4 c5 : Z) : Z := (c1 + (c2 + (c3 + (c4 + c5 / 1000) / 800) / 600) / 400) / 200.

(** one step for consecutive orders, preceded by the orders a1 (the nearest) to a5 *)
Fixpoint adv (a1 a2 a3 a4 a5 : Z) (l : list Z) : list Z :=
  match l with [] => [] | c :: l => (c + horner a1 a2 a3 a4 a5) :: adv c a1 a2 a3 a4 l end.

(** orders 0 to -4 from q = e^x *)
Definition lows (q : Z) : Z * Z * Z * Z * Z :=
  let s := - (q * fM) / (fM + q) in
  let w := fM + 2 * s in
  let a := s * (fM + s) / fM in
  let b := a * w / fM in
  let c := (b * w + 2 * (a * a)) / fM in
  let d := (c * w + 6 * (a * b)) / fM in
  (s, a, b, c, d).

Definition close (tol t c : Z) : bool := Z.abs (t - c) <=? tol.

Fixpoint fermi_ok (T : list (list Z)) (q : Z) (c : list Z) (E : Z) : bool :=
  match T with
  | [] => true
  | r :: T' =>
      (E * 10000000000000 <=? 5 * q) && (0 <? q) &&
      match T' with
      | [] => all2 (close (16 * q / 10000000000000)) (skipn 4 r) (skipn 1 c)
      | _ => let '(s, a, b, e, d) := lows q in
             all2 (close (16 * q / 10000000000000)) (skipn 1 r) (a :: s :: c) &&
             fermi_ok T' (q + horner q q q q q) (adv s a b e d c) (E + E / 199 + 2 * q / 10000000000000000 + 8)
      end
  end.

Definition q_start : Z := 45399929762484851.
Definition c_start : list Z := [-45398899216864646; -45399414484476335; -45399672121747766; -45399800941538694; -45399865351819233; -45399897557087862; -45399913659764963].

Lemma fermi_certificate : fermi_ok fermi_rows q_start c_start 10 && forallb (fun r => (length r =? 10)%nat) fermi_rows && (length fermi_rows =? 2001)%nat = true.
Proof. vm_cast_no_check (@eq_refl bool true). Qed.
