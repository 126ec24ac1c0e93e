(** * C01-C05: component lists, lookup, binomials, factorials *)

From Coq Require Import ZArith List Lia Bool.
From Verif Require Import Base CartModel CartProofs CartOrder BinomModel BinomProofs.
Import ListNotations.
Open Scope Z_scope.

(** C01: the component list of a shell is a complete duplicate-free enumeration
    and has the size reported by libgrpp_get_shell_size. *)
Theorem C01_components_complete : forall o L, 0 <= L ->
  exists l, shell_components o L = Ok l /\ NoDup l /\
    (forall r s t, In (r, s, t) l <-> 0 <= r /\ 0 <= s /\ 0 <= t /\ r + s + t = L) /\
    2 * Z.of_nat (length l) = (L + 1) * (L + 2) /\
    Z.of_nat (length l) = n_cart L.
Proof. exact components_complete. Qed.
Print Assumptions C01_components_complete.

Example C01_case_L2 : shell_components OrderDirac 2 =
  Ok [(2,0,0); (1,1,0); (1,0,1); (0,2,0); (0,1,1); (0,0,2)].
Proof. vm_compute. reflexivity. Qed.

(** C01: whatever the buffer contained, exactly its cells are written and every
    cell is written. *)
Theorem C01_buffer_exactly_filled : forall o L (a : arr Z),
  0 <= L -> adims a = [3 * n_cart L] ->
  exists a', cartesian_generator o L a = Ok (n_cart L, (a', n_cart L)) /\
    adims a' = adims a /\
    forall i, 0 <= i < 3 * n_cart L -> exists v, acell a' [i] = Some v.
Proof. exact generator_fills_buffer. Qed.
Print Assumptions C01_buffer_exactly_filled.

Example C01_buffer_case : adims (@aundef Z [3 * n_cart 3]) = [3 * n_cart 3] /\ n_cart 3 = 10.
Proof. split; reflexivity. Qed.

(** C01: a buffer with one component less is overrun, so the size is exact. *)
Example C01_smaller_buffer_overruns :
  cartesian_generator OrderDirac 3 (aundef [3 * (n_cart 3 - 1)]) = Fail OutOfBounds.
Proof. vm_compute. reflexivity. Qed.

(** C01: the same for the ascending list used by the spherical harmonics. *)
Theorem C01_harmonic_combinations_complete : forall L, 0 <= L ->
  exists a l, generate_cartesian_combinations L = Ok (a, n_cart L) /\
    read_triples (Z.to_nat (n_cart L)) 0 a = Ok l /\ NoDup l /\
    (forall r s t, In (r, s, t) l <-> 0 <= r /\ 0 <= s /\ 0 <= t /\ r + s + t = L) /\
    Z.of_nat (length l) = n_cart L.
Proof. exact sph_combinations_complete. Qed.
Print Assumptions C01_harmonic_combinations_complete.

(** C02: both selectable orders give the same list, for every L. *)
Theorem C02_orders_coincide : forall L,
  shell_components OrderDirac L = shell_components OrderTurbomole L.
Proof. exact orders_coincide. Qed.
Print Assumptions C02_orders_coincide.

Example C02_case : exists l, shell_components OrderTurbomole 4 = Ok l /\ length l = 15%nat.
Proof. eexists; split; [vm_compute; reflexivity | reflexivity]. Qed.

(** C02: the common order, in closed form: component x^n y^l z^m is number
    (l+m)(l+m+1)/2 + m of its shell, both in the list and for the lookup. *)
Theorem C02_position_of_component : forall o n l m, 0 <= n -> 0 <= l -> 0 <= m ->
  nlm_to_linear o n l m = Ok ((l + m) * (l + m + 1) / 2 + m) /\
  exists comps, shell_components o (n + l + m) = Ok comps /\
    nth_error comps (Z.to_nat ((l + m) * (l + m + 1) / 2 + m)) = Some (n, l, m).
Proof. exact position_formula. Qed.
Print Assumptions C02_position_of_component.

(** C03: a triple of non-negative exponents is found at its unique position... *)
Theorem C03_lookup_found : forall o n l m, 0 <= n -> 0 <= l -> 0 <= m ->
  exists comps k, shell_components o (n + l + m) = Ok comps /\
    nlm_to_linear o n l m = Ok k /\ 0 <= k < n_cart (n + l + m) /\
    nth_error comps (Z.to_nat k) = Some (n, l, m) /\
    (forall j, nth_error comps j = Some (n, l, m) -> Z.of_nat j = k).
Proof. exact nlm_lookup_found. Qed.
Print Assumptions C03_lookup_found.

(** ... and a triple with a negative exponent gives the list length. *)
Theorem C03_lookup_missing : forall o n l m, -1 <= n + l + m -> n < 0 \/ l < 0 \/ m < 0 ->
  nlm_to_linear o n l m = Ok (n_cart (n + l + m)).
Proof. exact nlm_lookup_missing. Qed.
Print Assumptions C03_lookup_missing.

Example C03_case : nlm_to_linear OrderDirac 1 0 1 = Ok 2.
Proof. vm_compute. reflexivity. Qed.
Example C03_case_missing : nlm_to_linear OrderDirac (-1) 2 0 = Ok 3 /\ n_cart 1 = 3.
Proof. vm_compute. split; reflexivity. Qed.

(** C04: binomial never returns a wrong nonzero value, and returns the exact
    value whenever C(n,k) + n fits in 64 bits. *)
Theorem C04_binomial_exact_or_zero : forall n k,
  0 <= n <= uint64_max -> 0 <= k <= uint64_max ->
  exists v, binomial n k = Ok v /\
    (v = choose (Z.to_nat n) (Z.to_nat k) \/
     v = 0 /\ uint64_max < choose (Z.to_nat n) (Z.to_nat k) + n).
Proof. exact binomial_correct. Qed.
Print Assumptions C04_binomial_exact_or_zero.

(** the specification [choose] really is n!/(k!(n-k)!) *)
Theorem C04_choose_is_factorial_quotient : forall n k, (k <= n)%nat ->
  choose n k * factz k * factz (n - k) = factz n.
Proof. exact choose_fact. Qed.
Print Assumptions C04_choose_is_factorial_quotient.

Example C04_case : binomial 60 30 = Ok 118264581564861424.
Proof. vm_compute. reflexivity. Qed.
(** the gcd branch is exercised: 67 choose 33 > 2^63 *)
Example C04_case_gcd : binomial 67 33 = Ok 14226520737620288370.
Proof. vm_compute. reflexivity. Qed.
Example C04_case_overflow : binomial 68 34 = Ok 0.
Proof. vm_compute. reflexivity. Qed.

(** C05 *)
Theorem C05_factorial : forall n,
  factorial n = Ok (if n <? 0 then 1 else factz (Z.to_nat n)).
Proof.
  intros n. destruct (Z.ltb_spec n 0); [apply factorial_neg | apply factorial_ok]; assumption.
Qed.
Print Assumptions C05_factorial.

Example C05_factorial_case : factorial 25 = Ok 15511210043330985984000000.
Proof. vm_compute. reflexivity. Qed.

(** factorial_ratio n m returns the fraction a/b with a/b = n!/m! *)
Theorem C05_factorial_ratio : forall n m, 0 <= n -> 0 <= m ->
  exists a b, factorial_ratio n m = Ok (a, b) /\ 0 < b /\
    a * factz (Z.to_nat m) = b * factz (Z.to_nat n).
Proof. exact factorial_ratio_ok. Qed.
Print Assumptions C05_factorial_ratio.

Example C05_ratio_case : factorial_ratio 3 5 = Ok (1, 20).
Proof. reflexivity. Qed.

Theorem C05_double_factorial : forall n,
  double_factorial n =
  if (-1 <=? n) && (n <=? 30) then Ok (dfactz (Z.to_nat n)) else Fail AssertFailed.
Proof.
  intros n. destruct (Z.leb_spec (-1) n); destruct (Z.leb_spec n 30); cbn [andb];
    try (apply double_factorial_ok; lia); apply double_factorial_abort; lia.
Qed.
Print Assumptions C05_double_factorial.

Example C05_df_case : dfactz 7 = 105 /\ double_factorial 31 = Fail AssertFailed.
Proof. split; reflexivity. Qed.
