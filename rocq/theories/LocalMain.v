(** * What the radially local routine computes *)

From Coq Require Import ZArith Reals Lra Lia List Bool.
From Coquelicot Require Import Coquelicot.
From Verif Require Import Base Loops BinomModel BinomProofs CartModel CartProofs HeapModel OneElModel OneElProofs OneElInt OneElPairs OneElSpec ParamsModel Sums
  SphModel SphSpec SphPoly SphProofs SphTables SphInt SphOrtho SphAngular SphThms SphSpan SphAdd RadialModel RadialSpec PiBounds OutercoreModel OutercoreProofs NucModel NucProofs
  NucPotSpec NucPot GaussMoment RadialTables Type2Model Type2Spec Type2Proj Type2Radial Type2Error Type2Value Type2Main Type2Acc LocalModel LocalSpec LocalInt LocalExp.
Import ListNotations.
Open Scope R_scope.

(** ** The table of radial integrals *)
Definition table1_of (t : rtable1) (LM : nat) (q : nat -> nat -> R) : Prop :=
  forall l n : nat, (l <= LM)%nat -> (n <= LM)%nat -> get_radial_type1_integral t (Z.of_nat l) (Z.of_nat n) = Ok (q l n).

(** the integrand of the entry l, n *)
Definition pair_integrand (bessel : Z -> R -> R) (U : R -> R) (LA LB : nat) (aA aB : R) (CA CB : R * R * R) (l n : nat) : R -> R :=
  type1_integrand bessel U (sqrt (sq3 (pair_k_vector aA aB CA CB))) aA aB (sq3 CA) (sq3 CB)
    (4 * PI * gaussian_norm_factor (Z.of_nat LA) 0 0 aA * gaussian_norm_factor (Z.of_nat LB) 0 0 aB) (Z.of_nat l) (Z.of_nat n).

Lemma local_table_ok fuel par bessel aA aB CA CB U (LA LB : nat) : (14 <= fuel)%nat ->
  exists t q, local_radial_table fuel par bessel aA aB CA CB U (Z.of_nat LA) (Z.of_nat LB) = Ok t /\ table1_of t (LA + LB) q /\
    forall l n, (l <= LA + LB)%nat -> (n <= LA + LB)%nat -> exists c, adaptive 10000 2047 (pair_integrand bessel U LA LB aA aB CA CB l n) None (par_radial par) (q l n) c.
Proof.
  intros Hf. unfold local_radial_table.
  match goal with |- context[tabulate_radial_type1_integrals _ _ _ ?P _ _] => set (p := P) end.
  destruct (type1_table fuel par bessel p (Z.of_nat LA + Z.of_nat LB) ltac:(lia) Hf) as (t & E & G). rewrite E.
  exists t, (fun l n => match get_radial_type1_integral t (Z.of_nat l) (Z.of_nat n) with Ok v => v | Fail _ => 0 end). split; [reflexivity|]. split.
  - intros l n Hl Hn. destruct (G (Z.of_nat l) (Z.of_nat n) ltac:(lia) ltac:(lia)) as (v & c & Ev & _). rewrite Ev. reflexivity.
  - intros l n Hl Hn. destruct (G (Z.of_nat l) (Z.of_nat n) ltac:(lia) ltac:(lia)) as (v & c & Ev & Ad). rewrite Ev. exists c. exact Ad.
Qed.

(** ** The sum over lambda *)
Lemma local_lambda_ok st t (LM a b c : nat) q k : init_tables st -> table1_of t LM q -> (a + b + c <= LM)%nat -> (LM <= 14)%nat ->
  local_lambda_loop st t (Z.of_nat LM) (Z.of_nat (a + b + c)) (Z.of_nat a) (Z.of_nat b) (Z.of_nat c) k =
    Ok (lamsum 0 (a + b + c) (fun l => trunc (1 / 10 ^ 16) (q l (a + b + c)%nat) * omega1 l a b c k)).
Proof.
  intros HI HT Hn H14. unfold local_lambda_loop.
  destruct (loop_sum 0 (Z.of_nat LM + 1) (fun _ : R => True) (fun _ : unit => True) (fun s _ => s)
    (fun l _ => trunc (1 / 10 ^ 16) (q (Z.to_nat l) (a + b + c)%nat) * omega1 (Z.to_nat l) a b c k)
    (fun lambda sum =>
      let* Q := get_radial_type1_integral t lambda (Z.of_nat (a + b + c)) in
      if Rlt_dec (Rabs Q) (1 / 10 ^ 16) then Ok sum
      else let* omega := angular_type1_integral st lambda (Z.of_nat a) (Z.of_nat b) (Z.of_nat c) k in Ok (sum + omega * Q)) 0) as (s & E & _ & V).
  - lia.
  - exact I.
  - intros l s Hl _. rewrite <- (Z2Nat.id l) by lia. generalize (Z.to_nat l) (ltac:(lia) : (Z.to_nat l <= LM)%nat). clear l Hl. intros l Hl. rewrite Nat2Z.id. rewrite HT by assumption. cbn [bind]. unfold trunc. destruct (Rlt_dec _ _) as [H1|H1].
    + exists s. split; [reflexivity|]. split; [exact I|]. intros _ _. ring.
    + destruct (init_tables_ok st HI) as (S0 & Mx). rewrite (type1_ok st l a b c k S0) by (try lia; left; lia). cbn [bind]. eexists. split; [reflexivity|]. split; [exact I|]. intros _ _.
      f_equal. rewrite Rmult_comm. f_equal. unfold omega1. apply zsum_ext. intros mu Hmu. rewrite sph_value_ok by lia. reflexivity.
  - rewrite E. f_equal. specialize (V Datatypes.tt I). cbv beta in V. rewrite V, Rplus_0_l. apply (lambda_sum LM a b c k (fun l => trunc (1 / 10 ^ 16) (q l (a + b + c)%nat))); assumption.
Qed.

(** ** The matrix *)
Lemma local_value fuel par bessel st A B C U aA aB (LA LB : nat) orgA orgB bra ket ca cb : (14 <= fuel)%nat -> init_tables st ->
  vshell_is A (Z.of_nat LA) orgA bra ca -> vshell_is B (Z.of_nat LB) orgB ket cb -> ca <> [] -> cb <> [] -> (LA + LB <= 14)%nat ->
  exists q, (forall l n, (l <= LA + LB)%nat -> (n <= LA + LB)%nat -> exists c, adaptive 10000 2047 (pair_integrand bessel U LA LB aA aB (minus3 C orgA) (minus3 C orgB) l n) None (par_radial par) (q l n) c) /\
    forall M sz, adims M = [sz] -> (sv_size A * sv_size B <= sz)%Z ->
      exists M', radially_local_integrals fuel par bessel st A aA B aB C U M = Ok M' /\ ismat M' sz (sv_size A) (sv_size B)
        (fun i j => pair_computed q (nth_comp ca i) (nth_comp cb j) (minus3 C orgA) (minus3 C orgB) (pair_k_vector aA aB (minus3 C orgA) (minus3 C orgB))) /\ outside (sv_size A * sv_size B) M M'.
Proof.
  intros Hf HI HA HB NA NB H14. destruct HA as (_ & OA & _ & CA & KA). destruct HB as (_ & OB & _ & CB & KB).
  assert (EX : minus3 C orgA = sub3 C orgA /\ minus3 C orgB = sub3 C orgB) by (split; reflexivity). destruct EX as (-> & ->).
  destruct (local_table_ok fuel par bessel aA aB (sub3 C orgA) (sub3 C orgB) U LA LB Hf) as (t & q & Et & Tq & Ad). exists q. split; [exact Ad|]. clear Ad. intros M sz DM Hsz.
  destruct CA as (SA & CA0). destruct CB as (SB & CB0). pose proof (conj SA CA0 : holds_comps A ca) as CA. pose proof (conj SB CB0 : holds_comps B cb) as CB.
  assert (PA : (0 < sv_size A)%Z) by (destruct ca; [contradiction|cbn in SA; lia]). assert (PB : (0 < sv_size B)%Z) by (destruct cb; [contradiction|cbn in SB; lia]).
  destruct (memset0_get (sv_size A * sv_size B) sz M DM ltac:(lia)) as (M0 & E0 & D0 & _ & F0).
  unfold radially_local_integrals. rewrite (proj2 (Z.ltb_lt 0 (sv_size A)) PA), (proj2 (Z.ltb_lt 0 (sv_size B)) PB). cbn [massert bind]. rewrite E0. cbn [bind]. cbv zeta.
  rewrite (first_momentum_ok _ _ _ CA KA NA). cbn [bind]. rewrite (first_momentum_ok _ _ _ CB KB NB). cbn [bind]. rewrite OA, OB, Et. cbn [bind].
  set (kv := pair_k_vector aA aB (sub3 C orgA) (sub3 C orgB)) in *.
  set (v := fun i j => pair_computed q (nth_comp ca i) (nth_comp cb j) (sub3 C orgA) (sub3 C orgB) kv).
  set (entry := fun i j : Z => let* cA := component A i in let* cB := component B j in
    expansion_loops (1 / 10 ^ 13) cA cB (sub3 C orgA) (sub3 C orgB) (fun factor a b c d e f chi_AB =>
      let* sum_omega_Q := local_lambda_loop st t (Z.of_nat LA + Z.of_nat LB) (a + b + c + d + e + f) (a + d) (b + e) (c + f) kv in
      Ok (chi_AB + factor * sum_omega_Q)) 0).
  destruct (fill_matrix (sv_size A) (sv_size B) v entry M0 sz D0 ltac:(lia) ltac:(lia) Hsz) as (M' & EM & IM & OM).
  - intros i j Hi Hj. unfold entry.
    destruct (nth_error ca (Z.to_nat i)) as [cA|] eqn:NiA; [|apply nth_error_None in NiA; lia]. destruct (nth_error cb (Z.to_nat j)) as [cB|] eqn:NjB; [|apply nth_error_None in NjB; lia].
    pose proof (component_ok A ca (Z.to_nat i) cA CA NiA) as EcA. pose proof (component_ok B cb (Z.to_nat j) cB CB NjB) as EcB. rewrite Z2Nat.id in EcA, EcB by lia. rewrite EcA. cbn [bind]. rewrite EcB. cbn [bind].
    unfold v, nth_comp. rewrite (nth_error_nth ca _ (0, 0, 0)%Z NiA), (nth_error_nth cb _ (0, 0, 0)%Z NjB).
    destruct cA as [[nA lA] mA]. destruct cB as [[nB lB] mB]. cbn [to_nats]. pose proof (KA _ _ _ (nth_error_In _ _ NiA)) as (A1 & A2 & A3 & A4). pose proof (KB _ _ _ (nth_error_In _ _ NjB)) as (B1 & B2 & B3 & B4).
    rewrite <- (Z2Nat.id nA) at 1 by lia. rewrite <- (Z2Nat.id lA) at 1 by lia. rewrite <- (Z2Nat.id mA) at 1 by lia. rewrite <- (Z2Nat.id nB) at 1 by lia. rewrite <- (Z2Nat.id lB) at 1 by lia. rewrite <- (Z2Nat.id mB) at 1 by lia.
    assert (SmA : (Z.to_nat nA + Z.to_nat lA + Z.to_nat mA = LA)%nat) by lia. assert (SmB : (Z.to_nat nB + Z.to_nat lB + Z.to_nat mB = LB)%nat) by lia.
    clear EcA EcB NiA NjB A1 A2 A3 A4 B1 B2 B3 B4. revert SmA SmB. generalize (Z.to_nat nA) (Z.to_nat lA) (Z.to_nat mA) (Z.to_nat nB) (Z.to_nat lB) (Z.to_nat mB). clear nA lA mA nB lB mB. intros nA lA mA nB lB mB SmA SmB.
    match goal with |- expansion_loops _ _ _ _ _ ?BODY _ = _ => set (body := BODY) end.
    destruct (adds_expansion (fun _ : R => True) (fun _ : unit => True) (fun s _ => s) (1 / 10 ^ 13) nA lA mA nB lB mB (sub3 C orgA) (sub3 C orgB) body
      (fun a b c d e f _ => lamsum 0 (a + d + (b + e) + (c + f)) (fun l => trunc (1 / 10 ^ 16) (q l (a + d + (b + e) + (c + f))%nat) * omega1 l (a + d) (b + e) (c + f) kv))
      ltac:(lia) ltac:(lia) ltac:(lia) ltac:(lia) ltac:(lia) ltac:(lia)) with (s := 0) as (s & Es & _ & Vs).
    + intros a b c d e f w Ha Hb Hc Hd He Hf' s _. unfold body.
      replace (Z.of_nat a + Z.of_nat b + Z.of_nat c + Z.of_nat d + Z.of_nat e + Z.of_nat f)%Z with (Z.of_nat (a + d + (b + e) + (c + f))) by lia. rewrite <- !Nat2Z.inj_add.
      rewrite (local_lambda_ok st t (LA + LB) (a + d) (b + e) (c + f) q kv HI Tq) by lia. cbn [bind]. eexists. split; [reflexivity|]. split; [exact I|]. intros _ _. reflexivity.
    + exact I.
    + rewrite Es. f_equal. specialize (Vs Datatypes.tt I). cbv beta in Vs. rewrite Vs, Rplus_0_l. reflexivity.
  - exists M'. split; [|split; [exact IM|]].
    + rewrite <- EM. apply for_range_ext. intros i s Hi. apply for_range_ext. intros j s' Hj. unfold entry. destruct (component A i); cbn [bind]; [|reflexivity]. destruct (component B j); reflexivity.
    + intros ix Hix. rewrite <- (F0 ix); [apply OM, Hix|]. intros k Hk ->. apply Hix. eexists. split; [reflexivity|exact Hk].
Qed.
