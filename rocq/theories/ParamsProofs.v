(** * Histories of parameter setter calls *)

From Coq Require Import ZArith List Lia Bool Reals.
From Verif Require Import Base CartModel ParamsModel.
Import ListNotations.
Open Scope Z_scope.

(** the documented order codes *)
Definition order_of_code (c : Z) : option cart_order :=
  if c =? 0 then Some OrderDirac else if c =? 1 then Some OrderTurbomole else None.

Definition good_op (o : pop) : Prop :=
  match o with POrder c => order_of_code c <> None | _ => True end.

(** value a client expects after a history: the last one it set, scanning the
    history backwards until a setter of this parameter or a reset is found *)
Fixpoint expected {A} (sets : pop -> option A) (dflt init : A) (history : list pop) : A :=
  match history with
  | [] => init
  | o :: earlier =>
      match sets o with
      | Some v => v
      | None => match o with PDefaults => dflt | _ => expected sets dflt init earlier end
      end
  end.

Definition sets_radial (o : pop) : option R := match o with PRadial t => Some t | _ => None end.
Definition sets_angular (o : pop) : option R := match o with PAngular t => Some t | _ => None end.
Definition sets_bessel (o : pop) : option R := match o with PBessel t => Some t | _ => None end.
Definition sets_order (o : pop) : option cart_order :=
  match o with POrder c => order_of_code c | PGenerator g => Some g | _ => None end.

Lemma order_codes c : order_of_code c = None -> forall p, set_order p c = Fail AssertFailed.
Proof.
  unfold order_of_code, set_order, code_dirac, code_turbomole, massert. intros H p.
  destruct (c =? 0); [discriminate|]. destruct (c =? 1); [discriminate|]. reflexivity.
Qed.

Lemma order_ok c g p : order_of_code c = Some g -> set_order p c = Ok (set_generator p g).
Proof.
  unfold order_of_code, set_order, code_dirac, code_turbomole, massert. intros H.
  destruct (c =? 0); [injection H as <-; reflexivity|]. destruct (c =? 1); [|discriminate].
  injection H as <-. reflexivity.
Qed.

Lemma prun_app ops1 : forall p ops2, prun p (ops1 ++ ops2) = (let* p' := prun p ops1 in prun p' ops2).
Proof.
  induction ops1 as [|o r IH]; intros p ops2; [reflexivity|].
  cbn [app prun]. destruct (pstep p o); [rewrite !bind_ok; apply IH|reflexivity].
Qed.

Lemma params_history ops p0 : Forall good_op ops ->
  exists p, prun p0 ops = Ok p /\
    par_radial p = expected sets_radial (/ 10 ^ 16)%R (par_radial p0) (rev ops) /\
    par_angular p = expected sets_angular (/ 10 ^ 16)%R (par_angular p0) (rev ops) /\
    par_bessel p = expected sets_bessel (/ 10 ^ 16)%R (par_bessel p0) (rev ops) /\
    par_order p = expected sets_order OrderDirac (par_order p0) (rev ops).
Proof.
  induction ops as [|o ops IH] using rev_ind; intros G.
  - exists p0. repeat split.
  - apply Forall_app in G. destruct G as [G1 G2]. inversion G2 as [|? ? Go _]; subst.
    destruct (IH G1) as (p & E & E1 & E2 & E3 & E4).
    rewrite prun_app, E, bind_ok, rev_app_distr. cbn [rev app prun expected].
    destruct o as [t|t|t|c|g|]; cbn [pstep sets_radial sets_angular sets_bessel sets_order];
      rewrite ?bind_ok; try (eexists; split; [reflexivity|]; cbn; auto; fail).
    + cbn [good_op] in Go. destruct (order_of_code c) as [g|] eqn:Ec; [|congruence].
      rewrite (order_ok _ _ _ Ec), bind_ok. eexists; split; [reflexivity|]. cbn; auto.
Qed.

Lemma bad_order_aborts ops1 c ops2 p0 : Forall good_op ops1 -> order_of_code c = None ->
  prun p0 (ops1 ++ POrder c :: ops2) = Fail AssertFailed.
Proof.
  intros G E. destruct (params_history ops1 p0 G) as (p & Ep & _).
  rewrite prun_app, Ep, bind_ok. cbn [prun pstep]. rewrite order_codes by exact E. reflexivity.
Qed.

Lemma params_from_start ops : Forall good_op ops ->
  exists p, prun initial_params ops = Ok p /\
    par_radial p = expected sets_radial (/ 10 ^ 16)%R (/ 10 ^ 16)%R (rev ops) /\
    par_angular p = expected sets_angular (/ 10 ^ 16)%R (/ 10 ^ 16)%R (rev ops) /\
    par_bessel p = expected sets_bessel (/ 10 ^ 16)%R (/ 10 ^ 16)%R (rev ops) /\
    par_order p = expected sets_order OrderDirac OrderDirac (rev ops).
Proof. exact (params_history ops initial_params). Qed.

Lemma defaults_restart ops : Forall good_op ops -> prun initial_params (ops ++ [PDefaults]) = Ok initial_params.
Proof.
  intros G. destruct (params_from_start ops G) as (p & E & _). rewrite prun_app, E, bind_ok. reflexivity.
Qed.
