(** * C99: normalised coefficients in double precision

    [fl_shell_mult_normcoef]: libgrpp_shell_mult_normcoef with every floating point operation
    rounded to double precision (FloatNormcoefModel.v), an operation whose result does not fit into
    a double being a fault; [libm_pow]: pow of the C library is accurate to one unit in the last
    place; [moderate]: coefficients up to 1e6, exponents between 1e-8 and 1e10, coordinates up to
    1e4; [shell_at h p v]: an intact shell with contents v; [norm_L]: the norm (OneElSpec.v). *)

From Coq Require Import ZArith List Lia Bool Reals Lra.
From Verif Require Import Base CartModel HeapModel HeapProofs HeapSpec OneElModel OneElSpec OneElThms FloatBase FloatOneEl FloatOneElThms FloatNormcoefModel FloatNormcoef.
From Verif Require Properties_FloatOneEl.
Import ListNotations.
Open Scope Z_scope.

(** C99: the coefficients are computed without overflow, each with an error of at most 15 units of roundoff times its size (plus
1e-30 times the norm); exponents, order and everything else in the shell stay as they were. *)
Theorem C99_double_precision : forall lpow h p v,
  libm_pow lpow -> heap_wf h -> shell_at h p v -> 0 <= v_L v <= 9 -> moderate v ->
  exists h' v', fl_shell_mult_normcoef lpow h p = Ok h' /\ heap_wf h' /\ shell_at h' p v' /\
    v_L v' = v_L v /\ v_size v' = v_size v /\ v_origin v' = v_origin v /\ v_list v' = v_list v /\
    (forall q s, hblk h p = Some (OShell s) -> q <> sh_coeffs s -> hblk h' q = hblk h q) /\
    Forall2 (fun '(c, a) '(c', a') => a' = a /\ (Rabs (c' - c * norm_L (v_L v) a) <= 15 / 2 ^ 53 * ((Rabs c + / 10 ^ 30) * norm_L (v_L v) a))%R) (v_prims v) (v_prims v').
Proof. exact fl_normcoef_thm. Qed.
Print Assumptions C99_double_precision.

(** a d shell with two primitives, with a library that rounds correctly *)
Example C99_case : exists h p v, libm_pow cr_pow /\ heap_wf h /\ shell_at h p v /\ 0 <= v_L v <= 9 /\ moderate v /\ v_size v = 6.
Proof.
  destruct Properties_FloatOneEl.C80_case as (h & pA & pB & vA & vB & ca & cb & W & SA & SB & LA & LB & MA & MB & NP & NA & NB & F).
  exists h, pA, vA. split; [exact cr_pow_ok|]. split; [exact W|]. pose proof (std_length _ _ _ _ SA) as E. destruct SA as (A & H0 & SA). split; [exact A|]. split; [lia|]. split; [exact MA|].
  rewrite NA in E. destruct SA as (Q & _). rewrite Q. lia.
Qed.
