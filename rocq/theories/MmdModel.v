(** * Model of the local (type 1) integrals in the McMurchie-Davidson scheme
    (libgrpp/type1_mcmurchie_davidson.c and the routine libgrpp_type1_integrals
    of libgrpp/type1_integrals.c)

    Doubles are exact reals, pow and exp the exact functions.  The members of
    struct mmd_data are local arrays, undefined before the first assignment as in
    the code.  The buffer allocated with calloc and freed is a local array. *)

From Coq Require Import ZArith List Lia Bool Reals.
From Verif Require Import Base HeapModel OneElModel LmatModel SpecModel OutercoreModel.
Import ListNotations.
Open Scope R_scope.

(** type1_mcmurchie_davidson.c 57-68: the members used by the three routines *)
Record mmd_data := mkMmd { md_A : R * R * R; md_B : R * R * R; md_C : R * R * R; md_Q : R * R * R; md_q : R; md_K : R * R * R; md_RQC2 : R }.

(** 180-212 (and 281-313, 383-413): the geometry of a pair of primitives *)
Definition mmd_geometry (a b c : R) (A B C : R * R * R) : mmd_data :=
  let q := a + b + c in
  let mu_AB := a * b / q in
  let mu_AC := a * c / q in
  let mu_BC := b * c / q in
  let Qi := fun i => (a * coord3 A i + b * coord3 B i + c * coord3 C i) / q in
  let Ki := fun i =>
    let X_AB := coord3 A i - coord3 B i in
    let X_AC := coord3 A i - coord3 C i in
    let X_BC := coord3 B i - coord3 C i in
    exp (- mu_AB * X_AB * X_AB) * exp (- mu_AC * X_AC * X_AC) * exp (- mu_BC * X_BC * X_BC) in
  let Q := (Qi 0%Z, Qi 1%Z, Qi 2%Z) in
  mkMmd A B C Q q (Ki 0%Z, Ki 1%Z, Ki 2%Z) (distance_squared Q C).

(** 569-622; E is the array [3][10][10][20] *)
Definition setup_E_array (data : mmd_data) (L_A L_B : Z) : res (arr R) :=
  let q := md_q data in
  for_range 0 3 (fun coord =>
  for_range 0 (L_A + 1) (fun i =>
  for_range 0 (L_B + 1) (fun j =>
  for_range 0 (i + j + 1) (fun t E =>
    if (t =? 0)%Z then
      if (i =? 0)%Z && (j =? 0)%Z then aset E [coord; 0; 0; 0]%Z (coord3 (md_K data) coord)
      else if (i =? 1)%Z && (j =? 0)%Z then
        let X_QA := coord3 (md_Q data) coord - coord3 (md_A data) coord in
        let* e := aget E [coord; 0; 0; 0]%Z in
        aset E [coord; 1; 0; 0]%Z (X_QA * e)
      else if (i =? 0)%Z && (j =? 1)%Z then
        let X_QB := coord3 (md_Q data) coord - coord3 (md_B data) coord in
        let* e := aget E [coord; 0; 0; 0]%Z in
        aset E [coord; 0; 1; 0]%Z (X_QB * e)
      else if (i =? 0)%Z then
        let X_QB := coord3 (md_Q data) coord - coord3 (md_B data) coord in
        let* e0 := aget E [coord; i; j - 1; 0]%Z in
        let* e1 := aget E [coord; i; j - 1; 1]%Z in
        aset E [coord; i; j; 0]%Z (X_QB * e0 + e1)
      else
        let X_QA := coord3 (md_Q data) coord - coord3 (md_A data) coord in
        let* e0 := aget E [coord; i - 1; j; 0]%Z in
        let* e1 := aget E [coord; i - 1; j; 1]%Z in
        aset E [coord; i; j; 0]%Z (X_QA * e0 + e1)
    else
      let factor := 1 / (2 * q * IZR t) in
      let* E_ijt :=
        if (i >? 0)%Z then
          let* e := aget E [coord; i - 1; j; t - 1]%Z in
          Ok (0 + factor * IZR i * e)
        else Ok 0 in
      let* E_ijt :=
        if (j >? 0)%Z then
          let* e := aget E [coord; i; j - 1; t - 1]%Z in
          Ok (E_ijt + factor * IZR j * e)
        else Ok E_ijt in
      aset E [coord; i; j; t] E_ijt)))) (aundef [3; 10; 10; 20]%Z).

(** the shape common to 457-506 and 512-563: [base n] is the value of the cell
    (0,0,0,n), [red R t u v n] what is read from the array for a lower triple *)
Definition setup_aux (data : mmd_data) (L_A L_B : Z) (base : Z -> res R) (red : arr R -> Z -> Z -> Z -> Z -> res R) : res (arr R) :=
  let X_QC := coord3 (md_Q data) 0 - coord3 (md_C data) 0 in
  let Y_QC := coord3 (md_Q data) 1 - coord3 (md_C data) 1 in
  let Z_QC := coord3 (md_Q data) 2 - coord3 (md_C data) 2 in
  let nmax := (L_A + L_B)%Z in
  let L_SUM := (L_A + L_B)%Z in
  for_range 0 (L_SUM + 1) (fun t =>
  for_range 0 (L_SUM + 1) (fun u =>
  for_range 0 (L_SUM + 1) (fun v Rr =>
    if (t + u + v >? L_SUM)%Z then Ok Rr
    else
      for_range 0 (nmax - (t + u + v) + 1) (fun n Rr =>
        let* val :=
          if (t + u + v =? 0)%Z then base n
          else if (t + u =? 0)%Z then
            let* val := if (v >? 1)%Z then let* r := red Rr t u (v - 2)%Z n in Ok (0 + IZR (v - 1) * r) else Ok 0 in
            let* r := red Rr t u (v - 1)%Z n in
            Ok (val + Z_QC * r)
          else if (t =? 0)%Z then
            let* val := if (u >? 1)%Z then let* r := red Rr t (u - 2)%Z v n in Ok (0 + IZR (u - 1) * r) else Ok 0 in
            let* r := red Rr t (u - 1)%Z v n in
            Ok (val + Y_QC * r)
          else
            let* val := if (t >? 1)%Z then let* r := red Rr (t - 2)%Z u v n in Ok (0 + IZR (t - 1) * r) else Ok 0 in
            let* r := red Rr (t - 1)%Z u v n in
            Ok (val + X_QC * r) in
        aset Rr [t; u; v; n] val) Rr))) (aundef [20; 20; 20; 20]%Z).

(** 457-506 *)
Definition setup_R_array (data : mmd_data) (boys : arr R) (L_A L_B : Z) : res (arr R) :=
  let q := md_q data in
  setup_aux data L_A L_B
    (fun n => let* b := aget boys [n] in Ok (powerRZ (-2 * q) n * b))
    (fun Rr t u v n => aget Rr [t; u; v; n + 1]%Z).

(** 512-563 *)
Definition setup_G_array (data : mmd_data) (boys : arr R) (L_A L_B : Z) : res (arr R) :=
  let q := md_q data in
  setup_aux data L_A L_B
    (fun n => let* b := aget boys [n] in Ok (powerRZ (2 * q) n * b))
    (fun Rr t u v n =>
      let* r1 := aget Rr [t; u; v; n + 1]%Z in
      let* r0 := aget Rr [t; u; v; n] in
      Ok (r1 - 2 * q * r0)).

(** 235-262 and 337-364: the loop over the components *)
Definition mmd_sum (A B : vshell) (E Rr : arr R) (factor : R) (M : arr R) : res (arr R) :=
  fill_components A B (fun n_A l_A m_A n_B l_B m_B =>
    let* s :=
      for_range 0 (n_A + n_B + 1) (fun t s =>
        let* Ex := aget E [0%Z; n_A; n_B; t] in
        for_range 0 (l_A + l_B + 1) (fun u s =>
          let* Ey := aget E [1%Z; l_A; l_B; u] in
          for_range 0 (m_A + m_B + 1) (fun v s =>
            let* Ez := aget E [2%Z; m_A; m_B; v] in
            let* R_tuv := aget Rr [t; u; v; 0]%Z in
            Ok (s + Ex * Ey * Ez * R_tuv)) s) s) 0 in
    Ok (s * factor)) M.

(** 172-267; [daw] is Dawsons_Integral *)
Definition mmd_n0_primitive_shell_pair (daw : R -> res R) (A : vshell) (alpha_A : R) (B : vshell) (alpha_B : R) (C : R * R * R) (rpp_alpha : R) (M : arr R) : res (arr R) :=
  let data := mmd_geometry alpha_A alpha_B rpp_alpha (sv_org A) (sv_org B) C in
  let L_A := sv_L A in
  let L_B := sv_L B in
  let* boys := gfun_values daw (md_q data * md_RQC2 data) (L_A + L_B) (aundef [100]%Z) in
  let* E := setup_E_array data L_A L_B in
  let* Rr := setup_G_array data boys L_A L_B in
  let N_A := gaussian_norm_factor L_A 0 0 alpha_A in
  let N_B := gaussian_norm_factor L_B 0 0 alpha_B in
  mmd_sum A B E Rr (N_A * N_B * 2 * Rpower PI 1.5 / sqrt (md_q data)) M.

(** 273-369 *)
Definition mmd_n1_primitive_shell_pair (A : vshell) (alpha_A : R) (B : vshell) (alpha_B : R) (C : R * R * R) (rpp_alpha : R) (M : arr R) : res (arr R) :=
  let data := mmd_geometry alpha_A alpha_B rpp_alpha (sv_org A) (sv_org B) C in
  let L_A := sv_L A in
  let L_B := sv_L B in
  let* boys := boys_values (md_q data * md_RQC2 data) (L_A + L_B) (aundef [100]%Z) in
  let* E := setup_E_array data L_A L_B in
  let* Rr := setup_R_array data boys L_A L_B in
  let N_A := gaussian_norm_factor L_A 0 0 alpha_A in
  let N_B := gaussian_norm_factor L_B 0 0 alpha_B in
  mmd_sum A B E Rr (N_A * N_B * 2 * PI / md_q data) M.

(** 375-451 *)
Definition mmd_n2_primitive_shell_pair (A : vshell) (alpha_A : R) (B : vshell) (alpha_B : R) (C : R * R * R) (rpp_alpha : R) (M : arr R) : res (arr R) :=
  let data := mmd_geometry alpha_A alpha_B rpp_alpha (sv_org A) (sv_org B) C in
  let L_A := sv_L A in
  let L_B := sv_L B in
  let* E := setup_E_array data L_A L_B in
  let N_A := gaussian_norm_factor L_A 0 0 alpha_A in
  let N_B := gaussian_norm_factor L_B 0 0 alpha_B in
  fill_components A B (fun n_A l_A m_A n_B l_B m_B =>
    let* Ex := aget E [0%Z; n_A; n_B; 0%Z] in
    let* Ey := aget E [1%Z; l_A; l_B; 0%Z] in
    let* Ez := aget E [2%Z; m_A; m_B; 0%Z] in
    Ok (N_A * N_B * Ex * Ey * Ez * Rpower (PI / md_q data) 1.5)) M.


(** the dispatch 139-158 *)
Definition mmd_primitive_pair (daw : R -> res R) (ecp_power : Z) (A : vshell) (alpha_A : R) (B : vshell) (alpha_B : R) (C : R * R * R) (alpha_C : R) (buf : arr R) : res (arr R) :=
  if (ecp_power =? 2)%Z then mmd_n2_primitive_shell_pair A alpha_A B alpha_B C alpha_C buf
  else if (ecp_power =? 1)%Z then mmd_n1_primitive_shell_pair A alpha_A B alpha_B C alpha_C buf
  else if (ecp_power =? 0)%Z then mmd_n0_primitive_shell_pair daw A alpha_A B alpha_B C alpha_C buf
  else Ok buf.

(** 107-166 *)
Definition type1_mmd (daw : R -> res R) (A B : vshell) (C : R * R * R) (alpha_C : R) (ecp_power : Z) (M : arr R) : res (arr R) :=
  let* _ := massert ((ecp_power =? 0)%Z || (ecp_power =? 1)%Z || (ecp_power =? 2)%Z) in
  let size := (sv_size A * sv_size B)%Z in
  let* M := memset0 size M in
  let* (M, _) :=
    for_range 0 (sv_num A) (fun i st =>
      let* coef_A_i := aget (sv_coef A) [i] in
      if Rlt_dec (Rabs coef_A_i) zero_thresh then Ok st
      else
        for_range 0 (sv_num B) (fun j '(M, buf) =>
          let* coef_B_j := aget (sv_coef B) [j] in
          if Rlt_dec (Rabs coef_B_j) zero_thresh then Ok (M, buf)
          else
            let* alpha_i := aget (sv_alpha A) [i] in
            let* alpha_j := aget (sv_alpha B) [j] in
            let* buf := mmd_primitive_pair daw ecp_power A alpha_i B alpha_j C alpha_C buf in
            let* M := daxpy size (coef_A_i * coef_B_j) buf M in
            Ok (M, buf)) st) (M, aconst [size] 0) in
  Ok M.

(** type1_integrals.c 43-102; the potential is [None] for NULL, [init] is
    libgrpp_is_initialized() *)
Definition type1_integrals (daw : R -> res R) (init : bool) (A B : vshell) (C : R * R * R) (potential : option vpot) (M : arr R) : res (arr R) :=
  let* _ := massert init in
  let size := (sv_size A * sv_size B)%Z in
  let* M := memset0 size M in
  match potential with
  | None => Ok M
  | Some pot =>
      let buf := aconst [size] 0 in
      let* (M, _) := fold_left (fun (r : res (arr R * arr R)) '(pow_k, coef_k, alpha_k) =>
        let* (M, buf) := r in
        let* buf := type1_mmd daw A B C alpha_k pow_k buf in
        let* M := daxpy size coef_k buf M in
        Ok (M, buf)) (pv_prims pot) (Ok (M, buf)) in
      Ok M
  end.
