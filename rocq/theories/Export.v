(** Model of the sampling of the g-function in search_routines.oak_ridge_export (lines 392-414) and GHE.__repr__
    (ground_heat_exchangers.py:263-281).  Not modelled here: the other entries of the exported dictionary (Program.v),
    rounding and text of __repr__, and the writing of the file. *)
From Coq Require Import ZArith List Bool Reals.
From Verif Require Import Base Num Loads Ghe GFun.
Import ListNotations.
Open Scope Z_scope.

(** [range(a, b, step)]; its length is (b - a) / step rounded up, for steps of either sign *)
Definition py_range3 (a b step : Z) : res (list Z) :=
  if step =? 0 then Err ValueError
  else Ok (map (fun k => a + k * step) (zrange 0 (- ((a - b) / step)))).

Section Export.
Context {F : Type}.

(** search_routines.py:396-412 with first = 1, number_sts_g_values = 30 and ground_heat_exchangers.py:265-278 with
    first = 0, number_sts_g_values = 50.  int(np.floor(a / b)) is the integer quotient: the float quotient of integers
    of these sizes never rounds up to the next integer. *)
Definition sample (first number_sts_g_values : Z) (x y : list F) : res (list (F * F)) :=
  let total_g_values := zlen x in
  let number_lts_g_values := 27 in
  let sts_step_size := (total_g_values - number_lts_g_values) / number_sts_g_values in
  let! is := py_range3 first (total_g_values - number_lts_g_values) sts_step_size in
  let! sts := mapM (fun i => let! a := py_nth x i in let! b := py_nth y i in Ok (a, b)) is in
  let lntts := map fst sts ++ py_slice x (total_g_values - number_lts_g_values) total_g_values in
  let g_values := map snd sts ++ py_slice y (total_g_values - number_lts_g_values) total_g_values in
  mapM (fun i => let! a := py_nth lntts i in let! b := py_nth g_values i in Ok (a, b)) (zrange 0 (zlen lntts)).

(** search_routines.py:392-414 *)
Definition oak_ridge_pairs (x y : list F) : res (list (F * F)) := sample 1 30 x y.
(** ground_heat_exchangers.py:263-281 *)
Definition repr_pairs (x y : list F) : res (list (F * F)) := sample 0 50 x y.

End Export.

(** ground_heat_exchangers.py:108-125; the interpolation table left in the GFunction object and the table (times, values) of
    the interpolant.  [interp]: the interpolants of the GFunction; [r_b]: radius of the borehole; log_time_sts, g_sts: the
    short-time-step g-function. *)
Definition grab_g_function (interp : ikind -> list (R * R) -> R -> R) (s : gfunction) (B_over_H r_b : R)
    (log_time_sts g_sts : list R) : table * res (list R * list R) :=
  let (t, r) := g_function_interpolation interp s B_over_H k_default in
  (t, let! v := r in
      let '(g_function, rb_value, _, _) := v in
      combine_sts_lts (gf_log_time s) (borehole_radius_correction g_function rb_value r_b) log_time_sts g_sts).

(** search_routines.py:391-414 *)
Definition export_pairs interp (s : gfunction) (B_spacing H r_b : R) (log_time_sts g_sts : list R) : res (list (R * R)) :=
  let! B_over_H := pydiv B_spacing H in
  let! c := snd (grab_g_function interp s B_over_H r_b log_time_sts g_sts) in
  oak_ridge_pairs (fst c) (snd c).
