(** Properties C123 and C124: only temperature differences matter, and heating and cooling are treated alike, for any pygfunction, root
    finders, equation solver and interpolant *)
From Coq Require Import ZArith List Bool Reals Lra Lia.
From Verif Require Import SystemSpec GFunSpec RadialSpec RadialGrid Properties_System Properties_Program.
From Verif Require Import Base Num Utilities Ghe GFun Bhe Equiv Radial Export Search Design System Program InvarianceSpec InvarianceProofs MirrorProofs.
Import ListNotations.
Open Scope R_scope.

(** ** C123 *)
(** the same search: the same fields are evaluated with the same excess, and the same field is selected (or the same exception raised) *)
Theorem C123_same_search :
  forall h_circular h_annulus r_conduction eff_u eff_c brentq solver interp field_response brentq_dialogue d st m flow V_flow log_time gc r H,
  program h_circular h_annulus r_conduction eff_u eff_c brentq solver interp field_response brentq_dialogue (warmer d st) m flow V_flow log_time gc r H =
  program h_circular h_annulus r_conduction eff_u eff_c brentq solver interp field_response brentq_dialogue st m flow V_flow log_time gc r H.
Proof. intros. apply program_warmer. Qed.

(** the same heat exchanger is delivered, with fluid temperatures d degrees higher *)
Theorem C123_same_design :
  forall h_circular h_annulus r_conduction eff_u eff_c brentq solver interp field_response brentq_dialogue d st m flow V_flow log_time gc r H sizing_method,
  whole h_circular h_annulus r_conduction eff_u eff_c brentq solver interp field_response brentq_dialogue (warmer d st) m flow V_flow log_time gc r H sizing_method =
  match whole h_circular h_annulus r_conduction eff_u eff_c brentq solver interp field_response brentq_dialogue st m flow V_flow log_time gc r H sizing_method with
  | Ok (selected, s) => Ok (selected, warmer_ghe d s)
  | Err e => Err e
  end.
Proof. intros. rewrite whole_warmer. destruct (whole _ _ _ _ _ _ _ _ _ _ _ _ _ _ _ _ _ _ _) as [(selected, s)|]; reflexivity. Qed.

Theorem C123_same_export :
  forall interp d st selected s, oak_ridge_export interp (warmer d st) selected (warmer_ghe d s) = oak_ridge_export interp st selected s.
Proof. reflexivity. Qed.

(** ** C124 *)
Theorem C124_same_search :
  forall h_circular h_annulus r_conduction eff_u eff_c brentq solver interp field_response brentq_dialogue st m flow V_flow log_time gc r H, st_soil_k st <> 0 ->
  program h_circular h_annulus r_conduction eff_u eff_c brentq solver interp field_response brentq_dialogue (mirrored st) m flow V_flow log_time gc r H =
  program h_circular h_annulus r_conduction eff_u eff_c brentq solver interp field_response brentq_dialogue st m flow V_flow log_time gc r H.
Proof. intros. now apply program_mirror. Qed.

Theorem C124_same_design :
  forall h_circular h_annulus r_conduction eff_u eff_c brentq solver interp field_response brentq_dialogue st m flow V_flow log_time gc r H sizing_method, st_soil_k st <> 0 ->
  whole h_circular h_annulus r_conduction eff_u eff_c brentq solver interp field_response brentq_dialogue (mirrored st) m flow V_flow log_time gc r H sizing_method =
  match whole h_circular h_annulus r_conduction eff_u eff_c brentq solver interp field_response brentq_dialogue st m flow V_flow log_time gc r H sizing_method with
  | Ok (selected, s) => Ok (selected, mirrored_ghe (st_ugt st) s)
  | Err e => Err e
  end.
Proof. intros. rewrite whole_mirror by assumption. destruct (whole _ _ _ _ _ _ _ _ _ _ _ _ _ _ _ _ _ _ _) as [(selected, s)|]; reflexivity. Qed.

Theorem C124_same_export :
  forall interp st selected s, oak_ridge_export interp (mirrored st) selected (mirrored_ghe (st_ugt st) s) = oak_ridge_export interp st selected s.
Proof. reflexivity. Qed.

(** the plant of C95 to C97, which gets two boreholes: the same two when everything is 5 degrees warmer, and when its heating becomes cooling *)
Example C123_C124_example : exists V hi lo k c s1, let st := plant hi lo high_height low_height in
  st_soil_k st <> 0 /\ length c = 2%nat /\ st_loads (mirrored st) = map Ropp (st_loads st) /\
  plant_whole st V garden rectangle_routine high_height m_hourly = Ok (Some (k, c), s1) /\ gh_H s1 = high_height /\
  plant_whole (warmer 5 st) V garden rectangle_routine high_height m_hourly = Ok (Some (k, c), warmer_ghe 5 s1) /\
  plant_whole (mirrored st) V garden rectangle_routine high_height m_hourly = Ok (Some (k, c), mirrored_ghe (st_ugt st) s1).
Proof.
  destruct C95_C97_example as (V & hi & lo & k & c & s' & s1 & _ & _ & L & E & H & _). exists V, hi, lo, k, c, s1. cbv zeta.
  assert (K : st_soil_k (plant hi lo high_height low_height) <> 0) by (cbn; lra).
  split; [exact K|]. split; [exact L|]. split; [reflexivity|]. split; [exact E|]. split; [exact H|]. split.
  - rewrite C123_same_design, E. reflexivity.
  - rewrite C124_same_design by exact K. rewrite E. reflexivity.
Qed.

Print Assumptions C123_same_search.
Print Assumptions C123_same_design.
Print Assumptions C123_same_export.
Print Assumptions C124_same_search.
Print Assumptions C124_same_design.
Print Assumptions C124_same_export.
