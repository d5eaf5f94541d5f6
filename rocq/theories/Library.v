(** The scripts in ghedt/examples/gFunctions: a heat exchanger with g-functions that the user supplies.  The numbers written in the scripts are
    arguments; printing is left out. *)
From Coq Require Import ZArith List Bool Reals.
From Verif Require Import Base Num Utilities Loads Ghe GFun Radial Bhe Equiv Export System.
Import ListNotations.
Open Scope R_scope.

Section Library.
Variable h_circular : R -> R -> R -> R -> R -> R -> R -> R.
Variable h_annulus : R -> R -> R -> R -> R -> R -> R -> R -> R * R.
Variable r_conduction : R -> R -> R -> R.
Variable eff_u : R -> pg_u -> R -> R -> R.
Variable eff_c : R -> pg_c -> R -> R -> R.
Variable brentq : (R -> res R) -> R -> R -> list R * res R.
Variable solver : list R -> list R -> list R -> list R -> list R.
Variable interp : ikind -> list (R * R) -> R -> R.
(** pygfunction's responses, with the options of the first and of the second call *)
Variable first_response field_response : R -> list (R * R) -> R -> R -> R -> res (list R).
Variable brentq_dialogue : R -> R -> dialogue.
Variable st : settings.

(** ghe.size(): ground_heat_exchangers.py:324 gives method its default; the object afterwards or the exception *)
Definition size_default (s : ghe) : res ghe :=
  match ghe_size h_circular h_annulus r_conduction eff_u eff_c brentq solver interp st brentq_dialogue m_hybrid s with
  | (s, Ok _) => Ok s
  | (_, Err e) => Err e
  end.

(** computed_g_function_sim_and_size.py:54-109; [data], [log_time], [locations] are the contents of the file; in the script V_flow_system = 31.2,
    B = 5, H = 100 *)
Definition computed_g_function_sim_and_size (data : list (@db_key R * list R)) (log_time : list R) (locations : list (R * R)) (V_flow_system B H : R) : res ghe :=
  let! g_function := configure data log_time locations in
  let! s := make_ghe h_circular h_annulus r_conduction eff_u eff_c brentq solver st V_flow_system B H g_function in
  size_default s.

(** live_g_function_sim_and_size.py:66-145: the extreme temperatures of the simulation and the sized exchanger; in the script V_flow_borehole = 0.2,
    B = 5, H = 96, H_values = [24., 48., 96., 192., 384.] and D_values = 2 for each; borehole.H is still H when the second exchanger is made *)
Definition live_g_function_sim_and_size (coordinates : list (R * R)) (log_time : list R) (V_flow_borehole B H : R) (H_values D_values : list R) : res ((R * R) * ghe) :=
  let V_flow_system := V_flow_borehole * IZR (zlen coordinates) in
  let! q := pydiv V_flow_borehole 1000 in
  let m_flow_borehole := q * fl_rho (st_fluid st) in
  let live := fun (response : R -> list (R * R) -> R -> R -> R -> res (list R)) Hs Ds =>
    compute_live_g_function (response m_flow_borehole coordinates) B Hs (py_repeat (st_rb st) (zlen Hs)) Ds log_time coordinates in
  let! g_function := live first_response [H] [st_D st] in
  let! s := make_ghe h_circular h_annulus r_conduction eff_u eff_c brentq solver st V_flow_system B H g_function in
  let! x := snd (ghe_simulate h_circular h_annulus r_conduction eff_u eff_c brentq solver interp st m_hybrid s) in
  let! g_function := live field_response H_values D_values in
  let! s := make_ghe h_circular h_annulus r_conduction eff_u eff_c brentq solver st V_flow_system B H g_function in
  let! s := size_default s in
  Ok (x, s).
End Library.
