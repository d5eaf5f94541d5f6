(** Model of a complete design as the examples run it (ghedt/examples/Design/find_rectangle.py:151-153, find_near_square.py:141-143,
    find_bi_rectangle.py:149-151, find_bi_zoned_rectangle.py:149-151, FromFile/design_from_input.py:17-25): Design(...).find_design(), then
    compute_g_functions, size and oak_ridge_export of the heat exchanger it leaves.  The oracles of Search.v are the functions of System.v here: a field is built and simulated as a GHE object.
    Not modelled: writing the exported file. *)
From Coq Require Import ZArith List Bool Reals.
From Verif Require Import Base Num Utilities Search Loads Ghe GFun Bhe Equiv Radial Export System Design.
Import ListNotations.
Open Scope R_scope.

(** what oak_ridge_export writes (search_routines.py:368-416) *)
Record exported : Type := {
  ex_length : R; ex_number : Z; ex_pairs : list (R * R);
  ex_rb : R; ex_rin : R; ex_rout : R; ex_s : R; ex_pos : list (R * R); ex_m : R; ex_kg : R; ex_ks : R; ex_kp : R }.

Section Program.
Variable h_circular : R -> R -> R -> R -> R -> R -> R -> R.
Variable h_annulus : R -> R -> R -> R -> R -> R -> R -> R -> R * R.
Variable r_conduction : R -> R -> R -> R.
Variable eff_u : R -> pg_u -> R -> R -> R.
Variable eff_c : R -> pg_c -> R -> R -> R.
Variable brentq : (R -> res R) -> R -> R -> list R * res R.
Variable solver : list R -> list R -> list R -> list R -> list R.
Variable interp : ikind -> list (R * R) -> R -> R.
Variable field_response : R -> list (R * R) -> R -> R -> R -> res (list R).
Variable brentq_dialogue : R -> R -> dialogue.
Variable st : settings.
(** the arguments method, flow and V_flow of Design; Eskilson_log_times() *)
Variable m : method.
Variable flow : flow_kind.
Variable V_flow : R.
Variable log_time : list R.

(** self.ghe after self.initialize_ghe(c, H) *)
Definition ready (c : list (R * R)) (H : R) : res ghe :=
  initialize_ghe h_circular h_annulus r_conduction eff_u eff_c brentq solver field_response st flow V_flow log_time c H.
(** ghe.compute_g_functions(); ghe.size(method) *)
Definition size_up (m : method) (s : ghe) : res ghe :=
  let! s := compute_g_functions field_response st s in
  let (s, r) := ghe_size h_circular h_annulus r_conduction eff_u eff_c brentq solver interp st brentq_dialogue m s in
  let! _ := r in Ok s.

(** the oracles of the search *)
Definition can_build (c : list (R * R)) (H : R) : res unit := let! _ := ready c H in Ok tt.
Definition excess_of (c : list (R * R)) (H : R) : res (xval R) :=
  let! x := calculate_excess h_circular h_annulus r_conduction eff_u eff_c brentq solver interp field_response st flow V_flow log_time m c H in
  Ok (Fin x).
(** search_routines.py:320-324 and 359-361: always the hybrid method *)
Definition sized_height (c : list (R * R)) : res R :=
  let! s := ready c (st_max_H st) in
  let! s := size_up m_hybrid s in
  Ok (gh_H s).

(** Design(...).find_design() for a borehole of height H *)
Definition program (gc : constraints) (r : routine) (H : R) : res found :=
  design can_build excess_of sized_height (st_min_H st) (st_max_H st) gc r H.

(** bisection_search.ghe afterwards: initialised for the field and height that the search records; by the bi-zoned routine initialised at
    the maximum height and sized (search_routines.py:359-361) *)
Definition left_ghe (r : routine) (f : found (F := R) (V := R)) : res ghe :=
  let (c, H) := Search.ghe _ (snd f) in
  match r with
  | bi_zoned => let! s := ready c (st_max_H st) in size_up m_hybrid s
  | _ => ready c H
  end.

(** the selection and the heat exchanger after compute_g_functions() and size(sizing_method) *)
Definition whole (gc : constraints) (r : routine) (H : R) (sizing_method : method) : res (option (Z * list (R * R)) * ghe) :=
  let! f := program gc r H in
  let! s := left_ghe r f in
  let! s := size_up sizing_method s in
  Ok (fst f, s).

(** search_routines.py:368-416; len(None) is a TypeError; bhe_eq.grout.k, soil.k, pipe.k and the borehole radius of the equivalent single U-tube *)
Definition oak_ridge_export (selected : option (Z * list (R * R))) (s : ghe) : res exported :=
  let! c := (match selected with Some (_, c) => Ok c | None => Err TypeError end) in
  let e := gh_eq s in
  let! pairs := export_pairs interp (gh_gf s) (gh_B s) (gh_H s) (st_rb st) (fst (gh_sts s)) (snd (gh_sts s)) in
  Ok {| ex_length := gh_H s; ex_number := zlen c; ex_pairs := pairs;
        ex_rb := pg_rb (ub_pg e); ex_rin := pp_rin (ub_pipe e); ex_rout := pp_rout (ub_pipe e); ex_s := pp_s (ub_pipe e);
        ex_pos := pg_pos (ub_pg e); ex_m := ub_m e; ex_kg := ub_grout_k e; ex_ks := ub_soil_k e; ex_kp := pp_k (ub_pipe e) |}.

End Program.
