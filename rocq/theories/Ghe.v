(** Model of ghedt/ground_heat_exchangers.py, of Bisection1D.retrieve_flow and of equivalance.solve_root.
    Not modelled: header, justify, __repr__ (printing; its sampling of the g-function and grab_g_function are in Export.v), warnings. *)
From Coq Require Import ZArith List Bool.
From Verif Require Import Base Num Loads.
Import ListNotations.
Open Scope Z_scope.

Section Ghe.
Context {F : Type} {N : Num F}.

(** ** flow rates *)
Inductive flow_kind : Set := flow_borehole | flow_system | flow_other.
(** search_routines.py:58-70; result (V_flow_system, m_flow_borehole), [n] = len(coordinates) *)
Definition retrieve_flow (flow : flow_kind) (V_flow rho : F) (n : Z) : res (F * F) :=
  match flow with
  | flow_borehole =>
      let! v := pydiv V_flow (nofZ 1000) in
      Ok (nmul V_flow (nofZ n), nmul v rho)
  | flow_system =>
      let! vb := pydiv V_flow (nofZ n) in
      let! v := pydiv vb (nofZ 1000) in
      Ok (V_flow, nmul v rho)
  | flow_other => Err ValueError
  end.
(** ground_heat_exchangers.py:23-27; result (V_flow_borehole, m_flow_borehole) *)
Definition ghe_flow (V_flow_system rho : F) (n : Z) : res (F * F) :=
  let! vb := pydiv V_flow_system (nofZ n) in
  let! v := pydiv vb (nofZ 1000) in
  Ok (vb, nmul v rho).

(** ** short and long time steps *)
(** min(list) *)
Definition nminl (l : list F) : res F :=
  match l with [] => Err ValueError | a :: r => Ok (fold_left nmin r a) end.
(** ground_heat_exchangers.py:96-100: the index at which the while loop stops *)
Fixpoint stop_index (log_time_sts : list F) (bound : F) (i : Z) : res Z :=
  match log_time_sts with
  | [] => Err IndexError
  | value :: r => if nle value bound then stop_index r bound (i + 1) else Ok i
  end.
(** ground_heat_exchangers.py:84-106; result: abscissae and ordinates given to interp1d, which raises ValueError
    when their numbers differ *)
Definition combine_sts_lts (log_time_lts g_lts log_time_sts g_sts : list F) : res (list F * list F) :=
  let! max_sts := nmaxl log_time_sts in
  let! min_lts := nminl log_time_lts in
  let! c := (if nlt max_sts min_lts then Ok (log_time_sts ++ log_time_lts, g_sts ++ g_lts)
             else let! i := stop_index log_time_sts min_lts 0 in
                  Ok (py_slice log_time_sts 0 i ++ log_time_lts, py_slice g_sts 0 i ++ g_lts)) in
  if zlen (fst c) =? zlen (snd c) then Ok c else Err ValueError.

(** ** cost and simulation *)
(** ground_heat_exchangers.py:127-133 *)
Definition cost (max_allowable min_allowable max_EFT min_EFT : F) : F :=
  let delta_T_max := nsub max_EFT max_allowable in
  let delta_T_min := nsub min_allowable min_EFT in
  nmax delta_T_max delta_T_min.

(** [g dt]: the combined g-function at log(3600 dt / ts); it may raise outside its range *)
Variable g : F -> res F.
(** number of boreholes, height, 2 pi k, undisturbed ground temperature, effective borehole resistance, mass flow and
    heat capacity *)
Variables (nbh H two_pi_k Tg Rb m_dot cp : F).

(** loop body ground_heat_exchangers.py:162-176, for index i; result (Tf_out, delta_Tb_i) *)
Definition detailed_step (Q_dot_b time_values Q_dot_b_dt : list F) (i : Z) : res (F * F) :=
  let! ti := py_nth time_values i in
  let! g_values := mapM (fun t => g (nsub ti t)) (py_slice time_values 0 i) in
  let! scaled := mapM (fun d => let! a := pydiv d H in pydiv a two_pi_k) (py_slice Q_dot_b_dt 0 i) in
  let delta_Tb_i := dot scaled g_values in
  let Tb := nadd Tg delta_Tb_i in
  let! q := py_nth Q_dot_b i in
  let! qh := pydiv q H in
  let Tf_bulk := nadd Tb (nmul qh Rb) in
  let! d := pydiv q (nmul (nmul (nofZ 2) m_dot) cp) in
  Ok (nsub Tf_bulk d, delta_Tb_i).
(** ground_heat_exchangers.py:135-178; result (HPEFT, delta_Tb) *)
Definition simulate_detailed (Q_dot time_values : list F) : res (list F * list F) :=
  let n := zlen Q_dot in
  let! _ := raise_if (n =? 0) ValueError in (* np.hstack of no arrays, line 150 *)
  let! q := mapM (fun x => pydiv x nbh) Q_dot in
  let Q_dot_b := nofZ 0 :: q in
  let time_values := nofZ 0 :: time_values in
  let Q_dot_b_dt := diffs Q_dot_b in
  let! r := mapM (detailed_step Q_dot_b time_values Q_dot_b_dt) (zrange 1 (n + 1)) in
  Ok (map fst r, map snd r).

(** ** methods of simulation *)
Inductive method : Set := m_hybrid | m_hourly | m_other.
(** int(x), towards zero *)
Definition nint (x : F) : res Z := if nle (nofZ 0) x then nfloor x else nceil x.
(** list * n *)
Definition list_times {A} (l : list A) (n : Z) : list A := concat (py_repeat l n).
(** ground_heat_exchangers.py:297-315: the loads (W, rejection) and times (h) that are simulated; [load] and [hour]
    are those of the hybrid load object *)
Definition simulated_loads (m : method) (start_month end_month : Z) (hourly load hour : list F) : res (list F * list F) :=
  match m with
  | m_hybrid => Ok (map (fun x => nmul x (nofZ 1000)) (skipn 2 load), skipn 2 hour)
  | m_hourly =>
      let n_months := end_month - start_month + 1 in
      let! y := pydiv (nofZ n_months) (nofZ 12) in
      let! n_hours := nint (nmul y (nofZ 8760)) in
      let! q := pydiv (nofZ n_hours) (nofZ 8760) in
      let! n_years := nceil q in
      Ok (map (fun x => nmul (nofZ (-1)) x) (list_times hourly n_years), map nofZ (zrange 1 (n_hours + 1)))
  | m_other => Err ValueError
  end.
(** ground_heat_exchangers.py:283-322 after the g-function has been computed; result (HPEFT, dTb, max, min) *)
Definition simulate (m : method) (start_month end_month : Z) (hourly load hour : list F)
    : res (list F * list F * F * F) :=
  let! qt := simulated_loads m start_month end_month hourly load hour in
  let! r := simulate_detailed (fst qt) (snd qt) in
  let! mx := nmaxl (fst r) in
  let! mn := nminl (fst r) in
  Ok (fst r, snd r, mx, mn).

End Ghe.

(** ** root finding and sizing *)
Section Size.
Context {F : Type} {N : Num F}.

(** scipy.optimize.brentq: given the objective and the bounds, the points it evaluates, in order, and its
    result (RuntimeError when it does not converge) *)
Variable brentq : (F -> res F) -> F -> F -> list F * res F.

(** int(v / abs(v)) *)
Definition sign_of (v : F) : res Z := let! q := pydiv v (nabs v) in nint q.

(** equivalance.py:23-54.  Result: the points at which the objective is evaluated, in order, and the value returned.
    [lower] and [upper] default to x/100 and 10x (lines 29-36). *)
Definition solve_root (x : F) (f : F -> res F) (lower upper : option F) : list F * res F :=
  let lo := match lower with Some l => Ok l | None => pydiv x (nofZ 100) end in
  let up := match upper with Some u => u | None => nmul x (nofZ 10) end in
  match lo with
  | Err e => ([], Err e)
  | Ok lo =>
      match f lo with
      | Err e => ([lo], Err e)
      | Ok minus =>
          match f up with
          | Err e => ([lo; up], Err e)
          | Ok plus =>
              match (let! a := sign_of minus in let! b := sign_of plus in Ok (a, b)) with
              | Err e => ([lo; up], Err e)
              | Ok (minus_sign, plus_sign) =>
                  if negb (plus_sign =? minus_sign) then
                    let (pts, r) := brentq f lo up in (lo :: up :: pts, r)
                  else if (plus_sign =? -1) && (minus_sign =? -1) then ([lo; up], Ok up)
                  else if (plus_sign =? 1) && (minus_sign =? 1) then ([lo; up], Ok lo)
                  else ([lo; up], Ok x)
              end
          end
      end
  end.

(** what GHE.size changes: the height, and the results of the last completed simulation *)
Record sizing : Type := { sz_height : F; sz_result : option (F * list F) }.
(** the simulation and the cost of a height: the list of fluid temperatures and the excess.  Everything else that
    simulate reads is constant during sizing, and the g-function interpolation does not depend on its history when the curves
    allow the kind chosen (C55). *)
Variable sim : F -> res (list F * F).
(** ground_heat_exchangers.py:327-331; the height is set before the simulation, the results after it *)
Definition evaluate (s : sizing) (h : F) : sizing :=
  match sim h with
  | Ok r => {| sz_height := h; sz_result := Some (h, fst r) |}
  | Err _ => {| sz_height := h; sz_result := sz_result s |}
  end.
(** ground_heat_exchangers.py:324-352: the value of solve_root is discarded; an exception leaves the object
    in the state it has then *)
Definition size (max_Height min_Height : F) (s : sizing) : sizing * res unit :=
  match pydiv (nadd max_Height min_Height) (nofZ 2) with
  | Err e => (s, Err e)
  | Ok guess =>
      let s := {| sz_height := guess; sz_result := sz_result s |} in
      let (pts, r) := solve_root guess (fun h => let! x := sim h in Ok (snd x)) (Some min_Height) (Some max_Height) in
      (fold_left evaluate pts s, match r with Ok _ => Ok tt | Err e => Err e end)
  end.
(** ground_heat_exchangers.py:183-186: heights of the g-functions computed before sizing *)
Definition g_function_heights (min_Height max_Height : F) : res (list F) :=
  let! avg := pydiv (nadd min_Height max_Height) (nofZ 2) in
  Ok [min_Height; avg; max_Height].

End Size.
