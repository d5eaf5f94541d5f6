(** The report on a ground heat exchanger, GHE.__repr__ (ground_heat_exchangers.py:49-82, 236-281), with the texts it is put together from:
    media.py:9-24, 49-71, 97-107, 124-139; borehole_heat_exchangers.py:31-63, 125-136, 221-235, 278-334; ground_loads.py:423-428.
    A text is given as the list of its lines: every part is ended by a newline in the code.  Parameters: str of a float, of a list of
    two floats and of a list of points, the text of a class, of a pygfunction Borehole and Fluid and of a pandas table.
    Simplifications: every number in the settings is a float (a Pipe prints an integer conductivity or radius without rounding); the borehole
    of the equivalent exchanger is printed with the length of the original (it has been made for that length). *)
From Coq Require Import ZArith List Bool Reals String Ascii DecimalString.
From Verif Require Import Base Num Loads Ghe GFun Bhe Equiv Export Report System.
Import ListNotations.
Open Scope string_scope.
Open Scope R_scope.

Fixpoint chars (c : ascii) (n : nat) : string := match n with O => "" | S n => String c (chars c n) end.
(** str.ljust(width) *)
Definition ljust (s : string) (width : nat) : string := s ++ chars " " (width - length s).
(** str.center(width): when the padding is odd, the additional space goes to the right, to the left if the width is odd too *)
Definition center (s : string) (width : nat) : string :=
  let padding := (width - length s)%nat in
  let left := (padding / 2 + (if Nat.odd padding && Nat.odd width then 1 else 0))%nat in
  chars " " left ++ s ++ chars " " (padding - left).
(** str of an integer *)
Definition str_int (z : Z) : string := NilZero.string_of_int (Z.to_int z).

(** round(x, 4): the nearest multiple of 1/10000, of two equally near ones the even one *)
Definition nearest (x : R) : Z :=
  let n := Int_part x in
  let f := x - IZR n in
  if Rlt_dec f (1 / 2) then n else if Rlt_dec (1 / 2) f then (n + 1)%Z else if Z.even n then n else (n + 1)%Z.
Definition round4 (x : R) : R := IZR (nearest (x * 10000)) / 10000.

(** media.py:10-11, borehole_heat_exchangers.py:31-33 and ground_heat_exchangers.py:54-56 *)
Definition justify (category value : string) : string := ljust category 40 ++ "= " ++ value.
(** ground_heat_exchangers.py:49-52 *)
Definition header (text : string) : list string :=
  [chars "-" 50; "|" ++ center text 48 ++ "|"; chars "-" 50].

Section Printing.
Variable str : R -> string.
Variable str_pair : R * R -> string.
Variable str_points : list (R * R) -> string.
Variable class_text : string -> string.
(** length, buried depth and radius of a gt.boreholes.Borehole *)
Variable borehole_text : R -> R -> R -> list string.
Variable fluid_text : fluid -> list string.
Variable table_text : Report.table R -> list string.

(** str(round(x, 4)) *)
Definition str4 (x : R) : string := str (round4 x).

(** media.py:9-24; [k]: the text of the conductivity *)
Definition thermal_property_text (cls k : string) (rhoCp : R) : list string :=
  [class_text cls; justify "Thermal conductivity" (k ++ " (W/m.K)"); justify "Volumetric heat capacity" (str4 rhoCp ++ " (J/K.m3)")].
(** media.py:49-71 with float radii; n_pipes from line 44-47 *)
Definition pipe_text (p : pipe) : list string :=
  thermal_property_text "Pipe" (str4 (pp_k p)) (pp_rhoCp p) ++
  [justify "Pipe Positions (Center of pipes)" (str_points (pp_pos p));
   justify "Pipe inner radius" (str4 (pp_rin p) ++ " (m)"); justify "Pipe outer radius" (str4 (pp_rout p) ++ " (m)");
   justify "Shank spacing (pipe to pipe)" (str4 (pp_s p) ++ " (m)"); justify "Pipe roughness" (str (pp_eps p) ++ " (m)");
   justify "Number of pipes" (str_int (n_pipes p))].
(** media.py:49-71 with lists of radii and of conductivities; [pos]: the text of the position, a pair of numbers; [s]: the shank spacing *)
Definition coaxial_pipe_text (pos : string) (s : R) (q : coax) : list string :=
  thermal_property_text "Pipe" (str_pair (cg_k q)) (cg_rhoCp q) ++
  [justify "Pipe Positions (Center of pipes)" pos;
   justify "Pipe inner radii" (str_pair (cg_inner q) ++ " (m)"); justify "Pipe outer radii" (str_pair (cg_outer q) ++ " (m)");
   justify "Shank spacing (pipe to pipe)" (str4 s ++ " (m)"); justify "Pipe roughness" (str (cg_eps q) ++ " (m)");
   justify "Number of pipes" (str_int 1)].
(** media.py:97-107 *)
Definition soil_text (k rhoCp ugt : R) : list string :=
  thermal_property_text "Soil" (str4 k) rhoCp ++ [justify "Undisturbed ground temperature" (str4 ugt ++ " (degrees Celsius)")].

Variable eff_u : R -> pg_u -> R -> R -> R.
Variable eff_c : R -> pg_c -> R -> R -> R.
Variable interp : ikind -> list (R * R) -> R -> R.
Variable st : settings.
(** position and shank spacing given to the Pipe of a coaxial exchanger *)
Variable coaxial_pos : string.
Variable coaxial_s : R.

(** media.py:124-139 *)
Definition sim_params_text : list string :=
  [class_text "SimulationParameters"; justify "Start month" (str_int (st_start st) ++ " (months)");
   justify "End month" (str_int (st_end st) ++ "(months)"); justify "Max EFT Allowable" (str (st_max_EFT st) ++ " (degrees Celsius)");
   justify "Min EFT Allowable" (str (st_min_EFT st) ++ " (degrees Celsius)"); justify "Maximum height" (str (st_max_H st) ++ " (m)");
   justify "Minimum height" (str (st_min_H st) ++ " (m)")].

(** borehole_heat_exchangers.py:35-63 *)
Definition base_pipe_text (cls : string) (H : R) (b : ubhe) : list string :=
  ([class_text cls; chars "-" 50; justify "Mass flow borehole" (str4 (ub_m b) ++ " (kg/s)"); justify "Mass flow pipe" (str4 (ub_m_pipe b) ++ " (kg/s)")] ++
  borehole_text H (st_D st) (pg_rb (ub_pg b)) ++ soil_text (ub_soil_k b) (st_soil_rhoCp st) (st_ugt st) ++
  thermal_property_text "Grout" (str4 (ub_grout_k b)) (st_grout_rhoCp st) ++ pipe_text (ub_pipe b) ++ fluid_text (ub_fluid b) ++
  [justify "Reynolds number" (str4 (reported_Reynolds b)); justify "Convection coefficient" (str4 (ub_h b) ++ " (W/m2.K)");
   justify "Pipe resistance" (str4 (ub_Rp b) ++ " (m.K/W)"); justify "Fluid resistance" (str4 (ub_Rf b) ++ " (m.K/W)")])%list.
(** borehole_heat_exchangers.py:125-136 *)
Definition single_text (H : R) (b : ubhe) : list string :=
  (base_pipe_text "SingleUTube" H b ++
  [justify "Effective borehole resistance" (str4 (eff_u H (ub_pg b) (ub_m b) (fl_cp (ub_fluid b))) ++ " (m.K/W)")])%list.
(** borehole_heat_exchangers.py:221-235; self.config is what the constructor was given, 'parallel' in a GHE *)
Definition multiple_text (H : R) (b : ubhe) : res (list string) :=
  let! c := match pg_config (ub_pg b) with series => Ok "series" | parallel => Ok "parallel" | no_config => Err TypeError | other_config => Err OtherError end in
  Ok (base_pipe_text "MultipleUTube" H b ++
  [justify "Effective borehole resistance" (str4 (eff_u H (ub_pg b) (ub_m b) (fl_cp (ub_fluid b))) ++ " (m.K/W)"); justify "Config" c])%list.
(** borehole_heat_exchangers.py:278-334; R_ff and R_fp are what pygfunction stores *)
Definition coaxial_text (H : R) (b : cbhe) : list string :=
  let q := cb_geo b in
  ([class_text "CoaxialPipe"; chars "-" 50; justify "Mass flow borehole" (str4 (cb_m b) ++ " (kg/s)"); justify "Mass flow pipe" (str4 (cb_m_pipe b) ++ " (kg/s)")] ++
  borehole_text H (st_D st) (cg_rb q) ++ soil_text (cg_soil_k q) (st_soil_rhoCp st) (st_ugt st) ++
  thermal_property_text "Grout" (str4 (cg_grout_k q)) (st_grout_rhoCp st) ++ coaxial_pipe_text coaxial_pos coaxial_s q ++ fluid_text (cb_fluid b) ++
  [justify "Inner pipe resistance" (str4 (cb_Rp_in b) ++ " (m.K/W)"); justify "Outer pipe resistance" (str4 (cb_Rp_out b) ++ " (m.K/W)");
   justify "Grout resistance" (str4 (cb_Rgrout b) ++ " (m.K/W)");
   justify "Reynolds annulus" (str4 (compute_Reynolds_concentric (cb_m_pipe b) (snd (cg_inner q)) (fst (cg_outer q)) (cb_fluid b)));
   justify "Inner annulus convection coef" (str4 (cb_h_a_in b) ++ " (W/m2.K)"); justify "Outer annulus convection coef" (str4 (cb_h_a_out b) ++ " (W/m2.K)");
   justify "Inner annulus resistance" (str4 (cb_Rf_a_in b) ++ " (m.K/W)"); justify "Outer annulus resistance" (str4 (cb_Rf_a_out b) ++ " (m.K/W)");
   justify "Reynolds inner" (str4 (compute_Reynolds (cb_m_pipe b) (fst (cg_inner q)) (cg_eps q) (cb_fluid b)));
   justify "Inner Convection coefficient" (str4 (cb_h_in b) ++ " (W/m2.K)");
   justify "Fluid-to-fluid resistance" (str4 (pc_Rff (cb_pg b)) ++ " (m.K/W)"); justify "Fluid-to-pipe resistance" (str4 (pc_Rfp (cb_pg b)) ++ " (m.K/W)");
   justify "Effective borehole resistance" (str4 (eff_c H (cb_pg b) (cb_m b) (fl_cp (cb_fluid b))) ++ " (m.K/W)")])%list.
(** self.bhe.__repr__() *)
Definition bhe_text (H : R) (b : bhe) : res (list string) :=
  match b with
  | Single b => Ok (single_text H b)
  | Multiple b => multiple_text H b
  | Coaxial b => Ok (coaxial_text H b)
  | OtherBhe => Err OtherError
  end.

(** ground_heat_exchangers.py:58-82; the header is itself between two lines *)
Definition base_ghe_text (s : ghe) : res (list string) :=
  let! b := bhe_text (gh_H s) (gh_bhe s) in
  Ok ([chars "-" 50] ++ header "GHEDT GHE Output - Version 0.1" ++ [chars "-" 50] ++
      [justify "Number of borheoles" (str_int (zlen (gf_locations (gh_gf s)))); justify "Depth of the borehole" (str4 (gh_H s) ++ " (m)");
       justify "Bore hole spacing" (str4 (gh_B s) ++ " (m)")] ++
      header "Borehole Heat Exchanger" ++ b ++ header "Equivalent Borehole Heat Exchanger" ++ single_text (gh_H s) (gh_eq s) ++
      header "Simulation parameters" ++ sim_params_text)%list.

(** ground_heat_exchangers.py:240-252; the header made in line 239 is not used *)
Definition results_text (s : ghe) : res (list string) :=
  match fst (gh_results s) with
  | [] => Ok []
  | HPEFT =>
      let! max_HP_EFT := nmaxl HPEFT in
      let! min_HP_EFT := nminl HPEFT in
      Ok [justify "Max HP entering temp" (str4 max_HP_EFT ++ " (degrees Celsius)"); justify "Min HP entering temp" (str4 min_HP_EFT ++ " (degrees Celsius)");
          justify "Excess fluid temperature" (str4 (cost (st_max_EFT st) (st_min_EFT st) max_HP_EFT min_HP_EFT) ++ " (degrees Celsius)")]
  end.

(** the tabulator *)
Definition tab : string := String "009" "".

(** ground_heat_exchangers.py:236-281: the object afterwards and the report; [cl], [hl]: the rejection and extraction of hybrid_load *)
Definition ghe_report (cl hl : loads R) (s : ghe) : ghe * res (list string) :=
  match (let! a := base_ghe_text s in let! r := results_text s in let! df := create_dataframe_of_peak_analysis cl hl in
         let! B_over_H := pydiv (gh_B s) (gh_H s) in Ok (a, r, df, B_over_H)) with
  | Err e => (s, Err e)
  | Ok (a, r, df, B_over_H) =>
      let (t, g) := grab_g_function interp (gh_gf s) B_over_H (st_rb st) (fst (gh_sts s)) (snd (gh_sts s)) in
      (with_gf s (with_table (gh_gf s) t),
       let! c := g in
       let! ps := repr_pairs (fst c) (snd c) in
       Ok (a ++ r ++ header "Peak Load Analysis" ++ [class_text "HybridLoad"] ++ table_text df ++
           header "GFunction Information" ++ ["Coordinates"; ("x(m)" ++ tab ++ "y(m)")%string] ++
           map (fun p => (str (fst p) ++ tab ++ str (snd p))%string) (gf_locations (gh_gf s)) ++
           ["G-Function"; ("ln(t/ts)" ++ tab ++ "g")%string] ++ map (fun p => (str4 (fst p) ++ tab ++ str4 (snd p))%string) ps)%list)
  end.
End Printing.
