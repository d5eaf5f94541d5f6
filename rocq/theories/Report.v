(** The table of the peak analysis and the tick marks of the plots: ground_loads.py 464-520, 805-825 and utilities.py 187-254 *)
From Coq Require Import ZArith List Bool String.
From Verif Require Import Base Num Loads.
Import ListNotations.
Open Scope string_scope.
Open Scope Z_scope.

(** Python dictionaries with string keys, in the order of insertion *)
Definition dict (V : Type) : Type := list (string * V).
Fixpoint dict_get {V} (d : dict V) (k : string) : res V :=
  match d with [] => Err KeyError | (k', v) :: r => if String.eqb k k' then Ok v else dict_get r k end.
Fixpoint dict_set {V} (d : dict V) (k : string) (v : V) : dict V :=
  match d with [] => [(k, v)] | (k', v') :: r => if String.eqb k k' then (k', v) :: r else (k', v') :: dict_set r k v end.

(** ground_loads.py:805-817 [number_to_month] for an integer; the keys '1' .. '12' are the decimals of 1 .. 12.  Outside 1 .. 12
    a message is printed and None returned *)
Definition list_of_months : list (Z * string) :=
  [(1, "January"); (2, "February"); (3, "March"); (4, "April"); (5, "May"); (6, "June"); (7, "July"); (8, "August"); (9, "September");
   (10, "October"); (11, "November"); (12, "December")].
Definition number_to_month (x : Z) : res (option string) :=
  if (x <=? 12) && (0 <? x) then match find (fun p => fst p =? x) list_of_months with Some p => Ok (Some (snd p)) | None => Err KeyError end else Ok None.

(** ground_loads.py:820-825 [monthindex] *)
Definition months : dict Z :=
  [("January", 1); ("February", 2); ("March", 3); ("April", 4); ("May", 5); ("June", 6); ("July", 7); ("August", 8); ("September", 9);
   ("October", 10); ("November", 11); ("December", 12)].
Definition monthindex (mname : string) : option Z := match dict_get months mname with Ok i => Some i | Err _ => None end.

Section Table.
Context {F : Type} {N : Num F}.

(** a pandas DataFrame: row labels, column labels, the values row by row *)
Record table : Type := { df_rows : list string; df_columns : list (string * string); df_values : list (list F) }.

(** d[month_name][field][load_type] = v *)
Definition set_entry (d : dict (dict (dict F))) (month field load_type : string) (v : res F) : res (dict (dict (dict F))) :=
  let! x := v in let! fs := dict_get d month in let! ts := dict_get fs field in
  Ok (dict_set d month (dict_set fs field (dict_set ts load_type x))).

(** ground_loads.py:471-473 *)
Definition hybrid_time_step_fields : dict (dict F) :=
  [("Total", []); ("Peak", []); ("Average", []); ("Peak Day", []); ("Peak Duration", [])].

(** loop body ground_loads.py:477-498; a DataFrame holds the peak days, integers, as floats *)
Definition table_body (cl hl : loads F) (d : dict (dict (dict F))) (i : Z) : res (dict (dict (dict F))) :=
  let! name := number_to_month i in
  match name with
  | None => Err KeyError
  | Some m =>
      let d := dict_set d m hybrid_time_step_fields in
      let! d := set_entry d m "Total" "rejection" (py_nth (ld_total cl) i) in
      let! d := set_entry d m "Total" "extraction" (py_nth (ld_total hl) i) in
      let! d := set_entry d m "Peak" "rejection" (py_nth (ld_peak cl) i) in
      let! d := set_entry d m "Peak" "extraction" (py_nth (ld_peak hl) i) in
      let! d := set_entry d m "Average" "rejection" (py_nth (ld_average cl) i) in
      let! d := set_entry d m "Average" "extraction" (py_nth (ld_average hl) i) in
      let! d := set_entry d m "Peak Day" "rejection" (let! x := py_nth (ld_peak_day cl) i in Ok (nofZ x)) in
      let! d := set_entry d m "Peak Day" "extraction" (let! x := py_nth (ld_peak_day hl) i in Ok (nofZ x)) in
      let! d := set_entry d m "Peak Duration" "rejection" (py_nth (ld_duration cl) i) in
      set_entry d m "Peak Duration" "extraction" (py_nth (ld_duration hl) i)
  end.

(** ground_loads.py:464-520 [create_dataframe_of_peak_analysis]; pandas rejects values that do not have a row per label and a column
    per column label *)
Definition create_dataframe_of_peak_analysis (cl hl : loads F) : res table :=
  let! d := foldM (table_body cl hl) (zrange 1 13) [] in
  let columns := flat_map (fun f : string * dict F => [(fst f, "rejection"); (fst f, "extraction")]) hybrid_time_step_fields in
  let values := map (fun m : string * dict (dict F) => flat_map (fun f : string * dict F => map snd (snd f)) (snd m)) d in
  let! _ := raise_if (negb (forallb (fun r => zlen r =? zlen columns) values)) ValueError in
  Ok {| df_rows := map fst d; df_columns := columns; df_values := values |}.
End Table.
Arguments table F : clear implicits.

Section Ticks.
Context {F : Type} {N : Num F}.

(** numpy.arange(a, b, step): as many points as the ceiling of (b - a) / step *)
Definition arange (a b step : F) : res (list F) :=
  let! q := pydiv (nsub b a) step in let! n := nceil q in Ok (map (fun k => nadd a (nmul (nofZ k) step)) (zrange 0 n)).

(** loop body utilities.py:237-247; [prev] and [next] are consecutive major ticks *)
Definition minor_body (linthresh nintervals : F) (prev next : F) : res (list F) :=
  let majorstep := nsub next prev in
  let! half := pydiv majorstep (nofZ 2) in
  let ndivs := if nlt (nabs (nadd prev half)) linthresh then nintervals else nsub nintervals (nofZ 1) in
  let! minorstep := pydiv majorstep ndivs in
  let! locs := arange prev next minorstep in
  Ok (tl locs).

Fixpoint minor_loop (linthresh nintervals : F) (majorlocs : list F) : res (list F) :=
  match majorlocs with
  | prev :: ((next :: _) as r) =>
      let! locs := minor_body linthresh nintervals prev next in
      let! rest := minor_loop linthresh nintervals r in
      Ok (locs ++ rest)%list
  | _ => Ok []
  end.

(** utilities.py:202-249 [MinorSymLogLocator.__call__]; [majorlocs] is what the axis returns.  Locator.raise_if_exceeds only issues a warning *)
Definition minor_ticks (linthresh nintervals : F) (majorlocs : list F) : res (list F) :=
  if zlen majorlocs =? 1 then Ok [] else
  let! m0 := py_nth majorlocs 0 in let! m1 := py_nth majorlocs 1 in
  let! last := py_nth majorlocs (-1) in let! before := py_nth majorlocs (-2) in
  let dmlower := nsub m1 m0 in
  let dmupper := nsub last before in
  let lower := if negb (neqb m0 (nofZ 0)) && ((negb (neqb m0 linthresh) && nlt linthresh dmlower) || (neqb dmlower linthresh && nlt m0 (nofZ 0)))
               then nmul m0 (nofZ 10) else nsub m0 linthresh in
  let upper := if negb (neqb last (nofZ 0)) && ((negb (neqb (nabs last) linthresh) && nlt linthresh dmupper) || (neqb dmupper linthresh && nlt (nofZ 0) last))
               then nmul last (nofZ 10) else nadd last linthresh in
  minor_loop linthresh nintervals (lower :: majorlocs ++ [upper])%list.
End Ticks.
