(** What the figures show: coordinates.py:127-155, domains.py:425-447, gfunction.py:313-419, ground_loads.py:672-802.
    A figure is the list of what is drawn on it, in order; titles of axes, limits, sizes, fonts, grids and the placing of the legend are left out.
    _initialize_figure and savefig are taken to succeed. *)
From Coq Require Import ZArith List Bool String Ascii.
From Verif Require Import Base Num Loads Ghe GFun Printing.
Import ListNotations.
Open Scope Z_scope.

(** an entry of the legend: none, a text, or str(int(b)) + '/' + str(int(h)) *)
Inductive label : Type := unlabelled | text (s : string) | ratio (b h : Z).

Section Figures.
Context {F : Type} {N : Num F}.

(** ax.plot(x, y, style, label), ax.scatter(x, y, c, label), and ax.annotate with the text of a number *)
Inductive mark : Type :=
| line (x y : list F) (style : string) (l : label)
| points (x y : list F) (style : string) (l : label)
| note (value x y : F).
Definition figure : Type := list mark.

(** matplotlib refuses lists of different length *)
Definition draw_line (x y : list F) (style : string) (l : label) : res mark :=
  if zlen x =? zlen y then Ok (line x y style l) else Err ValueError.
(** x, y = list(zip( *c)): there is nothing to unpack when c is empty *)
Definition unzip {A B} (c : list (A * B)) : res (list A * list B) :=
  match c with [] => Err ValueError | _ => Ok (map fst c, map snd c) end.

(** coordinates.py:127-155 *)
Definition visualize_coordinates (coordinates : list (F * F)) : res figure :=
  let! xy := unzip coordinates in
  Ok [points (fst xy) (snd xy) "" unlabelled].
(** gfunction.py:357-380 *)
Definition visualize_borefield (gf : @gfunction F) (bore_locations : option (list (F * F))) : res figure :=
  let locations := match bore_locations with None => gf_locations gf | Some l => l end in
  let! xy := unzip locations in
  Ok [points (fst xy) (snd xy) "" unlabelled].
(** perimeter + [perimeter[0]], drawn: gfunction.py:398-400 and 408-410 *)
Definition outline (l : list (F * F)) (style : string) : res mark :=
  let! first := py_nth l 0 in
  let! xy := unzip (l ++ [first]) in
  draw_line (fst xy) (snd xy) style unlabelled.
(** gfunction.py:383-419 *)
Definition visualize_area_and_constraints (perimeter coordinates : list (F * F)) (no_go : option (list (F * F))) : res figure :=
  let! p := (if 0 <? zlen perimeter then let! m := outline perimeter "g" in Ok [m] else Ok []) in
  let! c := (if 0 <? zlen coordinates then let! xy := unzip coordinates in Ok [points (fst xy) (snd xy) "" unlabelled] else Ok []) in
  let! n := match no_go with Some z => let! m := outline z "r" in Ok [m] | None => Ok [] end in
  Ok (p ++ c ++ n)%list.

(** str.zfill(width) of a number that is not negative *)
Definition zfill (s : string) (width : nat) : string := append (chars "0" (width - String.length s)) s.
(** domains.py:425-447: the files written, in order, and what happened; the files written before an exception remain *)
Fixpoint visualize_from (folder : string) (i : Z) (domain : list (list (F * F))) : list (string * figure) * res unit :=
  match domain with
  | [] => ([], Ok tt)
  | coordinates :: rest =>
      match unzip coordinates with
      | Err e => ([], Err e)
      | Ok xy =>
          let (files, r) := visualize_from folder (i + 1) rest in
          ((append folder (append "/" (zfill (str_int i) 3)), [points (fst xy) (snd xy) "" unlabelled]) :: files, r)
      end
  end.
Definition visualize_domain (domain : list (list (F * F))) (folder : string) : list (string * figure) * res unit :=
  visualize_from folder 0 domain.

(** loop body gfunction.py:331-341; the text of an annotation is given by its number, before round(.., 4) *)
Definition curve_marks (gf : @gfunction F) (kc : F * @curve F) : res figure :=
  let (key, c) := kc in
  let! b := nint (gf_B gf) in
  let! h := nint key in
  let! m := draw_line (gf_log_time gf) (cv_g c) "" (ratio b h) in
  let! x_n := py_nth (gf_log_time gf) (-1) in
  let! y_n := py_nth (cv_g c) (-1) in
  let! r := pydiv (gf_B gf) key in
  Ok [m; note r (nsub x_n (nlit 4 10)) (if neqb key (nofZ 8) then nsub y_n (nofZ 5) else nadd y_n (nofZ 1))].
(** gfunction.py:313-355 *)
Definition visualize_g_functions (gf : @gfunction F) : res figure :=
  let! ms := mapM (curve_marks gf) (rev (gf_curves gf)) in
  Ok (List.concat ms).

(** the attributes of a HybridLoad that the figures read; HybridLoad.__init__ (ground_loads.py:376-421) sets no hourly_rejection_loads *)
Record hybrid_object : Type := { ho_rejection : loads F; ho_extraction : loads F; ho_hourly_rejection_loads : option (list F) }.
Definition new_hybrid (cl hl : loads F) : hybrid_object := {| ho_rejection := cl; ho_extraction := hl; ho_hourly_rejection_loads := None |}.
(** loop body ground_loads.py:684-690; state (rejection, extraction) *)
Definition hour_body (o : hybrid_object) (s : list (F * F) * list (F * F)) (i : Z) : res (list (F * F) * list (F * F)) :=
  let! hr := match ho_hourly_rejection_loads o with Some l => Ok l | None => Err AttributeError end in
  let! r := py_nth hr i in
  let! rejection := (if neqb r (nofZ 0) then Ok (fst s)
                     else let! h := py_nth (ld_hourly (ho_extraction o)) i in Ok (fst s ++ [(nofZ i, nsub (nofZ 0) h)])%list) in
  let! c := py_nth (ld_hourly (ho_rejection o)) i in
  Ok (rejection, if neqb c (nofZ 0) then snd s else (snd s ++ [(nofZ i, c)])%list).
(** ground_loads.py:672-716 *)
Definition visualize_hourly_heat_extraction (o : hybrid_object) : res figure :=
  let! s := foldM (hour_body o) (zrange 0 (zlen (ld_hourly (ho_extraction o)))) ([], []) in
  let scatter (l : list (F * F)) (style what : string) : figure :=
    match l with [] => [] | _ => [points (map fst l) (map snd l) style (text what)] end in
  Ok (scatter (snd s) "red" "Building in heating mode (ground heat extraction)" ++
      scatter (fst s) "blue" "Building in cooling mode (ground heat rejection)")%list.

(** draw_horizontal, ground_loads.py:730-743 *)
Definition draw_horizontal (nm : list F) (duration : F) : res figure :=
  let! v := nmaxl nm in
  let! i := py_index v nm in
  let! m := draw_line [duration; nofZ i] [v; v] "orange" unlabelled in
  Ok [m; points [duration] [v] "purple" unlabelled].
(** one of the two halves of ground_loads.py:752-787: the curves of a month of [ld] *)
Definition month_marks (ld : loads F) (month_num : Z) (style1 style2 what1 what2 : string) : res figure :=
  let hours := map nofZ (zrange 0 (2 * 24 + 1)) in
  let! pk := py_nth (ld_temps_pk ld) month_num in
  let! m1 := draw_line hours pk style1 (text what1) in
  let! nm := py_nth (ld_temps_nm ld) month_num in
  let! m2 := draw_line hours nm style2 (text what2) in
  let! d := py_nth (ld_duration ld) month_num in
  let! h := draw_horizontal nm d in
  Ok (m1 :: m2 :: h).
(** ground_loads.py:718-802; the ticks at the durations are left out *)
Definition visualize_fluid_simulation_results (o : hybrid_object) (month_num : Z) (extraction rejection : bool) : res figure :=
  let! e := (if extraction then month_marks (ho_rejection o) month_num "k--" "b-" "Peak Extraction" "Extraction" else Ok []) in
  let! r := (if rejection then month_marks (ho_extraction o) month_num "k." "r-." "Peak Rejection" "Rejection" else Ok []) in
  Ok (e ++ r)%list.

End Figures.
