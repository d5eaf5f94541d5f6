(** Model of class GFunction and compute_live_g_function (ghedt/gfunction.py).
    Not modelled: calculate_g_function (pygfunction, an oracle), the plots (lines 313-419) and the yearly times (lines
    465-472, never used).  The dictionaries r_b_values, D_values and g_lts of a GFunction have the same
    keys in the same order, as configure_database_file_for_usage makes them; they are one list here.
    scipy's interpolants are an oracle; what is modelled is when they raise ValueError. *)
From Coq Require Import ZArith List Bool Reals.
From Verif Require Import Base Num Loads Ghe.
Import ListNotations.
Open Scope Z_scope.

Inductive ikind : Set := k_linear | k_quadratic | k_cubic | k_lagrange.
(** the argument [kind]: 'default', a known kind or another text *)
Inductive kind_arg : Set := k_default | k_some (k : ikind) | k_unknown.
(** gfunction.py:196-198 *)
Definition interpolation_kinds (k : ikind) : Z :=
  match k with k_linear => 2 | k_quadratic => 3 | k_cubic => 4 | k_lagrange => 2 end.
Definition curves_by_kind (n : Z) : res ikind :=
  if n =? 2 then Ok k_linear else if n =? 3 then Ok k_quadratic else if n =? 4 then Ok k_cubic else Err KeyError.

(** the attribute interpolation_table: {}, only 'g' because building it raised, or complete with the kind
    and whether it extrapolates *)
Inductive table : Set := t_empty | t_partial | t_built (k : ikind) (extrapolate : bool).

Section GFun.
Context {F : Type} {N : Num F}.

(** curve, radius and depth of one height *)
Record curve : Type := { cv_g : list F; cv_rb : F; cv_D : F }.
(** gfunction.py:107-123 *)
Record gfunction : Type := {
  gf_B : F;
  gf_curves : list (F * curve);
  gf_log_time : list F;
  gf_locations : list (F * F);
  gf_table : table
}.

(** value of the scipy interpolant of the points at a height (inside or, by extrapolation, outside their range) *)
Variable interp : ikind -> list (F * F) -> F -> F.

(** calling the interpolant: interp1d without 'extrapolate' raises ValueError outside the range *)
Definition call_interp (k : ikind) (extrapolate : bool) (pts : list (F * F)) (h : F) : res F :=
  match k with
  | k_lagrange => Ok (interp k pts h)
  | _ =>
      if extrapolate then Ok (interp k pts h)
      else let! mn := nminl (map fst pts) in
           let! mx := nmaxl (map fst pts) in
           if nle mn h && nle h mx then Ok (interp k pts h) else Err ValueError
  end.

(** gfunction.py:150-166: the equivalent height and whether 'extrapolate' is chosen *)
Definition equivalent_height (s : gfunction) (B_over_H : F) : res (F * bool) :=
  let! inv := pydiv (nofZ 1) B_over_H in
  let H_eq := nmul inv (gf_B s) in
  let heights := map fst (gf_curves s) in
  let! mx := nmaxl heights in
  let! mn := nminl heights in
  let H_eq := if nlt (nabs (nsub H_eq mx)) (nlit 1 1000000) then mx else H_eq in
  let H_eq := if nlt (nabs (nsub H_eq mn)) (nlit 1 1000000) then mn else H_eq in
  let extrapolate :=
    if nle mn H_eq && nle H_eq mx then false
    else if nlt (nabs (nsub mn H_eq)) (nlit 1 1000) then false
    else true in
  Ok (H_eq, extrapolate).

(** gfunction.py:179-192: the only curve; None when the branch raises ValueError *)
Definition single_curve (c : F * curve) (H_eq : F) : res (option curve) :=
  let! q := pydiv (nsub H_eq (fst c)) (fst c) in
  Ok (if nlt q (nlit 1 1000) then Some (snd c)
      else if nlt (nsub (fst c) H_eq) (nlit 1 1000) then Some (snd c)
      else None).

(** gfunction.py:170-206 without the single-curve branch *)
Definition effective_kind (k : kind_arg) (n : Z) : res ikind :=
  let! k :=
    match k with
    | k_default => Ok (if 5 <=? n then k_cubic else if 3 <=? n then k_quadratic else k_linear)
    | k_some k => if n <? 2 then Err ValueError else Ok k
    | k_unknown => if n <? 2 then Err ValueError else Err KeyError
    end in
  if n <? interpolation_kinds k then curves_by_kind n else Ok k.

(** the points (height, g) of the i-th time, gfunction.py:215-221 *)
Definition g_points (curves : list (F * curve)) (i : Z) : res (list (F * F)) :=
  mapM (fun c => let! g := py_nth (cv_g (snd c)) i in Ok (fst c, g)) curves.

(** gfunction.py:209-254 *)
Definition build_table (s : gfunction) (k : ikind) (extrapolate : bool) : table * res unit :=
  match gf_table s with
  | t_empty =>
      match mapM (g_points (gf_curves s)) (zrange 0 (zlen (gf_log_time s))) with
      | Ok _ => (t_built k extrapolate, Ok tt)
      | Err e => (t_partial, Err e)
      end
  | t => (t, Ok tt)
  end.

(** gfunction.py:257-267 *)
Definition read_table (s : gfunction) (t : table) (H_eq : F) : res (list F * F * option F * F) :=
  match t with
  | t_built k extrapolate =>
      let! rb := call_interp k extrapolate (map (fun c => (fst c, cv_rb (snd c))) (gf_curves s)) H_eq in
      let D := match call_interp k extrapolate (map (fun c => (fst c, cv_D (snd c))) (gf_curves s)) H_eq with
               | Ok d => Some d
               | Err _ => None
               end in
      let! g := mapM (fun i => let! pts := g_points (gf_curves s) i in call_interp k extrapolate pts H_eq)
                     (zrange 0 (zlen (gf_log_time s))) in
      Ok (g, rb, D, H_eq)
  | _ => Err KeyError
  end.

(** gfunction.py:125-267; the table left in the object and the value (g-function, rb, D, H_eq) *)
Definition g_function_interpolation (s : gfunction) (B_over_H : F) (kind : kind_arg)
    : table * res (list F * F * option F * F) :=
  match equivalent_height s B_over_H with
  | Err e => (gf_table s, Err e)
  | Ok (H_eq, extrapolate) =>
      match kind, gf_curves s with
      | k_default, [c] =>
          (gf_table s,
           let! r := single_curve c H_eq in
           match r with
           | Some c => Ok (cv_g c, cv_rb c, Some (cv_D c), H_eq)
           | None => Err ValueError
           end)
      | _, curves =>
          match effective_kind kind (zlen curves) with
          | Err e => (gf_table s, Err e)
          | Ok k =>
              let (t, r) := build_table s k extrapolate in
              (t, let! _ := r in read_table s t H_eq)
          end
      end
  end.
Definition with_table (s : gfunction) (t : table) : gfunction :=
  {| gf_B := gf_B s; gf_curves := gf_curves s; gf_log_time := gf_log_time s; gf_locations := gf_locations s; gf_table := t |}.

(** gfunction.py:294-311 *)
Definition correct_coordinates (s : gfunction) (B : F) : res (list (F * F)) :=
  let! scale := pydiv B (gf_B s) in
  Ok (map (fun p =>
             let (x, y) := p : F * F in
             if nis0 x && nis0 y then (x, y)
             else if nis0 x then (x, nmul y scale)
             else (nmul x scale, nmul y scale)) (gf_locations s)).

(** ** dictionaries *)
(** d[key] = v: an equal key keeps its place *)
Fixpoint dict_set {V} (d : list (F * V)) (key : F) (v : V) : list (F * V) :=
  match d with
  | [] => [(key, v)]
  | (k, w) :: r => if neqb k key then (k, v) :: r else (k, w) :: dict_set r key v
  end.
Fixpoint dict_get {V} (d : list (F * V)) (key : F) : res V :=
  match d with
  | [] => Err KeyError
  | (k, w) :: r => if neqb k key then Ok w else dict_get r key
  end.

(** a key 'B_H_rb' or 'B_H_rb_D' of the database; the text is modelled as the numbers in it *)
Record db_key : Type := { dk_B : F; dk_H : F; dk_rb : F; dk_D : option F }.

(** loop body gfunction.py:447-463; state (g_tmp, r_bs_tmp, Ds_tmp) *)
Definition configure_body (st : list (F * list F) * list (F * F) * list (F * F)) (kv : db_key * list F) :=
  let '(g_tmp, rbs, ds) := st in
  let k := fst kv in
  (dict_set g_tmp (dk_H k) (snd kv),
   dict_set rbs (dk_H k) (dk_rb k),
   match dk_D k with Some d => dict_set ds (dk_H k) d | None => ds end).

(** sorted(keys, key=int): stable insertion sort by the integer part *)
Fixpoint insert_key (p : Z * F) (l : list (Z * F)) : list (Z * F) :=
  match l with
  | [] => [p]
  | q :: r => if fst p <=? fst q then p :: q :: r else q :: insert_key p r
  end.
Definition sort_keys (l : list F) : res (list F) :=
  let! ps := mapM (fun k => let! i := nint k in Ok (i, k)) l in
  Ok (map snd (fold_right insert_key [] ps)).

(** gfunction.py:421-497 and the constructor; keys of the data in the order of the dictionary *)
Definition configure (data : list (db_key * list F)) (log_time : list F) (locations : list (F * F)) : res gfunction :=
  let '(g_tmp, rbs, ds) := fold_left configure_body data ([], [], []) in
  let! first := (match data with [] => Err IndexError | kv :: _ => Ok kv end) in
  let! keys := sort_keys (map fst g_tmp) in
  let! g := mapM (fun k => let! v := dict_get g_tmp k in Ok (k, v)) keys in
  let Ds := match mapM (dict_get ds) keys with
            | Ok l => l
            | Err _ => map (fun _ => nofZ 2) keys
            end in
  let! rb := mapM (dict_get rbs) keys in
  Ok {| gf_B := dk_B (fst first);
        gf_curves := map (fun p => (fst (fst p), {| cv_g := snd (fst p); cv_rb := fst (snd p); cv_D := snd (snd p) |}))
                         (combine g (combine rb Ds));
        gf_log_time := log_time; gf_locations := locations; gf_table := t_empty |}.

(** a second assignment to an equal key replaces the value *)
Definition key_eqb (a b : db_key) : bool :=
  neqb (dk_B a) (dk_B b) && neqb (dk_H a) (dk_H b) && neqb (dk_rb a) (dk_rb b) &&
  match dk_D a, dk_D b with Some x, Some y => neqb x y | None, None => true | _, _ => false end.
Fixpoint data_set (d : list (db_key * list F)) (key : db_key) (v : list F) : list (db_key * list F) :=
  match d with
  | [] => [(key, v)]
  | (k, w) :: r => if key_eqb k key then (k, v) :: r else (k, w) :: data_set r key v
  end.

(** pygfunction's response of the field: height, depth, radius to the list of g values *)
Variable field_response : F -> F -> F -> res (list F).

(** gfunction.py:70-104 *)
Definition compute_live_g_function (B : F) (H_values r_b_values D_values log_time : list F) (locations : list (F * F))
    : res gfunction :=
  let! d := foldM (fun d i =>
      let! H := py_nth H_values i in
      let! r := py_nth r_b_values i in
      let! D := py_nth D_values i in
      let! g := field_response H D r in
      Ok (data_set d {| dk_B := B; dk_H := H; dk_rb := r; dk_D := Some D |} g))
    (zrange 0 (zlen H_values)) [] in
  configure d log_time locations.

End GFun.

(** gfunction.py:269-292, for positive radii *)
Definition borehole_radius_correction (g_function : list R) (rb rb_star : R) : list R :=
  map (fun g => (g - ln (rb_star / rb))%R) g_function.
