(** Model of ghedt/feature_recognition.py and of domains.polygonal_land_constraint *)
From Coq Require Import ZArith List Bool.
From Verif Require Import Base Num Coordinates Domains.
Import ListNotations.
Open Scope Z_scope.

Section Features.
Context {F : Type} {N : Num F}.

(** feature_recognition.py:7-14 *)
Definition scale_coordinates (coordinates : list (F * F)) (scale : F) : list (F * F) :=
  map (fun p => (nmul (fst p) scale, nmul (snd p) scale)) coordinates.

(** cv2.pointPolygonTest(boundary, point, False): an oracle of the scaled boundary and the scaled
    point.  The conversion of the boundary to uint64 (line 28) is part of the oracle; the
    oracle may raise. *)
Definition oracle : Type := list (F * F) -> F * F -> res F.

(** [i in l] for a list of indices *)
Definition mem (i : Z) (l : list Z) : bool := existsb (Z.eqb i) l.

(** loop feature_recognition.py:38-46; state (inside, outside, boundary) index lists *)
Definition classify_body (pip : oracle) (coordinates boundary : list (F * F))
    (s : list Z * list Z * list Z) (i : Z) : res (list Z * list Z * list Z) :=
  let '(ins, outs, bnds) := s in
  let! coordinate := py_nth coordinates i in
  let! dist := pip boundary coordinate in
  if nlt (nofZ 0) dist then Ok (ins ++ [i], outs, bnds)
  else if nlt dist (nofZ 0) then Ok (ins, outs ++ [i], bnds)
  else if nis0 dist then Ok (ins, outs, bnds ++ [i])
  else Ok (ins, outs, bnds).

(** the [continue] conditions of lines 49-73 *)
Definition dropped (remove_inside keep_contour : bool) (ins outs bnds : list Z) (i : Z) : bool :=
  if remove_inside && keep_contour then mem i ins
  else if remove_inside && negb keep_contour then mem i ins || mem i bnds
  else if negb remove_inside && negb keep_contour then mem i outs || mem i bnds
  else mem i outs.

(** feature_recognition.py:17-77; [boundary = []] also stands for None *)
Definition remove_cutout (pip : oracle) (coordinates boundary : list (F * F))
    (remove_inside keep_contour : bool) : res (list (F * F)) :=
  let scale := nofZ 10000 in
  let coordinates := scale_coordinates coordinates scale in
  let boundary := scale_coordinates boundary scale in
  let! s := foldM (classify_body pip coordinates boundary) (zrange 0 (zlen coordinates)) ([], [], []) in
  let '(ins, outs, bnds) := s in
  let! new_coordinates :=
    foldM (fun acc i => if dropped remove_inside keep_contour ins outs bnds i then Ok acc
                        else let! c := py_nth coordinates i in Ok (acc ++ [c]))
          (zrange 0 (zlen coordinates)) [] in
  let! inv := pydiv (nofZ 1) scale in
  Ok (scale_coordinates new_coordinates inv).

(** feature_recognition.py:80-96 *)
Definition determine_largest_rectangle (property_boundary : list (F * F)) : list (F * F) :=
  let step (m : F * F) (p : F * F) :=
    (if nlt (fst m) (fst p) then fst p else fst m, if nlt (snd m) (snd p) then snd p else snd m) in
  let '(x_max, y_max) := fold_left step property_boundary (nofZ 0, nofZ 0) in
  [(nofZ 0, nofZ 0); (x_max, nofZ 0); (x_max, y_max); (nofZ 0, y_max); (nofZ 0, nofZ 0)].

(** loop domains.py:368-379: the candidate fields of one domain, cut out *)
Definition cut_domain (pip : oracle) (property_boundary building : list (F * F)) (d : list (list (F * F)))
    : res (list (list (F * F))) :=
  foldM (fun acc coordinates =>
           let! c := remove_cutout pip coordinates property_boundary false true in
           if zlen c =? 0 then Ok acc
           else let! c := remove_cutout pip c building true false in Ok (acc ++ [c])) d [].

(** domains.py:349-388; [building = []] also stands for None *)
Definition polygonal_land_constraint (pip : oracle) (property_boundary : list (F * F))
    (B_min B_max_x B_max_y : F) (building : list (F * F)) : res (list (list (list (F * F)))) :=
  let outer := determine_largest_rectangle property_boundary in
  let! length := nmaxl (map fst outer) in
  let! width := nmaxl (map snd outer) in
  let! nested := bi_rectangle_nested length width B_min B_max_x B_max_y in
  let! cut := mapM (cut_domain pip property_boundary building) nested in
  Ok (map reorder_domain cut).

End Features.
