(** Model of ghedt/utilities.py (spatial, design and statistics helpers) *)
From Coq Require Import ZArith QArith Reals List Bool.
From Verif Require Import Base Num.
Import ListNotations.
Open Scope Z_scope.

(** utilities.py:18-24, in thousandths *)
Definition Eskilson_log_times_milli : list Z :=
  [-8500; -7800; -7200; -6500; -5900; -5200; -4500; -3963; -3270; -2864; -2577; -2171; -1884;
   -1191; -497; -274; -51; 196; 419; 642; 873; 1112; 1335; 1679; 2028; 2275; 3003].

Section Utilities.
Context {F : Type} {N : Num F}.

(** utilities.py:45-53; the loop body for index i, with j = (i + 1) mod n *)
Definition shoelace_body (corners : list (F * F)) (area : F) (i : Z) : res F :=
  let n := zlen corners in
  let j := (i + 1) mod n in
  let! ci := py_nth corners i in
  let! cj := py_nth corners j in
  let area := nadd area (nmul (fst ci) (snd cj)) in
  Ok (nsub area (nmul (fst cj) (snd ci))).
Definition polygonal_area (corners : list (F * F)) : res F :=
  let! area := foldM (shoelace_body corners) (zrange 0 (zlen corners)) (nofZ 0) in
  pydiv (nabs area) (nofZ 2).

(** utilities.py:68-76 *)
Definition make_rectangle_perimeter (length_x length_y : F) (origin : F * F) : list (F * F) :=
  let (ox, oy) := origin in
  [(ox, oy); (nadd ox length_x, oy); (nadd ox length_x, nadd oy length_y); (ox, nadd oy length_y)].

(** utilities.py:79-81; [up] selects func=np.ceil (default) or np.floor *)
Definition number_of_boreholes (length B : F) (up : bool) : res Z :=
  let! q := pydiv length B in
  let! n := (if up then nceil q else nfloor q) in
  Ok (n + 1).

(** utilities.py:84-86 *)
Definition length_of_side (n : Z) (B : F) : F := nmul (nofZ (n - 1)) B.

(** utilities.py:89-91 *)
Definition spacing_along_length (L : F) (n : Z) : res F := pydiv L (nofZ (n - 1)).

(** utilities.py:159-182; summation loop then division by the length *)
Definition compute_mpe (actual predicted : list F) : res F :=
  let! _ := assert_ (zlen actual =? zlen predicted) in
  let! s := foldM (fun s ap => let! t := pydiv (nsub (snd ap) (fst ap)) (fst ap) in Ok (nadd s t))
                  (combine actual predicted) (nofZ 0) in
  pydiv (nmul s (nofZ 100)) (nofZ (zlen actual)).

End Utilities.

(** utilities.py:29-42, over the reals (square root).  [coordinates[0]] is read before the length is
    examined, so the empty list raises IndexError and line 40 is unreachable. *)
Definition borehole_spacing (r_b : R) (coordinates : list (R * R)) : res R :=
  let! p0 := py_nth coordinates 0 in
  if zlen coordinates =? 1 then Ok r_b
  else if 1 <? zlen coordinates then
    let! p1 := py_nth coordinates 1 in
    Ok (nmax r_b (sqrt ((fst p1 - fst p0) ^ 2 + (snd p1 - snd p0) ^ 2)))
  else Err ValueError.

(** A float as the search code sees it: a finite number, minus infinity, or nan / plus infinity *)
Inductive xval (F : Type) : Type := Fin (q : F) | NegInf | NonFin.
Arguments Fin {F}. Arguments NegInf {F}. Arguments NonFin {F}.

(** utilities.py:96-103: int(abs(x)/x).  abs(0)/0 raises ZeroDivisionError; nan/nan and inf/inf are
    nan, and int(nan) raises ValueError. *)
Definition sign {F} {N : Num F} (x : xval F) : res Z :=
  match x with
  | NegInf | NonFin => Err ValueError
  | Fin q => if nis0 q then Err ZeroDivisionError
             else Ok (if nle (nofZ 0) q then 1 else -1)
  end.

(** utilities.py:106-118 *)
Definition check_bracket (sL sR : Z) : bool :=
  if (sL <? 0) && (0 <? sR) then true
  else if (sR <? 0) && (0 <? sL) then true
  else false.
