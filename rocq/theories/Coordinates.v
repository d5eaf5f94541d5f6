(** Model of ghedt/coordinates.py *)
From Coq Require Import ZArith List Bool.
From Verif Require Import Base Num.
Import ListNotations.
Open Scope Z_scope.

(** a borehole position (x, y) and a field *)
Notation point F := (F * F)%type (only parsing).
Notation field F := (list (F * F)) (only parsing).

Section Coordinates.
Context {F : Type} {N : Num F}.


Definition fz : F := nofZ 0.
(** [i * B] with an integer i *)
Definition zmul (i : Z) (b : F) : F := nmul (nofZ i) b.

(** coordinates.py:3-8 *)
Definition transpose_coordinates (c : field F) : field F :=
  map (fun p => (snd p, fst p)) c.

(** coordinates.py:11-21 *)
Definition rectangle_o (Nx Ny : Z) (Bx By : F) (origin : point F) : res (field F) :=
  let nbh := Nx * Ny in
  let r := flat_map (fun i => map (fun j => (nadd (fst origin) (zmul i Bx), nadd (snd origin) (zmul j By)))
                                  (zrange 0 Ny)) (zrange 0 Nx) in
  let! _ := assert_ (zlen r =? nbh) in
  Ok r.

(** coordinates.py:11, default origin (0, 0) *)
Definition rectangle (Nx Ny : Z) (Bx By : F) : res (field F) := rectangle_o Nx Ny Bx By (fz, fz).

(** coordinates.py:24-41 *)
Definition open_rectangle (Nx Ny : Z) (Bx By : F) : res (field F) :=
  if (2 <? Nx) && (2 <? Ny) then
    let nbh := Ny * 2 + (Nx - 2) * 2 in
    let open_r :=
      map (fun i => (zmul i Bx, fz)) (zrange 0 Nx)
      ++ flat_map (fun j => [(fz, zmul j By); (zmul (Nx - 1) Bx, zmul j By)]) (zrange 1 (Ny - 1))
      ++ map (fun i => (zmul i Bx, zmul (Ny - 1) By)) (zrange 0 Nx) in
    let! _ := assert_ (zlen open_r =? nbh) in
    Ok open_r
  else
    let nbh := Nx * Ny in
    let! open_r := rectangle Nx Ny Bx By in
    let! _ := assert_ (zlen open_r =? nbh) in
    Ok open_r.

(** coordinates.py:44-58 *)
Definition C_shape (Nx_1 Ny : Z) (Bx By : F) (Nx_2 : Z) : res (field F) :=
  let nbh := Nx_1 + (Ny * 2) - 1 + Nx_2 - 1 in
  let x_loc := zmul (Nx_1 - 1) Bx in
  let y_loc := zmul (Ny - 1) By in
  let c :=
    map (fun i => (zmul i Bx, fz)) (zrange 0 Nx_1)
    ++ map (fun j => (fz, zmul j By)) (zrange 1 Ny)
    ++ map (fun j => (x_loc, zmul j By)) (zrange 1 Ny)
    ++ map (fun i => (zmul i Bx, y_loc)) (zrange 1 (Nx_2 + 1)) in
  let! _ := assert_ (zlen c =? nbh) in
  Ok c.

(** coordinates.py:61-74 (the second side column is never appended) *)
Definition U_shape (Nx Ny : Z) (Bx By : F) : res (field F) :=
  if (2 <? Nx) && (1 <? Ny) then
    let nbh := 2 * Ny + (Nx - 2) in
    let u := map (fun i => (zmul i Bx, fz)) (zrange 0 Nx)
             ++ map (fun j => (fz, zmul j By)) (zrange 1 Ny) in
    let! _ := assert_ (zlen u =? nbh) in
    Ok u
  else
    let nbh := Nx * Ny in
    let! u := rectangle Nx Ny Bx By in
    let! _ := assert_ (zlen u =? nbh) in
    Ok u.

(** coordinates.py:77-88 *)
Definition lop_U (Nx Ny_1 : Z) (Bx By : F) (Ny_2 : Z) : res (field F) :=
  let nbh := Nx + Ny_1 - 1 + Ny_2 - 1 in
  let x_loc := zmul (Nx - 1) Bx in
  let u :=
    map (fun i => (zmul i Bx, fz)) (zrange 0 Nx)
    ++ map (fun j => (fz, zmul j By)) (zrange 1 Ny_1)
    ++ map (fun j => (x_loc, zmul j By)) (zrange 1 Ny_2) in
  let! _ := assert_ (zlen u =? nbh) in
  Ok u.

(** coordinates.py:91-99 *)
Definition L_shape (Nx Ny : Z) (Bx By : F) : res (field F) :=
  let nbh := Nx + Ny - 1 in
  let l := map (fun i => (zmul i Bx, fz)) (zrange 0 Nx)
           ++ map (fun j => (fz, zmul j By)) (zrange 1 Ny) in
  let! _ := assert_ (zlen l =? nbh) in
  Ok l.

(** coordinates.py:102-124 *)
Definition zoned_rectangle (Nx Ny : Z) (Bx By : F) (Nix Niy : Z) : res (field F) :=
  let! _ := raise_if (Nx - 2 <? Nix) ValueError in
  let! _ := raise_if (Ny - 2 <? Niy) ValueError in
  let! outer := open_rectangle Nx Ny Bx By in
  let! Bix := pydiv (zmul (Nx - 1) Bx) (nofZ (Nix + 1)) in
  let! Biy := pydiv (zmul (Ny - 1) By) (nofZ (Niy + 1)) in
  let! inner := rectangle_o Nix Niy Bix Biy (Bix, Biy) in
  Ok (outer ++ inner).

End Coordinates.
