(** Lengths in another unit *)
From Coq Require Import ZArith List.
From Verif Require Import Base Num Search Design.
Import ListNotations.

Section Scale.
Context {F : Type} {N : Num F}.

(** a field whose coordinates are [k] times the number: [k] is how many of the new units a unit is *)
Definition scaled (k : F) (c : list (F * F)) : list (F * F) := map (fun p => (nmul k (fst p), nmul k (snd p))) c.
Definition times (k : F) (x : option F) : option F := match x with Some a => Some (nmul k a) | None => None end.
(** the constraints in the new unit *)
Definition constraints_scaled (k : F) (gc : @constraints F) : @constraints F :=
  {| gc_length := times k (gc_length gc); gc_width := times k (gc_width gc); gc_B := times k (gc_B gc); gc_B_min := times k (gc_B_min gc);
     gc_B_max_x := times k (gc_B_max_x gc); gc_B_max_y := times k (gc_B_max_y gc) |}.
Definition domain_scaled (k : F) (d : res (list (list (F * F)))) : res (list (list (F * F))) :=
  match d with Ok d => Ok (map (scaled k) d) | Err e => Err e end.
Definition nested_scaled (k : F) (d : res (list (list (list (F * F))))) : res (list (list (list (F * F)))) :=
  match d with Ok d => Ok (map (map (scaled k)) d) | Err e => Err e end.
(** the result of a search in the new unit: the same index; the same fields were tried at the same heights with the same excess *)
Definition selection_scaled (k : F) (s : option (Z * list (F * F))) : option (Z * list (F * F)) :=
  match s with Some (i, c) => Some (i, scaled k c) | None => None end.
Definition search_scaled (k : F) (s : sstate (list (F * F)) (F := F)) : sstate (list (F * F)) (F := F) :=
  {| dom := map (scaled k) (dom _ s); temps := temps _ s; Search.ghe := (scaled k (fst (Search.ghe _ s)), nmul k (snd (Search.ghe _ s)));
     trace := map (fun p => (scaled k (fst p), nmul k (snd p))) (trace _ s); temps_nested := temps_nested _ s;
     heights := map (fun p => (fst p, nmul k (snd p))) (heights _ s) |}.
(** a field that may not exist *)
Definition field_scaled (k : F) (c : res (list (F * F))) : res (list (F * F)) := match c with Ok c => Ok (scaled k c) | Err e => Err e end.
End Scale.
