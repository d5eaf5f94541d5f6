(** A land turned by a quarter *)
From Coq Require Import ZArith List Bool Reals.
From Verif Require Import Base Num GFun Search Design System.
Import ListNotations.

(** x and y of every borehole exchanged *)
Definition quarter_turn {F : Type} (c : list (F * F)) : list (F * F) := map (fun p => (snd p, fst p)) c.
(** a result with every field in it turned *)
Definition turned_domain {F : Type} (d : res (list (list (F * F)))) : res (list (list (F * F))) :=
  match d with Ok d => Ok (map quarter_turn d) | Err e => Err e end.
Definition turned_nested {F : Type} (d : res (list (list (list (F * F))))) : res (list (list (list (F * F)))) :=
  match d with Ok d => Ok (map (map quarter_turn) d) | Err e => Err e end.

(** length and width exchanged *)
Definition sides_exchanged {F : Type} (gc : @constraints F) : @constraints F :=
  {| gc_length := gc_width gc; gc_width := gc_length gc; gc_B := gc_B gc; gc_B_min := gc_B_min gc;
     gc_B_max_x := gc_B_max_x gc; gc_B_max_y := gc_B_max_y gc |}.
(** also the greatest spacings along them *)
Definition land_turned {F : Type} (gc : @constraints F) : @constraints F :=
  {| gc_length := gc_width gc; gc_width := gc_length gc; gc_B := gc_B gc; gc_B_min := gc_B_min gc;
     gc_B_max_x := gc_B_max_y gc; gc_B_max_y := gc_B_max_x gc |}.

(** the selection of a search, turned: the same index *)
Definition selection_turned {F : Type} (s : option (Z * list (F * F))) : option (Z * list (F * F)) :=
  match s with Some (k, c) => Some (k, quarter_turn c) | None => None end.
(** the search object, turned: the same fields were tried at the same heights, turned, with the same excess temperatures *)
Definition search_turned (s : sstate (list (R * R)) (F := R)) : sstate (list (R * R)) (F := R) :=
  {| dom := map quarter_turn (dom _ s); temps := temps _ s; Search.ghe := (quarter_turn (fst (Search.ghe _ s)), snd (Search.ghe _ s));
     trace := map (fun p => (quarter_turn (fst p), snd p)) (trace _ s); temps_nested := temps_nested _ s; heights := heights _ s |}.
(** the heat exchanger with its boreholes turned *)
Definition ghe_turned (s : ghe) : ghe :=
  {| gh_B := gh_B s; gh_nbh := gh_nbh s; gh_H := gh_H s; gh_bhe := gh_bhe s; gh_eq := gh_eq s; gh_ts := gh_ts s; gh_sts := gh_sts s;
     gh_gf := {| gf_B := gf_B (gh_gf s); gf_curves := gf_curves (gh_gf s); gf_log_time := gf_log_time (gh_gf s);
                 gf_locations := quarter_turn (gf_locations (gh_gf s)); gf_table := gf_table (gh_gf s) |};
     gh_load := gh_load s; gh_hour := gh_hour s; gh_results := gh_results s |}.
