(** Model of ghedt/search_routines.py: Bisection1D, Bisection2D, BisectionZD *)
From Coq Require Import ZArith List Bool.
From Verif Require Import Base Num Utilities.
Import ListNotations.
Open Scope Z_scope.

(** ** floats as the search compares them; F is the type of finite numbers *)
Section Compare.
Context {F : Type} {N : Num F}.
(** [x <= 0.0] *)
Definition xle0 (x : xval F) : bool :=
  match x with Fin q => nle q (nofZ 0) | NegInf => true | NonFin => false end.
(** [x < 0.0], [x > 0.0] (only used on finite values) *)
Definition xlt0 (x : xval F) : bool :=
  match x with Fin q => nlt q (nofZ 0) | NegInf => true | NonFin => false end.
Definition xgt0 (x : xval F) : bool :=
  match x with Fin q => nlt (nofZ 0) q | NegInf => false | NonFin => false end.
(** [x < y] on values that passed [xle0] *)
Definition xlt (x y : xval F) : bool :=
  match x, y with
  | Fin a, Fin b => nlt a b
  | NegInf, Fin _ => true
  | _, _ => false
  end.
(** [x == y] *)
Definition xeq (x y : xval F) : bool :=
  match x, y with
  | Fin a, Fin b => neqb a b
  | NegInf, NegInf => true
  | _, _ => false
  end.
End Compare.

(** Python dict with integer keys in insertion order; assignment to an existing key keeps its place *)
Fixpoint dict_set {V} (d : list (Z * V)) (k : Z) (v : V) : list (Z * V) :=
  match d with
  | [] => [(k, v)]
  | (k', v') :: r => if k =? k' then (k, v) :: r else (k', v') :: dict_set r k v
  end.
Fixpoint dict_get {V} (d : list (Z * V)) (k : Z) : res V :=
  match d with
  | [] => Err KeyError
  | (k', v') :: r => if k =? k' then Ok v' else dict_get r k
  end.

(** Python's max(list) / min(list): the first extreme element; ValueError on the empty list *)
Fixpoint pick {A} (better : A -> A -> bool) (best : A) (l : list A) : A :=
  match l with
  | [] => best
  | a :: r => pick better (if better a best then a else best) r
  end.
Definition py_max {F} {N : Num F} (l : list (xval F)) : res (xval F) :=
  match l with [] => Err ValueError | a :: r => Ok (pick (fun x y => xlt y x) a r) end.
Definition py_min {F} {N : Num F} (l : list F) : res F :=
  match l with [] => Err ValueError | a :: r => Ok (pick nlt a r) end.

(** keys[values.index(v)] *)
Definition key_of {V} (eqb : V -> V -> bool) (d : list (Z * V)) (v : V) : res Z :=
  match find (fun kv => eqb (snd kv) v) d with
  | Some kv => Ok (fst kv)
  | None => Err ValueError
  end.

(** search_routines.py:202-210 and 347-355: key of the largest non-positive excess, first inserted on ties *)
Definition select_key {F} {N : Num F} (temps : list (Z * xval F)) : res Z :=
  let values := map snd temps in
  let! excess_of_interest := py_max (filter xle0 values) in
  key_of xeq temps excess_of_interest.

Section Search.
(** a borehole field *)
Variable C : Type.
(** heights and temperatures *)
Context {F : Type} {N : Num F}.
(** initialize_ghe (search_routines.py:72-96) may raise: flow convention, spacing, g-function, GHE construction *)
Variable build : C -> F -> res unit.
(** ghe.simulate followed by ghe.cost (lines 101-102) for a heat exchanger built with a field and a height;
    both read only the heat exchanger built by initialize_ghe and constant inputs *)
Variable sim : C -> F -> res (xval F).
(** compute_g_functions followed by size('hybrid') (lines 323-324, 360-361) on the heat exchanger built for the
    field at max_Height; returns the resulting height *)
Variable sized : C -> res F.
(** len(coordinates) *)
Variable nbh : C -> Z.
(** sim_params.min_Height, sim_params.max_Height *)
Variable minH maxH : F.

(** the mutable attributes of the search object; [trace] records the calls of calculate_excess *)
Record sstate : Type := {
  dom : list C;                                (* self.coordinates_domain *)
  temps : list (Z * xval F);                     (* self.calculated_temperatures *)
  ghe : C * F;                                 (* self.ghe: its field and height *)
  trace : list (C * F);
  temps_nested : list (Z * list (Z * xval F));   (* self.calculated_temperatures_nested (ZD) *)
  heights : list (Z * F)                       (* self.calculated_heights (ZD) *)
}.
Definition set_dom d s := {| dom := d; temps := temps s; ghe := ghe s; trace := trace s;
                             temps_nested := temps_nested s; heights := heights s |}.
Definition set_temps t s := {| dom := dom s; temps := t; ghe := ghe s; trace := trace s;
                               temps_nested := temps_nested s; heights := heights s |}.
Definition set_ghe g s := {| dom := dom s; temps := temps s; ghe := g; trace := trace s;
                             temps_nested := temps_nested s; heights := heights s |}.
Definition add_trace c s := {| dom := dom s; temps := temps s; ghe := ghe s; trace := trace s ++ [c];
                               temps_nested := temps_nested s; heights := heights s |}.
Definition set_temps_nested t s := {| dom := dom s; temps := temps s; ghe := ghe s; trace := trace s;
                                      temps_nested := t; heights := heights s |}.
Definition set_heights h s := {| dom := dom s; temps := temps s; ghe := ghe s; trace := trace s;
                                 temps_nested := temps_nested s; heights := h |}.

(** methods: state passing with exceptions; the state survives an exception *)
Definition M (A : Type) : Type := sstate -> res A * sstate.
Definition ret {A} (a : A) : M A := fun s => (Ok a, s).
Definition raise {A} (e : exn) : M A := fun s => (Err e, s).
Definition lift {A} (r : res A) : M A := fun s => (r, s).
Definition mbind {A B} (m : M A) (k : A -> M B) : M B :=
  fun s => let (r, s') := m s in match r with Ok a => k a s' | Err e => (Err e, s') end.
Definition modify (f : sstate -> sstate) : M unit := fun s => (Ok tt, f s).
Definition get {A} (f : sstate -> A) : M A := fun s => (Ok (f s), s).

Notation "'do' x <- m ; k" := (mbind m (fun x => k)) (at level 200, x pattern, m at level 100, k at level 200).

(** search_routines.py:72-96.  Simplified: when it raises, self.ghe keeps its old height
    (line 76 would already have changed it); the object is always re-initialised before use. *)
Definition initialize_ghe (c : C) (H : F) : M unit :=
  do _ <- lift (build c H);
  modify (set_ghe (c, H)).

(** search_routines.py:98-109 *)
Definition calculate_excess (c : C) (H : F) : M (xval F) :=
  do _ <- modify (add_trace (c, H));
  do _ <- initialize_ghe c H;
  lift (sim c H).

Definition record_temp (k : Z) (v : xval F) : M unit :=
  do t <- get temps; modify (set_temps (dict_set t k v)).

(** the while loop, lines 176-192; [fuel] = max_iter - i.  Returns the final (xL_idx, xR_idx, i). *)
Fixpoint bisect_loop (fuel : nat) (xL_sign xL_idx xR_idx i : Z) : M (Z * Z * Z) :=
  match fuel with
  | O => ret (xL_idx, xR_idx, i)
  | S fuel' =>
      let c_idx := - ((- (xL_idx + xR_idx)) / 2) in          (* int(np.ceil((xL_idx + xR_idx) / 2)) *)
      if (c_idx =? xL_idx) || (c_idx =? xR_idx) then ret (xL_idx, xR_idx, i)
      else
        do d <- get dom;
        do c <- lift (py_nth d c_idx);
        do c_T_excess <- calculate_excess c maxH;
        do _ <- record_temp c_idx c_T_excess;
        do c_sign <- lift (sign c_T_excess);
        if c_sign =? xL_sign then bisect_loop fuel' xL_sign c_idx xR_idx (i + 1)
        else bisect_loop fuel' xL_sign xL_idx c_idx (i + 1)
  end.

(** search_routines.py:111-215; [None] stands for the result (None, None) of line 166 *)
Definition search (max_iter : Z) : M (option (Z * C)) :=
  do d <- get dom;
  let xL_idx := 0 in
  let xR_idx := zlen d - 1 in
  do _ <- lift (py_nth d xR_idx);
  do c0 <- lift (py_nth d xL_idx);
  do T_0_lower <- calculate_excess c0 minH;
  do T_0_upper <- calculate_excess c0 maxH;
  do cR <- lift (py_nth d xR_idx);
  do T_m1 <- calculate_excess cR maxH;
  do _ <- record_temp xL_idx T_0_upper;
  do _ <- record_temp xR_idx T_m1;
  do s_lower <- lift (sign T_0_lower);
  do s_upper <- lift (sign T_0_upper);
  if check_bracket s_lower s_upper then
    do _ <- initialize_ghe c0 maxH;
    ret (Some (0, c0))
  else
    do s_upper <- lift (sign T_0_upper);
    do s_m1 <- lift (sign T_m1);
    if check_bracket s_upper s_m1 then
      do xL_sign <- lift (sign T_0_upper);
      do xR_sign <- lift (sign T_m1);
      do st <- bisect_loop (Z.to_nat max_iter) xL_sign xL_idx xR_idx 0;
      let '(_, _, i) := st in
      do coordinates <- lift (py_nth d i);
      do _ <- calculate_excess coordinates maxH;
      do t <- get temps;
      do selection_key <- lift (select_key t);
      do selected_coordinates <- lift (py_nth d selection_key);
      do _ <- initialize_ghe selected_coordinates maxH;
      ret (Some (selection_key, selected_coordinates))
    else if xlt0 T_0_upper && xlt0 T_m1 then raise ValueError
    else if xgt0 T_0_upper && xgt0 T_m1 then raise ValueError
    else ret None.

(** unpacking and using the key of a search result: arithmetic on None raises TypeError *)
Definition need {A} (o : option A) : M A :=
  match o with Some a => ret a | None => raise TypeError end.

(** outer domain, lines 242-244 and 289-291 *)
Definition outer_domain (nested : list (list C)) : res (list C) :=
  let! d0 := py_nth nested 0 in
  let! c00 := py_nth d0 0 in
  let! lasts := mapM (fun d => py_nth d (-1)) nested in
  Ok (c00 :: lasts).

(** search_routines.py:242-261 (Bisection2D.__init__ after the base initialisation);
    returns the outer key, then the final result *)
Definition search_2d (nested : list (list C)) (max_iter : Z) : M (Z * option (Z * C)) :=
  do outer <- lift (outer_domain nested);
  do _ <- modify (set_dom outer);
  do r <- search max_iter;
  do kc <- need r;
  let selection_key := fst kc in
  do inner <- lift (py_nth nested (selection_key - 1));
  do _ <- modify (set_dom inner);
  do _ <- modify (set_temps []);
  do r2 <- search max_iter;
  ret (selection_key, r2).

(** the while loop of search_successive, lines 312-335; [fuel] bounds max_iter - i *)
Fixpoint successive_loop (fuel : nat) (nested : list (list C)) (max_iter1 : Z) (old_height : F) (i : Z) : M unit :=
  match fuel with
  | O => ret tt
  | S fuel' =>
      if i <? zlen nested then
        do d <- lift (py_nth nested i);
        do _ <- modify (set_dom d);
        do _ <- modify (set_temps []);
        fun s =>
          match search max_iter1 s with
          | (Err ValueError, s') => ret tt s'                       (* except ValueError: break *)
          | (Err e, s') => (Err e, s')
          | (Ok r, s') =>
              (do t <- get temps;
               do tn <- get temps_nested;
               do _ <- modify (set_temps_nested (dict_set tn i t));
               do g <- get ghe;
               do H <- lift (sized (fst g));
               do _ <- modify (set_ghe (fst g, H));
               do kc <- need r;                                     (* len(None) raises TypeError *)
               let total_drilling := nmul (nofZ (nbh (snd kc))) H in
               do hs <- get heights;
               do _ <- modify (set_heights (dict_set hs i total_drilling));
               if nlt old_height total_drilling
               then ret tt
               else successive_loop fuel' nested max_iter1 total_drilling (i + 1)) s'
          end
      else ret tt
  end.

(** search_routines.py:304-363, called without an argument, so max_iter = selection_key_outer + 7.
    Returns the inner-domain key chosen and the result. *)
Definition search_successive (nested : list (list C)) (max_iter1 : Z) (selection_key_outer : Z) : M (Z * Z * C) :=
  do _ <- successive_loop 7 nested max_iter1 (nofZ 99999) selection_key_outer;
  do hs <- get heights;
  do minimum_total_drilling <- lift (py_min (map snd hs));
  do key_outer <- lift (key_of neqb hs minimum_total_drilling);
  do tn <- get temps_nested;
  do t <- lift (dict_get tn key_outer);
  do _ <- modify (set_temps t);
  do selection_key <- lift (select_key t);
  do d <- lift (py_nth nested key_outer);
  do c <- lift (py_nth d selection_key);
  do _ <- initialize_ghe c maxH;
  do H <- lift (sized c);
  do _ <- modify (set_ghe (c, H));
  ret (key_outer, selection_key, c).

(** search_routines.py:285-302 (BisectionZD.__init__ after the base initialisation) *)
Definition search_zd (nested : list (list C)) (max_iter : Z) : M (Z * Z * C) :=
  do outer <- lift (outer_domain nested);
  do _ <- modify (set_dom outer);
  do _ <- modify (set_temps_nested []);
  do r <- search max_iter;
  do kc <- need r;
  let selection_key_outer := if 0 <? fst kc then fst kc - 1 else fst kc in
  do _ <- modify (set_heights []);
  search_successive nested max_iter selection_key_outer.

End Search.
