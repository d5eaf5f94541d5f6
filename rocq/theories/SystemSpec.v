(** Vocabulary for the statements about whole heat exchangers.  It uses the type [dialogue] of System.v, none of its functions. *)
From Coq Require Import List Reals.
From Verif Require Import Base GFun System.
Import ListNotations.
Open Scope R_scope.

(** every element exceeds the one before by at least d *)
Fixpoint apart (d : R) (l : list R) : Prop :=
  match l with
  | a :: ((b :: _) as r) => a + d <= b /\ apart d r
  | _ => True
  end.

(** the first short time, 1e-12 s *)
Definition first_second : R := / 1000000000000.

(** w is the value at v of the broken line through the points: v lies between two neighbours *)
Definition on_line (points : list (R * R)) (v w : R) : Prop :=
  exists before a b after, points = before ++ a :: b :: after /\ fst a <= v <= fst b /\
  w = snd a + (snd b - snd a) * ((v - fst a) / (fst b - fst a)).

(** the points a root finder asks for and its result, for an objective without state *)
Fixpoint listen (f : R -> res R) (d : dialogue) : list R * res R :=
  match d with
  | Answer r => ([], r)
  | Ask x next => match f x with
                  | Err e => ([x], Err e)
                  | Ok y => let (l, r) := listen f (next y) in (x :: l, r)
                  end
  end.
(** it asks only for points between the limits *)
Fixpoint asks_within (lower upper : R) (d : dialogue) : Prop :=
  match d with
  | Answer _ => True
  | Ask x next => lower <= x <= upper /\ forall y, asks_within lower upper (next y)
  end.
(** between a sign change it stops at a point where the objective is 0, or within tol of a point where it has the other sign (scipy's brentq:
    tol = xtol + rtol * |x|); its last question decides, because sizing keeps the height of the last simulation *)
Definition stops_close (tol : R) (d : R -> R -> dialogue) : Prop :=
  forall f lo up a b pts x, f lo = Ok a -> f up = Ok b -> a < 0 < b \/ b < 0 < a -> listen f (d lo up) = (pts, Ok x) ->
  exists y, f (last pts up) = Ok y /\
  (y = 0 \/ exists q z, f q = Ok z /\ lo <= q <= up /\ Rabs (q - last pts up) <= tol /\ (y < 0 < z \/ z < 0 < y)).
(** interpolants over the height pass through the points they are given *)
Definition passes_through (interp : ikind -> list (R * R) -> R -> R) : Prop :=
  forall k l h y, NoDup (map fst l) -> In (h, y) l -> interp k l h = y.
