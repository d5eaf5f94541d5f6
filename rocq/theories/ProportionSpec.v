(** Vocabulary of C136: all loads and all temperature differences multiplied by the same number *)
From Coq Require Import ZArith List Reals.
From Verif Require Import Base Num Utilities Search LoadsSpec System.
Import ListNotations.
Open Scope R_scope.

(** loads [a] times as large, and limits of the entering fluid temperature [a] times as far from the temperature of the ground *)
Definition proportional (a : R) (st : settings) : settings :=
  {| st_class := st_class st; st_fluid := st_fluid st; st_rb := st_rb st; st_D := st_D st; st_grout_k := st_grout_k st; st_grout_rhoCp := st_grout_rhoCp st;
     st_soil_k := st_soil_k st; st_soil_rhoCp := st_soil_rhoCp st; st_ugt := st_ugt st;
     st_start := st_start st; st_end := st_end st; st_max_EFT := st_ugt st + a * (st_max_EFT st - st_ugt st); st_min_EFT := st_ugt st + a * (st_min_EFT st - st_ugt st);
     st_max_H := st_max_H st; st_min_H := st_min_H st; st_loads := map (Rmult a) (st_loads st) |}.
(** loads [a] times as large, with the limits as they are *)
Definition with_loads_times (a : R) (st : settings) : settings :=
  {| st_class := st_class st; st_fluid := st_fluid st; st_rb := st_rb st; st_D := st_D st; st_grout_k := st_grout_k st; st_grout_rhoCp := st_grout_rhoCp st;
     st_soil_k := st_soil_k st; st_soil_rhoCp := st_soil_rhoCp st; st_ugt := st_ugt st;
     st_start := st_start st; st_end := st_end st; st_max_EFT := st_max_EFT st; st_min_EFT := st_min_EFT st;
     st_max_H := st_max_H st; st_min_H := st_min_H st; st_loads := map (Rmult a) (st_loads st) |}.
(** the same heat exchanger with its load sequence, its fluid temperatures (from [ugt]) and its wall temperature changes multiplied *)
Definition proportional_ghe (a ugt : R) (s : ghe) : ghe :=
  {| gh_B := gh_B s; gh_nbh := gh_nbh s; gh_H := gh_H s; gh_bhe := gh_bhe s; gh_eq := gh_eq s; gh_ts := gh_ts s; gh_sts := gh_sts s;
     gh_gf := gh_gf s; gh_load := map (Rmult a) (gh_load s); gh_hour := gh_hour s;
     gh_results := (map (fun t => ugt + a * (t - ugt)) (fst (gh_results s)), map (Rmult a) (snd (gh_results s))) |}.

(** an excess, the excesses recorded by a search *)
Definition excess_times (a : R) (x : xval R) : xval R := match x with Fin q => Fin (a * q) | NegInf => NegInf | NonFin => NonFin end.
Definition recorded_times (a : R) (t : list (Z * xval R)) : list (Z * xval R) := map (fun p => (fst p, excess_times a (snd p))) t.
Definition search_times {C} (a : R) (s : sstate C (F := R)) : sstate C (F := R) :=
  {| dom := dom _ s; temps := recorded_times a (temps _ s); Search.ghe := Search.ghe _ s; trace := trace _ s;
     temps_nested := map (fun p => (fst p, recorded_times a (snd p))) (temps_nested _ s); heights := heights _ s |}.

(** a root finder that asks for the same points, and gives the same answer, when all the values it is told are [a] times as large *)
Inductive same_questions (a : R) : dialogue -> dialogue -> Prop :=
| same_answer r : same_questions a (Answer r) (Answer r)
| same_question x next next' : (forall y, same_questions a (next y) (next' (a * y))) -> same_questions a (Ask x next) (Ask x next').

(** ground_loads.py:269-280 takes the largest load of two days for the peak of a month unless the two differ by less than 0.1: no month for which that is so of the
    loads of one direction, [rejection] or [extraction] in kW (ground_loads.py:431-467), but not of [a] times them.  [w] are the 48 hours beginning at a midnight and containing the peak [p] of
    month [i], [y] is the largest of them *)
Definition rejection (l : list R) : list R := map (fun x => if Rle_dec 0 x then 0 else x / - 1000) l.
Definition extraction (l : list R) : list R := map (fun x => if Rle_dec 0 x then x / 1000 else 0) l.
Definition no_close_call (a : R) (l : list R) : Prop :=
  forall i start w p y, (1 <= i <= 12)%Z -> (start mod 24 = 0)%Z -> two_days_from l start w -> is_max p (month_of 2019 l i) -> In p w -> is_max y w ->
  y = p \/ (y - p < 1 / 10 <-> a * (y - p) < 1 / 10).
