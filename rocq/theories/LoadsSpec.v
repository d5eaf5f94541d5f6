(** Vocabulary for the statements about loads; nothing here refers to the model in Loads.v. *)
From Coq Require Import ZArith List Reals Bool.
Import ListNotations.
Open Scope Z_scope.

(** days of the months January to December *)
Definition civil_month (year : Z) : list Z :=
  [31; (if (year mod 4 =? 0) && (negb (year mod 100 =? 0) || (year mod 400 =? 0)) then 29 else 28);
   31; 30; 31; 30; 31; 31; 30; 31; 30; 31].
(** days of month i = 1 .. 12 *)
Definition days_of (year i : Z) : Z := nth (Z.to_nat (i - 1)) (civil_month year) 0.
(** number of days before month i *)
Definition days_before (year i : Z) : Z := fold_right Z.add 0 (firstn (Z.to_nat (i - 1)) (civil_month year)).
Definition days_in_year (year : Z) : Z := fold_right Z.add 0 (civil_month year).

(** the hourly values of month i *)
Definition month_of {A} (year : Z) (hourly : list A) (i : Z) : list A :=
  firstn (Z.to_nat (24 * days_of year i)) (skipn (Z.to_nat (24 * days_before year i)) hourly).

Open Scope R_scope.

Definition Rsum (l : list R) : R := fold_right Rplus 0 l.

(** m is the largest element of l *)
Definition is_max (m : R) (l : list R) : Prop := In m l /\ forall x, In x l -> x <= m.

(** p is the position of the first largest element of l *)
Definition first_max_at (p : nat) (l : list R) : Prop :=
  exists m, nth_error l p = Some m /\ is_max m l /\ forall q, (q < p)%nat -> nth_error l q <> Some m.

(** energy carried by a load sequence of (rate, end hour) entries starting at hour h *)
Fixpoint energy (h : R) (l : list (R * R)) : R :=
  match l with
  | [] => 0
  | (rate, h') :: r => rate * (h' - h) + energy h' r
  end.

(** the non-decreasing lists *)
Fixpoint nondecreasing (l : list R) : Prop :=
  match l with
  | a :: ((b :: _) as r) => a <= b /\ nondecreasing r
  | _ => True
  end.

(** sum of f 0 .. f (n-1) *)
Fixpoint sumf (f : nat -> R) (n : nat) : R :=
  match n with O => 0 | S m => sumf f m + f m end.

(** w is the 48 consecutive hours of the (cyclic) year beginning with hour [start] *)
Definition two_days_from {A} (hourly : list A) (start : Z) (w : list A) : Prop :=
  length w = 48%nat /\
  forall t : Z, (0 <= t < 48)%Z ->
    nth_error w (Z.to_nat t) = nth_error hourly (Z.to_nat ((start + t) mod Z.of_nat (length hourly))).

(** Temperature rise after n steps of the loads q 1 .. q n applied one per step to a system at rest (q 0 = 0),
    by superposition of its unit step response G. *)
Definition rise (G : nat -> R) (q : nat -> R) (n : nat) : R :=
  sumf (fun j => (q (S j) - q j) * G (n - j)%nat) n.
(** a step response that, during the two days, starts at 0 and never falls *)
Definition step_response (G : nat -> R) : Prop := 0 <= G 1%nat /\ forall n, (1 <= n < 48)%nat -> G n <= G (S n).

(** the constant peak load above the average, and the nominal load, during the two days *)
Definition peak_q (peak avg : R) (j : nat) : R := match j with O => 0 | S _ => peak - avg end.
Definition nominal_q (w : list R) (peak avg : R) (j : nat) : R :=
  match j with O => 0 | S k => (nth k w 0 - avg) / peak * nth k w 0 end.

(** d is where the broken line through the points (n, X n), 0 <= n <= N, takes the value v *)
Definition crosses (X : nat -> R) (N : nat) (v d : R) : Prop :=
  exists n, (n < N)%nat /\ X n <= v < X (S n) /\ d = INR n + (v - X n) / (X (S n) - X n) \/ n = N /\ X n = v /\ d = INR n.

(** A year of hours in which month i has the value [pk i] during [du i] hours around noon of the (0-based) day
    [day i], and [av i] in all its other hours.  An odd duration begins half an hour before the centred window. *)
Definition window_start (du day : Z) : Z := ((2 * (24 * day + 12) - du) / 2)%Z.
Definition base_and_peak {A} (year : Z) (l : list A) (av pk : Z -> A) (du day : Z -> Z) : Prop :=
  Z.of_nat (length l) = (24 * days_in_year year)%Z /\
  forall i h, (1 <= i <= 12)%Z -> (0 <= h < 24 * days_of year i)%Z ->
    nth_error l (Z.to_nat (24 * days_before year i + h)) =
    Some (if ((window_start (du i) (day i) <=? h) && (h <? window_start (du i) (day i) + du i))%Z then pk i else av i).

(** n is the integer nearest to x, the even one of two equally near *)
Definition nearest (x : R) (n : Z) : Prop :=
  Rabs (x - IZR n) < / 2 \/ Rabs (x - IZR n) = / 2 /\ Z.even n = true.

(** temperature rises after 0 .. 48 hours *)
Definition rises (G q : nat -> R) : list R := 0 :: map (rise G q) (seq 1 48).

(** hours from the beginning of simulation month 1 to the end of simulation month i (365-day years) *)
Definition hours_through (i : Z) : Z := (24 * (365 * (i / 12) + days_before 2019 (i mod 12 + 1)))%Z.
(** calendar month of simulation month i *)
Definition calendar_month (i : Z) : Z := ((i - 1) mod 12 + 1)%Z.

(** [load] and [hour] consist of the leading zeros and one block of (load, end hour) entries for every month
    from s to e, and each block ends with the month *)
Definition in_months (s e : Z) (load hour : list R) (block : Z -> list (R * R)) : Prop :=
  exists months, (forall k, nth_error months k = if (Z.of_nat k <=? e - s)%Z then Some (s + Z.of_nat k)%Z else None) /\
  load = 0 :: 0 :: map fst (flat_map block months) /\
  hour = 0 :: IZR (hours_through (s - 1)) :: map snd (flat_map block months) /\
  forall i, (s <= i <= e)%Z -> exists l q, block i = l ++ [(q, IZR (hours_through i))].
