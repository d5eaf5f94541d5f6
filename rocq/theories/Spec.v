(** Small specification vocabulary, independent of the model's helper functions. *)
From Coq Require Import ZArith List Reals Sorted.
Import ListNotations.

(** ** Geometry of borehole fields *)
Open Scope R_scope.

(** the grid position in column i, row j *)
Definition grid (Bx By : R) (i j : Z) : R * R := (IZR i * Bx, IZR j * By).

(** a complete grid of nx columns and ny rows, column by column *)
Definition grid_field (Bx By : R) (nx ny : Z) : list (R * R) :=
  flat_map (fun i => map (fun j => grid Bx By (Z.of_nat i) (Z.of_nat j)) (seq 0 (Z.to_nat ny))) (seq 0 (Z.to_nat nx)).

(** exchange of x and y, when [tr] *)
Definition turned (tr : bool) (f : list (R * R)) : list (R * R) :=
  if tr then map (fun p => (snd p, fst p)) f else f.

(** l1 is the longer and l2 the shorter side of an lx by ly land; [tr] when x is the shorter *)
Definition oriented (lx ly l1 l2 : R) (tr : bool) : Prop :=
  (ly <= lx /\ l1 = lx /\ l2 = ly /\ tr = false) \/ (lx < ly /\ l1 = ly /\ l2 = lx /\ tr = true).

(** no two boreholes of the field (at different list positions) are closer than d *)
Definition separated (d : R) (f : list (R * R)) : Prop :=
  forall i j p q, i <> j -> nth_error f i = Some p -> nth_error f j = Some q ->
  d <= sqrt ((fst p - fst q) ^ 2 + (snd p - snd q) ^ 2).

(** every borehole is inside the closed rectangle [0, lx] x [0, ly] *)
Definition inside (lx ly : R) (f : list (R * R)) : Prop :=
  forall p, In p f -> 0 <= fst p <= lx /\ 0 <= snd p <= ly.

(** the interior zone sizes from [from] to the largest, (n1-2, n2-2).  A column is added when the
    columns are, relative to the perimeter, wider apart than the rows would be with one more row. *)
Fixpoint zone_steps (n1 n2 : Z) (from : Z * Z) (path : list (Z * Z)) : Prop :=
  match path with
  | [] => from = (n1 - 2, n2 - 2)%Z
  | p :: r => from <> (n1 - 2, n2 - 2)%Z
      /\ p = (if (n2 - 1) * (fst from + 1) <? (n1 - 1) * (snd from + 2) then (fst from + 1, snd from)
              else (fst from, snd from + 1))%Z
      /\ zone_steps n1 n2 p r
  end.

(** the same with rounding: one column or one row at a time.  Whenever the counts are such that
    rounding cannot hide the difference, the step is the one exact arithmetic takes, except perhaps at a tie. *)
Fixpoint zone_walk (n1 n2 : Z) (from : Z * Z) (path : list (Z * Z)) : Prop :=
  match path with
  | [] => from = (n1 - 2, n2 - 2)%Z
  | p :: r => from <> (n1 - 2, n2 - 2)%Z
      /\ (p = (fst from + 1, snd from) \/ p = (fst from, snd from + 1))%Z
      /\ ((n1 - 1) * (n2 - 1) <= 2 ^ 48 -> (n2 - 1) * (fst from + 1) <> (n1 - 1) * (snd from + 2) ->
          p = if (n2 - 1) * (fst from + 1) <? (n1 - 1) * (snd from + 2) then (fst from + 1, snd from) else (fst from, snd from + 1))%Z
      /\ zone_walk n1 n2 p r
  end.

(** perimeter counts from [from] to (M1, M2): the two counts are raised by one in turn, at even steps
    the first, until one of them has reached its maximum *)
Fixpoint staircase (i M1 M2 : Z) (from : Z * Z) (path : list (Z * Z)) : Prop :=
  let up1 := (fst from + 1, snd from)%Z in
  let up2 := (fst from, snd from + 1)%Z in
  match path with
  | [] => from = (M1, M2)
  | p :: r => from <> (M1, M2)
      /\ p = (if Z.even i then (if fst from <? M1 then up1 else up2) else (if snd from <? M2 then up2 else up1))%Z
      /\ staircase (i + 1) M1 M2 p r
  end.

(** numbers of boreholes *)
Definition sizes {A} (d : list (list A)) : list Z := map (fun f => Z.of_nat (length f)) d.

Open Scope Z_scope.
Definition strictly_increasing (l : list Z) : Prop := StronglySorted Z.lt l.
