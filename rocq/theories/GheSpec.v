(** Vocabulary for the statements about the simulation and the sizing; nothing here refers to the model in Ghe.v. *)
From Coq Require Import ZArith List Reals.
From Verif Require Import Base LoadsSpec.
Import ListNotations.
Open Scope R_scope.

(** value of the sequence at step k = 1, 2, ...; 0 at step 0, the start *)
Definition at_step (l : list R) (k : nat) : R := match k with O => 0 | S j => nth j l 0 end.

(** temperature rise of the borehole wall at step i: every change of the load per length acts from the time of the
    step before on *)
Definition wall_rise (G : R -> R) (q t : nat -> R) (i : nat) : R :=
  sumf (fun j => (q (S j) - q j) * G (t i - t j)) i.

(** the g-function [g] has the values G at all time differences of the first n steps *)
Definition covers (g : R -> res R) (G : R -> R) (t : list R) (n : nat) : Prop :=
  forall i j, (j < i <= n)%nat -> g (at_step t i - at_step t j) = Ok (G (at_step t i - at_step t j)).

(** m is the smallest element of l *)
Definition is_min (m : R) (l : list R) : Prop := In m l /\ forall x, In x l -> m <= x.

(** the strictly increasing lists *)
Fixpoint increasing (l : list R) : Prop :=
  match l with
  | a :: ((b :: _) as r) => a < b /\ increasing r
  | _ => True
  end.
