(** Vocabulary of the search theorems *)
From Coq Require Import ZArith Reals List Bool.
From Verif Require Import Base Num Order Utilities Search.
Import ListNotations.
Open Scope Z_scope.

(** a finite value and its position relative to zero *)
Section Signs.
Context {F : Type} {N : Num F} {OF : Ordered F}.
Definition pos (v : xval F) : Prop := exists q, v = Fin q /\ (val q > 0)%R.
Definition neg (v : xval F) : Prop := exists q, v = Fin q /\ (val q < 0)%R.
Definition nonpos (v : xval F) : Prop := v = NegInf \/ exists q, v = Fin q /\ (val q <= 0)%R.
Definition opposite (v w : xval F) : Prop := (pos v /\ neg w) \/ (neg v /\ pos w).
Definition same_side (v w : xval F) : Prop := (pos v /\ pos w) \/ (neg v /\ neg w).
End Signs.

Section Spec.
Variable C : Type.
Context {F : Type} {N : Num F} {OF : Ordered F}.
Variable build : C -> F -> res unit.
Variable sim : C -> F -> res (xval F).
Variable sized : C -> res F.
Variable nbh : C -> Z.
Variable minH maxH : F.

(** every recorded temperature is the excess of its field at the maximum height *)
Definition recorded (d : list C) (t : list (Z * xval F)) : Prop :=
  forall k v, In (k, v) t -> 0 <= k < zlen d /\ exists c, nth_error d (Z.to_nat k) = Some c /\ sim c maxH = Ok v.

(** first and last field of a domain; excess of the first at both height limits and of the last at the upper one *)
Definition reads (d : list C) (c0 cR : C) (tl tu tm : xval F) : Prop :=
  nth_error d 0 = Some c0 /\ nth_error d (Z.to_nat (zlen d - 1)) = Some cR
  /\ sim c0 minH = Ok tl /\ sim c0 maxH = Ok tu /\ sim cR maxH = Ok tm.

(** excess of the k-th field at the maximum height is f k *)
Definition excess_is (d : list C) (f : Z -> F) : Prop :=
  forall k c, 0 <= k -> nth_error d (Z.to_nat k) = Some c -> sim c maxH = Ok (Fin (f k)).

(** if the field is within the limits at the minimum height, it does not exceed them at the maximum height *)
Definition height_helps (c0 : C) : Prop :=
  forall q q', sim c0 minH = Ok (Fin q) -> sim c0 maxH = Ok (Fin q') -> (val q < 0)%R -> (val q' <= 0)%R.

(** all evaluations of the domain at maximum height, and of its first field at minimum height, succeed with a non-zero value *)
Definition well_behaved (d : list C) : Prop :=
  forall c H, In c d -> H = maxH \/ H = minH /\ nth_error d 0 = Some c ->
  (exists u, build c H = Ok u) /\ exists v, sim c H = Ok v /\ (pos v \/ neg v).

(** something outside the search went wrong for field [c] at height [H] *)
Definition oracle_err (c : C) (H : F) (e : exn) : Prop :=
  build c H = Err e \/ sim c H = Err e \/ exists v, sim c H = Ok v /\ sign v = Err e.

(** the outcome of searching one domain, by itself *)
Definition start (d : list C) (g : C * F) : sstate C (F := F) :=
  {| dom := d; temps := []; ghe := g; trace := []; temps_nested := []; heights := [] |}.
Definition one_d (mi : Z) (d : list C) (r : res (option (Z * C))) : Prop :=
  forall g, fst (search C build sim minH maxH mi (start d g)) = r.

(** every inner domain begins with the same field *)
Definition starts_with (c00 : C) (nested : list (list C)) : Prop := Forall (fun d => nth_error d 0 = Some c00) nested.

(** one visited inner domain: its index, the field selected in it, the total drilling *)
Record visit : Type := { v_idx : Z; v_key : Z; v_field : C; v_drill : F }.
Definition good_visit (nested : list (list C)) (mi : Z) (v : visit) : Prop :=
  exists d H, nth_error nested (Z.to_nat (v_idx v)) = Some d
    /\ one_d mi d (Ok (Some (v_key v, v_field v))) /\ sized (v_field v) = Ok H
    /\ v_drill v = nmul (nofZ (nbh (v_field v))) H.

(** [old] then the drillings in turn: every one but the last does not exceed its predecessor *)
Fixpoint descending (old : F) (l : list F) : Prop :=
  match l with
  | [] => True
  | [x] => True
  | x :: r => (val x <= val old)%R /\ descending x r
  end.
Fixpoint rises_last (old : F) (l : list F) : Prop :=
  match l with
  | [] => False
  | [x] => (val old < val x)%R
  | x :: r => rises_last x r
  end.

End Spec.
Arguments v_idx {C F}. Arguments v_key {C F}. Arguments v_field {C F}. Arguments v_drill {C F}. Arguments Build_visit {C F}.
