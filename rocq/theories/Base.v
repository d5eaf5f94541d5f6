(** Python runtime behaviour shared by all model files: exceptions as values, [range],
    list indexing and slicing.  These model the Python language, not a file of /repo. *)
From Coq Require Import ZArith List Bool.
Import ListNotations.
Open Scope Z_scope.

(** Exceptions that the modelled code can raise.  [OutOfFuel] is not a Python exception: it marks
    a fuel-bounded loop whose bound was too small, and is proved unreachable where it matters. *)
Inductive exn : Set :=
| ValueError | ZeroDivisionError | IndexError | KeyError | AssertionError
| TypeError | OverflowError | AttributeError | OtherError | OutOfFuel.

Inductive res (A : Type) : Type :=
| Ok (a : A)
| Err (e : exn).
Arguments Ok {A} a.
Arguments Err {A} e.

Definition bind {A B} (m : res A) (k : A -> res B) : res B :=
  match m with Ok a => k a | Err e => Err e end.

Notation "'let!' x ':=' m 'in' k" := (bind m (fun x => k))
  (at level 200, x pattern, m at level 100, k at level 200, right associativity).

(** [assert b] *)
Definition assert_ (b : bool) : res unit := if b then Ok tt else Err AssertionError.

(** [raise e] if [b] *)
Definition raise_if (b : bool) (e : exn) : res unit := if b then Err e else Ok tt.

(** [range(a, b)] for integers *)
Fixpoint zseq (a : Z) (n : nat) : list Z :=
  match n with O => [] | S m => a :: zseq (a + 1) m end.
Definition zrange (a b : Z) : list Z := zseq a (Z.to_nat (b - a)).

(** value of the loop variable after [for v in range(a, b)] when it was [v0] before *)
Definition after_range (v0 a b : Z) : Z := if a <? b then b - 1 else v0.

(** [len(l)] *)
Definition zlen {A} (l : list A) : Z := Z.of_nat (length l).

(** [l[i]] with Python's negative indices *)
Definition py_nth {A} (l : list A) (i : Z) : res A :=
  let i' := if i <? 0 then i + zlen l else i in
  if i' <? 0 then Err IndexError
  else match nth_error l (Z.to_nat i') with
       | Some a => Ok a
       | None => Err IndexError
       end.

(** index normalisation in slices: negative values count from the end, then clamp to [0, n] *)
Definition clampi (n i : Z) : Z :=
  let i' := if i <? 0 then i + n else i in Z.max 0 (Z.min n i').

(** [l[a:b]] *)
Definition py_slice {A} (l : list A) (a b : Z) : list A :=
  let n := zlen l in
  let lo := clampi n a in
  let hi := clampi n b in
  firstn (Z.to_nat (hi - lo)) (skipn (Z.to_nat lo) l).

(** [l[a:b] = v] : the slice [lo, max lo hi) is replaced by [v], which may change the length *)
Definition py_slice_set {A} (l : list A) (a b : Z) (v : list A) : list A :=
  let n := zlen l in
  let lo := clampi n a in
  let hi := Z.max lo (clampi n b) in
  firstn (Z.to_nat lo) l ++ v ++ skipn (Z.to_nat hi) l.

(** [[v] * n] *)
Definition py_repeat {A} (v : A) (n : Z) : list A := repeat v (Z.to_nat n).

(** a [for] loop appending one value per iteration; stops at the first exception *)
Fixpoint mapM {A B} (f : A -> res B) (l : list A) : res (list B) :=
  match l with
  | [] => Ok []
  | a :: r => let! b := f a in let! bs := mapM f r in Ok (b :: bs)
  end.

(** a [for] loop with a state *)
Fixpoint foldM {A S} (f : S -> A -> res S) (l : list A) (s : S) : res S :=
  match l with
  | [] => Ok s
  | a :: r => let! s' := f s a in foldM f r s'
  end.

(** first index of the first element satisfying [p] *)
Fixpoint find_index {A} (p : A -> bool) (l : list A) : option nat :=
  match l with
  | [] => None
  | a :: r => if p a then Some O else option_map S (find_index p r)
  end.
