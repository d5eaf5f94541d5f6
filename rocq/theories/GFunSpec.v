(** Vocabulary for the statements about g-functions.  It uses the data types of GFun.v, none of its functions, except
    [results], which makes calls one after the other. *)
From Coq Require Import ZArith List Reals.
From Verif Require Import Base Num GFun.
Import ListNotations.
Open Scope R_scope.

Definition heights (s : @gfunction R) : list R := map fst (gf_curves s).

(** the interpolation kind that n >= 2 curves allow for a request *)
Definition kind_for (request : kind_arg) (n : nat) (k : ikind) : Prop :=
  match request with
  | k_default => ((5 <= n)%nat -> k = k_cubic) /\ ((3 <= n <= 4)%nat -> k = k_quadratic) /\ (n = 2%nat -> k = k_linear)
  | k_some k_linear => k = k_linear
  | k_some k_lagrange => k = k_lagrange
  | k_some k_quadratic => ((3 <= n)%nat -> k = k_quadratic) /\ (n = 2%nat -> k = k_linear)
  | k_some k_cubic => ((4 <= n)%nat -> k = k_cubic) /\ (n = 3%nat -> k = k_quadratic) /\ (n = 2%nat -> k = k_linear)
  | k_unknown => False
  end.

(** every curve has a value for every time *)
Definition full_curves (s : @gfunction R) : Prop :=
  forall c, In c (gf_curves s) -> (length (gf_log_time s) <= length (cv_g (snd c)))%nat.

(** interpolation of everything stored, at height h *)
Definition interpolated (interp : ikind -> list (R * R) -> R -> R) (s : gfunction) (k : ikind) (h : R)
    : list R * R * option R * R :=
  (map (fun i => interp k (map (fun c => (fst c, nth i (cv_g (snd c)) 0)) (gf_curves s)) h) (seq 0 (length (gf_log_time s))),
   interp k (map (fun c => (fst c, cv_rb (snd c))) (gf_curves s)) h,
   Some (interp k (map (fun c => (fst c, cv_D (snd c))) (gf_curves s)) h),
   h).

(** h lies between two stored heights *)
Definition between (s : @gfunction R) (h : R) : Prop :=
  exists a b, In a (heights s) /\ In b (heights s) /\ a <= h <= b.
(** h is one of the outer heights *)
Definition lowest (s : @gfunction R) (h : R) : Prop := In h (heights s) /\ forall x, In x (heights s) -> h <= x.
Definition highest (s : @gfunction R) (h : R) : Prop := In h (heights s) /\ forall x, In x (heights s) -> x <= h.

(** the results of successive calls on one object *)
Fixpoint results (interp : ikind -> list (R * R) -> R -> R) (s : gfunction) (k : kind_arg) (requests : list R)
    : list (res (list R * R * option R * R)) :=
  match requests with
  | [] => []
  | b :: r => let (t, x) := g_function_interpolation interp s b k in x :: results interp (with_table s t) k r
  end.

(** last entry of a database for a height, and last depth given for it *)
Definition last_entry (data : list (db_key * list R)) (h : R) : option (db_key * list R) :=
  find (fun kv => if Req_EM_T (dk_H (fst kv)) h then true else false) (rev data).
Definition last_depth (data : list (db_key * list R)) (h : R) : option R :=
  match find (fun kv => match dk_D (fst kv) with Some _ => if Req_EM_T (dk_H (fst kv)) h then true else false | None => false end)
             (rev data) with
  | Some kv => dk_D (fst kv)
  | None => None
  end.
