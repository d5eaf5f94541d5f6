(** Model of ghedt/domains.py *)
From Coq Require Import ZArith List Bool.
From Verif Require Import Base Num Coordinates.
Import ListNotations.
Open Scope Z_scope.

(** a list of candidate fields *)
Notation domain F := (list (list (F * F))) (only parsing).

Section Domains.
Context {F : Type} {N : Num F}.



(** apply transpose_coordinates when [tr] *)
Definition maybe_transpose (tr : bool) (c : field F) : field F :=
  if tr then transpose_coordinates c else c.

(** domains.py:9-28 *)
Definition square_and_near_square (lower upper : Z) (B : F) : res (domain F) :=
  let! _ := raise_if ((lower <? 1) || (upper <? 1)) ValueError in
  let! _ := raise_if (upper <? lower) ValueError in
  let! l := mapM (fun i => mapM (fun j => rectangle i (i + j) B B) (zrange 0 2))
                 (zrange lower (upper + 1)) in
  Ok (concat l).

(** n = length / B + 1 as a float (domains.py:44-45, 112-113, 175-176, 267-271) *)
Definition n_float (length B : F) : res F :=
  let! q := pydiv length B in Ok (nadd q (nofZ 1)).

(** body of the loop domains.py:57-86; state (iter, n_2_old, rectangle_domain).
    [N += 1] (line 86) has no effect on a for loop over range. *)
Definition rectangular_body (transpose : bool) (length_1 length_2 : F) (N_min : Z)
    (s : Z * Z * domain F) (n : Z) : res (Z * Z * domain F) :=
  let '(iter, n_2_old, dom) := s in
  let! B := pydiv length_1 (nofZ (n - 1)) in
  let! q := pydiv length_2 B in
  let! n_2 := nfloor (nadd q (nofZ 1)) in
  let! pre :=
    (if iter =? 0 then
       let! a := mapM (fun i => let! r := rectangle i 1 B B in Ok (maybe_transpose transpose r))
                      (zrange 1 N_min) in
       let! b := mapM (fun j => let! r := rectangle N_min j B B in Ok (maybe_transpose transpose r))
                      (zrange 1 n_2) in
       Ok (dom ++ a ++ b, iter + 1)
     else Ok (dom, iter)) in
  let (dom, iter) := pre in
  if n_2_old =? n_2 then Ok (iter, n_2_old, dom)
  else
    let! r := rectangle n n_2 B B in
    Ok (iter, n_2, dom ++ [maybe_transpose transpose r]).

(** domains.py:31-88 *)
Definition rectangular (length_x length_y B_min B_max : F) : res (domain F) :=
  let '(length_1, length_2, transpose) :=
    (if nle length_y length_x then (length_x, length_y, false) else (length_y, length_x, true)) in
  let! n_1_max := n_float length_1 B_min in
  let! n_1_min := n_float length_1 B_max in
  let! N_min := nceil n_1_min in
  let! N_max := nfloor n_1_max in
  let! s := foldM (rectangular_body transpose length_1 length_2 N_min)
                  (zrange N_min (N_max + 1)) (0, 1, []) in
  Ok (snd s).

(** body of the loop domains.py:121-153; state (iter, bi_rectangle_domain) *)
Definition bi_rectangular_body (transpose : bool) (length_1 length_2 B_max_2 : F)
    (s : Z * domain F) (n_1 : Z) : res (Z * domain F) :=
  let '(iter, dom) := s in
  let! q := n_float length_2 B_max_2 in
  let! n_2 := nceil q in
  let! b_2 := pydiv length_2 (nofZ (n_2 - 1)) in
  let! b_1 := pydiv length_1 (nofZ (n_1 - 1)) in
  let! pre :=
    (if iter =? 0 then
       let! a := mapM (fun i => let! r := rectangle i 1 b_1 b_2 in Ok (maybe_transpose transpose r))
                      (zrange 1 n_1) in
       let! b := mapM (fun j => let! r := rectangle n_1 j b_1 b_2 in Ok (maybe_transpose transpose r))
                      (zrange 1 n_2) in
       Ok (dom ++ a ++ b, iter + 1)
     else Ok (dom, iter)) in
  let (dom, iter) := pre in
  let! r := rectangle n_1 n_2 b_1 b_2 in
  Ok (iter, dom ++ [maybe_transpose transpose r]).

(** domains.py:91-155 ([func], lines 106-108, is unused) *)
Definition bi_rectangular (length_x length_y B_min B_max_x B_max_y : F) (transpose : bool) : res (domain F) :=
  let '(length_1, length_2, B_max_1, B_max_2) :=
    (if nle length_y length_x then (length_x, length_y, B_max_x, B_max_y)
     else (length_y, length_x, B_max_y, B_max_x)) in
  let! n_1_max := n_float length_1 B_min in
  let! n_1_min := n_float length_1 B_max_1 in
  let! N_min := nceil n_1_min in
  let! N_max := nfloor n_1_max in
  let! s := foldM (bi_rectangular_body transpose length_1 length_2 B_max_2)
                  (zrange N_min (N_max + 1)) (0, []) in
  Ok (snd s).

(** domains.py:158-190 *)
Definition bi_rectangle_nested (length_x length_y B_min B_max_x B_max_y : F) : res (list (domain F)) :=
  let '(length_1, length_2, B_max_1, B_max_2, transpose) :=
    (if nle length_y length_x then (length_x, length_y, B_max_x, B_max_y, false)
     else (length_y, length_x, B_max_y, B_max_x, true)) in
  let! n_2_max := n_float length_2 B_min in
  let! n_2_min := n_float length_2 B_max_2 in
  let! N_min := nceil n_2_min in
  let! N_max := nfloor n_2_max in
  mapM (fun n_2 =>
          let! b_2 := pydiv length_2 (nofZ (n_2 - 1)) in
          bi_rectangular length_1 length_2 B_min B_max_1 b_2 transpose)
       (zrange N_min (N_max + 1)).

(** the while loop domains.py:217-246, with fuel *)
Fixpoint zoned_loop (fuel : nat) (transpose : bool) (n_1 n_2 : Z) (b_1 b_2 : F) (n_i1 n_i2 : Z) : res (domain F) :=
  if (n_i1 <? n_1 - 2) || (n_i2 <? n_2 - 2) then
    match fuel with
    | O => Err OutOfFuel
    | S fuel' =>
        let! ratio := pydiv b_1 b_2 in
        let! bi_1 := pydiv (zmul (n_1 - 1) b_1) (nofZ (n_i1 + 1)) in
        let! bi_2 := pydiv (zmul (n_2 - 1) b_2) (nofZ (n_i2 + 1)) in
        let! bi_1_p1 := pydiv (zmul (n_1 - 1) b_1) (nofZ (n_i1 + 2)) in
        let! bi_2_p1 := pydiv (zmul (n_2 - 1) b_2) (nofZ (n_i2 + 2)) in
        let! ratio_1 := pydiv bi_1 bi_2_p1 in
        let! ratio_2 := pydiv bi_2 bi_1_p1 in
        let! ij := (if nlt ratio ratio_1 then Ok (n_i1 + 1, n_i2)
                    else if nle ratio_1 ratio then Ok (n_i1, n_i2 + 1)
                    else Err ValueError) in
        let '(n_i1, n_i2) := ij in
        let! z := zoned_rectangle n_1 n_2 b_1 b_2 n_i1 n_i2 in
        let! rest := zoned_loop fuel' transpose n_1 n_2 b_1 b_2 n_i1 n_i2 in
        Ok (maybe_transpose transpose z :: rest)
    end
  else Ok [].

(** domains.py:193-248.  The first field (lines 214-215) is appended without being transposed.
    Fuel: n_1 + n_2 steps always suffice because every step raises n_i1 or n_i2 by one and
    zoned_rectangle raises ValueError beyond n_1 - 2, n_2 - 2. *)
Definition zoned_rectangle_domain (length_x length_y : F) (n_x n_y : Z) (transpose : bool) : res (domain F) :=
  let '(length_1, length_2, n_1, n_2) :=
    (if nle length_y length_x then (length_x, length_y, n_x, n_y) else (length_y, length_x, n_y, n_x)) in
  let! b_1 := pydiv length_1 (nofZ (n_1 - 1)) in
  let! b_2 := pydiv length_2 (nofZ (n_2 - 1)) in
  let! z := zoned_rectangle n_1 n_2 b_1 b_2 1 1 in
  let! rest := zoned_loop (Z.to_nat (n_1 + n_2)) transpose n_1 n_2 b_1 b_2 1 1 in
  Ok (z :: rest).

(** domains.py:290-323, the shapes of the first domain; uses length_x, length_y (not length_1, length_2) *)
Definition bi_zoned_prefix (transpose : bool) (length_x length_y : F) (N_min_1 N_min_2 : Z) : res (domain F) :=
  let! b_x := pydiv length_x (nofZ (N_min_1 - 1)) in
  let! b_y := pydiv length_y (nofZ (N_min_2 - 1)) in
  let! lines := mapM (fun l => let! r := rectangle l 1 b_x b_y in Ok (maybe_transpose transpose r))
                     (zrange 1 (N_min_1 + 1)) in
  let! els := mapM (fun l => let! r := L_shape N_min_1 l b_x b_y in Ok (maybe_transpose transpose r))
                   (zrange 2 (N_min_2 + 1)) in
  let! us := mapM (fun l => let! r := lop_U N_min_1 N_min_2 b_x b_y l in Ok (maybe_transpose transpose r))
                  (zrange 2 (N_min_2 + 1)) in
  let! cs := mapM (fun l => let! r := C_shape N_min_1 N_min_2 b_x b_y l in Ok (maybe_transpose transpose r))
                  (zrange 1 (N_min_1 - 1)) in
  Ok (lines ++ els ++ us ++ cs).

(** value of [l] after lines 295-323 when it was 0 before *)
Definition bi_zoned_l (N_min_1 N_min_2 : Z) : Z :=
  after_range (after_range (after_range (after_range 0 1 (N_min_1 + 1)) 2 (N_min_2 + 1)) 2 (N_min_2 + 1))
              1 (N_min_1 - 1) + 1.

(** body of the loop domains.py:288-344; state (j, k, l, nested domain) *)
Definition bi_zoned_body (transpose : bool) (length_x length_y length_1 length_2 : F)
    (N_min_1 N_min_2 : Z) (n_1_values n_2_values : list Z)
    (s : Z * Z * Z * list (domain F)) (i : Z) : res (Z * Z * Z * list (domain F)) :=
  let '(j, k, l, nested) := s in
  let! pre := (if l =? 0
               then let! d := bi_zoned_prefix transpose length_x length_y N_min_1 N_min_2 in
                    Ok (d, bi_zoned_l N_min_1 N_min_2)
               else Ok ([], l)) in
  let (dom, l) := pre in
  let! n_1 := py_nth n_1_values j in
  let! n_2 := py_nth n_2_values k in
  let! z := zoned_rectangle_domain length_1 length_2 n_1 n_2 transpose in
  let '(j, k) :=
    (if i mod 2 =? 0
     then (if j <? zlen n_1_values - 1 then (j + 1, k) else (j, k + 1))
     else (if k <? zlen n_2_values - 1 then (j, k + 1) else (j + 1, k))) in
  Ok (j, k, l, nested ++ [dom ++ z]).

(** domains.py:251-346 *)
Definition bi_rectangle_zoned_nested (length_x length_y B_min B_max_x B_max_y : F) : res (list (domain F)) :=
  let '(length_1, length_2, B_max_1, B_max_2, transpose) :=
    (if nle length_y length_x then (length_x, length_y, B_max_x, B_max_y, false)
     else (length_y, length_x, B_max_y, B_max_x, true)) in
  let! n_1_max := n_float length_1 B_min in
  let! n_1_min := n_float length_1 B_max_1 in
  let! n_2_max := n_float length_2 B_min in
  let! n_2_min := n_float length_2 B_max_2 in
  let! N_min_1 := nceil n_1_min in
  let! N_max_1 := nfloor n_1_max in
  let! N_min_2 := nceil n_2_min in
  let! N_max_2 := nfloor n_2_max in
  let n_1_values := zrange N_min_1 (N_max_1 + 1) in
  let n_2_values := zrange N_min_2 (N_max_2 + 1) in
  let! s := foldM (bi_zoned_body transpose length_x length_y length_1 length_2 N_min_1 N_min_2
                                 n_1_values n_2_values)
                  (zrange 0 (zlen n_1_values + zlen n_2_values - 1)) (0, 0, 0, []) in
  Ok (snd s).

(** domains.py:393-403 *)
Fixpoint verify_excess (dom : list F) : list F * bool :=
  match dom with
  | a :: ((b :: _) as r) =>
      let d := nsub b a in
      let (ds, u) := verify_excess r in
      (d :: ds, negb (nlt (nofZ 0) d) && u)
  | _ => ([], true)
  end.

End Domains.

(** insertion into a sorted list; sorted(...) of integers has only one result, so the algorithm is immaterial *)
Fixpoint insert_nat (x : nat) (l : list nat) : list nat :=
  match l with
  | [] => [x]
  | y :: r => if Nat.leb x y then x :: l else y :: insert_nat x r
  end.
Definition sort_nat (l : list nat) : list nat := fold_right insert_nat [] l.

(** domains.py:406-422: for every size in sorted order, the first field of that size *)
Definition reorder_domain {A} (dom : list (list A)) : list (list A) :=
  flat_map (fun n => match find (fun f => Nat.eqb (length f) n) dom with
                     | Some f => [f]
                     | None => []
                     end)
           (sort_nat (map (@length A) dom)).
