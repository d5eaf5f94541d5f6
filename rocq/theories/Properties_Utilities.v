(** Properties C21-C24: helpers of utilities.py *)
From Coq Require Import ZArith QArith List Bool Reals Lia Lra.
From Verif Require Import Base Num Order BaseLemmas Utilities DomainsProofs UtilitiesProofs.
Import ListNotations.
Open Scope R_scope.

(** C21 *)
Theorem C21_count_of_length :
  forall n (b : R) up, 0 < b -> number_of_boreholes (length_of_side n b) b up = Ok n.
Proof. exact number_of_length. Qed.
Theorem C21_spacing_of_length :
  forall n (b : R), (n <> 1)%Z -> spacing_along_length (length_of_side n b) n = Ok b.
Proof. exact spacing_of_length. Qed.
(** rounding up: the spacing does not exceed b, and with fewer boreholes it would *)
Theorem C21_round_up :
  forall l b n, 0 < l -> 0 < b -> number_of_boreholes l b true = Ok n ->
  (2 <= n)%Z /\ l / IZR (n - 1) <= b /\ (forall m, (2 <= m < n)%Z -> b < l / IZR (m - 1)).
Proof. exact number_up. Qed.
(** rounding down: the row fits, and one borehole more would not *)
Theorem C21_round_down :
  forall l b n, 0 <= l -> 0 < b -> number_of_boreholes l b false = Ok n ->
  (1 <= n)%Z /\ IZR (n - 1) * b <= l < IZR n * b.
Proof. exact number_down. Qed.
Theorem C21_total :
  forall (l b : R) up, b <> 0 -> exists n, number_of_boreholes l b up = Ok n.
Proof. intros l b up Hb. unfold number_of_boreholes. rewrite pydiv_R by auto. destruct up; eexists; reflexivity. Qed.
Theorem C21_zero_division :
  (forall (l : R) up, number_of_boreholes l 0 up = Err ZeroDivisionError)
  /\ (forall l : R, spacing_along_length l 1 = Err ZeroDivisionError).
Proof. split; [exact number_zero_spacing|exact spacing_of_one]. Qed.
Example C21_example : number_of_boreholes 21%Q 5%Q true = Ok 6%Z /\ number_of_boreholes 21%Q 5%Q false = Ok 5%Z
  /\ length_of_side 6 5%Q = 25%Q /\ spacing_along_length 25%Q 6 = Ok 5%Q.
Proof. repeat split; reflexivity. Qed.
(** in binary64 the count of a 3.3 m row at 1.1 m spacing, rounded down, is 3, not 4 *)
Example C21_binary64 : number_of_boreholes (b64_lit 33 10) (b64_lit 11 10) false = Ok 3%Z.
Proof. vm_compute. reflexivity. Qed.

(** C22.  Twice the signed area of a polygon: the sum of the cross products over its edges. *)
Theorem C22_area_is_shoelace :
  forall l, polygonal_area l = Ok (Rabs (edge_sum (fun p q => fst p * snd q - fst q * snd p) l) / 2).
Proof. exact polygonal_area_sum. Qed.
Theorem C22_area_nonneg : forall l a, polygonal_area l = Ok a -> 0 <= a.
Proof. intros l a. rewrite polygonal_area_sum. intros [= <-]. pose proof (Rabs_pos (edge_sum cross l)). lra. Qed.
Theorem C22_area_translation :
  forall ox oy l, polygonal_area (map (fun p => (fst p + ox, snd p + oy)) l) = polygonal_area l.
Proof. intros. now rewrite !polygonal_area_sum, edge_sum_translate. Qed.
Theorem C22_area_reversal : forall l, polygonal_area (rev l) = polygonal_area (l : list (R * R)).
Proof. intros. rewrite !polygonal_area_sum, edge_sum_rev, edge_sum_neg, Rabs_Ropp. reflexivity. Qed.
Theorem C22_area_rotation : forall a l, polygonal_area (l ++ [a]) = polygonal_area (a :: l : list (R * R)).
Proof. intros. now rewrite !polygonal_area_sum, edge_sum_rotate. Qed.
Theorem C22_area_rectangle :
  forall lx ly ox oy, polygonal_area (make_rectangle_perimeter lx ly (ox, oy)) = Ok (Rabs (lx * ly)).
Proof. exact polygonal_area_rectangle. Qed.
Example C22_example : polygonal_area [(0, 0); (4, 0); (0, 3)]%Q = Ok 6%Q
  /\ polygonal_area [(0, 3); (4, 0); (0, 0)]%Q = Ok 6%Q /\ polygonal_area [(1, 1); (5, 1); (1, 4)]%Q = Ok 6%Q.
Proof. repeat split; reflexivity. Qed.

(** C23 *)
Theorem C23_borehole_spacing :
  (forall r, borehole_spacing r [] = Err IndexError)
  /\ (forall r p, borehole_spacing r [p] = Ok r)
  /\ (forall r p q l, borehole_spacing r (p :: q :: l) =
        Ok (Rmax r (sqrt ((fst q - fst p) ^ 2 + (snd q - snd p) ^ 2)))).
Proof. split; [|split]; [exact borehole_spacing_nil|exact borehole_spacing_one|exact borehole_spacing_many]. Qed.
Example C23_example : borehole_spacing (1 / 10) [(1, 1); (4, 5); (9, 9)] = Ok 5.
Proof.
  rewrite (proj2 (proj2 C23_borehole_spacing)). cbn [fst snd]. f_equal.
  replace ((4 - 1) ^ 2 + (5 - 1) ^ 2) with (Rsqr 5) by (unfold Rsqr; lra).
  rewrite sqrt_Rsqr by lra. apply Rmax_right. lra.
Qed.

(** C24 *)
Theorem C24_sign :
  forall F (N : Num F) (OF : Ordered F) (x : xval F) z,
  sign x = Ok z <-> exists q, x = Fin q /\ ((0 < val q /\ z = 1%Z) \/ (val q < 0 /\ z = (-1)%Z)).
Proof. intros F N OF. exact sign_spec. Qed.
Theorem C24_sign_zero : forall F (N : Num F) (OF : Ordered F) (q : F), val q = 0 -> sign (Fin q) = Err ZeroDivisionError.
Proof. intros F N OF. exact sign_zero. Qed.
Theorem C24_check_bracket :
  forall a b, (check_bracket a b = true <-> (a < 0 < b)%Z \/ (b < 0 < a)%Z) /\ check_bracket a b = check_bracket b a.
Proof.
  intros a b. split; [apply check_bracket_spec|]. destruct (check_bracket a b) eqn:E1, (check_bracket b a) eqn:E2; auto.
  - apply check_bracket_spec in E1. assert (check_bracket b a = true) by (apply check_bracket_spec; tauto). congruence.
  - apply check_bracket_spec in E2. assert (check_bracket a b = true) by (apply check_bracket_spec; tauto). congruence.
Qed.
(** the bracket test on two computed signs decides whether the two numbers have opposite signs *)
Theorem C24_bracket_of_signs :
  forall F (N : Num F) (OF : Ordered F) (x y : F) sx sy, sign (Fin x) = Ok sx -> sign (Fin y) = Ok sy ->
  (check_bracket sx sy = true <-> val x * val y < 0).
Proof.
  intros F N OF x y sx sy Hx Hy. apply sign_spec in Hx as (x' & [= <-] & Hx). apply sign_spec in Hy as (y' & [= <-] & Hy).
  rewrite check_bracket_spec.
  destruct Hx as [[Hx ->]|[Hx ->]], Hy as [[Hy ->]|[Hy ->]]; (split; [intros H|intros H]); try lia; try nra.
Qed.
Theorem C24_mpe :
  (forall actual predicted : list R, zlen actual = zlen predicted -> actual <> [] -> (forall a, In a actual -> a <> 0) ->
     compute_mpe actual predicted =
     Ok (fold_right Rplus 0 (map (fun ap => (snd ap - fst ap) / fst ap) (combine actual predicted)) * 100 / IZR (zlen actual)))
  /\ (forall l : list R, l <> [] -> (forall a, In a l -> a <> 0) -> compute_mpe l l = Ok 0)
  /\ (forall actual predicted : list R, zlen actual <> zlen predicted -> compute_mpe actual predicted = Err AssertionError)
  /\ (forall actual predicted : list R, zlen actual = zlen predicted -> (actual = [] \/ In 0 actual) ->
        compute_mpe actual predicted = Err ZeroDivisionError).
Proof.
  split; [|split; [exact compute_mpe_zero|split; [exact compute_mpe_lengths|exact compute_mpe_errors]]].
  intros a p H1 H2 H3. rewrite compute_mpe_sum by auto. do 3 f_equal. clear H1 H2 H3.
  revert p. induction a as [|x a IH]; intros [|y p]; cbn; auto. now rewrite IH.
Qed.
Example C24_example : sign (Fin (-3 # 2)%Q) = Ok (-1)%Z /\ sign (Fin (1 # 7)%Q) = Ok 1%Z
  /\ compute_mpe [2; 4]%Q [3; 4]%Q = Ok 25%Q.
Proof. repeat split; reflexivity. Qed.

Print Assumptions C21_count_of_length.
Print Assumptions C21_spacing_of_length.
Print Assumptions C21_round_up.
Print Assumptions C21_round_down.
Print Assumptions C21_total.
Print Assumptions C21_zero_division.
Print Assumptions C22_area_is_shoelace.
Print Assumptions C22_area_nonneg.
Print Assumptions C22_area_translation.
Print Assumptions C22_area_reversal.
Print Assumptions C22_area_rotation.
Print Assumptions C22_area_rectangle.
Print Assumptions C23_borehole_spacing.
Print Assumptions C24_sign.
Print Assumptions C24_sign_zero.
Print Assumptions C24_check_bracket.
Print Assumptions C24_bracket_of_signs.
Print Assumptions C24_mpe.
