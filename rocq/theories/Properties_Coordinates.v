(** Properties C01-C06: borehole field constructors, over the reals (C02, C05 over any numbers) *)
From Coq Require Import ZArith QArith List Bool Reals Lia Lra.
From Verif Require Import Base Num BaseLemmas Coordinates Spec CoordinatesProofs.
Import ListNotations.
Open Scope R_scope.

(** C01 *)
Theorem C01_rectangle_is_grid :
  forall Nx Ny Bx By ox oy, (0 <= Nx)%Z -> (0 <= Ny)%Z ->
  exists f, rectangle_o Nx Ny Bx By (ox, oy) = Ok f
    /\ zlen f = (Nx * Ny)%Z
    /\ (forall i j, (0 <= i < Nx)%Z -> (0 <= j < Ny)%Z ->
        nth_error f (Z.to_nat (i * Ny + j)) = Some (ox + IZR i * Bx, oy + IZR j * By))
    /\ (forall p, In p f <-> exists i j, (0 <= i < Nx)%Z /\ (0 <= j < Ny)%Z
                             /\ p = (ox + IZR i * Bx, oy + IZR j * By)).
Proof. exact rectangle_o_spec. Qed.

Theorem C01_rectangle_no_duplicates :
  forall Nx Ny Bx By ox oy f, 0 < Bx -> 0 < By -> rectangle_o Nx Ny Bx By (ox, oy) = Ok f -> NoDup f.
Proof. exact rectangle_o_nodup. Qed.

Theorem C01_rectangle_assertion :
  forall F (N : Num F) Nx Ny (Bx By : F) o e,
  rectangle_o Nx Ny Bx By o = Err e <-> e = AssertionError /\ ((Nx < 0 /\ Ny <> 0) \/ (Ny < 0 /\ Nx <> 0))%Z.
Proof. intros F N. exact rectangle_o_err. Qed.

(** without an origin the grid starts at (0, 0) and no two boreholes are closer than the smaller spacing *)
Theorem C01_rectangle_default_origin :
  forall Nx Ny Bx By, (0 <= Nx)%Z -> (0 <= Ny)%Z ->
  exists f, rectangle Nx Ny Bx By = Ok f
    /\ zlen f = (Nx * Ny)%Z
    /\ (forall p, In p f <-> exists i j, (0 <= i < Nx)%Z /\ (0 <= j < Ny)%Z /\ p = grid Bx By i j)
    /\ (0 < Bx -> 0 < By -> NoDup f /\ separated (Rmin Bx By) f /\ inside (IZR (Nx - 1) * Bx) (IZR (Ny - 1) * By) f).
Proof.
  intros Nx Ny Bx By Hx Hy. destruct (rectangle_spec Nx Ny Bx By Hx Hy) as (f & E & Hl & Hm & Hnd).
  exists f. split; auto. split; auto. split; auto. intros HBx HBy. split; auto. split.
  - apply grid_separated with (Bx := Bx) (By := By); auto.
    + apply Rlt_le, Rmin_glb_lt; auto.
    + apply Rmin_l.
    + apply Rmin_r.
    + intros p Hp. apply Hm in Hp as (i & j & _ & _ & ->). eauto.
  - intros p Hp. apply Hm in Hp as (i & j & Hi & Hj & ->). unfold grid; cbn [fst snd].
    split; (split; [apply IZR_pos_mult; [lia|lra]|apply IZR_mult_le; [lra|lia]]).
Qed.

(** C02 *)
Theorem C02_transpose_swaps :
  forall F (c : list (F * F)) k,
  nth_error (transpose_coordinates c) k = option_map (fun p => (snd p, fst p)) (nth_error c k).
Proof. intros F. exact transpose_nth. Qed.

Theorem C02_transpose_involution :
  forall F (c : list (F * F)), transpose_coordinates (transpose_coordinates c) = c.
Proof. intros F. exact transpose_involutive. Qed.

(** C03 *)
Theorem C03_open_rectangle_is_perimeter :
  forall Nx Ny Bx By, (2 < Nx)%Z -> (2 < Ny)%Z ->
  exists f, open_rectangle Nx Ny Bx By = Ok f
    /\ zlen f = (2 * Nx + 2 * Ny - 4)%Z
    /\ nth_error f 0 = Some (0, 0) /\ nth_error f 1 = Some (Bx, 0)
    /\ (forall p, In p f <-> exists i j, (0 <= i < Nx)%Z /\ (0 <= j < Ny)%Z
              /\ (i = 0 \/ i = Nx - 1 \/ j = 0 \/ j = Ny - 1)%Z /\ p = grid Bx By i j)
    /\ (0 < Bx -> 0 < By -> NoDup f).
Proof. exact open_rectangle_spec. Qed.

Theorem C03_small_is_rectangle :
  forall Nx Ny Bx By, ~ ((2 < Nx)%Z /\ (2 < Ny)%Z) -> open_rectangle Nx Ny Bx By = rectangle Nx Ny Bx By.
Proof. exact open_rectangle_small. Qed.

(** C04 *)
Theorem C04_L_shape :
  forall Nx Ny Bx By, (1 <= Nx)%Z -> (1 <= Ny)%Z ->
  exists f, L_shape Nx Ny Bx By = Ok f
    /\ zlen f = (Nx + Ny - 1)%Z
    /\ (forall p, In p f <-> exists i j, (0 <= i < Nx)%Z /\ (0 <= j < Ny)%Z /\ (i = 0 \/ j = 0)%Z /\ p = grid Bx By i j)
    /\ (0 < Bx -> 0 < By -> NoDup f).
Proof. exact L_shape_spec. Qed.

Theorem C04_lopsided_U :
  forall Nx Ny1 Bx By Ny2, (1 <= Nx)%Z -> (1 <= Ny1)%Z -> (1 <= Ny2)%Z ->
  exists f, lop_U Nx Ny1 Bx By Ny2 = Ok f
    /\ zlen f = (Nx + Ny1 + Ny2 - 2)%Z
    /\ (forall p, In p f <-> exists i j, (0 <= i < Nx)%Z /\ (0 <= j)%Z
          /\ (j = 0 \/ (i = 0 /\ j < Ny1) \/ (i = Nx - 1 /\ j < Ny2))%Z /\ p = grid Bx By i j)
    /\ (0 < Bx -> 0 < By -> (2 <= Nx)%Z -> NoDup f).
Proof. exact lop_U_spec. Qed.

Theorem C04_C_shape :
  forall Nx1 Ny Bx By Nx2, (1 <= Nx1)%Z -> (1 <= Ny)%Z -> (0 <= Nx2)%Z ->
  exists f, C_shape Nx1 Ny Bx By Nx2 = Ok f
    /\ zlen f = (Nx1 + 2 * Ny + Nx2 - 2)%Z
    /\ (forall p, In p f <-> exists i j, p = grid Bx By i j /\
          ((j = 0 /\ 0 <= i < Nx1) \/ ((i = 0 \/ i = Nx1 - 1) /\ 1 <= j < Ny) \/ (j = Ny - 1 /\ 1 <= i <= Nx2))%Z)
    /\ (0 < Bx -> 0 < By -> (2 <= Nx1)%Z -> (2 <= Ny)%Z -> (Nx2 <= Nx1 - 2)%Z -> NoDup f).
Proof. exact C_shape_spec. Qed.

(** the C shape of the documentation, closed up to the corner column, repeats a borehole *)
Theorem C04_C_shape_duplicate_refuted :
  exists Nx1 Ny Nx2 f, (2 <= Nx1)%Z /\ (2 <= Ny)%Z /\ (Nx2 = Nx1 - 1)%Z
    /\ C_shape (F := R) Nx1 Ny 1 1 Nx2 = Ok f /\ ~ NoDup f.
Proof.
  exists 3%Z, 3%Z, 2%Z. destruct (C_shape_spec 3 3 1 1 2) as (f & E & _); try lia. exists f.
  repeat (split; [try lia; auto|]). revert E. unfold C_shape. cbn. intros [= <-] Hnd.
  repeat (match goal with H : NoDup (_ :: _) |- _ => inversion H as [|? ? ?Hn ?Hnd']; clear H; subst end).
  match goal with H : ~ In ?p ?l |- _ => apply H; cbn; rewrite ?zmul_R, ?fz_R; tauto end.
Qed.

(** C05: refuted; U_shape never returns a U *)
Theorem C05_U_shape_always_fails :
  forall F (N : Num F) Nx Ny (Bx By : F), (2 < Nx)%Z -> (1 < Ny)%Z -> U_shape Nx Ny Bx By = Err AssertionError.
Proof. intros F N. exact U_shape_fails. Qed.
Theorem C05_U_shape_refuted :
  exists Nx Ny (Bx By : Q), (1 <= Nx)%Z /\ (1 <= Ny)%Z /\ U_shape Nx Ny Bx By = Err AssertionError.
Proof. exists 4%Z, 3%Z, 5%Q, 5%Q. repeat split; vm_compute; try reflexivity; discriminate. Qed.

Theorem C05_U_shape_degenerate_partial :
  forall Nx Ny (Bx By : R), ~ ((2 < Nx)%Z /\ (1 < Ny)%Z) -> U_shape Nx Ny Bx By = rectangle Nx Ny Bx By.
Proof. exact U_shape_small. Qed.

(** C06 *)
Theorem C06_zoned_rectangle_outcome :
  forall Nx Ny (Bx By : R) Nix Niy e,
  (2 < Nx)%Z -> (2 < Ny)%Z -> (0 <= Nix)%Z -> (0 <= Niy)%Z ->
  (zoned_rectangle Nx Ny Bx By Nix Niy = Err e <-> e = ValueError /\ (Nx - 2 < Nix \/ Ny - 2 < Niy)%Z).
Proof. exact zoned_rectangle_outcome. Qed.

Theorem C06_zoned_rectangle_geometry :
  forall Nx Ny Bx By Nix Niy,
  (2 < Nx)%Z -> (2 < Ny)%Z -> (0 <= Nix <= Nx - 2)%Z -> (0 <= Niy <= Ny - 2)%Z ->
  exists f, zoned_rectangle Nx Ny Bx By Nix Niy = Ok f
    /\ zlen f = (2 * Nx + 2 * Ny - 4 + Nix * Niy)%Z
    /\ nth_error f 0 = Some (0, 0) /\ nth_error f 1 = Some (Bx, 0)
    /\ (forall p, In p f <->
          (exists i j, (0 <= i < Nx)%Z /\ (0 <= j < Ny)%Z
              /\ (i = 0 \/ i = Nx - 1 \/ j = 0 \/ j = Ny - 1)%Z /\ p = grid Bx By i j)
          \/ (exists i j, (1 <= i <= Nix)%Z /\ (1 <= j <= Niy)%Z
              /\ p = grid (IZR (Nx - 1) * Bx / IZR (Nix + 1)) (IZR (Ny - 1) * By / IZR (Niy + 1)) i j))
    /\ (0 < Bx -> 0 < By -> NoDup f /\ inside (IZR (Nx - 1) * Bx) (IZR (Ny - 1) * By) f
                            /\ forall d, 0 <= d -> d <= Bx -> d <= By -> separated d f).
Proof. exact zoned_rectangle_spec. Qed.

(** ** concrete cases (rationals, by computation) *)
Open Scope Q_scope.
Example C01_example : rectangle_o (F := Q) 2 3 5 (9#2) (1, 2) =
  Ok [(1, 2); (1, 13#2); (1, 11); (6, 2); (6, 13#2); (6, 11)].
Proof. reflexivity. Qed.
Example C01_example_assertion : rectangle (F := Q) (-1) 3 5 5 = Err AssertionError.
Proof. reflexivity. Qed.
Example C02_example : transpose_coordinates [(1, 2); (3, 4)] = [(2, 1); (4, 3)].
Proof. reflexivity. Qed.
Example C03_example : open_rectangle (F := Q) 3 4 5 6 =
  Ok [(0, 0); (5, 0); (10, 0); (0, 6); (10, 6); (0, 12); (10, 12); (0, 18); (5, 18); (10, 18)].
Proof. reflexivity. Qed.
Example C04_example_L : L_shape (F := Q) 3 3 5 6 = Ok [(0, 0); (5, 0); (10, 0); (0, 6); (0, 12)].
Proof. reflexivity. Qed.
Example C04_example_lop_U : lop_U (F := Q) 3 3 5 6 2 = Ok [(0, 0); (5, 0); (10, 0); (0, 6); (0, 12); (10, 6)].
Proof. reflexivity. Qed.
Example C04_example_C : C_shape (F := Q) 4 3 5 6 2 =
  Ok [(0, 0); (5, 0); (10, 0); (15, 0); (0, 6); (0, 12); (15, 6); (15, 12); (5, 12); (10, 12)].
Proof. reflexivity. Qed.
Example C06_example : zoned_rectangle (F := Q) 4 4 5 6 1 2 =
  Ok [(0, 0); (5, 0); (10, 0); (15, 0); (0, 6); (15, 6); (0, 12); (15, 12); (0, 18); (5, 18); (10, 18); (15, 18);
      (15#2, 6); (15#2, 12)].
Proof. reflexivity. Qed.
Example C06_example_error : zoned_rectangle (F := Q) 4 4 5 6 3 2 = Err ValueError.
Proof. reflexivity. Qed.

Print Assumptions C01_rectangle_is_grid.
Print Assumptions C01_rectangle_no_duplicates.
Print Assumptions C01_rectangle_assertion.
Print Assumptions C01_rectangle_default_origin.
Print Assumptions C02_transpose_swaps.
Print Assumptions C02_transpose_involution.
Print Assumptions C03_open_rectangle_is_perimeter.
Print Assumptions C03_small_is_rectangle.
Print Assumptions C04_L_shape.
Print Assumptions C04_lopsided_U.
Print Assumptions C04_C_shape.
Print Assumptions C04_C_shape_duplicate_refuted.
Print Assumptions C05_U_shape_always_fails.
Print Assumptions C05_U_shape_refuted.
Print Assumptions C05_U_shape_degenerate_partial.
Print Assumptions C06_zoned_rectangle_outcome.
Print Assumptions C06_zoned_rectangle_geometry.
