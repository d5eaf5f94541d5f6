(** Property C131: candidates and designs do not depend on the unit in which lengths are given *)
From Coq Require Import ZArith QArith Qreduction List Bool Reals Lra Lia.
From Verif Require Import Base Num BaseLemmas Order Utilities Coordinates Domains Features Search Design Spec Properties_Domains Properties_Design Properties_Delivered InvarianceProofs ScaleSpec ScaleProofs.
Import ListNotations.
Open Scope R_scope.

(** ** fields and candidates *)
(** [k] new units are one old unit; spacings in the new unit give the coordinates in the new unit, or the same error *)
Theorem C131_fields :
  forall k, 0 < k -> forall n1 n2 a b (x y : R),
  rectangle n1 n2 (k * x) (k * y) = field_scaled k (rectangle n1 n2 x y) /\
  open_rectangle n1 n2 (k * x) (k * y) = field_scaled k (open_rectangle n1 n2 x y) /\
  L_shape n1 n2 (k * x) (k * y) = field_scaled k (L_shape n1 n2 x y) /\
  lop_U n1 n2 (k * x) (k * y) a = field_scaled k (lop_U n1 n2 x y a) /\
  C_shape n1 n2 (k * x) (k * y) a = field_scaled k (C_shape n1 n2 x y a) /\
  zoned_rectangle n1 n2 (k * x) (k * y) a b = field_scaled k (zoned_rectangle n1 n2 x y a b).
Proof.
  intros. repeat apply conj; [apply rectangle_scaled|apply open_rectangle_scaled|apply L_shape_scaled|apply lop_U_scaled|apply C_shape_scaled|apply zoned_rectangle_scaled]; assumption.
Qed.
Theorem C131_candidates :
  forall k, 0 < k -> forall length width B_min B_max_x B_max_y : R,
  (forall lower upper, square_and_near_square lower upper (k * B_min) = domain_scaled k (square_and_near_square lower upper B_min)) /\
  rectangular (k * length) (k * width) (k * B_min) (k * B_max_x) = domain_scaled k (rectangular length width B_min B_max_x) /\
  bi_rectangle_nested (k * length) (k * width) (k * B_min) (k * B_max_x) (k * B_max_y) = nested_scaled k (bi_rectangle_nested length width B_min B_max_x B_max_y) /\
  bi_rectangle_zoned_nested (k * length) (k * width) (k * B_min) (k * B_max_x) (k * B_max_y) = nested_scaled k (bi_rectangle_zoned_nested length width B_min B_max_x B_max_y).
Proof.
  intros k Hk l w bmin bx by_. repeat apply conj; [intros; now apply square_scaled|now apply rectangular_scaled|now apply bi_rectangle_scaled|now apply bi_zoned_scaled].
Qed.
(** polygonal land, for a point-in-polygon test that answers the same for a polygon and a point in the new unit *)
Theorem C131_polygonal_candidates :
  forall k, 0 < k -> forall (pip pip' : @oracle R),
  (forall boundary p, pip' (scaled k boundary) (k * fst p, k * snd p) = pip boundary p) ->
  forall property building (B_min B_max_x B_max_y : R),
  polygonal_land_constraint pip' (scaled k property) (k * B_min) (k * B_max_x) (k * B_max_y) (scaled k building) =
  nested_scaled k (polygonal_land_constraint pip property B_min B_max_x B_max_y building).
Proof. intros k Hk pip pip' S p g bmin bx by_. now apply polygonal_scaled. Qed.
(** counts stay, lengths are multiplied by [k], areas by its square *)
Theorem C131_helpers :
  forall k, 0 < k -> forall (length B r_b : R) n up c,
  number_of_boreholes (k * length) (k * B) up = number_of_boreholes length B up /\
  length_of_side n (k * B) = k * length_of_side n B /\
  spacing_along_length (k * length) n = match spacing_along_length length n with Ok b => Ok (k * b) | Err e => Err e end /\
  borehole_spacing (k * r_b) (scaled k c) = match borehole_spacing r_b c with Ok b => Ok (k * b) | Err e => Err e end /\
  polygonal_area (scaled k c) = match polygonal_area c with Ok a => Ok (k * k * a) | Err e => Err e end.
Proof.
  intros k Hk l b rb n up c. split; [unfold number_of_boreholes; now rewrite pydiv_both|]. split; [unfold length_of_side; cbn; ring|].
  split; [apply pydiv_one|]. split; [now apply spacing_scaled|now apply area_scaled].
Qed.

(** ** designs *)
(** heat exchangers that do not depend on the unit: the same excess temperature for the same field and height, sized to the same height *)
Definition same_physics (k : R) (build build' : list (R * R) -> R -> res unit) (sim sim' : list (R * R) -> R -> res (xval R)) (sized sized' : list (R * R) -> res R) : Prop :=
  (forall c H, build' (scaled k c) (k * H) = build c H) /\ (forall c H, sim' (scaled k c) (k * H) = sim c H) /\
  (forall c, sized' (scaled k c) = match sized c with Ok H => Ok (k * H) | Err e => Err e end).
(** near-square, rectangle and bi-rectangle designs: the same search, the same selection *)
Theorem C131_design :
  forall k build build' sim sim' sized sized' minH maxH gc r H, 0 < k -> same_physics k build build' sim sim' sized sized' -> r <> bi_zoned ->
  design build' sim' sized' (k * minH) (k * maxH) (constraints_scaled k gc) r (k * H) =
  match design build sim sized minH maxH gc r H with Ok (selected, s) => Ok (selection_scaled k selected, search_scaled k s) | Err e => Err e end.
Proof.
  intros k build build' sim sim' sized sized' minH maxH gc r H Hk (S1 & S2 & S3) Nr.
  (* what heights are sized to does not matter: nothing is sized *)
  assert (E : forall b s z z' (m M : R) (c : @constraints R) h, r <> bi_zoned -> design b s z m M c r h = design b s z' m M c r h).
  { intros b s z z' m M c h N. unfold design. destruct (design_init c r) as [cs|]; [|reflexivity]. cbn [bind]. destruct r, cs; reflexivity || congruence. }
  rewrite (E build' sim' sized' (fun _ => Err ValueError)), (E build sim sized (fun _ => Err ValueError)) by assumption.
  rewrite (design_scaled k Hk build sim (fun _ => Err ValueError) build' sim' (fun _ => Err ValueError)); try assumption; try reflexivity; [|now intros ->].
  now destruct (design build sim _ minH maxH gc r H) as [(o, s)|].
Qed.
(** bi-zoned designs compare the first drilling with the number 99999: they do not depend on the unit when no drilling is above it in one of
    the units only *)
Theorem C131_bi_zoned_design_partial :
  forall k build build' sim sim' sized sized' minH maxH gc H, 0 < k -> same_physics k build build' sim sim' sized sized' ->
  (forall candidates d c h, design_init gc bi_zoned = Ok (nested_domain candidates) -> In d candidates -> In c d -> sized c = Ok h ->
     (IZR (zlen c) * h <= 99999 <-> k * (IZR (zlen c) * h) <= 99999)) ->
  design build' sim' sized' (k * minH) (k * maxH) (constraints_scaled k gc) bi_zoned (k * H) =
  match design build sim sized minH maxH gc bi_zoned H with Ok (selected, s) => Ok (selection_scaled k selected, search_scaled k s) | Err e => Err e end.
Proof.
  intros k build build' sim sim' sized sized' minH maxH gc H Hk (S1 & S2 & S3) L.
  rewrite (design_scaled k Hk build sim sized build' sim' sized'); try assumption.
  - now destruct (design build sim _ minH maxH gc _ H) as [(o, s)|].
  - intros _ dd Ei d c h Hd Hc E. specialize (L dd d c h Ei Hd Hc E). cbn. destruct (Rlt_dec _ _), (Rlt_dec _ _); try reflexivity; exfalso; intuition lra.
Qed.

(** in millimetres a bi-zoned design stops at the first domain: 12 m by 12 m, boreholes 2 m to 3 m apart, sized to 60 m; in metres
    23 boreholes, in millimetres 25 *)
Definition fewer_than (n : Q) (unit : Q) (f : list (Q * Q)) (H : Q) : res (xval Q) := Ok (Fin (Qred (n - inject_Z (zlen f) * (H / unit) / 100))).
Theorem C131_bi_zoned_design_refuted :
  exists (k : Q) sim sim' gc i c s i' c' s', (0 < k)%Q /\
  (forall c H, sim' (scaled k c) (nmul k H) = sim c H) /\
  design always sim (fun _ => Ok 60%Q) 20%Q 100%Q gc bi_zoned 50%Q = Ok (Some (i, c), s) /\
  design always sim' (fun _ => Ok (nmul k 60)%Q) (nmul k 20)%Q (nmul k 100)%Q (constraints_scaled k gc) bi_zoned (nmul k 50)%Q = Ok (Some (i', c'), s') /\
  length c = 23%nat /\ length c' = 25%nat.
Proof.
  exists 1000%Q, (fewer_than (45 # 2) 1), (fewer_than (45 # 2) 1000), (constraints_of 12 12 2 2 3 3).
  destruct (picked (fun _ c => Nat.eqb (length c) 23) (design always (fewer_than (45 # 2) 1) (fun _ => Ok 60%Q) 20%Q 100%Q (constraints_of 12 12 2 2 3 3) bi_zoned 50%Q))
    as (i & c & s & E & X); [vm_compute; reflexivity|].
  destruct (picked (fun _ c => Nat.eqb (length c) 25) (design always (fewer_than (45 # 2) 1000) (fun _ => Ok (nmul 1000 60)%Q) (nmul 1000 20)%Q (nmul 1000 100)%Q
    (constraints_scaled 1000%Q (constraints_of 12 12 2 2 3 3)) bi_zoned (nmul 1000 50)%Q)) as (i' & c' & s' & E' & X'); [vm_compute; reflexivity|].
  exists i, c, s, i', c', s'. apply Nat.eqb_eq in X, X'. split; [reflexivity|]. split; [|auto].
  intros c0 H. unfold fewer_than. do 2 f_equal. apply Qred_complete. unfold scaled, zlen. rewrite map_length.
  change (nmul 1000 H)%Q with (Qred (1000 * H)). rewrite Qred_correct. field.
Qed.

(** with doubles the unit matters to every design: 9 m with boreholes 3 m apart, and the same in units of 10 m *)
Theorem C131_doubles_refuted :
  exists (k length B : b64) d d', design_init (F := b64) {| gc_length := Some length; gc_width := None; gc_B := Some B; gc_B_min := None; gc_B_max_x := None; gc_B_max_y := None |} near_square = Ok (one_domain d) /\
  design_init (constraints_scaled k {| gc_length := Some length; gc_width := None; gc_B := Some B; gc_B_min := None; gc_B_max_x := None; gc_B_max_y := None |}) near_square = Ok (one_domain d') /\
  List.length d = 8%nat /\ List.length d' = 6%nat.
Proof.
  exists (b64_lit 1 10), (b64_ofZ 9), (b64_ofZ 3). eexists. eexists. split; [vm_compute; reflexivity|]. split; [vm_compute; reflexivity|]. split; vm_compute; reflexivity.
Qed.

(** ** examples *)
(** feet instead of metres, for heat exchangers of which the number of boreholes and the height count *)
Definition foot : R := 10000 / 3048.
Definition by_drilling (unit : R) (c : list (R * R)) (H : R) : res (xval R) := Ok (Fin (500 - IZR (zlen c) * (H / unit))).
Lemma feet : 0 < foot /\ same_physics foot (fun _ _ => Ok tt) (fun _ _ => Ok tt) (by_drilling 1) (by_drilling foot) (fun c => Ok 60) (fun c => Ok (foot * 60)).
Proof.
  assert (0 < foot) by (unfold foot; lra). split; [assumption|]. split; [reflexivity|]. split; [|reflexivity].
  intros c H1. unfold by_drilling, scaled, zlen. rewrite map_length. do 2 f_equal. field. lra.
Qed.
(** the bi-zoned condition for a yard of 12 m by 12 m: it has candidates, of 1 to 9 boreholes, none of them near 99999 m or feet *)
Example C131_feet_example : exists candidates, design_init yard bi_zoned = Ok (nested_domain candidates) /\ map sizes candidates = [[1; 2; 3; 4; 5; 6; 7; 8; 9]%Z] /\
  forall candidates d c h, design_init yard bi_zoned = Ok (nested_domain candidates) -> In d candidates -> In c d -> Ok 60 = Ok h ->
     (IZR (zlen c) * h <= 99999 <-> foot * (IZR (zlen c) * h) <= 99999).
Proof.
  destruct yard_candidates as (d & E & S).
  assert (Ey : design_init yard bi_zoned = Ok (nested_domain [d])) by (unfold design_init, check_inputs, yard; cbn [gc_length gc_width gc_B_min gc_B_max_x gc_B_max_y not_none assert_ bind number]; now rewrite E).
  exists [d]. split; [exact Ey|]. split; [cbn [map]; now rewrite S|].
  intros cs d0 c h E0 Hd Hc Eh. assert (h = 60) by congruence. subst h. assert (cs = [d]) by congruence. subst cs. destruct Hd as [<-|[]].
  assert (L : In (zlen c) (sizes d)) by (apply in_map_iff; exists c; auto). rewrite S in L.
  assert (B : (1 <= zlen c <= 9)%Z) by (cbn in L; intuition lia). destruct B as [B1 B2]. apply IZR_le in B1, B2. unfold foot. split; intros _; lra.
Qed.
(** a near-square design 60 m long, in feet: the same search *)
Example C131_design_example :
  design (fun _ _ => Ok tt) (by_drilling foot) (fun _ => Ok (foot * 60)) (foot * 20) (foot * 100)
    (constraints_scaled foot {| gc_length := Some 60; gc_width := None; gc_B := Some 5; gc_B_min := None; gc_B_max_x := None; gc_B_max_y := None |}) near_square (foot * 50) =
  match design (fun _ _ => Ok tt) (by_drilling 1) (fun _ => Ok 60) 20 100
    {| gc_length := Some 60; gc_width := None; gc_B := Some 5; gc_B_min := None; gc_B_max_x := None; gc_B_max_y := None |} near_square 50 with
  | Ok (selected, s) => Ok (selection_scaled foot selected, search_scaled foot s) | Err e => Err e end.
Proof. destruct feet as [F P]. apply (C131_design foot _ _ _ _ _ _ 20 100 _ near_square 50 F P). discriminate. Qed.

Print Assumptions C131_fields.
Print Assumptions C131_candidates.
Print Assumptions C131_polygonal_candidates.
Print Assumptions C131_helpers.
Print Assumptions C131_design.
Print Assumptions C131_bi_zoned_design_partial.
Print Assumptions C131_bi_zoned_design_refuted.
Print Assumptions C131_doubles_refuted.
