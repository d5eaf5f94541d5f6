(** C122: the example scripts *)
From Coq Require Import ZArith QArith Reals Lra Lia Bool String List.
From Verif Require Import Base BaseLemmas Num Order Spec Utilities UtilitiesProofs Domains DomainsProofs Design Report Scripts Properties_Domains Properties_Utilities Properties_Design.
Import ListNotations.
Open Scope R_scope.

(** what is given by name arrives under that name, and nothing else is set; any other name is refused *)
Theorem C122_keywords :
  forall F (l : dict (@argument F)),
  (forall gc, geometric_constraints l = Ok gc <-> Forall (fun p => In (fst p) parameters) l /\
     forall name get, In (name, get) [("length", gc_length); ("width", gc_width); ("B", gc_B); ("B_min", gc_B_min); ("B_max_x", gc_B_max_x); ("B_max_y", gc_B_max_y)]%string ->
     get gc = match dict_get l name with Ok (number_arg x) => Some x | _ => None end) /\
  (geometric_constraints l = Err TypeError <-> exists name v, In (name, v) l /\ ~ In name parameters).
Proof.
  intros F l. unfold geometric_constraints.
  assert (D : forallb (fun p => existsb (String.eqb (fst p)) parameters) l = true <-> Forall (fun p => In (fst p) parameters) l).
  { rewrite forallb_forall, Forall_forall. split; intros H p Hp.
    - specialize (H p Hp). apply existsb_exists in H as (x & Hx & E). apply String.eqb_eq in E. now rewrite E.
    - apply existsb_exists. exists (fst p). split; [now apply H|apply String.eqb_refl]. }
  assert (G : forall k, as_number (lookup k l) = match dict_get l k with Ok (number_arg x) => Some x | _ => None end).
  { intro k. unfold lookup, as_number. destruct (dict_get l k) as [[x|]|]; reflexivity. }
  destruct (forallb _ l) eqn:E.
  - split; [|split; [discriminate|]].
    + intro gc. split.
      * intro X. injection X as <-. split; [now apply (proj1 D)|]. intros name get H. cbn [In] in H. rewrite <- G.
        repeat (destruct H as [H|H]; [apply pair_equal_spec in H as (<- & <-); reflexivity|]). destruct H.
      * intros (_ & H). f_equal. destruct gc as [a1 a2 a3 a4 a5 a6]. rewrite !G.
        rewrite <- (H "length"%string gc_length), <- (H "width"%string gc_width), <- (H "B"%string gc_B), <- (H "B_min"%string gc_B_min),
          <- (H "B_max_x"%string gc_B_max_x), <- (H "B_max_y"%string gc_B_max_y) by (cbn [In]; tauto). reflexivity.
    + intros (name & v & Hi & Hn). pose proof (proj1 D eq_refl) as E'. rewrite Forall_forall in E'. specialize (E' _ Hi). contradiction.
  - split; [|split; [intros _|reflexivity]].
    + intro gc. split; [discriminate|]. intros (H & _). apply D in H. discriminate.
    + rewrite <- not_true_iff_false in E. destruct (existsb (fun p => negb (existsb (String.eqb (fst p)) parameters)) l) eqn:X.
      * apply existsb_exists in X as ((name & v) & Hi & Hn). exists name, v. split; [assumption|]. intro Hp. cbn [fst] in Hn.
        assert (existsb (String.eqb name) parameters = true) by (apply existsb_exists; exists name; split; [assumption|apply String.eqb_refl]).
        rewrite H in Hn. discriminate.
      * exfalso. apply E. apply forallb_forall. intros p Hp. destruct (existsb (String.eqb (fst p)) parameters) eqn:Y; [reflexivity|].
        rewrite <- not_true_iff_false in X. exfalso. apply X. apply existsb_exists. exists p. now rewrite Y.
Qed.

(** the scripts that find a design get their candidates: three times the same ones, with the routines each script names.
    near-square: squares and near-squares of side 1 to the chosen n, exactly *)
Theorem C122_near_square_script_partial :
  forall n (B : R), (1 <= n)%Z -> 0 < B ->
  exists d, find_near_square n B = Ok [one_domain d; one_domain d; one_domain d] /\
  d = flat_map (fun i => [grid_field B B i i; grid_field B B i (i + 1)]) (zrange 1 (n + 1)).
Proof.
  intros n B Hn HB. destruct (C07_square_domain 1 n B ltac:(lia)) as (d & Ed & -> & _). eexists. split; [|reflexivity].
  assert (E : design_init {| gc_length := Some (length_of_side n B); gc_width := None; gc_B := Some B; gc_B_min := None; gc_B_max_x := None; gc_B_max_y := None |} near_square
    = Ok (one_domain (flat_map (fun i => [grid_field B B i i; grid_field B B i (i + 1)]) (zrange 1 (n + 1))))).
  { pose proof (C70_dispatch R _ (length_of_side n B) 0 B 0 0 0) as (H & _). rewrite H, (C21_count_of_length n B false HB). cbn [bind]. now rewrite Ed. }
  unfold find_near_square, design_script. change (geometric_constraints _) with
    (Ok {| gc_length := Some (length_of_side n B); gc_width := @None R; gc_B := Some B; gc_B_min := None; gc_B_max_x := None; gc_B_max_y := None |}).
  cbn [bind mapM]. rewrite E. reflexivity.
Qed.
(** the other scripts, for every land and all spacings; bi-zoned: when zones fit (C14) *)
Theorem C122_land_scripts_partial :
  forall (L W B_min B_max_x B_max_y : R), 0 < L -> 0 < W -> 0 < B_min -> 0 < B_max_x -> 0 < B_max_y ->
  exists d dd,
  rectangular L W B_min B_max_x = Ok d /\ bi_rectangle_nested L W B_min B_max_x B_max_y = Ok dd /\
  find_rectangle L W B_min B_max_x = Ok [one_domain d; one_domain d; one_domain d] /\
  find_bi_rectangle L W B_min B_max_x B_max_y = Ok [nested_domain dd; nested_domain dd; nested_domain dd] /\
  create_bi_rectangle_input_file L W B_min B_max_x B_max_y = Ok [nested_domain dd] /\
  find_bi_zoned_rectangle L W B_min B_max_x B_max_y =
    (let! zz := bi_rectangle_zoned_nested L W B_min B_max_x B_max_y in Ok [nested_domain zz; nested_domain dd; nested_domain dd]).
Proof.
  intros L W mn mx my HL HW Hn Hx Hy. destruct (C10_rectangular_total L W mn mx) as (d & Ed); auto. destruct (bi_rectangle_total L W mn mx my) as (dd & Edd); auto.
  exists d, dd. split; [assumption|]. split; [assumption|].
  pose proof (C70_dispatch R _ L W 0 mn mx my) as (_ & H2 & H3 & H4 & _). cbv zeta in *. specialize (H2 None None). specialize (H3 None). specialize (H4 None).
  rewrite Ed in H2. rewrite Edd in H3. cbn [bind] in H2, H3.
  assert (Eg : geometric_constraints (nested_arguments L W mn mx my) = Ok {| gc_length := Some L; gc_width := Some W; gc_B := None; gc_B_min := Some mn; gc_B_max_x := Some mx; gc_B_max_y := Some my |}) by reflexivity.
  unfold find_rectangle, find_bi_rectangle, create_bi_rectangle_input_file, find_bi_zoned_rectangle, design_script. rewrite Eg.
  change (geometric_constraints _) with (Ok {| gc_length := Some L; gc_width := Some W; gc_B := @None R; gc_B_min := Some mn; gc_B_max_x := Some mx; gc_B_max_y := None |}).
  cbn [bind mapM]. rewrite H2, H3, H4. repeat (split; [reflexivity|]). destruct (bi_rectangle_zoned_nested L W mn mx my); reflexivity.
Qed.

(** three scripts never get there, whatever the numbers (and in every arithmetic): the two that write input files pass a parameter that
    does not exist, the one for OpenStudio's files leaves out the length *)
Theorem C122_input_file_scripts_always_fail :
  forall F (N : Num F) (L W B_min B_max B : F),
  create_near_square_input_file B = Err TypeError /\ create_rectangular_input_file L W B_min B_max = Err TypeError.
Proof. intros. split; reflexivity. Qed.
Theorem C122_ornl_script_always_fails :
  forall F (N : Num F) (file : dict F),
  design_from_ornl_json_input file = Err (if forallb (fun k => existsb (fun p => String.eqb k (fst p)) file) ornl_keys then AssertionError else KeyError).
Proof.
  intros F N file. unfold design_from_ornl_json_input.
  assert (G : forall k, (exists v, dict_get file k = Ok v /\ existsb (fun p => String.eqb k (fst p)) file = true) \/
                        dict_get file k = Err KeyError /\ existsb (fun p => String.eqb k (fst p)) file = false).
  { intro k. induction file as [|(k', v) r IH]; [now right|]. cbn [dict_get existsb fst]. destruct (String.eqb k k'); [left; eauto|exact IH]. }
  assert (M : forall ks, (exists vs, mapM (dict_get file) ks = Ok vs /\ forallb (fun k => existsb (fun p => String.eqb k (fst p)) file) ks = true) \/
                         mapM (dict_get file) ks = Err KeyError /\ forallb (fun k => existsb (fun p => String.eqb k (fst p)) file) ks = false).
  { induction ks as [|k ks IH]; [left; exists []; now split|]. cbn [mapM forallb]. destruct (G k) as [(v & -> & ->)|(-> & ->)]; [|now right]. cbn [bind andb].
    destruct IH as [(vs & -> & ->)|(-> & ->)]; [left; eexists; now split|now right]. }
  destruct (M ornl_keys) as [(vs & -> & E)|(-> & E)]; rewrite E; cbn [bind]; [|reflexivity].
  assert (Hb : existsb (fun p => String.eqb "B_spacing" (fst p)) file = true) by (rewrite forallb_forall in E; apply E; cbn; tauto).
  destruct (G "B_spacing"%string) as [(v & -> & _)|(_ & X)]; [reflexivity|congruence].
Qed.
(** so not every script finds a design: with the file of the repository (ornl_params.json) *)
Definition ornl_params : dict Q :=
  [("design_flow_rate", 312 # 10000); ("bore_hole_radius", 75 # 1000); ("ground_thermal_conductivity", 2 # 1); ("ground_thermal_heat_capacity", 2343493 # 1);
   ("ground_temperature", 183 # 10); ("grout_thermal_conductivity", 1 # 1); ("pipe_thermal_conductivity", 4 # 10); ("pipe_out_diameter", 2667 # 100000);
   ("u-tube_distance", 323 # 10000); ("pipe_thickness", 2535 # 1000000); ("max_height", 135 # 1); ("min_height", 60 # 1); ("B_spacing", 5 # 1)]%string%Q.
Theorem C122_scripts_refuted :
  exists file : dict Q, dict_get file "B_spacing" = Ok (5 # 1)%Q /\ design_from_ornl_json_input file = Err AssertionError.
Proof. exists ornl_params. split; reflexivity. Qed.

(** the script for bi-zoned designs is said to design one for each of the three heat exchangers; the second and third are bi-rectangle designs *)
Theorem C122_bi_zoned_script_refuted :
  exists (L W B_min B_max_x B_max_y : Q) zz dd, find_bi_zoned_rectangle L W B_min B_max_x B_max_y = Ok [nested_domain zz; nested_domain dd; nested_domain dd] /\
  map sizes zz = [[1; 2; 3; 4; 5; 6; 7; 8; 9]; [11; 12]; [13; 14; 15]]%Z /\ map sizes dd = [[1; 2; 3; 6; 9; 12; 15]]%Z.
Proof. exists 12%Q, 8%Q, 3%Q, 6%Q, 4%Q. do 2 eexists. split; [vm_compute; reflexivity|]. split; vm_compute; reflexivity. Qed.

Example C122_example :
  (exists d, find_near_square 3 5%Q = Ok [one_domain d; one_domain d; one_domain d] /\ sizes d = [1; 2; 4; 6; 9; 12]%Z) /\
  (exists d, find_rectangle 20%Q (73 # 8)%Q 3%Q 10%Q = Ok [one_domain d; one_domain d; one_domain d] /\ sizes d = [1; 2; 8; 18]%Z).
Proof. split; (eexists; split; vm_compute; reflexivity). Qed.

Print Assumptions C122_keywords.
Print Assumptions C122_near_square_script_partial.
Print Assumptions C122_land_scripts_partial.
Print Assumptions C122_input_file_scripts_always_fail.
Print Assumptions C122_ornl_script_always_fails.
Print Assumptions C122_scripts_refuted.
Print Assumptions C122_bi_zoned_script_refuted.
