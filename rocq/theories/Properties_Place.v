(** Properties C127 and C128: neither the order nor the place nor the orientation of the boreholes matters, only the response that
    pygfunction computes for them; a land turned by a quarter gets the design turned by a quarter *)
From Coq Require Import ZArith QArith List Bool Reals Lra Lia Permutation.
From Verif Require Import RadialProofs ProgramProofs BaseLemmas Spec SystemSpec GFunSpec RadialSpec RadialGrid SearchSpec Order Properties_Domains Properties_Search Properties_Design Properties_System Properties_Program.
From Verif Require Import Base Num Utilities Coordinates Domains Ghe GFun Bhe Equiv Radial Export Search Design System Program PlaceSpec TurnSpec InvarianceProofs PlaceProofs TurnProofs.
Import ListNotations.
Open Scope R_scope.

(** ** C127 *)
(** fields of as many boreholes for which pygfunction answers the same are the same to the search: they can be built alike, have the same
    excess temperature and are sized to the same height *)
Theorem C127_same_evaluation :
  forall h_circular h_annulus r_conduction eff_u eff_c brentq solver interp field_response brentq_dialogue st m flow V_flow log_time c c' H,
  0 < st_rb st -> same_response field_response c c' ->
  can_build h_circular h_annulus r_conduction eff_u eff_c brentq solver field_response st flow V_flow log_time c' H =
  can_build h_circular h_annulus r_conduction eff_u eff_c brentq solver field_response st flow V_flow log_time c H /\
  excess_of h_circular h_annulus r_conduction eff_u eff_c brentq solver interp field_response st m flow V_flow log_time c' H =
  excess_of h_circular h_annulus r_conduction eff_u eff_c brentq solver interp field_response st m flow V_flow log_time c H /\
  sized_height h_circular h_annulus r_conduction eff_u eff_c brentq solver interp field_response brentq_dialogue st flow V_flow log_time c' =
  sized_height h_circular h_annulus r_conduction eff_u eff_c brentq solver interp field_response brentq_dialogue st flow V_flow log_time c.
Proof. intros. split; [now apply can_build_moved|]. split; [now apply excess_moved|now apply sized_height_moved]. Qed.

(** the sized heat exchangers differ in the coordinates and in the distance of the first two boreholes only *)
Theorem C127_same_exchanger :
  forall h_circular h_annulus r_conduction eff_u eff_c brentq solver interp field_response brentq_dialogue st m flow V_flow log_time c c' H,
  0 < st_rb st -> same_response field_response c c' ->
  let deliver c := let! s := ready h_circular h_annulus r_conduction eff_u eff_c brentq solver field_response st flow V_flow log_time c H in
                   size_up h_circular h_annulus r_conduction eff_u eff_c brentq solver interp field_response brentq_dialogue st m s in
  match deliver c with
  | Err e => deliver c' = Err e
  | Ok s => exists B', borehole_spacing (st_rb st) c' = Ok B' /\ deliver c' = Ok (moved B' c' s) /\
            forall k k', oak_ridge_export interp st (Some (k', c')) (moved B' c' s) = oak_ridge_export interp st (Some (k, c)) s
  end.
Proof.
  intros h_circular h_annulus r_conduction eff_u eff_c brentq solver interp field_response brentq_dialogue st m flow V_flow log_time c c' H Hrb Sm deliver.
  unfold deliver.
  rewrite (ready_size_moved h_circular h_annulus r_conduction eff_u eff_c brentq solver interp field_response brentq_dialogue st flow V_flow log_time c c' Sm Hrb m H).
  destruct (ready_moved h_circular h_annulus r_conduction eff_u eff_c brentq solver field_response st flow V_flow log_time c c' Sm Hrb H)
    as [[-> ->]|(B & B' & EB & EB' & N & N' & E & K)].
  - assert (X : ready h_circular h_annulus r_conduction eff_u eff_c brentq solver field_response st flow V_flow log_time [] H = Err IndexError \/
                exists e, ready h_circular h_annulus r_conduction eff_u eff_c brentq solver field_response st flow V_flow log_time [] H = Err e).
    { unfold ready, System.initialize_ghe. destruct (retrieve_flow _ _ _ _) as [fl|e]; [now left|right; now exists e]. }
    destruct X as [X|(e & X)]; rewrite X; reflexivity.
  - rewrite EB'. destruct (ready h_circular h_annulus r_conduction eff_u eff_c brentq solver field_response st flow V_flow log_time c H) as [s|e]; [|reflexivity].
    cbn [bind]. destruct (size_up_moved h_circular h_annulus r_conduction eff_u eff_c brentq solver interp field_response brentq_dialogue st c c' B B' Sm N N' m s (K s eq_refl)) as [_ K2].
    destruct (size_up _ _ _ _ _ _ _ _ _ _ _ _ _) as [s2|e]; [|reflexivity]. cbn [rmap]. exists B'. split; [reflexivity|]. split; [reflexivity|].
    intros k k'. apply (export_moved interp field_response st c c' B B' Sm N N' (k', c') (k, c) s2 (K2 s2 eq_refl)). symmetry. exact (proj1 Sm).
Qed.

(** ** C128 *)
(** the candidates of a turned land are the turned candidates, in the same order; of any numbers, doubles among them *)
Theorem C128_rectangle_candidates :
  forall F (N : Num F) (length_x length_y B_min B_max : F), nle length_x length_y <> nle length_y length_x ->
  rectangular length_y length_x B_min B_max = turned_domain (rectangular length_x length_y B_min B_max).
Proof. intros. now apply rectangular_turned. Qed.
Theorem C128_bi_rectangle_candidates :
  forall F (N : Num F) (length_x length_y B_min B_max_x B_max_y : F), nle length_x length_y <> nle length_y length_x ->
  bi_rectangle_nested length_y length_x B_min B_max_y B_max_x = turned_nested (bi_rectangle_nested length_x length_y B_min B_max_x B_max_y).
Proof. intros. now apply bi_rectangle_turned. Qed.

(** when pygfunction answers the same for a turned field: the same candidates are tried at the same heights with the same excess, the
    candidate of the same index is selected and, sized, it has the same height, temperatures and g-function *)
Theorem C128_rectangle :
  forall h_circular h_annulus r_conduction eff_u eff_c brentq solver interp field_response brentq_dialogue st m flow V_flow log_time gc L W H sizing_method,
  (forall mf c H D rb, field_response mf (quarter_turn c) H D rb = field_response mf c H D rb) -> 0 < st_rb st ->
  gc_length gc = Some L -> gc_width gc = Some W -> L <> W ->
  let program := program h_circular h_annulus r_conduction eff_u eff_c brentq solver interp field_response brentq_dialogue st m flow V_flow log_time in
  let whole := whole h_circular h_annulus r_conduction eff_u eff_c brentq solver interp field_response brentq_dialogue st m flow V_flow log_time in
  program (sides_exchanged gc) rectangle_routine H =
  match program gc rectangle_routine H with Ok (selected, s) => Ok (selection_turned selected, search_turned s) | Err e => Err e end /\
  whole (sides_exchanged gc) rectangle_routine H sizing_method =
  match whole gc rectangle_routine H sizing_method with Ok (selected, s) => Ok (selection_turned selected, ghe_turned s) | Err e => Err e end.
Proof.
  intros h_circular h_annulus r_conduction eff_u eff_c brentq solver interp field_response brentq_dialogue st m flow V_flow log_time gc L W H sm T Hrb EL EW D program0 whole0.
  unfold program0, whole0. assert (E := program_rectangle_turned h_circular h_annulus r_conduction eff_u eff_c brentq solver interp field_response brentq_dialogue st flow V_flow log_time T Hrb m gc L W H EL EW D).
  split; [rewrite E; destruct (program _ _ _ _ _ _ _ _ _ _ _ _ _ _ _ gc _ _) as [(k, s)|]; reflexivity|].
  rewrite (whole_turned h_circular h_annulus r_conduction eff_u eff_c brentq solver interp field_response brentq_dialogue st flow V_flow log_time T Hrb m gc _ rectangle_routine H sm ltac:(discriminate) E).
  destruct (whole _ _ _ _ _ _ _ _ _ _ _ _ _ _ _ _ _ _ _) as [(k, s)|]; reflexivity.
Qed.
Theorem C128_bi_rectangle :
  forall h_circular h_annulus r_conduction eff_u eff_c brentq solver interp field_response brentq_dialogue st m flow V_flow log_time gc L W H sizing_method,
  (forall mf c H D rb, field_response mf (quarter_turn c) H D rb = field_response mf c H D rb) -> 0 < st_rb st ->
  gc_length gc = Some L -> gc_width gc = Some W -> L <> W ->
  let program := program h_circular h_annulus r_conduction eff_u eff_c brentq solver interp field_response brentq_dialogue st m flow V_flow log_time in
  let whole := whole h_circular h_annulus r_conduction eff_u eff_c brentq solver interp field_response brentq_dialogue st m flow V_flow log_time in
  program (land_turned gc) bi_rectangle H =
  match program gc bi_rectangle H with Ok (selected, s) => Ok (selection_turned selected, search_turned s) | Err e => Err e end /\
  whole (land_turned gc) bi_rectangle H sizing_method =
  match whole gc bi_rectangle H sizing_method with Ok (selected, s) => Ok (selection_turned selected, ghe_turned s) | Err e => Err e end.
Proof.
  intros h_circular h_annulus r_conduction eff_u eff_c brentq solver interp field_response brentq_dialogue st m flow V_flow log_time gc L W H sm T Hrb EL EW D program0 whole0.
  unfold program0, whole0. assert (E := program_bi_rectangle_turned h_circular h_annulus r_conduction eff_u eff_c brentq solver interp field_response brentq_dialogue st flow V_flow log_time T Hrb m gc L W H EL EW D).
  split; [rewrite E; destruct (program _ _ _ _ _ _ _ _ _ _ _ _ _ _ _ gc _ _) as [(k, s)|]; reflexivity|].
  rewrite (whole_turned h_circular h_annulus r_conduction eff_u eff_c brentq solver interp field_response brentq_dialogue st flow V_flow log_time T Hrb m gc _ bi_rectangle H sm ltac:(discriminate) E).
  destruct (whole _ _ _ _ _ _ _ _ _ _ _ _ _ _ _ _ _ _ _) as [(k, s)|]; reflexivity.
Qed.

(** a bi-zoned design does not turn with the land: 8 m by 4 m and 4 m by 8 m with a spacing of 2 m, and heat exchangers of which only the
    number of boreholes counts; the second design is not the first one turned, in whatever order *)
Theorem C128_bi_zoned_refuted :
  exists (gc : @constraints Q) sim k c s k' c' s',
  (forall c H, sim (quarter_turn c) H = sim c H) /\
  design always sim to_60 20%Q 100%Q gc bi_zoned 50%Q = Ok (Some (k, c), s) /\
  design always sim to_60 20%Q 100%Q (land_turned gc) bi_zoned 50%Q = Ok (Some (k', c'), s') /\
  length c = length c' /\ ~ Permutation c' (quarter_turn c).
Proof.
  exists (constraints_of 8 4 2 2 2 2), (by_count (25 # 2)).
  destruct (picked (fun _ c => Nat.eqb (length c) 13 && forallb (fun p => Qle_bool (snd p) 4) c)
    (design always (by_count (25 # 2)) to_60 20%Q 100%Q (constraints_of 8 4 2 2 2 2) bi_zoned 50%Q)) as (k & c & s & E & X); [vm_compute; reflexivity|].
  destruct (picked (fun _ c => Nat.eqb (length c) 13 && existsb (fun p => negb (Qle_bool (fst p) 4)) c)
    (design always (by_count (25 # 2)) to_60 20%Q 100%Q (constraints_of 4 8 2 2 2 2) bi_zoned 50%Q)) as (k' & c' & s' & E' & X'); [vm_compute; reflexivity|].
  exists k, c, s, k', c', s'. apply andb_prop in X as [X1 X2]. apply andb_prop in X' as [X1' X2']. apply Nat.eqb_eq in X1, X1'.
  split. { intros c0 H. unfold by_count, quarter_turn. now rewrite ?map_length, ?zlen_map. }
  split; [exact E|]. split; [exact E'|]. split; [congruence|]. intro P. apply existsb_exists in X2' as (p & Hp & Y).
  apply (Permutation_in _ P) in Hp. unfold quarter_turn in Hp. apply in_map_iff in Hp as (q & <- & Hq). cbn [fst] in Y.
  rewrite forallb_forall in X2. rewrite (X2 q Hq) in Y. discriminate.
Qed.

(** nor does a bi-rectangle design on square land when the greatest spacings along its sides differ: 12 m by 12 m, 3 m at least, 6 m at most
    along one side and 4 m along the other *)
Theorem C128_square_land_refuted :
  exists (gc : @constraints Q) sim k c s k' c' s',
  (forall c H, sim (quarter_turn c) H = sim c H) /\
  design always sim to_60 20%Q 100%Q gc bi_rectangle 50%Q = Ok (Some (k, c), s) /\
  design always sim to_60 20%Q 100%Q (land_turned gc) bi_rectangle 50%Q = Ok (Some (k', c'), s') /\
  length c = 9%nat /\ length c' = 12%nat.
Proof.
  exists (constraints_of 12 12 3 3 6 4), (by_count (17 # 2)).
  destruct (picked (fun _ c => Nat.eqb (length c) 9)
    (design always (by_count (17 # 2)) to_60 20%Q 100%Q (constraints_of 12 12 3 3 6 4) bi_rectangle 50%Q)) as (k & c & s & E & X); [vm_compute; reflexivity|].
  destruct (picked (fun _ c => Nat.eqb (length c) 12)
    (design always (by_count (17 # 2)) to_60 20%Q 100%Q (land_turned (constraints_of 12 12 3 3 6 4)) bi_rectangle 50%Q)) as (k' & c' & s' & E' & X'); [vm_compute; reflexivity|].
  exists k, c, s, k', c', s'. apply Nat.eqb_eq in X, X'. split; [|auto].
  intros c0 H. unfold by_count, quarter_turn. now rewrite ?map_length, ?zlen_map.
Qed.

(** ** examples *)
(** the plant of C95: its pygfunction knows neither order nor place *)
Example C127_example : forall hi lo, 0 < st_rb (plant hi lo high_height low_height) /\
  same_response plant_response [(0, 0); (0, 5); (5, 0)] [(40, 7); (12, 1); (12, 12)].
Proof. intros. split; [cbn; lra|]. split; [reflexivity|]. reflexivity. Qed.
(** a lawn of 7 m by 6 m, turned: the same number of boreholes at the turned places *)
Definition lawn : @constraints R :=
  {| gc_length := Some 7; gc_width := Some 6; gc_B := None; gc_B_min := Some 5; gc_B_max_x := Some 7; gc_B_max_y := Some 6 |}.
Lemma lawn_candidates : exists f2 f4, bi_rectangle_nested 7 6 5 7 6 = Ok [[[(0, 0)]; f2; f4]] /\ length f2 = 2%nat /\ length f4 = 4%nat.
Proof.
  assert (C := C11_bi_rectangle_contents 7 6 7 6 false 5 7 6 ltac:(left; repeat split; lra) ltac:(lra) ltac:(lra) ltac:(lra) ltac:(lra)). cbn zeta in C. cbn iota in C.
  rewrite (Rceil_unique (7 / 7 + 1) 2), (Rfloor_unique (7 / 5 + 1) 2), (Rceil_unique (6 / 6 + 1) 2), (Rfloor_unique (6 / 5 + 1) 2) in C by lra.
  change (zrange 2 (2 + 1)) with [2%Z] in C. cbn [map] in C. change (2 <? 2)%Z with false in C. change (zrange 1 2) with [1%Z] in C. cbn [map app turned] in C.
  rewrite C. match goal with |- exists f2 f4, Ok [[?a; ?b; ?c]] = _ /\ _ => exists b, c end. split; [|split; reflexivity].
  assert (G : forall b b', grid_field b b' 1 1 = [(0, 0)]) by (intros b b'; change (grid_field b b' 1 1) with [Spec.grid b b' 0 0]; unfold Spec.grid; do 2 f_equal; ring). now rewrite G.
Qed.

Example C128_example : exists V hi lo k c s', let st := plant hi lo high_height low_height in
  (forall mf c H D rb, plant_response mf (quarter_turn c) H D rb = plant_response mf c H D rb) /\ 0 < st_rb st /\
  plant_program st V lawn bi_rectangle high_height = Ok (Some (k, c), s') /\ (2 <= length c)%nat /\ inside 7 6 c /\
  plant_program st V (land_turned lawn) bi_rectangle high_height = Ok (Some (k, quarter_turn c), search_turned s').
Proof.
  destruct plant_limits as (V & hi & lo & L). exists V, hi, lo. unfold plant_fits in L. cbn zeta in L. set (st := plant hi lo high_height low_height) in *.
  destruct lawn_candidates as (f2 & f4 & Ed & L2 & L4). set (d := [[(0, 0)]; f2; f4]) in *.
  assert (Hd : forall f, In f d -> (length f = 1 \/ length f = 2 \/ length f = 4)%nat) by (intros f [<- |[<- |[<- |[]]]]; [left; reflexivity|auto|auto]).
  assert (Ex : forall h c, h = low_height \/ h = high_height -> (length c = 1 \/ length c = 2 \/ length c = 4)%nat ->
    exists s x, plant_ready st V c h = Ok s /\ plant_excess st V c h = Ok (Fin x) /\ (length c = 1%nat -> 0 < x) /\ ((2 <= length c)%nat -> x < 0)).
  { intros h c Hh Hc. destruct (L h c Hh Hc) as (s & s' & mx & mn & T & D & E1 & E2 & E3 & P & N & _). exists s, (cost hi lo mx mn).
    split; [exact E1|]. split; [|auto]. unfold excess_of, System.calculate_excess. unfold ready in E1. rewrite E1. cbn [bind]. rewrite E2. reflexivity. }
  set (sh := sized_height plant_film plant_annulus plant_wall plant_Rb plant_Rc plant_root thomas plant_lookup plant_response (bisection (1 / 1000)) st flow_borehole V eskilson).
  set (cb := can_build plant_film plant_annulus plant_wall plant_Rb plant_Rc plant_root thomas plant_response st flow_borehole V eskilson).
  assert (CB : forall f h, In f d -> h = low_height \/ h = high_height -> cb f h = Ok tt).
  { intros f h Hf Hh. destruct (Ex h f Hh (Hd f Hf)) as (s & x & E1 & _). unfold cb, can_build. rewrite E1. reflexivity. }
  destruct (Ex low_height [(0, 0)] (or_introl eq_refl) (or_introl eq_refl)) as (sl & xl & _ & El & Pl & _).
  destruct (Ex high_height [(0, 0)] (or_intror eq_refl) (or_introl eq_refl)) as (sh1 & xh & _ & Eh & Ph & _).
  destruct (Ex high_height f4 (or_intror eq_refl) (or_intror (or_intror L4))) as (s4 & x4 & _ & E4 & _ & N4).
  set (s0 := {| dom := d; temps := []; Search.ghe := ([(0, 0)], high_height); trace := []; temps_nested := []; heights := [] |} : sstate (list (R * R)) (F := R)).
  destruct (C31_nested_search_succeeds (list (R * R)) cb (plant_excess st V) low_height high_height [d] 15 s0 [(0, 0)] f4 d eq_refl) as (s' & k & inner & k2 & c & q & E & _ & Ei & Ec & Eq & Nq & _).
  { repeat constructor. }
  { reflexivity. }
  { reflexivity. }
  { intros d' [<- |[]] f h Hf Hh. assert (Hh' : h = low_height \/ h = high_height) by tauto. split; [exists tt; now apply CB|].
    destruct (Ex h f Hh' (Hd f Hf)) as (s & x & _ & E2 & P & N). exists (Fin x). split; [exact E2|].
    destruct (Hd f Hf) as [A|A]; [left|right]; exists x; (split; [reflexivity|]); rewrite val_R; [now apply P|apply N; lia]. }
  { exists (Fin xl). split; [exact El|]. exists xl. split; [reflexivity|]. rewrite val_R. now apply Pl. }
  { exists (Fin xh). split; [exact Eh|]. exists xh. split; [reflexivity|]. rewrite val_R. now apply Ph. }
  { exists (Fin x4). split; [exact E4|]. exists x4. split; [reflexivity|]. rewrite val_R. apply N4. lia. }
  assert (Ep : plant_program st V lawn bi_rectangle high_height = Ok (Some (k2, c), s')).
  { unfold program. fold cb. fold sh. unfold design, design_init. cbn [check_inputs lawn gc_length gc_width gc_B_min gc_B_max_x gc_B_max_y not_none assert_ bind number]. rewrite Ed.
    cbn [bind find_design]. unfold bisection_2d. change (py_nth [d] 0) with (Ok d). cbn [bind]. unfold base_init. change (py_nth d 0) with (Ok [(0, 0)] : res (list (R * R))). cbn [bind].
    rewrite (CB [(0, 0)] high_height) by (auto; left; reflexivity). cbn [bind]. fold s0. change (st_min_H st) with low_height. change (st_max_H st) with high_height. rewrite E. reflexivity. }
  assert (Hc : In c d). { apply nth_error_In in Ei, Ec. destruct Ei as [<- |[]]. exact Ec. }
  assert (T : forall mf c H D rb, plant_response mf (quarter_turn c) H D rb = plant_response mf c H D rb) by reflexivity.
  assert (Hrb : 0 < st_rb st) by (cbn; lra).
  exists k2, c, s'. cbn zeta. split; [exact T|]. split; [exact Hrb|]. split; [exact Ep|]. split.
  - destruct (Ex high_height c (or_intror eq_refl) (Hd c Hc)) as (sc & xc & _ & Exc & Pc & _). assert (q = xc). { assert (Fin q = Fin xc) by (apply Ok_inj; rewrite <- Eq; exact Exc). congruence. }
    subst q. rewrite val_R in Nq. destruct (Hd c Hc) as [X|X]; [specialize (Pc X); lra|lia].
  - split; [exact (proj1 (C11_bi_rectangle_land_and_spacing 7 6 5 7 6 [d] d c ltac:(lra) ltac:(lra) ltac:(lra) ltac:(lra) ltac:(lra) Ed (or_introl eq_refl) Hc))|].
    destruct (C128_bi_rectangle plant_film plant_annulus plant_wall plant_Rb plant_Rc plant_root thomas plant_lookup plant_response (bisection (1 / 1000)) st m_hourly flow_borehole V eskilson
      lawn 7 6 high_height m_hourly T Hrb eq_refl eq_refl ltac:(lra)) as [G _]. rewrite G, Ep. reflexivity.
Qed.

Print Assumptions C127_same_evaluation.
Print Assumptions C127_same_exchanger.
Print Assumptions C128_rectangle_candidates.
Print Assumptions C128_bi_rectangle_candidates.
Print Assumptions C128_rectangle.
Print Assumptions C128_bi_rectangle.
Print Assumptions C128_bi_zoned_refuted.
Print Assumptions C128_square_land_refuted.
