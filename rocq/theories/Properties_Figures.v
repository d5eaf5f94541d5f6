(** Property C138: what the figures show *)
From Coq Require Import ZArith QArith List Bool Reals Lra Lia String Ascii DecimalString.
From Verif Require Import Base Num BaseLemmas Order Loads LoadsSpec LoadsProofs LoadsSim LoadsHybrid Properties_Loads Ghe GheSpec GheProofs GFun GFunProofs Printing Properties_Printing Figures.
Import ListNotations.
Open Scope R_scope.

(** ** reading a figure: the points of a mark, its label, and the marks with a label *)
Section Reading.
Context {F : Type}.
Definition drawn (m : @mark F) : list (F * F) := match m with line x y _ _ => combine x y | points x y _ _ => combine x y | note _ _ _ => [] end.
Definition style_of (m : @mark F) : string := match m with line _ _ s _ => s | points _ _ s _ => s | note _ _ _ => "" end.
Definition label_of (m : @mark F) : label := match m with line _ _ _ l => l | points _ _ _ l => l | note _ _ _ => unlabelled end.
Definition is_line (m : @mark F) : bool := match m with line _ _ _ _ => true | _ => false end.
Definition is_points (m : @mark F) : bool := match m with points _ _ _ _ => true | _ => false end.
Lemma combine_unzipped (c : list (F * F)) : combine (map fst c) (map snd c) = c.
Proof. induction c as [|(a, b) c IH]; cbn; congruence. Qed.
End Reading.

(** ** boreholes *)
(** every borehole is a point, in order; an empty field is an error *)
Theorem C138_field :
  forall (c : list (R * R)) (gf : @gfunction R),
  (c <> [] -> exists m, visualize_coordinates c = Ok [m] /\ is_points m = true /\ drawn m = c) /\ visualize_coordinates ([] : list (R * R)) = Err ValueError /\
  visualize_borefield gf (Some c) = visualize_coordinates c /\ visualize_borefield gf None = visualize_coordinates (gf_locations gf).
Proof.
  intros c gf. repeat split. intro Hc. destruct c as [|p c]; [congruence|]. eexists. split; [reflexivity|]. split; [reflexivity|]. exact (combine_unzipped (p :: c)).
Qed.
Example C138_field_example : exists m, visualize_coordinates [(0, 0); (5, 0); (0, 7)] = Ok [m] /\ drawn m = [(0, 0); (5, 0); (0, 7)].
Proof. destruct (C138_field [(0, 0); (5, 0); (0, 7)] {| gf_B := 5; gf_curves := []; gf_log_time := []; gf_locations := []; gf_table := t_empty |}) as (A & _). destruct A as (m & A & _ & B); [discriminate|eauto]. Qed.

(** the property and the zone without boreholes are closed lines in green and red, the boreholes points *)
Lemma outline_ok (p : R * R) l s : exists m, outline (p :: l) s = Ok m /\ is_line m = true /\ style_of m = s /\ drawn m = ((p :: l) ++ [p])%list.
Proof.
  unfold outline. cbn [py_nth Z.ltb Z.compare Z.to_nat nth_error bind app unzip]. unfold py_nth. cbn [Z.ltb Z.compare Z.to_nat nth_error bind].
  unfold draw_line, zlen. cbn [unzip app bind fst snd]. rewrite !map_length, Z.eqb_refl. eexists. split; [reflexivity|]. split; [reflexivity|]. split; [reflexivity|].
  exact (combine_unzipped (p :: l ++ [p])).
Qed.
Theorem C138_area :
  forall (perimeter coordinates : list (R * R)) (no_go : option (list (R * R))), no_go <> Some [] ->
  exists fig, visualize_area_and_constraints perimeter coordinates no_go = Ok fig /\
  map (fun m => (is_line m, style_of m, drawn m)) fig =
   (match perimeter with [] => [] | p :: _ => [(true, "g", perimeter ++ [p])] end ++
    match coordinates with [] => [] | _ => [(false, "", coordinates)] end ++
    match no_go with Some (z :: l) => [(true, "r", (z :: l) ++ [z])] | _ => [] end)%list%string.
Proof.
  intros P C Z HZ. unfold visualize_area_and_constraints.
  assert (A : exists p, (if (0 <? zlen P)%Z then let! m := outline P "g" in Ok [m] else Ok []) = Ok p /\
    map (fun m => (is_line m, style_of m, drawn m)) p = match P with [] => [] | p :: _ => [(true, "g"%string, (P ++ [p])%list)] end).
  { destruct P as [|p P]; [exists []; auto|]. destruct (outline_ok p P "g") as (m & E & E1 & E2 & E3). cbn [zlen List.length]. rewrite E. exists [m]. cbn [map].
    rewrite E1, E2, E3. split; [|reflexivity]. unfold zlen. cbn [List.length]. destruct (0 <? Z.of_nat (S (List.length P)))%Z eqn:X; [reflexivity|apply Z.ltb_ge in X; lia]. }
  assert (B : exists p : @figure R, (if (0 <? zlen C)%Z then let! xy := unzip C in Ok [points (fst xy) (snd xy) "" unlabelled] else Ok []) = Ok p /\
    map (fun m => (is_line m, style_of m, drawn m)) p = match C with [] => [] | _ => [(false, ""%string, C)] end).
  { destruct C as [|p C]; [exists []; auto|]. exists [points (map fst (p :: C)) (map snd (p :: C)) "" unlabelled]. split.
    - unfold zlen. cbn [List.length]. destruct (0 <? Z.of_nat (S (List.length C)))%Z eqn:X; [reflexivity|apply Z.ltb_ge in X; lia].
    - cbn [map is_line style_of drawn]. now rewrite (combine_unzipped (p :: C) : combine (fst p :: map fst C) (snd p :: map snd C) = p :: C). }
  assert (D : exists p, match Z with Some z => let! m := outline z "r" in Ok [m] | None => Ok [] end = Ok p /\
    map (fun m => (is_line m, style_of m, drawn m)) p = match Z with Some (z :: l) => [(true, "r"%string, ((z :: l) ++ [z])%list)] | _ => [] end).
  { destruct Z as [[|z l]|]; [congruence| |exists []; auto]. destruct (outline_ok z l "r") as (m & E & E1 & E2 & E3). rewrite E. exists [m]. cbn [map bind]. rewrite E1, E2, E3. auto. }
  destruct A as (p & -> & A), B as (q & -> & B), D as (r & -> & D). cbn [bind]. eexists. split; [reflexivity|]. now rewrite !map_app, A, B, D.
Qed.
Theorem C138_area_empty_zone : forall perimeter coordinates : list (R * R), perimeter <> [] -> coordinates <> [] -> visualize_area_and_constraints perimeter coordinates (Some []) = Err IndexError.
Proof.
  intros P C HP HC. destruct P as [|p P]; [congruence|]. destruct C as [|c C]; [congruence|]. destruct (outline_ok p P "g") as (m & E & _). unfold visualize_area_and_constraints.
  assert (X : forall (A : Type) (a : A) l, (0 <? zlen (a :: l))%Z = true) by (intros; apply Z.ltb_lt; unfold zlen; cbn [List.length]; lia). rewrite !X, E. reflexivity.
Qed.
Example C138_area_example : exists fig, visualize_area_and_constraints [(0, 0); (9, 0); (9, 9)] [(1, 1)] None = Ok fig /\ map drawn fig = [[(0, 0); (9, 0); (9, 9); (0, 0)]; [(1, 1)]].
Proof.
  destruct (C138_area [(0, 0); (9, 0); (9, 9)] [(1, 1)] None ltac:(discriminate)) as (fig & E & M). exists fig. split; [exact E|].
  replace (map drawn fig) with (map (fun x => snd x) (map (fun m => (is_line m, style_of m, drawn m)) fig)) by (rewrite map_map; reflexivity). rewrite M. reflexivity.
Qed.

(** ** one file per candidate field *)
Lemma zeros_read k s (d : Decimal.uint) : s <> ""%string -> NilEmpty.uint_of_string s = Some d -> exists d', NilEmpty.uint_of_string (append (chars "0" k) s) = Some d' /\
  append (chars "0" k) s <> ""%string /\ Z.of_uint d' = Z.of_uint d.
Proof.
  intros Hs E. induction k as [|k (d' & E' & N' & Z')]; [exists d; auto|]. exists (Decimal.D0 d'). cbn [chars append]. split.
  - change (NilEmpty.uint_of_string (String "0" (append (chars "0" k) s))) with (uint_of_char "0" (NilEmpty.uint_of_string (append (chars "0" k) s))). rewrite E'. reflexivity.
  - split; [discriminate|]. rewrite <- Z'. reflexivity.
Qed.
Definition reads (s : string) : option Z := option_map Z.of_uint (NilZero.uint_of_string s).
Lemma str_nat_reads z : (0 <= z)%Z -> exists d, str_int z <> ""%string /\ NilEmpty.uint_of_string (str_int z) = Some d /\ Z.of_uint d = z.
Proof.
  intro Hz. unfold str_int. assert (E := DecimalZ.of_to z). destruct (Z.to_int z) as [d|d] eqn:Ed.
  - cbn [NilZero.string_of_int]. cbn [Z.of_int] in E. assert (Nd : d <> Decimal.Nil). { intros ->. clear E Hz. destruct z as [|q|q]; [discriminate| |discriminate]. assert (Ed' : Pos.to_uint q = Decimal.Nil) by (change (Z.to_int (Z.pos q)) with (Decimal.Pos (Pos.to_uint q)) in Ed; congruence). exact (DecimalPos.Unsigned.to_uint_nonnil q Ed'). }
    assert (U := NilZero.usu d Nd). exists d. unfold NilZero.uint_of_string in U.
    destruct (NilZero.string_of_uint d) eqn:Es; [discriminate|]. split; [discriminate|]. split; [exact U|exact E].
  - exfalso. destruct z; cbn in Ed; try discriminate. lia.
Qed.
Lemma chars_length c n : String.length (chars c n) = n.
Proof. induction n; cbn; congruence. Qed.
Lemma append_length s t : String.length (append s t) = (String.length s + String.length t)%nat.
Proof. induction s; cbn; congruence. Qed.
Lemma zfill_reads z : (0 <= z)%Z -> reads (zfill (str_int z) 3) = Some z /\ (3 <= String.length (zfill (str_int z) 3))%nat.
Proof.
  intro Hz. destruct (str_nat_reads z Hz) as (d & Ns & E & Ed). split.
  - unfold zfill. destruct (zeros_read (3 - String.length (str_int z)) (str_int z) d Ns E) as (d' & E' & N' & Z'). unfold reads, NilZero.uint_of_string.
    destruct (append (chars "0" (3 - String.length (str_int z))) (str_int z)); [congruence|]. rewrite E'. cbn [option_map]. congruence.
  - unfold zfill. rewrite append_length, chars_length. lia.
Qed.
Lemma append_inj f s t : append f s = append f t -> s = t.
Proof. induction f as [|c f IH]; cbn; [auto|]. intro E. injection E as E. auto. Qed.
Lemma visualize_from_ok folder d : (forall c, In c d -> c <> []) -> forall i, (0 <= i)%Z -> exists files, visualize_from folder i d = (files, Ok tt) /\ List.length files = List.length d /\
  forall j (c : list (R * R)), nth_error d j = Some c -> exists m, nth_error files j = Some (append folder (append "/" (zfill (str_int (i + Z.of_nat j)) 3)), [m]) /\ is_points m = true /\ drawn m = c.
Proof.
  induction d as [|c d IH]; intros Hd i Hi; [exists []; repeat split; intros [|j] c; discriminate|]. cbn [visualize_from].
  destruct c as [|p c]; [exfalso; exact (Hd [] (or_introl eq_refl) eq_refl)|]. cbn [unzip].
  destruct (IH (fun x Hx => Hd x (or_intror Hx)) (i + 1)%Z ltac:(lia)) as (files & -> & L & Nf). eexists. split; [reflexivity|]. split; [cbn [List.length]; now rewrite L|].
  intros [|j] c' E.
  - injection E as <-. eexists. split; [cbn [nth_error]; do 2 f_equal; rewrite Z.add_0_r; reflexivity|]. split; [reflexivity|]. exact (combine_unzipped (p :: c)).
  - destruct (Nf j c' E) as (m & Em & A). exists m. cbn [nth_error]. rewrite Em. split; [|exact A]. replace (i + Z.of_nat (S j))%Z with (i + 1 + Z.of_nat j)%Z by lia. reflexivity.
Qed.
(** every field has a file of its own, with its number in at least three digits; no file is overwritten *)
Theorem C138_domain :
  forall (domain : list (list (R * R))) folder, (forall c, In c domain -> c <> []) ->
  exists files, visualize_domain domain folder = (files, Ok tt) /\ List.length files = List.length domain /\ NoDup (map fst files) /\
  forall i c, nth_error domain i = Some c -> exists digits m, nth_error files i = Some (append folder (append "/" digits), [m]) /\ is_points m = true /\ drawn m = c /\
    reads digits = Some (Z.of_nat i) /\ (3 <= String.length digits)%nat.
Proof.
  intros d folder Hd. destruct (visualize_from_ok folder d Hd 0%Z ltac:(lia)) as (files & E & L & Nf). exists files. split; [exact E|]. split; [exact L|]. split.
  - apply NoDup_nth_error. intros i j Hi Hij. rewrite map_length, L in Hi. rewrite !nth_error_map in Hij.
    destruct (nth_error d i) as [c|] eqn:Ec; [|apply nth_error_None in Ec; lia]. destruct (Nf i c Ec) as (m & Em & _). rewrite Em in Hij. cbn [option_map fst] in Hij.
    destruct (nth_error files j) as [f|] eqn:Ef; [|discriminate]. assert (Hj : (j < List.length d)%nat) by (rewrite <- L; apply nth_error_Some; congruence).
    destruct (nth_error d j) as [c'|] eqn:Ec'; [|apply nth_error_None in Ec'; lia]. destruct (Nf j c' Ec') as (m' & Em' & _). rewrite Ef in Em'. injection Em' as ->. cbn [option_map fst] in Hij.
    injection Hij as Hij. apply append_inj in Hij. apply (append_inj "/") in Hij. destruct (zfill_reads (0 + Z.of_nat i) ltac:(lia)) as (A & _). destruct (zfill_reads (0 + Z.of_nat j) ltac:(lia)) as (B & _).
    rewrite !Z.add_0_l in *. rewrite Hij, B in A. injection A as A. lia.
  - intros i c Ec. destruct (Nf i c Ec) as (m & Em & A & B). destruct (zfill_reads (0 + Z.of_nat i) ltac:(lia)) as (C & D). exists (zfill (str_int (0 + Z.of_nat i)) 3), m. auto.
Qed.
(** an empty field stops it, with the files of the fields before *)
Theorem C138_domain_stops :
  forall (front rest : list (list (R * R))) folder, (forall c, In c front -> c <> []) ->
  exists files, visualize_domain (front ++ [] :: rest) folder = (files, Err ValueError) /\ List.length files = List.length front.
Proof.
  intros front rest folder. unfold visualize_domain. generalize 0%Z. induction front as [|c f IH]; intros i Hf; [exists []; auto|]. cbn [app visualize_from].
  destruct c as [|p c]; [exfalso; exact (Hf [] (or_introl eq_refl) eq_refl)|]. cbn [unzip]. destruct (IH (i + 1)%Z (fun x Hx => Hf x (or_intror Hx))) as (files & -> & L).
  eexists. split; [reflexivity|]. cbn [List.length]. now rewrite L.
Qed.
Example C138_domain_example : map fst (fst (visualize_domain (repeat [(0, 0)] 12) "out")) =
  ["out/000"; "out/001"; "out/002"; "out/003"; "out/004"; "out/005"; "out/006"; "out/007"; "out/008"; "out/009"; "out/010"; "out/011"]%string.
Proof. reflexivity. Qed.

(** ** g-functions *)
Theorem C138_g_functions :
  forall gf : @gfunction R, gf_log_time gf <> [] -> 0 <= gf_B gf ->
  (forall h c, In (h, c) (gf_curves gf) -> 0 < h /\ List.length (cv_g c) = List.length (gf_log_time gf)) ->
  exists groups, visualize_g_functions gf = Ok (List.concat groups) /\
  Forall2 (fun hc g => exists b k : Z, IZR b <= gf_B gf < IZR b + 1 /\ IZR k <= fst hc < IZR k + 1 /\
    exists x y, nth_error (gf_log_time gf) (List.length (gf_log_time gf) - 1) = Some x /\ nth_error (cv_g (snd hc)) (List.length (gf_log_time gf) - 1) = Some y /\
    g = [line (gf_log_time gf) (cv_g (snd hc)) "" (ratio b k); note (gf_B gf / fst hc) (x - 4 / 10) (if Req_EM_T (fst hc) 8 then y - 5 else y + 1)])
  (rev (gf_curves gf)) groups.
Proof.
  intros gf Hl HB Hc. unfold visualize_g_functions.
  assert (X : forall l : list (R * curve), (forall hc, In hc l -> In hc (gf_curves gf)) -> exists groups, mapM (curve_marks gf) l = Ok groups /\
    Forall2 (fun hc g => exists b k : Z, IZR b <= gf_B gf < IZR b + 1 /\ IZR k <= fst hc < IZR k + 1 /\
    exists x y, nth_error (gf_log_time gf) (List.length (gf_log_time gf) - 1) = Some x /\ nth_error (cv_g (snd hc)) (List.length (gf_log_time gf) - 1) = Some y /\
    g = [line (gf_log_time gf) (cv_g (snd hc)) "" (ratio b k); note (gf_B gf / fst hc) (x - 4 / 10) (if Req_EM_T (fst hc) 8 then y - 5 else y + 1)]) l groups).
  2:{ destruct (X (rev (gf_curves gf))) as (groups & -> & Fg); [intros hc Hh; now apply in_rev|]. exists groups. split; [reflexivity|exact Fg]. }
  induction l as [|(h, c) l IH]; intro Hin; [exists []; split; [reflexivity|constructor]|].
  destruct IH as (groups & Eg & Fg); [intros; apply Hin; now right|]. destruct (Hc h c (Hin _ (or_introl eq_refl))) as (Hh & Hlen).
  assert (I : forall v, 0 <= v -> exists z, nint v = Ok z /\ IZR z <= v < IZR z + 1).
  { intros v Hv. unfold nint. cbn [nle nofZ nfloor NumR]. destruct (Rle_dec 0 v); [|lra]. exists (Rfloor v). split; [reflexivity|apply Rfloor_spec]. }
  destruct (I (gf_B gf) HB) as (b & Eb & Sb). destruct (I h ltac:(lra)) as (k & Ek & Sk).
  assert (La : forall l' : list R, l' <> [] -> exists x, py_nth l' (-1) = Ok x /\ nth_error l' (List.length l' - 1) = Some x).
  { intros l' Hl'. unfold py_nth, zlen. change ((-1) <? 0)%Z with true. cbv iota. assert ((0 < List.length l')%nat) by (destruct l'; [congruence|cbn; lia]).
    destruct (nth_error l' (List.length l' - 1)) as [x|] eqn:Ex; [|apply nth_error_None in Ex; lia]. exists x. split; [|reflexivity].
    replace (-1 + Z.of_nat (List.length l'))%Z with (Z.of_nat (List.length l' - 1)) by lia. destruct (Z.of_nat (List.length l' - 1) <? 0)%Z eqn:X; [apply Z.ltb_lt in X; lia|]. rewrite Nat2Z.id, Ex. reflexivity. }
  destruct (La (gf_log_time gf) Hl) as (x & Ex & Nx). assert (Hg : cv_g c <> []) by (intro X; rewrite X in Hlen; destruct (gf_log_time gf); [congruence|discriminate]).
  destruct (La (cv_g c) Hg) as (y & Ey & Ny). rewrite Hlen in Ny.
  exists ([line (gf_log_time gf) (cv_g c) "" (ratio b k); note (gf_B gf / h) (x - 4 / 10) (if Req_EM_T h 8 then y - 5 else y + 1)] :: groups). split.
  - cbn [mapM]. unfold curve_marks at 1. rewrite Eb. cbn [bind]. rewrite Ek. cbn [bind]. unfold draw_line, zlen. rewrite Hlen, Z.eqb_refl. cbn [bind]. rewrite Ex. cbn [bind]. rewrite Ey. cbn [bind].
    rewrite pydiv_R by lra. cbn [bind]. rewrite Eg. cbn [bind]. do 3 f_equal. f_equal. unfold neqb. cbn [nle NumR nofZ]. destruct (Req_EM_T h 8) as [->|X]; [destruct (Rle_dec 8 8); [reflexivity|lra]|].
    destruct (Rle_dec h 8), (Rle_dec 8 h); cbn [andb]; try reflexivity. exfalso. lra.
  - constructor; [|exact Fg]. exists b, k. split; [exact Sb|]. split; [exact Sk|]. exists x, y. auto.
Qed.
Example C138_g_functions_example : exists (gf : @gfunction R) groups, visualize_g_functions gf = Ok (List.concat groups) /\ List.length groups = 2%nat /\ map fst (gf_curves gf) = [8; 100].
Proof.
  pose (gf := {| gf_B := 5; gf_curves := [(8, {| cv_g := [1; 2]; cv_rb := / 10; cv_D := 2 |}); (100, {| cv_g := [3; 4]; cv_rb := / 10; cv_D := 2 |})];
    gf_log_time := [-3; 2]; gf_locations := [(0, 0)]; gf_table := t_empty |}).
  destruct (C138_g_functions gf) as (groups & E & Fg); [discriminate|cbn; lra| |exists gf, groups; split; [exact E|]; split; [|reflexivity]; inversion Fg as [|? ? ? ? _ F1 A B]; inversion F1 as [|? ? ? ? _ F2 A2 B2]; inversion F2; reflexivity].
  intros h c [X|[X|[]]]; injection X as <- <-; (split; [lra|reflexivity]).
Qed.

(** the label shows whole metres: two heights of one object can share it *)
Definition two_curves : @gfunction Q := {| gf_B := 5; gf_curves := [(242 # 10, {| cv_g := [1; 2]; cv_rb := 1 # 10; cv_D := 2 |}); (248 # 10, {| cv_g := [3; 4]; cv_rb := 1 # 10; cv_D := 2 |})];
  gf_log_time := [-3; 2]; gf_locations := [(0, 0)]; gf_table := t_empty |}%Q.
Theorem C138_labels_refuted :
  exists (gf : @gfunction Q) l1 l2 n1 n2, visualize_g_functions gf = Ok [l1; n1; l2; n2] /\ drawn l1 <> drawn l2 /\ label_of l1 = ratio 5 24 /\ label_of l1 = label_of l2.
Proof. exists two_curves. do 4 eexists. split; [vm_compute; reflexivity|]. split; [discriminate|]. split; reflexivity. Qed.

(** ** the hourly loads *)
(** HybridLoad sets no hourly_rejection_loads *)
Theorem C138_loads_always_fails :
  forall gt two_pi_k Rb year (rej ext : list R) cl hl, make_loads gt two_pi_k Rb year rej = Ok cl -> make_loads gt two_pi_k Rb year ext = Ok hl ->
  visualize_hourly_heat_extraction (new_hybrid cl hl) = Err AttributeError.
Proof.
  intros gt two_pi_k Rb year rej ext cl hl _ E. destruct (make_loads_inv _ _ _ _ _ _ E) as (L & Eh & _). pose proof (days_in_year_bounds year) as B.
  unfold visualize_hourly_heat_extraction, new_hybrid. cbn [ho_extraction]. rewrite Eh, zrange_cons by lia. reflexivity.
Qed.
Example C138_loads_example : exists ld, make_loads (fun t => Ok t) 1 (/ 10) 2019 (repeat 1 (Z.to_nat 8760)) = Ok ld /\ visualize_hourly_heat_extraction (new_hybrid ld ld) = Err AttributeError.
Proof. destruct C40_example as (ld & E & _). exists ld. split; [exact E|exact (C138_loads_always_fails _ _ _ _ _ _ _ _ E E)]. Qed.
(** Were it set to the rejection loads, then, of loads that never reject and extract in one hour, the points labelled extraction would be those of the rejection and those
    labelled rejection all be 0 *)
Lemma hours_ok (cl hl : loads R) : List.length (ld_hourly cl) = List.length (ld_hourly hl) ->
  (forall i c h, nth_error (ld_hourly cl) i = Some c -> nth_error (ld_hourly hl) i = Some h -> c = 0 \/ h = 0) ->
  forall n, (n <= List.length (ld_hourly hl))%nat -> exists rejection extraction,
  foldM (hour_body {| ho_rejection := cl; ho_extraction := hl; ho_hourly_rejection_loads := Some (ld_hourly cl) |}) (zrange 0 (Z.of_nat n)) ([], []) = Ok (rejection, extraction) /\
  (forall t v, In (t, v) rejection -> v = 0) /\
  (forall t v, In (t, v) extraction <-> exists i, (i < n)%nat /\ t = IZR (Z.of_nat i) /\ nth_error (ld_hourly cl) i = Some v /\ v <> 0).
Proof.
  intros Hl Hx. induction n as [|n IH]; intro Hn.
  - exists [], []. split; [reflexivity|]. split; [intros t v []|]. intros t v. split; [intros []|intros (i & Hi & _); lia].
  - destruct IH as (rj & ex & E & Hr & He); [lia|]. rewrite Nat2Z.inj_succ. unfold Z.succ. rewrite (zrange_app 0 (Z.of_nat n)) by lia. rewrite foldM_app, E. cbn [bind].
    rewrite zrange_cons by lia. replace (zrange (Z.of_nat n + 1) (Z.of_nat n + 1)) with (@nil Z) by (unfold zrange; now rewrite Z.sub_diag). cbn [foldM].
    assert (Nc : exists c, nth_error (ld_hourly cl) n = Some c) by (destruct (nth_error (ld_hourly cl) n) eqn:X; [eauto|apply nth_error_None in X; lia]).
    assert (Nh : exists h, nth_error (ld_hourly hl) n = Some h) by (destruct (nth_error (ld_hourly hl) n) eqn:X; [eauto|apply nth_error_None in X; lia]).
    destruct Nc as (c & Nc), Nh as (h & Nh). assert (P : forall (l : list R) x, nth_error l n = Some x -> py_nth l (Z.of_nat n) = Ok x).
    { intros l x X. unfold py_nth. destruct (Z.of_nat n <? 0)%Z eqn:Y; [apply Z.ltb_lt in Y; lia|]. rewrite Y, Nat2Z.id, X. reflexivity. }
    unfold hour_body. cbn [ho_hourly_rejection_loads ho_extraction ho_rejection bind fst snd]. rewrite (P _ _ Nc). cbn [bind]. destruct (neqb c (nofZ 0)) eqn:Ec.
    + apply neqb_R in Ec. cbn [nofZ NumR] in Ec. cbn [bind]. exists rj, ex. split; [reflexivity|]. split; [exact Hr|]. intros t v. rewrite He. split; intros (i & Hi & Ht & Nv & Hv); exists i.
      * split; [lia|auto].
      * split; [|auto]. assert (i <> n); [|lia]. intros ->. rewrite Nc in Nv. congruence.
    + assert (Hc : c <> 0) by (intros ->; unfold neqb in Ec; cbn [nle nofZ NumR] in Ec; destruct (Rle_dec 0 0); [discriminate|lra]). rewrite (P _ _ Nh). cbn [bind].
      exists (rj ++ [(nofZ (Z.of_nat n), nsub (nofZ 0) h)])%list, (ex ++ [(nofZ (Z.of_nat n), c)])%list. split; [reflexivity|]. split.
      * intros t v Hi. apply in_app_iff in Hi. destruct Hi as [Hi|[Hi|[]]]; [exact (Hr t v Hi)|]. injection Hi as _ <-. cbn [nsub nofZ NumR]. destruct (Hx n c h Nc Nh); [congruence|lra].
      * intros t v. rewrite in_app_iff, He. split.
        -- intros [(i & Hi & A)|[Hi|[]]]; [exists i; split; [lia|auto]|]. injection Hi as <- <-. exists n. split; [lia|]. split; [reflexivity|auto].
        -- intros (i & Hi & Ht & Nv & Hv). destruct (Nat.eq_dec i n) as [->|Y]; [right; left|left; exists i; split; [lia|auto]]. cbn [nofZ NumR]. congruence.
Qed.
Theorem C138_loads_swapped :
  forall cl hl : loads R, List.length (ld_hourly cl) = List.length (ld_hourly hl) ->
  (forall i c h, nth_error (ld_hourly cl) i = Some c -> nth_error (ld_hourly hl) i = Some h -> c = 0 \/ h = 0) ->
  exists fig, visualize_hourly_heat_extraction {| ho_rejection := cl; ho_extraction := hl; ho_hourly_rejection_loads := Some (ld_hourly cl) |} = Ok fig /\
  (forall i v, nth_error (ld_hourly cl) i = Some v -> v <> 0 -> exists m, In m fig /\ label_of m = text "Building in heating mode (ground heat extraction)" /\ In (IZR (Z.of_nat i), v) (drawn m)) /\
  forall m t v, In m fig -> In (t, v) (drawn m) ->
    (label_of m = text "Building in heating mode (ground heat extraction)" /\ exists i, t = IZR (Z.of_nat i) /\ nth_error (ld_hourly cl) i = Some v /\ v <> 0) \/
    (label_of m = text "Building in cooling mode (ground heat rejection)" /\ v = 0).
Proof.
  intros cl hl Hl Hx. destruct (hours_ok cl hl Hl Hx _ (le_n _)) as (rj & ex & E & Hr & He). unfold visualize_hourly_heat_extraction. cbn [ho_extraction]. unfold zlen. rewrite E. cbn [bind fst snd].
  eexists. split; [reflexivity|]. split.
  - intros i v Nv Hv. assert (I : In (IZR (Z.of_nat i), v) ex). { apply He. exists i. split; [rewrite <- Hl; apply nth_error_Some; congruence|auto]. }
    destruct ex as [|p ex]; [destruct I|]. eexists. split; [left; reflexivity|]. split; [reflexivity|]. cbn [drawn]. rewrite combine_unzipped. exact I.
  - intros m t v Hm Hv. apply in_app_iff in Hm. destruct Hm as [Hm|Hm].
    + destruct ex as [|p ex]; [destruct Hm|]. destruct Hm as [<-|[]]. cbn [drawn] in Hv. rewrite combine_unzipped in Hv. left. split; [reflexivity|].
      apply He in Hv. destruct Hv as (i & _ & A). eauto.
    + destruct rj as [|p rj]; [destruct Hm|]. destruct Hm as [<-|[]]. cbn [drawn] in Hv. rewrite combine_unzipped in Hv. right. split; [reflexivity|]. exact (Hr t v Hv).
Qed.
Example C138_swapped_example : exists hourly : list R * list R, fst hourly = [2; 0; 0] /\ snd hourly = [0; 3; 0] /\
  forall i c h, nth_error (fst hourly) i = Some c -> nth_error (snd hourly) i = Some h -> c = 0 \/ h = 0.
Proof. exists ([2; 0; 0], [0; 3; 0]). split; [reflexivity|]. split; [reflexivity|]. intros [|[|[|[|i]]]] c h; cbn; intros [= <-] [= <-]; auto. Qed.

(** ** the fluid temperatures of a month *)
Definition hours : list R := map (fun j => IZR (Z.of_nat j)) (seq 0 49).
(** month [m] of a year of which no month up to [m] is without load: the curves are those of month [m] *)
Lemma month_marks_ok gt two_pi_k Rb g : two_pi_k <> 0 -> (forall m, (1 <= m <= 48)%nat -> gt (IZR (Z.of_nat m)) = Ok (g m)) ->
  forall year hourly ld, make_loads gt two_pi_k Rb year hourly = Ok ld ->
  forall m, (1 <= m <= 12)%Z -> (forall i, (1 <= i <= m)%Z -> exists x, In x (month_of year hourly i) /\ 0 < x) ->
  forall s1 s2 t1 t2, let G := fun n => g n / two_pi_k + Rb in
  exists w av p d v n, nth_error (ld_two_day ld) (Z.to_nat m) = Some w /\ nth_error (ld_average ld) (Z.to_nat m) = Some av /\ nth_error (ld_duration ld) (Z.to_nat m) = Some d /\
    0 < p /\ is_max v (rises G (nominal_q w p av)) /\ first_max_at n (rises G (nominal_q w p av)) /\
    month_marks ld m s1 s2 t1 t2 = Ok [line hours (rises G (peak_q p av)) s1 (text t1); line hours (rises G (nominal_q w p av)) s2 (text t2);
      line [d; IZR (Z.of_nat n)] [v; v] "orange" unlabelled; points [d] [v] "purple" unlabelled].
Proof.
  intros K0 GT year hourly ld E m Hm Hpos s1 s2 t1 t2 G. destruct (make_loads_inv _ _ _ _ _ _ E) as (L & _ & ES & ET & EF).
  destruct (C39_two_day_window year hourly _ _ _ _ L ES) as (td & ET' & _ & W). assert (td = ld_two_day ld) by congruence. subst td.
  destruct (split_ok year hourly L) as (r & ES' & M). assert (r = (ld_total ld, ld_peak ld, ld_average ld, ld_peak_day ld)) by congruence. subst r. destruct M as (_ & _ & _ & _ & M).
  destruct (find_inv _ _ _ _ _ _ _ EF) as (w & mp & av & p & out & FA & ER).
  assert (PP : forall i, (1 <= i <= m)%Z -> 0 < p i /\ List.length (w i) = 48%nat).
  { intros i Hi. destruct (FA i ltac:(lia)) as (Ew & Emp & _ & Ep & _). destruct (W i ltac:(lia)) as (w' & st & n & mx & Nw & (Lw & _) & _ & Mx & _ & _ & Nm).
    apply py_nth_nonneg in Ew; [|lia]. assert (w' = w i) by congruence. subst w'. split; [|exact Lw].
    destruct (M i ltac:(lia)) as (t & p' & a & d' & _ & Np & _ & _ & _ & IM & _). apply py_nth_nonneg in Emp; [|lia]. assert (p' = mp i) by congruence. subst p'.
    pose proof (is_max_unique _ _ _ Mx IM) as ->. apply (current_peak_pos (mp i) (w i)); [|eapply nth_error_In; exact Nm|exact Ep].
    destruct (Hpos i Hi) as (x & Ix & Px). destruct IM as (_ & IM). specialize (IM x Ix). lra. }
  destruct (PP m ltac:(lia)) as (Pm & Lm). destruct (FA m Hm) as (Ew & Emp & Eav & Ep & Eo). specialize (Eo ltac:(lra)).
  destruct (perform_histories gt two_pi_k Rb g K0 GT (w m) (p m) (av m) Lm ltac:(lra)) as (v & Mv & Eo'). rewrite Eo in Eo'.
  assert (Out : exists d, out m = (d, rises G (peak_q (p m) (av m)), rises G (nominal_q (w m) (p m) (av m)))).
  { destruct (if nlt 0 v then interp1d (history two_pi_k Rb g (peak_q (p m) (av m))) hour_times v else Ok (nlit 1 1000000)) as [d|e]; [|discriminate]. exists d. exact (f_equal (fun r => match r with Ok x => x | Err _ => out m end) Eo'). }
  destruct Out as (d0 & Out).
  assert (T : forall (f : Z -> list R) x, nth_error (x :: map f (filter (loaded p) (zrange 1 13))) (Z.to_nat m) = Some (f m)).
  { intros f x. rewrite (zrange_app 1 (m + 1)) by lia. rewrite filter_app, (filter_true (loaded p) (zrange 1 (m + 1))).
    - replace (Z.to_nat m) with (S (Z.to_nat (m - 1))) by lia. cbn [nth_error]. rewrite map_app, nth_error_app1 by (rewrite map_length, zrange_length; lia).
      rewrite nth_error_map. unfold zrange. rewrite nth_error_zseq. replace (_ <? _)%nat with true by (symmetry; apply Nat.ltb_lt; lia). cbn [option_map]. do 2 f_equal. lia.
    - intros a Ha. apply in_zrange in Ha. unfold loaded. cbn [nis0 NumR]. destruct (PP a ltac:(lia)). destruct (Req_EM_T (p a) 0); [lra|reflexivity]. }
  assert (E1 : ld_temps_pk ld = [0] :: map (fun i => snd (fst (out i))) (filter (loaded p) (zrange 1 13))) by congruence.
  assert (E2 : ld_temps_nm ld = [0] :: map (fun i => snd (out i)) (filter (loaded p) (zrange 1 13))) by congruence.
  assert (E3 : ld_duration ld = 0 :: map (dur_of p out) (zrange 1 13)) by congruence.
  destruct (py_index_first v _ Mv) as (n & En & Fn & Nn).
  exists (w m), (av m), (p m), (dur_of p out m), v, n. split; [apply py_nth_nonneg in Ew; [exact Ew|lia]|]. split; [apply py_nth_nonneg in Eav; [exact Eav|lia]|].
  split; [rewrite E3; apply nth_zrange_map; exact Hm|]. split; [exact Pm|]. split; [exact Mv|]. split; [exact Fn|].
  assert (PN : forall (A : Type) (l : list A) x, nth_error l (Z.to_nat m) = Some x -> py_nth l m = Ok x).
  { intros A l x X. unfold py_nth. destruct (m <? 0)%Z eqn:Y; [apply Z.ltb_lt in Y; lia|]. rewrite Y, X. reflexivity. }
  assert (Hh : map nofZ (zrange 0 (2 * 24 + 1)) = hours) by reflexivity.
  assert (RL : forall q, zlen hours = zlen (rises G q)) by reflexivity.
  assert (DL : forall q s t, draw_line hours (rises G q) s t = Ok (line hours (rises G q) s t)) by (intros; unfold draw_line; now rewrite (RL q), Z.eqb_refl).
  unfold month_marks. rewrite Hh. rewrite (PN _ _ _ (eq_trans (f_equal (fun l => nth_error l (Z.to_nat m)) E1) (T (fun i => snd (fst (out i))) [0]))). rewrite Out. cbn [bind fst snd]. rewrite DL. cbn [bind].
  rewrite (PN _ _ _ (eq_trans (f_equal (fun l => nth_error l (Z.to_nat m)) E2) (T (fun i => snd (out i)) [0]))). rewrite Out. cbn [bind fst snd]. rewrite DL. cbn [bind].
  rewrite (PN _ _ _ (eq_trans (f_equal (fun l => nth_error l (Z.to_nat m)) E3) (nth_zrange_map (dur_of p out) 0 m Hm))). cbn [bind].
  unfold draw_horizontal. destruct (nmaxl_total (rises G (nominal_q (w m) (p m) (av m))) ltac:(discriminate)) as (v' & -> & Mv'). rewrite (is_max_unique _ _ _ Mv' Mv). cbn [bind].
  change (history two_pi_k Rb g (nominal_q (w m) (p m) (av m))) with (rises G (nominal_q (w m) (p m) (av m))) in En. rewrite En. cbn [bind]. reflexivity.
Qed.
(** The figure of month [m], of the ground object's loads: the full statement would let any month be without load. *)
Theorem C138_months_partial :
  forall gt two_pi_k Rb g, two_pi_k <> 0 -> (forall m, (1 <= m <= 48)%nat -> gt (IZR (Z.of_nat m)) = Ok (g m)) ->
  forall year rej ext cl hl, make_loads gt two_pi_k Rb year rej = Ok cl -> make_loads gt two_pi_k Rb year ext = Ok hl ->
  forall m, (1 <= m <= 12)%Z -> (forall i, (1 <= i <= m)%Z -> (exists x, In x (month_of year rej i) /\ 0 < x) /\ exists x, In x (month_of year ext i) /\ 0 < x) ->
  let G := fun n => g n / two_pi_k + Rb in
  exists e r, visualize_fluid_simulation_results (new_hybrid cl hl) m true true = Ok (e ++ r)%list /\
    visualize_fluid_simulation_results (new_hybrid cl hl) m true false = Ok e /\ visualize_fluid_simulation_results (new_hybrid cl hl) m false true = Ok r /\
    visualize_fluid_simulation_results (new_hybrid cl hl) m false false = Ok [] /\
    (exists w av p d v n, nth_error (ld_two_day cl) (Z.to_nat m) = Some w /\ nth_error (ld_average cl) (Z.to_nat m) = Some av /\ nth_error (ld_duration cl) (Z.to_nat m) = Some d /\
       0 < p /\ is_max v (rises G (nominal_q w p av)) /\ first_max_at n (rises G (nominal_q w p av)) /\
       e = [line hours (rises G (peak_q p av)) "k--" (text "Peak Extraction"); line hours (rises G (nominal_q w p av)) "b-" (text "Extraction");
            line [d; IZR (Z.of_nat n)] [v; v] "orange" unlabelled; points [d] [v] "purple" unlabelled]) /\
    (exists w av p d v n, nth_error (ld_two_day hl) (Z.to_nat m) = Some w /\ nth_error (ld_average hl) (Z.to_nat m) = Some av /\ nth_error (ld_duration hl) (Z.to_nat m) = Some d /\
       0 < p /\ is_max v (rises G (nominal_q w p av)) /\ first_max_at n (rises G (nominal_q w p av)) /\
       r = [line hours (rises G (peak_q p av)) "k." (text "Peak Rejection"); line hours (rises G (nominal_q w p av)) "r-." (text "Rejection");
            line [d; IZR (Z.of_nat n)] [v; v] "orange" unlabelled; points [d] [v] "purple" unlabelled]).
Proof.
  intros gt two_pi_k Rb g K0 GT year rej ext cl hl Ec Eh m Hm Hp G.
  destruct (month_marks_ok gt two_pi_k Rb g K0 GT year rej cl Ec m Hm (fun i Hi => proj1 (Hp i Hi)) "k--" "b-" "Peak Extraction" "Extraction") as (w & av & p & d & v & n & A1 & A2 & A3 & A4 & A5 & A6 & A).
  destruct (month_marks_ok gt two_pi_k Rb g K0 GT year ext hl Eh m Hm (fun i Hi => proj2 (Hp i Hi)) "k." "r-." "Peak Rejection" "Rejection") as (w' & av' & p' & d' & v' & n' & B1 & B2 & B3 & B4 & B5 & B6 & B).
  unfold visualize_fluid_simulation_results, new_hybrid. cbn [ho_rejection ho_extraction]. rewrite A, B. cbn [bind]. do 2 eexists. split; [reflexivity|].
  split; [now rewrite app_nil_r|]. split; [reflexivity|]. split; [reflexivity|]. split.
  - exists w, av, p, d, v, n. repeat (split; [assumption|]). reflexivity.
  - exists w', av', p', d', v', n'. repeat (split; [assumption|]). reflexivity.
Qed.
Example C138_months_example : exists ld e r, make_loads (fun t => Ok t) 1 (/ 10) 2019 (repeat 1 (Z.to_nat 8760)) = Ok ld /\
  visualize_fluid_simulation_results (new_hybrid ld ld) 7 true true = Ok (e ++ r)%list /\ List.length e = 4%nat.
Proof.
  destruct C40_example as (ld & E & _).
  destruct (C138_months_partial (fun t => Ok t) 1 (/ 10) (fun m => IZR (Z.of_nat m)) ltac:(lra) (fun m _ => eq_refl) 2019 _ _ ld ld E E 7 ltac:(lia)) as (e & r & A & _ & _ & _ & (w & av & p & d & v & n & _ & _ & _ & _ & _ & _ & Ee) & _).
  - intros i Hi. assert (X : exists x, In x (month_of 2019 (repeat 1 (Z.to_nat 8760)) i) /\ 0 < x); [|split; exact X].
    assert (I : (i = 1 \/ i = 2 \/ i = 3 \/ i = 4 \/ i = 5 \/ i = 6 \/ i = 7)%Z) by lia. exists 1. split; [|lra]. repeat destruct I as [->|I]; try subst i; vm_compute; left; reflexivity.
  - exists ld, e, r. split; [exact E|]. split; [exact A|]. now rewrite Ee.
Qed.

(** In every year: figure [m] shows the temperatures of the [m]-th month with load, beside the duration of month [m]. *)
Lemma month_marks_answered gt two_pi_k Rb g : two_pi_k <> 0 -> (forall m, (1 <= m <= 48)%nat -> gt (IZR (Z.of_nat m)) = Ok (g m)) ->
  forall year hourly ld, make_loads gt two_pi_k Rb year hourly = Ok ld -> let G := fun n => g n / two_pi_k + Rb in
  exists (w : Z -> list R) (mp av p : Z -> R) (months : list Z),
  (forall i, (1 <= i <= 12)%Z -> nth_error (ld_two_day ld) (Z.to_nat i) = Some (w i) /\ nth_error (ld_peak ld) (Z.to_nat i) = Some (mp i) /\ nth_error (ld_average ld) (Z.to_nat i) = Some (av i) /\
     exists x, is_max x (0 :: w i) /\ p i = if Rlt_dec (Rabs (mp i - x)) (/ 10) then mp i else x) /\
  months = filter (fun i => if Req_EM_T (p i) 0 then false else true) (zrange 1 13) /\
  forall m s1 s2 t1 t2, (1 <= m <= 12)%Z ->
  match nth_error months (Z.to_nat (m - 1)) with
  | Some k => exists d v n, nth_error (ld_duration ld) (Z.to_nat m) = Some d /\ is_max v (rises G (nominal_q (w k) (p k) (av k))) /\ first_max_at n (rises G (nominal_q (w k) (p k) (av k))) /\
      month_marks ld m s1 s2 t1 t2 = Ok [line hours (rises G (peak_q (p k) (av k))) s1 (text t1); line hours (rises G (nominal_q (w k) (p k) (av k))) s2 (text t2);
        line [d; IZR (Z.of_nat n)] [v; v] "orange" unlabelled; points [d] [v] "purple" unlabelled]
  | None => month_marks ld m s1 s2 t1 t2 = Err IndexError
  end.
Proof.
  intros K0 GT year hourly ld E G. destruct (make_loads_inv _ _ _ _ _ _ E) as (L & _ & ES & ET & EF).
  destruct (C39_two_day_window year hourly _ _ _ _ L ES) as (td & ET' & _ & W). assert (td = ld_two_day ld) by congruence. subst td.
  destruct (find_inv _ _ _ _ _ _ _ EF) as (w & mp & av & p & out & FA & ER).
  assert (E1 : ld_temps_pk ld = [0] :: map (fun i => snd (fst (out i))) (filter (loaded p) (zrange 1 13))) by congruence.
  assert (E2 : ld_temps_nm ld = [0] :: map (fun i => snd (out i)) (filter (loaded p) (zrange 1 13))) by congruence.
  assert (E3 : ld_duration ld = 0 :: map (dur_of p out) (zrange 1 13)) by congruence.
  assert (EM : filter (fun i => if Req_EM_T (p i) 0 then false else true) (zrange 1 13) = filter (loaded p) (zrange 1 13)).
  { apply filter_ext. intro i. unfold loaded. cbn [nis0 NumR]. destruct (Req_EM_T (p i) 0); reflexivity. }
  exists w, mp, av, p, (filter (loaded p) (zrange 1 13)). split; [|split; [symmetry; exact EM|]].
  { intros i Hi. destruct (FA i Hi) as (Ew & Emp & Eav & Ep & _). split; [apply py_nth_nonneg in Ew; [exact Ew|lia]|]. split; [apply py_nth_nonneg in Emp; [exact Emp|lia]|].
    split; [apply py_nth_nonneg in Eav; [exact Eav|lia]|]. unfold current_peak in Ep. destruct (nmaxl_total (0 :: w i) ltac:(discriminate)) as (x & Ex & Mx). rewrite Ex in Ep. cbn [bind] in Ep.
    exists x. split; [exact Mx|]. destruct (nlt _ _) eqn:El.
    - apply nlt_R in El. unfold nlit in El. cbn [nabs nsub ndivr nofZ NumR] in El. destruct (Rlt_dec (Rabs (mp i - x)) (/ 10)) as [_|X]; [congruence|exfalso; lra].
    - apply nlt_R_false in El. unfold nlit in El. cbn [nabs nsub ndivr nofZ NumR] in El. destruct (Rlt_dec (Rabs (mp i - x)) (/ 10)) as [X|_]; [exfalso; lra|congruence]. }
  intros m s1 s2 t1 t2 Hm.
  assert (T : forall (f : Z -> list R) x, nth_error (x :: map f (filter (loaded p) (zrange 1 13))) (Z.to_nat m) = option_map f (nth_error (filter (loaded p) (zrange 1 13)) (Z.to_nat (m - 1)))).
  { intros f x. replace (Z.to_nat m) with (S (Z.to_nat (m - 1))) by lia. cbn [nth_error]. apply nth_error_map. }
  assert (PN : forall (A : Type) (l : list A), py_nth l m = match nth_error l (Z.to_nat m) with Some x => Ok x | None => Err IndexError end).
  { intros A l. unfold py_nth. destruct (m <? 0)%Z eqn:Y; [apply Z.ltb_lt in Y; lia|]. now rewrite Y. }
  destruct (nth_error (filter (loaded p) (zrange 1 13)) (Z.to_nat (m - 1))) as [k|] eqn:Ek.
  2:{ unfold month_marks. rewrite PN, E1, T. cbn [option_map bind]. reflexivity. }
  apply nth_error_In in Ek as Ik. apply filter_In in Ik. destruct Ik as (Ik & Pk). apply in_zrange in Ik. unfold loaded in Pk. cbn [nis0 NumR] in Pk. destruct (Req_EM_T (p k) 0) as [|Pk']; [discriminate|].
  destruct (FA k ltac:(lia)) as (Ew & Emp & Eav & Ep & Eo). specialize (Eo Pk').
  assert (Lm : List.length (w k) = 48%nat). { destruct (W k ltac:(lia)) as (w' & st & n & mx & Nw & (Lw & _) & _). apply py_nth_nonneg in Ew; [|lia]. congruence. }
  destruct (perform_histories gt two_pi_k Rb g K0 GT (w k) (p k) (av k) Lm Pk') as (v & Mv & Eo'). rewrite Eo in Eo'.
  assert (Out : exists d, out k = (d, rises G (peak_q (p k) (av k)), rises G (nominal_q (w k) (p k) (av k)))).
  { destruct (if nlt 0 v then interp1d (history two_pi_k Rb g (peak_q (p k) (av k))) hour_times v else Ok (nlit 1 1000000)) as [d|e]; [|discriminate]. exists d. exact (f_equal (fun r => match r with Ok x => x | Err _ => out k end) Eo'). }
  destruct Out as (d0 & Out). destruct (py_index_first v _ Mv) as (n & En & Fn & Nn).
  exists (dur_of p out m), v, n. split; [rewrite E3; apply nth_zrange_map; exact Hm|]. split; [exact Mv|]. split; [exact Fn|].
  assert (Hh : map nofZ (zrange 0 (2 * 24 + 1)) = hours) by reflexivity.
  assert (RL : forall q, zlen hours = zlen (rises G q)) by reflexivity.
  assert (DL : forall q s t, draw_line hours (rises G q) s t = Ok (line hours (rises G q) s t)) by (intros; unfold draw_line; now rewrite (RL q), Z.eqb_refl).
  unfold month_marks. rewrite Hh, !PN, E1, T. cbn [option_map]. rewrite Out. cbn [bind fst snd]. rewrite DL. cbn [bind].
  rewrite E2, T. cbn [option_map]. rewrite Out. cbn [bind fst snd]. rewrite DL. cbn [bind].
  rewrite E3, (nth_zrange_map (dur_of p out) 0 m Hm). cbn [bind].
  unfold draw_horizontal. destruct (nmaxl_total (rises G (nominal_q (w k) (p k) (av k))) ltac:(discriminate)) as (v' & -> & Mv'). rewrite (is_max_unique _ _ _ Mv' Mv). cbn [bind].
  change (history two_pi_k Rb g (nominal_q (w k) (p k) (av k))) with (rises G (nominal_q (w k) (p k) (av k))) in En. rewrite En. cbn [bind]. reflexivity.
Qed.
(** the hypotheses are those of C138_months_example *)
Theorem C138_months_answered :
  forall gt two_pi_k Rb g, two_pi_k <> 0 -> (forall m, (1 <= m <= 48)%nat -> gt (IZR (Z.of_nat m)) = Ok (g m)) ->
  forall year hourly ld other, make_loads gt two_pi_k Rb year hourly = Ok ld -> let G := fun n => g n / two_pi_k + Rb in
  exists (w : Z -> list R) (mp av p : Z -> R) (months : list Z),
  (forall i, (1 <= i <= 12)%Z -> nth_error (ld_two_day ld) (Z.to_nat i) = Some (w i) /\ nth_error (ld_peak ld) (Z.to_nat i) = Some (mp i) /\ nth_error (ld_average ld) (Z.to_nat i) = Some (av i) /\
     exists x, is_max x (0 :: w i) /\ p i = if Rlt_dec (Rabs (mp i - x)) (/ 10) then mp i else x) /\
  months = filter (fun i => if Req_EM_T (p i) 0 then false else true) (zrange 1 13) /\
  forall m, (1 <= m <= 12)%Z ->
  match nth_error months (Z.to_nat (m - 1)) with
  | Some k => exists d v n, nth_error (ld_duration ld) (Z.to_nat m) = Some d /\ is_max v (rises G (nominal_q (w k) (p k) (av k))) /\ first_max_at n (rises G (nominal_q (w k) (p k) (av k))) /\
      visualize_fluid_simulation_results (new_hybrid ld other) m true false =
        Ok [line hours (rises G (peak_q (p k) (av k))) "k--" (text "Peak Extraction"); line hours (rises G (nominal_q (w k) (p k) (av k))) "b-" (text "Extraction");
            line [d; IZR (Z.of_nat n)] [v; v] "orange" unlabelled; points [d] [v] "purple" unlabelled] /\
      visualize_fluid_simulation_results (new_hybrid other ld) m false true =
        Ok [line hours (rises G (peak_q (p k) (av k))) "k." (text "Peak Rejection"); line hours (rises G (nominal_q (w k) (p k) (av k))) "r-." (text "Rejection");
            line [d; IZR (Z.of_nat n)] [v; v] "orange" unlabelled; points [d] [v] "purple" unlabelled]
  | None => visualize_fluid_simulation_results (new_hybrid ld other) m true false = Err IndexError /\ visualize_fluid_simulation_results (new_hybrid other ld) m false true = Err IndexError
  end.
Proof.
  intros gt two_pi_k Rb g K0 GT year hourly ld other E G. destruct (month_marks_answered gt two_pi_k Rb g K0 GT year hourly ld E) as (w & mp & av & p & months & A & B & C).
  exists w, mp, av, p, months. split; [exact A|]. split; [exact B|]. intros m Hm.
  pose proof (C m "k--"%string "b-"%string "Peak Extraction"%string "Extraction"%string Hm) as C1. pose proof (C m "k."%string "r-."%string "Peak Rejection"%string "Rejection"%string Hm) as C2.
  unfold visualize_fluid_simulation_results, new_hybrid. cbn [ho_rejection ho_extraction]. destruct (nth_error months (Z.to_nat (m - 1))) as [k|].
  - destruct C1 as (d & v & n & D1 & V1 & F1 & ->), C2 as (d' & v' & n' & D2 & V2 & F2 & ->). exists d, v, n. split; [exact D1|]. split; [exact V1|]. split; [exact F1|]. split; [reflexivity|].
    assert (d' = d) by congruence. subst d'. rewrite (is_max_unique _ _ _ V2 V1). 
    assert (n' = n) by (eapply first_max_unique; eauto). subst n'. reflexivity.
  - rewrite C1, C2. auto.
Qed.

(** what a figure of the analysed loads looks like, for the refutations *)
Definition shown (rej ext : list Q) (m : Z) (extraction rejection : bool) : res figure :=
  let! cl := analyse rej in let! hl := analyse ext in visualize_fluid_simulation_results (new_hybrid cl hl) m extraction rejection.
Lemma shown_inv rej ext : (exists f, shown rej ext 1 true false = Ok f) -> exists cl hl, analyse rej = Ok cl /\ analyse ext = Ok hl /\
  forall m b c, visualize_fluid_simulation_results (new_hybrid cl hl) m b c = shown rej ext m b c.
Proof. unfold shown. intros (f & E). destruct (analyse rej) as [cl|]; [|discriminate]. destruct (analyse ext) as [hl|]; [|discriminate]. exists cl, hl. auto. Qed.
Definition rising (f : res (@figure Q)) (what : string) : bool :=
  match f with Ok (line x y _ (text s) :: _) => String.eqb s what && existsb (fun v => negb (Qle_bool v 0)) y | _ => false end.
Lemma rising_inv f what : rising f what = true -> exists fig l v, f = Ok (l :: fig) /\ label_of l = text what /\ is_line l = true /\ (0 < v)%Q /\ match l with line _ y _ _ => In v y | _ => False end.
Proof.
  destruct f as [[|[x y st [|s|b h]|x y st l|a b c] fig]|e]; try discriminate. cbn [rising]. intro E. apply andb_prop in E. destruct E as (Es & Ey). apply String.eqb_eq in Es. subst s.
  apply existsb_exists in Ey. destruct Ey as (v & Iv & Ev). exists fig, (line x y st (text what)), v. repeat apply conj; try reflexivity; [|exact Iv].
  apply Qnot_le_lt. intro X. apply Qle_bool_iff in X. rewrite X in Ev. discriminate.
Qed.

(** the line labelled "Peak Extraction" shows the rejection: of a building that never extracts it rises, and the one labelled "Peak Rejection" cannot be drawn *)
Theorem C138_fluid_labels_refuted :
  exists (rej ext : list Q) cl hl fig l v, Forall (fun x => x = 0)%Q ext /\ analyse rej = Ok cl /\ analyse ext = Ok hl /\
  visualize_fluid_simulation_results (new_hybrid cl hl) 1 true false = Ok (l :: fig) /\ label_of l = text "Peak Extraction" /\ is_line l = true /\ (0 < v)%Q /\ match l with line _ y _ _ => In v y | _ => False end /\
  visualize_fluid_simulation_results (new_hybrid cl hl) 1 false true = Err IndexError.
Proof.
  exists (year_of two_levels), (year_of (fun _ => 0%Q)).
  assert (E : rising (shown (year_of two_levels) (year_of (fun _ => 0%Q)) 1 true false) "Peak Extraction" = true) by (vm_compute; reflexivity).
  apply rising_inv in E. destruct E as (fig & l & v & E & A1 & A2 & A3 & A4). destruct (shown_inv _ _ (ex_intro _ _ E)) as (cl & hl & Ec & Eh & X).
  exists cl, hl, fig, l, v. split; [apply Forall_forall; intros x Hx; apply in_map_iff in Hx; destruct Hx as (h & <- & _); reflexivity|]. rewrite !X. split; [exact Ec|]. split; [exact Eh|]. split; [exact E|]. split; [exact A1|]. split; [exact A2|]. split; [exact A3|]. split; [exact A4|]. vm_compute. reflexivity.
Qed.
(** A month without load leaves no curves: without load in January and on 31 December, January's figure shows a rise, and December's cannot be drawn.
    (The window of a month without load is its first day and the day before.) *)
Definition january_off (h : Z) : Q := if ((h <? 744) || (8736 <=? h))%Z then 0%Q else two_levels h.
Theorem C138_months_refuted :
  exists (rej : list Q) cl fig l v, Forall (fun x => x = 0)%Q (firstn 744 rej) /\ Exists (fun x => 0 < x)%Q (skipn (Z.to_nat 8016) rej) /\ analyse rej = Ok cl /\
  visualize_fluid_simulation_results (new_hybrid cl cl) 1 true false = Ok (l :: fig) /\ is_line l = true /\ (0 < v)%Q /\ match l with line _ y _ _ => In v y | _ => False end /\
  visualize_fluid_simulation_results (new_hybrid cl cl) 12 true false = Err IndexError.
Proof.
  exists (year_of january_off).
  assert (E : rising (shown (year_of january_off) (year_of january_off) 1 true false) "Peak Extraction" = true) by (vm_compute; reflexivity).
  apply rising_inv in E. destruct E as (fig & l & v & E & A1 & A2 & A3 & A4). destruct (shown_inv _ _ (ex_intro _ _ E)) as (cl & hl & Ec & Eh & X).
  assert (hl = cl) by congruence. subst hl. exists cl, fig, l, v. split.
  { unfold year_of. rewrite firstn_map. apply Forall_forall. intros x Hx. apply in_map_iff in Hx. destruct Hx as (h & <- & Hh). change (firstn 744 (zrange 0 8760)) with (zrange 0 744) in Hh.
    apply in_zrange in Hh. unfold january_off. destruct (Z.ltb_spec h 744); [reflexivity|lia]. }
  split. { unfold year_of. rewrite skipn_map. apply Exists_exists. exists (january_off 8016). split; [|vm_compute; reflexivity]. apply in_map. change (skipn (Z.to_nat 8016) (zrange 0 8760)) with (zrange 8016 8760). apply in_zrange. lia. }
  split; [exact Ec|]. rewrite !X. split; [exact E|]. split; [exact A2|]. split; [exact A3|]. split; [exact A4|]. vm_compute. reflexivity.
Qed.

Print Assumptions C138_field.
Print Assumptions C138_area.
Print Assumptions C138_area_empty_zone.
Print Assumptions C138_domain.
Print Assumptions C138_domain_stops.
Print Assumptions C138_g_functions.
Print Assumptions C138_labels_refuted.
Print Assumptions C138_loads_always_fails.
Print Assumptions C138_loads_swapped.
Print Assumptions C138_months_partial.
Print Assumptions C138_months_answered.
Print Assumptions C138_fluid_labels_refuted.
Print Assumptions C138_months_refuted.
