(** The evaluation and the sizing of a field read the coordinates only through the number of boreholes and the response of the field: the
    spacing of the first two boreholes cancels *)
From Coq Require Import ZArith List Bool Reals Lra Lia FunctionalExtensionality.
From Verif Require Import Base Num BaseLemmas Order Utilities Loads LoadsSpec LoadsSim Ghe GheSpec GheProofs GFun GFunSpec GFunProofs Radial RadialSpec Bhe Equiv Export
  Search SearchSpec Design System SystemSpec SystemProofs Program ProgramProofs InvarianceProofs PlaceSpec.
Import ListNotations.
Open Scope R_scope.

(** ** the g-functions *)
Section Live.
Variables (B B' : R) (locations' : list (R * R)).
Definition rekey (kv : @db_key R * list R) : @db_key R * list R :=
  ({| dk_B := B'; dk_H := dk_H (fst kv); dk_rb := dk_rb (fst kv); dk_D := dk_D (fst kv) |}, snd kv).
Definition keyed (d : list (@db_key R * list R)) : Prop := Forall (fun kv => dk_B (fst kv) = B) d.

Lemma neqb_same (x : R) : neqb x x = true.
Proof. unfold neqb. cbn. destruct (Rle_dec x x); [reflexivity|lra]. Qed.
Lemma is0_no (x : R) : x <> 0 -> nis0 x = false.
Proof. intro H. cbn. now destruct (Req_EM_T x 0). Qed.
Lemma is0_yes (x : R) : nis0 x = false -> x <> 0.
Proof. cbn. now destruct (Req_EM_T x 0). Qed.
Lemma data_set_rekey d k v : keyed d -> dk_B k = B ->
  data_set (map rekey d) (fst (rekey (k, v))) v = map rekey (data_set d k v) /\ keyed (data_set d k v).
Proof.
  intros K Hk. induction K as [|(k1, w) d E K IH]; [split; [reflexivity|now repeat constructor]|].
  cbn [map data_set rekey fst snd]. cbn [fst] in E.
  replace (key_eqb {| dk_B := B'; dk_H := dk_H k1; dk_rb := dk_rb k1; dk_D := dk_D k1 |} {| dk_B := B'; dk_H := dk_H k; dk_rb := dk_rb k; dk_D := dk_D k |})
    with (key_eqb k1 k) by (unfold key_eqb; cbn [dk_B dk_H dk_rb dk_D]; now rewrite E, Hk, !neqb_same).
  destruct (key_eqb k1 k).
  - split; [reflexivity|]. now constructor.
  - destruct IH as [I1 I2]. split; [|now constructor]. cbn [map rekey fst snd]. f_equal. exact I1.
Qed.

Definition relocate (g : @gfunction R) : @gfunction R :=
  {| gf_B := B'; gf_curves := gf_curves g; gf_log_time := gf_log_time g; gf_locations := locations'; gf_table := gf_table g |}.

Lemma configure_rekey d log_time locations : configure (map rekey d) log_time locations' = rmap relocate (configure d log_time locations).
Proof.
  unfold configure.
  assert (E : forall a, fold_left configure_body (map rekey d) a = fold_left configure_body d a).
  { intro a. revert a. induction d as [|kv d IH]; intro a; [reflexivity|]. cbn [map fold_left]. rewrite IH. f_equal. }
  rewrite E. destruct (fold_left configure_body d ([], [], [])) as ((g_tmp, rbs), ds).
  destruct d as [|kv d]; [reflexivity|]. cbn [map bind]. rewrite ?bind_rmap. f_equal. extensionality keys.
  rewrite ?bind_rmap. f_equal. extensionality g. rewrite ?bind_rmap. f_equal.
Qed.
Lemma configure_B d log_time locations g : keyed d -> configure d log_time locations = Ok g -> gf_B g = B /\ gf_locations g = locations.
Proof.
  unfold configure. intros K E. destruct (fold_left configure_body d ([], [], [])) as ((g_tmp, rbs), ds).
  destruct d as [|kv d]; [discriminate|]. cbn [bind] in E. apply Forall_inv in K.
  apply bind_ok in E. destruct E as (keys & _ & E). apply bind_ok in E. destruct E as (gg & _ & E). apply bind_ok in E. destruct E as (rb & _ & E).
  apply Ok_inj in E. subst g. now split.
Qed.

Variables (fr fr' : R -> R -> R -> res (list R)).
Hypothesis same : forall H D r, fr' H D r = fr H D r.
Lemma live_relocate Hs rs Ds log_time locations :
  compute_live_g_function fr' B' Hs rs Ds log_time locations' = rmap relocate (compute_live_g_function fr B Hs rs Ds log_time locations) /\
  (forall g, compute_live_g_function fr B Hs rs Ds log_time locations = Ok g -> gf_B g = B /\ gf_locations g = locations).
Proof.
  unfold compute_live_g_function.
  set (f := fun d i => let! H := py_nth Hs i in let! r := py_nth rs i in let! D := py_nth Ds i in let! g := fr H D r in
              Ok (data_set d {| dk_B := B; dk_H := H; dk_rb := r; dk_D := Some D |} g)).
  set (f' := fun d i => let! H := py_nth Hs i in let! r := py_nth rs i in let! D := py_nth Ds i in let! g := fr' H D r in
              Ok (data_set d {| dk_B := B'; dk_H := H; dk_rb := r; dk_D := Some D |} g)).
  assert (E : forall l d, keyed d -> foldM f' l (map rekey d) = rmap (map rekey) (foldM f l d) /\ (forall d', foldM f l d = Ok d' -> keyed d')).
  { induction l as [|i l IH]; intros d K.
    - split; [reflexivity|]. intros d' E. apply Ok_inj in E. now subst.
    - cbn [foldM]. unfold f at 1 3, f' at 1.
      destruct (py_nth Hs i) as [H|]; cbn [bind rmap]; [|split; [reflexivity|discriminate]].
      destruct (py_nth rs i) as [r|]; cbn [bind rmap]; [|split; [reflexivity|discriminate]].
      destruct (py_nth Ds i) as [D|]; cbn [bind rmap]; [|split; [reflexivity|discriminate]].
      rewrite same. destruct (fr H D r) as [g|]; cbn [bind rmap]; [|split; [reflexivity|discriminate]].
      destruct (data_set_rekey d {| dk_B := B; dk_H := H; dk_rb := r; dk_D := Some D |} g K eq_refl) as [S1 S2].
      cbn [rekey fst snd dk_H dk_rb dk_D] in S1. rewrite S1. now apply IH. }
  destruct (E (zrange 0 (zlen Hs)) [] (Forall_nil _)) as [E1 E2]. cbn [map] in E1. rewrite E1.
  destruct (foldM f (zrange 0 (zlen Hs)) []) as [d|]; cbn [rmap bind]; [|split; [reflexivity|discriminate]].
  split; [apply configure_rekey|]. intros g. apply configure_B. now apply E2.
Qed.
End Live.

Section Place.
Variable h_circular : R -> R -> R -> R -> R -> R -> R -> R.
Variable h_annulus : R -> R -> R -> R -> R -> R -> R -> R -> R * R.
Variable r_conduction : R -> R -> R -> R.
Variable eff_u : R -> pg_u -> R -> R -> R.
Variable eff_c : R -> pg_c -> R -> R -> R.
Variable brentq : (R -> res R) -> R -> R -> list R * res R.
Variable solver : list R -> list R -> list R -> list R -> list R.
Variable interp : ikind -> list (R * R) -> R -> R.
Variable field_response : R -> list (R * R) -> R -> R -> R -> res (list R).
Variable dlg : R -> R -> dialogue.
Variable st : settings.
Notation ssim := (ghe_simulate h_circular h_annulus r_conduction eff_u eff_c brentq solver interp st).
Notation lobj := (local_objective h_circular h_annulus r_conduction eff_u eff_c brentq solver interp st).
Notation conv := (converse h_circular h_annulus r_conduction eff_u eff_c brentq solver interp st).
Notation gsize := (ghe_size h_circular h_annulus r_conduction eff_u eff_c brentq solver interp st dlg).

Section Moved.
Variables (c c' : list (R * R)) (B B' : R).
Hypothesis same : same_response field_response c c'.
Hypothesis HB : B <> 0.
Hypothesis HB' : B' <> 0.
Notation P := (moved B' c').
(** the object belongs to the field c *)
Definition of_field (s : ghe) : Prop := gh_B s = B /\ gf_B (gh_gf s) = B /\ gf_locations (gh_gf s) = c.

Lemma equivalent_height_moved g H q q' : gf_B g = B -> pydiv B H = Ok q -> pydiv B' H = Ok q' ->
  equivalent_height (relocate B' c' g) q' = equivalent_height g q.
Proof.
  intros Eg E E'. unfold pydiv in E, E'. destruct (nis0 H) eqn:Z; [discriminate|]. assert (HH : H <> 0) by now apply is0_yes.
  apply Ok_inj in E, E'. cbn in E, E'. subst q q'.
  assert (N1 : B / H <> 0) by (intro X; apply HB; apply (Rmult_eq_compat_r H) in X; unfold Rdiv in X; rewrite Rmult_assoc, Rinv_l, Rmult_1_r, Rmult_0_l in X; auto).
  assert (N2 : B' / H <> 0) by (intro X; apply HB'; apply (Rmult_eq_compat_r H) in X; unfold Rdiv in X; rewrite Rmult_assoc, Rinv_l, Rmult_1_r, Rmult_0_l in X; auto).
  unfold equivalent_height, pydiv. rewrite (is0_no _ N1), (is0_no _ N2). cbn [bind]. cbn [relocate gf_curves gf_B]. rewrite Eg.
  replace (nmul (ndivr (nofZ 1) (B' / H)) B') with (nmul (ndivr (nofZ 1) (B / H)) B); [reflexivity|]. cbn. field. auto.
Qed.
Lemma grab_moved g H q q' rb x y : gf_B g = B -> pydiv B H = Ok q -> pydiv B' H = Ok q' ->
  grab_g_function interp (relocate B' c' g) q' rb x y = grab_g_function interp g q rb x y.
Proof.
  intros Eg E E'. unfold grab_g_function, g_function_interpolation. now rewrite (equivalent_height_moved g H q q') by assumption.
Qed.
Lemma pydiv_moved H : match pydiv B H, pydiv B' H with Ok _, Ok _ => True | Err e, Err e' => e = e' | _, _ => False end.
Proof. unfold pydiv. now destruct (nis0 H). Qed.

Lemma ghe_simulate_moved m s : of_field s -> ssim m (P s) = both P (ssim m s) /\ of_field (fst (ssim m s)).
Proof.
  intros (E1 & E2 & E3). unfold ghe_simulate. change (gh_B (P s)) with B'. change (gh_H (P s)) with (gh_H s). change (gh_bhe (P s)) with (gh_bhe s).
  rewrite E1. pose proof (pydiv_moved (gh_H s)) as PD. destruct (pydiv B (gh_H s)) as [q|e] eqn:Q, (pydiv B' (gh_H s)) as [q'|e'] eqn:Q';
    [|contradiction|contradiction|subst e'; split; [reflexivity|now repeat split]].
  cbn [gh_bhe with_bhe].
  destruct (compute_equivalent _ _ _ _ _ _) as [e|]; [|split; [reflexivity|now repeat split]].
  destruct (short_time _ _ _ _ _) as [r|]; [|split; [reflexivity|now repeat split]].
  cbn [gh_gf gh_sts with_short_time with_eq with_bhe]. change (gh_gf (P s)) with (relocate B' c' (gh_gf s)).
  rewrite (grab_moved (gh_gf s) (gh_H s) q q') by assumption.
  destruct (grab_g_function _ _ _ _ _ _) as (t, [g|]); [|split; [reflexivity|now repeat split]].
  cbn [gh_nbh gh_ts gh_bhe gh_load gh_hour with_gf with_short_time with_eq with_bhe moved with_results].
  destruct (simulate _ _ _ _ _ _ _ _ _ _ _ _ _ _) as [(((T, D), mx), mn)|]; split; try reflexivity; now repeat split.
Qed.
Lemma local_objective_moved m s H : of_field s -> lobj m (P s) H = both P (lobj m s H) /\ of_field (fst (lobj m s H)).
Proof.
  intro K. unfold local_objective. change (with_H (P s) H) with (P (with_H s H)).
  destruct (ghe_simulate_moved m (with_H s H) K) as [E K']. rewrite E. destruct (ssim m (with_H s H)) as (s', r). now split.
Qed.
Lemma converse_moved m dd : forall s, of_field s -> conv m dd (P s) = both P (conv m dd s) /\ of_field (fst (conv m dd s)).
Proof.
  induction dd as [x next IH|r]; intros s K; [|now split]. cbn [converse]. destruct (local_objective_moved m s x K) as [E K']. rewrite E.
  destruct (lobj m s x) as (s', [v|]); [|now split]. cbn [both fst snd]. now apply IH.
Qed.
Lemma ghe_size_moved m s : of_field s -> gsize m (P s) = both P (gsize m s) /\ of_field (fst (gsize m s)).
Proof.
  intro K. unfold ghe_size. destruct (pydiv _ _) as [g|]; [|now split]. change (with_H (P s) g) with (P (with_H s g)).
  destruct (local_objective_moved m (with_H s g) (st_min_H st) K) as [E1 K1]. rewrite E1.
  destruct (lobj m (with_H s g) (st_min_H st)) as (s1, [a|]); [|now split]. cbn [both fst snd] in *.
  destruct (local_objective_moved m s1 (st_max_H st) K1) as [E2 K2]. rewrite E2.
  destruct (lobj m s1 (st_max_H st)) as (s2, [b|]); [|now split]. cbn [both fst snd] in *.
  destruct (bind (sign_of a) _) as [(u, v)|]; [|now split]. destruct (negb _); [|now split].
  destruct (converse_moved m (dlg (st_min_H st) (st_max_H st)) s2 K2) as [E3 K3]. rewrite E3.
  now destruct (conv m (dlg (st_min_H st) (st_max_H st)) s2) as (s3, [x|]).
Qed.
Lemma compute_g_functions_moved s : of_field s ->
  compute_g_functions field_response st (P s) = rmap P (compute_g_functions field_response st s) /\
  (forall s', compute_g_functions field_response st s = Ok s' -> of_field s').
Proof.
  intros (E1 & E2 & E3). unfold compute_g_functions. destruct (g_function_heights _ _) as [hs|]; [|split; [reflexivity|discriminate]]. cbn [bind].
  change (gh_bhe (P s)) with (gh_bhe s). change (gf_locations (gh_gf (P s))) with c'. change (gh_B (P s)) with B'.
  change (gf_log_time (gh_gf (P s))) with (gf_log_time (gh_gf s)). rewrite E1, E3.
  destruct (live_relocate B B' c' (field_response (mass_flow (gh_bhe s)) c) (field_response (mass_flow (gh_bhe s)) c') (proj2 same (mass_flow (gh_bhe s)))
             hs (py_repeat (st_rb st) (zlen hs)) (py_repeat (st_D st) (zlen hs)) (gf_log_time (gh_gf s)) c) as [L1 L2].
  rewrite L1. clear L1. destruct (compute_live_g_function _ _ _ _ _ _ _) as [g|]; cbn [rmap bind]; [|split; [reflexivity|discriminate]].
  split; [reflexivity|]. intros s' E. apply Ok_inj in E. subst s'. destruct (L2 g eq_refl) as [G1 G2]. now repeat split.
Qed.
Notation sup := (size_up h_circular h_annulus r_conduction eff_u eff_c brentq solver interp field_response dlg st).
Lemma size_up_moved m s : of_field s -> sup m (P s) = rmap P (sup m s) /\ (forall s', sup m s = Ok s' -> of_field s').
Proof.
  intro K. unfold size_up. destruct (compute_g_functions_moved s K) as [E1 K1]. rewrite E1.
  destruct (compute_g_functions field_response st s) as [s1|]; cbn [rmap bind]; [|split; [reflexivity|discriminate]].
  destruct (ghe_size_moved m s1 (K1 s1 eq_refl)) as [E2 K2]. rewrite E2.
  destruct (gsize m s1) as (s2, [[]|]); cbn [both fst snd bind rmap] in *; split; try reflexivity; try discriminate.
  intros s' E. apply Ok_inj in E. now subst.
Qed.
Lemma export_moved x y s : of_field s -> length (snd x) = length (snd y) ->
  oak_ridge_export interp st (Some x) (P s) = oak_ridge_export interp st (Some y) s.
Proof.
  intros (E1 & E2 & E3) L. destruct x as (kx, x), y as (ky, y). cbn [snd] in L. unfold oak_ridge_export. cbn [bind].
  assert (EX : export_pairs interp (gh_gf (P s)) (gh_B (P s)) (gh_H (P s)) (st_rb st) (fst (gh_sts (P s))) (snd (gh_sts (P s))) =
               export_pairs interp (gh_gf s) (gh_B s) (gh_H s) (st_rb st) (fst (gh_sts s)) (snd (gh_sts s))).
  { unfold export_pairs. change (gh_B (P s)) with B'. change (gh_H (P s)) with (gh_H s). change (gh_sts (P s)) with (gh_sts s).
    change (gh_gf (P s)) with (relocate B' c' (gh_gf s)). rewrite E1. pose proof (pydiv_moved (gh_H s)) as PD.
    destruct (pydiv B (gh_H s)) as [q|e] eqn:Q, (pydiv B' (gh_H s)) as [q'|e'] eqn:Q'; try contradiction; [|now subst].
    cbn [bind]. now rewrite (grab_moved (gh_gf s) (gh_H s) q q'). }
  rewrite EX. f_equal. extensionality pairs. unfold zlen. now rewrite L.
Qed.
End Moved.

Variable flow : flow_kind.
Variable V_flow : R.
Variable log_time : list R.
Notation rdy := (ready h_circular h_annulus r_conduction eff_u eff_c brentq solver field_response st flow V_flow log_time).
Notation sup := (size_up h_circular h_annulus r_conduction eff_u eff_c brentq solver interp field_response dlg st).
Variables c c' : list (R * R).
Hypothesis same : same_response field_response c c'.
Hypothesis Hrb : 0 < st_rb st.

Lemma spacings : (c = [] /\ c' = []) \/ exists B B', borehole_spacing (st_rb st) c = Ok B /\ borehole_spacing (st_rb st) c' = Ok B' /\ B <> 0 /\ B' <> 0.
Proof.
  assert (S : forall l, l <> [] -> exists B, borehole_spacing (st_rb st) l = Ok B /\ B <> 0).
  { intros l Hl. assert (EB : exists B, borehole_spacing (st_rb st) l = Ok B).
    { destruct l as [|p [|q l]]; [congruence|eexists; reflexivity|]. eexists. apply (proj2 (proj2 Properties_Utilities.C23_borehole_spacing)). }
    destruct EB as [B EB]. exists B. split; [exact EB|]. apply Rgt_not_eq. eapply (spacing_positive st); eauto. }
  destruct same as [L _]. destruct c as [|p l]; destruct c' as [|p' l']; try discriminate; [now left|].
  right. destruct (S (p :: l)) as (B & E & N); [discriminate|]. destruct (S (p' :: l')) as (B' & E' & N'); [discriminate|].
  now exists B, B'.
Qed.
Lemma make_ghe_moved B B' V H g : length (gf_locations g) = length c' ->
  make_ghe h_circular h_annulus r_conduction eff_u eff_c brentq solver st V B' H (relocate B' c' g) =
  rmap (moved B' c') (make_ghe h_circular h_annulus r_conduction eff_u eff_c brentq solver st V B H g) /\
  (forall s, make_ghe h_circular h_annulus r_conduction eff_u eff_c brentq solver st V B H g = Ok s -> gh_B s = B /\ gh_gf s = g).
Proof.
  intro L. unfold make_ghe. cbn [relocate gf_locations]. unfold zlen. rewrite <- L.
  destruct (ghe_flow _ _ _) as [fl|]; cbn [bind rmap]; [|split; [reflexivity|discriminate]].
  destruct (make_bhe _ _ _ _ _) as [b|]; cbn [bind rmap]; [|split; [reflexivity|discriminate]].
  destruct (compute_equivalent _ _ _ _ _ _) as [e|]; cbn [bind rmap]; [|split; [reflexivity|discriminate]].
  destruct (short_time _ _ _ _ _) as [r|]; cbn [bind rmap]; [|split; [reflexivity|discriminate]].
  destruct (split_heat_and_cool _ _) as [hl|]; cbn [bind rmap]; [|split; [reflexivity|discriminate]].
  destruct (hybrid_load _ _ _ _ _ _ _ _) as [lh|]; cbn [bind rmap]; [|split; [reflexivity|discriminate]].
  split; [reflexivity|]. intros s E. apply Ok_inj in E. now subst.
Qed.
Lemma ready_moved H : (c = [] /\ c' = []) \/ exists B B', borehole_spacing (st_rb st) c = Ok B /\ borehole_spacing (st_rb st) c' = Ok B' /\ B <> 0 /\ B' <> 0 /\
  rdy c' H = rmap (moved B' c') (rdy c H) /\ forall s, rdy c H = Ok s -> of_field c B s.
Proof.
  destruct spacings as [[-> ->]|(B & B' & EB & EB' & N & N')]; [now left|right]. exists B, B'. split; [exact EB|]. split; [exact EB'|]. split; [exact N|]. split; [exact N'|].
  unfold ready, System.initialize_ghe. unfold zlen. rewrite <- (proj1 same). destruct (retrieve_flow _ _ _ _) as [fl|]; [|split; [reflexivity|discriminate]].
  cbn [bind]. rewrite EB, EB'. cbn [bind].
  destruct (live_relocate B B' c' (field_response (snd fl) c) (field_response (snd fl) c') (proj2 same (snd fl)) [H] [st_rb st] [st_D st] log_time c) as [L1 L2].
  rewrite L1. clear L1. destruct (compute_live_g_function _ _ _ _ _ _ _) as [g|]; cbn [rmap bind]; [|split; [reflexivity|discriminate]].
  destruct (L2 g eq_refl) as [G1 G2].
  destruct (make_ghe_moved B B' (fst fl) H g) as [M1 M2]; [rewrite G2; exact (proj1 same)|]. split; [exact M1|].
  intros s E. destruct (M2 s E) as [S1 S2]. unfold of_field. rewrite S2. now repeat split.
Qed.

Variable m : method.
Lemma excess_moved H :
  excess_of h_circular h_annulus r_conduction eff_u eff_c brentq solver interp field_response st m flow V_flow log_time c' H =
  excess_of h_circular h_annulus r_conduction eff_u eff_c brentq solver interp field_response st m flow V_flow log_time c H.
Proof.
  unfold excess_of, System.calculate_excess. fold (rdy c' H). fold (rdy c H).
  destruct (ready_moved H) as [[-> ->]|(B & B' & _ & _ & N & N' & E & K)]; [reflexivity|]. rewrite E, rmap_bind.
  destruct (rdy c H) as [s|]; [|reflexivity]. cbn [bind]. now rewrite (proj1 (ghe_simulate_moved c c' B B' N N' m s (K s eq_refl))).
Qed.
Lemma can_build_moved H :
  can_build h_circular h_annulus r_conduction eff_u eff_c brentq solver field_response st flow V_flow log_time c' H =
  can_build h_circular h_annulus r_conduction eff_u eff_c brentq solver field_response st flow V_flow log_time c H.
Proof.
  unfold can_build. fold (rdy c' H). fold (rdy c H).
  destruct (ready_moved H) as [[-> ->]|(B & B' & _ & _ & N & N' & E & K)]; [reflexivity|]. now rewrite E, rmap_bind.
Qed.
Lemma sized_height_moved :
  sized_height h_circular h_annulus r_conduction eff_u eff_c brentq solver interp field_response dlg st flow V_flow log_time c' =
  sized_height h_circular h_annulus r_conduction eff_u eff_c brentq solver interp field_response dlg st flow V_flow log_time c.
Proof.
  unfold sized_height. fold (rdy c' (st_max_H st)). fold (rdy c (st_max_H st)).
  destruct (ready_moved (st_max_H st)) as [[-> ->]|(B & B' & _ & _ & N & N' & E & K)]; [reflexivity|]. rewrite E, rmap_bind.
  destruct (rdy c (st_max_H st)) as [s|]; [|reflexivity]. cbn [bind].
  rewrite (proj1 (size_up_moved c c' B B' same N N' m_hybrid s (K s eq_refl))), rmap_bind. reflexivity.
Qed.
(** heat exchanger, sizing and export *)
Lemma ready_size_moved H :
  (let! s := rdy c' H in sup m s) =
  match borehole_spacing (st_rb st) c' with
  | Ok B' => rmap (moved B' c') (let! s := rdy c H in sup m s)
  | Err e => let! s := rdy c H in sup m s
  end.
Proof.
  destruct (ready_moved H) as [[-> ->]|(B & B' & _ & EB' & N & N' & E & K)].
  - reflexivity.
  - rewrite EB', E, rmap_bind, bind_rmap. destruct (rdy c H) as [s|]; [|reflexivity]. cbn [bind].
    exact (proj1 (size_up_moved c c' B B' same N N' m s (K s eq_refl))).
Qed.
End Place.
