(** Property C130: a heat exchanger with g-functions that the user supplies (a file, or computed before) *)
From Coq Require Import ZArith QArith List Bool Reals Lra Lia.
From Verif Require Import Base Num BaseLemmas Spec Utilities Loads LoadsSpec LoadsProofs LoadsSim LoadsHybrid Properties_Loads Ghe GheSpec GheProofs GFun GFunSpec GFunProofs
  Radial RadialSpec RadialGrid RadialProofs Properties_Radial Bhe Equiv EquivSpec EquivProofs Properties_Equiv Export System SystemSpec SystemProofs Properties_Ghe Properties_GFun Properties_System
  Library LibraryProofs.
Import ListNotations.
Open Scope R_scope.

Section World.
Variable h_circular : R -> R -> R -> R -> R -> R -> R -> R.
Variable h_annulus : R -> R -> R -> R -> R -> R -> R -> R -> R * R.
Variable r_conduction : R -> R -> R -> R.
Variable eff_u : R -> pg_u -> R -> R -> R.
Variable eff_c : R -> pg_c -> R -> R -> R.
Variable brentq : (R -> res R) -> R -> R -> list R * res R.
Variable solver : list R -> list R -> list R -> list R -> list R.
Variable interp : ikind -> list (R * R) -> R -> R.
Variable first_response field_response : R -> list (R * R) -> R -> R -> R -> res (list R).
Variable st : settings.
Let sim_once m := ghe_simulate h_circular h_annulus r_conduction eff_u eff_c brentq solver interp st m.
Let sized dialogue m := ghe_size h_circular h_annulus r_conduction eff_u eff_c brentq solver interp st dialogue m.
Let scratch m := from_scratch h_circular h_annulus r_conduction eff_u eff_c brentq solver interp st m.
(** the long-term g-function, radius and depth that the exchanger uses at height h (C94_simulation) *)
Let read s h := snd (g_function_interpolation interp (gh_gf s) (gh_B s / h) k_default).

Lemma scaled s h : 0 < gh_B s -> 0 < h -> gf_B (gh_gf s) / (gh_B s / h) = h * gf_B (gh_gf s) / gh_B s /\ gh_B s / h <> 0.
Proof. intros HB Hh. split; [field; lra|]. apply Rgt_not_eq, Rdiv_lt_0_compat; lra. Qed.

(** two or more curves: the one used is interpolated at the height multiplied by the stored spacing over the given one, up to 2e-6 m *)
Theorem C130_curve_used :
  forall s h, gf_table (gh_gf s) = t_empty -> (2 <= length (gf_curves (gh_gf s)))%nat -> full_curves (gh_gf s) -> 0 < gh_B s -> 0 < h ->
  between (gh_gf s) (h * gf_B (gh_gf s) / gh_B s) ->
  exists k h', kind_for k_default (length (gf_curves (gh_gf s))) k /\ Rabs (h' - h * gf_B (gh_gf s) / gh_B s) < 2 * / 1000000 /\
  read s h = Ok (interpolated interp (gh_gf s) k h').
Proof.
  intros s h Ht Hn Hf HB Hh Hb. destruct (scaled s h HB Hh) as (E & Z). rewrite <- E in *.
  assert (Hne : gf_curves (gh_gf s) <> []) by (destruct (gf_curves (gh_gf s)); [cbn in Hn; lia|discriminate]).
  destruct (extremes _ Hne) as (mx & mn & _ & _ & M1 & M2). apply (between_extremes _ _ mn mx M2 M1) in Hb.
  destruct (clamped _ _ mn mx Z M2 M1 Hb) as (h' & Eh & Hin & Hc & _).
  destruct (effective_kind_for k_default (length (gf_curves (gh_gf s))) Hn ltac:(discriminate)) as (k & Ek & Kf).
  destruct (interpolation_by_table interp (gh_gf s) _ k_default h' false k Hn Eh Ek Hf) as (F1 & _).
  exists k, h'. split; [exact Kf|]. split; [exact Hc|]. unfold read. rewrite (F1 Ht). cbn [snd].
  apply read_ok; [exact Hf|left]. now apply (between_extremes _ _ mn mx M2 M1).
Qed.
(** with its own spacing and at a stored height it is the stored curve *)
Theorem C130_stored_curve :
  forall s h c, passes_through interp -> gf_table (gh_gf s) = t_empty -> (2 <= length (gf_curves (gh_gf s)))%nat ->
  (forall c, In c (gf_curves (gh_gf s)) -> length (cv_g (snd c)) = length (gf_log_time (gh_gf s))) ->
  NoDup (heights (gh_gf s)) -> (forall a b, In a (heights (gh_gf s)) -> In b (heights (gh_gf s)) -> a <> b -> / 1000000 <= Rabs (a - b)) ->
  0 < gh_B s -> gh_B s = gf_B (gh_gf s) -> 0 < h -> In (h, c) (gf_curves (gh_gf s)) ->
  read s h = Ok (cv_g c, cv_rb c, Some (cv_D c), h).
Proof.
  intros s h c Pi Ht Hn Hl Nd Ap HB Own Hh Hin.
  assert (Hf : full_curves (gh_gf s)) by (intros c' Hc'; rewrite (Hl c' Hc'); lia).
  assert (Hsc : gf_B (gh_gf s) / (gh_B s / h) = h) by (rewrite <- Own; field; lra).
  assert (Z : gh_B s / h <> 0) by (apply Rgt_not_eq, Rdiv_lt_0_compat; lra).
  assert (Hne : gf_curves (gh_gf s) <> []) by (destruct (gf_curves (gh_gf s)); [cbn in Hn; lia|discriminate]).
  destruct (extremes _ Hne) as (mx & mn & _ & _ & M1 & M2).
  assert (Hh1 : In h (heights (gh_gf s))) by (apply in_map_iff; exists (h, c); auto).
  assert (Hb : mn <= h <= mx) by (split; [now apply M2|now apply M1]).
  destruct (equivalent_height_ok (gh_gf s) (gh_B s / h) mn mx Z M2 M1) as (h' & e & Eh & P1 & P2 & P3 & P4 & _).
  rewrite Hsc in P1, P2, P3.
  assert (Hh' : h' = h).
  { destruct (Rlt_le_dec (Rabs (h - mx)) (/ 1000000)) as [Lx|Lx].
    - destruct (Req_dec h mx) as [-> |N]; [|specialize (Ap h mx Hh1 (proj1 M1) N); lra].
      destruct (P2 Lx) as [-> |(X & ->)]; [reflexivity|]. destruct (Req_dec mx mn) as [-> |N]; [reflexivity|]. specialize (Ap mx mn (proj1 M1) (proj1 M2) N). lra.
    - destruct (Rlt_le_dec (Rabs (h - mn)) (/ 1000000)) as [Ln|Ln]; [|now apply P3].
      destruct (Req_dec h mn) as [-> |N]; [|specialize (Ap h mn Hh1 (proj1 M2) N); lra]. destruct (P1 Ln) as [X| ->]; [lra|reflexivity]. }
  subst h'. assert (e = false) as -> by (apply P4; exact Hb).
  destruct (effective_kind_for k_default (length (gf_curves (gh_gf s))) Hn ltac:(discriminate)) as (k & Ek & _).
  destruct (interpolation_by_table interp (gh_gf s) _ k_default h false k Hn Eh Ek Hf) as (F1 & _).
  unfold read. rewrite (F1 Ht). cbn [snd]. rewrite read_ok by (auto; left; now apply (between_extremes _ _ mn mx M2 M1)).
  assert (Pt : forall f : R * curve -> R, interp k (map (fun c => (fst c, f c)) (gf_curves (gh_gf s))) h = f (h, c)).
  { intro f. apply Pi; [rewrite map_map; exact Nd|]. apply in_map_iff. exists (h, c). auto. }
  unfold interpolated. rewrite (Pt (fun c => cv_rb (snd c))), (Pt (fun c => cv_D (snd c))). cbn [snd].
  do 2 f_equal. f_equal. f_equal.
  rewrite <- (Hl _ Hin). cbn [snd].
  rewrite (map_ext _ (fun i => nth i (cv_g c) 0)) by (intro i; rewrite (Pt (fun c => nth i (cv_g (snd c)) 0)); reflexivity).
  symmetry. apply list_seq.
Qed.

(** sizing on curves that reach over both limits: every simulation is as on an object without history, and so is the object it leaves *)
Lemma sizing_accords dialogue m s0 (tables : table -> Prop) after (ok : R -> Prop) : tables (gf_table (gh_gf s0)) -> tables after -> (forall h, ok h -> 0 < h) ->
  (forall t h, tables t -> ok h -> g_function_interpolation interp (with_table (gh_gf s0) t) (gh_B s0 / h) k_default = (after, read s0 h)) ->
  st_min_H st <= st_max_H st -> (forall h, st_min_H st <= h <= st_max_H st -> ok h) -> (forall lo up, asks_within lo up (dialogue lo up)) ->
  snd (sized dialogue m s0) =
    snd (size (fun f lo up => listen f (dialogue lo up)) (scratch m s0) (st_max_H st) (st_min_H st) {| sz_height := gh_H s0; sz_result := None |}) /\
  forall s', sized dialogue m s0 = (s', Ok tt) ->
  st_min_H st <= gh_H s' <= st_max_H st /\ s' = fst (sim_once m (with_H s0 (gh_H s'))) /\
  exists x, snd (sim_once m (with_H s0 (gh_H s'))) = Ok x /\ snd (sim_once m s') = Ok x /\ gh_results (fst (sim_once m s')) = gh_results s'.
Proof.
  intros T0 T1 Op Hist Hl Cv Hd.
  destruct (size_accords h_circular h_annulus r_conduction eff_u eff_c brentq solver interp st m s0 tables after ok T0 T1 Op Hist (gh_results s0) dialogue s0
    (akin_refl h_circular h_annulus r_conduction eff_u eff_c s0 tables T0) eq_refl Hl Cv Hd) as (S1 & A & S2 & S3).
  fold (sized dialogue m) in *.
  change (fresh h_circular h_annulus r_conduction eff_u eff_c brentq solver interp st m s0) with (scratch m s0) in *.
  split; [exact S1|]. intros s' Es. rewrite Es in *. cbn [fst snd] in *.
  destruct (size (fun f lo up => listen f (dialogue lo up)) (scratch m s0) (st_max_H st) (st_min_H st) {| sz_height := gh_H s0; sz_result := None |}) as (z, r) eqn:Ez.
  cbn [fst snd] in *. subst r.
  assert (Hin : st_min_H st <= sz_height z <= st_max_H st).
  { apply (C53_height_within_limits (fun f lo up => listen f (dialogue lo up)) (scratch m s0) _ _ _ z (Ok tt)) in Ez; [exact Ez| |lra].
    intros f l u p Hp. eapply listen_within; [apply Hd|exact Hp]. }
  destruct (C53_results_of_final_height (fun f lo up => listen f (dialogue lo up)) (scratch m s0) (st_max_H st) (st_min_H st) {| sz_height := gh_H s0; sz_result := None |} z) with (2 := Ez) as (T & c & Ef & Er).
  { intros f l u (x & Hx) p Hp. eapply listen_ok; eassumption. }
  rewrite Er in S3. destruct S3 as (_ & S5 & S3 & S4). specialize (S5 eq_refl). rewrite <- S2 in *.
  split; [exact Hin|]. unfold scratch, from_scratch in Ef.
  destruct (simulate_akin h_circular h_annulus r_conduction eff_u eff_c brentq solver interp st m s0 tables after ok T0 T1 Op Hist s' (gh_H s') A
    (Cv _ Hin)) as (P1 & _ & _ & P4 & _).
  replace (with_H s' (gh_H s')) with s' in * by (destruct s'; reflexivity). fold (sim_once m) in P1, P4, S3, S5, Ef. split; [exact S5|].
  destruct (sim_once m (with_H s0 (gh_H s'))) as (s1, [x|e]) eqn:E1; [|discriminate]. cbn [fst snd] in *.
  exists x. split; [reflexivity|]. split; [exact P1|]. rewrite S3. now rewrite (P4 x eq_refl).
Qed.
Theorem C130_sizing :
  forall dialogue m s0, gf_table (gh_gf s0) = t_empty -> (2 <= length (gf_curves (gh_gf s0)))%nat -> full_curves (gh_gf s0) -> 0 < gh_B s0 ->
  0 < st_min_H st <= st_max_H st -> (forall h, st_min_H st <= h <= st_max_H st -> between (gh_gf s0) (h * gf_B (gh_gf s0) / gh_B s0)) ->
  (forall lo up, asks_within lo up (dialogue lo up)) ->
  snd (sized dialogue m s0) =
    snd (size (fun f lo up => listen f (dialogue lo up)) (scratch m s0) (st_max_H st) (st_min_H st) {| sz_height := gh_H s0; sz_result := None |}) /\
  forall s', sized dialogue m s0 = (s', Ok tt) ->
  st_min_H st <= gh_H s' <= st_max_H st /\ s' = fst (sim_once m (with_H s0 (gh_H s'))) /\
  exists x, snd (sim_once m (with_H s0 (gh_H s'))) = Ok x /\ snd (sim_once m s') = Ok x /\ gh_results (fst (sim_once m s')) = gh_results s'.
Proof.
  intros dialogue m s0 Ht Hn Hf HB Hl Cv Hd.
  destruct (effective_kind_for k_default (length (gf_curves (gh_gf s0))) Hn ltac:(discriminate)) as (k & Ek & _).
  apply (sizing_accords dialogue m s0 (fun t => t = t_empty \/ t = t_built k false) (t_built k false) (fun h => st_min_H st <= h <= st_max_H st)); auto; try lra.
  - intros h Hh. lra.
  - intros t h Htt Hh. assert (Hp : 0 < h) by lra. destruct (scaled s0 h HB Hp) as (E & Z). specialize (Cv h Hh). rewrite <- E in Cv.
    assert (Hne : gf_curves (gh_gf s0) <> []) by (destruct (gf_curves (gh_gf s0)); [cbn in Hn; lia|discriminate]).
    destruct (extremes _ Hne) as (mx & mn & _ & _ & M1 & M2). apply (between_extremes _ _ mn mx M2 M1) in Cv.
    destruct (clamped _ _ mn mx Z M2 M1 Cv) as (h' & Eh & _).
    unfold read. rewrite (proj1 (interpolation_by_table interp (gh_gf s0) _ k_default h' false k Hn Eh Ek Hf) Ht). cbn [snd].
    destruct (interpolation_by_table interp (with_table (gh_gf s0) t) (gh_B s0 / h) k_default h' false k Hn Eh Ek Hf) as (G1 & G2).
    destruct Htt as [-> | ->]; [rewrite G1 by reflexivity|rewrite (G2 k false) by reflexivity]; reflexivity.
Qed.

(** one stored curve: it is used for every height *)
Theorem C130_one_curve :
  forall dialogue m s0 h0 c, gf_curves (gh_gf s0) = [(h0, c)] -> 0 < h0 -> 0 < gh_B s0 -> 0 < st_min_H st <= st_max_H st ->
  (forall lo up, asks_within lo up (dialogue lo up)) ->
  (forall h, 0 < h -> exists h', read s0 h = Ok (cv_g c, cv_rb c, Some (cv_D c), h')) /\
  snd (sized dialogue m s0) =
    snd (size (fun f lo up => listen f (dialogue lo up)) (scratch m s0) (st_max_H st) (st_min_H st) {| sz_height := gh_H s0; sz_result := None |}) /\
  forall s', sized dialogue m s0 = (s', Ok tt) ->
  st_min_H st <= gh_H s' <= st_max_H st /\ s' = fst (sim_once m (with_H s0 (gh_H s'))) /\
  exists x, snd (sim_once m (with_H s0 (gh_H s'))) = Ok x /\ snd (sim_once m s') = Ok x /\ gh_results (fst (sim_once m s')) = gh_results s'.
Proof.
  intros dialogue m s0 h0 c Ec Hh0 HB Hl Hd. split.
  - intros h Hh. destruct (scaled s0 h HB Hh) as (E & Z). destruct (C56_any_height_answered interp (gh_gf s0) h0 c (gh_B s0 / h) Ec Hh0 Z) as (h' & X & _). now exists h'.
  - apply (sizing_accords dialogue m s0 (fun t => t = gf_table (gh_gf s0)) (gf_table (gh_gf s0)) (fun h => 0 < h)); auto; try lra.
    + intros t h -> Hh. unfold read. rewrite own_table. unfold g_function_interpolation. destruct (scaled s0 h HB Hh) as (E & Z).
      assert (M1 : lowest (gh_gf s0) h0) by (split; unfold heights; rewrite Ec; cbn; [auto|intros x [<-|[]]; lra]).
      assert (M2 : highest (gh_gf s0) h0) by (split; unfold heights; rewrite Ec; cbn; [auto|intros x [<-|[]]; lra]).
      destruct (equivalent_height_ok (gh_gf s0) (gh_B s0 / h) h0 h0 Z M1 M2) as (h' & e & Eh & _). rewrite Eh, Ec. reflexivity.
    + intros h Hh. lra.
Qed.

(** curves that begin in time but end too early: sizing never succeeds, because the interpolants are made at the minimum height, without
    extrapolation, and are asked at the maximum height next *)
Lemma objective_at m s h s1 y : local_objective h_circular h_annulus r_conduction eff_u eff_c brentq solver interp st m s h = (s1, Ok y) ->
  exists v, snd (g_function_interpolation interp (gh_gf s) (gh_B s / h) k_default) = Ok v /\
  gh_gf s1 = with_table (gh_gf s) (fst (g_function_interpolation interp (gh_gf s) (gh_B s / h) k_default)) /\ gh_B s1 = gh_B s.
Proof.
  unfold local_objective, ghe_simulate. cbn [with_H gh_H gh_B gh_bhe]. destruct (Req_dec h 0) as [-> |Z0]; [rewrite pydiv_R0; intro E; discriminate E|]. rewrite pydiv_R by assumption.
  set (b := update_bhe _ _ _ _ _ _ _). cbn [with_bhe gh_bhe].
  destruct (compute_equivalent _ _ _ _ _ _) as [e|]; [|intro E; discriminate E]. destruct (short_time _ _ _ _ _) as [r|]; [|intro E; discriminate E].
  set (s2 := with_short_time (with_eq (with_bhe (with_H s h) b) e) r).
  change (gh_gf s2) with (gh_gf s).
  unfold grab_g_function. destruct (g_function_interpolation interp (gh_gf s) (gh_B s / h) k_default) as (t, v). cbn [fst snd].
  destruct v as [v|e']; [|intro E; discriminate E]. exists v. split; [reflexivity|].
  destruct (let! v0 := Ok v in _) as [cc|e']; [|discriminate H].
  destruct (simulate _ _ _ _ _ _ _ _ _ _ _ _ _ _) as [[[[T D'] mx] mn]|e']; [|discriminate H].
  assert (X : s1 = with_results (with_gf s2 (with_table (gh_gf s) t)) (T, D')) by congruence. subst s1. split; reflexivity.
Qed.
Theorem C130_short_library_fails :
  forall dialogue m s0 mn mx, gf_table (gh_gf s0) = t_empty -> (2 <= length (gf_curves (gh_gf s0)))%nat -> full_curves (gh_gf s0) -> 0 < gh_B s0 ->
  0 < st_min_H st <= st_max_H st -> lowest (gh_gf s0) mn -> highest (gh_gf s0) mx ->
  let equivalent h := h * gf_B (gh_gf s0) / gh_B s0 in
  mn - / 1000 < equivalent (st_min_H st) <= mx -> mx + / 1000000 <= equivalent (st_max_H st) ->
  (exists e, snd (sized dialogue m s0) = Err e) /\
  (/ 1000 <= equivalent (st_max_H st) - mn -> exists k, read s0 (st_max_H st) = Ok (interpolated interp (gh_gf s0) k (equivalent (st_max_H st)))).
Proof.
  intros dialogue m s0 mn mx Ht Hn Hf HB Hl Mn Mx equivalent Lo Hi.
  destruct (scaled s0 (st_min_H st) HB ltac:(lra)) as (E1 & Z1). destruct (scaled s0 (st_max_H st) HB ltac:(lra)) as (E2 & Z2).
  assert (Hmm : mn <= mx) by (apply Mn, Mx).
  destruct (equivalent_height_ok _ _ mn mx Z1 Mn Mx) as (a & ea & Ea & A1 & A2 & A3 & A4 & A5 & A6 & _).
  destruct (equivalent_height_ok _ _ mn mx Z2 Mn Mx) as (b & eb & Eb & B1 & B2 & B3 & B4 & B5 & _).
  rewrite E1 in A1, A2, A3. rewrite E2 in B1, B2, B3. fold (equivalent (st_min_H st)) in *. fold (equivalent (st_max_H st)) in *.
  assert (Hb : b = equivalent (st_max_H st)) by (apply B3; rewrite Rabs_right; lra). subst b.
  assert (Hea : ea = false).
  { destruct (Rlt_le_dec (Rabs (equivalent (st_min_H st) - mx)) (/ 1000000)) as [X|X].
    - apply A4. destruct (A2 X) as [-> |(_ & ->)]; lra.
    - destruct (Rlt_le_dec (Rabs (equivalent (st_min_H st) - mn)) (/ 1000000)) as [Y|Y].
      + apply A4. destruct (A1 Y) as [W| ->]; lra.
      + specialize (A3 Y X). subst a. destruct (Rle_or_lt mn (equivalent (st_min_H st))); [apply A4|apply A6]; lra. }
  subst ea.
  destruct (effective_kind_for k_default (length (gf_curves (gh_gf s0))) Hn ltac:(discriminate)) as (k & Ek & Kf).
  assert (Nl : k <> k_lagrange).
  { intros ->. cbn in Kf. destruct Kf as (Ka & Kb & Kc). destruct (Nat.le_gt_cases 5 (length (gf_curves (gh_gf s0)))) as [L|L]; [now specialize (Ka L)|].
    destruct (Nat.le_gt_cases 3 (length (gf_curves (gh_gf s0)))) as [L'|L']; [assert (X := Kb ltac:(lia)); discriminate X|assert (X := Kc ltac:(lia)); discriminate X]. }
  split.
  - unfold sized, ghe_size. destruct (pydiv _ _) as [guess|e]; [|cbn; eauto].
    destruct (local_objective _ _ _ _ _ _ _ _ _ _ (with_H s0 guess) _) as (s1, [y|e]) eqn:O1; [|cbn; eauto].
    destruct (objective_at _ _ _ _ _ O1) as (v & _ & G1 & G2). cbn [with_H gh_gf gh_B] in G1, G2.
    destruct (interpolation_by_table interp (gh_gf s0) _ k_default a false k Hn Ea Ek Hf) as (F1 & _). rewrite (F1 Ht) in G1. cbn [fst] in G1.
    destruct (local_objective _ _ _ _ _ _ _ _ _ _ s1 _) as (s2, [y2|e]) eqn:O2; [|cbn; eauto]. exfalso.
    destruct (objective_at _ _ _ _ _ O2) as (w & W & _). rewrite G1, G2 in W.
    destruct (interpolation_by_table interp (with_table (gh_gf s0) (t_built k false)) _ k_default (equivalent (st_max_H st)) eb k Hn Eb Ek Hf) as (_ & F2).
    rewrite (F2 k false eq_refl) in W. cbn [snd] in W. unfold read_table, call_interp in W. cbn [with_table gf_curves] in W.
    assert (EH : map fst (map (fun c => (fst c, cv_rb (snd c))) (gf_curves (gh_gf s0))) = heights (gh_gf s0)) by (rewrite map_map; reflexivity).
    rewrite EH in W.
    assert (Hne : gf_curves (gh_gf s0) <> []) by (destruct (gf_curves (gh_gf s0)); [cbn in Hn; lia|discriminate]).
    destruct (extremes _ Hne) as (mx' & mn' & X1 & X2 & M1 & M2). rewrite X1, X2 in W. cbn [bind] in W.
    assert (mx' = mx) as -> by (eapply highest_unique; eassumption).
    assert (A : nle (equivalent (st_max_H st)) mx = false) by (apply nle_R_false; lra). rewrite A, andb_false_r in W.
    destruct k; try congruence; discriminate W.
  - intro Hd. exists k. unfold read. destruct (interpolation_by_table interp (gh_gf s0) _ k_default _ eb k Hn Eb Ek Hf) as (F1 & _). rewrite (F1 Ht). cbn [snd].
    apply read_ok; [exact Hf|right]. apply B5; lra.
Qed.

(** curves that begin too late: the first request, at the minimum height, makes interpolants that extrapolate for good, and every later height is
    answered, also above the stored heights *)
Definition extrapolating k s := with_gf s (with_table (gh_gf s) (t_built k true)).
Lemma extrapolating_read k s h : full_curves (gh_gf s) -> (2 <= length (gf_curves (gh_gf s)))%nat -> effective_kind k_default (Z.of_nat (length (gf_curves (gh_gf s)))) = Ok k ->
  0 < gh_B s -> 0 < h -> exists h', equivalent_height (gh_gf s) (gh_B s / h) = Ok h' /\ Rabs (fst h' - h * gf_B (gh_gf s) / gh_B s) < 2 * / 1000000 /\
  forall t, (t = t_built k true \/ t = t_empty /\ snd h' = true) ->
  g_function_interpolation interp (with_table (gh_gf s) t) (gh_B s / h) k_default = (t_built k true, Ok (interpolated interp (gh_gf s) k (fst h'))).
Proof.
  intros Hf Hn Ek HB Hh. destruct (scaled s h HB Hh) as (E & Z).
  assert (Hne : gf_curves (gh_gf s) <> []) by (destruct (gf_curves (gh_gf s)); [cbn in Hn; lia|discriminate]).
  destruct (extremes _ Hne) as (mx & mn & _ & _ & M1 & M2).
  destruct (equivalent_height_ok _ _ mn mx Z M2 M1) as (h' & e & Eh & P1 & P2 & P3 & _). rewrite E in P1, P2, P3.
  exists (h', e). split; [exact Eh|]. cbn [fst snd]. set (q := h * gf_B (gh_gf s) / gh_B s) in *. split.
  - destruct (Rlt_le_dec (Rabs (q - mx)) (/ 1000000)) as [X|X].
    + destruct (P2 X) as [-> |(W & ->)]; revert X; try revert W; unfold Rabs; repeat destruct (Rcase_abs _); lra.
    + destruct (Rlt_le_dec (Rabs (q - mn)) (/ 1000000)) as [Y|Y].
      * destruct (P1 Y) as [W| ->]; [lra|]. revert Y. unfold Rabs. repeat destruct (Rcase_abs _); lra.
      * rewrite (P3 Y X). replace (q - q) with 0 by ring. rewrite Rabs_R0. lra.
  - intros t Htt. destruct (interpolation_by_table interp (with_table (gh_gf s) t) (gh_B s / h) k_default h' e k Hn Eh Ek Hf) as (F1 & F2).
    destruct Htt as [-> |(-> & ->)]; [rewrite (F2 k true eq_refl)|rewrite (F1 eq_refl)]; f_equal;
      change (read_table interp (with_table (gh_gf s) ?t)) with (read_table interp (gh_gf s)); apply read_ok; auto.
Qed.
Lemma simulate_extrapolating m k s0 h : gf_table (gh_gf s0) = t_empty -> full_curves (gh_gf s0) -> (2 <= length (gf_curves (gh_gf s0)))%nat ->
  effective_kind k_default (Z.of_nat (length (gf_curves (gh_gf s0)))) = Ok k -> 0 < gh_B s0 -> 0 < h ->
  (forall h', equivalent_height (gh_gf s0) (gh_B s0 / h) = Ok h' -> snd h' = true) ->
  sim_once m (with_H s0 h) = sim_once m (with_H (extrapolating k s0) h) \/
  exists e, snd (sim_once m (with_H s0 h)) = Err e /\ snd (sim_once m (with_H (extrapolating k s0) h)) = Err e.
Proof.
  intros Ht Hf Hn Ek HB Hh Hx. destruct (extrapolating_read k s0 h Hf Hn Ek HB Hh) as (h' & Eh & _ & F). specialize (Hx _ Eh).
  assert (F0 := F t_empty ltac:(auto)). rewrite <- (with_table_same _ Ht) in F0. specialize (F (t_built k true) ltac:(auto)).
  unfold sim_once, ghe_simulate. cbn [with_H gh_H gh_B gh_bhe extrapolating with_gf].
  destruct (pydiv (gh_B s0) h) as [q|e] eqn:Eq; [|right; exists e; auto]. rewrite pydiv_R in Eq by lra. assert (q = gh_B s0 / h) as -> by congruence.
  set (b := update_bhe _ _ _ _ _ _ _).
  cbn [with_bhe gh_bhe with_H with_gf].
  destruct (compute_equivalent _ _ _ _ _ _) as [e|e]; [|right; exists e; auto]. destruct (short_time _ _ _ _ _) as [r|e']; [|right; exists e'; auto].
  left. unfold grab_g_function. cbn [with_short_time with_eq with_bhe with_H with_gf gh_gf gh_sts].
  change (gh_gf (extrapolating k s0)) with (with_table (gh_gf s0) (t_built k true)). rewrite F0, F. reflexivity.
Qed.
Theorem C130_late_library_answered :
  forall dialogue m s0 mn, gf_table (gh_gf s0) = t_empty -> (2 <= length (gf_curves (gh_gf s0)))%nat -> full_curves (gh_gf s0) -> 0 < gh_B s0 ->
  0 < st_min_H st <= st_max_H st -> lowest (gh_gf s0) mn -> st_min_H st * gf_B (gh_gf s0) / gh_B s0 <= mn - / 1000 ->
  (forall lo up, asks_within lo up (dialogue lo up)) ->
  exists k, kind_for k_default (length (gf_curves (gh_gf s0))) k /\
  (forall h, 0 < h -> exists h', Rabs (h' - h * gf_B (gh_gf s0) / gh_B s0) < 2 * / 1000000 /\
     read (extrapolating k s0) h = Ok (interpolated interp (gh_gf s0) k h')) /\
  snd (sized dialogue m s0) =
    snd (size (fun f lo up => listen f (dialogue lo up)) (scratch m (extrapolating k s0)) (st_max_H st) (st_min_H st) {| sz_height := gh_H s0; sz_result := None |}) /\
  forall s', sized dialogue m s0 = (s', Ok tt) ->
  st_min_H st <= gh_H s' <= st_max_H st /\ s' = fst (sim_once m (with_H (extrapolating k s0) (gh_H s'))) /\
  exists x, snd (sim_once m (with_H (extrapolating k s0) (gh_H s'))) = Ok x /\ snd (sim_once m s') = Ok x /\ gh_results (fst (sim_once m s')) = gh_results s'.
Proof.
  intros dialogue m s0 mn Ht Hn Hf HB Hl Mn Lo Hd.
  destruct (effective_kind_for k_default (length (gf_curves (gh_gf s0))) Hn ltac:(discriminate)) as (k & Ek & Kf). exists k. split; [exact Kf|].
  assert (Rd : forall h, 0 < h -> exists h', Rabs (h' - h * gf_B (gh_gf s0) / gh_B s0) < 2 * / 1000000 /\
     g_function_interpolation interp (with_table (gh_gf s0) (t_built k true)) (gh_B s0 / h) k_default = (t_built k true, Ok (interpolated interp (gh_gf s0) k h'))).
  { intros h Hh. destruct (extrapolating_read k s0 h Hf Hn Ek HB Hh) as (h' & _ & A & F). exists (fst h'). split; [exact A|]. apply F. auto. }
  split.
  { intros h Hh. destruct (Rd h Hh) as (h' & A & F). exists h'. split; [exact A|]. unfold read. cbn [extrapolating with_gf gh_gf gh_B]. now rewrite F. }
  assert (Hx : forall h', equivalent_height (gh_gf s0) (gh_B s0 / st_min_H st) = Ok h' -> snd h' = true).
  { intros h' E'. destruct (scaled s0 (st_min_H st) HB ltac:(lra)) as (E1 & Z1).
    assert (Hne : gf_curves (gh_gf s0) <> []) by (destruct (gf_curves (gh_gf s0)); [cbn in Hn; lia|discriminate]).
    destruct (extremes _ Hne) as (mx & mn' & _ & _ & M1 & M2). assert (mn' = mn) as -> by (eapply lowest_unique; eassumption).
    assert (Hmm : mn <= mx) by (apply Mn, M1).
    destruct (equivalent_height_ok _ _ mn mx Z1 M2 M1) as (a & ea & Ea & _ & _ & A3 & _ & _ & _ & A7). rewrite E1 in A3.
    assert (h' = (a, ea)) as -> by congruence. cbn [snd]. apply A7. rewrite A3; [exact Lo| |]; rewrite Rabs_left; lra. }
  assert (Sz : sized dialogue m s0 = sized dialogue m (extrapolating k s0) \/
    exists e, snd (sized dialogue m s0) = Err e /\ snd (sized dialogue m (extrapolating k s0)) = Err e).
  { unfold sized, ghe_size. destruct (pydiv _ _) as [guess|e]; [|right; exists e; auto].
    assert (O : forall s, local_objective h_circular h_annulus r_conduction eff_u eff_c brentq solver interp st m (with_H s guess) (st_min_H st) =
      let (s, r) := sim_once m (with_H s (st_min_H st)) in (s, excess st r)) by reflexivity. rewrite !O.
    destruct (simulate_extrapolating m k s0 (st_min_H st) Ht Hf Hn Ek HB ltac:(lra) Hx) as [E|(e & A & B)].
    - left. rewrite E. reflexivity.
    - right. exists e. destruct (sim_once m (with_H s0 _)) as (s1, r1). destruct (sim_once m (with_H (extrapolating k s0) _)) as (s2, r2).
      cbn [snd] in A, B. subst r1 r2. cbn. auto. }
  destruct (sizing_accords dialogue m (extrapolating k s0) (fun t => t = t_built k true) (t_built k true) (fun h => 0 < h)) as (S1 & S2); auto; try lra.
  - intros t h -> Hh. unfold read. cbn [extrapolating with_gf gh_gf gh_B]. change (with_table (with_table ?g ?t) ?u) with (with_table g u).
    destruct (Rd h Hh) as (h' & _ & F). now rewrite F.
  - intros h Hh. lra.
  - change (gh_H (extrapolating k s0)) with (gh_H s0) in S1. destruct Sz as [E|(e & A & B)].
    + rewrite E. split; [exact S1|exact S2].
    + split; [congruence|]. intros s' Es. rewrite Es in A. discriminate A.
Qed.

(** *** the scripts *)
Lemma made_fields V B H gf s : make_ghe h_circular h_annulus r_conduction eff_u eff_c brentq solver st V B H gf = Ok s -> gh_gf s = gf /\ gh_B s = B /\ gh_H s = H.
Proof.
  unfold make_ghe. intro E. repeat (apply bind_ok in E; destruct E as (? & _ & E)). apply Ok_inj in E. subst s. auto.
Qed.
Lemma two_heights gf lo up : lo < up -> (exists a b, In a (heights gf) /\ In b (heights gf) /\ a <= lo /\ up <= b) -> (2 <= length (gf_curves gf))%nat.
Proof.
  intros Hlu (a & b & Ha & Hb & X & Y). rewrite <- (map_length fst). fold (heights gf).
  destruct (heights gf) as [|x [|y l]]; [destruct Ha| |cbn; lia]. destruct Ha as [->|[]], Hb as [->|[]]. lra.
Qed.
(** an exchanger with curves of its own spacing, sized: the height is within the limits, and the object is what one simulation at that height leaves *)
Definition sized_with gf V B H dialogue s' : Prop :=
  exists s, make_ghe h_circular h_annulus r_conduction eff_u eff_c brentq solver st V B H gf = Ok s /\
  sized dialogue m_hybrid s = (s', Ok tt) /\ st_min_H st <= gh_H s' <= st_max_H st /\ s' = fst (sim_once m_hybrid (with_H s (gh_H s'))) /\
  exists x, snd (sim_once m_hybrid (with_H s (gh_H s'))) = Ok x /\ snd (sim_once m_hybrid s') = Ok x /\ gh_results (fst (sim_once m_hybrid s')) = gh_results s'.
Lemma script gf V B H dialogue s s' : gf_table gf = t_empty -> full_curves gf -> gf_B gf = B -> 0 < B -> 0 < st_min_H st < st_max_H st ->
  (exists a b, In a (heights gf) /\ In b (heights gf) /\ a <= st_min_H st /\ st_max_H st <= b) -> (forall lo up, asks_within lo up (dialogue lo up)) ->
  make_ghe h_circular h_annulus r_conduction eff_u eff_c brentq solver st V B H gf = Ok s ->
  size_default h_circular h_annulus r_conduction eff_u eff_c brentq solver interp dialogue st s = Ok s' -> sized_with gf V B H dialogue s'.
Proof.
  intros Ht Hf EB HB Hl Hab Hd Es Ez. destruct (made_fields V B H gf s Es) as (G1 & G2 & _).
  unfold size_default in Ez. fold (sized dialogue m_hybrid s) in Ez. destruct (sized dialogue m_hybrid s) as (s1, [[]|]) eqn:E1; [|discriminate]. apply Ok_inj in Ez. subst s1.
  exists s. split; [exact Es|]. split; [exact E1|].
  apply (C130_sizing dialogue m_hybrid s); rewrite ?G1, ?G2; auto; try lra.
  - eapply two_heights; [|exact Hab]. lra.
  - intros h Hh. rewrite EB. replace (h * B / B) with h by (field; lra). destruct Hab as (a & b & A & B' & X & Y). exists a, b. repeat split; auto; lra.
Qed.

(** the g-functions of a file: last_entry is the entry of a height that counts when the file has several *)
Theorem C130_file_script :
  forall dialogue data log_time locations kv0 rest V B H s', data = kv0 :: rest -> dk_B (fst kv0) = B -> 0 < B -> 0 < st_min_H st < st_max_H st ->
  (forall kv, In kv data -> length (snd kv) = length log_time) ->
  (exists a b, In a data /\ In b data /\ dk_H (fst a) <= st_min_H st /\ st_max_H st <= dk_H (fst b)) ->
  (forall lo up, asks_within lo up (dialogue lo up)) ->
  computed_g_function_sim_and_size h_circular h_annulus r_conduction eff_u eff_c brentq solver interp dialogue st data log_time locations V B H = Ok s' ->
  exists gf, configure data log_time locations = Ok gf /\ sized_with gf V B H dialogue s' /\
  (passes_through interp -> (forall a b, In a data -> In b data -> dk_H (fst a) <> dk_H (fst b) -> / 1000000 <= Rabs (dk_H (fst a) - dk_H (fst b))) ->
   forall s h kv, gh_gf s = gf -> gh_B s = B -> 0 < h -> last_entry data h = Some kv -> exists D, read s h = Ok (snd kv, dk_rb (fst kv), Some D, h)).
Proof.
  intros dialogue data lt loc kv0 rest V B H s' Ed EB HB Hl Len Hab Hd E.
  destruct (C60_database_partial data lt loc kv0 rest Ed) as (gf & Eg & G1 & G2 & G3 & G4 & Nd & Hh & Hc & _).
  exists gf. split; [exact Eg|].
  assert (Lg : forall c, In c (gf_curves gf) -> length (cv_g (snd c)) = length (gf_log_time gf)).
  { intros (h, c) Hin. destruct (Hc h c Hin) as (kv & L & X & _). cbn [snd]. rewrite X, G2. apply Len.
    unfold last_entry in L. apply find_some in L. destruct L as (L & _). now apply in_rev. }
  assert (Hab' : exists a b, In a (heights gf) /\ In b (heights gf) /\ a <= st_min_H st /\ st_max_H st <= b).
  { destruct Hab as (a & b & A & B' & X & Y). exists (dk_H (fst a)), (dk_H (fst b)). repeat split; auto; apply Hh; eauto. }
  split.
  - unfold computed_g_function_sim_and_size in E. rewrite Eg in E. cbn [bind] in E. apply bind_ok in E. destruct E as (s & Es & Ez).
    apply (script gf V B H dialogue s s'); auto; [|congruence]. intros c Hin. rewrite (Lg c Hin). lia.
  - intros Pi Ap s h kv S1 S2 Hp L.
    assert (Hin : In h (heights gf)).
    { apply Hh. exists kv. unfold last_entry in L. apply find_some in L. destruct L as (L & X). split; [now apply in_rev|]. destruct (Req_EM_T _ _) as [X'|]; [exact X'|discriminate]. }
    apply in_map_iff in Hin. destruct Hin as ((h', c) & X & Hin). cbn in X. subst h'.
    destruct (Hc h c Hin) as (kv' & L' & X1 & X2 & _). assert (kv' = kv) as -> by congruence. exists (cv_D c). rewrite <- X1, <- X2.
    apply C130_stored_curve; rewrite ?S1, ?S2; auto; try congruence.
    + eapply two_heights; [|exact Hab']. lra.
    + intros a b Ha Hb. apply Hh in Ha. apply Hh in Hb. destruct Ha as (ka & Ha & <-), Hb as (kb & Hb & <-). now apply Ap.
Qed.

(** the g-functions of a list of heights, computed before the exchanger is made *)
Lemma data_set_spec (P : db_key * list R -> Prop) key v : forall d, (forall k, key_eqb k key = true -> P (k, v)) -> P (key, v) ->
  (forall kv, In kv d -> P kv) -> (forall kv, In kv (data_set d key v) -> P kv) /\
  (forall h, In h (map (fun kv => dk_H (fst kv)) d) \/ h = dk_H key -> In h (map (fun kv => dk_H (fst kv)) (data_set d key v))).
Proof.
  induction d as [|(k, w) d IH]; intros Pk Pv Pd.
  - cbn. split; [intros kv [<-|[]]; exact Pv|]. intros h [[]| ->]. auto.
  - cbn [data_set]. destruct (IH Pk Pv (fun kv X => Pd kv (or_intror X))) as (I1 & I2). destruct (key_eqb k key) eqn:Ek.
    + split; [intros kv [<-|X]; [now apply Pk|apply Pd; now right]|]. cbn [map fst In]. intros h [[X|X]| ->]; auto.
      left. unfold key_eqb in Ek. rewrite !andb_true_iff in Ek. destruct Ek as (((_ & Ek) & _) & _). now apply neqb_R in Ek.
    + split; [intros kv [<-|X]; [apply Pd; now left|now apply I1]|]. cbn [map fst In]. intros h [[X|X]|X]; auto.
Qed.
Lemma live_curves f B Hs rs Ds log_time locations gf : compute_live_g_function f B Hs rs Ds log_time locations = Ok gf -> Hs <> [] ->
  gf_B gf = B /\ gf_log_time gf = log_time /\ gf_locations gf = locations /\ gf_table gf = t_empty /\ (forall h, In h Hs -> In h (heights gf)) /\
  forall c, In c (gf_curves gf) -> exists D r, f (fst c) D r = Ok (cv_g (snd c)).
Proof.
  unfold compute_live_g_function. intros E Hne. apply bind_ok in E. destruct E as (d & Ed & E).
  set (P := fun kv : db_key * list R => dk_B (fst kv) = B /\ exists D r, f (dk_H (fst kv)) D r = Ok (snd kv)).
  assert (I : forall l d0 d, (forall kv, In kv d0 -> P kv) ->
    foldM (fun d i => let! H := py_nth Hs i in let! r := py_nth rs i in let! D := py_nth Ds i in let! g := f H D r in
      Ok (data_set d {| dk_B := B; dk_H := H; dk_rb := r; dk_D := Some D |} g)) l d0 = Ok d ->
    (forall kv, In kv d -> P kv) /\ forall h, In h (map (fun kv => dk_H (fst kv)) d0) \/ (exists i, In i l /\ py_nth Hs i = Ok h) ->
      In h (map (fun kv => dk_H (fst kv)) d)).
  { induction l as [|i l IH]; intros d0 d1 P0 F.
    - cbn in F. apply Ok_inj in F. subst d1. split; [exact P0|]. intros h [X|(i & [] & _)]. exact X.
    - cbn [foldM] in F. apply bind_ok in F. destruct F as (d2 & F & F'). apply bind_ok in F. destruct F as (h & Eh & F). apply bind_ok in F. destruct F as (r & _ & F).
      apply bind_ok in F. destruct F as (D & _ & F). apply bind_ok in F. destruct F as (g & Ef & F). apply Ok_inj in F. subst d2.
      destruct (data_set_spec P {| dk_B := B; dk_H := h; dk_rb := r; dk_D := Some D |} g d0) as (S1 & S2).
      + intros k Ek. unfold key_eqb in Ek. rewrite !andb_true_iff in Ek. destruct Ek as (((E1 & E2) & _) & _). apply neqb_R in E1. apply neqb_R in E2. cbn in E1, E2.
        split; [exact E1|]. exists D, r. cbn [fst snd]. now rewrite E2.
      + split; [reflexivity|]. exists D, r. exact Ef.
      + exact P0.
      + destruct (IH _ _ S1 F') as (J1 & J2). split; [exact J1|]. intros h' [X|(j & [->|X] & Y)]; apply J2; [left; apply S2; now left| |right; eauto].
        left. apply S2. right. cbn. congruence. }
  destruct (I _ [] d (fun kv X => match X with end) Ed) as (D1 & D2).
  assert (D3 : forall h, In h Hs -> In h (map (fun kv => dk_H (fst kv)) d)).
  { intros h Hh. apply D2. right. apply In_nth_error in Hh. destruct Hh as (i & Hi). exists (Z.of_nat i). split.
    - apply in_zrange. assert (i < length Hs)%nat by (apply nth_error_Some; congruence). unfold zlen. lia.
    - apply py_nth_nonneg; [lia|]. now rewrite Nat2Z.id. }
  destruct d as [|kv0 r0]; [destruct Hs as [|h0 Hs]; [congruence|]; destruct (D3 h0 (or_introl eq_refl))|].
  destruct (C60_database_partial (kv0 :: r0) log_time locations kv0 r0 eq_refl) as (gf' & Eg & G1 & G2 & G3 & G4 & Nd & Hh & Hc & _).
  assert (gf' = gf) as -> by congruence. split; [rewrite G1; apply D1; now left|]. repeat (split; [assumption|]). split.
  - intros h X. apply Hh. apply D3, in_map_iff in X. destruct X as (kv & X & Y). eauto.
  - intros (h, c) X. destruct (Hc h c X) as (kv & L & Y & _). unfold last_entry in L. apply find_some in L. destruct L as (L & L2). apply in_rev in L.
    destruct (D1 kv L) as (_ & D & r & Z). exists D, r. cbn [fst snd]. rewrite Y. destruct (Req_EM_T _ _) as [<-|]; [exact Z|discriminate].
Qed.
Theorem C130_live_script :
  forall dialogue coordinates log_time V B H H_values D_values x s', 0 < B -> 0 < st_min_H st < st_max_H st ->
  (exists a b, In a H_values /\ In b H_values /\ a <= st_min_H st /\ st_max_H st <= b) ->
  (forall mf h D r g, field_response mf coordinates h D r = Ok g -> length g = length log_time) ->
  (forall lo up, asks_within lo up (dialogue lo up)) ->
  live_g_function_sim_and_size h_circular h_annulus r_conduction eff_u eff_c brentq solver interp first_response field_response dialogue st
    coordinates log_time V B H H_values D_values = Ok (x, s') ->
  let V_system := V * IZR (zlen coordinates) in let mf := V / 1000 * fl_rho (st_fluid st) in
  (exists g s, first_response mf coordinates H (st_D st) (st_rb st) = Ok g /\
     make_ghe h_circular h_annulus r_conduction eff_u eff_c brentq solver st V_system B H
       {| gf_B := B; gf_curves := [(H, {| cv_g := g; cv_rb := st_rb st; cv_D := st_D st |})]; gf_log_time := log_time; gf_locations := coordinates; gf_table := t_empty |} = Ok s /\
     snd (sim_once m_hybrid s) = Ok x) /\
  exists gf, sized_with gf V_system B H dialogue s' /\ gf_B gf = B /\ gf_log_time gf = log_time /\ gf_locations gf = coordinates /\
  (forall h, In h H_values -> In h (heights gf)) /\ forall c, In c (gf_curves gf) -> exists D r, field_response mf coordinates (fst c) D r = Ok (cv_g (snd c)).
Proof.
  intros dialogue coordinates lt V B H Hs Ds x s' HB Hl Hab Len Hd E V_system mf.
  unfold live_g_function_sim_and_size in E. rewrite pydiv_R in E by lra. cbn [bind] in E. fold V_system in E. fold mf in E.
  change (py_repeat (st_rb st) (zlen [H])) with [st_rb st] in E. rewrite one_curve in E.
  destruct (first_response mf coordinates H (st_D st) (st_rb st)) as [g|e] eqn:Eg; [|discriminate E]. cbn [bind] in E.
  apply bind_ok in E. destruct E as (s & Es & E). apply bind_ok in E. destruct E as (x' & Ex & E). apply bind_ok in E. destruct E as (gf & Egf & E).
  apply bind_ok in E. destruct E as (s2 & Es2 & E). apply bind_ok in E. destruct E as (s3 & Ez & E). apply Ok_inj in E.
  assert (x' = x /\ s3 = s') as (-> & ->) by (split; congruence).
  split; [exists g, s; auto|]. exists gf.
  destruct (live_curves _ _ _ _ _ _ _ _ Egf) as (G1 & G2 & G3 & G4 & G5 & G6). { destruct Hab as (a & _ & Ha & _). intros ->. destruct Ha. }
  split; [|auto]. apply (script gf V_system B H dialogue s2 s'); auto.
  - intros c Hc. destruct (G6 c Hc) as (D & r & X). rewrite (Len _ _ _ _ _ X), G2. lia.
  - destruct Hab as (a & b & A & B' & X). exists a, b. auto.
Qed.
End World.

(** *** an idle plant with curves on a shelf: everything above applies *)
Definition shelf (hs : list R) : @gfunction R := {| gf_B := 6; gf_curves := map (fun h => (h, {| cv_g := eskilson; cv_rb := 75 / 1000; cv_D := 2 |})) hs;
  gf_log_time := eskilson; gf_locations := plant_field; gf_table := t_empty |}.
(** three heights of which the second is twice and the third three times the first, all with a first long time apart from the short times (C52) *)
Definition base_height : R := height_for 60031.
Lemma multiple_height k : (1 <= k <= 3)%Z -> height_for (IZR (60031 * (k * k))) = IZR k * base_height.
Proof.
  intro Hk. unfold base_height, height_for. rewrite !mult_IZR. replace (9 * (2 / 2343000) * (60031 * (IZR k * IZR k) * exp (17 / 2))) with ((IZR k * IZR k) * (9 * (2 / 2343000) * (60031 * exp (17 / 2)))) by ring.
  assert (0 <= IZR k) by (apply IZR_le; lia). pose proof (exp_pos (17 / 2)).
  rewrite sqrt_mult by (try (apply Rmult_le_pos; assumption); lra). now rewrite sqrt_square.
Qed.
Lemma base_positive : 1 <= base_height.
Proof.
  unfold base_height, height_for. rewrite <- sqrt_1. apply sqrt_le_1; try lra.
  - pose proof (exp_pos (17 / 2)). lra.
  - pose proof (exp_ineq1 (17 / 2) ltac:(lra)). lra.
Qed.
Lemma shelf_full hs : full_curves (shelf hs).
Proof. intros c Hc. apply in_map_iff in Hc. destruct Hc as (h & <- & _). cbn [snd cv_g]. apply Nat.le_refl. Qed.
Lemma shelf_heights hs : heights (shelf hs) = hs.
Proof. unfold heights, shelf. cbn [gf_curves]. rewrite map_map. cbn [fst]. apply map_id. Qed.
Lemma idle_split hi lo c d : split_heat_and_cool (st_loads (idle (plant hi lo c d))) unit_W = Ok (repeat 0 (Z.to_nat 8760), repeat 0 (Z.to_nat 8760)).
Proof.
  destruct (proj2 C36_heating_cooling_split (st_loads (idle (plant hi lo c d))) unit_W 1000 ltac:(auto)) as (rej & ext & Esp & Lr & Lx & Sp).
  cbn [st_loads idle] in Lr, Lx, Sp. rewrite repeat_length in Lr, Lx.
  assert (A : forall k, (k < Z.to_nat 8760)%nat -> nth_error rej k = Some 0 /\ nth_error ext k = Some 0).
  { intros k Hk. destruct (Sp k 0) as (a & x & A1 & A2 & A3 & A4 & A5 & A6); [now apply nth_error_repeat|].
    assert (a = 0 /\ x = 0) as (-> & ->) by (destruct A5; split; lra). auto. }
  rewrite Esp. do 2 f_equal; apply nth_error_ext; intro k; (destruct (Nat.lt_ge_cases k (Z.to_nat 8760)) as [Hk|Hk];
    [rewrite nth_error_repeat by exact Hk; apply A; exact Hk|]); rewrite !(proj2 (nth_error_None _ _)); auto; rewrite ?repeat_length; lia.
Qed.
Lemma workshop hi lo c d : let st := idle (plant hi lo c d) in exists s,
  (forall gf, gf_locations gf = plant_field -> make_ghe plant_film plant_annulus plant_wall plant_Rb plant_Rc plant_root thomas st (1 / 5 * 4) 6 base_height gf = Ok (with_gf s gf)) /\
  gh_B s = 6 /\
  forall gf k gl rb D He, (1 <= k <= 3)%Z -> gf_log_time gf = eskilson -> snd (g_function_interpolation plant_interp gf (6 / (IZR k * base_height)) k_default) = Ok (gl, rb, D, He) ->
  length gl = length eskilson ->
  exists s' T dT mx mn, ghe_simulate plant_film plant_annulus plant_wall plant_Rb plant_Rc plant_root thomas plant_interp st m_hybrid (with_H (with_gf s gf) (IZR k * base_height)) = (s', Ok (mx, mn)) /\
  gh_results s' = (T, dT).
Proof.
  intro st. destruct eskilson_head as (r & Er).
  destruct (plant_bhe hi lo c d (1 / 5 / 1000 * 998)) as (e & Ee & Hu). change (utube_of plant_Rb (plant hi lo c d)) with (utube_of plant_Rb st) in Hu.
  change (make_bhe plant_film plant_annulus plant_wall (plant hi lo c d)) with (make_bhe plant_film plant_annulus plant_wall st) in Ee.
  destruct (Hu 60031 ltac:(lra)) as (Ad0 & _). fold base_height in Ad0.
  destruct (C94_construction plant_film plant_annulus plant_wall plant_Rb plant_Rc plant_root thomas plant_interp plant_response st m_hybrid flow_borehole (1 / 5) eskilson
    plant_field base_height (1 / 5 * 4) (1 / 5 / 1000 * 998) (Single e) e eskilson) as (s & B & sts & gs & rej & ext & cl & hl & load & hour & sf & Es & EB & Ec & Esp & M1 & M2 & P & Ers);
    try reflexivity; try assumption.
  { discriminate. } { cbn. rewrite pydiv_R by lra. cbn. unfold zlen, plant_field. cbn. f_equal. } { exact solver_exists. }
  { intros rej ext E. unfold st in E. rewrite idle_split in E. assert (rej = repeat 0 (Z.to_nat 8760) /\ ext = repeat 0 (Z.to_nat 8760)) as (-> & ->) by (split; congruence).
    split; apply clear_constant. }
  cbn zeta in *. exists {| gh_B := 6; gh_nbh := 4; gh_H := base_height; gh_bhe := Single e; gh_eq := e; gh_ts := t_s (utube_of plant_Rb st base_height e); gh_sts := (sts, gs);
    gh_gf := shelf []; gh_load := load; gh_hour := hour; gh_results := ([], []) |}.
  split; [|split; [reflexivity|]].
  - intros gf Hloc. unfold initialize_ghe in Es. apply bind_ok in Es. destruct Es as (fl & Ef & Es). rewrite EB in Es. cbn [bind] in Es. rewrite one_curve in Es.
    replace fl with (1 / 5 * 4, 1 / 5 / 1000 * 998) in Es by (cbn in Ef; rewrite pydiv_R in Ef by lra; cbn in Ef; unfold zlen, plant_field in Ef; cbn in Ef; congruence).
    cbn [fst snd] in Es. apply bind_ok in Es. destruct Es as (gf1 & Eg & Es). apply bind_ok in Eg. destruct Eg as (g & _ & Eg). apply Ok_inj in Eg. subst gf1.
    unfold make_ghe in *. cbn zeta in *. cbn [gf_locations] in Es. rewrite Hloc.
    repeat (let x := fresh in let E := fresh in apply bind_ok in Es; destruct Es as (x & E & Es); rewrite E; clear E; cbn [bind]).
    apply Ok_inj in Es. rewrite Ers in Es. cbn [with_gf gh_B gh_nbh gh_H gh_bhe gh_eq gh_ts gh_sts gh_load gh_hour gh_results].
    assert (X := f_equal (fun s => with_gf {| gh_B := 6; gh_nbh := gh_nbh s; gh_H := gh_H s; gh_bhe := gh_bhe s; gh_eq := gh_eq s; gh_ts := gh_ts s; gh_sts := gh_sts s; gh_gf := gh_gf s; gh_load := gh_load s; gh_hour := gh_hour s; gh_results := gh_results s |} gf) Es).
    cbn in X. cbn. f_equal. exact X.
  - intros gf k gl rb D He Hk Elt Eg Lg. rewrite <- multiple_height in * by exact Hk. set (n := (60031 * (k * k))%Z) in *.
    assert (Hn : (30000 <= n)%Z) by (unfold n; nia). assert (Hd : (n mod 120 <> 0)%Z) by (assert (k = 1 \/ k = 2 \/ k = 3)%Z as [X|[X|X]] by lia; unfold n; rewrite X; vm_compute; discriminate).
    assert (Hn1 : 30000 <= IZR n) by (apply IZR_le; lia).
    destruct (Hu (IZR n) ltac:(lra)) as (Ad & Ts). destruct (not_a_short_time n Hd ltac:(lia)) as (S1 & S2).
    assert (Et : t_s (utube_of plant_Rb st (height_for (IZR n)) e) * exp (- (17 / 2)) = IZR n).
    { rewrite Ts, Rmult_assoc, <- exp_plus. replace (17 / 2 + - (17 / 2)) with 0 by ring. rewrite exp_0. ring. }
    assert (Hh' : 0 < height_for (IZR n)) by (apply height_positive; lra).
    destruct (loads_tables _ _ _ _ _ _ M1) as (HC & TC). destruct (loads_tables _ _ _ _ _ _ M2) as (HHm & TH).
    assert (P0 : 0 < first_second < 1) by (unfold first_second; split; [apply Rinv_0_lt_compat; lra|lra]).
    destruct (C91_hours_advance_partial (1 / 2) cl hl (st_start st) (st_end st) load hour sf ltac:(lra) ltac:(cbn; lia) HC HHm) with (3 := P)
      as (hour' & Eh & Ap & Elast & load' & Eld & Ll & Nz).
    { intros ld i [-> | ->] Hi; [apply (duration_bound _ _ _ _ _ _ M1 _ Hi)|apply (duration_bound _ _ _ _ _ _ M2 _ Hi)]. }
    { intros ld i Hl Hi Hp. exfalso. unfold st in Esp. rewrite idle_split in Esp.
      assert (rej = repeat 0 (Z.to_nat 8760) /\ ext = repeat 0 (Z.to_nat 8760)) as (-> & ->) by (split; congruence).
      assert (X : is_max (peak_of ld i) (month_of 2019 (repeat 0 (Z.to_nat 8760)) i)) by (destruct Hl as [-> | ->]; [apply TC|apply TH]; exact Hi).
      destruct X as (X & _).
      assert (Y : In (peak_of ld i) (repeat 0 (Z.to_nat 8760))).
      { rewrite <- (months_concat 2019 (repeat 0 (Z.to_nat 8760))) by (unfold zlen; rewrite repeat_length; reflexivity).
        apply in_concat. exists (month_of 2019 (repeat 0 (Z.to_nat 8760)) i). split; [|exact X]. apply in_map, in_zrange. lia. }
      apply repeat_spec in Y. lra. }
    match goal with |- context [with_H (with_gf ?s0 gf) _] => set (s0' := s0) in * end.
    assert (Up : update_bhe plant_film plant_annulus plant_wall plant_Rb plant_Rc (height_for (IZR n)) (gh_bhe s0') = Single e).
    { eapply (made_updated plant_film plant_annulus plant_wall plant_Rb plant_Rc). exact Ee. }
    assert (Sim := C94_simulation plant_film plant_annulus plant_wall plant_Rb plant_Rc plant_root thomas plant_interp st m_hybrid (with_H (with_gf s0' gf) (height_for (IZR n))) e gl rb D He
      (- (17 / 2)) r (map (fun x => x * 1000) load') hour').
    cbn zeta in Sim. cbn [with_H with_gf gh_H gh_nbh gh_bhe gh_gf gh_B gh_load gh_hour] in Sim. rewrite Up in Sim.
    assert (Eq : simulated_loads m_hybrid (st_start st) (st_end st) (st_loads st) (gh_load s0') (gh_hour s0') = Ok (map (fun x => x * 1000) load', hour')).
    { cbn [gh_load gh_hour s0']. rewrite Eh, Eld. reflexivity. }
    specialize (Sim Hh' ltac:(discriminate) ltac:(cbn; lra) eq_refl Ad ltac:(rewrite (made_flow plant_film plant_annulus plant_wall st _ _ Ee); cbn; lra) Eg
      ltac:(rewrite Elt; exact Er) ltac:(rewrite <- Er; exact eskilson_increasing) ltac:(rewrite Lg, Er; reflexivity) ltac:(rewrite Et; exact S1)
      ltac:(intro j; rewrite Et; apply S2) Eq ltac:(intro X; apply (f_equal (@length R)) in X; rewrite map_length in X; cbn [length] in X; lia) ltac:(rewrite map_length; lia)).
    destruct Sim as (Yes & _). rewrite map_length in Yes.
    assert (El0 : last (0 :: hour') 0 = IZR (hours_through (st_end st))) by (rewrite <- Elast; destruct hour'; [cbn in Nz; lia|reflexivity]).
    destruct Yes as (sts' & gs' & x & y & G & s' & T & dT & mx & mn & _ & _ & _ & Er' & Rs & _).
    + rewrite Ll. apply C90_advancing_times.
      * clear - Ap P0. revert Ap. generalize (0 :: hour'). induction l as [|a [|a' l] IH]; [auto|auto|]. cbn [apart]. intros (A & Bp). split; [lra|]. apply IH. exact Bp.
      * rewrite El0. rewrite <- Er, Ts. change (hours_through (st_end st)) with (8760 * 1)%Z. apply eskilson_reach. lra.
    + exists s', T, dT, mx, mn. auto.
Qed.
Definition shop_sized st := ghe_size plant_film plant_annulus plant_wall plant_Rb plant_Rc plant_root thomas plant_interp st (fun _ _ => Answer (Ok 0)) m_hybrid.
Lemma tuned_limits o : (forall k, (1 <= k <= 3)%Z -> exists s' T dT mx mn,
    ghe_simulate plant_film plant_annulus plant_wall plant_Rb plant_Rc plant_root thomas plant_interp (idle (plant 0 0 (3 * base_height) base_height)) m_hybrid (with_H o (IZR k * base_height)) = (s', Ok (mx, mn)) /\
    gh_results s' = (T, dT)) ->
  exists hi lo, snd (size (fun f lo up => listen f (Answer (Ok 0)))
    (from_scratch plant_film plant_annulus plant_wall plant_Rb plant_Rc plant_root thomas plant_interp (idle (plant hi lo (3 * base_height) base_height)) m_hybrid o)
    (3 * base_height) base_height {| sz_height := gh_H o; sz_result := None |}) = Ok tt.
Proof.
  intro Hs. destruct (Hs 1%Z ltac:(lia)) as (s1 & T1 & D1 & mx1 & mn1 & R1 & Q1). destruct (Hs 3%Z ltac:(lia)) as (s2 & T2 & D2 & mx2 & mn2 & R2 & Q2).
  rewrite Rmult_1_l in R1. set (hi := Rmax mx1 mx2 + 1). set (lo := Rmin mn1 mn2 - 1). exists hi, lo. set (st := idle (plant hi lo (3 * base_height) base_height)).
  change (ghe_simulate plant_film plant_annulus plant_wall plant_Rb plant_Rc plant_root thomas plant_interp (idle (plant 0 0 (3 * base_height) base_height)) m_hybrid)
    with (ghe_simulate plant_film plant_annulus plant_wall plant_Rb plant_Rc plant_root thomas plant_interp st m_hybrid) in R1, R2.
  set (sim := from_scratch plant_film plant_annulus plant_wall plant_Rb plant_Rc plant_root thomas plant_interp st m_hybrid o).
  assert (S1 : sim base_height = Ok (T1, cost hi lo mx1 mn1)) by (unfold sim, from_scratch; rewrite R1, Q1; reflexivity).
  assert (S2 : sim (3 * base_height) = Ok (T2, cost hi lo mx2 mn2)) by (unfold sim, from_scratch; rewrite R2, Q2; reflexivity).
  assert (K : forall mx mn, mx <= Rmax mx1 mx2 -> Rmin mn1 mn2 <= mn -> cost hi lo mx mn < 0).
  { intros mx mn A B. destruct (C49_cost_is_compliance hi lo mx mn) as (_ & _ & _ & [-> | ->]); unfold hi, lo; lra. }
  assert (Fin := C53_final_height_partial (fun f lo up => listen f (Answer (Ok 0))) sim (3 * base_height) base_height {| sz_height := gh_H o; sz_result := None |}
    T1 (cost hi lo mx1 mn1) T2 (cost hi lo mx2 mn2) S1 S2). cbn zeta in Fin.
  destruct (size (fun f lo up => listen f (Answer (Ok 0))) sim (3 * base_height) base_height {| sz_height := gh_H o; sz_result := None |}) as (z, rz).
  destruct Fin as (Fin & _). destruct Fin as (_ & _ & Z3).
  { left. split; apply K; [apply Rmax_l|apply Rmin_l|apply Rmax_r|apply Rmin_r]. }
  exact Z3.
Qed.
Lemma read_length gf k h gl rb D He : gf_log_time gf = eskilson -> interpolated plant_interp gf k h = (gl, rb, D, He) -> length gl = length eskilson.
Proof. intros E X. apply (f_equal (fun v => fst (fst (fst v)))) in X. cbn in X. rewrite <- X, E. now rewrite map_length, seq_length. Qed.
Lemma multiples k : (1 <= k <= 3)%Z -> base_height <= IZR k * base_height <= 3 * base_height.
Proof.
  intro Hk. pose proof base_positive. assert (1 <= IZR k <= 3) by (split; apply IZR_le; lia).
  split; [apply Rle_trans with (1 * base_height); [lra|]|]; apply Rmult_le_compat_r; lra.
Qed.
Lemma covered_sized gf : gf_B gf = 6 -> gf_log_time gf = eskilson -> gf_locations gf = plant_field -> gf_table gf = t_empty -> full_curves gf ->
  (exists a b, In a (heights gf) /\ In b (heights gf) /\ a <= base_height /\ 3 * base_height <= b) ->
  exists hi lo s s', let st := idle (plant hi lo (3 * base_height) base_height) in
  make_ghe plant_film plant_annulus plant_wall plant_Rb plant_Rc plant_root thomas st (1 / 5 * 4) 6 base_height gf = Ok s /\ shop_sized st s = (s', Ok tt).
Proof.
  intros EB Et El Ee Hf Hab. pose proof base_positive as Hp. destruct (workshop 0 0 (3 * base_height) base_height) as (s & Mk & SB & Sim).
  assert (N2 : (2 <= length (gf_curves gf))%nat) by (apply (two_heights gf base_height (3 * base_height)); [lra|exact Hab]).
  assert (Bt : forall h, base_height <= h <= 3 * base_height -> between gf (h * 6 / 6)).
  { intros h Hh. destruct Hab as (a & b & A & B & X & Y). exists a, b. repeat split; auto; lra. }
  destruct (tuned_limits (with_gf s gf)) as (hi & lo & Ok1).
  { intros k Hk. assert (Hh := multiples k Hk).
    destruct (C130_curve_used plant_interp (with_gf s gf) (IZR k * base_height)) as (kd & h' & _ & _ & E); try assumption.
    - cbn. rewrite SB. lra.
    - lra.
    - cbn [with_gf gh_gf gh_B]. rewrite SB, EB. apply Bt. exact Hh.
    - cbn [with_gf gh_gf gh_B] in E. rewrite SB in E. destruct (interpolated plant_interp gf kd h') as (((gl, rb), D), He) eqn:Ei.
      apply (Sim gf k gl rb D He Hk Et E). now apply (read_length gf kd h' gl rb D He). }
  set (st := idle (plant hi lo (3 * base_height) base_height)).
  destruct (C130_sizing plant_film plant_annulus plant_wall plant_Rb plant_Rc plant_root thomas plant_interp st (fun _ _ => Answer (Ok 0)) m_hybrid (with_gf s gf)) as (C1 & _); try assumption.
  { cbn. rewrite SB. lra. } { cbn. lra. } { intros h Hh. cbn [with_gf gh_gf gh_B]. rewrite SB, EB. apply Bt. exact Hh. } { intros l u. exact I. }
  apply (fun X => eq_trans X Ok1) in C1.
  exists hi, lo, (with_gf s gf), (fst (shop_sized st (with_gf s gf))). cbn zeta. fold st. split.
  - change (make_ghe plant_film plant_annulus plant_wall plant_Rb plant_Rc plant_root thomas st) with
      (make_ghe plant_film plant_annulus plant_wall plant_Rb plant_Rc plant_root thomas (idle (plant 0 0 (3 * base_height) base_height))). now apply Mk.
  - fold (shop_sized st) in C1. destruct (shop_sized st (with_gf s gf)) as (s', r'). cbn [fst snd] in *. now subst r'.
Qed.
(** C130_sizing, C130_curve_used, C130_file_script: a file with two curves that reach over the limits *)
Example C130_file_example : exists hi lo s', let st := idle (plant hi lo (3 * base_height) base_height) in
  0 < st_min_H st < st_max_H st /\
  computed_g_function_sim_and_size plant_film plant_annulus plant_wall plant_Rb plant_Rc plant_root thomas plant_interp (fun _ _ => Answer (Ok 0)) st
    (map (fun h => ({| dk_B := 6; dk_H := h; dk_rb := 75 / 1000; dk_D := Some 2 |}, eskilson)) [base_height; 3 * base_height])
    eskilson plant_field (1 / 5 * 4) 6 base_height = Ok s'.
Proof.
  pose proof base_positive as Hp. set (data := map _ _).
  destruct (C60_database_partial data eskilson plant_field _ _ eq_refl) as (gf & Eg & G1 & G2 & G3 & G4 & Nd & Hh & Hc & _).
  destruct (covered_sized gf) as (hi & lo & s & s' & Es & Ez); try assumption.
  - intros (h, c) Hin. destruct (Hc h c Hin) as (kv & L & X & _). cbn [snd]. rewrite X, G2. unfold last_entry in L. apply find_some in L. destruct L as (L & _).
    apply in_rev, in_map_iff in L. destruct L as (y & <- & _). cbn [snd]. lia.
  - exists base_height, (3 * base_height). split; [|split; [|lra]]; apply Hh;
      [exists ({| dk_B := 6; dk_H := base_height; dk_rb := 75 / 1000; dk_D := Some 2 |}, eskilson); split; [now left|reflexivity]
      |exists ({| dk_B := 6; dk_H := 3 * base_height; dk_rb := 75 / 1000; dk_D := Some 2 |}, eskilson); split; [right; now left|reflexivity]].
  - exists hi, lo, s'. cbn zeta. split; [cbn; lra|]. unfold computed_g_function_sim_and_size. rewrite Eg. cbn [bind]. rewrite Es. cbn [bind].
    unfold size_default. fold (shop_sized (idle (plant hi lo (3 * base_height) base_height))). rewrite Ez. reflexivity.
Qed.
Example C130_live_example : exists hi lo x s', let st := idle (plant hi lo (3 * base_height) base_height) in
  0 < st_min_H st < st_max_H st /\
  live_g_function_sim_and_size plant_film plant_annulus plant_wall plant_Rb plant_Rc plant_root thomas plant_interp plant_response plant_response (fun _ _ => Answer (Ok 0)) st
    plant_field eskilson (1 / 5) 6 base_height [base_height; 3 * base_height] [2; 2] = Ok (x, s').
Proof.
  pose proof base_positive as Hp.
  set (live := fun mf st => compute_live_g_function (plant_response mf plant_field) 6 [base_height; 3 * base_height] (py_repeat (st_rb st) (zlen [base_height; 3 * base_height])) [2; 2] eskilson plant_field).
  assert (Lv : forall hi lo mf, exists gf, live mf (idle (plant hi lo (3 * base_height) base_height)) = Ok gf).
  { intros hi lo mf. unfold live, compute_live_g_function.
    match goal with |- exists gf, bind ?d _ = _ => assert (X : exists kv r, d = Ok (kv :: r)) end.
    { set (rbs := py_repeat _ _). change (zrange 0 (zlen [base_height; 3 * base_height])) with [0; 1]%Z. cbn [foldM].
      change (py_nth [base_height; 3 * base_height] 0) with (Ok base_height). change (py_nth [base_height; 3 * base_height] 1) with (Ok (3 * base_height)).
      change (py_nth rbs 0) with (Ok (75 / 1000)). change (py_nth rbs 1) with (Ok (75 / 1000)). change (py_nth [2; 2] 0) with (Ok 2). change (py_nth [2; 2] 1) with (Ok 2).
      unfold plant_response. cbn [bind data_set]. destruct (key_eqb _ _); eauto. }
    destruct X as (kv & r & ->). cbn [bind]. destruct (C60_database_partial (kv :: r) eskilson plant_field kv r eq_refl) as (gf & Eg & _). eauto. }
  destruct (Lv 0 0 (1 / 5 / 1000 * 998)) as (gf & Eg).
  destruct (live_curves _ _ _ _ _ _ _ _ Eg ltac:(discriminate)) as (G1 & G2 & G3 & G4 & G5 & G6).
  destruct (covered_sized gf) as (hi & lo & s & s' & Es & Ez); try assumption.
  { intros c Hc. destruct (G6 c Hc) as (D & r & X). rewrite G2. unfold plant_response in X. apply Ok_inj in X. rewrite <- X. lia. }
  { exists base_height, (3 * base_height). split; [|split; [|lra]]; apply G5; cbn; auto. }
  set (st := idle (plant hi lo (3 * base_height) base_height)) in *.
  destruct (workshop hi lo (3 * base_height) base_height) as (s1 & Mk & SB & Sim). fold st in Mk, Sim.
  set (gf1 := {| gf_B := 6; gf_curves := [(base_height, {| cv_g := eskilson; cv_rb := st_rb st; cv_D := st_D st |})]; gf_log_time := eskilson; gf_locations := plant_field; gf_table := t_empty |}).
  destruct (C56_any_height_answered plant_interp gf1 base_height {| cv_g := eskilson; cv_rb := st_rb st; cv_D := st_D st |} (6 / (1 * base_height)) eq_refl ltac:(lra)) as (He & E1 & _).
  { rewrite Rmult_1_l. apply Rgt_not_eq, Rdiv_lt_0_compat; lra. }
  destruct (Sim gf1 1%Z _ _ _ _ ltac:(lia) eq_refl E1 eq_refl) as (s2 & T & dT & mx & mn & E2 & _).
  exists hi, lo, (mx, mn), s'. cbn zeta. fold st. split; [cbn; lra|]. unfold live_g_function_sim_and_size. rewrite pydiv_R by lra. cbn [bind].
  change (py_repeat (st_rb st) (zlen [base_height])) with [st_rb st]. rewrite one_curve. unfold plant_response at 1. cbn [bind]. fold gf1.
  change (IZR (zlen plant_field)) with 4. rewrite (Mk gf1 eq_refl). cbn [bind].
  replace (with_gf s1 gf1) with (with_H (with_gf s1 gf1) (1 * base_height)).
  2: { destruct (made_fields _ _ _ _ _ _ _ _ _ _ _ _ _ (Mk gf1 eq_refl)) as (_ & _ & X). rewrite Rmult_1_l, <- X. destruct s1; reflexivity. }
  rewrite E2. cbn [snd bind]. change (fl_rho (st_fluid st)) with 998.
  change (compute_live_g_function (plant_response (1 / 5 / 1000 * 998) plant_field) 6 [base_height; 3 * base_height]
    (py_repeat (st_rb st) (zlen [base_height; 3 * base_height])) [2; 2] eskilson plant_field) with (live (1 / 5 / 1000 * 998) (idle (plant 0 0 (3 * base_height) base_height))).
  rewrite Eg. cbn [bind]. rewrite Es. cbn [bind]. unfold size_default. fold (shop_sized st). rewrite Ez. reflexivity.
Qed.

(** one curve more and the exchanger can no longer be sized: with curves of 2 and 2.5 times the least height it is sized up to 3 times that height,
    and with a further curve of the least height it is not *)
Theorem C130_more_curves_refuted :
  exists hi lo s h2 h3, let st := idle (plant hi lo (3 * base_height) base_height) in
  0 < st_min_H st < h2 /\ h2 < h3 < st_max_H st /\
  (exists s', shop_sized st (with_gf s (shelf [h2; h3])) = (s', Ok tt)) /\
  exists e, snd (shop_sized st (with_gf s (shelf [st_min_H st; h2; h3]))) = Err e.
Proof.
  pose proof base_positive as Hp. destruct (workshop 0 0 (3 * base_height) base_height) as (s & Mk & SB & Sim).
  set (h2 := 2 * base_height). set (h3 := 5 / 2 * base_height). set (gf := shelf [h2; h3]).
  assert (N2 : (2 <= length (gf_curves gf))%nat) by (cbn; lia).
  assert (Lw : lowest gf h2) by (unfold lowest, gf; rewrite shelf_heights; split; [now left|]; intros x [<-|[<-|[]]]; unfold h2, h3; lra).
  destruct (effective_kind_for k_default (length (gf_curves gf)) N2 ltac:(discriminate)) as (k & Ek & Kf).
  destruct (tuned_limits (extrapolating k (with_gf s gf))) as (hi & lo & Ok1).
  { intros n Hn. assert (Hh := multiples n Hn).
    destruct (extrapolating_read plant_interp k (with_gf s gf) (IZR n * base_height)) as (h' & _ & _ & E); try assumption.
    - apply shelf_full.
    - cbn. rewrite SB. lra.
    - lra.
    - specialize (E (t_built k true) ltac:(auto)). cbn [with_gf gh_gf gh_B] in E. rewrite SB in E.
      destruct (interpolated plant_interp gf k (fst h')) as (((gl, rb), D), He) eqn:Ei.
      apply (Sim (with_table gf (t_built k true)) n gl rb D He Hn eq_refl); [rewrite E; reflexivity|]. now apply (read_length gf k (fst h') gl rb D He). }
  set (st := idle (plant hi lo (3 * base_height) base_height)).
  destruct (C130_late_library_answered plant_film plant_annulus plant_wall plant_Rb plant_Rc plant_root thomas plant_interp st (fun _ _ => Answer (Ok 0)) m_hybrid (with_gf s gf) h2)
    as (k' & Kf' & _ & C1 & _); try assumption; try reflexivity.
  { apply shelf_full. } { cbn. rewrite SB. lra. } { cbn. lra. }
  { cbn [with_gf gh_gf gh_B gf_B gf shelf st_min_H st idle plant]. rewrite SB. replace (base_height * 6 / 6) with base_height by field. unfold h2. lra. }
  assert (k' = k) as ->.
  { destruct Kf' as (_ & _ & A), Kf as (_ & _ & B). rewrite (A ltac:(cbn; lia)), (B ltac:(cbn; lia)). reflexivity. }
  apply (fun X => eq_trans X Ok1) in C1.
  exists hi, lo, s, h2, h3. cbn zeta. fold st. split; [cbn; unfold h2; lra|]. split; [cbn; unfold h2, h3; lra|]. split.
  - fold gf. fold (shop_sized st) in C1. destruct (shop_sized st (with_gf s gf)) as (s', r'). cbn [snd] in C1. subst r'. eauto.
  - change (st_min_H st) with base_height.
    assert (Hlow : lowest (shelf [base_height; h2; h3]) base_height) by (unfold lowest; rewrite shelf_heights; split; [now left|]; intros x [<-|[<-|[<-|[]]]]; unfold h2, h3; lra).
    assert (Hhigh : highest (shelf [base_height; h2; h3]) h3) by (unfold highest; rewrite shelf_heights; split; [cbn; auto|]; intros x [<-|[<-|[<-|[]]]]; unfold h2, h3; lra).
    apply (C130_short_library_fails plant_film plant_annulus plant_wall plant_Rb plant_Rc plant_root thomas plant_interp st (fun _ _ => Answer (Ok 0)) m_hybrid
      (with_gf s (shelf [base_height; h2; h3])) base_height h3); try assumption; try reflexivity.
    + cbn; lia.
    + apply shelf_full.
    + cbn. rewrite SB. lra.
    + cbn. lra.
    + cbn [with_gf gh_gf gh_B gf_B shelf st_min_H st idle plant]. rewrite SB. replace (base_height * 6 / 6) with base_height by field. unfold h3. lra.
    + cbn [with_gf gh_gf gh_B gf_B shelf st_max_H st idle plant]. rewrite SB. replace (3 * base_height * 6 / 6) with (3 * base_height) by field. unfold h3. lra.
Qed.
(** C130_one_curve *)
Example C130_one_curve_example : exists hi lo s s', let st := idle (plant hi lo (3 * base_height) base_height) in
  gf_curves (gh_gf s) = [(base_height, {| cv_g := eskilson; cv_rb := 75 / 1000; cv_D := 2 |})] /\ 0 < gh_B s /\ 0 < st_min_H st <= st_max_H st /\ shop_sized st s = (s', Ok tt).
Proof.
  pose proof base_positive as Hp. destruct (workshop 0 0 (3 * base_height) base_height) as (s & Mk & SB & Sim).
  set (gf := shelf [base_height]).
  assert (Z : forall k, (1 <= k <= 3)%Z -> 6 / (IZR k * base_height) <> 0).
  { intros k Hk. pose proof (multiples k Hk). apply Rgt_not_eq, Rdiv_lt_0_compat; lra. }
  destruct (tuned_limits (with_gf s gf)) as (hi & lo & Ok1).
  { intros k Hk. destruct (C56_any_height_answered plant_interp gf base_height _ (6 / (IZR k * base_height)) eq_refl ltac:(lra) (Z k Hk)) as (He & E1 & _).
    apply (Sim gf k _ _ _ _ Hk eq_refl E1 eq_refl). }
  set (st := idle (plant hi lo (3 * base_height) base_height)).
  assert (PB : 0 < gh_B (with_gf s gf)) by (cbn; rewrite SB; lra).
  destruct (C130_one_curve plant_film plant_annulus plant_wall plant_Rb plant_Rc plant_root thomas plant_interp st (fun _ _ => Answer (Ok 0)) m_hybrid (with_gf s gf) base_height
    {| cv_g := eskilson; cv_rb := 75 / 1000; cv_D := 2 |} eq_refl ltac:(lra) PB ltac:(cbn; lra) ltac:(intros l u; exact I)) as (_ & C1 & _).
  apply (fun X => eq_trans X Ok1) in C1. fold (shop_sized st) in C1.
  exists hi, lo, (with_gf s gf), (fst (shop_sized st (with_gf s gf))). cbn zeta. fold st. split; [reflexivity|]. split; [exact PB|]. split; [cbn; lra|].
  destruct (shop_sized st (with_gf s gf)) as (s', r'). cbn [fst snd] in *. now subst r'.
Qed.
(** C130_stored_curve: an interpolant that passes through its points, and two curves *)
Definition lookup : ikind -> list (R * R) -> R -> R := fun _ l h => match find (fun p => if Req_EM_T (fst p) h then true else false) l with Some p => snd p | None => 0 end.
Example C130_stored_example : passes_through lookup /\ NoDup (heights (shelf [50; 90])) /\
  (forall a b, In a (heights (shelf [50; 90])) -> In b (heights (shelf [50; 90])) -> a <> b -> / 1000000 <= Rabs (a - b)) /\
  exists c, In (90, c) (gf_curves (shelf [50; 90])).
Proof.
  split; [|split; [|split]].
  - intros k l h y Nd Hin. unfold lookup. induction l as [|(a, b) l IH]; [destruct Hin|]. cbn [find fst]. cbn [map fst] in Nd. apply NoDup_cons_iff in Nd. destruct Nd as (Na & Nd).
    destruct (Req_EM_T a h) as [->|N].
    + cbn [snd]. destruct Hin as [X|X]; [congruence|]. destruct Na. apply in_map_iff. exists (h, y). auto.
    + apply IH; [exact Nd|]. destruct Hin as [X|X]; [congruence|exact X].
  - rewrite shelf_heights. constructor; [intros [X|[]]; lra|]. constructor; [intros []|constructor].
  - rewrite shelf_heights. intros a b [<-|[<-|[]]] [<-|[<-|[]]] N; unfold Rabs; destruct (Rcase_abs _); lra.
  - eexists. right. now left.
Qed.

Print Assumptions C130_curve_used.
Print Assumptions C130_stored_curve.
Print Assumptions C130_sizing.
Print Assumptions C130_one_curve.
Print Assumptions C130_short_library_fails.
Print Assumptions C130_late_library_answered.
Print Assumptions C130_file_script.
Print Assumptions C130_live_script.
Print Assumptions C130_more_curves_refuted.
