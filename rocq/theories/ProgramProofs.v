(** Lemmas about Program.v *)
From Coq Require Import ZArith List Bool Reals Lra Lia.
From Verif Require Import Base Num BaseLemmas Order Utilities Loads LoadsSpec Ghe GheSpec GheProofs GFun GFunSpec GFunProofs Radial RadialSpec Bhe Equiv Export
  Search SearchSpec Design System SystemSpec SystemProofs Program Properties_Utilities Properties_Ghe Properties_GFun DesignProofs Properties_Design Properties_Search Properties_System.
Import ListNotations.
Open Scope R_scope.

Lemma Ok_inj {A} (x y : A) : Ok x = Ok y -> x = y.
Proof. congruence. Qed.

Lemma listen_ext f g d : (forall h, f h = g h) -> listen f d = listen g d.
Proof. intro E. induction d as [x next IH|r]; [|reflexivity]. cbn [listen]. rewrite E. destruct (g x); [|reflexivity]. now rewrite IH. Qed.
(** ** the g-functions stored before sizing *)
Lemma three_curves (fr : R -> R -> R -> res (list R)) (B r_b D min_h max_h : R) lt loc hs s :
  min_h < max_h -> g_function_heights min_h max_h = Ok hs ->
  compute_live_g_function fr B hs (repeat r_b 3) (repeat D 3) lt loc = Ok s ->
  NoDup (GFunSpec.heights s) /\ gf_log_time s = lt /\ gf_locations s = loc /\
  forall h g, h = min_h \/ h = max_h -> fr h D r_b = Ok g -> In (h, {| cv_g := g; cv_rb := r_b; cv_D := D |}) (gf_curves s).
Proof.
  intros Hmm Ehs Es. unfold g_function_heights in Ehs. rewrite pydiv_R in Ehs by (cbn; lra). cbn [bind] in Ehs.
  assert (hs = [min_h; (min_h + max_h) / 2; max_h]) as -> by (cbn in Ehs; congruence). clear Ehs.
  set (avg := (min_h + max_h) / 2) in *. assert (Hav : min_h < avg < max_h) by (unfold avg; lra).
  unfold compute_live_g_function in Es. replace (zlen [min_h; avg; max_h]) with 3%Z in Es by reflexivity.
  change (zrange 0 3) with [0; 1; 2]%Z in Es. cbn [foldM repeat] in Es.
  replace (py_nth [min_h; avg; max_h] 0) with (Ok min_h) in Es by reflexivity.
  replace (py_nth [min_h; avg; max_h] 1) with (Ok avg) in Es by reflexivity.
  replace (py_nth [min_h; avg; max_h] 2) with (Ok max_h) in Es by reflexivity.
  replace (py_nth [r_b; r_b; r_b] 0) with (Ok r_b) in Es by reflexivity.
  replace (py_nth [r_b; r_b; r_b] 1) with (Ok r_b) in Es by reflexivity.
  replace (py_nth [r_b; r_b; r_b] 2) with (Ok r_b) in Es by reflexivity.
  replace (py_nth [D; D; D] 0) with (Ok D) in Es by reflexivity.
  replace (py_nth [D; D; D] 1) with (Ok D) in Es by reflexivity.
  replace (py_nth [D; D; D] 2) with (Ok D) in Es by reflexivity.
  cbn [bind] in Es.
  destruct (fr min_h D r_b) as [g1|] eqn:E1; [|discriminate]. cbn [bind] in Es.
  destruct (fr avg D r_b) as [g2|] eqn:E2; [|discriminate]. cbn [bind] in Es.
  destruct (fr max_h D r_b) as [g3|] eqn:E3; [|discriminate]. cbn [bind] in Es.
  set (mk := fun h => {| dk_B := B; dk_H := h; dk_rb := r_b; dk_D := Some D |}) in *.
  change {| dk_B := B; dk_H := min_h; dk_rb := r_b; dk_D := Some D |} with (mk min_h) in Es.
  change {| dk_B := B; dk_H := avg; dk_rb := r_b; dk_D := Some D |} with (mk avg) in Es.
  change {| dk_B := B; dk_H := max_h; dk_rb := r_b; dk_D := Some D |} with (mk max_h) in Es.
  assert (Kn : forall a b, a <> b -> key_eqb (mk a) (mk b) = false).
  { intros a b N. destruct (key_eqb (mk a) (mk b)) eqn:E; [|reflexivity]. apply key_eqb_height in E. now contradiction N. }
  assert (Ed : data_set (data_set (data_set [] (mk min_h) g1) (mk avg) g2) (mk max_h) g3 = [(mk min_h, g1); (mk avg, g2); (mk max_h, g3)]).
  { cbn [data_set]. rewrite (Kn min_h avg) by lra. cbn [data_set]. rewrite (Kn min_h max_h), (Kn avg max_h) by lra. reflexivity. }
  rewrite Ed in Es. clear Ed.
  destruct (configure_ok [(mk min_h, g1); (mk avg, g2); (mk max_h, g3)] lt loc _ _ eq_refl)
    as (s' & keys & G & RB & DD & E & B1 & B2 & B3 & B4 & Ec & Nd & Hk & _ & Hg & Dk & _).
  assert (s' = s) as -> by congruence.
  assert (EH : GFunSpec.heights s = keys) by (unfold GFunSpec.heights; rewrite Ec, map_map; cbn [fst]; apply map_id).
  split; [now rewrite EH|]. split; [exact B2|]. split; [exact B3|]. intros h g Hh Eg.
  assert (Hin : In h keys).
  { apply Hk. destruct Hh as [-> | ->]; [exists (mk min_h, g1)|exists (mk max_h, g3)]; (split; [cbn; auto|reflexivity]). }
  rewrite Ec. apply in_map_iff. exists h. split; [|exact Hin]. f_equal.
  destruct (Hg h Hin) as (kv & L & -> & ->).
  assert (LDa : forall z, z = min_h \/ z = avg \/ z = max_h -> last_depth [(mk min_h, g1); (mk avg, g2); (mk max_h, g3)] z = Some D).
  { intros z Hz. unfold last_depth. cbn [rev app find fst dk_H dk_D mk].
    destruct (Req_EM_T max_h z); [reflexivity|]. destruct (Req_EM_T avg z); [reflexivity|]. destruct (Req_EM_T min_h z); [reflexivity|].
    exfalso. destruct Hz as [?|[?|?]]; congruence. }
  assert (LD : Some (DD h) = Some D).
  { rewrite <- Dk; [apply LDa; tauto| |exact Hin]. intros kv' [<-|[<-|[<-|[]]]]; exists D; apply LDa; auto. }
  injection LD as ->. unfold last_entry in L. cbn [rev app find fst dk_H mk] in L.
  destruct (Req_EM_T max_h h) as [<-|N3].
  { injection L as <-. cbn. congruence. }
  destruct (Req_EM_T avg h) as [<-|N2]; [exfalso; destruct Hh; lra|].
  destruct (Req_EM_T min_h h) as [<-|N1]; [|discriminate]. injection L as <-. cbn. congruence.
Qed.

(** reading at a stored height returns the stored curve *)
Lemma stored_reading interp (s : @gfunction R) k h c : passes_through interp -> NoDup (GFunSpec.heights s) -> In (h, c) (gf_curves s) ->
  length (cv_g c) = length (gf_log_time s) -> interpolated interp s k h = (cv_g c, cv_rb c, Some (cv_D c), h).
Proof.
  intros Hp Nd Hc Lg. unfold interpolated.
  assert (Pt : forall v : @curve R -> R, interp k (map (fun c => (fst c, v (snd c))) (gf_curves s)) h = v c).
  { intro v. apply Hp; [rewrite map_map; exact Nd|]. apply in_map_iff. exists (h, c). auto. }
  rewrite (Pt cv_rb), (Pt cv_D). do 3 f_equal. rewrite <- Lg.
  rewrite (map_ext _ (fun i => nth i (cv_g c) 0)) by (intro i; apply (Pt (fun c => nth i (cv_g c) 0))).
  clear. induction (cv_g c) as [|a l IH]; [reflexivity|]. cbn [length seq map nth]. f_equal. rewrite <- seq_shift, map_map. exact IH.
Qed.

Section World.
Variable h_circular : R -> R -> R -> R -> R -> R -> R -> R.
Variable h_annulus : R -> R -> R -> R -> R -> R -> R -> R -> R * R.
Variable r_conduction : R -> R -> R -> R.
Variable eff_u : R -> pg_u -> R -> R -> R.
Variable eff_c : R -> pg_c -> R -> R -> R.
Variable brentq : (R -> res R) -> R -> R -> list R * res R.
Variable solver : list R -> list R -> list R -> list R -> list R.
Variable interp : ikind -> list (R * R) -> R -> R.
Variable field_response : R -> list (R * R) -> R -> R -> R -> res (list R).
Variable st : settings.
Variable flow : flow_kind.
Variable V_flow : R.
Variable log_time : list R.
Notation ready := (ready h_circular h_annulus r_conduction eff_u eff_c brentq solver field_response st flow V_flow log_time).
Notation sim_once := (ghe_simulate h_circular h_annulus r_conduction eff_u eff_c brentq solver interp st).
Notation with_g_functions := (compute_g_functions field_response st).

Definition one_curve_of (c : list (R * R)) (B H : R) (g : list R) : @gfunction R :=
  {| gf_B := B; gf_curves := [(H, {| cv_g := g; cv_rb := st_rb st; cv_D := st_D st |})]; gf_log_time := log_time; gf_locations := c; gf_table := t_empty |}.
Lemma ready_inv c H s : ready c H = Ok s -> exists V_sys mf B g b, retrieve_flow flow V_flow (fl_rho (st_fluid st)) (zlen c) = Ok (V_sys, mf) /\
  borehole_spacing (st_rb st) c = Ok B /\ field_response mf c H (st_D st) (st_rb st) = Ok g /\ make_bhe h_circular h_annulus r_conduction st mf = Ok b /\
  gh_B s = B /\ gh_nbh s = zlen c /\ gh_H s = H /\ gh_bhe s = b /\ mass_flow (gh_bhe s) = mf /\ gh_gf s = one_curve_of c B H g /\ gh_results s = ([], []) /\
  (1 <= length c)%nat.
Proof.
  intro Eb. unfold Program.ready, System.initialize_ghe in Eb. apply bind_ok in Eb. destruct Eb as ((V_sys, mf) & Ef & Eb).
  apply bind_ok in Eb. destruct Eb as (B & EB & Eb). rewrite one_curve in Eb. cbn [fst snd] in Eb.
  destruct (field_response mf c H (st_D st) (st_rb st)) as [g|] eqn:Eg; [|discriminate]. cbn [bind] in Eb.
  unfold make_ghe in Eb. cbn zeta in Eb. cbn [gf_locations] in Eb.
  apply bind_ok in Eb. destruct Eb as ((V_bore, mf') & Ef' & Eb). apply bind_ok in Eb. destruct Eb as (b & Emb & Eb).
  apply bind_ok in Eb. destruct Eb as (e & _ & Eb). apply bind_ok in Eb. destruct Eb as (r & _ & Eb).
  apply bind_ok in Eb. destruct Eb as (hr & _ & Eb). apply bind_ok in Eb. destruct Eb as (lh & _ & Eb). apply Ok_inj in Eb.
  assert (Hlen : (1 <= length c)%nat).
  { destruct c; [|cbn; lia]. discriminate EB. }
  assert (Hfl : flow <> flow_other) by (intros ->; discriminate Ef).
  destruct (proj2 C54_flow flow V_flow (fl_rho (st_fluid st)) (zlen c) Hfl ltac:(unfold zlen; lia)) as (V2 & m2 & F1 & V3 & F2 & _).
  assert (V2 = V_sys /\ m2 = mf) as (-> & ->) by (split; congruence). assert (V3 = V_bore /\ mf' = mf) as (-> & ->) by (split; congruence).
  cbn [snd] in Emb. assert (Mf := made_flow _ _ _ _ _ _ Emb).
  exists V_sys, mf, B, g, b. rewrite <- Eb. cbn. repeat (split; [first [assumption | reflexivity]|]). exact Hlen.
Qed.

Lemma spacing_positive c B : 0 < st_rb st -> borehole_spacing (st_rb st) c = Ok B -> 0 < B.
Proof.
  intros Hrb EB. destruct c as [|c1 [|c2 cs]]; [discriminate EB| |].
  - cbn in EB. apply Ok_inj in EB. now subst B.
  - rewrite (proj2 (proj2 C23_borehole_spacing)) in EB. apply Ok_inj in EB. subst B. eapply Rlt_le_trans; [exact Hrb|apply Rmax_l].
Qed.

Hypothesis Hrb : 0 < st_rb st.
Hypothesis Hmin : 0 < st_min_H st.
Hypothesis Hmax : st_min_H st + 2 * / 1000000 <= st_max_H st.
Hypothesis Hresp : forall mf c H D r, exists g, field_response mf c H D r = Ok g /\ length g = length log_time.
Hypothesis Hinterp : passes_through interp.

Lemma limits : 0 < st_min_H st < st_max_H st.
Proof. assert (0 < / 1000000) by (apply Rinv_0_lt_compat; lra). lra. Qed.

Lemma g_functions_inv s s0 : with_g_functions s = Ok s0 -> gf_log_time (gh_gf s) = log_time ->
  s0 = with_gf s (gh_gf s0) /\ gf_B (gh_gf s0) = gh_B s /\ gf_table (gh_gf s0) = t_empty /\ length (gf_curves (gh_gf s0)) = 3%nat /\ full_curves (gh_gf s0) /\
  lowest (gh_gf s0) (st_min_H st) /\ highest (gh_gf s0) (st_max_H st) /\
  NoDup (GFunSpec.heights (gh_gf s0)) /\ gf_log_time (gh_gf s0) = log_time /\ gf_locations (gh_gf s0) = gf_locations (gh_gf s) /\
  forall h g, h = st_min_H st \/ h = st_max_H st -> field_response (mass_flow (gh_bhe s)) (gf_locations (gh_gf s)) h (st_D st) (st_rb st) = Ok g ->
    In (h, {| cv_g := g; cv_rb := st_rb st; cv_D := st_D st |}) (gf_curves (gh_gf s0)).
Proof.
  intros E El. pose proof limits as L. unfold compute_g_functions in E. apply bind_ok in E. destruct E as (hs & Eh & E). cbn zeta in E.
  assert (hs = [st_min_H st; (st_min_H st + st_max_H st) / 2; st_max_H st]) as Ehs.
  { unfold g_function_heights in Eh. rewrite pydiv_R in Eh by (cbn; lra). cbn in Eh. congruence. }
  assert (py_repeat (st_rb st) (zlen hs) = repeat (st_rb st) 3) as Er by (rewrite Ehs; reflexivity).
  assert (py_repeat (st_D st) (zlen hs) = repeat (st_D st) 3) as Ed by (rewrite Ehs; reflexivity).
  rewrite Er, Ed in E. apply bind_ok in E. destruct E as (gf & Eg & E). apply Ok_inj in E. subst s0. cbn [with_gf gh_gf gh_bhe]. split; [reflexivity|].
  destruct (sizing_curves (field_response (mass_flow (gh_bhe s)) (gf_locations (gh_gf s))) (gh_B s) (st_rb st) (st_D st) (st_min_H st) (st_max_H st)
    (gf_log_time (gh_gf s)) (gf_locations (gh_gf s)) hs ltac:(lra) Eh ltac:(rewrite El; intros; apply Hresp)) as (g & Eg' & A1 & A2 & A3 & A4 & A5 & A6 & _).
  assert (g = gf) as -> by congruence.
  destruct (three_curves _ _ _ _ _ _ _ _ _ _ (proj2 L) Eh Eg) as (T1 & T2 & T3 & T4).
  repeat (split; [first [assumption | congruence]|]). exact T4.
Qed.

(** the interpolated g-function at a height limit is the one computed for that height *)
Lemma grab_stored s0 B mf c h g x y : gf_B (gh_gf s0) = B -> 0 < B -> gf_table (gh_gf s0) = t_empty -> length (gf_curves (gh_gf s0)) = 3%nat -> full_curves (gh_gf s0) ->
  lowest (gh_gf s0) (st_min_H st) -> highest (gh_gf s0) (st_max_H st) -> NoDup (GFunSpec.heights (gh_gf s0)) -> gf_log_time (gh_gf s0) = log_time ->
  h = st_min_H st \/ h = st_max_H st -> field_response mf c h (st_D st) (st_rb st) = Ok g ->
  In (h, {| cv_g := g; cv_rb := st_rb st; cv_D := st_D st |}) (gf_curves (gh_gf s0)) ->
  snd (grab_g_function interp (gh_gf s0) (B / h) (st_rb st) x y) = snd (grab_g_function interp (one_curve_of c B h g) (B / h) (st_rb st) x y).
Proof.
  intros EB PB Et L3 Hf Lo Hi Nd El Hh Eg Hin. pose proof limits as L. assert (Ph : 0 < h) by (destruct Hh; lra).
  assert (Zb : B / h <> 0) by (apply Rgt_not_eq, Rdiv_lt_0_compat; lra). assert (Eq : B / (B / h) = h) by (field; lra).
  destruct (Hresp mf c h (st_D st) (st_rb st)) as (g' & Eg' & Lg). assert (g' = g) as -> by congruence.
  assert (I3 : snd (g_function_interpolation interp (gh_gf s0) (B / h) k_default) = Ok (g, st_rb st, Some (st_D st), h)).
  { destruct (C57_interpolation interp (gh_gf s0) (B / h) k_default (st_min_H st) (st_max_H st) Et ltac:(lia) Hf ltac:(discriminate) Zb Lo Hi)
      as (k & _ & _ & I2 & I1 & _). rewrite EB, Eq in I1, I2.
    assert (R : snd (g_function_interpolation interp (gh_gf s0) (B / h) k_default) = Ok (interpolated interp (gh_gf s0) k h)).
    { assert (P : 0 < / 1000000) by (apply Rinv_0_lt_compat; lra).
      destruct Hh as [-> | ->]; [apply I1|apply I2]; try lra; rewrite Rminus_diag_eq, Rabs_R0 by reflexivity; exact P. }
    rewrite R. f_equal. rewrite (stored_reading _ _ _ _ _ Hinterp Nd Hin) by (cbn [cv_g]; congruence). reflexivity. }
  assert (I1 : snd (g_function_interpolation interp (one_curve_of c B h g) (B / h) k_default) = Ok (g, st_rb st, Some (st_D st), h)).
  { exact (proj1 (C56_stored_height_partial interp (one_curve_of c B h g) h {| cv_g := g; cv_rb := st_rb st; cv_D := st_D st |} (B / h) eq_refl Ph Zb Eq)). }
  unfold grab_g_function. destruct (g_function_interpolation interp (gh_gf s0) (B / h) k_default) as (t & r).
  destruct (g_function_interpolation interp (one_curve_of c B h g) (B / h) k_default) as (t' & r'). cbn [snd] in *. subst r r'. cbn [bind]. now rewrite El.
Qed.

(** at a height limit, the exchanger with the g-functions of sizing behaves as the one the search builds *)
Lemma stored_simulation m c h s s0 sh : ready c (st_max_H st) = Ok s -> with_g_functions s = Ok s0 -> ready c h = Ok sh ->
  (h = st_min_H st /\ (m = m_hourly \/ gh_load s = gh_load sh /\ gh_hour s = gh_hour sh)) \/ h = st_max_H st ->
  let r0 := sim_once m (with_H s0 h) in let r := sim_once m sh in
  snd r0 = snd r /\ forall x, snd r = Ok x -> gh_results (fst r0) = gh_results (fst r).
Proof.
  intros E E0 Eh Hh. pose proof limits as L.
  assert (Ph : 0 < h) by (destruct Hh as [(-> & _)| ->]; lra).
  destruct (ready_inv _ _ _ E) as (V1 & mf & B & g & b & A1 & A2 & A3 & A4 & A5 & A6 & A7 & A8 & A9 & A10 & A11 & A12).
  destruct (ready_inv _ _ _ Eh) as (V1' & mf' & B' & gh & b' & D1 & D2 & D3 & D4 & D5 & D6 & D7 & D8 & D9 & D10 & D11 & D12).
  assert (mf' = mf) as -> by congruence. assert (B' = B) as -> by congruence. assert (b' = b) as -> by congruence.
  assert (PB := spacing_positive c B Hrb A2).
  destruct (g_functions_inv s s0 E0 ltac:(rewrite A10; reflexivity)) as (G1 & G2 & G3 & G4 & G5 & G6 & G7 & G8 & G9 & G10 & G11).
  rewrite A9, A10 in G11. cbn [one_curve_of gf_locations] in G11.
  assert (Hh' : h = st_min_H st \/ h = st_max_H st) by tauto.
  assert (GS := fun x y => grab_stored s0 B mf c h gh x y ltac:(congruence) PB G3 G4 G5 G6 G7 G8 G9 Hh' D3 (G11 h gh Hh' D3)).
  assert (LD : m = m_hourly \/ gh_load s = gh_load sh /\ gh_hour s = gh_hour sh).
  { destruct Hh as [(_ & X)| ->]; [exact X|right]. assert (sh = s) as -> by congruence. auto. }
  cbn zeta. unfold ghe_simulate. rewrite G1. cbn [with_H with_gf gh_H gh_B gh_bhe gh_gf gh_nbh gh_load gh_hour gh_results].
  rewrite D5, D7, D8, A5, A8, pydiv_R by lra. cbn [with_bhe gh_bhe].
  destruct (compute_equivalent _ _ _ _ _ _) as [e|x]; [|split; [reflexivity|discriminate]].
  destruct (short_time _ _ _ _ _) as [r|x]; [|split; [reflexivity|discriminate]].
  cbn [with_short_time with_eq with_bhe with_H with_gf gh_gf gh_sts gh_ts gh_H gh_B gh_nbh gh_load gh_hour gh_bhe gh_eq gh_results].
  specialize (GS (fst (snd r)) (snd (snd r))). rewrite D10.
  destruct (grab_g_function interp (gh_gf s0) (B / h) (st_rb st) (fst (snd r)) (snd (snd r))) as (t & q).
  destruct (grab_g_function interp (one_curve_of c B h gh) (B / h) (st_rb st) (fst (snd r)) (snd (snd r))) as (t' & q'). cbn [snd] in GS. subst q'.
  destruct q as [cu|x]; [|split; [reflexivity|discriminate]].
  cbn [with_short_time with_eq with_bhe with_H with_gf gh_gf gh_sts gh_ts gh_H gh_B gh_nbh gh_load gh_hour gh_bhe gh_eq gh_results]. rewrite A6, D6.
  assert (SL : simulated_loads m (st_start st) (st_end st) (st_loads st) (gh_load s) (gh_hour s) = simulated_loads m (st_start st) (st_end st) (st_loads st) (gh_load sh) (gh_hour sh)).
  { destruct LD as [-> |(-> & ->)]; reflexivity. }
  unfold simulate. rewrite SL. destruct (let! qt := simulated_loads m _ _ _ (gh_load sh) _ in _) as [[[[T Dt] mx] mn]|x]; [|split; [reflexivity|discriminate]].
  split; reflexivity.
Qed.
End World.

(** ** sizing an exchanger *)
Section Sizing.
Variable h_circular : R -> R -> R -> R -> R -> R -> R -> R.
Variable h_annulus : R -> R -> R -> R -> R -> R -> R -> R -> R * R.
Variable r_conduction : R -> R -> R -> R.
Variable eff_u : R -> pg_u -> R -> R -> R.
Variable eff_c : R -> pg_c -> R -> R -> R.
Variable brentq : (R -> res R) -> R -> R -> list R * res R.
Variable solver : list R -> list R -> list R -> list R -> list R.
Variable interp : ikind -> list (R * R) -> R -> R.
Variable field_response : R -> list (R * R) -> R -> R -> R -> res (list R).
Variable brentq_dialogue : R -> R -> dialogue.
Variable st : settings.
Notation sim_once := (ghe_simulate h_circular h_annulus r_conduction eff_u eff_c brentq solver interp st).
Notation with_g_functions := (compute_g_functions field_response st).
Notation size_up := (size_up h_circular h_annulus r_conduction eff_u eff_c brentq solver interp field_response brentq_dialogue st).
Hypothesis Hlim : 0 < st_min_H st < st_max_H st.
Hypothesis Hasks : forall lo up, asks_within lo up (brentq_dialogue lo up).

Definition excess_at (m : method) (s0 : ghe) (h : R) : res R := excess st (snd (sim_once m (with_H s0 h))).

Lemma size_up_inv m s s1 : 0 < gh_B s ->
  (forall mf c H D r, exists g, field_response mf c H D r = Ok g /\ length g = length (gf_log_time (gh_gf s))) ->
  size_up m s = Ok s1 ->
  exists s0, with_g_functions s = Ok s0 /\ st_min_H st <= gh_H s1 <= st_max_H st /\ s1 = fst (sim_once m (with_H s0 (gh_H s1))) /\
  (exists x, snd (sim_once m (with_H s0 (gh_H s1))) = Ok x) /\
  exists a b, excess_at m s0 (st_min_H st) = Ok a /\ excess_at m s0 (st_max_H st) = Ok b /\
    (a < 0 /\ b < 0 /\ gh_H s1 = st_max_H st \/ 0 < a /\ 0 < b /\ gh_H s1 = st_max_H st \/
     (a < 0 < b \/ b < 0 < a) /\ exists pts x, listen (excess_at m s0) (brentq_dialogue (st_min_H st) (st_max_H st)) = (pts, Ok x) /\ gh_H s1 = last pts (st_max_H st)).
Proof.
  intros HB Hf E. unfold Program.size_up in E. apply bind_ok in E. destruct E as (s0 & E0 & E). exists s0. split; [exact E0|].
  destruct (ghe_size _ _ _ _ _ _ _ _ _ _ m s0) as (s', r) eqn:Es. apply bind_ok in E. destruct E as (u & -> & E). apply Ok_inj in E. subst s'. destruct u.
  destruct (C92_results_of_final_height _ _ _ _ _ _ _ _ _ _ _ _ s s0 s1 HB Hlim Hf E0 Hasks Es) as (R1 & R2 & x & R3 & _).
  split; [exact R1|]. split; [exact R2|]. split; [eauto|].
  destruct (C92_sizing_without_history h_circular h_annulus r_conduction eff_u eff_c brentq solver interp field_response st m _ s s0 HB Hlim Hf E0 Hasks) as (S1 & S2 & _).
  rewrite Es in S1, S2. cbn [fst snd] in S1, S2. unfold size in S1, S2. rewrite pydiv_R in S1, S2 by (cbn; lra).
  set (f := fun h => let! x := from_scratch h_circular h_annulus r_conduction eff_u eff_c brentq solver interp st m s0 h in Ok (snd x)) in *.
  assert (Ef : forall h, f h = excess_at m s0 h).
  { intro h. unfold f, from_scratch, excess_at. destruct (sim_once m (with_H s0 h)) as (q, [y|e]); reflexivity. }
  assert (El : forall d, listen f d = listen (excess_at m s0) d).
  { induction d as [y next IH|q]; [|reflexivity]. cbn [listen]. rewrite Ef. destruct (excess_at m s0 y); [now rewrite IH|reflexivity]. }
  rewrite <- !Ef.
  destruct (f (st_min_H st)) as [a|e] eqn:Ea.
  2:{ exfalso. unfold solve_root in S1. rewrite Ea in S1. discriminate S1. }
  destruct (f (st_max_H st)) as [b|e] eqn:Eb.
  2:{ exfalso. unfold solve_root in S1. rewrite Ea, Eb in S1. discriminate S1. }
  exists a, b. split; [reflexivity|]. split; [reflexivity|].
  destruct (C69_solve_root (fun f lo up => listen f (brentq_dialogue lo up)) (nadd (st_max_H st) (st_min_H st) / nofZ 2) f (st_min_H st) (st_max_H st) a b Ea Eb)
    as (P1 & P2 & P3 & P4). cbn zeta in *.
  destruct (solve_root _ _ _ _ _) as (pts, q). cbn [fst snd] in S1, S2. rewrite evaluate_all in S2.
  destruct (Rtotal_order a 0) as [Ha|[Ha|Ha]]; [|specialize (P4 (or_introl Ha)); exfalso; injection P4 as _ ->; discriminate S1|];
  (destruct (Rtotal_order b 0) as [Hb|[Hb|Hb]]; [|specialize (P4 (or_intror Hb)); exfalso; injection P4 as _ ->; discriminate S1|]).
  - left. injection (P2 (conj Ha Hb)) as -> _. auto.
  - right. right. split; [auto|]. injection (P1 (or_introl (conj Ha Hb))) as -> ->. rewrite <- El. destruct (listen f _) as (l, [y|e]); [|discriminate S1].
    exists l, y. split; [reflexivity|]. rewrite S2. destruct l as [|z l]; [reflexivity|]. apply (last_indep (z :: l)). discriminate.
  - right. right. split; [auto|]. injection (P1 (or_intror (conj Hb Ha))) as -> ->. rewrite <- El. destruct (listen f _) as (l, [y|e]); [|discriminate S1].
    exists l, y. split; [reflexivity|]. rewrite S2. destruct l as [|z l]; [reflexivity|]. apply (last_indep (z :: l)). discriminate.
  - right. left. injection (P3 (conj Ha Hb)) as -> _. auto.
Qed.

Lemma updated_flow H b : mass_flow (update_bhe h_circular h_annulus r_conduction eff_u eff_c H b) = mass_flow b.
Proof.
  destruct b as [b|b|b|]; [| | |reflexivity]; unfold update_bhe, mass_flow.
  - destruct b; reflexivity.
  - destruct b; reflexivity.
  - cbn. unfold compute_resistances_c. cbn. repeat match goal with |- context [match ?x with (_, _) => _ end] => destruct x end. reflexivity.
Qed.
Lemma simulated_same m s : let s1 := fst (sim_once m s) in
  gh_B s1 = gh_B s /\ gh_nbh s1 = gh_nbh s /\ gh_H s1 = gh_H s /\ gh_load s1 = gh_load s /\ gh_hour s1 = gh_hour s /\
  mass_flow (gh_bhe s1) = mass_flow (gh_bhe s) /\
  (forall H, update_bhe h_circular h_annulus r_conduction eff_u eff_c H (gh_bhe s1) = update_bhe h_circular h_annulus r_conduction eff_u eff_c H (gh_bhe s)) /\
  exists t, gh_gf s1 = with_table (gh_gf s) t.
Proof.
  cbn zeta. unfold ghe_simulate. destruct (pydiv _ _).
  2:{ cbn. repeat (split; [reflexivity|]). exists (gf_table (gh_gf s)). destruct (gh_gf s); reflexivity. }
  assert (Z : exists t, gh_gf s = with_table (gh_gf s) t) by (exists (gf_table (gh_gf s)); destruct (gh_gf s); reflexivity).
  assert (U := fun H => update_absorbs h_circular h_annulus r_conduction eff_u eff_c H (gh_H s) (gh_bhe s)).
  assert (W := updated_flow (gh_H s) (gh_bhe s)).
  destruct (compute_equivalent _ _ _ _ _ _); [|cbn; repeat (split; [first [reflexivity | assumption]|]); exact Z].
  destruct (short_time _ _ _ _ _); [|cbn; repeat (split; [first [reflexivity | assumption]|]); exact Z].
  destruct (grab_g_function _ _ _ _ _ _) as (t & [c|]); [|cbn; repeat (split; [first [reflexivity | assumption]|]); exists t; reflexivity].
  destruct (simulate _ _ _ _ _ _ _ _ _ _ _ _ _ _) as [[[[T D] mx] mn]|]; cbn; repeat (split; [first [reflexivity | assumption]|]); exists t; reflexivity.
Qed.

(** an exchanger that has been simulated or sized gets the same g-functions as before *)
Lemma g_functions_again m s s0 h : with_g_functions s = Ok s0 -> let s1 := fst (sim_once m (with_H s0 h)) in
  exists s0', with_g_functions s1 = Ok s0' /\ gh_gf s0' = gh_gf s0 /\ gh_B s0' = gh_B s0 /\ gh_nbh s0' = gh_nbh s0 /\ gh_load s0' = gh_load s0 /\ gh_hour s0' = gh_hour s0 /\
  gh_results s0' = gh_results s1 /\
  forall H, update_bhe h_circular h_annulus r_conduction eff_u eff_c H (gh_bhe s0') = update_bhe h_circular h_annulus r_conduction eff_u eff_c H (gh_bhe s0).
Proof.
  intros E s1. destruct (simulated_same m (with_H s0 h)) as (A1 & A2 & A3 & A4 & A5 & A6 & A7 & t & A8). fold s1 in A1, A2, A3, A4, A5, A6, A7, A8.
  cbn [with_H gh_B gh_nbh gh_H gh_load gh_hour gh_bhe gh_gf] in *.
  unfold compute_g_functions in E |- *. apply bind_ok in E. destruct E as (hs & Eh & E). rewrite Eh. cbn [bind]. cbn zeta in *.
  apply bind_ok in E. destruct E as (gf & Eg & E). apply Ok_inj in E.
  assert (L : gf_locations gf = gf_locations (gh_gf s) /\ gf_log_time gf = gf_log_time (gh_gf s)).
  { clear - Eg. unfold compute_live_g_function in Eg. apply bind_ok in Eg. destruct Eg as (cs & _ & Eg). unfold configure in Eg.
    destruct (fold_left configure_body cs ([], [], [])) as ((g_tmp, rbs), ds).
    apply bind_ok in Eg. destruct Eg as (f & _ & Eg). apply bind_ok in Eg. destruct Eg as (ks & _ & Eg). apply bind_ok in Eg. destruct Eg as (g & _ & Eg).
    apply bind_ok in Eg. destruct Eg as (rb & _ & Eg). apply Ok_inj in Eg. now subst gf. }
  rewrite <- E in A1, A2, A4, A5, A6, A7, A8. cbn [with_gf gh_B gh_nbh gh_H gh_load gh_hour gh_bhe gh_gf] in *.
  rewrite A8. cbn [with_table gf_locations gf_log_time]. destruct L as (-> & ->). rewrite A6, A1, Eg. cbn [bind].
  exists (with_gf s1 gf). rewrite <- E. cbn [with_gf gh_gf gh_B gh_nbh gh_load gh_hour gh_results gh_bhe]. repeat (split; [first [reflexivity | assumption]|]). exact A7.
Qed.

Lemma size_again m1 m2 s s1 : 0 < gh_B s ->
  (forall mf c H D r, exists g, field_response mf c H D r = Ok g /\ length g = length (gf_log_time (gh_gf s))) ->
  size_up m1 s = Ok s1 -> size_up m2 s1 = size_up m2 s.
Proof.
  intros HB Hf E. destruct (size_up_inv m1 s s1 HB Hf E) as (s0 & E0 & R1 & R2 & (x & R3) & _).
  destruct (g_functions_again m1 s s0 (gh_H s1) E0) as (s0' & E0' & G1 & G2 & G3 & G4 & G5 & G6 & G7). rewrite <- R2 in E0', G6.
  destruct (g_functions_cover field_response st s s0 Hlim Hf E0) as (T0 & N0 & F0 & B0 & B1 & Cv & R0).
  destruct (effective_kind_for k_default (length (gf_curves (gh_gf s0))) ltac:(lia) ltac:(discriminate)) as (k & K0 & _).
  assert (A : alike h_circular h_annulus r_conduction eff_u eff_c k s0 s0').
  { constructor; try assumption. exists t_empty. split; [rewrite G1; now apply with_table_same|now left]. }
  destruct (size_agrees h_circular h_annulus r_conduction eff_u eff_c brentq solver interp st m2 s0 T0 ltac:(lia) F0 B0 ltac:(lra) k K0 (gh_results s) brentq_dialogue s0
    (alike_refl _ _ _ _ _ k s0 T0) R0 ltac:(lra) ltac:(lra) Cv Hasks) as (S1 & S2).
  destruct (size_agrees h_circular h_annulus r_conduction eff_u eff_c brentq solver interp st m2 s0 T0 ltac:(lia) F0 B0 ltac:(lra) k K0 (gh_results s0') brentq_dialogue s0'
    A eq_refl ltac:(lra) ltac:(lra) Cv Hasks) as (Q1 & Q2).
  unfold Program.size_up. rewrite E0, E0'. cbn [bind].
  destruct (ghe_size _ _ _ _ _ _ _ _ _ _ m2 s0) as (a, ra). destruct (ghe_size _ _ _ _ _ _ _ _ _ _ m2 s0') as (b, rb). cbn [fst snd] in *.
  assert (SZ : forall hs hs', size (fun f lo up => listen f (brentq_dialogue lo up)) (fresh h_circular h_annulus r_conduction eff_u eff_c brentq solver interp st m2 s0)
      (st_max_H st) (st_min_H st) {| sz_height := hs; sz_result := None |} = size (fun f lo up => listen f (brentq_dialogue lo up))
      (fresh h_circular h_annulus r_conduction eff_u eff_c brentq solver interp st m2 s0) (st_max_H st) (st_min_H st) {| sz_height := hs'; sz_result := None |}).
  { intros. unfold size. rewrite !pydiv_R by (cbn; lra). reflexivity. }
  rewrite (SZ (gh_H s0') (gh_H s0)) in Q1, Q2.
  destruct (size _ _ (st_max_H st) (st_min_H st) {| sz_height := gh_H s0; sz_result := None |}) as (z, r) eqn:Ez. cbn [fst snd] in *. subst ra rb.
  destruct r as [[]|e]; cbn [bind]; [|reflexivity]. f_equal.
  destruct (C53_results_of_final_height (fun f lo up => listen f (brentq_dialogue lo up)) (fresh h_circular h_annulus r_conduction eff_u eff_c brentq solver interp st m2 s0)
    (st_max_H st) (st_min_H st) {| sz_height := gh_H s0; sz_result := None |} z) with (2 := Ez) as (T & c & Ef & Er).
  { intros f l u (y & Hy) p Hp. eapply listen_ok; eassumption. }
  destruct S2 as (_ & _ & S2). destruct Q2 as (_ & _ & Q2). rewrite Er in S2, Q2. destruct S2 as (_ & S2 & _), Q2 as (_ & Q2 & _).
  now rewrite (S2 eq_refl), (Q2 eq_refl).
Qed.

(** the object after a successful simulation at a height between the limits holds everything that simulation used *)
Lemma simulated_parts m s s0 h v : 0 < gh_B s ->
  (forall mf c H D r, exists g, field_response mf c H D r = Ok g /\ length g = length (gf_log_time (gh_gf s))) ->
  with_g_functions s = Ok s0 -> st_min_H st <= h <= st_max_H st -> snd (sim_once m (with_H s0 h)) = Ok v ->
  let s1 := fst (sim_once m (with_H s0 h)) in let b := update_bhe h_circular h_annulus r_conduction eff_u eff_c h (gh_bhe s) in
  compute_equivalent h_circular r_conduction (eff_u h) (eff_c h) brentq b = Ok (gh_eq s1) /\ gh_bhe s1 = b /\
  short_time eff_u solver st h (gh_eq s1) = Ok (gh_ts s1, gh_sts s1) /\
  exists x y, snd (grab_g_function interp (gh_gf s1) (gh_B s1 / gh_H s1) (st_rb st) (fst (gh_sts s1)) (snd (gh_sts s1))) = Ok (x, y) /\
  simulate (g_lag x y (gh_ts s1)) (IZR (gh_nbh s1)) h (2 * PI * st_soil_k st) (st_ugt st) (effective_resistance eff_u eff_c h b) (mass_flow b) (fl_cp (st_fluid st))
    m (st_start st) (st_end st) (st_loads st) (gh_load s1) (gh_hour s1) = Ok (fst (gh_results s1), snd (gh_results s1), fst v, snd v).
Proof.
  intros HB Hf E0 Hh. destruct (g_functions_cover field_response st s s0 Hlim Hf E0) as (T0 & N0 & F0 & B0 & B1 & Cv & R0).
  destruct (effective_kind_for k_default (length (gf_curves (gh_gf s0))) ltac:(lia) ltac:(discriminate)) as (k & K0 & _).
  assert (Eb : gh_bhe s0 = gh_bhe s).
  { unfold compute_g_functions in E0. apply bind_ok in E0. destruct E0 as (? & _ & E0). apply bind_ok in E0. destruct E0 as (? & _ & E0). apply Ok_inj in E0. now subst s0. }
  unfold ghe_simulate. cbn [with_H gh_H gh_B gh_bhe]. rewrite pydiv_R by lra. rewrite Eb.
  cbn [with_bhe gh_bhe].
  destruct (compute_equivalent _ _ _ _ _ _) as [e|x]; [|discriminate].
  destruct (short_time _ _ _ _ _) as [(ts, r)|x] eqn:Es; [|discriminate].
  cbn [with_short_time with_eq with_bhe with_H gh_gf gh_sts gh_ts gh_H gh_B gh_nbh gh_load gh_hour gh_bhe gh_eq gh_results fst snd].
  assert (Zb : gh_B s0 / h <> 0) by (apply Rgt_not_eq, Rdiv_lt_0_compat; lra).
  assert (Eh : gf_B (gh_gf s0) / (gh_B s0 / h) = h) by (rewrite <- B0; field; lra).
  assert (G0 := fun t => grab_history interp (gh_gf s0) k (gh_B s0 / h) (st_rb st) (fst r) (snd r) T0 ltac:(lia) F0 Zb ltac:(rewrite Eh; now apply Cv) K0 t).
  assert (G1 := G0 t_empty (or_introl eq_refl)). rewrite <- with_table_same in G1 by exact T0. 
  destruct (grab_g_function interp (gh_gf s0) (gh_B s0 / h) (st_rb st) (fst r) (snd r)) as (t0 & g0). cbn [snd] in G0, G1. injection G1 as ->.
  destruct g0 as [(x, y)|w]; [|discriminate]. specialize (G0 (t_built k false) (or_intror eq_refl)).
  cbn [with_gf with_short_time with_eq with_bhe with_H gh_gf gh_sts gh_ts gh_H gh_B gh_nbh gh_load gh_hour gh_bhe gh_eq gh_results fst snd].
  destruct (simulate _ _ _ _ _ _ _ _ _ _ _ _ _ _) as [[[[T D] mx] mn]|w] eqn:Esim; [|discriminate]. cbn [fst snd]. intro Ev. apply Ok_inj in Ev. subst v.
  cbn zeta. cbn [with_results with_gf with_short_time with_eq with_bhe with_H gh_gf gh_sts gh_ts gh_H gh_B gh_nbh gh_load gh_hour gh_bhe gh_eq gh_results fst snd].
  split; [reflexivity|]. split; [reflexivity|]. split; [exact Es|]. exists x, y. rewrite G0. split; [reflexivity|exact Esim].
Qed.
End Sizing.
