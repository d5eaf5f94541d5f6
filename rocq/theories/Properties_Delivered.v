(** Property C107: what follows a successful search; and a concrete bi-zoned design from the constraints to the delivered exchanger, with the hybrid method
    throughout, for which the conditions of C96, C97, C99, C106 and C107 hold together *)
From Coq Require Import ZArith List Bool Reals Lia Lra.
From Verif Require Import Base Num BaseLemmas Order Spec Utilities UtilitiesProofs Loads LoadsSpec LoadsProofs LoadsSim LoadsHybrid Properties_Utilities Properties_Loads Ghe GheSpec GheProofs Properties_Ghe
  GFun GFunSpec GFunProofs Properties_GFun Radial RadialSpec RadialProofs RadialGrid RadialConcave Properties_Radial Bhe Equiv EquivSpec EquivProofs Properties_Equiv
  Export System SystemSpec SystemProofs Properties_System Properties_Peaks Properties_Blocks
  Domains DomainsProofs Search SearchSpec SearchProofs SearchTheorems SearchNested SearchZoned Design Properties_Domains Properties_Search DesignProofs Properties_Design Properties_Zoned
  Program ProgramProofs Properties_Program.
Import ListNotations.
Open Scope R_scope.

Section World.
Variable h_circular : R -> R -> R -> R -> R -> R -> R -> R.
Variable h_annulus : R -> R -> R -> R -> R -> R -> R -> R -> R * R.
Variable r_conduction : R -> R -> R -> R.
Variable eff_u : R -> pg_u -> R -> R -> R.
Variable eff_c : R -> pg_c -> R -> R -> R.
Variable brentq : (R -> res R) -> R -> R -> list R * res R.
Variable solver : list R -> list R -> list R -> list R -> list R.
Variable interp : ikind -> list (R * R) -> R -> R.
Variable field_response : R -> list (R * R) -> R -> R -> R -> res (list R).
Variable brentq_dialogue : R -> R -> dialogue.
Variable st : settings.
Variable m : method.
Variable flow : flow_kind.
Variable V_flow : R.
Variable log_time : list R.
Notation ready := (ready h_circular h_annulus r_conduction eff_u eff_c brentq solver field_response st flow V_flow log_time).
Notation simulated := (ghe_simulate h_circular h_annulus r_conduction eff_u eff_c brentq solver interp st).
Notation with_g_functions := (compute_g_functions field_response st).
Notation size_up := (size_up h_circular h_annulus r_conduction eff_u eff_c brentq solver interp field_response brentq_dialogue st).
Notation program := (program h_circular h_annulus r_conduction eff_u eff_c brentq solver interp field_response brentq_dialogue st m flow V_flow log_time).
Notation whole := (whole h_circular h_annulus r_conduction eff_u eff_c brentq solver interp field_response brentq_dialogue st m flow V_flow log_time).
Notation excess_of := (excess_of h_circular h_annulus r_conduction eff_u eff_c brentq solver interp field_response st m flow V_flow log_time).
Notation loads_alike := (loads_alike h_circular h_annulus r_conduction eff_u eff_c brentq solver field_response st flow V_flow log_time).
Notation ordinary := (ordinary field_response brentq_dialogue st log_time).
Notation minH := (st_min_H st).
Notation maxH := (st_max_H st).

(** what follows a successful search is the sizing of the selected field built for the maximum height, whatever the routine left behind *)
Lemma whole_is_sizing gc r H mm k c s' : ordinary -> program gc r H = Ok (Some (k, c), s') ->
  exists s, ready c maxH = Ok s /\ whole gc r H mm = match size_up mm s with Ok s1 => Ok (Some (k, c), s1) | Err e => Err e end.
Proof.
  intros O E. destruct (selected _ _ _ _ _ _ _ _ _ _ _ _ _ _ _ gc r H _ s' E) as (k' & c' & Ek & Ok' & Hg). assert (c' = c) as -> by congruence. clear k' Ek.
  assert (Er : exists s, ready c maxH = Ok s).
  { assert (X : exists q, excess_of c maxH = Ok (Fin q)) by (destruct Ok' as [((q & q' & _ & _ & Eq & _) & _)|(q & Eq & _)]; eauto). destruct X as (q & Eq).
    destruct (excess_of_ok _ _ _ _ _ _ _ _ _ _ _ _ _ _ _ _ _ Eq) as (s & _ & _ & Er & _). eauto. }
  destruct Er as (s & Er). exists s. split; [exact Er|]. unfold Program.whole. rewrite E. cbn [bind fst]. unfold left_ghe. cbn [snd].
  assert (Z : r = bi_zoned \/ r <> bi_zoned) by (destruct r; auto; right; discriminate). destruct Z as [-> |Z].
  - destruct Hg as (h & Eh & Hg). rewrite Hg, Er. cbn [bind]. unfold sized_height in Eh. rewrite Er in Eh. cbn [bind] in Eh.
    destruct (size_up m_hybrid s) as [s2|] eqn:Es2; [|discriminate Eh]. cbn [bind].
    rewrite (C98_sizing_again _ _ _ _ _ _ _ _ _ _ st _ _ _ m_hybrid mm c maxH s s2 O Er Es2). destruct (size_up mm s); reflexivity.
  - assert (Hg' : Search.ghe _ s' = (c, maxH)) by (destruct r; try exact Hg; congruence). rewrite Hg', Er.
    destruct r; try congruence; cbn [bind]; destruct (size_up mm s); reflexivity.
Qed.

(** C107: with the hourly method or loads alike (C96), the excess a at the minimum and b at the maximum height of the field that the search selected decide what
    follows: the search never selects a field for which both are positive; with both negative it is delivered at the maximum height; with different
    signs at the height that the root finder evaluated last; and if one of them is exactly zero sizing raises ZeroDivisionError *)
Theorem C107_after_the_search :
  forall gc r H k c s' a b, ordinary -> passes_through interp -> m = m_hourly \/ loads_alike -> program gc r H = Ok (Some (k, c), s') ->
  excess_of c minH = Ok (Fin a) -> excess_of c maxH = Ok (Fin b) ->
  exists s s0, ready c maxH = Ok s /\ with_g_functions s = Ok s0 /\ ~ (0 < a /\ 0 < b) /\
  (a < 0 /\ b < 0 -> exists s1, whole gc r H m = Ok (Some (k, c), s1) /\ gh_H s1 = maxH) /\
  (a < 0 < b \/ b < 0 < a -> let heard := listen (fun h => excess st (snd (simulated m (with_H s0 h)))) (brentq_dialogue minH maxH) in
     (forall pts p x, heard = (pts ++ [p], Ok x) -> exists s1, whole gc r H m = Ok (Some (k, c), s1) /\ gh_H s1 = p)) /\
  (a = 0 \/ b = 0 -> whole gc r H m = Err ZeroDivisionError).
Proof.
  intros gc r H k c s' a b O Hi Hm E Ea Eb. destruct (whole_is_sizing gc r H m k c s' O E) as (s & Er & Ew).
  destruct (C97_sizing_outcome h_circular h_annulus r_conduction eff_u eff_c brentq solver interp field_response brentq_dialogue st flow V_flow log_time m c maxH s O Er) as (s0 & E0 & Sz).
  cbn zeta in Sz. exists s, s0. split; [exact Er|]. split; [exact E0|].
  destruct (excess_of_ok _ _ _ _ _ _ _ _ _ _ _ _ _ _ _ _ _ Ea) as (sl & xl & Xl & Erl & Esl). destruct (excess_of_ok _ _ _ _ _ _ _ _ _ _ _ _ _ _ _ _ _ Eb) as (sh & xh & Xh & Erh & Esh).
  assert (xl = a) as -> by congruence. assert (xh = b) as -> by congruence. assert (sh = s) as -> by congruence.
  destruct (C96_search_and_sizing_agree _ _ _ _ _ _ _ interp _ brentq_dialogue st _ _ _ m c minH s s0 sl O Hi Er E0 Erl (or_introl (conj eq_refl Hm))) as (Al & _).
  destruct (C96_search_and_sizing_agree _ _ _ _ _ _ _ interp _ brentq_dialogue st _ _ _ m c maxH s s0 s O Hi Er E0 Er (or_intror eq_refl)) as (Ah & _).
  destruct (Sz a b) as (S1 & S2 & S3); [rewrite Al; exact Esl|rewrite Ah; exact Esh|]. split; [|split; [|split]].
  - intros (P1 & P2). destruct (selected _ _ _ _ _ _ _ _ _ _ _ _ _ _ _ gc r H _ s' E) as (k' & c' & Ek & Ok' & _). assert (c' = c) as -> by congruence.
    destruct Ok' as [((q & q' & Eq & Hq & _) & _)|(q & Eq & Hq)]; [rewrite val_R in Hq; assert (q = a) by congruence|assert (q = b) by congruence]; lra.
  - intro X. destruct (S1 (or_introl X)) as (s1 & Es & Hs). exists s1. rewrite Ew, Es. auto.
  - intros X heard pts p x Eh. destruct (S2 X pts p x Eh) as (s1 & Es & Hs). exists s1. rewrite Ew, Es. auto.
  - intro X. rewrite Ew, (S3 X). reflexivity.
Qed.
End World.

(** the plant of Properties_System, loaded for one hour in every month *)
Notation hybrid_plant hi lo mxH mnH := (serving (single_hours 1000) (plant hi lo mxH mnH)).
Notation hybrid_simulated st s := (ghe_simulate plant_film plant_annulus plant_wall plant_Rb plant_Rc plant_root thomas plant_lookup st m_hybrid s).
Notation hybrid_fields st V := (System.calculate_excess plant_film plant_annulus plant_wall plant_Rb plant_Rc plant_root thomas plant_lookup plant_response st flow_borehole V eskilson m_hybrid).

Lemma hybrid_evaluable hi lo mxH mnH V c n : 0 < V -> c <> [] -> (30000 <= n)%Z -> (n mod 120 <> 0)%Z ->
  exists x, hybrid_fields (hybrid_plant hi lo mxH mnH) V c (height_for (IZR n)) = Ok x.
Proof.
  intros HV Hc Hn Hd. destruct eskilson_head as (r & Er). set (P := hybrid_plant hi lo mxH mnH).
  assert (Hn1 : 30000 <= IZR n) by (apply (IZR_le 30000); lia).
  destruct (plant_bhe hi lo mxH mnH (V / 1000 * 998)) as (e & Ee & Hu). destruct (Hu (IZR n) ltac:(lra)) as (Ad & Ts). clear Hu.
  destruct (not_a_short_time n Hd ltac:(lia)) as (S1 & S2).
  change (utube_of plant_Rb (plant hi lo mxH mnH)) with (utube_of plant_Rb P) in *.
  assert (Et : t_s (utube_of plant_Rb P (height_for (IZR n)) e) * exp (- (17 / 2)) = IZR n).
  { rewrite Ts, Rmult_assoc, <- exp_plus. replace (17 / 2 + - (17 / 2)) with 0 by ring. rewrite exp_0. ring. }
  apply (C103_hybrid_field plant_film plant_annulus plant_wall plant_Rb plant_Rc plant_root thomas plant_lookup plant_response P flow_borehole V eskilson
    c (height_for (IZR n)) (V * INR (length c)) (V / 1000 * 998) (Single e) e eskilson (- (17 / 2)) r); try reflexivity; try assumption.
  - cbn. lia.
  - apply height_positive. lra.
  - cbn. lra.
  - cbn. rewrite pydiv_R by lra. cbn. unfold zlen. rewrite <- INR_IZR_INZ. reflexivity.
  - cbn. lra.
  - exact solver_exists.
  - rewrite <- Er. exact eskilson_increasing.
  - rewrite Er. reflexivity.
  - rewrite Et. exact S1.
  - intro j. rewrite Et. apply S2.
  - intros rej ext E. now apply single_hours_fit.
  - rewrite <- Er, Ts. change (hours_through (st_end P)) with (8760 * 1)%Z. apply eskilson_reach. lra.
Qed.

Lemma plant_sound hi lo mxH mnH n : (30000 <= n)%Z -> forall mf b e, make_bhe plant_film plant_annulus plant_wall (hybrid_plant hi lo mxH mnH) mf = Ok b ->
  compute_equivalent plant_film plant_wall (plant_Rb (height_for (IZR n))) (plant_Rc (height_for (IZR n))) plant_root b = Ok e ->
  admissible (utube_of plant_Rb (hybrid_plant hi lo mxH mnH) (height_for (IZR n)) e).
Proof.
  intros Hn mf b e Eb Ee. assert (Hn1 : 30000 <= IZR n) by (apply (IZR_le 30000); lia). destruct (plant_bhe hi lo mxH mnH mf) as (e' & Ee' & Hu).
  assert (b = Single e') as -> by (apply Ok_inj; rewrite <- Ee'; symmetry; exact Eb).
  destruct (plant_utube (IZR n)) as (u & Hu'). destruct (Hu' _ _ _ _ _ _ Ee') as (_ & Ec & _). assert (e = e') as -> by congruence. apply (Hu (IZR n) ltac:(lra)).
Qed.

(** the loads of all these fields: some entry extracts 1 kW *)
Lemma hybrid_profile : exists load' hour' x0, apart 1 (0 :: hour') /\ last hour' 0 = IZR (hours_through 12) /\ length load' = length hour' /\ In (-1) load' /\
  forall hi lo mxH mnH V c n, 0 < V -> c <> [] -> (30000 <= n)%Z -> (n mod 120 <> 0)%Z ->
  exists s, plant_ready (hybrid_plant hi lo mxH mnH) V c (height_for (IZR n)) = Ok s /\ gh_load s = 0 :: 0 :: load' /\ gh_hour s = 0 :: x0 :: hour'.
Proof.
  assert (Ready : forall hi lo mxH mnH V c n, 0 < V -> c <> [] -> (30000 <= n)%Z -> (n mod 120 <> 0)%Z ->
    exists s, plant_ready (hybrid_plant hi lo mxH mnH) V c (height_for (IZR n)) = Ok s).
  { intros hi lo mxH mnH V c n HV Hc Hn Hd. destruct (hybrid_evaluable hi lo mxH mnH V c n HV Hc Hn Hd) as (ex & Ex).
    destruct (C93_excess_is_compliance _ _ _ _ _ _ _ _ _ _ _ _ _ _ _ _ ex Ex) as (s & _ & _ & _ & _ & _ & _ & Eb & _). exists s. exact Eb. }
  destruct (Ready 0 0 0 0 1 [(0, 0)] 30001%Z ltac:(lra) ltac:(discriminate) ltac:(lia) ltac:(vm_compute; discriminate)) as (s0 & E0).
  destruct (built_loads _ _ _ _ _ _ _ _ _ _ _ _ _ _ s0 (plant_sound 0 0 0 0 30001 ltac:(lia)) E0) as (e & sts & gs & rej & ext & cl & hl & ((load, hour), sf) & A1 & A2 & A3 & A4 & A5 & A6 & A7 & A8).
  cbn [fst snd] in A7, A8. change (st_loads (hybrid_plant 0 0 0 0)) with (single_hours 1000) in A3. rewrite single_hours_split in A3.
  assert (rej = single_hours 0 /\ ext = single_hours 1) as (-> & ->) by (split; congruence). clear A3.
  assert (Gt : forall h, 0 < h -> g_lag sts gs (t_s (utube_of plant_Rb (hybrid_plant 0 0 0 0) (height_for 30001) e)) h = interp1d sts gs (ln (h * 3600 / t_s (utube_of plant_Rb (hybrid_plant 0 0 0 0) (height_for 30001) e))))
    by (intros h Hh; unfold g_lag; destruct (Rle_dec h 0); [lra|reflexivity]).
  assert (NN : forall c x, 0 <= c -> In x (single_hours c) -> 0 <= x) by (intros c x Hc Hx; destruct (single_hours_values _ _ Hx); lra).
  destruct (loads_tables _ _ _ _ _ _ A4) as (HC & TC). destruct (loads_tables _ _ _ _ _ _ A5) as (HH & TH).
  destruct (C91_hours_advance_partial 1 cl hl 1 12 load hour sf ltac:(lra) ltac:(lia) HC HH) with (3 := A6) as (hour' & Eh & Ap & Elast & load' & Eld & Ll & Nz).
  { intros ld i [-> | ->] Hi; [apply (duration_bound _ _ _ _ _ _ A4 _ Hi)|apply (duration_bound _ _ _ _ _ _ A5 _ Hi)]. }
  { intros ld i Hl Hi Hp.
    assert (X : / 10 <= duration_of ld i <= 21 /\ (1 <= peak_day_of ld i <= days_of 2019 i)%Z).
    { destruct Hl as [-> | ->];
        [apply (C103_durations thomas _ _ sts gs solver_exists A1 A2 _ Gt (single_hours 0) cl A4 (fun x => NN 0 x ltac:(lra)) (single_hours_intermittent 0 ltac:(lra)) i Hi Hp)
        |apply (C103_durations thomas _ _ sts gs solver_exists A1 A2 _ Gt (single_hours 1) hl A5 (fun x => NN 1 x ltac:(lra)) (single_hours_intermittent 1 ltac:(lra)) i Hi Hp)]. }
    split; [|apply X]. assert (Y : duration_of ld i = 1); [|lra]. destruct Hl as [-> | ->].
    - exfalso. destruct (TC i Hi) as (_ & (In0 & _)). unfold month_of in In0. apply In_firstn, In_skipn, single_hours_values in In0. lra.
    - destruct (C102_example thomas _ _ sts gs solver_exists A1 A2) as (ld & El & Du). assert (ld = hl) by (apply (Ok_inj (A := loads R)); rewrite <- El; exact A5). subst ld. now apply Du. }
  exists load', hour', (IZR (hours_through (1 - 1))). split; [exact Ap|]. split; [exact Elast|]. split; [exact Ll|]. split.
  - destruct (C45_peaks_kept_partial _ _ _ _ _ _ _ _ _ _ cl hl 1 12 A4 A5 ltac:(lia) ltac:(lia)) as (ld2 & h2 & sf2 & block & P & InM & Bl).
    assert (ld2 = load /\ h2 = hour) as (-> & ->) by (change (st_start (hybrid_plant 0 0 0 0)) with 1%Z in A6; change (st_end (hybrid_plant 0 0 0 0)) with 12%Z in A6; split; congruence).
    destruct (Bl 1%Z ltac:(lia)) as (rate & _ & Kept). cbn zeta in Kept. specialize (Kept ltac:(lia)). change (calendar_month 1) with 1%Z in Kept.
    assert (Pk : peak_of hl 1 = 1). { destruct (TH 1%Z ltac:(lia)) as (_ & M). destruct (single_hours_peak 1 1 ltac:(lra) ltac:(lia)) as (M1 & _). eapply is_max_unique; eauto. }
    assert (Dh : peak_day_of hl 1 = 15%Z).
    { destruct (two_day_tables _ _ _ _ _ _ A5) as (M & LD & TD). destruct (TD 1%Z ltac:(lia)) as (w & dy & n & T1 & T2 & T3 & T4 & T5).
      destruct (single_hours_peak 1 1 ltac:(lra) ltac:(lia)) as (_ & M2 & _). rewrite (M2 n T4) in T5. unfold peak_day_of. rewrite (nth_error_nth _ _ _ T2). lia. }
    assert (Dc : peak_day_of cl 1 <> 15%Z).
    { destruct (two_day_tables _ _ _ _ _ _ A4) as (M & LD & TD). destruct (TD 1%Z ltac:(lia)) as (w & dy & n & T1 & T2 & T3 & T4 & T5).
      destruct T4 as (mx & N1 & (I1 & _) & N2). assert (mx = 0) by (unfold month_of in I1; apply In_firstn, In_skipn, single_hours_values in I1; destruct I1; assumption). subst mx.
      assert (n = 0)%nat. { destruct n as [|n]; [reflexivity|]. exfalso. apply (N2 0%nat ltac:(lia)). exact (single_hours_month 0 1 0 ltac:(lia) ltac:(vm_compute; split; congruence)). }
      subst n. unfold peak_day_of. rewrite (nth_error_nth _ _ _ T2). lia. }
    rewrite Dh in Kept. destruct InM as (months & Nm & El' & _). assert (El'' : load' = map fst (flat_map block months)) by congruence. rewrite El''.
    assert (I1 : In 1%Z months) by (apply (nth_error_In _ 0); rewrite Nm; reflexivity).
    assert (I2 : exists x, In (-1, x) (block 1%Z)).
    { assert (Ex : exists x y, entries_of_peak hl (-1) rate 1 = [x; (-1, y)]).
      { unfold entries_of_peak. cbn zeta. change (calendar_month 1) with 1%Z. rewrite Pk. destruct (Rlt_dec 0 1); [|lra]. do 2 eexists. f_equal. f_equal. f_equal. lra. }
      destruct Ex as (x & y & Ex). exists y. destruct Kept as (_ & K1 & K2).
      destruct (Z.lt_trichotomy (peak_day_of cl 1) 15) as [D|[D|D]]; [rewrite (K1 D)|congruence|rewrite (K2 D)]; rewrite Ex;
        [apply in_or_app; right|]; apply in_or_app; left; right; left; reflexivity. }
    destruct I2 as (x & I2). apply in_map_iff. exists (-1, x). split; [reflexivity|]. apply in_flat_map. exists 1%Z. auto.
  - intros hi lo mxH mnH V c n HV Hc Hn Hd. destruct (Ready hi lo mxH mnH V c n HV Hc Hn Hd) as (s & Es). exists s. split; [exact Es|].
    destruct (C105_search plant_film plant_annulus plant_wall plant_Rb plant_Rc plant_root thomas plant_response (hybrid_plant 0 0 0 0) flow_borehole 1 eskilson
      plant_film plant_annulus plant_wall plant_Rb plant_Rc plant_root thomas plant_response (hybrid_plant hi lo mxH mnH) flow_borehole V eskilson solver_exists solver_exists eq_refl eq_refl eq_refl C105_example _ _ s0 _ _ s
      (plant_sound 0 0 0 0 30001 ltac:(lia)) (plant_sound hi lo mxH mnH n Hn) E0 Es) as (X & Y). rewrite <- X, <- Y, A7, A8, Eld, Eh. auto.
Qed.

(** a field of the loaded plant at the height for n seconds: rises of the fluid temperature per borehole *)
Lemma hybrid_evaluates load' hour' x0 n : apart 1 (0 :: hour') -> last hour' 0 = IZR (hours_through 12) -> length load' = length hour' -> In (-1) load' ->
  (30000 <= n)%Z -> (n mod 120 <> 0)%Z ->
  (forall hi lo mxH mnH V c n, 0 < V -> c <> [] -> (30000 <= n)%Z -> (n mod 120 <> 0)%Z ->
    exists s, plant_ready (hybrid_plant hi lo mxH mnH) V c (height_for (IZR n)) = Ok s /\ gh_load s = 0 :: 0 :: load' /\ gh_hour s = 0 :: x0 :: hour') ->
  exists A : nat -> R, forall hi lo mxH mnH V c, 0 < V -> c <> [] ->
  let st := hybrid_plant hi lo mxH mnH in
  exists s s' T D mx mn, plant_ready st V c (height_for (IZR n)) = Ok s /\ hybrid_simulated st s = (s', Ok (mx, mn)) /\ gh_results s' = (T, D) /\
  length T = length load' /\ is_max mx T /\ is_min mn T /\
  forall i, (1 <= i <= length load')%nat -> at_step T i = 18 + (A i - 1000 * at_step load' i / (2 * (V / 1000 * 998) * 4182)) / INR (length c).
Proof.
  intros Ap Elast Ll Neg Hn Hd Prof. destruct eskilson_head as (r & Er). destruct (plant_utube (IZR n)) as (u & Hu).
  destruct (plant_bhe 0 0 0 0 1) as (e0 & E0 & Hu0). assert (Hn1 : 30000 <= IZR n) by (apply (IZR_le 30000); lia).
  destruct (Hu0 (IZR n) ltac:(lra)) as (Ad & Ts). rewrite (proj1 (Hu _ _ _ _ _ _ E0)) in Ad, Ts. clear e0 E0 Hu0.
  destruct (not_a_short_time n Hd ltac:(lia)) as (S1 & S2).
  assert (Et : t_s u * exp (- (17 / 2)) = IZR n).
  { rewrite Ts, Rmult_assoc, <- exp_plus. replace (17 / 2 + - (17 / 2)) with 0 by ring. rewrite exp_0. ring. }
  assert (Hh : 0 < height_for (IZR n)) by (apply height_positive; lra).
  destruct (System_fuel thomas u) as ((sts, gs) & Es).
  destruct (C89_g_function_range thomas u _ sts gs eskilson (map (fun g => g - ln (75 / 1000 / (75 / 1000))) eskilson) (- (17 / 2)) r Ad Es Er eskilson_increasing ltac:(apply map_length)
    ltac:(rewrite Et; exact S1) ltac:(intro j; rewrite Et; apply S2)) as (x & y & Ec & _ & _ & Gr).
  set (Q := map (fun z => z * 1000) load'). set (t := hour').
  assert (LQ : length Q = length load') by (unfold Q; apply map_length).
  assert (Nl : (0 < length load')%nat) by (destruct load'; [destruct Neg|cbn; lia]).
  assert (QV : forall i, (1 <= i <= length load')%nat -> at_step Q i = 1000 * at_step load' i).
  { intros i Hi. destruct i as [|i]; [lia|]. cbn [at_step]. unfold Q. rewrite (nth_indep _ 0 ((fun z => z * 1000) 0)) by (rewrite map_length; lia). rewrite (map_nth (fun z => z * 1000)). ring. }
  set (G := value_or_0 (g_lag x y (t_s u))).
  assert (P0 : 0 < first_second < 1) by (unfold first_second; split; [apply Rinv_0_lt_compat; lra|lra]).
  assert (Cov : covers (g_lag x y (t_s u)) G t (length Q)).
  { intros i j Hij. assert (X : 3600 * IZR (hours_through 12) <= t_s u * exp (last eskilson 0)).
    { rewrite Ts. change (hours_through 12) with (8760 * 1)%Z. apply eskilson_reach. lra. }
    assert (El0 : last (0 :: hour') 0 = IZR (hours_through 12)) by (rewrite <- Elast; destruct hour'; [cbn in Ll; lia|reflexivity]).
    assert (Y : first_second <= 3600 * (at_step t i - at_step t j) <= t_s u * exp (last eskilson 0)).
    { unfold t. apply C90_advancing_times; [|rewrite El0; exact X|lia].
      clear - Ap P0. revert Ap. generalize (0 :: hour'). induction l as [|a [|a' l] IH]; [auto|auto|]. cbn [apart]. intros (A & Bp). split; [lra|]. apply IH. exact Bp. }
    destruct (Gr (at_step t i - at_step t j)) as (G1 & _). destruct (G1 Y) as (w & Ew & _). unfold G, value_or_0. rewrite Ew. reflexivity. }
  set (H := height_for (IZR n)) in *. pose proof PI_RGT_0 as PP.
  exists (fun i => wall_rise G (fun k => at_step Q k / 1 / H / (2 * PI * 2)) (at_step t) i + 1000 * at_step load' i / H * (15 / 100)).
  intros hi lo mxH mnH V c HV Hc st.
  assert (Lc : (1 <= length c)%nat) by (destruct c; [congruence|cbn; lia]).
  destruct (plant_bhe hi lo mxH mnH (V / 1000 * 998)) as (e & Ee & _). destruct (Hu _ _ _ _ _ _ Ee) as (Eu & Eq & Re).
  destruct (hybrid_evaluable hi lo mxH mnH V c n HV Hc Hn Hd) as (ex & Ex). fold H in Ex. fold st in Ex.
  destruct (C93_excess_is_compliance _ _ _ _ _ _ _ _ _ _ _ _ _ _ _ _ ex Ex) as (s & s' & mx & mn & Vb & g & B & Eb & Er' & _ & EH & En & _ & _ & _ & EB & Eg & Egf & EgB).
  assert (Eg' : g = eskilson) by (unfold plant_response in Eg; congruence). subst g. clear Eg.
  destruct (sim_extremes _ _ _ _ _ _ _ _ _ _ _ _ _ _ Er') as (Mx & Mn).
  assert (Q1 : simulated_loads m_hybrid (st_start st) (st_end st) (st_loads st) (gh_load s) (gh_hour s) = Ok (Q, t)).
  { destruct (Prof hi lo mxH mnH V c n HV Hc Hn Hd) as (s2 & E2 & L1 & L2). assert (s2 = s) as -> by (apply Ok_inj; rewrite <- E2; exact Eb). rewrite L1, L2. reflexivity. }
  destruct (C50_superposition (g_lag x y (t_s u)) G (INR (length c)) H (2 * PI * 2) 18 (15 / 100) (V / 1000 * 998) 4182 Q t) as (T & D & Ed & LT & LD & F).
  { apply not_0_INR. lia. } { lra. } { lra. } { lra. } { intro X. rewrite X in LQ. cbn [length] in LQ. lia. } { unfold t. lia. } { exact Cov. }
  assert (Res : gh_results s' = (T, D)).
  { assert (Er2 := Er'). unfold ghe_simulate in Er2. rewrite EH, EgB in Er2. assert (PB := spacing_positive st c B ltac:(cbn; lra) EB).
    rewrite pydiv_R in Er2 by lra. cbn [with_bhe gh_bhe] in Er2.
    assert (Eb2 : update_bhe plant_film plant_annulus plant_wall plant_Rb plant_Rc H (gh_bhe s) = Single e).
    { destruct (ready_inv _ _ _ _ _ _ _ _ _ _ _ _ _ _ _ Eb) as (V1 & mf & B' & g' & b & A1 & _ & _ & A4 & _ & _ & _ & A8 & _).
      assert (mf = V / 1000 * 998). { cbn in A1. rewrite pydiv_R in A1 by lra. cbn in A1. congruence. } subst mf.
      rewrite A8, (made_updated _ _ _ _ _ _ _ _ _ A4). apply Ok_inj. rewrite <- A4. exact Ee. }
    rewrite Eb2, Eq in Er2. unfold short_time in Er2. change (utube_of plant_Rb st H e) with (utube_of plant_Rb (plant hi lo mxH mnH) H e) in Er2. rewrite Eu, Es in Er2. cbn [bind] in Er2.
    cbn [with_short_time with_eq with_bhe gh_gf gh_sts gh_ts gh_nbh gh_bhe gh_load gh_hour fst snd] in Er2. rewrite Egf in Er2.
    assert (I1 := proj1 (C56_stored_height_partial plant_lookup (gh_gf s) H {| cv_g := eskilson; cv_rb := st_rb st; cv_D := st_D st |} (B / H)
      ltac:(rewrite Egf; reflexivity) Hh ltac:(apply Rgt_not_eq, Rdiv_lt_0_compat; lra) ltac:(rewrite Egf; cbn [gf_B]; field; lra))).
    rewrite Egf in I1. unfold grab_g_function in Er2.
    destruct (g_function_interpolation plant_lookup _ (B / H) k_default) as (tb & rg). cbn [snd cv_g cv_rb cv_D] in I1. subst rg. cbn [bind gf_log_time] in Er2.
    change (combine_sts_lts eskilson (borehole_radius_correction eskilson (st_rb st) (st_rb st)) sts gs = Ok (x, y)) in Ec.
    rewrite Ec in Er2. cbn [fst snd] in Er2. cbn [with_gf with_short_time with_eq with_bhe gh_gf gh_sts gh_ts gh_nbh gh_bhe gh_load gh_hour fst snd] in Er2. rewrite Re, En, <- INR_IZR_INZ in Er2.
    unfold simulate in Er2. rewrite Q1 in Er2. cbn [bind fst snd] in Er2.
    change (make_bhe plant_film plant_annulus plant_wall st (V / 1000 * 998) = Ok (Single e)) in Ee.
    rewrite (made_flow plant_film plant_annulus plant_wall st _ _ Ee) in Er2.
    change (st_soil_k st) with 2 in Er2. change (st_ugt st) with 18 in Er2. change (fl_cp (st_fluid st)) with 4182 in Er2. rewrite Ed in Er2. cbn [bind fst snd] in Er2.
    destruct (nmaxl T); [|discriminate]. destruct (nminl T); [|discriminate]. cbn [bind] in Er2. now injection Er2 as <- _ _. }
  rewrite Res in Mx, Mn. exists s, s', T, D, mx, mn. split; [exact Eb|]. split; [exact Er'|]. split; [exact Res|]. split; [congruence|].
  split; [exact Mx|]. split; [exact Mn|]. intros i Hi. destruct (F i ltac:(lia)) as (_ & ->). rewrite (QV i Hi).
  assert (Nc : INR (length c) <> 0) by (apply not_0_INR; lia).
  assert (W : wall_rise G (fun k => at_step Q k / INR (length c) / H / (2 * PI * 2)) (at_step t) i = wall_rise G (fun k => at_step Q k / 1 / H / (2 * PI * 2)) (at_step t) i / INR (length c)).
  { unfold wall_rise. match goal with |- _ = ?a / ?b => change (a / b) with (a * / b) end. rewrite <- sumf_scal. apply sumf_ext. intros j _. field. repeat split; lra. }
  rewrite W. field. repeat split; lra.
Qed.

(** limits and a flow for which one borehole is too little and more are enough, at either height *)
Lemma hybrid_limits : exists V hi lo, 0 < V /\ let st := hybrid_plant hi lo high_height low_height in
  forall h c, h = low_height \/ h = high_height -> c <> [] ->
  exists s s' mx mn T D, plant_ready st V c h = Ok s /\ hybrid_simulated st s = (s', Ok (mx, mn)) /\ gh_results s' = (T, D) /\
  (length c = 1%nat -> 0 < cost hi lo mx mn) /\ ((2 <= length c)%nat -> cost hi lo mx mn < 0).
Proof.
  destruct hybrid_profile as (load' & hour' & x0 & Ap & Elast & Ll & Neg & Prof).
  destruct (hybrid_evaluates load' hour' x0 60030 Ap Elast Ll Neg ltac:(lia) ltac:(vm_compute; discriminate) Prof) as (A1 & F1).
  destruct (hybrid_evaluates load' hour' x0 120060 Ap Elast Ll Neg ltac:(lia) ltac:(vm_compute; discriminate) Prof) as (A2 & F2).
  destruct (bounded A1 (length load')) as (M1 & P1 & B1). destruct (bounded A2 (length load')) as (M2 & P2 & B2). destruct (bounded (at_step load') (length load')) as (K & K0 & BK).
  destruct (nminl_total load') as (m0 & _ & (Im & Lm)); [intros ->; destruct Neg|]. assert (Hm := Lm _ Neg).
  set (M := M1 + M2 + 1). set (V := 1000000 * - m0 / (2 * 998 * 4182 * (8 * M))).
  assert (HM : 1 <= M) by (unfold M; lra).
  assert (HV : 0 < V) by (apply Rdiv_lt_0_compat; lra).
  assert (EV : forall q, 1000 * q / (2 * (V / 1000 * 998) * 4182) = - (8 * M) * (q / m0)) by (intro q; unfold V; field; lra).
  exists V, (18 + 6 * M), (18 - M - 8 * M * K - 1). split; [exact HV|]. intros st h c Hh Hc.
  assert (W : exists A : nat -> R, (forall i, (i <= length load')%nat -> - M <= A i <= M) /\
     exists s s' T D mx mn, plant_ready st V c h = Ok s /\ hybrid_simulated st s = (s', Ok (mx, mn)) /\ gh_results s' = (T, D) /\
     length T = length load' /\ is_max mx T /\ is_min mn T /\ forall i, (1 <= i <= length load')%nat -> at_step T i = 18 + (A i + 8 * M * (at_step load' i / m0)) / INR (length c)).
  { destruct Hh as [-> | ->]; [exists A1|exists A2]; (split; [intros i Hi; unfold M; first [specialize (B1 i Hi); lra | specialize (B2 i Hi); lra]|]);
      [destruct (F1 (18 + 6 * M) (18 - M - 8 * M * K - 1) high_height low_height V c HV Hc) as (s & s' & T & D & mx & mn & X1 & X2 & X3 & X4 & X5 & X6 & X7)
      |destruct (F2 (18 + 6 * M) (18 - M - 8 * M * K - 1) high_height low_height V c HV Hc) as (s & s' & T & D & mx & mn & X1 & X2 & X3 & X4 & X5 & X6 & X7)];
      exists s, s', T, D, mx, mn; (split; [exact X1|]); repeat (split; [assumption|]); intros i Hi; rewrite X7, EV by exact Hi; f_equal; f_equal; ring. }
  clear F1 F2 B1 B2. destruct W as (A & B & s & s' & T & D & mx & mn & E1 & E2 & E3 & LT & Mx & Mn & FT).
  exists s, s', mx, mn, T, D. split; [exact E1|]. split; [exact E2|]. split; [exact E3|].
  assert (Lc : (1 <= length c)%nat) by (destruct c; [congruence|cbn; lia]). assert (Nc : 1 <= INR (length c)) by (apply (le_INR 1); exact Lc).
  assert (Dv : forall x, x / INR (length c) * INR (length c) = x) by (intro x; field; lra).
  assert (Wi : forall i, (1 <= i <= length load')%nat -> - K <= at_step load' i / m0 <= 1).
  { intros i Hi. destruct i as [|i]; [lia|]. cbn [at_step]. assert (Lo := Lm (nth i load' 0) (nth_In load' 0 (n := i) ltac:(lia))). assert (Up := BK (S i) ltac:(lia)). cbn [at_step] in Up.
    assert (KM : K * (m0 + 1) <= 0) by nra. assert (Z : nth i load' 0 / m0 * - m0 = - nth i load' 0) by (field; lra). split; apply Rmult_le_reg_r with (- m0); try lra; rewrite Z; nra. }
  assert (Si : forall i, (1 <= i <= length load')%nat -> - (M + 8 * M * K) <= A i + 8 * M * (at_step load' i / m0) <= 9 * M).
  { intros i Hi. destruct (Wi i Hi). specialize (B i ltac:(lia)). assert (0 <= M * (1 - at_step load' i / m0)) by (apply Rmult_le_pos; lra). assert (0 <= M * (at_step load' i / m0 + K)) by (apply Rmult_le_pos; lra). split; lra. }
  assert (At : forall x, In x T -> exists i, (1 <= i <= length load')%nat /\ x = 18 + (A i + 8 * M * (at_step load' i / m0)) / INR (length c)).
  { intros x Hx. apply In_nth with (d := 0) in Hx. destruct Hx as (k & Hk & <-). exists (S k). split; [lia|]. rewrite <- FT by lia. reflexivity. }
  split.
  - intro L1. destruct (C49_cost_is_compliance (18 + 6 * M) (18 - M - 8 * M * K - 1) mx mn) as (_ & C1 & _).
    apply In_nth with (d := 0) in Im. destruct Im as (k & Hk & Ek). assert (X := FT (S k) ltac:(lia)). rewrite L1 in X. change (INR 1) with 1 in X.
    assert (Top := proj2 Mx (at_step T (S k)) ltac:(cbn [at_step]; apply nth_In; lia)). rewrite X in Top. cbn [at_step] in Top. rewrite Ek in Top.
    assert (m0 / m0 = 1) as Q1 by (field; lra). rewrite Q1 in Top. specialize (B (S k) ltac:(lia)). lra.
  - intro L2. assert (2 <= INR (length c)) by (apply (le_INR 2); exact L2).
    destruct (C49_cost_is_compliance (18 + 6 * M) (18 - M - 8 * M * K - 1) mx mn) as (_ & _ & _ & [-> | ->]).
    + destruct (At mx (proj1 Mx)) as (i & Hi & ->). destruct (Si i Hi) as (_ & S2).
      assert ((A i + 8 * M * (at_step load' i / m0)) / INR (length c) <= 9 * M / 2); [|lra]. apply Rmult_le_reg_r with (INR (length c)); [lra|].
      rewrite Dv. assert (0 <= M * (INR (length c) - 2)) by (apply Rmult_le_pos; lra). lra.
    + destruct (At mn (proj1 Mn)) as (i & Hi & ->). destruct (Si i Hi) as (S1 & _).
      assert (- (M + 8 * M * K) <= (A i + 8 * M * (at_step load' i / m0)) / INR (length c)); [|lra]. apply Rmult_le_reg_r with (INR (length c)); [lra|].
      rewrite Dv.
      assert (0 <= M * K) by (apply Rmult_le_pos; lra). assert (0 <= (M + 8 * M * K) * (INR (length c) - 1)) by (apply Rmult_le_pos; lra). lra.
Qed.

Notation hybrid_excess st V := (excess_of plant_film plant_annulus plant_wall plant_Rb plant_Rc plant_root thomas plant_lookup plant_response st m_hybrid flow_borehole V eskilson).
Notation hybrid_whole st V := (whole plant_film plant_annulus plant_wall plant_Rb plant_Rc plant_root thomas plant_lookup plant_response (bisection (1 / 1000)) st m_hybrid flow_borehole V eskilson).
Lemma hybrid_is_ordinary hi lo : plant_ordinary (hybrid_plant hi lo high_height low_height).
Proof.
  destruct plant_heights as (A & B). split; [cbn; lra|]. split; [exact A|]. split; [exact B|]. split; [intros; exists eskilson; auto|]. intros. apply bisection_within.
Qed.
Lemma hybrid_loads_alike hi lo V : loads_alike plant_film plant_annulus plant_wall plant_Rb plant_Rc plant_root thomas plant_response (hybrid_plant hi lo high_height low_height) flow_borehole V eskilson.
Proof.
  intros c s s' E E'.
  exact (C105_search plant_film plant_annulus plant_wall plant_Rb plant_Rc plant_root thomas plant_response (hybrid_plant hi lo high_height low_height) flow_borehole V eskilson
      plant_film plant_annulus plant_wall plant_Rb plant_Rc plant_root thomas plant_response (hybrid_plant hi lo high_height low_height) flow_borehole V eskilson solver_exists solver_exists
      eq_refl eq_refl eq_refl C105_example _ _ s _ _ s' (plant_sound hi lo high_height low_height 60030 ltac:(lia)) (plant_sound hi lo high_height low_height 120060 ltac:(lia)) E E').
Qed.

(** land of 12 m by 12 m, spacing between 5 and 6 m: one domain of nine fields, from one borehole to three by three *)
Definition yard : @constraints R :=
  {| gc_length := Some 12; gc_width := Some 12; gc_B := Some 6; gc_B_min := Some 5; gc_B_max_x := Some 6; gc_B_max_y := Some 6 |}.
Lemma yard_inputs : nested_inputs yard 12 12 5 6 6.
Proof. repeat split; lra. Qed.
Lemma yard_numbers : Rceil (12 / 6 + 1) = 3%Z /\ Rfloor (12 / 5 + 1) = 3%Z.
Proof. split; [apply Rceil_unique; lra|apply Rfloor_unique; lra]. Qed.
Lemma yard_candidates : exists d, bi_rectangle_zoned_nested 12 12 5 6 6 = Ok [d] /\ sizes d = [1; 2; 3; 4; 5; 6; 7; 8; 9]%Z.
Proof.
  destruct (C14_bi_zoned_staircase 12 12 12 12 false 5 6 6 ltac:(left; repeat split; lra) ltac:(lra) ltac:(lra) ltac:(lra) ltac:(lra)) as (path & pre & d & ds & E & Hs & Hst & HF);
    cbn [fst snd] in *; destruct yard_numbers as (E1 & E2); rewrite ?E1, ?E2 in *; try lia.
  destruct path as [|p path]; [|destruct Hst as (X & _); congruence]. inversion HF as [|? ? ? ? Ed HF' X Y]; subst. inversion HF'; subst. exists (pre ++ d). split; [exact E|].
  destruct (C13_zoned_domain 12 12 3 3 false ltac:(lra) ltac:(lra) ltac:(lia) ltac:(lia)) as (d' & Ed' & Ld & _ & (r & Er) & _). cbn [fst snd] in Ed. assert (d' = d) by congruence. subst d'.
  unfold sizes in *. rewrite map_app, Hs, Er. destruct r as [|x r]; [reflexivity|]. apply (f_equal (@length Z)) in Er. rewrite map_length in Er. unfold zlen in Ld. cbn [length] in Er. lia.
Qed.

(** the conditions of C99 and C107 (and those of C96, C97 and C106 for the hybrid method): two or more boreholes are selected and delivered at the maximum height *)
Example C99_C107_example : exists V hi lo d k c s' s1 a b, let st := hybrid_plant hi lo high_height low_height in
  plant_ordinary st /\ loads_alike plant_film plant_annulus plant_wall plant_Rb plant_Rc plant_root thomas plant_response st flow_borehole V eskilson /\
  nested_inputs yard 12 12 5 6 6 /\ bi_rectangle_zoned_nested 12 12 5 6 6 = Ok [d] /\
  (forall c0 cR tl tu tm, reads _ (hybrid_excess st V) low_height high_height d c0 cR tl tu tm ->
     (neg tl -> pos tu -> False) /\ (exists a b, tu = Fin a /\ tm = Fin b /\ b <= a)) /\
  program plant_film plant_annulus plant_wall plant_Rb plant_Rc plant_root thomas plant_lookup plant_response (bisection (1 / 1000)) st m_hybrid flow_borehole V eskilson
    yard bi_zoned high_height = Ok (Some (k, c), s') /\ hybrid_excess st V c low_height = Ok (Fin a) /\ a < 0 /\ hybrid_excess st V c high_height = Ok (Fin b) /\ b < 0 /\
  hybrid_whole st V yard bi_zoned high_height m_hybrid = Ok (Some (k, c), s1) /\ (2 <= length c)%nat /\ gh_H s1 = high_height.
Proof.
  destruct hybrid_limits as (V & hi & lo & HV & L). cbn zeta in L. exists V, hi, lo. set (st := hybrid_plant hi lo high_height low_height) in *.
  assert (O := hybrid_is_ordinary hi lo). assert (Al := hybrid_loads_alike hi lo V). fold st in O, Al. destruct yard_candidates as (d & Ed & Sd). exists d.
  assert (Ex : forall h c, h = low_height \/ h = high_height -> c <> [] ->
    exists s x, plant_ready st V c h = Ok s /\ hybrid_excess st V c h = Ok (Fin x) /\ excess st (snd (hybrid_simulated st s)) = Ok x /\
    (length c = 1%nat -> 0 < x) /\ ((2 <= length c)%nat -> x < 0)).
  { intros h c Hh Hc. destruct (L h c Hh Hc) as (s & s' & mx & mn & T & D & E1 & E2 & E3 & P & N). exists s, (cost hi lo mx mn).
    assert (E4 : excess st (snd (hybrid_simulated st s)) = Ok (cost hi lo mx mn)) by (rewrite E2; reflexivity).
    split; [exact E1|]. split; [|auto]. unfold excess_of, System.calculate_excess. unfold ready in E1. rewrite E1. cbn [bind]. rewrite E4. reflexivity. }
  assert (Hd : forall f, In f d -> f <> []).
  { intros f Hf ->. apply (in_map (fun f => Z.of_nat (length f))) in Hf. fold (sizes d) in Hf. rewrite Sd in Hf. cbn in Hf. lia. }
  assert (Hd0 : forall f, nth_error d 0 = Some f -> length f = 1%nat).
  { intros f Hf. apply sizes_nth in Hf. rewrite Sd in Hf. cbn [nth_error] in Hf. assert (1%Z = Z.of_nat (length f)) by congruence. lia. }
  assert (Hdl : forall f, nth_error d 8 = Some f -> length f = 9%nat).
  { intros f Hf. apply sizes_nth in Hf. rewrite Sd in Hf. cbn [nth_error] in Hf. assert (9%Z = Z.of_nat (length f)) by congruence. lia. }
  assert (Ld : length d = 9%nat) by (apply (f_equal (@length Z)) in Sd; unfold sizes in Sd; rewrite map_length in Sd; exact Sd).
  set (cb := can_build plant_film plant_annulus plant_wall plant_Rb plant_Rc plant_root thomas plant_response st flow_borehole V eskilson).
  set (sh := sized_height plant_film plant_annulus plant_wall plant_Rb plant_Rc plant_root thomas plant_lookup plant_response (bisection (1 / 1000)) st flow_borehole V eskilson).
  assert (CB : forall f h, In f d -> h = low_height \/ h = high_height -> cb f h = Ok tt).
  { intros f h Hf Hh. destruct (Ex h f Hh (Hd f Hf)) as (s & x & E1 & _). unfold cb, can_build. rewrite E1. reflexivity. }
  (* sizing two or more boreholes *)
  assert (Sz : forall c, (2 <= length c)%nat -> exists s s1, plant_ready st V c high_height = Ok s /\ plant_size_up st m_hybrid s = Ok s1 /\ gh_H s1 = high_height).
  { intros c Lc. assert (Hc : c <> []) by (intros ->; cbn in Lc; lia).
    destruct (Ex high_height c (or_intror eq_refl) Hc) as (s & xh & E1 & _ & E2 & _ & Nh). destruct (Ex low_height c (or_introl eq_refl) Hc) as (sl & xl & E1l & _ & E2l & _ & Nl).
    specialize (Nh Lc). specialize (Nl Lc). exists s.
    destruct (C97_sizing_outcome plant_film plant_annulus plant_wall plant_Rb plant_Rc plant_root thomas plant_lookup plant_response (bisection (1 / 1000)) st flow_borehole V eskilson m_hybrid c high_height s O E1)
      as (s0 & E0 & Sz). cbn zeta in Sz.
    destruct (C96_search_and_sizing_agree plant_film plant_annulus plant_wall plant_Rb plant_Rc plant_root thomas plant_lookup plant_response (bisection (1 / 1000)) st flow_borehole V eskilson m_hybrid c low_height s s0 sl O
      lookup_passes E1 E0 E1l (or_introl (conj eq_refl (or_intror Al)))) as (Al' & _).
    destruct (C96_search_and_sizing_agree plant_film plant_annulus plant_wall plant_Rb plant_Rc plant_root thomas plant_lookup plant_response (bisection (1 / 1000)) st flow_borehole V eskilson m_hybrid c high_height s s0 s O
      lookup_passes E1 E0 E1 (or_intror eq_refl)) as (Ah & _).
    destruct (Sz xl xh) as (Sz1 & _); [change (st_min_H st) with low_height; rewrite Al'; exact E2l|change (st_max_H st) with high_height; rewrite Ah; exact E2|].
    destruct (Sz1 (or_introl (conj Nl Nh))) as (s1 & Es1 & Hs1). exists s1. auto. }
  destruct (C106_bi_zoned_succeeds_partial cb (hybrid_excess st V) sh low_height high_height yard 12 12 12 12 false 5 6 6 high_height [d] tt yard_inputs ltac:(left; repeat split; lra)) as (k & c & s' & Ep);
    destruct yard_numbers as (N1 & N2); rewrite ?N1, ?N2; try lia; try exact Ed.
  { intros f _ Hf. cbn [concat] in Hf. rewrite app_nil_r in Hf. apply CB; auto. }
  { intros d' [<- |[]] f h Hf Hh. assert (Hh' : h = low_height \/ h = high_height) by tauto. split; [exists tt; now apply CB|].
    destruct (Ex h f Hh' (Hd f Hf)) as (s & x & _ & E2 & _ & P & N). exists (Fin x). split; [exact E2|]. assert (Nf := Hd f Hf).
    destruct (Nat.eq_dec (length f) 1) as [A|A]; [left|right]; exists x; (split; [reflexivity|]); rewrite val_R; [now apply P|apply N]. destruct f; [congruence|cbn [length] in *; lia]. }
  { intros d' f [<- |[]] Hf. destruct (Ex low_height f (or_introl eq_refl) (Hd f (nth_error_In _ _ Hf))) as (s & x & _ & E2 & _ & P & _). exists (Fin x). split; [exact E2|].
    exists x. split; [reflexivity|]. rewrite val_R. apply P. now apply Hd0. }
  { intros f _ Hz. unfold zlen in Hz. destruct (Ex high_height f (or_intror eq_refl) ltac:(intros ->; cbn in Hz; lia)) as (s & x & _ & E2 & _ & _ & N). exists x. split; [exact E2|]. rewrite val_R. apply N. lia. }
  { intros f x Hf Hx Np. cbn [concat] in Hf. rewrite app_nil_r in Hf. assert (Nf := Hd f Hf). destruct (Ex high_height f (or_intror eq_refl) Nf) as (s & y & _ & E2 & _ & P & _).
    assert (Lf : (2 <= length f)%nat).
    { destruct (Nat.eq_dec (length f) 1) as [A|A]; [|destruct f; [congruence|cbn [length] in *; lia]]. exfalso. specialize (P A). rewrite E2 in Hx. assert (x = Fin y) as -> by congruence.
      destruct Np as [Np|(z & Ez & Hz)]; [congruence|]. assert (z = y) as -> by congruence. rewrite val_R in Hz. lra. }
    destruct (Sz f Lf) as (s2 & s1 & A1 & A2 & A3). exists (gh_H s1). unfold sh, sized_height. change (st_max_H st) with high_height. rewrite A1. cbn [bind]. rewrite A2. reflexivity. }
  exists k, c. change (program plant_film plant_annulus plant_wall plant_Rb plant_Rc plant_root thomas plant_lookup plant_response (bisection (1 / 1000)) st m_hybrid flow_borehole V eskilson
    yard bi_zoned high_height = Ok (Some (k, c), s')) in Ep.
  destruct (selected _ _ _ _ _ _ _ _ _ _ _ _ _ _ _ _ _ _ _ _ Ep) as (k' & c' & Ek & [(_ & X)|(x & Exc & Hx)] & h & _ & Hg); [congruence|]. assert (c' = c) as -> by congruence. clear k' Ek.
  assert (Lc : (2 <= length c)%nat).
  { assert (Hc : c <> []).
    { intros ->. destruct (excess_of_ok _ _ _ _ _ _ _ _ _ _ _ _ _ _ _ _ _ Exc) as (s & _ & _ & Er & _). destruct (ready_inv _ _ _ _ _ _ _ _ _ _ _ _ _ _ _ Er) as (? & ? & B & ? & ? & _ & EB & _). discriminate EB. }
    destruct (Ex high_height c (or_intror eq_refl) Hc) as (s & y & _ & E2 & _ & P & _). change (st_max_H st) with high_height in Exc. assert (x = y) by congruence. subst y.
    destruct (Nat.eq_dec (length c) 1) as [A|A]; [specialize (P A); lra|destruct c; [congruence|cbn [length] in *; lia]]. }
  destruct (Sz c Lc) as (s & s1 & A1 & A2 & A3). assert (Hc : c <> []) by (intros ->; cbn in Lc; lia).
  destruct (Ex low_height c (or_introl eq_refl) Hc) as (_ & a & _ & Ea & _ & _ & Na). destruct (Ex high_height c (or_intror eq_refl) Hc) as (_ & b & _ & Eb & _ & _ & Nb).
  exists s', s1, a, b. cbn zeta.
  split; [exact O|]. split; [exact Al|]. split; [exact yard_inputs|]. split; [exact Ed|]. split; [|split; [exact Ep|split; [exact Ea|split; [exact (Na Lc)|split; [exact Eb|split; [exact (Nb Lc)|split; [|split; [exact Lc|exact A3]]]]]]]].
  - intros c0 cR tl tu tm (R1 & R2 & R3 & R4 & R5). assert (L0 := Hd0 c0 R1). unfold zlen in R2. rewrite Ld in R2. assert (LR := Hdl cR R2).
    destruct (Ex low_height c0 (or_introl eq_refl) (Hd c0 (nth_error_In _ _ R1))) as (_ & x1 & _ & X1 & _ & P1 & _).
    destruct (Ex high_height c0 (or_intror eq_refl) (Hd c0 (nth_error_In _ _ R1))) as (_ & x2 & _ & X2 & _ & P2 & _).
    destruct (Ex high_height cR (or_intror eq_refl) (Hd cR (nth_error_In _ _ R2))) as (_ & x3 & _ & X3 & _ & _ & N3).
    specialize (P1 L0). specialize (P2 L0). specialize (N3 ltac:(lia)). split.
    + intros (q & Eq & Hq) _. assert (Fin q = Fin x1) by congruence. assert (q = x1) by congruence. rewrite val_R in Hq. lra.
    + exists x2, x3. split; [congruence|]. split; [congruence|]. lra.
  - unfold whole. rewrite Ep. cbn [bind]. unfold left_ghe. cbn [snd]. rewrite Hg. change (st_max_H st) with high_height. rewrite A1. cbn [bind]. rewrite A2. cbn [bind].
    rewrite (C98_sizing_again _ _ _ _ _ _ _ _ _ _ st _ _ _ m_hybrid m_hybrid c high_height s s1 O A1 A2), A2. reflexivity.
Qed.

Print Assumptions C107_after_the_search.
