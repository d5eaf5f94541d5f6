(** Properties C89-C94: one heat exchanger as a whole (ground_heat_exchangers.py, search_routines.py:72-109) *)
From Coq Require Import ZArith QArith List Bool Reals Lia Lra.
From Verif Require Import Base Num BaseLemmas Utilities Loads LoadsSpec LoadsProofs LoadsSim LoadsHybrid Properties_Utilities Properties_Loads Ghe GheSpec GheProofs Properties_Ghe
  GFun GFunSpec GFunProofs Properties_GFun Radial RadialSpec RadialProofs RadialGrid Properties_Radial Bhe Equiv EquivSpec EquivProofs Properties_Equiv
  Export System SystemSpec SystemProofs.
Import ListNotations.
Open Scope R_scope.

(** C89: the combined g-function of an exchanger can be read from 1e-12 s up to the last long time, and nowhere else; there it is
    the broken line through the table.  The first long time must not be one of the short times (C52). *)
Theorem C89_g_function_range :
  forall solver u fuel sts g lts glts l0 r, admissible u -> calc_sts_g_functions fuel solver u None false = Ok (sts, g) ->
  lts = l0 :: r -> increasing lts -> length glts = length lts ->
  first_second < t_s u * exp l0 -> (forall j, first_second + 120 * INR j <> t_s u * exp l0) ->
  exists x y, combine_sts_lts lts glts sts g = Ok (x, y) /\ increasing x /\ length y = length x /\
  forall hours,
    (first_second <= 3600 * hours <= t_s u * exp (last lts 0) ->
       exists w, g_lag x y (t_s u) hours = Ok w /\ on_line (combine x y) (ln (hours * 3600 / t_s u)) w) /\
    (~ first_second <= 3600 * hours <= t_s u * exp (last lts 0) -> g_lag x y (t_s u) hours = Err ValueError).
Proof.
  intros solver u fuel sts g lts glts l0 r Hu E El Hl Lg H0 Hj.
  destruct (table_ok solver u fuel sts g lts glts l0 r Hu E El Hl Lg H0 Hj) as (x & y & a & b & r' & Ec & Ex & Ix & Ly & Ea & Elast).
  exists x, y. repeat (split; [assumption|]). intro hours.
  destruct (g_lag_range x y a b r' (t_s u) hours Ex Ly Ix (t_s_pos u Hu)) as (G1 & G2). rewrite Ea, Elast in *. split; assumption.
Qed.
(** a borehole of about 67 m with Eskilson's times: the first of them is 120060 s *)
Definition tuned : utube := {| u_rb := 75 / 1000; u_H := sqrt (9 * (2 / 2343000) * (120060 * exp (17 / 2))); u_rin := 10 / 1000; u_rout := 13 / 1000;
  u_pipe_rhoCp := 1542000; u_fluid_rho := 998; u_fluid_cp := 4182; u_grout_rhoCp := 3901000; u_soil_k := 2; u_k_s := 2; u_soil_rhoCp := 2343000;
  u_Rf := 2 / 100; u_Rp := 1 / 10; u_Rb := 15 / 100 |}.
Definition eskilson : list R := map (fun z => IZR z / 1000) Eskilson_log_times_milli.
Lemma tuned_positive : 0 < 9 * (2 / 2343000) * (120060 * exp (17 / 2)).
Proof. pose proof (exp_pos (17 / 2)). lra. Qed.
Lemma tuned_admissible : admissible tuned.
Proof. pose proof sqrt2_bounds. constructor; cbn; try lra; try (split; lra). apply sqrt_lt_R0, tuned_positive. Qed.
Lemma tuned_t_s : t_s tuned = 120060 * exp (17 / 2).
Proof.
  unfold t_s. cbn [tuned u_H u_k_s u_soil_rhoCp]. rewrite <- Rsqr_pow2, Rsqr_sqrt by (left; exact tuned_positive). field.
Qed.
Lemma eskilson_increasing : increasing eskilson.
Proof. unfold eskilson, Eskilson_log_times_milli. cbn [map increasing]. lra. Qed.
Lemma eskilson_head : exists r, eskilson = - (17 / 2) :: r.
Proof. unfold eskilson, Eskilson_log_times_milli. cbn [map]. eexists. f_equal. lra. Qed.
Lemma tuned_first : t_s tuned * exp (- (17 / 2)) = 120060.
Proof. rewrite tuned_t_s, Rmult_assoc, <- exp_plus. replace (17 / 2 + - (17 / 2)) with 0 by ring. rewrite exp_0. ring. Qed.
Lemma tuned_apart : first_second < t_s tuned * exp (- (17 / 2)) /\ forall j, first_second + 120 * INR j <> t_s tuned * exp (- (17 / 2)).
Proof.
  rewrite tuned_first. unfold first_second. split; [lra|]. intros j X. rewrite INR_IZR_INZ in X.
  assert (P : 0 < / 1000000000000 < 1) by (split; [apply Rinv_0_lt_compat; lra|lra]).
  assert (A : 120059 < IZR (120 * Z.of_nat j) < 120060) by (rewrite mult_IZR; lra). destruct A as (A & B).
  apply lt_IZR in A, B. lia.
Qed.
Example C89_example : exists sts g x y, calc_sts_g_functions (short_time_fuel tuned) thomas tuned None false = Ok (sts, g) /\
  combine_sts_lts eskilson (map (fun _ => 1) eskilson) sts g = Ok (x, y) /\ increasing x /\ exists w, g_lag x y (t_s tuned) 1 = Ok w.
Proof.
  destruct (System_fuel thomas tuned) as ((sts, g) & E). destruct eskilson_head as (r & Er). destruct tuned_apart as (A & B).
  destruct (C89_g_function_range thomas tuned _ sts g eskilson (map (fun _ => 1) eskilson) _ r tuned_admissible E Er eskilson_increasing ltac:(apply map_length) A B)
    as (x & y & Ec & Ix & _ & Gr).
  exists sts, g, x, y. repeat (split; [assumption|]). destruct (Gr 1) as ((w & Ew & _) & _); [|eauto].
  rewrite tuned_t_s. unfold first_second. split; [lra|]. unfold eskilson, Eskilson_log_times_milli. cbn [map last]. rewrite Rmult_assoc, <- exp_plus.
  match goal with |- _ <= _ * exp ?z => assert (z < exp z) by (destruct (Req_dec z 0); [lra|]; pose proof (exp_ineq1 z); lra) end. lra.
Qed.

(** C90: a simulation with the combined g-function succeeds exactly when all time differences lie in its range *)
Theorem C90_simulation_range :
  forall solver u fuel sts gs lts glts l0 r (nbh H k2 Tg Rb m cp : R) (Q t : list R), admissible u -> calc_sts_g_functions fuel solver u None false = Ok (sts, gs) ->
  lts = l0 :: r -> increasing lts -> length glts = length lts ->
  first_second < t_s u * exp l0 -> (forall j, first_second + 120 * INR j <> t_s u * exp l0) ->
  nbh <> 0 -> H <> 0 -> k2 <> 0 -> m * cp <> 0 -> Q <> [] -> (length Q <= length t)%nat ->
  let inside d := first_second <= 3600 * d <= t_s u * exp (last lts 0) in
  exists x y G, combine_sts_lts lts glts sts gs = Ok (x, y) /\ (forall d, inside d -> on_line (combine x y) (ln (d * 3600 / t_s u)) (G d)) /\
  let run := simulate_detailed (g_lag x y (t_s u)) nbh H k2 Tg Rb m cp Q t in
  ((forall i j, (j < i <= length Q)%nat -> inside (at_step t i - at_step t j)) ->
     exists T D, run = Ok (T, D) /\ length T = length Q /\ length D = length Q /\
     forall i, (1 <= i <= length Q)%nat ->
       let q := at_step Q i / nbh in
       let w := wall_rise G (fun k => at_step Q k / nbh / H / k2) (at_step t) i in
       at_step D i = w /\ at_step T i = Tg + w + q / H * Rb - q / (2 * m * cp)) /\
  ((exists i j, (j < i <= length Q)%nat /\ ~ inside (at_step t i - at_step t j)) -> run = Err ValueError).
Proof.
  intros solver u fuel sts gs lts glts l0 r nbh H k2 Tg Rb m cp Q t Hu E El Hl Lg H0 Hj Hn HH Hk Hm HQ Ht inside.
  destruct (C89_g_function_range solver u fuel sts gs lts glts l0 r Hu E El Hl Lg H0 Hj) as (x & y & Ec & Ix & Ly & Gr).
  exists x, y, (value_or_0 (g_lag x y (t_s u))). split; [exact Ec|]. split.
  { intros d Hd. destruct (Gr d) as (G1 & _). destruct (G1 Hd) as (w & Ew & O). unfold value_or_0. rewrite Ew. exact O. }
  intro run. split.
  - intro Hin. apply C50_superposition; try assumption. intros i j Hij. destruct (Gr (at_step t i - at_step t j)) as (G1 & _).
    destruct (G1 (Hin i j Hij)) as (w & Ew & _). unfold value_or_0. rewrite Ew. reflexivity.
  - intros (i & j & Hij & Nin). apply detailed_out_of_range; try assumption.
    + intro d. destruct (Gr d) as (G1 & G2).
      destruct (Rle_dec first_second (3600 * d)) as [a|a]; [|right; apply G2; tauto].
      destruct (Rle_dec (3600 * d) (t_s u * exp (last lts 0))) as [b|b]; [|right; apply G2; tauto].
      destruct (G1 (conj a b)) as (w & Ew & _). left. eauto.
    + exists i, j. split; [exact Hij|]. destruct (Gr (at_step t i - at_step t j)) as (_ & G2). apply G2. exact Nin.
Qed.
(** times that advance by at least 1e-12 s, up to the last long time *)
Theorem C90_advancing_times :
  forall (t : list R) limit, apart (first_second / 3600) (0 :: t) -> 3600 * last (0 :: t) 0 <= limit ->
  forall i j, (j < i <= length t)%nat -> first_second <= 3600 * (at_step t i - at_step t j) <= limit.
Proof.
  intros t limit Ha Hl i j Hij. assert (P : 0 < first_second) by (apply Rinv_0_lt_compat; lra).
  assert (A := apart_at _ t Ha ltac:(lra) i j Hij). assert (B := apart_last _ t Ha ltac:(lra) i ltac:(lia)).
  assert (C := apart_last _ t Ha ltac:(lra) j ltac:(lia)). lra.
Qed.
Theorem C90_equal_times :
  forall (t : list R) limit i, (1 <= i)%nat -> at_step t i = at_step t (i - 1) -> ~ first_second <= 3600 * (at_step t i - at_step t (i - 1)) <= limit.
Proof. intros t limit i Hi E. rewrite E. assert (P : 0 < first_second) by (apply Rinv_0_lt_compat; lra). lra. Qed.
(** hours 1 to n: exactly when the last hour is not beyond the last long time *)
Theorem C90_hourly_times :
  forall limit n, (1 <= n)%nat -> let t := map IZR (zrange 1 (Z.of_nat n + 1)) in
  (forall i j, (j < i <= n)%nat -> first_second <= 3600 * (at_step t i - at_step t j) <= limit) <-> 3600 * INR n <= limit.
Proof.
  intros limit n Hn t. assert (P : 0 < first_second < 1) by (unfold first_second; split; [apply Rinv_0_lt_compat; lra|lra]).
  assert (A : forall k, (k <= n)%nat -> at_step t k = INR k).
  { intros [|k] Hk; [reflexivity|]. cbn [at_step]. unfold t. rewrite (map_nth IZR).
    assert (E : nth_error (zrange 1 (Z.of_nat n + 1)) k = Some (1 + Z.of_nat k)%Z).
    { unfold zrange. rewrite nth_error_zseq. destruct (Nat.ltb_spec k (Z.to_nat (Z.of_nat n + 1 - 1))); [reflexivity|lia]. }
    rewrite (nth_error_nth _ _ _ E). rewrite INR_IZR_INZ. f_equal. lia. }
  split.
  - intro H. assert (X := H n 0%nat ltac:(lia)). rewrite A in X by lia. cbn [at_step] in X. lra.
  - intros H i j Hij. rewrite !A by lia. assert (X : INR (S j) <= INR i) by (apply le_INR; lia). assert (Y : INR i <= INR n) by (apply le_INR; lia).
    rewrite S_INR in X. assert (Z := pos_INR j). lra.
Qed.
Example C90_example : apart (first_second / 3600) [0; 10; 12; 744] /\ 3600 * last [0; 10; 12; 744] 0 <= 3000000.
Proof. unfold first_second. cbn [apart last]. lra. Qed.
(** a borehole of 5 m cannot be simulated for thirty years: the range of Eskilson's times ends before *)
Theorem C90_low_height_refuted :
  exists u, admissible u /\ u_H u = 5 /\ t_s u * exp (last eskilson 0) < 3600 * INR (30 * 8760).
Proof.
  exists {| u_rb := 75 / 1000; u_H := 5; u_rin := 10 / 1000; u_rout := 13 / 1000;
  u_pipe_rhoCp := 1542000; u_fluid_rho := 998; u_fluid_cp := 4182; u_grout_rhoCp := 3901000; u_soil_k := 2; u_k_s := 2; u_soil_rhoCp := 2343000;
  u_Rf := 2 / 100; u_Rp := 1 / 10; u_Rb := 15 / 100 |}.
  split; [pose proof sqrt2_bounds; constructor; cbn; try lra; split; lra|]. split; [reflexivity|].
  unfold t_s. cbn [u_H u_k_s u_soil_rhoCp]. unfold eskilson, Eskilson_log_times_milli. cbn [map last].
  assert (X : exp (3003 / 1000) < 81).
  { apply Rlt_le_trans with (exp (1 + (1 + (1 + 1)))); [apply exp_increasing; lra|]. rewrite !exp_plus.
    pose proof exp_le_3. pose proof (exp_pos 1). assert (exp 1 * exp 1 <= 9) by nra. nra. }
  rewrite INR_IZR_INZ. replace (Z.of_nat (30 * 8760)) with 262800%Z by (rewrite Nat2Z.inj_mul; reflexivity). cbn [pow]. lra.
Qed.

(** C91: the hours of the hybrid sequence advance from hour 0 on, by at least d, when every peak that is kept is at least d and at
    most 22 - 2 d hours long and falls on a day of its month *)
Theorem C91_hours_advance_partial :
  forall d cl hl s e load hour sf, 0 < d <= 1 -> (1 <= s <= e)%Z -> has_months cl -> has_months hl ->
  (forall ld m, ld = cl \/ ld = hl -> (1 <= m <= 12)%Z -> 0 <= duration_of ld m <= 48) ->
  (forall ld m, ld = cl \/ ld = hl -> (1 <= m <= 12)%Z -> 0 < peak_of ld m ->
     d <= duration_of ld m <= 22 - 2 * d /\ (1 <= peak_day_of ld m <= days_of 2019 m)%Z) ->
  process_monthly_loads cl hl s e = Ok (load, hour, sf) ->
  exists hour', hour = 0 :: IZR (hours_through (s - 1)) :: hour' /\ apart d (0 :: hour') /\ last hour' 0 = IZR (hours_through e) /\
  exists load', load = 0 :: 0 :: load' /\ length load' = length hour' /\ (0 < length hour')%nat.
Proof.
  intros d cl hl s e load hour sf Hd Hs HC HH Dur Pk E.
  rewrite (process_ok cl hl s e HC HH) in E; [|lia|].
  2:{ intros i Hi. assert (X := month_index_range i). assert (CB := cal_bounds (month_index i)).
      assert (24 * 28 <= IZR (24 * cal (month_index i))) by (rewrite <- mult_IZR; apply IZR_le; lia).
      assert (D1 := Dur cl _ (or_introl eq_refl) X). assert (D2 := Dur hl _ (or_intror eq_refl) X).
      unfold rest_hours. cbn zeta. destruct (peaks_kept s e i); lra. }
  assert (Eh : hour = 0 :: IZR (hours_to (s - 1)) :: map snd (sequence cl hl s e)) by congruence.
  assert (El : load = 0 :: 0 :: map fst (sequence cl hl s e)) by congruence.
  exists (map snd (sequence cl hl s e)). rewrite <- hours_to_through by lia. split; [exact Eh|].
  assert (Nz : (0 < length (map snd (sequence cl hl s e)))%nat).
  { rewrite map_length. unfold sequence. replace (zrange s (e + 1)) with (s :: zrange (s + 1) (e + 1)).
    2:{ symmetry. apply zrange_cons. lia. }
    cbn [flat_map]. rewrite app_length. assert (X := month_entries_nonempty cl hl s e s). destruct (month_entries cl hl s e s); [congruence|cbn; lia]. }
  split; [|split].
  - apply sequence_apart; [exact Hd|lia|]. intros i Hi _. assert (X := month_index_range i).
    split; intro P; rewrite cal_month; [apply (Pk cl)|apply (Pk hl)]; auto.
  - rewrite <- hours_to_through by lia. rewrite <- (sequence_end cl hl s e) by lia.
    destruct (map snd (sequence cl hl s e)); [cbn in Nz; lia|reflexivity].
  - exists (map fst (sequence cl hl s e)). split; [exact El|]. split; [now rewrite !map_length|exact Nz].
Qed.
(** a peak of 5 hours every month on the 10th (rejection) and 20th (extraction) *)
Definition monthly (day : Z) (hours peak : R) : loads R :=
  {| ld_hourly := []; ld_total := repeat 1000 13; ld_peak := repeat peak 13; ld_average := []; ld_peak_day := repeat day 13; ld_two_day := [];
     ld_temps_pk := []; ld_temps_nm := []; ld_duration := repeat hours 13 |}.
Lemma repeat_at {A} (a d : A) m : (1 <= m <= 12)%Z -> nth (Z.to_nat m) (repeat a 13) d = a.
Proof. intro H. rewrite nth_indep with (d' := a) by (rewrite repeat_length; lia). apply nth_repeat. Qed.
Lemma days_bound m : (1 <= m <= 12)%Z -> (28 <= days_of 2019 m)%Z.
Proof. intro Hm. replace m with ((m - 1) mod 12 + 1)%Z by (rewrite Z.mod_small; lia). rewrite <- cal_civil by lia. apply cal_bounds. Qed.
Example C91_example : exists load hour sf hour', process_monthly_loads (monthly 10 5 3) (monthly 20 5 2) 1 24 = Ok (load, hour, sf) /\
  hour = 0 :: IZR (hours_through 0) :: hour' /\ apart 1 (0 :: hour') /\ last hour' 0 = 17520.
Proof.
  assert (HM : forall day p, has_months (monthly day 5 p)) by (intros; repeat split).
  assert (P := process_ok (monthly 10 5 3) (monthly 20 5 2) 1 24 (HM _ _) (HM _ _) ltac:(lia)). 
  assert (D : forall ld m, ld = monthly 10 5 3 \/ ld = monthly 20 5 2 -> (1 <= m <= 12)%Z -> duration_of ld m = 5 /\ (1 <= peak_day_of ld m <= days_of 2019 m)%Z).
  { intros ld m [-> | ->] Hm; unfold duration_of, peak_day_of, monthly; cbn [ld_duration ld_peak_day]; rewrite !repeat_at by exact Hm;
      (split; [reflexivity|]); pose proof (days_bound m Hm); lia. }
  destruct (C91_hours_advance_partial 1 (monthly 10 5 3) (monthly 20 5 2) 1 24 _ _ _ ltac:(lra) ltac:(lia) (HM _ _) (HM _ _)
    ltac:(intros ld m X Hm; destruct (D ld m X Hm) as (-> & _); lra) ltac:(intros ld m X Hm _; destruct (D ld m X Hm) as (-> & Y); split; [lra|exact Y])
    (P ltac:(intros i Hi; unfold rest_hours; cbn zeta; assert (X := month_index_range i);
       destruct (D _ _ (or_introl eq_refl) X) as (-> & _); destruct (D _ _ (or_intror eq_refl) X) as (-> & _); assert (CB := cal_bounds (month_index i));
       assert (24 * 28 <= IZR (24 * cal (month_index i))) by (rewrite <- mult_IZR; apply IZR_le; lia); destruct (peaks_kept 1 24 i); lra)))
    as (hour' & Eh & Ap & El & _).
  do 3 eexists. exists hour'. split; [apply P|].
  { intros i Hi. unfold rest_hours. cbn zeta. assert (X := month_index_range i).
    destruct (D _ _ (or_introl eq_refl) X) as (-> & _). destruct (D _ _ (or_intror eq_refl) X) as (-> & _). assert (CB := cal_bounds (month_index i)).
    assert (24 * 28 <= IZR (24 * cal (month_index i))) by (rewrite <- mult_IZR; apply IZR_le; lia). destruct (peaks_kept 1 24 i); lra. }
  split; [exact Eh|]. split; [exact Ap|]. rewrite El. f_equal.
Qed.
(** a peak of 22 hours on the last day of a month ends at the hour of the month's end: two equal times in the sequence *)
Definition q_monthly (day : Z) (hours peak : Q) : loads Q :=
  {| ld_hourly := []; ld_total := repeat 1000%Q 13; ld_peak := repeat peak 13; ld_average := []; ld_peak_day := repeat day 13; ld_two_day := [];
     ld_temps_pk := []; ld_temps_nm := []; ld_duration := repeat hours 13 |}.
Theorem C91_full_day_refuted :
  exists (cl hl : loads Q) load hour sf, process_monthly_loads cl hl 1 1 = Ok (load, hour, sf) /\ ld_duration cl = repeat 22%Q 13 /\
  nth_error (ld_peak_day cl) 1 = Some 31%Z /\ exists a, nth_error hour 3 = Some a /\ nth_error hour 4 = Some a.
Proof.
  exists (q_monthly 31 22 3), (q_monthly 20 5 0). do 3 eexists. split; [vm_compute; reflexivity|]. split; [reflexivity|]. split; [reflexivity|].
  eexists. split; reflexivity.
Qed.

(** C92-C94: for any oracles *)
Section World.
Variable h_circular : R -> R -> R -> R -> R -> R -> R -> R.
Variable h_annulus : R -> R -> R -> R -> R -> R -> R -> R -> R * R.
Variable r_conduction : R -> R -> R -> R.
Variable eff_u : R -> pg_u -> R -> R -> R.
Variable eff_c : R -> pg_c -> R -> R -> R.
Variable brentq : (R -> res R) -> R -> R -> list R * res R.
Variable solver : list R -> list R -> list R -> list R -> list R.
Variable interp : ikind -> list (R * R) -> R -> R.
Variable field_response : R -> list (R * R) -> R -> R -> R -> res (list R).
Variable st : settings.
Variable m : method.
Let sim_once := ghe_simulate h_circular h_annulus r_conduction eff_u eff_c brentq solver interp st m.
Let with_g_functions := compute_g_functions field_response st.
Let sized dialogue := ghe_size h_circular h_annulus r_conduction eff_u eff_c brentq solver interp st dialogue m.

Lemma g_functions_cover s s0 : 0 < st_min_H st < st_max_H st ->
  (forall mf c H D r, exists g, field_response mf c H D r = Ok g /\ length g = length (gf_log_time (gh_gf s))) -> with_g_functions s = Ok s0 ->
  gf_table (gh_gf s0) = t_empty /\ length (gf_curves (gh_gf s0)) = 3%nat /\ full_curves (gh_gf s0) /\ gh_B s0 = gf_B (gh_gf s0) /\ gh_B s0 = gh_B s /\
  (forall h, st_min_H st <= h <= st_max_H st -> between (gh_gf s0) h) /\ gh_results s0 = gh_results s.
Proof.
  intros Hh Hf E. unfold with_g_functions, compute_g_functions in E. apply bind_ok in E. destruct E as (hs & Eh & E).
  assert (hs = [st_min_H st; (st_min_H st + st_max_H st) / 2; st_max_H st]) as Ehs.
  { unfold g_function_heights in Eh. rewrite pydiv_R in Eh by (cbn; lra). cbn in Eh. congruence. }
  destruct (sizing_curves (field_response (mass_flow (gh_bhe s)) (gf_locations (gh_gf s))) (gh_B s) (st_rb st) (st_D st) (st_min_H st) (st_max_H st)
    (gf_log_time (gh_gf s)) (gf_locations (gh_gf s)) hs ltac:(lra) Eh (Hf _ _)) as (g & Eg & A1 & A2 & (A3 & _) & (A4 & _) & A5 & A6 & _).
  assert (py_repeat (st_rb st) (zlen hs) = repeat (st_rb st) 3) as Er by (rewrite Ehs; reflexivity).
  assert (py_repeat (st_D st) (zlen hs) = repeat (st_D st) 3) as Ed by (rewrite Ehs; reflexivity).
  cbn zeta in E. rewrite Er, Ed, Eg in E. cbn [bind] in E. apply Ok_inj in E. subst s0. cbn [with_gf gh_gf gh_B gh_results].
  repeat split; try assumption; try congruence. intros h Hr. exists (st_min_H st), (st_max_H st). auto.
Qed.

Lemma g_functions_total s : st_min_H st < st_max_H st ->
  (forall mf c H D r, exists g, field_response mf c H D r = Ok g /\ length g = length (gf_log_time (gh_gf s))) ->
  exists s0, with_g_functions s = Ok s0 /\ gh_bhe s0 = gh_bhe s /\ gh_nbh s0 = gh_nbh s /\ gf_log_time (gh_gf s0) = gf_log_time (gh_gf s).
Proof.
  intros Hh Hf. destruct (C53_g_function_heights (st_min_H st) (st_max_H st) ltac:(lra)) as (avg & Ea & _).
  destruct (sizing_curves (field_response (mass_flow (gh_bhe s)) (gf_locations (gh_gf s))) (gh_B s) (st_rb st) (st_D st) (st_min_H st) (st_max_H st)
    (gf_log_time (gh_gf s)) (gf_locations (gh_gf s)) _ Hh Ea (Hf _ _)) as (g & Eg & _ & _ & _ & _ & _ & _ & El & _).
  exists (with_gf s g). split; [|auto]. unfold with_g_functions, compute_g_functions. rewrite Ea. cbn [bind]. cbn zeta.
  change (py_repeat (st_rb st) (zlen [st_min_H st; avg; st_max_H st])) with (repeat (st_rb st) 3).
  change (py_repeat (st_D st) (zlen [st_min_H st; avg; st_max_H st])) with (repeat (st_D st) 3). rewrite Eg. reflexivity.
Qed.

(** temperatures and excess of a height, simulated with the object that has only just got its g-functions *)
Definition from_scratch (s0 : ghe) (h : R) : res (list R * R) :=
  match sim_once (with_H s0 h) with
  | (s, Ok x) => Ok (fst (gh_results s), cost (st_max_EFT st) (st_min_EFT st) (fst x) (snd x))
  | (_, Err e) => Err e
  end.
(** C92: sizing an exchanger is the sizing of C53 with these simulations: what the earlier simulations left in the object does not
    matter, although every one of them changes resistances, short-time response and interpolation table *)
Theorem C92_sizing_without_history :
  forall dialogue s s0, 0 < gh_B s -> 0 < st_min_H st < st_max_H st ->
  (forall mf c H D r, exists g, field_response mf c H D r = Ok g /\ length g = length (gf_log_time (gh_gf s))) -> with_g_functions s = Ok s0 ->
  (forall lo up, asks_within lo up (dialogue lo up)) ->
  let a := sized dialogue s0 in
  let b := size (fun f lo up => listen f (dialogue lo up)) (from_scratch s0) (st_max_H st) (st_min_H st) {| sz_height := gh_H s0; sz_result := None |} in
  snd a = snd b /\ gh_H (fst a) = sz_height (fst b) /\
  match sz_result (fst b) with
  | Some (h, T) => gh_results (fst a) = gh_results (fst (sim_once (with_H s0 h))) /\ fst (gh_results (fst a)) = T
  | None => gh_results (fst a) = gh_results s
  end.
Proof.
  intros dialogue s s0 HB Hh Hf E Hd. destruct (g_functions_cover s s0 Hh Hf E) as (T0 & N0 & F0 & B0 & B1 & Cv & R0).
  destruct (effective_kind_for k_default (length (gf_curves (gh_gf s0))) ltac:(lia) ltac:(discriminate)) as (k & K0 & _).
  destruct (size_agrees h_circular h_annulus r_conduction eff_u eff_c brentq solver interp st m s0 T0 ltac:(lia) F0 B0 ltac:(lra) k K0 (gh_results s) dialogue s0
    (alike_refl _ _ _ _ _ k s0 T0) R0 ltac:(lra) ltac:(lra) Cv Hd) as (S1 & _ & S2 & S3).
  split; [exact S1|]. split; [exact S2|]. unfold fresh in S3. unfold from_scratch, sim_once.
  destruct (sz_result _) as [(h, T)|]; [tauto|exact S3].
Qed.
(** after a successful sizing the height is within the limits and the whole object is as if it had been simulated only at that height;
    simulating once more returns the same results *)
Theorem C92_results_of_final_height :
  forall dialogue s s0 s', 0 < gh_B s -> 0 < st_min_H st < st_max_H st ->
  (forall mf c H D r, exists g, field_response mf c H D r = Ok g /\ length g = length (gf_log_time (gh_gf s))) -> with_g_functions s = Ok s0 ->
  (forall lo up, asks_within lo up (dialogue lo up)) -> sized dialogue s0 = (s', Ok tt) ->
  st_min_H st <= gh_H s' <= st_max_H st /\
  s' = fst (sim_once (with_H s0 (gh_H s'))) /\
  exists x, snd (sim_once (with_H s0 (gh_H s'))) = Ok x /\ snd (sim_once s') = Ok x /\ gh_results (fst (sim_once s')) = gh_results s'.
Proof.
  intros dialogue s s0 s' HB Hh Hf E Hd Es. destruct (g_functions_cover s s0 Hh Hf E) as (T0 & N0 & F0 & B0 & B1 & Cv & R0).
  destruct (effective_kind_for k_default (length (gf_curves (gh_gf s0))) ltac:(lia) ltac:(discriminate)) as (k & K0 & _).
  destruct (size_agrees h_circular h_annulus r_conduction eff_u eff_c brentq solver interp st m s0 T0 ltac:(lia) F0 B0 ltac:(lra) k K0 (gh_results s) dialogue s0
    (alike_refl _ _ _ _ _ k s0 T0) R0 ltac:(lra) ltac:(lra) Cv Hd) as (S1 & A & S2 & S3). fold (sized dialogue) in *. rewrite Es in *. cbn [fst snd] in *.
  fold (from_scratch s0) in *.
  change (fresh h_circular h_annulus r_conduction eff_u eff_c brentq solver interp st m s0) with (from_scratch s0) in *.
  destruct (size (fun f lo up => listen f (dialogue lo up)) (from_scratch s0) (st_max_H st) (st_min_H st) {| sz_height := gh_H s0; sz_result := None |}) as (z, r) eqn:Ez.
  cbn [fst snd] in *. subst r.
  assert (Hin : st_min_H st <= sz_height z <= st_max_H st).
  { apply (C53_height_within_limits (fun f lo up => listen f (dialogue lo up)) (from_scratch s0) _ _ _ z (Ok tt)) in Ez; [exact Ez| |lra].
    intros f l u p Hp. eapply listen_within; [apply Hd|exact Hp]. }
  destruct (C53_results_of_final_height (fun f lo up => listen f (dialogue lo up)) (from_scratch s0) (st_max_H st) (st_min_H st) {| sz_height := gh_H s0; sz_result := None |} z) with (2 := Ez) as (T & c & Ef & Er).
  { intros f l u (x & Hx) p Hp. eapply listen_ok; eassumption. }
  rewrite Er in S3. destruct S3 as (_ & S5 & S3 & S4). specialize (S5 eq_refl). rewrite <- S2 in *.
  split; [exact Hin|]. unfold from_scratch in Ef.
  destruct (simulate_history h_circular h_annulus r_conduction eff_u eff_c brentq solver interp st m s0 T0 ltac:(lia) F0 B0 ltac:(lra) k K0 s' (gh_H s') A ltac:(lra)
    (Cv _ Hin)) as (P1 & _ & _ & P4 & _).
  replace (with_H s' (gh_H s')) with s' in * by (destruct s'; reflexivity). fold sim_once in P1, P4, S3, S5, Ef. split; [exact S5|].
  destruct (sim_once (with_H s0 (gh_H s'))) as (s1, [x|e]) eqn:E1; [|discriminate]. cbn [fst snd] in *.
  exists x. split; [reflexivity|]. split; [exact P1|]. rewrite S3. now rewrite (P4 x eq_refl).
Qed.
(** C94: a simulation, whatever the loads *)
Theorem C94_simulation :
  forall s e gl rb D He l0 r Q t, 0 < gh_H s -> gh_nbh s <> 0%Z -> st_soil_k st <> 0 ->
  let H := gh_H s in
  let b := update_bhe h_circular h_annulus r_conduction eff_u eff_c H (gh_bhe s) in
  let u := utube_of eff_u st H e in
  let Rb := effective_resistance eff_u eff_c H b in
  compute_equivalent h_circular r_conduction (eff_u H) (eff_c H) brentq b = Ok e -> admissible u -> mass_flow b * fl_cp (st_fluid st) <> 0 ->
  snd (g_function_interpolation interp (gh_gf s) (gh_B s / H) k_default) = Ok (gl, rb, D, He) ->
  gf_log_time (gh_gf s) = l0 :: r -> increasing (l0 :: r) -> length gl = length (l0 :: r) ->
  first_second < t_s u * exp l0 -> (forall j, first_second + 120 * INR j <> t_s u * exp l0) ->
  simulated_loads m (st_start st) (st_end st) (st_loads st) (gh_load s) (gh_hour s) = Ok (Q, t) -> Q <> [] -> (length Q <= length t)%nat ->
  let inside d := first_second <= 3600 * d <= t_s u * exp (last (l0 :: r) 0) in
  ((forall i j, (j < i <= length Q)%nat -> inside (at_step t i - at_step t j)) ->
     exists sts gs x y G s' T dT mx mn, calc_sts_g_functions (short_time_fuel u) solver u None false = Ok (sts, gs) /\
     combine_sts_lts (l0 :: r) (map (fun g => g - ln (st_rb st / rb)) gl) sts gs = Ok (x, y) /\
     (forall d, inside d -> on_line (combine x y) (ln (d * 3600 / t_s u)) (G d)) /\
     sim_once s = (s', Ok (mx, mn)) /\ gh_results s' = (T, dT) /\ is_max mx T /\ is_min mn T /\ length T = length Q /\ length dT = length Q /\
     forall i, (1 <= i <= length Q)%nat ->
       let q := at_step Q i / IZR (gh_nbh s) in
       let w := wall_rise G (fun k => at_step Q k / IZR (gh_nbh s) / H / (2 * PI * st_soil_k st)) (at_step t) i in
       at_step dT i = w /\ at_step T i = st_ugt st + w + q / H * Rb - q / (2 * mass_flow b * fl_cp (st_fluid st))) /\
  ((exists i j, (j < i <= length Q)%nat /\ ~ inside (at_step t i - at_step t j)) -> snd (sim_once s) = Err ValueError).
Proof.
  intros s e gl rb D He l0 r Q t HH Hn Hk H b u Rb Ee Hu Hm Eg El Il Lg H0 Hj Eq HQ Ht inside.
  destruct (System_fuel solver u) as ((sts, gs) & Es).
  destruct (C90_simulation_range solver u _ sts gs (l0 :: r) (map (fun g => g - ln (st_rb st / rb)) gl) l0 r (IZR (gh_nbh s)) H (2 * PI * st_soil_k st) (st_ugt st) Rb
    (mass_flow b) (fl_cp (st_fluid st)) Q t Hu Es eq_refl Il ltac:(rewrite map_length; exact Lg) H0 Hj) as (x & y & G & Ec & On & Yes & No).
  { apply not_0_IZR. exact Hn. } { unfold H. lra. } { assert (P := PI_RGT_0). apply Rmult_integral_contrapositive_currified; lra. } { exact Hm. } { exact HQ. } { exact Ht. }
  assert (Run : sim_once s = let s1 := with_short_time (with_eq (with_bhe s b) e) (t_s u, (sts, gs)) in
     let s2 := with_gf s1 (with_table (gh_gf s1) (fst (g_function_interpolation interp (gh_gf s) (gh_B s / H) k_default))) in
     match simulate (g_lag x y (t_s u)) (IZR (gh_nbh s)) H (2 * PI * st_soil_k st) (st_ugt st) Rb (mass_flow b) (fl_cp (st_fluid st))
             m (st_start st) (st_end st) (st_loads st) (gh_load s) (gh_hour s) with
     | Err e => (s2, Err e)
     | Ok (T, D, mx, mn) => (with_results s2 (T, D), Ok (mx, mn))
     end).
  { unfold sim_once, ghe_simulate. cbn zeta. rewrite pydiv_R by lra. cbn [with_bhe gh_bhe]. fold H. fold b. rewrite Ee.
    unfold short_time. fold u. rewrite Es. cbn [bind]. cbn [with_short_time with_eq with_bhe gh_gf gh_sts gh_ts fst snd].
    unfold grab_g_function. destruct (g_function_interpolation interp (gh_gf s) (gh_B s / H) k_default) as (tb & rg) eqn:Ei. cbn [snd] in Eg. subst rg.
    cbn [bind]. rewrite El. unfold borehole_radius_correction. rewrite Ec. reflexivity. }
  assert (Sim : simulate (g_lag x y (t_s u)) (IZR (gh_nbh s)) H (2 * PI * st_soil_k st) (st_ugt st) Rb (mass_flow b) (fl_cp (st_fluid st))
             m (st_start st) (st_end st) (st_loads st) (gh_load s) (gh_hour s) =
     (let! rr := simulate_detailed (g_lag x y (t_s u)) (IZR (gh_nbh s)) H (2 * PI * st_soil_k st) (st_ugt st) Rb (mass_flow b) (fl_cp (st_fluid st)) Q t in
     let! mx := nmaxl (fst rr) in let! mn := nminl (fst rr) in Ok (fst rr, snd rr, mx, mn))).
  { unfold simulate. rewrite Eq. reflexivity. }
  split.
  - intro In. destruct (Yes In) as (T & dT & Ed & L1 & L2 & F).
    rewrite Ed in Sim. cbn [bind fst snd] in Sim.
    assert (Tne : T <> []) by (intros ->; destruct Q; [congruence|discriminate L1]).
    destruct (nmaxl_total T Tne) as (mx & Emx & Mx). destruct (nminl_total T Tne) as (mn & Emn & Mn).
    rewrite Emx in Sim. cbn [bind] in Sim. rewrite Emn in Sim. cbn [bind] in Sim. rewrite Sim in Run. cbn zeta in Run.
    exists sts, gs, x, y, G. eexists. exists T, dT, mx, mn. repeat (split; [first [assumption | exact Run | reflexivity]|]). exact F.
  - intro Out. rewrite (No Out) in Sim. cbn [bind] in Sim. rewrite Sim in Run. rewrite Run. reflexivity.
Qed.
(** ** C93, C94: the evaluation of a field by the search *)
Variable flow : flow_kind.
Variable V_flow : R.
Variable log_time : list R.
Let build := initialize_ghe h_circular h_annulus r_conduction eff_u eff_c brentq solver field_response st flow V_flow log_time.
Let field_excess := calculate_excess h_circular h_annulus r_conduction eff_u eff_c brentq solver interp field_response st flow V_flow log_time m.

Lemma made_flow mf b : make_bhe h_circular h_annulus r_conduction st mf = Ok b -> mass_flow b = mf.
Proof.
  unfold make_bhe. destruct (st_class st) as [p|p|i o eps k rc].
  - intro E. apply bind_ok in E. destruct E as (x & Ex & E). apply Ok_inj in E. subst b. apply (C66_constructed _ _ _ _ _ _ _ _ _ _ _ Ex).
  - intro E. apply bind_ok in E. destruct E as (x & Ex & E). apply Ok_inj in E. subst b. apply (C66_constructed _ _ _ _ _ _ _ _ _ _ _ Ex).
  - intro E. apply Ok_inj in E. subst b. unfold coaxial_pipe, compute_resistances_c. cbn. destruct i, o, k. destruct (h_annulus _ _ _ _ _ _ _ _). reflexivity.
Qed.
Lemma made_updated mf b H : make_bhe h_circular h_annulus r_conduction st mf = Ok b -> update_bhe h_circular h_annulus r_conduction eff_u eff_c H b = b.
Proof.
  unfold make_bhe. destruct (st_class st) as [p|p|i o eps k rc].
  - intro E. apply bind_ok in E. destruct E as (x & Ex & E). apply Ok_inj in E. subst b. unfold single_u_tube, make_u in Ex.
    apply bind_ok in Ex. destruct Ex as (mp & Em & Ex). apply Ok_inj in Ex. subst x. reflexivity.
  - intro E. apply bind_ok in E. destruct E as (x & Ex & E). apply Ok_inj in E. subst b. unfold multiple_u_tube, make_u in Ex.
    apply bind_ok in Ex. destruct Ex as (mp & Em & Ex). apply Ok_inj in Ex. subst x. reflexivity.
  - intro E. apply Ok_inj in E. subst b. cbn [update_bhe]. f_equal.
    destruct (C66_coaxial h_circular h_annulus r_conduction (eff_c H) mf (st_fluid st)
      {| cg_inner := i; cg_outer := o; cg_eps := eps; cg_k := k; cg_rhoCp := rc; cg_rb := st_rb st; cg_grout_k := st_grout_k st; cg_soil_k := st_soil_k st |}
      [(None, None)]) as (X & _). cbn [map fst snd latest] in X. unfold updates in X. cbn [fold_left fst snd] in X. rewrite X.
    unfold coaxial_pipe, compute_resistances_c, with_pipe_flow. cbn. destruct i, o, k. destruct (h_annulus _ _ _ _ _ _ _ _). reflexivity.
Qed.
Lemma sim_extremes s s' mx mn : sim_once s = (s', Ok (mx, mn)) -> is_max mx (fst (gh_results s')) /\ is_min mn (fst (gh_results s')).
Proof.
  unfold sim_once, ghe_simulate. destruct (pydiv _ _); [|discriminate]. destruct (compute_equivalent _ _ _ _ _ _); [|discriminate].
  destruct (short_time _ _ _ _ _); [|discriminate]. destruct (grab_g_function _ _ _ _ _ _) as (t & [c|]); [|discriminate].
  destruct (simulate _ _ _ _ _ _ _ _ _ _ _ _ _ _) as [[[[T D] mx0] mn0]|] eqn:E; [|discriminate]. intro X. injection X as <- <- <-. cbn [with_results gh_results fst].
  destruct (C75_simulation_extremes _ _ _ _ _ _ _ _ _ _ _ _ _ _ _ _ _ _ E) as (A & B & _). auto.
Qed.

(** C93: the excess of a field is at most 0 exactly when all simulated temperatures are within the limits; the exchanger simulated has
    the boreholes of the field, the flow of C54 and one g-function, of its own height and radius *)
Theorem C93_excess_is_compliance :
  forall coordinates H x, field_excess coordinates H = Ok x ->
  exists s s' mx mn V_bore g B, build coordinates H = Ok s /\ sim_once s = (s', Ok (mx, mn)) /\
  (x <= 0 <-> forall T, In T (fst (gh_results s')) -> st_min_EFT st <= T <= st_max_EFT st) /\
  gh_H s = H /\ gh_nbh s = Z.of_nat (length coordinates) /\ (1 <= length coordinates)%nat /\
  mass_flow (gh_bhe s) = V_bore / 1000 * fl_rho (st_fluid st) /\
  (flow = flow_borehole /\ V_bore = V_flow \/ flow = flow_system /\ V_bore * INR (length coordinates) = V_flow) /\
  borehole_spacing (st_rb st) coordinates = Ok B /\ field_response (mass_flow (gh_bhe s)) coordinates H (st_D st) (st_rb st) = Ok g /\
  gh_gf s = {| gf_B := B; gf_curves := [(H, {| cv_g := g; cv_rb := st_rb st; cv_D := st_D st |})]; gf_log_time := log_time; gf_locations := coordinates; gf_table := t_empty |} /\
  gh_B s = B.
Proof.
  intros coordinates H x E. unfold field_excess, calculate_excess in E. apply bind_ok in E. destruct E as (s & Eb & E). fold build in Eb. fold sim_once in E.
  unfold excess in E. destruct (sim_once s) as (s', rr) eqn:Er. cbn [snd] in E. apply bind_ok in E. destruct E as ((mx, mn) & -> & E). apply Ok_inj in E. cbn [fst snd] in E.
  assert (Eb' := Eb). unfold build, initialize_ghe in Eb'. apply bind_ok in Eb'. destruct Eb' as ((V_sys, mf) & Ef & Eb').
  apply bind_ok in Eb'. destruct Eb' as (B & EB & Eb'). rewrite one_curve in Eb'. cbn [fst snd] in Eb'.
  destruct (field_response mf coordinates H (st_D st) (st_rb st)) as [g|] eqn:Eg; [|discriminate]. cbn [bind] in Eb'.
  unfold make_ghe in Eb'. cbn zeta in Eb'. cbn [gf_locations] in Eb'.
  apply bind_ok in Eb'. destruct Eb' as ((V_bore, mf') & Ef' & Eb'). apply bind_ok in Eb'. destruct Eb' as (b & Emb & Eb').
  apply bind_ok in Eb'. destruct Eb' as (e & _ & Eb'). apply bind_ok in Eb'. destruct Eb' as (r & _ & Eb').
  apply bind_ok in Eb'. destruct Eb' as (hr & _ & Eb'). apply bind_ok in Eb'. destruct Eb' as (lh & _ & Eb'). apply Ok_inj in Eb'.
  assert (Hlen : (1 <= length coordinates)%nat).
  { destruct coordinates; [|cbn; lia]. discriminate EB. }
  assert (Hfl : flow <> flow_other) by (intros ->; discriminate Ef).
  destruct (proj2 C54_flow flow V_flow (fl_rho (st_fluid st)) (zlen coordinates) Hfl ltac:(unfold zlen; lia)) as (V2 & m2 & F1 & V3 & F2 & F3 & F4 & F5 & F6).
  assert (V2 = V_sys /\ m2 = mf) as (-> & ->) by (split; congruence). assert (V3 = V_bore /\ mf' = mf) as (-> & ->) by (split; congruence).
  cbn [snd] in Emb. assert (Mf := made_flow _ _ Emb).
  assert (Emf : mass_flow (gh_bhe s) = mf) by (rewrite <- Eb'; exact Mf).
  exists s, s', mx, mn, V_bore, g, B. split; [exact Eb|]. split; [exact Er|]. split.
  { destruct (sim_extremes s s' mx mn Er) as ((I1 & B1) & (I2 & B2)). destruct (C49_cost_is_compliance (st_max_EFT st) (st_min_EFT st) mx mn) as (C & _).
    rewrite <- E, C. split.
    - intros (X & Y) T HT. pose proof (B1 T HT). pose proof (B2 T HT). lra.
    - intro A. split; apply A; assumption. }
  rewrite Emf. rewrite <- Eb'. cbn [gh_H gh_nbh gh_gf gh_B]. repeat split; try assumption; try reflexivity.
  destruct flow; [left; split; [reflexivity|now apply F5]|right; split; [reflexivity|]|congruence]. rewrite <- (F6 eq_refl), F3. f_equal. unfold zlen. now rewrite <- INR_IZR_INZ.
Qed.
(** C94: construction.  [clear_peaks] is the condition of C40: in every month the peak load is the greatest load of the two days of the
    analysis, or exceeded by at least 0.1 kW *)
Definition clear_peaks (hourly : list R) : Prop :=
  forall td ts ps avs ds i w mp, split_load_by_month 2019 hourly = Ok (ts, ps, avs, ds) -> process_two_day_loads 2019 hourly ds = Ok td ->
     (1 <= i <= 12)%Z -> nth_error td (Z.to_nat i) = Some w -> nth_error ps (Z.to_nat i) = Some mp ->
     (forall x, In x w -> x <= mp) \/ exists x, In x w /\ mp + / 10 <= x.
Lemma hybrid_ok H e sts gs rej ext : good_solver solver -> let u := utube_of eff_u st H e in admissible u ->
  calc_sts_g_functions (short_time_fuel u) solver u None false = Ok (sts, gs) ->
  length rej = Z.to_nat 8760 -> length ext = Z.to_nat 8760 -> (forall x, In x rej -> 0 <= x) -> (forall x, In x ext -> 0 <= x) -> clear_peaks rej -> clear_peaks ext ->
  (1 <= st_start st)%Z ->
  let gt := g_lag sts gs (t_s u) in let k2 := 2 * PI * st_soil_k st in
  exists cl hl load hour sf, make_loads gt k2 (u_Rb u) 2019 rej = Ok cl /\ make_loads gt k2 (u_Rb u) 2019 ext = Ok hl /\
  process_monthly_loads cl hl (st_start st) (st_end st) = Ok (load, hour, sf) /\
  hybrid_load eff_u st H e (t_s u) (sts, gs) rej ext = Ok (load, hour).
Proof.
  intros Hs u Hu Ec L1 L2 N1 N2 C1 C2 Hm gt k2.
  destruct (C78_response_suits_peak_analysis solver u _ sts gs Hs Hu Ec) as (gv & GT & SR).
  assert (K : k2 <> 0).
  { pose proof PI_RGT_0. pose proof (ad_k u Hu) as X. unfold k2. cbn in X. apply Rgt_not_eq. apply Rmult_lt_0_compat; lra. }
  assert (GT' : forall j, (1 <= j <= 48)%nat -> gt (IZR (Z.of_nat j)) = Ok (gv j)).
  { intros j Hj. unfold gt, g_lag. destruct (Rle_dec (IZR (Z.of_nat j)) 0) as [X|X]; [apply le_IZR in X; lia|]. now apply GT. }
  assert (YL : forall l : list R, length l = Z.to_nat 8760 -> Z.of_nat (length l) = (24 * days_in_year 2019)%Z) by (intros l ->; reflexivity).
  destruct (C40_all_months_partial gt k2 (u_Rb u) gv K GT' SR 2019 rej (YL _ L1) N1 C1) as (cl & Ecl & _).
  destruct (C40_all_months_partial gt k2 (u_Rb u) gv K GT' SR 2019 ext (YL _ L2) N2 C2) as (hl & Ehl & _).
  destruct (loads_tables _ _ _ _ _ _ Ecl) as (HC & _). destruct (loads_tables _ _ _ _ _ _ Ehl) as (HH & _).
  assert (P := process_ok cl hl (st_start st) (st_end st) HC HH Hm
    (fun i Hi => Rgt_not_eq _ _ (rest_hours_pos _ _ _ _ _ _ _ _ _ _ cl hl (st_start st) (st_end st) i Ecl Ehl ltac:(lia)))).
  exists cl, hl. do 3 eexists. split; [exact Ecl|]. split; [exact Ehl|]. split; [exact P|].
  unfold hybrid_load. cbn [fst snd]. fold gt k2. change (snd (compute_effective_borehole_resistance (eff_u H) None None e)) with (u_Rb u).
  rewrite Ecl. cbn [bind]. rewrite Ehl. cbn [bind]. rewrite P. reflexivity.
Qed.
Theorem C94_construction :
  forall coordinates H V_sys mf b e g, coordinates <> [] -> retrieve_flow flow V_flow (fl_rho (st_fluid st)) (zlen coordinates) = Ok (V_sys, mf) ->
  make_bhe h_circular h_annulus r_conduction st mf = Ok b -> compute_equivalent h_circular r_conduction (eff_u H) (eff_c H) brentq b = Ok e ->
  let u := utube_of eff_u st H e in
  good_solver solver -> admissible u -> field_response mf coordinates H (st_D st) (st_rb st) = Ok g ->
  length (st_loads st) = Z.to_nat 8760 -> (1 <= st_start st)%Z ->
  (forall rej ext, split_heat_and_cool (st_loads st) unit_W = Ok (rej, ext) -> clear_peaks rej /\ clear_peaks ext) ->
  exists s B sts gs rej ext cl hl load hour sf, build coordinates H = Ok s /\ borehole_spacing (st_rb st) coordinates = Ok B /\
  calc_sts_g_functions (short_time_fuel u) solver u None false = Ok (sts, gs) /\ split_heat_and_cool (st_loads st) unit_W = Ok (rej, ext) /\
  let gt := g_lag sts gs (t_s u) in let k2 := 2 * PI * st_soil_k st in
  make_loads gt k2 (u_Rb u) 2019 rej = Ok cl /\ make_loads gt k2 (u_Rb u) 2019 ext = Ok hl /\
  process_monthly_loads cl hl (st_start st) (st_end st) = Ok (load, hour, sf) /\
  s = {| gh_B := B; gh_nbh := Z.of_nat (length coordinates); gh_H := H; gh_bhe := b; gh_eq := e; gh_ts := t_s u; gh_sts := (sts, gs);
         gh_gf := {| gf_B := B; gf_curves := [(H, {| cv_g := g; cv_rb := st_rb st; cv_D := st_D st |})]; gf_log_time := log_time; gf_locations := coordinates;
                     gf_table := t_empty |};
         gh_load := load; gh_hour := hour; gh_results := ([], []) |}.
Proof.
  intros coordinates H V_sys mf b e g Hc Ef Eb Ee u Hs Hu Eg L8 Hm Cl.
  assert (Hlen : (1 <= length coordinates)%nat) by (destruct coordinates; [congruence|cbn; lia]).
  assert (Hfl : flow <> flow_other) by (intros ->; discriminate Ef).
  destruct (proj2 C54_flow flow V_flow (fl_rho (st_fluid st)) (zlen coordinates) Hfl ltac:(unfold zlen; lia)) as (V2 & m2 & F1 & V3 & F2 & _).
  assert (V2 = V_sys /\ m2 = mf) as (-> & ->) by (split; congruence).
  assert (EB : exists B, borehole_spacing (st_rb st) coordinates = Ok B).
  { destruct coordinates as [|c1 [|c2 cs]]; [congruence|eexists; reflexivity|]. eexists. apply (proj2 (proj2 Properties_Utilities.C23_borehole_spacing)). }
  destruct EB as (B & EB). destruct (System_fuel solver u) as ((sts, gs) & Ec).
  destruct (proj2 C36_heating_cooling_split (st_loads st) unit_W 1000 ltac:(auto)) as (rej & ext & Esp & Lr & Lx & Sp).
  assert (Nr : forall l, l = rej \/ l = ext -> forall x, In x l -> 0 <= x).
  { intros l Hl x Hx. apply In_nth_error in Hx. destruct Hx as (k & Hk).
    assert (Hb : (k < length (st_loads st))%nat). { rewrite <- Lr. destruct Hl as [-> | ->]; [|rewrite Lr, <- Lx]; apply nth_error_Some; congruence. }
    destruct (nth_error (st_loads st) k) as [ld|] eqn:El; [|apply nth_error_Some in Hb; congruence].
    destruct (Sp k ld El) as (r' & x' & A1 & A2 & A3 & A4 & _). destruct Hl as [-> | ->]; congruence. }
  destruct (Cl rej ext Esp) as (C1 & C2).
  destruct (hybrid_ok H e sts gs rej ext Hs Hu Ec ltac:(congruence) ltac:(congruence) (Nr rej ltac:(auto)) (Nr ext ltac:(auto)) C1 C2 Hm)
    as (cl & hl & load & hour & sf & M1 & M2 & P & Eh).
  do 2 eexists. exists sts, gs, rej, ext, cl, hl, load, hour, sf. split; [|split; [exact EB|split; [exact Ec|split; [exact Esp|]]]]; [|repeat split; eauto].
  unfold build, initialize_ghe. rewrite Ef. cbn [bind fst snd]. rewrite EB. cbn [bind]. rewrite one_curve, Eg. cbn [bind].
  unfold make_ghe. cbn zeta. cbn [gf_locations]. rewrite F2. cbn [bind snd]. rewrite Eb. cbn [bind]. rewrite Ee. cbn [bind].
  unfold short_time. fold u. rewrite Ec. cbn [bind fst snd]. rewrite Esp. cbn [bind fst snd]. fold u in Eh. rewrite Eh. reflexivity.
Qed.
(** C94: the search can evaluate a field *)
Lemma field_outcome coordinates H V_sys mf b e g l0 r :
  coordinates <> [] -> 0 < H -> 0 < st_rb st -> retrieve_flow flow V_flow (fl_rho (st_fluid st)) (zlen coordinates) = Ok (V_sys, mf) ->
  mf * fl_cp (st_fluid st) <> 0 ->
  make_bhe h_circular h_annulus r_conduction st mf = Ok b -> compute_equivalent h_circular r_conduction (eff_u H) (eff_c H) brentq b = Ok e ->
  let u := utube_of eff_u st H e in
  good_solver solver -> admissible u -> field_response mf coordinates H (st_D st) (st_rb st) = Ok g ->
  log_time = l0 :: r -> increasing (l0 :: r) -> length g = length (l0 :: r) ->
  first_second < t_s u * exp l0 -> (forall j, first_second + 120 * INR j <> t_s u * exp l0) ->
  length (st_loads st) = Z.to_nat 8760 ->
  (forall rej ext, split_heat_and_cool (st_loads st) unit_W = Ok (rej, ext) -> clear_peaks rej /\ clear_peaks ext) -> (1 <= st_start st)%Z ->
  exists sts gs rej ext cl hl load hour sf, calc_sts_g_functions (short_time_fuel u) solver u None false = Ok (sts, gs) /\
  split_heat_and_cool (st_loads st) unit_W = Ok (rej, ext) /\
  let gt := g_lag sts gs (t_s u) in let k2 := 2 * PI * st_soil_k st in
  make_loads gt k2 (u_Rb u) 2019 rej = Ok cl /\ make_loads gt k2 (u_Rb u) 2019 ext = Ok hl /\
  process_monthly_loads cl hl (st_start st) (st_end st) = Ok (load, hour, sf) /\
  forall Q t, simulated_loads m (st_start st) (st_end st) (st_loads st) load hour = Ok (Q, t) -> Q <> [] -> (length Q <= length t)%nat ->
  let inside d := first_second <= 3600 * d <= t_s u * exp (last (l0 :: r) 0) in
  ((forall i j, (j < i <= length Q)%nat -> inside (at_step t i - at_step t j)) -> exists x, field_excess coordinates H = Ok x) /\
  ((exists i j, (j < i <= length Q)%nat /\ ~ inside (at_step t i - at_step t j)) -> field_excess coordinates H = Err ValueError).
Proof.
  intros Hc HH Hrb Ef Hmf Eb Ee u Hs Hu Eg El Il Lg H0 Hj L8 Cl Hm.
  destruct (C94_construction coordinates H V_sys mf b e g Hc Ef Eb Ee Hs Hu Eg L8 Hm Cl)
    as (s & B & sts & gs & rej & ext & cl & hl & load & hour & sf & Es & EB & Ec & Esp & M1 & M2 & P & Ers).
  exists sts, gs, rej, ext, cl, hl, load, hour, sf. split; [exact Ec|]. split; [exact Esp|]. split; [exact M1|]. split; [exact M2|]. split; [exact P|].
  intros Q t Eq HQ Ht inside.
  assert (PB : 0 < B).
  { destruct coordinates as [|c1 [|c2 cs]]; [congruence| |].
    - cbn in EB. apply Ok_inj in EB. now subst B.
    - rewrite (proj2 (proj2 C23_borehole_spacing)) in EB. apply Ok_inj in EB. subst B. eapply Rlt_le_trans; [exact Hrb|apply Rmax_l]. }
  assert (Zb : B / H <> 0) by (apply Rgt_not_eq, Rdiv_lt_0_compat; lra).
  assert (Hnb : gh_nbh s <> 0%Z) by (rewrite Ers; cbn [gh_nbh]; destruct coordinates; [congruence|cbn; lia]).
  assert (Up : update_bhe h_circular h_annulus r_conduction eff_u eff_c (gh_H s) (gh_bhe s) = b).
  { rewrite Ers. cbn [gh_H gh_bhe]. eapply made_updated. exact Eb. }
  assert (Ei : snd (g_function_interpolation interp (gh_gf s) (gh_B s / gh_H s) k_default) = Ok (g, st_rb st, Some (st_D st), H)).
  { rewrite Ers. cbn [gh_gf gh_B gh_H].
    match goal with |- snd (g_function_interpolation _ ?gf _ _) = _ =>
      exact (proj1 (C56_stored_height_partial interp gf H {| cv_g := g; cv_rb := st_rb st; cv_D := st_D st |} (B / H) eq_refl HH Zb ltac:(cbn [gf_B]; field; lra))) end. }
  assert (Sim := C94_simulation s e g (st_rb st) (Some (st_D st)) H l0 r Q t).
  cbn zeta in Sim. rewrite Up in Sim. rewrite Ei in Sim.
  assert (EH : gh_H s = H) by (rewrite Ers; reflexivity). rewrite EH in Sim.
  assert (Elt : gf_log_time (gh_gf s) = l0 :: r) by (rewrite Ers; exact El).
  assert (Ell : gh_load s = load) by (rewrite Ers; reflexivity). assert (Ehh : gh_hour s = hour) by (rewrite Ers; reflexivity). rewrite Ell, Ehh in Sim.
  specialize (Sim HH Hnb ltac:(pose proof (ad_k u Hu) as X; cbn in X; lra) Ee Hu ltac:(rewrite (made_flow _ _ Eb); exact Hmf) eq_refl Elt Il Lg H0 Hj Eq HQ Ht).
  cbn zeta in Sim. destruct Sim as (Yes & No).
  assert (Fx : field_excess coordinates H = excess st (snd (sim_once s))).
  { unfold field_excess, calculate_excess. fold build. rewrite Es. reflexivity. }
  rewrite Fx. split.
  - intro In. destruct (Yes In) as (_ & _ & _ & _ & _ & s' & T & dT & mx & mn & _ & _ & _ & Er & _). rewrite Er. cbn [snd excess bind]. eauto.
  - intro Out. rewrite (No Out). reflexivity.
Qed.
Theorem C94_hourly_field :
  forall coordinates H V_sys mf b e g l0 r y, m = m_hourly -> (st_end st - st_start st + 1 = 12 * y)%Z -> (1 <= y)%Z ->
  coordinates <> [] -> 0 < H -> 0 < st_rb st -> retrieve_flow flow V_flow (fl_rho (st_fluid st)) (zlen coordinates) = Ok (V_sys, mf) ->
  mf * fl_cp (st_fluid st) <> 0 ->
  make_bhe h_circular h_annulus r_conduction st mf = Ok b -> compute_equivalent h_circular r_conduction (eff_u H) (eff_c H) brentq b = Ok e ->
  let u := utube_of eff_u st H e in
  good_solver solver -> admissible u -> field_response mf coordinates H (st_D st) (st_rb st) = Ok g ->
  log_time = l0 :: r -> increasing (l0 :: r) -> length g = length (l0 :: r) ->
  first_second < t_s u * exp l0 -> (forall j, first_second + 120 * INR j <> t_s u * exp l0) ->
  length (st_loads st) = Z.to_nat 8760 ->
  (forall rej ext, split_heat_and_cool (st_loads st) unit_W = Ok (rej, ext) -> clear_peaks rej /\ clear_peaks ext) -> (1 <= st_start st)%Z ->
  let limit := t_s u * exp (last (l0 :: r) 0) in
  (3600 * IZR (8760 * y) <= limit -> exists x, field_excess coordinates H = Ok x) /\
  (limit < 3600 * IZR (8760 * y) -> field_excess coordinates H = Err ValueError).
Proof.
  intros coordinates H V_sys mf b e g l0 r y Em Ey Hy Hc HH Hrb Ef Hmf Eb Ee u Hs Hu Eg El Il Lg H0 Hj L8 Cl Hm limit.
  destruct (field_outcome coordinates H V_sys mf b e g l0 r Hc HH Hrb Ef Hmf Eb Ee Hs Hu Eg El Il Lg H0 Hj L8 Cl Hm)
    as (sts & gs & rej & ext & cl & hl & load & hour & sf & _ & _ & _ & _ & _ & F).
  rewrite Em in F. assert (Eny : ((st_end st - st_start st + 12) / 12 = y)%Z).
  { replace (st_end st - st_start st + 12)%Z with (11 + y * 12)%Z by lia. rewrite Z.div_add by lia. reflexivity. }
  specialize (F _ _ (hourly_loads_ok (st_start st) (st_end st) (st_loads st) load hour y ltac:(lia) ltac:(congruence))).
  set (n := Z.to_nat (8760 * y)).
  assert (LQ : length (map (fun x => -1 * x) (concat (repeat (st_loads st) (Z.to_nat y)))) = n).
  { rewrite map_length, repeat_concat_length, L8. unfold n. lia. }
  replace (730 * (st_end st - st_start st + 1) + 1)%Z with (Z.of_nat n + 1)%Z in F by (unfold n; lia).
  rewrite LQ in F. specialize (F ltac:(intro X; apply (f_equal (@length R)) in X; rewrite LQ in X; cbn [length] in X; unfold n in X; lia)
    ltac:(rewrite map_length, zrange_length; lia)). cbn zeta in F. destruct F as (Yes & No).
  assert (EN : INR n = IZR (8760 * y)) by (rewrite INR_IZR_INZ; f_equal; unfold n; lia).
  assert (Hn : (1 <= n)%nat) by (unfold n; lia).
  assert (HT := C90_hourly_times limit n Hn). cbn zeta in HT. rewrite EN in HT. split.
  - intro X. apply Yes. apply HT. exact X.
  - intro X. apply No. exists n, 0%nat. split; [lia|]. intro Y. revert X. apply Rle_not_lt. cbn [at_step] in Y. unfold limit in *.
    assert (A : at_step (map IZR (zrange 1 (Z.of_nat n + 1))) n = INR n).
    { destruct n as [|k]; [lia|]. cbn [at_step]. rewrite (map_nth IZR).
      assert (E : nth_error (zrange 1 (Z.of_nat (S k) + 1)) k = Some (1 + Z.of_nat k)%Z).
      { unfold zrange. rewrite nth_error_zseq. destruct (Nat.ltb_spec k (Z.to_nat (Z.of_nat (S k) + 1 - 1))); [reflexivity|lia]. }
      rewrite (nth_error_nth _ _ _ E). rewrite INR_IZR_INZ. f_equal. lia. }
    rewrite A, EN in Y. unfold u in *. lra.
Qed.
(** the hybrid method needs peaks that C91 admits *)
Theorem C94_hybrid_field_partial :
  forall coordinates H V_sys mf b e g l0 r d, m = m_hybrid -> first_second / 3600 <= d <= 1 -> (1 <= st_start st <= st_end st)%Z ->
  coordinates <> [] -> 0 < H -> 0 < st_rb st -> retrieve_flow flow V_flow (fl_rho (st_fluid st)) (zlen coordinates) = Ok (V_sys, mf) ->
  mf * fl_cp (st_fluid st) <> 0 ->
  make_bhe h_circular h_annulus r_conduction st mf = Ok b -> compute_equivalent h_circular r_conduction (eff_u H) (eff_c H) brentq b = Ok e ->
  let u := utube_of eff_u st H e in
  good_solver solver -> admissible u -> field_response mf coordinates H (st_D st) (st_rb st) = Ok g ->
  log_time = l0 :: r -> increasing (l0 :: r) -> length g = length (l0 :: r) ->
  first_second < t_s u * exp l0 -> (forall j, first_second + 120 * INR j <> t_s u * exp l0) ->
  length (st_loads st) = Z.to_nat 8760 ->
  (forall rej ext, split_heat_and_cool (st_loads st) unit_W = Ok (rej, ext) -> clear_peaks rej /\ clear_peaks ext) ->
  (forall sts gs rej ext cl hl ld i, calc_sts_g_functions (short_time_fuel u) solver u None false = Ok (sts, gs) -> let gt := g_lag sts gs (t_s u) in
     split_heat_and_cool (st_loads st) unit_W = Ok (rej, ext) ->
     make_loads gt (2 * PI * st_soil_k st) (u_Rb u) 2019 rej = Ok cl -> make_loads gt (2 * PI * st_soil_k st) (u_Rb u) 2019 ext = Ok hl ->
     ld = cl \/ ld = hl -> (1 <= i <= 12)%Z -> 0 < peak_of ld i -> d <= duration_of ld i <= 22 - 2 * d /\ (1 <= peak_day_of ld i <= days_of 2019 i)%Z) ->
  let limit := t_s u * exp (last (l0 :: r) 0) in
  (3600 * IZR (hours_through (st_end st)) <= limit -> exists x, field_excess coordinates H = Ok x) /\
  (limit < 3600 * IZR (hours_through (st_end st)) -> field_excess coordinates H = Err ValueError).
Proof.
  intros coordinates H V_sys mf b e g l0 r d Em Hd Hse Hc HH Hrb Ef Hmf Eb Ee u Hs Hu Eg El Il Lg H0 Hj L8 Cl Room limit.
  destruct (field_outcome coordinates H V_sys mf b e g l0 r Hc HH Hrb Ef Hmf Eb Ee Hs Hu Eg El Il Lg H0 Hj L8 Cl ltac:(lia))
    as (sts & gs & rej & ext & cl & hl & load & hour & sf & Ec & Esp & M1 & M2 & P & F).
  rewrite Em in F. specialize (F _ _ eq_refl).
  assert (P0 : 0 < first_second) by (apply Rinv_0_lt_compat; lra).
  destruct (loads_tables _ _ _ _ _ _ M1) as (HC & _). destruct (loads_tables _ _ _ _ _ _ M2) as (HHm & _).
  destruct (C91_hours_advance_partial d cl hl (st_start st) (st_end st) load hour sf ltac:(lra) Hse HC HHm) with (3 := P)
    as (hour' & Eh & Ap & Elast & load' & Eld & Ll & Nz).
  { intros ld i [-> | ->] Hi; [apply (duration_bound _ _ _ _ _ _ M1 _ Hi)|apply (duration_bound _ _ _ _ _ _ M2 _ Hi)]. }
  { intros ld i Hl Hi Hp. apply (Room sts gs rej ext cl hl ld i Ec Esp M1 M2 Hl Hi Hp). }
  rewrite Eh, Eld in F. cbn [skipn] in F. rewrite map_length in F.
  specialize (F ltac:(intro X; apply (f_equal (@length R)) in X; rewrite map_length in X; cbn [length] in X; lia) ltac:(lia)). cbn zeta in F.
  destruct F as (Yes & No).
  assert (El0 : last (0 :: hour') 0 = IZR (hours_through (st_end st))) by (rewrite <- Elast; destruct hour'; [cbn in Nz; lia|reflexivity]).
  split.
  - intro X. apply Yes. rewrite Ll. apply C90_advancing_times; [|rewrite El0; exact X].
    clear - Ap Hd. revert Ap. generalize (0 :: hour'). induction l as [|a [|a' l] IH]; [auto|auto|]. cbn [apart]. intros (A & Bp). split; [lra|]. apply IH. exact Bp.
  - intro X. apply No. exists (length load'), 0%nat. split; [lia|]. rewrite Ll. intro Y.
    assert (A : at_step hour' (length hour') = IZR (hours_through (st_end st))).
    { rewrite at_step_nth. rewrite <- El0. rewrite <- last_nth. f_equal. }
    rewrite A in Y. cbn [at_step] in Y. unfold limit, u in *. lra.
Qed.
End World.

(** ** a plant that meets the hypotheses: one single U-tube per borehole, 1 kW of extraction all year, Eskilson's times *)
Definition plant_pipe : pipe := {| pp_pos := [(- (3 / 100), 0); (3 / 100, 0)]; pp_rin := 10 / 1000; pp_rout := 13 / 1000; pp_s := 34 / 1000; pp_eps := 1 / 1000000;
  pp_k := 4 / 10; pp_rhoCp := 1542000 |}.
Definition plant (max_EFT min_EFT max_H min_H : R) : settings := {| st_class := SingleUTube plant_pipe; st_fluid := {| fl_mu := 1 / 1000; fl_rho := 998; fl_k := 6 / 10; fl_cp := 4182 |};
  st_rb := 75 / 1000; st_D := 2; st_grout_k := 1; st_grout_rhoCp := 3901000; st_soil_k := 2; st_soil_rhoCp := 2343000; st_ugt := 18;
  st_start := 1; st_end := 12; st_max_EFT := max_EFT; st_min_EFT := min_EFT; st_max_H := max_H; st_min_H := min_H; st_loads := repeat 1000 (Z.to_nat 8760) |}.
Definition plant_film : R -> R -> R -> R -> R -> R -> R -> R := fun _ _ _ _ _ _ _ => 2500 / PI.
Definition plant_annulus : R -> R -> R -> R -> R -> R -> R -> R -> R * R := fun _ _ _ _ _ _ _ _ => (0, 0).
Definition plant_wall : R -> R -> R -> R := fun _ _ _ => 1 / 10.
Definition plant_Rb : R -> pg_u -> R -> R -> R := fun _ _ _ _ => 15 / 100.
Definition plant_Rc : R -> pg_c -> R -> R -> R := fun _ _ _ _ => 15 / 100.
Definition plant_root : (R -> res R) -> R -> R -> list R * res R := fun _ _ _ => ([], Err ValueError).
Definition plant_response : R -> list (R * R) -> R -> R -> R -> res (list R) := fun _ _ _ _ _ => Ok eskilson.
Definition plant_field : list (R * R) := [(0, 0); (6, 0); (0, 6); (6, 6)].
Definition plant_interp : ikind -> list (R * R) -> R -> R := fun _ l _ => snd (hd (0, 0) l).
(** the height whose first long time is [sec] seconds *)
Definition height_for (sec : R) : R := sqrt (9 * (2 / 2343000) * (sec * exp (17 / 2))).
Lemma height_positive sec : 0 < sec -> 0 < height_for sec.
Proof. intro Hs. apply sqrt_lt_R0. pose proof (Rmult_lt_0_compat sec _ Hs (exp_pos (17 / 2))). lra. Qed.
Lemma plant_bhe a b c d mf : exists e, make_bhe plant_film plant_annulus plant_wall (plant a b c d) mf = Ok (Single e) /\
  forall sec, 0 < sec -> let u := utube_of plant_Rb (plant a b c d) (height_for sec) e in admissible u /\ t_s u = sec * exp (17 / 2).
Proof.
  eexists. split; [reflexivity|]. intros sec Hs u. split.
  - pose proof sqrt2_bounds. pose proof PI_RGT_0 as P.
    assert (Rf : u_Rf u = 2 / 100) by (cbn; unfold plant_film; field; lra).
    constructor; rewrite ?Rf; cbn; unfold plant_wall, plant_Rb; try lra; try (split; lra). now apply height_positive.
  - unfold t_s. cbn [u utube_of u_H u_k_s u_soil_rhoCp]. cbn. pose proof (Rmult_lt_0_compat sec _ Hs (exp_pos (17 / 2))). unfold height_for.
    rewrite Rmult_1_r, sqrt_sqrt by lra. field.
Qed.
Lemma clear_constant c : clear_peaks (repeat c (Z.to_nat 8760)).
Proof. intros td ts ps avs ds i w mp A B C D E. left. eapply constant_year_clear; eauto. Qed.
Lemma plant_clear a b c d rej ext : split_heat_and_cool (st_loads (plant a b c d)) unit_W = Ok (rej, ext) -> clear_peaks rej /\ clear_peaks ext.
Proof.
  intro E. destruct (proj2 C36_heating_cooling_split (st_loads (plant a b c d)) unit_W 1000 ltac:(auto)) as (rej' & ext' & Esp & Lr & Lx & Sp).
  assert (rej' = rej /\ ext' = ext) as (-> & ->) by (split; congruence). cbn [st_loads plant] in Lr, Lx, Sp. rewrite repeat_length in Lr, Lx.
  assert (A : forall k, (k < Z.to_nat 8760)%nat -> nth_error rej k = Some 0 /\ nth_error ext k = Some 1).
  { intros k Hk. destruct (Sp k 1000) as (r & x & A1 & A2 & A3 & A4 & A5 & A6); [now apply nth_error_repeat|].
    replace (1000 / 1000) with 1 in A6 by field. assert (r = 0 /\ x = 1) as (-> & ->) by (destruct A5; split; lra). auto. }
  assert (rej = repeat 0 (Z.to_nat 8760) /\ ext = repeat 1 (Z.to_nat 8760)) as (-> & ->).
  { split; apply nth_error_ext; intro k; (destruct (Nat.lt_ge_cases k (Z.to_nat 8760)) as [Hk|Hk];
      [rewrite nth_error_repeat by exact Hk; apply A; exact Hk|]); rewrite !(proj2 (nth_error_None _ _)); auto; rewrite ?repeat_length; lia. }
  split; apply clear_constant.
Qed.
Lemma not_a_short_time n : (n mod 120 <> 0)%Z -> (0 < n)%Z -> first_second < IZR n /\ forall j, first_second + 120 * INR j <> IZR n.
Proof.
  intros Hn Hp. assert (P : 0 < first_second < 1) by (unfold first_second; split; [apply Rinv_0_lt_compat; lra|lra]).
  assert (Hp' : 1 <= IZR n) by (apply (IZR_le 1); lia). split; [lra|]. intros j X. rewrite INR_IZR_INZ in X.
  assert (A : IZR (n - 1) < IZR (120 * Z.of_nat j) < IZR n) by (rewrite mult_IZR, minus_IZR; lra). destruct A as (A & B).
  apply lt_IZR in A, B. lia.
Qed.

Lemma eskilson_reach sec : 30000 <= sec -> 3600 * IZR (8760 * 1) <= sec * exp (17 / 2) * exp (last eskilson 0).
Proof.
  intro Hs. rewrite Rmult_assoc, <- exp_plus. unfold eskilson, Eskilson_log_times_milli. cbn [map last].
  assert (E1 : 2 < exp 1) by (pose proof (exp_ineq1 1); lra).
  assert (E2 : 4 < exp 2) by (replace 2 with (1 + 1) by ring; rewrite exp_plus; nra).
  assert (E4 : 16 < exp 4) by (replace 4 with (2 + 2) by ring; rewrite exp_plus; nra).
  assert (E8 : 256 < exp 8) by (replace 8 with (4 + 4) by ring; rewrite exp_plus; nra).
  assert (E11 : 2048 < exp (8 + (2 + 1))) by (rewrite !exp_plus; assert (8 < exp 2 * exp 1) by nra; nra).
  match goal with |- _ <= _ * exp ?z => assert (X : exp (8 + (2 + 1)) <= exp z) by (apply Rlt_le, exp_increasing; lra) end.
  apply Rle_trans with (30000 * 2048); [rewrite mult_IZR; lra|]. apply Rmult_le_compat; lra.
Qed.
Example C94_hourly_example : exists x,
  calculate_excess plant_film plant_annulus plant_wall plant_Rb plant_Rc plant_root thomas plant_interp plant_response (plant 35 5 200 20) flow_borehole (1 / 5)
    eskilson m_hourly plant_field (height_for 120060) = Ok x.
Proof.
  destruct eskilson_head as (r & Er). set (P := plant 35 5 200 20).
  destruct (plant_bhe 35 5 200 20 (1 / 5 / 1000 * 998)) as (e & Ee & Hu). destruct (Hu 120060 ltac:(lra)) as (Ad & Ts). clear Hu.
  destruct (not_a_short_time 120060 ltac:(vm_compute; discriminate) ltac:(lia)) as (S1 & S2).
  assert (Et : t_s (utube_of plant_Rb P (height_for 120060) e) * exp (- (17 / 2)) = 120060).
  { unfold P. rewrite Ts, Rmult_assoc, <- exp_plus. replace (17 / 2 + - (17 / 2)) with 0 by ring. rewrite exp_0. ring. }
  apply (C94_hourly_field plant_film plant_annulus plant_wall plant_Rb plant_Rc plant_root thomas plant_interp plant_response P m_hourly flow_borehole (1 / 5) eskilson
    plant_field (height_for 120060) (1 / 5 * 4) (1 / 5 / 1000 * 998) (Single e) e eskilson (- (17 / 2)) r 1); try reflexivity; try assumption.
  - discriminate.
  - apply height_positive. lra.
  - cbn. lra.
  - cbn. rewrite pydiv_R by lra. cbn. unfold zlen, plant_field. cbn. f_equal.
  - cbn. lra.
  - exact solver_exists.
  - rewrite <- Er. exact eskilson_increasing.
  - rewrite Er. reflexivity.
  - rewrite Et. exact S1.
  - intro j. rewrite Et. apply S2.
  - intros rej ext E. apply (plant_clear 35 5 200 20 rej ext E).
  - cbn [st_start st_end P plant]. rewrite <- Er. unfold P. rewrite Ts. apply eskilson_reach. lra.
Qed.
Example C93_example : exists x s g,
  calculate_excess plant_film plant_annulus plant_wall plant_Rb plant_Rc plant_root thomas plant_interp plant_response (plant 35 5 200 20) flow_borehole (1 / 5)
    eskilson m_hourly plant_field (height_for 120060) = Ok x /\
  initialize_ghe plant_film plant_annulus plant_wall plant_Rb plant_Rc plant_root thomas plant_response (plant 35 5 200 20) flow_borehole (1 / 5)
    eskilson plant_field (height_for 120060) = Ok s /\ gh_nbh s = 4%Z /\ gf_curves (gh_gf s) = [(height_for 120060, g)].
Proof.
  destruct C94_hourly_example as (x & E).
  destruct (C93_excess_is_compliance _ _ _ _ _ _ _ _ _ _ _ _ _ _ _ _ x E) as (s & s' & mx & mn & V & g & B & Eb & _ & _ & _ & En & _ & _ & _ & _ & _ & Eg & _).
  exists x, s, {| cv_g := g; cv_rb := st_rb (plant 35 5 200 20); cv_D := st_D (plant 35 5 200 20) |}. rewrite Eg. auto.
Qed.
(** four boreholes of 48 to 67 m, limits that no temperature reaches: sizing ends at the greatest height (C53) *)
Definition plant_ghe (e : ubhe) : ghe := {| gh_B := 6; gh_nbh := 4; gh_H := 60; gh_bhe := Single e; gh_eq := e; gh_ts := 0; gh_sts := ([], []);
  gh_gf := {| gf_B := 6; gf_curves := []; gf_log_time := eskilson; gf_locations := plant_field; gf_table := t_empty |};
  gh_load := []; gh_hour := []; gh_results := ([], []) |}.
Lemma plant_simulates hi lo e s0 n : let st := plant hi lo (height_for 120060) (height_for 60030) in
  make_bhe plant_film plant_annulus plant_wall st (1 / 5 / 1000 * 998) = Ok (Single e) ->
  (forall sec, 0 < sec -> let u := utube_of plant_Rb st (height_for sec) e in admissible u /\ t_s u = sec * exp (17 / 2)) ->
  compute_g_functions plant_response st (plant_ghe e) = Ok s0 -> (60030 <= n <= 120060)%Z -> (n mod 120 <> 0)%Z ->
  exists s' T dT mx mn, ghe_simulate plant_film plant_annulus plant_wall plant_Rb plant_Rc plant_root thomas plant_interp st m_hourly (with_H s0 (height_for (IZR n))) = (s', Ok (mx, mn)) /\
  gh_results s' = (T, dT) /\ length T = Z.to_nat 8760.
Proof.
  intros st Ee Hu E0 Hn Hd. destruct eskilson_head as (r & Er).
  assert (Hn1 : 60030 <= IZR n <= 120060) by (split; apply IZR_le; lia).
  destruct (Hu (IZR n) ltac:(lra)) as (Ad & Ts). destruct (not_a_short_time n Hd ltac:(lia)) as (S1 & S2).
  assert (Et : t_s (utube_of plant_Rb st (height_for (IZR n)) e) * exp (- (17 / 2)) = IZR n).
  { rewrite Ts, Rmult_assoc, <- exp_plus. replace (17 / 2 + - (17 / 2)) with 0 by ring. rewrite exp_0. ring. }
  assert (Mono : forall a b, 0 <= a <= b -> height_for a <= height_for b).
  { intros a b Hab. pose proof (exp_pos (17 / 2)). apply sqrt_le_1; nra. }
  assert (Hh : 0 < height_for 60030 < height_for 120060).
  { split; [apply height_positive; lra|]. pose proof (exp_pos (17 / 2)). apply sqrt_lt_1; try nra. }
  assert (Hf : forall (mf : R) (c : list (R * R)) (H D r : R), exists g, plant_response mf c H D r = Ok g /\ length g = length (gf_log_time (gh_gf (plant_ghe e)))) by (intros; exists eskilson; auto).
  destruct (g_functions_cover plant_response st (plant_ghe e) s0 Hh Hf E0) as (T0 & N0 & F0 & B0 & B1 & Cv & _).
  destruct (g_functions_total plant_response st (plant_ghe e) ltac:(cbn; lra) Hf) as (s0' & E0' & Eb & En & El).
  assert (s0' = s0) as -> by congruence.
  assert (Hh' : 0 < height_for (IZR n)) by (apply height_positive; lra).
  assert (Hin : height_for 60030 <= height_for (IZR n) <= height_for 120060) by (split; apply Mono; lra).
  destruct (effective_kind_for k_default (length (gf_curves (gh_gf s0))) ltac:(lia) ltac:(discriminate)) as (k & K0 & _).
  assert (Eg : exists gl rb D He, snd (g_function_interpolation plant_interp (gh_gf s0) (gh_B s0 / height_for (IZR n)) k_default) = Ok (gl, rb, D, He) /\ length gl = length eskilson).
  { assert (Zb : gh_B s0 / height_for (IZR n) <> 0) by (apply Rgt_not_eq, Rdiv_lt_0_compat; [rewrite B1; cbn; lra|lra]).
    assert (Eb' : gf_B (gh_gf s0) / (gh_B s0 / height_for (IZR n)) = height_for (IZR n)).
    { rewrite <- B0. field. split; [lra|]. rewrite B1. cbn. lra. }
    assert (Bt := Cv _ Hin). assert (Hne : gf_curves (gh_gf s0) <> []) by (destruct (gf_curves (gh_gf s0)); [cbn in N0; lia|discriminate]).
    destruct (extremes (gh_gf s0) Hne) as (mx & mn & _ & _ & M1 & M2).
    assert (Bt' := proj1 (between_extremes (gh_gf s0) _ mn mx M2 M1) Bt).
    destruct (clamped (gh_gf s0) (gh_B s0 / height_for (IZR n)) mn mx Zb M2 M1 ltac:(rewrite Eb'; exact Bt')) as (h & Eh & Hh2 & _).
    destruct (interpolation_by_table plant_interp (gh_gf s0) (gh_B s0 / height_for (IZR n)) k_default h false k ltac:(lia) Eh K0 F0) as (F1 & _).
    rewrite (F1 T0). cbn [snd]. rewrite (read_ok plant_interp (gh_gf s0)); [|exact F0|left; now apply (between_extremes (gh_gf s0) h mn mx M2 M1)].
    unfold interpolated. do 4 eexists. split; [reflexivity|]. rewrite map_length, seq_length, El. reflexivity. }
  destruct Eg as (gl & rb & D & He & Eg & Lg).
  assert (Eny : ((st_end st - st_start st + 12) / 12 = 1)%Z) by reflexivity.
  assert (Eq := hourly_loads_ok (st_start st) (st_end st) (st_loads st) (gh_load s0) (gh_hour s0) 1 ltac:(cbn; lia) Eny).
  set (Q := map (fun x => -1 * x) (concat (repeat (st_loads st) (Z.to_nat 1)))) in *.
  assert (LQ : length Q = Z.to_nat 8760).
  { unfold Q. rewrite map_length, repeat_concat_length. cbn [st_loads st plant]. rewrite repeat_length. reflexivity. }
  assert (Up : update_bhe plant_film plant_annulus plant_wall plant_Rb plant_Rc (height_for (IZR n)) (gh_bhe s0) = Single e).
  { rewrite Eb. cbn [gh_bhe plant_ghe]. eapply (made_updated plant_film plant_annulus plant_wall plant_Rb plant_Rc). exact Ee. }
  assert (Sim := C94_simulation plant_film plant_annulus plant_wall plant_Rb plant_Rc plant_root thomas plant_interp st m_hourly (with_H s0 (height_for (IZR n))) e gl rb D He
    (- (17 / 2)) r Q (map IZR (zrange 1 (730 * (st_end st - st_start st + 1) + 1)))).
  cbn zeta in Sim. cbn [with_H gh_H gh_nbh gh_bhe gh_gf gh_B gh_load gh_hour] in Sim. rewrite Up in Sim.
  specialize (Sim Hh' ltac:(rewrite En; discriminate) ltac:(cbn; lra) eq_refl Ad ltac:(rewrite (made_flow plant_film plant_annulus plant_wall st _ _ Ee); cbn; lra) Eg
    ltac:(rewrite El; exact Er) ltac:(rewrite <- Er; exact eskilson_increasing) ltac:(rewrite Lg, Er; reflexivity) ltac:(rewrite Et; exact S1)
    ltac:(intro j; rewrite Et; apply S2) Eq ltac:(intro X; rewrite X in LQ; cbn [length] in LQ; lia) ltac:(rewrite LQ, map_length, zrange_length; cbn [st_end st_start st plant]; lia)).
  destruct Sim as (Yes & _). rewrite LQ in Yes.
  destruct Yes as (sts & gs & x & y & G & s' & T & dT & mx & mn & _ & _ & _ & Er' & Rs & _ & _ & LT & _).
  - change (730 * (st_end st - st_start st + 1) + 1)%Z with (Z.of_nat (Z.to_nat 8760) + 1)%Z.
    apply C90_hourly_times; [lia|]. rewrite <- Er, Ts. rewrite INR_IZR_INZ. change (Z.of_nat (Z.to_nat 8760)) with (8760 * 1)%Z. apply eskilson_reach. lra.
  - exists s', T, dT, mx, mn. auto.
Qed.
Example C92_example : exists hi lo s s0 s', let st := plant hi lo (height_for 120060) (height_for 60030) in
  0 < gh_B s /\ 0 < st_min_H st < st_max_H st /\ compute_g_functions plant_response st s = Ok s0 /\
  ghe_size plant_film plant_annulus plant_wall plant_Rb plant_Rc plant_root thomas plant_interp st (fun _ _ => Answer (Ok 0)) m_hourly s0 = (s', Ok tt) /\
  gh_H s' = height_for 120060 /\ length (fst (gh_results s')) = Z.to_nat 8760.
Proof.
  destruct (plant_bhe 0 0 (height_for 120060) (height_for 60030) (1 / 5 / 1000 * 998)) as (e & Ee & Hu).
  assert (Hh : 0 < height_for 60030 < height_for 120060).
  { split; [apply height_positive; lra|]. pose proof (exp_pos (17 / 2)). apply sqrt_lt_1; try nra. }
  assert (Hf : forall (mf : R) (c : list (R * R)) (H D r : R), exists g, plant_response mf c H D r = Ok g /\ length g = length (gf_log_time (gh_gf (plant_ghe e)))) by (intros; exists eskilson; auto).
  destruct (g_functions_total plant_response (plant 0 0 (height_for 120060) (height_for 60030)) (plant_ghe e) ltac:(cbn; lra) Hf) as (s0 & E0 & _).
  destruct (plant_simulates 0 0 e s0 60030 Ee Hu E0 ltac:(lia) ltac:(vm_compute; discriminate)) as (s1 & T1 & D1 & mx1 & mn1 & R1 & Q1 & L1).
  destruct (plant_simulates 0 0 e s0 120060 Ee Hu E0 ltac:(lia) ltac:(vm_compute; discriminate)) as (s2 & T2 & D2 & mx2 & mn2 & R2 & Q2 & L2).
  set (hi := Rmax mx1 mx2 + 1). set (lo := Rmin mn1 mn2 - 1).
  set (st := plant hi lo (height_for 120060) (height_for 60030)).
  change (compute_g_functions plant_response (plant 0 0 (height_for 120060) (height_for 60030)) (plant_ghe e)) with (compute_g_functions plant_response st (plant_ghe e)) in E0.
  change (ghe_simulate plant_film plant_annulus plant_wall plant_Rb plant_Rc plant_root thomas plant_interp (plant 0 0 (height_for 120060) (height_for 60030)) m_hourly)
    with (ghe_simulate plant_film plant_annulus plant_wall plant_Rb plant_Rc plant_root thomas plant_interp st m_hourly) in R1, R2.
  assert (C := C92_sizing_without_history plant_film plant_annulus plant_wall plant_Rb plant_Rc plant_root thomas plant_interp plant_response st m_hourly (fun _ _ => Answer (Ok 0))
    (plant_ghe e) s0 ltac:(cbn; lra) Hh Hf E0 ltac:(cbn; auto)). cbn zeta in C.
  set (sim := from_scratch plant_film plant_annulus plant_wall plant_Rb plant_Rc plant_root thomas plant_interp st m_hourly s0) in *.
  assert (S1 : sim (height_for 60030) = Ok (T1, cost hi lo mx1 mn1)) by (unfold sim, from_scratch; rewrite R1, Q1; reflexivity).
  assert (S2 : sim (height_for 120060) = Ok (T2, cost hi lo mx2 mn2)) by (unfold sim, from_scratch; rewrite R2, Q2; reflexivity).
  assert (K : forall mx mn, mx <= Rmax mx1 mx2 -> Rmin mn1 mn2 <= mn -> cost hi lo mx mn < 0).
  { intros mx mn A B. destruct (C49_cost_is_compliance hi lo mx mn) as (_ & _ & _ & [-> | ->]); unfold hi, lo; lra. }
  assert (Fin := C53_final_height_partial (fun f lo up => listen f (Answer (Ok 0))) sim (height_for 120060) (height_for 60030) {| sz_height := gh_H s0; sz_result := None |}
    T1 (cost hi lo mx1 mn1) T2 (cost hi lo mx2 mn2) S1 S2). cbn zeta in Fin.
  cbn [st_max_H st_min_H st plant] in C.
  destruct (size (fun f lo up => listen f (Answer (Ok 0))) sim (height_for 120060) (height_for 60030) {| sz_height := gh_H s0; sz_result := None |}) as (z, rz).
  destruct Fin as (Fin & _). destruct Fin as (Z1 & Z2 & Z3).
  { left. split; apply K; [apply Rmax_l|apply Rmin_l|apply Rmax_r|apply Rmin_r]. }
  destruct C as (C1 & C2 & C3). cbn [fst snd] in C1, C2, C3. rewrite Z2 in C3. destruct C3 as (C3 & C4).
  destruct (ghe_size plant_film plant_annulus plant_wall plant_Rb plant_Rc plant_root thomas plant_interp st (fun _ _ => Answer (Ok 0)) m_hourly s0) as (s', rs) eqn:Es.
  exists hi, lo, (plant_ghe e), s0, s'. cbn zeta. fold st. rewrite Es. cbn [fst snd] in *.
  split; [cbn; lra|]. split; [exact Hh|]. split; [exact E0|]. split; [congruence|]. split; [congruence|]. rewrite C4. exact L2.
Qed.
(** the hybrid method: the same plant without loads, where no peak is kept *)
Definition idle (st : settings) : settings := {| st_class := st_class st; st_fluid := st_fluid st; st_rb := st_rb st; st_D := st_D st; st_grout_k := st_grout_k st;
  st_grout_rhoCp := st_grout_rhoCp st; st_soil_k := st_soil_k st; st_soil_rhoCp := st_soil_rhoCp st; st_ugt := st_ugt st; st_start := st_start st; st_end := st_end st;
  st_max_EFT := st_max_EFT st; st_min_EFT := st_min_EFT st; st_max_H := st_max_H st; st_min_H := st_min_H st; st_loads := repeat 0 (Z.to_nat 8760) |}.
Example C94_hybrid_example : exists x,
  calculate_excess plant_film plant_annulus plant_wall plant_Rb plant_Rc plant_root thomas plant_interp plant_response (idle (plant 35 5 200 20)) flow_borehole (1 / 5)
    eskilson m_hybrid plant_field (height_for 120060) = Ok x.
Proof.
  destruct eskilson_head as (r & Er). set (P := idle (plant 35 5 200 20)).
  destruct (plant_bhe 35 5 200 20 (1 / 5 / 1000 * 998)) as (e & Ee & Hu). destruct (Hu 120060 ltac:(lra)) as (Ad & Ts). clear Hu.
  destruct (not_a_short_time 120060 ltac:(vm_compute; discriminate) ltac:(lia)) as (S1 & S2).
  change (utube_of plant_Rb (plant 35 5 200 20)) with (utube_of plant_Rb P) in *.
  assert (Et : t_s (utube_of plant_Rb P (height_for 120060) e) * exp (- (17 / 2)) = 120060).
  { rewrite Ts, Rmult_assoc, <- exp_plus. replace (17 / 2 + - (17 / 2)) with 0 by ring. rewrite exp_0. ring. }
  assert (P0 : 0 < first_second < 1) by (unfold first_second; split; [apply Rinv_0_lt_compat; lra|lra]).
  assert (Sp : split_heat_and_cool (st_loads P) unit_W = Ok (repeat 0 (Z.to_nat 8760), repeat 0 (Z.to_nat 8760))).
  { destruct (proj2 C36_heating_cooling_split (st_loads P) unit_W 1000 ltac:(auto)) as (rej & ext & Esp & Lr & Lx & Sp).
    cbn [st_loads P idle] in Lr, Lx, Sp. rewrite repeat_length in Lr, Lx.
    assert (A : forall k, (k < Z.to_nat 8760)%nat -> nth_error rej k = Some 0 /\ nth_error ext k = Some 0).
    { intros k Hk. destruct (Sp k 0) as (a & x & A1 & A2 & A3 & A4 & A5 & A6); [now apply nth_error_repeat|].
      assert (a = 0 /\ x = 0) as (-> & ->) by (destruct A5; split; lra). auto. }
    rewrite Esp. do 2 f_equal; apply nth_error_ext; intro k; (destruct (Nat.lt_ge_cases k (Z.to_nat 8760)) as [Hk|Hk];
      [rewrite nth_error_repeat by exact Hk; apply A; exact Hk|]); rewrite !(proj2 (nth_error_None _ _)); auto; rewrite ?repeat_length; lia. }
  apply (C94_hybrid_field_partial plant_film plant_annulus plant_wall plant_Rb plant_Rc plant_root thomas plant_interp plant_response P m_hybrid flow_borehole (1 / 5) eskilson
    plant_field (height_for 120060) (1 / 5 * 4) (1 / 5 / 1000 * 998) (Single e) e eskilson (- (17 / 2)) r (1 / 2)); try reflexivity; try assumption.
  - lra.
  - cbn. lia.
  - discriminate.
  - apply height_positive. lra.
  - cbn. lra.
  - cbn. rewrite pydiv_R by lra. cbn. unfold zlen, plant_field. cbn. f_equal.
  - cbn. lra.
  - exact solver_exists.
  - rewrite <- Er. exact eskilson_increasing.
  - rewrite Er. reflexivity.
  - rewrite Et. exact S1.
  - intro j. rewrite Et. apply S2.
  - intros rej ext E. rewrite Sp in E. assert (rej = repeat 0 (Z.to_nat 8760) /\ ext = repeat 0 (Z.to_nat 8760)) as (-> & ->) by (split; congruence).
    split; apply clear_constant.
  - intros sts gs rej ext cl hl ld i _ gt E M1 M2 Hl Hi Hp. exfalso. rewrite Sp in E.
    assert (rej = repeat 0 (Z.to_nat 8760) /\ ext = repeat 0 (Z.to_nat 8760)) as (-> & ->) by (split; congruence).
    assert (X : is_max (peak_of ld i) (month_of 2019 (repeat 0 (Z.to_nat 8760)) i)).
    { destruct Hl as [-> | ->]; [destruct (loads_tables _ _ _ _ _ _ M1) as (_ & T)|destruct (loads_tables _ _ _ _ _ _ M2) as (_ & T)]; apply T; exact Hi. }
    destruct X as (X & _).
    assert (Y : In (peak_of ld i) (repeat 0 (Z.to_nat 8760))).
    { rewrite <- (months_concat 2019 (repeat 0 (Z.to_nat 8760))) by (unfold zlen; rewrite repeat_length; reflexivity).
      apply in_concat. exists (month_of 2019 (repeat 0 (Z.to_nat 8760)) i). split; [|exact X]. apply in_map, in_zrange. lia. }
    apply repeat_spec in Y. lra.
  - rewrite <- Er, Ts. change (hours_through (st_end P)) with (8760 * 1)%Z. apply eskilson_reach. lra.
Qed.

Print Assumptions C89_g_function_range.
Print Assumptions C90_simulation_range.
Print Assumptions C90_advancing_times.
Print Assumptions C90_equal_times.
Print Assumptions C90_hourly_times.
Print Assumptions C90_low_height_refuted.
Print Assumptions C91_hours_advance_partial.
Print Assumptions C91_full_day_refuted.
Print Assumptions C92_sizing_without_history.
Print Assumptions C92_results_of_final_height.
Print Assumptions C94_simulation.
Print Assumptions C93_excess_is_compliance.
Print Assumptions C94_construction.
Print Assumptions C94_hourly_field.
Print Assumptions C94_hybrid_field_partial.
