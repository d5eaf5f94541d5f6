(** Property C105: the hybrid load of a year whose peaks are single blocks does not depend on the borehole (ground_loads.py:247-330, 358-612) *)
From Coq Require Import ZArith List Bool Reals Lia Lra.
From Verif Require Import Base Num BaseLemmas Utilities Loads LoadsSpec LoadsProofs LoadsSim LoadsHybrid Properties_Utilities Properties_Loads Ghe GheSpec GheProofs Properties_Ghe
  GFun GFunSpec GFunProofs Properties_GFun Radial RadialSpec RadialProofs RadialGrid RadialConcave Properties_Radial Bhe Equiv EquivSpec EquivProofs Properties_Equiv
  Export System SystemSpec SystemProofs Properties_System Properties_Peaks.
Import ListNotations.
Open Scope R_scope.

(** in every month the two days that are analysed, from the day of the first peak on, hold one block of hours at the peak of the month, above the mean
    of the month, and no other load *)
Definition single_blocks (hourly : list R) : Prop :=
  forall i n p, (1 <= i <= 12)%Z -> let month := month_of 2019 hourly i in first_max_at n month -> is_max p month ->
  (p <> 0 -> mean_of month < p) /\
  exists w s k, two_days_from hourly (24 * (days_before 2019 i + (Z.of_nat n - 1) / 24)) w /\ (1 <= k)%nat /\ (s + k <= 48)%nat /\
  forall j, (j < 48)%nat -> nth j w 0 = if (s <=? j)%nat && (j <? s + k)%nat then p else 0.

Lemma mean_nonneg l : (forall x, In x l -> 0 <= x) -> 0 <= mean_of l.
Proof.
  intro NN. unfold mean_of. destruct l as [|a l]; [cbn; lra|]. apply Rmult_le_pos; [|apply Rlt_le, Rinv_0_lt_compat, lt_0_INR; cbn; lia].
  revert NN. generalize (a :: l). clear. induction l as [|a l IH]; intro T; [cbn; lra|]. unfold Rsum in *. cbn [fold_right].
  pose proof (T a (or_introl eq_refl)). specialize (IH (fun y Hy => T y (or_intror Hy))). lra.
Qed.

(** the duration of every peak is the length of the block, whatever the borehole; months without load get 1e-6 *)
Theorem C105_durations :
  forall solver u fuel lntts g, good_solver solver -> admissible u -> calc_sts_g_functions fuel solver u None false = Ok (lntts, g) ->
  forall gt, (forall h, 0 < h -> gt h = interp1d lntts g (ln (h * 3600 / t_s u))) ->
  forall hourly ld, make_loads gt (2 * PI * u_soil_k u) (u_Rb u) 2019 hourly = Ok ld -> (forall x, In x hourly -> 0 <= x) -> single_blocks hourly ->
  forall i, (1 <= i <= 12)%Z -> (peak_of ld i = 0 -> duration_of ld i = / 1000000) /\
  exists w s k, nth_error (ld_two_day ld) (Z.to_nat i) = Some w /\ (1 <= k)%nat /\ (s + k <= 48)%nat /\
    (forall j, (j < 48)%nat -> nth j w 0 = if (s <=? j)%nat && (j <? s + k)%nat then peak_of ld i else 0) /\
    (peak_of ld i <> 0 -> duration_of ld i = INR k).
Proof.
  intros solver u fuel lntts g Hs Hu E gt Gt hourly ld El NN Bl i Hi.
  destruct (make_loads_inv _ _ _ _ _ _ El) as (L & _ & _ & _ & EF). destruct (two_day_tables _ _ _ _ _ _ El) as (M & LD & TD).
  destruct (TD i Hi) as (w & dy & n & T1 & T2 & T3 & T4 & T5).
  destruct M as (_ & _ & _ & _ & M). destruct (M i ltac:(lia)) as (t & mp & av & d3 & _ & N2 & N3 & _ & _ & IM & Ea & _).
  destruct (Bl i n mp Hi T4 IM) as (Hmean & w' & s & k & W' & Hk & Hsk & F).
  assert (Emean : mean_of (month_of 2019 hourly i) = av) by (rewrite Ea; unfold mean_of, zlen; now rewrite INR_IZR_INZ). rewrite Emean in *.
  assert (Ed : (24 * (days_before 2019 i + (Z.of_nat n - 1) / 24) = 24 * (days_before 2019 i + dy - 1))%Z).
  { assert ((Z.of_nat n - 1) / 24 = dy - 1)%Z by (symmetry; apply (Z.div_unique _ _ _ (Z.of_nat n - 1 - 24 * (dy - 1))); lia). lia. }
  rewrite Ed in W'. assert (w' = w).
  { apply nth_error_ext. intro j. destruct T3 as (L1 & T3), W' as (L2 & W'). destruct (le_lt_dec 48 j) as [X|X].
    - rewrite !(proj2 (nth_error_None _ _)) by lia. reflexivity.
    - specialize (T3 (Z.of_nat j) ltac:(lia)). specialize (W' (Z.of_nat j) ltac:(lia)). rewrite Nat2Z.id in *. congruence. }
  subst w'. destruct (nth_error (ld_duration ld) (Z.to_nat i)) as [d|] eqn:Nd; [|apply nth_error_None in Nd; lia].
  unfold peak_of, duration_of. rewrite (nth_error_nth _ _ _ Nd), (nth_error_nth _ _ _ N2).
  assert (Lw : length w = 48%nat) by apply T3. split.
  - intros Z0. destruct (find_inv _ _ _ _ _ _ _ EF) as (w2 & mp' & av' & p' & out & A & B).
    destruct (A i Hi) as (A1 & A2 & _ & A4 & _). apply py_nth_nonneg in A1, A2; try lia. assert (w2 i = w) as Ew by congruence. assert (mp' i = mp) as Em by congruence. rewrite Ew, Em in A4.
    assert (Ep : p' i = 0).
    { unfold current_peak in A4. apply bind_ok in A4. destruct A4 as (mx & E1 & A4). apply nmaxl_max in E1.
      assert (mx = 0). { destruct E1 as (E1 & _). destruct E1 as [X|X]; [now symmetry|]. apply In_nth with (d := 0) in X. destruct X as (j & Hj & <-). rewrite F by lia. destruct (_ && _); congruence. }
      destruct (nlt _ _); congruence. }
    assert (B3 : ld_duration ld = 0 :: map (dur_of p' out) (zrange 1 13)) by congruence.
    rewrite B3, (nth_zrange_map (dur_of p' out)) in Nd by exact Hi. unfold dur_of in Nd. rewrite Ep in Nd. cbn [nis0 NumR] in Nd.
    destruct (Req_EM_T 0 0); [|congruence]. assert (X : nlit 1 1000000 = d) by congruence. rewrite <- X. unfold nlit. cbn [ndivr nofZ NumR]. lra.
  - exists w, s, k. repeat (split; [assumption|]). intro P0.
    assert (Hn : forall x, In x (month_of 2019 hourly i) -> 0 <= x) by (intros x Hx; apply NN; unfold month_of in Hx; eapply In_skipn, In_firstn; exact Hx).
    assert (0 <= av) by (rewrite <- Emean; now apply mean_nonneg).
    apply (C102_isolated_peak solver u fuel lntts g Hs Hu E gt Gt 2019%Z hourly ld El NN i w mp av d s k Hi T1 N2 N3 Nd); auto.
Qed.

(** so the load sequence is the same for every borehole *)
Theorem C105_hybrid_load :
  forall solver u fuel lntts g solver' u' fuel' lntts' g', good_solver solver -> admissible u -> calc_sts_g_functions fuel solver u None false = Ok (lntts, g) ->
  good_solver solver' -> admissible u' -> calc_sts_g_functions fuel' solver' u' None false = Ok (lntts', g') ->
  forall rej ext cl hl cl' hl' a b, (forall x, In x rej \/ In x ext -> 0 <= x) -> single_blocks rej -> single_blocks ext ->
  let made u lntts g := make_loads (g_lag lntts g (t_s u)) (2 * PI * u_soil_k u) (u_Rb u) 2019 in
  made u lntts g rej = Ok cl -> made u lntts g ext = Ok hl -> made u' lntts' g' rej = Ok cl' -> made u' lntts' g' ext = Ok hl' ->
  process_monthly_loads cl hl a b = process_monthly_loads cl' hl' a b.
Proof.
  intros solver u fuel lntts g solver' u' fuel' lntts' g' Hs Hu E Hs' Hu' E' rej ext cl hl cl' hl' a b NN Br Be made M1 M2 M1' M2'.
  assert (Same : forall hourly ld ld', (forall x, In x hourly -> 0 <= x) -> single_blocks hourly -> made u lntts g hourly = Ok ld -> made u' lntts' g' hourly = Ok ld' ->
    ld_total ld = ld_total ld' /\ ld_peak ld = ld_peak ld' /\ ld_peak_day ld = ld_peak_day ld' /\ ld_duration ld = ld_duration ld').
  { clear - Hs Hu E Hs' Hu' E'. intros hourly ld ld' NN Bl M M'. unfold made in M, M'.
    destruct (make_loads_inv _ _ _ _ _ _ M) as (L & _ & ES & ET & EF). destruct (make_loads_inv _ _ _ _ _ _ M') as (_ & _ & ES' & ET' & EF').
    assert (ld_total ld = ld_total ld' /\ ld_peak ld = ld_peak ld' /\ ld_average ld = ld_average ld' /\ ld_peak_day ld = ld_peak_day ld') as (X1 & X2 & X3 & X4).
    { rewrite ES in ES'. repeat split; congruence. }
    repeat (split; [assumption|]). rewrite X4, ET' in ET. assert (X5 : ld_two_day ld = ld_two_day ld') by congruence.
    destruct (find_inv _ _ _ _ _ _ _ EF) as (w1 & mp1 & av1 & p1 & out1 & _ & B1). destruct (find_inv _ _ _ _ _ _ _ EF') as (w2 & mp2 & av2 & p2 & out2 & _ & B2).
    assert (D1 : ld_duration ld = 0 :: map (dur_of p1 out1) (zrange 1 13)) by congruence. assert (D2 : ld_duration ld' = 0 :: map (dur_of p2 out2) (zrange 1 13)) by congruence.
    assert (Q : forall i, (1 <= i <= 12)%Z -> duration_of ld i = duration_of ld' i).
    { intros i Hi.
      assert (Gt : forall l gg v h, 0 < h -> g_lag l gg v h = interp1d l gg (ln (h * 3600 / v))) by (intros l gg v h Hh; unfold g_lag; destruct (Rle_dec h 0); [lra|reflexivity]).
      destruct (C105_durations solver u fuel lntts g Hs Hu E _ (Gt _ _ _) hourly ld M NN Bl i Hi) as (Z1 & w & s & k & W & K1 & K2 & F & Dk).
      destruct (C105_durations solver' u' fuel' lntts' g' Hs' Hu' E' _ (Gt _ _ _) hourly ld' M' NN Bl i Hi) as (Z2 & w' & s' & k' & W' & K1' & K2' & F' & Dk').
      assert (P : peak_of ld i = peak_of ld' i) by (unfold peak_of; now rewrite X2). assert (w' = w) by congruence. subst w'. rewrite <- P in *.
      destruct (Req_dec (peak_of ld i) 0) as [Z0|Z0]; [rewrite Z1, Z2 by exact Z0; reflexivity|]. rewrite Dk, Dk' by exact Z0. f_equal.
      assert (B : forall j, (j < 48)%nat -> (s <=? j)%nat && (j <? s + k)%nat = ((s' <=? j)%nat && (j <? s' + k')%nat)).
      { intros j Hj. specialize (F j Hj). specialize (F' j Hj). rewrite F in F'. destruct (_ && _), ((s' <=? j)%nat && (j <? s' + k')%nat); try reflexivity; lra. }
      assert (Ba := B s ltac:(lia)). assert (Bb := B s' ltac:(lia)). assert (Bc := B (s + k - 1)%nat ltac:(lia)). assert (Bd := B (s' + k' - 1)%nat ltac:(lia)).
      clear - Ba Bb Bc Bd K1 K1'.
      destruct (Nat.leb_spec s s), (Nat.ltb_spec s (s + k)), (Nat.leb_spec s' s), (Nat.ltb_spec s (s' + k')); try lia; cbn [andb] in Ba; try discriminate;
      destruct (Nat.leb_spec s s'), (Nat.ltb_spec s' (s + k)), (Nat.leb_spec s' s'), (Nat.ltb_spec s' (s' + k')); try lia; cbn [andb] in Bb; try discriminate;
      destruct (Nat.leb_spec s (s + k - 1)), (Nat.ltb_spec (s + k - 1) (s + k)), (Nat.leb_spec s' (s + k - 1)), (Nat.ltb_spec (s + k - 1) (s' + k')); try lia; cbn [andb] in Bc; try discriminate;
      destruct (Nat.leb_spec s (s' + k' - 1)), (Nat.ltb_spec (s' + k' - 1) (s + k)), (Nat.leb_spec s' (s' + k' - 1)), (Nat.ltb_spec (s' + k' - 1) (s' + k')); try lia; cbn [andb] in Bd; try discriminate. }
    rewrite D1, D2. f_equal. apply map_ext_in. intros i Hi. apply in_zrange in Hi. specialize (Q i ltac:(lia)). unfold duration_of in Q.
    rewrite D1, D2, (nth_error_nth _ _ _ (nth_zrange_map (dur_of p1 out1) 0 i ltac:(lia))), (nth_error_nth _ _ _ (nth_zrange_map (dur_of p2 out2) 0 i ltac:(lia))) in Q. exact Q. }
  destruct (Same rej cl cl' (fun x Hx => NN x (or_introl Hx)) Br M1 M1') as (A1 & A2 & A3 & A4). destruct (Same ext hl hl' (fun x Hx => NN x (or_intror Hx)) Be M2 M2') as (B1 & B2 & B3 & B4).
  clear - A1 A2 A3 A4 B1 B2 B3 B4. destruct cl, cl', hl, hl'. cbn in A1, A2, A3, A4, B1, B2, B3, B4. subst. reflexivity.
Qed.

(** what building a field leaves as hybrid load *)
Lemma built_loads hc ha rc eu ec bq solver fr st flow V lt :
  let sound H := forall mf b e, make_bhe hc ha rc st mf = Ok b -> compute_equivalent hc rc (eu H) (ec H) bq b = Ok e -> admissible (utube_of eu st H e) in
  forall c H s, sound H -> initialize_ghe hc ha rc eu ec bq solver fr st flow V lt c H = Ok s -> exists e sts gs rej ext cl hl p, admissible (utube_of eu st H e) /\
    calc_sts_g_functions (short_time_fuel (utube_of eu st H e)) solver (utube_of eu st H e) None false = Ok (sts, gs) /\
    split_heat_and_cool (st_loads st) unit_W = Ok (rej, ext) /\
    make_loads (g_lag sts gs (t_s (utube_of eu st H e))) (2 * PI * u_soil_k (utube_of eu st H e)) (u_Rb (utube_of eu st H e)) 2019 rej = Ok cl /\
    make_loads (g_lag sts gs (t_s (utube_of eu st H e))) (2 * PI * u_soil_k (utube_of eu st H e)) (u_Rb (utube_of eu st H e)) 2019 ext = Ok hl /\
    process_monthly_loads cl hl (st_start st) (st_end st) = Ok p /\ gh_load s = fst (fst p) /\ gh_hour s = snd (fst p).
Proof.
  intros sound c H s Ad E. unfold initialize_ghe in E. apply bind_ok in E. destruct E as (fl & _ & E). apply bind_ok in E. destruct E as (B & _ & E).
  apply bind_ok in E. destruct E as (gf & _ & E). unfold make_ghe in E. cbn zeta in E.
  apply bind_ok in E. destruct E as (fl2 & _ & E). apply bind_ok in E. destruct E as (b & Eb & E). apply bind_ok in E. destruct E as (e & Ee & E).
  apply bind_ok in E. destruct E as (r & Er & E). apply bind_ok in E. destruct E as ((rej, ext) & Esp & E). apply bind_ok in E. destruct E as (lh & El & E). apply Ok_inj in E.
  unfold hybrid_load in El. cbn [fst snd] in El. apply bind_ok in El. destruct El as (cl & M1 & El). apply bind_ok in El. destruct El as (hl & M2 & El).
  apply bind_ok in El. destruct El as (p & Ep & El). apply Ok_inj in El. unfold short_time in Er. apply bind_ok in Er. destruct Er as ((sts, gs) & Es & Er). apply Ok_inj in Er.
  rewrite <- Er in M1, M2. cbn [fst snd] in M1, M2. exists e, sts, gs, rej, ext, cl, hl, p. rewrite <- E, <- El. cbn [gh_load gh_hour].
  split; [exact (Ad _ _ _ Eb Ee)|]. split; [exact Es|]. split; [exact Esp|]. split; [exact M1|]. split; [exact M2|]. split; [exact Ep|]. split; reflexivity.
Qed.

(** and any two fields, of any height, borehole, soil, fluid and flow, are simulated by the hybrid method with the same loads if the hourly loads and the
    horizon are the same *)
Theorem C105_search :
  forall hc ha rc eu ec bq solver fr st flow V lt hc' ha' rc' eu' ec' bq' solver' fr' st' flow' V' lt', good_solver solver -> good_solver solver' ->
  st_loads st' = st_loads st -> st_start st' = st_start st -> st_end st' = st_end st ->
  (forall rej ext, split_heat_and_cool (st_loads st) unit_W = Ok (rej, ext) -> single_blocks rej /\ single_blocks ext) ->
  let sound hc ha rc eu ec bq st H := forall mf b e, make_bhe hc ha rc st mf = Ok b -> compute_equivalent hc rc (eu H) (ec H) bq b = Ok e -> admissible (utube_of eu st H e) in
  forall c H s c' H' s', sound hc ha rc eu ec bq st H -> sound hc' ha' rc' eu' ec' bq' st' H' ->
  initialize_ghe hc ha rc eu ec bq solver fr st flow V lt c H = Ok s -> initialize_ghe hc' ha' rc' eu' ec' bq' solver' fr' st' flow' V' lt' c' H' = Ok s' ->
  gh_load s = gh_load s' /\ gh_hour s = gh_hour s'.
Proof.
  intros hc ha rc eu ec bq solver fr st flow V lt hc' ha' rc' eu' ec' bq' solver' fr' st' flow' V' lt' Hs Hs' El Es Ee Bl sound c H s c' H' s' Ad Ad' E E'.
  destruct (built_loads _ _ _ _ _ _ _ _ _ _ _ _ c H s Ad E) as (e & sts & gs & rej & ext & cl & hl & p & A1 & A2 & A3 & A4 & A5 & A6 & -> & ->).
  destruct (built_loads _ _ _ _ _ _ _ _ _ _ _ _ c' H' s' Ad' E') as (e' & sts' & gs' & rej' & ext' & cl' & hl' & p' & B1 & B2 & B3 & B4 & B5 & B6 & -> & ->).
  rewrite El in B3. rewrite Es, Ee in B6.
  assert (rej' = rej /\ ext' = ext) as (-> & ->) by (split; congruence). destruct (Bl rej ext A3) as (Br & Be).
  destruct (proj2 C36_heating_cooling_split (st_loads st) unit_W 1000 ltac:(auto)) as (r1 & x1 & Esp & Lr & Lx & Sp).
  assert (r1 = rej /\ x1 = ext) as (-> & ->) by (split; congruence).
  assert (NN : forall x, In x rej \/ In x ext -> 0 <= x).
  { intros x Hx.
    assert (Hn : exists n, (n < length (st_loads st))%nat /\ (nth_error rej n = Some x \/ nth_error ext n = Some x)).
    { destruct Hx as [Hx|Hx]; apply In_nth_error in Hx; destruct Hx as (n & Hn); exists n; (split; [|auto]);
        [assert (X : nth_error rej n <> None) by congruence|assert (X : nth_error ext n <> None) by congruence]; apply nth_error_Some in X; lia. }
    destruct Hn as (n & Ln & Hn). destruct (nth_error (st_loads st) n) as [y|] eqn:Ey; [|apply nth_error_None in Ey; lia].
    destruct (Sp n y Ey) as (a1 & b1 & Q1 & Q2 & Q3 & Q4 & _). destruct Hn as [Hn|Hn]; [replace x with a1 by congruence|replace x with b1 by congruence]; lra. }
  assert (X := C105_hybrid_load solver _ _ sts gs solver' _ _ sts' gs' Hs A1 A2 Hs' B1 B2 rej ext cl hl cl' hl' (st_start st) (st_end st) NN Br Be A4 A5 B4 B5).
  rewrite A6, B6 in X. assert (p = p') as -> by congruence. auto.
Qed.

(** one hour of load at noon of the fifteenth of every month meets the condition *)
Lemma single_hours_blocks c : 0 <= c -> single_blocks (single_hours c).
Proof.
  intros Hc i n p Hi month Fm Mx. assert (D : (28 <= days_of 2019 i <= 31)%Z) by (apply days_of_bounds; exact Hi).
  assert (B0 := days_before_nonneg 2019 i ltac:(lia)). assert (T := days_total 2019 i Hi). change (days_in_year 2019) with 365%Z in T.
  destruct Hc as [Hc|<-].
  - destruct (single_hours_peak c i Hc Hi) as (P1 & P2 & P3). fold month in P1, P2, P3. assert (p = c) by (eapply is_max_unique; eauto). subst p. rewrite (P2 n Fm).
    split; [intros _; apply P3|].
    exists (map (fun j => if (j =? 12)%nat then c else 0) (seq 0 48)), 12%nat, 1%nat. split; [|split; [lia|split; [lia|]]].
    + split; [now rewrite map_length, seq_length|]. intros t Ht. replace ((Z.of_nat 348 - 1) / 24)%Z with 14%Z by reflexivity. rewrite single_hours_length.
      rewrite Z.mod_small by lia. replace (24 * (days_before 2019 i + 14) + t)%Z with (24 * days_before 2019 i + (336 + t))%Z by ring.
      rewrite single_hours_nth by lia. rewrite nth_error_map, (nth_error_nth' _ 0%nat), seq_nth by (rewrite ?seq_length; lia). cbn [option_map plus].
      f_equal. destruct (Nat.eqb_spec (Z.to_nat t) 12), (Z.eqb_spec (336 + t) 348); try reflexivity; lia.
    + intros j Hj. rewrite (nth_indep _ 0 ((fun j => if (j =? 12)%nat then c else 0) 0%nat)) by now rewrite map_length, seq_length.
      rewrite (map_nth (fun j => if (j =? 12)%nat then c else 0)), seq_nth by exact Hj. cbn [plus].
      destruct (Nat.eqb_spec j 12), (Nat.leb_spec 12 j), (Nat.ltb_spec j 13); cbn [andb]; reflexivity || lia.
  - assert (p = 0). { destruct Mx as (Ip & _). unfold month, month_of in Ip. apply In_firstn, In_skipn in Ip. apply single_hours_values in Ip. destruct Ip; assumption. }
    subst p. split; [intro X; now elim X|]. exists (repeat 0 48), 0%nat, 1%nat. split; [|split; [lia|split; [lia|]]].
    + split; [reflexivity|]. intros t Ht. rewrite single_hours_length.
      assert (M := Z.mod_pos_bound (24 * (days_before 2019 i + (Z.of_nat n - 1) / 24) + t) (Z.of_nat (Z.to_nat 8760)) ltac:(reflexivity)). change (Z.of_nat (Z.to_nat 8760)) with 8760%Z in *. set (q := (_ mod _)%Z) in *.
      destruct (nth_error (single_hours 0) (Z.to_nat q)) as [y|] eqn:Ey.
      * assert (y = 0) by (apply nth_error_In, single_hours_values in Ey; destruct Ey; assumption). subst y.
        destruct (nth_error (repeat 0 48) (Z.to_nat t)) as [z|] eqn:Ez; [|apply nth_error_None in Ez; rewrite repeat_length in Ez; lia].
        apply nth_error_In, repeat_spec in Ez. now subst z.
      * apply nth_error_None in Ey. rewrite single_hours_length in Ey. lia.
    + intros j Hj. rewrite nth_repeat. destruct (_ && _); reflexivity.
Qed.
Example C105_example : forall rej ext, split_heat_and_cool (single_hours 1000) unit_W = Ok (rej, ext) -> single_blocks rej /\ single_blocks ext.
Proof.
  intros rej ext E. rewrite single_hours_split in E. assert (rej = single_hours 0 /\ ext = single_hours 1) as (-> & ->) by (split; congruence).
  split; apply single_hours_blocks; lra.
Qed.

Print Assumptions C105_durations.
Print Assumptions C105_hybrid_load.
Print Assumptions C105_search.
