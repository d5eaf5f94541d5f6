(** Properties C49-C54, C69, C74, C75: simulation, sizing, flow (ground_heat_exchangers.py, equivalance.solve_root) *)
From Coq Require Import ZArith QArith List Bool Reals Lia Lra.
From Verif Require Import Base Num BaseLemmas Loads LoadsSpec LoadsProofs LoadsSim LoadsHybrid Properties_Loads
  Ghe GheSpec GheProofs.
Import ListNotations.
Open Scope R_scope.

(** C49 *)
Theorem C49_cost_is_compliance :
  forall max_allowable min_allowable max_EFT min_EFT : R,
  let c := cost max_allowable min_allowable max_EFT min_EFT in
  (c <= 0 <-> max_EFT <= max_allowable /\ min_allowable <= min_EFT) /\
  max_EFT - max_allowable <= c /\ min_allowable - min_EFT <= c /\
  (c = max_EFT - max_allowable \/ c = min_allowable - min_EFT).
Proof.
  intros. unfold c, cost, nmax. cbn [nsub NumR].
  destruct (nlt (max_EFT - max_allowable) (min_allowable - min_EFT)) eqn:E; [apply nlt_R in E|apply nlt_R_false in E]; lra.
Qed.
Example C49_example : cost 35%Q 5%Q 38%Q 4%Q = 3%Q /\ cost 35%Q 5%Q 30%Q 4%Q = 1%Q /\ cost 35%Q 5%Q 30%Q 10%Q = (-5)%Q.
Proof. repeat split. Qed.

(** C50.  [at_step Q i / nbh] is the load of one borehole at step i. *)
Theorem C50_superposition :
  forall (g : R -> res R) (G : R -> R) (nbh H k2 Tg Rb m cp : R) (Q t : list R),
  nbh <> 0 -> H <> 0 -> k2 <> 0 -> m * cp <> 0 -> Q <> [] -> (length Q <= length t)%nat -> covers g G t (length Q) ->
  exists T D, simulate_detailed g nbh H k2 Tg Rb m cp Q t = Ok (T, D) /\ length T = length Q /\ length D = length Q /\
  forall i, (1 <= i <= length Q)%nat ->
    let q := at_step Q i / nbh in
    let w := wall_rise G (fun k => at_step Q k / nbh / H / k2) (at_step t) i in
    at_step D i = w /\ at_step T i = Tg + w + q / H * Rb - q / (2 * m * cp).
Proof.
  intros g G nbh H k2 Tg Rb m cp Q t Hn HH Hk Hm HQ Ht Hc.
  pose proof (detailed_ok g G nbh H k2 Tg Rb m cp Q t Hn HH Hk Hm HQ Ht Hc) as E.
  eexists _, _. split; [exact E|]. rewrite !map_length, !seq_length. split; [reflexivity|]. split; [reflexivity|].
  intros i Hi. destruct i as [|i]; [lia|]. cbn zeta. cbn [at_step]. rewrite !nth_map_seq by lia. split; reflexivity.
Qed.
(** too few times *)
Theorem C50_short_time_list :
  forall (g : R -> res R) (G : R -> R) (nbh H k2 Tg Rb m cp : R) (Q t : list R),
  nbh <> 0 -> H <> 0 -> k2 <> 0 -> m * cp <> 0 -> (length t < length Q)%nat -> covers g G t (length t) ->
  simulate_detailed g nbh H k2 Tg Rb m cp Q t = Err IndexError.
Proof. intros. eapply detailed_short; eassumption. Qed.

Lemma at_step_combination Q1 Q2 a b k : length Q1 = length Q2 ->
  at_step (map (fun p => a * fst p + b * snd p) (combine Q1 Q2)) k = a * at_step Q1 k + b * at_step Q2 k.
Proof.
  intro HL. destruct k as [|k]; cbn [at_step]; [lra|].
  change 0 with ((fun p => a * fst p + b * snd p) (0, 0)) at 1 || idtac.
  replace (nth k (map (fun p : R * R => a * fst p + b * snd p) (combine Q1 Q2)) 0)
    with (nth k (map (fun p : R * R => a * fst p + b * snd p) (combine Q1 Q2)) ((fun p => a * fst p + b * snd p) (0, 0)))
    by (f_equal; cbn; lra).
  rewrite (map_nth (fun p : R * R => a * fst p + b * snd p)), combine_nth by assumption. reflexivity.
Qed.
(** The temperature differences to the ground of any combination of two load sequences are the same combination. *)
Theorem C50_linear :
  forall (g : R -> res R) (G : R -> R) (nbh H k2 Tg Rb m cp a b : R) (Q1 Q2 t : list R),
  nbh <> 0 -> H <> 0 -> k2 <> 0 -> m * cp <> 0 -> Q1 <> [] -> length Q1 = length Q2 -> (length Q1 <= length t)%nat ->
  covers g G t (length Q1) ->
  exists T1 D1 T2 D2 T D,
    simulate_detailed g nbh H k2 Tg Rb m cp Q1 t = Ok (T1, D1) /\
    simulate_detailed g nbh H k2 Tg Rb m cp Q2 t = Ok (T2, D2) /\
    simulate_detailed g nbh H k2 Tg Rb m cp (map (fun p => a * fst p + b * snd p) (combine Q1 Q2)) t = Ok (T, D) /\
    forall i, (1 <= i <= length Q1)%nat ->
      at_step D i = a * at_step D1 i + b * at_step D2 i /\
      at_step T i - Tg = a * (at_step T1 i - Tg) + b * (at_step T2 i - Tg).
Proof.
  intros g G nbh H k2 Tg Rb m cp a b Q1 Q2 t Hn HH Hk Hm HQ HL Ht Hc.
  set (Q := map (fun p => a * fst p + b * snd p) (combine Q1 Q2)).
  assert (LQ : length Q = length Q1) by (unfold Q; rewrite map_length, combine_length, <- HL; lia).
  assert (LQ1 : (0 < length Q1)%nat) by (destruct Q1; [congruence|cbn; lia]).
  assert (HQ2 : Q2 <> []) by (intros ->; cbn in HL; lia).
  assert (HQ' : Q <> []) by (intro X; rewrite X in LQ; cbn in LQ; lia).
  destruct (C50_superposition g G nbh H k2 Tg Rb m cp Q1 t) as (T1 & D1 & E1 & _ & _ & P1); try assumption.
  destruct (C50_superposition g G nbh H k2 Tg Rb m cp Q2 t) as (T2 & D2 & E2 & _ & _ & P2); try assumption; try (rewrite <- HL; assumption).
  destruct (C50_superposition g G nbh H k2 Tg Rb m cp Q t) as (T & D & E & _ & _ & P); try assumption; try (rewrite LQ; assumption).
  exists T1, D1, T2, D2, T, D. split; [assumption|]. split; [assumption|]. split; [assumption|].
  intros i Hi. destruct (P1 i Hi) as (-> & ->). destruct (P2 i ltac:(lia)) as (-> & ->). destruct (P i ltac:(lia)) as (-> & ->).
  assert (W : wall_rise G (fun k => at_step Q k / nbh / H / k2) (at_step t) i =
    a * wall_rise G (fun k => at_step Q1 k / nbh / H / k2) (at_step t) i +
    b * wall_rise G (fun k => at_step Q2 k / nbh / H / k2) (at_step t) i).
  { unfold wall_rise. rewrite (Rmult_comm a), (Rmult_comm b), <- !sumf_scal, <- sumf_add. apply sumf_ext. intros j _.
    unfold Q. rewrite !at_step_combination by assumption. field. repeat split; assumption. }
  split; [exact W|]. rewrite W. unfold Q. rewrite at_step_combination by assumption.
  assert (m <> 0 /\ cp <> 0) as (Hm1 & Hm2) by (split; intro X; apply Hm; rewrite X; ring).
  field. repeat split; assumption.
Qed.
Theorem C50_zero_loads :
  forall (g : R -> res R) (G : R -> R) (nbh H k2 Tg Rb m cp : R) (Q t : list R),
  nbh <> 0 -> H <> 0 -> k2 <> 0 -> m * cp <> 0 -> Q <> [] -> (forall q, In q Q -> q = 0) -> (length Q <= length t)%nat ->
  covers g G t (length Q) ->
  exists T D, simulate_detailed g nbh H k2 Tg Rb m cp Q t = Ok (T, D) /\
  forall i, (1 <= i <= length Q)%nat -> at_step D i = 0 /\ at_step T i = Tg.
Proof.
  intros g G nbh H k2 Tg Rb m cp Q t Hn HH Hk Hm HQ Hz Ht Hc.
  assert (Z : forall k, at_step Q k = 0).
  { intros [|k]; [reflexivity|]. cbn [at_step]. destruct (nth_in_or_default k Q 0) as [X|X]; [now apply Hz|exact X]. }
  destruct (C50_superposition g G nbh H k2 Tg Rb m cp Q t) as (T & D & E & _ & _ & P); try assumption.
  exists T, D. split; [assumption|]. intros i Hi. destruct (P i Hi) as (-> & ->).
  assert (W : wall_rise G (fun k => at_step Q k / nbh / H / k2) (at_step t) i = 0).
  { unfold wall_rise. rewrite (sumf_ext _ (fun j => 0 * 0)); [rewrite sumf_scal; ring|]. intros j _. rewrite !Z. field. repeat split; assumption. }
  rewrite W, Z.
  assert (m <> 0 /\ cp <> 0) as (Hm1 & Hm2) by (split; intro X; apply Hm; rewrite X; ring).
  split; [reflexivity|]. field. repeat split; assumption.
Qed.
(** Two sequences (and time grids) that agree up to step n give the same temperatures up to step n. *)
Theorem C50_causal :
  forall (g : R -> res R) (G : R -> R) (nbh H k2 Tg Rb m cp : R) (Q Q' t t' : list R) (n : nat),
  nbh <> 0 -> H <> 0 -> k2 <> 0 -> m * cp <> 0 -> (1 <= n <= length Q)%nat -> (n <= length Q')%nat ->
  (length Q <= length t)%nat -> (length Q' <= length t')%nat ->
  covers g G t (length Q) -> covers g G t' (length Q') ->
  firstn n Q = firstn n Q' -> firstn n t = firstn n t' ->
  exists T D T' D', simulate_detailed g nbh H k2 Tg Rb m cp Q t = Ok (T, D) /\
    simulate_detailed g nbh H k2 Tg Rb m cp Q' t' = Ok (T', D') /\
    firstn n T = firstn n T' /\ firstn n D = firstn n D'.
Proof.
  intros g G nbh H k2 Tg Rb m cp Q Q' t t' n Hn HH Hk Hm H1 H2 Ht Ht' Hc Hc' EQ Et.
  assert (HQ : Q <> []) by (intros ->; cbn in H1; lia).
  assert (HQ' : Q' <> []) by (intros ->; cbn in H2; lia).
  assert (A : forall l l' : list R, firstn n l = firstn n l' -> forall k, (k <= n)%nat -> at_step l k = at_step l' k).
  { intros l l' E k Hk'. destruct k as [|k]; [reflexivity|]. cbn [at_step].
    rewrite <- (firstn_skipn n l), <- (firstn_skipn n l'), E.
    destruct (Nat.lt_ge_cases k (length (firstn n l'))) as [X|X].
    - rewrite !app_nth1 by assumption. reflexivity.
    - assert (L' : (length l' <= k)%nat) by (rewrite firstn_length in X; lia).
      assert (L : (length l <= k)%nat) by (rewrite <- E, firstn_length in X; lia).
      rewrite !app_nth2 by assumption. rewrite !skipn_all2 by lia. reflexivity. }
  pose proof (detailed_ok g G nbh H k2 Tg Rb m cp Q t Hn HH Hk Hm HQ Ht Hc) as E.
  pose proof (detailed_ok g G nbh H k2 Tg Rb m cp Q' t' Hn HH Hk Hm HQ' Ht' Hc') as E'.
  do 4 eexists. split; [exact E|]. split; [exact E'|].
  rewrite !firstn_map, !firstn_seq by lia.
  assert (W : forall i, In i (seq 1 n) -> wall G nbh H k2 Q t i = wall G nbh H k2 Q' t' i).
  { intros i Hi. apply in_seq in Hi. unfold wall, wall_rise. apply sumf_ext. intros j Hj.
    rewrite (A Q Q' EQ (S j)), (A Q Q' EQ j), (A t t' Et i), (A t t' Et j) by lia. reflexivity. }
  split; apply map_ext_in; intros i Hi; [|now apply W].
  unfold fluid. rewrite (W i Hi). apply in_seq in Hi. rewrite (A Q Q' EQ i) by lia. reflexivity.
Qed.
Example C50_hypotheses : covers (fun d => Ok d) (fun d => d) [1; 2; 4] 3 /\ [6; 0; 3] <> [].
Proof. split; [intros i j _; reflexivity|discriminate]. Qed.
(** two boreholes, height 10, unit conductivity, g(d) = d *)
Example C50_example : simulate_detailed (fun d => Ok d) 2%Q 10%Q 1%Q 15%Q (1 # 5)%Q 1%Q 3%Q [60; 0; 40]%Q [1; 2; 4]%Q =
  Ok ([68 # 5; 18; 286 # 15], [3; 3; 7])%Q.
Proof. vm_compute. reflexivity. Qed.

(** C51 *)
Theorem C51_hourly_simulation_partial :
  forall s e (hourly load hour : list R) y, (e - s + 1 = 12 * y)%Z -> (1 <= y)%Z -> Z.of_nat (length hourly) = 8760%Z ->
  exists Q t, simulated_loads m_hourly s e hourly load hour = Ok (Q, t) /\
  Z.of_nat (length Q) = (8760 * y)%Z /\ Z.of_nat (length t) = (8760 * y)%Z /\
  forall k, (0 <= k < 8760 * y)%Z ->
    nth_error t (Z.to_nat k) = Some (IZR (k + 1)) /\
    exists x, nth_error hourly (Z.to_nat (k mod 8760)) = Some x /\ nth_error Q (Z.to_nat k) = Some (- x).
Proof.
  intros s e hourly load hour y Hn Hy HL.
  assert (Ey : ((e - s + 12) / 12 = y)%Z).
  { replace (e - s + 12)%Z with (11 + y * 12)%Z by lia. rewrite Z.div_add by lia. reflexivity. }
  rewrite (hourly_loads_ok s e hourly load hour y) by lia.
  eexists _, _. split; [reflexivity|]. rewrite !map_length, repeat_concat_length, zrange_length.
  split; [rewrite Nat2Z.inj_mul; lia|]. split; [lia|].
  intros k Hk. split.
  - rewrite (map_nth_error IZR _ _ (d := (k + 1)%Z)); [reflexivity|].
    unfold zrange. rewrite nth_error_zseq. destruct (Nat.ltb_spec (Z.to_nat k) (Z.to_nat (730 * (e - s + 1) + 1 - 1))); [f_equal; lia|lia].
  - pose proof (Z.mod_pos_bound k 8760 ltac:(lia)) as B.
    destruct (nth_error hourly (Z.to_nat (k mod 8760))) as [x|] eqn:E.
    + exists x. split; [reflexivity|]. rewrite (map_nth_error (fun x => -1 * x) _ _ (d := x)); [f_equal; lra|].
      rewrite repeat_concat_nth.
      * replace (Z.to_nat k mod length hourly)%nat with (Z.to_nat (k mod 8760)); [assumption|].
        rewrite <- HL. rewrite <- (Z2Nat.id k) at 1 by lia. rewrite <- Nat2Z.inj_mod, Nat2Z.id. reflexivity.
      * lia.
      * assert (Z.of_nat (Z.to_nat y * length hourly) = 8760 * y)%Z by (rewrite Nat2Z.inj_mul; lia). lia.
    + apply nth_error_None in E. lia.
Qed.
(** Any number of months that is not a number of years cannot be simulated hour by hour. *)
Theorem C51_part_of_year_fails :
  forall s e (hourly load hour : list R) (g : R -> res R) (G : R -> R) (nbh H k2 Tg Rb m cp : R),
  nbh <> 0 -> H <> 0 -> k2 <> 0 -> m * cp <> 0 -> (forall d, 0 < d -> g d = Ok (G d)) ->
  (1 <= e - s + 1)%Z -> ((e - s + 1) mod 12 <> 0)%Z -> Z.of_nat (length hourly) = 8760%Z ->
  simulate g nbh H k2 Tg Rb m cp m_hourly s e hourly load hour = Err IndexError.
Proof.
  intros s e hourly load hour g G nbh H k2 Tg Rb m cp Hn HH Hk Hm Hg H1 H2 HL.
  unfold simulate. rewrite (hourly_loads_ok s e hourly load hour _ H1 eq_refl). cbn [bind fst snd].
  rewrite (C50_short_time_list g G); [reflexivity|assumption..| |].
  - rewrite !map_length, repeat_concat_length, zrange_length. apply Nat2Z.inj_lt. rewrite Nat2Z.inj_mul, HL, !Z2Nat.id by (try apply Z.div_pos; lia).
    set (n := (e - s + 1)%Z) in *. replace (e - s + 12)%Z with (n + 11)%Z by lia.
    pose proof (Z.div_mod n 12 ltac:(lia)). pose proof (Z.mod_pos_bound n 12 ltac:(lia)).
    replace (n + 11)%Z with ((n mod 12 + 11) + (n / 12) * 12)%Z by lia. rewrite Z.div_add by lia.
    assert ((n mod 12 + 11) / 12 = 1)%Z by (symmetry; apply (Z.div_unique _ 12 1 (n mod 12 - 1)); lia). lia.
  - intros i j Hij. apply Hg. rewrite map_length, zrange_length in Hij.
    assert (A : forall k, (k <= i)%nat -> at_step (map IZR (zrange 1 (730 * (e - s + 1) + 1))) k = INR k).
    { intros [|k] Hk'; [reflexivity|]. cbn [at_step].
      rewrite (map_nth IZR).
      assert (E : nth_error (zrange 1 (730 * (e - s + 1) + 1)) k = Some (1 + Z.of_nat k)%Z).
      { unfold zrange. rewrite nth_error_zseq. destruct (Nat.ltb_spec k (Z.to_nat (730 * (e - s + 1) + 1 - 1))); [reflexivity|lia]. }
      rewrite (nth_error_nth _ _ _ E).
      rewrite INR_IZR_INZ. f_equal. lia. }
    rewrite !A by lia. assert (INR j < INR i) by (apply lt_INR; lia). lra.
Qed.
Theorem C51_part_of_year_refuted :
  exists s e (hourly : list R), (1 <= s <= e)%Z /\ Z.of_nat (length hourly) = 8760%Z /\
  simulate (fun d => Ok d) 1 1 1 0 0 1 1 m_hourly s e hourly [] [] = Err IndexError.
Proof.
  exists 1%Z, 6%Z, (map IZR (zrange 0 8760)). split; [lia|]. assert (L : Z.of_nat (length (map IZR (zrange 0 8760))) = 8760%Z).
  { rewrite map_length, zrange_length. reflexivity. }
  split; [exact L|]. apply (C51_part_of_year_fails 1 6 _ [] [] _ (fun d => d)); try lra; try lia; try discriminate; auto.
Qed.
Example C51_part_of_year_example : ((8 - 3 + 1) mod 12 <> 0)%Z /\ Z.of_nat (length (repeat 1 (Z.to_nat 8760))) = 8760%Z.
Proof. rewrite repeat_length. split; [discriminate|reflexivity]. Qed.
(** Whatever the start month, the first simulated hour is the first hour of January. *)
Theorem C51_start_month_refuted :
  exists hourly q t : list Q, Z.of_nat (length hourly) = 8760%Z /\ nth_error hourly 0 = Some 7%Q /\
  nth_error hourly (Z.to_nat (24 * days_before 2019 6)) = Some 2%Q /\
  simulated_loads m_hourly 6 17 hourly [] [] = Ok (q, t) /\ hd 0%Q q = (-7)%Q.
Proof.
  exists (map (fun h => if (h <? 744)%Z then 7%Q else 2%Q) (zrange 0 8760)).
  eexists _, _. repeat (split; [vm_compute; reflexivity|]). vm_compute. reflexivity.
Qed.

(** C52 *)
Theorem C52_combined_times_partial :
  forall (lts glts sts gsts : list R) l0 r, lts = l0 :: r -> increasing lts -> increasing sts -> sts <> [] ->
  length glts = length lts -> length gsts = length sts -> last sts 0 <> l0 ->
  exists before after x y, sts = before ++ after /\ (forall v, In v before -> v <= l0) /\ (forall v, In v after -> l0 < v) /\
  combine_sts_lts lts glts sts gsts = Ok (x, y) /\ x = before ++ lts /\ y = firstn (length before) gsts ++ glts /\
  (~ In l0 sts -> increasing x).
Proof.
  intros lts glts sts gsts l0 r El Hl Hs Hn H1 H2 H3.
  destruct (combine_ok lts glts sts gsts l0 r El Hl Hs Hn H1 H2 H3) as (be & af & Es & B & A & E).
  exists be, af, (be ++ lts), (firstn (length be) gsts ++ glts). repeat (split; [assumption|]). split; [reflexivity|].
  split; [reflexivity|]. intro Hni. apply increasing_app; [rewrite Es in Hs; now apply increasing_app_l in Hs|assumption|].
  intros x y Hx Hy. assert (x <> l0) by (intros ->; apply Hni; rewrite Es; apply in_or_app; now left).
  pose proof (B x Hx). rewrite El in Hy, Hl. destruct Hy as [<-|Hy]; [lra|]. pose proof (increasing_head _ _ Hl y Hy). lra.
Qed.
Example C52_example : combine_sts_lts [0; 1; 2]%Q [5; 6; 7]%Q [-2; -1; (1 # 2)]%Q [1; 2; 3]%Q = Ok ([-2; -1; 0; 1; 2], [1; 2; 5; 6; 7])%Q /\
  increasing [0; 1; 2] /\ increasing [-2; -1; / 2] /\ last [-2; -1; / 2] 0 <> 0 /\ ~ In 0 [-2; -1; / 2].
Proof. repeat split; cbn; lra. Qed.
Example C52_example_apart : combine_sts_lts [0; 1]%Q [5; 6]%Q [-2; -1]%Q [1; 2]%Q = Ok ([-2; -1; 0; 1], [1; 2; 5; 6])%Q.
Proof. reflexivity. Qed.
(** sorted inputs that fail: the last short time is the first long time *)
Theorem C52_touching_refuted :
  exists lts glts sts gsts : list Q, combine_sts_lts lts glts sts gsts = Err IndexError /\
  lts = [-1; 0]%Q /\ glts = [5; 6]%Q /\ sts = [-2; -1]%Q /\ gsts = [1; 2]%Q.
Proof. do 4 eexists. split; [|repeat split]. reflexivity. Qed.
(** a short time equal to the first long time is kept twice *)
Theorem C52_repeated_time_refuted :
  exists lts glts sts gsts x y : list Q, combine_sts_lts lts glts sts gsts = Ok (x, y) /\
  lts = [-1; 1]%Q /\ sts = [-2; -1; 0]%Q /\ x = [-2; -1; -1; 1]%Q.
Proof. exists [-1; 1]%Q, [5; 6]%Q, [-2; -1; 0]%Q, [1; 2; 3]%Q. do 2 eexists. repeat split; reflexivity. Qed.

(** C69 *)
Theorem C69_solve_root :
  forall (brentq : (R -> res R) -> R -> R -> list R * res R) (x : R) (f : R -> res R) (lo up a b : R),
  f lo = Ok a -> f up = Ok b ->
  let r := solve_root brentq x f (Some lo) (Some up) in
  (a < 0 < b \/ b < 0 < a -> r = (lo :: up :: fst (brentq f lo up), snd (brentq f lo up))) /\
  (a < 0 /\ b < 0 -> r = ([lo; up], Ok up)) /\
  (0 < a /\ 0 < b -> r = ([lo; up], Ok lo)) /\
  (a = 0 \/ b = 0 -> r = ([lo; up], Err ZeroDivisionError)).
Proof.
  intros brentq x f lo up a b Ea Eb r. unfold r. rewrite (solve_root_cases brentq x f lo up a b Ea Eb).
  destruct (Req_EM_T a 0), (Req_EM_T b 0), (Rlt_dec a 0), (Rlt_dec b 0);
    repeat split; intro; try reflexivity; exfalso; lra.
Qed.
Theorem C69_defaults_and_range :
  forall (brentq : (R -> res R) -> R -> R -> list R * res R) (x : R) (f : R -> res R),
  solve_root brentq x f None None = solve_root brentq x f (Some (x / 100)) (Some (x * 10)) /\
  forall lo up, lo <= up -> (forall p, In p (fst (brentq f lo up)) -> lo <= p <= up) ->
  forall p, In p (fst (solve_root brentq x f (Some lo) (Some up))) -> lo <= p <= up.
Proof.
  intros brentq x f. split.
  - unfold solve_root. cbn [nofZ NumR]. rewrite pydiv_R by lra. reflexivity.
  - intros lo up Hl Hb. now apply solve_root_points.
Qed.
(** bisection once *)
Definition halve (f : Q -> res Q) (l u : Q) : list Q * res Q := ([Qred ((l + u) / 2)], Ok (Qred ((l + u) / 2)))%Q.
Example C69_example :
  solve_root halve 3%Q (fun h => Ok (4 - h)%Q) (Some 2%Q) (Some 6%Q) = ([2; 6; 4], Ok 4)%Q /\
  solve_root halve 3%Q (fun h => Ok (-h)%Q) (Some 2%Q) (Some 6%Q) = ([2; 6], Ok 6)%Q /\
  solve_root halve 3%Q (fun h => Ok h) (Some 2%Q) (Some 6%Q) = ([2; 6], Ok 2)%Q /\
  solve_root halve 3%Q (fun h => Ok (h - 6)%Q) (Some 2%Q) (Some 6%Q) = ([2; 6]%Q, Err ZeroDivisionError) /\
  solve_root halve 3%Q (fun h => Ok (4 - h)%Q) None None = ([3 # 100; 30; 3003 # 200], Ok (3003 # 200))%Q.
Proof. repeat split; vm_compute; reflexivity. Qed.

(** C53.  [sim h] are the fluid temperatures and the excess of height h. *)
Theorem C53_height_within_limits :
  forall (brentq : (R -> res R) -> R -> R -> list R * res R) (sim : R -> res (list R * R)) (max_h min_h : R) s s' r,
  (forall f l u p, In p (fst (brentq f l u)) -> l <= p <= u) -> min_h <= max_h ->
  size brentq sim max_h min_h s = (s', r) -> min_h <= sz_height s' <= max_h.
Proof.
  intros brentq sim max_h min_h s s' r Hb Hl E. unfold size in E. rewrite pydiv_R in E by (cbn; lra).
  pose proof (solve_root_points brentq (nadd max_h min_h / nofZ 2) (fun h => let! x := sim h in Ok (snd x)) min_h max_h
    (Hb _ _ _) Hl) as P.
  pose proof (solve_root_nonempty brentq (nadd max_h min_h / nofZ 2) (fun h => let! x := sim h in Ok (snd x)) min_h max_h) as NE.
  destruct (solve_root _ _ _ _ _) as (pts, r0). cbn [fst] in P, NE.
  assert (s' = fold_left (evaluate sim) pts {| sz_height := nadd max_h min_h / nofZ 2; sz_result := sz_result s |}) as -> by congruence.
  rewrite evaluate_all. apply P. destruct (exists_last NE) as (l & a & ->). rewrite last_last. apply in_or_app. right. now left.
Qed.
(** the temperatures kept are those of the final height *)
Theorem C53_results_of_final_height :
  forall (brentq : (R -> res R) -> R -> R -> list R * res R) (sim : R -> res (list R * R)) (max_h min_h : R) s s',
  (forall f l u, (exists x, snd (brentq f l u) = Ok x) -> forall p, In p (fst (brentq f l u)) -> exists y, f p = Ok y) ->
  size brentq sim max_h min_h s = (s', Ok tt) ->
  exists T c, sim (sz_height s') = Ok (T, c) /\ sz_result s' = Some (sz_height s', T).
Proof.
  intros brentq sim max_h min_h s s' Hb E. unfold size in E. rewrite pydiv_R in E by (cbn; lra).
  set (guess := nadd max_h min_h / nofZ 2) in *. set (f := fun h => let! x := sim h in Ok (snd x)) in *.
  pose proof (solve_root_nonempty brentq guess f min_h max_h) as NE.
  assert (P : forall x, snd (solve_root brentq guess f (Some min_h) (Some max_h)) = Ok x ->
    forall p, In p (fst (solve_root brentq guess f (Some min_h) (Some max_h))) -> exists y, f p = Ok y).
  { intros x. unfold solve_root.
    destruct (f min_h) as [a|] eqn:Ea; [|discriminate]. destruct (f max_h) as [b|] eqn:Eb; [|discriminate].
    destruct (sign_of a) as [sa|]; [|discriminate]. destruct (sign_of b) as [sb|]; [|discriminate]. cbn [bind].
    destruct (sb =? sa)%Z; cbn [negb].
    - destruct (_ && _); [|destruct (_ && _)]; intros _ p [<-|[<-|[]]]; eauto.
    - pose proof (Hb f min_h max_h) as Hb'. destruct (brentq f min_h max_h) as (pts, r). cbn [fst snd] in *.
      intros E' p [<-|[<-|Hp]]; eauto. }
  destruct (solve_root _ _ _ _ _) as (pts, r0). cbn [fst snd] in P, NE.
  assert (s' = fold_left (evaluate sim) pts {| sz_height := guess; sz_result := sz_result s |}) as -> by congruence.
  destruct r0 as [x|]; [|congruence]. specialize (P x eq_refl).
  destruct (exists_last NE) as (l & p & ->).
  destruct (evaluate_result sim l p {| sz_height := guess; sz_result := sz_result s |}) as (T & c & Es & Er).
  { intros h Hh. destruct (P h Hh) as (y & Ey). unfold f in Ey. destruct (sim h) as [z|]; [eauto|discriminate]. }
  exists T, c. rewrite evaluate_all, last_last. auto.
Qed.
(** whatever happens, a failing simulation or root finder included, the results kept are those of before or of a height that was simulated *)
Theorem C53_results_never_lost :
  forall (brentq : (R -> res R) -> R -> R -> list R * res R) (sim : R -> res (list R * R)) (max_h min_h : R) s s' r,
  size brentq sim max_h min_h s = (s', r) ->
  sz_result s' = sz_result s \/ exists h T c, sim h = Ok (T, c) /\ sz_result s' = Some (h, T).
Proof.
  intros brentq sim max_h min_h s s' r E. unfold size in E. rewrite pydiv_R in E by (cbn; lra).
  destruct (solve_root _ _ _ _ _) as (pts, r0). injection E as <- _. set (z := {| sz_height := _; sz_result := _ |}).
  change (sz_result s) with (sz_result z). clearbody z. revert z. induction pts as [|p pts IH]; intro z; [now left|]. cbn [fold_left].
  destruct (IH (evaluate sim z p)) as [Ez|Ez]; [|right; exact Ez]. rewrite Ez. unfold evaluate. destruct (sim p) as [(T, c)|e] eqn:Ep; [right|now left].
  exists p, T, c. auto.
Qed.
(** where the height ends: the last point evaluated by the root finder, or the upper limit *)
Theorem C53_final_height_partial :
  forall (brentq : (R -> res R) -> R -> R -> list R * res R) (sim : R -> res (list R * R)) (max_h min_h : R) s Ta a Tb b,
  sim min_h = Ok (Ta, a) -> sim max_h = Ok (Tb, b) ->
  let f := fun h => match sim h with Ok r => Ok (snd r) | Err e => Err e end in
  let (s', r) := size brentq sim max_h min_h s in
  (a < 0 /\ b < 0 \/ 0 < a /\ 0 < b -> sz_height s' = max_h /\ sz_result s' = Some (max_h, Tb) /\ r = Ok tt) /\
  (a < 0 < b \/ b < 0 < a -> forall pts p x, brentq f min_h max_h = (pts ++ [p], Ok x) -> sz_height s' = p /\ r = Ok tt) /\
  (a = 0 \/ b = 0 -> sz_height s' = max_h /\ r = Err ZeroDivisionError).
Proof.
  intros brentq sim max_h min_h s Ta a Tb b Ea Eb f. unfold size. rewrite pydiv_R by (cbn; lra).
  set (guess := nadd max_h min_h / nofZ 2). fold (@bind (list R * R) R). 
  change (fun h => let! x := sim h in Ok (snd x)) with f.
  assert (Fa : f min_h = Ok a) by (unfold f; rewrite Ea; reflexivity).
  assert (Fb : f max_h = Ok b) by (unfold f; rewrite Eb; reflexivity).
  destruct (C69_solve_root brentq guess f min_h max_h a b Fa Fb) as (P1 & P2 & P3 & P4).
  assert (Ends : fold_left (evaluate sim) [min_h; max_h] {| sz_height := guess; sz_result := sz_result s |} =
    {| sz_height := max_h; sz_result := Some (max_h, Tb) |}).
  { cbn [fold_left]. unfold evaluate at 1. rewrite Eb. reflexivity. }
  destruct (solve_root brentq guess f (Some min_h) (Some max_h)) as (pts0, r0) eqn:ES.
  split; [|split].
  - intros [X|X]; [specialize (P2 X); injection P2 as -> ->|specialize (P3 X); injection P3 as -> ->]; rewrite Ends; auto.
  - intros X pts p x Eq. specialize (P1 X). rewrite Eq in P1. cbn [fst snd] in P1.
    assert (pts0 = min_h :: max_h :: pts ++ [p] /\ r0 = Ok x) as (-> & ->) by (split; congruence).
    rewrite evaluate_all. change (min_h :: max_h :: pts ++ [p]) with ((min_h :: max_h :: pts) ++ [p]). rewrite last_last. auto.
  - intros X. specialize (P4 X).
    assert (pts0 = [min_h; max_h] /\ r0 = Err ZeroDivisionError) as (-> & ->) by (split; congruence).
    rewrite Ends. auto.
Qed.
(** even when the minimum height keeps all limits the height becomes the maximum *)
Theorem C53_minimum_height_refuted :
  exists (sim : Q -> res (list Q * Q)) s', (forall h, exists T, sim h = Ok (T, (-2)%Q)) /\
  size halve sim 100%Q 20%Q {| sz_height := 60%Q; sz_result := None |} = (s', Ok tt) /\ sz_height s' = 100%Q.
Proof.
  exists (fun h => Ok ([12%Q], (-2)%Q)). eexists. split; [intro h; eexists; reflexivity|]. split; vm_compute; reflexivity.
Qed.
(** an excess of exactly 0 at a limit, i.e. a field that fits exactly, stops the sizing *)
Theorem C53_exact_fit_refuted :
  exists (sim : Q -> res (list Q * Q)) s', sim 100%Q = Ok ([35%Q], 0%Q) /\
  size halve sim 100%Q 20%Q {| sz_height := 60%Q; sz_result := None |} = (s', Err ZeroDivisionError).
Proof.
  exists (fun h => Ok ([Qred (135 - h)], Qred (100 - h))%Q). eexists. split; vm_compute; reflexivity.
Qed.
Example C53_example : size halve (fun h => Ok ([Qred (90 - h)], Qred (60 - h)))%Q 100%Q 20%Q {| sz_height := 1%Q; sz_result := None |} =
  ({| sz_height := 60; sz_result := Some (60, [30]) |}%Q, Ok tt).
Proof. vm_compute. reflexivity. Qed.
Theorem C53_g_function_heights : forall min_h max_h : R, min_h <= max_h ->
  exists avg, g_function_heights min_h max_h = Ok [min_h; avg; max_h] /\ avg - min_h = max_h - avg.
Proof. intros. exists ((min_h + max_h) / 2). unfold g_function_heights. rewrite pydiv_R by (cbn; lra). split; [reflexivity|lra]. Qed.

(** C54 *)
Theorem C54_flow :
  (forall (V rho : R) n, retrieve_flow flow_other V rho n = Err ValueError) /\
  forall flow (V rho : R) n, flow <> flow_other -> (1 <= n)%Z ->
  exists V_sys m, retrieve_flow flow V rho n = Ok (V_sys, m) /\
  exists V_bore, ghe_flow V_sys rho n = Ok (V_bore, m) /\ V_sys = V_bore * IZR n /\ m = V_bore / 1000 * rho /\
  (flow = flow_borehole -> V_bore = V) /\ (flow = flow_system -> V_sys = V).
Proof.
  split; [reflexivity|]. intros flow V rho n Hf Hn. assert (Hz : IZR n <> 0) by (apply not_0_IZR; lia).
  destruct flow; [| |congruence].
  - exists (V * IZR n), (V / 1000 * rho). unfold retrieve_flow, ghe_flow. cbn [nofZ nmul NumR]. rewrite !pydiv_R by lra.
    cbn [bind]. rewrite !pydiv_R by lra. cbn [bind]. split; [reflexivity|]. exists V.
    replace (V * IZR n / IZR n) with V by (field; assumption). repeat split; congruence.
  - exists V, (V / IZR n / 1000 * rho). unfold retrieve_flow, ghe_flow. cbn [nofZ nmul NumR]. rewrite !(pydiv_R V) by assumption.
    cbn [bind]. rewrite pydiv_R by lra. split; [reflexivity|]. exists (V / IZR n). split; [reflexivity|].
    split; [field; assumption|]. repeat split; congruence.
Qed.
Example C54_example : retrieve_flow flow_borehole (1 # 5)%Q 1000%Q 12 = Ok (12 # 5, 1 # 5)%Q /\
  retrieve_flow flow_system (12 # 5)%Q 1000%Q 12 = Ok (12 # 5, 1 # 5)%Q /\ ghe_flow (12 # 5)%Q 1000%Q 12 = Ok (1 # 5, 1 # 5)%Q.
Proof. repeat split; vm_compute; reflexivity. Qed.

(** C74.  The energy of the simulated sequence, from time 0 on, against that of the hybrid load sequence *)
Lemma energy_app h l q h' r : energy h (l ++ (q, h') :: r) = energy h (l ++ [(q, h')]) + energy h' r.
Proof. revert h. induction l as [|(a, b) l IH]; intro h; cbn [app energy]; [ring|]. rewrite IH. ring. Qed.
Lemma energy_scale c l : forall h, energy h (map (fun p => (fst p * c, snd p)) l) = energy h l * c.
Proof. induction l as [|(a, b) l IH]; intro h; cbn [map energy fst snd]; [ring|]. rewrite IH. ring. Qed.
Lemma energy_months (block : Z -> list (R * R)) : forall n s,
  (forall i, (s <= i < s + Z.of_nat n)%Z -> exists l q, block i = l ++ [(q, IZR (hours_through i))]) ->
  energy (IZR (hours_through (s - 1))) (flat_map block (zseq s n)) =
  Rsum (map (fun i => energy (IZR (hours_through (i - 1))) (block i)) (zseq s n)).
Proof.
  induction n as [|n IH]; intros s Hb; [reflexivity|]. cbn [zseq flat_map map Rsum fold_right].
  destruct (Hb s ltac:(lia)) as (l & q & E). rewrite E, <- app_assoc. cbn [app]. rewrite energy_app. f_equal.
  fold (Rsum (map (fun i => energy (IZR (hours_through (i - 1))) (block i)) (zseq (s + 1) n))).
  rewrite <- IH by (intros i Hi; apply Hb; lia). replace (s + 1 - 1)%Z with s by lia. reflexivity.
Qed.
Lemma combine_fst_snd (c : R) (l : list (R * R)) :
  combine (map (fun x => nmul x c) (map fst l)) (map snd l) = map (fun p => (fst p * c, snd p)) l.
Proof. induction l as [|p l IH]; [reflexivity|]. cbn [map combine]. rewrite IH. reflexivity. Qed.
Theorem C74_hybrid_simulation_partial :
  forall s e (load hour hourly : list R) block q0 h0 rest, in_months s e load hour block -> (1 <= s <= e)%Z ->
  block s = (q0, h0) :: rest ->
  exists Q t, simulated_loads m_hybrid s e hourly load hour = Ok (Q, t) /\ length Q = length t /\
  energy 0 (combine Q t) =
    1000 * (Rsum (map (fun i => energy (IZR (hours_through (i - 1))) (block i)) (map (fun k => s + Z.of_nat k)%Z (seq 0 (Z.to_nat (e - s + 1))))) +
            q0 * IZR (hours_through (s - 1))) /\
  (s = 1%Z -> hours_through (s - 1) = 0%Z).
Proof.
  intros s e load hour hourly block q0 h0 rest (months & Hm & -> & -> & Hb) Hs E0.
  assert (Em : months = zseq s (Z.to_nat (e - s + 1))).
  { apply nth_error_ext. intro k. rewrite Hm, nth_error_zseq.
    destruct (Z.leb_spec (Z.of_nat k) (e - s)), (Nat.ltb_spec k (Z.to_nat (e - s + 1))); try reflexivity; lia. }
  eexists _, _. split; [reflexivity|]. cbn [skipn]. split; [rewrite !map_length; reflexivity|].
  split; [|intros ->; reflexivity].
  rewrite combine_fst_snd, energy_scale. cbn [nofZ NumR].
  assert (Ez : map (fun k => s + Z.of_nat k)%Z (seq 0 (Z.to_nat (e - s + 1))) = zseq s (Z.to_nat (e - s + 1))).
  { apply nth_error_ext. intro k. rewrite nth_error_zseq. destruct (Nat.ltb_spec k (Z.to_nat (e - s + 1))).
    - apply (map_nth_error (fun k => s + Z.of_nat k)%Z). rewrite (nth_error_nth' _ 0%nat) by (rewrite seq_length; lia). now rewrite seq_nth.
    - apply nth_error_None. rewrite map_length, seq_length. lia. }
  rewrite Ez, <- energy_months by (intros i Hi; apply Hb; lia). rewrite <- Em.
  assert (Es : exists tl, flat_map block months = (q0, h0) :: tl).
  { rewrite Em. destruct (Z.to_nat (e - s + 1)) as [|n] eqn:En; [lia|]. cbn [zseq flat_map]. rewrite E0. eexists. reflexivity. }
  destruct Es as (tl & ->). cbn [energy]. ring.
Qed.
Definition flat_table (x : Q) : list Q := 0%Q :: repeat x 12.
Definition flat_loads (total : Q) (day : Z) : loads Q :=
  {| ld_hourly := []; ld_total := flat_table total; ld_peak := flat_table 0%Q; ld_average := flat_table 0%Q;
     ld_peak_day := 0%Z :: repeat day 12; ld_two_day := []; ld_temps_pk := []; ld_temps_nm := []; ld_duration := flat_table 0%Q |}.
(** A simulation that begins with February applies February's load since the beginning of January *)
Theorem C74_late_start_refuted :
  exists (cl hl : loads Q) load hour sf, process_monthly_loads cl hl 2 2 = Ok (load, hour, sf) /\
  load = [0; 0; 5]%Q /\ hour = [0; 744; 1416]%Q /\
  simulated_loads m_hybrid 2 2 [] load hour = Ok ([5000], [1416])%Q.
Proof.
  exists (flat_loads 3360 1), (flat_loads 0 1). do 3 eexists. split; [vm_compute; reflexivity|]. repeat split; vm_compute; reflexivity.
Qed.
(** the hypotheses of C74 hold for every load sequence of C42 *)
Example C74_hypotheses : exists load hour block q0 h0, in_months 1 1 load hour block /\ block 1%Z = [(q0, h0)] /\ q0 <> 0.
Proof.
  exists [0; 0; 5], [0; 0; 744], (fun _ => [(5, 744)]), 5, 744. split; [|split; [reflexivity|lra]].
  exists [1%Z]. split.
  - intros [|k]; [reflexivity|]. destruct (Z.leb_spec (Z.of_nat (S k)) (1 - 1)); [lia|]. now destruct k.
  - split; [reflexivity|]. split; [reflexivity|]. intros i Hi. assert (i = 1%Z) as -> by lia. exists [], 5. reflexivity.
Qed.

(** C75 *)
Theorem C75_simulation_extremes :
  forall (g : R -> res R) (nbh H k2 Tg Rb m cp : R) meth s e (hourly load hour : list R) T D mx mn,
  simulate g nbh H k2 Tg Rb m cp meth s e hourly load hour = Ok (T, D, mx, mn) ->
  is_max mx T /\ is_min mn T /\
  forall max_allowable min_allowable, cost max_allowable min_allowable mx mn <= 0 <->
    forall x, In x T -> min_allowable <= x <= max_allowable.
Proof.
  intros g nbh H k2 Tg Rb m cp meth s e hourly load hour T D mx mn E. unfold simulate in E.
  apply bind_ok in E. destruct E as (qt & E1 & E). apply bind_ok in E. destruct E as (r & E2 & E).
  apply bind_ok in E. destruct E as (a & E3 & E). apply bind_ok in E. destruct E as (b & E4 & E).
  assert (fst r = T /\ a = mx /\ b = mn) as (<- & <- & <-) by (repeat split; congruence).
  assert (M1 : is_max a (fst r)) by (now apply nmaxl_max).
  assert (M2 : is_min b (fst r)).
  { destruct (nminl_total (fst r)) as (b' & Eb & M); [destruct (fst r); [discriminate E4|discriminate]|]. congruence. }
  split; [assumption|]. split; [assumption|]. intros hi lo.
  destruct (C49_cost_is_compliance hi lo a b) as (C & _). rewrite C. destruct M1 as (I1 & B1), M2 as (I2 & B2). split.
  - intros (X & Y) x Hx. pose proof (B1 x Hx). pose proof (B2 x Hx). lra.
  - intro X. pose proof (X a I1). pose proof (X b I2). lra.
Qed.
Theorem C75_unknown_method :
  forall (g : R -> res R) (nbh H k2 Tg Rb m cp : R) s e (hourly load hour : list R),
  simulate g nbh H k2 Tg Rb m cp m_other s e hourly load hour = Err ValueError.
Proof. reflexivity. Qed.
Example C75_example : simulate (fun d => Ok d) 2%Q 10%Q 1%Q 15%Q (1 # 5)%Q 1%Q 3%Q m_hybrid 1 1 [] [0; 0; 60 # 1000; 0; 40 # 1000]%Q [0; 0; 1; 2; 4]%Q =
  Ok ([68 # 5; 18; 286 # 15], [3; 3; 7], 286 # 15, 68 # 5)%Q.
Proof. vm_compute. reflexivity. Qed.

Print Assumptions C49_cost_is_compliance.
Print Assumptions C50_superposition.
Print Assumptions C50_short_time_list.
Print Assumptions C50_linear.
Print Assumptions C50_zero_loads.
Print Assumptions C50_causal.
Print Assumptions C51_hourly_simulation_partial.
Print Assumptions C51_part_of_year_fails.
Print Assumptions C51_part_of_year_refuted.
Print Assumptions C51_start_month_refuted.
Print Assumptions C52_combined_times_partial.
Print Assumptions C52_touching_refuted.
Print Assumptions C52_repeated_time_refuted.
Print Assumptions C69_solve_root.
Print Assumptions C69_defaults_and_range.
Print Assumptions C53_height_within_limits.
Print Assumptions C53_results_of_final_height.
Print Assumptions C53_results_never_lost.
Print Assumptions C53_final_height_partial.
Print Assumptions C53_minimum_height_refuted.
Print Assumptions C53_exact_fit_refuted.
Print Assumptions C53_g_function_heights.
Print Assumptions C54_flow.
Print Assumptions C74_hybrid_simulation_partial.
Print Assumptions C74_late_start_refuted.
Print Assumptions C75_simulation_extremes.
Print Assumptions C75_unknown_method.
