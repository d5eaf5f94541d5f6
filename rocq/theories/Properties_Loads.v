(** Properties C36-C48 and C73: load analysis and hybrid load sequence (ground_loads.py) *)
From Coq Require Import ZArith QArith List Bool Reals Lia Lra.
From Verif Require Import Base Num BaseLemmas Loads LoadsSpec LoadsProofs LoadsSim LoadsHybrid LoadsSynth.
Import ListNotations.
Open Scope R_scope.

(** Hourly profiles for the examples, and the linear response g(t) = t used in them *)
Definition year_of (f : Z -> Q) : list Q := map f (zrange 0 8760).
Definition linear_response (t : Q) : res Q := Ok t.
Definition analyse (hourly : list Q) : res (loads Q) := make_loads linear_response 1%Q (1 # 10)%Q 2019 hourly.
Definition hybrid (rej ext : list Q) (s e : Z) : res (list Q * list Q * list Q) :=
  let! cl := analyse rej in let! hl := analyse ext in process_monthly_loads cl hl s e.

(** C36 *)
Theorem C36_heating_cooling_split :
  (forall hourly : list R, split_heat_and_cool hourly unit_other = Err ValueError) /\
  forall (hourly : list R) u scale, (u = unit_W /\ scale = 1000 \/ u = unit_kW /\ scale = 1) ->
  exists rej ext, split_heat_and_cool hourly u = Ok (rej, ext) /\ length rej = length hourly /\ length ext = length hourly /\
  forall k l, nth_error hourly k = Some l -> exists r x, nth_error rej k = Some r /\ nth_error ext k = Some x /\
    0 <= r /\ 0 <= x /\ (r = 0 \/ x = 0) /\ x - r = l / scale.
Proof.
  split; [reflexivity|]. intros hourly u scale HU.
  assert (SC : unit_scale u = Ok scale /\ 0 < scale) by (destruct HU as [[-> ->]|[-> ->]]; split; auto; lra). destruct SC as [US SP].
  unfold split_heat_and_cool. rewrite US. cbn [bind].
  rewrite (mapM_pure _ (fun l => if Rle_dec 0 l then l / scale else 0)).
  2:{ intros a _. cbn [nle nofZ NumR]. destruct (Rle_dec 0 a); auto. apply pydiv_R. lra. }
  cbn [bind]. rewrite (mapM_pure _ (fun l => if Rle_dec 0 l then 0 else l / (0 - scale))).
  2:{ intros a _. cbn [nle nofZ nsub NumR]. destruct (Rle_dec 0 a); auto. apply pydiv_R. lra. }
  cbn [bind]. do 2 eexists. split; [reflexivity|]. rewrite !map_length. do 2 (split; [reflexivity|]).
  intros k l Hk. rewrite !nth_error_map, Hk. cbn [option_map]. do 2 eexists. do 2 (split; [reflexivity|]).
  destruct (Rle_dec 0 l).
  - repeat split; try lra. apply Rmult_le_pos; [lra|]. apply Rlt_le, Rinv_0_lt_compat; lra.
  - replace (l / (0 - scale)) with (- l / scale) by (field; lra).
    assert (0 <= - l / scale) by (apply Rmult_le_pos; [lra|]; apply Rlt_le, Rinv_0_lt_compat; lra).
    repeat split; try lra.
Qed.
Example C36_example : split_heat_and_cool [2000; - (500); 0]%Q unit_W = Ok ([0; 1 # 2; 0]%Q, [2; 0; 0]%Q).
Proof. reflexivity. Qed.

(** C37 *)
Theorem C37_monthly_analysis :
  forall year (hourly : list R), Z.of_nat (length hourly) = (24 * days_in_year year)%Z ->
  exists ts ps avs ds, split_load_by_month year hourly = Ok (ts, ps, avs, ds) /\
    length ts = 13%nat /\ length ps = 13%nat /\ length avs = 13%nat /\ length ds = 13%nat /\
    (forall i, (1 <= i <= 12)%Z -> exists p,
       nth_error ts (Z.to_nat i) = Some (Rsum (month_of year hourly i)) /\
       nth_error ps (Z.to_nat i) = Some p /\ is_max p (month_of year hourly i) /\
       nth_error avs (Z.to_nat i) = Some (Rsum (month_of year hourly i) / IZR (24 * days_of year i))) /\
    Rsum ts = Rsum hourly.
Proof.
  intros year hourly L. destruct (split_ok year hourly L) as ([[[ts ps] avs] ds] & E & M).
  exists ts, ps, avs, ds. split; auto. destruct M as (L1 & L2 & L3 & L4 & M). unfold zlen in *.
  do 4 (split; [lia|]). split.
  - intros i Hi. destruct (M i ltac:(lia)) as (t & p & a & d & N1 & N2 & N3 & N4 & -> & MX & -> & _).
    exists p. rewrite N1, N2, N3. destruct (month_of_slice year hourly i L Hi) as [_ ->]. auto.
  - transitivity (Rsum (concat (map (month_of year hourly) (zrange 1 13)))); [|now rewrite (months_concat year hourly L)].
    assert (ET : exists x, ts = x :: map (fun i => Rsum (month_of year hourly i)) (zrange 1 13) /\ x = 0).
    { unfold split_load_by_month in E. inv_ok E. injection E as E. destruct v as [b r]. cbn [snd] in E. subst r.
      assert (H0 : nth_error ts 0 = Some 0).
      { assert (G : forall l b0 t0 p0 a0 d0 b1 t1 p1 a1 d1, foldM (split_body hourly) l (b0, (t0, p0, a0, d0)) = Ok (b1, (t1, p1, a1, d1)) ->
           nth_error t0 0 = Some 0 -> nth_error t1 0 = Some 0).
        { induction l as [|x l IH]; intros b0 t0 p0 a0 d0 b1 t1 p1 a1 d1 H N; cbn [foldM] in H; [congruence|].
          inv_ok H. unfold split_body in E. cbn zeta in E. inv_ok E. inv_ok E. inv_ok E. inv_ok E. injection E as <-.
          eapply IH; [exact H|]. destruct t0; [discriminate|]. exact N. }
        eapply G; [exact E0|reflexivity]. }
      exists 0. split; auto. apply nth_error_ext. intros n. destruct n as [|n]; [exact H0|].
      destruct (Nat.lt_ge_cases n 12).
      - rewrite <- (Nat2Z.id (S n)). rewrite nth_zrange_map by lia.
        destruct (M (Z.of_nat (S n)) ltac:(lia)) as (t & p & a & d & N1 & _ & _ & _ & -> & _). exact N1.
      - rewrite !(proj2 (nth_error_None _ _)); auto; [cbn [length]; rewrite map_length, zrange_length; cbn; lia|lia]. }
    destruct ET as (x & -> & ->). unfold Rsum at 1. cbn [fold_right]. fold (Rsum (map (fun i => Rsum (month_of year hourly i)) (zrange 1 13))).
    rewrite Rplus_0_l. generalize (zrange 1 13). induction l as [|y l IH]; [reflexivity|].
    cbn [map concat]. rewrite Rsum_app. unfold Rsum at 1. cbn [fold_right]. rewrite <- IH. reflexivity.
Qed.
Theorem C37_of_loads :
  forall gt two_pi_k Rb year (hourly : list R) ld, make_loads gt two_pi_k Rb year hourly = Ok ld ->
  ld_hourly ld = hourly /\ Z.of_nat (length hourly) = (24 * days_in_year year)%Z /\
  split_load_by_month year hourly = Ok (ld_total ld, ld_peak ld, ld_average ld, ld_peak_day ld).
Proof. intros. destruct (make_loads_inv _ _ _ _ _ _ H) as (A & B & C & _). auto. Qed.
Theorem C37_months_partition_the_year :
  forall year (hourly : list R), Z.of_nat (length hourly) = (24 * days_in_year year)%Z ->
  concat (map (month_of year hourly) [1; 2; 3; 4; 5; 6; 7; 8; 9; 10; 11; 12]%Z) = hourly /\
  forall i, (1 <= i <= 12)%Z -> Z.of_nat (length (month_of year hourly i)) = (24 * days_of year i)%Z.
Proof.
  intros year hourly L. split; [exact (months_concat year hourly L)|].
  intros i Hi. exact (proj2 (month_of_slice year hourly i L Hi)).
Qed.
Theorem C37_wrong_length :
  forall gt two_pi_k Rb year (hourly : list R), Z.of_nat (length hourly) <> (24 * days_in_year year)%Z ->
  make_loads gt two_pi_k Rb year hourly = Err AssertionError.
Proof.
  intros. unfold make_loads. replace (_ =? _)%Z with false; [reflexivity|]. symmetry. apply Z.eqb_neq.
  rewrite zsum_civil. unfold zlen. lia.
Qed.
Definition two_levels (h : Z) : Q := if (h mod 730 =? 300)%Z then 2%Q else 1%Q.
Example C37_example :
  match split_load_by_month 2019 (year_of two_levels) with
  | Ok (ts, ps, avs, ds) => ts = [0; 745; 673; 745; 721; 745; 721; 745; 745; 721; 745; 721; 745]%Q /\ nth 1 ps 0%Q = 2%Q /\
      nth 1 avs 0%Q = (745 # 744)%Q /\ ds = [0; 13; 12; 15; 14; 15; 14; 14; 14; 13; 14; 13; 14]%Z
  | Err _ => False end.
Proof. vm_compute. repeat split. Qed.

(** C38: the day is right unless the peak is the first hour of a day; then it is the day before *)
Theorem C38_peak_day_partial :
  forall year (hourly : list R) ts ps avs ds, Z.of_nat (length hourly) = (24 * days_in_year year)%Z ->
  split_load_by_month year hourly = Ok (ts, ps, avs, ds) ->
  forall i n, (1 <= i <= 12)%Z -> first_max_at n (month_of year hourly i) ->
  ((n mod 24 <> 0)%nat -> nth_error ds (Z.to_nat i) = Some (Z.of_nat n / 24 + 1)%Z) /\
  ((n mod 24 = 0)%nat -> nth_error ds (Z.to_nat i) = Some (Z.of_nat n / 24)%Z).
Proof.
  intros year hourly ts ps avs ds L E i n Hi FM. destruct (split_ok year hourly L) as (r & E' & M).
  assert (r = (ts, ps, avs, ds)) by congruence. subst r. destruct M as (_ & _ & _ & _ & M).
  destruct (M i ltac:(lia)) as (t & p & a & d & _ & _ & _ & -> & _ & _ & _ & n' & FM' & _ & ->).
  assert (n' = n) by (eapply first_max_unique; eauto). subst n'.
  assert (X : (Z.of_nat n mod 24 = Z.of_nat (n mod 24))%Z) by (rewrite Nat2Z.inj_mod; reflexivity).
  split; intros H; f_equal; Z.div_mod_to_equations; lia.
Qed.
(** the peak is in hour 0 of January, i.e. on 1 January, and the recorded day is 0 *)
Theorem C38_peak_day_refuted :
  exists hourly : list Q, Z.of_nat (length hourly) = 8760%Z /\ nth 0 hourly 0%Q = 1%Q /\ Forall (fun x => x = 0%Q) (tl hourly) /\
  exists ts ps avs ds, split_load_by_month 2019 hourly = Ok (ts, ps, avs, ds) /\ nth 1 ds 31%Z = 0%Z.
Proof.
  exists (year_of (fun h => if (h =? 0)%Z then 1%Q else 0%Q)). split; [vm_compute; reflexivity|]. split; [reflexivity|]. split.
  - unfold year_of. rewrite zrange_cons by lia. cbn [map tl]. apply Forall_forall. intros x Hx. apply in_map_iff in Hx.
    destruct Hx as (h & <- & Hh). apply in_zrange in Hh. destruct (Z.eqb_spec h 0); [lia|reflexivity].
  - do 4 eexists. split; [vm_compute; reflexivity|reflexivity].
Qed.
(** the hypotheses of C38_peak_day_partial are met by every year of hours *)
Example C38_example : match split_load_by_month 2019 (year_of two_levels) with Ok (_, _, _, ds) => nth 1 ds 0%Z = (300 / 24 + 1)%Z | Err _ => False end.
Proof. vm_compute. reflexivity. Qed.

(** C39 *)
Theorem C39_two_day_window :
  forall year (hourly : list R) ts ps avs ds, Z.of_nat (length hourly) = (24 * days_in_year year)%Z ->
  split_load_by_month year hourly = Ok (ts, ps, avs, ds) ->
  exists td, process_two_day_loads year hourly ds = Ok td /\ length td = 13%nat /\
  forall i, (1 <= i <= 12)%Z -> exists w start n m,
    nth_error td (Z.to_nat i) = Some w /\ two_days_from hourly start w /\
    first_max_at n (month_of year hourly i) /\ is_max m (month_of year hourly i) /\
    (start < 24 * days_before year i + Z.of_nat n <= start + 24)%Z /\ (start mod 24 = 0)%Z /\
    nth_error w (Z.to_nat (24 * days_before year i + Z.of_nat n - start)) = Some m.
Proof.
  intros year hourly ts ps avs ds L E. destruct (split_ok year hourly L) as (r & E' & M).
  assert (r = (ts, ps, avs, ds)) by congruence. subst r. assert (MD := monthly_days _ _ _ _ _ _ L M).
  destruct (two_day_ok year hourly ds L) as (td & ET & LT & TD).
  { intros i Hi. destruct (MD i Hi) as (d & n & A & B & _). eauto. }
  exists td. split; auto. split; [unfold zlen in LT; lia|]. intros i Hi.
  destruct (TD i Hi) as (w & d & Nw & Nd & W). destruct (MD i Hi) as (d' & n & Nd' & Bd & FM & Bn).
  assert (d' = d) by congruence. subst d'.
  destruct (window_peak year hourly i d n w L Hi FM Bn W) as (m & MX & Nm).
  exists w, (24 * (days_before year i + d - 1))%Z, n, m. repeat (split; [solve [auto | lia]|]).
  split; [rewrite Z.mul_comm; apply Z.mod_mul; lia|]. rewrite <- Nm. f_equal. lia.
Qed.
(** the window of January of the profile 0, 1, 2, ... wraps into February *)
Example C39_example : match process_two_day_loads 2019 (year_of (fun h => inject_Z h)) [0; 31; 28; 31; 30; 31; 30; 31; 31; 30; 31; 30; 31]%Z with
  | Ok td => nth 1 td [] = map inject_Z (zrange 720 768) /\ nth 12 td [] = map inject_Z (zrange 8736 8760 ++ zrange 0 24)
  | Err _ => False end.
Proof. vm_compute. split; reflexivity. Qed.

(** C73: the comment says "the day before and the day of"; it is the day of the peak and the day after, unless the peak is
    the first hour of a day *)
Theorem C73_day_before_and_day_of_refuted :
  exists hourly : list Q, Z.of_nat (length hourly) = 8760%Z /\
  exists ts ps avs ds td, split_load_by_month 2019 hourly = Ok (ts, ps, avs, ds) /\ process_two_day_loads 2019 hourly ds = Ok td /\
    nth 1 td [] = map (fun h => nth (Z.to_nat h) hourly 0%Q) (zrange 240 288) /\
    nth 250 hourly 0%Q = 5%Q /\ Forall (fun x => (x < 5)%Q) (firstn 250 hourly ++ skipn 251 hourly).
Proof.
  exists (year_of (fun h => if (h =? 250)%Z then 5%Q else inject_Z (h mod 3))). split; [vm_compute; reflexivity|].
  do 5 eexists. split; [vm_compute; reflexivity|]. split; [vm_compute; reflexivity|]. split; [vm_compute; reflexivity|]. split; [vm_compute; reflexivity|].
  unfold year_of. rewrite firstn_map, skipn_map. apply Forall_app. split; apply Forall_forall; intros x Hx; apply in_map_iff in Hx; destruct Hx as (h & <- & Hh).
  - assert (h < 250)%Z. { change (firstn 250 (zrange 0 8760)) with (zrange 0 250) in Hh. apply in_zrange in Hh. lia. }
    destruct (Z.eqb_spec h 250); [lia|]. unfold Qlt, inject_Z. cbn [Qnum Qden]. assert (B := Z.mod_pos_bound h 3 ltac:(lia)). lia.
  - assert (251 <= h)%Z. { change (skipn 251 (zrange 0 8760)) with (zrange 251 8760) in Hh. apply in_zrange in Hh. lia. }
    destruct (Z.eqb_spec h 250); [lia|]. unfold Qlt, inject_Z. cbn [Qnum Qden]. assert (B := Z.mod_pos_bound h 3 ltac:(lia)). lia.
Qed.
Theorem C73_window_days_partial :
  forall gt two_pi_k Rb year (hourly : list R) ld, make_loads gt two_pi_k Rb year hourly = Ok ld ->
  forall i, (1 <= i <= 12)%Z -> exists w n,
    nth_error (ld_two_day ld) (Z.to_nat i) = Some w /\ first_max_at n (month_of year hourly i) /\
    ((n mod 24 <> 0)%nat -> two_days_from hourly (24 * (days_before year i + Z.of_nat n / 24)) w) /\
    ((n mod 24 = 0)%nat -> two_days_from hourly (24 * (days_before year i + Z.of_nat n / 24 - 1)) w).
Proof.
  intros gt two_pi_k Rb year hourly ld H i Hi. destruct (two_day_tables _ _ _ _ _ _ H) as (_ & _ & T).
  destruct (T i Hi) as (w & d & n & Nw & Nd & W & FM & B). exists w, n. split; auto. split; auto.
  assert (X : (Z.of_nat n mod 24 = Z.of_nat (n mod 24))%Z) by (rewrite Nat2Z.inj_mod; reflexivity).
  split; intros Hn.
  - replace (days_before year i + Z.of_nat n / 24)%Z with (days_before year i + d - 1)%Z; auto. Z.div_mod_to_equations; lia.
  - replace (days_before year i + Z.of_nat n / 24 - 1)%Z with (days_before year i + d - 1)%Z; auto. Z.div_mod_to_equations; lia.
Qed.

(** C40.  [gt] is the short-time response: after m = 1 .. 48 hours its value is g m.  The unit step response of the fluid is
    G m = g m / (2 pi k) + Rb; C63 and C64 are about it. *)
Theorem C40_one_month_partial :
  forall gt (two_pi_k Rb : R) g, two_pi_k <> 0 ->
  (forall m, (1 <= m <= 48)%nat -> gt (IZR (Z.of_nat m)) = Ok (g m)) ->
  let G := fun m => g m / two_pi_k + Rb in
  step_response G ->
  forall w peak avg, length w = 48%nat -> (forall x, In x w -> 0 <= x <= peak) -> 0 < peak -> avg <= peak ->
  exists d v, is_max v (rises G (nominal_q w peak avg)) /\ v <= rise G (peak_q peak avg) 48 /\
    perform_current_month_simulation gt two_pi_k Rb (0 :: w) peak avg
      = Ok (d, rises G (peak_q peak avg), rises G (nominal_q w peak avg)) /\
    0 < d <= 48 /\ (v <= 0 -> d = / 1000000) /\ (0 < v -> crosses (rise G (peak_q peak avg)) 48 v d).
Proof.
  intros gt two_pi_k Rb g K0 GT G SR w peak avg L B P A.
  destruct (perform_ok gt two_pi_k Rb g K0 GT w peak avg L B P A SR) as (d & v & H1 & H2 & H3 & H4 & H5 & H6).
  exists d, v. split; [exact H1|]. split; [exact H3|]. split; [exact H2|]. split; [exact H4|]. split; [exact H5|exact H6].
Qed.
(** For a whole year of non-negative loads, provided no two-day window exceeds its month's peak by less than 0.1. *)
Theorem C40_all_months_partial :
  forall gt (two_pi_k Rb : R) g, two_pi_k <> 0 ->
  (forall m, (1 <= m <= 48)%nat -> gt (IZR (Z.of_nat m)) = Ok (g m)) ->
  let G := fun m => g m / two_pi_k + Rb in
  step_response G ->
  forall year hourly, Z.of_nat (length hourly) = (24 * days_in_year year)%Z -> (forall x, In x hourly -> 0 <= x) ->
  (forall td ts ps avs ds i w mp, split_load_by_month year hourly = Ok (ts, ps, avs, ds) -> process_two_day_loads year hourly ds = Ok td ->
     (1 <= i <= 12)%Z -> nth_error td (Z.to_nat i) = Some w -> nth_error ps (Z.to_nat i) = Some mp ->
     (forall x, In x w -> x <= mp) \/ exists x, In x w /\ mp + / 10 <= x) ->
  exists ld, make_loads gt two_pi_k Rb year hourly = Ok ld /\ length (ld_duration ld) = 13%nat /\
  forall i, (1 <= i <= 12)%Z -> exists w mp av p d,
    nth_error (ld_two_day ld) (Z.to_nat i) = Some w /\ nth_error (ld_peak ld) (Z.to_nat i) = Some mp /\
    nth_error (ld_average ld) (Z.to_nat i) = Some av /\ nth_error (ld_duration ld) (Z.to_nat i) = Some d /\
    0 < d <= 48 /\ mp <= p /\ is_max p w /\ (p = 0 -> d = / 1000000) /\
    (p <> 0 -> exists v, is_max v (rises G (nominal_q w p av)) /\ v <= rise G (peak_q p av) 48 /\
       (v <= 0 -> d = / 1000000) /\ (0 < v -> crosses (rise G (peak_q p av)) 48 v d)).
Proof.
  intros gt two_pi_k Rb g K0 GT G SR year hourly L NN CL.
  destruct (make_loads_ok gt two_pi_k Rb g K0 GT year hourly L NN SR) as (ld & E & LD & H).
  { intros td ts ps avs ds ES ET i w mp Hi Hw Hp. apply py_nth_nonneg in Hw; [|lia]. apply py_nth_nonneg in Hp; [|lia].
    exact (CL td ts ps avs ds i w mp ES ET Hi Hw Hp). }
  exists ld. split; auto. split; auto. intros i Hi.
  destruct (H i Hi) as (w & mp & av & p & d & H1 & H2 & H3 & H4 & H5 & (H6 & H7 & H8) & H9 & H10).
  exists w, mp, av, p, d. split; [exact H1|]. split; [exact H2|]. split; [exact H3|]. split; [exact H4|]. split; [exact H5|]. split; [exact H6|].
  split; [split; [exact H8|exact H7]|]. split; [exact H9|exact H10].
Qed.
(** 23 hours of load 1 on 31 January followed by a day of load 1.05: the tolerance keeps the peak at 1, the nominal response is
    larger than the peak response, and the interpolation raises ValueError *)
Definition end_of_january (h : Z) : Q :=
  if (h =? 720)%Z then (1 # 2)%Q else if ((721 <=? h) && (h <=? 743))%Z then 1%Q else if ((744 <=? h) && (h <? 768))%Z then (105 # 100)%Q else 0%Q.
Theorem C40_interpolation_refuted :
  exists hourly : list Q, Z.of_nat (length hourly) = 8760%Z /\ Forall (fun x => (0 <= x)%Q) hourly /\
  make_loads (fun t => Ok t) 1%Q (1 # 10)%Q 2019 hourly = Err ValueError.
Proof.
  exists (year_of end_of_january). split; [vm_compute; reflexivity|]. split; [|vm_compute; reflexivity].
  apply Forall_forall. intros x Hx. apply in_map_iff in Hx. destruct Hx as (h & <- & _). unfold end_of_january.
  repeat match goal with |- context [if ?b then _ else _] => destruct b end; discriminate.
Qed.
(** the hypotheses of both theorems: a constant load of 1 kW with g(t) = t *)
Lemma constant_year_clear c td i w mp ts ps avs ds :
  split_load_by_month 2019 (repeat c (Z.to_nat 8760)) = Ok (ts, ps, avs, ds) ->
  process_two_day_loads 2019 (repeat c (Z.to_nat 8760)) ds = Ok td ->
  (1 <= i <= 12)%Z -> nth_error td (Z.to_nat i) = Some w -> nth_error ps (Z.to_nat i) = Some mp ->
  forall x, In x w -> x <= mp.
Proof.
  intros ES ET Hi Nw Np. set (hourly := repeat c (Z.to_nat 8760)) in *.
  assert (L : zlen hourly = (24 * days_in_year 2019)%Z) by (unfold hourly, zlen; rewrite repeat_length; reflexivity).
  assert (R1 : forall x, In x hourly -> x = c) by (intros x; apply repeat_spec).
  destruct (split_ok 2019 hourly L) as (r & E' & M). assert (r = (ts, ps, avs, ds)) by congruence. subst r.
  assert (MD := monthly_days _ _ _ _ _ _ L M).
  destruct (two_day_ok 2019 hourly ds L) as (td' & ET' & LT & TD).
  { intros k Hk. destruct (MD k Hk) as (d & n & A & B & _). eauto. }
  assert (td' = td) by congruence. subst td'. destruct (TD i Hi) as (w' & d & Nw' & _ & W). assert (w' = w) by congruence. subst w'.
  destruct M as (_ & _ & _ & _ & M). destruct (M i ltac:(lia)) as (t & p & a & d' & _ & Np' & _ & _ & _ & [IM _] & _).
  assert (p = mp) by congruence. subst p. intros x Hx. rewrite (R1 x) by (eapply window_in; eauto).
  assert (mp = c); [|lra]. apply R1. rewrite <- (months_concat 2019 hourly L). apply in_concat. exists (month_of 2019 hourly i).
  split; auto. apply in_map, in_zrange. lia.
Qed.
Example C40_example : exists ld, make_loads (fun t => Ok t) 1 (/ 10) 2019 (repeat 1 (Z.to_nat 8760)) = Ok ld /\ length (ld_duration ld) = 13%nat.
Proof.
  destruct (C40_all_months_partial (fun t => Ok t) 1 (/ 10) (fun m => IZR (Z.of_nat m))) with (year := 2019%Z) (hourly := repeat 1 (Z.to_nat 8760)) as (ld & E & L & _).
  - lra.
  - auto.
  - split; [cbn; lra|]. intros n Hn. rewrite Nat2Z.inj_succ, succ_IZR. lra.
  - rewrite repeat_length. reflexivity.
  - intros x Hx. apply repeat_spec in Hx. lra.
  - intros. left. eapply constant_year_clear; eauto.
  - exists ld. auto.
Qed.
Example C40_durations : match analyse (year_of two_levels) with Ok ld => ld_duration ld =
  [0; 8113 # 8173; 661 # 671; 8133 # 8173; 7819 # 7909; 8153 # 8173; 7839 # 7909; 8053 # 8173; 8123 # 8173; 7809 # 7909; 8143 # 8173;
   7829 # 7909; 8163 # 8173]%Q | Err _ => False end.
Proof. vm_compute. reflexivity. Qed.

(** C41.  Monthly figures: [total_of], [peak_of], [duration_of], [peak_day_of] read the tables of a Loads object. *)
Lemma loads_tables gt two_pi_k Rb year hourly (ld : loads R) : make_loads gt two_pi_k Rb year hourly = Ok ld ->
  has_months ld /\ forall m, (1 <= m <= 12)%Z -> total_of ld m = Rsum (month_of year hourly m) /\ is_max (peak_of ld m) (month_of year hourly m).
Proof.
  intros H. destruct (two_day_tables _ _ _ _ _ _ H) as (M & LD & _). destruct (has_months_tables _ _ _ M LD) as [HM _]. split; auto.
  intros m Hm. destruct M as (_ & _ & _ & _ & M). destruct (M m ltac:(lia)) as (t & p & a & d & N1 & N2 & _ & _ & -> & MX & _).
  unfold total_of, peak_of. rewrite (nth_error_nth _ _ _ N1), (nth_error_nth _ _ _ N2). auto.
Qed.
Lemma rest_hours_pos gt1 gt2 (k1 k2 Rb1 Rb2 : R) year1 year2 rej ext cl hl s e i :
  make_loads gt1 k1 Rb1 year1 rej = Ok cl -> make_loads gt2 k2 Rb2 year2 ext = Ok hl -> (1 <= i)%Z -> 0 < rest_hours cl hl s e i.
Proof.
  intros MC MH Hi. assert (X := month_index_range i).
  assert (C := duration_bound _ _ _ _ _ _ MC _ X). assert (D := duration_bound _ _ _ _ _ _ MH _ X).
  fold (duration_of cl (month_index i)) in C. fold (duration_of hl (month_index i)) in D. unfold rest_hours. cbn zeta.
  assert (CB := cal_bounds (month_index i)). assert (24 * 28 <= IZR (24 * cal (month_index i))) by (rewrite <- mult_IZR; apply IZR_le; lia).
  destruct (peaks_kept _ _ _); lra.
Qed.
Theorem C41_monthly_energy_partial :
  forall gt1 gt2 (k1 k2 Rb1 Rb2 : R) year1 year2 rej ext cl hl s e,
  make_loads gt1 k1 Rb1 year1 rej = Ok cl -> make_loads gt2 k2 Rb2 year2 ext = Ok hl -> (1 <= s)%Z -> (s <= e + 1)%Z ->
  exists load hour sf block, process_monthly_loads cl hl s e = Ok (load, hour, sf) /\ in_months s e load hour block /\
  forall i, (s <= i <= e)%Z ->
  let m := calendar_month i in
  let target := Rsum (month_of year1 rej m) - Rsum (month_of year2 ext m) in
  let carried := energy (IZR (hours_through (i - 1))) (block i) in
  let with_peaks := (i < s + 12 \/ e - 12 < i)%Z in
  (~ with_peaks -> carried = target) /\
  (with_peaks -> peak_day_of cl m <> peak_day_of hl m -> 0 < peak_of cl m -> 0 < peak_of hl m -> carried = target) /\
  (with_peaks -> exists rate,
     rate * (IZR (24 * days_of 2019 m) - duration_of cl m - duration_of hl m)
       = target - peak_of cl m * duration_of cl m + peak_of hl m * duration_of hl m /\
     (peak_day_of cl m = peak_day_of hl m -> carried = rate * IZR (24 * days_of 2019 m)) /\
     (peak_day_of cl m <> peak_day_of hl m -> peak_of cl m <= 0 -> 0 < peak_of hl m ->
        carried = target + (rate - peak_of cl m) * duration_of cl m) /\
     (peak_day_of cl m <> peak_day_of hl m -> 0 < peak_of cl m -> peak_of hl m <= 0 ->
        carried = target + (rate + peak_of hl m) * duration_of hl m) /\
     (peak_of cl m <= 0 -> peak_of hl m <= 0 -> carried = rate * IZR (24 * days_of 2019 m))).
Proof.
  intros gt1 gt2 k1 k2 Rb1 Rb2 year1 year2 rej ext cl hl s e MC MH Hs He.
  destruct (loads_tables _ _ _ _ _ _ MC) as [HC TC]. destruct (loads_tables _ _ _ _ _ _ MH) as [HH TH].
  assert (RH : forall i, (1 <= i)%Z -> 0 < rest_hours cl hl s e i) by (intros; eapply rest_hours_pos; eauto).
  do 3 eexists. exists (month_entries cl hl s e). split; [|split; [now apply sequence_in_months|]].
  { apply process_ok; auto. intros i Hi. assert (X := RH i ltac:(lia)). lra. }
  intros i Hi. cbn zeta. assert (X := month_index_range i). assert (R0 := RH i ltac:(lia)).
  rewrite <- (hours_to_through (i - 1)) by lia. assert (E := month_energy_total cl hl s e i ltac:(lia) ltac:(lra)).
  change (calendar_month i) with (month_index i). rewrite E, <- (proj1 (TC _ X)), <- (proj1 (TH _ X)).
  assert (K : peaks_kept s e i = true <-> (i < s + 12 \/ e - 12 < i)%Z) by (unfold peaks_kept; rewrite orb_true_iff, !Z.ltb_lt; tauto).
  split; [intros NK; destruct (peaks_kept s e i); [tauto|lra]|].
  assert (RT : peaks_kept s e i = true -> mean_rate cl hl s e i * (IZR (24 * days_of 2019 (month_index i)) - duration_of cl (month_index i) - duration_of hl (month_index i))
     = total_of cl (month_index i) - total_of hl (month_index i) - peak_of cl (month_index i) * duration_of cl (month_index i) + peak_of hl (month_index i) * duration_of hl (month_index i)).
  { intros T. unfold mean_rate. unfold rest_hours in R0 |- *. cbn zeta in *. rewrite T in *. rewrite cal_month in *.
    change (calendar_month i) with (month_index i) in *. field. lra. }
  unfold placed_hours, placed. split.
  - intros W ND PC PH. apply K in W. rewrite W. apply Z.eqb_neq in ND. cbn zeta. rewrite ND. cbn [andb negb].
    destruct (Rlt_dec 0 (peak_of cl (month_index i))), (Rlt_dec 0 (peak_of hl (month_index i))); lra.
  - intros W. apply K in W. specialize (RT W). exists (mean_rate cl hl s e i). split; [exact RT|]. rewrite W. cbn zeta. cbn [andb].
    split; [|split; [|split]].
    + intros ED. apply Z.eqb_eq in ED. rewrite ED. cbn [negb andb]. lra.
    + intros ND PC PH. apply Z.eqb_neq in ND. rewrite ND. cbn [andb negb].
      destruct (Rlt_dec 0 (peak_of cl (month_index i))), (Rlt_dec 0 (peak_of hl (month_index i))); lra.
    + intros ND PC PH. apply Z.eqb_neq in ND. rewrite ND. cbn [andb negb].
      destruct (Rlt_dec 0 (peak_of cl (month_index i))), (Rlt_dec 0 (peak_of hl (month_index i))); lra.
    + intros PC PH. destruct (Rlt_dec 0 (peak_of cl (month_index i))), (Rlt_dec 0 (peak_of hl (month_index i))); try lra.
      rewrite !andb_false_r. lra.
Qed.
(** rejection of 1 kW with a peak of 2 on 13 January, extraction of 1/2 kW with a peak of 3 the same day: the January block
    is one entry, which does not carry January's 745 - 374.5 kWh *)
Definition same_day (h : Z) : Q := if (h mod 730 =? 305)%Z then 3%Q else (1 # 2)%Q.
Definition next_day (h : Z) : Q := if (h mod 730 =? 330)%Z then 3%Q else (1 # 2)%Q.
Theorem C41_monthly_energy_refuted :
  exists (rej ext : list Q) load hour sf, Z.of_nat (length rej) = 8760%Z /\ Z.of_nat (length ext) = 8760%Z /\
  hybrid rej ext 1 12 = Ok (load, hour, sf) /\ firstn 3 hour = [0; 0; 744]%Q /\
  exists r, nth_error load 2 = Some r /\ Qeq_bool (r * 744) (nsum (month_of 2019 rej 1) - nsum (month_of 2019 ext 1)) = false.
Proof.
  exists (year_of two_levels), (year_of same_day). do 3 eexists. split; [vm_compute; reflexivity|]. split; [vm_compute; reflexivity|].
  split; [vm_compute; reflexivity|]. split; [reflexivity|]. eexists. split; [reflexivity|]. vm_compute. reflexivity.
Qed.
(** different days: January carries its energy *)
Example C41_example : match hybrid (year_of two_levels) (year_of next_day) 1 12 with
  | Ok (load, hour, _) =>
      let f := fix f (h : Q) (l : list (Q * Q)) := match l with [] => 0%Q | (r, h') :: t => (r * (h' - h) + f h' t)%Q end in
      nth 6 hour 0%Q = 744%Q /\ Qeq_bool (f 0%Q (firstn 5 (combine (skipn 2 load) (skipn 2 hour)))) (745 - (375 - (1 # 2))) = true
  | Err _ => False end.
Proof. vm_compute. split; reflexivity. Qed.
(** the hypotheses of C41_monthly_energy_partial, which are those of C42, C44 and C45 as well *)
Example C41_hypotheses : exists ld, make_loads (fun t => Ok t) 1 (/ 10) 2019 (repeat 1 (Z.to_nat 8760)) = Ok ld /\
  exists load hour sf, process_monthly_loads ld ld 1 240 = Ok (load, hour, sf).
Proof.
  destruct C40_example as (ld & E & _). exists ld. split; auto.
  destruct (C41_monthly_energy_partial _ _ _ _ _ _ _ _ _ _ ld ld 1 240 E E) as (load & hour & sf & block & P & _); try lia. eauto.
Qed.

(** C42.  The month-end hours are always right; the hours never decrease if every peak that is kept lasts at most 22 hours and is
    recorded on a day of its month (by C38 it is not when it occurs in the month's first hour). *)
Theorem C42_time_grid_partial :
  forall gt1 gt2 (k1 k2 Rb1 Rb2 : R) year1 year2 rej ext cl hl s e,
  make_loads gt1 k1 Rb1 year1 rej = Ok cl -> make_loads gt2 k2 Rb2 year2 ext = Ok hl -> (1 <= s)%Z -> (s <= e + 1)%Z ->
  exists load hour sf block, process_monthly_loads cl hl s e = Ok (load, hour, sf) /\ in_months s e load hour block /\
  ((forall ld m, ld = cl \/ ld = hl -> (1 <= m <= 12)%Z -> 0 < peak_of ld m -> duration_of ld m <= 22 /\ (1 <= peak_day_of ld m <= days_of 2019 m)%Z) ->
   nondecreasing hour).
Proof.
  intros gt1 gt2 k1 k2 Rb1 Rb2 year1 year2 rej ext cl hl s e MC MH Hs He.
  destruct (loads_tables _ _ _ _ _ _ MC) as [HC _]. destruct (loads_tables _ _ _ _ _ _ MH) as [HH _].
  do 3 eexists. exists (month_entries cl hl s e). split; [|split; [now apply sequence_in_months|]].
  { apply process_ok; auto. intros i Hi. assert (X := rest_hours_pos _ _ _ _ _ _ _ _ _ _ cl hl s e i MC MH ltac:(lia)). lra. }
  intros F. apply grid_nondecreasing; auto. intros i Hi _.
  assert (X := month_index_range i). assert (DC := duration_bound _ _ _ _ _ _ MC _ X). assert (DH := duration_bound _ _ _ _ _ _ MH _ X).
  split; intros P; [destruct (F cl _ (or_introl eq_refl) X P) as [A B]|destruct (F hl _ (or_intror eq_refl) X P) as [A B]];
    (split; [split; [apply DC || apply DH|exact A]|]; rewrite cal_month; exact B).
Qed.
(** the peak of February is its first hour, so it is placed on 31 January: the hours go 744, then 732.5 *)
Definition first_of_february (h : Z) : Q := if (h =? 744)%Z then 2%Q else if (h =? 3)%Z then (3 # 2)%Q else 1%Q.
Theorem C42_time_grid_refuted :
  exists (rej ext : list Q) load hour sf, Z.of_nat (length rej) = 8760%Z /\ Z.of_nat (length ext) = 8760%Z /\
  hybrid rej ext 1 12 = Ok (load, hour, sf) /\ exists a b, nth_error hour 6 = Some a /\ nth_error hour 7 = Some b /\ Qle_bool a b = false.
Proof.
  exists (year_of first_of_february), (year_of next_day). do 3 eexists. split; [vm_compute; reflexivity|]. split; [vm_compute; reflexivity|].
  split; [vm_compute; reflexivity|]. do 2 eexists. split; [reflexivity|]. split; [reflexivity|]. vm_compute. reflexivity.
Qed.
Example C42_example : match hybrid (year_of two_levels) (year_of next_day) 2 3 with
  | Ok (load, hour, _) => length hour = 12%nat /\ nth 1 hour 0%Q = 744%Q /\ nth 6 hour 0%Q = 1416%Q /\ nth 11 hour 0%Q = 2160%Q
  | Err _ => False end.
Proof. vm_compute. repeat split. Qed.

(** C43 *)
Theorem C43_calendar :
  (lastmonthhour 0 = Ok 0%Z) /\
  forall m, (1 <= m)%Z -> exists a d, lastmonthhour (m - 1) = Ok a /\ monthdays m = Ok d /\
    firstmonthhour m = Ok (a + 1)%Z /\ lastmonthhour m = Ok (a + 24 * d)%Z /\
    d = days_of 2019 (calendar_month m) /\ (a + 24 * d)%Z = hours_through m /\
    monthdays (m + 12) = Ok d /\ lastmonthhour (m + 12) = Ok (a + 24 * d + 8760)%Z.
Proof.
  split; [reflexivity|]. intros m Hm. exists (hours_to (m - 1)), (cal m). split; [apply lastmonthhour_cum; lia|].
  split; [apply monthdays_cal; lia|]. split; [apply firstmonthhour_cum; lia|].
  assert (ST := hours_to_step m Hm).
  assert (CI : cal (month_index m) = cal m) by (unfold cal; now rewrite month_index_mod). rewrite CI in ST. rewrite <- ST.
  split; [apply lastmonthhour_cum; lia|]. split; [rewrite <- CI; apply cal_month|]. split; [apply hours_to_through; lia|].
  split; [rewrite monthdays_cal by lia; f_equal; unfold cal; replace (m + 12)%Z with (m + 1 * 12)%Z by lia; now rewrite Z.mod_add by lia|].
  rewrite lastmonthhour_cum by lia. f_equal. unfold hours_to. replace (Z.to_nat (m + 12)) with (Z.to_nat m + 12)%nat by lia.
  rewrite cum_period. lia.
Qed.
Example C43_example : lastmonthhour 26 = Ok (2 * 8760 + 24 * 59)%Z /\ monthdays 14 = Ok 28%Z /\ firstmonthhour 13 = Ok 8761%Z.
Proof. vm_compute. auto. Qed.

(** C44: for every pair of Loads objects on which process_monthly_loads succeeds *)
Theorem C44_step_loads :
  forall (cl hl : loads R) s e load hour sf, process_monthly_loads cl hl s e = Ok (load, hour, sf) ->
  length load = length hour /\ length sf = length load /\ nth_error load 0 = Some 0 /\
  forall k, (k < length load)%nat -> nth_error load k = Some (Rsum (firstn (S k) sf)).
Proof.
  intros cl hl s e load hour sf H. destruct (process_shape _ _ _ _ _ _ _ H) as (L & -> & t & ->).
  split; auto. split; [cbn [length]; rewrite diffs_length; cbn [length]; lia|]. split; [reflexivity|].
  intros k Hk. assert (P := diffs_prefix 0 (0 :: t) k ltac:(cbn [length] in *; lia)). rewrite (nth_error_nth' _ 0 Hk), <- P. reflexivity.
Qed.
Example C44_example : match hybrid (year_of two_levels) (year_of next_day) 1 12 with
  | Ok (load, hour, sf) => length sf = length load /\ Qeq_bool (nsum (firstn 10 sf)) (nth 9 load 0%Q) = true | Err _ => False end.
Proof. vm_compute. split; reflexivity. Qed.

(** C45.  In the months that keep their peaks and whose two peaks are on different days, each positive peak gives two entries, the
    mean rate up to the peak's beginning and the peak for its duration, in the order of the days; all other months give
    one entry.  When the peak days are equal no peak is represented (C45_refuted). *)
Definition entries_of_peak (ld : loads R) (sg rate : R) (i : Z) : list (R * R) :=
  let m := calendar_month i in
  let centre := IZR (hours_through (i - 1) + 24 * (peak_day_of ld m - 1) + 13) in
  let start := if Rlt_dec (centre - duration_of ld m / 2) 0 then / 1000000 else centre - duration_of ld m / 2 in
  if Rlt_dec 0 (peak_of ld m) then [(rate, start); (sg * peak_of ld m, start + duration_of ld m)] else [].
Theorem C45_peaks_kept_partial :
  forall gt1 gt2 (k1 k2 Rb1 Rb2 : R) year1 year2 rej ext cl hl s e,
  make_loads gt1 k1 Rb1 year1 rej = Ok cl -> make_loads gt2 k2 Rb2 year2 ext = Ok hl -> (1 <= s)%Z -> (s <= e + 1)%Z ->
  exists load hour sf block, process_monthly_loads cl hl s e = Ok (load, hour, sf) /\ in_months s e load hour block /\
  forall i, (s <= i <= e)%Z -> exists rate, let m := calendar_month i in
  ((s + 12 <= i <= e - 12)%Z -> block i = [(rate, IZR (hours_through i))] /\
     rate = (Rsum (month_of year1 rej m) - Rsum (month_of year2 ext m)) / IZR (24 * days_of 2019 m)) /\
  ((i < s + 12 \/ e - 12 < i)%Z ->
     (peak_day_of cl m = peak_day_of hl m -> block i = [(rate, IZR (hours_through i))]) /\
     ((peak_day_of cl m < peak_day_of hl m)%Z ->
        block i = entries_of_peak cl 1 rate i ++ entries_of_peak hl (-1) rate i ++ [(rate, IZR (hours_through i))]) /\
     ((peak_day_of hl m < peak_day_of cl m)%Z ->
        block i = entries_of_peak hl (-1) rate i ++ entries_of_peak cl 1 rate i ++ [(rate, IZR (hours_through i))])).
Proof.
  intros gt1 gt2 k1 k2 Rb1 Rb2 year1 year2 rej ext cl hl s e MC MH Hs He.
  destruct (loads_tables _ _ _ _ _ _ MC) as [HC TC]. destruct (loads_tables _ _ _ _ _ _ MH) as [HH TH].
  do 3 eexists. exists (month_entries cl hl s e). split; [|split; [now apply sequence_in_months|]].
  { apply process_ok; auto. intros i Hi. assert (X := rest_hours_pos _ _ _ _ _ _ _ _ _ _ cl hl s e i MC MH ltac:(lia)). lra. }
  intros i Hi. exists (mean_rate cl hl s e i). cbn zeta. rewrite <- (hours_to_through i) by lia.
  assert (X := month_index_range i).
  assert (K : peaks_kept s e i = true <-> (i < s + 12 \/ e - 12 < i)%Z) by (unfold peaks_kept; rewrite orb_true_iff, !Z.ltb_lt; tauto).
  assert (PE : forall ld sg, peak_entries cl hl s e ld sg i = entries_of_peak ld sg (mean_rate cl hl s e i) i).
  { intros ld sg. unfold peak_entries, entries_of_peak, peak_start. cbn zeta. rewrite <- (hours_to_through (i - 1)) by lia.
    change (calendar_month i) with (month_index i).
    replace (hours_to (i - 1) + 1 + ((peak_day_of ld (month_index i) - 1) * 24 + 12))%Z
      with (hours_to (i - 1) + 24 * (peak_day_of ld (month_index i) - 1) + 13)%Z by lia. reflexivity. }
  change (calendar_month i) with (month_index i). split.
  - intros M. assert (NK : peaks_kept s e i = false) by (apply not_true_is_false; rewrite K; lia). split.
    + unfold month_entries. cbn zeta. now rewrite NK.
    + unfold mean_rate, rest_hours. cbn zeta. rewrite NK, (proj1 (TC _ X)), (proj1 (TH _ X)), cal_month. reflexivity.
  - intros M. apply K in M. unfold month_entries. cbn zeta. rewrite M. rewrite !PE. split; [|split]; intros D.
    + rewrite D, Z.ltb_irrefl. reflexivity.
    + apply Z.ltb_lt in D. rewrite D. now rewrite <- app_assoc.
    + replace (_ <? _)%Z with false by (symmetry; apply Z.ltb_ge; lia). apply Z.ltb_lt in D. rewrite D. now rewrite <- app_assoc.
Qed.
(** both peaks on one day of January: neither appears anywhere in the sequence *)
Theorem C45_peaks_kept_refuted :
  exists (rej ext : list Q) load hour sf, Z.of_nat (length rej) = 8760%Z /\ Z.of_nat (length ext) = 8760%Z /\
  nth 300 rej 0%Q = 2%Q /\ nth 305 ext 0%Q = 3%Q /\
  hybrid rej ext 1 1 = Ok (load, hour, sf) /\ existsb (Qeq_bool 2) load = false /\ existsb (Qeq_bool (-3)) load = false.
Proof.
  exists (year_of two_levels), (year_of same_day). do 3 eexists. split; [vm_compute; reflexivity|]. split; [vm_compute; reflexivity|].
  split; [vm_compute; reflexivity|]. split; [vm_compute; reflexivity|]. split; [vm_compute; reflexivity|]. split; vm_compute; reflexivity.
Qed.
Example C45_example : match hybrid (year_of two_levels) (year_of next_day) 1 36 with
  | Ok (load, _, _) => length load = (2 + 5 * 12 + 12 + 5 * 12)%nat /\ existsb (Qeq_bool 2) load = true | Err _ => False end.
Proof. vm_compute. split; reflexivity. Qed.

(** C46 *)
Theorem C46_synthetic_month :
  forall {F} (NF : Num F) (l : list F) avg peak dur day prev him,
  (0 <= prev)%Z -> (0 <= him)%Z -> (prev + him <= Z.of_nat (length l))%Z -> (0 <= dur)%Z ->
  (0 <= prev + window_start dur day)%Z -> (prev + window_start dur day + dur <= Z.of_nat (length l))%Z ->
  let l' := synthetic_load_function l avg peak dur day prev him in
  length l' = length l /\
  forall k, (0 <= k)%Z -> nth_error l' (Z.to_nat k) =
    if ((prev + window_start dur day <=? k) && (k <? prev + window_start dur day + dur))%Z then Some peak
    else if ((prev <=? k) && (k <? prev + him))%Z then Some avg else nth_error l (Z.to_nat k).
Proof. intros. destruct (synthetic_ok l avg peak dur day prev him) as [A B]; auto. split; auto. unfold zlen in A. subst l'. lia. Qed.
Example C46_synthetic_example : synthetic_load_function (py_repeat 0%Q 72) 1%Q 2%Q 3 0 24 24
  = repeat 0%Q 24 ++ repeat 1%Q 10 ++ repeat 2%Q 3 ++ repeat 1%Q 11 ++ repeat 0%Q 24.
Proof. reflexivity. Qed.
(** As long as the windows, on the day after the recorded peak day, stay inside their months.  [nearest]: rounded duration. *)
Theorem C46_representation_partial :
  forall gt1 gt2 (k1 k2 Rb1 Rb2 : R) year1 year2 h1 h2 cl hl year,
  make_loads gt1 k1 Rb1 year1 h1 = Ok cl -> make_loads gt2 k2 Rb2 year2 h2 = Ok hl ->
  (forall ld i, ld = cl \/ ld = hl -> (1 <= i <= 12)%Z -> exists n, nearest (duration_of ld i) n /\
     (0 <= window_start n (peak_day_of ld i))%Z /\ (window_start n (peak_day_of ld i) + n <= 24 * days_of year i)%Z) ->
  exists rej ext du_rej du_ext, hourly_load_representation cl hl year = Ok (rej, ext) /\
    (forall i, (1 <= i <= 12)%Z -> nearest (duration_of cl i) (du_rej i) /\ nearest (duration_of hl i) (du_ext i)) /\
    base_and_peak year rej (average_of cl) (peak_of cl) du_rej (peak_day_of cl) /\
    base_and_peak year ext (average_of hl) (peak_of hl) du_ext (peak_day_of hl).
Proof.
  intros gt1 gt2 k1 k2 Rb1 Rb2 year1 year2 h1 h2 cl hl year MC MH W.
  assert (NN : forall gt k Rb y h ld i n, make_loads gt k Rb y h = Ok ld -> (1 <= i <= 12)%Z -> nearest (duration_of ld i) n -> (0 <= n)%Z).
  { intros gt k Rb y h ld i n M Hi NR. assert (D := duration_bound _ _ _ _ _ _ M _ Hi). fold (duration_of ld i) in D.
    destruct (Z.lt_ge_cases n 0) as [Hn|]; auto. exfalso. assert (IZR n <= -1) by (apply IZR_le; lia).
    destruct NR as [NR|[NR _]]; rewrite Rabs_pos_eq in NR; lra. }
  destruct (two_day_tables _ _ _ _ _ _ MC) as (M1 & L1 & _). destruct (has_months_tables _ _ _ M1 L1) as [A1 B1].
  destruct (two_day_tables _ _ _ _ _ _ MH) as (M2 & L2 & _). destruct (has_months_tables _ _ _ M2 L2) as [A2 B2].
  destruct (representation_ok cl hl year A1 A2 B1 B2) as (rej & ext & E & P & Q).
  - intros i Hi. split.
    + destruct (W cl i (or_introl eq_refl) Hi) as (n & NR & X & Y). exists n. exact (conj NR (conj (NN _ _ _ _ _ _ _ _ MC Hi NR) (conj X Y))).
    + destruct (W hl i (or_intror eq_refl) Hi) as (n & NR & X & Y). exists n. exact (conj NR (conj (NN _ _ _ _ _ _ _ _ MH Hi NR) (conj X Y))).
  - exists rej, ext, (rounded cl), (rounded hl). split; [exact E|]. split; [|split; assumption].
    intros i _. split; apply rounded_ok.
Qed.
(** a peak on 31 December is put after the end of the year: 8761 hours *)
Definition new_years_eve (h : Z) : Q := if (h =? 8755)%Z then 3%Q else two_levels h.
Definition represent (rej ext : list Q) : res (list Q * list Q) :=
  let! cl := analyse rej in let! hl := analyse ext in hourly_load_representation cl hl 2019.
Theorem C46_representation_refuted :
  exists (rej ext : list Q) r x, Z.of_nat (length rej) = 8760%Z /\ Z.of_nat (length ext) = 8760%Z /\
  represent rej ext = Ok (r, x) /\ Z.of_nat (length r) = 8761%Z.
Proof.
  exists (year_of new_years_eve), (year_of two_levels). do 2 eexists. split; [vm_compute; reflexivity|]. split; [vm_compute; reflexivity|].
  split; vm_compute; reflexivity.
Qed.
(** January peaks in hour 300 (day 13); the representation puts the peak into hour 323 *)
Example C46_example : match represent (year_of two_levels) (year_of two_levels) with
  | Ok (r, _) => Z.of_nat (length r) = 8760%Z /\ nth 300 r 0%Q = (745 # 744)%Q /\ nth 323 r 0%Q = 2%Q /\ nth 324 r 0%Q = (745 # 744)%Q
  | Err _ => False end.
Proof. vm_compute. repeat split. Qed.
Lemma constant_year_windows : exists ld, make_loads (fun t => Ok t) 1 (/ 10) 2019 (repeat 1 (Z.to_nat 8760)) = Ok ld /\
  forall i, (1 <= i <= 12)%Z -> duration_of ld i = / 1000000 /\ peak_day_of ld i = 0%Z.
Proof.
  destruct (C40_all_months_partial (fun t => Ok t) 1 (/ 10) (fun m => IZR (Z.of_nat m))) with (year := 2019%Z) (hourly := repeat 1 (Z.to_nat 8760)) as (ld & E & L & H).
  - lra.
  - auto.
  - split; [cbn; lra|]. intros n Hn. rewrite Nat2Z.inj_succ, succ_IZR. lra.
  - rewrite repeat_length. reflexivity.
  - intros x Hx. apply repeat_spec in Hx. lra.
  - intros. left. eapply constant_year_clear; eauto.
  - exists ld. split; auto. intros i Hi. destruct (two_day_tables _ _ _ _ _ _ E) as ((_ & _ & _ & _ & M) & _ & TD).
    assert (ALL : forall x, In x (month_of 2019 (repeat 1 (Z.to_nat 8760)) i) -> x = 1).
    { intros x Hx. apply (repeat_spec (Z.to_nat 8760)). rewrite <- (months_concat 2019 (repeat 1 (Z.to_nat 8760))) by (unfold zlen; rewrite repeat_length; reflexivity).
      apply in_concat. exists (month_of 2019 (repeat 1 (Z.to_nat 8760)) i). split; auto. apply in_map, in_zrange. lia. }
    split.
    + destruct (H i Hi) as (w & mp & av & p & d & H1 & H2 & H3 & H4 & _ & H6 & H7 & _ & H9).
      unfold duration_of. rewrite (nth_error_nth _ _ _ H4).
      destruct (TD i Hi) as (w' & dd & nn & T1 & _ & T2 & _). assert (w' = w) by congruence. subst w'.
      assert (W1 : forall x, In x w -> x = 1). { intros x Hx. apply (repeat_spec (Z.to_nat 8760)). eapply window_in; eauto. }
      assert (p = 1) by (apply W1, H7). subst p.
      destruct (M i ltac:(lia)) as (t & p' & a & d' & _ & N2 & N3 & _ & _ & IM & EA & _).
      assert (Ea : a = av) by congruence. rewrite Ea in EA. clear Ea.
      assert (AV : av = 1).
      { rewrite EA. set (ml := month_of 2019 (repeat 1 (Z.to_nat 8760)) i) in *.
        assert (SM : forall l, (forall x, In x l -> x = 1) -> Rsum l = IZR (zlen l)).
        { induction l as [|x l IHl]; intros Hl; [reflexivity|]. change (Rsum (x :: l)) with (x + Rsum l).
          rewrite IHl by (intros; apply Hl; now right). rewrite (Hl x) by now left. unfold zlen. cbn [length]. rewrite Nat2Z.inj_succ, succ_IZR. lra. }
        rewrite SM by exact ALL. assert (LZ : (0 < zlen ml)%Z). { unfold zlen. destruct ml; [destruct IM as [[] _]|cbn; lia]. }
        apply IZR_lt in LZ. field. lra. }
      rewrite AV in H9. destruct (H9 ltac:(lra)) as (v & V & _ & V1 & _). apply V1. destruct V as [V _].
      assert (RZ : forall x, In x (rises (fun m => IZR (Z.of_nat m) / 1 + / 10) (nominal_q w 1 1)) -> x = 0).
      { intros x Hx. unfold rises in Hx. destruct Hx as [<-|Hx]; auto. apply in_map_iff in Hx. destruct Hx as (n & <- & Hn). apply in_seq in Hn.
        unfold rise. assert (Q0 : forall j, (j <= n)%nat -> nominal_q w 1 1 j = 0).
        { intros [|k] Hk; [reflexivity|]. cbn [nominal_q]. destruct (nth_in_or_default k w 0) as [IN| ->]; [rewrite (W1 _ IN)|]; lra. }
        assert (G : forall k, (k <= n)%nat -> sumf (fun j => (nominal_q w 1 1 (S j) - nominal_q w 1 1 j) * (IZR (Z.of_nat (n - j)) / 1 + / 10)) k = 0).
        { induction k as [|k IHk]; intros Hk; [reflexivity|]. cbn [sumf]. rewrite IHk, !Q0 by lia. lra. }
        apply G. lia. }
      rewrite (RZ v V). lra.
    + destruct (M i ltac:(lia)) as (t & p' & a & d' & _ & _ & _ & N4 & _ & _ & _ & n & FM & _ & ED).
      unfold peak_day_of. rewrite (nth_error_nth _ _ _ N4). assert (n = O); [|subst; reflexivity].
      destruct n as [|n]; auto. exfalso. destruct FM as (m & Nm & IM & F). apply (F O ltac:(lia)).
      destruct (month_of 2019 (repeat 1 (Z.to_nat 8760)) i) as [|x l] eqn:EM; [discriminate|]. cbn [nth_error]. f_equal.
      rewrite (ALL x) by now left. symmetry. apply ALL, IM.
Qed.
Example C46_hypotheses : exists ld, make_loads (fun t => Ok t) 1 (/ 10) 2019 (repeat 1 (Z.to_nat 8760)) = Ok ld /\
  exists r x, hourly_load_representation ld ld 2019 = Ok (r, x).
Proof.
  destruct constant_year_windows as (ld & E & H). exists ld. split; auto.
  destruct (C46_representation_partial _ _ _ _ _ _ _ _ _ _ ld ld 2019 E E) as (r & x & _ & _ & P & _).
  - intros l i Hl Hi. assert (l = ld) as -> by tauto. destruct (H i Hi) as [-> ->]. exists 0%Z.
    split; [left; rewrite Rminus_0_r, Rabs_pos_eq; lra|]. assert (D := days_of_bounds 2019 i Hi). unfold window_start. split; [vm_compute; discriminate|]. change ((2 * (24 * 0 + 12) - 0) / 2)%Z with 12%Z. lia.
  - eauto.
Qed.

(** C47.  [ext] has base and peak in ratio 1 : 2 in every month, in both units; [rej] only in kW, since the base load of the
    rejection is not multiplied by the unit's scale. *)
Theorem C47_doubling_profile_partial :
  forall year (scale : R) u, (u = unit_W /\ scale = 1000 \/ u = unit_kW /\ scale = 1) ->
  exists rej ext, create_synthetic_doubling_load_profile u year = Ok (rej, ext) /\
    base_and_peak year ext (fun i => scale * IZR i) (fun i => 2 * (scale * IZR i)) (fun i => i) (fun i => 6 + i)%Z /\
    base_and_peak year rej (fun i => IZR (13 - i)) (fun i => 2 * (scale * IZR (13 - i))) (fun i => 13 - i)%Z (fun i => 20 - i)%Z.
Proof.
  intros year scale u HU.
  assert (US : unit_scale u = Ok scale) by (destruct HU as [[-> ->]|[-> ->]]; reflexivity).
  destruct (doubling_ok u year scale US) as (rej & ext & E & [A1 A2] & [B1 B2]). exists rej, ext. split; auto. cbn [nmul nofZ NumR] in *.
  split; (split; [assumption|]); intros i h Hi Hh.
  - rewrite A2 by assumption. destruct (_ && _); f_equal; ring.
  - rewrite B2 by assumption. destruct (_ && _); f_equal; ring.
Qed.
Theorem C47_unknown_unit : forall {F} (NF : Num F) year, create_synthetic_doubling_load_profile (F := F) unit_other year = Err ValueError.
Proof. reflexivity. Qed.
(** in W, January's rejection has base 12 W and peak 24000 W *)
Theorem C47_doubling_profile_refuted :
  exists year (rej ext : list R), create_synthetic_doubling_load_profile unit_W year = Ok (rej, ext) /\
  nth_error rej 0 = Some 12 /\ nth_error rej 468 = Some 24000.
Proof.
  exists 2019%Z. destruct (C47_doubling_profile_partial 2019 1000 unit_W) as (rej & ext & E & _ & [_ B]); auto. exists rej, ext. split; auto.
  split.
  - specialize (B 1%Z 0%Z ltac:(lia)). cbn in B. apply B. lia.
  - specialize (B 1%Z 468%Z ltac:(lia)). cbn in B. change 468%nat with (Pos.to_nat 468). rewrite B by lia. f_equal. lra.
Qed.
Example C47_example : match create_synthetic_doubling_load_profile (F := Q) unit_kW 2019 with
  | Ok (rej, ext) => nth 0 rej 0%Q = 12%Q /\ nth 468 rej 0%Q = 24%Q /\ nth 0 ext 0%Q = 1%Q /\ nth 180 ext 0%Q = 1%Q /\ nth 179 ext 0%Q = 2%Q
  | Err _ => False end.
Proof. vm_compute. repeat split. Qed.

(** C48.  True of every year in which every month has a positive peak. *)
Theorem C48_histories_partial :
  forall gt (two_pi_k Rb : R) g, two_pi_k <> 0 ->
  (forall m, (1 <= m <= 48)%nat -> gt (IZR (Z.of_nat m)) = Ok (g m)) ->
  forall year hourly ld, make_loads gt two_pi_k Rb year hourly = Ok ld ->
  (forall i p, (1 <= i <= 12)%Z -> is_max p (month_of year hourly i) -> 0 < p) ->
  length (ld_temps_pk ld) = 13%nat /\ length (ld_temps_nm ld) = 13%nat /\
  forall i, (1 <= i <= 12)%Z -> exists w av p,
    nth_error (ld_two_day ld) (Z.to_nat i) = Some w /\ nth_error (ld_average ld) (Z.to_nat i) = Some av /\ 0 < p /\
    (is_max p w \/ is_max p (month_of year hourly i)) /\
    let G := fun m => g m / two_pi_k + Rb in
    nth_error (ld_temps_pk ld) (Z.to_nat i) = Some (rises G (peak_q p av)) /\
    nth_error (ld_temps_nm ld) (Z.to_nat i) = Some (rises G (nominal_q w p av)).
Proof.
  intros gt two_pi_k Rb g K0 GT year hourly ld E POS.
  destruct (make_loads_inv _ _ _ _ _ _ E) as (L & _ & _ & _ & EF). destruct (two_day_tables _ _ _ _ _ _ E) as (M & _ & TD).
  destruct (find_inv _ _ _ _ _ _ _ EF) as (w & mp & av & p & out & A & B).
  assert (PP : forall i, (1 <= i <= 12)%Z -> 0 < p i /\ (is_max (p i) (w i) \/ is_max (p i) (month_of year hourly i)) /\ length (w i) = 48%nat /\
     nth_error (ld_two_day ld) (Z.to_nat i) = Some (w i) /\ nth_error (ld_average ld) (Z.to_nat i) = Some (av i)).
  { intros i Hi. destruct (A i Hi) as (A1 & A2 & A3 & A4 & _). apply py_nth_nonneg in A1, A2, A3; try lia.
    destruct (TD i Hi) as (w' & d & n & T1 & T2 & T3 & T4 & T5). assert (w' = w i) by congruence. subst w'.
    destruct (window_peak year hourly i d n (w i) L Hi T4 T5 T3) as (m & MX & Nm). assert (P0 := POS i m Hi MX).
    destruct M as (_ & _ & _ & _ & M). destruct (M i ltac:(lia)) as (t & p' & a & d' & _ & N2 & _ & _ & _ & IM & _).
    assert (Ep : p' = mp i) by congruence. rewrite Ep in IM. clear Ep N2 p'.
    assert (EM : m = mp i) by (eapply is_max_unique; eauto). rewrite EM in *. clear EM.
    assert (INw : In (mp i) (w i)) by (eapply nth_error_In; exact Nm).
    assert (PI := current_peak_pos _ _ _ P0 INw A4).
    split; [exact PI|]. split; [|split; [apply T3|split; assumption]].
    unfold current_peak in A4. apply bind_ok in A4. destruct A4 as (mx & E1 & A4). apply nmaxl_max in E1.
    destruct (nlt _ _); injection A4 as A4; rewrite <- A4; [right; exact IM|]. left.
    destruct E1 as [[E0|I1] I2]; [exfalso; cbn [nofZ NumR] in E0; lra|]. split; auto. intros; apply I2; now right. }
  assert (FT : filter (loaded p) (zrange 1 13) = zrange 1 13).
  { apply filter_true. intros i Hi. apply in_zrange in Hi. destruct (PP i ltac:(lia)) as [P0 _]. unfold loaded.
    cbn [nis0 NumR]. destruct (Req_EM_T (p i) 0); [lra|reflexivity]. }
  rewrite FT in B.
  assert (B1 : ld_temps_pk ld = [0] :: map (fun i => snd (fst (out i))) (zrange 1 13)) by congruence.
  assert (B2 : ld_temps_nm ld = [0] :: map (fun i => snd (out i)) (zrange 1 13)) by congruence.
  split; [rewrite B1; reflexivity|]. split; [rewrite B2; reflexivity|].
  intros i Hi. destruct (PP i Hi) as (P0 & IM & LW & N1 & N2). exists (w i), (av i), (p i).
  split; [exact N1|]. split; [exact N2|]. split; [exact P0|]. split; [exact IM|]. cbn zeta.
  destruct (A i Hi) as (_ & _ & _ & _ & PF). specialize (PF ltac:(lra)).
  destruct (perform_histories gt two_pi_k Rb g K0 GT (w i) (p i) (av i) LW ltac:(lra)) as (v & _ & PH). rewrite PH in PF.
  apply bind_ok in PF. destruct PF as (d & _ & PF).
  rewrite B1, B2. rewrite (nth_zrange_map (fun i => snd (fst (out i)))), (nth_zrange_map (fun i => snd (out i))) by assumption.
  injection PF as <-. cbn [fst snd]. split; reflexivity.
Qed.
(** no load in January and on 31 December: the tables have twelve entries, and entry 1 is the history of February *)
Theorem C48_histories_refuted :
  exists (hourly : list Q) ld, Z.of_nat (length hourly) = 8760%Z /\ analyse hourly = Ok ld /\
  Z.of_nat (length (ld_temps_pk ld)) = 12%Z /\ Forall (fun x => x = 0%Q) (month_of 2019 hourly 1) /\
  exists a, nth_error (ld_temps_pk ld) 1 = Some a /\ Qeq_bool (nth 48 a 0%Q) 0 = false.
Proof.
  exists (year_of (fun h => if ((h <? 744) || (8736 <=? h))%Z then 0%Q else two_levels h)).
  eexists. split; [vm_compute; reflexivity|]. split; [vm_compute; reflexivity|]. split; [reflexivity|]. split.
  - apply Forall_forall. intros x Hx. unfold year_of in Hx. revert x Hx. apply Forall_forall. vm_compute. repeat constructor.
  - eexists. split; [reflexivity|]. vm_compute. reflexivity.
Qed.
Example C48_hypotheses : exists ld, make_loads (fun t => Ok t) 1 (/ 10) 2019 (repeat 1 (Z.to_nat 8760)) = Ok ld /\
  length (ld_temps_pk ld) = 13%nat.
Proof.
  destruct C40_example as (ld & E & _). exists ld. split; auto.
  apply (C48_histories_partial (fun t => Ok t) 1 (/ 10) (fun m => IZR (Z.of_nat m))) in E; try lra; auto; [apply E|].
  intros i p Hi [IP _]. assert (p = 1); [|lra]. apply (repeat_spec (Z.to_nat 8760)).
  rewrite <- (months_concat 2019 (repeat 1 (Z.to_nat 8760))) by (unfold zlen; rewrite repeat_length; reflexivity).
  apply in_concat. exists (month_of 2019 (repeat 1 (Z.to_nat 8760)) i). split; auto. apply in_map, in_zrange. lia.
Qed.
Example C48_example : match analyse (year_of two_levels) with
  | Ok ld => length (ld_temps_pk ld) = 13%nat /\ length (nth 12 (ld_temps_nm ld) []) = 49%nat | Err _ => False end.
Proof. vm_compute. split; reflexivity. Qed.

Print Assumptions C36_heating_cooling_split.
Print Assumptions C37_monthly_analysis.
Print Assumptions C37_of_loads.
Print Assumptions C37_months_partition_the_year.
Print Assumptions C37_wrong_length.
Print Assumptions C38_peak_day_partial.
Print Assumptions C38_peak_day_refuted.
Print Assumptions C39_two_day_window.
Print Assumptions C73_day_before_and_day_of_refuted.
Print Assumptions C73_window_days_partial.
Print Assumptions C40_one_month_partial.
Print Assumptions C40_all_months_partial.
Print Assumptions C40_interpolation_refuted.
Print Assumptions C41_monthly_energy_partial.
Print Assumptions C41_monthly_energy_refuted.
Print Assumptions C42_time_grid_partial.
Print Assumptions C42_time_grid_refuted.
Print Assumptions C43_calendar.
Print Assumptions C44_step_loads.
Print Assumptions C45_peaks_kept_partial.
Print Assumptions C45_peaks_kept_refuted.
Print Assumptions C46_synthetic_month.
Print Assumptions C46_representation_partial.
Print Assumptions C46_representation_refuted.
Print Assumptions C47_doubling_profile_partial.
Print Assumptions C47_unknown_unit.
Print Assumptions C47_doubling_profile_refuted.
Print Assumptions C48_histories_partial.
Print Assumptions C48_histories_refuted.
