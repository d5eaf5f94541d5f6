(** Properties C103 and C126 for the office building of the repository's own tests: its loads meet their conditions *)
From Coq Require Import ZArith List Bool Reals Lia Lra.
From Verif Require Import LoadsProofs LoadsSim LoadsHybrid Properties_Loads GheProofs GFunProofs Properties_GFun RadialProofs RadialGrid Properties_Radial EquivSpec EquivProofs Properties_Equiv.
From Verif Require Import Base Num BaseLemmas Order Spec Utilities Loads LoadsSpec Ghe GheSpec GFun GFunSpec Radial RadialSpec Bhe Equiv Export Domains DomainsProofs
  Search SearchSpec SearchProofs SearchTheorems Design System SystemSpec SystemProofs Program ProgramProofs
  Properties_Domains Properties_Ghe Properties_Search DesignProofs Properties_Design Properties_Export Properties_System Properties_Peaks Properties_Program Properties_Outcome ReferenceLoads.
Import ListNotations.
Open Scope R_scope.

(** ** loads given as whole numbers of a small unit *)
Definition zmax (l : list Z) : Z := fold_right Z.max 0%Z l.
Definition ztotal (l : list Z) : Z := fold_right Z.add 0%Z l.
Fixpoint find_first (p : Z) (l : list Z) : nat := match l with [] => O | x :: r => if (x =? p)%Z then O else S (find_first p r) end.
Definition zwindow (l : list Z) (start : Z) : list Z := map (fun t => nth (Z.to_nat ((start + t) mod 8760)) l 0%Z) (zrange 0 48).
Definition month_fits (l : list Z) (i : Z) : bool :=
  let m := month_of 2019 l i in let p := zmax m in let n := Z.of_nat (find_first p m) in let s := ztotal m in let N := zlen m in
  let w := zwindow l (24 * (days_before 2019 i + (n - 1) / 24)) in
  forallb (fun x => x <=? p)%Z w &&
  ((p =? 0)%Z || ((0 <? n) && (s <? p * N) && (ztotal (map (fun x => Z.max 0 ((N * x - s) * x)) w) <=? 20 * (p * (N * p - s))) &&
    (10 * ztotal (map (fun x => Z.max 0 ((s - N * x) * x)) w) <=? 9 * (p * (N * p - s))))%Z).

Section Lift.
Variable (l : list Z) (D : R).
Hypothesis (HD : 0 < D) (L8 : length l = Z.to_nat 8760) (L0 : forallb (Z.leb 0) l = true) (Fit : forallb (month_fits l) (zrange 1 13) = true).
Notation f := (fun z : Z => IZR z / D).
Notation hourly := (map f l).
Lemma f_le x y : f x <= f y <-> (x <= y)%Z.
Proof.
  assert (P : 0 < / D) by now apply Rinv_0_lt_compat. split; intro H.
  - apply le_IZR. apply Rmult_le_reg_r with (/ D); assumption.
  - apply Rmult_le_compat_r; [lra|]. now apply IZR_le.
Qed.
Lemma f_inj x y : f x = f y -> x = y.
Proof. intro H. apply Z.le_antisymm; apply f_le; lra. Qed.
Lemma month_map i : month_of 2019 hourly i = map f (month_of 2019 l i).
Proof. unfold month_of. now rewrite skipn_map, firstn_map. Qed.
Lemma in_month i x : In x (month_of 2019 l i) -> (0 <= x)%Z.
Proof. intro H. unfold month_of in H. apply In_firstn, In_skipn in H. rewrite forallb_forall in L0. specialize (L0 x H). now apply Z.leb_le. Qed.
Lemma zmax_is m : (forall x, In x m -> (0 <= x)%Z) -> m <> [] -> In (zmax m) m /\ forall x, In x m -> (x <= zmax m)%Z.
Proof.
  induction m as [|a m IH]; intros P N; [congruence|]. unfold zmax in *. cbn [fold_right]. pose proof (P a (or_introl eq_refl)).
  destruct m as [|b m].
  - cbn [fold_right]. rewrite Z.max_l by lia. split; [now left|]. intros x [<-|[]]. lia.
  - destruct (IH (fun x Hx => P x (or_intror Hx)) ltac:(discriminate)) as (A & B). split.
    + destruct (Z.max_spec a (fold_right Z.max 0%Z (b :: m))) as [(_ & ->)|(_ & ->)]; [now right|now left].
    + intros x [<-|Hx]; [apply Z.le_max_l|]. apply Z.le_trans with (1 := B x Hx). apply Z.le_max_r.
Qed.
Lemma max_map m p : (forall x, In x m -> (0 <= x)%Z) -> is_max p (map f m) -> p = f (zmax m).
Proof.
  intros P M. apply (is_max_unique p (f (zmax m)) (map f m) M). destruct (zmax_is m P) as (A & B). { intros ->. destruct M as [[] _]. }
  split; [now apply (in_map f)|]. intros x Hx. apply in_map_iff in Hx. destruct Hx as (z & <- & Hz). apply f_le. auto.
Qed.
Lemma first_map m n p : p = zmax m -> (forall x, In x m -> (0 <= x)%Z) -> first_max_at n (map f m) -> n = find_first p m.
Proof.
  intros Ep P (q & Nq & Mq & Before). rewrite (max_map m q P Mq), <- Ep in *. clear Ep P Mq.
  revert n Nq Before. induction m as [|a m IH]; intros n Nq Before; [destruct n; discriminate|]. cbn [find_first].
  destruct (Z.eqb_spec a p) as [->|N].
  - destruct n; [reflexivity|]. exfalso. apply (Before 0%nat ltac:(lia)). reflexivity.
  - destruct n as [|n]; [exfalso; apply N, f_inj; cbn in Nq; congruence|]. f_equal. apply IH; [exact Nq|]. intros k Hk. apply (Before (S k)). lia.
Qed.
Lemma window_map start : two_days_from hourly start (map f (zwindow l start)).
Proof.
  unfold zwindow. split; [now rewrite !map_length, zrange_length|]. intros t Ht. rewrite map_length, L8. change (Z.of_nat (Z.to_nat 8760)) with 8760%Z.
  rewrite !nth_error_map. unfold zrange. rewrite nth_error_zseq. destruct (Nat.ltb_spec (Z.to_nat t) (Z.to_nat (48 - 0))); [|lia]. cbn [option_map].
  rewrite Z2Nat.id by lia. assert (B := Z.mod_pos_bound (start + t) 8760 ltac:(lia)). rewrite (nth_error_nth' l 0%Z) by lia. reflexivity.
Qed.
Lemma window_unique start w w' : two_days_from hourly start w -> two_days_from hourly start w' -> w = w'.
Proof.
  intros (L1 & A) (L2 & B). apply nth_error_ext. intro j. destruct (le_lt_dec 48 j) as [X|X].
  - rewrite !(proj2 (nth_error_None _ _)) by lia. reflexivity.
  - specialize (A (Z.of_nat j) ltac:(lia)). specialize (B (Z.of_nat j) ltac:(lia)). rewrite Nat2Z.id in *. congruence.
Qed.
Lemma sum_map m : Rsum (map f m) = f (ztotal m).
Proof.
  unfold Rsum. unfold ztotal. induction m as [|a m IH]; cbn [map fold_right]; [unfold Rdiv; lra|]. rewrite IH, plus_IZR. unfold Rdiv. ring.
Qed.
Lemma weights (g : R -> R) (h : Z -> Z) (c : R) w : (forall x, g (f x) = IZR (h x) * c) -> Rsum (map g (map f w)) = IZR (ztotal (map h w)) * c.
Proof.
  intro E. unfold Rsum. unfold ztotal. induction w as [|a w IH]; cbn [map fold_right]; [lra|]. rewrite IH, E, plus_IZR. ring.
Qed.
Lemma fits i : (1 <= i <= 12)%Z -> month_fits l i = true.
Proof. intro Hi. rewrite forallb_forall in Fit. apply Fit. apply in_zrange. lia. Qed.
Lemma length_8760 : zlen hourly = (24 * days_in_year 2019)%Z.
Proof. unfold zlen. rewrite map_length, L8. reflexivity. Qed.

Lemma lift_intermittent : intermittent hourly.
Proof.
  intros i n p Hi month a Fm Mx Pp. unfold month in *. clear month. pose proof (fits i Hi) as E. unfold month_fits in E.
  set (m := month_of 2019 l i) in *. assert (P : forall x, In x m -> (0 <= x)%Z) by apply in_month.
  rewrite month_map in Fm, Mx. fold m in Fm, Mx. rewrite (max_map m p P Mx) in *. rewrite (first_map m n (zmax m) eq_refl P Fm) in *. clear n Fm.
  assert (Pz : (0 < zmax m)%Z) by (apply lt_IZR; apply Rmult_lt_reg_r with (/ D); [now apply Rinv_0_lt_compat|]; unfold Rdiv in Pp; lra).
  set (n := find_first (zmax m) m) in *. set (s := ztotal m) in *. set (N := zlen m) in *. set (q := zmax m) in *. cbv zeta in E.
  set (w := zwindow l (24 * (days_before 2019 i + (Z.of_nat n - 1) / 24))) in *.
  apply andb_prop in E. destruct E as (E0 & E). apply orb_prop in E. destruct E as [E|E]; [apply Z.eqb_eq in E; lia|].
  apply andb_prop in E. destruct E as (E & E4). apply andb_prop in E. destruct E as (E & E3). apply andb_prop in E. destruct E as (E1 & E2).
  apply Z.ltb_lt in E1, E2. apply Z.leb_le in E3, E4.
  assert (HN : (0 < N)%Z). { unfold N, zlen. destruct m as [|b m']; [destruct Mx as [[] _]|cbn [length]; lia]. }
  apply IZR_lt in HN as RN. assert (ND : IZR N * D <> 0) by (apply Rgt_not_eq, Rmult_lt_0_compat; assumption).
  assert (Ea : a = IZR s / (IZR N * D)).
  { unfold a. rewrite month_map. fold m. unfold mean_of. rewrite sum_map, map_length, INR_IZR_INZ. fold s. change (Z.of_nat (length m)) with N. field. split; lra. }
  assert (Pa : IZR q / D - a = IZR (N * q - s) / (IZR N * D)) by (rewrite Ea, minus_IZR, mult_IZR; field; split; lra).
  set (c := / (IZR N * D * D)). assert (Pc : 0 < c) by (apply Rinv_0_lt_compat, Rmult_lt_0_compat; [apply Rmult_lt_0_compat|]; assumption).
  assert (Pq : IZR q / D * (IZR q / D - a) = IZR (q * (N * q - s)) * c) by (rewrite Pa, mult_IZR; unfold c; field; split; lra).
  assert (Mc : forall z, Rmax 0 (IZR z * c) = IZR (Z.max 0 z) * c).
  { intro z. destruct (Z.max_spec 0 z) as [(H & ->)|(H & ->)].
    - apply Rmax_right. apply Rmult_le_pos; [|lra]. apply IZR_le. lia.
    - rewrite Rmult_0_l. apply Rmax_left. apply IZR_le in H. assert (0 <= (- IZR z) * c) by (apply Rmult_le_pos; lra). lra. }
  split; [lia|]. split.
  - assert (0 < IZR (N * q - s) / (IZR N * D)); [|lra]. apply Rdiv_lt_0_compat; [apply IZR_lt; lia|]. now apply Rmult_lt_0_compat.
  - exists (map f w). split; [apply window_map|]. split; [|rewrite Pq; split].
    + intros x Hx. apply in_map_iff in Hx. destruct Hx as (z & <- & Hz). rewrite forallb_forall in E0. apply f_le, Z.leb_le. auto.
    + rewrite (weights _ (fun x => Z.max 0 ((N * x - s) * x)) c).
      * rewrite <- Rmult_assoc. apply Rmult_le_compat_r; [lra|]. rewrite <- mult_IZR. now apply IZR_le.
      * intro x. rewrite <- Mc. f_equal. rewrite Ea, mult_IZR, minus_IZR, mult_IZR. unfold c. field. split; lra.
    + rewrite (weights _ (fun x => Z.max 0 ((s - N * x) * x)) c).
      * rewrite <- Rmult_assoc. apply Rmult_le_compat_r; [lra|]. apply IZR_le in E4. rewrite !mult_IZR in *. lra.
      * intro x. rewrite <- Mc. f_equal. rewrite Ea, mult_IZR, minus_IZR, mult_IZR. unfold c. field. split; lra.
Qed.
Lemma lift_clear : clear_peaks hourly.
Proof.
  intros td ts ps avs ds i w mp ES ET Hi Nw Np. left. intros x Hx. pose proof length_8760 as L.
  destruct (split_ok 2019 hourly L) as (r & E' & M). assert (r = (ts, ps, avs, ds)) by congruence. subst r.
  assert (MD := monthly_days _ _ _ _ _ _ L M). destruct (two_day_ok 2019 hourly ds L) as (td' & ET' & LT & TD).
  { intros k Hk. destruct (MD k Hk) as (d & n & A & B & _). eauto. }
  assert (td' = td) by congruence. subst td'. destruct (TD i Hi) as (w' & d & Nw' & Nd & W). assert (w' = w) by congruence. subst w'.
  destruct (MD i Hi) as (d' & n & Nd' & _ & Fm & Bn). assert (d' = d) by congruence. subst d'.
  destruct M as (_ & _ & _ & _ & M). destruct (M i ltac:(lia)) as (t & p & a & d' & _ & Np' & _ & _ & _ & IM & _). assert (p = mp) by congruence. subst p.
  pose proof (fits i Hi) as E. unfold month_fits in E. set (m := month_of 2019 l i) in *. assert (P : forall x, In x m -> (0 <= x)%Z) by apply in_month. cbv zeta in E.
  apply andb_prop in E. destruct E as (E0 & _). rewrite forallb_forall in E0. rewrite month_map in IM. fold m in IM. rewrite (max_map m mp P IM).
  rewrite month_map in Fm. fold m in Fm. rewrite (first_map m n (zmax m) eq_refl P Fm) in *.
  assert ((Z.of_nat (find_first (zmax m) m) - 1) / 24 = d - 1)%Z as Ed by (symmetry; apply (Z.div_unique _ _ _ (Z.of_nat (find_first (zmax m) m) - 1 - 24 * (d - 1))); lia).
  rewrite Ed in E0. rewrite <- (window_unique _ _ _ (window_map (24 * (days_before 2019 i + (d - 1)))) ltac:(replace (24 * (days_before 2019 i + (d - 1)))%Z with (24 * (days_before 2019 i + d - 1))%Z by ring; exact W)) in Hx.
  apply in_map_iff in Hx. destruct Hx as (z & <- & Hz). apply f_le, Z.leb_le. auto.
Qed.
End Lift.

(** ** the office building *)
(** its loads in W *)
Definition office_loads : list R := map (fun z => IZR z / 10000000000000) office.
Definition office_rejection : list Z := map (fun z => Z.max 0 (- z)) office.
Definition office_extraction : list Z := map (Z.max 0) office.
Lemma office_length : length office = Z.to_nat 8760.
Proof. vm_compute. reflexivity. Qed.
Lemma office_fits : forallb (month_fits office_rejection) (zrange 1 13) && forallb (month_fits office_extraction) (zrange 1 13) = true.
Proof. vm_compute. reflexivity. Qed.
Lemma office_split : split_heat_and_cool office_loads unit_W =
  Ok (map (fun z => IZR z / 10000000000000000) office_rejection, map (fun z => IZR z / 10000000000000000) office_extraction).
Proof.
  destruct (proj2 C36_heating_cooling_split office_loads unit_W 1000 ltac:(auto)) as (rej & ext & Esp & Lr & Lx & Sp). rewrite Esp.
  assert (Lo : length office_loads = length office) by apply map_length.
  assert (V : forall n, nth_error office_loads n = option_map (fun z => IZR z / 10000000000000) (nth_error office n)) by (intro n; apply nth_error_map).
  do 2 f_equal; apply nth_error_ext; intro n; unfold office_rejection, office_extraction; rewrite !nth_error_map;
  (destruct (nth_error office n) as [z|] eqn:Ez; cbn [option_map];
   [|apply nth_error_None in Ez; rewrite (proj2 (nth_error_None _ _)) by lia; reflexivity]);
  destruct (Sp n _ ltac:(rewrite V, Ez; reflexivity)) as (a & x & A1 & A2 & A3 & A4 & A5 & A6); rewrite ?A1, ?A2; f_equal;
  (destruct (Z.le_gt_cases 0 z) as [Hz|Hz]; [apply IZR_le in Hz as Rz|apply IZR_lt in Hz as Rz]);
  rewrite ?(Z.max_l 0 (- z)), ?(Z.max_r 0 (- z)), ?(Z.max_r 0 z), ?(Z.max_l 0 z), ?opp_IZR by lia; destruct A5; lra.
Qed.
(** the loads of the repository's tests: peaks that stand out in their two days, and short enough for the hybrid method *)
Example C103_reference_building : forall rej ext, split_heat_and_cool office_loads unit_W = Ok (rej, ext) ->
  length office_loads = Z.to_nat 8760 /\ clear_peaks rej /\ clear_peaks ext /\ intermittent rej /\ intermittent ext.
Proof.
  intros rej ext E. rewrite office_split in E. assert (D : 0 < 10000000000000000) by lra. split; [unfold office_loads; rewrite map_length; exact office_length|].
  assert (rej = map (fun z => IZR z / 10000000000000000) office_rejection /\ ext = map (fun z => IZR z / 10000000000000000) office_extraction) as (-> & ->) by (split; congruence).
  destruct (andb_prop _ _ office_fits) as (F1 & F2).
  assert (L1 : length office_rejection = Z.to_nat 8760) by (unfold office_rejection; rewrite map_length; exact office_length).
  assert (L2 : length office_extraction = Z.to_nat 8760) by (unfold office_extraction; rewrite map_length; exact office_length).
  assert (P1 : forallb (Z.leb 0) office_rejection = true) by (apply forallb_forall; intros x Hx; apply in_map_iff in Hx; destruct Hx as (z & <- & _); apply Z.leb_le, Z.le_max_l).
  assert (P2 : forallb (Z.leb 0) office_extraction = true) by (apply forallb_forall; intros x Hx; apply in_map_iff in Hx; destruct Hx as (z & <- & _); apply Z.leb_le, Z.le_max_l).
  split; [now apply lift_clear|]. split; [now apply lift_clear|]. split; now apply lift_intermittent.
Qed.
(** so for every borehole the peaks of the building last between a tenth of an hour and 21 hours *)
Example C102_reference_building : forall solver u fuel lntts g, good_solver solver -> admissible u -> calc_sts_g_functions fuel solver u None false = Ok (lntts, g) ->
  exists rej ext cl hl, split_heat_and_cool office_loads unit_W = Ok (rej, ext) /\
  make_loads (g_lag lntts g (t_s u)) (2 * PI * u_soil_k u) (u_Rb u) 2019 rej = Ok cl /\ make_loads (g_lag lntts g (t_s u)) (2 * PI * u_soil_k u) (u_Rb u) 2019 ext = Ok hl /\
  forall ld i, ld = cl \/ ld = hl -> (1 <= i <= 12)%Z -> 0 < peak_of ld i -> / 10 <= duration_of ld i <= 21.
Proof.
  intros solver u fuel lntts g Hs Hu E. set (gt := g_lag lntts g (t_s u)).
  assert (Gt : forall h, 0 < h -> gt h = interp1d lntts g (ln (h * 3600 / t_s u))) by (intros h Hh; unfold gt, g_lag; destruct (Rle_dec h 0); [lra|reflexivity]).
  destruct (C101_hours solver u fuel lntts g Hs Hu E) as (gv & Hg' & Sl & _).
  assert (Hg : forall m, (1 <= m <= 48)%nat -> gt (IZR (Z.of_nat m)) = Ok (gv m)) by (intros m Hm; rewrite Gt by (apply IZR_lt; lia); now apply Hg').
  assert (K0 : 2 * PI * u_soil_k u <> 0) by (pose proof PI_RGT_0; pose proof (ad_k u Hu); apply Rgt_not_eq, Rmult_lt_0_compat; lra).
  destruct (C103_reference_building _ _ office_split) as (_ & C1 & C2 & I1 & I2).
  assert (NN : forall l, l = office_rejection \/ l = office_extraction -> forall x, In x (map (fun z => IZR z / 10000000000000000) l) -> 0 <= x).
  { intros l Hl x Hx. apply in_map_iff in Hx. destruct Hx as (z & <- & Hz). assert (0 <= IZR z); [|lra]. apply IZR_le.
    destruct Hl as [-> | ->]; apply in_map_iff in Hz; destruct Hz as (y & <- & _); apply Z.le_max_l. }
  assert (LL : forall l, l = office_rejection \/ l = office_extraction -> zlen (map (fun z => IZR z / 10000000000000000) l) = (24 * days_in_year 2019)%Z).
  { intros l Hl. unfold zlen. rewrite map_length. destruct Hl as [-> | ->]; unfold office_rejection, office_extraction; rewrite map_length, office_length; reflexivity. }
  destruct (C40_all_months_partial gt _ (u_Rb u) gv K0 Hg (slow_response _ Sl) 2019%Z _ (LL _ (or_introl eq_refl)) (NN _ (or_introl eq_refl)) C1) as (cl & E1 & _).
  destruct (C40_all_months_partial gt _ (u_Rb u) gv K0 Hg (slow_response _ Sl) 2019%Z _ (LL _ (or_intror eq_refl)) (NN _ (or_intror eq_refl)) C2) as (hl & E2 & _).
  do 2 eexists. exists cl, hl. split; [exact office_split|]. split; [exact E1|]. split; [exact E2|]. intros ld i Hl Hi Hp. destruct Hl as [-> | ->].
  - apply (C103_durations solver u fuel lntts g Hs Hu E gt Gt _ cl E1 (NN _ (or_introl eq_refl)) I1 i Hi Hp).
  - apply (C103_durations solver u fuel lntts g Hs Hu E gt Gt _ hl E2 (NN _ (or_intror eq_refl)) I2 i Hi Hp).
Qed.

(** ** designs for the office building over twenty years with the boreholes of C95-C97 *)
Definition plant_for (l : list R) (months : Z) (hi lo mxH mnH : R) : settings :=
  let st := plant hi lo mxH mnH in
  {| st_class := st_class st; st_fluid := st_fluid st; st_rb := st_rb st; st_D := st_D st; st_grout_k := st_grout_k st; st_grout_rhoCp := st_grout_rhoCp st;
     st_soil_k := st_soil_k st; st_soil_rhoCp := st_soil_rhoCp st; st_ugt := st_ugt st; st_start := 1; st_end := months;
     st_max_EFT := hi; st_min_EFT := lo; st_max_H := mxH; st_min_H := mnH; st_loads := l |}.
Definition office_plant := plant_for office_loads 240.
Lemma plant_for_physical l months hi lo mxH mnH V response times c H limit :
  the_physical (plant hi lo mxH mnH) V response times c H limit -> the_physical (plant_for l months hi lo mxH mnH) V response times c H limit.
Proof. intro P. exact P. Qed.
Lemma twenty_years sec : 60000 <= sec -> 3600 * IZR (8760 * 20) <= sec * exp (17 / 2) * exp (last eskilson 0).
Proof.
  intro Hs. rewrite Rmult_assoc, <- exp_plus. unfold eskilson, Eskilson_log_times_milli. cbn [map last].
  assert (E0 : 5 / 4 < exp (/ 4)) by (pose proof (exp_ineq1 (/ 4)); lra).
  assert (Sq : forall a x, a < exp x -> 0 < a -> a * a < exp (x + x)) by (intros a x Hx Ha; rewrite exp_plus; apply Rmult_le_0_lt_compat; lra).
  assert (E2 := Sq _ _ E0 ltac:(lra)). assert (E1 := Sq _ _ E2 ltac:(lra)). replace (/ 4 + / 4 + (/ 4 + / 4)) with 1 in E1 by lra.
  assert (F1 : 12 / 5 < exp 1) by lra. assert (F2 := Sq _ _ F1 ltac:(lra)). assert (F4 := Sq _ _ F2 ltac:(lra)). assert (F8 := Sq _ _ F4 ltac:(lra)).
  assert (F3 : 13 < exp (1 + 1 + 1)). { rewrite (exp_plus (1 + 1) 1). apply Rlt_trans with (12 / 5 * (12 / 5) * (12 / 5)); [lra|]. apply Rmult_le_0_lt_compat; lra. }
  assert (F11 : 14000 < exp (1 + 1 + (1 + 1) + (1 + 1 + (1 + 1)) + (1 + 1 + 1))).
  { rewrite (exp_plus (1 + 1 + (1 + 1) + (1 + 1 + (1 + 1)))). apply Rlt_trans with (1090 * 13); [lra|]. apply Rmult_le_0_lt_compat; lra. }
  match goal with |- _ <= _ * exp ?z => assert (X : exp (1 + 1 + (1 + 1) + (1 + 1 + (1 + 1)) + (1 + 1 + 1)) <= exp z) by (apply Rlt_le, exp_increasing; lra) end.
  change (IZR (8760 * 20)) with 175200. apply Rle_trans with (60000 * 14000); [lra|]. apply Rmult_le_compat; lra.
Qed.
Lemma office_proper hi lo mxH mnH : proper_loads (office_plant hi lo mxH mnH) m_hybrid.
Proof.
  split; [unfold office_plant, plant_for; cbn [st_loads]; unfold office_loads; rewrite map_length; exact office_length|]. split; [cbn; lia|]. split; [|left; reflexivity].
  intros rej ext E. destruct (C103_reference_building rej ext E) as (_ & A & B & C & D). auto.
Qed.
(** every candidate is evaluated, whatever the limits, the flow and the candidates *)
Example C126_reference_building : forall hi lo V d, 0 < V -> ~ In [] d ->
  well_posed plant_film plant_annulus plant_wall plant_Rb plant_Rc plant_root thomas plant_response (office_plant hi lo high_height low_height) m_hybrid flow_borehole V eskilson
    (fun c => In c d) high_height.
Proof.
  intros hi lo V d HV Hd. destruct eskilson_head as (r & Er).
  assert (N : forall c, In c d -> c <> []) by (intros c Hc ->; contradiction).
  assert (Ph := fun c n Hc Hn Hm => plant_physical hi lo high_height low_height V c n plant_response eskilson r eskilson HV Hc Hn Hm Er eq_refl (fun _ _ _ _ _ => eq_refl)).
  split; [apply office_proper|]. split; [split; [exact solver_exists|]; split; [rewrite Er; rewrite <- Er; exact eskilson_increasing|cbn; lra]|]. split.
  - intros c h Hc [-> | ->]; eexists; (split; [apply plant_for_physical, Ph; [now apply N|lia|vm_compute; discriminate]|]); (eapply Rle_trans; [|apply twenty_years; lra]);
    unfold last_hour; cbn [st_end office_plant plant_for]; change (hours_through 240) with (8760 * 20)%Z; lra.
  - intros c Hc. eexists. apply plant_for_physical, Ph; [now apply N|lia|vm_compute; discriminate].
Qed.

