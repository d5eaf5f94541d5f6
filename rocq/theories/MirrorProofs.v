(** How the heat exchanger and the whole program behave when heating and cooling are exchanged *)
From Coq Require Import ZArith List Bool Reals Lra Lia FunctionalExtensionality.
From Verif Require Import Base Num BaseLemmas Order Utilities Loads LoadsSpec LoadsProofs LoadsSim LoadsHybrid Ghe GheSpec GheProofs GFun GFunSpec GFunProofs Radial RadialSpec Bhe Equiv Export
  Search SearchSpec Design System SystemSpec SystemProofs Program ProgramProofs InvarianceSpec InvarianceProofs.
Import ListNotations.
Open Scope R_scope.

(** ** the only exception of the peak analysis of a year is ValueError *)
Definition ve {A} (r : res A) : Prop := match r with Err e => e = ValueError | Ok _ => True end.
Lemma ve_bind {A B} (r : res A) (k : A -> res B) : ve r -> (forall a, r = Ok a -> ve (k a)) -> ve (bind r k).
Proof. destruct r; cbn; auto. Qed.
Lemma ve_mapM {A B} (f : A -> res B) l : (forall a, In a l -> ve (f a)) -> ve (mapM f l).
Proof.
  induction l as [|a l IH]; intro H; [exact I|]. cbn [mapM]. apply ve_bind; [apply H; now left|]. intros b _.
  apply ve_bind; [apply IH; intros; apply H; now right|]. intros; exact I.
Qed.
Lemma ve_foldM {A S} (f : S -> A -> res S) l : forall s, (forall s a, In a l -> ve (f s a)) -> ve (foldM f l s).
Proof.
  induction l as [|a l IH]; intros s H; [exact I|]. cbn [foldM]. apply ve_bind; [apply H; now left|]. intros b _. apply IH. intros; apply H; now right.
Qed.
Lemma ve_nth {A} (l : list A) i : (0 <= i < zlen l)%Z -> ve (py_nth l i).
Proof.
  intro H. unfold py_nth. replace (i <? 0)%Z with false by lia. replace (i <? 0)%Z with false by lia.
  destruct (nth_error l (Z.to_nat i)) eqn:E; [exact I|]. apply nth_error_None in E. unfold zlen in H. lia.
Qed.
Lemma ve_div (x y : R) : y <> 0 -> ve (pydiv x y).
Proof. intro H. now rewrite pydiv_R. Qed.
Lemma ve_interp_sorted (l : list (R * R)) v : ve (interp_sorted l v).
Proof.
  induction l as [|p l IH]; [reflexivity|]. destruct l as [|q l]; [cbn [interp_sorted]; destruct (neqb (fst p) v); [exact I|reflexivity]|]. rewrite interp_cons2.
  destruct (nle (fst q) v) eqn:E; [exact IH|]. destruct (nle (fst p) v) eqn:E2; [|reflexivity]. apply ve_bind; [|intros; exact I].
  apply ve_div. cbn in *. destruct (Rle_dec (fst q) v); [discriminate|]. destruct (Rle_dec (fst p) v); [|discriminate]. lra.
Qed.
Lemma ve_g_lag x y ts d : ve (g_lag x y ts d).
Proof. unfold g_lag. destruct (Rle_dec d 0); [reflexivity|]. apply ve_interp_sorted. Qed.
Lemma hour_times_length : zlen (hour_times (F := R)) = 49%Z.
Proof. rewrite hour_times_seq. unfold zlen. now rewrite map_length, seq_length. Qed.
Lemma ve_simulate_hourly gt k Rb (q : list R) : (forall t, ve (gt t)) -> k <> 0 -> zlen q = 49%Z -> ve (simulate_hourly gt k Rb hour_times q).
Proof.
  intros G K L. unfold simulate_hourly. apply ve_bind; [|intros; exact I]. apply ve_mapM. intros n Hn. rewrite hour_times_length in Hn. apply in_zrange in Hn.
  unfold hourly_step. apply ve_bind; [apply ve_nth; rewrite hour_times_length; lia|]. intros tn _.
  apply ve_bind; [apply ve_mapM; intros; apply G|]. intros gv _. apply ve_bind; [apply ve_mapM; intros; now apply ve_div|]. intros sc _.
  apply ve_bind; [apply ve_nth; lia|]. intros; exact I.
Qed.
Lemma mapM_zlen {A B} (f : A -> res B) l r : mapM f l = Ok r -> zlen r = zlen l.
Proof.
  revert r. induction l as [|a l IH]; intros r H; cbn [mapM] in H; [now injection H as <-|].
  destruct (f a); [|discriminate]. destruct (mapM f l) eqn:E; [|discriminate]. cbn [bind] in H. injection H as <-. specialize (IH _ eq_refl). unfold zlen in *. cbn [length]. lia.
Qed.
Lemma ve_perform gt k Rb (td : list R) peak avg : (forall t, ve (gt t)) -> k <> 0 -> zlen td = 48%Z -> peak <> 0 ->
  ve (perform_current_month_simulation gt k Rb (0 :: td) peak avg).
Proof.
  intros G K L P. assert (L1 : zlen (0 :: td) = 49%Z) by (unfold zlen in *; cbn [length]; lia). unfold perform_current_month_simulation.
  apply ve_bind.
  - unfold nominal_profile. apply ve_bind; [|intros; exact I]. apply ve_mapM. intros i Hi. apply in_zrange in Hi.
    apply ve_bind; [apply ve_nth; lia|]. intros l _. apply ve_bind; [now apply ve_div|]. intros; exact I.
  - intros q Hq. assert (Lq : zlen q = 49%Z).
    { unfold nominal_profile in Hq. destruct (mapM _ _) as [q'|] eqn:E in Hq; [|discriminate]. cbn [bind] in Hq. injection Hq as <-.
      apply mapM_zlen in E. unfold zlen in *. cbn [length]. rewrite Nat2Z.inj_succ, E. reflexivity. }
    apply ve_bind; [apply ve_simulate_hourly; auto|]. intros pk _. apply ve_bind; [apply ve_simulate_hourly; auto|]. intros nm Hn.
    apply ve_bind. { destruct nm; exact I || reflexivity. } intros x _. apply ve_bind; [destruct (nlt _ _); [apply ve_interp_sorted|exact I]|]. intros; exact I.
Qed.
Lemma ve_make_loads gt k Rb year (hourly : list R) : (forall t, ve (gt t)) -> k <> 0 -> zlen hourly = (24 * days_in_year year)%Z -> ve (make_loads gt k Rb year hourly).
Proof.
  intros G K L. unfold make_loads. rewrite zsum_civil. replace (zlen hourly =? days_in_year year * 24)%Z with true by lia. cbn [assert_ bind].
  destruct (split_ok year hourly L) as ((((ts & ps) & avs) & ds) & -> & M). cbn [bind]. pose proof (monthly_days _ _ _ _ _ _ L M) as D.
  destruct M as (M1 & M2 & M3 & M4 & _).
  destruct (two_day_ok year hourly ds L) as (td & -> & L2 & T). { intros i Hi. destruct (D i Hi) as (x & n & A & B & _). eauto. }
  cbn [bind]. apply ve_bind; [|intros ((? & ?) & ?) _; exact I]. unfold find_peak_durations. apply ve_foldM. intros ((a & b) & c) i Hi. apply in_zrange in Hi.
  unfold durations_body. apply ve_bind; [apply ve_nth; lia|]. intros w Hw. apply ve_bind; [apply ve_nth; lia|]. intros mp _.
  apply ve_bind. { unfold current_peak. cbn [nmaxl bind]. now destruct (nlt _ _). } intros p _.
  apply ve_bind; [apply ve_nth; lia|]. intros av _. destruct (nis0 p) eqn:Ep; [exact I|]. apply ve_bind; [|intros ((? & ?) & ?) _; exact I].
  apply ve_perform; auto.
  - destruct (T i ltac:(lia)) as (w' & dd & Nw & _ & (Lw & _)). unfold py_nth in Hw. replace (i <? 0)%Z with false in Hw by lia. cbv zeta in Hw.
    replace (i <? 0)%Z with false in Hw by lia. rewrite Nw in Hw. injection Hw as <-. unfold zlen. lia.
  - intros ->. cbn in Ep. destruct (Req_EM_T 0 0); congruence.
Qed.

(** ** the load sequence *)
Lemma Ropp_div (x y : R) : pydiv (- x) y = rmap Ropp (pydiv x y).
Proof.
  destruct (Req_EM_T y 0) as [->|H]; [now rewrite !pydiv_R0|]. rewrite !pydiv_R by exact H. cbn [rmap]. f_equal. unfold Rdiv. ring.
Qed.
Lemma month_rate_swap cl hl mi b : has_months cl -> has_months hl -> (1 <= mi <= 12)%Z ->
  month_rate hl cl mi b = rmap (fun p => (- fst p, (- snd p)%Z)) (month_rate cl hl mi b).
Proof.
  intros (C1 & C2 & C3 & C4) (H1 & H2 & H3 & H4) R. unfold month_rate, peak_energy. destruct (monthdays mi) as [md|]; [|reflexivity]. cbn [bind].
  rewrite (py_nth_month (ld_total cl) 0), (py_nth_month (ld_total hl) 0) by assumption. cbn [bind]. destruct b.
  - rewrite (py_nth_month (ld_duration cl) 0), (py_nth_month (ld_duration hl) 0), (py_nth_month (ld_peak cl) 0), (py_nth_month (ld_peak hl) 0),
      (py_nth_month (ld_peak_day cl) 0%Z), (py_nth_month (ld_peak_day hl) 0%Z) by assumption. cbn [bind].
    set (dc := nth _ (ld_duration cl) 0). set (dh := nth _ (ld_duration hl) 0). set (tc := nth _ (ld_total cl) 0). set (th := nth _ (ld_total hl) 0).
    set (pc := nth _ (ld_peak cl) 0). set (ph := nth _ (ld_peak hl) 0). set (a := nth _ (ld_peak_day cl) 0%Z). set (c := nth _ (ld_peak_day hl) 0%Z).
    replace (nsub (nsub (nofZ (md * 24)) dh) dc) with (nsub (nsub (nofZ (md * 24)) dc) dh) by (cbn; ring).
    replace (nadd (nsub (nsub th tc) (nmul ph dh)) (nmul pc dc)) with (- nadd (nsub (nsub tc th) (nmul pc dc)) (nmul ph dh)) by (cbn; ring).
    rewrite Ropp_div. destruct (pydiv _ _); [|reflexivity]. cbn [rmap bind fst snd]. do 2 f_equal. lia.
  - replace (nsub (nth (Z.to_nat mi) (ld_total hl) 0) (nth (Z.to_nat mi) (ld_total cl) 0))
      with (- nsub (nth (Z.to_nat mi) (ld_total cl) 0) (nth (Z.to_nat mi) (ld_total hl) 0)) by (cbn; ring).
    rewrite Ropp_div. destruct (pydiv _ _); reflexivity.
Qed.
Definition neg_load (s : list R * list R) : list R * list R := (map Ropp (fst s), snd s).
Lemma foldM_rmap {A B S T} (f : S -> A -> res S) (g : T -> B -> res T) (h : S -> T) (k : A -> B) l : (forall s a, In a l -> g (h s) (k a) = rmap h (f s a)) ->
  forall s, foldM g (map k l) (h s) = rmap h (foldM f l s).
Proof.
  induction l as [|a l IH]; intros H s; [reflexivity|]. cbn [map foldM]. rewrite H by now left. destruct (f s a) as [s'|]; [|reflexivity]. cbn [rmap bind]. apply IH. intros; apply H; now right.
Qed.
Lemma place_loads_neg b mi i (order : list (loads R * R)) rate s :
  place_loads b mi i (map (fun o => (fst o, - snd o)) order) (- rate) (neg_load s) = rmap neg_load (place_loads b mi i order rate s).
Proof.
  unfold place_loads. rewrite (foldM_rmap (fun s (o : loads R * R) => let (load, hour) := s : list R * list R in
                     let! p := py_nth (ld_peak (fst o)) mi in
                     if nlt (nofZ 0) p && b then let! r := peak_hour_range (fst o) mi i in Ok (load ++ [rate; nmul (snd o) p], hour ++ [fst r; snd r])
                     else Ok (load, hour))).
  - destruct (foldM _ order s) as [s'|]; [|reflexivity]. cbn [rmap bind]. destruct (lastmonthhour i); [|reflexivity]. cbn [rmap bind]. unfold neg_load. cbn [fst snd].
    now rewrite map_app.
  - intros (load, hour) o _. unfold neg_load. cbn [fst snd]. destruct (py_nth _ _); [|reflexivity]. cbn [bind]. destruct (_ && _); [|reflexivity].
    destruct (peak_hour_range _ _ _); [|reflexivity]. cbn [bind rmap fst snd]. rewrite map_app. cbn [map]. do 5 f_equal. cbn. ring.
Qed.
Lemma month_body_swap cl hl s e x i : has_months cl -> has_months hl ->
  month_body hl cl s e (neg_load x) i = rmap neg_load (month_body cl hl s e x i).
Proof.
  intros C H. unfold month_body. cbv zeta. rewrite month_index_code. rewrite (month_rate_swap cl hl) by auto using month_index_range.
  destruct (month_rate cl hl _ _) as [(rate, diff)|]; [|reflexivity]. cbn [rmap bind fst snd].
  destruct (Z.ltb_spec diff 0).
  - replace (- diff <? 0)%Z with false by lia. replace (0 <? - diff)%Z with true by lia. rewrite <- place_loads_neg. cbn [map fst snd].
    change (nofZ (F := R) 1) with 1. change (nofZ (F := R) (-1)) with (-1). replace (- (-1)) with 1 by lra. reflexivity.
  - destruct (Z.ltb_spec 0 diff).
    + replace (- diff <? 0)%Z with true by lia. rewrite <- place_loads_neg. cbn [map fst snd].
      change (nofZ (F := R) 1) with 1. change (nofZ (F := R) (-1)) with (-1). replace (- (-1)) with 1 by lra. reflexivity.
    + replace (- diff <? 0)%Z with false by lia. replace (0 <? - diff)%Z with false by lia. destruct (lastmonthhour i); [|reflexivity]. cbn [bind rmap].
      unfold neg_load. cbn [fst snd]. now rewrite map_app.
Qed.
Lemma process_swap cl hl s e : has_months cl -> has_months hl ->
  (let! p := process_monthly_loads hl cl s e in Ok (fst p)) = rmap neg_load (let! p := process_monthly_loads cl hl s e in Ok (fst p)).
Proof.
  intros C H. unfold process_monthly_loads. destruct (firstmonthhour s) as [f|]; [|reflexivity]. cbn [bind].
  pose proof (foldM_rmap (month_body cl hl s e) (month_body hl cl s e) neg_load (fun i => i) (zrange s (e + 1)) (fun x i _ => month_body_swap cl hl s e x i C H)
    ([nofZ 0; nofZ 0], [nofZ 0; nofZ (f - 1)])) as E.
  rewrite map_id in E. replace (neg_load ([nofZ 0; nofZ 0], [nofZ 0; nofZ (f - 1)])) with ([nofZ 0; nofZ 0] : list R, [nofZ 0; nofZ (f - 1)] : list R) in E
    by (unfold neg_load; cbn; now rewrite !Ropp_0).
  rewrite E. clear E. destruct (foldM _ _ _) as [(l, h)|]; reflexivity.
Qed.

(** ** the two directions of the hourly loads *)
Lemma split_swap (l : list R) : split_heat_and_cool (map Ropp l) unit_W = rmap (fun p => (snd p, fst p)) (split_heat_and_cool l unit_W).
Proof.
  unfold split_heat_and_cool, unit_scale. cbn [bind].
  rewrite (mapM_pure (fun x : R => if nle (nofZ 0) x then pydiv x (nofZ 1000) else Ok (nofZ 0)) (fun x => if Rle_dec 0 x then x / 1000 else 0) l).
  2:{ intros x _. cbn. destruct (Rle_dec 0 x); [|reflexivity]. unfold pydiv. cbn. destruct (Req_EM_T 1000 0); [lra|reflexivity]. }
  rewrite (mapM_pure (fun x : R => if nle (nofZ 0) x then Ok (nofZ 0) else pydiv x (nsub (nofZ 0) (nofZ 1000))) (fun x => if Rle_dec 0 x then 0 else x / - 1000) l).
  2:{ intros x _. cbn. destruct (Rle_dec 0 x); [reflexivity|]. unfold pydiv. cbn. destruct (Req_EM_T (0 - 1000) 0); [lra|]. f_equal. f_equal. lra. }
  rewrite !mapM_map.
  rewrite (mapM_pure _ (fun x => if Rle_dec 0 x then 0 else x / - 1000) l).
  2:{ intros x _. cbn. unfold pydiv. cbn. destruct (Req_EM_T 1000 0); [lra|]. destruct (Rle_dec 0 (- x)), (Rle_dec 0 x); try lra; f_equal; lra. }
  cbn [bind].
  rewrite (mapM_pure _ (fun x => if Rle_dec 0 x then x / 1000 else 0) l).
  2:{ intros x _. cbn. unfold pydiv. cbn. destruct (Req_EM_T (0 - 1000) 0); [lra|]. destruct (Rle_dec 0 (- x)), (Rle_dec 0 x); try lra; f_equal; lra. }
  reflexivity.
Qed.
Lemma split_lengths (l a b : list R) : split_heat_and_cool l unit_W = Ok (a, b) -> zlen a = zlen l /\ zlen b = zlen l.
Proof.
  unfold split_heat_and_cool, unit_scale. cbn [bind]. intro H. apply bind_ok in H as (x & E1 & H). apply bind_ok in H as (y & E2 & H).
  apply Ok_inj in H. assert (a = y) by congruence. assert (b = x) by congruence. subst. split; eapply mapM_zlen; eassumption.
Qed.

Lemma make_loads_months gt k Rb (hourly : list R) ld : make_loads gt k Rb 2019 hourly = Ok ld -> has_months ld.
Proof.
  intro H. destruct (two_day_tables _ _ _ _ _ _ H) as ((M1 & M2 & M3 & M4 & _) & D & _). unfold has_months, zlen in *. repeat split; try lia; exact D.
Qed.
Lemma make_loads_wrong_length gt k Rb (hourly : list R) : (zlen hourly <> 24 * days_in_year 2019)%Z -> make_loads gt k Rb 2019 hourly = Err AssertionError.
Proof. intro L. unfold make_loads. rewrite zsum_civil. replace (zlen hourly =? days_in_year 2019 * 24)%Z with false by lia. reflexivity. Qed.

Section Mirror.
Variable h_circular : R -> R -> R -> R -> R -> R -> R -> R.
Variable h_annulus : R -> R -> R -> R -> R -> R -> R -> R -> R * R.
Variable r_conduction : R -> R -> R -> R.
Variable eff_u : R -> pg_u -> R -> R -> R.
Variable eff_c : R -> pg_c -> R -> R -> R.
Variable brentq : (R -> res R) -> R -> R -> list R * res R.
Variable solver : list R -> list R -> list R -> list R -> list R.
Variable interp : ikind -> list (R * R) -> R -> R.
Variable field_response : R -> list (R * R) -> R -> R -> R -> res (list R).
Variable dlg : R -> R -> dialogue.
Variable st : settings.
Hypothesis soil : st_soil_k st <> 0.
Notation u := (st_ugt st).
Notation W := (mirrored_ghe u).
Notation ws := (mirrored st).
Notation ssim := (ghe_simulate h_circular h_annulus r_conduction eff_u eff_c brentq solver interp).
Notation lobj := (local_objective h_circular h_annulus r_conduction eff_u eff_c brentq solver interp).
Notation conv := (converse h_circular h_annulus r_conduction eff_u eff_c brentq solver interp).
Notation gsize := (ghe_size h_circular h_annulus r_conduction eff_u eff_c brentq solver interp).

Lemma hybrid_load_swap H e ts sts a b : zlen a = zlen b ->
  hybrid_load eff_u ws H e ts sts b a = rmap neg_load (hybrid_load eff_u st H e ts sts a b).
Proof.
  intro L. unfold hybrid_load. cbv zeta. change (st_soil_k ws) with (st_soil_k st). change (st_start ws) with (st_start st). change (st_end ws) with (st_end st).
  set (gt := g_lag (fst sts) (snd sts) ts). set (Rb := snd _). pose proof PI_RGT_0 as P.
  assert (K : 2 * PI * st_soil_k st <> 0) by (apply Rmult_integral_contrapositive_currified; [lra|exact soil]).
  destruct (Z.eq_dec (zlen a) (24 * days_in_year 2019)) as [La|La].
  - pose proof (ve_make_loads gt _ Rb 2019 a (ve_g_lag _ _ _) K La) as Va. pose proof (ve_make_loads gt _ Rb 2019 b (ve_g_lag _ _ _) K (eq_trans (eq_sym L) La)) as Vb.
    destruct (make_loads gt _ Rb 2019 a) as [cl|ea] eqn:Ea; destruct (make_loads gt _ Rb 2019 b) as [hl|eb] eqn:Eb; cbn [bind rmap]; cbn in Va, Vb; subst; try reflexivity.
    apply process_swap; eapply make_loads_months; eassumption.
  - rewrite !make_loads_wrong_length by lia. reflexivity.
Qed.

(** ** simulation *)
Lemma diffs_opp (l : list R) : diffs (map Ropp l) = map Ropp (diffs l).
Proof.
  induction l as [|a l IH]; [reflexivity|]. destruct l as [|b l]; [reflexivity|]. change (diffs (map Ropp (a :: b :: l))) with (nsub (- b) (- a) :: diffs (map Ropp (b :: l))).
  rewrite IH. change (diffs (a :: b :: l)) with (nsub b a :: diffs (b :: l)). cbn [map]. f_equal. cbn. ring.
Qed.
Lemma py_nth_opp (l : list R) i : py_nth (map Ropp l) i = rmap Ropp (py_nth l i).
Proof.
  unfold py_nth, zlen. rewrite map_length. cbv zeta. destruct (_ <? 0)%Z; [reflexivity|]. rewrite nth_error_map. now destruct (nth_error l _).
Qed.
Lemma py_slice_map {A B} (f : A -> B) l a b : py_slice (map f l) a b = map f (py_slice l a b).
Proof. unfold py_slice, zlen. rewrite map_length. cbv zeta. now rewrite skipn_map, firstn_map. Qed.
Lemma dot_opp (x y : list R) : dot (map Ropp x) y = - dot x y.
Proof.
  unfold dot. rewrite !nsum_R. revert y. induction x as [|a x IH]; intros [|b y]; cbn [map combine Rsum]; try (cbn; lra). specialize (IH y). unfold Rsum in *. cbn [map combine fold_right fst snd]. rewrite IH. cbn. ring.
Qed.
Lemma detailed_step_mirror g H k Tg Rb m cp Q t dt i :
  detailed_step g H k Tg Rb m cp (map Ropp Q) t (map Ropp dt) i = rmap (fun p => (2 * Tg - fst p, - snd p)) (detailed_step g H k Tg Rb m cp Q t dt i).
Proof.
  unfold detailed_step. cbv zeta. rewrite ?bind_rmap. f_equal. extensionality ti. rewrite ?bind_rmap. f_equal. extensionality gv.
  rewrite py_slice_map, mapM_map.
  rewrite (mapM_ext _ (fun a => rmap Ropp (let! a := pydiv a H in pydiv a k)))
    by (intros x _; rewrite Ropp_div; destruct (pydiv x H); [cbn [rmap bind]; apply Ropp_div|reflexivity]).
  rewrite mapM_rmap, rmap_bind, ?bind_rmap. f_equal. extensionality sc. rewrite py_nth_opp, rmap_bind, ?bind_rmap. f_equal. extensionality q.
  rewrite Ropp_div, rmap_bind, ?bind_rmap. f_equal. extensionality qh. rewrite Ropp_div, rmap_bind, ?bind_rmap. f_equal. extensionality x. cbn [rmap fst snd].
  rewrite dot_opp. do 2 f_equal. cbn. ring.
Qed.
Lemma fold_nmax_mirror c l a : fold_left nmax (map (fun x => c - x) l) (c - a) = c - fold_left nmin l a.
Proof.
  revert a. induction l as [|b l IH]; intro a; [reflexivity|]. cbn [map fold_left]. rewrite <- IH. f_equal. unfold nmax, nmin. cbn.
  destruct (Rlt_dec (c - a) (c - b)), (Rlt_dec b a); lra.
Qed.
Lemma fold_nmin_mirror c l a : fold_left nmin (map (fun x => c - x) l) (c - a) = c - fold_left nmax l a.
Proof.
  revert a. induction l as [|b l IH]; intro a; [reflexivity|]. cbn [map fold_left]. rewrite <- IH. f_equal. unfold nmax, nmin. cbn.
  destruct (Rlt_dec (c - b) (c - a)), (Rlt_dec a b); lra.
Qed.
Lemma simulated_loads_mirror m a b (hourly load hour : list R) :
  simulated_loads m a b (map Ropp hourly) (map Ropp load) hour = rmap neg_load (simulated_loads m a b hourly load hour).
Proof.
  destruct m; [|cbn [simulated_loads]|reflexivity].
  - cbn [simulated_loads rmap]. unfold neg_load. cbn [fst snd]. rewrite skipn_map, !map_map. do 2 f_equal. apply map_ext. intro x. cbn. ring.
  - cbv zeta. rewrite ?bind_rmap. f_equal. extensionality y. rewrite ?bind_rmap. f_equal. extensionality n. rewrite ?bind_rmap. f_equal. extensionality q. rewrite ?bind_rmap. f_equal.
    extensionality ny. cbn [rmap]. unfold neg_load. cbn [fst snd]. do 2 f_equal. unfold list_times, py_repeat. rewrite map_map.
    assert (E : forall n, concat (repeat (map Ropp hourly) n) = map Ropp (concat (repeat hourly n))) by (induction n0 as [|n0 IH]; [reflexivity|]; cbn [repeat concat]; now rewrite map_app, IH).
    rewrite E, map_map. apply map_ext. intro x. cbn. ring.
Qed.
Lemma simulate_mirror g n H k Tg Rb m cp mt a b hourly load hour :
  simulate g n H k Tg Rb m cp mt a b (map Ropp hourly) (map Ropp load) hour =
  rmap (fun r => let '(T, D, mx, mn) := r in (map (fun t => 2 * Tg - t) T, map Ropp D, 2 * Tg - mn, 2 * Tg - mx)) (simulate g n H k Tg Rb m cp mt a b hourly load hour).
Proof.
  unfold simulate. rewrite simulated_loads_mirror, rmap_bind, ?bind_rmap. f_equal. extensionality qt. unfold neg_load. cbn [fst snd].
  assert (E : simulate_detailed g n H k Tg Rb m cp (map Ropp (fst qt)) (snd qt) =
              rmap (fun r => (map (fun t => 2 * Tg - t) (fst r), map Ropp (snd r))) (simulate_detailed g n H k Tg Rb m cp (fst qt) (snd qt))).
  { unfold simulate_detailed. cbv zeta. replace (zlen (map Ropp (fst qt))) with (zlen (fst qt)) by (unfold zlen; now rewrite map_length).
    rewrite ?bind_rmap. f_equal. extensionality v. rewrite mapM_map, (mapM_ext _ (fun x => rmap Ropp (pydiv x n))) by (intros; apply Ropp_div).
    rewrite mapM_rmap, rmap_bind. rewrite ?bind_rmap. f_equal. extensionality q.
    replace (nofZ 0 :: map Ropp q) with (map Ropp (nofZ 0 :: q)) by (cbn [map]; f_equal; cbn; lra). rewrite diffs_opp.
    rewrite (mapM_ext _ (fun i => rmap (fun p => (2 * Tg - fst p, - snd p)) (detailed_step g H k Tg Rb m cp (nofZ 0 :: q) (nofZ 0 :: snd qt) (diffs (nofZ 0 :: q)) i)))
      by (intros i _; apply detailed_step_mirror).
    rewrite mapM_rmap, rmap_bind, bind_rmap. f_equal. extensionality l. cbn [rmap fst snd]. now rewrite !map_map. }
  rewrite E, rmap_bind, bind_rmap. f_equal. extensionality r. destruct r as (T, D). cbn [fst snd]. destruct T as [|x T]; [reflexivity|].
  cbn [map nmaxl nminl bind rmap]. now rewrite fold_nmax_mirror, fold_nmin_mirror.
Qed.
Definition reflect (p : R * R) : R * R := (2 * u - snd p, 2 * u - fst p).
Lemma ghe_simulate_mirror m s : ssim ws m (W s) = (W (fst (ssim st m s)), rmap reflect (snd (ssim st m s))).
Proof.
  unfold ghe_simulate. change (gh_B (W s)) with (gh_B s). change (gh_H (W s)) with (gh_H s). change (gh_bhe (W s)) with (gh_bhe s).
  change (gh_gf (W s)) with (gh_gf s).
  destruct (pydiv (gh_B s) (gh_H s)) as [q|]; [|reflexivity]. cbn [gh_bhe with_bhe].
  destruct (compute_equivalent _ _ _ _ _ _) as [e|]; [|reflexivity].
  change (short_time eff_u solver ws) with (short_time eff_u solver st).
  destruct (short_time _ _ _ _ _) as [r|]; [|reflexivity].
  cbn [gh_gf gh_sts with_short_time with_eq with_bhe]. change (st_rb ws) with (st_rb st). change (gh_gf (W s)) with (gh_gf s).
  destruct (grab_g_function _ _ _ _ _ _) as (t, [c|]); [|reflexivity].
  cbn [gh_nbh gh_ts gh_bhe gh_load gh_hour with_gf with_short_time with_eq with_bhe mirrored_ghe].
  change (st_ugt ws) with u. change (st_soil_k ws) with (st_soil_k st). change (st_fluid ws) with (st_fluid st).
  change (st_start ws) with (st_start st). change (st_end ws) with (st_end st). change (st_loads ws) with (map Ropp (st_loads st)).
  rewrite simulate_mirror. destruct (simulate _ _ _ _ _ _ _ _ _ _ _ _ _ _) as [(((T, D), mx), mn)|]; reflexivity.
Qed.
Lemma excess_mirror r : excess ws (rmap reflect r) = excess st r.
Proof.
  destruct r as [(x, y)|]; [|reflexivity]. unfold excess, cost, reflect. cbn [rmap bind fst snd]. f_equal.
  change (st_max_EFT ws) with (2 * u - st_min_EFT st). change (st_min_EFT ws) with (2 * u - st_max_EFT st). unfold nmax. cbn.
  destruct (Rlt_dec (2 * u - y - (2 * u - st_min_EFT st)) (2 * u - st_max_EFT st - (2 * u - x))), (Rlt_dec (x - st_max_EFT st) (st_min_EFT st - y)); lra.
Qed.
Lemma local_objective_mirror m s H : lobj ws m (W s) H = both W (lobj st m s H).
Proof.
  unfold local_objective. change (with_H (W s) H) with (W (with_H s H)). rewrite ghe_simulate_mirror.
  destruct (ssim st m (with_H s H)) as (s', r). cbn [fst snd both]. now rewrite excess_mirror.
Qed.
Lemma converse_mirror m dd s : conv ws m dd (W s) = both W (conv st m dd s).
Proof.
  revert s. induction dd as [x next IH|r]; intro s; [|reflexivity]. cbn [converse]. rewrite local_objective_mirror.
  destruct (lobj st m s x) as (s', [v|]); [|reflexivity]. cbn [both fst snd]. apply IH.
Qed.
Lemma ghe_size_mirror m s : gsize ws dlg m (W s) = both W (gsize st dlg m s).
Proof.
  unfold ghe_size. change (st_min_H ws) with (st_min_H st). change (st_max_H ws) with (st_max_H st).
  destruct (pydiv _ _) as [g|]; [|reflexivity]. change (with_H (W s) g) with (W (with_H s g)). rewrite local_objective_mirror.
  destruct (lobj st m (with_H s g) (st_min_H st)) as (s1, [a|]); [|reflexivity]. cbn [both fst snd]. rewrite local_objective_mirror.
  destruct (lobj st m s1 (st_max_H st)) as (s2, [b|]); [|reflexivity]. cbn [both fst snd].
  destruct (bind (sign_of a) _) as [(v, w)|]; [|reflexivity]. destruct (negb _); [|reflexivity]. rewrite converse_mirror.
  now destruct (conv st m (dlg (st_min_H st) (st_max_H st)) s2) as (s3, [c|]).
Qed.

(** ** the program *)
Variable flow : flow_kind.
Variable V_flow : R.
Variable log_time : list R.
Notation rdy := (ready h_circular h_annulus r_conduction eff_u eff_c brentq solver field_response).
Notation sup := (size_up h_circular h_annulus r_conduction eff_u eff_c brentq solver interp field_response dlg).

Lemma ready_mirror c H : rdy ws flow V_flow log_time c H = rmap W (rdy st flow V_flow log_time c H).
Proof.
  unfold ready, System.initialize_ghe. rewrite ?bind_rmap. change (st_fluid ws) with (st_fluid st). f_equal. extensionality fl.
  rewrite ?bind_rmap. change (st_rb ws) with (st_rb st). f_equal. extensionality B. rewrite ?bind_rmap.
  change (st_D ws) with (st_D st). f_equal. extensionality gf. unfold make_ghe. cbv zeta. change (st_fluid ws) with (st_fluid st).
  rewrite ?bind_rmap. f_equal. extensionality f2. rewrite ?bind_rmap.
  change (make_bhe h_circular h_annulus r_conduction ws) with (make_bhe h_circular h_annulus r_conduction st). f_equal. extensionality b.
  rewrite ?bind_rmap. f_equal. extensionality e. rewrite ?bind_rmap.
  change (short_time eff_u solver ws) with (short_time eff_u solver st). f_equal. extensionality r.
  change (st_loads ws) with (map Ropp (st_loads st)). rewrite split_swap, rmap_bind.
  destruct (split_heat_and_cool (st_loads st) unit_W) as [(x, y)|] eqn:E; [|reflexivity]. apply split_lengths in E. cbn [bind fst snd].
  rewrite hybrid_load_swap by lia. rewrite rmap_bind. destruct (hybrid_load _ _ _ _ _ _ _ _) as [lh|]; reflexivity.
Qed.
Lemma compute_g_functions_mirror s : compute_g_functions field_response ws (W s) = rmap W (compute_g_functions field_response st s).
Proof. unfold compute_g_functions. rewrite ?bind_rmap. f_equal. extensionality hs. rewrite ?bind_rmap. f_equal. Qed.
Lemma size_up_mirror m s : sup ws m (W s) = rmap W (sup st m s).
Proof.
  unfold size_up. rewrite compute_g_functions_mirror, rmap_bind, bind_rmap. f_equal. extensionality s1. rewrite ghe_size_mirror.
  now destruct (gsize st dlg m s1) as (s2, [[]|]).
Qed.

Notation prog := (program h_circular h_annulus r_conduction eff_u eff_c brentq solver interp field_response dlg).
Notation whl := (whole h_circular h_annulus r_conduction eff_u eff_c brentq solver interp field_response dlg).
Notation left := (left_ghe h_circular h_annulus r_conduction eff_u eff_c brentq solver interp field_response dlg).
Variable m : method.

Lemma program_mirror gc r H : prog ws m flow V_flow log_time gc r H = prog st m flow V_flow log_time gc r H.
Proof.
  unfold program. change (st_min_H ws) with (st_min_H st). change (st_max_H ws) with (st_max_H st). f_equal.
  - extensionality c. extensionality h. unfold can_build. rewrite ready_mirror, rmap_bind. reflexivity.
  - extensionality c. extensionality h. unfold excess_of, System.calculate_excess. fold (rdy ws flow V_flow log_time c h). fold (rdy st flow V_flow log_time c h).
    rewrite ready_mirror, rmap_bind. destruct (rdy st flow V_flow log_time c h) as [s|]; [|reflexivity]. cbn [bind]. rewrite ghe_simulate_mirror. cbn [snd]. now rewrite excess_mirror.
  - extensionality c. unfold sized_height. change (st_max_H ws) with (st_max_H st). rewrite ready_mirror, rmap_bind. f_equal. extensionality s.
    rewrite size_up_mirror, rmap_bind. reflexivity.
Qed.
Lemma left_ghe_mirror r f : left ws flow V_flow log_time r f = rmap W (left st flow V_flow log_time r f).
Proof.
  unfold left_ghe. destruct (Search.ghe _ (snd f)) as (c, H).
  destruct r; try apply ready_mirror. change (st_max_H ws) with (st_max_H st). rewrite ready_mirror, rmap_bind, bind_rmap. f_equal. extensionality s. apply size_up_mirror.
Qed.
Lemma whole_mirror gc r H sm :
  whl ws m flow V_flow log_time gc r H sm = rmap (fun p => (fst p, W (snd p))) (whl st m flow V_flow log_time gc r H sm).
Proof.
  unfold whole. rewrite program_mirror, ?bind_rmap. f_equal. extensionality f. rewrite left_ghe_mirror, rmap_bind, bind_rmap. f_equal. extensionality s.
  rewrite size_up_mirror, rmap_bind, bind_rmap. f_equal.
Qed.
End Mirror.
