(** The peak analysis, the heat exchanger and the program with all loads and temperature differences multiplied by the same number *)
From Coq Require Import ZArith List Bool Reals Lra Lia FunctionalExtensionality.
From Verif Require Import Base Num BaseLemmas Order Utilities Loads LoadsSpec LoadsProofs LoadsSim LoadsHybrid Properties_Loads Ghe GheSpec GheProofs GFun GFunSpec GFunProofs Radial RadialSpec Bhe Equiv Export
  Search SearchSpec Design System SystemSpec SystemProofs Program ProgramProofs InvarianceSpec InvarianceProofs MirrorProofs TurnProofs ScaleProofs ProportionSpec.
Import ListNotations.
Open Scope R_scope.

Section Times.
Variable a : R.
Hypothesis Ha : 0 < a.
Notation aa := (Rmult a).

(** ** lists *)
Lemma nsum_times (l : list R) : nsum (map aa l) = a * nsum l.
Proof. rewrite !nsum_R. induction l as [|x l IH]; cbn [map Rsum]; [cbn; lra|]. unfold Rsum in *. cbn [fold_right]. rewrite IH. ring. Qed.
Lemma neqb_times (x y : R) : neqb (a * x) (a * y) = neqb x y.
Proof. unfold neqb. now rewrite !(nle_both a Ha). Qed.
Lemma py_index_times (x : R) l : py_index (a * x) (map aa l) = py_index x l.
Proof.
  unfold py_index. assert (E : find_index (neqb (a * x)) (map aa l) = find_index (neqb x) l); [|now rewrite E].
  induction l as [|y l IH]; [reflexivity|]. cbn [map find_index]. rewrite neqb_times, IH. reflexivity.
Qed.
Lemma zlen_times (l : list R) : zlen (map aa l) = zlen l. Proof. unfold zlen. now rewrite map_length. Qed.
Lemma map_0 : a * nofZ 0 = nofZ 0. Proof. cbn. ring. Qed.
Lemma diffs_times (l : list R) : diffs (map aa l) = map aa (diffs l).
Proof.
  induction l as [|x l IH]; [reflexivity|]. destruct l as [|y l]; [reflexivity|]. change (diffs (map aa (x :: y :: l))) with (nsub (a * y) (a * x) :: diffs (map aa (y :: l))).
  rewrite IH. change (diffs (x :: y :: l)) with (nsub y x :: diffs (y :: l)). cbn [map]. f_equal. cbn. ring.
Qed.
Lemma dot_times (x y : list R) : dot (map aa x) y = a * dot x y.
Proof.
  unfold dot. rewrite !nsum_R. revert y. induction x as [|u x IH]; intros [|v y]; cbn [map combine Rsum]; try (cbn; lra). specialize (IH y). unfold Rsum in *. cbn [map combine fold_right fst snd]. rewrite IH. cbn. ring.
Qed.
Lemma nis0_times (x : R) : nis0 (a * x) = nis0 x.
Proof. cbn. destruct (Req_EM_T (a * x) 0) as [E|E], (Req_EM_T x 0) as [E'|E']; try reflexivity; exfalso; [apply Rmult_integral in E; lra|subst; lra]. Qed.
Lemma nlt0_times (x : R) : nlt (nofZ 0) (a * x) = nlt (nofZ 0) x.
Proof. rewrite <- map_0 at 1. apply (nlt_both a Ha). Qed.
Lemma mapM_times {A} (f g : A -> res R) l : (forall x, In x l -> g x = rmap aa (f x)) -> mapM g l = rmap (map aa) (mapM f l).
Proof. intro H. rewrite (mapM_ext g (fun x => rmap aa (f x))) by exact H. apply mapM_rmap. Qed.

(** ** monthly analysis *)
Definition months_times (m : list R * list R * list R * list Z) : list R * list R * list R * list Z :=
  let '(ts, ps, avs, ds) := m in (map aa ts, map aa ps, map aa avs, ds).
Lemma split_body_times l s dm : split_body (map aa l) (fst s, months_times (snd s)) dm = rmap (fun s => (fst s, months_times (snd s))) (split_body l s dm).
Proof.
  destruct s as (prev, (((ts, ps), avs), ds)). unfold split_body, months_times. cbn [fst snd]. cbv zeta. rewrite py_slice_map, zlen_times.
  set (ml := py_slice l _ _). destruct (assert_ _); [|reflexivity]. cbn [bind]. rewrite (max_scaled a Ha). destruct (nmaxl ml) as [pk|]; [|reflexivity]. cbn [rmap bind].
  rewrite nsum_times, (pydiv_one a). destruct (pydiv _ _) as [av|]; [|reflexivity]. cbn [rmap bind]. rewrite py_index_times.
  destruct (py_index pk ml); [|reflexivity]. cbn [rmap bind fst snd]. now rewrite !map_app.
Qed.
Lemma split_month_times year l : split_load_by_month year (map aa l) = rmap months_times (split_load_by_month year l).
Proof.
  unfold split_load_by_month. cbv zeta.
  pose proof (MirrorProofs.foldM_rmap (split_body l) (split_body (map aa l)) (fun s => (fst s, months_times (snd s))) (fun i => i) (months_of year) (fun s i _ => split_body_times l s i)
    (0%Z, ([nofZ 0], [nofZ 0], [nofZ 0], [0%Z]))) as E. rewrite map_id in E. cbn [fst snd months_times map] in E. rewrite map_0 in E. rewrite E.
  match goal with |- context [rmap _ ?x] => destruct x end; reflexivity.
Qed.
Lemma two_day_times year ds l : process_two_day_loads year (map aa l) ds = rmap (map (map aa)) (process_two_day_loads year l ds).
Proof.
  unfold process_two_day_loads. cbv zeta. rewrite zlen_times, !py_slice_map, <- !map_app. set (hl := py_slice l _ _ ++ _).
  pose proof (MirrorProofs.foldM_rmap (two_day_body year ds hl) (two_day_body year ds (map aa hl)) (fun s => (fst s, map (map aa) (snd s))) (fun i => i) (zrange 1 13)) as E.
  rewrite map_id in E. specialize (E ltac:(
    intros (prev, acc) i _; unfold two_day_body; cbn [fst snd]; destruct (py_nth ds i); [|reflexivity]; cbn [bind]; cbv zeta; rewrite py_slice_map, zlen_times;
    do 2 (destruct (assert_ _); [|reflexivity]; cbn [bind]); cbn [rmap fst snd]; now rewrite map_app) (24%Z, [[nofZ 0]])).
  cbn [fst snd map] in E. rewrite map_0 in E. rewrite E. match goal with |- context [rmap _ ?x] => destruct x end; reflexivity.
Qed.

(** ** peak durations *)
Variable gt : R -> res R.
Variables k Rb : R.
Lemma hourly_step_times ht q n : hourly_step gt k Rb ht (map aa q) n = rmap aa (hourly_step gt k Rb ht q n).
Proof.
  unfold hourly_step. cbv zeta. rewrite bind_rmap. f_equal. extensionality tn. rewrite bind_rmap. f_equal. extensionality gv.
  rewrite diffs_times, py_slice_map, mapM_map, (mapM_times (fun d => pydiv d k)) by (intros; apply (pydiv_one a)). rewrite rmap_bind, bind_rmap. f_equal. extensionality sc.
  rewrite (py_nth_map aa), rmap_bind, bind_rmap. f_equal. extensionality qn. cbn [rmap]. f_equal. rewrite dot_times. cbn. ring.
Qed.
Lemma simulate_hourly_times ht q : simulate_hourly gt k Rb ht (map aa q) = rmap (map aa) (simulate_hourly gt k Rb ht q).
Proof.
  unfold simulate_hourly. rewrite (mapM_times (hourly_step gt k Rb ht q)) by (intros; apply hourly_step_times). rewrite rmap_bind, bind_rmap. f_equal. extensionality r.
  cbn [rmap map]. now rewrite map_0.
Qed.
Lemma nominal_times td pk av : nominal_profile (map aa td) (a * pk) (a * av) = rmap (map aa) (nominal_profile td pk av).
Proof.
  unfold nominal_profile.
  rewrite (mapM_times (fun i => let! l := py_nth td i in let! r := pydiv (nsub l av) pk in Ok (nmul r l))).
  - rewrite rmap_bind, bind_rmap. f_equal. extensionality q. cbn [rmap map]. now rewrite map_0.
  - intros i _. rewrite (py_nth_map aa), rmap_bind, bind_rmap. f_equal. extensionality l.
    replace (nsub (a * l) (a * av)) with (a * nsub l av) by (cbn; ring). rewrite (pydiv_both a Ha), bind_rmap. f_equal. extensionality r. cbn. f_equal. ring.
Qed.
Lemma peak_profile_times pk av : peak_profile (a * pk) (a * av) = map aa (peak_profile pk av).
Proof.
  unfold peak_profile, py_repeat. cbn [map]. rewrite map_0. f_equal. replace (nsub (a * pk) (a * av)) with (a * nsub pk av) by (cbn; ring).
  generalize (Z.to_nat 48). induction n as [|n IH]; [reflexivity|]. cbn [repeat map]. now rewrite IH.
Qed.
Notation fst_times := (fun p : R * R => (a * fst p, snd p)).
Lemma insert_times p l : insert_pt (fst_times p) (map fst_times l) = map fst_times (insert_pt p l).
Proof. induction l as [|q l IH]; [reflexivity|]. cbn [map insert_pt fst]. rewrite (nle_both a Ha). destruct (nle (fst p) (fst q)); [reflexivity|]. cbn [map]. now rewrite IH. Qed.
Lemma interp_sorted_times l v : interp_sorted (map fst_times l) (a * v) = interp_sorted l v.
Proof.
  induction l as [|p l IH]; [reflexivity|]. destruct l as [|q l].
  - cbn [map interp_sorted fst snd]. now rewrite neqb_times.
  - cbn [map]. rewrite !interp_cons2. cbn [fst snd]. rewrite !(nle_both a Ha). change ((a * fst q, snd q) :: map fst_times l) with (map fst_times (q :: l)). rewrite IH.
    destruct (nle (fst q) v); [reflexivity|]. destruct (nle (fst p) v); [|reflexivity].
    replace (nsub (a * fst q) (a * fst p)) with (a * nsub (fst q) (fst p)) by (cbn; ring).
    unfold pydiv. rewrite nis0_times. destruct (nis0 (nsub (fst q) (fst p))) eqn:E0; [reflexivity|]. cbn [bind]. f_equal. cbn in *.
    destruct (Req_EM_T (fst q - fst p) 0); [discriminate|]. field. split; lra.
Qed.
Lemma interp1d_times x y v : interp1d (map aa x) y (a * v) = interp1d x y v.
Proof.
  unfold interp1d. rewrite <- (interp_sorted_times _ v). f_equal. revert y. induction x as [|u x IH]; intros [|w y]; try reflexivity. cbn [map combine fold_right]. rewrite IH.
  apply (insert_times (u, w)).
Qed.
Definition month_times (r : R * list R * list R) : R * list R * list R := let '(d, pk, nm) := r in (d, map aa pk, map aa nm).
Lemma perform_times td pk av : perform_current_month_simulation gt k Rb (map aa td) (a * pk) (a * av) = rmap month_times (perform_current_month_simulation gt k Rb td pk av).
Proof.
  unfold perform_current_month_simulation. rewrite nominal_times, rmap_bind, bind_rmap. f_equal. extensionality qn.
  rewrite peak_profile_times, simulate_hourly_times, rmap_bind, bind_rmap. f_equal. extensionality p. rewrite simulate_hourly_times, rmap_bind, bind_rmap. f_equal. extensionality nm.
  rewrite (max_scaled a Ha), rmap_bind, bind_rmap. f_equal. extensionality mx. rewrite nlt0_times, interp1d_times, bind_rmap. f_equal.
Qed.
(** the tolerance does not decide differently *)
Definition alike (td : list (list R)) (ps : list R) (i : Z) : Prop :=
  forall w p, py_nth td i = Ok w -> py_nth ps i = Ok p -> current_peak (a * p) (map aa (nofZ 0 :: w)) = rmap aa (current_peak p (nofZ 0 :: w)).
Definition durations_times (s : list (list R) * list (list R) * list R) : list (list R) * list (list R) * list R :=
  let '(pk, nm, ds) := s in (map (map aa) pk, map (map aa) nm, ds).
Lemma durations_body_times td ps avs s i : alike td ps i ->
  durations_body gt k Rb (map (map aa) td) (map aa ps) (map aa avs) (durations_times s) i = rmap durations_times (durations_body gt k Rb td ps avs s i).
Proof.
  intro Al. destruct s as ((pk, nm), ds). unfold durations_body, durations_times. rewrite (py_nth_map (map aa)). destruct (py_nth td i) as [w|] eqn:Ew; [|reflexivity]. cbn [rmap bind].
  rewrite (py_nth_map aa). destruct (py_nth ps i) as [p|] eqn:Ep; [|reflexivity]. cbn [rmap bind]. cbv zeta.
  replace (nofZ 0 :: map aa w) with (map aa (nofZ 0 :: w)) by (cbn [map]; now rewrite map_0). rewrite (Al w p Ew Ep).
  destruct (current_peak p (nofZ 0 :: w)) as [pp|]; [|reflexivity]. cbn [rmap bind]. rewrite (py_nth_map aa). destruct (py_nth avs i) as [av|]; [|reflexivity]. cbn [rmap bind].
  rewrite nis0_times. destruct (nis0 pp); [reflexivity|]. rewrite perform_times.
  destruct (perform_current_month_simulation gt k Rb (nofZ 0 :: w) pp av) as [((d, x), y)|]; [|reflexivity]. cbn [rmap bind month_times]. now rewrite !map_app.
Qed.
Lemma durations_ok td ps avs : (forall i, (1 <= i <= 12)%Z -> alike td ps i) ->
  find_peak_durations gt k Rb (map (map aa) td) (map aa ps) (map aa avs) = rmap durations_times (find_peak_durations gt k Rb td ps avs).
Proof.
  intro Al. unfold find_peak_durations.
  pose proof (MirrorProofs.foldM_rmap (durations_body gt k Rb td ps avs) (durations_body gt k Rb (map (map aa) td) (map aa ps) (map aa avs)) durations_times (fun i => i) (zrange 1 13)) as E.
  rewrite map_id in E. specialize (E ltac:(intros s i Hi; apply in_zrange in Hi; apply durations_body_times; apply Al; lia) ([[nofZ 0]], [[nofZ 0]], [nofZ 0])).
  cbn [durations_times map] in E. rewrite map_0 in E. exact E.
Qed.
Definition loads_times (ld : loads R) : loads R :=
  {| ld_hourly := map aa (ld_hourly ld); ld_total := map aa (ld_total ld); ld_peak := map aa (ld_peak ld); ld_average := map aa (ld_average ld); ld_peak_day := ld_peak_day ld;
     ld_two_day := map (map aa) (ld_two_day ld); ld_temps_pk := map (map aa) (ld_temps_pk ld); ld_temps_nm := map (map aa) (ld_temps_nm ld); ld_duration := ld_duration ld |}.
Lemma make_loads_times year l :
  (forall ts ps avs ds td, split_load_by_month year l = Ok (ts, ps, avs, ds) -> process_two_day_loads year l ds = Ok td -> forall i, (1 <= i <= 12)%Z -> alike td ps i) ->
  make_loads gt k Rb year (map aa l) = rmap loads_times (make_loads gt k Rb year l).
Proof.
  intro Al. unfold make_loads. rewrite zlen_times. destruct (assert_ _); [|reflexivity]. cbn [bind]. rewrite split_month_times.
  destruct (split_load_by_month year l) as [(((ts, ps), avs), ds)|] eqn:Es; [|reflexivity]. cbn [rmap bind months_times]. rewrite two_day_times.
  destruct (process_two_day_loads year l ds) as [td|] eqn:Et; [|reflexivity]. cbn [rmap bind]. rewrite durations_ok by (intros; eapply Al; eauto).
  destruct (find_peak_durations gt k Rb td ps avs) as [((pk, nm), d)|]; reflexivity.
Qed.

Lemma close_call_alike l ts ps avs ds td i : zlen l = (24 * days_in_year 2019)%Z -> (forall x, In x l -> 0 <= x) -> no_close_call a l ->
  split_load_by_month 2019 l = Ok (ts, ps, avs, ds) -> process_two_day_loads 2019 l ds = Ok td -> (1 <= i <= 12)%Z -> alike td ps i.
Proof.
  intros L Pos NC Es Et Hi w p Ew Ep.
  destruct (C37_monthly_analysis 2019 l L) as (ts1 & ps1 & avs1 & ds1 & Es1 & _ & Lp & _ & _ & M & _). assert (ps1 = ps) as -> by congruence.
  destruct (C39_two_day_window 2019 l ts ps avs ds L Es) as (td1 & Et1 & Lt & T). assert (td1 = td) as -> by (apply Ok_inj; now rewrite <- Et1).
  destruct (M i Hi) as (p1 & _ & Np & Mp & _). destruct (T i Hi) as (w1 & start & n & m & Nw & Tw & _ & Mm & _ & Sm & Nm).
  assert (w1 = w) as ->. { apply py_nth_nonneg in Ew; [congruence|lia]. }
  assert (p1 = p) as ->. { apply py_nth_nonneg in Ep; [congruence|lia]. }
  assert (m = p) as ->. { destruct Mm as (I1 & U1), Mp as (I2 & U2). apply Rle_antisym; auto. }
  assert (Wl : forall x, In x w -> In x l).
  { intros x Hx. apply In_nth_error in Hx. destruct Hx as (j & Hj). destruct Tw as (Lw & Tw). assert (j < 48)%nat by (rewrite <- Lw; apply nth_error_Some; congruence).
    specialize (Tw (Z.of_nat j) ltac:(lia)). rewrite Nat2Z.id, Hj in Tw. symmetry in Tw. exact (nth_error_In _ _ Tw). }
  assert (Ip : In p w) by exact (nth_error_In _ _ Nm).
  unfold current_peak. rewrite (max_scaled a Ha). destruct (nmaxl_total (nofZ 0 :: w) ltac:(discriminate)) as (y & Ey & My). rewrite Ey. cbn [rmap bind].
  assert (Yw : is_max y w).
  { destruct My as ([Y0|Iy] & Uy).
    - split; [|intros x Hx; apply Uy; now right]. assert (p = y) as <-; [|exact Ip]. apply Rle_antisym; [apply Uy; now right|]. rewrite <- Y0. cbn. apply Pos, Wl, Ip.
    - split; [exact Iy|intros x Hx; apply Uy; now right]. }
  assert (Le : p <= y) by (apply Yw; exact Ip).
  destruct (NC i start w p y Hi Sm Tw Mp Ip Yw) as [->|Eq].
  - destruct (nlt _ _), (nlt _ _); reflexivity.
  - replace (nsub (a * p) (a * y)) with (a * (p - y)) by (cbn; ring). cbn.
    rewrite (Rabs_left1 (p - y)), (Rabs_left1 (a * (p - y))) by (pose proof (Rmult_le_compat_l a (p - y) 0 ltac:(lra) ltac:(lra)); lra).
    replace (- (a * (p - y))) with (a * (y - p)) by ring. replace (- (p - y)) with (y - p) by ring. unfold nlit. cbn.
    destruct (Rlt_dec (a * (y - p)) (1 / 10)), (Rlt_dec (y - p) (1 / 10)); try reflexivity; tauto.
Qed.
Lemma make_loads_proportional l : (forall x, In x l -> 0 <= x) -> no_close_call a l -> make_loads gt k Rb 2019 (map aa l) = rmap loads_times (make_loads gt k Rb 2019 l).
Proof.
  intros Pos NC. destruct (Z.eq_dec (zlen l) (24 * days_in_year 2019)) as [L|L].
  - apply make_loads_times. intros. eapply close_call_alike; eassumption.
  - rewrite !make_loads_wrong_length; [reflexivity|exact L|now rewrite zlen_times].
Qed.

(** ** the load sequence *)
Definition load_times (s : list R * list R) : list R * list R := (map aa (fst s), snd s).
Lemma month_rate_times cl hl mi b : month_rate (loads_times cl) (loads_times hl) mi b = rmap (fun p => (a * fst p, snd p)) (month_rate cl hl mi b).
Proof.
  unfold month_rate, peak_energy. cbn [ld_total ld_peak ld_peak_day ld_duration loads_times]. rewrite bind_rmap. f_equal. extensionality md.
  rewrite (py_nth_map aa), rmap_bind, bind_rmap. f_equal. extensionality tc. rewrite (py_nth_map aa), rmap_bind, bind_rmap. f_equal. extensionality th. destruct b.
  - rewrite bind_rmap. f_equal. extensionality dc. rewrite bind_rmap. f_equal. extensionality dh. cbv zeta. rewrite !(py_nth_map aa).
    destruct (py_nth (ld_peak cl) mi) as [pc|]; [|reflexivity]. cbn [rmap bind]. destruct (py_nth (ld_duration cl) mi) as [dc'|]; [|reflexivity]. cbn [bind].
    destruct (py_nth (ld_peak hl) mi) as [ph|]; [|reflexivity]. cbn [rmap bind]. destruct (py_nth (ld_duration hl) mi) as [dh'|]; [|reflexivity]. cbn [bind].
    replace (nadd (nsub (nsub (a * tc) (a * th)) (nmul (a * pc) dc')) (nmul (a * ph) dh')) with (a * nadd (nsub (nsub tc th) (nmul pc dc')) (nmul ph dh')) by (cbn; ring).
    rewrite (pydiv_one a), rmap_bind, bind_rmap. f_equal. extensionality r. rewrite bind_rmap. f_equal. extensionality x. rewrite bind_rmap. f_equal.
  - replace (nsub (a * tc) (a * th)) with (a * nsub tc th) by (cbn; ring). rewrite (pydiv_one a), rmap_bind, bind_rmap. f_equal.
Qed.
Lemma place_loads_times b mi i (order : list (loads R * R)) rate s :
  place_loads b mi i (map (fun o => (loads_times (fst o), snd o)) order) (a * rate) (load_times s) = rmap load_times (place_loads b mi i order rate s).
Proof.
  unfold place_loads. rewrite (MirrorProofs.foldM_rmap (fun s (o : loads R * R) => let (load, hour) := s : list R * list R in
                     let! p := py_nth (ld_peak (fst o)) mi in
                     if nlt (nofZ 0) p && b then let! r := peak_hour_range (fst o) mi i in Ok (load ++ [rate; nmul (snd o) p], hour ++ [fst r; snd r])
                     else Ok (load, hour))).
  - match goal with |- context [rmap load_times ?x] => destruct x as [s'|] end; [|reflexivity]. cbn [rmap bind]. destruct (lastmonthhour i); [|reflexivity]. cbn [rmap bind]. unfold load_times. cbn [fst snd].
    now rewrite map_app.
  - intros (load, hour) o _. unfold load_times. cbn [fst snd ld_peak loads_times]. rewrite (py_nth_map aa). destruct (py_nth (ld_peak (fst o)) mi) as [p|]; [|reflexivity]. cbn [rmap bind].
    rewrite nlt0_times. destruct (_ && _); [|reflexivity].
    change (peak_hour_range (loads_times (fst o)) mi i) with (peak_hour_range (fst o) mi i).
    destruct (peak_hour_range _ _ _); [|reflexivity]. cbn [bind rmap fst snd]. rewrite map_app. cbn [map]. do 5 f_equal. cbn. ring.
Qed.
Lemma month_body_times cl hl s e x i : month_body (loads_times cl) (loads_times hl) s e (load_times x) i = rmap load_times (month_body cl hl s e x i).
Proof.
  unfold month_body. cbv zeta. rewrite month_rate_times.
  destruct (month_rate cl hl _ _) as [(rate, diff)|]; [|reflexivity]. cbn [rmap bind fst snd].
  destruct (diff <? 0)%Z; [rewrite <- place_loads_times; reflexivity|]. destruct (0 <? diff)%Z; [rewrite <- place_loads_times; reflexivity|].
  destruct (lastmonthhour i); [|reflexivity]. cbn [bind rmap]. unfold load_times. cbn [fst snd]. now rewrite map_app.
Qed.
Lemma process_times cl hl s e :
  (let! p := process_monthly_loads (loads_times cl) (loads_times hl) s e in Ok (fst p)) = rmap load_times (let! p := process_monthly_loads cl hl s e in Ok (fst p)).
Proof.
  unfold process_monthly_loads. destruct (firstmonthhour s) as [f|]; [|reflexivity]. cbn [bind].
  pose proof (MirrorProofs.foldM_rmap (month_body cl hl s e) (month_body (loads_times cl) (loads_times hl) s e) load_times (fun i => i) (zrange s (e + 1)) (fun x i _ => month_body_times cl hl s e x i)
    ([nofZ 0; nofZ 0], [nofZ 0; nofZ (f - 1)])) as E.
  rewrite map_id in E. unfold load_times at 1 in E. cbn [fst snd map] in E. rewrite map_0 in E.
  rewrite E. clear E. match goal with |- context [rmap load_times ?x] => destruct x as [(l, h)|] end; reflexivity.
Qed.
End Times.

Lemma split_times a l : 0 < a -> split_heat_and_cool (map (Rmult a) l) unit_W = Ok (map (Rmult a) (rejection l), map (Rmult a) (extraction l)) /\ split_heat_and_cool l unit_W = Ok (rejection l, extraction l).
Proof.
  intro Ha.
  assert (E : forall l, split_heat_and_cool l unit_W = Ok (rejection l, extraction l)).
  { clear. intro l. unfold split_heat_and_cool, unit_scale. cbn [bind].
    rewrite (mapM_pure (fun x : R => if nle (nofZ 0) x then pydiv x (nofZ 1000) else Ok (nofZ 0)) (fun x => if Rle_dec 0 x then x / 1000 else 0) l).
    2:{ intros x _. cbn. destruct (Rle_dec 0 x); [|reflexivity]. unfold pydiv. cbn. destruct (Req_EM_T 1000 0); [lra|reflexivity]. }
    rewrite (mapM_pure (fun x : R => if nle (nofZ 0) x then Ok (nofZ 0) else pydiv x (nsub (nofZ 0) (nofZ 1000))) (fun x => if Rle_dec 0 x then 0 else x / - 1000) l).
    2:{ intros x _. cbn. destruct (Rle_dec 0 x); [reflexivity|]. unfold pydiv. cbn. destruct (Req_EM_T (0 - 1000) 0); [lra|]. f_equal. f_equal. lra. }
    reflexivity. }
  split; [|apply E]. rewrite E. unfold rejection, extraction. rewrite !map_map.
  assert (D : forall x, 0 <= x <-> 0 <= a * x).
  { intro x. split; intro H; [apply Rmult_le_pos; lra|]. apply Rmult_le_reg_l with a; lra. }
  f_equal. f_equal; apply map_ext; intro x; specialize (D x); destruct (Rle_dec 0 (a * x)), (Rle_dec 0 x); try tauto; try lra; field.
Qed.
Lemma rejection_nonneg l x : In x (rejection l) -> 0 <= x.
Proof. unfold rejection. intro H. apply in_map_iff in H. destruct H as (y & <- & _). destruct (Rle_dec 0 y); lra. Qed.
Lemma extraction_nonneg l x : In x (extraction l) -> 0 <= x.
Proof. unfold extraction. intro H. apply in_map_iff in H. destruct H as (y & <- & _). destruct (Rle_dec 0 y); lra. Qed.

Section Proportion.
Variable h_circular : R -> R -> R -> R -> R -> R -> R -> R.
Variable h_annulus : R -> R -> R -> R -> R -> R -> R -> R -> R * R.
Variable r_conduction : R -> R -> R -> R.
Variable eff_u : R -> pg_u -> R -> R -> R.
Variable eff_c : R -> pg_c -> R -> R -> R.
Variable brentq : (R -> res R) -> R -> R -> list R * res R.
Variable solver : list R -> list R -> list R -> list R -> list R.
Variable interp : ikind -> list (R * R) -> R -> R.
Variable field_response : R -> list (R * R) -> R -> R -> R -> res (list R).
Variable dlg : R -> R -> dialogue.
Variable a : R.
Hypothesis Ha : 0 < a.
Variable st : settings.
Hypothesis clear_rejection : no_close_call a (rejection (st_loads st)).
Hypothesis clear_extraction : no_close_call a (extraction (st_loads st)).
Hypothesis same_dlg : forall lo hi, same_questions a (dlg lo hi) (dlg lo hi).
Notation aa := (Rmult a).
Notation u := (st_ugt st).
Notation W := (proportional_ghe a u).
Notation ws := (proportional a st).
Notation ssim := (ghe_simulate h_circular h_annulus r_conduction eff_u eff_c brentq solver interp).
Notation lobj := (local_objective h_circular h_annulus r_conduction eff_u eff_c brentq solver interp).
Notation conv := (converse h_circular h_annulus r_conduction eff_u eff_c brentq solver interp).
Notation gsize := (ghe_size h_circular h_annulus r_conduction eff_u eff_c brentq solver interp).

Lemma hybrid_load_times H e ts sts :
  hybrid_load eff_u ws H e ts sts (map aa (rejection (st_loads st))) (map aa (extraction (st_loads st))) =
  rmap (load_times a) (hybrid_load eff_u st H e ts sts (rejection (st_loads st)) (extraction (st_loads st))).
Proof.
  unfold hybrid_load. cbv zeta. change (st_soil_k ws) with (st_soil_k st). change (st_start ws) with (st_start st). change (st_end ws) with (st_end st).
  rewrite !(make_loads_proportional a Ha) by (assumption || apply rejection_nonneg || apply extraction_nonneg).
  destruct (make_loads _ _ _ 2019 (rejection _)) as [cl|]; [|reflexivity]. cbn [rmap bind].
  destruct (make_loads _ _ _ 2019 (extraction _)) as [hl|]; [|reflexivity]. cbn [rmap bind].
  apply (process_times a Ha).
Qed.

(** ** simulation *)
Lemma detailed_step_times g H k Tg Rb m cp Q t dt i :
  detailed_step g H k Tg Rb m cp (map aa Q) t (map aa dt) i = rmap (fun p => (Tg + a * (fst p - Tg), a * snd p)) (detailed_step g H k Tg Rb m cp Q t dt i).
Proof.
  unfold detailed_step. cbv zeta. rewrite ?bind_rmap. f_equal. extensionality ti. rewrite ?bind_rmap. f_equal. extensionality gv.
  rewrite py_slice_map, mapM_map.
  rewrite (mapM_ext _ (fun x => rmap aa (let! x := pydiv x H in pydiv x k)))
    by (intros x _; rewrite (pydiv_one a); destruct (pydiv x H); [cbn [rmap bind]; apply (pydiv_one a)|reflexivity]).
  rewrite mapM_rmap, rmap_bind, ?bind_rmap. f_equal. extensionality sc. rewrite (py_nth_map aa), rmap_bind, ?bind_rmap. f_equal. extensionality q.
  rewrite (pydiv_one a), rmap_bind, ?bind_rmap. f_equal. extensionality qh. rewrite (pydiv_one a), rmap_bind, ?bind_rmap. f_equal. extensionality x. cbn [rmap fst snd].
  rewrite (dot_times a). do 2 f_equal. cbn. ring.
Qed.
Notation away Tg := (fun t => Tg + a * (t - Tg)).
Lemma away_lt Tg x y : nlt (Tg + a * (x - Tg)) (Tg + a * (y - Tg)) = nlt x y.
Proof.
  cbn. destruct (Rlt_dec x y) as [h|h], (Rlt_dec (Tg + a * (x - Tg)) (Tg + a * (y - Tg))) as [h'|h']; try reflexivity; exfalso.
  - apply h'. assert (a * (x - Tg) < a * (y - Tg)) by (apply Rmult_lt_compat_l; lra). lra.
  - assert (a * (y - Tg) <= a * (x - Tg)) by (apply Rmult_le_compat_l; lra). lra.
Qed.
Lemma fold_nmax_away Tg l x : fold_left nmax (map (away Tg) l) (Tg + a * (x - Tg)) = Tg + a * (fold_left nmax l x - Tg).
Proof. revert x. induction l as [|b l IH]; intro x; [reflexivity|]. cbn [map fold_left]. rewrite <- IH. f_equal. unfold nmax. rewrite away_lt. now destruct (nlt x b). Qed.
Lemma fold_nmin_away Tg l x : fold_left nmin (map (away Tg) l) (Tg + a * (x - Tg)) = Tg + a * (fold_left nmin l x - Tg).
Proof. revert x. induction l as [|b l IH]; intro x; [reflexivity|]. cbn [map fold_left]. rewrite <- IH. f_equal. unfold nmin. rewrite away_lt. now destruct (nlt b x). Qed.
Lemma simulated_loads_times m x y (hourly load hour : list R) :
  simulated_loads m x y (map aa hourly) (map aa load) hour = rmap (load_times a) (simulated_loads m x y hourly load hour).
Proof.
  destruct m; [|cbn [simulated_loads]|reflexivity].
  - cbn [simulated_loads rmap]. unfold load_times. cbn [fst snd]. rewrite skipn_map, !map_map. do 2 f_equal. apply map_ext. intro z. cbn. ring.
  - cbv zeta. rewrite ?bind_rmap. f_equal. extensionality y0. rewrite ?bind_rmap. f_equal. extensionality n. rewrite ?bind_rmap. f_equal. extensionality q. rewrite ?bind_rmap. f_equal.
    extensionality ny. cbn [rmap]. unfold load_times. cbn [fst snd]. do 2 f_equal. unfold list_times, py_repeat. rewrite map_map.
    assert (E : forall n, concat (repeat (map aa hourly) n) = map aa (concat (repeat hourly n))) by (induction n0 as [|n0 IH]; [reflexivity|]; cbn [repeat concat]; now rewrite map_app, IH).
    rewrite E, map_map. apply map_ext. intro z. cbn. ring.
Qed.
Lemma simulate_times g n H k Tg Rb m cp mt x y hourly load hour :
  simulate g n H k Tg Rb m cp mt x y (map aa hourly) (map aa load) hour =
  rmap (fun r => let '(T, D, mx, mn) := r in (map (away Tg) T, map aa D, Tg + a * (mx - Tg), Tg + a * (mn - Tg))) (simulate g n H k Tg Rb m cp mt x y hourly load hour).
Proof.
  unfold simulate. rewrite simulated_loads_times, rmap_bind, ?bind_rmap. f_equal. extensionality qt. unfold load_times. cbn [fst snd].
  assert (E : simulate_detailed g n H k Tg Rb m cp (map aa (fst qt)) (snd qt) =
              rmap (fun r => (map (away Tg) (fst r), map aa (snd r))) (simulate_detailed g n H k Tg Rb m cp (fst qt) (snd qt))).
  { unfold simulate_detailed. cbv zeta. replace (zlen (map aa (fst qt))) with (zlen (fst qt)) by (unfold zlen; now rewrite map_length).
    rewrite ?bind_rmap. f_equal. extensionality v. rewrite mapM_map, (mapM_ext _ (fun x => rmap aa (pydiv x n))) by (intros; apply (pydiv_one a)).
    rewrite mapM_rmap, rmap_bind. rewrite ?bind_rmap. f_equal. extensionality q.
    replace (nofZ 0 :: map aa q) with (map aa (nofZ 0 :: q)) by (cbn [map]; f_equal; cbn; lra). rewrite (diffs_times a).
    rewrite (mapM_ext _ (fun i => rmap (fun p => (Tg + a * (fst p - Tg), a * snd p)) (detailed_step g H k Tg Rb m cp (nofZ 0 :: q) (nofZ 0 :: snd qt) (diffs (nofZ 0 :: q)) i)))
      by (intros i _; apply detailed_step_times).
    rewrite mapM_rmap, rmap_bind, bind_rmap. f_equal. extensionality l. cbn [rmap fst snd]. now rewrite !map_map. }
  rewrite E, rmap_bind, bind_rmap. f_equal. extensionality r. destruct r as (T, D). cbn [fst snd]. destruct T as [|z T]; [reflexivity|].
  cbn [map nmaxl nminl bind rmap]. now rewrite fold_nmax_away, fold_nmin_away.
Qed.
Definition enlarge (p : R * R) : R * R := (u + a * (fst p - u), u + a * (snd p - u)).
Lemma ghe_simulate_times m s : ssim ws m (W s) = (W (fst (ssim st m s)), rmap enlarge (snd (ssim st m s))).
Proof.
  unfold ghe_simulate. change (gh_B (W s)) with (gh_B s). change (gh_H (W s)) with (gh_H s). change (gh_bhe (W s)) with (gh_bhe s).
  change (gh_gf (W s)) with (gh_gf s).
  destruct (pydiv (gh_B s) (gh_H s)) as [q|]; [|reflexivity]. cbn [gh_bhe with_bhe].
  destruct (compute_equivalent _ _ _ _ _ _) as [e|]; [|reflexivity].
  change (short_time eff_u solver ws) with (short_time eff_u solver st).
  destruct (short_time _ _ _ _ _) as [r|]; [|reflexivity].
  cbn [gh_gf gh_sts with_short_time with_eq with_bhe]. change (st_rb ws) with (st_rb st). change (gh_gf (W s)) with (gh_gf s).
  destruct (grab_g_function _ _ _ _ _ _) as (t, [c|]); [|reflexivity].
  cbn [gh_nbh gh_ts gh_bhe gh_load gh_hour with_gf with_short_time with_eq with_bhe proportional_ghe].
  change (st_ugt ws) with u. change (st_soil_k ws) with (st_soil_k st). change (st_fluid ws) with (st_fluid st).
  change (st_start ws) with (st_start st). change (st_end ws) with (st_end st). change (st_loads ws) with (map aa (st_loads st)).
  rewrite simulate_times. destruct (simulate _ _ _ _ _ _ _ _ _ _ _ _ _ _) as [(((T, D), mx), mn)|]; reflexivity.
Qed.
Lemma excess_enlarged r : excess ws (rmap enlarge r) = rmap aa (excess st r).
Proof.
  destruct r as [(x, y)|]; [|reflexivity]. unfold excess, cost, enlarge. cbn [rmap bind fst snd]. f_equal.
  change (st_max_EFT ws) with (u + a * (st_max_EFT st - u)). change (st_min_EFT ws) with (u + a * (st_min_EFT st - u)).
  replace (nsub (u + a * (x - u)) (u + a * (st_max_EFT st - u))) with (a * nsub x (st_max_EFT st)) by (cbn; ring).
  replace (nsub (u + a * (st_min_EFT st - u)) (u + a * (y - u))) with (a * nsub (st_min_EFT st) y) by (cbn; ring).
  unfold nmax. rewrite (nlt_both a Ha). now destruct (nlt _ _).
Qed.
Notation both_times := (fun p : ghe * res R => (W (fst p), rmap aa (snd p))).
Lemma local_objective_times m s H : lobj ws m (W s) H = both_times (lobj st m s H).
Proof.
  unfold local_objective. change (with_H (W s) H) with (W (with_H s H)). rewrite ghe_simulate_times.
  destruct (ssim st m (with_H s H)) as (s', r). cbn [fst snd]. now rewrite excess_enlarged.
Qed.
Lemma converse_times m dd dd' : same_questions a dd dd' -> forall s, conv ws m dd' (W s) = both W (conv st m dd s).
Proof.
  induction 1 as [r|x next next' _ IH]; intro s; [reflexivity|]. cbn [converse]. rewrite local_objective_times.
  destruct (lobj st m s x) as (s', [v|]); [|reflexivity]. cbn [fst snd rmap]. apply IH.
Qed.
Lemma sign_of_times v : sign_of (a * v) = sign_of v.
Proof.
  unfold sign_of. replace (nabs (a * v)) with (a * nabs v); [now rewrite (pydiv_both a Ha)|]. cbn. rewrite Rabs_mult, (Rabs_pos_eq a) by lra. reflexivity.
Qed.
Lemma ghe_size_times m s : gsize ws dlg m (W s) = both W (gsize st dlg m s).
Proof.
  unfold ghe_size. change (st_min_H ws) with (st_min_H st). change (st_max_H ws) with (st_max_H st).
  destruct (pydiv _ _) as [g|]; [|reflexivity]. change (with_H (W s) g) with (W (with_H s g)). rewrite local_objective_times.
  destruct (lobj st m (with_H s g) (st_min_H st)) as (s1, [x|]); [|reflexivity]. cbn [fst snd rmap]. rewrite local_objective_times.
  destruct (lobj st m s1 (st_max_H st)) as (s2, [b|]); [|reflexivity]. cbn [fst snd rmap]. rewrite !sign_of_times.
  destruct (bind (sign_of x) _) as [(v, w)|]; [|reflexivity]. destruct (negb _); [|reflexivity].
  rewrite (converse_times m _ _ (same_dlg (st_min_H st) (st_max_H st))).
  now destruct (conv st m (dlg (st_min_H st) (st_max_H st)) s2) as (s3, [c|]).
Qed.

(** ** the program *)
Variable flow : flow_kind.
Variable V_flow : R.
Variable log_time : list R.
Notation rdy := (ready h_circular h_annulus r_conduction eff_u eff_c brentq solver field_response).
Notation sup := (size_up h_circular h_annulus r_conduction eff_u eff_c brentq solver interp field_response dlg).

Lemma ready_times c H : rdy ws flow V_flow log_time c H = rmap W (rdy st flow V_flow log_time c H).
Proof.
  unfold ready, System.initialize_ghe. rewrite ?bind_rmap. change (st_fluid ws) with (st_fluid st). f_equal. extensionality fl.
  rewrite ?bind_rmap. change (st_rb ws) with (st_rb st). f_equal. extensionality B. rewrite ?bind_rmap.
  change (st_D ws) with (st_D st). f_equal. extensionality gf. unfold make_ghe. cbv zeta. change (st_fluid ws) with (st_fluid st).
  rewrite ?bind_rmap. f_equal. extensionality f2. rewrite ?bind_rmap.
  change (make_bhe h_circular h_annulus r_conduction ws) with (make_bhe h_circular h_annulus r_conduction st). f_equal. extensionality b.
  rewrite ?bind_rmap. f_equal. extensionality e. rewrite ?bind_rmap.
  change (short_time eff_u solver ws) with (short_time eff_u solver st). f_equal. extensionality r.
  change (st_loads ws) with (map aa (st_loads st)). destruct (split_times a (st_loads st) Ha) as (-> & ->). cbn [bind fst snd].
  rewrite hybrid_load_times, rmap_bind. destruct (hybrid_load _ _ _ _ _ _ _ _) as [lh|]; reflexivity.
Qed.
Lemma compute_g_functions_times s : compute_g_functions field_response ws (W s) = rmap W (compute_g_functions field_response st s).
Proof. unfold compute_g_functions. rewrite ?bind_rmap. f_equal. extensionality hs. rewrite ?bind_rmap. f_equal. Qed.
Lemma size_up_times m s : sup ws m (W s) = rmap W (sup st m s).
Proof.
  unfold size_up. rewrite compute_g_functions_times, rmap_bind, bind_rmap. f_equal. extensionality s1. rewrite ghe_size_times.
  now destruct (gsize st dlg m s1) as (s2, [[]|]).
Qed.
End Proportion.

(** ** a search that is told [a] times the excesses *)
Section SearchTimes.
Variable a : R.
Hypothesis Ha : 0 < a.
Notation aa := (Rmult a).
Notation ex := (excess_times a).
Lemma nle0_times x : nle (a * x) (nofZ 0) = nle x (nofZ 0).
Proof. rewrite <- (map_0 a) at 1. apply (nle_both a Ha). Qed.
Lemma nle0_times' x : nle (nofZ 0) (a * x) = nle (nofZ 0) x.
Proof. rewrite <- (map_0 a) at 1. apply (nle_both a Ha). Qed.
Lemma nltx0_times x : nlt (a * x) (nofZ 0) = nlt x (nofZ 0).
Proof. rewrite <- (map_0 a) at 1. apply (nlt_both a Ha). Qed.
Lemma nlt0x_times x : nlt (nofZ 0) (a * x) = nlt (nofZ 0) x.
Proof. rewrite <- (map_0 a) at 1. apply (nlt_both a Ha). Qed.
Lemma sign_times x : sign (ex x) = sign x.
Proof. destruct x as [q| |]; [|reflexivity|reflexivity]. cbn [excess_times sign]. now rewrite (nis0_times a Ha), nle0_times'. Qed.
Lemma xlt0_times x : xlt0 (ex x) = xlt0 x. Proof. destruct x as [q| |]; [|reflexivity|reflexivity]. apply nltx0_times. Qed.
Lemma xgt0_times x : xgt0 (ex x) = xgt0 x. Proof. destruct x as [q| |]; [|reflexivity|reflexivity]. apply nlt0x_times. Qed.
Lemma xle0_times x : xle0 (ex x) = xle0 x. Proof. destruct x as [q| |]; [|reflexivity|reflexivity]. apply nle0_times. Qed.
Lemma xlt_times x y : xlt (ex x) (ex y) = xlt x y. Proof. destruct x, y; try reflexivity. apply (nlt_both a Ha). Qed.
Lemma xeq_times x y : xeq (ex x) (ex y) = xeq x y. Proof. destruct x, y; try reflexivity. apply (neqb_times a Ha). Qed.
Lemma pick_times l : forall x, pick (fun x y => xlt y x) (ex x) (map ex l) = ex (pick (fun x y => xlt y x) x l).
Proof. induction l as [|b l IH]; intro x; [reflexivity|]. cbn [map pick]. rewrite xlt_times. destruct (xlt x b); apply IH. Qed.
Lemma py_max_times l : py_max (map ex l) = rmap ex (py_max l).
Proof. destruct l as [|b l]; [reflexivity|]. cbn [map py_max rmap]. f_equal. apply pick_times. Qed.
Lemma filter_times l : filter xle0 (map ex l) = map ex (filter xle0 l).
Proof. induction l as [|b l IH]; [reflexivity|]. cbn [map filter]. rewrite xle0_times, IH. now destruct (xle0 b). Qed.
Lemma select_key_times t : select_key (recorded_times a t) = select_key t.
Proof.
  unfold select_key, recorded_times. cbv zeta. rewrite map_map. cbn [snd]. rewrite <- (map_map snd ex), filter_times, py_max_times, rmap_bind. f_equal. extensionality v.
  unfold key_of. replace (find (fun kv => xeq (snd kv) (ex v)) (map (fun p => (fst p, ex (snd p))) t))
    with (option_map (fun p : Z * xval R => (fst p, ex (snd p))) (find (fun kv => xeq (snd kv) v) t)); [now destruct (find _ t)|].
  induction t as [|(i, w) t IH]; [reflexivity|]. cbn [find map snd fst]. rewrite xeq_times. destruct (xeq w v); [reflexivity|exact IH].
Qed.
Lemma dict_get_times {A B} (g : A -> B) d i : dict_get (map (fun p => (fst p, g (snd p))) d) i = rmap g (dict_get d i).
Proof. induction d as [|(j, w) d IH]; [reflexivity|]. cbn. destruct (i =? j)%Z; [reflexivity|exact IH]. Qed.

Notation fld := (list (R * R)).
Variable build : fld -> R -> res unit.
Variable sim : fld -> R -> res (xval R).
Variable sized : fld -> res R.
Variable sim' : fld -> R -> res (xval R).
Variable minH maxH : R.
Hypothesis same_sim : forall c H, sim' c H = rmap ex (sim c H).
Notation MM := (M fld (F := R)).
Notation ST := (search_times a).

Definition follows {A A'} (g : A -> A') (m : MM A) (m' : MM A') : Prop := forall s, m' (ST s) = (rmap g (fst (m s)), ST (snd (m s))).
Notation id := (fun x => x).
Lemma f_bind {A A' B B'} (g : A -> A') (h : B -> B') (m : MM A) m' (q : A -> MM B) (q' : A' -> MM B') :
  follows g m m' -> (forall x, follows h (q x) (q' (g x))) -> follows h (mbind fld m q) (mbind fld m' q').
Proof. intros E K s. unfold mbind. rewrite E. destruct (m s) as ([x|e], s'); cbn [fst snd rmap]; [apply K|reflexivity]. Qed.
Lemma f_ret {A} (x : A) : follows id (ret fld x) (ret fld x). Proof. now intros s. Qed.
Lemma f_raise {A} e : follows (id : A -> A) (raise fld e) (raise fld e). Proof. now intros s. Qed.
Lemma f_lift {A A'} (g : A -> A') r r' : r' = rmap g r -> follows g (lift fld r) (lift fld r'). Proof. now intros -> s. Qed.
Lemma f_same {A} (r : res A) : follows id (lift fld r) (lift fld r).
Proof. intro s. unfold lift. cbn [fst snd]. now destruct r. Qed.
Lemma f_init c H : follows id (Search.initialize_ghe fld build c H) (Search.initialize_ghe fld build c H).
Proof. unfold Search.initialize_ghe. apply (f_bind id); [apply f_same|now intros x s]. Qed.
Lemma f_excess c H : follows ex (Search.calculate_excess fld build sim c H) (Search.calculate_excess fld build sim' c H).
Proof.
  unfold Search.calculate_excess. apply (f_bind id); [now intros s|]. intros _. apply (f_bind id); [apply f_init|]. intros _. apply f_lift, same_sim.
Qed.
Lemma f_record i v : follows id (record_temp fld i v) (record_temp fld i (ex v)).
Proof. intros s. unfold record_temp, mbind, get, modify, search_times, set_temps. cbn. unfold recorded_times. now rewrite (dict_set_map ex). Qed.
Lemma f_sign x : follows id (lift fld (sign x)) (lift fld (sign (ex x))).
Proof. rewrite sign_times. apply f_same. Qed.
Lemma f_dom : follows id (get fld (dom fld)) (get fld (dom fld)). Proof. now intros s. Qed.
Lemma f_temps : follows (recorded_times a) (get fld (temps fld)) (get fld (temps fld)). Proof. now intros s. Qed.
Lemma f_loop fuel : forall xs l r i, follows id (bisect_loop fld build sim maxH fuel xs l r i) (bisect_loop fld build sim' maxH fuel xs l r i).
Proof.
  induction fuel as [|fuel IH]; intros xs l r i; cbn [bisect_loop]; [apply f_ret|].
  destruct (_ || _); [apply f_ret|]. apply (f_bind id); [apply f_dom|]. intro d.
  apply (f_bind id); [apply f_same|]. intro c. apply (f_bind ex); [apply f_excess|]. intro x.
  apply (f_bind id); [apply f_record|]. intros _. apply (f_bind id); [apply f_sign|]. intro sg.
  destruct (sg =? xs)%Z; apply IH.
Qed.
Lemma f_search mi : follows id (search fld build sim minH maxH mi) (search fld build sim' minH maxH mi).
Proof.
  unfold search. apply (f_bind id); [apply f_dom|]. intro d. cbv zeta.
  apply (f_bind id); [apply f_same|]. intros _. apply (f_bind id); [apply f_same|]. intro c0.
  apply (f_bind ex); [apply f_excess|]. intro x0. apply (f_bind ex); [apply f_excess|]. intro x1.
  apply (f_bind id); [apply f_same|]. intro cR. apply (f_bind ex); [apply f_excess|]. intro x2.
  apply (f_bind id); [apply f_record|]. intros _. apply (f_bind id); [apply f_record|]. intros _.
  apply (f_bind id); [apply f_sign|]. intro s0. apply (f_bind id); [apply f_sign|]. intro s1.
  destruct (check_bracket s0 s1).
  { apply (f_bind id); [apply f_init|]. intros _. apply f_ret. }
  apply (f_bind id); [apply f_sign|]. intro s2. apply (f_bind id); [apply f_sign|]. intro s3.
  rewrite !xlt0_times, !xgt0_times. destruct (check_bracket s2 s3).
  2: { destruct (_ && _); [apply f_raise|]. destruct (_ && _); [apply f_raise|]. apply f_ret. }
  apply (f_bind id); [apply f_sign|]. intro s4. apply (f_bind id); [apply f_sign|]. intro s5.
  apply (f_bind id); [apply f_loop|]. intros ((x, y), i).
  apply (f_bind id); [apply f_same|]. intro c.
  apply (f_bind ex); [apply f_excess|]. intros _. apply (f_bind (recorded_times a)); [apply f_temps|]. intro t.
  rewrite select_key_times. apply (f_bind id); [apply f_same|]. intro q.
  apply (f_bind id); [apply f_same|]. intro c1. apply (f_bind id); [apply f_init|]. intros _. apply f_ret.
Qed.
Lemma f_need {A} (r : option A) : follows id (need fld r) (need fld r).
Proof. destruct r; [apply f_ret|apply f_raise]. Qed.
Lemma f_2d nested mi : follows id (search_2d fld build sim minH maxH nested mi) (search_2d fld build sim' minH maxH nested mi).
Proof.
  unfold search_2d. apply (f_bind id); [apply f_same|]. intro o. apply (f_bind id); [now intros s|]. intros _. apply (f_bind id); [apply f_search|]. intro r.
  apply (f_bind id); [apply f_need|]. intro kc. cbv zeta. apply (f_bind id); [apply f_same|]. intro d. apply (f_bind id); [now intros s|]. intros _.
  apply (f_bind id); [now intros s|]. intros _. apply (f_bind id); [apply f_search|]. intro r2. apply f_ret.
Qed.
Lemma f_successive nested mi fuel : forall old i,
  follows id (successive_loop fld build sim sized zlen minH maxH fuel nested mi old i) (successive_loop fld build sim' sized zlen minH maxH fuel nested mi old i).
Proof.
  induction fuel as [|fuel IH]; intros old i; cbn [successive_loop]; [apply f_ret|]. destruct (i <? zlen nested)%Z; [|apply f_ret].
  apply (f_bind id); [apply f_same|]. intro d. apply (f_bind id); [now intros s|]. intros _. apply (f_bind id); [now intros s|]. intros _.
  intro s. rewrite f_search. destruct (search fld build sim minH maxH mi s) as ([r|e], s'); cbn [fst snd rmap].
  2: { destruct e; reflexivity. }
  revert s'. match goal with |- forall s', ?m' (ST s') = (_, ST (snd (?m s'))) => change (follows id m m') end.
  apply (f_bind (recorded_times a)); [apply f_temps|]. intro t.
  apply (f_bind (map (fun p => (fst p, recorded_times a (snd p))))); [now intros s'|]. intro tn.
  apply (f_bind id). { intro s'. unfold modify, search_times, set_temps_nested. cbn. now rewrite (dict_set_map (recorded_times a)). } intros _.
  apply (f_bind id); [now intros s'|]. intro g. apply (f_bind id); [apply f_same|]. intro H. apply (f_bind id); [now intros s'|]. intros _.
  apply (f_bind id); [apply f_need|]. intro kc. cbv zeta. apply (f_bind id); [now intros s'|]. intro hs. apply (f_bind id); [now intros s'|]. intros _.
  destruct (nlt old _); [apply f_ret|apply IH].
Qed.
Lemma f_zd nested mi : follows id (search_zd fld build sim sized zlen minH maxH nested mi) (search_zd fld build sim' sized zlen minH maxH nested mi).
Proof.
  unfold search_zd. apply (f_bind id); [apply f_same|]. intro o. apply (f_bind id); [now intros s|]. intros _.
  apply (f_bind id); [now intros s|]. intros _. apply (f_bind id); [apply f_search|]. intro r.
  apply (f_bind id); [apply f_need|]. intro kc. cbv zeta. apply (f_bind id); [now intros s|]. intros _.
  unfold search_successive. apply (f_bind id); [apply f_successive|]. intros _.
  apply (f_bind id); [now intros s|]. intro hs. apply (f_bind id); [apply f_same|]. intro mn. apply (f_bind id); [apply f_same|]. intro ko.
  apply (f_bind (map (fun p => (fst p, recorded_times a (snd p))))); [now intros s|]. intro tn.
  apply (f_bind (recorded_times a)); [apply f_lift, dict_get_times|]. intro t. apply (f_bind id); [now intros s|]. intros _.
  rewrite select_key_times. apply (f_bind id); [apply f_same|]. intro q.
  apply (f_bind id); [apply f_same|]. intro d. apply (f_bind id); [apply f_same|]. intro c.
  apply (f_bind id); [apply f_init|]. intros _. apply (f_bind id); [apply f_same|]. intro H. apply (f_bind id); [now intros s|]. intros _. apply f_ret.
Qed.

(** ** designs *)
Definition found_times (f : found (F := R) (V := R)) : found (F := R) (V := R) := (fst f, ST (snd f)).
Lemma base_times d H : base_init build d H = rmap ST (base_init build d H).
Proof. unfold base_init. destruct (py_nth d 0) as [c|]; [|reflexivity]. cbn [bind]. now destruct (build c H). Qed.
Lemma find_times r cs H : find_design build sim' sized minH maxH r cs H = rmap found_times (find_design build sim sized minH maxH r cs H).
Proof.
  assert (O : forall d, bisection_1d build sim' minH maxH d H = rmap found_times (bisection_1d build sim minH maxH d H)).
  { intro d. unfold bisection_1d. rewrite (base_times d H) at 1. rewrite rmap_bind, bind_rmap. f_equal. extensionality s. rewrite f_search.
    destruct (search _ build sim minH maxH 15 s) as ([q|], s'); reflexivity. }
  destruct r, cs as [d|dd]; try reflexivity; try apply O; cbn [find_design].
  - unfold bisection_2d. rewrite bind_rmap. f_equal. extensionality d. rewrite (base_times d H) at 1. rewrite rmap_bind, bind_rmap. f_equal. extensionality s.
    rewrite f_2d. destruct (search_2d _ build sim minH maxH dd 15 s) as ([(i, q)|], s'); reflexivity.
  - unfold bisection_zd. rewrite bind_rmap. f_equal. extensionality d. rewrite (base_times d H) at 1. rewrite rmap_bind, bind_rmap. f_equal. extensionality s.
    rewrite f_zd. destruct (search_zd _ build sim sized zlen minH maxH dd 15 s) as ([((i, j), q)|], s'); reflexivity.
Qed.
Lemma design_times gc r H : design build sim' sized minH maxH gc r H = rmap found_times (design build sim sized minH maxH gc r H).
Proof. unfold design. rewrite bind_rmap. f_equal. extensionality cs. apply find_times. Qed.
End SearchTimes.

Lemma unsized (build : list (R * R) -> R -> res unit) sim sized sized' minH maxH gc r (H : R) : r <> bi_zoned ->
  design build sim sized minH maxH gc r H = design build sim sized' minH maxH gc r H.
Proof. intro Hr. unfold design. f_equal. extensionality cs. destruct r; try (contradiction Hr; reflexivity); destruct cs; reflexivity. Qed.
(** ** the program *)
Section Whole.
Variable h_circular : R -> R -> R -> R -> R -> R -> R -> R.
Variable h_annulus : R -> R -> R -> R -> R -> R -> R -> R -> R * R.
Variable r_conduction : R -> R -> R -> R.
Variable eff_u : R -> pg_u -> R -> R -> R.
Variable eff_c : R -> pg_c -> R -> R -> R.
Variable brentq : (R -> res R) -> R -> R -> list R * res R.
Variable solver : list R -> list R -> list R -> list R -> list R.
Variable interp : ikind -> list (R * R) -> R -> R.
Variable field_response : R -> list (R * R) -> R -> R -> R -> res (list R).
Variable dlg : R -> R -> dialogue.
Variable a : R.
Hypothesis Ha : 0 < a.
Variable st : settings.
Hypothesis clear_rejection : no_close_call a (rejection (st_loads st)).
Hypothesis clear_extraction : no_close_call a (extraction (st_loads st)).
Variable flow : flow_kind.
Variable V_flow : R.
Variable log_time : list R.
Notation W := (proportional_ghe a (st_ugt st)).
Notation ws := (proportional a st).
Notation prog := (program h_circular h_annulus r_conduction eff_u eff_c brentq solver interp field_response dlg).
Notation whl := (whole h_circular h_annulus r_conduction eff_u eff_c brentq solver interp field_response dlg).
Notation left := (left_ghe h_circular h_annulus r_conduction eff_u eff_c brentq solver interp field_response dlg).
Notation exc := (excess_of h_circular h_annulus r_conduction eff_u eff_c brentq solver interp field_response).
Notation cbuild := (can_build h_circular h_annulus r_conduction eff_u eff_c brentq solver field_response).
Variable m : method.

Lemma can_build_times c h : cbuild ws flow V_flow log_time c h = cbuild st flow V_flow log_time c h.
Proof. unfold can_build. rewrite ready_times, rmap_bind by assumption. reflexivity. Qed.
Lemma excess_of_times c h : exc ws m flow V_flow log_time c h = rmap (excess_times a) (exc st m flow V_flow log_time c h).
Proof.
  unfold excess_of, System.calculate_excess.
  fold (ready h_circular h_annulus r_conduction eff_u eff_c brentq solver field_response ws flow V_flow log_time c h).
  fold (ready h_circular h_annulus r_conduction eff_u eff_c brentq solver field_response st flow V_flow log_time c h).
  rewrite ready_times by assumption.
  destruct (ready h_circular h_annulus r_conduction eff_u eff_c brentq solver field_response st flow V_flow log_time c h) as [s|]; [|reflexivity]. cbn [rmap bind].
  rewrite ghe_simulate_times by assumption. cbn [snd]. rewrite excess_enlarged by assumption. now destruct (excess st _).
Qed.
Definition asks_alike : Prop := forall lo hi, same_questions a (dlg lo hi) (dlg lo hi).
Lemma program_times gc r H : r <> bi_zoned \/ asks_alike -> prog ws m flow V_flow log_time gc r H = rmap (found_times a) (prog st m flow V_flow log_time gc r H).
Proof.
  intro Hq. unfold program. change (st_min_H ws) with (st_min_H st). change (st_max_H ws) with (st_max_H st).
  rewrite <- (design_times a Ha _ _ _ (exc ws m flow V_flow log_time) _ _ (fun c h => excess_of_times c h)).
  replace (cbuild ws flow V_flow log_time) with (cbuild st flow V_flow log_time) by (extensionality c; extensionality h; symmetry; apply can_build_times).
  destruct Hq as [Hr|Hq].
  - now apply unsized.
  - f_equal. extensionality c. unfold sized_height. change (st_max_H ws) with (st_max_H st). rewrite ready_times, rmap_bind by assumption. f_equal. extensionality s.
    rewrite size_up_times, rmap_bind by assumption. reflexivity.
Qed.
Lemma left_ghe_times r f : asks_alike -> left ws flow V_flow log_time r (found_times a f) = rmap W (left st flow V_flow log_time r f).
Proof.
  intro Hq. unfold left_ghe, found_times. cbn [snd]. change (Search.ghe _ (search_times a (snd f))) with (Search.ghe _ (snd f)). destruct (Search.ghe _ (snd f)) as (c, H).
  destruct r; try (apply ready_times; assumption). change (st_max_H ws) with (st_max_H st). rewrite ready_times, rmap_bind, bind_rmap by assumption. f_equal. extensionality s.
  apply size_up_times; assumption.
Qed.
Lemma whole_times gc r H sm : asks_alike ->
  whl ws m flow V_flow log_time gc r H sm = rmap (fun p => (fst p, W (snd p))) (whl st m flow V_flow log_time gc r H sm).
Proof.
  intro Hq. unfold whole. rewrite program_times, rmap_bind, bind_rmap by now right. f_equal. extensionality f. rewrite left_ghe_times, rmap_bind, bind_rmap by assumption. f_equal. extensionality s.
  rewrite size_up_times, rmap_bind, bind_rmap by assumption. f_equal.
Qed.
End Whole.
