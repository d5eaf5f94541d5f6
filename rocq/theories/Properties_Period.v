(** Property C137: a longer design period, for any pygfunction, root finders, equation solver and interpolant, by the hourly simulation *)
From Coq Require Import ZArith QArith List Bool Reals Lra Lia.
From Verif Require Import LoadsProofs LoadsSim LoadsHybrid Properties_Loads GheProofs GFunProofs Properties_GFun RadialProofs RadialGrid Properties_Radial EquivSpec EquivProofs Properties_Equiv.
From Verif Require Import Base Num BaseLemmas Order Spec Utilities Loads LoadsSpec Ghe GheSpec GFun GFunSpec Radial RadialSpec Bhe Equiv Export Domains DomainsProofs
  Search SearchSpec SearchTheorems Design System SystemSpec SystemProofs Program ProgramProofs
  Properties_Domains Properties_Ghe Properties_Search DesignProofs Properties_Design Properties_Export Properties_System Properties_Program InvarianceSpec InvarianceProofs MirrorProofs Properties_Limits.
Import ListNotations.
Open Scope R_scope.

(** the settings with the simulation ending in month [e] (media.py:109-116: SimulationParameters.end_month) *)
Definition until (e : Z) (st : settings) : settings :=
  {| st_class := st_class st; st_fluid := st_fluid st; st_rb := st_rb st; st_D := st_D st; st_grout_k := st_grout_k st; st_grout_rhoCp := st_grout_rhoCp st;
     st_soil_k := st_soil_k st; st_soil_rhoCp := st_soil_rhoCp st; st_ugt := st_ugt st;
     st_start := st_start st; st_end := e; st_max_EFT := st_max_EFT st; st_min_EFT := st_min_EFT st;
     st_max_H := st_max_H st; st_min_H := st_min_H st; st_loads := st_loads st |}.

(** ** lists that begin alike *)
Lemma py_nth_front {A} (l r : list A) i : (0 <= i < zlen l)%Z -> py_nth (l ++ r) i = py_nth l i.
Proof.
  intro Hi. unfold py_nth. destruct (i <? 0)%Z eqn:E; [apply Z.ltb_lt in E; lia|]. rewrite E. unfold zlen in Hi. now rewrite nth_error_app1 by lia.
Qed.
Lemma py_slice_front {A} (l r : list A) i : (0 <= i <= zlen l)%Z -> py_slice (l ++ r) 0 i = py_slice l 0 i.
Proof.
  unfold zlen. intro Hi. replace i with (Z.of_nat (Z.to_nat i)) by lia. rewrite !py_slice_0 by (rewrite ?app_length; lia). rewrite firstn_app.
  replace (Z.to_nat i - length l)%nat with 0%nat by lia. cbn [firstn]. apply app_nil_r.
Qed.
Lemma diffs_front (l r : list R) : exists r', diffs (l ++ r) = diffs l ++ r'.
Proof.
  induction l as [|x l (r' & IH)]; [exists (diffs r); reflexivity|]. destruct l as [|y l]; [exists (diffs (x :: r)); reflexivity|].
  exists r'. change (diffs ((x :: y :: l) ++ r)) with (nsub y x :: diffs ((y :: l) ++ r)). rewrite IH. reflexivity.
Qed.
Lemma diffs_zlen (x : R) l : zlen (diffs (x :: l)) = zlen l.
Proof. revert x. induction l as [|y l IH]; intro x; [reflexivity|]. change (diffs (x :: y :: l)) with (nsub y x :: diffs (y :: l)). unfold zlen in *. cbn [length]. specialize (IH y). lia. Qed.
Lemma mapM_front {A B} (f : A -> res B) l r v : mapM f (l ++ r) = Ok v -> exists a b, v = a ++ b /\ mapM f l = Ok a /\ mapM f r = Ok b.
Proof.
  revert v. induction l as [|x l IH]; intros v E; [exists [], v; cbn in *; auto|]. cbn [app mapM] in *. apply bind_ok in E. destruct E as (y & Ey & E).
  apply bind_ok in E. destruct E as (w & Ew & E). apply Ok_inj in E. destruct (IH w Ew) as (a & b & -> & Ea & Eb). exists (y :: a), b. rewrite Ey, Ea. cbn. auto.
Qed.

(** ** the temperatures of the first hours do not depend on how many hours follow *)
Section Simulation.
Variable g : R -> res R.
Variables (nbh H two_pi_k Tg Rb m_dot cp : R).
Notation run := (simulate_detailed g nbh H two_pi_k Tg Rb m_dot cp).
Lemma step_front q t q' t' i : zlen q = zlen t -> (1 <= i <= zlen q)%Z ->
  detailed_step g H two_pi_k Tg Rb m_dot cp (nofZ 0 :: q ++ q') (nofZ 0 :: t ++ t') (diffs (nofZ 0 :: q ++ q')) i =
  detailed_step g H two_pi_k Tg Rb m_dot cp (nofZ 0 :: q) (nofZ 0 :: t) (diffs (nofZ 0 :: q)) i.
Proof.
  intros L Hi. unfold detailed_step. rewrite !app_comm_cons. destruct (diffs_front (nofZ 0 :: q) q') as (r & ->).
  assert (forall l : list R, zlen (nofZ 0 :: l) = zlen l + 1)%Z by (intro; unfold zlen; cbn [length]; lia).
  rewrite !py_nth_front, !py_slice_front; [reflexivity|..]; rewrite ?diffs_zlen, ?H0; lia.
Qed.
Lemma run_front Q t Q' t' T D : length Q = length t -> Q <> [] -> run (Q ++ Q') (t ++ t') = Ok (T, D) ->
  exists T1 D1 T2 D2, T = T1 ++ T2 /\ D = D1 ++ D2 /\ run Q t = Ok (T1, D1) /\ length T1 = length Q.
Proof.
  intros L Hn E. unfold simulate_detailed in *. assert (ZQ : (1 <= zlen Q)%Z) by (destruct Q; [congruence|unfold zlen; cbn [length]; lia]).
  assert (ZA : zlen (Q ++ Q') = (zlen Q + zlen Q')%Z) by (unfold zlen; rewrite app_length; lia).
  apply bind_ok in E. destruct E as (u & _ & E). apply bind_ok in E. destruct E as (q & Eq & E). apply bind_ok in E. destruct E as (r & Er & E). apply Ok_inj in E.
  injection E as <- <-. destruct (mapM_front _ _ _ _ Eq) as (q1 & q2 & -> & E1 & E2). assert (L1 := mapM_zlen _ _ _ E1).
  assert (Z0 : (0 <= zlen Q')%Z) by (unfold zlen; lia). rewrite ZA, (zrange_app 1 (zlen Q + 1)) in Er by lia.
  destruct (mapM_front _ _ _ _ Er) as (r1 & r2 & -> & F1 & F2).
  replace (zlen Q =? 0)%Z with false by (symmetry; apply Z.eqb_neq; lia). cbn [raise_if bind]. rewrite E1. cbn [bind].
  rewrite (mapM_ext _ (detailed_step g H two_pi_k Tg Rb m_dot cp (nofZ 0 :: q1) (nofZ 0 :: t) (diffs (nofZ 0 :: q1)))) in F1
    by (intros i Hi; apply in_zrange in Hi; apply step_front; unfold zlen in *; lia).
  rewrite F1. cbn [bind]. exists (map fst r1), (map snd r1), (map fst r2), (map snd r2). rewrite !map_app. repeat apply conj; try reflexivity.
  apply mapM_zlen in F1. rewrite zrange_zlen in F1. rewrite map_length. unfold zlen in *. lia.
Qed.
End Simulation.
Lemma years_more {A} (l : list A) y z : (0 <= y <= z)%Z -> exists r, concat (repeat l (Z.to_nat z)) = concat (repeat l (Z.to_nat y)) ++ r.
Proof.
  intro Hz. replace (Z.to_nat z) with (Z.to_nat y + Z.to_nat (z - y))%nat by lia. rewrite repeat_app, concat_app. eauto.
Qed.

(** ** a search for which every excess of a candidate is smaller; the fields are built by another program *)
Section Easier.
Variables build build' : list (R * R) -> R -> res unit.
Variables sim sim' : list (R * R) -> R -> res (xval R).
Variables minH maxH : R.
Lemma easier_among d H k c s c0 : bisection_1d build sim minH maxH d H = Ok (Some (k, c), s) -> nth_error d 0 = Some c0 -> (exists u, build' c0 H = Ok u) ->
  strictly_increasing (sizes d) -> (zlen d <= 32769)%Z -> more_is_better sim' maxH d -> well_behaved _ build' sim' minH maxH d ->
  deeper_helps sim minH maxH c0 -> deeper_helps sim' minH maxH c0 ->
  (forall f q, In f d -> sim f maxH = Ok (Fin q) -> exists q', sim' f maxH = Ok (Fin q') /\ q' <= q) ->
  (forall f h v, sim' f h = Ok v -> exists q, v = Fin q) ->
  (exists k' c' s', bisection_1d build' sim' minH maxH d H = Ok (Some (k', c'), s') /\ (length c' <= length c)%nat) \/
  (bisection_1d build' sim' minH maxH d H = Err ValueError /\ exists ql qu, sim' c0 minH = Ok (Fin ql) /\ ql < 0 /\ sim' c0 maxH = Ok (Fin qu) /\ qu < 0).
Proof.
  intros E H0 (u & Hu) Hs Hn Hb Hw Hd Hd' Le Fi.
  destruct (one_domain_selection build sim minH maxH d H _ s E) as (k1 & c1 & Ek & Hc & _ & _ & Ad).
  assert (c1 = c) as -> by congruence. assert (k1 = k) as -> by congruence. clear Ek.
  assert (Ad' : adequate sim maxH c).
  { destruct Ad as [Ad|(-> & q & q' & E1 & P1 & E2 & P2)]; [exact Ad|]. exfalso. cbn [Z.to_nat] in Hc. assert (c = c0) as -> by congruence.
    specialize (Hd q q' E1 E2 P1). lra. }
  assert (Ic := nth_error_In _ _ Hc).
  destruct Ad' as (q & Eq & Hq). destruct (Le c q Ic Eq) as (q' & Eq' & Hq'). rewrite val_R in Hq.
  destruct (one_domain_outcome build' sim' minH maxH d H u c0 H0 Hu Hw) as (cR & tl & tu & tm & ER & El & Eu & Em & Out).
  destruct Out as [((k' & c' & s' & E') & _)|(E' & S1 & S2)].
  - left. exists k', c', s'. split; [exact E'|].
    destruct (one_domain_smallest build' sim' minH maxH d H k' c' s' E' Hs Hn Hb) as (_ & A).
    { intros f Hf. destruct (Hw f maxH Hf (or_introl eq_refl)) as (_ & v & Ev & _). destruct (Fi f maxH v Ev) as (x & ->). eauto. }
    { intros f Hf. assert (f = c0) as -> by congruence. exact Hd'. }
    apply A; [exact Ic|]. exists q'. split; [exact Eq'|]. rewrite val_R. lra.
  - right. split; [exact E'|]. destruct (Fi _ _ _ El) as (ql & ->). destruct (Fi _ _ _ Eu) as (qu & ->). destruct (Fi _ _ _ Em) as (qm & ->).
    exists ql, qu.
    assert (Hm : qm < 0).
    { destruct (Nat.eq_dec (Z.to_nat k) (length d - 1)) as [Ek|Ek].
      - assert (c = cR) as -> by congruence. assert (Fin qm = Fin q') by (apply Ok_inj; now rewrite <- Em). assert (qm = q') by congruence. lra.
      - assert (Z.to_nat k < length d)%nat by (apply nth_error_Some; congruence).
        pose proof (increasing_nth _ Hs (Z.to_nat k) (length d - 1) _ _ ltac:(lia) (sizes_nth _ _ _ Hc) (sizes_nth _ _ _ ER)).
        assert (X : (length c < length cR)%nat) by lia. specialize (Hb c cR q' qm Ic (nth_error_In _ _ ER) X Eq' Em). rewrite !val_R in Hb. lra. }
    assert (Hu' : qu < 0) by (destruct S2 as [(_ & (y & Ey & Py))|((y & Ey & Py) & _)]; rewrite val_R in Py; [assert (y = qm) by congruence|assert (y = qu) by congruence]; lra).
    assert (Hl : ql < 0) by (destruct S1 as [(_ & (y & Ey & Py))|((y & Ey & Py) & _)]; rewrite val_R in Py; [assert (y = qu) by congruence|assert (y = ql) by congruence]; lra).
    auto.
Qed.
End Easier.

Section World.
Variable h_circular : R -> R -> R -> R -> R -> R -> R -> R.
Variable h_annulus : R -> R -> R -> R -> R -> R -> R -> R -> R * R.
Variable r_conduction : R -> R -> R -> R.
Variable eff_u : R -> pg_u -> R -> R -> R.
Variable eff_c : R -> pg_c -> R -> R -> R.
Variable brentq : (R -> res R) -> R -> R -> list R * res R.
Variable solver : list R -> list R -> list R -> list R -> list R.
Variable interp : ikind -> list (R * R) -> R -> R.
Variable field_response : R -> list (R * R) -> R -> R -> R -> res (list R).
Variable st : settings.
Variable flow : flow_kind.
Variable V_flow : R.
Variable log_time : list R.
Variable e : Z.
Notation ready st := (ready h_circular h_annulus r_conduction eff_u eff_c brentq solver field_response st flow V_flow log_time).
Notation simulated st := (ghe_simulate h_circular h_annulus r_conduction eff_u eff_c brentq solver interp st m_hourly).
Notation excess_of st := (excess_of h_circular h_annulus r_conduction eff_u eff_c brentq solver interp field_response st m_hourly flow V_flow log_time).
Notation can_build st := (can_build h_circular h_annulus r_conduction eff_u eff_c brentq solver field_response st flow V_flow log_time).
Notation keeps_strictly st := (keeps_strictly h_circular h_annulus r_conduction eff_u eff_c brentq solver interp field_response st m_hourly flow V_flow log_time).
Notation minH := (st_min_H st).
Notation maxH := (st_max_H st).
Notation longer := (until e st).

(** both periods are whole years and the loads are those of a year *)
Variables y z : Z.
Hypothesis years : (1 <= y <= z)%Z.
Hypothesis short : (st_end st = st_start st + 12 * y - 1)%Z.
Hypothesis long : (e = st_start st + 12 * z - 1)%Z.
Hypothesis loads : length (st_loads st) = Z.to_nat 8760.

Definition alike_but_loads (s s' : ghe) : Prop :=
  gh_B s = gh_B s' /\ gh_nbh s = gh_nbh s' /\ gh_H s = gh_H s' /\ gh_bhe s = gh_bhe s' /\ gh_gf s = gh_gf s'.
Lemma ready_alike c h s s' : ready st c h = Ok s -> ready longer c h = Ok s' -> alike_but_loads s s'.
Proof.
  intros E E'. destruct (ready_inv _ _ _ _ _ _ _ _ _ _ _ _ _ _ _ E) as (V1 & m1 & B1 & g1 & b1 & A1 & A2 & A3 & A4 & A5 & A6 & A7 & A8 & _ & A9 & _).
  destruct (ready_inv _ _ _ _ _ _ _ _ _ _ _ _ _ _ _ E') as (V2 & m2 & B2 & g2 & b2 & C1 & C2 & C3 & C4 & C5 & C6 & C7 & C8 & _ & C9 & _).
  cbn [st_fluid st_rb st_D until] in *. rewrite A1 in C1. assert (m2 = m1) as -> by congruence. rewrite A2 in C2. rewrite A3 in C3.
  change (make_bhe h_circular h_annulus r_conduction longer m1) with (make_bhe h_circular h_annulus r_conduction st m1) in C4. rewrite A4 in C4.
  assert (B2 = B1) as -> by congruence. assert (g2 = g1) as -> by congruence. assert (b2 = b1) as -> by congruence.
  unfold alike_but_loads. rewrite A5, C5, A6, C6, A7, C7, A8, C8, A9, C9. repeat apply conj; try reflexivity.
Qed.
Lemma hourly_years s0 e0 n l load hour : (1 <= n)%Z -> (e0 = s0 + 12 * n - 1)%Z ->
  simulated_loads m_hourly s0 e0 l load hour = Ok (map (fun x => -1 * x) (concat (repeat l (Z.to_nat n))), map IZR (zrange 1 (8760 * n + 1))).
Proof.
  intros Hn ->. rewrite (hourly_loads_ok s0 (s0 + 12 * n - 1) l load hour n); [|lia|].
  - do 3 f_equal. f_equal. lia.
  - replace (s0 + 12 * n - 1 - s0 + 12)%Z with (11 + n * 12)%Z by lia. rewrite Z.div_add by lia. reflexivity.
Qed.
(** the temperatures of the shorter period begin those of the longer one *)
Lemma simulated_front s s' r' mx' mn' : alike_but_loads s s' -> simulated longer s' = (r', Ok (mx', mn')) ->
  exists r mx mn T2 D2, simulated st s = (r, Ok (mx, mn)) /\ fst (gh_results r') = fst (gh_results r) ++ T2 /\ snd (gh_results r') = snd (gh_results r) ++ D2 /\
  length (fst (gh_results r)) = Z.to_nat (8760 * y) /\ mx <= mx' /\ mn' <= mn.
Proof.
  intros (A1 & A2 & A3 & A4 & A5) E. unfold ghe_simulate in *. cbv zeta in *. rewrite A1, A3.
  destruct (pydiv (gh_B s') (gh_H s')) as [BH|]; [|discriminate]. cbn [with_bhe gh_bhe] in *. rewrite A4.
  destruct (compute_equivalent _ _ _ _ _ _) as [q|]; [|discriminate].
  change (short_time eff_u solver longer (gh_H s') q) with (short_time eff_u solver st (gh_H s') q) in E.
  destruct (short_time eff_u solver st (gh_H s') q) as [w|]; [|discriminate]. cbn [with_bhe with_eq with_short_time with_gf gh_gf gh_sts gh_ts gh_nbh gh_bhe gh_load gh_hour] in *.
  rewrite A5, A2. change (st_rb longer) with (st_rb st) in E. destruct (grab_g_function _ _ _ _ _ _) as (t & [cv|]); [|discriminate].
  change (st_soil_k longer) with (st_soil_k st) in E. change (st_ugt longer) with (st_ugt st) in E. change (st_fluid longer) with (st_fluid st) in E.
  change (st_start longer) with (st_start st) in E. change (st_end longer) with e in E. change (st_loads longer) with (st_loads st) in E.
  unfold simulate in *. rewrite (hourly_years _ _ z) in E by (assumption || lia). rewrite (hourly_years _ _ y) by (assumption || lia). cbn [bind fst snd] in *.
  destruct (years_more (st_loads st) y z ltac:(lia)) as (more & Em). rewrite Em, map_app, (zrange_app 1 (8760 * y + 1)), map_app in E by lia.
  destruct (simulate_detailed _ _ _ _ _ _ _ _ _ _) as [(T', D')|] eqn:Ed in E; [|discriminate].
  set (Q := map _ (concat _)) in *. set (tv := map IZR _) in *.
  assert (LQ : length Q = Z.to_nat (8760 * y)) by (unfold Q; rewrite map_length, repeat_concat_length, loads; nia).
  assert (Lt : length tv = Z.to_nat (8760 * y)) by (unfold tv; rewrite map_length, zrange_length; lia).
  assert (NQ : Q <> []) by (intro X; rewrite X in LQ; cbn [length] in LQ; lia).
  destruct (run_front _ _ _ _ _ _ _ _ Q tv _ _ T' D' (eq_trans LQ (eq_sym Lt)) NQ Ed) as (T1 & D1 & T2 & D2 & -> & -> & E1 & L1).
  rewrite E1. cbn [bind fst snd] in *.
  assert (N1 : T1 <> []) by (intro X; rewrite X in L1; cbn [length] in L1; lia).
  destruct (nmaxl_total T1 N1) as (mx & Ex & Mx). destruct (nminl_total T1 N1) as (mn & En & Mn).
  destruct (nmaxl_total (T1 ++ T2)) as (mx2 & Ex2 & Mx2). { intro X. apply app_eq_nil in X. tauto. }
  destruct (nminl_total (T1 ++ T2)) as (mn2 & En2 & Mn2). { intro X. apply app_eq_nil in X. tauto. }
  rewrite Ex2, En2 in E. rewrite Ex, En. cbn [bind] in *. injection E as <- <- <-. eexists. exists mx, mn, T2, D2. split; [reflexivity|].
  cbn [with_results gh_results fst snd]. repeat apply conj; try reflexivity; [congruence| |].
  - apply Mx2. apply in_or_app. left. apply Mx.
  - apply Mn2. apply in_or_app. left. apply Mn.
Qed.

(** the longer simulation begins with the temperatures of the shorter one, hour by hour *)
Theorem C137_temperatures :
  forall c h s s' r' mx' mn', ready st c h = Ok s -> ready longer c h = Ok s' -> simulated longer s' = (r', Ok (mx', mn')) ->
  exists r mx mn T2 D2, simulated st s = (r, Ok (mx, mn)) /\ fst (gh_results r') = fst (gh_results r) ++ T2 /\ snd (gh_results r') = snd (gh_results r) ++ D2 /\
  length (fst (gh_results r)) = Z.to_nat (8760 * y) /\ mx <= mx' /\ mn' <= mn.
Proof. intros c h s s' r' mx' mn' Es Es' E. exact (simulated_front s s' r' mx' mn' (ready_alike c h s s' Es Es') E). Qed.
(** so the excess of a field over the shorter period is not larger *)
Theorem C137_excess :
  forall c h s x', ready st c h = Ok s -> excess_of longer c h = Ok (Fin x') -> exists x, excess_of st c h = Ok (Fin x) /\ x <= x'.
Proof.
  intros c h s x' Er E. destruct (excess_of_ok _ _ _ _ _ _ _ _ _ _ _ _ _ _ _ _ _ E) as (s' & w & Ew & Er' & Es). assert (w = x') as -> by congruence.
  unfold excess in Es. apply bind_ok in Es. destruct Es as ((mx', mn') & Em & Es). apply Ok_inj in Es. cbn [fst snd st_max_EFT st_min_EFT until] in Es.
  destruct (simulated longer s') as (r' & v) eqn:E'. cbn [snd] in Em. subst v.
  destruct (C137_temperatures c h s s' r' mx' mn' Er Er' E') as (r & mx & mn & T2 & D2 & E1 & _ & _ & _ & X & N).
  exists (cost (st_max_EFT st) (st_min_EFT st) mx mn). split.
  - unfold Program.excess_of, System.calculate_excess. unfold Program.ready in Er. rewrite Er. cbn [bind]. rewrite E1. reflexivity.
  - destruct (C49_cost_is_compliance (st_max_EFT st) (st_min_EFT st) mx mn) as (_ & A1 & A2 & A3). destruct (C49_cost_is_compliance (st_max_EFT st) (st_min_EFT st) mx' mn') as (_ & B1 & B2 & B3).
    cbn zeta in *. rewrite <- Es in *. lra.
Qed.
(** a field that keeps the limits for the longer period keeps them for the shorter one *)
Theorem C137_keeps :
  forall c h, (exists s, ready st c h = Ok s) -> keeps_strictly longer c h -> keeps_strictly st c h.
Proof.
  intros c h (s & Er) (s' & Er' & r' & (mx', mn') & E & K). exists s. split; [exact Er|].
  destruct (C137_temperatures c h s s' r' mx' mn' Er Er' E) as (r & mx & mn & T2 & D2 & E1 & F & _). exists r, (mx, mn). split; [exact E1|].
  intros T HT. apply K. rewrite F. apply in_or_app. now left.
Qed.
Lemma period_fin f h v : excess_of st f h = Ok v -> exists q, v = Fin q.
Proof. intro E. destruct (excess_of_ok _ _ _ _ _ _ _ _ _ _ _ _ _ _ _ _ _ E) as (s & w & Ew & _). eauto. Qed.
Lemma period_keeps f h q : excess_of st f h = Ok (Fin q) -> q < 0 -> keeps_strictly st f h.
Proof.
  intros E Hq. destruct (excess_of_ok _ _ _ _ _ _ _ _ _ _ _ _ _ _ _ _ _ E) as (s & x & Ex & Er & Es). assert (x = q) as -> by congruence.
  exists s. split; [exact Er|]. now apply (excess_complies h_circular h_annulus r_conduction eff_u eff_c brentq solver interp st m_hourly s q Es).
Qed.

(** ** the search *)
Variable brentq_dialogue : R -> R -> dialogue.
Notation program st := (program h_circular h_annulus r_conduction eff_u eff_c brentq solver interp field_response brentq_dialogue st m_hourly flow V_flow log_time).
(** every candidate can be evaluated over the shorter period at the maximum height, the first one at the minimum height as well, and none meets a limit exactly *)
Definition judged (d : list (list (R * R))) : Prop :=
  forall f h, In f d -> h = maxH \/ h = minH /\ nth_error d 0 = Some f -> exists x, excess_of st f h = Ok (Fin x) /\ x <> 0.
Lemma judged_well_behaved d : judged d -> well_behaved _ (can_build st) (excess_of st) minH maxH d.
Proof.
  intros Ev f h Hf Hh. destruct (Ev f h Hf ltac:(tauto)) as (x & Ex & Hx). split.
  - destruct (excess_of_ok _ _ _ _ _ _ _ _ _ _ _ _ _ _ _ _ _ Ex) as (s & w & _ & Er & _). exists tt. unfold Program.can_build. rewrite Er. reflexivity.
  - exists (Fin x). split; [exact Ex|]. destruct (Rtotal_order x 0) as [X|[X|X]]; [right; exists x|contradiction|left; exists x]; (split; [reflexivity|]); rewrite val_R; lra.
Qed.
Lemma judged_le d f q : judged d -> In f d -> excess_of longer f maxH = Ok (Fin q) -> exists q', excess_of st f maxH = Ok (Fin q') /\ q' <= q.
Proof.
  intros Ev Hf Eq. destruct (Ev f maxH Hf ltac:(auto)) as (x & Ex & _). destruct (excess_of_ok _ _ _ _ _ _ _ _ _ _ _ _ _ _ _ _ _ Ex) as (s & w & _ & Er & _).
  exact (C137_excess f maxH s q Er Eq).
Qed.

(** partial: if more boreholes have the smaller excess and one borehole that is enough when shallow is enough when deep, the design for the shorter
    period has no more boreholes, or it fails with ValueError and then a single borehole keeps the limits over that period at either height *)
Theorem C137_rectangle_partial :
  forall gc L W bmin bmax H k c s d, rectangle_inputs gc L W bmin bmax -> rectangular L W bmin bmax = Ok d -> (zlen d <= 32769)%Z ->
  (exists s0, ready st [(0, 0)] H = Ok s0) -> judged d -> more_is_better (excess_of st) maxH d ->
  deeper_helps (excess_of longer) minH maxH [(0, 0)] -> deeper_helps (excess_of st) minH maxH [(0, 0)] ->
  program longer gc rectangle_routine H = Ok (Some (k, c), s) ->
  (exists k' c' s', program st gc rectangle_routine H = Ok (Some (k', c'), s') /\ (length c' <= length c)%nat) \/
  (program st gc rectangle_routine H = Err ValueError /\ keeps_strictly st [(0, 0)] minH /\ keeps_strictly st [(0, 0)] maxH).
Proof.
  intros gc L W bmin bmax H k c s d Hin Ed Hn (s0 & R0) Ev Hb Hd Hd' E. unfold Program.program in *.
  change (st_min_H longer) with minH in E. change (st_max_H longer) with maxH in E.
  match type of E with Design.design ?b ?e ?z _ _ _ _ _ = _ => destruct (rectangle_design_eq b e z minH maxH gc L W bmin bmax H Hin) as (d1 & Ed1 & Eq1) end.
  rewrite Eq1 in E. assert (d1 = d) as -> by (apply Ok_inj; now rewrite <- Ed1). clear Ed1 Eq1.
  match goal with |- context [Design.design ?b ?e ?z minH _ _ _ _] => destruct (rectangle_design_eq b e z minH maxH gc L W bmin bmax H Hin) as (d1 & Ed1 & Eq1) end.
  assert (d1 = d) as -> by (apply Ok_inj; now rewrite <- Ed1). rewrite !Eq1.
  destruct Hin as (_ & _ & _ & _ & P1 & P2 & P3 & P4). destruct (C10_rectangular_grows L W bmin bmax d P1 P2 P3 P4 Ed) as (Hs & Hd0).
  destruct (built_first _ _ _ _ _ _ _ E) as (c0 & H0 & _).
  assert (c0 = [(0, 0)]) as ->. { destruct Hd0 as [->|(rest & ->)]; cbn in H0; congruence. }
  destruct (easier_among (can_build longer) (can_build st) (excess_of longer) (excess_of st) minH maxH d H k c s [(0, 0)] E H0
    ltac:(exists tt; unfold Program.can_build; rewrite R0; reflexivity) Hs Hn Hb (judged_well_behaved d Ev) Hd Hd') as [A|(A & ql & qu & El & Hl & Eu & Hu)].
  - intros f q Hf Eq. exact (judged_le d f q Ev Hf Eq).
  - apply period_fin.
  - left. exact A.
  - right. split; [exact A|]. split; eapply period_keeps; eassumption.
Qed.
Theorem C137_near_square_partial :
  forall gc L B H k c s n d, near_square_inputs gc L B -> number_of_boreholes L B false = Ok n -> square_and_near_square 1 n B = Ok d -> (n <= 16384)%Z ->
  (exists s0, ready st [(0, 0)] H = Ok s0) -> judged d -> more_is_better (excess_of st) maxH d ->
  deeper_helps (excess_of longer) minH maxH [(0, 0)] -> deeper_helps (excess_of st) minH maxH [(0, 0)] ->
  program longer gc near_square H = Ok (Some (k, c), s) ->
  (exists k' c' s', program st gc near_square H = Ok (Some (k', c'), s') /\ (length c' <= length c)%nat) \/
  (program st gc near_square H = Err ValueError /\ keeps_strictly st [(0, 0)] minH /\ keeps_strictly st [(0, 0)] maxH).
Proof.
  intros gc L B H k c s n d Hin En Ed Hn (s0 & R0) Ev Hb Hd Hd' E. unfold Program.program in *.
  change (st_min_H longer) with minH in E. change (st_max_H longer) with maxH in E.
  match type of E with Design.design ?b ?e ?z _ _ _ _ _ = _ => destruct (near_square_design_eq b e z minH maxH gc L B H Hin) as (n1 & d1 & En1 & Hn1 & _ & Ed1 & Eq1) end.
  rewrite Eq1 in E. assert (n1 = n) as -> by (apply Ok_inj; now rewrite <- En1). assert (d1 = d) as -> by (apply Ok_inj; now rewrite <- Ed1). clear Ed1 Eq1 En1.
  match goal with |- context [Design.design ?b ?e ?z minH _ _ _ _] => destruct (near_square_design_eq b e z minH maxH gc L B H Hin) as (n1 & d1 & En1 & _ & _ & Ed1 & Eq1) end.
  assert (n1 = n) as -> by (apply Ok_inj; now rewrite <- En1). assert (d1 = d) as -> by (apply Ok_inj; now rewrite <- Ed1). rewrite !Eq1.
  destruct (C07_square_domain 1 n B ltac:(lia)) as (d2 & Ed2 & Ec & Es & Hs). assert (d2 = d) as -> by (apply Ok_inj; now rewrite <- Ed2).
  assert (H0 : nth_error d 0 = Some [(0, 0)]). { rewrite Ec, zrange_cons by lia. cbn [flat_map app nth_error]. now rewrite grid_field_1. }
  assert (Hl : (zlen d <= 32769)%Z). { rewrite Ec. rewrite (zlen_flat_map_const _ _ 2) by (intros; reflexivity). rewrite zrange_zlen. lia. }
  destruct (easier_among (can_build longer) (can_build st) (excess_of longer) (excess_of st) minH maxH d H k c s [(0, 0)] E H0
    ltac:(exists tt; unfold Program.can_build; rewrite R0; reflexivity) Hs Hl Hb (judged_well_behaved d Ev) Hd Hd') as [A|(A & ql & qu & El & Hll & Eu & Hu)].
  - intros f q Hf Eq. exact (judged_le d f q Ev Hf Eq).
  - apply period_fin.
  - left. exact A.
  - right. split; [exact A|]. split; eapply period_keeps; eassumption.
Qed.
End World.

(** ** the plant of C95 to C97, for one year and for two *)
Lemma two_years_reach sec : 60000 <= sec -> 3600 * IZR (8760 * 2) <= sec * exp (17 / 2) * exp (last eskilson 0).
Proof.
  intro Hs. pose proof (eskilson_reach (sec / 2) ltac:(lra)) as X. rewrite mult_IZR in *.
  replace (sec * exp (17 / 2) * exp (last eskilson 0)) with (2 * (sec / 2 * exp (17 / 2) * exp (last eskilson 0))) by field. lra.
Qed.
Lemma two_years_evaluate n : (60000 <= n)%Z -> (n mod 120 <> 0)%Z -> exists A : nat -> R, forall hi lo mxH mnH V c, 0 < V -> c <> [] ->
  let st := until 24 (plant hi lo mxH mnH) in
  exists s s' T D mx mn, plant_ready st V c (height_for (IZR n)) = Ok s /\ plant_simulated st s = (s', Ok (mx, mn)) /\ gh_results s' = (T, D) /\
  length T = Z.to_nat 17520 /\ is_max mx T /\ is_min mn T /\
  forall i, (1 <= i <= Z.to_nat 17520)%nat -> at_step T i = 18 + (A i + 1000 / (2 * (V / 1000 * 998) * 4182)) / INR (length c).
Proof.
  intros Hn Hd. destruct eskilson_head as (r & Er). destruct (plant_utube (IZR n)) as (u & Hu).
  destruct (plant_bhe 0 0 0 0 1) as (e0 & E0 & Hu0). assert (Hn1 : 60000 <= IZR n) by (apply (IZR_le 60000); lia).
  destruct (Hu0 (IZR n) ltac:(lra)) as (Ad & Ts). rewrite (proj1 (Hu _ _ _ _ _ _ E0)) in Ad, Ts. clear e0 E0 Hu0.
  destruct (not_a_short_time n Hd ltac:(lia)) as (S1 & S2).
  assert (Et : t_s u * exp (- (17 / 2)) = IZR n).
  { rewrite Ts, Rmult_assoc, <- exp_plus. replace (17 / 2 + - (17 / 2)) with 0 by ring. rewrite exp_0. ring. }
  assert (Hh : 0 < height_for (IZR n)) by (apply height_positive; lra).
  destruct (System_fuel thomas u) as ((sts, gs) & Es).
  destruct (C89_g_function_range thomas u _ sts gs eskilson (map (fun g => g - ln (75 / 1000 / (75 / 1000))) eskilson) (- (17 / 2)) r Ad Es Er eskilson_increasing ltac:(apply map_length)
    ltac:(rewrite Et; exact S1) ltac:(intro j; rewrite Et; apply S2)) as (x & y & Ec & _ & _ & Gr).
  set (Q := map (fun z => -1 * z) (concat (repeat (repeat 1000 (Z.to_nat 8760)) (Z.to_nat 2)))).
  set (t := map IZR (zrange 1 (Z.of_nat (Z.to_nat 17520) + 1))).
  assert (LQ : length Q = Z.to_nat 17520) by (unfold Q; rewrite map_length, repeat_concat_length, repeat_length; lia).
  assert (Lt : length t = Z.to_nat 17520) by (unfold t; rewrite map_length, zrange_length; lia).
  assert (QV : forall i, (1 <= i <= Z.to_nat 17520)%nat -> at_step Q i = -1000).
  { intros i Hi. destruct i as [|i]; [lia|]. cbn [at_step]. assert (X : forall v, In v Q -> v = -1000).
    { unfold Q. intros v Hx. apply in_map_iff in Hx. destruct Hx as (w & <- & Hw). apply in_concat in Hw. destruct Hw as (l & Hl & Hw). apply repeat_spec in Hl. subst l. apply repeat_spec in Hw. subst w. lra. }
    apply X. apply nth_In. lia. }
  set (G := value_or_0 (g_lag x y (t_s u))).
  assert (Cov : covers (g_lag x y (t_s u)) G t (length Q)).
  { intros i j Hij. rewrite LQ in Hij. assert (X : 3600 * INR (Z.to_nat 17520) <= t_s u * exp (last eskilson 0)).
    { rewrite Ts, INR_IZR_INZ. change (Z.of_nat (Z.to_nat 17520)) with (8760 * 2)%Z. apply two_years_reach. lra. }
    assert (Y := proj2 (C90_hourly_times (t_s u * exp (last eskilson 0)) (Z.to_nat 17520) ltac:(lia)) X i j Hij). fold t in Y.
    destruct (Gr (at_step t i - at_step t j)) as (G1 & _). destruct (G1 Y) as (w & Ew & _). unfold G, value_or_0. rewrite Ew. reflexivity. }
  set (H := height_for (IZR n)) in *. pose proof PI_RGT_0 as PP.
  exists (fun i => wall_rise G (fun k => at_step Q k / 1 / H / (2 * PI * 2)) (at_step t) i + -1000 / H * (15 / 100)).
  intros hi lo mxH mnH V c HV Hc st.
  assert (Lc : (1 <= length c)%nat) by (destruct c; [congruence|cbn; lia]).
  destruct (plant_bhe hi lo mxH mnH (V / 1000 * 998)) as (e & Ee & _). destruct (Hu _ _ _ _ _ _ Ee) as (Eu & Eq & Re).
  assert (Ex : exists x, calculate_excess plant_film plant_annulus plant_wall plant_Rb plant_Rc plant_root thomas plant_lookup plant_response st flow_borehole V eskilson m_hourly c H = Ok x).
  { apply (C94_hourly_field plant_film plant_annulus plant_wall plant_Rb plant_Rc plant_root thomas plant_lookup plant_response st m_hourly flow_borehole V eskilson
      c H (V * INR (length c)) (V / 1000 * 998) (Single e) e eskilson (- (17 / 2)) r 2); try reflexivity; try assumption.
    - lia.
    - cbn. lra.
    - cbn. rewrite pydiv_R by lra. cbn. unfold zlen. rewrite <- INR_IZR_INZ. reflexivity.
    - cbn. lra.
    - exact solver_exists.
    - change (admissible (utube_of plant_Rb (plant hi lo mxH mnH) H e)). rewrite Eu. exact Ad.
    - rewrite <- Er. exact eskilson_increasing.
    - rewrite Er. reflexivity.
    - change (utube_of plant_Rb st H e) with (utube_of plant_Rb (plant hi lo mxH mnH) H e). rewrite Eu, Et. exact S1.
    - intro j. change (utube_of plant_Rb st H e) with (utube_of plant_Rb (plant hi lo mxH mnH) H e). rewrite Eu, Et. apply S2.
    - intros rej ext E. apply (plant_clear hi lo mxH mnH rej ext E).
    - cbn [st_start st_end st until plant]. rewrite <- Er. change (utube_of plant_Rb st H e) with (utube_of plant_Rb (plant hi lo mxH mnH) H e).
      rewrite Eu, Ts. apply two_years_reach. lra. }
  destruct Ex as (ex & Ex). destruct (C93_excess_is_compliance _ _ _ _ _ _ _ _ _ _ _ _ _ _ _ _ ex Ex) as (s & s' & mx & mn & Vb & g & B & Eb & Er' & _ & EH & En & _ & _ & _ & EB & Eg & Egf & EgB).
  assert (Eg' : g = eskilson) by (unfold plant_response in Eg; congruence). subst g. clear Eg.
  destruct (sim_extremes _ _ _ _ _ _ _ _ _ _ _ _ _ _ Er') as (Mx & Mn).
  assert (Q1 : simulated_loads m_hourly (st_start st) (st_end st) (st_loads st) (gh_load s) (gh_hour s) = Ok (Q, t)).
  { rewrite (hourly_loads_ok (st_start st) (st_end st) (st_loads st) (gh_load s) (gh_hour s) 2) by (cbn; lia). reflexivity. }
  destruct (C50_superposition (g_lag x y (t_s u)) G (INR (length c)) H (2 * PI * 2) 18 (15 / 100) (V / 1000 * 998) 4182 Q t) as (T & D & Ed & LT & LD & F).
  { apply not_0_INR. lia. } { lra. } { lra. } { lra. } { intro X. rewrite X in LQ. cbn [length] in LQ. lia. } { lia. } { exact Cov. }
  assert (Res : gh_results s' = (T, D)).
  { assert (Er2 := Er'). unfold ghe_simulate in Er2. rewrite EH, EgB in Er2. assert (PB := spacing_positive st c B ltac:(cbn; lra) EB).
    rewrite pydiv_R in Er2 by lra. cbn [with_bhe gh_bhe] in Er2.
    assert (Eb2 : update_bhe plant_film plant_annulus plant_wall plant_Rb plant_Rc H (gh_bhe s) = Single e).
    { destruct (ready_inv _ _ _ _ _ _ _ _ _ _ _ _ _ _ _ Eb) as (V1 & mf & B' & g' & b & A1 & _ & _ & A4 & _ & _ & _ & A8 & _).
      assert (mf = V / 1000 * 998). { cbn in A1. rewrite pydiv_R in A1 by lra. cbn in A1. congruence. } subst mf.
      rewrite A8, (made_updated _ _ _ _ _ _ _ _ _ A4). apply Ok_inj. rewrite <- A4. exact Ee. }
    rewrite Eb2, Eq in Er2. unfold short_time in Er2. change (utube_of plant_Rb st H e) with (utube_of plant_Rb (plant hi lo mxH mnH) H e) in Er2. rewrite Eu, Es in Er2. cbn [bind] in Er2.
    cbn [with_short_time with_eq with_bhe gh_gf gh_sts gh_ts gh_nbh gh_bhe gh_load gh_hour fst snd] in Er2. rewrite Egf in Er2.
    assert (I1 := proj1 (C56_stored_height_partial plant_lookup (gh_gf s) H {| cv_g := eskilson; cv_rb := st_rb st; cv_D := st_D st |} (B / H)
      ltac:(rewrite Egf; reflexivity) Hh ltac:(apply Rgt_not_eq, Rdiv_lt_0_compat; lra) ltac:(rewrite Egf; cbn [gf_B]; field; lra))).
    rewrite Egf in I1. unfold grab_g_function in Er2.
    destruct (g_function_interpolation plant_lookup _ (B / H) k_default) as (tb & rg). cbn [snd cv_g cv_rb cv_D] in I1. subst rg. cbn [bind gf_log_time] in Er2.
    change (combine_sts_lts eskilson (borehole_radius_correction eskilson (st_rb st) (st_rb st)) sts gs = Ok (x, y)) in Ec.
    rewrite Ec in Er2. cbn [fst snd] in Er2. cbn [with_gf with_short_time with_eq with_bhe gh_gf gh_sts gh_ts gh_nbh gh_bhe gh_load gh_hour fst snd] in Er2. rewrite Re, En, <- INR_IZR_INZ in Er2.
    unfold simulate in Er2. rewrite Q1 in Er2. cbn [bind fst snd] in Er2.
    rewrite (made_flow plant_film plant_annulus plant_wall st _ _ Ee) in Er2.
    change (st_soil_k st) with 2 in Er2. change (st_ugt st) with 18 in Er2. change (fl_cp (st_fluid st)) with 4182 in Er2. rewrite Ed in Er2. cbn [bind fst snd] in Er2.
    destruct (nmaxl T); [|discriminate]. destruct (nminl T); [|discriminate]. cbn [bind] in Er2. now injection Er2 as <- _ _. }
  rewrite Res in Mx, Mn. exists s, s', T, D, mx, mn. split; [exact Eb|]. split; [exact Er'|]. split; [exact Res|]. split; [congruence|].
  split; [exact Mx|]. split; [exact Mn|]. intros i Hi. destruct (F i ltac:(lia)) as (_ & ->). rewrite (QV i Hi).
  assert (Nc : INR (length c) <> 0) by (apply not_0_INR; lia).
  assert (W : wall_rise G (fun k => at_step Q k / INR (length c) / H / (2 * PI * 2)) (at_step t) i = wall_rise G (fun k => at_step Q k / 1 / H / (2 * PI * 2)) (at_step t) i / INR (length c)).
  { unfold wall_rise. match goal with |- _ = ?a / ?b => change (a / b) with (a * / b) end. rewrite <- sumf_scal. apply sumf_ext. intros j _. field. repeat split; lra. }
  rewrite W. field. repeat split; lra.
Qed.
(** [N] hours with temperatures 18 + (A i + 8 M) / boreholes, where A lies within M: one borehole is too little, two are enough *)
Definition hours_like (st : settings) (V h M : R) (A : nat -> R) (N : nat) (c : list (R * R)) : Prop :=
  exists s s' T D mx mn, plant_ready st V c h = Ok s /\ plant_simulated st s = (s', Ok (mx, mn)) /\ gh_results s' = (T, D) /\
  length T = N /\ is_max mx T /\ is_min mn T /\ forall i, (1 <= i <= N)%nat -> at_step T i = 18 + (A i + 8 * M) / INR (length c).
Definition one_too_little (st : settings) (V h : R) : Prop :=
  forall c, c <> [] -> exists s x, plant_ready st V c h = Ok s /\ plant_excess st V c h = Ok (Fin x) /\ (length c = 1%nat -> 0 < x) /\ ((2 <= length c)%nat -> x < 0) /\
  forall c' x', (length c < length c')%nat -> plant_excess st V c' h = Ok (Fin x') -> x' < x.
Lemma too_little st V h M A N : 1 <= M -> st_max_EFT st = 18 + 6 * M -> st_min_EFT st = - 100 * M -> (forall i, (i <= N)%nat -> - M <= A i <= M) ->
  (forall c, c <> [] -> hours_like st V h M A N c) -> one_too_little st V h.
Proof.
  intros HM Hhi Hlo B F.
  assert (W : forall c, c <> [] -> exists s x, plant_ready st V c h = Ok s /\ plant_excess st V c h = Ok (Fin x) /\
    (exists i, (1 <= i <= N)%nat /\ x = (A i + 8 * M) / INR (length c) - 6 * M) /\ forall i, (1 <= i <= N)%nat -> (A i + 8 * M) / INR (length c) - 6 * M <= x).
  { intros c Hc. destruct (F c Hc) as (s & s' & T & D & mx & mn & E1 & E2 & E3 & LT & (I1 & G1) & (I2 & _) & FT). exists s, (mx - (18 + 6 * M)). split; [exact E1|].
    apply In_nth with (d := 0) in I1. destruct I1 as (k & Hk & Ek). apply In_nth with (d := 0) in I2. destruct I2 as (j & Hj & Ej).
    assert (Lc : 1 <= INR (length c)) by (apply (le_INR 1); destruct c; [congruence|cbn [length]; lia]).
    assert (Low : forall i, (i <= N)%nat -> 0 < (A i + 8 * M) / INR (length c)) by (intros i Hi; specialize (B i Hi); apply Rdiv_lt_0_compat; lra).
    assert (Ex : mx = 18 + (A (S k) + 8 * M) / INR (length c)) by (rewrite <- FT by lia; symmetry; exact Ek).
    assert (En : mn = 18 + (A (S j) + 8 * M) / INR (length c)) by (rewrite <- FT by lia; symmetry; exact Ej).
    pose proof (Low (S k) ltac:(lia)). pose proof (Low (S j) ltac:(lia)).
    assert (EC : cost (st_max_EFT st) (st_min_EFT st) mx mn = mx - (18 + 6 * M)).
    { rewrite Hhi, Hlo. destruct (C49_cost_is_compliance (18 + 6 * M) (- 100 * M) mx mn) as (_ & C1 & _ & [C3|C3]); [exact C3|]. exfalso. rewrite C3 in C1. lra. }
    split. { unfold excess_of, System.calculate_excess. unfold ready in E1. rewrite E1. cbn [bind]. rewrite E2. cbn [snd excess bind fst]. unfold excess. cbn [bind fst snd]. rewrite EC. reflexivity. }
    split. { exists (S k). split; [lia|lra]. }
    intros i Hi. assert (In (at_step T i) T) as Hin by (destruct i as [|i]; [lia|]; cbn [at_step]; apply nth_In; lia). specialize (G1 _ Hin). rewrite (FT i Hi) in G1. lra. }
  intros c Hc. destruct (W c Hc) as (s & x & E1 & E2 & (i & Hi & ->) & Top). assert (Bi := B i ltac:(lia)).
  exists s. eexists. split; [exact E1|]. split; [exact E2|].
  split; [intro Lc; rewrite Lc; cbn [INR]; lra|].
  split. { intro L2. assert (2 <= INR (length c)) by (apply (le_INR 2); exact L2).
    assert ((A i + 8 * M) / INR (length c) <= 9 * M / 2); [|lra]. apply Rmult_le_reg_r with (INR (length c)); [lra|]. unfold Rdiv at 1. rewrite Rmult_assoc, Rinv_l by lra. nra. }
  intros c' x' Hlt E'. assert (Hc' : c' <> []) by (intros ->; cbn in Hlt; lia). destruct (W c' Hc') as (s1 & x1 & _ & F2 & (j & Hj & ->) & _).
  assert (x' = (A j + 8 * M) / INR (length c') - 6 * M) as -> by congruence. assert (Bj := B j ltac:(lia)). specialize (Top j Hj).
  eapply Rlt_le_trans; [|exact Top]. apply Rplus_lt_compat_r. apply Rmult_lt_compat_l; [lra|]. apply Rinv_lt_contravar; [|apply lt_INR; exact Hlt].
  apply Rmult_lt_0_compat; apply lt_0_INR; destruct c; cbn [length] in *; try congruence; lia.
Qed.
(** limits and a flow for which this holds over one year and over two *)
Lemma either_period : exists V hi lo, let st := plant hi lo high_height low_height in
  one_too_little st V low_height /\ one_too_little st V high_height /\ one_too_little (until 24 st) V low_height /\ one_too_little (until 24 st) V high_height.
Proof.
  destruct (two_years_evaluate 60030 ltac:(lia) ltac:(vm_compute; discriminate)) as (A1 & F1). destruct (two_years_evaluate 120060 ltac:(lia) ltac:(vm_compute; discriminate)) as (A2 & F2).
  destruct (plant_evaluates 60030 ltac:(lia) ltac:(vm_compute; discriminate)) as (A3 & F3). destruct (plant_evaluates 120060 ltac:(lia) ltac:(vm_compute; discriminate)) as (A4 & F4).
  destruct (bounded A1 (Z.to_nat 17520)) as (M1 & P1 & B1). destruct (bounded A2 (Z.to_nat 17520)) as (M2 & P2 & B2).
  set (M := M1 + M2 + 1). set (V := 1000000 / (2 * 998 * 4182 * (8 * M))).
  assert (HM : 1 <= M) by (unfold M; lra). assert (HV : 0 < V) by (apply Rdiv_lt_0_compat; lra).
  assert (EV : 1000 / (2 * (V / 1000 * 998) * 4182) = 8 * M) by (unfold V; field; lra).
  exists V, (18 + 6 * M), (- 100 * M). intro st.
  assert (W2 : forall h A, (forall c, c <> [] -> hours_like (until 24 st) V h M A (Z.to_nat 17520) c) -> (forall c, c <> [] -> exists s, plant_ready st V c h = Ok s) ->
    forall c, c <> [] -> hours_like st V h M A (Z.to_nat 8760) c).
  { intros h A F Rd c Hc. destruct (F c Hc) as (s' & r' & T & D & mx' & mn' & E1 & E2 & E3 & LT & _ & _ & FT). destruct (Rd c Hc) as (s & Es).
    destruct (C137_temperatures plant_film plant_annulus plant_wall plant_Rb plant_Rc plant_root thomas plant_lookup plant_response st flow_borehole V eskilson 24 1 2
      ltac:(lia) eq_refl eq_refl ltac:(apply repeat_length) c h s s' r' mx' mn' Es E1 E2) as (r & mx & mn & T2 & D2 & S1 & S2 & _ & S4 & _).
    rewrite E3 in S2. cbn [fst] in S2. destruct (sim_extremes _ _ _ _ _ _ _ _ _ _ _ _ _ _ S1) as (Mx & Mn). destruct (gh_results r) as (T1, D1) eqn:Er. cbn [fst] in *.
    exists s, r, T1, D1, mx, mn. split; [exact Es|]. split; [exact S1|]. split; [exact Er|]. split; [exact S4|]. split; [exact Mx|]. split; [exact Mn|].
    intros i Hi. rewrite <- FT by lia. rewrite S2. destruct i as [|i]; [lia|]. cbn [at_step]. rewrite app_nth1 by lia. reflexivity. }
  assert (L1 : forall c, c <> [] -> hours_like (until 24 st) V low_height M A1 (Z.to_nat 17520) c).
  { intros c Hc. unfold hours_like. rewrite <- EV. exact (F1 (18 + 6 * M) (- 100 * M) high_height low_height V c HV Hc). }
  assert (L2 : forall c, c <> [] -> hours_like (until 24 st) V high_height M A2 (Z.to_nat 17520) c).
  { intros c Hc. unfold hours_like. rewrite <- EV. exact (F2 (18 + 6 * M) (- 100 * M) high_height low_height V c HV Hc). }
  assert (R1 : forall c, c <> [] -> exists s, plant_ready st V c low_height = Ok s).
  { intros c Hc. destruct (F3 (18 + 6 * M) (- 100 * M) high_height low_height V c HV Hc) as (s & s' & T & D & mx & mn & E & _). exists s. exact E. }
  assert (R2 : forall c, c <> [] -> exists s, plant_ready st V c high_height = Ok s).
  { intros c Hc. destruct (F4 (18 + 6 * M) (- 100 * M) high_height low_height V c HV Hc) as (s & s' & T & D & mx & mn & E & _). exists s. exact E. }
  clear F1 F2 F3 F4. repeat apply conj.
  - apply (too_little _ _ _ M A1 (Z.to_nat 8760)); try reflexivity; [exact HM| |apply W2; assumption]. intros i Hi. specialize (B1 i ltac:(lia)). unfold M. lra.
  - apply (too_little _ _ _ M A2 (Z.to_nat 8760)); try reflexivity; [exact HM| |apply W2; assumption]. intros i Hi. specialize (B2 i ltac:(lia)). unfold M. lra.
  - apply (too_little _ _ _ M A1 (Z.to_nat 17520)); try reflexivity; [exact HM| |exact L1]. intros i Hi. specialize (B1 i ltac:(lia)). unfold M. lra.
  - apply (too_little _ _ _ M A2 (Z.to_nat 17520)); try reflexivity; [exact HM| |exact L2]. intros i Hi. specialize (B2 i ltac:(lia)). unfold M. lra.
Qed.
Lemma garden_facts st V f2 f4 : length f2 = 2%nat -> length f4 = 4%nat -> one_too_little st V low_height -> one_too_little st V high_height ->
  let d := [[(0, 0)]; f2; f4] in
  well_behaved _ (can_build plant_film plant_annulus plant_wall plant_Rb plant_Rc plant_root thomas plant_response st flow_borehole V eskilson) (plant_excess st V) low_height high_height d /\
  strictly_increasing (sizes d) /\ more_is_better (plant_excess st V) high_height d /\ (forall f, In f d -> exists q, plant_excess st V f high_height = Ok (Fin q)) /\
  deeper_helps (plant_excess st V) low_height high_height [(0, 0)].
Proof.
  intros L2 L4 Wl Wh d.
  assert (Hd : forall f, In f d -> f <> [] /\ (length f = 1 \/ 2 <= length f)%nat).
  { intros f [<- |[<- |[<- |[]]]]; (split; [intro X; first [discriminate|rewrite X in *; discriminate]|cbn [length]; lia]). }
  repeat apply conj.
  - intros f h Hf Hh. destruct (Hd f Hf) as (Nf & Lf). assert (W : one_too_little st V h) by (assert (X : h = low_height \/ h = high_height) by tauto; destruct X as [X|X]; rewrite X; assumption).
    destruct (W f Nf) as (s & x & Er & Ex & P & N & _). split; [exists tt; unfold Program.can_build; rewrite Er; reflexivity|]. exists (Fin x). split; [exact Ex|].
    destruct Lf as [Lf|Lf]; [left|right]; exists x; (split; [reflexivity|]); rewrite val_R; [now apply P|now apply N].
  - unfold d, sizes, strictly_increasing. cbn [map length]. rewrite L2, L4. repeat (constructor; cbn; try lia).
  - intros f f' q q' Hf Hf' Hlt Eq Eq'. rewrite !val_R. destruct (Wh f (proj1 (Hd f Hf))) as (s & x & _ & Ex & _ & _ & Less). assert (x = q) as -> by congruence. specialize (Less f' q' Hlt Eq'). lra.
  - intros f Hf. destruct (Wh f (proj1 (Hd f Hf))) as (s & x & _ & Ex & _). eauto.
  - intros q q' Eq _ Hq. exfalso. rewrite val_R in Hq. destruct (Wl [(0, 0)] ltac:(discriminate)) as (s & x & _ & Ex & P & _). specialize (P eq_refl). assert (x = q) by congruence. lra.
Qed.
(** the search over the candidates of the garden selects two boreholes *)
Lemma garden_two st V : st_max_H st = high_height -> st_min_H st = low_height -> one_too_little st V low_height -> one_too_little st V high_height ->
  exists k c s, plant_program st V garden rectangle_routine high_height = Ok (Some (k, c), s) /\ length c = 2%nat.
Proof.
  intros HH Hh Wl Wh. destruct garden_candidates as (f2 & f4 & Ed & L2 & L4). destruct (garden_facts st V f2 f4 L2 L4 Wl Wh) as (S1 & S2 & S3 & S4 & S5).
  unfold Program.program. rewrite HH, Hh.
  match goal with |- context [Design.design ?b ?e ?z _ _ _ _ _] => destruct (rectangle_design_eq b e z low_height high_height garden 6 6 5 6 high_height garden_inputs) as (d1 & Ed1 & Eq1) end.
  rewrite Eq1. assert (d1 = [[(0, 0)]; f2; f4]) as -> by (apply Ok_inj; now rewrite <- Ed1). clear Ed1 Eq1.
  destruct (Wh [(0, 0)] ltac:(discriminate)) as (s0 & x0 & R0 & E0 & P0 & _).
  assert (B0 : can_build plant_film plant_annulus plant_wall plant_Rb plant_Rc plant_root thomas plant_response st flow_borehole V eskilson [(0, 0)] high_height = Ok tt) by (unfold Program.can_build; rewrite R0; reflexivity).
  destruct (one_domain_outcome _ _ low_height high_height [[(0, 0)]; f2; f4] high_height tt [(0, 0)] eq_refl B0 S1)
    as (cR & tl & tu & tm & ER & El & Eu & Em & Out).
  destruct Out as [((k & c & s & E) & _)|(_ & _ & SS)].
  - exists k, c, s. split; [exact E|]. destruct (one_domain_smallest _ _ low_height high_height _ high_height k c s E S2 ltac:(vm_compute; discriminate) S3 S4) as (Ad & Best).
    { intros f Hf. cbn [nth_error] in Hf. assert (f = [(0, 0)]) as -> by congruence. exact S5. }
    destruct (one_domain_selection _ _ low_height high_height _ high_height _ s E) as (k1 & c1 & Ek & Hc & _). assert (c1 = c) as -> by congruence. apply nth_error_In in Hc.
    assert (A2 : (length c <= length f2)%nat).
    { apply Best; [right; left; reflexivity|]. destruct (Wh f2 ltac:(intros ->; discriminate)) as (_ & x2 & _ & E2 & _ & N2 & _). exists x2. split; [exact E2|]. rewrite val_R. specialize (N2 ltac:(lia)). lra. }
    destruct Hc as [<- |[<- |[<- |[]]]]; [|exact L2|lia]. exfalso. destruct Ad as (q & Eq & Hq). rewrite val_R in Hq. specialize (P0 eq_refl).
    assert (x0 = q) by congruence. lra.
  - exfalso. assert (cR = f4) as -> by (cbn in ER; congruence). destruct (Wh f4 ltac:(intros ->; discriminate)) as (_ & x4 & _ & E4 & _ & N4 & _).
    specialize (P0 eq_refl). specialize (N4 ltac:(lia)). assert (tu = Fin x0) as -> by congruence. assert (tm = Fin x4) as -> by congruence.
    destruct SS as [((a & Ea & Pa) & (b & Eb & Pb))|((a & Ea & Pa) & (b & Eb & Pb))]; rewrite val_R in Pa, Pb; assert (a = x0) by congruence; assert (b = x4) by congruence; lra.
Qed.

(** the plant designed for one year and for two: the conditions of the partial theorem hold, and both designs have two boreholes *)
Example C137_example : exists V hi lo, let st := plant hi lo high_height low_height in
  let P := fun st => plant_program st V garden rectangle_routine high_height in
  (1 <= 1 <= 2)%Z /\ st_end st = (st_start st + 12 * 1 - 1)%Z /\ 24%Z = (st_start st + 12 * 2 - 1)%Z /\ length (st_loads st) = Z.to_nat 8760 /\
  rectangle_inputs garden 6 6 5 6 /\
  (exists d, rectangular 6 6 5 6 = Ok d /\ (zlen d <= 32769)%Z /\ (exists s0, plant_ready st V [(0, 0)] high_height = Ok s0) /\
    judged plant_film plant_annulus plant_wall plant_Rb plant_Rc plant_root thomas plant_lookup plant_response st flow_borehole V eskilson d /\
    more_is_better (plant_excess st V) high_height d) /\
  deeper_helps (plant_excess (until 24 st) V) low_height high_height [(0, 0)] /\ deeper_helps (plant_excess st V) low_height high_height [(0, 0)] /\
  (exists k c s, P (until 24 st) = Ok (Some (k, c), s) /\ length c = 2%nat) /\ (exists k c s, P st = Ok (Some (k, c), s) /\ length c = 2%nat) /\
  exists x x', plant_excess st V [(0, 0)] high_height = Ok (Fin x) /\ plant_excess (until 24 st) V [(0, 0)] high_height = Ok (Fin x') /\ 0 < x <= x'.
Proof.
  destruct either_period as (V & hi & lo & W). cbn zeta in W. exists V, hi, lo. set (st := plant hi lo high_height low_height) in *. intros st' P. subst st'.
  destruct W as (W1 & W2 & W3 & W4). destruct garden_candidates as (f2 & f4 & Ed & L2 & L4).
  destruct (garden_facts st V f2 f4 L2 L4 W1 W2) as (S1 & S2 & S3 & S4 & S5). destruct (garden_facts (until 24 st) V f2 f4 L2 L4 W3 W4) as (_ & _ & _ & _ & S6).
  destruct (W2 [(0, 0)] ltac:(discriminate)) as (s0 & x & R0 & E0 & P0 & _). destruct (W4 [(0, 0)] ltac:(discriminate)) as (s1 & x' & R1 & E1 & _).
  assert (Ll : length (st_loads st) = Z.to_nat 8760) by apply repeat_length.
  split; [lia|]. split; [reflexivity|]. split; [reflexivity|]. split; [exact Ll|]. split; [exact garden_inputs|].
  split. { exists [[(0, 0)]; f2; f4]. split; [exact Ed|]. split; [vm_compute; discriminate|]. split; [exists s0; exact R0|]. split; [|exact S3].
    intros f h Hf Hh. destruct (S1 f h Hf) as (_ & v & Ev & Hv). { exact Hh. }
    destruct Hv as [(q & -> & Hq)|(q & -> & Hq)]; rewrite val_R in Hq; exists q; (split; [exact Ev|lra]). }
  split; [exact S6|]. split; [exact S5|]. split; [apply garden_two; try reflexivity; assumption|]. split; [apply garden_two; try reflexivity; assumption|].
  exists x, x'. split; [exact E0|]. split; [exact E1|]. split; [now apply P0|].
  destruct (C137_excess plant_film plant_annulus plant_wall plant_Rb plant_Rc plant_root thomas plant_lookup plant_response st flow_borehole V eskilson 24 1 2
    ltac:(lia) eq_refl eq_refl Ll [(0, 0)] high_height s0 x' R0 E1) as (x1 & X1 & X2). assert (x1 = x) by congruence. lra.
Qed.

(** By the hybrid method the loads of a shorter period do not begin those of a longer one: the second of two years has its peaks, the second of three has none. *)
Theorem C137_hybrid_loads_refuted :
  exists (rej ext : list Q) load hour sf load' hour' sf' n a b, hybrid rej ext 1 24 = Ok (load, hour, sf) /\ hybrid rej ext 1 36 = Ok (load', hour', sf') /\
  nth_error hour n = Some a /\ nth_error hour' n = Some b /\ (a < 8760 + 744 /\ 8760 + 744 == b)%Q.
Proof.
  exists (year_of two_levels), (year_of next_day).
  assert (E : match hybrid (year_of two_levels) (year_of next_day) 1 24, hybrid (year_of two_levels) (year_of next_day) 1 36 with
    | Ok (_, h, _), Ok (_, h', _) => match nth_error h 62, nth_error h' 62 with Some a, Some b => negb (Qle_bool (8760 + 744) a) && Qeq_bool (8760 + 744) b | _, _ => false end | _, _ => false end = true).
  { vm_compute. reflexivity. }
  destruct (hybrid (year_of two_levels) (year_of next_day) 1 24) as [[[load h] sf]|]; [|discriminate]. destruct (hybrid (year_of two_levels) (year_of next_day) 1 36) as [[[load' h'] sf']|]; [|discriminate].
  destruct (nth_error h 62) as [a|] eqn:Ea; [|discriminate]. destruct (nth_error h' 62) as [b|] eqn:Eb; [|discriminate]. apply andb_prop in E. destruct E as (E1 & E2).
  exists load, h, sf, load', h', sf', 62%nat, a, b. repeat (split; [reflexivity || assumption|]). split; [|now apply Qeq_bool_eq].
  apply Qnot_le_lt. intro X. apply Qle_bool_iff in X. rewrite X in E1. discriminate.
Qed.

Print Assumptions C137_temperatures.
Print Assumptions C137_excess.
Print Assumptions C137_keeps.
Print Assumptions C137_rectangle_partial.
Print Assumptions C137_near_square_partial.
Print Assumptions C137_hybrid_loads_refuted.
