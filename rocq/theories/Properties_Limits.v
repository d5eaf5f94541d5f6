(** Property C125: relaxing the limits of the entering fluid temperature, for any pygfunction, root finders, equation solver and interpolant *)
From Coq Require Import ZArith List Bool Reals Lra Lia.
From Verif Require Import LoadsProofs LoadsSim LoadsHybrid Properties_Loads GheProofs GFunProofs Properties_GFun RadialProofs RadialGrid Properties_Radial EquivSpec EquivProofs Properties_Equiv.
From Verif Require Import Base Num BaseLemmas Order Spec Utilities Loads LoadsSpec Ghe GheSpec GFun GFunSpec Radial RadialSpec Bhe Equiv Export Domains DomainsProofs
  Search SearchSpec SearchTheorems Design System SystemSpec SystemProofs Program ProgramProofs
  Properties_Domains Properties_Ghe Properties_Search DesignProofs Properties_Design Properties_Export Properties_System Properties_Program InvarianceSpec.
Import ListNotations.
Open Scope R_scope.

(** ** a search for which every excess is smaller *)
Section Easier.
Variable build : list (R * R) -> R -> res unit.
Variables sim sim' : list (R * R) -> R -> res (xval R).
Variables minH maxH : R.
Lemma built_first d H x : bisection_1d build sim minH maxH d H = Ok x -> exists c0, nth_error d 0 = Some c0 /\ exists u, build c0 H = Ok u.
Proof.
  intro E. unfold bisection_1d, base_init in E. apply bind_ok in E. destruct E as (s & Es & _). apply bind_ok in Es. destruct Es as (c0 & E0 & Es).
  apply bind_ok in Es. destruct Es as (u & Eu & _). exists c0. split; [|exists u; exact Eu].
  unfold py_nth in E0. cbn [Z.ltb Z.compare Z.to_nat] in E0. destruct (nth_error d 0); [|discriminate]. f_equal. now apply Ok_inj.
Qed.
Lemma easier d H k c s c0 : bisection_1d build sim minH maxH d H = Ok (Some (k, c), s) -> nth_error d 0 = Some c0 ->
  strictly_increasing (sizes d) -> (zlen d <= 32769)%Z -> more_is_better sim' maxH d -> well_behaved _ build sim' minH maxH d ->
  deeper_helps sim minH maxH c0 -> deeper_helps sim' minH maxH c0 ->
  (forall f h q, sim f h = Ok (Fin q) -> exists q', sim' f h = Ok (Fin q') /\ q' <= q) ->
  (forall f h v, sim' f h = Ok v -> exists q, v = Fin q) ->
  (exists k' c' s', bisection_1d build sim' minH maxH d H = Ok (Some (k', c'), s') /\ (length c' <= length c)%nat) \/
  (bisection_1d build sim' minH maxH d H = Err ValueError /\ exists ql qu, sim' c0 minH = Ok (Fin ql) /\ ql < 0 /\ sim' c0 maxH = Ok (Fin qu) /\ qu < 0).
Proof.
  intros E H0 Hs Hn Hb Hw Hd Hd' Le Fi.
  destruct (built_first d H _ E) as (c0' & H0' & u & Hu). assert (c0' = c0) as -> by congruence.
  destruct (one_domain_selection build sim minH maxH d H _ s E) as (k1 & c1 & Ek & Hc & _ & _ & Ad).
  assert (c1 = c) as -> by congruence. assert (k1 = k) as -> by congruence. clear Ek.
  assert (Ad' : adequate sim maxH c).
  { destruct Ad as [Ad|(-> & q & q' & E1 & P1 & E2 & P2)]; [exact Ad|]. exfalso. cbn [Z.to_nat] in Hc. assert (c = c0) as -> by congruence.
    specialize (Hd q q' E1 E2 P1). lra. }
  destruct Ad' as (q & Eq & Hq). destruct (Le c maxH q Eq) as (q' & Eq' & Hq'). rewrite val_R in Hq.
  assert (Ic := nth_error_In _ _ Hc).
  destruct (one_domain_outcome build sim' minH maxH d H u c0 H0 Hu Hw) as (cR & tl & tu & tm & ER & El & Eu & Em & Out).
  destruct Out as [((k' & c' & s' & E') & _)|(E' & S1 & S2)].
  - left. exists k', c', s'. split; [exact E'|].
    destruct (one_domain_smallest build sim' minH maxH d H k' c' s' E' Hs Hn Hb) as (_ & A).
    { intros f Hf. destruct (Hw f maxH Hf (or_introl eq_refl)) as (_ & v & Ev & _). destruct (Fi f maxH v Ev) as (x & ->). eauto. }
    { intros f Hf. assert (f = c0) as -> by congruence. exact Hd'. }
    apply A; [exact Ic|]. exists q'. split; [exact Eq'|]. rewrite val_R. lra.
  - right. split; [exact E'|]. destruct (Fi _ _ _ El) as (ql & ->). destruct (Fi _ _ _ Eu) as (qu & ->). destruct (Fi _ _ _ Em) as (qm & ->).
    exists ql, qu.
    assert (Hm : qm < 0).
    { destruct (Nat.eq_dec (Z.to_nat k) (length d - 1)) as [Ek|Ek].
      - assert (c = cR) as -> by congruence. assert (Fin qm = Fin q') by (apply Ok_inj; now rewrite <- Em). assert (qm = q') by congruence. lra.
      - assert (Z.to_nat k < length d)%nat by (apply nth_error_Some; congruence).
        pose proof (increasing_nth _ Hs (Z.to_nat k) (length d - 1) _ _ ltac:(lia) (sizes_nth _ _ _ Hc) (sizes_nth _ _ _ ER)).
        assert (X : (length c < length cR)%nat) by lia. specialize (Hb c cR q' qm Ic (nth_error_In _ _ ER) X Eq' Em). rewrite !val_R in Hb. lra. }
    assert (Hu' : qu < 0) by (destruct S2 as [(_ & (y & Ey & Py))|((y & Ey & Py) & _)]; rewrite val_R in Py; [assert (y = qm) by congruence|assert (y = qu) by congruence]; lra).
    assert (Hl : ql < 0) by (destruct S1 as [(_ & (y & Ey & Py))|((y & Ey & Py) & _)]; rewrite val_R in Py; [assert (y = qu) by congruence|assert (y = ql) by congruence]; lra).
    auto.
Qed.
End Easier.

Section World.
Variable h_circular : R -> R -> R -> R -> R -> R -> R -> R.
Variable h_annulus : R -> R -> R -> R -> R -> R -> R -> R -> R * R.
Variable r_conduction : R -> R -> R -> R.
Variable eff_u : R -> pg_u -> R -> R -> R.
Variable eff_c : R -> pg_c -> R -> R -> R.
Variable brentq : (R -> res R) -> R -> R -> list R * res R.
Variable solver : list R -> list R -> list R -> list R -> list R.
Variable interp : ikind -> list (R * R) -> R -> R.
Variable field_response : R -> list (R * R) -> R -> R -> R -> res (list R).
Variable brentq_dialogue : R -> R -> dialogue.
Variable st : settings.
Variable m : method.
Variable flow : flow_kind.
Variable V_flow : R.
Variable log_time : list R.
Variables hi lo : R.
Notation program st := (program h_circular h_annulus r_conduction eff_u eff_c brentq solver interp field_response brentq_dialogue st m flow V_flow log_time).
Notation excess_of st := (excess_of h_circular h_annulus r_conduction eff_u eff_c brentq solver interp field_response st m flow V_flow log_time).
Notation can_build st := (can_build h_circular h_annulus r_conduction eff_u eff_c brentq solver field_response st flow V_flow log_time).
Notation keeps_strictly st := (keeps_strictly h_circular h_annulus r_conduction eff_u eff_c brentq solver interp field_response st m flow V_flow log_time).
Notation minH := (st_min_H st).
Notation maxH := (st_max_H st).
Notation relaxed := (with_limits hi lo st).

(** the limits are relaxed *)
Hypothesis wider : lo <= st_min_EFT st /\ st_max_EFT st <= hi.

(** every field evaluates as before, to an excess that is not larger, nor smaller by more than the limits were moved *)
Theorem C125_excess :
  forall c h x, excess_of st c h = Ok (Fin x) ->
  exists x', excess_of relaxed c h = Ok (Fin x') /\ x' <= x /\ x - Rmax (hi - st_max_EFT st) (st_min_EFT st - lo) <= x'.
Proof.
  intros c h x E. destruct (excess_of_ok _ _ _ _ _ _ _ _ _ _ _ _ _ _ _ _ _ E) as (s & y & Ey & Er & Es). assert (y = x) as -> by congruence.
  unfold excess in Es. apply bind_ok in Es. destruct Es as ((mx, mn) & Em & Es). apply Ok_inj in Es. cbn [fst snd] in Es.
  exists (cost hi lo mx mn). split.
  - unfold Program.excess_of, System.calculate_excess. change (Program.ready h_circular h_annulus r_conduction eff_u eff_c brentq solver field_response relaxed flow V_flow log_time c h)
      with (Program.ready h_circular h_annulus r_conduction eff_u eff_c brentq solver field_response st flow V_flow log_time c h).
    change (initialize_ghe h_circular h_annulus r_conduction eff_u eff_c brentq solver field_response relaxed flow V_flow log_time c h) with
      (Program.ready h_circular h_annulus r_conduction eff_u eff_c brentq solver field_response st flow V_flow log_time c h).
    rewrite Er. cbn [bind]. unfold excess.
    change (ghe_simulate h_circular h_annulus r_conduction eff_u eff_c brentq solver interp relaxed) with (ghe_simulate h_circular h_annulus r_conduction eff_u eff_c brentq solver interp st).
    rewrite Em. reflexivity.
  - destruct wider. destruct (C49_cost_is_compliance hi lo mx mn) as (_ & A1 & A2 & A3). destruct (C49_cost_is_compliance (st_max_EFT st) (st_min_EFT st) mx mn) as (_ & B1 & B2 & B3).
    cbn zeta in *. pose proof (Rmax_l (hi - st_max_EFT st) (st_min_EFT st - lo)). pose proof (Rmax_r (hi - st_max_EFT st) (st_min_EFT st - lo)). rewrite <- Es in *. lra.
Qed.
Lemma relaxed_fin f h v : excess_of relaxed f h = Ok v -> exists q, v = Fin q.
Proof. intro E. destruct (excess_of_ok _ _ _ _ _ _ _ _ _ _ _ _ _ _ _ _ _ E) as (s & y & Ey & _). eauto. Qed.
Lemma relaxed_keeps f h q : excess_of relaxed f h = Ok (Fin q) -> q < 0 -> keeps_strictly relaxed f h.
Proof.
  intros E Hq. destruct (excess_of_ok _ _ _ _ _ _ _ _ _ _ _ _ _ _ _ _ _ E) as (s & x & Ex & Er & Es). assert (x = q) as -> by congruence.
  exists s. split; [exact Er|]. now apply (excess_complies h_circular h_annulus r_conduction eff_u eff_c brentq solver interp relaxed m s q Es).
Qed.

(** every candidate can be evaluated with the relaxed limits, and never meets a limit exactly *)
Definition evaluated (d : list (list (R * R))) : Prop :=
  forall f h, In f d -> h = maxH \/ h = minH -> exists x, excess_of relaxed f h = Ok (Fin x) /\ x <> 0.
Lemma evaluated_well_behaved d : evaluated d -> well_behaved _ (can_build relaxed) (excess_of relaxed) minH maxH d.
Proof.
  intros Ev f h Hf Hh. destruct (Ev f h Hf ltac:(tauto)) as (x & Ex & Hx). split.
  - destruct (excess_of_ok _ _ _ _ _ _ _ _ _ _ _ _ _ _ _ _ _ Ex) as (s & y & _ & Er & _). exists tt. unfold Program.can_build. rewrite Er. reflexivity.
  - exists (Fin x). split; [exact Ex|]. destruct (Rtotal_order x 0) as [X|[X|X]]; [right; exists x|contradiction|left; exists x]; (split; [reflexivity|]); rewrite val_R; lra.
Qed.

(** partial: if more boreholes have the smaller excess and one borehole that is enough when shallow is enough when deep, the design with relaxed
    limits has no more boreholes, or it fails with ValueError and then a single borehole keeps the relaxed limits at either height *)
Theorem C125_rectangle_partial :
  forall gc L W bmin bmax H k c s d, rectangle_inputs gc L W bmin bmax -> rectangular L W bmin bmax = Ok d -> (zlen d <= 32769)%Z ->
  evaluated d -> more_is_better (excess_of relaxed) maxH d ->
  deeper_helps (excess_of st) minH maxH [(0, 0)] -> deeper_helps (excess_of relaxed) minH maxH [(0, 0)] ->
  program st gc rectangle_routine H = Ok (Some (k, c), s) ->
  (exists k' c' s', program relaxed gc rectangle_routine H = Ok (Some (k', c'), s') /\ (length c' <= length c)%nat) \/
  (program relaxed gc rectangle_routine H = Err ValueError /\ keeps_strictly relaxed [(0, 0)] minH /\ keeps_strictly relaxed [(0, 0)] maxH).
Proof.
  intros gc L W bmin bmax H k c s d Hin Ed Hn Ev Hb Hd Hd' E. unfold Program.program in *.
  match type of E with Design.design ?b ?e ?z _ _ _ _ _ = _ => destruct (rectangle_design_eq b e z minH maxH gc L W bmin bmax H Hin) as (d1 & Ed1 & Eq1) end.
  rewrite Eq1 in E. assert (d1 = d) as -> by (apply Ok_inj; now rewrite <- Ed1). clear Ed1 Eq1.
  match goal with |- context [Design.design ?b ?e ?z (st_min_H relaxed) _ _ _ _] => destruct (rectangle_design_eq b e z minH maxH gc L W bmin bmax H Hin) as (d1 & Ed1 & Eq1) end.
  assert (d1 = d) as -> by (apply Ok_inj; now rewrite <- Ed1). change (st_min_H relaxed) with minH. change (st_max_H relaxed) with maxH. rewrite !Eq1.
  destruct Hin as (_ & _ & _ & _ & P1 & P2 & P3 & P4). destruct (C10_rectangular_grows L W bmin bmax d P1 P2 P3 P4 Ed) as (Hs & Hd0).
  destruct (built_first _ _ _ _ _ _ _ E) as (c0 & H0 & _).
  assert (c0 = [(0, 0)]) as ->. { destruct Hd0 as [->|(rest & ->)]; cbn in H0; congruence. }
  destruct (easier (can_build st) (excess_of st) (excess_of relaxed) minH maxH d H k c s [(0, 0)] E H0 Hs Hn Hb (evaluated_well_behaved d Ev) Hd Hd') as [A|(A & ql & qu & El & Hl & Eu & Hu)].
  - intros f h q Eq. destruct (C125_excess f h q Eq) as (q' & E1 & E2 & _). eauto.
  - apply relaxed_fin.
  - left. exact A.
  - right. split; [exact A|]. split; eapply relaxed_keeps; eassumption.
Qed.
Theorem C125_near_square_partial :
  forall gc L B H k c s n d, near_square_inputs gc L B -> number_of_boreholes L B false = Ok n -> square_and_near_square 1 n B = Ok d -> (n <= 16384)%Z ->
  evaluated d -> more_is_better (excess_of relaxed) maxH d ->
  deeper_helps (excess_of st) minH maxH [(0, 0)] -> deeper_helps (excess_of relaxed) minH maxH [(0, 0)] ->
  program st gc near_square H = Ok (Some (k, c), s) ->
  (exists k' c' s', program relaxed gc near_square H = Ok (Some (k', c'), s') /\ (length c' <= length c)%nat) \/
  (program relaxed gc near_square H = Err ValueError /\ keeps_strictly relaxed [(0, 0)] minH /\ keeps_strictly relaxed [(0, 0)] maxH).
Proof.
  intros gc L B H k c s n d Hin En Ed Hn Ev Hb Hd Hd' E. unfold Program.program in *.
  match type of E with Design.design ?b ?e ?z _ _ _ _ _ = _ => destruct (near_square_design_eq b e z minH maxH gc L B H Hin) as (n1 & d1 & En1 & Hn1 & _ & Ed1 & Eq1) end.
  rewrite Eq1 in E. assert (n1 = n) as -> by (apply Ok_inj; now rewrite <- En1). assert (d1 = d) as -> by (apply Ok_inj; now rewrite <- Ed1). clear Ed1 Eq1 En1.
  match goal with |- context [Design.design ?b ?e ?z (st_min_H relaxed) _ _ _ _] => destruct (near_square_design_eq b e z minH maxH gc L B H Hin) as (n1 & d1 & En1 & _ & _ & Ed1 & Eq1) end.
  assert (n1 = n) as -> by (apply Ok_inj; now rewrite <- En1). assert (d1 = d) as -> by (apply Ok_inj; now rewrite <- Ed1).
  change (st_min_H relaxed) with minH. change (st_max_H relaxed) with maxH. rewrite !Eq1.
  destruct (C07_square_domain 1 n B ltac:(lia)) as (d2 & Ed2 & Ec & Es & Hs). assert (d2 = d) as -> by (apply Ok_inj; now rewrite <- Ed2).
  assert (H0 : nth_error d 0 = Some [(0, 0)]). { rewrite Ec, zrange_cons by lia. cbn [flat_map app nth_error]. now rewrite grid_field_1. }
  assert (Hl : (zlen d <= 32769)%Z). { rewrite Ec. rewrite (zlen_flat_map_const _ _ 2) by (intros; reflexivity). rewrite zrange_zlen. lia. }
  destruct (easier (can_build st) (excess_of st) (excess_of relaxed) minH maxH d H k c s [(0, 0)] E H0 Hs Hl Hb (evaluated_well_behaved d Ev) Hd Hd') as [A|(A & ql & qu & El & Hll & Eu & Hu)].
  - intros f h q Eq. destruct (C125_excess f h q Eq) as (q' & E1 & E2 & _). eauto.
  - apply relaxed_fin.
  - left. exact A.
  - right. split; [exact A|]. split; eapply relaxed_keeps; eassumption.
Qed.
End World.

(** ** the plant of C95 to C97 with both limits moved by [e] *)
Lemma cost_moved hi lo mx mn e : cost (hi + e) (lo - e) mx mn = cost hi lo mx mn - e.
Proof.
  destruct (C49_cost_is_compliance hi lo mx mn) as (_ & A1 & A2 & A3). destruct (C49_cost_is_compliance (hi + e) (lo - e) mx mn) as (_ & B1 & B2 & B3). cbn zeta in *. lra.
Qed.
Lemma plant_moved hi lo e V f h x : plant_excess (plant hi lo high_height low_height) V f h = Ok (Fin x) ->
  plant_excess (plant (hi + e) (lo - e) high_height low_height) V f h = Ok (Fin (x - e)).
Proof.
  intro E. destruct (excess_of_ok _ _ _ _ _ _ _ _ _ _ _ _ _ _ _ _ _ E) as (s & y & Ey & Er & Es). assert (y = x) as -> by congruence.
  unfold excess in Es. apply bind_ok in Es. destruct Es as ((mx, mn) & Em & Es). apply Ok_inj in Es. cbn [fst snd st_max_EFT st_min_EFT plant] in Es.
  unfold excess_of, System.calculate_excess, ready in *.
  change (initialize_ghe plant_film plant_annulus plant_wall plant_Rb plant_Rc plant_root thomas plant_response (plant (hi + e) (lo - e) high_height low_height) flow_borehole V eskilson f h)
    with (initialize_ghe plant_film plant_annulus plant_wall plant_Rb plant_Rc plant_root thomas plant_response (plant hi lo high_height low_height) flow_borehole V eskilson f h).
  rewrite Er. cbn [bind]. unfold excess.
  change (ghe_simulate plant_film plant_annulus plant_wall plant_Rb plant_Rc plant_root thomas plant_lookup (plant (hi + e) (lo - e) high_height low_height))
    with (ghe_simulate plant_film plant_annulus plant_wall plant_Rb plant_Rc plant_root thomas plant_lookup (plant hi lo high_height low_height)).
  rewrite Em. cbn [bind fst snd st_max_EFT st_min_EFT plant]. rewrite cost_moved, Es. reflexivity.
Qed.

Section Plant.
Variables V hi lo : R.
Hypothesis L : plant_fits V hi lo.
Notation st := (plant hi lo high_height low_height).
Definition a_candidate (h : R) (c : list (R * R)) : Prop := (h = low_height \/ h = high_height) /\ (length c = 1 \/ length c = 2 \/ length c = 4)%nat.
Lemma plant_excess_at h c : a_candidate h c -> exists x, plant_excess st V c h = Ok (Fin x) /\ (length c = 1%nat -> 0 < x) /\ ((2 <= length c)%nat -> x < 0) /\
  forall c' x', a_candidate h c' -> (length c < length c')%nat -> plant_excess st V c' h = Ok (Fin x') -> x' < x.
Proof.
  intros (Hh & Hc). destruct (L h c Hh Hc) as (s & s' & mx & mn & T & D & E1 & E2 & E3 & P & N & _ & EC & Less). exists (cost hi lo mx mn).
  split; [unfold excess_of, System.calculate_excess; unfold ready in E1; rewrite E1; cbn [bind]; rewrite E2; reflexivity|]. split; [exact P|]. split; [exact N|].
  intros c' x' (_ & Hc') Hlt E. destruct (excess_of_ok _ _ _ _ _ _ _ _ _ _ _ _ _ _ _ _ _ E) as (s1 & y & Ey & Er & Es). assert (y = x') as -> by congruence.
  destruct (L h c' Hh Hc') as (s2 & s2' & mx2 & mn2 & T2 & D2 & F1 & F2 & _ & _ & _ & _ & EC2 & _). assert (s2 = s1) as -> by congruence.
  rewrite F2 in Es. cbn in Es. rewrite EC2 in Es. apply Ok_inj in Es. specialize (Less c' s1 s2' mx2 mn2 F1 F2 Hlt). lra.
Qed.
Lemma plant_moved_at e h c : a_candidate h c -> exists x, plant_excess st V c h = Ok (Fin x) /\ plant_excess (plant (hi + e) (lo - e) high_height low_height) V c h = Ok (Fin (x - e)).
Proof. intro A. destruct (plant_excess_at h c A) as (x & E & _). exists x. split; [exact E|now apply plant_moved]. Qed.
Lemma fin_eq x y r : r = Ok (Fin x) -> r = Ok (Fin y) -> x = y :> R.
Proof. congruence. Qed.

(** moved so far that the excess of no candidate changes its sign, the design still has two boreholes *)
Lemma plant_gets_two_again k c s' : plant_program st V garden rectangle_routine high_height = Ok (Some (k, c), s') -> length c = 2%nat ->
  exists e, 0 < e /\ exists k1 c1 s1, plant_program (with_limits (hi + e) (lo - e) st) V garden rectangle_routine high_height = Ok (Some (k1, c1), s1) /\ (length c1 <= 2)%nat.
Proof.
  intros E Lc. destruct garden_candidates as (f2 & f4 & Ed & L2 & L4).
  destruct (plant_excess_at low_height [(0, 0)]) as (xl & El & Pl & _ & _); [split; auto|]. destruct (plant_excess_at high_height [(0, 0)]) as (xh & Eh & Ph & _ & _); [split; auto|].
  specialize (Pl eq_refl). specialize (Ph eq_refl). set (e := Rmin xl xh / 2).
  assert (He : 0 < e /\ e < xl /\ e < xh) by (unfold e; destruct (Rle_dec xl xh); [rewrite Rmin_left by lra|rewrite Rmin_right by lra]; lra).
  exists e. split; [lra|].
  assert (Hd : forall f h, In f [[(0, 0)]; f2; f4] -> h = high_height \/ h = low_height -> a_candidate h f).
  { intros f h [<- |[<- |[<- |[]]]] Hh; (split; [tauto|]); auto. }
  assert (Sgn : forall f h x, In f [[(0, 0)]; f2; f4] -> h = high_height \/ h = low_height -> plant_excess st V f h = Ok (Fin x) -> x - e <> 0).
  { intros f h x Hf Hh Ef. destruct (plant_excess_at h f (Hd f h Hf Hh)) as (y & Ey & P & N & _). rewrite (fin_eq _ _ _ Ef Ey). clear x Ef.
    destruct Hf as [<- |[<- |[<- |[]]]]; [|specialize (N ltac:(lia)); lra|specialize (N ltac:(lia)); lra].
    destruct Hh as [-> | ->]; [rewrite (fin_eq _ _ _ Ey Eh)|rewrite (fin_eq _ _ _ Ey El)]; lra. }
  destruct (C125_rectangle_partial plant_film plant_annulus plant_wall plant_Rb plant_Rc plant_root thomas plant_lookup plant_response (bisection (1 / 1000)) st m_hourly flow_borehole V eskilson
    (hi + e) (lo - e) ltac:(cbn; lra) garden 6 6 5 6 high_height k c s' [[(0, 0)]; f2; f4] garden_inputs Ed) as [A|(A & B & _)]; [vm_compute; discriminate| | | | |exact E| |].
  - intros f h Hf Hh. destruct (plant_moved_at e h f (Hd f h Hf Hh)) as (x & Ex & Ex'). exists (x - e). split; [exact Ex'|exact (Sgn f h x Hf Hh Ex)].
  - intros f f' q q' Hf Hf' Hlt Eq Eq'. rewrite !val_R. change (st_max_H st) with high_height in *.
    destruct (plant_excess_at high_height f (Hd f _ Hf (or_introl eq_refl))) as (x & Ex & _ & _ & Less). destruct (plant_moved_at e high_height f' (Hd f' _ Hf' (or_introl eq_refl))) as (x' & Ex1 & Ex').
    specialize (Less f' x' (Hd f' _ Hf' (or_introl eq_refl)) Hlt Ex1). rewrite (fin_eq _ _ _ Eq (plant_moved _ _ e _ _ _ _ Ex)), (fin_eq _ _ _ Eq' Ex'). lra.
  - intros q q' Eq _ Hq. rewrite val_R in Hq. rewrite (fin_eq _ _ _ Eq El) in Hq. lra.
  - intros q q' Eq _ Hq. rewrite val_R in Hq. rewrite (fin_eq _ _ _ Eq (plant_moved _ _ e _ _ _ _ El)) in Hq. lra.
  - destruct A as (k1 & c1 & s1 & A & Lc1). exists k1, c1, s1. split; [exact A|lia].
  - exfalso. change (st_min_H st) with low_height in B.
    destruct B as (s & Er & B). assert (X := plant_moved hi lo e V [(0, 0)] low_height xl El).
    destruct (excess_of_ok _ _ _ _ _ _ _ _ _ _ _ _ _ _ _ _ _ X) as (s2 & y & Ey & Er2 & Es). assert (y = xl - e) as -> by congruence.
    assert (s2 = s) as -> by (apply Ok_inj; rewrite <- Er2; exact Er).
    apply (excess_complies plant_film plant_annulus plant_wall plant_Rb plant_Rc plant_root thomas plant_lookup (plant (hi + e) (lo - e) high_height low_height) m_hourly s _ Es) in B. lra.
Qed.

(** moved further, every candidate keeps the limits at either height, and the design fails *)
Lemma plant_fails : exists e d, 0 < e /\ plant_program (with_limits (hi + e) (lo - e) st) V garden rectangle_routine high_height = Err ValueError /\
  rectangular 6 6 5 6 = Ok d /\ d <> [] /\ forall h c, In c d -> h = high_height \/ h = low_height -> plant_keeps (with_limits (hi + e) (lo - e) st) V c h.
Proof.
  destruct garden_candidates as (f2 & f4 & Ed & L2 & L4).
  destruct (plant_excess_at low_height [(0, 0)]) as (xl & El & Pl & _ & _); [split; auto|]. destruct (plant_excess_at high_height [(0, 0)]) as (xh & Eh & Ph & _ & _); [split; auto|].
  specialize (Pl eq_refl). specialize (Ph eq_refl). set (e := xl + xh). exists e, [[(0, 0)]; f2; f4].
  assert (Hd : forall f h, In f [[(0, 0)]; f2; f4] -> h = high_height \/ h = low_height -> a_candidate h f).
  { intros f h [<- |[<- |[<- |[]]]] Hh; (split; [tauto|]); auto. }
  assert (Neg : forall f h, In f [[(0, 0)]; f2; f4] -> h = high_height \/ h = low_height -> exists x, x < 0 /\ plant_excess (with_limits (hi + e) (lo - e) st) V f h = Ok (Fin x)).
  { intros f h Hf Hh. destruct (plant_excess_at h f (Hd f h Hf Hh)) as (y & Ey & P & N & _). exists (y - e). split; [|exact (plant_moved hi lo e V f h y Ey)]. unfold e.
    destruct Hf as [<- |[<- |[<- |[]]]]; [|specialize (N ltac:(lia)); lra|specialize (N ltac:(lia)); lra].
    destruct Hh as [-> | ->]; [rewrite (fin_eq _ _ _ Ey Eh)|rewrite (fin_eq _ _ _ Ey El)]; lra. }
  split; [unfold e; lra|]. split; [|split; [exact Ed|]; split; [discriminate|]].
  - set (st1 := with_limits (hi + e) (lo - e) st) in *.
    set (cb := can_build plant_film plant_annulus plant_wall plant_Rb plant_Rc plant_root thomas plant_response st1 flow_borehole V eskilson).
    set (sh := sized_height plant_film plant_annulus plant_wall plant_Rb plant_Rc plant_root thomas plant_lookup plant_response (bisection (1 / 1000)) st1 flow_borehole V eskilson).
    assert (CB : forall f h, In f [[(0, 0)]; f2; f4] -> h = high_height \/ h = low_height -> cb f h = Ok tt).
    { intros f h Hf Hh. destruct (Neg f h Hf Hh) as (x & _ & Ex). destruct (excess_of_ok _ _ _ _ _ _ _ _ _ _ _ _ _ _ _ _ _ Ex) as (s & y & _ & Er & _). unfold cb, can_build. rewrite Er. reflexivity. }
    destruct (C85_rectangle_outcome cb (plant_excess st1 V) sh low_height high_height garden 6 6 5 6 high_height _ tt garden_inputs Ed ltac:(discriminate)) as (cR & tl & tu & tm & ER & _ & Xl & Xu & Xm & Out).
    { apply CB; [left; reflexivity|auto]. }
    { intros f h Hf Hh. assert (Hh' : h = high_height \/ h = low_height) by tauto. split; [exists tt; now apply CB|].
      destruct (Neg f h Hf Hh') as (x & Hx & Ex). exists (Fin x). split; [exact Ex|]. right. exists x. split; [reflexivity|]. rewrite val_R. exact Hx. }
    assert (cR = f4) as -> by (cbn in ER; congruence). clear ER.
    destruct Out as [(_ & Op)|(Err' & _)]; [|exact Err']. exfalso.
    destruct (Neg [(0, 0)] low_height ltac:(left; reflexivity) (or_intror eq_refl)) as (al & Nl & Al). destruct (Neg [(0, 0)] high_height ltac:(left; reflexivity) (or_introl eq_refl)) as (au & Nu & Au).
    destruct (Neg f4 high_height ltac:(right; right; left; reflexivity) (or_introl eq_refl)) as (am & Nm & Am).
    assert (tl = Fin al) as -> by (apply Ok_inj; rewrite <- Xl; exact Al). assert (tu = Fin au) as -> by (apply Ok_inj; rewrite <- Xu; exact Au). assert (tm = Fin am) as -> by (apply Ok_inj; rewrite <- Xm; exact Am).
    assert (NP : forall q, q < 0 -> ~ pos (Fin q)) by (intros q Hq (y & Ey & Py); rewrite val_R in Py; assert (y = q) by congruence; lra).
    destruct Op as [[(X & _)|(_ & X)]|[(X & _)|(_ & X)]]; revert X; apply NP; assumption.
  - intros h f Hf Hh. destruct (Neg f h Hf Hh) as (x & Hx & Ex). destruct (excess_of_ok _ _ _ _ _ _ _ _ _ _ _ _ _ _ _ _ _ Ex) as (s & y & Ey & Er & Es). assert (y = x) as -> by congruence.
    exists s. split; [exact Er|].
    now apply (excess_complies plant_film plant_annulus plant_wall plant_Rb plant_Rc plant_root thomas plant_lookup (plant (hi + e) (lo - e) high_height low_height) m_hourly s x Es).
Qed.
End Plant.

(** the hypotheses of the partial theorem are met by a plant with two boreholes, and again at most two with limits a little wider *)
Example C125_example : exists V hi lo k c s e k1 c1 s1, let st := plant hi lo high_height low_height in 0 < e /\
  plant_program st V garden rectangle_routine high_height = Ok (Some (k, c), s) /\ length c = 2%nat /\
  plant_program (with_limits (hi + e) (lo - e) st) V garden rectangle_routine high_height = Ok (Some (k1, c1), s1) /\ (length c1 <= 2)%nat.
Proof.
  destruct plant_limits as (V & hi & lo & L). destruct (plant_designed V hi lo L) as (k & c & s & s1 & _ & E & Lc & _).
  destruct (plant_gets_two_again V hi lo L k c s E Lc) as (e & He & k1 & c1 & s2 & E1 & Lc1). exists V, hi, lo, k, c, s, e, k1, c1, s2. auto.
Qed.

(** false in general: a plant that gets two boreholes gets none, but a ValueError, when its limits are relaxed so far that every candidate keeps
    them at the minimum and at the maximum height *)
Theorem C125_relaxed_limits_refuted :
  exists V hi lo k c s hi' lo' d, let st := plant hi lo high_height low_height in
  lo' <= st_min_EFT st /\ st_max_EFT st <= hi' /\
  plant_program st V garden rectangle_routine high_height = Ok (Some (k, c), s) /\ length c = 2%nat /\
  plant_program (with_limits hi' lo' st) V garden rectangle_routine high_height = Err ValueError /\
  rectangular 6 6 5 6 = Ok d /\ d <> [] /\ forall h f, In f d -> h = high_height \/ h = low_height -> plant_keeps (with_limits hi' lo' st) V f h.
Proof.
  destruct plant_limits as (V & hi & lo & L). destruct (plant_designed V hi lo L) as (k & c & s & s1 & _ & E & Lc & _).
  destruct (plant_fails V hi lo L) as (e & d & He & F & Ed & Hd & K). exists V, hi, lo, k, c, s, (hi + e), (lo - e), d. cbn zeta.
  split; [cbn; lra|]. split; [cbn; lra|]. do 5 (split; [assumption|]). exact K.
Qed.

Print Assumptions C125_excess.
Print Assumptions C125_rectangle_partial.
Print Assumptions C125_near_square_partial.
Print Assumptions C125_relaxed_limits_refuted.
