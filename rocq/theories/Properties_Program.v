(** Properties C95-C100: whole designs, from the constraints to the sized and exported heat exchanger, for any pygfunction, root finder,
    equation solver and interpolant (the section variables).  The field evaluations of the search are those of C93. *)
From Coq Require Import ZArith List Bool Reals Lra Lia.
From Verif Require Import LoadsProofs LoadsSim LoadsHybrid Properties_Loads GheProofs GFunProofs Properties_GFun RadialProofs RadialGrid Properties_Radial EquivSpec EquivProofs Properties_Equiv.
From Verif Require Import Base Num BaseLemmas Order Spec Utilities Loads LoadsSpec Ghe GheSpec GFun GFunSpec Radial RadialSpec Bhe Equiv Export Domains
  Search SearchSpec SearchTheorems Design System SystemSpec SystemProofs Program ProgramProofs
  Properties_Domains Properties_Ghe Properties_Search DesignProofs Properties_Design Properties_Export Properties_System.
Import ListNotations.
Open Scope R_scope.

Section World.
Variable h_circular : R -> R -> R -> R -> R -> R -> R -> R.
Variable h_annulus : R -> R -> R -> R -> R -> R -> R -> R -> R * R.
Variable r_conduction : R -> R -> R -> R.
Variable eff_u : R -> pg_u -> R -> R -> R.
Variable eff_c : R -> pg_c -> R -> R -> R.
Variable brentq : (R -> res R) -> R -> R -> list R * res R.
Variable solver : list R -> list R -> list R -> list R -> list R.
Variable interp : ikind -> list (R * R) -> R -> R.
Variable field_response : R -> list (R * R) -> R -> R -> R -> res (list R).
Variable brentq_dialogue : R -> R -> dialogue.
Variable st : settings.
Variable m : method.
Variable flow : flow_kind.
Variable V_flow : R.
Variable log_time : list R.
Notation ready := (ready h_circular h_annulus r_conduction eff_u eff_c brentq solver field_response st flow V_flow log_time).
Notation simulated := (ghe_simulate h_circular h_annulus r_conduction eff_u eff_c brentq solver interp st).
Notation with_g_functions := (compute_g_functions field_response st).
Notation size_up := (size_up h_circular h_annulus r_conduction eff_u eff_c brentq solver interp field_response brentq_dialogue st).
Notation program := (program h_circular h_annulus r_conduction eff_u eff_c brentq solver interp field_response brentq_dialogue st m flow V_flow log_time).
Notation whole := (whole h_circular h_annulus r_conduction eff_u eff_c brentq solver interp field_response brentq_dialogue st m flow V_flow log_time).
Notation left_ghe := (left_ghe h_circular h_annulus r_conduction eff_u eff_c brentq solver interp field_response brentq_dialogue st flow V_flow log_time).
Notation excess_of := (excess_of h_circular h_annulus r_conduction eff_u eff_c brentq solver interp field_response st m flow V_flow log_time).
Notation can_build := (can_build h_circular h_annulus r_conduction eff_u eff_c brentq solver field_response st flow V_flow log_time).
Notation sized_height := (sized_height h_circular h_annulus r_conduction eff_u eff_c brentq solver interp field_response brentq_dialogue st flow V_flow log_time).
Notation oak_ridge_export := (oak_ridge_export interp st).
Notation minH := (st_min_H st).
Notation maxH := (st_max_H st).

(** the exchanger s simulates, and all temperatures of the fluid entering the heat pump are within the limits; strictly; or exceed
    them by at most e *)
Definition complies_by (e : R) (mm : method) (s : ghe) : Prop :=
  exists s' x, simulated mm s = (s', Ok x) /\ forall T, In T (fst (gh_results s')) -> st_min_EFT st - e <= T <= st_max_EFT st + e.
Definition complies := complies_by 0.
Definition complies_strictly (mm : method) (s : ghe) : Prop :=
  exists s' x, simulated mm s = (s', Ok x) /\ forall T, In T (fst (gh_results s')) -> st_min_EFT st < T < st_max_EFT st.
(** the same of a field at a height *)
Definition keeps_limits (c : list (R * R)) (H : R) : Prop := exists s, ready c H = Ok s /\ complies m s.
Definition keeps_strictly (c : list (R * R)) (H : R) : Prop := exists s, ready c H = Ok s /\ complies_strictly m s.

Lemma excess_complies mm s x : excess st (snd (simulated mm s)) = Ok x ->
  complies_by x mm s /\ (x <= 0 <-> complies mm s) /\ (x < 0 <-> complies_strictly mm s).
Proof.
  intro E. destruct (simulated mm s) as (s', r) eqn:Es. cbn [snd] in E. unfold excess in E. apply bind_ok in E. destruct E as ((mx, mn) & -> & E).
  assert (x = cost (st_max_EFT st) (st_min_EFT st) mx mn) as -> by (cbn [fst snd] in E; congruence). clear E.
  destruct (sim_extremes _ _ _ _ _ _ _ _ _ _ _ _ _ _ Es) as ((I1 & B1) & (I2 & B2)).
  destruct (C49_cost_is_compliance (st_max_EFT st) (st_min_EFT st) mx mn) as (_ & C1 & C2 & C3). cbn zeta in *.
  unfold complies, complies_strictly, complies_by. rewrite Es. split; [|split].
  - do 2 eexists. split; [reflexivity|]. intros T HT. specialize (B1 T HT). specialize (B2 T HT). lra.
  - split.
    + intro X. do 2 eexists. split; [reflexivity|]. intros T HT. specialize (B1 T HT). specialize (B2 T HT). lra.
    + intros (s1 & y & E & A). assert (s1 = s') as -> by congruence. pose proof (A mx I1). pose proof (A mn I2). lra.
  - split.
    + intro X. do 2 eexists. split; [reflexivity|]. intros T HT. specialize (B1 T HT). specialize (B2 T HT). lra.
    + intros (s1 & y & E & A). assert (s1 = s') as -> by congruence. pose proof (A mx I1). pose proof (A mn I2). lra.
Qed.
Lemma excess_of_ok c H v : excess_of c H = Ok v -> exists s x, v = Fin x /\ ready c H = Ok s /\ excess st (snd (simulated m s)) = Ok x.
Proof.
  intro E. unfold Program.excess_of, System.calculate_excess in E. apply bind_ok in E. destruct E as (x & E & Ev). apply Ok_inj in Ev.
  apply bind_ok in E. destruct E as (s & Es & E). exists s, x. auto.
Qed.
Lemma val_R (x : R) : val x = x.
Proof. reflexivity. Qed.
Lemma adequate_keeps c : adequate excess_of maxH c -> keeps_strictly c maxH.
Proof.
  intros (q & E & Hq). destruct (excess_of_ok _ _ _ E) as (s & x & Ex & Er & Es). assert (x = q) as -> by congruence. rewrite val_R in Hq.
  exists s. split; [exact Er|]. now apply (excess_complies m s q Es).
Qed.
Lemma shallow_keeps c : adequate_shallow excess_of minH maxH c -> keeps_strictly c minH.
Proof.
  intros (q & q' & E & Hq & _). destruct (excess_of_ok _ _ _ E) as (s & x & Ex & Er & Es). assert (x = q) as -> by congruence. rewrite val_R in Hq.
  exists s. split; [exact Er|]. now apply (excess_complies m s q Es).
Qed.
Lemma keeps_adequate c : keeps_strictly c maxH -> adequate excess_of maxH c.
Proof.
  intros (s & Er & A). assert (A' := A). destruct A' as (s' & (mx, mn) & Es & _). exists (cost (st_max_EFT st) (st_min_EFT st) mx mn).
  assert (Ex : excess st (snd (simulated m s)) = Ok (cost (st_max_EFT st) (st_min_EFT st) mx mn)) by (rewrite Es; reflexivity). split.
  - unfold Program.excess_of, System.calculate_excess. unfold Program.ready in Er. rewrite Er. cbn [bind]. rewrite Ex. reflexivity.
  - rewrite val_R. now apply (excess_complies m s _ Ex).
Qed.

(** C95: a design that is returned is on the land, respects the spacing and keeps all simulated temperatures strictly between the limits, at the
    maximum height, or (a single borehole only) at the minimum height *)
Theorem C95_rectangle_program :
  forall gc L W bmin bmax H r s', rectangle_inputs gc L W bmin bmax ->
  program gc rectangle_routine H = Ok (r, s') ->
  exists k c, r = Some (k, c) /\ Search.ghe _ s' = (c, maxH) /\ inside L W c /\ separated bmin c /\ (1 <= length c)%nat
    /\ (keeps_strictly c maxH \/ c = [(0, 0)] /\ keeps_strictly c minH).
Proof.
  intros gc L W bmin bmax H r s' Hin E. destruct (C85_rectangle_design _ _ _ _ _ gc L W bmin bmax H r s' Hin E) as (k & c & A1 & A2 & A3 & A4 & A5 & A6).
  exists k, c. repeat (split; [assumption|]). destruct A6 as [A6|(-> & A6)]; [left; now apply adequate_keeps|right; split; [reflexivity|now apply shallow_keeps]].
Qed.
Theorem C95_bi_rectangle_program :
  forall gc L W bmin bmax_x bmax_y H r s', nested_inputs gc L W bmin bmax_x bmax_y ->
  program gc bi_rectangle H = Ok (r, s') ->
  exists k c, r = Some (k, c) /\ Search.ghe _ s' = (c, maxH) /\ inside L W c /\ separated bmin c /\ (1 <= length c)%nat
    /\ (keeps_strictly c maxH \/ c = [(0, 0)] /\ keeps_strictly c minH).
Proof.
  intros gc L W bmin bx by_ H r s' Hin E. destruct (C87_bi_rectangle_design _ _ _ _ _ gc L W bmin bx by_ H r s' Hin E) as (k & c & A1 & A2 & A3 & A4 & A5 & A6).
  exists k, c. repeat (split; [assumption|]). destruct A6 as [A6|(-> & A6)]; [left; now apply adequate_keeps|right; split; [reflexivity|now apply shallow_keeps]].
Qed.
(** partial: a near-square field may exceed the land by one spacing in one direction (C86) *)
Theorem C95_near_square_program_partial :
  forall gc L B H r s', near_square_inputs gc L B ->
  program gc near_square H = Ok (r, s') ->
  exists k c, r = Some (k, c) /\ Search.ghe _ s' = (c, maxH) /\ inside L (L + B) c /\ separated B c
    /\ (keeps_strictly c maxH \/ c = [(0, 0)] /\ keeps_strictly c minH).
Proof.
  intros gc L B H r s' Hin E. destruct (C86_near_square_design_partial _ _ _ _ _ gc L B H r s' Hin E) as (k & c & A1 & A2 & _ & A4 & A5 & A6).
  exists k, c. repeat (split; [assumption|]). destruct A6 as [A6|(-> & A6)]; [left; now apply adequate_keeps|right; split; [reflexivity|now apply shallow_keeps]].
Qed.
(** partial: land at least as wide as deep (C88) *)
Theorem C95_bi_zoned_program_partial :
  forall gc L W bmin bmax_x bmax_y H r s', nested_inputs gc L W bmin bmax_x bmax_y -> W <= L ->
  program gc bi_zoned H = Ok (r, s') ->
  exists k c h, r = Some (k, c) /\ sized_height c = Ok h /\ Search.ghe _ s' = (c, h) /\ inside L W c /\ separated bmin c /\ keeps_limits c maxH.
Proof.
  intros gc L W bmin bx by_ H r s' Hin Hw E.
  destruct (C88_bi_zoned_design_partial _ _ _ _ _ gc L W bmin bx by_ H r s' Hin Hw E) as (k & c & h & x & A1 & A2 & A3 & A4 & A5 & A6 & A7).
  exists k, c, h. repeat (split; [assumption|]). destruct (excess_of_ok _ _ _ A6) as (s & y & Ey & Er & Es). exists s. split; [exact Er|].
  destruct A7 as [A7|(q & A7 & Hq)]; [congruence|]. assert (q = y) as -> by congruence. now apply (excess_complies m s y Es).
Qed.
(** if more boreholes have the smaller excess, and one borehole that is enough when shallow is enough when deep: no candidate of fewer boreholes
    keeps its temperatures strictly between the limits *)
Theorem C95_rectangle_fewest :
  forall gc L W bmin bmax H k c s' d, rectangle_inputs gc L W bmin bmax ->
  rectangular L W bmin bmax = Ok d -> (zlen d <= 32769)%Z -> more_is_better excess_of maxH d ->
  (forall f, In f d -> exists s x, ready f maxH = Ok s /\ snd (simulated m s) = Ok x) -> deeper_helps excess_of minH maxH [(0, 0)] ->
  program gc rectangle_routine H = Ok (Some (k, c), s') ->
  keeps_strictly c maxH /\ forall f, In f d -> keeps_strictly f maxH -> (length c <= length f)%nat.
Proof.
  intros gc L W bmin bmax H k c s' d Hin Ed Hn Hb Hf Hh E.
  destruct (C85_rectangle_fewest can_build excess_of sized_height minH maxH gc L W bmin bmax H k c s' d Hin Ed Hn Hb) as (A1 & A2).
  { intros f Hff. destruct (Hf f Hff) as (s & (mx, mn) & Er & Es). unfold Program.ready in Er.
    eexists. unfold Program.excess_of, System.calculate_excess. rewrite Er. cbn [bind]. unfold excess. rewrite Es. reflexivity. }
  { exact Hh. } { exact E. }
  split; [now apply adequate_keeps|]. intros f Hff A. apply A2; [exact Hff|now apply keeps_adequate].
Qed.

(** ** what the search leaves *)
Lemma selected gc r H sel s' : program gc r H = Ok (sel, s') -> exists k c, sel = Some (k, c) /\
  (adequate_shallow excess_of minH maxH c /\ r <> bi_zoned \/ exists x, excess_of c maxH = Ok (Fin x) /\ x <= 0) /\
  match r with bi_zoned => exists h, sized_height c = Ok h /\ Search.ghe _ s' = (c, h) | _ => Search.ghe _ s' = (c, maxH) end.
Proof.
  intro E. unfold Program.program, design in E. apply bind_ok in E. destruct E as (cs & Ei & E).
  assert (One : forall d, bisection_1d can_build excess_of minH maxH d H = Ok (sel, s') -> exists k c, sel = Some (k, c) /\ Search.ghe _ s' = (c, maxH) /\
    (adequate_shallow excess_of minH maxH c \/ exists x, excess_of c maxH = Ok (Fin x) /\ x <= 0)).
  { intros d Ed. apply (one_domain_selection can_build excess_of minH maxH (OV := OrderedR)) in Ed as (k & c & -> & _ & _ & Hg & Hf). exists k, c. split; [reflexivity|]. split; [exact Hg|].
    destruct Hf as [(q & Eq & Hq)|(_ & Hf)]; [right; exists q; split; [exact Eq|rewrite val_R in Hq; lra]|left; exact Hf]. }
  destruct r; cbn [find_design] in E; try (destruct cs; discriminate); destruct cs as [d|dd]; try discriminate.
  - destruct (One d E) as (k & c & -> & Hg & Hf). exists k, c. split; [reflexivity|]. split; [|exact Hg]. destruct Hf as [Hf|Hf]; [left; split; [exact Hf|discriminate]|right; exact Hf].
  - destruct (One d E) as (k & c & -> & Hg & Hf). exists k, c. split; [reflexivity|]. split; [|exact Hg]. destruct Hf as [Hf|Hf]; [left; split; [exact Hf|discriminate]|right; exact Hf].
  - apply bisection_2d_ok in E as (k & s & Ht & E).
    destruct (C31_nested_search_is_two_searches _ _ _ _ _ dd 15 s s' k sel E Ht) as (outer & inner & co & k2 & c2 & _ & _ & Ei' & Eo & -> & Ec & Eg & _).
    exists k2, c2. split; [reflexivity|]. split; [|exact Eg].
    specialize (Eo (c2, maxH)). destruct (search _ can_build excess_of minH maxH 15 (start _ inner (c2, maxH))) as [o s2] eqn:Es. cbn [fst] in Eo. subst o.
    destruct (selected_feasible _ can_build excess_of minH maxH 15 _ _ _ Es eq_refl) as (k' & c' & [= <- <-] & _ & _ & _ & Hf).
    destruct Hf as [(q & Eq & Hq)|(_ & q & q' & Hq)].
    + right. exists q. split; [exact Eq|]. rewrite val_R in Hq. lra.
    + left. split; [|discriminate]. exists q, q'. tauto.
  - apply bisection_zd_ok in E as (ko & k & c & s & -> & Ht & E).
    destruct (C33_least_drilling_visited _ _ _ _ zlen minH maxH dd 15 s s' ko k c E Ht) as (outer & k0 & co & vs & X). cbv zeta in X.
    destruct X as (_ & _ & _ & _ & _ & _ & _ & _ & v & d & _ & _ & _ & _ & _ & _ & _ & (x & Ex & Hx) & (h & Eh & Eg) & _).
    exists k, c. split; [reflexivity|]. split; [|exists h; split; assumption]. right.
    destruct (excess_of_ok _ _ _ Ex) as (sx & y & Ey & _ & _). exists y. split; [now rewrite <- Ey|]. destruct Hx as [Hx|(q & Hx & Hq)]; [congruence|].
    assert (q = y) as -> by congruence. exact Hq.
Qed.

(** ordinary circumstances: a positive radius and minimum height, limits at least 2 micrometres apart, one g value for every time, and a root
    finder that stays between the limits *)
Definition ordinary : Prop :=
  0 < st_rb st /\ 0 < minH /\ minH + 2 * / 1000000 <= maxH /\
  (forall mf c H D r, exists g, field_response mf c H D r = Ok g /\ length g = length log_time) /\
  (forall lo up, asks_within lo up (brentq_dialogue lo up)).
Lemma ordinary_limits : ordinary -> 0 < minH < maxH.
Proof. intros (_ & A & B & _). assert (0 < / 1000000) by (apply Rinv_0_lt_compat; lra). lra. Qed.
Lemma ready_ordinary c H s : ordinary -> ready c H = Ok s -> 0 < gh_B s /\ gf_log_time (gh_gf s) = log_time /\ gf_locations (gh_gf s) = c /\ gh_nbh s = Z.of_nat (length c).
Proof.
  intros (Hrb & _) E. destruct (ready_inv _ _ _ _ _ _ _ _ _ _ _ _ _ _ _ E) as (V & mf & B & g & b & _ & A2 & _ & _ & A5 & A6 & _ & _ & _ & A10 & _).
  rewrite A5, A10, A6. split; [now apply (spacing_positive st c B)|]. repeat split; reflexivity.
Qed.
Lemma ordinary_responses c H s : ordinary -> ready c H = Ok s ->
  forall mf c H D r, exists g, field_response mf c H D r = Ok g /\ length g = length (gf_log_time (gh_gf s)).
Proof. intros O E. destruct (ready_ordinary c H s O E) as (_ & -> & _). apply O. Qed.

(** C96: sizing starts from what the search saw: with the g-functions of three heights, the selected exchanger simulates at the maximum
    height, and with the hourly method or hybrid loads that do not depend on the height (C105) at the minimum height, exactly as the one the
    search built for that height *)
Definition loads_alike : Prop := forall c s s', ready c minH = Ok s -> ready c maxH = Ok s' -> gh_load s = gh_load s' /\ gh_hour s = gh_hour s'.
Theorem C96_search_and_sizing_agree :
  forall mm c h s s0 sh, ordinary -> passes_through interp ->
  ready c maxH = Ok s -> with_g_functions s = Ok s0 -> ready c h = Ok sh -> h = minH /\ (mm = m_hourly \/ loads_alike) \/ h = maxH ->
  snd (simulated mm (with_H s0 h)) = snd (simulated mm sh) /\
  forall x, snd (simulated mm sh) = Ok x -> gh_results (fst (simulated mm (with_H s0 h))) = gh_results (fst (simulated mm sh)).
Proof.
  intros mm c h s s0 sh (O1 & O2 & O3 & O4 & _) Hi E E0 Eh Hh.
  refine (stored_simulation h_circular h_annulus r_conduction eff_u eff_c brentq solver interp field_response st flow V_flow log_time O1 O2 O3 O4 Hi mm c h s s0 sh E E0 Eh _).
  destruct Hh as [(-> & [->|Al])| ->]; [left; auto|left; split; [reflexivity|right]|now right]. destruct (Al c sh s Eh E) as (-> & ->). auto.
Qed.

(** ** the delivered exchanger *)
Lemma left_sized gc r H sel s' s mm s1 : ordinary -> program gc r H = Ok (sel, s') -> left_ghe r (sel, s') = Ok s -> size_up mm s = Ok s1 ->
  exists k c sm, sel = Some (k, c) /\ ready c maxH = Ok sm /\ size_up mm sm = Ok s1.
Proof.
  intros O E El Es. destruct (selected gc r H sel s' E) as (k & c & -> & _ & Hg). exists k, c.
  unfold Program.left_ghe in El. cbn [snd] in El.
  assert (Z : r = bi_zoned \/ r <> bi_zoned) by (destruct r; auto; right; discriminate). destruct Z as [-> |Z].
  - destruct Hg as (h & Eh & Hg). rewrite Hg in El. apply bind_ok in El. destruct El as (sm & Er & El). exists sm. split; [reflexivity|]. split; [exact Er|].
    rewrite <- Es. symmetry. apply (size_again _ _ _ _ _ _ _ _ _ _ st (ordinary_limits O) ltac:(apply O) m_hybrid mm sm s).
    + apply (ready_ordinary c maxH sm O Er).
    + exact (ordinary_responses c maxH sm O Er).
    + exact El.
  - assert (Hg' : Search.ghe _ s' = (c, maxH)) by (destruct r; try exact Hg; congruence). rewrite Hg' in El.
    exists s. split; [reflexivity|]. split; [destruct r; try exact El; congruence|exact Es].
Qed.

(** C97: the delivered exchanger has the boreholes of the selected field and a height between the limits; it is the exchanger built for the
    selected field, with the g-functions of the three heights, as a simulation at the delivered height leaves it *)
Theorem C97_delivered_exchanger :
  forall gc r H mm sel s1, ordinary -> whole gc r H mm = Ok (sel, s1) ->
  exists k c s' s s0 x, sel = Some (k, c) /\ program gc r H = Ok (Some (k, c), s') /\ ready c maxH = Ok s /\ with_g_functions s = Ok s0 /\
  simulated mm (with_H s0 (gh_H s1)) = (s1, Ok x) /\
  gh_nbh s1 = Z.of_nat (length c) /\ gf_locations (gh_gf s1) = c /\ minH <= gh_H s1 <= maxH.
Proof.
  intros gc r H mm sel s1 O E. unfold Program.whole in E. apply bind_ok in E. destruct E as ((sel', s') & Ep & E).
  apply bind_ok in E. destruct E as (s & El & E). apply bind_ok in E. destruct E as (s2 & Es & E). apply Ok_inj in E. cbn [fst] in E.
  assert (sel' = sel /\ s2 = s1) as (-> & ->) by (split; congruence).
  destruct (left_sized gc r H sel s' s mm s1 O Ep El Es) as (k & c & sm & -> & Er & Ez). exists k, c, s', sm.
  destruct (ready_ordinary c maxH sm O Er) as (P1 & P2 & P3 & P4).
  destruct (size_up_inv _ _ _ _ _ _ _ _ _ _ st (ordinary_limits O) ltac:(apply O) mm sm s1 P1 (ordinary_responses c maxH sm O Er) Ez) as (s0 & E0 & R1 & R2 & (x & R3) & _).
  exists s0, x. repeat (split; [first [reflexivity | assumption]|]).
  split. { rewrite R2 at 2. rewrite <- R3. destruct (simulated mm (with_H s0 (gh_H s1))); reflexivity. }
  destruct (simulated_same h_circular h_annulus r_conduction eff_u eff_c brentq solver interp st mm (with_H s0 (gh_H s1))) as (_ & Q2 & _ & _ & _ & _ & _ & t & Q8).
  rewrite <- R2 in Q2, Q8. cbn [with_H gh_nbh gh_gf] in Q2, Q8. rewrite Q2, Q8. cbn [with_table gf_locations].
  assert (X : gh_nbh s0 = gh_nbh sm /\ gf_locations (gh_gf s0) = gf_locations (gh_gf sm)).
  { destruct O as (O1 & O2 & O3 & O4 & O5).
    destruct (g_functions_inv field_response st log_time O2 O3 O4 sm s0 E0 P2) as (G1 & _ & _ & _ & _ & _ & _ & _ & _ & G10 & _). split; [rewrite G1; reflexivity|exact G10]. }
  destruct X as (-> & ->). split; [exact P4|]. split; [exact P3|exact R1].
Qed.

(** within the tolerance of the root finder there is a height at which all simulated temperatures are within the limits, and the delivered
    exchanger is at most as far outside as the excess changes over that distance.  With the hybrid method and loads that are not alike a single borehole
    that is enough when shallow must be enough when deep: its hybrid loads were made for another height (C96). *)
Theorem C97_delivered_compliance :
  forall gc r H sel s1 tol, ordinary -> passes_through interp -> stops_close tol brentq_dialogue -> 0 <= tol ->
  m = m_hourly \/ loads_alike \/ (forall c, deeper_helps excess_of minH maxH c) -> whole gc r H m = Ok (sel, s1) ->
  exists k c s s0 h, sel = Some (k, c) /\ ready c maxH = Ok s /\ with_g_functions s = Ok s0 /\
  minH <= h <= maxH /\ Rabs (h - gh_H s1) <= tol /\ complies m (with_H s0 h) /\
  forall slope, (forall h h' x x', minH <= h <= maxH -> minH <= h' <= maxH -> excess st (snd (simulated m (with_H s0 h))) = Ok x ->
       excess st (snd (simulated m (with_H s0 h'))) = Ok x' -> Rabs (x - x') <= slope * Rabs (h - h')) -> 0 <= slope ->
    forall T, In T (fst (gh_results s1)) -> st_min_EFT st - slope * tol <= T <= st_max_EFT st + slope * tol.
Proof.
  intros gc r H sel s1 tol O Hi Hs Ht Hm E. pose proof (ordinary_limits O) as Lim.
  unfold Program.whole in E. apply bind_ok in E. destruct E as ((sel', s') & Ep & E).
  apply bind_ok in E. destruct E as (s & El & E). apply bind_ok in E. destruct E as (s2 & Es & E). apply Ok_inj in E. cbn [fst] in E.
  assert (sel' = sel /\ s2 = s1) as (-> & ->) by (split; congruence).
  destruct (selected gc r H sel s' Ep) as (k & c & Esel & Hf & _).
  destruct (left_sized gc r H sel s' s m s1 O Ep El Es) as (k' & c' & sm & Esel' & Er & Ez). assert (k' = k /\ c' = c) as (-> & ->) by (split; congruence). subst sel.
  destruct (ready_ordinary c maxH sm O Er) as (P1 & P2 & P3 & P4).
  destruct (size_up_inv _ _ _ _ _ _ _ _ _ _ st Lim ltac:(apply O) m sm s1 P1 (ordinary_responses c maxH sm O Er) Ez) as (s0 & E0 & R1 & R2 & (v & R3) & a & b & Ea & Eb & Cases).
  assert (AtMax : forall x, excess_of c maxH = Ok (Fin x) -> x = b).
  { intros x Ex. destruct (excess_of_ok _ _ _ Ex) as (s3 & y & Ey & Er3 & Ey2). assert (s3 = sm) as -> by congruence. assert (y = x) as -> by congruence.
    destruct (C96_search_and_sizing_agree m c maxH sm s0 sm O Hi Er E0 Er (or_intror eq_refl)) as (A & _). unfold excess_at in Eb. rewrite A in Eb. congruence. }
  assert (Bad : 0 < a -> 0 < b -> False).
  { intros Pa Pb. destruct Hf as [((q & q' & Eq & Hq & Eq' & Hq') & _)|(x & Ex & Hx)]; [|rewrite (AtMax x Ex) in Hx; lra].
    rewrite val_R in Hq, Hq'. assert (Hm' : (m = m_hourly \/ loads_alike) \/ forall c, deeper_helps excess_of minH maxH c) by tauto. clear Hm. destruct Hm' as [Hm|Hm].
    - destruct (excess_of_ok _ _ _ Eq) as (s3 & y & Ey & Er3 & Ey2). assert (y = q) as -> by congruence.
      destruct (C96_search_and_sizing_agree m c minH sm s0 s3 O Hi Er E0 Er3 (or_introl (conj eq_refl Hm))) as (A & _). unfold excess_at in Ea. rewrite A, Ey2 in Ea.
      assert (q = a) by congruence. lra.
    - specialize (Hm c q q' Eq Eq'). rewrite !val_R in Hm. specialize (Hm Hq). lra. }
  assert (Fin : exists y, excess_at h_circular h_annulus r_conduction eff_u eff_c brentq solver interp st m s0 (gh_H s1) = Ok y /\
    (y <= 0 \/ exists q z, excess_at h_circular h_annulus r_conduction eff_u eff_c brentq solver interp st m s0 q = Ok z /\ minH <= q <= maxH /\ Rabs (q - gh_H s1) <= tol /\ z < 0 < y)).
  { destruct Cases as [(A1 & A2 & ->)|[(A1 & A2 & _)|(A1 & pts & x & A2 & ->)]].
    - exists b. split; [exact Eb|]. left. lra.
    - exfalso. now apply Bad.
    - destruct (Hs _ _ _ a b pts x Ea Eb A1 A2) as (y & Ey & Hy). exists y. split; [exact Ey|].
      destruct Hy as [-> |(q & z & Eq & Hq & Hd & [Hy|Hy])]; [left; lra|left; lra|right]. exists q, z. auto. }
  exists k, c, sm, s0. destruct Fin as (y & Ey & Hy). unfold excess_at in Ey.
  assert (Res : forall T, In T (fst (gh_results s1)) -> st_min_EFT st - y <= T <= st_max_EFT st + y).
  { destruct (excess_complies m _ y Ey) as ((s3 & x3 & E3 & A) & _). rewrite E3 in R2. cbn [fst] in R2. rewrite R2. exact A. }
  destruct Hy as [Hy|(q & z & Eq & Hq & Hd & Hz)].
  - exists (gh_H s1). repeat (split; [first [reflexivity | assumption]|]). split; [unfold Rminus; rewrite Rplus_opp_r, Rabs_R0; exact Ht|].
    split; [now apply (excess_complies m _ y Ey)|]. intros slope _ Hsl T HT. specialize (Res T HT). assert (0 <= slope * tol) by (apply Rmult_le_pos; assumption). lra.
  - exists q. repeat (split; [first [reflexivity | assumption]|]). unfold excess_at in Eq.
    split; [apply (excess_complies m _ z Eq); lra|]. intros slope Hl Hsl T HT. specialize (Res T HT).
    assert (D := Hl _ _ _ _ Hq R1 Eq Ey). assert (Rabs (z - y) = y - z) as D' by (rewrite Rabs_left by lra; ring). rewrite D' in D.
    assert (slope * Rabs (q - gh_H s1) <= slope * tol) by (apply Rmult_le_compat_l; assumption). lra.
Qed.

(** the outcome of sizing a field, from its excess at the two height limits *)
Theorem C97_sizing_outcome :
  forall mm c H s, ordinary -> ready c H = Ok s ->
  exists s0, with_g_functions s = Ok s0 /\
  let excess_at h := excess st (snd (simulated mm (with_H s0 h))) in
  forall a b, excess_at minH = Ok a -> excess_at maxH = Ok b ->
  (a < 0 /\ b < 0 \/ 0 < a /\ 0 < b -> exists s1, size_up mm s = Ok s1 /\ gh_H s1 = maxH) /\
  (a < 0 < b \/ b < 0 < a -> forall pts p x, listen excess_at (brentq_dialogue minH maxH) = (pts ++ [p], Ok x) ->
     exists s1, size_up mm s = Ok s1 /\ gh_H s1 = p) /\
  (a = 0 \/ b = 0 -> size_up mm s = Err ZeroDivisionError).
Proof.
  intros mm c H s O E. pose proof (ordinary_limits O) as Lim. destruct (ready_ordinary c H s O E) as (P1 & P2 & P3 & P4).
  assert (Hf := ordinary_responses c H s O E). destruct (g_functions_total field_response st s (proj2 Lim) Hf) as (s0 & E0 & _).
  exists s0. split; [exact E0|]. intros excess_at a b Ea Eb.
  destruct (C92_sizing_without_history h_circular h_annulus r_conduction eff_u eff_c brentq solver interp field_response st mm brentq_dialogue s s0 P1 Lim Hf E0 ltac:(apply O)) as (C1 & C2 & _).
  set (sim := from_scratch h_circular h_annulus r_conduction eff_u eff_c brentq solver interp st mm s0) in *.
  assert (Rel : forall h x, excess_at h = Ok x -> exists T, sim h = Ok (T, x)).
  { intros h x Ex. unfold excess_at in Ex. unfold sim, from_scratch. destruct (simulated mm (with_H s0 h)) as (s2, [y|e]); [|discriminate Ex].
    cbn [snd] in Ex. unfold excess in Ex. cbn [bind] in Ex. apply Ok_inj in Ex. eexists. rewrite <- Ex. reflexivity. }
  assert (Rel' : forall h, (fun h => match sim h with Ok r => Ok (snd r) | Err e => Err e end) h = excess_at h).
  { intro h. unfold excess_at, sim, from_scratch. destruct (simulated mm (with_H s0 h)) as (s2, [y|e]); reflexivity. }
  destruct (Rel _ _ Ea) as (Ta & Sa). destruct (Rel _ _ Eb) as (Tb & Sb).
  assert (F := C53_final_height_partial (fun f lo up => listen f (brentq_dialogue lo up)) sim maxH minH {| sz_height := gh_H s0; sz_result := None |} Ta a Tb b Sa Sb).
  cbn zeta in F. unfold Program.size_up. rewrite E0. cbn [bind].
  destruct (size (fun f lo up => listen f (brentq_dialogue lo up)) sim maxH minH {| sz_height := gh_H s0; sz_result := None |}) as (z, rz). cbn [fst snd] in C1, C2.
  destruct (ghe_size _ _ _ _ _ _ _ _ _ _ mm s0) as (s1, rs). cbn [fst snd] in C1, C2. subst rs. destruct F as (F1 & F2 & F3). split; [|split].
  - intro X. destruct (F1 X) as (Z1 & _ & ->). exists s1. split; [reflexivity|congruence].
  - intros X pts p x El. destruct (F2 X pts p x) as (Z1 & ->).
    { rewrite <- El. apply listen_ext. intro h. apply Rel'. }
    exists s1. split; [reflexivity|congruence].
  - intro X. destruct (F3 X) as (_ & ->). reflexivity.
Qed.

(** with the hourly method, or loads alike, a selected field that keeps the limits strictly at both height limits is delivered at the maximum height, although the
    minimum height is enough *)
Theorem C97_oversized :
  forall gc r H k c s1, ordinary -> passes_through interp -> m = m_hourly \/ loads_alike -> whole gc r H m = Ok (Some (k, c), s1) ->
  keeps_strictly c minH -> keeps_strictly c maxH -> gh_H s1 = maxH.
Proof.
  intros gc r H k c s1 O Hi Hm E (sl & El' & Kl) (su & Eu & Ku). pose proof (ordinary_limits O) as Lim.
  unfold Program.whole in E. apply bind_ok in E. destruct E as ((sel', s') & Ep & E).
  apply bind_ok in E. destruct E as (s & El & E). apply bind_ok in E. destruct E as (s2 & Es & E). apply Ok_inj in E. cbn [fst] in E.
  assert (sel' = Some (k, c) /\ s2 = s1) as (-> & ->) by (split; congruence).
  destruct (left_sized gc r H _ s' s m s1 O Ep El Es) as (k' & c' & sm & Esel' & Er & Ez). assert (k' = k /\ c' = c) as (-> & ->) by (split; congruence).
  destruct (ready_ordinary c maxH sm O Er) as (P1 & P2 & P3 & P4). assert (su = sm) as -> by congruence.
  destruct (size_up_inv _ _ _ _ _ _ _ _ _ _ st Lim ltac:(apply O) m sm s1 P1 (ordinary_responses c maxH sm O Er) Ez) as (s0 & E0 & R1 & R2 & (v & R3) & a & b & Ea & Eb & Cases).
  unfold excess_at in Ea, Eb.
  destruct (C96_search_and_sizing_agree m c minH sm s0 sl O Hi Er E0 El' (or_introl (conj eq_refl Hm))) as (A & _). rewrite A in Ea. apply (excess_complies m sl a Ea) in Kl.
  destruct (C96_search_and_sizing_agree m c maxH sm s0 sm O Hi Er E0 Er (or_intror eq_refl)) as (B & _). rewrite B in Eb. apply (excess_complies m sm b Eb) in Ku.
  destruct Cases as [(_ & _ & X)|[(X & _)|([X|X] & _)]]; [exact X| | |]; lra.
Qed.

(** C98: sizing an exchanger that has been sized before, by either method, gives exactly what sizing it the first time would have given *)
Theorem C98_sizing_again :
  forall m1 m2 c H s s1, ordinary -> ready c H = Ok s -> size_up m1 s = Ok s1 -> size_up m2 s1 = size_up m2 s.
Proof.
  intros m1 m2 c H s s1 O E Es.
  exact (size_again _ _ _ _ _ _ _ _ _ _ st (ordinary_limits O) ltac:(apply O) m1 m2 s s1 (proj1 (ready_ordinary c H s O E)) (ordinary_responses c H s O E) Es).
Qed.

(** C99: a bi-zoned design is delivered as the search left it: sizing it again with the hybrid method changes nothing, and its height is the height
    whose drilling the search compared.  Partial: that its total drilling is the least of those compared needs C35's condition.
    C99_C107_example in Properties_Delivered.v is a case. *)
Theorem C99_bi_zoned_delivered :
  forall gc H sel s1, ordinary -> whole gc bi_zoned H m_hybrid = Ok (sel, s1) ->
  exists k c s', sel = Some (k, c) /\ program gc bi_zoned H = Ok (sel, s') /\ left_ghe bi_zoned (sel, s') = Ok s1 /\ Search.ghe _ s' = (c, gh_H s1) /\
  sized_height c = Ok (gh_H s1).
Proof.
  intros gc H sel s1 O E. unfold Program.whole in E. apply bind_ok in E. destruct E as ((sel', s') & Ep & E).
  apply bind_ok in E. destruct E as (s & El & E). apply bind_ok in E. destruct E as (s2 & Es & E). apply Ok_inj in E. cbn [fst] in E.
  assert (sel' = sel /\ s2 = s1) as (-> & ->) by (split; congruence).
  destruct (selected gc bi_zoned H sel s' Ep) as (k & c & Esel & _ & h & Eh & Hg).
  assert (Le := El). unfold Program.left_ghe in Le. cbn [snd] in Le. rewrite Hg in Le. apply bind_ok in Le. destruct Le as (sm & Er & Le).
  assert (s = s1) as ->. { rewrite (C98_sizing_again m_hybrid m_hybrid c maxH sm s O Er Le) in Es. congruence. }
  exists k, c, s'. assert (h = gh_H s1) as <-. { unfold Program.sized_height in Eh. rewrite Er in Eh. cbn [bind] in Eh. rewrite Le in Eh. cbn [bind] in Eh. congruence. }
  auto.
Qed.
Theorem C99_bi_zoned_drilling_partial :
  forall gc L W bmin bmax_x bmax_y dd H k c s1, ordinary -> nested_inputs gc L W bmin bmax_x bmax_y -> bi_rectangle_zoned_nested L W bmin bmax_x bmax_y = Ok dd ->
  (forall d c0 cR tl tu tm, In d dd -> reads _ excess_of minH maxH d c0 cR tl tu tm ->
     (neg tl -> pos tu -> False) /\ (exists a b, tu = Fin a /\ tm = Fin b /\ b <= a)) ->
  whole gc bi_zoned H m_hybrid = Ok (Some (k, c), s1) ->
  exists s', program gc bi_zoned H = Ok (Some (k, c), s') /\ (exists j, In (j, INR (length c) * gh_H s1) (heights _ s')) /\
  forall j t, In (j, t) (heights _ s') -> INR (length c) * gh_H s1 <= t.
Proof.
  intros gc L W bmin bx by_ dd H k c s1 O Hin Ed Hc E.
  destruct (C99_bi_zoned_delivered gc H _ s1 O E) as (k' & c' & s' & Esel & Ep & _ & Hg & Hh). assert (k' = k /\ c' = c) as (-> & ->) by (split; congruence).
  exists s'. split; [exact Ep|]. unfold Program.program in Ep. rewrite (bi_zoned_design_eq _ _ _ _ _ _ _ _ _ _ _ _ Hin), Ed in Ep. cbn [bind] in Ep.
  apply bisection_zd_ok in Ep as (ko & k2 & c2 & s & Es & Ht & Ep). assert (k2 = k /\ c2 = c) as (-> & ->) by (split; congruence).
  destruct (C35_reports_sized_field_partial _ can_build excess_of sized_height zlen minH maxH dd 15 s s' ko k c Ep Ht Hc) as (d & total & h & _ & _ & Eh & Et & Hin' & Hmin & Hg' & _).
  cbn [nmul nofZ NumR] in Et. assert (h = gh_H s1) as -> by congruence. unfold zlen in Et. rewrite <- INR_IZR_INZ in Et. rewrite <- Et. split; [now exists ko|].
  intros j t Hj. specialize (Hmin j t Hj). now rewrite !val_R in Hmin.
Qed.

(** C100: the exported file describes the delivered exchanger: its height, its number of boreholes, the equivalent single U-tube at the delivered
    height, and points of the very g-function from which the delivered temperatures were calculated *)
Theorem C100_export_of_delivered :
  forall gc r H mm sel s1 ex, ordinary -> whole gc r H mm = Ok (sel, s1) -> oak_ridge_export sel s1 = Ok ex ->
  exists k c mf b e x y mx mn, sel = Some (k, c) /\ ex_length ex = gh_H s1 /\ ex_number ex = Z.of_nat (length c) /\
  make_bhe h_circular h_annulus r_conduction st mf = Ok b /\ mass_flow b = mf /\
  compute_equivalent h_circular r_conduction (eff_u (gh_H s1)) (eff_c (gh_H s1)) brentq b = Ok e /\
  (ex_rb ex = pg_rb (ub_pg e) /\ ex_rin ex = pp_rin (ub_pipe e) /\ ex_rout ex = pp_rout (ub_pipe e) /\ ex_s ex = pp_s (ub_pipe e) /\ ex_pos ex = pg_pos (ub_pg e) /\
   ex_m ex = ub_m e /\ ex_kg ex = ub_grout_k e /\ ex_ks ex = ub_soil_k e /\ ex_kp ex = pp_k (ub_pipe e)) /\
  simulate (g_lag x y (t_s (utube_of eff_u st (gh_H s1) e))) (INR (length c)) (gh_H s1) (2 * PI * st_soil_k st) (st_ugt st)
    (effective_resistance eff_u eff_c (gh_H s1) b) mf (fl_cp (st_fluid st)) mm (st_start st) (st_end st) (st_loads st) (gh_load s1) (gh_hour s1)
    = Ok (fst (gh_results s1), snd (gh_results s1), mx, mn) /\
  oak_ridge_pairs x y = Ok (ex_pairs ex).
Proof.
  intros gc r H mm sel s1 ex O E Ex. destruct (C97_delivered_exchanger gc r H mm sel s1 O E) as (k & c & s' & sm & s0 & v & -> & _ & Er & E0 & Es & N1 & L1 & R1).
  destruct (ready_ordinary c maxH sm O Er) as (P1 & P2 & P3 & P4).
  destruct (ready_inv _ _ _ _ _ _ _ _ _ _ _ _ _ _ _ Er) as (V & mf & B & g & b & _ & _ & _ & A4 & _ & _ & _ & A8 & A9 & _).
  destruct (simulated_parts h_circular h_annulus r_conduction eff_u eff_c brentq solver interp field_response st (ordinary_limits O) mm sm s0 (gh_H s1) v P1
    (ordinary_responses c maxH sm O Er) E0 R1 ltac:(rewrite Es; reflexivity)) as (Q1 & Q2 & Q3 & x & y & Q4 & Q5). rewrite Es in Q1, Q2, Q3, Q4, Q5. cbn [fst] in *.
  assert (U : update_bhe h_circular h_annulus r_conduction eff_u eff_c (gh_H s1) (gh_bhe sm) = b) by (rewrite A8; exact (made_updated _ _ _ _ _ _ _ _ _ A4)).
  rewrite U in *. pose proof (ordinary_limits O) as Lim.
  exists k, c, mf, b, (gh_eq s1), x, y, (fst v), (snd v).
  unfold Program.oak_ridge_export, export_pairs in Ex. cbn [bind] in Ex. rewrite pydiv_R in Ex by lra. cbn [bind] in Ex. rewrite Q4 in Ex. cbn [bind fst snd] in Ex.
  destruct (oak_ridge_pairs x y) as [ps|] eqn:Eps; [|discriminate]. cbn [bind] in Ex. apply Ok_inj in Ex. subst ex. cbn.
  assert (T : gh_ts s1 = t_s (utube_of eff_u st (gh_H s1) (gh_eq s1))).
  { clear - Q3. unfold short_time in Q3. cbn zeta in Q3. apply bind_ok in Q3. destruct Q3 as (z & _ & Q3). congruence. }
  split; [reflexivity|]. split; [reflexivity|]. split; [reflexivity|]. split; [exact A4|]. split; [now rewrite <- A8|]. split; [exact Q1|].
  split; [repeat (split; [reflexivity|]); reflexivity|]. split; [|reflexivity].
  rewrite <- T. rewrite N1, <- INR_IZR_INZ in Q5. rewrite <- A9, A8. exact Q5.
Qed.
(** the export succeeds when the first 30 short times come before the long ones, i.e. when these begin after an hour *)
Lemma stop_index_le l b : forall i j, stop_index l b i = Ok j -> forall n, (n <= length l)%nat -> (forall k v, (k < n)%nat -> nth_error l k = Some v -> v <= b) -> (i + Z.of_nat n <= j)%Z /\ (j <= i + zlen l)%Z.
Proof.
  induction l as [|a l IH]; intros i j E n Hn Hk; [discriminate|]. cbn [stop_index] in E. unfold zlen. cbn [length] in *. destruct (nle a b) eqn:Ea.
  - destruct n as [|n]; [destruct (IH _ _ E 0%nat) as (A & B); [lia|intros; lia|]; unfold zlen in *; lia|].
    destruct (IH _ _ E n) as (A & B); [lia|intros k v H; apply (Hk (S k) v); lia|]. unfold zlen in *. lia.
  - apply Ok_inj in E. subst j. destruct n as [|n]; [lia|]. specialize (Hk 0%nat a ltac:(lia) eq_refl). apply nle_R_false in Ea. lra.
Qed.
Lemma nminl_In (l : list R) v : nminl l = Ok v -> In v l.
Proof.
  destruct l as [|a l]; [discriminate|]. cbn [nminl]. intro E. apply Ok_inj in E. subst v. revert a. induction l as [|b l IH]; intro a; [now left|]. cbn [fold_left].
  destruct (IH (nmin a b)) as [X|X]; [|right; now right]. rewrite <- X. unfold nmin. destruct (nlt b a); [right; now left|now left].
Qed.
Lemma combined_length (lts glts sts g x y : list R) n : combine_sts_lts lts glts sts g = Ok (x, y) -> (n <= length sts)%nat ->
  (forall k v l, (k < n)%nat -> nth_error sts k = Some v -> In l lts -> v <= l) -> length x = length y /\ (n + length lts <= length x)%nat.
Proof.
  intros E Hn Hk. unfold combine_sts_lts in E. apply bind_ok in E. destruct E as (mx & _ & E). apply bind_ok in E. destruct E as (mn & En & E). apply nminl_In in En.
  apply bind_ok in E. destruct E as ((x', y') & Ec & E). cbn [fst snd] in E. destruct (zlen x' =? zlen y')%Z eqn:El; [|discriminate]. apply Z.eqb_eq in El.
  assert (x' = x /\ y' = y) as (-> & ->) by (split; congruence). unfold zlen in El. split; [lia|].
  destruct (nlt mx mn).
  - assert (x = sts ++ lts) as -> by congruence. rewrite app_length. lia.
  - apply bind_ok in Ec. destruct Ec as (i & Ei & Ec). assert (x = py_slice sts 0 i ++ lts) as -> by congruence.
    destruct (stop_index_le _ _ _ _ Ei n Hn ltac:(intros k v H1 H2; now apply (Hk k))) as (A & B). rewrite app_length.
    pose proof (py_slice_zlen sts 0 i ltac:(lia) ltac:(lia)) as Z. unfold zlen in Z. lia.
Qed.
Theorem C100_export_succeeds :
  forall gc r H mm sel s1, ordinary -> whole gc r H mm = Ok (sel, s1) -> (27 <= length log_time)%nat -> (forall l, In l log_time -> 3600 <= gh_ts s1 * exp l) ->
  exists ex, oak_ridge_export sel s1 = Ok ex /\ (29 + 27 <= length (ex_pairs ex) <= 58 + 27)%nat.
Proof.
  intros gc r H mm sel s1 O E Hn Hl. destruct (C97_delivered_exchanger gc r H mm sel s1 O E) as (k & c & s' & sm & s0 & v & -> & _ & Er & E0 & Es & N1 & L1 & R1).
  destruct (ready_ordinary c maxH sm O Er) as (P1 & P2 & P3 & P4). pose proof (ordinary_limits O) as Lim.
  assert (Lt : gf_log_time (gh_gf s1) = log_time).
  { destruct (simulated_same h_circular h_annulus r_conduction eff_u eff_c brentq solver interp st mm (with_H s0 (gh_H s1))) as (_ & _ & _ & _ & _ & _ & _ & t & Q8).
    rewrite Es in Q8. cbn [fst with_H gh_gf] in Q8. rewrite Q8. cbn [with_table gf_log_time].
    destruct O as (O1 & O2 & O3 & O4 & O5). destruct (g_functions_inv field_response st log_time O2 O3 O4 sm s0 E0 P2) as (_ & _ & G). tauto. }
  destruct (simulated_parts h_circular h_annulus r_conduction eff_u eff_c brentq solver interp field_response st Lim mm sm s0 (gh_H s1) v P1
    (ordinary_responses c maxH sm O Er) E0 R1 ltac:(rewrite Es; reflexivity)) as (_ & _ & Q3 & x & y & Q4 & _). rewrite Es in Q3, Q4. cbn [fst] in *.
  unfold short_time in Q3. cbn zeta in Q3. set (u := utube_of eff_u st (gh_H s1) (gh_eq s1)) in *. apply bind_ok in Q3. destruct Q3 as ((sts, g) & Ec & Q3). apply Ok_inj in Q3.
  assert (T : gh_ts s1 = t_s u) by congruence. assert (S1 : gh_sts s1 = (sts, g)) by congruence. rewrite S1 in Q4. cbn [fst snd] in Q4.
  assert (Len : length x = length y /\ (30 + length log_time <= length x)%nat).
  { unfold grab_g_function in Q4. destruct (g_function_interpolation _ _ _ _) as (t, rr). cbn [snd] in Q4. apply bind_ok in Q4. destruct Q4 as ((((gg, rbv), ?), ?) & _ & Q4).
    rewrite Lt in Q4. destruct (calc_ok solver u None) as (m0 & M1 & _ & M3 & M4).
    assert (Hf : (m0 < short_time_fuel u)%nat) by (apply Nat.nle_gt; intro X; rewrite M3 in Ec by exact X; discriminate). rewrite M4 in Ec by exact Hf.
    destruct (Ok_pair _ _ _ _ Ec) as (Es' & _).
    assert (Hm : (30 <= S m0)%nat).
    { destruct (le_lt_dec 30 (S m0)) as [X|X]; [exact X|exfalso]. pose proof (calc_time_covers u). cbn [final_of] in M1. unfold entry_time in M1.
      assert (P : 0 < / 1000000000000 < 1) by (split; [apply Rinv_0_lt_compat; lra|lra]). assert (INR m0 <= 28) by (change 28 with (IZR (Z.of_nat 28)); rewrite <- INR_IZR_INZ; apply le_INR; lia). lra. }
    apply (combined_length _ _ _ _ _ _ 30 Q4).
    - rewrite <- Es', map_length, seq_length. exact Hm.
    - intros k0 v0 l Hk Ev Hin. specialize (Hl l Hin). rewrite T in Hl.
      assert (Hts : 0 < t_s u). { pose proof (exp_pos l). apply Rnot_le_lt. intro X. assert (t_s u * exp l <= 0 * exp l) by (apply Rmult_le_compat_r; lra). lra. }
      rewrite <- Es' in Ev. rewrite nth_error_map in Ev. rewrite (nth_error_nth' _ 0%nat) in Ev by (rewrite seq_length; lia). rewrite seq_nth in Ev by lia. cbn [option_map plus] in Ev. injection Ev as <-.
      pose proof (entry_pos k0) as Hp. rewrite <- (ln_exp l). assert (Q : entry_time k0 / t_s u <= exp l).
      { apply (Rmult_le_reg_r (t_s u)); [exact Hts|]. unfold Rdiv. rewrite Rmult_assoc, Rinv_l, Rmult_1_r by lra. rewrite Rmult_comm.
        assert (entry_time k0 <= 3600); [|lra]. unfold entry_time. assert (P : 0 < / 1000000000000 < 1) by (split; [apply Rinv_0_lt_compat; lra|lra]).
        assert (INR k0 <= 29) by (change 29 with (IZR (Z.of_nat 29)); rewrite <- INR_IZR_INZ; apply le_INR; lia). lra. }
      destruct Q as [Q| ->]; [left; apply ln_increasing; [apply Rdiv_lt_0_compat; assumption|exact Q]|right; reflexivity]. }
  destruct Len as (Lx & Ln). destruct (C71_export_partial R x y Lx ltac:(lia)) as (idx & ps & Ep & _ & Hi & Hps).
  unfold Program.oak_ridge_export, export_pairs. cbn [bind]. rewrite pydiv_R by lra. cbn [bind]. rewrite S1. cbn [fst snd]. rewrite Q4. cbn [bind fst snd]. rewrite Ep. cbn [bind].
  assert (Lp : (length (idx ++ seq (length x - 27) 27) = length ps)%nat) by (clear - Hps; induction Hps; cbn [length]; congruence). rewrite app_length, seq_length in Lp.
  eexists. split; [reflexivity|]. cbn [ex_pairs]. lia.
Qed.
Lemma delivered_time gc r H mm sel s1 : ordinary -> whole gc r H mm = Ok (sel, s1) -> exists mf b,
  make_bhe h_circular h_annulus r_conduction st mf = Ok b /\ compute_equivalent h_circular r_conduction (eff_u (gh_H s1)) (eff_c (gh_H s1)) brentq b = Ok (gh_eq s1) /\
  gh_ts s1 = t_s (utube_of eff_u st (gh_H s1) (gh_eq s1)).
Proof.
  intros O E. destruct (C97_delivered_exchanger gc r H mm sel s1 O E) as (k & c & s' & sm & s0 & v & -> & _ & Er & E0 & Es & N1 & L1 & R1).
  destruct (ready_ordinary c maxH sm O Er) as (P1 & P2 & P3 & P4).
  destruct (ready_inv _ _ _ _ _ _ _ _ _ _ _ _ _ _ _ Er) as (V & mf & B & g & b & _ & _ & _ & A4 & _ & _ & _ & A8 & A9 & _).
  destruct (simulated_parts h_circular h_annulus r_conduction eff_u eff_c brentq solver interp field_response st (ordinary_limits O) mm sm s0 (gh_H s1) v P1
    (ordinary_responses c maxH sm O Er) E0 R1 ltac:(rewrite Es; reflexivity)) as (Q1 & Q2 & Q3 & x & y & Q4 & Q5). rewrite Es in Q1, Q2, Q3. cbn [fst] in *.
  assert (U : update_bhe h_circular h_annulus r_conduction eff_u eff_c (gh_H s1) (gh_bhe sm) = b) by (rewrite A8; exact (made_updated _ _ _ _ _ _ _ _ _ A4)).
  rewrite U in *. exists mf, b. split; [exact A4|]. split; [exact Q1|].
  clear - Q3. unfold short_time in Q3. cbn zeta in Q3. apply bind_ok in Q3. destruct Q3 as (z & _ & Q3). congruence.
Qed.
End World.

(** ** a rectangular design in the plant of C92-C94, sized by simulating every hour *)
(** a root finder that halves the interval, and an interpolant through the stored points *)
Fixpoint halving (k : nat) (lo up a : R) : dialogue :=
  match k with
  | O => Ask lo (fun _ => Answer (Ok lo))
  | S k => let mid := (lo + up) / 2 in
           Ask mid (fun y => if Req_EM_T y 0 then Answer (Ok mid)
                             else if Rlt_dec (y * a) 0 then halving k lo mid a else halving k mid up y)
  end.
Definition bisection (tol lo hi : R) : dialogue :=
  if Rle_dec lo hi then Ask lo (fun a => halving (Z.to_nat (up ((hi - lo) / tol))) lo hi a) else Answer (Err ValueError).
Definition plant_lookup : ikind -> list (R * R) -> R -> R :=
  fun _ l h => match find (fun p => if Req_EM_T (fst p) h then true else false) l with Some p => snd p | None => snd (hd (0, 0) l) end.
Lemma lookup_passes : passes_through plant_lookup.
Proof.
  intros k l h y. unfold plant_lookup. induction l as [|(a, b) l IH]; intros Nd Hin; [destruct Hin|]. cbn [map fst] in Nd. apply NoDup_cons_iff in Nd. destruct Nd as (N1 & N2).
  cbn [find fst]. destruct (Req_EM_T a h) as [->|Hne].
  - destruct Hin as [[= ->]|Hin]; [reflexivity|]. exfalso. apply N1. apply (in_map fst) in Hin. exact Hin.
  - destruct Hin as [[= X _]|Hin]; [congruence|]. specialize (IH N2 Hin).
    destruct (find _ l) eqn:Ef; [exact IH|]. exfalso. eapply find_none in Ef; [|exact Hin]. cbn in Ef. destruct (Req_EM_T h h); congruence.
Qed.
Lemma halving_within k : forall lo up a, lo <= up -> forall l u, l <= lo -> up <= u -> asks_within l u (halving k lo up a).
Proof.
  induction k as [|k IH]; intros lo up a Hlu l u Hl Hu; cbn [halving asks_within]; [split; [lra|intros; exact I]|].
  split; [lra|]. intro y. destruct (Req_EM_T y 0); [exact I|]. destruct (Rlt_dec (y * a) 0); apply IH; lra.
Qed.
Lemma bisection_within tol lo up : asks_within lo up (bisection tol lo up).
Proof. unfold bisection. destruct (Rle_dec lo up); [|exact I]. cbn [asks_within]. split; [lra|]. intro y. apply halving_within; lra. Qed.
Lemma last_first {A} (x d : A) l : last (x :: l) d = last l x.
Proof. revert x d. induction l as [|y l IH]; intros x d; [reflexivity|]. change (last (x :: y :: l) d) with (last (y :: l) d). rewrite (IH y d). symmetry. apply IH. Qed.
Lemma listen_ask f x next d pts r : listen f (Ask x next) = (pts, Ok r) -> exists y pts', f x = Ok y /\ listen f (next y) = (pts', Ok r) /\ last pts d = last pts' x.
Proof.
  cbn [listen]. destruct (f x) as [y|e]; [|intros [=]]. destruct (listen f (next y)) as (l, r') eqn:E. intros [= <- ->]. exists y, l. rewrite last_first. auto.
Qed.
Lemma halving_stops f k : forall lo up a b d pts r, lo <= up -> f lo = Ok a -> f up = Ok b -> a * b < 0 -> listen f (halving k lo up a) = (pts, Ok r) ->
  exists y, f (last pts d) = Ok y /\
  (y = 0 \/ exists q z, f q = Ok z /\ lo <= q <= up /\ Rabs (q - last pts d) <= (up - lo) / 2 ^ k /\ y * z < 0).
Proof.
  induction k as [|k IH]; intros lo up a b d pts r Hlu Ea Eb Hab E; cbn [halving] in E; apply (listen_ask _ _ _ d) in E; destruct E as (y & pts' & Ey & E & ->).
  - cbn [listen] in E. injection E as <- _. cbn [last]. exists y. split; [exact Ey|]. right. exists up, b.
    assert (y = a) as -> by congruence. repeat (split; [first [assumption | lra]|]). split; [rewrite Rabs_pos_eq by lra; cbn; lra|exact Hab].
  - assert (Hp : 0 < 2 ^ k) by (apply pow_lt; lra).
    destruct (Req_EM_T y 0) as [->|Hy]; [cbn [listen] in E; injection E as <- _; cbn [last]; exists 0; split; [exact Ey|now left]|].
    assert (W : forall x, (x - lo) = (up - lo) / 2 -> (x - lo) / 2 ^ k = (up - lo) / 2 ^ S k) by (intros x Ex; rewrite Ex; cbn [pow]; field; lra).
    destruct (Rlt_dec (y * a) 0) as [Hs|Hs].
    + destruct (IH lo ((lo + up) / 2) a y ((lo + up) / 2) pts' r ltac:(lra) Ea Ey ltac:(lra) E) as (v & Ev & [Hv|(q & z & Eq & Hq & Hd & Hz)]); exists v; (split; [exact Ev|]); [now left|right].
      exists q, z. rewrite W in Hd by lra. repeat (split; [first [assumption | lra]|]). exact Hz.
    + assert (Hyb : y * b < 0) by (destruct (Rlt_le_dec a 0), (Rlt_le_dec y 0), (Rlt_le_dec b 0); nra).
      destruct (IH ((lo + up) / 2) up y b ((lo + up) / 2) pts' r ltac:(lra) Ey Eb Hyb E) as (v & Ev & [Hv|(q & z & Eq & Hq & Hd & Hz)]); exists v; (split; [exact Ev|]); [now left|right].
      exists q, z. replace ((up - (lo + up) / 2) / 2 ^ k) with ((up - lo) / 2 ^ S k) in Hd by (cbn [pow]; field; lra). repeat (split; [first [assumption | lra]|]). exact Hz.
Qed.
Lemma pow2_above k : INR k <= 2 ^ k.
Proof. induction k; [cbn; lra|]. rewrite S_INR. cbn [pow]. assert (1 <= 2 ^ k) by (apply pow_R1_Rle; lra). lra. Qed.
Lemma bisection_stops tol : 0 < tol -> stops_close tol (bisection tol).
Proof.
  intros Ht f lo hi a b pts x Ea Eb Hab E. unfold bisection in E. destruct (Rle_dec lo hi) as [Hlu|]; [|cbn in E; congruence].
  apply (listen_ask _ _ _ hi) in E. destruct E as (a' & pts' & Ea' & E & ->). assert (a' = a) as -> by congruence.
  destruct (halving_stops f _ lo hi a b lo pts' x Hlu Ea Eb ltac:(nra) E) as (y & Ey & Hy). exists y. split; [exact Ey|].
  destruct Hy as [Hy|(q & z & Eq & Hq & Hd & Hz)]; [now left|right]. exists q, z. repeat (split; [assumption|]). split.
  - eapply Rle_trans; [exact Hd|]. set (k := Z.to_nat (up ((hi - lo) / tol))). assert (P : 0 < 2 ^ k) by (apply pow_lt; lra).
    assert (Hk : (hi - lo) / tol <= INR k).
    { destruct (archimed ((hi - lo) / tol)) as (A & _). assert (0 <= (hi - lo) / tol) by (apply Rmult_le_pos; [lra|apply Rlt_le, Rinv_0_lt_compat; lra]).
      unfold k. rewrite INR_IZR_INZ, Z2Nat.id; [lra|]. apply le_IZR. lra. }
    apply Rmult_le_reg_r with (2 ^ k); [exact P|]. unfold Rdiv at 1. rewrite Rmult_assoc, Rinv_l, Rmult_1_r by lra.
    pose proof (pow2_above k). apply Rmult_le_compat_l with (r := tol) in Hk; [|lra]. replace (tol * ((hi - lo) / tol)) with (hi - lo) in Hk by (field; lra). nra.
  - destruct (Rlt_le_dec y 0), (Rlt_le_dec z 0); nra.
Qed.
Notation plant_ready st V c H := (ready plant_film plant_annulus plant_wall plant_Rb plant_Rc plant_root thomas plant_response st flow_borehole V eskilson c H).
Notation plant_simulated st s := (ghe_simulate plant_film plant_annulus plant_wall plant_Rb plant_Rc plant_root thomas plant_lookup st m_hourly s).
Lemma plant_utube sec : exists u, forall a b c d mf e, make_bhe plant_film plant_annulus plant_wall (plant a b c d) mf = Ok (Single e) ->
  utube_of plant_Rb (plant a b c d) (height_for sec) e = u /\ compute_equivalent plant_film plant_wall (plant_Rb (height_for sec)) (plant_Rc (height_for sec)) plant_root (Single e) = Ok e /\
  effective_resistance plant_Rb plant_Rc (height_for sec) (Single e) = 15 / 100.
Proof.
  destruct (plant_bhe 0 0 0 0 0) as (e0 & E0 & _). exists (utube_of plant_Rb (plant 0 0 0 0) (height_for sec) e0). intros a b c d mf e E.
  unfold make_bhe in E, E0. cbn [st_class plant] in E, E0.
  apply bind_ok in E. destruct E as (x & Ex & E). apply bind_ok in E0. destruct E0 as (x0 & Ex0 & E0). apply Ok_inj in E, E0. injection E as ->. injection E0 as ->.
  split; [|split; reflexivity].
  unfold single_u_tube, make_u in Ex, Ex0. apply bind_ok in Ex. destruct Ex as (mp & Em & Ex). apply bind_ok in Ex0. destruct Ex0 as (mp0 & Em0 & Ex0).
  apply Ok_inj in Ex, Ex0. subst e e0. reflexivity.
Qed.
(** a field of the plant at the height for n seconds: rises of the fluid temperature per borehole *)
Lemma plant_evaluates n : (30000 <= n)%Z -> (n mod 120 <> 0)%Z -> exists A : nat -> R, forall hi lo mxH mnH V c, 0 < V -> c <> [] ->
  let st := plant hi lo mxH mnH in
  exists s s' T D mx mn, plant_ready st V c (height_for (IZR n)) = Ok s /\ plant_simulated st s = (s', Ok (mx, mn)) /\ gh_results s' = (T, D) /\
  length T = Z.to_nat 8760 /\ is_max mx T /\ is_min mn T /\
  forall i, (1 <= i <= Z.to_nat 8760)%nat -> at_step T i = 18 + (A i + 1000 / (2 * (V / 1000 * 998) * 4182)) / INR (length c).
Proof.
  intros Hn Hd. destruct eskilson_head as (r & Er). destruct (plant_utube (IZR n)) as (u & Hu).
  destruct (plant_bhe 0 0 0 0 1) as (e0 & E0 & Hu0). assert (Hn1 : 30000 <= IZR n) by (apply (IZR_le 30000); lia).
  destruct (Hu0 (IZR n) ltac:(lra)) as (Ad & Ts). rewrite (proj1 (Hu _ _ _ _ _ _ E0)) in Ad, Ts. clear e0 E0 Hu0.
  destruct (not_a_short_time n Hd ltac:(lia)) as (S1 & S2).
  assert (Et : t_s u * exp (- (17 / 2)) = IZR n).
  { rewrite Ts, Rmult_assoc, <- exp_plus. replace (17 / 2 + - (17 / 2)) with 0 by ring. rewrite exp_0. ring. }
  assert (Hh : 0 < height_for (IZR n)) by (apply height_positive; lra).
  destruct (System_fuel thomas u) as ((sts, gs) & Es).
  destruct (C89_g_function_range thomas u _ sts gs eskilson (map (fun g => g - ln (75 / 1000 / (75 / 1000))) eskilson) (- (17 / 2)) r Ad Es Er eskilson_increasing ltac:(apply map_length)
    ltac:(rewrite Et; exact S1) ltac:(intro j; rewrite Et; apply S2)) as (x & y & Ec & _ & _ & Gr).
  set (Q := map (fun z => -1 * z) (concat (repeat (repeat 1000 (Z.to_nat 8760)) (Z.to_nat 1)))).
  set (t := map IZR (zrange 1 (Z.of_nat (Z.to_nat 8760) + 1))).
  assert (LQ : length Q = Z.to_nat 8760) by (unfold Q; rewrite map_length, repeat_concat_length, repeat_length; reflexivity).
  assert (Lt : length t = Z.to_nat 8760) by (unfold t; rewrite map_length, zrange_length; lia).
  assert (QV : forall i, (1 <= i <= Z.to_nat 8760)%nat -> at_step Q i = -1000).
  { intros i Hi. destruct i as [|i]; [lia|]. cbn [at_step]. unfold Q. change (Z.to_nat 1) with 1%nat. cbn [repeat concat]. rewrite app_nil_r.
    rewrite (nth_indep _ 0 (-1 * 1000)) by (rewrite map_length, repeat_length; lia). rewrite (map_nth (fun z => -1 * z)).
    rewrite nth_repeat. lra. }
  set (G := value_or_0 (g_lag x y (t_s u))).
  assert (Cov : covers (g_lag x y (t_s u)) G t (length Q)).
  { intros i j Hij. rewrite LQ in Hij. assert (X : 3600 * INR (Z.to_nat 8760) <= t_s u * exp (last eskilson 0)).
    { rewrite Ts, INR_IZR_INZ. change (Z.of_nat (Z.to_nat 8760)) with (8760 * 1)%Z. apply eskilson_reach. lra. }
    assert (Y := proj2 (C90_hourly_times (t_s u * exp (last eskilson 0)) (Z.to_nat 8760) ltac:(lia)) X i j Hij). fold t in Y.
    destruct (Gr (at_step t i - at_step t j)) as (G1 & _). destruct (G1 Y) as (w & Ew & _). unfold G, value_or_0. rewrite Ew. reflexivity. }
  set (H := height_for (IZR n)) in *. pose proof PI_RGT_0 as PP.
  exists (fun i => wall_rise G (fun k => at_step Q k / 1 / H / (2 * PI * 2)) (at_step t) i + -1000 / H * (15 / 100)).
  intros hi lo mxH mnH V c HV Hc st.
  assert (Lc : (1 <= length c)%nat) by (destruct c; [congruence|cbn; lia]).
  destruct (plant_bhe hi lo mxH mnH (V / 1000 * 998)) as (e & Ee & _). destruct (Hu _ _ _ _ _ _ Ee) as (Eu & Eq & Re).
  assert (Ex : exists x, calculate_excess plant_film plant_annulus plant_wall plant_Rb plant_Rc plant_root thomas plant_lookup plant_response st flow_borehole V eskilson m_hourly c H = Ok x).
  { apply (C94_hourly_field plant_film plant_annulus plant_wall plant_Rb plant_Rc plant_root thomas plant_lookup plant_response st m_hourly flow_borehole V eskilson
      c H (V * INR (length c)) (V / 1000 * 998) (Single e) e eskilson (- (17 / 2)) r 1); try reflexivity; try assumption.
    - cbn. lra.
    - cbn. rewrite pydiv_R by lra. cbn. unfold zlen. rewrite <- INR_IZR_INZ. reflexivity.
    - cbn. lra.
    - exact solver_exists.
    - change (admissible (utube_of plant_Rb (plant hi lo mxH mnH) H e)). rewrite Eu. exact Ad.
    - rewrite <- Er. exact eskilson_increasing.
    - rewrite Er. reflexivity.
    - change (utube_of plant_Rb st H e) with (utube_of plant_Rb (plant hi lo mxH mnH) H e). rewrite Eu, Et. exact S1.
    - intro j. change (utube_of plant_Rb st H e) with (utube_of plant_Rb (plant hi lo mxH mnH) H e). rewrite Eu, Et. apply S2.
    - intros rej ext E. apply (plant_clear hi lo mxH mnH rej ext E).
    - cbn [st_start st_end st plant]. rewrite <- Er. change (utube_of plant_Rb st H e) with (utube_of plant_Rb (plant hi lo mxH mnH) H e).
      rewrite Eu, Ts. apply eskilson_reach. lra. }
  destruct Ex as (ex & Ex). destruct (C93_excess_is_compliance _ _ _ _ _ _ _ _ _ _ _ _ _ _ _ _ ex Ex) as (s & s' & mx & mn & Vb & g & B & Eb & Er' & _ & EH & En & _ & _ & _ & EB & Eg & Egf & EgB).
  assert (Eg' : g = eskilson) by (unfold plant_response in Eg; congruence). subst g. clear Eg.
  destruct (sim_extremes _ _ _ _ _ _ _ _ _ _ _ _ _ _ Er') as (Mx & Mn).
  assert (Q1 : simulated_loads m_hourly (st_start st) (st_end st) (st_loads st) (gh_load s) (gh_hour s) = Ok (Q, t)).
  { rewrite (hourly_loads_ok (st_start st) (st_end st) (st_loads st) (gh_load s) (gh_hour s) 1) by (cbn; lia). reflexivity. }
  destruct (C50_superposition (g_lag x y (t_s u)) G (INR (length c)) H (2 * PI * 2) 18 (15 / 100) (V / 1000 * 998) 4182 Q t) as (T & D & Ed & LT & LD & F).
  { apply not_0_INR. lia. } { lra. } { lra. } { lra. } { intro X. rewrite X in LQ. cbn [length] in LQ. lia. } { lia. } { exact Cov. }
  assert (Res : gh_results s' = (T, D)).
  { assert (Er2 := Er'). unfold ghe_simulate in Er2. rewrite EH, EgB in Er2. assert (PB := spacing_positive st c B ltac:(cbn; lra) EB).
    rewrite pydiv_R in Er2 by lra. cbn [with_bhe gh_bhe] in Er2.
    assert (Eb2 : update_bhe plant_film plant_annulus plant_wall plant_Rb plant_Rc H (gh_bhe s) = Single e).
    { destruct (ready_inv _ _ _ _ _ _ _ _ _ _ _ _ _ _ _ Eb) as (V1 & mf & B' & g' & b & A1 & _ & _ & A4 & _ & _ & _ & A8 & _).
      assert (mf = V / 1000 * 998). { cbn in A1. rewrite pydiv_R in A1 by lra. cbn in A1. congruence. } subst mf.
      rewrite A8, (made_updated _ _ _ _ _ _ _ _ _ A4). apply Ok_inj. rewrite <- A4. exact Ee. }
    rewrite Eb2, Eq in Er2. unfold short_time in Er2. change (utube_of plant_Rb st H e) with (utube_of plant_Rb (plant hi lo mxH mnH) H e) in Er2. rewrite Eu, Es in Er2. cbn [bind] in Er2.
    cbn [with_short_time with_eq with_bhe gh_gf gh_sts gh_ts gh_nbh gh_bhe gh_load gh_hour fst snd] in Er2. rewrite Egf in Er2.
    assert (I1 := proj1 (C56_stored_height_partial plant_lookup (gh_gf s) H {| cv_g := eskilson; cv_rb := st_rb st; cv_D := st_D st |} (B / H)
      ltac:(rewrite Egf; reflexivity) Hh ltac:(apply Rgt_not_eq, Rdiv_lt_0_compat; lra) ltac:(rewrite Egf; cbn [gf_B]; field; lra))).
    rewrite Egf in I1. unfold grab_g_function in Er2.
    destruct (g_function_interpolation plant_lookup _ (B / H) k_default) as (tb & rg). cbn [snd cv_g cv_rb cv_D] in I1. subst rg. cbn [bind gf_log_time] in Er2.
    change (combine_sts_lts eskilson (borehole_radius_correction eskilson (st_rb st) (st_rb st)) sts gs = Ok (x, y)) in Ec.
    rewrite Ec in Er2. cbn [fst snd] in Er2. cbn [with_gf with_short_time with_eq with_bhe gh_gf gh_sts gh_ts gh_nbh gh_bhe gh_load gh_hour fst snd] in Er2. rewrite Re, En, <- INR_IZR_INZ in Er2.
    unfold simulate in Er2. rewrite Q1 in Er2. cbn [bind fst snd] in Er2.
    rewrite (made_flow plant_film plant_annulus plant_wall st _ _ Ee) in Er2.
    change (st_soil_k st) with 2 in Er2. change (st_ugt st) with 18 in Er2. change (fl_cp (st_fluid st)) with 4182 in Er2. rewrite Ed in Er2. cbn [bind fst snd] in Er2.
    destruct (nmaxl T); [|discriminate]. destruct (nminl T); [|discriminate]. cbn [bind] in Er2. now injection Er2 as <- _ _. }
  rewrite Res in Mx, Mn. exists s, s', T, D, mx, mn. split; [exact Eb|]. split; [exact Er'|]. split; [exact Res|]. split; [congruence|].
  split; [exact Mx|]. split; [exact Mn|]. intros i Hi. destruct (F i ltac:(lia)) as (_ & ->). rewrite (QV i Hi).
  assert (Nc : INR (length c) <> 0) by (apply not_0_INR; lia).
  assert (W : wall_rise G (fun k => at_step Q k / INR (length c) / H / (2 * PI * 2)) (at_step t) i = wall_rise G (fun k => at_step Q k / 1 / H / (2 * PI * 2)) (at_step t) i / INR (length c)).
  { unfold wall_rise. match goal with |- _ = ?a / ?b => change (a / b) with (a * / b) end. rewrite <- sumf_scal. apply sumf_ext. intros j _. field. repeat split; lra. }
  rewrite W. field. repeat split; lra.
Qed.
Lemma bounded (A : nat -> R) n : exists M, 0 <= M /\ forall i, (i <= n)%nat -> - M <= A i <= M.
Proof.
  induction n as [|n (M & M0 & HM)].
  - exists (Rabs (A 0%nat)). split; [apply Rabs_pos|]. intros i Hi. replace i with 0%nat by lia. pose proof (Rle_abs (A 0%nat)). pose proof (Rle_abs (- A 0%nat)). rewrite Rabs_Ropp in *. lra.
  - exists (Rmax M (Rabs (A (S n)))). split; [eapply Rle_trans; [exact M0|apply Rmax_l]|]. intros i Hi.
    destruct (Nat.eq_dec i (S n)) as [->|Hne].
    + pose proof (Rmax_r M (Rabs (A (S n)))). pose proof (Rle_abs (A (S n))). pose proof (Rle_abs (- A (S n))). rewrite Rabs_Ropp in *. lra.
    + specialize (HM i ltac:(lia)). pose proof (Rmax_l M (Rabs (A (S n)))). lra.
Qed.
(** land of 6 m by 6 m, spacing between 5 and 6 m: one, two or four boreholes *)
Definition garden : @constraints R :=
  {| gc_length := Some 6; gc_width := Some 6; gc_B := Some 6; gc_B_min := Some 5; gc_B_max_x := Some 6; gc_B_max_y := Some 6 |}.
Lemma garden_candidates : exists f2 f4, rectangular 6 6 5 6 = Ok [[(0, 0)]; f2; f4] /\ length f2 = 2%nat /\ length f4 = 4%nat.
Proof.
  assert (C := C09_rectangular_contents 6 6 6 6 false 5 6 ltac:(left; repeat split; lra) ltac:(lra) ltac:(lra) ltac:(lra)). cbn zeta in C.
  rewrite (Rceil_unique (6 / 6 + 1) 2) in C by lra. rewrite (Rfloor_unique (6 / 5 + 1) 2) in C by lra.
  rewrite (Rfloor_unique (6 / (6 / IZR (2 - 1)) + 1) 2) in C by (cbn; lra).
  change (2 <? 2)%Z with false in C. change (zrange 1 2) with [1%Z] in C. change (zrange 2 (2 + 1)) with [2%Z] in C. cbn [map filter] in C.
  rewrite (Rfloor_unique (6 / (6 / IZR (2 - 1)) + 1) 2) in C by (cbn; lra).
  change (2 =? (if 2 =? 2 then 1 else _))%Z with false in C. cbn [negb map app turned] in C.
  rewrite !(Rfloor_unique (6 / (6 / IZR (2 - 1)) + 1) 2) in C by (cbn; lra). rewrite C. match goal with |- exists f2 f4, Ok [?a; ?b; ?c] = _ /\ _ => exists b, c end.
  split; [|split; reflexivity].
  assert (G : forall b, grid_field b b 1 1 = [(0, 0)]) by (intro b; change (grid_field b b 1 1) with [Spec.grid b b 0 0]; unfold Spec.grid; do 2 f_equal; ring). now rewrite G.
Qed.

Definition low_height : R := height_for 60030.
Definition high_height : R := height_for 120060.
Lemma plant_heights : 0 < low_height /\ low_height + 2 * / 1000000 <= high_height.
Proof.
  split; [apply height_positive; lra|]. unfold low_height, high_height, height_for. pose proof (exp_pos (17 / 2)) as P.
  assert (E : 1 < exp (17 / 2)) by (pose proof (exp_ineq1 (17 / 2)); lra).
  set (a := 9 * (2 / 2343000) * (60030 * exp (17 / 2))). replace (9 * (2 / 2343000) * (120060 * exp (17 / 2))) with (2 * a) by (unfold a; field).
  assert (Ha : / 4 <= a) by (unfold a; lra). rewrite sqrt_mult by lra. pose proof sqrt2_bounds.
  assert (/ 2 <= sqrt a). { rewrite <- (sqrt_square (/ 2)) by lra. apply sqrt_le_1; lra. }
  assert (2 * / 1000000 <= / 10) by lra. nra.
Qed.
(** limits and a flow for which one borehole is too little and two are enough, at either height *)
Lemma plant_limits_at n1 n2 : (30000 <= n1)%Z -> (n1 mod 120 <> 0)%Z -> (30000 <= n2)%Z -> (n2 mod 120 <> 0)%Z ->
  exists V hi lo, 0 < V /\ let st := plant hi lo (height_for (IZR n2)) (height_for (IZR n1)) in
  forall h c, h = height_for (IZR n1) \/ h = height_for (IZR n2) -> (length c = 1 \/ length c = 2 \/ length c = 4)%nat ->
  exists s s' mx mn T D, plant_ready st V c h = Ok s /\ plant_simulated st s = (s', Ok (mx, mn)) /\ gh_results s' = (T, D) /\
  (length c = 1%nat -> 0 < cost hi lo mx mn) /\ ((2 <= length c)%nat -> cost hi lo mx mn < 0) /\
  length T = Z.to_nat 8760 /\ cost hi lo mx mn = mx - hi /\
  (forall c' s1 s1' mx' mn', plant_ready st V c' h = Ok s1 -> plant_simulated st s1 = (s1', Ok (mx', mn')) -> (length c < length c')%nat -> mx' < mx).
Proof.
  intros N1 Dv1 N2 Dv2. destruct (plant_evaluates n1 N1 Dv1) as (A1 & F1). destruct (plant_evaluates n2 N2 Dv2) as (A2 & F2).
  destruct (bounded A1 (Z.to_nat 8760)) as (M1 & P1 & B1). destruct (bounded A2 (Z.to_nat 8760)) as (M2 & P2 & B2).
  set (M := M1 + M2 + 1). set (V := 1000000 / (2 * 998 * 4182 * (8 * M))).
  assert (HM : 1 <= M) by (unfold M; lra).
  assert (HV : 0 < V) by (apply Rdiv_lt_0_compat; lra).
  assert (EV : 1000 / (2 * (V / 1000 * 998) * 4182) = 8 * M) by (unfold V; field; lra).
  exists V, (18 + 6 * M), (- 100 * M). split; [exact HV|]. intros st h c Hh Hc.
  assert (W : exists A : nat -> R, (forall i, (i <= Z.to_nat 8760)%nat -> - M <= A i <= M) /\ forall c, c <> [] ->
     exists s s' T D mx mn, plant_ready st V c h = Ok s /\ plant_simulated st s = (s', Ok (mx, mn)) /\ gh_results s' = (T, D) /\
     length T = Z.to_nat 8760 /\ is_max mx T /\ is_min mn T /\ forall i, (1 <= i <= Z.to_nat 8760)%nat -> at_step T i = 18 + (A i + 8 * M) / INR (length c)).
  { destruct Hh as [-> | ->]; [exists A1|exists A2]; (split; [intros i Hi; unfold M; first [specialize (B1 i Hi); lra | specialize (B2 i Hi); lra]|]); intros c' Hc'; rewrite <- EV; [apply F1|apply F2]; assumption. }
  clear F1 F2 B1 B2. destruct W as (A & B & F).
  assert (Hne : c <> []) by (intros ->; cbn in Hc; lia).
  assert (Ranges : forall (c' : list (R * R)) T mx mn, c' <> [] -> length T = Z.to_nat 8760 -> is_max mx T -> is_min mn T ->
     (forall i, (1 <= i <= Z.to_nat 8760)%nat -> at_step T i = 18 + (A i + 8 * M) / INR (length c')) ->
     (exists i, (1 <= i <= Z.to_nat 8760)%nat /\ mx = 18 + (A i + 8 * M) / INR (length c')) /\ (exists i, (1 <= i <= Z.to_nat 8760)%nat /\ mn = 18 + (A i + 8 * M) / INR (length c')) /\
     forall i, (1 <= i <= Z.to_nat 8760)%nat -> 18 + (A i + 8 * M) / INR (length c') <= mx).
  { intros c' T mx mn _ LT (I1 & G1) (I2 & _) FT. split; [|split].
    - apply In_nth with (d := 0) in I1. destruct I1 as (k & Hk & <-). exists (S k). split; [lia|]. rewrite <- FT by lia. reflexivity.
    - apply In_nth with (d := 0) in I2. destruct I2 as (k & Hk & <-). exists (S k). split; [lia|]. rewrite <- FT by lia. reflexivity.
    - intros i Hi. rewrite <- FT by exact Hi. apply G1. destruct i as [|i]; [lia|]. cbn [at_step]. apply nth_In. lia. }
  destruct (F c Hne) as (s & s' & T & D & mx & mn & E1 & E2 & E3 & LT & Mx & Mn & FT).
  destruct (Ranges c T mx mn Hne LT Mx Mn FT) as ((i & Hi & Ex) & (j & Hj & En) & Top).
  assert (Bi := B i ltac:(lia)). assert (Bj := B j ltac:(lia)).
  assert (Low : forall k i, (1 <= k)%nat -> (i <= Z.to_nat 8760)%nat -> 0 < (A i + 8 * M) / INR k).
  { intros k i' Hk Hi'. specialize (B i' Hi'). apply Rdiv_lt_0_compat; [lra|]. apply lt_0_INR. lia. }
  assert (Nn : 18 < mn). { rewrite En. pose proof (Low (length c) j ltac:(lia) ltac:(lia)). lra. }
  assert (Nx : 18 < mx). { rewrite Ex. pose proof (Low (length c) i ltac:(lia) ltac:(lia)). lra. }
  assert (EC : cost (18 + 6 * M) (- 100 * M) mx mn = mx - (18 + 6 * M)).
  { destruct (C49_cost_is_compliance (18 + 6 * M) (- 100 * M) mx mn) as (_ & C1 & _ & [C3|C3]); [exact C3|]. exfalso. rewrite C3 in C1. lra. }
  exists s, s', mx, mn, T, D. rewrite EC. repeat (split; [assumption|]).
  split; [intro Lc; rewrite Ex, Lc; cbn [INR]; lra|].
  split. { intro L2. rewrite Ex. assert (2 <= INR (length c)) by (apply (le_INR 2); exact L2).
    assert ((A i + 8 * M) / INR (length c) <= 9 * M / 2); [|lra]. apply Rmult_le_reg_r with (INR (length c)); [lra|]. unfold Rdiv at 1. rewrite Rmult_assoc, Rinv_l by lra. nra. }
  split; [exact LT|]. split; [reflexivity|]. intros c' s1 s1' mx' mn' X1 X2 X3.
  assert (Hne' : c' <> []) by (intros ->; cbn in X3; lia).
  destruct (F c' Hne') as (s2 & s2' & T2 & D2 & mx2 & mn2 & Y1 & Y2 & Y3 & LT2 & Mx2 & Mn2 & FT2).
  assert (s2 = s1) as -> by congruence. assert (mx2 = mx') as -> by congruence.
  destruct (Ranges c' T2 mx' mn2 Hne' LT2 Mx2 Mn2 FT2) as ((i2 & Hi2 & ->) & _). specialize (Top i2 Hi2). assert (Bi2 := B i2 ltac:(lia)).
  eapply Rlt_le_trans; [|exact Top]. apply Rplus_lt_compat_l. apply Rmult_lt_compat_l; [lra|]. apply Rinv_lt_contravar; [|apply lt_INR; exact X3].
  apply Rmult_lt_0_compat; apply lt_0_INR; lia.
Qed.
Definition plant_fits (V hi lo : R) : Prop := let st := plant hi lo high_height low_height in
  forall h c, h = low_height \/ h = high_height -> (length c = 1 \/ length c = 2 \/ length c = 4)%nat ->
  exists s s' mx mn T D, plant_ready st V c h = Ok s /\ plant_simulated st s = (s', Ok (mx, mn)) /\ gh_results s' = (T, D) /\
  (length c = 1%nat -> 0 < cost hi lo mx mn) /\ ((2 <= length c)%nat -> cost hi lo mx mn < 0) /\
  length T = Z.to_nat 8760 /\ cost hi lo mx mn = mx - hi /\
  (forall c' s1 s1' mx' mn', plant_ready st V c' h = Ok s1 -> plant_simulated st s1 = (s1', Ok (mx', mn')) -> (length c < length c')%nat -> mx' < mx).
Lemma plant_limits : exists V hi lo, plant_fits V hi lo.
Proof.
  destruct (plant_limits_at 60030 120060 ltac:(lia) ltac:(vm_compute; discriminate) ltac:(lia) ltac:(vm_compute; discriminate)) as (V & hi & lo & _ & L). exists V, hi, lo. exact L.
Qed.
Notation plant_ordinary st := (ordinary plant_response (bisection (1 / 1000)) st eskilson).
Notation plant_keeps st V c H := (keeps_strictly plant_film plant_annulus plant_wall plant_Rb plant_Rc plant_root thomas plant_lookup plant_response st m_hourly flow_borehole V eskilson c H).
Notation plant_program st V := (program plant_film plant_annulus plant_wall plant_Rb plant_Rc plant_root thomas plant_lookup plant_response (bisection (1 / 1000)) st m_hourly flow_borehole V eskilson).
Notation plant_whole st V := (whole plant_film plant_annulus plant_wall plant_Rb plant_Rc plant_root thomas plant_lookup plant_response (bisection (1 / 1000)) st m_hourly flow_borehole V eskilson).
Notation plant_excess st V := (excess_of plant_film plant_annulus plant_wall plant_Rb plant_Rc plant_root thomas plant_lookup plant_response st m_hourly flow_borehole V eskilson).
Notation plant_size_up st := (size_up plant_film plant_annulus plant_wall plant_Rb plant_Rc plant_root thomas plant_lookup plant_response (bisection (1 / 1000)) st).
Notation plant_export st := (oak_ridge_export plant_lookup st).
Lemma plant_is_ordinary hi lo : plant_ordinary (plant hi lo high_height low_height).
Proof.
  destruct plant_heights as (A & B). split; [cbn; lra|]. split; [exact A|]. split; [exact B|]. split; [intros; exists eskilson; auto|]. intros. apply bisection_within.
Qed.
Lemma garden_inputs : rectangle_inputs garden 6 6 5 6.
Proof. repeat split; lra. Qed.
(** two boreholes are selected and delivered at the maximum height *)
Lemma plant_designed V hi lo : plant_fits V hi lo -> exists k c s' s1, let st := plant hi lo high_height low_height in
  plant_ordinary st /\ plant_program st V garden rectangle_routine high_height = Ok (Some (k, c), s') /\ length c = 2%nat /\
  plant_whole st V garden rectangle_routine high_height m_hourly = Ok (Some (k, c), s1) /\ gh_H s1 = high_height /\
  plant_keeps st V c low_height /\ plant_keeps st V c high_height /\ ~ plant_keeps st V [(0, 0)] high_height /\
  (exists s, plant_ready st V c high_height = Ok s /\ plant_size_up st m_hourly s = Ok s1 /\ plant_size_up st m_hourly s1 = Ok s1) /\
  exists ex, plant_export st (Some (k, c)) s1 = Ok ex /\ ex_number ex = 2%Z /\ ex_length ex = high_height.
Proof.
  intro L. unfold plant_fits in L. cbn zeta in L. set (st := plant hi lo high_height low_height) in *.
  assert (O := plant_is_ordinary hi lo). fold st in O. destruct garden_candidates as (f2 & f4 & Ed & L2 & L4).
  assert (Ex : forall h c, h = low_height \/ h = high_height -> (length c = 1 \/ length c = 2 \/ length c = 4)%nat ->
    exists s x, plant_ready st V c h = Ok s /\ plant_excess st V c h = Ok (Fin x) /\ excess st (snd (plant_simulated st s)) = Ok x /\
    (length c = 1%nat -> 0 < x) /\ ((2 <= length c)%nat -> x < 0)).
  { intros h c Hh Hc. destruct (L h c Hh Hc) as (s & s' & mx & mn & T & D & E1 & E2 & E3 & P & N & _). exists s, (cost hi lo mx mn).
    assert (E4 : excess st (snd (plant_simulated st s)) = Ok (cost hi lo mx mn)) by (rewrite E2; reflexivity).
    split; [exact E1|]. split; [|auto]. unfold excess_of, System.calculate_excess. unfold ready in E1. rewrite E1. cbn [bind]. rewrite E4. reflexivity. }
  assert (K2 : forall h c, h = low_height \/ h = high_height -> (length c = 2 \/ length c = 4)%nat -> plant_keeps st V c h).
  { intros h c Hh Hc. destruct (Ex h c Hh ltac:(tauto)) as (s & x & E1 & _ & E2 & _ & N). exists s. split; [exact E1|].
    apply (excess_complies plant_film plant_annulus plant_wall plant_Rb plant_Rc plant_root thomas plant_lookup st m_hourly s x E2). apply N. lia. }
  assert (K1 : forall h c, h = low_height \/ h = high_height -> length c = 1%nat -> ~ plant_keeps st V c h).
  { intros h c Hh Hc (s & Er & A). destruct (Ex h c Hh ltac:(tauto)) as (s2 & x & E1 & _ & E2 & N & _). assert (s2 = s) as -> by congruence.
    apply (excess_complies plant_film plant_annulus plant_wall plant_Rb plant_Rc plant_root thomas plant_lookup st m_hourly s x E2) in A. specialize (N Hc). lra. }
  set (d := [[(0, 0)]; f2; f4]) in *.
  assert (Hd : forall f, In f d -> (length f = 1 \/ length f = 2 \/ length f = 4)%nat).
  { intros f [<- |[<- |[<- |[]]]]; [left; reflexivity|auto|auto]. }
  set (sh := sized_height plant_film plant_annulus plant_wall plant_Rb plant_Rc plant_root thomas plant_lookup plant_response (bisection (1 / 1000)) st flow_borehole V eskilson).
  set (cb := can_build plant_film plant_annulus plant_wall plant_Rb plant_Rc plant_root thomas plant_response st flow_borehole V eskilson).
  assert (CB : forall f h, In f d -> h = low_height \/ h = high_height -> cb f h = Ok tt).
  { intros f h Hf Hh. destruct (Ex h f Hh (Hd f Hf)) as (s & x & E1 & _). unfold cb, can_build. rewrite E1. reflexivity. }
  destruct (C85_rectangle_outcome cb (plant_excess st V) sh low_height high_height garden 6 6 5 6 high_height d tt garden_inputs Ed ltac:(discriminate)) as (cR & tl & tu & tm & ER & _ & Xl & Xu & Xm & Out0).
  { apply CB; [left; reflexivity|auto]. }
  { intros f h Hf Hh. assert (Hh' : h = low_height \/ h = high_height) by tauto. split; [exists tt; now apply CB|].
    destruct (Ex h f Hh' (Hd f Hf)) as (s & x & _ & E2 & _ & P & N). exists (Fin x). split; [exact E2|].
    destruct (Hd f Hf) as [A|A]; [left|right]; exists x; (split; [reflexivity|]); rewrite val_R; [now apply P|apply N; lia]. }
  assert (Out : exists k c s', plant_program st V garden rectangle_routine high_height = Ok (Some (k, c), s')).
  { assert (cR = f4) as -> by (cbn in ER; congruence).
    destruct Out0 as [(Q & _)|(_ & _ & SS)]; [exact Q|]. exfalso.
    destruct (Ex high_height [(0, 0)] (or_intror eq_refl) (or_introl eq_refl)) as (s & x & _ & E2 & _ & P & _).
    destruct (Ex high_height f4 (or_intror eq_refl) (or_intror (or_intror L4))) as (s4 & x4 & _ & E4 & _ & _ & N4).
    specialize (P eq_refl). specialize (N4 ltac:(lia)).
    assert (tu = Fin x) as -> by (apply Ok_inj; rewrite <- Xu; exact E2). assert (tm = Fin x4) as -> by (apply Ok_inj; rewrite <- Xm; exact E4).
    destruct SS as [((y & Ey & Py) & (z & Ez & Pz))|((y & Ey & Py) & (z & Ez & Pz))]; rewrite val_R in Py, Pz; assert (y = x) by congruence; assert (z = x4) by congruence; lra. }
  destruct Out as (k & c & s' & Ep). exists k, c, s'.
  destruct (C95_rectangle_fewest plant_film plant_annulus plant_wall plant_Rb plant_Rc plant_root thomas plant_lookup plant_response (bisection (1 / 1000)) st m_hourly flow_borehole V eskilson
    garden 6 6 5 6 high_height k c s' d garden_inputs Ed ltac:(vm_compute; discriminate)) as (F1 & F2); [| | |exact Ep|].
  { intros f f' q q' Hf Hf' Hlt Eq Eq'. rewrite !val_R.
    destruct (L high_height f (or_intror eq_refl) (Hd f Hf)) as (s & s2 & mx & mn & T & D & E1 & E2 & _ & _ & _ & _ & EC & Less).
    destruct (L high_height f' (or_intror eq_refl) (Hd f' Hf')) as (s3 & s4 & mx' & mn' & T' & D' & E1' & E2' & _ & _ & _ & _ & EC' & _).
    specialize (Less f' s3 s4 mx' mn' E1' E2' Hlt).
    assert (q = mx - hi). { destruct (excess_of_ok _ _ _ _ _ _ _ _ _ _ _ _ _ _ _ _ _ Eq) as (s5 & x & X1 & X2 & X3). change (st_max_H st) with high_height in X2. assert (s5 = s) as -> by congruence. rewrite E2 in X3. cbn in X3. rewrite EC in X3. congruence. }
    assert (q' = mx' - hi). { destruct (excess_of_ok _ _ _ _ _ _ _ _ _ _ _ _ _ _ _ _ _ Eq') as (s5 & x & X1 & X2 & X3). change (st_max_H st) with high_height in X2. assert (s5 = s3) as -> by congruence. rewrite E2' in X3. cbn in X3. rewrite EC' in X3. congruence. }
    lra. }
  { intros f Hf. destruct (L high_height f (or_intror eq_refl) (Hd f Hf)) as (s & s2 & mx & mn & T & D & E1 & E2 & _). exists s, (mx, mn). split; [exact E1|now rewrite E2]. }
  { intros q q' Eq _ Hq. exfalso. rewrite val_R in Hq. destruct (Ex low_height [(0, 0)] (or_introl eq_refl) (or_introl eq_refl)) as (s & x & _ & E2 & _ & P & _).
    specialize (P eq_refl). assert (Fin q = Fin x) by (apply Ok_inj; rewrite <- Eq; exact E2). assert (q = x) by congruence. lra. }
  assert (Lc : length c = 2%nat).
  { specialize (F2 f2 ltac:(right; left; reflexivity) (K2 high_height f2 (or_intror eq_refl) (or_introl L2))).
    destruct (C95_rectangle_program _ _ _ _ _ _ _ _ _ _ _ _ _ _ _ garden 6 6 5 6 high_height _ s' garden_inputs Ep) as (k' & c' & E & _ & _ & _ & L1 & _).
    assert (c' = c) as -> by congruence. destruct (Nat.eq_dec (length c) 1) as [X|X]; [|lia]. exfalso. exact (K1 high_height c (or_intror eq_refl) X F1). }
  assert (Kl := K2 low_height c (or_introl eq_refl) (or_introl Lc)). assert (Kh := K2 high_height c (or_intror eq_refl) (or_introl Lc)).
  destruct (Ex high_height c (or_intror eq_refl) ltac:(tauto)) as (s & xh & E1 & _ & E2 & _ & Nh). destruct (Ex low_height c (or_introl eq_refl) ltac:(tauto)) as (sl & xl & E1l & _ & E2l & _ & Nl).
  specialize (Nh ltac:(lia)). specialize (Nl ltac:(lia)).
  destruct (C97_sizing_outcome plant_film plant_annulus plant_wall plant_Rb plant_Rc plant_root thomas plant_lookup plant_response (bisection (1 / 1000)) st flow_borehole V eskilson m_hourly c high_height s O E1)
    as (s0 & E0 & Sz). cbn zeta in Sz.
  destruct (C96_search_and_sizing_agree plant_film plant_annulus plant_wall plant_Rb plant_Rc plant_root thomas plant_lookup plant_response (bisection (1 / 1000)) st flow_borehole V eskilson m_hourly c low_height s s0 sl O
    lookup_passes E1 E0 E1l (or_introl (conj eq_refl (or_introl eq_refl)))) as (Al & _).
  destruct (C96_search_and_sizing_agree plant_film plant_annulus plant_wall plant_Rb plant_Rc plant_root thomas plant_lookup plant_response (bisection (1 / 1000)) st flow_borehole V eskilson m_hourly c high_height s s0 s O
    lookup_passes E1 E0 E1 (or_intror eq_refl)) as (Ah & _).
  destruct (Sz xl xh) as (Sz1 & _); [change (st_min_H st) with low_height; rewrite Al; exact E2l|change (st_max_H st) with high_height; rewrite Ah; exact E2|].
  destruct (Sz1 (or_introl (conj Nl Nh))) as (s1 & Es1 & Hs1). exists s1. cbn zeta.
  split; [exact O|]. split; [exact Ep|]. split; [exact Lc|].
  assert (Ew : plant_whole st V garden rectangle_routine high_height m_hourly = Ok (Some (k, c), s1)).
  { destruct (C95_rectangle_program _ _ _ _ _ _ _ _ _ _ _ _ _ _ _ garden 6 6 5 6 high_height _ s' garden_inputs Ep) as (k' & c' & E & Eg & _).
    assert (c' = c) as -> by congruence. unfold whole. rewrite Ep. cbn [bind]. unfold left_ghe. cbn [snd]. rewrite Eg. change (st_max_H st) with high_height. rewrite E1. cbn [bind]. rewrite Es1. reflexivity. }
  split; [exact Ew|]. split; [exact Hs1|]. split; [exact Kl|]. split; [exact Kh|]. split; [apply K1; [now right|reflexivity]|].
  split. { exists s. split; [exact E1|]. split; [exact Es1|]. rewrite <- Es1. exact (C98_sizing_again _ _ _ _ _ _ _ _ _ _ st _ _ _ _ _ c high_height s s1 O E1 Es1). }
  destruct (delivered_time _ _ _ _ _ _ _ _ _ _ _ _ _ _ _ _ _ _ _ _ _ O Ew) as (mf & b & Eb & Ee & Et). rewrite Hs1 in Ee, Et.
  assert (Ts : gh_ts s1 = 120060 * exp (17 / 2)).
  { destruct (plant_bhe hi lo high_height low_height mf) as (e & Eb' & Hu0). assert (b = Single e) as -> by (apply Ok_inj; rewrite <- Eb; exact Eb').
    destruct (plant_utube 120060) as (u & Hu). destruct (Hu _ _ _ _ _ _ Eb') as (_ & Ee' & _).
    assert (gh_eq s1 = e) as Eq by (apply Ok_inj; rewrite <- Ee; exact Ee'). rewrite Et, Eq. exact (proj2 (Hu0 120060 ltac:(lra))). }
  destruct (C100_export_succeeds _ _ _ _ _ _ _ _ _ _ st _ _ _ eskilson garden rectangle_routine high_height m_hourly _ s1 O Ew) as (ex & Ex' & _).
  { unfold eskilson. rewrite map_length. vm_compute. lia. }
  { intros l Hin. rewrite Ts, Rmult_assoc, <- exp_plus. assert (1 <= exp (17 / 2 + l)); [|lra]. rewrite <- exp_0.
    assert (Hl : - (17 / 2) <= l). { destruct eskilson_head as (r & Er). rewrite Er in Hin. pose proof eskilson_increasing as Inc. rewrite Er in Inc. destruct Hin as [<- |Hin]; [lra|]. left. now apply (increasing_head _ _ Inc). }
    destruct Hl as [Hl|<-]; [left; apply exp_increasing; lra|right; f_equal; lra]. }
  exists ex. split; [exact Ex'|].
  destruct (C100_export_of_delivered _ _ _ _ _ _ _ _ _ _ st _ _ _ eskilson garden rectangle_routine high_height m_hourly _ s1 ex O Ew Ex') as (k' & c' & mf' & b' & e' & x & y & mx & mn & Ek & X1 & X2 & _).
  assert (c' = c) as -> by congruence. rewrite X1, X2, Lc. split; [reflexivity|exact Hs1].
Qed.
Example C95_C97_example : exists V hi lo k c s' s1, let st := plant hi lo high_height low_height in
  plant_ordinary st /\ plant_program st V garden rectangle_routine high_height = Ok (Some (k, c), s') /\ length c = 2%nat /\
  plant_whole st V garden rectangle_routine high_height m_hourly = Ok (Some (k, c), s1) /\ gh_H s1 = high_height /\
  plant_keeps st V c low_height /\ plant_keeps st V c high_height /\ ~ plant_keeps st V [(0, 0)] high_height /\
  (exists s, plant_ready st V c high_height = Ok s /\ plant_size_up st m_hourly s = Ok s1 /\ plant_size_up st m_hourly s1 = Ok s1) /\
  exists ex, plant_export st (Some (k, c)) s1 = Ok ex /\ ex_number ex = 2%Z /\ ex_length ex = high_height.
Proof. destruct plant_limits as (V & hi & lo & L). destruct (plant_designed V hi lo L) as (k & c & s' & s1 & A). exists V, hi, lo, k, c, s', s1. exact A. Qed.
(** the other conditions of C96 and C97: this interpolant passes through its points, this root finder stops within its tolerance *)
Example C96_C97_conditions : passes_through plant_lookup /\ stops_close (1 / 1000) (bisection (1 / 1000)).
Proof. split; [exact lookup_passes|apply bisection_stops; lra]. Qed.

Print Assumptions C95_rectangle_program.
Print Assumptions C95_bi_rectangle_program.
Print Assumptions C95_near_square_program_partial.
Print Assumptions C95_bi_zoned_program_partial.
Print Assumptions C95_rectangle_fewest.
Print Assumptions C96_search_and_sizing_agree.
Print Assumptions C97_delivered_exchanger.
Print Assumptions C97_delivered_compliance.
Print Assumptions C97_sizing_outcome.
Print Assumptions C97_oversized.
Print Assumptions C98_sizing_again.
Print Assumptions C99_bi_zoned_delivered.
Print Assumptions C99_bi_zoned_drilling_partial.
Print Assumptions C100_export_of_delivered.
Print Assumptions C100_export_succeeds.
