(** Property C126: how a design can end when every input makes physical sense, for any pygfunction, root finders, equation solver and interpolant *)
From Coq Require Import ZArith List Bool Reals Lra Lia.
From Verif Require Import LoadsProofs LoadsSim LoadsHybrid Properties_Loads GheProofs GFunProofs Properties_GFun RadialProofs RadialGrid Properties_Radial EquivSpec EquivProofs Properties_Equiv.
From Verif Require Import Base Num BaseLemmas Order Spec Utilities Loads LoadsSpec Ghe GheSpec GFun GFunSpec Radial RadialSpec Bhe Equiv Export Domains DomainsProofs
  Search SearchSpec SearchProofs SearchTheorems Design System SystemSpec SystemProofs Program ProgramProofs
  Properties_Domains Properties_Ghe Properties_Search DesignProofs Properties_Design Properties_Export Properties_System Properties_Peaks Properties_Program.
Import ListNotations.
Open Scope R_scope.

(** ** searches whose evaluations all succeed *)
Section Ends.
Variable build : list (R * R) -> R -> res unit.
Variable sim : list (R * R) -> R -> res (xval R).
Variables minH maxH : R.
(** the excess of [c] at [h] is [q] *)
Definition has_excess (c : list (R * R)) (h q : R) : Prop := sim c h = Ok (Fin q).
Definition evaluates (c : list (R * R)) : Prop :=
  (exists u, build c minH = Ok u) /\ (exists u, build c maxH = Ok u) /\ (exists q, has_excess c minH q) /\ (exists q, has_excess c maxH q).
(** one candidate at both heights and a candidate at the maximum height are all within the limits, or all beyond them *)
Definition one_side (among : list (R * R) -> Prop) : Prop :=
  exists c0 cR ql qu qm, among c0 /\ among cR /\ has_excess c0 minH ql /\ has_excess c0 maxH qu /\ has_excess cR maxH qm /\ (ql < 0 /\ qu < 0 /\ qm < 0 \/ 0 < ql /\ 0 < qu /\ 0 < qm).
(** an exception that the evaluations explain *)
Definition explained (among : list (R * R) -> Prop) (e : exn) : Prop :=
  e = ValueError /\ one_side among \/ e = ZeroDivisionError /\ exists c h, among c /\ (h = minH \/ h = maxH) /\ has_excess c h 0.
Lemma search_explained (s s' : sstate (list (R * R))) e : search _ build sim minH maxH 15 s = (Err e, s') -> temps _ s = [] -> dom _ s <> [] ->
  (forall c, In c (dom _ s) -> evaluates c) -> explained (fun c => In c (dom _ s)) e.
Proof.
  intros E Ht Hd Ev. destruct (C28_every_error_explained _ build sim minH maxH 15 s e s' E Ht) as [(X & _)|[(c & h & Hc & Hh & O)|(-> & c0 & cR & tl & tu & tm & (R1 & R2 & R3 & R4 & R5) & S1 & S2)]]; [contradiction| |].
  - right. assert (Hh' : h = minH \/ h = maxH) by tauto. destruct (Ev c Hc) as ((u1 & B1) & (u2 & B2) & (q1 & Q1) & (q2 & Q2)). unfold has_excess in *.
    assert (X : exists q, sim c h = Ok (Fin q) /\ build c h <> Err e). { destruct Hh' as [-> | ->]; [exists q1|exists q2]; (split; [assumption|congruence]). }
    destruct X as (q & Q & B). destruct O as [O|[O|(v & O & Sg)]]; [contradiction|congruence|]. assert (v = Fin q) as -> by congruence.
    unfold sign in Sg. destruct (nis0 q) eqn:Z; [|discriminate]. split; [congruence|]. exists c, h. split; [exact Hc|]. split; [exact Hh'|]. unfold has_excess.
    assert (q = 0) as -> by (apply (val_is0 (F := R)) in Z; exact Z). exact Q.
  - left. split; [reflexivity|]. assert (I0 := nth_error_In _ _ R1). assert (IR := nth_error_In _ _ R2). exists c0, cR.
    destruct (Ev c0 I0) as (_ & _ & (q1 & Q1) & (q2 & Q2)). destruct (Ev cR IR) as (_ & _ & _ & (q3 & Q3)). unfold has_excess in *. exists q1, q2, q3.
    repeat (split; [assumption|]). assert (tl = Fin q1) as -> by congruence. assert (tu = Fin q2) as -> by congruence. assert (tm = Fin q3) as -> by congruence.
    assert (P : forall q, pos (Fin q) -> 0 < q) by (intros q (y & Ey & Py); rewrite val_R in Py; assert (y = q) by congruence; lra).
    assert (Ng : forall q, neg (Fin q) -> q < 0) by (intros q (y & Ey & Py); rewrite val_R in Py; assert (y = q) by congruence; lra).
    destruct S1 as [(A1 & A2)|(A1 & A2)]; destruct S2 as [(A3 & A4)|(A3 & A4)];
      first [specialize (P _ A1) as W1 | specialize (Ng _ A1) as W1]; first [specialize (P _ A2) as W2 | specialize (Ng _ A2) as W2]; first [specialize (P _ A3) as W3 | specialize (Ng _ A3) as W3];
      first [specialize (P _ A4) as W4 | specialize (Ng _ A4) as W4]; lra.
Qed.
Lemma one_domain_ends d H : (forall c, In c d -> evaluates c) -> (forall c, In c d -> exists u, build c H = Ok u) ->
  (exists k c s, bisection_1d build sim minH maxH d H = Ok (Some (k, c), s) /\ In c d) \/
  (exists e, bisection_1d build sim minH maxH d H = Err e /\ (e = IndexError /\ d = [] \/ explained (fun c => In c d) e)).
Proof.
  intros Ev Hb. destruct d as [|c0 d]; [right; exists IndexError; split; [reflexivity|auto]|].
  destruct (Hb c0 (or_introl eq_refl)) as (u & Eu).
  set (s := {| dom := c0 :: d; temps := []; Search.ghe := (c0, H); trace := []; temps_nested := []; heights := [] |}).
  assert (Eq : bisection_1d build sim minH maxH (c0 :: d) H = let (r, s') := search _ build sim minH maxH 15 s in let! r := r in Ok (r, s')).
  { unfold bisection_1d, base_init. unfold py_nth. cbn [Z.ltb Z.compare Z.to_nat nth_error bind]. rewrite Eu. reflexivity. }
  rewrite Eq. clear Eq. destruct (search _ build sim minH maxH 15 s) as (r, s') eqn:E. destruct r as [r|e].
  - left. destruct (selected_feasible _ build sim minH maxH 15 s s' r E eq_refl) as (k & c & -> & _ & Hc & _). exists k, c, s'. split; [reflexivity|]. now apply nth_error_In in Hc.
  - right. exists e. split; [reflexivity|]. right. exact (search_explained s s' e E eq_refl ltac:(discriminate) Ev).
Qed.
Lemma outer_domain_total dd : dd <> [] -> ~ In [] dd -> exists outer, outer_domain (list (R * R)) dd = Ok outer /\ outer <> [] /\ forall c, In c outer -> exists d, In d dd /\ In c d.
Proof.
  intros Hd Hn. destruct dd as [|d0 dd]; [contradiction|]. destruct d0 as [|c0 d0]; [exfalso; apply Hn; now left|].
  assert (L : exists lasts, mapM (fun d : list (list (R * R)) => py_nth d (-1)) ((c0 :: d0) :: dd) = Ok lasts /\ forall c, In c lasts -> exists d, In d ((c0 :: d0) :: dd) /\ In c d).
  { revert Hn. generalize ((c0 :: d0) :: dd). intro l. induction l as [|d l IH]; intro Hn; [exists []; split; [reflexivity|intros c []]|].
    destruct IH as (ls & E & A); [intro X; apply Hn; now right|].
    assert (X : exists c, py_nth d (-1) = Ok c). { destruct (exists_last (l := d)) as (a & c & ->); [intros ->; apply Hn; now left|]. exists c. apply SearchNested.py_nth_last. now exists a. }
    destruct X as (c & Ec). exists (c :: ls). cbn [mapM]. rewrite Ec. cbn [bind]. rewrite E. split; [reflexivity|]. intros c' [<- |Hc'].
    - exists d. split; [now left|]. now apply (py_nth_In (list (R * R))) in Ec.
    - destruct (A c' Hc') as (d' & H1 & H2). exists d'. split; [now right|exact H2]. }
  destruct L as (ls & E & A). exists (c0 :: ls). unfold outer_domain. unfold py_nth at 1. cbn [Z.ltb Z.compare Z.to_nat nth_error bind]. unfold py_nth at 1. cbn [Z.ltb Z.compare Z.to_nat nth_error bind]. rewrite E.
  split; [reflexivity|]. split; [discriminate|]. intros c [<- |Hc]; [exists (c0 :: d0); split; now left|now apply A].
Qed.
Lemma explained_mono (P Q : list (R * R) -> Prop) e : (forall c, P c -> Q c) -> explained P e -> explained Q e.
Proof.
  intros PQ [(-> & c0 & cR & ql & qu & qm & A & B & X)|(-> & c & h & A & X)]; [left|right]; (split; [reflexivity|]).
  - exists c0, cR, ql, qu, qm. auto.
  - exists c, h. auto.
Qed.
Lemma mapM_length {A B} (f : A -> res B) l r : mapM f l = Ok r -> length r = length l.
Proof.
  revert r. induction l as [|a l IH]; intros r E; cbn [mapM] in E; [assert (r = []) as -> by congruence; reflexivity|].
  apply bind_ok in E. destruct E as (b & _ & E). apply bind_ok in E. destruct E as (q & Eq & E). assert (r = b :: q) as -> by congruence. cbn [length]. f_equal. now apply IH.
Qed.
Lemma search_2d_explained nested (s s' : sstate (list (R * R))) e : search_2d _ build sim minH maxH nested 15 s = (Err e, s') -> temps _ s = [] ->
  nested <> [] -> ~ In [] nested -> (forall d c, In d nested -> In c d -> evaluates c) -> explained (fun c => exists d, In d nested /\ In c d) e.
Proof.
  intros E Ht Hn Hi Ev. destruct (outer_domain_total nested Hn Hi) as (outer & Eo & No & Io). unfold search_2d in E.
  apply mbind_inv in E as [(e' & X & [= <-])|(o & s1 & E1 & E)]; [unfold lift in X; rewrite Eo in X; discriminate|]. unfold lift in E1. rewrite Eo in E1. assert (o = outer /\ s1 = s) as (-> & ->) by (split; congruence). clear E1.
  apply mbind_inv in E as [(e' & X & _)|(u & s1 & E1 & E)]; [discriminate|]. assert (s1 = set_dom _ outer s) as -> by (unfold modify in E1; congruence). clear E1 u.
  assert (Ev' : forall c, In c (dom _ (set_dom _ outer s)) -> evaluates c) by (intros c Hc; destruct (Io c Hc) as (d & Hd & Hc'); eapply Ev; eassumption).
  apply mbind_inv in E as [(e' & X & Ee)|(r & s1 & E1 & E)].
  { assert (e' = e) as -> by congruence. eapply explained_mono; [|exact (search_explained _ _ e X Ht No Ev')]. intros c Hc. exact (Io c Hc). }
  destruct (selected_feasible _ build sim minH maxH 15 _ _ _ E1 Ht) as (k & c & -> & Hk & _ & _).
  apply mbind_inv in E as [(e' & X & _)|(kc & s2 & E2 & E)]; [discriminate|]. cbn [need] in E2. assert (kc = (k, c) /\ s2 = s1) as (-> & ->) by (unfold ret in E2; split; congruence). clear E2. cbn [fst] in E.
  assert (In' : exists inner, py_nth nested (k - 1) = Ok inner).
  { assert (Lo : length outer = S (length nested)).
    { unfold outer_domain in Eo. apply bind_ok in Eo. destruct Eo as (d0 & _ & Eo). apply bind_ok in Eo. destruct Eo as (c0 & _ & Eo). apply bind_ok in Eo. destruct Eo as (ls & Em & Eo).
      apply mapM_length in Em. assert (outer = c0 :: ls) as -> by congruence. cbn [length]. now rewrite Em. }
    change (dom _ (set_dom _ outer s)) with outer in Hk. unfold zlen in Hk. rewrite Lo in Hk. destruct (Z.eq_dec k 0) as [->|Hk0].
    - destruct (exists_last Hn) as (a & inner & ->). exists inner. apply SearchNested.py_nth_last. now exists a.
    - destruct (py_nth_ok nested (k - 1)) as (inner & Ei & _); [unfold zlen; lia|eauto]. }
  destruct In' as (inner & Ei).
  apply mbind_inv in E as [(e' & X & _)|(i & s2 & E2 & E)]; [unfold lift in X; rewrite Ei in X; discriminate|]. unfold lift in E2. rewrite Ei in E2. assert (i = inner /\ s2 = s1) as (-> & ->) by (split; congruence). clear E2.
  apply mbind_inv in E as [(e' & X & _)|(u & s2 & E2 & E)]; [discriminate|]. assert (s2 = set_dom _ inner s1) as -> by (unfold modify in E2; congruence). clear E2 u.
  apply mbind_inv in E as [(e' & X & _)|(u & s2 & E2 & E)]; [discriminate|]. assert (s2 = set_temps _ [] (set_dom _ inner s1)) as -> by (unfold modify in E2; congruence). clear E2 u.
  apply (py_nth_In _) in Ei.
  apply mbind_inv in E as [(e' & X & Ee)|(r & s2 & E2 & E)]; [|discriminate].
  assert (e' = e) as -> by congruence. eapply explained_mono; [|refine (search_explained _ _ e X eq_refl _ _)].
  - intros c' Hc'. exists inner. split; [exact Ei|exact Hc'].
  - cbn. intros ->. contradiction.
  - intros c' Hc'. exact (Ev inner c' Ei Hc').
Qed.
Lemma no_empty_dec {A} (dd : list (list A)) : In [] dd \/ ~ In [] dd.
Proof. induction dd as [|d dd [IH|IH]]; [right; intros []|left; now right|]. destruct d; [left; now left|right; intros [X|X]; [discriminate|contradiction]]. Qed.
Lemma nested_ends dd H : (forall d c, In d dd -> In c d -> evaluates c) -> (forall d c, In d dd -> In c d -> exists u, build c H = Ok u) -> dd <> [] -> ~ In [] dd ->
  (exists k c s d, bisection_2d build sim minH maxH dd H = Ok (Some (k, c), s) /\ In d dd /\ In c d) \/
  (exists e, bisection_2d build sim minH maxH dd H = Err e /\ explained (fun c => exists d, In d dd /\ In c d) e).
Proof.
  intros Ev Hb Hn Hi. destruct dd as [|[|c0 d0] dd]; [contradiction|exfalso; apply Hi; now left|]. clear Hn.
  destruct (Hb (c0 :: d0) c0 (or_introl eq_refl) (or_introl eq_refl)) as (u & Eu).
  set (s := {| dom := c0 :: d0; temps := []; Search.ghe := (c0, H); trace := []; temps_nested := []; heights := [] |}).
  assert (Eq : bisection_2d build sim minH maxH ((c0 :: d0) :: dd) H = let (r, s') := search_2d _ build sim minH maxH ((c0 :: d0) :: dd) 15 s in let! r := r in Ok (snd r, s')).
  { unfold bisection_2d, base_init. unfold py_nth. cbn [Z.ltb Z.compare Z.to_nat nth_error bind]. rewrite Eu. reflexivity. }
  rewrite Eq. clear Eq. set (nested := (c0 :: d0) :: dd) in *.
  destruct (search_2d _ build sim minH maxH nested 15 s) as (r, s') eqn:E. destruct r as [(k, r)|e].
  - left. destruct (C31_nested_search_is_two_searches _ build sim minH maxH nested 15 s s' k r E eq_refl) as (outer & inner & co & k2 & c2 & _ & _ & Ei & _ & -> & Ec & _).
    exists k2, c2, s', inner. split; [reflexivity|]. split; [now apply (py_nth_In _) in Ei|now apply nth_error_In in Ec].
  - right. exists e. split; [reflexivity|]. exact (search_2d_explained nested s s' e E eq_refl ltac:(discriminate) Hi Ev).
Qed.
End Ends.

Section World.
Variable h_circular : R -> R -> R -> R -> R -> R -> R -> R.
Variable h_annulus : R -> R -> R -> R -> R -> R -> R -> R -> R * R.
Variable r_conduction : R -> R -> R -> R.
Variable eff_u : R -> pg_u -> R -> R -> R.
Variable eff_c : R -> pg_c -> R -> R -> R.
Variable brentq : (R -> res R) -> R -> R -> list R * res R.
Variable solver : list R -> list R -> list R -> list R -> list R.
Variable interp : ikind -> list (R * R) -> R -> R.
Variable field_response : R -> list (R * R) -> R -> R -> R -> res (list R).
Variable brentq_dialogue : R -> R -> dialogue.
Variable st : settings.
Variable m : method.
Variable flow : flow_kind.
Variable V_flow : R.
Variable log_time : list R.
Notation program := (program h_circular h_annulus r_conduction eff_u eff_c brentq solver interp field_response brentq_dialogue st m flow V_flow log_time).
Notation excess_of := (excess_of h_circular h_annulus r_conduction eff_u eff_c brentq solver interp field_response st m flow V_flow log_time).
Notation can_build := (can_build h_circular h_annulus r_conduction eff_u eff_c brentq solver field_response st flow V_flow log_time).
Notation minH := (st_min_H st).
Notation maxH := (st_max_H st).

(** a year of hourly loads whose peaks can be told from the loads around them (C94) and, for the hybrid method, come in short runs (C103); whole
    years for the hourly method *)
Definition proper_loads : Prop :=
  length (st_loads st) = Z.to_nat 8760 /\ (1 <= st_start st <= st_end st)%Z /\
  (forall rej ext, split_heat_and_cool (st_loads st) unit_W = Ok (rej, ext) -> clear_peaks rej /\ clear_peaks ext /\ (m = m_hybrid -> intermittent rej /\ intermittent ext)) /\
  (m = m_hybrid \/ m = m_hourly /\ exists y, (st_end st - st_start st + 1 = 12 * y)%Z).
(** an equation solver that solves, increasing times and a radius *)
Definition proper_tools : Prop := good_solver solver /\ increasing log_time /\ 0 < st_rb st.
(** the last simulated hour *)
Definition last_hour : Z := match m with m_hourly => 730 * (st_end st - st_start st + 1) | _ => hours_through (st_end st) end.
(** the field can be built at that height, and its g-function ends [limit] seconds after the beginning *)
Definition physical (c : list (R * R)) (H limit : R) : Prop :=
  c <> [] /\ 0 < H /\ exists V_sys mf b e g l0 r, retrieve_flow flow V_flow (fl_rho (st_fluid st)) (zlen c) = Ok (V_sys, mf) /\ mf * fl_cp (st_fluid st) <> 0 /\
  make_bhe h_circular h_annulus r_conduction st mf = Ok b /\ compute_equivalent h_circular r_conduction (eff_u H) (eff_c H) brentq b = Ok e /\
  let u := utube_of eff_u st H e in admissible u /\ field_response mf c H (st_D st) (st_rb st) = Ok g /\ log_time = l0 :: r /\ length g = length log_time /\
  first_second < t_s u * exp l0 /\ (forall j, first_second + 120 * INR j <> t_s u * exp l0) /\ limit = t_s u * exp (last log_time 0).

(** a field is evaluated exactly when its g-function reaches the last hour *)
Theorem C126_field :
  forall c H limit, proper_loads -> proper_tools -> physical c H limit ->
  (exists u, can_build c H = Ok u) /\
  (3600 * IZR last_hour <= limit -> exists x, excess_of c H = Ok (Fin x)) /\
  (limit < 3600 * IZR last_hour -> excess_of c H = Err ValueError).
Proof.
  intros c H limit (L8 & Se & Cl & Me) (Gs & In & Rb) (Hc & HH & V_sys & mf & b & e & g & l0 & r & Ef & Hm & Eb & Ee & Ad & Eg & El & Lg & H0 & Hj & ->).
  assert (Bd : exists u, can_build c H = Ok u).
  { destruct (C94_construction h_circular h_annulus r_conduction eff_u eff_c brentq solver interp field_response st m flow V_flow log_time c H V_sys mf b e g Hc Ef Eb Ee Gs Ad Eg L8 ltac:(lia)) as (s & B & sts & gs & rej & ext & cl & hl & load & hour & sf & Es & _).
    { intros rej ext E. destruct (Cl rej ext E) as (A & B & _). auto. }
    exists tt. unfold Program.can_build, Program.ready. rewrite Es. reflexivity. }
  split; [exact Bd|]. rewrite El in *. unfold Program.excess_of, last_hour. destruct Me as [-> |(-> & y & Ey)].
  - destruct (C103_hybrid_field h_circular h_annulus r_conduction eff_u eff_c brentq solver interp field_response st flow V_flow (l0 :: r) c H V_sys mf b e g l0 r Se Hc HH Rb Ef Hm Eb Ee Gs Ad Eg eq_refl In Lg H0 Hj L8) as (A & B).
    { intros rej ext E. destruct (Cl rej ext E) as (X1 & X2 & X3). destruct (X3 eq_refl). auto. }
    split; intro X; [destruct (A X) as (x & Ex); exists x; rewrite Ex; reflexivity|rewrite (B X); reflexivity].
  - replace (730 * (st_end st - st_start st + 1))%Z with (8760 * y)%Z by lia.
    destruct (C94_hourly_field h_circular h_annulus r_conduction eff_u eff_c brentq solver interp field_response st m_hourly flow V_flow (l0 :: r) c H V_sys mf b e g l0 r y eq_refl Ey ltac:(lia) Hc HH Rb Ef Hm Eb Ee Gs Ad Eg eq_refl In Lg H0 Hj L8) as (A & B).
    { intros rej ext E. destruct (Cl rej ext E) as (X1 & X2 & _). auto. } { lia. }
    split; intro X; [destruct (A X) as (x & Ex); exists x; rewrite Ex; reflexivity|rewrite (B X); reflexivity].
Qed.

(** every candidate can be built and simulated to the end at both height limits, and built at the height the borehole has at first *)
Definition well_posed (among : list (R * R) -> Prop) (H : R) : Prop :=
  proper_loads /\ proper_tools /\ (forall c h, among c -> h = minH \/ h = maxH -> exists limit, physical c h limit /\ 3600 * IZR last_hour <= limit) /\
  forall c, among c -> exists limit, physical c H limit.
Lemma well_posed_evaluates among H c : well_posed among H -> among c -> evaluates can_build excess_of minH maxH c /\ exists u, can_build c H = Ok u.
Proof.
  intros (P1 & P2 & P3 & P4) Hc. split.
  - destruct (P3 c minH Hc (or_introl eq_refl)) as (l1 & A1 & B1). destruct (P3 c maxH Hc (or_intror eq_refl)) as (l2 & A2 & B2).
    destruct (C126_field c minH l1 P1 P2 A1) as (X1 & X2 & _). destruct (C126_field c maxH l2 P1 P2 A2) as (Y1 & Y2 & _). unfold evaluates, has_excess. auto.
  - destruct (P4 c Hc) as (l & A). apply (C126_field c H l P1 P2 A).
Qed.
Notation explained := (explained excess_of minH maxH).

Theorem C126_rectangle :
  forall gc L W bmin bmax H d, rectangle_inputs gc L W bmin bmax -> rectangular L W bmin bmax = Ok d -> well_posed (fun c => In c d) H ->
  (exists k c s, program gc rectangle_routine H = Ok (Some (k, c), s) /\ In c d) \/
  (exists e, program gc rectangle_routine H = Err e /\ (e = IndexError /\ d = [] \/ explained (fun c => In c d) e)).
Proof.
  intros gc L W bmin bmax H d Hin Ed Wp. unfold Program.program.
  match goal with |- context [Design.design ?b ?x ?z _ _ _ _ _] => destruct (rectangle_design_eq b x z minH maxH gc L W bmin bmax H Hin) as (d1 & Ed1 & Eq1) end.
  assert (d1 = d) as -> by (apply Ok_inj; now rewrite <- Ed1). rewrite Eq1. apply one_domain_ends.
  - intros c Hc. exact (proj1 (well_posed_evaluates _ H c Wp Hc)).
  - intros c Hc. exact (proj2 (well_posed_evaluates _ H c Wp Hc)).
Qed.
Theorem C126_near_square :
  forall gc L B H n d, near_square_inputs gc L B -> number_of_boreholes L B false = Ok n -> square_and_near_square 1 n B = Ok d -> well_posed (fun c => In c d) H ->
  (exists k c s, program gc near_square H = Ok (Some (k, c), s) /\ In c d) \/
  (exists e, program gc near_square H = Err e /\ explained (fun c => In c d) e).
Proof.
  intros gc L B H n d Hin En Ed Wp. unfold Program.program.
  match goal with |- context [Design.design ?b ?x ?z _ _ _ _ _] => destruct (near_square_design_eq b x z minH maxH gc L B H Hin) as (n1 & d1 & En1 & Hn1 & _ & Ed1 & Eq1) end.
  assert (n1 = n) as -> by (apply Ok_inj; now rewrite <- En1). assert (d1 = d) as -> by (apply Ok_inj; now rewrite <- Ed1). rewrite Eq1.
  destruct (one_domain_ends can_build excess_of minH maxH d H) as [A|(e & A & [(-> & ->)|X])]; [intros c Hc; apply (well_posed_evaluates _ H c Wp Hc)|intros c Hc; apply (well_posed_evaluates _ H c Wp Hc)|left; exact A| |right; exists e; auto].
  exfalso. destruct (C07_square_domain 1 n B ltac:(lia)) as (d2 & Ed2 & Ec & _). assert (d2 = []) as -> by (apply Ok_inj; now rewrite <- Ed2).
  rewrite zrange_cons in Ec by lia. discriminate Ec.
Qed.
Theorem C126_bi_rectangle :
  forall gc L W bmin bmax_x bmax_y H dd, nested_inputs gc L W bmin bmax_x bmax_y -> bi_rectangle_nested L W bmin bmax_x bmax_y = Ok dd ->
  let candidate := fun c => exists d, In d dd /\ In c d in well_posed candidate H ->
  (exists k c s, program gc bi_rectangle H = Ok (Some (k, c), s) /\ candidate c) \/
  (exists e, program gc bi_rectangle H = Err e /\ (e = IndexError /\ (forall c, ~ candidate c) \/ explained candidate e)).
Proof.
  intros gc L W bmin bx by_ H dd Hin Ed candidate Wp. unfold Program.program.
  match goal with |- context [Design.design ?b ?x ?z _ _ _ _ _] => assert (Eq1 := bi_rectangle_design_eq b x z minH maxH gc L W bmin bx by_ dd H Hin Ed) end.
  destruct dd as [|d0 dd]. { right. exists IndexError. rewrite Eq1. split; [reflexivity|]. left. split; [reflexivity|]. intros c (d & [] & _). }
  destruct (no_empty_dec (d0 :: dd)) as [X|X].
  - (* all domains are empty or none is *)
    assert (All : forall d, In d (d0 :: dd) -> d = []).
    { destruct Hin as (_ & _ & _ & _ & _ & P1 & P2 & P3 & P4 & P5). destruct (orient L W P1 P2) as (l1 & l2 & tr & Ho & Hl).
      pose proof (C11_bi_rectangle_contents L W l1 l2 tr bmin bx by_ Ho ltac:(lra) P3 P4 P5) as E. cbv zeta in E. rewrite Ed in E. apply Ok_inj in E.
      set (nmin := Rceil (l1 / (if tr then by_ else bx) + 1)) in *. set (nmax := Rfloor (l1 / bmin + 1)) in *. rewrite E in *. clear E Ed.
      destruct (nmax <? nmin)%Z eqn:Hlt.
      - intros d Hd. apply in_map_iff in Hd. destruct Hd as (n2 & <- & _). reflexivity.
      - exfalso. apply in_map_iff in X. destruct X as (n2 & E & _). apply map_eq_nil, app_eq_nil in E. destruct E as (_ & E). apply map_eq_nil in E.
        apply Z.ltb_ge in Hlt. rewrite zrange_cons in E by lia. discriminate. }
    right. exists IndexError. rewrite Eq1. rewrite (All d0 (or_introl eq_refl)). split; [reflexivity|]. left. split; [reflexivity|]. intros c (d & Hd & Hc). rewrite (All d) in Hc by exact Hd. exact Hc.
  - rewrite Eq1. destruct (nested_ends can_build excess_of minH maxH (d0 :: dd) H) as [(k & c & s & d & A & B & C)|(e & A & B)].
    + intros d c Hd Hc. apply (well_posed_evaluates candidate H c Wp). exists d. auto.
    + intros d c Hd Hc. apply (well_posed_evaluates candidate H c Wp). exists d. auto.
    + discriminate.
    + exact X.
    + left. exists k, c, s. split; [exact A|]. exists d. auto.
    + right. exists e. auto.
Qed.

(** a first candidate whose g-function ends before the simulation does, at the minimum height: the exception is the one of loads outside the bounds *)
Theorem C126_curve_too_short :
  forall gc L W bmin bmax H c d limit limit', rectangle_inputs gc L W bmin bmax -> rectangular L W bmin bmax = Ok (c :: d) -> proper_loads -> proper_tools ->
  physical c H limit' -> physical c minH limit -> limit < 3600 * IZR last_hour -> program gc rectangle_routine H = Err ValueError.
Proof.
  intros gc L W bmin bmax H c d limit limit' Hin Ed P1 P2 Ph Pm Hl. unfold Program.program.
  match goal with |- context [Design.design ?b ?x ?z _ _ _ _ _] => destruct (rectangle_design_eq b x z minH maxH gc L W bmin bmax H Hin) as (d1 & Ed1 & Eq1) end.
  assert (d1 = c :: d) as -> by (apply Ok_inj; now rewrite <- Ed1). rewrite Eq1. clear Eq1 Ed1.
  destruct (C126_field c H limit' P1 P2 Ph) as ((u & Eu) & _). destruct (C126_field c minH limit P1 P2 Pm) as ((u' & Eu') & _ & Ex). specialize (Ex Hl).
  unfold bisection_1d, base_init. unfold py_nth at 1. cbn [Z.ltb Z.compare Z.to_nat nth_error bind]. rewrite Eu. cbn [bind].
  assert (Last : exists cR, py_nth (c :: d) (zlen (c :: d) - 1) = Ok cR) by (destruct (py_nth_ok (c :: d) (zlen (c :: d) - 1)) as (cR & E & _); [unfold zlen; cbn [length]; lia|eauto]).
  destruct Last as (cR & EcR). unfold search, mbind, get, lift. cbn [dom]. rewrite EcR. unfold py_nth. cbn [Z.ltb Z.compare Z.to_nat nth_error].
  unfold Search.calculate_excess, Search.initialize_ghe, mbind, lift, modify, get. cbn [dom temps Search.ghe trace temps_nested heights]. rewrite Eu'. cbn [fst snd]. rewrite Ex. reflexivity.
Qed.
End World.

(** ** the plant of C95-C97 *)
Notation the_physical st V response times := (physical plant_film plant_annulus plant_wall plant_Rb plant_Rc plant_root response st flow_borehole V times).
Lemma plant_physical hi lo mxH mnH V c n response times r g : 0 < V -> c <> [] -> (30000 <= n)%Z -> (n mod 120 <> 0)%Z -> times = - (17 / 2) :: r -> length g = length times ->
  (forall a b d e f, response a b d e f = Ok g) ->
  the_physical (plant hi lo mxH mnH) V response times c (height_for (IZR n)) (IZR n * exp (17 / 2) * exp (last times 0)).
Proof.
  intros HV Hc Hn Hd Er Lg Rs. assert (Hn1 : 30000 <= IZR n) by (apply (IZR_le 30000); lia).
  destruct (plant_bhe hi lo mxH mnH (V / 1000 * 998)) as (e & Ee & Hu). destruct (Hu (IZR n) ltac:(lra)) as (Ad & Ts). clear Hu.
  destruct (plant_utube (IZR n)) as (u & U). destruct (U _ _ _ _ _ _ Ee) as (_ & Eq & _). clear U.
  destruct (not_a_short_time n Hd ltac:(lia)) as (S1 & S2).
  assert (Et : t_s (utube_of plant_Rb (plant hi lo mxH mnH) (height_for (IZR n)) e) * exp (- (17 / 2)) = IZR n).
  { rewrite Ts, Rmult_assoc, <- exp_plus. replace (17 / 2 + - (17 / 2)) with 0 by ring. rewrite exp_0. ring. }
  split; [exact Hc|]. split; [apply height_positive; lra|].
  exists (V * INR (length c)), (V / 1000 * 998), (Single e), e, g, (- (17 / 2)), r.
  split; [cbn; rewrite pydiv_R by lra; cbn; unfold zlen; rewrite <- INR_IZR_INZ; reflexivity|].
  split; [cbn; lra|]. split; [exact Ee|]. split; [exact Eq|]. cbv zeta. split; [exact Ad|]. split; [apply Rs|]. split; [exact Er|]. split; [exact Lg|].
  split; [rewrite Et; exact S1|]. split; [intro j; rewrite Et; apply S2|]. rewrite Ts. reflexivity.
Qed.
Lemma plant_proper hi lo mxH mnH : proper_loads (plant hi lo mxH mnH) m_hourly.
Proof.
  split; [cbn [st_loads plant]; apply repeat_length|]. split; [cbn; lia|]. split.
  - intros rej ext E. destruct (plant_clear hi lo mxH mnH rej ext E) as (A & B). split; [exact A|]. split; [exact B|discriminate].
  - right. split; [reflexivity|]. exists 1%Z. reflexivity.
Qed.
(** the hypotheses are met by the plant, whatever its limits, flow and candidates *)
Example C126_example : forall hi lo V d, 0 < V -> ~ In [] d ->
  well_posed plant_film plant_annulus plant_wall plant_Rb plant_Rc plant_root thomas plant_response (plant hi lo high_height low_height) m_hourly flow_borehole V eskilson
    (fun c => In c d) high_height.
Proof.
  intros hi lo V d HV Hd. destruct eskilson_head as (r & Er).
  assert (N : forall c, In c d -> c <> []) by (intros c Hc ->; contradiction).
  assert (Ph := fun c n Hc Hn Hm => plant_physical hi lo high_height low_height V c n plant_response eskilson r eskilson HV Hc Hn Hm Er eq_refl (fun _ _ _ _ _ => eq_refl)).
  split; [apply plant_proper|]. split; [split; [exact solver_exists|]; split; [rewrite Er; rewrite <- Er; exact eskilson_increasing|cbn; lra]|]. split.
  - intros c h Hc [-> | ->]; eexists; (split; [apply Ph; [now apply N|lia|vm_compute; discriminate]|]); (eapply Rle_trans; [|apply eskilson_reach; lra]); cbn; lra.
  - intros c Hc. eexists. apply Ph; [now apply N|lia|vm_compute; discriminate].
Qed.
(** a garden where one borehole is too little, and g-functions that end after less than a day: no error tells them from a garden that is too small *)
Definition two_times : list R := [- (17 / 2); - 8].
Example C126_curve_too_short_example : forall hi lo V, 0 < V ->
  program plant_film plant_annulus plant_wall plant_Rb plant_Rc plant_root thomas plant_lookup (fun _ _ _ _ _ => Ok [0; 1]) (bisection (1 / 1000)) (plant hi lo high_height low_height)
    m_hourly flow_borehole V two_times garden rectangle_routine high_height = Err ValueError.
Proof.
  intros hi lo V HV. destruct garden_candidates as (f2 & f4 & Ed & L2 & L4).
  assert (Ph := fun n Hn Hm => plant_physical hi lo high_height low_height V [(0, 0)] n (fun _ _ _ _ _ => Ok [0; 1]) two_times [- 8] [0; 1] HV ltac:(discriminate) Hn Hm eq_refl eq_refl (fun _ _ _ _ _ => eq_refl)).
  eapply (C126_curve_too_short plant_film plant_annulus plant_wall plant_Rb plant_Rc plant_root thomas plant_lookup (fun _ _ _ _ _ => Ok [0; 1]) (bisection (1 / 1000))
    (plant hi lo high_height low_height) m_hourly flow_borehole V two_times garden 6 6 5 6 high_height [(0, 0)] [f2; f4]).
  - exact garden_inputs.
  - exact Ed.
  - apply plant_proper.
  - split; [exact solver_exists|]. split; [|cbn; lra]. unfold two_times. repeat constructor; lra.
  - exact (Ph 120060%Z ltac:(lia) ltac:(vm_compute; discriminate)).
  - exact (Ph 60030%Z ltac:(lia) ltac:(vm_compute; discriminate)).
  - unfold two_times. cbn [last]. rewrite Rmult_assoc, <- exp_plus. replace (17 / 2 + - 8) with (/ 2) by lra.
    assert (exp (/ 2) <= 3). { pose proof exp_le_3. assert (exp (/ 2) <= exp 1) by (left; apply exp_increasing; lra). lra. }
    unfold last_hour. cbn [st_start st_end plant]. change (730 * (12 - 1 + 1))%Z with 8760%Z. lra.
Qed.

Print Assumptions C126_field.
Print Assumptions C126_rectangle.
Print Assumptions C126_near_square.
Print Assumptions C126_bi_rectangle.
Print Assumptions C126_curve_too_short.
