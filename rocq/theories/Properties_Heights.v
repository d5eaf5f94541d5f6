(** Property C133: other limits of the height of the boreholes, for any pygfunction, root finders, equation solver and interpolant *)
From Coq Require Import ZArith List Bool Reals Lra Lia.
From Verif Require Import LoadsProofs LoadsSim LoadsHybrid Properties_Loads GheProofs GFunProofs Properties_GFun RadialProofs RadialGrid Properties_Radial EquivSpec EquivProofs Properties_Equiv.
From Verif Require Import Base Num BaseLemmas Order Spec Utilities Loads LoadsSpec Ghe GheSpec GFun GFunSpec Radial RadialSpec Bhe Equiv Export Domains DomainsProofs
  Search SearchSpec SearchTheorems Design System SystemSpec SystemProofs Program ProgramProofs
  Properties_Domains Properties_Ghe Properties_Search DesignProofs Properties_Design Properties_Export Properties_System Properties_Program InvarianceSpec Properties_Limits.
Import ListNotations.
Open Scope R_scope.

(** the same settings with other limits of the height *)
Definition with_heights (hmax hmin : R) (st : settings) : settings :=
  {| st_class := st_class st; st_fluid := st_fluid st; st_rb := st_rb st; st_D := st_D st; st_grout_k := st_grout_k st; st_grout_rhoCp := st_grout_rhoCp st;
     st_soil_k := st_soil_k st; st_soil_rhoCp := st_soil_rhoCp st; st_ugt := st_ugt st;
     st_start := st_start st; st_end := st_end st; st_max_EFT := st_max_EFT st; st_min_EFT := st_min_EFT st;
     st_max_H := hmax; st_min_H := hmin; st_loads := st_loads st |}.

(** ** a search between other heights *)
Section Taller.
Variable build : list (R * R) -> R -> res unit.
Variable sim : list (R * R) -> R -> res (xval R).
Variables minH maxH minH' maxH' : R.
Hypothesis wider : minH' <= minH <= maxH /\ maxH <= maxH'.
Definition limit (h : R) : Prop := h = minH \/ h = maxH \/ h = minH' \/ h = maxH'.
(** [d]: the candidates.  All are evaluated at the four heights, none meets a limit exactly *)
Definition settled (d : list (list (R * R))) : Prop :=
  forall f h, In f d -> limit h -> (exists u, build f h = Ok u) /\ exists q, sim f h = Ok (Fin q) /\ q <> 0.
(** of two candidates the one with more boreholes has the smaller excess, at either maximum height *)
Definition more_helps (d : list (list (R * R))) : Prop := more_is_better sim maxH d /\ more_is_better sim maxH' d.
(** a candidate that keeps the temperature limits at one of the heights keeps them at a greater one *)
Definition deeper_complies (d : list (list (R * R))) : Prop :=
  forall f h h' q q', In f d -> limit h -> limit h' -> h <= h' -> sim f h = Ok (Fin q) -> sim f h' = Ok (Fin q') -> q < 0 -> q' <= 0.

Lemma settled_old d : settled d -> well_behaved _ build sim minH maxH d.
Proof.
  intros S f h Hf Hh. destruct (S f h Hf ltac:(unfold limit; tauto)) as (B & q & Eq & Hq). split; [exact B|]. exists (Fin q). split; [exact Eq|].
  destruct (Rtotal_order q 0) as [X|[X|X]]; [right; exists q|contradiction|left; exists q]; (split; [reflexivity|]); rewrite val_R; lra.
Qed.
Lemma settled_new d : settled d -> well_behaved _ build sim minH' maxH' d.
Proof.
  intros S f h Hf Hh. destruct (S f h Hf ltac:(unfold limit; tauto)) as (B & q & Eq & Hq). split; [exact B|]. exists (Fin q). split; [exact Eq|].
  destruct (Rtotal_order q 0) as [X|[X|X]]; [right; exists q|contradiction|left; exists q]; (split; [reflexivity|]); rewrite val_R; lra.
Qed.
Lemma deeper_at d f h h' : deeper_complies d -> In f d -> limit h -> limit h' -> h <= h' -> deeper_helps sim h h' f.
Proof. intros D Hf L L' Hh q q' E E' Hq. rewrite val_R in *. exact (D f h h' q q' Hf L L' Hh E E' Hq). Qed.

Lemma taller d H k c s : bisection_1d build sim minH maxH d H = Ok (Some (k, c), s) -> strictly_increasing (sizes d) -> (zlen d <= 32769)%Z ->
  settled d -> more_helps d -> deeper_complies d ->
  exists k' c' s', bisection_1d build sim minH' maxH' d H = Ok (Some (k', c'), s') /\ (length c' <= length c)%nat /\ (maxH' = maxH -> k' = k /\ c' = c).
Proof.
  intros E Hs Hn S (M & M') D.
  destruct (built_first build sim minH maxH d H _ E) as (c0 & H0 & u & Hu). assert (I0 := nth_error_In _ _ H0).
  destruct (one_domain_selection build sim minH maxH d H _ s E) as (k1 & c1 & Ek & Hc & Hk1 & _).
  assert (c1 = c) as -> by congruence. assert (k1 = k) as -> by congruence. clear Ek. assert (Ic := nth_error_In _ _ Hc).
  assert (Fo : forall f, In f d -> exists q, sim f maxH = Ok (Fin q)) by (intros f Hf; destruct (S f maxH Hf ltac:(unfold limit; tauto)) as (_ & q & Eq & _); eauto).
  assert (Fn : forall f, In f d -> exists q, sim f maxH' = Ok (Fin q)) by (intros f Hf; destruct (S f maxH' Hf ltac:(unfold limit; tauto)) as (_ & q & Eq & _); eauto).
  destruct (one_domain_smallest build sim minH maxH d H k c s E Hs Hn M Fo) as ((q & Eq & Hq) & Least).
  { intros f Hf. assert (f = c0) as -> by congruence. apply (deeper_at d); [exact D|exact I0|unfold limit; tauto..|lra]. }
  rewrite val_R in Hq.
  (* the selected candidate at the new maximum height *)
  assert (Q' : exists q', sim c maxH' = Ok (Fin q') /\ q' < 0).
  { destruct (S c maxH' Ic ltac:(unfold limit; tauto)) as (_ & q' & Eq' & N'). exists q'. split; [exact Eq'|].
    destruct (S c maxH Ic ltac:(unfold limit; tauto)) as (_ & q1 & Eq1 & N1). assert (q1 = q) as -> by congruence.
    pose proof (D c maxH maxH' q q' Ic ltac:(unfold limit; tauto) ltac:(unfold limit; tauto) ltac:(lra) Eq Eq' ltac:(lra)). lra. }
  destruct Q' as (q' & Eq' & Hq').
  destruct (one_domain_outcome build sim minH' maxH' d H u c0 H0 Hu (settled_new d S)) as (cR & tl & tu & tm & ER & El & Eu & Em & Out).
  destruct Out as [((k' & c' & s' & E') & _)|(E' & S1 & S2)].
  - exists k', c', s'. split; [exact E'|].
    destruct (one_domain_smallest build sim minH' maxH' d H k' c' s' E' Hs Hn M' Fn) as (Ad' & Least').
    { intros f Hf. assert (f = c0) as -> by congruence. apply (deeper_at d); [exact D|exact I0|unfold limit; tauto..|lra]. }
    assert (Le : (length c' <= length c)%nat) by (apply Least'; [exact Ic|]; exists q'; split; [exact Eq'|]; rewrite val_R; lra).
    split; [exact Le|]. intro EM.
    destruct (one_domain_selection build sim minH' maxH' d H _ s' E') as (k1 & c1 & Ek & Hc' & Hk1' & _).
    assert (c1 = c') as -> by congruence. assert (k1 = k') as -> by congruence. clear Ek.
    assert (Ge : (length c <= length c')%nat) by (apply Least; [exact (nth_error_In _ _ Hc')|]; rewrite <- EM; exact Ad').
    assert (Ei : Z.to_nat k' = Z.to_nat k).
    { destruct (Nat.lt_trichotomy (Z.to_nat k') (Z.to_nat k)) as [X|[X|X]]; [|exact X|].
      - pose proof (increasing_nth _ Hs _ _ _ _ X (sizes_nth _ _ _ Hc') (sizes_nth _ _ _ Hc)). lia.
      - pose proof (increasing_nth _ Hs _ _ _ _ X (sizes_nth _ _ _ Hc) (sizes_nth _ _ _ Hc')). lia. }
    split; [lia|]. rewrite Ei in Hc'. congruence.
  - exfalso.
    destruct (S c0 minH' I0 ltac:(unfold limit; tauto)) as (_ & ql & El' & Nl). assert (tl = Fin ql) as -> by congruence.
    destruct (S c0 maxH' I0 ltac:(unfold limit; tauto)) as (_ & qu & Eu' & Nu). assert (tu = Fin qu) as -> by congruence.
    assert (IR := nth_error_In _ _ ER).
    destruct (S cR maxH' IR ltac:(unfold limit; tauto)) as (_ & qm & Em' & Nm). assert (tm = Fin qm) as -> by congruence.
    assert (Last : forall h x y f, In f d -> more_is_better sim h d -> sim f h = Ok (Fin x) -> sim cR h = Ok (Fin y) -> x < 0 -> y < 0).
    { intros h x y f If Mb Ex Ey Hx. destruct (In_nth_error _ _ If) as (i & Hi). assert (i < length d)%nat by (apply nth_error_Some; congruence).
      destruct (Nat.eq_dec i (length d - 1)) as [Ei|Ei].
      - subst i. assert (f = cR) as -> by congruence. assert (Fin x = Fin y) by congruence. assert (x = y) by congruence. lra.
      - pose proof (increasing_nth _ Hs i (length d - 1) _ _ ltac:(lia) (sizes_nth _ _ _ Hi) (sizes_nth _ _ _ ER)).
        assert (X : (length f < length cR)%nat) by lia. specialize (Mb f cR x y If IR X Ex Ey). rewrite !val_R in Mb. lra. }
    assert (Hm : qm < 0) by exact (Last maxH' q' qm c Ic M' Eq' Em' Hq').
    assert (Hu' : qu < 0) by (destruct S2 as [(_ & (y & Ey & Py))|((y & Ey & Py) & _)]; rewrite val_R in Py; [assert (y = qm) by congruence|assert (y = qu) by congruence]; lra).
    assert (Hl : ql < 0) by (destruct S1 as [(_ & (y & Ey & Py))|((y & Ey & Py) & _)]; rewrite val_R in Py; [assert (y = qu) by congruence|assert (y = ql) by congruence]; lra).
    (* then one borehole keeps the limits at the old heights too, and the search between them failed *)
    destruct (S c0 minH I0 ltac:(unfold limit; tauto)) as (_ & ol & Ol & Nol). destruct (S c0 maxH I0 ltac:(unfold limit; tauto)) as (_ & ou & Ou & Nou). destruct (S cR maxH IR ltac:(unfold limit; tauto)) as (_ & om & Om & Nom).
    pose proof (D c0 minH' minH ql ol I0 ltac:(unfold limit; tauto) ltac:(unfold limit; tauto) ltac:(lra) El' Ol Hl). pose proof (D c0 minH maxH ol ou I0 ltac:(unfold limit; tauto) ltac:(unfold limit; tauto) ltac:(lra) Ol Ou ltac:(lra)).
    pose proof (Last maxH ou om c0 I0 M Ou Om ltac:(lra)).
    destruct (one_domain_outcome build sim minH maxH d H u c0 H0 Hu (settled_old d S)) as (cR' & tl' & tu' & tm' & ER' & E1 & E2 & E3 & Out).
    assert (cR' = cR) as -> by congruence. assert (tl' = Fin ol) as -> by congruence. assert (tu' = Fin ou) as -> by congruence. assert (tm' = Fin om) as -> by congruence.
    destruct Out as [(_ & Op)|(E4 & _)]; [|congruence].
    assert (NP : forall z, z < 0 -> ~ pos (Fin z)) by (intros z Hz (y & Ey & Py); rewrite val_R in Py; assert (y = z) by congruence; lra).
    destruct Op as [[(X & _)|(_ & X)]|[(X & _)|(_ & X)]]; revert X; apply NP; lra.
Qed.
End Taller.

Section World.
Variable h_circular : R -> R -> R -> R -> R -> R -> R -> R.
Variable h_annulus : R -> R -> R -> R -> R -> R -> R -> R -> R * R.
Variable r_conduction : R -> R -> R -> R.
Variable eff_u : R -> pg_u -> R -> R -> R.
Variable eff_c : R -> pg_c -> R -> R -> R.
Variable brentq : (R -> res R) -> R -> R -> list R * res R.
Variable solver : list R -> list R -> list R -> list R -> list R.
Variable interp : ikind -> list (R * R) -> R -> R.
Variable field_response : R -> list (R * R) -> R -> R -> R -> res (list R).
Variable brentq_dialogue : R -> R -> dialogue.
Variable st : settings.
Variable m : method.
Variable flow : flow_kind.
Variable V_flow : R.
Variable log_time : list R.
Variables hmax hmin : R.
Notation program st := (program h_circular h_annulus r_conduction eff_u eff_c brentq solver interp field_response brentq_dialogue st m flow V_flow log_time).
Notation excess_of st := (excess_of h_circular h_annulus r_conduction eff_u eff_c brentq solver interp field_response st m flow V_flow log_time).
Notation can_build st := (can_build h_circular h_annulus r_conduction eff_u eff_c brentq solver field_response st flow V_flow log_time).
Notation minH := (st_min_H st).
Notation maxH := (st_max_H st).
Notation taller_st := (with_heights hmax hmin st).

(** the range of heights is extended *)
Hypothesis wider : hmin <= minH <= maxH /\ maxH <= hmax.

(** C133: the excess of a field at a height does not depend on the limits of the height *)
Theorem C133_excess : forall c h, excess_of taller_st c h = excess_of st c h /\ can_build taller_st c h = can_build st c h.
Proof. intros c h. split; reflexivity. Qed.

(** C133: if more boreholes and deeper boreholes help, a design that succeeds succeeds with a wider range of heights, with at most as many boreholes; with
    the same boreholes if only the minimum height was lowered *)
Theorem C133_rectangle :
  forall gc L W bmin bmax H k c s d, rectangle_inputs gc L W bmin bmax -> rectangular L W bmin bmax = Ok d -> (zlen d <= 32769)%Z ->
  settled (can_build st) (excess_of st) minH maxH hmin hmax d -> more_helps (excess_of st) maxH hmax d -> deeper_complies (excess_of st) minH maxH hmin hmax d ->
  program st gc rectangle_routine H = Ok (Some (k, c), s) ->
  exists k' c' s', program taller_st gc rectangle_routine H = Ok (Some (k', c'), s') /\ (length c' <= length c)%nat /\ (hmax = maxH -> k' = k /\ c' = c).
Proof.
  intros gc L W bmin bmax H k c s d Hin Ed Hn S M D E. unfold Program.program in *.
  match type of E with Design.design ?b ?e ?z _ _ _ _ _ = _ => destruct (rectangle_design_eq b e z minH maxH gc L W bmin bmax H Hin) as (d1 & Ed1 & Eq1) end.
  rewrite Eq1 in E. assert (d1 = d) as -> by (apply Ok_inj; now rewrite <- Ed1). clear Ed1 Eq1.
  match goal with |- context [Design.design ?b ?e ?z (st_min_H taller_st) _ _ _ _] => destruct (rectangle_design_eq b e z hmin hmax gc L W bmin bmax H Hin) as (d1 & Ed1 & Eq1) end.
  assert (d1 = d) as -> by (apply Ok_inj; now rewrite <- Ed1). change (st_min_H taller_st) with hmin. change (st_max_H taller_st) with hmax. rewrite !Eq1.
  destruct Hin as (_ & _ & _ & _ & P1 & P2 & P3 & P4). destruct (C10_rectangular_grows L W bmin bmax d P1 P2 P3 P4 Ed) as (Hs & _).
  exact (taller (can_build st) (excess_of st) minH maxH hmin hmax wider d H k c s E Hs Hn S M D).
Qed.
Theorem C133_near_square :
  forall gc L B H k c s n d, near_square_inputs gc L B -> number_of_boreholes L B false = Ok n -> square_and_near_square 1 n B = Ok d -> (n <= 16384)%Z ->
  settled (can_build st) (excess_of st) minH maxH hmin hmax d -> more_helps (excess_of st) maxH hmax d -> deeper_complies (excess_of st) minH maxH hmin hmax d ->
  program st gc near_square H = Ok (Some (k, c), s) ->
  exists k' c' s', program taller_st gc near_square H = Ok (Some (k', c'), s') /\ (length c' <= length c)%nat /\ (hmax = maxH -> k' = k /\ c' = c).
Proof.
  intros gc L B H k c s n d Hin En Ed Hn S M D E. unfold Program.program in *.
  match type of E with Design.design ?b ?e ?z _ _ _ _ _ = _ => destruct (near_square_design_eq b e z minH maxH gc L B H Hin) as (n1 & d1 & En1 & Hn1 & _ & Ed1 & Eq1) end.
  rewrite Eq1 in E. assert (n1 = n) as -> by (apply Ok_inj; now rewrite <- En1). assert (d1 = d) as -> by (apply Ok_inj; now rewrite <- Ed1). clear Ed1 Eq1 En1.
  match goal with |- context [Design.design ?b ?e ?z (st_min_H taller_st) _ _ _ _] => destruct (near_square_design_eq b e z hmin hmax gc L B H Hin) as (n1 & d1 & En1 & _ & _ & Ed1 & Eq1) end.
  assert (n1 = n) as -> by (apply Ok_inj; now rewrite <- En1). assert (d1 = d) as -> by (apply Ok_inj; now rewrite <- Ed1).
  change (st_min_H taller_st) with hmin. change (st_max_H taller_st) with hmax. rewrite !Eq1.
  destruct (C07_square_domain 1 n B ltac:(lia)) as (d2 & Ed2 & Ec & Es & Hs). assert (d2 = d) as -> by (apply Ok_inj; now rewrite <- Ed2).
  assert (Hl : (zlen d <= 32769)%Z). { rewrite Ec. rewrite (zlen_flat_map_const _ _ 2) by (intros; reflexivity). rewrite zrange_zlen. lia. }
  exact (taller (can_build st) (excess_of st) minH maxH hmin hmax wider d H k c s E Hs Hl S M D).
Qed.
End World.

(** ** the plant of C95 to C97: with boreholes of the maximum height only, of the minimum height only, and of the whole range *)
Notation plant_build st V := (can_build plant_film plant_annulus plant_wall plant_Rb plant_Rc plant_root thomas plant_response st flow_borehole V eskilson).
Lemma plant_any_heights V hi lo a b f h : plant_excess (plant hi lo a b) V f h = plant_excess (plant hi lo high_height low_height) V f h.
Proof. reflexivity. Qed.
Lemma plant_ranges V hi lo : plant_fits V hi lo -> forall one k c s, one = low_height \/ one = high_height ->
  plant_program (plant hi lo one one) V garden rectangle_routine high_height = Ok (Some (k, c), s) ->
  exists k' c' s', plant_program (plant hi lo high_height low_height) V garden rectangle_routine high_height = Ok (Some (k', c'), s') /\ (length c' <= length c)%nat /\
  (one = high_height -> k' = k /\ c' = c).
Proof.
  intros L one k c s One E. destruct garden_candidates as (f2 & f4 & Ed & L2 & L4). pose proof plant_heights as PH.
  assert (Hd : forall f h, In f [[(0, 0)]; f2; f4] -> h = one \/ h = one \/ h = low_height \/ h = high_height -> a_candidate h f).
  { intros f h [<- |[<- |[<- |[]]]] Hh; (split; [destruct One; subst; tauto|]); auto. }
  assert (Sg : forall f h x, In f [[(0, 0)]; f2; f4] -> h = low_height \/ h = high_height -> plant_excess (plant hi lo high_height low_height) V f h = Ok (Fin x) -> (f = [(0, 0)] /\ 0 < x) \/ ((2 <= length f)%nat /\ x < 0)).
  { intros f h x Hf Hh Ex. destruct (plant_excess_at V hi lo L h f) as (y & Ey & P & N & _); [split; [exact Hh|]; destruct Hf as [<- |[<- |[<- |[]]]]; auto|].
    rewrite (fin_eq _ _ _ Ex Ey). destruct Hf as [<- |[<- |[<- |[]]]]; [left; split; [reflexivity|now apply P]|right; split; [lia|apply N; lia]..]. }
  assert (CB : forall f h, In f [[(0, 0)]; f2; f4] -> h = low_height \/ h = high_height -> exists u, plant_build (plant hi lo one one) V f h = Ok u).
  { intros f h Hf Hh. destruct (plant_excess_at V hi lo L h f) as (y & Ey & _); [split; [exact Hh|]; destruct Hf as [<- |[<- |[<- |[]]]]; auto|].
    destruct (excess_of_ok _ _ _ _ _ _ _ _ _ _ _ _ _ _ _ _ _ Ey) as (s0 & z & _ & Er & _). exists tt. unfold can_build. unfold ready in *.
    change (initialize_ghe plant_film plant_annulus plant_wall plant_Rb plant_Rc plant_root thomas plant_response (plant hi lo one one) flow_borehole V eskilson f h)
      with (initialize_ghe plant_film plant_annulus plant_wall plant_Rb plant_Rc plant_root thomas plant_response (plant hi lo high_height low_height) flow_borehole V eskilson f h).
    rewrite Er. reflexivity. }
  assert (Two : forall h, limit one one low_height high_height h -> h = low_height \/ h = high_height) by (intros h Hh; unfold limit in Hh; destruct One; subst; tauto).
  assert (MB : forall h, h = low_height \/ h = high_height -> more_is_better (plant_excess (plant hi lo one one) V) h [[(0, 0)]; f2; f4]).
  { intros h Hh f f' q q' Hf Hf' Hlt Eq Eq'. rewrite !val_R. rewrite plant_any_heights in Eq, Eq'.
    assert (Af : a_candidate h f) by (split; [exact Hh|]; destruct Hf as [<- |[<- |[<- |[]]]]; auto). assert (Af' : a_candidate h f') by (split; [exact Hh|]; destruct Hf' as [<- |[<- |[<- |[]]]]; auto).
    destruct (plant_excess_at V hi lo L h f Af) as (y & Ey & _ & _ & Less). rewrite (fin_eq _ _ _ Eq Ey). exact (Less f' q' Af' Hlt Eq'). }
  enough (X : exists k' c' s', plant_program (with_heights high_height low_height (plant hi lo one one)) V garden rectangle_routine high_height = Ok (Some (k', c'), s') /\
    (length c' <= length c)%nat /\ (high_height = one -> k' = k /\ c' = c)).
  { destruct X as (k' & c' & s' & X1 & X2 & X3). exists k', c', s'. split; [exact X1|]. split; [exact X2|]. intro Eo. apply X3. now rewrite Eo. }
  apply (C133_rectangle plant_film plant_annulus plant_wall plant_Rb plant_Rc plant_root thomas plant_lookup plant_response (bisection (1 / 1000)) (plant hi lo one one) m_hourly flow_borehole V eskilson
    high_height low_height ltac:(cbn; destruct One; subst; lra) garden 6 6 5 6 high_height k c s _ garden_inputs Ed); [vm_compute; discriminate| | | |exact E]; cbn [st_min_H st_max_H plant].
  - intros f h Hf Hh. apply Two in Hh. split; [now apply CB|]. destruct (plant_excess_at V hi lo L h f) as (y & Ey & _); [split; [exact Hh|]; destruct Hf as [<- |[<- |[<- |[]]]]; auto|].
    exists y. split; [exact Ey|]. destruct (Sg f h y Hf Hh Ey) as [(_ & X)|(_ & X)]; lra.
  - split; apply MB; [exact One|now right].
  - intros f h h' q q' Hf Hh Hh' Le Eq Eq' Hq. apply Two in Hh, Hh'. rewrite plant_any_heights in Eq, Eq'.
    destruct (Sg f h q Hf Hh Eq) as [(_ & X)|(N & _)]; [lra|]. destruct (Sg f h' q' Hf Hh' Eq') as [(-> & _)|(_ & X)]; [cbn in N; lia|lra].
Qed.
(** the design succeeds with each of the two heights alone *)
Lemma plant_one_height V hi lo one : plant_fits V hi lo -> one = low_height \/ one = high_height ->
  exists k c s, plant_program (plant hi lo one one) V garden rectangle_routine high_height = Ok (Some (k, c), s).
Proof.
  intros L One. destruct garden_candidates as (f2 & f4 & Ed & L2 & L4).
  assert (Ev : forall f h, In f [[(0, 0)]; f2; f4] -> h = low_height \/ h = high_height ->
    plant_build (plant hi lo one one) V f h = Ok tt /\ exists x, plant_excess (plant hi lo one one) V f h = Ok (Fin x) /\ (length f = 1%nat -> 0 < x) /\ ((2 <= length f)%nat -> x < 0)).
  { intros f h Hf Hh. destruct (plant_excess_at V hi lo L h f) as (y & Ey & P & N & _); [split; [exact Hh|]; destruct Hf as [<- |[<- |[<- |[]]]]; auto|].
    split; [|exists y; split; [exact Ey|auto]].
    destruct (excess_of_ok _ _ _ _ _ _ _ _ _ _ _ _ _ _ _ _ _ Ey) as (s0 & z & _ & Er & _). unfold can_build. unfold ready in *.
    change (initialize_ghe plant_film plant_annulus plant_wall plant_Rb plant_Rc plant_root thomas plant_response (plant hi lo one one) flow_borehole V eskilson f h)
      with (initialize_ghe plant_film plant_annulus plant_wall plant_Rb plant_Rc plant_root thomas plant_response (plant hi lo high_height low_height) flow_borehole V eskilson f h).
    rewrite Er. reflexivity. }
  unfold program. set (cb := plant_build (plant hi lo one one) V) in *. set (ex := plant_excess (plant hi lo one one) V) in *.
  set (sh := sized_height plant_film plant_annulus plant_wall plant_Rb plant_Rc plant_root thomas plant_lookup plant_response (bisection (1 / 1000)) (plant hi lo one one) flow_borehole V eskilson).
  cbn [st_min_H st_max_H plant].
  destruct (rectangle_design_eq cb ex sh one one garden 6 6 5 6 high_height garden_inputs) as (d1 & Ed1 & Eq1). assert (d1 = [[(0, 0)]; f2; f4]) as -> by (apply Ok_inj; now rewrite <- Ed1).
  rewrite Eq1. clear Ed1 Eq1.
  destruct (one_domain_outcome cb ex one one [[(0, 0)]; f2; f4] high_height tt [(0, 0)] eq_refl) as (cR & tl & tu & tm & ER & El & Eu & Em & Out).
  { apply Ev; [left; reflexivity|now right]. }
  { intros f h Hf Hh. assert (Hh' : h = low_height \/ h = high_height) by (destruct Hh as [-> |(-> & _)]; exact One). destruct (Ev f h Hf Hh') as (B & x & Ex & P & N).
    split; [exists tt; exact B|]. exists (Fin x). split; [exact Ex|].
    destruct Hf as [<- |[<- |[<- |[]]]]; [left|right|right]; exists x; (split; [reflexivity|]); rewrite val_R; [apply P; reflexivity|apply N; lia|apply N; lia]. }
  assert (cR = f4) as -> by (cbn in ER; congruence).
  destruct Out as [(X & _)|(_ & _ & S2)]; [exact X|]. exfalso.
  destruct (Ev [(0, 0)] one ltac:(left; reflexivity) One) as (_ & x & Ex & P & _). destruct (Ev f4 one ltac:(right; right; left; reflexivity) One) as (_ & y & Ey & _ & N).
  specialize (P eq_refl). specialize (N ltac:(lia)). assert (tu = Fin x) as -> by (apply Ok_inj; rewrite <- Eu; exact Ex). assert (tm = Fin y) as -> by (apply Ok_inj; rewrite <- Em; exact Ey).
  destruct S2 as [(_ & (z & Ez & Pz))|((z & Ez & Pz) & _)]; rewrite val_R in Pz; [assert (z = y) by congruence|assert (z = x) by congruence]; lra.
Qed.
Example C133_example : exists V hi lo k c s k1 c1 s1 k' c' s',
  plant_program (plant hi lo high_height high_height) V garden rectangle_routine high_height = Ok (Some (k, c), s) /\
  plant_program (plant hi lo low_height low_height) V garden rectangle_routine high_height = Ok (Some (k1, c1), s1) /\
  plant_program (plant hi lo high_height low_height) V garden rectangle_routine high_height = Ok (Some (k', c'), s') /\ low_height < high_height /\
  length c' = 2%nat /\ k' = k /\ c' = c /\ (length c' <= length c1)%nat.
Proof.
  destruct plant_limits as (V & hi & lo & L). destruct (plant_designed V hi lo L) as (k2 & c2 & s2 & s3 & _ & E2 & Lc & _).
  destruct (plant_one_height V hi lo high_height L (or_intror eq_refl)) as (k & c & s & E). destruct (plant_one_height V hi lo low_height L (or_introl eq_refl)) as (k1 & c1 & s1 & E1).
  destruct (plant_ranges V hi lo L _ k c s (or_intror eq_refl) E) as (k' & c' & s' & E' & _ & Same). destruct (Same eq_refl) as (Ek & Ec).
  destruct (plant_ranges V hi lo L _ k1 c1 s1 (or_introl eq_refl) E1) as (k4 & c4 & s4 & E4 & Le & _).
  exists V, hi, lo, k, c, s, k1, c1, s1, k', c', s'. assert (c4 = c') as -> by congruence. assert (c2 = c') as -> by congruence. pose proof plant_heights as PH.
  do 3 (split; [assumption|]). split; [lra|]. repeat (split; [assumption|]). assumption.
Qed.

Print Assumptions C133_excess.
Print Assumptions C133_rectangle.
Print Assumptions C133_near_square.
