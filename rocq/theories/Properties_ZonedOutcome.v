(** Property C126, bi-zoned designs: how they can end when every input makes physical sense, for any pygfunction, root finders, equation solver and
    interpolant *)
From Coq Require Import ZArith QArith List Bool Reals Lra Lia.
From Verif Require Import LoadsProofs LoadsSim LoadsHybrid Properties_Loads GheProofs GFunProofs Properties_GFun RadialProofs RadialGrid Properties_Radial EquivSpec EquivProofs Properties_Equiv.
From Verif Require Import Base Num BaseLemmas Order Spec Utilities Loads LoadsSpec Ghe GheSpec GFun GFunSpec Radial RadialSpec Bhe Equiv Export Domains DomainsProofs
  Search SearchSpec SearchProofs SearchTheorems SearchNested SearchZoned Design System SystemSpec SystemProofs Program ProgramProofs
  Properties_Domains Properties_Ghe Properties_Search DesignProofs Properties_Design Properties_Export Properties_System Properties_Peaks Properties_Program
  Properties_Zoned Properties_Delivered Properties_Outcome.
Import ListNotations.
Open Scope R_scope.

Section Ends.
Variable build : list (R * R) -> R -> res unit.
Variable sim : list (R * R) -> R -> res (xval R).
Variable sized : list (R * R) -> res R.
Variables minH maxH : R.
Notation evaluates := (evaluates build sim minH maxH).
Notation explained := (explained sim minH maxH).
Notation has_excess := (has_excess sim).
Notation fields := (list (list (R * R))).
Notation search := (Search.search (list (R * R)) build sim minH maxH).
Notation successive_loop := (Search.successive_loop (list (R * R)) build sim sized zlen minH maxH).
(** the exceptions of the other searches, the one of sizing a candidate, and ValueError when a candidate is within the limits at the minimum height and
    beyond them at the maximum height *)
Definition zoned_explained (among : list (R * R) -> Prop) (e : exn) : Prop :=
  explained among e \/
  (e = ValueError /\ exists c ql qu, among c /\ has_excess c minH ql /\ has_excess c maxH qu /\ ql < 0 < qu) \/
  (exists c, among c /\ sized c = Err e).

Section Nested.
Variable nested : list fields.
Hypothesis full : ~ In [] nested.
Hypothesis Ev : forall d c, In d nested -> In c d -> evaluates c.
Notation candidate := (fun c => exists d, In d nested /\ In c d).

Lemma loop_explained : forall fuel old i (s s' : sstate (list (R * R))) e, successive_loop fuel nested 15 old i s = (Err e, s') -> (0 <= i)%Z -> zoned_explained candidate e.
Proof.
  induction fuel as [|fuel IH]; intros old i s s' e E Hi; [discriminate|]. cbn [Search.successive_loop] in E.
  destruct (Z.ltb_spec i (zlen nested)) as [L|L]; [|discriminate].
  destruct (nth_error nested (Z.to_nat i)) as [d|] eqn:Ed; [|apply nth_error_None in Ed; unfold zlen in L; lia].
  assert (Hd := nth_error_In _ _ Ed). unfold mbind at 1, lift at 1 in E. rewrite (proj2 (py_nth_nonneg nested i d Hi) Ed) in E. unfold mbind at 1, modify at 1 in E. unfold mbind at 1, modify at 1 in E.
  set (sa := set_temps _ [] (set_dom _ d s)) in *.
  assert (Nd : dom _ sa <> []) by (cbn; intros ->; contradiction).
  assert (Xp := fun e s' X => search_explained build sim minH maxH sa s' e X eq_refl Nd (fun c Hc => Ev d c Hd Hc)).
  destruct (search 15 sa) as ([r|e1], s1) eqn:Es.
  - destruct (search_leaves _ build sim minH maxH 15 sa s1 r Es eq_refl) as (k & c & -> & _ & En & Hg & _). cbn [dom sa set_temps set_dom] in En. apply nth_error_In in En.
    unfold mbind, get, modify, lift, ret, need, ret in E. cbn [Search.ghe set_temps_nested] in E. rewrite Hg in E. cbn [fst] in E.
    destruct (sized c) as [H|e2] eqn:Ez.
    + cbv beta iota in E. match type of E with context [nlt old ?t] => destruct (nlt old t) end; [discriminate|]. eapply IH; [exact E|lia].
    + assert (e2 = e) as -> by congruence. right. right. exists c. split; [|exact Ez]. exists d. split; [exact Hd|exact En].
  - assert (X : explained candidate e1) by (eapply explained_mono; [|exact (Xp e1 s1 eq_refl)]; intros c Hc; exists d; split; [exact Hd|exact Hc]).
    left. destruct e1; try discriminate; (assert (e = _) as -> by (injection E; intros; symmetry; eassumption)); exact X.
Qed.

Lemma select_key_error (t : list (Z * xval R)) e : select_key t = Err e -> e = ValueError /\ forall k v, In (k, v) t -> ~ nonpos v.
Proof.
  intro E. assert (N : forall k v, In (k, v) t -> ~ nonpos v) by (intros k v Hk Hv; destruct (select_key_total t k v Hk Hv) as (k' & Ek); congruence).
  split; [|exact N]. unfold select_key in E.
  destruct (filter xle0 (map snd t)) as [|a l] eqn:Ef; [cbn in E; congruence|]. exfalso.
  assert (Ha : In a (filter xle0 (map snd t))) by (rewrite Ef; now left). apply filter_In in Ha as (Ha & Hx). apply in_map_iff in Ha as ((k, v) & Ev' & Hin). cbn in Ev'. subst v.
  apply (N k a Hin). now apply xle0_nonpos.
Qed.

Lemma search_zd_explained (s s' : sstate (list (R * R))) e : search_zd _ build sim sized zlen minH maxH nested 15 s = (Err e, s') -> temps _ s = [] -> nested <> [] ->
  zoned_explained candidate e.
Proof.
  intros E Ht Hn. destruct (outer_domain_total nested Hn full) as (outer & Eo & No & Io).
  assert (Lo : length outer = S (length nested)).
  { unfold outer_domain in Eo. apply bind_ok in Eo. destruct Eo as (d0 & _ & Eo). apply bind_ok in Eo. destruct Eo as (c0 & _ & Eo). apply bind_ok in Eo. destruct Eo as (ls & Em & Eo).
    apply mapM_length in Em. assert (outer = c0 :: ls) as -> by congruence. cbn [length]. now rewrite Em. }
  unfold Search.search_zd in E. unfold mbind at 1, lift at 1 in E. rewrite Eo in E. unfold mbind at 1, modify at 1 in E. unfold mbind at 1, modify at 1 in E.
  set (so := set_temps_nested _ [] (set_dom _ outer s)) in *. unfold mbind at 1 in E.
  destruct (search 15 so) as ([r|e1], s1) eqn:Es.
  2:{ assert (e1 = e) as -> by congruence. left. eapply explained_mono; [|refine (search_explained build sim minH maxH so s1 e Es Ht _ _)]; [|exact No|].
      - intros c Hc. exact (Io c Hc).
      - intros c Hc. destruct (Io c Hc) as (d & Hd & Hc'). eapply Ev; eassumption. }
  destruct (search_leaves _ build sim minH maxH 15 so s1 r Es Ht) as (k0 & co & -> & Hk0 & _ & _ & _ & K2 & _). cbn [dom so set_temps_nested set_dom temps_nested] in Hk0, K2. unfold zlen in Hk0. rewrite Lo in Hk0.
  unfold mbind at 1, need at 1, ret at 1 in E. cbn [fst] in E. set (i0 := (if (0 <? k0)%Z then k0 - 1 else k0)%Z) in *.
  assert (Hi0 : (0 <= i0 < zlen nested)%Z).
  { unfold i0, zlen. assert (1 <= length nested)%nat by (destruct nested; [contradiction|cbn [length]; lia]). destruct (Z.ltb_spec 0 k0); lia. }
  unfold mbind at 1, modify at 1 in E. set (sb := set_heights _ [] s1) in *. unfold search_successive in E. unfold mbind at 1 in E.
  destruct (successive_loop 7 nested 15 (nofZ 99999) i0 sb) as ([[]|e1], sl) eqn:El.
  2:{ assert (e1 = e) as -> by congruence. exact (loop_explained _ _ _ _ _ _ El (proj1 Hi0)). }
  apply (successive_loop_ok _ build sim sized zlen minH maxH) in El as (vs & tn' & G1 & G2 & G3 & G4 & G5 & G6 & G7 & G8); [|exact (proj1 Hi0)| |].
  2:{ cbn. intros ? []. }
  2:{ cbn. rewrite K2. cbn. intros ? []. }
  cbn in G1, G2. rewrite K2 in G2. cbn in G2.
  unfold mbind at 1, get at 1 in E. unfold mbind at 1, lift at 1 in E.
  destruct vs as [|v0 vs'].
  { rewrite G1 in E. cbn [map py_min] in E. assert (e = ValueError) as -> by congruence. left.
    destruct G8 as [G8|[G8|[G8|(d & Hd & G8)]]]; [discriminate|unfold zlen in G8, Hi0; cbn [length] in G8; lia|destruct G8|].
    specialize (G8 (co, maxH)). assert (Hd' := nth_error_In _ _ Hd).
    destruct (search 15 (start _ d (co, maxH))) as (r', s2) eqn:Ex. cbn [fst] in G8. subst r'.
    eapply explained_mono; [|refine (search_explained build sim minH maxH _ s2 ValueError Ex eq_refl _ _)].
    - intros c Hc. exists d. split; [exact Hd'|exact Hc].
    - cbn. intros ->. contradiction.
    - intros c Hc. exact (Ev d c Hd' Hc). }
  set (vs := v0 :: vs') in *.
  destruct (least_total (heights _ sl)) as (m & ko & Em & Ek). { rewrite G1. discriminate. }
  rewrite Em in E. unfold mbind at 1, lift at 1 in E. rewrite Ek in E. unfold mbind at 1, get at 1 in E. rewrite G2 in E.
  assert (Hko : exists v, In v vs /\ v_idx v = ko).
  { destruct (least_entry _ _ _ Em Ek) as (h1 & x & h2 & Eh & _). rewrite G1 in Eh.
    assert (Hin : In (ko, x) (map (fun v => (v_idx v, v_drill v)) vs)) by (rewrite Eh; apply in_app_iff; right; now left).
    apply in_map_iff in Hin as (v & Ep & Hin). exists v. split; [exact Hin|congruence]. }
  destruct Hko as (v & Hin & Evv).
  assert (Hkept : exists t d' s2 s3, dict_get tn' ko = Ok t /\ nth_error nested (Z.to_nat ko) = Some d' /\ dom _ s2 = d' /\ temps _ s2 = []
     /\ search 15 s2 = (Ok (Some (v_key v, v_field v)), s3) /\ t = temps _ s3).
  { assert (HndI : NoDup (map v_idx vs)) by (rewrite G3; apply NoDup_zrange).
    clear - G5 HndI Hin Evv. revert HndI Hin. unfold good_temps in G5. induction G5 as [|w [j tt] vs tn (Hj & Hw) HF IH]; intros Hnd Hin; [destruct Hin|].
    cbn [fst snd] in *. cbn [map] in Hnd. inversion Hnd as [|? ? Hni Hnd']; subst. cbn [dict_get].
    destruct Hin as [<-|Hin].
    - rewrite Z.eqb_refl. destruct Hw as (d & s0 & s1 & ? & ? & ? & ? & ?). exists tt, d, s0, s1. auto 10.
    - destruct (Z.eqb_spec (v_idx v) (v_idx w)) as [e|]; [exfalso; apply Hni; rewrite <- e; now apply in_map|auto]. }
  destruct Hkept as (t & d & s2 & s3 & Et & Ed & Hd2 & Ht2 & Es2 & Et3). assert (Hd := nth_error_In _ _ Ed).
  assert (Hko0 : (0 <= ko)%Z). { assert (Hz : In ko (map v_idx vs)) by (rewrite <- Evv; now apply in_map). rewrite G3 in Hz. apply in_zrange in Hz. lia. }
  destruct (search_leaves _ build sim minH maxH 15 s2 s3 _ Es2 Ht2) as (k1 & c1 & Ekc & Hk1 & En1 & _ & _ & _ & _ & Hrec & Hsel). rewrite Hd2 in *.
  unfold mbind at 1, lift at 1 in E. rewrite Et in E. unfold mbind at 1, modify at 1 in E. unfold mbind at 1, lift at 1 in E. rewrite Et3 in *.
  destruct (select_key (temps _ s3)) as [k|e1] eqn:Ek2.
  2:{ assert (e1 = e) as -> by congruence. destruct (select_key_error _ _ Ek2) as (-> & Np).
      destruct Hsel as [Hsel|(c0 & cR & tl & tu & tm & (R1 & R2 & R3 & R4 & R5) & Ho & _ & _ & Htm)]; [congruence|].
      assert (I0 := nth_error_In _ _ R1). destruct (Ev d c0 Hd I0) as (_ & _ & (q1 & Q1) & (q2 & Q2)).
      right. left. split; [reflexivity|]. exists c0, q1, q2. split; [exists d; auto|]. split; [exact Q1|]. split; [exact Q2|].
      assert (tl = Fin q1) as -> by (unfold Properties_Outcome.has_excess in Q1; congruence). assert (tu = Fin q2) as -> by (unfold Properties_Outcome.has_excess in Q2; congruence).
      assert (P : forall q, pos (Fin q) -> 0 < q) by (intros q (y & Ey & Py); rewrite val_R in Py; assert (y = q) by congruence; lra).
      assert (Ng : forall q, neg (Fin q) -> q < 0) by (intros q (y & Ey & Py); rewrite val_R in Py; assert (y = q) by congruence; lra).
      destruct Ho as [(_ & X)|(X1 & X2)]; [exfalso|split; auto].
      assert (W : nonpos (Fin q2)) by (right; exists q2; split; [reflexivity|rewrite val_R; apply Ng in X; lra]).
      apply (Np 0%Z (Fin q2)); [|exact W]. rewrite Htm. unfold first_temps. destruct (Z.eqb_spec (zlen d) 1) as [el|]; [|now left].
      rewrite el in R2. change (Z.to_nat (1 - 1)) with O in R2. assert (tm = Fin q2) as -> by congruence. now left. }
  destruct (select_key_nonpos _ _ Ek2) as (x & Hinx & Hnp). destruct (Hrec _ _ Hinx) as (Hkr & c & Ec & Hsx). assert (Hc := nth_error_In _ _ Ec).
  unfold mbind at 1, lift at 1 in E. rewrite (proj2 (py_nth_nonneg nested ko d Hko0) Ed) in E.
  unfold mbind at 1, lift at 1 in E. rewrite (proj2 (py_nth_nonneg d k c (proj1 Hkr)) Ec) in E.
  destruct (Ev d c Hd Hc) as (_ & (u & Eu) & _). unfold mbind at 1, Search.initialize_ghe at 1 in E. unfold mbind at 1, lift at 1 in E. rewrite Eu in E.
  unfold modify at 1 in E. unfold mbind at 1, lift at 1 in E. destruct (sized c) as [H|e1] eqn:Ez; [discriminate|].
  assert (e1 = e) as -> by congruence. right. right. exists c. split; [exists d; auto|exact Ez].
Qed.

Lemma zoned_ends H : (forall d c, In d nested -> In c d -> exists u, build c H = Ok u) -> nested <> [] ->
  (exists k c s, bisection_zd build sim sized minH maxH nested H = Ok (Some (k, c), s) /\ candidate c) \/
  (exists e, bisection_zd build sim sized minH maxH nested H = Err e /\ zoned_explained candidate e).
Proof.
  intros Hb Hn. destruct (bisection_zd build sim sized minH maxH nested H) as [(r, s')|e] eqn:E.
  - left. apply bisection_zd_ok in E as (ko & k & c & s & -> & Ht & E). exists k, c, s'. split; [reflexivity|].
    destruct (C33_least_drilling_visited _ build sim sized zlen minH maxH nested 15 s s' ko k c E Ht) as (outer & k0 & co & vs & X). cbv zeta in X.
    destruct X as (_ & _ & _ & _ & _ & _ & _ & _ & v & d & _ & _ & _ & _ & En & _ & Ec & _). exists d. split; [exact (nth_error_In _ _ En)|exact (nth_error_In _ _ Ec)].
  - right. exists e. split; [reflexivity|]. unfold bisection_zd in E. destruct nested as [|d0 dd] eqn:En0; [contradiction|]. destruct d0 as [|c0 d0]; [exfalso; apply full; now left|].
    rewrite <- En0 in *. assert (Hp : py_nth nested 0 = Ok (c0 :: d0)) by (rewrite En0; reflexivity). rewrite Hp in E. cbn [bind] in E.
    destruct (Hb (c0 :: d0) c0) as (u & Eu); [rewrite En0; now left|now left|]. unfold base_init in E. unfold py_nth in E. cbn [Z.ltb Z.compare Z.to_nat nth_error bind] in E. rewrite Eu in E. cbn [bind] in E.
    match type of E with context [Search.search_zd _ _ _ _ _ _ _ ?n ?mi ?s] => destruct (Search.search_zd _ build sim sized zlen minH maxH n mi s) as (r, s') eqn:Ez end.
    destruct r as [((ko, k), c)|e1]; [discriminate|]. cbn [bind] in E. assert (e1 = e) as -> by congruence. exact (search_zd_explained _ s' e Ez eq_refl Hn).
Qed.
End Nested.
End Ends.

Section World.
Variable h_circular : R -> R -> R -> R -> R -> R -> R -> R.
Variable h_annulus : R -> R -> R -> R -> R -> R -> R -> R -> R * R.
Variable r_conduction : R -> R -> R -> R.
Variable eff_u : R -> pg_u -> R -> R -> R.
Variable eff_c : R -> pg_c -> R -> R -> R.
Variable brentq : (R -> res R) -> R -> R -> list R * res R.
Variable solver : list R -> list R -> list R -> list R -> list R.
Variable interp : ikind -> list (R * R) -> R -> R.
Variable field_response : R -> list (R * R) -> R -> R -> R -> res (list R).
Variable brentq_dialogue : R -> R -> dialogue.
Variable st : settings.
Variable m : method.
Variable flow : flow_kind.
Variable V_flow : R.
Variable log_time : list R.
Notation program := (program h_circular h_annulus r_conduction eff_u eff_c brentq solver interp field_response brentq_dialogue st m flow V_flow log_time).
Notation excess_of := (excess_of h_circular h_annulus r_conduction eff_u eff_c brentq solver interp field_response st m flow V_flow log_time).
Notation can_build := (can_build h_circular h_annulus r_conduction eff_u eff_c brentq solver field_response st flow V_flow log_time).
Notation ready := (ready h_circular h_annulus r_conduction eff_u eff_c brentq solver field_response st flow V_flow log_time).
Notation size_up := (size_up h_circular h_annulus r_conduction eff_u eff_c brentq solver interp field_response brentq_dialogue st).
Notation well_posed := (well_posed h_circular h_annulus r_conduction eff_u eff_c brentq solver field_response st m flow V_flow log_time).
Notation minH := (st_min_H st).
Notation maxH := (st_max_H st).

(** a bi-zoned design of land with three or more rows and columns selects one of its candidates or ends with an exception that the evaluations explain:
    as with the other routines; or one candidate is within the limits at the minimum height and beyond them at the maximum height; or one candidate cannot
    be sized, and the exception is the one of sizing it *)
Theorem C126_bi_zoned :
  forall gc L W l1 l2 tr bmin bmax_x bmax_y H dd, nested_inputs gc L W bmin bmax_x bmax_y -> oriented L W l1 l2 tr ->
  (3 <= Rceil (l1 / (if tr then bmax_y else bmax_x) + 1) <= Rfloor (l1 / bmin + 1))%Z ->
  (3 <= Rceil (l2 / (if tr then bmax_x else bmax_y) + 1) <= Rfloor (l2 / bmin + 1))%Z ->
  bi_rectangle_zoned_nested L W bmin bmax_x bmax_y = Ok dd ->
  let candidate := fun c => exists d, In d dd /\ In c d in well_posed candidate H ->
  (exists k c s, program gc bi_zoned H = Ok (Some (k, c), s) /\ candidate c) \/
  (exists e, program gc bi_zoned H = Err e /\
     (explained excess_of minH maxH candidate e \/
      (e = ValueError /\ exists c ql qu, candidate c /\ has_excess excess_of c minH ql /\ has_excess excess_of c maxH qu /\ ql < 0 < qu) \/
      (exists c s, candidate c /\ ready c maxH = Ok s /\ size_up m_hybrid s = Err e))).
Proof.
  intros gc L W l1 l2 tr bmin bx by_ H dd Hin Ho H1 H2 Ed candidate Wp. unfold Program.program.
  rewrite (bi_zoned_design_eq _ _ _ _ _ _ _ _ _ _ _ _ Hin), Ed. cbn [bind]. destruct Hin as (_ & _ & _ & _ & _ & P1 & P2 & P3 & P4 & P5).
  assert (Hl2 : 0 < l2) by (destruct Ho as [(? & -> & -> & ->)|(? & -> & -> & ->)]; assumption).
  destruct (bi_zoned_domains L W l1 l2 tr bmin bx by_ dd Ho Hl2 P3 P4 P5 Ed H1 H2) as (Hne & (d0 & c00 & E0 & _) & _).
  assert (Ew := fun d c Hd Hc => well_posed_evaluates h_circular h_annulus r_conduction eff_u eff_c brentq solver interp field_response st m flow V_flow log_time candidate H c Wp
    (ex_intro _ d (conj Hd Hc))).
  match goal with |- context [bisection_zd ?b ?x ?z _ _ _ _] => destruct (zoned_ends b x z minH maxH dd) with (H := H) as [X|(e & Ee & X)] end.
  - intro X. exact (Hne _ X eq_refl).
  - intros d c Hd Hc. exact (proj1 (Ew d c Hd Hc)).
  - intros d c Hd Hc. exact (proj2 (Ew d c Hd Hc)).
  - intros ->. discriminate E0.
  - left. exact X.
  - right. exists e. split; [exact Ee|]. destruct X as [X|[X|(c & Hc & X)]]; [left; exact X|right; left; exact X|right; right].
    destruct Hc as (d & Hd & Hc). destruct (Ew d c Hd Hc) as ((_ & (u & Eu) & _) & _). unfold Program.can_build in Eu. unfold sized_height in X.
    destruct (ready c maxH) as [s|e'] eqn:Er; [|discriminate]. cbn [bind] in X. exists c, s. split; [exists d; auto|]. split; [exact Er|].
    destruct (size_up m_hybrid s) as [s1|e1] eqn:E1; cbn [bind] in X; congruence.
Qed.
End World.

(** the plant of C95-C97 on land of 12 m by 12 m: its hypotheses hold, whatever the limits and the flow *)
Example C126_bi_zoned_example : forall hi lo V, 0 < V -> exists d,
  nested_inputs yard 12 12 5 6 6 /\ oriented 12 12 12 12 false /\ (3 <= Rceil (12 / 6 + 1) <= Rfloor (12 / 5 + 1))%Z /\ bi_rectangle_zoned_nested 12 12 5 6 6 = Ok [d] /\
  sizes d = [1; 2; 3; 4; 5; 6; 7; 8; 9]%Z /\
  well_posed plant_film plant_annulus plant_wall plant_Rb plant_Rc plant_root thomas plant_response (plant hi lo high_height low_height) m_hourly flow_borehole V eskilson
    (fun c => exists d', In d' [d] /\ In c d') high_height.
Proof.
  intros hi lo V HV. destruct yard_candidates as (d & Ed & Sd). exists d. split; [exact yard_inputs|]. split; [left; repeat split; lra|].
  split; [destruct yard_numbers as (N1 & N2); rewrite N1, N2; lia|]. split; [exact Ed|]. split; [exact Sd|].
  assert (Nd : ~ In [] d).
  { intro Hf. apply (in_map (fun f => Z.of_nat (length f))) in Hf. fold (sizes d) in Hf. rewrite Sd in Hf. cbn in Hf. lia. }
  destruct (C126_example hi lo V d HV Nd) as (A1 & A2 & A3 & A4). split; [exact A1|]. split; [exact A2|]. split.
  - intros c h (d' & [<- |[]] & Hc) Hh. exact (A3 c h Hc Hh).
  - intros c (d' & [<- |[]] & Hc). exact (A4 c Hc).
Qed.
(** the second explanation occurs: fields that are within the limits at the minimum height only.  The search keeps the first field, the choice among
    the fields that it found to be enough is one among none. *)
Example C126_bi_zoned_reversed_example :
  match design always (fun _ h => Ok (Fin (if Qle_bool h 50 then -1 else 1)%Q)) to_60 20%Q 100%Q (constraints_of 12 8 5 3 6 4) bi_zoned 50%Q with Ok _ => None | Err e => Some e end = Some ValueError.
Proof. vm_compute. reflexivity. Qed.

Print Assumptions C126_bi_zoned.
