(** Property C135: more land, or a smaller permitted spacing, for any pygfunction, root finders, equation solver and interpolant *)
From Coq Require Import ZArith List Bool Reals QArith Lra Lia.
From Verif Require Import LoadsProofs LoadsSim LoadsHybrid Properties_Loads GheProofs GFunProofs Properties_GFun RadialProofs RadialGrid Properties_Radial EquivSpec EquivProofs Properties_Equiv.
From Verif Require Import Base Num BaseLemmas Order Spec Utilities UtilitiesProofs Loads LoadsSpec Ghe GheSpec GFun GFunSpec Radial RadialSpec Bhe Equiv Export Domains DomainsProofs
  Search SearchSpec SearchTheorems Design System SystemSpec SystemProofs Program ProgramProofs
  Properties_Domains Properties_Ghe Properties_Search DesignProofs Properties_Design Properties_Export Properties_System Properties_Program InvarianceSpec Properties_Limits.
Import ListNotations.
Open Scope R_scope.

(** ** the candidates *)
Lemma near_square_prefix (B : R) n n' d d' : (1 <= n <= n')%Z -> square_and_near_square 1 n B = Ok d -> square_and_near_square 1 n' B = Ok d' -> exists e, d' = d ++ e.
Proof.
  intros Hn E E'. destruct (C07_square_domain 1 n B ltac:(lia)) as (x & Ex & Dx & _). destruct (C07_square_domain 1 n' B ltac:(lia)) as (y & Ey & Dy & _).
  assert (x = d) as -> by (apply Ok_inj; now rewrite <- Ex). assert (y = d') as -> by (apply Ok_inj; now rewrite <- Ey).
  rewrite Dx, Dy. rewrite (zrange_app 1 (n + 1) (n' + 1)) by lia. rewrite flat_map_app. eauto.
Qed.
Lemma rectangular_prefix (lx ly bmin bmin' bmax : R) d d' : 0 < lx -> 0 < ly -> 0 < bmin' <= bmin -> 0 < bmax ->
  rectangular lx ly bmin bmax = Ok d -> rectangular lx ly bmin' bmax = Ok d' -> exists e, d' = d ++ e.
Proof.
  intros Hx Hy Hb Hm E E'.
  assert (Ho : exists l1 l2 tr, oriented lx ly l1 l2 tr /\ 0 < l2 /\ l2 <= l1).
  { destruct (Rle_lt_dec ly lx); [exists lx, ly, false; split; [left; auto|lra]|exists ly, lx, true; split; [right; auto|lra]]. }
  destruct Ho as (l1 & l2 & tr & Ho & H2 & H1).
  rewrite (rectangular_contents lx ly l1 l2 tr bmin bmax Ho H2 ltac:(lra) Hm) in E. rewrite (rectangular_contents lx ly l1 l2 tr bmin' bmax Ho H2 ltac:(lra) Hm) in E'.
  apply Ok_inj in E, E'. subst d d'.
  assert (Mn : (Rfloor (l1 / bmin + 1) <= Rfloor (l1 / bmin' + 1))%Z).
  { apply Rfloor_mono. apply Rplus_le_compat_r. unfold Rdiv. apply Rmult_le_compat_l; [lra|]. apply Rinv_le_contravar; lra. }
  destruct (Z.ltb_spec (Rfloor (l1 / bmin + 1)) (Rceil (l1 / bmax + 1))) as [A|A]; [cbn [map app]; eauto|].
  destruct (Z.ltb_spec (Rfloor (l1 / bmin' + 1)) (Rceil (l1 / bmax + 1))) as [B|B]; [lia|].
  unfold rect_fields. rewrite (zrange_app (Rceil (l1 / bmax + 1)) (Rfloor (l1 / bmin + 1) + 1) (Rfloor (l1 / bmin' + 1) + 1)) by lia.
  rewrite filter_app. rewrite !map_app. eexists. rewrite app_assoc. reflexivity.
Qed.

(** ** searches of two lists of candidates *)
Section Lists.
Variable build : list (R * R) -> R -> res unit.
Variable sim : list (R * R) -> R -> res (xval R).
Variables minH maxH : R.
(** the candidates are evaluated at both limits of the height, none meets a temperature limit exactly *)
Definition evaluable (d : list (list (R * R))) : Prop :=
  forall f h, In f d -> h = maxH \/ h = minH -> (exists u, build f h = Ok u) /\ exists q, sim f h = Ok (Fin q) /\ q <> 0.

Lemma evaluable_well_behaved d : evaluable d -> well_behaved _ build sim minH maxH d.
Proof.
  intros S f h Hf Hh. destruct (S f h Hf ltac:(tauto)) as (B & q & Eq & Hq). split; [exact B|]. exists (Fin q). split; [exact Eq|].
  destruct (Rtotal_order q 0) as [X|[X|X]]; [right; exists q|contradiction|left; exists q]; (split; [reflexivity|]); rewrite val_R; lra.
Qed.
(** [f] of the second list has more boreholes than what was selected of the first *)
Lemma other_list d d' H k c s c0 f : bisection_1d build sim minH maxH d H = Ok (Some (k, c), s) -> nth_error d 0 = Some c0 -> nth_error d' 0 = Some c0 ->
  strictly_increasing (sizes d) -> strictly_increasing (sizes d') -> (zlen d <= 32769)%Z -> (zlen d' <= 32769)%Z ->
  evaluable d -> evaluable d' -> more_is_better sim maxH (d ++ d') -> deeper_helps sim minH maxH c0 ->
  In f d' -> f = c \/ (length c < length f)%nat ->
  exists k' c' s', bisection_1d build sim minH maxH d' H = Ok (Some (k', c'), s') /\ (length c' <= length f)%nat.
Proof.
  intros E H0 H0' Hs Hs' Hn Hn' S S' M D If Hf.
  destruct (built_first build sim minH maxH d H _ E) as (c1 & H1 & u & Hu). assert (c1 = c0) as -> by congruence. clear H1.
  assert (I0 := nth_error_In _ _ H0). assert (I0' := nth_error_In _ _ H0').
  destruct (one_domain_selection build sim minH maxH d H _ s E) as (k1 & c1 & Ek & Hc & _).
  assert (c1 = c) as -> by congruence. clear Ek. assert (Ic := nth_error_In _ _ Hc).
  assert (M1 : more_is_better sim maxH d) by (intros a b x y Ia Ib; apply M; apply in_app_iff; now left).
  assert (M2 : more_is_better sim maxH d') by (intros a b x y Ia Ib; apply M; apply in_app_iff; now right).
  assert (F1 : forall a, In a d -> exists q, sim a maxH = Ok (Fin q)) by (intros a Ha; destruct (S a maxH Ha (or_introl eq_refl)) as (_ & q & Eq & _); eauto).
  assert (F2 : forall a, In a d' -> exists q, sim a maxH = Ok (Fin q)) by (intros a Ha; destruct (S' a maxH Ha (or_introl eq_refl)) as (_ & q & Eq & _); eauto).
  destruct (one_domain_smallest build sim minH maxH d H k c s E Hs Hn M1 F1) as ((q & Eq & Hq) & _); [intros a Ha; assert (a = c0) as -> by congruence; exact D|]. rewrite val_R in Hq.
  assert (Q : exists x, sim f maxH = Ok (Fin x) /\ x < 0).
  { destruct (F2 f If) as (x & Ex). exists x. split; [exact Ex|]. destruct Hf as [-> |Hf].
    - assert (Fin x = Fin q) by congruence. assert (x = q) by congruence. lra.
    - assert (X : val x < val q) by (apply (M c f q x); [apply in_app_iff; now left|apply in_app_iff; now right|exact Hf|exact Eq|exact Ex]). rewrite !val_R in X. lra. }
  destruct Q as (x & Ex & Hx).
  assert (Last : forall dd cR a va vr, strictly_increasing (sizes dd) -> more_is_better sim maxH dd -> nth_error dd (length dd - 1) = Some cR -> In a dd ->
    sim a maxH = Ok (Fin va) -> sim cR maxH = Ok (Fin vr) -> va < 0 -> vr < 0).
  { intros dd cR a va vr Hsd Md ER Ia Ea Er Hv. assert (IR := nth_error_In _ _ ER). destruct (In_nth_error _ _ Ia) as (i & Hi). assert (i < length dd)%nat by (apply nth_error_Some; congruence).
    destruct (Nat.eq_dec i (length dd - 1)) as [Ei|Ei].
    - subst i. assert (a = cR) as -> by congruence. assert (Fin va = Fin vr) by congruence. assert (va = vr) by congruence. lra.
    - pose proof (increasing_nth _ Hsd i (length dd - 1) _ _ ltac:(lia) (sizes_nth _ _ _ Hi) (sizes_nth _ _ _ ER)).
      assert (X : (length a < length cR)%nat) by lia. specialize (Md a cR va vr Ia IR X Ea Er). rewrite !val_R in Md. lra. }
  destruct (one_domain_outcome build sim minH maxH d' H u c0 H0' Hu (evaluable_well_behaved d' S')) as (cR & tl & tu & tm & ER & El & Eu & Em & Out).
  destruct Out as [((k' & c' & s' & E') & _)|(E' & S1 & S2)].
  - exists k', c', s'. split; [exact E'|].
    destruct (one_domain_smallest build sim minH maxH d' H k' c' s' E' Hs' Hn' M2 F2) as (_ & Least); [intros a Ha; assert (a = c0) as -> by congruence; exact D|].
    apply Least; [exact If|]. exists x. split; [exact Ex|]. rewrite val_R. exact Hx.
  - exfalso.
    destruct (S' c0 minH I0' (or_intror eq_refl)) as (_ & ql & El' & Nl). assert (tl = Fin ql) as -> by congruence.
    destruct (S' c0 maxH I0' (or_introl eq_refl)) as (_ & qu & Eu' & Nu). assert (tu = Fin qu) as -> by congruence.
    assert (IR := nth_error_In _ _ ER). destruct (S' cR maxH IR (or_introl eq_refl)) as (_ & qm & Em' & Nm). assert (tm = Fin qm) as -> by congruence.
    assert (Hm : qm < 0) by exact (Last d' cR f x qm Hs' M2 ER If Ex Em' Hx).
    assert (Hu' : qu < 0) by (destruct S2 as [(_ & (y & Ey & Py))|((y & Ey & Py) & _)]; rewrite val_R in Py; [assert (y = qm) by congruence|assert (y = qu) by congruence]; lra).
    assert (Hl : ql < 0) by (destruct S1 as [(_ & (y & Ey & Py))|((y & Ey & Py) & _)]; rewrite val_R in Py; [assert (y = qu) by congruence|assert (y = ql) by congruence]; lra).
    destruct (one_domain_outcome build sim minH maxH d H u c0 H0 Hu (evaluable_well_behaved d S)) as (cR' & tl' & tu' & tm' & ER' & E1 & E2 & E3 & Out).
    assert (tl' = Fin ql) as -> by congruence. assert (tu' = Fin qu) as -> by congruence.
    assert (IR' := nth_error_In _ _ ER'). destruct (S cR' maxH IR' (or_introl eq_refl)) as (_ & om & Om & _). assert (tm' = Fin om) as -> by congruence.
    assert (Hom : om < 0) by exact (Last d cR' c0 qu om Hs M1 ER' I0 Eu' Om Hu').
    destruct Out as [(_ & Op)|(E4 & _)]; [|congruence].
    assert (NP : forall z, z < 0 -> ~ pos (Fin z)) by (intros z Hz (y & Ey & Py); rewrite val_R in Py; assert (y = z) by congruence; lra).
    destruct Op as [[(X & _)|(_ & X)]|[(X & _)|(_ & X)]]; revert X; apply NP; lra.
Qed.
(** a longer list: the same selection *)
Lemma longer_list d e H k c s : bisection_1d build sim minH maxH d H = Ok (Some (k, c), s) ->
  strictly_increasing (sizes (d ++ e)) -> (zlen (d ++ e) <= 32769)%Z -> evaluable (d ++ e) -> more_is_better sim maxH (d ++ e) ->
  (forall c0, nth_error d 0 = Some c0 -> deeper_helps sim minH maxH c0) ->
  exists s', bisection_1d build sim minH maxH (d ++ e) H = Ok (Some (k, c), s').
Proof.
  intros E Hs Hn S M D.
  assert (Hs1 : strictly_increasing (sizes d)).
  { assert (G : forall l l' : list Z, strictly_increasing (l ++ l') -> strictly_increasing l).
    { unfold strictly_increasing. induction l as [|a l IH]; cbn; intros l' X; [constructor|]. inversion X as [|? ? X1 X2]; subst. constructor; [exact (IH _ X1)|]. apply Forall_app in X2. tauto. }
    unfold sizes in Hs. rewrite map_app in Hs. exact (G _ _ Hs). }
  assert (Hn1 : (zlen d <= 32769)%Z) by (unfold zlen in *; rewrite app_length in Hn; lia).
  assert (S1 : evaluable d) by (intros a h Ha; apply S; apply in_app_iff; now left).
  assert (M1 : more_is_better sim maxH d) by (intros a b x y Ia Ib; apply M; apply in_app_iff; now left).
  destruct (built_first build sim minH maxH d H _ E) as (c0 & H0 & _). assert (H0' : nth_error (d ++ e) 0 = Some c0) by (rewrite nth_error_app1; [exact H0|apply nth_error_Some; congruence]).
  destruct (one_domain_selection build sim minH maxH d H _ s E) as (k1 & c1 & Ek & Hc & Hk & _).
  assert (c1 = c) as -> by congruence. assert (k1 = k) as -> by congruence. clear Ek. assert (Ic := nth_error_In _ _ Hc).
  assert (F1 : forall a, In a d -> exists q, sim a maxH = Ok (Fin q)) by (intros a Ha; destruct (S1 a maxH Ha (or_introl eq_refl)) as (_ & q & Eq & _); eauto).
  assert (F2 : forall a, In a (d ++ e) -> exists q, sim a maxH = Ok (Fin q)) by (intros a Ha; destruct (S a maxH Ha (or_introl eq_refl)) as (_ & q & Eq & _); eauto).
  destruct (other_list d (d ++ e) H k c s c0 c E H0 H0' Hs1 Hs Hn1 Hn S1 S) as (k' & c' & s' & E' & Le); [|exact (D c0 H0)|apply in_app_iff; now left|now left|].
  { intros a b x y Ia Ib. apply M; apply in_app_iff; [destruct (proj1 (in_app_iff _ _ _) Ia) as [X|X]|destruct (proj1 (in_app_iff _ _ _) Ib) as [X|X]]; auto; apply in_app_iff in X; exact X. }
  destruct (one_domain_selection build sim minH maxH (d ++ e) H _ s' E') as (k1 & c1 & Ek & Hc' & Hk' & _).
  assert (c1 = c') as -> by congruence. assert (k1 = k') as -> by congruence. clear Ek.
  assert (Hcc : nth_error (d ++ e) (Z.to_nat k) = Some c) by (rewrite nth_error_app1; [exact Hc|apply nth_error_Some; congruence]).
  assert (Ge : ~ (Z.to_nat k' < Z.to_nat k)%nat).
  { intro X. assert (Hd : nth_error d (Z.to_nat k') = Some c').
    { rewrite nth_error_app1 in Hc'; [exact Hc'|]. assert (Z.to_nat k < length d)%nat by (apply nth_error_Some; congruence). lia. }
    destruct (one_domain_smallest build sim minH maxH d H k c s E Hs1 Hn1 M1 F1) as (_ & Least); [intros a Ha; apply D; exact Ha|].
    destruct (one_domain_smallest build sim minH maxH (d ++ e) H k' c' s' E' Hs Hn M F2) as (Ad & _); [intros a Ha; assert (a = c0) as -> by congruence; apply D; exact H0|].
    specialize (Least c' (nth_error_In _ _ Hd) Ad). pose proof (increasing_nth _ Hs _ _ _ _ X (sizes_nth _ _ _ Hc') (sizes_nth _ _ _ Hcc)). lia. }
  assert (Ei : Z.to_nat k' = Z.to_nat k).
  { destruct (Nat.lt_trichotomy (Z.to_nat k') (Z.to_nat k)) as [X|[X|X]]; [contradiction|exact X|].
    pose proof (increasing_nth _ Hs _ _ _ _ X (sizes_nth _ _ _ Hcc) (sizes_nth _ _ _ Hc')). lia. }
  assert (k' = k) as -> by lia. assert (c' = c) as -> by congruence. exists s'. exact E'.
Qed.
End Lists.

(** ** designs; the excess [sim] and the construction [build] of heat exchangers are arbitrary, those of Program.v among them *)
Section Designs.
Variable build : list (R * R) -> R -> res unit.
Variable sim : list (R * R) -> R -> res (xval R).
Variable sized : list (R * R) -> res R.
Variables minH maxH : R.
Notation design := (design build sim sized minH maxH).
(** the candidates are evaluated, more boreholes are better, and one borehole is no worse when deep *)
Definition orderly (d : list (list (R * R))) : Prop := evaluable build sim minH maxH d /\ more_is_better sim maxH d /\ deeper_helps sim minH maxH [(0, 0)].

(** C135: near-square fields on longer land: the same field *)
Theorem C135_near_square :
  forall gc gc' L L' B H k c s n' d', near_square_inputs gc L B -> near_square_inputs gc' L' B -> L <= L' ->
  number_of_boreholes L' B false = Ok n' -> square_and_near_square 1 n' B = Ok d' -> (n' <= 16384)%Z -> orderly d' ->
  design gc near_square H = Ok (Some (k, c), s) -> exists s', design gc' near_square H = Ok (Some (k, c), s').
Proof.
  intros gc gc' L L' B H k c s n' d' Hin Hin' HL En' Ed' Hn' (S & M & D) E.
  destruct (near_square_design_eq build sim sized minH maxH gc L B H Hin) as (n & d & En & Hn & Bn & Ed & Eq).
  destruct (near_square_design_eq build sim sized minH maxH gc' L' B H Hin') as (n1 & d1 & En1 & Hn1 & Bn1 & Ed1 & Eq1).
  assert (n1 = n') as -> by (apply Ok_inj; now rewrite <- En1). assert (d1 = d') as -> by (apply Ok_inj; now rewrite <- Ed1). rewrite Eq in E. rewrite Eq1.
  assert (Le : (n <= n')%Z). { destruct Hin as (_ & _ & _ & HB). assert (X : IZR (n - 1) * B < IZR n' * B) by lra. apply Rmult_lt_reg_r in X; [|exact HB]. apply lt_IZR in X. lia. }
  destruct (near_square_prefix B n n' d d' ltac:(lia) Ed Ed') as (e & ->).
  destruct (C07_square_domain 1 n' B ltac:(lia)) as (d2 & Ed2 & Ec & _ & Hs). assert (d2 = d ++ e) as -> by (apply Ok_inj; now rewrite <- Ed2).
  apply (longer_list build sim minH maxH d e H k c s E Hs); [|exact S|exact M|].
  - rewrite Ec. rewrite (zlen_flat_map_const _ _ 2) by (intros; reflexivity). rewrite zrange_zlen. lia.
  - intros c0 H0. destruct (C07_square_domain 1 n B ltac:(lia)) as (d3 & Ed3 & Ec3 & _). assert (d3 = d) as -> by (apply Ok_inj; now rewrite <- Ed3).
    rewrite Ec3, (zrange_app 1 2 (n + 1)) in H0 by lia. change (zrange 1 2) with [1%Z] in H0. cbn [flat_map app nth_error] in H0.
    assert (c0 = [(0, 0)]) as ->; [|exact D]. assert (X : grid_field B B 1 1 = [(0, 0)]); [|congruence]. apply grid_field_1.
Qed.
(** C135: rectangles when boreholes may stand closer: the same field *)
Theorem C135_minimum_spacing :
  forall gc gc' L W bmin bmin' bmax H k c s d', rectangle_inputs gc L W bmin bmax -> rectangle_inputs gc' L W bmin' bmax -> bmin' <= bmin ->
  rectangular L W bmin' bmax = Ok d' -> (zlen d' <= 32769)%Z -> orderly d' ->
  design gc rectangle_routine H = Ok (Some (k, c), s) -> exists s', design gc' rectangle_routine H = Ok (Some (k, c), s').
Proof.
  intros gc gc' L W bmin bmin' bmax H k c s d' Hin Hin' Hb Ed' Hn (S & M & D) E.
  destruct (rectangle_design_eq build sim sized minH maxH gc L W bmin bmax H Hin) as (d & Ed & Eq). destruct (rectangle_design_eq build sim sized minH maxH gc' L W bmin' bmax H Hin') as (d1 & Ed1 & Eq1).
  assert (d1 = d') as -> by (apply Ok_inj; now rewrite <- Ed1). rewrite Eq in E. rewrite Eq1.
  destruct Hin as (_ & _ & _ & _ & P1 & P2 & P3 & P4). destruct Hin' as (_ & _ & _ & _ & _ & _ & P3' & _).
  destruct (rectangular_prefix L W bmin bmin' bmax d d' P1 P2 (conj P3' Hb) P4 Ed Ed') as (e & ->).
  destruct (C10_rectangular_grows L W bmin' bmax (d ++ e) P1 P2 P3' P4 Ed') as (Hs & _).
  apply (longer_list build sim minH maxH d e H k c s E Hs Hn S M).
  intros c0 H0. destruct (C10_rectangular_grows L W bmin bmax d P1 P2 P3 P4 Ed) as (_ & [-> |(r & ->)]); [discriminate|]. cbn in H0. assert (c0 = [(0, 0)]) as -> by congruence. exact D.
Qed.
(** C135: rectangles on any other land and with any other spacing: the design there succeeds with at most the boreholes of any candidate that has more
    boreholes than the first design *)
Theorem C135_rectangle_partial :
  forall gc gc' L W bmin bmax L' W' bmin' bmax' H k c s d d' f, rectangle_inputs gc L W bmin bmax -> rectangle_inputs gc' L' W' bmin' bmax' ->
  rectangular L W bmin bmax = Ok d -> rectangular L' W' bmin' bmax' = Ok d' -> (zlen d <= 32769)%Z -> (zlen d' <= 32769)%Z -> orderly (d ++ d') ->
  design gc rectangle_routine H = Ok (Some (k, c), s) -> In f d' -> (length c < length f)%nat ->
  exists k' c' s', design gc' rectangle_routine H = Ok (Some (k', c'), s') /\ (length c' <= length f)%nat.
Proof.
  intros gc gc' L W bmin bmax L' W' bmin' bmax' H k c s d d' f Hin Hin' Ed Ed' Hn Hn' (S & M & D) E If Lf.
  destruct (rectangle_design_eq build sim sized minH maxH gc L W bmin bmax H Hin) as (d0 & Ed0 & Eq). destruct (rectangle_design_eq build sim sized minH maxH gc' L' W' bmin' bmax' H Hin') as (d1 & Ed1 & Eq1).
  assert (d0 = d) as -> by (apply Ok_inj; now rewrite <- Ed0). assert (d1 = d') as -> by (apply Ok_inj; now rewrite <- Ed1). rewrite Eq in E. rewrite Eq1.
  destruct Hin as (_ & _ & _ & _ & P1 & P2 & P3 & P4). destruct Hin' as (_ & _ & _ & _ & Q1 & Q2 & Q3 & Q4).
  destruct (C10_rectangular_grows L W bmin bmax d P1 P2 P3 P4 Ed) as (Hs & Hd). destruct (C10_rectangular_grows L' W' bmin' bmax' d' Q1 Q2 Q3 Q4 Ed') as (Hs' & Hd').
  apply (other_list build sim minH maxH d d' H k c s [(0, 0)] f E); auto.
  - destruct Hd as [-> |(r & ->)]; [|reflexivity]. destruct (built_first build sim minH maxH [] H _ E) as (x & X & _). discriminate X.
  - destruct Hd' as [-> |(r & ->)]; [destruct If|reflexivity].
  - intros a h Ha. apply S. apply in_app_iff. now left.
  - intros a h Ha. apply S. apply in_app_iff. now right.
Qed.
End Designs.

(** C135: what Program.v designs is such a design *)
Theorem C135_program : forall h_circular h_annulus r_conduction eff_u eff_c brentq solver interp field_response brentq_dialogue st m flow V_flow log_time, exists build sim sized,
  forall gc r H, program h_circular h_annulus r_conduction eff_u eff_c brentq solver interp field_response brentq_dialogue st m flow V_flow log_time gc r H =
  Design.design build sim sized (st_min_H st) (st_max_H st) gc r H.
Proof. intros. do 3 eexists. intros. reflexivity. Qed.

(** C135 fails for rectangles: with [by_count n], [n] boreholes of the maximum height are needed, wherever they are.  On 6 m by 6 m the candidates have 1, 2 and 4
    boreholes, on 12 m by 12 m 1, 2, 3, 6 and 9 *)
Theorem C135_rectangle_land_refuted : exists (n L L' bmin bmax : Q) k c s k' c' s', (0 < bmin < bmax /\ 0 < L < L')%Q /\
  design always (by_count n) to_60 20%Q 100%Q (constraints_of L L 1 bmin bmax 1) rectangle_routine 50%Q = Ok (Some (k, c), s) /\
  design always (by_count n) to_60 20%Q 100%Q (constraints_of L' L' 1 bmin bmax 1) rectangle_routine 50%Q = Ok (Some (k', c'), s') /\ (zlen c < zlen c')%Z.
Proof.
  exists (7 # 2)%Q, 6%Q, 12%Q, 5%Q, 6%Q.
  destruct (picked (fun _ c => zlen c =? 4)%Z (design always (by_count (7 # 2)) to_60 20%Q 100%Q (constraints_of 6 6 1 5 6 1) rectangle_routine 50%Q)) as (k & c & s & E & X); [vm_compute; reflexivity|].
  destruct (picked (fun _ c => zlen c =? 6)%Z (design always (by_count (7 # 2)) to_60 20%Q 100%Q (constraints_of 12 12 1 5 6 1) rectangle_routine 50%Q)) as (k' & c' & s' & E' & X'); [vm_compute; reflexivity|].
  exists k, c, s, k', c', s'. split; [repeat split; reflexivity|]. split; [exact E|]. split; [exact E'|]. apply Z.eqb_eq in X, X'. lia.
Qed.
(** nor may the boreholes stand farther apart: with 6 m at most the candidates on 12 m by 12 m are those above, with 12 m at most they have 1, 2, 4 and 9 boreholes *)
Theorem C135_maximum_spacing_refuted : exists (n L bmin bmax bmax' : Q) k c s k' c' s', (0 < bmin < bmax /\ bmax < bmax' /\ 0 < L)%Q /\
  design always (by_count n) to_60 20%Q 100%Q (constraints_of L L 1 bmin bmax 1) rectangle_routine 50%Q = Ok (Some (k, c), s) /\
  design always (by_count n) to_60 20%Q 100%Q (constraints_of L L 1 bmin bmax' 1) rectangle_routine 50%Q = Ok (Some (k', c'), s') /\ (zlen c < zlen c')%Z.
Proof.
  exists (9 # 2)%Q, 12%Q, 5%Q, 6%Q, 12%Q.
  destruct (picked (fun _ c => zlen c =? 6)%Z (design always (by_count (9 # 2)) to_60 20%Q 100%Q (constraints_of 12 12 1 5 6 1) rectangle_routine 50%Q)) as (k & c & s & E & X); [vm_compute; reflexivity|].
  destruct (picked (fun _ c => zlen c =? 9)%Z (design always (by_count (9 # 2)) to_60 20%Q 100%Q (constraints_of 12 12 1 5 12 1) rectangle_routine 50%Q)) as (k' & c' & s' & E' & X'); [vm_compute; reflexivity|].
  exists k, c, s, k', c', s'. split; [repeat split; reflexivity|]. split; [exact E|]. split; [exact E'|]. apply Z.eqb_eq in X, X'. lia.
Qed.

(** a case: 6 1/2 boreholes of 100 m are needed *)
Definition needed (f : list (R * R)) (h : R) : res (xval R) := Ok (Fin (13 / 2 - IZR (zlen f) * h / 100)).
Definition builds (f : list (R * R)) (h : R) : res unit := Ok tt.
Definition plot (L B bmin bmax : R) : @constraints R := {| gc_length := Some L; gc_width := Some L; gc_B := Some B; gc_B_min := Some bmin; gc_B_max_x := Some bmax; gc_B_max_y := None |}.
Lemma needed_orderly d : orderly builds needed 20 100 d.
Proof.
  split; [|split].
  - intros f h Hf Hh. split; [exists tt; reflexivity|]. eexists. split; [reflexivity|]. intro X. destruct Hh as [-> | ->].
    + assert (Y : IZR (2 * zlen f) = IZR 13) by (rewrite mult_IZR; lra). apply eq_IZR in Y. lia.
    + assert (Y : IZR (2 * zlen f) = IZR 65) by (rewrite mult_IZR; lra). apply eq_IZR in Y. lia.
  - intros f f' q q' _ _ Hl E E'. unfold needed in E, E'. assert (q = 13 / 2 - IZR (zlen f) * 100 / 100) as -> by congruence. assert (q' = 13 / 2 - IZR (zlen f') * 100 / 100) as -> by congruence.
    rewrite !val_R. assert (IZR (zlen f) < IZR (zlen f')) by (apply IZR_lt; unfold zlen; lia). lra.
  - intros q q' E E'. unfold needed in E, E'. cbn in E, E'. rewrite !val_R. assert (q = 13 / 2 - 1 * 20 / 100) as -> by congruence. intro. lra.
Qed.
(** near-square fields 5 m apart on 10 m and on 20 m of land: 1, 2, 4, 6, 9, 12 boreholes and more *)
Example C135_example : exists k c s s', design builds needed (fun _ => Ok 60) 20 100 (plot 10 5 1 2) near_square 50 = Ok (Some (k, c), s) /\
  design builds needed (fun _ => Ok 60) 20 100 (plot 20 5 1 2) near_square 50 = Ok (Some (k, c), s') /\ length c = 9%nat.
Proof.
  assert (I : near_square_inputs (plot 10 5 1 2) 10 5) by (repeat apply conj; cbn; reflexivity || lra).
  assert (I' : near_square_inputs (plot 20 5 1 2) 20 5) by (repeat apply conj; cbn; reflexivity || lra).
  destruct (near_square_design_eq builds needed (fun _ => Ok 60) 20 100 _ _ _ 50 I) as (n & d & En & Hn & Bn & Ed & Eq).
  destruct (near_square_design_eq builds needed (fun _ => Ok 60) 20 100 _ _ _ 50 I') as (n' & d' & En' & Hn' & Bn' & Ed' & _).
  assert (n = 3%Z) as ->. { assert (X : IZR (n - 1) < IZR 3) by lra. assert (Y : IZR 2 < IZR n) by lra. apply lt_IZR in X, Y. lia. }
  assert (n' = 5%Z) as ->. { assert (X : IZR (n' - 1) < IZR 5) by lra. assert (Y : IZR 4 < IZR n') by lra. apply lt_IZR in X, Y. lia. }
  destruct (C07_square_domain 1 3 5 ltac:(lia)) as (d0 & Ed0 & Ec & Es & Hs). assert (d0 = d) as -> by (apply Ok_inj; now rewrite <- Ed0).
  change (sizes d = [1; 2; 4; 6; 9; 12]%Z) in Es.
  destruct (needed_orderly d) as (S & M & D).
  assert (Nth : forall i z, nth_error (sizes d) i = Some z -> exists f, nth_error d i = Some f /\ zlen f = z).
  { intros i z Hz. unfold sizes in Hz. rewrite nth_error_map in Hz. destruct (nth_error d i) as [f|]; [|discriminate]. exists f. split; [reflexivity|]. cbn in Hz. unfold zlen. congruence. }
  assert (Ln : length d = 6%nat). { assert (X : length (sizes d) = 6%nat) by (rewrite Es; reflexivity). unfold sizes in X. now rewrite map_length in X. }
  destruct (Nth 0%nat 1%Z ltac:(rewrite Es; reflexivity)) as (c0 & H0 & L0). destruct (Nth 4%nat 9%Z ltac:(rewrite Es; reflexivity)) as (c9 & H9 & L9).
  destruct (one_domain_outcome builds needed 20 100 d 50 tt c0 H0 eq_refl (evaluable_well_behaved _ _ _ _ d S)) as (cR & tl & tu & tm & ER & El & Eu & Em & Out).
  rewrite Ln in ER. destruct (Nth 5%nat 12%Z ltac:(rewrite Es; reflexivity)) as (c12 & H12 & L12). assert (cR = c12) as -> by (change (6 - 1)%nat with 5%nat in ER; congruence).
  unfold needed in Eu, Em. rewrite L0 in Eu. rewrite L12 in Em. apply Ok_inj in Eu, Em.
  destruct Out as [((k & c & s & E) & _)|(_ & _ & S2)].
  2:{ exfalso. destruct S2 as [(_ & (y & Ey & Py))|((y & Ey & Py) & _)]; rewrite val_R in Py; [rewrite <- Em in Ey|rewrite <- Eu in Ey]; injection Ey as Ey; lra. }
  exists k, c, s. rewrite Eq, E. destruct (C135_near_square builds needed (fun _ => Ok 60) 20 100 _ _ 10 20 5 50 k c s 5 d' I I' ltac:(lra) En' Ed' ltac:(lia) (needed_orderly d')) as (s' & E'); [rewrite Eq; exact E|].
  exists s'. split; [reflexivity|]. split; [exact E'|].
  destruct (one_domain_selection builds needed 20 100 d 50 _ s E) as (k1 & c1 & Ek & Hc & _). assert (c1 = c) as -> by congruence.
  destruct (one_domain_smallest builds needed 20 100 d 50 k c s E Hs ltac:(unfold zlen; lia) M) as ((q & Eq2 & Hq) & Least).
  { intros f _. eexists. reflexivity. } { intros f Hf. assert (f = c0) as -> by congruence. assert (X : c0 = [(0, 0)]); [|rewrite X; exact D]. rewrite Ec in H0. change (zrange 1 (3 + 1)) with [1; 2; 3]%Z in H0. cbn [flat_map app nth_error] in H0. assert (Y : grid_field 5 5 1 1 = [(0, 0)]); [|congruence]. apply grid_field_1. }
  rewrite val_R in Hq. unfold needed in Eq2. assert (q = 13 / 2 - IZR (zlen c) * 100 / 100) as -> by congruence.
  assert (Lo : (6 < zlen c)%Z). { apply lt_IZR. lra. }
  assert (Up : (length c <= length c9)%nat). { apply Least; [exact (nth_error_In _ _ H9)|]. eexists. split; [reflexivity|]. rewrite val_R, L9. lra. }
  assert (Is : In (zlen c) (sizes d)) by (unfold sizes, zlen; apply in_map_iff; exists c; split; [reflexivity|exact (nth_error_In _ _ Hc)]).
  rewrite Es in Is. unfold zlen in *. cbn [In] in Is. lia.
Qed.
(** rectangles on 7 m by 5 m at most 3 m apart: 1, 2, 3, 4, 8, 12 boreholes if 2 m must be kept, more if 1 m *)
Example C135_minimum_spacing_example : key_and_count (design always (by_count (13 # 2)) to_60 20%Q 100%Q (constraints_of 7 5 5 2 3 3) rectangle_routine 50%Q) = Some (4, 8)%Z /\
  key_and_count (design always (by_count (13 # 2)) to_60 20%Q 100%Q (constraints_of 7 5 5 1 3 3) rectangle_routine 50%Q) = Some (4, 8)%Z /\
  design always (by_count (25 # 2)) to_60 20%Q 100%Q (constraints_of 7 5 5 2 3 3) rectangle_routine 50%Q = Err ValueError /\
  key_and_count (design always (by_count (25 # 2)) to_60 20%Q 100%Q (constraints_of 7 5 5 1 3 3) rectangle_routine 50%Q) = Some (6, 24)%Z.
Proof. repeat apply conj; vm_compute; reflexivity. Qed.

Print Assumptions C135_near_square.
Print Assumptions C135_minimum_spacing.
Print Assumptions C135_rectangle_partial.
Print Assumptions C135_program.
Print Assumptions C135_rectangle_land_refuted.
Print Assumptions C135_maximum_spacing_refuted.
