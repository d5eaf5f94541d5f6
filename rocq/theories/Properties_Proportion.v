(** Property C136: loads and temperature differences multiplied by the same number, for any pygfunction, equation solver and interpolant, and any root finder that asks for the
    same points when the values it is told are all multiplied *)
From Coq Require Import ZArith List Bool Reals QArith Lra Lia.
From Verif Require Import LoadsProofs LoadsSim LoadsHybrid Properties_Loads GheProofs GFunProofs Properties_GFun RadialProofs RadialGrid Properties_Radial EquivSpec EquivProofs Properties_Equiv.
From Verif Require Import Base Num BaseLemmas Order Spec Utilities UtilitiesProofs Loads LoadsSpec Ghe GheSpec GFun GFunSpec Radial RadialSpec Bhe Equiv Export Domains DomainsProofs
  Search SearchSpec SearchTheorems Design System SystemSpec SystemProofs Program ProgramProofs
  Properties_Domains Properties_Ghe Properties_Search DesignProofs Properties_Design Properties_Export Properties_System Properties_Program InvarianceSpec InvarianceProofs Properties_Limits
  ProportionSpec ProportionProofs.
Import ListNotations.
Open Scope R_scope.

Lemma rmap_let {A B} (f : A -> B) r : (let! x := r in Ok (f x)) = rmap f r. Proof. now destruct r. Qed.

(** ** the search looks only at the signs and the order of the excesses *)
Theorem C136_search :
  forall (build : list (R * R) -> R -> res unit) sim sized minH maxH gc r H a, 0 < a ->
  design build (fun c h => let! x := sim c h in Ok (excess_times a x)) sized minH maxH gc r H =
  match design build sim sized minH maxH gc r H with
  | Ok (selected, s) => Ok (selected, search_times a s)
  | Err e => Err e
  end.
Proof.
  intros build sim sized minH maxH gc r H a Ha.
  rewrite (design_times a Ha build sim sized _ minH maxH (fun c h => rmap_let _ (sim c h))). destruct (design _ sim _ _ _ _ _ _) as [(selected, s)|]; reflexivity.
Qed.

Section World.
Variable h_circular : R -> R -> R -> R -> R -> R -> R -> R.
Variable h_annulus : R -> R -> R -> R -> R -> R -> R -> R -> R * R.
Variable r_conduction : R -> R -> R -> R.
Variable eff_u : R -> pg_u -> R -> R -> R.
Variable eff_c : R -> pg_c -> R -> R -> R.
Variable brentq : (R -> res R) -> R -> R -> list R * res R.
Variable solver : list R -> list R -> list R -> list R -> list R.
Variable interp : ikind -> list (R * R) -> R -> R.
Variable field_response : R -> list (R * R) -> R -> R -> R -> res (list R).
Variable brentq_dialogue : R -> R -> dialogue.
Variable st : settings.
Variable m : method.
Variable flow : flow_kind.
Variable V_flow : R.
Variable log_time : list R.
Notation program st := (program h_circular h_annulus r_conduction eff_u eff_c brentq solver interp field_response brentq_dialogue st m flow V_flow log_time).
Notation whole st := (whole h_circular h_annulus r_conduction eff_u eff_c brentq solver interp field_response brentq_dialogue st m flow V_flow log_time).
Notation excess_of st := (excess_of h_circular h_annulus r_conduction eff_u eff_c brentq solver interp field_response st m flow V_flow log_time).
Notation keeps_strictly st := (keeps_strictly h_circular h_annulus r_conduction eff_u eff_c brentq solver interp field_response st m flow V_flow log_time).
Notation minH := (st_min_H st).
Notation maxH := (st_max_H st).
Variable a : R.
Hypothesis Ha : 0 < a.
(** no month for which the tolerance of 0.1 of the peak analysis is met by the loads and not by [a] times them, or the other way round *)
Hypothesis clear : no_close_call a (rejection (st_loads st)) /\ no_close_call a (extraction (st_loads st)).

(** every field's excess is [a] times as large *)
Theorem C136_excess : forall c h, excess_of (proportional a st) c h = let! x := excess_of st c h in Ok (excess_times a x).
Proof. intros c h. destruct clear. rewrite rmap_let. now apply excess_of_times. Qed.

(** the same field is selected, after the same simulations *)
Theorem C136_same_search : forall gc r H, r <> bi_zoned \/ (forall lo hi, same_questions a (brentq_dialogue lo hi) (brentq_dialogue lo hi)) ->
  program (proportional a st) gc r H = match program st gc r H with Ok (selected, s) => Ok (selected, search_times a s) | Err e => Err e end.
Proof.
  intros gc r H Hq. destruct clear. rewrite program_times by (assumption || exact Hq). now destruct (program st gc r H) as [(selected, s)|].
Qed.

(** and the same heat exchanger is delivered, at the same height, with proportional temperatures *)
Theorem C136_same_design : forall gc r H sizing_method, (forall lo hi, same_questions a (brentq_dialogue lo hi) (brentq_dialogue lo hi)) ->
  whole (proportional a st) gc r H sizing_method =
  match whole st gc r H sizing_method with Ok (selected, s) => Ok (selected, proportional_ghe a (st_ugt st) s) | Err e => Err e end.
Proof.
  intros gc r H sm Hq. destruct clear. rewrite whole_times by (assumption || exact Hq). now destruct (whole st gc r H sm) as [(selected, s)|].
Qed.

(** ** loads [a] times as large, with limits [hi] and [lo] that are proportionally no tighter *)
Variables hi lo : R.
Hypothesis wide : lo <= st_ugt st + a * (st_min_EFT st - st_ugt st) /\ st_ugt st + a * (st_max_EFT st - st_ugt st) <= hi.
Notation eased := (with_limits hi lo (with_loads_times a st)).
Definition answered (d : list (list (R * R))) : Prop :=
  forall f h, In f d -> h = maxH \/ h = minH -> exists x, excess_of eased f h = Ok (Fin x) /\ x <> 0.

Lemma deeper_helps_times f : deeper_helps (excess_of st) minH maxH f -> deeper_helps (excess_of (proportional a st)) minH maxH f.
Proof.
  intros D q q' E E' Hq. rewrite C136_excess in E, E'. destruct (excess_of st f minH) as [[x| |]|] eqn:X; try discriminate. destruct (excess_of st f maxH) as [[x'| |]|] eqn:X'; try discriminate.
  cbn [bind excess_times] in E, E'. assert (q = a * x) as -> by congruence. assert (q' = a * x') as -> by congruence. specialize (D x x' X X'). rewrite !val_R in *.
  assert (x < 0) by (apply Rmult_lt_reg_l with a; lra). specialize (D H). pose proof (Rmult_le_compat_l a x' 0 ltac:(lra) D). lra.
Qed.

Theorem C136_eased_rectangle_partial :
  forall gc L W bmin bmax H k c s d, rectangle_inputs gc L W bmin bmax -> rectangular L W bmin bmax = Ok d -> (zlen d <= 32769)%Z ->
  answered d -> more_is_better (excess_of eased) maxH d ->
  deeper_helps (excess_of st) minH maxH [(0, 0)] -> deeper_helps (excess_of eased) minH maxH [(0, 0)] ->
  program st gc rectangle_routine H = Ok (Some (k, c), s) ->
  (exists k' c' s', program eased gc rectangle_routine H = Ok (Some (k', c'), s') /\ (length c' <= length c)%nat) \/
  (program eased gc rectangle_routine H = Err ValueError /\ keeps_strictly eased [(0, 0)] minH /\ keeps_strictly eased [(0, 0)] maxH).
Proof.
  intros gc L W bmin bmax H k c s d Hin Ed Hn An Hb Hd Hd' E.
  apply (C125_rectangle_partial h_circular h_annulus r_conduction eff_u eff_c brentq solver interp field_response brentq_dialogue (proportional a st) m flow V_flow log_time hi lo wide
    gc L W bmin bmax H k c (search_times a s) d Hin Ed Hn An Hb (deeper_helps_times _ Hd) Hd').
  rewrite C136_same_search by (left; discriminate). now rewrite E.
Qed.
Theorem C136_eased_near_square_partial :
  forall gc L B H k c s n d, near_square_inputs gc L B -> number_of_boreholes L B false = Ok n -> square_and_near_square 1 n B = Ok d -> (n <= 16384)%Z ->
  answered d -> more_is_better (excess_of eased) maxH d ->
  deeper_helps (excess_of st) minH maxH [(0, 0)] -> deeper_helps (excess_of eased) minH maxH [(0, 0)] ->
  program st gc near_square H = Ok (Some (k, c), s) ->
  (exists k' c' s', program eased gc near_square H = Ok (Some (k', c'), s') /\ (length c' <= length c)%nat) \/
  (program eased gc near_square H = Err ValueError /\ keeps_strictly eased [(0, 0)] minH /\ keeps_strictly eased [(0, 0)] maxH).
Proof.
  intros gc L B H k c s n d Hin En Ed Hn An Hb Hd Hd' E.
  apply (C125_near_square_partial h_circular h_annulus r_conduction eff_u eff_c brentq solver interp field_response brentq_dialogue (proportional a st) m flow V_flow log_time hi lo wide
    gc L B H k c (search_times a s) n d Hin En Ed Hn An Hb (deeper_helps_times _ Hd) Hd').
  rewrite C136_same_search by (left; discriminate). now rewrite E.
Qed.
End World.

(** ** the plant of C95 to C97 *)
Lemma halving_alike a k : 0 < a -> forall lo up y, same_questions a (halving k lo up y) (halving k lo up (a * y)).
Proof.
  intro Ha. induction k as [|k IH]; intros lo up y; cbn [halving]; constructor; [intro z; constructor|]. intro z.
  assert (S : (a * z) * (a * y) = (a * a) * (z * y)) by ring. assert (P : 0 < a * a) by (apply Rmult_lt_0_compat; exact Ha).
  destruct (Req_EM_T z 0) as [Z|Z], (Req_EM_T (a * z) 0) as [Z'|Z'].
  - constructor.
  - exfalso. apply Z'. rewrite Z. ring.
  - exfalso. apply Rmult_integral in Z'. lra.
  - rewrite S. destruct (Rlt_dec (z * y) 0) as [N|N], (Rlt_dec (a * a * (z * y)) 0) as [N'|N']; [apply IH| | |apply IH]; exfalso.
    + apply N'. rewrite <- (Rmult_0_r (a * a)). apply Rmult_lt_compat_l; assumption.
    + apply N. apply Rmult_lt_reg_l with (a * a); lra.
Qed.
Lemma bisection_alike a tol lo hi : 0 < a -> same_questions a (bisection tol lo hi) (bisection tol lo hi).
Proof. intro Ha. unfold bisection. destruct (Rle_dec lo hi); constructor. intro y. now apply halving_alike. Qed.
Lemma constant_no_close_call a c l : (forall x, In x l -> x = c) -> no_close_call a l.
Proof.
  intros C i start w p y _ _ (Lw & Tw) _ Ip (Iy & _). left.
  assert (Wl : forall x, In x w -> In x l).
  { intros x Hx. apply In_nth_error in Hx. destruct Hx as (j & Hj). assert (j < 48)%nat by (rewrite <- Lw; apply nth_error_Some; congruence).
    specialize (Tw (Z.of_nat j) ltac:(lia)). rewrite Nat2Z.id, Hj in Tw. symmetry in Tw. exact (nth_error_In _ _ Tw). }
  rewrite (C y), (C p); [reflexivity| |].
  - apply Wl, Ip.
  - apply Wl, Iy.
Qed.
Lemma plant_clear a hi lo : let st := plant hi lo high_height low_height in no_close_call a (rejection (st_loads st)) /\ no_close_call a (extraction (st_loads st)).
Proof.
  cbn zeta. split; [apply (constant_no_close_call a 0)|apply (constant_no_close_call a 1)]; intros x Hx; apply in_map_iff in Hx; destruct Hx as (y & <- & Hy);
    apply repeat_spec in Hy; subst y; destruct (Rle_dec 0 1000); lra.
Qed.

(** it gets the same two boreholes at the same height when its loads and limits are tripled, and at most two when its loads are halved and its limits
    are a little wider than half as far from the ground's temperature *)
Example C136_example : exists V hi lo k c s1 e k2 c2 s2, let st := plant hi lo high_height low_height in
  (no_close_call 3 (rejection (st_loads st)) /\ no_close_call 3 (extraction (st_loads st))) /\ (forall lo hi, same_questions 3 (bisection (1 / 1000) lo hi) (bisection (1 / 1000) lo hi)) /\
  st_loads (proportional 3 st) = map (Rmult 3) (st_loads st) /\ st_max_EFT (proportional 3 st) = 18 + 3 * (hi - 18) /\
  plant_whole st V garden rectangle_routine high_height m_hourly = Ok (Some (k, c), s1) /\ length c = 2%nat /\ gh_H s1 = high_height /\
  plant_whole (proportional 3 st) V garden rectangle_routine high_height m_hourly = Ok (Some (k, c), proportional_ghe 3 18 s1) /\
  0 < e /\ plant_program (with_limits (18 + / 2 * (hi + e - 18)) (18 + / 2 * (lo - e - 18)) (with_loads_times (/ 2) st)) V garden rectangle_routine high_height = Ok (Some (k2, c2), s2) /\
  (length c2 <= 2)%nat.
Proof.
  destruct plant_limits as (V & hi & lo & L). destruct (plant_designed V hi lo L) as (k & c & s & s1 & _ & Ep & Lc & E & H & _).
  destruct (plant_gets_two_again V hi lo L k c s Ep Lc) as (e & He & k2 & c2 & s2 & E2 & Lc2).
  exists V, hi, lo, k, c, s1, e, k2, c2, (search_times (/ 2) s2). cbv zeta.
  split; [apply plant_clear|]. split; [intros; apply bisection_alike; lra|]. split; [reflexivity|]. split; [reflexivity|]. split; [exact E|]. split; [exact Lc|]. split; [exact H|].
  split. { rewrite C136_same_design; [rewrite E; reflexivity|lra|apply plant_clear|intros; apply bisection_alike; lra]. }
  split; [exact He|]. split; [|exact Lc2].
  change (with_limits (18 + / 2 * (hi + e - 18)) (18 + / 2 * (lo - e - 18)) (with_loads_times (/ 2) (plant hi lo high_height low_height)))
    with (proportional (/ 2) (with_limits (hi + e) (lo - e) (plant hi lo high_height low_height))).
  rewrite C136_same_search; [rewrite E2; reflexivity|lra|apply (plant_clear (/ 2) hi lo)|left; discriminate].
Qed.

(** false in general, as for C125: halved loads with limits proportionally wider can have no design at all, because every candidate keeps the limits at either height *)
Theorem C136_eased_refuted :
  exists V hi lo k c s hi' lo' d, let st := plant hi lo high_height low_height in let eased := with_limits hi' lo' (with_loads_times (/ 2) st) in
  (no_close_call (/ 2) (rejection (st_loads st)) /\ no_close_call (/ 2) (extraction (st_loads st))) /\
  lo' <= st_ugt st + / 2 * (st_min_EFT st - st_ugt st) /\ st_ugt st + / 2 * (st_max_EFT st - st_ugt st) <= hi' /\
  plant_program st V garden rectangle_routine high_height = Ok (Some (k, c), s) /\ length c = 2%nat /\
  plant_program eased V garden rectangle_routine high_height = Err ValueError /\ rectangular 6 6 5 6 = Ok d /\ d <> [].
Proof.
  destruct plant_limits as (V & hi & lo & L). destruct (plant_designed V hi lo L) as (k & c & s & s1 & _ & E & Lc & _).
  destruct (plant_fails V hi lo L) as (e & d & He & F & Ed & Hd & _). exists V, hi, lo, k, c, s, (18 + / 2 * (hi + e - 18)), (18 + / 2 * (lo - e - 18)), d. cbn zeta.
  split; [apply plant_clear|]. split; [cbn; lra|]. split; [cbn; lra|]. split; [exact E|]. split; [exact Lc|]. split; [|split; assumption].
  change (with_limits (18 + / 2 * (hi + e - 18)) (18 + / 2 * (lo - e - 18)) (with_loads_times (/ 2) (plant hi lo high_height low_height)))
    with (proportional (/ 2) (with_limits (hi + e) (lo - e) (plant hi lo high_height low_height))).
  rewrite C136_same_search; [rewrite F; reflexivity|lra|apply (plant_clear (/ 2) hi lo)|left; discriminate].
Qed.

(** the condition on close calls is needed: a year, in kW, with a load of 1 at noon of 31 January and one of 1.05 the next noon.  The peak of January counts as 1, but as
    10.5 and not 10 when all loads are multiplied by 10, and so its duration is shorter *)
Definition close_year : list Q :=
  (repeat 0 (Z.to_nat 732) ++ [1] ++ repeat 0 (Z.to_nat 23) ++ [105 # 100] ++ repeat 0 (Z.to_nat 239) ++ [5] ++ repeat 0 (Z.to_nat 7763))%Q.
Theorem C136_close_call_refuted :
  exists (gt : Q -> res Q) (k Rb : Q) (l : list Q) ld ld' t t', zlen l = 8760%Z /\
  make_loads gt k Rb 2019 l = Ok ld /\ make_loads gt k Rb 2019 (map (Qmult 10) l) = Ok ld' /\
  nth_error (ld_duration ld) 1 = Some t /\ nth_error (ld_duration ld') 1 = Some t' /\ (22 # 10 < t)%Q /\ (t' < 191 # 100)%Q.
Proof.
  exists (fun t => Ok (t * (1 # 10))%Q), 1%Q, (1 # 10), close_year.
  assert (X : (match make_loads (fun t => Ok (t * (1 # 10))%Q) 1%Q (1 # 10) 2019 close_year, make_loads (fun t => Ok (t * (1 # 10))%Q) 1%Q (1 # 10) 2019 (map (Qmult 10) close_year) with
               | Ok ld, Ok ld' => match nth_error (ld_duration ld) 1, nth_error (ld_duration ld') 1 with
                                  | Some t, Some t' => Qle_bool t (22 # 10) || Qle_bool (191 # 100) t' | _, _ => true end
               | _, _ => true end) = false) by (vm_compute; reflexivity).
  destruct (make_loads _ _ _ _ close_year) as [ld|]; [|discriminate]. destruct (make_loads _ _ _ _ (map _ _)) as [ld'|]; [|discriminate].
  destruct (nth_error (ld_duration ld) 1) as [t|] eqn:E1; [|discriminate]. destruct (nth_error (ld_duration ld') 1) as [t'|] eqn:E2; [|discriminate].
  apply orb_false_iff in X. destruct X as (X1 & X2). exists ld, ld', t, t'. split; [vm_compute; reflexivity|]. do 2 (split; [reflexivity|]). do 2 (split; [assumption|]).
  split; apply Qnot_le_lt; intro X; apply Qle_bool_iff in X; congruence.
Qed.

Print Assumptions C136_search.
Print Assumptions C136_excess.
Print Assumptions C136_same_search.
Print Assumptions C136_same_design.
Print Assumptions C136_eased_rectangle_partial.
Print Assumptions C136_eased_near_square_partial.
Print Assumptions C136_eased_refuted.
Print Assumptions C136_close_call_refuted.
