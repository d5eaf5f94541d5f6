(** Properties C119-C121: several designs in one script, which may share a Borehole object, for any pygfunction, root finder, equation solver
    and interpolant (the section variables) *)
From Coq Require Import ZArith List Bool Reals Lra Lia.
From Verif Require Import LoadsProofs LoadsSim LoadsHybrid Properties_Loads GheProofs GFunProofs Properties_GFun RadialProofs RadialGrid Properties_Radial EquivSpec EquivProofs Properties_Equiv.
From Verif Require Import Base Num BaseLemmas Order Spec Utilities Loads LoadsSpec Ghe GheSpec GFun GFunSpec Radial RadialSpec Bhe Equiv Export Domains
  Search SearchSpec SearchProofs SearchTheorems Design System SystemSpec SystemProofs Program ProgramProofs
  Properties_Domains Properties_Ghe Properties_Search DesignProofs Properties_Design Properties_Export Properties_System Properties_Program Session SessionProofs.
Import ListNotations.
Open Scope R_scope.

Section Session.
Variable h_circular : R -> R -> R -> R -> R -> R -> R -> R.
Variable h_annulus : R -> R -> R -> R -> R -> R -> R -> R -> R * R.
Variable r_conduction : R -> R -> R -> R.
Variable eff_u : R -> pg_u -> R -> R -> R.
Variable eff_c : R -> pg_c -> R -> R -> R.
Variable brentq : (R -> res R) -> R -> R -> list R * res R.
Variable solver : list R -> list R -> list R -> list R -> list R.
Variable interp : ikind -> list (R * R) -> R -> R.
Variable field_response : R -> list (R * R) -> R -> R -> R -> res (list R).
Variable brentq_dialogue : R -> R -> dialogue.
Variable log_time : list R.
Variable interrupted : design_args -> R -> R.
Notation find := (find h_circular h_annulus r_conduction eff_u eff_c brentq solver interp field_response brentq_dialogue log_time).
Notation execute := (execute h_circular h_annulus r_conduction eff_u eff_c brentq solver interp field_response brentq_dialogue log_time interrupted).
Notation run := (run h_circular h_annulus r_conduction eff_u eff_c brentq solver interp field_response brentq_dialogue log_time interrupted).
Notation can_build d := (can_build h_circular h_annulus r_conduction eff_u eff_c brentq solver field_response (ds_settings d) (ds_flow d) (ds_V_flow d) log_time).
Notation program d := (program h_circular h_annulus r_conduction eff_u eff_c brentq solver interp field_response brentq_dialogue
  (ds_settings d) (ds_method d) (ds_flow d) (ds_V_flow d) log_time (ds_constraints d) (ds_routine d)).
Notation left_ghe d := (left_ghe h_circular h_annulus r_conduction eff_u eff_c brentq solver interp field_response brentq_dialogue
  (ds_settings d) (ds_flow d) (ds_V_flow d) log_time (ds_routine d)).

(** the borehole object a statement works on *)
Definition works_on (w : world) (c : statement) : option nat :=
  match c with
  | FindDesign a _ => Some a
  | ComputeGFunctions k | SizeGhe k _ | SimulateGhe k _ => option_map xc_borehole (nth_error (w_exchangers w) k)
  end.
(** no statement of the script works on borehole object a *)
Fixpoint avoids (a : nat) (cs : list statement) (w : world) : Prop :=
  match cs with
  | [] => True
  | c :: cs => works_on w c <> Some a /\ avoids a cs (fst (execute c w))
  end.

Lemma on_ghe_other j f w k e : nth_error (w_exchangers w) k = Some e -> option_map xc_borehole (nth_error (w_exchangers w) j) <> Some (xc_borehole e) ->
  nth_error (w_exchangers (fst (on_ghe j f w))) k = Some e /\ w_height (fst (on_ghe j f w)) (xc_borehole e) = w_height w (xc_borehole e).
Proof.
  intros Hk Hj. unfold on_ghe. destruct (nth_error (w_exchangers w) j) as [e'|] eqn:Ej; [|split; [exact Hk|reflexivity]]. cbn [option_map] in Hj.
  destruct (f _ _) as (s, r). cbn [fst w_exchangers w_height]. rewrite assign_other by congruence. split; [|reflexivity].
  rewrite replace_other; [exact Hk|]. intros ->. congruence.
Qed.
Lemma execute_other c w k e : nth_error (w_exchangers w) k = Some e -> works_on w c <> Some (xc_borehole e) ->
  nth_error (w_exchangers (fst (execute c w))) k = Some e /\ w_height (fst (execute c w)) (xc_borehole e) = w_height w (xc_borehole e).
Proof.
  intros Hk Hc. destruct c as [a d|j|j m|j m]; cbn [works_on] in Hc; try (apply on_ghe_other; assumption).
  cbn [Session.execute]. assert (Ha : xc_borehole e <> a) by congruence. destruct (find d (w_height w a)) as [(f, s)|er]; cbn [fst w_exchangers w_height].
  - rewrite nth_error_app1 by (apply nth_error_Some; congruence). rewrite assign_other by exact Ha. auto.
  - rewrite assign_other by exact Ha. auto.
Qed.
(** C119: work on other borehole objects leaves a finished exchanger as it is, with its height and its temperatures *)
Theorem C119_separate_boreholes :
  forall cs w k e, nth_error (w_exchangers w) k = Some e -> avoids (xc_borehole e) cs w ->
  view (run cs w) k = view w k.
Proof.
  intros cs w k e Hk Ha. assert (X : nth_error (w_exchangers (run cs w)) k = Some e /\ w_height (run cs w) (xc_borehole e) = w_height w (xc_borehole e)).
  { revert w Hk Ha. induction cs as [|c cs IH]; intros w Hk Ha; [auto|]. destruct Ha as (A1 & A2). destruct (execute_other c w k e Hk A1) as (E1 & E2).
    cbn [Session.run]. destruct (IH _ E1 A2) as (I1 & I2). split; [exact I1|]. now rewrite I2. }
  unfold view. destruct X as (-> & X). rewrite Hk. cbn [option_map]. unfold seen. now rewrite X.
Qed.
(** in particular: any number of later designs, each with a borehole object of its own, and any work on the exchangers they create *)
Definition on_later (n a : nat) (c : statement) : Prop :=
  match c with
  | FindDesign b _ => b <> a
  | ComputeGFunctions k | SizeGhe k _ | SimulateGhe k _ => (n <= k)%nat
  end.
Theorem C119_later_designs :
  forall cs w k e, nth_error (w_exchangers w) k = Some e -> (forall c, In c cs -> on_later (length (w_exchangers w)) (xc_borehole e) c) ->
  view (run cs w) k = view w k.
Proof.
  intros cs w k e Hk Hc. apply C119_separate_boreholes with e; [exact Hk|]. set (a := xc_borehole e) in *. set (n := length (w_exchangers w)) in *.
  assert (I : (n <= length (w_exchangers w))%nat /\ forall j e', (n <= j)%nat -> nth_error (w_exchangers w) j = Some e' -> xc_borehole e' <> a).
  { split; [lia|]. intros j e' Hj E. assert (nth_error (w_exchangers w) j = None) by (apply nth_error_None; lia). congruence. }
  clearbody n a. clear Hk e k. revert w I. induction cs as [|c cs IH]; intros w (I1 & I2); [exact I|]. cbn [avoids].
  assert (Hc0 := Hc c (or_introl eq_refl)).
  assert (W : works_on w c <> Some a).
  { destruct c as [b d|j|j m|j m]; cbn [on_later works_on] in *; [congruence| | |];
      (destruct (nth_error (w_exchangers w) j) as [e'|] eqn:Ej; [|discriminate]); cbn [option_map]; specialize (I2 j e' Hc0 Ej); congruence. }
  split; [exact W|]. apply IH; [intros c' Hin; apply Hc; now right|].
  assert (On : forall j f, (n <= j)%nat -> (n <= length (w_exchangers (fst (on_ghe j f w))))%nat /\
    forall j0 e', (n <= j0)%nat -> nth_error (w_exchangers (fst (on_ghe j f w))) j0 = Some e' -> xc_borehole e' <> a).
  { intros j f Hj. unfold on_ghe. destruct (nth_error (w_exchangers w) j) as [e'|] eqn:Ej; [|split; [exact I1|exact I2]]. destruct (f _ _) as (s, r). cbn [fst w_exchangers].
    rewrite replace_length. split; [exact I1|]. intros j0 e0 Hj0 E0. destruct (Nat.eq_dec j0 j) as [->|Hne].
    - rewrite replace_same in E0 by (apply nth_error_Some; congruence). injection E0 as <-. cbn [xc_borehole]. exact (I2 j e' Hj Ej).
    - rewrite replace_other in E0 by exact Hne. exact (I2 j0 e0 Hj0 E0). }
  destruct c as [b d|j|j m|j m]; cbn [on_later] in Hc0; try (apply On; exact Hc0).
  cbn [Session.execute]. destruct (find d (w_height w b)) as [(f, s)|er]; cbn [fst w_exchangers]; [|split; [exact I1|exact I2]].
  rewrite app_length. cbn [length]. split; [lia|]. intros j0 e0 Hj0 E0. destruct (lt_dec j0 (length (w_exchangers w))) as [L|L].
  - rewrite nth_error_app1 in E0 by exact L. exact (I2 j0 e0 Hj0 E0).
  - rewrite nth_error_app2 in E0 by lia. destruct (j0 - length (w_exchangers w))%nat as [|z]; cbn in E0; [injection E0 as <-; exact Hc0|destruct z; discriminate].
Qed.

Lemma found_height d H f s : find d H = Ok (f, s) -> ds_routine d <> bi_zoned -> gh_H s = st_max_H (ds_settings d).
Proof.
  intros E Hr. unfold Session.find in E. apply bind_ok in E as (f' & Ef & E). apply bind_ok in E as (s' & Es & E). injection E as -> ->.
  destruct f as (sel, st'). destruct (selected _ _ _ _ _ _ _ _ _ _ _ _ _ _ _ _ _ _ _ _ Ef) as (k & c & -> & _ & Hg).
  unfold Program.left_ghe in Es. cbn [snd] in Es.
  assert (Hg' : Search.ghe _ st' = (c, st_max_H (ds_settings d))) by (destruct (ds_routine d); try exact Hg; congruence). rewrite Hg' in Es.
  assert (Es' : ready h_circular h_annulus r_conduction eff_u eff_c brentq solver field_response (ds_settings d) (ds_flow d) (ds_V_flow d) log_time c (st_max_H (ds_settings d)) = Ok s)
    by (destruct (ds_routine d); try exact Es; congruence).
  destruct (ready_inv _ _ _ _ _ _ _ _ _ _ _ _ _ _ _ Es') as (V1 & mf & B' & g' & b & X). tauto.
Qed.
(** with a shared borehole object every later design gives all earlier exchangers its own maximum height, whatever they were sized to; nothing else of them changes *)
Theorem C119_shared_borehole_overwritten :
  forall w a d w' k e s, execute (FindDesign a d) w = (w', Ok tt) -> ds_routine d <> bi_zoned ->
  nth_error (w_exchangers w) k = Some e -> xc_borehole e = a -> view w k = Some s ->
  view w' k = Some (with_H s (st_max_H (ds_settings d))).
Proof.
  intros w a d w' k e s E Hr Hk Ha Hs. cbn [Session.execute] in E. destruct (find d (w_height w a)) as [(f, s1)|er] eqn:Ef; [|discriminate E]. injection E as <-.
  unfold view in *. cbn [w_exchangers]. rewrite nth_error_app1 by (apply nth_error_Some; congruence). rewrite Hk in *. cbn [option_map] in *. injection Hs as <-.
  unfold seen. cbn [w_height]. rewrite Ha, assign_same, with_H_twice. f_equal. f_equal. exact (found_height _ _ _ _ Ef Hr).
Qed.

(** C121: sizing an exchanger anew forgets what other designs did to the height of its borehole: whatever the script in between does (other than calling methods of this
    exchanger), compute_g_functions() and size() give what they would have given before *)
Definition not_on (k : nat) (c : statement) : Prop :=
  match c with
  | FindDesign _ _ => True
  | ComputeGFunctions j | SizeGhe j _ | SimulateGhe j _ => j <> k
  end.
Lemma execute_rest c w k e : nth_error (w_exchangers w) k = Some e -> not_on k c -> nth_error (w_exchangers (fst (execute c w))) k = Some e.
Proof.
  intros Hk Hc. assert (On : forall j f, j <> k -> nth_error (w_exchangers (fst (on_ghe j f w))) k = Some e).
  { intros j f Hj. unfold on_ghe. destruct (nth_error (w_exchangers w) j) as [e'|] eqn:Ej; [|exact Hk]. destruct (f _ _) as (s, r). cbn [fst w_exchangers].
    rewrite replace_other by congruence. exact Hk. }
  destruct c as [a d|j|j m|j m]; cbn [not_on] in Hc; try (apply On; exact Hc).
  cbn [Session.execute]. destruct (find d (w_height w a)) as [(f, s)|er]; cbn [fst w_exchangers]; [|exact Hk].
  rewrite nth_error_app1 by (apply nth_error_Some; congruence). exact Hk.
Qed.
Notation size_now st := (ghe_size h_circular h_annulus r_conduction eff_u eff_c brentq solver interp st brentq_dialogue).
Lemma size_forgets st m s h : size_now st m (with_H s h) = size_now st m s.
Proof. unfold ghe_size. rewrite pydiv_R by lra. reflexivity. Qed.
Lemma g_functions_forget st s h : compute_g_functions field_response st (with_H s h) =
  match compute_g_functions field_response st s with Ok s' => Ok (with_H s' h) | Err e => Err e end.
Proof.
  unfold compute_g_functions. destruct (g_function_heights (st_min_H st) (st_max_H st)) as [hs|e]; [|reflexivity]. cbn [bind].
  change (gh_bhe (with_H s h)) with (gh_bhe s). change (gh_gf (with_H s h)) with (gh_gf s). change (gh_B (with_H s h)) with (gh_B s).
  destruct (compute_live_g_function _ _ _ _ _ _ _); reflexivity.
Qed.
Lemma sizing_run m w k e : nth_error (w_exchangers w) k = Some e ->
  view (run [ComputeGFunctions k; SizeGhe k m] w) k =
  Some (fst (size_now (xc_settings e) m (match compute_g_functions field_response (xc_settings e) (xc_rest e) with Ok s => s | Err _ => xc_rest e end))).
Proof.
  intro Hk. cbn [Session.run Session.execute]. unfold on_ghe at 2. rewrite Hk. unfold seen at 1. rewrite g_functions_forget. set (h := w_height w (xc_borehole e)).
  set (s0 := match compute_g_functions field_response (xc_settings e) (xc_rest e) with Ok s => s | Err _ => xc_rest e end).
  assert (E : exists r, (match (match compute_g_functions field_response (xc_settings e) (xc_rest e) with Ok s' => Ok (with_H s' h) | Err er => Err er end) with
    | Ok s' => (s', Ok tt) | Err er => (seen w e, Err er) end) = (with_H s0 h, r)).
  { unfold s0. destruct (compute_g_functions field_response (xc_settings e) (xc_rest e)); eexists; reflexivity. }
  destruct E as (r & E). rewrite E. cbn [fst]. unfold on_ghe. cbn [w_exchangers]. rewrite replace_same by (apply nth_error_Some; congruence).
  unfold seen at 1. cbn [xc_rest xc_settings xc_borehole w_height]. rewrite with_H_twice, size_forgets. destruct (size_now (xc_settings e) m s0) as (s1, r1). cbn [fst].
  unfold view. cbn [w_exchangers]. rewrite replace_same by (rewrite replace_length; apply nth_error_Some; congruence). cbn [option_map].
  unfold seen. cbn [xc_rest xc_borehole w_height]. rewrite assign_same. now rewrite with_H_self.
Qed.
Theorem C121_sizing_anew :
  forall cs w k m, (k < length (w_exchangers w))%nat -> (forall c, In c cs -> not_on k c) ->
  view (run (cs ++ [ComputeGFunctions k; SizeGhe k m]) w) k = view (run [ComputeGFunctions k; SizeGhe k m] w) k.
Proof.
  intros cs w k m Hk Hc. apply nth_error_Some in Hk. destruct (nth_error (w_exchangers w) k) as [e|] eqn:Ek; [clear Hk|congruence].
  assert (A : forall w0, run (cs ++ [ComputeGFunctions k; SizeGhe k m]) w0 = run [ComputeGFunctions k; SizeGhe k m] (run cs w0)).
  { clear. induction cs as [|c cs IH]; intro w0; [reflexivity|]. cbn [app Session.run]. apply IH. }
  rewrite A. rewrite (sizing_run m w k e Ek). apply sizing_run. revert w Ek. induction cs as [|c cs IH]; intros w Ek; [exact Ek|]. cbn [Session.run].
  apply IH; [intros c' Hin; apply Hc; now right|intros w0; clear; induction cs as [|c0 cs0 IH0] in w0 |- *; [reflexivity|cbn [app Session.run]; apply IH0]|].
  apply execute_rest; [exact Ek|]. apply Hc. now left.
Qed.

(** and an exchanger that had been sized is restored exactly by sizing it again (C98) *)
Theorem C121_restored :
  forall cs w k m e s1, (forall c, In c cs -> not_on k c) -> nth_error (w_exchangers w) k = Some e -> ordinary field_response brentq_dialogue (xc_settings e) log_time ->
  forall flow V_flow c H s, ready h_circular h_annulus r_conduction eff_u eff_c brentq solver field_response (xc_settings e) flow V_flow log_time c H = Ok s ->
  size_up h_circular h_annulus r_conduction eff_u eff_c brentq solver interp field_response brentq_dialogue (xc_settings e) m s = Ok s1 ->
  view w k = Some s1 -> view (run (cs ++ [ComputeGFunctions k; SizeGhe k m]) w) k = Some s1.
Proof.
  intros cs w k m e s1 Hc Ek O flow V c H s Er Es Hv. rewrite C121_sizing_anew by (first [exact Hc | apply nth_error_Some; congruence]). rewrite (sizing_run m w k e Ek).
  assert (E2 := C98_sizing_again h_circular h_annulus r_conduction eff_u eff_c brentq solver interp field_response brentq_dialogue (xc_settings e) flow V log_time m m c H s s1 O Er Es).
  rewrite Es in E2. unfold view in Hv. rewrite Ek in Hv. cbn [option_map] in Hv. injection Hv as Hv. unfold seen in Hv. rewrite <- Hv in E2 at 1.
  unfold Program.size_up in E2. rewrite g_functions_forget in E2. destruct (compute_g_functions field_response (xc_settings e) (xc_rest e)) as [s2|er]; [|discriminate E2].
  cbn [bind] in E2. rewrite size_forgets in E2. destruct (size_now (xc_settings e) m s2) as (s3, r3). cbn [fst]. apply bind_ok in E2 as (u & _ & E2). congruence.
Qed.

(** C120: the height that the borehole object has when find_design is called does not matter, as long as the exchanger of the first candidate can be built at it:
    the search returns the same selection, evaluations and exchanger, or raises the same exception *)
Theorem C120_height_of_the_borehole :
  forall d H H', (forall cs c, design_init (ds_constraints d) (ds_routine d) = Ok cs -> first_candidate cs = Some c -> can_build d c H = Ok tt /\ can_build d c H' = Ok tt) ->
  find d H = find d H'.
Proof.
  intros d H H' Hc. unfold Session.find. replace (program d H) with (program d H'); [reflexivity|]. unfold Program.program, design.
  destruct (design_init (ds_constraints d) (ds_routine d)) as [cs|e]; [|reflexivity]. cbn [bind]. symmetry. apply find_design_start. intros c E. now apply (Hc cs c).
Qed.
(** so calling find_design again right after it has returned (by any routine but bi-zoned, which sizes the exchanger) finds the same *)
Theorem C120_find_again :
  forall w a d w' f s, execute (FindDesign a d) w = (w', Ok tt) -> find d (w_height w a) = Ok (f, s) -> ds_routine d <> bi_zoned -> find d (w_height w' a) = Ok (f, s).
Proof.
  intros w a d w' f s E Ef Hr. rewrite <- Ef. cbn [Session.execute] in E. rewrite Ef in E. injection E as <-. cbn [w_height]. rewrite assign_same.
  rewrite (found_height _ _ _ _ Ef Hr). apply C120_height_of_the_borehole. intros cs c Ei Ec.
  unfold Session.find in Ef. apply bind_ok in Ef as (f' & Ef & _). unfold Program.program, design in Ef. rewrite Ei in Ef. cbn [bind] in Ef.
  apply find_design_built in Ef as (c' & Ec' & B & B'). assert (c' = c) as -> by congruence. auto.
Qed.
End Session.

(** ** two designs of the plant of C95 with one borehole object: the second allows other heights *)
Notation plant_can_build st V := (can_build plant_film plant_annulus plant_wall plant_Rb plant_Rc plant_root thomas plant_response st flow_borehole V eskilson).
Lemma plant_program_at n1 n2 n3 : (30000 <= n1)%Z -> (n1 mod 120 <> 0)%Z -> (30000 <= n2)%Z -> (n2 mod 120 <> 0)%Z -> (30000 <= n3)%Z -> (n3 mod 120 <> 0)%Z ->
  exists V hi lo f, plant_program (plant hi lo (height_for (IZR n2)) (height_for (IZR n1))) V garden rectangle_routine (height_for (IZR n3)) = Ok f.
Proof.
  intros A1 B1 A2 B2 A3 B3. destruct (plant_limits_at n1 n2 A1 B1 A2 B2) as (V & hi & lo & HV & L). cbn zeta in L. exists V, hi, lo.
  set (low := height_for (IZR n1)) in *. set (high := height_for (IZR n2)) in *. set (st := plant hi lo high low) in *.
  destruct garden_candidates as (f2 & f4 & Ed & L2 & L4).
  assert (Ex : forall h c, h = low \/ h = high -> (length c = 1 \/ length c = 2 \/ length c = 4)%nat ->
    exists s x, plant_ready st V c h = Ok s /\ plant_excess st V c h = Ok (Fin x) /\ (length c = 1%nat -> 0 < x) /\ ((2 <= length c)%nat -> x < 0)).
  { intros h c Hh Hc. destruct (L h c Hh Hc) as (s & s' & mx & mn & T & D & E1 & E2 & E3 & P & N & _). exists s, (cost hi lo mx mn).
    assert (E4 : excess st (snd (plant_simulated st s)) = Ok (cost hi lo mx mn)) by (rewrite E2; reflexivity).
    split; [exact E1|]. split; [|auto]. unfold excess_of, System.calculate_excess. unfold ready in E1. rewrite E1. cbn [bind]. rewrite E4. reflexivity. }
  set (d := [[(0, 0)]; f2; f4]) in *.
  assert (Hd : forall f, In f d -> (length f = 1 \/ length f = 2 \/ length f = 4)%nat).
  { intros f [<- |[<- |[<- |[]]]]; [left; reflexivity|auto|auto]. }
  set (sh := sized_height plant_film plant_annulus plant_wall plant_Rb plant_Rc plant_root thomas plant_lookup plant_response (bisection (1 / 1000)) st flow_borehole V eskilson).
  set (cb := plant_can_build st V).
  assert (CB : forall f h, In f d -> h = low \/ h = high -> cb f h = Ok tt).
  { intros f h Hf Hh. destruct (Ex h f Hh (Hd f Hf)) as (s & x & E1 & _). unfold cb, can_build. rewrite E1. reflexivity. }
  assert (C3 : cb [(0, 0)] (height_for (IZR n3)) = Ok tt).
  { destruct (plant_evaluates n3 A3 B3) as (A & E). destruct (E hi lo high low V [(0, 0)] HV ltac:(discriminate)) as (s & s' & T & D & mx & mn & E1 & _). unfold cb, can_build. fold st in E1. rewrite E1. reflexivity. }
  destruct (C85_rectangle_outcome cb (plant_excess st V) sh low high garden 6 6 5 6 (height_for (IZR n3)) d tt garden_inputs Ed ltac:(discriminate)) as (cR & tl & tu & tm & ER & _ & Xl & Xu & Xm & Out0).
  { exact C3. }
  { intros f h Hf Hh. assert (Hh' : h = low \/ h = high) by tauto. split; [exists tt; now apply CB|].
    destruct (Ex h f Hh' (Hd f Hf)) as (s & x & _ & E2 & P & N). exists (Fin x). split; [exact E2|].
    destruct (Hd f Hf) as [A|A]; [left|right]; exists x; (split; [reflexivity|]); rewrite val_R; [now apply P|apply N; lia]. }
  assert (cR = f4) as -> by (cbn in ER; congruence).
  destruct Out0 as [((k & c & s' & Q) & _)|(_ & _ & SS)]; [exists (Some (k, c), s'); exact Q|]. exfalso.
  destruct (Ex high [(0, 0)] (or_intror eq_refl) (or_introl eq_refl)) as (s & x & _ & E2 & P & _).
  destruct (Ex high f4 (or_intror eq_refl) (or_intror (or_intror L4))) as (s4 & x4 & _ & E4 & _ & N4).
  specialize (P eq_refl). specialize (N4 ltac:(lia)).
  assert (tu = Fin x) as -> by (apply Ok_inj; rewrite <- Xu; exact E2). assert (tm = Fin x4) as -> by (apply Ok_inj; rewrite <- Xm; exact E4).
  destruct SS as [((y & Ey & Py) & (z & Ez & Pz))|((y & Ey & Py) & (z & Ez & Pz))]; rewrite val_R in Py, Pz; assert (y = x) by congruence; assert (z = x4) by congruence; lra.
Qed.
Lemma heights_differ : height_for 90030 <> high_height.
Proof.
  unfold high_height, height_for. pose proof (exp_pos (17 / 2)) as P. apply Rlt_not_eq. apply sqrt_lt_1_alt. split.
  - repeat apply Rmult_le_pos; lra.
  - apply Rmult_lt_compat_l; [lra|]. apply Rmult_lt_compat_r; lra.
Qed.
Notation plant_find := (find plant_film plant_annulus plant_wall plant_Rb plant_Rc plant_root thomas plant_lookup plant_response (bisection (1 / 1000)) eskilson).
Notation plant_run := (run plant_film plant_annulus plant_wall plant_Rb plant_Rc plant_root thomas plant_lookup plant_response (bisection (1 / 1000)) eskilson).
Notation plant_execute := (execute plant_film plant_annulus plant_wall plant_Rb plant_Rc plant_root thomas plant_lookup plant_response (bisection (1 / 1000)) eskilson).
Definition plant_design (st : settings) (V : R) : design_args :=
  {| ds_settings := st; ds_method := m_hourly; ds_flow := flow_borehole; ds_V_flow := V; ds_constraints := garden; ds_routine := rectangle_routine |}.
Definition first_world : world := {| w_height := fun _ => high_height; w_exchangers := [] |}.
Lemma found_left d H f : program plant_film plant_annulus plant_wall plant_Rb plant_Rc plant_root thomas plant_lookup plant_response (bisection (1 / 1000))
  (ds_settings d) (ds_method d) (ds_flow d) (ds_V_flow d) eskilson (ds_constraints d) (ds_routine d) H = Ok f -> ds_routine d <> bi_zoned -> exists s, plant_find d H = Ok (f, s).
Proof.
  intros E Hr. unfold find. rewrite E. cbn [bind]. destruct f as (sel, s').
  destruct (selected _ _ _ _ _ _ _ _ _ _ _ _ _ _ _ _ _ _ _ _ E) as (k & c & -> & Hf & Hg). unfold left_ghe. cbn [snd].
  assert (Hg' : Search.ghe _ s' = (c, st_max_H (ds_settings d))) by (destruct (ds_routine d); try exact Hg; congruence). rewrite Hg'.
  assert (X : exists q, excess_of plant_film plant_annulus plant_wall plant_Rb plant_Rc plant_root thomas plant_lookup plant_response (ds_settings d) (ds_method d) (ds_flow d) (ds_V_flow d) eskilson c (st_max_H (ds_settings d)) = Ok q).
  { destruct Hf as [((q & q' & _ & _ & Eq & _) & _)|(q & Eq & _)]; eexists; exact Eq. }
  destruct X as (q & Eq). destruct (excess_of_ok _ _ _ _ _ _ _ _ _ _ _ _ _ _ _ _ _ Eq) as (s & x & _ & Er & _). exists s. rewrite Er. destruct (ds_routine d); try reflexivity. congruence.
Qed.
Lemma two_designs : exists st V c sm s1 d1 d2 w1 e f1 f2 sf2,
  let w1' := plant_run (fun _ _ => 0) [FindDesign 0 d1; ComputeGFunctions 0; SizeGhe 0 m_hourly] first_world in
  w1 = w1' /\ view w1 0 = Some s1 /\ w_exchangers w1 = [e] /\ xc_borehole e = 0%nat /\ xc_settings e = st /\ gh_H s1 = high_height /\
  (forall b, w_height w1 b = high_height) /\ plant_ordinary st /\ plant_ready st V c high_height = Ok sm /\ plant_size_up st m_hourly sm = Ok s1 /\
  ds_routine d1 = rectangle_routine /\ ds_routine d2 = rectangle_routine /\ plant_find d1 high_height = Ok (f1, sm) /\
  plant_find d2 high_height = Ok (f2, sf2) /\ st_max_H (ds_settings d2) = height_for 90030.
Proof.
  destruct C95_C97_example as (V & hi & lo & k & c & t & s1 & X). cbn zeta in X. set (st := plant hi lo high_height low_height) in *.
  destruct X as (O & Ep & _ & Ew & Hs & _ & _ & _ & (sm & Er & Es & Es1) & _).
  destruct (plant_program_at 60030 90030 120060 ltac:(lia) ltac:(vm_compute; discriminate) ltac:(lia) ltac:(vm_compute; discriminate) ltac:(lia) ltac:(vm_compute; discriminate)) as (V2 & hi2 & lo2 & f2 & Ep2).
  set (st2 := plant hi2 lo2 (height_for 90030) (height_for 60030)) in *.
  set (d1 := plant_design st V). set (d2 := plant_design st2 V2).
  destruct (found_left d1 high_height _ Ep ltac:(discriminate)) as (sf & Ef). destruct (found_left d2 high_height _ Ep2 ltac:(discriminate)) as (sf2 & Ef2).
  assert (Esf : sf = sm).
  { unfold find in Ef. change (program _ _ _ _ _ _ _ _ _ _ _ _ _ _ _ _ _ high_height) with (plant_program st V garden rectangle_routine high_height) in Ef. rewrite Ep in Ef. cbn [bind] in Ef.
    apply bind_ok in Ef as (s' & Es' & Ef). injection Ef as ->. unfold left_ghe in Es'. cbn [snd ds_routine d1 plant_design] in Es'.
    destruct (selected _ _ _ _ _ _ _ _ _ _ _ _ _ _ _ _ _ _ _ _ Ep) as (k' & c' & E & _ & Hg). cbn iota in Hg. rewrite Hg in Es'. assert (c' = c) as -> by congruence.
    change (plant_ready st V c high_height = Ok sf) in Es'. congruence. }
  subst sf.
  set (w1 := plant_run (fun _ _ => 0) [FindDesign 0 d1; ComputeGFunctions 0; SizeGhe 0 m_hourly] first_world).
  set (wa := fst (plant_execute (fun _ _ => 0) (FindDesign 0 d1) first_world)).
  assert (Wa : wa = {| w_height := assign (fun _ => high_height) 0 (gh_H sm); w_exchangers := [{| xc_borehole := 0; xc_settings := st; xc_rest := sm |}] |}).
  { unfold wa. cbn [execute first_world w_height]. rewrite Ef. reflexivity. }
  assert (V1 : view w1 0 = Some s1).
  { change w1 with (plant_run (fun _ _ => 0) [ComputeGFunctions 0; SizeGhe 0 m_hourly] wa). rewrite Wa.
    rewrite sizing_run with (e := {| xc_borehole := 0; xc_settings := st; xc_rest := sm |}) by reflexivity. cbn [xc_settings xc_rest].
    unfold size_up in Es. destruct (compute_g_functions plant_response st sm) as [s0|e]; [|discriminate Es]. cbn [bind] in Es.
    destruct (ghe_size _ _ _ _ _ _ _ _ _ _ m_hourly s0) as (s3, r3). apply bind_ok in Es as (u & _ & Es). cbn [fst]. congruence. }
  assert (L1 : exists e, w_exchangers w1 = [e] /\ xc_borehole e = 0%nat /\ xc_settings e = st).
  { change w1 with (plant_run (fun _ _ => 0) [ComputeGFunctions 0; SizeGhe 0 m_hourly] wa). rewrite Wa. cbn [run execute]. unfold on_ghe. cbn [nth_error w_exchangers xc_settings xc_rest xc_borehole].
    destruct (match compute_g_functions _ _ _ with Ok s' => _ | Err e => _ end) as (s3, r3). cbn [fst nth_error w_exchangers xc_settings xc_rest xc_borehole replace].
    destruct (ghe_size _ _ _ _ _ _ _ _ _ _ _ _) as (s4, r4). cbn [fst w_exchangers replace]. eexists. split; [reflexivity|]. split; reflexivity. }
  destruct L1 as (e & L1 & Be & Se).
  assert (H1 : w_height w1 0 = high_height).
  { unfold view in V1. rewrite L1 in V1. cbn [nth_error option_map] in V1. injection V1 as V1. rewrite <- Hs, <- V1. unfold seen. cbn [gh_H with_H]. now rewrite Be. }
  exists st, V, c, sm, s1, d1, d2, w1, e, (Some (k, c), t), f2, sf2. cbn zeta. split; [reflexivity|]. split; [exact V1|]. split; [exact L1|]. split; [exact Be|]. split; [exact Se|].
  split; [exact Hs|]. split; [|split; [exact O|split; [exact Er|split; [exact Es|split; [reflexivity|split; [reflexivity|split; [exact Ef|split; [exact Ef2|reflexivity]]]]]]]].
  intros [|b]; [exact H1|]. change w1 with (plant_run (fun _ _ => 0) [ComputeGFunctions 0; SizeGhe 0 m_hourly] wa). rewrite Wa. cbn [run execute]. unfold on_ghe. cbn [nth_error w_exchangers xc_settings xc_rest xc_borehole].
  destruct (match compute_g_functions _ _ _ with Ok s' => _ | Err e => _ end) as (s3, r3). cbn [fst nth_error w_exchangers xc_settings xc_rest xc_borehole replace].
  destruct (ghe_size _ _ _ _ _ _ _ _ _ _ _ _) as (s4, r4). reflexivity.
Qed.
(** the delivered height of the first design does not survive the second, although its temperatures do *)
Theorem C119_shared_borehole_refuted :
  exists d1 d2 w s s', let w1 := plant_run (fun _ _ => 0) [FindDesign 0 d1; ComputeGFunctions 0; SizeGhe 0 m_hourly] w in
  let w2 := plant_run (fun _ _ => 0) [FindDesign 0 d2] w1 in
  length (w_exchangers w2) = 2%nat /\ view w1 0 = Some s /\ view w2 0 = Some s' /\ gh_H s' <> gh_H s /\ gh_results s' = gh_results s /\
  (* sizing it again restores it *)
  view (plant_run (fun _ _ => 0) [ComputeGFunctions 0; SizeGhe 0 m_hourly] w2) 0 = Some s.
Proof.
  destruct two_designs as (st & V & c & sm & s1 & d1 & d2 & w1 & e & f1 & f2 & sf2 & X). cbn zeta in X.
  destruct X as (W1 & V1 & L1 & Be & Se & Hs & H1 & O & Er & Es & R1 & R2 & Ef & Ef2 & M2).
  exists d1, d2, first_world, s1, (with_H s1 (height_for 90030)). cbn zeta. rewrite <- W1.
  assert (E2 : exists w2, plant_execute (fun _ _ => 0) (FindDesign 0 d2) w1 = (w2, Ok tt) /\ length (w_exchangers w2) = 2%nat).
  { cbn [execute]. rewrite (H1 0%nat), Ef2. eexists. split; [reflexivity|]. cbn [w_exchangers]. now rewrite L1. }
  destruct E2 as (w2 & E2 & L2). cbn [run]. rewrite E2. cbn [fst]. split; [exact L2|]. split; [exact V1|]. split; [|split; [|split]].
  - rewrite (C119_shared_borehole_overwritten plant_film plant_annulus plant_wall plant_Rb plant_Rc plant_root thomas plant_lookup plant_response (bisection (1 / 1000)) eskilson (fun _ _ => 0)
      w1 0 d2 w2 0 e s1 E2 ltac:(rewrite R2; discriminate) ltac:(rewrite L1; reflexivity) Be V1). now rewrite M2.
  - cbn [gh_H with_H]. rewrite Hs. exact heights_differ.
  - reflexivity.
  - assert (X := C121_restored plant_film plant_annulus plant_wall plant_Rb plant_Rc plant_root thomas plant_lookup plant_response (bisection (1 / 1000)) eskilson (fun _ _ => 0)
      [FindDesign 0 d2] w1 0 m_hourly e s1 ltac:(intros c0 [<- |[]]; exact I) ltac:(now rewrite L1)). rewrite Se in X.
    specialize (X O flow_borehole V c high_height sm Er Es V1). cbn [app run] in X. rewrite E2 in X. exact X.
Qed.
(** cases of the theorems: with a borehole object of its own the second design leaves the first as it is; finding the first design again, after it has
    been sized, gives the same; the second design is the same for a borehole of another height *)
Example C119_C120_C121_example :
  exists d1 d2 s f x e, let script := [FindDesign 0 d1; ComputeGFunctions 0; SizeGhe 0 m_hourly] in let w1 := plant_run (fun _ _ => 0) script first_world in
  nth_error (w_exchangers w1) 0 = Some e /\ on_later (length (w_exchangers w1)) (xc_borehole e) (FindDesign 1 d2) /\
  length (w_exchangers (plant_run (fun _ _ => 0) [FindDesign 1 d2] w1)) = 2%nat /\ view w1 0 = Some s /\ view (plant_run (fun _ _ => 0) [FindDesign 1 d2] w1) 0 = Some s /\
  plant_find d1 (w_height first_world 0) = Ok (f, x) /\ snd (plant_execute (fun _ _ => 0) (FindDesign 0 d1) first_world) = Ok tt /\ plant_find d1 (w_height w1 0) = Ok (f, x) /\
  exists y, plant_find d2 high_height = Ok y /\ plant_find d2 (height_for 90030) = Ok y /\ height_for 90030 <> high_height.
Proof.
  destruct two_designs as (st & V & c & sm & s1 & d1 & d2 & w1 & e & f1 & f2 & sf2 & X). cbn zeta in X.
  destruct X as (W1 & V1 & L1 & Be & Se & Hs & H1 & O & Er & Es & R1 & R2 & Ef & Ef2 & M2).
  exists d1, d2, s1, f1, sm, e. cbn zeta. rewrite <- W1. split; [rewrite L1; reflexivity|]. split; [cbn; rewrite Be; discriminate|].
  split; [cbn [run execute]; rewrite (H1 1%nat), Ef2; cbn [fst w_exchangers]; rewrite L1; reflexivity|]. split; [exact V1|].
  split. { rewrite (C119_later_designs _ _ _ _ _ _ _ _ _ _ _ _ [FindDesign 1 d2] w1 0 e); [exact V1|rewrite L1; reflexivity|]. intros c0 [<- |[]]. cbn. rewrite Be. discriminate. }
  split; [exact Ef|]. split; [cbn [execute first_world w_height]; rewrite Ef; reflexivity|]. split; [rewrite (H1 0%nat); exact Ef|].
  exists (f2, sf2). split; [exact Ef2|]. split; [|exact heights_differ].
  assert (E : plant_execute (fun _ _ => 0) (FindDesign 0 d2) first_world = (fst (plant_execute (fun _ _ => 0) (FindDesign 0 d2) first_world), Ok tt)) by (cbn [execute first_world w_height]; rewrite Ef2; reflexivity).
  assert (A := C120_find_again _ _ _ _ _ _ _ _ _ _ _ _ _ _ _ _ _ _ E Ef2 ltac:(rewrite R2; discriminate)). cbn [execute first_world w_height] in A. rewrite Ef2 in A. cbn [fst w_height] in A. rewrite assign_same in A.
  assert (Hf : gh_H sf2 = st_max_H (ds_settings d2)) by (refine (found_height _ _ _ _ _ _ _ _ _ _ _ (fun _ _ => 0) _ _ _ _ Ef2 _); rewrite R2; discriminate). now rewrite Hf, M2 in A.
Qed.

Print Assumptions C119_separate_boreholes.
Print Assumptions C119_later_designs.
Print Assumptions C119_shared_borehole_overwritten.
Print Assumptions C121_sizing_anew.
Print Assumptions C121_restored.
Print Assumptions C120_height_of_the_borehole.
Print Assumptions C120_find_again.
Print Assumptions C119_shared_borehole_refuted.
