(** Sizing on g-functions whose answers do not depend on the requests before *)
From Coq Require Import ZArith List Bool Reals Lra Lia.
From Verif Require Import Base Num BaseLemmas Utilities Loads Ghe GheSpec GheProofs GFun GFunSpec GFunProofs Radial Bhe Equiv Export System SystemSpec SystemProofs.
Import ListNotations.
Open Scope R_scope.

Section Library.
Variable h_circular : R -> R -> R -> R -> R -> R -> R -> R.
Variable h_annulus : R -> R -> R -> R -> R -> R -> R -> R -> R * R.
Variable r_conduction : R -> R -> R -> R.
Variable eff_u : R -> pg_u -> R -> R -> R.
Variable eff_c : R -> pg_c -> R -> R -> R.
Variable brentq : (R -> res R) -> R -> R -> list R * res R.
Variable solver : list R -> list R -> list R -> list R -> list R.
Variable interp : ikind -> list (R * R) -> R -> R.
Variable st : settings.
Variable m : method.

Let update := update_bhe h_circular h_annulus r_conduction eff_u eff_c.
Let sim_ghe := ghe_simulate h_circular h_annulus r_conduction eff_u eff_c brentq solver interp st m.
Let objective := local_objective h_circular h_annulus r_conduction eff_u eff_c brentq solver interp st m.

Section History.
Variable s0 : ghe.
(** the tables that occur, the one after a request, and the heights *)
Variables (tables : table -> Prop) (after : table) (ok : R -> Prop).
Hypothesis T0 : tables (gf_table (gh_gf s0)).
Hypothesis T1 : tables after.
Hypothesis ok_pos : forall h, ok h -> 0 < h.
Hypothesis history : forall t h, tables t -> ok h ->
  g_function_interpolation interp (with_table (gh_gf s0) t) (gh_B s0 / h) k_default = (after, snd (g_function_interpolation interp (gh_gf s0) (gh_B s0 / h) k_default)).

Record akin (s : ghe) : Prop := {
  ak_B : gh_B s = gh_B s0; ak_nbh : gh_nbh s = gh_nbh s0; ak_load : gh_load s = gh_load s0; ak_hour : gh_hour s = gh_hour s0;
  ak_bhe : forall H, update H (gh_bhe s) = update H (gh_bhe s0);
  ak_gf : exists t, gh_gf s = with_table (gh_gf s0) t /\ tables t }.
Lemma akin_H s h : akin s -> akin (with_H s h).
Proof. intros [A1 A2 A3 A4 A5 A6]. constructor; assumption. Qed.
Lemma own_table (gf : @gfunction R) : with_table gf (gf_table gf) = gf.
Proof. now destruct gf. Qed.
Lemma akin_refl : akin s0.
Proof. constructor; try reflexivity. exists (gf_table (gh_gf s0)). now rewrite own_table. Qed.

Lemma grab_akin t h rb x y : tables t -> ok h ->
  grab_g_function interp (with_table (gh_gf s0) t) (gh_B s0 / h) rb x y = (after, snd (grab_g_function interp (gh_gf s0) (gh_B s0 / h) rb x y)).
Proof.
  intros Ht Hh. unfold grab_g_function. rewrite (history t h Ht Hh).
  destruct (g_function_interpolation interp (gh_gf s0) (gh_B s0 / h) k_default) as (t0, r). reflexivity.
Qed.
Lemma simulate_akin s h : akin s -> ok h ->
  let r0 := sim_ghe (with_H s0 h) in let r := sim_ghe (with_H s h) in
  snd r = snd r0 /\ akin (fst r) /\ gh_H (fst r) = h /\
  (forall x, snd r0 = Ok x -> fst r = fst r0) /\
  (forall e, snd r0 = Err e -> gh_results (fst r) = gh_results s).
Proof.
  intros A Ho. assert (Hh := ok_pos h Ho). assert (A' := A). destruct A' as [A1 A2 A3 A4 A5 (t & A6 & A7)]. unfold sim_ghe, ghe_simulate.
  cbn [with_H gh_H gh_B gh_bhe]. fold update. rewrite A1. rewrite pydiv_R by lra. rewrite A5.
  assert (Bk : forall H, update H (update h (gh_bhe s0)) = update H (gh_bhe s0)) by (intro; apply update_absorbs).
  cbn [with_bhe gh_bhe].
  destruct (compute_equivalent _ _ _ _ _ _) as [e|x].
  2:{ cbn [fst snd]. repeat split; try assumption; try reflexivity; try discriminate. exists t. auto. }
  destruct (short_time _ _ _ _ _) as [r|x].
  2:{ cbn [fst snd]. repeat split; try assumption; try reflexivity; try discriminate. exists t. auto. }
  cbn [with_short_time with_eq with_bhe with_H gh_gf gh_sts gh_ts gh_H gh_B gh_nbh gh_load gh_hour gh_bhe gh_eq gh_results].
  rewrite A6. rewrite (grab_akin t h _ _ _ A7 Ho).
  assert (G0 := grab_akin _ h (st_rb st) (fst (snd r)) (snd (snd r)) T0 Ho). rewrite own_table in G0.
  destruct (grab_g_function interp (gh_gf s0) (gh_B s0 / h) (st_rb st) (fst (snd r)) (snd (snd r))) as (t0 & g0) eqn:EG.
  cbn [snd] in G0. assert (t0 = after) as -> by congruence. cbn [snd].
  assert (Ew : forall t' t'', with_table (with_table (gh_gf s0) t') t'' = with_table (gh_gf s0) t'') by reflexivity. rewrite Ew.
  destruct g0 as [c|x].
  2:{ cbn [fst snd]. repeat split; try assumption; try reflexivity; try discriminate. exists after. auto. }
  cbn [with_gf with_short_time with_eq with_bhe with_H gh_gf gh_sts gh_ts gh_H gh_B gh_nbh gh_load gh_hour gh_bhe gh_eq gh_results]. rewrite A2, A3, A4.
  destruct (simulate _ _ _ _ _ _ _ _ _ _ _ _ _ _) as [[[[T D] mx] mn]|x]; cbn [fst snd].
  2:{ repeat split; try assumption; try reflexivity; try discriminate; exists after; auto. }
  split; [reflexivity|]. split; [|split; [reflexivity|split; [|discriminate]]].
  - constructor; try assumption. exists after. auto.
  - intros _ _. destruct s, s0. cbn in A1, A2, A3, A4. unfold with_results, with_gf, with_short_time, with_eq, with_bhe, with_H. cbn. now subst.
Qed.

(** temperatures and excess of a height, simulated with the object before sizing *)
Let scratch := fresh h_circular h_annulus r_conduction eff_u eff_c brentq solver interp st m s0.
Let f (h : R) : res R := let! x := scratch h in Ok (snd x).
Variable base : list R * list R.
Definition accords (s : ghe) (z : @sizing R) : Prop :=
  akin s /\ gh_H s = sz_height z /\
  match sz_result z with
  | Some (h, T) => (exists x, snd (sim_ghe (with_H s0 h)) = Ok x) /\ (sz_height z = h -> s = fst (sim_ghe (with_H s0 h))) /\
      gh_results s = gh_results (fst (sim_ghe (with_H s0 h))) /\ fst (gh_results s) = T
  | None => gh_results s = base
  end.
Lemma objective_accords s z h : accords s z -> ok h -> snd (objective s h) = f h /\ accords (fst (objective s h)) (evaluate scratch z h).
Proof.
  intros (A & _ & C) Hh. destruct (simulate_akin s h A Hh) as (S1 & S2 & S3 & S4 & S5).
  unfold objective, local_objective. fold sim_ghe. destruct (sim_ghe (with_H s h)) as (s', r) eqn:E. cbn [fst snd] in *.
  assert (Er : excess st r = f h).
  { unfold f, scratch, fresh. fold sim_ghe. rewrite S1. destruct (sim_ghe (with_H s0 h)) as (s1, [x|e]); reflexivity. }
  split; [exact Er|]. unfold accords, evaluate, scratch, fresh. fold sim_ghe.
  destruct (sim_ghe (with_H s0 h)) as (s1, [x|e]) eqn:E1; cbn [fst snd sz_height sz_result] in *.
  - split; [exact S2|]. split; [exact S3|]. rewrite E1. cbn [fst snd]. rewrite (S4 x eq_refl). split; [eauto|]. auto.
  - split; [exact S2|]. split; [exact S3|]. rewrite (S5 e eq_refl). destruct (sz_result z) as [(h', T)|]; [|exact C].
    destruct C as ((x & C1) & _ & C3). split; [eauto|]. split; [|exact C3]. intro X. exfalso. rewrite X in E1. rewrite E1 in C1. discriminate.
Qed.
Lemma converse_accords lo up d : (forall h, lo <= h <= up -> ok h) -> asks_within lo up d -> forall s z, accords s z ->
  let c := converse h_circular h_annulus r_conduction eff_u eff_c brentq solver interp st m d s in
  snd c = snd (listen f d) /\ accords (fst c) (fold_left (evaluate scratch) (fst (listen f d)) z).
Proof.
  intros Hb. induction d as [x next IH|r]; intros Hd s z A; [|split; [reflexivity|exact A]].
  cbn [asks_within] in Hd. destruct Hd as (Hx & Hd). cbn [converse listen].
  destruct (objective_accords s z x A (Hb x Hx)) as (E & A'). fold objective.
  destruct (objective s x) as (s', v). cbn [fst snd] in *. subst v. destruct (f x) as [y|e]; [|split; [reflexivity|exact A']].
  destruct (IH y (Hd y) s' _ A') as (E' & A''). destruct (listen f (next y)) as (l, r). exact (conj E' A'').
Qed.
Lemma size_accords brentq_dialogue s : akin s -> gh_results s = base -> st_min_H st <= st_max_H st ->
  (forall h, st_min_H st <= h <= st_max_H st -> ok h) -> (forall lo up, asks_within lo up (brentq_dialogue lo up)) ->
  let a := ghe_size h_circular h_annulus r_conduction eff_u eff_c brentq solver interp st brentq_dialogue m s in
  let b := size (fun f lo up => listen f (brentq_dialogue lo up)) scratch (st_max_H st) (st_min_H st) {| sz_height := gh_H s; sz_result := None |} in
  snd a = snd b /\ accords (fst a) (fst b).
Proof.
  intros Hal Hbase Hl Hb Hd. unfold ghe_size, size. cbn [nadd nofZ NumR]. rewrite !pydiv_R by lra.
  set (guess := (st_max_H st + st_min_H st) / 2). cbn [sz_result].
  assert (A0 : accords (with_H s guess) {| sz_height := guess; sz_result := None |}).
  { split; [now apply akin_H|]. split; [reflexivity|exact Hbase]. }
  fold f. unfold solve_root. fold objective.
  destruct (objective_accords _ _ (st_min_H st) A0 (Hb (st_min_H st) ltac:(lra))) as (E1 & A1).
  destruct (objective (with_H s guess) (st_min_H st)) as (s1, v1). cbn [fst snd] in *. subst v1.
  destruct (f (st_min_H st)) as [minus|e]; [|split; [reflexivity|exact A1]].
  destruct (objective_accords _ _ (st_max_H st) A1 (Hb (st_max_H st) ltac:(lra))) as (E2 & A2).
  destruct (objective s1 (st_max_H st)) as (s2, v2). cbn [fst snd] in *. subst v2.
  destruct (f (st_max_H st)) as [plus|e]; [|split; [reflexivity|exact A2]].
  destruct (sign_of minus) as [sm|e]; cbn [bind]; [|split; [reflexivity|exact A2]].
  destruct (sign_of plus) as [sp|e]; cbn [bind]; [|split; [reflexivity|exact A2]].
  destruct (negb (sp =? sm)%Z).
  - destruct (converse_accords _ _ _ Hb (Hd (st_min_H st) (st_max_H st)) s2 _ A2) as (E3 & A3).
    destruct (converse _ _ _ _ _ _ _ _ _ _ _ s2) as (s3, r). destruct (listen f (brentq_dialogue (st_min_H st) (st_max_H st))) as (l, r').
    cbn [fst snd] in *. subst r'. split; [reflexivity|exact A3].
  - destruct (_ && _); [|destruct (_ && _)]; (split; [reflexivity|exact A2]).
Qed.
End History.
End Library.
