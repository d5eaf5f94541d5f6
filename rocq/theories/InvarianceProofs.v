(** How the heat exchanger and the whole program behave under a shift of all temperatures and under exchanging heating and cooling *)
From Coq Require Import ZArith List Bool Reals Lra Lia FunctionalExtensionality.
From Verif Require Import Base Num BaseLemmas Order Utilities Loads LoadsSpec LoadsSim Ghe GheSpec GheProofs GFun GFunSpec GFunProofs Radial RadialSpec Bhe Equiv Export
  Search SearchSpec Design System SystemSpec SystemProofs Program ProgramProofs InvarianceSpec.
Import ListNotations.
Open Scope R_scope.

(** ** tools *)
Definition rmap {A B} (f : A -> B) (r : res A) : res B := match r with Ok a => Ok (f a) | Err e => Err e end.
Lemma rmap_bind {A B C} (f : A -> B) (r : res A) (k : B -> res C) : bind (rmap f r) k = bind r (fun a => k (f a)).
Proof. now destruct r. Qed.
Lemma bind_rmap {A B C} (r : res A) (k : A -> res B) (f : B -> C) : rmap f (bind r k) = bind r (fun a => rmap f (k a)).
Proof. now destruct r. Qed.
Lemma mapM_rmap {A B C} (f : A -> res B) (g : B -> C) l : mapM (fun a => rmap g (f a)) l = rmap (map g) (mapM f l).
Proof. induction l as [|a l IH]; [reflexivity|]. cbn [mapM]. rewrite IH. destruct (f a); cbn [rmap bind]; [|reflexivity]. now destruct (mapM f l). Qed.
Lemma mapM_ext {A B} (f g : A -> res B) l : (forall a, In a l -> f a = g a) -> mapM f l = mapM g l.
Proof. induction l as [|a l IH]; intro H; [reflexivity|]. cbn [mapM]. rewrite (H a) by now left. now rewrite IH by (intros; apply H; now right). Qed.
Lemma fold_nmax_shift d l a : fold_left nmax (map (fun x => x + d) l) (a + d) = fold_left nmax l a + d.
Proof.
  revert a. induction l as [|b l IH]; intro a; [reflexivity|]. cbn [map fold_left]. rewrite <- IH. f_equal. cbn. unfold nmax. cbn.
  destruct (Rlt_dec (a + d) (b + d)), (Rlt_dec a b); lra.
Qed.
Lemma fold_nmin_shift d l a : fold_left nmin (map (fun x => x + d) l) (a + d) = fold_left nmin l a + d.
Proof.
  revert a. induction l as [|b l IH]; intro a; [reflexivity|]. cbn [map fold_left]. rewrite <- IH. f_equal. unfold nmin. cbn.
  destruct (Rlt_dec (b + d) (a + d)), (Rlt_dec b a); lra.
Qed.

Section Warmer.
Variable h_circular : R -> R -> R -> R -> R -> R -> R -> R.
Variable h_annulus : R -> R -> R -> R -> R -> R -> R -> R -> R * R.
Variable r_conduction : R -> R -> R -> R.
Variable eff_u : R -> pg_u -> R -> R -> R.
Variable eff_c : R -> pg_c -> R -> R -> R.
Variable brentq : (R -> res R) -> R -> R -> list R * res R.
Variable solver : list R -> list R -> list R -> list R -> list R.
Variable interp : ikind -> list (R * R) -> R -> R.
Variable field_response : R -> list (R * R) -> R -> R -> R -> res (list R).
Variable dlg : R -> R -> dialogue.
Variable st : settings.
Variable d : R.
Notation W := (warmer_ghe d).
Notation ws := (warmer d st).
Notation ssim := (ghe_simulate h_circular h_annulus r_conduction eff_u eff_c brentq solver interp).
Notation lobj := (local_objective h_circular h_annulus r_conduction eff_u eff_c brentq solver interp).
Notation conv := (converse h_circular h_annulus r_conduction eff_u eff_c brentq solver interp).
Notation gsize := (ghe_size h_circular h_annulus r_conduction eff_u eff_c brentq solver interp).
Definition both {A} (f : ghe -> ghe) (p : ghe * A) : ghe * A := (f (fst p), snd p).
Definition up_by (p : R * R) : R * R := (fst p + d, snd p + d).

Lemma detailed_step_warmer g H k Tg Rb m cp Q t dt i :
  detailed_step g H k (Tg + d) Rb m cp Q t dt i = rmap (fun p => (fst p + d, snd p)) (detailed_step g H k Tg Rb m cp Q t dt i).
Proof.
  unfold detailed_step. cbv zeta. rewrite ?bind_rmap. f_equal. extensionality ti. rewrite ?bind_rmap. f_equal. extensionality gv.
  rewrite ?bind_rmap. f_equal. extensionality sc. rewrite ?bind_rmap. f_equal. extensionality q. rewrite ?bind_rmap. f_equal. extensionality qh.
  rewrite ?bind_rmap. f_equal. extensionality x. cbn [rmap fst snd]. do 2 f_equal. cbn. ring.
Qed.
Lemma simulate_warmer g n H k Tg Rb m cp mt a b hourly load hour :
  simulate g n H k (Tg + d) Rb m cp mt a b hourly load hour =
  rmap (fun r => let '(T, D, mx, mn) := r in (map (fun t => t + d) T, D, mx + d, mn + d)) (simulate g n H k Tg Rb m cp mt a b hourly load hour).
Proof.
  unfold simulate. rewrite ?bind_rmap. f_equal. extensionality qt.
  assert (E : simulate_detailed g n H k (Tg + d) Rb m cp (fst qt) (snd qt) =
              rmap (fun r => (map (fun t => t + d) (fst r), snd r)) (simulate_detailed g n H k Tg Rb m cp (fst qt) (snd qt))).
  { unfold simulate_detailed. cbv zeta. rewrite ?bind_rmap. f_equal. extensionality u. rewrite ?bind_rmap. f_equal. extensionality q.
    rewrite (mapM_ext _ (fun i => rmap (fun p => (fst p + d, snd p)) (detailed_step g H k Tg Rb m cp (nofZ 0 :: q) (nofZ 0 :: snd qt) (diffs (nofZ 0 :: q)) i)))
      by (intros i _; apply detailed_step_warmer).
    rewrite mapM_rmap, rmap_bind, bind_rmap. f_equal. extensionality l. cbn [rmap fst snd]. now rewrite !map_map. }
  rewrite E, rmap_bind, bind_rmap. f_equal. extensionality r. destruct r as (T, D). cbn [fst snd]. destruct T as [|x T]; [reflexivity|].
  cbn [map nmaxl nminl bind rmap]. now rewrite fold_nmax_shift, fold_nmin_shift.
Qed.
Lemma ghe_simulate_warmer m s : ssim ws m (W s) = (W (fst (ssim st m s)), rmap up_by (snd (ssim st m s))).
Proof.
  unfold ghe_simulate. change (gh_B (W s)) with (gh_B s). change (gh_H (W s)) with (gh_H s). change (gh_bhe (W s)) with (gh_bhe s).
  change (gh_gf (W s)) with (gh_gf s).
  destruct (pydiv (gh_B s) (gh_H s)) as [q|]; [|reflexivity]. cbn [gh_bhe with_bhe].
  destruct (compute_equivalent _ _ _ _ _ _) as [e|]; [|reflexivity].
  change (short_time eff_u solver ws) with (short_time eff_u solver st).
  destruct (short_time _ _ _ _ _) as [r|]; [|reflexivity].
  cbn [gh_gf gh_sts with_short_time with_eq with_bhe]. change (st_rb ws) with (st_rb st). change (gh_gf (W s)) with (gh_gf s).
  destruct (grab_g_function _ _ _ _ _ _) as (t, [c|]); [|reflexivity].
  cbn [gh_nbh gh_ts gh_bhe gh_load gh_hour with_gf with_short_time with_eq with_bhe warmer_ghe with_results].
  change (st_ugt ws) with (st_ugt st + d). change (st_soil_k ws) with (st_soil_k st). change (st_fluid ws) with (st_fluid st).
  change (st_start ws) with (st_start st). change (st_end ws) with (st_end st). change (st_loads ws) with (st_loads st).
  rewrite simulate_warmer. destruct (simulate _ _ _ _ _ _ _ _ _ _ _ _ _ _) as [(((T, D), mx), mn)|]; reflexivity.
Qed.
Lemma excess_warmer r : excess ws (rmap up_by r) = excess st r.
Proof.
  destruct r as [(x, y)|]; [|reflexivity]. unfold excess, cost. cbn [rmap bind fst snd up_by]. f_equal.
  change (st_max_EFT ws) with (st_max_EFT st + d). change (st_min_EFT ws) with (st_min_EFT st + d). unfold up_by. cbn [fst snd]. cbn.
  f_equal; lra.
Qed.
Lemma local_objective_warmer m s H : lobj ws m (W s) H = both W (lobj st m s H).
Proof.
  unfold local_objective. change (with_H (W s) H) with (W (with_H s H)). rewrite ghe_simulate_warmer.
  destruct (ssim st m (with_H s H)) as (s', r). cbn [fst snd both]. now rewrite excess_warmer.
Qed.
Lemma converse_warmer m dd s : conv ws m dd (W s) = both W (conv st m dd s).
Proof.
  revert s. induction dd as [x next IH|r]; intro s; [|reflexivity]. cbn [converse]. rewrite local_objective_warmer.
  destruct (lobj st m s x) as (s', [v|]); [|reflexivity]. cbn [both fst snd]. apply IH.
Qed.
Lemma ghe_size_warmer m s : gsize ws dlg m (W s) = both W (gsize st dlg m s).
Proof.
  unfold ghe_size. change (st_min_H ws) with (st_min_H st). change (st_max_H ws) with (st_max_H st).
  destruct (pydiv _ _) as [g|]; [|reflexivity]. change (with_H (W s) g) with (W (with_H s g)). rewrite local_objective_warmer.
  destruct (lobj st m (with_H s g) (st_min_H st)) as (s1, [a|]); [|reflexivity]. cbn [both fst snd]. rewrite local_objective_warmer.
  destruct (lobj st m s1 (st_max_H st)) as (s2, [b|]); [|reflexivity]. cbn [both fst snd].
  destruct (bind (sign_of a) _) as [(u, v)|]; [|reflexivity]. destruct (negb _); [|reflexivity]. rewrite converse_warmer.
  now destruct (conv st m (dlg (st_min_H st) (st_max_H st)) s2) as (s3, [c|]).
Qed.

Variable flow : flow_kind.
Variable V_flow : R.
Variable log_time : list R.
Notation rdy := (ready h_circular h_annulus r_conduction eff_u eff_c brentq solver field_response).
Notation sup := (size_up h_circular h_annulus r_conduction eff_u eff_c brentq solver interp field_response dlg).

Lemma ready_warmer c H : rdy ws flow V_flow log_time c H = rmap W (rdy st flow V_flow log_time c H).
Proof.
  unfold ready, System.initialize_ghe. rewrite ?bind_rmap. change (st_fluid ws) with (st_fluid st). f_equal. extensionality fl.
  rewrite ?bind_rmap. change (st_rb ws) with (st_rb st). f_equal. extensionality B. rewrite ?bind_rmap.
  change (st_D ws) with (st_D st). f_equal. extensionality gf. unfold make_ghe. change (st_fluid ws) with (st_fluid st).
  rewrite ?bind_rmap. f_equal. extensionality f2. rewrite ?bind_rmap.
  change (make_bhe h_circular h_annulus r_conduction ws) with (make_bhe h_circular h_annulus r_conduction st). f_equal. extensionality b.
  rewrite ?bind_rmap. f_equal. extensionality e. rewrite ?bind_rmap.
  change (short_time eff_u solver ws) with (short_time eff_u solver st). f_equal. extensionality r. rewrite ?bind_rmap.
  change (st_loads ws) with (st_loads st). f_equal. extensionality hl. rewrite ?bind_rmap.
  change (hybrid_load eff_u ws) with (hybrid_load eff_u st). f_equal.
Qed.
Lemma compute_g_functions_warmer s : compute_g_functions field_response ws (W s) = rmap W (compute_g_functions field_response st s).
Proof. unfold compute_g_functions. rewrite ?bind_rmap. f_equal. extensionality hs. rewrite ?bind_rmap. f_equal. Qed.
Lemma size_up_warmer m s : sup ws m (W s) = rmap W (sup st m s).
Proof.
  unfold size_up. rewrite compute_g_functions_warmer, rmap_bind, bind_rmap. f_equal. extensionality s1. rewrite ghe_size_warmer.
  now destruct (gsize st dlg m s1) as (s2, [[]|]).
Qed.

Notation prog := (program h_circular h_annulus r_conduction eff_u eff_c brentq solver interp field_response dlg).
Notation whl := (whole h_circular h_annulus r_conduction eff_u eff_c brentq solver interp field_response dlg).
Notation left := (left_ghe h_circular h_annulus r_conduction eff_u eff_c brentq solver interp field_response dlg).
Variable m : method.

Lemma program_warmer gc r H : prog ws m flow V_flow log_time gc r H = prog st m flow V_flow log_time gc r H.
Proof.
  unfold program. change (st_min_H ws) with (st_min_H st). change (st_max_H ws) with (st_max_H st). f_equal.
  - extensionality c. extensionality h. unfold excess_of, System.calculate_excess. fold (rdy ws flow V_flow log_time c h). fold (rdy st flow V_flow log_time c h).
    rewrite ready_warmer, rmap_bind. destruct (rdy st flow V_flow log_time c h) as [s|]; [|reflexivity]. cbn [bind]. rewrite ghe_simulate_warmer. cbn [snd]. now rewrite excess_warmer.
  - extensionality c. unfold sized_height. change (st_max_H ws) with (st_max_H st). rewrite ready_warmer, rmap_bind. f_equal. extensionality s.
    rewrite size_up_warmer, rmap_bind. reflexivity.
Qed.
Lemma left_ghe_warmer r f : left ws flow V_flow log_time r f = rmap W (left st flow V_flow log_time r f).
Proof.
  unfold left_ghe. destruct (Search.ghe _ (snd f)) as (c, H).
  destruct r; try apply ready_warmer. change (st_max_H ws) with (st_max_H st). rewrite ready_warmer, rmap_bind, bind_rmap. f_equal. extensionality s. apply size_up_warmer.
Qed.
Lemma whole_warmer gc r H sm :
  whl ws m flow V_flow log_time gc r H sm = rmap (fun p => (fst p, W (snd p))) (whl st m flow V_flow log_time gc r H sm).
Proof.
  unfold whole. rewrite program_warmer, ?bind_rmap. f_equal. extensionality f. rewrite left_ghe_warmer, rmap_bind, bind_rmap. f_equal. extensionality s.
  rewrite size_up_warmer, rmap_bind, bind_rmap. f_equal.
Qed.
End Warmer.
