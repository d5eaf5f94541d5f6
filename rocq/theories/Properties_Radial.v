(** Properties C61-C64, C77-C79: the short-time-step borehole model (radial_numerical_borehole.py) *)
From Coq Require Import ZArith List Bool Reals Lia Lra.
From Verif Require Import Base Num BaseLemmas Loads LoadsSpec LoadsProofs LoadsSim Properties_Loads
  GheSpec Radial RadialSpec RadialProofs RadialGrid.
Import ListNotations.
Open Scope R_scope.

(** a borehole of radius 75 mm with a 26 mm pipe *)
Definition usual : utube := {| u_rb := 75 / 1000; u_H := 100; u_rin := 10 / 1000; u_rout := 13 / 1000; u_pipe_rhoCp := 1542000; u_fluid_rho := 998;
  u_fluid_cp := 4182; u_grout_rhoCp := 3901000; u_soil_k := 2; u_k_s := 2; u_soil_rhoCp := 2343000; u_Rf := 2 / 100; u_Rp := 1 / 10; u_Rb := 15 / 100 |}.
Lemma usual_admissible : admissible usual.
Proof. pose proof sqrt2_bounds. constructor; cbn; try lra; split; lra. Qed.
(** the standard elimination is a solver as assumed below *)
Example solver_exists : good_solver thomas.
Proof. exact thomas_good. Qed.

(** C61: the columns of the table are all filled; cells have positive size *)
Theorem C61_grid_complete :
  forall u, admissible u ->
  length (grid u) = num_cells /\ num_cells = 535%nat /\
  (forall i, (i < 535)%nat -> let c := cell_at (grid u) i in
     0 < c_in c /\ c_in c <= c_center c < c_out c /\ 0 < c_k c /\ 0 < c_rhoCp c /\ c_volume c = PI * (c_out c ^ 2 - c_in c ^ 2) /\
     c_type c = (if (i <? 3)%nat then FLUID else if (i <? 4)%nat then CONVECTION else if (i <? 8)%nat then PIPE else if (i <? 35)%nat then GROUT else SOIL)) /\
  c_out (cell_at (grid u) 534) = 10 - u_rb u /\ c_in (cell_at (grid u) 35) = u_rb u.
Proof.
  intros u Hu. split; [apply grid_length|]. split; [reflexivity|]. split; [|split].
  - intros i Hi c. destruct (grid_sound u Hu c) as (S1 & S2 & S3 & S4 & S5); [apply nth_In; rewrite grid_length; exact Hi|].
    split; [exact S1|]. split; [exact S2|]. split; [exact S3|]. split; [exact S4|]. split; [exact S5|].
    unfold c. rewrite grid_at by exact Hi.
    destruct (i <? 3)%nat; [reflexivity|]. destruct (i <? 4)%nat; [reflexivity|]. destruct (i <? 8)%nat; [reflexivity|]. destruct (i <? 35)%nat; reflexivity.
  - rewrite grid_at by (vm_compute; lia). cbv beta iota. change (cell_at (grid u) 534) with (cell_at (grid u) 534).
    replace (534 <? 3)%nat with false by reflexivity. replace (534 <? 4)%nat with false by reflexivity. replace (534 <? 8)%nat with false by reflexivity.
    replace (534 <? 35)%nat with false by reflexivity. unfold soil_cell, layer_cell, thickness_soil. cbn [c_out]. unfold r_borehole, r_far_field.
    replace (INR num_soil_cells) with 500 by (unfold num_soil_cells; rewrite INR_IZR_INZ; reflexivity).
    replace (INR (534 - 35)) with 499 by (rewrite INR_IZR_INZ; reflexivity). field.
  - rewrite grid_at by (vm_compute; lia). replace (35 <? 3)%nat with false by reflexivity. replace (35 <? 4)%nat with false by reflexivity.
    replace (35 <? 8)%nat with false by reflexivity. replace (35 <? 35)%nat with false by reflexivity. unfold soil_cell, layer_cell. cbn [c_in].
    replace (35 - 35)%nat with 0%nat by reflexivity. cbn [INR]. unfold r_borehole. ring.
Qed.
(** every cell begins where the previous one ends, except the convection cell and the first grout cell *)
Theorem C61_contiguous_partial :
  forall u i, (S i < 535)%nat -> i <> 2%nat -> i <> 7%nat -> c_out (cell_at (grid u) i) = c_in (cell_at (grid u) (S i)).
Proof. intros u i Hi. apply grid_contiguous. exact Hi. Qed.
(** between fluid and convection cells there is a gap of half a fluid cell; the pipe cells reach three wall thicknesses into the grout *)
Theorem C61_gap_and_overlap :
  forall u, admissible u ->
  c_in (cell_at (grid u) 3) - c_out (cell_at (grid u) 2) = (u_rout u - u_rin u) / 8 /\
  c_out (cell_at (grid u) 7) - c_in (cell_at (grid u) 8) = 3 * (u_rout u - u_rin u).
Proof.
  intros u Hu. destruct (geometry u Hu) as (_ & _ & _ & _ & _ & _ & _ & _ & _ & E1 & E2).
  rewrite !grid_at by (vm_compute; lia). cbn [Nat.ltb Nat.leb Nat.sub]. unfold fluid_cell, conv_cell, pipe_cell, grout_cell, layer_cell. cbn [c_in c_out].
  rewrite E1. fold (thickness_pipe u). unfold r_fluid, r_in_tube. cbn [INR]. split; field.
Qed.
Theorem C61_contiguous_refuted :
  exists u i, admissible u /\ (S i < 535)%nat /\ c_in (cell_at (grid u) (S i)) < c_out (cell_at (grid u) i).
Proof.
  exists usual, 7%nat. split; [exact usual_admissible|]. split; [lia|].
  destruct (C61_gap_and_overlap usual usual_admissible) as (_ & E). cbn [usual u_rout u_rin] in E. lra.
Qed.

(** C62: the system of a time step has exactly one solution, which is the heat balance of every cell *)
Theorem C62_step :
  forall solver heat_flux dt cells T, good_solver solver -> 0 < dt -> physical cells -> (2 <= length cells)%nat -> length T = length cells ->
  let T' := step solver heat_flux dt cells T in
  balance heat_flux dt cells T T' /\
  (forall X, solves (lower dt cells) (diagonal dt cells) (upper dt cells) (right_side heat_flux dt cells T) X -> X = T') /\
  (forall X, balance heat_flux dt cells T X -> X = T').
Proof.
  intros solver q dt cells T Hs Hdt Hp Hn HT T'. assert (B : balance q dt cells T T') by now apply step_balance.
  split; [exact B|]. split.
  - intros X HX. apply solves_balance in HX; [|assumption..]. exact (balance_unique dt cells q T X T' Hdt Hp Hn HX B).
  - intros X HX. exact (balance_unique dt cells q T X T' Hdt Hp Hn HX B).
Qed.
(** the stored heat changes by what is injected less what leaves to the outermost cell *)
Theorem C62_energy :
  forall solver heat_flux dt cells T, good_solver solver -> 0 < dt -> physical cells -> (2 <= length cells)%nat -> length T = length cells ->
  let T' := step solver heat_flux dt cells T in
  sum_to (length cells - 1) (fun i => heat_capacity (cell_at cells i) * (at_ T' i - at_ T i)) = dt * (heat_flux - flow cells T' (length cells - 2)).
Proof. intros solver q dt cells T Hs Hdt Hp Hn HT T'. apply balance_total; [assumption|]. now apply step_balance. Qed.
Theorem C62_grid : forall u, admissible u -> physical (grid u).
Proof. exact grid_physical. Qed.
Example C62_example :
  let c := fun r => {| c_type := SOIL; c_in := r; c_center := r + / 2; c_out := r + 1; c_thick := 1; c_k := 1; c_rhoCp := 1; c_volume := PI * ((r + 1) ^ 2 - r ^ 2) |} in
  physical [c 1; c 2; c 3].
Proof.
  intro c. apply sound_physical. assert (H : forall r, 1 <= r -> sound (c r)).
  { intros r Hr. unfold sound, c. cbn [c_in c_center c_out c_k c_rhoCp c_volume]. repeat split; lra. }
  intros x [<-|[<-|[<-|[]]]]; apply H; lra.
Qed.

(** C63 *)
Lemma Ok_pair {A B} (a c : A) (b d : B) : Ok (a, b) = Ok (c, d) -> a = c /\ b = d.
Proof. intros [= -> ->]. auto. Qed.
Theorem C63_temperatures :
  forall solver heat_flux dt cells a k i, good_solver solver -> 0 < dt -> physical cells -> (2 <= length cells)%nat -> 0 <= heat_flux -> (i < length cells)%nat ->
  let T := fun k => after solver heat_flux dt cells (map (fun _ => a) cells) k in
  a <= at_ (T k) i <= at_ (T (S k)) i /\ at_ (T k) 0 <= a + heat_flux * total_resistance cells /\
  ((S i < length cells)%nat -> 0 <= flow cells (T k) i <= heat_flux) /\ (0 < heat_flux -> a < at_ (T (S k)) 0).
Proof.
  intros solver q dt cells a k i Hs Hdt Hp Hn Hq Hi T. change (map (fun _ => a) cells) with (uniform cells a) in T.
  split; [split; [now apply after_above|now apply after_rises]|]. split; [|split].
  - rewrite <- (steady_fluid q cells Hn a). apply after_below; try assumption. lia.
  - intro Hi'. now apply after_flows.
  - intro Hq'. induction k as [|k IH]; [now apply first_step_strict|]. eapply Rlt_le_trans; [exact IH|]. apply after_rises; try assumption. lia.
Qed.
(** the recorded g-function: never falls, stays below its steady value; the same for every solver *)
Theorem C63_g_function :
  forall solver u fuel final lntts g, good_solver solver -> admissible u -> calc_sts_g_functions fuel solver u final false = Ok (lntts, g) ->
  nondecreasing g /\
  (forall x, In x g -> - (2 * PI * u_soil_k u * u_Rb u) < x <= 2 * PI * u_soil_k u * (total_resistance (grid u) - u_Rb u)) /\
  (forall solver', good_solver solver' -> calc_sts_g_functions fuel solver' u final false = Ok (lntts, g)).
Proof.
  intros solver u fuel final lntts g Hs Hu E. destruct (calc_ok solver u final) as (m & M1 & M2 & M3 & M4).
  assert (Hf : (m < fuel)%nat) by (apply Nat.nle_gt; intro X; rewrite M3 in E by exact X; discriminate).
  rewrite M4 in E by exact Hf. destruct (Ok_pair _ _ _ _ E) as (El & Eg).
  assert (Hc : 0 < c_0 u). { pose proof PI_RGT_0. destruct Hu as [_ _ _ _ _ _ _ _ Hk _ _ _ _ _]. unfold c_0. apply Rmult_lt_0_compat; lra. }
  pose proof (grid_physical u Hu) as Hp. pose proof (grid_two u) as Hn.
  set (T := fun k => at_ (after solver 1 120 (grid u) (uniform (grid u) 20) k) 0) in *.
  assert (C : forall k, 20 <= T k <= T (S k) /\ T k <= 20 + 1 * total_resistance (grid u) /\ 20 < T (S k)).
  { intro k. destruct (C63_temperatures solver 1 120 (grid u) 20 k 0 Hs ltac:(lra) Hp Hn ltac:(lra) ltac:(lia)) as (A & B & _ & D).
    split; [exact A|]. split; [exact B|]. apply D. lra. }
  split; [|split].
  - rewrite <- Eg. apply nondecreasing_map. intros n _. apply Rmult_le_compat_l; [lra|]. pose proof (C (S n)).
    change (T (S n) - 20 - u_Rb u <= T (S (S n)) - 20 - u_Rb u). lra.
  - intros x Hx. rewrite <- Eg in Hx. apply in_map_iff in Hx. destruct Hx as (j & <- & _). fold (c_0 u).
    change (- (c_0 u * u_Rb u) < c_0 u * (T (S j) - 20 - u_Rb u) <= c_0 u * (total_resistance (grid u) - u_Rb u)).
    destruct (C j) as (_ & _ & C2). destruct (C (S j)) as (_ & C1 & _). split.
    + replace (- (c_0 u * u_Rb u)) with (c_0 u * (- u_Rb u)) by ring. apply Rmult_lt_compat_l; lra.
    + apply Rmult_le_compat_l; lra.
  - intros solver' Hs'. destruct (calc_ok solver' u final) as (m' & N1 & N2 & _ & N4).
    assert (m' = m) as ->.
    { destruct (lt_eq_lt_dec m' m) as [[l|e]|l]; [specialize (M2 m' l); lra|exact e|specialize (N2 m l); lra]. }
    rewrite N4 by exact Hf. rewrite <- El, <- Eg. f_equal. f_equal. apply map_ext. intro j.
    rewrite (after_shift solver solver' 1 120 (grid u) 20) by (assumption || lra).
    rewrite (after_shift solver' solver' 1 120 (grid u) 20) by (assumption || lra). reflexivity.
Qed.

(** C64 *)
Theorem C64_two_days_covered :
  forall solver u, admissible u -> exists m,
  (forall fuel, (m < fuel)%nat -> exists g, length g = S m /\ calc_sts_g_functions fuel solver u None false
     = Ok (map (fun j => ln ((/ 1000000000000 + 120 * INR j) / t_s u)) (seq 0 (S m)), g)) /\
  increasing (map (fun j => ln ((/ 1000000000000 + 120 * INR j) / t_s u)) (seq 0 (S m))) /\
  (forall h, 1 <= h <= 48 -> ln ((/ 1000000000000 + 120 * INR 0) / t_s u) < ln (3600 * h / t_s u) < ln ((/ 1000000000000 + 120 * INR m) / t_s u)) /\
  calc_time_in_sec u - 120 <= / 1000000000000 + 120 * INR m < calc_time_in_sec u.
Proof.
  intros solver u Hu. destruct (calc_ok solver u None) as (m & M1 & M2 & _ & M4). exists m. cbn [final_of] in M1, M2.
  split; [|split; [|split]].
  - intros fuel Hf. rewrite M4 by exact Hf. eexists. split; [|reflexivity]. now rewrite map_length, seq_length.
  - fold entry_time.
    assert (G : forall n a, increasing (map (fun j => ln (entry_time j / t_s u)) (seq a (S n)))); [|apply G].
    induction n as [|n IH]; intro a; [exact I|].
    change (map ?f (seq a (S (S n)))) with (f a :: f (S a) :: map f (seq (S (S a)) n)). split; [|apply (IH (S a))].
    apply ln_time_lt; [exact Hu|]. split; [apply entry_pos|apply entry_lt].
  - intros h Hh. pose proof (calc_time_covers u). fold (entry_time 0) (entry_time m). split; apply ln_time_lt; try exact Hu.
    + unfold entry_time. cbn [INR]. lra.
    + lra.
  - fold (entry_time m). split; [exact M1|]. pose proof (calc_time_covers u) as Ct. destruct m as [|m].
    + unfold entry_time. cbn [INR]. lra.
    + specialize (M2 m ltac:(lia)). unfold entry_time in *. rewrite S_INR. lra.
Qed.
Theorem C64_wall_option : forall fuel solver u final, (0 < fuel)%nat -> calc_sts_g_functions fuel solver u final true = Err ValueError.
Proof. intros fuel solver u final Hf. destruct fuel; [lia|]. reflexivity. Qed.

(** C78: the two-day peak analysis (C40) may use this g-function *)
Fixpoint climbing (l : list (R * R)) : Prop :=
  match l with p :: ((q :: _) as r) => fst p < fst q /\ snd p <= snd q /\ climbing r | _ => True end.
Lemma climbing_tail p l : climbing (p :: l) -> climbing l.
Proof. destruct l; cbn; tauto. Qed.
Lemma climbing_map (X Y : nat -> R) : forall k a, (forall n, X n < X (S n)) -> (forall n, Y n <= Y (S n)) -> climbing (map (fun n => (X n, Y n)) (seq a k)).
Proof.
  induction k as [|[|k] IH]; intros a HX HY; [exact I|exact I|].
  change (map ?f (seq a (S (S k)))) with (f a :: f (S a) :: map f (seq (S (S a)) k)). cbn [climbing fst snd].
  split; [apply HX|]. split; [apply HY|]. apply (IH (S a)); assumption.
Qed.
Lemma climbing_interp l : forall p v, climbing (p :: l) -> fst p <= v <= fst (last (p :: l) (0, 0)) ->
  exists y, interp_sorted (p :: l) v = Ok y /\ snd p <= y.
Proof.
  induction l as [|q l IH]; intros p v Hc Hv.
  - cbn [last] in Hv. cbn [interp_sorted]. rewrite (proj2 (neqb_R _ _)) by lra. exists (snd p). split; [reflexivity|lra].
  - rewrite interp_cons2. destruct Hc as (H1 & H2 & Hc). change (last (p :: q :: l) (0, 0)) with (last (q :: l) (0, 0)) in Hv. destruct (nle (fst q) v) eqn:E.
    + apply nle_R in E. destruct (IH q v Hc ltac:(lra)) as (y & Ey & Hy). exists y. split; [exact Ey|lra].
    + apply nle_R_false in E. rewrite (proj2 (nle_R _ _)) by lra. rewrite pydiv_R by (cbn [nsub NumR]; lra). cbn [bind].
      eexists. split; [reflexivity|]. cbn [nadd nmul nsub ndivr NumR].
      assert (0 <= (snd q - snd p) / (fst q - fst p)) by (apply Rmult_le_pos; [lra|left; apply Rinv_0_lt_compat; lra]). nra.
Qed.
Lemma climbing_mono l : forall p v v' y y', climbing (p :: l) -> v <= v' -> interp_sorted (p :: l) v = Ok y -> interp_sorted (p :: l) v' = Ok y' ->
  v' <= fst (last (p :: l) (0, 0)) -> y <= y'.
Proof.
  induction l as [|q l IH]; intros p v v' y y' Hc Hv E E' Hl.
  - cbn [interp_sorted] in E, E'. destruct (neqb (fst p) v); [|discriminate]. destruct (neqb (fst p) v'); [|discriminate].
    assert (y = y') by congruence. lra.
  - rewrite interp_cons2 in E, E'. destruct Hc as (H1 & H2 & Hc). change (last (p :: q :: l) (0, 0)) with (last (q :: l) (0, 0)) in Hl.
    destruct (nle (fst q) v) eqn:A.
    + assert (A' : nle (fst q) v' = true) by (apply nle_R in A; apply nle_R; lra). rewrite A' in E'. exact (IH q v v' y y' Hc Hv E E' Hl).
    + apply nle_R_false in A. destruct (nle (fst p) v) eqn:P; [|discriminate]. apply nle_R in P.
      rewrite pydiv_R in E by (cbn [nsub NumR]; lra). cbn [bind] in E. injection E as <-. cbn [nadd nmul nsub ndivr NumR].
      set (k := (snd q - snd p) / (fst q - fst p)). assert (K : 0 <= k) by (apply Rmult_le_pos; [lra|left; apply Rinv_0_lt_compat; lra]).
      assert (Kq : snd q = k * (fst q - fst p) + snd p) by (unfold k; field; lra).
      destruct (nle (fst q) v') eqn:A'.
      * apply nle_R in A'. destruct (climbing_interp l q v' Hc ltac:(lra)) as (y2 & Ey & Hy). assert (y2 = y') as -> by congruence.
        assert (k * (v - fst p) <= k * (fst q - fst p)) by (apply Rmult_le_compat_l; lra). lra.
      * rewrite (proj2 (nle_R _ _)) in E' by lra. rewrite pydiv_R in E' by (cbn [nsub NumR]; lra). cbn [bind] in E'. injection E' as <-.
        cbn [nadd nmul nsub ndivr NumR]. fold k. assert (k * (v - fst p) <= k * (v' - fst p)) by (apply Rmult_le_compat_l; lra). lra.
Qed.
Lemma climbing_sorted l : climbing l -> nondecreasing (map fst l).
Proof.
  induction l as [|p [|q l] IH]; intro Hc; [exact I|exact I|]. destruct Hc as (H1 & _ & Hc). cbn [map]. split; [lra|]. now apply IH.
Qed.
Lemma last_map_seq {A} (f : nat -> A) d n a : last (map f (seq a (S n))) d = f (a + n)%nat.
Proof.
  revert a. induction n as [|n IH]; intro a; [cbn; f_equal; lia|].
  change (map f (seq a (S (S n)))) with (f a :: map f (seq (S a) (S n))). 
  change (last (f a :: map f (seq (S a) (S n))) d) with (last (map f (seq (S a) (S n))) d). rewrite IH. f_equal. lia.
Qed.
Theorem C78_response_suits_peak_analysis :
  forall solver u fuel lntts g, good_solver solver -> admissible u -> calc_sts_g_functions fuel solver u None false = Ok (lntts, g) ->
  let gt := fun h => interp1d lntts g (ln (h * 3600 / t_s u)) in
  exists gv, (forall m, (1 <= m <= 48)%nat -> gt (IZR (Z.of_nat m)) = Ok (gv m)) /\
  step_response (fun m => gv m / (2 * PI * u_soil_k u) + u_Rb u).
Proof.
  intros solver u fuel lntts g Hs Hu E gt. destruct (calc_ok solver u None) as (m & M1 & _ & M3 & M4). cbn [final_of] in M1.
  assert (Hf : (m < fuel)%nat) by (apply Nat.nle_gt; intro X; rewrite M3 in E by exact X; discriminate).
  rewrite M4 in E by exact Hf. destruct (Ok_pair _ _ _ _ E) as (El & Eg).
  assert (Hc : 0 < c_0 u). { pose proof PI_RGT_0. destruct Hu as [_ _ _ _ _ _ _ _ Hk _ _ _ _ _]. unfold c_0. apply Rmult_lt_0_compat; lra. }
  pose proof (grid_physical u Hu) as Hp. pose proof (grid_two u) as Hn. pose proof (calc_time_covers u) as Ct.
  set (X := fun j => ln (entry_time j / t_s u)) in *.
  set (Y := fun j => c_0 u * (at_ (after solver 1 120 (grid u) (uniform (grid u) 20) (S j)) 0 - 20 - u_Rb u)) in *.
  assert (HX : forall n, X n < X (S n)) by (intro n; apply ln_time_lt; [exact Hu|]; split; [apply entry_pos|apply entry_lt]).
  assert (HY : forall n, Y n <= Y (S n) /\ - (c_0 u * u_Rb u) <= Y n).
  { intro n. destruct (C63_temperatures solver 1 120 (grid u) 20 (S n) 0 Hs ltac:(lra) Hp Hn ltac:(lra) ltac:(lia)) as (A & _).
    change (map (fun _ => 20) (grid u)) with (uniform (grid u) 20) in A. split.
    - apply Rmult_le_compat_l; lra.
    - replace (- (c_0 u * u_Rb u)) with (c_0 u * (- u_Rb u)) by ring. apply Rmult_le_compat_l; lra. }
  set (pts := map (fun j => (X j, Y j)) (seq 0 (S m))).
  assert (Cl : climbing pts) by (apply climbing_map; [exact HX|intro n; apply HY]).
  assert (Eg' : forall h, gt h = interp_sorted pts (ln (h * 3600 / t_s u))).
  { intro h. unfold gt, interp1d. rewrite <- El, <- Eg. rewrite combine_map2. fold pts. rewrite sort_sorted; [reflexivity|]. now apply climbing_sorted. }
  assert (Ep : pts = (X 0%nat, Y 0%nat) :: map (fun j => (X j, Y j)) (seq 1 m)) by reflexivity.
  assert (El' : fst (last pts (0, 0)) = X m) by (unfold pts; rewrite last_map_seq; reflexivity).
  assert (Rng : forall k, (1 <= k <= 48)%nat -> X 0%nat <= ln (IZR (Z.of_nat k) * 3600 / t_s u) <= X m).
  { intros k Hk. assert (1 <= IZR (Z.of_nat k) <= 48) by (split; apply IZR_le; lia). split; apply ln_time_le; try exact Hu.
    - unfold entry_time. cbn [INR]. lra.
    - lra. }
  assert (Ex : forall k, exists y, ((1 <= k <= 48)%nat -> gt (IZR (Z.of_nat k)) = Ok y /\ Y 0%nat <= y)).
  { intro k. destruct (le_lt_dec 1 k) as [k1|k1]; [|exists 0; intros; lia]. destruct (le_lt_dec k 48) as [k2|k2]; [|exists 0; intros; lia].
    pose proof (Rng k ltac:(lia)) as Rk. rewrite Eg'. rewrite Ep in *. destruct (climbing_interp _ _ (ln (IZR (Z.of_nat k) * 3600 / t_s u)) Cl) as (y & Ey & Hy).
    - rewrite El'. exact Rk.
    - exists y. intros _. split; [exact Ey|exact Hy]. }
  exists (fun k => match gt (IZR (Z.of_nat k)) with Ok y => y | Err _ => 0 end). split.
  - intros k Hk. destruct (Ex k) as (y & Hy). destruct (Hy Hk) as (Ey & _). rewrite Ey. reflexivity.
  - split.
    + destruct (Ex 1%nat) as (y & Hy). destruct (Hy ltac:(lia)) as (Ey & Hy'). rewrite Ey. fold (c_0 u).
      destruct (HY 0%nat) as (_ & Hlow). assert (- u_Rb u <= y / c_0 u).
      { apply Rmult_le_reg_r with (c_0 u); [exact Hc|]. unfold Rdiv. rewrite Rmult_assoc, Rinv_l by lra. lra. }
      lra.
    + intros n Hnn. destruct (Ex n) as (y & Hy). destruct (Hy ltac:(lia)) as (Ey & _). destruct (Ex (S n)) as (y' & Hy'). destruct (Hy' ltac:(lia)) as (Ey' & _).
      rewrite Ey, Ey'. fold (c_0 u). assert (y <= y').
      { rewrite Eg' in Ey, Ey'. rewrite Ep in *. eapply climbing_mono; [exact Cl| |exact Ey|exact Ey'|].
        - assert (1 <= IZR (Z.of_nat n)) by (apply IZR_le; lia). pose proof (t_s_pos u Hu).
          apply ln_time_le; [exact Hu|]. split; [lra|]. assert (IZR (Z.of_nat n) <= IZR (Z.of_nat (S n))) by (apply IZR_le; lia). lra.
        - rewrite El'. apply Rng. lia. }
      assert (y / c_0 u <= y' / c_0 u); [|lra]. unfold Rdiv. apply Rmult_le_compat_r; [left; now apply Rinv_0_lt_compat|assumption].
Qed.

(** so the analysis of a year of loads with the g-function of an admissible borehole gives a duration of at most two days for every month *)
Theorem C78_peak_durations_exist :
  forall solver u fuel lntts g year hourly, good_solver solver -> admissible u -> calc_sts_g_functions fuel solver u None false = Ok (lntts, g) ->
  Z.of_nat (length hourly) = (24 * days_in_year year)%Z -> (forall x, In x hourly -> 0 <= x) ->
  (forall td ts ps avs ds i w mp, split_load_by_month year hourly = Ok (ts, ps, avs, ds) -> process_two_day_loads year hourly ds = Ok td ->
     (1 <= i <= 12)%Z -> nth_error td (Z.to_nat i) = Some w -> nth_error ps (Z.to_nat i) = Some mp ->
     (forall x, In x w -> x <= mp) \/ exists x, In x w /\ mp + / 10 <= x) ->
  exists ld, make_loads (fun h => interp1d lntts g (ln (h * 3600 / t_s u))) (2 * PI * u_soil_k u) (u_Rb u) year hourly = Ok ld /\
  length (ld_duration ld) = 13%nat /\ forall i, (1 <= i <= 12)%Z -> exists d, nth_error (ld_duration ld) (Z.to_nat i) = Some d /\ 0 < d <= 48.
Proof.
  intros solver u fuel lntts g year hourly Hs Hu E L NN CL.
  destruct (C78_response_suits_peak_analysis solver u fuel lntts g Hs Hu E) as (gv & GT & SR).
  assert (K : 2 * PI * u_soil_k u <> 0).
  { pose proof PI_RGT_0. destruct Hu as [_ _ _ _ _ _ _ _ Hk _ _ _ _ _]. apply Rgt_not_eq. apply Rmult_lt_0_compat; lra. }
  destruct (C40_all_months_partial (fun h => interp1d lntts g (ln (h * 3600 / t_s u))) (2 * PI * u_soil_k u) (u_Rb u) gv K GT SR year hourly L NN CL) as (ld & E1 & E2 & E3).
  exists ld. split; [exact E1|]. split; [exact E2|]. intros i Hi. destruct (E3 i Hi) as (w & mp & av & p & d & _ & _ & _ & D1 & D2 & _). eauto.
Qed.

(** C77: heat capacity of the fluid cells *)
Theorem C77_fluid_capacity :
  forall u, admissible u ->
  let C := sum_to 3 (fun i => heat_capacity (cell_at (grid u) i)) in
  let a := r_in_convection u in let b := r_fluid u in
  C = 2 * PI * u_rin u ^ 2 * u_fluid_rho u * u_fluid_cp u * (((5 * a + b) / 6) ^ 2 - b ^ 2) / (a ^ 2 - b ^ 2) /\
  C < 2 * PI * u_rin u ^ 2 * u_fluid_rho u * u_fluid_cp u.
Proof.
  intros u Hu C a b. destruct (geometry u Hu) as (_ & (F & F2) & _). destruct Hu as [A1 _ _ _ _ Ar Ac _ _ _ _ _ _ _].
  fold a b in F, F2. assert (D : 0 < a ^ 2 - b ^ 2) by (cbn; nra). pose proof PI_RGT_0 as P.
  set (M := 2 * PI * u_rin u ^ 2 * u_fluid_rho u * u_fluid_cp u).
  assert (Mp : 0 < M).
  { assert (0 < u_rin u ^ 2) by (apply pow_lt; lra). unfold M. apply Rmult_lt_0_compat; [|exact Ac]. apply Rmult_lt_0_compat; [|exact Ar].
    apply Rmult_lt_0_compat; [lra|assumption]. }
  assert (EC : C = M * (((5 * a + b) / 6) ^ 2 - b ^ 2) / (a ^ 2 - b ^ 2)).
  { unfold C. cbn [sum_to]. rewrite !grid_at by (vm_compute; lia). cbn [Nat.ltb Nat.leb]. unfold heat_capacity, fluid_cell, cell_volume, thickness_fluid.
    cbn [c_rhoCp c_volume]. fold a b. replace (INR num_fluid_cells) with 3 by (unfold num_fluid_cells; cbn; ring). cbn [INR]. unfold M. field. lra. }
  split; [exact EC|]. rewrite EC. apply Rmult_lt_reg_r with (a ^ 2 - b ^ 2); [exact D|].
  unfold Rdiv. rewrite Rmult_assoc, Rinv_l by lra. rewrite Rmult_1_r. apply Rmult_lt_compat_l; [exact Mp|].
  assert (((5 * a + b) * / 6) ^ 2 < a ^ 2); [|lra]. assert (0 < (5 * a + b) * / 6 < a) by lra. cbn. nra.
Qed.
Theorem C77_fluid_capacity_refuted :
  exists u, admissible u /\ sum_to 3 (fun i => heat_capacity (cell_at (grid u) i)) <> 2 * PI * u_rin u ^ 2 * u_fluid_rho u * u_fluid_cp u.
Proof. exists usual. split; [exact usual_admissible|]. destruct (C77_fluid_capacity usual usual_admissible) as (_ & L). lra. Qed.

(** C79: resistance of the layers between fluid and ground *)
Definition cell_resistance (c : cell) : R := wall_resistance (c_in c) (c_out c) (c_k c).
Theorem C79_layers_partial :
  forall u, admissible u ->
  let r_i := r_in_tube u in let r_o := sqrt 2 * u_rout u in let r_b := u_rb u in let t := u_rout u - u_rin u in
  cell_resistance (cell_at (grid u) 3) = u_Rf u / 2 /\
  sum_to 4 (fun j => cell_resistance (cell_at (grid u) (4 + j))) = u_Rp u / 2 * (ln ((r_i + 4 * t) / r_i) / ln (r_b / r_i)) /\
  sum_to 27 (fun j => cell_resistance (cell_at (grid u) (8 + j))) = (u_Rb u - u_Rf u / 2) * (ln (r_b / r_o) / ln (r_b / r_i)).
Proof.
  intros u Hu r_i r_o r_b t. destruct (geometry u Hu) as (T & (F & F2) & G1 & G2 & G3 & TF & TC & TG & TS & _ & EC). pose proof PI_RGT_0 as P.
  pose proof Hu as [_ _ _ _ _ _ _ _ _ _ _ ARf ARp ARb].
  assert (L1 : 0 < ln (r_b / r_i)) by (apply ln_pos_ratio; unfold r_b, r_i; unfold r_borehole in G3; lra).
  assert (L2 : 0 < ln (r_in_tube u / r_in_convection u)) by (apply ln_pos_ratio; lra).
  split; [|split].
  - rewrite grid_at by (vm_compute; lia). cbn [Nat.ltb Nat.leb Nat.sub]. unfold conv_cell, cell_resistance, layer_cell. cbn [c_in c_out c_k INR].
    replace (r_in_convection u + 0 * thickness_conv u) with (r_in_convection u) by ring.
    replace (r_in_convection u + thickness_conv u) with (r_in_tube u) by (rewrite EC; unfold r_in_convection; field).
    unfold wall_resistance. field. repeat split; lra.
  - rewrite (sum_to_ext 4 _ (fun j => wall_resistance (c_in (pipe_cell u j)) (c_out (pipe_cell u j)) (ln (r_borehole u / r_in_tube u) / (2 * PI * (u_Rp u / 2))))).
    2:{ intros j Hj. rewrite grid_at by (unfold num_cells, num_fluid_cells, num_conv_cells, num_grout_cells; lia).
        destruct (Nat.ltb_spec (4 + j) 3); [lia|]. destruct (Nat.ltb_spec (4 + j) 4); [lia|]. destruct (Nat.ltb_spec (4 + j) 8); [|lia].
        replace (4 + j - 4)%nat with j by lia. reflexivity. }
    unfold pipe_cell. rewrite layer_resistance; [|lra|lra|].
    + fold r_i. change (thickness_pipe u) with t. change (r_borehole u) with r_b. replace (INR 4) with 4 by (rewrite INR_IZR_INZ; reflexivity).
      unfold wall_resistance. field. repeat split; lra.
    + apply Rdiv_lt_0_compat; [exact L1|apply Rmult_lt_0_compat; lra].
  - rewrite (sum_to_ext 27 _ (fun j => wall_resistance (c_in (grout_cell u j)) (c_out (grout_cell u j)) (ln (r_borehole u / r_in_tube u) / (2 * PI * (u_Rb u - u_Rf u / 2))))).
    2:{ intros j Hj. rewrite grid_at by (unfold num_cells, num_fluid_cells, num_conv_cells, num_grout_cells; lia).
        destruct (Nat.ltb_spec (8 + j) 3); [lia|]. destruct (Nat.ltb_spec (8 + j) 4); [lia|]. destruct (Nat.ltb_spec (8 + j) 8); [lia|].
        destruct (Nat.ltb_spec (8 + j) 35); [|lia]. replace (8 + j - 8)%nat with j by lia. reflexivity. }
    unfold grout_cell. rewrite layer_resistance; [|lra|lra|].
    + replace (r_out_tube u + INR 27 * thickness_grout u) with r_b.
      * fold r_i. change (r_borehole u) with r_b. change (r_out_tube u) with r_o. unfold wall_resistance. field. repeat split; lra.
      * unfold thickness_grout. replace (INR num_grout_cells) with (INR 27) by reflexivity. unfold r_borehole. fold r_b. field.
        apply Rgt_not_eq. apply INR_pos_lit. lia.
    + apply Rdiv_lt_0_compat; [exact L1|apply Rmult_lt_0_compat; lra].
Qed.
(** pipe and grout cells do not have the resistance between tube and ground for which they are made *)
Theorem C79_layers_refuted :
  exists u, admissible u /\ sum_to 4 (fun j => cell_resistance (cell_at (grid u) (4 + j))) + sum_to 27 (fun j => cell_resistance (cell_at (grid u) (8 + j)))
    <> u_Rb u - u_Rf u / 2.
Proof.
  set (v := fun p => {| u_rb := 75 / 1000; u_H := 100; u_rin := 10 / 1000; u_rout := 13 / 1000; u_pipe_rhoCp := 1542000; u_fluid_rho := 998;
    u_fluid_cp := 4182; u_grout_rhoCp := 3901000; u_soil_k := 2; u_k_s := 2; u_soil_rhoCp := 2343000; u_Rf := 2 / 100; u_Rp := p; u_Rb := 15 / 100 |}).
  assert (Av : forall p, 0 < p -> admissible (v p)) by (intros p Hp; pose proof sqrt2_bounds; constructor; cbn; try lra; split; lra).
  destruct (C79_layers_partial (v 1) (Av 1 ltac:(lra))) as (_ & P1 & Q1). destruct (C79_layers_partial (v 2) (Av 2 ltac:(lra))) as (_ & P2 & Q2).
  set (S1 := sum_to 4 (fun j => cell_resistance (cell_at (grid (v 1)) (4 + j)))) in *. set (S2 := sum_to 4 (fun j => cell_resistance (cell_at (grid (v 2)) (4 + j)))) in *.
  set (G1 := sum_to 27 (fun j => cell_resistance (cell_at (grid (v 1)) (8 + j)))) in *. set (G2 := sum_to 27 (fun j => cell_resistance (cell_at (grid (v 2)) (8 + j)))) in *.
  change (r_in_tube (v 2)) with (r_in_tube (v 1)) in P2, Q2. cbn [v u_rout u_rin u_rb u_Rp u_Rb u_Rf] in P1, P2, Q1, Q2.
  assert (EG : G1 = G2) by congruence.
  destruct (geometry (v 1) (Av 1 ltac:(lra))) as (T & (F & F2) & B1 & B2 & B3 & _). unfold r_borehole in B3. cbn [v u_rb] in B3.
  set (x := ln ((r_in_tube (v 1) + 4 * (13 / 1000 - 10 / 1000)) / r_in_tube (v 1)) / ln (75 / 1000 / r_in_tube (v 1))) in *.
  assert (0 < x). { unfold x. apply Rdiv_lt_0_compat; apply ln_pos_ratio; lra. }
  destruct (Req_dec (S1 + G1) (15 / 100 - 2 / 100 / 2)) as [e|n].
  - exists (v 2). split; [apply Av; lra|]. fold S2 G2. cbn [v u_Rb u_Rf]. lra.
  - exists (v 1). split; [apply Av; lra|]. exact n.
Qed.

Print Assumptions C61_grid_complete.
Print Assumptions C61_contiguous_partial.
Print Assumptions C61_gap_and_overlap.
Print Assumptions C61_contiguous_refuted.
Print Assumptions C62_step.
Print Assumptions C62_energy.
Print Assumptions C62_grid.
Print Assumptions C63_temperatures.
Print Assumptions C63_g_function.
Print Assumptions C64_two_days_covered.
Print Assumptions C64_wall_option.
Print Assumptions C78_response_suits_peak_analysis.
Print Assumptions C78_peak_durations_exist.
Print Assumptions C77_fluid_capacity.
Print Assumptions C77_fluid_capacity_refuted.
Print Assumptions C79_layers_partial.
Print Assumptions C79_layers_refuted.
