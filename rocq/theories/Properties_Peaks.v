(** Properties C101-C104: the shape of the short-time response and what it means for the duration of peaks
    (radial_numerical_borehole.py:258-419, ground_loads.py:247-330) *)
From Coq Require Import ZArith List Bool Reals Lia Lra.
From Verif Require Import Base Num BaseLemmas Utilities Loads LoadsSpec LoadsProofs LoadsSim LoadsHybrid Properties_Utilities Properties_Loads Ghe GheSpec GheProofs Properties_Ghe
  GFun GFunSpec GFunProofs Properties_GFun Radial RadialSpec RadialProofs RadialGrid RadialConcave Properties_Radial Bhe Equiv EquivSpec EquivProofs Properties_Equiv
  Export System SystemSpec SystemProofs Properties_System.
Import ListNotations.
Open Scope R_scope.

(** C101: with constant heating the flow between any two cells never falls and the fluid warms up in every step, never more than in the step before *)
Theorem C101_temperatures :
  forall solver heat_flux dt cells a k, good_solver solver -> 0 < dt -> physical cells -> (2 <= length cells)%nat -> 0 < heat_flux ->
  let T := fun k => after solver heat_flux dt cells (map (fun _ => a) cells) k in
  (forall i, (S i < length cells)%nat -> flow cells (T k) i <= flow cells (T (S k)) i) /\
  0 < at_ (T (S (S k))) 0 - at_ (T (S k)) 0 <= at_ (T (S k)) 0 - at_ (T k) 0.
Proof.
  intros solver q dt cells a k Hs Hdt Hp Hn Hq T. change (map (fun _ => a) cells) with (uniform cells a) in T. split; [|split].
  - intros i Hi. apply after_flows_grow; try assumption. lra.
  - pose proof (fluid_rises solver q dt cells Hs Hn Hdt Hp a (S k) Hq). unfold T. lra.
  - apply fluid_concave; try assumption. lra.
Qed.
(** so the recorded g-function is strictly increasing and concave in the number of steps *)
Theorem C101_g_function :
  forall solver u fuel final lntts g j, good_solver solver -> admissible u -> calc_sts_g_functions fuel solver u final false = Ok (lntts, g) ->
  (S (S j) < length g)%nat -> 0 < nth (S (S j)) g 0 - nth (S j) g 0 <= nth (S j) g 0 - nth j g 0.
Proof.
  intros solver u fuel final lntts g j Hs Hu E Hj. destruct (calc_ok solver u final) as (m & M1 & M2 & M3 & M4).
  assert (Hf : (m < fuel)%nat) by (apply Nat.nle_gt; intro X; rewrite M3 in E by exact X; discriminate).
  rewrite M4 in E by exact Hf. destruct (Ok_pair _ _ _ _ E) as (_ & Eg).
  assert (Hc : 0 < c_0 u). { pose proof PI_RGT_0. destruct Hu as [_ _ _ _ _ _ _ _ Hk _ _ _ _ _]. unfold c_0. apply Rmult_lt_0_compat; lra. }
  pose proof (grid_physical u Hu) as Hp. pose proof (grid_two u) as Hn. rewrite <- Eg in *. rewrite map_length, seq_length in Hj.
  set (T := fun k => at_ (after solver 1 120 (grid u) (uniform (grid u) 20) k) 0).
  assert (N : forall i, (i < S m)%nat -> nth i (map (fun j => c_0 u * (at_ (after solver 1 120 (grid u) (uniform (grid u) 20) (S j)) 0 - 20 - u_Rb u)) (seq 0 (S m))) 0 = c_0 u * (T (S i) - 20 - u_Rb u)).
  { intros i Hi. rewrite (nth_indep _ 0 ((fun j => c_0 u * (T (S j) - 20 - u_Rb u)) 0%nat)) by now rewrite map_length, seq_length.
    rewrite (map_nth (fun j => c_0 u * (T (S j) - 20 - u_Rb u))), seq_nth by exact Hi. reflexivity. }
  rewrite !N by lia. destruct (C101_temperatures solver 1 120 (grid u) 20 (S j) Hs ltac:(lra) Hp Hn ltac:(lra)) as (_ & A & B).
  change (map (fun _ => 20) (grid u)) with (uniform (grid u) 20) in A, B. cbv beta in A, B. unfold T.
  assert (P := Rmult_lt_0_compat _ _ Hc A). assert (Q := Rmult_le_compat_l (c_0 u) _ _ (Rlt_le _ _ Hc) B). split; lra.
Qed.

(** the response after whole hours, as the two-day simulations read it *)
Definition rise_steps solver u (n : nat) : R := at_ (after solver 1 120 (grid u) (uniform (grid u) 20) n) 0 - 20.
Lemma hour_value solver u fuel lntts g : good_solver solver -> admissible u -> calc_sts_g_functions fuel solver u None false = Ok (lntts, g) ->
  forall k, (1 <= k <= 48)%nat -> exists y th, interp1d lntts g (ln (IZR (Z.of_nat k) * 3600 / t_s u)) = Ok y /\ / 2 <= th <= 1 /\
  y / (2 * PI * u_soil_k u) + u_Rb u = rise_steps solver u (30 * k) + (rise_steps solver u (30 * k + 1) - rise_steps solver u (30 * k)) * th.
Proof.
  intros Hs Hu E k Hk. destruct (calc_ok solver u None) as (m & M1 & _ & M3 & M4). cbn [final_of] in M1.
  assert (Hf : (m < fuel)%nat) by (apply Nat.nle_gt; intro X; rewrite M3 in E by exact X; discriminate).
  rewrite M4 in E by exact Hf. destruct (Ok_pair _ _ _ _ E) as (El & Eg).
  assert (Hc : 0 < c_0 u). { pose proof PI_RGT_0. destruct Hu as [_ _ _ _ _ _ _ _ Hk' _ _ _ _ _]. unfold c_0. apply Rmult_lt_0_compat; lra. }
  pose proof (calc_time_covers u) as Ct. pose proof (t_s_pos u Hu) as Ht.
  set (X := fun j => ln (entry_time j / t_s u)) in *.
  set (Y := fun j => c_0 u * (at_ (after solver 1 120 (grid u) (uniform (grid u) 20) (S j)) 0 - 20 - u_Rb u)) in *.
  assert (HX : forall n, X n < X (S n)) by (intro n; apply ln_time_lt; [exact Hu|]; split; [apply entry_pos|apply entry_lt]).
  assert (P0 : 0 < / 1000000000000 < 1) by (split; [apply Rinv_0_lt_compat; lra|lra]).
  assert (Hm : (1 <= m)%nat). { destruct m; [|lia]. unfold entry_time in M1. cbn [INR] in M1. lra. }
  set (x := IZR (Z.of_nat k) * 3600). assert (Bk : 1 <= IZR (Z.of_nat k) <= 48) by (split; apply IZR_le; lia).
  destruct (interp1d_range lntts g (X 0%nat) (X 1%nat) (map X (seq 2 (m - 1))) (ln (x / t_s u))) as (In & _).
  { rewrite <- El. destruct m; [lia|]. replace (S m - 1)%nat with m by lia. reflexivity. }
  { rewrite <- El, <- Eg. now rewrite !map_length. }
  { rewrite <- El. assert (G : forall n a, increasing (map X (seq a n))); [|apply G]. induction n as [|[|n] IH]; intro a; [exact I|exact I|].
    change (map X (seq a (S (S n)))) with (X a :: X (S a) :: map X (seq (S (S a)) n)). split; [apply HX|]. apply (IH (S a)). }
  destruct In as (w & Ew & bf & a & b & af & Ep & Hv & Hw).
  { rewrite <- El, last_map_seq. split; apply ln_time_le; try exact Hu; unfold x; split; try lra; [apply entry_pos|unfold entry_time; cbn [INR]; lra|].
    unfold entry_time in *. cbn [plus]. lra. }
  exists w, ((ln (x / t_s u) - fst a) / (fst b - fst a)). split; [exact Ew|].
  rewrite <- El, <- Eg in Ep. rewrite combine_map2 in Ep. set (j := length bf).
  assert (Na : nth_error (map (fun n => (X n, Y n)) (seq 0 (S m))) j = Some a). { rewrite Ep, nth_error_app2 by lia. unfold j. rewrite Nat.sub_diag. reflexivity. }
  assert (Nb : nth_error (map (fun n => (X n, Y n)) (seq 0 (S m))) (S j) = Some b). { rewrite Ep, nth_error_app2 by (unfold j; lia). unfold j. replace (S (length bf) - length bf)%nat with 1%nat by lia. reflexivity. }
  assert (Hj : (S j < S m)%nat). { assert (N : nth_error (map (fun n => (X n, Y n)) (seq 0 (S m))) (S j) <> None) by congruence. apply nth_error_Some in N. now rewrite map_length, seq_length in N. }
  rewrite nth_error_map, (nth_error_nth' _ 0%nat), seq_nth in Na by (rewrite ?seq_length; lia). rewrite nth_error_map, (nth_error_nth' _ 0%nat), seq_nth in Nb by (rewrite ?seq_length; lia).
  cbn [option_map plus] in Na, Nb. injection Na as <-. injection Nb as <-. cbn [fst snd] in *.
  assert (Ordered : entry_time j <= x <= entry_time (S j)).
  { assert (Px : 0 < x) by (unfold x; lra). split; apply Rnot_lt_le; intro Lt.
    - pose proof (ln_time_lt u x (entry_time j) Hu (conj Px Lt)). unfold X in Hv. lra.
    - pose proof (ln_time_lt u (entry_time (S j)) x Hu (conj (entry_pos _) Lt)). unfold X in Hv. lra. }
  assert (Ej : S j = (30 * k)%nat).
  { unfold entry_time, x in Ordered. rewrite S_INR, INR_IZR_INZ in Ordered.
    assert (A1 : IZR (120 * Z.of_nat j) < IZR (Z.of_nat k * 3600)) by (rewrite !mult_IZR; lra).
    assert (A2 : IZR (Z.of_nat k * 3600 - 1) < IZR (120 * (Z.of_nat j + 1))) by (rewrite minus_IZR, !mult_IZR, plus_IZR; lra).
    apply lt_IZR in A1, A2. lia. }
  assert (Dx : 0 < X (S j) - X j) by (specialize (HX j); lra). split; [split|].
  - apply Rmult_le_reg_r with (X (S j) - X j); [exact Dx|]. unfold Rdiv. rewrite Rmult_assoc, Rinv_l, Rmult_1_r by lra.
    assert (X j + X (S j) <= 2 * ln (x / t_s u)); [|lra]. unfold X. pose proof (entry_pos j) as P1. pose proof (entry_pos (S j)) as P2. assert (Px : 0 < x) by (unfold x; lra).
    rewrite !ln_sub by assumption. assert (ln (entry_time j) + ln (entry_time (S j)) <= ln x + ln x); [|lra]. rewrite <- !ln_mult by assumption.
    assert (Q : entry_time j * entry_time (S j) <= x * x).
    { assert (E1 : entry_time j = x - 120 + / 1000000000000 /\ entry_time (S j) = x + / 1000000000000).
      { assert (K : INR (S j) = 30 * IZR (Z.of_nat k)) by (rewrite Ej, mult_INR, <- INR_IZR_INZ; cbn; ring).
        unfold entry_time, x. rewrite K. rewrite S_INR in K. split; lra. }
      destruct E1 as (-> & ->). assert (3600 <= x) by (unfold x; lra). nra. }
    destruct Q as [Q|Q]; [left; apply ln_increasing; [apply Rmult_lt_0_compat; assumption|exact Q]|right; now rewrite Q].
  - apply Rmult_le_reg_r with (X (S j) - X j); [exact Dx|]. unfold Rdiv. rewrite Rmult_assoc, Rinv_l, Rmult_1_r by lra. lra.
  - rewrite Hw. fold (c_0 u). unfold Y, rise_steps. rewrite Nat.add_1_r, <- Ej. field. split; lra.
Qed.

(** C104: the response recorded for the time 1e-12 s + 120 s * j is that after j + 1 steps of 120 s of heating, so the table runs one step ahead *)
Theorem C104_one_step_ahead_partial :
  forall solver u fuel final lntts g j, good_solver solver -> admissible u -> calc_sts_g_functions fuel solver u final false = Ok (lntts, g) -> (j < length g)%nat ->
  let response n := 2 * PI * u_soil_k u * (at_ (after solver 1 120 (grid u) (map (fun _ => 20) (grid u)) n) 0 - 20 - u_Rb u) in
  length lntts = length g /\ t_s u * exp (nth j lntts 0) = / 1000000000000 + 120 * INR j /\ nth j g 0 = response (S j) /\ response j < nth j g 0.
Proof.
  intros solver u fuel final lntts g j Hs Hu E Hj response. destruct (calc_ok solver u final) as (m & M1 & M2 & M3 & M4).
  assert (Hf : (m < fuel)%nat) by (apply Nat.nle_gt; intro X; rewrite M3 in E by exact X; discriminate).
  rewrite M4 in E by exact Hf. destruct (Ok_pair _ _ _ _ E) as (El & Eg). rewrite <- El, <- Eg in *. rewrite map_length, seq_length in Hj.
  assert (N : forall f : nat -> R, nth j (map f (seq 0 (S m))) 0 = f j).
  { intro f. rewrite (nth_indep _ 0 (f 0%nat)) by now rewrite map_length, seq_length. rewrite map_nth, seq_nth by exact Hj. reflexivity. }
  rewrite !N. split; [now rewrite !map_length|]. pose proof (t_s_pos u Hu) as Pt. split; [|split].
  - rewrite exp_ln by (apply Rdiv_lt_0_compat; [apply entry_pos|exact Pt]). unfold entry_time. field. lra.
  - reflexivity.
  - unfold response. fold (c_0 u). change (map (fun _ => 20) (grid u)) with (uniform (grid u) 20). apply Rmult_lt_compat_l.
    + pose proof PI_RGT_0. pose proof (ad_k u Hu). unfold c_0. apply Rmult_lt_0_compat; lra.
    + pose proof (fluid_rises solver 1 120 (grid u) Hs (grid_two u) ltac:(lra) (grid_physical u Hu) 20 j ltac:(lra)). lra.
Qed.
(** already the first entry, recorded for 1e-12 s, is above the response of the undisturbed borehole *)
Theorem C104_recorded_times_refuted :
  exists solver u fuel lntts g j, good_solver solver /\ admissible u /\ calc_sts_g_functions fuel solver u None false = Ok (lntts, g) /\ (j < length g)%nat /\
  t_s u * exp (nth j lntts 0) = / 1000000000000 + 120 * INR j /\
  2 * PI * u_soil_k u * (at_ (after solver 1 120 (grid u) (map (fun _ => 20) (grid u)) j) 0 - 20 - u_Rb u) < nth j g 0.
Proof.
  destruct (System_fuel thomas usual) as ((sts, g) & E). exists thomas, usual, (short_time_fuel usual), sts, g, 0%nat.
  assert (L : (0 < length g)%nat).
  { destruct (calc_ok thomas usual None) as (m' & _ & _ & M3 & M4).
    assert (Hf : (m' < short_time_fuel usual)%nat) by (apply Nat.nle_gt; intro X; rewrite M3 in E by exact X; discriminate).
    rewrite M4 in E by exact Hf. destruct (Ok_pair _ _ _ _ E) as (_ & Eg). rewrite <- Eg, map_length, seq_length. lia. }
  destruct (C104_one_step_ahead_partial thomas usual _ None sts g 0 solver_exists usual_admissible E L) as (_ & A & _ & B).
  split; [exact solver_exists|]. split; [exact usual_admissible|]. auto.
Qed.
Example C101_example : exists lntts g, calc_sts_g_functions (short_time_fuel usual) thomas usual None false = Ok (lntts, g) /\ (2 < length g)%nat.
Proof.
  destruct (System_fuel thomas usual) as ((sts, g) & E). exists sts, g. split; [exact E|].
  destruct (calc_ok thomas usual None) as (m & M1 & _ & M3 & M4). cbn [final_of] in M1.
  assert (Hf : (m < short_time_fuel usual)%nat) by (apply Nat.nle_gt; intro X; rewrite M3 in E by exact X; discriminate).
  rewrite M4 in E by exact Hf. destruct (Ok_pair _ _ _ _ E) as (_ & Eg). rewrite <- Eg, map_length, seq_length.
  pose proof (calc_time_covers usual). unfold entry_time in M1. assert (/ 1000000000000 < 1) by lra.
  assert (2 < INR m) by lra. apply (INR_lt 2). replace (INR 2) with 2 by (cbn; lra). rewrite S_INR. lra.
Qed.

(** ** the response after whole hours *)
(** a step response that begins above 0, always grows, and whose growth over any number of hours is largest at the beginning *)
Definition slowing (G : nat -> R) : Prop :=
  0 < G 1%nat /\ (forall n, (1 <= n < 48)%nat -> G n < G (S n)) /\
  (forall a b, (1 <= a)%nat -> (1 <= b)%nat -> (a + b <= 48)%nat -> G (a + b)%nat <= G a + G b).
Definition from_0 (G : nat -> R) (n : nat) : R := match n with O => 0 | _ => G n end.
(** and the growth in an hour is not much more than in any earlier hour: the g-function is read between entries, so that it may vary by half a step of 120 s *)
Definition nearly_concave (G : nat -> R) : Prop :=
  forall m n, (1 <= m < n)%nat -> (n <= 48)%nat -> 59 * (from_0 G n - from_0 G (n - 1)) <= 61 * (from_0 G m - from_0 G (m - 1)).

Lemma concave_sub (f : nat -> R) : (forall k, f (S (S k)) - f (S k) <= f (S k) - f k) -> forall a b, f (a + b)%nat - f b <= f a - f 0%nat.
Proof.
  intros H. assert (D : forall b a, f (S (a + b)) - f (a + b)%nat <= f (S a) - f a).
  { induction b as [|b IH]; intro a; [rewrite Nat.add_0_r; lra|]. specialize (IH (S a)). specialize (H a). cbn [plus] in IH.
    rewrite Nat.add_succ_r. lra. }
  induction a as [|a IH]; intro b; [cbn [plus]; lra|]. specialize (IH b). specialize (D b a). cbn [plus]. lra.
Qed.
Section Steps.
Variable (solver : list R -> list R -> list R -> list R -> list R) (u : utube).
Hypothesis (Hs : good_solver solver) (Hu : admissible u).
Notation S_ := (rise_steps solver u).
Lemma steps_start : S_ 0 = 0.
Proof.
  unfold rise_steps, after, Nat.iter. cbn. pose proof (grid_two u). unfold uniform, at_. destruct (grid u); [cbn in *; lia|]. cbn. lra.
Qed.
Lemma steps_rise k : S_ k < S_ (S k).
Proof. pose proof (fluid_rises solver 1 120 (grid u) Hs (grid_two u) ltac:(lra) (grid_physical u Hu) 20 k ltac:(lra)). unfold rise_steps. lra. Qed.
Lemma steps_sub a b : S_ (a + b) <= S_ a + S_ b.
Proof.
  pose proof (concave_sub S_) as C. specialize (C (fun k => ltac:(pose proof (fluid_concave solver 1 120 (grid u) Hs (grid_two u) ltac:(lra) (grid_physical u Hu) 20 k ltac:(lra)); unfold rise_steps; lra)) a b).
  rewrite steps_start in C. lra.
Qed.
Lemma steps_mono a b : (a <= b)%nat -> S_ a <= S_ b.
Proof. induction 1 as [|b _ IH]; [lra|]. pose proof (steps_rise b). lra. Qed.
Lemma step_fall i j : (i <= j)%nat -> S_ (S j) - S_ j <= S_ (S i) - S_ i.
Proof.
  induction 1 as [|j _ IH]; [lra|]. pose proof (fluid_concave solver 1 120 (grid u) Hs (grid_two u) ltac:(lra) (grid_physical u Hu) 20 j ltac:(lra)) as C.
  unfold rise_steps in *. lra.
Qed.
Lemma steps_above i k c : (forall j, (i <= j < i + k)%nat -> c <= S_ (S j) - S_ j) -> INR k * c <= S_ (i + k) - S_ i.
Proof.
  induction k as [|k IH]; intro H; [cbn [INR]; rewrite Nat.add_0_r; lra|]. specialize (IH (fun j Hj => H j ltac:(lia))). pose proof (H (i + k)%nat ltac:(lia)).
  rewrite S_INR, Nat.add_succ_r. lra.
Qed.
Lemma steps_below i k c : (forall j, (i <= j < i + k)%nat -> S_ (S j) - S_ j <= c) -> S_ (i + k) - S_ i <= INR k * c.
Proof.
  induction k as [|k IH]; intro H; [cbn [INR]; rewrite Nat.add_0_r; lra|]. specialize (IH (fun j Hj => H j ltac:(lia))). pose proof (H (i + k)%nat ltac:(lia)).
  rewrite S_INR, Nat.add_succ_r. lra.
Qed.
Lemma hours_nearly_concave (G : nat -> R) :
  (forall m, (1 <= m <= 48)%nat -> S_ (30 * m) + S_ (30 * m + 1) <= 2 * G m /\ G m <= S_ (30 * m + 1)) -> nearly_concave G.
Proof.
  intros HG' m n Hm Hn.
  assert (HG : forall m, (1 <= m <= 48)%nat -> S_ (30 * m) + S_ (S (30 * m)) <= 2 * G m /\ G m <= S_ (S (30 * m))) by (intros k Hk; specialize (HG' k Hk); rewrite Nat.add_1_r in HG'; exact HG').
  clear HG'. assert (F : forall i j, (i <= j)%nat -> S_ (S j) - S_ j <= S_ (S i) - S_ i) by apply step_fall.
  assert (E29 : INR 29 = 29) by (rewrite INR_IZR_INZ; reflexivity). assert (E30 : INR 30 = 30) by (rewrite INR_IZR_INZ; reflexivity).
  assert (Sg : 0 < S_ (S (30 * m)) - S_ (30 * m)) by (pose proof (steps_rise (30 * m)); lra).
  (* the later hour *)
  assert (Up : from_0 G n - from_0 G (n - 1) <= 61 / 2 * (S_ (S (30 * m)) - S_ (30 * m))).
  { destruct n as [|[|n]]; [lia|lia|]. replace (S (S n) - 1)%nat with (S n) by lia. cbn [from_0]. destruct (HG (S (S n)) ltac:(lia)) as (N1 & N2). destruct (HG (S n) ltac:(lia)) as (P1 & P2).
    assert (A := steps_below (S (30 * S n)) 30 _ (fun j (Hj : (S (30 * S n) <= j < S (30 * S n) + 30)%nat) => F (30 * m)%nat j ltac:(lia))). assert (B := F (30 * m)%nat (30 * S n)%nat ltac:(lia)).
    replace (S (30 * S n) + 30)%nat with (S (30 * S (S n))) in A by lia. rewrite E30 in A. lra. }
  assert (Lo : 59 / 2 * (S_ (S (30 * m)) - S_ (30 * m)) <= from_0 G m - from_0 G (m - 1)).
  { destruct m as [|[|m]]; [lia| |].
    - destruct (HG 1%nat ltac:(lia)) as (M1 & M2). replace (1 - 1)%nat with 0%nat by lia. cbn [from_0]. pose proof (steps_start) as S0.
      assert (A := steps_above 0 30 _ (fun j (Hj : (0 <= j < 0 + 30)%nat) => F j (30 * 1)%nat ltac:(lia))). rewrite E30 in A. cbn [plus] in A. replace (30 * 1)%nat with 30%nat in * by lia. lra.
    - destruct (HG (S (S m)) ltac:(lia)) as (M1 & M2). replace (S (S m) - 1)%nat with (S m) by lia. cbn [from_0]. destruct (HG (S m) ltac:(lia)) as (Q1 & Q2).
      assert (A := steps_above (S (30 * S m)) 29 _ (fun j (Hj : (S (30 * S m) <= j < S (30 * S m) + 29)%nat) => F j (30 * S (S m))%nat ltac:(lia))).
      replace (S (30 * S m) + 29)%nat with (30 * S (S m))%nat in A by lia. rewrite E29 in A. lra. }
  lra.
Qed.
End Steps.

Theorem C101_hours :
  forall solver u fuel lntts g, good_solver solver -> admissible u -> calc_sts_g_functions fuel solver u None false = Ok (lntts, g) ->
  let gt := fun h => interp1d lntts g (ln (h * 3600 / t_s u)) in
  exists gv, (forall m, (1 <= m <= 48)%nat -> gt (IZR (Z.of_nat m)) = Ok (gv m)) /\
  let G := fun m => gv m / (2 * PI * u_soil_k u) + u_Rb u in slowing G /\ nearly_concave G.
Proof.
  intros solver u fuel lntts g Hs Hu E gt. pose proof (hour_value solver u fuel lntts g Hs Hu E) as V.
  set (gv := fun m => match gt (IZR (Z.of_nat m)) with Ok y => y | Err _ => 0 end).
  assert (G : forall m, (1 <= m <= 48)%nat -> gt (IZR (Z.of_nat m)) = Ok (gv m) /\
    rise_steps solver u (30 * m) + rise_steps solver u (30 * m + 1) <= 2 * (gv m / (2 * PI * u_soil_k u) + u_Rb u) /\
    gv m / (2 * PI * u_soil_k u) + u_Rb u <= rise_steps solver u (30 * m + 1)).
  { intros m Hm. destruct (V m Hm) as (y & th & Ey & Hth & Hy). fold (gt (IZR (Z.of_nat m))) in Ey. unfold gv. rewrite Ey. split; [reflexivity|].
    rewrite Hy. pose proof (steps_rise solver u Hs Hu (30 * m)) as P. rewrite Nat.add_1_r. split; nra. }
  exists gv. split; [intros m Hm; apply G; exact Hm|]. split; [split; [|split]|].
  - destruct (G 1%nat ltac:(lia)) as (_ & A & _). pose proof (steps_start solver u). pose proof (steps_mono solver u Hs Hu 1 (30 * 1) ltac:(lia)).
    pose proof (steps_rise solver u Hs Hu 0). pose proof (steps_mono solver u Hs Hu (30 * 1) (30 * 1 + 1) ltac:(lia)). lra.
  - intros n Hn. destruct (G n ltac:(lia)) as (_ & _ & A). destruct (G (S n) ltac:(lia)) as (_ & B & _).
    pose proof (steps_mono solver u Hs Hu (S (30 * n + 1)) (30 * S n) ltac:(lia)). pose proof (steps_rise solver u Hs Hu (30 * n + 1)).
    pose proof (steps_mono solver u Hs Hu (30 * S n) (30 * S n + 1) ltac:(lia)). lra.
  - intros a b Ha Hb Hab. destruct (G (a + b)%nat ltac:(lia)) as (_ & _ & A). destruct (G a ltac:(lia)) as (_ & B & _). destruct (G b ltac:(lia)) as (_ & C & _).
    pose proof (steps_sub solver u Hs Hu (30 * a) (30 * b + 1)) as P. pose proof (steps_sub solver u Hs Hu (30 * a + 1) (30 * b)) as Q.
    replace (30 * a + (30 * b + 1))%nat with (30 * (a + b) + 1)%nat in P by lia. replace (30 * a + 1 + 30 * b)%nat with (30 * (a + b) + 1)%nat in Q by lia. lra.
  - apply (hours_nearly_concave solver u Hs Hu). intros m Hm. destruct (G m Hm) as (_ & A & B). auto.
Qed.

(** ** superposition by the hours of load *)
Lemma abel (q H : nat -> R) n : sumf (fun j => (q (S j) - q j) * H j) n = sumf (fun j => q (S j) * (H j - H (S j))) n + q n * H n - q 0%nat * H 0%nat.
Proof. induction n as [|n IH]; cbn [sumf]; [ring|]. rewrite IH. ring. Qed.
Lemma sumf_le (f g : nat -> R) n : (forall j, (j < n)%nat -> f j <= g j) -> sumf f n <= sumf g n.
Proof. induction n as [|n IH]; intro H; cbn [sumf]; [lra|]. pose proof (H n ltac:(lia)). specialize (IH (fun j Hj => H j ltac:(lia))). lra. Qed.
Lemma rise_impulse G q n : q 0%nat = 0 -> rise G q n = sumf (fun j => q (S j) * (from_0 G (n - j) - from_0 G (n - S j))) n.
Proof.
  intro Q. unfold rise. pose proof (abel q (fun j => from_0 G (n - j)) n) as A. cbv beta in A. rewrite Nat.sub_diag, Q in A. cbn [from_0] in A.
  rewrite (sumf_ext _ (fun j => (q (S j) - q j) * from_0 G (n - j))); [lra|].
  intros j Hj. destruct (n - j)%nat eqn:X; [lia|reflexivity].
Qed.
Lemma span_sum (H : nat -> R) c s k n : sumf (fun j => if (s <=? j)%nat && (j <? s + k)%nat then c * (H j - H (S j)) else 0) n = c * (H (Nat.min s n) - H (Nat.min (s + k) n)).
Proof.
  induction n as [|n IH]; cbn [sumf]; [rewrite !Nat.min_0_r; ring|]. rewrite IH.
  destruct (Nat.leb_spec s n), (Nat.ltb_spec n (s + k)); cbn [andb];
  repeat match goal with |- context [Nat.min ?a ?b] => first [rewrite (Nat.min_l a b) by lia | rewrite (Nat.min_r a b) by lia] end; try ring; lia.
Qed.
Lemma sumf_mult c f n : sumf (fun j => c * f j) n = c * sumf f n.
Proof. induction n as [|n IH]; cbn [sumf]; [ring|]. rewrite IH. ring. Qed.
Lemma sumf_add f g n : sumf (fun j => f j + g j) n = sumf f n + sumf g n.
Proof. induction n as [|n IH]; cbn [sumf]; [ring|]. rewrite IH. ring. Qed.
Lemma sumf_split f a b : sumf f (a + b) = sumf f a + sumf (fun i => f (a + i)%nat) b.
Proof. induction b as [|b IH]; cbn [sumf]; [rewrite Nat.add_0_r; ring|]. rewrite Nat.add_succ_r. cbn [sumf]. rewrite IH. ring. Qed.
Lemma sumf_nonneg f n : (forall j, (j < n)%nat -> 0 <= f j) -> 0 <= sumf f n.
Proof. induction n as [|n IH]; intro H; cbn [sumf]; [lra|]. pose proof (H n ltac:(lia)). specialize (IH (fun j Hj => H j ltac:(lia))). lra. Qed.
Lemma pairs_le (X Y p v : nat -> R) a b : (forall i j, (i < a)%nat -> (j < b)%nat -> 59 * X i <= 61 * Y j) -> (forall i, (i < a)%nat -> 0 <= p i) -> (forall j, (j < b)%nat -> 0 <= v j) ->
  59 * (sumf (fun i => p i * X i) a * sumf v b) <= 61 * (sumf p a * sumf (fun j => v j * Y j) b).
Proof.
  intros H P V.
  assert (A : forall j, (j < b)%nat -> 59 * sumf (fun i => p i * X i) a <= 61 * (Y j * sumf p a)).
  { intros j Hj. rewrite <- Rmult_assoc, <- !sumf_mult. apply sumf_le. intros i Hi. specialize (H i j Hi Hj). specialize (P i Hi).
    pose proof (Rmult_le_compat_l _ _ _ P H). lra. }
  set (L := sumf (fun i => p i * X i) a) in *. set (Q := sumf p a) in *.
  assert (E1 : 59 * (L * sumf v b) = sumf (fun j => v j * (59 * L)) b). { transitivity ((59 * L) * sumf v b); [ring|]. rewrite <- sumf_mult. apply sumf_ext. intros; ring. }
  assert (E2 : 61 * (Q * sumf (fun j => v j * Y j) b) = sumf (fun j => v j * (61 * (Y j * Q))) b).
  { transitivity ((61 * Q) * sumf (fun j => v j * Y j) b); [ring|]. rewrite <- sumf_mult. apply sumf_ext. intros; ring. }
  rewrite E1, E2. apply sumf_le. intros j Hj. apply Rmult_le_compat_l; auto.
Qed.
Lemma telescope (H : nat -> R) n : sumf (fun j => H j - H (S j)) n = H 0%nat - H n.
Proof. induction n as [|n IH]; cbn [sumf]; [ring|]. rewrite IH. ring. Qed.

Section Slow.
Variable G : nat -> R.
Hypothesis HG : slowing G.
Lemma slow_mono a b : (a <= b <= 48)%nat -> from_0 G a <= from_0 G b.
Proof.
  destruct HG as (P & I & _). intros (Hab & Hb). induction Hab as [|b Hab IH]; [lra|]. specialize (IH ltac:(lia)). apply Rle_trans with (1 := IH).
  destruct b; cbn [from_0]; [lra|]. pose proof (I (S b) ltac:(lia)). lra.
Qed.
Lemma slow_strict a b : (a < b <= 48)%nat -> from_0 G a < from_0 G b.
Proof.
  intros H. apply Rlt_le_trans with (from_0 G (S a)); [|apply slow_mono; lia]. destruct HG as (P & I & _). destruct a; cbn [from_0]; [lra|]. apply I. lia.
Qed.
Lemma slow_sub a b : (a + b <= 48)%nat -> from_0 G (a + b) <= from_0 G a + from_0 G b.
Proof.
  destruct HG as (_ & _ & A). intros H. destruct a; [cbn; lra|]. destruct b; [rewrite Nat.add_0_r; cbn; lra|]. cbn [plus from_0].
  apply (A (S a) (S b)); lia.
Qed.
Lemma slow_response : step_response G.
Proof. destruct HG as (P & I & _). split; [lra|]. intros n Hn. specialize (I n Hn). lra. Qed.
Lemma rise_at_most q c s k n : 0 <= c -> q 0%nat = 0 -> (n <= 48)%nat -> (s + k <= 48)%nat ->
  (forall j, (j < 48)%nat -> q (S j) <= c) -> (forall j, (j < 48)%nat -> 0 < q (S j) -> (s <= j < s + k)%nat) -> rise G q n <= c * from_0 G k.
Proof.
  intros Hc Q Hn Hk A B. rewrite rise_impulse by exact Q.
  assert (P : forall j, (j < n)%nat -> 0 <= from_0 G (n - j) - from_0 G (n - S j)) by (intros j Hj; pose proof (slow_mono (n - S j) (n - j) ltac:(lia)); lra).
  apply Rle_trans with (sumf (fun j => if (s <=? j)%nat && (j <? s + k)%nat then c * ((fun i => from_0 G (n - i)) j - (fun i => from_0 G (n - i)) (S j)) else 0) n).
  - apply sumf_le. intros j Hj. specialize (P j Hj). destruct (Nat.leb_spec s j), (Nat.ltb_spec j (s + k)); cbn [andb].
    { apply Rmult_le_compat_r; [exact P|]. apply A. lia. }
    all: assert (q (S j) <= 0) by (apply Rnot_lt_le; intro X; specialize (B j ltac:(lia) X); lia); nra.
  - rewrite span_sum. apply Rmult_le_compat_l; [exact Hc|]. set (y := (n - Nat.min (s + k) n)%nat). assert (exists r, (r <= k)%nat /\ (n - Nat.min s n = r + y)%nat) as (r & Hr & ->).
    { exists ((n - Nat.min s n) - y)%nat. unfold y. lia. }
    pose proof (slow_sub r y ltac:(unfold y in *; lia)). pose proof (slow_mono r k ltac:(lia)). lra.
Qed.
Lemma rise_at_least q c s k : q 0%nat = 0 -> (s + k <= 48)%nat -> (forall j, (s <= j < s + k)%nat -> q (S j) = c) -> (forall j, (j < 48)%nat -> 0 <= q (S j)) ->
  c * from_0 G k <= rise G q (s + k).
Proof.
  intros Q Hk A B. rewrite rise_impulse by exact Q.
  assert (P : forall j, (j < s + k)%nat -> 0 <= from_0 G (s + k - j) - from_0 G (s + k - S j)) by (intros j Hj; pose proof (slow_mono (s + k - S j) (s + k - j) ltac:(lia)); lra).
  apply Rle_trans with (sumf (fun j => if (s <=? j)%nat && (j <? s + k)%nat then c * ((fun i => from_0 G (s + k - i)) j - (fun i => from_0 G (s + k - i)) (S j)) else 0) (s + k)).
  - rewrite span_sum. rewrite Nat.min_l, Nat.min_id, Nat.sub_diag by lia. replace (s + k - s)%nat with k by lia. cbn [from_0]. lra.
  - apply sumf_le. intros j Hj. specialize (P j Hj). destruct (Nat.leb_spec s j), (Nat.ltb_spec j (s + k)); cbn [andb]; try lia.
    + rewrite A by lia. lra.
    + apply Rmult_le_pos; [apply B; lia|exact P].
Qed.
(** full loads of K hours, the latest, raise the temperature most *)
Lemma rise_full_load (NC : nearly_concave G) q c K n : 0 <= c -> q 0%nat = 0 -> (n <= 48)%nat -> (1 <= K <= 48)%nat -> (forall j, (j < 48)%nat -> q (S j) <= c) ->
  61 * sumf (fun j => Rmax 0 (q (S j))) 48 <= 59 * (INR K * c) -> rise G q n <= c * from_0 G K.
Proof.
  intros Hc Q Hn HK A E. rewrite rise_impulse by exact Q. set (e := fun j => Rmax 0 (q (S j))) in *. set (D := fun j => from_0 G (n - j) - from_0 G (n - S j)).
  assert (Dp : forall j, (j < n)%nat -> 0 <= D j) by (intros j Hj; pose proof (slow_mono (n - S j) (n - j) ltac:(lia)); unfold D; lra).
  assert (e0 : forall j, 0 <= e j) by (intro j; apply Rmax_l).
  assert (e1 : forall j, (j < 48)%nat -> e j <= c) by (intros j Hj; apply Rmax_lub; auto).
  apply Rle_trans with (sumf (fun j => e j * D j) n).
  { apply sumf_le. intros j Hj. apply Rmult_le_compat_r; [now apply Dp|apply Rmax_r]. }
  destruct (le_lt_dec n K) as [L|L].
  { apply Rle_trans with (c * from_0 G n); [|apply Rmult_le_compat_l; [exact Hc|]; apply (slow_mono); lia].
    apply Rle_trans with (sumf (fun j => c * D j) n); [apply sumf_le; intros j Hj; apply Rmult_le_compat_r; [now apply Dp|apply e1; lia]|].
    rewrite sumf_mult. pose proof (telescope (fun j => from_0 G (n - j)) n) as T. cbv beta in T. unfold D. rewrite T, Nat.sub_0_r, Nat.sub_diag. cbn [from_0]. lra. }
  set (a := (n - K)%nat). assert (En : n = (a + K)%nat) by (unfold a; lia). clearbody a. subst n.
  assert (SG : sumf (fun i => D (a + i)%nat) K = from_0 G K).
  { unfold D. rewrite (sumf_ext _ (fun i => (fun i => from_0 G (K - i)) i - (fun i => from_0 G (K - i)) (S i))).
    - rewrite telescope, Nat.sub_0_r, Nat.sub_diag. cbn [from_0]. lra.
    - intros i Hi. cbv beta. replace (a + K - (a + i))%nat with (K - i)%nat by lia. replace (a + K - S (a + i))%nat with (K - S i)%nat by lia. reflexivity. }
  rewrite sumf_split.
  set (L1 := sumf (fun j => e j * D j) a). set (R1 := sumf (fun i => (c - e (a + i)%nat) * D (a + i)%nat) K).
  assert (ER : sumf (fun i => e (a + i)%nat * D (a + i)%nat) K = c * from_0 G K - R1).
  { rewrite <- SG, <- sumf_mult. unfold R1. assert (X : forall f g : nat -> R, sumf f K = sumf g K - sumf (fun i => g i - f i) K).
    { intros f g. assert (sumf g K = sumf f K + sumf (fun i => g i - f i) K); [|lra]. rewrite <- sumf_add. apply sumf_ext. intros; ring. }
    rewrite (X _ (fun j => c * D (a + j)%nat)). f_equal. apply sumf_ext. intros; ring. }
  rewrite ER. assert (L1 <= R1); [|lra].
  set (Ae := sumf e a). set (Be := sumf (fun i => c - e (a + i)%nat) K).
  assert (PR : 59 * (L1 * Be) <= 61 * (Ae * R1)).
  { unfold L1, Be, Ae, R1. apply (pairs_le D (fun i => D (a + i)%nat)).
    - intros i j Hi Hj. assert (N := NC (a + K - (a + j))%nat (a + K - i)%nat ltac:(lia) ltac:(lia)). unfold D. replace (a + K - S i)%nat with (a + K - i - 1)%nat by lia. replace (a + K - S (a + j))%nat with (a + K - (a + j) - 1)%nat by lia. exact N.
    - intros i _. apply e0.
    - intros j Hj. pose proof (e1 (a + j)%nat ltac:(lia)). lra. }
  assert (Tot : Ae + (INR K * c - Be) <= sumf e 48).
  { replace 48%nat with (a + K + (48 - (a + K)))%nat by lia. rewrite (sumf_split e (a + K)), (sumf_split e a K). fold Ae.
    assert (X : sumf (fun i => e (a + i)%nat) K = INR K * c - Be).
    { unfold Be. clear - K. clearbody e. induction K as [|K IH]; cbn [sumf]; [cbn [INR]; ring|]. rewrite S_INR, IH. ring. }
    rewrite X. pose proof (sumf_nonneg (fun i => e (a + K + i)%nat) (48 - (a + K)) (fun _ _ => e0 _)). lra. }
  assert (A0 : 0 <= Ae) by (apply sumf_nonneg; auto). assert (L0 : 0 <= L1). { apply sumf_nonneg. intros j Hj. apply Rmult_le_pos; [apply e0|apply Dp; lia]. }
  assert (R0 : 0 <= R1). { apply sumf_nonneg. intros j Hj. apply Rmult_le_pos; [pose proof (e1 (a + j)%nat ltac:(lia)); lra|apply Dp; lia]. }
  assert (AB : 61 * Ae <= 59 * Be).
  { assert (61 * (Ae + (INR K * c - Be)) <= 59 * (INR K * c)) by lra.
    assert (Be <= INR K * c). { unfold Be. clear - e0. clearbody e. induction K as [|K IH]; cbn [sumf]; [cbn [INR]; lra|]. rewrite S_INR. pose proof (e0 (a + K)%nat). lra. }
    lra. }
  destruct (Req_dec Be 0) as [B0|B0].
  - assert (Ae = 0) by lra. (* no early load *)
    assert (L1 = 0); [|lra]. unfold L1. assert (Z : forall j, (j < a)%nat -> e j = 0).
    { clear - e0 H. unfold Ae in H. revert H. induction a as [|b IH]; cbn [sumf]; intros H j Hj; [lia|]. pose proof (sumf_nonneg e b (fun _ _ => e0 _)). pose proof (e0 b).
      destruct (Nat.eq_dec j b) as [->|]; [lra|]. apply IH; [lra|lia]. }
    rewrite (sumf_ext _ (fun _ => 0 * 0)) by (intros j Hj; rewrite Z by exact Hj; ring). rewrite sumf_mult. ring.
  - assert (0 < Be) by lra. apply Rmult_le_reg_r with (59 * Be); [lra|]. apply Rle_trans with (61 * (Ae * R1)); [lra|]. pose proof (Rmult_le_compat_r _ _ _ R0 AB). lra.
Qed.
(** at the end of the hour of the peak the response is that of the hour itself, at worst lowered by the hours below the average *)
Lemma rise_peak_hour q c s : q 0%nat = 0 -> (s < 48)%nat -> q (S s) = c ->
  (c - sumf (fun j => Rmax 0 (- q (S j))) 48) * from_0 G 1 <= rise G q (S s).
Proof.
  intros Q Hs C. rewrite rise_impulse by exact Q. set (N := sumf (fun j => Rmax 0 (- q (S j))) 48). cbn [sumf]. rewrite Nat.sub_diag. replace (S s - s)%nat with 1%nat by lia. rewrite C.
  assert (P1 : 0 < from_0 G 1) by apply HG.
  assert (A : - (sumf (fun j => Rmax 0 (- q (S j))) s * from_0 G 1) <= sumf (fun j => q (S j) * (from_0 G (S s - j) - from_0 G (S s - S j))) s).
  { apply Rle_trans with (sumf (fun j => - from_0 G 1 * Rmax 0 (- q (S j))) s); [rewrite sumf_mult; lra|]. apply sumf_le. intros j Hj.
    assert (D0 := slow_mono (S s - S j) (S s - j) ltac:(lia)). assert (D1 := slow_sub 1 (S s - S j) ltac:(lia)). replace (1 + (S s - S j))%nat with (S s - j)%nat in D1 by lia.
    set (d := from_0 G (S s - j) - from_0 G (S s - S j)). assert (Hd : 0 <= d <= from_0 G 1) by (unfold d; lra).
    destruct (Rle_dec 0 (- q (S j))) as [X|X]; [rewrite Rmax_right by exact X|rewrite Rmax_left by lra].
    - pose proof (Rmult_le_compat_l (- q (S j)) _ _ X (proj2 Hd)). lra.
    - pose proof (Rmult_le_pos (q (S j)) d ltac:(lra) (proj1 Hd)). lra. }
  assert (B : sumf (fun j => Rmax 0 (- q (S j))) s <= N).
  { unfold N. replace 48%nat with (s + (48 - s))%nat by lia. rewrite sumf_split. pose proof (sumf_nonneg (fun i => Rmax 0 (- q (S (s + i)))) (48 - s) (fun _ _ => Rmax_l _ _)). lra. }
  pose proof (Rmult_le_compat_r (from_0 G 1) _ _ (Rlt_le _ _ P1) B). cbn [from_0] in *. lra.
Qed.
Lemma crosses_le X k v d : (forall n, (n < 48)%nat -> X n < X (S n)) -> (k <= 48)%nat -> crosses X 48 v d -> v <= X k -> d <= INR k.
Proof.
  intros I Hk C Hv. assert (M : forall a b, (a < b <= 48)%nat -> X a < X b).
  { intros a b (H & Hb). induction H as [|b H IH]; [apply I; lia|]. specialize (IH ltac:(lia)). specialize (I b ltac:(lia)). lra. }
  destruct C as (n & [(Hn & (A & B) & ->)|(-> & A & ->)]).
  - destruct (lt_eq_lt_dec n k) as [[L|L]|L].
    + assert (INR (S n) <= INR k) by (apply le_INR; lia). rewrite S_INR in *. assert ((v - X n) / (X (S n) - X n) <= 1); [|lra].
      apply Rmult_le_reg_r with (X (S n) - X n); [lra|]. unfold Rdiv. rewrite Rmult_assoc, Rinv_l by lra. lra.
    + subst. replace (v - X k) with 0 by lra. unfold Rdiv. lra.
    + pose proof (M k n ltac:(lia)). lra.
  - destruct (Nat.eq_dec k 48) as [->|]; [lra|]. pose proof (M k 48%nat ltac:(lia)). lra.
Qed.
Lemma crosses_ge X k v d : (forall n, (n < 48)%nat -> X n < X (S n)) -> (k <= 48)%nat -> crosses X 48 v d -> X k <= v -> INR k <= d.
Proof.
  intros I Hk C Hv. assert (M : forall a b, (a < b <= 48)%nat -> X a < X b).
  { intros a b (H & Hb). induction H as [|b H IH]; [apply I; lia|]. specialize (IH ltac:(lia)). specialize (I b ltac:(lia)). lra. }
  destruct C as (n & [(Hn & (A & B) & ->)|(-> & A & ->)]).
  - assert ((k <= n)%nat). { destruct (le_lt_dec k n) as [|L]; [assumption|]. destruct (Nat.eq_dec k (S n)) as [->|]; [lra|]. pose proof (M (S n) k ltac:(lia)). lra. }
    apply le_INR in H. assert (0 <= (v - X n) / (X (S n) - X n)); [|lra]. apply Rmult_le_pos; [lra|]. apply Rlt_le, Rinv_0_lt_compat. lra.
  - apply le_INR. lia.
Qed.
(** the two bounds on the length of the peak of a window *)
Lemma duration_bounds w p av v d : length w = 48%nat -> (forall x, In x w -> 0 <= x <= p) -> 0 < p -> av <= p ->
  is_max v (rises G (nominal_q w p av)) -> (v <= 0 -> d = / 1000000) -> (0 < v -> crosses (rise G (peak_q p av)) 48 v d) ->
  (forall s k, (1 <= k)%nat -> (s + k <= 48)%nat -> (forall j, (j < 48)%nat -> av < nth j w 0 -> (s <= j < s + k)%nat) -> d <= INR k) /\
  (forall s k, (1 <= k)%nat -> (s + k <= 48)%nat -> av < p -> (forall j, (s <= j < s + k)%nat -> nth j w 0 = p) ->
     (forall j, (j < 48)%nat -> nth j w 0 = 0 \/ av <= nth j w 0) -> INR k <= d).
Proof.
  intros L B P A V D0 D1. assert (Pk : forall n, rise G (peak_q p av) n = (p - av) * from_0 G n).
  { intro n. destruct n as [|n]; [cbn; ring|]. rewrite (rise_const _ _ (p - av)) by first [lia | intros [|j] H; [lia|reflexivity]]. cbn [peak_q from_0]. lra. }
  assert (W : forall j, (j < 48)%nat -> 0 <= nth j w 0 <= p) by (intros j Hj; apply B, nth_In; lia).
  assert (Qv : forall j, nominal_q w p av (S j) = (nth j w 0 - av) * (nth j w 0 / p)) by (intro j; cbn [nominal_q]; field; lra).
  assert (Wp : forall j, (j < 48)%nat -> 0 <= nth j w 0 / p) by (intros j Hj; specialize (W j Hj); apply Rmult_le_pos; [lra|]; apply Rlt_le, Rinv_0_lt_compat; lra).
  split.
  - intros s k K1 K2 Sp. assert (1 <= INR k) by (change 1 with (INR 1); apply le_INR; lia).
    destruct (Rle_dec v 0) as [Hv|Hv]; [rewrite (D0 Hv); lra|]. apply Rnot_le_lt in Hv.
    assert (Up : v <= (p - av) * from_0 G k).
    { destruct V as [[V|V] _]; [lra|]. apply in_map_iff in V. destruct V as (n & <- & Hn). apply in_seq in Hn. apply (rise_at_most _ _ s); try lia; try lra.
      - reflexivity.
      - intros j Hj. apply nominal_le; auto. lia.
      - intros j Hj Q. rewrite Qv in Q. specialize (W j Hj). specialize (Wp j Hj). apply Sp; [exact Hj|]. apply Rnot_le_lt. intro N. nra. }
    destruct (Req_dec p av) as [->|Ne]; [replace (av - av) with 0 in Up by ring; rewrite Rmult_0_l in Up; lra|].
    apply (crosses_le (rise G (peak_q p av)) k v); [|lia|auto|rewrite Pk; exact Up].
    intros n Hn. rewrite !Pk. apply Rmult_lt_compat_l; [lra|]. apply slow_strict. lia.
  - intros s k K1 K2 Av Sp Z. assert (Lo : (p - av) * from_0 G k <= v).
    { apply Rle_trans with (rise G (nominal_q w p av) (s + k)).
      - apply rise_at_least; [reflexivity|lia| |].
        + intros j Hj. rewrite Qv, Sp by exact Hj. field. lra.
        + intros j Hj. rewrite Qv. destruct (Z j Hj) as [E|E]; [rewrite E; unfold Rdiv; lra|]. apply Rmult_le_pos; [lra|]. now apply Wp.
      - destruct V as [_ V]. apply V. right. apply in_map, in_seq. lia. }
    assert (Pos : 0 < (p - av) * from_0 G k) by (apply Rmult_lt_0_compat; [lra|]; apply (slow_strict 0); lia).
    apply (crosses_ge (rise G (peak_q p av)) k v); [|lia|apply D1; lra|rewrite Pk; exact Lo].
    intros n Hn. rewrite !Pk. apply Rmult_lt_compat_l; [lra|]. apply slow_strict. lia.
Qed.
(** the same in full-load hours: each hour counts by its distance from the average times its load *)
Lemma crosses_part X e v d : (forall n, (n < 48)%nat -> X n < X (S n)) -> X 0%nat = 0 -> 0 <= e <= 1 -> crosses X 48 v d -> e * X 1%nat <= v -> e <= d.
Proof.
  intros I X0 He (n & [(Hn & (A & B) & ->)|(-> & A & ->)]) Hv; [|cbn [INR]; lra].
  assert (P : 0 < X (S n) - X n) by (specialize (I n Hn); lra). destruct n as [|n].
  - cbn [INR]. rewrite X0 in *. assert (e <= (v - 0) / (X 1%nat - 0)); [|lra]. apply Rmult_le_reg_r with (X 1%nat - 0); [exact P|]. unfold Rdiv. rewrite Rmult_assoc, Rinv_l by lra. lra.
  - assert (0 <= (v - X (S n)) / (X (S (S n)) - X (S n))) by (apply Rmult_le_pos; [lra|]; apply Rlt_le, Rinv_0_lt_compat; exact P).
    pose proof (le_INR 1 (S n) ltac:(lia)) as L1. change (INR 1) with 1 in L1. lra.
Qed.
Lemma sum_list f w : length w = 48%nat -> Rsum (map f w) = sumf (fun j => f (nth j w 0)) 48.
Proof.
  intro L. rewrite <- L. clear L. induction w as [|x w IH] using rev_ind; [reflexivity|]. rewrite map_app, app_length. cbn [map length]. rewrite Nat.add_1_r. cbn [sumf].
  assert (S : forall a b, Rsum (a ++ b) = Rsum a + Rsum b) by (clear; intros a b; unfold Rsum; induction a as [|y a IH]; cbn [app fold_right]; [lra|rewrite IH; lra]).
  rewrite S, IH. unfold Rsum at 1. cbn [fold_right]. rewrite app_nth2, Nat.sub_diag by lia. cbn [nth]. f_equal; [|lra].
  apply sumf_ext. intros j Hj. now rewrite app_nth1 by exact Hj.
Qed.
Lemma full_load_bounds (NC : nearly_concave G) w p av v d : length w = 48%nat -> (forall x, In x w -> 0 <= x <= p) -> 0 < p -> av < p ->
  is_max v (rises G (nominal_q w p av)) -> (v <= 0 -> d = / 1000000) -> (0 < v -> crosses (rise G (peak_q p av)) 48 v d) ->
  (forall K, (1 <= K <= 48)%nat -> 61 * Rsum (map (fun x => Rmax 0 ((x - av) * x)) w) <= 59 * (INR K * (p * (p - av))) -> d <= INR K) /\
  (forall e, 0 < e <= 1 -> In p w -> Rsum (map (fun x => Rmax 0 ((av - x) * x)) w) <= (1 - e) * (p * (p - av)) -> e <= d).
Proof.
  intros L B P A V D0 D1. assert (Pk : forall n, rise G (peak_q p av) n = (p - av) * from_0 G n).
  { intro n. destruct n as [|n]; [cbn; ring|]. rewrite (rise_const _ _ (p - av)) by first [lia | intros [|j] H; [lia|reflexivity]]. cbn [peak_q from_0]. lra. }
  assert (Inc : forall n, (n < 48)%nat -> rise G (peak_q p av) n < rise G (peak_q p av) (S n)).
  { intros n Hn. rewrite !Pk. apply Rmult_lt_compat_l; [lra|]. apply slow_strict. lia. }
  assert (Qv : forall j, nominal_q w p av (S j) = / p * ((nth j w 0 - av) * nth j w 0)) by (intro j; cbn [nominal_q]; field; lra).
  assert (Pi : 0 < / p) by (apply Rinv_0_lt_compat; exact P).
  assert (Mx : forall x, Rmax 0 (/ p * x) = / p * Rmax 0 x) by (intro x; rewrite <- RmaxRmult by lra; now rewrite Rmult_0_r).
  assert (Div : forall x y c, x <= c * (p * y) -> / p * x <= c * y).
  { intros x y c H. apply Rmult_le_reg_l with p; [exact P|]. rewrite <- Rmult_assoc, Rinv_r by lra. lra. }
  split.
  - intros K HK. rewrite sum_list by exact L. intro E. assert (1 <= INR K) by (change 1 with (INR 1); apply le_INR; lia).
    destruct (Rle_dec v 0) as [Hv|Hv]; [rewrite (D0 Hv); lra|]. apply Rnot_le_lt in Hv.
    apply (crosses_le (rise G (peak_q p av)) K v); [exact Inc|lia|auto|]. rewrite Pk. destruct V as [[V|V] _]; [lra|]. apply in_map_iff in V. destruct V as (n & <- & Hn). apply in_seq in Hn.
    apply rise_full_load; try lia; try lra; try assumption.
    + reflexivity.
    + intros j Hj. apply nominal_le; auto; lia || lra.
    + rewrite (sumf_ext _ (fun j => / p * Rmax 0 ((nth j w 0 - av) * nth j w 0))) by (intros j _; now rewrite Qv, Mx). rewrite sumf_mult.
      assert (X := Div _ _ (59 * INR K) ltac:(rewrite Rmult_assoc; exact E)). lra.
  - intros e He Ip. rewrite sum_list by exact L. intro E. apply In_nth with (d := 0) in Ip. destruct Ip as (s & Hs & Es).
    assert (Lo : e * ((p - av) * from_0 G 1) <= v).
    { assert (Qs : nominal_q w p av (S s) = p - av) by (rewrite Qv, Es; field; lra).
      apply Rle_trans with (rise G (nominal_q w p av) (S s)); [|destruct V as [_ V]; apply V; right; apply in_map, in_seq; lia].
      apply Rle_trans with (2 := rise_peak_hour (nominal_q w p av) _ s eq_refl ltac:(lia) Qs). rewrite <- Rmult_assoc. apply Rmult_le_compat_r; [apply Rlt_le, HG|].
      rewrite (sumf_ext _ (fun j => / p * Rmax 0 ((av - nth j w 0) * nth j w 0))) by (intros j _; rewrite Qv, <- Mx; f_equal; ring). rewrite sumf_mult.
      assert (X := Div _ _ (1 - e) E). lra. }
    assert (Pos : 0 < e * ((p - av) * from_0 G 1)) by (apply Rmult_lt_0_compat; [lra|]; apply Rmult_lt_0_compat; [lra|apply HG]).
    apply (crosses_part (rise G (peak_q p av)) e v); [exact Inc|reflexivity|lra|apply D1; lra|rewrite Pk; exact Lo].
Qed.
End Slow.

Lemma peak_duration_facts :
  forall solver u fuel lntts g, good_solver solver -> admissible u -> calc_sts_g_functions fuel solver u None false = Ok (lntts, g) ->
  forall gt, (forall h, 0 < h -> gt h = interp1d lntts g (ln (h * 3600 / t_s u))) ->
  forall year hourly ld, make_loads gt (2 * PI * u_soil_k u) (u_Rb u) year hourly = Ok ld -> (forall x, In x hourly -> 0 <= x) ->
  forall i w mp av p d, (1 <= i <= 12)%Z ->
  nth_error (ld_two_day ld) (Z.to_nat i) = Some w -> nth_error (ld_peak ld) (Z.to_nat i) = Some mp ->
  nth_error (ld_average ld) (Z.to_nat i) = Some av -> nth_error (ld_duration ld) (Z.to_nat i) = Some d ->
  is_max p w -> 0 < p -> p = mp \/ mp + / 10 <= p ->
  exists G v, slowing G /\ nearly_concave G /\ length w = 48%nat /\ (forall x, In x w -> 0 <= x <= p) /\ av <= p /\
  is_max v (rises G (nominal_q w p av)) /\ (v <= 0 -> d = / 1000000) /\ (0 < v -> crosses (rise G (peak_q p av)) 48 v d).
Proof.
  intros solver u fuel lntts g Hs Hu E gt Gt year hourly ld El NN i w mp av p d Hi Nw Np Na Nd Mp Pp Cl.
  destruct (C101_hours solver u fuel lntts g Hs Hu E) as (gv & Hg' & Sl & Nc).
  assert (Hg : forall m, (1 <= m <= 48)%nat -> gt (IZR (Z.of_nat m)) = Ok (gv m)) by (intros m Hm; rewrite Gt by (apply IZR_lt; lia); now apply Hg').
  assert (K0 : 2 * PI * u_soil_k u <> 0) by (pose proof PI_RGT_0; pose proof (ad_k u Hu); apply Rgt_not_eq, Rmult_lt_0_compat; lra).
  destruct (make_loads_inv _ _ _ _ _ _ El) as (L & _ & _ & _ & EF). destruct (two_day_tables _ _ _ _ _ _ El) as (M & _ & TD).
  destruct (find_inv _ _ _ _ _ _ _ EF) as (w' & mp' & av' & p' & out & A & B).
  destruct (A i Hi) as (A1 & A2 & A3 & A4 & A5). apply py_nth_nonneg in A1, A2, A3; try lia.
  assert (Ew : w' i = w) by congruence. assert (Emp : mp' i = mp) by congruence. assert (Eav : av' i = av) by congruence. rewrite Ew, Emp, Eav in *.
  destruct (TD i Hi) as (w2 & d2 & n & T1 & T2 & T3 & T4 & T5). assert (w2 = w) by congruence. subst w2.
  assert (Lw : length w = 48%nat) by apply T3.
  assert (W0 : forall x, In x w -> 0 <= x <= p) by (intros x Hx; split; [apply NN; eapply window_in; eauto|now apply Mp]).
  destruct (window_peak year hourly i d2 n w L Hi T4 T5 T3) as (m & MX & Nm).
  destruct M as (_ & _ & _ & _ & M). destruct (M i ltac:(lia)) as (t & q & a & d3 & _ & N2 & N3 & _ & _ & IM & Ea & _).
  assert (q = mp) by congruence. assert (Eq : a = av) by congruence. rewrite Eq in Ea. subst q. assert (m = mp) by (eapply is_max_unique; eauto). subst m.
  assert (Imp : mp <= p) by (apply Mp; eapply nth_error_In; exact Nm).
  assert (Hav : av <= mp). { rewrite Ea. apply mean_le_max; [|exact IM]. intros X. destruct IM as [IM _]. rewrite X in IM. destruct IM. }
  assert (Ep : p' i = p).
  { unfold current_peak in A4. apply bind_ok in A4. destruct A4 as (mx & E1 & A4). apply nmaxl_max in E1.
    assert (mx = p). { apply (is_max_unique mx p (0 :: w)); [exact E1|]. split; [right; apply Mp|]. intros x [<-|Hx]; [lra|now apply Mp]. } subst mx.
    destruct (nlt _ _) eqn:Et; [|congruence]. apply nlt_R in Et. unfold nlit in Et. cbn [nabs nsub ndivr nofZ NumR] in Et. apply Rabs_def2 in Et.
    destruct Cl as [->|Cl]; [congruence|lra]. }
  rewrite Ep in *. specialize (A5 ltac:(lra)).
  destruct (perform_ok gt _ (u_Rb u) gv K0 Hg w p av Lw W0 Pp ltac:(lra) (slow_response _ Sl)) as (dd & v & V & EP & _ & _ & D0 & D1).
  assert (Ed : d = dd).
  { assert (B3 : ld_duration ld = 0 :: map (dur_of p' out) (zrange 1 13)) by congruence.
    rewrite B3, (nth_zrange_map (dur_of p' out)) in Nd by exact Hi. unfold dur_of in Nd. rewrite Ep in Nd. cbn [nis0 NumR] in Nd.
    destruct (Req_EM_T p 0); [lra|]. assert (X : out i = (dd, history (2 * PI * u_soil_k u) (u_Rb u) gv (peak_q p av), history (2 * PI * u_soil_k u) (u_Rb u) gv (nominal_q w p av))) by congruence.
    rewrite X in Nd. cbn [fst] in Nd. congruence. }
  subst dd. exists (fun m => gv m / (2 * PI * u_soil_k u) + u_Rb u), v. repeat (split; [assumption || lra|]). assumption.
Qed.

(** C102: for every response of C101 and every year of non-negative loads that is analysed (the tolerance of 0.1 apart, C40), the peak of a month
    lasts no longer than the span of the hours above the month's average in its two days, and at least as long as any run of hours at the peak
    if the other hours are idle or not below the average *)
Theorem C102_peak_duration :
  forall solver u fuel lntts g, good_solver solver -> admissible u -> calc_sts_g_functions fuel solver u None false = Ok (lntts, g) ->
  forall gt, (forall h, 0 < h -> gt h = interp1d lntts g (ln (h * 3600 / t_s u))) ->
  forall year hourly ld, make_loads gt (2 * PI * u_soil_k u) (u_Rb u) year hourly = Ok ld -> (forall x, In x hourly -> 0 <= x) ->
  forall i w mp av p d, (1 <= i <= 12)%Z ->
  nth_error (ld_two_day ld) (Z.to_nat i) = Some w -> nth_error (ld_peak ld) (Z.to_nat i) = Some mp ->
  nth_error (ld_average ld) (Z.to_nat i) = Some av -> nth_error (ld_duration ld) (Z.to_nat i) = Some d ->
  is_max p w -> 0 < p -> p = mp \/ mp + / 10 <= p ->
  (forall s k, (1 <= k)%nat -> (s + k <= 48)%nat -> (forall j, (j < 48)%nat -> av < nth j w 0 -> (s <= j < s + k)%nat) -> d <= INR k) /\
  (forall s k, (1 <= k)%nat -> (s + k <= 48)%nat -> av < p -> (forall j, (s <= j < s + k)%nat -> nth j w 0 = p) ->
     (forall j, (j < 48)%nat -> nth j w 0 = 0 \/ av <= nth j w 0) -> INR k <= d).
Proof.
  intros solver u fuel lntts g Hs Hu E gt Gt year hourly ld El NN i w mp av p d Hi Nw Np Na Nd Mp Pp Cl.
  destruct (peak_duration_facts solver u fuel lntts g Hs Hu E gt Gt year hourly ld El NN i w mp av p d Hi Nw Np Na Nd Mp Pp Cl) as (G & v & Sl & Nc & Lw & W0 & Hav & V & D0 & D1). apply (duration_bounds G Sl w p av v d); auto.
Qed.

(** in full-load hours: an hour with load x counts (x - average) * x / (peak * (peak - average)), so 1 at the peak and 0 at the average or when idle.
    The peak lasts no longer than K hours if the hours above the average count for 59/61 K or less,
    and at least the part of an hour that is left when what the hours below the average count for is taken off *)
Theorem C102_full_load_hours :
  forall solver u fuel lntts g, good_solver solver -> admissible u -> calc_sts_g_functions fuel solver u None false = Ok (lntts, g) ->
  forall gt, (forall h, 0 < h -> gt h = interp1d lntts g (ln (h * 3600 / t_s u))) ->
  forall year hourly ld, make_loads gt (2 * PI * u_soil_k u) (u_Rb u) year hourly = Ok ld -> (forall x, In x hourly -> 0 <= x) ->
  forall i w mp av p d, (1 <= i <= 12)%Z ->
  nth_error (ld_two_day ld) (Z.to_nat i) = Some w -> nth_error (ld_peak ld) (Z.to_nat i) = Some mp ->
  nth_error (ld_average ld) (Z.to_nat i) = Some av -> nth_error (ld_duration ld) (Z.to_nat i) = Some d ->
  is_max p w -> 0 < p -> av < p -> p = mp \/ mp + / 10 <= p ->
  (forall K, (1 <= K <= 48)%nat -> 61 * Rsum (map (fun x => Rmax 0 ((x - av) * x)) w) <= 59 * (INR K * (p * (p - av))) -> d <= INR K) /\
  (forall e, 0 < e <= 1 -> Rsum (map (fun x => Rmax 0 ((av - x) * x)) w) <= (1 - e) * (p * (p - av)) -> e <= d).
Proof.
  intros solver u fuel lntts g Hs Hu E gt Gt year hourly ld El NN i w mp av p d Hi Nw Np Na Nd Mp Pp Av Cl.
  destruct (peak_duration_facts solver u fuel lntts g Hs Hu E gt Gt year hourly ld El NN i w mp av p d Hi Nw Np Na Nd Mp Pp Cl) as (G & v & Sl & Nc & Lw & W0 & _ & V & D0 & D1).
  destruct (full_load_bounds G Sl Nc w p av v d Lw W0 Pp Av V D0 D1) as (A & B). split; [exact A|]. intros e He. apply B; [exact He|]. apply Mp.
Qed.

(** a peak that stands alone lasts exactly as long as its hours *)
Theorem C102_isolated_peak :
  forall solver u fuel lntts g, good_solver solver -> admissible u -> calc_sts_g_functions fuel solver u None false = Ok (lntts, g) ->
  forall gt, (forall h, 0 < h -> gt h = interp1d lntts g (ln (h * 3600 / t_s u))) ->
  forall year hourly ld, make_loads gt (2 * PI * u_soil_k u) (u_Rb u) year hourly = Ok ld -> (forall x, In x hourly -> 0 <= x) ->
  forall i w p av d s k, (1 <= i <= 12)%Z ->
  nth_error (ld_two_day ld) (Z.to_nat i) = Some w -> nth_error (ld_peak ld) (Z.to_nat i) = Some p ->
  nth_error (ld_average ld) (Z.to_nat i) = Some av -> nth_error (ld_duration ld) (Z.to_nat i) = Some d ->
  0 <= av < p -> (1 <= k)%nat -> (s + k <= 48)%nat ->
  (forall j, (j < 48)%nat -> nth j w 0 = if (s <=? j)%nat && (j <? s + k)%nat then p else 0) -> d = INR k.
Proof.
  intros solver u fuel lntts g Hs Hu E gt Gt year hourly ld El NN i w p av d s k Hi Nw Np Na Nd Hav Hk Hsk W.
  assert (Lw : length w = 48%nat). { destruct (two_day_tables _ _ _ _ _ _ El) as (_ & _ & TD). destruct (TD i Hi) as (w2 & d2 & n & T1 & _ & T3 & _). assert (w2 = w) by congruence. subst w2. apply T3. }
  assert (Mp : is_max p w).
  { split.
    - assert (X := W s ltac:(lia)). rewrite Nat.leb_refl, (proj2 (Nat.ltb_lt _ _)) in X by lia. cbn [andb] in X. rewrite <- X. apply nth_In. lia.
    - intros x Hx. apply In_nth with (d := 0) in Hx. destruct Hx as (j & Hj & <-). rewrite W by lia. destruct (_ && _); lra. }
  destruct (C102_peak_duration solver u fuel lntts g Hs Hu E gt Gt year hourly ld El NN i w p av p d Hi Nw Np Na Nd Mp ltac:(lra) ltac:(auto)) as (A & B).
  apply Rle_antisym.
  - apply (A s k Hk Hsk). intros j Hj. rewrite W by exact Hj. destruct (Nat.leb_spec s j), (Nat.ltb_spec j (s + k)); cbn [andb]; intro; lia || lra.
  - apply (B s k Hk Hsk ltac:(lra)).
    + intros j Hj. rewrite W by lia. rewrite (proj2 (Nat.leb_le _ _)), (proj2 (Nat.ltb_lt _ _)) by lia. reflexivity.
    + intros j Hj. rewrite W by exact Hj. destruct (_ && _); lra.
Qed.

(** C103: loads for which the hybrid method is sure to find room for its peaks.  In every month with load the first peak is not in the first hour
    and lies above the mean; in the two days that are analysed no hour exceeds it, and in the measure of C102 the hours above the mean count for no more than 20 hours
    at the peak and those below it for no more than 9/10 of an hour. *)
Definition mean_of (l : list R) : R := Rsum l / INR (length l).
Definition intermittent (hourly : list R) : Prop :=
  forall i n p, (1 <= i <= 12)%Z -> let month := month_of 2019 hourly i in let a := mean_of month in first_max_at n month -> is_max p month -> 0 < p ->
  (0 < n)%nat /\ a < p /\
  exists w, two_days_from hourly (24 * (days_before 2019 i + (Z.of_nat n - 1) / 24)) w /\ (forall x, In x w -> x <= p) /\
  Rsum (map (fun x => Rmax 0 ((x - a) * x)) w) <= 20 * (p * (p - a)) /\ Rsum (map (fun x => Rmax 0 ((a - x) * x)) w) <= 9 / 10 * (p * (p - a)).

Theorem C103_durations :
  forall solver u fuel lntts g, good_solver solver -> admissible u -> calc_sts_g_functions fuel solver u None false = Ok (lntts, g) ->
  forall gt, (forall h, 0 < h -> gt h = interp1d lntts g (ln (h * 3600 / t_s u))) ->
  forall hourly ld, make_loads gt (2 * PI * u_soil_k u) (u_Rb u) 2019 hourly = Ok ld -> (forall x, In x hourly -> 0 <= x) -> intermittent hourly ->
  forall i, (1 <= i <= 12)%Z -> 0 < peak_of ld i -> / 10 <= duration_of ld i <= 21 /\ (1 <= peak_day_of ld i <= days_of 2019 i)%Z.
Proof.
  intros solver u fuel lntts g Hs Hu E gt Gt hourly ld El NN Int i Hi Pp.
  destruct (make_loads_inv _ _ _ _ _ _ El) as (L & _ & _ & _ & _). destruct (two_day_tables _ _ _ _ _ _ El) as (M & LD & TD).
  destruct (TD i Hi) as (w & dy & n & T1 & T2 & T3 & T4 & T5).
  destruct M as (_ & _ & _ & _ & M). destruct (M i ltac:(lia)) as (t & mp & av & d3 & _ & N2 & N3 & _ & _ & IM & Ea & _).
  destruct (window_peak 2019 hourly i dy n w L Hi T4 T5 T3) as (m & MX & Nm). assert (m = mp) by (eapply is_max_unique; eauto). subst m.
  unfold peak_of in Pp. rewrite (nth_error_nth _ _ _ N2) in Pp.
  destruct (Int i n mp Hi T4 IM Pp) as (Hn & Hmean & w' & W' & F & E1 & E2).
  assert (Emean : mean_of (month_of 2019 hourly i) = av) by (rewrite Ea; unfold mean_of, zlen; now rewrite INR_IZR_INZ). rewrite Emean in *.
  assert (Ed : (24 * (days_before 2019 i + (Z.of_nat n - 1) / 24) = 24 * (days_before 2019 i + dy - 1))%Z).
  { assert ((Z.of_nat n - 1) / 24 = dy - 1)%Z by (symmetry; apply (Z.div_unique _ _ _ (Z.of_nat n - 1 - 24 * (dy - 1))); lia). lia. }
  rewrite Ed in W'. assert (w' = w).
  { apply nth_error_ext. intro j. destruct T3 as (L1 & T3), W' as (L2 & W'). destruct (le_lt_dec 48 j) as [X|X].
    - rewrite !(proj2 (nth_error_None _ _)) by lia. reflexivity.
    - specialize (T3 (Z.of_nat j) ltac:(lia)). specialize (W' (Z.of_nat j) ltac:(lia)). rewrite Nat2Z.id in *. congruence. }
  subst w'. destruct (nth_error (ld_duration ld) (Z.to_nat i)) as [d|] eqn:Nd; [|apply nth_error_None in Nd; lia].
  unfold duration_of, peak_day_of. rewrite (nth_error_nth _ _ _ Nd), (nth_error_nth _ _ _ T2).
  assert (Lw : length w = 48%nat) by apply T3.
  assert (Mp : is_max mp w).
  { split; [eapply nth_error_In; exact Nm|exact F]. }
  destruct (C102_full_load_hours solver u fuel lntts g Hs Hu E gt Gt 2019%Z hourly ld El NN i w mp av mp d Hi T1 N2 N3 Nd Mp Pp Hmean ltac:(auto)) as (A & B).
  split; [split|].
  - apply B; lra.
  - replace 21 with (INR 21) by (rewrite INR_IZR_INZ; reflexivity). apply A; [lia|]. rewrite INR_IZR_INZ. change (IZR (Z.of_nat 21)) with 21.
    assert (0 < mp * (mp - av)) by (apply Rmult_lt_0_compat; lra). lra.
  - split; [lia|]. assert (X := first_max_lt n _ T4). destruct (month_of_slice 2019 hourly i L Hi) as [_ LZ]. rewrite LZ in X. lia.
Qed.

(** with such loads an exchanger is evaluated by the hybrid method whenever its g-function reaches the end of the simulation (C94 without its condition on durations) *)
Theorem C103_hybrid_field :
  forall h_circular h_annulus r_conduction eff_u eff_c brentq solver interp field_response st flow V_flow log_time,
  forall coordinates H V_sys mf b e g l0 r, (1 <= st_start st <= st_end st)%Z ->
  coordinates <> [] -> 0 < H -> 0 < st_rb st -> retrieve_flow flow V_flow (fl_rho (st_fluid st)) (zlen coordinates) = Ok (V_sys, mf) ->
  mf * fl_cp (st_fluid st) <> 0 ->
  make_bhe h_circular h_annulus r_conduction st mf = Ok b -> compute_equivalent h_circular r_conduction (eff_u H) (eff_c H) brentq b = Ok e ->
  let u := utube_of eff_u st H e in
  good_solver solver -> admissible u -> field_response mf coordinates H (st_D st) (st_rb st) = Ok g ->
  log_time = l0 :: r -> increasing (l0 :: r) -> length g = length (l0 :: r) ->
  first_second < t_s u * exp l0 -> (forall j, first_second + 120 * INR j <> t_s u * exp l0) ->
  length (st_loads st) = Z.to_nat 8760 ->
  (forall rej ext, split_heat_and_cool (st_loads st) unit_W = Ok (rej, ext) -> clear_peaks rej /\ clear_peaks ext /\ intermittent rej /\ intermittent ext) ->
  let limit := t_s u * exp (last (l0 :: r) 0) in
  let excess := calculate_excess h_circular h_annulus r_conduction eff_u eff_c brentq solver interp field_response st flow V_flow log_time m_hybrid coordinates H in
  (3600 * IZR (hours_through (st_end st)) <= limit -> exists x, excess = Ok x) /\
  (limit < 3600 * IZR (hours_through (st_end st)) -> excess = Err ValueError).
Proof.
  intros hc ha rc eu ec bq solver interp fr st flow V lt coordinates H V_sys mf b e g l0 r Hse Hc HH Hrb Ef Hmf Eb Ee u Hs Hu Eg El Il Lg H0 Hj L8 Cl limit excess.
  assert (P0 : 0 < first_second < 1) by (unfold first_second; split; [apply Rinv_0_lt_compat; lra|lra]).
  apply (C94_hybrid_field_partial hc ha rc eu ec bq solver interp fr st m_hybrid flow V lt coordinates H V_sys mf b e g l0 r (/ 10)); try assumption; try reflexivity.
  - lra.
  - intros rej ext E. destruct (Cl rej ext E) as (A & B & _). auto.
  - intros sts gs rej ext cl hl ld i Ec gt Esp M1 M2 Hl Hi Hp. fold u in Ec.
    destruct (Cl rej ext Esp) as (_ & _ & I1 & I2). destruct (proj2 C36_heating_cooling_split (st_loads st) unit_W 1000 ltac:(auto)) as (rej' & ext' & Esp' & Lr & Lx & Sp).
    assert (rej' = rej /\ ext' = ext) as (-> & ->) by (split; congruence).
    assert (Gt : forall h, 0 < h -> gt h = interp1d sts gs (ln (h * 3600 / t_s u))).
    { intros h Hh. unfold gt, g_lag. destruct (Rle_dec h 0); [lra|reflexivity]. }
    assert (NN : forall l, l = rej \/ l = ext -> forall x, In x l -> 0 <= x).
    { intros l Hl' x Hx. apply In_nth_error in Hx. destruct Hx as (n & Hn).
      assert (Ln : (n < length (st_loads st))%nat).
      { assert (nth_error l n <> None) as X by congruence. apply nth_error_Some in X. destruct Hl' as [-> | ->]; lia. }
      destruct (nth_error (st_loads st) n) as [y|] eqn:Ey; [|apply nth_error_None in Ey; lia].
      destruct (Sp n y Ey) as (r1 & x1 & A1 & A2 & A3 & A4 & _). destruct Hl' as [-> | ->]; [replace x with r1 by congruence|replace x with x1 by congruence]; lra. }
    change (2 * PI * st_soil_k st) with (2 * PI * u_soil_k u) in M1, M2.
    assert (X : / 10 <= duration_of ld i <= 21 /\ (1 <= peak_day_of ld i <= days_of 2019 i)%Z).
    { destruct Hl as [-> | ->]; [apply (C103_durations solver u _ sts gs Hs Hu Ec gt Gt rej cl M1 (NN _ (or_introl eq_refl)) I1 i Hi Hp)
        |apply (C103_durations solver u _ sts gs Hs Hu Ec gt Gt ext hl M2 (NN _ (or_intror eq_refl)) I2 i Hi Hp)]. }
    split; [lra|apply X].
Qed.

(** ** a year with one hour of load in every month: from noon to one o'clock on the 15th *)
Definition noon (i : Z) : Z := (24 * (days_before 2019 i + 14) + 12)%Z.
Definition single_hours (c : R) : list R := map (fun h => if existsb (Z.eqb h) (map noon (zrange 1 13)) then c else 0) (zrange 0 8760).
Lemma noons : forall i k, (1 <= i <= 12)%Z -> (0 <= k < 24 * days_of 2019 i)%Z -> existsb (Z.eqb (24 * days_before 2019 i + k)) (map noon (zrange 1 13)) = (k =? 348)%Z.
Proof.
  assert (C : forallb (fun i => forallb (fun k => Bool.eqb (existsb (Z.eqb (24 * days_before 2019 i + k)) (map noon (zrange 1 13))) (k =? 348)%Z)
    (zrange 0 (24 * days_of 2019 i))) (zrange 1 13) = true) by (vm_compute; reflexivity).
  intros i k Hi Hk. rewrite forallb_forall in C. specialize (C i ltac:(apply in_zrange; lia)). rewrite forallb_forall in C.
  specialize (C k ltac:(apply in_zrange; lia)). now apply Bool.eqb_prop in C.
Qed.
Lemma single_hours_length c : length (single_hours c) = Z.to_nat 8760.
Proof. unfold single_hours. rewrite map_length, zrange_length. reflexivity. Qed.
Lemma single_hours_nth c i k : (1 <= i <= 12)%Z -> (0 <= k < 24 * days_of 2019 i)%Z ->
  nth_error (single_hours c) (Z.to_nat (24 * days_before 2019 i + k)) = Some (if (k =? 348)%Z then c else 0).
Proof.
  intros Hi Hk. rewrite <- noons with (i := i) by assumption. unfold single_hours, zrange. rewrite nth_error_map, nth_error_zseq.
  assert (B0 := days_before_nonneg 2019 i ltac:(lia)). assert (T := days_total 2019 i Hi). change (days_in_year 2019) with 365%Z in T.
  destruct (Nat.ltb_spec (Z.to_nat (24 * days_before 2019 i + k)) (Z.to_nat (8760 - 0))); [|lia]. cbn [option_map]. rewrite Z2Nat.id by lia. reflexivity.
Qed.
Lemma single_hours_month c i k : (1 <= i <= 12)%Z -> (0 <= k < 24 * days_of 2019 i)%Z ->
  nth_error (month_of 2019 (single_hours c) i) (Z.to_nat k) = Some (if (k =? 348)%Z then c else 0).
Proof.
  intros Hi Hk. assert (B0 := days_before_nonneg 2019 i ltac:(lia)). rewrite nth_month; [|unfold zlen; rewrite single_hours_length; reflexivity|exact Hi|lia].
  rewrite <- (single_hours_nth c i k Hi Hk). f_equal. lia.
Qed.
Lemma single_hours_values c x : In x (single_hours c) -> x = c \/ x = 0.
Proof. intro H. apply in_map_iff in H. destruct H as (h & <- & _). destruct (existsb _ _); auto. Qed.
Lemma mean_lt_max (l : list R) m x : is_max m l -> In x l -> x < m -> mean_of l < m.
Proof.
  intros (_ & Top) Hx Lt. assert (P : 0 < INR (length l)) by (apply lt_0_INR; destruct l; [destruct Hx|cbn; lia]).
  apply Rmult_lt_reg_r with (INR (length l)); [exact P|]. unfold mean_of, Rdiv. rewrite Rmult_assoc, Rinv_l, Rmult_1_r by lra. clear P.
  assert (Le : forall l, (forall y, In y l -> y <= m) -> Rsum l <= m * INR (length l)).
  { clear. induction l as [|a l IH]; intro T; [cbn; lra|]. cbn [length]. rewrite S_INR. unfold Rsum in *. cbn [fold_right]. pose proof (T a (or_introl eq_refl)). specialize (IH (fun y Hy => T y (or_intror Hy))). lra. }
  revert Hx Top. induction l as [|a l IH]; intros Hx Top; [destruct Hx|]. cbn [length]. rewrite S_INR. unfold Rsum in *. cbn [fold_right].
  pose proof (Top a (or_introl eq_refl)). pose proof (Le l (fun y Hy => Top y (or_intror Hy))). destruct Hx as [->|Hx]; [lra|].
  specialize (IH Hx (fun y Hy => Top y (or_intror Hy))). lra.
Qed.
Lemma In_firstn {A} n (l : list A) x : In x (firstn n l) -> In x l.
Proof. intro H. rewrite <- (firstn_skipn n l). apply in_or_app. now left. Qed.
Lemma In_skipn {A} n (l : list A) x : In x (skipn n l) -> In x l.
Proof. intro H. rewrite <- (firstn_skipn n l). apply in_or_app. now right. Qed.
Lemma single_hours_peak c i : 0 < c -> (1 <= i <= 12)%Z -> let month := month_of 2019 (single_hours c) i in
  is_max c month /\ (forall n, first_max_at n month -> n = 348%nat) /\ 0 <= mean_of month < c.
Proof.
  intros Hc Hi month. assert (LZ : length month = Z.to_nat (24 * days_of 2019 i)).
  { destruct (month_of_slice 2019 (single_hours c) i ltac:(unfold zlen; rewrite single_hours_length; reflexivity) Hi) as (_ & X). fold month in X. unfold zlen in X. lia. }
  assert (D : (28 <= days_of 2019 i <= 31)%Z) by (apply days_of_bounds; exact Hi).
  assert (V : forall x, In x month -> x = c \/ x = 0).
  { intros x Hx. apply In_nth_error in Hx. destruct Hx as (k & Hk). assert (k < length month)%nat by (apply nth_error_Some; congruence).
    assert (X := single_hours_month c i (Z.of_nat k) Hi ltac:(lia)). rewrite Nat2Z.id in X. fold month in X. destruct (_ =? _)%Z; [left|right]; congruence. }
  assert (Ic : In c month). { apply (nth_error_In _ (Z.to_nat 348)). unfold month. now rewrite single_hours_month by lia. }
  assert (I0 : In 0 month). { apply (nth_error_In _ (Z.to_nat 0)). unfold month. now rewrite single_hours_month by lia. }
  assert (Mx : is_max c month) by (split; [exact Ic|]; intros x Hx; destruct (V x Hx); lra).
  split; [exact Mx|]. split; [|split].
  - intros n (q & Nq & Mq & _). assert (q = c) by (eapply is_max_unique; eauto). subst q. assert (n < length month)%nat by (apply nth_error_Some; congruence).
    assert (X := single_hours_month c i (Z.of_nat n) Hi ltac:(lia)). rewrite Nat2Z.id in X. fold month in X. destruct (Z.eqb_spec (Z.of_nat n) 348); [lia|]. assert (c = 0) by congruence. lra.
  - unfold mean_of. apply Rmult_le_pos; [|apply Rlt_le, Rinv_0_lt_compat, lt_0_INR; lia].
    assert (G : forall l, (forall y, In y l -> 0 <= y) -> 0 <= Rsum l).
    { clear. induction l as [|a l IH]; intro T; [cbn; lra|]. unfold Rsum in *. cbn [fold_right]. pose proof (T a (or_introl eq_refl)). specialize (IH (fun y Hy => T y (or_intror Hy))). lra. }
    apply G. intros y Hy. destruct (V y Hy); lra.
  - apply (mean_lt_max month c 0); assumption.
Qed.
Lemma single_window (c : R) j : (j < 48)%nat -> nth j (map (fun j => if (j =? 12)%nat then c else 0) (seq 0 48)) 0 = if (j =? 12)%nat then c else 0.
Proof.
  intro Hj. rewrite (nth_indep _ 0 ((fun j => if (j =? 12)%nat then c else 0) 0%nat)) by now rewrite map_length, seq_length.
  rewrite (map_nth (fun j => if (j =? 12)%nat then c else 0)), seq_nth by exact Hj. reflexivity.
Qed.
Lemma single_hours_intermittent c : 0 <= c -> intermittent (single_hours c).
Proof.
  intros Hc i n p Hi month a Fm Mx Pp.
  assert (D : (28 <= days_of 2019 i <= 31)%Z) by (apply days_of_bounds; exact Hi).
  assert (0 < c).
  { destruct Mx as (Ip & _). destruct Hc as [|Z0]; [assumption|exfalso]. unfold month, month_of in Ip. apply In_firstn, In_skipn in Ip. apply single_hours_values in Ip. lra. }
  destruct (single_hours_peak c i H Hi) as (P1 & P2 & P3). fold month in P1, P2, P3. assert (p = c) by (eapply is_max_unique; eauto). subst p. rewrite (P2 n Fm).
  split; [lia|]. split; [apply P3|].
  exists (map (fun j => if (j =? 12)%nat then c else 0) (seq 0 48)). split; [|split; [|split]].
  - split; [now rewrite map_length, seq_length|]. intros t Ht. replace ((Z.of_nat 348 - 1) / 24)%Z with 14%Z by reflexivity. rewrite single_hours_length.
    assert (B0 := days_before_nonneg 2019 i ltac:(lia)). assert (T := days_total 2019 i Hi). change (days_in_year 2019) with 365%Z in T.
    rewrite Z.mod_small by lia. replace (24 * (days_before 2019 i + 14) + t)%Z with (24 * days_before 2019 i + (336 + t))%Z by ring.
    rewrite single_hours_nth by lia. rewrite nth_error_map, (nth_error_nth' _ 0%nat), seq_nth by (rewrite ?seq_length; lia). cbn [option_map plus].
    f_equal. destruct (Nat.eqb_spec (Z.to_nat t) 12), (Z.eqb_spec (336 + t) 348); try reflexivity; lia.
  - intros x Hx. apply in_map_iff in Hx. destruct Hx as (j & <- & _). destruct (_ =? _)%nat; lra.
  - rewrite sum_list by now rewrite map_length, seq_length. fold a in P3.
    apply Rle_trans with (sumf (fun j => if (12 <=? j)%nat && (j <? 12 + 1)%nat then c * (c - a) * ((fun i => - INR i) j - (fun i => - INR i) (S j)) else 0) 48).
    + apply sumf_le. intros j Hj. rewrite single_window by exact Hj. cbv beta. rewrite S_INR.
      destruct (Nat.eqb_spec j 12), (Nat.leb_spec 12 j), (Nat.ltb_spec j (12 + 1)); cbn [andb]; try lia; apply Rmax_lub; try lra;
      assert (0 <= c * (c - a)) by (apply Rmult_le_pos; lra); lra.
    + rewrite span_sum. cbn [Nat.min plus]. assert (0 <= c * (c - a)) by (apply Rmult_le_pos; lra). rewrite !INR_IZR_INZ. cbn [Z.of_nat Pos.of_succ_nat Pos.succ]. lra.
  - rewrite sum_list by now rewrite map_length, seq_length. fold a in P3. assert (0 <= c * (c - a)) by (apply Rmult_le_pos; lra).
    apply Rle_trans with (sumf (fun j => 0 * 0) 48); [|rewrite sumf_mult; lra].
    apply sumf_le. intros j Hj. rewrite single_window by exact Hj. destruct (_ =? _)%nat; apply Rmax_lub; lra.
Qed.
Lemma single_hours_clear c : 0 <= c -> clear_peaks (single_hours c).
Proof.
  intros Hc td ts ps avs ds i w mp ES ET Hi Nw Np. left. intros x Hx. set (hourly := single_hours c) in *.
  assert (L : zlen hourly = (24 * days_in_year 2019)%Z) by (unfold hourly, zlen; rewrite single_hours_length; reflexivity).
  destruct (split_ok 2019 hourly L) as (r & E' & M). assert (r = (ts, ps, avs, ds)) by congruence. subst r.
  assert (MD := monthly_days _ _ _ _ _ _ L M). destruct (two_day_ok 2019 hourly ds L) as (td' & ET' & LT & TD).
  { intros k Hk. destruct (MD k Hk) as (d & n & A & B & _). eauto. }
  assert (td' = td) by congruence. subst td'. destruct (TD i Hi) as (w' & d & Nw' & _ & W). assert (w' = w) by congruence. subst w'.
  destruct M as (_ & _ & _ & _ & M). destruct (M i ltac:(lia)) as (t & p & a & d' & _ & Np' & _ & _ & _ & [_ IM] & _). assert (p = mp) by congruence. subst p.
  assert (c <= mp). { apply IM. apply (nth_error_In _ (Z.to_nat 348)). assert (X := days_of_bounds 2019 i Hi). unfold hourly. now rewrite single_hours_month by lia. }
  assert (In x hourly) as Hin by (eapply window_in; eauto). apply single_hours_values in Hin. destruct Hin; lra.
Qed.

Definition serving (l : list R) (st : settings) : settings := {| st_class := st_class st; st_fluid := st_fluid st; st_rb := st_rb st; st_D := st_D st; st_grout_k := st_grout_k st;
  st_grout_rhoCp := st_grout_rhoCp st; st_soil_k := st_soil_k st; st_soil_rhoCp := st_soil_rhoCp st; st_ugt := st_ugt st; st_start := st_start st; st_end := st_end st;
  st_max_EFT := st_max_EFT st; st_min_EFT := st_min_EFT st; st_max_H := st_max_H st; st_min_H := st_min_H st; st_loads := l |}.
Lemma single_hours_split : split_heat_and_cool (single_hours 1000) unit_W = Ok (single_hours 0, single_hours 1).
Proof.
  destruct (proj2 C36_heating_cooling_split (single_hours 1000) unit_W 1000 ltac:(auto)) as (rej & ext & Esp & Lr & Lx & Sp). rewrite single_hours_length in Lr, Lx.
  assert (V : forall c n, (n < Z.to_nat 8760)%nat -> nth_error (single_hours c) n = Some (if existsb (Z.eqb (Z.of_nat n)) (map noon (zrange 1 13)) then c else 0)).
  { intros c n Hn. unfold single_hours, zrange. rewrite nth_error_map, nth_error_zseq. destruct (Nat.ltb_spec n (Z.to_nat (8760 - 0))); [reflexivity|lia]. }
  rewrite Esp. do 2 f_equal; apply nth_error_ext; intro n; (destruct (Nat.lt_ge_cases n (Z.to_nat 8760)) as [Hn|Hn];
    [|rewrite !(proj2 (nth_error_None _ _)) by (rewrite ?single_hours_length; lia); reflexivity]);
  destruct (Sp n _ (V 1000 n Hn)) as (a & x & A1 & A2 & A3 & A4 & A5 & A6); rewrite (V _ n Hn), ?A1, ?A2; f_equal; destruct (existsb _ _); destruct A5; lra.
Qed.
Lemma single_hours_fit rej ext : split_heat_and_cool (single_hours 1000) unit_W = Ok (rej, ext) -> clear_peaks rej /\ clear_peaks ext /\ intermittent rej /\ intermittent ext.
Proof.
  intro E. rewrite single_hours_split in E. assert (rej = single_hours 0 /\ ext = single_hours 1) as (-> & ->) by (split; congruence).
  split; [apply single_hours_clear; lra|]. split; [apply single_hours_clear; lra|]. split; apply single_hours_intermittent; lra.
Qed.
(** every peak of that year lasts one hour, for every borehole *)
Example C102_example : forall solver u fuel lntts g, good_solver solver -> admissible u -> calc_sts_g_functions fuel solver u None false = Ok (lntts, g) ->
  exists ld, make_loads (g_lag lntts g (t_s u)) (2 * PI * u_soil_k u) (u_Rb u) 2019 (single_hours 1) = Ok ld /\ forall i, (1 <= i <= 12)%Z -> duration_of ld i = 1.
Proof.
  intros solver u fuel lntts g Hs Hu E. set (gt := g_lag lntts g (t_s u)).
  assert (Gt : forall h, 0 < h -> gt h = interp1d lntts g (ln (h * 3600 / t_s u))) by (intros h Hh; unfold gt, g_lag; destruct (Rle_dec h 0); [lra|reflexivity]).
  destruct (C101_hours solver u fuel lntts g Hs Hu E) as (gv & Hg' & Sl & Nc).
  assert (Hg : forall m, (1 <= m <= 48)%nat -> gt (IZR (Z.of_nat m)) = Ok (gv m)) by (intros m Hm; rewrite Gt by (apply IZR_lt; lia); now apply Hg').
  assert (K0 : 2 * PI * u_soil_k u <> 0) by (pose proof PI_RGT_0; pose proof (ad_k u Hu); apply Rgt_not_eq, Rmult_lt_0_compat; lra).
  assert (NN : forall x, In x (single_hours 1) -> 0 <= x) by (intros x Hx; destruct (single_hours_values _ _ Hx); lra).
  assert (L : zlen (single_hours 1) = (24 * days_in_year 2019)%Z) by (unfold zlen; rewrite single_hours_length; reflexivity).
  destruct (C40_all_months_partial gt _ (u_Rb u) gv K0 Hg (slow_response _ Sl) 2019%Z (single_hours 1) L NN (single_hours_clear 1 ltac:(lra))) as (ld & El & LD & _).
  exists ld. split; [exact El|]. intros i Hi. destruct (two_day_tables _ _ _ _ _ _ El) as (M & _ & TD).
  destruct (TD i Hi) as (w & dy & n & T1 & T2 & T3 & T4 & T5). destruct M as (_ & _ & _ & _ & M). destruct (M i ltac:(lia)) as (t & mp & av & d3 & _ & N2 & N3 & _ & _ & IM & Ea & _).
  destruct (nth_error (ld_duration ld) (Z.to_nat i)) as [d|] eqn:Nd; [|apply nth_error_None in Nd; lia].
  unfold duration_of. rewrite (nth_error_nth _ _ _ Nd). assert (D := days_of_bounds 2019 i Hi).
  destruct (single_hours_peak 1 i ltac:(lra) Hi) as (P1 & P2 & P3). assert (mp = 1) by (eapply is_max_unique; eauto). subst mp. rewrite (P2 n T4) in *. assert (dy = 15%Z) by lia. subst dy.
  assert (Emean : mean_of (month_of 2019 (single_hours 1) i) = av) by (rewrite Ea; unfold mean_of, zlen; now rewrite INR_IZR_INZ). rewrite Emean in P3.
  apply (C102_isolated_peak solver u fuel lntts g Hs Hu E gt Gt 2019%Z (single_hours 1) ld El NN i w 1 av d 12 1 Hi T1 N2 N3 Nd P3 ltac:(lia) ltac:(lia)).
  intros j Hj. destruct T3 as (_ & T3). specialize (T3 (Z.of_nat j) ltac:(lia)). rewrite Nat2Z.id, single_hours_length in T3.
  assert (B0 := days_before_nonneg 2019 i ltac:(lia)). assert (T := days_total 2019 i Hi). change (days_in_year 2019) with 365%Z in T.
  rewrite Z.mod_small in T3 by lia. replace (24 * (days_before 2019 i + 15 - 1) + Z.of_nat j)%Z with (24 * days_before 2019 i + (336 + Z.of_nat j))%Z in T3 by ring.
  rewrite single_hours_nth in T3 by lia. rewrite (nth_error_nth _ _ _ T3).
  destruct (Nat.leb_spec 12 j), (Nat.ltb_spec j (12 + 1)), (Z.eqb_spec (336 + Z.of_nat j) 348); cbn [andb]; reflexivity || lia.
Qed.
(** the plant of Properties_System with that year *)
Example C103_example : exists x,
  calculate_excess plant_film plant_annulus plant_wall plant_Rb plant_Rc plant_root thomas plant_interp plant_response (serving (single_hours 1000) (plant 35 5 200 20)) flow_borehole (1 / 5)
    eskilson m_hybrid plant_field (height_for 120060) = Ok x.
Proof.
  destruct eskilson_head as (r & Er). set (P := serving (single_hours 1000) (plant 35 5 200 20)).
  destruct (plant_bhe 35 5 200 20 (1 / 5 / 1000 * 998)) as (e & Ee & Hu). destruct (Hu 120060 ltac:(lra)) as (Ad & Ts). clear Hu.
  destruct (not_a_short_time 120060 ltac:(vm_compute; discriminate) ltac:(lia)) as (S1 & S2).
  change (utube_of plant_Rb (plant 35 5 200 20)) with (utube_of plant_Rb P) in *.
  assert (Et : t_s (utube_of plant_Rb P (height_for 120060) e) * exp (- (17 / 2)) = 120060).
  { rewrite Ts, Rmult_assoc, <- exp_plus. replace (17 / 2 + - (17 / 2)) with 0 by ring. rewrite exp_0. ring. }
  apply (C103_hybrid_field plant_film plant_annulus plant_wall plant_Rb plant_Rc plant_root thomas plant_interp plant_response P flow_borehole (1 / 5) eskilson
    plant_field (height_for 120060) (1 / 5 * 4) (1 / 5 / 1000 * 998) (Single e) e eskilson (- (17 / 2)) r); try reflexivity; try assumption.
  - cbn. lia.
  - discriminate.
  - apply height_positive. lra.
  - cbn. lra.
  - cbn. rewrite pydiv_R by lra. cbn. unfold zlen, plant_field. cbn. f_equal.
  - cbn. lra.
  - exact solver_exists.
  - rewrite <- Er. exact eskilson_increasing.
  - rewrite Er. reflexivity.
  - rewrite Et. exact S1.
  - intro j. rewrite Et. apply S2.
  - intros rej ext E. now apply single_hours_fit.
  - rewrite <- Er, Ts. change (hours_through (st_end P)) with (8760 * 1)%Z. apply eskilson_reach. lra.
Qed.

Print Assumptions C101_temperatures.
Print Assumptions C101_g_function.
Print Assumptions C104_one_step_ahead_partial.
Print Assumptions C104_recorded_times_refuted.
Print Assumptions C101_hours.
Print Assumptions C102_peak_duration.
Print Assumptions C102_full_load_hours.
Print Assumptions C102_isolated_peak.
Print Assumptions C103_durations.
Print Assumptions C103_hybrid_field.
