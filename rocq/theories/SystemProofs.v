(** Lemmas about System.v *)
From Coq Require Import ZArith List Bool Reals Lra Lia.
From Verif Require Import Base Num BaseLemmas Utilities Loads LoadsSpec LoadsProofs LoadsSim LoadsHybrid Ghe GheSpec GheProofs GFun GFunSpec GFunProofs
  Radial RadialSpec RadialProofs RadialGrid Bhe Equiv EquivSpec EquivProofs Export System SystemSpec
  Properties_Loads Properties_Ghe Properties_GFun Properties_Radial.
Import ListNotations.
Open Scope R_scope.

(** ** interpolation in an increasing table *)
Lemma increasing_nondecreasing l : increasing l -> nondecreasing l.
Proof. induction l as [|a [|b l] IH]; cbn; auto. intros (A & B). split; [lra|]. now apply IH. Qed.
Lemma interp_in l : forall p q v, increasing (map fst (p :: q :: l)) -> fst p <= v <= fst (last (p :: q :: l) (0, 0)) ->
  exists w, interp_sorted (p :: q :: l) v = Ok w /\ on_line (p :: q :: l) v w.
Proof.
  induction l as [|r l IH]; intros p q v Hi Hv.
  - cbn [map increasing] in Hi. cbn [last] in Hv. rewrite interp_cons2. destruct (nle (fst q) v) eqn:E.
    + apply nle_R in E. cbn [interp_sorted]. assert (E' : neqb (fst q) v = true) by (apply neqb_R; lra). rewrite E'.
      eexists. split; [reflexivity|]. exists [], p, q, []. split; [reflexivity|]. split; [lra|].
      replace v with (fst q) by lra. field. lra.
    + apply nle_R_false in E. assert (E' : nle (fst p) v = true) by (apply nle_R; lra). rewrite E'.
      rewrite pydiv_R by (cbn; lra). cbn [bind]. eexists. split; [reflexivity|].
      exists [], p, q, []. split; [reflexivity|]. split; [lra|]. cbn. field. lra.
  - cbn [map increasing] in Hi. destruct Hi as (A & B). rewrite interp_cons2. destruct (nle (fst q) v) eqn:E.
    + apply nle_R in E. destruct (IH q r v B) as (w & Ew & l1 & a & b & l2 & El & X).
      { split; [assumption|]. apply Hv. }
      exists w. split; [exact Ew|]. exists (p :: l1), a, b, l2. rewrite El. split; [reflexivity|exact X].
    + apply nle_R_false in E. assert (E' : nle (fst p) v = true) by (apply nle_R; lra). rewrite E'.
      rewrite pydiv_R by (cbn; lra). cbn [bind]. eexists. split; [reflexivity|].
      exists [], p, q, (r :: l). split; [reflexivity|]. split; [lra|]. cbn. field. lra.
Qed.
Lemma interp_below l : forall p v, increasing (map fst (p :: l)) -> v < fst p -> interp_sorted (p :: l) v = Err ValueError.
Proof.
  destruct l as [|q l]; intros p v Hi Hv.
  - cbn [interp_sorted]. destruct (neqb (fst p) v) eqn:E; [apply neqb_R in E; lra|reflexivity].
  - cbn [map increasing] in Hi. rewrite interp_cons2.
    destruct (nle (fst q) v) eqn:E; [apply nle_R in E; lra|]. destruct (nle (fst p) v) eqn:E'; [apply nle_R in E'; lra|reflexivity].
Qed.
Lemma increasing_last_ge l : forall a, increasing (a :: l) -> a <= last (a :: l) 0.
Proof.
  induction l as [|b l IH]; intros a H; [cbn; lra|]. destruct H as (A & B). specialize (IH b B).
  change (last (a :: b :: l) 0) with (last (b :: l) 0). lra.
Qed.
Lemma last_map_fst (l : list (R * R)) p : last (map fst (p :: l)) 0 = fst (last (p :: l) (0, 0)).
Proof. revert p. induction l as [|q l IH]; intro p; [reflexivity|]. apply (IH q). Qed.
Lemma interp_above l : forall p v, increasing (map fst (p :: l)) -> fst (last (p :: l) (0, 0)) < v -> interp_sorted (p :: l) v = Err ValueError.
Proof.
  induction l as [|q l IH]; intros p v Hi Hv.
  - cbn [interp_sorted]. cbn in Hv. destruct (neqb (fst p) v) eqn:E; [apply neqb_R in E; lra|reflexivity].
  - cbn [map increasing] in Hi. destruct Hi as (A & B). rewrite interp_cons2.
    assert (fst q <= v). { pose proof (increasing_last_ge _ _ B) as X. change (fst q :: map fst l) with (map fst (q :: l)) in X. rewrite last_map_fst in X.
      change (last (p :: q :: l) (0, 0)) with (last (q :: l) (0, 0)) in Hv. lra. }
    assert (E : nle (fst q) v = true) by now apply nle_R. rewrite E. apply IH; assumption.
Qed.
Lemma map_fst_combine (x : list R) : forall (y : list R), length x = length y -> map fst (combine x y) = x.
Proof. induction x as [|a x IH]; intros [|b y] H; cbn in *; try lia; [reflexivity|]. f_equal. apply IH. lia. Qed.
(** interp1d on an increasing table of at least two points *)
Lemma interp1d_range x y a b r v : x = a :: b :: r -> length y = length x -> increasing x ->
  (a <= v <= last x 0 -> exists w, interp1d x y v = Ok w /\ on_line (combine x y) v w) /\
  (~ a <= v <= last x 0 -> interp1d x y v = Err ValueError).
Proof.
  intros Ex L Hi. unfold interp1d.
  assert (M : map fst (combine x y) = x) by (apply map_fst_combine; lia).
  rewrite sort_sorted by (rewrite M; now apply increasing_nondecreasing).
  destruct y as [|c [|d y]]; rewrite Ex in L; cbn in L; try lia.
  assert (La : last x 0 = fst (last (combine x (c :: d :: y)) (0, 0))).
  { rewrite <- M at 1. rewrite Ex. cbn [combine]. apply last_map_fst. }
  rewrite La. rewrite <- M in Hi. rewrite Ex in *. cbn [combine] in *. split.
  - intro Hv. apply interp_in; assumption.
  - intro Hv. destruct (Rlt_dec v a); [now apply interp_below|]. apply interp_above; [exact Hi|]. lra.
Qed.

(** ** time differences *)
Lemma exp_le_inv a b : exp a <= exp b -> a <= b.
Proof. intros [X|X]; [left; now apply exp_lt_inv|right; now apply exp_inv]. Qed.
Lemma g_lag_range x y a b r ts d : x = a :: b :: r -> length y = length x -> increasing x -> 0 < ts ->
  (ts * exp a <= 3600 * d <= ts * exp (last x 0) -> exists w, g_lag x y ts d = Ok w /\ on_line (combine x y) (ln (d * 3600 / ts)) w) /\
  (~ ts * exp a <= 3600 * d <= ts * exp (last x 0) -> g_lag x y ts d = Err ValueError).
Proof.
  intros Ex L Hi Ht. destruct (interp1d_range x y a b r (ln (d * 3600 / ts)) Ex L Hi) as (I1 & I2). unfold g_lag.
  pose proof (exp_pos a) as Pa. assert (Pt : 0 < ts * exp a) by now apply Rmult_lt_0_compat.
  destruct (Rle_dec d 0) as [Hd|Hd]; [split; [intro; lra|reflexivity]|].
  assert (P : 0 < d * 3600 / ts) by (apply Rdiv_lt_0_compat; lra).
  assert (E : forall z, ts * exp z <= 3600 * d <-> z <= ln (d * 3600 / ts)).
  { intro z. split; intro X.
    - apply exp_le_inv. rewrite exp_ln by exact P. apply Rmult_le_reg_l with ts; [exact Ht|]. replace (ts * (d * 3600 / ts)) with (3600 * d) by (field; lra). exact X.
    - destruct X as [X| ->].
      + apply exp_increasing in X. rewrite exp_ln in X by exact P. apply Rmult_lt_compat_l with (r := ts) in X; [|exact Ht].
        replace (ts * (d * 3600 / ts)) with (3600 * d) in X by (field; lra). lra.
      + rewrite exp_ln by exact P. right. field. lra. }
  assert (E2 : forall z, 3600 * d <= ts * exp z <-> ln (d * 3600 / ts) <= z).
  { intro z. split; intro X.
    - apply exp_le_inv. rewrite exp_ln by exact P. apply Rmult_le_reg_l with ts; [exact Ht|]. replace (ts * (d * 3600 / ts)) with (3600 * d) by (field; lra). exact X.
    - destruct X as [X|X].
      + apply exp_increasing in X. rewrite exp_ln in X by exact P. apply Rmult_lt_compat_l with (r := ts) in X; [|exact Ht].
        replace (ts * (d * 3600 / ts)) with (3600 * d) in X by (field; lra). lra.
      + rewrite <- X, exp_ln by exact P. right. field. lra. }
  rewrite E, E2. split; assumption.
Qed.

Lemma apart_nth l : forall d i j, apart d l -> 0 <= d -> (j < i < length l)%nat -> nth j l 0 + d <= nth i l 0.
Proof.
  induction l as [|a l IH]; intros d i j H Hd Hij; [cbn in Hij; lia|]. destruct i as [|i]; [lia|].
  destruct l as [|b l]; [cbn in Hij; lia|]. destruct H as (A & B). destruct j as [|j].
  - change (a + d <= nth i (b :: l) 0). destruct i as [|i]; [exact A|].
    assert (X := IH d (S i) 0%nat B Hd ltac:(cbn in *; lia)). change (nth 0 (b :: l) 0) with b in X. lra.
  - apply (IH d i j B Hd). cbn in *. lia.
Qed.
Lemma apart_at d t : apart d (0 :: t) -> 0 <= d -> forall i j, (j < i <= length t)%nat -> at_step t j + d <= at_step t i.
Proof. intros H Hd i j Hij. rewrite !at_step_nth. apply apart_nth; [exact H|exact Hd|cbn; lia]. Qed.
Lemma last_nth (l : list R) a : last (a :: l) 0 = nth (length l) (a :: l) 0.
Proof. revert a. induction l as [|b l IH]; intro a; [reflexivity|]. change (last (a :: b :: l) 0) with (last (b :: l) 0). apply IH. Qed.
Lemma apart_last d t : apart d (0 :: t) -> 0 <= d -> forall i, (i <= length t)%nat -> 0 <= at_step t i <= last (0 :: t) 0.
Proof.
  intros H Hd i Hi. rewrite last_nth, <- at_step_nth. split.
  - destruct i as [|i]; [cbn; lra|]. assert (X := apart_at d t H Hd (S i) 0%nat ltac:(lia)). cbn [at_step] in *. lra.
  - destruct (Nat.eq_dec i (length t)) as [->|N]; [lra|]. assert (X := apart_at d t H Hd (length t) i ltac:(lia)). lra.
Qed.

(** ** the short-time calculation ends within the iterations given to it *)
Lemma System_fuel solver u : exists sts, calc_sts_g_functions (short_time_fuel u) solver u None false = Ok sts.
Proof.
  destruct (calc_ok solver u None) as (m & _ & M2 & _ & M4). eexists. apply M4. unfold short_time_fuel.
  destruct m as [|m]; [lia|]. specialize (M2 m ltac:(lia)). cbn [final_of] in M2. unfold entry_time in M2.
  set (c := calc_time_in_sec u) in *. assert (P : 0 < / 1000000000000) by (apply Rinv_0_lt_compat; lra).
  assert (X : IZR (Z.of_nat (S m)) < c / 120).
  { rewrite <- INR_IZR_INZ, S_INR. apply Rmult_lt_reg_r with 120; [lra|]. unfold Rdiv. rewrite Rmult_assoc, Rinv_l by lra. lra. }
  destruct (archimed (c / 120)) as (Y & _). assert (Z.of_nat (S m) < up (c / 120))%Z by (apply lt_IZR; lra). lia.
Qed.

(** ** the combined table *)
Lemma calc_table solver u fuel sts g : calc_sts_g_functions fuel solver u None false = Ok (sts, g) ->
  exists m, sts = map (fun j => ln (entry_time j / t_s u)) (seq 0 (S m)) /\ length g = length sts /\
  calc_time_in_sec u - 120 <= entry_time m.
Proof.
  intro E. destruct (calc_ok solver u None) as (m & M1 & _ & M3 & M4).
  assert (Hf : (m < fuel)%nat) by (apply Nat.nle_gt; intro X; rewrite M3 in E by exact X; discriminate).
  rewrite M4 in E by exact Hf. destruct (Ok_pair _ _ _ _ E) as (El & Eg). exists m. split; [now symmetry|].
  split; [rewrite <- El, <- Eg, !map_length; reflexivity|exact M1].
Qed.
Lemma entries_increasing u : admissible u -> forall n a, increasing (map (fun j => ln (entry_time j / t_s u)) (seq a n)).
Proof.
  intros Hu n. induction n as [|[|n] IH]; intro a; [exact I|exact I|].
  change (map ?f (seq a (S (S n)))) with (f a :: f (S a) :: map f (seq (S (S a)) n)). split; [|apply (IH (S a))].
  apply ln_time_lt; [exact Hu|]. split; [apply entry_pos|apply entry_lt].
Qed.
Lemma entry_exp u j : admissible u -> t_s u * exp (ln (entry_time j / t_s u)) = entry_time j.
Proof.
  intro Hu. pose proof (t_s_pos u Hu) as P. rewrite exp_ln by (apply Rdiv_lt_0_compat; [apply entry_pos|exact P]). field. lra.
Qed.
Lemma table_ok solver u fuel sts g lts glts l0 r : admissible u -> calc_sts_g_functions fuel solver u None false = Ok (sts, g) ->
  lts = l0 :: r -> increasing lts -> length glts = length lts ->
  (first_second < t_s u * exp l0) -> (forall j, first_second + 120 * INR j <> t_s u * exp l0) ->
  exists x y a b r', combine_sts_lts lts glts sts g = Ok (x, y) /\ x = a :: b :: r' /\ increasing x /\ length y = length x /\
  t_s u * exp a = first_second /\ last x 0 = last lts 0.
Proof.
  intros Hu E El Hl Lg H0 Hj. destruct (calc_table solver u fuel sts g E) as (m & Es & Lg' & _).
  assert (Hs : increasing sts) by (rewrite Es; now apply entries_increasing).
  assert (Ns : sts <> []) by (rewrite Es; discriminate).
  assert (Ni : ~ In l0 sts).
  { rewrite Es. intro X. apply in_map_iff in X. destruct X as (j & X & _). apply (Hj j). unfold first_second. fold (entry_time j).
    rewrite <- (entry_exp u j Hu), X. reflexivity. }
  assert (Nl : last sts 0 <> l0).
  { intro X. apply Ni. rewrite <- X. destruct (exists_last Ns) as (l & z & ->). rewrite last_last. apply in_or_app. right. now left. }
  destruct (C52_combined_times_partial lts glts sts g l0 r El Hl Hs Ns Lg Lg' Nl) as (be & af & x & y & Es' & B & A & Ec & Ex & Ey & Inc).
  specialize (Inc Ni).
  assert (Hb : exists b', be = ln (entry_time 0 / t_s u) :: b').
  { destruct be as [|b0 be].
    - exfalso. cbn [app] in Es'. specialize (A (ln (entry_time 0 / t_s u))). rewrite <- Es', Es in A. specialize (A (or_introl eq_refl)).
      apply exp_increasing in A. apply Rmult_lt_compat_l with (r := t_s u) in A; [|now apply t_s_pos]. rewrite entry_exp in A by exact Hu.
      unfold entry_time in A. cbn [INR] in A. unfold first_second in H0. lra.
    - exists be. f_equal. rewrite Es in Es'. cbn [seq map app] in Es'. congruence. }
  destruct Hb as (b' & Eb).
  assert (Exx : exists b r', x = ln (entry_time 0 / t_s u) :: b :: r').
  { rewrite Ex, Eb, El. cbn [app]. destruct (b' ++ l0 :: r) eqn:X; [destruct b'; discriminate|]. eauto. }
  destruct Exx as (b & r' & Exx). exists x, y, (ln (entry_time 0 / t_s u)), b, r'. split; [exact Ec|]. split; [exact Exx|].
  split; [exact Inc|]. split; [|split].
  - rewrite Ey, Ex, !app_length, firstn_length, Lg', Es', app_length. lia.
  - rewrite entry_exp by exact Hu. unfold entry_time, first_second. cbn [INR]. lra.
  - rewrite Ex, El. clear. induction be as [|c be IH]; [reflexivity|]. cbn [app]. destruct (be ++ l0 :: r) eqn:X; [destruct be; discriminate|].
    change (last (c :: r0 :: l) 0) with (last (r0 :: l) 0). exact IH.
Qed.

(** ** the time grid of the hybrid sequence advances *)
(** a peak that is kept fits into its day with room on both sides *)
Definition roomy (d : R) (ld : loads R) (i : Z) : Prop :=
  let m := month_index i in
  0 < peak_of ld m -> d <= duration_of ld m <= 22 - 2 * d /\ (1 <= peak_day_of ld m <= cal m)%Z.
Lemma apart_cons d a l : apart d (a :: l) <-> (match l with [] => True | b :: _ => a + d <= b end) /\ apart d l.
Proof. destruct l; cbn; tauto. Qed.
Lemma apart_app d a l r : apart d (a :: l) -> apart d (last (a :: l) 0 :: r) -> apart d (a :: l ++ r).
Proof.
  revert a. induction l as [|b l IH]; intros a H K; [exact K|].
  apply apart_cons in H. destruct H as [H1 H2]. cbn [app]. apply apart_cons. split; auto.
Qed.
Lemma hours_nonneg i : (0 <= hours_to i)%Z.
Proof. unfold hours_to. generalize (Z.to_nat i). induction n; [reflexivity|]. cbn [cum]. assert (X := cal_bounds (Z.of_nat (S n))). lia. Qed.
Lemma roomy_start d ld i : 0 < d <= 1 -> (1 <= i)%Z -> 0 < peak_of ld (month_index i) -> roomy d ld i ->
  IZR (hours_to (i - 1) + 24 * (peak_day_of ld (month_index i) - 1)) + 2 + d <= peak_start ld i /\
  peak_start ld i + duration_of ld (month_index i) + d <= IZR (hours_to (i - 1) + 24 * peak_day_of ld (month_index i)) /\
  peak_start ld i + d <= peak_start ld i + duration_of ld (month_index i).
Proof.
  intros Hd Hi P F. destruct (F P) as [D B]. unfold peak_start. cbn zeta. set (k := peak_day_of ld _) in *.
  assert (H1 := IZR_le 0 _ (hours_nonneg (i - 1))). assert (H2 := IZR_le 1 k ltac:(lia)).
  rewrite !plus_IZR, !mult_IZR, !minus_IZR in *. destruct (Rlt_dec _ 0); lra.
Qed.
Lemma month_apart d cl hl s e i : 0 < d <= 1 -> (1 <= i)%Z -> (peaks_kept s e i = true -> roomy d cl i /\ roomy d hl i) ->
  apart d (IZR (hours_to (i - 1)) :: map snd (month_entries cl hl s e i)).
Proof.
  intros Hd Hi F. assert (HS := hours_to_step i Hi). assert (CB := cal_bounds (month_index i)).
  unfold month_entries. cbn zeta. set (m := month_index i) in *.
  assert (LE : IZR (hours_to (i - 1)) + 1 <= IZR (hours_to i)) by (rewrite <- (plus_IZR _ 1); apply IZR_le; lia).
  assert (One : apart d [IZR (hours_to (i - 1)); IZR (hours_to i)]) by (cbn [apart]; split; [lra|exact I]).
  destruct (peaks_kept s e i); [|exact One]. destruct (F eq_refl) as [FC FH]. clear F.
  assert (S1 := fun P => roomy_start d cl i Hd Hi P FC). assert (S2 := fun P => roomy_start d hl i Hd Hi P FH).
  assert (C1 : 0 < peak_of cl m -> (1 <= peak_day_of cl m <= cal m)%Z) by (intros; now apply FC).
  assert (C2 : 0 < peak_of hl m -> (1 <= peak_day_of hl m <= cal m)%Z) by (intros; now apply FH).
  fold m in S1, S2.
  assert (BC : 0 < peak_of cl m -> IZR (hours_to (i - 1)) <= IZR (hours_to (i - 1) + 24 * (peak_day_of cl m - 1)) /\ IZR (hours_to (i - 1) + 24 * peak_day_of cl m) <= IZR (hours_to i)).
  { intros P. specialize (C1 P). split; apply IZR_le; lia. }
  assert (BH : 0 < peak_of hl m -> IZR (hours_to (i - 1)) <= IZR (hours_to (i - 1) + 24 * (peak_day_of hl m - 1)) /\ IZR (hours_to (i - 1) + 24 * peak_day_of hl m) <= IZR (hours_to i)).
  { intros P. specialize (C2 P). split; apply IZR_le; lia. }
  destruct (Z.ltb_spec (peak_day_of cl m) (peak_day_of hl m)); [|destruct (Z.ltb_spec (peak_day_of hl m) (peak_day_of cl m)); [|exact One]].
  - assert (O : IZR (hours_to (i - 1) + 24 * peak_day_of cl m) <= IZR (hours_to (i - 1) + 24 * (peak_day_of hl m - 1))) by (apply IZR_le; lia).
    unfold peak_entries. fold m. destruct (Rlt_dec 0 (peak_of cl m)), (Rlt_dec 0 (peak_of hl m));
    repeat match goal with H : 0 < _, K : 0 < _ -> _ |- _ => specialize (K H) end;
    cbn [app map snd apart]; lra.
  - assert (O : IZR (hours_to (i - 1) + 24 * peak_day_of hl m) <= IZR (hours_to (i - 1) + 24 * (peak_day_of cl m - 1))) by (apply IZR_le; lia).
    unfold peak_entries. fold m. destruct (Rlt_dec 0 (peak_of cl m)), (Rlt_dec 0 (peak_of hl m));
    repeat match goal with H : 0 < _, K : 0 < _ -> _ |- _ => specialize (K H) end;
    cbn [app map snd apart]; lra.
Qed.
Lemma grid_apart d cl hl s e n : 0 < d <= 1 -> forall a, (1 <= a)%Z ->
  (forall i, (a <= i < a + Z.of_nat n)%Z -> peaks_kept s e i = true -> roomy d cl i /\ roomy d hl i) ->
  apart d (IZR (hours_to (a - 1)) :: map snd (flat_map (month_entries cl hl s e) (zseq a n))).
Proof.
  intro Hd. induction n as [|n IH]; intros a Ha F; [exact I|]. cbn [zseq flat_map]. rewrite map_app.
  apply apart_app; [apply month_apart; auto; apply F; lia|].
  replace (last (IZR (hours_to (a - 1)) :: map snd (month_entries cl hl s e a)) 0) with (IZR (hours_to (a + 1 - 1))).
  - apply IH; [lia|]. intros; apply F; auto; lia.
  - rewrite <- (month_entries_last cl hl s e _ (0, 0)). replace (a + 1 - 1)%Z with a by lia.
    assert (NE := month_entries_nonempty cl hl s e a). destruct (exists_last NE) as (l & x & ->).
    rewrite last_last, map_app. cbn [map]. rewrite app_comm_cons, last_last. reflexivity.
Qed.
(** ... also from time 0 on *)
Lemma sequence_apart d cl hl s e : 0 < d <= 1 -> (1 <= s)%Z ->
  (forall i, (s <= i <= e)%Z -> peaks_kept s e i = true -> roomy d cl i /\ roomy d hl i) ->
  apart d (0 :: map snd (sequence cl hl s e)).
Proof.
  intros Hd Hs F. assert (X := grid_apart d cl hl s e (Z.to_nat (e + 1 - s)) Hd s Hs).
  specialize (X ltac:(intros i Hi; apply F; lia)). unfold sequence, zrange. assert (H1 := IZR_le 0 _ (hours_nonneg (s - 1))).
  destruct (map snd _) as [|b l]; [exact I|]. cbn [apart] in X. destruct X as (X & Y). apply apart_cons. split; [lra|exact Y].
Qed.
Lemma sequence_end cl hl s e : (s <= e)%Z -> last (0 :: map snd (sequence cl hl s e)) 0 = IZR (hours_to e).
Proof.
  intro H. unfold sequence. replace (zrange s (e + 1)) with (zrange s e ++ [e]).
  2:{ unfold zrange. replace (Z.to_nat (e + 1 - s)) with (Z.to_nat (e - s) + 1)%nat by lia. rewrite zseq_app. f_equal. cbn [zseq]. f_equal. lia. }
  rewrite flat_map_app, map_app. cbn [flat_map]. rewrite app_nil_r.
  assert (NE := month_entries_nonempty cl hl s e e). rewrite <- (month_entries_last cl hl s e e (0, 0)).
  destruct (exists_last NE) as (l & x & ->). rewrite last_last, map_app. cbn [map]. rewrite app_assoc, app_comm_cons, last_last. reflexivity.
Qed.

(** ** steps within the range of the g-function *)
Definition value_or_0 (g : R -> res R) (d : R) : R := match g d with Ok w => w | Err _ => 0 end.
Lemma in_range_covers x y a b r ts t : x = a :: b :: r -> length y = length x -> increasing x -> 0 < ts ->
  forall d, 0 <= d -> ts * exp a <= 3600 * d -> apart d (0 :: t) -> 3600 * last (0 :: t) 0 <= ts * exp (last x 0) ->
  covers (g_lag x y ts) (value_or_0 (g_lag x y ts)) t (length t).
Proof.
  intros Ex L Hi Ht d Hd0 Hd Ha Hl i j Hij. assert (A := apart_at d t Ha Hd0 i j Hij).
  assert (B := apart_last d t Ha Hd0 i ltac:(lia)). assert (C := apart_last d t Ha Hd0 j ltac:(lia)).
  destruct (g_lag_range x y a b r ts (at_step t i - at_step t j) Ex L Hi Ht) as (G & _).
  destruct G as (w & E & _); [split; lra|]. unfold value_or_0. rewrite E. reflexivity.
Qed.

(** ** the state that a simulation leaves *)
Section Purity.
Variable h_circular : R -> R -> R -> R -> R -> R -> R -> R.
Variable h_annulus : R -> R -> R -> R -> R -> R -> R -> R -> R * R.
Variable r_conduction : R -> R -> R -> R.
Variable eff_u : R -> pg_u -> R -> R -> R.
Variable eff_c : R -> pg_c -> R -> R -> R.
Variable brentq : (R -> res R) -> R -> R -> list R * res R.
Variable solver : list R -> list R -> list R -> list R -> list R.
Variable interp : ikind -> list (R * R) -> R -> R.
Variable st : settings.
Variable m : method.

Let update := update_bhe h_circular h_annulus r_conduction eff_u eff_c.
Let sim_ghe := ghe_simulate h_circular h_annulus r_conduction eff_u eff_c brentq solver interp st m.
Let objective := local_objective h_circular h_annulus r_conduction eff_u eff_c brentq solver interp st m.

Lemma update_absorbs H H' b : update H (update H' b) = update H b.
Proof.
  unfold update, update_bhe. destruct b as [b|b|b|]; [reflexivity|reflexivity| |reflexivity].
  f_equal. unfold update_coaxial, compute_resistances_c. cbn [default].
  destruct b as [cm cmp cf geo x1 x2 x3 x4 x5 x6 x7 x8 x9 g]. cbn [cb_m cb_fluid cb_geo cb_pg cb_m_pipe].
  destruct geo as [(i1 & i2) (o1 & o2) eps k rc rb gk sk]. cbn [cg_inner cg_outer cg_eps cg_k cg_rb cg_grout_k].
  destruct (h_annulus _ _ _ _ _ _ _ _) as (a1 & a2) eqn:E1. cbn. rewrite E1. reflexivity.
Qed.

Lemma grab_history gf k bh rb x y : gf_table gf = t_empty -> (2 <= length (gf_curves gf))%nat -> full_curves gf -> bh <> 0 ->
  between gf (gf_B gf / bh) -> effective_kind k_default (Z.of_nat (length (gf_curves gf))) = Ok k ->
  forall t, t = t_empty \/ t = t_built k false ->
  grab_g_function interp (with_table gf t) bh rb x y = (t_built k false, snd (grab_g_function interp gf bh rb x y)).
Proof.
  intros Ht Hn Hf Hz Hb Ek t Htt.
  assert (Hne : gf_curves gf <> []) by (destruct (gf_curves gf); [cbn in Hn; lia|discriminate]).
  destruct (extremes gf Hne) as (mx & mn & _ & _ & M1 & M2). apply (between_extremes gf _ mn mx M2 M1) in Hb.
  destruct (clamped gf bh mn mx Hz M2 M1 Hb) as (h & Eh & _).
  destruct (interpolation_by_table interp gf bh k_default h false k Hn Eh Ek Hf) as (F1 & _).
  assert (Ec : g_function_interpolation interp (with_table gf t) bh k_default = (t_built k false, read_table interp gf (t_built k false) h)).
  { destruct (interpolation_by_table interp (with_table gf t) bh k_default h false k Hn Eh Ek Hf) as (G1 & G2).
    destruct Htt as [-> | ->]; [rewrite G1 by reflexivity|rewrite (G2 k false) by reflexivity]; reflexivity. }
  unfold grab_g_function. rewrite Ec, (F1 Ht). reflexivity.
Qed.

(** s differs from s0 only in what the simulations of sizing overwrite *)
Record alike (k : ikind) (s0 s : ghe) : Prop := {
  al_B : gh_B s = gh_B s0; al_nbh : gh_nbh s = gh_nbh s0; al_load : gh_load s = gh_load s0; al_hour : gh_hour s = gh_hour s0;
  al_bhe : forall H, update H (gh_bhe s) = update H (gh_bhe s0);
  al_gf : exists t, gh_gf s = with_table (gh_gf s0) t /\ (t = t_empty \/ t = t_built k false) }.
Lemma alike_H k s0 s h : alike k s0 s -> alike k s0 (with_H s h).
Proof. intros [A1 A2 A3 A4 A5 A6]. constructor; assumption. Qed.
Lemma with_table_same (gf : @gfunction R) : gf_table gf = t_empty -> gf = with_table gf t_empty.
Proof. intro E. destruct gf. cbn in *. now rewrite E. Qed.
Lemma alike_refl k s : gf_table (gh_gf s) = t_empty -> alike k s s.
Proof.
  intro E. constructor; try reflexivity. exists t_empty. split; [now apply with_table_same|now left].
Qed.

Variable s0 : ghe.
Hypothesis T0 : gf_table (gh_gf s0) = t_empty.
Hypothesis N0 : (2 <= length (gf_curves (gh_gf s0)))%nat.
Hypothesis F0 : full_curves (gh_gf s0).
Hypothesis B0 : gh_B s0 = gf_B (gh_gf s0).
Hypothesis P0 : 0 < gh_B s0.
Variable k : ikind.
Hypothesis K0 : effective_kind k_default (Z.of_nat (length (gf_curves (gh_gf s0)))) = Ok k.

Lemma simulate_history s h : alike k s0 s -> 0 < h -> between (gh_gf s0) h ->
  let r0 := sim_ghe (with_H s0 h) in let r := sim_ghe (with_H s h) in
  snd r = snd r0 /\ alike k s0 (fst r) /\ gh_H (fst r) = h /\
  (forall x, snd r0 = Ok x -> fst r = fst r0) /\
  (forall e, snd r0 = Err e -> gh_results (fst r) = gh_results s).
Proof.
  intros A Hh Hb. assert (A' := A). destruct A' as [A1 A2 A3 A4 A5 (t & A6 & A7)]. unfold sim_ghe, ghe_simulate.
  cbn [with_H gh_H gh_B gh_bhe]. fold update. rewrite A1. rewrite pydiv_R by lra. rewrite A5.
  assert (Bk : forall H, update H (update h (gh_bhe s0)) = update H (gh_bhe s0)) by (intro; apply update_absorbs).
  cbn [with_bhe gh_bhe].
  destruct (compute_equivalent _ _ _ _ _ _) as [e|x].
  2:{ cbn [fst snd]. repeat split; try assumption; try reflexivity; try discriminate. exists t. auto. }
  destruct (short_time _ _ _ _ _) as [r|x].
  2:{ cbn [fst snd]. repeat split; try assumption; try reflexivity; try discriminate. exists t. auto. }
  cbn [with_short_time with_eq with_bhe with_H gh_gf gh_sts gh_ts gh_H gh_B gh_nbh gh_load gh_hour gh_bhe gh_eq gh_results].
  assert (Zb : gh_B s0 / h <> 0) by (apply Rgt_not_eq, Rdiv_lt_0_compat; lra).
  assert (Eb : gf_B (gh_gf s0) / (gh_B s0 / h) = h) by (rewrite <- B0; field; lra).
  rewrite A6. rewrite (grab_history _ k) by (try assumption; rewrite Eb; exact Hb).
  assert (G0 := grab_history (gh_gf s0) k (gh_B s0 / h) (st_rb st) (fst (snd r)) (snd (snd r)) T0 N0 F0 Zb ltac:(rewrite Eb; exact Hb) K0 t_empty (or_introl eq_refl)).
  rewrite <- with_table_same in G0 by exact T0.
  destruct (grab_g_function interp (gh_gf s0) (gh_B s0 / h) (st_rb st) (fst (snd r)) (snd (snd r))) as (t0 & g0) eqn:EG.
  cbn [snd] in G0. injection G0 as ->. cbn [snd].
  assert (Ew : forall t' t'', with_table (with_table (gh_gf s0) t') t'' = with_table (gh_gf s0) t'') by reflexivity. rewrite Ew.
  destruct g0 as [c|x].
  2:{ cbn [fst snd]. repeat split; try assumption; try reflexivity; try discriminate. exists (t_built k false). auto. }
  cbn [with_gf with_short_time with_eq with_bhe with_H gh_gf gh_sts gh_ts gh_H gh_B gh_nbh gh_load gh_hour gh_bhe gh_eq gh_results]. rewrite A2, A3, A4.
  destruct (simulate _ _ _ _ _ _ _ _ _ _ _ _ _ _) as [[[[T D] mx] mn]|x]; cbn [fst snd].
  2:{ repeat split; try assumption; try reflexivity; try discriminate; exists (t_built k false); auto. }
  split; [reflexivity|]. split; [|split; [reflexivity|split; [|discriminate]]].
  - constructor; try assumption. exists (t_built k false). auto.
  - intros _ _. destruct s, s0. cbn in A1, A2, A3, A4. unfold with_results, with_gf, with_short_time, with_eq, with_bhe, with_H. cbn. now subst.
Qed.

(** temperatures and excess of a height, simulated with the object before sizing *)
Definition fresh (h : R) : res (list R * R) :=
  match sim_ghe (with_H s0 h) with
  | (s, Ok x) => Ok (fst (gh_results s), cost (st_max_EFT st) (st_min_EFT st) (fst x) (snd x))
  | (_, Err e) => Err e
  end.
Let f (h : R) : res R := let! x := fresh h in Ok (snd x).
Variable base : list R * list R.   (* results before sizing *)
Definition agrees (s : ghe) (z : @sizing R) : Prop :=
  alike k s0 s /\ gh_H s = sz_height z /\
  match sz_result z with
  | Some (h, T) => (exists x, snd (sim_ghe (with_H s0 h)) = Ok x) /\ (sz_height z = h -> s = fst (sim_ghe (with_H s0 h))) /\
      gh_results s = gh_results (fst (sim_ghe (with_H s0 h))) /\ fst (gh_results s) = T
  | None => gh_results s = base
  end.
Lemma objective_agrees s z h : agrees s z -> 0 < h -> between (gh_gf s0) h ->
  snd (objective s h) = f h /\ agrees (fst (objective s h)) (evaluate fresh z h).
Proof.
  intros (A & _ & C) Hh Hb. destruct (simulate_history s h A Hh Hb) as (S1 & S2 & S3 & S4 & S5).
  unfold objective, local_objective. fold sim_ghe. destruct (sim_ghe (with_H s h)) as (s', r) eqn:E. cbn [fst snd] in *.
  assert (Er : excess st r = f h).
  { unfold f, fresh. rewrite S1. destruct (sim_ghe (with_H s0 h)) as (s1, [x|e]); reflexivity. }
  split; [exact Er|]. unfold agrees, evaluate, fresh. destruct (sim_ghe (with_H s0 h)) as (s1, [x|e]) eqn:E1; cbn [fst snd sz_height sz_result] in *.
  - split; [exact S2|]. split; [exact S3|]. rewrite E1. cbn [fst snd]. rewrite (S4 x eq_refl). split; [eauto|]. auto.
  - split; [exact S2|]. split; [exact S3|]. rewrite (S5 e eq_refl). destruct (sz_result z) as [(h', T)|]; [|exact C].
    destruct C as ((x & C1) & _ & C3). split; [eauto|]. split; [|exact C3]. intro X. exfalso. rewrite X in E1. rewrite E1 in C1. discriminate.
Qed.
Lemma converse_agrees lo up d : 0 < lo -> (forall h, lo <= h <= up -> between (gh_gf s0) h) -> asks_within lo up d -> forall s z, agrees s z ->
  let c := converse h_circular h_annulus r_conduction eff_u eff_c brentq solver interp st m d s in
  snd c = snd (listen f d) /\ agrees (fst c) (fold_left (evaluate fresh) (fst (listen f d)) z).
Proof.
  intros Hlo Hb. induction d as [x next IH|r]; intros Hd s z A; [|split; [reflexivity|exact A]].
  cbn [asks_within] in Hd. destruct Hd as (Hx & Hd). cbn [converse listen].
  destruct (objective_agrees s z x A ltac:(lra) (Hb x Hx)) as (E & A'). fold objective.
  destruct (objective s x) as (s', v). cbn [fst snd] in *. subst v. destruct (f x) as [y|e]; [|split; [reflexivity|exact A']].
  destruct (IH y (Hd y) s' _ A') as (E' & A''). destruct (listen f (next y)) as (l, r). exact (conj E' A'').
Qed.
Lemma size_agrees brentq_dialogue s : alike k s0 s -> gh_results s = base -> st_min_H st <= st_max_H st -> 0 < st_min_H st ->
  (forall h, st_min_H st <= h <= st_max_H st -> between (gh_gf s0) h) -> (forall lo up, asks_within lo up (brentq_dialogue lo up)) ->
  let a := ghe_size h_circular h_annulus r_conduction eff_u eff_c brentq solver interp st brentq_dialogue m s in
  let b := size (fun f lo up => listen f (brentq_dialogue lo up)) fresh (st_max_H st) (st_min_H st) {| sz_height := gh_H s; sz_result := None |} in
  snd a = snd b /\ agrees (fst a) (fst b).
Proof.
  intros Hal Hbase Hl Hp Hb Hd. unfold ghe_size, size. cbn [nadd nofZ NumR]. rewrite !pydiv_R by lra.
  set (guess := (st_max_H st + st_min_H st) / 2). cbn [sz_result].
  assert (A0 : agrees (with_H s guess) {| sz_height := guess; sz_result := None |}).
  { split; [now apply alike_H|]. split; [reflexivity|exact Hbase]. }
  fold f. unfold solve_root. fold objective.
  destruct (objective_agrees _ _ (st_min_H st) A0 Hp (Hb (st_min_H st) ltac:(lra))) as (E1 & A1).
  destruct (objective (with_H s guess) (st_min_H st)) as (s1, v1). cbn [fst snd] in *. subst v1.
  destruct (f (st_min_H st)) as [minus|e]; [|split; [reflexivity|exact A1]].
  destruct (objective_agrees _ _ (st_max_H st) A1 ltac:(lra) (Hb (st_max_H st) ltac:(lra))) as (E2 & A2).
  destruct (objective s1 (st_max_H st)) as (s2, v2). cbn [fst snd] in *. subst v2.
  destruct (f (st_max_H st)) as [plus|e]; [|split; [reflexivity|exact A2]].
  destruct (sign_of minus) as [sm|e]; cbn [bind]; [|split; [reflexivity|exact A2]].
  destruct (sign_of plus) as [sp|e]; cbn [bind]; [|split; [reflexivity|exact A2]].
  destruct (negb (sp =? sm)%Z).
  - destruct (converse_agrees _ _ _ Hp Hb (Hd (st_min_H st) (st_max_H st)) s2 _ A2) as (E3 & A3).
    destruct (converse _ _ _ _ _ _ _ _ _ _ _ s2) as (s3, r). destruct (listen f (brentq_dialogue (st_min_H st) (st_max_H st))) as (l, r').
    cbn [fst snd] in *. subst r'. split; [reflexivity|exact A3].
  - destruct (_ && _); [|destruct (_ && _)]; (split; [reflexivity|exact A2]).
Qed.
End Purity.

(** ** one step outside the range fails the simulation *)
Lemma mapM_err {A B} (f : A -> res B) e l : (forall x, In x l -> (exists y, f x = Ok y) \/ f x = Err e) -> (exists x, In x l /\ f x = Err e) ->
  mapM f l = Err e.
Proof.
  induction l as [|a l IH]; intros H (x & Hx & Ex); [destruct Hx|]. cbn [mapM].
  destruct (H a (or_introl eq_refl)) as [(y & Ey)|E]; [|rewrite E; reflexivity]. rewrite Ey. cbn [bind].
  rewrite IH; [reflexivity|intros z Hz; apply H; now right|]. destruct Hx as [<-|Hx]; [congruence|]. exists x. auto.
Qed.
Lemma detailed_out_of_range (g : R -> res R) (nbh H k2 Tg Rb m cp : R) (Q t : list R) :
  nbh <> 0 -> H <> 0 -> k2 <> 0 -> m * cp <> 0 -> (length Q <= length t)%nat ->
  (forall d, (exists w, g d = Ok w) \/ g d = Err ValueError) ->
  (exists i j, (j < i <= length Q)%nat /\ g (at_step t i - at_step t j) = Err ValueError) ->
  simulate_detailed g nbh H k2 Tg Rb m cp Q t = Err ValueError.
Proof.
  intros Hn HH Hk Hm Ht Hg (i & j & Hij & E). unfold simulate_detailed, raise_if.
  destruct (Z.eqb_spec (zlen Q) 0) as [Z0|Z0]; [reflexivity|]. cbn [bind].
  rewrite (mapM_pure _ (fun x => x / nbh)) by (intros; now apply pydiv_R). cbn [bind]. cbn zeta.
  set (Qb := nofZ 0 :: map (fun x => x / nbh) Q). set (tv := nofZ 0 :: t).
  assert (LQ : length Qb = S (length Q)) by (unfold Qb; cbn [length]; now rewrite map_length).
  assert (LT : length tv = S (length t)) by reflexivity.
  assert (Step : forall k, (1 <= k < zlen Q + 1)%Z ->
    ((exists y, mapM (fun s => g (nsub (nth (Z.to_nat k) tv 0) s)) (py_slice tv 0 k) = Ok y) -> exists y, detailed_step g H k2 Tg Rb m cp Qb tv (diffs Qb) k = Ok y) /\
    (mapM (fun s => g (nsub (nth (Z.to_nat k) tv 0) s)) (py_slice tv 0 k) = Err ValueError -> detailed_step g H k2 Tg Rb m cp Qb tv (diffs Qb) k = Err ValueError)).
  { intros k Hk'. unfold zlen in Hk'. unfold detailed_step.
    rewrite (proj2 (py_nth_nonneg tv k (nth (Z.to_nat k) tv 0) ltac:(lia))) by (apply nth_error_nth'; lia). cbn [bind]. split.
    - intros (y & Ey). rewrite Ey. cbn [bind].
      rewrite (mapM_pure _ (fun d => d / H / k2)) by (intros; rewrite pydiv_R by assumption; cbn [bind]; now apply pydiv_R). cbn [bind].
      rewrite (proj2 (py_nth_nonneg Qb k (nth (Z.to_nat k) Qb 0) ltac:(lia))) by (apply nth_error_nth'; lia). cbn [bind].
      rewrite pydiv_R by assumption. cbn [bind]. rewrite pydiv_R; [cbn [bind]; eauto|].
      cbn [nmul nofZ NumR]. rewrite Rmult_assoc. apply Rmult_integral_contrapositive_currified; [lra|exact Hm].
    - intros Ey. rewrite Ey. reflexivity. }
  assert (Inner : forall k, (exists y, mapM (fun s => g (nsub (nth (Z.to_nat k) tv 0) s)) (py_slice tv 0 k) = Ok y) \/
    mapM (fun s => g (nsub (nth (Z.to_nat k) tv 0) s)) (py_slice tv 0 k) = Err ValueError).
  { intro k. induction (py_slice tv 0 k) as [|a l IH]; [left; eexists; reflexivity|]. cbn [mapM].
    destruct (Hg (nsub (nth (Z.to_nat k) tv 0) a)) as [(w & Ew)|Ew]; rewrite Ew; cbn [bind]; [|now right].
    destruct IH as [(y & Ey)|Ey]; rewrite Ey; cbn [bind]; eauto. }
  rewrite (mapM_err _ ValueError); [reflexivity| |].
  - intros k Hk'. apply in_zrange in Hk'. destruct (Step k Hk') as (S1 & S2). destruct (Inner k) as [X|X]; auto.
  - exists (Z.of_nat i). split; [apply in_zrange; unfold zlen; lia|]. apply Step; [unfold zlen; lia|].
    apply mapM_err.
    + intros x _. apply Hg.
    + exists (at_step t j). split.
      * rewrite py_slice_0 by lia. rewrite at_step_nth. change (0 :: t) with tv.
        replace (nth j tv 0) with (nth j (firstn i tv) 0); [apply nth_In; rewrite firstn_length, LT; lia|].
        rewrite <- (firstn_skipn i tv) at 2. rewrite app_nth1 by (rewrite firstn_length, LT; lia). reflexivity.
      * rewrite Nat2Z.id. rewrite !at_step_nth in E. rewrite at_step_nth. exact E.
Qed.

(** ** the g-functions the search and the sizing compute *)
Lemma one_curve (field_response : R -> R -> R -> res (list R)) (B H rb D : R) log_time locations :
  compute_live_g_function field_response B [H] [rb] [D] log_time locations =
  let! g := field_response H D rb in
  Ok {| gf_B := B; gf_curves := [(H, {| cv_g := g; cv_rb := rb; cv_D := D |})]; gf_log_time := log_time; gf_locations := locations; gf_table := t_empty |}.
Proof.
  unfold compute_live_g_function. change (zrange 0 (zlen [H])) with [0%Z]. cbn [foldM].
  replace (py_nth [H] 0) with (Ok H) by reflexivity. replace (py_nth [rb] 0) with (Ok rb) by reflexivity. replace (py_nth [D] 0) with (Ok D) by reflexivity.
  cbn [bind]. destruct (field_response H D rb) as [g|e]; [|reflexivity]. cbn [bind data_set].
  destruct (configure_ok [({| dk_B := B; dk_H := H; dk_rb := rb; dk_D := Some D |}, g)] log_time locations _ [] eq_refl)
    as (s & keys & G & RB & DD & E & B1 & B2 & B3 & B4 & Ec & Nd & Hk & _ & Hg & Dk & _).
  rewrite E. f_equal. destruct s as [b c lt loc t]. cbn [gf_B gf_curves gf_log_time gf_locations gf_table] in *. subst.
  assert (Ek : keys = [H]).
  { destruct keys as [|h [|h' r]].
    - destruct (proj2 (Hk H)). eexists. split; [now left|reflexivity].
    - destruct (proj1 (Hk h) (or_introl eq_refl)) as (kv & [<-|[]] & X). cbn in X. congruence.
    - exfalso. destruct (proj1 (Hk h) (or_introl eq_refl)) as (kv & [<-|[]] & X). destruct (proj1 (Hk h') (or_intror (or_introl eq_refl))) as (kv & [<-|[]] & X').
      cbn in X, X'. inversion Nd as [|a l Na]. apply Na. left. congruence. }
  subst keys. cbn [map]. destruct (Hg H (or_introl eq_refl)) as (kv & L & Eg & Er).
  unfold last_entry in L. cbn [rev app find fst dk_H] in L. destruct (Req_EM_T H H) as [_|N]; [|now contradiction N].
  assert (LD : last_depth [({| dk_B := B; dk_H := H; dk_rb := rb; dk_D := Some D |}, g)] H = Some D).
  { unfold last_depth. cbn [rev app find fst dk_H dk_D]. destruct (Req_EM_T H H) as [_|N]; [reflexivity|now contradiction N]. }
  assert (Dn : Some D = Some (DD H)).
  { rewrite <- LD. apply Dk; [|now left]. intros kv' [<-|[]]. eauto. }
  injection L as <-. cbn [fst snd dk_rb] in Eg, Er. rewrite Eg, Er. injection Dn as <-. reflexivity.
Qed.

(** ** dialogues *)
Lemma listen_within f lo up d : asks_within lo up d -> forall p, In p (fst (listen f d)) -> lo <= p <= up.
Proof.
  induction d as [x next IH|r]; intros Hd p Hp; [|destruct Hp]. cbn [asks_within] in Hd. destruct Hd as (Hx & Hd). cbn [listen] in Hp.
  destruct (f x) as [y|e]; [|destruct Hp as [<-|[]]; exact Hx]. assert (I := IH y (Hd y)). destruct (listen f (next y)) as (l, r).
  destruct Hp as [<-|Hp]; [exact Hx|now apply I].
Qed.
Lemma listen_ok f d x : snd (listen f d) = Ok x -> forall p, In p (fst (listen f d)) -> exists y, f p = Ok y.
Proof.
  induction d as [a next IH|r]; intros E p Hp; [|destruct Hp]. cbn [listen] in *. destruct (f a) as [y|e] eqn:Ea; [|discriminate].
  assert (I := IH y). destruct (listen f (next y)) as (l, r). destruct Hp as [<-|Hp]; [eauto|now apply I].
Qed.
