(** Proofs about the two-day simulations and the peak durations *)
From Coq Require Import ZArith List Bool Reals Lra Lia.
From Verif Require Import Base Num BaseLemmas Loads LoadsSpec LoadsProofs DomainsProofs.
Import ListNotations.
Open Scope R_scope.

Lemma Rsum_seq f n : Rsum (map f (seq 0 n)) = sumf f n.
Proof.
  induction n; [reflexivity|]. rewrite seq_S, map_app, Rsum_app, IHn. cbn [sumf Nat.add map]. unfold Rsum; cbn. lra.
Qed.
Lemma sumf_ext f g n : (forall j, (j < n)%nat -> f j = g j) -> sumf f n = sumf g n.
Proof. induction n; intros H; cbn; auto. rewrite IHn, (H n) by auto. reflexivity. Qed.
Lemma sumf_add f g n : sumf (fun j => f j + g j) n = sumf f n + sumf g n.
Proof. induction n; cbn; [lra|]. rewrite IHn. lra. Qed.
Lemma sumf_scal f c n : sumf (fun j => f j * c) n = sumf f n * c.
Proof. induction n; cbn; [lra|]. rewrite IHn. lra. Qed.
Lemma sumf_telescope q n : sumf (fun j => q (S j) - q j) n = q n - q O.
Proof. induction n; cbn; [lra|]. rewrite IHn. lra. Qed.
Lemma sumf_first f n : sumf f (S n) = f O + sumf (fun j => f (S j)) n.
Proof. induction n; cbn [sumf] in *; [lra|]. rewrite IHn. lra. Qed.

Lemma diffs_map (q : list R) : diffs q = map (fun j => nth (S j) q 0 - nth j q 0) (seq 0 (length q - 1)).
Proof.
  induction q as [|a q IH]; [reflexivity|]. destruct q as [|b q]; [reflexivity|].
  change (diffs (a :: b :: q)) with ((b - a) :: diffs (b :: q)). rewrite IH.
  replace (length (a :: b :: q) - 1)%nat with (S (length (b :: q) - 1)) by (cbn; lia).
  cbn [seq map]. f_equal. rewrite <- seq_shift, map_map. reflexivity.
Qed.
Lemma firstn_seq a n m : (n <= m)%nat -> firstn n (seq a m) = seq a n.
Proof.
  intros H. replace m with (n + (m - n))%nat by lia. rewrite seq_app, firstn_app, seq_length, Nat.sub_diag.
  cbn [firstn]. rewrite app_nil_r. apply firstn_all2. now rewrite seq_length.
Qed.
Lemma combine_map2 {A B C} (f : A -> B) (g : A -> C) l : combine (map f l) (map g l) = map (fun x => (f x, g x)) l.
Proof. induction l; cbn; congruence. Qed.
Lemma mapM_map {A B C} (f : B -> res C) (h : A -> B) l : mapM f (map h l) = mapM (fun a => f (h a)) l.
Proof. induction l; cbn; [reflexivity|]. now rewrite IHl. Qed.
Lemma py_slice_0 {A} (l : list A) n : (n <= length l)%nat -> py_slice l 0 (Z.of_nat n) = firstn n l.
Proof. intros. rewrite py_slice_plain by (unfold zlen; lia). cbn [Z.to_nat skipn]. f_equal. lia. Qed.
Lemma py_nth_nat (l : list R) n : (n < length l)%nat -> py_nth l (Z.of_nat n) = Ok (nth n l 0).
Proof. intros. apply py_nth_nonneg; [lia|]. rewrite Nat2Z.id. now apply nth_error_nth'. Qed.
Lemma hour_times_seq : hour_times = map (fun j => IZR (Z.of_nat j)) (seq 0 49).
Proof. unfold hour_times. rewrite zrange_seq, map_map. reflexivity. Qed.
Lemma nth_map_seq (f : nat -> R) a n j : (j < n)%nat -> nth j (map f (seq a n)) 0 = f (a + j)%nat.
Proof. intros. rewrite (nth_indep _ 0 (f O)) by (rewrite map_length, seq_length; lia). rewrite map_nth, seq_nth by lia. reflexivity. Qed.

(** ** superposition *)
Lemma rise_bound G q c n : (forall j, (1 <= j <= n)%nat -> q j <= c) -> step_response G -> (1 <= n <= 48)%nat ->
  rise G q n <= (c - q O) * G n.
Proof.
  intros Hq [G1 GM] Hn. unfold rise. revert q Hq. induction n as [|n IH]; intros q Hq; [lia|].
  rewrite sumf_first. rewrite Nat.sub_0_r.
  destruct n as [|n].
  - cbn [sumf]. assert (q 1%nat <= c) by (apply Hq; lia).
    replace ((q 1%nat - q O) * G 1%nat + 0) with ((c - q O) * G 1%nat - (c - q 1%nat) * G 1%nat) by lra.
    assert (0 <= (c - q 1%nat) * G 1%nat) by (apply Rmult_le_pos; lra). lra.
  - set (q' := fun j => q (S j)).
    assert (E : sumf (fun j => (q (S (S j)) - q (S j)) * G (S (S n) - S j)%nat) (S n) <= (c - q 1%nat) * G (S n)).
    { apply (IH ltac:(lia) q'). intros j Hj. apply Hq. lia. }
    assert (q 1%nat <= c) by (apply Hq; lia). specialize (GM (S n) ltac:(lia)).
    assert (0 <= (c - q 1%nat) * (G (S (S n)) - G (S n))) by (apply Rmult_le_pos; lra). lra.
Qed.
Lemma rise_const G q c n : (forall j, (1 <= j <= n)%nat -> q j = c) -> (1 <= n)%nat -> rise G q n = (c - q O) * G n.
Proof.
  intros Hq Hn. unfold rise. destruct n as [|n]; [lia|]. rewrite sumf_first, Nat.sub_0_r, (Hq 1%nat) by lia.
  rewrite (sumf_ext _ (fun _ => 0)).
  - assert (Z : forall k, sumf (fun _ => 0) k = 0) by (induction k; cbn; lra). rewrite Z. lra.
  - intros j Hj. rewrite !Hq by lia. lra.
Qed.
Lemma step_response_nonneg G n : step_response G -> (1 <= n <= 48)%nat -> 0 <= G n.
Proof. intros [A B] H. induction n as [|n IH]; [lia|]. destruct n; auto. specialize (B (S n) ltac:(lia)). specialize (IH ltac:(lia)). lra. Qed.
Lemma step_response_mono G n m : step_response G -> (1 <= n <= m)%nat -> (m <= 48)%nat -> G n <= G m.
Proof.
  intros [A B] [H K] U. induction K; [lra|]. specialize (IHK ltac:(lia)). specialize (B m ltac:(lia)). lra.
Qed.

Section Sim.
Variables (gt : R -> res R) (two_pi_k Rb : R) (g : nat -> R).
Hypothesis K0 : two_pi_k <> 0.
Hypothesis GT : forall m, (1 <= m <= 48)%nat -> gt (IZR (Z.of_nat m)) = Ok (g m).
(** the unit step response of the borehole: borehole wall and borehole resistance *)
Definition unit_rise (m : nat) : R := g m / two_pi_k + Rb.

Lemma hourly_step_R (q : list R) n : length q = 49%nat -> nth 0 q 0 = 0 -> (1 <= n <= 48)%nat ->
  hourly_step gt two_pi_k Rb hour_times q (Z.of_nat n) = Ok (rise unit_rise (fun j => nth j q 0) n).
Proof.
  intros L Q0 Hn. unfold hourly_step. cbn zeta.
  assert (LH : length (hour_times (F := R)) = 49%nat) by (rewrite hour_times_seq, map_length, seq_length; reflexivity).
  rewrite py_nth_nat by lia. cbn [bind].
  rewrite py_slice_0 by lia. rewrite hour_times_seq, nth_map_seq, firstn_map, firstn_seq, mapM_map by lia. cbn [Nat.add].
  rewrite (mapM_pure _ (fun j => g (n - j)%nat)).
  2:{ intros j Hj. apply in_seq in Hj. cbn [nsub NumR]. rewrite <- minus_IZR.
      replace (Z.of_nat n - Z.of_nat j)%Z with (Z.of_nat (n - j)) by lia. apply GT. lia. }
  cbn [bind]. rewrite diffs_map, py_slice_0 by (rewrite map_length, seq_length; lia).
  rewrite firstn_map, firstn_seq, mapM_map by lia.
  rewrite (mapM_pure _ (fun j => (nth (S j) q 0 - nth j q 0) / two_pi_k)).
  2:{ intros. now apply pydiv_R. }
  cbn [bind]. rewrite py_nth_nat by lia. cbn [bind]. f_equal.
  unfold dot. rewrite nsum_R, combine_map2, map_map, Rsum_seq. cbn [fst snd nmul nadd NumR].
  unfold rise, unit_rise.
  rewrite (sumf_ext (fun j => (nth (S j) q 0 - nth j q 0) * _)
     (fun j => (nth (S j) q 0 - nth j q 0) / two_pi_k * g (n - j)%nat + (nth (S j) q 0 - nth j q 0) * Rb)).
  - rewrite sumf_add, sumf_scal, (sumf_telescope (fun j => nth j q 0)), Q0. lra.
  - intros j _. field. exact K0.
Qed.

Definition history (q : nat -> R) : list R := rises unit_rise q.
Lemma simulate_R (q : list R) : length q = 49%nat -> nth 0 q 0 = 0 ->
  simulate_hourly gt two_pi_k Rb hour_times q = Ok (history (fun j => nth j q 0)).
Proof.
  intros L Q0. unfold simulate_hourly, history, rises.
  replace (zlen (hour_times (F := R))) with 49%Z by (rewrite hour_times_seq; unfold zlen; rewrite map_length, seq_length; reflexivity).
  assert (E : zrange 1 49 = map Z.of_nat (seq 1 48)) by reflexivity. rewrite E, mapM_map.
  rewrite (mapM_pure _ (rise unit_rise (fun j => nth j q 0))); [reflexivity|].
  intros n Hn. apply in_seq in Hn. apply hourly_step_R; auto. lia.
Qed.
Lemma history_nth q n : (n <= 48)%nat -> nth n (history q) 0 = rise unit_rise q n.
Proof. intros H. destruct n as [|n]; [reflexivity|]. unfold history, rises. cbn [nth]. rewrite nth_map_seq by lia. reflexivity. Qed.
Lemma history_length q : length (history q) = 49%nat.
Proof. reflexivity. Qed.
End Sim.

(** ** interpolation *)
Lemma insert_sorted (l : list (R * R)) p : (forall q r, l = q :: r -> fst p <= fst q) -> insert_pt p l = p :: l.
Proof. destruct l as [|q r]; intros H; cbn [insert_pt]; auto. now rewrite (proj2 (nle_R _ _) (H q r eq_refl)). Qed.
Lemma sort_sorted (l : list (R * R)) : nondecreasing (map fst l) -> fold_right insert_pt [] l = l.
Proof.
  induction l as [|p l IH]; intros H; cbn [fold_right]; auto. rewrite IH.
  - apply insert_sorted. intros q r ->. apply H.
  - destruct l; cbn in *; tauto.
Qed.

Lemma interp_cons2 (p q : R * R) r v : interp_sorted (p :: q :: r) v =
  if nle (fst q) v then interp_sorted (q :: r) v
  else if nle (fst p) v
       then let! slope := pydiv (nsub (snd q) (snd p)) (nsub (fst q) (fst p)) in
            Ok (nadd (nmul slope (nsub v (fst p))) (snd p))
       else Err ValueError.
Proof. reflexivity. Qed.

Lemma interp_line (X : nat -> R) N : forall a v, (a <= N)%nat ->
  (forall n, (a <= n < N)%nat -> X n <= X (S n)) -> X a <= v <= X N ->
  exists d, interp_sorted (map (fun n => (X n, IZR (Z.of_nat n))) (seq a (S (N - a)))) v = Ok d /\ crosses X N v d.
Proof.
  intros a v H. remember (N - a)%nat as k eqn:Ek. revert a H Ek. induction k as [|k IH]; intros a H Ek M B.
  - assert (a = N) as -> by lia. cbn [seq map interp_sorted fst snd].
    assert (X N = v) by lra. rewrite (proj2 (neqb_R _ _)) by auto. eexists; split; [reflexivity|].
    exists N. right. rewrite INR_IZR_INZ. auto.
  - change (map ?f (seq a (S (S k)))) with (f a :: f (S a) :: map f (seq (S (S a)) k)). rewrite interp_cons2. cbn [fst snd].
    destruct (nle (X (S a)) v) eqn:E.
    + apply nle_R in E. apply (IH (S a)); try lia; [|lra]. intros; apply M; lia.
    + apply nle_R_false in E. rewrite (proj2 (nle_R _ _)) by lra. rewrite pydiv_R by (cbn [nsub NumR]; lra).
      cbn [bind]. eexists; split; [reflexivity|]. exists a. left. repeat split; [lia|lra|lra|].
      cbn [nadd nmul nsub ndivr NumR]. rewrite !INR_IZR_INZ. rewrite Nat2Z.inj_succ, succ_IZR. field. lra.
Qed.

Lemma crosses_bounds X N v d : crosses X N v d -> 0 <= d <= INR N /\ (X O < v -> 0 < d).
Proof.
  intros (n & [(H & [A B] & ->)|(-> & A & ->)]).
  - assert (0 <= (v - X n) / (X (S n) - X n) < 1).
    { split; [apply Rmult_le_pos; [lra|]; apply Rlt_le, Rinv_0_lt_compat; lra|].
      apply (Rmult_lt_reg_r (X (S n) - X n)); [lra|]. unfold Rdiv. rewrite Rmult_assoc, Rinv_l; lra. }
    assert (INR n + 1 <= INR N) by (rewrite <- S_INR; apply le_INR; lia). assert (0 <= INR n) by apply pos_INR.
    split; [lra|]. intros P. destruct n; [|rewrite S_INR in *; assert (0 <= INR n) by apply pos_INR; lra].
    cbn [INR]. assert (0 < (v - X O) / (X 1%nat - X O)); [|lra]. apply Rdiv_lt_0_compat; lra.
  - assert (0 <= INR N) by apply pos_INR. split; [lra|]. intros. destruct N; [lra|]. apply lt_0_INR. lia.
Qed.

Lemma nth_peak peak avg j : (j <= 48)%nat -> nth j (peak_profile peak avg) 0 = peak_q peak avg j.
Proof. intros H. unfold peak_profile. destruct j; [reflexivity|]. cbn [nth peak_q].
  change (py_repeat (nsub peak avg) 48) with (repeat (nsub peak avg) 48). rewrite nth_indep with (d' := nsub peak avg).
  - now rewrite nth_repeat.
  - rewrite repeat_length. lia. Qed.
Lemma nominal_profile_R td peak avg : length td = 48%nat -> peak <> 0 ->
  exists q, nominal_profile (0 :: td) peak avg = Ok q /\ length q = 49%nat /\ forall j, (j <= 48)%nat -> nth j q 0 = nominal_q td peak avg j.
Proof.
  intros L P. unfold nominal_profile. assert (E : zrange 1 49 = map Z.of_nat (seq 1 48)) by reflexivity. rewrite E, mapM_map.
  rewrite (mapM_pure _ (fun n => (nth n (0 :: td) 0 - avg) / peak * nth n (0 :: td) 0)).
  - cbn [bind]. eexists; split; [reflexivity|]. split; [cbn [length]; rewrite map_length, seq_length; reflexivity|].
    intros [|j] H; [reflexivity|]. cbn [nth]. rewrite nth_map_seq by lia. reflexivity.
  - intros n Hn. apply in_seq in Hn. rewrite py_nth_nat by (cbn [length]; lia). cbn [bind]. rewrite pydiv_R by exact P. reflexivity.
Qed.
Lemma rise_ext G p q n : (forall j, (j <= n)%nat -> p j = q j) -> rise G p n = rise G q n.
Proof. intros H. unfold rise. apply sumf_ext. intros j Hj. rewrite !H by lia. reflexivity. Qed.

Lemma nominal_le td peak avg j : (forall x, In x td -> 0 <= x <= peak) -> length td = 48%nat -> 0 < peak -> avg <= peak ->
  (1 <= j <= 48)%nat -> nominal_q td peak avg j <= peak - avg.
Proof.
  intros B L P A H. destruct j as [|j]; [lia|]. cbn [nominal_q].
  assert (X : 0 <= nth j td 0 <= peak) by (apply B, nth_In; lia). set (x := nth j td 0) in *. clearbody x.
  assert (Y : 0 <= x / peak <= 1).
  { split; [apply Rmult_le_pos; [lra|]; apply Rlt_le, Rinv_0_lt_compat; lra|].
    apply (Rmult_le_reg_r peak); [lra|]. unfold Rdiv. rewrite Rmult_assoc, Rinv_l; lra. }
  replace ((x - avg) / peak * x) with ((x - avg) * (x / peak)) by (field; lra).
  destruct (Rle_dec avg x).
  - apply Rle_trans with ((x - avg) * 1); [apply Rmult_le_compat_l; lra|lra].
  - apply Rle_trans with 0; [|lra]. assert (0 <= (avg - x) * (x / peak)) by (apply Rmult_le_pos; lra). lra.
Qed.

Lemma combine_seq (X : nat -> R) : combine (0 :: map X (seq 1 48)) (hour_times (F := R)) =
  map (fun n => (match n with O => 0 | _ => X n end, IZR (Z.of_nat n))) (seq 0 49).
Proof.
  rewrite hour_times_seq.
  replace (0 :: map X (seq 1 48)) with (map (fun n => match n with O => 0 | _ => X n end) (seq 0 49)).
  - apply combine_map2.
  - reflexivity.
Qed.
Lemma nondecreasing_map (X : nat -> R) : forall k a, (forall n, (a <= n < a + k)%nat -> X n <= X (S n)) -> nondecreasing (map X (seq a (S k))).
Proof.
  induction k as [|k IH]; intros a H; [exact I|].
  change (map X (seq a (S (S k)))) with (X a :: X (S a) :: map X (seq (S (S a)) k)).
  split; [apply H; lia|]. apply (IH (S a)). intros; apply H; lia.
Qed.

Section Durations.
Variables (gt : R -> res R) (two_pi_k Rb : R) (g : nat -> R).
Hypothesis K0 : two_pi_k <> 0.
Hypothesis GT : forall m, (1 <= m <= 48)%nat -> gt (IZR (Z.of_nat m)) = Ok (g m).
Notation G := (unit_rise two_pi_k Rb g).

(** the simulated histories *)
Lemma perform_histories td peak avg : length td = 48%nat -> peak <> 0 ->
  exists nm_max, is_max nm_max (history two_pi_k Rb g (nominal_q td peak avg)) /\
  perform_current_month_simulation gt two_pi_k Rb (0 :: td) peak avg =
    let! d := (if nlt 0 nm_max then interp1d (history two_pi_k Rb g (peak_q peak avg)) hour_times nm_max else Ok (nlit 1 1000000)) in
    Ok (d, history two_pi_k Rb g (peak_q peak avg), history two_pi_k Rb g (nominal_q td peak avg)).
Proof.
  intros L P. unfold perform_current_month_simulation.
  destruct (nominal_profile_R td peak avg L P) as (q & -> & Lq & Nq). cbn [bind].
  assert (HE : forall p r, (forall j, (j <= 48)%nat -> p j = r j) -> history two_pi_k Rb g p = history two_pi_k Rb g r).
  { intros p r H. unfold history, rises. f_equal. apply map_ext_in. intros n Hn. apply in_seq in Hn. apply rise_ext. intros; apply H; lia. }
  rewrite (simulate_R gt two_pi_k Rb g K0 GT) by reflexivity. cbn [bind].
  rewrite (simulate_R gt two_pi_k Rb g K0 GT); [|auto|apply (Nq O); lia]. cbn [bind].
  rewrite (HE _ _ (fun j H => nth_peak peak avg j H)), (HE _ _ Nq).
  destruct (nmaxl_total (history two_pi_k Rb g (nominal_q td peak avg)) ltac:(discriminate)) as (m & -> & M).
  exists m. split; auto.
Qed.

Lemma rise_peak peak avg n : rise G (peak_q peak avg) n = match n with O => 0 | _ => (peak - avg) * G n end.
Proof.
  destruct n; [reflexivity|]. rewrite (rise_const _ _ (peak - avg)) by first [lia | intros [|j] H; [lia|reflexivity]].
  cbn [peak_q]. lra.
Qed.

Lemma history_in q x : In x (history two_pi_k Rb g q) -> x = 0 \/ exists n, (1 <= n <= 48)%nat /\ x = rise G q n.
Proof.
  intros [H|H]; [left; auto|right]. apply in_map_iff in H. destruct H as (n & <- & H). apply in_seq in H. exists n. split; [lia|auto].
Qed.

Lemma perform_ok td peak avg : length td = 48%nat -> (forall x, In x td -> 0 <= x <= peak) -> 0 < peak -> avg <= peak ->
  step_response G ->
  exists d v, is_max v (history two_pi_k Rb g (nominal_q td peak avg)) /\
    perform_current_month_simulation gt two_pi_k Rb (0 :: td) peak avg
      = Ok (d, history two_pi_k Rb g (peak_q peak avg), history two_pi_k Rb g (nominal_q td peak avg)) /\
    v <= rise G (peak_q peak avg) 48 /\ 0 < d <= 48 /\
    (v <= 0 -> d = / 1000000) /\ (0 < v -> crosses (rise G (peak_q peak avg)) 48 v d).
Proof.
  intros L B P A SR. destruct (perform_histories td peak avg L ltac:(lra)) as (v & V & ->).
  assert (UP : v <= rise G (peak_q peak avg) 48).
  { destruct V as [V _]. apply history_in in V. rewrite rise_peak.
    assert (G48 := step_response_nonneg G 48 SR ltac:(lia)).
    destruct V as [->|(n & Hn & ->)]; [apply Rmult_le_pos; lra|].
    apply Rle_trans with ((peak - avg) * G n).
    - assert (X := rise_bound G (nominal_q td peak avg) (peak - avg) n). cbn [nominal_q] in X. rewrite Rminus_0_r in X.
      apply X; auto; try lia. intros j Hj. apply nominal_le; auto. lia.
    - apply Rmult_le_compat_l; [lra|]. apply step_response_mono; auto; lia. }
  destruct (nlt 0 v) eqn:E.
  - apply nlt_R in E.
    assert (MO : forall n, (n < 48)%nat -> rise G (peak_q peak avg) n <= rise G (peak_q peak avg) (S n)).
    { intros n Hn. rewrite !rise_peak. destruct n.
      - apply Rmult_le_pos; [lra|]. apply SR.
      - apply Rmult_le_compat_l; [lra|]. apply SR. lia. }
    unfold interp1d, history, rises. rewrite combine_seq.
    rewrite (map_ext_in _ (fun n => (rise G (peak_q peak avg) n, IZR (Z.of_nat n)))) by (intros [|n] _; reflexivity).
    rewrite sort_sorted.
    2:{ rewrite map_map. cbn [fst]. apply nondecreasing_map. intros; apply MO; lia. }
    destruct (interp_line (rise G (peak_q peak avg)) 48 0 v) as (d & IE & C); [lia|intros; apply MO; lia| |].
    { split; auto. rewrite rise_peak. lra. }
    change (S (48 - 0)) with 49%nat in IE. rewrite IE.
    cbn [bind]. exists d, v. assert (X := crosses_bounds _ _ _ _ C). rewrite (rise_peak peak avg 0) in X.
    replace (INR 48) with 48 in X by (rewrite INR_IZR_INZ; reflexivity).
    repeat split; auto; try apply V; try lra; apply X; auto.
  - apply nlt_R_false in E. cbn [bind]. exists (nlit 1 1000000), v. unfold nlit. cbn [ndivr nofZ NumR].
    repeat split; auto; try apply V; try lra.
Qed.
End Durations.

(** ** find_peak_durations *)
Section Find.
Variables (gt : R -> res R) (two_pi_k Rb : R).
Variables (td : list (list R)) (ps avs : list R).
(** window, peak, average, current peak and simulation result of month i *)
Variables (w : Z -> list R) (mp av p : Z -> R) (out : Z -> R * list R * list R).
Definition dur_of (i : Z) : R := if nis0 (p i) then nlit 1 1000000 else fst (fst (out i)).
Definition loaded (i : Z) : bool := negb (nis0 (p i)).

Lemma find_ok :
  (forall i, (1 <= i <= 12)%Z -> py_nth td i = Ok (w i) /\ py_nth ps i = Ok (mp i) /\ py_nth avs i = Ok (av i) /\
    current_peak (mp i) (0 :: w i) = Ok (p i) /\
    (p i <> 0 -> perform_current_month_simulation gt two_pi_k Rb (0 :: w i) (p i) (av i) = Ok (out i))) ->
  find_peak_durations gt two_pi_k Rb td ps avs =
    Ok ([0] :: map (fun i => snd (fst (out i))) (filter loaded (zrange 1 13)),
        [0] :: map (fun i => snd (out i)) (filter loaded (zrange 1 13)),
        0 :: map dur_of (zrange 1 13)).
Proof.
  intros H. unfold find_peak_durations.
  destruct (foldM_1_13 (durations_body gt two_pi_k Rb td ps avs) ([[0]], [[0]], [0])
    (fun k s => s = ([0] :: map (fun i => snd (fst (out i))) (filter loaded (zrange 1 k)),
        [0] :: map (fun i => snd (out i)) (filter loaded (zrange 1 k)),
        0 :: map dur_of (zrange 1 k)))) as (s & E & ->); [reflexivity| |exact E].
  intros k s Hk ->. destruct (H k Hk) as (H1 & H2 & H3 & H4 & H5).
  unfold durations_body. rewrite H1. cbn [bind]. rewrite H2. cbn [bind nofZ NumR]. rewrite H4. cbn [bind]. rewrite H3. cbn [bind].
  rewrite !zrange_snoc, filter_app, !map_app by lia.
  replace (filter loaded [k]) with (if loaded k then [k] else []) by (cbn; destruct (loaded k); reflexivity).
  cbn [map]. assert (EL : loaded k = negb (nis0 (p k))) by reflexivity.
  assert (ED : dur_of k = if nis0 (p k) then nlit 1 1000000 else fst (fst (out k))) by reflexivity.
  rewrite EL, ED.
  destruct (nis0 (p k)) eqn:E; cbn [negb map].
  - rewrite !app_nil_r. eexists; split; reflexivity.
  - rewrite H5 by (intros X; rewrite X in E; cbn in E; destruct (Req_EM_T 0 0); congruence).
    cbn [bind]. destruct (out k) as [[d a] b] eqn:O. cbn [fst snd]. eexists; split; reflexivity.
Qed.
End Find.

Lemma mean_le_max l m : l <> [] -> is_max m l -> Rsum l / IZR (zlen l) <= m.
Proof.
  intros N [_ M]. assert (P : 0 < IZR (zlen l)) by (apply IZR_lt; destruct l; [congruence|rewrite zlen_cons; unfold zlen; lia]).
  apply (Rmult_le_reg_r (IZR (zlen l))); auto. unfold Rdiv. rewrite Rmult_assoc, Rinv_l, Rmult_1_r by lra. clear N P.
  induction l as [|x l IH]; [unfold zlen; cbn; lra|]. rewrite zlen_cons, plus_IZR. unfold Rsum in *. cbn [fold_right].
  assert (x <= m) by (apply M; now left). assert (fold_right Rplus 0 l <= m * IZR (zlen l)) by (apply IH; intros; apply M; now right). lra.
Qed.

(** the current peak: the month's peak, or the window's when that is larger by the tolerance *)
Definition window_clear (mp : R) (w : list R) : Prop :=
  (forall x, In x w -> x <= mp) \/ exists x, In x w /\ mp + / 10 <= x.
Lemma current_peak_ok mp w : In mp w -> (forall x, In x w -> 0 <= x) -> window_clear mp w ->
  exists p, current_peak mp (0 :: w) = Ok p /\ mp <= p /\ (forall x, In x w -> x <= p) /\ In p w.
Proof.
  intros I N C. unfold current_peak. destruct (nmaxl_total (0 :: w) ltac:(discriminate)) as (m & -> & M). cbn [bind].
  assert (mp <= m) by (apply M; now right).
  assert (Im : In m w). { destruct M as [[M|M] X]; auto. subst m. assert (mp = 0) by (assert (0 <= mp) by auto; lra). congruence. }
  destruct (nlt _ _) eqn:E.
  - apply nlt_R in E. unfold nlit in E. cbn [nabs nsub ndivr nofZ NumR] in E. exists mp. repeat split; auto; [lra|].
    destruct C as [C|(x & Ix & C)]; auto. exfalso. assert (x <= m) by (apply M; now right).
    apply Rabs_def2 in E. lra.
  - exists m. repeat split; auto. intros; apply M; now right.
Qed.

Section Make.
Variables (gt : R -> res R) (two_pi_k Rb : R) (g : nat -> R).
Hypothesis K0 : two_pi_k <> 0.
Hypothesis GT : forall m, (1 <= m <= 48)%nat -> gt (IZR (Z.of_nat m)) = Ok (g m).
Notation G := (unit_rise two_pi_k Rb g).

(** the analysis of one month: window w, current peak p, duration d *)
Definition month_duration (w : list R) (mp av p d : R) : Prop :=
  (mp <= p /\ (forall x, In x w -> x <= p) /\ In p w) /\
  (p = 0 -> d = / 1000000) /\
  (p <> 0 -> exists v, is_max v (rises G (nominal_q w p av)) /\
     v <= rise G (peak_q p av) 48 /\ (v <= 0 -> d = / 1000000) /\ (0 < v -> crosses (rise G (peak_q p av)) 48 v d)).

Lemma nth_error_py {A} (l : list A) i d x : (0 <= i)%Z -> nth_error l (Z.to_nat i) = Some x -> py_nth l i = Ok (nth (Z.to_nat i) l d) /\ nth (Z.to_nat i) l d = x.
Proof. intros H N. assert (X : nth (Z.to_nat i) l d = x) by now apply nth_error_nth. split; auto. rewrite X. now apply py_nth_nonneg. Qed.

Lemma make_loads_ok year hourly : zlen hourly = (24 * days_in_year year)%Z -> (forall x, In x hourly -> 0 <= x) ->
  step_response G ->
  (forall td ts ps avs ds, split_load_by_month year hourly = Ok (ts, ps, avs, ds) -> process_two_day_loads year hourly ds = Ok td ->
     forall i w mp, (1 <= i <= 12)%Z -> py_nth td i = Ok w -> py_nth ps i = Ok mp -> window_clear mp w) ->
  exists ld, make_loads gt two_pi_k Rb year hourly = Ok ld /\ length (ld_duration ld) = 13%nat /\
   forall i, (1 <= i <= 12)%Z -> exists w mp av p d,
     nth_error (ld_two_day ld) (Z.to_nat i) = Some w /\ nth_error (ld_peak ld) (Z.to_nat i) = Some mp /\
     nth_error (ld_average ld) (Z.to_nat i) = Some av /\ nth_error (ld_duration ld) (Z.to_nat i) = Some d /\
     0 < d <= 48 /\ month_duration w mp av p d.
Proof.
  intros L NN SR CL. unfold make_loads.
  replace (_ =? _)%Z with true by (symmetry; apply Z.eqb_eq; rewrite zsum_civil; lia). cbn [assert_ bind].
  destruct (split_ok year hourly L) as ([[[ts ps] avs] ds] & ES & M). rewrite ES. cbn [bind].
  assert (MD := monthly_days _ _ _ _ _ _ L M).
  destruct (two_day_ok year hourly ds L) as (td & ET & LT & TD).
  { intros i Hi. destruct (MD i Hi) as (d & n & A & B & _). eauto. }
  rewrite ET. cbn [bind].
  pose (w := fun i => nth (Z.to_nat i) td []). pose (mp := fun i => nth (Z.to_nat i) ps 0). pose (av := fun i => nth (Z.to_nat i) avs 0).
  pose (p := fun i => match current_peak (mp i) (0 :: w i) with Ok x => x | Err _ => 0 end).
  pose (out := fun i => match perform_current_month_simulation gt two_pi_k Rb (0 :: w i) (p i) (av i) with Ok x => x | Err _ => (0, [], []) end).
  assert (FA : forall i, (1 <= i <= 12)%Z -> py_nth td i = Ok (w i) /\ py_nth ps i = Ok (mp i) /\ py_nth avs i = Ok (av i) /\
    current_peak (mp i) (0 :: w i) = Ok (p i) /\
    (p i <> 0 -> perform_current_month_simulation gt two_pi_k Rb (0 :: w i) (p i) (av i) = Ok (out i)) /\
    nth_error td (Z.to_nat i) = Some (w i) /\ nth_error ps (Z.to_nat i) = Some (mp i) /\ nth_error avs (Z.to_nat i) = Some (av i) /\
    0 < dur_of p out i <= 48 /\ month_duration (w i) (mp i) (av i) (p i) (dur_of p out i)).
  { intros i Hi. destruct (TD i Hi) as (wi & d & Nw & Nd & W). destruct (MD i Hi) as (d' & n & Nd' & Bd & FM & Bn).
    assert (d' = d) by congruence. subst d'.
    destruct M as (_ & _ & _ & _ & M). destruct (M i ltac:(lia)) as (t & m & a & d' & Nt & Nm & Na & Nd'' & MR).
    destruct MR as (_ & MX & EA & _).
    destruct (nth_error_py td i [] wi ltac:(lia) Nw) as [P1 Q1]. destruct (nth_error_py ps i 0 m ltac:(lia) Nm) as [P2 Q2].
    destruct (nth_error_py avs i 0 a ltac:(lia) Na) as [P3 Q3].
    assert (Iw : In (mp i) (w i)).
    { destruct (window_peak year hourly i d n wi L Hi FM Bn W) as (m' & M' & N'). unfold w, mp. rewrite Q1, Q2.
      rewrite (is_max_unique m m' _ MX M'). eapply nth_error_In; eauto. }
    assert (Pw : forall x, In x (w i) -> 0 <= x). { unfold w. rewrite Q1. intros x Hx. apply NN. eapply window_in; eauto. }
    destruct (current_peak_ok (mp i) (w i) Iw Pw) as (q & EP & Q4 & Q5 & Q6).
    { eapply CL; eauto. }
    assert (pq : p i = q) by (unfold p; now rewrite EP).
    assert (av i <= q).
    { apply Rle_trans with (mp i); auto. unfold av, mp. rewrite Q2, Q3, EA. apply mean_le_max; auto.
      intros X. destruct MX as [MX _]. rewrite X in MX. destruct MX. }
    repeat (split; [solve [auto | now rewrite pq | unfold w, mp, av; congruence]|]).
    assert (Lw : length (w i) = 48%nat) by (unfold w; rewrite Q1; apply W).
    split.
    { intros PN. unfold out. rewrite pq in *. assert (0 < q) by (specialize (Pw q Q6); lra).
      destruct (perform_ok gt two_pi_k Rb g K0 GT (w i) q (av i)) as (dd & v & V & -> & _); auto. }
    do 3 (split; [unfold w, mp, av; congruence|]).
    unfold dur_of, month_duration. rewrite pq. cbn [nis0 NumR]. destruct (Req_EM_T q 0) as [Z0|Z0].
    - unfold nlit. cbn [ndivr nofZ NumR]. split; [lra|]. split; [auto|]. split; [intros; lra|congruence].
    - assert (0 < q) by (specialize (Pw q Q6); lra). unfold out. rewrite pq.
      destruct (perform_ok gt two_pi_k Rb g K0 GT (w i) q (av i)) as (dd & v & V & -> & V1 & V2 & V3 & V4); auto.
      cbn [fst]. split; [auto|]. split; [auto|]. split; [congruence|]. intros _. exists v. auto. }
  rewrite (find_ok gt two_pi_k Rb td ps avs w mp av p out).
  2:{ intros i Hi. destruct (FA i Hi) as (A & B & C & D & E & _). auto. }
  cbn [bind]. eexists; split; [reflexivity|]. cbn [ld_duration ld_two_day ld_peak ld_average].
  split; [cbn [length]; rewrite map_length, zrange_length; reflexivity|].
  intros i Hi. exists (w i), (mp i), (av i), (p i), (dur_of p out i).
  destruct (FA i Hi) as (_ & _ & _ & _ & _ & A & B & C & D & E). repeat (split; [solve [auto | apply D]|]). split; [|auto].
  replace (Z.to_nat i) with (S (Z.to_nat (i - 1))) by lia. cbn [nth_error]. rewrite nth_error_map. unfold zrange.
  rewrite nth_error_zseq. replace (_ <? _)%nat with true by (symmetry; apply Nat.ltb_lt; lia).
  cbn [option_map]. replace (1 + Z.of_nat (Z.to_nat (i - 1)))%Z with i by lia. reflexivity.
Qed.
End Make.

(** ** what a successful analysis consists of *)
Lemma foldM_each {A S} (f : S -> A -> res S) l : forall s r, foldM f l s = Ok r -> forall a, In a l -> exists s1 s2, f s1 a = Ok s2.
Proof.
  induction l as [|x l IH]; intros s r H a Ha; [destruct Ha|]. cbn [foldM] in H. inv_ok H. destruct Ha as [<-|Ha]; eauto.
Qed.

Lemma make_loads_inv gt two_pi_k Rb year (hourly : list R) ld : make_loads gt two_pi_k Rb year hourly = Ok ld ->
  zlen hourly = (24 * days_in_year year)%Z /\ ld_hourly ld = hourly /\
  split_load_by_month year hourly = Ok (ld_total ld, ld_peak ld, ld_average ld, ld_peak_day ld) /\
  process_two_day_loads year hourly (ld_peak_day ld) = Ok (ld_two_day ld) /\
  find_peak_durations gt two_pi_k Rb (ld_two_day ld) (ld_peak ld) (ld_average ld) = Ok (ld_temps_pk ld, ld_temps_nm ld, ld_duration ld).
Proof.
  unfold make_loads. intros H. inv_ok H. apply assert_ok, Z.eqb_eq in E. rewrite zsum_civil in E.
  inv_ok H. destruct v0 as [[[ts ps] avs] ds]. inv_ok H. inv_ok H. destruct v1 as [[pk nm] du]. injection H as <-.
  cbn [ld_hourly ld_total ld_peak ld_average ld_peak_day ld_two_day ld_temps_pk ld_temps_nm ld_duration].
  split; [lia|]. auto.
Qed.

Lemma find_inv gt two_pi_k Rb td ps avs r : find_peak_durations gt two_pi_k Rb td ps avs = Ok r ->
  exists (w : Z -> list R) (mp av p : Z -> R) (out : Z -> R * list R * list R),
  (forall i, (1 <= i <= 12)%Z -> py_nth td i = Ok (w i) /\ py_nth ps i = Ok (mp i) /\ py_nth avs i = Ok (av i) /\
    current_peak (mp i) (0 :: w i) = Ok (p i) /\
    (p i <> 0 -> perform_current_month_simulation gt two_pi_k Rb (0 :: w i) (p i) (av i) = Ok (out i))) /\
  r = ([0] :: map (fun i => snd (fst (out i))) (filter (loaded p) (zrange 1 13)),
       [0] :: map (fun i => snd (out i)) (filter (loaded p) (zrange 1 13)),
       0 :: map (dur_of p out) (zrange 1 13)).
Proof.
  intros H.
  pose (w := fun i => match py_nth td i with Ok x => x | Err _ => [] end).
  pose (mp := fun i => match py_nth ps i with Ok x => x | Err _ => 0 end).
  pose (av := fun i => match py_nth avs i with Ok x => x | Err _ => 0 end).
  pose (p := fun i => match current_peak (mp i) (0 :: w i) with Ok x => x | Err _ => 0 end).
  pose (out := fun i => match perform_current_month_simulation gt two_pi_k Rb (0 :: w i) (p i) (av i) with Ok x => x | Err _ => (0, [], []) end).
  exists w, mp, av, p, out.
  assert (FA : forall i, (1 <= i <= 12)%Z -> py_nth td i = Ok (w i) /\ py_nth ps i = Ok (mp i) /\ py_nth avs i = Ok (av i) /\
    current_peak (mp i) (0 :: w i) = Ok (p i) /\
    (p i <> 0 -> perform_current_month_simulation gt two_pi_k Rb (0 :: w i) (p i) (av i) = Ok (out i))).
  { intros i Hi. unfold find_peak_durations in H.
    destruct (foldM_each _ _ _ _ H i) as (s1 & s2 & E); [apply in_zrange; lia|].
    destruct s1 as [[a b] c]. unfold durations_body in E. cbn [nofZ NumR] in E.
    inv_ok E. inv_ok E. inv_ok E. inv_ok E.
    assert (v = w i) by (unfold w; now rewrite E0). assert (v0 = mp i) by (unfold mp; now rewrite E1). subst v v0.
    assert (v1 = p i) by (unfold p; now rewrite E2). assert (v2 = av i) by (unfold av; now rewrite E3). subst v1 v2.
    repeat (split; [auto|]). intros PN. cbn [nis0 NumR] in E. destruct (Req_EM_T (p i) 0); [congruence|].
    inv_ok E. unfold out. now rewrite E4. }
  split; auto. rewrite (find_ok gt two_pi_k Rb td ps avs w mp av p out FA) in H. congruence.
Qed.

Lemma filter_true {A} (f : A -> bool) l : (forall a, In a l -> f a = true) -> filter f l = l.
Proof. induction l; intros H; cbn; auto. rewrite (H a) by now left. f_equal. apply IHl. intros; apply H; now right. Qed.
Lemma nth_zrange_map {A} (f : Z -> A) x i : (1 <= i <= 12)%Z -> nth_error (x :: map f (zrange 1 13)) (Z.to_nat i) = Some (f i).
Proof.
  intros Hi. replace (Z.to_nat i) with (S (Z.to_nat (i - 1))) by lia. cbn [nth_error]. rewrite nth_error_map. unfold zrange.
  rewrite nth_error_zseq. replace (_ <? _)%nat with true by (symmetry; apply Nat.ltb_lt; lia).
  cbn [option_map]. replace (1 + Z.of_nat (Z.to_nat (i - 1)))%Z with i by lia. reflexivity.
Qed.

(** the current peak of a month with a positive peak is positive *)
Lemma current_peak_pos mp w p : 0 < mp -> In mp w -> current_peak mp (0 :: w) = Ok p -> 0 < p.
Proof.
  unfold current_peak. intros P I E. inv_ok E. apply nmaxl_max in E0. destruct (nlt _ _); injection E as <-; auto.
  assert (mp <= v) by (apply E0; now right). lra.
Qed.
Lemma nth_error_ext {A} (l r : list A) : (forall n, nth_error l n = nth_error r n) -> l = r.
Proof.
  revert r. induction l as [|a l IH]; intros [|b r] H; auto; try (specialize (H O); discriminate).
  assert (H0 := H O). cbn in H0. injection H0 as <-. f_equal. apply IH. intros n. exact (H (S n)).
Qed.
Lemma two_day_tables gt two_pi_k Rb year (hourly : list R) ld : make_loads gt two_pi_k Rb year hourly = Ok ld ->
  monthly_upto year hourly 13 (ld_total ld, ld_peak ld, ld_average ld, ld_peak_day ld) /\ length (ld_duration ld) = 13%nat /\
  forall i, (1 <= i <= 12)%Z -> exists w d n,
      nth_error (ld_two_day ld) (Z.to_nat i) = Some w /\ nth_error (ld_peak_day ld) (Z.to_nat i) = Some d /\
      two_days_from hourly (24 * (days_before year i + d - 1)) w /\ first_max_at n (month_of year hourly i) /\
      (24 * (d - 1) < Z.of_nat n <= 24 * d)%Z.
Proof.
  intros H. destruct (make_loads_inv _ _ _ _ _ _ H) as (L & _ & ES & ET & EF).
  destruct (split_ok year hourly L) as (r & ES' & M). assert (r = (ld_total ld, ld_peak ld, ld_average ld, ld_peak_day ld)) by congruence. subst r.
  split; auto. destruct (find_inv _ _ _ _ _ _ _ EF) as (w & mp & av & p & out & FA & ER). split.
  - assert (ED : ld_duration ld = 0 :: map (dur_of p out) (zrange 1 13)) by congruence. rewrite ED. cbn [length].
    rewrite map_length, zrange_length. reflexivity.
  - assert (MD := monthly_days _ _ _ _ _ _ L M).
    destruct (two_day_ok year hourly (ld_peak_day ld) L) as (td & ET' & LT & TD).
    { intros i Hi. destruct (MD i Hi) as (d & n & A & B & _). eauto. }
    assert (td = ld_two_day ld) by congruence. subst td.
    intros i Hi. destruct (TD i Hi) as (wi & d & Nw & Nd & W). destruct (MD i Hi) as (d' & n & Nd' & Bd & FM & Bn).
    assert (d' = d) by congruence. subst d'. exists wi, d, n. auto.
Qed.

(** ** durations of any successful analysis *)
Lemma insert_in {F} `{Num F} (p : F * F) l x : In x (insert_pt p l) -> x = p \/ In x l.
Proof.
  induction l as [|q l IH]; cbn [insert_pt]; [intros [->|[]]; auto|]. destruct (nle _ _).
  - intros [->|I]; auto.
  - intros [->|I]; [right; now left|]. destruct (IH I); auto. right; now right.
Qed.
Lemma sorted_in {F} `{Num F} (l : list (F * F)) x : In x (fold_right insert_pt [] l) -> In x l.
Proof. induction l as [|p l IH]; cbn [fold_right]; auto. intros I. apply insert_in in I. destruct I as [->|I]; [now left|right; auto]. Qed.
Lemma interp_sorted_bound (l : list (R * R)) v r a b : interp_sorted l v = Ok r -> (forall p, In p l -> a <= snd p <= b) -> a <= r <= b.
Proof.
  induction l as [|p l IH]; intros H B; [discriminate|]. destruct l as [|q l].
  - cbn [interp_sorted] in H. destruct (neqb _ _); [|discriminate]. injection H as <-. apply B. now left.
  - change (interp_sorted (p :: q :: l) v) with (if nle (fst q) v then interp_sorted (q :: l) v
      else if nle (fst p) v then let! slope := pydiv (nsub (snd q) (snd p)) (nsub (fst q) (fst p)) in
        Ok (nadd (nmul slope (nsub v (fst p))) (snd p)) else Err ValueError) in H.
    destruct (nle (fst q) v) eqn:E1.
    + apply IH; auto. intros; apply B; now right.
    + destruct (nle (fst p) v) eqn:E2; [|discriminate]. apply nle_R_false in E1. apply nle_R in E2.
      apply bind_ok in H. destruct H as (sl & ES & H). rewrite pydiv_R in ES by (cbn [nsub NumR]; lra).
      cbn [ndivr nsub nadd nmul NumR] in *. injection ES as <-. injection H as <-.
      assert (P := B p ltac:(now left)). assert (Q := B q ltac:(right; now left)).
      set (t := (v - fst p) / (fst q - fst p)).
      assert (T : 0 <= t <= 1).
      { unfold t. split; [apply Rmult_le_pos; [lra|apply Rlt_le, Rinv_0_lt_compat; lra]|].
        apply (Rmult_le_reg_r (fst q - fst p)); [lra|]. unfold Rdiv. rewrite Rmult_assoc, Rinv_l by lra. lra. }
      replace ((snd q - snd p) / (fst q - fst p) * (v - fst p) + snd p) with (t * snd q + (1 - t) * snd p) by (unfold t; field; lra).
      split; nra.
Qed.
Lemma duration_bound gt two_pi_k Rb year (hourly : list R) ld : make_loads gt two_pi_k Rb year hourly = Ok ld ->
  forall i, (1 <= i <= 12)%Z -> 0 <= nth (Z.to_nat i) (ld_duration ld) 0 <= 48.
Proof.
  intros H i Hi. destruct (make_loads_inv _ _ _ _ _ _ H) as (_ & _ & _ & _ & EF).
  destruct (find_inv _ _ _ _ _ _ _ EF) as (w & mp & av & p & out & A & B).
  assert (D : ld_duration ld = 0 :: map (dur_of p out) (zrange 1 13)) by congruence. rewrite D.
  rewrite (nth_error_nth _ _ _ (nth_zrange_map (dur_of p out) 0 i Hi)). unfold dur_of.
  assert (L0 : 0 <= nlit 1 1000000 <= 48) by (unfold nlit; cbn; lra).
  destruct (nis0 (p i)) eqn:N; auto.
  destruct (A i Hi) as (_ & _ & _ & _ & P). specialize (P ltac:(intros E; rewrite E in N; cbn in N; destruct (Req_EM_T 0 0); [discriminate|lra])).
  unfold perform_current_month_simulation in P.
  apply bind_ok in P. destruct P as (q & _ & P). apply bind_ok in P. destruct P as (pk & _ & P).
  apply bind_ok in P. destruct P as (nm & _ & P). apply bind_ok in P. destruct P as (mx & _ & P).
  apply bind_ok in P. destruct P as (d & ED & P). assert (fst (fst (out i)) = d) as -> by (injection P as <-; reflexivity).
  destruct (nlt _ _); [|injection ED as <-; exact L0].
  eapply interp_sorted_bound; [exact ED|]. intros pt Hp. apply sorted_in in Hp. destruct pt as [x y]. apply in_combine_r in Hp.
  unfold hour_times in Hp. apply in_map_iff in Hp. destruct Hp as (h & <- & Hh). apply in_zrange in Hh. cbn [snd nofZ NumR].
  split; apply IZR_le; lia.
Qed.
