(** Properties C71 and C89: the exported sample of the g-function *)
From Coq Require Import ZArith QArith List Bool Reals Lia Lra.
From Verif Require Import Base BaseLemmas Num Loads LoadsProofs Ghe GheSpec GheProofs GFun Export.
Import ListNotations.
Open Scope Z_scope.

(** ** proofs *)
Lemma zrange_0_seq n : 0 <= n -> zrange 0 n = map Z.of_nat (seq 0 (Z.to_nat n)).
Proof.
  intro Hn. pattern n. apply natlike_ind; [reflexivity| |assumption]. intros m Hm IH.
  unfold Z.succ. rewrite zrange_snoc, IH, Z2Nat.inj_add by lia. change (Z.to_nat 1) with 1%nat.
  rewrite Nat.add_1_r, seq_S, map_app. cbn [map]. now rewrite Nat.add_0_l, Z2Nat.id by lia.
Qed.
Lemma nth_error_combine {A B} (a : list A) (b : list B) i u v : nth_error a i = Some u -> nth_error b i = Some v -> nth_error (combine a b) i = Some (u, v).
Proof.
  revert b i. induction a as [|a0 a IH]; intros [|b0 b] [|i] Ha Hb; cbn in *; try discriminate; [congruence|auto].
Qed.
Lemma pair_ok {A B} (a : list A) (b : list B) i : 0 <= i < zlen a -> zlen a = zlen b ->
  exists p, (let! u := py_nth a i in let! v := py_nth b i in Ok (u, v)) = Ok p /\ nth_error (combine a b) (Z.to_nat i) = Some p.
Proof.
  intros Hi Hl. destruct (py_nth_ok a i Hi) as (u & E1 & N1). destruct (py_nth_ok b i ltac:(lia)) as (v & E2 & N2).
  exists (u, v). rewrite E1, E2. split; [reflexivity|]. now apply nth_error_combine.
Qed.
Lemma pairs_ok {A B} (a : list A) (b : list B) is : (forall i, In i is -> 0 <= i < zlen a) -> zlen a = zlen b ->
  exists ps, mapM (fun i => let! u := py_nth a i in let! v := py_nth b i in Ok (u, v)) is = Ok ps
    /\ Forall2 (fun i p => nth_error (combine a b) (Z.to_nat i) = Some p) is ps.
Proof.
  intros Hi Hl. induction is as [|i is IH]; [exists []; split; [reflexivity|constructor]|].
  destruct (pair_ok a b i (Hi i (or_introl eq_refl)) Hl) as (p & E & Np). destruct IH as (ps & Es & Ns); [intros; apply Hi; now right|].
  exists (p :: ps). split; [|now constructor]. cbn [mapM]. rewrite E. cbn [bind]. rewrite Es. reflexivity.
Qed.
Lemma Forall2_nth_all {A} (l ps : list A) : Forall2 (fun i p => nth_error l (Z.to_nat i) = Some p) (zrange 0 (zlen l)) ps -> ps = l.
Proof.
  rewrite zrange_0_seq by (unfold zlen; lia). unfold zlen. rewrite Nat2Z.id.
  assert (G : forall pre ps, Forall2 (fun i p => nth_error (pre ++ l) (Z.to_nat i) = Some p) (map Z.of_nat (seq (length pre) (length l))) ps -> ps = l).
  { clear ps. induction l as [|a l IH]; intros pre ps Hf; [now inversion Hf|]. cbn [length seq map] in Hf. inversion Hf as [|i p is ps' H1 H2]; subst.
    rewrite Nat2Z.id, nth_error_app2, Nat.sub_diag in H1 by lia. cbn in H1. injection H1 as <-. f_equal.
    apply (IH (pre ++ [a])). rewrite <- app_assoc, app_length. cbn [app length]. now rewrite Nat.add_1_r. }
  exact (G [] ps).
Qed.
Lemma combine_pairs {A B} (ps : list (A * B)) a b : combine (map fst ps ++ a) (map snd ps ++ b) = ps ++ combine a b.
Proof. induction ps as [|[u v] ps IH]; [reflexivity|]. cbn. now rewrite IH. Qed.
Lemma combine_skipn {A B} n (a : list A) (b : list B) : combine (skipn n a) (skipn n b) = skipn n (combine a b).
Proof. revert a b. induction n as [|n IH]; intros [|u a] [|v b]; cbn; auto. now destruct (skipn n a). Qed.

(** numbers [first], [first + s], ... below [n] *)
Definition strided (first s n : nat) (idx : list nat) : Prop :=
  exists m, idx = map (fun k => (first + k * s)%nat) (seq 0 m) /\ (n <= first + m * s)%nat /\ (0 < m -> first + (m - 1) * s < n)%nat.

Section Sample.
Context {F : Type}.
Variable x y : list F.
Hypothesis same : length x = length y.
Notation T := (length x).

Lemma sample_ok first n : (0 < n)%nat -> (first <= n)%nat -> (n + 27 <= T)%nat ->
  exists idx ps, sample (Z.of_nat first) (Z.of_nat n) x y = Ok ps /\ strided first ((T - 27) / n) (T - 27) idx /\
  Forall2 (fun i p => nth_error (combine x y) i = Some p) (idx ++ seq (T - 27) 27) ps.
Proof.
  intros Hn Hf HT. set (s := ((T - 27) / n)%nat).
  assert (Hs : (1 <= s)%nat) by (unfold s; apply Nat.div_le_lower_bound; lia).
  assert (Hzs : (zlen x - 27) / Z.of_nat n = Z.of_nat s).
  { unfold s, zlen. rewrite Nat2Z.inj_div, Nat2Z.inj_sub by lia. reflexivity. }
  set (m := Z.to_nat (- ((Z.of_nat first - (zlen x - 27)) / Z.of_nat s))).
  assert (Hm : Z.of_nat m = - ((Z.of_nat first - (zlen x - 27)) / Z.of_nat s)).
  { unfold m. rewrite Z2Nat.id; [reflexivity|]. assert ((Z.of_nat first - (zlen x - 27)) / Z.of_nat s <= 0); [|lia].
    rewrite <- (Z.div_0_l (Z.of_nat s)) by lia. apply Z.div_le_mono; unfold zlen; lia. }
  pose proof (Z.div_mod (Z.of_nat first - (zlen x - 27)) (Z.of_nat s) ltac:(lia)) as D.
  pose proof (Z.mod_pos_bound (Z.of_nat first - (zlen x - 27)) (Z.of_nat s) ltac:(lia)) as B.
  assert (M1 : zlen x - 27 <= Z.of_nat first + Z.of_nat m * Z.of_nat s) by nia.
  assert (M2 : Z.of_nat first + (Z.of_nat m - 1) * Z.of_nat s < zlen x - 27) by nia.
  set (idx := map (fun k => (first + k * s)%nat) (seq 0 m)).
  unfold sample. cbv zeta. rewrite Hzs. unfold py_range3. destruct (Z.eqb_spec (Z.of_nat s) 0) as [|_]; [lia|]. cbn [bind].
  rewrite <- Hm, zrange_0_seq, Nat2Z.id, map_map by lia.
  assert (Ei : map (fun k => Z.of_nat first + Z.of_nat k * Z.of_nat s) (seq 0 m) = map Z.of_nat idx).
  { unfold idx. rewrite map_map. apply map_ext. intro k. lia. }
  rewrite Ei. assert (Hl : zlen x = zlen y) by (unfold zlen; lia).
  assert (Hidx : forall i, In i idx -> (i < T - 27)%nat).
  { intros i Hi. unfold idx in Hi. apply in_map_iff in Hi as (k & <- & Hk). apply in_seq in Hk. unfold zlen in M2. nia. }
  destruct (pairs_ok x y (map Z.of_nat idx)) as (ps & Es & Hps); [|assumption|].
  { intros i Hi. apply in_map_iff in Hi as (j & <- & Hj). apply Hidx in Hj. unfold zlen. lia. }
  rewrite Es. cbn [bind]. rewrite !py_slice_plain by (unfold zlen in *; lia).
  assert (Hsk : forall l : list F, length l = T -> firstn (Z.to_nat (zlen x - (zlen x - 27))) (skipn (Z.to_nat (zlen x - 27)) l) = skipn (T - 27) l).
  { intros l El. replace (zlen x - (zlen x - 27)) with 27 by lia. replace (Z.to_nat (zlen x - 27)) with (T - 27)%nat by (unfold zlen; lia).
    apply firstn_all2. rewrite skipn_length. lia. }
  rewrite !Hsk by lia. set (lx := map fst ps ++ skipn (T - 27) x). set (ly := map snd ps ++ skipn (T - 27) y).
  assert (Hll : zlen lx = zlen ly) by (unfold lx, ly, zlen; rewrite !app_length, !map_length, !skipn_length; lia).
  destruct (pairs_ok lx ly (zrange 0 (zlen lx))) as (qs & Eq & Hqs); [intros i Hi; apply in_zrange in Hi; lia|assumption|].
  exists idx, qs. split; [exact Eq|]. split.
  { exists m. split; [reflexivity|]. unfold zlen in *. split; nia. }
  assert (Hc : zlen (combine lx ly) = zlen lx) by (unfold zlen in *; rewrite combine_length; lia).
  rewrite <- Hc in Hqs. apply Forall2_nth_all in Hqs. rewrite Hqs. unfold lx, ly. rewrite combine_pairs, combine_skipn.
  apply Forall2_app.
  - clear -Hps. clearbody idx. remember (map Z.of_nat idx) as zs eqn:Ez. revert idx Ez. induction Hps as [|z p zs ps Hz _ IH]; intros [|i idx] Ez; try discriminate; [constructor|].
    injection Ez as -> ->. rewrite Nat2Z.id in Hz. constructor; [assumption|]. now apply IH.
  - assert (Hlen : length (combine x y) = T) by (rewrite combine_length; lia). clear -Hlen HT.
    set (l := combine x y) in *. clearbody l. 
    assert (G : forall k a, (a + k = length l)%nat -> Forall2 (fun i p => nth_error l i = Some p) (seq a k) (skipn a l)).
    { induction k as [|k IH]; intros a Ha; [rewrite skipn_all2 by lia; constructor|].
      destruct (nth_error l a) as [p|] eqn:E; [|apply nth_error_None in E; lia].
      assert (Es : skipn a l = p :: skipn (S a) l).
      { clear -E. revert a E. induction l as [|b l IHl]; intros [|a] E; try discriminate; [injection E as ->; reflexivity|]. cbn [skipn] in *. now apply IHl. }
      rewrite Es. cbn [seq]. constructor; [assumption|]. apply IH. lia. }
    apply G. lia.
Qed.
End Sample.

Lemma strided_count first s n m k : (1 < k)%nat -> (first <= 1)%nat -> s = (n / k)%nat -> (k <= n)%nat -> strided first s n m ->
  (k - first <= length m <= 2 * k - 1 - first)%nat.
Proof.
  intros Hk Hf -> Hn (c & -> & H1 & H2). rewrite map_length, seq_length.
  pose proof (Nat.div_mod n k ltac:(lia)) as D. pose proof (Nat.mod_upper_bound n k ltac:(lia)) as B.
  assert (1 <= n / k)%nat by (apply Nat.div_le_lower_bound; lia). set (q := (n / k)%nat) in *. set (r := (n mod k)%nat) in *.
  split.
  - destruct (Nat.le_gt_cases (k - first) c); [assumption|exfalso]. nia.
  - destruct (Nat.eq_dec c 0); [lia|]. specialize (H2 ltac:(lia)). destruct (Nat.le_gt_cases c (2 * k - 1 - first)) as [|Hc]; [assumption|exfalso].
    assert (((2 * k - 1 - first) * q <= (c - 1) * q)%nat) by (apply Nat.mul_le_mono_r; lia).
    assert ((k - 1 - first) * 1 <= (k - 1 - first) * q)%nat by (apply Nat.mul_le_mono_l; lia).
    replace (2 * k - 1 - first)%nat with (k + (k - 1 - first))%nat in * by lia. rewrite Nat.mul_add_distr_r in *. lia.
Qed.

Lemma nth_error_Some_length {A} (l : list A) n a : nth_error l n = Some a -> (n < length l)%nat.
Proof. intro E. apply nth_error_Some. congruence. Qed.
Lemma increasing_nth_R l : increasing l -> forall i j a b, (i < j)%nat -> nth_error l i = Some a -> nth_error l j = Some b -> (a < b)%R.
Proof.
  induction l as [|c l IH]; intros Hl i j a b Hij Ha Hb; [destruct i; discriminate|]. destruct j as [|j]; [lia|]. cbn in Hb. destruct i as [|i].
  - cbn in Ha. injection Ha as <-. apply (increasing_head c l Hl). now apply nth_error_In in Hb.
  - cbn in Ha. apply (IH (increasing_tail _ _ Hl) i j); auto. lia.
Qed.
(** a selection of positions in increasing order *)
Lemma increasing_selection (x y : list R) idx ps : increasing x -> length x = length y ->
  (forall i j a b, (i < j)%nat -> nth_error idx i = Some a -> nth_error idx j = Some b -> (a < b)%nat) ->
  Forall2 (fun i p => nth_error (combine x y) i = Some p) idx ps -> increasing (map fst ps).
Proof.
  intros Hx Hl Hi HF. induction HF as [|i p is ps H1 HF IH]; [exact I|].
  assert (IH' : increasing (map fst ps)). { apply IH. intros a b u v Hab Ea Eb. apply (Hi (S a) (S b)); auto. lia. }
  destruct HF as [|j q is ps H2 HF]; [exact I|]. cbn [map increasing]. split; [|exact IH'].
  assert (i < j)%nat by (apply (Hi 0%nat 1%nat); auto).
  assert (G : forall k r, nth_error (combine x y) k = Some r -> nth_error x k = Some (fst r)).
  { clear -Hl. revert y Hl. induction x as [|a x IH]; intros [|b y] Hl [|k] r Hr; cbn in *; try discriminate; [now injection Hr as <-|]. eapply IH; [|exact Hr]. lia. }
  apply (increasing_nth_R x Hx i j); [assumption|now apply G|now apply G].
Qed.
Lemma strided_increasing first s n idx : (0 < s)%nat -> (1 <= length idx)%nat -> strided first s n idx ->
  forall i j a b, (i < j)%nat -> nth_error (idx ++ seq n 27) i = Some a -> nth_error (idx ++ seq n 27) j = Some b -> (a < b)%nat.
Proof.
  intros Hs Hlen (m & E & H1 & H2) i j a b Hij Ha Hb. rewrite E, map_length, seq_length in Hlen.
  assert (G : forall k v, nth_error (idx ++ seq n 27) k = Some v -> (k < m /\ v = first + k * s \/ m <= k /\ v = n + (k - m))%nat).
  { intros k v Ek. rewrite E in Ek. destruct (Nat.lt_ge_cases k m) as [Hk|Hk].
    - rewrite nth_error_app1 in Ek by now rewrite map_length, seq_length. rewrite nth_error_map in Ek.
      rewrite (nth_error_nth' _ 0%nat) in Ek by now rewrite seq_length. rewrite seq_nth in Ek by assumption. injection Ek as <-. auto.
    - rewrite nth_error_app2 in Ek by now rewrite map_length, seq_length. rewrite map_length, seq_length in Ek.
      assert (Hk' : (k - m < 27)%nat) by (apply nth_error_Some_length in Ek; now rewrite seq_length in Ek).
      rewrite (nth_error_nth' _ 0%nat) in Ek by now rewrite seq_length. rewrite seq_nth in Ek by assumption. injection Ek as <-. auto. }
  apply G in Ha as [(A1 & ->)|(A1 & ->)]; apply G in Hb as [(B1 & ->)|(B1 & ->)]; nia.
Qed.

(** ** C71 *)
(** at least 57 points: every ((T - 27) / 30)-th short-time point from the second on (29 to 58 points), then all 27 long-time
    points *)
Theorem C71_export_partial :
  forall F (x y : list F), length x = length y -> (57 <= length x)%nat ->
  let T := length x in
  exists idx ps, oak_ridge_pairs x y = Ok ps /\ strided 1 ((T - 27) / 30) (T - 27) idx /\ (29 <= length idx <= 58)%nat /\
  Forall2 (fun i p => nth_error (combine x y) i = Some p) (idx ++ seq (T - 27) 27) ps.
Proof.
  intros F x y Hl HT T. destruct (sample_ok x y Hl 1 30 ltac:(lia) ltac:(lia) ltac:(lia)) as (idx & ps & E & Hs & Hps).
  exists idx, ps. split; [exact E|]. split; [exact Hs|]. split; [|exact Hps].
  apply (strided_count 1 _ (T - 27) idx 30) in Hs; [lia|lia|lia|reflexivity|lia].
Qed.
(** in increasing order of time *)
Theorem C71_export_in_order :
  forall (x y : list R) ps, length x = length y -> (57 <= length x)%nat -> increasing x -> oak_ridge_pairs x y = Ok ps ->
  increasing (map fst ps).
Proof.
  intros x y ps Hl HT Hx E. destruct (C71_export_partial R x y Hl HT) as (idx & ps' & E' & Hs & Hn & Hps). rewrite E in E'. injection E' as <-.
  eapply increasing_selection; [exact Hx|exact Hl| |exact Hps]. eapply strided_increasing; [|lia|exact Hs]. apply Nat.div_le_lower_bound; lia.
Qed.
(** between 27 and 56 points: range() gets step zero *)
Theorem C71_short_table_fails :
  forall F (x y : list F), (27 <= length x < 57)%nat -> oak_ridge_pairs x y = Err ValueError.
Proof.
  intros F x y HT. unfold oak_ridge_pairs, sample. replace ((zlen x - 27) / 30) with 0; [reflexivity|].
  symmetry. apply Z.div_small. unfold zlen. lia.
Qed.
Theorem C71_export_refuted :
  exists x y : list Q, length x = length y /\ x = map (fun i => inject_Z (Z.of_nat i)) (seq 0 55) /\ oak_ridge_pairs x y = Err ValueError.
Proof. exists (map (fun i => inject_Z (Z.of_nat i)) (seq 0 55)), (repeat 1%Q 55). repeat split. Qed.
Example C71_example : match oak_ridge_pairs (zrange 0 147) (zrange 1000 1147) with Ok ps => map fst ps = map (fun k => 1 + 4 * k) (zrange 0 30) ++ zrange 120 147
   /\ map snd ps = map (fun k => 1001 + 4 * k) (zrange 0 30) ++ zrange 1120 1147 | _ => False end.
Proof. vm_compute. auto. Qed.
(** the report (__repr__): the same with 50 points, from the first on, and at least 77 points *)
Theorem C71_report_partial :
  forall F (x y : list F), length x = length y -> (77 <= length x)%nat ->
  let T := length x in
  exists idx ps, repr_pairs x y = Ok ps /\ strided 0 ((T - 27) / 50) (T - 27) idx /\ (50 <= length idx <= 99)%nat /\
  Forall2 (fun i p => nth_error (combine x y) i = Some p) (idx ++ seq (T - 27) 27) ps.
Proof.
  intros F x y Hl HT T. destruct (sample_ok x y Hl 0 50 ltac:(lia) ltac:(lia) ltac:(lia)) as (idx & ps & E & Hs & Hps).
  exists idx, ps. split; [exact E|]. split; [exact Hs|]. split; [|exact Hps].
  apply (strided_count 0 _ (T - 27) idx 50) in Hs; [lia|lia|lia|reflexivity|lia].
Qed.
Theorem C71_report_short_table_fails :
  forall F (x y : list F), (27 <= length x < 77)%nat -> repr_pairs x y = Err ValueError.
Proof.
  intros F x y HT. unfold repr_pairs, sample. replace ((zlen x - 27) / 50) with 0; [reflexivity|].
  symmetry. apply Z.div_small. unfold zlen. lia.
Qed.
Example C71_report_example : match repr_pairs (zrange 0 128) (zrange 1000 1128) with Ok ps => map fst ps = map (fun k => 2 * k) (zrange 0 51) ++ zrange 101 128
   | _ => False end.
Proof. vm_compute. reflexivity. Qed.

Print Assumptions C71_export_partial.
Print Assumptions C71_export_in_order.
Print Assumptions C71_short_table_fails.
Print Assumptions C71_export_refuted.
Print Assumptions C71_report_partial.
Print Assumptions C71_report_short_table_fails.
