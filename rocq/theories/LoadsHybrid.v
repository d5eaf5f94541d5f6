(** Proofs about the hybrid load sequence *)
From Coq Require Import ZArith List Bool Reals Lra Lia.
From Verif Require Import Base Num BaseLemmas Loads LoadsSpec LoadsProofs.
Import ListNotations.
Open Scope R_scope.

(** monthly figures of a Loads object *)
Definition total_of (ld : loads R) (m : Z) : R := nth (Z.to_nat m) (ld_total ld) 0.
Definition peak_of (ld : loads R) (m : Z) : R := nth (Z.to_nat m) (ld_peak ld) 0.
Definition duration_of (ld : loads R) (m : Z) : R := nth (Z.to_nat m) (ld_duration ld) 0.
Definition peak_day_of (ld : loads R) (m : Z) : Z := nth (Z.to_nat m) (ld_peak_day ld) 0%Z.
Definition has_months (ld : loads R) : Prop :=
  length (ld_total ld) = 13%nat /\ length (ld_peak ld) = 13%nat /\ length (ld_duration ld) = 13%nat /\ length (ld_peak_day ld) = 13%nat.

(** calendar month 1 .. 12 of simulation month i, and the hours before and up to its end *)
Definition month_index (i : Z) : Z := ((i - 1) mod 12 + 1)%Z.
Definition hours_to (i : Z) : Z := (24 * cum (Z.to_nat i))%Z.
Definition peaks_kept (s e i : Z) : bool := ((i <? s + 12) || (e - 12 <? i))%Z.

Lemma month_index_range i : (1 <= month_index i <= 12)%Z.
Proof. unfold month_index. assert (X := Z.mod_pos_bound (i - 1) 12 ltac:(lia)). lia. Qed.
Lemma month_index_code i : (if i mod 12 =? 0 then 12 else i mod 12)%Z = month_index i.
Proof. unfold month_index. destruct (Z.eqb_spec (i mod 12) 0); Z.div_mod_to_equations; lia. Qed.
Lemma month_index_mod i : (month_index i mod 12 = i mod 12)%Z.
Proof. unfold month_index. rewrite Zplus_mod_idemp_l. f_equal. lia. Qed.
Lemma hours_to_step i : (1 <= i)%Z -> hours_to i = (hours_to (i - 1) + 24 * cal (month_index i))%Z.
Proof.
  intros H. unfold hours_to. replace (Z.to_nat i) with (S (Z.to_nat (i - 1))) by lia. cbn [cum].
  replace (Z.of_nat (S (Z.to_nat (i - 1)))) with i by lia. unfold cal. rewrite month_index_mod. lia.
Qed.
Lemma cal_bounds m : (28 <= cal m <= 31)%Z.
Proof.
  unfold cal. assert (K := Z.mod_pos_bound m 12 ltac:(lia)). set (x := (m mod 12)%Z) in *. clearbody x.
  assert (C : (x = 0 \/ x = 1 \/ x = 2 \/ x = 3 \/ x = 4 \/ x = 5 \/ x = 6
      \/ x = 7 \/ x = 8 \/ x = 9 \/ x = 10 \/ x = 11)%Z) by lia.
  repeat (destruct C as [->|C]; [vm_compute; split; discriminate|]). subst; vm_compute; split; discriminate.
Qed.

Section Hybrid.
Variables (cl hl : loads R) (s e : Z).
Hypothesis CL : has_months cl.
Hypothesis HL : has_months hl.

(** hours of the month outside the peaks, and the averaged rate *)
Definition rest_hours (i : Z) : R :=
  let m := month_index i in
  if peaks_kept s e i then IZR (24 * cal m) - duration_of cl m - duration_of hl m else IZR (24 * cal m).
Definition mean_rate (i : Z) : R :=
  let m := month_index i in
  (if peaks_kept s e i
   then total_of cl m - total_of hl m - peak_of cl m * duration_of cl m + peak_of hl m * duration_of hl m
   else total_of cl m - total_of hl m) / rest_hours i.
(** first hour of the peak in simulation month i *)
Definition peak_start (ld : loads R) (i : Z) : R :=
  let m := month_index i in
  let h := IZR (hours_to (i - 1) + 1 + ((peak_day_of ld m - 1) * 24 + 12)) - duration_of ld m / 2 in
  if Rlt_dec h 0 then / 1000000 else h.
Definition peak_entries (ld : loads R) (sg : R) (i : Z) : list (R * R) :=
  let m := month_index i in
  if Rlt_dec 0 (peak_of ld m)
  then [(mean_rate i, peak_start ld i); (sg * peak_of ld m, peak_start ld i + duration_of ld m)]
  else [].
Definition month_entries (i : Z) : list (R * R) :=
  let m := month_index i in
  let dc := peak_day_of cl m in
  let dh := peak_day_of hl m in
  (if peaks_kept s e i then
     if (dc <? dh)%Z then peak_entries cl 1 i ++ peak_entries hl (-1) i
     else if (dh <? dc)%Z then peak_entries hl (-1) i ++ peak_entries cl 1 i
     else []
   else []) ++ [(mean_rate i, IZR (hours_to i))].

Lemma py_nth_month {A} (l : list A) d m : length l = 13%nat -> (1 <= m <= 12)%Z -> py_nth l m = Ok (nth (Z.to_nat m) l d).
Proof. intros L H. apply py_nth_nonneg; [lia|]. apply nth_error_nth'. lia. Qed.

Lemma peak_range_ok ld i : has_months ld -> (1 <= i)%Z ->
  peak_hour_range ld (month_index i) i = Ok (peak_start ld i, peak_start ld i + duration_of ld (month_index i)).
Proof.
  intros (L1 & L2 & L3 & L4) Hi. unfold peak_hour_range. assert (R := month_index_range i).
  rewrite (py_nth_month _ 0%Z _ L4 R). cbn [bind]. rewrite (py_nth_month _ 0 _ L3 R). cbn [bind].
  rewrite pydiv_R by (cbn [nofZ NumR]; lra). cbn [bind]. rewrite firstmonthhour_cum by lia. cbn [bind]. cbn zeta.
  fold (peak_day_of ld (month_index i)) (duration_of ld (month_index i)) (hours_to (i - 1)).
  unfold peak_start, nlit. cbn [nlt nofZ nsub nadd ndivr NumR].
  destruct (Rlt_dec _ 0); do 2 f_equal; lra.
Qed.

Lemma place_one ld sg i load hour : has_months ld -> (1 <= i)%Z ->
  (let! p := py_nth (ld_peak ld) (month_index i) in
   if nlt (nofZ 0) p && true then
     let! r := peak_hour_range ld (month_index i) i in
     Ok (load ++ [mean_rate i; nmul sg p], hour ++ [fst r; snd r])
   else Ok (load, hour))
  = Ok (load ++ map fst (peak_entries ld sg i), hour ++ map snd (peak_entries ld sg i)).
Proof.
  intros HM Hi. rewrite (py_nth_month _ 0 (month_index i)) by (try apply HM; apply month_index_range). cbn [bind].
  rewrite andb_true_r, peak_range_ok by auto. unfold peak_entries. fold (peak_of ld (month_index i)).
  cbn [nlt nofZ NumR bind fst snd nmul]. destruct (Rlt_dec 0 _); cbn [map fst snd]; [reflexivity|]. now rewrite !app_nil_r.
Qed.

Lemma place_two (a b : loads R) sa sb i load hour : has_months a -> has_months b -> (1 <= i)%Z ->
  place_loads true (month_index i) i [(a, sa); (b, sb)] (mean_rate i) (load, hour)
  = Ok (load ++ map fst (peak_entries a sa i ++ peak_entries b sb i ++ [(mean_rate i, IZR (hours_to i))]),
        hour ++ map snd (peak_entries a sa i ++ peak_entries b sb i ++ [(mean_rate i, IZR (hours_to i))])).
Proof.
  intros A B Hi. unfold place_loads. cbn [foldM fst snd]. rewrite (place_one a sa i load hour A Hi). cbn [bind].
  rewrite (place_one b sb i _ _ B Hi). cbn [bind]. rewrite lastmonthhour_cum by lia. cbn [bind fst snd].
  rewrite !map_app, <- !app_assoc. reflexivity.
Qed.

Lemma month_rate_ok i : (1 <= i)%Z -> rest_hours i <> 0 ->
  month_rate cl hl (month_index i) (peaks_kept s e i) =
  Ok (mean_rate i, if peaks_kept s e i then (peak_day_of cl (month_index i) - peak_day_of hl (month_index i))%Z else 0%Z).
Proof.
  intros Hi NZ. assert (R := month_index_range i). destruct CL as (C1 & C2 & C3 & C4). destruct HL as (H1 & H2 & H3 & H4).
  unfold month_rate. rewrite monthdays_cal by lia. cbn [bind].
  rewrite (py_nth_month _ 0 _ C1 R). cbn [bind]. rewrite (py_nth_month _ 0 _ H1 R). cbn [bind].
  unfold mean_rate, rest_hours in *. cbn zeta in *. destruct (peaks_kept s e i).
  - rewrite (py_nth_month _ 0 _ C3 R). cbn [bind]. rewrite (py_nth_month _ 0 _ H3 R). cbn [bind]. cbn zeta.
    unfold peak_energy. rewrite (py_nth_month _ 0 _ C2 R). cbn [bind]. rewrite (py_nth_month _ 0 _ C3 R). cbn [bind].
    rewrite (py_nth_month _ 0 _ H2 R). cbn [bind]. rewrite (py_nth_month _ 0 _ H3 R). cbn [bind].
    cbn [nofZ nsub NumR].
    rewrite pydiv_R by (rewrite (Z.mul_comm (cal _)); exact NZ).
    cbn [bind]. rewrite (py_nth_month _ 0%Z _ C4 R). cbn [bind]. rewrite (py_nth_month _ 0%Z _ H4 R). cbn [bind].
    rewrite (Z.mul_comm (cal _)). reflexivity.
  - cbn [nofZ nsub NumR]. rewrite (Z.mul_comm (cal _)). rewrite pydiv_R by exact NZ. reflexivity.
Qed.

Lemma month_body_ok i load hour : (1 <= i)%Z -> rest_hours i <> 0 ->
  month_body cl hl s e (load, hour) i = Ok (load ++ map fst (month_entries i), hour ++ map snd (month_entries i)).
Proof.
  intros Hi NZ. unfold month_body. cbn zeta. rewrite month_index_code.
  change ((i <? s + 12) || (e - 12 <? i))%Z with (peaks_kept s e i). rewrite month_rate_ok by auto. cbn [bind].
  unfold month_entries. cbn zeta. destruct (peaks_kept s e i).
  - set (dc := peak_day_of cl _). set (dh := peak_day_of hl _).
    destruct (Z.ltb_spec (dc - dh) 0), (Z.ltb_spec dc dh); try lia.
    + rewrite place_two by auto. now rewrite <- app_assoc.
    + destruct (Z.ltb_spec 0 (dc - dh)), (Z.ltb_spec dh dc); try lia.
      * rewrite place_two by auto. now rewrite <- app_assoc.
      * rewrite lastmonthhour_cum by lia. reflexivity.
  - cbn [Z.ltb Z.compare]. rewrite lastmonthhour_cum by lia. reflexivity.
Qed.

Lemma months_fold n : forall a load hour, (1 <= a)%Z -> (forall i, (a <= i < a + Z.of_nat n)%Z -> rest_hours i <> 0) ->
  foldM (month_body cl hl s e) (zseq a n) (load, hour)
  = Ok (load ++ map fst (flat_map month_entries (zseq a n)), hour ++ map snd (flat_map month_entries (zseq a n))).
Proof.
  induction n as [|n IH]; intros a load hour Ha H; cbn [zseq foldM flat_map map]; [now rewrite !app_nil_r|].
  rewrite month_body_ok by (try apply H; lia). cbn [bind]. rewrite IH by (try (intros; apply H); lia).
  rewrite !map_app, <- !app_assoc. reflexivity.
Qed.

(** the sequence after the two leading zeros *)
Definition sequence : list (R * R) := flat_map month_entries (zrange s (e + 1)).

Lemma process_ok : (1 <= s)%Z -> (forall i, (s <= i <= e)%Z -> rest_hours i <> 0) ->
  process_monthly_loads cl hl s e =
  Ok (0 :: 0 :: map fst sequence, 0 :: IZR (hours_to (s - 1)) :: map snd sequence, 0 :: diffs (0 :: 0 :: map fst sequence)).
Proof.
  intros Hs H. unfold process_monthly_loads. rewrite firstmonthhour_cum by lia. cbn [bind]. unfold zrange at 1.
  rewrite months_fold by (try (intros; apply H); lia). cbn [bind].
  replace (24 * cum (Z.to_nat (s - 1)) + 1 - 1)%Z with (hours_to (s - 1)) by (unfold hours_to; lia). reflexivity.
Qed.

Lemma energy_app h l r : l <> [] -> energy h (l ++ r) = energy h l + energy (snd (last l (0, 0))) r.
Proof.
  revert h. induction l as [|[q h'] l IH]; intros h N; [congruence|]. cbn [app energy].
  destruct l as [|x l]; [cbn; lra|]. rewrite IH by discriminate. cbn [last]. lra.
Qed.

(** energy of the peaks that are placed, and their duration *)
Definition placed (ld : loads R) (i : Z) : bool :=
  let m := month_index i in
  peaks_kept s e i && negb (peak_day_of cl m =? peak_day_of hl m)%Z && (if Rlt_dec 0 (peak_of ld m) then true else false).
Definition placed_hours (ld : loads R) (i : Z) : R := if placed ld i then duration_of ld (month_index i) else 0.

Lemma month_energy i h :
  energy h (month_entries i) =
  mean_rate i * (IZR (hours_to i) - h - placed_hours cl i - placed_hours hl i)
  + peak_of cl (month_index i) * placed_hours cl i - peak_of hl (month_index i) * placed_hours hl i.
Proof.
  unfold month_entries, placed_hours, placed. cbn zeta. set (m := month_index i).
  destruct (peaks_kept s e i); cbn [andb app energy]; [|lra].
  destruct (Z.ltb_spec (peak_day_of cl m) (peak_day_of hl m)).
  - replace (_ =? _)%Z with false by (symmetry; apply Z.eqb_neq; lia). unfold peak_entries. fold m.
    destruct (Rlt_dec 0 (peak_of cl m)), (Rlt_dec 0 (peak_of hl m)); cbn [negb andb app energy]; lra.
  - destruct (Z.ltb_spec (peak_day_of hl m) (peak_day_of cl m)).
    + replace (_ =? _)%Z with false by (symmetry; apply Z.eqb_neq; lia). unfold peak_entries. fold m.
      destruct (Rlt_dec 0 (peak_of cl m)), (Rlt_dec 0 (peak_of hl m)); cbn [negb andb app energy]; lra.
    + replace (_ =? _)%Z with true by (symmetry; apply Z.eqb_eq; lia). cbn [negb andb app energy]. lra.
Qed.

Lemma month_energy_total i : (1 <= i)%Z -> rest_hours i <> 0 ->
  energy (IZR (hours_to (i - 1))) (month_entries i) =
  total_of cl (month_index i) - total_of hl (month_index i)
  + (if peaks_kept s e i then
       (mean_rate i - peak_of cl (month_index i)) * (duration_of cl (month_index i) - placed_hours cl i)
       + (mean_rate i + peak_of hl (month_index i)) * (duration_of hl (month_index i) - placed_hours hl i)
     else 0).
Proof.
  intros Hi NZ. rewrite month_energy. rewrite (hours_to_step i Hi), plus_IZR.
  assert (E : mean_rate i * rest_hours i = if peaks_kept s e i
   then total_of cl (month_index i) - total_of hl (month_index i) - peak_of cl (month_index i) * duration_of cl (month_index i)
      + peak_of hl (month_index i) * duration_of hl (month_index i)
   else total_of cl (month_index i) - total_of hl (month_index i)).
  { unfold mean_rate. unfold Rdiv. rewrite Rmult_assoc, Rinv_l by exact NZ. lra. }
  unfold rest_hours in E. cbn zeta in E. unfold placed_hours, placed. destruct (peaks_kept s e i); cbn [andb]; nra.
Qed.

Lemma month_entries_last i d : snd (last (month_entries i) d) = IZR (hours_to i).
Proof. unfold month_entries. cbn zeta. now rewrite last_last. Qed.
Lemma month_entries_nonempty i : month_entries i <> [].
Proof. unfold month_entries. cbn zeta. intros H. apply app_eq_nil in H. destruct H. discriminate. Qed.

(** prefix sums of differences *)
Lemma diffs_prefix (a : R) l k : (k <= length l)%nat -> a + Rsum (firstn k (diffs (a :: l))) = nth k (a :: l) 0.
Proof.
  revert a k. induction l as [|b l IH]; intros a k H.
  - cbn in H. assert (k = O) as -> by lia. cbn. lra.
  - destruct k as [|k]; [cbn; lra|]. change (diffs (a :: b :: l)) with ((b - a) :: diffs (b :: l)).
    cbn [firstn]. specialize (IH b k ltac:(cbn in H; lia)). change (nth (S k) (a :: b :: l) 0) with (nth k (b :: l) 0). rewrite <- IH. unfold Rsum. cbn [fold_right]. lra.
Qed.
Lemma diffs_length (l : list R) : length (diffs l) = (length l - 1)%nat.
Proof. induction l as [|a [|b l] IH]; auto. change (diffs (a :: b :: l)) with ((b - a) :: diffs (b :: l)). cbn [length] in *. lia. Qed.

(** ** the time grid *)
(** a peak fits into its day: the day exists in the month and the peak is at most 22 hours long *)
Definition fits (ld : loads R) (i : Z) : Prop :=
  let m := month_index i in
  0 < peak_of ld m -> 0 <= duration_of ld m <= 22 /\ (1 <= peak_day_of ld m <= cal m)%Z.

Lemma nondecreasing_cons a l : nondecreasing (a :: l) <-> (match l with [] => True | b :: _ => a <= b end) /\ nondecreasing l.
Proof. destruct l; cbn; tauto. Qed.

Lemma peak_start_day ld i : (1 <= i)%Z -> 0 < peak_of ld (month_index i) -> fits ld i ->
  IZR (hours_to (i - 1) + 24 * (peak_day_of ld (month_index i) - 1)) <= peak_start ld i /\
  peak_start ld i + duration_of ld (month_index i) <= IZR (hours_to (i - 1) + 24 * peak_day_of ld (month_index i)) /\
  peak_start ld i <= peak_start ld i + duration_of ld (month_index i).
Proof.
  intros Hi P F. destruct (F P) as [D B]. unfold peak_start. cbn zeta. set (d := peak_day_of ld _) in *.
  assert (H0 : (0 <= hours_to (i - 1))%Z).
  { unfold hours_to. generalize (Z.to_nat (i - 1)). induction n; [reflexivity|]. cbn [cum]. assert (X := cal_bounds (Z.of_nat (S n))). lia. }
  assert (H1 := IZR_le 0 _ H0). assert (H2 := IZR_le 1 d ltac:(lia)).
  rewrite !plus_IZR, !mult_IZR, !minus_IZR in *. destruct (Rlt_dec _ 0); lra.
Qed.

Lemma month_nondecreasing i : (1 <= i)%Z -> (peaks_kept s e i = true -> fits cl i /\ fits hl i) ->
  nondecreasing (IZR (hours_to (i - 1)) :: map snd (month_entries i)).
Proof.
  intros Hi F. assert (HS := hours_to_step i Hi). assert (CB := cal_bounds (month_index i)).
  unfold month_entries. cbn zeta. set (m := month_index i) in *.
  assert (LE : IZR (hours_to (i - 1)) <= IZR (hours_to i)) by (apply IZR_le; lia).
  destruct (peaks_kept s e i); [|cbn; tauto]. destruct (F eq_refl) as [FC FH]. clear F.
  assert (S1 := peak_start_day cl i Hi). assert (S2 := peak_start_day hl i Hi).
  assert (C1 : 0 < peak_of cl m -> (1 <= peak_day_of cl m <= cal m)%Z) by (intros; now apply FC).
  assert (C2 : 0 < peak_of hl m -> (1 <= peak_day_of hl m <= cal m)%Z) by (intros; now apply FH).
  fold m in S1, S2.
  assert (BC : 0 < peak_of cl m -> IZR (hours_to (i - 1)) <= IZR (hours_to (i - 1) + 24 * (peak_day_of cl m - 1)) /\ IZR (hours_to (i - 1) + 24 * peak_day_of cl m) <= IZR (hours_to i)).
  { intros P. specialize (C1 P). split; apply IZR_le; lia. }
  assert (BH : 0 < peak_of hl m -> IZR (hours_to (i - 1)) <= IZR (hours_to (i - 1) + 24 * (peak_day_of hl m - 1)) /\ IZR (hours_to (i - 1) + 24 * peak_day_of hl m) <= IZR (hours_to i)).
  { intros P. specialize (C2 P). split; apply IZR_le; lia. }
  destruct (Z.ltb_spec (peak_day_of cl m) (peak_day_of hl m)); [|destruct (Z.ltb_spec (peak_day_of hl m) (peak_day_of cl m)); [|cbn; tauto]].
  - assert (O : IZR (hours_to (i - 1) + 24 * peak_day_of cl m) <= IZR (hours_to (i - 1) + 24 * (peak_day_of hl m - 1))) by (apply IZR_le; lia).
    unfold peak_entries. fold m. destruct (Rlt_dec 0 (peak_of cl m)), (Rlt_dec 0 (peak_of hl m));
    repeat match goal with H : 0 < _, K : 0 < _ -> _ |- _ => specialize (K H) end;
    repeat match goal with H : fits _ _ -> _, K : fits _ _ |- _ => specialize (H K) end;
    cbn [app map snd nondecreasing]; lra.
  - assert (O : IZR (hours_to (i - 1) + 24 * peak_day_of hl m) <= IZR (hours_to (i - 1) + 24 * (peak_day_of cl m - 1))) by (apply IZR_le; lia).
    unfold peak_entries. fold m. destruct (Rlt_dec 0 (peak_of cl m)), (Rlt_dec 0 (peak_of hl m));
    repeat match goal with H : 0 < _, K : 0 < _ -> _ |- _ => specialize (K H) end;
    repeat match goal with H : fits _ _ -> _, K : fits _ _ |- _ => specialize (H K) end;
    cbn [app map snd nondecreasing]; lra.
Qed.

Lemma nondecreasing_app a l r : nondecreasing (a :: l) -> nondecreasing (last (a :: l) 0 :: r) -> nondecreasing (a :: l ++ r).
Proof.
  revert a. induction l as [|b l IH]; intros a H K; [exact K|].
  apply nondecreasing_cons in H. destruct H as [H1 H2]. cbn [app]. apply nondecreasing_cons. split; auto.
Qed.

Lemma grid_fold n : forall a, (1 <= a)%Z -> (forall i, (a <= i < a + Z.of_nat n)%Z -> peaks_kept s e i = true -> fits cl i /\ fits hl i) ->
  nondecreasing (IZR (hours_to (a - 1)) :: map snd (flat_map month_entries (zseq a n))).
Proof.
  induction n as [|n IH]; intros a Ha F; [exact I|]. cbn [zseq flat_map]. rewrite map_app.
  apply nondecreasing_app; [apply month_nondecreasing; auto; apply F; lia|].
  replace (last (IZR (hours_to (a - 1)) :: map snd (month_entries a)) 0) with (IZR (hours_to (a + 1 - 1))).
  - apply IH; [lia|]. intros; apply F; auto; lia.
  - rewrite <- (month_entries_last _ (0, 0)). replace (a + 1 - 1)%Z with a by lia.
    assert (NE := month_entries_nonempty a). destruct (exists_last NE) as (l & x & ->).
    rewrite last_last, map_app. cbn [map]. rewrite app_comm_cons, last_last. reflexivity.
Qed.
Lemma grid_nondecreasing : (1 <= s)%Z -> (forall i, (s <= i <= e)%Z -> peaks_kept s e i = true -> fits cl i /\ fits hl i) ->
  nondecreasing (0 :: IZR (hours_to (s - 1)) :: map snd sequence).
Proof.
  intros Hs F. apply nondecreasing_cons. split.
  - apply (IZR_le 0). unfold hours_to. generalize (Z.to_nat (s - 1)). induction n; [reflexivity|]. cbn [cum]. assert (X := cal_bounds (Z.of_nat (S n))). lia.
  - apply grid_fold; auto. intros; apply F; auto; lia.
Qed.
End Hybrid.

(** ** the sequence in terms of the calendar *)
Lemma cum_civil n : (n <= 12)%nat -> cum n = days_before 2019 (Z.of_nat n + 1).
Proof. intros H. do 13 (destruct n as [|n]; [reflexivity|]). lia. Qed.
Lemma hours_to_through i : (0 <= i)%Z -> hours_to i = hours_through i.
Proof.
  intros H. unfold hours_to, hours_through. f_equal.
  assert (G : forall a b, (b <= 12)%nat -> cum (b + 12 * a) = (365 * Z.of_nat a + cum b)%Z).
  { induction a as [|a IH]; intros b Hb; [rewrite Nat.mul_0_r, Nat.add_0_r; lia|].
    replace (b + 12 * S a)%nat with ((b + 12 * a) + 12)%nat by lia. rewrite cum_period, IH by lia. lia. }
  assert (B := Z.mod_pos_bound i 12 ltac:(lia)). assert (Q := Z.div_pos i 12 H ltac:(lia)).
  assert (E := Z.div_mod i 12 ltac:(lia)).
  replace (Z.to_nat i) with (Z.to_nat (i mod 12) + 12 * Z.to_nat (i / 12))%nat by lia.
  rewrite G, cum_civil by lia. rewrite !Z2Nat.id by lia. reflexivity.
Qed.
Lemma cal_month i : cal (month_index i) = days_of 2019 (calendar_month i).
Proof. rewrite cal_civil by (assert (X := month_index_range i); lia). unfold month_index, calendar_month. f_equal.
  rewrite Z.add_simpl_r, Z.mod_mod by lia. reflexivity. Qed.

Lemma sequence_in_months cl hl s e : (1 <= s)%Z -> (s <= e + 1)%Z ->
  in_months s e (0 :: 0 :: map fst (sequence cl hl s e)) (0 :: IZR (hours_to (s - 1)) :: map snd (sequence cl hl s e))
    (month_entries cl hl s e).
Proof.
  intros Hs He. exists (zrange s (e + 1)). rewrite hours_to_through by lia. repeat split.
  - intros k. unfold zrange. rewrite nth_error_zseq. destruct (Nat.ltb_spec k (Z.to_nat (e + 1 - s))), (Z.leb_spec (Z.of_nat k) (e - s)); auto; lia.
  - intros i Hi. unfold month_entries. cbn zeta. rewrite (hours_to_through i) by lia. eauto.
Qed.

(** ** facts about every successful run *)
Lemma place_loads_lengths (b : bool) mi i order (rate : R) : forall s r, place_loads b mi i order rate s = Ok r ->
  (length (fst s) = length (snd s) -> length (fst r) = length (snd r)) /\ exists t, fst r = fst s ++ t.
Proof.
  unfold place_loads. induction order as [|o order IH]; intros [l h] r H; cbn [foldM] in H.
  - cbn [bind] in H. inv_ok H. injection H as <-. cbn [fst snd]. rewrite !app_length. cbn. split; [lia|eauto].
  - apply bind_ok in H. destruct H as (st & E & H). apply bind_ok in E. destruct E as (st1 & E1 & E2).
    apply bind_ok in E1. destruct E1 as (p & Ep & E1). destruct (nlt (nofZ 0) p && b).
    + apply bind_ok in E1. destruct E1 as (rg & Er & E1). injection E1 as <-.
      specialize (IH (l ++ [rate; snd o * p], h ++ [fst rg; snd rg]) r).
      cbn [fst snd] in *. rewrite E2 in IH. cbn [bind] in IH. specialize (IH H). rewrite !app_length in IH. cbn [length] in IH.
      destruct IH as [A (t & B)]. split; [intros; apply A; lia|]. rewrite B, <- app_assoc. eauto.
    + injection E1 as <-. specialize (IH (l, h) r). cbn [fst snd] in IH. rewrite E2 in IH. exact (IH H).
Qed.
Lemma month_body_lengths cl hl s e st i r : month_body cl hl s e st i = Ok r ->
  (length (fst st) = length (snd st) -> length (fst r) = length (snd r)) /\ exists t : list R, fst r = fst st ++ t.
Proof.
  unfold month_body. cbn zeta. intros H. inv_ok H. destruct v as [rate d].
  destruct (d <? 0)%Z; [eapply place_loads_lengths; eauto|]. destruct (0 <? d)%Z; [eapply place_loads_lengths; eauto|].
  inv_ok H. injection H as <-. cbn [fst snd]. rewrite !app_length. cbn. split; [lia|eauto].
Qed.
Lemma months_lengths cl hl s e l : forall st r, foldM (month_body cl hl s e) l st = Ok r ->
  (length (fst st) = length (snd st) -> length (fst r) = length (snd r)) /\ exists t : list R, fst r = fst st ++ t.
Proof.
  induction l as [|a l IH]; intros st r H; cbn [foldM] in H.
  - injection H as <-. split; auto. exists []. now rewrite app_nil_r.
  - inv_ok H. destruct (month_body_lengths _ _ _ _ _ _ _ E) as [A (t & B)]. destruct (IH _ _ H) as [C (u & D)].
    split; auto. rewrite D, B, <- app_assoc. eauto.
Qed.
Lemma process_shape cl hl s e load hour sf : process_monthly_loads cl hl s e = Ok (load, hour, sf) ->
  length load = length hour /\ sf = 0 :: diffs load /\ exists t, load = 0 :: 0 :: t.
Proof.
  unfold process_monthly_loads. intros H. inv_ok H. inv_ok H. destruct v0 as [l h]. injection H as <- <- <-.
  destruct (months_lengths _ _ _ _ _ _ _ E0) as [A (t & B)]. cbn [fst snd nofZ NumR] in *. split; [auto|]. split; [reflexivity|].
  exists t. exact B.
Qed.

(** the tables of an analysed year have one entry per month *)
Lemma has_months_tables (ld : loads R) year hourly :
  monthly_upto year hourly 13 (ld_total ld, ld_peak ld, ld_average ld, ld_peak_day ld) -> length (ld_duration ld) = 13%nat ->
  has_months ld /\ length (ld_average ld) = 13%nat.
Proof. intros (A & B & C & D & _) L. unfold zlen, has_months in *. repeat split; auto; lia. Qed.
