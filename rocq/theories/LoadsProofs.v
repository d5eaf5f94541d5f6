(** Proofs about the load model: calendar, monthly analysis, two-day windows *)
From Coq Require Import ZArith List Bool Reals Lra Lia.
From Verif Require Import Base Num BaseLemmas Loads LoadsSpec.
Import ListNotations.
Open Scope Z_scope.

(** ** calendar *)
(** days of month m >= 0 in the 365-day calendar, month 0 being a December *)
Definition cal (m : Z) : Z := nth (Z.to_nat (m mod 12)) ndays 0.

Lemma monthdays_cal m : 0 <= m -> monthdays m = Ok (cal m).
Proof.
  intros H. unfold monthdays, cal. destruct (Z.ltb_spec 12 m).
  - assert (K := Z.mod_pos_bound m 12 ltac:(lia)).
    assert (C : m mod 12 = 0 \/ m mod 12 = 1 \/ m mod 12 = 2 \/ m mod 12 = 3 \/ m mod 12 = 4 \/ m mod 12 = 5 \/ m mod 12 = 6
      \/ m mod 12 = 7 \/ m mod 12 = 8 \/ m mod 12 = 9 \/ m mod 12 = 10 \/ m mod 12 = 11) by lia.
    repeat (destruct C as [->|C]; [reflexivity|]). rewrite C; reflexivity.
  - assert (C : m = 0 \/ m = 1 \/ m = 2 \/ m = 3 \/ m = 4 \/ m = 5 \/ m = 6
      \/ m = 7 \/ m = 8 \/ m = 9 \/ m = 10 \/ m = 11 \/ m = 12) by lia.
    repeat (destruct C as [->|C]; [reflexivity|]). rewrite C; reflexivity.
Qed.

(** cumulative days of months 1 .. n *)
Fixpoint cum (n : nat) : Z := match n with O => 0 | S k => cum k + cal (Z.of_nat n) end.

Lemma lastmonthhour_cum m : 0 <= m -> lastmonthhour m = Ok (24 * cum (Z.to_nat m)).
Proof.
  intros H. unfold lastmonthhour.
  assert (E : foldM (fun lmh i => let! d := monthdays i in Ok (lmh + d * 24)) (zrange 1 (m + 1)) 0 = Ok (24 * cum (Z.to_nat m))).
  { pattern m. apply natlike_ind; [reflexivity| |auto]. intros x Hx IH.
    replace (Z.succ x + 1) with ((x + 1) + 1) by lia. rewrite zrange_snoc, foldM_app, IH by lia.
    cbn [bind foldM]. rewrite monthdays_cal by lia. cbn [bind].
    replace (Z.to_nat (Z.succ x)) with (S (Z.to_nat x)) by lia. cbn [cum].
    replace (Z.of_nat (S (Z.to_nat x))) with (x + 1) by lia. f_equal; lia. }
  rewrite E. cbn [bind]. destruct (Z.eqb_spec m 1) as [->|]; reflexivity.
Qed.

Lemma cal_mod m : cal (m mod 12) = cal m.
Proof. unfold cal. now rewrite Z.mod_mod by lia. Qed.

Lemma firstmonthhour_cum m : 1 <= m -> firstmonthhour m = Ok (24 * cum (Z.to_nat (m - 1)) + 1).
Proof.
  intros H. unfold firstmonthhour.
  assert (E : foldM (fun fmh i => let! d := monthdays (i mod 12) in Ok (fmh + 24 * d)) (zrange 1 m) 1
              = Ok (24 * cum (Z.to_nat (m - 1)) + 1)).
  { replace m with ((m - 1) + 1) at 1 by lia. generalize (m - 1), (ltac:(lia) : 0 <= m - 1). clear.
    intros m Hm. pattern m. apply natlike_ind; [reflexivity| |auto]. intros x Hx IH.
    replace (Z.succ x + 1) with ((x + 1) + 1) by lia. rewrite zrange_snoc, foldM_app, IH by lia.
    cbn [bind foldM]. rewrite monthdays_cal by (apply Z.mod_pos_bound; lia). rewrite cal_mod. cbn [bind].
    replace (Z.to_nat (Z.succ x)) with (S (Z.to_nat x)) by lia. cbn [cum].
    replace (Z.of_nat (S (Z.to_nat x))) with (x + 1) by lia. f_equal; lia. }
  destruct (Z.ltb_spec 1 m); [exact E|]. assert (m = 1) as -> by lia. reflexivity.
Qed.

Lemma cal_period m : cal (m + 12) = cal m.
Proof. unfold cal. now rewrite <- Zplus_mod_idemp_r, Z.mod_same, Z.add_0_r by lia. Qed.

Lemma cal_civil m : 1 <= m -> cal m = days_of 2019 ((m - 1) mod 12 + 1).
Proof.
  intros H. unfold cal. replace (m mod 12) with (((m - 1) mod 12 + 1) mod 12) by (rewrite Zplus_mod_idemp_l; f_equal; lia).
  assert (K := Z.mod_pos_bound (m - 1) 12 ltac:(lia)). set (x := (m - 1) mod 12) in *. clearbody x.
  assert (C : x = 0 \/ x = 1 \/ x = 2 \/ x = 3 \/ x = 4 \/ x = 5 \/ x = 6
      \/ x = 7 \/ x = 8 \/ x = 9 \/ x = 10 \/ x = 11) by lia.
  repeat (destruct C as [->|C]; [reflexivity|]). rewrite C; reflexivity.
Qed.

Lemma cum_period n : cum (n + 12) = cum n + 365.
Proof.
  induction n; [reflexivity|]. cbn [Nat.add cum]. fold (Nat.add n 12). rewrite IHn.
  replace (Z.of_nat (S (n + 12))) with (Z.of_nat (S n) + 12) by lia. rewrite cal_period. lia.
Qed.

(** ** months of a year *)
Lemma isleap_civil year : months_of year = civil_month year.
Proof.
  unfold months_of, zrange, civil_month, isleap. cbn [zseq map Z.sub Z.to_nat Pos.to_nat Pos.iter_op Z.pos_sub].
  change (Z.to_nat (13 - 1)) with 12%nat. cbn [zseq map].
  unfold month_length, isleap. cbn -[Z.modulo].
  destruct ((year mod 4 =? 0) && (negb (year mod 100 =? 0) || (year mod 400 =? 0))); reflexivity.
Qed.

Lemma month_cases (P : Z -> Prop) : (P 1 /\ P 2 /\ P 3 /\ P 4 /\ P 5 /\ P 6) /\ (P 7 /\ P 8 /\ P 9 /\ P 10 /\ P 11 /\ P 12) ->
  forall i, 1 <= i <= 12 -> P i.
Proof.
  intros H i Hi.
  assert (C : i = 1 \/ i = 2 \/ i = 3 \/ i = 4 \/ i = 5 \/ i = 6 \/ i = 7 \/ i = 8 \/ i = 9 \/ i = 10 \/ i = 11 \/ i = 12) by lia.
  repeat (destruct C as [->|C]; [tauto|]). subst; tauto.
Qed.

Lemma month_length_days year i : 1 <= i <= 12 -> month_length year i = days_of year i.
Proof.
  revert i. apply month_cases. unfold days_of, civil_month, month_length, isleap.
  cbn -[Z.modulo]. destruct ((year mod 4 =? 0) && (negb (year mod 100 =? 0) || (year mod 400 =? 0))); repeat split.
Qed.

Lemma days_before_step year i : 1 <= i <= 12 -> days_before year (i + 1) = days_before year i + days_of year i.
Proof.
  revert i. apply month_cases. unfold days_before, days_of, civil_month.
  destruct ((year mod 4 =? 0) && (negb (year mod 100 =? 0) || (year mod 400 =? 0))); repeat split.
Qed.
Lemma days_before_1 year : days_before year 1 = 0.
Proof. reflexivity. Qed.
Lemma days_before_13 year : days_before year 13 = days_in_year year.
Proof. reflexivity. Qed.
Lemma days_of_bounds year i : 1 <= i <= 12 -> 28 <= days_of year i <= 31.
Proof.
  revert i. apply month_cases. unfold days_of, civil_month. cbn -[Z.modulo].
  destruct ((year mod 4 =? 0) && (negb (year mod 100 =? 0) || (year mod 400 =? 0))); repeat split; vm_compute; discriminate.
Qed.
Lemma days_before_mono year i j : 1 <= i <= j -> j <= 13 -> days_before year i <= days_before year j.
Proof.
  intros [H K] J. revert J. replace j with (i + (j - i)) by lia. generalize (j - i), (ltac:(lia) : 0 <= j - i). clear K.
  intros n Hn. pattern n. apply natlike_ind; auto; [intros; rewrite Z.add_0_r; lia|].
  intros x Hx IH J. replace (i + Z.succ x) with ((i + x) + 1) by lia. rewrite days_before_step by lia.
  assert (X := days_of_bounds year (i + x) ltac:(lia)). specialize (IH ltac:(lia)). lia.
Qed.
Lemma days_before_nonneg year i : 1 <= i <= 13 -> 0 <= days_before year i.
Proof. intros. change 0 with (days_before year 1). apply days_before_mono; lia. Qed.
Lemma zsum_civil year : zsum (months_of year) = days_in_year year.
Proof. rewrite isleap_civil. unfold zsum, days_in_year, civil_month. cbn -[Z.modulo Z.add].
  destruct ((year mod 4 =? 0) && (negb (year mod 100 =? 0) || (year mod 400 =? 0))); reflexivity. Qed.
Lemma zsum_before year i : 1 <= i <= 13 -> zsum (map (month_length year) (zrange 1 i)) = days_before year i.
Proof.
  intros [H K]. revert K. replace i with (1 + (i - 1)) by lia. generalize (i - 1), (ltac:(lia) : 0 <= i - 1). clear.
  intros n Hn. pattern n. apply natlike_ind; [reflexivity| |auto].
  intros x Hx IH J. replace (1 + Z.succ x) with ((1 + x) + 1) by lia. rewrite zrange_snoc, map_app, days_before_step by lia.
  unfold zsum in *. rewrite fold_left_app, IH by lia. cbn [fold_left map]. now rewrite month_length_days by lia.
Qed.

(** ** lists *)
Lemma py_slice_plain {A} (l : list A) a b : 0 <= a <= b -> b <= zlen l ->
  py_slice l a b = firstn (Z.to_nat (b - a)) (skipn (Z.to_nat a) l).
Proof.
  intros. unfold py_slice, clampi.
  destruct (Z.ltb_spec a 0); [lia|]. destruct (Z.ltb_spec b 0); [lia|].
  now rewrite !Z.min_r, !Z.max_r by lia.
Qed.
Lemma zlen_firstn {A} (l : list A) n : 0 <= n <= zlen l -> zlen (firstn (Z.to_nat n) l) = n.
Proof. unfold zlen. intros. rewrite firstn_length. lia. Qed.
Lemma zlen_skipn {A} (l : list A) n : 0 <= n <= zlen l -> zlen (skipn (Z.to_nat n) l) = zlen l - n.
Proof. unfold zlen. intros. rewrite skipn_length. lia. Qed.
Lemma py_slice_zlen {A} (l : list A) a b : 0 <= a <= b -> b <= zlen l -> zlen (py_slice l a b) = b - a.
Proof. intros. rewrite py_slice_plain by lia. apply zlen_firstn. rewrite zlen_skipn; lia. Qed.
Lemma py_slice_nth {A} (l : list A) a b k : 0 <= a <= b -> b <= zlen l -> (k < Z.to_nat (b - a))%nat ->
  nth_error (py_slice l a b) k = nth_error l (Z.to_nat a + k).
Proof.
  intros. rewrite py_slice_plain by lia.
  rewrite <- (firstn_skipn (Z.to_nat a) l) at 2. unfold zlen in *.
  rewrite nth_error_app2 by (rewrite firstn_length; lia). rewrite firstn_length, Nat.min_l by lia.
  replace (Z.to_nat a + k - Z.to_nat a)%nat with k by lia.
  set (r := skipn _ l). rewrite <- (firstn_skipn (Z.to_nat (b - a)) r) at 2.
  rewrite nth_error_app1; [reflexivity|]. subst r. rewrite firstn_length, skipn_length. lia.
Qed.

Lemma nsum_R (l : list R) : nsum l = Rsum l.
Proof.
  assert (G : forall a, fold_left nadd l a = (a + Rsum l)%R).
  { unfold Rsum. induction l; intros b; cbn [fold_left fold_right nadd NumR] in *; [lra|]. rewrite IHl. lra. }
  unfold nsum. rewrite G. cbn [nofZ NumR]. lra.
Qed.
Lemma Rsum_app l r : Rsum (l ++ r) = (Rsum l + Rsum r)%R.
Proof. unfold Rsum. induction l; cbn; [lra|]. rewrite IHl. lra. Qed.

Lemma fold_nmax (l : list R) : forall a, is_max (fold_left nmax l a) (a :: l).
Proof.
  induction l as [|b l IH]; intros a; cbn [fold_left].
  - split; [now left|]. intros x [<-|[]]. lra.
  - destruct (IH (nmax a b)) as [I M]. unfold nmax in *. destruct (nlt a b) eqn:E.
    + apply nlt_R in E. split; [now right|]. intros x [<-|X]; [|now apply M].
      specialize (M b (or_introl eq_refl)). lra.
    + apply nlt_R_false in E. split; [destruct I; [now left|now right; right]|].
      intros x [<-|[<-|X]]; [apply M; now left| |apply M; now right].
      specialize (M a (or_introl eq_refl)). lra.
Qed.
Lemma nmaxl_max (l : list R) m : nmaxl l = Ok m -> is_max m l.
Proof. destruct l; [discriminate|]. intros [= <-]. apply fold_nmax. Qed.
Lemma nmaxl_total (l : list R) : l <> [] -> exists m, nmaxl l = Ok m /\ is_max m l.
Proof. destruct l; [congruence|]. intros _. eexists; split; [reflexivity|apply fold_nmax]. Qed.
Lemma is_max_unique m m' l : is_max m l -> is_max m' l -> m = m'.
Proof. intros [A B] [C D]. specialize (B _ C). specialize (D _ A). lra. Qed.

Lemma neqb_R (x y : R) : neqb x y = true <-> x = y.
Proof. unfold neqb. rewrite andb_true_iff, !nle_R. lra. Qed.

Lemma find_index_first {A} (p : A -> bool) l : (exists a, In a l /\ p a = true) ->
  exists n a, find_index p l = Some n /\ nth_error l n = Some a /\ p a = true /\
    forall k b, (k < n)%nat -> nth_error l k = Some b -> p b = false.
Proof.
  induction l as [|x l IH]; intros (a & I & P); [destruct I|]. cbn [find_index].
  destruct (p x) eqn:E.
  - exists O, x. repeat split; auto. intros; lia.
  - destruct I as [->|I]; [congruence|]. destruct IH as (n & b & F & G & H & K); [eauto|].
    exists (S n), b. rewrite F. repeat split; auto. intros [|k] c Hk; cbn [nth_error]; [congruence|]. intros. eapply K; eauto. lia.
Qed.
Lemma py_index_first (m : R) l : is_max m l -> exists n, py_index m l = Ok (Z.of_nat n) /\ first_max_at n l /\ nth_error l n = Some m.
Proof.
  intros M. destruct (find_index_first (neqb m) l) as (n & a & F & G & H & K).
  { exists m. split; [apply M|]. now apply neqb_R. }
  apply neqb_R in H. subst a. exists n. unfold py_index. rewrite F. repeat split; auto.
  exists m. repeat split; auto; try apply M. intros q Hq E. assert (X := K q m Hq E).
  assert (neqb m m = true) by now apply neqb_R. congruence.
Qed.
Lemma first_max_unique p q l : first_max_at p l -> first_max_at q l -> p = q.
Proof.
  intros (m & A & B & C) (m' & A' & B' & C'). assert (m = m') by (eapply is_max_unique; eauto). subst m'.
  destruct (Nat.lt_trichotomy p q) as [X|[X|X]]; auto; [now apply C' in X|now apply C in X].
Qed.

(** ** split_load_by_month *)
Lemma month_of_slice {A} year (l : list A) i : zlen l = 24 * days_in_year year -> 1 <= i <= 12 ->
  py_slice l (24 * days_before year i) (24 * days_before year i + 24 * days_of year i) = month_of year l i
  /\ zlen (month_of year l i) = 24 * days_of year i.
Proof.
  intros L H. assert (B := days_before_nonneg year i ltac:(lia)). assert (D := days_of_bounds year i H).
  assert (U : days_before year i + days_of year i <= days_in_year year).
  { rewrite <- days_before_step, <- days_before_13 by lia. apply days_before_mono; lia. }
  assert (E : py_slice l (24 * days_before year i) (24 * days_before year i + 24 * days_of year i) = month_of year l i).
  { rewrite py_slice_plain by lia. unfold month_of. now rewrite Z.add_simpl_l. }
  split; auto. rewrite <- E, py_slice_zlen; lia.
Qed.

(** what the analysis computes for one month of hourly values *)
Definition month_result (ml : list R) (t p a : R) (d : Z) : Prop :=
  t = Rsum ml /\ is_max p ml /\ a = (Rsum ml / IZR (zlen ml))%R /\
  exists n, first_max_at n ml /\ nth_error ml n = Some p /\ d = - ((- Z.of_nat n) / 24).

Definition monthly_upto (year : Z) (hourly : list R) (k : Z) (s : list R * list R * list R * list Z) : Prop :=
  let '(ts, ps, avs, ds) := s in
  zlen ts = k /\ zlen ps = k /\ zlen avs = k /\ zlen ds = k /\
  forall i, 1 <= i < k -> exists t p a d,
    nth_error ts (Z.to_nat i) = Some t /\ nth_error ps (Z.to_nat i) = Some p /\
    nth_error avs (Z.to_nat i) = Some a /\ nth_error ds (Z.to_nat i) = Some d /\
    month_result (month_of year hourly i) t p a d.

Lemma nth_snoc_old {A} (l : list A) x i : 0 <= i < zlen l -> nth_error (l ++ [x]) (Z.to_nat i) = nth_error l (Z.to_nat i).
Proof. unfold zlen. intros. apply nth_error_app1. lia. Qed.
Lemma nth_snoc_new {A} (l : list A) x i : i = zlen l -> nth_error (l ++ [x]) (Z.to_nat i) = Some x.
Proof. unfold zlen. intros ->. rewrite nth_error_app2 by lia. now rewrite Nat2Z.id, Nat.sub_diag. Qed.

Lemma split_body_step year (hourly : list R) k s : zlen hourly = 24 * days_in_year year -> 1 <= k <= 12 ->
  monthly_upto year hourly k s ->
  exists s', split_body hourly (24 * days_before year k, s) (days_of year k) = Ok (24 * days_before year (k + 1), s')
    /\ monthly_upto year hourly (k + 1) s'.
Proof.
  intros L Hk. destruct s as [[[ts ps] avs] ds]. intros (L1 & L2 & L3 & L4 & M).
  destruct (month_of_slice year hourly k L Hk) as [E LZ]. assert (D := days_of_bounds year k Hk).
  unfold split_body. cbn zeta. rewrite E, LZ, Z.eqb_refl. cbn [assert_ bind].
  destruct (nmaxl_total (month_of year hourly k)) as (m & -> & MX).
  { intros X. rewrite X, zlen_nil in LZ. lia. }
  cbn [bind]. rewrite pydiv_R.
  2:{ cbn [nofZ NumR]. apply not_0_IZR. lia. }
  destruct (py_index_first m _ MX) as (n & -> & FM & NM). cbn [bind].
  eexists; split; [do 2 f_equal; rewrite days_before_step; lia|].
  cbn. rewrite !zlen_app, !zlen_cons. rewrite !(@zlen_nil R), !(@zlen_nil Z). repeat split; try lia.
  intros i Hi. destruct (Z.eq_dec i k) as [->|].
  - exists (nsum (month_of year hourly k)), m, (ndivr (nsum (month_of year hourly k)) (nofZ (24 * days_of year k))), (- (- Z.of_nat n / 24)).
    rewrite !nth_snoc_new by lia. rewrite nsum_R. repeat split; auto; try apply MX.
    + cbn [ndivr nofZ NumR]. now rewrite LZ.
    + exists n; auto.
  - destruct (M i ltac:(lia)) as (t & p & a & d & X). exists t, p, a, d. now rewrite !nth_snoc_old by lia.
Qed.

Lemma foldM_months {S} (f : S -> Z -> res S) year s (I : Z -> S -> Prop) :
  I 1 s -> (forall k s, 1 <= k <= 12 -> I k s -> exists s', f s (days_of year k) = Ok s' /\ I (k + 1) s') ->
  exists s', foldM f (months_of year) s = Ok s' /\ I 13 s'.
Proof.
  intros I1 ST.
  assert (E : months_of year = map (days_of year) (zrange 1 13)).
  { unfold months_of. apply map_ext_in. intros i Hi. apply in_zrange in Hi. apply month_length_days. lia. }
  rewrite E. clear E.
  assert (G : forall n a s, a = 13 - Z.of_nat n -> 1 <= a -> I a s -> exists s', foldM f (map (days_of year) (zrange a 13)) s = Ok s' /\ I 13 s').
  { induction n as [|n IH]; intros a s0 Ha H1 Is.
    - assert (a = 13) as -> by lia. exists s0. auto.
    - rewrite zrange_cons by lia. cbn [map foldM]. destruct (ST a s0 ltac:(lia) Is) as (s' & -> & Is').
      cbn [bind]. apply IH; auto; lia. }
  apply (G 12%nat 1); auto; lia.
Qed.

Lemma split_ok year (hourly : list R) : zlen hourly = 24 * days_in_year year ->
  exists r, split_load_by_month year hourly = Ok r /\ monthly_upto year hourly 13 r.
Proof.
  intros L. unfold split_load_by_month.
  destruct (foldM_months (split_body hourly) year (0, ([0%R], [0%R], [0%R], [0]))
    (fun k s => fst s = 24 * days_before year k /\ monthly_upto year hourly k (snd s))) as ((b & r) & E & _ & M).
  - cbn [fst snd]. split; [reflexivity|]. cbn. repeat split; auto. intros; lia.
  - intros k [b s] Hk [A B]. cbn [fst snd] in A, B. subst b.
    destruct (split_body_step year hourly k s L Hk B) as (s' & E & M). eexists; split; [exact E|]. auto.
  - cbn [nofZ NumR]. cbn zeta. rewrite E. cbn [bind snd] in *. exists r; auto.
Qed.

(** the months partition the year *)
Lemma months_concat {A} year (l : list A) : zlen l = 24 * days_in_year year ->
  concat (map (month_of year l) (zrange 1 13)) = l.
Proof.
  intros L.
  assert (G : forall n k, k = 1 + Z.of_nat n -> k <= 13 -> concat (map (month_of year l) (zrange 1 k)) = firstn (Z.to_nat (24 * days_before year k)) l).
  { induction n as [|n IH]; intros k -> Hk; [reflexivity|].
    replace (1 + Z.of_nat (S n)) with ((1 + Z.of_nat n) + 1) in * by lia. set (j := 1 + Z.of_nat n) in *.
    rewrite zrange_snoc, map_app, concat_app, IH by lia. cbn [map concat]. rewrite app_nil_r.
    rewrite days_before_step by lia. unfold month_of.
    assert (B := days_before_nonneg year j ltac:(lia)). assert (D := days_of_bounds year j ltac:(lia)).
    replace (Z.to_nat (24 * (days_before year j + days_of year j))) with (Z.to_nat (24 * days_before year j) + Z.to_nat (24 * days_of year j))%nat by lia.
    set (a := Z.to_nat (24 * days_before year j)). set (b := Z.to_nat (24 * days_of year j)).
    rewrite <- (firstn_skipn a l) at 3. rewrite firstn_app.
    assert (a <= length l)%nat.
    { assert (X := days_before_mono year j 13 ltac:(lia) ltac:(lia)). rewrite days_before_13 in X. unfold zlen in L. lia. }
    rewrite firstn_firstn, Nat.min_r, firstn_length, Nat.min_l by lia.
    replace (a + b - a)%nat with b by lia. reflexivity. }
  rewrite (G 12%nat 13) by lia. rewrite days_before_13, <- L. unfold zlen. rewrite Nat2Z.id. apply firstn_all.
Qed.

(** ** process_two_day_loads *)
Lemma nth_wrap {A} (l : list A) k : 24 <= zlen l -> 0 <= k < zlen l + 48 ->
  nth_error (py_slice l (zlen l - 24) (zlen l) ++ l ++ py_slice l 0 24) (Z.to_nat k)
  = nth_error l (Z.to_nat ((k - 24) mod Z.of_nat (length l))).
Proof.
  intros L K. fold (zlen l).
  assert (L1 : zlen (py_slice l (zlen l - 24) (zlen l)) = 24) by (rewrite py_slice_zlen; lia).
  destruct (Z.lt_ge_cases k 24).
  - rewrite nth_error_app1 by (unfold zlen in *; lia). rewrite py_slice_nth by lia.
    rewrite <- (Z.mod_add (k - 24) 1) by lia. rewrite Z.mod_small by lia. f_equal. lia.
  - rewrite nth_error_app2 by (unfold zlen in *; lia).
    assert (L2 : length (py_slice l (zlen l - 24) (zlen l)) = 24%nat) by (unfold zlen in L1 at 1; lia). rewrite L2.
    destruct (Z.lt_ge_cases (k - 24) (zlen l)).
    + rewrite nth_error_app1 by (unfold zlen in *; lia). rewrite Z.mod_small by lia. f_equal. lia.
    + rewrite nth_error_app2 by (unfold zlen in *; lia).
      replace (Z.to_nat k - 24 - length l)%nat with (Z.to_nat (k - 24 - zlen l)) by (unfold zlen in *; lia).
      rewrite py_slice_nth by lia. rewrite <- (Z.mod_add (k - 24) (-1)) by lia. rewrite Z.mod_small by lia. f_equal; lia.
Qed.

Lemma peak_day_bounds n d h : d = - ((- Z.of_nat n) / 24) -> Z.of_nat n < 24 * h -> 24 * (d - 1) < Z.of_nat n <= 24 * d /\ 0 <= d <= h.
Proof. intros -> H. Z.div_mod_to_equations. lia. Qed.

Definition windows_upto (year : Z) (hourly : list R) (days : list Z) (k : Z) (s : Z * list (list R)) : Prop :=
  fst s = 24 + 24 * days_before year k /\ zlen (snd s) = k /\
  forall i, 1 <= i < k -> exists w d,
    nth_error (snd s) (Z.to_nat i) = Some w /\ nth_error days (Z.to_nat i) = Some d /\
    two_days_from hourly (24 * (days_before year i + d - 1)) w.

Lemma days_total year i : 1 <= i <= 12 -> days_before year i + days_of year i <= days_in_year year.
Proof. intros. rewrite <- days_before_step, <- days_before_13 by lia. apply days_before_mono; lia. Qed.
Lemma days_in_year_bounds year : 365 <= days_in_year year <= 366.
Proof. unfold days_in_year, civil_month. cbn -[Z.modulo].
  destruct ((year mod 4 =? 0) && (negb (year mod 100 =? 0) || (year mod 400 =? 0))); repeat split; vm_compute; discriminate. Qed.

Lemma two_day_step year (hourly : list R) days k s d : zlen hourly = 24 * days_in_year year -> 1 <= k <= 12 ->
  nth_error days (Z.to_nat k) = Some d -> 0 <= d <= days_of year k ->
  windows_upto year hourly days k s ->
  exists s', two_day_body year days (py_slice hourly (zlen hourly - 24) (zlen hourly) ++ hourly ++ py_slice hourly 0 24) s k = Ok s'
    /\ windows_upto year hourly days (k + 1) s'.
Proof.
  intros L Hk Nd Bd (P & LW & W). destruct s as [prev acc]. cbn [fst snd] in *.
  assert (B := days_before_nonneg year k ltac:(lia)). assert (T := days_total year k Hk). assert (Y := days_in_year_bounds year).
  unfold two_day_body. rewrite (proj2 (py_nth_nonneg days k d ltac:(lia)) Nd). cbn [bind]. cbn zeta.
  set (padded := _ ++ _ ++ _). assert (LP : zlen padded = zlen hourly + 48).
  { unfold padded. rewrite !zlen_app, !py_slice_zlen by lia. lia. }
  set (start := prev + (d - 1) * 24). assert (S0 : start = 24 * (days_before year k + d)) by (unfold start; lia).
  assert (LW' : zlen (py_slice padded start (start + 2 * 24)) = 48) by (rewrite py_slice_zlen; lia).
  rewrite LW'. change (48 =? 2 * 24) with true. cbn [assert_ bind].
  rewrite zsum_before by lia. replace (start - 24) with ((days_before year k + d - 1) * 24) by lia.
  rewrite Z.quot_mul by lia. replace (_ =? _) with true by (symmetry; apply Z.eqb_eq; lia). cbn [assert_ bind].
  eexists; split; [reflexivity|]. unfold windows_upto. cbn [fst snd].
  rewrite days_before_step, month_length_days by lia. rewrite zlen_app, zlen_cons, zlen_nil. repeat split; try lia.
  intros i Hi. destruct (Z.eq_dec i k) as [->|].
  - exists (py_slice padded start (start + 2 * 24)), d. rewrite nth_snoc_new by lia. repeat split; auto.
    + unfold zlen in LW'. lia.
    + intros t Ht. rewrite py_slice_nth by lia. replace (Z.to_nat start + Z.to_nat t)%nat with (Z.to_nat (start + t)) by lia.
      unfold padded. rewrite nth_wrap by lia. f_equal. f_equal. f_equal. lia.
  - destruct (W i ltac:(lia)) as (w & e & X). exists w, e. now rewrite nth_snoc_old by lia.
Qed.

Lemma foldM_1_13 {S} (f : S -> Z -> res S) s (I : Z -> S -> Prop) :
  I 1 s -> (forall k s, 1 <= k <= 12 -> I k s -> exists s', f s k = Ok s' /\ I (k + 1) s') ->
  exists s', foldM f (zrange 1 13) s = Ok s' /\ I 13 s'.
Proof.
  intros I1 ST.
  assert (G : forall n a s, a = 13 - Z.of_nat n -> 1 <= a -> I a s -> exists s', foldM f (zrange a 13) s = Ok s' /\ I 13 s').
  { induction n as [|n IH]; intros a s0 Ha H1 Is.
    - assert (a = 13) as -> by lia. exists s0. auto.
    - rewrite zrange_cons by lia. cbn [foldM]. destruct (ST a s0 ltac:(lia) Is) as (s' & -> & Is').
      cbn [bind]. apply IH; auto; lia. }
  apply (G 12%nat 1); auto; lia.
Qed.

Lemma two_day_ok year (hourly : list R) days : zlen hourly = 24 * days_in_year year ->
  (forall i, 1 <= i <= 12 -> exists d, nth_error days (Z.to_nat i) = Some d /\ 0 <= d <= days_of year i) ->
  exists td, process_two_day_loads year hourly days = Ok td /\ zlen td = 13 /\
    forall i, 1 <= i <= 12 -> exists w d,
      nth_error td (Z.to_nat i) = Some w /\ nth_error days (Z.to_nat i) = Some d /\
      two_days_from hourly (24 * (days_before year i + d - 1)) w.
Proof.
  intros L D. unfold process_two_day_loads. cbn zeta.
  edestruct (foldM_1_13 (two_day_body year days (py_slice hourly (zlen hourly - 24) (zlen hourly) ++ hourly ++ py_slice hourly 0 24))
    (24, [[nofZ 0]]) (windows_upto year hourly days)) as (s & -> & W).
  - repeat split; auto. intros; lia.
  - intros k s Hk W. destruct (D k Hk) as (d & Nd & Bd). eapply two_day_step; eauto.
  - cbn [bind]. exists (snd s). destruct W as (_ & W1 & W2). repeat split; auto. intros; apply W2; lia.
Qed.

Lemma first_max_lt n l : first_max_at n l -> Z.of_nat n < zlen l.
Proof. intros (m & A & _). assert (nth_error l n <> None) by congruence. apply nth_error_Some in H. unfold zlen. lia. Qed.

Lemma monthly_days year hourly ts ps avs ds : zlen hourly = 24 * days_in_year year ->
  monthly_upto year hourly 13 (ts, ps, avs, ds) ->
  forall i, 1 <= i <= 12 -> exists d n, nth_error ds (Z.to_nat i) = Some d /\ 0 <= d <= days_of year i /\
    first_max_at n (month_of year hourly i) /\ 24 * (d - 1) < Z.of_nat n <= 24 * d.
Proof.
  intros L (_ & _ & _ & _ & M) i Hi. destruct (M i ltac:(lia)) as (t & p & a & d & _ & _ & _ & Nd & _ & _ & _ & n & FM & _ & Ed).
  assert (X := first_max_lt n _ FM). destruct (month_of_slice year hourly i L Hi) as [_ LZ]. rewrite LZ in X.
  destruct (peak_day_bounds n d (days_of year i) Ed X). exists d, n. auto.
Qed.

(** the values of a window are values of the year *)
Lemma window_in {A} (hourly : list A) start w : two_days_from hourly start w -> forall x, In x w -> In x hourly.
Proof.
  intros [L W] x Hx. apply In_nth_error in Hx. destruct Hx as [n Hn].
  assert (n < 48)%nat by (rewrite <- L; apply nth_error_Some; congruence).
  specialize (W (Z.of_nat n) ltac:(lia)). rewrite Nat2Z.id, Hn in W. symmetry in W. eapply nth_error_In; eauto.
Qed.

Lemma nth_month {A} year (l : list A) i k : zlen l = 24 * days_in_year year -> 1 <= i <= 12 -> (k < Z.to_nat (24 * days_of year i))%nat ->
  nth_error (month_of year l i) k = nth_error l (Z.to_nat (24 * days_before year i) + k).
Proof.
  intros L H K. destruct (month_of_slice year l i L H) as [<- _].
  assert (B := days_before_nonneg year i ltac:(lia)). assert (T := days_total year i H). assert (D := days_of_bounds year i H).
  apply py_slice_nth; lia.
Qed.

(** the window contains the first peak of the month *)
Lemma window_peak year (hourly : list R) i d n w : zlen hourly = 24 * days_in_year year -> 1 <= i <= 12 ->
  first_max_at n (month_of year hourly i) -> 24 * (d - 1) < Z.of_nat n <= 24 * d ->
  two_days_from hourly (24 * (days_before year i + d - 1)) w ->
  exists m, is_max m (month_of year hourly i) /\ nth_error w (Z.to_nat (Z.of_nat n - 24 * (d - 1))) = Some m.
Proof.
  intros L Hi FM B [LW W]. assert (X := first_max_lt n _ FM). destruct FM as (m & Nm & MX & _).
  exists m; split; auto. rewrite W by lia. fold (zlen hourly).
  destruct (month_of_slice year hourly i L Hi) as [_ LZ]. rewrite LZ in X.
  assert (B0 := days_before_nonneg year i ltac:(lia)). assert (T := days_total year i Hi).
  rewrite Z.mod_small by lia. rewrite nth_month in Nm by (auto; lia). rewrite <- Nm. f_equal. lia.
Qed.
