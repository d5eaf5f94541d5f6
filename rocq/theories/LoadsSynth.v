(** Proofs about the synthetic hourly profiles *)
From Coq Require Import ZArith List Bool Reals Lra Lia.
From Verif Require Import Base Num BaseLemmas Loads LoadsSpec LoadsProofs LoadsHybrid.
Import ListNotations.
Open Scope Z_scope.

Lemma nth_firstn_lt {A} (l : list A) n k : (k < n)%nat -> nth_error (firstn n l) k = nth_error l k.
Proof. revert n k. induction l; intros [|n] [|k] H; cbn; auto; try lia. apply IHl. lia. Qed.
Lemma nth_skipn {A} (l : list A) n k : nth_error (skipn n l) k = nth_error l (n + k).
Proof. revert n. induction l; intros [|n]; cbn; auto. now destruct k. Qed.

Lemma slice_set_plain {A} (l v : list A) a : 0 <= a -> a + zlen v <= zlen l ->
  py_slice_set l a (a + zlen v) v = firstn (Z.to_nat a) l ++ v ++ skipn (Z.to_nat (a + zlen v)) l.
Proof.
  intros H K. assert (N := zlen_nonneg v). unfold py_slice_set, clampi. cbn zeta.
  destruct (Z.ltb_spec a 0); [lia|]. destruct (Z.ltb_spec (a + zlen v) 0); [lia|].
  rewrite !Z.min_r, !Z.max_r by lia. reflexivity.
Qed.
Lemma slice_set_zlen {A} (l v : list A) a : 0 <= a -> a + zlen v <= zlen l -> zlen (py_slice_set l a (a + zlen v) v) = zlen l.
Proof.
  intros H K. assert (N := zlen_nonneg v). rewrite slice_set_plain by auto. rewrite !zlen_app, zlen_firstn, zlen_skipn by lia. lia.
Qed.
Lemma slice_set_nth {A} (l v : list A) a k : 0 <= a -> a + zlen v <= zlen l -> 0 <= k ->
  nth_error (py_slice_set l a (a + zlen v) v) (Z.to_nat k) =
  if (a <=? k) && (k <? a + zlen v) then nth_error v (Z.to_nat (k - a)) else nth_error l (Z.to_nat k).
Proof.
  intros H K P. assert (N := zlen_nonneg v). rewrite slice_set_plain by auto.
  assert (L1 : length (firstn (Z.to_nat a) l) = Z.to_nat a) by (rewrite firstn_length; unfold zlen in *; lia).
  destruct (Z.leb_spec a k); cbn [andb].
  - rewrite nth_error_app2 by lia. rewrite L1. replace (Z.to_nat k - Z.to_nat a)%nat with (Z.to_nat (k - a)) by lia.
    destruct (Z.ltb_spec k (a + zlen v)).
    + rewrite nth_error_app1; [reflexivity|unfold zlen in *; lia].
    + rewrite nth_error_app2 by (unfold zlen in *; lia). rewrite nth_skipn. f_equal. unfold zlen in *. lia.
  - rewrite nth_error_app1 by lia. apply nth_firstn_lt. lia.
Qed.
Lemma py_repeat_zlen {A} (x : A) n : 0 <= n -> zlen (py_repeat x n) = n.
Proof. intros. unfold zlen, py_repeat. rewrite repeat_length. lia. Qed.
Lemma py_repeat_nth {A} (x : A) n k : 0 <= k < n -> nth_error (py_repeat x n) (Z.to_nat k) = Some x.
Proof.
  intros H. unfold py_repeat. rewrite (nth_error_nth' _ x) by (rewrite repeat_length; lia). now rewrite nth_repeat.
Qed.

Section Synth.
Context {F : Type} {N : Num F}.

Lemma set_const (l : list F) a n x : 0 <= a -> 0 <= n -> a + n <= zlen l ->
  zlen (py_slice_set l a (a + n) (py_repeat x n)) = zlen l /\
  forall k, 0 <= k -> nth_error (py_slice_set l a (a + n) (py_repeat x n)) (Z.to_nat k) =
    if (a <=? k) && (k <? a + n) then Some x else nth_error l (Z.to_nat k).
Proof.
  intros H1 H2 H3. assert (E := py_repeat_zlen x n H2). rewrite <- E at 1. split.
  - apply slice_set_zlen; lia.
  - intros k Hk. rewrite <- E at 1. rewrite slice_set_nth by lia. rewrite E.
    destruct (Z.leb_spec a k), (Z.ltb_spec k (a + n)); cbn [andb]; auto. apply py_repeat_nth. lia.
Qed.

Lemma synthetic_ok (l : list F) avg peak dur day prev him :
  0 <= prev -> 0 <= him -> prev + him <= zlen l -> 0 <= dur ->
  0 <= prev + window_start dur day -> prev + window_start dur day + dur <= zlen l ->
  let l' := synthetic_load_function l avg peak dur day prev him in
  zlen l' = zlen l /\
  forall k, 0 <= k -> nth_error l' (Z.to_nat k) =
    if (prev + window_start dur day <=? k) && (k <? prev + window_start dur day + dur) then Some peak
    else if (prev <=? k) && (k <? prev + him) then Some avg else nth_error l (Z.to_nat k).
Proof.
  intros H1 H2 H3 H4 H5 H6. unfold synthetic_load_function. cbn zeta.
  assert (E : (2 * (day * 24 + prev + 12) - dur) / 2 = prev + window_start dur day).
  { unfold window_start. rewrite (Z.add_comm prev), <- Z.div_add by lia. f_equal. lia. }
  rewrite E. destruct (set_const l prev him avg) as [Z1 N1]; auto.
  destruct (set_const (py_slice_set l prev (prev + him) (py_repeat avg him)) (prev + window_start dur day) dur peak) as [Z2 N2]; try lia.
  split; [lia|]. intros k Hk. rewrite N2 by auto. now rewrite N1 by auto.
Qed.

(** months below k are filled *)
Definition filled (year : Z) (l : list F) (av pk : Z -> F) (du day : Z -> Z) (k : Z) : Prop :=
  zlen l = 24 * days_in_year year /\
  forall i h, 1 <= i < k -> 0 <= h < 24 * days_of year i ->
    nth_error l (Z.to_nat (24 * days_before year i + h)) =
    Some (if (window_start (du i) (day i) <=? h) && (h <? window_start (du i) (day i) + du i) then pk i else av i).

Lemma filled_step year l av pk du day k : 1 <= k <= 12 -> filled year l av pk du day k ->
  0 <= du k -> 0 <= window_start (du k) (day k) -> window_start (du k) (day k) + du k <= 24 * days_of year k ->
  filled year (synthetic_load_function l (av k) (pk k) (du k) (day k) (24 * days_before year k) (24 * month_length year k)) av pk du day (k + 1).
Proof.
  intros Hk [L M] D W1 W2. rewrite month_length_days by auto. assert (B := days_before_nonneg year k ltac:(lia)).
  assert (T := days_total year k Hk). assert (DB := days_of_bounds year k Hk).
  destruct (synthetic_ok l (av k) (pk k) (du k) (day k) (24 * days_before year k) (24 * days_of year k)) as [Z1 N1]; try lia.
  split; [lia|]. intros i h Hi Hh.
  assert (Bi := days_before_nonneg year i ltac:(lia)). rewrite N1 by lia.
  destruct (Z.eq_dec i k) as [->|].
  - destruct (Z.leb_spec (24 * days_before year k + window_start (du k) (day k)) (24 * days_before year k + h)),
      (Z.leb_spec (window_start (du k) (day k)) h); try lia; cbn [andb].
    + destruct (Z.ltb_spec (24 * days_before year k + h) (24 * days_before year k + window_start (du k) (day k) + du k)),
      (Z.ltb_spec h (window_start (du k) (day k) + du k)); try lia; auto.
      destruct (Z.leb_spec (24 * days_before year k) (24 * days_before year k + h)), (Z.ltb_spec (24 * days_before year k + h) (24 * days_before year k + 24 * days_of year k)); try lia; auto.
    + destruct (Z.leb_spec (24 * days_before year k) (24 * days_before year k + h)), (Z.ltb_spec (24 * days_before year k + h) (24 * days_before year k + 24 * days_of year k)); try lia; auto.
  - assert (U : days_before year i + days_of year i <= days_before year k).
    { rewrite <- days_before_step by lia. apply days_before_mono; lia. }
    destruct (Z.leb_spec (24 * days_before year k + window_start (du k) (day k)) (24 * days_before year i + h)); [lia|].
    destruct (Z.leb_spec (24 * days_before year k) (24 * days_before year i + h)); [lia|]. cbn [andb].
    apply M; lia.
Qed.
Lemma filled_zeros year av pk du day (x : F) : filled year (py_repeat x (zsum (months_of year) * 24)) av pk du day 1.
Proof.
  split; [|intros; lia]. rewrite zsum_civil. assert (Y := days_in_year_bounds year). rewrite py_repeat_zlen; lia.
Qed.
Lemma filled_all year (l : list F) av pk du day : filled year l av pk du day 13 -> base_and_peak year l av pk du day.
Proof. intros [A B]. split; [exact A|]. intros i h Hi. apply B. lia. Qed.

(** ** create_synthetic_doubling_load_profile *)
Lemma fold_1_13 {S} (f : S -> Z -> S) s (I : Z -> S -> Prop) :
  I 1 s -> (forall k s, 1 <= k <= 12 -> I k s -> I (k + 1) (f s k)) -> I 13 (fold_left f (zrange 1 13) s).
Proof.
  intros I1 ST.
  assert (G : forall n a s, a = 13 - Z.of_nat n -> 1 <= a -> I a s -> I 13 (fold_left f (zrange a 13) s)).
  { induction n as [|n IH]; intros a s0 Ha H1 Is.
    - assert (a = 13) as -> by lia. exact Is.
    - rewrite zrange_cons by lia. cbn [fold_left]. apply IH; try lia. apply ST; auto. lia. }
  apply (G 12%nat 1); auto; lia.
Qed.

Lemma doubling_ok u year (scale : F) : unit_scale u = Ok scale ->
  exists rej ext, create_synthetic_doubling_load_profile u year = Ok (rej, ext) /\
    base_and_peak year ext (fun i => nmul (nofZ i) scale) (fun i => nmul (nmul (nofZ 2) (nofZ i)) scale) (fun i => i) (fun i => 6 + i) /\
    base_and_peak year rej (fun i => nofZ (13 - i)) (fun i => nmul (nmul (nofZ 2) (nofZ (13 - i))) scale) (fun i => 13 - i) (fun i => 20 - i).
Proof.
  intros ES. unfold create_synthetic_doubling_load_profile. rewrite ES. cbn [bind]. cbn zeta.
  assert (H := fold_1_13 (doubling_body year scale)
    (py_repeat (nofZ 0) (zsum (months_of year) * 24), py_repeat (nofZ 0) (zsum (months_of year) * 24), 0)
    (fun k s => snd s = 24 * days_before year k /\
      filled year (snd (fst s)) (fun i => nmul (nofZ i) scale) (fun i => nmul (nmul (nofZ 2) (nofZ i)) scale) (fun i => i) (fun i => 6 + i) k /\
      filled year (fst (fst s)) (fun i => nofZ (13 - i)) (fun i => nmul (nmul (nofZ 2) (nofZ (13 - i))) scale) (fun i => 13 - i) (fun i => 20 - i) k)).
  destruct (fold_left _ _ _) as [[rej ext] pr]. destruct H as (_ & A & B).
  - split; [reflexivity|split; apply filled_zeros].
  - intros k [[r x] p] Hk (P & A & B). cbn [fst snd] in *. subst p. unfold doubling_body. cbn zeta. cbn [fst snd].
    assert (D := days_of_bounds year k Hk).
    assert (W1 : 0 <= window_start k (6 + k) /\ window_start k (6 + k) + k <= 24 * days_of year k)
      by (unfold window_start; Z.div_mod_to_equations; lia).
    assert (W2 : 0 <= window_start (13 - k) (20 - k) /\ window_start (13 - k) (20 - k) + (13 - k) <= 24 * days_of year k)
      by (unfold window_start; Z.div_mod_to_equations; lia).
    split; [rewrite days_before_step, month_length_days by lia; lia|].
    replace (7 + (k - 1)) with (6 + k) by lia. replace (19 - (k - 1)) with (20 - k) by lia. split.
    + apply (filled_step year x (fun i => nmul (nofZ i) scale) (fun i => nmul (nmul (nofZ 2) (nofZ i)) scale) (fun i => i) (fun i => 6 + i)); try lia; auto.
    + apply (filled_step year r (fun i => nofZ (13 - i)) (fun i => nmul (nmul (nofZ 2) (nofZ (13 - i))) scale) (fun i => 13 - i) (fun i => 20 - i)); try lia; auto.
  - exists rej, ext. cbn [fst snd] in *. repeat split; try (apply filled_all in A; apply A); apply filled_all in B; apply B.
Qed.
End Synth.

(** ** hourly_load_representation *)
Lemma py_round_R (x : R) : exists n, py_round x = Ok n /\ nearest x n.
Proof.
  unfold py_round. cbn [nfloor NumR bind]. cbn zeta. assert (S := Rfloor_spec x). set (f := Rfloor x) in *.
  eexists; split; [reflexivity|]. unfold nearest.
  destruct (nlt (nsub x (nofZ f)) (nlit 1 2)) eqn:E1.
  - apply nlt_R in E1. unfold nlit in E1. cbn [nsub nofZ ndivr NumR] in E1. left. rewrite Rabs_pos_eq; lra.
  - apply nlt_R_false in E1. unfold nlit in E1. cbn [nsub nofZ ndivr NumR] in E1.
    destruct (nlt (nlit 1 2) (nsub x (nofZ f))) eqn:E2.
    + apply nlt_R in E2. unfold nlit in E2. cbn [nsub nofZ ndivr NumR] in E2. left. rewrite plus_IZR.
      rewrite Rabs_left; lra.
    + apply nlt_R_false in E2. unfold nlit in E2. cbn [nsub nofZ ndivr NumR] in E2. right.
      destruct (Z.even f) eqn:EV.
      * split; auto. rewrite Rabs_pos_eq; lra.
      * split; [rewrite plus_IZR, Rabs_left; lra|]. rewrite Z.even_add, EV. reflexivity.
Qed.
Lemma nearest_unique x n m : nearest x n -> nearest x m -> n = m.
Proof.
  intros A B.
  assert (C : (IZR n - IZR m < 1 \/ (IZR n - IZR m = 1 /\ Z.even n = true /\ Z.even m = true))%R).
  { destruct A as [A|[A EA]], B as [B|[B EB]]; unfold Rabs in *; destruct (Rcase_abs (x - IZR n)), (Rcase_abs (x - IZR m));
      first [left; lra | right; repeat split; auto; lra]. }
  assert (D : (IZR m - IZR n < 1 \/ (IZR m - IZR n = 1 /\ Z.even n = true /\ Z.even m = true))%R).
  { destruct A as [A|[A EA]], B as [B|[B EB]]; unfold Rabs in *; destruct (Rcase_abs (x - IZR n)), (Rcase_abs (x - IZR m));
      first [left; lra | right; repeat split; auto; lra]. }
  rewrite <- !minus_IZR in *.
  assert (X : (n - m < 1)%Z \/ (n - m = 1)%Z /\ Z.even n = true /\ Z.even m = true)
    by (destruct C as [C|[C C']]; [left; now apply lt_IZR|right; split; auto; now apply eq_IZR]).
  assert (Y : (m - n < 1)%Z \/ (m - n = 1)%Z /\ Z.even n = true /\ Z.even m = true)
    by (destruct D as [D|[D D']]; [left; now apply lt_IZR|right; split; auto; now apply eq_IZR]).
  rewrite !Z.even_spec in *. unfold Z.Even in *.
  destruct X as [X|(X & (a & ?) & b & ?)], Y as [Y|(Y & (a' & ?) & b' & ?)]; lia.
Qed.

Definition average_of (ld : loads R) (m : Z) : R := nth (Z.to_nat m) (ld_average ld) 0%R.
Definition rounded (ld : loads R) (i : Z) : Z := match py_round (duration_of ld i) with Ok n => n | Err _ => 0 end.
Lemma rounded_ok ld i : py_round (duration_of ld i) = Ok (rounded ld i) /\ nearest (duration_of ld i) (rounded ld i).
Proof. unfold rounded. destruct (py_round_R (duration_of ld i)) as (n & -> & H). auto. Qed.

(** the window of day [peak_day + 1] lies inside the month *)
Definition window_in_month (year : Z) (ld : loads R) (i : Z) : Prop :=
  exists n, nearest (duration_of ld i) n /\ 0 <= n /\ 0 <= window_start n (peak_day_of ld i) /\
    window_start n (peak_day_of ld i) + n <= 24 * days_of year i.

Lemma representation_ok (cl hl : loads R) year : has_months cl -> has_months hl ->
  length (ld_average cl) = 13%nat -> length (ld_average hl) = 13%nat ->
  (forall i, 1 <= i <= 12 -> window_in_month year cl i /\ window_in_month year hl i) ->
  exists rej ext, hourly_load_representation cl hl year = Ok (rej, ext) /\
    base_and_peak year rej (average_of cl) (peak_of cl) (rounded cl) (peak_day_of cl) /\
    base_and_peak year ext (average_of hl) (peak_of hl) (rounded hl) (peak_day_of hl).
Proof.
  intros (C1 & C2 & C3 & C4) (H1 & H2 & H3 & H4) CA HA W. unfold hourly_load_representation. cbn zeta.
  destruct (foldM_1_13 (representation_body year cl hl)
    (py_repeat (nofZ 0) (zsum (months_of year) * 24), py_repeat (nofZ 0) (zsum (months_of year) * 24), 0)
    (fun k s => snd s = 24 * days_before year k /\
      filled year (fst (fst s)) (average_of cl) (peak_of cl) (rounded cl) (peak_day_of cl) k /\
      filled year (snd (fst s)) (average_of hl) (peak_of hl) (rounded hl) (peak_day_of hl) k)) as ([[rej ext] pr] & E & _ & A & B).
  - split; [reflexivity|split; apply filled_zeros].
  - intros k [[r x] p] Hk (P & A & B). cbn [fst snd] in *. subst p. unfold representation_body. cbn zeta.
    rewrite (py_nth_month _ 0%R k HA Hk). cbn [bind]. rewrite (py_nth_month _ 0%R k H2 Hk). cbn [bind].
    rewrite (py_nth_month _ 0%R k H3 Hk). cbn [bind]. fold (duration_of hl k).
    rewrite (proj1 (rounded_ok hl k)). cbn [bind]. rewrite (py_nth_month _ 0 k H4 Hk). cbn [bind].
    rewrite (py_nth_month _ 0%R k CA Hk). cbn [bind]. rewrite (py_nth_month _ 0%R k C2 Hk). cbn [bind].
    rewrite (py_nth_month _ 0%R k C3 Hk). cbn [bind]. fold (duration_of cl k).
    rewrite (proj1 (rounded_ok cl k)). cbn [bind]. rewrite (py_nth_month _ 0 k C4 Hk). cbn [bind].
    eexists; split; [reflexivity|]. cbn [fst snd].
    destruct (W k Hk) as [(n & Nn & W1 & W2 & W3) (n' & Nn' & W1' & W2' & W3')].
    rewrite (nearest_unique _ _ _ Nn (proj2 (rounded_ok cl k))) in *. rewrite (nearest_unique _ _ _ Nn' (proj2 (rounded_ok hl k))) in *.
    split; [rewrite days_before_step, month_length_days by lia; lia|]. split.
    + apply (filled_step year r (average_of cl) (peak_of cl) (rounded cl) (peak_day_of cl)); auto.
    + apply (filled_step year x (average_of hl) (peak_of hl) (rounded hl) (peak_day_of hl)); auto.
  - rewrite E. cbn [bind]. exists rej, ext. cbn [fst snd] in *. repeat split; try (apply filled_all in A; apply A); apply filled_all in B; apply B.
Qed.
