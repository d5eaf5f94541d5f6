(** Properties C110-C114: the program on IEEE binary64 numbers, for all doubles.  [bval] is the real number a double stands for,
    [finite64] says that it is a finite double, [nearest r x] that r is a finite double nearest to the real x (Float64.v). *)
From Coq Require Import ZArith QArith Reals SpecFloat List Bool Lia Lra.
From Verif Require Import Base Num Order BaseLemmas Utilities Coordinates Spec Domains Search SearchSpec SearchProofs SearchTheorems SearchNested Properties_Search Float64 Binary64 BinaryGrid.
Import ListNotations.
Open Scope Z_scope.

(** ** C111: what the arithmetic of the model is on doubles *)
(** every operation returns a double nearest to the exact result, unless that result lies beyond the largest double, when it is an infinity *)
Definition nearest_or_overflow (r : b64) (x : R) : Prop :=
  nearest r x \/ exists s, r = S754_infinity s /\ (p2 1024 * (1 - p2 (-54)) <= (if s then - x else x))%R.
Lemma rounded_nearest r x : rounded r x -> nearest_or_overflow r x.
Proof. intros [(s & -> & H)|(H & _)]; [right; exists s; split; [reflexivity|destruct s; cbn [sgn] in H; lra]|now left]. Qed.
Theorem C111_operations :
  forall x y : b64, finite64 x = true -> finite64 y = true ->
  nearest_or_overflow (nadd x y) (bval x + bval y) /\ nearest_or_overflow (nsub x y) (bval x - bval y) /\
  nearest_or_overflow (nmul x y) (bval x * bval y) /\
  (bval y <> 0%R -> exists q, pydiv x y = Ok q /\ nearest_or_overflow q (bval x / bval y)) /\
  (bval y = 0%R -> pydiv x y = Err ZeroDivisionError).
Proof.
  intros x y Fx Fy. split; [apply rounded_nearest, rounded_rel_rounded, SFadd_rounded; auto|].
  split; [apply rounded_nearest, rounded_rel_rounded, SFsub_rounded; auto|]. split; [apply rounded_nearest, SFmul_rounded; auto|].
  unfold pydiv. cbn [nis0 NumB64]. split; intros Hy.
  - destruct (b64_is0 y) eqn:E; [apply b64_is0_iff in E; [contradiction|auto]|]. eexists. split; [reflexivity|]. apply rounded_nearest, SFdiv_rounded; auto.
  - apply b64_is0_iff in Hy; auto. now rewrite Hy.
Qed.
(** comparisons, absolute values, floor, ceiling and the conversion of integers below 2^53 are exact *)
Theorem C111_exact_operations :
  forall x y : b64, finite64 x = true -> finite64 y = true ->
  (nle x y = true <-> (bval x <= bval y)%R) /\ (nlt x y = true <-> (bval x < bval y)%R) /\ (neqb x y = true <-> bval x = bval y) /\
  (nis0 x = true <-> bval x = 0%R) /\ bval (nabs x) = Rabs (bval x) /\
  nfloor x = Ok (Rfloor (bval x)) /\ nceil x = Ok (Rceil (bval x)) /\
  forall z, Z.abs z < 2 ^ 53 -> bval (nofZ z) = IZR z.
Proof.
  intros x y Fx Fy. split; [now apply SFleb_iff|]. split; [now apply SFltb_iff|]. split.
  { unfold neqb. cbn [nle NumB64]. rewrite andb_true_iff, !SFleb_iff by auto. lra. }
  split; [now apply b64_is0_iff|]. split.
  { destruct x as [|s| |s m e]; try discriminate; cbn [nabs NumB64 SFabs]; [cbn [bval]; now rewrite Rabs_R0|].
    rewrite !bval_sgn, Rabs_mult, sgn_abs, (Rabs_pos_eq (_ * _)) by (apply Rlt_le, mag_pos). unfold sgn. lra. }
  split; [now apply floor64|]. split; [now apply ceil64|]. intros z Hz. now apply b64_ofZ_exact.
Qed.
(** relative error at most 2^-53 away from underflow; sums and differences always *)
Theorem C111_relative_error :
  forall x y : b64, finite64 x = true -> finite64 y = true ->
  (finite64 (nadd x y) = true -> (Rabs (bval (nadd x y) - (bval x + bval y)) <= p2 (-53) * Rabs (bval x + bval y))%R) /\
  (finite64 (nsub x y) = true -> (Rabs (bval (nsub x y) - (bval x - bval y)) <= p2 (-53) * Rabs (bval x - bval y))%R) /\
  (finite64 (nmul x y) = true -> (p2 (-1022) <= Rabs (bval x * bval y))%R -> (Rabs (bval (nmul x y) - bval x * bval y) <= p2 (-53) * Rabs (bval x * bval y))%R) /\
  (finite64 (ndivr x y) = true -> bval y <> 0%R -> (p2 (-1022) <= Rabs (bval x / bval y))%R ->
     (Rabs (bval (ndivr x y) - bval x / bval y) <= p2 (-53) * Rabs (bval x / bval y))%R).
Proof.
  assert (T : forall r x, finite64 r = true -> rounded r x -> (p2 (-1022) <= Rabs x)%R -> (Rabs (bval r - x) <= p2 (-53) * Rabs x)%R).
  { intros r x Fr [(s & -> & _)|(_ & H & _)] Hx; [discriminate|]. eapply Rle_trans; [exact H|]. apply Rmax_lub; [unfold u64; lra|].
    unfold eta64. replace (-1075) with (-53 + -1022) by lia. rewrite p2_add. pose proof (p2_pos (-53)). nra. }
  assert (U : forall r x, finite64 r = true -> rounded_rel r x -> (Rabs (bval r - x) <= p2 (-53) * Rabs x)%R).
  { intros r x Fr [(s & -> & _)|(_ & H & _)]; [discriminate|exact H]. }
  intros x y Fx Fy. split; [intros F; apply U; auto; now apply SFadd_rounded|]. split; [intros F; apply U; auto; now apply SFsub_rounded|].
  split; [intros F H; apply T; auto; now apply SFmul_rounded|]. intros F Hy H. apply T; auto. now apply SFdiv_rounded.
Qed.
Example C111_example : finite64 (b64_lit 1 10) = true /\ finite64 (b64_lit 2 10) = true /\ nadd (b64_lit 1 10) (b64_lit 2 10) = S754_finite false 5404319552844596 (-54)
  /\ nle (nadd (b64_lit 1 10) (b64_lit 2 10)) (b64_lit 3 10) = false /\ nfloor (b64_lit (-7) 2) = Ok (-4) /\ nceil (b64_lit (-7) 2) = Ok (-3).
Proof. vm_compute. repeat split. Qed.

(** ** C110: the search on doubles *)
(** the comparisons and the sign of Search.v and Utilities.v are the IEEE ones *)
Theorem C110_comparisons :
  forall x y : b64, valid_binary 53 1024 x = true -> valid_binary 53 1024 y = true ->
  xle0 (classify x) = SFleb x (S754_zero false) /\ xlt0 (classify x) = SFltb x (S754_zero false) /\
  (x <> S754_infinity false -> xgt0 (classify x) = SFltb (S754_zero false) x) /\
  (SFleb x (S754_zero false) = true -> SFleb y (S754_zero false) = true ->
     xlt (classify x) (classify y) = SFltb x y /\ xeq (classify x) (classify y) = SFeqb x y).
Proof.
  assert (C : forall x, valid_binary 53 1024 x = true -> (exists H : finite64 x = true, classify x = Fin (exist _ x H)) \/ (finite64 x = false /\ (x = S754_infinity true \/ x = S754_infinity false \/ x = S754_nan))).
  { intros x V. destruct (bool_dec (finite64 x) true) as [F|F]; [left; exists F; now apply classify_fin|right]. apply not_true_is_false in F.
    split; auto. destruct x as [|[]| |]; auto; [discriminate F|]. cbn [finite64] in F. cbn [valid_binary] in V. congruence. }
  intros x y Vx Vy. destruct (C x Vx) as [(Fx & Ex)|(Fx & [->|[->| ->]])].
  - rewrite Ex. split; [reflexivity|]. split; [reflexivity|]. split; [reflexivity|]. intros Hx Hy. destruct (C y Vy) as [(Fy & Ey)|(Fy & [->|[->| ->]])].
    + rewrite Ey. split; [reflexivity|]. cbn [xeq]. unfold neqb. cbn [nle NumF64 proj1_sig]. 
      destruct (SFcompare_spec x y Fx Fy) as (c & E & S). destruct (SFcompare_spec y x Fy Fx) as (c' & E' & S'). unfold SFleb, SFeqb. rewrite E, E'.
      destruct c, c'; cbn [cmp_spec] in *; try reflexivity; exfalso; lra.
    + cbn [classify]. destruct x as [|[]| |[]]; try discriminate; split; reflexivity.
    + discriminate.
    + discriminate.
  - split; [reflexivity|]. split; [reflexivity|]. split; [reflexivity|]. intros _ Hy. destruct (C y Vy) as [(Fy & Ey)|(Fy & [->|[->| ->]])]; try discriminate.
    + rewrite Ey. destruct y as [|[]| |[]]; try discriminate; split; reflexivity.
    + split; reflexivity.
  - split; [reflexivity|]. split; [reflexivity|]. split; [congruence|discriminate].
  - split; [reflexivity|]. split; [reflexivity|]. split; [reflexivity|discriminate].
Qed.
(** utilities.py:96-103: int(abs(x)/x) in IEEE arithmetic is the sign of the model, for every double *)
Theorem C110_sign : forall x : b64, valid_binary 53 1024 x = true -> sign64 x = sign (classify x).
Proof.
  intros x V. destruct x as [s|[]| |s m e]; try reflexivity.
  - cbn [valid_binary] in V. rewrite (classify_fin (S754_finite s m e) V). unfold sign64, pydiv. cbn [nis0 NumB64 b64_is0 bind nabs ndivr SFabs].
    rewrite div_self. destruct s; reflexivity.
Qed.

Section Doubles.
Variable C : Type.                        (* borehole fields *)
Variable build : C -> F64 -> res unit.    (* initialize_ghe: may raise *)
Variable excess : C -> F64 -> res b64.    (* excess temperature of a field at a height: any double, infinities and nan included *)
Variable minH maxH : F64.
(** the simulation as the search sees it *)
Definition sim64 (c : C) (H : F64) : res (xval F64) := let! x := excess c H in Ok (classify x).

Lemma sim64_fin c H q : sim64 c H = Ok (Fin q) <-> excess c H = Ok (proj1_sig q).
Proof.
  unfold sim64. destruct (excess c H) as [x|e]; cbn [bind]; [|split; discriminate]. destruct q as [q Hq]. cbn [proj1_sig]. split.
  - unfold classify. destruct (bool_dec (finite64 x) true) as [F|F].
    + intros [= ->]. reflexivity.
    + destruct x as [|[]| |]; discriminate.
  - intros [= ->]. now rewrite (classify_fin q Hq).
Qed.

(** a selected field has a negative excess at the maximum height, except for a lone first field that only passes at the minimum height *)
Theorem C110_selected_field_meets_limits :
  forall max_iter (s s' : sstate C) r,
  search C build sim64 minH maxH max_iter s = (Ok r, s') -> temps C s = [] ->
  exists k c x, r = Some (k, c) /\ 0 <= k < zlen (dom C s) /\ nth_error (dom C s) (Z.to_nat k) = Some c /\ ghe C s' = (c, maxH)
    /\ excess c maxH = Ok x /\ finite64 x = true
    /\ ((bval x < 0)%R \/ (k = 0 /\ (0 < bval x)%R /\ exists y, excess c minH = Ok y /\ finite64 y = true /\ (bval y < 0)%R)).
Proof.
  intros mi s s' r H Ht. destruct (C25_selected_field_meets_limits C build sim64 minH maxH mi s s' r H Ht) as (k & c & -> & Hk & Hn & Hg & [(q & Hq & Hl)|(-> & q & q' & Hq & Hl & Hq' & Hl')]).
  - apply sim64_fin in Hq. exists k, c, (proj1_sig q). repeat (split; [now auto|]). split; [exact (proj2_sig q)|]. left. exact Hl.
  - apply sim64_fin in Hq, Hq'. exists 0, c, (proj1_sig q'). repeat (split; [now auto|]). split; [exact (proj2_sig q')|]. right. split; [reflexivity|]. split; [exact Hl'|].
    exists (proj1_sig q). split; [exact Hq|]. split; [exact (proj2_sig q)|exact Hl].
Qed.

(** excesses that fall from field to field, positive at the first and negative from the m-th on: the m-th field is found *)
Theorem C110_smallest_adequate_field :
  forall max_iter (s : sstate C) (f : Z -> b64) m y c0,
  temps C s = [] -> zlen (dom C s) - 1 <= 2 ^ Z.max 0 max_iter ->
  (forall c H, In c (dom C s) -> exists u, build c H = Ok u) ->
  (forall i c, 0 <= i -> nth_error (dom C s) (Z.to_nat i) = Some c -> excess c maxH = Ok (f i) /\ finite64 (f i) = true) ->
  (forall i j, 0 <= i < j -> j < zlen (dom C s) -> (bval (f j) < bval (f i))%R) ->
  nth_error (dom C s) 0 = Some c0 -> excess c0 minH = Ok y -> finite64 y = true -> (0 < bval y)%R ->
  0 < m < zlen (dom C s) -> (0 < bval (f (m - 1)%Z))%R -> (bval (f m) < 0)%R ->
  exists c s', search C build sim64 minH maxH max_iter s = (Ok (Some (m, c)), s') /\ nth_error (dom C s) (Z.to_nat m) = Some c /\ ghe C s' = (c, maxH).
Proof.
  intros mi s f m y c0 Ht Hz Hb Hf Hd Hc0 Hy Fy Py Hm Ha Hb2.
  assert (V : forall i, 0 <= i < zlen (dom C s) -> proj1_sig (clip (f i)) = f i).
  { intros i Hi. apply clip_val. destruct (nth_error (dom C s) (Z.to_nat i)) as [c|] eqn:E; [exact (proj2 (Hf i c (proj1 Hi) E))|].
    apply nth_error_None in E. unfold zlen in Hi. lia. }
  apply (C26_smallest_adequate_field C build sim64 minH maxH mi s (fun i => clip (f i)) m (clip y) c0); auto.
  - intros i c Hi Hc. assert (R : 0 <= i < zlen (dom C s)).
    { split; auto. assert (Z.to_nat i < length (dom C s))%nat by (apply nth_error_Some; congruence). unfold zlen. lia. }
    apply sim64_fin. rewrite V by exact R. now apply (Hf i c).
  - intros i j Hij Hj. change (bval (proj1_sig (clip (f j))) < bval (proj1_sig (clip (f i))))%R. rewrite !V by lia. now apply Hd.
  - apply sim64_fin. now rewrite clip_val.
  - change (0 < bval (proj1_sig (clip y)))%R. now rewrite clip_val.
  - change (0 < bval (proj1_sig (clip (f (m - 1)%Z))))%R. rewrite V by lia. exact Ha.
  - change (bval (proj1_sig (clip (f m))) < 0)%R. rewrite V by lia. exact Hb2.
Qed.
End Doubles.

(** ** concrete searches on doubles: fields are numbers, excesses are tables of doubles *)
Definition tab64 (lo : b64) (l : list b64) (c : Z) (H : F64) : res b64 :=
  if nle (nofZ 100) H then match nth_error l (Z.to_nat c) with Some q => Ok q | None => Err IndexError end else Ok lo.
Definition run64 (lo : b64) (l : list b64) (mi : Z) :=
  search Z (fun _ _ => Ok tt) (sim64 Z (tab64 lo l)) (nofZ 60) (nofZ 135) mi (start Z (zrange 0 (zlen l)) (0, nofZ 0)).
Example C110_example : fst (run64 (b64_lit 9 1) [b64_lit 8 1; b64_lit 51 10; b64_lit 1 10; b64_lit (-5) 10; b64_lit (-21) 10; b64_lit (-33) 10; b64_lit (-7) 1] 15) = Ok (Some (3, 3)).
Proof. vm_compute. reflexivity. Qed.
(** the smallest subnormal above zero is an excess, a negative zero is not; an infinite or undefined excess of the largest field ends the search *)
Example C110_extremes :
  fst (run64 (b64_lit 9 1) [b64_lit 8 1; S754_finite false 1 (-1074); S754_finite true 1 (-1074)] 15) = Ok (Some (2, 2))
  /\ fst (run64 (b64_lit 9 1) [b64_lit 8 1; S754_infinity false] 15) = Err ValueError /\ fst (run64 (b64_lit 9 1) [b64_lit 8 1; S754_nan] 15) = Err ValueError
  /\ sign64 (S754_finite true 1 (-1074)) = Ok (-1) /\ sign64 (S754_zero true) = Err ZeroDivisionError.
Proof. vm_compute. repeat split. Qed.
Example C110_hypotheses :
  let l := [b64_lit 8 1; b64_lit 1 10; b64_lit (-5) 10] in let s := start Z (zrange 0 3) (0, @nofZ F64 _ 0) in let f k := nth (Z.to_nat k) l (S754_zero false) in
  temps Z s = [] /\ zlen (dom Z s) - 1 <= 2 ^ Z.max 0 15 /\
  (forall i c, 0 <= i -> nth_error (dom Z s) (Z.to_nat i) = Some c -> tab64 (b64_lit 9 1) l c (nofZ 135) = Ok (f i) /\ finite64 (f i) = true) /\
  (forall i j, 0 <= i < j -> j < zlen (dom Z s) -> (bval (f j) < bval (f i))%R) /\ (0 < bval (f (2 - 1)%Z))%R /\ (bval (f 2%Z) < 0)%R.
Proof.
  cbv zeta. split; [reflexivity|]. split; [vm_compute; discriminate|]. split.
  - intros i c Hi Hc. assert (i < 3). { assert (Z.to_nat i < 3)%nat by (change 3%nat with (length (zrange 0 3)); apply nth_error_Some; cbn in Hc |- *; congruence). lia. }
    assert (Hd : i = 0 \/ i = 1 \/ i = 2) by lia. decompose [or] Hd; subst i; cbn in Hc; injection Hc as <-; vm_compute; auto.
  - assert (T : forall x y, finite64 x = true -> finite64 y = true -> SFltb x y = true -> (bval x < bval y)%R) by (intros; now apply SFltb_iff). split.
    + cbn [dom start]. change (zlen (zrange 0 3)) with 3. intros i j Hi Hj.
      assert (Hd : i = 0 \/ i = 1) by lia. assert (Hd' : j = 1 \/ j = 2) by lia. decompose [or] Hd; subst i; decompose [or] Hd'; subst j; try lia; apply T; vm_compute; reflexivity.
    + split; [change 0%R with (bval (S754_zero false))|change 0%R with (bval (S754_zero false))]; apply T; vm_compute; reflexivity.
Qed.

(** ** C112: the number of boreholes along a side, with doubles (utilities.py:79-81) *)
(** rounding down: the count of exact arithmetic, or one more when the row of that many boreholes overshoots the length by a factor of at most 1 + 2^-53 *)
Theorem C112_round_down_partial :
  forall l b : b64, finite64 l = true -> finite64 b = true -> (0 < bval b)%R -> (0 <= bval l)%R -> (bval l / bval b < p2 52)%R ->
  exists n, number_of_boreholes l b false = Ok n /\
  (n = Rfloor (bval l / bval b) + 1 \/ n = Rfloor (bval l / bval b) + 2 /\ (IZR (n - 1) * bval b <= bval l * (1 + p2 (-53)))%R).
Proof. exact number_down64. Qed.
(** rounding up: the count of exact arithmetic, or one less when the row of that many boreholes falls short by a factor of at most 1 - 2^-53 *)
Theorem C112_round_up_partial :
  forall l b : b64, finite64 l = true -> finite64 b = true -> (0 < bval b)%R -> (p2 (-1022) <= bval l / bval b < p2 52)%R ->
  exists n, number_of_boreholes l b true = Ok n /\ 2 <= n /\
  (n = Rceil (bval l / bval b) + 1 \/ n = Rceil (bval l / bval b) /\ (bval l * (1 - p2 (-53)) <= IZR (n - 1) * bval b)%R).
Proof. exact number_up64. Qed.
(** counting the boreholes along a side made for n of them misses n by at most one *)
Theorem C112_round_trip_partial :
  forall n (b : b64), 2 <= n <= 2 ^ 50 -> finite64 b = true -> (p2 (-1022) <= bval b)%R -> (IZR (n - 1) * bval b <= p2 1023)%R ->
  exists d u, number_of_boreholes (length_of_side n b) b false = Ok d /\ number_of_boreholes (length_of_side n b) b true = Ok u /\
  (d = n - 1 \/ d = n) /\ (u = n \/ u = n + 1).
Proof. exact round_trip64. Qed.

(** 0.5 m by 0.1 m: six boreholes, whose row is longer than the side *)
Theorem C112_round_down_refuted :
  exists (l b : b64) n, finite64 l = true /\ finite64 b = true /\ (0 < bval b)%R /\ number_of_boreholes l b false = Ok n /\ (bval l < IZR (n - 1) * bval b)%R
    /\ n <> Rfloor (bval l / bval b) + 1.
Proof.
  assert (P : (0 < bval (b64_lit 1 10))%R) by (change 0%R with (bval (S754_zero false)); apply SFltb_iff; reflexivity).
  assert (L : (bval (b64_lit 5 10) < IZR (6 - 1) * bval (b64_lit 1 10))%R).
  { set (x := b64_lit 5 10). set (y := b64_lit 1 10). vm_compute in x, y. subst x y. cbn [bval]. rewrite !p2_neg by lia. cbn. lra. }
  exists (b64_lit 5 10), (b64_lit 1 10), 6. split; [reflexivity|]. split; [reflexivity|]. split; [exact P|]. split; [reflexivity|]. split; [exact L|].
  intros E. assert (F : Rfloor (bval (b64_lit 5 10) / bval (b64_lit 1 10)) = 5) by lia. pose proof (Rfloor_spec (bval (b64_lit 5 10) / bval (b64_lit 1 10))) as [S _]. rewrite F in S.
  apply (Rmult_le_compat_r (bval (b64_lit 1 10))) in S; [|lra]. replace (bval (b64_lit 5 10) / bval (b64_lit 1 10) * bval (b64_lit 1 10))%R with (bval (b64_lit 5 10)) in S by (field; lra).
  change (6 - 1) with 5 in L. lra.
Qed.
(** 0.9 m by 0.3 m: four boreholes, whose row is shorter than the side *)
Theorem C112_round_up_refuted :
  exists (l b : b64) n, finite64 l = true /\ finite64 b = true /\ (0 < bval b)%R /\ number_of_boreholes l b true = Ok n /\ (IZR (n - 1) * bval b < bval l)%R
    /\ n <> Rceil (bval l / bval b) + 1.
Proof.
  assert (P : (0 < bval (b64_lit 3 10))%R) by (change 0%R with (bval (S754_zero false)); apply SFltb_iff; reflexivity).
  assert (L : (IZR (4 - 1) * bval (b64_lit 3 10) < bval (b64_lit 9 10))%R).
  { set (x := b64_lit 9 10). set (y := b64_lit 3 10). vm_compute in x, y. subst x y. cbn [bval]. rewrite !p2_neg by lia. cbn. lra. }
  exists (b64_lit 9 10), (b64_lit 3 10), 4. split; [reflexivity|]. split; [reflexivity|]. split; [exact P|]. split; [reflexivity|]. split; [exact L|].
  intros E. assert (F : Rceil (bval (b64_lit 9 10) / bval (b64_lit 3 10)) = 3) by lia. pose proof (Rceil_spec (bval (b64_lit 9 10) / bval (b64_lit 3 10))) as [_ S]. rewrite F in S.
  apply (Rmult_le_compat_r (bval (b64_lit 3 10))) in S; [|lra]. replace (bval (b64_lit 9 10) / bval (b64_lit 3 10) * bval (b64_lit 3 10))%R with (bval (b64_lit 9 10)) in S by (field; lra).
  change (4 - 1) with 3 in L. lra.
Qed.
(** a side made for four boreholes 3.04 m apart has room for five, one made for four 3.05 m apart for only three *)
Theorem C112_round_trip_refuted :
  exists (n : Z) (b b' : b64), finite64 b = true /\ finite64 b' = true /\
  number_of_boreholes (length_of_side n b) b true = Ok (n + 1) /\ number_of_boreholes (length_of_side n b') b' false = Ok (n - 1).
Proof. exists 4, (b64_lit 304 100), (b64_lit 305 100). repeat split; vm_compute; reflexivity. Qed.
Example C112_example : number_of_boreholes (b64_lit 21 1) (b64_lit 5 1) true = Ok 6 /\ number_of_boreholes (b64_lit 21 1) (b64_lit 5 1) false = Ok 5
  /\ number_of_boreholes (b64_lit 33 10) (b64_lit 11 10) false = Ok 3 /\ number_of_boreholes (b64_lit 33 10) (b64_lit 11 10) true = Ok 4.
Proof. vm_compute. repeat split. Qed.

(** ** C113: a grid of doubles (coordinates.py:28-36) *)
(** every coordinate is within a relative 2^-53 of its place, no two boreholes coincide, and they keep the spacing but for a relative 2^-52 per borehole in a row *)
Theorem C113_rectangle :
  forall Nx Ny (Bx By : b64), finite64 Bx = true -> finite64 By = true -> 0 <= Nx <= 2 ^ 52 -> 0 <= Ny <= 2 ^ 52 ->
  (p2 (-1022) <= bval Bx)%R -> (p2 (-1022) <= bval By)%R -> (IZR (Nx - 1) * bval Bx <= p2 1023)%R -> (IZR (Ny - 1) * bval By <= p2 1023)%R ->
  exists f, rectangle Nx Ny Bx By = Ok f /\ zlen f = Nx * Ny /\
  (forall p, In p f -> exists i j, 0 <= i < Nx /\ 0 <= j < Ny /\
     (Rabs (bval (fst p) - IZR i * bval Bx) <= p2 (-53) * (IZR i * bval Bx))%R /\ (Rabs (bval (snd p) - IZR j * bval By) <= p2 (-53) * (IZR j * bval By))%R) /\
  (forall i j, 0 <= i < Nx -> 0 <= j < Ny -> exists p, In p f /\
     (Rabs (bval (fst p) - IZR i * bval Bx) <= p2 (-53) * (IZR i * bval Bx))%R /\ (Rabs (bval (snd p) - IZR j * bval By) <= p2 (-53) * (IZR j * bval By))%R) /\
  forall d, (0 < d)%R -> (d <= bval Bx * (1 - p2 (-52) * IZR (Nx - 1)))%R -> (d <= bval By * (1 - p2 (-52) * IZR (Ny - 1)))%R -> separated d (real_field f).
Proof.
  intros Nx Ny Bx By FX FY HNx HNy HX HY MX MY. destruct (rectangle64 Nx Ny Bx By FX FY HNx HNy HX HY MX MY) as (f & E & L & I & S).
  pose proof (p2_pos (-1022)) as P.
  assert (C : forall i n (B : b64), finite64 B = true -> 0 <= i < n -> n <= 2 ^ 52 -> (p2 (-1022) <= bval B)%R -> (IZR (n - 1) * bval B <= p2 1023)%R -> (Rabs (coord i B - IZR i * bval B) <= p2 (-53) * (IZR i * bval B))%R).
  { clear - P. intros i n B FB Hi Hn HB M. apply coord64; auto; [lia|]. eapply Rle_trans; [|exact M]. apply Rmult_le_compat_r; [lra|apply IZR_le; lia]. }
  exists f. split; [exact E|]. split; [exact L|]. split; [|split].
  - intros p Hp. assert (Q : In (bval (fst p), bval (snd p)) (real_field f)) by (unfold real_field; now apply (in_map (fun p => (bval (fst p), bval (snd p))))).
    apply I in Q as (i & j & Hi & Hj & [= -> ->]). exists i, j. split; [exact Hi|]. split; [exact Hj|]. split; [apply (C i Nx)|apply (C j Ny)]; auto; lia.
  - intros i j Hi Hj. assert (Q : In (coord i Bx, coord j By) (real_field f)) by (apply I; eauto).
    apply in_map_iff in Q as (p & [= Ex Ey] & Hp). exists p. split; [exact Hp|]. rewrite Ex, Ey. split; [apply (C i Nx)|apply (C j Ny)]; auto; lia.
  - assert (E2 : p2 (-52) = (2 * u64)%R) by (unfold u64; change (-52) with (-53 + 1); rewrite p2_succ; ring).
    intros d Hd H1 H2. rewrite E2 in *. apply S; auto; lra.
Qed.
(** a row of n boreholes spread over a length ends at that length up to a relative 2^-51 (utilities.py:89-91) *)
Theorem C113_row_fills_length_partial :
  forall (l : b64) n B, finite64 l = true -> 2 <= n <= 2 ^ 52 -> (p2 (-900) <= bval l <= p2 900)%R -> spacing_along_length l n = Ok B ->
  exists f p, rectangle n 1 B B = Ok f /\ nth_error f (Z.to_nat (n - 1)) = Some p /\ (Rabs (bval (fst p) - bval l) <= p2 (-51) * bval l)%R /\ bval (snd p) = 0%R.
Proof. exact row64. Qed.
(** twelve boreholes over 50 m: the last one lies beyond *)
Theorem C113_row_fills_length_refuted :
  exists (l B : b64) n f p, finite64 l = true /\ (p2 (-900) <= bval l <= p2 900)%R /\ 2 <= n /\ spacing_along_length l n = Ok B /\ rectangle n 1 B B = Ok f /\ nth_error f (Z.to_nat (n - 1)) = Some p /\ (bval l < bval (fst p))%R.
Proof.
  exists (b64_lit 50 1), (b64_lit 50 11), 12, (map (fun i => (nmul (nofZ i) (b64_lit 50 11), S754_zero false)) (zrange 0 12)), (nmul (nofZ 11) (b64_lit 50 11), S754_zero false).
  split; [reflexivity|]. split.
  { pose proof (range64 (b64_lit 50 1) 7036874417766400 (-47) eq_refl eq_refl). pose proof (p2_le (-900) (-47) ltac:(lia)). pose proof (p2_le (-47 + 53) 900 ltac:(lia)). lra. }
  split; [lia|]. split; [reflexivity|]. split; [vm_compute; reflexivity|]. split; [vm_compute; reflexivity|]. apply SFltb_iff; vm_compute; reflexivity.
Qed.
Example C113_example : rectangle 3 2 (b64_lit 1 10) (b64_lit 5 1) = Ok (map (fun p => (b64_lit (fst p) 10, b64_lit (snd p) 1)) [(0, 0); (0, 5); (1, 0); (1, 5); (2, 0); (2, 5)]).
Proof. vm_compute. reflexivity. Qed.

(** ** C114: the rectangular candidate fields, with doubles (domains.py:31-88) *)
(** for lengths and spacings of ordinary size the candidates are always produced; each one has a borehole, stays within the land up to a relative 2^-50
    and keeps the minimum spacing up to a relative 2^-20 *)
Theorem C114_rectangular :
  forall lx ly bmin bmax : b64, ordinary_lengths lx ly bmin bmax ->
  exists d, rectangular lx ly bmin bmax = Ok d /\ forall f, In f d -> (1 <= zlen f) /\
    inside (bval lx * (1 + p2 (-50))) (bval ly * (1 + p2 (-50))) (real_field f) /\ separated (bval bmin * (1 - p2 (-20))) (real_field f).
Proof.
  intros lx ly bmin bmax H. destruct (rectangular64 lx ly bmin bmax H) as (d & E & G). exists d. split; [exact E|]. intros f Hf. apply G in Hf. unfold good64 in Hf.
  assert (E50 : p2 (-50) = (8 * u64)%R) by (unfold u64; change (-50) with (3 + -53); rewrite p2_add, (p2_Z 3) by lia; reflexivity). rewrite E50. exact Hf.
Qed.
(** the inputs of the next two statements: 50 m by 20 m, spacings from 4.5 m to 4.6 m *)
Lemma ordinary_case : ordinary_lengths (b64_lit 50 1) (b64_lit 20 1) (b64_lit 45 10) (b64_lit 46 10).
Proof.
  pose proof (range64 (b64_lit 50 1) 7036874417766400 (-47) eq_refl eq_refl). pose proof (range64 (b64_lit 20 1) 5629499534213120 (-48) eq_refl eq_refl).
  pose proof (range64 (b64_lit 45 10) 5066549580791808 (-50) eq_refl eq_refl). pose proof (range64 (b64_lit 46 10) 5179139571476070 (-50) eq_refl eq_refl).
  pose proof (p2_le (-300) (-50) ltac:(lia)). pose proof (p2_le (-50) (-48) ltac:(lia)). pose proof (p2_le (-48) (-47) ltac:(lia)).
  pose proof (p2_le 3 300 ltac:(lia)). pose proof (p2_le 5 300 ltac:(lia)). pose proof (p2_le 6 300 ltac:(lia)).
  change (-47 + 53) with 6 in *. change (-48 + 53) with 5 in *. change (-50 + 53) with 3 in *.
  split; [repeat split|]. split; [repeat split; lra|].
  assert (E : bval (b64_lit 50 1) = 50%R /\ bval (b64_lit 20 1) = 20%R /\ (4 <= bval (b64_lit 45 10))%R /\ (bval (b64_lit 46 10) <= 5)%R).
  { set (a := b64_lit 50 1). set (b := b64_lit 20 1). set (c := b64_lit 45 10). set (d := b64_lit 46 10). vm_compute in a, b, c, d. subst a b c d. cbn [bval].
    rewrite !p2_neg by lia. cbn [Z.opp Z.pow Z.pow_pos Pos.iter Z.mul Pos.mul]. repeat split; lra. }
  destruct E as (-> & -> & E3 & E4). pose proof (p2_le 4 30 ltac:(lia)) as P4. pose proof (p2_le 0 50 ltac:(lia)) as P0. change (p2 0) with 1%R in P0.
  rewrite (p2_Z 4) in P4 by lia. change (2 ^ 4) with 16 in P4. repeat split; nra.
Qed.
(** the land limit does not hold exactly *)
Theorem C114_within_land_refuted :
  exists (lx ly bmin bmax : b64) d f p, ordinary_lengths lx ly bmin bmax /\ rectangular lx ly bmin bmax = Ok d /\ In f d /\ In p f /\ (bval lx < bval (fst p))%R.
Proof.
  destruct (rectangular (b64_lit 50 1) (b64_lit 20 1) (b64_lit 45 10) (b64_lit 46 10)) as [d|] eqn:E; [|vm_compute in E; discriminate].
  exists (b64_lit 50 1), (b64_lit 20 1), (b64_lit 45 10), (b64_lit 46 10), d, (nth 11 d []), (nth 11 (nth 11 d []) (S754_nan, S754_nan)).
  split; [exact ordinary_case|]. split; [exact E|]. vm_compute in E. injection E as <-.
  split; [apply nth_In; vm_compute; lia|]. split; [apply nth_In; vm_compute; lia|]. apply SFltb_iff; vm_compute; reflexivity.
Qed.
Example C114_example : (let! d := rectangular (b64_lit 50 1) (b64_lit 20 1) (b64_lit 45 10) (b64_lit 46 10) in Ok (map zlen d)) =
  Ok [1; 2; 3; 4; 5; 6; 7; 8; 9; 10; 11; 12; 24; 36; 48; 60].
Proof. vm_compute. reflexivity. Qed.

Print Assumptions C111_operations.
Print Assumptions C111_exact_operations.
Print Assumptions C111_relative_error.
Print Assumptions C110_comparisons.
Print Assumptions C110_sign.
Print Assumptions C110_selected_field_meets_limits.
Print Assumptions C110_smallest_adequate_field.
Print Assumptions C112_round_down_partial.
Print Assumptions C112_round_up_partial.
Print Assumptions C112_round_trip_partial.
Print Assumptions C112_round_down_refuted.
Print Assumptions C112_round_up_refuted.
Print Assumptions C112_round_trip_refuted.
Print Assumptions C113_rectangle.
Print Assumptions C113_row_fills_length_partial.
Print Assumptions C113_row_fills_length_refuted.
Print Assumptions C114_rectangular.
Print Assumptions C114_within_land_refuted.
