(** IEEE binary64 numbers of the standard library (SpecFloat) as real numbers: comparisons are exact, every operation of the
    model returns the exact result rounded to nearest.  Used by Binary64.v and Properties_Float.v. *)
From Coq Require Import ZArith Reals SpecFloat Bool Lia Lra.
From Verif Require Import Base Num.
Open Scope Z_scope.

(** 2^e, any integer e *)
Definition p2 (e : Z) : R := powerRZ 2 e.
(** the real number a double stands for (0 for infinities and nan) *)
Definition bval (x : b64) : R :=
  match x with S754_finite s m e => ((if s then -1 else 1) * (IZR (Zpos m) * p2 e))%R | _ => 0%R end.
(** a finite double in the format (53 bits, exponents of binary64) *)
Definition finite64 (x : b64) : bool :=
  match x with S754_zero _ => true | S754_finite _ m e => bounded 53 1024 m e | _ => false end.

(** ** powers of two *)
Lemma p2_pos e : (0 < p2 e)%R.
Proof. apply powerRZ_lt. lra. Qed.
Lemma p2_add a b : p2 (a + b) = (p2 a * p2 b)%R.
Proof. apply powerRZ_add. lra. Qed.
Lemma p2_Z e : 0 <= e -> p2 e = IZR (2 ^ e).
Proof.
  intros He. unfold p2. rewrite <- (Z2Nat.id e) by lia. rewrite <- pow_powerRZ, <- (pow_IZR 2). reflexivity.
Qed.
Lemma p2_split a b : a <= b -> p2 b = (IZR (2 ^ (b - a)) * p2 a)%R.
Proof. intros H. rewrite <- p2_Z by lia. rewrite <- p2_add. f_equal. lia. Qed.
Lemma p2_le a b : a <= b -> (p2 a <= p2 b)%R.
Proof.
  intros H. rewrite (p2_split a b H). pose proof (p2_pos a). assert (1 <= IZR (2 ^ (b - a)))%R; [|nra].
  apply (IZR_le 1). assert (0 < 2 ^ (b - a)) by (apply Z.pow_pos_nonneg; lia). lia.
Qed.
Lemma p2_succ e : p2 (e + 1) = (2 * p2 e)%R.
Proof. rewrite p2_add. change (p2 1) with (powerRZ 2 1). rewrite powerRZ_1. ring. Qed.

(** ** number of binary digits *)
Lemma digits2_pos_bounds m : 2 ^ (Zpos (digits2_pos m) - 1) <= Zpos m < 2 ^ Zpos (digits2_pos m).
Proof.
  assert (S : forall p, 2 ^ Zpos (Pos.succ p) = 2 * 2 ^ Zpos p) by (intros p; rewrite Pos2Z.inj_succ; apply Z.pow_succ_r; lia).
  assert (S' : forall p, 2 ^ (Zpos (Pos.succ p) - 1) = 2 * 2 ^ (Zpos p - 1)).
  { intros p. replace (Zpos (Pos.succ p) - 1) with (Z.succ (Zpos p - 1)) by lia. apply Z.pow_succ_r. lia. }
  induction m as [m IH|m IH|]; cbn [digits2_pos].
  - rewrite S, S'. lia.
  - rewrite S, S'. lia.
  - cbn. lia.
Qed.
Lemma Zdigits2_bounds m : 0 < m -> 2 ^ (Zdigits2 m - 1) <= m < 2 ^ Zdigits2 m.
Proof. destruct m as [|m|m]; [lia| |lia]. intros _. apply digits2_pos_bounds. Qed.
Lemma Zdigits2_nonneg m : 0 <= Zdigits2 m.
Proof. destruct m; cbn; lia. Qed.
(** digits are determined by the bounds *)
Lemma Zdigits2_unique m d : 0 < d -> 2 ^ (d - 1) <= m < 2 ^ d -> Zdigits2 m = d.
Proof.
  intros Hd [H1 H2]. assert (0 < m) by (assert (0 < 2 ^ (d - 1)) by (apply Z.pow_pos_nonneg; lia); lia).
  destruct (Zdigits2_bounds m) as [B1 B2]; auto. assert (Hp := Zdigits2_nonneg m).
  assert (~ Zdigits2 m < d).
  { intros L. assert (2 ^ Zdigits2 m <= 2 ^ (d - 1)) by (apply Z.pow_le_mono_r; lia). lia. }
  assert (~ d < Zdigits2 m).
  { intros L. assert (2 ^ d <= 2 ^ (Zdigits2 m - 1)) by (apply Z.pow_le_mono_r; lia). lia. }
  lia.
Qed.
Lemma Zdigits2_le m d : 0 <= d -> 0 <= m < 2 ^ d -> Zdigits2 m <= d.
Proof.
  intros Hd [H1 H2]. destruct (Z.eq_dec m 0) as [->|]; [cbn; lia|]. destruct (Zdigits2_bounds m) as [B1 _]; [lia|].
  destruct (Z_le_gt_dec (Zdigits2 m) d); auto. assert (2 ^ d <= 2 ^ (Zdigits2 m - 1)) by (apply Z.pow_le_mono_r; lia). lia.
Qed.
Lemma Zdigits2_ge m d : 0 < m -> 2 ^ d <= m -> d < Zdigits2 m.
Proof.
  intros Hm H. destruct (Zdigits2_bounds m) as [_ B2]; auto. destruct (Z_lt_le_dec d (Zdigits2 m)); auto. 
  assert (2 ^ Zdigits2 m <= 2 ^ d) by (apply Z.pow_le_mono_r; pose proof (Zdigits2_nonneg m); lia). lia.
Qed.

(** ** comparisons *)
Lemma bounded_facts m e : bounded 53 1024 m e = true ->
  -1074 <= e <= 971 /\ Zpos m < 2 ^ 53 /\ (-1074 < e -> 2 ^ 52 <= Zpos m).
Proof.
  unfold bounded, canonical_mantissa, fexp, emin. rewrite andb_true_iff. intros [H1 H2].
  apply Zeq_bool_eq in H1. apply Zle_bool_imp_le in H2. pose proof (digits2_pos_bounds m) as [B1 B2].
  assert (Zpos (digits2_pos m) <= 53) by lia.
  split; [lia|]. split.
  - assert (2 ^ Zpos (digits2_pos m) <= 2 ^ 53) by (apply Z.pow_le_mono_r; lia). lia.
  - intros He. replace (Zpos (digits2_pos m)) with 53 in B1 by lia. exact B1.
Qed.
Lemma bounded_iff m e : bounded 53 1024 m e = true <->
  -1074 <= e <= 971 /\ Zpos m < 2 ^ 53 /\ (-1074 < e -> 2 ^ 52 <= Zpos m).
Proof.
  split; [apply bounded_facts|]. intros (He & Hm & Hn).
  assert (D : Zpos (digits2_pos m) <= 53) by (apply (Zdigits2_le (Zpos m)); lia).
  unfold bounded, canonical_mantissa, fexp, emin. apply andb_true_iff. split; [|apply Zle_imp_le_bool; lia].
  apply Zeq_is_eq_bool. destruct (Z.eq_dec e (-1074)) as [->|]; [lia|].
  assert (52 < Zdigits2 (Zpos m)) by (apply Zdigits2_ge; lia). cbn in H. lia.
Qed.

Lemma mag_lt m1 e1 m2 e2 : bounded 53 1024 m1 e1 = true -> bounded 53 1024 m2 e2 = true -> e1 < e2 ->
  (IZR (Zpos m1) * p2 e1 < IZR (Zpos m2) * p2 e2)%R.
Proof.
  intros B1 B2 L. apply bounded_facts in B1 as (H1 & H2 & _). apply bounded_facts in B2 as (H3 & _ & H4).
  rewrite (p2_split e1 e2) by lia. rewrite <- Rmult_assoc. apply Rmult_lt_compat_r; [apply p2_pos|].
  rewrite <- mult_IZR. apply IZR_lt. specialize (H4 ltac:(lia)).
  assert (2 ^ 1 <= 2 ^ (e2 - e1)) by (apply Z.pow_le_mono_r; lia). nia.
Qed.

Definition cmp_spec (c : comparison) (a b : R) : Prop := match c with Lt => (a < b)%R | Eq => a = b | Gt => (b < a)%R end.
Lemma mag_compare m1 e1 m2 e2 : bounded 53 1024 m1 e1 = true -> bounded 53 1024 m2 e2 = true ->
  cmp_spec (match Z.compare e1 e2 with Lt => Lt | Gt => Gt | Eq => Pcompare m1 m2 Eq end) (IZR (Zpos m1) * p2 e1) (IZR (Zpos m2) * p2 e2).
Proof.
  intros B1 B2. destruct (Z.compare_spec e1 e2) as [->|L|L]; cbn [cmp_spec]; [|now apply mag_lt|now apply mag_lt].
  change (Pcompare m1 m2 Eq) with (m1 ?= m2)%positive. pose proof (p2_pos e2) as P.
  destruct (Pos.compare_spec m1 m2) as [->|L|L]; cbn [cmp_spec]; [reflexivity| |].
  - apply Rmult_lt_compat_r; auto. apply IZR_lt. lia.
  - apply Rmult_lt_compat_r; auto. apply IZR_lt. lia.
Qed.
Lemma mag_pos m e : (0 < IZR (Zpos m) * p2 e)%R.
Proof. apply Rmult_lt_0_compat; [apply (IZR_lt 0); lia|apply p2_pos]. Qed.

Lemma SFcompare_spec x y : finite64 x = true -> finite64 y = true ->
  exists c, SFcompare x y = Some c /\ cmp_spec c (bval x) (bval y).
Proof.
  destruct x as [s1|s1| |s1 m1 e1], y as [s2|s2| |s2 m2 e2]; try discriminate; cbn [finite64]; intros B1 B2; cbn [SFcompare bval].
  - exists Eq. split; [reflexivity|reflexivity].
  - eexists. split; [reflexivity|]. pose proof (mag_pos m2 e2). destruct s2; cbn [cmp_spec]; lra.
  - eexists. split; [reflexivity|]. pose proof (mag_pos m1 e1). destruct s1; cbn [cmp_spec]; lra.
  - eexists. split; [reflexivity|]. pose proof (mag_compare m1 e1 m2 e2 B1 B2) as C.
    pose proof (mag_pos m1 e1). pose proof (mag_pos m2 e2).
    destruct s1, s2; cbn [cmp_spec] in *; try lra.
    + destruct (Z.compare e1 e2); [destruct (Pcompare m1 m2 Eq)|..]; cbn [cmp_spec CompOpp] in *; lra.
    + destruct (Z.compare e1 e2); [destruct (Pcompare m1 m2 Eq)|..]; cbn [cmp_spec CompOpp] in *; lra.
Qed.
Lemma SFleb_iff x y : finite64 x = true -> finite64 y = true -> (SFleb x y = true <-> (bval x <= bval y)%R).
Proof.
  intros Hx Hy. destruct (SFcompare_spec x y Hx Hy) as (c & E & C). unfold SFleb. rewrite E.
  destruct c; cbn [cmp_spec] in C; split; intros; try discriminate; try reflexivity; lra.
Qed.
Lemma SFltb_iff x y : finite64 x = true -> finite64 y = true -> (SFltb x y = true <-> (bval x < bval y)%R).
Proof.
  intros Hx Hy. destruct (SFcompare_spec x y Hx Hy) as (c & E & C). unfold SFltb. rewrite E.
  destruct c; cbn [cmp_spec] in C; split; intros; try discriminate; try reflexivity; lra.
Qed.
Lemma b64_is0_iff x : finite64 x = true -> (b64_is0 x = true <-> bval x = 0%R).
Proof.
  destruct x as [s|s| |s m e]; try discriminate; intros _; cbn [b64_is0 bval]; [easy|].
  pose proof (mag_pos m e). split; [discriminate|]. destruct s; lra.
Qed.

(** ** rounding *)
(** v lies where the mantissa m, the exponent e and the location l say *)
Definition inb (v : R) (m e : Z) (l : location) : Prop :=
  match l with
  | loc_Exact => v = (IZR m * p2 e)%R
  | loc_Inexact c => (IZR m * p2 e < v < (IZR m + 1) * p2 e)%R /\ cmp_spec c v ((IZR m + / 2) * p2 e)
  end.
Lemma inb_range v m e l : inb v m e l -> (IZR m * p2 e <= v < (IZR m + 1) * p2 e)%R.
Proof. pose proof (p2_pos e). destruct l; cbn [inb]; [intros ->; split; nra|lra]. Qed.
Lemma loc_of_of m l : loc_of_shr_record (shr_record_of_loc m l) = l.
Proof. now destruct l as [|[]]. Qed.
Lemma shr_m_of m l : shr_m (shr_record_of_loc m l) = m.
Proof. now destruct l as [|[]]. Qed.

Lemma shr_1_spec v mrs e : 0 <= shr_m mrs -> inb v (shr_m mrs) e (loc_of_shr_record mrs) ->
  0 <= shr_m (shr_1 mrs) /\ shr_m (shr_1 mrs) = shr_m mrs / 2 /\ inb v (shr_m (shr_1 mrs)) (e + 1) (loc_of_shr_record (shr_1 mrs)).
Proof.
  destruct mrs as [m r s]. cbn [shr_m]. intros Hm H. pose proof (p2_pos e) as P.
  assert (D : exists k b, m = 2 * k + Z.b2z b /\ 0 <= k /\ shr_1 {| shr_m := m; shr_r := r; shr_s := s |} = {| shr_m := k; shr_r := b; shr_s := r || s |}).
  { destruct m as [|[p|p|]|]; [exists 0, false|exists (Zpos p), true|exists (Zpos p), false|exists 0, true|]; cbn [shr_1 Z.b2z]; try (split; [lia|split; [lia|reflexivity]]). lia. }
  destruct D as (k & b & -> & Hk & ->). cbn [shr_m]. split; [exact Hk|]. split.
  { destruct b; cbn [Z.b2z]; [apply (Z.div_unique _ _ _ 1)|apply (Z.div_unique _ _ _ 0)]; lia. }
  assert (E : IZR (2 * k + Z.b2z b) = (2 * IZR k + (if b then 1 else 0))%R) by (rewrite plus_IZR, mult_IZR; now destruct b).
  destruct b, r, s; cbn [loc_of_shr_record orb inb cmp_spec] in *; rewrite E in H; rewrite ?p2_succ; try (split; [split|]); try lra.
  all: rewrite H; nra.
Qed.

Lemma iter_shr_1 p : forall v mrs e, 0 <= shr_m mrs -> inb v (shr_m mrs) e (loc_of_shr_record mrs) ->
  let mrs' := iter_pos shr_1 p mrs in
  0 <= shr_m mrs' /\ shr_m mrs' = shr_m mrs / 2 ^ Zpos p /\ inb v (shr_m mrs') (e + Zpos p) (loc_of_shr_record mrs').
Proof.
  assert (D : forall a p q, 0 <= p -> 0 <= q -> a / 2 ^ p / 2 ^ q = a / 2 ^ (p + q)).
  { intros a q r Hq Hr. rewrite Z.pow_add_r by lia. apply Z.div_div; [apply Z.pow_nonzero; lia|apply Z.pow_pos_nonneg; lia]. }
  induction p as [p IH|p IH|]; intros v mrs e Hm H; cbn [iter_pos].
  - destruct (shr_1_spec v mrs e Hm H) as (A1 & A2 & A3).
    destruct (IH v _ _ A1 A3) as (B1 & B2 & B3). destruct (IH v _ _ B1 B3) as (C1 & C2 & C3).
    split; [exact C1|]. split.
    + rewrite C2, B2, A2. change (shr_m mrs / 2) with (shr_m mrs / 2 ^ Zpos 1). rewrite !D by lia. f_equal. f_equal. lia.
    + replace (e + Zpos p~1) with (e + 1 + Zpos p + Zpos p) by lia. exact C3.
  - destruct (IH v _ _ Hm H) as (B1 & B2 & B3). destruct (IH v _ _ B1 B3) as (C1 & C2 & C3).
    split; [exact C1|]. split.
    + rewrite C2, B2. rewrite !D by lia. f_equal. f_equal. lia.
    + replace (e + Zpos p~0) with (e + Zpos p + Zpos p) by lia. exact C3.
  - apply shr_1_spec; auto.
Qed.

(** after the first shift the mantissa fits the format *)
Lemma shr_fexp_spec v m e l : 0 <= m -> inb v m e l -> e <= fexp 53 1024 (Zdigits2 m + e) ->
  let '(mrs, e') := shr_fexp 53 1024 m e l in
  e' = fexp 53 1024 (Zdigits2 m + e) /\ 0 <= shr_m mrs < 2 ^ 53 /\ (-1074 < e' -> 2 ^ 52 <= shr_m mrs) /\ inb v (shr_m mrs) e' (loc_of_shr_record mrs).
Proof.
  intros Hm H He. unfold shr_fexp, shr. set (f := fexp 53 1024 (Zdigits2 m + e)) in *.
  assert (Hf : f = Z.max (Zdigits2 m + e - 53) (-1074)) by reflexivity. clearbody f.
  assert (Hn : exists n, f - e = n /\ 0 <= n) by (exists (f - e); lia). destruct Hn as (n & En & Hn). rewrite En.
  assert (Q : forall n, n = f - e -> 0 <= n -> 0 <= m / 2 ^ n < 2 ^ 53 /\ (-1074 < f -> 2 ^ 52 <= m / 2 ^ n)).
  { clear n En Hn. intros n En Hn. assert (P : 0 < 2 ^ n) by (apply Z.pow_pos_nonneg; lia).
    split.
    - split; [apply Z.div_pos; lia|]. destruct (Z.eq_dec m 0) as [->|]; [now rewrite Z.div_0_l by lia|].
      apply Z.div_lt_upper_bound; [lia|]. destruct (Zdigits2_bounds m) as [_ B]; [lia|]. rewrite <- Z.pow_add_r by lia.
      assert (2 ^ Zdigits2 m <= 2 ^ (n + 53)) by (apply Z.pow_le_mono_r; lia). lia.
    - intros Hlt. destruct (Z.eq_dec m 0) as [->|]; [cbn in *; lia|].
      apply Z.div_le_lower_bound; [lia|]. destruct (Zdigits2_bounds m) as [B _]; [lia|]. rewrite <- Z.pow_add_r by lia.
      assert (2 ^ (n + 52) = 2 ^ (Zdigits2 m - 1)) by (f_equal; lia). lia. }
  destruct n as [|n|n]; [| |lia].
  - split; [lia|]. rewrite shr_m_of, loc_of_of. assert (e = f) as -> by lia. destruct (Q 0) as [Q1 Q2]; [lia|lia|].
    rewrite Z.pow_0_r, Z.div_1_r in *. auto.
  - destruct (iter_shr_1 n v (shr_record_of_loc m l) e) as (A1 & A2 & A3); [now rewrite shr_m_of|now rewrite shr_m_of, loc_of_of|].
    rewrite shr_m_of in A2. replace (e + Zpos n) with f in * by lia. split; [reflexivity|]. rewrite A2 in *.
    destruct (Q (Zpos n)) as [Q1 Q2]; [lia|lia|]. auto.
Qed.

(** unit roundoff and half the least positive double *)
Definition u64 : R := p2 (-53).
Definition eta64 : R := p2 (-1075).
Definition sgn (s : bool) : R := if s then (-1)%R else 1%R.
Lemma bval_sgn s m e : bval (S754_finite s m e) = (sgn s * (IZR (Zpos m) * p2 e))%R.
Proof. reflexivity. Qed.
Lemma sgn_abs s : Rabs (sgn s) = 1%R.
Proof. unfold sgn. destruct s; [rewrite Rabs_left|rewrite Rabs_right]; lra. Qed.
Lemma sgn_sq s : (sgn s * sgn s = 1)%R.
Proof. unfold sgn. destruct s; lra. Qed.

Lemma round_mantissa v m e l : 0 <= m -> inb v m e l ->
  let M := round_nearest_even m l in m <= M <= m + 1 /\ (Rabs (IZR M * p2 e - v) <= / 2 * p2 e)%R.
Proof.
  intros Hm H. pose proof (p2_pos e) as P. cbv zeta.
  assert (T : forall M, M = m \/ M = m + 1 -> (IZR M * p2 e - / 2 * p2 e <= v <= IZR M * p2 e + / 2 * p2 e)%R ->
    m <= M <= m + 1 /\ (Rabs (IZR M * p2 e - v) <= / 2 * p2 e)%R).
  { intros M HM HV. split; [lia|]. apply Rabs_le. lra. }
  assert (E : IZR (m + 1) = (IZR m + 1)%R) by now rewrite plus_IZR.
  destruct l as [|c]; cbn [inb round_nearest_even] in *.
  - apply T; [lia|]. rewrite H. lra.
  - destruct H as [H1 H2]. destruct c; cbn [cmp_spec] in H2; [destruct (Z.even m)|..]; apply T; try lia; rewrite ?E; nra.
Qed.

(** a mantissa within half a unit is nearest among all doubles *)
Lemma nearest_mantissa v m e M y : (0 <= v)%R -> (IZR m * p2 e <= v)%R -> (-1074 < e -> 2 ^ 52 <= m) -> -1074 <= e ->
  (Rabs (IZR M * p2 e - v) <= / 2 * p2 e)%R -> finite64 y = true -> (Rabs (IZR M * p2 e - v) <= Rabs (bval y - v))%R.
Proof.
  intros V Hm Hn He HE Fy. pose proof (p2_pos e) as P.
  assert (K : forall k, (Rabs (IZR M * p2 e - v) <= Rabs (IZR k * p2 e - v))%R).
  { intros k. destruct (Z.eq_dec k M) as [->|N]; [lra|]. assert (1 <= Rabs (IZR k - IZR M))%R.
    { rewrite <- minus_IZR, <- abs_IZR. apply (IZR_le 1). lia. }
    assert (p2 e <= Rabs (IZR k * p2 e - IZR M * p2 e))%R.
    { rewrite <- Rmult_minus_distr_r, Rabs_mult, (Rabs_pos_eq (p2 e)) by lra. nra. }
    pose proof (Rabs_triang (IZR k * p2 e - v) (- (IZR M * p2 e - v))) as T. rewrite Rabs_Ropp in T.
    replace (IZR k * p2 e - v + - (IZR M * p2 e - v))%R with (IZR k * p2 e - IZR M * p2 e)%R in T by ring. lra. }
  assert (K0 : forall z, (z <= 0)%R -> (Rabs (IZR M * p2 e - v) <= Rabs (z - v))%R).
  { intros z Hz. eapply Rle_trans; [apply (K 0)|]. rewrite Rmult_0_l, !(Rabs_minus_sym _ v), !Rabs_pos_eq by lra. lra. }
  destruct y as [s|s| |s my ey]; try discriminate; [apply K0; cbn; lra|]. cbn [finite64] in Fy.
  apply bounded_facts in Fy as (Hy & Hmy & _). rewrite bval_sgn. pose proof (mag_pos my ey).
  destruct s; cbn [sgn]; [apply K0; lra|]. rewrite Rmult_1_l. destruct (Z_le_gt_dec e ey) as [L|L].
  - rewrite (p2_split e ey), <- Rmult_assoc, <- mult_IZR by lia. apply K.
  - specialize (Hn ltac:(lia)). apply IZR_le in Hn.
    assert (Hlt : (IZR (Zpos my) * p2 ey <= IZR (2 ^ 52) * p2 e)%R).
    { rewrite (p2_split ey e), <- Rmult_assoc, <- mult_IZR by lia. apply Rmult_le_compat_r; [apply Rlt_le, p2_pos|]. apply IZR_le.
      assert (2 ^ 1 <= 2 ^ (e - ey)) by (apply Z.pow_le_mono_r; lia). nia. }
    eapply Rle_trans; [apply (K (2 ^ 52))|]. rewrite !(Rabs_minus_sym _ v), !Rabs_pos_eq by nra. lra.
Qed.

(** correctly rounded: either the exact value rounds to an infinity, or the result is a double within half a unit *)
Lemma binary_round_aux_spec s v m e l : 0 <= m -> inb v m e l -> e <= fexp 53 1024 (Zdigits2 m + e) ->
  let r := binary_round_aux 53 1024 s m e l in
  (r = S754_infinity s /\ (p2 1024 * (1 - p2 (-54)) <= v)%R) \/
  (finite64 r = true /\ (bval r = 0 \/ 0 < sgn s * bval r)%R /\
   (Rabs (bval r - sgn s * v) <= Rmax (u64 * v) eta64)%R /\
   (forall k, v = IZR k * p2 (fexp 53 1024 (Zdigits2 m + e)) -> bval r = sgn s * v)%R /\
   (forall y, finite64 y = true -> (Rabs (bval r - sgn s * v) <= Rabs (bval y - sgn s * v))%R)).
Proof.
  intros Hm H He. cbv zeta. unfold binary_round_aux. pose proof (shr_fexp_spec v m e l Hm H He) as S.
  destruct (shr_fexp 53 1024 m e l) as [mrs e1]. destruct S as (Ee & Hm1 & Hn & Hi).
  destruct (round_mantissa v _ _ _ (proj1 Hm1) Hi) as [HM HE]. set (M := round_nearest_even _ _) in *.
  assert (He1 : -1074 <= e1) by (rewrite Ee; unfold fexp, emin; lia).
  assert (F : fexp 53 1024 (Zdigits2 M + e1) = if M =? 2 ^ 53 then e1 + 1 else e1).
  { unfold fexp, emin. destruct (Z.eqb_spec M (2 ^ 53)) as [->|N].
    - change (Zdigits2 (2 ^ 53)) with 54. lia.
    - assert (Zdigits2 M <= 53) by (apply Zdigits2_le; lia). destruct (Z.eq_dec e1 (-1074)) as [->|]; [lia|].
      assert (52 < Zdigits2 M) by (apply Zdigits2_ge; lia). lia. }
  assert (R1 : exists mrs2 e2, shr_fexp 53 1024 M e1 loc_Exact = (mrs2, e2) /\ (IZR (shr_m mrs2) * p2 e2 = IZR M * p2 e1)%R
     /\ 0 <= shr_m mrs2 < 2 ^ 53 /\ (-1074 < e2 -> 2 ^ 52 <= shr_m mrs2) /\ -1074 <= e2).
  { unfold shr_fexp. rewrite F. destruct (Z.eqb_spec M (2 ^ 53)) as [->|N].
    - replace (e1 + 1 - e1) with 1 by lia. cbn [shr]. eexists _, _. split; [reflexivity|].
      change (shr_m (iter_pos shr_1 1 (shr_record_of_loc (2 ^ 53) loc_Exact))) with 4503599627370496. rewrite p2_succ. split; [|split; [lia|split; lia]].
      change (2 ^ 53) with (2 * 4503599627370496). rewrite mult_IZR. lra.
    - rewrite Z.sub_diag. cbn [shr]. eexists _, _. split; [reflexivity|]. cbn [shr_m shr_record_of_loc]. split; [reflexivity|]. lia. }
  destruct R1 as (mrs2 & e2 & -> & EV & Hb & Hn2 & He2).
  pose proof (inb_range _ _ _ _ Hi) as Hr. pose proof (p2_pos e1) as P1.
  assert (V0 : (0 <= v)%R) by (assert (0 <= IZR (shr_m mrs))%R by (apply (IZR_le 0); lia); nra).
  assert (ERR : (/ 2 * p2 e1 <= Rmax (u64 * v) eta64)%R).
  { destruct (Z.eq_dec e1 (-1074)) as [->|].
    - eapply Rle_trans; [|apply Rmax_r]. unfold eta64. change (-1074) with (-1075 + 1). rewrite p2_succ. lra.
    - eapply Rle_trans; [|apply Rmax_l]. specialize (Hn ltac:(lia)). apply IZR_le in Hn.
      assert (IZR (2 ^ 52) * p2 e1 <= v)%R by nra. rewrite <- p2_Z in H0 by lia.
      assert (0 < u64)%R by apply p2_pos.
      assert (u64 * (p2 52 * p2 e1) = / 2 * p2 e1)%R; [|nra].
      rewrite <- Rmult_assoc. unfold u64. rewrite <- p2_add. change (-53 + 52) with (-1). pose proof (p2_succ (-1)) as E2. change (-1 + 1) with 0 in E2. change (p2 0) with 1%R in E2. nra. }
  assert (Z0' : forall k, v = (IZR k * p2 (fexp 53 1024 (Zdigits2 m + e)))%R -> (IZR M * p2 e1 = v)%R).
  { rewrite <- Ee. intros k Ev. rewrite Ev in Hr. assert (k = shr_m mrs) as ->.
    { assert (IZR (shr_m mrs) <= IZR k)%R by nra. assert (IZR k < IZR (shr_m mrs + 1))%R by (rewrite plus_IZR; nra).
      apply le_IZR in H0. apply lt_IZR in H1. lia. }
    unfold M. destruct (loc_of_shr_record mrs) as [|c]; [now rewrite Ev|]. destruct Hi as [Hi _]. lra. }
  assert (NE : forall y, finite64 y = true -> (Rabs (sgn s * (IZR M * p2 e1) - sgn s * v) <= Rabs (bval y - sgn s * v))%R).
  { assert (Q : forall y, finite64 y = true -> (Rabs (IZR M * p2 e1 - v) <= Rabs (bval y - v))%R) by (intros y Fy; apply (nearest_mantissa v (shr_m mrs)); auto; lra).
    intros y Fy. rewrite <- Rmult_minus_distr_l, Rabs_mult, sgn_abs, Rmult_1_l. destruct s; cbn [sgn].
    - assert (F' : finite64 (SFopp y) = true) by (destruct y; auto). specialize (Q _ F').
      replace (bval (SFopp y)) with (- bval y)%R in Q by (destruct y as [| | |[]]; cbn; lra).
      replace (bval y - -1 * v)%R with (- (- bval y - v))%R by ring. now rewrite Rabs_Ropp.
    - rewrite Rmult_1_l. auto. }
  destruct (shr_m mrs2) as [|p|p] eqn:Es; [| |lia].
  - right. split; [reflexivity|]. cbn [bval]. split; [now left|]. split; [|split; [intros k Ek; apply Z0' in Ek; rewrite <- Ek, <- EV; ring|]].
    2: { intros y Fy. specialize (NE y Fy). rewrite <- EV, Rmult_0_l, Rmult_0_r in NE. exact NE. }
    rewrite Rmult_0_l in EV. rewrite <- EV in HE. rewrite Rabs_minus_sym in HE. rewrite Rminus_0_r in HE.
    unfold sgn. replace (0 - (if s then -1 else 1) * v)%R with (if s then v else - v)%R by (destruct s; lra).
    destruct s; rewrite ?Rabs_Ropp; lra.
  - destruct (Zle_bool e2 (1024 - 53)) eqn:El.
    + apply Zle_bool_imp_le in El. right. split; [apply bounded_iff; lia|]. cbn [bval]. fold (sgn s).
      pose proof (mag_pos p e2). split; [right; unfold sgn; destruct s; lra|]. rewrite EV. split.
      * replace (sgn s * (IZR M * p2 e1) - sgn s * v)%R with (sgn s * (IZR M * p2 e1 - v))%R by ring.
        rewrite Rabs_mult. replace (Rabs (sgn s)) with 1%R; [lra|]. unfold sgn. destruct s; [rewrite Rabs_left|rewrite Rabs_right]; lra.
      * split; [intros k Ek; apply Z0' in Ek; now rewrite Ek|exact NE].
    + left. split; [reflexivity|]. assert (972 <= e2) by (rewrite Z.leb_gt in El; lia).
      specialize (Hn2 ltac:(lia)). apply IZR_le in Hn2.
      assert (L : (p2 1024 <= IZR M * p2 e1)%R).
      { rewrite <- EV. replace 1024 with (52 + 972) by lia. rewrite p2_add, (p2_Z 52) by lia.
        pose proof (p2_le 972 e2 ltac:(lia)). pose proof (p2_pos 972). assert (0 < IZR (2 ^ 52))%R by (apply (IZR_lt 0); lia). nra. }
      assert (E24 : p2 1024 = (p2 54 * p2 970)%R) by (rewrite <- p2_add; reflexivity).
      assert (E0 : (p2 1024 * (1 - p2 (-54)) = p2 1024 - p2 970)%R).
      { rewrite Rmult_minus_distr_l, <- p2_add. change (1024 + -54) with 970. ring. }
      rewrite E0. pose proof (p2_pos 970) as P970. destruct (Z_le_gt_dec e1 971) as [Le|Gt].
      * pose proof (p2_le e1 971 Le) as L1. change 971 with (970 + 1) in L1. rewrite p2_succ in L1.
        pose proof (Rle_abs (IZR M * p2 e1 - v)). lra.
      * specialize (Hn ltac:(lia)). apply IZR_le in Hn. rewrite <- p2_Z in Hn by lia. pose proof (p2_le 972 e1 ltac:(lia)) as L1.
        pose proof (p2_pos 52). pose proof (p2_pos 972). assert (p2 1024 = p2 52 * p2 972)%R by (rewrite <- p2_add; reflexivity). nra.
Qed.

(** [r] is a finite double nearest to [x] *)
Definition nearest (r : b64) (x : R) : Prop :=
  finite64 r = true /\ forall y, finite64 y = true -> (Rabs (bval r - x) <= Rabs (bval y - x))%R.
(** [r] is the real [x] rounded to nearest: an infinity only beyond the largest double, otherwise a nearest double, within relative
    error 2^-53 (or 2^-1075 near zero) and with the sign of [x] *)
Definition rounded (r : b64) (x : R) : Prop :=
  (exists s, r = S754_infinity s /\ p2 1024 * (1 - p2 (-54)) <= sgn s * x)%R \/
  (nearest r x /\ Rabs (bval r - x) <= Rmax (u64 * Rabs x) eta64 /\ 0 <= bval r * x)%R.

Lemma round_aux_rounded s v m e l : 0 <= m -> inb v m e l -> e <= fexp 53 1024 (Zdigits2 m + e) ->
  rounded (binary_round_aux 53 1024 s m e l) (sgn s * v).
Proof.
  intros Hm H He. assert (V : (0 <= v)%R).
  { apply inb_range in H. pose proof (p2_pos e). assert (0 <= IZR m)%R by (apply (IZR_le 0); lia). nra. }
  destruct (binary_round_aux_spec s v m e l Hm H He) as [(E & O)|(Fi & Sg & Er & _ & Ne)].
  - left. exists s. split; [exact E|]. rewrite <- Rmult_assoc, sgn_sq. lra.
  - right. split; [split; auto|]. rewrite Rabs_mult, sgn_abs, Rmult_1_l, (Rabs_pos_eq v V). split; [exact Er|].
    destruct Sg as [->|Sg]; [lra|]. rewrite <- Rmult_assoc. rewrite (Rmult_comm (bval _)). apply Rmult_le_pos; lra.
Qed.

Lemma digits_mul p q : Zdigits2 (Zpos p) <= Zdigits2 (Zpos (p * q)) /\ Zdigits2 (Zpos q) <= Zdigits2 (Zpos (p * q)).
Proof.
  assert (T : forall a b, Zdigits2 (Zpos a) <= Zdigits2 (Zpos (a * b))).
  { intros a b. pose proof (digits2_pos_bounds a) as [B1 _].
    assert (Zpos (digits2_pos a) - 1 < Zdigits2 (Zpos (a * b))); [|change (Zdigits2 (Zpos a)) with (Zpos (digits2_pos a)); lia].
    apply Zdigits2_ge; [lia|]. nia. }
  split; [apply T|]. rewrite Pos.mul_comm. apply T.
Qed.

Lemma sgn_xorb a b : sgn (xorb a b) = (sgn a * sgn b)%R.
Proof. unfold sgn. destruct a, b; cbn; lra. Qed.
Lemma rounded_0 s : rounded (S754_zero s) 0.
Proof.
  right. split; [split; [reflexivity|]|].
  { intros y _. cbn [bval]. rewrite Rminus_0_r, Rabs_R0. apply Rabs_pos. }
  cbn [bval]. rewrite Rminus_0_r, Rabs_R0. split; [|lra].
  eapply Rle_trans; [|apply Rmax_r]. apply Rlt_le, p2_pos.
Qed.

(** a nearest double does not lie beyond any double: in particular doubles are returned exactly *)
Lemma nearest_le r x y : nearest r x -> finite64 y = true -> (bval y <= x -> bval y <= bval r)%R.
Proof. intros [_ H] Fy L. specialize (H y Fy). rewrite (Rabs_minus_sym (bval y)), (Rabs_pos_eq (x - bval y)) in H by lra. unfold Rabs in H. destruct (Rcase_abs _); lra. Qed.
Lemma nearest_ge r x y : nearest r x -> finite64 y = true -> (x <= bval y -> bval r <= bval y)%R.
Proof. intros [_ H] Fy L. specialize (H y Fy). rewrite (Rabs_pos_eq (bval y - x)) in H by lra. pose proof (Rle_abs (bval r - x)). lra. Qed.
Lemma nearest_exact r y : nearest r (bval y) -> finite64 y = true -> bval r = bval y.
Proof. intros H Fy. apply Rle_antisym; [apply (nearest_ge _ _ _ H Fy)|apply (nearest_le _ _ _ H Fy)]; lra. Qed.
(** rounding is monotone *)
Lemma nearest_mono r x r' x' : nearest r x -> nearest r' x' -> (x < x' -> bval r <= bval r')%R.
Proof.
  intros [F H] [F' H'] L. specialize (H r' F'). specialize (H' r F). apply Rnot_lt_le. intros C.
  unfold Rabs in *. repeat destruct (Rcase_abs _); lra.
Qed.

(** ** product *)
Lemma SFmul_rounded x y : finite64 x = true -> finite64 y = true -> rounded (SFmul 53 1024 x y) (bval x * bval y).
Proof.
  destruct x as [s1|s1| |s1 m1 e1], y as [s2|s2| |s2 m2 e2]; try discriminate; cbn [finite64]; intros B1 B2.
  1-3: cbn [SFmul bval]; rewrite ?Rmult_0_l, ?Rmult_0_r; apply rounded_0.
  cbn [SFmul]. rewrite !bval_sgn.
  replace (sgn s1 * (IZR (Zpos m1) * p2 e1) * (sgn s2 * (IZR (Zpos m2) * p2 e2)))%R
    with (sgn (xorb s1 s2) * (IZR (Zpos (m1 * m2)) * p2 (e1 + e2)))%R by (rewrite sgn_xorb, Pos2Z.inj_mul, mult_IZR, p2_add; ring).
  apply round_aux_rounded; [lia|reflexivity|].
  apply bounded_facts in B1 as (H1 & _ & N1). apply bounded_facts in B2 as (H2 & _ & N2).
  destruct (digits_mul m1 m2) as [D1 D2]. unfold fexp, emin.
  destruct (Z.eq_dec e1 (-1074)) as [->|].
  - destruct (Z.eq_dec e2 (-1074)) as [->|]; [lia|].
    assert (52 < Zdigits2 (Zpos m2)) by (apply Zdigits2_ge; lia). lia.
  - assert (52 < Zdigits2 (Zpos m1)) by (apply Zdigits2_ge; lia). lia.
Qed.

(** ** quotient *)
Lemma new_location_spec v (n r d : Z) e : 0 < d -> 0 <= r < d -> (v = (IZR n + IZR r / IZR d) * p2 e)%R -> inb v n e (new_location d r).
Proof.
  intros Hd Hr Ev. pose proof (p2_pos e) as P. assert (D : (0 < IZR d)%R) by (apply (IZR_lt 0); lia).
  assert (Q : Zeq_bool r 0 = false -> (0 < IZR r / IZR d < 1)%R).
  { intros N. apply Zeq_bool_neq in N. split.
    - apply Rdiv_lt_0_compat; auto. apply (IZR_lt 0). lia.
    - apply (Rmult_lt_reg_r (IZR d)); auto. replace (IZR r / IZR d * IZR d)%R with (IZR r) by (field; lra). rewrite Rmult_1_l. apply IZR_lt. lia. }
  assert (H2 : (IZR (2 * r) = 2 * (IZR r / IZR d) * IZR d)%R) by (rewrite mult_IZR; field; lra).
  unfold new_location, new_location_even, new_location_odd.
  destruct (Z.even d) eqn:Ed; (destruct (Zeq_bool r 0) eqn:E0; [apply Zeq_bool_eq in E0; subst r; cbn [inb]; rewrite Ev; field; lra|]); specialize (Q eq_refl); cbn [inb]; (split; [rewrite Ev; nra|]).
  - destruct (Z.compare_spec (2 * r) d) as [L|L|L]; cbn [cmp_spec]; rewrite Ev.
    + apply (f_equal IZR) in L. assert (IZR r / IZR d = / 2)%R by nra. rewrite H. reflexivity.
    + apply IZR_lt in L. assert (IZR r / IZR d < / 2)%R by nra. nra.
    + apply IZR_lt in L. assert (/ 2 < IZR r / IZR d)%R by nra. nra.
  - assert (Odd : Z.even d = false -> d <> 2 * r) by (intros A ->; rewrite Z.even_mul in A; discriminate). specialize (Odd Ed).
    assert (C : match 2 * r + 1 ?= d with Gt => Gt | _ => Lt end = (2 * r ?= d)).
    { destruct (Z.compare_spec (2 * r + 1) d); symmetry; [apply Z.compare_lt_iff|apply Z.compare_lt_iff|apply Z.compare_gt_iff]; lia. }
    rewrite C. destruct (Z.compare_spec (2 * r) d) as [L|L|L]; cbn [cmp_spec]; rewrite Ev.
    + lia.
    + apply IZR_lt in L. assert (IZR r / IZR d < / 2)%R by nra. nra.
    + apply IZR_lt in L. assert (/ 2 < IZR r / IZR d)%R by nra. nra.
Qed.

Lemma SFdiv_rounded x y : finite64 x = true -> finite64 y = true -> bval y <> 0%R -> rounded (SFdiv 53 1024 x y) (bval x / bval y).
Proof.
  destruct x as [s1|s1| |s1 m1 e1], y as [s2|s2| |s2 m2 e2]; try discriminate; cbn [finite64]; intros B1 B2 Ny.
  1-3: cbn [SFdiv bval] in *; try (now elim Ny); unfold Rdiv; rewrite Rmult_0_l; apply rounded_0.
  cbn [SFdiv]. unfold SFdiv_core_binary. set (d1 := Zdigits2 (Zpos m1)). set (d2 := Zdigits2 (Zpos m2)).
  set (e' := Z.min (fexp 53 1024 (d1 + e1 - (d2 + e2))) (e1 - e2)). cbv zeta. set (s := e1 - e2 - e').
  assert (Hs : 0 <= s) by (unfold s, e'; lia).
  assert (Em : match s with Z0 => Zpos m1 | Zpos _ => Z.shiftl (Zpos m1) s | Zneg _ => 0 end = Zpos m1 * 2 ^ s).
  { destruct s; [cbn; lia|apply Z.shiftl_mul_pow2; lia|lia]. }
  rewrite Em. pose proof (Z_div_mod (Zpos m1 * 2 ^ s) (Zpos m2) ltac:(lia)) as DM. destruct (Z.div_eucl (Zpos m1 * 2 ^ s) (Zpos m2)) as [q r].
  destruct DM as [Eq Hr]. assert (P : 0 < 2 ^ s) by (apply Z.pow_pos_nonneg; lia).
  assert (Hq : 0 <= q) by nia.
  rewrite !bval_sgn. set (v := ((IZR q + IZR r / IZR (Zpos m2)) * p2 e')%R).
  assert (D2 : (0 < IZR (Zpos m2))%R) by (apply (IZR_lt 0); lia). pose proof (p2_pos e2).
  replace (sgn s1 * (IZR (Zpos m1) * p2 e1) / (sgn s2 * (IZR (Zpos m2) * p2 e2)))%R with (sgn (xorb s1 s2) * v)%R.
  2: { assert (EV : (v = IZR (Zpos m1) * IZR (2 ^ s) / IZR (Zpos m2) * p2 e')%R).
       { unfold v. rewrite <- mult_IZR, Eq, plus_IZR, mult_IZR. field. lra. }
       rewrite EV, sgn_xorb. assert (E2 : p2 e1 = (IZR (2 ^ s) * p2 e' * p2 e2)%R) by (rewrite <- p2_Z by lia; rewrite <- !p2_add; f_equal; unfold s; lia).
       rewrite E2. destruct s2; unfold sgn; field; lra. }
  apply round_aux_rounded; [exact Hq|now apply new_location_spec; try lia|].
  assert (Dq : d1 + s - d2 <= Zdigits2 q).
  { destruct (Z_le_gt_dec (d1 + s - d2) 0); [pose proof (Zdigits2_nonneg q); lia|].
    pose proof (Zdigits2_bounds (Zpos m1) ltac:(lia)) as [A1 _]. pose proof (Zdigits2_bounds (Zpos m2) ltac:(lia)) as [_ A2]. fold d1 in A1. fold d2 in A2.
    assert (Hd1 : 0 < d1) by (unfold d1; cbn; lia). assert (Hd2 : 0 < d2) by (unfold d2; cbn; lia).
    assert (G : 2 ^ (d1 + s - d2 - 1) <= q).
    { assert (2 ^ (d1 - 1) * 2 ^ s = 2 ^ (d1 + s - d2 - 1) * 2 ^ d2) by (rewrite <- !Z.pow_add_r by lia; f_equal; lia).
      assert (2 ^ (d1 + s - d2 - 1) * Zpos m2 < (q + 1) * Zpos m2); [|nia]. nia. }
    assert (0 < 2 ^ (d1 + s - d2 - 1)) by (apply Z.pow_pos_nonneg; lia).
    assert (d1 + s - d2 - 1 < Zdigits2 q) by (apply Zdigits2_ge; lia). lia. }
  assert (fexp 53 1024 (d1 + e1 - (d2 + e2)) <= fexp 53 1024 (Zdigits2 q + e')); [|unfold e' at 1; lia].
  unfold fexp, emin. unfold s in Dq. lia.
Qed.

(** ** sums *)
Lemma shl_align_spec m e e' : let '(m', e2) := shl_align m e e' in
  e2 = Z.min e e' /\ Zpos m' = Zpos m * 2 ^ (e - e2) /\ (IZR (Zpos m') * p2 e2 = IZR (Zpos m) * p2 e)%R.
Proof.
  unfold shl_align. destruct (e' - e) as [|d|d] eqn:Ed.
  1-2: split; [lia|]; rewrite Z.sub_diag; split; [lia|reflexivity].
  assert (E : Zpos (shift_pos d m) = Zpos m * 2 ^ (e - e')).
  { rewrite shift_pos_correct. change (Z.pow_pos 2 d) with (2 ^ Zpos d). replace (e - e') with (Zpos d) by lia. lia. }
  split; [lia|]. split; [exact E|]. rewrite E, mult_IZR, (p2_split e' e) by lia. ring.
Qed.
Lemma digits_shift m k : 0 < m -> 0 <= k -> Zdigits2 (m * 2 ^ k) = Zdigits2 m + k.
Proof.
  intros Hm Hk. destruct (Zdigits2_bounds m Hm) as [B1 B2]. assert (0 < Zdigits2 m) by (destruct m; cbn; lia).
  assert (0 < 2 ^ k) by (apply Z.pow_pos_nonneg; lia).
  apply Zdigits2_unique; [lia|]. replace (Zdigits2 m + k - 1) with (Zdigits2 m - 1 + k) by lia. rewrite !Z.pow_add_r by lia. nia.
Qed.

(** exactly representable reals: fewer than 53 significant bits above 2^-1074 *)
Lemma binary_round_spec s m e : let v := (IZR (Zpos m) * p2 e)%R in let r := binary_round 53 1024 s m e in
  let f := fexp 53 1024 (Zdigits2 (Zpos m) + e) in
  rounded r (sgn s * v) /\ (finite64 r = true -> forall k, v = (IZR k * p2 f)%R -> bval r = (sgn s * v)%R).
Proof.
  cbv zeta. unfold binary_round. pose proof (shl_align_spec m e (fexp 53 1024 (Zpos (digits2_pos m) + e))) as S.
  destruct (shl_align m e _) as [m' e']. destruct S as (Ee & Em & EV).
  change (Zpos (digits2_pos m)) with (Zdigits2 (Zpos m)) in *. rewrite <- EV.
  assert (D : Zdigits2 (Zpos m') + e' = Zdigits2 (Zpos m) + e) by (rewrite Em, digits_shift by lia; lia).
  assert (L : e' <= fexp 53 1024 (Zdigits2 (Zpos m') + e')) by (rewrite D, Ee; lia).
  split; [apply round_aux_rounded; [lia|reflexivity|exact L]|].
  intros Fi k Ek. destruct (binary_round_aux_spec s _ (Zpos m') e' loc_Exact (Pos2Z.is_nonneg _) eq_refl L) as [(E & _)|(_ & _ & _ & X & _)].
  - rewrite E in Fi. discriminate.
  - apply (X k). rewrite D. exact Ek.
Qed.

(** like [rounded], without any absolute error: sums and differences *)
Definition rounded_rel (r : b64) (x : R) : Prop :=
  (exists s, r = S754_infinity s /\ p2 1024 * (1 - p2 (-54)) <= sgn s * x)%R \/
  (nearest r x /\ Rabs (bval r - x) <= u64 * Rabs x /\ 0 <= bval r * x)%R.
Lemma rounded_rel_0 s : rounded_rel (S754_zero s) 0.
Proof.
  right. split; [split; [reflexivity|]|].
  { intros y _. cbn [bval]. rewrite Rminus_0_r, Rabs_R0. apply Rabs_pos. }
  cbn [bval]. rewrite Rminus_0_r, Rabs_R0. lra.
Qed.
Lemma rounded_rel_rounded r x : rounded_rel r x -> rounded r x.
Proof. intros [H|(A & B & C)]; [now left|right]. split; [exact A|]. split; [|exact C]. eapply Rle_trans; [exact B|apply Rmax_l]. Qed.
Lemma rounded_rel_exact x : finite64 x = true -> rounded_rel x (bval x).
Proof.
  intros F. right. split; [split; [exact F|]|].
  { intros y _. rewrite Rminus_diag_eq, Rabs_R0 by reflexivity. apply Rabs_pos. }
  rewrite Rminus_diag_eq, Rabs_R0 by reflexivity. pose proof (Rabs_pos (bval x)). pose proof (p2_pos (-53)). unfold u64.
  split; [nra|]. apply Rle_0_sqr.
Qed.

Lemma binary_round_rel s m e : -1074 <= e -> rounded_rel (binary_round 53 1024 s m e) (sgn s * (IZR (Zpos m) * p2 e)).
Proof.
  intros He. destruct (binary_round_spec s m e) as [H X]. set (v := (IZR (Zpos m) * p2 e)%R) in *. set (r := binary_round 53 1024 s m e) in *.
  set (f := fexp 53 1024 (Zdigits2 (Zpos m) + e)) in *. assert (V : (0 < v)%R) by apply mag_pos.
  destruct H as [H|(A & B & C)]; [now left|right]. split; [exact A|]. split; [|exact C].
  rewrite Rabs_mult, sgn_abs, Rmult_1_l, (Rabs_pos_eq v) in * by lra.
  destruct (Z_le_gt_dec f e) as [L|L].
  - rewrite (X (proj1 A) (Zpos m * 2 ^ (e - f))); [|unfold v; rewrite mult_IZR, (p2_split f e) by lia; ring].
    rewrite Rminus_diag_eq, Rabs_R0 by reflexivity. pose proof (p2_pos (-53)). unfold u64. nra.
  - eapply Rle_trans; [exact B|]. apply Rmax_lub; [lra|].
    assert (-1020 <= Zdigits2 (Zpos m) + e) by (unfold f, fexp, emin in L; lia).
    destruct (Zdigits2_bounds (Zpos m) ltac:(lia)) as [B1 _]. apply IZR_le in B1. assert (0 < Zdigits2 (Zpos m)) by (cbn; lia).
    rewrite <- p2_Z in B1 by lia. pose proof (p2_pos e).
    assert (V2 : (p2 (-1021) <= v)%R).
    { eapply Rle_trans; [apply (p2_le _ (Zdigits2 (Zpos m) - 1 + e)); lia|]. rewrite p2_add. unfold v. nra. }
    unfold eta64, u64. pose proof (p2_pos (-53)). eapply Rle_trans; [apply (p2_le _ (-53 + -1021)); lia|]. rewrite p2_add. nra.
Qed.
Lemma binary_normalize_rel n e sz : -1074 <= e -> rounded_rel (binary_normalize 53 1024 n e sz) (IZR n * p2 e).
Proof.
  intros He. destruct n as [|m|m]; cbn [binary_normalize].
  - rewrite Rmult_0_l. apply rounded_rel_0.
  - replace (IZR (Zpos m) * p2 e)%R with (sgn false * (IZR (Zpos m) * p2 e))%R by (unfold sgn; ring). now apply binary_round_rel.
  - replace (IZR (Zneg m) * p2 e)%R with (sgn true * (IZR (Zpos m) * p2 e))%R; [now apply binary_round_rel|].
    rewrite <- Pos2Z.opp_pos, opp_IZR. unfold sgn. ring.
Qed.

Lemma aligned s m e ez : ez <= e ->
  (IZR (cond_Zopp s (Zpos (fst (shl_align m e ez)))) * p2 ez = bval (S754_finite s m e))%R.
Proof.
  intros L. pose proof (shl_align_spec m e ez) as S. destruct (shl_align m e ez) as [m' e']. cbn [fst]. destruct S as (Ee & _ & EV).
  replace e' with ez in EV by lia. rewrite bval_sgn, <- EV. unfold cond_Zopp, sgn. destruct s; rewrite ?opp_IZR; ring.
Qed.
Lemma SFadd_rounded x y : finite64 x = true -> finite64 y = true -> rounded_rel (SFadd 53 1024 x y) (bval x + bval y).
Proof.
  destruct x as [s1|s1| |s1 m1 e1], y as [s2|s2| |s2 m2 e2]; try discriminate; intros B1 B2.
  - cbn [SFadd bval]. rewrite Rplus_0_l. destruct (eqb s1 s2); apply rounded_rel_0.
  - cbn [SFadd]. change (bval (S754_zero s1)) with 0%R. rewrite Rplus_0_l. now apply rounded_rel_exact.
  - cbn [SFadd]. change (bval (S754_zero s2)) with 0%R. rewrite Rplus_0_r. now apply rounded_rel_exact.
  - cbn [SFadd]. cbv zeta. cbn [finite64] in *. apply bounded_facts in B1 as (H1 & _). apply bounded_facts in B2 as (H2 & _).
    rewrite <- (aligned s1 m1 e1 (Z.min e1 e2)), <- (aligned s2 m2 e2 (Z.min e1 e2)), <- Rmult_plus_distr_r, <- plus_IZR by lia.
    apply binary_normalize_rel. lia.
Qed.
Lemma SFsub_rounded x y : finite64 x = true -> finite64 y = true -> rounded_rel (SFsub 53 1024 x y) (bval x - bval y).
Proof.
  destruct x as [s1|s1| |s1 m1 e1], y as [s2|s2| |s2 m2 e2]; try discriminate; intros B1 B2.
  - cbn [SFsub bval]. rewrite Rminus_0_r. destruct (eqb s1 (negb s2)); apply rounded_rel_0.
  - cbn [SFsub]. change (bval (S754_zero s1)) with 0%R. replace (0 - bval (S754_finite s2 m2 e2))%R with (bval (S754_finite (negb s2) m2 e2)); [now apply rounded_rel_exact|].
    cbn [bval]. destruct s2; cbn [negb]; ring.
  - cbn [SFsub]. change (bval (S754_zero s2)) with 0%R. rewrite Rminus_0_r. now apply rounded_rel_exact.
  - cbn [SFsub]. cbv zeta. cbn [finite64] in *. apply bounded_facts in B1 as (H1 & _). apply bounded_facts in B2 as (H2 & _).
    rewrite <- (aligned s1 m1 e1 (Z.min e1 e2)), <- (aligned s2 m2 e2 (Z.min e1 e2)), <- Rmult_minus_distr_r, <- minus_IZR by lia.
    apply binary_normalize_rel. lia.
Qed.

(** ** integers *)
Lemma b64_ofZ_exact z : Z.abs z < 2 ^ 53 -> finite64 (b64_ofZ z) = true /\ bval (b64_ofZ z) = IZR z.
Proof.
  intros Hz. unfold b64_ofZ. pose proof (binary_normalize_rel z 0 false ltac:(lia)) as H. change (p2 0) with 1%R in H. rewrite Rmult_1_r in H.
  assert (Fi : finite64 (binary_normalize 53 1024 z 0 false) = true).
  { destruct H as [(s & _ & H)|(A & _)]; [|exact (proj1 A)]. exfalso.
    assert (sgn s * IZR z <= p2 53)%R.
    { rewrite p2_Z by lia. unfold sgn. destruct s; [replace (-1 * IZR z)%R with (IZR (- z)) by (rewrite opp_IZR; ring)|rewrite Rmult_1_l]; apply IZR_le; lia. }
    assert (E : (p2 1024 * (1 - p2 (-54)) = p2 1024 - p2 970)%R) by (rewrite Rmult_minus_distr_l, <- p2_add; change (1024 + -54) with 970; ring).
    rewrite E in H. change 1024 with (1023 + 1) in H. rewrite p2_succ in H. pose proof (p2_le 970 1023 ltac:(lia)). pose proof (p2_le 53 1022 ltac:(lia)).
    change 1023 with (1022 + 1) in *. rewrite p2_succ in *. pose proof (p2_pos 1022). lra. }
  split; [exact Fi|].
  assert (T : forall s m, Zpos m < 2 ^ 53 -> finite64 (binary_round 53 1024 s m 0) = true -> bval (binary_round 53 1024 s m 0) = (sgn s * IZR (Zpos m))%R).
  { intros s m Hm F. destruct (binary_round_spec s m 0) as [_ X]. change (p2 0) with 1%R in X. rewrite Rmult_1_r in X.
    set (f := fexp 53 1024 (Zdigits2 (Zpos m) + 0)) in *. apply (X F (Zpos m * 2 ^ (- f))).
    assert (Zdigits2 (Zpos m) <= 53) by (apply Zdigits2_le; lia). assert (f <= 0) by (unfold f, fexp, emin; lia).
    rewrite mult_IZR, <- p2_Z, Rmult_assoc, <- p2_add by lia. replace (- f + f) with 0 by lia. change (p2 0) with 1%R. ring. }
  destruct z as [|m|m]; cbn [binary_normalize] in *; [reflexivity|..].
  - rewrite T by (auto; lia). unfold sgn. ring.
  - rewrite T by (auto; lia). rewrite <- Pos2Z.opp_pos, opp_IZR. unfold sgn. ring.
Qed.
