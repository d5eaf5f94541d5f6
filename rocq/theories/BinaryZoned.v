(** The zoned candidate fields (domains.py:193-346) with doubles *)
From Coq Require Import ZArith Reals SpecFloat List Bool Lia Lra Psatz Sorted.
From Verif Require Import Base Num BaseLemmas Utilities Coordinates CoordinatesProofs Spec Domains DomainsProofs Float64 Binary64 BinaryGrid BinaryDomains.
Import ListNotations.
Open Scope R_scope.

(** ** dividing, multiplying and dividing again by the same integer *)
(** an integer below 2^53 times a power of two is a double *)
Lemma double_of M e : (0 < M <= 2 ^ 53)%Z -> (-1074 <= e <= 970)%Z -> exists d, finite64 d = true /\ bval d = IZR M * p2 e.
Proof.
  intros HM He. destruct (Z.eq_dec M (2 ^ 53)) as [->|N].
  - exists (S754_finite false 4503599627370496 (e + 1)). split; [apply bounded_iff; lia|]. cbn [bval]. rewrite p2_succ.
    change (2 ^ 53)%Z with 9007199254740992%Z. lra.
  - assert (HM' : (0 < M < 2 ^ 53)%Z) by lia. clear HM N. set (k := (53 - Zdigits2 M)%Z). assert (D : (Zdigits2 M <= 53)%Z) by (apply Zdigits2_le; lia).
    pose proof (Zdigits2_bounds M ltac:(lia)) as [B1 B2]. set (k' := Z.min k (e + 1074)).
    assert (P : (0 < M * 2 ^ k')%Z) by (apply Z.mul_pos_pos; [lia|apply Z.pow_pos_nonneg; lia]).
    assert (DP : (0 < Zdigits2 M)%Z). { destruct (Z_le_gt_dec (Zdigits2 M) 0) as [H0|]; [exfalso|lia]. pose proof (Zdigits2_nonneg M). assert (Zdigits2 M = 0%Z) as E0 by lia. rewrite E0 in B2. cbn in B2. lia. }
    exists (S754_finite false (Z.to_pos (M * 2 ^ k')) (e - k')). split.
    + apply bounded_iff. rewrite Z2Pos.id by exact P. split; [lia|]. split.
      * assert (2 ^ k' <= 2 ^ k)%Z by (apply Z.pow_le_mono_r; lia). assert (2 ^ Zdigits2 M * 2 ^ k = 2 ^ 53)%Z by (rewrite <- Z.pow_add_r by lia; f_equal; lia).
        assert (0 < 2 ^ k)%Z by (apply Z.pow_pos_nonneg; lia). nia.
      * intros H. assert (k' = k) as -> by lia. assert (2 ^ (Zdigits2 M - 1) * 2 ^ k = 2 ^ 52)%Z by (rewrite <- Z.pow_add_r by lia; f_equal; lia).
        assert (0 < 2 ^ k)%Z by (apply Z.pow_pos_nonneg; lia). nia.
    + cbn [bval]. rewrite Z2Pos.id by exact P. rewrite mult_IZR, <- p2_Z by lia. replace e with (k' + (e - k'))%Z at 2 by lia. rewrite (p2_add k'). ring.
Qed.

(** a positive normal double *)
Lemma normal_form (x : b64) : finite64 x = true -> p2 (-1000) <= bval x <= p2 900 ->
  exists m e, (2 ^ 52 <= m < 2 ^ 53)%Z /\ (-1060 <= e <= 900)%Z /\ bval x = IZR m * p2 e.
Proof.
  intros Fx [H1 H2]. pose proof (p2_pos (-1000)). destruct x as [s|s| |s m e]; try discriminate; [cbn [bval] in H1; lra|].
  destruct (bounded_facts m e Fx) as (He & Hm & Hn). rewrite bval_sgn in *. destruct s; unfold sgn in *; [pose proof (mag_pos m e); lra|]. rewrite Rmult_1_l in *.
  assert (E1 : (-1060 <= e)%Z).
  { destruct (Z_le_gt_dec (-1060) e) as [|G]; [assumption|exfalso]. pose proof (p2_le e (-1061) ltac:(lia)) as L. pose proof (p2_pos e).
    assert (IZR (Zpos m) <= p2 53) by (rewrite p2_Z by lia; apply IZR_le; lia). assert (T : p2 53 * p2 (-1061) = p2 (-1008)) by (rewrite <- p2_add; reflexivity).
    pose proof (p2_le (-1007) (-1000) ltac:(lia)) as L'. change (-1007)%Z with (-1008 + 1)%Z in L'. rewrite p2_succ in L'. pose proof (p2_pos (-1008)).
    assert (0 <= IZR (Zpos m)) by (apply (IZR_le 0); lia). nra. }
  exists (Zpos m), e. split; [lia|]. split; [|reflexivity]. split; [exact E1|].
  destruct (Z_le_gt_dec e 900) as [|G]; [assumption|exfalso]. pose proof (p2_le 901 e ltac:(lia)) as L. change 901%Z with (900 + 1)%Z in L. rewrite p2_succ in L. pose proof (p2_pos 900).
  assert (1 <= IZR (Zpos m)) by (apply (IZR_le 1); lia). nra.
Qed.
(** the next double after and before a normal one *)
Lemma above64 d m e : finite64 d = true -> (2 ^ 52 <= m)%Z -> IZR m * p2 e < bval d -> (IZR m + 1) * p2 e <= bval d.
Proof.
  intros Fd Hm H. pose proof (p2_pos e) as Pe. assert (M1 : p2 52 <= IZR m) by (rewrite p2_Z by lia; now apply IZR_le). pose proof (p2_pos 52).
  destruct d as [s|s| |s md ed]; try discriminate; [cbn [bval] in H; nra|].
  destruct (bounded_facts md ed Fd) as (_ & Hmd & _). rewrite bval_sgn in *. pose proof (mag_pos md ed). destruct s; unfold sgn in *; [nra|]. rewrite Rmult_1_l in *.
  destruct (Z_le_gt_dec e ed) as [Hle|Hgt].
  - rewrite (p2_split e ed Hle) in *. rewrite <- Rmult_assoc, <- mult_IZR in *. apply Rmult_lt_reg_r in H; [|exact Pe]. apply lt_IZR in H.
    apply Rmult_le_compat_r; [lra|]. rewrite <- plus_IZR. apply IZR_le. lia.
  - exfalso. assert (IZR (Zpos md) <= p2 53) by (rewrite p2_Z by lia; apply IZR_le; lia). pose proof (p2_le (ed + 1) e ltac:(lia)) as L. rewrite p2_succ in L.
    assert (T : p2 53 = 2 * p2 52) by (change 53%Z with (52 + 1)%Z; apply p2_succ). pose proof (p2_pos ed). nra.
Qed.
Lemma below64 d m e : finite64 d = true -> (2 ^ 52 < m)%Z -> bval d < IZR m * p2 e -> bval d <= (IZR m - 1) * p2 e.
Proof.
  intros Fd Hm H. pose proof (p2_pos e) as Pe. assert (M1 : p2 52 <= IZR m - 1) by (rewrite p2_Z by lia; rewrite <- minus_IZR; apply IZR_le; lia). pose proof (p2_pos 52).
  assert (0 <= (IZR m - 1) * p2 e) by (apply Rmult_le_pos; lra).
  destruct d as [s|s| |s md ed]; try discriminate; [cbn [bval]; lra|].
  destruct (bounded_facts md ed Fd) as (_ & Hmd & _). rewrite bval_sgn in *. pose proof (mag_pos md ed). destruct s; unfold sgn in *; [nra|]. rewrite Rmult_1_l in *.
  destruct (Z_le_gt_dec e ed) as [Hle|Hgt].
  - rewrite (p2_split e ed Hle) in *. rewrite <- Rmult_assoc, <- mult_IZR in *. apply Rmult_lt_reg_r in H; [|exact Pe]. apply lt_IZR in H.
    apply Rmult_le_compat_r; [lra|]. rewrite <- minus_IZR. apply IZR_le. lia.
  - assert (IZR (Zpos md) <= p2 53) by (rewrite p2_Z by lia; apply IZR_le; lia). pose proof (p2_le (ed + 1) e ltac:(lia)) as L. rewrite p2_succ in L.
    assert (T : p2 53 = 2 * p2 52) by (change 53%Z with (52 + 1)%Z; apply p2_succ). pose proof (p2_pos ed). nra.
Qed.

(** a product of n and a double lies midway between two doubles n*g apart, where g is the gap of the second factor, only if it is itself a double *)
Lemma midway n m e (x w : b64) : (1 <= n < 2 ^ 53)%Z -> (2 ^ 52 <= m < 2 ^ 53)%Z -> (-1060 <= e <= 900)%Z -> finite64 x = true -> finite64 w = true ->
  p2 (-1000) <= bval x <= p2 900 -> bval w = bval x + IZR n * p2 e -> 
  (forall d, finite64 d = true -> ~ (bval x < bval d < bval w)) -> exists d, finite64 d = true /\ bval d = IZR n * (IZR m * p2 e).
Proof.
  intros Hn Hm He Fx Fw Rx Ew Gap. destruct (normal_form x Fx Rx) as (mx & ex & Hmx & Hex & Ex). pose proof (p2_pos ex). pose proof (p2_pos e).
  assert (N1 : 1 <= IZR n) by (apply (IZR_le 1); lia).
  assert (Pos0 : 0 < IZR n * p2 e) by (apply Rmult_lt_0_compat; lra).
  assert (G1 : IZR n * p2 e <= p2 ex).
  { destruct (double_of (mx + 1) ex ltac:(lia) ltac:(lia)) as (d & Fd & Ed). rewrite plus_IZR in Ed.
    destruct (Rle_or_lt (bval w) (bval d)) as [L|L]; [nra|]. exfalso. apply (Gap d Fd). split; [nra|exact L]. }
  assert (G2 : p2 ex <= IZR n * p2 e).
  { pose proof (above64 w mx ex Fw ltac:(lia)) as A. rewrite Ex in Ew. specialize (A ltac:(lra)). nra. }
  assert (Eq : IZR n * p2 e = p2 ex) by lra.
  replace (IZR n * (IZR m * p2 e)) with (IZR m * (IZR n * p2 e)) by ring. rewrite Eq.
  apply double_of; lia.
Qed.

Lemma nearest_unique_exact (y d : b64) x : nearest y x -> finite64 d = true -> bval d = x -> bval y = x.
Proof. intros N Fd <-. now apply nearest_exact. Qed.

Lemma idem64 (l b y : b64) n : finite64 l = true -> (1 <= n < 2 ^ 53)%Z -> p2 (-900) <= bval l <= p2 800 ->
  b = SFdiv 53 1024 l (b64_ofZ n) -> nearest b (bval l / IZR n) -> p2 (-1000) <= bval b <= p2 900 -> nearest y (IZR n * bval b) -> p2 (-1000) <= bval y <= p2 900 ->
  nearest (SFdiv 53 1024 y (b64_ofZ n)) (bval y / IZR n) -> SFdiv 53 1024 y (b64_ofZ n) = b.
Proof.
  intros Fl Hn Rl Eb Nb Rb Ny Ry Nr. set (r := SFdiv 53 1024 y (b64_ofZ n)) in *. pose proof (p2_pos (-1000)) as P0.
  assert (Fb := proj1 Nb). assert (Fy := proj1 Ny). assert (Fr := proj1 Nr). assert (N1 : 1 <= IZR n) by (apply (IZR_le 1); lia).
  destruct (Req_dec (bval r) (bval b)) as [E|Ne]; [symmetry; apply bval_inj_pos; auto; lra|exfalso].
  destruct (normal_form b Fb Rb) as (m & e & Hm & He & EB). pose proof (p2_pos e) as Pe.
  set (N := IZR n) in *. set (B := bval b) in *. set (L := bval l) in *. set (Y := bval y) in *. set (R := bval r) in *.
  (* scaled by n *)
  assert (Sc : forall u v w, Rabs (u - w / N) <= Rabs (v - w / N) -> Rabs (N * u - w) <= Rabs (N * v - w)).
  { intros u v w Hs. replace (N * u - w) with (N * (u - w / N)) by (field; lra). replace (N * v - w) with (N * (v - w / N)) by (field; lra).
    rewrite !Rabs_mult, (Rabs_pos_eq N) by lra. apply Rmult_le_compat_l; [lra|exact Hs]. }
  assert (H1 : Rabs (Y - N * B) <= Rabs (L - N * B)) by (apply (proj2 Ny l Fl)).
  assert (H2 : forall d, finite64 d = true -> Rabs (N * B - L) <= Rabs (N * bval d - L)) by (intros d Fd; apply Sc; apply (proj2 Nb d Fd)).
  assert (H3 : Rabs (N * R - Y) <= Rabs (N * B - Y)) by (apply Sc; apply (proj2 Nr b Fb)).
  pose proof (H2 r Fr) as H4. fold R in H4.
  (* y is not exact *)
  assert (C0 : Y <> N * B).
  { intros E. rewrite E in H3. rewrite (Rminus_diag_eq (N * B)), Rabs_R0 in H3 by reflexivity. apply Ne. pose proof (Rabs_pos (N * R - N * B)).
    assert (N * R - N * B = 0) by (destruct (Req_dec (N * R - N * B) 0); auto; pose proof (Rabs_pos_lt _ H0); lra). apply (Rmult_eq_reg_l N); lra. }
  assert (D0 : ~ exists d, finite64 d = true /\ bval d = N * (IZR m * p2 e)).
  { intros (d & Fd & Ed). apply C0. apply (nearest_unique_exact y d); auto. now rewrite Ed, EB. }
  assert (M52 : (2 ^ 52 < m)%Z).
  { destruct (Z.eq_dec m (2 ^ 52)) as [->|]; [exfalso|lia]. apply D0. rewrite <- (p2_Z 52), <- p2_add by lia. apply double_of; lia. }
  assert (YL : Y <> L).
  { intros E. apply Ne. assert (y = l) as Eyl by (apply (bval_inj_pos y l Fy Fl); [fold Y; lra|symmetry; exact E]). unfold R, B, r. now rewrite Eyl, Eb. }
  destruct (double_of (m + 1) e ltac:(lia) ltac:(lia)) as (dp & Fdp & Edp). destruct (double_of (m - 1) e ltac:(lia) ltac:(lia)) as (dm & Fdm & Edm).
  rewrite plus_IZR in Edp. rewrite minus_IZR in Edm. pose proof (H2 dp Fdp) as H5. pose proof (H2 dm Fdm) as H6.
  rewrite Edp in H5. rewrite Edm in H6.
  assert (X5 : N * ((IZR m + 1) * p2 e) = N * B + N * p2 e) by (rewrite EB; ring). assert (X6 : N * ((IZR m - 1) * p2 e) = N * B - N * p2 e) by (rewrite EB; ring).
  rewrite X5 in H5. rewrite X6 in H6. assert (G0 : 0 < N * p2 e) by (apply Rmult_lt_0_compat; lra).
  destruct (Rtotal_order R B) as [Lt|[Eq|Gt]]; [|contradiction|].
  - assert (Z1 : N * R <= N * B - N * p2 e).
    { rewrite EB in Lt. pose proof (below64 r m e Fr M52 Lt) as A. fold R in A. rewrite <- X6. apply Rmult_le_compat_l; lra. }
    assert (T : L = N * B + N * p2 e / 2 /\ Y = N * B - N * p2 e / 2) by (clear - H1 H3 H4 H5 H6 Z1 G0 YL C0; unfold Rabs in *; repeat destruct (Rcase_abs _); lra).
    destruct T as (TL & TY). apply D0. apply (midway n m e y l); auto.
    + fold L Y. fold N. lra.
    + intros d Fd Hd. fold L Y in Hd. pose proof (proj2 Ny d Fd) as X. fold Y in X. clear - X Hd TL TY G0. unfold Rabs in X. repeat destruct (Rcase_abs _); lra.
  - assert (Z1 : N * B + N * p2 e <= N * R).
    { rewrite EB in Gt. pose proof (above64 r m e Fr ltac:(lia) Gt) as A. fold R in A. rewrite <- X5. apply Rmult_le_compat_l; lra. }
    assert (T : Y = N * B + N * p2 e / 2 /\ L = N * B - N * p2 e / 2) by (clear - H1 H3 H4 H5 H6 Z1 G0 YL C0; unfold Rabs in *; repeat destruct (Rcase_abs _); lra).
    destruct T as (TY & TL). apply D0. apply (midway n m e l y); auto.
    + fold L. pose proof (p2_le (-1000) (-900) ltac:(lia)). pose proof (p2_le 800 900 ltac:(lia)). lra.
    + fold L Y. fold N. lra.
    + intros d Fd Hd. fold L Y in Hd. pose proof (proj2 Ny d Fd) as X. fold Y in X. clear - X Hd TL TY G0. unfold Rabs in X. repeat destruct (Rcase_abs _); lra.
Qed.

(** ** fields of doubles near fields of reals *)
Definition near1 (e : R) (x : b64) (r : R) : Prop := finite64 x = true /\ 0 <= bval x /\ Rabs (bval x - r) <= e.
Definition near2 (e1 e2 : R) (p : b64 * b64) (q : R * R) : Prop := near1 e1 (fst p) (fst q) /\ near1 e2 (snd p) (snd q).

Lemma Forall2_map2 {A B C} (P : B -> C -> Prop) (f : A -> B) (g : A -> C) l : (forall a, In a l -> P (f a) (g a)) -> Forall2 P (map f l) (map g l).
Proof. induction l as [|a l IH]; intros H; cbn; constructor; [apply H; now left|apply IH; intros; apply H; now right]. Qed.
Lemma Forall2_flat_map2 {A B C} (P : B -> C -> Prop) (f : A -> list B) (g : A -> list C) l : (forall a, In a l -> Forall2 P (f a) (g a)) -> Forall2 P (flat_map f l) (flat_map g l).
Proof. induction l as [|a l IH]; intros H; cbn; [constructor|apply Forall2_app; [apply H; now left|apply IH; intros; apply H; now right]]. Qed.
Lemma Forall2_nth_l {A B} (P : A -> B -> Prop) l r : Forall2 P l r -> forall i a, nth_error l i = Some a -> exists b, nth_error r i = Some b /\ P a b.
Proof.
  induction 1 as [|a b l r Hab H IH]; intros [|i] c Hc; try discriminate; cbn in *; [injection Hc as <-; eauto|auto].
Qed.
Lemma Forall2_zlen {A B} (P : A -> B -> Prop) l r : Forall2 P l r -> zlen l = zlen r.
Proof. intros H. unfold zlen. now rewrite (Forall2_length P l r H). Qed.

(** the length check at the end of every shape *)
Lemma checked_near {A B} (P : A -> B -> Prop) l l' n : Forall2 P l l' -> forall g, (let! _ := assert_ (zlen l' =? n)%Z in Ok l') = Ok g ->
  exists f, (let! _ := assert_ (zlen l =? n)%Z in Ok l) = Ok f /\ Forall2 P f g.
Proof.
  intros H g E. rewrite (Forall2_zlen P l l' H). destruct (assert_ (zlen l' =? n)%Z); cbn [bind] in *; [|discriminate]. injection E as <-. eauto.
Qed.

Lemma real_nth f i p : nth_error (real_field f) i = Some p -> exists q, nth_error f i = Some q /\ p = (bval (fst q), bval (snd q)).
Proof. unfold real_field. rewrite nth_error_map. destruct (nth_error f i) as [q|]; cbn; [intros [= <-]; eauto|discriminate]. Qed.
Lemma near_inside e1 e2 f g l1 l2 : Forall2 (near2 e1 e2) f g -> inside l1 l2 g -> inside (l1 + e1) (l2 + e2) (real_field f).
Proof.
  intros H I p Hp. apply In_nth_error in Hp as (i & Hi). apply real_nth in Hi as (q & Hq & ->).
  destruct (Forall2_nth_l _ _ _ H i q Hq) as (r & Hr & (_ & A1 & A2) & _ & B1 & B2). apply nth_error_In in Hr. destruct (I r Hr) as [I1 I2].
  apply Rabs_near in A2, B2. cbn [fst snd]. lra.
Qed.
Lemma near_separated e1 e2 f g d : Forall2 (near2 e1 e2) f g -> separated d g -> separated (d - 2 * e1 - 2 * e2) (real_field f).
Proof.
  intros H S i j p q Hij Hi Hj. apply real_nth in Hi as (p0 & Hp & ->). apply real_nth in Hj as (q0 & Hq & ->).
  destruct (Forall2_nth_l _ _ _ H i p0 Hp) as (p' & Hp' & (_ & _ & A1) & _ & _ & A2).
  destruct (Forall2_nth_l _ _ _ H j q0 Hq) as (q' & Hq' & (_ & _ & B1) & _ & _ & B2).
  specialize (S i j p' q' Hij Hp' Hq'). cbn [fst snd].
  set (x := bval (fst p0)) in *. set (y := bval (snd p0)) in *. set (z := bval (fst q0)) in *. set (w := bval (snd q0)) in *.
  set (x' := fst p') in *. set (y' := snd p') in *. set (z' := fst q') in *. set (w' := snd q') in *.
  apply Rabs_near in A1, A2, B1, B2.
  assert (T : sqrt ((x' - z') ^ 2 + (y' - w') ^ 2) <= sqrt ((x - z) ^ 2 + (y - w) ^ 2) + (2 * e1 + 2 * e2)).
  { set (s := sqrt ((x - z) ^ 2 + (y - w) ^ 2)). assert (S0 : 0 <= s) by apply sqrt_pos.
    pose proof (pow2_ge_0 (x - z)) as Qx. pose proof (pow2_ge_0 (y - w)) as Qy. assert (Q0 : 0 <= (x - z) ^ 2 + (y - w) ^ 2) by lra. assert (S2 : s * s = (x - z) ^ 2 + (y - w) ^ 2) by (apply sqrt_sqrt; exact Q0).
    assert (Sx : Rabs (x - z) <= s) by (rewrite <- (sqrt_pow2 (Rabs (x - z))) by apply Rabs_pos; apply sqrt_le_1_alt; rewrite pow2_abs; lra).
    assert (Sy : Rabs (y - w) <= s) by (rewrite <- (sqrt_pow2 (Rabs (y - w))) by apply Rabs_pos; apply sqrt_le_1_alt; rewrite pow2_abs; lra).
    assert (E1 : 0 <= e1) by lra. assert (E2 : 0 <= e2) by lra.
    rewrite <- (sqrt_pow2 (s + (2 * e1 + 2 * e2))) by lra. apply sqrt_le_1_alt.
    pose proof (Rle_abs (x - z)). pose proof (Rle_abs (- (x - z))) as Nx. rewrite Rabs_Ropp in Nx.
    pose proof (Rle_abs (y - w)). pose proof (Rle_abs (- (y - w))) as Ny. rewrite Rabs_Ropp in Ny.
    assert (D1 : Rabs ((x' - z') - (x - z)) <= 2 * e1) by (apply Rabs_le; lra).
    assert (D2 : Rabs ((y' - w') - (y - w)) <= 2 * e2) by (apply Rabs_le; lra).
    set (a := x - z) in *. set (b := y - w) in *. set (da := x' - z' - a) in *. set (db := y' - w' - b) in *.
    replace (x' - z') with (a + da) by (unfold da; ring). replace (y' - w') with (b + db) by (unfold db; ring).
    assert (P1 : a * da <= s * (2 * e1)).
    { apply Rle_trans with (Rabs (a * da)); [apply Rle_abs|]. rewrite Rabs_mult. apply Rmult_le_compat; auto using Rabs_pos. }
    assert (P2 : b * db <= s * (2 * e2)).
    { apply Rle_trans with (Rabs (b * db)); [apply Rle_abs|]. rewrite Rabs_mult. apply Rmult_le_compat; auto using Rabs_pos. }
    assert (P3 : da * da <= (2 * e1) * (2 * e1)).
    { apply Rle_trans with (Rabs (da * da)); [apply Rle_abs|]. rewrite Rabs_mult. apply Rmult_le_compat; auto using Rabs_pos. }
    assert (P4 : db * db <= (2 * e2) * (2 * e2)).
    { apply Rle_trans with (Rabs (db * db)); [apply Rle_abs|]. rewrite Rabs_mult. apply Rmult_le_compat; auto using Rabs_pos. }
    assert (P5 : 0 <= e1 * e2) by (apply Rmult_le_pos; lra). nra. }
  lra.
Qed.

(** a spacing and a number of positions of one side; [e] covers the rounding *)
Definition fits (e : R) (n : Z) (b : b64) : Prop :=
  (2 <= n <= 2 ^ 52)%Z /\ finite64 b = true /\ p2 (-1000) <= bval b /\ IZR (n - 1) * bval b <= p2 900 /\ 8 * u64 * (IZR (n - 1) * bval b) <= e.

Lemma finite_of_add (z : b64) : finite64 (nadd fz z) = true -> finite64 z = true.
Proof. destruct z as [[]|[]| |s m e]; cbn; auto. Qed.
Lemma zmul64 i (b : b64) : finite64 b = true -> (0 <= i < 2 ^ 53)%Z -> p2 (-1022) <= bval b -> IZR i * bval b <= p2 1023 ->
  nearest (zmul i b) (IZR i * bval b) /\ Rabs (bval (zmul i b) - IZR i * bval b) <= u64 * (IZR i * bval b).
Proof.
  intros Fb Hi Hb Hm. destruct (coord64 i b Fb Hi Hb Hm) as [N E]. pose proof (finite_of_add _ (proj1 N)) as Fz.
  destruct (add_zero _ Fz) as [_ A]. unfold coord in E. rewrite A in E. split; [|exact E]. apply (nearest_congr (nadd fz (zmul i b))); auto.
Qed.
Lemma fits_zero e n b : fits e n b -> near1 e fz fz.
Proof.
  intros (Hn & Fb & Pb & Mb & He). split; [reflexivity|]. change (bval (fz : b64)) with (0 : R). change (fz : R) with (0 : R). rewrite Rminus_0_r, Rabs_R0.
  pose proof (p2_pos (-1000)). pose proof small_u as [U0 _]. assert (1 <= IZR (n - 1)) by (apply (IZR_le 1); lia). split; [lra|].
  apply Rle_trans with (2 := He). apply Rmult_le_pos; [lra|]. apply Rmult_le_pos; lra.
Qed.
Lemma fits_outer e n b i : fits e n b -> (0 <= i <= n - 1)%Z -> near1 e (zmul i b) (zmul i (bval b)).
Proof.
  intros (Hn & Fb & Pb & Mb & He) Hi. rewrite zmul_R. pose proof (p2_pos (-1000)) as P0. pose proof small_u as [U0 U1].
  assert (I0 : 0 <= IZR i) by (apply (IZR_le 0); lia). assert (I1 : IZR i <= IZR (n - 1)) by (apply IZR_le; lia).
  assert (M : IZR i * bval b <= IZR (n - 1) * bval b) by (apply Rmult_le_compat_r; lra). assert (M0 : 0 <= IZR i * bval b) by (apply Rmult_le_pos; lra).
  pose proof (p2_le 900 1023 ltac:(lia)). pose proof (p2_le (-1022) (-1000) ltac:(lia)).
  destruct (zmul64 i b Fb ltac:(lia) ltac:(lra) ltac:(lra)) as [N E]. split; [apply N|]. split; [apply Rabs_near in E; nra|].
  apply Rle_trans with (1 := E). nra.
Qed.
Lemma fits_le e n n' b : fits e n b -> (2 <= n' <= n)%Z -> fits e n' b.
Proof.
  intros (Hn & Fb & Pb & Mb & He) H. pose proof (p2_pos (-1000)) as P0. pose proof small_u as [U0 U1].
  assert (I1 : IZR (n' - 1) <= IZR (n - 1)) by (apply IZR_le; lia).
  assert (M : IZR (n' - 1) * bval b <= IZR (n - 1) * bval b) by (apply Rmult_le_compat_r; lra).
  split; [lia|]. split; [auto|]. split; [auto|]. split; [lra|]. nra.
Qed.

(** spacing of the interior rows: the side divided among k gaps *)
Lemma fits_gap e n b k : fits e n b -> (1 <= k <= n)%Z ->
  exists q, pydiv (zmul (n - 1) b) (nofZ k) = Ok q /\ nearest q (bval (zmul (n - 1) b) / IZR k) /\
  Rabs (bval q - IZR (n - 1) * bval b / IZR k) <= 3 * u64 * (IZR (n - 1) * bval b / IZR k).
Proof.
  intros (Hn & Fb & Pb & Mb & He) Hk. pose proof (p2_pos (-1000)) as P0. pose proof small_u as [U0 U1].
  assert (K0 : 1 <= IZR k) by (apply (IZR_le 1); lia). assert (K1 : IZR k <= 2 * IZR (n - 1)) by (rewrite <- mult_IZR; apply IZR_le; lia).
  pose proof (p2_le 900 1023 ltac:(lia)). pose proof (p2_le (-1022) (-1000) ltac:(lia)).
  destruct (zmul64 (n - 1) b Fb ltac:(lia) ltac:(lra) ltac:(lra)) as [N E]. set (t := zmul (n - 1) b) in *. set (T := IZR (n - 1) * bval b) in *.
  destruct (b64_ofZ_exact k ltac:(lia)) as [Fk Ek]. apply Rabs_near in E.
  assert (T0 : bval b * IZR k <= 2 * T) by (unfold T; nra). assert (Y : bval b <= 2 * (T / IZR k)).
  { apply (Rmult_le_reg_r (IZR k)); [lra|]. replace (2 * (T / IZR k) * IZR k) with (2 * T) by (field; lra). exact T0. }
  assert (Y2 : T / IZR k <= T).
  { apply (Rmult_le_reg_r (IZR k)); [lra|]. replace (T / IZR k * IZR k) with T by (field; lra). assert (0 < T) by nra. nra. }
  set (y := T / IZR k) in *.
  assert (Ey : (1 - u64) * y <= bval t / IZR k <= (1 + u64) * y).
  { unfold y. split; apply (Rmult_le_reg_r (IZR k)); try lra; [replace (bval t / IZR k * IZR k) with (bval t) by (field; lra); replace ((1 - u64) * (T / IZR k) * IZR k) with ((1 - u64) * T) by (field; lra); lra|].
    replace (bval t / IZR k * IZR k) with (bval t) by (field; lra). replace ((1 + u64) * (T / IZR k) * IZR k) with ((1 + u64) * T) by (field; lra). lra. }
  assert (P1 : p2 (-1002) * 4 = p2 (-1000)) by (change (-1000)%Z with (-1002 + 1 + 1)%Z; rewrite !p2_succ; ring).
  assert (P2' : p2 900 * 2 = p2 901) by (change 901%Z with (900 + 1)%Z; rewrite p2_succ; ring).
  pose proof (p2_le 901 1023 ltac:(lia)). pose proof (p2_le (-1022) (-1002) ltac:(lia)). pose proof (p2_pos 900).
  destruct (div_tight t (b64_ofZ k) (proj1 N) Fk ltac:(lra)) as (q & Eq & Nq & Er); [rewrite Ek; nra|]. rewrite Ek in Nq, Er.
  exists q. split; [exact Eq|]. split; [exact Nq|]. apply Rabs_near in Er. apply Rabs_le. nra.
Qed.

(** position of an interior row or column *)
Lemma fits_inner e n b k q i : fits e n b -> (1 <= k <= n - 1)%Z -> pydiv (zmul (n - 1) b) (nofZ k) = Ok q -> (0 <= i < k - 1)%Z ->
  near1 e (nadd q (zmul i q)) (nadd (IZR (n - 1) * bval b / IZR k) (zmul i (IZR (n - 1) * bval b / IZR k))).
Proof.
  intros H Hk Eq Hi. pose proof H as (Hn & Fb & Pb & Mb & He). destruct (fits_gap e n b k H ltac:(lia)) as (q' & Eq' & Nq & Er). rewrite Eq in Eq'. injection Eq' as <-.
  pose proof (p2_pos (-1000)) as P0. pose proof small_u as [U0 U1]. rewrite zmul_R. cbn [nadd NumR].
  assert (K0 : 1 <= IZR k) by (apply (IZR_le 1); lia). assert (K1 : IZR k <= IZR (n - 1)) by (apply IZR_le; lia).
  set (T := IZR (n - 1) * bval b) in *.
  assert (T0 : bval b * IZR k <= T) by (unfold T; nra). assert (Y : bval b <= T / IZR k).
  { apply (Rmult_le_reg_r (IZR k)); [lra|]. replace (T / IZR k * IZR k) with T by (field; lra). exact T0. }
  assert (Yk : T / IZR k * IZR k = T) by (field; lra). set (y := T / IZR k) in *.
  assert (I0 : 0 <= IZR i) by (apply (IZR_le 0); lia). assert (I1 : IZR i + 1 <= IZR k - 1) by (rewrite <- plus_IZR, <- minus_IZR; apply IZR_le; lia).
  apply Rabs_near in Er. assert (Iy : IZR i * y + y <= T) by nra. assert (Iy0 : 0 <= IZR i * y) by nra.
  assert (P1 : p2 (-1001) * 2 = p2 (-1000)) by (change (-1000)%Z with (-1001 + 1)%Z; rewrite p2_succ; ring).
  assert (P2' : p2 900 * 2 = p2 901) by (change 901%Z with (900 + 1)%Z; rewrite p2_succ; ring).
  assert (P3 : p2 901 * 2 = p2 902) by (change 902%Z with (901 + 1)%Z; rewrite p2_succ; ring).
  pose proof (p2_le 902 1023 ltac:(lia)). pose proof (p2_le (-1022) (-1001) ltac:(lia)). pose proof (p2_pos 900).
  assert (Qi : Rabs (IZR i * bval q - IZR i * y) <= 3 * u64 * (IZR i * y)) by (apply Rabs_le; nra). apply Rabs_near in Qi.
  destruct (zmul64 i q (proj1 Nq) ltac:(lia) ltac:(nra) ltac:(nra)) as [Nz Ez]. apply Rabs_near in Ez.
  pose proof (SFadd_rounded q (zmul i q) (proj1 Nq) (proj1 Nz)) as Rs. change (SFadd 53 1024 q (zmul i q)) with (nadd q (zmul i q)) in Rs.
  set (z := zmul i q) in *. assert (Z0 : 0 <= bval z) by nra. assert (Q0 : 0 < bval q) by nra.
  assert (Zu : bval z <= (1 + 5 * u64) * (IZR i * y)) by nra. assert (Zl : (1 - 5 * u64) * (IZR i * y) <= bval z) by nra.
  destruct (rounded_rel_tight _ _ Rs) as [Ns Es]; [rewrite Rabs_pos_eq by lra; nra|]. rewrite (Rabs_pos_eq (bval q + bval z)) in Es by lra. apply Rabs_near in Es.
  split; [apply Ns|]. split; [nra|]. apply Rle_trans with (2 := He). apply Rabs_le.
  assert (S1 : bval q + bval z <= (1 + 5 * u64) * (y + IZR i * y)) by nra. assert (S2 : (1 - 5 * u64) * (y + IZR i * y) <= bval q + bval z) by nra.
  set (s := y + IZR i * y) in *. assert (s <= T) by (unfold s; lra). assert (0 < s) by (unfold s; lra). set (v := bval (nadd q z)) in *.
  assert (v <= (1 + 7 * u64) * s) by ulra. assert ((1 - 7 * u64) * s <= v) by ulra. ulra.
Qed.

(** *** the shapes *)
Section Shapes.
Variables (e1 e2 : R) (Nx Ny : Z) (Bx By : b64).
Hypotheses (Hx : fits e1 Nx Bx) (Hy : fits e2 Ny By).
Let ox i : (0 <= i <= Nx - 1)%Z -> near1 e1 (zmul i Bx) (zmul i (bval Bx)) := fits_outer e1 Nx Bx i Hx.
Let oy j : (0 <= j <= Ny - 1)%Z -> near1 e2 (zmul j By) (zmul j (bval By)) := fits_outer e2 Ny By j Hy.
Let zx : near1 e1 fz fz := fits_zero e1 Nx Bx Hx.
Let zy : near1 e2 fz fz := fits_zero e2 Ny By Hy.
Let nx2 : (2 <= Nx)%Z := proj1 (proj1 Hx).
Let ny2 : (2 <= Ny)%Z := proj1 (proj1 Hy).

Lemma near_add0 e (x : b64) (r : R) : near1 e x r -> near1 e (nadd fz x) (nadd fz r).
Proof.
  intros (F & P & A). destruct (add_zero x F) as [F' E]. split; [exact F'|]. rewrite E. cbn [nadd NumR]. change (fz : R) with (0 : R). rewrite Rplus_0_l. auto.
Qed.

Ltac shape := repeat first [apply Forall2_app | apply Forall2_flat_map2; let a := fresh "a" in let H := fresh "H" in intros a H; apply in_zrange in H | apply Forall2_map2; let a := fresh "a" in let H := fresh "H" in intros a H; apply in_zrange in H | apply Forall2_cons | apply Forall2_nil];
  split; cbn [fst snd]; auto; try apply near_add0; try (apply ox; lia); try (apply oy; lia).

Lemma line_near l : (1 <= l <= Nx)%Z -> forall g, rectangle l 1 (bval Bx) (bval By) = Ok g -> exists f, rectangle l 1 Bx By = Ok f /\ Forall2 (near2 e1 e2) f g.
Proof. intros Hl. unfold rectangle, rectangle_o. cbn [fst snd]. apply checked_near. shape. Qed.
Lemma L_near l : (1 <= l <= Ny)%Z -> forall g, L_shape Nx l (bval Bx) (bval By) = Ok g -> exists f, L_shape Nx l Bx By = Ok f /\ Forall2 (near2 e1 e2) f g.
Proof. intros Hl. unfold L_shape. apply checked_near. shape. Qed.
Lemma lop_U_near l : (1 <= l <= Ny)%Z -> forall g, lop_U Nx Ny (bval Bx) (bval By) l = Ok g -> exists f, lop_U Nx Ny Bx By l = Ok f /\ Forall2 (near2 e1 e2) f g.
Proof. intros Hl. unfold lop_U. apply checked_near. shape. Qed.
Lemma C_near l : (0 <= l <= Nx - 2)%Z -> forall g, C_shape Nx Ny (bval Bx) (bval By) l = Ok g -> exists f, C_shape Nx Ny Bx By l = Ok f /\ Forall2 (near2 e1 e2) f g.
Proof. intros Hl. unfold C_shape. apply checked_near. shape. Qed.
Lemma open_near : (3 <= Nx)%Z -> (3 <= Ny)%Z -> forall g, open_rectangle Nx Ny (bval Bx) (bval By) = Ok g -> exists f, open_rectangle Nx Ny Bx By = Ok f /\ Forall2 (near2 e1 e2) f g.
Proof. intros H1 H2. unfold open_rectangle. rewrite (proj2 (Z.ltb_lt 2 Nx)), (proj2 (Z.ltb_lt 2 Ny)) by lia. cbn [andb]. apply checked_near. shape. Qed.

Lemma zoned_near Nix Niy : (3 <= Nx)%Z -> (3 <= Ny)%Z -> (0 <= Nix <= Nx - 2)%Z -> (0 <= Niy <= Ny - 2)%Z ->
  forall g, zoned_rectangle Nx Ny (bval Bx) (bval By) Nix Niy = Ok g -> exists f, zoned_rectangle Nx Ny Bx By Nix Niy = Ok f /\ Forall2 (near2 e1 e2) f g.
Proof.
  intros H1 H2 Hi Hj g. unfold zoned_rectangle. rewrite (proj2 (Z.ltb_ge (Nx - 2) Nix)), (proj2 (Z.ltb_ge (Ny - 2) Niy)) by lia. cbn [raise_if bind].
  destruct (open_rectangle Nx Ny (bval Bx) (bval By)) as [go|] eqn:Eg; [|discriminate]. destruct (open_near H1 H2 go Eg) as (fo & -> & Fo). cbn [bind].
  assert (A1 : 0 < IZR (Nix + 1)) by (apply (IZR_lt 0); lia). assert (A2 : 0 < IZR (Niy + 1)) by (apply (IZR_lt 0); lia).
  cbn [nofZ NumR]. rewrite !pydiv_R by lra. cbn [bind]. rewrite !zmul_R.
  destruct (fits_gap e1 Nx Bx (Nix + 1) Hx ltac:(lia)) as (qx & Eqx & _). destruct (fits_gap e2 Ny By (Niy + 1) Hy ltac:(lia)) as (qy & Eqy & _).
  rewrite Eqx, Eqy. cbn [bind]. unfold rectangle_o. cbn [fst snd].
  set (BX := IZR (Nx - 1) * bval Bx / IZR (Nix + 1)). set (BY := IZR (Ny - 1) * bval By / IZR (Niy + 1)).
  match goal with |- context [flat_map ?h (zrange 0 Nix)] => set (gi := flat_map h (zrange 0 Nix)) end.
  match goal with |- _ -> exists f, (let! _ := (let! _ := assert_ (zlen ?x =? _)%Z in _) in _) = _ /\ _ => set (fi := x) end.
  assert (Fi : Forall2 (near2 e1 e2) fi gi).
  { unfold fi, gi. apply Forall2_flat_map2. intros a Ha. apply in_zrange in Ha. apply Forall2_map2. intros c Hc. apply in_zrange in Hc. split; cbn [fst snd].
    - apply (fits_inner e1 Nx Bx (Nix + 1)); auto; lia.
    - apply (fits_inner e2 Ny By (Niy + 1)); auto; lia. }
  rewrite (Forall2_zlen _ _ _ Fi). destruct (assert_ (zlen gi =? Nix * Niy)%Z); cbn [bind]; [|discriminate]. intros [= <-].
  exists (fo ++ fi). split; [reflexivity|]. now apply Forall2_app.
Qed.
End Shapes.

(** ** the order in which the zones grow (domains.py:217-246) *)
(** a side and the spacing of n positions along it *)
Definition side64 (l : b64) (n : Z) (b : b64) : Prop :=
  finite64 l = true /\ p2 (-300) <= bval l <= p2 300 /\ (3 <= n <= 2 ^ 31)%Z /\ pydiv l (nofZ (n - 1)) = Ok b.

Lemma side_facts l n b : side64 l n b -> finite64 b = true /\ p2 (-332) <= bval b <= p2 301 /\
  bval l * (1 - u64) <= IZR (n - 1) * bval b <= bval l * (1 + u64) /\ fits (9 * u64 * bval l) n b.
Proof.
  intros (Fl & Rl & Hn & Eb). destruct (spread64 l n Fl Rl ltac:(lia)) as (B & EB & FB & RB & MB). rewrite Eb in EB. injection EB as <-.
  split; [exact FB|]. split; [exact RB|]. split; [exact MB|]. pose proof small_u as [U0 U1]. pose proof (p2_pos (-300)). pose proof (p2_pos 300).
  pose proof (p2_le (-1000) (-332) ltac:(lia)). assert (p2 300 * 2 = p2 301) by (change 301%Z with (300 + 1)%Z; rewrite p2_succ; ring). pose proof (p2_le 301 900 ltac:(lia)).
  split; [lia|]. split; [exact FB|]. split; [lra|]. split; nra.
Qed.

Lemma side_back l n b : side64 l n b -> pydiv (zmul (n - 1) b) (nofZ (n - 1)) = Ok b.
Proof.
  intros S. pose proof S as (Fl & Rl & Hn & Eb). destruct (side_facts l n b S) as (Fb & Rb & Mb & Ft). pose proof small_u as [U0 U1].
  destruct (b64_ofZ_exact (n - 1) ltac:(lia)) as [Fn En]. assert (N1 : 1 <= IZR (n - 1)) by (apply (IZR_le 1); lia).
  destruct (fits_gap _ n b (n - 1) Ft ltac:(lia)) as (q & Eq & Nq & _). rewrite Eq. f_equal.
  assert (Rn : p2 0 <= IZR (n - 1) <= p2 31) by (change (p2 0) with 1; rewrite p2_Z by lia; split; [lra|apply IZR_le; lia]).
  pose proof (p2_pos (-300)). pose proof (p2_pos (-332)). 
  pose proof (div_range (-300) 300 0 31 (bval l) (IZR (n - 1)) ltac:(lra) ltac:(lra) Rl Rn) as D1.
  pose proof (p2_le (-1022) (-300 - 31) ltac:(lia)). pose proof (p2_le (300 - 0) 1023 ltac:(lia)).
  destruct (div_tight l (b64_ofZ (n - 1)) Fl Fn ltac:(lra)) as (B & EB & NB & _); [rewrite En; lra|]. rewrite En in NB.
  change (nofZ (n - 1) : b64) with (b64_ofZ (n - 1)) in *. rewrite Eb in EB. injection EB as <-.
  pose proof (p2_le (-900) (-300) ltac:(lia)). pose proof (p2_le 300 800 ltac:(lia)). pose proof (p2_le (-1000) (-332) ltac:(lia)). pose proof (p2_le 301 900 ltac:(lia)). pose proof (p2_le 301 800 ltac:(lia)).
  pose proof (p2_le (-1022) (-332) ltac:(lia)). assert (p2 300 * 2 = p2 301) by (change 301%Z with (300 + 1)%Z; rewrite p2_succ; ring). pose proof (p2_pos 300). pose proof (p2_le 301 1023 ltac:(lia)).
  destruct (zmul64 (n - 1) b Fb ltac:(lia) ltac:(lra) ltac:(nra)) as [Nt Et]. apply Rabs_near in Et.
  assert (Nz : bval (b64_ofZ (n - 1)) <> 0) by (rewrite En; lra). rewrite (pydiv64 l) in Eb by auto. injection Eb as Eb. rewrite (pydiv64 (zmul (n - 1) b)) in Eq by (auto; apply Nt).
  assert (Eq2 : q = SFdiv 53 1024 (zmul (n - 1) b) (b64_ofZ (n - 1))) by (injection Eq as Eq; symmetry; exact Eq). rewrite Eq2 in Nq. rewrite Eq2. clear Eq Eq2.
  assert (LB : bval b <= IZR (n - 1) * bval b) by nra.
  assert (P1 : p2 (-1000) * 2 = p2 (-999)) by (change (-999)%Z with (-1000 + 1)%Z; rewrite p2_succ; ring). pose proof (p2_le (-999) (-332) ltac:(lia)).
  set (T := IZR (n - 1) * bval b) in *.
  assert (Yl : p2 (-1000) <= bval (zmul (n - 1) b)) by nra. assert (Yu : bval (zmul (n - 1) b) <= p2 900) by nra.
  apply (idem64 l b (zmul (n - 1) b) (n - 1)); auto; try lia; try lra.
Qed.

Lemma side_gap l n b k : side64 l n b -> (1 <= k <= n)%Z ->
  exists q, pydiv (zmul (n - 1) b) (nofZ k) = Ok q /\ finite64 q = true /\ p2 (-334) <= bval q <= p2 302 /\ nearest q (bval (zmul (n - 1) b) / IZR k) /\
  Rabs (bval q - IZR (n - 1) * bval b / IZR k) <= 3 * u64 * (IZR (n - 1) * bval b / IZR k).
Proof.
  intros S Hk. pose proof S as (Fl & Rl & Hn & Eb). destruct (side_facts l n b S) as (Fb & Rb & Mb & Ft). pose proof small_u as [U0 U1].
  destruct (fits_gap _ n b k Ft ltac:(lia)) as (q & Eq & Nq & Er). exists q. split; [exact Eq|]. split; [apply Nq|]. split; [|split; [exact Nq|exact Er]].
  apply Rabs_near in Er. assert (K0 : 1 <= IZR k) by (apply (IZR_le 1); lia). assert (K1 : IZR k <= 2 * IZR (n - 1)) by (rewrite <- mult_IZR; apply IZR_le; lia).
  set (T := IZR (n - 1) * bval b) in *. pose proof (p2_pos (-332)). pose proof (p2_pos 300).
  assert (T0 : bval b * IZR k <= 2 * T) by (unfold T; nra). assert (Y : bval b <= 2 * (T / IZR k)).
  { apply (Rmult_le_reg_r (IZR k)); [lra|]. replace (2 * (T / IZR k) * IZR k) with (2 * T) by (field; lra). exact T0. }
  assert (Y2 : T / IZR k <= T).
  { apply (Rmult_le_reg_r (IZR k)); [lra|]. replace (T / IZR k * IZR k) with T by (field; lra). assert (0 < T) by nra. nra. }
  set (y := T / IZR k) in *.
  assert (P1 : p2 (-334) * 4 = p2 (-332)) by (change (-332)%Z with (-334 + 1 + 1)%Z; rewrite !p2_succ; ring).
  assert (P2' : p2 300 * 4 = p2 302) by (change 302%Z with (300 + 1 + 1)%Z; rewrite !p2_succ; ring). pose proof (p2_pos (-300)). nra.
Qed.

(** with k and one fewer gap, the spacing does not shrink *)
Lemma gap_least l n b k q : side64 l n b -> (1 <= k <= n - 1)%Z -> pydiv (zmul (n - 1) b) (nofZ k) = Ok q -> bval b <= bval q.
Proof.
  intros S Hk Eq. pose proof S as (Fl & Rl & Hn & Eb). destruct (side_facts l n b S) as (Fb & Rb & Mb & Ft). pose proof small_u as [U0 U1].
  destruct (Z.eq_dec k (n - 1)) as [->|Ne]; [rewrite (side_back l n b S) in Eq; injection Eq as <-; lra|].
  destruct (side_gap l n b k S ltac:(lia)) as (q1 & Eq1 & Fq1 & Rq1 & Nq1 & Er1). rewrite Eq in Eq1. injection Eq1 as <-.
  destruct (side_gap l n b (n - 1) S ltac:(lia)) as (q2 & Eq2 & Fq2 & Rq2 & Nq2 & Er2). rewrite (side_back l n b S) in Eq2. injection Eq2 as <-.
  apply (nearest_mono b _ q _ Nq2 Nq1). assert (K0 : 1 <= IZR k) by (apply (IZR_le 1); lia). assert (K1 : IZR k < IZR (n - 1)) by (apply IZR_lt; lia).
  assert (Tz : 0 < bval (zmul (n - 1) b)).
  { destruct Nq2 as [_ N2]. pose proof (p2_pos (-332)). pose proof (p2_pos (-300)). pose proof (p2_le (-1022) (-332) ltac:(lia)). pose proof (p2_le 301 1023 ltac:(lia)).
    assert (p2 300 * 2 = p2 301) by (change 301%Z with (300 + 1)%Z; rewrite p2_succ; ring). pose proof (p2_pos 300).
    destruct (zmul64 (n - 1) b Fb ltac:(lia) ltac:(lra) ltac:(nra)) as [_ Et]. apply Rabs_near in Et. nra. }
  apply Rmult_lt_compat_l; [exact Tz|]. apply Rinv_lt_contravar; [nra|exact K1].
Qed.

Lemma zone_choice l1 n1 b1 l2 n2 b2 i1 i2 : side64 l1 n1 b1 -> side64 l2 n2 b2 -> (1 <= i1 <= n1 - 2)%Z -> (1 <= i2 <= n2 - 2)%Z -> (i1 < n1 - 2 \/ i2 < n2 - 2)%Z ->
  exists r q1 q2 q1' q2' r1 r2, pydiv b1 b2 = Ok r /\ pydiv (zmul (n1 - 1) b1) (nofZ (i1 + 1)) = Ok q1 /\ pydiv (zmul (n2 - 1) b2) (nofZ (i2 + 1)) = Ok q2 /\
    pydiv (zmul (n1 - 1) b1) (nofZ (i1 + 2)) = Ok q1' /\ pydiv (zmul (n2 - 1) b2) (nofZ (i2 + 2)) = Ok q2' /\ pydiv q1 q2' = Ok r1 /\ pydiv q2 q1' = Ok r2 /\
    (nlt r r1 = true /\ (i1 < n1 - 2)%Z /\ (((n1 - 1) * (n2 - 1) <= 2 ^ 48)%Z -> ((n2 - 1) * (i1 + 1) <= (n1 - 1) * (i2 + 2))%Z) \/
     nlt r r1 = false /\ nle r1 r = true /\ (i2 < n2 - 2)%Z /\ (((n1 - 1) * (n2 - 1) <= 2 ^ 48)%Z -> ((n1 - 1) * (i2 + 2) <= (n2 - 1) * (i1 + 1))%Z)).
Proof.
  intros S1 S2 Hi1 Hi2 Hor. pose proof S1 as (Fl1 & Rl1 & Hn1 & Eb1). pose proof S2 as (Fl2 & Rl2 & Hn2 & Eb2). pose proof small_u as [U0 U1].
  destruct (side_facts l1 n1 b1 S1) as (Fb1 & Rb1 & Mb1 & _). destruct (side_facts l2 n2 b2 S2) as (Fb2 & Rb2 & Mb2 & _).
  destruct (side_gap l1 n1 b1 (i1 + 1) S1 ltac:(lia)) as (q1 & E1 & F1 & R1 & _ & A1).
  destruct (side_gap l2 n2 b2 (i2 + 1) S2 ltac:(lia)) as (q2 & E2 & F2 & R2 & _ & A2).
  destruct (side_gap l1 n1 b1 (i1 + 2) S1 ltac:(lia)) as (q1' & E1' & F1' & R1' & _ & A1').
  destruct (side_gap l2 n2 b2 (i2 + 2) S2 ltac:(lia)) as (q2' & E2' & F2' & R2' & _ & A2').
  pose proof (p2_pos (-332)) as P1. pose proof (p2_pos (-334)) as P2'. pose proof (p2_le (-1022) (-334 - 302) ltac:(lia)). pose proof (p2_le (302 - -334) 1023 ltac:(lia)).
  pose proof (p2_le (-334) (-332) ltac:(lia)). pose proof (p2_le 301 302 ltac:(lia)).
  pose proof (div_range (-334) 302 (-334) 302 (bval b1) (bval b2) ltac:(lra) ltac:(lra) ltac:(lra) ltac:(lra)) as D0.
  pose proof (div_range (-334) 302 (-334) 302 (bval q1) (bval q2') ltac:(lra) ltac:(lra) R1 R2') as D1.
  pose proof (div_range (-334) 302 (-334) 302 (bval q2) (bval q1') ltac:(lra) ltac:(lra) R2 R1') as D2.
  destruct (div_tight b1 b2 Fb1 Fb2 ltac:(lra) ltac:(lra)) as (r & Er & Nr & Ar).
  destruct (div_tight q1 q2' F1 F2' ltac:(lra) ltac:(lra)) as (r1 & Er1 & Nr1 & Ar1).
  destruct (div_tight q2 q1' F2 F1' ltac:(lra) ltac:(lra)) as (r2 & Er2 & Nr2 & Ar2).
  exists r, q1, q2, q1', q2', r1, r2. do 7 (split; [assumption|]).
  clear E2 F2 R2 A2 E1' F1' R1' A1' D2 Er2 Nr2 Ar2 r2 q2 q1'.
  set (K := ((n1 - 1) * (i2 + 2))%Z). set (M := ((n2 - 1) * (i1 + 1))%Z).
  set (be := bval b1 / bval b2) in *. set (ka := IZR K / IZR M).
  assert (N1 : 1 <= IZR (n1 - 1)) by (apply (IZR_le 1); lia). assert (N2 : 1 <= IZR (n2 - 1)) by (apply (IZR_le 1); lia).
  assert (I1 : 1 <= IZR (i1 + 1)) by (apply (IZR_le 1); lia). assert (I2 : 1 <= IZR (i2 + 2)) by (apply (IZR_le 1); lia).
  assert (HM : 0 < IZR M) by (apply (IZR_lt 0); unfold M; nia). assert (HK : 0 < IZR K) by (apply (IZR_lt 0); unfold K; nia).
  assert (Be : 0 < be) by (apply Rdiv_lt_0_compat; lra). assert (Ka : 0 < ka) by (apply Rdiv_lt_0_compat; lra).
  apply Rabs_near in Ar, Ar1, A1, A2'.
  set (y1 := IZR (n1 - 1) * bval b1 / IZR (i1 + 1)) in *. set (y2 := IZR (n2 - 1) * bval b2 / IZR (i2 + 2)) in *.
  assert (Y1 : 0 < y1) by (apply Rdiv_lt_0_compat; nra). assert (Y2 : 0 < y2) by (apply Rdiv_lt_0_compat; nra).
  assert (Ey : y1 = be * ka * y2).
  { unfold y1, y2, be, ka, K, M. rewrite !mult_IZR. field. repeat split; lra. }
  set (rho := bval q1 / bval q2') in *. assert (Erho : rho * bval q2' = bval q1) by (unfold rho; field; lra). assert (Rh0 : 0 < rho) by (apply Rdiv_lt_0_compat; lra).
  assert (Rhu : rho <= be * ka * (1 + 7 * u64)).
  { apply (Rmult_le_reg_r (bval q2')); [lra|]. rewrite Erho. apply Rle_trans with (be * ka * (1 + 7 * u64) * (y2 - 3 * u64 * y2)); [|apply Rmult_le_compat_l; [nra|lra]].
    replace (be * ka * (1 + 7 * u64) * (y2 - 3 * u64 * y2)) with (be * ka * y2 * ((1 + 7 * u64) * (1 - 3 * u64))) by ring. rewrite <- Ey. nra. }
  assert (Rhl : be * ka * (1 - 7 * u64) <= rho).
  { apply (Rmult_le_reg_r (bval q2')); [lra|]. rewrite Erho. apply Rle_trans with (be * ka * (1 - 7 * u64) * (y2 + 3 * u64 * y2)); [apply Rmult_le_compat_l; [nra|lra]|].
    replace (be * ka * (1 - 7 * u64) * (y2 + 3 * u64 * y2)) with (be * ka * y2 * ((1 - 7 * u64) * (1 + 3 * u64))) by ring. rewrite <- Ey. nra. }
  assert (Bk : 0 < be * ka) by (apply Rmult_lt_0_compat; assumption).
  assert (R1u : bval r1 <= be * (ka * (1 + 9 * u64))) by (replace (be * (ka * (1 + 9 * u64))) with (be * ka * (1 + 9 * u64)) by ring; ulra).
  assert (R1l : be * (ka * (1 - 9 * u64)) <= bval r1) by (replace (be * (ka * (1 - 9 * u64))) with (be * ka * (1 - 9 * u64)) by ring; ulra).
  assert (Ek : ka * IZR M = IZR K) by (unfold ka; field; lra).
  cbn [nlt nle NumB64]. destruct (Rlt_le_dec (bval r) (bval r1)) as [L|L].
  - left. split; [now apply SFltb_iff; [apply Nr|apply Nr1|]|]. split.
    + apply Znot_ge_lt. intros G. assert (Ei : i1 = (n1 - 2)%Z) by lia. subst i1. replace (n1 - 2 + 1)%Z with (n1 - 1)%Z in E1 by lia. rewrite (side_back l1 n1 b1 S1) in E1. injection E1 as <-.
      pose proof (gap_least l2 n2 b2 (i2 + 2) q2' S2 ltac:(lia) E2') as [G2|G2].
      * assert (bval r1 <= bval r); [|lra]. apply (nearest_mono r1 rho r be Nr1 Nr). unfold rho, be. apply Rmult_lt_compat_l; [lra|]. apply Rinv_lt_contravar; [apply Rmult_lt_0_compat; lra|exact G2].
      * assert (q2' = b2) by (apply bval_inj_pos; auto; lra). subst q2'. rewrite Er in Er1. injection Er1 as <-. lra.
    + intros Hs. apply Znot_lt_ge || apply Z.nlt_ge. intros C. change (K < M)%Z in C. assert (C1 : IZR K + 1 <= IZR M) by (rewrite <- plus_IZR; apply IZR_le; lia).
      assert (C2 : IZR M <= IZR (2 ^ 48)) by (apply IZR_le; apply Z.le_trans with (2 := Hs); unfold M; rewrite (Z.mul_comm (n1 - 1)); apply Z.mul_le_mono_nonneg_l; lia). change (2 ^ 48)%Z with 281474976710656%Z in C2.
      assert (Ck : ka <= 1 - 32 * u64). { apply (Rmult_le_reg_r (IZR M)); [lra|]. rewrite Ek. ulra. }
      assert (G : ka * (1 + 9 * u64) <= 1 - 10 * u64) by ulra. apply (Rmult_le_compat_l be) in G; [|lra]. ulra.
  - right. assert (NL : SFltb r r1 = false). { apply not_true_is_false. intros C. apply SFltb_iff in C; [lra|apply Nr|apply Nr1]. } split; [exact NL|].
    split; [now apply SFleb_iff; [apply Nr1|apply Nr|]|]. split.
    + apply Znot_ge_lt. intros G. assert (Ei : i2 = (n2 - 2)%Z) by lia. subst i2.
      assert (Ck : 1 + 1000 * u64 <= ka).
      { apply (Rmult_le_reg_r (IZR M)); [lra|]. rewrite Ek. assert (C0 : (M + n2 - 1 <= K)%Z) by (unfold M, K; nia).
        apply IZR_le in C0. rewrite minus_IZR, plus_IZR in C0. assert (C1 : IZR M <= IZR (n2 - 1) * IZR (2 ^ 31)) by (rewrite <- mult_IZR; apply IZR_le; unfold M; nia).
        change (2 ^ 31)%Z with 2147483648%Z in C1. rewrite minus_IZR in *. ulra. }
      assert (G' : 1 + 900 * u64 <= ka * (1 - 9 * u64)) by ulra. apply (Rmult_le_compat_l be) in G'; [|lra]. ulra.
    + intros Hs. apply Z.nlt_ge. intros C. change (M < K)%Z in C. assert (C1 : IZR M + 1 <= IZR K) by (rewrite <- plus_IZR; apply IZR_le; lia).
      assert (C2 : IZR M <= IZR (2 ^ 48)) by (apply IZR_le; apply Z.le_trans with (2 := Hs); unfold M; rewrite (Z.mul_comm (n1 - 1)); apply Z.mul_le_mono_nonneg_l; lia). change (2 ^ 48)%Z with 281474976710656%Z in C2.
      assert (Ck : 1 + 32 * u64 <= ka). { apply (Rmult_le_reg_r (IZR M)); [lra|]. rewrite Ek. ulra. }
      assert (G : 1 + 20 * u64 <= ka * (1 - 9 * u64)) by ulra. apply (Rmult_le_compat_l be) in G; [|lra]. ulra.
Qed.

Lemma zone_walk_range n1 n2 path : forall i1 i2, zone_walk n1 n2 (i1, i2) path -> (i1 <= n1 - 2 /\ i2 <= n2 - 2)%Z /\ forall q, In q path -> (i1 <= fst q <= n1 - 2 /\ i2 <= snd q <= n2 - 2)%Z.
Proof.
  induction path as [|[j1 j2] path IH]; intros i1 i2 H.
  - cbn in H. injection H as -> ->. split; [lia|intros q []].
  - cbn [zone_walk fst snd] in H. destruct H as (_ & E & _ & H). apply IH in H as [H1 H2].
    assert (Hj : (i1 <= j1 /\ i2 <= j2)%Z) by (destruct E as [[= -> ->]|[= -> ->]]; lia).
    split; [lia|]. intros q [<-|Hq]; [cbn; lia|]. specialize (H2 q Hq). lia.
Qed.
Lemma zone_walk_length n1 n2 path : forall i1 i2, zone_walk n1 n2 (i1, i2) path -> zlen path = (n1 - 2 - i1 + (n2 - 2 - i2))%Z.
Proof.
  induction path as [|[j1 j2] path IH]; intros i1 i2 H; cbn [zone_walk fst snd] in H.
  - injection H as -> ->. rewrite zlen_nil. lia.
  - destruct H as (_ & E & _ & H). apply IH in H. rewrite zlen_cons, H. destruct E as [[= -> ->]|[= -> ->]]; lia.
Qed.
Lemma zone_walk_sizes n1 n2 path : forall i1 i2, (1 <= i1)%Z -> (1 <= i2)%Z -> zone_walk n1 n2 (i1, i2) path ->
  StronglySorted Z.lt (map (fun q => fst q * snd q)%Z ((i1, i2) :: path)).
Proof.
  induction path as [|[j1 j2] path IH]; intros i1 i2 Hi1 Hi2 H; cbn [map].
  - repeat constructor.
  - cbn [zone_walk fst snd] in H. destruct H as (_ & E & _ & H).
    assert (Hj : (i1 * i2 < j1 * j2 /\ 1 <= j1 /\ 1 <= j2)%Z) by (destruct E as [[= -> ->]|[= -> ->]]; nia).
    specialize (IH j1 j2 ltac:(lia) ltac:(lia) H). constructor; auto.
    inversion IH as [|? ? _ Hall]; subst. cbn [map fst snd] in *. constructor; [lia|]. eapply Forall_impl; [|exact Hall]. cbn. lia.
Qed.
Lemma zone_walk_last n1 n2 path : forall i1 i2, zone_walk n1 n2 (i1, i2) path -> exists r, (i1, i2) :: path = r ++ [(n1 - 2, n2 - 2)%Z].
Proof.
  induction path as [|[j1 j2] path IH]; intros i1 i2 H.
  - cbn in H. rewrite H. exists []. reflexivity.
  - cbn [zone_walk] in H. destruct H as (_ & _ & _ & H). apply IH in H as (r & ->). exists ((i1, i2) :: r). reflexivity.
Qed.

(** one zoned field, and the field of reals it rounds *)
Lemma zoned64 l1 n1 b1 l2 n2 b2 i1 i2 : side64 l1 n1 b1 -> side64 l2 n2 b2 -> (1 <= i1 <= n1 - 2)%Z -> (1 <= i2 <= n2 - 2)%Z ->
  exists f g, zoned_rectangle n1 n2 b1 b2 i1 i2 = Ok f /\ zoned_rectangle n1 n2 (bval b1) (bval b2) i1 i2 = Ok g /\
  Forall2 (near2 (9 * u64 * bval l1) (9 * u64 * bval l2)) f g /\ zlen f = (2 * n1 + 2 * n2 - 4 + i1 * i2)%Z.
Proof.
  intros S1 S2 H1 H2. pose proof S1 as (_ & _ & Hn1 & _). pose proof S2 as (_ & _ & Hn2 & _).
  destruct (side_facts l1 n1 b1 S1) as (_ & _ & _ & T1). destruct (side_facts l2 n2 b2 S2) as (_ & _ & _ & T2).
  destruct (zoned_rectangle_spec n1 n2 (bval b1) (bval b2) i1 i2) as (g & Eg & Zg & _); try lia.
  destruct (zoned_near _ _ n1 n2 b1 b2 T1 T2 i1 i2 ltac:(lia) ltac:(lia) ltac:(lia) ltac:(lia) g Eg) as (f & Ef & Hf).
  exists f, g. repeat (split; [assumption|]). now rewrite (Forall2_zlen _ _ _ Hf).
Qed.

Lemma zoned_loop64 tr l1 n1 b1 l2 n2 b2 : side64 l1 n1 b1 -> side64 l2 n2 b2 ->
  forall fuel i1 i2, (1 <= i1 <= n1 - 2)%Z -> (1 <= i2 <= n2 - 2)%Z -> ((n1 - 2 - i1) + (n2 - 2 - i2) <= Z.of_nat fuel)%Z ->
  exists path fs, zoned_loop fuel tr n1 n2 b1 b2 i1 i2 = Ok (map (maybe_transpose tr) fs) /\ zone_walk n1 n2 (i1, i2) path
    /\ Forall2 (fun ij f => zoned_rectangle n1 n2 b1 b2 (fst ij) (snd ij) = Ok f) path fs.
Proof.
  intros S1 S2. induction fuel as [|fuel IH]; intros i1 i2 Hi1 Hi2 Hf.
  - exists [], []. cbn [zoned_loop]. replace ((i1 <? n1 - 2)%Z || (i2 <? n2 - 2)%Z) with false by (symmetry; apply orb_false_iff; rewrite !Z.ltb_ge; lia).
    split; [reflexivity|]. split; [|constructor]. cbn. f_equal; lia.
  - cbn [zoned_loop]. destruct ((i1 <? n1 - 2)%Z || (i2 <? n2 - 2)%Z) eqn:Ec.
    2:{ apply orb_false_iff in Ec. rewrite !Z.ltb_ge in Ec. exists [], []. split; [reflexivity|]. split; [|constructor]. cbn. f_equal; lia. }
    apply orb_true_iff in Ec. rewrite !Z.ltb_lt in Ec.
    destruct (zone_choice l1 n1 b1 l2 n2 b2 i1 i2 S1 S2 Hi1 Hi2 Ec) as (r & q1 & q2 & q1' & q2' & r1 & r2 & -> & -> & -> & -> & -> & E1 & E2 & C).
    cbn [bind]. rewrite E1, E2. cbn [bind]. clear E1 E2. destruct C as [(-> & Hi & Hr)|(-> & -> & Hi & Hr)]; cbn [bind].
    + destruct (zoned64 l1 n1 b1 l2 n2 b2 (i1 + 1) i2 S1 S2 ltac:(lia) Hi2) as (f & _ & Ef & _). rewrite Ef. cbn [bind].
      destruct (IH (i1 + 1)%Z i2) as (path & fs & -> & Hp & Hfs); try lia.
      exists ((i1 + 1, i2)%Z :: path), (f :: fs). cbn [bind map]. split; [reflexivity|]. split; [|constructor; auto].
      cbn [zone_walk fst snd]. split; [intros [= ? ?]; lia|]. split; [now left|]. split; [|exact Hp].
      intros Hs Hne. specialize (Hr Hs). rewrite (proj2 (Z.ltb_lt _ _)) by lia. reflexivity.
    + destruct (zoned64 l1 n1 b1 l2 n2 b2 i1 (i2 + 1) S1 S2 Hi1 ltac:(lia)) as (f & _ & Ef & _). rewrite Ef. cbn [bind].
      destruct (IH i1 (i2 + 1)%Z) as (path & fs & -> & Hp & Hfs); try lia.
      exists ((i1, i2 + 1)%Z :: path), (f :: fs). cbn [bind map]. split; [reflexivity|]. split; [|constructor; auto].
      cbn [zone_walk fst snd]. split; [intros [= ? ?]; lia|]. split; [now right|]. split; [|exact Hp].
      intros Hs Hne. specialize (Hr Hs). rewrite (proj2 (Z.ltb_ge _ _)) by lia. reflexivity.
Qed.

Lemma side_exists l n : finite64 l = true -> p2 (-300) <= bval l <= p2 300 -> (3 <= n <= 2 ^ 31)%Z -> exists b, side64 l n b.
Proof. intros F Hl Hn. destruct (spread64 l n F Hl ltac:(lia)) as (b & E & _). exists b. split; auto. Qed.

(** ** the zoned domain (domains.py:193-248) *)
Lemma zoned_domain64 (l1 l2 : b64) n1 n2 tr : finite64 l1 = true -> finite64 l2 = true -> p2 (-300) <= bval l2 -> bval l2 <= bval l1 <= p2 300 ->
  (3 <= n1 <= 2 ^ 31)%Z -> (3 <= n2 <= 2 ^ 31)%Z ->
  exists b1 b2 path f0 fs, side64 l1 n1 b1 /\ side64 l2 n2 b2 /\ zoned_rectangle_domain l1 l2 n1 n2 tr = Ok (f0 :: map (maybe_transpose tr) fs)
    /\ zone_walk n1 n2 (1, 1)%Z path
    /\ Forall2 (fun ij f => zoned_rectangle n1 n2 b1 b2 (fst ij) (snd ij) = Ok f) ((1, 1)%Z :: path) (f0 :: fs).
Proof.
  intros F1 F2 P2' L Hn1 Hn2. destruct (side_exists l1 n1 F1 ltac:(lra) Hn1) as (b1 & S1). destruct (side_exists l2 n2 F2 ltac:(lra) Hn2) as (b2 & S2).
  destruct (zoned_loop64 tr l1 n1 b1 l2 n2 b2 S1 S2 (Z.to_nat (n1 + n2)) 1 1) as (path & fs & E & Hp & Hfs); try lia.
  destruct (zoned64 l1 n1 b1 l2 n2 b2 1 1 S1 S2 ltac:(lia) ltac:(lia)) as (f & _ & Ef & _).
  exists b1, b2, path, f, fs. split; [exact S1|]. split; [exact S2|]. split; [|split; [exact Hp|constructor; auto]].
  unfold zoned_rectangle_domain. cbn [nle NumB64]. rewrite (proj2 (SFleb_iff l2 l1 F2 F1)) by lra. destruct S1 as (_ & _ & _ & ->). destruct S2 as (_ & _ & _ & ->).
  cbn [bind]. rewrite Ef. cbn [bind]. rewrite E. reflexivity.
Qed.

(** what a successful zoned domain contains *)
Lemma walk_in {A} (P : Z * Z -> A -> Prop) path fs g : Forall2 P path fs -> In g fs -> exists q, In q path /\ P q g.
Proof. apply Forall2_in_r. Qed.

Lemma zoned_facts64 (l1 l2 : b64) n1 n2 tr d : finite64 l1 = true -> finite64 l2 = true -> p2 (-300) <= bval l2 -> bval l2 <= bval l1 <= p2 300 ->
  (3 <= n1 <= 2 ^ 31)%Z -> (3 <= n2 <= 2 ^ 31)%Z -> zoned_rectangle_domain l1 l2 n1 n2 tr = Ok d ->
  zlen d = (1 + (n1 - 3) + (n2 - 3))%Z /\ strictly_increasing (sizes d) /\ (exists r, sizes d = (2 * n1 + 2 * n2 - 3)%Z :: r) /\ (exists r, sizes d = r ++ [n1 * n2]%Z) /\
  (forall f, In f d -> exists g, (f = g \/ f = maybe_transpose tr g) /\ inside (bval l1 * (1 + p2 (-49))) (bval l2 * (1 + p2 (-49))) (real_field g) /\
     forall s, 0 <= s -> s <= bval l1 / IZR (n1 - 1) -> s <= bval l2 / IZR (n2 - 1) -> separated (s - p2 (-48) * (bval l1 + bval l2)) (real_field g)) /\
  (exists f0 r, d = f0 :: r /\ inside (bval l1 * (1 + p2 (-49))) (bval l2 * (1 + p2 (-49))) (real_field f0) /\ forall f, In f r -> exists g, f = maybe_transpose tr g /\ 
     inside (bval l1 * (1 + p2 (-49))) (bval l2 * (1 + p2 (-49))) (real_field g) /\ 
     forall s, 0 <= s -> s <= bval l1 / IZR (n1 - 1) -> s <= bval l2 / IZR (n2 - 1) -> separated (s - p2 (-48) * (bval l1 + bval l2)) (real_field g)).
Proof.
  intros F1 F2 P2' L Hn1 Hn2 E. destruct (zoned_domain64 l1 l2 n1 n2 tr F1 F2 P2' L Hn1 Hn2) as (b1 & b2 & path & f0 & fs & S1 & S2 & E' & Hw & Hall).
  rewrite E in E'. injection E' as ->. destruct (zone_walk_range n1 n2 path 1 1 Hw) as [_ Hr].
  assert (Hr' : forall q, In q ((1, 1)%Z :: path) -> (1 <= fst q <= n1 - 2 /\ 1 <= snd q <= n2 - 2)%Z) by (intros q [<-|Hq]; [cbn; lia|auto]).
  assert (Hsz : sizes (f0 :: fs) = map (fun x => 2 * n1 + 2 * n2 - 4 + x)%Z (map (fun q => fst q * snd q)%Z ((1, 1)%Z :: path))).
  { clear - Hall Hr' S1 S2. revert Hr'. revert Hall. generalize ((1, 1)%Z :: path) (f0 :: fs). induction 1 as [|q f ps gs Hq Hps IH]; intros Hr; [reflexivity|].
    unfold sizes in *. cbn [map]. rewrite IH by (intros; apply Hr; now right). f_equal. destruct (Hr q (or_introl eq_refl)) as [H1 H2].
    destruct (zoned64 l1 n1 b1 l2 n2 b2 (fst q) (snd q) S1 S2 H1 H2) as (f' & _ & Ef & _ & _ & Zf). rewrite Hq in Ef. injection Ef as <-. exact Zf. }
  assert (Hst : sizes (f0 :: map (maybe_transpose tr) fs) = sizes (f0 :: fs)).
  { unfold sizes. cbn [map]. f_equal. rewrite map_map. apply map_ext. intros f. apply maybe_transpose_zlen. }
  split; [|split; [|split; [|split]]].
  - rewrite zlen_cons, zlen_map. inversion Hall as [|? ? ? ? _ Hall']; subst. unfold zlen at 1. rewrite <- (Forall2_length _ _ _ Hall'). fold (zlen path). rewrite (zone_walk_length n1 n2 path 1 1 Hw). lia.
  - unfold strictly_increasing. rewrite Hst, Hsz. apply StronglySorted_map_lt; [lia|]. apply (zone_walk_sizes n1 n2 path 1 1); auto; lia.
  - rewrite Hst, Hsz. cbn [map fst snd]. eexists. f_equal. lia.
  - rewrite Hst, Hsz. destruct (zone_walk_last n1 n2 path 1 1 Hw) as (r & ->). rewrite !map_app. cbn [map fst snd]. eexists. do 2 f_equal. nia.
  - destruct (side_facts l1 n1 b1 S1) as (Fb1 & Rb1 & Mb1 & _). destruct (side_facts l2 n2 b2 S2) as (Fb2 & Rb2 & Mb2 & _). pose proof small_u as [U0 U1]. pose proof (p2_pos (-300)). pose proof (p2_pos (-332)).
    assert (E48 : p2 (-48) = 32 * u64) by (unfold u64; change (-48)%Z with (5 + -53)%Z; rewrite p2_add, (p2_Z 5) by lia; reflexivity).
    assert (E49 : p2 (-49) = 16 * u64) by (unfold u64; change (-49)%Z with (4 + -53)%Z; rewrite p2_add, (p2_Z 4) by lia; reflexivity).
    assert (N1 : 1 <= IZR (n1 - 1)) by (apply (IZR_le 1); lia). assert (N2 : 1 <= IZR (n2 - 1)) by (apply (IZR_le 1); lia).
    assert (Hg : forall g, In g (f0 :: fs) -> inside (bval l1 * (1 + p2 (-49))) (bval l2 * (1 + p2 (-49))) (real_field g) /\
      forall s, 0 <= s -> s <= bval l1 / IZR (n1 - 1) -> s <= bval l2 / IZR (n2 - 1) -> separated (s - p2 (-48) * (bval l1 + bval l2)) (real_field g)).
    { intros g Hg. destruct (walk_in _ _ _ _ Hall Hg) as (q & Hq & Eg). destruct (Hr' q Hq) as [Q1 Q2].
      destruct (zoned64 l1 n1 b1 l2 n2 b2 (fst q) (snd q) S1 S2 Q1 Q2) as (f' & g' & Ef & Eg' & Near & _). rewrite Eg in Ef. injection Ef as <-.
      destruct (zoned_rectangle_spec n1 n2 (bval b1) (bval b2) (fst q) (snd q)) as (g2 & E2 & _ & _ & _ & _ & Geo); try lia. rewrite Eg' in E2. injection E2 as <-.
      destruct (Geo ltac:(lra) ltac:(lra)) as (_ & In' & Sep). split.
      - pose proof (near_inside _ _ _ _ _ _ Near In') as I. intros p Hp. destruct (I p Hp) as [I1 I2]. rewrite E49. nra.
      - intros s Hs0 Hs1 Hs2. rewrite E48.
        assert (G : forall l n b, 1 <= IZR (n - 1) -> bval l * (1 - u64) <= IZR (n - 1) * bval b -> 0 < bval l -> s <= bval l / IZR (n - 1) -> s * (1 - u64) <= bval b /\ s <= bval l).
        { clear - U0 U1 Hs0. intros l n b Hn Hb Hl Hs. assert (Hm : s * IZR (n - 1) <= bval l).
          { apply Rle_trans with (bval l / IZR (n - 1) * IZR (n - 1)); [apply Rmult_le_compat_r; lra|]. apply Req_le. field. lra. }
          split; [|nra]. apply (Rmult_le_reg_l (IZR (n - 1))); [lra|]. nra. }
        destruct (G l1 n1 b1 N1 (proj1 Mb1) ltac:(lra) Hs1) as [G1 G1']. destruct (G l2 n2 b2 N2 (proj1 Mb2) ltac:(lra) Hs2) as [G2 G2'].
        eapply separated_weaken; [|apply (near_separated _ _ _ _ (s * (1 - u64)) Near); apply Sep; nra]. nra. }
    split; [|exists f0, (map (maybe_transpose tr) fs); split; [reflexivity|]; split; [apply Hg; now left|]].
    + intros f [<-|Hf]; [exists f0; split; [now left|apply Hg; now left]|]. apply in_map_iff in Hf as (g & <- & Hf). exists g. split; [now right|apply Hg; now right].
    + intros f Hf. apply in_map_iff in Hf as (g & <- & Hf). exists g. split; [reflexivity|]. apply Hg; now right.
Qed.

(** ** the shapes offered first (domains.py:290-323) *)
Lemma prefix64 tr (lx ly : b64) N1 N2 : finite64 lx = true -> finite64 ly = true -> p2 (-300) <= bval lx <= p2 300 -> p2 (-300) <= bval ly <= p2 300 ->
  (3 <= N1 <= 2 ^ 31)%Z -> (3 <= N2 <= 2 ^ 31)%Z ->
  exists bx by_ fs gs, side64 lx N1 bx /\ side64 ly N2 by_ /\ bi_zoned_prefix tr lx ly N1 N2 = Ok (map (maybe_transpose tr) fs) /\
    Forall2 (Forall2 (near2 (9 * u64 * bval lx) (9 * u64 * bval ly))) fs gs /\ Forall2 (shape_ok (bval bx) (bval by_) N1 N2) (zrange 1 (2 * N1 + 2 * N2 - 3)) gs.
Proof.
  intros Fx Fy Rx Ry H1 H2. destruct (side_exists lx N1 Fx Rx H1) as (bx & Sx). destruct (side_exists ly N2 Fy Ry H2) as (by_ & Sy).
  destruct (side_facts lx N1 bx Sx) as (_ & _ & _ & Tx). destruct (side_facts ly N2 by_ Sy) as (_ & _ & _ & Ty).
  unfold bi_zoned_prefix. pose proof Sx as (_ & _ & _ & ->). pose proof Sy as (_ & _ & _ & ->). cbn [bind].
  set (near := Forall2 (near2 (9 * u64 * bval lx) (9 * u64 * bval ly))).
  assert (Hgen : forall (hF : Z -> res (list (b64 * b64))) (hR : Z -> res (list (R * R))) a b c,
    (forall l, (a <= l < b)%Z -> forall g, hR l = Ok g -> exists f, hF l = Ok f /\ near f g) ->
    (forall l, (a <= l < b)%Z -> exists g, hR l = Ok g /\ shape_ok (bval bx) (bval by_) N1 N2 (l + c) g) ->
    exists fs gs, mapM (fun l => let! r := hF l in Ok (maybe_transpose tr r)) (zrange a b) = Ok (map (maybe_transpose tr) fs) /\ Forall2 near fs gs
      /\ Forall2 (shape_ok (bval bx) (bval by_) N1 N2) (zrange (a + c) (b + c)) gs).
  { intros hF hR a b c HF HR. rewrite zrange_shift.
    assert (G : forall ls, (forall l, In l ls -> (a <= l < b)%Z) -> exists fs gs, mapM (fun l => let! r := hF l in Ok (maybe_transpose tr r)) ls = Ok (map (maybe_transpose tr) fs) /\ Forall2 near fs gs
      /\ Forall2 (shape_ok (bval bx) (bval by_) N1 N2) (map (fun i => (i + c)%Z) ls) gs).
    { induction ls as [|l ls IH]; intros Hl; [exists [], []; repeat split; constructor|].
      destruct (HR l (Hl l (or_introl eq_refl))) as (g & Eg & Sg). destruct (HF l (Hl l (or_introl eq_refl)) g Eg) as (f & Ef & Nf).
      destruct IH as (fs & gs & E & A & B); [intros; apply Hl; now right|]. exists (f :: fs), (g :: gs). cbn [mapM]. rewrite Ef. cbn [bind]. rewrite E. cbn [bind map].
      split; [reflexivity|]. split; constructor; auto. }
    apply G. intros l Hl. now apply in_zrange in Hl. }
  destruct (Hgen (fun l => rectangle l 1 bx by_) (fun l => rectangle l 1 (bval bx) (bval by_)) 1 (N1 + 1) 0)%Z as (f1 & g1 & -> & A1 & F1).
  { intros l Hl. apply (line_near _ _ N1 N2 bx by_ Tx Ty l). lia. }
  { intros l Hl. rewrite rectangle_grid by lia. eexists; split; [reflexivity|].
    destruct (grid_field_spec l 1 (bval bx) (bval by_)) as (Hz & Hm & Hn); try lia. repeat split; auto; [lia|].
    intros p Hp. apply Hm in Hp as (i & j & Hi & Hj & ->). exists i, j. repeat split; lia. }
  cbn [bind].
  destruct (Hgen (fun l => L_shape N1 l bx by_) (fun l => L_shape N1 l (bval bx) (bval by_)) 2 (N2 + 1) (N1 - 1))%Z as (f2 & g2 & -> & A2 & F2).
  { intros l Hl. apply (L_near _ _ N1 N2 bx by_ Tx Ty l). lia. }
  { intros l Hl. destruct (L_shape_spec N1 l (bval bx) (bval by_)) as (f & -> & Hz & Hm & Hn); try lia. eexists; split; [reflexivity|].
    repeat split; auto; [lia|].
    intros p Hp. apply Hm in Hp as (i & j & Hi & Hj & _ & ->). exists i, j. repeat split; lia. }
  cbn [bind].
  destruct (Hgen (fun l => lop_U N1 N2 bx by_ l) (fun l => lop_U N1 N2 (bval bx) (bval by_) l) 2 (N2 + 1) (N1 + N2 - 2))%Z as (f3 & g3 & -> & A3 & F3).
  { intros l Hl. apply (lop_U_near _ _ N1 N2 bx by_ Tx Ty l). lia. }
  { intros l Hl. destruct (lop_U_spec N1 N2 (bval bx) (bval by_) l) as (f & -> & Hz & Hm & Hn); try lia. eexists; split; [reflexivity|].
    split; [lia|]. split; [|intros; apply Hn; auto; lia].
    intros p Hp. apply Hm in Hp as (i & j & Hi & Hj & Hjj & ->). exists i, j. repeat split; lia. }
  cbn [bind].
  destruct (Hgen (fun l => C_shape N1 N2 bx by_ l) (fun l => C_shape N1 N2 (bval bx) (bval by_) l) 1 (N1 - 1) (N1 + 2 * N2 - 2))%Z as (f4 & g4 & -> & A4 & F4).
  { intros l Hl. apply (C_near _ _ N1 N2 bx by_ Tx Ty l). lia. }
  { intros l Hl. destruct (C_shape_spec N1 N2 (bval bx) (bval by_) l) as (f & -> & Hz & Hm & Hn); try lia. eexists; split; [reflexivity|].
    split; [lia|]. split.
    - intros p Hp. apply Hm in Hp as (i & j & -> & Hij). exists i, j. repeat split; lia.
    - intros; apply Hn; auto; lia. }
  cbn [bind]. exists bx, by_, (f1 ++ f2 ++ f3 ++ f4), (g1 ++ g2 ++ g3 ++ g4). split; [exact Sx|]. split; [exact Sy|]. split; [now rewrite !map_app|].
  split; [repeat apply Forall2_app; auto|].
  rewrite (zrange_app 1 (N1 + 1)) by lia. apply Forall2_app; [now rewrite !Z.add_0_r in F1|].
  rewrite (zrange_app (N1 + 1) (N1 + N2)) by lia. apply Forall2_app.
  { replace (2 + (N1 - 1))%Z with (N1 + 1)%Z in F2 by lia. now replace (N2 + 1 + (N1 - 1))%Z with (N1 + N2)%Z in F2 by lia. }
  rewrite (zrange_app (N1 + N2) (N1 + 2 * N2 - 1)) by lia. apply Forall2_app.
  { replace (2 + (N1 + N2 - 2))%Z with (N1 + N2)%Z in F3 by lia.
    now replace (N2 + 1 + (N1 + N2 - 2))%Z with (N1 + 2 * N2 - 1)%Z in F3 by lia. }
  replace (1 + (N1 + 2 * N2 - 2))%Z with (N1 + 2 * N2 - 1)%Z in F4 by lia.
  now replace (N1 - 1 + (N1 + 2 * N2 - 2))%Z with (2 * N1 + 2 * N2 - 3)%Z in F4 by lia.
Qed.

(** sizes, land and spacing of these shapes *)
Lemma prefix_facts64 tr (lx ly : b64) N1 N2 pre : finite64 lx = true -> finite64 ly = true -> p2 (-300) <= bval lx <= p2 300 -> p2 (-300) <= bval ly <= p2 300 ->
  (3 <= N1 <= 2 ^ 31)%Z -> (3 <= N2 <= 2 ^ 31)%Z -> bi_zoned_prefix tr lx ly N1 N2 = Ok pre ->
  sizes pre = zrange 1 (2 * N1 + 2 * N2 - 3) /\
  forall f, In f pre -> exists g, f = maybe_transpose tr g /\ inside (bval lx * (1 + p2 (-49))) (bval ly * (1 + p2 (-49))) (real_field g) /\
    forall s, 0 <= s -> s <= bval lx / IZR (N1 - 1) -> s <= bval ly / IZR (N2 - 1) -> separated (s - p2 (-48) * (bval lx + bval ly)) (real_field g).
Proof.
  intros Fx Fy Rx Ry H1 H2 E. destruct (prefix64 tr lx ly N1 N2 Fx Fy Rx Ry H1 H2) as (bx & by_ & fs & gs & Sx & Sy & E' & HN & HS). rewrite E in E'. injection E' as ->.
  assert (Z : sizes (map (maybe_transpose tr) fs) = sizes gs).
  { unfold sizes. rewrite map_map. clear - HN. induction HN as [|f g fs gs Hf _ IH]; [reflexivity|]. apply (f_equal2 cons); [|exact IH]. change (zlen (maybe_transpose tr f) = zlen g). rewrite maybe_transpose_zlen. exact (Forall2_zlen _ _ _ Hf). }
  split; [rewrite Z; eapply shapes_sizes; exact HS|].
  intros f Hf. apply in_map_iff in Hf as (g & <- & Hg). exists g. split; [reflexivity|].
  apply In_nth_error in Hg as (i & Hi). destruct (Forall2_nth_l _ _ _ HN i g Hi) as (g' & Hg' & Near). apply nth_error_In in Hg'.
  destruct (Forall2_in_r _ _ _ _ HS Hg') as (z & _ & _ & Hm & Hnd).
  destruct (side_facts lx N1 bx Sx) as (Fb1 & Rb1 & Mb1 & _). destruct (side_facts ly N2 by_ Sy) as (Fb2 & Rb2 & Mb2 & _). pose proof small_u as [U0 U1]. pose proof (p2_pos (-300)). pose proof (p2_pos (-332)).
  assert (E48 : p2 (-48) = 32 * u64) by (unfold u64; change (-48)%Z with (5 + -53)%Z; rewrite p2_add, (p2_Z 5) by lia; reflexivity).
  assert (E49 : p2 (-49) = 16 * u64) by (unfold u64; change (-49)%Z with (4 + -53)%Z; rewrite p2_add, (p2_Z 4) by lia; reflexivity).
  assert (K1 : 1 <= IZR (N1 - 1)) by (apply (IZR_le 1); lia). assert (K2 : 1 <= IZR (N2 - 1)) by (apply (IZR_le 1); lia). split.
  - assert (In' : inside (bval lx * (1 + u64)) (bval ly * (1 + u64)) g').
    { eapply grid_inside; [| |intros p Hp; destruct (Hm p Hp) as (i' & j' & Hi' & Hj' & ->); exists i', j'; split; [lia|]; split; [lia|]; split; [|split; [|reflexivity]]]; try lra.
      - apply Rle_trans with (IZR (N1 - 1) * bval bx); [apply Rmult_le_compat_r; [lra|apply IZR_le; lia]|lra].
      - apply Rle_trans with (IZR (N2 - 1) * bval by_); [apply Rmult_le_compat_r; [lra|apply IZR_le; lia]|lra]. }
    pose proof (near_inside _ _ _ _ _ _ Near In') as I. intros p Hp. destruct (I p Hp) as [I1 I2]. rewrite E49. nra.
  - intros s Hs0 Hs1 Hs2. rewrite E48.
    assert (G : forall l n b, 1 <= IZR (n - 1) -> bval l * (1 - u64) <= IZR (n - 1) * bval b -> 0 < bval l -> s <= bval l / IZR (n - 1) -> s * (1 - u64) <= bval b /\ s <= bval l).
    { clear - U0 U1 Hs0. intros l n b Hn Hb Hl Hs. assert (Hm : s * IZR (n - 1) <= bval l).
      { apply Rle_trans with (bval l / IZR (n - 1) * IZR (n - 1)); [apply Rmult_le_compat_r; lra|]. apply Req_le. field. lra. }
      split; [|nra]. apply (Rmult_le_reg_l (IZR (n - 1))); [lra|]. nra. }
    destruct (G lx N1 bx K1 (proj1 Mb1) ltac:(lra) Hs1) as [G1 G1']. destruct (G ly N2 by_ K2 (proj1 Mb2) ltac:(lra) Hs2) as [G2 G2'].
    assert (Sep : separated (s * (1 - u64)) g').
    { eapply grid_separated; [|exact G1|exact G2|apply Hnd; lra|]; [nra|]. intros p Hp. destruct (Hm p Hp) as (i' & j' & _ & _ & ->). eauto. }
    eapply separated_weaken; [|apply (near_separated _ _ _ _ _ Near Sep)]. nra.
Qed.

(** ** the nested zoned domains (domains.py:251-346) *)
(** l / b + 1, computed *)
Lemma ratio64 (l b : b64) : finite64 l = true -> finite64 b = true -> p2 (-300) <= bval l <= p2 300 -> p2 (-300) <= bval b <= p2 300 ->
  exists s, n_float l b = Ok s /\ finite64 s = true /\ Rabs (bval s - (bval l / bval b + 1)) <= 3 * u64 * (bval l / bval b + 1).
Proof.
  intros Fl Fb Rl Rb. pose proof small_u as [U0 U1]. pose proof (p2_pos (-300)).
  pose proof (div_range (-300) 300 (-300) 300 (bval l) (bval b) ltac:(lra) ltac:(lra) Rl Rb) as D. pose proof (p2_le (-1022) (-300 - 300) ltac:(lia)). pose proof (p2_le (300 - -300) 1021 ltac:(lia)).
  pose proof (p2_pos (-300 - 300)). pose proof (p2_le 0 1021 ltac:(lia)) as B2. change (p2 0) with 1 in B2. 
  assert (E2 : p2 1021 * 4 = p2 1023) by (change 1023%Z with (1021 + 2)%Z; rewrite p2_add, (p2_Z 2) by lia; reflexivity). pose proof (p2_pos 1021).
  destruct (div_tight l b Fl Fb ltac:(lra) ltac:(lra)) as (q & Eq & Nq & Er). apply Rabs_near in Er. set (x := bval l / bval b) in *.
  destruct (b64_ofZ_exact 1 ltac:(lia)) as [F1 E1]. unfold n_float. rewrite Eq. cbn [bind]. eexists. split; [reflexivity|].
  pose proof (SFadd_rounded q (b64_ofZ 1) (proj1 Nq) F1) as Rs. rewrite E1 in Rs. change (SFadd 53 1024 q (b64_ofZ 1)) with (nadd q (nofZ 1)) in Rs.
  assert (Q0 : 0 < bval q) by nra. destruct (rounded_rel_tight _ _ Rs) as [Ns Es]; [rewrite Rabs_pos_eq by lra; nra|]. rewrite (Rabs_pos_eq (bval q + 1)) in Es by lra. apply Rabs_near in Es.
  split; [apply Ns|]. set (v := bval (nadd q (nofZ 1))) in *. apply Rabs_le. ulra.
Qed.

(** the orientation of the land *)
Definition oriented64 (lx ly l1 l2 : b64) (tr : bool) : Prop :=
  (bval ly <= bval lx /\ l1 = lx /\ l2 = ly /\ tr = false) \/ (bval lx < bval ly /\ l1 = ly /\ l2 = lx /\ tr = true).

Lemma bi_zoned_setup64 (lx ly bmin bmax_x bmax_y : b64) : ordinary_lengths lx ly bmin bmax_x -> ordinary_lengths lx ly bmin bmax_y ->
  exists l1 l2 tr N1 M1 N2 M2, oriented64 lx ly l1 l2 tr /\ finite64 l1 = true /\ finite64 l2 = true /\ p2 (-300) <= bval l2 /\ bval l2 <= bval l1 <= p2 300 /\
   (2 <= N1)%Z /\ (2 <= N2)%Z /\ (M1 <= 2 ^ 30 + 2)%Z /\ (M2 <= 2 ^ 30 + 2)%Z /\
   ((2 <= M1)%Z -> IZR (M1 - 1) * bval bmin <= bval l1 * (1 + 4 * u64)) /\ ((2 <= M2)%Z -> IZR (M2 - 1) * bval bmin <= bval l2 * (1 + 4 * u64)) /\
   (exists s1 t1 s2 t2, N1 = Rceil s1 /\ M1 = Rfloor t1 /\ N2 = Rceil s2 /\ M2 = Rfloor t2 /\
      (forall x, x = bval l1 / bval (if tr then bmax_y else bmax_x) + 1 -> Rabs (s1 - x) <= 3 * u64 * x) /\ (forall x, x = bval l1 / bval bmin + 1 -> Rabs (t1 - x) <= 3 * u64 * x) /\
      (forall x, x = bval l2 / bval (if tr then bmax_x else bmax_y) + 1 -> Rabs (s2 - x) <= 3 * u64 * x) /\ (forall x, x = bval l2 / bval bmin + 1 -> Rabs (t2 - x) <= 3 * u64 * x)) /\
   bi_rectangle_zoned_nested lx ly bmin bmax_x bmax_y =
     let! s := foldM (bi_zoned_body tr lx ly l1 l2 N1 N2 (zrange N1 (M1 + 1)) (zrange N2 (M2 + 1))) (zrange 0 (Z.max 0 (M1 + 1 - N1) + Z.max 0 (M2 + 1 - N2) - 1)) (0%Z, 0%Z, 0%Z, []) in Ok (snd s).
Proof.
  intros ((Flx & Fly & Fbn & Fbx) & (Rlx & Rly & Rbn & Rbx) & (M1 & M2) & K1 & K2) ((_ & _ & _ & Fby) & (_ & _ & _ & Rby) & _ & K1' & K2'). unfold bi_rectangle_zoned_nested.
  assert (C : exists (l1 l2 : b64) (tr : bool), (if nle ly lx then (lx, ly, bmax_x, bmax_y, false) else (ly, lx, bmax_y, bmax_x, true)) = (l1, l2, (if tr then bmax_y else bmax_x), (if tr then bmax_x else bmax_y), tr) /\
    oriented64 lx ly l1 l2 tr /\ finite64 l1 = true /\ finite64 l2 = true /\ finite64 (if tr then bmax_y else bmax_x) = true /\ finite64 (if tr then bmax_x else bmax_y) = true /\
    p2 (-300) <= bval (if tr then bmax_y else bmax_x) <= p2 300 /\ p2 (-300) <= bval (if tr then bmax_x else bmax_y) <= p2 300 /\
    p2 (-300) <= bval l2 /\ bval l2 <= bval l1 <= p2 300 /\ bval l1 <= p2 30 * bval bmin /\ bval (if tr then bmax_y else bmax_x) <= p2 50 * bval l1 /\ bval (if tr then bmax_x else bmax_y) <= p2 50 * bval l2).
  { cbn [nle NumB64]. destruct (SFleb ly lx) eqn:E.
    - apply SFleb_iff in E; auto. exists lx, ly, false. split; [reflexivity|]. split; [left; auto|]. repeat (split; [solve [auto|lra]|]). lra.
    - assert (~ bval ly <= bval lx) by (intros H; apply SFleb_iff in H; auto; congruence). exists ly, lx, true. split; [reflexivity|]. split; [right; repeat split; auto; lra|]. repeat (split; [solve [auto|lra]|]). lra. }
  destruct C as (l1 & l2 & tr & -> & O & F1 & F2 & Gx & Gy & Tx & Ty & H2 & H1 & L & KX & KY). clear M1 M2 K1 K2 K1' K2'. pose proof small_u as [U0 U1]. pose proof (p2_pos (-300)) as P3.
  set (b1 := if tr then bmax_y else bmax_x) in *. set (b2 := if tr then bmax_x else bmax_y) in *.
  pose proof (div_range (-300) 300 (-300) 300 (bval l2) (bval bmin) ltac:(lra) ltac:(lra) ltac:(lra) Rbn) as D2. pose proof (p2_le (-1022) (-300 - 300) ltac:(lia)).
  pose proof (div_range (-300) 300 (-300) 300 (bval l1) (bval bmin) ltac:(lra) ltac:(lra) ltac:(lra) Rbn) as D1.
  assert (X2 : bval l2 / bval bmin <= p2 30) by (apply (Rmult_le_reg_r (bval bmin)); [lra|]; replace (bval l2 / bval bmin * bval bmin) with (bval l2) by (field; lra); lra).
  assert (X1 : bval l1 / bval bmin <= p2 30) by (apply (Rmult_le_reg_r (bval bmin)); [lra|]; replace (bval l1 / bval bmin * bval bmin) with (bval l1) by (field; lra); lra).
  pose proof (p2_le 30 51 ltac:(lia)).
  destruct (ratio64 l1 bmin F1 Fbn ltac:(lra) Rbn) as (t1 & Et1 & Ft1 & At1). destruct (ratio64 l1 b1 F1 Gx ltac:(lra) Tx) as (s1 & Es1 & Fs1 & As1).
  destruct (ratio64 l2 bmin F2 Fbn ltac:(lra) Rbn) as (t2 & Et2 & Ft2 & At2). destruct (ratio64 l2 b2 F2 Gy ltac:(lra) Ty) as (s2 & Es2 & Fs2 & As2).
  rewrite Et1, Es1, Et2, Es2. cbn [bind]. rewrite (ceil64 s1 Fs1), (ceil64 s2 Fs2), (floor64 t1 Ft1), (floor64 t2 Ft2). cbn [bind].
  destruct (count64 l1 bmin F1 Fbn ltac:(lra) ltac:(lra) ltac:(lra)) as (q1 & m1 & Eq1 & _ & _ & _ & _ & Em1 & Hm1 & Hmb1 & _).
  destruct (count64 l2 bmin F2 Fbn ltac:(lra) ltac:(lra) ltac:(lra)) as (q2 & m2 & Eq2 & _ & _ & _ & _ & Em2 & Hm2 & Hmb2 & _).
  destruct (count_up64 l1 b1 F1 Gx ltac:(lra) Tx KX) as (q1' & k1 & Eq1' & Ek1 & Hk1). destruct (count_up64 l2 b2 F2 Gy ltac:(lra) Ty KY) as (q2' & k2 & Eq2' & Ek2 & Hk2).
  unfold n_float in Et1, Es1, Et2, Es2. rewrite Eq1 in Et1. rewrite Eq2 in Et2. rewrite Eq1' in Es1. rewrite Eq2' in Es2. cbn [bind] in *.
  assert (Z1 : nadd q1 (nofZ 1) = t1) by congruence. assert (Z2 : nadd q2 (nofZ 1) = t2) by congruence. 
  assert (Z3 : nadd q1' (nofZ 1) = s1) by congruence. assert (Z4 : nadd q2' (nofZ 1) = s2) by congruence.
  rewrite Z1 in Em1. rewrite Z2 in Em2. rewrite Z3 in Ek1. rewrite Z4 in Ek2.
  rewrite (floor64 t1 Ft1) in Em1. rewrite (floor64 t2 Ft2) in Em2. rewrite (ceil64 s1 Fs1) in Ek1. rewrite (ceil64 s2 Fs2) in Ek2.
  injection Em1 as Em1. injection Em2 as Em2. injection Ek1 as Ek1. injection Ek2 as Ek2. subst m1 m2 k1 k2.
  assert (N30 : forall n l, bval l <= bval l1 -> ((2 <= n)%Z -> IZR (n - 1) * bval bmin <= bval l * (1 + 4 * u64)) -> (n <= 2 ^ 30 + 2)%Z).
  { clear - U0 U1 L Rbn P3. intros n l Hl M. assert (E30 : p2 30 = 1073741824) by (rewrite p2_Z by lia; reflexivity). rewrite E30 in L.
    destruct (Z_le_gt_dec n 1) as [Hn|Hn]; [lia|]. specialize (M ltac:(lia)). assert (IZR (n - 1) <= 1073741824 * (1 + 4 * u64)) by nra.
    assert (HZ : IZR (n - 1) < IZR 1073741826) by nra. apply lt_IZR in HZ. lia. }
  exists l1, l2, tr, (Rceil (bval s1)), (Rfloor (bval t1)), (Rceil (bval s2)), (Rfloor (bval t2)).
  do 7 (split; [first [assumption|lia|lra]|]). split; [exact (N30 _ l1 ltac:(lra) Hmb1)|]. split; [exact (N30 _ l2 ltac:(lra) Hmb2)|]. split; [exact Hmb1|]. split; [exact Hmb2|].
  split.
  - exists (bval s1), (bval t1), (bval s2), (bval t2). do 4 (split; [reflexivity|]). fold b1 b2. repeat split; intros x ->; assumption.
  - rewrite !zrange_zlen. reflexivity.
Qed.

Lemma zoned_domain_short64 (l1 l2 : b64) n1 n2 tr : finite64 l1 = true -> finite64 l2 = true -> p2 (-300) <= bval l2 -> bval l2 <= bval l1 <= p2 300 ->
  (2 <= n1 <= 2 ^ 31)%Z -> (2 <= n2 <= 2 ^ 31)%Z -> (n1 = 2 \/ n2 = 2)%Z -> zoned_rectangle_domain l1 l2 n1 n2 tr = Err ValueError.
Proof.
  intros F1 F2 P2' L Hn1 Hn2 H. unfold zoned_rectangle_domain. cbn [nle NumB64]. rewrite (proj2 (SFleb_iff l2 l1 F2 F1)) by lra.
  destruct (spread64 l1 n1 F1 ltac:(lra) Hn1) as (b1 & -> & _). destruct (spread64 l2 n2 F2 ltac:(lra) Hn2) as (b2 & -> & _). cbn [bind].
  unfold zoned_rectangle. destruct (Z.ltb_spec (n1 - 2) 1) as [A|A]; [reflexivity|]. cbn [raise_if bind]. rewrite (proj2 (Z.ltb_lt (n2 - 2) 1)) by lia. reflexivity.
Qed.
Lemma prefix_ok64 tr (lx ly : b64) N1 N2 : finite64 lx = true -> finite64 ly = true -> p2 (-300) <= bval lx <= p2 300 -> p2 (-300) <= bval ly <= p2 300 ->
  (3 <= N1 <= 2 ^ 31)%Z -> (3 <= N2 <= 2 ^ 31)%Z -> exists pre, bi_zoned_prefix tr lx ly N1 N2 = Ok pre.
Proof. intros Fx Fy Rx Ry H1 H2. destruct (prefix64 tr lx ly N1 N2 Fx Fy Rx Ry H1 H2) as (? & ? & ? & ? & _ & _ & E & _). eauto. Qed.

(** the domains: shapes, then a staircase of zoned domains *)
Lemma bi_zoned_ok64 (lx ly l1 l2 : b64) tr N1 M1 N2 M2 : finite64 lx = true -> finite64 ly = true -> p2 (-300) <= bval lx <= p2 300 -> p2 (-300) <= bval ly <= p2 300 ->
  finite64 l1 = true -> finite64 l2 = true -> p2 (-300) <= bval l2 -> bval l2 <= bval l1 <= p2 300 -> (3 <= N1 <= M1)%Z -> (3 <= N2 <= M2)%Z -> (M1 <= 2 ^ 31)%Z -> (M2 <= 2 ^ 31)%Z ->
  exists path pre d ds, (let! s := foldM (bi_zoned_body tr lx ly l1 l2 N1 N2 (zrange N1 (M1 + 1)) (zrange N2 (M2 + 1))) (zrange 0 (Z.max 0 (M1 + 1 - N1) + Z.max 0 (M2 + 1 - N2) - 1)) (0%Z, 0%Z, 0%Z, []) in Ok (snd s))
      = Ok ((pre ++ d) :: ds) /\ bi_zoned_prefix tr lx ly N1 N2 = Ok pre /\ staircase 0 M1 M2 (N1, N2) path
    /\ Forall2 (fun n d => zoned_rectangle_domain l1 l2 (fst n) (snd n) tr = Ok d) ((N1, N2) :: path) (d :: ds).
Proof.
  intros Fx Fy Rx Ry F1 F2 H2 H1 HN1 HN2 HM1 HM2.
  destruct (bi_zoned_loop tr lx ly l1 l2 N1 M1 N2 M2 HN1 HN2) as (path & pre & d & ds & s & Hf & Hr).
  - intros n1 n2 Hn1 Hn2. destruct (zoned_domain64 l1 l2 n1 n2 tr F1 F2 H2 H1 ltac:(lia) ltac:(lia)) as (? & ? & ? & ? & ? & _ & _ & E & _). eauto.
  - apply prefix_ok64; auto; lia.
  - exists path, pre, d, ds. split; [|exact Hr].
    replace (Z.max 0 (M1 + 1 - N1) + Z.max 0 (M2 + 1 - N2) - 1)%Z with (M1 - N1 + (M2 - N2) + 1)%Z by lia. rewrite Hf. reflexivity.
Qed.

(** the first shapes need two columns and two rows only; nothing but their failure or success matters *)
Lemma prefix_any64 {A} tr (lx ly : b64) N1 N2 (k : list (list (b64 * b64)) -> res A) e a : (forall pre, k pre = Err e) -> (let! pre := bi_zoned_prefix tr lx ly N1 N2 in k pre) = Ok a -> False.
Proof. intros H E. destruct (bi_zoned_prefix tr lx ly N1 N2); cbn [bind] in E; [rewrite H in E|]; discriminate. Qed.

Lemma bi_zoned_cases64 (lx ly bmin bmax_x bmax_y : b64) dd : ordinary_lengths lx ly bmin bmax_x -> ordinary_lengths lx ly bmin bmax_y ->
  bi_rectangle_zoned_nested lx ly bmin bmax_x bmax_y = Ok dd ->
  dd = [] \/ exists l1 l2 tr N1 M1 N2 M2 path pre d ds, oriented64 lx ly l1 l2 tr /\ finite64 l1 = true /\ finite64 l2 = true /\ p2 (-300) <= bval l2 /\ bval l2 <= bval l1 <= p2 300 /\
    (3 <= N1 <= M1)%Z /\ (3 <= N2 <= M2)%Z /\ (M1 <= 2 ^ 31)%Z /\ (M2 <= 2 ^ 31)%Z /\
    IZR (M1 - 1) * bval bmin <= bval l1 * (1 + 4 * u64) /\ IZR (M2 - 1) * bval bmin <= bval l2 * (1 + 4 * u64) /\
    dd = (pre ++ d) :: ds /\ bi_zoned_prefix tr lx ly N1 N2 = Ok pre /\ staircase 0 M1 M2 (N1, N2) path
    /\ Forall2 (fun n d => zoned_rectangle_domain l1 l2 (fst n) (snd n) tr = Ok d) ((N1, N2) :: path) (d :: ds).
Proof.
  intros HO1 HO2 E. destruct (bi_zoned_setup64 lx ly bmin bmax_x bmax_y HO1 HO2) as (l1 & l2 & tr & N1 & M1 & N2 & M2 & O & F1 & F2 & H2 & H1 & HN1 & HN2 & HM1 & HM2 & B1 & B2 & _ & U).
  rewrite U in E. clear U. destruct HO1 as ((Flx & Fly & _) & (Rlx & Rly & _) & _). clear HO2.
  set (T := (Z.max 0 (M1 + 1 - N1) + Z.max 0 (M2 + 1 - N2) - 1)%Z) in *.
  assert (Hc : ((M1 < N1 \/ M2 < N2) \/ (N1 = 2 \/ N2 = 2) /\ N1 <= M1 /\ N2 <= M2 \/ (3 <= N1 <= M1 /\ 3 <= N2 <= M2))%Z) by lia.
  destruct Hc as [Hc|[(Hc & Hc1 & Hc2)|(Hc1 & Hc2)]].
  - left. destruct (Z.leb_spec T 0) as [HT|HT]; [rewrite (zrange_nil 0 T) in E by auto; cbn [foldM bind snd] in E; now injection E as <-|exfalso].
    rewrite (zrange_cons 0 T) in E by auto. cbn [foldM] in E. unfold bi_zoned_body at 1 in E. change (0 =? 0)%Z with true in E. cbv iota in E.
    destruct (bi_zoned_prefix tr lx ly N1 N2) as [p|]; cbn [bind] in E; [|discriminate].
    destruct (Z.lt_ge_cases M1 N1) as [H|H].
    + rewrite (zrange_nil N1) in E by lia. rewrite py_nth_nil in E. discriminate.
    + rewrite py_nth_zrange in E by lia. cbn [bind] in E. rewrite (zrange_nil N2) in E by lia. rewrite py_nth_nil in E. discriminate.
  - exfalso. rewrite (zrange_cons 0 T) in E by (unfold T; lia). cbn [foldM] in E. unfold bi_zoned_body at 1 in E. change (0 =? 0)%Z with true in E. cbv iota in E.
    destruct (bi_zoned_prefix tr lx ly N1 N2) as [p|]; cbn [bind] in E; [|discriminate]. rewrite !py_nth_zrange in E by lia. cbn [bind] in E.
    rewrite zoned_domain_short64 in E by (auto; lia). discriminate.
  - right. destruct (bi_zoned_ok64 lx ly l1 l2 tr N1 M1 N2 M2 Flx Fly Rlx Rly F1 F2 H2 H1 Hc1 Hc2 ltac:(lia) ltac:(lia)) as (path & pre & d & ds & E' & Hr).
    fold T in E'. rewrite E in E'. injection E' as ->. exists l1, l2, tr, N1, M1, N2, M2, path, pre, d, ds.
    do 4 (split; [assumption|]). split; [exact H1|]. do 2 (split; [assumption|]). split; [lia|]. split; [lia|]. split; [apply B1; lia|]. split; [apply B2; lia|]. split; [reflexivity|exact Hr].
Qed.

Lemma bi_zoned_grows64 (lx ly bmin bmax_x bmax_y : b64) dd : ordinary_lengths lx ly bmin bmax_x -> ordinary_lengths lx ly bmin bmax_y ->
  bi_rectangle_zoned_nested lx ly bmin bmax_x bmax_y = Ok dd -> forall d, In d dd -> strictly_increasing (sizes d) /\ (1 <= length d)%nat.
Proof.
  intros HO1 HO2 E d Hd. assert (G : strictly_increasing (sizes d) /\ sizes d <> []).
  2:{ destruct G as [G1 G2]. split; [exact G1|]. destruct d; [now contradiction G2|cbn; lia]. }
  destruct (bi_zoned_cases64 lx ly bmin bmax_x bmax_y dd HO1 HO2 E) as [->|(l1 & l2 & tr & N1 & M1 & N2 & M2 & path & pre & z & ds & O & F1 & F2 & H2 & H1 & HN1 & HN2 & HM1 & HM2 & _ & _ & -> & Hpre & Hst & Hall)]; [destruct Hd|].
  destruct HO1 as ((Flx & Fly & _) & (Rlx & Rly & _) & _). inversion Hall as [|? ? ? ? Hz Hall']; subst. destruct Hd as [<-|Hd].
  - cbn [fst snd] in Hz. destruct (zoned_facts64 l1 l2 N1 N2 tr z F1 F2 H2 H1 ltac:(lia) ltac:(lia) Hz) as (_ & Hinc & (r & Hr) & _).
    destruct (prefix_facts64 tr lx ly N1 N2 pre Flx Fly Rlx Rly ltac:(lia) ltac:(lia) Hpre) as (Hs & _).
    rewrite sizes_app', Hs. split; [|rewrite Hr; destruct (zrange 1 _); discriminate]. apply StronglySorted_app; auto.
    + rewrite <- (map_id (zrange _ _)). apply (StronglySorted_map_zrange (fun i => i)). auto.
    + intros x y Hx' Hy'. apply in_zrange in Hx'. unfold strictly_increasing in Hinc. rewrite Hr in Hy', Hinc. apply StronglySorted_inv in Hinc as [_ Hf].
      rewrite Forall_forall in Hf. destruct Hy' as [<-|Hy']; [lia|]. apply Hf in Hy'. lia.
  - destruct (Forall2_in_r _ _ _ _ Hall' Hd) as (q & Hq & Eq). apply (staircase_range M1 M2 path 0 N1 N2) in Hq; auto; try lia.
    destruct (zoned_facts64 l1 l2 (fst q) (snd q) tr d F1 F2 H2 H1 ltac:(lia) ltac:(lia) Eq) as (_ & Hinc & (r & Hr) & _). split; [exact Hinc|rewrite Hr; discriminate].
Qed.

Lemma spacing_room (l b : b64) n M : (2 <= n <= M)%Z -> 0 < bval b -> 0 < bval l -> IZR (M - 1) * bval b <= bval l * (1 + 4 * u64) -> bval b * (1 - 4 * u64) <= bval l / IZR (n - 1).
Proof.
  intros Hn Pb Pl H. pose proof small_u as [U0 U1]. assert (N1 : 1 <= IZR (n - 1)) by (apply (IZR_le 1); lia).
  assert (IZR (n - 1) * bval b <= bval l * (1 + 4 * u64)). { apply Rle_trans with (2 := H). apply Rmult_le_compat_r; [lra|apply IZR_le; lia]. }
  apply (Rmult_le_reg_l (IZR (n - 1))); [lra|]. replace (IZR (n - 1) * (bval l / IZR (n - 1))) with (bval l) by (field; lra). nra.
Qed.

Lemma bi_zoned_land64 (lx ly bmin bmax_x bmax_y : b64) dd : ordinary_lengths lx ly bmin bmax_x -> ordinary_lengths lx ly bmin bmax_y -> bval ly <= bval lx ->
  bi_rectangle_zoned_nested lx ly bmin bmax_x bmax_y = Ok dd -> forall d f, In d dd -> In f d -> (1 <= zlen f)%Z /\
    inside (bval lx * (1 + p2 (-49))) (bval ly * (1 + p2 (-49))) (real_field f) /\ separated (bval bmin * (1 - p2 (-16))) (real_field f).
Proof.
  intros HO1 HO2 Hl E d f Hd Hf. pose proof (bi_zoned_grows64 _ _ _ _ _ _ HO1 HO2 E d Hd) as [Hinc _].
  destruct (bi_zoned_cases64 lx ly bmin bmax_x bmax_y dd HO1 HO2 E) as [->|(l1 & l2 & tr & N1 & M1 & N2 & M2 & path & pre & z & ds & O & F1 & F2 & H2 & H1 & HN1 & HN2 & HM1 & HM2 & B1 & B2 & -> & Hpre & Hst & Hall)]; [destruct Hd|].
  destruct O as [(_ & -> & -> & ->)|(O & _)]; [|lra].
  destruct HO1 as ((Flx & Fly & Fbn & _) & (Rlx & Rly & Rbn & _) & (L1 & L2) & _). pose proof small_u as [U0 U1]. pose proof (p2_pos (-300)) as P3.
  assert (Sp : forall g n1 n2, (3 <= n1 <= M1)%Z -> (3 <= n2 <= M2)%Z -> (forall s, 0 <= s -> s <= bval lx / IZR (n1 - 1) -> s <= bval ly / IZR (n2 - 1) -> separated (s - p2 (-48) * (bval lx + bval ly)) (real_field g)) ->
    separated (bval bmin * (1 - p2 (-16))) (real_field g)).
  { intros g n1 n2 Hn1 Hn2 Hs. eapply separated_weaken; [|apply (Hs (bval bmin * (1 - 4 * u64)))].
    - assert (E48 : p2 (-48) = / 281474976710656) by (rewrite p2_neg by lia; reflexivity). assert (E16 : p2 (-16) = / 65536) by (rewrite p2_neg by lia; reflexivity).
      assert (E30 : p2 30 = 1073741824) by (rewrite p2_Z by lia; reflexivity). rewrite E30 in L1, L2. rewrite E48, E16, u64_eq. lra.
    - apply Rmult_le_pos; lra.
    - apply (spacing_room lx bmin n1 M1); auto; try lia; lra.
    - apply (spacing_room ly bmin n2 M2); auto; try lia; lra. }
  assert (Zone : forall n1 n2 d f, (N1 <= n1 <= M1)%Z -> (N2 <= n2 <= M2)%Z -> zoned_rectangle_domain lx ly n1 n2 false = Ok d -> In f d -> (1 <= zlen f)%Z /\
     inside (bval lx * (1 + p2 (-49))) (bval ly * (1 + p2 (-49))) (real_field f) /\ separated (bval bmin * (1 - p2 (-16))) (real_field f)).
  { clear d f Hd Hf Hinc. intros n1 n2 d f Hn1 Hn2 Ed Hf. destruct (zoned_facts64 lx ly n1 n2 false d F1 F2 H2 H1 ltac:(lia) ltac:(lia) Ed) as (_ & Hinc & (r & Hr) & _ & Hg & _).
    split.
    - assert (Hz : In (zlen f) (sizes d)) by (apply (in_map (fun f => Z.of_nat (length f))); exact Hf). unfold strictly_increasing in Hinc. rewrite Hr in Hz, Hinc. apply StronglySorted_inv in Hinc as [_ HF]. rewrite Forall_forall in HF.
      destruct Hz as [<-|Hz]; [lia|]. apply HF in Hz. lia.
    - destruct (Hg f Hf) as (g & Eg & I & S). cbn [maybe_transpose] in Eg. assert (f = g) by tauto. subst g. split; [exact I|]. apply (Sp f n1 n2); auto; lia. }
  inversion Hall as [|? ? ? ? Hz Hall']; subst. destruct Hd as [<-|Hd].
  - apply in_app_iff in Hf as [Hf|Hf]; [|apply (Zone N1 N2 z f); auto; lia].
    destruct (prefix_facts64 false lx ly N1 N2 pre Flx Fly Rlx Rly ltac:(lia) ltac:(lia) Hpre) as (Hs & Hg). destruct (Hg f Hf) as (g & -> & I & S). cbn [maybe_transpose] in *.
    split; [|split; [exact I|apply (Sp g N1 N2); auto; lia]].
    assert (Hz' : In (zlen g) (sizes pre)) by (apply (in_map (fun f => Z.of_nat (length f))); exact Hf). rewrite Hs in Hz'. apply in_zrange in Hz'. lia.
  - destruct (Forall2_in_r _ _ _ _ Hall' Hd) as (q & Hq & Eq). apply (staircase_range M1 M2 path 0 N1 N2) in Hq; auto; try lia.
    apply (Zone (fst q) (snd q) d f); auto; lia.
Qed.

(** land deeper than wide: only up to exchanging x and y, except for the later fields of the later domains *)
Lemma bi_zoned_tall64 (lx ly bmin bmax_x bmax_y : b64) dd : ordinary_lengths lx ly bmin bmax_x -> ordinary_lengths lx ly bmin bmax_y -> bval lx < bval ly ->
  bi_rectangle_zoned_nested lx ly bmin bmax_x bmax_y = Ok dd ->
  (forall d f, In d dd -> In f d -> inside (bval lx * (1 + p2 (-49))) (bval ly * (1 + p2 (-49))) (real_field f) \/ inside (bval ly * (1 + p2 (-49))) (bval lx * (1 + p2 (-49))) (real_field f)) /\
  (forall k d i f, (0 < k)%nat -> nth_error dd k = Some d -> (0 < i)%nat -> nth_error d i = Some f ->
     inside (bval lx * (1 + p2 (-49))) (bval ly * (1 + p2 (-49))) (real_field f) /\ separated (bval bmin * (1 - p2 (-16))) (real_field f)).
Proof.
  intros HO1 HO2 Hl E.
  destruct (bi_zoned_cases64 lx ly bmin bmax_x bmax_y dd HO1 HO2 E) as [->|(l1 & l2 & tr & N1 & M1 & N2 & M2 & path & pre & z & ds & O & F1 & F2 & H2 & H1 & HN1 & HN2 & HM1 & HM2 & B1 & B2 & -> & Hpre & Hst & Hall)];
    [split; [intros d f []|intros [|k] d i f _ H; discriminate]|].
  destruct O as [(O & _)|(_ & -> & -> & ->)]; [lra|].
  destruct HO1 as ((Flx & Fly & Fbn & _) & (Rlx & Rly & Rbn & _) & (L1 & L2) & _). pose proof small_u as [U0 U1]. pose proof (p2_pos (-300)) as P3.
  assert (Zone : forall n1 n2 d, (N1 <= n1 <= M1)%Z -> (N2 <= n2 <= M2)%Z -> zoned_rectangle_domain ly lx n1 n2 true = Ok d ->
     exists f0 r, d = f0 :: r /\ inside (bval ly * (1 + p2 (-49))) (bval lx * (1 + p2 (-49))) (real_field f0) /\
     forall f, In f r -> inside (bval lx * (1 + p2 (-49))) (bval ly * (1 + p2 (-49))) (real_field f) /\ separated (bval bmin * (1 - p2 (-16))) (real_field f)).
  { intros n1 n2 d Hn1 Hn2 Ed. destruct (zoned_facts64 ly lx n1 n2 true d F1 F2 H2 H1 ltac:(lia) ltac:(lia) Ed) as (_ & _ & _ & _ & _ & f0 & r & -> & I0 & Hg).
    exists f0, r. split; [reflexivity|]. split; [exact I0|]. intros f Hf. destruct (Hg f Hf) as (g & -> & I & S). cbn [maybe_transpose]. rewrite real_transpose. split; [now apply transpose_inside|].
    apply transpose_separated. eapply separated_weaken; [|apply (S (bval bmin * (1 - 4 * u64)))].
    - assert (E48 : p2 (-48) = / 281474976710656) by (rewrite p2_neg by lia; reflexivity). assert (E16 : p2 (-16) = / 65536) by (rewrite p2_neg by lia; reflexivity).
      assert (E30 : p2 30 = 1073741824) by (rewrite p2_Z by lia; reflexivity). rewrite E30 in L1, L2. rewrite E48, E16, u64_eq. lra.
    - apply Rmult_le_pos; lra.
    - apply (spacing_room ly bmin n1 M1); auto; try lia; lra.
    - apply (spacing_room lx bmin n2 M2); auto; try lia; lra. }
  inversion Hall as [|? ? ? ? Hz Hall']; subst. cbn [fst snd] in Hz.
  assert (Later : forall d, In d ds -> exists f0 r, d = f0 :: r /\ inside (bval ly * (1 + p2 (-49))) (bval lx * (1 + p2 (-49))) (real_field f0) /\
     forall f, In f r -> inside (bval lx * (1 + p2 (-49))) (bval ly * (1 + p2 (-49))) (real_field f) /\ separated (bval bmin * (1 - p2 (-16))) (real_field f)).
  { intros d Hd. destruct (Forall2_in_r _ _ _ _ Hall' Hd) as (q & Hq & Eq). apply (staircase_range M1 M2 path 0 N1 N2) in Hq; auto; try lia. apply (Zone (fst q) (snd q)); auto; lia. }
  split.
  - intros d f [<-|Hd] Hf.
    + apply in_app_iff in Hf as [Hf|Hf].
      * destruct (prefix_facts64 true lx ly N1 N2 pre Flx Fly Rlx Rly ltac:(lia) ltac:(lia) Hpre) as (_ & Hg). destruct (Hg f Hf) as (g & -> & I & _).
        right. cbn [maybe_transpose]. rewrite real_transpose. now apply transpose_inside.
      * destruct (Zone N1 N2 z ltac:(lia) ltac:(lia) Hz) as (f0 & r & -> & I0 & Hg). destruct Hf as [<-|Hf]; [now right|left; now apply Hg].
    + destruct (Later d Hd) as (f0 & r & -> & I0 & Hg). destruct Hf as [<-|Hf]; [now right|left; now apply Hg].
  - intros [|k] d [|i] f Hk Hd Hi Hf; try lia. cbn in Hd. apply nth_error_In in Hd. destruct (Later d Hd) as (f0 & r & -> & I0 & Hg). cbn in Hf. apply nth_error_In in Hf. now apply Hg.
Qed.

(** success *)
Lemma bi_zoned_total64 (lx ly bmin bmax_x bmax_y : b64) : ordinary_lengths lx ly bmin bmax_x -> ordinary_lengths lx ly bmin bmax_y ->
  bval bmax_x * (1 + p2 (-20)) <= bval lx -> bval bmax_y * (1 + p2 (-20)) <= bval ly ->
  bval lx / bval bmax_x + 1 + p2 (-20) <= bval lx / bval bmin -> bval ly / bval bmax_y + 1 + p2 (-20) <= bval ly / bval bmin ->
  exists dd, bi_rectangle_zoned_nested lx ly bmin bmax_x bmax_y = Ok dd /\ (1 <= length dd)%nat.
Proof.
  intros HO1 HO2 Bx By Gx Gy. destruct (bi_zoned_setup64 lx ly bmin bmax_x bmax_y HO1 HO2) as (l1 & l2 & tr & N1 & M1 & N2 & M2 & O & F1 & F2 & H2 & H1 & HN1 & HN2 & HM1 & HM2 & B1 & B2 & (s1 & t1 & s2 & t2 & -> & -> & -> & -> & A1 & A2 & A3 & A4) & U).
  rewrite U. clear U. destruct HO1 as ((Flx & Fly & Fbn & _) & (Rlx & Rly & Rbn & Rbx) & (L1 & L2) & _). destruct HO2 as (_ & (_ & _ & _ & Rby) & _). pose proof (p2_pos (-300)) as P3. pose proof small_u as [U0 U1].
  assert (G : forall l b s t, 0 < bval b -> 0 < bval l -> bval l <= p2 30 * bval bmin -> bval b * (1 + p2 (-20)) <= bval l -> bval l / bval b + 1 + p2 (-20) <= bval l / bval bmin ->
    (forall x, x = bval l / bval b + 1 -> Rabs (s - x) <= 3 * u64 * x) -> (forall x, x = bval l / bval bmin + 1 -> Rabs (t - x) <= 3 * u64 * x) -> (3 <= Rceil s <= Rfloor t)%Z).
  { clear - P3 U0 U1 Rbn. intros l b s t Pb Pl L Hb Hg Hs Ht. specialize (Hs _ eq_refl). specialize (Ht _ eq_refl). apply Rabs_near in Hs, Ht.
    assert (E20 : p2 (-20) = / 1048576) by (rewrite p2_neg by lia; reflexivity). assert (E30 : p2 30 = 1073741824) by (rewrite p2_Z by lia; reflexivity). rewrite E20 in *. rewrite E30 in L.
    assert (X : 1 + / 1048576 <= bval l / bval b). { apply (Rmult_le_reg_r (bval b)); [lra|]. replace (bval l / bval b * bval b) with (bval l) by (field; lra). lra. }
    assert (Y : bval l / bval bmin <= 1073741824). { apply (Rmult_le_reg_r (bval bmin)); [lra|]. replace (bval l / bval bmin * bval bmin) with (bval l) by (field; lra). lra. }
    set (x := bval l / bval b) in *. set (y := bval l / bval bmin) in *. rewrite u64_eq in *. split.
    - pose proof (Rceil_spec s) as [_ C]. assert (IZR 2 < IZR (Rceil s)) by lra. apply lt_IZR in H. lia.
    - pose proof (Rfloor_spec t) as [_ C]. pose proof (Rceil_spec s) as [C' _]. assert (IZR (Rceil s) < IZR (Rfloor t + 1)) by (rewrite plus_IZR; lra). apply lt_IZR in H. lia. }
  assert (C1 : (3 <= Rceil s1 <= Rfloor t1)%Z) by (destruct O as [(O & -> & -> & ->)|(O & -> & -> & ->)]; [apply (G lx bmax_x)|apply (G ly bmax_y)]; auto; lra).
  assert (C2 : (3 <= Rceil s2 <= Rfloor t2)%Z) by (destruct O as [(O & -> & -> & ->)|(O & -> & -> & ->)]; [apply (G ly bmax_y)|apply (G lx bmax_x)]; auto; lra).
  destruct (bi_zoned_ok64 lx ly l1 l2 tr (Rceil s1) (Rfloor t1) (Rceil s2) (Rfloor t2) Flx Fly Rlx Rly F1 F2 H2 H1 C1 C2 ltac:(lia) ltac:(lia)) as (path & pre & d & ds & E & _).
  rewrite E. eexists. split; [reflexivity|]. cbn. lia.
Qed.
