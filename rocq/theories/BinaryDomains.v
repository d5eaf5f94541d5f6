(** Candidate domains computed with doubles: order of sizes, and the bi-rectangle domains *)
From Coq Require Import ZArith Reals SpecFloat List Bool Sorted Lia Lra.
From Verif Require Import Base Num BaseLemmas Utilities Coordinates CoordinatesProofs Spec Domains Float64 Binary64 BinaryGrid.
Import ListNotations.
Open Scope R_scope.

(** ** rounding keeps order *)
Lemma bval_inj_pos (x y : b64) : finite64 x = true -> finite64 y = true -> 0 < bval x -> bval y = bval x -> x = y.
Proof.
  intros Fx Fy P E. destruct (SFcompare_spec x y Fx Fy) as (c & Ec & S). destruct c; cbn [cmp_spec] in S; try (exfalso; lra).
  destruct x as [|s| |s m e]; try discriminate; [cbn [bval] in P; lra|]. destruct y as [s'|s'| |s' m' e']; try discriminate; [change (bval (S754_zero s')) with 0 in E; lra|].
  cbn [SFcompare] in Ec. destruct s, s'; try discriminate.
  - rewrite bval_sgn in P. pose proof (mag_pos m e). unfold sgn in P. lra.
  - destruct (Z.compare_spec e e') as [->| |]; try discriminate. injection Ec as Ec. change (Pos.compare m m' = Eq) in Ec; apply Pos.compare_eq in Ec. now subst.
Qed.
(** the number of rows that fit beside n columns never falls with n *)
Lemma rows_mono64 (l1 l2 : b64) n n' B q m B' q' m' : finite64 l1 = true -> finite64 l2 = true -> p2 (-300) <= bval l2 -> bval l2 <= bval l1 <= p2 300 ->
  (2 <= n <= n')%Z -> (n' <= 2 ^ 31)%Z ->
  pydiv l1 (nofZ (n - 1)) = Ok B -> pydiv l2 B = Ok q -> nfloor (nadd q (nofZ 1)) = Ok m ->
  pydiv l1 (nofZ (n' - 1)) = Ok B' -> pydiv l2 B' = Ok q' -> nfloor (nadd q' (nofZ 1)) = Ok m' -> (m <= m')%Z.
Proof.
  intros F1 F2 H2 H1 Hn Hn' E1 E2 E3 E1' E2' E3'. destruct (Z.eq_dec n n') as [<-|Ne]; [assert (m = m') by congruence; lia|].
  pose proof small_u as [U0 U1]. pose proof (p2_pos (-300)) as P3.
  assert (T : forall k B q m, (2 <= k <= 2 ^ 31)%Z -> pydiv l1 (nofZ (k - 1)) = Ok B -> pydiv l2 B = Ok q -> nfloor (nadd q (nofZ 1)) = Ok m ->
    nearest B (bval l1 / IZR (k - 1)) /\ 0 < bval B /\ nearest q (bval l2 / bval B) /\ nearest (nadd q (nofZ 1)) (bval q + 1) /\ m = Rfloor (bval (nadd q (nofZ 1)))).
  { clear - F1 F2 H2 H1 U0 U1 P3. intros n B q m Hn E1 E2 E3. destruct (b64_ofZ_exact (n - 1) ltac:(lia)) as [Fn En].
    assert (1 <= IZR (n - 1)) by (apply (IZR_le 1); lia).
    assert (Rn : p2 0 <= IZR (n - 1) <= p2 31) by (change (p2 0) with 1; rewrite p2_Z by lia; split; [lra|apply IZR_le; lia]).
    pose proof (div_range (-300) 300 0 31 (bval l1) (IZR (n - 1)) ltac:(lra) ltac:(lra) ltac:(lra) Rn) as D1.
    pose proof (p2_le (-1022) (-300 - 31) ltac:(lia)). pose proof (p2_le (300 - 0) 1023 ltac:(lia)).
    destruct (div_tight l1 (b64_ofZ (n - 1)) F1 Fn ltac:(lra)) as (B0 & EB & NB & ErB); [rewrite En; lra|]. rewrite En in NB, ErB.
    change (@nofZ b64 NumB64 (n - 1)) with (b64_ofZ (n - 1)) in E1. rewrite EB in E1. injection E1 as ->. split; [exact NB|]. apply Rabs_near in ErB.
    set (x := bval l1 / IZR (n - 1)) in *. assert (X0 : 0 < x) by (unfold x; apply Rdiv_lt_0_compat; lra).
    assert (RB : p2 (-332) <= bval B <= p2 301).
    { change (-300 - 31)%Z with (-332 + 1)%Z in D1. change (300 - 0)%Z with 300%Z in D1. rewrite p2_succ in D1. change 301%Z with (300 + 1)%Z. rewrite p2_succ. split; nra. }
    pose proof (p2_pos (-332)). split; [lra|].
    pose proof (div_range (-300) 300 (-332) 301 (bval l2) (bval B) ltac:(lra) ltac:(lra) ltac:(lra) RB) as D2. pose proof (p2_le (-1022) (-300 - 301) ltac:(lia)). pose proof (p2_le (300 - -332) 1020 ltac:(lia)).
    assert (E8 : p2 1023 = 8 * p2 1020) by (change 1023%Z with (3 + 1020)%Z; rewrite p2_add, (p2_Z 3) by lia; reflexivity). pose proof (p2_pos 1020).
    destruct (div_tight l2 B F2 (proj1 NB) ltac:(lra)) as (q0 & Eq & Nq & Er); [lra|]. rewrite Eq in E2. injection E2 as ->. split; [exact Nq|]. apply Rabs_near in Er.
    set (y := bval l2 / bval B) in *. assert (0 < y) by (unfold y; apply Rdiv_lt_0_compat; lra). assert (u64 * y <= 1 * y) by (apply Rmult_le_compat_r; lra).
    assert (Q0 : 0 < bval q) by nra.
    destruct (b64_ofZ_exact 1 ltac:(lia)) as [G1 G2]. set (s := nadd q (nofZ 1)) in *.
    pose proof (SFadd_rounded q (b64_ofZ 1) (proj1 Nq) G1) as Rs. rewrite G2 in Rs. change (SFadd 53 1024 q (b64_ofZ 1)) with s in Rs.
    pose proof (p2_le 0 1020 ltac:(lia)) as P0. change (p2 0) with 1 in P0.
    destruct (rounded_rel_tight _ _ Rs) as [Ns _]; [rewrite Rabs_pos_eq by lra; lra|]. split; [exact Ns|].
    rewrite floor64 in E3 by apply Ns. now injection E3 as <-. }
  destruct (T n B q m ltac:(lia) E1 E2 E3) as (N1 & P1 & N2 & N3 & ->). destruct (T n' B' q' m' ltac:(lia) E1' E2' E3') as (N1' & P1' & N2' & N3' & ->).
  assert (K1 : 1 <= IZR (n - 1)) by (apply (IZR_le 1); lia). assert (K2 : IZR (n - 1) < IZR (n' - 1)) by (apply IZR_lt; lia).
  assert (LB : bval B' <= bval B).
  { apply (nearest_mono B' (bval l1 / IZR (n' - 1)) B (bval l1 / IZR (n - 1))); auto. apply Rmult_lt_compat_l; [lra|]. apply Rinv_lt_contravar; [nra|exact K2]. }
  assert (Lq : bval q <= bval q').
  { destruct (Rle_lt_or_eq_dec _ _ LB) as [L|L].
    - apply (nearest_mono q (bval l2 / bval B) q' (bval l2 / bval B')); auto. apply Rmult_lt_compat_l; [lra|]. apply Rinv_lt_contravar; [nra|exact L].
    - rewrite L in N2'. destruct N2 as [Fq N2], N2' as [Fq' N2'].
      (* equal operands *)
      assert (B = B') as EB by (apply bval_inj_pos; auto; apply N1 || apply N1'). subst B'. assert (q = q') by congruence. subst. lra. }
  apply Rfloor_mono. destruct (Rle_lt_or_eq_dec _ _ Lq) as [L|L].
  - apply (nearest_mono (nadd q (nofZ 1)) (bval q + 1) (nadd q' (nofZ 1)) (bval q' + 1)); auto. lra.
  - assert (Q : forall z B, nearest z (bval l2 / bval B) -> 0 < bval B -> 0 <= bval z).
    { clear - H2 P3. intros z B N P. apply (nearest_int_le z (bval l2 / bval B) 0); [exact N|lia|]. apply Rlt_le, Rdiv_lt_0_compat; lra. }
    destruct (Rle_lt_or_eq_dec 0 (bval q) (Q q B N2 P1)) as [Z0|Z0].
    + assert (q = q') by (apply bval_inj_pos; [apply N2|apply N2'|exact Z0|symmetry; exact L]). subst. lra.
    + rewrite <- L in N3'. rewrite <- Z0, Rplus_0_l in N3, N3'. destruct (b64_ofZ_exact 1 ltac:(lia)) as [G1 G2]. rewrite <- G2 in N3, N3'.
      apply nearest_exact in N3; auto. apply nearest_exact in N3'; auto. lra.
Qed.

(** ** the sizes of the rectangular candidates *)
Lemma rectangle_size i j (B1 B2 : b64) : (0 <= i)%Z -> (0 <= j)%Z -> exists f, rectangle i j B1 B2 = Ok f /\ zlen f = (i * j)%Z.
Proof. intros Hi Hj. unfold rectangle. rewrite rectangle_o_ok by lia. eexists. split; [reflexivity|]. cbn [fst snd]. rewrite rectangle_loop_zlen; lia. Qed.
Lemma maybe_transpose_zlen tr (f : list (b64 * b64)) : zlen (maybe_transpose tr f) = zlen f.
Proof. destruct tr; [apply transpose_zlen|reflexivity]. Qed.
Lemma mapM_sizes tr (B1 B2 : b64) (nx ny : Z -> Z) a b : (forall i, (a <= i < b)%Z -> (0 <= nx i)%Z /\ (0 <= ny i)%Z) ->
  exists r, mapM (fun i => let! r := rectangle (nx i) (ny i) B1 B2 in Ok (maybe_transpose tr r)) (zrange a b) = Ok r /\ sizes r = map (fun i => (nx i * ny i)%Z) (zrange a b).
Proof.
  intros H. assert (G : forall l, (forall i, In i l -> (0 <= nx i)%Z /\ (0 <= ny i)%Z) ->
    exists r, mapM (fun i => let! r := rectangle (nx i) (ny i) B1 B2 in Ok (maybe_transpose tr r)) l = Ok r /\ sizes r = map (fun i => (nx i * ny i)%Z) l).
  { clear. induction l as [|i l IH]; intros H; cbn [mapM map]; [eexists; split; reflexivity|].
    destruct (rectangle_size (nx i) (ny i) B1 B2) as (f & -> & Hf); [apply H; now left|apply H; now left|]. cbn [bind].
    destruct IH as (r & -> & Hr); [intros; apply H; now right|]. cbn [bind]. eexists. split; [reflexivity|]. unfold sizes in *. cbn [map]. rewrite Hr. f_equal.
    change (zlen (maybe_transpose tr f) = (nx i * ny i)%Z). now rewrite maybe_transpose_zlen. }
  apply G. intros i Hi. apply H. now apply in_zrange.
Qed.
Lemma sizes_app' (a b : list (list (b64 * b64))) : sizes (a ++ b) = sizes a ++ sizes b.
Proof. apply map_app. Qed.
Lemma sorted_zrange (f : Z -> Z) a b : (forall i j, (a <= i < j)%Z -> (j < b)%Z -> (f i < f j)%Z) -> strictly_increasing (map f (zrange a b)).
Proof.
  remember (Z.to_nat (b - a)) as n eqn:En. revert a En. induction n; intros a En H.
  - rewrite zrange_nil by lia. constructor.
  - rewrite zrange_cons by lia. cbn [map]. constructor; [apply IHn; [lia|intros; apply H; lia]|]. apply Forall_forall. intros y Hy. apply in_map_iff in Hy as (j & <- & Hj). apply in_zrange in Hj. apply H; lia.
Qed.

Lemma rectangular_grows64 (lx ly bmin bmax : b64) d : ordinary_lengths lx ly bmin bmax -> rectangular lx ly bmin bmax = Ok d ->
  strictly_increasing (sizes d) /\ (d = [] \/ exists r, d = [(S754_zero false, S754_zero false)] :: r).
Proof.
  intros HO. destruct (rectangular_setup64 _ _ _ _ HO) as (l1 & l2 & tr & k & m & -> & F1 & F2 & H2 & H1 & Hk & _ & Pass). clear HO.
  destruct (Z_le_gt_dec k m) as [Hkm|Hkm]; [|rewrite zrange_nil by lia; cbn [foldM bind snd]; intros [= <-]; split; [constructor|now left]].
  set (I := fun n (s : Z * Z * list (list (b64 * b64))) => let '(it, old, d) := s in
     (n = k /\ it = 0%Z /\ old = 1%Z /\ d = []) \/
     (k < n /\ it = 1 /\ (exists B, pass64 l1 l2 bmin (n - 1) B old))%Z /\ strictly_increasing (sizes d) /\ (forall x, In x (sizes d) -> x <= (n - 1) * old)%Z
       /\ exists r, d = [(S754_zero false, S754_zero false)] :: r).
  destruct (foldM_zrange (rectangular_body tr l1 l2 k) I k (m + 1) (0%Z, 1%Z, []) ltac:(lia)) as ([[it old] d'] & -> & Hd); [left; auto| |].
  2:{ cbn [bind snd]. intros [= <-]. destruct Hd as [Hd|(_ & S & _ & R)]; [lia|auto]. }
  intros n [[it old] d'] Hn Hi. unfold rectangular_body.
  destruct (Pass n ltac:(lia)) as (Hn31 & B & n2 & HP). pose proof HP as HP0.
  destruct HP as (q2 & E1 & FB & B1 & B2 & R1 & Eq2 & En2 & Hn2 & R2). rewrite E1. cbn [bind]. rewrite Eq2. cbn [bind]. rewrite En2. cbn [bind].
  destruct Hi as [(-> & -> & -> & ->)|((Hlt & -> & B' & HP') & S & Hm & R)].
  - change (0 =? 0)%Z with true. cbv iota. destruct (mapM_sizes tr B B (fun i => i) (fun _ => 1%Z) 1 k) as (a & Ea & Sa); [intros; lia|].
    destruct (mapM_sizes tr B B (fun _ => k) (fun j => j) 1 n2) as (b & Eb & Sb); [intros; lia|].
    assert (Ra : exists r, a = [(S754_zero false, S754_zero false)] :: r).
    { rewrite zrange_cons in Ea by lia. cbn [mapM bind] in Ea. unfold rectangle at 1 in Ea. rewrite rectangle_o_ok in Ea by lia. change (zrange 0 1) with [0%Z] in Ea. cbn [flat_map map app bind fst snd] in Ea.
      destruct (mapM _ (zrange (1 + 1) k)) as [r|]; [|discriminate]. cbn [bind] in Ea. injection Ea as <-. exists r. f_equal.
      assert (Z0 : nadd fz (zmul 0 B) = S754_zero false).
      { destruct B as [s|s| |s mb eb]; try discriminate; destruct s; reflexivity. }
      destruct tr; cbn [maybe_transpose transpose_coordinates map fst snd]; f_equal; f_equal; exact Z0. }
    rewrite Ea. cbn [bind]. rewrite Eb. cbn [bind app].
    assert (SS : strictly_increasing (sizes (a ++ b)) /\ forall x, In x (sizes (a ++ b)) -> (x <= k * n2 - 1)%Z).
    { rewrite sizes_app', Sa, Sb. split.
      - apply StronglySorted_app; [apply sorted_zrange; intros; lia|apply sorted_zrange; intros; nia|].
        intros x y Hx Hy. apply in_map_iff in Hx as (i & <- & Hi), Hy as (j & <- & Hj). apply in_zrange in Hi, Hj. nia.
      - intros x Hx. apply in_app_iff in Hx as [Hx|Hx]; apply in_map_iff in Hx as (i & <- & Hi); apply in_zrange in Hi; nia. }
    destruct SS as [SS1 SS2]. destruct Ra as (r & ->).
    destruct (Z.eqb_spec 1 n2) as [<-|Hne].
    + eexists. split; [reflexivity|]. right. split; [split; [lia|split; [lia|]]; exists B; now replace (k + 1 - 1)%Z with k by lia|]. split; [exact SS1|].
      split; [intros x Hx; apply SS2 in Hx; lia|]. eexists. reflexivity.
    + destruct (rectangle_size k n2 B B ltac:(lia) ltac:(lia)) as (f & -> & Hf). cbn [bind]. eexists. split; [reflexivity|]. right.
      split; [split; [lia|split; [lia|]]; exists B; now replace (k + 1 - 1)%Z with k by lia|].
      assert (Ef : sizes [maybe_transpose tr f] = [k * n2]%Z) by (unfold sizes; cbn [map]; f_equal; change (zlen (maybe_transpose tr f) = (k * n2)%Z); now rewrite maybe_transpose_zlen).
      split; [|split].
      * rewrite sizes_app', Ef. apply StronglySorted_app; [exact SS1|repeat constructor|]. intros x y Hx [<-|[]]. apply SS2 in Hx. lia.
      * intros x Hx. rewrite sizes_app', Ef in Hx. apply in_app_iff in Hx as [Hx|[<-|[]]]; [apply SS2 in Hx|]; lia.
      * eexists. reflexivity.
  - change (1 =? 0)%Z with false. cbv iota. cbn [bind]. destruct HP' as (q' & E1' & _ & _ & _ & _ & Eq' & En' & Hn' & _).
    assert (M : (old <= n2)%Z).
    { apply (rows_mono64 l1 l2 (n - 1) n B' q' old B q2 n2); auto; lia. }
    destruct (Z.eqb_spec old n2) as [->|Hne].
    + eexists. split; [reflexivity|]. right. split; [split; [lia|split; [lia|]]; exists B; now replace (n + 1 - 1)%Z with n by lia|]. split; [exact S|].
      split; [intros x Hx; apply Hm in Hx; nia|exact R].
    + destruct (rectangle_size n n2 B B ltac:(lia) ltac:(lia)) as (f & -> & Hf). cbn [bind]. eexists. split; [reflexivity|]. right.
      split; [split; [lia|split; [lia|]]; exists B; now replace (n + 1 - 1)%Z with n by lia|].
      assert (Ef : sizes [maybe_transpose tr f] = [n * n2]%Z) by (unfold sizes; cbn [map]; f_equal; change (zlen (maybe_transpose tr f) = (n * n2)%Z); now rewrite maybe_transpose_zlen).
      split; [|split].
      * rewrite sizes_app', Ef. apply StronglySorted_app; [exact S|repeat constructor|]. intros x y Hx [<-|[]]. apply Hm in Hx. nia.
      * intros x Hx. rewrite sizes_app', Ef in Hx. apply in_app_iff in Hx as [Hx|[<-|[]]]; [apply Hm in Hx|]; nia.
      * destruct R as (r & ->). eexists. reflexivity.
Qed.

(** ** bi-rectangle domains (domains.py:91-190) *)
Lemma field64g i j (B1 B2 : b64) l1 l2 d : finite64 B1 = true -> finite64 B2 = true -> p2 (-1000) <= bval B1 -> p2 (-1000) <= bval B2 ->
  (1 <= i <= 2 ^ 31)%Z -> (1 <= j <= 2 ^ 31)%Z -> l1 <= p2 400 -> l2 <= p2 400 ->
  IZR (i - 1) * bval B1 <= l1 * (1 + 4 * u64) -> IZR (j - 1) * bval B2 <= l2 * (1 + 4 * u64) -> 0 < d -> d <= bval B1 * (1 - p2 (-21)) -> d <= bval B2 * (1 - p2 (-21)) ->
  exists f, rectangle i j B1 B2 = Ok f /\ zlen f = (i * j)%Z /\ inside (l1 * (1 + 8 * u64)) (l2 * (1 + 8 * u64)) (real_field f) /\ separated d (real_field f).
Proof.
  intros FB1 FB2 HB1 HB2 Hi Hj L1 L2 M1 M2 Hd D1 D2. pose proof small_u as [U0 U1]. pose proof (p2_pos (-1000)) as P0. pose proof (p2_le (-1022) (-1000) ltac:(lia)) as Q0.
  pose proof (p2_le 401 1023 ltac:(lia)) as Q1. change 401%Z with (400 + 1)%Z in Q1. rewrite p2_succ in Q1. pose proof (p2_pos 400) as P4.
  assert (T : forall k l B, (1 <= k)%Z -> l <= p2 400 -> IZR (k - 1) * bval B <= l * (1 + 4 * u64) -> IZR (k - 1) * bval B <= p2 1023) by (intros; nra).
  pose proof (T i l1 B1 (proj1 Hi) L1 M1) as T1. pose proof (T j l2 B2 (proj1 Hj) L2 M2) as T2.
  destruct (rectangle64 i j B1 B2 FB1 FB2 ltac:(lia) ltac:(lia) ltac:(lra) ltac:(lra) T1 T2) as (f & E & Hl & I & S).
  exists f. split; [exact E|]. split; [exact Hl|]. split.
  - intros p Hp. apply I in Hp as (a & b & Ha & Hb & ->). cbn [fst snd].
    assert (W : forall a k l B, finite64 B = true -> p2 (-1000) <= bval B -> (0 <= a < k)%Z -> (k <= 2 ^ 31)%Z -> l <= p2 400 -> IZR (k - 1) * bval B <= l * (1 + 4 * u64) -> 0 <= coord a B <= l * (1 + 8 * u64)).
    { clear - U0 U1 P0 Q0 Q1 P4. intros a k l B FB HB Ha Hk L M.
      assert (A0 : 0 <= IZR a * bval B) by (apply Rmult_le_pos; [apply (IZR_le 0); lia|lra]).
      assert (A : IZR a * bval B <= IZR (k - 1) * bval B) by (apply Rmult_le_compat_r; [lra|apply IZR_le; lia]).
      destruct (coord64 a B FB ltac:(lia) ltac:(lra) ltac:(nra)) as [_ C]. apply Rabs_near in C.
      split; [nra|]. assert (coord a B <= l * (1 + 4 * u64) * (1 + u64)) by nra.
      assert (0 <= l) by nra. nra. }
    split; [apply (W a i)|apply (W b j)]; auto; lia.
  - assert (P21 : p2 (-21) = / 2097152) by (rewrite p2_neg by lia; reflexivity).
    assert (K : forall k B, p2 (-1000) <= bval B -> (1 <= k <= 2 ^ 31)%Z -> bval B * (1 - p2 (-21)) <= bval B * (1 - 2 * IZR (k - 1) * u64)).
    { intros k B HB Hk. apply Rmult_le_compat_l; [lra|]. assert (IZR (k - 1) <= IZR (2 ^ 31)) by (apply IZR_le; lia). change (2 ^ 31)%Z with 2147483648%Z in *.
      rewrite P21, u64_eq. lra. }
    apply S; [exact Hd|eapply Rle_trans; [exact D1|apply K; auto]|eapply Rle_trans; [exact D2|apply K; auto]].
Qed.

(** n boreholes spread over l *)
Lemma spread64 (l : b64) n : finite64 l = true -> p2 (-300) <= bval l <= p2 300 -> (2 <= n <= 2 ^ 31)%Z ->
  exists B, pydiv l (nofZ (n - 1)) = Ok B /\ finite64 B = true /\ p2 (-332) <= bval B <= p2 301 /\ bval l * (1 - u64) <= IZR (n - 1) * bval B <= bval l * (1 + u64).
Proof.
  intros F1 H1 Hn. pose proof small_u as [U0 U1]. pose proof (p2_pos (-300)) as P3. destruct (b64_ofZ_exact (n - 1) ltac:(lia)) as [Fn En].
  assert (1 <= IZR (n - 1)) by (apply (IZR_le 1); lia).
  assert (Rn : p2 0 <= IZR (n - 1) <= p2 31) by (change (p2 0) with 1; rewrite p2_Z by lia; split; [lra|apply IZR_le; lia]).
  pose proof (div_range (-300) 300 0 31 (bval l) (IZR (n - 1)) ltac:(lra) ltac:(lra) ltac:(lra) Rn) as D1.
  pose proof (p2_le (-1022) (-300 - 31) ltac:(lia)). pose proof (p2_le (300 - 0) 1023 ltac:(lia)).
  destruct (div_tight l (b64_ofZ (n - 1)) F1 Fn ltac:(lra)) as (B & EB & NB & ErB); [rewrite En; lra|]. rewrite En in ErB. apply Rabs_near in ErB.
  exists B. split; [exact EB|]. split; [apply NB|]. set (x := bval l / IZR (n - 1)) in *. assert (Ex : IZR (n - 1) * x = bval l) by (unfold x; field; lra).
  assert (X0 : 0 < x) by (unfold x; apply Rdiv_lt_0_compat; lra). split.
  - change (-300 - 31)%Z with (-332 + 1)%Z in D1. change (300 - 0)%Z with 300%Z in D1. rewrite p2_succ in D1. change 301%Z with (300 + 1)%Z. rewrite p2_succ. split; nra.
  - rewrite <- Ex. split; nra.
Qed.

(** int(ceil(l / bmax + 1)) *)
Lemma count_up64 (l b : b64) : finite64 l = true -> finite64 b = true -> p2 (-300) <= bval l <= p2 300 -> p2 (-300) <= bval b <= p2 300 -> bval b <= p2 50 * bval l ->
  exists q k, pydiv l b = Ok q /\ nceil (nadd q (nofZ 1)) = Ok k /\ (2 <= k)%Z.
Proof.
  intros F1 Fbx H1 Rbx K. pose proof small_u as [U0 U1]. pose proof (p2_pos (-300)) as P3.
  pose proof (div_range (-300) 300 (-300) 300 (bval l) (bval b) ltac:(lra) ltac:(lra) ltac:(lra) Rbx) as D2. pose proof (p2_le (-1022) (-300 - 300) ltac:(lia)).
  assert (Y : p2 (-50) <= bval l / bval b).
  { apply (Rmult_le_reg_r (bval b)); [lra|]. replace (bval l / bval b * bval b) with (bval l) by (field; lra).
    apply (Rmult_le_reg_l (p2 50)); [apply p2_pos|]. replace (p2 50 * (p2 (-50) * bval b)) with (p2 50 * p2 (-50) * bval b) by ring. rewrite <- p2_add.
    change (p2 (50 + -50)) with 1. lra. }
  destruct (div_tight l b F1 Fbx ltac:(lra)) as (q' & Eq & Nq & Er); [pose proof (p2_le (300 - -300) 1023 ltac:(lia)); lra|].
  pose proof (p2_pos (-50)). apply Rabs_near in Er. exists q'.
  destruct (b64_ofZ_exact 1 ltac:(lia)) as [G1 E1]. set (s := nadd q' (nofZ 1)).
  pose proof (SFadd_rounded q' (b64_ofZ 1) (proj1 Nq) G1) as Rs. rewrite E1 in Rs. change (SFadd 53 1024 q' (b64_ofZ 1)) with s in Rs.
  assert (bval q' + 1 <= p2 1023).
  { pose proof (p2_le (300 - -300) 1021 ltac:(lia)) as B1. pose proof (p2_le 0 1021 ltac:(lia)) as B2. change (p2 0) with 1 in B2.
    change 1023%Z with (1021 + 2)%Z. rewrite p2_add, (p2_Z 2) by lia. change (2 ^ 2)%Z with 4%Z.
    assert (u64 * (bval l / bval b) <= 1 * (bval l / bval b)); [apply Rmult_le_compat_r; lra|lra]. }
  destruct (rounded_rel_tight _ _ Rs) as [Ns Es]; [rewrite Rabs_pos_eq by nra; lra|]. rewrite (Rabs_pos_eq (bval q' + 1)) in Es by nra. apply Rabs_near in Es.
  exists (Rceil (bval s)). split; [exact Eq|]. split; [cbn [nceil NumB64]; apply ceil64; apply Ns|].
  assert (E50 : p2 (-50) = 8 * u64) by (unfold u64; change (-50)%Z with (3 + -53)%Z; rewrite p2_add, (p2_Z 3) by lia; reflexivity).
  assert (1 < bval s) by nra. pose proof (Rceil_spec (bval s)) as [_ HC]. assert (Hc1 : IZR 1 < IZR (Rceil (bval s))) by lra. apply lt_IZR in Hc1. lia.
Qed.

(** counting, rounding up, the rows of the spacing made for k rows *)
Lemma rows_again64 (l b : b64) k : finite64 l = true -> p2 (-300) <= bval l <= p2 300 -> (2 <= k <= 2 ^ 31)%Z -> finite64 b = true -> p2 (-332) <= bval b <= p2 301 ->
  bval l * (1 - u64) <= IZR (k - 1) * bval b <= bval l * (1 + u64) ->
  exists q n, pydiv l b = Ok q /\ nceil (nadd q (nofZ 1)) = Ok n /\ (n = k \/ n = k + 1)%Z.
Proof.
  intros Fl Hl Hk Fb Rb M. pose proof small_u as [U0 U1]. pose proof (p2_pos (-300)) as P3. pose proof (p2_pos (-332)) as P4.
  assert (K1 : 1 <= IZR (k - 1) <= 2147483648) by (split; [apply (IZR_le 1)|apply IZR_le]; lia).
  pose proof (div_range (-300) 300 (-332) 301 (bval l) (bval b) ltac:(lra) ltac:(lra) ltac:(lra) Rb) as D2. pose proof (p2_le (-1022) (-300 - 301) ltac:(lia)). pose proof (p2_le (300 - -332) 1023 ltac:(lia)).
  destruct (div_tight l b Fl Fb ltac:(lra)) as (q & Eq & Nq & Er); [lra|]. apply Rabs_near in Er.
  set (y := bval l / bval b) in *. assert (Ey : y * bval b = bval l) by (unfold y; field; lra). clearbody y.
  assert (Y : IZR (k - 1) * (1 - 2 * u64) <= y <= IZR (k - 1) * (1 + 2 * u64)).
  { split; apply (Rmult_le_reg_r (bval b)); try lra; rewrite ?Ey; nra. }
  assert (Q : IZR (k - 1) * (1 - 4 * u64) <= bval q <= IZR (k - 1) * (1 + 4 * u64)) by (split; ulra).
  assert (Q' : IZR (k - 1) - / 100 <= bval q <= IZR (k - 1) + / 100) by (split; ulra).
  destruct (b64_ofZ_exact 1 ltac:(lia)) as [G1 E1]. exists q. set (s := nadd q (nofZ 1)).
  pose proof (SFadd_rounded q (b64_ofZ 1) (proj1 Nq) G1) as Rs. rewrite E1 in Rs. change (SFadd 53 1024 q (b64_ofZ 1)) with s in Rs.
  pose proof (p2_le 40 1023 ltac:(lia)) as P40. rewrite (p2_Z 40) in P40 by lia. change (2 ^ 40)%Z with 1099511627776%Z in P40.
  destruct (rounded_rel_tight _ _ Rs) as [Ns Es]; [rewrite Rabs_pos_eq by lra; lra|]. rewrite (Rabs_pos_eq (bval q + 1)) in Es by lra. apply Rabs_near in Es.
  exists (Rceil (bval s)). split; [exact Eq|]. split; [apply ceil64; apply Ns|].
  assert (Sk : IZR k - / 10 <= bval s <= IZR k + / 10) by (rewrite minus_IZR in *; split; ulra).
  pose proof (Rceil_spec (bval s)) as [C1 C2].
  assert (A1 : IZR (k - 1) < IZR (Rceil (bval s))) by (rewrite minus_IZR; lra). assert (A2 : IZR (Rceil (bval s)) < IZR (k + 2)) by (rewrite plus_IZR; lra).
  apply lt_IZR in A1, A2. lia.
Qed.

Definition kept64 (l1 l2 d : R) (f : list (b64 * b64)) : Prop :=
  (1 <= zlen f)%Z /\ inside (l1 * (1 + 8 * u64)) (l2 * (1 + 8 * u64)) (real_field f) /\ separated d (real_field f).
Lemma kept64_transpose l1 l2 d f : kept64 l1 l2 d f -> kept64 l2 l1 d (transpose_coordinates f).
Proof. intros (Z1 & I & S). unfold kept64. rewrite real_transpose, transpose_zlen. split; [exact Z1|]. split; [now apply transpose_inside|now apply transpose_separated]. Qed.

Lemma bi_rectangular64 (l1 l2 bmin bmax1 b2 : b64) tr k : finite64 l1 = true -> finite64 l2 = true -> finite64 bmin = true -> finite64 bmax1 = true -> finite64 b2 = true ->
  p2 (-300) <= bval l2 -> bval l2 <= bval l1 <= p2 300 -> p2 (-300) <= bval bmin <= p2 300 -> p2 (-300) <= bval bmax1 <= p2 300 ->
  bval l1 <= p2 30 * bval bmin -> bval bmax1 <= p2 50 * bval l1 ->
  (2 <= k)%Z -> IZR (k - 1) * bval bmin <= bval l2 * (1 + 4 * u64) -> p2 (-332) <= bval b2 <= p2 301 -> bval l2 * (1 - u64) <= IZR (k - 1) * bval b2 <= bval l2 * (1 + u64) ->
  exists d, bi_rectangular l1 l2 bmin bmax1 b2 tr = Ok d /\
  forall f, In f d -> exists g, f = maybe_transpose tr g /\ kept64 (bval l1) (bval l2) (bval bmin * (1 - / IZR k) * (1 - p2 (-20))) g.
Proof.
  intros F1 F2 Fbn Fbx Fb2 H2 H1 Rbn Rbx L K Hk Mk Rb2 M2. pose proof small_u as [U0 U1]. pose proof (p2_pos (-300)) as P3.
  assert (E30 : p2 30 = 1073741824) by (rewrite p2_Z by lia; reflexivity).
  unfold bi_rectangular. cbn [nle NumB64]. rewrite (proj2 (SFleb_iff l2 l1 F2 F1)) by lra. unfold n_float.
  pose proof (div_range (-300) 300 (-300) 300 (bval l1) (bval bmin) ltac:(lra) ltac:(lra) ltac:(lra) Rbn) as D1. pose proof (p2_le (-1022) (-300 - 300) ltac:(lia)).
  assert (X1 : bval l1 / bval bmin <= p2 30) by (apply (Rmult_le_reg_r (bval bmin)); [lra|]; replace (bval l1 / bval bmin * bval bmin) with (bval l1) by (field; lra); lra).
  pose proof (p2_le 30 51 ltac:(lia)).
  destruct (count64 l1 bmin F1 Fbn ltac:(lra) ltac:(lra) ltac:(lra)) as (q & m & -> & _ & _ & _ & _ & Em & Hm & Hmb & _). cbn [bind].
  destruct (count_up64 l1 bmax1 F1 Fbx ltac:(lra) Rbx K) as (q' & k1 & -> & Ek & Hk1). cbn [bind]. rewrite Ek. cbn [bind]. rewrite Em. cbn [bind]. clear Em Ek q q'.
  assert (N30 : forall n l, (2 <= n)%Z -> bval l <= bval l1 -> IZR (n - 1) * bval bmin <= bval l * (1 + 4 * u64) -> (n <= 2 ^ 30 + 2)%Z).
  { clear - U0 U1 E30 L Rbn P3. intros n l Hn Hl M. rewrite E30 in L. assert (IZR (n - 1) <= 1073741824 * (1 + 4 * u64)) by nra.
    assert (HZ : IZR (n - 1) < IZR 1073741826) by nra. apply lt_IZR in HZ. lia. }
  pose proof (N30 k l2 Hk ltac:(lra) Mk) as Hk30.
  destruct (Z_le_gt_dec k1 (m + 1)) as [Hkm|Hkm]; [|rewrite zrange_nil by lia; cbn [foldM bind snd]; eexists; split; [reflexivity|now intros ? []]].
  set (P := fun f => exists g, f = maybe_transpose tr g /\ kept64 (bval l1) (bval l2) (bval bmin * (1 - / IZR k) * (1 - p2 (-20))) g).
  destruct (foldM_zrange (bi_rectangular_body tr l1 l2 b2) (fun _ s => Forall P (snd s)) k1 (m + 1) (0%Z, []) Hkm) as ([it d] & -> & I); [constructor| |].
  2:{ cbn [bind snd]. exists d. split; [reflexivity|]. now apply Forall_forall. }
  intros n [it d] Hn I. cbn [snd] in I. unfold bi_rectangular_body, n_float.
  destruct (rows_again64 l2 b2 k F2 ltac:(lra) ltac:(lia) Fb2 Rb2 M2) as (q & n2 & -> & En2 & Hn2). cbn [bind]. rewrite En2. cbn [bind]. clear En2.
  destruct (spread64 l2 n2 F2 ltac:(lra) ltac:(lia)) as (B2 & -> & FB2 & RB2 & MB2). cbn [bind].
  assert (Mn : IZR (n - 1) * bval bmin <= bval l1 * (1 + 4 * u64)).
  { apply Rle_trans with (IZR (m - 1) * bval bmin); [apply Rmult_le_compat_r; [lra|apply IZR_le; lia]|]. apply Hmb; lia. }
  pose proof (N30 n l1 ltac:(lia) ltac:(lra) Mn) as Hn30.
  destruct (spread64 l1 n F1 ltac:(lra) ltac:(lia)) as (B1 & -> & FB1 & RB1 & MB1). cbn [bind].
  pose proof (p2_le (-1000) (-332) ltac:(lia)). pose proof (p2_pos (-1000)).
  assert (E21 : p2 (-21) = / 2097152) by (rewrite p2_neg by lia; reflexivity). assert (E20 : p2 (-20) = 2 * / 2097152) by (change (-20)%Z with (-21 + 1)%Z; rewrite p2_succ, E21; lra).
  assert (K2 : 2 <= IZR k) by (apply (IZR_le 2); lia). assert (Ik : IZR k * / IZR k = 1) by (field; lra). assert (Ip : 0 < / IZR k <= / 2) by (split; [apply Rinv_0_lt_compat; lra|apply Rinv_le_contravar; lra]).
  set (c := / IZR k) in *. 
  (* spacing along the long and the short side *)
  assert (S1 : bval bmin * (1 - 8 * u64) <= bval B1).
  { assert (N1 : 1 <= IZR (n - 1)) by (apply (IZR_le 1); lia). apply (Rmult_le_reg_l (IZR (n - 1))); [lra|]. nra. }
  assert (S2 : bval bmin * (1 - c) * (1 - 8 * u64) <= bval B2).
  { assert (N2 : IZR (n2 - 1) <= IZR k) by (apply IZR_le; lia). rewrite minus_IZR in Mk. apply (Rmult_le_reg_l (IZR k)); [lra|].
    replace (IZR k * (bval bmin * (1 - c) * (1 - 8 * u64))) with ((IZR k - IZR k * c) * bval bmin * (1 - 8 * u64)) by ring. rewrite Ik.
    assert (G : (IZR k - 1) * bval bmin * (1 - 8 * u64) <= bval l2 * (1 - u64)) by ulra.
    apply Rle_trans with (1 := G). apply Rle_trans with (1 := proj1 MB2). apply Rmult_le_compat_r; lra. }
  assert (D0 : 0 < bval bmin * (1 - c)) by (apply Rmult_lt_0_compat; lra).
  assert (SD : forall B, bval bmin * (1 - c) * (1 - 8 * u64) <= bval B -> bval bmin * (1 - c) * (1 - p2 (-20)) <= bval B * (1 - p2 (-21))).
  { intros B HB. rewrite E20, E21. set (t := bval bmin * (1 - c)) in *. rewrite u64_eq in HB. nra. }
  assert (P400 : p2 300 <= p2 400) by (apply p2_le; lia).
  assert (W : forall i j, (1 <= i <= n)%Z -> (1 <= j <= n2)%Z -> exists f, (let! r := rectangle i j B1 B2 in Ok (maybe_transpose tr r)) = Ok f /\ P f).
  { intros i j Hi Hj. destruct (field64g i j B1 B2 (bval l1) (bval l2) (bval bmin * (1 - c) * (1 - p2 (-20))) FB1 FB2) as (f & E & Z1 & If & S); try lra; try lia.
    - apply Rle_trans with (IZR (n - 1) * bval B1); [apply Rmult_le_compat_r; [lra|apply IZR_le; lia]|nra].
    - apply Rle_trans with (IZR (n2 - 1) * bval B2); [apply Rmult_le_compat_r; [lra|apply IZR_le; lia]|nra].
    - rewrite E20. apply Rmult_lt_0_compat; lra.
    - apply SD. nra.
    - apply SD. exact S2.
    - rewrite E. cbn [bind]. eexists. split; [reflexivity|]. exists f. split; [reflexivity|]. split; [rewrite Z1; nia|]. split; [exact If|exact S]. }
  assert (Pre : exists d' it', (if (it =? 0)%Z then
       let! a := mapM (fun i => let! r := rectangle i 1 B1 B2 in Ok (maybe_transpose tr r)) (zrange 1 n) in
       let! b := mapM (fun j => let! r := rectangle n j B1 B2 in Ok (maybe_transpose tr r)) (zrange 1 n2) in
       Ok (d ++ a ++ b, (it + 1)%Z) else Ok (d, it)) = Ok (d', it') /\ Forall P d').
  { destruct (it =? 0)%Z; [|eauto].
    destruct (mapM_forall (fun i => let! r := rectangle i 1 B1 B2 in Ok (maybe_transpose tr r)) P (zrange 1 n)) as (a & -> & Ha); [intros i Hi; apply in_zrange in Hi; apply W; lia|]. cbn [bind].
    destruct (mapM_forall (fun j => let! r := rectangle n j B1 B2 in Ok (maybe_transpose tr r)) P (zrange 1 n2)) as (b & -> & Hb); [intros i Hi; apply in_zrange in Hi; apply W; lia|]. cbn [bind].
    do 2 eexists. split; [reflexivity|]. rewrite !Forall_app. auto. }
  destruct Pre as (d' & it' & -> & Hd'). cbn [bind].
  destruct (W n n2 ltac:(lia) ltac:(lia)) as (f & Ef & Gf). destruct (rectangle n n2 B1 B2) as [r|]; [|discriminate]. cbn [bind] in Ef |- *. injection Ef as <-.
  eexists. split; [reflexivity|]. cbn [snd]. rewrite Forall_app. auto.
Qed.

Lemma mapM_nth {A B} (f : A -> res B) (P : A -> B -> Prop) l : (forall a, In a l -> exists b, f a = Ok b /\ P a b) ->
  exists r, mapM f l = Ok r /\ forall i b, nth_error r i = Some b -> exists a, nth_error l i = Some a /\ P a b.
Proof.
  induction l as [|a l IH]; intros H; cbn; [eexists; split; [reflexivity|intros [|]; discriminate]|].
  destruct (H a (or_introl eq_refl)) as (b & -> & Hb). cbn [bind]. destruct IH as (r & -> & Hr); [intros; apply H; now right|]. cbn [bind].
  eexists. split; [reflexivity|]. intros [|i] c Hc; cbn in Hc |- *; [injection Hc as <-; eauto|now apply Hr].
Qed.

Lemma bi_rectangle_nested64 (lx ly bmin bmax_x bmax_y : b64) : ordinary_lengths lx ly bmin bmax_x -> ordinary_lengths lx ly bmin bmax_y ->
  exists dd, bi_rectangle_nested lx ly bmin bmax_x bmax_y = Ok dd /\
  forall i d f, nth_error dd i = Some d -> In f d -> kept64 (bval lx) (bval ly) (bval bmin * (1 - / INR (i + 2)) * (1 - p2 (-20))) f.
Proof.
  intros ((Flx & Fly & Fbn & Fbx) & (Rlx & Rly & Rbn & Rbx) & (M1 & M2) & K1 & K2) ((_ & _ & _ & Fby) & (_ & _ & _ & Rby) & _ & K1' & K2'). unfold bi_rectangle_nested.
  assert (C : exists l1 l2 bx by' tr, (if nle ly lx then (lx, ly, bmax_x, bmax_y, false) else (ly, lx, bmax_y, bmax_x, true)) = (l1, l2, bx, by', tr) /\ finite64 l1 = true /\ finite64 l2 = true /\
    finite64 bx = true /\ finite64 by' = true /\ p2 (-300) <= bval bx <= p2 300 /\ p2 (-300) <= bval by' <= p2 300 /\
    p2 (-300) <= bval l2 /\ bval l2 <= bval l1 <= p2 300 /\ bval l1 <= p2 30 * bval bmin /\ bval bx <= p2 50 * bval l1 /\ bval by' <= p2 50 * bval l2 /\
    forall f d, kept64 (bval l1) (bval l2) d f -> kept64 (bval lx) (bval ly) d (maybe_transpose tr f)).
  { cbn [nle NumB64]. destruct (SFleb ly lx) eqn:E.
    - apply SFleb_iff in E; auto. exists lx, ly, bmax_x, bmax_y, false. repeat (split; [solve [auto|lra]|]). auto.
    - assert (~ bval ly <= bval lx) by (intros H; apply SFleb_iff in H; auto; congruence). exists ly, lx, bmax_y, bmax_x, true. repeat (split; [solve [auto|lra]|]).
      intros f d. apply kept64_transpose. }
  destruct C as (l1 & l2 & bx & by' & tr & -> & F1 & F2 & Gx & Gy & Tx & Ty & H2 & H1 & L & KX & KY & T). clear M1 M2 K1 K2 K1' K2'. pose proof small_u as [U0 U1]. pose proof (p2_pos (-300)) as P3.
  pose proof (div_range (-300) 300 (-300) 300 (bval l2) (bval bmin) ltac:(lra) ltac:(lra) ltac:(lra) Rbn) as D1. pose proof (p2_le (-1022) (-300 - 300) ltac:(lia)).
  assert (X1 : bval l2 / bval bmin <= p2 30) by (apply (Rmult_le_reg_r (bval bmin)); [lra|]; replace (bval l2 / bval bmin * bval bmin) with (bval l2) by (field; lra); lra).
  pose proof (p2_le 30 51 ltac:(lia)). unfold n_float.
  destruct (count64 l2 bmin F2 Fbn ltac:(lra) ltac:(lra) ltac:(lra)) as (q & m & -> & _ & _ & _ & _ & Em & Hm & Hmb & _). cbn [bind].
  destruct (count_up64 l2 by' F2 Gy ltac:(lra) Ty KY) as (q' & k & -> & Ek & Hk). cbn [bind]. rewrite Ek. cbn [bind]. rewrite Em. cbn [bind].
  assert (E30 : p2 30 = 1073741824) by (rewrite p2_Z by lia; reflexivity).
  destruct (mapM_nth (fun n_2 => let! b_2 := pydiv l2 (nofZ (n_2 - 1)) in bi_rectangular l1 l2 bmin bx b_2 tr)
    (fun n d => forall f, In f d -> exists g, f = maybe_transpose tr g /\ kept64 (bval l1) (bval l2) (bval bmin * (1 - / IZR n) * (1 - p2 (-20))) g) (zrange k (m + 1))) as (dd & -> & HD).
  { intros n Hn. apply in_zrange in Hn. assert (Mn : IZR (n - 1) * bval bmin <= bval l2 * (1 + 4 * u64)).
    { apply Rle_trans with (IZR (m - 1) * bval bmin); [apply Rmult_le_compat_r; [lra|apply IZR_le; lia]|]. apply Hmb; lia. }
    assert (Hn30 : (n <= 2 ^ 30 + 2)%Z).
    { rewrite E30 in L. assert (IZR (n - 1) <= 1073741824 * (1 + 4 * u64)) by nra. assert (HZ : IZR (n - 1) < IZR 1073741826) by nra. apply lt_IZR in HZ. lia. }
    destruct (spread64 l2 n F2 ltac:(lra) ltac:(lia)) as (B & -> & FB & RB & MB). cbn [bind]. apply (bi_rectangular64 l1 l2 bmin bx B tr n); auto; lia. }
  exists dd. split; [reflexivity|]. intros i d f Hi Hf. apply HD in Hi as (n & Hn & G). apply G in Hf as (g & -> & HK). apply T.
  unfold zrange in Hn. rewrite nth_error_zseq in Hn. destruct (i <? _)%nat; [|discriminate]. injection Hn as <-.
  destruct HK as (Z1 & I & S). split; [exact Z1|]. split; [exact I|]. eapply separated_weaken; [|exact S].
  assert (E20 : p2 (-20) = / 1048576) by (rewrite p2_neg by lia; reflexivity). apply Rmult_le_compat_r; [rewrite E20; lra|]. apply Rmult_le_compat_l; [lra|].
  rewrite INR_IZR_INZ. assert (0 < IZR (Z.of_nat (i + 2))) by (apply (IZR_lt 0); lia). assert (IZR (Z.of_nat (i + 2)) <= IZR (k + Z.of_nat i)) by (apply IZR_le; lia).
  assert (/ IZR (k + Z.of_nat i) <= / IZR (Z.of_nat (i + 2))) by (apply Rinv_le_contravar; lra). lra.
Qed.
