(** Borehole counts and grids computed with doubles *)
From Coq Require Import ZArith Reals SpecFloat List Bool Lia Lra.
From Verif Require Import Base Num BaseLemmas Utilities Coordinates CoordinatesProofs Spec Domains Float64 Binary64.
Import ListNotations.
Open Scope R_scope.

Lemma u64_eq : u64 = / 9007199254740992.
Proof.
  assert (E : u64 * p2 53 = 1) by (unfold u64; rewrite <- p2_add; reflexivity). rewrite p2_Z in E by lia.
  change (2 ^ 53)%Z with 9007199254740992%Z in E. apply (Rmult_eq_reg_r 9007199254740992); [|lra]. rewrite E. field.
Qed.

Lemma p2_opp e : p2 (- e) = / p2 e.
Proof. pose proof (p2_pos e). apply (Rmult_eq_reg_r (p2 e)); [|lra]. rewrite <- p2_add, Z.add_opp_diag_l, Rinv_l by lra. reflexivity. Qed.
Lemma p2_neg e : (e <= 0)%Z -> p2 e = / IZR (2 ^ (- e)).
Proof. intros He. rewrite <- (Z.opp_involutive e) at 1. rewrite p2_opp, p2_Z by lia. reflexivity. Qed.

Lemma Rabs_near x y e : Rabs (x - y) <= e -> y - e <= x <= y + e.
Proof. intros H. pose proof (Rle_abs (x - y)). pose proof (Rle_abs (- (x - y))) as A. rewrite Rabs_Ropp in A. lra. Qed.

(** ** results that neither overflow nor underflow *)
Lemma rounded_ok r x : rounded r x -> Rabs x <= p2 1023 -> nearest r x /\ Rabs (bval r - x) <= Rmax (u64 * Rabs x) eta64.
Proof.
  intros [(s & _ & H)|(H & H' & _)] L; [exfalso|auto].
  assert (sgn s * x <= Rabs x) by (pose proof (Rle_abs (sgn s * x)) as A; rewrite Rabs_mult, sgn_abs in A; lra).
  change 1024%Z with (1023 + 1)%Z in H. rewrite p2_succ in H. pose proof (p2_pos 1023).
  assert (p2 (-54) <= / 4). { eapply Rle_trans; [apply (p2_le (-54) (-2)); lia|]. rewrite (p2_neg (-2)) by lia. change (2 ^ - -2)%Z with 4%Z. lra. }
  nra.
Qed.
Lemma rounded_tight r x : rounded r x -> p2 (-1022) <= Rabs x <= p2 1023 -> nearest r x /\ Rabs (bval r - x) <= u64 * Rabs x.
Proof.
  intros H [L1 L2]. destruct (rounded_ok r x H L2) as [N E]. split; [exact N|]. eapply Rle_trans; [exact E|]. apply Rmax_lub; [lra|].
  unfold eta64, u64. replace (-1075)%Z with (-53 + -1022)%Z by lia. rewrite p2_add. pose proof (p2_pos (-53)). nra.
Qed.
Lemma rounded_rel_tight r x : rounded_rel r x -> Rabs x <= p2 1023 -> nearest r x /\ Rabs (bval r - x) <= u64 * Rabs x.
Proof.
  intros H L. pose proof (rounded_ok r x (rounded_rel_rounded r x H) L) as [N _]. split; [exact N|].
  destruct H as [(s & -> & _)|(_ & H & _)]; [destruct N; discriminate|exact H].
Qed.

(** a nearest double does not pass an integer *)
Lemma nearest_int_le r x z : nearest r x -> (Z.abs z < 2 ^ 53)%Z -> IZR z <= x -> IZR z <= bval r.
Proof. intros H Hz L. destruct (b64_ofZ_exact z Hz) as [F E]. rewrite <- E in *. now apply (nearest_le r x). Qed.
Lemma nearest_int_ge r x z : nearest r x -> (Z.abs z < 2 ^ 53)%Z -> x <= IZR z -> bval r <= IZR z.
Proof. intros H Hz L. destruct (b64_ofZ_exact z Hz) as [F E]. rewrite <- E in *. now apply (nearest_ge r x). Qed.

Lemma pydiv64 (x y : b64) : finite64 x = true -> finite64 y = true -> bval y <> 0 -> pydiv x y = Ok (ndivr x y).
Proof. intros Fx Fy Ny. unfold pydiv. cbn [nis0 NumB64]. destruct (b64_is0 y) eqn:E; [apply b64_is0_iff in E; auto; contradiction|reflexivity]. Qed.

Lemma div_tight (x y : b64) : finite64 x = true -> finite64 y = true -> 0 < bval y -> p2 (-1022) <= bval x / bval y <= p2 1023 ->
  exists q, pydiv x y = Ok q /\ nearest q (bval x / bval y) /\ Rabs (bval q - bval x / bval y) <= u64 * (bval x / bval y).
Proof.
  intros Fx Fy Py H. rewrite pydiv64 by (auto; lra). eexists. split; [reflexivity|].
  pose proof (SFdiv_rounded x y Fx Fy ltac:(lra)) as Rd. pose proof (p2_pos (-1022)).
  destruct (rounded_tight _ _ Rd) as [N E]; [rewrite Rabs_pos_eq by lra; exact H|]. split; [exact N|]. rewrite (Rabs_pos_eq (bval x / bval y)) in E by lra. exact E.
Qed.

(** ** utilities.py:79-81 *)
Lemma p2_52 : p2 52 = 4503599627370496.
Proof. rewrite p2_Z by lia. reflexivity. Qed.
Lemma number_down64 (l b : b64) : finite64 l = true -> finite64 b = true -> 0 < bval b -> 0 <= bval l -> bval l / bval b < p2 52 ->
  exists n, number_of_boreholes l b false = Ok n /\
  ((n = Rfloor (bval l / bval b) + 1)%Z \/ (n = Rfloor (bval l / bval b) + 2)%Z /\ IZR (n - 1) * bval b <= bval l * (1 + u64)).
Proof.
  intros Fl Fb Pb Pl Hx. set (x := bval l / bval b) in *. assert (X0 : 0 <= x) by (apply Rmult_le_pos; [lra|apply Rlt_le, Rinv_0_lt_compat; lra]).
  unfold number_of_boreholes. rewrite pydiv64 by (auto; lra). cbn [bind].
  pose proof (SFdiv_rounded l b Fl Fb ltac:(lra)) as Rd. fold x in Rd.
  assert (L : Rabs x <= p2 1023) by (rewrite Rabs_pos_eq by auto; pose proof (p2_le 52 1023 ltac:(lia)); lra).
  destruct (rounded_ok _ _ Rd L) as [Nq Er]. rewrite (Rabs_pos_eq x X0) in Er.
  set (q := SFdiv 53 1024 l b) in *. change (ndivr l b) with q.
  rewrite (floor64 q) by apply Nq. cbn [bind]. eexists. split; [reflexivity|].
  pose proof (Rfloor_spec x) as [F1 F2]. set (k := Rfloor x) in *.
  assert (K0 : (0 <= k)%Z) by (apply Rfloor_ge; exact X0).
  assert (K1 : (k < 2 ^ 52)%Z) by (apply lt_IZR; rewrite <- p2_Z by lia; lra).
  assert (A : IZR k <= bval q) by (apply (nearest_int_le q x); auto; lia).
  assert (B : bval q <= IZR (k + 1)) by (apply (nearest_int_ge q x); [auto|lia|rewrite plus_IZR; lra]).
  assert (C : (k <= Rfloor (bval q) <= k + 1)%Z).
  { split; [now apply Rfloor_ge|]. apply Rfloor_le. lra. }
  destruct (Z.eq_dec (Rfloor (bval q)) k) as [->|N]; [now left|right]. assert (E : Rfloor (bval q) = (k + 1)%Z) by lia. rewrite E.
  split; [lia|]. replace (k + 1 + 1 - 1)%Z with (k + 1)%Z by lia.
  pose proof (Rfloor_spec (bval q)) as [G _]. rewrite E in G.
  assert (H1 : IZR (k + 1) <= x * (1 + u64)).
  { pose proof (Rle_abs (bval q - x)). assert (IZR (k + 1) - x <= Rmax (u64 * x) eta64) by lra.
    assert (1 <= IZR (k + 1)) by (apply (IZR_le 1); lia).
    assert (eta64 <= u64 * / 2).
    { unfold eta64, u64. replace (/ 2) with (p2 (-1)) by (rewrite (p2_neg (-1)) by lia; reflexivity). rewrite <- p2_add. apply p2_le. lia. }
    pose proof u64_eq. assert (u64 <= / 4) by lra.
    unfold Rmax in H0. destruct (Rle_dec (u64 * x) eta64); nra. }
  apply (Rmult_le_compat_r (bval b)) in H1; [|lra]. eapply Rle_trans; [exact H1|]. unfold x. apply Req_le. field. lra.
Qed.

Lemma number_up64 (l b : b64) : finite64 l = true -> finite64 b = true -> 0 < bval b -> p2 (-1022) <= bval l / bval b < p2 52 ->
  exists n, number_of_boreholes l b true = Ok n /\ (2 <= n)%Z /\
  ((n = Rceil (bval l / bval b) + 1)%Z \/ (n = Rceil (bval l / bval b))%Z /\ bval l * (1 - u64) <= IZR (n - 1) * bval b).
Proof.
  intros Fl Fb Pb Hx. destruct (div_tight l b Fl Fb Pb) as (q & Eq & Nq & Er); [pose proof (p2_le 52 1023 ltac:(lia)); lra|].
  set (x := bval l / bval b) in *. pose proof (p2_pos (-1022)) as P0.
  unfold number_of_boreholes. rewrite Eq. cbn [bind]. rewrite (ceil64 q) by apply Nq. cbn [bind]. eexists. split; [reflexivity|].
  pose proof (Rceil_spec x) as [F1 F2]. set (k := Rceil x) in *.
  assert (K0 : (1 <= k)%Z) by (apply Rceil_ge; lra).
  assert (K1 : (k <= 2 ^ 52)%Z) by (apply Rceil_le; rewrite <- p2_Z by lia; lra).
  assert (A : IZR (k - 1) <= bval q) by (apply (nearest_int_le q x); [auto|lia|rewrite minus_IZR; lra]).
  assert (B : bval q <= IZR k) by (apply (nearest_int_ge q x); [auto|lia|lra]).
  assert (Qp : 0 < bval q).
  { assert (Fm : finite64 (S754_finite false 4503599627370496 (-1074)) = true) by reflexivity.
    assert (Em : bval (S754_finite false 4503599627370496 (-1074)) = p2 (-1022)).
    { rewrite bval_sgn. unfold sgn. rewrite <- p2_52, Rmult_1_l, <- p2_add. reflexivity. }
    pose proof (nearest_le _ _ _ Nq Fm) as M. rewrite Em in M. specialize (M (proj1 Hx)). lra. }
  assert (C : (k - 1 <= Rceil (bval q) <= k)%Z).
  { split; [apply Rceil_ge; rewrite minus_IZR in *; lra|now apply Rceil_le]. }
  assert (D : (1 <= Rceil (bval q))%Z) by (apply Rceil_ge; lra). split; [lia|].
  destruct (Z.eq_dec (Rceil (bval q)) k) as [->|N]; [now left|right]. assert (E : Rceil (bval q) = (k - 1)%Z) by lia. rewrite E.
  split; [lia|]. replace (k - 1 + 1 - 1)%Z with (k - 1)%Z by lia.
  pose proof (Rceil_spec (bval q)) as [_ G]. rewrite E in G.
  assert (H1 : x * (1 - u64) <= IZR (k - 1)) by (pose proof (Rabs_near _ _ _ Er); lra).
  apply (Rmult_le_compat_r (bval b)) in H1; [|lra]. eapply Rle_trans; [|exact H1]. unfold x. apply Req_le. field. lra.
Qed.

(** ** coordinates.py: [0 + i * B] *)
Lemma nearest_congr r r' x : nearest r x -> finite64 r' = true -> bval r' = bval r -> nearest r' x.
Proof. intros [F H] F' E. split; [exact F'|]. rewrite E. exact H. Qed.
Lemma add_zero (z : b64) : finite64 z = true -> finite64 (nadd fz z) = true /\ bval (nadd fz z) = bval z.
Proof. intros F. destruct z as [[]|s| |s m e]; try discriminate; split; auto. Qed.
Definition coord (i : Z) (b : b64) : R := bval (nadd fz (zmul i b)).
Lemma coord64 i (b : b64) : finite64 b = true -> (0 <= i < 2 ^ 53)%Z -> p2 (-1022) <= bval b -> IZR i * bval b <= p2 1023 ->
  nearest (nadd fz (zmul i b)) (IZR i * bval b) /\ Rabs (coord i b - IZR i * bval b) <= u64 * (IZR i * bval b).
Proof.
  intros Fb Hi Hb Hm. destruct (b64_ofZ_exact i ltac:(lia)) as [Fi Ei]. pose proof (p2_pos (-1022)) as P.
  assert (T : nearest (zmul i b) (IZR i * bval b) /\ Rabs (bval (zmul i b) - IZR i * bval b) <= u64 * (IZR i * bval b)).
  { unfold zmul. cbn [nmul nofZ NumB64]. pose proof (SFmul_rounded (b64_ofZ i) b Fi Fb) as Rd. rewrite Ei in Rd.
    destruct (Z.eq_dec i 0) as [->|N].
    - rewrite Rmult_0_l in *. destruct (rounded_ok _ _ Rd) as [Nr _]; [rewrite Rabs_R0; apply Rlt_le, p2_pos|].
      split; [exact Nr|]. destruct (b64_ofZ_exact 0 ltac:(lia)) as [F0 E0].
      rewrite <- E0 in Nr. apply nearest_exact in Nr; auto. rewrite Nr, E0, Rminus_0_r, Rabs_R0. lra.
    - assert (1 <= IZR i) by (apply (IZR_le 1); lia). assert (bval b <= IZR i * bval b) by nra.
      destruct (rounded_tight _ _ Rd) as [Nr E]; [rewrite Rabs_pos_eq by lra; lra|]. rewrite (Rabs_pos_eq (IZR i * bval b)) in E by lra. auto. }
  destruct T as [T1 T2]. destruct (add_zero (zmul i b) (proj1 T1)) as [A1 A2]. split; [now apply (nearest_congr (zmul i b))|].
  unfold coord. rewrite A2. exact T2.
Qed.

(** the reals a field of doubles stands for *)
Definition real_field (f : list (b64 * b64)) : list (R * R) := map (fun p => (bval (fst p), bval (snd p))) f.

Lemma coord_apart i j n (b : b64) : finite64 b = true -> (0 <= i < n)%Z -> (0 <= j < n)%Z -> (n <= 2 ^ 52)%Z -> p2 (-1022) <= bval b -> IZR (n - 1) * bval b <= p2 1023 ->
  i <> j -> bval b * (1 - 2 * IZR (n - 1) * u64) <= Rabs (coord i b - coord j b).
Proof.
  assert (W : forall i j, finite64 b = true -> (0 <= i < n)%Z -> (0 <= j < n)%Z -> (n <= 2 ^ 52)%Z -> p2 (-1022) <= bval b -> IZR (n - 1) * bval b <= p2 1023 ->
     (i < j)%Z -> bval b * (1 - 2 * IZR (n - 1) * u64) <= coord j b - coord i b).
  { clear. intros i j Fb Hi Hj Hn Hb Hm Hij. pose proof (p2_pos (-1022)) as P.
    assert (M : forall k, (0 <= k < n)%Z -> IZR k * bval b <= IZR (n - 1) * bval b) by (intros k Hk; apply Rmult_le_compat_r; [lra|apply IZR_le; lia]).
    pose proof (M i Hi). pose proof (M j Hj).
    destruct (coord64 i b Fb ltac:(lia) Hb ltac:(lra)) as [_ Ei]. destruct (coord64 j b Fb ltac:(lia) Hb ltac:(lra)) as [_ Ej].
    apply Rabs_near in Ei, Ej. assert (IZR i + 1 <= IZR j) by (rewrite <- plus_IZR; apply IZR_le; lia).
    assert (0 < u64) by apply p2_pos. nra. }
  intros Fb Hi Hj Hn Hb Hm Hij. destruct (Z.lt_total i j) as [L|[L|L]]; [|contradiction|].
  - rewrite Rabs_minus_sym. eapply Rle_trans; [now apply (W i j)|apply Rle_abs].
  - eapply Rle_trans; [now apply (W j i)|apply Rle_abs].
Qed.

Lemma far_xy d x y x' y' : 0 <= d -> d <= Rabs (x - x') \/ d <= Rabs (y - y') -> d <= sqrt ((x - x') ^ 2 + (y - y') ^ 2).
Proof.
  intros Hd H. apply sqrt_ge; auto. assert (S : forall z, d <= Rabs z -> d ^ 2 <= z ^ 2).
  { intros z Hz. rewrite <- (Rsqr_pow2 z), <- (Rsqr_pow2 d). apply Rsqr_le_abs_1. now rewrite (Rabs_pos_eq d Hd). }
  pose proof (pow2_ge_0 (x - x')). pose proof (pow2_ge_0 (y - y')). destruct H as [H|H]; apply S in H; lra.
Qed.

Lemma rectangle64 Nx Ny (Bx By : b64) : finite64 Bx = true -> finite64 By = true -> (0 <= Nx <= 2 ^ 52)%Z -> (0 <= Ny <= 2 ^ 52)%Z ->
  p2 (-1022) <= bval Bx -> p2 (-1022) <= bval By -> IZR (Nx - 1) * bval Bx <= p2 1023 -> IZR (Ny - 1) * bval By <= p2 1023 ->
  exists f, rectangle Nx Ny Bx By = Ok f /\ zlen f = (Nx * Ny)%Z /\
  (forall p, In p (real_field f) <-> exists i j, (0 <= i < Nx)%Z /\ (0 <= j < Ny)%Z /\ p = (coord i Bx, coord j By)) /\
  forall d, 0 < d -> d <= bval Bx * (1 - 2 * IZR (Nx - 1) * u64) -> d <= bval By * (1 - 2 * IZR (Ny - 1) * u64) -> separated d (real_field f).
Proof.
  intros FX FY HNx HNy HX HY MX MY. unfold rectangle. rewrite rectangle_o_ok by lia. eexists. split; [reflexivity|].
  cbn [fst snd]. split; [rewrite rectangle_loop_zlen; lia|].
  assert (E : real_field (flat_map (fun i => map (fun j => (nadd fz (zmul i Bx), nadd fz (zmul j By))) (zrange 0 Ny)) (zrange 0 Nx))
     = flat_map (fun i => map (fun j => (coord i Bx, coord j By)) (zrange 0 Ny)) (zrange 0 Nx)).
  { unfold real_field. rewrite flat_map_concat_map, concat_map, map_map, <- flat_map_concat_map.
    apply flat_map_ext. intros i. rewrite map_map. reflexivity. }
  rewrite E.
  assert (I : forall p, In p (flat_map (fun i => map (fun j => (coord i Bx, coord j By)) (zrange 0 Ny)) (zrange 0 Nx)) <->
      exists i j, (0 <= i < Nx)%Z /\ (0 <= j < Ny)%Z /\ p = (coord i Bx, coord j By)).
  { intros p. rewrite in_flat_map. split.
    - intros (i & Hi & H). apply in_map_iff in H as (j & <- & Hj). apply in_zrange in Hi, Hj. eauto.
    - intros (i & j & Hi & Hj & ->). exists i. split; [now apply in_zrange|]. apply in_map_iff. exists j. split; [reflexivity|now apply in_zrange]. }
  split; [exact I|]. intros d Hd DX DY.
  assert (AX : forall i j, (0 <= i < Nx)%Z -> (0 <= j < Nx)%Z -> i <> j -> d <= Rabs (coord i Bx - coord j Bx)) by (intros i j Hi Hj N; pose proof (coord_apart i j Nx Bx); intuition lra).
  assert (AY : forall i j, (0 <= i < Ny)%Z -> (0 <= j < Ny)%Z -> i <> j -> d <= Rabs (coord i By - coord j By)) by (intros i j Hi Hj N; pose proof (coord_apart i j Ny By); intuition lra).
  assert (NX : forall i j, (0 <= i < Nx)%Z -> (0 <= j < Nx)%Z -> coord i Bx = coord j Bx -> i = j).
  { intros i j Hi Hj Eq. destruct (Z.eq_dec i j) as [|N]; auto. specialize (AX i j Hi Hj N). rewrite Eq, Rminus_diag_eq, Rabs_R0 in AX by reflexivity. lra. }
  assert (NY : forall i j, (0 <= i < Ny)%Z -> (0 <= j < Ny)%Z -> coord i By = coord j By -> i = j).
  { intros i j Hi Hj Eq. destruct (Z.eq_dec i j) as [|N]; auto. specialize (AY i j Hi Hj N). rewrite Eq, Rminus_diag_eq, Rabs_R0 in AY by reflexivity. lra. }
  apply (separated_of_distinct d _ (fun p => exists i j, (0 <= i < Nx)%Z /\ (0 <= j < Ny)%Z /\ p = (coord i Bx, coord j By))).
  - apply NoDup_flat_map.
    + apply NoDup_zrange.
    + intros i Hi. apply NoDup_map_inj; [|apply NoDup_zrange]. intros x y Hx Hy [= E0]. apply in_zrange in Hx, Hy. now apply NY.
    + intros a b x Ha Hb H1 H2. apply in_map_iff in H1 as (j & <- & _), H2 as (k & [= E0 _] & _). apply in_zrange in Ha, Hb. symmetry. now apply NX.
  - intros p Hp. now apply I.
  - intros p q (i & j & Hi & Hj & ->) (i' & j' & Hi' & Hj' & ->) Ne. cbn [fst snd]. apply far_xy; [lra|].
    destruct (Z.eq_dec i i') as [->|N]; [right|left; now apply AX]. apply AY; auto. intros ->. now apply Ne.
Qed.

(** ** domains.py:31-88 *)
Lemma small_u : 0 < u64 <= / 1000000000000000.
Proof. split; [apply p2_pos|]. rewrite u64_eq. lra. Qed.
(** linear arithmetic, the rounding unit being a constant *)
Ltac ulra := rewrite ?u64_eq in *; lra.

(** int(floor(l / b + 1)) *)
Lemma count64 (l b : b64) : finite64 l = true -> finite64 b = true -> 0 < bval l -> 0 < bval b -> p2 (-1022) <= bval l / bval b <= p2 51 ->
  exists q m, pydiv l b = Ok q /\ finite64 q = true /\ finite64 (nadd q (nofZ 1)) = true /\ 1 <= bval (nadd q (nofZ 1)) /\ bval (nadd q (nofZ 1)) <= (bval l / bval b * (1 + u64) + 1) * (1 + u64) /\
  nfloor (nadd q (nofZ 1)) = Ok m /\ (1 <= m)%Z /\ ((2 <= m)%Z -> IZR (m - 1) * bval b <= bval l * (1 + 4 * u64)) /\
  (p2 (-50) <= bval l / bval b -> 1 < bval (nadd q (nofZ 1))).
Proof.
  intros Fl Fb Pl Pb Hx. destruct (div_tight l b Fl Fb Pb) as (q & Eq & Nq & Er); [pose proof (p2_le 51 1023 ltac:(lia)); lra|].
  set (x := bval l / bval b) in *. pose proof (p2_pos (-1022)) as P0. pose proof small_u as [U0 U1].
  exists q. apply Rabs_near in Er. assert (Q0 : 0 < bval q) by nra.
  destruct (b64_ofZ_exact 1 ltac:(lia)) as [F1 E1]. set (s := nadd q (nofZ 1)).
  pose proof (SFadd_rounded q (b64_ofZ 1) (proj1 Nq) F1) as Rs. rewrite E1 in Rs. change (SFadd 53 1024 q (b64_ofZ 1)) with s in Rs.
  pose proof (p2_le 51 60 ltac:(lia)). pose proof (p2_le 61 1023 ltac:(lia)). pose proof (p2_pos 51). 
  assert (p2 60 * 2 = p2 61) by (change 61%Z with (60 + 1)%Z; rewrite p2_succ; ring). assert (4 <= p2 51) by (rewrite p2_Z by lia; apply (IZR_le 4); lia).
  destruct (rounded_rel_tight _ _ Rs) as [Ns Es]; [rewrite Rabs_pos_eq by lra; nra|]. rewrite (Rabs_pos_eq (bval q + 1)) in Es by lra. apply Rabs_near in Es.
  assert (S1 : 1 <= bval s) by (apply (nearest_int_le s (bval q + 1) 1); [auto|lia|lra]).
  pose proof (Rfloor_spec (bval s)) as [G1 G2].
  exists (Rfloor (bval s)). split; [exact Eq|]. split; [apply Nq|]. split; [apply Ns|]. split; [exact S1|]. split; [nra|].
  split; [now apply floor64; apply Ns|]. split; [now apply Rfloor_ge|]. split.
  - intros Hm. apply IZR_le in Hm. rewrite minus_IZR.
    assert (H5 : IZR (Rfloor (bval s)) - 1 <= x * (1 + 4 * u64)).
    { set (k := IZR (Rfloor (bval s))) in *. assert (k <= (x * (1 + u64) + 1) * (1 + u64)) by ulra.
      ulra. }
    apply (Rmult_le_compat_r (bval b)) in H5; [|lra]. eapply Rle_trans; [exact H5|]. unfold x. apply Req_le. field. lra.
  - intros Hb. assert (Fm : finite64 (S754_finite false 4503599627370497 (-52)) = true) by reflexivity.
    assert (Em : bval (S754_finite false 4503599627370497 (-52)) = 1 + p2 (-52)).
    { rewrite bval_sgn. unfold sgn. change 4503599627370497%Z with (2 ^ 52 + 1)%Z. rewrite plus_IZR, <- p2_Z, Rmult_1_l, Rmult_plus_distr_r, <- p2_add by lia.
      change (p2 (52 + -52)) with 1. lra. }
    pose proof (p2_pos (-52)). assert (p2 (-52) * 4 = p2 (-50)) by (change (-50)%Z with (-52 + 1 + 1)%Z; rewrite !p2_succ; ring).
    pose proof (nearest_le _ _ _ Ns Fm) as M. rewrite Em in M. assert (1 + p2 (-52) <= bval s); [apply M|]; ulra.
Qed.

Lemma field64 i j (B : b64) l1 l2 : finite64 B = true -> p2 (-1000) <= bval B -> (1 <= i <= 2 ^ 31)%Z -> (1 <= j <= 2 ^ 31)%Z -> l1 <= p2 400 -> l2 <= p2 400 ->
  IZR (i - 1) * bval B <= l1 * (1 + 4 * u64) -> IZR (j - 1) * bval B <= l2 * (1 + 4 * u64) ->
  exists f, rectangle i j B B = Ok f /\ zlen f = (i * j)%Z /\ inside (l1 * (1 + 8 * u64)) (l2 * (1 + 8 * u64)) (real_field f) /\ separated (bval B * (1 - p2 (-21))) (real_field f).
Proof.
  intros FB HB Hi Hj L1 L2 M1 M2. pose proof small_u as [U0 U1]. pose proof (p2_pos (-1000)) as P0. pose proof (p2_le (-1022) (-1000) ltac:(lia)) as Q0.
  pose proof (p2_le 401 1023 ltac:(lia)) as Q1. change 401%Z with (400 + 1)%Z in Q1. rewrite p2_succ in Q1. pose proof (p2_pos 400) as P4.
  assert (T : forall k l, (1 <= k)%Z -> l <= p2 400 -> IZR (k - 1) * bval B <= l * (1 + 4 * u64) -> IZR (k - 1) * bval B <= p2 1023) by (intros; nra).
  pose proof (T i l1 (proj1 Hi) L1 M1) as T1. pose proof (T j l2 (proj1 Hj) L2 M2) as T2.
  destruct (rectangle64 i j B B FB FB ltac:(lia) ltac:(lia) ltac:(lra) ltac:(lra) T1 T2) as (f & E & Hl & I & S).
  exists f. split; [exact E|]. split; [exact Hl|]. split.
  - intros p Hp. apply I in Hp as (a & b & Ha & Hb & ->). cbn [fst snd].
    assert (W : forall a k l, (0 <= a < k)%Z -> (k <= 2 ^ 31)%Z -> l <= p2 400 -> IZR (k - 1) * bval B <= l * (1 + 4 * u64) -> 0 <= coord a B <= l * (1 + 8 * u64)).
    { clear - FB HB U0 U1 P0 Q0 Q1 P4. intros a k l Ha Hk L M.
      assert (A0 : 0 <= IZR a * bval B) by (apply Rmult_le_pos; [apply (IZR_le 0); lia|lra]).
      assert (A : IZR a * bval B <= IZR (k - 1) * bval B) by (apply Rmult_le_compat_r; [lra|apply IZR_le; lia]).
      destruct (coord64 a B FB ltac:(lia) ltac:(lra) ltac:(nra)) as [_ C]. apply Rabs_near in C.
      split; [nra|]. assert (coord a B <= l * (1 + 4 * u64) * (1 + u64)) by nra.
      assert (0 <= l) by nra. nra. }
    split; [apply (W a i)|apply (W b j)]; auto; lia.
  - assert (P21 : p2 (-21) = / 2097152) by (rewrite p2_neg by lia; reflexivity).
    assert (K : forall k, (1 <= k <= 2 ^ 31)%Z -> bval B * (1 - p2 (-21)) <= bval B * (1 - 2 * IZR (k - 1) * u64)).
    { intros k Hk. apply Rmult_le_compat_l; [lra|]. assert (IZR (k - 1) <= IZR (2 ^ 31)) by (apply IZR_le; lia). change (2 ^ 31)%Z with 2147483648%Z in *.
      rewrite P21, u64_eq. lra. }
    apply S; [rewrite P21; nra|apply K; lia|apply K; lia].
Qed.

(** what is asked of the inputs *)
Definition ordinary_lengths (lx ly bmin bmax : b64) : Prop :=
  (finite64 lx = true /\ finite64 ly = true /\ finite64 bmin = true /\ finite64 bmax = true) /\
  (p2 (-300) <= bval lx <= p2 300 /\ p2 (-300) <= bval ly <= p2 300 /\ p2 (-300) <= bval bmin <= p2 300 /\ p2 (-300) <= bval bmax <= p2 300) /\
  (bval lx <= p2 30 * bval bmin /\ bval ly <= p2 30 * bval bmin) /\ (bval bmax <= p2 50 * bval lx /\ bval bmax <= p2 50 * bval ly).

Lemma div_range a b c d x y : 0 < x -> 0 < y -> p2 a <= x <= p2 b -> p2 c <= y <= p2 d -> p2 (a - d) <= x / y <= p2 (b - c).
Proof.
  intros X Y HX HY. pose proof (p2_pos d). pose proof (p2_pos c). pose proof (p2_pos a).
  assert (E : x / y * y = x) by (field; lra). assert (D : 0 < x / y) by (apply Rdiv_lt_0_compat; lra). split.
  - apply (Rmult_le_reg_r y); auto. rewrite E. replace a with (a - d + d)%Z in HX by lia. rewrite p2_add in HX. pose proof (p2_pos (a - d)). nra.
  - apply (Rmult_le_reg_r y); auto. rewrite E. replace b with (b - c + c)%Z in HX by lia. rewrite p2_add in HX. pose proof (p2_pos (b - c)). nra.
Qed.

(** the spacing of n columns over l1, and the rows it leaves room for over l2 *)
Lemma columns64 (l1 l2 bmin : b64) n : finite64 l1 = true -> finite64 l2 = true -> p2 (-300) <= bval l2 -> bval l2 <= bval l1 <= p2 300 -> p2 (-300) <= bval bmin ->
  bval l1 <= p2 30 * bval bmin -> (2 <= n)%Z -> IZR (n - 1) * bval bmin <= bval l1 * (1 + 4 * u64) ->
  (n <= 2 ^ 31)%Z /\
  exists B q n2, pydiv l1 (nofZ (n - 1)) = Ok B /\ finite64 B = true /\ p2 (-1000) <= bval B /\ bval bmin * (1 - 8 * u64) <= bval B /\ IZR (n - 1) * bval B <= bval l1 * (1 + 4 * u64) /\
  pydiv l2 B = Ok q /\ nfloor (nadd q (nofZ 1)) = Ok n2 /\ (1 <= n2 <= 2 ^ 31)%Z /\ IZR (n2 - 1) * bval B <= bval l2 * (1 + 4 * u64).
Proof.
  intros F1 F2 H2 H1 Hb R1 Hn M. pose proof small_u as [U0 U1]. pose proof (p2_pos (-300)) as P3.
  assert (N30 : IZR (n - 1) <= p2 30 * (1 + 4 * u64)) by nra.
  assert (E30 : p2 30 = 1073741824) by (rewrite p2_Z by lia; reflexivity). rewrite E30 in N30.
  assert (Hn2 : (n - 1 <= 1073741825)%Z) by (apply le_IZR; nra). split; [lia|].
  destruct (b64_ofZ_exact (n - 1) ltac:(lia)) as [Fn En]. assert (1 <= IZR (n - 1)) by (apply (IZR_le 1); lia).
  assert (Rn : p2 0 <= IZR (n - 1) <= p2 31) by (change (p2 0) with 1; rewrite p2_Z by lia; split; [lra|apply IZR_le; lia]).
  pose proof (div_range (-300) 300 0 31 (bval l1) (IZR (n - 1)) ltac:(lra) ltac:(lra) ltac:(lra) Rn) as D1.
  pose proof (p2_le (-1022) (-300 - 31) ltac:(lia)). pose proof (p2_le (300 - 0) 1023 ltac:(lia)).
  destruct (div_tight l1 (b64_ofZ (n - 1)) F1 Fn ltac:(lra)) as (B & EB & NB & ErB); [rewrite En; lra|]. rewrite En in ErB.
  set (x := bval l1 / IZR (n - 1)) in *. assert (Ex : IZR (n - 1) * x = bval l1) by (unfold x; field; lra).
  apply Rabs_near in ErB. exists B.
  assert (XB : bval bmin * (1 - 4 * u64) <= x).
  { assert (bval bmin * IZR (n - 1) <= x * (1 + 4 * u64) * IZR (n - 1)) by nra. assert (bval bmin <= x * (1 + 4 * u64)) by nra. nra. }
  assert (X0 : 0 < x) by nra. assert (B0 : 0 < bval B) by nra.
  assert (RB : p2 (-332) <= bval B <= p2 301).
  { change (-300 - 31)%Z with (-332 + 1)%Z in D1. change (300 - 0)%Z with 300%Z in D1. rewrite p2_succ in D1. change 301%Z with (300 + 1)%Z. rewrite p2_succ. split; ulra. }
  pose proof (div_range (-300) 300 (-332) 301 (bval l2) (bval B) ltac:(lra) B0 ltac:(lra) RB) as D2.
  assert (U2 : bval l2 / bval B <= IZR (n - 1) * (1 + 2 * u64)).
  { apply (Rmult_le_reg_r (bval B)); auto. replace (bval l2 / bval B * bval B) with (bval l2) by (field; lra).
    assert (bval l1 <= IZR (n - 1) * (1 + 2 * u64) * bval B); [|lra]. rewrite <- Ex. assert (x <= (1 + 2 * u64) * bval B) by nra. nra. }
  pose proof (p2_le (-1022) (-300 - 301) ltac:(lia)). 
  assert (E51 : p2 51 = 2251799813685248) by (rewrite p2_Z by lia; reflexivity).
  apply IZR_le in Hn2.
  destruct (count64 l2 B F2 (proj1 NB) ltac:(lra) B0) as (q & n2 & Eq & Fq & Fs & S1 & S2 & En2 & Hm & Hm2 & _); [split; [lra|rewrite E51; nra]|].
  exists q, n2. split; [exact EB|]. split; [apply NB|]. split; [pose proof (p2_le (-1000) (-332) ltac:(lia)); lra|].
  split; [ulra|]. split; [nra|]. split; [exact Eq|]. split; [exact En2|].
  assert (R0 : 0 <= bval l2 * (1 + 4 * u64)) by nra.
  assert (M2 : IZR (n2 - 1) * bval B <= bval l2 * (1 + 4 * u64)).
  { destruct (Z_le_gt_dec 2 n2); [now apply Hm2|]. replace (n2 - 1)%Z with 0%Z by lia. lra. }
  split; [|exact M2]. split; [exact Hm|]. 
  assert (HN : IZR (n2 - 1) <= IZR 1073741827); [|apply le_IZR in HN; lia].
  apply (Rmult_le_reg_r (bval B)); auto. eapply Rle_trans; [exact M2|].
  assert (bval l2 <= IZR (n - 1) * (1 + 2 * u64) * bval B).
  { apply (Rmult_le_compat_r (bval B)) in U2; [|lra]. replace (bval l2 / bval B * bval B) with (bval l2) in U2 by (field; lra). exact U2. }
  assert (G : IZR (n - 1) * (1 + 2 * u64) * (1 + 4 * u64) <= 1073741827) by ulra. apply (Rmult_le_compat_r (bval B)) in G; [|lra]. nra.
Qed.

Definition good64 (l1 l2 bmin : R) (f : list (b64 * b64)) : Prop :=
  (1 <= zlen f)%Z /\ inside (l1 * (1 + 8 * u64)) (l2 * (1 + 8 * u64)) (real_field f) /\ separated (bmin * (1 - p2 (-20))) (real_field f).
Lemma real_transpose f : real_field (transpose_coordinates f) = transpose_coordinates (real_field f).
Proof. unfold real_field, transpose_coordinates. rewrite !map_map. reflexivity. Qed.
Lemma separated_weaken d d' f : d' <= d -> separated d f -> separated d' f.
Proof. intros H S i j p q Hij Hi Hj. eapply Rle_trans; [exact H|]. now apply (S i j). Qed.
Lemma mapM_forall {A B} (f : A -> res B) (P : B -> Prop) l : (forall a, In a l -> exists b, f a = Ok b /\ P b) -> exists r, mapM f l = Ok r /\ Forall P r.
Proof.
  induction l as [|a l IH]; intros H; cbn; [eexists; split; [reflexivity|constructor]|].
  destruct (H a (or_introl eq_refl)) as (b & -> & Hb). cbn [bind]. destruct IH as (r & -> & Hr); [intros; apply H; now right|]. cbn [bind]. eexists. split; [reflexivity|now constructor].
Qed.

(** the loop of [rectangular], with what one pass computes *)
Definition pass64 (l1 l2 bmin : b64) (n : Z) (B : b64) (n2 : Z) : Prop :=
  exists q, pydiv l1 (nofZ (n - 1)) = Ok B /\ finite64 B = true /\ p2 (-1000) <= bval B /\ bval bmin * (1 - 8 * u64) <= bval B /\ IZR (n - 1) * bval B <= bval l1 * (1 + 4 * u64) /\
  pydiv l2 B = Ok q /\ nfloor (nadd q (nofZ 1)) = Ok n2 /\ (1 <= n2 <= 2 ^ 31)%Z /\ IZR (n2 - 1) * bval B <= bval l2 * (1 + 4 * u64).
Lemma rectangular_setup64 (lx ly bmin bmax : b64) : ordinary_lengths lx ly bmin bmax ->
  exists l1 l2 tr k m, rectangular lx ly bmin bmax = (let! s := foldM (rectangular_body tr l1 l2 k) (zrange k (m + 1)) (0%Z, 1%Z, []) in Ok (snd s)) /\
  finite64 l1 = true /\ finite64 l2 = true /\ p2 (-300) <= bval l2 /\ bval l2 <= bval l1 <= p2 300 /\ (2 <= k)%Z /\
  (forall f, good64 (bval l1) (bval l2) (bval bmin) f -> good64 (bval lx) (bval ly) (bval bmin) (maybe_transpose tr f)) /\
  forall n, (k <= n <= m)%Z -> (n <= 2 ^ 31)%Z /\ exists B n2, pass64 l1 l2 bmin n B n2.
Proof.
  intros ((Flx & Fly & Fbn & Fbx) & (Rlx & Rly & Rbn & Rbx) & (M1 & M2) & K1 & K2). unfold rectangular.
  assert (C : exists l1 l2 tr, (if nle ly lx then (lx, ly, false) else (ly, lx, true)) = (l1, l2, tr) /\ finite64 l1 = true /\ finite64 l2 = true /\
    p2 (-300) <= bval l2 /\ bval l2 <= bval l1 <= p2 300 /\ bval l1 <= p2 30 * bval bmin /\ bval bmax <= p2 50 * bval l1 /\
    forall f, good64 (bval l1) (bval l2) (bval bmin) f -> good64 (bval lx) (bval ly) (bval bmin) (maybe_transpose tr f)).
  { cbn [nle NumB64]. destruct (SFleb ly lx) eqn:E.
    - apply SFleb_iff in E; auto. exists lx, ly, false. repeat (split; [solve [auto|lra]|]). auto.
    - assert (~ bval ly <= bval lx) by (intros H; apply SFleb_iff in H; auto; congruence). exists ly, lx, true. repeat (split; [solve [auto|lra]|]).
      intros f (Z1 & I & S). unfold maybe_transpose, good64. rewrite real_transpose, transpose_zlen. split; [exact Z1|]. split; [now apply transpose_inside|now apply transpose_separated]. }
  destruct C as (l1 & l2 & tr & -> & F1 & F2 & H2 & H1 & L & K & T). clear M1 M2 K1 K2. pose proof small_u as [U0 U1]. pose proof (p2_pos (-300)) as P3.
  pose proof (div_range (-300) 300 (-300) 300 (bval l1) (bval bmin) ltac:(lra) ltac:(lra) ltac:(lra) Rbn) as D1.
  pose proof (div_range (-300) 300 (-300) 300 (bval l1) (bval bmax) ltac:(lra) ltac:(lra) ltac:(lra) Rbx) as D2.
  pose proof (p2_le (-1022) (-300 - 300) ltac:(lia)).
  assert (X1 : bval l1 / bval bmin <= p2 30) by (apply (Rmult_le_reg_r (bval bmin)); [lra|]; replace (bval l1 / bval bmin * bval bmin) with (bval l1) by (field; lra); lra).
  pose proof (p2_le 30 51 ltac:(lia)).
  unfold n_float.
  destruct (count64 l1 bmin F1 Fbn ltac:(lra) ltac:(lra) ltac:(lra)) as (q & m & -> & _ & _ & _ & _ & Em & Hm & Hmb & _). cbn [bind].
  (* the quotient by the largest spacing may be large: the loop is then empty *)
  assert (Cm : exists q' k, pydiv l1 bmax = Ok q' /\ nceil (nadd q' (nofZ 1)) = Ok k /\ (2 <= k)%Z).
  { assert (Y : p2 (-50) <= bval l1 / bval bmax).
    { apply (Rmult_le_reg_r (bval bmax)); [lra|]. replace (bval l1 / bval bmax * bval bmax) with (bval l1) by (field; lra).
      apply (Rmult_le_reg_l (p2 50)); [apply p2_pos|]. replace (p2 50 * (p2 (-50) * bval bmax)) with (p2 50 * p2 (-50) * bval bmax) by ring. rewrite <- p2_add.
      change (p2 (50 + -50)) with 1. lra. }
    destruct (div_tight l1 bmax F1 Fbx ltac:(lra)) as (q' & Eq & Nq & Er); [pose proof (p2_le (300 - -300) 1023 ltac:(lia)); lra|].
    pose proof (p2_pos (-50)). apply Rabs_near in Er. exists q'.
    destruct (b64_ofZ_exact 1 ltac:(lia)) as [G1 E1]. set (s := nadd q' (nofZ 1)).
    pose proof (SFadd_rounded q' (b64_ofZ 1) (proj1 Nq) G1) as Rs. rewrite E1 in Rs. change (SFadd 53 1024 q' (b64_ofZ 1)) with s in Rs.
    assert (bval q' + 1 <= p2 1023).
    { pose proof (p2_le (300 - -300) 1021 ltac:(lia)) as B1. pose proof (p2_le 0 1021 ltac:(lia)) as B2. change (p2 0) with 1 in B2.
      change 1023%Z with (1021 + 2)%Z. rewrite p2_add, (p2_Z 2) by lia. change (2 ^ 2)%Z with 4%Z.
      assert (u64 * (bval l1 / bval bmax) <= 1 * (bval l1 / bval bmax)); [apply Rmult_le_compat_r; lra|lra]. }
    destruct (rounded_rel_tight _ _ Rs) as [Ns Es]; [rewrite Rabs_pos_eq by nra; lra|]. rewrite (Rabs_pos_eq (bval q' + 1)) in Es by nra. apply Rabs_near in Es.
    exists (Rceil (bval s)). split; [exact Eq|]. split; [cbn [nceil NumB64]; apply ceil64; apply Ns|].
    assert (E50 : p2 (-50) = 8 * u64) by (unfold u64; change (-50)%Z with (3 + -53)%Z; rewrite p2_add, (p2_Z 3) by lia; reflexivity).
    assert (1 < bval s) by nra. pose proof (Rceil_spec (bval s)) as [_ HC]. assert (Hc1 : IZR 1 < IZR (Rceil (bval s))) by lra. apply lt_IZR in Hc1. lia. }
  destruct Cm as (q' & k & -> & Ek & Hk). cbn [bind]. rewrite Ek. cbn [bind]. rewrite Em. cbn [bind].
  exists l1, l2, tr, k, m. split; [reflexivity|]. repeat (split; [assumption|]). intros n Hn.
  destruct (columns64 l1 l2 bmin n F1 F2 H2 H1 (proj1 Rbn) L ltac:(lia)) as (Hn31 & B & q2 & n2 & HB).
  { apply Rle_trans with (IZR (m - 1) * bval bmin); [apply Rmult_le_compat_r; [lra|apply IZR_le; lia]|]. apply Hmb; lia. }
  split; [exact Hn31|]. exists B, n2, q2. exact HB.
Qed.

Lemma rectangular64 (lx ly bmin bmax : b64) : ordinary_lengths lx ly bmin bmax ->
  exists d, rectangular lx ly bmin bmax = Ok d /\ forall f, In f d -> good64 (bval lx) (bval ly) (bval bmin) f.
Proof.
  intros HO. destruct (rectangular_setup64 _ _ _ _ HO) as (l1 & l2 & tr & k & m & -> & F1 & F2 & H2 & H1 & Hk & T & Pass). pose proof small_u as [U0 U1].
  assert (B00 : 0 < bval bmin) by (destruct HO as (_ & (_ & _ & (Rb & _) & _) & _); pose proof (p2_pos (-300)); lra). clear HO.
  destruct (Z_le_gt_dec k (m + 1)) as [Hkm|Hkm]; [|rewrite zrange_nil by lia; cbn [foldM bind snd]; eexists; split; [reflexivity|now intros ? []]].
  destruct (foldM_zrange (rectangular_body tr l1 l2 k) (fun _ s => Forall (good64 (bval lx) (bval ly) (bval bmin)) (snd s)) k (m + 1) (0%Z, 1%Z, []) Hkm) as ([[it old] d] & -> & I); [constructor| |].
  2:{ cbn [bind snd]. exists d. split; [reflexivity|]. now apply Forall_forall. }
  intros n [[it old] d] Hn I. cbn [snd] in I. unfold rectangular_body.
  destruct (Pass n ltac:(lia)) as (Hn31 & B & n2 & q2 & -> & FB & B1 & B2 & R1 & Eq2 & En2 & Hn2 & R2).
  cbn [bind]. rewrite Eq2. cbn [bind]. rewrite En2. cbn [bind]. clear Eq2 En2.
  assert (P400 : p2 300 <= p2 400) by (apply p2_le; lia).
  assert (W : forall i j, (1 <= i <= n)%Z -> (1 <= j <= n2)%Z -> exists f, (let! r := rectangle i j B B in Ok (maybe_transpose tr r)) = Ok f /\ good64 (bval lx) (bval ly) (bval bmin) f).
  { intros i j Hi Hj. pose proof (p2_pos (-1000)) as P1. destruct (field64 i j B (bval l1) (bval l2) FB B1 ltac:(lia) ltac:(lia) ltac:(lra) ltac:(lra)) as (f & E & Z1 & If & S).
    - apply Rle_trans with (IZR (n - 1) * bval B); [apply Rmult_le_compat_r; [lra|apply IZR_le; lia]|exact R1].
    - apply Rle_trans with (IZR (n2 - 1) * bval B); [apply Rmult_le_compat_r; [lra|apply IZR_le; lia]|exact R2].
    - rewrite E. cbn [bind]. eexists. split; [reflexivity|]. apply T. split; [rewrite Z1; nia|]. split; [exact If|]. eapply separated_weaken; [|exact S].
      assert (E21 : p2 (-21) = / 2097152) by (rewrite p2_neg by lia; reflexivity). change (-20)%Z with (-21 + 1)%Z. rewrite p2_succ, E21.
      assert (bval bmin * (1 - 8 * u64) * (1 - / 2097152) <= bval B * (1 - / 2097152)) by (apply Rmult_le_compat_r; lra). rewrite u64_eq in *. nra. }
  assert (Pre : exists d' it', (if (it =? 0)%Z then
       let! a := mapM (fun i => let! r := rectangle i 1 B B in Ok (maybe_transpose tr r)) (zrange 1 k) in
       let! b := mapM (fun j => let! r := rectangle k j B B in Ok (maybe_transpose tr r)) (zrange 1 n2) in
       Ok (d ++ a ++ b, (it + 1)%Z) else Ok (d, it)) = Ok (d', it') /\ Forall (good64 (bval lx) (bval ly) (bval bmin)) d').
  { destruct (it =? 0)%Z; [|eauto].
    destruct (mapM_forall (fun i => let! r := rectangle i 1 B B in Ok (maybe_transpose tr r)) (good64 (bval lx) (bval ly) (bval bmin)) (zrange 1 k)) as (a & -> & Ha); [intros i Hi; apply in_zrange in Hi; apply W; lia|]. cbn [bind].
    destruct (mapM_forall (fun j => let! r := rectangle k j B B in Ok (maybe_transpose tr r)) (good64 (bval lx) (bval ly) (bval bmin)) (zrange 1 n2)) as (b & -> & Hb); [intros i Hi; apply in_zrange in Hi; apply W; lia|]. cbn [bind].
    do 2 eexists. split; [reflexivity|]. rewrite !Forall_app. auto. }
  destruct Pre as (d' & it' & -> & Hd'). cbn [bind]. destruct (old =? n2)%Z; [eexists; split; [reflexivity|exact Hd']|].
  destruct (W n n2 ltac:(lia) ltac:(lia)) as (f & Ef & Gf). destruct (rectangle n n2 B B) as [r|]; [|discriminate]. cbn [bind] in Ef |- *. injection Ef as <-.
  eexists. split; [reflexivity|]. cbn [snd]. rewrite Forall_app. auto.
Qed.

(** ** utilities.py:79-91 *)
Lemma round_trip64 n (b : b64) : (2 <= n <= 2 ^ 50)%Z -> finite64 b = true -> p2 (-1022) <= bval b -> IZR (n - 1) * bval b <= p2 1023 ->
  exists d u, number_of_boreholes (length_of_side n b) b false = Ok d /\ number_of_boreholes (length_of_side n b) b true = Ok u /\
  (d = n - 1 \/ d = n)%Z /\ (u = n \/ u = n + 1)%Z.
Proof.
  intros Hn Fb Hb Hm. pose proof (p2_pos (-1022)) as P. pose proof small_u as [U0 U1]. destruct (b64_ofZ_exact (n - 1) ltac:(lia)) as [Fn En].
  assert (N1 : 1 <= IZR (n - 1)) by (apply (IZR_le 1); lia). assert (Nu : IZR (n - 1) * u64 <= / 8).
  { assert (IZR (n - 1) <= IZR (2 ^ 50)) by (apply IZR_le; lia). change (2 ^ 50)%Z with 1125899906842624%Z in *. rewrite u64_eq. lra. }
  unfold length_of_side. cbn [nmul nofZ NumB64]. set (l := SFmul 53 1024 (b64_ofZ (n - 1)) b).
  pose proof (SFmul_rounded (b64_ofZ (n - 1)) b Fn Fb) as Rl. rewrite En in Rl. fold l in Rl.
  destruct (rounded_tight _ _ Rl) as [Nl El]; [rewrite Rabs_pos_eq by nra; nra|]. rewrite (Rabs_pos_eq (IZR (n - 1) * bval b)) in El by nra. apply Rabs_near in El.
  set (x := bval l / bval b). assert (Ex : x * bval b = bval l) by (unfold x; field; lra).
  assert (X : IZR (n - 1) - / 8 <= x <= IZR (n - 1) + / 8).
  { split; apply (Rmult_le_reg_r (bval b)); try lra; rewrite Ex; nra. }
  assert (X2 : x <= p2 1023).
  { assert (IZR (n - 1) <= IZR (2 ^ 50)) by (apply IZR_le; lia). pose proof (p2_le 51 1023 ltac:(lia)) as Q. rewrite p2_Z in Q by lia. change (2 ^ 50)%Z with 1125899906842624%Z in *. change (2 ^ 51)%Z with 2251799813685248%Z in Q. lra. }
  pose proof (p2_le (-1022) (-2) ltac:(lia)) as Q2. rewrite (p2_neg (-2)) in Q2 by lia. change (2 ^ - -2)%Z with 4%Z in Q2.
  destruct (div_tight l b (proj1 Nl) Fb ltac:(lra)) as (q & Eq & Nq & _); [fold x; lra|]. fold x in Nq.
  assert (Eq8 : Rabs (bval q - x) <= / 8).
  { destruct Nq as [_ Nq]. specialize (Nq _ Fn). rewrite En in Nq. eapply Rle_trans; [exact Nq|]. apply Rabs_le. lra. }
  apply Rabs_near in Eq8. rewrite minus_IZR in *.
  unfold number_of_boreholes. rewrite Eq. cbn [bind]. rewrite (floor64 q), (ceil64 q) by apply Nq. cbn [bind]. do 2 eexists. split; [reflexivity|]. split; [reflexivity|].
  pose proof (Rfloor_spec (bval q)) as [A1 A2]. pose proof (Rceil_spec (bval q)) as [B1 B2]. 
  assert (IZR n - 2 < IZR (Rfloor (bval q)) + 1 /\ IZR (Rfloor (bval q)) < IZR n /\ IZR n - 2 < IZR (Rceil (bval q)) /\ IZR (Rceil (bval q)) - 1 < IZR n) as (C1 & C2 & C3 & C4) by lra.
  rewrite <- ?plus_IZR, <- ?minus_IZR in *. apply lt_IZR in C2. replace (IZR n - 2) with (IZR (n - 2)) in * by (rewrite minus_IZR; reflexivity). replace (IZR (Rfloor (bval q)) + 1) with (IZR (Rfloor (bval q) + 1)) in C1 by (rewrite plus_IZR; reflexivity).
  replace (IZR (Rceil (bval q)) - 1) with (IZR (Rceil (bval q) - 1)) in C4 by (rewrite minus_IZR; reflexivity).
  apply lt_IZR in C1, C3, C4.
  assert (D1 : (Rfloor (bval q) <= n - 1)%Z) by lia. assert (D2 : (n - 2 <= Rfloor (bval q))%Z) by lia.
  assert (D3 : (n - 1 <= Rceil (bval q) <= n)%Z) by lia. lia.
Qed.

Lemma row64 (l : b64) n B : finite64 l = true -> (2 <= n <= 2 ^ 52)%Z -> p2 (-900) <= bval l <= p2 900 -> spacing_along_length l n = Ok B ->
  exists f p, rectangle n 1 B B = Ok f /\ nth_error f (Z.to_nat (n - 1)) = Some p /\ Rabs (bval (fst p) - bval l) <= p2 (-51) * bval l /\ bval (snd p) = 0.
Proof.
  intros Fl Hn Hl. unfold spacing_along_length. pose proof (p2_pos (-900)) as P. pose proof small_u as [U0 U1]. destruct (b64_ofZ_exact (n - 1) ltac:(lia)) as [Fn En].
  assert (1 <= IZR (n - 1)) by (apply (IZR_le 1); lia).
  assert (Rn : p2 0 <= IZR (n - 1) <= p2 52) by (change (p2 0) with 1; rewrite p2_Z by lia; split; [lra|apply IZR_le; lia]).
  pose proof (div_range (-900) 900 0 52 (bval l) (IZR (n - 1)) ltac:(lra) ltac:(lra) Hl Rn) as D1. change (900 - 0)%Z with 900%Z in D1. change (-900 - 52)%Z with (-953 + 1)%Z in D1.
  pose proof (p2_le (-1022) (-953) ltac:(lia)). pose proof (p2_le 901 1023 ltac:(lia)) as Q9. change 901%Z with (900 + 1)%Z in Q9. rewrite p2_succ in *. pose proof (p2_pos (-953)). pose proof (p2_pos 900).
  destruct (div_tight l (b64_ofZ (n - 1)) Fl Fn ltac:(lra)) as (B' & EB & NB & ErB); [rewrite En; lra|]. change (@nofZ b64 NumB64 (n - 1)) with (b64_ofZ (n - 1)). rewrite EB. intros [= <-]. rewrite En in ErB. clear EB.
  set (x := bval l / IZR (n - 1)) in *. assert (Ex : IZR (n - 1) * x = bval l) by (unfold x; field; lra). clearbody x. apply Rabs_near in ErB.
  assert (M : bval l * (1 - u64) <= IZR (n - 1) * bval B' <= bval l * (1 + u64)) by (rewrite <- Ex; split; nra).
  destruct (coord64 (n - 1) B' (proj1 NB) ltac:(lia) ltac:(nra) ltac:(nra)) as [_ C]. apply Rabs_near in C.
  unfold rectangle. rewrite rectangle_o_ok by lia. eexists. exists (nadd fz (zmul (n - 1) B'), nadd fz (zmul 0 B')). split; [reflexivity|]. cbn [fst snd].
  split; [|split].
  - assert (E : forall (g : Z -> b64 * b64) l', flat_map (fun i => [g i]) l' = map g l') by (intros g l'; induction l'; cbn; congruence).
    change (zrange 0 1) with [0%Z]. cbn [map]. rewrite (E (fun i => (nadd fz (zmul i B'), nadd fz (zmul 0 B')))). rewrite nth_error_map. 
    unfold zrange. rewrite nth_error_zseq. replace (_ <? _)%nat with true by (symmetry; apply Nat.ltb_lt; lia).
    cbn [option_map]. replace (0 + Z.of_nat (Z.to_nat (n - 1)))%Z with (n - 1)%Z by lia. reflexivity.
  - change (bval (nadd fz (zmul (n - 1) B'))) with (coord (n - 1) B'). apply Rabs_le.
    assert (E51 : p2 (-51) = 4 * u64) by (unfold u64; change (-51)%Z with (2 + -53)%Z; rewrite p2_add, (p2_Z 2) by lia; reflexivity). rewrite E51. split; nra.
  - destruct (coord64 0 B' (proj1 NB) ltac:(lia) ltac:(nra)) as [_ Z0]; [lra|]. rewrite Rmult_0_l, Rmult_0_r, Rminus_0_r in Z0.
    change (coord 0 B' = 0). pose proof (Rabs_pos (coord 0 B')). destruct (Req_dec (coord 0 B') 0) as [|N]; auto. apply Rabs_pos_lt in N. lra.
Qed.

(** the magnitude of a concrete double *)
Lemma range64 x m e : x = S754_finite false m e -> finite64 x = true -> p2 e <= bval x <= p2 (e + 53).
Proof.
  intros -> F. apply bounded_iff in F as (_ & F & _). rewrite bval_sgn. unfold sgn. rewrite Rmult_1_l. pose proof (p2_pos e). split.
  - assert (1 <= IZR (Zpos m)) by (apply (IZR_le 1); lia). nra.
  - rewrite p2_add, (p2_Z 53) by lia. assert (IZR (Zpos m) <= IZR (2 ^ 53)) by (apply IZR_le; lia). nra.
Qed.
