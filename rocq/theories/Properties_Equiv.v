(** Properties C65-C68 and C80-C84: pipes, borehole heat exchangers and equivalent single U-tubes
    (borehole_heat_exchangers.py, equivalance.py, media.py of the peak load analysis tool).
    [h_circular], [h_annulus], [r_conduction], [eff_u], [eff_c] are the pygfunction routines, [brentq] the root finder; all theorems
    hold for every behaviour of them, up to the assumptions they state. *)
From Coq Require Import ZArith List Bool Reals Lia Lra.
From Verif Require Import Base Num BaseLemmas Ghe GheProofs Bhe Equiv EquivSpec EquivProofs.
Import ListNotations.
Open Scope R_scope.

Lemma Ok_inj {A} (a b : A) : Ok a = Ok b -> a = b.
Proof. intros [=]. assumption. Qed.

(** C68: 2n legs on one circle, evenly spaced; legs of one U-tube are neighbours (2i and 2i + 1), no U-tubes: ZeroDivisionError *)
Theorem C68_positions :
  forall s r n, (1 <= n)%Z -> exists pos, place_pipes s r n = Ok pos /\ zlen pos = (2 * n)%Z /\
  forall k d, (0 <= k < 2 * n)%Z -> nth (Z.to_nat k) pos d = on_circle (s / 2 + r) (PI + IZR k * (PI / IZR n)).
Proof.
  intros s r n Hn. eexists. split; [now apply place_eq|]. split.
  - unfold zlen. rewrite map_length. fold (zlen (zrange 0 (2 * n))). rewrite zrange_zlen. lia.
  - intros k d Hk. now apply nth_map_zrange with (g := fun k => on_circle (s / 2 + r) (PI + IZR k * (PI / IZR n))).
Qed.
Theorem C68_none : forall s r n, (n <= 0)%Z -> place_pipes s r n = if (n =? 0)%Z then Err ZeroDivisionError else Ok [].
Proof.
  intros s r n Hn. unfold place_pipes. destruct (Z.eqb_spec n 0); [reflexivity|]. now rewrite zrange_nil by lia.
Qed.
(** no two legs overlap exactly when neighbours do not; every leg is in the borehole exactly when the circle allows it *)
Theorem C68_overlap :
  forall s r n pos, (1 <= n)%Z -> 0 <= s -> 0 < r -> place_pipes s r n = Ok pos ->
  ((forall k l d, (0 <= k < 2 * n)%Z -> (0 <= l < 2 * n)%Z -> k <> l -> disjoint r (nth (Z.to_nat k) pos d) (nth (Z.to_nat l) pos d)) <->
   r <= (s / 2 + r) * sin (PI / IZR n / 2)) /\
  (forall r_b p, In p pos -> (inside r_b r p <-> s / 2 + 2 * r <= r_b)).
Proof.
  intros s r n pos Hn Hs Hr E. rewrite place_eq in E by exact Hn.
  apply Ok_inj in E. subst pos.
  set (g := fun k => on_circle (s / 2 + r) (PI + IZR k * (PI / IZR n))). set (D := s / 2 + r). assert (HD : 0 < D) by (unfold D; lra).
  destruct (sin_step_least n 1 Hn ltac:(lia)) as (S1 & _). set (w := sin (PI / IZR n / 2)) in *.
  assert (Hw : (2 * r) ^ 2 <= (2 * D * w) ^ 2 <-> r <= D * w).
  { split; intro H.
    - apply Rnot_lt_le. intro L. apply (Rlt_not_le _ _) in H; [exact H|]. assert (0 <= D * w) by (apply Rmult_le_pos; lra).
      replace ((2 * D * w) ^ 2) with (4 * (D * w * (D * w))) by ring. replace ((2 * r) ^ 2) with (4 * (r * r)) by ring.
      assert (D * w * (D * w) < r * r) by (apply Rmult_le_0_lt_compat; lra). lra.
    - apply pow_incr. lra. }
  split; [split|].
  - intro H. apply Hw. specialize (H 0%Z 1%Z (0, 0) ltac:(lia) ltac:(lia) ltac:(lia)). rewrite !(nth_map_zrange g) in H by lia.
    unfold disjoint, g in H. rewrite chord in H. fold D in H. eapply Rle_trans; [exact H|]. right.
    replace ((PI + 0 * (PI / IZR n) - (PI + 1 * (PI / IZR n))) / 2) with (- (PI / IZR n / 2)) by (unfold Rdiv; ring). rewrite sin_neg. unfold w. ring.
  - intros H k l d Hk Hl Hd. rewrite !(nth_map_zrange g) by lia. unfold disjoint, g. eapply Rle_trans; [apply Hw; exact H|]. now apply chord_least.
  - intros r_b p Hp. apply in_map_iff in Hp. destruct Hp as (k & <- & _). unfold inside, g. rewrite on_circle_norm. fold D. split.
    + intros (H1 & H2). apply Rnot_lt_le. intro L. assert (r_b - r < D) by (unfold D; lra). nra.
    + intro H. assert (D <= r_b - r) by (unfold D; lra). split; [lra|]. apply pow_incr. lra.
Qed.
(** one U-tube never overlaps; two need a spacing of at least 0.83 of the pipe radius *)
Theorem C68_one : forall s r pos, 0 <= s -> 0 < r -> place_pipes s r 1 = Ok pos ->
  exists p q, pos = [p; q] /\ disjoint r p q /\ p = (- (s / 2 + r), 0) /\ q = (s / 2 + r, 0).
Proof.
  intros s r pos Hs Hr E. rewrite place_one in E. injection E as <-. exists (- (s / 2 + r), 0), (s / 2 + r, 0).
  split; [reflexivity|]. split; [|split; reflexivity]. unfold disjoint, dist2. cbn [fst snd]. nra.
Qed.
Theorem C68_two : forall s r pos, 0 <= s -> 0 < r -> place_pipes s r 2 = Ok pos ->
  ((forall k l d, (0 <= k < 4)%Z -> (0 <= l < 4)%Z -> k <> l -> disjoint r (nth (Z.to_nat k) pos d) (nth (Z.to_nat l) pos d)) <->
   2 * (sqrt 2 - 1) * r <= s).
Proof.
  intros s r pos Hs Hr E. pose proof (C68_overlap s r 2 pos ltac:(lia) Hs Hr E) as (H & _). change (2 * 2)%Z with 4%Z in H. rewrite H.
  replace (PI / 2 / 2) with (PI / 4) by field. rewrite sin_PI4. assert (S2 : sqrt 2 * sqrt 2 = 2) by (apply sqrt_sqrt; lra).
  assert (S0 : 0 < sqrt 2) by (apply sqrt_lt_R0; lra). split; intro L.
  - assert (r * sqrt 2 <= s / 2 + r); [|nra]. apply Rmult_le_reg_r with (/ sqrt 2); [now apply Rinv_0_lt_compat|].
    replace (r * sqrt 2 * / sqrt 2) with r by (field; lra). unfold Rdiv in *. lra.
  - apply Rmult_le_reg_r with (sqrt 2); [exact S0|]. replace ((s / 2 + r) * (1 / sqrt 2) * sqrt 2) with (s / 2 + r) by (field; lra). nra.
Qed.
Theorem C68_no_overlap_refuted : exists s r n pos, 0 < s /\ 0 < r /\ place_pipes s r n = Ok pos /\
  exists k l, (0 <= k < 2 * n)%Z /\ (0 <= l < 2 * n)%Z /\ k <> l /\ ~ disjoint r (nth (Z.to_nat k) pos (0, 0)) (nth (Z.to_nat l) pos (0, 0)).
Proof.
  exists (1 / 2), 1, 2%Z. eexists. split; [lra|]. split; [lra|]. split; [apply place_eq; lia|]. exists 0%Z, 1%Z. split; [lia|]. split; [lia|]. split; [lia|].
  rewrite !(nth_map_zrange (fun k => on_circle (1 / 2 / 2 + 1) (PI + IZR k * (PI / 2)))) by lia. unfold disjoint. rewrite chord.
  replace ((PI + 0 * (PI / 2) - (PI + 1 * (PI / 2))) / 2) with (- (PI / 4)) by field. rewrite sin_neg, sin_PI4.
  assert (S2 : sqrt 2 * sqrt 2 = 2) by (apply sqrt_sqrt; lra). assert (S0 : 0 < sqrt 2) by (apply sqrt_lt_R0; lra).
  replace ((2 * (1 / 2 / 2 + 1) * - (1 / sqrt 2)) ^ 2) with (25 / 4 * / (sqrt 2 * sqrt 2)) by (field; lra). rewrite S2. lra.
Qed.

(** C67 *)
Theorem C67_flows : forall m,
  compute_mass_flow_rate_pipe m series = Ok m /\ compute_mass_flow_rate_pipe m no_config = Ok m /\
  (exists p, compute_mass_flow_rate_pipe m parallel = Ok p /\ 2 * p = m) /\ compute_mass_flow_rate_pipe m other_config = Err ValueError.
Proof. intro m. repeat split. exists (m / 2). split; [reflexivity|field]. Qed.
(** the flows of [n] parallel U-tubes add up only for two of them *)
Theorem C67_parallel_partial :
  forall h_circular r_conduction m f r_b p gk sk b, multiple_u_tube h_circular r_conduction parallel m f r_b p gk sk = Ok b -> m <> 0 ->
  (IZR (n_pipes p) * ub_m_pipe b = m <-> n_pipes p = 2%Z).
Proof.
  intros h rc m f r_b p gk sk b E Hm. injection E as <-. cbn. split; intro H.
  - apply eq_IZR. apply Rmult_eq_reg_r with (m / 2); [|lra]. lra.
  - rewrite H. lra.
Qed.
Theorem C67_parallel_refuted :
  exists h_circular r_conduction m f r_b p gk sk b, multiple_u_tube h_circular r_conduction parallel m f r_b p gk sk = Ok b /\ n_pipes p = 3%Z /\
  IZR (n_pipes p) * ub_m_pipe b <> m.
Proof.
  set (p := {| pp_pos := [(0, 0); (0, 1); (0, 2); (0, 3); (0, 4); (0, 5)]; pp_rin := 1; pp_rout := 2; pp_s := 1; pp_eps := 0; pp_k := 1; pp_rhoCp := 1 |}).
  exists (fun _ _ _ _ _ _ _ => 1), (fun _ _ _ => 1), 1, {| fl_mu := 1; fl_rho := 1; fl_k := 1; fl_cp := 1 |}, 10, p, 1, 1. eexists.
  split; [reflexivity|]. split; [reflexivity|]. cbn [ub_m_pipe set_pg compute_resistances]. change (n_pipes p) with 3%Z. lra.
Qed.

(** C66: a new heat exchanger has the resistances of its flow *)
Theorem C66_constructed :
  forall h_circular r_conduction c n m f r_b p gk sk b, make_u h_circular r_conduction c n m f r_b p gk sk = Ok b ->
  compute_mass_flow_rate_pipe m c = Ok (ub_m_pipe b) /\ ub_m b = m /\ ub_fluid b = f /\
  ub_h b = h_circular (ub_m_pipe b) (pp_rin p) (fl_mu f) (fl_rho f) (fl_k f) (fl_cp f) (pp_eps p) /\
  ub_Rf b = film (ub_h b) (pp_rin p) /\ ub_Rp b = r_conduction (pp_rin p) (pp_rout p) (pp_k p) /\
  ub_pg b = {| pg_pos := pp_pos p; pg_rin := pp_rin p; pg_rout := pp_rout p; pg_rb := r_b; pg_ks := sk; pg_kg := gk; pg_Rfp := ub_Rf b + ub_Rp b; pg_n := n; pg_config := c |}.
Proof.
  intros h rc c n m f r_b p gk sk b E. unfold make_u in E. destruct (compute_mass_flow_rate_pipe m c) as [mp|] eqn:Em; [|discriminate].
  cbn [bind] in E. injection E as <-. cbn. unfold film. repeat split. f_equal. ring.
Qed.
(** a new coaxial heat exchanger: the fluid of the inner pipe and that of the annulus are separated by the film inside the inner pipe, its wall and the
    film on its outside; the annulus and the grout by the film on the inside of the outer pipe and the outer wall. pygfunction gets
    the inner radii of both pipes, then the outer ones *)
Theorem C66_coaxial_constructed :
  forall h_circular h_annulus r_conduction m f q r_in_in r_in_out r_out_in r_out_out k_in k_out,
  cg_inner q = (r_in_in, r_in_out) -> cg_outer q = (r_out_in, r_out_out) -> cg_k q = (k_in, k_out) ->
  let b := coaxial_pipe h_circular h_annulus r_conduction m f q in
  let h_in := h_circular m r_in_in (fl_mu f) (fl_rho f) (fl_k f) (fl_cp f) (cg_eps q) in
  let h_a := h_annulus m r_in_out r_out_in (fl_mu f) (fl_rho f) (fl_k f) (fl_cp f) (cg_eps q) in
  cb_m b = m /\ cb_m_pipe b = m /\ cb_fluid b = f /\ cb_geo b = q /\
  cb_h_in b = h_in /\ (cb_h_a_in b, cb_h_a_out b) = h_a /\
  cb_Rf_in b = film h_in r_in_in /\ cb_Rf_a_in b = film (fst h_a) r_in_out /\ cb_Rf_a_out b = film (snd h_a) r_out_in /\
  cb_Rp_in b = r_conduction r_in_in r_in_out k_in /\ cb_Rp_out b = r_conduction r_out_in r_out_out k_out /\
  cb_Rgrout b = r_conduction r_out_out (cg_rb q) (cg_grout_k q) /\
  cb_pg b = {| pc_rin := (r_in_in, r_out_in); pc_rout := (r_in_out, r_out_out); pc_rb := cg_rb q; pc_ks := cg_soil_k q; pc_kg := cg_grout_k q;
    pc_Rff := film h_in r_in_in + r_conduction r_in_in r_in_out k_in + film (fst h_a) r_in_out;
    pc_Rfp := r_conduction r_out_in r_out_out k_out + film (snd h_a) r_out_in |}.
Proof.
  intros hc ha rc m f q a b c d k1 k2 E1 E2 E3. unfold coaxial_pipe, compute_resistances_c. rewrite E1, E2, E3. cbn [fst snd].
  destruct (ha m b c _ _ _ _ _) as (hi, ho) eqn:Eh. cbv zeta. cbn. unfold film. replace (hc m a (fl_mu f) (fl_rho f) (fl_k f) (fl_cp f) (cg_eps q) * 2 * PI * a) with (hc m a (fl_mu f) (fl_rho f) (fl_k f) (fl_cp f) (cg_eps q) * (2 * PI * a)) by ring.
  replace (hi * 2 * PI * b) with (hi * (2 * PI * b)) by ring. replace (ho * 2 * PI * c) with (ho * (2 * PI * c)) by ring. repeat split.
Qed.
(** coaxial: any history of updates leaves what a construction with the latest flow and fluid gives, except the recorded pipe flow *)
Theorem C66_coaxial :
  forall h_circular h_annulus r_conduction eff_c m f q l,
  let fresh m f := coaxial_pipe h_circular h_annulus r_conduction m f q in
  let update := update_coaxial h_circular h_annulus r_conduction eff_c in
  let m' := latest (map fst l) m in let f' := latest (map snd l) f in
  updates update l (fresh m f) = with_pipe_flow m (fresh m' f') /\
  (forall m2 f2, snd (update (Some m2) (Some f2) (updates update l (fresh m f))) = eff_c (cb_pg (fresh m2 f2)) m2 (fl_cp f2)).
Proof.
  intros hc ha rc ec m f q l fresh update m' f'.
  assert (G : forall l m0 f0, updates update l (with_pipe_flow m (fresh m0 f0)) = with_pipe_flow m (fresh (latest (map fst l) m0) (latest (map snd l) f0))).
  { clear l m' f'. unfold updates. induction l as [|(om, of) l IH]; intros m0 f0; [reflexivity|]. cbn [fold_left map fst snd].
    assert (Es : fst (update om of (with_pipe_flow m (fresh m0 f0))) = with_pipe_flow m (fresh (latest [om] m0) (latest [of] f0))).
    { unfold update, update_coaxial, fresh, coaxial_pipe, compute_resistances_c. destruct q as [[a b] [c d] eps [k1 k2] rcp rb gk sk].
      assert (X : forall m1 f1, exists hi ho, ha m1 b c (fl_mu f1) (fl_rho f1) (fl_k f1) (fl_cp f1) eps = (hi, ho)) by (intros; destruct (ha _ _ _ _ _ _ _ _); eauto).
      destruct (X m0 f0) as (hi & ho & E0).
      destruct om as [m1|], of as [f1|]; cbn [latest default cb_m cb_fluid cb_geo cb_pg cb_m_pipe with_pipe_flow with_pg_c cg_inner cg_outer cg_eps cg_k cg_rb cg_grout_k cg_soil_k fst snd];
        rewrite E0; cbn;
        [destruct (X m1 f1) as (hi1 & ho1 & E1)|destruct (X m1 f0) as (hi1 & ho1 & E1)|destruct (X m0 f1) as (hi1 & ho1 & E1)|pose proof E0 as E1];
        rewrite !E1; reflexivity. }
    rewrite Es. rewrite IH. destruct om, of; reflexivity. }
  assert (F : forall m0 f0, fresh m0 f0 = with_pipe_flow m0 (fresh m0 f0)).
  { intros m0 f0. unfold fresh, coaxial_pipe, compute_resistances_c. destruct (cg_inner q), (cg_outer q), (ha _ _ _ _ _ _ _ _). reflexivity. }
  split; [rewrite (F m f) at 1; apply G|]. intros m2 f2. rewrite (F m f), G.
  set (b0 := fresh (latest (map fst l) m) (latest (map snd l) f)).
  assert (V : forall b1, cb_geo b1 = q -> cb_pg b1 = set_R_c (pc_Rff (cb_pg b1)) (pc_Rfp (cb_pg b1)) (cb_pg (fresh m2 f2)) ->
    snd (update (Some m2) (Some f2) b1) = ec (cb_pg (fresh m2 f2)) m2 (fl_cp f2)).
  { intros b1 Eg Ep. unfold update, update_coaxial, fresh, coaxial_pipe, compute_resistances_c in *. cbn [default] in *. rewrite Eg, Ep.
    destruct q as [[a b] [c d] eps [k1 k2] rcp rb gk sk]. cbn [cg_inner cg_outer cg_eps cg_k cg_rb cg_grout_k cg_soil_k cg_rhoCp fst snd].
    destruct (ha m2 _ _ _ _ _ _ _). reflexivity. }
  apply V.
  - unfold b0, fresh, coaxial_pipe, compute_resistances_c. destruct q as [[a b] [c d] eps [k1 k2] rcp rb gk sk]. cbn [cg_inner cg_outer]. destruct (ha _ _ _ _ _ _ _ _). reflexivity.
  - unfold b0, fresh, coaxial_pipe, compute_resistances_c. destruct q as [[a b] [c d] eps [k1 k2] rcp rb gk sk]. cbn [cg_inner cg_outer cg_eps]. destruct (ha _ _ _ _ _ _ _ _), (ha m2 _ _ _ _ _ _ _). reflexivity.
Qed.
(** U-tubes: the fluid is taken over, the flow is not: all resistances stay those of the flow of construction *)
Theorem C66_u_tube_partial :
  forall h_circular r_conduction eff_u c n m f r_b p gk sk l b,
  let fresh m f := make_u h_circular r_conduction c n m f r_b p gk sk in
  fresh m f = Ok b ->
  let m' := latest (map fst l) m in let f' := latest (map snd l) f in
  forall update, update = update_single h_circular r_conduction eff_u \/ update = update_multiple h_circular r_conduction eff_u ->
  exists b', fresh m f' = Ok b' /\ updates update l b = with_borehole_flow m' b' /\
  (forall m2, snd (update (Some m2) None (updates update l b)) = eff_u (ub_pg b') m2 (fl_cp f')).
Proof.
  intros hc rc eu c n m f r_b p gk sk l b fresh E m' f' update Hu.
  assert (F : forall f0, exists b0, fresh m f0 = Ok b0 /\ ub_m b0 = m /\ forall m0 om of, fst (update om of (with_borehole_flow m0 b0)) =
    with_borehole_flow (latest [om] m0) (match fresh m (latest [of] f0) with Ok x => x | Err _ => b end)).
  { intro f0. unfold fresh, make_u in *. destruct (compute_mass_flow_rate_pipe m c) as [mp|]; [|discriminate]. cbn [bind] in *.
    eexists. split; [reflexivity|]. split; [reflexivity|]. intros m0 om of. destruct om, of, Hu as [-> | ->]; reflexivity. }
  assert (G : forall l m0 f0 b0, fresh m f0 = Ok b0 -> exists b', fresh m (latest (map snd l) f0) = Ok b' /\
    updates update l (with_borehole_flow m0 b0) = with_borehole_flow (latest (map fst l) m0) b').
  { clear l m' f'. induction l as [|(om, of) l IH]; intros m0 f0 b0 E0; [exists b0; split; [exact E0|reflexivity]|].
    unfold updates. cbn [fold_left map fst snd]. destruct (F f0) as (b1 & E1 & _ & S1). assert (b1 = b0) as -> by congruence. rewrite S1.
    destruct (F (latest [of] f0)) as (b2 & E2 & _). rewrite E2. destruct (IH (latest [om] m0) (latest [of] f0) b2 E2) as (b' & E' & U').
    exists b'. split; [|]; destruct om, of; assumption. }
  assert (W : b = with_borehole_flow m b). { destruct (F f) as (b1 & E1 & Em & _). assert (b1 = b) as -> by congruence. rewrite <- Em. destruct b. reflexivity. }
  destruct (G l m f b E) as (b' & E' & U'). rewrite <- W in U'. exists b'. split; [exact E'|]. split; [exact U'|]. intro m2. rewrite U'.
  unfold fresh, make_u in E'. destruct (compute_mass_flow_rate_pipe m c) as [mp|]; [|discriminate]. cbn [bind] in E'. injection E' as <-.
  destruct Hu as [-> | ->]; reflexivity.
Qed.
Theorem C66_u_tube_refuted :
  exists h_circular r_conduction eff_u m m' f r_b p gk sk b b', single_u_tube h_circular r_conduction m f r_b p gk sk = Ok b /\
  single_u_tube h_circular r_conduction m' f r_b p gk sk = Ok b' /\
  let u := update_single h_circular r_conduction eff_u (Some m') None b in ub_Rf (fst u) <> ub_Rf b' /\ snd u <> eff_u (ub_pg b') m' (fl_cp f).
Proof.
  exists (fun m _ _ _ _ _ _ => m), (fun _ _ _ => 0), (fun g _ _ => pg_Rfp g), 1, 2, {| fl_mu := 1; fl_rho := 1; fl_k := 1; fl_cp := 1 |}, 10,
    {| pp_pos := []; pp_rin := 1; pp_rout := 2; pp_s := 1; pp_eps := 0; pp_k := 1; pp_rhoCp := 1 |}, 1, 1.
  do 2 eexists. split; [reflexivity|]. split; [reflexivity|]. cbn. pose proof PI_RGT_0 as P.
  assert (A : 1 / (1 * 2 * PI * 1) <> 1 / (2 * 2 * PI * 1)).
  { assert (1 / (2 * 2 * PI * 1) < 1 / (1 * 2 * PI * 1)); [|lra]. unfold Rdiv. rewrite !Rmult_1_l. apply Rinv_lt_contravar; [nra|lra]. }
  split; [exact A|]. lra.
Qed.

(** C65 *)
Lemma fits_eq_pipe r_b eps rhoCp Vf Vp k : 0 < r_b -> 0 < Vf -> 0 < Vp ->
  let r_b' := fst (fit_borehole r_b (r_o_prime Vf Vp)) in let p := eq_pipe r_b eps rhoCp Vf Vp k in
  2 * disc (pp_rin p) = Vf /\ 2 * (disc (pp_rout p) - disc (pp_rin p)) = Vp /\ fits r_b' p /\ r_b <= r_b' /\ (2 * pp_rout p < r_b -> r_b' = r_b).
Proof.
  intros Hb Hf Hp r_b' p. pose proof (primes_ordered Vf Vp Hf Hp) as (P1 & P2). unfold r_b', p, fits, eq_pipe. cbn [pp_rin pp_rout pp_s pp_pos].
  set (ri := r_i_prime Vf) in *. set (ro := r_o_prime Vf Vp) in *. pose proof (fit_sound r_b ro Hb ltac:(lra)) as F.
  destruct (fit_borehole r_b ro) as (rb', s). cbn [fst snd]. destruct F as (F1 & F2 & F3 & F4 & _).
  assert (A1 : 2 * disc ri = Vf) by (now apply disc_prime). assert (A2 : 2 * disc ro = Vf + Vp) by (apply disc_prime; lra).
  split; [exact A1|]. split; [lra|]. split; [|split; [exact F1|apply F4]]. split; [split; assumption|]. split; [exact F2|].
  exists (- (s / 2 + ro), 0), (s / 2 + ro, 0). split; [reflexivity|]. unfold disjoint, inside, dist2. cbn [fst snd].
  assert (I : s / 2 + ro <= rb' - ro) by lra. assert (I2 : 0 <= s / 2 + ro) by lra.
  split; [field|]. split; [nra|]. split; (split; [lra|]); nra.
Qed.
Theorem C65_multiple :
  forall h_circular r_conduction eff_u eff_c brentq b e, let g := ub_pg b in
  0 < pg_rin g < pg_rout g -> 0 < pg_rb g -> (1 <= pg_n g)%Z ->
  compute_equivalent h_circular r_conduction eff_u eff_c brentq (Multiple b) = Ok e ->
  exists r_b' p k, single_u_tube h_circular r_conduction (ub_m b) (ub_fluid b) r_b' p k (ub_soil_k b) = Ok e /\
  2 * disc (pp_rin p) = 2 * IZR (pg_n g) * disc (pg_rin g) /\
  2 * (disc (pp_rout p) - disc (pp_rin p)) = 2 * IZR (pg_n g) * (disc (pg_rout g) - disc (pg_rin g)) /\
  pp_eps p = pp_eps (ub_pipe b) /\ pp_rhoCp p = pp_rhoCp (ub_pipe b) /\ fits r_b' p /\ pg_rb g <= r_b' /\ (2 * pp_rout p < pg_rb g -> r_b' = pg_rb g).
Proof.
  intros hc rc eu ec br b e g Hr Hb Hn E. cbn [compute_equivalent] in E. unfold multiple_to_single, u_tube_volumes in E. fold g in E.
  assert (N : 1 <= IZR (pg_n g)) by (apply IZR_le; lia). pose proof PI_RGT_0 as P. rewrite equivalent_eq in E.
  set (Vf := IZR (pg_n g * 2) * PI * pg_rin g ^ 2) in *. set (Vp := IZR (pg_n g * 2) * PI * pg_rout g ^ 2 - Vf) in *.
  assert (Ef : Vf = 2 * IZR (pg_n g) * disc (pg_rin g)) by (unfold Vf, disc; rewrite mult_IZR; ring).
  assert (Ep : Vp = 2 * IZR (pg_n g) * (disc (pg_rout g) - disc (pg_rin g))) by (unfold Vp, Vf, disc; rewrite mult_IZR; ring).
  assert (D1 : 0 < disc (pg_rin g)) by (unfold disc; apply Rmult_lt_0_compat; [exact P|apply pow_lt; lra]).
  assert (D2 : disc (pg_rin g) < disc (pg_rout g)) by (unfold disc; apply Rmult_lt_compat_l; [exact P|nra]).
  assert (Hf : 0 < Vf) by (rewrite Ef; apply Rmult_lt_0_compat; lra). assert (Hp : 0 < Vp) by (rewrite Ep; apply Rmult_lt_0_compat; lra).
  destruct (target_points _ _ _ _ _ _ _ _ _ _ _ _ _ _) as (pts, [x|]); [|discriminate]. cbn [bind] in E. rewrite match_eq in E.
  destruct (snd _) as [k|]; [|discriminate]. cbn [bind] in E. apply Ok_inj in E.
  exists (fst (fit_borehole (pg_rb g) (r_o_prime Vf Vp))), (eq_pipe (pg_rb g) (pp_eps (ub_pipe b)) (pp_rhoCp (ub_pipe b)) Vf Vp (last pts 0)), k.
  split; [rewrite single_tube; now f_equal|]. rewrite <- Ef, <- Ep.
  destruct (fits_eq_pipe (pg_rb g) (pp_eps (ub_pipe b)) (pp_rhoCp (ub_pipe b)) Vf Vp (last pts 0) Hb Hf Hp) as (A1 & A2 & A3 & A4 & A5).
  split; [exact A1|]. split; [exact A2|]. split; [reflexivity|]. split; [reflexivity|]. split; [exact A3|]. split; [exact A4|exact A5].
Qed.
Theorem C65_coaxial :
  forall h_circular r_conduction eff_u eff_c brentq b e, let q := cb_geo b in
  0 < fst (cg_inner q) < snd (cg_inner q) -> snd (cg_inner q) < fst (cg_outer q) < snd (cg_outer q) -> 0 < cg_rb q ->
  compute_equivalent h_circular r_conduction eff_u eff_c brentq (Coaxial b) = Ok e ->
  exists r_b' p k, single_u_tube h_circular r_conduction (cb_m b) (cb_fluid b) r_b' p k (cg_soil_k q) = Ok e /\
  2 * disc (pp_rin p) = disc (fst (cg_inner q)) + (disc (fst (cg_outer q)) - disc (snd (cg_inner q))) /\
  2 * (disc (pp_rout p) - disc (pp_rin p)) = (disc (snd (cg_inner q)) - disc (fst (cg_inner q))) + (disc (snd (cg_outer q)) - disc (fst (cg_outer q))) /\
  pp_eps p = cg_eps q /\ pp_rhoCp p = cg_rhoCp q /\ fits r_b' p /\ cg_rb q <= r_b' /\ (2 * pp_rout p < cg_rb q -> r_b' = cg_rb q).
Proof.
  intros hc rc eu ec br b e q H1 H2 Hb E. cbn [compute_equivalent] in E. unfold coaxial_to_single, concentric_tube_volumes in E. fold q in E.
  destruct (cg_inner q) as (a, bb) eqn:Ei. destruct (cg_outer q) as (c, d) eqn:Eo. cbn [fst snd] in *. pose proof PI_RGT_0 as P. rewrite equivalent_eq in E.
  set (Vf := PI * (a ^ 2 + c ^ 2 - bb ^ 2)) in *. set (Vp := PI * (bb ^ 2 - a ^ 2 + d ^ 2 - c ^ 2)) in *.
  assert (Ef : Vf = disc a + (disc c - disc bb)) by (unfold Vf, disc; ring).
  assert (Ep : Vp = (disc bb - disc a) + (disc d - disc c)) by (unfold Vp, disc; ring).
  assert (Hf : 0 < Vf) by (unfold Vf; apply Rmult_lt_0_compat; nra). assert (Hp : 0 < Vp) by (unfold Vp; apply Rmult_lt_0_compat; nra).
  destruct (target_points _ _ _ _ _ _ _ _ _ _ _ _ _ _) as (pts, [x|]); [|discriminate]. cbn [bind] in E. rewrite match_eq in E.
  destruct (snd _) as [k|]; [|discriminate]. cbn [bind] in E. apply Ok_inj in E.
  exists (fst (fit_borehole (cg_rb q) (r_o_prime Vf Vp))), (eq_pipe (cg_rb q) (cg_eps q) (cg_rhoCp q) Vf Vp (last pts 0)), k.
  split; [rewrite single_tube; now f_equal|]. rewrite <- Ef, <- Ep.
  destruct (fits_eq_pipe (cg_rb q) (cg_eps q) (cg_rhoCp q) Vf Vp (last pts 0) Hb Hf Hp) as (A1 & A2 & A3 & A4 & A5).
  split; [exact A1|]. split; [exact A2|]. split; [reflexivity|]. split; [reflexivity|]. split; [exact A3|]. split; [exact A4|exact A5].
Qed.
Theorem C65_others : forall h_circular r_conduction eff_u eff_c brentq,
  (forall b, compute_equivalent h_circular r_conduction eff_u eff_c brentq (Single b) = Ok b) /\
  compute_equivalent h_circular r_conduction eff_u eff_c brentq OtherBhe = Err ValueError.
Proof. repeat split. Qed.

(** C81: the grout of the equivalent tube *)
Theorem C81_grout :
  forall h_circular r_conduction eff_u brentq Rb m f r_b p gk sk e e',
  single_u_tube h_circular r_conduction m f r_b p gk sk = Ok e ->
  match_effective_borehole_resistance h_circular r_conduction eff_u brentq Rb e = Ok e' ->
  let rb k := eff_u (with_grout k (ub_pg e)) m (fl_cp f) in let k := ub_grout_k e' in
  pg_kg (ub_pg e') = k /\ ub_pipe e' = p /\ snd (compute_effective_borehole_resistance eff_u None None e') = rb k /\
  (Rb < rb (1 / 100) -> Rb < rb 7 -> k = 7) /\ (rb (1 / 100) < Rb -> rb 7 < Rb -> k = 1 / 100) /\
  (forall tol, settles tol brentq -> (rb (1 / 100) < Rb < rb 7 \/ rb 7 < Rb < rb (1 / 100)) -> Rabs (rb k - Rb) <= tol) /\
  (forall tol, settles tol brentq -> (forall x y, 1 / 100 <= x <= y -> y <= 7 -> rb y <= rb x) ->
    Rabs (rb k - Rb) <= tol \/ forall x, 1 / 100 <= x <= 7 -> Rabs (rb k - Rb) <= Rabs (rb x - Rb)).
Proof.
  intros hc rc eu br Rb m f r_b p gk sk e e' Es Em rb k. rewrite single_tube in Es. apply Ok_inj in Es. subst e. rewrite match_eq in Em.
  assert (Er : forall x, eu (ub_pg (tube hc rc m f r_b p x sk)) m (fl_cp f) = rb x) by reflexivity.
  assert (K : k = ub_grout_k e') by reflexivity. clearbody k.
  pose proof (solve_root_cases br gk (fun k => Ok (Rb - eu (ub_pg (tube hc rc m f r_b p k sk)) m (fl_cp f))) (1 / 100) 7 (Rb - rb (1 / 100)) (Rb - rb 7) eq_refl eq_refl) as C.
  rewrite C in Em. clear C.
  assert (X : exists k', e' = tube hc rc m f r_b p k' sk).
  { destruct (snd _) as [k'|]; [|discriminate]. exists k'. cbn [bind] in Em. now apply Ok_inj in Em. }
  destruct X as (k' & X). assert (k' = k) as -> by (rewrite K, X; reflexivity).
  split; [rewrite X; reflexivity|]. split; [rewrite X; reflexivity|]. split; [rewrite X; reflexivity|].
  assert (Y : forall z, (let! x := z in Ok (tube hc rc m f r_b p x sk)) = Ok e' -> z = Ok k).
  { intros [x|] Hx; [|discriminate]. cbn [bind] in Hx. apply Ok_inj in Hx. f_equal. rewrite K, <- Hx. reflexivity. }
  apply Y in Em. set (F := br _ (1 / 100) 7) in Em.
  assert (Z : forall tol, settles tol br -> (rb (1 / 100) < Rb < rb 7 \/ rb 7 < Rb < rb (1 / 100)) -> Rabs (rb k - Rb) <= tol).
  { intros tol Ht HZ. assert (B : snd F = Ok k).
    { destruct (Req_EM_T (Rb - rb (1 / 100)) 0); [exfalso; lra|]. destruct (Req_EM_T (Rb - rb 7) 0); [exfalso; lra|].
      destruct (Rlt_dec (Rb - rb (1 / 100)) 0), (Rlt_dec (Rb - rb 7) 0); try (exfalso; lra); exact Em. }
    destruct F as (pts, r) eqn:EF. cbn [snd] in B. subst r. destruct (Ht _ _ _ _ _ EF) as (_ & _ & v & Ev & Hv). apply Ok_inj in Ev.
    rewrite Er in Ev. rewrite Rabs_minus_sym, Ev. exact Hv. }
  assert (U : Rb < rb (1 / 100) -> Rb < rb 7 -> k = 7).
  { intros A1 A2. destruct (Req_EM_T (Rb - rb (1 / 100)) 0); [discriminate Em|]. destruct (Req_EM_T (Rb - rb 7) 0); [discriminate Em|].
    destruct (Rlt_dec (Rb - rb (1 / 100)) 0), (Rlt_dec (Rb - rb 7) 0); try (exfalso; lra). cbn [snd] in Em. apply Ok_inj in Em. lra. }
  assert (L : rb (1 / 100) < Rb -> rb 7 < Rb -> k = 1 / 100).
  { intros A1 A2. destruct (Req_EM_T (Rb - rb (1 / 100)) 0); [discriminate Em|]. destruct (Req_EM_T (Rb - rb 7) 0); [discriminate Em|].
    destruct (Rlt_dec (Rb - rb (1 / 100)) 0), (Rlt_dec (Rb - rb 7) 0); try (exfalso; lra). cbn [snd] in Em. apply Ok_inj in Em. lra. }
  split; [exact U|]. split; [exact L|]. split; [exact Z|]. intros tol Ht Hm.
  assert (N1 : rb (1 / 100) <> Rb). { intro A. destruct (Req_EM_T (Rb - rb (1 / 100)) 0); [discriminate Em|lra]. }
  assert (N2 : rb 7 <> Rb). { intro A. destruct (Req_EM_T (Rb - rb (1 / 100)) 0); [discriminate Em|]. destruct (Req_EM_T (Rb - rb 7) 0); [discriminate Em|lra]. }
  pose proof (Hm (1 / 100) 7 ltac:(lra) ltac:(lra)) as M0.
  destruct (Rlt_le_dec Rb (rb 7)) as [A|A].
  - right. intros x Hx. rewrite (U ltac:(lra) A). pose proof (Hm x 7 ltac:(lra) ltac:(lra)). rewrite !Rabs_right by lra. lra.
  - destruct (Rlt_le_dec Rb (rb (1 / 100))) as [B|B]; [left; apply (Z tol Ht); right; lra|].
    right. intros x Hx. rewrite (L ltac:(lra) ltac:(lra)). pose proof (Hm (1 / 100) x ltac:(lra) ltac:(lra)).
    rewrite !Rabs_left1 by lra. lra.
Qed.
(** the conductivity at which the search begins makes no difference *)
Theorem C81_initial_grout :
  forall h_circular r_conduction eff_u brentq Rb m f r_b p gk gk' sk e1 e2,
  single_u_tube h_circular r_conduction m f r_b p gk sk = Ok e1 -> single_u_tube h_circular r_conduction m f r_b p gk' sk = Ok e2 ->
  match_effective_borehole_resistance h_circular r_conduction eff_u brentq Rb e1 = match_effective_borehole_resistance h_circular r_conduction eff_u brentq Rb e2.
Proof.
  intros hc rc eu br Rb m f r_b p gk gk' sk e1 e2 E1 E2. rewrite single_tube in E1, E2. apply Ok_inj in E1. apply Ok_inj in E2. subst e1 e2. rewrite !match_eq.
  pose proof (fun g => solve_root_cases br g (fun k => Ok (Rb - eu (ub_pg (tube hc rc m f r_b p k sk)) m (fl_cp f))) (1 / 100) 7 _ _ eq_refl eq_refl) as C.
  now rewrite !C.
Qed.

(** C80: the wall of the equivalent tube.  [k0] is the conductivity at which two legs in parallel have the resistance [R_pipe];
    conductivities from k0 / 100 to 10 k0 are tried. *)
Lemma wall_prime Vf Vp Rp : 0 < Vf -> 0 < Vp -> 0 < Rp -> let k0 := k_p_prime Vf Vp Rp in
  0 < k0 /\ forall c, 0 < c -> wall (r_i_prime Vf) (r_o_prime Vf Vp) (k0 * c) = 2 * Rp / c.
Proof.
  intros Hf Hp Hr k0. pose proof (primes_ordered Vf Vp Hf Hp) as (P1 & P2). pose proof PI_RGT_0 as P.
  assert (L : 0 < ln (r_o_prime Vf Vp / r_i_prime Vf)).
  { rewrite <- ln_1. apply ln_increasing; [lra|]. apply Rmult_lt_reg_r with (r_i_prime Vf); [exact P1|]. unfold Rdiv. rewrite Rmult_assoc, Rinv_l by lra. lra. }
  split.
  - unfold k0, k_p_prime. apply Rdiv_lt_0_compat; [exact L|]. apply Rmult_lt_0_compat; [lra|exact Hr].
  - intros c Hc. unfold wall, k0, k_p_prime. field. repeat split; lra.
Qed.
Lemma wall_decreases ri ro x y : 0 < ri < ro -> 0 < x <= y -> wall ri ro y <= wall ri ro x.
Proof.
  intros Hr Hx. pose proof PI_RGT_0 as P.
  assert (L : 0 < ln (ro / ri)).
  { rewrite <- ln_1. apply ln_increasing; [lra|]. apply Rmult_lt_reg_r with ri; [lra|]. unfold Rdiv. rewrite Rmult_assoc, Rinv_l by lra. lra. }
  unfold wall, Rdiv. apply Rmult_le_compat_l; [lra|]. apply Rinv_le_contravar; [apply Rmult_lt_0_compat; lra|apply Rmult_le_compat_l; lra].
Qed.
Lemma film_eq h r : 1 / (h * 2 * PI * r) = film h r.
Proof. unfold film. f_equal. ring. Qed.
Lemma C80_core :
  forall h_circular eff_u brentq r_b eps rhoCp m f gk sk Vf Vp Rc Rp e, 0 < Vf -> 0 < Vp -> 0 < Rp ->
  let ri := r_i_prime Vf in let ro := r_o_prime Vf Vp in let k0 := k_p_prime Vf Vp Rp in let T := Rc + Rp in
  let Rf := film (h_circular m ri (fl_mu f) (fl_rho f) (fl_k f) (fl_cp f) eps) ri in
  equivalent_single_u_tube h_circular wall eff_u brentq r_b eps rhoCp m f gk sk Vf Vp Rc Rp = Ok e ->
  pp_rin (ub_pipe e) = ri /\ pp_rout (ub_pipe e) = ro /\ pg_Rfp (ub_pg e) = Rf + wall ri ro (pp_k (ub_pipe e)) /\ ub_Rf e = Rf /\
  T <> Rf + 200 * Rp /\ T <> Rf + Rp / 5 /\
  (Rf + 200 * Rp < T -> pp_k (ub_pipe e) = 10 * k0) /\ (T < Rf + Rp / 5 -> pp_k (ub_pipe e) = 10 * k0) /\
  (forall tol, settles tol brentq -> Rf + Rp / 5 < T < Rf + 200 * Rp -> Rabs (pg_Rfp (ub_pg e) - T) <= tol).
Proof.
  intros hc eu br r_b eps rhoCp m f gk sk Vf Vp Rc Rp e Hf Hp Hr ri ro k0 T Rf E. rewrite equivalent_eq in E.
  destruct (target_points _ _ _ _ _ _ _ _ _ _ _ _ _ _) as (pts, r) eqn:Et. destruct r as [x|]; [|discriminate]. cbn [bind] in E. apply Ok_inj in E.
  unfold target_points in Et. fold k0 in Et. fold T in Et.
  set (b := tube hc wall m f (fst (fit_borehole r_b (r_o_prime Vf Vp))) (eq_pipe r_b eps rhoCp Vf Vp k0) gk sk) in Et.
  destruct (wall_prime Vf Vp Rp Hf Hp Hr) as (K0 & Kw). fold k0 ri ro in K0, Kw.
  assert (O : forall k, objective_pipe_conductivity hc wall eu b T k = Ok (Rf + wall ri ro k - T)).
  { intro k. unfold objective_pipe_conductivity, b. rewrite try_pipe_tube. unfold tube, eq_pipe, with_k, Rf. cbn. fold ri ro. rewrite film_eq. reflexivity. }
  assert (O1 : objective_pipe_conductivity hc wall eu b T (k0 / 100) = Ok (Rf + 200 * Rp - T)).
  { rewrite O. replace (k0 / 100) with (k0 * (1 / 100)) by field. rewrite Kw by lra. f_equal. field. }
  assert (O2 : objective_pipe_conductivity hc wall eu b T (k0 * 10) = Ok (Rf + Rp / 5 - T)).
  { rewrite O, Kw by lra. f_equal. field. }
  rewrite (solve_root_cases br k0 _ (k0 / 100) (k0 * 10) _ _ O1 O2) in Et.
  assert (F : pg_Rfp (ub_pg e) = Rf + wall ri ro (pp_k (ub_pipe e)) /\ ub_Rf e = Rf /\ pp_k (ub_pipe e) = last pts 0).
  { rewrite <- E. unfold tube, eq_pipe, Rf. cbn. fold ri ro. rewrite film_eq. split; [reflexivity|]. split; reflexivity. }
  destruct F as (F1 & F2 & F3).
  destruct (Req_EM_T (Rf + 200 * Rp - T) 0) as [Z1|Z1]; [discriminate Et|]. destruct (Req_EM_T (Rf + Rp / 5 - T) 0) as [Z2|Z2]; [discriminate Et|].
  split; [rewrite <- E; reflexivity|]. split; [rewrite <- E; reflexivity|]. split; [exact F1|]. split; [exact F2|]. split; [lra|]. split; [lra|]. split; [|split].
  - intro A. destruct (Rlt_dec (Rf + 200 * Rp - T) 0), (Rlt_dec (Rf + Rp / 5 - T) 0); try (exfalso; lra). injection Et as <- _. rewrite F3. cbn [last]. ring.
  - intro A. destruct (Rlt_dec (Rf + 200 * Rp - T) 0), (Rlt_dec (Rf + Rp / 5 - T) 0); try (exfalso; lra). injection Et as <- _. rewrite F3. cbn [last]. ring.
  - intros tol Ht A. destruct (Rlt_dec (Rf + 200 * Rp - T) 0), (Rlt_dec (Rf + Rp / 5 - T) 0); try (exfalso; lra).
    destruct (br _ (k0 / 100) (k0 * 10)) as (pb, rb) eqn:EB. cbn [fst snd] in Et. injection Et as <- ->.
    destruct (Ht _ _ _ _ _ EB) as (NE & (v & Ev & Hv) & _). rewrite O in Ev. apply Ok_inj in Ev. rewrite F1, F3.
    change (last (k0 / 100 :: k0 * 10 :: pb) 0) with (last (k0 * 10 :: pb) 0).
    replace (last (k0 * 10 :: pb) 0) with (last pb (k0 / 100)); [rewrite Ev; exact Hv|].
    destruct pb as [|a pb]; [contradiction|]. change (last (k0 * 10 :: a :: pb) 0) with (last (a :: pb) 0). apply last_indep. discriminate.
Qed.
Theorem C80_pipe_conductivity_partial :
  forall h_circular eff_u brentq tol r_b eps rhoCp m f gk sk Vf Vp Rc Rp e, settles tol brentq -> 0 < Vf -> 0 < Vp -> 0 < Rp ->
  equivalent_single_u_tube h_circular wall eff_u brentq r_b eps rhoCp m f gk sk Vf Vp Rc Rp = Ok e ->
  let ri := pp_rin (ub_pipe e) in let ro := pp_rout (ub_pipe e) in let R_fp k := ub_Rf e + wall ri ro k in let T := Rc + Rp in
  pg_Rfp (ub_pg e) = R_fp (pp_k (ub_pipe e)) /\
  exists k0, 0 < k0 /\ wall ri ro k0 / 2 = Rp /\
  (T < R_fp (k0 / 100) -> Rabs (pg_Rfp (ub_pg e) - T) <= tol \/ forall k, k0 / 100 <= k <= 10 * k0 -> Rabs (pg_Rfp (ub_pg e) - T) <= Rabs (R_fp k - T)).
Proof.
  intros hc eu br tol r_b eps rhoCp m f gk sk Vf Vp Rc Rp e Ht Hf Hp Hr E ri ro R_fp T.
  destruct (C80_core hc eu br r_b eps rhoCp m f gk sk Vf Vp Rc Rp e Hf Hp Hr E) as (E1 & E2 & E3 & E4 & N1 & N2 & A1 & A2 & A3).
  destruct (wall_prime Vf Vp Rp Hf Hp Hr) as (K0 & Kw). pose proof (primes_ordered Vf Vp Hf Hp) as P.
  unfold R_fp, ri, ro. rewrite E1, E2, E4. split; [exact E3|]. exists (k_p_prime Vf Vp Rp). set (k0 := k_p_prime Vf Vp Rp) in *.
  assert (W1 : wall (r_i_prime Vf) (r_o_prime Vf Vp) k0 = 2 * Rp) by (rewrite <- (Rmult_1_r k0), Kw by lra; field).
  assert (W2 : wall (r_i_prime Vf) (r_o_prime Vf Vp) (k0 / 100) = 200 * Rp) by (replace (k0 / 100) with (k0 * (1 / 100)) by field; rewrite Kw by lra; field).
  assert (W3 : wall (r_i_prime Vf) (r_o_prime Vf Vp) (10 * k0) = Rp / 5) by (replace (10 * k0) with (k0 * 10) by ring; rewrite Kw by lra; field).
  split; [exact K0|]. split; [rewrite W1; field|]. rewrite W2. intro L. destruct (Rlt_le_dec T (film (hc m (r_i_prime Vf) (fl_mu f) (fl_rho f) (fl_k f) (fl_cp f) eps) (r_i_prime Vf) + Rp / 5)) as [B|B].
  - right. intros k Hk. rewrite E3, (A2 B), W3. pose proof (wall_decreases (r_i_prime Vf) (r_o_prime Vf Vp) k (10 * k0) P ltac:(lra)) as D. rewrite W3 in D.
    rewrite !Rabs_right by lra. lra.
  - left. apply (A3 tol Ht). unfold T in *. split; [|lra]. destruct B as [B|B]; [exact B|]. now symmetry in B.
Qed.
(** when the wall must be more resistive than tried, the most conductive one is kept: the worst of those tried *)
Theorem C80_resistive_wall_fails :
  forall h_circular eff_u brentq r_b eps rhoCp m f gk sk Vf Vp Rc Rp e, 0 < Vf -> 0 < Vp -> 0 < Rp ->
  equivalent_single_u_tube h_circular wall eff_u brentq r_b eps rhoCp m f gk sk Vf Vp Rc Rp = Ok e ->
  let ri := pp_rin (ub_pipe e) in let ro := pp_rout (ub_pipe e) in let R_fp k := ub_Rf e + wall ri ro k in let T := Rc + Rp in
  exists k0, 0 < k0 /\ wall ri ro k0 / 2 = Rp /\
  (R_fp (k0 / 100) < T -> pp_k (ub_pipe e) = 10 * k0 /\ forall k, k0 / 100 <= k <= 10 * k0 -> Rabs (R_fp k - T) <= Rabs (pg_Rfp (ub_pg e) - T)).
Proof.
  intros hc eu br r_b eps rhoCp m f gk sk Vf Vp Rc Rp e Hf Hp Hr E ri ro R_fp T.
  destruct (C80_core hc eu br r_b eps rhoCp m f gk sk Vf Vp Rc Rp e Hf Hp Hr E) as (E1 & E2 & E3 & E4 & N1 & N2 & A1 & A2 & A3).
  destruct (wall_prime Vf Vp Rp Hf Hp Hr) as (K0 & Kw). pose proof (primes_ordered Vf Vp Hf Hp) as P.
  unfold R_fp, ri, ro. rewrite E1, E2, E4. exists (k_p_prime Vf Vp Rp). set (k0 := k_p_prime Vf Vp Rp) in *.
  assert (W1 : wall (r_i_prime Vf) (r_o_prime Vf Vp) k0 = 2 * Rp) by (rewrite <- (Rmult_1_r k0), Kw by lra; field).
  assert (W2 : wall (r_i_prime Vf) (r_o_prime Vf Vp) (k0 / 100) = 200 * Rp) by (replace (k0 / 100) with (k0 * (1 / 100)) by field; rewrite Kw by lra; field).
  split; [exact K0|]. split; [rewrite W1; field|]. rewrite W2. intro L. unfold T in *. specialize (A1 L). split; [exact A1|].
  intros k Hk. rewrite E3, A1. pose proof (wall_decreases (r_i_prime Vf) (r_o_prime Vf Vp) k (10 * k0) P ltac:(lra)) as D.
  pose proof (wall_decreases (r_i_prime Vf) (r_o_prime Vf Vp) (k0 / 100) k P ltac:(lra)) as D2. rewrite W2 in D2. rewrite !Rabs_left by lra. lra.
Qed.
Definition some_fluid : fluid := {| fl_mu := 1; fl_rho := 1; fl_k := 1; fl_cp := 1 |}.
Theorem C80_pipe_conductivity_refuted :
  exists h_circular eff_u brentq r_b eps rhoCp m f gk sk Vf Vp Rc Rp e, settles 0 brentq /\ 0 < r_b /\ 0 < Vf /\ 0 < Vp /\ 0 < Rp /\
  equivalent_single_u_tube h_circular wall eff_u brentq r_b eps rhoCp m f gk sk Vf Vp Rc Rp = Ok e /\
  exists k0, 0 < k0 /\ wall (pp_rin (ub_pipe e)) (pp_rout (ub_pipe e)) k0 / 2 = Rp /\
  Rabs (ub_Rf e + wall (pp_rin (ub_pipe e)) (pp_rout (ub_pipe e)) (k0 / 100) - (Rc + Rp)) < Rabs (pg_Rfp (ub_pg e) - (Rc + Rp)).
Proof.
  set (none := fun (_ : R -> res R) (_ _ : R) => (@nil R, @Err R ValueError)).
  set (hc := fun _ _ _ _ _ _ _ : R => 1). set (eu := fun (_ : pg_u) (_ _ : R) => 1).
  pose proof PI_RGT_0 as P. assert (HV : 0 < 2 * PI) by lra.
  set (rf := film 1 (r_i_prime (2 * PI))).
  destruct (equivalent_single_u_tube hc wall eu none 10 0 1 1 some_fluid 1 1 (2 * PI) (2 * PI) (rf + 1000) 1) as [e|x] eqn:E.
  - exists hc, eu, none, 10, 0, 1, 1, some_fluid, 1, 1, (2 * PI), (2 * PI), (rf + 1000), 1, e.
    split; [intros ? ? ? ? ? X; discriminate X|]. split; [lra|]. split; [lra|]. split; [lra|]. split; [lra|]. split; [exact E|].
    pose proof (C80_core hc eu none 10 0 1 1 some_fluid 1 1 (2 * PI) (2 * PI) (rf + 1000) 1 e HV HV ltac:(lra) E) as (E1 & E2 & E3 & E4 & _ & _ & A1 & _).
    destruct (wall_prime (2 * PI) (2 * PI) 1 HV HV ltac:(lra)) as (K0 & Kw).
    set (k0 := k_p_prime (2 * PI) (2 * PI) 1) in *. exists k0. rewrite E1, E2 in *. split; [exact K0|].
    split; [rewrite <- (Rmult_1_r k0), Kw by lra; field|]. change (hc _ _ _ _ _ _ _) with 1 in *. fold rf in E3, E4, A1. rewrite E3, E4, A1 by lra.
    replace (k0 / 100) with (k0 * (1 / 100)) by field. replace (10 * k0) with (k0 * 10) by ring. rewrite !Kw by lra. rewrite !Rabs_left by lra. lra.
  - exfalso. rewrite equivalent_eq in E. unfold target_points in E.
    destruct (wall_prime (2 * PI) (2 * PI) 1 HV HV ltac:(lra)) as (K0 & Kw). set (k0 := k_p_prime (2 * PI) (2 * PI) 1) in *.
    set (b := tube _ _ _ _ _ _ _ _) in E.
    assert (O : forall k, objective_pipe_conductivity hc wall eu b (rf + 1000 + 1) k = Ok (rf + wall (r_i_prime (2 * PI)) (r_o_prime (2 * PI) (2 * PI)) k - (rf + 1000 + 1))).
    { intro k. unfold objective_pipe_conductivity, b. rewrite try_pipe_tube. unfold tube, eq_pipe, with_k, rf. cbn. rewrite film_eq. reflexivity. }
    rewrite (solve_root_cases none k0 _ (k0 / 100) (k0 * 10) _ _ (O _) (O _)) in E.
    replace (k0 / 100) with (k0 * (1 / 100)) in E by field. rewrite !Kw in E by lra.
    destruct (Req_EM_T _ 0) as [Z|_] in E; [lra|]. destruct (Req_EM_T _ 0) as [Z|_] in E; [lra|].
    destruct (Rlt_dec _ 0) as [_|Z] in E; [|lra]. destruct (Rlt_dec _ 0) as [_|Z] in E; [|lra]. discriminate E.
Qed.

(** C82: the resistances of the original that the equivalent tube is to reproduce *)
Theorem C82_u_tube_partial :
  forall h_circular c n m f r_b p gk sk b, make_u h_circular wall c n m f r_b p gk sk = Ok b -> (1 <= n)%Z -> pp_rin p <> 0 -> pp_k p <> 0 -> ub_h b <> 0 ->
  let '(_, _, R_conv, R_pipe) := u_tube_volumes b in
  R_pipe = ub_Rp b / (2 * IZR n) /\ R_conv = ub_Rf b / (2 * IZR n) / (2 * pp_rin p).
Proof.
  intros hc c n m f r_b p gk sk b E Hn Hr Hk Hh. destruct (C66_constructed _ _ _ _ _ _ _ _ _ _ _ E) as (_ & _ & _ & _ & Ef & Ep & Eg).
  assert (Epp : ub_pipe b = p). { unfold make_u in E. destruct (compute_mass_flow_rate_pipe m c); [|discriminate]. cbn [bind] in E. apply Ok_inj in E. rewrite <- E. reflexivity. }
  unfold u_tube_volumes. rewrite Ef, Ep, Eg, Epp. cbn [pg_n pg_rin pg_rout]. rewrite mult_IZR. assert (N : 1 <= IZR n) by (apply IZR_le; lia). pose proof PI_RGT_0.
  unfold wall, film. split; field; repeat split; try lra; assumption.
Qed.
Theorem C82_u_tube_refuted :
  exists h_circular c n m f r_b p gk sk b, make_u h_circular wall c n m f r_b p gk sk = Ok b /\ 0 < pp_rin p < pp_rout p /\ pp_rout p < r_b /\ 0 < ub_h b /\
  let '(_, _, R_conv, _) := u_tube_volumes b in R_conv <> ub_Rf b / (2 * IZR n).
Proof.
  exists (fun _ _ _ _ _ _ _ => 1), parallel, 2%Z, 1, some_fluid, 1, {| pp_pos := []; pp_rin := 1 / 100; pp_rout := 2 / 100; pp_s := 1 / 100; pp_eps := 0; pp_k := 1; pp_rhoCp := 1 |}, 1, 1.
  eexists. split; [reflexivity|]. cbn [pp_rin pp_rout ub_h]. split; [lra|]. split; [lra|]. split; [cbn; lra|]. unfold u_tube_volumes. cbn. pose proof PI_RGT_0 as P. intro E.
  assert (Q : / PI * 625 = / PI * (25 / 2)).
  { transitivity (1 / (1 * (4 * PI * (1 / 100 * 2 * (1 / 100 * 2 * 1))))); [field; lra|]. rewrite E. field. lra. }
  assert (0 < / PI) by now apply Rinv_0_lt_compat. nra.
Qed.
Theorem C82_coaxial_partial :
  forall h_circular h_annulus m f q, let b := coaxial_pipe h_circular h_annulus wall m f q in
  0 < fst (cg_outer q) -> cb_h_a_in b <> 0 -> cb_h_a_out b <> 0 ->
  let '(_, _, R_conv, R_pipe) := concentric_tube_volumes b in
  R_pipe = cb_Rp_out b /\ (R_conv = cb_Rf_a_out b <-> cb_h_a_in b = cb_h_a_out b).
Proof.
  intros hc ha m f q b. unfold b, coaxial_pipe, compute_resistances_c, concentric_tube_volumes. destruct q as [[a bb] [c d] eps [k1 k2] rcp rb gk sk]. cbn [cg_inner cg_outer cg_eps cg_k fst snd].
  destruct (ha _ _ _ _ _ _ _ _) as (hi, ho). cbn. intros Hc Hi Ho. pose proof PI_RGT_0 as P. split; [reflexivity|]. split; intro E.
  - apply (f_equal (fun x => / x)) in E. unfold Rdiv in E. rewrite !Rmult_1_l, !Rinv_inv in E. apply Rmult_eq_reg_r with (PI * 2 * c); nra.
  - rewrite E. f_equal. ring.
Qed.
Theorem C82_coaxial_refuted :
  exists h_circular h_annulus m f q, let b := coaxial_pipe h_circular h_annulus wall m f q in
  0 < fst (cg_inner q) < snd (cg_inner q) /\ snd (cg_inner q) < fst (cg_outer q) < snd (cg_outer q) /\ 0 < cb_h_a_in b /\ 0 < cb_h_a_out b /\
  let '(_, _, R_conv, _) := concentric_tube_volumes b in R_conv <> cb_Rf_a_out b.
Proof.
  set (q := {| cg_inner := (1, 2); cg_outer := (3, 4); cg_eps := 0; cg_k := (1, 1); cg_rhoCp := 1; cg_rb := 5; cg_grout_k := 1; cg_soil_k := 1 |}).
  exists (fun _ _ _ _ _ _ _ => 1), (fun _ _ _ _ _ _ _ _ => (1, 2)), 1, some_fluid, q. intro b. split; [cbn; lra|]. split; [cbn; lra|]. split; [cbn; lra|]. split; [cbn; lra|].
  pose proof (C82_coaxial_partial (fun _ _ _ _ _ _ _ => 1) (fun _ _ _ _ _ _ _ _ => (1, 2)) 1 some_fluid q ltac:(cbn; lra) ltac:(cbn; lra) ltac:(cbn; lra)) as H.
  fold b in H. destruct (concentric_tube_volumes b) as [[[v1 v2] v3] v4]. intro X. apply (proj2 H) in X. cbn in X. lra.
Qed.

(** C83: resistance between the fluid and the grout of all legs together; the original has (R_f + R_p) / (2 n) *)
Theorem C83_legs_partial :
  forall h_circular eff_u eff_c brentq tol c n m f r_b p gk sk b e, settles tol brentq ->
  make_u h_circular wall c n m f r_b p gk sk = Ok b -> (1 <= n)%Z -> 0 < pp_rin p < pp_rout p -> 0 < r_b -> 0 < pp_k p -> 0 < ub_h b ->
  compute_equivalent h_circular wall eff_u eff_c brentq (Multiple b) = Ok e ->
  let Rp := ub_Rp b / (2 * IZR n) in let T := (ub_Rf b / (2 * pp_rin p) + ub_Rp b) / (2 * IZR n) in
  ub_Rf e + Rp / 5 < T < ub_Rf e + 200 * Rp -> Rabs (pg_Rfp (ub_pg e) / 2 - T / 2) <= tol / 2.
Proof.
  intros hc eu ec br tol c n m f r_b p gk sk b e Ht Eb Hn Hr Hb Hk Hh E Rp T HT.
  pose proof (C82_u_tube_partial hc c n m f r_b p gk sk b Eb Hn ltac:(lra) ltac:(lra) ltac:(lra)) as C82.
  destruct (C66_constructed _ _ _ _ _ _ _ _ _ _ _ Eb) as (_ & _ & _ & _ & _ & Ep & Eg).
  assert (N : 1 <= IZR n) by (apply IZR_le; lia). pose proof PI_RGT_0 as P.
  assert (D1 : 0 < disc (pp_rin p)) by (unfold disc; apply Rmult_lt_0_compat; [exact P|apply pow_lt; lra]).
  assert (D2 : disc (pp_rin p) < disc (pp_rout p)) by (unfold disc; apply Rmult_lt_compat_l; [exact P|nra]).
  cbn [compute_equivalent] in E. unfold multiple_to_single in E. destruct (u_tube_volumes b) as [[[Vf Vp] Rc] Rp'] eqn:Ev. destruct C82 as (-> & ->).
  assert (Ef : Vf = 2 * IZR n * disc (pp_rin p) /\ Vp = 2 * IZR n * (disc (pp_rout p) - disc (pp_rin p))).
  { unfold u_tube_volumes in Ev. rewrite Eg in Ev. cbn [pg_n pg_rin pg_rout] in Ev. rewrite mult_IZR in Ev. injection Ev as <- <- _ _. unfold disc. split; ring. }
  destruct Ef as (Ef & Evp).
  assert (Hf : 0 < Vf) by (rewrite Ef; apply Rmult_lt_0_compat; lra). assert (Hp : 0 < Vp) by (rewrite Evp; apply Rmult_lt_0_compat; lra).
  assert (HRp : 0 < Rp). { unfold Rp. apply Rdiv_lt_0_compat; [|lra]. rewrite Ep. unfold wall. apply Rdiv_lt_0_compat; [|apply Rmult_lt_0_compat; lra].
    rewrite <- ln_1. apply ln_increasing; [lra|]. apply Rmult_lt_reg_r with (pp_rin p); [lra|]. unfold Rdiv. rewrite Rmult_assoc, Rinv_l by lra. lra. }
  fold Rp in E. destruct (equivalent_single_u_tube _ _ _ _ _ _ _ _ _ _ _ _ _ _ _) as [e0|] eqn:E0; [|discriminate]. cbn [bind] in E.
  pose proof (C80_core hc eu br _ _ _ _ _ _ _ Vf Vp _ Rp e0 Hf Hp HRp E0) as (_ & _ & _ & F & _ & _ & _ & _ & A).
  assert (S : pg_Rfp (ub_pg e) = pg_Rfp (ub_pg e0) /\ ub_Rf e = ub_Rf e0).
  { rewrite equivalent_eq in E0. destruct (target_points _ _ _ _ _ _ _ _ _ _ _ _ _ _) as (pts, [x|]); [|discriminate]. cbn [bind] in E0. apply Ok_inj in E0. subst e0.
    rewrite match_eq in E. destruct (snd _) as [k|]; [|discriminate]. cbn [bind] in E. apply Ok_inj in E. subst e. split; reflexivity. }
  destruct S as (S1 & S2). rewrite S1. rewrite S2, F in HT. specialize (A tol Ht).
  assert (ET : ub_Rf b / (2 * IZR n) / (2 * pp_rin p) + Rp = T) by (unfold T, Rp; field; lra). rewrite ET in A. specialize (A HT).
  replace (pg_Rfp (ub_pg e0) / 2 - T / 2) with ((pg_Rfp (ub_pg e0) - T) * / 2) by field. rewrite Rabs_mult, (Rabs_right (/ 2)) by lra. lra.
Qed.

(** a double U-tube for which both equations have a solution: film coefficient 100, inner radius 1, outer radius 2 *)
Definition ex_h (_ _ _ _ _ _ _ : R) : R := 100.
Definition ex_eff (g : pg_u) (_ _ : R) : R := 1 / pg_kg g.
Definition ex_pipe : pipe := {| pp_pos := [(-3, 0); (0, -3); (3, 0); (0, 3)]; pp_rin := 1; pp_rout := 2; pp_s := 2; pp_eps := 0; pp_k := 1; pp_rhoCp := 1 |}.
Definition ex_root : R := ln 2 / (2 * PI * ((1 / 1600 + ln 2 / 8) / PI - film 100 (r_i_prime (4 * PI)))).
(** answers when its guess is a root *)
Definition ex_finder (f : R -> res R) (_ _ : R) : list R * res R :=
  let root k := match f k with Ok v => if Req_EM_T v 0 then true else false | Err _ => false end in
  if root ex_root then ([ex_root], Ok ex_root) else if root 1 then ([1], Ok 1) else ([], Err ValueError).
Lemma ex_settles : settles 0 ex_finder.
Proof.
  assert (G : forall (f : R -> res R) k, match f k with Ok v => if Req_EM_T v 0 then true else false | Err _ => false end = true -> exists v : R, f k = Ok v /\ Rabs v <= 0).
  { intros f k H. destruct (f k) as [v|]; [|discriminate]. destruct (Req_EM_T v 0) as [-> |]; [|discriminate]. exists 0. rewrite Rabs_R0. split; [reflexivity|lra]. }
  intros f lo up pts k E. unfold ex_finder in E. destruct (match f ex_root with Ok v => if Req_EM_T v 0 then true else false | Err _ => false end) eqn:A; [|destruct (match f 1 with Ok v => if Req_EM_T v 0 then true else false | Err _ => false end) eqn:B; [|discriminate]];
    injection E as <- <-; (split; [discriminate|]); split; apply G; assumption.
Qed.
Lemma ln2_bounds : 1 / 2 < ln 2 < 1.
Proof.
  split.
  - apply exp_lt_inv. rewrite exp_ln by lra. assert (E : exp (1 / 2) * exp (1 / 2) = exp 1) by (rewrite <- exp_plus; f_equal; lra).
    pose proof exp_le_3. pose proof (exp_pos (1 / 2)). nra.
  - apply exp_lt_inv. rewrite exp_ln by lra. pose proof (exp_ineq1 1 ltac:(lra)). lra.
Qed.

Lemma objective_value hc eu m f r_b0 eps rhoCp Vf Vp k1 r_b gk sk T k :
  objective_pipe_conductivity hc wall eu (tube hc wall m f r_b0 (eq_pipe r_b eps rhoCp Vf Vp k1) gk sk) T k =
  Ok (film (hc m (r_i_prime Vf) (fl_mu f) (fl_rho f) (fl_k f) (fl_cp f) eps) (r_i_prime Vf) + wall (r_i_prime Vf) (r_o_prime Vf Vp) k - T).
Proof. unfold objective_pipe_conductivity. rewrite try_pipe_tube. unfold tube, eq_pipe, with_k. cbn. rewrite film_eq. reflexivity. Qed.
Definition ex_bhe : ubhe := match make_u ex_h wall parallel 2 1 some_fluid 10 ex_pipe 1 1 with Ok b => b | Err _ => tube ex_h wall 1 some_fluid 10 ex_pipe 1 1 end.
Lemma ex_volumes : u_tube_volumes ex_bhe = (4 * PI, 12 * PI, 1 / (1600 * PI), ln 2 / (8 * PI)).
Proof.
  pose proof PI_RGT_0. unfold u_tube_volumes. cbn. unfold ex_h. f_equal; [f_equal; [f_equal|]|].
  - ring. - ring. - field. lra. - replace (2 / 1) with 2 by field. field. lra.
Qed.
Lemma ex_geometry : r_i_prime (4 * PI) = sqrt 2 /\ r_o_prime (4 * PI) (12 * PI) / r_i_prime (4 * PI) = 2.
Proof.
  pose proof PI_RGT_0. unfold r_i_prime, r_o_prime. replace (4 * PI / (2 * PI)) with 2 by (field; lra). replace ((4 * PI + 12 * PI) / (2 * PI)) with (2 * 2 * 2) by (field; lra).
  split; [reflexivity|]. rewrite sqrt_mult, sqrt_square by lra. assert (0 < sqrt 2) by (apply sqrt_lt_R0; lra). field. lra.
Qed.
Example ex_equivalent : exists e, compute_equivalent ex_h wall ex_eff (fun _ _ _ => 0) ex_finder (Multiple ex_bhe) = Ok e /\
  ub_Rf e + ln 2 / (8 * PI) / 5 < 1 / (1600 * PI) + ln 2 / (8 * PI) < ub_Rf e + 200 * (ln 2 / (8 * PI)) /\ ub_grout_k e = 1.
Proof.
  pose proof PI_RGT_0 as P. pose proof ln2_bounds as L. destruct ex_geometry as (G1 & G2). assert (S2 : sqrt 2 * sqrt 2 = 2) by (apply sqrt_sqrt; lra).
  assert (S0 : 1 < sqrt 2) by (rewrite <- sqrt_1 at 1; apply sqrt_lt_1; lra). assert (IP : 0 < / PI) by now apply Rinv_0_lt_compat.
  set (rf := film 100 (r_i_prime (4 * PI))). assert (Rf : 0 < rf < / PI / 200).
  { unfold rf, film. rewrite G1. split; [apply Rdiv_lt_0_compat; [lra|]; apply Rmult_lt_0_compat; [lra|apply Rmult_lt_0_compat; lra]|].
    replace (/ PI / 200) with (1 / (100 * (2 * PI * 1))) by (field; lra). unfold Rdiv. rewrite !Rmult_1_l. apply Rinv_lt_contravar; [|nra].
    apply Rmult_lt_0_compat; [lra|]. apply Rmult_lt_0_compat; [lra|]. apply Rmult_lt_0_compat; lra. }
  set (rp := ln 2 / (8 * PI)). assert (Rp : / PI / 16 < rp < / PI / 8).
  { unfold rp. replace (ln 2 / (8 * PI)) with (/ PI / 8 * ln 2) by (field; lra). split; nra. }
  set (rc := 1 / (1600 * PI)). assert (Rc : rc = / PI / 1600) by (unfold rc; field; lra).
  assert (B1 : rf + rp / 5 < rc + rp) by lra. assert (B2 : rc + rp < rf + 200 * rp) by lra.
  assert (HV1 : 0 < 4 * PI) by lra. assert (HV2 : 0 < 12 * PI) by lra.
  destruct (wall_prime (4 * PI) (12 * PI) rp HV1 HV2 ltac:(lra)) as (K0 & Kw).
  cbn [compute_equivalent]. unfold multiple_to_single. rewrite ex_volumes. fold rp rc. rewrite equivalent_eq. unfold target_points. set (k0 := k_p_prime (4 * PI) (12 * PI) rp) in *.
  rewrite (solve_root_cases ex_finder k0 _ (k0 / 100) (k0 * 10) _ _ (objective_value _ _ _ _ _ _ _ _ _ _ _ _ _ _ _) (objective_value _ _ _ _ _ _ _ _ _ _ _ _ _ _ _)).
  change (ex_h _ _ _ _ _ _ _) with 100. fold rf. replace (k0 / 100) with (k0 * (1 / 100)) by field. rewrite !Kw by lra.
  destruct (Req_EM_T _ 0) as [Z|_]; [exfalso; lra|]. destruct (Req_EM_T _ 0) as [Z|_]; [exfalso; lra|].
  destruct (Rlt_dec _ 0) as [Z|_]; [exfalso; lra|]. destruct (Rlt_dec _ 0) as [_|Z]; [|exfalso; lra].
  assert (FR : forall T f' r_b0 r_b eps rhoCp k1 gk sk, T = rc + rp -> fl_mu f' = fl_mu some_fluid ->
    ex_finder (objective_pipe_conductivity ex_h wall ex_eff (tube ex_h wall 1 f' r_b0 (eq_pipe r_b eps rhoCp (4 * PI) (12 * PI) k1) gk sk) T) (k0 * (1 / 100)) (k0 * 10) = ([ex_root], Ok ex_root)).
  { intros T f' r_b0 r_b eps rhoCp k1 gk sk -> _. unfold ex_finder at 1. rewrite objective_value. change (ex_h _ _ _ _ _ _ _) with 100. fold rf.
    assert (EW : wall (r_i_prime (4 * PI)) (r_o_prime (4 * PI) (12 * PI)) ex_root = rc + rp - rf).
    { unfold wall. rewrite G2. unfold ex_root. fold rf. replace ((1 / 1600 + ln 2 / 8) / PI) with (rc + rp) by (unfold rc, rp; field; lra). field. repeat split; lra. }
    rewrite EW. destruct (Req_EM_T (rf + (rc + rp - rf) - (rc + rp)) 0) as [_|Z]; [reflexivity|exfalso; lra]. }
  change (ub_m ex_bhe) with 1. rewrite FR by reflexivity. cbn [fst snd bind]. rewrite match_eq.
  set (o := fun k : R => _). assert (O : forall k, o k = Ok (1 / 1 - 1 / k)) by reflexivity.
  rewrite (solve_root_cases ex_finder _ o (1 / 100) 7 _ _ (O _) (O _)).
  replace (1 / 1 - 1 / (1 / 100)) with (-99) by field. replace (1 / 1 - 1 / 7) with (6 / 7) by field.
  destruct (Req_EM_T _ 0) as [Z|_]; [exfalso; lra|]. destruct (Req_EM_T _ 0) as [Z|_]; [exfalso; lra|].
  destruct (Rlt_dec _ 0) as [_|Z]; [|exfalso; lra]. destruct (Rlt_dec _ 0) as [Z|_]; [exfalso; lra|].
  assert (FG : snd (ex_finder o (1 / 100) 7) = Ok 1).
  { unfold ex_finder. rewrite !O. destruct (Req_EM_T (1 / 1 - 1 / ex_root) 0) as [Z|Z].
    - cbn [snd]. f_equal. assert (NR : ex_root <> 0). { unfold ex_root. fold rf. replace ((1 / 1600 + ln 2 / 8) / PI) with (rc + rp) by (unfold rc, rp; field; lra).
        apply Rgt_not_eq, Rdiv_lt_0_compat; [lra|]. apply Rmult_lt_0_compat; lra. }
      assert (1 / ex_root * ex_root = 1) by (field; exact NR). nra.
    - destruct (Req_EM_T (1 / 1 - 1 / 1) 0) as [_|Y]; [reflexivity|exfalso; lra]. }
  cbn [snd]. rewrite FG. cbn [bind]. eexists. split; [reflexivity|]. cbn [ub_Rf tube ub_grout_k pp_rin eq_pipe]. rewrite film_eq. change (ex_h _ _ _ _ _ _ _) with 100. fold rf.
  split; [split; assumption|reflexivity].
Qed.
Theorem C83_legs_refuted :
  exists h_circular eff_u eff_c brentq c n m f r_b p gk sk b e, settles 0 brentq /\
  make_u h_circular wall c n m f r_b p gk sk = Ok b /\ 0 < pp_rin p < pp_rout p /\ 0 < pp_k p /\ 0 < ub_h b /\
  compute_equivalent h_circular wall eff_u eff_c brentq (Multiple b) = Ok e /\
  pg_Rfp (ub_pg e) / 2 <> (ub_Rf b + ub_Rp b) / (2 * IZR n).
Proof.
  destruct ex_equivalent as (e & E & HT & _). exists ex_h, ex_eff, (fun _ _ _ => 0), ex_finder, parallel, 2%Z, 1, some_fluid, 10, ex_pipe, 1, 1, ex_bhe, e.
  split; [exact ex_settles|]. split; [reflexivity|]. split; [cbn; lra|]. split; [cbn; lra|]. split; [cbn; unfold ex_h; lra|]. split; [exact E|].
  pose proof (C83_legs_partial ex_h ex_eff (fun _ _ _ => 0) ex_finder 0 parallel 2 1 some_fluid 10 ex_pipe 1 1 ex_bhe e ex_settles eq_refl ltac:(lia) ltac:(cbn; lra) ltac:(lra) ltac:(cbn; lra) ltac:(cbn; unfold ex_h; lra) E) as H.
  pose proof PI_RGT_0 as P. pose proof ln2_bounds as L.
  assert (Ef : ub_Rf ex_bhe = / PI / 200) by (cbn; unfold ex_h; field; lra).
  assert (Ep : ub_Rp ex_bhe = / PI * (ln 2 / 2)) by (cbn; unfold wall; replace (2 / 1) with 2 by field; field; lra).
  cbv zeta in H. cbn [pp_rin ex_pipe] in H. rewrite Ef, Ep in H |- *.
  assert (T : (/ PI / 200 / (2 * 1) + / PI * (ln 2 / 2)) / (2 * 2) = 1 / (1600 * PI) + ln 2 / (8 * PI)) by (field; lra).
  assert (T2 : / PI * (ln 2 / 2) / (2 * 2) = ln 2 / (8 * PI)) by (field; lra). rewrite T, T2 in H. specialize (H HT).
  assert (Z : pg_Rfp (ub_pg e) / 2 - (1 / (1600 * PI) + ln 2 / (8 * PI)) / 2 = 0).
  { destruct (Req_dec (pg_Rfp (ub_pg e) / 2 - (1 / (1600 * PI) + ln 2 / (8 * PI)) / 2) 0) as [Z|Z]; [exact Z|]. apply Rabs_pos_lt in Z. lra. }
  replace (pg_Rfp (ub_pg e) / 2) with ((1 / (1600 * PI) + ln 2 / (8 * PI)) / 2) by lra.
  replace ((1 / (1600 * PI) + ln 2 / (8 * PI)) / 2) with (/ PI * (1 / 3200 + ln 2 / 16)) by (field; lra).
  replace ((/ PI / 200 + / PI * (ln 2 / 2)) / (2 * 2)) with (/ PI * (1 / 800 + ln 2 / 8)) by (field; lra).
  assert (0 < / PI) by now apply Rinv_0_lt_compat. nra.
Qed.

(** C84: Reynolds numbers *)
Theorem C84_formulas : forall m r ra rb eps f, 0 < r -> 0 < ra < rb -> fl_rho f <> 0 -> fl_mu f <> 0 ->
  compute_Reynolds m r eps f = reynolds m (disc r) (2 * PI * r) (fl_mu f) /\
  compute_Reynolds_concentric m ra rb f = reynolds m (disc rb - disc ra) (2 * PI * ra + 2 * PI * rb) (fl_mu f).
Proof.
  intros m r ra rb eps f Hr Hab Hrho Hmu. pose proof PI_RGT_0. unfold compute_Reynolds, compute_Reynolds_concentric, reynolds, disc.
  assert (rb ^ 2 - ra ^ 2 <> 0) by (cbn; nra).
  split; [field; repeat split; try lra; assumption|].
  assert (2 * PI * ra + 2 * PI * rb <> 0) by nra. assert (PI * rb ^ 2 - PI * ra ^ 2 <> 0).
  { replace (PI * rb ^ 2 - PI * ra ^ 2) with (PI * (rb ^ 2 - ra ^ 2)) by ring. apply Rmult_integral_contrapositive; split; [lra|assumption]. }
  field. repeat split; try lra; assumption.
Qed.
(** the number printed for a U-tube treats the roughness as a second radius *)
Theorem C84_reported_partial : forall b, let p := ub_pipe b in let f := ub_fluid b in 0 < pp_rin p -> 0 <= pp_eps p -> pp_eps p <> pp_rin p -> fl_rho f <> 0 -> fl_mu f <> 0 ->
  reported_Reynolds b = reynolds (ub_m_pipe b) (disc (pp_rin p)) (2 * PI * pp_rin p) (fl_mu f) * (pp_rin p / (pp_rin p + pp_eps p)).
Proof.
  intros b p f Hr He Hd Hrho Hmu. pose proof PI_RGT_0. unfold reported_Reynolds, compute_Reynolds_concentric, reynolds, disc. fold p f.
  assert (pp_eps p ^ 2 - pp_rin p ^ 2 <> 0).
  { replace (pp_eps p ^ 2 - pp_rin p ^ 2) with ((pp_eps p - pp_rin p) * (pp_eps p + pp_rin p)) by ring. apply Rmult_integral_contrapositive; split; lra. }
  field. repeat split; try lra; assumption.
Qed.
Theorem C84_reported_refuted : exists b, let p := ub_pipe b in let f := ub_fluid b in 0 < pp_rin p < pp_rout p /\ 0 < pp_eps p < pp_rin p /\ 0 < fl_rho f /\ 0 < fl_mu f /\ 0 < ub_m_pipe b /\
  reported_Reynolds b <> reynolds (ub_m_pipe b) (disc (pp_rin p)) (2 * PI * pp_rin p) (fl_mu f).
Proof.
  set (b := tube ex_h wall 1 some_fluid 10 {| pp_pos := []; pp_rin := 2; pp_rout := 3; pp_s := 2; pp_eps := 1; pp_k := 1; pp_rhoCp := 1 |} 1 1).
  exists b. intros p f. do 5 (split; [cbn; lra|]). pose proof (C84_reported_partial b ltac:(cbn; lra) ltac:(cbn; lra) ltac:(cbn; lra) ltac:(cbn; lra) ltac:(cbn; lra)) as H.
  fold p f in H. rewrite H. pose proof PI_RGT_0 as P. intro E.
  assert (N : reynolds (ub_m_pipe b) (disc (pp_rin p)) (2 * PI * pp_rin p) (fl_mu f) = / PI). { unfold reynolds, disc. cbn. field. lra. }
  rewrite N in E. cbn in E. assert (0 < / PI) by now apply Rinv_0_lt_compat. lra.
Qed.

Print Assumptions C68_positions.
Print Assumptions C68_none.
Print Assumptions C68_overlap.
Print Assumptions C68_one.
Print Assumptions C68_two.
Print Assumptions C68_no_overlap_refuted.
Print Assumptions C67_flows.
Print Assumptions C67_parallel_partial.
Print Assumptions C67_parallel_refuted.
Print Assumptions C66_constructed.
Print Assumptions C66_coaxial_constructed.
Print Assumptions C66_coaxial.
Print Assumptions C66_u_tube_partial.
Print Assumptions C66_u_tube_refuted.
Print Assumptions C65_multiple.
Print Assumptions C65_coaxial.
Print Assumptions C65_others.
Print Assumptions C81_grout.
Print Assumptions C81_initial_grout.
Print Assumptions C80_pipe_conductivity_partial.
Print Assumptions C80_resistive_wall_fails.
Print Assumptions C80_pipe_conductivity_refuted.
Print Assumptions C82_u_tube_partial.
Print Assumptions C82_u_tube_refuted.
Print Assumptions C82_coaxial_partial.
Print Assumptions C82_coaxial_refuted.
Print Assumptions C83_legs_partial.
Print Assumptions C83_legs_refuted.
Print Assumptions C84_formulas.
Print Assumptions C84_reported_partial.
Print Assumptions C84_reported_refuted.
