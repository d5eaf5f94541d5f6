From Coq Require Import ZArith List Bool Reals Lia Lra.
From Verif Require Import Base Num BaseLemmas Ghe GheProofs Bhe Equiv EquivSpec.
Import ListNotations.
Open Scope R_scope.

(** ** placing pipes *)
Lemma flat_pairs (g : Z -> R * R) : forall m a,
  flat_map (fun i => [g (2 * i)%Z; g (2 * i + 1)%Z]) (zseq a m) = map g (zseq (2 * a) (2 * m)).
Proof.
  induction m as [|m IH]; intro a; [reflexivity|].
  replace (2 * S m)%nat with (S (S (2 * m))) by lia. cbn [zseq flat_map map app]. f_equal. f_equal. rewrite IH.
  f_equal. f_equal. lia.
Qed.
Lemma place_eq s r n : (1 <= n)%Z ->
  place_pipes s r n = Ok (map (fun k => on_circle (s / 2 + r) (PI + IZR k * (PI / IZR n))) (zrange 0 (2 * n))).
Proof.
  intro Hn. unfold place_pipes. destruct (Z.eqb_spec n 0); [lia|]. f_equal. unfold zrange.
  replace (Z.to_nat (2 * n - 0)) with (2 * Z.to_nat (n - 0))%nat by lia. transitivity (map (fun k => on_circle (s / 2 + r) (PI + IZR k * (PI / IZR n))) (zseq (2 * 0) (2 * Z.to_nat (n - 0)))); [|reflexivity].
  rewrite <- flat_pairs. apply flat_map_ext. intro i. unfold on_circle. rewrite plus_IZR, mult_IZR.
  replace (2 * IZR i * (PI / IZR n) + PI + PI / IZR n) with (PI + (2 * IZR i + 1) * (PI / IZR n)) by ring.
  replace (2 * IZR i * (PI / IZR n) + PI) with (PI + 2 * IZR i * (PI / IZR n)) by ring. reflexivity.
Qed.
Lemma nth_map_zrange (g : Z -> R * R) n k d : (0 <= k < n)%Z -> nth (Z.to_nat k) (map g (zrange 0 n)) d = g k.
Proof.
  intro Hk. apply nth_error_nth. rewrite nth_error_map. unfold zrange. rewrite nth_error_zseq.
  replace (Z.to_nat k <? Z.to_nat (n - 0))%nat with true by (symmetry; apply Nat.ltb_lt; lia).
  cbn [option_map]. f_equal. f_equal. lia.
Qed.
(** the chord *)
Lemma chord D a b : dist2 (on_circle D a) (on_circle D b) = (2 * D * sin ((a - b) / 2)) ^ 2.
Proof.
  unfold dist2, on_circle. cbn [fst snd].
  assert (E : (2 * D * sin ((a - b) / 2)) ^ 2 = D ^ 2 * (2 * (1 - cos (a - b)))).
  { pose proof (cos_2a_sin ((a - b) / 2)) as C. replace (2 * ((a - b) / 2)) with (a - b) in C by field. rewrite C. ring. }
  rewrite E, cos_minus. pose proof (sin2_cos2 a) as Sa. pose proof (sin2_cos2 b) as Sb. unfold Rsqr in *.
  replace ((D * cos a - D * cos b) ^ 2 + (D * sin a - D * sin b) ^ 2)
    with (D ^ 2 * ((sin a * sin a + cos a * cos a) + (sin b * sin b + cos b * cos b) - 2 * (cos a * cos b + sin a * sin b))) by ring.
  rewrite Sa, Sb. ring.
Qed.
(** among n equally spaced pipes neighbours are the closest *)
Lemma sin_least x y : 0 <= x -> x <= y -> y <= PI - x -> sin x <= sin y.
Proof.
  intros Hx Hy Hp. pose proof PI_RGT_0. destruct (Rle_lt_dec y (PI / 2)).
  - apply sin_incr_1; lra.
  - rewrite <- (sin_PI_x y). apply sin_incr_1; lra.
Qed.
Lemma sin_step_least n j : (1 <= n)%Z -> (1 <= j <= 2 * n - 1)%Z ->
  0 <= sin (PI / IZR n / 2) <= sin (IZR j * (PI / IZR n) / 2).
Proof.
  intros Hn Hj. pose proof PI_RGT_0 as P. assert (N : 1 <= IZR n) by (apply IZR_le; lia). set (d := PI / IZR n).
  assert (D : 0 < d) by (apply Rdiv_lt_0_compat; lra). assert (E : IZR n * d = PI) by (unfold d; field; lra).
  assert (J : 1 <= IZR j) by (apply IZR_le; lia). assert (J2 : IZR j <= 2 * IZR n - 1).
  { rewrite <- mult_IZR, <- minus_IZR. apply IZR_le. lia. }
  split.
  - apply sin_ge_0; [lra|]. nra.
  - apply sin_least; nra.
Qed.
Lemma chord_least D n k l : (1 <= n)%Z -> (0 <= k < 2 * n)%Z -> (0 <= l < 2 * n)%Z -> k <> l ->
  (2 * D * sin (PI / IZR n / 2)) ^ 2 <= dist2 (on_circle D (PI + IZR k * (PI / IZR n))) (on_circle D (PI + IZR l * (PI / IZR n))).
Proof.
  intros Hn Hk Hl Hd. rewrite chord.
  replace ((PI + IZR k * (PI / IZR n) - (PI + IZR l * (PI / IZR n))) / 2) with ((IZR k - IZR l) * (PI / IZR n) / 2) by (unfold Rdiv; ring).
  assert (G : forall j, (1 <= j <= 2 * n - 1)%Z -> (2 * D * sin (PI / IZR n / 2)) ^ 2 <= (2 * D * sin (IZR j * (PI / IZR n) / 2)) ^ 2).
  { intros j Hj. destruct (sin_step_least n j Hn Hj) as (S1 & S2). rewrite !Rpow_mult_distr. apply Rmult_le_compat_l; [nra|]. apply pow_incr. lra. }
  destruct (Z_lt_le_dec l k).
  - rewrite <- minus_IZR. apply G. lia.
  - replace (IZR k - IZR l) with (- IZR (l - k)) by (rewrite minus_IZR; ring).
    replace (- IZR (l - k) * (PI / IZR n) / 2) with (- (IZR (l - k) * (PI / IZR n) / 2)) by (unfold Rdiv; ring).
    rewrite sin_neg. replace ((2 * D * - sin (IZR (l - k) * (PI / IZR n) / 2)) ^ 2) with ((2 * D * sin (IZR (l - k) * (PI / IZR n) / 2)) ^ 2) by ring.
    apply G. lia.
Qed.
Lemma on_circle_norm D a : dist2 (on_circle D a) (0, 0) = D ^ 2.
Proof.
  unfold dist2, on_circle. cbn [fst snd]. pose proof (sin2_cos2 a) as S. unfold Rsqr in S.
  replace ((D * cos a - 0) ^ 2 + (D * sin a - 0) ^ 2) with (D ^ 2 * (sin a * sin a + cos a * cos a)) by ring. rewrite S. ring.
Qed.
Lemma place_one s r : place_pipes s r 1 = Ok [(- (s / 2 + r), 0); (s / 2 + r, 0)].
Proof.
  rewrite place_eq by lia. change (zrange 0 (2 * 1)) with [0%Z; 1%Z]. cbn [map]. unfold on_circle. replace (PI + 0 * (PI / 1)) with PI by field. replace (PI + 1 * (PI / 1)) with (2 * PI) by field.
  rewrite cos_PI, sin_PI, cos_2PI, sin_2PI. do 2 f_equal; [f_equal; ring|]. f_equal. f_equal; ring.
Qed.

(** ** geometry of the equivalent tube *)
Lemma disc_prime V : 0 < V -> 2 * disc (sqrt (V / (2 * PI))) = V.
Proof.
  intro HV. pose proof PI_RGT_0. unfold disc. rewrite pow2_sqrt; [field; lra|]. apply Rlt_le, Rdiv_lt_0_compat; lra.
Qed.
Lemma primes_ordered Vf Vp : 0 < Vf -> 0 < Vp -> 0 < r_i_prime Vf < r_o_prime Vf Vp.
Proof.
  intros H1 H2. pose proof PI_RGT_0. unfold r_i_prime, r_o_prime. split; [apply sqrt_lt_R0, Rdiv_lt_0_compat; lra|].
  apply sqrt_lt_1; [apply Rlt_le, Rdiv_lt_0_compat; lra..|]. unfold Rdiv. apply Rmult_lt_compat_r; [apply Rinv_0_lt_compat; lra|lra].
Qed.
Lemma fit_sound r_b r_o : 0 < r_b -> 0 < r_o -> let (rb', s) := fit_borehole r_b r_o in
  r_b <= rb' /\ 0 < s /\ s / 2 + 2 * r_o < rb' /\ (2 * r_o < r_b -> rb' = r_b /\ s = 2 * (r_b - 2 * r_o) / 3) /\
  (r_b <= 2 * r_o -> rb' = 12 / 10 * (4 * r_o - r_b) /\ s = (4 * r_o - r_b) / 15).
Proof.
  intros H1 H2. unfold fit_borehole. destruct (Rle_dec (r_b * 2 - 2 * r_o * 2) 0); repeat split; lra.
Qed.

(** ** objectives do not depend on what was tried before *)
Section Tried.
Variables (h_circular : R -> R -> R -> R -> R -> R -> R -> R) (r_conduction : R -> R -> R -> R) (eff_u : pg_u -> R -> R -> R).
Notation try_pipe_k := (try_pipe_k h_circular r_conduction eff_u).
Notation try_grout_k := (try_grout_k h_circular r_conduction eff_u).
Notation update := (update_single h_circular r_conduction eff_u).
Lemma try_pipe_twice b k k' : try_pipe_k (try_pipe_k b k) k' = try_pipe_k b k'.
Proof. reflexivity. Qed.
Lemma try_grout_twice b k k' : try_grout_k (try_grout_k b k) k' = try_grout_k b k'.
Proof. reflexivity. Qed.
Lemma objective_history b pts k : try_pipe_k (fold_left try_pipe_k pts b) k = try_pipe_k b k.
Proof. revert b. induction pts as [|p pts IH]; intro b; [reflexivity|]. cbn [fold_left]. rewrite IH. apply try_pipe_twice. Qed.
Lemma objective_history_grout b pts k : try_grout_k (fold_left try_grout_k pts b) k = try_grout_k b k.
Proof. revert b. induction pts as [|p pts IH]; intro b; [reflexivity|]. cbn [fold_left]. rewrite IH. apply try_grout_twice. Qed.
Lemma fold_pipe b pts : pts <> [] -> fold_left try_pipe_k pts b = try_pipe_k b (last pts 0).
Proof.
  intro H. destruct (exists_last H) as (l & x & ->). rewrite fold_left_app, last_last. cbn [fold_left]. apply objective_history.
Qed.
Lemma update_again b k : fst (update None None (try_pipe_k b k)) = try_pipe_k b k.
Proof. reflexivity. Qed.
End Tried.

(** ** what solve_root leaves *)
Section Left.
Variables (h_circular : R -> R -> R -> R -> R -> R -> R -> R) (r_conduction : R -> R -> R -> R) (eff_u : pg_u -> R -> R -> R).
Variable brentq : (R -> res R) -> R -> R -> list R * res R.
Notation single := (single_u_tube h_circular r_conduction).

(** the constructed tube, as a record *)
Definition tube (m : R) (f : fluid) (r_b : R) (p : pipe) (gk sk : R) : ubhe :=
  let h := h_circular m (pp_rin p) (fl_mu f) (fl_rho f) (fl_k f) (fl_cp f) (pp_eps p) in
  let rf := 1 / (h * 2 * PI * pp_rin p) in let rp := r_conduction (pp_rin p) (pp_rout p) (pp_k p) in
  {| ub_m := m; ub_m_pipe := m; ub_fluid := f; ub_pipe := p; ub_soil_k := sk; ub_grout_k := gk; ub_h := h; ub_Rp := rp; ub_Rf := rf;
     ub_pg := {| pg_pos := pp_pos p; pg_rin := pp_rin p; pg_rout := pp_rout p; pg_rb := r_b; pg_ks := sk; pg_kg := gk; pg_Rfp := rf + rp; pg_n := 1; pg_config := no_config |} |}.
Lemma single_tube m f r_b p gk sk : single m f r_b p gk sk = Ok (tube m f r_b p gk sk).
Proof. reflexivity. Qed.
Definition with_k (p : pipe) (k : R) : pipe :=
  {| pp_pos := pp_pos p; pp_rin := pp_rin p; pp_rout := pp_rout p; pp_s := pp_s p; pp_eps := pp_eps p; pp_k := k; pp_rhoCp := pp_rhoCp p |}.
Lemma try_pipe_tube m f r_b p gk sk k : try_pipe_k h_circular r_conduction eff_u (tube m f r_b p gk sk) k = tube m f r_b (with_k p k) gk sk.
Proof. reflexivity. Qed.
Lemma try_grout_tube m f r_b p gk sk k : try_grout_k h_circular r_conduction eff_u (tube m f r_b p gk sk) k = tube m f r_b p k sk.
Proof. reflexivity. Qed.
Definition eq_pipe (r_b eps rhoCp Vf Vp k : R) : pipe :=
  let r_o := r_o_prime Vf Vp in let s := snd (fit_borehole r_b r_o) in
  {| pp_pos := [(- (s / 2 + r_o), 0); (s / 2 + r_o, 0)]; pp_rin := r_i_prime Vf; pp_rout := r_o; pp_s := s; pp_eps := eps; pp_k := k; pp_rhoCp := rhoCp |}.
Definition target_points (r_b eps rhoCp m : R) (f : fluid) (gk sk Vf Vp Rc Rp : R) : list R * res R :=
  let k := k_p_prime Vf Vp Rp in
  let b := tube m f (fst (fit_borehole r_b (r_o_prime Vf Vp))) (eq_pipe r_b eps rhoCp Vf Vp k) gk sk in
  solve_root brentq k (objective_pipe_conductivity h_circular r_conduction eff_u b (Rc + Rp)) (Some (k / 100)) (Some (k * 10)).
Lemma equivalent_eq r_b eps rhoCp m f gk sk Vf Vp Rc Rp :
  equivalent_single_u_tube h_circular r_conduction eff_u brentq r_b eps rhoCp m f gk sk Vf Vp Rc Rp =
  let (pts, r) := target_points r_b eps rhoCp m f gk sk Vf Vp Rc Rp in
  let! _ := r in Ok (tube m f (fst (fit_borehole r_b (r_o_prime Vf Vp))) (eq_pipe r_b eps rhoCp Vf Vp (last pts 0)) gk sk).
Proof.
  unfold equivalent_single_u_tube, target_points, eq_pipe. destruct (fit_borehole r_b (r_o_prime Vf Vp)) as (rb', s) eqn:Ef. cbn [fst snd].
  rewrite place_one. cbn [bind]. rewrite single_tube. cbn [bind ub_pipe tube pp_k].
  match goal with |- context [solve_root brentq ?k ?f ?a ?b] => pose proof (solve_root_nonempty brentq k f (k / 100) (k * 10)) as NE; destruct (solve_root brentq k f a b) as (pts, r) end.
  cbn [fst] in NE. destruct r as [x|e]; [|reflexivity]. cbn [bind]. f_equal. rewrite fold_pipe by exact NE. rewrite update_again, try_pipe_tube. reflexivity.
Qed.
Lemma match_eq Rb m f r_b p gk sk :
  match_effective_borehole_resistance h_circular r_conduction eff_u brentq Rb (tube m f r_b p gk sk) =
  let! k := snd (solve_root brentq gk (fun k => Ok (Rb - eff_u (ub_pg (tube m f r_b p k sk)) m (fl_cp f))) (Some (1 / 100)) (Some 7)) in
  Ok (tube m f r_b p k sk).
Proof.
  unfold match_effective_borehole_resistance.
  change (objective_resistance h_circular r_conduction eff_u Rb (tube m f r_b p gk sk)) with (fun k => @Ok R (Rb - eff_u (ub_pg (tube m f r_b p k sk)) m (fl_cp f))).
  change (ub_grout_k (tube m f r_b p gk sk)) with gk. destruct (solve_root _ _ _ _ _) as (pts, r). cbn [snd]. destruct r as [k|e]; [|reflexivity]. cbn [bind].
  f_equal. rewrite objective_history_grout. apply try_grout_tube.
Qed.
End Left.
