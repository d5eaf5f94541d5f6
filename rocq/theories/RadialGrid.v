(** The grid of the short-time-step model, its temperatures over time and the recorded g-function *)
From Coq Require Import ZArith List Reals Lia Lra.
From Verif Require Import Base Radial RadialSpec RadialProofs.
Import ListNotations.
Open Scope R_scope.

(** ** Flows *)
Lemma flow_nonneg_iff cells T i : physical cells -> (S i < length cells)%nat -> 0 <= flow cells T i <-> at_ T (S i) <= at_ T i.
Proof.
  intros Hp Hi. destruct (Hp i Hi) as (_ & PG). unfold flow. split; intro F.
  - apply Rnot_lt_le. intro N. assert (conductance (cell_at cells i) (cell_at cells (S i)) * (at_ T i - at_ T (S i)) < 0); [|lra].
    rewrite <- (Rmult_0_r (conductance (cell_at cells i) (cell_at cells (S i)))). apply Rmult_lt_compat_l; lra.
  - apply Rmult_le_pos; lra.
Qed.
Lemma pos_of_prod k x : 0 < k -> 0 <= k * x -> 0 <= x.
Proof. intros Hk Hx. apply Rnot_lt_le. intro N. assert (k * x < k * 0) by (apply Rmult_lt_compat_l; lra). lra. Qed.
Lemma balance_flows q dt cells T X : 0 < dt -> physical cells -> (2 <= length cells)%nat -> balance q dt cells T X -> 0 <= q ->
  (forall i, (S i < length cells)%nat -> 0 <= flow cells T i <= q) -> forall i, (S i < length cells)%nat -> 0 <= flow cells X i <= q.
Proof.
  intros Hdt Hp Hn (_ & B & BL) Hq HT.
  set (n := length cells) in *. set (F := flow cells X) in *.
  assert (Rise : forall i, (S i < n)%nat -> forall s : R, 0 <= s * (match i with O => q | S j => F j end - F i) -> 0 <= s * (at_ X i - at_ T i)).
  { intros i Hi s Hs. destruct (Hp i Hi) as (PC & _). apply pos_of_prod with (heat_capacity (cell_at cells i)); [assumption|].
    replace (heat_capacity (cell_at cells i) * (s * (at_ X i - at_ T i))) with (s * (heat_capacity (cell_at cells i) * (at_ X i - at_ T i))) by ring.
    rewrite B by assumption. replace (s * (dt * (match i with O => q | S j => F j end - F i))) with (dt * (s * (match i with O => q | S j => F j end - F i))) by ring.
    apply Rmult_le_pos; lra. }
  assert (Next : forall i, (S i < n)%nat -> forall s : R, (forall j, (S j < n)%nat -> 0 <= s * (F j - F i)) -> s * (at_ X (S i) - at_ T (S i)) <= 0).
  { intros i Hi s Hs. destruct (Nat.eq_dec (S (S i)) n) as [e|ne].
    - replace (S i) with (n - 1)%nat by lia. rewrite BL. lra.
    - assert (Hi2 : (S (S i) < n)%nat) by lia. pose proof (Rise (S i) Hi2 (- s)) as R1. cbv beta iota in R1.
      specialize (Hs (S i) Hi2). assert (0 <= - s * (F i - F (S i))) by lra. specialize (R1 H). lra. }
  assert (Lo : forall i, (S i < n)%nat -> 0 <= F i).
  { destruct (minimum_index F (n - 1) ltac:(lia)) as (m & Hm & Hmin).
    assert (0 <= F m); [|intros i Hi; specialize (Hmin i ltac:(lia)); lra].
    apply Rnot_lt_le. intro N. assert (Hm' : (S m < n)%nat) by lia.
    assert (A : 0 <= 1 * (at_ X m - at_ T m)).
    { apply Rise; [assumption|]. destruct m as [|j]; [lra|]. specialize (Hmin j ltac:(lia)). lra. }
    assert (D : 1 * (at_ X (S m) - at_ T (S m)) <= 0).
    { apply Next; [assumption|]. intros j Hj. specialize (Hmin j ltac:(lia)). lra. }
    destruct (HT m Hm') as (HTm & _). apply flow_nonneg_iff in HTm; [|assumption..].
    assert (0 <= F m) by (apply flow_nonneg_iff; [assumption..|lra]). lra. }
  assert (Hi : forall i, (S i < n)%nat -> F i <= q).
  { destruct (minimum_index (fun i => - F i) (n - 1) ltac:(lia)) as (m & Hm & Hmax).
    assert (F m <= q); [|intros i Hi; specialize (Hmax i ltac:(lia)); cbv beta in Hmax; lra].
    apply Rnot_lt_le. intro N. assert (Hm' : (S m < n)%nat) by lia.
    assert (A : 0 <= - 1 * (at_ X m - at_ T m)).
    { apply Rise; [assumption|]. destruct m as [|j]; [lra|]. specialize (Hmax j ltac:(lia)). cbv beta in Hmax. lra. }
    assert (D : - 1 * (at_ X (S m) - at_ T (S m)) <= 0).
    { apply Next; [assumption|]. intros j Hj. specialize (Hmax j ltac:(lia)). cbv beta in Hmax. lra. }
    destruct (HT m Hm') as (_ & HTm). destruct (Hp m Hm') as (_ & PG).
    assert (F m <= flow cells T m); [|lra]. unfold F, flow. apply Rmult_le_compat_l; lra. }
  intros i Hi'. split; [now apply Lo|now apply Hi].
Qed.

(** ** Temperatures over time *)
Section Time.
Variables (solver : list R -> list R -> list R -> list R -> list R) (q dt : R) (cells : list cell).
Hypotheses (Hs : good_solver solver) (Hn : (2 <= length cells)%nat) (Hdt : 0 < dt) (Hp : physical cells).
Let T k T0 := after solver q dt cells T0 k.
Lemma after_S k T0 : T (S k) T0 = step solver q dt cells (T k T0).
Proof. reflexivity. Qed.
Lemma after_length k T0 : length T0 = length cells -> length (T k T0) = length cells.
Proof. intro L. induction k as [|k IH]; [exact L|]. rewrite after_S. apply (proj1 (step_balance solver q dt cells (T k T0) Hs Hn IH Hdt Hp)). Qed.
Lemma after_balance k T0 : length T0 = length cells -> balance q dt cells (T k T0) (T (S k) T0).
Proof. intro L. rewrite after_S. apply step_balance; try assumption. now apply after_length. Qed.
Definition uniform (a : R) : list R := map (fun _ => a) cells.
Lemma uniform_length a : length (uniform a) = length cells.
Proof. apply map_length. Qed.
Lemma uniform_at a i : (i < length cells)%nat -> at_ (uniform a) i = a.
Proof.
  intro Hi. unfold at_, uniform. rewrite nth_indep with (d' := a) by (rewrite map_length; lia).
  clear. revert i. induction cells as [|c r IH]; intros [|i]; cbn; auto.
Qed.
Lemma uniform_flow a i : (S i < length cells)%nat -> flow cells (uniform a) i = 0.
Proof. intro Hi. unfold flow. rewrite !uniform_at by lia. ring. Qed.
Lemma after_flows a k i : 0 <= q -> (S i < length cells)%nat -> 0 <= flow cells (T k (uniform a)) i <= q.
Proof.
  intro Hq. revert i. induction k as [|k IH]; intros i Hi.
  - change (T 0 (uniform a)) with (uniform a). rewrite uniform_flow by assumption. lra.
  - apply (balance_flows q dt cells (T k (uniform a)) (T (S k) (uniform a)) Hdt Hp Hn); try assumption.
    apply after_balance. apply uniform_length.
Qed.
Lemma after_rises a k : 0 <= q -> forall i, (i < length cells)%nat -> at_ (T k (uniform a)) i <= at_ (T (S k) (uniform a)) i.
Proof.
  intro Hq. induction k as [|k IH]; intros i Hi.
  - assert (B0 : balance 0 dt cells (uniform a) (uniform a)).
    { split; [apply uniform_length|]. split; [|reflexivity]. intros j Hj. rewrite uniform_flow by assumption.
      destruct j as [|j]; [rewrite Rminus_diag_eq by reflexivity; ring|]. rewrite uniform_flow by lia. ring. }
    change (T 0 (uniform a)) with (uniform a).
    apply (balance_compare dt cells 0 (uniform a) (uniform a) q (uniform a) (T 1 (uniform a)) Hdt Hp Hn B0);
      [apply (after_balance 0), uniform_length|assumption|intros; lra|assumption].
  - apply (balance_compare dt cells q (T k (uniform a)) (T (S k) (uniform a)) q (T (S k) (uniform a)) (T (S (S k)) (uniform a)) Hdt Hp Hn);
      [apply after_balance, uniform_length|apply after_balance, uniform_length|lra|exact IH|assumption].
Qed.
Lemma after_above a k i : 0 <= q -> (i < length cells)%nat -> a <= at_ (T k (uniform a)) i.
Proof.
  intros Hq Hi. induction k as [|k IH]; [change (T 0 (uniform a)) with (uniform a); rewrite uniform_at by assumption; lra|].
  eapply Rle_trans; [exact IH|]. now apply after_rises.
Qed.
Lemma first_step_strict a : 0 < q -> a < at_ (T 1 (uniform a)) 0.
Proof.
  intro Hq. pose proof (after_above a 1 0 ltac:(lra) ltac:(lia)) as A0. destruct A0 as [A0|A0]; [assumption|exfalso].
  destruct (after_balance 0 (uniform a) (uniform_length a)) as (_ & B & _). specialize (B 0%nat ltac:(lia)). cbv iota in B.
  change (T 0 (uniform a)) with (uniform a) in B. rewrite uniform_at in B by lia. rewrite <- A0 in B.
  assert (F : flow cells (T 1 (uniform a)) 0 <= 0).
  { unfold flow. destruct (Hp 0%nat ltac:(lia)) as (_ & PG). pose proof (after_above a 1 1 ltac:(lra) ltac:(lia)).
    rewrite <- A0. rewrite <- (Rmult_0_r (conductance (cell_at cells 0) (cell_at cells 1))). apply Rmult_le_compat_l; lra. }
  assert (0 < dt * (q - flow cells (T 1 (uniform a)) 0)) by (apply Rmult_lt_0_compat; lra).
  fold (T 1 (uniform a)) in B. lra.
Qed.
(** the steady state *)
Let r i := / conductance (cell_at cells i) (cell_at cells (S i)).
Definition steady (a : R) : list R := map (fun i => a + q * (total_resistance cells - sum_to i r)) (seq 0 (length cells)).
Lemma steady_at a i : (i < length cells)%nat -> at_ (steady a) i = a + q * (total_resistance cells - sum_to i r).
Proof.
  intro Hi. unfold at_, steady. rewrite nth_indep with (d' := (fun i => a + q * (total_resistance cells - sum_to i r)) 0%nat) by (rewrite map_length, seq_length; lia).
  rewrite (map_nth (fun i => a + q * (total_resistance cells - sum_to i r))). rewrite seq_nth by assumption. reflexivity.
Qed.
Lemma steady_flow a i : (S i < length cells)%nat -> flow cells (steady a) i = q.
Proof.
  intro Hi. unfold flow. rewrite !steady_at by lia. cbn [sum_to]. destruct (Hp i Hi) as (_ & PG). unfold r at 3. field. lra.
Qed.
Lemma steady_balance a : balance q dt cells (steady a) (steady a).
Proof.
  split; [unfold steady; now rewrite map_length, seq_length|]. split; [|reflexivity]. intros i Hi. rewrite steady_flow by assumption.
  destruct i as [|j]; [ring|]. rewrite steady_flow by lia. ring.
Qed.
Lemma sum_to_mono k m : (k <= m)%nat -> (m < length cells)%nat -> sum_to k r <= sum_to m r.
Proof.
  intros Hk. induction Hk as [|m Hk IH]; intro Hm; [lra|]. cbn [sum_to]. specialize (IH ltac:(lia)).
  destruct (Hp m ltac:(lia)) as (_ & PG). assert (0 < r m) by (unfold r; now apply Rinv_0_lt_compat). lra.
Qed.
Lemma after_below a k : 0 <= q -> forall i, (i < length cells)%nat -> at_ (T k (uniform a)) i <= at_ (steady a) i.
Proof.
  intro Hq. induction k as [|k IH]; intros i Hi.
  - change (T 0 (uniform a)) with (uniform a). rewrite uniform_at, steady_at by assumption.
    assert (0 <= q * (total_resistance cells - sum_to i r)); [|lra]. apply Rmult_le_pos; [assumption|].
    unfold total_resistance. fold r. pose proof (sum_to_mono i (length cells - 1) ltac:(lia) ltac:(lia)). lra.
  - apply (balance_compare dt cells q (T k (uniform a)) (T (S k) (uniform a)) q (steady a) (steady a) Hdt Hp Hn);
      [apply after_balance, uniform_length|apply steady_balance|lra|exact IH|assumption].
Qed.
Lemma steady_fluid a : at_ (steady a) 0 = a + q * total_resistance cells.
Proof. rewrite steady_at by lia. cbn [sum_to]. ring. Qed.
End Time.

(** shifting the temperatures *)
Lemma at_shift l c i : (i < length l)%nat -> at_ (map (Rplus c) l) i = c + at_ l i.
Proof. intro Hi. unfold at_. rewrite nth_indep with (d' := c + 0) by (rewrite map_length; lia). apply (map_nth (Rplus c)). Qed.
Lemma balance_shift q dt cells T X c : length T = length cells -> (2 <= length cells)%nat -> balance q dt cells T X ->
  balance q dt cells (map (Rplus c) T) (map (Rplus c) X).
Proof.
  intros LT Hn (L & B & BL). split; [now rewrite map_length|].
  assert (Ef : forall i, (S i < length cells)%nat -> flow cells (map (Rplus c) X) i = flow cells X i).
  { intros i Hi. unfold flow. rewrite !at_shift by lia. ring. }
  split.
  - intros i Hi. rewrite !at_shift by lia. rewrite Ef by assumption.
    replace (c + at_ X i - (c + at_ T i)) with (at_ X i - at_ T i) by ring. rewrite B by assumption. destruct i as [|j]; [reflexivity|]. now rewrite Ef by lia.
  - rewrite !at_shift by lia. now rewrite BL.
Qed.
Lemma after_shift solver solver' q dt cells a k : good_solver solver -> good_solver solver' -> (2 <= length cells)%nat -> 0 < dt -> physical cells ->
  after solver q dt cells (uniform cells a) k = map (Rplus a) (after solver' q dt cells (uniform cells 0) k).
Proof.
  intros Hs Hs' Hn Hdt Hp. induction k as [|k IH].
  - unfold after. cbn [Nat.iter]. unfold uniform. cbn. rewrite map_map. apply map_ext. intro. ring.
  - apply (balance_unique dt cells q (after solver q dt cells (uniform cells a) k)); try assumption.
    + apply after_balance; try assumption. apply uniform_length.
    + rewrite IH. apply balance_shift; [apply after_length; try assumption; apply uniform_length|assumption|].
      apply after_balance; try assumption. apply uniform_length.
Qed.

(** ** The cells of the grid *)
Lemma sqrt2_bounds : 14 / 10 < sqrt 2 < 15 / 10.
Proof.
  split.
  - rewrite <- (sqrt_square (14 / 10)) by lra. apply sqrt_lt_1; lra.
  - rewrite <- (sqrt_square (15 / 10)) by lra. apply sqrt_lt_1; lra.
Qed.
Definition sound (c : cell) : Prop :=
  0 < c_in c /\ c_in c <= c_center c < c_out c /\ 0 < c_k c /\ 0 < c_rhoCp c /\ c_volume c = PI * (c_out c ^ 2 - c_in c ^ 2).
Lemma sound_capacity c : sound c -> 0 < heat_capacity c.
Proof.
  intros (H1 & H2 & _ & H4 & E). unfold heat_capacity. rewrite E. apply Rmult_lt_0_compat; [assumption|].
  apply Rmult_lt_0_compat; [apply PI_RGT_0|]. assert (c_in c ^ 2 < c_out c ^ 2); [|lra]. cbn. nra.
Qed.
Lemma wall_resistance_nonneg a b k : 0 < a <= b -> 0 < k -> 0 <= wall_resistance a b k.
Proof.
  intros (Ha & Hb) Hk. unfold wall_resistance. pose proof PI_RGT_0.
  assert (0 < 2 * PI * k) by (apply Rmult_lt_0_compat; lra).
  apply Rmult_le_pos; [|left; now apply Rinv_0_lt_compat].
  assert (1 <= b / a). { apply Rmult_le_reg_r with a; [assumption|]. unfold Rdiv. rewrite Rmult_assoc, Rinv_l; lra. }
  rewrite <- ln_1. destruct (Rle_lt_or_eq_dec 1 (b / a) H1) as [l|e]; [left; now apply ln_increasing; lra|right; now rewrite <- e].
Qed.
Lemma ln_pos_ratio a b : 0 < a < b -> 0 < ln (b / a).
Proof.
  intros (Ha & Hb). rewrite <- ln_1. apply ln_increasing; [lra|]. apply Rmult_lt_reg_r with a; [assumption|].
  unfold Rdiv. rewrite Rmult_assoc, Rinv_l; lra.
Qed.
Lemma wall_resistance_pos a b k : 0 < a < b -> 0 < k -> 0 < wall_resistance a b k.
Proof.
  intros Hab Hk. unfold wall_resistance. pose proof PI_RGT_0.
  apply Rdiv_lt_0_compat; [now apply ln_pos_ratio|apply Rmult_lt_0_compat; lra].
Qed.
Lemma sound_conductance a b : sound a -> sound b -> 0 < conductance a b.
Proof.
  intros (A1 & A2 & A3 & _) (B1 & B2 & B3 & _). unfold conductance. apply Rinv_0_lt_compat.
  pose proof (wall_resistance_pos (c_center a) (c_out a) (c_k a) ltac:(lra) A3).
  pose proof (wall_resistance_nonneg (c_in b) (c_center b) (c_k b) ltac:(lra) B3). lra.
Qed.
Lemma sound_physical cells : (forall c, In c cells -> sound c) -> physical cells.
Proof.
  intros Hc i Hi. assert (S1 : sound (cell_at cells i)) by (apply Hc, nth_In; lia). assert (S2 : sound (cell_at cells (S i))) by (apply Hc, nth_In; lia).
  split; [now apply sound_capacity|now apply sound_conductance].
Qed.
Lemma INR_pos_lit n : (0 < n)%nat -> 0 < INR n.
Proof. apply lt_0_INR. Qed.
Section Grid.
Variable u : utube.
Hypothesis Ha : admissible u.
Lemma geometry :
  0 < thickness_pipe u /\ 0 < r_fluid u < r_in_convection u /\ r_in_convection u < r_in_tube u /\ r_in_tube u < r_out_tube u /\ r_out_tube u < r_borehole u /\
  0 < thickness_fluid u /\ 0 < thickness_conv u /\ 0 < thickness_grout u /\ 0 < thickness_soil u /\
  thickness_fluid u = thickness_pipe u / 4 /\ thickness_conv u = thickness_pipe u / 4.
Proof.
  destruct Ha as [A1 A2 A3 _ _ _ _ _ _ _ _ _ _ _].
  assert (T : 0 < thickness_pipe u) by (unfold thickness_pipe; lra).
  assert (F : 0 < r_fluid u). { unfold r_fluid, r_in_convection, r_in_tube, r_out_tube, thickness_pipe. lra. }
  assert (E1 : thickness_fluid u = thickness_pipe u / 4).
  { unfold thickness_fluid, r_fluid. replace (INR num_fluid_cells) with 3 by (unfold num_fluid_cells; cbn; ring). field. }
  assert (E2 : thickness_conv u = thickness_pipe u / 4).
  { unfold thickness_conv, r_in_convection. replace (INR num_conv_cells) with 1 by reflexivity. field. }
  assert (G : 0 < thickness_grout u).
  { unfold thickness_grout. apply Rdiv_lt_0_compat; [unfold r_borehole, r_out_tube; lra|apply INR_pos_lit; unfold num_grout_cells; lia]. }
  assert (So : 0 < thickness_soil u).
  { unfold thickness_soil. apply Rdiv_lt_0_compat; [unfold r_borehole, r_far_field; lra|apply INR_pos_lit; unfold num_soil_cells; lia]. }
  split; [exact T|]. split; [split; [exact F|]; unfold r_fluid; lra|]. split; [unfold r_in_convection; lra|]. split; [unfold r_in_tube; lra|].
  split; [unfold r_borehole, r_out_tube; lra|]. split; [rewrite E1; lra|]. split; [rewrite E2; lra|]. auto.
Qed.
Lemma layer_sound ty start th k rc j : 0 < start -> 0 < th -> 0 < k -> 0 < rc -> sound (layer_cell ty start th k rc j).
Proof.
  intros H1 H2 H3 H4. unfold sound, layer_cell, cell_volume. cbn [c_in c_center c_out c_k c_rhoCp c_volume].
  assert (0 <= INR j * th) by (apply Rmult_le_pos; [apply pos_INR|lra]). repeat split; try lra.
Qed.
Lemma fluid_sound j : sound (fluid_cell u j).
Proof.
  destruct geometry as (T & (F & F2) & _ & _ & _ & TF & _). destruct Ha as [A1 _ _ _ _ Ar Ac _ _ _ _ _ _ _].
  unfold sound, fluid_cell. cbn [c_in c_center c_out c_k c_rhoCp c_volume].
  assert (0 <= INR j * thickness_fluid u) by (apply Rmult_le_pos; [apply pos_INR|lra]).
  assert (D : 0 < r_in_convection u ^ 2 - r_fluid u ^ 2) by (cbn; nra).
  assert (N : 0 < 2 * u_rin u ^ 2 * u_fluid_rho u * u_fluid_cp u).
  { repeat apply Rmult_lt_0_compat; cbn; nra. }
  assert (RC : 0 < (2 * u_rin u ^ 2 * u_fluid_rho u * u_fluid_cp u) / (r_in_convection u ^ 2 - r_fluid u ^ 2)) by now apply Rdiv_lt_0_compat.
  assert (J : match j with O => True | S k => thickness_fluid u <= INR j * thickness_fluid u end).
  { destruct j as [|k]; [exact I|]. rewrite S_INR. pose proof (pos_INR k). nra. }
  split; [destruct j; lra|]. split; [destruct j; lra|]. split; [now apply Rdiv_lt_0_compat|]. split; [assumption|reflexivity].
Qed.
Lemma grid_sound c : In c (grid u) -> sound c.
Proof.
  destruct geometry as (T & (F & F2) & G1 & G2 & G3 & TF & TC & TG & TS & _). pose proof PI_RGT_0 as P.
  pose proof Ha as [_ _ _ _ Ap _ _ Ag Ak _ As ARf ARp ARb].
  unfold grid, fill_radial_cell. rewrite !in_app_iff, !in_map_iff. intros [(j & <- & _)|[(j & <- & _)|[(j & <- & _)|[(j & <- & _)|(j & <- & _)]]]].
  - apply fluid_sound.
  - apply layer_sound; try lra. apply Rdiv_lt_0_compat; [apply ln_pos_ratio; lra|apply Rmult_lt_0_compat; lra].
  - apply layer_sound; try lra. apply Rdiv_lt_0_compat; [apply ln_pos_ratio; lra|apply Rmult_lt_0_compat; lra].
  - apply layer_sound; try lra. apply Rdiv_lt_0_compat; [apply ln_pos_ratio; lra|apply Rmult_lt_0_compat; lra].
  - apply layer_sound; lra.
Qed.
Lemma grid_physical : physical (grid u).
Proof. apply sound_physical, grid_sound. Qed.
End Grid.
Lemma grid_length u : length (grid u) = num_cells.
Proof. unfold grid, fill_radial_cell. rewrite !app_length, !map_length, !seq_length. reflexivity. Qed.
Lemma grid_two u : (2 <= length (grid u))%nat.
Proof. rewrite grid_length. unfold num_cells, num_fluid_cells, num_conv_cells. lia. Qed.

Definition conv_cell u := layer_cell CONVECTION (r_in_convection u) (thickness_conv u) (ln (r_in_tube u / r_in_convection u) / (2 * PI * (u_Rf u / 2))) 1.
Definition pipe_cell u := layer_cell PIPE (r_in_tube u) (thickness_pipe u) (ln (r_borehole u / r_in_tube u) / (2 * PI * (u_Rp u / 2))) (u_pipe_rhoCp u).
Definition grout_cell u := layer_cell GROUT (r_out_tube u) (thickness_grout u) (ln (r_borehole u / r_in_tube u) / (2 * PI * (u_Rb u - u_Rf u / 2))) (u_grout_rhoCp u).
Definition soil_cell u := layer_cell SOIL (r_borehole u) (thickness_soil u) (u_soil_k u) (u_soil_rhoCp u).
Lemma nth_map_cells (f : nat -> cell) n i : (i < n)%nat -> nth i (map f (seq 0 n)) no_cell = f i.
Proof.
  intro Hi. rewrite nth_indep with (d' := f 0%nat) by (rewrite map_length, seq_length; lia). rewrite map_nth, seq_nth by assumption. reflexivity.
Qed.
Lemma nth_layer (f : nat -> cell) n r i : nth i (map f (seq 0 n) ++ r) no_cell = if (i <? n)%nat then f i else nth (i - n) r no_cell.
Proof.
  destruct (Nat.ltb_spec i n).
  - rewrite app_nth1 by (rewrite map_length, seq_length; lia). now apply nth_map_cells.
  - rewrite app_nth2 by (rewrite map_length, seq_length; lia). now rewrite map_length, seq_length.
Qed.
Lemma grid_at u i : (i < num_cells)%nat -> cell_at (grid u) i =
  if (i <? 3)%nat then fluid_cell u i else if (i <? 4)%nat then conv_cell u (i - 3) else if (i <? 8)%nat then pipe_cell u (i - 4)
  else if (i <? 35)%nat then grout_cell u (i - 8) else soil_cell u (i - 35).
Proof.
  intro Hi. unfold cell_at, grid, fill_radial_cell. rewrite !nth_layer. fold (conv_cell u) (pipe_cell u) (grout_cell u) (soil_cell u).
  unfold num_fluid_cells, num_conv_cells, num_pipe_cells, num_grout_cells.
  unfold num_cells, num_fluid_cells, num_conv_cells, num_grout_cells in Hi.
  destruct (Nat.ltb_spec i 3); [reflexivity|].
  destruct (Nat.ltb_spec (i - 3) 1); [destruct (Nat.ltb_spec i 4); [reflexivity|lia]|]. destruct (Nat.ltb_spec i 4); [lia|].
  destruct (Nat.ltb_spec (i - 3 - 1) 4); [destruct (Nat.ltb_spec i 8); [f_equal; lia|lia]|]. destruct (Nat.ltb_spec i 8); [lia|].
  destruct (Nat.ltb_spec (i - 3 - 1 - 4) 27); [destruct (Nat.ltb_spec i 35); [f_equal; lia|lia]|]. destruct (Nat.ltb_spec i 35); [lia|].
  rewrite nth_map_cells by lia. f_equal. lia.
Qed.
Lemma layer_next ty start th k rc j : c_out (layer_cell ty start th k rc j) = c_in (layer_cell ty start th k rc (S j)).
Proof. unfold layer_cell. cbn [c_out c_in]. rewrite S_INR. ring. Qed.
Lemma grid_contiguous u i : (S i < num_cells)%nat -> i <> 2%nat -> i <> 7%nat -> c_out (cell_at (grid u) i) = c_in (cell_at (grid u) (S i)).
Proof.
  intros Hi N2 N7. rewrite !grid_at by lia.
  destruct (Nat.ltb_spec i 3).
  - destruct (Nat.ltb_spec (S i) 3); [|lia]. unfold fluid_cell. cbn [c_out c_in]. rewrite S_INR. field.
  - destruct (Nat.ltb_spec (S i) 3); [lia|]. destruct (Nat.ltb_spec i 4).
    + destruct (Nat.ltb_spec (S i) 4); [lia|]. destruct (Nat.ltb_spec (S i) 8); [|lia].
      replace (i - 3)%nat with 0%nat by lia. replace (S i - 4)%nat with 0%nat by lia.
      unfold conv_cell, pipe_cell, layer_cell, thickness_conv. cbn [c_out c_in]. replace (INR num_conv_cells) with 1 by reflexivity. cbn [INR]. field.
    + destruct (Nat.ltb_spec (S i) 4); [lia|]. destruct (Nat.ltb_spec i 8).
      * destruct (Nat.ltb_spec (S i) 8); [|lia]. unfold pipe_cell. replace (S i - 4)%nat with (S (i - 4)) by lia. apply layer_next.
      * destruct (Nat.ltb_spec (S i) 8); [lia|]. destruct (Nat.ltb_spec i 35).
        -- destruct (Nat.ltb_spec (S i) 35).
           ++ unfold grout_cell. replace (S i - 8)%nat with (S (i - 8)) by lia. apply layer_next.
           ++ replace (i - 8)%nat with 26%nat by lia. replace (S i - 35)%nat with 0%nat by lia.
              unfold grout_cell, soil_cell, layer_cell, thickness_grout. cbn [c_out c_in].
              replace (INR num_grout_cells) with 27 by (unfold num_grout_cells; rewrite INR_IZR_INZ; reflexivity).
              replace (INR 26) with 26 by (rewrite INR_IZR_INZ; reflexivity). cbn [INR]. field.
        -- destruct (Nat.ltb_spec (S i) 35); [lia|]. unfold soil_cell. replace (S i - 35)%nat with (S (i - 35)) by lia. apply layer_next.
Qed.

(** ** The recorded table *)
Lemma after_first solver q dt cells T k : after solver q dt cells (step solver q dt cells T) k = after solver q dt cells T (S k).
Proof. unfold after. induction k as [|k IH]; [reflexivity|]. change (Nat.iter (S k) ?f ?x) with (f (Nat.iter k f x)). now rewrite IH. Qed.
Lemma loop_ok solver u cells final init m : forall time T g l fuel, (m < fuel)%nat ->
  final - 120 <= time + 120 * INR (S m) -> (forall j, (j < m)%nat -> time + 120 * INR (S j) < final - 120) ->
  loop fuel solver u cells false final init time T g l =
  Ok (l ++ map (fun j => ln ((time + 120 * INR (S j)) / t_s u)) (seq 0 (S m)),
      g ++ map (fun j => c_0 u * ((hd 0 (after solver 1 120 cells T (S j)) - init) / 1 - u_Rb u)) (seq 0 (S m))).
Proof.
  induction m as [|m IH]; intros time T g l fuel Hf Hl Hb; destruct fuel as [|fuel]; try lia; cbn [loop].
  - destruct (Rle_dec (final - 120) (time + 120)) as [|n]; [|exfalso; apply n; cbn [INR] in Hl; lra].
    cbn [seq map]. unfold after. cbn [Nat.iter nat_rect INR]. do 2 f_equal. do 4 f_equal. ring.
  - destruct (Rle_dec (final - 120) (time + 120)) as [y|n]; [exfalso; specialize (Hb 0%nat ltac:(lia)); cbn [INR] in Hb; lra|].
    rewrite IH; [|lia| |].
    + rewrite <- !app_assoc. change (seq 0 (S (S m))) with (0%nat :: seq 1 (S m)). rewrite <- (seq_shift (S m) 0).
      rewrite !map_cons, !map_map.
      assert (E1 : map (fun j => ln ((time + 120 + 120 * INR (S j)) / t_s u)) (seq 0 (S m)) =
        map (fun x => ln ((time + 120 * INR (S (S x))) / t_s u)) (seq 0 (S m))).
      { apply map_ext. intro j. rewrite (S_INR (S j)). do 2 f_equal. ring. }
      assert (E2 : map (fun j => c_0 u * ((hd 0 (after solver 1 120 cells (step solver 1 120 cells T) (S j)) - init) / 1 - u_Rb u)) (seq 0 (S m)) =
        map (fun x => c_0 u * ((hd 0 (after solver 1 120 cells T (S (S x))) - init) / 1 - u_Rb u)) (seq 0 (S m))).
      { apply map_ext. intro j. now rewrite after_first. }
      rewrite E1, E2. replace (120 * INR 1) with 120 by (cbn [INR]; ring). reflexivity.
    + rewrite S_INR in Hl. lra.
    + intros j Hj. specialize (Hb (S j) ltac:(lia)). rewrite S_INR in Hb. lra.
Qed.
Lemma steps_exist (final time : R) : exists m, final - 120 <= time + 120 * INR (S m) /\ forall j, (j < m)%nat -> time + 120 * INR (S j) < final - 120.
Proof.
  assert (E : exists m, final - 120 <= time + 120 * INR (S m)).
  { set (x := (final - 120 - time) / 120). exists (Z.to_nat (up x)). rewrite S_INR. rewrite INR_IZR_INZ.
    pose proof (proj1 (archimed x)) as Hx. assert (IZR (up x) <= IZR (Z.of_nat (Z.to_nat (up x)))) by (apply IZR_le; lia).
    assert (final - 120 - time = 120 * x) by (unfold x; field). lra. }
  destruct E as (m & Hm).
  induction m as [m IH] using lt_wf_ind.
  assert (D : (exists j, (j < m)%nat /\ final - 120 <= time + 120 * INR (S j)) \/ forall j, (j < m)%nat -> time + 120 * INR (S j) < final - 120).
  { clear. induction m as [|m IH]; [right; intros; lia|]. destruct IH as [(j & Hj & E)|N]; [left; exists j; split; [lia|exact E]|].
    destruct (Rle_dec (final - 120) (time + 120 * INR (S m))) as [y|n]; [left; exists m; split; [lia|exact y]|].
    right. intros j Hj. destruct (Nat.eq_dec j m) as [->|]; [lra|apply N; lia]. }
  destruct D as [(j & Hj & Ej)|N]; [now apply (IH j)|]. exists m. now split.
Qed.
Lemma loop_short solver u cells final init : forall fuel time T g l, (forall j, (j < fuel)%nat -> time + 120 * INR (S j) < final - 120) ->
  loop fuel solver u cells false final init time T g l = Err OutOfFuel.
Proof.
  induction fuel as [|fuel IH]; intros time T g l Hb; [reflexivity|]. cbn [loop].
  destruct (Rle_dec (final - 120) (time + 120)) as [y|n]; [exfalso; specialize (Hb 0%nat ltac:(lia)); cbn [INR] in Hb; lra|].
  apply IH. intros j Hj. specialize (Hb (S j) ltac:(lia)). rewrite S_INR in Hb. lra.
Qed.
(** time of entry j of the table *)
Definition entry_time (j : nat) : R := / 1000000000000 + 120 * INR j.
Definition final_of (u : utube) (f : option R) : R := match f with Some t => t | None => calc_time_in_sec u end.
Lemma calc_ok solver u f : exists m,
  final_of u f - 120 <= entry_time m /\ (forall j, (j < m)%nat -> entry_time j < final_of u f - 120) /\
  (forall fuel, (fuel <= m)%nat -> calc_sts_g_functions fuel solver u f false = Err OutOfFuel) /\
  (forall fuel, (m < fuel)%nat -> calc_sts_g_functions fuel solver u f false =
    Ok (map (fun j => ln (entry_time j / t_s u)) (seq 0 (S m)),
        map (fun j => c_0 u * (at_ (after solver 1 120 (grid u) (uniform (grid u) 20) (S j)) 0 - 20 - u_Rb u)) (seq 0 (S m)))).
Proof.
  destruct (steps_exist (final_of u f) (/ 1000000000000 - 120)) as (m & Hm & Hb). exists m.
  assert (Et : forall j, / 1000000000000 - 120 + 120 * INR (S j) = entry_time j) by (intro j; unfold entry_time; rewrite S_INR; ring).
  rewrite Et in Hm. split; [exact Hm|]. split; [intros j Hj; specialize (Hb j Hj); now rewrite Et in Hb|]. split.
  - intros fuel Hf. unfold calc_sts_g_functions. fold (final_of u f). apply loop_short. intros j Hj. apply Hb. lia.
  - intros fuel Hf. unfold calc_sts_g_functions. fold (grid u). fold (final_of u f). fold (uniform (grid u) 20). rewrite (loop_ok _ _ _ _ _ m).
    + cbn [app]. f_equal. f_equal.
      * apply map_ext. intro j. now rewrite Et.
      * apply map_ext. intro j. rewrite hd_at. field.
    + exact Hf.
    + now rewrite Et.
    + exact Hb.
Qed.
Lemma t_s_pos u : admissible u -> 0 < t_s u.
Proof.
  intros [_ _ _ AH _ _ _ _ _ Ak As _ _ _]. unfold t_s. apply Rdiv_lt_0_compat; [cbn; nra|].
  apply Rmult_lt_0_compat; [lra|]. now apply Rdiv_lt_0_compat.
Qed.
Lemma entry_pos j : 0 < entry_time j.
Proof. unfold entry_time. pose proof (pos_INR j). assert (0 < / 1000000000000) by (apply Rinv_0_lt_compat; lra). lra. Qed.
Lemma entry_lt j : entry_time j < entry_time (S j).
Proof. unfold entry_time. rewrite S_INR. lra. Qed.
Lemma ln_time_lt u a b : admissible u -> 0 < a < b -> ln (a / t_s u) < ln (b / t_s u).
Proof.
  intros Hu (Ha & Hb). pose proof (t_s_pos u Hu) as P. apply ln_increasing; [now apply Rdiv_lt_0_compat|].
  unfold Rdiv. apply Rmult_lt_compat_r; [now apply Rinv_0_lt_compat|assumption].
Qed.
Lemma ln_time_le u a b : admissible u -> 0 < a <= b -> ln (a / t_s u) <= ln (b / t_s u).
Proof. intros Hu (Ha & [Hb|<-]); [|lra]. left. apply ln_time_lt; [assumption|lra]. Qed.
Lemma calc_time_covers u : 49 * 3600 <= calc_time_in_sec u.
Proof. apply Rmax_r. Qed.

(** ** Resistance and capacity of the layers *)
Lemma ln_sub a b : 0 < a -> 0 < b -> ln (b / a) = ln b - ln a.
Proof. intros Ha Hb. unfold Rdiv. rewrite ln_mult by (try assumption; now apply Rinv_0_lt_compat). rewrite ln_Rinv by assumption. ring. Qed.
Lemma layer_resistance ty start th k rc n : 0 < start -> 0 < th -> 0 < k ->
  sum_to n (fun j => wall_resistance (c_in (layer_cell ty start th k rc j)) (c_out (layer_cell ty start th k rc j)) k)
  = wall_resistance start (start + INR n * th) k.
Proof.
  intros Hs Ht Hk. pose proof PI_RGT_0 as P.
  assert (Pos : forall j, 0 < start + INR j * th) by (intro j; pose proof (pos_INR j); nra).
  induction n as [|n IH].
  - cbn [sum_to INR]. unfold wall_resistance. replace ((start + 0 * th) / start) with 1 by (field; lra). rewrite ln_1. unfold Rdiv. ring.
  - cbn [sum_to]. rewrite IH. unfold layer_cell. cbn [c_in c_out]. unfold wall_resistance.
    replace (start + INR n * th + th) with (start + INR (S n) * th) by (rewrite S_INR; ring).
    rewrite !ln_sub by (apply Pos || assumption). field. split; lra.
Qed.
