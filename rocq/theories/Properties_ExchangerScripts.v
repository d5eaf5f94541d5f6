(** Property C134: what the scripts in ghedt/examples/BHE print about heat exchangers and their equivalents.
    [h_circular], [h_annulus], [r_conduction], [eff_u], [eff_c] are the pygfunction routines, [brentq] the root finder: arbitrary. *)
From Coq Require Import ZArith List Bool Reals Lia Lra.
From Verif Require Import Base Num BaseLemmas Ghe GheProofs Bhe Equiv EquivSpec EquivProofs ExchangerScripts Properties_Equiv.
Import ListNotations.
Open Scope R_scope.

(** the mass flow of [V] litres per second *)
Definition mass (V : R) (f : fluid) : R := V * fl_rho f / 1000.
(** the Reynolds number in a round pipe *)
Definition pipe_reynolds (m r : R) (f : fluid) : R := reynolds m (disc r) (2 * PI * r) (fl_mu f).
(** the Reynolds number between two round pipes *)
Definition annulus_reynolds (m ra rb : R) (f : fluid) : R := reynolds m (disc rb - disc ra) (2 * PI * ra + 2 * PI * rb) (fl_mu f).
(** the film coefficient of a pipe *)
Definition film_coefficient (h_circular : R -> R -> R -> R -> R -> R -> R -> R) (m : R) (f : fluid) (p : pipe) : R :=
  h_circular m (pp_rin p) (fl_mu f) (fl_rho f) (fl_k f) (fl_cp f) (pp_eps p).
(** [x] is printed for [n] U-tubes in which [m_pipe] flows, the borehole having [m] *)
Definition u_tube_printed h_circular (r_conduction : R -> R -> R -> R) (eff_u : pg_u -> R -> R -> R) (c : config) (n : Z) (m m_pipe : R) (f : fluid) (r_b : R) (p : pipe) (gk sk : R) (x : printed) : Prop :=
  let h := film_coefficient h_circular m_pipe f p in let Rp := r_conduction (pp_rin p) (pp_rout p) (pp_k p) in
  pr_Re x = pipe_reynolds m_pipe (pp_rin p) f /\ pr_Rp x = Rp /\ pr_h x = h /\ pr_Rconv x = film h (pp_rin p) + Rp /\
  pr_Rb x = eff_u {| pg_pos := pp_pos p; pg_rin := pp_rin p; pg_rout := pp_rout p; pg_rb := r_b; pg_ks := sk; pg_kg := gk; pg_Rfp := film h (pp_rin p) + Rp; pg_n := n; pg_config := c |} m (fl_cp f).
Definition usable (f : fluid) : Prop := fl_rho f <> 0 /\ fl_mu f <> 0.

Lemma mass_eq V f : m_flow_borehole V f = mass V f.
Proof. unfold m_flow_borehole, mass. field. Qed.
Lemma re_pipe m r eps f : 0 < r -> usable f -> compute_Reynolds m r eps f = pipe_reynolds m r f.
Proof. intros H (H1 & H2). exact (proj1 (C84_formulas m r 1 2 eps f H ltac:(lra) H1 H2)). Qed.
Lemma re_annulus m ra rb f : 0 < ra < rb -> usable f -> compute_Reynolds_concentric m ra rb f = annulus_reynolds m ra rb f.
Proof. intros H (H1 & H2). exact (proj2 (C84_formulas m 1 ra rb 0 f ltac:(lra) H H1 H2)). Qed.
Lemma film_eq h r : 1 / (h * 2 * PI * r) = film h r.
Proof. unfold film. f_equal. ring. Qed.
Lemma made h rc eu c n m mp f r_b p gk sk : compute_mass_flow_rate_pipe m c = Ok mp -> 0 < pp_rin p -> usable f ->
  exists b, make_u h rc c n m f r_b p gk sk = Ok b /\ ub_m_pipe b = mp /\ u_tube_printed h rc eu c n m mp f r_b p gk sk (print_u eu f p b).
Proof.
  intros E Hr Hf. unfold make_u. rewrite E. cbn [bind]. eexists. split; [reflexivity|]. split; [reflexivity|].
  unfold u_tube_printed, print_u, film_coefficient. cbn. rewrite film_eq. rewrite re_pipe by assumption. repeat split.
Qed.

(** the numbers printed for a single U-tube *)
Theorem C134_single : forall h_circular r_conduction eff_u V f r_b p gk sk, 0 < pp_rin p -> usable f ->
  exists x, single_script h_circular r_conduction eff_u V f r_b p gk sk = Ok x /\
  u_tube_printed h_circular r_conduction eff_u no_config 1 (mass V f) (mass V f) f r_b p gk sk x.
Proof.
  intros h rc eu V f r_b p gk sk Hr Hf. unfold single_script, single_u_tube. rewrite mass_eq.
  destruct (made h rc eu no_config 1 (mass V f) (mass V f) f r_b p gk sk eq_refl Hr Hf) as (b & E & _ & H).
  exists (print_u eu f p b). rewrite E. split; [reflexivity|exact H].
Qed.
(** and for double U-tubes: the parallel ones have half the flow, so half the Reynolds number, and walls of the same resistance *)
Theorem C134_double : forall h_circular r_conduction eff_u V f r_b p gk sk, 0 < pp_rin p -> usable f ->
  exists x y, double_script h_circular r_conduction eff_u V f r_b p gk sk = Ok (x, y) /\
  u_tube_printed h_circular r_conduction eff_u parallel (zlen (pp_pos p) / 2) (mass V f) (mass V f / 2) f r_b p gk sk x /\
  u_tube_printed h_circular r_conduction eff_u series (zlen (pp_pos p) / 2) (mass V f) (mass V f) f r_b p gk sk y /\
  pr_Re x = pr_Re y / 2 /\ pr_Rp x = pr_Rp y.
Proof.
  intros h rc eu V f r_b p gk sk Hr Hf. unfold double_script, multiple_u_tube. rewrite mass_eq.
  destruct (made h rc eu parallel (n_pipes p) (mass V f) (mass V f / 2) f r_b p gk sk eq_refl Hr Hf) as (b & E & _ & H).
  destruct (made h rc eu series (n_pipes p) (mass V f) (mass V f) f r_b p gk sk eq_refl Hr Hf) as (b' & E' & _ & H').
  exists (print_u eu f p b), (print_u eu f p b'). cbv zeta. rewrite E, E'. split; [reflexivity|]. split; [exact H|]. split; [exact H'|].
  destruct H as (-> & -> & _), H' as (-> & -> & _). split; [|reflexivity]. destruct Hf as (_ & Hm). unfold pipe_reynolds, reynolds, disc. pose proof PI_RGT_0. field. repeat split; lra.
Qed.
(** what is called convective resistance is that of the film and of the wall of the pipe *)
Theorem C134_convective_partial : forall h_circular r_conduction eff_u V f r_b p gk sk x, 0 < pp_rin p -> usable f ->
  single_script h_circular r_conduction eff_u V f r_b p gk sk = Ok x ->
  (pr_Rconv x = film (pr_h x) (pp_rin p) <-> r_conduction (pp_rin p) (pp_rout p) (pp_k p) = 0).
Proof.
  intros h rc eu V f r_b p gk sk x Hr Hf E. destruct (C134_single h rc eu V f r_b p gk sk Hr Hf) as (x' & E' & _ & _ & H1 & H2 & _).
  rewrite E in E'. apply Ok_inj in E'. subst x'. rewrite H1, H2. split; intro; lra.
Qed.
Definition meg : fluid := {| fl_mu := 1 / 500; fl_rho := 1000; fl_k := 1 / 2; fl_cp := 4000 |}.
Definition script_pipe : pipe := {| pp_pos := [(- 7 / 200, 0); (7 / 200, 0)]; pp_rin := 108 / 10000; pp_rout := 133 / 10000; pp_s := 323 / 10000; pp_eps := 1 / 1000000; pp_k := 4 / 10; pp_rhoCp := 1542000 |}.
Theorem C134_convective_refuted : exists h_circular eff_u V f r_b p gk sk x,
  single_script h_circular wall eff_u V f r_b p gk sk = Ok x /\ 0 < pp_rin p < pp_rout p /\ 0 < pp_k p /\ 0 < V /\ 0 < fl_rho f /\ 0 < fl_mu f /\ 0 < pr_h x /\
  pr_Rconv x <> film (pr_h x) (pp_rin p).
Proof.
  destruct (C134_single (fun _ _ _ _ _ _ _ => 1500) wall (fun _ _ _ => 1 / 10) (2 / 10) meg (75 / 1000) script_pipe 1 2 ltac:(cbn; lra) ltac:(split; cbn; lra)) as (x & E & H).
  exists (fun _ _ _ _ _ _ _ => 1500), (fun _ _ _ => 1 / 10), (2 / 10), meg, (75 / 1000), script_pipe, 1, 2, x.
  split; [exact E|]. do 5 (split; [cbn; lra|]). destruct H as (_ & _ & H1 & _). split; [rewrite H1; unfold film_coefficient; lra|].
  intro C.   assert (U : usable meg) by (split; cbn; lra). assert (Pp : 0 < pp_rin script_pipe) by (cbn; lra).
  apply (proj1 (C134_convective_partial _ _ _ _ _ _ _ _ _ _ Pp U E)) in C.
  unfold wall in C. pose proof PI_RGT_0 as P. cbn [pp_rin pp_rout pp_k script_pipe] in C.
  assert (0 < ln (133 / 10000 / (108 / 10000))) by (rewrite <- ln_1; apply ln_increasing; lra).
  assert (0 < ln (133 / 10000 / (108 / 10000)) / (2 * PI * (4 / 10))) by (apply Rdiv_lt_0_compat; lra). lra.
Qed.

(** the numbers printed for a coaxial exchanger; the Reynolds number is the one of a pipe as wide as the outer pipe from outside *)
Theorem C134_coaxial : forall h_circular h_annulus r_conduction eff_c V f q r_in_in r_in_out r_out_in r_out_out k_in k_out,
  cg_inner q = (r_in_in, r_in_out) -> cg_outer q = (r_out_in, r_out_out) -> cg_k q = (k_in, k_out) -> 0 < r_out_out -> usable f ->
  let h := snd (h_annulus (mass V f) r_in_out r_out_in (fl_mu f) (fl_rho f) (fl_k f) (fl_cp f) (cg_eps q)) in
  exists Rb, coaxial_script h_circular h_annulus r_conduction eff_c V f q =
    (pipe_reynolds (mass V f) r_out_out f, h, r_conduction r_out_in r_out_out k_out + film h r_out_in, Rb) /\
  exists g, Rb = eff_c g (mass V f) (fl_cp f) /\ pc_rin g = (r_in_in, r_out_in) /\ pc_rout g = (r_in_out, r_out_out) /\ pc_rb g = cg_rb q /\ pc_ks g = cg_soil_k q /\ pc_kg g = cg_grout_k q /\
    pc_Rfp g = r_conduction r_out_in r_out_out k_out + film h r_out_in.
Proof.
  intros hc ha rc ec V f q a b c d k1 k2 E1 E2 E3 Hd Hf h. unfold coaxial_script. cbv zeta. rewrite mass_eq.
  destruct (C66_coaxial_constructed hc ha rc (mass V f) f q a b c d k1 k2 E1 E2 E3) as (A1 & A2 & A3 & _ & _ & A4 & _ & _ & _ & _ & _ & _ & A5).
  rewrite A2, E2. cbn [snd]. rewrite re_pipe by assumption. assert (A6 : cb_h_a_out (coaxial_pipe hc ha rc (mass V f) f q) = h) by (unfold h; rewrite <- A4; reflexivity).
  rewrite A6, A5. cbn [pc_Rfp]. eexists. split; [reflexivity|]. unfold compute_effective_coaxial. cbn [default snd]. eexists. rewrite A1, A3, A5. split; [reflexivity|].
  repeat split.
Qed.
(** it is the Reynolds number of the annulus only if the radii bounding the annulus add up to that outer radius *)
Theorem C134_coaxial_reynolds_partial : forall h_circular h_annulus r_conduction eff_c V f q,
  0 < fst (cg_inner q) < snd (cg_inner q) -> snd (cg_inner q) < fst (cg_outer q) < snd (cg_outer q) -> usable f ->
  let Re := fst (fst (fst (coaxial_script h_circular h_annulus r_conduction eff_c V f q))) in
  Re * snd (cg_outer q) = annulus_reynolds (mass V f) (snd (cg_inner q)) (fst (cg_outer q)) f * (snd (cg_inner q) + fst (cg_outer q)) /\
  Re * snd (cg_outer q) = pipe_reynolds (mass V f) (fst (cg_inner q)) f * fst (cg_inner q) /\
  (mass V f <> 0 -> Re <> pipe_reynolds (mass V f) (fst (cg_inner q)) f) /\
  (mass V f <> 0 -> (Re = annulus_reynolds (mass V f) (snd (cg_inner q)) (fst (cg_outer q)) f <-> snd (cg_outer q) = snd (cg_inner q) + fst (cg_outer q))).
Proof.
  intros hc ha rc ec V f q H1 H2 Hf. destruct (cg_inner q) as (a, b) eqn:E1. destruct (cg_outer q) as (c, d) eqn:E2. destruct (cg_k q) as (k1, k2) eqn:E3. cbn [fst snd] in *.
  destruct (C134_coaxial hc ha rc ec V f q a b c d k1 k2 E1 E2 E3 ltac:(lra) Hf) as (Rb & -> & _). cbn [fst snd]. destruct Hf as (_ & Hm).
  pose proof PI_RGT_0 as P. set (m := mass V f). set (t := 2 * m / (PI * fl_mu f)).
  assert (X1 : pipe_reynolds m d f = t / d) by (unfold pipe_reynolds, reynolds, disc, t; field; repeat split; lra).
  assert (X2 : pipe_reynolds m a f = t / a) by (unfold pipe_reynolds, reynolds, disc, t; field; repeat split; lra).
  assert (X3 : annulus_reynolds m b c f = t / (b + c)).
  { unfold annulus_reynolds, reynolds, disc, t. replace (PI * c ^ 2 - PI * b ^ 2) with (PI * (c - b) * (b + c)) by ring. field. repeat split; try lra. replace (2 * PI * b + 2 * PI * c) with (2 * PI * (b + c)) by ring. nra. }
  assert (T : m <> 0 -> t <> 0).
  { intros N Z. apply N. unfold t in Z. replace m with (2 * m / (PI * fl_mu f) * (PI * fl_mu f / 2)) by (field; lra). rewrite Z. ring. }
  rewrite X1, X2, X3. split; [field; lra|]. split; [field; lra|].
  assert (Inj : forall x y, 0 < x -> 0 < y -> t <> 0 -> t / x = t / y -> x = y).
  { intros x y Hx Hy Ht E. apply Rmult_eq_reg_l with t; [|exact Ht]. replace (t * x) with (t / y * (x * y)) by (field; lra). rewrite <- E. field. lra. }
  split; [intros N E; specialize (Inj d a ltac:(lra) ltac:(lra) (T N) E); lra|].
  intros N. split; [intro E; exact (Inj d (b + c) ltac:(lra) ltac:(lra) (T N) E)|intros ->; reflexivity].
Qed.
(** with the radii of the script, the number printed is 1.34 times that of the annulus and 0.4 times that of the inner pipe *)
Definition script_coax : coax := {| cg_inner := (221 / 10000, 25 / 1000); cg_outer := (487 / 10000, 55 / 1000); cg_eps := 1 / 1000000; cg_k := (4 / 10, 4 / 10); cg_rhoCp := 1542000; cg_rb := 75 / 1000; cg_grout_k := 1; cg_soil_k := 2 |}.
Theorem C134_coaxial_reynolds_refuted : exists h_circular h_annulus r_conduction eff_c V f q,
  0 < fst (cg_inner q) < snd (cg_inner q) /\ snd (cg_inner q) < fst (cg_outer q) < snd (cg_outer q) /\ 0 < V /\ 0 < fl_rho f /\ 0 < fl_mu f /\
  let Re := fst (fst (fst (coaxial_script h_circular h_annulus r_conduction eff_c V f q))) in
  Re <> annulus_reynolds (mass V f) (snd (cg_inner q)) (fst (cg_outer q)) f /\ Re <> pipe_reynolds (mass V f) (fst (cg_inner q)) f.
Proof.
  exists (fun _ _ _ _ _ _ _ => 1500), (fun _ _ _ _ _ _ _ _ => (100, 100)), wall, (fun _ _ _ => 1 / 10), (2 / 10), meg, script_coax.
  do 5 (split; [cbn; lra|]).
  destruct (C134_coaxial_reynolds_partial (fun _ _ _ _ _ _ _ => 1500) (fun _ _ _ _ _ _ _ _ => (100, 100)) wall (fun _ _ _ => 1 / 10) (2 / 10) meg script_coax ltac:(cbn; lra) ltac:(cbn; lra) ltac:(split; cbn; lra)) as (_ & _ & A & B).
  assert (N : mass (2 / 10) meg <> 0) by (unfold mass; cbn; lra).
  cbv zeta. split; [|exact (A N)]. intro E. apply (B N) in E. cbn in E. lra.
Qed.

(** the curves of validation.py: one point per flow, in the order of the flows; [h], [rb] are the numbers of each flow *)
Theorem C134_curves : forall h_circular r_conduction eff_u flows f r_b ps pd gk sk, 0 < pp_rin ps -> 0 < pp_rin pd -> usable f ->
  exists s d, validation_u h_circular r_conduction eff_u flows f r_b ps pd gk sk = Ok (s, d) /\
  cv_V s = flows /\ cv_V d = flows /\
  cv_Re s = map (fun V => pipe_reynolds (mass V f) (pp_rin ps) f) flows /\ cv_Re d = map (fun V => pipe_reynolds (mass V f) (pp_rin ps) f / 2) flows /\
  Forall2 (fun V Rb => exists x, u_tube_printed h_circular r_conduction eff_u no_config 1 (mass V f) (mass V f) f r_b ps gk sk x /\ Rb = pr_Rb x) flows (cv_Rb s) /\
  Forall2 (fun V Rb => exists x, u_tube_printed h_circular r_conduction eff_u parallel (zlen (pp_pos pd) / 2) (mass V f) (mass V f / 2) f r_b pd gk sk x /\ Rb = pr_Rb x) flows (cv_Rb d).
Proof.
  intros h rc eu flows f r_b ps pd gk sk Hs Hd Hf. unfold validation_u.
  match goal with |- context [foldM ?f0 _ _] => set (step := f0) end.
  assert (G : forall flows s d, exists s' d', foldM step flows (s, d) = Ok (s', d') /\ exists rs rd,
    s' = {| cv_V := cv_V s ++ flows; cv_Rb := cv_Rb s ++ rs; cv_Re := cv_Re s ++ map (fun V => pipe_reynolds (mass V f) (pp_rin ps) f) flows |} /\
    d' = {| cv_V := cv_V d ++ flows; cv_Rb := cv_Rb d ++ rd; cv_Re := cv_Re d ++ map (fun V => pipe_reynolds (mass V f) (pp_rin ps) f / 2) flows |} /\
    Forall2 (fun V Rb => exists x, u_tube_printed h rc eu no_config 1 (mass V f) (mass V f) f r_b ps gk sk x /\ Rb = pr_Rb x) flows rs /\
    Forall2 (fun V Rb => exists x, u_tube_printed h rc eu parallel (zlen (pp_pos pd) / 2) (mass V f) (mass V f / 2) f r_b pd gk sk x /\ Rb = pr_Rb x) flows rd).
  2:{ destruct (G flows no_points no_points) as (s & d & E & rs & rd & -> & -> & F1 & F2). eexists _, _. split; [exact E|]. cbn. repeat split; assumption. }
  clear flows. induction flows as [|V flows IH]; intros s d.
  - exists s, d. split; [reflexivity|]. exists [], []. cbn. rewrite !app_nil_r. destruct s, d. repeat split; constructor.
  - destruct (made h rc eu no_config 1 (mass V f) (mass V f) f r_b ps gk sk eq_refl Hs Hf) as (b & E & Em & H).
    destruct (made h rc eu parallel (n_pipes pd) (mass V f) (mass V f / 2) f r_b pd gk sk eq_refl Hd Hf) as (b' & E' & Em' & H').
    assert (Es : step (s, d) V = Ok (add_point s V (pipe_reynolds (mass V f) (pp_rin ps) f) (pr_Rb (print_u eu f ps b)), add_point d V (pipe_reynolds (mass V f) (pp_rin ps) f / 2) (pr_Rb (print_u eu f pd b')))).
    { unfold step, single_u_tube, multiple_u_tube. rewrite mass_eq. cbv zeta. rewrite E. cbn [bind]. rewrite E'. cbn [bind]. rewrite Em, Em', !re_pipe by assumption.
      repeat f_equal. destruct Hf as (_ & Hm). unfold pipe_reynolds, reynolds, disc. pose proof PI_RGT_0. field. repeat split; lra. }
    cbn [foldM]. rewrite Es. cbn [bind].
    destruct (IH (add_point s V (pipe_reynolds (mass V f) (pp_rin ps) f) (pr_Rb (print_u eu f ps b))) (add_point d V (pipe_reynolds (mass V f) (pp_rin ps) f / 2) (pr_Rb (print_u eu f pd b'))))
      as (s' & d' & Ef & rs & rd & -> & -> & F1 & F2).
    eexists _, _. split; [exact Ef|]. exists (pr_Rb (print_u eu f ps b) :: rs), (pr_Rb (print_u eu f pd b') :: rd).
    cbn. repeat rewrite <- app_assoc. cbn [app]. split; [reflexivity|]. split; [reflexivity|].
    split; (constructor; [eexists; split; [eassumption|reflexivity]|assumption]).
Qed.
Theorem C134_coaxial_curve : forall h_circular h_annulus r_conduction eff_c flows f q,
  0 < snd (cg_inner q) < fst (cg_outer q) -> 0 < snd (cg_outer q) -> usable f -> let c := validation_c h_circular h_annulus r_conduction eff_c flows f q in
  cv_V c = flows /\ cv_Re c = map (fun V => annulus_reynolds (mass V f) (snd (cg_inner q)) (fst (cg_outer q)) f) flows /\
  cv_Rb c = map (fun V => snd (coaxial_script h_circular h_annulus r_conduction eff_c V f q)) flows.
Proof.
  intros hc ha rc ec flows f q H1 H2 Hf c.
  assert (G : forall flows c0, fold_left (fun c V => let b := coaxial_pipe hc ha rc (m_flow_borehole V f) f q in
      add_point c V (compute_Reynolds_concentric (cb_m_pipe b) (snd (cg_inner q)) (fst (cg_outer q)) f) (snd (compute_effective_coaxial ec None None b))) flows c0 =
    {| cv_V := cv_V c0 ++ flows; cv_Rb := cv_Rb c0 ++ map (fun V => snd (coaxial_script hc ha rc ec V f q)) flows;
       cv_Re := cv_Re c0 ++ map (fun V => annulus_reynolds (mass V f) (snd (cg_inner q)) (fst (cg_outer q)) f) flows |}).
  { clear flows c. induction flows as [|V flows IH]; intro c0; cbn [fold_left map]; [rewrite !app_nil_r; destruct c0; reflexivity|].
    cbv zeta. rewrite IH. unfold add_point. cbn [cv_V cv_Rb cv_Re]. repeat rewrite <- app_assoc. cbn [app].
    assert (E : cb_m_pipe (coaxial_pipe hc ha rc (m_flow_borehole V f) f q) = mass V f).
    { rewrite mass_eq. destruct (cg_inner q) as (a, b) eqn:E1, (cg_outer q) as (c, d) eqn:E2, (cg_k q) as (k1, k2) eqn:E3.
      destruct (C66_coaxial_constructed hc ha rc (mass V f) f q a b c d k1 k2 E1 E2 E3) as (_ & A & _). exact A. }
    rewrite E, re_annulus by assumption. reflexivity. }
  unfold c, validation_c. rewrite G. cbn. repeat split.
Qed.
(** along each curve the Reynolds numbers are in the order of the flows *)
Theorem C134_order : forall r ra rb f V W, 0 < r -> 0 < ra < rb -> 0 < fl_rho f -> 0 < fl_mu f ->
  (V < W <-> pipe_reynolds (mass V f) r f < pipe_reynolds (mass W f) r f) /\ (V < W <-> annulus_reynolds (mass V f) ra rb f < annulus_reynolds (mass W f) ra rb f).
Proof.
  intros r ra rb f V W Hr Hab Hrho Hmu. pose proof PI_RGT_0 as P.
  assert (L : forall k, 0 < k -> (V < W <-> mass V f * k < mass W f * k)).
  { intros k Hk. unfold mass. split; intro H.
    - apply Rmult_lt_compat_r; [exact Hk|]. apply Rmult_lt_compat_r; [lra|]. apply Rmult_lt_compat_r; assumption.
    - apply Rmult_lt_reg_r in H; [|exact Hk]. unfold Rdiv in H. apply Rmult_lt_reg_r in H; [|lra]. apply Rmult_lt_reg_r in H; assumption. }
  split.
  - rewrite (L (2 / (PI * r * fl_mu f))) by (apply Rdiv_lt_0_compat; [lra|apply Rmult_lt_0_compat; [apply Rmult_lt_0_compat|]; lra]).
    replace (pipe_reynolds (mass V f) r f) with (mass V f * (2 / (PI * r * fl_mu f))) by (unfold pipe_reynolds, reynolds, disc; field; repeat split; lra).
    replace (pipe_reynolds (mass W f) r f) with (mass W f * (2 / (PI * r * fl_mu f))) by (unfold pipe_reynolds, reynolds, disc; field; repeat split; lra). reflexivity.
  - rewrite (L (2 / (PI * (ra + rb) * fl_mu f))) by (apply Rdiv_lt_0_compat; [lra|apply Rmult_lt_0_compat; [apply Rmult_lt_0_compat|]; lra]).
    assert (X : forall m, annulus_reynolds m ra rb f = m * (2 / (PI * (ra + rb) * fl_mu f))).
    { intro m. unfold annulus_reynolds, reynolds, disc. replace (PI * rb ^ 2 - PI * ra ^ 2) with (PI * (rb - ra) * (ra + rb)) by ring. replace (2 * PI * ra + 2 * PI * rb) with (2 * PI * (ra + rb)) by ring. field. repeat split; lra. }
    rewrite !X. reflexivity.
Qed.

(** a better grout lowers the effective resistance *)
Definition grout_helps (eff_u : pg_u -> R -> R -> R) : Prop := forall g m cp x y, 0 < x <= y -> eff_u (with_grout y g) m cp <= eff_u (with_grout x g) m cp.
(** what is printed about the equivalent of a double U-tube: the flow that was given, the volumes of all legs of the original, and legs of
    the same volumes; its effective resistance is that of the original or the grout is at an end of its range *)
Definition equivalent_printed (h_circular : R -> R -> R -> R -> R -> R -> R -> R) (V : R) (f : fluid) (eps : R) (V_fluid V_pipe Rb tol : R) (x : equivalent) : Prop :=
  fst (fst (ev_original x)) = (V_fluid, V_pipe) /\ ev_flow x = V /\ 2 * disc (ev_rin x) = V_fluid /\ 2 * (disc (ev_rout x) - disc (ev_rin x)) = V_pipe /\ 0 < ev_s x /\
  ev_h x = h_circular (mass V f) (ev_rin x) (fl_mu f) (fl_rho f) (fl_k f) (fl_cp f) eps /\
  (Rabs (ev_Rb x - Rb) <= tol \/ (ev_kg x = 7 /\ Rb < ev_Rb x) \/ (ev_kg x = 1 / 100 /\ ev_Rb x < Rb)).
Lemma grout_end h rc eu br tol Rb m f r_b p gk sk e : settles tol br -> grout_helps eu ->
  match_effective_borehole_resistance h rc eu br Rb (tube h rc m f r_b p gk sk) = Ok e ->
  exists k, e = tube h rc m f r_b p k sk /\ let rb := snd (compute_effective_borehole_resistance eu None None e) in
  Rabs (rb - Rb) <= tol \/ (k = 7 /\ Rb < rb) \/ (k = 1 / 100 /\ rb < Rb).
Proof.
  intros Ht Hg E. assert (X : exists k, e = tube h rc m f r_b p k sk).
  { rewrite match_eq in E. destruct (snd _) as [k|]; [|discriminate]. exists k. cbn [bind] in E. now apply Ok_inj in E. }
  destruct X as (k & X). exists k. split; [exact X|].
  destruct (C81_grout h rc eu br Rb m f r_b p gk sk _ e (single_tube h rc m f r_b p gk sk) E) as (A1 & A2 & A3 & A4 & A5 & A6 & _).
  assert (K : ub_grout_k e = k) by (rewrite X; reflexivity). rewrite K in A3, A4, A5, A6. cbv zeta. rewrite A3.
  set (rb := fun k => eu (with_grout k (ub_pg (tube h rc m f r_b p gk sk))) m (fl_cp f)) in *. fold (rb k) in *. fold (rb (1 / 100)) in *. fold (rb 7) in *.
  pose proof (Hg (ub_pg (tube h rc m f r_b p gk sk)) m (fl_cp f) (1 / 100) 7 ltac:(lra)) as M. fold (rb 7) (rb (1 / 100)) in M.
  assert (N : rb (1 / 100) <> Rb /\ rb 7 <> Rb).
  { rewrite match_eq in E. rewrite (solve_root_cases br gk (fun k => Ok (Rb - eu (ub_pg (tube h rc m f r_b p k sk)) m (fl_cp f))) (1 / 100) 7 (Rb - rb (1 / 100)) (Rb - rb 7) eq_refl eq_refl) in E.
    destruct (Req_EM_T (Rb - rb (1 / 100)) 0); [discriminate E|]. destruct (Req_EM_T (Rb - rb 7) 0); [discriminate E|]. split; lra. }
  destruct (Rlt_le_dec Rb (rb 7)) as [B|B].
  - right. left. pose proof (A4 ltac:(lra) B) as ->. split; [reflexivity|exact B].
  - destruct (Rlt_le_dec Rb (rb (1 / 100))) as [C|C]; [left; apply (A6 tol Ht); right; lra|].
    right. right. pose proof (A5 ltac:(lra) ltac:(lra)) as ->. split; [reflexivity|lra].
Qed.
Lemma printed_of h rc eu V f r_b eps rhoCp Vf Vp k gk sk v Rb tol : 0 < r_b -> 0 < Vf -> 0 < Vp -> fl_rho f <> 0 ->
  fst (fst v) = (Vf, Vp) ->
  let p := eq_pipe r_b eps rhoCp Vf Vp k in let e := tube h rc (mass V f) f (fst (fit_borehole r_b (r_o_prime Vf Vp))) p gk sk in
  let rb := snd (compute_effective_borehole_resistance eu None None e) in
  (Rabs (rb - Rb) <= tol \/ (gk = 7 /\ Rb < rb) \/ (gk = 1 / 100 /\ rb < Rb)) ->
  equivalent_printed h V f eps Vf Vp Rb tol (print_equivalent eu v e).
Proof.
  intros Hb Hf Hp Hrho Hv p e rb H. destruct (fits_eq_pipe r_b eps rhoCp Vf Vp k Hb Hf Hp) as (A1 & A2 & (A3 & A3' & _) & _).
  unfold equivalent_printed, print_equivalent. cbn [ev_original ev_flow ev_rin ev_rout ev_s ev_h ev_kg ev_Rb].
  split; [exact Hv|]. split; [unfold e; cbn; unfold mass; field; exact Hrho|]. split; [exact A1|]. split; [exact A2|]. split; [exact A3'|]. split; [reflexivity|]. exact H.
Qed.
Theorem C134_double_to_single : forall h_circular r_conduction eff_u eff_c brentq tol V f r_b p gk sk x, settles tol brentq -> grout_helps eff_u ->
  0 < pp_rin p < pp_rout p -> 0 < r_b -> (2 <= length (pp_pos p))%nat -> usable f ->
  double_to_single_script h_circular r_conduction eff_u eff_c brentq V f r_b p gk sk = Ok x ->
  let n := IZR (zlen (pp_pos p) / 2) in
  exists y, u_tube_printed h_circular r_conduction eff_u parallel (zlen (pp_pos p) / 2) (mass V f) (mass V f / 2) f r_b p gk sk y /\
  equivalent_printed h_circular V f (pp_eps p) (2 * n * disc (pp_rin p)) (2 * n * (disc (pp_rout p) - disc (pp_rin p))) (pr_Rb y) tol x.
Proof.
  intros h rc eu ec br tol V f r_b p gk sk x Ht Hg Hr Hb Hl Hf E n. unfold double_to_single_script in E. rewrite mass_eq in E.
  destruct (made h rc eu parallel (n_pipes p) (mass V f) (mass V f / 2) f r_b p gk sk eq_refl ltac:(lra) Hf) as (b & Eb & Em & Hy).
  unfold multiple_u_tube in E. rewrite Eb in E. cbn [bind] in E. exists (print_u eu f p b). split; [exact Hy|].
  destruct (C66_constructed _ _ _ _ _ _ _ _ _ _ _ Eb) as (_ & Eub & Ef & _ & _ & _ & Eg).
  assert (Epp : ub_pipe b = p /\ ub_soil_k b = sk /\ ub_grout_k b = gk). { unfold make_u in Eb. cbn [compute_mass_flow_rate_pipe bind] in Eb. apply Ok_inj in Eb. rewrite <- Eb. repeat split. }
  destruct Epp as (Epp & Esk & Egk).
  assert (N : 1 <= n). { apply IZR_le. unfold zlen. assert ((2 <= Z.of_nat (length (pp_pos p)))%Z) by lia. apply Z.div_le_lower_bound; lia. }
  cbn [compute_equivalent] in E. unfold multiple_to_single in E.
  assert (Ev : exists Rc Rp, u_tube_volumes b = (2 * n * disc (pp_rin p), 2 * n * (disc (pp_rout p) - disc (pp_rin p)), Rc, Rp)).
  { unfold u_tube_volumes. rewrite Eg. cbn [pg_n pg_rin pg_rout]. rewrite mult_IZR. eexists _, _. unfold disc, n, n_pipes. f_equal. f_equal. f_equal; ring. }
  destruct Ev as (Rc & Rp & Ev). rewrite Ev in E. rewrite equivalent_eq in E. destruct (target_points _ _ _ _ _ _ _ _ _ _ _ _ _ _) as (pts, [z|]); [|discriminate]. cbn [bind] in E.
  rewrite Eub, Ef, Epp, Esk, Egk in E.
  match type of E with context [match_effective_borehole_resistance ?a ?b0 ?c ?d ?Rb ?t] => destruct (match_effective_borehole_resistance a b0 c d Rb t) as [e|] eqn:Ee; [|discriminate]; cbn [bind] in E;
    apply (grout_end h rc eu br tol) in Ee; [|exact Ht|exact Hg] end.
  apply Ok_inj in E. subst x. destruct Ee as (k & -> & H). rewrite Eg in *. cbn [pg_rb] in *.
  pose proof PI_RGT_0 as P. assert (D1 : 0 < disc (pp_rin p)) by (unfold disc; apply Rmult_lt_0_compat; [exact P|apply pow_lt; lra]).
  assert (D2 : disc (pp_rin p) < disc (pp_rout p)) by (unfold disc; apply Rmult_lt_compat_l; [exact P|nra]).
  apply printed_of; [exact Hb|apply Rmult_lt_0_compat; lra|apply Rmult_lt_0_compat; lra|exact (proj1 Hf)|reflexivity|exact H].
Qed.
Theorem C134_coaxial_to_single : forall h_circular h_annulus r_conduction eff_u eff_c brentq tol V f q x, settles tol brentq -> grout_helps eff_u ->
  0 < fst (cg_inner q) < snd (cg_inner q) -> snd (cg_inner q) < fst (cg_outer q) < snd (cg_outer q) -> 0 < cg_rb q -> usable f ->
  coaxial_to_single_script h_circular h_annulus r_conduction eff_u eff_c brentq V f q = Ok x ->
  equivalent_printed h_circular V f (cg_eps q) (disc (fst (cg_inner q)) + (disc (fst (cg_outer q)) - disc (snd (cg_inner q))))
    ((disc (snd (cg_inner q)) - disc (fst (cg_inner q))) + (disc (snd (cg_outer q)) - disc (fst (cg_outer q))))
    (snd (coaxial_script h_circular h_annulus r_conduction eff_c V f q)) tol x.
Proof.
  intros h ha rc eu ec br tol V f q x Ht Hg H1 H2 Hb Hf E. unfold coaxial_to_single_script in E. cbv zeta in E. rewrite mass_eq in E.
  unfold coaxial_script. cbv zeta. cbn [snd]. rewrite mass_eq.
  destruct (cg_inner q) as (a, bb) eqn:E1, (cg_outer q) as (c, d) eqn:E2, (cg_k q) as (k1, k2) eqn:E3. cbn [fst snd] in *.
  destruct (C66_coaxial_constructed h ha rc (mass V f) f q a bb c d k1 k2 E1 E2 E3) as (A1 & A2 & A3 & A4 & _).
  set (b := coaxial_pipe h ha rc (mass V f) f q) in *. clearbody b.
  cbn [compute_equivalent] in E. unfold coaxial_to_single in E.
  assert (Ev : exists Rc Rp, concentric_tube_volumes b = (disc a + (disc c - disc bb), (disc bb - disc a) + (disc d - disc c), Rc, Rp)).
  { unfold concentric_tube_volumes. rewrite A4, E1, E2. eexists _, _. unfold disc. f_equal. f_equal. f_equal; ring. }
  destruct Ev as (Rc & Rp & Ev). rewrite Ev in E. rewrite equivalent_eq in E. destruct (target_points _ _ _ _ _ _ _ _ _ _ _ _ _ _) as (pts, [z|]); [|discriminate]. cbn [bind] in E.
  rewrite A1, A3, A4 in E.
  match type of E with context [match_effective_borehole_resistance ?a ?b0 ?c ?d ?Rb ?t] => destruct (match_effective_borehole_resistance a b0 c d Rb t) as [e|] eqn:Ee; [|discriminate]; cbn [bind] in E;
    apply (grout_end h rc eu br tol) in Ee; [|exact Ht|exact Hg] end.
  apply Ok_inj in E. subst x. destruct Ee as (k & -> & H). pose proof PI_RGT_0 as P.
  assert (D : forall x y, 0 < x < y -> 0 < disc x < disc y). { intros u v Huv. unfold disc. split; [apply Rmult_lt_0_compat; [exact P|apply pow_lt; lra]|apply Rmult_lt_compat_l; [exact P|nra]]. }
  pose proof (D a bb ltac:(lra)). pose proof (D bb c ltac:(lra)). pose proof (D c d ltac:(lra)).
  apply printed_of; [exact Hb|lra|lra|exact (proj1 Hf)|reflexivity|exact H].
Qed.

(** the numbers of SingleUTube.py: 0.2 L/s through pipes of 21.6 mm *)
Example C134_single_example : exists x, single_script (fun _ _ _ _ _ _ _ => 1500) wall (fun _ _ _ => 1 / 10) (2 / 10) meg (75 / 1000) script_pipe 1 2 = Ok x /\
  pr_Re x = 500000 / (27 * PI) /\ pr_h x = 1500 /\ pr_Rconv x = 5 / (162 * PI) + pr_Rp x /\ 0 < pr_Rp x.
Proof.
  destruct (C134_single (fun _ _ _ _ _ _ _ => 1500) wall (fun _ _ _ => 1 / 10) (2 / 10) meg (75 / 1000) script_pipe 1 2 ltac:(cbn; lra) ltac:(split; cbn; lra)) as (x & E & H1 & H2 & H3 & H4 & _).
  exists x. split; [exact E|]. pose proof PI_RGT_0 as P. rewrite H1, H2, H3, H4. unfold pipe_reynolds, reynolds, disc, mass, film_coefficient, film, wall. cbn [pp_rin pp_rout pp_k script_pipe fl_mu fl_rho meg].
  split; [field; lra|]. split; [reflexivity|]. split; [f_equal; field; lra|]. apply Rdiv_lt_0_compat; [rewrite <- ln_1; apply ln_increasing; lra|lra].
Qed.
(** two points of validation.py *)
Example C134_curves_example : exists s d, validation_u (fun _ _ _ _ _ _ _ => 1500) wall (fun _ m _ => 1 / m) [3 / 10; 2 / 10] meg (75 / 1000) script_pipe script_pipe 1 2 = Ok (s, d) /\
  cv_V s = [3 / 10; 2 / 10] /\ cv_Re s = [pipe_reynolds (3 / 10) (108 / 10000) meg; pipe_reynolds (2 / 10) (108 / 10000) meg] /\ cv_Rb s = [10 / 3; 5].
Proof.
  destruct (C134_curves (fun _ _ _ _ _ _ _ => 1500) wall (fun _ m _ => 1 / m) [3 / 10; 2 / 10] meg (75 / 1000) script_pipe script_pipe 1 2 ltac:(cbn; lra) ltac:(cbn; lra) ltac:(split; cbn; lra)) as (s & d & E & A & _ & B & _ & C & _).
  exists s, d. split; [exact E|]. split; [exact A|]. rewrite B. cbn [map]. unfold mass. cbn [fl_rho meg pp_rin script_pipe].
  replace (3 / 10 * 1000 / 1000) with (3 / 10) by field. replace (2 / 10 * 1000 / 1000) with (2 / 10) by field. split; [reflexivity|].
  inversion C as [|? ? ? ? (x & (_ & _ & _ & _ & X) & ->) C1 C2]; subst. inversion C1 as [|? ? ? ? (y & (_ & _ & _ & _ & Y) & ->) D1 D2]; subst. inversion D1; subst.
  rewrite X, Y. unfold mass. cbn [fl_rho meg]. f_equal; [field|f_equal; field].
Qed.
(** an equivalent that is found: its resistance is that of the original *)
Example C134_double_to_single_example : grout_helps ex_eff /\ exists x, double_to_single_script ex_h wall ex_eff (fun _ _ _ => 0) ex_finder 1000 some_fluid 10 ex_pipe 1 1 = Ok x /\
  ev_flow x = 1000 /\ disc (ev_rin x) = 2 * PI /\ ev_Rb x = 1.
Proof.
  assert (G : grout_helps ex_eff).
  { intros g m cp x y H. unfold ex_eff. cbn. unfold Rdiv. rewrite !Rmult_1_l. apply Rinv_le_contravar; lra. }
  split; [exact G|]. destruct ex_equivalent as (e & E & _ & K).
  assert (S : double_to_single_script ex_h wall ex_eff (fun _ _ _ => 0) ex_finder 1000 some_fluid 10 ex_pipe 1 1 = Ok (print_equivalent ex_eff (u_tube_volumes ex_bhe) e)).
  { unfold double_to_single_script. replace (m_flow_borehole 1000 some_fluid) with 1 by (unfold m_flow_borehole; cbn; field).
    change (multiple_u_tube ex_h wall parallel 1 some_fluid 10 ex_pipe 1 1) with (Ok ex_bhe). cbn [bind]. rewrite E. reflexivity. }
  eexists. split; [exact S|].
  assert (H1 : 0 < pp_rin ex_pipe < pp_rout ex_pipe) by (cbn; lra). assert (H2 : (2 <= length (pp_pos ex_pipe))%nat) by (cbn; lia). assert (H3 : usable some_fluid) by (split; cbn; lra).
  destruct (C134_double_to_single _ _ _ _ _ 0 _ _ _ _ _ _ _ ex_settles G H1 (ltac:(lra) : 0 < 10) H2 H3 S) as (y & Y & _ & A & B & _ & _ & _ & D).
  split; [exact A|]. split; [unfold disc at 2 in B; change (zlen (pp_pos ex_pipe) / 2)%Z with 2%Z in B; cbn [pp_rin ex_pipe] in B; lra|].
  assert (Y1 : pr_Rb y = 1). { destruct Y as (_ & _ & _ & _ & ->). unfold ex_eff. cbn. field. }
  rewrite Y1 in D. cbn [ev_kg print_equivalent] in D. rewrite K in D. destruct D as [D|[(D & _)|(D & _)]]; [|exfalso; lra|exfalso; lra].
  pose proof (Rabs_pos (ev_Rb (print_equivalent ex_eff (u_tube_volumes ex_bhe) e) - 1)). apply Rminus_diag_uniq. destruct (Req_dec (ev_Rb (print_equivalent ex_eff (u_tube_volumes ex_bhe) e) - 1) 0) as [Z|Z]; [exact Z|].
  apply Rabs_pos_lt in Z. lra.
Qed.
(** a coaxial exchanger whose equivalent has both conductivities at the end of their ranges; the root finder is not asked *)
Example C134_coaxial_to_single_example : let q := {| cg_inner := (1, 2); cg_outer := (3, 4); cg_eps := 0; cg_k := (1, 1); cg_rhoCp := 1; cg_rb := 10; cg_grout_k := 1; cg_soil_k := 1 |} in
  exists x, coaxial_to_single_script (fun _ _ _ _ _ _ _ => 1) (fun _ _ _ _ _ _ _ _ => (1 / 1000, 1)) wall ex_eff (fun _ _ _ => 1 / 100) (fun _ _ _ => ([], Err ValueError)) 1000 some_fluid q = Ok x /\
  ev_flow x = 1000 /\ disc (ev_rin x) = 3 * PI /\ ev_kg x = 7 /\ ev_Rb x = 1 / 7.
Proof.
  intro q. set (h := fun _ _ _ _ _ _ _ : R => 1). set (ha := fun _ _ _ _ _ _ _ _ : R => (1 / 1000, 1)). set (br := fun (_ : R -> res R) (_ _ : R) => (@nil R, @Err R ValueError)).
  pose proof PI_RGT_0 as P. assert (IP : 0 < / PI) by now apply Rinv_0_lt_compat.
  set (b := coaxial_pipe h ha wall 1 some_fluid q).
  set (Rp := ln (4 / 3) / (2 * PI * 1)). set (Rc := 1 / (1 / 1000 * (PI * 2 * 3))).
  assert (Ev : concentric_tube_volumes b = (6 * PI, 10 * PI, Rc, Rp)). { unfold concentric_tube_volumes. cbn. unfold Rc, Rp. f_equal. f_equal. f_equal; ring. }
  assert (L : 0 < ln (4 / 3) < 1). { split; [rewrite <- ln_1; apply ln_increasing; lra|]. apply exp_lt_inv. rewrite exp_ln by lra. pose proof (exp_ineq1 1 ltac:(lra)). lra. }
  assert (ERc : Rc = / PI * (500 / 3)) by (unfold Rc; field; lra). assert (ERp : Rp = / PI * (ln (4 / 3) / 2)) by (unfold Rp; field; lra).
  assert (HRp : 0 < Rp < / PI / 2) by (rewrite ERp; split; nra).
  assert (Ri : r_i_prime (6 * PI) = sqrt 3) by (unfold r_i_prime; f_equal; field; lra). assert (S3 : 1 < sqrt 3) by (rewrite <- sqrt_1 at 1; apply sqrt_lt_1; lra).
  set (rf := film 1 (r_i_prime (6 * PI))). assert (Rf : rf < / PI).
  { unfold rf, film. rewrite Ri. replace (/ PI) with (1 / (PI * 1)) by (field; lra). unfold Rdiv. rewrite !Rmult_1_l. apply Rinv_lt_contravar; nra. }
  assert (HV1 : 0 < 6 * PI) by lra. assert (HV2 : 0 < 10 * PI) by lra.
  destruct (wall_prime (6 * PI) (10 * PI) Rp HV1 HV2 ltac:(lra)) as (K0 & Kw). set (k0 := k_p_prime (6 * PI) (10 * PI) Rp) in *.
  assert (S : exists x, coaxial_to_single_script h ha wall ex_eff (fun _ _ _ => 1 / 100) br 1000 some_fluid q = Ok x /\ ev_kg x = 7 /\ ev_Rb x = 1 / 7).
  { unfold coaxial_to_single_script. replace (m_flow_borehole 1000 some_fluid) with 1 by (unfold m_flow_borehole; cbn; field). fold b. cbv zeta. cbn [compute_equivalent]. unfold coaxial_to_single. rewrite Ev, equivalent_eq.
    unfold target_points. fold k0.
    rewrite (solve_root_cases br k0 _ (k0 / 100) (k0 * 10) _ _ (objective_value _ _ _ _ _ _ _ _ _ _ _ _ _ _ _) (objective_value _ _ _ _ _ _ _ _ _ _ _ _ _ _ _)).
    change (h _ _ _ _ _ _ _) with 1. fold rf. replace (k0 / 100) with (k0 * (1 / 100)) by field. rewrite !Kw by lra.
    assert (X1 : rf + 2 * Rp / (1 / 100) - (Rc + Rp) < 0) by lra. assert (X2 : rf + 2 * Rp / 10 - (Rc + Rp) < 0) by lra.
    destruct (Req_EM_T _ 0) as [Z|_]; [exfalso; lra|]. destruct (Req_EM_T _ 0) as [Z|_]; [exfalso; lra|].
    destruct (Rlt_dec _ 0) as [_|Z]; [|exfalso; lra]. destruct (Rlt_dec _ 0) as [_|Z]; [|exfalso; lra]. cbn [fst snd bind]. rewrite match_eq.
    set (o := fun k : R => _). assert (O : forall k, o k = Ok (1 / 100 - 1 / k)) by reflexivity.
    rewrite (solve_root_cases br _ o (1 / 100) 7 _ _ (O _) (O _)).
    replace (1 / 100 - 1 / (1 / 100)) with (1 / 100 - 100) by field.
    destruct (Req_EM_T _ 0) as [Z|_]; [exfalso; lra|]. destruct (Req_EM_T _ 0) as [Z|_]; [exfalso; lra|].
    destruct (Rlt_dec _ 0) as [_|Z]; [|exfalso; lra]. destruct (Rlt_dec _ 0) as [_|Z]; [|exfalso; lra]. cbn [snd bind]. eexists. split; [reflexivity|]. split; reflexivity. }
  destruct S as (x & S & S1 & S2). exists x. split; [exact S|].
  assert (Ht : settles 0 br) by (intros g lo up pts k E; discriminate E).
  assert (H1 : 0 < fst (cg_inner q) < snd (cg_inner q)) by (cbn; lra). assert (H2 : snd (cg_inner q) < fst (cg_outer q) < snd (cg_outer q)) by (cbn; lra). assert (H3 : 0 < cg_rb q) by (cbn; lra). assert (H4 : usable some_fluid) by (split; cbn; lra).
  destruct (C134_coaxial_to_single _ _ _ _ _ _ 0 _ _ _ _ Ht (proj1 C134_double_to_single_example) H1 H2 H3 H4 S) as (_ & A & B & _).
  split; [exact A|]. split; [|split; assumption]. cbn [cg_inner cg_outer fst snd q] in B. unfold disc at 2 3 4 in B. lra.
Qed.

Print Assumptions C134_single.
Print Assumptions C134_double.
Print Assumptions C134_convective_partial.
Print Assumptions C134_convective_refuted.
Print Assumptions C134_coaxial.
Print Assumptions C134_coaxial_reynolds_partial.
Print Assumptions C134_coaxial_reynolds_refuted.
Print Assumptions C134_curves.
Print Assumptions C134_coaxial_curve.
Print Assumptions C134_order.
Print Assumptions C134_double_to_single.
Print Assumptions C134_coaxial_to_single.
