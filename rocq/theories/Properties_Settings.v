(** Property C67 (and C66) for the heat exchanger that a design makes: what the settings say reaches it *)
From Coq Require Import ZArith List Bool Reals Lra Lia.
From Verif Require Import Base Num BaseLemmas Radial Bhe Equiv EquivSpec EquivProofs Properties_Equiv System SystemSpec Properties_System.
Import ListNotations.
Open Scope R_scope.

(** one U-tube carries the flow of the borehole, U-tubes of a multiple exchanger are in parallel and each carries half of it *)
Theorem C67_exchanger_of_a_design :
  forall h_circular h_annulus r_conduction st m b, make_bhe h_circular h_annulus r_conduction st m = Ok b ->
  let f := st_fluid st in
  let holds u p (q : R) n c := ub_m u = m /\ ub_m_pipe u = q /\ ub_fluid u = f /\
    exists Rf, Rf = film (h_circular q (pp_rin p) (fl_mu f) (fl_rho f) (fl_k f) (fl_cp f) (pp_eps p)) (pp_rin p) /\
    ub_pg u = {| pg_pos := pp_pos p; pg_rin := pp_rin p; pg_rout := pp_rout p; pg_rb := st_rb st; pg_ks := st_soil_k st; pg_kg := st_grout_k st;
      pg_Rfp := Rf + r_conduction (pp_rin p) (pp_rout p) (pp_k p); pg_n := n; pg_config := c |} in
  match st_class st with
  | SingleUTube p => exists u, b = Single u /\ holds u p m 1%Z no_config
  | MultipleUTube p => exists u, b = Multiple u /\ holds u p (m / 2) (Z.of_nat (length (pp_pos p)) / 2)%Z parallel
  | CoaxialPipe (r1, r2) (r3, r4) eps (k1, k2) rhoCp => exists u, b = Coaxial u /\ cb_m u = m /\ cb_m_pipe u = m /\ cb_fluid u = f /\
      let h := h_circular m r1 (fl_mu f) (fl_rho f) (fl_k f) (fl_cp f) eps in
      let ha := h_annulus m r2 r3 (fl_mu f) (fl_rho f) (fl_k f) (fl_cp f) eps in
      cb_pg u = {| pc_rin := (r1, r3); pc_rout := (r2, r4); pc_rb := st_rb st; pc_ks := st_soil_k st; pc_kg := st_grout_k st;
        pc_Rff := film h r1 + r_conduction r1 r2 k1 + film (fst ha) r2; pc_Rfp := r_conduction r3 r4 k2 + film (snd ha) r3 |}
  end.
Proof.
  intros hc ha rc st m b E f holds. unfold make_bhe in E. destruct (st_class st) as [p|p|(r1, r2) (r3, r4) eps (k1, k2) rhoCp].
  - apply bind_ok in E. destruct E as (u & Eu & E). apply Ok_inj in E. subst b. exists u. split; [reflexivity|].
    destruct (C66_constructed _ _ _ _ _ _ _ _ _ _ _ Eu) as (A & B & C & D & F & G & P). apply Ok_inj in A. unfold holds.
    rewrite P, F, G, D, <- A, B, C. repeat split. eexists. split; reflexivity.
  - apply bind_ok in E. destruct E as (u & Eu & E). apply Ok_inj in E. subst b. exists u. split; [reflexivity|].
    destruct (C66_constructed _ _ _ _ _ _ _ _ _ _ _ Eu) as (A & B & C & D & F & G & P). apply Ok_inj in A. unfold holds.
    rewrite P, F, G, D, <- A, B, C. repeat split. eexists. split; reflexivity.
  - apply Ok_inj in E. subst b. eexists. split; [reflexivity|].
    destruct (C66_coaxial_constructed hc ha rc m f {| cg_inner := (r1, r2); cg_outer := (r3, r4); cg_eps := eps; cg_k := (k1, k2); cg_rhoCp := rhoCp;
      cg_rb := st_rb st; cg_grout_k := st_grout_k st; cg_soil_k := st_soil_k st |} r1 r2 r3 r4 k1 k2 eq_refl eq_refl eq_refl)
      as (A & B & C & _ & _ & _ & _ & _ & _ & _ & _ & _ & P). auto.
Qed.
(** the settings of [plant] with another kind of heat exchanger *)
Definition plant_with (c : bhe_class) : settings :=
  let st := plant 35 5 200 20 in
  {| st_class := c; st_fluid := st_fluid st; st_rb := st_rb st; st_D := st_D st; st_grout_k := st_grout_k st; st_grout_rhoCp := st_grout_rhoCp st;
     st_soil_k := st_soil_k st; st_soil_rhoCp := st_soil_rhoCp st; st_ugt := st_ugt st; st_start := st_start st; st_end := st_end st;
     st_max_EFT := st_max_EFT st; st_min_EFT := st_min_EFT st; st_max_H := st_max_H st; st_min_H := st_min_H st; st_loads := st_loads st |}.
(** each of the three kinds is made: the flow of 1 kg/s is halved in the double U-tube only, whose tubes are in parallel *)
Example C67_exchanger_example : exists u1 u2 u3,
  make_bhe plant_film plant_annulus plant_wall (plant 35 5 200 20) 1 = Ok (Single u1) /\
  make_bhe plant_film plant_annulus plant_wall (plant_with (MultipleUTube plant_pipe)) 1 = Ok (Multiple u2) /\
  make_bhe plant_film plant_annulus plant_wall (plant_with (CoaxialPipe (1 / 50, 1 / 40) (1 / 20, 3 / 50) 0 (2 / 5, 2 / 5) 1542000)) 1 = Ok (Coaxial u3) /\
  ub_m_pipe u1 = 1 /\ ub_m_pipe u2 = 1 / 2 /\ pg_config (ub_pg u2) = parallel /\ cb_m_pipe u3 = 1.
Proof. do 3 eexists. do 3 (split; [reflexivity|]). cbn. repeat split; try reflexivity; lra. Qed.

Print Assumptions C67_exchanger_of_a_design.
