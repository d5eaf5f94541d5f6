(** Vocabulary of C123 and C124: the same plant with all temperatures shifted, and with heating and cooling exchanged *)
From Coq Require Import List Reals.
From Verif Require Import Base Num System.
Import ListNotations.
Open Scope R_scope.

(** ** all temperatures [d] degrees higher: the ground and the limits of the entering fluid temperature *)
Definition warmer (d : R) (st : settings) : settings :=
  {| st_class := st_class st; st_fluid := st_fluid st; st_rb := st_rb st; st_D := st_D st; st_grout_k := st_grout_k st; st_grout_rhoCp := st_grout_rhoCp st;
     st_soil_k := st_soil_k st; st_soil_rhoCp := st_soil_rhoCp st; st_ugt := st_ugt st + d;
     st_start := st_start st; st_end := st_end st; st_max_EFT := st_max_EFT st + d; st_min_EFT := st_min_EFT st + d;
     st_max_H := st_max_H st; st_min_H := st_min_H st; st_loads := st_loads st |}.
(** the same heat exchanger with fluid temperatures [d] degrees higher *)
Definition warmer_ghe (d : R) (s : ghe) : ghe := with_results s (map (fun t => t + d) (fst (gh_results s)), snd (gh_results s)).

(** ** heating and cooling exchanged: the hourly loads change sign, and the limits of the entering fluid temperature are reflected
    at the temperature of the ground *)
Definition mirrored (st : settings) : settings :=
  {| st_class := st_class st; st_fluid := st_fluid st; st_rb := st_rb st; st_D := st_D st; st_grout_k := st_grout_k st; st_grout_rhoCp := st_grout_rhoCp st;
     st_soil_k := st_soil_k st; st_soil_rhoCp := st_soil_rhoCp st; st_ugt := st_ugt st;
     st_start := st_start st; st_end := st_end st; st_max_EFT := 2 * st_ugt st - st_min_EFT st; st_min_EFT := 2 * st_ugt st - st_max_EFT st;
     st_max_H := st_max_H st; st_min_H := st_min_H st; st_loads := map Ropp (st_loads st) |}.
(** the same heat exchanger with the load sequence negated, fluid temperatures reflected at [ugt] and wall temperature changes negated *)
Definition mirrored_ghe (ugt : R) (s : ghe) : ghe :=
  {| gh_B := gh_B s; gh_nbh := gh_nbh s; gh_H := gh_H s; gh_bhe := gh_bhe s; gh_eq := gh_eq s; gh_ts := gh_ts s; gh_sts := gh_sts s;
     gh_gf := gh_gf s; gh_load := map Ropp (gh_load s); gh_hour := gh_hour s;
     gh_results := (map (fun t => 2 * ugt - t) (fst (gh_results s)), map Ropp (snd (gh_results s))) |}.

(** ** other limits of the entering fluid temperature *)
Definition with_limits (hi lo : R) (st : settings) : settings :=
  {| st_class := st_class st; st_fluid := st_fluid st; st_rb := st_rb st; st_D := st_D st; st_grout_k := st_grout_k st; st_grout_rhoCp := st_grout_rhoCp st;
     st_soil_k := st_soil_k st; st_soil_rhoCp := st_soil_rhoCp st; st_ugt := st_ugt st;
     st_start := st_start st; st_end := st_end st; st_max_EFT := hi; st_min_EFT := lo;
     st_max_H := st_max_H st; st_min_H := st_min_H st; st_loads := st_loads st |}.
