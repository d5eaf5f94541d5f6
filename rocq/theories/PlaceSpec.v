(** What it means that two fields differ only in where their boreholes are *)
From Coq Require Import ZArith List Bool Reals.
From Verif Require Import Base Num GFun System.
Import ListNotations.
Open Scope R_scope.

(** as many boreholes, and pygfunction answers the same for both at every flow, height, depth and radius *)
Definition same_response (field_response : R -> list (R * R) -> R -> R -> R -> res (list R)) (c c' : list (R * R)) : Prop :=
  length c = length c' /\ forall flow H D rb, field_response flow c' H D rb = field_response flow c H D rb.

(** the heat exchanger with its boreholes at c', whose first two are B' apart: everything else stays *)
Definition moved (B' : R) (c' : list (R * R)) (s : ghe) : ghe :=
  {| gh_B := B'; gh_nbh := gh_nbh s; gh_H := gh_H s; gh_bhe := gh_bhe s; gh_eq := gh_eq s; gh_ts := gh_ts s; gh_sts := gh_sts s;
     gh_gf := {| gf_B := B'; gf_curves := gf_curves (gh_gf s); gf_log_time := gf_log_time (gh_gf s); gf_locations := c'; gf_table := gf_table (gh_gf s) |};
     gh_load := gh_load s; gh_hour := gh_hour s; gh_results := gh_results s |}.
