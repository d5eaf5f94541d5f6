(** Properties C115, C116 and the positive half of C16: candidate fields and whole designs with doubles, coordinates and temperatures alike.
    [bval] is the real number a double stands for (Float64.v); [real_field] a field of doubles read as real numbers (BinaryGrid.v). *)
From Coq Require Import ZArith QArith Reals SpecFloat List Bool Lia Lra.
From Verif Require Import Base Num Order BaseLemmas Utilities Coordinates Spec Domains Search SearchSpec SearchProofs SearchTheorems SearchNested Properties_Search
  Float64 Binary64 BinaryGrid BinaryDomains Properties_Float Design DesignProofs.
Import ListNotations.
Open Scope R_scope.

Lemma p50 : p2 (-50) = 8 * u64.
Proof. unfold u64. change (-50)%Z with (3 + -53)%Z. rewrite p2_add, (p2_Z 3) by lia. reflexivity. Qed.

(** ** C16: the nested rectangular candidates *)
(** for ordinary lengths the candidates are always produced; each has a borehole and stays within the land up to a relative 2^-50.  In the i-th
    domain (from 0) the spacing is at least the minimum times 1 - 1/(i+2), up to a relative 2^-20: in the first domain perhaps only half *)
Theorem C16_binary64_spacing_partial :
  forall lx ly bmin bmax_x bmax_y : b64, ordinary_lengths lx ly bmin bmax_x -> ordinary_lengths lx ly bmin bmax_y ->
  exists dd, bi_rectangle_nested lx ly bmin bmax_x bmax_y = Ok dd /\
  forall i d f, nth_error dd i = Some d -> In f d -> (1 <= zlen f)%Z /\
    inside (bval lx * (1 + p2 (-50))) (bval ly * (1 + p2 (-50))) (real_field f) /\
    separated (bval bmin * (1 - / INR (i + 2)) * (1 - p2 (-20))) (real_field f).
Proof. intros lx ly bmin bx by_ H1 H2. rewrite p50. exact (bi_rectangle_nested64 lx ly bmin bx by_ H1 H2). Qed.
(** 50 m by 20 m, spacings from 4.5 m to 4.6 m: one domain, of 5 rows *)
Example C16_binary64_example : ordinary_lengths (b64_lit 50 1) (b64_lit 20 1) (b64_lit 45 10) (b64_lit 46 10) /\
  (let! dd := bi_rectangle_nested (b64_lit 50 1) (b64_lit 20 1) (b64_lit 45 10) (b64_lit 46 10) (b64_lit 51 10) in Ok (map (map zlen) dd)) =
  Ok [[1; 2; 3; 4; 5; 6; 7; 8; 9; 10; 11; 12; 24; 36; 48; 60]]%Z.
Proof. split; [exact ordinary_case|vm_compute; reflexivity]. Qed.

(** ** C115: the rectangular candidates grow *)
Theorem C115_rectangular_grows :
  forall (lx ly bmin bmax : b64) d, ordinary_lengths lx ly bmin bmax -> rectangular lx ly bmin bmax = Ok d ->
  strictly_increasing (sizes d) /\ (d = [] \/ exists r, d = [(S754_zero false, S754_zero false)] :: r).
Proof. exact rectangular_grows64. Qed.
Example C115_example : (let! d := rectangular (b64_lit 20 1) (b64_lit 50 1) (b64_lit 21 10) (b64_lit 23 10) in Ok (map zlen d)) =
  Ok [1; 2; 3; 4; 5; 6; 7; 8; 9; 10; 11; 12; 13; 14; 15; 16; 17; 18; 19; 20; 21; 22; 23; 46; 69; 92; 115; 138; 161; 184; 207; 240]%Z.
Proof. vm_compute. reflexivity. Qed.

(** ** C116: designs *)
Section Designs64.
Variable build : list (b64 * b64) -> F64 -> res unit.
Variable excess : list (b64 * b64) -> F64 -> res b64.    (* excess temperature of a field at a height: any double, infinities and nan included *)
Variable sized : list (b64 * b64) -> res F64.
Variable minH maxH : F64.
Notation design := (design build (sim64 _ excess) sized minH maxH).

(** the excess is a negative (positive) finite double *)
Definition below (c : list (b64 * b64)) (H : F64) : Prop := exists x, excess c H = Ok x /\ finite64 x = true /\ bval x < 0.
Definition above (c : list (b64 * b64)) (H : F64) : Prop := exists x, excess c H = Ok x /\ finite64 x = true /\ 0 < bval x.

Lemma adequate_below c : adequate (sim64 _ excess) maxH c <-> below c maxH.
Proof.
  split.
  - intros (q & Hq & Hl). apply sim64_fin in Hq. exists (proj1_sig q). split; [exact Hq|]. split; [exact (proj2_sig q)|exact Hl].
  - intros (x & Hx & Fx & Hl). exists (exist _ x Fx). split; [now apply sim64_fin|exact Hl].
Qed.
Lemma shallow_below c : adequate_shallow (sim64 _ excess) minH maxH c <-> below c minH /\ above c maxH.
Proof.
  split.
  - intros (q & q' & Hq & Hl & Hq' & Hl'). apply sim64_fin in Hq, Hq'.
    split; [exists (proj1_sig q)|exists (proj1_sig q')]; (split; [assumption|]); (split; [apply proj2_sig|assumption]).
  - intros ((x & Hx & Fx & Hl) & x' & Hx' & Fx' & Hl'). exists (exist _ x Fx), (exist _ x' Fx'). repeat split; try (now apply sim64_fin); assumption.
Qed.

Lemma rectangle_eq64 gc lx ly bmin bmax H : gc_length gc = Some lx -> gc_width gc = Some ly -> gc_B_min gc = Some bmin -> gc_B_max_x gc = Some bmax ->
  design gc rectangle_routine H = let! d := rectangular lx ly bmin bmax in bisection_1d build (sim64 _ excess) minH maxH d H.
Proof.
  intros E1 E2 E3 E4. unfold Design.design, design_init, check_inputs, not_none, number. rewrite E1, E2, E3, E4. cbn [assert_ bind].
  destruct (rectangular lx ly bmin bmax); reflexivity.
Qed.

(** the selected field of a rectangle design *)
Theorem C116_rectangle_design :
  forall gc lx ly bmin bmax H r s', gc_length gc = Some lx -> gc_width gc = Some ly -> gc_B_min gc = Some bmin -> gc_B_max_x gc = Some bmax ->
  ordinary_lengths lx ly bmin bmax -> design gc rectangle_routine H = Ok (r, s') ->
  exists k c, r = Some (k, c) /\ ghe _ s' = (c, maxH) /\ (1 <= length c)%nat /\
    inside (bval lx * (1 + p2 (-50))) (bval ly * (1 + p2 (-50))) (real_field c) /\ separated (bval bmin * (1 - p2 (-20))) (real_field c) /\
    (below c maxH \/ c = [(S754_zero false, S754_zero false)] /\ below c minH /\ above c maxH).
Proof.
  intros gc lx ly bmin bmax H r s' E1 E2 E3 E4 HO E. rewrite (rectangle_eq64 gc lx ly bmin bmax H E1 E2 E3 E4) in E.
  destruct (C114_rectangular lx ly bmin bmax HO) as (d & Ed & Hd). rewrite Ed in E. cbn [bind] in E.
  destruct (rectangular_grows64 lx ly bmin bmax d HO Ed) as (_ & Hfirst).
  apply one_domain_selection in E as (k & c & -> & Hc & Hk & Hg & Hf). pose proof (nth_error_In _ _ Hc) as Hin. destruct (Hd c Hin) as (Z1 & I & S).
  exists k, c. split; [reflexivity|]. split; [exact Hg|]. split; [unfold zlen in Z1; lia|]. split; [exact I|]. split; [exact S|].
  destruct Hf as [Hf|(-> & Hf)]; [left; now apply adequate_below|right]. apply shallow_below in Hf.
  split; [|exact Hf]. destruct Hfirst as [->|(rest & ->)]; [destruct Hin|]. now injection Hc as <-.
Qed.

(** if the excess is a finite double at every candidate and smaller for more boreholes, no adequate candidate has fewer boreholes *)
Theorem C116_rectangle_fewest :
  forall gc lx ly bmin bmax H k c s' d, gc_length gc = Some lx -> gc_width gc = Some ly -> gc_B_min gc = Some bmin -> gc_B_max_x gc = Some bmax ->
  ordinary_lengths lx ly bmin bmax -> rectangular lx ly bmin bmax = Ok d -> (zlen d <= 32769)%Z ->
  (forall f, In f d -> exists x, excess f maxH = Ok x /\ finite64 x = true) ->
  (forall f f' x x', In f d -> In f' d -> (length f < length f')%nat -> excess f maxH = Ok x -> excess f' maxH = Ok x' -> bval x' < bval x) ->
  ~ (below [(S754_zero false, S754_zero false)] minH /\ above [(S754_zero false, S754_zero false)] maxH) ->
  design gc rectangle_routine H = Ok (Some (k, c), s') ->
  below c maxH /\ forall f, In f d -> below f maxH -> (length c <= length f)%nat.
Proof.
  intros gc lx ly bmin bmax H k c s' d E1 E2 E3 E4 HO Ed Hn Hfin Hbet Hdeep E. rewrite (rectangle_eq64 gc lx ly bmin bmax H E1 E2 E3 E4), Ed in E. cbn [bind] in E.
  destruct (rectangular_grows64 lx ly bmin bmax d HO Ed) as (Hs & Hfirst).
  destruct (one_domain_smallest build (sim64 _ excess) minH maxH d H k c s' E Hs Hn) as (A & M).
  - intros f f' q q' Hf Hf' Hlen Hq Hq'. apply sim64_fin in Hq, Hq'. exact (Hbet f f' _ _ Hf Hf' Hlen Hq Hq').
  - intros f Hf. destruct (Hfin f Hf) as (x & Hx & Fx). exists (exist _ x Fx). now apply sim64_fin.
  - intros f H0 q q' Hq Hq' Hl. destruct Hfirst as [->|(rest & ->)]; [discriminate|]. injection H0 as <-.
    destruct (Rle_or_lt (val q') 0) as [Hle|Hgt]; [exact Hle|exfalso; apply Hdeep]. apply shallow_below. exists q, q'. auto.
  - split; [now apply adequate_below|]. intros f Hf Hb. apply M; [exact Hf|now apply adequate_below].
Qed.

(** the selected field of a bi-rectangle design; the spacing may fall to half the minimum (C16) *)
Theorem C116_bi_rectangle_design_partial :
  forall gc lx ly bmin bmax_x bmax_y H r s', gc_length gc = Some lx -> gc_width gc = Some ly -> gc_B_min gc = Some bmin ->
  gc_B_max_x gc = Some bmax_x -> gc_B_max_y gc = Some bmax_y ->
  ordinary_lengths lx ly bmin bmax_x -> ordinary_lengths lx ly bmin bmax_y -> design gc bi_rectangle H = Ok (r, s') ->
  exists k c, r = Some (k, c) /\ ghe _ s' = (c, maxH) /\ (1 <= length c)%nat /\
    inside (bval lx * (1 + p2 (-50))) (bval ly * (1 + p2 (-50))) (real_field c) /\ separated (bval bmin / 2 * (1 - p2 (-20))) (real_field c) /\
    (below c maxH \/ k = 0%Z /\ below c minH /\ above c maxH).
Proof.
  intros gc lx ly bmin bx by_ H r s' E1 E2 E3 E4 E5 HO1 HO2 E.
  unfold Design.design, design_init, check_inputs, not_none, number in E. rewrite E1, E2, E3, E4, E5 in E. cbn [assert_ bind] in E.
  destruct (C16_binary64_spacing_partial lx ly bmin bx by_ HO1 HO2) as (dd & Ed & Hdd). rewrite Ed in E. cbn [bind find_design] in E.
  apply bisection_2d_ok in E as (k & s & Ht & E).
  destruct (C31_nested_search_is_two_searches _ build (sim64 _ excess) minH maxH dd 15 s s' k r E Ht) as (outer & inner & co & k2 & c2 & _ & _ & Ei & Eo & -> & Ec & Eg & _).
  apply py_nth_In in Ei. apply In_nth_error in Ei as (i & Ei). pose proof (nth_error_In _ _ Ec) as Hc. destruct (Hdd i inner c2 Ei Hc) as (Z1 & I & S).
  exists k2, c2. split; [reflexivity|]. split; [exact Eg|]. split; [unfold zlen in Z1; lia|]. split; [exact I|]. split.
  - eapply separated_weaken; [|exact S]. assert (P : p2 (-20) = / 1048576) by (rewrite p2_neg by lia; reflexivity).
    apply Rmult_le_compat_r; [rewrite P; lra|]. destruct HO1 as (_ & (_ & _ & (Rb & _) & _) & _). pose proof (p2_pos (-300)).
    assert (/ INR (i + 2) <= / 2). { apply Rinv_le_contravar; [lra|]. rewrite plus_INR. pose proof (pos_INR i). cbn. lra. } nra.
  - specialize (Eo (c2, maxH)). destruct (search _ build (sim64 _ excess) minH maxH 15 (start _ inner (c2, maxH))) as [o s2] eqn:Es. cbn [fst] in Eo. subst o.
    destruct (selected_feasible _ build (sim64 _ excess) minH maxH 15 _ _ _ Es eq_refl) as (k' & c' & [= <- <-] & _ & _ & _ & Hf).
    destruct Hf as [(q & Hq & Hl)|(-> & q & q' & Hq & Hl & Hq' & Hl')]; [left; apply adequate_below; exists q; auto|right].
    split; [reflexivity|]. apply shallow_below. exists q, q'. auto.
Qed.

(** ordinary length and spacing of a near-square design *)
Definition ordinary_side (l b : b64) : Prop :=
  finite64 l = true /\ finite64 b = true /\ p2 (-300) <= bval b <= p2 300 /\ 0 <= bval l <= p2 300 /\ bval l <= p2 30 * bval b.
(** the number of boreholes and the candidates exist; square and near-square grids *)
Lemma near_square64 l b : ordinary_side l b ->
  exists n d, number_of_boreholes l b false = Ok n /\ (1 <= n)%Z /\ square_and_near_square 1 n b = Ok d /\
  forall c, In c d -> (exists i j, rectangle i j b b = Ok c /\ (j = i \/ j = i + 1)%Z /\ (1 <= i <= n)%Z) /\ (1 <= zlen c)%Z /\
    inside (bval l * (1 + p2 (-50))) ((bval l + bval b) * (1 + p2 (-50))) (real_field c) /\ separated (bval b * (1 - p2 (-21))) (real_field c).
Proof.
  intros (Fl & Fb & Rb & Rl & M). pose proof small_u as [U0 U1]. pose proof (p2_pos (-300)) as P3. pose proof (p2_pos 30) as P30.
  assert (X : bval l / bval b <= p2 30) by (apply (Rmult_le_reg_r (bval b)); [lra|]; replace (bval l / bval b * bval b) with (bval l) by (field; lra); lra).
  assert (X0 : 0 <= bval l / bval b) by (apply Rmult_le_pos; [lra|apply Rlt_le, Rinv_0_lt_compat; lra]).
  assert (E30 : p2 30 = 1073741824) by (rewrite p2_Z by lia; reflexivity). assert (E52 : p2 52 = 4503599627370496) by (rewrite p2_Z by lia; reflexivity).
  destruct (number_down64 l b Fl Fb ltac:(lra) ltac:(lra) ltac:(lra)) as (n & En & Hn).
  pose proof (Rfloor_spec (bval l / bval b)) as (S1 & S2). pose proof (Rfloor_ge (bval l / bval b) 0) as F0.
  assert (Z0 : (0 <= Rfloor (bval l / bval b))%Z) by (apply F0; exact X0).
  assert (Z1 : (Rfloor (bval l / bval b) <= 1073741824)%Z) by (apply le_IZR; lra).
  assert (Row : IZR (n - 1) * bval b <= bval l * (1 + 4 * u64)).
  { destruct Hn as [->|(_ & Hn)].
    - replace (Rfloor (bval l / bval b) + 1 - 1)%Z with (Rfloor (bval l / bval b)) by lia.
      apply (Rmult_le_compat_r (bval b)) in S1; [|lra]. replace (bval l / bval b * bval b) with (bval l) in S1 by (field; lra). nra.
    - nra. }
  exists n. assert (Hn1 : (1 <= n <= 1073741826)%Z) by (destruct Hn as [->|(-> & _)]; lia).
  unfold square_and_near_square. replace (n <? 1)%Z with false by (symmetry; apply Z.ltb_ge; lia). cbn [Z.ltb Z.compare orb raise_if bind Pos.compare Pos.compare_cont].
  set (G := fun c => (exists i j, rectangle i j b b = Ok c /\ (j = i \/ j = i + 1)%Z /\ (1 <= i <= n)%Z) /\ (1 <= zlen c)%Z /\
    inside (bval l * (1 + p2 (-50))) ((bval l + bval b) * (1 + p2 (-50))) (real_field c) /\ separated (bval b * (1 - p2 (-21))) (real_field c)).
  destruct (mapM_forall (fun i => mapM (fun j => rectangle i (i + j) b b) (zrange 0 2)) (Forall G) (zrange 1 (n + 1))) as (ll & Ell & Hll).
  { intros i Hi. apply in_zrange in Hi. apply mapM_forall. intros j Hj. apply in_zrange in Hj.
    assert (Hle : bval l + bval b <= p2 400). { pose proof (p2_le 301 400 ltac:(lia)) as Q. change 301%Z with (300 + 1)%Z in Q. rewrite p2_succ in Q. lra. }
    destruct (field64 i (i + j) b (bval l) (bval l + bval b)) as (f & Ef & Hz & I & S); auto; try lia; try lra.
    - pose proof (p2_le (-1000) (-300) ltac:(lia)). lra.
    - eapply Rle_trans; [|exact Row]. apply Rmult_le_compat_r; [lra|apply IZR_le; lia].
    - apply Rle_trans with (IZR n * bval b); [apply Rmult_le_compat_r; [lra|apply IZR_le; lia]|].
      replace n with (n - 1 + 1)%Z by lia. rewrite plus_IZR. nra.
    - exists f. split; [exact Ef|]. split; [exists i, (i + j)%Z; split; [exact Ef|lia]|]. rewrite p50. split; [nia|]. split; [exact I|exact S]. }
  exists (concat ll). split; [exact En|]. split; [lia|]. rewrite Ell. split; [reflexivity|].
  intros c Hc. apply in_concat in Hc as (x & Hx & Hc). rewrite Forall_forall in Hll. specialize (Hll x Hx). rewrite Forall_forall in Hll. exact (Hll c Hc).
Qed.

(** the selected field of a near-square design: a square or near-square grid, which may stand out of the length by one spacing in one direction (C08) *)
Theorem C116_near_square_design_partial :
  forall gc l b H r s', gc_length gc = Some l -> gc_B gc = Some b -> ordinary_side l b -> design gc near_square H = Ok (r, s') ->
  exists k c, r = Some (k, c) /\ ghe _ s' = (c, maxH) /\ (1 <= length c)%nat /\
    (exists i j, rectangle i j b b = Ok c /\ (j = i \/ j = i + 1)%Z /\ (1 <= i)%Z) /\
    inside (bval l * (1 + p2 (-50))) ((bval l + bval b) * (1 + p2 (-50))) (real_field c) /\ separated (bval b * (1 - p2 (-21))) (real_field c) /\
    (below c maxH \/ k = 0%Z /\ below c minH /\ above c maxH).
Proof.
  intros gc l b H r s' E1 E2 HO E. destruct (near_square64 l b HO) as (n & d & En & _ & Ed & Hd).
  unfold Design.design, design_init, check_inputs, not_none, number in E. rewrite E1, E2 in E. cbn [assert_ bind] in E. rewrite En in E. cbn [bind] in E. rewrite Ed in E. cbn [bind find_design] in E.
  apply one_domain_selection in E as (k & c & -> & Hc & Hk & Hg & Hf). pose proof (nth_error_In _ _ Hc) as Hin. destruct (Hd c Hin) as ((i & j & Ec & Hj & Hi) & Z1 & I & S).
  exists k, c. split; [reflexivity|]. split; [exact Hg|]. split; [unfold zlen in Z1; lia|]. split; [exists i, j; split; [exact Ec|lia]|]. split; [exact I|]. split; [exact S|].
  destruct Hf as [Hf|(-> & Hf)]; [left; now apply adequate_below|right; split; [reflexivity|now apply shallow_below]].
Qed.
End Designs64.

(** 50 m by 20 m; the excess of a field of n boreholes is (demand - n)/10, at every height *)
Definition by_count64 (demand : Z) (c : list (b64 * b64)) (H : F64) : res b64 := Ok (b64_lit (demand - zlen c) 10).
Definition land64 : @constraints b64 :=
  {| gc_length := Some (b64_lit 50 1); gc_width := Some (b64_lit 20 1); gc_B := Some (b64_lit 46 10);
     gc_B_min := Some (b64_lit 45 10); gc_B_max_x := Some (b64_lit 46 10); gc_B_max_y := Some (b64_lit 51 10) |}.
Definition chosen64 (demand : Z) (r : routine) : res (option (Z * Z)) :=
  let! o := design (fun _ _ => Ok tt) (sim64 _ (by_count64 demand)) (fun _ => Ok (nofZ 60)) (nofZ 60) (nofZ 135) land64 r (nofZ 100) in
  Ok (match fst o with Some (k, c) => Some (k, zlen c) | None => None end).
Example C116_example : chosen64 30 rectangle_routine = Ok (Some (13, 36)%Z) /\ chosen64 30 bi_rectangle = Ok (Some (13, 36)%Z) /\ chosen64 31 near_square = Ok (Some (10, 36)%Z)
  /\ chosen64 60 rectangle_routine = Err ZeroDivisionError /\ chosen64 61 rectangle_routine = Err ValueError /\ chosen64 0 rectangle_routine = Err ValueError.
Proof. vm_compute. repeat split. Qed.
(** the hypotheses of the rectangle statements for this case *)
Example C116_hypotheses : ordinary_lengths (b64_lit 50 1) (b64_lit 20 1) (b64_lit 45 10) (b64_lit 46 10) /\ ordinary_side (b64_lit 50 1) (b64_lit 46 10) /\
  exists d, rectangular (b64_lit 50 1) (b64_lit 20 1) (b64_lit 45 10) (b64_lit 46 10) = Ok d /\ (zlen d <= 32769)%Z /\
  (forall f, In f d -> exists x, by_count64 30 f (nofZ 135) = Ok x /\ finite64 x = true) /\
  (forall f f' x x', In f d -> In f' d -> (length f < length f')%nat -> by_count64 30 f (nofZ 135) = Ok x -> by_count64 30 f' (nofZ 135) = Ok x' -> bval x' < bval x) /\
  ~ (below (by_count64 30) [(S754_zero false, S754_zero false)] (nofZ 60) /\ above (by_count64 30) [(S754_zero false, S754_zero false)] (nofZ 135)).
Proof.
  split; [exact ordinary_case|]. split.
  { destruct ordinary_case as ((F1 & _ & _ & F4) & (R1 & _ & _ & R4) & _). split; [exact F1|]. split; [exact F4|]. split; [exact R4|]. split; [pose proof (p2_pos (-300)); lra|].
    set (a := b64_lit 50 1). set (b := b64_lit 46 10). vm_compute in a, b. subst a b. cbn [bval]. rewrite (p2_Z 30), !p2_neg by lia. cbn [Z.opp Z.pow Z.pow_pos Pos.iter Z.mul Pos.mul]. lra. }
  destruct (rectangular (b64_lit 50 1) (b64_lit 20 1) (b64_lit 45 10) (b64_lit 46 10)) as [d|] eqn:E; [|vm_compute in E; discriminate].
  exists d. split; [reflexivity|]. assert (L : (forall f, In f d -> In (zlen f) [1; 2; 3; 4; 5; 6; 7; 8; 9; 10; 11; 12; 24; 36; 48; 60]%Z) /\ zlen d = 16%Z).
  { pose proof C114_example as X. rewrite E in X. cbn [bind] in X. injection X as X. split; [|pose proof (f_equal (@length Z) X) as Y; rewrite map_length in Y; unfold zlen; rewrite Y; reflexivity].
    intros f Hf. rewrite <- X. now apply in_map. }
  destruct L as (L & L16). clear E. split; [lia|].
  assert (T : forall x y, In x [1; 2; 3; 4; 5; 6; 7; 8; 9; 10; 11; 12; 24; 36; 48; 60]%Z -> In y [1; 2; 3; 4; 5; 6; 7; 8; 9; 10; 11; 12; 24; 36; 48; 60]%Z ->
     (finite64 (b64_lit (30 - x) 10) && implb (x <? y)%Z (SFltb (b64_lit (30 - y) 10) (b64_lit (30 - x) 10)))%bool = true).
  { assert (A : forallb (fun x => forallb (fun y => finite64 (b64_lit (30 - x) 10) && implb (x <? y)%Z (SFltb (b64_lit (30 - y) 10) (b64_lit (30 - x) 10)))
      [1; 2; 3; 4; 5; 6; 7; 8; 9; 10; 11; 12; 24; 36; 48; 60]%Z) [1; 2; 3; 4; 5; 6; 7; 8; 9; 10; 11; 12; 24; 36; 48; 60]%Z = true) by (vm_compute; reflexivity).
    intros x y Hx Hy. rewrite forallb_forall in A. specialize (A x Hx). rewrite forallb_forall in A. exact (A y Hy). }
  split; [|split].
  - intros f Hf. eexists. split; [reflexivity|]. specialize (T _ _ (L f Hf) (L f Hf)). apply andb_prop in T. apply T.
  - intros f f' x x' Hf Hf' Hl [= <-] [= <-]. pose proof (T _ _ (L f Hf) (L f' Hf')) as A. pose proof (T _ _ (L f' Hf') (L f Hf)) as B.
    apply andb_prop in A as (A1 & A2). apply andb_prop in B as (B1 & _). assert (Hlt : (zlen f <? zlen f')%Z = true) by (apply Z.ltb_lt; unfold zlen; lia).
    rewrite Hlt in A2. cbn [implb] in A2. now apply SFltb_iff.
  - intros ((x & [= <-] & Fx & Hx) & _). clear - Hx. set (a := b64_lit _ _) in Hx. vm_compute in a. subst a. cbn [bval] in Hx. pose proof (p2_pos (-51)). lra.
Qed.

Print Assumptions C16_binary64_spacing_partial.
Print Assumptions C115_rectangular_grows.
Print Assumptions C116_rectangle_design.
Print Assumptions C116_rectangle_fewest.
Print Assumptions C116_bi_rectangle_design_partial.
Print Assumptions C116_near_square_design_partial.
