(** Properties C07-C20, C72: candidate domains and cut-outs.  Theorems over the reals, witnesses over the
    rationals or over IEEE binary64 numbers. *)
From Coq Require Import ZArith QArith List Bool Reals Lia Lra Sorted Permutation SpecFloat.
From Verif Require Import Base Num BaseLemmas Coordinates Utilities Domains Features Spec CoordinatesProofs
  DomainsProofs UtilitiesProofs FeaturesProofs.
Import ListNotations.
Open Scope R_scope.

(** C07 *)
Theorem C07_square_domain :
  forall lower upper B, (1 <= lower <= upper)%Z ->
  exists d, square_and_near_square lower upper B = Ok d
    /\ d = flat_map (fun i => [grid_field B B i i; grid_field B B i (i + 1)]) (zrange lower (upper + 1))
    /\ sizes d = flat_map (fun i => [i * i; i * (i + 1)]%Z) (zrange lower (upper + 1))
    /\ strictly_increasing (sizes d).
Proof.
  intros lower upper B H. eexists. split; [now apply square_and_near_square_ok|]. split; [reflexivity|].
  rewrite square_sizes by auto. split; auto. apply square_increasing. lia.
Qed.

Theorem C07_square_errors :
  forall F (N : Num F) lower upper (B : F) e,
  square_and_near_square lower upper B = Err e <-> e = ValueError /\ (lower < 1 \/ upper < 1 \/ upper < lower)%Z.
Proof. intros F N. exact square_and_near_square_err. Qed.

Example C07_example : square_and_near_square 1 2 5%Q =
  Ok [[(0, 0)]; [(0, 0); (0, 5)]; [(0, 0); (0, 5); (5, 0); (5, 5)];
      [(0, 0); (0, 5); (0, 10); (5, 0); (5, 5); (5, 10)]]%Q.
Proof. vm_compute. reflexivity. Qed.
Example C07_example_error : square_and_near_square 3 2 5%Q = Err ValueError.
Proof. reflexivity. Qed.

(** C08: design.py:57-63 takes the number of boreholes along the length, rounded down, as the upper bound;
    the largest near-square candidate has one more row.  Land 10 m long, spacing 5 m: a 3 x 4 field of
    15 m depth is offered. *)
Theorem C08_near_square_fits_refuted :
  exists (length B : Q) n d f p, number_of_boreholes length B false = Ok n /\ (0 < B)%Q
    /\ square_and_near_square 1 n B = Ok d /\ In f d /\ In p f /\ (length < snd p)%Q.
Proof.
  exists 10%Q, 5%Q, 3%Z. eexists.
  exists (match square_and_near_square 1 3 5%Q with Ok d => last d [] | _ => [] end), (0, 15)%Q.
  split; [reflexivity|]. split; [reflexivity|]. split; [vm_compute; reflexivity|].
  split; [vm_compute; tauto|]. split; [vm_compute; tauto|reflexivity].
Qed.

(** what holds: x never exceeds the length, y exceeds it by at most one spacing, and exactly the last
    candidate reaches beyond *)
Theorem C08_near_square_fits_partial :
  forall length B n d, 0 <= length -> 0 < B -> number_of_boreholes length B false = Ok n ->
  square_and_near_square 1 n B = Ok d ->
  (forall f, In f d -> inside length (length + B) f) /\
  (forall k f, nth_error d k = Some f -> (Z.of_nat k < 2 * n - 1)%Z -> inside length length f) /\
  exists f p, nth_error d (Z.to_nat (2 * n - 1)) = Some f /\ In p f /\ length < snd p.
Proof.
  intros L B n d HL HB Hn Hd. destruct (number_down L B n HL HB Hn) as (Hn1 & Hn2 & Hn3).
  rewrite square_and_near_square_ok in Hd by lia. injection Hd as <-.
  assert (Hgen : forall lo m, (1 <= lo)%Z -> Z.of_nat m = (n + 1 - lo)%Z ->
    forall k f, nth_error (flat_map (fun i => [grid_field B B i i; grid_field B B i (i + 1)]) (zrange lo (n + 1))) k = Some f ->
    exists i j, f = grid_field B B i j /\ (1 <= i <= n)%Z /\ (1 <= j)%Z /\ (2 * lo + Z.of_nat k = i + j)%Z /\ (j = i \/ j = i + 1)%Z).
  { intros lo m. revert lo. induction m as [|m IH]; intros lo Hlo Hm k f Hk.
    - rewrite zrange_nil in Hk by lia. destruct k; discriminate.
    - rewrite zrange_cons in Hk by lia. cbn [flat_map app] in Hk. destruct k as [|[|k]].
      + injection Hk as <-. exists lo, lo. repeat split; try lia.
      + injection Hk as <-. exists lo, (lo + 1)%Z. repeat split; try lia.
      + cbn [nth_error] in Hk. apply IH in Hk as (i & j & H1 & H2 & H3 & H4 & H5); try lia.
        exists i, j. repeat split; auto; lia. }
  assert (Hall : forall k f, nth_error (flat_map (fun i => [grid_field B B i i; grid_field B B i (i + 1)]) (zrange 1 (n + 1))) k = Some f ->
    exists i j, f = grid_field B B i j /\ (1 <= i <= n)%Z /\ (1 <= j)%Z /\ (2 + Z.of_nat k = i + j)%Z /\ (j = i \/ j = i + 1)%Z).
  { intros k f Hk. apply (Hgen 1%Z (Z.to_nat n)) in Hk; try lia. exact Hk. }
  assert (Hle : forall i, (i <= n)%Z -> IZR (i - 1) * B <= L).
  { intros i Hi. eapply Rle_trans; [|exact Hn2]. apply IZR_mult_le; [lra|lia]. }
  split; [|split].
  - intros f Hf. apply In_nth_error in Hf as (k & Hk). destruct (Hall k f Hk) as (i & j & -> & Hi & Hj & _ & Hij).
    apply grid_field_inside; try lia; try lra; [apply Hle; lia|].
    assert (IZR (j - 1) * B <= IZR n * B) by (apply IZR_mult_le; [lra|lia]).
    replace (IZR n) with (IZR (n - 1) + 1) in H by (rewrite minus_IZR; lra). lra.
  - intros k f Hk Hlt. destruct (Hall k f Hk) as (i & j & -> & Hi & Hj & Hs & Hij).
    apply grid_field_inside; try lia; try lra; apply Hle; lia.
  - assert (Hlen : zlen (flat_map (fun i => [grid_field B B i i; grid_field B B i (i + 1)]) (zrange 1 (n + 1))) = (2 * n)%Z).
    { assert (HH : forall l : list Z, zlen (flat_map (fun i => [grid_field B B i i; grid_field B B i (i + 1)]) l) = (2 * zlen l)%Z).
      { induction l as [|a l IH]; [reflexivity|]. cbn [flat_map app]. rewrite !zlen_cons, IH. lia. }
      rewrite HH, zrange_zlen. lia. }
    destruct (nth_error (flat_map (fun i => [grid_field B B i i; grid_field B B i (i + 1)]) (zrange 1 (n + 1))) (Z.to_nat (2 * n - 1))) as [f|] eqn:E.
    + destruct (Hall _ f E) as (i & j & -> & Hi & Hj & Hs & Hij). assert (i = n /\ j = n + 1)%Z as [-> ->] by lia.
      exists (grid_field B B n (n + 1)), (grid B B 0 n). split; auto. split.
      * apply grid_field_spec; try lia. exists 0%Z, n. repeat split; lia.
      * cbn [grid snd]. lra.
    + apply nth_error_None in E. unfold zlen in Hlen. lia.
Qed.

(** C09 *)
Theorem C09_rectangular_contents :
  forall lx ly l1 l2 tr bmin bmax, oriented lx ly l1 l2 tr -> 0 < l2 -> 0 < bmin -> 0 < bmax ->
  let nmin := Rceil (l1 / bmax + 1) in
  let nmax := Rfloor (l1 / bmin + 1) in
  let b n := l1 / IZR (n - 1) in
  let rows n := Rfloor (l2 / b n + 1) in
  rectangular lx ly bmin bmax =
  Ok (map (turned tr)
    (if (nmax <? nmin)%Z then []
     else (map (fun i => grid_field (b nmin) (b nmin) i 1) (zrange 1 nmin)
           ++ map (fun j => grid_field (b nmin) (b nmin) nmin j) (zrange 1 (rows nmin)))
          ++ map (fun n => grid_field (b n) (b n) n (rows n))
                 (filter (fun n => negb (rows n =? (if n =? nmin then 1 else rows (n - 1)))%Z)
                         (zrange nmin (nmax + 1))))).
Proof. intros. now apply rectangular_contents. Qed.

Theorem C09_rectangular_land_and_spacing :
  forall lx ly bmin bmax d f, 0 < lx -> 0 < ly -> 0 < bmin -> 0 < bmax ->
  rectangular lx ly bmin bmax = Ok d -> In f d ->
  inside lx ly f /\ separated bmin f
  /\ exists tr b i j, f = turned tr (grid_field b b i j) /\ bmin <= b <= bmax /\ (1 <= i)%Z /\ (1 <= j)%Z.
Proof.
  intros lx ly bmin bmax d f Hx Hy Hmin Hmax Hd Hf.
  assert (Ho : exists l1 l2 tr, oriented lx ly l1 l2 tr /\ 0 < l2 /\ l2 <= l1).
  { destruct (Rle_lt_dec ly lx).
    - exists lx, ly, false. repeat split; auto. left; auto.
    - exists ly, lx, true. repeat split; auto; [right; auto|lra]. }
  destruct Ho as (l1 & l2 & tr & Ho & H2 & Hl).
  rewrite (rectangular_contents lx ly l1 l2 tr) in Hd by auto. injection Hd as <-.
  apply in_map_iff in Hf as (g & <- & Hg).
  destruct (Z.ltb_spec (Rfloor (l1 / bmin + 1)) (Rceil (l1 / bmax + 1))) as [|Hge]; [destruct Hg|].
  apply rect_fields_in in Hg as (b & i & j & -> & Hi & Hj & Hb & H1 & H3); auto.
  split; [|split].
  - apply turned_inside with (l1 := l1) (l2 := l2); auto. apply grid_field_inside; auto; try lia; lra.
  - apply turned_separated. apply grid_field_separated; try lia; lra.
  - exists tr, b, i, j. auto.
Qed.

Example C09_example : rectangular 7%Q 5%Q 2%Q 3%Q = Ok
  [[(0, 0)]; [(0, 0); (7 # 3, 0)]; [(0, 0); (7 # 3, 0); (14 # 3, 0)];
   [(0, 0); (7 # 3, 0); (14 # 3, 0); (7, 0)];
   [(0, 0); (0, 7 # 3); (7 # 3, 0); (7 # 3, 7 # 3); (14 # 3, 0); (14 # 3, 7 # 3); (7, 0); (7, 7 # 3)];
   [(0, 0); (0, 7 # 3); (0, 14 # 3); (7 # 3, 0); (7 # 3, 7 # 3); (7 # 3, 14 # 3); (14 # 3, 0);
    (14 # 3, 7 # 3); (14 # 3, 14 # 3); (7, 0); (7, 7 # 3); (7, 14 # 3)]]%Q.
Proof. vm_compute. reflexivity. Qed.
(** deeper than wide: the same fields with x and y exchanged *)
Example C09_example_turned : rectangular 5%Q 7%Q 2%Q 3%Q =
  (let! d := rectangular 7%Q 5%Q 2%Q 3%Q in Ok (map (map (fun p => (snd p, fst p))) d)).
Proof. vm_compute. reflexivity. Qed.

(** C10 *)
Theorem C10_rectangular_grows :
  forall lx ly bmin bmax d, 0 < lx -> 0 < ly -> 0 < bmin -> 0 < bmax ->
  rectangular lx ly bmin bmax = Ok d ->
  strictly_increasing (sizes d) /\ (d = [] \/ exists r, d = [(0, 0)] :: r).
Proof.
  intros lx ly bmin bmax d Hx Hy Hmin Hmax Hd.
  assert (Ho : exists l1 l2 tr, oriented lx ly l1 l2 tr /\ 0 < l2 /\ l2 <= l1).
  { destruct (Rle_lt_dec ly lx).
    - exists lx, ly, false. repeat split; auto. left; auto.
    - exists ly, lx, true. repeat split; auto; [right; auto|lra]. }
  destruct Ho as (l1 & l2 & tr & Ho & H2 & Hl).
  rewrite (rectangular_contents lx ly l1 l2 tr) in Hd by auto. injection Hd as <-.
  rewrite sizes_turned. destruct (_ <? _)%Z; [split; [constructor|now left]|].
  split; [apply rect_fields_increasing; auto; lra|right].
  destruct (rect_fields_first l1 l2 bmin bmax) as (r & ->); [lra|auto|]. exists (map (turned tr) r). destruct tr; reflexivity.
Qed.

Theorem C10_rectangular_total :
  forall lx ly bmin bmax, 0 < lx -> 0 < ly -> 0 < bmin -> 0 < bmax -> exists d, rectangular lx ly bmin bmax = Ok d.
Proof.
  intros lx ly bmin bmax Hx Hy Hmin Hmax. destruct (Rle_lt_dec ly lx).
  - eexists. apply rectangular_contents with (l1 := lx) (l2 := ly) (tr := false); auto. left; auto.
  - eexists. apply rectangular_contents with (l1 := ly) (l2 := lx) (tr := true); auto. right; auto.
Qed.

(** C72: the densest grid is skipped when it has no more rows than its predecessor: a strip of 10 m by
    1 m holds 6 boreholes at 2 m, but rectangular offers no more than 2 *)
Theorem C72_densest_grid_refuted :
  exists (lx ly bmin bmax : Q) d, rectangular lx ly bmin bmax = Ok d
    /\ (0 < bmin /\ bmin < bmax /\ bmax <= lx /\ ly <= lx /\ 0 < ly)%Q
    /\ number_of_boreholes lx bmin false = Ok 6%Z
    /\ sizes d = [1; 2]%Z.
Proof.
  exists 10%Q, 1%Q, 2%Q, 5%Q. eexists. split; [vm_compute; reflexivity|]. split; [|split; reflexivity].
  repeat split; reflexivity || (intros H; discriminate H).
Qed.
Theorem C72_densest_grid_partial :
  forall lx ly l1 l2 tr bmin bmax, oriented lx ly l1 l2 tr -> 0 < l2 -> 0 < bmin -> 0 < bmax ->
  let nmin := Rceil (l1 / bmax + 1) in
  let nmax := Rfloor (l1 / bmin + 1) in
  let b n := l1 / IZR (n - 1) in
  let rows n := Rfloor (l2 / b n + 1) in
  (nmin <= nmax)%Z -> (rows nmax <> if nmax =? nmin then 1 else rows (nmax - 1))%Z ->
  exists r, rectangular lx ly bmin bmax = Ok (r ++ [turned tr (grid_field (b nmax) (b nmax) nmax (rows nmax))]).
Proof.
  intros lx ly l1 l2 tr bmin bmax Ho H2 Hmin Hmax nmin nmax b rows Hr Hc.
  rewrite (C09_rectangular_contents lx ly l1 l2 tr) by auto. fold nmin nmax.
  rewrite (proj2 (Z.ltb_ge _ _)) by auto. rewrite zrange_snoc by auto. rewrite filter_app. cbn [filter].
  fold (b nmax). fold (rows nmax). fold (b (nmax - 1)%Z). fold (rows (nmax - 1)%Z).
  rewrite (proj2 (Z.eqb_neq _ _)) by exact Hc. cbn [negb]. rewrite !map_app. cbn [map].
  eexists. rewrite !app_assoc. reflexivity.
Qed.
Example C72_partial_case : exists d, rectangular 7%Q 5%Q 2%Q 3%Q = Ok d /\ sizes d = [1; 2; 3; 4; 8; 12]%Z.
Proof. eexists. split; [vm_compute; reflexivity|reflexivity]. Qed.

(** C11 *)
(** the domains of bi_rectangle_nested: n2 rows across the shorter side, from the fewest to the most *)
Theorem C11_bi_rectangle_contents :
  forall lx ly l1 l2 tr bmin bmax_x bmax_y,
  oriented lx ly l1 l2 tr -> 0 < l2 -> 0 < bmin -> 0 < bmax_x -> 0 < bmax_y ->
  let bmax1 := if tr then bmax_y else bmax_x in
  let bmax2 := if tr then bmax_x else bmax_y in
  let nmin := Rceil (l1 / bmax1 + 1) in
  let nmax := Rfloor (l1 / bmin + 1) in
  bi_rectangle_nested lx ly bmin bmax_x bmax_y =
  Ok (map (fun n2 => map (turned tr)
        (if (nmax <? nmin)%Z then []
         else (map (fun i => grid_field (l1 / IZR (nmin - 1)) (l2 / IZR (n2 - 1)) i 1) (zrange 1 nmin)
               ++ map (fun j => grid_field (l1 / IZR (nmin - 1)) (l2 / IZR (n2 - 1)) nmin j) (zrange 1 n2))
              ++ map (fun n => grid_field (l1 / IZR (n - 1)) (l2 / IZR (n2 - 1)) n n2) (zrange nmin (nmax + 1))))
      (zrange (Rceil (l2 / bmax2 + 1)) (Rfloor (l2 / bmin + 1) + 1))).
Proof. intros. now apply bi_rectangle_nested_contents. Qed.

(** one such domain, called directly: the given maximum spacing of the shorter side fixes its rows *)
Theorem C11_bi_rectangular_contents :
  forall lx ly l1 l2 otr bmin bmax_x bmax_y tr,
  oriented lx ly l1 l2 otr -> 0 < l2 -> 0 < bmin -> 0 < bmax_x -> 0 < bmax_y ->
  let bmax1 := if otr then bmax_y else bmax_x in
  let bmax2 := if otr then bmax_x else bmax_y in
  let nmin := Rceil (l1 / bmax1 + 1) in
  let nmax := Rfloor (l1 / bmin + 1) in
  let n2 := Rceil (l2 / bmax2 + 1) in
  bi_rectangular lx ly bmin bmax_x bmax_y tr =
  Ok (map (turned tr)
        (if (nmax <? nmin)%Z then []
         else (map (fun i => grid_field (l1 / IZR (nmin - 1)) (l2 / IZR (n2 - 1)) i 1) (zrange 1 nmin)
               ++ map (fun j => grid_field (l1 / IZR (nmin - 1)) (l2 / IZR (n2 - 1)) nmin j) (zrange 1 n2))
              ++ map (fun n => grid_field (l1 / IZR (n - 1)) (l2 / IZR (n2 - 1)) n n2) (zrange nmin (nmax + 1)))).
Proof.
  intros lx ly l1 l2 otr bmin bmax_x bmax_y tr [(H & -> & -> & ->)|(H & -> & -> & ->)] H2 Hmin Hx Hy.
  - now apply bi_rectangular_contents.
  - rewrite bi_rectangular_swapped by auto. apply bi_rectangular_contents; auto. lra.
Qed.
Example C11_rectangular_example : bi_rectangular 4%Q 6%Q 2%Q 5%Q 3%Q false = Ok
  [[(0, 0)]; [(0, 0); (3, 0)]; [(0, 0); (3, 0); (6, 0)];
   [(0, 0); (0, 4); (3, 0); (3, 4); (6, 0); (6, 4)];
   [(0, 0); (0, 4); (2, 0); (2, 4); (4, 0); (4, 4); (6, 0); (6, 4)]]%Q.
Proof. vm_compute. reflexivity. Qed.

Theorem C11_bi_rectangle_land_and_spacing :
  forall lx ly bmin bmax_x bmax_y dd d f, 0 < lx -> 0 < ly -> 0 < bmin -> 0 < bmax_x -> 0 < bmax_y ->
  bi_rectangle_nested lx ly bmin bmax_x bmax_y = Ok dd -> In d dd -> In f d ->
  inside lx ly f /\ separated bmin f
  /\ exists tr bx by_ i j, f = turned tr (grid_field (if tr then by_ else bx) (if tr then bx else by_) i j)
       /\ bmin <= bx <= bmax_x /\ bmin <= by_ <= bmax_y /\ (1 <= i)%Z /\ (1 <= j)%Z.
Proof.
  intros lx ly bmin bmax_x bmax_y dd d f Hx Hy Hmin Hmx Hmy Hdd Hd Hf.
  assert (Ho : exists l1 l2 tr, oriented lx ly l1 l2 tr /\ 0 < l2 /\ l2 <= l1).
  { destruct (Rle_lt_dec ly lx).
    - exists lx, ly, false. repeat split; auto. left; auto.
    - exists ly, lx, true. repeat split; auto; [right; auto|lra]. }
  destruct Ho as (l1 & l2 & tr & Ho & H2 & Hl).
  rewrite (bi_rectangle_nested_contents lx ly l1 l2 tr) in Hdd by auto. injection Hdd as <-.
  apply in_map_iff in Hd as (n2 & <- & Hn2). apply in_map_iff in Hf as (g & <- & Hg). apply in_zrange in Hn2.
  assert (P2 : 0 < pick tr bmax_y bmax_x) by (destruct tr; auto).
  pose proof (nmin_ge2 l2 _ H2 P2) as Hge.
  apply bi_fields_in in Hg as (b & i & j & -> & Hi & Hj & Hb & H1 & H3); auto; try lia; try lra; [|destruct tr; auto].
  assert (B2 : bmin <= l2 / IZR (n2 - 1)) by (apply spacing_ge_min; auto; lia).
  assert (B2' : l2 / IZR (n2 - 1) <= pick tr bmax_y bmax_x) by (apply spacing_le_max; auto; lia).
  split; [|split].
  - apply turned_inside with (l1 := l1) (l2 := l2); auto. apply grid_field_inside; auto; try lia; lra.
  - apply turned_separated. apply grid_field_separated; try lia; lra.
  - destruct tr; cbn [pick] in *.
    + exists true, (l2 / IZR (n2 - 1)), b, i, j. repeat split; auto; try lra; lia.
    + exists false, b, (l2 / IZR (n2 - 1)), i, j. repeat split; auto; try lra; lia.
Qed.

Example C11_example : bi_rectangle_nested 4%Q 5%Q 2%Q 3%Q 3%Q = Ok
  [[[(0, 0)]; [(0, 0); (0, 5 # 2)]; [(0, 0); (0, 5 # 2); (0, 5)];
    [(0, 0); (2, 0); (0, 5 # 2); (2, 5 # 2); (0, 5); (2, 5)];
    [(0, 0); (2, 0); (4, 0); (0, 5 # 2); (2, 5 # 2); (4, 5 # 2); (0, 5); (2, 5); (4, 5)]]]%Q.
Proof. vm_compute. reflexivity. Qed.

(** C12 *)
Theorem C12_bi_rectangle_grows :
  forall lx ly bmin bmax_x bmax_y dd d, 0 < lx -> 0 < ly -> 0 < bmin -> 0 < bmax_x -> 0 < bmax_y ->
  bi_rectangle_nested lx ly bmin bmax_x bmax_y = Ok dd -> In d dd ->
  strictly_increasing (sizes d) /\ (d = [] \/ exists r, d = [(0, 0)] :: r).
Proof.
  intros lx ly bmin bmax_x bmax_y dd d Hx Hy Hmin Hmx Hmy Hdd Hd.
  assert (Ho : exists l1 l2 tr, oriented lx ly l1 l2 tr /\ 0 < l2 /\ l2 <= l1).
  { destruct (Rle_lt_dec ly lx).
    - exists lx, ly, false. repeat split; auto. left; auto.
    - exists ly, lx, true. repeat split; auto; [right; auto|lra]. }
  destruct Ho as (l1 & l2 & tr & Ho & H2 & Hl).
  rewrite (bi_rectangle_nested_contents lx ly l1 l2 tr) in Hdd by auto. injection Hdd as <-.
  apply in_map_iff in Hd as (n2 & <- & Hn2). apply in_zrange in Hn2.
  assert (P1 : 0 < pick tr bmax_x bmax_y) by (destruct tr; auto).
  assert (P2 : 0 < pick tr bmax_y bmax_x) by (destruct tr; auto).
  pose proof (nmin_ge2 l2 _ H2 P2) as Hge. rewrite sizes_turned. split.
  - apply bi_fields_increasing; auto; [lra|lia].
  - destruct (bi_fields_first l1 l2 bmin (pick tr bmax_x bmax_y) n2) as [->|(r & ->)]; auto; [lra|].
    right. exists (map (turned tr) r). destruct tr; reflexivity.
Qed.

(** the largest fields of the successive domains *)
Theorem C12_bi_rectangle_largest_grow :
  forall lx ly l1 l2 tr bmin bmax_x bmax_y dd,
  oriented lx ly l1 l2 tr -> 0 < l2 -> 0 < bmin -> 0 < bmax_x -> 0 < bmax_y ->
  bi_rectangle_nested lx ly bmin bmax_x bmax_y = Ok dd ->
  (Rceil (l1 / (if tr then bmax_y else bmax_x) + 1) <= Rfloor (l1 / bmin + 1))%Z ->
  map (fun d => zlen (last d [])) dd =
    map (fun n2 => Rfloor (l1 / bmin + 1) * n2)%Z
        (zrange (Rceil (l2 / (if tr then bmax_x else bmax_y) + 1)) (Rfloor (l2 / bmin + 1) + 1))
  /\ strictly_increasing (map (fun d => zlen (last d [])) dd).
Proof.
  intros lx ly l1 l2 tr bmin bmax_x bmax_y dd Ho H2 Hmin Hx Hy Hdd Hr.
  assert (Hl : l2 <= l1) by (destruct Ho as [(H & -> & -> & ->)|(H & -> & -> & ->)]; lra).
  rewrite (bi_rectangle_nested_contents lx ly l1 l2 tr) in Hdd by auto. injection Hdd as <-.
  assert (P1 : 0 < pick tr bmax_x bmax_y) by (destruct tr; auto).
  assert (P2 : 0 < pick tr bmax_y bmax_x) by (destruct tr; auto).
  pose proof (nmin_ge2 l2 _ H2 P2) as Hge. pose proof (nmin_ge2 l1 _ ltac:(lra) P1) as Hge1.
  change (if tr then bmax_y else bmax_x) with (pick tr bmax_x bmax_y) in *.
  change (if tr then bmax_x else bmax_y) with (pick tr bmax_y bmax_x) in *.
  match goal with |- ?a = ?b /\ _ => assert (Heq : a = b) end.
  { rewrite map_map. apply map_ext_zrange. intros n Hn.
    destruct (bi_fields_last l1 l2 bmin (pick tr bmax_x bmax_y) n Hr) as (r & ->). rewrite map_app. cbn [map].
    rewrite last_last, turned_zlen. apply grid_field_zlen; lia. }
  split; auto. rewrite Heq. apply StronglySorted_map_zrange. intros. nia.
Qed.
Example C12_example : exists dd, bi_rectangle_nested 12%Q 8%Q 2%Q 4%Q 4%Q = Ok dd
  /\ map sizes dd = [[1; 2; 3; 4; 8; 12; 15; 18; 21]; [1; 2; 3; 4; 8; 12; 16; 20; 24; 28];
                     [1; 2; 3; 4; 8; 12; 16; 20; 25; 30; 35]]%Z.
Proof. eexists. split; [vm_compute; reflexivity|vm_compute; reflexivity]. Qed.

(** C13 *)
Theorem C13_zoned_domain :
  forall lx ly nx ny tr, 0 < lx -> 0 < ly -> (3 <= nx)%Z -> (3 <= ny)%Z ->
  exists d, zoned_rectangle_domain lx ly nx ny tr = Ok d
    /\ zlen d = (1 + (nx - 3) + (ny - 3))%Z
    /\ strictly_increasing (sizes d)
    /\ (exists r, sizes d = (2 * nx + 2 * ny - 3)%Z :: r)
    /\ (exists r, sizes d = r ++ [nx * ny]%Z).
Proof.
  intros lx ly nx ny tr Hx Hy H1 H2.
  assert (Ho : exists l1 l2 otr, oriented lx ly l1 l2 otr /\ 0 < l2).
  { destruct (Rle_lt_dec ly lx); [exists lx, ly, false; split; auto; left; auto|exists ly, lx, true; split; auto; right; auto]. }
  destruct Ho as (l1 & l2 & otr & Ho & Hl2).
  destruct (zoned_rectangle_domain_ok lx ly l1 l2 otr nx ny tr) as (p & f0 & fs & E & _); auto.
  eexists. split; [exact E|]. destruct (zoned_domain_facts lx ly l1 l2 otr nx ny tr _ Ho Hl2 H1 H2 E) as (A & B & C & D & _). auto.
Qed.
(** every step adds one interior row or column, the one that keeps the zone proportions *)
Theorem C13_zoned_steps :
  forall lx ly l1 l2 otr nx ny tr, oriented lx ly l1 l2 otr -> 0 < l2 -> (3 <= nx)%Z -> (3 <= ny)%Z ->
  let n1 := if otr then ny else nx in let n2 := if otr then nx else ny in
  let b1 := l1 / IZR (n1 - 1) in let b2 := l2 / IZR (n2 - 1) in
  exists path f0 fs, zoned_rectangle_domain lx ly nx ny tr = Ok (f0 :: map (turned tr) fs)
    /\ zone_steps n1 n2 (1, 1)%Z path
    /\ zoned_rectangle n1 n2 b1 b2 1 1 = Ok f0
    /\ Forall2 (fun ij f => zoned_rectangle n1 n2 b1 b2 (fst ij) (snd ij) = Ok f) path fs.
Proof. exact zoned_rectangle_domain_ok. Qed.
Theorem C13_zoned_domain_error :
  forall (lx ly : R) nx ny tr, (2 <= nx)%Z -> (2 <= ny)%Z -> (nx = 2 \/ ny = 2)%Z -> 0 < lx -> 0 < ly ->
  zoned_rectangle_domain lx ly nx ny tr = Err ValueError.
Proof. exact zoned_rectangle_domain_err. Qed.
Example C13_example : zoned_rectangle_domain 6%Q 6%Q 4 4 false = Ok
  [[(0, 0); (2, 0); (4, 0); (6, 0); (0, 2); (6, 2); (0, 4); (6, 4); (0, 6); (2, 6); (4, 6); (6, 6); (3, 3)];
   [(0, 0); (2, 0); (4, 0); (6, 0); (0, 2); (6, 2); (0, 4); (6, 4); (0, 6); (2, 6); (4, 6); (6, 6); (2, 3); (4, 3)];
   [(0, 0); (2, 0); (4, 0); (6, 0); (0, 2); (6, 2); (0, 4); (6, 4); (0, 6); (2, 6); (4, 6); (6, 6);
    (2, 2); (2, 4); (4, 2); (4, 4)]]%Q.
Proof. vm_compute. reflexivity. Qed.

(** C14 *)
Theorem C14_bi_zoned_staircase :
  forall lx ly l1 l2 tr bmin bmax_x bmax_y,
  oriented lx ly l1 l2 tr -> 0 < l2 -> 0 < bmin -> 0 < bmax_x -> 0 < bmax_y ->
  let N1 := Rceil (l1 / (if tr then bmax_y else bmax_x) + 1) in let M1 := Rfloor (l1 / bmin + 1) in
  let N2 := Rceil (l2 / (if tr then bmax_x else bmax_y) + 1) in let M2 := Rfloor (l2 / bmin + 1) in
  (3 <= N1 <= M1)%Z -> (3 <= N2 <= M2)%Z ->
  exists path pre d ds, bi_rectangle_zoned_nested lx ly bmin bmax_x bmax_y = Ok ((pre ++ d) :: ds)
    /\ sizes pre = zrange 1 (2 * N1 + 2 * N2 - 3)
    /\ staircase 0 M1 M2 (N1, N2) path
    /\ Forall2 (fun n d => zoned_rectangle_domain l1 l2 (fst n) (snd n) tr = Ok d) ((N1, N2) :: path) (d :: ds).
Proof.
  intros lx ly l1 l2 tr bmin bmax_x bmax_y Ho H2 Hmin Hx Hy N1 M1 N2 M2 HN1 HN2.
  destruct (bi_zoned_ok lx ly l1 l2 tr bmin bmax_x bmax_y Ho H2 Hmin Hx Hy HN1 HN2) as (path & pre & d & ds & E & Hp & Hs & Ha).
  exists path, pre, d, ds. split; auto. split; auto.
  destruct (bi_zoned_prefix_ok tr lx ly N1 N2) as (fs & E' & Hfs); try lia.
  change (Rceil (l1 / pick tr bmax_x bmax_y + 1)) with N1 in Hp. change (Rceil (l2 / pick tr bmax_y bmax_x + 1)) with N2 in Hp.
  rewrite Hp in E'. injection E' as ->. rewrite sizes_turned. eapply shapes_sizes. exact Hfs.
Qed.
Theorem C14_bi_zoned_errors :
  forall lx ly l1 l2 tr bmin bmax_x bmax_y,
  oriented lx ly l1 l2 tr -> 0 < l2 -> 0 < bmin -> 0 < bmax_x -> 0 < bmax_y ->
  let N1 := Rceil (l1 / (if tr then bmax_y else bmax_x) + 1) in let M1 := Rfloor (l1 / bmin + 1) in
  let N2 := Rceil (l2 / (if tr then bmax_x else bmax_y) + 1) in let M2 := Rfloor (l2 / bmin + 1) in
  let T := (Z.max 0 (M1 + 1 - N1) + Z.max 0 (M2 + 1 - N2) - 1)%Z in
  ((N1 <= M1 -> N2 <= M2 -> N1 = 2 \/ N2 = 2 ->
      bi_rectangle_zoned_nested lx ly bmin bmax_x bmax_y = Err ValueError) /\
   (M1 < N1 \/ M2 < N2 ->
      bi_rectangle_zoned_nested lx ly bmin bmax_x bmax_y = if T <=? 0 then Ok [] else Err IndexError))%Z.
Proof. exact bi_zoned_err. Qed.
Theorem C14_bi_zoned_domains_grow :
  forall lx ly l1 l2 tr bmin bmax_x bmax_y dd,
  oriented lx ly l1 l2 tr -> 0 < l2 -> 0 < bmin -> 0 < bmax_x -> 0 < bmax_y ->
  bi_rectangle_zoned_nested lx ly bmin bmax_x bmax_y = Ok dd ->
  forall d, In d dd -> strictly_increasing (sizes d).
Proof. exact bi_zoned_sizes. Qed.
Example C14_example : exists dd, bi_rectangle_zoned_nested 12%Q 8%Q 3%Q 6%Q 4%Q = Ok dd
  /\ map sizes dd = [[1; 2; 3; 4; 5; 6; 7; 8; 9]; [11; 12]; [13; 14; 15]]%Z.
Proof. eexists. split; [vm_compute; reflexivity|vm_compute; reflexivity]. Qed.
Example C14_example_index_error : bi_rectangle_zoned_nested 20%Q 4%Q 5%Q 9%Q 9%Q = Err IndexError.
Proof. vm_compute. reflexivity. Qed.

(** C15 *)
Theorem C15_bi_zoned_land_partial :
  forall lx ly bmin bmax_x bmax_y dd, 0 < ly -> ly <= lx -> 0 < bmin -> 0 < bmax_x -> 0 < bmax_y ->
  bi_rectangle_zoned_nested lx ly bmin bmax_x bmax_y = Ok dd ->
  forall d f, In d dd -> In f d -> inside lx ly f /\ separated bmin f.
Proof. exact bi_zoned_land. Qed.
(** land deeper than wide: only up to exchanging x and y, except for the later fields of the later domains *)
Theorem C15_bi_zoned_deep_land_partial :
  forall lx ly bmin bmax_x bmax_y dd, 0 < lx -> lx < ly -> 0 < bmin -> 0 < bmax_x -> 0 < bmax_y ->
  bi_rectangle_zoned_nested lx ly bmin bmax_x bmax_y = Ok dd ->
  (forall d f, In d dd -> In f d -> inside lx ly f \/ inside ly lx f) /\
  (forall k d i f, (0 < k)%nat -> nth_error dd k = Some d -> (0 < i)%nat -> nth_error d i = Some f ->
     inside lx ly f /\ separated bmin f).
Proof. exact bi_zoned_tall. Qed.
(** land 4 m by 8 m, spacing 2 m: a field with a borehole at x = 8 *)
Theorem C15_bi_zoned_land_refuted :
  exists (lx ly bmin bmax : Q) dd d f p,
  (0 < lx /\ lx < ly /\ 0 < bmin /\ bmin <= bmax)%Q /\
  bi_rectangle_zoned_nested lx ly bmin bmax bmax = Ok dd /\ In d dd /\ In f d /\ In p f /\ (lx < fst p)%Q.
Proof.
  exists 4%Q, 8%Q, 2%Q, 2%Q. eexists.
  exists (match bi_rectangle_zoned_nested 4%Q 8%Q 2%Q 2%Q 2%Q with Ok (d :: _) => d | _ => [] end).
  exists (match bi_rectangle_zoned_nested 4%Q 8%Q 2%Q 2%Q 2%Q with Ok (d :: _) => nth 12 d [] | _ => [] end).
  exists (8, 4)%Q. split; [repeat split; reflexivity || (intros H; discriminate H)|]. split; [vm_compute; reflexivity|]. vm_compute. tauto.
Qed.
(** the same land: two boreholes 1 m apart *)
Theorem C15_bi_zoned_spacing_refuted :
  exists (lx ly bmin bmax : Q) dd d f,
  (0 < lx /\ lx < ly /\ 0 < bmin /\ bmin <= bmax)%Q /\
  bi_rectangle_zoned_nested lx ly bmin bmax bmax = Ok dd /\ In d dd /\ In f d /\ f = [(0, 0); (0, 1)]%Q /\ (1 < bmin)%Q.
Proof.
  exists 4%Q, 8%Q, 2%Q, 2%Q. eexists.
  exists (match bi_rectangle_zoned_nested 4%Q 8%Q 2%Q 2%Q 2%Q with Ok (d :: _) => d | _ => [] end).
  exists [(0, 0); (0, 1)]%Q. split; [repeat split; reflexivity || (intros H; discriminate H)|].
  split; [vm_compute; reflexivity|]. vm_compute. tauto.
Qed.

(** C16: land 44.1 m by 44.1 m, spacings between 4 m and 4.05 m.  In binary64 44.1/(44.1/11) is above 11, and
    rounding up gives 13 rows, 3.675 m apart. *)
Theorem C16_binary64_spacing_refuted :
  exists (l bmin bmax y : b64) dd d f r,
  nlt (nofZ 0) bmin = true /\ nlt bmin bmax = true /\
  bi_rectangle_nested l l bmin bmax bmax = Ok dd /\ In d dd /\ In f d
  /\ f = (nofZ 0, nofZ 0) :: (nofZ 0, y) :: r /\ nlt (nofZ 0) y = true /\ nlt y bmin = true.
Proof.
  exists (b64_lit 441 10), (b64_lit 4 1), (b64_lit 405 100). 
  exists (match bi_rectangle_nested (b64_lit 441 10) (b64_lit 441 10) (b64_lit 4 1) (b64_lit 405 100) (b64_lit 405 100) with
          Ok (d :: _) => snd (nth 1 (last d []) (nofZ 0, nofZ 0)) | _ => nofZ 0 end).
  eexists.
  exists (match bi_rectangle_nested (b64_lit 441 10) (b64_lit 441 10) (b64_lit 4 1) (b64_lit 405 100) (b64_lit 405 100) with Ok (d :: _) => d | _ => [] end).
  exists (match bi_rectangle_nested (b64_lit 441 10) (b64_lit 441 10) (b64_lit 4 1) (b64_lit 405 100) (b64_lit 405 100) with Ok (d :: _) => last d [] | _ => [] end).
  eexists. split; [vm_compute; reflexivity|]. split; [vm_compute; reflexivity|]. split; [vm_compute; reflexivity|].
  split; [vm_compute; tauto|]. split; [vm_compute; tauto|]. split; [vm_compute; reflexivity|]. split; vm_compute; reflexivity.
Qed.

(** C17 *)
Theorem C17_reorder_sorted :
  forall A (d : list (list A)),
  StronglySorted le (map (@length A) (reorder_domain d))
  /\ Permutation (map (@length A) d) (map (@length A) (reorder_domain d))
  /\ (forall f, In f (reorder_domain d) -> In f d).
Proof.
  intros A d. rewrite reorder_sizes. split; [apply sort_nat_sorted|]. split; [apply sort_nat_perm|]. apply reorder_in.
Qed.
Theorem C17_reorder_permutation_partial :
  forall A (d : list (list A)), NoDup (map (@length A) d) -> Permutation d (reorder_domain d).
Proof. intros A. exact reorder_perm. Qed.
(** two fields of one borehole: the first is returned twice and the second is lost *)
Theorem C17_reorder_permutation_refuted :
  exists (d : list (list Q)) f, In f d /\ ~ In f (reorder_domain d).
Proof. exists [[0%Q]; [1%Q]], [1%Q]. split; [cbn; tauto|]. cbn. intros [H|[H|[]]]; discriminate. Qed.
Theorem C17_reorder_keeps_first :
  forall A (d : list (list A)) k f, nth_error (reorder_domain d) k = Some f ->
  find (fun g => Nat.eqb (length g) (length f)) d = Some f.
Proof. intros A. exact reorder_first. Qed.
Example C17_example : reorder_domain [[1; 2; 3]; [4]; [5; 6]]%Z = [[4]; [5; 6]; [1; 2; 3]]%Z.
Proof. reflexivity. Qed.

(** C18 *)
Theorem C18_verify_excess :
  forall l : list R,
  (forall i, nth_error (fst (verify_excess l)) i =
     match nth_error l i, nth_error l (S i) with Some a, Some b => Some (b - a) | _, _ => None end)
  /\ (snd (verify_excess l) = true <->
      forall i a b, nth_error l i = Some a -> nth_error l (S i) = Some b -> b <= a).
Proof. intros l. split; [apply verify_excess_diffs|apply verify_excess_bool]. Qed.
Example C18_example : verify_excess [3; 1; 1; -2]%Q = ([-2; 0; -3]%Q, true)
  /\ verify_excess [3; 1; 2]%Q = ([-2; 1]%Q, false).
Proof. split; reflexivity. Qed.

(** C19.  [side c] is the result of the point-in-polygon test of borehole c, with polygon and point
    scaled by 10000: positive inside, negative outside, zero on the contour. *)
Theorem C19_cutout_exact :
  forall pip (cs boundary : list (R * R)) remove_inside keep_contour (side : R * R -> R),
  (forall c, In c cs -> pip (map (fun p => (fst p * 10000, snd p * 10000)) boundary) (fst c * 10000, snd c * 10000) = Ok (side c)) ->
  exists out, remove_cutout pip cs boundary remove_inside keep_contour = Ok out
    /\ (exists keep, out = filter keep cs
         /\ forall c, keep c = true <->
            (remove_inside = true -> side c <= 0) /\ (remove_inside = false -> 0 <= side c)
            /\ (keep_contour = false -> side c <> 0)).
Proof.
  intros pip cs b ri kc side H. eexists. split; [apply (remove_cutout_filter pip cs b ri kc side H)|].
  eexists. split; [reflexivity|]. intros c. apply keeps_kept.
Qed.
(** the only exceptions are those of the test *)
Theorem C19_cutout_errors :
  forall pip (cs boundary : list (R * R)) ri kc e, remove_cutout pip cs boundary ri kc = Err e ->
  exists c, In c cs /\ pip (map (fun p => (fst p * 10000, snd p * 10000)) boundary) (fst c * 10000, snd c * 10000) = Err e.
Proof. exact remove_cutout_err. Qed.

Theorem C19_polygonal_land_allowed :
  forall pip property bmin bmax_x bmax_y building out,
  polygonal_land_constraint pip property bmin bmax_x bmax_y building = Ok out ->
  forall side_p side_b : R * R -> R,
  (forall c v, pip (map (fun p => (fst p * 10000, snd p * 10000)) property) (fst c * 10000, snd c * 10000) = Ok v -> side_p c = v) ->
  (forall c v, pip (map (fun p => (fst p * 10000, snd p * 10000)) building) (fst c * 10000, snd c * 10000) = Ok v -> side_b c = v) ->
  forall d f c, In d out -> In f d -> In c f -> 0 <= side_p c /\ side_b c < 0.
Proof.
  intros pip property bmin bx by_ building out H side_p side_b Hp Hb d f c Hd Hf Hc.
  destruct (polygonal_tested _ _ _ _ _ _ _ H d f c Hd Hf Hc) as (v & w & Ev & Ew & Hv & Hw).
  rewrite (Hp c v Ev), (Hb c w Ew). auto.
Qed.
(** the candidates are those of bi_rectangle_nested on the bounding rectangle, cut out, in order of size *)
Theorem C19_polygonal_land_candidates :
  forall pip property bmin bmax_x bmax_y building out,
  polygonal_land_constraint pip property bmin bmax_x bmax_y building = Ok out ->
  exists X Y nested, determine_largest_rectangle property = [(0, 0); (X, 0); (X, Y); (0, Y); (0, 0)]
    /\ bi_rectangle_nested X Y bmin bmax_x bmax_y = Ok nested
    /\ length out = length nested
    /\ forall k d n, nth_error out k = Some d -> nth_error nested k = Some n ->
       StronglySorted le (map (@length (R * R)) d)
       /\ forall f, In f d -> exists f0, In f0 n /\ incl f f0.
Proof.
  intros pip property bmin bx by_ building out H. destruct (polygonal_result _ _ _ _ _ _ _ H) as (X & Y & nested & E & HX & HY & En & ->).
  exists X, Y, nested. split; auto. split; auto. split; [apply map_length|]. intros k d n Hd Hn.
  rewrite nth_error_map, Hn in Hd. injection Hd as <-. split; [rewrite reorder_sizes; apply sort_nat_sorted|].
  intros f Hf. apply reorder_in in Hf. apply in_map_iff in Hf as (f1 & <- & Hf1). apply filter_In in Hf1 as [Hf1 _].
  apply in_map_iff in Hf1 as (f0 & <- & Hf0). exists f0. split; auto.
  intros c Hc. apply filter_In in Hc as [Hc _]. now apply filter_In in Hc as [Hc _].
Qed.
(** a building covering the one-borehole field leaves an empty candidate *)
Definition axis_test (b : list (Q * Q)) (c : Q * Q) : res Q :=
  match b with
  | [] => Ok (-1)%Q
  | (x0, y0) :: _ => let X := fold_left nmax (map fst b) x0 in let Y := fold_left nmax (map snd b) y0 in
      if nlt X (fst c) || nlt Y (snd c) || nlt (fst c) x0 || nlt (snd c) y0 then Ok (-1)%Q
      else if Qeq_bool X (fst c) || Qeq_bool Y (snd c) || Qeq_bool x0 (fst c) || Qeq_bool y0 (snd c) then Ok 0%Q else Ok 1%Q
  end.
Theorem C19_no_empty_candidate_refuted :
  exists (pip : oracle (F := Q)) property bmin bmax building out d,
  polygonal_land_constraint pip property bmin bmax bmax building = Ok out /\ In d out /\ In [] d.
Proof.
  exists axis_test, [(0, 0); (8, 0); (8, 6); (0, 6)]%Q, 2%Q, 4%Q, [(0, 0); (1, 0); (1, 1); (0, 1)]%Q.
  eexists.
  exists (match polygonal_land_constraint axis_test [(0, 0); (8, 0); (8, 6); (0, 6)]%Q 2%Q 4%Q 4%Q [(0, 0); (1, 0); (1, 1); (0, 1)]%Q with Ok (d :: _) => d | _ => [] end).
  split; [vm_compute; reflexivity|]. vm_compute. tauto.
Qed.
(** all four modes on a 2 x 2 square: inside (1,1), on the contour (0,0) and (2,1), outside (3,3) *)
Example C19_example :
  let b := [(0, 0); (2, 0); (2, 2); (0, 2)]%Q in let cs := [(1, 1); (0, 0); (3, 3); (2, 1)]%Q in
  remove_cutout axis_test cs b true true = Ok [(0, 0); (3, 3); (2, 1)]%Q
  /\ remove_cutout axis_test cs b true false = Ok [(3, 3)]%Q
  /\ remove_cutout axis_test cs b false false = Ok [(1, 1)]%Q
  /\ remove_cutout axis_test cs b false true = Ok [(1, 1); (0, 0); (2, 1)]%Q.
Proof. vm_compute. repeat split; reflexivity. Qed.

(** C20 *)
Theorem C20_largest_rectangle :
  forall l : list (R * R), exists X Y,
  determine_largest_rectangle l = [(0, 0); (X, 0); (X, Y); (0, Y); (0, 0)] /\ 0 <= X /\ 0 <= Y
  /\ (forall p, In p l -> fst p <= X /\ snd p <= Y)
  /\ (X = 0 \/ exists p, In p l /\ X = fst p) /\ (Y = 0 \/ exists p, In p l /\ Y = snd p).
Proof. exact largest_rectangle. Qed.
(** in the first quadrant: contains every vertex, and every rectangle from the origin that does is at least as large *)
Theorem C20_smallest_containing :
  forall l : list (R * R), (forall p, In p l -> 0 <= fst p /\ 0 <= snd p) ->
  exists X Y, determine_largest_rectangle l = [(0, 0); (X, 0); (X, Y); (0, Y); (0, 0)]
  /\ inside X Y l /\ (forall X' Y', 0 <= X' -> 0 <= Y' -> inside X' Y' l -> X <= X' /\ Y <= Y').
Proof.
  intros l H. destruct (largest_rectangle l) as (X & Y & E & HX & HY & Hb & Hx & Hy). exists X, Y. split; auto. split.
  - intros p Hp. destruct (H p Hp), (Hb p Hp). split; split; auto.
  - intros X' Y' PX PY Hi. split.
    + destruct Hx as [->|(p & Hp & ->)]; auto. apply (Hi p Hp).
    + destruct Hy as [->|(p & Hp & ->)]; auto. apply (Hi p Hp).
Qed.
Example C20_example : determine_largest_rectangle [(1, 2); (5, 1); (4, 7)]%Q = [(0, 0); (5, 0); (5, 7); (0, 7); (0, 0)]%Q.
Proof. reflexivity. Qed.

Print Assumptions C07_square_domain.
Print Assumptions C07_square_errors.
Print Assumptions C08_near_square_fits_refuted.
Print Assumptions C08_near_square_fits_partial.
Print Assumptions C09_rectangular_contents.
Print Assumptions C09_rectangular_land_and_spacing.
Print Assumptions C10_rectangular_grows.
Print Assumptions C10_rectangular_total.
Print Assumptions C72_densest_grid_refuted.
Print Assumptions C72_densest_grid_partial.
Print Assumptions C11_bi_rectangle_contents.
Print Assumptions C11_bi_rectangular_contents.
Print Assumptions C11_bi_rectangle_land_and_spacing.
Print Assumptions C12_bi_rectangle_grows.
Print Assumptions C12_bi_rectangle_largest_grow.
Print Assumptions C13_zoned_domain.
Print Assumptions C13_zoned_steps.
Print Assumptions C13_zoned_domain_error.
Print Assumptions C14_bi_zoned_staircase.
Print Assumptions C14_bi_zoned_errors.
Print Assumptions C14_bi_zoned_domains_grow.
Print Assumptions C15_bi_zoned_land_partial.
Print Assumptions C15_bi_zoned_deep_land_partial.
Print Assumptions C15_bi_zoned_land_refuted.
Print Assumptions C15_bi_zoned_spacing_refuted.
Print Assumptions C16_binary64_spacing_refuted.
Print Assumptions C17_reorder_sorted.
Print Assumptions C17_reorder_permutation_partial.
Print Assumptions C17_reorder_permutation_refuted.
Print Assumptions C17_reorder_keeps_first.
Print Assumptions C18_verify_excess.
Print Assumptions C19_cutout_exact.
Print Assumptions C19_cutout_errors.
Print Assumptions C19_polygonal_land_allowed.
Print Assumptions C19_polygonal_land_candidates.
Print Assumptions C19_no_empty_candidate_refuted.
Print Assumptions C20_largest_rectangle.
Print Assumptions C20_smallest_containing.
