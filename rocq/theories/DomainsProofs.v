(** Proofs about the candidate field domains of domains.py, over the reals *)
From Coq Require Import ZArith List Bool Reals Lia Lra Sorted.
From Verif Require Import Base Num BaseLemmas Coordinates Spec CoordinatesProofs Domains.
Import ListNotations.
Open Scope R_scope.

(** ** complete grids *)
Lemma zseq_seq a n : zseq (Z.of_nat a) n = map Z.of_nat (seq a n).
Proof.
  revert a. induction n as [|n IH]; intros a; cbn [zseq seq map]; auto.
  f_equal. replace (Z.of_nat a + 1)%Z with (Z.of_nat (S a)) by lia. apply IH.
Qed.
Lemma zrange_seq n : zrange 0 n = map Z.of_nat (seq 0 (Z.to_nat n)).
Proof. unfold zrange. rewrite Z.sub_0_r. apply (zseq_seq 0). Qed.

Lemma flat_map_map {A B C} (f : B -> list C) (g : A -> B) l : flat_map f (map g l) = flat_map (fun a => f (g a)) l.
Proof. induction l as [|a l IH]; cbn; auto. now rewrite IH. Qed.
Lemma flat_map_ext' {A B} (f g : A -> list B) l : (forall a, f a = g a) -> flat_map f l = flat_map g l.
Proof. intros H. induction l as [|a l IH]; cbn; auto. now rewrite H, IH. Qed.

Lemma rectangle_grid nx ny Bx By : (0 <= nx)%Z -> (0 <= ny)%Z -> rectangle nx ny Bx By = Ok (grid_field Bx By nx ny).
Proof.
  intros Hx Hy. unfold rectangle. rewrite rectangle_o_ok by auto. f_equal. unfold grid_field.
  rewrite (zrange_seq nx), flat_map_map. apply flat_map_ext'. intros i. rewrite zrange_seq, map_map. apply map_ext. intros j.
  cbn [fst snd]. rewrite !zmul_R. unfold grid. cbn [nadd NumR]. rewrite fz_R, !Rplus_0_l. reflexivity.
Qed.

Lemma maybe_transpose_turned tr f : maybe_transpose tr f = turned tr f.
Proof. destruct tr; reflexivity. Qed.
Lemma turned_zlen tr f : zlen (turned tr f) = zlen f.
Proof. destruct tr; [apply transpose_zlen|reflexivity]. Qed.
Lemma turned_separated tr d f : separated d f -> separated d (turned tr f).
Proof. destruct tr; [apply transpose_separated|auto]. Qed.
Lemma turned_inside lx ly l1 l2 tr f : oriented lx ly l1 l2 tr -> inside l1 l2 f -> inside lx ly (turned tr f).
Proof. intros [(_ & -> & -> & ->)|(_ & -> & -> & ->)]; [auto|apply transpose_inside]. Qed.

Lemma grid_field_spec nx ny Bx By : (0 <= nx)%Z -> (0 <= ny)%Z ->
  zlen (grid_field Bx By nx ny) = (nx * ny)%Z
  /\ (forall p, In p (grid_field Bx By nx ny) <-> exists i j, (0 <= i < nx)%Z /\ (0 <= j < ny)%Z /\ p = grid Bx By i j)
  /\ (0 < Bx -> 0 < By -> NoDup (grid_field Bx By nx ny)).
Proof.
  intros Hx Hy. destruct (rectangle_spec nx ny Bx By Hx Hy) as (f & E & H).
  rewrite rectangle_grid in E by auto. injection E as <-. exact H.
Qed.
Lemma grid_field_zlen nx ny Bx By : (0 <= nx)%Z -> (0 <= ny)%Z -> zlen (grid_field Bx By nx ny) = (nx * ny)%Z.
Proof. intros. now apply grid_field_spec. Qed.
Lemma grid_field_separated nx ny Bx By d : (0 <= nx)%Z -> (0 <= ny)%Z -> 0 < d -> d <= Bx -> d <= By ->
  separated d (grid_field Bx By nx ny).
Proof.
  intros Hx Hy Hd HB HB'. destruct (grid_field_spec nx ny Bx By Hx Hy) as (_ & Hm & Hn).
  apply grid_separated with (Bx := Bx) (By := By); auto; try lra.
  - apply Hn; lra.
  - intros p Hp. apply Hm in Hp as (i & j & _ & _ & ->). eauto.
Qed.
Lemma grid_field_inside nx ny Bx By lx ly : (0 <= nx)%Z -> (0 <= ny)%Z -> 0 <= Bx -> 0 <= By ->
  IZR (nx - 1) * Bx <= lx -> IZR (ny - 1) * By <= ly -> inside lx ly (grid_field Bx By nx ny).
Proof.
  intros Hx Hy HB HB' Hlx Hly. apply grid_inside with (Bx := Bx) (By := By); auto. intros p Hp.
  apply (grid_field_spec nx ny Bx By Hx Hy) in Hp as (i & j & Hi & Hj & ->). exists i, j.
  pose proof (IZR_mult_le i (nx - 1) Bx HB ltac:(lia)). pose proof (IZR_mult_le j (ny - 1) By HB' ltac:(lia)).
  repeat split; try lia; lra.
Qed.
Lemma grid_field_1 Bx By : grid_field Bx By 1 1 = [(0, 0)].
Proof. unfold grid_field, grid. change (Z.to_nat 1) with 1%nat. cbn [seq flat_map map app Z.of_nat]. now rewrite !Rmult_0_l. Qed.

(** ** arithmetic of counts and spacings *)
Lemma nfloor_R (x : R) : nfloor x = Ok (Rfloor x). Proof. reflexivity. Qed.
Lemma nceil_R (x : R) : nceil x = Ok (Rceil x). Proof. reflexivity. Qed.
Lemma n_float_R (l b : R) : b <> 0 -> n_float l b = Ok (l / b + 1).
Proof. intros H. unfold n_float. now rewrite pydiv_R. Qed.
Lemma n_float_R0 (l : R) : n_float l 0 = Err ZeroDivisionError.
Proof. unfold n_float. now rewrite pydiv_R0. Qed.

Lemma div_pos x y : 0 < x -> 0 < y -> 0 < x / y. Proof. apply Rdiv_lt_0_compat. Qed.
Lemma le_div x y z : 0 < y -> (z * y <= x <-> z <= x / y).
Proof.
  intros Hy. split; intros H.
  - apply (Rmult_le_reg_r y); auto. unfold Rdiv. rewrite Rmult_assoc, Rinv_l by lra. lra.
  - apply (Rmult_le_compat_r y) in H; [|lra]. unfold Rdiv in H. rewrite Rmult_assoc, Rinv_l in H by lra. lra.
Qed.
Lemma div_le x y z : 0 < y -> (x <= z * y <-> x / y <= z).
Proof.
  intros Hy. split; intros H.
  - apply (Rmult_le_reg_r y); auto. unfold Rdiv. rewrite Rmult_assoc, Rinv_l by lra. lra.
  - apply (Rmult_le_compat_r y) in H; [|lra]. unfold Rdiv in H. rewrite Rmult_assoc, Rinv_l in H by lra. lra.
Qed.
Lemma IZR_sub1 n : IZR (n - 1) = IZR n - 1. Proof. now rewrite minus_IZR. Qed.
Lemma IZR_gap n : (2 <= n)%Z -> 1 <= IZR (n - 1).
Proof. intros. apply (IZR_le 1). lia. Qed.

Lemma nmin_ge2 l b : 0 < l -> 0 < b -> (2 <= Rceil (l / b + 1))%Z.
Proof. intros Hl Hb. apply Rceil_ge. pose proof (div_pos l b Hl Hb). lra. Qed.

(** n boreholes between the smallest and the largest admissible count have an admissible spacing *)
Lemma spacing_le_max l b n : 0 < l -> 0 < b -> (Rceil (l / b + 1) <= n)%Z -> l / IZR (n - 1) <= b.
Proof.
  intros Hl Hb H. pose proof (nmin_ge2 l b Hl Hb). apply IZR_le in H. pose proof (Rceil_spec (l / b + 1)) as [_ H1].
  pose proof (IZR_gap n ltac:(apply le_IZR in H; lia)) as Hg. rewrite IZR_sub1 in *.
  apply div_le; [lra|]. assert (l / b <= IZR n - 1) by lra. apply div_le in H2; auto. lra.
Qed.
Lemma spacing_ge_min l b n : 0 < b -> (2 <= n <= Rfloor (l / b + 1))%Z -> b <= l / IZR (n - 1).
Proof.
  intros Hb [H2 H]. apply IZR_le in H. pose proof (Rfloor_spec (l / b + 1)) as [H1 _].
  pose proof (IZR_gap n H2) as Hg. rewrite IZR_sub1 in *.
  apply le_div; [lra|]. assert (IZR n - 1 <= l / b) by lra. apply le_div in H0; auto. lra.
Qed.
Lemma spacing_fills l n : (2 <= n)%Z -> IZR (n - 1) * (l / IZR (n - 1)) = l.
Proof. intros H. pose proof (IZR_gap n H). field. lra. Qed.
Lemma spacing_pos l n : 0 < l -> (2 <= n)%Z -> 0 < l / IZR (n - 1).
Proof. intros Hl H. pose proof (IZR_gap n H). apply div_pos; lra. Qed.
Lemma spacing_fewer l n i : 0 < l -> (2 <= n)%Z -> (i <= n)%Z -> IZR (i - 1) * (l / IZR (n - 1)) <= l.
Proof.
  intros Hl H Hi. rewrite <- (spacing_fills l n H) at 2. apply IZR_mult_le; [|lia].
  pose proof (spacing_pos l n Hl H). lra.
Qed.

(** ** strictly increasing lists of sizes *)
Lemma sizes_app {A} (l r : list (list A)) : sizes (l ++ r) = sizes l ++ sizes r.
Proof. apply map_app. Qed.
Lemma sizes_map {A B} (g : A -> list B) l : sizes (map g l) = map (fun a => zlen (g a)) l.
Proof. unfold sizes. rewrite map_map. reflexivity. Qed.
Lemma sizes_turned tr d : sizes (map (turned tr) d) = sizes d.
Proof. rewrite sizes_map. apply map_ext. intros f. rewrite turned_zlen. reflexivity. Qed.
Lemma map_ext_zrange {B} (f g : Z -> B) a b : (forall i, (a <= i < b)%Z -> f i = g i) -> map f (zrange a b) = map g (zrange a b).
Proof. intros H. apply map_ext_in. intros i Hi. apply H. now apply in_zrange. Qed.

Lemma StronglySorted_filter_zrange (f : Z -> Z) p a b :
  (forall i j, (a <= i)%Z -> (i < j)%Z -> (j < b)%Z -> p i = true -> p j = true -> (f i < f j)%Z) ->
  StronglySorted Z.lt (map f (filter p (zrange a b))).
Proof.
  remember (Z.to_nat (b - a)) as n eqn:En. revert a En.
  induction n as [|n IH]; intros a En H.
  - rewrite zrange_nil by lia. constructor.
  - rewrite zrange_cons by lia. cbn [filter]. assert (HS : StronglySorted Z.lt (map f (filter p (zrange (a + 1) b)))).
    { apply IH; [lia|]. intros. apply H; auto; lia. }
    destruct (p a) eqn:Hp; auto. cbn [map]. constructor; auto.
    apply Forall_forall. intros y Hy. apply in_map_iff in Hy as (j & <- & Hj). apply filter_In in Hj as [Hj Hpj].
    apply in_zrange in Hj. apply H; auto; lia.
Qed.

(** ** square and near-square *)
Lemma square_and_near_square_ok lower upper B : (1 <= lower <= upper)%Z ->
  square_and_near_square lower upper B =
  Ok (flat_map (fun i => [grid_field B B i i; grid_field B B i (i + 1)]) (zrange lower (upper + 1))).
Proof.
  intros H. unfold square_and_near_square.
  replace ((lower <? 1)%Z || (upper <? 1)%Z) with false by (symmetry; apply orb_false_iff; rewrite !Z.ltb_ge; lia).
  rewrite (proj2 (Z.ltb_ge upper lower)) by lia. cbn [raise_if bind].
  rewrite (mapM_pure _ (fun i => [grid_field B B i i; grid_field B B i (i + 1)])).
  - cbn [bind]. f_equal. rewrite flat_map_concat_map. reflexivity.
  - intros i Hi. apply in_zrange in Hi. change (zrange 0 2) with [0; 1]%Z. cbn [mapM].
    rewrite !rectangle_grid by lia. cbn [bind]. now rewrite Z.add_0_r.
Qed.
Lemma square_and_near_square_err {F} {N : Num F} lower upper (B : F) e :
  square_and_near_square lower upper B = Err e <-> e = ValueError /\ (lower < 1 \/ upper < 1 \/ upper < lower)%Z.
Proof.
  unfold square_and_near_square.
  destruct ((lower <? 1)%Z || (upper <? 1)%Z) eqn:E1; cbn [raise_if bind].
  { apply orb_true_iff in E1. rewrite !Z.ltb_lt in E1. split; [intros [= <-]; split; [auto|lia]|intros (-> & _); auto]. }
  apply orb_false_iff in E1. rewrite !Z.ltb_ge in E1.
  destruct (upper <? lower)%Z eqn:E2; cbn [raise_if bind].
  { apply Z.ltb_lt in E2. split; [intros [= <-]; split; [auto|lia]|intros (-> & _); auto]. }
  apply Z.ltb_ge in E2. split; [|intros (_ & ?); lia]. intros H. exfalso.
  apply bind_err in H as [H|(? & _ & H)]; [|discriminate].
  assert (HH : forall l, (forall i, In i l -> (1 <= i)%Z) ->
    exists r, mapM (fun i => mapM (fun j => rectangle i (i + j) B B) (zrange 0 2)) l = Ok r).
  { clear. induction l as [|i l IH]; intros Hl; cbn [mapM]; [eauto|].
    destruct IH as [r Hr]; [intros; apply Hl; now right|].
    specialize (Hl i (or_introl eq_refl)).
    assert (Hi : exists a, mapM (fun j => rectangle i (i + j) B B) (zrange 0 2) = Ok a).
    { change (zrange 0 2) with [0; 1]%Z. cbn [mapM]. unfold rectangle. rewrite !rectangle_o_ok by lia. cbn [bind]. eauto. }
    destruct Hi as [a ->]. cbn [bind]. rewrite Hr. cbn [bind]. eauto. }
  destruct (HH (zrange lower (upper + 1))) as [r Hr]; [intros i Hi; apply in_zrange in Hi; lia|].
  congruence.
Qed.
Lemma square_sizes lower upper B : (1 <= lower <= upper)%Z ->
  sizes (flat_map (fun i => [grid_field B B i i; grid_field B B i (i + 1)]) (zrange lower (upper + 1))) =
  flat_map (fun i => [i * i; i * (i + 1)]%Z) (zrange lower (upper + 1)).
Proof.
  intros H. assert (HH : forall l, (forall i, In i l -> (1 <= i)%Z) ->
    sizes (flat_map (fun i => [grid_field B B i i; grid_field B B i (i + 1)]) l) = flat_map (fun i => [i * i; i * (i + 1)]%Z) l).
  { induction l as [|i l IH]; intros Hl; [reflexivity|]. cbn [flat_map]. rewrite sizes_app, IH by (intros; apply Hl; now right).
    specialize (Hl i (or_introl eq_refl)). unfold sizes. cbn [map]. fold (zlen (grid_field B B i i)).
    fold (zlen (grid_field B B i (i + 1))). now rewrite !grid_field_zlen by lia. }
  apply HH. intros i Hi. apply in_zrange in Hi. lia.
Qed.
Lemma square_increasing lower upper : (1 <= lower)%Z ->
  strictly_increasing (flat_map (fun i => [i * i; i * (i + 1)]%Z) (zrange lower (upper + 1))).
Proof.
  unfold strictly_increasing. remember (Z.to_nat (upper + 1 - lower)) as n eqn:En. revert lower En.
  induction n as [|n IH]; intros lower En H.
  - rewrite zrange_nil by lia. constructor.
  - rewrite zrange_cons by lia. cbn [flat_map]. apply StronglySorted_app.
    + repeat constructor. lia.
    + apply IH; lia.
    + intros x y Hx Hy. apply in_flat_map in Hy as (i & Hi & Hy). apply in_zrange in Hi.
      cbn in Hx, Hy. destruct Hx as [<-|[<-|[]]], Hy as [<-|[<-|[]]]; nia.
Qed.

(** ** rectangular *)
Lemma mapM_grid tr (nx ny : Z -> Z) Bx By a b :
  (forall i, (a <= i < b)%Z -> (0 <= nx i)%Z /\ (0 <= ny i)%Z) ->
  mapM (fun i => let! r := rectangle (nx i) (ny i) Bx By in Ok (maybe_transpose tr r)) (zrange a b) =
  Ok (map (turned tr) (map (fun i => grid_field Bx By (nx i) (ny i)) (zrange a b))).
Proof.
  intros H. rewrite map_map. apply mapM_pure. intros i Hi. apply in_zrange, H in Hi.
  rewrite rectangle_grid by apply Hi. cbn [bind]. now rewrite maybe_transpose_turned.
Qed.

(** the fields of the first pass: lines, then rows added to the shortest admissible line *)
Definition first_pass (b1 b2 : R) (n m : Z) : list (list (R * R)) :=
  map (fun i => grid_field b1 b2 i 1) (zrange 1 n) ++ map (fun j => grid_field b1 b2 n j) (zrange 1 m).

Lemma first_pass_sizes b1 b2 n m : (1 <= n)%Z ->
  sizes (first_pass b1 b2 n m) = zrange 1 n ++ map (fun j => n * j)%Z (zrange 1 m).
Proof.
  intros Hn. unfold first_pass. rewrite sizes_app, !sizes_map. f_equal.
  - rewrite <- (map_id (zrange 1 n)) at 2. apply map_ext_zrange. intros i Hi. rewrite grid_field_zlen; lia.
  - apply map_ext_zrange. intros i Hi. rewrite grid_field_zlen; lia.
Qed.
Lemma first_pass_increasing b1 b2 n m : (1 <= n)%Z -> strictly_increasing (sizes (first_pass b1 b2 n m)).
Proof.
  intros Hn. rewrite first_pass_sizes by auto. apply StronglySorted_app.
  - rewrite <- (map_id (zrange 1 n)). apply (StronglySorted_map_zrange (fun i => i)). lia.
  - apply (StronglySorted_map_zrange (fun j => n * j)%Z). intros; nia.
  - intros x y Hx Hy. apply in_map_iff in Hy as (j & <- & Hj). apply in_zrange in Hx, Hj. nia.
Qed.
Lemma first_pass_max b1 b2 n m x : (1 <= n)%Z -> (1 <= m)%Z -> In x (sizes (first_pass b1 b2 n m)) -> (x < n * m)%Z.
Proof.
  intros Hn Hm. rewrite first_pass_sizes by auto. rewrite in_app_iff, in_map_iff.
  intros [H|(j & <- & H)]; apply in_zrange in H; nia.
Qed.
Lemma first_pass_in b1 b2 n m f : (1 <= n)%Z -> In f (first_pass b1 b2 n m) ->
  exists i j, (1 <= i <= n)%Z /\ (1 <= j)%Z /\ (j <= m \/ j = 1)%Z /\ f = grid_field b1 b2 i j.
Proof.
  intros Hn. unfold first_pass. rewrite in_app_iff, !in_map_iff.
  intros [(i & <- & H)|(j & <- & H)]; apply in_zrange in H; do 2 eexists; (split; [|split; [|split; [|reflexivity]]]); lia.
Qed.

Section Rectangular.
Variables (l1 l2 bmin bmax : R).
Hypothesis (Hl2 : 0 < l2) (Hl : l2 <= l1) (Hmin : 0 < bmin) (Hmax : 0 < bmax).
Let nmin := Rceil (l1 / bmax + 1).
Let nmax := Rfloor (l1 / bmin + 1).
Let spc n := l1 / IZR (n - 1).
Let rows n := Rfloor (l2 / spc n + 1).
Let changes n := negb (rows n =? (if n =? nmin then 1 else rows (n - 1)))%Z.

Let nmin2 : (2 <= nmin)%Z. Proof. apply nmin_ge2; lra. Qed.

Lemma rows_pos n : (2 <= n)%Z -> (1 <= rows n)%Z.
Proof.
  intros Hn. apply Rfloor_ge. assert (0 < l2 / spc n); [|lra]. apply div_pos; [lra|]. apply spacing_pos; [lra|auto].
Qed.
Lemma rows_mono n m : (2 <= n <= m)%Z -> (rows n <= rows m)%Z.
Proof.
  intros H. apply Rfloor_mono. apply Rplus_le_compat_r. unfold spc.
  pose proof (IZR_gap n ltac:(lia)). pose proof (IZR_gap m ltac:(lia)). assert (IZR (n - 1) <= IZR (m - 1)) by (apply IZR_le; lia).
  replace (l2 / (l1 / IZR (n - 1))) with (IZR (n - 1) * (l2 / l1)) by (field; lra).
  replace (l2 / (l1 / IZR (m - 1))) with (IZR (m - 1) * (l2 / l1)) by (field; lra).
  pose proof (div_pos l2 l1). apply Rmult_le_compat_r; lra.
Qed.
Lemma rows_fit n : (2 <= n)%Z -> IZR (rows n - 1) * spc n <= l2.
Proof.
  intros Hn. pose proof (spacing_pos l1 n ltac:(lra) Hn) as Hp. fold (spc n) in Hp.
  pose proof (Rfloor_spec (l2 / spc n + 1)) as [H _]. fold (rows n) in H. rewrite IZR_sub1.
  apply le_div; [auto|lra].
Qed.

Definition rect_fields : list (list (R * R)) :=
  first_pass (spc nmin) (spc nmin) nmin (rows nmin)
  ++ map (fun n => grid_field (spc n) (spc n) n (rows n)) (filter changes (zrange nmin (nmax + 1))).

Lemma rectangular_loop tr : (nmin <= nmax + 1)%Z ->
  exists it old, foldM (rectangular_body tr l1 l2 nmin) (zrange nmin (nmax + 1)) (0%Z, 1%Z, []) =
    Ok (it, old, map (turned tr) (if (nmax <? nmin)%Z then [] else rect_fields)).
Proof.
  intros Hr.
  destruct (foldM_zrange (rectangular_body tr l1 l2 nmin)
    (fun n s => if (n =? nmin)%Z then s = (0%Z, 1%Z, [])
                else s = (1%Z, rows (n - 1), map (turned tr) (first_pass (spc nmin) (spc nmin) nmin (rows nmin)
                       ++ map (fun n => grid_field (spc n) (spc n) n (rows n)) (filter changes (zrange nmin n)))))
    nmin (nmax + 1) (0%Z, 1%Z, [])) as (s & E & HI); auto.
  - now rewrite Z.eqb_refl.
  - intros n s Hn HI. rewrite (proj2 (Z.eqb_neq (n + 1) nmin)) by lia.
    eexists. split; [|reflexivity].
    assert (Hsp : 0 < spc n) by (apply spacing_pos; [lra|lia]).
    pose proof (IZR_gap n ltac:(lia)) as Hg.
    assert (Hstep : forall it old d, (n = nmin -> it = 0%Z) -> (n <> nmin -> it <> 0%Z) -> 
       rectangular_body tr l1 l2 nmin (it, old, d) n =
       let d' := if (n =? nmin)%Z then d ++ map (turned tr) (first_pass (spc nmin) (spc nmin) nmin (rows nmin)) else d in
       let it' := if (n =? nmin)%Z then (it + 1)%Z else it in
       if (old =? rows n)%Z then Ok (it', old, d') else Ok (it', rows n, d' ++ [turned tr (grid_field (spc n) (spc n) n (rows n))])).
    { intros it old d H1 H2. unfold rectangular_body. cbn [nofZ NumR]. rewrite pydiv_R by lra. cbn [bind]. fold (spc n).
      rewrite pydiv_R by lra. cbn [bind]. rewrite nfloor_R. cbn [bind nadd nofZ NumR]. fold (rows n).
      destruct (Z.eqb_spec n nmin) as [->|Hne].
      - rewrite H1 by auto. change (0 =? 0)%Z with true. cbn iota.
        rewrite (mapM_grid tr (fun i => i) (fun _ => 1%Z)) by lia. cbn [bind].
        rewrite (mapM_grid tr (fun _ => nmin) (fun j => j)) by lia. cbn [bind].
        unfold first_pass. rewrite map_app. rewrite rectangle_grid by (pose proof (rows_pos nmin); lia).
        cbn [bind]. rewrite maybe_transpose_turned. reflexivity.
      - rewrite (proj2 (Z.eqb_neq it 0)) by auto. cbn [bind].
        rewrite rectangle_grid by (pose proof (rows_pos n); lia). cbn [bind]. now rewrite maybe_transpose_turned. }
    replace (n + 1 - 1)%Z with n by lia.
    rewrite zrange_snoc, filter_app, !map_app, app_assoc by lia. cbn [filter]. unfold changes at 2.
    destruct (Z.eqb_spec n nmin) as [->|Hne].
    + subst s. rewrite Hstep by lia. cbn zeta. rewrite (zrange_nil nmin nmin) by lia. cbn [filter map app].
      rewrite app_nil_r. rewrite (Z.eqb_sym 1). destruct (Z.eqb_spec (rows nmin) 1) as [He|He]; cbn [negb map].
      * rewrite app_nil_r, He. reflexivity.
      * reflexivity.
    + subst s. rewrite Hstep by lia. cbn zeta. rewrite !map_app.
      rewrite (Z.eqb_sym (rows (n - 1))). destruct (Z.eqb_spec (rows n) (rows (n - 1))) as [He|He]; cbn [negb map].
      * rewrite app_nil_r, He. reflexivity.
      * reflexivity.
  - destruct (Z.ltb_spec nmax nmin) as [Hlt|Hge].
    + rewrite (proj2 (Z.eqb_eq (nmax + 1) nmin)) in HI by lia. subst s. eauto.
    + rewrite (proj2 (Z.eqb_neq (nmax + 1) nmin)) in HI by lia. subst s. eauto.
Qed.

Lemma rect_fields_increasing : strictly_increasing (sizes rect_fields).
Proof.
  unfold rect_fields. rewrite sizes_app. apply StronglySorted_app.
  - apply first_pass_increasing. lia.
  - rewrite sizes_map. rewrite (map_ext_in _ (fun n => n * rows n)%Z).
    2:{ intros n Hn. apply filter_In in Hn as [Hn _]. apply in_zrange in Hn. apply grid_field_zlen; [lia|].
        pose proof (rows_pos n). lia. }
    apply StronglySorted_filter_zrange. intros i j Hi Hij Hj _ Hc. pose proof (rows_mono i j ltac:(lia)).
    pose proof (rows_pos i ltac:(lia)). nia.
  - intros x y Hx Hy. apply first_pass_max in Hx; [|lia|apply rows_pos; lia].
    rewrite sizes_map in Hy. apply in_map_iff in Hy as (n & <- & Hn). apply filter_In in Hn as [Hn _].
    apply in_zrange in Hn. pose proof (rows_pos n ltac:(lia)). pose proof (rows_pos nmin ltac:(lia)).
    rewrite grid_field_zlen by lia. pose proof (rows_mono nmin n ltac:(lia)). nia.
Qed.

Lemma rect_fields_in f : (nmin <= nmax)%Z -> In f rect_fields ->
  exists b i j, f = grid_field b b i j /\ (1 <= i)%Z /\ (1 <= j)%Z /\ bmin <= b <= bmax
     /\ IZR (i - 1) * b <= l1 /\ IZR (j - 1) * b <= l2.
Proof.
  intros Hr. unfold rect_fields. rewrite in_app_iff. intros [H|H].
  - apply first_pass_in in H as (i & j & Hi & Hj & Hj' & ->); [|lia].
    exists (spc nmin), i, j. split; auto. split; [lia|]. split; [lia|]. split; [split|split].
    + apply spacing_ge_min; auto; fold nmax; lia.
    + apply spacing_le_max; auto; try lra; fold nmin; lia.
    + apply spacing_fewer; [lra|lia|lia].
    + pose proof (spacing_pos l1 nmin ltac:(lra) nmin2). fold (spc nmin) in H.
      destruct Hj' as [Hj'| ->].
      * apply Rle_trans with (IZR (rows nmin - 1) * spc nmin); [|apply rows_fit; lia]. apply IZR_mult_le; [lra|lia].
      * change (1 - 1)%Z with 0%Z. lra.
  - apply in_map_iff in H as (n & <- & Hn). apply filter_In in Hn as [Hn _]. apply in_zrange in Hn.
    exists (spc n), n, (rows n). split; auto. split; [lia|]. split; [apply rows_pos; lia|]. split; [split|split].
    + apply spacing_ge_min; auto; fold nmax; lia.
    + apply spacing_le_max; auto; try lra; fold nmin; lia.
    + apply spacing_fewer; [lra|lia|lia].
    + apply rows_fit. lia.
Qed.
End Rectangular.

Lemma rectangular_contents lx ly l1 l2 tr bmin bmax :
  oriented lx ly l1 l2 tr -> 0 < l2 -> 0 < bmin -> 0 < bmax ->
  rectangular lx ly bmin bmax =
  Ok (map (turned tr) (if (Rfloor (l1 / bmin + 1) <? Rceil (l1 / bmax + 1))%Z then [] else rect_fields l1 l2 bmin bmax)).
Proof.
  intros Ho H2 Hmin Hmax. unfold rectangular.
  assert (E : (if nle ly lx then (lx, ly, false) else (ly, lx, true)) = (l1, l2, tr)).
  { destruct Ho as [(H & -> & -> & ->)|(H & -> & -> & ->)]; [apply nle_R in H|apply nle_R_false in H]; rewrite H; auto. }
  rewrite E. assert (Hl : l2 <= l1) by (destruct Ho as [(H & -> & -> & ->)|(H & -> & -> & ->)]; lra).
  rewrite !n_float_R by lra. cbn [bind]. rewrite nceil_R, nfloor_R. cbn [bind].
  destruct (Z_le_gt_dec (Rceil (l1 / bmax + 1)) (Rfloor (l1 / bmin + 1) + 1)) as [Hc|Hc].
  - destruct (rectangular_loop l1 l2 bmin bmax H2 Hl Hmax tr Hc) as (it & old & ->). reflexivity.
  - rewrite zrange_nil by lia. cbn [foldM bind snd]. rewrite (proj2 (Z.ltb_lt _ _)) by lia. reflexivity.
Qed.

(** ** bi-rectangular *)
Definition bi_fields (l1 l2 bmin bmax1 : R) (n2 : Z) : list (list (R * R)) :=
  let nmin := Rceil (l1 / bmax1 + 1) in
  let nmax := Rfloor (l1 / bmin + 1) in
  if (nmax <? nmin)%Z then []
  else first_pass (l1 / IZR (nmin - 1)) (l2 / IZR (n2 - 1)) nmin n2
       ++ map (fun n => grid_field (l1 / IZR (n - 1)) (l2 / IZR (n2 - 1)) n n2) (zrange nmin (nmax + 1)).

Lemma bi_rectangular_contents l1 l2 bmin bmax1 bmax2 tr :
  0 < l2 -> l2 <= l1 -> 0 < bmin -> 0 < bmax1 -> 0 < bmax2 ->
  bi_rectangular l1 l2 bmin bmax1 bmax2 tr =
  Ok (map (turned tr) (bi_fields l1 l2 bmin bmax1 (Rceil (l2 / bmax2 + 1)))).
Proof.
  intros H2 Hl Hmin Hmax1 Hmax2. unfold bi_rectangular. rewrite (proj2 (nle_R l2 l1)) by auto.
  rewrite !n_float_R by lra. cbn [bind]. rewrite nceil_R, nfloor_R. cbn [bind]. unfold bi_fields.
  set (nmin := Rceil (l1 / bmax1 + 1)). set (nmax := Rfloor (l1 / bmin + 1)). set (n2 := Rceil (l2 / bmax2 + 1)).
  assert (Hn : (2 <= nmin)%Z) by (apply nmin_ge2; lra). assert (Hn2 : (2 <= n2)%Z) by (apply nmin_ge2; lra).
  destruct (Z.ltb_spec nmax nmin) as [Hlt|Hge].
  { rewrite zrange_nil by lia. reflexivity. }
  destruct (foldM_zrange (bi_rectangular_body tr l1 l2 bmax2)
    (fun n s => if (n =? nmin)%Z then s = (0%Z, [])
                else s = (1%Z, map (turned tr) (first_pass (l1 / IZR (nmin - 1)) (l2 / IZR (n2 - 1)) nmin n2
                     ++ map (fun n => grid_field (l1 / IZR (n - 1)) (l2 / IZR (n2 - 1)) n n2) (zrange nmin n))))
    nmin (nmax + 1) (0%Z, [])) as (s & -> & HI); [lia|now rewrite Z.eqb_refl| |].
  - intros n s Hr HI. rewrite (proj2 (Z.eqb_neq (n + 1) nmin)) by lia.
    eexists. split; [|reflexivity].
    pose proof (IZR_gap n ltac:(lia)) as Hg. pose proof (IZR_gap n2 Hn2) as Hg2.
    rewrite zrange_snoc, !map_app, app_assoc by lia.
    destruct (Z.eqb_spec n nmin) as [->|Hne]; subst s; unfold bi_rectangular_body;
    rewrite n_float_R by lra; cbn [bind]; rewrite nceil_R; cbn [bind]; fold n2;
    cbn [nofZ NumR]; rewrite !pydiv_R by lra; cbn [bind].
    + change (0 =? 0)%Z with true. cbn iota.
      rewrite (mapM_grid tr (fun i => i) (fun _ => 1%Z)) by lia. cbn [bind].
      rewrite (mapM_grid tr (fun _ => nmin) (fun j => j)) by lia. cbn [bind].
      rewrite rectangle_grid by lia. cbn [bind]. rewrite maybe_transpose_turned.
      rewrite (zrange_nil nmin nmin) by lia. unfold first_pass. rewrite map_app. cbn [map app]. rewrite app_nil_r. reflexivity.
    + change (1 =? 0)%Z with false. cbn [bind].
      rewrite rectangle_grid by lia. cbn [bind]. rewrite maybe_transpose_turned, map_app. reflexivity.
  - rewrite (proj2 (Z.eqb_neq (nmax + 1) nmin)) in HI by lia. subst s. reflexivity.
Qed.

Lemma bi_rectangular_swapped lx ly bmin bmax_x bmax_y tr : lx < ly ->
  bi_rectangular lx ly bmin bmax_x bmax_y tr = bi_rectangular ly lx bmin bmax_y bmax_x tr.
Proof.
  intros H. unfold bi_rectangular. rewrite (proj2 (nle_R_false ly lx)), (proj2 (nle_R lx ly)) by lra. reflexivity.
Qed.

Lemma rceil_back l n : 0 < l -> (2 <= n)%Z -> Rceil (l / (l / IZR (n - 1)) + 1) = n.
Proof.
  intros Hl Hn. pose proof (IZR_gap n Hn). replace (l / (l / IZR (n - 1)) + 1) with (IZR n); [apply Rceil_IZR|].
  rewrite IZR_sub1 in *. field. lra.
Qed.

Definition pick {A} (tr : bool) (a b : A) : A := if tr then b else a.

Lemma bi_rectangle_nested_contents lx ly l1 l2 tr bmin bmax_x bmax_y :
  oriented lx ly l1 l2 tr -> 0 < l2 -> 0 < bmin -> 0 < bmax_x -> 0 < bmax_y ->
  bi_rectangle_nested lx ly bmin bmax_x bmax_y =
  Ok (map (fun n2 => map (turned tr) (bi_fields l1 l2 bmin (pick tr bmax_x bmax_y) n2))
          (zrange (Rceil (l2 / pick tr bmax_y bmax_x + 1)) (Rfloor (l2 / bmin + 1) + 1))).
Proof.
  intros Ho H2 Hmin Hx Hy. unfold bi_rectangle_nested.
  assert (E : (if nle ly lx then (lx, ly, bmax_x, bmax_y, false) else (ly, lx, bmax_y, bmax_x, true))
              = (l1, l2, pick tr bmax_x bmax_y, pick tr bmax_y bmax_x, tr)).
  { destruct Ho as [(H & -> & -> & ->)|(H & -> & -> & ->)]; [apply nle_R in H|apply nle_R_false in H]; rewrite H; auto. }
  rewrite E. clear E. assert (Hl : l2 <= l1) by (destruct Ho as [(H & -> & -> & ->)|(H & -> & -> & ->)]; lra).
  assert (H1 : 0 < pick tr bmax_x bmax_y) by (destruct tr; auto).
  assert (H1' : 0 < pick tr bmax_y bmax_x) by (destruct tr; auto).
  rewrite !n_float_R by lra. cbn [bind]. rewrite nceil_R, nfloor_R. cbn [bind].
  apply mapM_pure. intros n Hn. apply in_zrange in Hn. pose proof (nmin_ge2 l2 _ H2 H1').
  pose proof (IZR_gap n ltac:(lia)). cbn [nofZ NumR]. rewrite pydiv_R by lra. cbn [bind].
  rewrite bi_rectangular_contents; auto; [|apply spacing_pos; auto; lia].
  rewrite rceil_back by (auto; lia). reflexivity.
Qed.

Lemma bi_fields_increasing l1 l2 bmin bmax1 n2 : 0 < l1 -> 0 < bmax1 -> (1 <= n2)%Z ->
  strictly_increasing (sizes (bi_fields l1 l2 bmin bmax1 n2)).
Proof.
  intros H1 Hm Hn. unfold bi_fields. cbn zeta. destruct (_ <? _)%Z; [constructor|].
  set (nmin := Rceil (l1 / bmax1 + 1)). assert (Hnm : (2 <= nmin)%Z) by (apply nmin_ge2; lra).
  rewrite sizes_app. apply StronglySorted_app.
  - apply first_pass_increasing. lia.
  - rewrite sizes_map. rewrite (map_ext_zrange _ (fun n => n * n2)%Z).
    + apply StronglySorted_map_zrange. intros. nia.
    + intros i Hi. apply grid_field_zlen; lia.
  - intros x y Hx Hy. apply first_pass_max in Hx; [|lia|lia].
    rewrite sizes_map in Hy. apply in_map_iff in Hy as (n & <- & Hn'). apply in_zrange in Hn'.
    rewrite grid_field_zlen by lia. nia.
Qed.

Lemma bi_fields_in l1 l2 bmin bmax1 n2 f : 0 < l1 -> 0 < l2 -> 0 < bmin -> 0 < bmax1 -> (2 <= n2)%Z ->
  In f (bi_fields l1 l2 bmin bmax1 n2) ->
  exists b i j, f = grid_field b (l2 / IZR (n2 - 1)) i j /\ (1 <= i)%Z /\ (1 <= j <= n2)%Z /\ bmin <= b <= bmax1
     /\ IZR (i - 1) * b <= l1 /\ IZR (j - 1) * (l2 / IZR (n2 - 1)) <= l2.
Proof.
  intros H1 H2 Hmin Hmax Hn. unfold bi_fields. cbn zeta. destruct (Z.ltb_spec (Rfloor (l1 / bmin + 1)) (Rceil (l1 / bmax1 + 1))) as [|Hge]; [intros []|].
  pose proof (nmin_ge2 l1 bmax1 H1 Hmax) as Hnm. rewrite in_app_iff. intros [H|H].
  - apply first_pass_in in H as (i & j & Hi & Hj & Hj' & ->); [|lia].
    do 3 eexists. split; [reflexivity|]. split; [lia|]. split; [lia|]. split; [split|split].
    + apply spacing_ge_min; auto.
    + apply spacing_le_max; auto. lia.
    + apply spacing_fewer; auto. lia.
    + apply spacing_fewer; auto. lia.
  - apply in_map_iff in H as (n & <- & Hr). apply in_zrange in Hr.
    do 3 eexists. split; [reflexivity|]. split; [lia|]. split; [lia|]. split; [split|split].
    + apply spacing_ge_min; auto. lia.
    + apply spacing_le_max; auto. lia.
    + apply spacing_fewer; auto; lia.
    + apply spacing_fewer; auto. lia.
Qed.

Lemma bi_fields_first l1 l2 bmin bmax1 n2 : 0 < l1 -> 0 < bmax1 ->
  bi_fields l1 l2 bmin bmax1 n2 = [] \/ exists r, bi_fields l1 l2 bmin bmax1 n2 = [(0, 0)] :: r.
Proof.
  intros H1 Hm. unfold bi_fields. cbn zeta. destruct (_ <? _)%Z; [auto|right].
  pose proof (nmin_ge2 l1 bmax1 H1 Hm) as Hnm. unfold first_pass. rewrite (zrange_cons 1) by lia. cbn [map app].
  rewrite grid_field_1. eauto.
Qed.
Lemma rect_fields_first l1 l2 bmin bmax : 0 < l1 -> 0 < bmax -> exists r, rect_fields l1 l2 bmin bmax = [(0, 0)] :: r.
Proof.
  intros H1 Hm. unfold rect_fields. cbn zeta.
  pose proof (nmin_ge2 l1 bmax H1 Hm) as Hnm. unfold first_pass. rewrite (zrange_cons 1) by lia. cbn [map app].
  rewrite grid_field_1. eauto.
Qed.
Lemma bi_fields_last l1 l2 bmin bmax1 n2 : (Rceil (l1 / bmax1 + 1) <= Rfloor (l1 / bmin + 1))%Z ->
  exists r, bi_fields l1 l2 bmin bmax1 n2 =
    r ++ [grid_field (l1 / IZR (Rfloor (l1 / bmin + 1) - 1)) (l2 / IZR (n2 - 1)) (Rfloor (l1 / bmin + 1)) n2].
Proof.
  intros H. unfold bi_fields. cbn zeta. rewrite (proj2 (Z.ltb_ge _ _)) by auto.
  rewrite zrange_snoc by auto. rewrite map_app. cbn [map]. rewrite app_assoc. eauto.
Qed.

(** ** zoned rectangle domain *)
Lemma zone_ratio n1 n2 b1 b2 i1 i2 :
  (3 <= n1)%Z -> (3 <= n2)%Z -> (1 <= i1)%Z -> (1 <= i2)%Z -> 0 < b1 -> 0 < b2 ->
  nlt (b1 / b2) (zmul (n1 - 1) b1 / IZR (i1 + 1) / (zmul (n2 - 1) b2 / IZR (i2 + 2))) =
  ((n2 - 1) * (i1 + 1) <? (n1 - 1) * (i2 + 2))%Z.
Proof.
  intros H1 H2 Hi1 Hi2 Hb1 Hb2. rewrite !zmul_R.
  assert (A1 : 0 < IZR (n1 - 1)) by (apply (IZR_lt 0); lia).
  assert (A2 : 0 < IZR (n2 - 1)) by (apply (IZR_lt 0); lia).
  assert (A3 : 0 < IZR (i1 + 1)) by (apply (IZR_lt 0); lia).
  assert (A4 : 0 < IZR (i2 + 2)) by (apply (IZR_lt 0); lia).
  replace (IZR (n1 - 1) * b1 / IZR (i1 + 1) / (IZR (n2 - 1) * b2 / IZR (i2 + 2)))
    with (b1 / b2 * (IZR ((n1 - 1) * (i2 + 2)) / IZR ((n2 - 1) * (i1 + 1)))).
  2:{ rewrite !mult_IZR. field. repeat split; lra. }
  pose proof (div_pos b1 b2 Hb1 Hb2) as Hp.
  set (K := ((n1 - 1) * (i2 + 2))%Z). set (M := ((n2 - 1) * (i1 + 1))%Z).
  assert (HM : 0 < IZR M) by (apply (IZR_lt 0); unfold M; nia).
  destruct (Z.ltb_spec M K) as [H|H].
  - apply nlt_R. assert (1 < IZR K / IZR M).
    { apply IZR_lt in H. apply (Rmult_lt_reg_r (IZR M)); auto. unfold Rdiv. rewrite Rmult_assoc, Rinv_l; lra. }
    nra.
  - apply nlt_R_false. assert (IZR K / IZR M <= 1).
    { apply IZR_le in H. apply (Rmult_le_reg_r (IZR M)); auto. unfold Rdiv. rewrite Rmult_assoc, Rinv_l; lra. }
    nra.
Qed.

Lemma zoned_loop_ok tr n1 n2 b1 b2 : (3 <= n1)%Z -> (3 <= n2)%Z -> 0 < b1 -> 0 < b2 ->
  forall fuel i1 i2, (1 <= i1 <= n1 - 2)%Z -> (1 <= i2 <= n2 - 2)%Z ->
  ((n1 - 2 - i1) + (n2 - 2 - i2) <= Z.of_nat fuel)%Z ->
  exists path fs, zoned_loop fuel tr n1 n2 b1 b2 i1 i2 = Ok (map (turned tr) fs)
    /\ zone_steps n1 n2 (i1, i2) path
    /\ Forall2 (fun ij f => zoned_rectangle n1 n2 b1 b2 (fst ij) (snd ij) = Ok f) path fs.
Proof.
  intros H1 H2 Hb1 Hb2. induction fuel as [|fuel IH]; intros i1 i2 Hi1 Hi2 Hf.
  - exists [], []. cbn [zoned_loop]. replace ((i1 <? n1 - 2)%Z || (i2 <? n2 - 2)%Z) with false.
    2:{ symmetry. apply orb_false_iff. rewrite !Z.ltb_ge. lia. }
    split; [reflexivity|]. split; [|constructor]. cbn. f_equal; lia.
  - cbn [zoned_loop]. destruct ((i1 <? n1 - 2)%Z || (i2 <? n2 - 2)%Z) eqn:Ec.
    2:{ apply orb_false_iff in Ec. rewrite !Z.ltb_ge in Ec. exists [], []. split; [reflexivity|].
        split; [|constructor]. cbn. f_equal; lia. }
    apply orb_true_iff in Ec. rewrite !Z.ltb_lt in Ec.
    assert (A1 : 0 < IZR (n1 - 1)) by (apply (IZR_lt 0); lia).
    assert (A2 : 0 < IZR (n2 - 1)) by (apply (IZR_lt 0); lia).
    assert (A3 : 0 < IZR (i1 + 1)) by (apply (IZR_lt 0); lia).
    assert (A4 : 0 < IZR (i2 + 1)) by (apply (IZR_lt 0); lia).
    assert (A5 : 0 < IZR (i1 + 2)) by (apply (IZR_lt 0); lia).
    assert (A6 : 0 < IZR (i2 + 2)) by (apply (IZR_lt 0); lia).
    cbn [nofZ NumR]. rewrite !pydiv_R by lra. cbn [bind].
    rewrite !pydiv_R by (rewrite zmul_R; apply Rgt_not_eq, div_pos; auto; apply Rmult_lt_0_compat; auto).
    cbn [bind]. fold NumR.
    rewrite zone_ratio by (auto; lia).
    assert (Hle : forall x y : R, nlt x y = false -> nle y x = true).
    { intros x y Hxy. apply nlt_R_false in Hxy. now apply nle_R. }
    destruct (Z.ltb_spec ((n2 - 1) * (i1 + 1)) ((n1 - 1) * (i2 + 2))) as [Hr|Hr].
    + cbn [bind]. assert (Hi : (i1 < n1 - 2)%Z) by nia.
      destruct (zoned_rectangle_spec n1 n2 b1 b2 (i1 + 1) i2) as (f & Ef & _); try lia.
      rewrite Ef. cbn [bind]. destruct (IH (i1 + 1)%Z i2) as (path & fs & -> & Hp & Hfs); try lia.
      exists ((i1 + 1, i2)%Z :: path), (f :: fs). cbn [bind]. rewrite maybe_transpose_turned. split; [reflexivity|].
      split; [|constructor; auto]. cbn [zone_steps fst snd]. rewrite (proj2 (Z.ltb_lt _ _)) by auto.
      split; [intros [= ? ?]; lia|]. auto.
    + rewrite Hle. 2:{ rewrite zone_ratio by (auto; lia). apply Z.ltb_ge. auto. }
      cbn [bind]. assert (Hi : (i2 < n2 - 2)%Z) by nia.
      destruct (zoned_rectangle_spec n1 n2 b1 b2 i1 (i2 + 1)) as (f & Ef & _); try lia.
      rewrite Ef. cbn [bind]. destruct (IH i1 (i2 + 1)%Z) as (path & fs & -> & Hp & Hfs); try lia.
      exists ((i1, i2 + 1)%Z :: path), (f :: fs). cbn [bind]. rewrite maybe_transpose_turned. split; [reflexivity|].
      split; [|constructor; auto]. cbn [zone_steps fst snd]. rewrite (proj2 (Z.ltb_ge _ _)) by auto.
      split; [intros [= ? ?]; lia|]. auto.
Qed.

Lemma zoned_rectangle_domain_ok lx ly l1 l2 otr nx ny tr :
  oriented lx ly l1 l2 otr -> 0 < l2 -> (3 <= nx)%Z -> (3 <= ny)%Z ->
  let n1 := pick otr nx ny in let n2 := pick otr ny nx in
  let b1 := l1 / IZR (n1 - 1) in let b2 := l2 / IZR (n2 - 1) in
  exists path f0 fs, zoned_rectangle_domain lx ly nx ny tr = Ok (f0 :: map (turned tr) fs)
    /\ zone_steps n1 n2 (1, 1)%Z path
    /\ zoned_rectangle n1 n2 b1 b2 1 1 = Ok f0
    /\ Forall2 (fun ij f => zoned_rectangle n1 n2 b1 b2 (fst ij) (snd ij) = Ok f) path fs.
Proof.
  intros Ho H2 Hx Hy n1 n2 b1 b2. unfold zoned_rectangle_domain.
  assert (E : (if nle ly lx then (lx, ly, nx, ny) else (ly, lx, ny, nx)) = (l1, l2, n1, n2)).
  { destruct Ho as [(H & -> & -> & ->)|(H & -> & -> & ->)]; [apply nle_R in H|apply nle_R_false in H]; rewrite H; auto. }
  rewrite E. clear E. assert (Hl : l2 <= l1) by (destruct Ho as [(H & -> & -> & ->)|(H & -> & -> & ->)]; lra).
  assert (Hn1 : (3 <= n1)%Z) by (unfold n1, pick; destruct otr; auto).
  assert (Hn2 : (3 <= n2)%Z) by (unfold n2, pick; destruct otr; auto).
  pose proof (IZR_gap n1 ltac:(lia)). pose proof (IZR_gap n2 ltac:(lia)).
  cbn [nofZ NumR]. rewrite !pydiv_R by lra. cbn [bind]. fold b1 b2.
  assert (Hb1 : 0 < b1) by (apply spacing_pos; [lra|lia]). assert (Hb2 : 0 < b2) by (apply spacing_pos; [lra|lia]).
  destruct (zoned_rectangle_spec n1 n2 b1 b2 1 1) as (f0 & Ef & _); try lia.
  rewrite Ef. cbn [bind].
  destruct (zoned_loop_ok tr n1 n2 b1 b2 Hn1 Hn2 Hb1 Hb2 (Z.to_nat (n1 + n2)) 1 1) as (path & fs & -> & Hp & Hfs); try lia.
  exists path, f0, fs. cbn [bind]. auto.
Qed.

Lemma zoned_rectangle_domain_err (lx ly : R) nx ny tr :
  (2 <= nx)%Z -> (2 <= ny)%Z -> (nx = 2 \/ ny = 2)%Z -> 0 < lx -> 0 < ly ->
  zoned_rectangle_domain lx ly nx ny tr = Err ValueError.
Proof.
  intros Hx Hy H Hlx Hly. unfold zoned_rectangle_domain.
  assert (Hq : exists l1 l2 n1 n2, (if nle ly lx then (lx, ly, nx, ny) else (ly, lx, ny, nx)) = (l1, l2, n1, n2)
     /\ (2 <= n1)%Z /\ (2 <= n2)%Z /\ (n1 = 2 \/ n2 = 2)%Z).
  { destruct (nle ly lx); do 4 eexists; (split; [reflexivity|lia]). }
  destruct Hq as (l1 & l2 & n1 & n2 & -> & Hn1 & Hn2 & Hn).
  pose proof (IZR_gap n1 ltac:(lia)). pose proof (IZR_gap n2 ltac:(lia)).
  cbn [nofZ NumR]. rewrite !pydiv_R by lra. cbn [bind]. rewrite zoned_rectangle_err by lia. reflexivity.
Qed.

(** facts about the path *)
Lemma zone_steps_length n1 n2 path : forall i1 i2, (i1 <= n1 - 2)%Z -> (i2 <= n2 - 2)%Z ->
  zone_steps n1 n2 (i1, i2) path -> zlen path = (n1 - 2 - i1 + (n2 - 2 - i2))%Z.
Proof.
  assert (HH : forall i1 i2, zone_steps n1 n2 (i1, i2) path -> zlen path = (n1 - 2 - i1 + (n2 - 2 - i2))%Z).
  2:{ intros; now apply HH. }
  induction path as [|[j1 j2] path IH]; intros i1 i2 H; cbn in H.
  - injection H as -> ->. rewrite zlen_nil. lia.
  - destruct H as (_ & E & H). apply IH in H. rewrite zlen_cons, H.
    destruct (_ <? _)%Z in E; injection E as -> ->; lia.
Qed.
Lemma zone_steps_range n1 n2 path : forall i1 i2, (0 <= i1)%Z -> (0 <= i2)%Z ->
  zone_steps n1 n2 (i1, i2) path -> forall q, In q path -> (i1 <= fst q <= n1 - 2 /\ i2 <= snd q <= n2 - 2)%Z.
Proof.
  assert (HH : forall i1 i2, zone_steps n1 n2 (i1, i2) path -> (i1 <= n1 - 2 /\ i2 <= n2 - 2)%Z).
  { induction path as [|[j1 j2] path IH]; intros i1 i2 H; cbn in H.
    - injection H as -> ->. lia.
    - destruct H as (_ & E & H). apply IH in H. destruct (_ <? _)%Z in E; injection E as -> ->; lia. }
  induction path as [|[j1 j2] path IH]; intros i1 i2 Hi1 Hi2 H q Hq; [destruct Hq|].
  pose proof H as H'. cbn [zone_steps] in H'. destruct H' as (_ & E & H').
  assert (Hle : (i1 <= j1 /\ i2 <= j2)%Z) by (destruct (_ <? _)%Z in E; injection E as -> ->; cbn [fst snd]; lia).
  destruct Hq as [<-|Hq].
  - cbn [fst snd]. assert (HH' : (j1 <= n1 - 2 /\ j2 <= n2 - 2)%Z).
    { clear - H'. revert j1 j2 H'. induction path as [|[k1 k2] path IH]; intros i1 i2 H; cbn in H.
      - injection H as -> ->. lia.
      - destruct H as (_ & E & H). apply IH in H. destruct (_ <? _)%Z in E; injection E as -> ->; lia. }
    lia.
  - assert (HHq := fun HH0 => IH HH0 j1 j2 ltac:(lia) ltac:(lia) H' q Hq).
    assert (HHp : forall i1 i2, zone_steps n1 n2 (i1, i2) path -> (i1 <= n1 - 2 /\ i2 <= n2 - 2)%Z).
    { clear. induction path as [|[k1 k2] path IH]; intros i1 i2 H; cbn in H.
      - injection H as -> ->. lia.
      - destruct H as (_ & E & H). apply IH in H. destruct (_ <? _)%Z in E; injection E as -> ->; lia. }
    specialize (HHq HHp). lia.
Qed.
Lemma zone_steps_sizes n1 n2 path : forall i1 i2, (1 <= i1)%Z -> (1 <= i2)%Z ->
  zone_steps n1 n2 (i1, i2) path -> 
  StronglySorted Z.lt (map (fun q => fst q * snd q)%Z ((i1, i2) :: path)).
Proof.
  induction path as [|[j1 j2] path IH]; intros i1 i2 Hi1 Hi2 H; cbn [map].
  - repeat constructor.
  - cbn [zone_steps] in H. destruct H as (_ & E & H).
    assert (Hj : (i1 * i2 < j1 * j2 /\ 1 <= j1 /\ 1 <= j2)%Z)
      by (destruct (_ <? _)%Z in E; injection E as -> ->; cbn [fst snd]; nia).
    specialize (IH j1 j2 ltac:(lia) ltac:(lia) H). constructor; auto.
    inversion IH as [|? ? _ Hall]; subst. cbn [map fst snd] in *.
    constructor; [lia|]. eapply Forall_impl; [|exact Hall]. cbn. lia.
Qed.

(** ** bi-zoned *)
Lemma py_nth_zrange a b i : (0 <= i < b - a)%Z -> py_nth (zrange a b) i = Ok (a + i)%Z.
Proof.
  intros H. apply py_nth_nonneg; [lia|]. unfold zrange. rewrite nth_error_zseq.
  replace (Z.to_nat i <? Z.to_nat (b - a))%nat with true by (symmetry; apply Nat.ltb_lt; lia). f_equal. lia.
Qed.

(** the shapes offered before the first zoned rectangle *)
Definition shape_ok (bx by_ : R) (N1 N2 s : Z) (f : list (R * R)) : Prop :=
  zlen f = s
  /\ (forall p, In p f -> exists i j, (0 <= i < N1)%Z /\ (0 <= j < N2)%Z /\ p = grid bx by_ i j)
  /\ (0 < bx -> 0 < by_ -> NoDup f).

Lemma mapM_exists {A B} (g : A -> res B) (P : A -> B -> Prop) l :
  (forall a, In a l -> exists b, g a = Ok b /\ P a b) -> exists bs, mapM g l = Ok bs /\ Forall2 P l bs.
Proof.
  induction l as [|a l IH]; intros H; cbn [mapM]; [eauto|].
  destruct (H a (or_introl eq_refl)) as (b & -> & Hb). destruct IH as (bs & -> & Hbs); [intros; apply H; now right|].
  exists (b :: bs). cbn [bind]. auto.
Qed.

Lemma zrange_shift a b c : zrange (a + c) (b + c) = map (fun i => (i + c)%Z) (zrange a b).
Proof.
  unfold zrange. replace (b + c - (a + c))%Z with (b - a)%Z by lia. generalize (Z.to_nat (b - a)) as n.
  intros n. revert a. induction n as [|n IH]; intros a; cbn [zseq map]; auto. f_equal.
  replace (a + c + 1)%Z with (a + 1 + c)%Z by lia. apply IH.
Qed.
Lemma Forall2_map_l {A B C} (P : B -> C -> Prop) (g : A -> B) l bs : Forall2 (fun a => P (g a)) l bs -> Forall2 P (map g l) bs.
Proof. induction 1; cbn; auto. Qed.

Lemma bi_zoned_prefix_ok tr (lx ly : R) N1 N2 : (2 <= N1)%Z -> (2 <= N2)%Z ->
  exists fs, bi_zoned_prefix tr lx ly N1 N2 = Ok (map (turned tr) fs)
    /\ Forall2 (shape_ok (lx / IZR (N1 - 1)) (ly / IZR (N2 - 1)) N1 N2) (zrange 1 (2 * N1 + 2 * N2 - 3)) fs.
Proof.
  intros H1 H2. unfold bi_zoned_prefix. pose proof (IZR_gap N1 H1). pose proof (IZR_gap N2 H2).
  cbn [nofZ NumR]. rewrite !pydiv_R by lra. cbn [bind].
  set (bx := lx / IZR (N1 - 1)). set (by_ := ly / IZR (N2 - 1)).
  assert (Hgen : forall (g : Z -> res (list (R * R))) a b c,
    (forall l, (a <= l < b)%Z -> exists f, g l = Ok f /\ shape_ok bx by_ N1 N2 (l + c) f) ->
    exists fs, mapM (fun l => let! r := g l in Ok (maybe_transpose tr r)) (zrange a b) = Ok (map (turned tr) fs)
      /\ Forall2 (shape_ok bx by_ N1 N2) (zrange (a + c) (b + c)) fs).
  { intros g a b c Hg.
    destruct (mapM_exists g (fun l f => shape_ok bx by_ N1 N2 (l + c) f) (zrange a b)) as (fs & Efs & Hfs).
    { intros l Hl. apply in_zrange in Hl. auto. }
    exists fs. split.
    - apply mapM_ok in Efs. clear -Efs. induction Efs as [|l f ls fs Hl Hls IH]; [reflexivity|].
      cbn [mapM]. rewrite Hl. cbn [bind]. rewrite IH. cbn [bind map]. now rewrite maybe_transpose_turned.
    - rewrite zrange_shift. now apply Forall2_map_l. }
  destruct (Hgen (fun l => rectangle l 1 bx by_) 1 (N1 + 1) 0)%Z as (f1 & -> & F1).
  { intros l Hl. rewrite rectangle_grid by lia. eexists; split; [reflexivity|].
    destruct (grid_field_spec l 1 bx by_) as (Hz & Hm & Hn); try lia. repeat split; auto; [lia|].
    intros p Hp. apply Hm in Hp as (i & j & Hi & Hj & ->). exists i, j. repeat split; lia. }
  cbn [bind].
  destruct (Hgen (fun l => L_shape N1 l bx by_) 2 (N2 + 1) (N1 - 1))%Z as (f2 & -> & F2).
  { intros l Hl. destruct (L_shape_spec N1 l bx by_) as (f & -> & Hz & Hm & Hn); try lia. eexists; split; [reflexivity|].
    repeat split; auto; [lia|].
    intros p Hp. apply Hm in Hp as (i & j & Hi & Hj & _ & ->). exists i, j. repeat split; lia. }
  cbn [bind].
  destruct (Hgen (fun l => lop_U N1 N2 bx by_ l) 2 (N2 + 1) (N1 + N2 - 2))%Z as (f3 & -> & F3).
  { intros l Hl. destruct (lop_U_spec N1 N2 bx by_ l) as (f & -> & Hz & Hm & Hn); try lia. eexists; split; [reflexivity|].
    repeat split; auto; [lia|].
    intros p Hp. apply Hm in Hp as (i & j & Hi & Hj & Hjj & ->). exists i, j. repeat split; lia. }
  cbn [bind].
  destruct (Hgen (fun l => C_shape N1 N2 bx by_ l) 1 (N1 - 1) (N1 + 2 * N2 - 2))%Z as (f4 & -> & F4).
  { intros l Hl. destruct (C_shape_spec N1 N2 bx by_ l) as (f & -> & Hz & Hm & Hn); try lia. eexists; split; [reflexivity|].
    split; [lia|]. split.
    - intros p Hp. apply Hm in Hp as (i & j & -> & Hij). exists i, j. repeat split; lia.
    - intros; apply Hn; auto; lia. }
  cbn [bind]. exists (f1 ++ f2 ++ f3 ++ f4). split; [now rewrite !map_app|].
  rewrite (zrange_app 1 (N1 + 1)) by lia. apply Forall2_app; [now rewrite !Z.add_0_r in F1|].
  rewrite (zrange_app (N1 + 1) (N1 + N2)) by lia. apply Forall2_app.
  { replace (2 + (N1 - 1))%Z with (N1 + 1)%Z in F2 by lia. now replace (N2 + 1 + (N1 - 1))%Z with (N1 + N2)%Z in F2 by lia. }
  rewrite (zrange_app (N1 + N2) (N1 + 2 * N2 - 1)) by lia. apply Forall2_app.
  { replace (2 + (N1 + N2 - 2))%Z with (N1 + N2)%Z in F3 by lia.
    now replace (N2 + 1 + (N1 + N2 - 2))%Z with (N1 + 2 * N2 - 1)%Z in F3 by lia. }
  replace (1 + (N1 + 2 * N2 - 2))%Z with (N1 + 2 * N2 - 1)%Z in F4 by lia.
  now replace (N1 - 1 + (N1 + 2 * N2 - 2))%Z with (2 * N1 + 2 * N2 - 3)%Z in F4 by lia.
Qed.

Lemma bi_zoned_l_pos N1 N2 : (2 <= N1)%Z -> (2 <= N2)%Z -> (0 < bi_zoned_l N1 N2)%Z.
Proof.
  intros H1 H2. unfold bi_zoned_l, after_range. 
  destruct (1 <? N1 - 1)%Z eqn:E1; [apply Z.ltb_lt in E1; lia|].
  destruct (2 <? N2 + 1)%Z eqn:E2; [lia|]. apply Z.ltb_ge in E2. lia.
Qed.

Lemma zoned_ok tr (l1 l2 : R) n1 n2 : 0 < l2 -> l2 <= l1 -> (3 <= n1)%Z -> (3 <= n2)%Z -> exists z, zoned_rectangle_domain l1 l2 n1 n2 tr = Ok z.
Proof.
  intros. destruct (zoned_rectangle_domain_ok l1 l2 l1 l2 false n1 n2 tr) as (? & ? & ? & E & _); auto; [left; auto|eauto].
Qed.

(** the loop over the domains, in any arithmetic in which the zoned domains and the first shapes can be built *)
Section BiZoned.
Context {F : Type} {N : Num F}.
Variables (tr : bool) (lx ly l1 l2 : F) (N1 M1 N2 M2 : Z).
Hypothesis (HN1 : (3 <= N1 <= M1)%Z) (HN2 : (3 <= N2 <= M2)%Z).
Hypothesis (Hzoned : forall n1 n2, (N1 <= n1 <= M1)%Z -> (N2 <= n2 <= M2)%Z -> exists z, zoned_rectangle_domain l1 l2 n1 n2 tr = Ok z).
Hypothesis (Hprefix : exists pre, bi_zoned_prefix tr lx ly N1 N2 = Ok pre).
Let body := bi_zoned_body tr lx ly l1 l2 N1 N2 (zrange N1 (M1 + 1)) (zrange N2 (M2 + 1)).
Let top := (M1 - N1 + (M2 - N2) + 1)%Z.

Definition next (i : Z) (jk : Z * Z) : Z * Z :=
  let (j, k) := jk in
  if Z.even i then (if (j <? M1 - N1)%Z then (j + 1, k) else (j, k + 1))%Z
  else (if (k <? M2 - N2)%Z then (j, k + 1) else (j + 1, k))%Z.

Lemma body_step i j k l nested : (0 <= j <= M1 - N1)%Z -> (0 <= k <= M2 - N2)%Z ->
  exists pre z l', body (j, k, l, nested) i = Ok (fst (next i (j, k)), snd (next i (j, k)), l', nested ++ [pre ++ z])
    /\ zoned_rectangle_domain l1 l2 (N1 + j) (N2 + k) tr = Ok z
    /\ (0 < l' \/ l <> 0 /\ l' = l)%Z
    /\ (if (l =? 0)%Z then bi_zoned_prefix tr lx ly N1 N2 = Ok pre else pre = []).
Proof.
  intros Hj Hk. unfold body, bi_zoned_body.
  rewrite !py_nth_zrange by lia. destruct (Hzoned (N1 + j)%Z (N2 + k)%Z) as (z & Hz); [lia|lia|].
  assert (Hmod : (i mod 2 =? 0)%Z = Z.even i).
  { rewrite Zmod_even. destruct (Z.even i); reflexivity. }
  rewrite Hmod, !zrange_zlen. replace (Z.max 0 (M1 + 1 - N1) - 1)%Z with (M1 - N1)%Z by lia.
  replace (Z.max 0 (M2 + 1 - N2) - 1)%Z with (M2 - N2)%Z by lia.
  destruct (Z.eqb_spec l 0) as [->|Hne].
  - destruct Hprefix as (pre & Hp). rewrite Hp.
    exists pre, z, (bi_zoned_l N1 N2). cbn [bind]. rewrite Hz. cbn [bind]. unfold next.
    split; [|split; [auto|split; [left; apply bi_zoned_l_pos; lia|auto]]].
    destruct (Z.even i), (j <? M1 - N1)%Z, (k <? M2 - N2)%Z; reflexivity.
  - exists [], z, l. cbn [bind]. rewrite Hz. cbn [bind app]. unfold next.
    split; [|split; [auto|split; [right; auto|auto]]].
    destruct (Z.even i), (j <? M1 - N1)%Z, (k <? M2 - N2)%Z; reflexivity.
Qed.

Lemma bi_zoned_tail m : forall i j k l nested, (Z.of_nat m = top - 1 - i)%Z -> (0 < l)%Z ->
  (0 <= j <= M1 - N1)%Z -> (0 <= k <= M2 - N2)%Z -> (j + k = i)%Z ->
  exists path ds s, foldM body (zrange i top) (j, k, l, nested) = Ok (s, nested ++ ds)
    /\ staircase i M1 M2 (N1 + j, N2 + k)%Z path
    /\ Forall2 (fun n d => zoned_rectangle_domain l1 l2 (fst n) (snd n) tr = Ok d) ((N1 + j, N2 + k)%Z :: path) ds.
Proof.
  induction m as [|m IH]; intros i j k l nested Hm Hlp Hj Hk Hjk.
  - destruct (body_step i j k l nested Hj Hk) as (pre & z & l' & Hb & Hz & _ & Hp).
    rewrite (proj2 (Z.eqb_neq l 0)) in Hp by lia. subst pre.
    rewrite zrange_cons by lia. cbn [foldM]. rewrite Hb. cbn [bind]. rewrite zrange_nil by lia. cbn [foldM].
    exists [], [z]. eexists. split; [reflexivity|]. unfold top in *. split; [cbn; f_equal; lia|]. constructor; auto.
  - destruct (body_step i j k l nested Hj Hk) as (pre & z & l' & Hb & Hz & Hl' & Hp).
    rewrite (proj2 (Z.eqb_neq l 0)) in Hp by lia. subst pre.
    rewrite zrange_cons by lia. cbn [foldM]. rewrite Hb. cbn [bind app]. unfold top in Hm.
    destruct (next i (j, k)) as [j' k'] eqn:En. cbn [fst snd].
    assert (Hn : (0 <= j' <= M1 - N1 /\ 0 <= k' <= M2 - N2 /\ j' + k' = i + 1)%Z).
    { revert En. unfold next. destruct (Z.even i), (Z.ltb_spec j (M1 - N1)), (Z.ltb_spec k (M2 - N2)); intros [= <- <-]; lia. }
    destruct (IH (i + 1)%Z j' k' l' (nested ++ [z])) as (path & ds & s & Hf & Hs & Hd); try lia.
    exists ((N1 + j', N2 + k')%Z :: path), (z :: ds), s. split; [rewrite Hf, <- app_assoc; reflexivity|].
    split; [|constructor; auto]. cbn [staircase fst snd]. split; [intros [= ? ?]; lia|]. split; auto.
    revert En. unfold next. replace (N1 + j <? M1)%Z with (j <? M1 - N1)%Z.
    2:{ destruct (Z.ltb_spec j (M1 - N1)); symmetry; [apply Z.ltb_lt|apply Z.ltb_ge]; lia. }
    replace (N2 + k <? M2)%Z with (k <? M2 - N2)%Z.
    2:{ destruct (Z.ltb_spec k (M2 - N2)); symmetry; [apply Z.ltb_lt|apply Z.ltb_ge]; lia. }
    destruct (Z.even i), (j <? M1 - N1)%Z, (k <? M2 - N2)%Z; intros [= <- <-]; f_equal; lia.
Qed.

Lemma bi_zoned_loop :
  exists path pre d ds s, foldM body (zrange 0 top) (0%Z, 0%Z, 0%Z, []) = Ok (s, (pre ++ d) :: ds)
    /\ bi_zoned_prefix tr lx ly N1 N2 = Ok pre
    /\ staircase 0 M1 M2 (N1, N2) path
    /\ Forall2 (fun n d => zoned_rectangle_domain l1 l2 (fst n) (snd n) tr = Ok d) ((N1, N2) :: path) (d :: ds).
Proof.
  destruct (body_step 0 0 0 0 []) as (pre & z & l' & Hb & Hz & Hl' & Hp); try lia. cbn [Z.eqb] in Hp.
  rewrite !Z.add_0_r in Hz.
  assert (Htop : (1 <= top)%Z) by (unfold top; lia). rewrite zrange_cons by lia. cbn [foldM]. rewrite Hb. cbn [bind app].
  destruct (Z.eq_dec top 1) as [E|E].
  - rewrite zrange_nil by lia. cbn [foldM]. exists [], pre, z, []. eexists. split; [reflexivity|]. split; auto.
    unfold top in E. split; [cbn; f_equal; lia|]. constructor; auto.
  - destruct (next 0 (0, 0)%Z) as [j' k'] eqn:En. cbn [fst snd].
    assert (Hn : (0 <= j' <= M1 - N1 /\ 0 <= k' <= M2 - N2 /\ j' + k' = 1)%Z).
    { revert En. unfold next. cbn [Z.even]. unfold top in *. destruct (Z.ltb_spec 0 (M1 - N1)); intros [= <- <-]; lia. }
    destruct (bi_zoned_tail (Z.to_nat (top - 2)) 1 j' k' l' [pre ++ z]) as (path & ds & s & Hf & Hs & Hd); try lia.
    exists ((N1 + j', N2 + k')%Z :: path), pre, z, ds, s. split; [change (0 + 1)%Z with 1%Z; rewrite Hf; reflexivity|].
    split; auto. split; [|constructor; auto].
    cbn [staircase fst snd]. unfold top in *. split; [intros [= ? ?]; lia|]. split; auto.
    revert En. unfold next. change (Z.even 0) with true. cbn iota.
    destruct (Z.ltb_spec 0 (M1 - N1)); intros [= <- <-].
    + rewrite (proj2 (Z.ltb_lt N1 M1)) by lia. f_equal; lia.
    + rewrite (proj2 (Z.ltb_ge N1 M1)) by lia. f_equal; lia.
Qed.
End BiZoned.

Definition zoned_bounds (l bmin bmax : R) : Z * Z := (Rceil (l / bmax + 1), Rfloor (l / bmin + 1)).

Lemma bi_zoned_unfold lx ly l1 l2 tr bmin bmax_x bmax_y :
  oriented lx ly l1 l2 tr -> 0 < bmin -> 0 < bmax_x -> 0 < bmax_y ->
  bi_rectangle_zoned_nested lx ly bmin bmax_x bmax_y =
  let v1 := zrange (Rceil (l1 / pick tr bmax_x bmax_y + 1)) (Rfloor (l1 / bmin + 1) + 1) in
  let v2 := zrange (Rceil (l2 / pick tr bmax_y bmax_x + 1)) (Rfloor (l2 / bmin + 1) + 1) in
  let! s := foldM (bi_zoned_body tr lx ly l1 l2 (Rceil (l1 / pick tr bmax_x bmax_y + 1))
                                 (Rceil (l2 / pick tr bmax_y bmax_x + 1)) v1 v2)
                  (zrange 0 (zlen v1 + zlen v2 - 1)) (0%Z, 0%Z, 0%Z, []) in
  Ok (snd s).
Proof.
  intros Ho Hmin Hx Hy. unfold bi_rectangle_zoned_nested.
  assert (E : (if nle ly lx then (lx, ly, bmax_x, bmax_y, false) else (ly, lx, bmax_y, bmax_x, true))
              = (l1, l2, pick tr bmax_x bmax_y, pick tr bmax_y bmax_x, tr)).
  { destruct Ho as [(H & -> & -> & ->)|(H & -> & -> & ->)]; [apply nle_R in H|apply nle_R_false in H]; rewrite H; auto. }
  rewrite E. assert (H1 : 0 < pick tr bmax_x bmax_y) by (destruct tr; auto).
  assert (H1' : 0 < pick tr bmax_y bmax_x) by (destruct tr; auto).
  rewrite !n_float_R by lra. cbn [bind]. rewrite !nceil_R, !nfloor_R. cbn [bind]. reflexivity.
Qed.

Lemma bi_zoned_ok lx ly l1 l2 tr bmin bmax_x bmax_y :
  oriented lx ly l1 l2 tr -> 0 < l2 -> 0 < bmin -> 0 < bmax_x -> 0 < bmax_y ->
  let N1 := Rceil (l1 / pick tr bmax_x bmax_y + 1) in let M1 := Rfloor (l1 / bmin + 1) in
  let N2 := Rceil (l2 / pick tr bmax_y bmax_x + 1) in let M2 := Rfloor (l2 / bmin + 1) in
  (3 <= N1 <= M1)%Z -> (3 <= N2 <= M2)%Z ->
  exists path pre d ds, bi_rectangle_zoned_nested lx ly bmin bmax_x bmax_y = Ok ((pre ++ d) :: ds)
    /\ bi_zoned_prefix tr lx ly N1 N2 = Ok pre
    /\ staircase 0 M1 M2 (N1, N2) path
    /\ Forall2 (fun n d => zoned_rectangle_domain l1 l2 (fst n) (snd n) tr = Ok d) ((N1, N2) :: path) (d :: ds).
Proof.
  intros Ho H2 Hmin Hx Hy N1 M1 N2 M2 HN1 HN2. rewrite (bi_zoned_unfold lx ly l1 l2 tr) by auto.
  fold N1 M1 N2 M2. cbn zeta. assert (Hl : l2 <= l1) by (destruct Ho as [(H & -> & -> & ->)|(H & -> & -> & ->)]; lra).
  destruct (bi_zoned_loop tr lx ly l1 l2 N1 M1 N2 M2 HN1 HN2) as (path & pre & d & ds & s & Hf & Hr).
  { intros. apply zoned_ok; auto; lia. }
  { destruct (bi_zoned_prefix_ok tr lx ly N1 N2) as (fs & Hp & _); [lia|lia|eauto]. }
  exists path, pre, d, ds. split; auto. rewrite !zrange_zlen.
  replace (Z.max 0 (M1 + 1 - N1) + Z.max 0 (M2 + 1 - N2) - 1)%Z with (M1 - N1 + (M2 - N2) + 1)%Z by lia.
  rewrite Hf. reflexivity.
Qed.

Lemma py_nth_nil {A} i : py_nth (@nil A) i = Err IndexError.
Proof.
  unfold py_nth. set (j := if (i <? 0)%Z then _ else _). destruct (j <? 0)%Z; auto.
  destruct (Z.to_nat j); reflexivity.
Qed.

Lemma bi_zoned_err lx ly l1 l2 tr bmin bmax_x bmax_y :
  oriented lx ly l1 l2 tr -> 0 < l2 -> 0 < bmin -> 0 < bmax_x -> 0 < bmax_y ->
  let N1 := Rceil (l1 / pick tr bmax_x bmax_y + 1) in let M1 := Rfloor (l1 / bmin + 1) in
  let N2 := Rceil (l2 / pick tr bmax_y bmax_x + 1) in let M2 := Rfloor (l2 / bmin + 1) in
  let T := (Z.max 0 (M1 + 1 - N1) + Z.max 0 (M2 + 1 - N2) - 1)%Z in
  ((N1 <= M1 -> N2 <= M2 -> N1 = 2 \/ N2 = 2 -> 
      bi_rectangle_zoned_nested lx ly bmin bmax_x bmax_y = Err ValueError) /\
   (M1 < N1 \/ M2 < N2 -> 
      bi_rectangle_zoned_nested lx ly bmin bmax_x bmax_y = if T <=? 0 then Ok [] else Err IndexError))%Z.
Proof.
  intros Ho H2 Hmin Hx Hy N1 M1 N2 M2 T. rewrite (bi_zoned_unfold lx ly l1 l2 tr) by auto.
  fold N1 M1 N2 M2. cbn zeta. assert (Hl : l2 <= l1) by (destruct Ho as [(H & -> & -> & ->)|(H & -> & -> & ->)]; lra).
  assert (A1 : 0 < pick tr bmax_x bmax_y) by (destruct tr; auto).
  assert (A2 : 0 < pick tr bmax_y bmax_x) by (destruct tr; auto).
  pose proof (nmin_ge2 l1 _ ltac:(lra) A1 : (2 <= N1)%Z) as HN1. pose proof (nmin_ge2 l2 _ H2 A2 : (2 <= N2)%Z) as HN2.
  destruct (bi_zoned_prefix_ok tr lx ly N1 N2 HN1 HN2) as (fs & Hp & _).
  rewrite !zrange_zlen. fold T. split.
  - intros HM1 HM2 Hn. rewrite (zrange_cons 0 T) by (unfold T; lia). cbn [foldM]. unfold bi_zoned_body at 1.
    change (0 =? 0)%Z with true. cbn iota. rewrite Hp. cbn [bind]. rewrite !py_nth_zrange by lia. cbn [bind].
    rewrite zoned_rectangle_domain_err; auto; try lia; lra.
  - intros Hn. destruct (Z.leb_spec T 0) as [HT|HT].
    + rewrite (zrange_nil 0 T) by auto. reflexivity.
    + rewrite (zrange_cons 0 T) by auto. cbn [foldM]. unfold bi_zoned_body at 1.
      change (0 =? 0)%Z with true. cbn iota. rewrite Hp. cbn [bind].
      destruct (Z.lt_ge_cases M1 N1) as [H|H].
      * rewrite (zrange_nil N1) by lia. rewrite py_nth_nil. reflexivity.
      * rewrite py_nth_zrange by lia. cbn [bind]. rewrite (zrange_nil N2) by lia. rewrite py_nth_nil. reflexivity.
Qed.

(** *** sizes, land and spacing *)
Lemma staircase_range M1 M2 path : forall i n1 n2, (n1 <= M1)%Z -> (n2 <= M2)%Z -> staircase i M1 M2 (n1, n2) path ->
  forall q, In q path -> (n1 <= fst q <= M1 /\ n2 <= snd q <= M2)%Z.
Proof.
  induction path as [|[j1 j2] path IH]; intros i n1 n2 H1 H2 H q Hq; [destruct Hq|].
  cbn [staircase fst snd] in H. destruct H as (Hne & E & H).
  assert (Hd : (n1 < M1 \/ n2 < M2)%Z).
  { destruct (Z.eq_dec n1 M1), (Z.eq_dec n2 M2); try lia. exfalso. apply Hne. congruence. }
  assert (Hj : (n1 <= j1 <= M1 /\ n2 <= j2 <= M2)%Z).
  { destruct (Z.even i), (Z.ltb_spec n1 M1), (Z.ltb_spec n2 M2); injection E as -> ->; lia. }
  destruct Hq as [<-|Hq]; [exact Hj|]. specialize (IH (i + 1)%Z j1 j2 ltac:(lia) ltac:(lia) H q Hq). lia.
Qed.

Lemma StronglySorted_map_lt (g : Z -> Z) l : (forall x y, (x < y)%Z -> (g x < g y)%Z) ->
  StronglySorted Z.lt l -> StronglySorted Z.lt (map g l).
Proof.
  intros Hg H. induction H as [|a l Hl IH Ha]; cbn; constructor; auto.
  apply Forall_forall. intros y Hy. apply in_map_iff in Hy as (x & <- & Hx).
  rewrite Forall_forall in Ha. auto.
Qed.

Lemma zoned_sizes n1 n2 (b1 b2 : R) path fs : (3 <= n1)%Z -> (3 <= n2)%Z ->
  (forall q, In q path -> (1 <= fst q <= n1 - 2 /\ 1 <= snd q <= n2 - 2)%Z) ->
  Forall2 (fun ij f => zoned_rectangle n1 n2 b1 b2 (fst ij) (snd ij) = Ok f) path fs ->
  sizes fs = map (fun x => 2 * n1 + 2 * n2 - 4 + x)%Z (map (fun q => fst q * snd q)%Z path).
Proof.
  intros H1 H2 Hr H. induction H as [|q f path fs Hq Hall IH]; [reflexivity|].
  unfold sizes in *. cbn [map]. rewrite IH by (intros; apply Hr; now right). f_equal.
  destruct (Hr q (or_introl eq_refl)) as [Hq1 Hq2].
  destruct (zoned_rectangle_spec n1 n2 b1 b2 (fst q) (snd q)) as (f' & E & Hz & _); try lia.
  rewrite E in Hq. injection Hq as <-. exact Hz.
Qed.

Lemma Forall2_length {A B} (P : A -> B -> Prop) l r : Forall2 P l r -> length l = length r.
Proof. induction 1; cbn; auto. Qed.

Lemma zoned_domain_facts lx ly l1 l2 otr nx ny tr d :
  oriented lx ly l1 l2 otr -> 0 < l2 -> (3 <= nx)%Z -> (3 <= ny)%Z ->
  zoned_rectangle_domain lx ly nx ny tr = Ok d ->
  zlen d = (1 + (nx - 3) + (ny - 3))%Z
  /\ strictly_increasing (sizes d)
  /\ (exists r, sizes d = (2 * nx + 2 * ny - 3)%Z :: r)
  /\ (exists r, sizes d = r ++ [nx * ny]%Z)
  /\ (forall f, In f d -> exists g, (f = g \/ f = turned tr g) /\ inside l1 l2 g
       /\ forall s, 0 < s -> s <= l1 / IZR (pick otr nx ny - 1) -> s <= l2 / IZR (pick otr ny nx - 1) -> separated s g).
Proof.
  intros Ho H2 Hx Hy Hd. assert (Hl : l2 <= l1) by (destruct Ho as [(H & -> & -> & ->)|(H & -> & -> & ->)]; lra).
  destruct (zoned_rectangle_domain_ok lx ly l1 l2 otr nx ny tr Ho H2 Hx Hy) as (path & f0 & fs & E & Hp & Hf0 & Hfs).
  rewrite E in Hd. injection Hd as <-. clear E.
  set (n1 := pick otr nx ny) in *. set (n2 := pick otr ny nx) in *.
  assert (Hn : (3 <= n1 /\ 3 <= n2)%Z) by (unfold n1, n2, pick; destruct otr; auto).
  assert (Hs : (n1 + n2 = nx + ny /\ n1 * n2 = nx * ny)%Z) by (unfold n1, n2, pick; destruct otr; lia).
  set (b1 := l1 / IZR (n1 - 1)) in *. set (b2 := l2 / IZR (n2 - 1)) in *.
  assert (Hall : Forall2 (fun ij f => zoned_rectangle n1 n2 b1 b2 (fst ij) (snd ij) = Ok f) ((1, 1)%Z :: path) (f0 :: fs))
    by (constructor; auto).
  assert (Hr : forall q, In q ((1, 1)%Z :: path) -> (1 <= fst q <= n1 - 2 /\ 1 <= snd q <= n2 - 2)%Z).
  { intros q [<-|Hq]; [cbn; lia|]. apply (zone_steps_range n1 n2 path 1 1); auto; lia. }
  assert (Hsz : sizes (f0 :: map (turned tr) fs) = map (fun x => 2 * n1 + 2 * n2 - 4 + x)%Z (map (fun q => fst q * snd q)%Z ((1, 1)%Z :: path))).
  { rewrite <- (zoned_sizes n1 n2 b1 b2 _ (f0 :: fs)) by (tauto || auto). change (f0 :: map (turned tr) fs) with ([f0] ++ map (turned tr) fs).
    rewrite sizes_app, sizes_turned. reflexivity. }
  assert (Hlast : forall path i1 i2, zone_steps n1 n2 (i1, i2) path -> exists r, (i1, i2) :: path = r ++ [(n1 - 2, n2 - 2)%Z]).
  { clear. induction path as [|[j1 j2] path IH]; intros i1 i2 H.
    - cbn in H. rewrite H. exists []. reflexivity.
    - cbn [zone_steps] in H. destruct H as (_ & _ & H). apply IH in H as (r & ->). exists ((i1, i2) :: r). reflexivity. }
  repeat split.
  - rewrite zlen_cons, zlen_map. apply Forall2_length in Hfs. unfold zlen. rewrite <- Hfs. fold (zlen path).
    rewrite (zone_steps_length n1 n2 path 1 1) by (auto; lia). lia.
  - unfold strictly_increasing. rewrite Hsz. apply StronglySorted_map_lt; [lia|]. apply (zone_steps_sizes n1 n2); auto; lia.
  - rewrite Hsz. cbn [map fst snd]. eexists. f_equal. lia.
  - rewrite Hsz. destruct (Hlast path 1%Z 1%Z Hp) as (r & ->). rewrite !map_app. cbn [map fst snd].
    eexists. do 2 f_equal. nia.
  - assert (Hg : forall g, In g (f0 :: fs) -> inside l1 l2 g /\ forall s, 0 < s -> s <= b1 -> s <= b2 -> separated s g).
    { intros g Hg. apply In_nth_error in Hg as (m & Hm).
      assert (Hq : exists q, In q ((1, 1)%Z :: path) /\ zoned_rectangle n1 n2 b1 b2 (fst q) (snd q) = Ok g).
      { clear - Hall Hm. revert m Hm. induction Hall as [|q f ps fs' Hq Hps IH]; intros m Hm; [destruct m; discriminate|].
        destruct m as [|m]; cbn in Hm; [injection Hm as <-; exists q; split; [now left|auto]|].
        destruct (IH m Hm) as (q' & Hq1 & Hq2). exists q'. split; [now right|auto]. }
      destruct Hq as (q & Hq & Eq). destruct (Hr q Hq) as [Hq1 Hq2].
      destruct (zoned_rectangle_spec n1 n2 b1 b2 (fst q) (snd q)) as (g' & E' & _ & _ & _ & _ & Hgeo); try lia.
      rewrite Eq in E'. injection E' as <-.
      assert (Hb1 : 0 < b1) by (apply spacing_pos; [lra|lia]). assert (Hb2 : 0 < b2) by (apply spacing_pos; [lra|lia]).
      destruct (Hgeo Hb1 Hb2) as (_ & Hin & Hsep). unfold b1, b2 in Hin. rewrite !spacing_fills in Hin by lia.
      split; auto. intros s Hs1 Hs2 Hs3. apply Hsep; lra. }
    intros f [<-|Hf].
    + exists f0. split; auto. apply Hg. now left.
    + apply in_map_iff in Hf as (g & <- & Hf). exists g. split; auto. apply Hg. now right.
Qed.

Lemma Forall2_in_r {A B} (P : A -> B -> Prop) l bs b : Forall2 P l bs -> In b bs -> exists a, In a l /\ P a b.
Proof.
  induction 1 as [|a c l bs Hac Hall IH]; intros []; [subst; exists a; split; [now left|auto]|].
  destruct (IH H) as (a' & Ha & Hp). exists a'. split; [now right|auto].
Qed.
Lemma shapes_sizes bx by_ N1 N2 l fs : Forall2 (shape_ok bx by_ N1 N2) l fs -> sizes fs = l.
Proof. induction 1 as [|s f l fs (Hs & _) _ IH]; cbn; auto. unfold sizes in IH. rewrite IH. f_equal. exact Hs. Qed.

(** every domain grows, in either orientation *)
Lemma bi_zoned_sizes lx ly l1 l2 tr bmin bmax_x bmax_y dd :
  oriented lx ly l1 l2 tr -> 0 < l2 -> 0 < bmin -> 0 < bmax_x -> 0 < bmax_y ->
  bi_rectangle_zoned_nested lx ly bmin bmax_x bmax_y = Ok dd ->
  forall d, In d dd -> strictly_increasing (sizes d).
Proof.
  intros Ho H2 Hmin Hx Hy Hdd d Hd.
  destruct (bi_zoned_err lx ly l1 l2 tr bmin bmax_x bmax_y Ho H2 Hmin Hx Hy) as (He1 & He2).
  assert (Hl : l2 <= l1) by (destruct Ho as [(H & -> & -> & ->)|(H & -> & -> & ->)]; lra).
  assert (A1 : 0 < pick tr bmax_x bmax_y) by (destruct tr; auto).
  assert (A2 : 0 < pick tr bmax_y bmax_x) by (destruct tr; auto).
  pose proof (nmin_ge2 l1 _ ltac:(lra) A1) as HN1. pose proof (nmin_ge2 l2 _ H2 A2) as HN2.
  set (N1 := Rceil (l1 / pick tr bmax_x bmax_y + 1)) in *. set (M1 := Rfloor (l1 / bmin + 1)) in *.
  set (N2 := Rceil (l2 / pick tr bmax_y bmax_x + 1)) in *. set (M2 := Rfloor (l2 / bmin + 1)) in *.
  assert (Hc : ((M1 < N1 \/ M2 < N2) \/ (N1 = 2 \/ N2 = 2) /\ N1 <= M1 /\ N2 <= M2 \/ (3 <= N1 <= M1 /\ 3 <= N2 <= M2))%Z) by lia.
  destruct Hc as [Hc|[(Hc & Hc1 & Hc2)|(Hc1 & Hc2)]].
  - rewrite He2 in Hdd by auto. destruct (_ <=? 0)%Z in Hdd; [injection Hdd as <-; destruct Hd|discriminate].
  - rewrite He1 in Hdd by auto. discriminate.
  - destruct (bi_zoned_ok lx ly l1 l2 tr bmin bmax_x bmax_y Ho H2 Hmin Hx Hy Hc1 Hc2) as (path & pre & z & ds & E & Hpre & Hst & Hall).
    fold N1 M1 N2 M2 in Hpre, Hst, Hall. rewrite E in Hdd. injection Hdd as <-. clear E.
    assert (Ho' : oriented l1 l2 l1 l2 false) by (left; auto).
    destruct Hd as [<-|Hd].
    + inversion Hall as [|? ? ? ? Hz Hall']; subst. cbn [fst snd] in Hz.
      destruct (zoned_domain_facts l1 l2 l1 l2 false N1 N2 tr z) as (_ & Hinc & (r & Hr) & _); auto; try lia.
      destruct (bi_zoned_prefix_ok tr lx ly N1 N2 HN1 HN2) as (fs & E & Hfs). rewrite Hpre in E. injection E as ->.
      apply shapes_sizes in Hfs. rewrite sizes_app, sizes_turned, Hfs. apply StronglySorted_app; auto.
      * rewrite <- (map_id (zrange _ _)). apply (StronglySorted_map_zrange (fun i => i)). auto.
      * intros x y Hx' Hy'. apply in_zrange in Hx'. rewrite Hr in Hy', Hinc. apply StronglySorted_inv in Hinc as [_ Hf].
        rewrite Forall_forall in Hf. destruct Hy' as [<-|Hy']; [lia|]. apply Hf in Hy'. lia.
    + inversion Hall as [|? ? ? ? Hz Hall']; subst.
      destruct (Forall2_in_r _ _ _ _ Hall' Hd) as (q & Hq & Eq).
      apply (staircase_range M1 M2 path 0 N1 N2) in Hq; auto; try lia.
      eapply zoned_domain_facts; [exact Ho'|exact H2| | |exact Eq]; lia.
Qed.

(** land and spacing, for a land at least as long (x) as wide (y) *)
Lemma bi_zoned_land lx ly bmin bmax_x bmax_y dd :
  0 < ly -> ly <= lx -> 0 < bmin -> 0 < bmax_x -> 0 < bmax_y ->
  bi_rectangle_zoned_nested lx ly bmin bmax_x bmax_y = Ok dd ->
  forall d f, In d dd -> In f d -> inside lx ly f /\ separated bmin f.
Proof.
  intros H2 Hl Hmin Hx Hy Hdd d f Hd Hf. assert (Ho : oriented lx ly lx ly false) by (left; auto).
  destruct (bi_zoned_err lx ly lx ly false bmin bmax_x bmax_y Ho H2 Hmin Hx Hy) as (He1 & He2). cbn [pick] in *.
  pose proof (nmin_ge2 lx bmax_x ltac:(lra) Hx) as HN1. pose proof (nmin_ge2 ly bmax_y H2 Hy) as HN2.
  pose proof (bi_zoned_ok lx ly lx ly false bmin bmax_x bmax_y Ho H2 Hmin Hx Hy) as Hok. cbn [pick] in Hok.
  set (N1 := Rceil (lx / bmax_x + 1)) in *. set (M1 := Rfloor (lx / bmin + 1)) in *.
  set (N2 := Rceil (ly / bmax_y + 1)) in *. set (M2 := Rfloor (ly / bmin + 1)) in *.
  assert (Hc : ((M1 < N1 \/ M2 < N2) \/ (N1 = 2 \/ N2 = 2) /\ N1 <= M1 /\ N2 <= M2 \/ (3 <= N1 <= M1 /\ 3 <= N2 <= M2))%Z) by lia.
  destruct Hc as [Hc|[(Hc & Hc1 & Hc2)|(Hc1 & Hc2)]].
  - rewrite He2 in Hdd by auto. destruct (_ <=? 0)%Z in Hdd; [injection Hdd as <-; destruct Hd|discriminate].
  - rewrite He1 in Hdd by auto. discriminate.
  - destruct (Hok Hc1 Hc2) as (path & pre & z & ds & E & Hpre & Hst & Hall).
    rewrite E in Hdd. injection Hdd as <-. clear E.
    assert (Hzone : forall q d f, In q ((N1, N2) :: path) -> zoned_rectangle_domain lx ly (fst q) (snd q) false = Ok d -> In f d ->
              inside lx ly f /\ separated bmin f).
    { clear d f Hd Hf. intros q d f Hq Eq Hf. assert (Hqr : (N1 <= fst q <= M1 /\ N2 <= snd q <= M2)%Z).
      { destruct Hq as [<-|Hq]; [cbn; lia|]. apply (staircase_range M1 M2 path 0 N1 N2) in Hq; auto; lia. }
      destruct (zoned_domain_facts lx ly lx ly false (fst q) (snd q) false d) as (_ & _ & _ & _ & Hin); auto; try lia.
      destruct (Hin f Hf) as (g & Hg & Hi & Hs). cbn [turned] in Hg. assert (f = g) by tauto. subst g. split; auto.
      apply Hs; auto; cbn [pick]; apply spacing_ge_min; auto; fold M1 M2; lia. }
    assert (Hshape : In f pre -> inside lx ly f /\ separated bmin f).
    { intros Hfp. destruct (bi_zoned_prefix_ok false lx ly N1 N2 HN1 HN2) as (fs & E & Hfs). rewrite Hpre in E. injection E as ->.
      apply in_map_iff in Hfp as (g & <- & Hg). cbn [turned]. destruct (Forall2_in_r _ _ _ _ Hfs Hg) as (s & _ & Hz & Hm & Hnd).
      assert (B1 : bmin <= lx / IZR (N1 - 1)) by (apply spacing_ge_min; auto; fold M1; lia).
      assert (B2 : bmin <= ly / IZR (N2 - 1)) by (apply spacing_ge_min; auto; fold M2; lia).
      split.
      - eapply grid_inside; [| |intros p Hp; destruct (Hm p Hp) as (i & j & Hi & Hj & ->); exists i, j; split; [lia|]; split; [lia|]; split; [|split; [|reflexivity]]]; try lra.
        + replace i with (i + 1 - 1)%Z by lia. apply spacing_fewer; [lra|lia|lia].
        + replace j with (j + 1 - 1)%Z by lia. apply spacing_fewer; [lra|lia|lia].
      - eapply grid_separated; [|exact B1|exact B2|apply Hnd|]; try lra.
        intros p Hp. destruct (Hm p Hp) as (i & j & _ & _ & ->). eauto. }
    inversion Hall as [|? ? ? ? Hz Hall']; subst. destruct Hd as [<-|Hd].
    + apply in_app_iff in Hf as [Hf|Hf]; auto. eapply Hzone; [|exact Hz|exact Hf]. now left.
    + destruct (Forall2_in_r _ _ _ _ Hall' Hd) as (q & Hq & Eq). eapply Hzone; [|exact Eq|exact Hf]. now right.
Qed.

(** land deeper than wide: what remains true *)
Lemma bi_zoned_tall lx ly bmin bmax_x bmax_y dd :
  0 < lx -> lx < ly -> 0 < bmin -> 0 < bmax_x -> 0 < bmax_y ->
  bi_rectangle_zoned_nested lx ly bmin bmax_x bmax_y = Ok dd ->
  (forall d f, In d dd -> In f d -> inside lx ly f \/ inside ly lx f) /\
  (forall k d i f, (0 < k)%nat -> nth_error dd k = Some d -> (0 < i)%nat -> nth_error d i = Some f ->
     inside lx ly f /\ separated bmin f).
Proof.
  intros H2 Hl Hmin Hx Hy Hdd. assert (Ho : oriented lx ly ly lx true) by (right; auto).
  destruct (bi_zoned_err lx ly ly lx true bmin bmax_x bmax_y Ho H2 Hmin Hx Hy) as (He1 & He2). cbn [pick] in *.
  pose proof (nmin_ge2 ly bmax_y ltac:(lra) Hy) as HN1. pose proof (nmin_ge2 lx bmax_x H2 Hx) as HN2.
  pose proof (bi_zoned_ok lx ly ly lx true bmin bmax_x bmax_y Ho H2 Hmin Hx Hy) as Hok. cbn [pick] in Hok.
  set (N1 := Rceil (ly / bmax_y + 1)) in *. set (M1 := Rfloor (ly / bmin + 1)) in *.
  set (N2 := Rceil (lx / bmax_x + 1)) in *. set (M2 := Rfloor (lx / bmin + 1)) in *.
  assert (Hc : ((M1 < N1 \/ M2 < N2) \/ (N1 = 2 \/ N2 = 2) /\ N1 <= M1 /\ N2 <= M2 \/ (3 <= N1 <= M1 /\ 3 <= N2 <= M2))%Z) by lia.
  destruct Hc as [Hc|[(Hc & Hc1 & Hc2)|(Hc1 & Hc2)]].
  - rewrite He2 in Hdd by auto. destruct (_ <=? 0)%Z in Hdd; [injection Hdd as <-|discriminate].
    split; [intros d f []|intros [|k] d i f _ H; discriminate].
  - rewrite He1 in Hdd by auto. discriminate.
  - destruct (Hok Hc1 Hc2) as (path & pre & z & ds & E & Hpre & Hst & Hall).
    rewrite E in Hdd. injection Hdd as <-. clear E.
    assert (Hzone : forall q d, In q ((N1, N2) :: path) -> zoned_rectangle_domain ly lx (fst q) (snd q) true = Ok d ->
       exists f0 r, d = f0 :: r /\ inside ly lx f0 /\ forall f, In f r -> inside lx ly f /\ separated bmin f).
    { intros q d Hq Eq. assert (Hqr : (N1 <= fst q <= M1 /\ N2 <= snd q <= M2)%Z).
      { destruct Hq as [<-|Hq]; [cbn; lia|]. apply (staircase_range M1 M2 path 0 N1 N2) in Hq; auto; lia. }
      destruct (zoned_rectangle_domain_ok ly lx ly lx false (fst q) (snd q) true) as (zp & f0 & fs & E & Hp & Hf0 & Hfs); auto; try lia.
      { left. repeat split; auto; lra. }
      rewrite E in Eq. injection Eq as <-. cbn [pick] in *. set (b1 := ly / IZR (fst q - 1)) in *. set (b2 := lx / IZR (snd q - 1)) in *.
      assert (Hb1 : 0 < b1) by (apply spacing_pos; [lra|lia]). assert (Hb2 : 0 < b2) by (apply spacing_pos; [lra|lia]).
      assert (Hg : forall ij g, In ij ((1, 1)%Z :: zp) -> zoned_rectangle (fst q) (snd q) b1 b2 (fst ij) (snd ij) = Ok g ->
         inside ly lx g /\ separated bmin g).
      { intros ij g Hij Eg. assert (Hr : (1 <= fst ij <= fst q - 2 /\ 1 <= snd ij <= snd q - 2)%Z).
        { destruct Hij as [<-|Hij]; [cbn; lia|]. apply (zone_steps_range (fst q) (snd q) zp 1 1); auto; lia. }
        destruct (zoned_rectangle_spec (fst q) (snd q) b1 b2 (fst ij) (snd ij)) as (g' & E' & _ & _ & _ & _ & Hgeo); try lia.
        rewrite Eg in E'. injection E' as <-. destruct (Hgeo Hb1 Hb2) as (_ & Hin & Hsep). unfold b1, b2 in Hin. rewrite !spacing_fills in Hin by lia.
        split; auto. assert (bmin <= b1) by (apply spacing_ge_min; auto; fold M1; lia). assert (bmin <= b2) by (apply spacing_ge_min; auto; fold M2; lia). apply Hsep; lra. }
      exists f0, (map (turned true) fs). split; auto. split; [apply (Hg (1, 1)%Z); auto; now left|].
      intros f Hf. apply in_map_iff in Hf as (g & <- & Hf). destruct (Forall2_in_r _ _ _ _ Hfs Hf) as (ij & Hij & Eg).
      destruct (Hg ij g) as [A B]; [now right|auto|]. split; [eapply turned_inside; eauto|now apply turned_separated]. }
    assert (Hshape : forall f, In f pre -> inside ly lx f).
    { intros f Hfp. destruct (bi_zoned_prefix_ok true lx ly N1 N2 HN1 HN2) as (fs & E & Hfs). rewrite Hpre in E. injection E as ->.
      apply in_map_iff in Hfp as (g & <- & Hg). destruct (Forall2_in_r _ _ _ _ Hfs Hg) as (s & _ & Hz & Hm & Hnd).
      assert (B1 : 0 < lx / IZR (N1 - 1)) by (apply spacing_pos; [lra|lia]).
      assert (B2 : 0 < ly / IZR (N2 - 1)) by (apply spacing_pos; [lra|lia]).
      assert (Hi : inside lx ly g).
      { eapply grid_inside; [| |intros p Hp; destruct (Hm p Hp) as (i & j & Hi & Hj & ->); exists i, j; split; [lia|]; split; [lia|]; split; [|split; [|reflexivity]]]; try lra.
        + replace i with (i + 1 - 1)%Z by lia. apply spacing_fewer; [lra|lia|lia].
        + replace j with (j + 1 - 1)%Z by lia. apply spacing_fewer; [lra|lia|lia]. }
      intros p Hp. apply in_map_iff in Hp as (p' & <- & Hp). destruct (Hi p' Hp). split; assumption. }
    inversion Hall as [|? ? ? ? Hz Hall']; subst. split.
    + intros d f [<-|Hd] Hf.
      * apply in_app_iff in Hf as [Hf|Hf]; [right; auto|].
        destruct (Hzone (N1, N2) z) as (f0 & r & -> & A & B); auto; [now left|]. destruct Hf as [<-|Hf]; [now right|left; now apply B].
      * destruct (Forall2_in_r _ _ _ _ Hall' Hd) as (q & Hq & Eq).
        destruct (Hzone q d) as (f0 & r & -> & A & B); auto; [now right|]. destruct Hf as [<-|Hf]; [now right|left; now apply B].
    + intros [|k] d [|i] f Hk Hd Hi Hf; try lia. cbn [nth_error] in Hd. apply nth_error_In in Hd.
      destruct (Forall2_in_r _ _ _ _ Hall' Hd) as (q & Hq & Eq).
      destruct (Hzone q d) as (f0 & r & -> & A & B); auto; [now right|]. cbn [nth_error] in Hf. apply nth_error_In in Hf. now apply B.
Qed.
