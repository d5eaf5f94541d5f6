(** Lengths in another unit: candidates and designs *)
From Coq Require Import ZArith List Bool Reals Lra Lia FunctionalExtensionality.
From Verif Require Import Base Num BaseLemmas Utilities Coordinates Domains Features Search Design InvarianceProofs TurnProofs ScaleSpec.
Import ListNotations.
Open Scope R_scope.

Section Scale.
Variable k : R.
Hypothesis Hk : 0 < k.
Notation sc := (scaled k).
Notation kk := (Rmult k).

(** ** numbers *)
Lemma pydiv_both (x y : R) : pydiv (kk x) (kk y) = pydiv x y.
Proof.
  unfold pydiv. cbn. destruct (Req_EM_T (k * y) 0) as [E|E], (Req_EM_T y 0) as [E'|E']; try reflexivity.
  - apply Rmult_integral in E. lra.
  - subst y. rewrite Rmult_0_r in E. lra.
  - f_equal. field. lra.
Qed.
Lemma pydiv_one (x y : R) : pydiv (kk x) y = rmap kk (pydiv x y).
Proof. unfold pydiv. cbn. destruct (Req_EM_T y 0); [reflexivity|]. cbn. f_equal. field. assumption. Qed.
Lemma nle_both (x y : R) : nle (kk x) (kk y) = nle x y.
Proof. cbn. destruct (Rle_dec (k * x) (k * y)), (Rle_dec x y); try reflexivity; nra. Qed.
Lemma nlt_both (x y : R) : nlt (kk x) (kk y) = nlt x y.
Proof. cbn. destruct (Rlt_dec (k * x) (k * y)), (Rlt_dec x y); try reflexivity; nra. Qed.
Lemma n_float_both (x y : R) : n_float (kk x) (kk y) = n_float x y.
Proof. unfold n_float. now rewrite pydiv_both. Qed.
Lemma zmul_both i (x : R) : zmul i (kk x) = k * zmul i x.
Proof. unfold zmul. cbn. ring. Qed.

(** ** fields *)
Lemma zlen_sc c : zlen (sc c) = zlen c. Proof. apply zlen_map. Qed.
Lemma sc_app a b : sc (a ++ b) = sc a ++ sc b. Proof. apply map_app. Qed.
Lemma sc_map {A} (f g : A -> R * R) l : (forall a, g a = (k * fst (f a), k * snd (f a))) -> map g l = sc (map f l).
Proof. intro E. unfold scaled. rewrite map_map. apply map_ext. exact E. Qed.
Lemma sc_flat_map {A} (f g : A -> list (R * R)) l : (forall a, g a = sc (f a)) -> flat_map g l = sc (flat_map f l).
Proof. intro E. induction l as [|a l IH]; [reflexivity|]. cbn [flat_map]. now rewrite sc_app, E, IH. Qed.
Lemma checked (c c' : list (R * R)) n : c' = sc c -> (let! _ := assert_ (zlen c' =? n)%Z in Ok c') = rmap sc (let! _ := assert_ (zlen c =? n)%Z in Ok c).
Proof. intros ->. rewrite zlen_sc. now destruct (zlen c =? n)%Z. Qed.
Lemma rectangle_o_scaled i j (bx by_ : R) o : rectangle_o i j (kk bx) (kk by_) (k * fst o, k * snd o) = rmap sc (rectangle_o i j bx by_ o).
Proof.
  unfold rectangle_o. cbv zeta. apply checked. apply sc_flat_map. intro a. apply sc_map. intro b. cbn [fst snd]. rewrite !zmul_both. cbn [nadd NumR].
  f_equal; ring.
Qed.
Lemma rectangle_scaled i j (bx by_ : R) : rectangle i j (kk bx) (kk by_) = rmap sc (rectangle i j bx by_).
Proof.
  unfold rectangle. rewrite <- rectangle_o_scaled. cbn [fst snd]. unfold fz. cbn [nofZ NumR]. now rewrite Rmult_0_r.
Qed.
Lemma open_rectangle_scaled i j (bx by_ : R) : open_rectangle i j (kk bx) (kk by_) = rmap sc (open_rectangle i j bx by_).
Proof.
  unfold open_rectangle. destruct (_ && _).
  - cbv zeta. apply checked. rewrite !sc_app. f_equal; [|f_equal].
    + apply sc_map. intro. cbn [fst snd]. rewrite ?zmul_both. unfold fz. cbn [nofZ NumR]. now rewrite ?Rmult_0_r.
    + apply sc_flat_map. intro. unfold scaled. cbn [map fst snd]. rewrite ?zmul_both. unfold fz. cbn [nofZ NumR]. now rewrite ?Rmult_0_r.
    + apply sc_map. intro. cbn [fst snd]. now rewrite ?zmul_both.
  - rewrite rectangle_scaled. destruct (rectangle i j bx by_) as [c|]; [|reflexivity]. cbn [rmap bind]. now apply checked.
Qed.
Ltac line := apply sc_map; intro; cbn [fst snd]; rewrite ?zmul_both; unfold fz; cbn [nofZ NumR]; now rewrite ?Rmult_0_r.
Lemma C_shape_scaled i j (bx by_ : R) l : C_shape i j (kk bx) (kk by_) l = rmap sc (C_shape i j bx by_ l).
Proof. unfold C_shape. cbv zeta. apply checked. rewrite !sc_app. f_equal; [line|]. f_equal; [line|]. f_equal; line. Qed.
Lemma lop_U_scaled i j (bx by_ : R) l : lop_U i j (kk bx) (kk by_) l = rmap sc (lop_U i j bx by_ l).
Proof. unfold lop_U. cbv zeta. apply checked. rewrite !sc_app. f_equal; [line|]. f_equal; line. Qed.
Lemma L_shape_scaled i j (bx by_ : R) : L_shape i j (kk bx) (kk by_) = rmap sc (L_shape i j bx by_).
Proof. unfold L_shape. cbv zeta. apply checked. rewrite !sc_app. f_equal; line. Qed.
Lemma zoned_rectangle_scaled i j (bx by_ : R) a b : zoned_rectangle i j (kk bx) (kk by_) a b = rmap sc (zoned_rectangle i j bx by_ a b).
Proof.
  unfold zoned_rectangle. destruct (raise_if _ _); [|reflexivity]. cbn [bind]. destruct (raise_if _ _); [|reflexivity]. cbn [bind].
  rewrite open_rectangle_scaled. destruct (open_rectangle i j bx by_) as [c|]; [|reflexivity]. cbn [bind rmap].
  rewrite !zmul_both, !pydiv_one. destruct (pydiv (zmul (i - 1) bx) _) as [x|]; [|reflexivity]. cbn [bind rmap].
  destruct (pydiv (zmul (j - 1) by_) _) as [y|]; [|reflexivity]. cbn [bind rmap].
  change (kk x, kk y) with (k * fst (x, y), k * snd (x, y)). rewrite rectangle_o_scaled.
  destruct (rectangle_o a b x y (x, y)) as [d|]; [|reflexivity]. cbn [bind rmap]. now rewrite sc_app.
Qed.
Lemma transpose_scaled tr c : maybe_transpose tr (sc c) = sc (maybe_transpose tr c).
Proof. destruct tr; [|reflexivity]. unfold maybe_transpose, transpose_coordinates, scaled. now rewrite !map_map. Qed.

(** ** domains *)
Lemma mapM_scaled (f g : Z -> res (field R)) tr l : (forall i, g i = rmap sc (f i)) ->
  mapM (fun i => let! r := g i in Ok (maybe_transpose tr r)) l = rmap (map sc) (mapM (fun i => let! r := f i in Ok (maybe_transpose tr r)) l).
Proof. intro E. rewrite <- mapM_rmap. apply mapM_ext. intros i _. rewrite E. destruct (f i) as [c|]; [|reflexivity]. cbn [rmap bind]. now rewrite transpose_scaled. Qed.
Lemma square_scaled lower upper (B : R) : square_and_near_square lower upper (kk B) = rmap (map sc) (square_and_near_square lower upper B).
Proof.
  unfold square_and_near_square. destruct (raise_if _ _); [|reflexivity]. cbn [bind]. destruct (raise_if _ _); [|reflexivity]. cbn [bind].
  assert (E : mapM (fun i => mapM (fun j => rectangle i (i + j) (kk B) (kk B)) (zrange 0 2)) (zrange lower (upper + 1)) =
              rmap (map (map sc)) (mapM (fun i => mapM (fun j => rectangle i (i + j) B B) (zrange 0 2)) (zrange lower (upper + 1)))).
  { rewrite <- mapM_rmap. apply mapM_ext. intros i _. rewrite <- mapM_rmap. apply mapM_ext. intros j _. apply rectangle_scaled. }
  rewrite E. clear E. destruct (mapM _ _) as [l|]; [|reflexivity]. cbn [rmap bind]. now rewrite concat_map.
Qed.
Notation sc2 := (fun s => (fst s, map sc (snd s))).
Lemma rectangular_body_scaled tr (l1 l2 : R) Nm s n :
  rectangular_body tr (kk l1) (kk l2) Nm (fst s, map sc (snd s)) n = rmap sc2 (rectangular_body tr l1 l2 Nm s n).
Proof.
  destruct s as ((iter, old), dom). cbn [fst snd]. unfold rectangular_body. rewrite pydiv_one, rmap_bind, bind_rmap. f_equal. extensionality B.
  rewrite pydiv_both, bind_rmap. f_equal. extensionality q. rewrite bind_rmap. f_equal. extensionality n2. destruct (iter =? 0)%Z.
  - rewrite (mapM_scaled (fun i => rectangle i 1 B B)) by (intro; apply rectangle_scaled).
    destruct (mapM (fun i => let! r := rectangle i 1 B B in Ok (maybe_transpose tr r)) (zrange 1 Nm)) as [a|]; [|reflexivity].
    cbn [rmap bind]. rewrite (mapM_scaled (fun j => rectangle Nm j B B)) by (intro; apply rectangle_scaled).
    destruct (mapM (fun j => let! r := rectangle Nm j B B in Ok (maybe_transpose tr r)) (zrange 1 n2)) as [b|]; [|reflexivity].
    cbn [rmap bind]. destruct (old =? n2)%Z; [cbn [rmap fst snd]; now rewrite !map_app|].
    rewrite rectangle_scaled. destruct (rectangle n n2 B B) as [r|]; [|reflexivity]. cbn [rmap bind fst snd]. rewrite !map_app. cbn [map]. now rewrite transpose_scaled.
  - cbn [bind]. destruct (old =? n2)%Z; [reflexivity|]. rewrite rectangle_scaled. destruct (rectangle n n2 B B) as [r|]; [|reflexivity].
    cbn [rmap bind fst snd]. rewrite map_app. cbn [map]. now rewrite transpose_scaled.
Qed.
Lemma rectangular_scaled (lx ly bmin bmax : R) : rectangular (kk lx) (kk ly) (kk bmin) (kk bmax) = rmap (map sc) (rectangular lx ly bmin bmax).
Proof.
  unfold rectangular. rewrite nle_both.
  replace (if nle ly lx then (kk lx, kk ly, false) else (kk ly, kk lx, true))
    with (let '(a, b, t) := (if nle ly lx then (lx, ly, false) else (ly, lx, true)) in (kk a, kk b, t)) by now destruct (nle ly lx).
  destruct (if nle ly lx then (lx, ly, false) else (ly, lx, true)) as ((l1, l2), tr). rewrite !n_float_both.
  destruct (n_float l1 bmin) as [x|]; [|reflexivity]. cbn [bind]. destruct (n_float l1 bmax) as [y|]; [|reflexivity]. cbn [bind].
  destruct (nceil y) as [a|]; [|reflexivity]. cbn [bind]. destruct (nfloor x) as [b|]; [|reflexivity]. cbn [bind].
  pose proof (foldM_rmap _ _ sc2 (zrange a (b + 1)) (rectangular_body_scaled tr l1 l2 a) (0%Z, 1%Z, [])) as E. cbn [fst snd map] in E. rewrite E.
  now destruct (foldM (rectangular_body tr l1 l2 a) (zrange a (b + 1)) (0%Z, 1%Z, [])).
Qed.
Lemma bi_rectangular_body_scaled tr (l1 l2 b : R) s n :
  bi_rectangular_body tr (kk l1) (kk l2) (kk b) (fst s, map sc (snd s)) n = rmap sc2 (bi_rectangular_body tr l1 l2 b s n).
Proof.
  destruct s as (iter, dom). cbn [fst snd]. unfold bi_rectangular_body. rewrite n_float_both, bind_rmap. f_equal. extensionality q. rewrite bind_rmap. f_equal. extensionality n2.
  rewrite pydiv_one, rmap_bind, bind_rmap. f_equal. extensionality b2. rewrite pydiv_one, rmap_bind, bind_rmap. f_equal. extensionality b1. destruct (iter =? 0)%Z.
  - rewrite (mapM_scaled (fun i => rectangle i 1 b1 b2)) by (intro; apply rectangle_scaled).
    destruct (mapM (fun i => let! r := rectangle i 1 b1 b2 in Ok (maybe_transpose tr r)) (zrange 1 n)) as [a|]; [|reflexivity].
    cbn [rmap bind]. rewrite (mapM_scaled (fun j => rectangle n j b1 b2)) by (intro; apply rectangle_scaled).
    destruct (mapM (fun j => let! r := rectangle n j b1 b2 in Ok (maybe_transpose tr r)) (zrange 1 n2)) as [c|]; [|reflexivity].
    cbn [rmap bind]. rewrite rectangle_scaled. destruct (rectangle n n2 b1 b2) as [r|]; [|reflexivity].
    cbn [rmap bind fst snd]. rewrite !map_app. cbn [map]. now rewrite transpose_scaled.
  - cbn [bind]. rewrite rectangle_scaled. destruct (rectangle n n2 b1 b2) as [r|]; [|reflexivity]. cbn [rmap bind fst snd]. rewrite map_app. cbn [map]. now rewrite transpose_scaled.
Qed.
Lemma bi_rectangular_scaled (lx ly bmin bx by_ : R) tr :
  bi_rectangular (kk lx) (kk ly) (kk bmin) (kk bx) (kk by_) tr = rmap (map sc) (bi_rectangular lx ly bmin bx by_ tr).
Proof.
  unfold bi_rectangular. rewrite nle_both.
  replace (if nle ly lx then (kk lx, kk ly, kk bx, kk by_) else (kk ly, kk lx, kk by_, kk bx))
    with (let '(a, b, c, d) := (if nle ly lx then (lx, ly, bx, by_) else (ly, lx, by_, bx)) in (kk a, kk b, kk c, kk d)) by now destruct (nle ly lx).
  destruct (if nle ly lx then (lx, ly, bx, by_) else (ly, lx, by_, bx)) as (((l1, l2), b1), b2). rewrite !n_float_both.
  destruct (n_float l1 bmin) as [x|]; [|reflexivity]. cbn [bind]. destruct (n_float l1 b1) as [y|]; [|reflexivity]. cbn [bind].
  destruct (nceil y) as [a|]; [|reflexivity]. cbn [bind]. destruct (nfloor x) as [b|]; [|reflexivity]. cbn [bind].
  pose proof (foldM_rmap _ _ sc2 (zrange a (b + 1)) (bi_rectangular_body_scaled tr l1 l2 b2) (0%Z, [])) as E. cbn [fst snd map] in E. rewrite E.
  now destruct (foldM (bi_rectangular_body tr l1 l2 b2) (zrange a (b + 1)) (0%Z, [])).
Qed.
Lemma bi_rectangle_scaled (lx ly bmin bx by_ : R) :
  bi_rectangle_nested (kk lx) (kk ly) (kk bmin) (kk bx) (kk by_) = rmap (map (map sc)) (bi_rectangle_nested lx ly bmin bx by_).
Proof.
  unfold bi_rectangle_nested. rewrite nle_both.
  replace (if nle ly lx then (kk lx, kk ly, kk bx, kk by_, false) else (kk ly, kk lx, kk by_, kk bx, true))
    with (let '(a, b, c, d, t) := (if nle ly lx then (lx, ly, bx, by_, false) else (ly, lx, by_, bx, true)) in (kk a, kk b, kk c, kk d, t)) by now destruct (nle ly lx).
  destruct (if nle ly lx then (lx, ly, bx, by_, false) else (ly, lx, by_, bx, true)) as ((((l1, l2), b1), b2), tr). rewrite !n_float_both.
  destruct (n_float l2 bmin) as [x|]; [|reflexivity]. cbn [bind]. destruct (n_float l2 b2) as [y|]; [|reflexivity]. cbn [bind].
  destruct (nceil y) as [a|]; [|reflexivity]. cbn [bind]. destruct (nfloor x) as [b|]; [|reflexivity]. cbn [bind].
  rewrite <- mapM_rmap. apply mapM_ext. intros i _. rewrite pydiv_one. destruct (pydiv l2 _) as [q|]; [|reflexivity]. cbn [rmap bind]. apply bi_rectangular_scaled.
Qed.
Lemma zoned_loop_scaled fuel tr n1 n2 (b1 b2 : R) : forall i1 i2,
  zoned_loop fuel tr n1 n2 (kk b1) (kk b2) i1 i2 = rmap (map sc) (zoned_loop fuel tr n1 n2 b1 b2 i1 i2).
Proof.
  induction fuel as [|fuel IH]; intros i1 i2; cbn [zoned_loop]; (destruct (_ || _); [|reflexivity]); [reflexivity|].
  rewrite pydiv_both, bind_rmap. f_equal. extensionality ratio. rewrite !zmul_both, !pydiv_one.
  destruct (pydiv (zmul (n1 - 1) b1) (nofZ (i1 + 1))) as [x1|]; [|reflexivity]. cbn [rmap bind].
  destruct (pydiv (zmul (n2 - 1) b2) (nofZ (i2 + 1))) as [x2|]; [|reflexivity]. cbn [rmap bind].
  destruct (pydiv (zmul (n1 - 1) b1) (nofZ (i1 + 2))) as [x3|]; [|reflexivity]. cbn [rmap bind].
  destruct (pydiv (zmul (n2 - 1) b2) (nofZ (i2 + 2))) as [x4|]; [|reflexivity]. cbn [rmap bind].
  rewrite !pydiv_both. destruct (pydiv x1 x4) as [r1|]; [|reflexivity]. cbn [bind]. destruct (pydiv x2 x3) as [r2|]; [|reflexivity]. cbn [bind].
  rewrite bind_rmap. f_equal. extensionality ij. destruct ij as (j1, j2). rewrite zoned_rectangle_scaled.
  destruct (zoned_rectangle n1 n2 b1 b2 j1 j2) as [z|]; [|reflexivity]. cbn [rmap bind]. rewrite IH. destruct (zoned_loop fuel tr n1 n2 b1 b2 j1 j2) as [r|]; [|reflexivity].
  cbn [rmap bind map]. now rewrite transpose_scaled.
Qed.
Lemma zoned_domain_scaled (lx ly : R) nx ny tr : zoned_rectangle_domain (kk lx) (kk ly) nx ny tr = rmap (map sc) (zoned_rectangle_domain lx ly nx ny tr).
Proof.
  unfold zoned_rectangle_domain. rewrite nle_both.
  replace (if nle ly lx then (kk lx, kk ly, nx, ny) else (kk ly, kk lx, ny, nx))
    with (let '(a, b, c, d) := (if nle ly lx then (lx, ly, nx, ny) else (ly, lx, ny, nx)) in (kk a, kk b, c, d)) by now destruct (nle ly lx).
  destruct (if nle ly lx then (lx, ly, nx, ny) else (ly, lx, ny, nx)) as (((l1, l2), n1), n2). rewrite !pydiv_one.
  destruct (pydiv l1 _) as [b1|]; [|reflexivity]. cbn [rmap bind]. destruct (pydiv l2 _) as [b2|]; [|reflexivity]. cbn [rmap bind].
  rewrite zoned_rectangle_scaled. destruct (zoned_rectangle n1 n2 b1 b2 1 1) as [z|]; [|reflexivity]. cbn [rmap bind]. rewrite zoned_loop_scaled.
  now destruct (zoned_loop _ _ _ _ _ _ _ _).
Qed.
Lemma prefix_scaled tr (lx ly : R) n1 n2 : bi_zoned_prefix tr (kk lx) (kk ly) n1 n2 = rmap (map sc) (bi_zoned_prefix tr lx ly n1 n2).
Proof.
  unfold bi_zoned_prefix. rewrite !pydiv_one. destruct (pydiv lx _) as [bx|]; [|reflexivity]. cbn [rmap bind]. destruct (pydiv ly _) as [by_|]; [|reflexivity]. cbn [rmap bind].
  rewrite (mapM_scaled (fun l => rectangle l 1 bx by_)) by (intro; apply rectangle_scaled). destruct (mapM _ _) as [a|]; [|reflexivity]. cbn [rmap bind].
  rewrite (mapM_scaled (fun l => L_shape n1 l bx by_)) by (intro; apply L_shape_scaled). destruct (mapM _ _) as [b|]; [|reflexivity]. cbn [rmap bind].
  rewrite (mapM_scaled (fun l => lop_U n1 n2 bx by_ l)) by (intro; apply lop_U_scaled). destruct (mapM _ _) as [c|]; [|reflexivity]. cbn [rmap bind].
  rewrite (mapM_scaled (fun l => C_shape n1 n2 bx by_ l)) by (intro; apply C_shape_scaled). destruct (mapM _ _) as [d|]; [|reflexivity]. cbn [rmap bind].
  now rewrite !map_app.
Qed.
Notation sc3 := (fun s => (fst s, map (map sc) (snd s))).
Lemma bi_zoned_body_scaled tr (lx ly l1 l2 : R) m1 m2 v1 v2 s i :
  bi_zoned_body tr (kk lx) (kk ly) (kk l1) (kk l2) m1 m2 v1 v2 (fst s, map (map sc) (snd s)) i = rmap sc3 (bi_zoned_body tr lx ly l1 l2 m1 m2 v1 v2 s i).
Proof.
  destruct s as (((j, kq), l), nested). cbn [fst snd]. unfold bi_zoned_body.
  assert (E : (if (l =? 0)%Z then let! d := bi_zoned_prefix tr (kk lx) (kk ly) m1 m2 in Ok (d, bi_zoned_l m1 m2) else Ok ([], l)) =
              rmap (fun p => (map sc (fst p), snd p)) (if (l =? 0)%Z then let! d := bi_zoned_prefix tr lx ly m1 m2 in Ok (d, bi_zoned_l m1 m2) else Ok ([], l))).
  { destruct (l =? 0)%Z; [|reflexivity]. rewrite prefix_scaled. now destruct (bi_zoned_prefix tr lx ly m1 m2). }
  rewrite E, rmap_bind, bind_rmap. f_equal. extensionality pre. destruct pre as (d, l'). cbn [fst snd]. rewrite bind_rmap. f_equal. extensionality n1.
  rewrite bind_rmap. f_equal. extensionality n2. rewrite zoned_domain_scaled, rmap_bind, bind_rmap. f_equal. extensionality z.
  destruct (if (i mod 2 =? 0)%Z then _ else _) as (j', k'). cbn [rmap fst snd]. rewrite map_app. cbn [map]. now rewrite map_app.
Qed.
Lemma bi_zoned_scaled (lx ly bmin bx by_ : R) :
  bi_rectangle_zoned_nested (kk lx) (kk ly) (kk bmin) (kk bx) (kk by_) = rmap (map (map sc)) (bi_rectangle_zoned_nested lx ly bmin bx by_).
Proof.
  unfold bi_rectangle_zoned_nested. rewrite nle_both.
  replace (if nle ly lx then (kk lx, kk ly, kk bx, kk by_, false) else (kk ly, kk lx, kk by_, kk bx, true))
    with (let '(a, b, c, d, t) := (if nle ly lx then (lx, ly, bx, by_, false) else (ly, lx, by_, bx, true)) in (kk a, kk b, kk c, kk d, t)) by now destruct (nle ly lx).
  destruct (if nle ly lx then (lx, ly, bx, by_, false) else (ly, lx, by_, bx, true)) as ((((l1, l2), b1), b2), tr). rewrite !n_float_both.
  destruct (n_float l1 bmin) as [x1|]; [|reflexivity]. cbn [bind]. destruct (n_float l1 b1) as [y1|]; [|reflexivity]. cbn [bind].
  destruct (n_float l2 bmin) as [x2|]; [|reflexivity]. cbn [bind]. destruct (n_float l2 b2) as [y2|]; [|reflexivity]. cbn [bind].
  destruct (nceil y1) as [a1|]; [|reflexivity]. cbn [bind]. destruct (nfloor x1) as [c1|]; [|reflexivity]. cbn [bind].
  destruct (nceil y2) as [a2|]; [|reflexivity]. cbn [bind]. destruct (nfloor x2) as [c2|]; [|reflexivity]. cbn [bind].
  cbv zeta. set (v1 := zrange a1 (c1 + 1)). set (v2 := zrange a2 (c2 + 1)).
  pose proof (foldM_rmap _ _ sc3 (zrange 0 (zlen v1 + zlen v2 - 1)) (bi_zoned_body_scaled tr lx ly l1 l2 a1 a2 v1 v2) (0%Z, 0%Z, 0%Z, [])) as E. cbn [fst snd map] in E. rewrite E.
  now destruct (foldM (bi_zoned_body tr lx ly l1 l2 a1 a2 v1 v2) _ _).
Qed.

(** ** helpers and polygons *)
Lemma area_scaled corners : polygonal_area (sc corners) = rmap (Rmult (k * k)) (polygonal_area corners).
Proof.
  unfold polygonal_area. rewrite zlen_sc.
  assert (E : foldM (shoelace_body (sc corners)) (zrange 0 (zlen corners)) (k * k * 0) = rmap (Rmult (k * k)) (foldM (shoelace_body corners) (zrange 0 (zlen corners)) 0)).
  { apply foldM_rmap. intros s i. unfold shoelace_body. rewrite zlen_sc. unfold scaled at 1 2. rewrite !py_nth_map, rmap_bind, bind_rmap. f_equal. extensionality a.
    rewrite rmap_bind, bind_rmap. f_equal. extensionality b. cbn. f_equal. ring. }
  change (nofZ 0) with 0. rewrite Rmult_0_r in E. rewrite E. clear E. destruct (foldM _ _ _) as [a|]; [|reflexivity]. cbn [rmap bind]. unfold pydiv. cbn.
  destruct (Req_EM_T 2 0); [reflexivity|]. cbn. f_equal. rewrite Rabs_mult, (Rabs_pos_eq (k * k)) by nra. field.
Qed.
Lemma spacing_scaled rb c : borehole_spacing (kk rb) (sc c) = rmap kk (borehole_spacing rb c).
Proof.
  unfold borehole_spacing. rewrite zlen_sc. unfold scaled at 1 2. rewrite py_nth_map, rmap_bind, bind_rmap. f_equal. extensionality p.
  destruct (zlen c =? 1)%Z; [reflexivity|]. destruct (1 <? zlen c)%Z; [|reflexivity]. rewrite py_nth_map, rmap_bind, bind_rmap. f_equal. extensionality q. cbn [rmap fst snd nmul NumR]. f_equal.
  assert (E : sqrt ((k * fst q - k * fst p) ^ 2 + (k * snd q - k * snd p) ^ 2) = k * sqrt ((fst q - fst p) ^ 2 + (snd q - snd p) ^ 2)).
  { replace ((k * fst q - k * fst p) ^ 2 + (k * snd q - k * snd p) ^ 2) with (k ^ 2 * ((fst q - fst p) ^ 2 + (snd q - snd p) ^ 2)) by ring.
    rewrite sqrt_mult_alt by (apply pow2_ge_0). now rewrite sqrt_pow2 by lra. }
  rewrite E. unfold nmax. rewrite nlt_both. now destruct (nlt rb _).
Qed.
Lemma scale_twice c x : scale_coordinates (sc c) x = sc (scale_coordinates c x).
Proof. unfold scale_coordinates, scaled. rewrite !map_map. apply map_ext. intro p. cbn. f_equal; ring. Qed.
Lemma nth_sc c i : py_nth (sc c) i = rmap (fun p => (k * fst p, k * snd p)) (py_nth c i).
Proof. apply py_nth_map. Qed.
Section Polygon.
Variable pip pip' : @oracle R.
Hypothesis same_pip : forall b p, pip' (sc b) (k * fst p, k * snd p) = pip b p.
Lemma cutout_scaled c b ri kc : remove_cutout pip' (sc c) (sc b) ri kc = rmap sc (remove_cutout pip c b ri kc).
Proof.
  unfold remove_cutout. rewrite !scale_twice. set (c1 := scale_coordinates c _). set (b1 := scale_coordinates b _). rewrite zlen_sc.
  assert (E : classify_body pip' (sc c1) (sc b1) = classify_body pip c1 b1).
  { extensionality s. extensionality i. destruct s as ((ins, outs), bnds). unfold classify_body. unfold scaled at 1. rewrite py_nth_map, rmap_bind. f_equal. extensionality p.
    cbn [nmul NumR]. now rewrite same_pip. }
  rewrite E, bind_rmap. f_equal. extensionality s. destruct s as ((ins, outs), bnds).
  match goal with |- bind (foldM ?f ?l []) _ = rmap _ (bind (foldM ?g _ []) _) => assert (G : foldM f l (sc []) = rmap sc (foldM g l [])) end.
  { apply foldM_rmap. intros acc i. destruct (dropped _ _ _ _ _ _); [reflexivity|]. rewrite nth_sc, rmap_bind, bind_rmap. f_equal. extensionality p.
    cbn [rmap]. now rewrite sc_app. }
  cbn [scaled map] in G. rewrite G, rmap_bind, bind_rmap. f_equal. extensionality n. rewrite bind_rmap. f_equal. extensionality inv. cbn [rmap]. now rewrite scale_twice.
Qed.
Lemma cut_domain_scaled b g d : cut_domain pip' (sc b) (sc g) (map sc d) = rmap (map sc) (cut_domain pip b g d).
Proof.
  unfold cut_domain. assert (G : forall acc, foldM (fun acc coordinates => let! c := remove_cutout pip' coordinates (sc b) false true in
      if (zlen c =? 0)%Z then Ok acc else let! c := remove_cutout pip' c (sc g) true false in Ok (acc ++ [c])) (map sc d) (map sc acc) =
    rmap (map sc) (foldM (fun acc coordinates => let! c := remove_cutout pip coordinates b false true in
      if (zlen c =? 0)%Z then Ok acc else let! c := remove_cutout pip c g true false in Ok (acc ++ [c])) d acc)); [|exact (G [])].
  induction d as [|c d IH]; intro acc; [reflexivity|]. cbn [map foldM]. rewrite cutout_scaled. destruct (remove_cutout pip c b false true) as [c1|]; [|reflexivity].
  cbn [rmap bind]. rewrite zlen_sc. destruct (zlen c1 =? 0)%Z; [apply IH|]. rewrite cutout_scaled. destruct (remove_cutout pip c1 g true false) as [c2|]; [|reflexivity].
  cbn [rmap bind]. change [sc c2] with (map sc [c2]). rewrite <- map_app. apply IH.
Qed.
Lemma reorder_scaled d : reorder_domain (map sc d) = map sc (reorder_domain d).
Proof.
  unfold reorder_domain. rewrite map_map. replace (map (fun x => length (sc x)) d) with (map (@length (R * R)) d) by (apply map_ext; intro; unfold scaled; now rewrite map_length).
  induction (sort_nat (map (@length (R * R)) d)) as [|n l IH]; [reflexivity|]. cbn [flat_map]. rewrite map_app, <- IH. f_equal.
  replace (find (fun f => Nat.eqb (length f) n) (map sc d)) with (option_map sc (find (fun f => Nat.eqb (length f) n) d)); [now destruct (find _ d)|].
  clear. induction d as [|c d IH]; [reflexivity|]. cbn [find map]. unfold scaled at 2. rewrite map_length. destruct (Nat.eqb (length c) n); [reflexivity|exact IH].
Qed.
Lemma largest_scaled b : determine_largest_rectangle (sc b) = sc (determine_largest_rectangle b).
Proof.
  unfold determine_largest_rectangle. set (step := fun m p => _).
  assert (E : forall m, fold_left step (sc b) (k * fst m, k * snd m) = (k * fst (fold_left step b m), k * snd (fold_left step b m))).
  { induction b as [|p b IH]; intro m; [reflexivity|]. cbn [scaled map fold_left].
    replace (step (k * fst m, k * snd m) (nmul k (fst p), nmul k (snd p))) with (k * fst (step m p), k * snd (step m p)); [apply IH|].
    unfold step. cbn [fst snd]. change (nmul k (fst p)) with (kk (fst p)). change (nmul k (snd p)) with (kk (snd p)). rewrite !nlt_both.
    now destruct (nlt (fst m) (fst p)), (nlt (snd m) (snd p)). }
  specialize (E (0, 0)). cbn [fst snd] in E. rewrite Rmult_0_r in E. change (nofZ 0) with 0. rewrite E. destruct (fold_left step b (0, 0)) as (x, y). unfold scaled. cbn [map fst snd nmul NumR].
  now rewrite Rmult_0_r.
Qed.
Lemma max_scaled l : nmaxl (map kk l) = rmap kk (nmaxl l).
Proof.
  destruct l as [|a l]; [reflexivity|]. cbn [map nmaxl rmap]. f_equal. revert a. induction l as [|b l IH]; intro a; [reflexivity|]. cbn [map fold_left]. rewrite <- IH. f_equal.
  unfold nmax. rewrite nlt_both. now destruct (nlt a b).
Qed.
Lemma polygonal_scaled b bmin bx by_ g :
  polygonal_land_constraint pip' (sc b) (kk bmin) (kk bx) (kk by_) (sc g) = rmap (map (map sc)) (polygonal_land_constraint pip b bmin bx by_ g).
Proof.
  unfold polygonal_land_constraint. cbv zeta. rewrite largest_scaled. set (o := determine_largest_rectangle b).
  assert (Ex : map fst (sc o) = map kk (map fst o)) by (unfold scaled; now rewrite !map_map). assert (Ey : map snd (sc o) = map kk (map snd o)) by (unfold scaled; now rewrite !map_map).
  rewrite Ex, Ey, !max_scaled, rmap_bind, bind_rmap. f_equal. extensionality l. rewrite rmap_bind, bind_rmap. f_equal. extensionality w.
  rewrite bi_rectangle_scaled, rmap_bind, bind_rmap. f_equal. extensionality nested.
  assert (E : mapM (cut_domain pip' (sc b) (sc g)) (map (map sc) nested) = rmap (map (map sc)) (mapM (cut_domain pip b g) nested)).
  { induction nested as [|d l0 IH]; [reflexivity|]. cbn [map mapM]. rewrite cut_domain_scaled, IH. destruct (cut_domain pip b g d) as [x|]; [|reflexivity]. cbn [rmap bind].
    now destruct (mapM _ l0). }
  rewrite E, rmap_bind, bind_rmap. f_equal. extensionality cut. cbn [rmap]. f_equal. rewrite !map_map. apply map_ext. apply reorder_scaled.
Qed.
End Polygon.

(** ** the search *)
Notation fld := (list (R * R)).
Section SearchScale.
Variable build : fld -> R -> res unit.
Variable sim : fld -> R -> res (xval R).
Variable sized : fld -> res R.
Variable build' : fld -> R -> res unit.
Variable sim' : fld -> R -> res (xval R).
Variable sized' : fld -> res R.
Variable minH maxH : R.
Hypothesis same_build : forall c H, build' (sc c) (kk H) = build c H.
Hypothesis same_sim : forall c H, sim' (sc c) (kk H) = sim c H.
Hypothesis same_sized : forall c, sized' (sc c) = rmap kk (sized c).
Notation MM := (M fld (F := R)).

Definition commute {A A'} (g : A -> A') (m : MM A) (m' : MM A') : Prop := forall s, m' (search_scaled k s) = (rmap g (fst (m s)), search_scaled k (snd (m s))).
Lemma c_bind {A A' B B'} (g : A -> A') (h : B -> B') (m : MM A) m' (q : A -> MM B) (q' : A' -> MM B') :
  commute g m m' -> (forall a, commute h (q a) (q' (g a))) -> commute h (mbind fld m q) (mbind fld m' q').
Proof. intros E K s. unfold mbind. rewrite E. destruct (m s) as ([a|e], s'); cbn [fst snd rmap]; [apply K|reflexivity]. Qed.
Lemma c_ret {A A'} (g : A -> A') a a' : a' = g a -> commute g (ret fld a) (ret fld a'). Proof. now intros -> s. Qed.
Lemma c_raise {A A'} (g : A -> A') e : commute g (raise fld e) (raise fld e). Proof. now intros s. Qed.
Lemma c_lift {A A'} (g : A -> A') r r' : r' = rmap g r -> commute g (lift fld r) (lift fld r'). Proof. now intros -> s. Qed.
Lemma c_same {A} (r : res A) : commute (fun a => a) (lift fld r) (lift fld r).
Proof. intro s. unfold lift. cbn [fst snd]. now destruct r. Qed.
Lemma c_init c H : commute (fun u => u) (Search.initialize_ghe fld build c H) (Search.initialize_ghe fld build' (sc c) (kk H)).
Proof. unfold Search.initialize_ghe. apply (c_bind (fun u => u)); [|now intros a s]. rewrite same_build. apply c_same. Qed.
Lemma c_excess c H : commute (fun x => x) (Search.calculate_excess fld build sim c H) (Search.calculate_excess fld build' sim' (sc c) (kk H)).
Proof.
  unfold Search.calculate_excess. apply (c_bind (fun u => u)).
  - intros s. unfold modify, add_trace, search_scaled. cbn. now rewrite map_app.
  - intros _. apply (c_bind (fun u => u)); [apply c_init|]. intros _. rewrite same_sim. apply c_same.
Qed.
Lemma c_record i v : commute (fun u => u) (record_temp fld i v) (record_temp fld i v). Proof. now intros s. Qed.
Lemma c_dom : commute (map sc) (get fld (dom fld)) (get fld (dom fld)). Proof. now intros s. Qed.
Lemma c_temps : commute (fun t => t) (get fld (temps fld)) (get fld (temps fld)). Proof. now intros s. Qed.
Lemma c_loop fuel : forall xs a b i, commute (fun x => x) (bisect_loop fld build sim maxH fuel xs a b i) (bisect_loop fld build' sim' (kk maxH) fuel xs a b i).
Proof.
  induction fuel as [|fuel IH]; intros xs a b i; cbn [bisect_loop]; [now apply c_ret|].
  destruct (_ || _); [now apply c_ret|]. apply (c_bind (map sc)); [apply c_dom|]. intro d.
  apply (c_bind sc); [apply c_lift, py_nth_map|]. intro c. apply (c_bind (fun x => x)); [apply c_excess|]. intro x.
  apply (c_bind (fun x => x)); [apply c_record|]. intros _. apply (c_bind (fun x => x)); [apply c_same|]. intro sg.
  destruct (sg =? xs)%Z; apply IH.
Qed.
Lemma c_search mi : commute (selection_scaled k) (search fld build sim minH maxH mi) (search fld build' sim' (kk minH) (kk maxH) mi).
Proof.
  unfold search. apply (c_bind (map sc)); [apply c_dom|]. intro d. cbv zeta. rewrite zlen_map.
  apply (c_bind sc); [apply c_lift, py_nth_map|]. intros _.
  apply (c_bind sc); [apply c_lift, py_nth_map|]. intro c0.
  apply (c_bind (fun x => x)); [apply c_excess|]. intro x0. apply (c_bind (fun x => x)); [apply c_excess|]. intro x1.
  apply (c_bind sc); [apply c_lift, py_nth_map|]. intro cR.
  apply (c_bind (fun x => x)); [apply c_excess|]. intro x2.
  apply (c_bind (fun x => x)); [apply c_record|]. intros _. apply (c_bind (fun x => x)); [apply c_record|]. intros _.
  apply (c_bind (fun x => x)); [apply c_same|]. intro s0. apply (c_bind (fun x => x)); [apply c_same|]. intro s1.
  destruct (check_bracket s0 s1).
  { apply (c_bind (fun x => x)); [apply c_init|]. intros _. now apply c_ret. }
  apply (c_bind (fun x => x)); [apply c_same|]. intro s2. apply (c_bind (fun x => x)); [apply c_same|]. intro s3.
  destruct (check_bracket s2 s3).
  2: { destruct (_ && _); [apply c_raise|]. destruct (_ && _); [apply c_raise|]. now apply c_ret. }
  apply (c_bind (fun x => x)); [apply c_same|]. intro s4. apply (c_bind (fun x => x)); [apply c_same|]. intro s5.
  apply (c_bind (fun x => x)); [apply c_loop|]. intros ((a, b), i).
  apply (c_bind sc); [apply c_lift, py_nth_map|]. intro c.
  apply (c_bind (fun x => x)); [apply c_excess|]. intros _. apply (c_bind (fun x => x)); [apply c_temps|]. intro t.
  apply (c_bind (fun x => x)); [apply c_same|]. intro q.
  apply (c_bind sc); [apply c_lift, py_nth_map|]. intro c1.
  apply (c_bind (fun x => x)); [apply c_init|]. intros _. now apply c_ret.
Qed.
Notation pick_scaled := (fun kc : Z * fld => (fst kc, sc (snd kc))).
Lemma c_need r : commute pick_scaled (need fld r) (need fld (selection_scaled k r)).
Proof. destruct r as [(i, c)|]; [now apply c_ret|apply c_raise]. Qed.
Lemma c_2d nested mi :
  commute (fun r => (fst r, selection_scaled k (snd r))) (search_2d fld build sim minH maxH nested mi) (search_2d fld build' sim' (kk minH) (kk maxH) (map (map sc) nested) mi).
Proof.
  unfold search_2d. apply (c_bind (map sc)); [apply c_lift, outer_domain_map|]. intro o.
  apply (c_bind (fun x => x)); [now intros s|]. intros _. apply (c_bind (selection_scaled k)); [apply c_search|]. intro r.
  apply (c_bind pick_scaled); [apply c_need|]. intro kc. cbv zeta. cbn [fst].
  apply (c_bind (map sc)); [apply c_lift, py_nth_map|]. intro d. apply (c_bind (fun x => x)); [now intros s|]. intros _.
  apply (c_bind (fun x => x)); [now intros s|]. intros _. apply (c_bind (selection_scaled k)); [apply c_search|]. intro r2. now apply c_ret.
Qed.

(** the heat exchanger left by a search is that of the selected field, which is one of the domain *)
Definition leaves (d : list fld) (m : MM (option (Z * fld))) : Prop :=
  forall s i c s', m s = (Ok (Some (i, c)), s') -> fst (Search.ghe _ s') = c /\ In c d.
Lemma leaves_bind {A} d (m : MM A) q : (forall a, leaves d (q a)) -> leaves d (mbind fld m q).
Proof. intros L s i c s' E. unfold mbind in E. destruct (m s) as ([a|], s1); [|discriminate]. eapply L, E. Qed.
Lemma leaves_nth d i q : (forall c, In c d -> leaves d (q c)) -> leaves d (mbind fld (lift fld (py_nth d i)) q).
Proof. intros L s j c s' E. unfold mbind, lift in E. destruct (py_nth d i) as [a|] eqn:Ea; [|discriminate]. apply (L a (SearchProofs.py_nth_In _ _ _ _ Ea) s j c s' E). Qed.
Lemma leaves_init d i c H : In c d -> leaves d (mbind fld (Search.initialize_ghe fld build c H) (fun _ => ret fld (Some (i, c)))).
Proof.
  intros Hc s j c1 s' E. unfold mbind, Search.initialize_ghe, mbind, lift, modify, ret in E. destruct (build c H); [|discriminate]. injection E. intros <- <- _. split; [reflexivity|exact Hc].
Qed.
Lemma search_leaves mi s i c s' : search fld build sim minH maxH mi s = (Ok (Some (i, c)), s') -> fst (Search.ghe _ s') = c /\ In c (dom _ s).
Proof.
  unfold search. unfold mbind at 1. unfold get at 1. cbv beta iota zeta. set (d := dom fld s). clearbody d. revert s i c s'.
  refine (_ : leaves d _).
  apply leaves_nth; intros cl Hl. apply leaves_nth; intros c0 H0. do 2 (apply leaves_bind; intro). apply leaves_nth; intros cR HR. do 5 (apply leaves_bind; intro).
  destruct (check_bracket _ _); [now apply leaves_init|]. do 2 (apply leaves_bind; intro). destruct (check_bracket _ _).
  - do 2 (apply leaves_bind; intro). apply leaves_bind; intros ((x, y), z). do 4 (apply leaves_bind; intro). apply leaves_nth; intros c1 H1. now apply leaves_init.
  - destruct (_ && _); [intros s i c s'; discriminate|]. destruct (_ && _); intros s i c s'; discriminate.
Qed.

(** totals that the sentinel of 99999 treats alike in both units *)
Definition sentinel (nested : list (list fld)) : Prop :=
  forall d c H, In d nested -> In c d -> sized c = Ok H -> nlt 99999 (k * (IZR (zlen c) * H)) = nlt 99999 (IZR (zlen c) * H).
Lemma dict_set_map {A B} (g : A -> B) d i v : dict_set (map (fun p => (fst p, g (snd p))) d) i (g v) = map (fun p => (fst p, g (snd p))) (dict_set d i v).
Proof. induction d as [|(j, w) d IH]; [reflexivity|]. cbn. destruct (i =? j)%Z; cbn; [reflexivity|]. now rewrite IH. Qed.
Lemma c_successive nested mi fuel : sentinel nested -> forall old old' i,
  old' = kk old \/ (old = 99999 /\ old' = 99999) ->
  commute (fun u => u) (successive_loop fld build sim sized zlen minH maxH fuel nested mi old i)
    (successive_loop fld build' sim' sized' zlen (kk minH) (kk maxH) fuel (map (map sc) nested) mi old' i).
Proof.
  intro St. induction fuel as [|fuel IH]; intros old old' i Ho; cbn [successive_loop]; [now apply c_ret|].
  rewrite zlen_map. destruct (i <? zlen nested)%Z; [|now apply c_ret].
  intro s0. unfold mbind, lift, modify, get. cbv beta iota. rewrite py_nth_map. destruct (py_nth nested i) as [d|] eqn:Ed; [|reflexivity]. cbn [rmap].
  apply SearchProofs.py_nth_In in Ed.
  change (set_temps fld [] (set_dom fld (map sc d) (search_scaled k s0))) with (search_scaled k (set_temps fld [] (set_dom fld d s0))).
  rewrite c_search. pose proof (search_leaves mi (set_temps fld [] (set_dom fld d s0))) as Lv. cbn [dom set_temps set_dom] in Lv. set (s := set_temps fld [] (set_dom fld d s0)) in *. clearbody s. clear s0. destruct (search fld build sim minH maxH mi s) as ([r|e], s'); cbn [fst snd rmap].
  2: { destruct e; reflexivity. }
  unfold mbind, get, modify, lift. cbv beta iota.
  cbn [Search.ghe set_temps_nested search_scaled fst snd]. rewrite same_sized. destruct (sized (fst (Search.ghe _ s'))) as [H|e] eqn:EH.
  2: { cbn [rmap]. reflexivity. }
  cbn [rmap]. destruct r as [(j, c)|]; [|reflexivity]. cbn [need selection_scaled]. unfold ret. cbv beta iota. cbn [snd].
  destruct (Lv j c s' eq_refl) as [Lg Lc]. rewrite Lg in EH. rewrite zlen_sc.
  assert (T : nmul (nofZ (zlen c)) (k * H) = k * nmul (nofZ (zlen c)) H) by (cbn; ring).
  cbn [heights set_ghe set_temps_nested search_scaled]. rewrite T, dict_set_map.
  assert (D : nlt old' (k * nmul (nofZ (zlen c)) H) = nlt old (nmul (nofZ (zlen c)) H)).
  { destruct Ho as [->|[-> ->]]; [apply nlt_both|]. apply (St d c H Ed Lc EH). }
  rewrite D. set (t := nmul (nofZ (zlen c)) H) in *. cbn [snd]. fold t. change (nmul (nofZ (zlen c)) H) with t.
  destruct (nlt old t) eqn:Q; rewrite ?Q; [reflexivity|].
  match goal with |- _ = (rmap _ (fst (successive_loop _ _ _ _ _ _ _ _ _ _ _ _ ?t)), _) => apply (IH _ _ (i + 1)%Z (or_introl eq_refl) t) end.
Qed.
Lemma pick_scaled_min l : forall a, pick nlt (kk a) (map kk l) = kk (pick nlt a l).
Proof. induction l as [|b l IH]; intro a; [reflexivity|]. cbn [map pick]. rewrite nlt_both. destruct (nlt b a); apply IH. Qed.
Lemma py_min_scaled l : py_min (map kk l) = rmap kk (py_min l).
Proof. destruct l as [|a l]; [reflexivity|]. cbn [map py_min rmap]. f_equal. apply pick_scaled_min. Qed.
Lemma key_of_scaled hs m : key_of neqb (map (fun p => (fst p, kk (snd p))) hs) (kk m) = key_of neqb hs m.
Proof.
  unfold key_of. replace (find (fun kv => neqb (snd kv) (kk m)) (map (fun p => (fst p, kk (snd p))) hs))
    with (option_map (fun p : Z * R => (fst p, kk (snd p))) (find (fun kv => neqb (snd kv) m) hs)); [now destruct (find _ hs)|].
  induction hs as [|(i, v) hs IH]; [reflexivity|]. cbn [find map snd fst]. unfold neqb in *. rewrite !nle_both. destruct (_ && _); [reflexivity|exact IH].
Qed.
Notation zd_scaled := (fun r : Z * Z * fld => (fst r, sc (snd r))).
Lemma c_zd nested mi : sentinel nested ->
  commute zd_scaled (search_zd fld build sim sized zlen minH maxH nested mi) (search_zd fld build' sim' sized' zlen (kk minH) (kk maxH) (map (map sc) nested) mi).
Proof.
  intro St. unfold search_zd. apply (c_bind (map sc)); [apply c_lift, outer_domain_map|]. intro o. apply (c_bind (fun x => x)); [now intros s|]. intros _.
  apply (c_bind (fun x => x)); [now intros s|]. intros _. apply (c_bind (selection_scaled k)); [apply c_search|]. intro r.
  apply (c_bind pick_scaled); [apply c_need|]. intro kc. cbv zeta. cbn [fst]. apply (c_bind (fun x => x)); [now intros s|]. intros _.
  unfold search_successive. apply (c_bind (fun x => x)); [apply c_successive; [exact St|right; now split]|]. intros _.
  apply (c_bind (map (fun p => (fst p, kk (snd p))))); [now intros s|]. intro hs.
  apply (c_bind kk). { apply c_lift. rewrite <- py_min_scaled. f_equal. now rewrite !map_map. }
  intro m. rewrite key_of_scaled. apply (c_bind (fun x => x)); [apply c_same|]. intro ko. apply (c_bind (fun x => x)); [now intros s|]. intro tn.
  apply (c_bind (fun x => x)); [apply c_same|]. intro t. apply (c_bind (fun x => x)); [now intros s|]. intros _. apply (c_bind (fun x => x)); [apply c_same|]. intro q.
  apply (c_bind (map sc)); [apply c_lift, py_nth_map|]. intro d. apply (c_bind sc); [apply c_lift, py_nth_map|]. intro c.
  apply (c_bind (fun x => x)); [apply c_init|]. intros _. apply (c_bind kk); [apply c_lift, same_sized|]. intro H.
  apply (c_bind (fun x => x)); [now intros s|]. intros _. now apply c_ret.
Qed.

(** ** designs *)
Definition found_scaled (f : found (F := R) (V := R)) : found (F := R) (V := R) := (selection_scaled k (fst f), search_scaled k (snd f)).
Lemma base_scaled d H : base_init build' (map sc d) (kk H) = rmap (search_scaled k) (base_init build d H).
Proof. unfold base_init. rewrite py_nth_map, rmap_bind, bind_rmap. f_equal. extensionality c. rewrite same_build, bind_rmap. f_equal. Qed.
Definition candidates_scaled (cs : candidates (F := R)) : candidates (F := R) :=
  match cs with one_domain d => one_domain (map sc d) | nested_domain dd => nested_domain (map (map sc) dd) end.
Lemma find_scaled r cs H : (r = bi_zoned -> forall dd, cs = nested_domain dd -> sentinel dd) ->
  find_design build' sim' sized' (kk minH) (kk maxH) r (candidates_scaled cs) (kk H) = rmap found_scaled (find_design build sim sized minH maxH r cs H).
Proof.
  intro St. assert (O : forall d, bisection_1d build' sim' (kk minH) (kk maxH) (map sc d) (kk H) = rmap found_scaled (bisection_1d build sim minH maxH d H)).
  { intro d. unfold bisection_1d. rewrite base_scaled, rmap_bind, bind_rmap. f_equal. extensionality s. rewrite c_search.
    destruct (search _ build sim minH maxH 15 s) as ([q|], s'); reflexivity. }
  destruct r, cs as [d|dd]; try reflexivity; try apply O; cbn [find_design candidates_scaled].
  - unfold bisection_2d. rewrite py_nth_map, rmap_bind, bind_rmap. f_equal. extensionality d. rewrite base_scaled, rmap_bind, bind_rmap. f_equal. extensionality s.
    rewrite c_2d. destruct (search_2d _ build sim minH maxH dd 15 s) as ([(i, q)|], s'); reflexivity.
  - unfold bisection_zd. rewrite py_nth_map, rmap_bind, bind_rmap. f_equal. extensionality d. rewrite base_scaled, rmap_bind, bind_rmap. f_equal. extensionality s.
    rewrite c_zd by now apply St. destruct (search_zd _ build sim sized zlen minH maxH dd 15 s) as ([((i, j), q)|], s'); reflexivity.
Qed.
Lemma init_scaled gc r : design_init (constraints_scaled k gc) r = rmap candidates_scaled (design_init gc r).
Proof.
  unfold design_init, check_inputs, constraints_scaled. cbn [gc_length gc_width gc_B gc_B_min gc_B_max_x gc_B_max_y].
  destruct gc as [[l|] [w|] [b|] [bm|] [bx|] [by_|]], r; cbn [times gc_length gc_width gc_B gc_B_min gc_B_max_x gc_B_max_y not_none assert_ bind number]; try reflexivity;
  unfold number_of_boreholes;
  try (rewrite pydiv_both; destruct (pydiv l b) as [q|]; [|reflexivity]; cbn [bind]; destruct (nfloor q) as [n|]; [|reflexivity]; cbn [bind];
       rewrite square_scaled; now destruct (square_and_near_square _ _ _));
  try (rewrite rectangular_scaled; now destruct (rectangular _ _ _ _));
  try (rewrite bi_rectangle_scaled; now destruct (bi_rectangle_nested _ _ _ _ _));
  try (rewrite bi_zoned_scaled; now destruct (bi_rectangle_zoned_nested _ _ _ _ _)).
Qed.
Lemma design_scaled gc r H : (r = bi_zoned -> forall dd, design_init gc r = Ok (nested_domain dd) -> sentinel dd) ->
  design build' sim' sized' (kk minH) (kk maxH) (constraints_scaled k gc) r (kk H) = rmap found_scaled (design build sim sized minH maxH gc r H).
Proof.
  intro St. unfold design. rewrite init_scaled. destruct (design_init gc r) as [cs|]; [|reflexivity]. cbn [rmap bind]. apply find_scaled. intros Er dd ->. now apply St.
Qed.
End SearchScale.
End Scale.
