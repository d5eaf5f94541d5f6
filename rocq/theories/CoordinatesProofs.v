(** Proofs about the coordinates model at the reals *)
From Coq Require Import ZArith List Bool Reals Lra Lia Psatz.
From Verif Require Import Base Num BaseLemmas Coordinates Spec.
Import ListNotations.
Open Scope Z_scope.

(** ** transpose *)
Lemma transpose_involutive {F} (c : field F) : transpose_coordinates (transpose_coordinates c) = c.
Proof. unfold transpose_coordinates. rewrite map_map. rewrite <- (map_id c) at 2. apply map_ext. intros [x y]; reflexivity. Qed.
Lemma transpose_nth {F} (c : field F) k : 
  nth_error (transpose_coordinates c) k = option_map (fun p => (snd p, fst p)) (nth_error c k).
Proof. unfold transpose_coordinates. apply nth_error_map. Qed.
Lemma transpose_zlen {F} (c : field F) : zlen (transpose_coordinates c) = zlen c.
Proof. apply zlen_map. Qed.

Lemma transpose_separated d f : separated d f -> separated d (transpose_coordinates f).
Proof.
  intros H i j p q Hij Hp Hq. rewrite transpose_nth in Hp, Hq.
  destruct (nth_error f i) as [[a b]|] eqn:Ei; [|discriminate].
  destruct (nth_error f j) as [[a' b']|] eqn:Ej; [|discriminate].
  cbn in *. injection Hp as <-. injection Hq as <-. cbn.
  specialize (H i j _ _ Hij Ei Ej). cbn in H. now rewrite Rplus_comm.
Qed.
Lemma transpose_inside lx ly f : inside lx ly f -> inside ly lx (transpose_coordinates f).
Proof.
  intros H p Hp. apply in_map_iff in Hp as ([x y] & <- & Hp). cbn. apply H in Hp; cbn in Hp. tauto.
Qed.

(** ** rectangle *)
Section AnyNum.
Context {F : Type} {N : Num F}.

Lemma rectangle_loop_zlen Nx Ny (g : Z -> Z -> point F) :
  zlen (flat_map (fun i => map (fun j => g i j) (zrange 0 Ny)) (zrange 0 Nx)) = Z.max 0 Nx * Z.max 0 Ny.
Proof.
  rewrite (zlen_flat_map_const _ _ (Z.max 0 Ny)).
  - rewrite zrange_zlen. rewrite Z.sub_0_r. lia.
  - intros. rewrite zlen_map, zrange_zlen. lia.
Qed.

Lemma rectangle_o_ok Nx Ny Bx By o :
  0 <= Nx -> 0 <= Ny ->
  rectangle_o Nx Ny Bx By o =
  Ok (flat_map (fun i => map (fun j => (nadd (fst o) (zmul i Bx), nadd (snd o) (zmul j By)))
                             (zrange 0 Ny)) (zrange 0 Nx)).
Proof.
  intros. unfold rectangle_o. rewrite rectangle_loop_zlen.
  replace (_ =? _) with true; [reflexivity|]. symmetry; apply Z.eqb_eq. nia.
Qed.

Lemma rectangle_o_err Nx Ny Bx By o e :
  rectangle_o Nx Ny Bx By o = Err e <->
  e = AssertionError /\ ((Nx < 0 /\ Ny <> 0) \/ (Ny < 0 /\ Nx <> 0)).
Proof.
  unfold rectangle_o. rewrite rectangle_loop_zlen.
  destruct (Z.eqb_spec (Z.max 0 Nx * Z.max 0 Ny) (Nx * Ny)) as [E|E]; cbn.
  - split; [discriminate|]. intros (_ & H). exfalso.
    destruct (Z_lt_le_dec Nx 0), (Z_lt_le_dec Ny 0); nia.
  - split; [intros [= <-]; split; auto|intros (-> & _); reflexivity].
    destruct (Z_lt_le_dec Nx 0), (Z_lt_le_dec Ny 0); try nia.
Qed.
End AnyNum.

Open Scope R_scope.

Lemma fz_R : (fz : R) = 0. Proof. reflexivity. Qed.
Lemma zmul_R i b : zmul i b = IZR i * b. Proof. reflexivity. Qed.

Lemma rectangle_o_spec Nx Ny Bx By ox oy :
  (0 <= Nx)%Z -> (0 <= Ny)%Z ->
  exists f, rectangle_o Nx Ny Bx By (ox, oy) = Ok f
    /\ zlen f = (Nx * Ny)%Z
    /\ (forall i j, (0 <= i < Nx)%Z -> (0 <= j < Ny)%Z ->
        nth_error f (Z.to_nat (i * Ny + j)) = Some (ox + IZR i * Bx, oy + IZR j * By))
    /\ (forall p, In p f <-> exists i j, (0 <= i < Nx)%Z /\ (0 <= j < Ny)%Z
                             /\ p = (ox + IZR i * Bx, oy + IZR j * By)).
Proof.
  intros Hx Hy. eexists. split; [now apply rectangle_o_ok|]. split; [|split].
  - rewrite rectangle_loop_zlen. rewrite !Z.max_r by lia. reflexivity.
  - intros i j Hi Hj. replace (Z.to_nat (i * Ny + j)) with (Z.to_nat i * Z.to_nat Ny + Z.to_nat j)%nat.
    2:{ rewrite Z2Nat.inj_add, Z2Nat.inj_mul; lia. }
    rewrite (nth_error_flat_map_const _ _ (Z.to_nat Ny) _ _ i).
    + rewrite nth_error_map. unfold zrange. rewrite nth_error_zseq.
      replace (_ <? _)%nat with true by (symmetry; apply Nat.ltb_lt; lia).
      cbn -[Z.of_nat]. rewrite Z2Nat.id by lia. reflexivity.
    + intros. rewrite map_length, zrange_length. f_equal; lia.
    + unfold zrange. rewrite nth_error_zseq.
      replace (_ <? _)%nat with true by (symmetry; apply Nat.ltb_lt; lia). f_equal; lia.
    + lia.
  - intros p. rewrite in_flat_map. split.
    + intros (i & Hi & Hp). apply in_map_iff in Hp as (j & <- & Hj).
      rewrite in_zrange in Hi, Hj. exists i, j. repeat split; auto; lia.
    + intros (i & j & Hi & Hj & ->). exists i. split; [apply in_zrange; lia|].
      apply in_map_iff. exists j. split; [reflexivity|apply in_zrange; lia].
Qed.

Lemma rectangle_o_nodup Nx Ny Bx By ox oy f :
  0 < Bx -> 0 < By -> rectangle_o Nx Ny Bx By (ox, oy) = Ok f -> NoDup f.
Proof.
  intros HBx HBy H. unfold rectangle_o in H. inv_ok H. injection H as <-.
  apply NoDup_flat_map.
  - apply NoDup_zrange.
  - intros i Hi. apply NoDup_map_inj; [|apply NoDup_zrange]. intros x y _ _ [= E0].
    cbn in E0. apply Rplus_eq_reg_l in E0. eapply IZR_mult_inj; [|exact E0]. lra.
  - intros a b x _ _ H1 H2. apply in_map_iff in H1 as (j & <- & _), H2 as (k & [= E0 _] & _).
    cbn in E0. apply Rplus_eq_reg_l in E0. symmetry. eapply IZR_mult_inj; [|exact E0]. lra.
Qed.

(** Points of a grid are at least the smaller spacing apart *)
Lemma sqrt_ge d x : 0 <= d -> d ^ 2 <= x -> d <= sqrt x.
Proof. intros Hd H. rewrite <- (sqrt_pow2 d) by auto. apply sqrt_le_1; auto; nra. Qed.

Lemma IZR_sq_ge1 (i j : Z) (b d : R) : 0 <= d <= b -> i <> j -> d ^ 2 <= (IZR i * b - IZR j * b) ^ 2.
Proof.
  intros Hd Hij. replace (IZR i * b - IZR j * b) with (IZR (i - j) * b) by (rewrite minus_IZR; lra).
  assert (1 <= IZR (i - j) ^ 2).
  { replace (IZR (i - j) ^ 2) with (IZR ((i - j) * (i - j))) by (rewrite mult_IZR; ring). apply IZR_le. nia. }
  rewrite Rpow_mult_distr. nra.
Qed.

Lemma separated_of_distinct (d : R) (f : list (R * R)) (P : R * R -> Prop) :
  NoDup f -> (forall p, In p f -> P p) ->
  (forall p q, P p -> P q -> p <> q -> d <= sqrt ((fst p - fst q) ^ 2 + (snd p - snd q) ^ 2)) ->
  separated d f.
Proof.
  intros Hnd HP Hd i j p q Hij Hi Hj. apply Hd.
  - apply HP. eapply nth_error_In; eauto.
  - apply HP. eapply nth_error_In; eauto.
  - intros ->. apply Hij. rewrite NoDup_nth_error in Hnd. apply Hnd.
    + apply nth_error_Some. congruence.
    + congruence.
Qed.

Lemma grid_far Bx By d i j i' j' :
  0 <= d -> d <= Bx -> d <= By -> grid Bx By i j <> grid Bx By i' j' ->
  d <= sqrt ((fst (grid Bx By i j) - fst (grid Bx By i' j')) ^ 2 + (snd (grid Bx By i j) - snd (grid Bx By i' j')) ^ 2).
Proof.
  intros Hd Hx Hy Hne. unfold grid in *; cbn in Hne |- *. apply sqrt_ge; auto.
  assert (0 <= (IZR i * Bx - IZR i' * Bx) ^ 2) by apply pow2_ge_0.
  assert (0 <= (IZR j * By - IZR j' * By) ^ 2) by apply pow2_ge_0.
  destruct (Z.eq_dec i i') as [->|Hi].
  - destruct (Z.eq_dec j j') as [->|Hj]; [congruence|].
    pose proof (IZR_sq_ge1 j j' By d ltac:(lra) Hj). cbn in *; lra.
  - pose proof (IZR_sq_ge1 i i' Bx d ltac:(lra) Hi). cbn in *; lra.
Qed.

Lemma grid_separated Bx By d f :
  0 <= d -> d <= Bx -> d <= By -> NoDup f ->
  (forall p, In p f -> exists i j, p = grid Bx By i j) -> separated d f.
Proof.
  intros Hd Hx Hy Hnd Hg. apply (separated_of_distinct d f (fun p => exists i j, p = grid Bx By i j)); auto.
  intros p q (i & j & ->) (i' & j' & ->) Hne. now apply grid_far.
Qed.

Lemma grid_inside Bx By lx ly f :
  0 <= Bx -> 0 <= By ->
  (forall p, In p f -> exists i j, (0 <= i)%Z /\ (0 <= j)%Z /\ IZR i * Bx <= lx /\ IZR j * By <= ly /\ p = grid Bx By i j) ->
  inside lx ly f.
Proof.
  intros Hx Hy H p Hp. destruct (H p Hp) as (i & j & Hi & Hj & Hl & Hl' & ->). cbn.
  pose proof (IZR_pos_mult i Bx Hi Hx). pose proof (IZR_pos_mult j By Hj Hy). lra.
Qed.

(** rectangle with the default origin *)
Lemma rectangle_spec Nx Ny Bx By :
  (0 <= Nx)%Z -> (0 <= Ny)%Z ->
  exists f, rectangle Nx Ny Bx By = Ok f
    /\ zlen f = (Nx * Ny)%Z
    /\ (forall p, In p f <-> exists i j, (0 <= i < Nx)%Z /\ (0 <= j < Ny)%Z /\ p = grid Bx By i j)
    /\ (0 < Bx -> 0 < By -> NoDup f).
Proof.
  intros Hx Hy. destruct (rectangle_o_spec Nx Ny Bx By 0 0 Hx Hy) as (f & E & Hl & _ & Hm).
  exists f. split; [exact E|]. split; [auto|]. split.
  - intros p. rewrite Hm. unfold grid. split; intros (i & j & Hi & Hj & ->); exists i, j; repeat split; auto; try lia;
      now rewrite !Rplus_0_l.
  - intros. eapply rectangle_o_nodup; [..|exact E]; auto.
Qed.

(** ** rows and columns *)
Lemma in_row (n : Z) a (y Bx : R) p : In p (map (fun i => (zmul i Bx, y)) (zrange a n)) <->
  exists i, (a <= i < n)%Z /\ p = (IZR i * Bx, y).
Proof. rewrite in_map_iff. split; [intros (i & <- & Hi)|intros (i & Hi & ->)]; exists i; rewrite in_zrange in *; auto. Qed.
Lemma in_col (n : Z) a (x By : R) p : In p (map (fun j => (x, zmul j By)) (zrange a n)) <->
  exists j, (a <= j < n)%Z /\ p = (x, IZR j * By).
Proof. rewrite in_map_iff. split; [intros (i & <- & Hi)|intros (i & Hi & ->)]; exists i; rewrite in_zrange in *; auto. Qed.
Lemma nodup_row (n : Z) a (y Bx : R) : Bx <> 0 -> NoDup (map (fun i => (zmul i Bx, y)) (zrange a n)).
Proof. intros. apply NoDup_map_inj; [|apply NoDup_zrange]. intros i j _ _ [= E]. eapply IZR_mult_inj; eauto. Qed.
Lemma nodup_col (n : Z) a (x By : R) : By <> 0 -> NoDup (map (fun j => (x, zmul j By)) (zrange a n)).
Proof. intros. apply NoDup_map_inj; [|apply NoDup_zrange]. intros i j _ _ [= E]. eapply IZR_mult_inj; eauto. Qed.

Lemma pair_eq_l {A B} {a a' : A} {b b' : B} : (a, b) = (a', b') -> a = a'. Proof. congruence. Qed.
Lemma pair_eq_r {A B} {a a' : A} {b b' : B} : (a, b) = (a', b') -> b = b'. Proof. congruence. Qed.

Lemma zero_grid_x Bx : 0 = IZR 0 * Bx. Proof. now rewrite Rmult_0_l. Qed.

(** grid equalities are equalities of indices *)
Lemma grid_inj Bx By i j i' j' : Bx <> 0 -> By <> 0 -> grid Bx By i j = grid Bx By i' j' -> i = i' /\ j = j'.
Proof. unfold grid. intros Hx Hy [= E1 E2]. split; [apply (IZR_mult_inj i i' Bx)|apply (IZR_mult_inj j j' By)]; auto. Qed.

(** ** open rectangle *)
Lemma open_rectangle_spec Nx Ny Bx By :
  (2 < Nx)%Z -> (2 < Ny)%Z ->
  exists f, open_rectangle Nx Ny Bx By = Ok f
    /\ zlen f = (2 * Nx + 2 * Ny - 4)%Z
    /\ nth_error f 0 = Some (0, 0) /\ nth_error f 1 = Some (Bx, 0)
    /\ (forall p, In p f <-> exists i j, (0 <= i < Nx)%Z /\ (0 <= j < Ny)%Z
              /\ (i = 0 \/ i = Nx - 1 \/ j = 0 \/ j = Ny - 1)%Z /\ p = grid Bx By i j)
    /\ (0 < Bx -> 0 < By -> NoDup f).
Proof.
  intros Hx Hy. unfold open_rectangle. rewrite (proj2 (Z.ltb_lt 2 Nx)), (proj2 (Z.ltb_lt 2 Ny)) by lia.
  cbn [andb]. set (f := _ ++ _).
  assert (Hl : zlen f = (2 * Nx + 2 * Ny - 4)%Z).
  { unfold f. rewrite !zlen_app, !zlen_map, (zlen_flat_map_const _ _ 2) by reflexivity.
    rewrite !zrange_zlen. lia. }
  exists f. split.
  { rewrite Hl. replace (_ =? _)%Z with true; [reflexivity|]. symmetry; apply Z.eqb_eq; lia. }
  split; [exact Hl|]. split; [|split; [|split]].
  - unfold f. rewrite zrange_cons by lia. cbn. now rewrite Rmult_0_l.
  - unfold f. rewrite zrange_cons, zrange_cons by lia. cbn. now rewrite Rmult_1_l.
  - intros p. unfold f. rewrite !in_app_iff, !in_row, in_flat_map. unfold grid, fz; cbn [nofZ NumR]. split.
    + intros [(i & Hi & ->)|[(j & Hj & Hp)|(i & Hi & ->)]].
      * exists i, 0%Z. repeat split; try lia. now rewrite Rmult_0_l.
      * apply in_zrange in Hj. cbn in Hp. destruct Hp as [<-|[<-|[]]].
        -- exists 0%Z, j. repeat split; try lia. now rewrite Rmult_0_l.
        -- exists (Nx - 1)%Z, j. repeat split; lia.
      * exists i, (Ny - 1)%Z. repeat split; lia.
    + intros (i & j & Hi & Hj & H & ->).
      destruct (Z.eq_dec j 0) as [->|Hj0]; [left; exists i; split; [lia|now rewrite Rmult_0_l]|].
      destruct (Z.eq_dec j (Ny - 1)) as [->|Hj1]; [right; right; exists i; split; [lia|reflexivity]|].
      right; left. exists j. split; [apply in_zrange; lia|].
      destruct (Z.eq_dec i 0) as [->|Hi0]; [left; now rewrite Rmult_0_l|].
      right; left. replace i with (Nx - 1)%Z by lia. reflexivity.
  - intros HBx HBy. unfold f. apply NoDup_app_intro; [apply nodup_row; lra|apply NoDup_app_intro|].
    + apply NoDup_flat_map; [apply NoDup_zrange| |].
      * intros j _. constructor; [|constructor; [intros []|constructor]]. intros [E|[]].
        apply pair_eq_l in E. unfold fz in E; cbn in E.
        rewrite (zero_grid_x Bx) in E. apply IZR_mult_inj in E; [lia|lra].
      * intros a b p _ _ H1 H2. cbn in H1, H2.
        assert (snd p = IZR a * By) by (destruct H1 as [<-|[<-|[]]]; reflexivity).
        assert (snd p = IZR b * By) by (destruct H2 as [<-|[<-|[]]]; reflexivity).
        eapply (IZR_mult_inj a b By); [lra|congruence].
    + apply nodup_row; lra.
    + intros p H1 H2. rewrite in_flat_map in H1. destruct H1 as (j & Hj & Hp). apply in_zrange in Hj.
      apply in_row in H2 as (i & Hi & ->). cbn in Hp.
      assert (E : IZR (Ny - 1) * By = IZR j * By) by (destruct Hp as [E|[E|[]]]; apply pair_eq_r in E; symmetry; exact E).
      apply IZR_mult_inj in E; [lia|lra].
    + intros p H1 H2. apply in_row in H1 as (i & Hi & ->). apply in_app_iff in H2 as [H2|H2].
      * rewrite in_flat_map in H2. destruct H2 as (j & Hj & Hp). apply in_zrange in Hj. cbn in Hp.
        assert (E : IZR 0 * By = IZR j * By).
        { rewrite Rmult_0_l. destruct Hp as [E|[E|[]]]; apply pair_eq_r in E; symmetry; exact E. }
        apply IZR_mult_inj in E; [lia|lra].
      * apply in_row in H2 as (k & Hk & E). apply pair_eq_r in E. unfold fz in E; cbn in E.
        rewrite (zero_grid_x By) in E. apply IZR_mult_inj in E; [lia|lra].
Qed.

Lemma open_rectangle_small Nx Ny Bx By :
  ~ ((2 < Nx)%Z /\ (2 < Ny)%Z) -> open_rectangle Nx Ny Bx By = rectangle Nx Ny Bx By.
Proof.
  intros H. unfold open_rectangle. replace ((2 <? Nx)%Z && (2 <? Ny)%Z) with false.
  2:{ symmetry; apply andb_false_iff. rewrite !Z.ltb_ge. lia. }
  unfold rectangle, rectangle_o. rewrite !rectangle_loop_zlen.
  destruct (_ =? _)%Z eqn:E; cbn [assert_ bind]; [|reflexivity]. rewrite rectangle_loop_zlen, E. reflexivity.
Qed.

(** ** L, lopsided U, C *)
Lemma L_shape_spec Nx Ny Bx By :
  (1 <= Nx)%Z -> (1 <= Ny)%Z ->
  exists f, L_shape Nx Ny Bx By = Ok f
    /\ zlen f = (Nx + Ny - 1)%Z
    /\ (forall p, In p f <-> exists i j, (0 <= i < Nx)%Z /\ (0 <= j < Ny)%Z /\ (i = 0 \/ j = 0)%Z /\ p = grid Bx By i j)
    /\ (0 < Bx -> 0 < By -> NoDup f).
Proof.
  intros Hx Hy. unfold L_shape. set (f := _ ++ _).
  assert (Hl : zlen f = (Nx + Ny - 1)%Z).
  { unfold f. rewrite zlen_app, !zlen_map, !zrange_zlen. lia. }
  exists f. split; [now rewrite Hl, Z.eqb_refl|]. split; [exact Hl|]. split.
  - intros p. unfold f. rewrite in_app_iff, in_row, in_col. unfold grid, fz; cbn [nofZ NumR]. split.
    + intros [(i & Hi & ->)|(j & Hj & ->)]; [exists i, 0%Z|exists 0%Z, j]; repeat split; try lia; now rewrite Rmult_0_l.
    + intros (i & j & Hi & Hj & H & ->). destruct (Z.eq_dec j 0) as [->|Hj0].
      * left; exists i; rewrite Rmult_0_l; auto.
      * right; exists j. split; [lia|]. replace i with 0%Z by lia. now rewrite Rmult_0_l.
  - intros HBx HBy. unfold f. apply NoDup_app_intro; [apply nodup_row; lra|apply nodup_col; lra|].
    intros p H1 H2. apply in_row in H1 as (i & Hi & ->). apply in_col in H2 as (j & Hj & E).
    apply pair_eq_r in E. unfold fz in E; cbn in E. rewrite (zero_grid_x By) in E. apply IZR_mult_inj in E; [lia|lra].
Qed.

Lemma lop_U_spec Nx Ny1 Bx By Ny2 :
  (1 <= Nx)%Z -> (1 <= Ny1)%Z -> (1 <= Ny2)%Z ->
  exists f, lop_U Nx Ny1 Bx By Ny2 = Ok f
    /\ zlen f = (Nx + Ny1 + Ny2 - 2)%Z
    /\ (forall p, In p f <-> exists i j, (0 <= i < Nx)%Z /\ (0 <= j)%Z
          /\ (j = 0 \/ (i = 0 /\ j < Ny1) \/ (i = Nx - 1 /\ j < Ny2))%Z /\ p = grid Bx By i j)
    /\ (0 < Bx -> 0 < By -> (2 <= Nx)%Z -> NoDup f).
Proof.
  intros Hx Hy1 Hy2. unfold lop_U. set (f := _ ++ _).
  assert (Hl : zlen f = (Nx + Ny1 + Ny2 - 2)%Z).
  { unfold f. rewrite !zlen_app, !zlen_map, !zrange_zlen. lia. }
  exists f. split.
  { rewrite Hl. replace (_ =? _)%Z with true; [reflexivity|]. symmetry; apply Z.eqb_eq; lia. }
  split; [exact Hl|]. split.
  - intros p. unfold f. rewrite !in_app_iff, in_row, !in_col. unfold grid, fz; cbn [nofZ NumR]. split.
    + intros [(i & Hi & ->)|[(j & Hj & ->)|(j & Hj & ->)]]; [exists i, 0%Z|exists 0%Z, j|exists (Nx - 1)%Z, j];
        repeat split; try lia; now rewrite Rmult_0_l.
    + intros (i & j & Hi & Hj & H & ->). destruct (Z.eq_dec j 0) as [->|Hj0].
      * left; exists i; rewrite Rmult_0_l; auto.
      * destruct H as [H|[(-> & H)|(-> & H)]]; [lia| |].
        -- right; left. exists j. rewrite Rmult_0_l. split; [lia|reflexivity].
        -- right; right. exists j. split; [lia|reflexivity].
  - intros HBx HBy HNx. unfold f.
    apply NoDup_app_intro; [apply nodup_row; lra|apply NoDup_app_intro; [apply nodup_col; lra|apply nodup_col; lra|]|].
    + intros p H1 H2. apply in_col in H1 as (i & Hi & ->). apply in_col in H2 as (j & Hj & E).
      apply pair_eq_l in E. unfold fz in E; cbn in E. rewrite (zero_grid_x Bx) in E. apply IZR_mult_inj in E; [lia|lra].
    + intros p H1 H2. apply in_row in H1 as (i & Hi & ->).
      assert (exists j, (1 <= j)%Z /\ 0 = IZR j * By) as (j & Hj & E).
      { apply in_app_iff in H2 as [H2|H2]; apply in_col in H2 as (j & Hj & E); apply pair_eq_r in E; exists j; split; auto; lia. }
      rewrite (zero_grid_x By) in E. apply IZR_mult_inj in E; [lia|lra].
Qed.

Lemma C_shape_spec Nx1 Ny Bx By Nx2 :
  (1 <= Nx1)%Z -> (1 <= Ny)%Z -> (0 <= Nx2)%Z ->
  exists f, C_shape Nx1 Ny Bx By Nx2 = Ok f
    /\ zlen f = (Nx1 + 2 * Ny + Nx2 - 2)%Z
    /\ (forall p, In p f <-> exists i j, p = grid Bx By i j /\
          ((j = 0 /\ 0 <= i < Nx1) \/ ((i = 0 \/ i = Nx1 - 1) /\ 1 <= j < Ny) \/ (j = Ny - 1 /\ 1 <= i <= Nx2))%Z)
    /\ (0 < Bx -> 0 < By -> (2 <= Nx1)%Z -> (2 <= Ny)%Z -> (Nx2 <= Nx1 - 2)%Z -> NoDup f).
Proof.
  intros Hx Hy Hx2. unfold C_shape. set (f := _ ++ _).
  assert (Hl : zlen f = (Nx1 + 2 * Ny + Nx2 - 2)%Z).
  { unfold f. rewrite !zlen_app, !zlen_map, !zrange_zlen. lia. }
  exists f. split.
  { rewrite Hl. replace (_ =? _)%Z with true; [reflexivity|]. symmetry; apply Z.eqb_eq; lia. }
  split; [exact Hl|]. split.
  - intros p. unfold f. rewrite !in_app_iff, !in_row, !in_col. unfold grid, fz; cbn [nofZ NumR]. split.
    + intros [(i & Hi & ->)|[(j & Hj & ->)|[(j & Hj & ->)|(i & Hi & ->)]]];
        [exists i, 0%Z|exists 0%Z, j|exists (Nx1 - 1)%Z, j|exists i, (Ny - 1)%Z]; split; try lia; try reflexivity; now rewrite Rmult_0_l.
    + intros (i & j & -> & [(-> & H)|[([->| ->] & H)|(-> & H)]]).
      * left. exists i. rewrite Rmult_0_l. auto.
      * right; left. exists j. rewrite Rmult_0_l. auto.
      * right; right; left. exists j. auto.
      * right; right; right. exists i. split; [lia|reflexivity].
  - intros HBx HBy HNx HNy HNx2. unfold f.
    apply NoDup_app_intro; [apply nodup_row; lra|apply NoDup_app_intro;
       [apply nodup_col; lra|apply NoDup_app_intro; [apply nodup_col; lra|apply nodup_row; lra|]|]|].
    + intros p H1 H2. apply in_col in H1 as (j & Hj & ->). apply in_row in H2 as (i & Hi & E).
      apply pair_eq_l in E. apply IZR_mult_inj in E; [lia|lra].
    + intros p H1 H2. apply in_col in H1 as (j & Hj & ->). unfold fz in H2; cbn in H2.
      assert (exists i, (1 <= i)%Z /\ 0 = IZR i * Bx) as (i & Hi & E).
      { apply in_app_iff in H2 as [H2|H2].
        - apply in_col in H2 as (k & Hk & E). apply pair_eq_l in E. exists (Nx1 - 1)%Z; split; [lia|exact E].
        - apply in_row in H2 as (k & Hk & E). apply pair_eq_l in E. exists k; split; [lia|exact E]. }
      rewrite (zero_grid_x Bx) in E. apply IZR_mult_inj in E; [lia|lra].
    + intros p H1 H2. apply in_row in H1 as (i & Hi & ->). unfold fz in H2; cbn in H2.
      assert (exists j, (1 <= j)%Z /\ 0 = IZR j * By) as (j & Hj & E).
      { rewrite !in_app_iff in H2. destruct H2 as [H2|[H2|H2]].
        - apply in_col in H2 as (k & Hk & E). apply pair_eq_r in E. exists k; split; [lia|exact E].
        - apply in_col in H2 as (k & Hk & E). apply pair_eq_r in E. exists k; split; [lia|exact E].
        - apply in_row in H2 as (k & Hk & E). apply pair_eq_r in E. exists (Ny - 1)%Z; split; [lia|exact E]. }
      rewrite (zero_grid_x By) in E. apply IZR_mult_inj in E; [lia|lra].
Qed.

(** ** U shape *)
Lemma U_shape_fails {F} {N : Num F} Nx Ny (Bx By : F) :
  (2 < Nx)%Z -> (1 < Ny)%Z -> U_shape Nx Ny Bx By = Err AssertionError.
Proof.
  intros Hx Hy. unfold U_shape. rewrite (proj2 (Z.ltb_lt 2 Nx)), (proj2 (Z.ltb_lt 1 Ny)) by lia. cbn [andb].
  rewrite zlen_app, !zlen_map, !zrange_zlen.
  replace (_ =? _)%Z with false; [reflexivity|]. symmetry; apply Z.eqb_neq. lia.
Qed.

Lemma U_shape_small Nx Ny (Bx By : R) :
  ~ ((2 < Nx)%Z /\ (1 < Ny)%Z) -> U_shape Nx Ny Bx By = rectangle Nx Ny Bx By.
Proof.
  intros H. unfold U_shape. replace ((2 <? Nx)%Z && (1 <? Ny)%Z) with false.
  2:{ symmetry; apply andb_false_iff. rewrite !Z.ltb_ge. lia. }
  unfold rectangle, rectangle_o. rewrite !rectangle_loop_zlen.
  destruct (_ =? _)%Z eqn:E; cbn [assert_ bind]; [|reflexivity]. rewrite rectangle_loop_zlen, E. reflexivity.
Qed.

(** ** zoned rectangle *)
Lemma zoned_rectangle_err Nx Ny (Bx By : R) Nix Niy :
  (Nx - 2 < Nix \/ Ny - 2 < Niy)%Z -> zoned_rectangle Nx Ny Bx By Nix Niy = Err ValueError.
Proof.
  intros H. unfold zoned_rectangle, raise_if.
  destruct (Z.ltb_spec (Nx - 2) Nix); cbn; auto. destruct (Z.ltb_spec (Ny - 2) Niy); cbn; auto. lia.
Qed.

Lemma zoned_rectangle_spec Nx Ny Bx By Nix Niy :
  (2 < Nx)%Z -> (2 < Ny)%Z -> (0 <= Nix <= Nx - 2)%Z -> (0 <= Niy <= Ny - 2)%Z ->
  exists f, zoned_rectangle Nx Ny Bx By Nix Niy = Ok f
    /\ zlen f = (2 * Nx + 2 * Ny - 4 + Nix * Niy)%Z
    /\ nth_error f 0 = Some (0, 0) /\ nth_error f 1 = Some (Bx, 0)
    /\ (forall p, In p f <->
          (exists i j, (0 <= i < Nx)%Z /\ (0 <= j < Ny)%Z
              /\ (i = 0 \/ i = Nx - 1 \/ j = 0 \/ j = Ny - 1)%Z /\ p = grid Bx By i j)
          \/ (exists i j, (1 <= i <= Nix)%Z /\ (1 <= j <= Niy)%Z
              /\ p = grid (IZR (Nx - 1) * Bx / IZR (Nix + 1)) (IZR (Ny - 1) * By / IZR (Niy + 1)) i j))
    /\ (0 < Bx -> 0 < By -> NoDup f /\ inside (IZR (Nx - 1) * Bx) (IZR (Ny - 1) * By) f
                            /\ forall d, 0 <= d -> d <= Bx -> d <= By -> separated d f).
Proof.
  intros HNx HNy Hx Hy. unfold zoned_rectangle.
  rewrite (proj2 (Z.ltb_ge (Nx - 2) Nix)), (proj2 (Z.ltb_ge (Ny - 2) Niy)) by lia. cbn [raise_if bind].
  destruct (open_rectangle_spec Nx Ny Bx By) as (o & Eo & Ho & Ho0 & Ho1 & Hm & Hnd); try lia.
  rewrite Eo. cbn [bind]. rewrite !zmul_R. cbn [nofZ NumR].
  rewrite !pydiv_R by (apply not_0_IZR; lia). cbn [bind].
  set (bx := _ / IZR (Nix + 1)). set (by_ := _ / IZR (Niy + 1)).
  destruct (rectangle_o_spec Nix Niy bx by_ bx by_) as (f & Ef & Hf & _ & Hfm); try lia.
  rewrite Ef; cbn [bind]. exists (o ++ f). split; [reflexivity|].
  assert (Hfm' : forall p, In p f <-> exists i j, (1 <= i <= Nix)%Z /\ (1 <= j <= Niy)%Z /\ p = grid bx by_ i j).
  { intros p. rewrite Hfm. split.
    - intros (i & j & Hi & Hj & ->). exists (i + 1)%Z, (j + 1)%Z. split; [lia|]. split; [lia|]. unfold grid.
      rewrite !plus_IZR. f_equal; ring.
    - intros (i & j & Hi & Hj & ->). exists (i - 1)%Z, (j - 1)%Z. split; [lia|]. split; [lia|]. unfold grid.
      rewrite !minus_IZR. f_equal; ring. }
  split; [rewrite zlen_app; lia|]. split; [destruct o; [discriminate|exact Ho0]|].
  split; [destruct o as [|? [|? ?]]; try discriminate; exact Ho1|]. split.
  { intros p. rewrite in_app_iff, Hm, Hfm'. reflexivity. }
  intros HBx HBy. specialize (Hnd HBx HBy).
  assert (Hix : 0 < IZR (Nix + 1)) by (apply IZR_lt; lia).
  assert (Hiy : 0 < IZR (Niy + 1)) by (apply IZR_lt; lia).
  assert (Hbx : Bx <= bx).
  { unfold bx. apply Rmult_le_reg_r with (IZR (Nix + 1)); auto. unfold Rdiv.
    rewrite Rmult_assoc, Rinv_l, Rmult_1_r by lra. rewrite Rmult_comm. apply Rmult_le_compat_r; [lra|]. apply IZR_le; lia. }
  assert (Hby : By <= by_).
  { unfold by_. apply Rmult_le_reg_r with (IZR (Niy + 1)); auto. unfold Rdiv.
    rewrite Rmult_assoc, Rinv_l, Rmult_1_r by lra. rewrite Rmult_comm. apply Rmult_le_compat_r; [lra|]. apply IZR_le; lia. }
  assert (Lx : IZR (Nix + 1) * bx = IZR (Nx - 1) * Bx) by (unfold bx; field; lra).
  assert (Ly : IZR (Niy + 1) * by_ = IZR (Ny - 1) * By) by (unfold by_; field; lra).
  clearbody bx by_.
  (* interior points are strictly inside by at least one spacing *)
  assert (Hin : forall p, In p f -> bx <= fst p <= IZR (Nx - 1) * Bx - bx /\ by_ <= snd p <= IZR (Ny - 1) * By - by_).
  { intros p Hp. apply Hfm' in Hp as (i & j & Hi & Hj & ->). unfold grid; cbn [fst snd]. rewrite <- Lx, <- Ly.
    assert (1 <= IZR i) by (apply IZR_le; lia). assert (1 <= IZR j) by (apply IZR_le; lia).
    assert (IZR i + 1 <= IZR (Nix + 1)) by (rewrite <- plus_IZR; apply IZR_le; lia).
    assert (IZR j + 1 <= IZR (Niy + 1)) by (rewrite <- plus_IZR; apply IZR_le; lia).
    split; split; nra. }
  assert (Hfar : forall p q d, 0 <= d -> d <= Bx -> d <= By -> In p o -> In q f ->
            d <= sqrt ((fst p - fst q) ^ 2 + (snd p - snd q) ^ 2)).
  { intros p q d Hd Hdx Hdy Hp Hq. apply Hin in Hq as [Hq1 Hq2]. apply Hm in Hp as (i & j & Hi & Hj & Hc & ->).
    apply sqrt_ge; auto. unfold grid; cbn [fst snd].
    assert (0 <= (IZR i * Bx - fst q) ^ 2) by apply pow2_ge_0.
    assert (0 <= (IZR j * By - snd q) ^ 2) by apply pow2_ge_0.
    destruct Hc as [->|[->|[->| ->]]]; cbn in *; nra. }
  assert (HndF : NoDup (o ++ f)).
  { apply NoDup_app_intro; auto.
    - eapply rectangle_o_nodup; [..|exact Ef]; lra.
    - intros p Hp Hq. specialize (Hfar p p (Rmin Bx By)).
      assert (0 < Rmin Bx By) by (apply Rmin_glb_lt; auto).
      specialize (Hfar ltac:(lra) (Rmin_l _ _) (Rmin_r _ _) Hp Hq).
      replace ((fst p - fst p) ^ 2 + (snd p - snd p) ^ 2) with 0 in Hfar by ring. rewrite sqrt_0 in Hfar. lra. }
  split; [exact HndF|]. split.
  - intros p Hp. apply in_app_iff in Hp as [Hp|Hp].
    + apply Hm in Hp as (i & j & Hi & Hj & _ & ->). unfold grid; cbn [fst snd].
      split; (split; [apply IZR_pos_mult; [lia|lra]|apply IZR_mult_le; [lra|lia]]).
    + apply Hin in Hp. lra.
  - intros d Hd Hdx Hdy. apply (separated_of_distinct d _ (fun p => In p (o ++ f))); auto.
    intros p q Hp Hq Hne. rewrite in_app_iff in Hp, Hq. destruct Hp as [Hp|Hp], Hq as [Hq|Hq].
    + apply Hm in Hp as (i & j & _ & _ & _ & ->). apply Hm in Hq as (i' & j' & _ & _ & _ & ->). now apply grid_far.
    + now apply Hfar.
    + replace ((fst p - fst q) ^ 2) with ((fst q - fst p) ^ 2) by ring.
      replace ((snd p - snd q) ^ 2) with ((snd q - snd p) ^ 2) by ring. now apply Hfar.
    + apply Hfm' in Hp as (i & j & _ & _ & ->). apply Hfm' in Hq as (i' & j' & _ & _ & ->). apply grid_far; auto; lra.
Qed.

Lemma zoned_rectangle_outcome Nx Ny (Bx By : R) Nix Niy e :
  (2 < Nx)%Z -> (2 < Ny)%Z -> (0 <= Nix)%Z -> (0 <= Niy)%Z ->
  (zoned_rectangle Nx Ny Bx By Nix Niy = Err e <-> e = ValueError /\ (Nx - 2 < Nix \/ Ny - 2 < Niy)%Z).
Proof.
  intros Hx Hy Hix Hiy. split.
  - intros H. assert (Hd : (Nx - 2 < Nix \/ Ny - 2 < Niy)%Z \/ (Nix <= Nx - 2 /\ Niy <= Ny - 2)%Z) by lia.
    destruct Hd as [Hd|[H1 H2]]; [rewrite zoned_rectangle_err in H by auto; injection H as <-; auto|].
    destruct (zoned_rectangle_spec Nx Ny Bx By Nix Niy) as (f & E & _); auto; congruence.
  - intros (-> & H). now apply zoned_rectangle_err.
Qed.
