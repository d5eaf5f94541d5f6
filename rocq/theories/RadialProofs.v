(** Lemmas about the short-time-step model *)
From Coq Require Import ZArith List Reals Lia Lra.
From Verif Require Import Base Radial RadialSpec.
Import ListNotations.
Open Scope R_scope.

(** ** Elimination solves dominant systems *)
Fixpoint thomas_from (d0 b0 : R) (dl d du b : list R) : list R :=
  match d with
  | [] => [b0 / d0]
  | d1 :: r =>
      let xs := thomas_from (d1 - hd 0 dl / d0 * hd 0 du) (hd 0 b - hd 0 dl / d0 * b0) (tl dl) r (tl du) (tl b) in
      (b0 - hd 0 du * hd 0 xs) / d0 :: xs
  end.
Definition thomas (dl d du b : list R) : list R :=
  match d with [] => [] | d0 :: r => thomas_from d0 (hd 0 b) dl r du (tl b) end.

Lemma at_tl l i : at_ (tl l) i = at_ l (S i).
Proof. destruct l; [now destruct i|reflexivity]. Qed.
Lemma hd_at l : hd 0 l = at_ l 0.
Proof. now destruct l. Qed.

Lemma thomas_from_ok d : forall d0 b0 dl du b,
  match d with [] => 0 | _ => Rabs (at_ du 0) end < Rabs d0 ->
  (forall i, (i < length d)%nat -> Rabs (at_ dl i) + (if Nat.eqb (S i) (length d) then 0 else Rabs (at_ du (S i))) < Rabs (at_ d i)) ->
  solves dl (d0 :: d) du (b0 :: b) (thomas_from d0 b0 dl d du b).
Proof.
  induction d as [|d1 r IH]; intros d0 b0 dl du b H0 Hd.
  - split; [reflexivity|]. intros i Hi. cbn in Hi. assert (i = 0)%nat as -> by lia. cbn.
    assert (d0 <> 0) by (intros ->; rewrite Rabs_R0 in H0; lra). field. assumption.
  - assert (N0 : d0 <> 0) by (intros ->; rewrite Rabs_R0 in H0; pose proof (Rabs_pos (at_ du 0)); lra).
    set (m := hd 0 dl / d0).
    destruct (IH (d1 - m * hd 0 du) (hd 0 b - m * b0) (tl dl) (tl du) (tl b)) as (IL & IR).
    { specialize (Hd 0%nat ltac:(cbn; lia)). cbn [at_ nth length] in Hd.
      assert (A : Rabs (m * hd 0 du) <= Rabs (at_ dl 0)).
      { rewrite Rabs_mult. unfold m, Rdiv. rewrite Rabs_mult, Rabs_inv. rewrite !hd_at.
        assert (P0 : 0 < Rabs d0) by now apply Rabs_pos_lt.
        replace (Rabs (at_ dl 0) * / Rabs d0 * Rabs (at_ du 0)) with (Rabs (at_ dl 0) * (Rabs (at_ du 0) / Rabs d0)) by (field; lra).
        rewrite <- (Rmult_1_r (Rabs (at_ dl 0))) at 2. apply Rmult_le_compat_l; [apply Rabs_pos|].
        apply Rmult_le_reg_r with (Rabs d0); [assumption|]. unfold Rdiv. rewrite Rmult_assoc, Rinv_l by lra. lra. }
      pose proof (Rabs_triang_inv d1 (m * hd 0 du)) as TI. fold (at_ dl 0) in Hd.
      destruct r as [|d2 r]; cbn [length Nat.eqb] in Hd.
      - lra.
      - rewrite at_tl. fold (at_ du 1) in Hd. lra. }
    { intros i Hi. rewrite !at_tl. specialize (Hd (S i) ltac:(cbn; lia)). exact Hd. }
    set (xs := thomas_from (d1 - m * hd 0 du) (hd 0 b - m * b0) (tl dl) r (tl du) (tl b)) in *.
    change (thomas_from d0 b0 dl (d1 :: r) du b) with ((b0 - hd 0 du * hd 0 xs) / d0 :: xs).
    split; [cbn [length]; cbn [length] in IL; congruence|]. intros i Hi. destruct i as [|[|i]].
    + cbn [length Nat.eqb]. change (at_ (d0 :: d1 :: r) 0) with d0. change (at_ (b0 :: b) 0) with b0.
      change (at_ ((b0 - hd 0 du * hd 0 xs) / d0 :: xs) 0) with ((b0 - hd 0 du * hd 0 xs) / d0).
      change (at_ ((b0 - hd 0 du * hd 0 xs) / d0 :: xs) 1) with (at_ xs 0). rewrite !hd_at. field. assumption.
    + specialize (IR 0%nat ltac:(cbn; lia)). cbn [length] in IR |- *. 
      change (at_ (d0 :: d1 :: r) 1) with d1. change (at_ (b0 :: b) 1) with (at_ b 0).
      change (at_ ((d1 - m * hd 0 du) :: r) 0) with (d1 - m * hd 0 du) in IR.
      change (at_ (hd 0 b - m * b0 :: tl b) 0) with (hd 0 b - m * b0) in IR.
      change (at_ ((b0 - hd 0 du * hd 0 xs) / d0 :: xs) 0) with ((b0 - hd 0 du * hd 0 xs) / d0).
      change (at_ ((b0 - hd 0 du * hd 0 xs) / d0 :: xs) 1) with (at_ xs 0).
      change (at_ ((b0 - hd 0 du * hd 0 xs) / d0 :: xs) 2) with (at_ xs 1).
      rewrite at_tl in IR. rewrite !hd_at in *.
      change (Nat.eqb 2 (S (S (length r)))) with (Nat.eqb 1 (S (length r))).
      assert (E : at_ dl 0 * ((b0 - at_ du 0 * at_ xs 0) / d0) = m * b0 - m * at_ du 0 * at_ xs 0).
      { unfold m. rewrite hd_at. field. assumption. }
      rewrite E. lra.
    + specialize (IR (S i) ltac:(cbn in Hi |- *; lia)). cbn [length] in IR |- *.
      change (at_ (?z :: tl b) (S i)) with (at_ (tl b) i) in IR. rewrite !at_tl in IR. exact IR.
Qed.
Lemma at_hd_tl (b : list R) i : at_ (hd 0 b :: tl b) i = at_ b i.
Proof. destruct b; [destruct i as [|[|i]]; reflexivity|reflexivity]. Qed.
Lemma thomas_good : good_solver thomas.
Proof.
  intros dl d du b Hd Hl. destruct d as [|d0 r]; [cbn in Hl; lia|]. unfold thomas.
  destruct (thomas_from_ok r d0 (hd 0 b) dl du (tl b)) as (L & E).
  - specialize (Hd 0%nat ltac:(cbn; lia)). cbn [length] in Hd. change (at_ (d0 :: r) 0) with d0 in Hd. destruct r; cbn [length Nat.eqb] in Hd; lra.
  - intros i Hi. specialize (Hd (S i) ltac:(cbn; lia)). exact Hd.
  - split; [exact L|]. intros i Hi. specialize (E i Hi). now rewrite at_hd_tl in E.
Qed.

(** ** The assembled system is the heat balance *)
Lemma inner_length cells : length (inner_cells cells) = (length cells - 2)%nat.
Proof.
  induction cells as [|a [|b [|c r]] IH]; try reflexivity.
  change (inner_cells (a :: b :: c :: r)) with ((a, b, c) :: inner_cells (b :: c :: r)). cbn [length]. rewrite IH. cbn. lia.
Qed.
Lemma inner_nth cells : forall i x, (S (S i) < length cells)%nat ->
  nth i (inner_cells cells) x = (cell_at cells i, cell_at cells (S i), cell_at cells (S (S i))).
Proof.
  induction cells as [|a [|b [|c r]] IH]; intros i x Hi; cbn in Hi; try lia.
  change (inner_cells (a :: b :: c :: r)) with ((a, b, c) :: inner_cells (b :: c :: r)).
  destruct i as [|i]; [reflexivity|]. cbn [nth]. rewrite IH by (cbn; lia). reflexivity.
Qed.
Lemma at_app_l l m i : (i < length l)%nat -> at_ (l ++ m) i = at_ l i.
Proof. intro. unfold at_. now apply app_nth1. Qed.
Lemma at_app_r l m i : (length l <= i)%nat -> at_ (l ++ m) i = at_ m (i - length l).
Proof. intro. unfold at_. now apply app_nth2. Qed.
Lemma at_map_inner (f : cell * cell * cell -> R) cells i : (S (S i) < length cells)%nat ->
  at_ (map f (inner_cells cells)) i = f (cell_at cells i, cell_at cells (S i), cell_at cells (S (S i))).
Proof.
  intro Hi. unfold at_. rewrite nth_indep with (d' := f (no_cell, no_cell, no_cell)) by (rewrite map_length, inner_length; lia).
  now rewrite map_nth, inner_nth.
Qed.
Lemma diagonal_length dt cells : (2 <= length cells)%nat -> length (diagonal dt cells) = length cells.
Proof.
  intro H2. unfold diagonal. destruct cells as [|a [|b r]]; cbn [length] in H2; try lia.
  cbn [length]. rewrite app_length, map_length, inner_length. cbn [length]. lia.
Qed.
Lemma diagonal_eq dt cells : (2 <= length cells)%nat -> diagonal dt cells =
  (- east (cell_at cells 0) (cell_at cells 1) / stored dt (cell_at cells 0) - 1)
  :: map (fun x => match x with (w, c, e) => west w c / stored dt c - east c e / stored dt c - 1 end) (inner_cells cells) ++ [1].
Proof. intro H2. destruct cells as [|a [|b r]]; cbn [length] in H2; try lia. reflexivity. Qed.
Lemma upper_eq dt cells : (2 <= length cells)%nat -> upper dt cells =
  east (cell_at cells 0) (cell_at cells 1) / stored dt (cell_at cells 0)
  :: map (fun x => match x with (w, c, e) => east c e / stored dt c end) (inner_cells cells).
Proof. intro H2. destruct cells as [|a [|b r]]; cbn [length] in H2; try lia. reflexivity. Qed.
Section System.
Variables (dt : R) (cells : list cell).
Hypothesis Hn : (2 <= length cells)%nat.
Let n := length cells.
Let C i := stored dt (cell_at cells i).
Let G i := east (cell_at cells i) (cell_at cells (S i)).
Lemma west_east a b : west a b = - east a b.
Proof. unfold west, east, Rdiv. ring. Qed.
Lemma lower_at i : (S (S i) < n)%nat -> at_ (lower dt cells) i = G i / C (S i).
Proof.
  intro Hi. unfold lower. rewrite at_app_l by (rewrite map_length, inner_length; unfold n in Hi; lia).
  rewrite at_map_inner by exact Hi. rewrite west_east. unfold G, C, Rdiv. ring.
Qed.
Lemma lower_last : at_ (lower dt cells) (n - 2) = 0.
Proof.
  unfold lower. rewrite at_app_r by (rewrite map_length, inner_length; lia). rewrite map_length, inner_length.
  replace (n - 2 - (length cells - 2))%nat with 0%nat by (unfold n; lia). reflexivity.
Qed.
Lemma diag_first : at_ (diagonal dt cells) 0 = - (G 0 / C 0) - 1.
Proof. rewrite diagonal_eq by exact Hn. change (at_ (?x :: ?l) 0) with x. unfold G, C, Rdiv. ring. Qed.
Lemma diag_at i : (S (S i) < n)%nat -> at_ (diagonal dt cells) (S i) = - (G i / C (S i)) - G (S i) / C (S i) - 1.
Proof.
  intro Hi. rewrite diagonal_eq by exact Hn. change (at_ (?x :: ?l) (S i)) with (at_ l i).
  rewrite at_app_l by (rewrite map_length, inner_length; unfold n in Hi; lia). rewrite at_map_inner by exact Hi.
  rewrite west_east. unfold G, C, Rdiv. ring.
Qed.
Lemma diag_last : at_ (diagonal dt cells) (n - 1) = 1.
Proof.
  rewrite diagonal_eq by exact Hn. replace (n - 1)%nat with (S (n - 2)) by (unfold n; lia).
  change (at_ (?x :: ?l) (S (n - 2))) with (at_ l (n - 2)).
  rewrite at_app_r by (rewrite map_length, inner_length; unfold n; lia). rewrite map_length, inner_length.
  replace (n - 2 - (length cells - 2))%nat with 0%nat by (unfold n; lia). reflexivity.
Qed.
Lemma upper_at i : (S i < n)%nat -> at_ (upper dt cells) i = G i / C i.
Proof.
  intro Hi. rewrite upper_eq by exact Hn. destruct i as [|i]; [reflexivity|].
  change (at_ (?x :: ?l) (S i)) with (at_ l i). now rewrite at_map_inner by exact Hi.
Qed.
End System.
Lemma negate_at l : forall i, (i < length l)%nat -> at_ (negate_but_last l) i = if Nat.eqb (S i) (length l) then at_ l i else - at_ l i.
Proof.
  induction l as [|a [|b r] IH]; intros i Hi; [cbn in Hi; lia| |].
  - cbn in Hi. assert (i = 0)%nat as -> by lia. reflexivity.
  - change (negate_but_last (a :: b :: r)) with (- a :: negate_but_last (b :: r)). destruct i as [|i]; [reflexivity|].
    change (at_ (- a :: negate_but_last (b :: r)) (S i)) with (at_ (negate_but_last (b :: r)) i). rewrite IH by (cbn in *; lia). reflexivity.
Qed.
Lemma right_at q dt cells T i : length T = length cells -> (2 <= length cells)%nat -> (i < length cells)%nat ->
  at_ (right_side q dt cells T) i =
  match i with O => - at_ T 0 - q / stored dt (cell_at cells 0) | S _ => if Nat.eqb (S i) (length cells) then at_ T i else - at_ T i end.
Proof.
  intros L Hn Hi. unfold right_side. destruct cells as [|c0 r]; [cbn in Hi; lia|]. destruct T as [|T0 rT]; [discriminate|].
  cbn [length] in *. injection L as L. destruct i as [|i]; [reflexivity|].
  change (at_ (?x :: ?l) (S i)) with (at_ l i). rewrite negate_at by lia. rewrite L. reflexivity.
Qed.
Lemma right_length q dt cells T : length T = length cells -> length (right_side q dt cells T) = length cells.
Proof.
  intro L. unfold right_side. destruct cells as [|c0 r], T as [|T0 rT]; try reflexivity; try discriminate. cbn [length] in *. injection L as <-.
  f_equal. clear. induction rT as [|a [|b r] IH]; try reflexivity.
  change (negate_but_last (a :: b :: r)) with (- a :: negate_but_last (b :: r)). cbn [length] in *. now rewrite IH.
Qed.
Lemma east_conductance a b : east a b = conductance a b.
Proof. unfold east, conductance, f1, f2, wall_resistance, Rdiv. apply Rmult_1_l. Qed.

Lemma stored_pos dt cells i : 0 < dt -> physical cells -> (S i < length cells)%nat ->
  0 < stored dt (cell_at cells i) /\ 0 < east (cell_at cells i) (cell_at cells (S i)) /\ stored dt (cell_at cells i) = heat_capacity (cell_at cells i) / dt.
Proof.
  intros Hdt Hp Hi. destruct (Hp i Hi) as (P1 & P2). rewrite east_conductance.
  assert (E : stored dt (cell_at cells i) = heat_capacity (cell_at cells i) / dt) by reflexivity.
  rewrite E. split; [now apply Rdiv_lt_0_compat|]. split; [assumption|reflexivity].
Qed.

Lemma system_dominant dt cells : (2 <= length cells)%nat -> 0 < dt -> physical cells ->
  dominant (lower dt cells) (diagonal dt cells) (upper dt cells).
Proof.
  intros Hn Hdt Hp i Hi. rewrite diagonal_length in * by assumption.
  destruct (Nat.eqb_spec (S i) (length cells)) as [E|E].
  - destruct i as [|j]; [lia|]. replace j with (length cells - 2)%nat at 1 by lia. rewrite lower_last by assumption.
    replace (S j) with (length cells - 1)%nat by lia. rewrite diag_last by assumption. rewrite Rabs_R0, Rabs_R1. lra.
  - assert (Hi' : (S i < length cells)%nat) by lia. rewrite upper_at by assumption.
    destruct (stored_pos dt cells i Hdt Hp Hi') as (PC & PG & _).
    set (Gi := east (cell_at cells i) (cell_at cells (S i))) in *. set (Ci := stored dt (cell_at cells i)) in *.
    assert (PR : 0 < Gi / Ci) by now apply Rdiv_lt_0_compat.
    rewrite (Rabs_pos_eq (Gi / Ci)) by lra.
    destruct i as [|j].
    + rewrite diag_first by assumption. fold Gi Ci. rewrite Rabs_left by lra. lra.
    + rewrite lower_at, diag_at by assumption. fold Gi Ci.
      destruct (stored_pos dt cells j Hdt Hp ltac:(lia)) as (_ & PG' & _). set (Gj := east (cell_at cells j) (cell_at cells (S j))) in *.
      assert (PR' : 0 < Gj / Ci) by now apply Rdiv_lt_0_compat.
      rewrite Rabs_pos_eq by lra. rewrite Rabs_left by lra. lra.
Qed.

Lemma solves_balance q dt cells T x : (2 <= length cells)%nat -> length T = length cells -> 0 < dt -> physical cells ->
  solves (lower dt cells) (diagonal dt cells) (upper dt cells) (right_side q dt cells T) x <-> balance q dt cells T x.
Proof.
  intros Hn HT Hdt Hp. unfold solves, balance. rewrite diagonal_length by assumption.
  assert (Row : forall i, (S i < length cells)%nat ->
    ((match i with O => 0 | S j => at_ (lower dt cells) j * at_ x j end + at_ (diagonal dt cells) i * at_ x i +
      (if Nat.eqb (S i) (length cells) then 0 else at_ (upper dt cells) i * at_ x (S i)) = at_ (right_side q dt cells T) i) <->
     heat_capacity (cell_at cells i) * (at_ x i - at_ T i) =
       dt * (match i with O => q | S j => flow cells x j end - flow cells x i))).
  { intros i Hi. destruct (Nat.eqb_spec (S i) (length cells)) as [E|E]; [lia|]. 
    rewrite upper_at by assumption. rewrite right_at by (assumption || lia).
    destruct (stored_pos dt cells i Hdt Hp Hi) as (PC & PG & EC). unfold flow. rewrite <- east_conductance.
    set (Gi := east (cell_at cells i) (cell_at cells (S i))) in *. 
    assert (Eh : heat_capacity (cell_at cells i) = dt * stored dt (cell_at cells i)) by (rewrite EC; field; lra). rewrite Eh.
    destruct i as [|j].
    - rewrite diag_first by assumption. fold Gi. set (Ci := stored dt (cell_at cells 0)) in *. split; intro F.
      + apply (f_equal (fun z => dt * Ci * z)) in F.
        replace (dt * Ci * (0 + (- (Gi / Ci) - 1) * at_ x 0 + Gi / Ci * at_ x 1)) with (dt * (- Gi * at_ x 0 - Ci * at_ x 0 + Gi * at_ x 1)) in F by (field; lra).
        replace (dt * Ci * (- at_ T 0 - q / Ci)) with (dt * (- Ci * at_ T 0 - q)) in F by (field; lra). lra.
      + apply Rmult_eq_reg_l with (dt * Ci); [|nra].
        replace (dt * Ci * (0 + (- (Gi / Ci) - 1) * at_ x 0 + Gi / Ci * at_ x 1)) with (dt * (- Gi * at_ x 0 - Ci * at_ x 0 + Gi * at_ x 1)) by (field; lra).
        replace (dt * Ci * (- at_ T 0 - q / Ci)) with (dt * (- Ci * at_ T 0 - q)) by (field; lra). lra.
    - rewrite lower_at, diag_at by assumption. fold Gi. unfold flow. rewrite <- east_conductance.
      set (Gj := east (cell_at cells j) (cell_at cells (S j))) in *. set (Ci := stored dt (cell_at cells (S j))) in *.
      destruct (Nat.eqb_spec (S (S j)) (length cells)) as [|_]; [lia|].
      assert (El : dt * Ci * (Gj / Ci * at_ x j + (- (Gj / Ci) - Gi / Ci - 1) * at_ x (S j) + Gi / Ci * at_ x (S (S j))) =
        dt * (Gj * at_ x j - Gj * at_ x (S j) - Gi * at_ x (S j) - Ci * at_ x (S j) + Gi * at_ x (S (S j)))) by (field; lra).
      split; intro F.
      + apply (f_equal (fun z => dt * Ci * z)) in F. rewrite El in F. lra.
      + apply Rmult_eq_reg_l with (dt * Ci); [|nra]. rewrite El. lra. }
  assert (Last : (match (length cells - 1)%nat with O => 0 | S j => at_ (lower dt cells) j * at_ x j end + at_ (diagonal dt cells) (length cells - 1) * at_ x (length cells - 1) +
      (if Nat.eqb (S (length cells - 1)) (length cells) then 0 else at_ (upper dt cells) (length cells - 1) * at_ x (S (length cells - 1))) = at_ (right_side q dt cells T) (length cells - 1)) <->
      at_ x (length cells - 1) = at_ T (length cells - 1)).
  { rewrite diag_last by assumption. rewrite right_at by (assumption || lia).
    replace (length cells - 1)%nat with (S (length cells - 2)) by lia. rewrite lower_last by assumption.
    destruct (Nat.eqb_spec (S (S (length cells - 2))) (length cells)) as [_|]; [|lia]. lra. }
  split.
  - intros (L & E). split; [assumption|]. split; [intros i Hi; apply Row; [assumption|apply E; lia]|apply Last, E; lia].
  - intros (L & E & EL). split; [assumption|]. intros i Hi. destruct (Nat.eq_dec (S i) (length cells)) as [e|ne].
    + replace i with (length cells - 1)%nat by lia. now apply Last.
    + apply Row; [lia|]. apply E. lia.
Qed.

Lemma step_balance solver q dt cells T : good_solver solver -> (2 <= length cells)%nat -> length T = length cells -> 0 < dt -> physical cells ->
  balance q dt cells T (step solver q dt cells T).
Proof.
  intros Hs Hn HT Hdt Hp. apply solves_balance; [assumption..|]. apply Hs.
  - now apply system_dominant.
  - rewrite diagonal_length by assumption. lia.
Qed.

(** ** Comparison *)
Lemma minimum_index (f : nat -> R) n : (0 < n)%nat -> exists m, (m < n)%nat /\ forall j, (j < n)%nat -> f m <= f j.
Proof.
  intro Hn. induction n as [|[|n] IH]; [lia| |].
  - exists 0%nat. split; [lia|]. intros j Hj. assert (j = 0)%nat as -> by lia. lra.
  - destruct IH as (m & Hm & Hf); [lia|]. destruct (Rle_dec (f m) (f (S n))) as [l|l].
    + exists m. split; [lia|]. intros j Hj. destruct (Nat.eq_dec j (S n)) as [->|]; [assumption|apply Hf; lia].
    + exists (S n). split; [lia|]. intros j Hj. destruct (Nat.eq_dec j (S n)) as [->|]; [lra|]. specialize (Hf j ltac:(lia)). lra.
Qed.
Lemma balance_compare dt cells q T X q' T' X' : 0 < dt -> physical cells -> (2 <= length cells)%nat ->
  balance q dt cells T X -> balance q' dt cells T' X' -> q <= q' ->
  (forall i, (i < length cells)%nat -> at_ T i <= at_ T' i) -> forall i, (i < length cells)%nat -> at_ X i <= at_ X' i.
Proof.
  intros Hdt Hp Hn (_ & B & BL) (_ & B' & BL') Hq HT.
  destruct (minimum_index (fun i => at_ X' i - at_ X i) (length cells) ltac:(lia)) as (m & Hm & Hmin).
  assert (Main : 0 <= at_ X' m - at_ X m).
  { destruct (Nat.eq_dec (S m) (length cells)) as [e|ne].
    - replace m with (length cells - 1)%nat by lia. rewrite BL, BL'. specialize (HT (length cells - 1)%nat ltac:(lia)). lra.
    - assert (Hm' : (S m < length cells)%nat) by lia. specialize (B m Hm'). specialize (B' m Hm').
      destruct (Hp m Hm') as (PC & PG). pose proof (HT m Hm) as HTm. pose proof (Hmin (S m) Hm') as Hs.
      unfold flow at 2 in B. unfold flow at 2 in B'. 
      set (K := heat_capacity (cell_at cells m)) in *. set (Gm := conductance (cell_at cells m) (cell_at cells (S m))) in *.
      assert (In : match m with O => q | S j => flow cells X j end <= match m with O => q' | S j => flow cells X' j end).
      { destruct m as [|j]; [assumption|]. unfold flow. destruct (Hp j ltac:(lia)) as (_ & PGj).
        specialize (Hmin j ltac:(lia)). apply Rmult_le_compat_l; lra. }
      set (a := match m with O => q | S j => flow cells X j end) in *. set (a' := match m with O => q' | S j => flow cells X' j end) in *.
      assert (Out : Gm * (at_ X' m - at_ X' (S m)) <= Gm * (at_ X m - at_ X (S m))) by (apply Rmult_le_compat_l; lra).
      assert (F : dt * (a - Gm * (at_ X m - at_ X (S m))) <= dt * (a' - Gm * (at_ X' m - at_ X' (S m)))) by (apply Rmult_le_compat_l; lra).
      assert (F2 : K * (at_ T' m - at_ T m) <= K * (at_ X' m - at_ X m)) by lra.
      assert (0 <= K * (at_ T' m - at_ T m)) by (apply Rmult_le_pos; lra).
      apply Rnot_lt_le. intro N. assert (K * (at_ X' m - at_ X m) < 0) by (rewrite <- (Rmult_0_r K); apply Rmult_lt_compat_l; lra). lra. }
  intros i Hi. specialize (Hmin i Hi). lra.
Qed.
Lemma list_ext (x y : list R) : length x = length y -> (forall i, (i < length x)%nat -> at_ x i = at_ y i) -> x = y.
Proof. intros L E. apply (nth_ext x y 0 0 L). exact E. Qed.
Lemma balance_unique dt cells q T X Y : 0 < dt -> physical cells -> (2 <= length cells)%nat ->
  balance q dt cells T X -> balance q dt cells T Y -> X = Y.
Proof.
  intros Hdt Hp Hn BX BY. pose proof (proj1 BX) as LX. pose proof (proj1 BY) as LY. apply list_ext; [congruence|]. intros i Hi. rewrite LX in Hi.
  apply Rle_antisym.
  - apply (balance_compare dt cells q T X q T Y Hdt Hp Hn BX BY); [lra|intros; lra|assumption].
  - apply (balance_compare dt cells q T Y q T X Hdt Hp Hn BY BX); [lra|intros; lra|assumption].
Qed.

(** ** Sums *)
Lemma sum_to_ext n f g : (forall i, (i < n)%nat -> f i = g i) -> sum_to n f = sum_to n g.
Proof. intro E. induction n as [|n IH]; [reflexivity|]. cbn. rewrite IH by (intros; apply E; lia). now rewrite E by lia. Qed.
Lemma sum_to_scal n a f : sum_to n (fun i => a * f i) = a * sum_to n f.
Proof. induction n as [|n IH]; cbn; [ring|]. rewrite IH. ring. Qed.
Lemma balance_total q dt cells T X : (2 <= length cells)%nat -> balance q dt cells T X ->
  sum_to (length cells - 1) (fun i => heat_capacity (cell_at cells i) * (at_ X i - at_ T i)) = dt * (q - flow cells X (length cells - 2)).
Proof.
  intros Hn (_ & B & _).
  assert (Gen : forall k, (S k < length cells)%nat ->
    sum_to (S k) (fun i => heat_capacity (cell_at cells i) * (at_ X i - at_ T i)) = dt * (q - flow cells X k)).
  { induction k as [|k IH]; intro Hk.
    - cbn [sum_to]. rewrite B by assumption. ring.
    - change (sum_to (S (S k)) ?f) with (sum_to (S k) f + f (S k)). rewrite IH by lia. rewrite B by assumption. ring. }
  replace (length cells - 1)%nat with (S (length cells - 2)) by lia. apply Gen. lia.
Qed.
