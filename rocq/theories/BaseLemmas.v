(** Lemmas about the Python runtime model and the real-number instance *)
From Coq Require Import ZArith List Bool Reals Lra Lia Sorted Permutation.
From Verif Require Import Base Num.
Import ListNotations.
Open Scope Z_scope.

(** ** res *)
Lemma bind_ok {A B} (m : res A) (k : A -> res B) b :
  bind m k = Ok b <-> exists a, m = Ok a /\ k a = Ok b.
Proof. destruct m; cbn; split; intros H; [eauto|destruct H as (x & [= ->] & H); auto|discriminate|].
  destruct H as (x & H & _); discriminate. Qed.

Lemma bind_err {A B} (m : res A) (k : A -> res B) e :
  bind m k = Err e <-> m = Err e \/ exists a, m = Ok a /\ k a = Err e.
Proof. destruct m; cbn; split; intros H; [right; eauto| |left; congruence|].
  - destruct H as [|(x & [= ->] & H)]; [discriminate|auto].
  - destruct H as [[= ->]|(x & H & _)]; [reflexivity|discriminate]. Qed.

Ltac inv_ok H :=
  let a := fresh "v" in let E := fresh "E" in
  apply bind_ok in H; destruct H as (a & E & H).

Lemma assert_ok b u : assert_ b = Ok u <-> b = true.
Proof. destruct u, b; cbn; split; congruence. Qed.
Lemma raise_if_ok b e u : raise_if b e = Ok u <-> b = false.
Proof. destruct u, b; cbn; split; congruence. Qed.

(** ** zseq / zrange *)
Lemma zseq_length a n : length (zseq a n) = n.
Proof. revert a; induction n; cbn; auto. Qed.

Lemma zrange_length a b : length (zrange a b) = Z.to_nat (b - a).
Proof. apply zseq_length. Qed.

Lemma zrange_zlen a b : zlen (zrange a b) = Z.max 0 (b - a).
Proof. unfold zlen; rewrite zrange_length; lia. Qed.

Lemma in_zseq a n x : In x (zseq a n) <-> a <= x < a + Z.of_nat n.
Proof. revert a; induction n; intros a; cbn -[Z.of_nat]; [lia|]. rewrite IHn; lia. Qed.

Lemma in_zrange a b x : In x (zrange a b) <-> a <= x < b.
Proof. unfold zrange; rewrite in_zseq; lia. Qed.

Lemma nth_error_zseq a n k : nth_error (zseq a n) k = if (k <? n)%nat then Some (a + Z.of_nat k) else None.
Proof.
  revert a k; induction n; intros a [|k]; cbn [nth_error zseq]; auto.
  - change (0 <? S n)%nat with true. cbn iota. f_equal; lia.
  - rewrite IHn. change (S k <? S n)%nat with (k <? n)%nat. destruct (k <? n)%nat; auto. f_equal; lia.
Qed.

Lemma NoDup_zseq a n : NoDup (zseq a n).
Proof. revert a; induction n; intros a; cbn; constructor; auto. rewrite in_zseq; lia. Qed.
Lemma NoDup_zrange a b : NoDup (zrange a b).
Proof. apply NoDup_zseq. Qed.

Lemma zrange_nil a b : b <= a -> zrange a b = [].
Proof. intros; unfold zrange. replace (Z.to_nat (b - a)) with O by lia. reflexivity. Qed.

Lemma zrange_cons a b : a < b -> zrange a b = a :: zrange (a + 1) b.
Proof. intros; unfold zrange. replace (Z.to_nat (b - a)) with (S (Z.to_nat (b - (a + 1)))) by lia. reflexivity. Qed.

Lemma zseq_app a n m : zseq a (n + m) = zseq a n ++ zseq (a + Z.of_nat n) m.
Proof.
  revert a; induction n; intros a; cbn [zseq plus app].
  - replace (a + Z.of_nat 0) with a by lia. reflexivity.
  - rewrite IHn. replace (a + 1 + Z.of_nat n) with (a + Z.of_nat (S n)) by lia. reflexivity.
Qed.

Lemma zrange_app a b c : a <= b <= c -> zrange a c = zrange a b ++ zrange b c.
Proof.
  intros; unfold zrange. replace (Z.to_nat (c - a)) with (Z.to_nat (b - a) + Z.to_nat (c - b))%nat by lia.
  rewrite zseq_app. replace (a + Z.of_nat (Z.to_nat (b - a))) with b by lia. reflexivity.
Qed.

Lemma zrange_snoc a b : a <= b -> zrange a (b + 1) = zrange a b ++ [b].
Proof. intros. rewrite (zrange_app a b (b + 1)) by lia. f_equal. rewrite zrange_cons, zrange_nil; auto; lia. Qed.

(** ** zlen *)
Lemma zlen_nonneg {A} (l : list A) : 0 <= zlen l.
Proof. unfold zlen; lia. Qed.
Lemma zlen_app {A} (l r : list A) : zlen (l ++ r) = zlen l + zlen r.
Proof. unfold zlen; rewrite app_length; lia. Qed.
Lemma zlen_map {A B} (f : A -> B) l : zlen (map f l) = zlen l.
Proof. unfold zlen; rewrite map_length; lia. Qed.
Lemma zlen_cons {A} (a : A) l : zlen (a :: l) = zlen l + 1.
Proof. unfold zlen; cbn [length]; lia. Qed.
Lemma zlen_nil {A} : zlen (@nil A) = 0.
Proof. reflexivity. Qed.
Lemma zlen_flat_map_const {A B} (f : A -> list B) l n :
  (forall a, In a l -> zlen (f a) = n) -> zlen (flat_map f l) = n * zlen l.
Proof.
  induction l as [|a l IH]; cbn [flat_map]; intros H.
  - unfold zlen; cbn [length Z.of_nat]; lia.
  - rewrite zlen_app, zlen_cons, IH; [rewrite (H a) by (now left); lia|]. intros; apply H; now right.
Qed.

(** ** py_nth, slices *)
Lemma py_nth_ok {A} (l : list A) i : 0 <= i < zlen l -> exists a, py_nth l i = Ok a /\ nth_error l (Z.to_nat i) = Some a.
Proof.
  intros H; unfold py_nth. rewrite (proj2 (Z.ltb_ge i 0)) by lia. rewrite (proj2 (Z.ltb_ge i 0)) by lia.
  destruct (nth_error l (Z.to_nat i)) eqn:E; [eauto|].
  apply nth_error_None in E; unfold zlen in H; lia.
Qed.
Lemma py_nth_nonneg {A} (l : list A) i a : 0 <= i -> py_nth l i = Ok a <-> nth_error l (Z.to_nat i) = Some a.
Proof.
  intros H; unfold py_nth. rewrite !(proj2 (Z.ltb_ge i 0)) by lia.
  destruct nth_error; split; congruence.
Qed.
Lemma py_nth_err {A} (l : list A) i e : py_nth l i = Err e -> e = IndexError.
Proof.
  unfold py_nth. set (j := if i <? 0 then i + zlen l else i). clearbody j.
  destruct (j <? 0); [congruence|]. destruct nth_error; congruence.
Qed.
Lemma py_nth_neg {A} (l : list A) i : - zlen l <= i < 0 -> py_nth l i = py_nth l (i + zlen l).
Proof.
  intros H; unfold py_nth. rewrite (proj2 (Z.ltb_lt i 0)) by lia.
  rewrite (proj2 (Z.ltb_ge (i + zlen l) 0)) by lia. now rewrite (proj2 (Z.ltb_ge (i + zlen l) 0)) by lia.
Qed.

(** ** mapM / foldM *)
Lemma strictly_sorted_split a b l1 x l2 : zrange a b = l1 ++ x :: l2 -> forall y, In y l2 -> x < y.
Proof.
  unfold zrange. generalize (Z.to_nat (b - a)) as n. intros n. revert a l1. induction n as [|n IH]; intros a l1 E y Hy; cbn in E.
  - destruct l1; discriminate.
  - destruct l1 as [|z l1]; cbn in E; injection E as -> E; [|eapply IH; eauto].
    rewrite <- E in Hy. assert (HH : forall m c, In y (zseq c m) -> c <= y).
    { clear. induction m as [|m IH]; cbn; intros c [].  + lia. + apply IH in H. lia. }
    apply HH in Hy. lia.
Qed.
Lemma zrange_next a b l1 x y l2 : zrange a b = l1 ++ x :: y :: l2 -> y = x + 1.
Proof.
  unfold zrange. generalize (Z.to_nat (b - a)) as n. intros n. revert a l1. induction n as [|n IH]; intros a l1 E; cbn in E.
  - destruct l1; discriminate.
  - destruct l1 as [|z l1]; cbn in E; injection E as -> E; [|eapply IH; eauto].
    destruct n; [discriminate|]. cbn in E. injection E as -> _. reflexivity.
Qed.
Lemma Forall2_impl {A B} (P Q : A -> B -> Prop) l l' :
  (forall a b, P a b -> Q a b) -> Forall2 P l l' -> Forall2 Q l l'.
Proof. intros H. induction 1; constructor; auto. Qed.
Lemma mapM_ok {A B} (f : A -> res B) l bs :
  mapM f l = Ok bs <-> Forall2 (fun a b => f a = Ok b) l bs.
Proof.
  revert bs; induction l as [|a l IH]; intros bs; cbn.
  - split; intros H; [injection H as <-; constructor|inversion H; auto].
  - split; intros H.
    + inv_ok H. inv_ok H. injection H as <-. constructor; auto. now apply IH.
    + inversion H as [|? b ? bs' H1 H2]; subst. rewrite H1; cbn. apply IH in H2. now rewrite H2.
Qed.

Lemma mapM_pure {A B} (f : A -> res B) (g : A -> B) l :
  (forall a, In a l -> f a = Ok (g a)) -> mapM f l = Ok (map g l).
Proof.
  induction l as [|a l IH]; intros H; cbn; auto.
  rewrite (H a) by now left. cbn. rewrite IH by (intros; apply H; now right). reflexivity.
Qed.

Lemma foldM_app {A S} (f : S -> A -> res S) l r s :
  foldM f (l ++ r) s = let! s' := foldM f l s in foldM f r s'.
Proof. revert s; induction l; intros s; cbn; auto. destruct (f s a); cbn; auto. Qed.

(** invariant rule for a loop over range(a, b) *)
Lemma foldM_zrange {S} (f : S -> Z -> res S) (I : Z -> S -> Prop) a b s :
  a <= b -> I a s ->
  (forall i s, a <= i < b -> I i s -> exists s', f s i = Ok s' /\ I (i + 1) s') ->
  exists s', foldM f (zrange a b) s = Ok s' /\ I b s'.
Proof.
  intros Hab. remember (Z.to_nat (b - a)) as n eqn:En. revert a s Hab En.
  induction n; intros a s Hab En H0 Hs.
  - assert (a = b) as -> by lia. rewrite zrange_nil by lia. cbn. eauto.
  - rewrite zrange_cons by lia. cbn. destruct (Hs a s) as (s' & E & H'); [lia|auto|]. rewrite E; cbn.
    apply IHn; auto; try lia. intros; apply Hs; auto; lia.
Qed.

(** ** sorted lists of integers *)
Lemma StronglySorted_app {A} (R : A -> A -> Prop) l r :
  StronglySorted R l -> StronglySorted R r -> (forall x y, In x l -> In y r -> R x y) ->
  StronglySorted R (l ++ r).
Proof.
  induction 1 as [|a l Hl IH Ha]; intros Hr Hx; cbn; auto.
  constructor; auto.
  - apply IH; auto. intros; apply Hx; auto; now right.
  - rewrite Forall_app; split; auto. apply Forall_forall. intros; apply Hx; auto; now left.
Qed.

Lemma StronglySorted_app_inv {A} (R : A -> A -> Prop) l r :
  StronglySorted R (l ++ r) ->
  StronglySorted R l /\ StronglySorted R r /\ (forall x y, In x l -> In y r -> R x y).
Proof.
  induction l as [|a l IH]; cbn; intros H.
  - repeat split; auto; [constructor|]. intros x y [].
  - inversion H as [|? ? H1 H2]; subst. apply IH in H1 as (H3 & H4 & H5).
    rewrite Forall_app in H2; destruct H2 as [H2 H2']. repeat split; auto.
    + constructor; auto.
    + intros x y [->|Hx] Hy; auto. rewrite Forall_forall in H2'; auto.
Qed.

Lemma StronglySorted_map_zrange (f : Z -> Z) a b :
  (forall i j, a <= i -> i < j -> j < b -> f i < f j) -> StronglySorted Z.lt (map f (zrange a b)).
Proof.
  remember (Z.to_nat (b - a)) as n eqn:En. revert a En.
  induction n; intros a En H.
  - rewrite zrange_nil by lia. constructor.
  - rewrite zrange_cons by lia. cbn. constructor.
    + apply IHn; try lia. intros; apply H; lia.
    + apply Forall_forall. intros x Hx. apply in_map_iff in Hx as (j & <- & Hj).
      apply in_zrange in Hj. apply H; lia.
Qed.

(** ** NoDup helpers *)
Lemma NoDup_app_intro {A} (l r : list A) :
  NoDup l -> NoDup r -> (forall x, In x l -> ~ In x r) -> NoDup (l ++ r).
Proof.
  induction 1 as [|a l Ha Hl IH]; intros Hr Hx; cbn; auto.
  constructor.
  - rewrite in_app_iff; intros [H|H]; [auto|]. eapply Hx; eauto; now left.
  - apply IH; auto. intros; apply Hx; now right.
Qed.

Lemma NoDup_map_inj {A B} (f : A -> B) l :
  (forall x y, In x l -> In y l -> f x = f y -> x = y) -> NoDup l -> NoDup (map f l).
Proof.
  intros Hf H; induction H as [|a l Ha Hl IH]; cbn; constructor.
  - rewrite in_map_iff; intros (y & E & Hy). apply Ha. rewrite <- (Hf y a); auto; [now right|now left].
  - apply IH. intros; apply Hf; auto; now right.
Qed.

Lemma NoDup_flat_map {A B} (f : A -> list B) l :
  NoDup l -> (forall a, In a l -> NoDup (f a)) ->
  (forall a b x, In a l -> In b l -> In x (f a) -> In x (f b) -> a = b) ->
  NoDup (flat_map f l).
Proof.
  induction 1 as [|a l Ha Hl IH]; intros Hf Hx; cbn; [constructor|].
  apply NoDup_app_intro.
  - apply Hf; now left.
  - apply IH; intros; [apply Hf; now right|eapply Hx; eauto; now right].
  - intros x H1 H2. apply in_flat_map in H2 as (b & Hb & H2). apply Ha.
    rewrite (Hx a b x); auto; [now left|now right].
Qed.

(** position in a flat_map with constant block length *)
Lemma nth_error_flat_map_const {A B} (f : A -> list B) (l : list A) (n : nat) i j a :
  (forall a, In a l -> length (f a) = n) ->
  nth_error l i = Some a -> (j < n)%nat ->
  nth_error (flat_map f l) (i * n + j) = nth_error (f a) j.
Proof.
  revert i; induction l as [|b l IH]; intros i H Hi Hj; [destruct i; discriminate|].
  assert (Hb : length (f b) = n) by (apply H; now left).
  destruct i as [|i]; cbn in Hi.
  - injection Hi as ->. cbn. rewrite nth_error_app1 by lia. reflexivity.
  - cbn [flat_map]. rewrite nth_error_app2 by lia.
    replace (S i * n + j - length (f b))%nat with (i * n + j)%nat by lia.
    apply IH; auto. intros; apply H; now right.
Qed.

(** ** Reals: floor, ceil and the instance's comparisons *)
Open Scope R_scope.
Lemma Rfloor_spec x : IZR (Rfloor x) <= x < IZR (Rfloor x) + 1.
Proof. unfold Rfloor. destruct (archimed x) as [H1 H2]. rewrite minus_IZR. lra. Qed.

Lemma Rfloor_unique x z : IZR z <= x < IZR z + 1 -> Rfloor x = z.
Proof.
  intros H. destruct (Rfloor_spec x) as [H1 H2].
  assert ((Rfloor x < z + 1)%Z). { apply lt_IZR. rewrite plus_IZR. lra. }
  assert ((z < Rfloor x + 1)%Z). { apply lt_IZR. rewrite plus_IZR. lra. }
  lia.
Qed.

Lemma Rceil_spec x : IZR (Rceil x) - 1 < x <= IZR (Rceil x).
Proof. unfold Rceil. rewrite opp_IZR. destruct (Rfloor_spec (- x)). lra. Qed.

Lemma Rceil_unique x z : IZR z - 1 < x <= IZR z -> Rceil x = z.
Proof. intros H. unfold Rceil. rewrite (Rfloor_unique (- x) (- z)); [lia|]. rewrite opp_IZR. lra. Qed.

Lemma Rfloor_IZR z : Rfloor (IZR z) = z.
Proof. apply Rfloor_unique; lra. Qed.
Lemma Rceil_IZR z : Rceil (IZR z) = z.
Proof. apply Rceil_unique; lra. Qed.

Lemma Rfloor_ge x z : IZR z <= x -> (z <= Rfloor x)%Z.
Proof. intros H. destruct (Rfloor_spec x). assert ((z < Rfloor x + 1)%Z) by (apply lt_IZR; rewrite plus_IZR; lra). lia. Qed.
Lemma Rfloor_le x z : x < IZR z + 1 -> (Rfloor x <= z)%Z.
Proof. intros H. destruct (Rfloor_spec x). assert ((Rfloor x < z + 1)%Z) by (apply lt_IZR; rewrite plus_IZR; lra). lia. Qed.
Lemma Rceil_ge x z : IZR z - 1 < x -> (z <= Rceil x)%Z.
Proof. intros H. destruct (Rceil_spec x). assert ((z - 1 < Rceil x)%Z) by (apply lt_IZR; rewrite minus_IZR; lra). lia. Qed.
Lemma Rceil_le x z : x <= IZR z -> (Rceil x <= z)%Z.
Proof. intros H. destruct (Rceil_spec x). assert ((Rceil x < z + 1)%Z) by (apply lt_IZR; rewrite plus_IZR; lra). lia. Qed.
Lemma Rfloor_mono x y : x <= y -> (Rfloor x <= Rfloor y)%Z.
Proof. intros H. apply Rfloor_ge. destruct (Rfloor_spec x). lra. Qed.

Lemma nle_R (x y : R) : nle x y = true <-> x <= y.
Proof. cbn. destruct (Rle_dec x y); split; congruence. Qed.
Lemma nle_R_false (x y : R) : nle x y = false <-> y < x.
Proof. cbn. destruct (Rle_dec x y); split; intros; try congruence; lra. Qed.
Lemma nlt_R (x y : R) : nlt x y = true <-> x < y.
Proof. cbn. destruct (Rlt_dec x y); split; congruence. Qed.
Lemma nlt_R_false (x y : R) : nlt x y = false <-> y <= x.
Proof. cbn. destruct (Rlt_dec x y); split; intros; try congruence; lra. Qed.
Lemma pydiv_R (x y : R) : y <> 0 -> pydiv x y = Ok (x / y).
Proof. intros H. unfold pydiv; cbn. destruct (Req_EM_T y 0); congruence. Qed.
Lemma pydiv_R0 (x : R) : pydiv x 0 = Err ZeroDivisionError.
Proof. unfold pydiv; cbn. destruct (Req_EM_T 0 0); congruence. Qed.

Lemma IZR_pos_mult (i : Z) (b : R) : (0 <= i)%Z -> 0 <= b -> 0 <= IZR i * b.
Proof. intros. apply Rmult_le_pos; auto. now apply IZR_le. Qed.
Lemma IZR_mult_lt (i j : Z) (b : R) : 0 < b -> (i < j)%Z -> IZR i * b < IZR j * b.
Proof. intros. apply Rmult_lt_compat_r; auto. now apply IZR_lt. Qed.
Lemma IZR_mult_le (i j : Z) (b : R) : 0 <= b -> (i <= j)%Z -> IZR i * b <= IZR j * b.
Proof. intros. apply Rmult_le_compat_r; auto. now apply IZR_le. Qed.
Lemma IZR_mult_inj (i j : Z) (b : R) : b <> 0 -> IZR i * b = IZR j * b -> i = j.
Proof. intros. apply eq_IZR. eapply Rmult_eq_reg_r; eauto. Qed.
