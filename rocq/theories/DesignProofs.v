(** What a search made by find_design returns, for candidate fields over any numbers and any oracles; used by Properties_Design.v
    (coordinates are reals) and Properties_FloatDesign.v (coordinates are doubles) *)
From Coq Require Import ZArith List Bool Reals Lia Lra Sorted.
From Coq Require Import Lra.
From Verif Require Import Base BaseLemmas Num Order Spec Utilities Domains Search SearchSpec SearchProofs SearchTheorems SearchNested Design.
Import ListNotations.
Open Scope R_scope.

Section Designs.
Context {X : Type}.                               (* coordinates *)
Context {V : Type} {NV : Num V} {OV : Ordered V}.  (* heights and temperatures, standing for the reals [val] *)
Variable build : list (X * X) -> V -> res unit.   (* construction of the heat exchanger: may raise *)
Variable sim : list (X * X) -> V -> res (xval V).   (* excess temperature of a field at a height *)
Variable minH maxH : V.
Notation well_behaved := (well_behaved (list (X * X)) build sim minH maxH).

(** the temperature limits are kept at the maximum height, or, for a field kept at the minimum height only, they are kept there *)
Definition adequate (f : list (X * X)) : Prop := exists q, sim f maxH = Ok (Fin q) /\ (val q < 0)%R.
Definition adequate_shallow (f : list (X * X)) : Prop :=
  exists q q', sim f minH = Ok (Fin q) /\ (val q < 0)%R /\ sim f maxH = Ok (Fin q') /\ (val q' > 0)%R.
(** of two candidates the one with more boreholes has the smaller excess *)
Definition more_is_better (d : list (list (X * X))) : Prop :=
  forall f f' q q', In f d -> In f' d -> (length f < length f')%nat -> sim f maxH = Ok (Fin q) -> sim f' maxH = Ok (Fin q') -> (val q' < val q)%R.
(** a candidate within the limits at the minimum height does not exceed them at the maximum height *)
Definition deeper_helps (f : list (X * X)) : Prop :=
  forall q q', sim f minH = Ok (Fin q) -> sim f maxH = Ok (Fin q') -> (val q < 0)%R -> (val q' <= 0)%R.

Lemma bisection_1d_ok d H r s' : bisection_1d build sim minH maxH d H = Ok (r, s') ->
  exists s, dom _ s = d /\ temps _ s = [] /\ search _ build sim minH maxH 15 s = (Ok r, s').
Proof.
  intro E. unfold bisection_1d in E. apply bind_ok in E as (s & Es & E). unfold base_init in Es.
  apply bind_ok in Es as (c & _ & Es). apply bind_ok in Es as (u & _ & Es).
  destruct (search _ build sim minH maxH 15 s) as [[r'|e] s''] eqn:Er; [|discriminate]. cbn [bind] in E. injection E as -> ->.
  exists s. injection Es as <-. auto.
Qed.

Lemma sizes_nth (d : list (list (X * X))) k c : nth_error d k = Some c -> nth_error (sizes d) k = Some (Z.of_nat (length c)).
Proof. intro E. unfold sizes. now rewrite nth_error_map, E. Qed.
Lemma increasing_nth l : strictly_increasing l -> forall i j a b, (i < j)%nat -> nth_error l i = Some a -> nth_error l j = Some b -> (a < b)%Z.
Proof.
  induction 1 as [|x l Hs IH Hf]; intros i j a b Hij Ha Hb; [destruct i; discriminate|].
  destruct j as [|j]; [lia|]. cbn in Hb. destruct i as [|i].
  - cbn in Ha. injection Ha as <-. rewrite Forall_forall in Hf. apply Hf. now apply nth_error_In in Hb.
  - cbn in Ha. apply (IH i j); auto. lia.
Qed.

(** what a returned selection is, in terms of the candidates *)
Lemma one_domain_selection d H r s' : bisection_1d build sim minH maxH d H = Ok (r, s') ->
  exists k c, r = Some (k, c) /\ nth_error d (Z.to_nat k) = Some c /\ (0 <= k)%Z /\ ghe _ s' = (c, maxH) /\
  (adequate c \/ (k = 0%Z /\ adequate_shallow c)).
Proof.
  intro E. apply bisection_1d_ok in E as (s & Hd & Ht & E).
  destruct (selected_feasible _ build sim minH maxH 15 s s' r E Ht) as (k & c & -> & Hk & Hc & Hg & Hf). rewrite Hd in *.
  exists k, c. repeat (split; [assumption || reflexivity || lia|]). destruct Hf as [(q & Hq)|(H0 & q & q' & Hq)]; [left; exists q; tauto|right; split; auto; exists q, q'; tauto].
Qed.

(** when more boreholes are better the selection is the first adequate candidate *)
Lemma search_first (s s' : sstate (list (X * X)) (F := V)) d k c :
  search _ build sim minH maxH 15 s = (Ok (Some (k, c)), s') -> dom _ s = d -> temps _ s = [] ->
  strictly_increasing (sizes d) -> (zlen d <= 32769)%Z -> more_is_better d ->
  (forall f, In f d -> exists q, sim f maxH = Ok (Fin q)) -> (forall f, nth_error d 0 = Some f -> deeper_helps f) ->
  adequate c /\ (0 <= k < zlen d)%Z /\ nth_error d (Z.to_nat k) = Some c /\
  (forall j f, (j < Z.to_nat k)%nat -> nth_error d j = Some f -> exists q, sim f maxH = Ok (Fin q) /\ (0 < val q)%R).
Proof.
  intros E Hd Ht Hs Hn Hb Hf Hh.
  set (e := fun f => match sim f maxH with Ok (Fin q) => q | _ => nofZ 0 end).
  set (ex := fun k => match nth_error d (Z.to_nat k) with Some f => e f | None => nofZ 0 end).
  assert (He : forall f, In f d -> sim f maxH = Ok (Fin (e f))) by (intros f Hin; destruct (Hf f Hin) as (q & Eq); unfold e; now rewrite Eq).
  assert (Xs : excess_is _ sim maxH d ex) by (intros i f Hi Ef; unfold ex; rewrite Ef; apply He; now apply nth_error_In in Ef).
  assert (D : forall i j, (0 <= i < j)%Z -> (j < zlen d)%Z -> (val (ex j) < val (ex i))%R).
  { intros i j Hij Hj. unfold zlen in Hj.
    destruct (nth_error d (Z.to_nat i)) as [fi|] eqn:Ei; [|apply nth_error_None in Ei; lia].
    destruct (nth_error d (Z.to_nat j)) as [fj|] eqn:Ej; [|apply nth_error_None in Ej; lia].
    unfold ex. rewrite Ei, Ej. pose proof (nth_error_In _ _ Ei). pose proof (nth_error_In _ _ Ej).
    apply (Hb fi fj); auto. pose proof (increasing_nth _ Hs (Z.to_nat i) (Z.to_nat j) _ _ ltac:(lia) (sizes_nth _ _ _ Ei) (sizes_nth _ _ _ Ej)). lia. }
  destruct (selected_smallest _ build sim minH maxH 15 s s' k c ex) as (S1 & S2 & S3 & S4); rewrite ?Hd; auto.
  { change (2 ^ Z.max 0 15)%Z with 32768%Z. lia. }
  rewrite Hd in *. split; [exists (ex k); split; [apply Xs; [lia|assumption]|assumption]|]. split; [assumption|]. split; [assumption|].
  intros j f Hj Ej. exists (e f). split; [apply He; now apply nth_error_In in Ej|].
  specialize (S4 (Z.of_nat j) ltac:(lia)). unfold ex in S4. now rewrite Nat2Z.id, Ej in S4.
Qed.
Lemma search_smallest (s s' : sstate (list (X * X)) (F := V)) d k c :
  search _ build sim minH maxH 15 s = (Ok (Some (k, c)), s') -> dom _ s = d -> temps _ s = [] ->
  strictly_increasing (sizes d) -> (zlen d <= 32769)%Z -> more_is_better d ->
  (forall f, In f d -> exists q, sim f maxH = Ok (Fin q)) -> (forall f, nth_error d 0 = Some f -> deeper_helps f) ->
  adequate c /\ forall f, In f d -> adequate f -> (length c <= length f)%nat.
Proof.
  intros E Hd Ht Hs Hn Hb Hf Hh. destruct (search_first s s' d k c E Hd Ht Hs Hn Hb Hf Hh) as (S1 & S2 & S3 & S4).
  split; [assumption|]. intros f Hin (q & Eq & Hq). apply In_nth_error in Hin as (j & Ej). destruct (Nat.lt_ge_cases j (Z.to_nat k)) as [Hlt|Hge].
  - destruct (S4 j f Hlt Ej) as (q' & Eq' & Hq'). rewrite Eq in Eq'. injection Eq' as <-.
    exfalso. lra.
  - destruct (Nat.eq_dec j (Z.to_nat k)) as [->|Hne]; [rewrite S3 in Ej; now injection Ej as ->|].
    pose proof (increasing_nth _ Hs (Z.to_nat k) j _ _ ltac:(lia) (sizes_nth _ _ _ S3) (sizes_nth _ _ _ Ej)). lia.
Qed.
Lemma one_domain_smallest d H k c s' : bisection_1d build sim minH maxH d H = Ok (Some (k, c), s') ->
  strictly_increasing (sizes d) -> (zlen d <= 32769)%Z -> more_is_better d ->
  (forall f, In f d -> exists q, sim f maxH = Ok (Fin q)) -> (forall f, nth_error d 0 = Some f -> deeper_helps f) ->
  adequate c /\ forall f, In f d -> adequate f -> (length c <= length f)%nat.
Proof. intros E. apply bisection_1d_ok in E as (s & Hd & Ht & E). eapply search_smallest; eauto. Qed.

Lemma one_domain_outcome d H u c0 : nth_error d 0 = Some c0 -> build c0 H = Ok u -> well_behaved d ->
  exists cR tl tu tm, nth_error d (length d - 1) = Some cR /\ sim c0 minH = Ok tl /\ sim c0 maxH = Ok tu /\ sim cR maxH = Ok tm /\
  ((exists k c s', bisection_1d build sim minH maxH d H = Ok (Some (k, c), s')) /\ (opposite tl tu \/ opposite tu tm)
   \/ bisection_1d build sim minH maxH d H = Err ValueError /\ same_side tl tu /\ same_side tu tm).
Proof.
  intros H0 Hb Hw. destruct d as [|c d]; [discriminate|]. cbn in H0. injection H0 as ->.
  unfold bisection_1d, base_init. cbn [py_nth]. unfold py_nth. cbn [Z.ltb Z.compare Z.to_nat nth_error bind]. rewrite Hb. cbn [bind].
  set (s := {| dom := c0 :: d; temps := []; ghe := (c0, H); trace := []; temps_nested := []; heights := [] |}).
  destruct (search_outcome _ build sim minH maxH 15 s) as (c0' & cR & tl & tu & tm & (R1 & R2 & R3 & R4 & R5) & Out); [discriminate|reflexivity|exact Hw|].
  cbn in R1. injection R1 as <-. exists cR, tl, tu, tm.
  split. { cbn [dom s] in R2. replace (length (c0 :: d) - 1)%nat with (Z.to_nat (zlen (c0 :: d) - 1)); [assumption|]. unfold zlen. lia. }
  repeat (split; [assumption|]). destruct Out as [((k & c & s' & E) & O)|((s' & E) & O)].
  - left. split; [|exact O]. exists k, c, s'. now rewrite E.
  - right. split; [|exact O]. now rewrite E.
Qed.

Lemma bisection_2d_ok dd H r s' : bisection_2d build sim minH maxH dd H = Ok (r, s') ->
  exists k s, temps _ s = [] /\ search_2d _ build sim minH maxH dd 15 s = (Ok (k, r), s').
Proof.
  intro E. unfold bisection_2d in E. apply bind_ok in E as (d & _ & E). apply bind_ok in E as (s & Es & E). unfold base_init in Es.
  apply bind_ok in Es as (c & _ & Es). apply bind_ok in Es as (u & _ & Es).
  destruct (search_2d _ build sim minH maxH dd 15 s) as [[(k, r')|e] s''] eqn:Er; [|discriminate]. cbn [bind snd] in E.
  exists k, s. injection E as -> ->. injection Es as <-. auto.
Qed.

Lemma bisection_zd_ok sized dd H r s' : bisection_zd build sim sized minH maxH dd H = Ok (r, s') ->
  exists ko k c s, r = Some (k, c) /\ temps _ s = [] /\ search_zd _ build sim sized zlen minH maxH dd 15 s = (Ok (ko, k, c), s').
Proof.
  intro E. unfold bisection_zd in E. apply bind_ok in E as (d & _ & E). apply bind_ok in E as (s & Es & E). unfold base_init in Es.
  apply bind_ok in Es as (c & _ & Es). apply bind_ok in Es as (u & _ & Es).
  destruct (search_zd _ build sim sized zlen minH maxH dd 15 s) as [[((ko, k), c')|e] s''] eqn:Er; [|discriminate]. cbn [bind snd] in E.
  exists ko, k, c', s. injection E as <- ->. injection Es as <-. auto.
Qed.

End Designs.
