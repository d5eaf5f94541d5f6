(** Theorems about Bisection1D.search derived from the loop analysis *)
From Coq Require Import ZArith Reals List Bool Lia Lra.
From Verif Require Import Base Num Order BaseLemmas Utilities Search SearchSpec SearchProofs.
Import ListNotations.
Open Scope Z_scope.

Section Theorems.
Variable C : Type.
Context {F : Type} {N : Num F} {OF : Ordered F}.
Variable build : C -> F -> res unit.
Variable sim : C -> F -> res (xval F).
Variable minH maxH : F.
Notation sstate := (sstate C (F := F)).
Notation search := (search C build sim minH maxH).
Notation reads := (reads C sim minH maxH).
Notation excess_is := (excess_is C sim maxH).
Notation height_helps := (height_helps C sim minH maxH).
Notation well_behaved := (well_behaved C build sim minH maxH).

Lemma pos_not_neg v : pos v -> neg v -> False.
Proof. intros (q & -> & H) (q' & [= <-] & H'). lra. Qed.

Lemma selected_feasible max_iter (s s' : sstate) r :
  search max_iter s = (Ok r, s') -> temps C s = [] ->
  exists k c, r = Some (k, c) /\ 0 <= k < zlen (dom C s) /\ nth_error (dom C s) (Z.to_nat k) = Some c
    /\ ghe C s' = (c, maxH)
    /\ ((exists q, sim c maxH = Ok (Fin q) /\ (val q < 0)%R)
        \/ (k = 0 /\ exists q q', sim c minH = Ok (Fin q) /\ (val q < 0)%R /\ sim c maxH = Ok (Fin q') /\ (val q' > 0)%R)).
Proof.
  intros H Ht. apply (search_ok C (OF := OF)) in H as (Hn & _ & _ & _ & c0 & cR & tl & tu & tm & (E0 & ER & Htl & Htu & Htm) & [H|H]); auto.
  - destruct H as (Hopp & -> & Hg & _). exists 0, c0. repeat split; auto; try lia.
    destruct Hopp as [(_ & (q & -> & Hq))|((q & -> & Hq) & (q' & -> & Hq'))]; [left; eauto|right; split; eauto 8].
  - destruct H as (_ & _ & k & c & q & it & tn & _ & -> & En & Hk & Hg & _ & _ & _ & _ & _ & _ & _ & _ & _ & Hs & Hq & _).
    exists k, c. repeat split; auto; try lia. left; eauto.
Qed.


Lemma nth_in_range (d : list C) k : 0 <= k < zlen d -> exists c, nth_error d (Z.to_nat k) = Some c.
Proof. intros H. destruct (py_nth_ok d k H) as (c & _ & E). eauto. Qed.

(** no monotonicity: the selection is the best evaluated adequate field, and one evaluated adequate field has an
    evaluated inadequate neighbour *)
Lemma selected_best max_iter (s s' : sstate) r :
  search max_iter s = (Ok r, s') -> temps C s = [] ->
  zlen (dom C s) - 1 <= 2 ^ Z.max 0 max_iter ->
  forall c0, nth_error (dom C s) 0 = Some c0 ->
  (exists q q', sim c0 minH = Ok (Fin q) /\ sim c0 maxH = Ok (Fin q') /\ (0 < val q)%R /\ (0 < val q')%R) ->
  exists k c q, r = Some (k, c) /\ sim c maxH = Ok (Fin q) /\ (val q < 0)%R
    /\ recorded C sim maxH (dom C s) (temps C s')
    /\ (forall k' q', In (k', Fin q') (temps C s') -> (val q' < 0)%R -> (val q' <= val q)%R)
    /\ exists m a b, In (m, Fin a) (temps C s') /\ In (m + 1, Fin b) (temps C s') /\ (0 < val a)%R /\ (val b < 0)%R.
Proof.
  intros H Ht Hp c0 E0 (ql & qu & Hl & Hu & Pl & Pu).
  apply (search_ok C (OF := OF)) in H as (Hn & _ & _ & _ & c0' & cR & tl & tu & tm & (E0' & ER & Htl & Htu & Htm) & H); auto.
  rewrite E0 in E0'; injection E0' as <-. rewrite Hl in Htl; injection Htl as <-. rewrite Hu in Htu; injection Htu as <-.
  assert (Pl' : pos (Fin ql)) by (exists ql; auto). assert (Pu' : pos (Fin qu)) by (exists qu; auto).
  destruct H as [H|H].
  - exfalso. destruct H as ([(_ & Hx)|(Hx & _)] & _); eauto using pos_not_neg.
  - destruct H as (_ & Hopp & k & c & q & it & tn & Hn2 & -> & En & Hk & Hg & Etm & _ & _ & _ & _ & Hrec & _ & _ & _ & Hs & Hq & Hmax & Hadj).
    assert (Nm : neg tm) by (destruct Hopp as [(_ & ?)|(Hx & _)]; [auto|exfalso; eauto using pos_not_neg]).
    exists k, c, q. repeat (split; [solve [auto]|]).
    destruct (Hadj Hp) as (m & v & w & Hv & Hw & Hsv & Hsw).
    destruct Hsv as [((a & -> & Ha) & _)|(_ & Hx)]; [|exfalso; eauto using pos_not_neg].
    destruct Hsw as [(_ & Hx)|((b & -> & Hb) & _)]; [exfalso; eauto using pos_not_neg|].
    exists m, a, b. repeat split; auto.
Qed.


(** non-increasing excess: the selected field has the excess of the smallest adequate field *)
Lemma selected_value_optimal max_iter (s s' : sstate) k c f :
  search max_iter s = (Ok (Some (k, c)), s') -> temps C s = [] ->
  zlen (dom C s) - 1 <= 2 ^ Z.max 0 max_iter ->
  excess_is (dom C s) f -> (forall i j, 0 <= i <= j -> j < zlen (dom C s) -> (val (f j) <= val (f i))%R) ->
  (forall c0, nth_error (dom C s) 0 = Some c0 -> height_helps c0) ->
  (val (f k) < 0)%R /\ 0 <= k < zlen (dom C s) /\
  exists m, 0 <= m <= k /\ (val (f m) < 0)%R /\ (forall j, 0 <= j < m -> (0 < val (f j))%R) /\ (val (f k) = val (f m))%R.
Proof.
  intros H Ht Hp Hf Hmono Hh. pose proof H as H'.
  apply (search_ok C (OF := OF)) in H as (Hn & _ & _ & _ & c0 & cR & tl & tu & tm & (E0 & ER & Htl & Htu & Htm) & H); auto.
  pose proof (Hf 0 c0 ltac:(lia) E0) as Hf0. rewrite Hf0 in Htu; injection Htu as <-.
  pose proof (Hf (zlen (dom C s) - 1) cR ltac:(lia) ER) as HfR. rewrite HfR in Htm; injection Htm as <-.
  destruct H as [H|H].
  - destruct H as (Hopp & [= -> ->] & _).
    destruct Hopp as [(_ & (q & [= <-] & Hq))|((q & -> & Hq) & (q' & [= <-] & Hq'))].
    + split; auto. split; [lia|]. exists 0. split; [lia|]. split; auto. split; [intros; lia|]. lra.
    + exfalso. specialize (Hh c0 E0 q (f 0) Htl Hf0 Hq). lra.
  - destruct H as (_ & Hopp & k' & c' & q & it & tn & Hn2 & [= <- <-] & En & Hk & Hg & Etm & _ & _ & _ & _ & Hrec & _ & _ & _ & Hs & Hq & Hmax & Hadj).
    pose proof (Hf k c ltac:(lia) En) as Hfk. rewrite Hs in Hfk; injection Hfk as ->.
    destruct Hopp as [((q0 & [= <-] & P0) & (q1 & [= <-] & N1))|((q0 & [= <-] & N0) & (q1 & [= <-] & P1))].
    2:{ exfalso. specialize (Hmono 0 (zlen (dom C s) - 1) ltac:(lia) ltac:(lia)). lra. }
    destruct (Hadj Hp) as (m & v & w & Hv & Hw & Hsv & Hsw).
    destruct (Hrec _ _ Hv) as (Hm & cm & Em & Hsm). destruct (Hrec _ _ Hw) as (Hm1 & cm1 & Em1 & Hsm1).
    pose proof (Hf m cm ltac:(lia) Em) as Hfm. rewrite Hsm in Hfm; injection Hfm as ->.
    pose proof (Hf (m + 1) cm1 ltac:(lia) Em1) as Hfm1. rewrite Hsm1 in Hfm1; injection Hfm1 as ->.
    assert (Pm : (0 < val (f m))%R).
    { destruct Hsv as [((a & [= <-] & Ha) & _)|(_ & (a & [= <-] & Ha))]; [auto|lra]. }
    assert (Nm : (val (f (m + 1)%Z) < 0)%R).
    { destruct Hsw as [(_ & (a & [= <-] & Ha))|((a & [= <-] & Ha) & _)]; [lra|auto]. }
    split; auto. split; auto. exists (m + 1).
    assert (m < k). { destruct (Z_lt_le_dec m k); auto. specialize (Hmono k m ltac:(lia) ltac:(lia)). lra. }
    split; [lia|]. split; auto. split.
    + intros j Hj. specialize (Hmono j m ltac:(lia) ltac:(lia)). lra.
    + pose proof (Hmax _ _ Hw Nm). specialize (Hmono (m + 1) k ltac:(lia) ltac:(lia)). lra.
Qed.

(** strictly decreasing excess: the selected field is the smallest adequate one *)
Lemma selected_smallest max_iter (s s' : sstate) k c f :
  search max_iter s = (Ok (Some (k, c)), s') -> temps C s = [] ->
  zlen (dom C s) - 1 <= 2 ^ Z.max 0 max_iter ->
  excess_is (dom C s) f -> (forall i j, 0 <= i < j -> j < zlen (dom C s) -> (val (f j) < val (f i))%R) ->
  (forall c0, nth_error (dom C s) 0 = Some c0 -> height_helps c0) ->
  (val (f k) < 0)%R /\ 0 <= k < zlen (dom C s) /\ nth_error (dom C s) (Z.to_nat k) = Some c
  /\ forall j, 0 <= j < k -> (0 < val (f j))%R.
Proof.
  intros H Ht Hp Hf Hmono Hh.
  destruct (selected_value_optimal max_iter s s' k c f H Ht Hp Hf) as (H1 & H2 & m & Hm & H3 & H4 & H5); auto.
  { intros i j Hij Hj. destruct (Z.eq_dec i j) as [->|]; [lra|]. specialize (Hmono i j ltac:(lia) ltac:(lia)). lra. }
  apply selected_feasible in H as (k' & c' & [= <- <-] & _ & En & _); auto.
  split; auto. split; auto. split; auto.
  destruct (Z.eq_dec m k) as [->|]; auto. specialize (Hmono m k ltac:(lia) ltac:(lia)). lra.
Qed.


Lemma well_behaved_no_err d c H e : well_behaved d -> In c d -> H = maxH \/ H = minH /\ nth_error d 0 = Some c -> ~ oracle_err C build sim c H e.
Proof.
  intros Hw Hin HH. destruct (Hw c H Hin HH) as ((u & Hb) & v & Hs & Hv). intros [E|[E|(v' & E & Es)]].
  - congruence.
  - congruence.
  - rewrite Hs in E; injection E as <-. apply sign_err in Es.
    destruct Hv as [(q & -> & Hq)|(q & -> & Hq)]; destruct Es as [(_ & q' & [= <-] & Hz)|(_ & [?|?])]; try discriminate; lra.
Qed.

Lemma search_outcome max_iter (s : sstate) :
  dom C s <> [] -> temps C s = [] -> well_behaved (dom C s) ->
  exists c0 cR tl tu tm, reads (dom C s) c0 cR tl tu tm /\
  ((exists k c s', search max_iter s = (Ok (Some (k, c)), s')) /\ (opposite tl tu \/ opposite tu tm)
   \/ (exists s', search max_iter s = (Err ValueError, s')) /\ same_side tl tu /\ same_side tu tm).
Proof.
  intros Hd Ht Hw. destruct (search max_iter s) as [[r|e] s'] eqn:E.
  - pose proof E as E'. apply selected_feasible in E' as (k & c & -> & _); auto.
    apply (search_ok C (OF := OF)) in E as (_ & _ & _ & _ & c0 & cR & tl & tu & tm & Hr & H); auto.
    exists c0, cR, tl, tu, tm. split; auto. left. split; [eauto|]. destruct H as [(H & _)|(_ & H & _)]; auto.
  - pose proof E as E'. apply (search_err C (OF := OF)) in E as [(? & _)|[(c & H & Hin & HH & Ho)|(-> & c0 & cR & tl & tu & tm & Hr & H1 & H2)]]; auto.
    + contradiction.
    + exfalso. eapply well_behaved_no_err; eauto.
    + exists c0, cR, tl, tu, tm. split; auto. right. eauto.
Qed.

Lemma search_never_none max_iter (s s' : sstate) : temps C s = [] -> search max_iter s <> (Ok None, s').
Proof. intros Ht H. apply selected_feasible in H as (k & c & ? & _); auto. discriminate. Qed.

Lemma search_index_error max_iter (s s' : sstate) :
  temps C s = [] -> dom C s <> [] -> search max_iter s = (Err IndexError, s') ->
  exists c H, In c (dom C s) /\ (build c H = Err IndexError \/ sim c H = Err IndexError).
Proof.
  intros Ht Hd H. apply (search_err C (OF := OF)) in H as [(? & _)|[(c & H & Hin & HH & Ho)|(? & _)]]; auto; try congruence.
  exists c, H. split; auto. destruct Ho as [?|[?|(v & _ & Hs)]]; auto. apply sign_err in Hs as [(? & _)|(? & _)]; discriminate.
Qed.

Lemma search_zero_error max_iter (s s' : sstate) :
  temps C s = [] -> search max_iter s = (Err ZeroDivisionError, s') ->
  exists c H, In c (dom C s) /\ (H = maxH \/ H = minH /\ nth_error (dom C s) 0 = Some c) /\
    (build c H = Err ZeroDivisionError \/ sim c H = Err ZeroDivisionError \/ exists q, sim c H = Ok (Fin q) /\ (val q = 0)%R).
Proof.
  intros Ht H. apply (search_err C (OF := OF)) in H as [(_ & ?)|[(c & H & Hin & HH & Ho)|(? & _)]]; auto; try congruence.
  exists c, H. split; auto. split; auto. destruct Ho as [?|[?|(v & Hv & Hs)]]; auto.
  apply sign_err in Hs as [(_ & q & -> & Hq)|(? & _)]; [|discriminate]. right; right; eauto.
Qed.

Lemma search_effort max_iter (s s' : sstate) r :
  search max_iter s = (Ok r, s') -> temps C s = [] ->
  NoDup (map fst (temps C s'))
  /\ zlen (temps C s') <= 2 + Z.min (Z.max 0 max_iter) (Z.log2_up (zlen (dom C s) - 1))
  /\ zlen (trace C s') <= zlen (trace C s) + 4 + Z.min (Z.max 0 max_iter) (Z.log2_up (zlen (dom C s) - 1)).
Proof.
  intros H Ht. apply (search_ok C (OF := OF)) in H as (Hn & _ & _ & _ & c0 & cR & tl & tu & tm & Hr & H); auto.
  pose proof (Z.log2_up_nonneg (zlen (dom C s) - 1)) as Hlog.
  destruct H as [(_ & _ & _ & -> & ->)|(_ & _ & k & c & q & it & tn & Hn2 & _ & _ & _ & _ & Et & Htn & Htr & Hit & Hpow & _ & Hnd & _)].
  - unfold first_temps. rewrite zlen_app, !zlen_cons, !(@zlen_nil (C * F)).
    destruct (Z.eqb_spec (zlen (dom C s)) 1); cbn [map fst]; rewrite ?zlen_cons, !(@zlen_nil (Z * xval F)); (split; [|lia]).
    + constructor; [intros []|constructor].
    + constructor; [intros [?|[]]; lia|]. constructor; [intros []|constructor].
  - assert (it <= Z.log2_up (zlen (dom C s) - 1)).
    { apply Hpow; auto. destruct (Z.eq_dec (zlen (dom C s) - 1) 1) as [->|]; [cbn; lia|]. apply Z.log2_up_spec. lia. }
    split; auto. rewrite Et, zlen_app, Htn. unfold first_temps. destruct (Z.eqb_spec (zlen (dom C s)) 1); [lia|].
    rewrite !zlen_cons, !(@zlen_nil (Z * xval F)). lia.
Qed.

(** total correctness on a strictly improving domain *)
Lemma finds_smallest max_iter (s : sstate) f m ql c0 :
  temps C s = [] -> zlen (dom C s) - 1 <= 2 ^ Z.max 0 max_iter ->
  (forall c H, In c (dom C s) -> exists u, build c H = Ok u) ->
  excess_is (dom C s) f -> (forall i j, 0 <= i < j -> j < zlen (dom C s) -> (val (f j) < val (f i))%R) ->
  nth_error (dom C s) 0 = Some c0 -> sim c0 minH = Ok (Fin ql) -> (0 < val ql)%R ->
  0 < m < zlen (dom C s) -> (0 < val (f (m - 1)%Z))%R -> (val (f m) < 0)%R ->
  exists c s', search max_iter s = (Ok (Some (m, c)), s') /\ nth_error (dom C s) (Z.to_nat m) = Some c /\ ghe C s' = (c, maxH).
Proof.
  intros Ht Hp Hb Hf Hmono E0 Hql Hh Hm Pm Nm.
  assert (P0 : (0 < val (f 0%Z))%R).
  { destruct (Z.eq_dec (m - 1) 0) as [e|]; [rewrite e in Pm; auto|]. specialize (Hmono 0 (m - 1) ltac:(lia) ltac:(lia)). lra. }
  assert (Hw : well_behaved (dom C s)).
  { intros c H Hin HH. split; auto.
    destruct HH as [->|(-> & E)].
    - apply In_nth_error in Hin as (n & En). pose proof (Hf (Z.of_nat n) c ltac:(lia) ltac:(rewrite Nat2Z.id; auto)) as Hs.
      eexists. split; [exact Hs|].
      assert (Hn : Z.of_nat n < zlen (dom C s)). { unfold zlen. apply Nat2Z.inj_lt. apply nth_error_Some. congruence. }
      destruct (Z_lt_le_dec (Z.of_nat n) m) as [Hlt|Hge].
      + left. eexists; split; eauto. destruct (Z.eq_dec (Z.of_nat n) (m - 1)) as [->|]; [auto|].
        specialize (Hmono (Z.of_nat n) (m - 1) ltac:(lia) ltac:(lia)). lra.
      + right. eexists; split; eauto. destruct (Z.eq_dec (Z.of_nat n) m) as [->|]; [auto|].
        specialize (Hmono m (Z.of_nat n) ltac:(lia) ltac:(lia)). lra.
    - rewrite E0 in E. injection E as ->. eexists; split; eauto. left. eexists; split; [reflexivity|lra]. }
  assert (Hne : dom C s <> []) by (intros E; rewrite E in E0; discriminate).
  destruct (search_outcome max_iter s Hne Ht Hw) as (c0' & cR & tl & tu & tm & (R1 & R2 & R3 & R4 & R5) & [((k & c & s' & Es) & _)|(_ & _ & Hss)]).
  - pose proof (selected_smallest max_iter s s' k c f Es Ht Hp Hf Hmono) as (H1 & H2 & H3 & H4).
    { intros c1 E1 q q' Hq Hq'. rewrite E0 in E1. injection E1 as <-. rewrite Hql in Hq; injection Hq as <-.
      intro X. lra. }
    assert (k = m).
    { destruct (Z_lt_le_dec k m) as [Hlt|Hge].
      - exfalso. destruct (Z.eq_dec k (m - 1)) as [->|]; [lra|]. specialize (Hmono k (m - 1) ltac:(lia) ltac:(lia)). lra.
      - destruct (Z.eq_dec k m); auto. exfalso. specialize (H4 m ltac:(lia)). lra. }
    subst k. exists c, s'. split; auto. split; auto.
    apply selected_feasible in Es as (k' & c' & [= <- <-] & _ & _ & Hg & _); auto.
  - exfalso. rewrite E0 in R1. injection R1 as <-. rewrite (Hf 0 c0 ltac:(lia) E0) in R4. injection R4 as <-.
    rewrite (Hf (zlen (dom C s) - 1) cR ltac:(lia) R2) in R5. injection R5 as <-.
    assert (val (f (zlen (dom C s) - 1)%Z) < 0)%R.
    { destruct (Z.eq_dec m (zlen (dom C s) - 1)) as [<-|]; [auto|]. specialize (Hmono m (zlen (dom C s) - 1) ltac:(lia) ltac:(lia)). lra. }
    destruct Hss as [(_ & (q & [= <-] & Hq))|((q & [= <-] & Hq) & _)]; lra.
Qed.

End Theorems.
