(** Proofs about Bisection2D and BisectionZD, for every oracle *)
From Coq Require Import ZArith Reals List Bool Lia Lra.
From Verif Require Import Base Num Order BaseLemmas Utilities Search SearchSpec SearchProofs SearchTheorems.
Import ListNotations.
Open Scope Z_scope.

Section Nested.
Variable C : Type.
Context {F : Type} {N : Num F} {OF : Ordered F}.
Variable build : C -> F -> res unit.
Variable sim : C -> F -> res (xval F).
Variable sized : C -> res F.
Variable nbh : C -> Z.
Variable minH maxH : F.
Notation sstate := (sstate C (F := F)).
Notation M := (M C (F := F)).
Notation search := (search C build sim minH maxH).
Notation search_2d := (search_2d C build sim minH maxH).
Notation successive_loop := (successive_loop C build sim sized nbh minH maxH).
Notation search_successive := (search_successive C build sim sized nbh minH maxH).
Notation search_zd := (search_zd C build sim sized nbh minH maxH).
Notation reads := (reads C sim minH maxH).
Notation start := (start C).
Notation one_d := (one_d C build sim minH maxH).
Notation starts_with := (starts_with C).
Notation visit := (visit C (F := F)).
Notation good_visit := (good_visit C build sim sized nbh minH maxH).

Tactic Notation "minva" hyp(H) ident(a) ident(s1) ident(E) := apply mbind_ok in H; destruct H as (a & s1 & E & H).

(** ** a search only looks at the domain and at the recorded temperatures *)
Definition alike (s1 s2 : sstate) : Prop := dom C s1 = dom C s2 /\ temps C s1 = temps C s2.
Definition blind {A} (m : M A) : Prop := forall s1 s2, alike s1 s2 ->
  fst (m s1) = fst (m s2) /\ alike (snd (m s1)) (snd (m s2)).

Lemma blind_ret {A} (a : A) : blind (ret C a).
Proof. intros s1 s2 H. auto. Qed.
Lemma blind_lift {A} (a : res A) : blind (lift C a).
Proof. intros s1 s2 H. auto. Qed.
Lemma blind_raise {A} e : blind (raise C (A := A) e).
Proof. intros s1 s2 H. auto. Qed.
Lemma blind_bind {A B} (m : M A) (k : A -> M B) : blind m -> (forall a, blind (k a)) -> blind (mbind C m k).
Proof.
  intros Hm Hk s1 s2 H. unfold mbind. destruct (Hm s1 s2 H) as [E1 E2].
  destruct (m s1) as [r1 t1], (m s2) as [r2 t2]. cbn in E1, E2. subst r2. destruct r1; [now apply Hk|auto].
Qed.
Lemma blind_get_dom : blind (get C (dom C)).
Proof. intros s1 s2 [H1 H2]. cbn. rewrite H1. repeat split; auto. Qed.
Lemma blind_get_temps : blind (get C (temps C)).
Proof. intros s1 s2 [H1 H2]. cbn. rewrite H2. repeat split; auto. Qed.
Lemma blind_set_temps t : blind (modify C (set_temps C t)).
Proof. intros s1 s2 [H1 H2]. repeat split; auto. Qed.
Lemma blind_set_ghe g : blind (modify C (set_ghe C g)).
Proof. intros s1 s2 [H1 H2]. repeat split; auto. Qed.
Lemma blind_add_trace g : blind (modify C (add_trace C g)).
Proof. intros s1 s2 [H1 H2]. repeat split; auto. Qed.
Hint Resolve blind_ret blind_lift blind_raise blind_bind blind_get_dom blind_get_temps blind_set_temps blind_set_ghe blind_add_trace : blind.
Lemma blind_init c H : blind (initialize_ghe C build c H).
Proof. unfold initialize_ghe. auto with blind. Qed.
Hint Resolve blind_init : blind.
Lemma blind_excess c H : blind (calculate_excess C build sim c H).
Proof. unfold calculate_excess. auto with blind. Qed.
Lemma blind_record k v : blind (record_temp C k v).
Proof. unfold record_temp. auto with blind. Qed.
Hint Resolve blind_excess blind_record : blind.
Lemma blind_loop fuel : forall a b c d, blind (bisect_loop C build sim maxH fuel a b c d).
Proof.
  induction fuel as [|fuel IH]; intros a b c d; cbn [bisect_loop]; [auto with blind|].
  destruct (_ || _); [auto with blind|]. repeat (apply blind_bind; [auto with blind|intros]).
  destruct (_ =? _); auto.
Qed.
Hint Resolve blind_loop : blind.
Lemma blind_search mi : blind (search mi).
Proof.
  unfold Search.search.
  repeat first [ apply blind_bind; [solve [auto with blind]|intros ?] | solve [auto with blind]
    | match goal with |- context [let '(_, _) := ?x in _] => destruct x as [[? ?] ?] | |- context [if ?b then _ else _] => destruct b end ].
Qed.

(** a search leaves the records of the successive search alone, whatever its outcome *)
Definition keeps {A} (m : M A) : Prop := forall s, heights C (snd (m s)) = heights C s /\ temps_nested C (snd (m s)) = temps_nested C s.
Lemma keeps_same {A} (m : M A) : (forall s, snd (m s) = s) -> keeps m.
Proof. intros H s. rewrite H. auto. Qed.
Lemma keeps_bind {A B} (m : M A) (k : A -> M B) : keeps m -> (forall a, keeps (k a)) -> keeps (mbind C m k).
Proof.
  intros Hm Hk s. unfold mbind. specialize (Hm s). destruct (m s) as [[a|e] s1]; cbn in *; auto.
  destruct (Hk a s1), Hm. split; congruence.
Qed.
Lemma keeps_ret {A} (a : A) : keeps (ret C a). Proof. now apply keeps_same. Qed.
Lemma keeps_lift {A} (a : res A) : keeps (lift C a). Proof. now apply keeps_same. Qed.
Lemma keeps_raise {A} e : keeps (raise C (A := A) e). Proof. now apply keeps_same. Qed.
Lemma keeps_get {A} (f : sstate -> A) : keeps (get C f). Proof. now apply keeps_same. Qed.
Lemma keeps_set_temps t : keeps (modify C (set_temps C t)). Proof. split; auto. Qed.
Lemma keeps_set_ghe t : keeps (modify C (set_ghe C t)). Proof. split; auto. Qed.
Lemma keeps_add_trace t : keeps (modify C (add_trace C t)). Proof. split; auto. Qed.
Hint Resolve keeps_bind keeps_ret keeps_lift keeps_raise keeps_get keeps_set_temps keeps_set_ghe keeps_add_trace : blind.
Lemma keeps_init c H : keeps (initialize_ghe C build c H).
Proof. unfold initialize_ghe. auto with blind. Qed.
Hint Resolve keeps_init : blind.
Lemma keeps_excess c H : keeps (calculate_excess C build sim c H).
Proof. unfold calculate_excess. auto with blind. Qed.
Lemma keeps_record k v : keeps (record_temp C k v).
Proof. unfold record_temp. auto with blind. Qed.
Hint Resolve keeps_excess keeps_record : blind.
Lemma keeps_loop fuel : forall a b c d, keeps (bisect_loop C build sim maxH fuel a b c d).
Proof.
  induction fuel as [|fuel IH]; intros a b c d; cbn [bisect_loop]; [auto with blind|].
  destruct (_ || _); [auto with blind|]. repeat (apply keeps_bind; [auto with blind|intros]).
  destruct (_ =? _); auto.
Qed.
Hint Resolve keeps_loop : blind.
Lemma keeps_search mi : keeps (search mi).
Proof.
  unfold Search.search.
  repeat first [ apply keeps_bind; [solve [auto with blind]|intros ?] | solve [auto with blind]
    | match goal with |- context [let '(_, _) := ?x in _] => destruct x as [[? ?] ?] | |- context [if ?b then _ else _] => destruct b end ].
Qed.


Lemma one_d_intro mi (s s' : sstate) r d : dom C s = d -> temps C s = [] -> search mi s = (r, s') -> one_d mi d r.
Proof.
  intros Hd Ht E g. destruct (blind_search mi s (start d g)) as [H _]; [split; auto|].
  rewrite E in H. cbn in H. auto.
Qed.
Lemma one_d_elim mi (s : sstate) r d : dom C s = d -> temps C s = [] -> one_d mi d r -> exists s', search mi s = (r, s').
Proof.
  intros Hd Ht H. destruct (search mi s) as [r' s'] eqn:E. exists s'. f_equal.
  pose proof (one_d_intro mi s s' r' d Hd Ht E) as H'. rewrite <- (H (ghe C s)). now rewrite <- (H' (ghe C s)).
Qed.
Lemma one_d_fun mi d r1 r2 (g : C * F) : one_d mi d r1 -> one_d mi d r2 -> r1 = r2.
Proof. intros H1 H2. rewrite <- (H1 g), <- (H2 g). reflexivity. Qed.

(** what a successful search leaves behind *)
Lemma search_leaves mi (s s' : sstate) r : search mi s = (Ok r, s') -> temps C s = [] ->
  exists k c, r = Some (k, c) /\ 0 <= k < zlen (dom C s) /\ nth_error (dom C s) (Z.to_nat k) = Some c
    /\ ghe C s' = (c, maxH) /\ dom C s' = dom C s /\ temps_nested C s' = temps_nested C s /\ heights C s' = heights C s
    /\ recorded C sim maxH (dom C s) (temps C s')
    /\ (select_key (temps C s') = Ok k
        \/ exists c0 cR tl tu tm, reads (dom C s) c0 cR tl tu tm /\ opposite tl tu /\ k = 0 /\ c = c0
             /\ temps C s' = first_temps (zlen (dom C s)) tu tm).
Proof.
  intros H Ht. pose proof H as H'. apply (selected_feasible C (OF := OF)) in H' as (k & c & -> & Hk & En & Hg & _); auto.
  exists k, c. split; auto. split; auto. split; auto. split; auto.
  apply (search_ok C (OF := OF)) in H as (Hn & E1 & E2 & E3 & c0 & cR & tl & tu & tm & Hr & [H|H]); auto.
  - destruct H as (Hopp & [= -> ->] & _ & Et & _). repeat (split; [solve [auto]|]). split.
    + destruct Hr as (R1 & R2 & R3 & R4 & R5). rewrite Et. unfold first_temps. destruct (Z.eqb_spec (zlen (dom C s)) 1) as [e|].
      * intros k v [[= <- <-]|[]]. split; [lia|]. exists cR. rewrite e in R2. split; auto.
      * intros k v [[= <- <-]|[[= <- <-]|[]]]; (split; [lia|]); eauto.
    + right. exists c0, cR, tl, tu, tm. repeat split; try apply Hr; auto.
  - destruct H as (_ & _ & k' & c' & q & it & tn & Hn2 & [= <- <-] & _ & _ & _ & _ & _ & _ & _ & _ & Hrec & _ & _ & Hsel & _).
    repeat (split; [solve [auto]|]). auto.
Qed.

(** ** two nested searches *)
Lemma py_nth_last {A} (d : list A) l : py_nth d (-1) = Ok l <-> exists a, d = a ++ [l].
Proof.
  split.
  - intros H. destruct (rev d) as [|x xs] eqn:Er; apply (f_equal (@rev _)) in Er; rewrite rev_involutive in Er; cbn in Er; subst d.
    + discriminate.
    + exists (rev xs). f_equal. f_equal. rewrite py_nth_neg in H by (rewrite zlen_app, zlen_cons, (@zlen_nil A); pose proof (zlen_nonneg (rev xs)); lia).
      apply py_nth_nonneg in H; rewrite zlen_app, zlen_cons, (@zlen_nil A) in *; pose proof (zlen_nonneg (rev xs)); [|lia].
      rewrite nth_error_app2 in H by (unfold zlen in *; lia).
      replace (Z.to_nat (-1 + (zlen (rev xs) + (0 + 1))) - length (rev xs))%nat with O in H by (unfold zlen in *; lia).
      cbn in H. congruence.
  - intros (a & ->). rewrite py_nth_neg by (rewrite zlen_app, zlen_cons, (@zlen_nil A); pose proof (zlen_nonneg a); lia).
    apply py_nth_nonneg; rewrite zlen_app, zlen_cons, (@zlen_nil A); pose proof (zlen_nonneg a); [lia|].
    rewrite nth_error_app2 by (unfold zlen in *; lia).
    replace (Z.to_nat (-1 + (zlen a + (0 + 1))) - length a)%nat with O by (unfold zlen in *; lia). reflexivity.
Qed.

Lemma outer_domain_ok nested outer : outer_domain C nested = Ok outer <->
  exists c00 r0 lasts, nth_error nested 0 = Some (c00 :: r0) /\ outer = c00 :: lasts
    /\ Forall2 (fun d l => exists a, d = a ++ [l]) nested lasts.
Proof.
  unfold outer_domain. split.
  - intros H. apply bind_ok in H as (d0 & E & H). apply bind_ok in H as (c00 & E0 & H). apply bind_ok in H as (lasts & E1 & H). injection H as <-.
    apply py_nth_nonneg in E; [|lia]. apply py_nth_nonneg in E0; [|lia].
    change (Z.to_nat 0) with O in E, E0. destruct d0 as [|c r0]; [discriminate|]. injection E0 as ->.
    exists c00, r0, lasts. repeat split; auto. apply mapM_ok in E1.
    eapply Forall2_impl; [|exact E1]. intros d l. apply py_nth_last.
  - intros (c00 & r0 & lasts & E0 & -> & H).
    rewrite (proj2 (py_nth_nonneg nested 0 (c00 :: r0) ltac:(lia)) E0). cbn [bind].
    rewrite (proj2 (py_nth_nonneg (c00 :: r0) 0 c00 ltac:(lia)) eq_refl). cbn [bind].
    rewrite (proj2 (mapM_ok (fun d : list C => py_nth d (-1)) nested lasts)); [reflexivity|].
    eapply Forall2_impl; [|exact H]. intros d l. apply py_nth_last.
Qed.

(** the fields the user passed, as a relation: [nested] has first field [c00] and last fields [lasts] *)
Lemma Forall2_nth {A B} (P : A -> B -> Prop) l l' n b : Forall2 P l l' -> nth_error l' n = Some b -> exists a, nth_error l n = Some a /\ P a b.
Proof.
  intros H. revert n. induction H as [|a b' l l' Hab HF IH]; intros [|n] E; cbn in *; try discriminate; [injection E as ->; eauto|eauto].
Qed.
Lemma Forall2_zlen {A B} (P : A -> B -> Prop) l l' : Forall2 P l l' -> zlen l = zlen l'.
Proof. induction 1; auto. rewrite !zlen_cons. lia. Qed.

(** everything a successful two-dimensional search guarantees *)
Lemma search_2d_ok nested mi (s s' : sstate) k r2 :
  search_2d nested mi s = (Ok (k, r2), s') -> temps C s = [] ->
  exists outer inner co k2 c2,
    outer_domain C nested = Ok outer /\ one_d mi outer (Ok (Some (k, co)))
    /\ py_nth nested (k - 1) = Ok inner /\ one_d mi inner (Ok (Some (k2, c2)))
    /\ r2 = Some (k2, c2) /\ nth_error inner (Z.to_nat k2) = Some c2 /\ ghe C s' = (c2, maxH) /\ dom C s' = inner.
Proof.
  intros H Ht. unfold Search.search_2d in H.
  minva H outer s0 E. injection E as E <-. minva H u s1 E1. injection E1 as _ <-. clear u.
  minva H r s2 Es. minva H kc s3 En. destruct r as [[k' c']|]; [|discriminate]. injection En as <- <-.
  minva H inner s3 E3. injection E3 as E3 <-. minva H u s4 E4. injection E4 as _ <-. clear u.
  minva H u s4 E4. injection E4 as _ <-. clear u. minva H r s4 Es2. injection H as <- <- <-. cbn [fst] in *.
  pose proof Es2 as Es2'. apply search_leaves in Es2' as (k2 & c2 & -> & Hk2 & En2 & Hg & Hd & _); auto.
  exists outer, inner, c', k2, c2. split; auto.
  split; [eapply one_d_intro; [| |exact Es]; auto|]. split; auto.
  split; [eapply one_d_intro; [| |exact Es2]; auto|]. auto.
Qed.


Lemma outer_total nested c00 : starts_with c00 nested -> nested <> [] ->
  exists lasts, outer_domain C nested = Ok (c00 :: lasts)
    /\ Forall2 (fun (d : list C) l => py_nth d (-1) = Ok l) nested lasts.
Proof.
  intros Hst Hne.
  assert (Hlast : forall d, In d nested -> exists l, py_nth d (-1) = Ok l).
  { intros d Hd. unfold SearchSpec.starts_with in Hst. rewrite Forall_forall in Hst. specialize (Hst d Hd).
    destruct (rev d) as [|x xs] eqn:Er; apply (f_equal (@rev _)) in Er; rewrite rev_involutive in Er; subst d; [discriminate|].
    exists x. apply py_nth_last. exists (rev xs). reflexivity. }
  assert (HM : exists lasts, mapM (fun d : list C => py_nth d (-1)) nested = Ok lasts).
  { clear - Hlast. induction nested as [|d nested IH]; cbn; [eauto|].
    destruct (Hlast d) as (l & ->); [now left|]. destruct IH as (ls & ->); [intros; apply Hlast; now right|]. cbn; eauto. }
  destruct HM as (lasts & HM). exists lasts. split; [|now apply mapM_ok].
  unfold outer_domain. destruct nested as [|d0 nested]; [congruence|].
  rewrite (proj2 (py_nth_nonneg (d0 :: nested) 0 d0 ltac:(lia)) eq_refl). cbn [bind].
  inversion Hst as [|? ? Hd0 _]; subst.
  rewrite (proj2 (py_nth_nonneg d0 0 c00 ltac:(lia)) Hd0). cbn [bind]. now rewrite HM.
Qed.

Lemma outer_well_behaved nested c00 lasts : starts_with c00 nested -> nested <> [] ->
  Forall2 (fun (d : list C) l => py_nth d (-1) = Ok l) nested lasts ->
  (forall d, In d nested -> well_behaved C build sim minH maxH d) ->
  well_behaved C build sim minH maxH (c00 :: lasts).
Proof.
  intros Hst Hne HF Hw.
  assert (H0 : forall H, H = maxH \/ H = minH -> (exists u, build c00 H = Ok u) /\ exists v, sim c00 H = Ok v /\ (pos v \/ neg v)).
  { intros H HH. destruct nested as [|d0 nested]; [congruence|]. inversion Hst as [|? ? Hd0 _]; subst.
    apply (Hw d0); [now left|eapply nth_error_In; eauto|]. destruct HH; auto. }
  intros c H Hin HH. destruct HH as [->|(-> & E)].
  2:{ injection E as <-. auto. }
  destruct Hin as [<-|Hin]; [auto|].
  apply In_nth_error in Hin as (n & E). destruct (Forall2_nth _ _ _ _ _ HF E) as (d & Ed & El).
  apply (Hw d); [eapply nth_error_In; eauto| |auto]. eapply py_nth_In; eauto.
Qed.

Lemma search_2d_succeeds nested mi (s : sstate) c00 cl dl :
  temps C s = [] -> starts_with c00 nested ->
  nth_error nested (length nested - 1) = Some dl -> py_nth dl (-1) = Ok cl ->
  (forall d, In d nested -> well_behaved C build sim minH maxH d) ->
  (exists v, sim c00 minH = Ok v /\ pos v) -> (exists v, sim c00 maxH = Ok v /\ pos v) -> (exists v, sim cl maxH = Ok v /\ neg v) ->
  exists s' k inner k2 c2 q, search_2d nested mi s = (Ok (k, Some (k2, c2)), s')
    /\ 1 <= k <= zlen nested /\ nth_error nested (Z.to_nat (k - 1)) = Some inner
    /\ nth_error inner (Z.to_nat k2) = Some c2 /\ sim c2 maxH = Ok (Fin q) /\ (val q < 0)%R /\ ghe C s' = (c2, maxH).
Proof.
  intros Ht Hst Edl Ecl Hw (vl & Hvl & Pl) (vu & Hvu & Pu) (vm & Hvm & Nm).
  assert (Hne : nested <> []) by (intros ->; discriminate).
  destruct (outer_total nested c00 Hst Hne) as (lasts & Eo & HF).
  assert (Hlen : zlen nested = zlen lasts) by (eapply Forall2_zlen; eauto).
  assert (Hn1 : 1 <= zlen nested).
  { destruct nested; [congruence|]. rewrite zlen_cons. pose proof (zlen_nonneg nested). lia. }
  assert (Hin_l : forall n l, nth_error lasts n = Some l -> exists d, nth_error nested n = Some d /\ py_nth d (-1) = Ok l)
    by (intros n l E; exact (Forall2_nth _ _ _ _ _ HF E)).
  assert (Hwo := outer_well_behaved nested c00 lasts Hst Hne HF Hw).
  set (so := set_dom C (c00 :: lasts) s).
  assert (Hlast_o : nth_error (c00 :: lasts) (Z.to_nat (zlen (c00 :: lasts) - 1)) = Some cl).
  { rewrite zlen_cons. replace (Z.to_nat (zlen lasts + 1 - 1)) with (S (length nested - 1)) by (unfold zlen in *; lia). cbn [nth_error].
    assert (length nested - 1 < length lasts)%nat by (unfold zlen in *; lia).
    destruct (nth_error lasts (length nested - 1)) as [l|] eqn:E; [|apply nth_error_None in E; lia].
    apply Hin_l in E as (d & Ed & El). congruence. }
  destruct (search_outcome C build sim minH maxH mi so) as (c0 & cR & tl & tu & tm & (R1 & R2 & R3 & R4 & R5) & Ho); auto.
  { cbn. discriminate. }
  cbn [dom set_dom so] in R1, R2. cbn [nth_error] in R1. injection R1 as <-.
  unfold so in R2; cbn [dom set_dom] in R2. rewrite Hlast_o in R2. injection R2 as <-.
  rewrite Hvl in R3; injection R3 as <-. rewrite Hvu in R4; injection R4 as <-. rewrite Hvm in R5; injection R5 as <-.
  destruct Ho as [((k & c & s1 & Es) & _)|(_ & _ & Hss)].
  2:{ exfalso. destruct Hss as [(_ & Hx)|(Hx & _)]; eauto using pos_not_neg. }
  pose proof Es as Ef. apply (selected_feasible C (OF := OF)) in Ef as (k' & c' & [= <- <-] & Hk & Enk & _ & Hq); auto.
  assert (Hq' : exists q, sim c maxH = Ok (Fin q) /\ (val q < 0)%R).
  { destruct Hq as [Hq|(-> & q & q' & Hq & Hq0 & _)]; [auto|]. cbn in Enk. injection Enk as <-.
    rewrite Hvl in Hq. injection Hq as ->. exfalso. destruct Pl as (x & [= <-] & ?). lra. }
  clear Hq. destruct Hq' as (q & Hq & Hq0). unfold so in Hk, Enk; cbn [dom set_dom] in Hk, Enk.
  assert (Hk1 : 1 <= k).
  { destruct (Z.eq_dec k 0) as [->|]; [|lia]. cbn in Enk. injection Enk as <-. rewrite Hvu in Hq. injection Hq as ->.
    exfalso. destruct Pu as (x & [= <-] & ?). lra. }
  rewrite zlen_cons in Hk.
  replace (Z.to_nat k) with (S (Z.to_nat (k - 1))) in Enk by lia. cbn [nth_error] in Enk.
  apply Hin_l in Enk as (inner & Einner & Elast).
  pose proof (nth_error_In _ _ Einner) as Hin_inner.
  set (si := set_temps C [] (set_dom C inner s1)).
  assert (Hst_i : nth_error inner 0 = Some c00) by (unfold SearchSpec.starts_with in Hst; rewrite Forall_forall in Hst; auto).
  apply py_nth_last in Elast as (ai & Ei).
  destruct (search_outcome C build sim minH maxH mi si) as (c0 & cR & tl & tu & tm & (R1 & R2 & R3 & R4 & R5) & Ho); auto.
  { cbn. intros ->. discriminate. }
  unfold si in R1, R2; cbn [dom set_dom set_temps] in R1, R2. rewrite Hst_i in R1. injection R1 as <-.
  assert (cR = c).
  { rewrite Ei, zlen_app, zlen_cons, (@zlen_nil C) in R2. rewrite nth_error_app2 in R2 by (unfold zlen; lia).
    replace (Z.to_nat (zlen ai + (0 + 1) - 1) - length ai)%nat with O in R2 by (unfold zlen; lia). cbn in R2. congruence. }
  subst cR. rewrite Hvl in R3; injection R3 as <-. rewrite Hvu in R4; injection R4 as <-. rewrite Hq in R5; injection R5 as <-.
  destruct Ho as [((k2 & c2 & s2 & Es2) & _)|(_ & _ & Hss)].
  2:{ exfalso. assert (neg (Fin q)) by (exists q; auto). destruct Hss as [(_ & Hx)|(Hx & _)]; eauto using pos_not_neg. }
  pose proof Es2 as Ef. apply (selected_feasible C (OF := OF)) in Ef as (k' & c' & [= <- <-] & Hk2 & Enk2 & Hg & Hq2); auto.
  unfold si in Hk2, Enk2; cbn [dom set_dom set_temps] in Hk2, Enk2.
  assert (Hq2' : exists q, sim c2 maxH = Ok (Fin q) /\ (val q < 0)%R).
  { destruct Hq2 as [Hq2|(-> & x & x' & Hx & Hx0 & _)]; [auto|]. change (Z.to_nat 0) with O in Enk2. rewrite Hst_i in Enk2. injection Enk2 as <-.
    rewrite Hvl in Hx. injection Hx as ->. exfalso. destruct Pl as (y & [= <-] & ?). lra. }
  destruct Hq2' as (q2 & Hq2' & Hq20).
  exists s2, k, inner, k2, c2, q2. split.
  - unfold Search.search_2d, mbind, lift, modify. rewrite Eo. fold so. rewrite Es. cbn [need ret fst].
    rewrite (proj2 (py_nth_nonneg nested (k - 1) inner ltac:(lia)) Einner). fold si. rewrite Es2. reflexivity.
  - repeat split; auto; lia.
Qed.

(** the first field is enough: the nested search answers with it *)
Lemma opposite_not_same v w : opposite v w -> same_side v w -> False.
Proof. intros [(P & Ng)|(Ng & P)] [(P' & P'')|(N' & N'')]; eauto using pos_not_neg. Qed.

Lemma search_bracketed mi (s : sstate) c0 vl vu :
  temps C s = [] -> nth_error (dom C s) 0 = Some c0 -> well_behaved C build sim minH maxH (dom C s) ->
  sim c0 minH = Ok vl -> sim c0 maxH = Ok vu -> opposite vl vu ->
  exists s', search mi s = (Ok (Some (0, c0)), s') /\ ghe C s' = (c0, maxH).
Proof.
  intros Ht E0 Hw Hl Hu Ho. destruct (search_outcome C build sim minH maxH mi s) as (c0' & cR & tl & tu & tm & Hr & Hout); auto.
  { intros E. rewrite E in E0. discriminate. }
  destruct Hr as (R1 & R2 & R3 & R4 & R5). rewrite E0 in R1. injection R1 as <-.
  rewrite Hl in R3; injection R3 as <-. rewrite Hu in R4; injection R4 as <-.
  destruct Hout as [((k & c & s' & Es) & _)|(_ & Hs & _)]; [|exfalso; eauto using opposite_not_same].
  exists s'. pose proof Es as Es'. apply (search_ok C (OF := OF)) in Es as (_ & _ & _ & _ & c0' & cR' & tl & tu & tm' & (R1 & R2' & R3 & R4 & R5') & H); auto.
  rewrite E0 in R1. injection R1 as <-. rewrite Hl in R3; injection R3 as <-. rewrite Hu in R4; injection R4 as <-.
  destruct H as [(_ & E & Hg & _)|(Hs & _)]; [|exfalso; eauto using opposite_not_same]. injection E as -> ->. auto.
Qed.

Lemma search_2d_single nested mi (s : sstate) c00 vl vu :
  temps C s = [] -> starts_with c00 nested -> nested <> [] ->
  (forall d, In d nested -> well_behaved C build sim minH maxH d) ->
  sim c00 minH = Ok vl -> sim c00 maxH = Ok vu -> opposite vl vu ->
  exists s', search_2d nested mi s = (Ok (0, Some (0, c00)), s') /\ ghe C s' = (c00, maxH).
Proof.
  intros Ht Hst Hne Hw Hl Hu Ho.
  destruct (outer_total nested c00 Hst Hne) as (lasts & Eo & HF).
  assert (Hwo := outer_well_behaved nested c00 lasts Hst Hne HF Hw).
  destruct (search_bracketed mi (set_dom C (c00 :: lasts) s) c00 vl vu) as (s1 & Es & _); auto.
  destruct (rev nested) as [|dl xs] eqn:Er; apply (f_equal (@rev _)) in Er; rewrite rev_involutive in Er; cbn in Er.
  { congruence. }
  assert (El : py_nth nested (0 - 1) = Ok dl). { change (0 - 1) with (-1). apply py_nth_last. eauto. }
  assert (Hin : In dl nested) by (eapply py_nth_In; eauto).
  destruct (search_bracketed mi (set_temps C [] (set_dom C dl s1)) c00 vl vu) as (s2 & Es2 & Hg); auto.
  { change (nth_error dl 0 = Some c00). unfold SearchSpec.starts_with in Hst. rewrite Forall_forall in Hst. auto. }
  exists s2. split; auto.
  unfold Search.search_2d, mbind, lift, modify. rewrite Eo, Es. cbn [need ret fst]. rewrite El, Es2. reflexivity.
Qed.

(** ** successive searches *)
(** the temperatures kept for a visited domain are those of its own search *)
Definition good_temps (nested : list (list C)) (mi : Z) (vs : list visit) (tn : list (Z * list (Z * xval F))) : Prop :=
  Forall2 (fun v jt => fst jt = v_idx v /\ exists d s0 s1, nth_error nested (Z.to_nat (v_idx v)) = Some d
     /\ dom C s0 = d /\ temps C s0 = [] /\ search mi s0 = (Ok (Some (v_key v, v_field v)), s1) /\ snd jt = temps C s1) vs tn.

Lemma successive_loop_ok : forall fuel nested mi old i (s s' : sstate),
  successive_loop fuel nested mi old i s = (Ok tt, s') -> 0 <= i ->
  (forall k, In k (map fst (heights C s)) -> k < i) -> (forall k, In k (map fst (temps_nested C s)) -> k < i) ->
  exists vs tn,
    heights C s' = heights C s ++ map (fun v => (v_idx v, v_drill v)) vs
    /\ temps_nested C s' = temps_nested C s ++ tn
    /\ map v_idx vs = zrange i (i + zlen vs)
    /\ Forall (good_visit nested mi) vs
    /\ good_temps nested mi vs tn
    /\ descending old (map v_drill vs)
    /\ zlen vs <= Z.of_nat fuel
    /\ (zlen vs = Z.of_nat fuel \/ zlen nested <= i + zlen vs \/ rises_last old (map v_drill vs)
        \/ exists d, nth_error nested (Z.to_nat (i + zlen vs)) = Some d /\ one_d mi d (Err ValueError)).
Proof.
  induction fuel as [|fuel IH]; intros nested mi old i s s' H Hi Hh Ht.
  - injection H as <-. exists [], []. cbn. rewrite !app_nil_r. rewrite Z.add_0_r, zrange_nil by lia.
    repeat (split; [solve [auto|constructor|lia]|]). left; reflexivity.
  - cbn [Search.successive_loop] in H. destruct (Z.ltb_spec i (zlen nested)).
    2:{ injection H as <-. exists [], []. cbn [map]. rewrite !app_nil_r, (@zlen_nil visit), Z.add_0_r, zrange_nil by lia.
        repeat (split; [solve [auto|constructor|lia]|]). right; left; lia. }
    minva H d s0 E. injection E as E <-. apply py_nth_nonneg in E; [|lia].
    minva H u s0 E0. injection E0 as _ <-. clear u. minva H u s0 E0. injection E0 as _ <-. clear u.
    set (sa := set_temps C [] (set_dom C d s)) in *.
    destruct (search mi sa) as [[r|e] s1] eqn:Es.
    + pose proof Es as Es'. apply search_leaves in Es' as (k & c & -> & Hk & En & Hg & Hd1 & Htn1 & Hh1 & _); auto.
      minva H t s2 E2. injection E2 as <- <-. minva H tn0 s2 E2. injection E2 as <- <-.
      minva H u s2 E2. injection E2 as _ <-. clear u. minva H g s2 E2. injection E2 as <- <-.
      minva H HH s2 E2. cbn [ghe set_temps_nested] in E2. rewrite Hg in E2. injection E2 as EH <-. cbn [fst] in EH.
      minva H u s2 E2. injection E2 as _ <-. clear u. minva H kc s2 E2. injection E2 as <- <-.
      minva H hs s2 E2. injection E2 as <- <-. minva H u s2 E2. injection E2 as _ <-. clear u.
      cbn [snd] in H. set (tot := nmul (nofZ (nbh c)) HH) in *.
      set (s2 := set_heights _ _ _) in H.
      set (v := {| v_idx := i; v_key := k; v_field := c; v_drill := tot |}).
      assert (Eh2 : heights C s2 = heights C s ++ [(i, tot)]).
      { cbn. rewrite Hh1. cbn. apply dict_set_fresh. intros Hin. apply Hh in Hin. lia. }
      assert (Et2 : temps_nested C s2 = temps_nested C s ++ [(i, temps C s1)]).
      { cbn. rewrite Htn1. cbn. apply dict_set_fresh. intros Hin. apply Ht in Hin. lia. }
      assert (Hgv : good_visit nested mi v).
      { exists d, HH. repeat split; auto. eapply one_d_intro; [| |exact Es]; auto. }
      assert (Hgt : fst (i, temps C s1) = v_idx v /\ exists d s0 s3, nth_error nested (Z.to_nat (v_idx v)) = Some d
         /\ dom C s0 = d /\ temps C s0 = [] /\ search mi s0 = (Ok (Some (v_key v, v_field v)), s3) /\ snd (i, temps C s1) = temps C s3).
      { split; auto. exists d, sa, s1. repeat split; auto. }
      destruct (nlt old tot) eqn:Eq; revgoals.
      * apply IH in H as (vs & tn & G1 & G2 & G3 & G4 & G5 & G6 & G7 & G8); [|lia| |].
        2:{ rewrite Eh2, map_app. intros j Hj. apply in_app_iff in Hj as [Hj|[<-|[]]]; [apply Hh in Hj; lia|cbn; lia]. }
        2:{ rewrite Et2, map_app. intros j Hj. apply in_app_iff in Hj as [Hj|[<-|[]]]; [apply Ht in Hj; lia|cbn; lia]. }
        exists (v :: vs), ((i, temps C s1) :: tn). pose proof (zlen_nonneg vs). rewrite zlen_cons.
        replace (i + (zlen vs + 1)) with (i + 1 + zlen vs) by lia.
        split; [rewrite G1, Eh2, <- app_assoc; reflexivity|]. split; [rewrite G2, Et2, <- app_assoc; reflexivity|].
        split. { rewrite zrange_cons by lia. cbn [map]. f_equal. auto. }
        split; [constructor; auto|]. split; [constructor; auto|]. apply val_lt_false in Eq.
        split. { destruct vs as [|v2 vs]; [exact I|]. split; [exact Eq|]. exact G6. }
        split; [lia|]. destruct G8 as [G8|[G8|[G8|G8]]].
        -- left; lia.
        -- right; left; lia.
        -- right; right; left. cbn [map]. destruct (map v_drill vs) eqn:Em; [destruct G8|exact G8].
        -- right; right; right. exact G8.
      * injection H as <-. apply val_lt in Eq.
        exists [v], [(i, temps C s1)]. split; [exact Eh2|]. split; [exact Et2|].
        rewrite zlen_cons, (@zlen_nil visit). split; [rewrite zrange_cons, zrange_nil by lia; reflexivity|].
        split; [constructor; auto|]. split; [constructor; auto; constructor|]. split; [exact I|]. split; [lia|].
        right; right; left. exact Eq.
    + destruct e; try discriminate. injection H as <-.
      exists [], []. cbn [map]. rewrite !app_nil_r, (@zlen_nil visit), Z.add_0_r, zrange_nil by lia.
      assert (Hs1 : heights C s1 = heights C s /\ temps_nested C s1 = temps_nested C s).
      { destruct (keeps_search mi sa) as [K1 K2]. rewrite Es in K1, K2. auto. }
      destruct Hs1 as [Hs1 Hs2]. repeat (split; [solve [auto|constructor|lia]|]).
      right; right; right. exists d. split; auto. eapply one_d_intro; [| |exact Es]; auto.
Qed.

Lemma xle0_nonpos v : xle0 v = true <-> nonpos v.
Proof.
  destruct v as [q| |]; cbn; split; intros H; try discriminate; try (left; reflexivity).
  - right. exists q. split; auto. now apply val_le0.
  - destruct H as [?|(q' & [= <-] & H)]; [discriminate|]. now apply val_le0.
  - reflexivity.
  - destruct H as [?|(q' & ? & H)]; discriminate.
Qed.

Lemma select_key_nonpos t k : select_key t = Ok k -> exists v, In (k, v) t /\ nonpos v.
Proof.
  unfold select_key. intros H. apply bind_ok in H as (v0 & Hm & H).
  assert (Hv0 : xle0 v0 = true).
  { destruct (filter xle0 (map snd t)) as [|a l] eqn:E; [discriminate|]. injection Hm as <-.
    pose proof (pick_In (fun x y => xlt y x) l a) as Hin. rewrite <- E in Hin. now apply filter_In in Hin. }
  unfold key_of in H. destruct (find _ t) as [[k' v]|] eqn:Ef; [|discriminate]. injection H as <-.
  apply find_some in Ef as [Hin Hx]. cbn in Hx. exists v. split; auto. apply xle0_nonpos.
  destruct v as [q| |], v0 as [q0| |]; cbn in Hx |- *; try discriminate; auto.
  cbn in Hv0. apply val_le0 in Hv0. apply val_eq in Hx. apply val_le0. lra.
Qed.

Lemma pick_min l : forall a : F, let m := pick nlt a l in
  In m (a :: l) /\ forall x, In x (a :: l) -> (val m <= val x)%R.
Proof.
  induction l as [|b l IH]; intros a; cbv zeta; cbn [pick].
  - split; [now left|]. intros x [->|[]]. lra.
  - destruct (nlt b a) eqn:E.
    + apply val_lt in E. destruct (IH b) as [H1 H2]. split.
      * right. exact H1.
      * intros x [->|Hx]; [|apply H2; exact Hx].
        assert (val (pick nlt b l) <= val b)%R by (apply H2; now left). lra.
    + apply val_lt_false in E. destruct (IH a) as [H1 H2]. split.
      * destruct H1 as [H1|H1]; [now left|right; now right].
      * intros x [->|[->|Hx]]; [apply H2; now left| |apply H2; now right].
        assert (val (pick nlt a l) <= val a)%R by (apply H2; now left). lra.
Qed.

(** the first entry with the least value *)
Lemma least_entry (hs : list (Z * F)) m k : py_min (map snd hs) = Ok m -> key_of neqb hs m = Ok k ->
  exists h1 x h2, hs = h1 ++ (k, x) :: h2 /\ (forall k' y, In (k', y) hs -> (val x <= val y)%R) /\ (forall k' y, In (k', y) h1 -> (val x < val y)%R).
Proof.
  intros Hm Hk. destruct hs as [|[k0 x0] hs]; [discriminate|]. cbn [map snd py_min] in Hm. injection Hm as <-.
  destruct (pick_min (map snd hs) x0) as [H1 H2]. set (m := pick _ _ _) in *. clearbody m.
  assert (Hle : forall k' y, In (k', y) ((k0, x0) :: hs) -> (val m <= val y)%R).
  { intros k' y Hin. apply H2. change (In y (map snd ((k0, x0) :: hs))). apply in_map_iff. exists (k', y); auto. }
  clear H1 H2. revert Hk Hle. generalize ((k0, x0) :: hs) as l. unfold key_of. induction l as [|[k1 x1] l IH]; cbn [find]; [discriminate|].
  intros Hk Hle. cbn [snd] in Hk. destruct (neqb x1 m) eqn:E.
  - injection Hk as <-. apply val_eq in E. exists [], x1, l. split; auto. split.
    + intros k' y Hin. specialize (Hle k' y Hin). lra.
    + intros ? ? [].
  - destruct IH as (h1 & x & h2 & -> & G1 & G2); auto. { intros k' y Hin. apply (Hle k'). now right. }
    assert (Hx : (val m <= val x)%R). { apply (Hle k). right. apply in_app_iff. right. now left. }
    assert (Hxm : (val x = val m)%R).
    { destruct (find _ _) as [[kf xf]|] eqn:Ef in Hk; [|discriminate]. apply find_some in Ef as [Hin Hq]. cbn in Hq. apply val_eq in Hq.
      specialize (G1 kf xf Hin). lra. }
    assert (Hx1 : (val x < val x1)%R).
    { assert (val m <= val x1)%R by (apply (Hle k1); now left).
      destruct (Rle_lt_or_eq_dec _ _ H) as [H9|H9]; [lra|]. exfalso. assert (neqb x1 m = true) by (apply val_eq; lra). congruence. }
    exists ((k1, x1) :: h1), x, h2. split; auto. split.
    + intros k' y [[= <- <-]|Hin]; [lra|eauto].
    + intros k' y [[= <- <-]|Hin]; eauto.
Qed.

Lemma search_zd_ok nested mi (s s' : sstate) ko k c :
  search_zd nested mi s = (Ok (ko, k, c), s') -> temps C s = [] ->
  exists outer k0 co vs, let i0 := Z.max 0 (k0 - 1) in
    outer_domain C nested = Ok outer /\ one_d mi outer (Ok (Some (k0, co)))
    /\ heights C s' = map (fun v => (v_idx v, v_drill v)) vs
    /\ map v_idx vs = zrange i0 (i0 + zlen vs)
    /\ 1 <= zlen vs <= 7
    /\ Forall (good_visit nested mi) vs
    /\ descending (nofZ 99999) (map v_drill vs)
    /\ (zlen vs = 7 \/ zlen nested <= i0 + zlen vs \/ rises_last (nofZ 99999) (map v_drill vs)
        \/ exists d, nth_error nested (Z.to_nat (i0 + zlen vs)) = Some d /\ one_d mi d (Err ValueError))
    /\ exists v d, In v vs /\ v_idx v = ko
      /\ (forall w, In w vs -> (val (v_drill v) <= val (v_drill w))%R)
      /\ (forall w, In w vs -> v_idx w < ko -> (val (v_drill v) < val (v_drill w))%R)
      /\ nth_error nested (Z.to_nat ko) = Some d /\ 0 <= k < zlen d /\ nth_error d (Z.to_nat k) = Some c
      /\ (exists x, sim c maxH = Ok x /\ nonpos x)
      /\ (exists H, sized c = Ok H /\ ghe C s' = (c, H))
      /\ (k = v_key v /\ c = v_field v
          \/ exists c0 cR tl tu tm, reads d c0 cR tl tu tm /\ opposite tl tu /\ v_key v = 0 /\ v_field v = c0
                /\ select_key (first_temps (zlen d) tu tm) = Ok k).
Proof.
  intros H Ht. unfold Search.search_zd in H.
  minva H outer s0 E. injection E as Eo <-. minva H u s1 E1. injection E1 as _ <-. clear u.
  minva H u s1 E1. injection E1 as _ <-. clear u.
  minva H r s2 Es. pose proof Es as Es'. apply search_leaves in Es' as (k0 & co & -> & Hk0 & _ & _ & _ & Htn & _ & _); auto.
  minva H kc s3 En. injection En as <- <-. minva H u s3 E3. injection E3 as _ <-. clear u. cbn [fst] in H.
  replace (if 0 <? k0 then k0 - 1 else k0) with (Z.max 0 (k0 - 1)) in H by (destruct (Z.ltb_spec 0 k0); lia).
  set (i0 := Z.max 0 (k0 - 1)) in *.
  unfold Search.search_successive in H. minva H u sl El. destruct u.
  apply successive_loop_ok in El as (vs & tn & G1 & G2 & G3 & G4 & G5 & G6 & G7 & G8); [|lia| |].
  2:{ cbn. intros ? []. }
  2:{ cbn. rewrite Htn. cbn. intros ? []. }
  cbn in G1, G2. rewrite Htn in G2. cbn in G2.
  minva H hs s4 E4. injection E4 as <- <-. minva H m s4 E4. injection E4 as Em <-. minva H ko' s4 E4. injection E4 as Ek <-.
  minva H tn' s4 E4. injection E4 as <- <-. minva H t s4 E4. injection E4 as Et <-. minva H u s4 E4. injection E4 as _ <-. clear u.
  minva H k' s4 E4. injection E4 as Esel <-. minva H d s4 E4. injection E4 as Ed <-. minva H c' s4 E4. injection E4 as Ec <-.
  minva H u s4 E4. apply initialize_ghe_ok in E4 as (_ & ->). clear u. minva H HH s4 E4. injection E4 as EH <-.
  minva H u s4 E4. injection E4 as _ <-. clear u. injection H as -> -> -> <-.
  destruct (least_entry _ _ _ Em Ek) as (h1 & x & h2 & Eh & Hmin & Hfst). rewrite G1 in Eh, Hmin.
  assert (Hin : In (ko, x) (map (fun v => (v_idx v, v_drill v)) vs)) by (rewrite Eh; apply in_app_iff; right; now left).
  apply in_map_iff in Hin as (v & [= Hv1 Hv2] & Hin).
  assert (Hvs : 1 <= zlen vs). { destruct vs; [destruct Hin|]. rewrite zlen_cons. pose proof (zlen_nonneg vs). lia. }
  exists outer, k0, co, vs. cbv zeta. fold i0. split; auto. split; [eapply one_d_intro; [| |exact Es]; auto|].
  split; [exact G1|]. split; auto. split; [split; auto; lia|]. split; auto. split; auto. split; auto.
  (* the temperatures kept for ko *)
  assert (HndI : NoDup (map v_idx vs)) by (rewrite G3; apply NoDup_zrange).
  rewrite G2 in Et.
  assert (Hkept : exists d' s0 s1, nth_error nested (Z.to_nat ko) = Some d' /\ dom C s0 = d' /\ temps C s0 = []
     /\ search mi s0 = (Ok (Some (v_key v, v_field v)), s1) /\ t = temps C s1).
  { clear - G5 Et HndI Hin Hv1. revert Et HndI Hin. unfold good_temps in G5. induction G5 as [|w [j tt] vs tn (Hj & Hw) HF IH]; intros Et Hnd Hin; [destruct Hin|].
    cbn [fst snd] in *. cbn [map] in Hnd. inversion Hnd as [|? ? Hni Hnd']; subst. cbn [dict_get] in Et.
    destruct Hin as [<-|Hin].
    - rewrite Z.eqb_refl in Et. injection Et as ->. exact Hw.
    - destruct (Z.eqb_spec (v_idx v) (v_idx w)) as [e|].
      + exfalso. apply Hni. rewrite <- e. now apply in_map.
      + auto. }
  destruct Hkept as (d' & sa & sb & Ed' & Hda & Hta & Ess & ->).
  assert (Hko : 0 <= ko). { assert (Hz : In ko (map v_idx vs)) by (rewrite <- Hv1; now apply in_map). rewrite G3 in Hz. apply in_zrange in Hz. lia. }
  apply py_nth_nonneg in Ed; [|lia]. rewrite Ed' in Ed. injection Ed as ->.
  pose proof Ess as Ess'. apply search_leaves in Ess' as (kk & cc & [= <- <-] & Hkk & Enk & _ & _ & _ & _ & Hrec & Hsel); auto.
  rewrite Hda in *.
  destruct (select_key_nonpos _ _ Esel) as (vx & Hinx & Hnp). destruct (Hrec _ _ Hinx) as (Hkr & cx & Ecx & Hsx).
  apply py_nth_nonneg in Ec; [|lia]. rewrite Ecx in Ec. injection Ec as ->.
  exists v, d. split; auto. split; auto. split.
  { intros w Hw. rewrite Hv2. apply (Hmin (v_idx w)). apply in_map_iff. exists w; auto. }
  split.
  { intros w Hw Hlt. rewrite Hv2. apply (Hfst (v_idx w)).
    assert (Hw2 : In (v_idx w, v_drill w) (h1 ++ (ko, x) :: h2)) by (rewrite <- Eh; apply in_map_iff; exists w; auto).
    apply in_app_iff in Hw2 as [?|[[= ? ?]|Hw2]]; [auto|lia|]. exfalso.
    assert (HI : map v_idx vs = map fst h1 ++ ko :: map fst h2).
    { replace (map v_idx vs) with (map fst (map (fun v => (v_idx v, v_drill v)) vs)) by (rewrite map_map; reflexivity).
      rewrite Eh, map_app. reflexivity. }
    rewrite G3 in HI.
    assert (Hss := strictly_sorted_split i0 (i0 + zlen vs) _ _ _ HI (v_idx w) ltac:(apply in_map_iff; exists (v_idx w, v_drill w); auto)). lia. }
  split; auto. split; auto. split; auto. split; [eauto|]. split; [exists HH; auto|].
  destruct Hsel as [Hsel|(c0 & cR & tl & tu & tm & Hr & Hopp & Hk & Hc & Htt)].
  - left. rewrite Esel in Hsel. injection Hsel as ->. split; auto. congruence.
  - right. exists c0, cR, tl, tu, tm. repeat split; try apply Hr; auto. congruence.
Qed.

(** when the largest field of the domain is at least as good as the first, the re-selection is the field that was sized *)
Lemma select_first_temps n tu tm : neg tu -> (n = 1 -> tm = tu) ->
  (pos tm \/ exists a b, tu = Fin a /\ tm = Fin b /\ (val b <= val a)%R) -> select_key (first_temps n tu tm) = Ok 0.
Proof.
  intros (a & -> & Ha) Hn1 Htm. unfold first_temps. destruct (Z.eqb_spec n 1) as [e|ne].
  - rewrite (Hn1 e). unfold select_key. cbn. rewrite (proj2 (val_le0 a)) by lra. cbn. unfold key_of. cbn.
    rewrite (proj2 (val_eq a a)) by reflexivity. reflexivity.
  - unfold select_key. cbn [map snd filter xle0]. rewrite (proj2 (val_le0 a)) by lra.
    destruct Htm as [(b & -> & Hb)|(a' & b & [= <-] & -> & Hb)]; cbn [xle0].
    + rewrite (proj2 (val_le0_false b)) by lra. cbn. unfold key_of. cbn. rewrite (proj2 (val_eq a a)) by reflexivity. reflexivity.
    + rewrite (proj2 (val_le0 b)) by lra. cbn [py_max pick]. replace (xlt (Fin a) (Fin b)) with false.
      2:{ symmetry. cbn. apply val_lt_false. lra. }
      cbn. unfold key_of. cbn. rewrite (proj2 (val_eq a a)) by reflexivity. reflexivity.
Qed.

Lemma rises_last_split old l : rises_last old l ->
  (exists x, l = [x] /\ (val old < val x)%R) \/ exists l' a b, l = l' ++ [a; b] /\ (val a < val b)%R.
Proof.
  revert old. induction l as [|x l IH]; intros old H; [destruct H|]. destruct l as [|y l]; [left; eauto|].
  right. destruct (IH x H) as [(z & [= -> ->] & Hz)|(l' & a & b & -> & Hab)].
  - exists [], x, z. auto.
  - exists (x :: l'), a, b. auto.
Qed.

Lemma zd_keeps_going nested mi (s s' : sstate) ko k c :
  search_zd nested mi s = (Ok (ko, k, c), s') -> temps C s = [] ->
  Forall (fun kt => (val (snd kt) <= 99999)%R) (heights C s') ->
  zlen (heights C s') = 7
  \/ (exists j, In j (map fst (heights C s')) /\ j = zlen nested - 1)
  \/ (exists h a b j, heights C s' = h ++ [(j, a); (j + 1, b)] /\ (val a < val b)%R)
  \/ (exists d j, In j (map fst (heights C s')) /\ nth_error nested (Z.to_nat (j + 1)) = Some d /\ one_d mi d (Err ValueError)).
Proof.
  intros H Ht HF. apply search_zd_ok in H as (outer & k0 & co & vs & H); auto. cbv zeta in H.
  destruct H as (_ & _ & Eh & Ei & Hn & Hg & _ & Hstop & _). set (i0 := Z.max 0 (k0 - 1)) in *.
  rewrite Eh in *.
  assert (Ek : map fst (map (fun v : visit => (v_idx v, v_drill v)) vs) = zrange i0 (i0 + zlen vs)) by (rewrite map_map; exact Ei).
  assert (Hlast : In (i0 + zlen vs - 1) (map v_idx vs)) by (rewrite Ei; apply in_zrange; lia).
  rewrite Ek. destruct Hstop as [Hs|[Hs|[Hs|(d & Hd & Ho)]]].
  - left. unfold zlen in *. now rewrite map_length.
  - right; left. exists (i0 + zlen vs - 1). split; [apply in_zrange; lia|].
    apply in_map_iff in Hlast as (v & Ev & Hin). rewrite Forall_forall in Hg. destruct (Hg v Hin) as (d & HH & Hd & _).
    rewrite Ev in Hd. assert (Z.to_nat (i0 + zlen vs - 1) < length nested)%nat by (apply nth_error_Some; congruence).
    unfold zlen in *. lia.
  - right; right; left. apply rises_last_split in Hs as [(x & Ex & Hx)|(l' & a & b & El & Hab)].
    + exfalso. destruct vs as [|v [|? ?]]; try discriminate. injection Ex as Ex. inversion HF as [|? ? Hv _]; subst. cbn [snd] in Hv. rewrite val_99999 in Hx. lra.
    + apply map_eq_app in El as (vs1 & vs2 & -> & _ & E2).
      destruct vs2 as [|v1 [|v2 [|? ?]]]; try discriminate. injection E2 as <- <-.
      rewrite map_app in Ei. cbn [map] in Ei. symmetry in Ei. apply zrange_next in Ei.
      exists (map (fun v : visit => (v_idx v, v_drill v)) vs1), (v_drill v1), (v_drill v2), (v_idx v1). split; auto.
      rewrite map_app. cbn [map]. now rewrite Ei.
  - right; right; right. exists d, (i0 + zlen vs - 1). split; [apply in_zrange; lia|]. replace (i0 + zlen vs - 1 + 1) with (i0 + zlen vs) by lia. auto.
Qed.

Lemma zd_reports_sized nested mi (s s' : sstate) ko k c :
  search_zd nested mi s = (Ok (ko, k, c), s') -> temps C s = [] ->
  (forall d c0 cR tl tu tm, In d nested -> reads d c0 cR tl tu tm ->
     (neg tl -> pos tu -> False) /\ (exists a b, tu = Fin a /\ tm = Fin b /\ (val b <= val a)%R)) ->
  exists d total H, nth_error nested (Z.to_nat ko) = Some d /\ one_d mi d (Ok (Some (k, c)))
    /\ sized c = Ok H /\ total = nmul (nofZ (nbh c)) H /\ In (ko, total) (heights C s')
    /\ (forall j t, In (j, t) (heights C s') -> (val total <= val t)%R)
    /\ ghe C s' = (c, H) /\ exists x, sim c maxH = Ok x /\ nonpos x.
Proof.
  intros H Ht Hh. apply search_zd_ok in H as (outer & k0 & co & vs & H); auto. cbv zeta in H.
  destruct H as (_ & _ & Eh & _ & _ & Hg & _ & _ & v & d & Hin & Ev & Hmin & _ & Ed & Hk & Ec & Hx & (HH & EH & Egh) & Hsel).
  rewrite Forall_forall in Hg. destruct (Hg v Hin) as (d' & H' & Ed' & Ho & Es & Etot). rewrite Ev, Ed in Ed'. injection Ed' as <-.
  assert (Hkc : k = v_key v /\ c = v_field v).
  { destruct Hsel as [?|(c0 & cR & tl & tu & tm & Hr & Hopp & Hk0 & Hc0 & Hsel)]; [auto|].
    destruct (Hh d c0 cR tl tu tm (nth_error_In _ _ Ed) Hr) as (Hn & Hle).
    assert (Nu : neg tu) by (destruct Hopp as [(_ & ?)|(H1 & H2)]; [auto|exfalso; eauto]).
    destruct Hr as (R1 & R2 & R3 & R4 & R5).
    rewrite select_first_temps in Hsel; auto.
    - injection Hsel as <-. split; auto. rewrite Hc0. change (Z.to_nat 0) with O in Ec. congruence.
    - intros e. rewrite e in R2. change (Z.to_nat (1 - 1)) with O in R2. congruence. }
  destruct Hkc as [-> ->]. rewrite EH in Es. injection Es as <-.
  exists d, (v_drill v), HH. split; [exact Ed|]. split; [exact Ho|]. split; [exact EH|]. split; [exact Etot|]. split.
  { rewrite Eh. apply in_map_iff. exists v. now rewrite Ev. }
  split; [|auto]. intros j t Hj. rewrite Eh in Hj. apply in_map_iff in Hj as (w & [= <- <-] & Hw). auto.
Qed.

End Nested.
