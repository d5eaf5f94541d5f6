(** Lemmas about Session.v: what a statement changes, and that a search does not depend on the height it starts with *)
From Coq Require Import ZArith List Bool Reals Lra Lia.
From Verif Require Import Base Num BaseLemmas Utilities Search SearchProofs Loads Ghe GFun Bhe Equiv Radial Export System Design Program Session.
Import ListNotations.
Open Scope R_scope.

(** ** replace and assign *)
Lemma replace_length {A} (l : list A) : forall k v, length (replace l k v) = length l.
Proof. induction l as [|x l IH]; intros [|k] v; cbn; auto. Qed.
Lemma replace_same {A} (l : list A) : forall k v, (k < length l)%nat -> nth_error (replace l k v) k = Some v.
Proof. induction l as [|x l IH]; intros [|k] v H; cbn in *; try lia; [reflexivity|]. apply IH. lia. Qed.
Lemma replace_other {A} (l : list A) : forall k v j, j <> k -> nth_error (replace l k v) j = nth_error l j.
Proof. induction l as [|x l IH]; intros [|k] v [|j] H; cbn; try reflexivity; try lia. apply IH. lia. Qed.
Lemma assign_same d a v : assign d a v a = v.
Proof. unfold assign. now rewrite Nat.eqb_refl. Qed.
Lemma assign_other d a v b : b <> a -> assign d a v b = d b.
Proof. intro H. unfold assign. destruct (Nat.eqb_spec b a); congruence. Qed.

(** ** the search does not depend on the height of the exchanger it starts with *)
Section Start.
Context {C V : Type} {NV : Num V}.
Variable build : C -> V -> res unit.
Variable sim : C -> V -> res (xval V).
Variable sized : C -> res V.
Variable nbh : C -> Z.
Variable minH maxH : V.
Notation state := (sstate C (F := V)).
Definition alike (s s' : state) : Prop := forall g, set_ghe C g s = set_ghe C g s'.
Definition same_run {A} (x y : res A * state) : Prop := fst x = fst y /\ forall a, fst x = Ok a -> snd x = snd y.
Lemma same_refl {A} (x : res A * state) : same_run x x.
Proof. split; reflexivity. Qed.
Definition steady {A} (m : M C A) : Prop := forall s s', alike s s' -> fst (m s) = fst (m s') /\ alike (snd (m s)) (snd (m s')).
Definition settles {A} (m : M C A) : Prop := forall s s', alike s s' -> same_run (m s) (m s').
Lemma settles_steady {A B} (m : M C A) (k : A -> M C B) : steady m -> (forall a, settles (k a)) -> settles (mbind C m k).
Proof.
  intros Hm Hk s s' H. unfold mbind. destruct (Hm s s' H) as (E & H'). destruct (m s) as (r, t), (m s') as (r', t'). cbn [fst snd] in *. subst r'.
  destruct r as [a|e]; [exact (Hk a t t' H')|]. split; [reflexivity|]. intros a [=].
Qed.
Lemma settles_first {A B} (m : M C A) (k : A -> M C B) : settles m -> settles (mbind C m k).
Proof.
  intros Hm s s' H. unfold mbind. destruct (Hm s s' H) as (E & H'). destruct (m s) as (r, t), (m s') as (r', t'). cbn [fst snd] in *. subst r'.
  destruct r as [a|e]; [rewrite (H' a eq_refl); apply same_refl|]. split; [reflexivity|]. intros a [=].
Qed.
Lemma steady_lift {A} (r : res A) : steady (lift C r).
Proof. intros s s' H. split; [reflexivity|exact H]. Qed.
Lemma steady_dom : steady (get C (dom C)).
Proof. intros s s' H. split; [|exact H]. cbn. f_equal. exact (f_equal (dom C) (H (Search.ghe C s))). Qed.
Lemma steady_modify f : (forall s s', alike s s' -> alike (f s) (f s')) -> steady (modify C f).
Proof. intros Hf s s' H. split; [reflexivity|]. now apply Hf. Qed.
Lemma alike_fields s s' : alike s s' <-> dom C s = dom C s' /\ temps C s = temps C s' /\ trace C s = trace C s' /\ temps_nested C s = temps_nested C s' /\ heights C s = heights C s'.
Proof.
  split.
  - intro H. specialize (H (Search.ghe C s)). repeat split; [exact (f_equal (dom C) H)|exact (f_equal (temps C) H)|exact (f_equal (trace C) H)|exact (f_equal (temps_nested C) H)|exact (f_equal (heights C) H)].
  - intros (A1 & A2 & A3 & A4 & A5) g. unfold set_ghe. now rewrite A1, A2, A3, A4, A5.
Qed.
Lemma initialize_settles c H : settles (Search.initialize_ghe C build c H).
Proof.
  intros s s' A. unfold Search.initialize_ghe, mbind, lift, modify. destruct (build c H); [|split; [reflexivity|intros a [=]]].
  rewrite (A (c, H)). apply same_refl.
Qed.
Lemma calculate_settles c H : settles (Search.calculate_excess C build sim c H).
Proof.
  unfold Search.calculate_excess. apply settles_steady.
  - apply steady_modify. intros s s' A. rewrite alike_fields in *. destruct A as (A1 & A2 & A3 & A4 & A5). cbn. rewrite A3. auto.
  - intros _. apply settles_first. apply initialize_settles.
Qed.
Lemma search_settles n : settles (search C build sim minH maxH n).
Proof.
  unfold search. apply settles_steady; [apply steady_dom|intro d]. cbv zeta. apply settles_steady; [apply steady_lift|intros _].
  apply settles_steady; [apply steady_lift|intro c0]. apply settles_first. apply calculate_settles.
Qed.
Lemma set_dom_steady d : steady (modify C (set_dom C d)).
Proof. apply steady_modify. intros s s' A. rewrite alike_fields in *. destruct A as (A1 & A2 & A3 & A4 & A5). cbn. auto. Qed.
Lemma set_nested_steady d : steady (modify C (set_temps_nested C d)).
Proof. apply steady_modify. intros s s' A. rewrite alike_fields in *. destruct A as (A1 & A2 & A3 & A4 & A5). cbn. auto. Qed.
Lemma search_2d_settles nested n : settles (search_2d C build sim minH maxH nested n).
Proof.
  unfold search_2d. apply settles_steady; [apply steady_lift|intro outer]. apply settles_steady; [apply set_dom_steady|intros _].
  apply settles_first. apply search_settles.
Qed.
Lemma search_zd_settles nested n : settles (search_zd C build sim sized nbh minH maxH nested n).
Proof.
  unfold search_zd. apply settles_steady; [apply steady_lift|intro outer]. apply settles_steady; [apply set_dom_steady|intros _].
  apply settles_steady; [apply set_nested_steady|intros _]. apply settles_first. apply search_settles.
Qed.
End Start.

(** ** the first candidate of a design: Bisection1D.__init__ builds it at the height of the given borehole *)
Definition first_candidate {F} (cs : @candidates F) : option (list (F * F)) :=
  match cs with
  | one_domain (c :: _) => Some c
  | nested_domain ((c :: _) :: _) => Some c
  | _ => None
  end.
Lemma search_built {C V} {NV : Num V} (build : C -> V -> res unit) sim minH maxH n s r s' : search C build sim minH maxH n s = (Ok r, s') ->
  exists c0, py_nth (dom C s) 0 = Ok c0 /\ build c0 maxH = Ok tt.
Proof.
  intro E. unfold search in E. apply mbind_ok in E as (d & s1 & E1 & E). unfold get in E1. injection E1 as <- <-.
  apply mbind_ok in E as (cR & s1 & E1 & E). unfold lift in E1. injection E1 as _ <-.
  apply mbind_ok in E as (c0 & s1 & E1 & E). unfold lift in E1. injection E1 as E1 <-. exists c0. split; [exact E1|].
  apply mbind_ok in E as (tl & s1 & E2 & E). apply mbind_ok in E as (tu & s2 & E3 & _). apply calculate_excess_ok in E3 as ((u & Eu) & _). now destruct u.
Qed.
Section Again.
Context {F : Type} {N : Num F} {V : Type} {NV : Num V}.
Variable build : list (F * F) -> V -> res unit.
Variable sim : list (F * F) -> V -> res (xval V).
Variable sized : list (F * F) -> res V.
Variable minH maxH : V.
Lemma base_alike d c H H' s : build c H = Ok tt -> build c H' = Ok tt -> py_nth d 0 = Ok c -> base_init build d H = Ok s ->
  exists s', base_init build d H' = Ok s' /\ alike s s'.
Proof.
  intros E E' Ed. unfold base_init. rewrite Ed. cbn [bind]. rewrite E, E'. cbn [bind]. intros [= <-]. eexists. split; [reflexivity|]. intro g. reflexivity.
Qed.
Lemma base_both d H H' : (forall c, py_nth d 0 = Ok c -> build c H = Ok tt /\ build c H' = Ok tt) ->
  (exists e, base_init build d H = Err e /\ base_init build d H' = Err e) \/
  exists s s', base_init build d H = Ok s /\ base_init build d H' = Ok s' /\ alike s s'.
Proof.
  intro Hc. unfold base_init. destruct (py_nth d 0) as [c|e]; [right|left; exists e; split; reflexivity].
  destruct (Hc c eq_refl) as (E & E'). cbn [bind]. rewrite E, E'. cbn [bind]. do 2 eexists. split; [reflexivity|]. split; [reflexivity|]. intro g. reflexivity.
Qed.
Lemma finish_same {A B} (x y : res A * sstate (list (F * F)) (F := V)) (k : A -> sstate (list (F * F)) (F := V) -> B) : same_run x y ->
  (let (r, s') := x in let! a := r in Ok (k a s')) = (let (r, s') := y in let! a := r in Ok (k a s')).
Proof.
  destruct x as (r, s), y as (r', s'). intros (E & S). cbn [fst snd] in *. subst r'. destruct r as [a|e]; [|reflexivity]. cbn [bind]. now rewrite (S a eq_refl).
Qed.
Lemma find_design_start r cs H H' : (forall c, first_candidate cs = Some c -> build c H = Ok tt /\ build c H' = Ok tt) ->
  find_design build sim sized minH maxH r cs H = find_design build sim sized minH maxH r cs H'.
Proof.
  intro Hc.
  assert (Hd : forall d, cs = one_domain d -> forall c, py_nth d 0 = Ok c -> build c H = Ok tt /\ build c H' = Ok tt).
  { intros d -> c E. destruct d as [|c' d]; [discriminate E|]. assert (c' = c) as -> by (cbn in E; congruence). now apply Hc. }
  assert (Hn : forall dd, cs = nested_domain dd -> forall d, py_nth dd 0 = Ok d -> forall c, py_nth d 0 = Ok c -> build c H = Ok tt /\ build c H' = Ok tt).
  { intros dd -> d Ed c E. destruct dd as [|d' dd]; [discriminate Ed|]. assert (d' = d) as -> by (cbn in Ed; congruence). destruct d as [|c' d]; [discriminate E|].
    assert (c' = c) as -> by (cbn in E; congruence). now apply Hc. }
  assert (One : forall d, cs = one_domain d -> bisection_1d build sim minH maxH d H = bisection_1d build sim minH maxH d H').
  { intros d E. unfold bisection_1d. destruct (base_both d H H' (Hd d E)) as [(e & -> & ->)|(s & s' & -> & -> & A)]; [reflexivity|]. cbn [bind].
    apply (finish_same _ _ (fun a s => (a, s))). now apply search_settles. }
  destruct r, cs as [d|dd]; cbn [find_design]; try reflexivity; try (now apply One).
  - unfold bisection_2d. destruct (py_nth dd 0) as [d|e] eqn:Ed; [|reflexivity]. cbn [bind].
    destruct (base_both d H H' (Hn dd eq_refl d Ed)) as [(e & -> & ->)|(s & s' & -> & -> & A)]; [reflexivity|]. cbn [bind].
    apply (finish_same _ _ (fun a s => (snd a, s))). now apply search_2d_settles.
  - unfold bisection_zd. destruct (py_nth dd 0) as [d|e] eqn:Ed; [|reflexivity]. cbn [bind].
    destruct (base_both d H H' (Hn dd eq_refl d Ed)) as [(e & -> & ->)|(s & s' & -> & -> & A)]; [reflexivity|]. cbn [bind].
    assert (X := search_zd_settles build sim sized zlen minH maxH dd 15 s s' A).
    destruct (search_zd _ _ _ _ _ _ _ _ _ s) as (r1, t1), (search_zd _ _ _ _ _ _ _ _ _ s') as (r2, t2). destruct X as (E & S). cbn [fst snd] in *. subst r2.
    destruct r1 as [((j, k), c)|e]; [|reflexivity]. cbn [bind]. now rewrite (S _ eq_refl).
Qed.
(** a search that succeeded has built the first candidate at the height it was given and at the maximum height *)
Lemma find_design_built r cs H f : find_design build sim sized minH maxH r cs H = Ok f ->
  exists c, first_candidate cs = Some c /\ build c H = Ok tt /\ build c maxH = Ok tt.
Proof.
  assert (Base : forall d s, base_init build d H = Ok s -> exists c d', d = c :: d' /\ build c H = Ok tt /\ dom _ s = d).
  { intros d s E. unfold base_init in E. apply bind_ok in E as (c & Ec & E). apply bind_ok in E as (u & Eu & E). destruct d as [|c' d]; [discriminate Ec|].
    assert (c' = c) as -> by (cbn in Ec; congruence). exists c, d. split; [reflexivity|]. split; [now destruct u|]. now injection E as <-. }
  assert (One : forall d, bisection_1d build sim minH maxH d H = Ok f -> exists c, first_candidate (one_domain d) = Some c /\ build c H = Ok tt /\ build c maxH = Ok tt).
  { intros d E. unfold bisection_1d in E. apply bind_ok in E as (s & Es & E). destruct (search _ _ _ _ _ 15 s) as (r', s') eqn:E'. apply bind_ok in E as (r0 & -> & _).
    destruct (Base d s Es) as (c & d' & -> & B & Ed). exists c. split; [reflexivity|]. split; [exact B|]. apply search_built in E' as (c0 & E0 & B0). rewrite Ed in E0. cbn in E0. congruence. }
  destruct r, cs as [d|dd]; cbn [find_design]; try discriminate; try (apply One).
  - intro E. unfold bisection_2d in E. apply bind_ok in E as (d & Ed & E). apply bind_ok in E as (s & Es & E).
    destruct (search_2d _ _ _ _ _ dd 15 s) as (r', s') eqn:E'. apply bind_ok in E as (r0 & -> & _).
    destruct (Base d s Es) as (c & d' & -> & B & _). exists c. destruct dd as [|x dd]; [discriminate Ed|]. assert (x = c :: d') as -> by (cbn in Ed; congruence).
    split; [reflexivity|]. split; [exact B|]. unfold search_2d in E'. apply mbind_ok in E' as (outer & s1 & E1 & E'). unfold lift in E1. injection E1 as E1 <-.
    apply mbind_ok in E' as (u & s1 & E2 & E'). unfold modify in E2. injection E2 as _ <-. apply mbind_ok in E' as (k & s1 & E3 & _). apply search_built in E3 as (c0 & E0 & B0).
    cbn [dom set_dom] in E0. unfold outer_domain in E1. cbn [py_nth] in E1. apply bind_ok in E1 as (d0 & D0 & E1). apply bind_ok in E1 as (c00 & D1 & E1).
    assert (d0 = c :: d') as -> by (cbn in D0; congruence). assert (c00 = c) as -> by (cbn in D1; congruence). apply bind_ok in E1 as (l & _ & E1). assert (outer = c :: l) as -> by congruence. cbn in E0. congruence.
  - intro E. unfold bisection_zd in E. apply bind_ok in E as (d & Ed & E). apply bind_ok in E as (s & Es & E).
    destruct (search_zd _ _ _ _ _ _ _ dd 15 s) as (r', s') eqn:E'. apply bind_ok in E as (r0 & -> & _).
    destruct (Base d s Es) as (c & d' & -> & B & _). exists c. destruct dd as [|x dd]; [discriminate Ed|]. assert (x = c :: d') as -> by (cbn in Ed; congruence).
    split; [reflexivity|]. split; [exact B|]. unfold search_zd in E'. apply mbind_ok in E' as (outer & s1 & E1 & E'). unfold lift in E1. injection E1 as E1 <-.
    apply mbind_ok in E' as (u & s1 & E2 & E'). unfold modify in E2. injection E2 as _ <-.
    apply mbind_ok in E' as (u' & s1 & E2 & E'). unfold modify in E2. injection E2 as _ <-. apply mbind_ok in E' as (k & s1 & E3 & _). apply search_built in E3 as (c0 & E0 & B0).
    cbn [dom set_dom set_temps_nested] in E0. unfold outer_domain in E1. apply bind_ok in E1 as (d0 & D0 & E1). apply bind_ok in E1 as (c00 & D1 & E1).
    assert (d0 = c :: d') as -> by (cbn in D0; congruence). assert (c00 = c) as -> by (cbn in D1; congruence). apply bind_ok in E1 as (l & _ & E1). assert (outer = c :: l) as -> by congruence. cbn in E0. congruence.
Qed.
End Again.

(** ** heights of GHE objects *)
Lemma with_H_twice s h h' : with_H (with_H s h) h' = with_H s h'.
Proof. reflexivity. Qed.
Lemma with_H_self s : with_H s (gh_H s) = s.
Proof. now destruct s. Qed.
