(** Properties C70, C85-C88: choosing a design, from the geometric constraints to the selected field, for every heat exchanger
    construction, simulation and sizing (the oracles build, sim, sized) *)
From Coq Require Import ZArith QArith List Bool Reals Lia Lra Lqa Sorted.
From Coq Require Import Lra.
From Verif Require Import Base BaseLemmas Num Order Spec Utilities UtilitiesProofs Domains DomainsProofs Search SearchSpec SearchProofs SearchTheorems SearchNested
  Design DesignProofs Properties_Domains Properties_Search.
Import ListNotations.
Open Scope R_scope.

(** ** C70 *)
(** what each routine needs; the check of an unknown routine is that of the nested ones *)
Definition required {F} (r : routine) : list (@constraints F -> option F) :=
  match r with
  | near_square => [gc_length; gc_B]
  | rectangle_routine => [gc_length; gc_width; gc_B_min; gc_B_max_x]
  | _ => [gc_length; gc_width; gc_B_min; gc_B_max_x; gc_B_max_y]
  end.

Theorem C70_missing_input :
  forall F (N : Num F) (gc : @constraints F) r p, In p (required r) -> p gc = None ->
  design_init gc r = Err AssertionError.
Proof.
  intros F N gc r p Hp Hn. destruct gc as [l w b mn mx my].
  assert (E : check_inputs {| gc_length := l; gc_width := w; gc_B := b; gc_B_min := mn; gc_B_max_x := mx; gc_B_max_y := my |} r = Err AssertionError).
  { unfold check_inputs, not_none. cbn [gc_length gc_width gc_B gc_B_min gc_B_max_x gc_B_max_y].
    destruct r; cbn [required In] in Hp; decompose [or] Hp; subst; cbn in Hn; try contradiction; subst;
      repeat match goal with o : option F |- _ => destruct o end; reflexivity. }
  unfold design_init. rewrite E. reflexivity.
Qed.

(** with everything given, the candidates are exactly those of the domain functions; an unknown routine raises ValueError *)
Theorem C70_dispatch :
  forall F (N : Num F) (l w b mn mx my : F),
  let gc b' mx' := {| gc_length := Some l; gc_width := Some w; gc_B := b'; gc_B_min := Some mn; gc_B_max_x := Some mx; gc_B_max_y := mx' |} in
  (forall w' mn' mx' my',
     design_init {| gc_length := Some l; gc_width := w'; gc_B := Some b; gc_B_min := mn'; gc_B_max_x := mx'; gc_B_max_y := my' |} near_square
     = let! n := number_of_boreholes l b false in let! d := square_and_near_square 1 n b in Ok (one_domain d)) /\
  (forall b' my', design_init (gc b' my') rectangle_routine = let! d := rectangular l w mn mx in Ok (one_domain d)) /\
  (forall b', design_init (gc b' (Some my)) bi_rectangle = let! dd := bi_rectangle_nested l w mn mx my in Ok (nested_domain dd)) /\
  (forall b', design_init (gc b' (Some my)) bi_zoned = let! dd := bi_rectangle_zoned_nested l w mn mx my in Ok (nested_domain dd)) /\
  (forall b', design_init (gc b' (Some my)) unknown_routine = Err ValueError).
Proof. intros. repeat split; reflexivity. Qed.

(** an unknown routine is not always answered by ValueError: media.py:33 tests a non-empty text, so it is first asked for the
    inputs of the nested routines *)
Theorem C70_unknown_routine_refuted :
  exists gc : @constraints Q, gc_length gc = Some 100%Q /\ gc_B gc = Some 5%Q /\ design_init gc unknown_routine = Err AssertionError.
Proof. exists {| gc_length := Some 100%Q; gc_width := None; gc_B := Some 5%Q; gc_B_min := None; gc_B_max_x := None; gc_B_max_y := None |}. repeat split. Qed.
(** but it never gets as far as a search *)
Theorem C70_unknown_routine_always_fails :
  forall F (N : Num F) V (NV : Num V) build sim sized (minH maxH : V) (gc : @constraints F) H,
  design build sim sized minH maxH gc unknown_routine H = Err ValueError \/
  design build sim sized minH maxH gc unknown_routine H = Err AssertionError.
Proof.
  intros. unfold design, design_init. destruct gc as [l w b mn mx my]. unfold check_inputs, not_none. cbn [gc_length gc_width gc_B gc_B_min gc_B_max_x gc_B_max_y].
  destruct w, l, mn, mx, my; cbn; auto.
Qed.
(** before any search: a failing constructor is the failure of the design, whatever the oracles *)
Theorem C70_before_search :
  forall F (N : Num F) V (NV : Num V) build sim sized (minH maxH : V) (gc : @constraints F) r H e,
  design_init gc r = Err e -> design build sim sized minH maxH gc r H = Err e.
Proof. intros. unfold design. now rewrite H0. Qed.
(** the candidates always suit the routine *)
Theorem C70_candidates_suit :
  forall F (N : Num F) (gc : @constraints F) r cs, design_init gc r = Ok cs ->
  match r with
  | near_square | rectangle_routine => exists d, cs = one_domain d
  | bi_rectangle | bi_zoned => exists dd, cs = nested_domain dd
  | unknown_routine => False
  end.
Proof.
  intros F N gc r cs E. unfold design_init in E. apply bind_ok in E as (u & _ & E).
  destruct r; [| | | |discriminate]; repeat (apply bind_ok in E as (? & _ & E)); injection E as <-; eauto.
Qed.

(** ** one domain: near-square and rectangle designs *)
Section Designs.
Context {V : Type} {NV : Num V} {OV : Ordered V}.  (* heights and temperatures, standing for the reals [val] *)
Variable build : list (R * R) -> V -> res unit.   (* construction of the heat exchanger: may raise *)
Variable sim : list (R * R) -> V -> res (xval V).   (* excess temperature of a field at a height *)
Variable sized : list (R * R) -> res V.           (* height after sizing *)
Variable minH maxH : V.
Notation design := (design build sim sized minH maxH).
Notation well_behaved := (well_behaved (list (R * R)) build sim minH maxH).

Notation adequate := (adequate sim maxH).
Notation adequate_shallow := (adequate_shallow sim minH maxH).
Notation more_is_better := (more_is_better sim maxH).
Notation deeper_helps := (deeper_helps sim minH maxH).

(** ** C85: rectangle designs *)
Definition rectangle_inputs (gc : @constraints R) (L W bmin bmax : R) : Prop :=
  gc_length gc = Some L /\ gc_width gc = Some W /\ gc_B_min gc = Some bmin /\ gc_B_max_x gc = Some bmax /\ 0 < L /\ 0 < W /\ 0 < bmin /\ 0 < bmax.
Lemma rectangle_design_eq gc L W bmin bmax H : rectangle_inputs gc L W bmin bmax ->
  exists d, rectangular L W bmin bmax = Ok d /\ design gc rectangle_routine H = bisection_1d build sim minH maxH d H.
Proof.
  intros (E1 & E2 & E3 & E4 & P1 & P2 & P3 & P4). destruct (C10_rectangular_total L W bmin bmax P1 P2 P3 P4) as (d & E). exists d. split; [assumption|].
  unfold Design.design, design_init, check_inputs, not_none, number. rewrite E1, E2, E3, E4. cbn [assert_ bind]. rewrite E. reflexivity.
Qed.

(** the selected field is on the land, respects the minimum spacing and meets the temperature limits, at the height at which
    the heat exchanger is left or (a single borehole only) at the minimum height *)
Theorem C85_rectangle_design :
  forall gc L W bmin bmax H r s', rectangle_inputs gc L W bmin bmax ->
  design gc rectangle_routine H = Ok (r, s') ->
  exists k c, r = Some (k, c) /\ ghe _ s' = (c, maxH) /\ inside L W c /\ separated bmin c /\ (1 <= length c)%nat
    /\ (adequate c \/ c = [(0, 0)] /\ adequate_shallow c).
Proof.
  intros gc L W bmin bmax H r s' Hin E. destruct (rectangle_design_eq gc L W bmin bmax H Hin) as (d & Ed & Eq). rewrite Eq in E.
  destruct Hin as (_ & _ & _ & _ & P1 & P2 & P3 & P4).
  apply one_domain_selection in E as (k & c & -> & Hc & Hk & Hg & Hf). pose proof (nth_error_In _ _ Hc) as Hin.
  destruct (C09_rectangular_land_and_spacing L W bmin bmax d c P1 P2 P3 P4 Ed Hin) as (I1 & I2 & tr & b & i & j & -> & Hb & Hi & Hj).
  destruct (C10_rectangular_grows L W bmin bmax d P1 P2 P3 P4 Ed) as (_ & Hd).
  exists k, (turned tr (grid_field b b i j)). repeat (split; [assumption || reflexivity|]). split.
  - assert (X : zlen (turned tr (grid_field b b i j)) = (i * j)%Z) by (rewrite turned_zlen; apply grid_field_zlen; lia). unfold zlen in X. nia.
  - destruct Hf as [Hf|(-> & Hf)]; [now left|right]. split; [|assumption]. destruct Hd as [->|(rest & ->)]; [destruct Hin|]. now injection Hc as <-.
Qed.

(** if more boreholes are better, no adequate candidate has fewer boreholes than the selected one *)
Theorem C85_rectangle_fewest :
  forall gc L W bmin bmax H k c s' d, rectangle_inputs gc L W bmin bmax ->
  rectangular L W bmin bmax = Ok d -> (zlen d <= 32769)%Z -> more_is_better d ->
  (forall f, In f d -> exists q, sim f maxH = Ok (Fin q)) -> deeper_helps [(0, 0)] ->
  design gc rectangle_routine H = Ok (Some (k, c), s') ->
  adequate c /\ forall f, In f d -> adequate f -> (length c <= length f)%nat.
Proof.
  intros gc L W bmin bmax H k c s' d Hin Ed Hn Hb Hf Hh E. destruct (rectangle_design_eq gc L W bmin bmax H Hin) as (d' & Ed' & Eq).
  rewrite Eq in E. rewrite Ed in Ed'. injection Ed' as <-. destruct Hin as (_ & _ & _ & _ & P1 & P2 & P3 & P4).
  destruct (C10_rectangular_grows L W bmin bmax d P1 P2 P3 P4 Ed) as (Hs & Hd).
  eapply one_domain_smallest; eauto. intros f H0. destruct Hd as [->|(rest & ->)]; [discriminate|]. now injection H0 as <-.
Qed.

(** the design succeeds or raises ValueError, exactly by the excess of the single borehole and of the largest field *)
Theorem C85_rectangle_outcome :
  forall gc L W bmin bmax H d u, rectangle_inputs gc L W bmin bmax ->
  rectangular L W bmin bmax = Ok d -> d <> [] -> build [(0, 0)] H = Ok u -> well_behaved d ->
  exists cR tl tu tm, nth_error d (length d - 1) = Some cR /\ (forall f, In f d -> (length f <= length cR)%nat)
  /\ sim [(0, 0)] minH = Ok tl /\ sim [(0, 0)] maxH = Ok tu /\ sim cR maxH = Ok tm /\
  ((exists k c s', design gc rectangle_routine H = Ok (Some (k, c), s')) /\ (opposite tl tu \/ opposite tu tm)
   \/ design gc rectangle_routine H = Err ValueError /\ same_side tl tu /\ same_side tu tm).
Proof.
  intros gc L W bmin bmax H d u Hin Ed Hd Hb Hw. destruct (rectangle_design_eq gc L W bmin bmax H Hin) as (d' & Ed' & Eq).
  rewrite Ed in Ed'. injection Ed' as <-. rewrite Eq. destruct Hin as (_ & _ & _ & _ & P1 & P2 & P3 & P4).
  destruct (C10_rectangular_grows L W bmin bmax d P1 P2 P3 P4 Ed) as (Hs & [->|(rest & Er)]); [congruence|].
  destruct (one_domain_outcome build sim minH maxH d H u [(0, 0)]) as (cR & tl & tu & tm & E1 & E2 & E3 & E4 & E5); [now rewrite Er|assumption|assumption|].
  exists cR, tl, tu, tm. split; [assumption|]. split; [|auto]. intros f Hf. apply In_nth_error in Hf as (j & Ej).
  assert (j < length d)%nat by (apply nth_error_Some; congruence).
  destruct (Nat.eq_dec j (length d - 1)) as [->|Hne]; [rewrite E1 in Ej; injection Ej as ->; lia|].
  pose proof (increasing_nth _ Hs j (length d - 1) _ _ ltac:(lia) (sizes_nth _ _ _ Ej) (sizes_nth _ _ _ E1)). lia.
Qed.

(** no spacing between the limits fits the longer side: IndexError *)
Theorem C85_rectangle_no_candidate_fails :
  forall gc L W l1 l2 tr bmin bmax H, rectangle_inputs gc L W bmin bmax -> oriented L W l1 l2 tr ->
  (Rfloor (l1 / bmin + 1) < Rceil (l1 / bmax + 1))%Z -> design gc rectangle_routine H = Err IndexError.
Proof.
  intros gc L W l1 l2 tr bmin bmax H Hin Ho Hlt. destruct (rectangle_design_eq gc L W bmin bmax H Hin) as (d & Ed & ->).
  destruct Hin as (_ & _ & _ & _ & P1 & P2 & P3 & P4).
  rewrite (C09_rectangular_contents L W l1 l2 tr bmin bmax Ho) in Ed; auto; [|destruct Ho as [(? & -> & -> & ->)|(? & -> & -> & ->)]; assumption].
  apply Z.ltb_lt in Hlt. rewrite Hlt in Ed. injection Ed as <-. reflexivity.
Qed.

(** ** C86: near-square designs *)
Definition near_square_inputs (gc : @constraints R) (L B : R) : Prop :=
  gc_length gc = Some L /\ gc_B gc = Some B /\ 0 <= L /\ 0 < B.
Lemma near_square_design_eq gc L B H : near_square_inputs gc L B ->
  exists n d, number_of_boreholes L B false = Ok n /\ (1 <= n)%Z /\ IZR (n - 1) * B <= L < IZR n * B /\ square_and_near_square 1 n B = Ok d /\
  design gc near_square H = bisection_1d build sim minH maxH d H.
Proof.
  intros (E1 & E2 & P1 & P2). assert (exists n, number_of_boreholes L B false = Ok n) as (n & En).
  { unfold number_of_boreholes. rewrite pydiv_R by lra. eexists; reflexivity. }
  destruct (number_down L B n P1 P2 En) as (Hn & Hr). exists n.
  destruct (C07_square_domain 1 n B ltac:(lia)) as (d & Ed & _). exists d. repeat (split; [assumption|]).
  unfold Design.design, design_init, check_inputs, not_none, number. rewrite E1, E2. cbn [assert_ bind]. rewrite En. cbn [bind]. rewrite Ed. reflexivity.
Qed.

(** the selected field is a square or near-square grid of the given spacing; it stays on a square land of the given length
    except, in one direction, by less than one spacing (C08) *)
Theorem C86_near_square_design_partial :
  forall gc L B H r s', near_square_inputs gc L B ->
  design gc near_square H = Ok (r, s') ->
  exists k c, r = Some (k, c) /\ ghe _ s' = (c, maxH)
    /\ (exists i j, c = grid_field B B i j /\ (j = i \/ j = i + 1)%Z /\ (1 <= i)%Z /\ IZR (i - 1) * B <= L)
    /\ inside L (L + B) c /\ separated B c
    /\ (adequate c \/ c = [(0, 0)] /\ adequate_shallow c).
Proof.
  intros gc L B H r s' Hin E. destruct (near_square_design_eq gc L B H Hin) as (n & d & En & Hn & Hr & Ed & Eq). rewrite Eq in E.
  destruct Hin as (_ & _ & P1 & P2). apply one_domain_selection in E as (k & c & -> & Hc & Hk & Hg & Hf). pose proof (nth_error_In _ _ Hc) as Hin.
  destruct (C08_near_square_fits_partial L B n d P1 P2 En Ed) as (Hins & _ & _).
  destruct (C07_square_domain 1 n B ltac:(lia)) as (d' & Ed' & Ec & _). rewrite Ed in Ed'. injection Ed' as <-.
  assert (G : exists i j, c = grid_field B B i j /\ (j = i \/ j = i + 1)%Z /\ (1 <= i <= n)%Z).
  { rewrite Ec in Hin. apply in_flat_map in Hin as (i & Hi & Hin). apply in_zrange in Hi. destruct Hin as [<-|[<-|[]]]; exists i; eexists; (split; [reflexivity|]); lia. }
  destruct G as (i & j & -> & Hj & Hi). exists k, (grid_field B B i j). split; [reflexivity|]. split; [assumption|].
  split. { exists i, j. split; [reflexivity|]. split; [assumption|]. split; [lia|].
    apply Rle_trans with (IZR (n - 1) * B); [|lra]. apply IZR_mult_le; [lra|lia]. }
  split; [now apply Hins|]. split; [apply grid_field_separated; try lia; lra|].
  destruct Hf as [Hf|(-> & Hf)]; [now left|right]. split; [|assumption].
  rewrite Ec, zrange_cons in Hc by lia. cbn [flat_map app] in Hc. change (Z.to_nat 0) with O in Hc. cbn [nth_error] in Hc.
  assert (X : grid_field B B 1 1 = grid_field B B i j) by congruence. rewrite <- X. apply grid_field_1.
Qed.
(** if more boreholes are better, no adequate candidate has fewer boreholes than the selected one *)
Theorem C86_near_square_fewest :
  forall gc L B H k c s' n d, near_square_inputs gc L B ->
  number_of_boreholes L B false = Ok n -> square_and_near_square 1 n B = Ok d -> (n <= 16384)%Z -> more_is_better d ->
  (forall f, In f d -> exists q, sim f maxH = Ok (Fin q)) -> deeper_helps [(0, 0)] ->
  design gc near_square H = Ok (Some (k, c), s') ->
  adequate c /\ forall f, In f d -> adequate f -> (length c <= length f)%nat.
Proof.
  intros gc L B H k c s' n d Hin En Ed Hn Hb Hf Hh E. destruct (near_square_design_eq gc L B H Hin) as (n' & d' & En' & Hn' & _ & Ed' & Eq).
  rewrite En in En'. injection En' as <-. rewrite Ed in Ed'. injection Ed' as <-. rewrite Eq in E.
  destruct (C07_square_domain 1 n B ltac:(lia)) as (d' & Ed' & Ec & Es & Hs). rewrite Ed in Ed'. injection Ed' as <-.
  eapply one_domain_smallest; eauto.
  - rewrite Ec. rewrite (zlen_flat_map_const _ _ 2) by (intros; reflexivity). rewrite zrange_zlen. lia.
  - intros f H0. rewrite Ec, zrange_cons in H0 by lia. cbn [flat_map app nth_error] in H0. injection H0 as <-.
    now rewrite grid_field_1.
Qed.

(** ** C87: bi-rectangle designs *)
Lemma Forall2_nth_error {A B} (P : A -> B -> Prop) l l' : Forall2 P l l' -> forall n a, nth_error l n = Some a -> exists b, nth_error l' n = Some b /\ P a b.
Proof. induction 1 as [|x y l l' Hxy _ IH]; intros [|n] a E; try discriminate; cbn in *; [injection E as <-; eauto|eauto]. Qed.
Definition nested_inputs (gc : @constraints R) (L W bmin bmax_x bmax_y : R) : Prop :=
  gc_length gc = Some L /\ gc_width gc = Some W /\ gc_B_min gc = Some bmin /\ gc_B_max_x gc = Some bmax_x /\ gc_B_max_y gc = Some bmax_y
  /\ 0 < L /\ 0 < W /\ 0 < bmin /\ 0 < bmax_x /\ 0 < bmax_y.
Lemma bi_rectangle_design_eq gc L W bmin bmax_x bmax_y dd H : nested_inputs gc L W bmin bmax_x bmax_y ->
  bi_rectangle_nested L W bmin bmax_x bmax_y = Ok dd -> design gc bi_rectangle H = bisection_2d build sim minH maxH dd H.
Proof.
  intros (E1 & E2 & E3 & E4 & E5 & _) E. unfold Design.design, design_init, check_inputs, not_none, number.
  rewrite E1, E2, E3, E4, E5. cbn [assert_ bind]. rewrite E. reflexivity.
Qed.
Lemma orient lx ly : 0 < lx -> 0 < ly -> exists l1 l2 tr, oriented lx ly l1 l2 tr /\ 0 < l2 <= l1.
Proof.
  intros. destruct (Rle_or_lt ly lx).
  - exists lx, ly, false. split; [left; auto|lra].
  - exists ly, lx, true. split; [right; auto|lra].
Qed.
Lemma bi_rectangle_total L W bmin bmax_x bmax_y : 0 < L -> 0 < W -> 0 < bmin -> 0 < bmax_x -> 0 < bmax_y ->
  exists dd, bi_rectangle_nested L W bmin bmax_x bmax_y = Ok dd.
Proof.
  intros. destruct (orient L W) as (l1 & l2 & tr & Ho & Hl); auto.
  eexists. apply (C11_bi_rectangle_contents L W l1 l2 tr); auto; lra.
Qed.
Theorem C87_bi_rectangle_design :
  forall gc L W bmin bmax_x bmax_y H r s', nested_inputs gc L W bmin bmax_x bmax_y ->
  design gc bi_rectangle H = Ok (r, s') ->
  exists k c, r = Some (k, c) /\ ghe _ s' = (c, maxH) /\ inside L W c /\ separated bmin c /\ (1 <= length c)%nat
    /\ (adequate c \/ c = [(0, 0)] /\ adequate_shallow c).
Proof.
  intros gc L W bmin bmax_x bmax_y H r s' Hin E. pose proof Hin as (_ & _ & _ & _ & _ & P1 & P2 & P3 & P4 & P5).
  destruct (bi_rectangle_total L W bmin bmax_x bmax_y) as (dd & Ed); auto.
  rewrite (bi_rectangle_design_eq _ _ _ _ _ _ _ _ Hin Ed) in E. apply bisection_2d_ok in E as (k & s & Ht & E).
  destruct (C31_nested_search_is_two_searches _ build sim minH maxH dd 15 s s' k r E Ht) as (outer & inner & co & k2 & c2 & _ & _ & Ei & Eo & -> & Ec & Eg & _).
  pose proof (py_nth_In _ _ _ _ Ei) as Hi. pose proof (nth_error_In _ _ Ec) as Hc.
  destruct (C11_bi_rectangle_land_and_spacing _ _ _ _ _ _ _ _ P1 P2 P3 P4 P5 Ed Hi Hc) as (I1 & I2 & tr & bx & by_ & i & j & Ef & _ & _ & Hi1 & Hj1).
  exists k2, c2. repeat (split; [assumption || reflexivity|]). split.
  - assert (X : zlen c2 = (i * j)%Z) by (rewrite Ef, turned_zlen; apply grid_field_zlen; lia). unfold zlen in X. nia.
  - specialize (Eo (c2, maxH)). destruct (search _ build sim minH maxH 15 (start _ inner (c2, maxH))) as [o s2] eqn:Es. cbn [fst] in Eo. subst o.
    destruct (selected_feasible _ build sim minH maxH 15 _ _ _ Es eq_refl) as (k' & c' & [= <- <-] & _ & _ & _ & Hf).
    destruct Hf as [(q & Hq)|(-> & q & q' & Hq)]; [left; exists q; tauto|right].
    split; [|exists q, q'; tauto]. destruct (C12_bi_rectangle_grows _ _ _ _ _ _ _ P1 P2 P3 P4 P5 Ed Hi) as (_ & [->|(rest & ->)]); [destruct Hc|].
    now injection Ec as <-.
Qed.

(** numbers of columns along the longer side (first) and rows across the shorter side (second): fewest and most *)
Lemma bi_rectangle_domains L W l1 l2 tr bmin bmax_x bmax_y dd :
  oriented L W l1 l2 tr -> 0 < l2 -> 0 < bmin -> 0 < bmax_x -> 0 < bmax_y -> bi_rectangle_nested L W bmin bmax_x bmax_y = Ok dd ->
  (Rceil (l1 / (if tr then bmax_y else bmax_x) + 1) <= Rfloor (l1 / bmin + 1))%Z ->
  (Rceil (l2 / (if tr then bmax_x else bmax_y) + 1) <= Rfloor (l2 / bmin + 1))%Z ->
  starts_with _ [(0, 0)] dd /\ exists dl cl, nth_error dd (length dd - 1) = Some dl /\ py_nth dl (-1) = Ok cl
    /\ zlen cl = (Rfloor (l1 / bmin + 1) * Rfloor (l2 / bmin + 1))%Z.
Proof.
  intros Ho H2 P3 P4 P5 Ed Hn1 Hn2.
  assert (P1 : 0 < L /\ 0 < W) by (destruct Ho as [(? & -> & -> & ->)|(? & -> & -> & ->)]; lra).
  destruct (C12_bi_rectangle_largest_grow L W l1 l2 tr bmin bmax_x bmax_y dd Ho H2 P3 P4 P5 Ed Hn1) as (Hl & _).
  assert (Hst : starts_with _ [(0, 0)] dd).
  { unfold starts_with. apply Forall_forall. intros d Hd.
    destruct (C12_bi_rectangle_grows _ _ _ _ _ _ _ (proj1 P1) (proj2 P1) P3 P4 P5 Ed Hd) as (_ & [->|(rest & ->)]); [exfalso|reflexivity].
    apply (in_map (fun d => zlen (last d []))) in Hd. rewrite Hl in Hd. cbn in Hd. apply in_map_iff in Hd as (n & En & Hn). apply in_zrange in Hn.
    pose proof (nmin_ge2 l2 (if tr then bmax_x else bmax_y) H2 ltac:(destruct tr; assumption)).
    assert (0 < l1) by (destruct Ho as [(? & -> & -> & ->)|(? & -> & -> & ->)]; lra).
    pose proof (nmin_ge2 l1 (if tr then bmax_y else bmax_x) H0 ltac:(destruct tr; assumption)). change (zlen (last [] [])) with 0%Z in En. nia. }
  split; [assumption|].
  assert (Hne : dd <> []). { intros ->. cbn in Hl. rewrite zrange_cons in Hl by lia. discriminate. }
  destruct (exists_last Hne) as (dd0 & dl & ->). rewrite map_app in Hl. cbn [map] in Hl.
  rewrite (zrange_snoc _ (Rfloor (l2 / bmin + 1))) in Hl by lia. rewrite map_app in Hl. cbn [map] in Hl. apply app_inj_tail in Hl as (_ & Hl).
  unfold starts_with in Hst. rewrite Forall_app in Hst. destruct Hst as (_ & Hst). apply Forall_inv in Hst.
  assert (Hdl : dl <> []) by (intros ->; discriminate). destruct (exists_last Hdl) as (d0 & cl & ->). rewrite last_last in Hl.
  exists (d0 ++ [cl]), cl. split; [|split; [apply py_nth_last; eauto|assumption]].
  rewrite nth_error_app2; rewrite app_length; cbn [length]; [|lia]. now replace (length dd0 + 1 - 1 - length dd0)%nat with O by lia.
Qed.

(** the design succeeds when one borehole is not enough and the largest candidate is *)
Theorem C87_bi_rectangle_succeeds :
  forall gc L W l1 l2 tr bmin bmax_x bmax_y H dd u, nested_inputs gc L W bmin bmax_x bmax_y -> oriented L W l1 l2 tr ->
  (Rceil (l1 / (if tr then bmax_y else bmax_x) + 1) <= Rfloor (l1 / bmin + 1))%Z ->
  (Rceil (l2 / (if tr then bmax_x else bmax_y) + 1) <= Rfloor (l2 / bmin + 1))%Z ->
  bi_rectangle_nested L W bmin bmax_x bmax_y = Ok dd ->
  build [(0, 0)] H = Ok u -> (forall d, In d dd -> well_behaved d) ->
  (exists v, sim [(0, 0)] minH = Ok v /\ pos v) -> (exists v, sim [(0, 0)] maxH = Ok v /\ pos v) ->
  (forall f, In f (concat dd) -> zlen f = (Rfloor (l1 / bmin + 1) * Rfloor (l2 / bmin + 1))%Z -> adequate f) ->
  exists k c s', design gc bi_rectangle H = Ok (Some (k, c), s') /\ adequate c.
Proof.
  intros gc L W l1 l2 tr bmin bmax_x bmax_y H dd u Hin Ho Hn1 Hn2 Ed Hb Hw H1 H2 H3.
  rewrite (bi_rectangle_design_eq _ _ _ _ _ _ _ _ Hin Ed). destruct Hin as (_ & _ & _ & _ & _ & P1 & P2 & P3 & P4 & P5).
  assert (Hl2 : 0 < l2) by (destruct Ho as [(? & -> & -> & ->)|(? & -> & -> & ->)]; assumption).
  destruct (bi_rectangle_domains L W l1 l2 tr bmin bmax_x bmax_y dd Ho Hl2 P3 P4 P5 Ed Hn1 Hn2) as (Hst & dl & cl & El & Ec & Hz).
  assert (Hcl : adequate cl). { apply H3; [|assumption]. apply in_concat. exists dl. split; [now apply nth_error_In in El|now apply py_nth_In in Ec]. }
  unfold bisection_2d, base_init. destruct dd as [|d0 dd]; [discriminate|]. pose proof (Forall_inv Hst) as H0.
  destruct d0 as [|c0 d0]; [discriminate|]. cbn in H0. injection H0 as ->.
  unfold py_nth. cbn [Z.ltb Z.compare Z.to_nat nth_error bind]. rewrite Hb. cbn [bind].
  match goal with |- context [search_2d _ _ _ _ _ ?n ?mi ?s] =>
    destruct (C31_nested_search_succeeds _ build sim minH maxH n mi s [(0, 0)] cl dl) as (s' & k & inner & k2 & c2 & q & E & _ & _ & _ & Eq & Hq & _) end;
    [reflexivity|exact Hst|exact El|exact Ec|exact Hw|exact H1|exact H2| |].
  { destruct Hcl as (q & Eq & Hq). exists (Fin q). split; [assumption|]. now exists q. }
  exists k2, c2, s'. rewrite E. split; [reflexivity|]. now exists q.
Qed.

(** no number of columns or no number of rows within the spacing limits: IndexError *)
Theorem C87_bi_rectangle_no_candidate_fails :
  forall gc L W l1 l2 tr bmin bmax_x bmax_y H, nested_inputs gc L W bmin bmax_x bmax_y -> oriented L W l1 l2 tr ->
  (Rfloor (l1 / bmin + 1) < Rceil (l1 / (if tr then bmax_y else bmax_x) + 1)
   \/ Rfloor (l2 / bmin + 1) < Rceil (l2 / (if tr then bmax_x else bmax_y) + 1))%Z ->
  design gc bi_rectangle H = Err IndexError.
Proof.
  intros gc L W l1 l2 tr bmin bmax_x bmax_y H Hin Ho Hn. pose proof Hin as (_ & _ & _ & _ & _ & P1 & P2 & P3 & P4 & P5).
  assert (Hl2 : 0 < l2) by (destruct Ho as [(? & -> & -> & ->)|(? & -> & -> & ->)]; assumption).
  pose proof (C11_bi_rectangle_contents L W l1 l2 tr bmin bmax_x bmax_y Ho Hl2 P3 P4 P5) as E. cbv zeta in E.
  rewrite (bi_rectangle_design_eq _ _ _ _ _ _ _ _ Hin E). unfold bisection_2d.
  destruct (Z_lt_le_dec (Rfloor (l2 / bmin + 1)) (Rceil (l2 / (if tr then bmax_x else bmax_y) + 1))) as [H2|H2].
  - now rewrite (zrange_nil (Rceil (l2 / (if tr then bmax_x else bmax_y) + 1)) (Rfloor (l2 / bmin + 1) + 1)) by lia.
  - rewrite (zrange_cons (Rceil (l2 / (if tr then bmax_x else bmax_y) + 1)) (Rfloor (l2 / bmin + 1) + 1)) by lia. destruct Hn as [Hn|Hn]; [|lia]. apply Z.ltb_lt in Hn. rewrite Hn. reflexivity.
Qed.

(** the selected field has the fewest boreholes of the adequate fields with as many rows, and no field with fewer rows is
    adequate (unless one borehole is) *)
Theorem C87_bi_rectangle_fewest_partial :
  forall gc L W bmin bmax_x bmax_y H dd k c s', nested_inputs gc L W bmin bmax_x bmax_y ->
  bi_rectangle_nested L W bmin bmax_x bmax_y = Ok dd -> (zlen dd <= 32768)%Z -> (forall d, In d dd -> zlen d <= 32769)%Z ->
  more_is_better (concat dd) -> (forall f, In f (concat dd) -> exists q, sim f maxH = Ok (Fin q)) -> deeper_helps [(0, 0)] ->
  design gc bi_rectangle H = Ok (Some (k, c), s') ->
  adequate c /\ exists i d, nth_error dd i = Some d /\ In c d
    /\ forall j d' f, (j <= i)%nat -> nth_error dd j = Some d' -> In f d' -> adequate f -> (length c <= length f)%nat.
Proof.
  intros gc L W bmin bmax_x bmax_y H dd k c s' Hin Ed Hn Hnd Hb Hf Hh E. pose proof Hin as (_ & _ & _ & _ & _ & P1 & P2 & P3 & P4 & P5).
  rewrite (bi_rectangle_design_eq _ _ _ _ _ _ _ _ Hin Ed) in E. apply bisection_2d_ok in E as (ko & s & Ht & E).
  destruct (C31_nested_search_is_two_searches _ build sim minH maxH dd 15 s s' ko _ E Ht) as (outer & inner & co & k2 & c2 & Eout & Sout & Ei & Sin & [= <- <-] & Ec & _ & _).
  pose proof (py_nth_In _ _ _ _ Ei) as Hi.
  assert (Hsub : forall d, In d dd -> incl d (concat dd)) by (intros d Hd f Hfd; apply in_concat; eauto).
  assert (Hmb : forall d, incl d (concat dd) -> more_is_better d) by (intros d Hd f f' q q' A1 A2; apply Hb; auto).
  assert (Hfirst : forall d f, In d dd -> nth_error d 0 = Some f -> f = [(0, 0)]).
  { intros d f Hd H0. destruct (C12_bi_rectangle_grows _ _ _ _ _ _ _ P1 P2 P3 P4 P5 Ed Hd) as (_ & [->|(rest & ->)]); [discriminate|]. now injection H0 as <-. }
  assert (Hgrow : forall d, In d dd -> strictly_increasing (sizes d)) by (intros d Hd; now destruct (C12_bi_rectangle_grows _ _ _ _ _ _ _ P1 P2 P3 P4 P5 Ed Hd)).
  (* the inner search *)
  specialize (Sin (c, maxH)). destruct (search _ build sim minH maxH 15 (start _ inner (c, maxH))) as [o s2] eqn:Es. cbn [fst] in Sin. subst o.
  destruct (search_smallest build sim minH maxH _ _ inner k c Es eq_refl eq_refl) as (Hc & Hmin); auto.
  { intros f Hfi. apply Hf. apply (Hsub inner); auto. }
  { intros f H0. now rewrite (Hfirst _ _ Hi H0). }
  split; [assumption|].
  (* the outer domain *)
  unfold outer_domain in Eout. apply bind_ok in Eout as (d0 & E0 & Eout). apply bind_ok in Eout as (c00 & E00 & Eout).
  apply bind_ok in Eout as (lasts & El & Eout). injection Eout as <-.
  pose proof (py_nth_In _ _ _ _ E0) as Hd0.
  assert (c00 = [(0, 0)]). { apply (Hfirst d0); auto. unfold py_nth in E00. cbn in E00. destruct d0; [discriminate|]. cbn in *. congruence. }
  subst c00. destruct (orient L W) as (l1 & l2 & tr & Ho & Hl); auto.
  assert (Hn1 : (Rceil (l1 / (if tr then bmax_y else bmax_x) + 1) <= Rfloor (l1 / bmin + 1))%Z).
  { destruct (Z_le_gt_dec (Rceil (l1 / (if tr then bmax_y else bmax_x) + 1)) (Rfloor (l1 / bmin + 1))) as [|Hgt]; [assumption|exfalso].
    pose proof (C11_bi_rectangle_contents L W l1 l2 tr bmin bmax_x bmax_y Ho ltac:(lra) P3 P4 P5) as X. cbv zeta in X. rewrite Ed in X. injection X as X.
    assert (Hlt : (Rfloor (l1 / bmin + 1) <? Rceil (l1 / (if tr then bmax_y else bmax_x) + 1))%Z = true) by (apply Z.ltb_lt; lia).
    rewrite Hlt in X. rewrite X in Hd0. apply in_map_iff in Hd0 as (? & <- & _). discriminate. }
  destruct (C12_bi_rectangle_largest_grow L W l1 l2 tr bmin bmax_x bmax_y dd Ho ltac:(lra) P3 P4 P5 Ed Hn1) as (Hs1 & Hs2).
  assert (Hlasts : Forall2 (fun d f => exists a, d = a ++ [f]) dd lasts).
  { apply mapM_ok in El. eapply Forall2_impl; [|exact El]. intros d f Hdf. now apply py_nth_last in Hdf. }
  assert (Hsz : sizes lasts = map (fun d => zlen (last d [])) dd).
  { clear -Hlasts. induction Hlasts as [|d f dd lasts (a & ->) _ IH]; [reflexivity|]. cbn [sizes map]. unfold sizes in IH. rewrite IH, last_last. reflexivity. }
  assert (Hll : length dd = length lasts) by (clear -Hlasts; induction Hlasts; cbn; congruence).
  assert (Hso : strictly_increasing (sizes ([(0, 0)] :: lasts))).
  { change (sizes ([(0, 0)] :: lasts)) with (1%Z :: sizes lasts). rewrite Hsz. constructor; [exact Hs2|].
    rewrite Hs1. apply Forall_forall. intros n Hn'. apply in_map_iff in Hn' as (m & <- & Hm). apply in_zrange in Hm.
    pose proof (nmin_ge2 l2 (if tr then bmax_x else bmax_y) ltac:(lra) ltac:(destruct tr; assumption)).
    pose proof (nmin_ge2 l1 (if tr then bmax_y else bmax_x) ltac:(lra) ltac:(destruct tr; assumption)). nia. }
  assert (Hsub' : incl ([(0, 0)] :: lasts) (concat dd)).
  { intros f [<-|Hfl].
    - apply in_concat. exists d0. split; auto. unfold py_nth in E00. cbn in E00. destruct d0; [discriminate|]. injection E00 as ->. now left.
    - clear -Hlasts Hfl. induction Hlasts as [|d f' dd lasts (a & ->) _ IH]; [destruct Hfl|]. cbn. apply in_app_iff.
      destruct Hfl as [->|Hfl]; [left; apply in_app_iff; right; now left|right; auto]. }
  specialize (Sout (c, maxH)). destruct (search _ build sim minH maxH 15 (start _ ([(0, 0)] :: lasts) (c, maxH))) as [o s3] eqn:Eo. cbn [fst] in Sout. subst o.
  destruct (search_first build sim minH maxH _ _ ([(0, 0)] :: lasts) ko co Eo eq_refl eq_refl) as (_ & Hko & _ & Hbefore).
  { exact Hso. }
  { unfold zlen in *. cbn [length]. rewrite <- Hll. lia. }
  { auto. }
  { intros f Hfo. apply Hf. now apply Hsub'. }
  { intros f [= <-]. assumption. }
  assert (Hlen1 : forall d f, In d dd -> In f d -> (1 <= length f)%nat).
  { intros d f Hd Hfd. destruct (C11_bi_rectangle_land_and_spacing _ _ _ _ _ _ _ _ P1 P2 P3 P4 P5 Ed Hd Hfd) as (_ & _ & tr' & bx & by_ & i & j & Ef & _ & _ & Hi1 & Hj1).
    assert (X : zlen f = (i * j)%Z) by (rewrite Ef, turned_zlen; apply grid_field_zlen; lia). unfold zlen in X. nia. }
  destruct (Z.eq_dec ko 0) as [->|Hko0].
  - (* one borehole is enough *)
    exists (length dd - 1)%nat, inner. 
    assert (X : nth_error dd (length dd - 1) = Some inner).
    { apply py_nth_last in Ei as (a & ->). rewrite nth_error_app2; rewrite app_length; cbn [length]; [|lia]. now replace (length a + 1 - 1 - length a)%nat with O by lia. }
    split; [assumption|]. split; [now apply nth_error_In in Ec|].
    assert (Hone : adequate [(0, 0)]).
    { destruct (search_first build sim minH maxH _ _ ([(0, 0)] :: lasts) 0 co Eo eq_refl eq_refl) as (A1 & _ & A2 & _).
      + exact Hso.
      + unfold zlen in *. cbn [length]. rewrite <- Hll. lia.
      + auto.
      + intros f Hfo. apply Hf. now apply Hsub'.
      + intros f [= <-]. assumption.
      + cbn in A2. now injection A2 as <-. }
    intros j d' f _ Ej Hfj _. apply nth_error_In in Ej. pose proof (Hlen1 d' f Ej Hfj).
    assert (Hin1 : In [(0, 0)] inner).
    { destruct (C12_bi_rectangle_grows _ _ _ _ _ _ _ P1 P2 P3 P4 P5 Ed Hi) as (_ & [->|(rest & ->)]); [|now left]. destruct (Z.to_nat k); discriminate. }
    specialize (Hmin _ Hin1 Hone). cbn in Hmin. lia.
  - (* the largest fields of the earlier domains are not adequate, hence nor are their other fields *)
    assert (X : nth_error dd (Z.to_nat (ko - 1)) = Some inner).
    { unfold py_nth in Ei. destruct (ko - 1 <? 0)%Z eqn:Ek; [apply Z.ltb_lt in Ek; lia|]. destruct (ko - 1 <? 0)%Z; [discriminate|]. 
      destruct (nth_error dd (Z.to_nat (ko - 1))); congruence. }
    exists (Z.to_nat (ko - 1)), inner. split; [assumption|]. split; [now apply nth_error_In in Ec|].
    intros j d' f Hj Ej Hfj Hadq. destruct (Nat.eq_dec j (Z.to_nat (ko - 1))) as [->|Hne].
    { rewrite X in Ej. injection Ej as <-. now apply Hmin. }
    exfalso. destruct (Forall2_nth_error _ _ _ Hlasts _ _ Ej) as (fl & Efl & a & Ha).
    destruct (Hbefore (S j) fl) as (q & Eq & Hq); [lia|exact Efl|]. destruct Hadq as (q' & Eq' & Hq').
    assert (Hcase : f = fl \/ (length f < length fl)%nat).
    { pose proof (nth_error_In _ _ Ej) as Hd'. pose proof (Hgrow _ Hd') as Hg. rewrite Ha in Hfj, Hg. apply in_app_iff in Hfj as [Hfj|[<-|[]]]; [right|now left].
      apply In_nth_error in Hfj as (m & Em). assert (m < length a)%nat by (apply nth_error_Some; congruence).
      assert (A1 : nth_error (a ++ [fl]) m = Some f) by (rewrite nth_error_app1; assumption).
      assert (A2 : nth_error (a ++ [fl]) (length a) = Some fl) by (rewrite nth_error_app2, Nat.sub_diag by lia; reflexivity).
      pose proof (increasing_nth _ Hg m (length a) _ _ ltac:(lia) (sizes_nth _ _ _ A1) (sizes_nth _ _ _ A2)). lia. }
    destruct Hcase as [->|Hlt].
    + rewrite Eq in Eq'. injection Eq' as <-. lra.
    + assert (val q < val q')%R. { apply (Hb f fl q' q); auto; apply (Hsub d'); try (now apply nth_error_In in Ej); auto. rewrite Ha. apply in_app_iff. right. now left. }
      lra.
Qed.

(** ** C88: bi-zoned designs *)
Lemma bi_zoned_design_eq gc L W bmin bmax_x bmax_y H : nested_inputs gc L W bmin bmax_x bmax_y ->
  design gc bi_zoned H = (let! dd := bi_rectangle_zoned_nested L W bmin bmax_x bmax_y in bisection_zd build sim sized minH maxH dd H).
Proof.
  intros (E1 & E2 & E3 & E4 & E5 & _). unfold Design.design, design_init, check_inputs, not_none, number.
  rewrite E1, E2, E3, E4, E5. cbn [assert_ bind]. destruct (bi_rectangle_zoned_nested L W bmin bmax_x bmax_y); reflexivity.
Qed.

(** land at least as wide as deep: the selected field is on the land, respects the minimum spacing, is left at its sized height
    and does not exceed the temperature limits at the maximum height *)
Theorem C88_bi_zoned_design_partial :
  forall gc L W bmin bmax_x bmax_y H r s', nested_inputs gc L W bmin bmax_x bmax_y -> W <= L ->
  design gc bi_zoned H = Ok (r, s') ->
  exists k c h x, r = Some (k, c) /\ sized c = Ok h /\ ghe _ s' = (c, h) /\ inside L W c /\ separated bmin c
    /\ sim c maxH = Ok x /\ nonpos x.
Proof.
  intros gc L W bmin bmax_x bmax_y H r s' Hin Hw E. pose proof Hin as (_ & _ & _ & _ & _ & P1 & P2 & P3 & P4 & P5).
  rewrite (bi_zoned_design_eq _ _ _ _ _ _ _ Hin) in E. apply bind_ok in E as (dd & Ed & E). apply bisection_zd_ok in E as (ko & k & c & s & -> & Ht & E).
  destruct (C33_least_drilling_visited _ build sim sized zlen minH maxH dd 15 s s' ko k c E Ht) as (outer & k0 & co & vs & X). cbv zeta in X.
  destruct X as (_ & _ & _ & _ & _ & _ & _ & _ & v & d & _ & _ & _ & _ & En & _ & Ec & (x & Ex & Hx) & (h & Eh & Eg) & _).
  destruct (C15_bi_zoned_land_partial L W bmin bmax_x bmax_y dd P2 Hw P3 P4 P5 Ed d c (nth_error_In _ _ En) (nth_error_In _ _ Ec)) as (I1 & I2).
  exists k, c, h, x. repeat (split; [assumption || reflexivity|]). assumption.
Qed.

(** two columns or two rows: ValueError; none: IndexError *)
Theorem C88_bi_zoned_small_land_fails :
  forall gc L W l1 l2 tr bmin bmax_x bmax_y H, nested_inputs gc L W bmin bmax_x bmax_y -> oriented L W l1 l2 tr ->
  let N1 := Rceil (l1 / (if tr then bmax_y else bmax_x) + 1) in let M1 := Rfloor (l1 / bmin + 1) in
  let N2 := Rceil (l2 / (if tr then bmax_x else bmax_y) + 1) in let M2 := Rfloor (l2 / bmin + 1) in
  ((N1 <= M1 -> N2 <= M2 -> N1 = 2 \/ N2 = 2 -> design gc bi_zoned H = Err ValueError)
   /\ (M1 < N1 \/ M2 < N2 -> design gc bi_zoned H = Err IndexError))%Z.
Proof.
  intros gc L W l1 l2 tr bmin bmax_x bmax_y H Hin Ho N1 M1 N2 M2. pose proof Hin as (_ & _ & _ & _ & _ & P1 & P2 & P3 & P4 & P5).
  assert (Hl2 : 0 < l2) by (destruct Ho as [(? & -> & -> & ->)|(? & -> & -> & ->)]; assumption).
  rewrite (bi_zoned_design_eq _ _ _ _ _ _ _ Hin).
  destruct (C14_bi_zoned_errors L W l1 l2 tr bmin bmax_x bmax_y Ho Hl2 P3 P4 P5) as (E1 & E2). split.
  - intros A1 A2 A3. now rewrite (E1 A1 A2 A3).
  - intros A. rewrite (E2 A). match goal with |- context [if ?b then _ else _] => destruct b end; reflexivity.
Qed.
End Designs.

(** ** worked cases; excess of a field: boreholes needed at the maximum height less boreholes present *)
Definition by_count (n : Q) (f : list (Q * Q)) (H : Q) : res (xval Q) := Ok (Fin (n - inject_Z (zlen f) * H / 100)%Q).
Definition always (f : list (Q * Q)) (H : Q) : res unit := Ok tt.
Definition to_60 (f : list (Q * Q)) : res Q := Ok 60%Q.
Definition constraints_of (l w b mn mx my : Q) : @constraints Q :=
  {| gc_length := Some l; gc_width := Some w; gc_B := Some b; gc_B_min := Some mn; gc_B_max_x := Some mx; gc_B_max_y := Some my |}.
Definition key_and_count (r : res (@found Q Q)) : option (Z * Z) := match r with Ok (Some (k, c), _) => Some (k, zlen c) | _ => None end.

(** a computed design *)
Lemma picked {F} (P : Z -> list (F * F) -> bool) (D : res (@found F Q)) :
  match D with Ok (Some (k, c), _) => P k c | _ => false end = true -> exists k c s', D = Ok (Some (k, c), s') /\ P k c = true.
Proof. destruct D as [[[[k c]|] s']|]; intro E; try discriminate E. eauto. Qed.
Lemma Qlt_bool_lt a b : negb (Qle_bool b a) = true -> (a < b)%Q.
Proof. intro E. apply Qnot_le_lt. intro L. apply Qle_bool_iff in L. now rewrite L in E. Qed.

(** C85: candidates of 1, 2, 3, 4, 8, 12 boreholes on 7 m by 5 m; 6 1/2 needed *)
Example C85_example : key_and_count (design always (by_count (13 # 2)) to_60 20%Q 100%Q (constraints_of 7 5 5 2 3 3) rectangle_routine 50%Q) = Some (4, 8)%Z.
Proof. vm_compute. reflexivity. Qed.
Example C85_example_too_small : design always (by_count 13) to_60 20%Q 100%Q (constraints_of 7 5 5 2 3 3) rectangle_routine 50%Q = Err ValueError.
Proof. vm_compute. reflexivity. Qed.
(** spacing 2.9 m to 3 m does not divide 7 m *)
Example C85_example_no_candidate : design always (by_count 3) to_60 20%Q 100%Q (constraints_of 7 5 5 (29 # 10) 3 3) rectangle_routine 50%Q = Err IndexError.
Proof. vm_compute. reflexivity. Qed.

(** C86: on 10 m by 10 m at 5 m a demand of 11 boreholes selects three columns of four boreholes, the last at y = 15 *)
Theorem C86_near_square_land_refuted :
  exists (L B : Q) sim k c s' p, (0 < B /\ 0 < L)%Q /\
  design always sim to_60 20%Q 100%Q (constraints_of L L B 1 1 1) near_square 50%Q = Ok (Some (k, c), s') /\ In p c /\ (L < snd p)%Q.
Proof.
  exists 10%Q, 5%Q, (by_count 11).
  destruct (picked (fun _ c => existsb (fun p => negb (Qle_bool (snd p) 10)) c)
    (design always (by_count 11) to_60 20%Q 100%Q (constraints_of 10 10 5 1 1 1) near_square 50%Q)) as (k & c & s' & E & X); [vm_compute; reflexivity|].
  apply existsb_exists in X as (p & Hp & X). exists k, c, s', p. split; [split; reflexivity|]. split; [exact E|]. split; [exact Hp|]. now apply Qlt_bool_lt.
Qed.
Example C86_example : key_and_count (design always (by_count 7) to_60 20%Q 100%Q (constraints_of 10 10 5 1 1 1) near_square 50%Q) = Some (4, 9)%Z.
Proof. vm_compute. reflexivity. Qed.

(** C87: domains of 1 ... 21, 1 ... 28 and 1 ... 35 boreholes (C12_example) *)
Example C87_example : key_and_count (design always (by_count 26) to_60 20%Q 100%Q (constraints_of 12 8 5 2 4 4) bi_rectangle 50%Q) = Some (9, 28)%Z.
Proof. vm_compute. reflexivity. Qed.
(** not the fewest boreholes of all: 15 1/2 needed, 18 selected, though a field of 16 is a candidate *)
Theorem C87_bi_rectangle_fewest_refuted :
  exists (gc : @constraints Q) sim dd k c s' f q, design_init gc bi_rectangle = Ok (nested_domain dd) /\
  (forall f f', (zlen f < zlen f')%Z -> exists q q', sim f 100%Q = Ok (Fin q) /\ sim f' 100%Q = Ok (Fin q') /\ (q' < q)%Q) /\
  design always sim to_60 20%Q 100%Q gc bi_rectangle 50%Q = Ok (Some (k, c), s') /\
  In f (concat dd) /\ sim f 100%Q = Ok (Fin q) /\ (q < 0)%Q /\ (zlen f < zlen c)%Z.
Proof.
  exists (constraints_of 12 8 5 2 4 4), (by_count (31 # 2)).
  destruct (picked (fun _ c => zlen c =? 18)%Z
    (design always (by_count (31 # 2)) to_60 20%Q 100%Q (constraints_of 12 8 5 2 4 4) bi_rectangle 50%Q)) as (k & c & s' & E & X); [vm_compute; reflexivity|].
  assert (D : exists dd, design_init (constraints_of 12 8 5 2 4 4) bi_rectangle = Ok (nested_domain dd) /\ existsb (fun f => zlen f =? 16)%Z (concat dd) = true)
    by (eexists; split; vm_compute; reflexivity).
  destruct D as (dd & Ed & D). apply existsb_exists in D as (f & Hf & D). apply Z.eqb_eq in X, D.
  exists dd, k, c, s', f, ((31 # 2) - inject_Z (zlen f) * 100 / 100)%Q. split; [exact Ed|]. split.
  { clear. intros f f' Hlt. do 2 eexists. split; [reflexivity|]. split; [reflexivity|]. unfold Qdiv. change (/ 100)%Q with (1 # 100)%Q.
    rewrite Zlt_Qlt in Hlt. Lqa.lra. }
  split; [exact E|]. split; [exact Hf|]. split; [reflexivity|]. rewrite D, X. split; [reflexivity|lia].
Qed.

(** in binary64 (C16), 44.1 m by 44.1 m and spacings between 4 m and 4.05 m: a design with boreholes less than 4 m apart *)
Definition by_count64 (n : Q) (f : list (b64 * b64)) (H : Q) : res (xval Q) := Ok (Fin (n - inject_Z (zlen f) * H / 100)%Q).
Theorem C87_binary64_spacing_refuted :
  exists (l bmin bmax : b64) sim k c s' p0 p1 r, nlt (nofZ 0) bmin = true /\ nlt bmin bmax = true /\
  design (fun _ _ => Ok tt) sim (fun _ => Ok 60%Q) 20%Q 100%Q
    {| gc_length := Some l; gc_width := Some l; gc_B := None; gc_B_min := Some bmin; gc_B_max_x := Some bmax; gc_B_max_y := Some bmax |}
    bi_rectangle 50%Q = Ok (Some (k, c), s')
  /\ c = p0 :: p1 :: r /\ nle (fst p0) (fst p1) = true /\ nle (fst p1) (fst p0) = true /\ nlt (snd p0) (snd p1) = true /\ nlt (nsub (snd p1) (snd p0)) bmin = true.
Proof.
  exists (b64_lit 441 10), (b64_lit 4 1), (b64_lit 405 100), (by_count64 (251 # 2)).
  match goal with |- context [design ?a ?b ?c ?d ?e ?f ?g ?h] =>
    destruct (picked (fun _ cs => match cs with p :: p' :: _ => nle (fst p) (fst p') && nle (fst p') (fst p) && (nlt (snd p) (snd p') && nlt (nsub (snd p') (snd p)) (b64_lit 4 1)) | _ => false end)
      (design a b c d e f g h)) as (k & c0 & s' & E & X) end; [vm_compute; reflexivity|].
  destruct c0 as [|p0 [|p1 r]]; try discriminate X. apply andb_prop in X as (X & Y). apply andb_prop in X as (X & X'). apply andb_prop in Y as (Y & V).
  exists k, (p0 :: p1 :: r), s', p0, p1, r. split; [vm_compute; reflexivity|]. split; [vm_compute; reflexivity|]. split; [exact E|]. auto 6.
Qed.

(** C88 *)
Example C88_example : key_and_count (design always (by_count 10) to_60 20%Q 100%Q (constraints_of 12 8 5 3 6 4) bi_zoned 50%Q) = Some (0, 11)%Z.
Proof. vm_compute. reflexivity. Qed.
(** land deeper than wide (4 m by 8 m, spacing 2 m): a design with a borehole at x = 8 *)
Theorem C88_bi_zoned_land_refuted :
  exists (L W b : Q) sim k c s' p, (0 < L /\ L < W /\ 0 < b)%Q /\
  design always sim to_60 20%Q 100%Q (constraints_of L W b b b b) bi_zoned 50%Q = Ok (Some (k, c), s') /\ In p c /\ (L < fst p)%Q.
Proof.
  exists 4%Q, 8%Q, 2%Q, (by_count (25 # 2)).
  destruct (picked (fun _ c => existsb (fun p => negb (Qle_bool (fst p) 4)) c)
    (design always (by_count (25 # 2)) to_60 20%Q 100%Q (constraints_of 4 8 2 2 2 2) bi_zoned 50%Q)) as (k & c & s' & E & X); [vm_compute; reflexivity|].
  apply existsb_exists in X as (p & Hp & X). exists k, c, s', p. split; [repeat split; reflexivity|]. split; [exact E|]. split; [exact Hp|]. now apply Qlt_bool_lt.
Qed.
(** the same land: a design with boreholes at (0, 0) and (0, 1) *)
Theorem C88_bi_zoned_spacing_refuted :
  exists (L W b : Q) sim k c s' x y y' r, (0 < L /\ L < W /\ 1 < b)%Q /\
  design always sim to_60 20%Q 100%Q (constraints_of L W b b b b) bi_zoned 50%Q = Ok (Some (k, c), s') /\ c = (x, y) :: (x, y') :: r /\ (y' == y + 1)%Q.
Proof.
  exists 4%Q, 8%Q, 2%Q, (by_count (7 # 2)).
  set (same := fun a b : Q => (Qnum a =? Qnum b)%Z && (Qden a =? Qden b)%positive).
  destruct (picked (fun _ c => match c with p :: p' :: _ => same (fst p) (fst p') && Qeq_bool (snd p') (snd p + 1) | _ => false end)
    (design always (by_count (7 # 2)) to_60 20%Q 100%Q (constraints_of 4 8 2 2 2 2) bi_zoned 50%Q)) as (k & c & s' & E & X); [vm_compute; reflexivity|].
  destruct c as [|(x, y) [|(x', y') r]]; try discriminate X. cbn [fst snd] in X. apply andb_prop in X as (X & Y). apply andb_prop in X as (X1 & X2).
  apply Z.eqb_eq in X1. apply Pos.eqb_eq in X2. assert (x' = x) by (destruct x, x'; cbn in *; congruence). subst x'.
  exists k, ((x, y) :: (x, y') :: r), s', x, y, y', r. split; [repeat split; reflexivity|]. split; [exact E|]. split; [reflexivity|]. now apply Qeq_bool_eq.
Qed.

Print Assumptions C70_missing_input.
Print Assumptions C70_dispatch.
Print Assumptions C70_unknown_routine_refuted.
Print Assumptions C70_unknown_routine_always_fails.
Print Assumptions C70_before_search.
Print Assumptions C70_candidates_suit.
Print Assumptions C85_rectangle_design.
Print Assumptions C85_rectangle_fewest.
Print Assumptions C85_rectangle_outcome.
Print Assumptions C85_rectangle_no_candidate_fails.
Print Assumptions C86_near_square_design_partial.
Print Assumptions C86_near_square_fewest.
Print Assumptions C87_bi_rectangle_design.
Print Assumptions C87_bi_rectangle_succeeds.
Print Assumptions C87_bi_rectangle_no_candidate_fails.
Print Assumptions C87_bi_rectangle_fewest_partial.
Print Assumptions C88_bi_zoned_design_partial.
Print Assumptions C88_bi_zoned_small_land_fails.
Print Assumptions C86_near_square_land_refuted.
Print Assumptions C87_bi_rectangle_fewest_refuted.
Print Assumptions C87_binary64_spacing_refuted.
Print Assumptions C88_bi_zoned_land_refuted.
Print Assumptions C88_bi_zoned_spacing_refuted.
