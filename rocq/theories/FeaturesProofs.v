(** Proofs about feature_recognition.py and polygonal_land_constraint, over the reals *)
From Coq Require Import ZArith List Bool Reals Lia Lra Sorted Permutation.
From Verif Require Import Base Num BaseLemmas Coordinates Spec CoordinatesProofs Domains DomainsProofs Utilities UtilitiesProofs Features.
Import ListNotations.
Open Scope R_scope.

Definition scaled (k : R) (p : R * R) : R * R := (fst p * k, snd p * k).

(** the side of the polygon a point is on, as a number: positive inside, negative outside, zero on the contour *)
Definition kept (ri kc : bool) (dist : R) : Prop :=
  (ri = true -> dist <= 0) /\ (ri = false -> 0 <= dist) /\ (kc = false -> dist <> 0).

Lemma mem_in i l : mem i l = true <-> In i l.
Proof.
  unfold mem. rewrite existsb_exists. split; [intros (x & H & E); apply Z.eqb_eq in E; now subst|].
  intros H. exists i. split; auto. apply Z.eqb_refl.
Qed.

Lemma mem_mono_false i l : ~ In i l -> mem i l = false.
Proof. intros H. destruct (mem i l) eqn:E; auto. apply mem_in in E. contradiction. Qed.

Section Cut.
Variables (pip : oracle (F := R)) (bnd : list (R * R)).

(** classification of the first n points *)
Definition classified (cs : list (R * R)) (n : Z) (s : list Z * list Z * list Z) : Prop :=
  let '(ins, outs, bnds) := s in
  (forall i, In i ins \/ In i outs \/ In i bnds -> (0 <= i < n)%Z) /\
  forall i c, (0 <= i < n)%Z -> nth_error cs (Z.to_nat i) = Some c ->
  exists d, pip bnd c = Ok d /\ (In i ins <-> 0 < d) /\ (In i outs <-> d < 0) /\ (In i bnds <-> d = 0).

Lemma classify_ok cs : (forall c, In c cs -> exists d, pip bnd c = Ok d) ->
  exists s, foldM (classify_body pip cs bnd) (zrange 0 (zlen cs)) ([], [], []) = Ok s /\ classified cs (zlen cs) s.
Proof.
  intros Hp. apply foldM_zrange; [apply zlen_nonneg| |].
  - split; [intros i [[]|[[]|[]]]|intros; lia].
  - intros i [[ins outs] bnds] Hi [Hr Hc]. unfold classify_body.
    destruct (py_nth_ok cs i Hi) as (c & -> & Hn). cbn [bind].
    destruct (Hp c) as [d Hd]; [eapply nth_error_In; eauto|]. rewrite Hd. cbn [bind].
    assert (Hold : forall j c', (0 <= j < i + 1)%Z -> nth_error cs (Z.to_nat j) = Some c' -> 
      (j = i /\ c' = c) \/ ((0 <= j < i)%Z /\ j <> i)).
    { intros j c' Hj Hc'. destruct (Z.eq_dec j i) as [->|]; [left; split; auto; congruence|right; lia]. }
    assert (Hni : ~ In i ins /\ ~ In i outs /\ ~ In i bnds).
    { repeat split; intros H; assert (0 <= i < i)%Z by (apply Hr; tauto); lia. }
    change (nofZ 0) with 0.
    destruct (nlt 0 d) eqn:E1; [|destruct (nlt d 0) eqn:E2; [|destruct (nis0 d) eqn:E3]].
    + apply nlt_R in E1. eexists. split; [reflexivity|]. split.
      * intros j. rewrite in_app_iff. intros Hj. destruct Hj as [[Hj|[<-|[]]]|Hj]; try lia; enough (0 <= j < i)%Z by lia; apply Hr; tauto.
      * intros j c' Hj Hc'. destruct (Hold j c' Hj Hc') as [[-> ->]|[Hj' Hne]].
        -- exists d. split; auto. rewrite in_app_iff. split; [split; auto; intros; right; now left|].
           split; split; intros; try tauto; lra.
        -- destruct (Hc j c' Hj' Hc') as (d' & H1 & H2 & H3 & H4). exists d'. split; auto. rewrite in_app_iff.
           split; [|auto]. rewrite <- H2. split; [intros [HH|[HH|[]]]; [auto|congruence]|auto].
    + apply nlt_R_false in E1. apply nlt_R in E2. eexists. split; [reflexivity|]. split.
      * intros j. rewrite in_app_iff. intros Hj. destruct Hj as [Hj|[[Hj|[<-|[]]]|Hj]]; try lia; enough (0 <= j < i)%Z by lia; apply Hr; tauto.
      * intros j c' Hj Hc'. destruct (Hold j c' Hj Hc') as [[-> ->]|[Hj' Hne]].
        -- exists d. split; auto. rewrite in_app_iff. split; [split; intros; try tauto; lra|].
           split; [split; auto; intros; right; now left|]. split; intros; try tauto; lra.
        -- destruct (Hc j c' Hj' Hc') as (d' & H1 & H2 & H3 & H4). exists d'. split; auto. rewrite in_app_iff.
           split; [auto|]. split; [|auto]. rewrite <- H3. split; [intros [HH|[HH|[]]]; [auto|congruence]|auto].
    + apply nlt_R_false in E1. apply nlt_R_false in E2. assert (d = 0) by lra. eexists. split; [reflexivity|]. split.
      * intros j. rewrite in_app_iff. intros Hj. destruct Hj as [Hj|[Hj|[Hj|[<-|[]]]]]; try lia; enough (0 <= j < i)%Z by lia; apply Hr; tauto.
      * intros j c' Hj Hc'. destruct (Hold j c' Hj Hc') as [[-> ->]|[Hj' Hne]].
        -- exists d. split; auto. rewrite in_app_iff. split; [split; intros; try tauto; lra|].
           split; [split; intros; try tauto; lra|]. split; auto; intros; right; now left.
        -- destruct (Hc j c' Hj' Hc') as (d' & H1 & H2 & H3 & H4). exists d'. split; auto. rewrite in_app_iff.
           split; [auto|]. split; [auto|]. rewrite <- H4. split; [intros [HH|[HH|[]]]; [auto|congruence]|auto].
    + exfalso. apply nlt_R_false in E1. apply nlt_R_false in E2. cbn [nis0 NumR] in E3. destruct (Req_EM_T d 0); [discriminate|lra].
Qed.

Lemma dropped_kept ri kc ins outs bnds i d :
  (In i ins <-> 0 < d) -> (In i outs <-> d < 0) -> (In i bnds <-> d = 0) ->
  dropped ri kc ins outs bnds i = false <-> kept ri kc d.
Proof.
  intros H1 H2 H3. unfold dropped, kept.
  assert (M : forall l P, (In i l <-> P) -> (mem i l = false <-> ~ P)).
  { intros l P HP. rewrite <- HP, <- mem_in. destruct (mem i l); split; auto; try discriminate. intros H. now destruct H. }
  apply M in H1, H2, H3.
  destruct ri, kc; cbn [andb negb]; rewrite ?orb_false_iff, ?H1, ?H2, ?H3; split; intros H;
    repeat split; intros; try discriminate; try lra; try (destruct H as (A & B & C));
    try (specialize (A eq_refl)); try (specialize (B eq_refl)); try (specialize (C eq_refl)); lra.
Qed.

(** positions and values of the points kept, in order *)
Fixpoint keep_list (ri kc : bool) (cs : list (R * R)) : list (R * R) -> Prop :=
  fun out => match cs with
  | [] => out = []
  | c :: r => exists d, pip bnd c = Ok d /\
      ((kept ri kc d /\ exists o, out = c :: o /\ keep_list ri kc r o) \/ (~ kept ri kc d /\ keep_list ri kc r out))
  end.

Lemma keep_list_snoc ri kc c cs : forall out, keep_list ri kc cs out ->
  forall d, pip bnd c = Ok d ->
  (kept ri kc d -> keep_list ri kc (cs ++ [c]) (out ++ [c])) /\ (~ kept ri kc d -> keep_list ri kc (cs ++ [c]) out).
Proof.
  induction cs as [|c0 cs IH]; intros out Ho d Hd; cbn in Ho.
  - subst. split; intros Hk; cbn; exists d; split; auto. left. split; auto. exists []. auto.
  - destruct Ho as (d0 & Hd0 & [(Hk0 & o & -> & Ho)|(Hk0 & Ho)]); destruct (IH _ Ho d Hd) as [A B]; split; intros Hk; cbn; exists d0; split; auto.
    + left. split; auto. exists (o ++ [c]). auto.
    + left. split; auto. exists o. auto.
Qed.

Lemma remove_loop ri kc cs ins outs bnds : classified cs (zlen cs) (ins, outs, bnds) ->
  exists out, foldM (fun acc i => if dropped ri kc ins outs bnds i then Ok acc
                        else let! c := py_nth cs i in Ok (acc ++ [c])) (zrange 0 (zlen cs)) [] = Ok out
    /\ keep_list ri kc cs out.
Proof.
  intros [_ Hc]. destruct (foldM_zrange (fun acc i => if dropped ri kc ins outs bnds i then Ok acc
                        else let! c := py_nth cs i in Ok (acc ++ [c]))
     (fun n acc => keep_list ri kc (firstn (Z.to_nat n) cs) acc) 0 (zlen cs) []) as (s & E & H).
  - apply zlen_nonneg.
  - reflexivity.
  - intros i acc Hi Hk. destruct (py_nth_ok cs i Hi) as (c & E & Hn). 
    destruct (Hc i c Hi Hn) as (d & Hd & H1 & H2 & H3).
    pose proof (dropped_kept ri kc ins outs bnds i d H1 H2 H3) as Hdk.
    assert (Hf : firstn (Z.to_nat (i + 1)) cs = firstn (Z.to_nat i) cs ++ [c]).
    { replace (Z.to_nat (i + 1)) with (S (Z.to_nat i)) by lia. clear - Hn. revert cs Hn. induction (Z.to_nat i) as [|n IH]; intros [|x cs] Hn; try discriminate.
      - cbn in *. now injection Hn as ->.
      - cbn in Hn. cbn [firstn app]. f_equal. now apply IH. }
    rewrite Hf. destruct (keep_list_snoc ri kc c _ acc Hk d Hd) as [A B].
    destruct (dropped ri kc ins outs bnds i) eqn:Edr.
    + exists acc. split; auto. apply B. intros Hkk. apply Hdk in Hkk. discriminate.
    + exists (acc ++ [c]). rewrite E. split; auto. apply A. now apply Hdk.
  - exists s. split; auto. unfold zlen in H. rewrite Nat2Z.id, firstn_all in H. exact H.
Qed.
End Cut.

Lemma scale_R cs k : scale_coordinates cs k = map (scaled k) cs.
Proof. reflexivity. Qed.
Lemma scale_back cs k : k <> 0 -> map (scaled (1 / k)) (map (scaled k) cs) = cs.
Proof.
  intros Hk. rewrite map_map. rewrite <- (map_id cs) at 2. apply map_ext. intros [x y]. unfold scaled. cbn [fst snd].
  f_equal; field; auto.
Qed.
Lemma keep_list_unscale pip b ri kc k cs : forall out, k <> 0 ->
  keep_list pip b ri kc (map (scaled k) cs) out ->
  keep_list (fun _ c => pip b (scaled k c)) b ri kc cs (map (scaled (1 / k)) out).
Proof.
  induction cs as [|c cs IH]; intros out Hk Ho; cbn [map keep_list] in *; [now subst|].
  destruct Ho as (d & Hd & [(Hkk & o & -> & Ho)|(Hkk & Ho)]); exists d; split; auto.
  - left. split; auto. exists (map (scaled (1 / k)) o). split; auto. cbn [map]. f_equal.
    destruct c as [x y]. unfold scaled; cbn [fst snd]. f_equal; field; auto.
Qed.

(** point-in-polygon test as the code performs it: with everything scaled by 10000 *)
Definition scaled_test (pip : oracle (F := R)) (b : list (R * R)) (c : R * R) : res R :=
  pip (map (scaled 10000) b) (scaled 10000 c).

Lemma remove_cutout_ok pip cs b ri kc : (forall c, In c cs -> exists d, scaled_test pip b c = Ok d) ->
  exists out, remove_cutout pip cs b ri kc = Ok out
    /\ keep_list (fun _ c => scaled_test pip b c) b ri kc cs out.
Proof.
  intros Hp. unfold remove_cutout. change (nofZ 10000) with 10000. rewrite !scale_R.
  destruct (classify_ok pip (map (scaled 10000) b) (map (scaled 10000) cs)) as ([[ins outs] bnds] & -> & Hc).
  { intros c Hin. apply in_map_iff in Hin as (c' & <- & Hin). now apply Hp. }
  cbn [bind]. destruct (remove_loop pip _ ri kc _ ins outs bnds Hc) as (out & -> & Ho). cbn [bind].
  rewrite pydiv_R by lra. cbn [bind]. change (nofZ 1) with 1. rewrite scale_R. eexists. split; [reflexivity|].
  apply keep_list_unscale in Ho; [|lra]. clear - Ho. set (out' := map _ out) in *. clearbody out'.
  exact Ho.
Qed.
Lemma remove_cutout_err pip cs b ri kc e : remove_cutout pip cs b ri kc = Err e ->
  exists c, In c cs /\ scaled_test pip b c = Err e.
Proof.
  intros H. unfold remove_cutout in H. change (nofZ 10000) with 10000 in H. rewrite !scale_R in H.
  apply bind_err in H as [H|([[ins outs] bnds] & E & H)].
  - (* the first point whose test fails *)
    assert (HH : forall l s, (forall i, In i l -> (0 <= i < zlen (map (scaled 10000) cs))%Z) ->
      foldM (classify_body pip (map (scaled 10000) cs) (map (scaled 10000) b)) l s = Err e -> exists c, In c cs /\ scaled_test pip b c = Err e).
    { induction l as [|i l IH]; intros s Hl Hf; [discriminate|]. cbn [foldM] in Hf.
      apply bind_err in Hf as [Hf|(s' & _ & Hf)]; [|eapply IH; eauto; intros; apply Hl; now right].
      destruct s as [[x y] z]. unfold classify_body in Hf.
      destruct (py_nth_ok _ i (Hl i (or_introl eq_refl))) as (c & Ec & Hn). rewrite Ec in Hf. cbn [bind] in Hf.
      apply nth_error_In, in_map_iff in Hn as (c' & <- & Hin). exists c'. split; auto. unfold scaled_test.
      destruct (pip _ (scaled 10000 c')) as [d|e'] eqn:Ed; cbn [bind] in Hf; [|congruence].
      destruct (nlt _ d); [discriminate|]. destruct (nlt d _); [discriminate|]. destruct (nis0 d); discriminate. }
    eapply HH; [|exact H]. intros i Hi. now apply in_zrange in Hi.
  - exfalso. apply bind_err in H as [H|(o & _ & H)].
    + assert (HH : forall l s, (forall i, In i l -> (0 <= i < zlen (map (scaled 10000) cs))%Z) ->
        foldM (fun acc i => if dropped ri kc ins outs bnds i then Ok acc
                        else let! c := py_nth (map (scaled 10000) cs) i in Ok (acc ++ [c])) l s = Err e -> False).
      { induction l as [|i l IH]; intros s Hl Hf; [discriminate|]. cbn [foldM] in Hf.
        apply bind_err in Hf as [Hf|(s' & _ & Hf)]; [|eapply IH; eauto; intros; apply Hl; now right].
        destruct (dropped _ _ _ _ _ i); [discriminate|].
        destruct (py_nth_ok _ i (Hl i (or_introl eq_refl))) as (c & Ec & Hn). rewrite Ec in Hf. discriminate. }
      eapply HH; [|exact H]. intros i Hi. now apply in_zrange in Hi.
    + rewrite pydiv_R in H by lra. discriminate.
Qed.

(** the points a cut-out keeps *)
Definition keeps (ri kc : bool) (d : R) : bool :=
  (if ri then nle d 0 else nle 0 d) && (kc || negb (nis0 d)).

Lemma keeps_kept ri kc d : keeps ri kc d = true <-> kept ri kc d.
Proof.
  unfold keeps, kept. rewrite andb_true_iff, orb_true_iff, negb_true_iff.
  assert (Hz : nis0 d = false <-> d <> 0) by (cbn [nis0 NumR]; destruct (Req_EM_T d 0); split; intros; congruence).
  rewrite Hz. destruct ri, kc; rewrite ?nle_R; (split; [intros [A B]|intros (A & B & C)]);
    repeat split; intros; try discriminate; auto; destruct B; auto; discriminate.
Qed.

Lemma keep_list_filter t b ri kc (side : R * R -> R) cs : forall out,
  (forall c, In c cs -> t b c = Ok (side c)) -> keep_list t b ri kc cs out ->
  out = filter (fun c => keeps ri kc (side c)) cs.
Proof.
  induction cs as [|c cs IH]; intros out Hs Ho; cbn [keep_list filter] in *; auto.
  destruct Ho as (d & Hd & Ho). rewrite (Hs c) in Hd by now left. injection Hd as <-.
  assert (Hs' : forall c', In c' cs -> t b c' = Ok (side c')) by (intros; apply Hs; now right).
  pose proof (keeps_kept ri kc (side c)) as Hk. destruct Ho as [(Hkk & o & -> & Ho)|(Hkk & Ho)].
  - apply Hk in Hkk. rewrite Hkk. f_equal. now apply IH.
  - destruct (keeps ri kc (side c)); [exfalso; now apply Hkk, Hk|]. now apply IH.
Qed.

Lemma remove_cutout_filter pip cs b ri kc side :
  (forall c, In c cs -> scaled_test pip b c = Ok (side c)) ->
  remove_cutout pip cs b ri kc = Ok (filter (fun c => keeps ri kc (side c)) cs).
Proof.
  intros Hs. destruct (remove_cutout_ok pip cs b ri kc) as (out & E & Ho); [intros c Hc; eauto|].
  rewrite E. f_equal. eapply keep_list_filter; [|exact Ho]. exact Hs.
Qed.

(** a total classification extending the oracle *)
Definition side_of (pip : oracle (F := R)) (b : list (R * R)) (c : R * R) : R :=
  match scaled_test pip b c with Ok d => d | Err _ => 0 end.

Lemma remove_cutout_result pip cs b ri kc out : remove_cutout pip cs b ri kc = Ok out ->
  (forall c, In c cs -> exists d, scaled_test pip b c = Ok d) /\
  out = filter (fun c => keeps ri kc (side_of pip b c)) cs.
Proof.
  intros H. assert (Ha : forall c, In c cs -> exists d, scaled_test pip b c = Ok d).
  { unfold remove_cutout in H. change (nofZ 10000) with 10000 in H. rewrite !scale_R in H.
    apply bind_ok in H as (s & H & _).
    assert (HH : forall l s s', (forall i, In i l -> (0 <= i < zlen (map (scaled 10000) cs))%Z) ->
       foldM (classify_body pip (map (scaled 10000) cs) (map (scaled 10000) b)) l s = Ok s' ->
       forall i c, In i l -> nth_error cs (Z.to_nat i) = Some c -> exists d, scaled_test pip b c = Ok d).
    { induction l as [|j l IH]; intros s0 s' Hl Hf i c Hi Hn; [destruct Hi|]. cbn [foldM] in Hf.
      apply bind_ok in Hf as (s1 & Hf & Hr). destruct Hi as [->|Hi].
      - destruct s0 as [[x y] z]. unfold classify_body in Hf.
        destruct (py_nth_ok _ i (Hl i (or_introl eq_refl))) as (c' & Ec & Hn'). rewrite Ec in Hf. cbn [bind] in Hf.
        rewrite nth_error_map, Hn in Hn'. injection Hn' as <-. unfold scaled_test.
        destruct (pip _ (scaled 10000 c)) as [d|e']; [eauto|discriminate].
      - eapply IH; eauto. intros; apply Hl; now right. }
    intros c Hc. apply In_nth_error in Hc as (n & Hn).
    assert (n < length cs)%nat by (apply nth_error_Some; congruence).
    eapply HH with (i := Z.of_nat n); [|exact H| |].
    - intros i Hi. now apply in_zrange in Hi.
    - apply in_zrange. unfold zlen. rewrite map_length. lia.
    - now rewrite Nat2Z.id. }
  split; auto. rewrite (remove_cutout_filter pip cs b ri kc (side_of pip b)) in H.
  - now injection H as <-.
  - intros c Hc. destruct (Ha c Hc) as (d & E). unfold side_of. now rewrite E.
Qed.

(** largest rectangle *)
Lemma largest_fold (l : list (R * R)) : forall m,
  let r := fold_left (fun (m p : R * R) =>
    (if nlt (fst m) (fst p) then fst p else fst m, if nlt (snd m) (snd p) then snd p else snd m)) l m in
  fst m <= fst r /\ snd m <= snd r /\
  (forall p, In p l -> fst p <= fst r /\ snd p <= snd r) /\
  (fst r = fst m \/ exists p, In p l /\ fst r = fst p) /\ (snd r = snd m \/ exists p, In p l /\ snd r = snd p).
Proof.
  induction l as [|p l IH]; intros m r.
  - cbn in r. subst r. repeat split; try lra; try tauto; contradiction.
  - cbn [fold_left] in r. set (m' := (if nlt (fst m) (fst p) then fst p else fst m, if nlt (snd m) (snd p) then snd p else snd m)) in r.
    specialize (IH m'). cbv zeta in IH. fold r in IH. destruct IH as (A & B & C & D & E).
    assert (Hx : fst m <= fst m' /\ fst p <= fst m' /\ (fst m' = fst m \/ fst m' = fst p)).
    { subst m'. cbn [fst]. destruct (nlt (fst m) (fst p)) eqn:Q; [apply nlt_R in Q|apply nlt_R_false in Q]; repeat split; try lra; tauto. }
    assert (Hy : snd m <= snd m' /\ snd p <= snd m' /\ (snd m' = snd m \/ snd m' = snd p)).
    { subst m'. cbn [snd]. destruct (nlt (snd m) (snd p)) eqn:Q; [apply nlt_R in Q|apply nlt_R_false in Q]; repeat split; try lra; tauto. }
    destruct Hx as (X1 & X2 & X3), Hy as (Y1 & Y2 & Y3).
    split; [lra|]. split; [lra|]. split; [intros q [<-|Hq]; [split; lra|auto]|]. split.
    + destruct D as [D|(q & Hq & D)]; [|right; exists q; split; auto; now right]. rewrite D.
      destruct X3 as [->| ->]; [now left|right; exists p; split; auto; now left].
    + destruct E as [D'|(q & Hq & D')]; [|right; exists q; split; auto; now right]. rewrite D'.
      destruct Y3 as [->| ->]; [now left|right; exists p; split; auto; now left].
Qed.

Lemma largest_rectangle (l : list (R * R)) : exists X Y : R,
  determine_largest_rectangle l = [(0, 0); (X, 0); (X, Y); (0, Y); (0, 0)] /\ 0 <= X /\ 0 <= Y /\
  (forall p, In p l -> fst p <= X /\ snd p <= Y) /\
  (X = 0 \/ exists p, In p l /\ X = fst p) /\ (Y = 0 \/ exists p, In p l /\ Y = snd p).
Proof.
  unfold determine_largest_rectangle. change (nofZ 0) with 0.
  pose proof (largest_fold l (0, 0)) as H. cbv zeta in H. destruct (fold_left _ l (0, 0)) as [X Y].
  cbn [fst snd] in H. exists X, Y. tauto.
Qed.

(** polygonal land *)
Definition on_property pip (prop : list (R * R)) : list (R * R) -> list (R * R) :=
  filter (fun c => keeps false true (side_of pip prop c)).
Definition off_building pip (build : list (R * R)) : list (R * R) -> list (R * R) :=
  filter (fun c => keeps true false (side_of pip build c)).
Definition nonempty {A} (l : list A) : bool := match l with [] => false | _ => true end.

Lemma cut_domain_fold pip prop build out : forall d acc,
  foldM (fun acc coordinates =>
           let! c := remove_cutout pip coordinates prop false true in
           if (zlen c =? 0)%Z then Ok acc
           else let! c := remove_cutout pip c build true false in Ok (acc ++ [c])) d acc = Ok out ->
  out = acc ++ map (off_building pip build) (filter nonempty (map (on_property pip prop) d)).
Proof.
  induction d as [|f0 d IH]; intros acc H; cbn [foldM] in H.
  - injection H as ->. cbn. now rewrite app_nil_r.
  - apply bind_ok in H as (acc' & E & H). rewrite (IH _ H).
    apply bind_ok in E as (c & E1 & E). apply remove_cutout_result in E1 as [_ E1].
    fold (on_property pip prop f0) in E1. cbn [map filter]. rewrite <- E1. destruct c as [|p c].
    + injection E as ->. reflexivity.
    + replace (zlen (p :: c) =? 0)%Z with false in E by (symmetry; apply Z.eqb_neq; unfold zlen; cbn [length]; lia).
      apply bind_ok in E as (c' & E2 & E). injection E as <-. apply remove_cutout_result in E2 as [_ ->].
      cbn [nonempty map]. now rewrite <- app_assoc.
Qed.
Lemma cut_domain_result pip prop build d out : cut_domain pip prop build d = Ok out ->
  out = map (off_building pip build) (filter nonempty (map (on_property pip prop) d)).
Proof. intros H. now apply cut_domain_fold in H. Qed.

Lemma nmax_Rmax (a b : R) : nmax a b = Rmax a b.
Proof. unfold nmax. destruct (nlt a b) eqn:Q; [apply nlt_R in Q; rewrite Rmax_right|apply nlt_R_false in Q; rewrite Rmax_left]; lra. Qed.

Lemma polygonal_result pip prop bmin bx by_ build out :
  polygonal_land_constraint pip prop bmin bx by_ build = Ok out ->
  exists X Y nested,
    determine_largest_rectangle prop = [(0, 0); (X, 0); (X, Y); (0, Y); (0, 0)] /\ 0 <= X /\ 0 <= Y /\
    bi_rectangle_nested X Y bmin bx by_ = Ok nested /\
    out = map (fun d => reorder_domain (map (off_building pip build) (filter nonempty (map (on_property pip prop) d)))) nested.
Proof.
  unfold polygonal_land_constraint. intros H. destruct (largest_rectangle prop) as (X & Y & E & HX & HY & _).
  rewrite E in *. cbn [map fst snd] in H.
  assert (Hmax : forall a : R, 0 <= a -> nmaxl [0; a; a; 0; 0] = Ok a /\ nmaxl [0; 0; a; a; 0] = Ok a).
  { intros a Ha. unfold nmaxl. cbn [fold_left]. rewrite !nmax_Rmax.
    rewrite (Rmax_right 0 a) by lra. rewrite (Rmax_left a a) by lra. rewrite !(Rmax_left a 0) by lra.
    rewrite (Rmax_left 0 0) by lra. rewrite (Rmax_right 0 a) by lra. rewrite (Rmax_left a a) by lra. rewrite (Rmax_left a 0) by lra. auto. }
  rewrite (proj1 (Hmax X HX)), (proj2 (Hmax Y HY)) in H. cbn [bind] in H.
  apply bind_ok in H as (nested & En & H). apply bind_ok in H as (cut & Ec & H). injection H as <-.
  exists X, Y, nested. repeat split; auto. clear En. revert cut Ec.
  induction nested as [|d nested IH]; intros cut Ec; cbn [mapM] in Ec.
  - injection Ec as <-. reflexivity.
  - apply bind_ok in Ec as (c & E1 & Ec). apply bind_ok in Ec as (cs & E2 & Ec). injection Ec as <-.
    apply cut_domain_result in E1. cbn [map]. rewrite <- E1. f_equal. now apply IH.
Qed.

Lemma keeps_ft d : keeps false true d = true <-> 0 <= d.
Proof. rewrite keeps_kept. unfold kept. split; [intros (_ & H & _); auto|intros; repeat split; intros; auto; discriminate]. Qed.
Lemma keeps_tf d : keeps true false d = true <-> d < 0.
Proof. rewrite keeps_kept. unfold kept. split; [intros (A & _ & B); specialize (A eq_refl); specialize (B eq_refl); lra|intros; repeat split; intros; try discriminate; lra]. Qed.

Lemma polygonal_allowed pip prop bmin bx by_ build out :
  polygonal_land_constraint pip prop bmin bx by_ build = Ok out ->
  forall d f c, In d out -> In f d -> In c f -> 0 <= side_of pip prop c /\ side_of pip build c < 0.
Proof.
  intros H d f c Hd Hf Hc. apply polygonal_result in H as (X & Y & nested & _ & _ & _ & _ & ->).
  apply in_map_iff in Hd as (d0 & <- & Hd0). apply reorder_in in Hf.
  apply in_map_iff in Hf as (f1 & <- & Hf1). apply filter_In in Hf1 as [Hf1 _].
  apply in_map_iff in Hf1 as (f0 & <- & Hf0).
  apply filter_In in Hc as [Hc Hk]. apply filter_In in Hc as [Hc Hk0]. apply keeps_ft in Hk0. now apply keeps_tf in Hk.
Qed.

Lemma cut_domain_tested pip prop build out : forall d acc,
  foldM (fun acc coordinates =>
           let! c := remove_cutout pip coordinates prop false true in
           if (zlen c =? 0)%Z then Ok acc
           else let! c := remove_cutout pip c build true false in Ok (acc ++ [c])) d acc = Ok out ->
  (forall f c, In f acc -> In c f -> exists v w, scaled_test pip prop c = Ok v /\ scaled_test pip build c = Ok w /\ 0 <= v /\ w < 0) ->
  forall f c, In f out -> In c f -> exists v w, scaled_test pip prop c = Ok v /\ scaled_test pip build c = Ok w /\ 0 <= v /\ w < 0.
Proof.
  induction d as [|f0 d IH]; intros acc H Hacc; cbn [foldM] in H.
  - injection H as ->. exact Hacc.
  - apply bind_ok in H as (acc' & E & H). apply (IH _ H). clear IH H.
    apply bind_ok in E as (c1 & E1 & E). apply remove_cutout_result in E1 as [T1 ->].
    destruct (zlen _ =? 0)%Z in E; [injection E as <-; exact Hacc|].
    apply bind_ok in E as (c2 & E2 & E). injection E as <-. apply remove_cutout_result in E2 as [T2 ->].
    intros f c Hf Hc. apply in_app_iff in Hf as [Hf|[<-|[]]]; [now apply (Hacc f)|].
    apply filter_In in Hc as [Hc Hk]. destruct (T2 c Hc) as (w & Ew). apply filter_In in Hc as [Hc Hk0].
    destruct (T1 c Hc) as (v & Ev). exists v, w. unfold side_of in Hk, Hk0. rewrite Ev in Hk0. rewrite Ew in Hk.
    apply keeps_ft in Hk0. apply keeps_tf in Hk. auto.
Qed.

Lemma polygonal_tested pip prop bmin bx by_ build out :
  polygonal_land_constraint pip prop bmin bx by_ build = Ok out ->
  forall d f c, In d out -> In f d -> In c f ->
  exists v w, scaled_test pip prop c = Ok v /\ scaled_test pip build c = Ok w /\ 0 <= v /\ w < 0.
Proof.
  unfold polygonal_land_constraint. intros H d f c Hd Hf Hc.
  apply bind_ok in H as (X & _ & H). apply bind_ok in H as (Y & _ & H). apply bind_ok in H as (nested & _ & H).
  apply bind_ok in H as (cut & Ec & H). injection H as <-. apply in_map_iff in Hd as (d1 & <- & Hd1). apply reorder_in in Hf.
  revert cut Ec Hd1. induction nested as [|n nested IH]; intros cut Ec Hd1; cbn [mapM] in Ec.
  - injection Ec as <-. destruct Hd1.
  - apply bind_ok in Ec as (c1 & E1 & Ec). apply bind_ok in Ec as (cs & E2 & Ec). injection Ec as <-.
    destruct Hd1 as [->|Hd1]; [|eapply IH; eauto]. unfold cut_domain in E1. eapply cut_domain_tested; [exact E1| |exact Hf|exact Hc]. intros g ? [].
Qed.
