(** BisectionZD (search_routines.py:264-363) succeeds, for every oracle *)
From Coq Require Import ZArith Reals List Bool Lia Lra.
From Verif Require Import Base Num Order BaseLemmas Utilities Search SearchSpec SearchProofs SearchTheorems SearchNested.
Import ListNotations.
Open Scope Z_scope.

Section Zoned.
Variable C : Type.
Context {F : Type} {N : Num F} {OF : Ordered F}.
Variable build : C -> F -> res unit.
Variable sim : C -> F -> res (xval F).
Variable sized : C -> res F.
Variable nbh : C -> Z.
Variable minH maxH : F.
Notation sstate := (sstate C (F := F)).
Notation search := (search C build sim minH maxH).
Notation successive_loop := (successive_loop C build sim sized nbh minH maxH).
Notation search_zd := (search_zd C build sim sized nbh minH maxH).
Notation reads := (reads C sim minH maxH).
Notation one_d := (one_d C build sim minH maxH).
Notation well_behaved := (well_behaved C build sim minH maxH).
Tactic Notation "minva" hyp(H) ident(a) ident(s1) ident(E) := apply mbind_ok in H; destruct H as (a & s1 & E & H).

Lemma xeq_refl (v : xval F) : xle0 v = true -> xeq v v = true.
Proof. destruct v; cbn; intro H; try discriminate; auto. now apply val_eq. Qed.

Lemma select_key_total (t : list (Z * xval F)) k v : In (k, v) t -> nonpos v -> exists k', select_key t = Ok k'.
Proof.
  intros Hin Hv. apply xle0_nonpos in Hv. unfold select_key.
  assert (Hf : In v (filter xle0 (map snd t))) by (apply filter_In; split; [apply in_map_iff; exists (k, v); auto|exact Hv]).
  destruct (filter xle0 (map snd t)) as [|a l] eqn:E; [destruct Hf|]. cbn [py_max bind].
  pose proof (pick_In (fun x y => xlt y x) l a) as Hp. set (m := pick _ _ _) in *. clearbody m. rewrite <- E in Hp. apply filter_In in Hp as [Hp Hm].
  apply in_map_iff in Hp as ([k1 v1] & Ev & Hin1). cbn in Ev. subst v1.
  unfold key_of. destruct (find _ t) as [[k2 v2]|] eqn:Ef; [eauto|].
  exfalso. apply (find_none _ _ Ef) in Hin1. cbn in Hin1. now rewrite xeq_refl in Hin1.
Qed.

Lemma least_total (hs : list (Z * F)) : hs <> [] -> exists m k, py_min (map snd hs) = Ok m /\ key_of neqb hs m = Ok k.
Proof.
  intro Hne. destruct hs as [|[k0 x0] hs]; [congruence|]. cbn [map snd py_min].
  destruct (pick_min (map snd hs) x0) as [H1 _]. set (m := pick _ _ _) in *. clearbody m. exists m.
  unfold key_of. destruct (find _ _) as [[k2 v2]|] eqn:Ef; [eauto|]. exfalso.
  change (In m (map snd ((k0, x0) :: hs))) in H1. apply in_map_iff in H1 as ([k1 v1] & Ev & Hin1). cbn in Ev. subst v1.
  apply (find_none _ _ Ef) in Hin1. cbn in Hin1. assert (neqb m m = true) by now apply val_eq. congruence.
Qed.

Lemma search_at (nested : list (list C)) mi d (s : sstate) : well_behaved d -> d <> [] ->
  dom C s = d -> temps C s = [] ->
  exists r s', search mi s = (r, s') /\ (r = Err ValueError \/ exists k c, r = Ok (Some (k, c))).
Proof.
  intros Hw Hd Ed Et. destruct (search_outcome C build sim minH maxH mi s) as (c0 & cR & tl & tu & tm & Hr & [((k & c & s' & E) & _)|((s' & E) & _)]); auto.
  - now rewrite Ed.
  - now rewrite Ed.
  - eexists _, s'. split; [exact E|]. eauto.
  - eexists _, s'. split; [exact E|]. auto.
Qed.

(** a field whose excess is nonpositive at the maximum height is left by every successful search of a domain whose first field is not enough at the minimum height *)
Lemma search_leaves_adequate mi d (s s' : sstate) k c : dom C s = d -> temps C s = [] -> search mi s = (Ok (Some (k, c)), s') ->
  (forall c0, nth_error d 0 = Some c0 -> exists v, sim c0 minH = Ok v /\ pos v) ->
  In c d /\ ghe C s' = (c, maxH) /\ recorded C sim maxH d (temps C s') /\ (exists x, sim c maxH = Ok x /\ nonpos x) /\ exists k', select_key (temps C s') = Ok k'.
Proof.
  intros Ed Et Es Hf. pose proof Es as Es'. apply (search_leaves C build sim minH maxH) in Es' as (k1 & c1 & [= <- <-] & Hk & En & Hg & _ & _ & _ & Hrec & Hsel); auto.
  rewrite Ed in *. split; [eapply nth_error_In; eauto|]. split; [exact Hg|]. split; [exact Hrec|].
  destruct Hsel as [Hsel|(c0 & cR & tl & tu & tm & (R1 & R2 & R3 & R4 & R5) & Ho & Hk0 & -> & Htm)].
  - destruct (select_key_nonpos _ _ Hsel) as (v & Hin & Hnp). destruct (Hrec _ _ Hin) as (_ & cx & Ecx & Hs). rewrite En in Ecx. injection Ecx as <-. eauto.
  - destruct (Hf c0 R1) as (v & Hv & Pv). rewrite Hv in R3. injection R3 as ->.
    assert (Nu : neg tu) by (destruct Ho as [(_ & ?)|(H1 & H2)]; [auto|exfalso; eauto using pos_not_neg]).
    assert (Np : nonpos tu) by (destruct Nu as (q & -> & Hq); right; exists q; split; [reflexivity|lra]).
    split; [eauto|]. rewrite Htm. unfold first_temps.
    destruct (Z.eqb_spec (zlen d) 1) as [e|].
    + rewrite e in R2. change (Z.to_nat (1 - 1)) with O in R2. assert (tm = tu) by congruence. subst tm. eapply select_key_total; [now left|exact Np].
    + eapply select_key_total; [now left|exact Np].
Qed.

Lemma successive_loop_total (nested : list (list C)) mi :
  (forall d, In d nested -> d <> [] /\ well_behaved d) ->
  (forall d c0, In d nested -> nth_error d 0 = Some c0 -> exists v, sim c0 minH = Ok v /\ pos v) ->
  (forall d c x, In d nested -> In c d -> sim c maxH = Ok x -> nonpos x -> exists H, sized c = Ok H) ->
  forall fuel old i (s : sstate), 0 <= i -> exists s', successive_loop fuel nested mi old i s = (Ok tt, s').
Proof.
  intros Hw Hf Hsz. induction fuel as [|fuel IH]; intros old i s Hi; [exists s; reflexivity|].
  cbn [Search.successive_loop]. destruct (Z.ltb_spec i (zlen nested)) as [L|L]; [|exists s; reflexivity].
  destruct (nth_error nested (Z.to_nat i)) as [d|] eqn:Ed; [|apply nth_error_None in Ed; unfold zlen in L; lia].
  pose proof (nth_error_In _ _ Ed) as Hd. destruct (Hw d Hd) as (Hne & Hwd).
  unfold mbind at 1, lift at 1. rewrite (proj2 (py_nth_nonneg nested i d Hi) Ed). unfold mbind at 1, modify at 1. unfold mbind at 1, modify at 1.
  set (sa := set_temps C [] (set_dom C d s)).
  destruct (search_at nested mi d sa Hwd Hne eq_refl eq_refl) as (r & s1 & Es & [->|(k & c & ->)]); rewrite Es.
  - exists s1. reflexivity.
  - destruct (search_leaves_adequate mi d sa s1 k c eq_refl eq_refl Es (fun c0 => Hf d c0 Hd)) as (Hc & Hg & _ & (x & Hx & Np) & _).
    destruct (Hsz d c x Hd Hc Hx Np) as (H & EH).
    unfold mbind, get, modify, lift, ret, need, ret. cbn [ghe set_temps_nested]. rewrite Hg. cbn [fst]. rewrite EH.
    cbv beta iota. match goal with |- context [nlt old ?t] => destruct (nlt old t) end; [eexists; reflexivity|]. apply IH. lia.
Qed.

Lemma search_zd_succeeds nested mi (s : sstate) c00 d0 dl cl :
  temps C s = [] -> nth_error nested 0 = Some d0 -> nth_error d0 0 = Some c00 ->
  nth_error nested (length nested - 1) = Some dl -> py_nth dl (-1) = Ok cl ->
  (forall d, In d nested -> d <> [] /\ well_behaved d) ->
  (forall d c0, In d nested -> nth_error d 0 = Some c0 -> exists v, sim c0 minH = Ok v /\ pos v) ->
  (exists v, sim c00 maxH = Ok v /\ neg v) \/ (exists v, sim cl maxH = Ok v /\ neg v) ->
  (forall d c x, In d nested -> In c d -> sim c maxH = Ok x -> nonpos x -> exists H, sized c = Ok H) ->
  exists ko k c s', search_zd nested mi s = (Ok (ko, k, c), s').
Proof.
  intros Ht E0 E00 Edl Ecl Hw Hf Hen Hsz.
  assert (Hlast : forall d, In d nested -> exists l, py_nth d (-1) = Ok l).
  { intros d Hd. destruct (Hw d Hd) as (Hne & _).
    destruct (rev d) as [|x xs] eqn:Er; apply (f_equal (@rev _)) in Er; rewrite rev_involutive in Er; subst d; [now elim Hne|].
    exists x. apply py_nth_last. exists (rev xs). reflexivity. }
  assert (HM : exists lasts, mapM (fun d : list C => py_nth d (-1)) nested = Ok lasts).
  { clear - Hlast. induction nested as [|d nested IH]; cbn; [eauto|].
    destruct (Hlast d) as (l & ->); [now left|]. destruct IH as (ls & ->); [intros; apply Hlast; now right|]. cbn; eauto. }
  destruct HM as (lasts & HM). pose proof (proj1 (mapM_ok _ _ _) HM) as HF.
  assert (Eo : outer_domain C nested = Ok (c00 :: lasts)).
  { unfold outer_domain. rewrite (proj2 (py_nth_nonneg nested 0 d0 ltac:(lia)) E0). cbn [bind]. rewrite (proj2 (py_nth_nonneg d0 0 c00 ltac:(lia)) E00). cbn [bind]. now rewrite HM. }
  assert (Hlen : zlen nested = zlen lasts) by (eapply Forall2_zlen; eauto).
  assert (Hin_l : forall n l, nth_error lasts n = Some l -> exists d, nth_error nested n = Some d /\ py_nth d (-1) = Ok l)
    by (intros n l E; exact (Forall2_nth _ _ _ _ _ HF E)).
  pose proof (nth_error_In _ _ E0) as Hd0. pose proof (nth_error_In _ _ E00) as Hc00.
  assert (Hwo : well_behaved (c00 :: lasts)).
  { intros c H Hin HH. destruct Hin as [<-|Hin].
    - apply (proj2 (Hw d0 Hd0)); [exact Hc00|]. destruct HH as [->|(-> & _)]; auto.
    - destruct HH as [->|(-> & E)].
      + apply In_nth_error in Hin as (n & E). apply Hin_l in E as (d & Ed & El). apply (proj2 (Hw d (nth_error_In _ _ Ed))); [eapply py_nth_In; eauto|auto].
      + injection E as <-. apply (proj2 (Hw d0 Hd0)); auto. }
  destruct (Hf d0 c00 Hd0 E00) as (vl & Hvl & Pl).
  destruct (proj2 (Hw d0 Hd0) c00 maxH Hc00 (or_introl eq_refl)) as (_ & vu & Hvu & Su).
  assert (Hlast_o : nth_error (c00 :: lasts) (Z.to_nat (zlen (c00 :: lasts) - 1)) = Some cl).
  { assert (1 <= zlen nested). { destruct nested; [discriminate|]. rewrite zlen_cons. pose proof (zlen_nonneg nested). lia. }
    rewrite zlen_cons. replace (Z.to_nat (zlen lasts + 1 - 1)) with (S (length nested - 1)) by (unfold zlen in *; lia). cbn [nth_error].
    assert (length nested - 1 < length lasts)%nat by (unfold zlen in *; lia).
    destruct (nth_error lasts (length nested - 1)) as [l|] eqn:E; [|apply nth_error_None in E; lia].
    apply Hin_l in E as (d & Ed & El). congruence. }
  set (so := set_temps_nested C [] (set_dom C (c00 :: lasts) s)).
  destruct (search_outcome C build sim minH maxH mi so) as (c0 & cR & tl & tu & tm & (R1 & R2 & R3 & R4 & R5) & Ho); auto.
  { cbn. discriminate. }
  unfold so in R1, R2; cbn [dom set_dom set_temps_nested] in R1, R2. cbn [nth_error] in R1. injection R1 as <-.
  rewrite Hlast_o in R2. injection R2 as <-. rewrite Hvl in R3; injection R3 as <-. rewrite Hvu in R4; injection R4 as <-.
  destruct Ho as [((k0 & co & s1 & Es) & _)|(_ & Ha & Hb)].
  2:{ exfalso. destruct Ha as [(_ & Pu)|(Nl & _)]; [|eauto using pos_not_neg].
      destruct Hen as [(v & Hv & Nv)|(v & Hv & Nv)].
      - rewrite Hvu in Hv. injection Hv as <-. eauto using pos_not_neg.
      - rewrite Hv in R5. injection R5 as <-. destruct Hb as [(_ & P)|(Nn & _)]; eauto using pos_not_neg. }
  (* the domain the successive search begins with *)
  pose proof Es as Ef. apply (selected_feasible C (OF := OF)) in Ef as (k' & c' & [= <- <-] & Hk & Enk & _ & Hq); auto.
  unfold so in Hk, Enk; cbn [dom set_dom set_temps_nested] in Hk, Enk. rewrite zlen_cons in Hk.
  set (i0 := if 0 <? k0 then k0 - 1 else k0).
  assert (Hi0 : 0 <= i0) by (unfold i0; destruct (Z.ltb_spec 0 k0); lia).
  assert (Hfirst : exists d, nth_error nested (Z.to_nat i0) = Some d /\ exists c0 cR vu vm, nth_error d 0 = Some c0 /\ nth_error d (Z.to_nat (zlen d - 1)) = Some cR
     /\ sim c0 maxH = Ok vu /\ sim cR maxH = Ok vm /\ (neg vu \/ neg vm)).
  { assert (Hq' : exists q, sim co maxH = Ok (Fin q) /\ (val q < 0)%R).
    { destruct Hq as [Hq|(-> & q & q' & Hq & Hq0 & _)]; [auto|]. cbn in Enk. injection Enk as <-.
      rewrite Hvl in Hq. injection Hq as ->. exfalso. destruct Pl as (x & [= <-] & ?). lra. }
    destruct Hq' as (q & Hq1 & Hq0). unfold i0. destruct (Z.ltb_spec 0 k0) as [Hp|Hp].
    - replace (Z.to_nat k0) with (S (Z.to_nat (k0 - 1))) in Enk by lia. cbn [nth_error] in Enk. apply Hin_l in Enk as (d & Ed & El).
      exists d. split; [exact Ed|]. pose proof (nth_error_In _ _ Ed) as Hd. destruct (Hw d Hd) as (Hne & Hwd).
      apply py_nth_last in El as (a & El). destruct d as [|c0 d']; [now elim Hne|].
      destruct (Hwd c0 maxH (or_introl eq_refl) (or_introl eq_refl)) as (_ & v0 & Hv0 & _).
      exists c0, co, v0, (Fin q). split; [reflexivity|]. split.
      + rewrite El, zlen_app, zlen_cons, (@zlen_nil C), nth_error_app2 by (unfold zlen; lia).
        replace (Z.to_nat (zlen a + (0 + 1) - 1) - length a)%nat with O by (unfold zlen; lia). reflexivity.
      + split; [exact Hv0|]. split; [exact Hq1|]. right. exists q. auto.
    - assert (k0 = 0) by lia. subst k0. cbn in Enk. injection Enk as <-. exists d0. split; [exact E0|].
      assert (Hz : (Z.to_nat (zlen d0 - 1) < length d0)%nat) by (destruct d0; [discriminate|unfold zlen; cbn [length]; lia]).
      destruct (nth_error d0 (Z.to_nat (zlen d0 - 1))) as [cR|] eqn:ER; [|apply nth_error_None in ER; lia].
      destruct (proj2 (Hw d0 Hd0) cR maxH (nth_error_In _ _ ER) (or_introl eq_refl)) as (_ & v0 & Hv0 & _).
      exists c00, cR, (Fin q), v0. split; [exact E00|]. split; [congruence|]. split; [exact Hq1|]. split; [exact Hv0|]. left. exists q. auto. }
  destruct Hfirst as (di & Edi & c0 & cR & tu & tn & Q1 & Q2 & Q3 & Q4 & Q5). pose proof (nth_error_In _ _ Edi) as Hdi.
  (* its search succeeds *)
  assert (Hone : ~ one_d mi di (Err ValueError)).
  { intro Ho. specialize (Ho (c0, maxH)). destruct (Hw di Hdi) as (Hne & Hwd).
    destruct (search_outcome C build sim minH maxH mi (start C di (c0, maxH))) as (c0' & cR' & tl & tu' & tm' & (R1 & R2 & R3 & R4 & R6) & Hout); auto.
    cbn [dom start] in R1, R2. rewrite Q1 in R1. injection R1 as <-. rewrite Q2 in R2. injection R2 as <-.
    rewrite Q3 in R4. injection R4 as <-. rewrite Q4 in R6. injection R6 as <-.
    destruct (Hf di c0 Hdi Q1) as (w & Hw1 & Pw). rewrite Hw1 in R3. injection R3 as ->.
    destruct Hout as [((k & c & s' & E) & _)|(_ & Ha & Hb)]; [rewrite E in Ho; discriminate|].
    destruct Ha as [(_ & Pu)|(Nl & _)]; [|eauto using pos_not_neg]. destruct Q5 as [Q5|Q5]; [eauto using pos_not_neg|].
    destruct Hb as [(_ & P)|(Nn & _)]; eauto using pos_not_neg. }
  (* the loop *)
  destruct (keeps_search C build sim minH maxH mi so) as (K1 & K2). rewrite Es in K1, K2. cbn [snd] in K1, K2.
  set (sb := set_heights C [] s1).
  destruct (successive_loop_total nested mi Hw Hf Hsz 7 (nofZ 99999) i0 sb Hi0) as (sl & El).
  pose proof El as El'. apply (successive_loop_ok C build sim sized nbh minH maxH) in El' as (vs & tn' & G1 & G2 & G3 & G4 & G5 & G6 & G7 & G8); [|exact Hi0| |].
  2:{ cbn. intros ? []. }
  2:{ cbn. rewrite K2. cbn. intros ? []. }
  cbn in G1, G2. rewrite K2 in G2. cbn in G2.
  assert (Hvs : vs <> []).
  { intros ->. change (zlen (@nil (visit C (F := F)))) with 0 in *. destruct G8 as [G8|[G8|[G8|(d & Hd & G8)]]].
    - discriminate.
    - assert (Z.to_nat i0 < length nested)%nat by (apply nth_error_Some; congruence). unfold zlen in G8. lia.
    - exact G8.
    - rewrite Z.add_0_r, Edi in Hd. injection Hd as <-. auto. }
  destruct (least_total (heights C sl)) as (m & ko & Em & Ek).
  { rewrite G1. destruct vs; [now elim Hvs|discriminate]. }
  assert (Hko : exists v, In v vs /\ v_idx v = ko).
  { destruct (least_entry _ _ _ Em Ek) as (h1 & x & h2 & Eh & _). rewrite G1 in Eh.
    assert (Hin : In (ko, x) (map (fun v => (v_idx v, v_drill v)) vs)) by (rewrite Eh; apply in_app_iff; right; now left).
    apply in_map_iff in Hin as (v & [= <- _] & Hin). eauto. }
  destruct Hko as (v & Hin & Ev).
  assert (Hkept : exists t d' s2 s3, dict_get tn' ko = Ok t /\ nth_error nested (Z.to_nat ko) = Some d' /\ dom C s2 = d' /\ temps C s2 = []
     /\ search mi s2 = (Ok (Some (v_key v, v_field v)), s3) /\ t = temps C s3).
  { assert (HndI : NoDup (map v_idx vs)) by (rewrite G3; apply NoDup_zrange).
    clear - G5 HndI Hin Ev. revert HndI Hin. unfold good_temps in G5. induction G5 as [|w [j tt] vs tn (Hj & Hw) HF IH]; intros Hnd Hin; [destruct Hin|].
    cbn [fst snd] in *. cbn [map] in Hnd. inversion Hnd as [|? ? Hni Hnd']; subst. cbn [dict_get].
    destruct Hin as [<-|Hin].
    - rewrite Z.eqb_refl. destruct Hw as (d & s0 & s1 & ? & ? & ? & ? & ?). exists tt, d, s0, s1. auto 10.
    - destruct (Z.eqb_spec (v_idx v) (v_idx w)) as [e|]; [exfalso; apply Hni; rewrite <- e; now apply in_map|auto]. }
  destruct Hkept as (t & d & s2 & s3 & Et & Ed & Hd2 & Ht2 & Es2 & Et3).
  pose proof (nth_error_In _ _ Ed) as Hd.
  destruct (search_leaves_adequate mi d s2 s3 _ _ Hd2 Ht2 Es2 (fun c => Hf d c Hd)) as (_ & _ & Hrec & _ & (k & Ek2)). rewrite <- Et3 in *.
  destruct (select_key_nonpos _ _ Ek2) as (x & Hinx & Hnp). destruct (Hrec _ _ Hinx) as (Hkr & c & Ec & Hsx).
  pose proof (nth_error_In _ _ Ec) as Hc. destruct (Hsz d c x Hd Hc Hsx Hnp) as (H & EH).
  destruct (proj2 (Hw d Hd) c maxH Hc (or_introl eq_refl)) as ((u & Eb) & _).
  assert (Hko0 : 0 <= ko). { assert (Hz : In ko (map v_idx vs)) by (rewrite <- Ev; now apply in_map). rewrite G3 in Hz. apply in_zrange in Hz. lia. }
  exists ko, k, c. eexists.
  unfold Search.search_zd. unfold mbind at 1, lift at 1. rewrite Eo. unfold mbind at 1, modify at 1. unfold mbind at 1, modify at 1. fold so.
  unfold mbind at 1. rewrite Es. unfold mbind at 1, need at 1, ret at 1. cbn [fst]. fold i0. unfold mbind at 1, modify at 1. fold sb.
  unfold search_successive. unfold mbind at 1. rewrite El. unfold mbind at 1, get at 1. unfold mbind at 1, lift at 1. rewrite Em.
  unfold mbind at 1, lift at 1. rewrite Ek. unfold mbind at 1, get at 1. rewrite G2. unfold mbind at 1, lift at 1. rewrite Et.
  unfold mbind at 1, modify at 1. unfold mbind at 1, lift at 1. rewrite Ek2. unfold mbind at 1, lift at 1. rewrite (proj2 (py_nth_nonneg nested ko d Hko0) Ed).
  unfold mbind at 1, lift at 1. rewrite (proj2 (py_nth_nonneg d k c (proj1 Hkr)) Ec). unfold mbind at 1, initialize_ghe at 1. unfold mbind at 1, lift at 1. rewrite Eb.
  unfold modify at 1. unfold mbind at 1, lift at 1. rewrite EH. unfold mbind, modify, ret. reflexivity.
Qed.
End Zoned.
