(** Proofs about the search model, for every oracle *)
From Coq Require Import ZArith Reals List Bool Lia Lra Sorted.
From Verif Require Import Base Num Order BaseLemmas Utilities Search SearchSpec.
Import ListNotations.
Open Scope Z_scope.

Section Values.
Context {F : Type} {N : Num F} {OF : Ordered F}.
Implicit Types (v : xval F) (q : F).

(** ** sign and bracket *)
Lemma sign_ok v z : sign v = Ok z <->
  exists q, v = Fin q /\ ((val q > 0)%R /\ z = 1 \/ (val q < 0)%R /\ z = -1).
Proof.
  destruct v as [q| |]; cbn [sign].
  - destruct (nis0 q) eqn:E.
    + apply val_is0 in E. split; [discriminate|]. intros (q' & [= <-] & H). destruct H as [[H _]|[H _]]; lra.
    + assert (Hn : val q <> 0%R) by (intros H; apply val_is0 in H; congruence).
      destruct (nle (nofZ 0) q) eqn:L.
      * apply val_0le in L. split.
        -- intros [= <-]. exists q. split; auto. left. split; auto. lra.
        -- intros (q' & [= <-] & [[H ->]|[H ->]]); auto. lra.
      * apply val_0le_false in L.
        split.
        -- intros [= <-]. exists q; auto.
        -- intros (q' & [= <-] & [[H' ->]|[H' ->]]); auto. lra.
  - split; [discriminate|intros (q & ? & _); discriminate].
  - split; [discriminate|intros (q & ? & _); discriminate].
Qed.

Lemma sign_err v e : sign v = Err e <->
  (e = ZeroDivisionError /\ exists q, v = Fin q /\ (val q = 0)%R) \/ (e = ValueError /\ (v = NegInf \/ v = NonFin)).
Proof.
  destruct v as [q| |]; cbn [sign].
  - destruct (nis0 q) eqn:E.
    + apply val_is0 in E. split; [intros [= <-]; left; eauto|].
      intros [(-> & _)|(_ & [?|?])]; [reflexivity|discriminate..].
    + split; [discriminate|]. intros [(_ & q' & [= <-] & H)|(_ & [?|?])]; try discriminate.
      apply val_is0 in H; congruence.
  - split; [intros [= <-]; right; auto|]. intros [(_ & q & ? & _)|(-> & _)]; [discriminate|reflexivity].
  - split; [intros [= <-]; right; auto|]. intros [(_ & q & ? & _)|(-> & _)]; [discriminate|reflexivity].
Qed.

Lemma check_bracket_spec a b : check_bracket a b = true <-> (a < 0 < b \/ b < 0 < a).
Proof.
  unfold check_bracket.
  destruct (Z.ltb_spec a 0), (Z.ltb_spec 0 b), (Z.ltb_spec b 0), (Z.ltb_spec 0 a); cbn; split; intros; try lia; auto; discriminate.
Qed.

Lemma sign_pos v : sign v = Ok 1 <-> pos v.
Proof. rewrite sign_ok. split; intros (q & -> & H); exists q; split; auto. destruct H as [[? _]|[_ ?]]; [auto|discriminate]. Qed.
Lemma sign_neg v : sign v = Ok (-1) <-> neg v.
Proof. rewrite sign_ok. split; intros (q & -> & H); exists q; split; auto. destruct H as [[_ ?]|[? _]]; [discriminate|auto]. Qed.
Lemma sign_cases v z : sign v = Ok z -> (z = 1 /\ pos v) \/ (z = -1 /\ neg v).
Proof. rewrite sign_ok. intros (q & -> & [[H ->]|[H ->]]); [left|right]; split; auto; exists q; auto. Qed.

(** ** selection *)
Lemma xle0_iff v : (exists z, sign v = Ok z) -> (xle0 v = true <-> neg v).
Proof.
  intros (z & Hz). apply sign_cases in Hz as [(_ & q & -> & H)|(_ & q & -> & H)]; cbn.
  - split; [intros L; apply val_le0 in L; lra|]. intros (q' & [= <-] & H'). lra.
  - split; [intros _; exists q; auto|]. intros _. apply val_le0. lra.
Qed.

Lemma xlt_Fin a b : xlt (Fin a) (Fin b) = true <-> (val a < val b)%R.
Proof.
  apply val_lt.
Qed.

Lemma pick_In {A} (better : A -> A -> bool) l a : In (pick better a l) (a :: l).
Proof.
  revert a; induction l as [|b l IH]; intros a; cbn [pick]; [now left|].
  destruct (IH (if better b a then b else a)) as [<-|H].
  - destruct (better b a); [right; now left|now left].
  - right; now right.
Qed.

Lemma pick_max_neg l a : Forall neg (a :: l) ->
  exists q, pick (fun x y => xlt y x) a l = Fin q /\ forall q', In (Fin q') (a :: l) -> (val q' <= val q)%R.
Proof.
  revert a; induction l as [|b l IH]; intros a H; cbn [pick].
  - inversion H as [|? ? (q & -> & Hq) _]; subst. exists q. split; auto. intros q' [[= ->]|[]]. lra.
  - inversion H as [|? ? Ha Hl]; subst. inversion Hl as [|? ? Hb Hl']; subst.
    destruct Ha as (qa & -> & Ha), Hb as (qb & -> & Hb).
    destruct (xlt (Fin qa) (Fin qb)) eqn:E.
    + destruct (IH (Fin qb)) as (q & E' & Hq); [constructor; auto; exists qb; auto|].
      exists q. split; auto. intros q' [[= <-]|[[= <-]|Hin]].
      * apply xlt_Fin in E. assert (val qb <= val q)%R by (apply Hq; now left). lra.
      * apply Hq; now left.
      * apply Hq; now right.
    + destruct (IH (Fin qa)) as (q & E' & Hq); [constructor; auto; exists qa; auto|].
      exists q. split; auto. intros q' [[= <-]|[[= <-]|Hin]].
      * apply Hq; now left.
      * assert (~ (val qa < val qb)%R) by (intros L; apply xlt_Fin in L; congruence).
        assert (val qa <= val q)%R by (apply Hq; now left). lra.
      * apply Hq; now right.
Qed.

Definition signed (t : list (Z * xval F)) : Prop := forall k v, In (k, v) t -> exists z, sign v = Ok z.

(** the first entry (in insertion order) among those with the largest negative value *)
Lemma select_key_spec t : signed t -> (exists k v, In (k, v) t /\ neg v) ->
  exists k q, select_key t = Ok k /\ In (k, Fin q) t /\ (val q < 0)%R
    /\ (forall k' q', In (k', Fin q') t -> (val q' < 0)%R -> (val q' <= val q)%R)
    /\ (exists t1 q1 t2, t = t1 ++ (k, Fin q1) :: t2 /\ (val q1 = val q)%R
         /\ forall k' q', In (k', Fin q') t1 -> ~ (val q' = val q)%R).
Proof.
  intros Hs (k0 & v0 & Hin0 & Hneg0). unfold select_key.
  assert (HF : Forall neg (filter xle0 (map snd t))).
  { apply Forall_forall. intros v Hv. apply filter_In in Hv as [Hv Hle].
    apply in_map_iff in Hv as ([k v'] & <- & Hv). cbn in Hle |- *. apply xle0_iff in Hle; eauto. }
  assert (Hin1 : In v0 (filter xle0 (map snd t))).
  { apply filter_In. split; [apply in_map_iff; exists (k0, v0); auto|]. apply xle0_iff; eauto. }
  destruct (filter xle0 (map snd t)) as [|a l] eqn:Ef; [destruct Hin1|].
  cbn [py_max bind]. destruct (pick_max_neg l a HF) as (q & Eq & Hmax). rewrite Eq.
  assert (Hinq : In (Fin q) (a :: l)) by (rewrite <- Eq; apply pick_In).
  assert (Hq0 : (val q < 0)%R).
  { rewrite Forall_forall in HF. destruct (HF _ Hinq) as (q' & [= <-] & ?); auto. }
  rewrite <- Ef in Hinq. apply filter_In in Hinq as [Hinq _]. apply in_map_iff in Hinq as ([kq vq] & Ev & Hinq).
  cbn in Ev; subst vq.
  unfold key_of. destruct (find _ t) as [[k v]|] eqn:Efind.
  - pose proof (find_some _ _ Efind) as [Hin Hxeq]. cbn in Hxeq.
    destruct v as [q1| |]; try discriminate. cbn in Hxeq. apply val_eq in Hxeq.
    exists k. exists q1. cbn [fst]. split; auto. split; auto. split; [lra|]. split.
    + intros k' q' Hin' Hlt. assert (val q' <= val q)%R; [|lra]. apply Hmax. rewrite <- Ef. apply filter_In. split.
      * apply in_map_iff. exists (k', Fin q'); auto.
      * cbn. apply val_le0. lra.
    + clear - Efind Hxeq. revert Efind. induction t as [|[k2 v2] t IH]; cbn; [discriminate|].
      destruct (xeq v2 (Fin q)) eqn:E.
      * intros [= -> ->]. exists [], q1, t. split; [reflexivity|]. split; [lra|]. intros ? ? [].
      * intros H. destruct (IH H) as (t1 & q2 & t2 & -> & Hq2 & Ht1). exists ((k2, v2) :: t1), q2, t2. split; auto.
        split; auto. intros k' q' [[= <- ->]|Hin]; [|eauto]. intros He. cbn in E.
        assert (neqb q' q = true) by (apply val_eq; lra). congruence.
  - exfalso. pose proof (find_none _ _ Efind _ Hinq) as Hn. cbn in Hn.
    assert (neqb q q = true) by (apply val_eq; lra). congruence.
Qed.

End Values.

(** ** dictionaries *)
Lemma dict_set_fresh {V} (d : list (Z * V)) k v : ~ In k (map fst d) -> dict_set d k v = d ++ [(k, v)].
Proof.
  induction d as [|[k' v'] d IH]; cbn; auto. intros H.
  destruct (Z.eqb_spec k k') as [->|Hk]; [tauto|]. rewrite IH; tauto.
Qed.
Lemma dict_get_In {V} (d : list (Z * V)) k v : NoDup (map fst d) -> In (k, v) d -> dict_get d k = Ok v.
Proof.
  induction d as [|[k' v'] d IH]; cbn; intros Hnd H; [destruct H|]. inversion Hnd as [|? ? Hk Hnd']; subst.
  destruct H as [[= -> ->]|H]; [now rewrite Z.eqb_refl|].
  destruct (Z.eqb_spec k k') as [->|]; auto. exfalso; apply Hk. apply in_map_iff; exists (k', v); auto.
Qed.

Section Proofs.
Variable C : Type.
Context {F : Type} {N : Num F} {OF : Ordered F}.
Variable build : C -> F -> res unit.
Variable sim : C -> F -> res (xval F).
Variable minH maxH : F.
Notation sstate := (sstate C (F := F)).
Notation M := (M C (F := F)).
Notation search := (search C build sim minH maxH).
Notation bisect_loop := (bisect_loop C build sim maxH).
Notation calculate_excess := (calculate_excess C build sim).
Notation initialize_ghe := (initialize_ghe C build).
Notation recorded := (recorded C sim maxH).
Notation reads := (reads C sim minH maxH).
Notation oracle_err := (oracle_err C build sim).

Lemma mbind_inv {A B} (m : M A) (k : A -> M B) s r s' :
  mbind C m k s = (r, s') ->
  (exists e, m s = (Err e, s') /\ r = Err e) \/ (exists a s1, m s = (Ok a, s1) /\ k a s1 = (r, s')).
Proof. unfold mbind. destruct (m s) as [[a|e] s1]; intros H; [right; eauto|left]. injection H as <- <-; eauto. Qed.

Lemma mbind_ok {A B} (m : M A) (k : A -> M B) s b s' :
  mbind C m k s = (Ok b, s') <-> exists a s1, m s = (Ok a, s1) /\ k a s1 = (Ok b, s').
Proof.
  unfold mbind. destruct (m s) as [[a|e] s1]; split; intros H; eauto.
  - destruct H as (? & ? & [= <- <-] & H); auto.
  - discriminate.
  - destruct H as (? & ? & ? & _); discriminate.
Qed.

Ltac minv H := apply mbind_ok in H; destruct H as (? & ? & ? & H).
Tactic Notation "minva" hyp(H) "as" ident(a) ident(s1) := apply mbind_ok in H; destruct H as (a & s1 & H0 & H).

Lemma initialize_ghe_ok c H s u s' :
  initialize_ghe c H s = (Ok u, s') <-> (exists u, build c H = Ok u) /\ s' = set_ghe C (c, H) s.
Proof.
  unfold Search.initialize_ghe, mbind, lift, modify. destruct u, (build c H) as [u|e]; split.
  - intros [= <-]; eauto.
  - intros (_ & ->); auto.
  - discriminate.
  - intros ((u & ?) & _); discriminate.
Qed.

Lemma calculate_excess_ok c H s v s' :
  calculate_excess c H s = (Ok v, s') <->
  (exists u, build c H = Ok u) /\ sim c H = Ok v /\ s' = set_ghe C (c, H) (add_trace C (c, H) s).
Proof.
  unfold Search.calculate_excess, Search.initialize_ghe, mbind, lift, modify.
  destruct (build c H) as [u|e]; split.
  - intros [= -> <-]; eauto.
  - intros (_ & -> & ->); auto.
  - discriminate.
  - intros ((u & ?) & _); discriminate.
Qed.


(** ceil((a+b)/2) *)
Lemma ceil_half a b : a < b -> let c := - ((- (a + b)) / 2) in
  (c = b /\ b = a + 1) \/ (a < c < b /\ b - c <= c - a <= b - c + 1).
Proof. intros H c. pose proof (Z_div_mod_eq_full (- (a + b)) 2). pose proof (Z.mod_pos_bound (- (a + b)) 2). subst c. lia. Qed.

Lemma bisect_loop_ok : forall fuel sL xL xR i s r s',
  bisect_loop fuel sL xL xR i s = (Ok r, s') ->
  0 <= xL < xR -> xR < zlen (dom C s) ->
  (forall k v, In (k, v) (temps C s) -> k <= xL \/ xR <= k) ->
  recorded (dom C s) (temps C s) -> NoDup (map fst (temps C s)) -> signed (temps C s) ->
  (exists v, In (xL, v) (temps C s) /\ sign v = Ok sL) ->
  (exists v, In (xR, v) (temps C s) /\ sign v = Ok (- sL)) ->
  exists xL' xR' i' tn cn,
    r = (xL', xR', i') /\ xL <= xL' < xR' /\ xR' <= xR
    /\ dom C s' = dom C s /\ temps_nested C s' = temps_nested C s /\ heights C s' = heights C s
    /\ temps C s' = temps C s ++ tn /\ zlen tn = i' - i
    /\ trace C s' = trace C s ++ cn /\ zlen cn = i' - i
    /\ recorded (dom C s) (temps C s') /\ NoDup (map fst (temps C s')) /\ signed (temps C s')
    /\ (exists v, In (xL', v) (temps C s') /\ sign v = Ok sL)
    /\ (exists v, In (xR', v) (temps C s') /\ sign v = Ok (- sL))
    /\ i <= i' <= i + Z.of_nat fuel
    /\ (forall m, 0 <= m -> xR - xL <= 2 ^ m -> i' - i <= m)
    /\ (xR - xL <= 2 ^ Z.of_nat fuel -> xR' = xL' + 1).
Proof.
  induction fuel as [|fuel IH]; intros sL xL xR i s r s' H HLR HR Hout Hrec Hnd Hsg HvL HvR.
  - cbn in H. injection H as <- <-. exists xL, xR, i, [], []. rewrite !app_nil_r, !(@zlen_nil (Z * xval F)), !(@zlen_nil (C * F)).
    repeat (split; [solve [auto|lia]|]). change (2 ^ Z.of_nat 0) with 1. lia.
  - cbn [Search.bisect_loop] in H. set (c := - ((- (xL + xR)) / 2)) in H.
    pose proof (ceil_half xL xR ltac:(lia)) as Hc. cbv zeta in Hc. fold c in Hc.
    destruct ((c =? xL) || (c =? xR)) eqn:Estop.
    + assert (xR = xL + 1). { apply orb_true_iff in Estop. rewrite !Z.eqb_eq in Estop. lia. }
      injection H as <- <-. exists xL, xR, i, [], []. rewrite !app_nil_r, !(@zlen_nil (Z * xval F)), !(@zlen_nil (C * F)).
      repeat (split; [solve [auto|lia]|]). lia.
    + apply orb_false_iff in Estop. rewrite !Z.eqb_neq in Estop.
      assert (Hcs : xL < c < xR /\ xR - c <= c - xL <= xR - c + 1) by lia. clear Hc.
      minv H. injection H0 as <- <-. minv H. unfold lift in H0. injection H0 as E0 <-.
      minv H. apply calculate_excess_ok in H0 as (_ & Hsim & ->).
      minv H. unfold record_temp, mbind, get, modify in H0. injection H0 as _ <-.
      minv H. unfold lift in H0. injection H0 as Esg <-.
      destruct (py_nth_ok (dom C s) c) as (c' & Ec & Enth); [lia|].
      rewrite Ec in E0; injection E0 as ->. rename x into cc. rename x0 into v. rename x2 into sc.
      cbn [temps set_temps set_ghe add_trace] in H.
      set (s1 := set_temps _ _ _) in H.
      assert (Hfresh : ~ In c (map fst (temps C s))).
      { intros Hin. apply in_map_iff in Hin as ([k w] & Ek & Hin). cbn in Ek; subst k. apply Hout in Hin. lia. }
      assert (Et : temps C s1 = temps C s ++ [(c, v)]).
      { cbn. now apply dict_set_fresh. }
      assert (Ed : dom C s1 = dom C s) by reflexivity.
      assert (Etr : trace C s1 = trace C s ++ [(cc, maxH)]) by reflexivity.
      assert (Hrec1 : recorded (dom C s1) (temps C s1)).
      { rewrite Et, Ed. intros k w Hin. apply in_app_iff in Hin as [Hin|[[= <- <-]|[]]]; [auto|].
        split; [lia|]. eauto. }
      assert (Hnd1 : NoDup (map fst (temps C s1))).
      { rewrite Et, map_app. cbn. apply NoDup_app_intro; auto; [constructor; [intros []|constructor]|].
        intros x Hx [<-|[]]. auto. }
      assert (Hsg1 : signed (temps C s1)).
      { rewrite Et. intros k w Hin. apply in_app_iff in Hin as [Hin|[[= <- <-]|[]]]; eauto. }
      assert (HsL : sL = 1 \/ sL = -1).
      { destruct HvL as (w & _ & Hw). apply sign_cases in Hw. tauto. }
      assert (Hsc : sc = 1 \/ sc = -1) by (apply sign_cases in Esg; tauto).
      destruct (Z.eqb_spec sc sL) as [->|Hne].
      * apply IH in H; auto.
        -- destruct H as (xL' & xR' & i' & tn & cn & -> & H1 & H2 & H3 & H4 & H5 & H6 & H7 & H8 & H9 & H10 & H11 & H12 & H13 & H14 & H15 & H16 & H17).
           exists xL', xR', i', ((c, v) :: tn), ((cc, maxH) :: cn).
           rewrite H6, H8, Et, Etr, <- !app_assoc, !zlen_cons. rewrite H6, Et in H10, H11, H12, H13, H14.
           rewrite <- app_assoc in H10, H11, H12, H13, H14.
           repeat (split; [solve [auto|lia]|]). split.
           ++ intros m Hm Hle. assert (0 < m). { destruct (Z.eq_dec m 0) as [->|]; [cbn in Hle; lia|lia]. }
              specialize (H16 (m - 1)). replace m with (m - 1 + 1) in Hle by lia. rewrite Z.pow_add_r in Hle by lia. lia.
           ++ intros Hle. apply H17. rewrite Nat2Z.inj_succ, Z.pow_succ_r in Hle by lia. lia.
        -- lia.
        -- rewrite Et. intros k w Hin. apply in_app_iff in Hin as [Hin|[[= <- <-]|[]]]; [|lia]. apply Hout in Hin. lia.
        -- rewrite Et. exists v. split; auto. apply in_app_iff; right; now left.
        -- rewrite Et. destruct HvR as (w & Hw & Hw'). exists w. split; auto. apply in_app_iff; auto.
      * assert (sc = - sL) by lia. subst sc. apply IH in H; auto.
        -- destruct H as (xL' & xR' & i' & tn & cn & -> & H1 & H2 & H3 & H4 & H5 & H6 & H7 & H8 & H9 & H10 & H11 & H12 & H13 & H14 & H15 & H16 & H17).
           exists xL', xR', i', ((c, v) :: tn), ((cc, maxH) :: cn).
           rewrite H6, H8, Et, Etr, <- !app_assoc, !zlen_cons. rewrite H6, Et in H10, H11, H12, H13, H14.
           rewrite <- app_assoc in H10, H11, H12, H13, H14.
           repeat (split; [solve [auto|lia]|]). split.
           ++ intros m Hm Hle. assert (0 < m). { destruct (Z.eq_dec m 0) as [->|]; [cbn in Hle; lia|lia]. }
              specialize (H16 (m - 1)). replace m with (m - 1 + 1) in Hle by lia. rewrite Z.pow_add_r in Hle by lia. lia.
           ++ intros Hle. apply H17. rewrite Nat2Z.inj_succ, Z.pow_succ_r in Hle by lia. lia.
        -- lia.
        -- cbn. lia.
        -- rewrite Et. intros k w Hin. apply in_app_iff in Hin as [Hin|[[= <- <-]|[]]]; [|lia]. apply Hout in Hin. lia.
        -- rewrite Et. destruct HvL as (w & Hw & Hw'). exists w. split; auto. apply in_app_iff; auto.
        -- rewrite Et. exists v. split; auto. apply in_app_iff; right; now left.
Qed.


Lemma calculate_excess_err c H s e s' :
  calculate_excess c H s = (Err e, s') -> build c H = Err e \/ sim c H = Err e.
Proof.
  unfold Search.calculate_excess, Search.initialize_ghe, mbind, lift, modify.
  destruct (build c H) as [u|e']; intros [= -> _]; auto.
Qed.

Lemma py_nth_In (d : list C) i c : py_nth d i = Ok c -> In c d.
Proof.
  unfold py_nth. set (j := if i <? 0 then i + zlen d else i). clearbody j. destruct (j <? 0); [discriminate|].
  destruct (nth_error d (Z.to_nat j)) eqn:E; [|discriminate]. intros [= <-]. eapply nth_error_In; eauto.
Qed.

Lemma bisect_loop_err : forall fuel sL xL xR i s e s',
  bisect_loop fuel sL xL xR i s = (Err e, s') ->
  0 <= xL < xR -> xR < zlen (dom C s) ->
  exists c, In c (dom C s) /\ oracle_err c maxH e.
Proof.
  induction fuel as [|fuel IH]; intros sL xL xR i s e s' H HLR HR; cbn in H; [discriminate|].
  set (c := - ((- (xL + xR)) / 2)) in H.
  pose proof (ceil_half xL xR ltac:(lia)) as Hc. cbv zeta in Hc. fold c in Hc.
  destruct ((c =? xL) || (c =? xR)) eqn:Estop; [discriminate|].
  apply orb_false_iff in Estop. rewrite !Z.eqb_neq in Estop.
  destruct (py_nth_ok (dom C s) c) as (cc & Ec & _); [lia|]. pose proof (py_nth_In _ _ _ Ec) as Hin.
  apply mbind_inv in H as [(? & H & _)|(? & ? & H0 & H)]; [discriminate|]. injection H0 as <- <-.
  apply mbind_inv in H as [(? & H & _)|(? & ? & H0 & H)]; unfold lift in *; [congruence|]. injection H0 as E0 <-.
  rewrite Ec in E0; injection E0 as <-.
  apply mbind_inv in H as [(? & H & [= <-])|(v & s1 & H0 & H)].
  { apply calculate_excess_err in H. exists cc. split; auto. unfold SearchSpec.oracle_err. tauto. }
  apply calculate_excess_ok in H0 as (_ & Hsim & ->).
  apply mbind_inv in H as [(? & H & _)|(? & ? & H0 & H)]; [discriminate|].
  unfold record_temp, mbind, get, modify in H0. injection H0 as _ <-.
  apply mbind_inv in H as [(? & H & [= <-])|(sc & ? & H0 & H)].
  { injection H as H _. exists cc. split; auto. right; right. eauto. }
  injection H0 as Hsg <-. destruct (sc =? sL); apply IH in H; cbn; auto; lia.
Qed.

Lemma pow2_ge_self m : 0 <= m -> m + 1 <= 2 ^ m.
Proof.
  intros H. revert m H. apply natlike_ind; [cbn; lia|]. intros x Hx IH. rewrite Z.pow_succ_r by lia. lia.
Qed.



Lemma bracket_opposite v w a b : sign v = Ok a -> sign w = Ok b -> (check_bracket a b = true <-> opposite v w).
Proof.
  intros Ha Hb. rewrite check_bracket_spec. unfold opposite.
  apply sign_cases in Ha as [(-> & Hv)|(-> & Hv)], Hb as [(-> & Hw)|(-> & Hw)]; split; intros H; auto; try lia.
  - destruct H as [(_ & q & -> & H)|((q & -> & H) & _)]; [destruct Hw as (? & [= <-] & ?)|destruct Hv as (? & [= <-] & ?)]; lra.
  - destruct H as [((q & -> & H) & _)|(_ & q & -> & H)]; [destruct Hv as (? & [= <-] & ?)|destruct Hw as (? & [= <-] & ?)]; lra.
Qed.
Lemma bracket_same v w a b : sign v = Ok a -> sign w = Ok b -> (check_bracket a b = false <-> same_side v w).
Proof.
  intros Ha Hb. rewrite <- not_true_iff_false, (bracket_opposite v w) by eauto. unfold opposite, same_side.
  apply sign_cases in Ha as [(-> & Hv)|(-> & Hv)], Hb as [(-> & Hw)|(-> & Hw)]; split; intros H; auto.
  - intros [(_ & q & -> & H')|((q & -> & H') & _)]; [destruct Hw as (? & [= <-] & ?)|destruct Hv as (? & [= <-] & ?)]; lra.
  - exfalso; apply H; auto.
  - destruct H as [(_ & H)|(H & _)]; [destruct H as (q & -> & H), Hw as (? & [= <-] & ?)|destruct H as (q & -> & H), Hv as (? & [= <-] & ?)]; lra.
  - exfalso; apply H; auto.
  - destruct H as [(H & _)|(_ & H)]; [destruct H as (q & -> & H), Hv as (? & [= <-] & ?)|destruct H as (q & -> & H), Hw as (? & [= <-] & ?)]; lra.
  - intros [((q & -> & H') & _)|(_ & q & -> & H')]; [destruct Hv as (? & [= <-] & ?)|destruct Hw as (? & [= <-] & ?)]; lra.
Qed.

(** the dictionary after the initial records *)
Definition first_temps (n : Z) (tu tm : xval F) : list (Z * xval F) :=
  if n =? 1 then [(0, tm)] else [(0, tu); (n - 1, tm)].

Lemma first_temps_eq n tu tm : 1 <= n -> dict_set (dict_set [] 0 tu) (n - 1) tm = first_temps n tu tm.
Proof.
  intros H. unfold first_temps. cbn. destruct (Z.eqb_spec (n - 1) 0), (Z.eqb_spec n 1); try lia; auto.
  now replace (n - 1) with 0 by lia.
Qed.

Definition bisected (max_iter : Z) (s : sstate) (tu tm : xval F) (r : option (Z * C)) (s' : sstate) : Prop :=
  exists k c q iters tn,
    2 <= zlen (dom C s) /\ r = Some (k, c) /\ nth_error (dom C s) (Z.to_nat k) = Some c /\ 0 <= k < zlen (dom C s)
    /\ ghe C s' = (c, maxH)
    /\ temps C s' = first_temps (zlen (dom C s)) tu tm ++ tn /\ zlen tn = iters
    /\ zlen (trace C s') = zlen (trace C s) + 4 + iters
    /\ 0 <= iters <= Z.max 0 max_iter /\ (forall m, 0 <= m -> zlen (dom C s) - 1 <= 2 ^ m -> iters <= m)
    /\ recorded (dom C s) (temps C s') /\ NoDup (map fst (temps C s')) /\ signed (temps C s')
    /\ select_key (temps C s') = Ok k
    /\ sim c maxH = Ok (Fin q) /\ (val q < 0)%R
    /\ (forall k' q', In (k', Fin q') (temps C s') -> (val q' < 0)%R -> (val q' <= val q)%R)
    /\ (zlen (dom C s) - 1 <= 2 ^ Z.max 0 max_iter ->
        exists m v w, In (m, v) (temps C s') /\ In (m + 1, w) (temps C s') /\ same_side v tu /\ same_side w tm).

Lemma search_ok max_iter s r s' :
  search max_iter s = (Ok r, s') -> temps C s = [] ->
  1 <= zlen (dom C s)
  /\ dom C s' = dom C s /\ temps_nested C s' = temps_nested C s /\ heights C s' = heights C s
  /\ exists c0 cR tl tu tm, reads (dom C s) c0 cR tl tu tm
     /\ ((opposite tl tu /\ r = Some (0, c0) /\ ghe C s' = (c0, maxH)
          /\ temps C s' = first_temps (zlen (dom C s)) tu tm
          /\ trace C s' = trace C s ++ [(c0, minH); (c0, maxH); (cR, maxH)])
         \/ (same_side tl tu /\ opposite tu tm /\ bisected max_iter s tu tm r s')).
Proof.
  intros H Ht0. unfold Search.search in H. minva H as z0 z1. injection H0 as <- <-.
  set (n := zlen (dom C s)) in *.
  minva H as cR z1. unfold lift in H0. injection H0 as EnR <-.
  minva H as c0 z1. unfold lift in H0. injection H0 as En0 <-.
  apply py_nth_nonneg in En0; [|lia]. change (Z.to_nat 0) with O in En0.
  assert (Hn : 1 <= n). { unfold n. destruct (dom C s); [discriminate|]. rewrite zlen_cons. pose proof (zlen_nonneg l). lia. }
  apply py_nth_nonneg in EnR; [|lia].
  minva H as tl z1. apply calculate_excess_ok in H0 as ((u0 & Hb0) & Htl & ->).
  minva H as tu z1. apply calculate_excess_ok in H0 as ((u1 & Hb1) & Htu & ->).
  minva H as z0 z1. unfold lift in H0. injection H0 as EnR' <-. apply py_nth_nonneg in EnR'; [|lia].
  rewrite EnR in EnR'. injection EnR' as <-.
  minva H as tm z1. apply calculate_excess_ok in H0 as (_ & Htm & ->).
  minva H as z0 z1. unfold record_temp, mbind, get, modify in H0. injection H0 as _ <-. clear z0.
  minva H as z0 z1. unfold record_temp, mbind, get, modify in H0. injection H0 as _ <-. clear z0.
  minva H as sl z1. unfold lift in H0. injection H0 as Hsl <-.
  minva H as su z1. unfold lift in H0. injection H0 as Hsu <-.
  cbn [temps set_temps set_ghe add_trace] in H. rewrite Ht0, first_temps_eq in H by auto.
  set (s1 := set_temps _ _ _) in H.
  split; [auto|].
  assert (Htr1 : trace C s1 = trace C s ++ [(c0, minH); (c0, maxH); (cR, maxH)]).
  { cbn. now rewrite <- !app_assoc. }
  destruct (check_bracket sl su) eqn:Eb1.
  - minva H as z0 z1. apply initialize_ghe_ok in H0 as (_ & ->). clear z0. injection H as <- <-.
    repeat (split; [reflexivity|]). exists c0, cR, tl, tu, tm. split; [repeat split; auto|].
    left. split; [eapply bracket_opposite; eauto|]. repeat split; auto.
  - minva H as z0 z1. unfold lift in H0. injection H0 as Hsu' <-. rewrite Hsu in Hsu'. injection Hsu' as <-.
    minva H as sm z1. unfold lift in H0. injection H0 as Hsm <-.
    destruct (check_bracket su sm) eqn:Eb2.
    + minva H as z0 z1. unfold lift in H0. injection H0 as Hsu' <-. rewrite Hsu in Hsu'. injection Hsu' as <-.
      minva H as z0 z1. injection H0 as Hsm' <-. rewrite Hsm in Hsm'. injection Hsm' as <-.
      minva H as st s2.
      assert (Hopp : opposite tu tm) by (eapply bracket_opposite; eauto).
      assert (Hn2 : 2 <= n).
      { destruct (Z.eq_dec n 1) as [E1|]; [|lia]. exfalso. rewrite E1 in EnR. change (Z.to_nat (1 - 1)) with O in EnR.
        rewrite En0 in EnR. injection EnR as <-. rewrite Htu in Htm. injection Htm as <-.
        destruct Hopp as [((q & -> & ?) & (? & [= <-] & ?))|((q & -> & ?) & (? & [= <-] & ?))]; lra. }
      assert (Et1 : temps C s1 = [(0, tu); (n - 1, tm)]).
      { cbn. unfold first_temps. destruct (Z.eqb_spec n 1); [lia|reflexivity]. }
      assert (Hsm1 : sm = - su).
      { apply check_bracket_spec in Eb2. apply sign_cases in Hsu as [(-> & _)|(-> & _)], Hsm as [(-> & _)|(-> & _)]; lia. }
      subst sm.
      pose proof H0 as HL.
      eapply bisect_loop_ok in H0.
      2:{ lia. }
      2:{ cbn. fold n. lia. }
      2:{ rewrite Et1. intros k v [[= <- <-]|[[= <- <-]|[]]]; lia. }
      2:{ rewrite Et1. intros k v [[= <- <-]|[[= <- <-]|[]]]; cbn; fold n; (split; [lia|]); eauto. }
      2:{ rewrite Et1. cbn. constructor; [intros [?|[]]; lia|]. constructor; [intros []|constructor]. }
      2:{ rewrite Et1. intros k v [[= <- <-]|[[= <- <-]|[]]]; eauto. }
      2:{ rewrite Et1. exists tu. split; [now left|auto]. }
      2:{ rewrite Et1. exists tm. split; [right; now left|auto]. }
      destruct H0 as (xL' & xR' & i' & tn & cn & -> & HxL & HxR & Ed & Etn & Eh & Et2 & Htn & Etr & Hcn & Hrec & Hnd & Hsg & HvL & HvR & Hi & Hpow & Hadj).
      assert (Hi' : 0 <= i' < n).
      { split; [lia|]. specialize (Hpow (n - 2) ltac:(lia)). pose proof (pow2_ge_self (n - 2) ltac:(lia)). lia. }
      minva H as ci z1. unfold lift in H0. injection H0 as Eci <-. 
      minva H as z0 z1. apply calculate_excess_ok in H0 as (_ & _ & ->). clear z0.
      minva H as z0 z1. injection H0 as <- <-.
      minva H as kk z1. injection H0 as Esel <-.
      minva H as ck0 z1. injection H0 as Eck <-.
      minva H as z0 z1. apply initialize_ghe_ok in H0 as (_ & ->). clear z0. injection H as <- <-.
      cbn [dom temps temps_nested heights set_ghe add_trace] in *.
      split; [exact Ed|]. split; [exact Etn|]. split; [exact Eh|].
      exists c0, cR, tl, tu, tm. split; [repeat split; auto|]. right.
      split; [eapply bracket_same; eauto|]. split; auto.
      destruct (select_key_spec (temps C s2) Hsg) as (k & q & Esel' & Hin & Hq & Hmax & _).
      { destruct Hopp as [(_ & Hm)|(Hu & _)].
        - exists (n - 1), tm. split; auto. rewrite Et2, Et1. apply in_app_iff. left. right. now left.
        - exists 0, tu. split; auto. rewrite Et2, Et1. apply in_app_iff. left. now left. }
      rewrite Esel in Esel'. injection Esel' as ->.
      destruct (Hrec _ _ Hin) as (Hk & ck & Enk & Hsk).
      apply py_nth_nonneg in Eck; [|lia]. change (dom C s1) with (dom C s) in Enk. rewrite Enk in Eck. injection Eck as <-.
      exists k, ck, q, i', tn. fold n.
      split; [auto|]. split; [auto|]. split; [auto|]. split; [exact Hk|]. split; [reflexivity|].
      split. { cbn. rewrite Et2, Et1. unfold first_temps. destruct (Z.eqb_spec n 1); [lia|reflexivity]. }
      split; [lia|]. split.
      { cbn. rewrite Etr, Htr1, !zlen_app, !zlen_cons, !(@zlen_nil (C * F)). lia. }
      split; [lia|]. split. { intros m Hm Hle. specialize (Hpow m Hm ltac:(lia)). lia. }
      split; [exact Hrec|]. split; [exact Hnd|]. split; [exact Hsg|]. split; [exact Esel|]. split; [auto|]. split; [auto|].
      split; [exact Hmax|].
      intros Hle. replace (Z.of_nat (Z.to_nat max_iter)) with (Z.max 0 max_iter) in Hadj by lia. specialize (Hadj ltac:(lia)). subst xR'.
      destruct HvL as (v & Hv & Hv'), HvR as (w & Hw & Hw'). exists xL', v, w. split; [exact Hv|]. split; [exact Hw|].
      split; eapply bracket_same; eauto.
      * apply sign_cases in Hsu as [(-> & _)|(-> & _)]; reflexivity.
      * apply sign_cases in Hsu as [(-> & _)|(-> & _)]; reflexivity.
    + exfalso. apply bracket_same with (v := tu) (w := tm) in Eb2; auto.
      destruct Eb2 as [((q & -> & Hq) & (q' & -> & Hq'))|((q & -> & Hq) & (q' & -> & Hq'))].
      * replace (xlt0 (Fin q) && xlt0 (Fin q')) with false in H.
        2:{ symmetry. cbn. rewrite (proj2 (val_lt_false q (nofZ 0))) by (rewrite val_0; lra). reflexivity. }
        replace (xgt0 (Fin q) && xgt0 (Fin q')) with true in H; [discriminate|].
        symmetry. cbn. apply andb_true_iff. rewrite ?val_lt0, ?val_0lt. split; lra.
      * replace (xlt0 (Fin q) && xlt0 (Fin q')) with true in H; [discriminate|].
        symmetry. cbn. apply andb_true_iff. rewrite ?val_lt0, ?val_0lt. split; lra.
Qed.

(** every way a search can raise *)
Lemma search_err max_iter s e s' :
  search max_iter s = (Err e, s') -> temps C s = [] ->
  (dom C s = [] /\ e = IndexError)
  \/ (exists c H, In c (dom C s) /\ (H = maxH \/ H = minH /\ nth_error (dom C s) 0 = Some c) /\ oracle_err c H e)
  \/ (e = ValueError /\ exists c0 cR tl tu tm, reads (dom C s) c0 cR tl tu tm /\ same_side tl tu /\ same_side tu tm).
Proof.
  intros H Ht0. unfold Search.search in H.
  apply mbind_inv in H as [(? & H & _)|(? & ? & H0 & H)]; [discriminate|]. injection H0 as <- <-.
  set (n := zlen (dom C s)) in *.
  assert (Hd : dom C s = [] \/ 1 <= n).
  { unfold n. destruct (dom C s) as [|c00 d']; [auto|right]. rewrite zlen_cons. pose proof (zlen_nonneg d'). lia. }
  destruct Hd as [Ed|Hn].
  { left. split; auto. unfold n in H. rewrite Ed in H. cbn in H. injection H as <- _. reflexivity. }
  right.
  destruct (py_nth_ok (dom C s) (n - 1)) as (cR & EnR & EnR'); [fold n; lia|].
  destruct (py_nth_ok (dom C s) 0) as (c0 & En0 & En0'); [fold n; lia|].
  pose proof (py_nth_In _ _ _ EnR) as HinR. pose proof (py_nth_In _ _ _ En0) as Hin0.
  apply mbind_inv in H as [(? & H & _)|(? & ? & H0 & H)]; unfold lift in *; [congruence|]. injection H0 as E0 <-.
  rewrite EnR in E0; injection E0 as <-.
  apply mbind_inv in H as [(? & H & _)|(? & ? & H0 & H)]; unfold lift in *; [congruence|]. injection H0 as E0 <-.
  rewrite En0 in E0; injection E0 as <-.
  apply mbind_inv in H as [(? & H & [= <-])|(tl & ? & H0 & H)].
  { left. exists c0, minH. split; auto. split; auto. apply calculate_excess_err in H. unfold SearchSpec.oracle_err; tauto. }
  apply calculate_excess_ok in H0 as (_ & Htl & ->).
  apply mbind_inv in H as [(? & H & [= <-])|(tu & ? & H0 & H)].
  { left. exists c0, maxH. split; auto. split; auto. apply calculate_excess_err in H. unfold SearchSpec.oracle_err; tauto. }
  apply calculate_excess_ok in H0 as (_ & Htu & ->).
  apply mbind_inv in H as [(? & H & _)|(? & ? & H0 & H)]; [congruence|]. injection H0 as E0 <-.
  rewrite EnR in E0; injection E0 as <-.
  apply mbind_inv in H as [(? & H & [= <-])|(tm & ? & H0 & H)].
  { left. exists cR, maxH. split; auto. split; auto. apply calculate_excess_err in H. unfold SearchSpec.oracle_err; tauto. }
  apply calculate_excess_ok in H0 as (_ & Htm & ->).
  apply mbind_inv in H as [(? & H & _)|(? & ? & H0 & H)]; [discriminate|].
  unfold record_temp, mbind at 1, get, modify in H0. injection H0 as _ <-.
  apply mbind_inv in H as [(? & H & _)|(? & ? & H0 & H)]; [discriminate|].
  unfold record_temp, mbind at 1, get, modify in H0. injection H0 as _ <-.
  apply mbind_inv in H as [(? & H & [= <-])|(sl & ? & H0 & H)].
  { injection H as H _. left. exists c0, minH. split; auto. split; auto. right; right; eauto. }
  injection H0 as Hsl <-.
  apply mbind_inv in H as [(? & H & [= <-])|(su & ? & H0 & H)].
  { injection H as H _. left. exists c0, maxH. split; auto. split; auto. right; right; eauto. }
  injection H0 as Hsu <-.
  cbn [temps set_temps set_ghe add_trace] in H. rewrite Ht0, first_temps_eq in H by auto.
  set (s1 := set_temps _ _ _) in H.
  destruct (check_bracket sl su) eqn:Eb1.
  { apply mbind_inv in H as [(? & H & [= <-])|(? & ? & H0 & H)]; [|discriminate].
    left. exists c0, maxH. split; auto. split; auto. left.
    unfold Search.initialize_ghe in H. apply mbind_inv in H as [(? & H & [= <-])|(? & ? & H0 & H)]; [|discriminate].
    injection H as H _. exact H. }
  apply mbind_inv in H as [(? & H & _)|(? & ? & H0 & H)]; [congruence|]. injection H0 as Hsu' <-.
  rewrite Hsu in Hsu'; injection Hsu' as <-.
  apply mbind_inv in H as [(? & H & [= <-])|(sm & ? & H0 & H)].
  { injection H as H _. left. exists cR, maxH. split; auto. split; auto. right; right; eauto. }
  injection H0 as Hsm <-.
  destruct (check_bracket su sm) eqn:Eb2.
  - left.
    apply mbind_inv in H as [(? & H & _)|(? & ? & H0 & H)]; [congruence|]. injection H0 as Hsu' <-.
    rewrite Hsu in Hsu'; injection Hsu' as <-.
    apply mbind_inv in H as [(? & H & _)|(? & ? & H0 & H)]; [congruence|]. injection H0 as Hsm' <-.
    rewrite Hsm in Hsm'; injection Hsm' as <-.
    assert (Hopp : opposite tu tm) by (eapply bracket_opposite; eauto).
    assert (Hn2 : 2 <= n).
    { destruct (Z.eq_dec n 1) as [E1|]; [|lia]. exfalso. rewrite E1 in EnR'. change (Z.to_nat (1 - 1)) with O in EnR'. change (Z.to_nat 0) with O in En0'.
      rewrite En0' in EnR'. injection EnR' as <-. rewrite Htu in Htm. injection Htm as <-.
      destruct Hopp as [((q & -> & ?) & (? & [= <-] & ?))|((q & -> & ?) & (? & [= <-] & ?))]; lra. }
    assert (Et1 : temps C s1 = [(0, tu); (n - 1, tm)]).
    { cbn. unfold first_temps. destruct (Z.eqb_spec n 1); [lia|reflexivity]. }
    assert (Hsm1 : sm = - su).
    { apply check_bracket_spec in Eb2. apply sign_cases in Hsu as [(-> & _)|(-> & _)], Hsm as [(-> & _)|(-> & _)]; lia. }
    subst sm.
    apply mbind_inv in H as [(? & H & [= <-])|(st & s2 & H0 & H)].
    { apply bisect_loop_err in H; [|lia|cbn; fold n; lia]. destruct H as (c & Hc & Ho). exists c, maxH. auto. }
    eapply bisect_loop_ok in H0.
    2:{ lia. }
    2:{ cbn. fold n. lia. }
    2:{ rewrite Et1. intros k v [[= <- <-]|[[= <- <-]|[]]]; lia. }
    2:{ rewrite Et1. intros k v [[= <- <-]|[[= <- <-]|[]]]; cbn; fold n; (split; [lia|]); eauto. }
    2:{ rewrite Et1. cbn. constructor; [intros [?|[]]; lia|]. constructor; [intros []|constructor]. }
    2:{ rewrite Et1. intros k v [[= <- <-]|[[= <- <-]|[]]]; eauto. }
    2:{ rewrite Et1. exists tu. split; [now left|auto]. }
    2:{ rewrite Et1. exists tm. split; [right; now left|auto]. }
    destruct H0 as (xL' & xR' & i' & tn & cn & -> & HxL & HxR & Ed2 & Etn & Eh & Et2 & Htn & Etr & Hcn & Hrec & Hnd & Hsg & HvL & HvR & Hi & Hpow & Hadj).
    assert (Hi' : 0 <= i' < n).
    { split; [lia|]. specialize (Hpow (n - 2) ltac:(lia)). pose proof (pow2_ge_self (n - 2) ltac:(lia)). lia. }
    destruct (py_nth_ok (dom C s) i') as (ci & Eci & _); [fold n; lia|].
    apply mbind_inv in H as [(? & H & _)|(? & ? & H0 & H)]; [congruence|]. injection H0 as E0 <-.
    rewrite Eci in E0; injection E0 as <-.
    apply mbind_inv in H as [(? & H & [= <-])|(? & ? & H0 & H)].
    { exists ci, maxH. split; [eapply py_nth_In; eauto|]. split; auto. apply calculate_excess_err in H. unfold SearchSpec.oracle_err; tauto. }
    apply calculate_excess_ok in H0 as (_ & _ & ->).
    apply mbind_inv in H as [(? & H & _)|(? & ? & H0 & H)]; [discriminate|]. injection H0 as <- <-.
    cbn [temps set_ghe add_trace] in H.
    destruct (select_key_spec (temps C s2) Hsg) as (k & q & Esel' & Hin & Hq & Hmax & _).
    { destruct Hopp as [(_ & Hm)|(Hu & _)].
      - exists (n - 1), tm. split; auto. rewrite Et2, Et1. apply in_app_iff. left. right. now left.
      - exists 0, tu. split; auto. rewrite Et2, Et1. apply in_app_iff. left. now left. }
    apply mbind_inv in H as [(? & H & _)|(? & ? & H0 & H)]; [congruence|]. injection H0 as E0 <-.
    rewrite Esel' in E0; injection E0 as <-.
    destruct (Hrec _ _ Hin) as (Hk & ck & Enk & Hsk).
    destruct (py_nth_ok (dom C s) k) as (ck' & Eck & _); [exact Hk|].
    apply mbind_inv in H as [(? & H & _)|(? & ? & H0 & H)]; [congruence|]. injection H0 as E0 <-.
    rewrite Eck in E0; injection E0 as <-.
    apply mbind_inv in H as [(? & H & [= <-])|(? & ? & H0 & H)]; [|discriminate].
    exists ck', maxH. split; [eapply py_nth_In; eauto|]. split; auto. left.
    unfold Search.initialize_ghe in H. apply mbind_inv in H as [(? & H & [= <-])|(? & ? & H0 & H)]; [|discriminate].
    injection H as H _. exact H.
  - right. pose proof Eb1 as Eb1'. pose proof Eb2 as Eb2'.
    apply bracket_same with (v := tl) (w := tu) in Eb1'; auto.
    apply bracket_same with (v := tu) (w := tm) in Eb2'; auto.
    split.
    + destruct (xlt0 tu && xlt0 tm); [unfold raise in H; congruence|].
      destruct (xgt0 tu && xgt0 tm); [unfold raise in H; congruence|]. discriminate.
    + exists c0, cR, tl, tu, tm. repeat split; auto.
Qed.

End Proofs.
