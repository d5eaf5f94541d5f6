(** Property C106: when a bi-zoned design exists (search_routines.py:264-363, design.py:104-120) *)
From Coq Require Import ZArith QArith List Bool Reals Lia Lra Lqa Sorted.
From Coq Require Import Lra.
From Verif Require Import Base BaseLemmas Num Order Spec Utilities UtilitiesProofs Domains DomainsProofs Search SearchSpec SearchProofs SearchTheorems SearchNested SearchZoned
  Design Properties_Domains Properties_Search DesignProofs Properties_Design.
Import ListNotations.
Open Scope R_scope.

Section Successive.
Variable C : Type.
Context {F : Type} {N : Num F} {OF : Ordered F}.
Variable build : C -> F -> res unit.
Variable sim : C -> F -> res (xval F).
Variable sized : C -> res F.
Variable nbh : C -> Z.
Variable minH maxH : F.

(** the successive search over any list of domains: it succeeds if no domain begins with a field that is enough at the minimum height and either the very
    first field or the very last one is enough at the maximum height *)
Theorem C106_successive_search_succeeds :
  forall nested mi (s : sstate C (F := F)) c00 d0 dl cl,
  temps C s = [] -> nth_error nested 0 = Some d0 -> nth_error d0 0 = Some c00 ->
  nth_error nested (length nested - 1) = Some dl -> py_nth dl (-1) = Ok cl ->
  (forall d, In d nested -> d <> [] /\ well_behaved C build sim minH maxH d) ->
  (forall d c0, In d nested -> nth_error d 0 = Some c0 -> exists v, sim c0 minH = Ok v /\ pos v) ->
  (exists v, sim c00 maxH = Ok v /\ neg v) \/ (exists v, sim cl maxH = Ok v /\ neg v) ->
  (forall d c x, In d nested -> In c d -> sim c maxH = Ok x -> nonpos x -> exists H, sized c = Ok H) ->
  exists ko k c s', search_zd C build sim sized nbh minH maxH nested mi s = (Ok (ko, k, c), s').
Proof. exact (search_zd_succeeds C build sim sized nbh minH maxH). Qed.
End Successive.

(** the staircase ends at the densest perimeter *)
Lemma staircase_last M1 M2 path : forall i from, staircase i M1 M2 from path -> last (from :: path) from = (M1, M2).
Proof.
  induction path as [|p path IH]; intros i from H; [exact H|]. destruct H as (_ & _ & H). specialize (IH _ _ H).
  change (last (p :: path) from = (M1, M2)). rewrite <- IH. clear. revert p from. induction path as [|q path IH]; intros p from; [reflexivity|]. cbn [last] in *. destruct path; auto.
Qed.

Section Designs.
Context {V : Type} {NV : Num V} {OV : Ordered V}.
Variable build : list (R * R) -> V -> res unit.
Variable sim : list (R * R) -> V -> res (xval V).
Variable sized : list (R * R) -> res V.
Variable minH maxH : V.

(** the candidates: every domain has fields, the first one is a single borehole, the last one the densest grid *)
Lemma bi_zoned_domains L W l1 l2 tr bmin bmax_x bmax_y dd :
  oriented L W l1 l2 tr -> 0 < l2 -> 0 < bmin -> 0 < bmax_x -> 0 < bmax_y -> bi_rectangle_zoned_nested L W bmin bmax_x bmax_y = Ok dd ->
  let N1 := Rceil (l1 / (if tr then bmax_y else bmax_x) + 1) in let M1 := Rfloor (l1 / bmin + 1) in
  let N2 := Rceil (l2 / (if tr then bmax_x else bmax_y) + 1) in let M2 := Rfloor (l2 / bmin + 1) in
  (3 <= N1 <= M1)%Z -> (3 <= N2 <= M2)%Z ->
  (forall d, In d dd -> d <> []) /\
  (exists d0 c00, nth_error dd 0 = Some d0 /\ nth_error d0 0 = Some c00 /\ zlen c00 = 1%Z) /\
  exists dl cl, nth_error dd (length dd - 1) = Some dl /\ py_nth dl (-1) = Ok cl /\ zlen cl = (M1 * M2)%Z.
Proof.
  intros Ho Hl2 Hmin Hx Hy Ed N1 M1 N2 M2 H1 H2.
  destruct (C14_bi_zoned_staircase L W l1 l2 tr bmin bmax_x bmax_y Ho Hl2 Hmin Hx Hy H1 H2) as (path & pre & d & ds & E & Hs & Hst & HF).
  assert (dd = (pre ++ d) :: ds) as -> by congruence. fold M1 M2 N1 N2 in Hst, HF, Hs.
  assert (Hl1 : 0 < l1) by (destruct Ho as [(? & ? & ? & ?)|(? & ? & ? & ?)]; subst; lra).
  assert (HP : forall q, In q ((N1, N2) :: path) -> (3 <= fst q /\ 3 <= snd q)%Z).
  { intros q [<-|Hq]; [cbn; lia|]. apply (staircase_range M1 M2 path 0 N1 N2) in Hq; auto; lia. }
  assert (Hd : forall n e, nth_error (d :: ds) n = Some e -> exists q, nth_error ((N1, N2) :: path) n = Some q /\ zoned_rectangle_domain l1 l2 (fst q) (snd q) tr = Ok e
    /\ e <> [] /\ exists r, sizes e = r ++ [(fst q * snd q)%Z]).
  { intros n e En. destruct (Forall2_nth _ _ _ _ _ HF En) as (q & Eq & Eqd). exists q. split; [exact Eq|]. split; [exact Eqd|].
    destruct (HP q (nth_error_In _ _ Eq)) as (Q1 & Q2). destruct (C13_zoned_domain l1 l2 (fst q) (snd q) tr Hl1 Hl2 Q1 Q2) as (e' & Ee & Hlen & _ & _ & Hr).
    assert (e' = e) by congruence. subst e'. split; [intros ->; change (zlen (@nil (list (R * R)))) with 0%Z in Hlen; lia|exact Hr]. }
  split; [|split].
  - intros e [<-|He].
    + destruct (Hd 0%nat d eq_refl) as (_ & _ & _ & Hne & _). intro X. apply app_eq_nil in X. tauto.
    + apply In_nth_error in He. destruct He as (n & En). destruct (Hd (S n) e En) as (_ & _ & _ & Hne & _). exact Hne.
  - exists (pre ++ d). destruct pre as [|c pre].
    + exfalso. rewrite zrange_cons in Hs by lia. discriminate.
    + exists c. split; [reflexivity|]. split; [reflexivity|]. rewrite zrange_cons in Hs by lia. injection Hs as X _. exact X.
  - assert (Hlast : exists n e, n = length ds /\ nth_error (d :: ds) n = Some e).
    { destruct (nth_error (d :: ds) (length ds)) as [e|] eqn:En; [eauto|]. apply nth_error_None in En. cbn in En. lia. }
    destruct Hlast as (n & e & -> & En). destruct (Hd _ _ En) as (q & Eq & _ & Hne & r & Er).
    assert (Hlen : length ((N1, N2) :: path) = length (d :: ds)) by (eapply Forall2_length; eauto).
    assert (q = (M1, M2)).
    { pose proof (staircase_last _ _ _ _ _ Hst) as X. cbn [length] in Hlen. injection Hlen as Hlen. rewrite <- Hlen in Eq.
      clear - X Eq. revert X Eq. generalize (N1, N2) at 2 as dflt. generalize (N1, N2) as p. induction path as [|p' path IH]; intros p dflt X Eq.
      - cbn in *. congruence.
      - cbn [length nth_error] in Eq. apply (IH p' dflt); auto. }
    subst q. cbn [fst snd] in Er.
    assert (Hcl : exists a cl, e = a ++ [cl] /\ zlen cl = (M1 * M2)%Z).
    { destruct (rev e) as [|x xs] eqn:Ex; apply (f_equal (@rev _)) in Ex; rewrite rev_involutive in Ex; cbn in Ex; [congruence|].
      exists (rev xs), x. split; [exact Ex|]. rewrite Ex in Er. unfold sizes in Er. rewrite map_app in Er. cbn [map] in Er. apply app_inj_tail in Er. exact (proj2 Er). }
    destruct Hcl as (a & cl & -> & Hz).
    cbn [length]. replace (S (length ds) - 1)%nat with (length ds) by lia. destruct ds as [|d1 ds].
    + cbn in En. injection En as ->. exists (pre ++ a ++ [cl]), cl. split; [reflexivity|]. split; [|exact Hz]. apply py_nth_last. exists (pre ++ a). now rewrite app_assoc.
    + exists (a ++ [cl]), cl. split; [exact En|]. split; [|exact Hz]. apply py_nth_last. eauto.
Qed.

(** a bi-zoned design succeeds if every candidate can be evaluated and sized, the densest grid is enough at the maximum height and no domain begins with a
    field that is enough at the minimum height *)
Theorem C106_bi_zoned_succeeds_partial :
  forall gc L W l1 l2 tr bmin bmax_x bmax_y H dd u, nested_inputs gc L W bmin bmax_x bmax_y -> oriented L W l1 l2 tr ->
  let N1 := Rceil (l1 / (if tr then bmax_y else bmax_x) + 1) in let M1 := Rfloor (l1 / bmin + 1) in
  let N2 := Rceil (l2 / (if tr then bmax_x else bmax_y) + 1) in let M2 := Rfloor (l2 / bmin + 1) in
  (3 <= N1 <= M1)%Z -> (3 <= N2 <= M2)%Z -> bi_rectangle_zoned_nested L W bmin bmax_x bmax_y = Ok dd ->
  (forall f, zlen f = 1%Z -> In f (concat dd) -> build f H = Ok u) ->
  (forall d, In d dd -> well_behaved (list (R * R)) build sim minH maxH d) ->
  (forall d f, In d dd -> nth_error d 0 = Some f -> exists v, sim f minH = Ok v /\ pos v) ->
  (forall f, In f (concat dd) -> zlen f = (M1 * M2)%Z -> adequate sim maxH f) ->
  (forall f x, In f (concat dd) -> sim f maxH = Ok x -> nonpos x -> exists h, sized f = Ok h) ->
  exists k c s', design build sim sized minH maxH gc bi_zoned H = Ok (Some (k, c), s').
Proof.
  intros gc L W l1 l2 tr bmin bmax_x bmax_y H dd u Hin Ho N1 M1 N2 M2 H1 H2 Ed Hb Hw Hf Hlast Hsz.
  rewrite (bi_zoned_design_eq _ _ _ _ _ _ _ _ _ _ _ _ Hin), Ed. cbn [bind]. destruct Hin as (_ & _ & _ & _ & _ & P1 & P2 & P3 & P4 & P5).
  assert (Hl2 : 0 < l2) by (destruct Ho as [(? & -> & -> & ->)|(? & -> & -> & ->)]; assumption).
  destruct (bi_zoned_domains L W l1 l2 tr bmin bmax_x bmax_y dd Ho Hl2 P3 P4 P5 Ed H1 H2) as (Hne & (d0 & c00 & E0 & E00 & Z0) & dl & cl & El & Ec & Hz).
  assert (Hcc : forall d f, In d dd -> In f d -> In f (concat dd)) by (intros d f A B; apply in_concat; eauto).
  assert (Hcl : adequate sim maxH cl) by (apply Hlast; [eapply Hcc; [eapply nth_error_In; exact El|eapply py_nth_In; exact Ec]|exact Hz]).
  unfold bisection_zd, base_init. rewrite (proj2 (py_nth_nonneg dd 0 d0 ltac:(lia)) E0). cbn [bind].
  rewrite (proj2 (py_nth_nonneg d0 0 c00 ltac:(lia)) E00). cbn [bind].
  rewrite (Hb c00 Z0 (Hcc _ _ (nth_error_In _ _ E0) (nth_error_In _ _ E00))). cbn [bind].
  match goal with |- context [search_zd _ _ _ _ _ _ _ ?n ?mi ?s] =>
    destruct (C106_successive_search_succeeds _ build sim sized zlen minH maxH n mi s c00 d0 dl cl) as (ko & k & c & s' & E) end;
    [reflexivity|exact E0|exact E00|exact El|exact Ec| |exact Hf| | |].
  - intros d Hd. split; [now apply Hne|now apply Hw].
  - right. destruct Hcl as (q & Eq & Hq). exists (Fin q). split; [exact Eq|]. now exists q.
  - intros d c x Hd Hc. apply Hsz. eapply Hcc; eauto.
  - exists k, c, s'. rewrite E. reflexivity.
Qed.
End Designs.

(** 12 m by 8 m, spacings from 3 m; heights between 20 m and 100 m; 10 boreholes of 100 m needed: the conditions hold *)
Definition zoned_candidates : list (list (list (Q * Q))) := match bi_rectangle_zoned_nested 12%Q 8%Q 3%Q 6%Q 4%Q with Ok dd => dd | Err _ => [] end.
Example C106_example :
  bi_rectangle_zoned_nested 12%Q 8%Q 3%Q 6%Q 4%Q = Ok zoned_candidates /\ map sizes zoned_candidates = [[1; 2; 3; 4; 5; 6; 7; 8; 9]; [11; 12]; [13; 14; 15]]%Z /\
  (forall d f, In d zoned_candidates -> nth_error d 0 = Some f -> exists v, by_count (21 # 2) f 20%Q = Ok v /\ pos v) /\
  (forall f, In f (concat zoned_candidates) -> zlen f = 15%Z -> exists q, by_count (21 # 2) f 100%Q = Ok (Fin q) /\ (q < 0)%Q) /\
  key_and_count (design always (by_count (21 # 2)) to_60 20%Q 100%Q (constraints_of 12 8 5 3 6 4) bi_zoned 50%Q) = Some (0, 11)%Z.
Proof.
  split; [vm_compute; reflexivity|]. split; [vm_compute; reflexivity|]. split; [|split; [|vm_compute; reflexivity]].
  - intros d f Hd Hf. eexists. split; [reflexivity|]. eexists. split; [reflexivity|]. apply val_0lt.
    assert (X : Forall (fun d => match nth_error d 0 with Some f => nlt 0%Q ((21 # 2) - inject_Z (zlen f) * 20 / 100)%Q = true | None => True end) zoned_candidates)
      by (vm_compute; repeat constructor).
    rewrite Forall_forall in X. specialize (X d Hd). rewrite Hf in X. exact X.
  - intros f _ Hz. eexists. split; [reflexivity|]. rewrite Hz. reflexivity.
Qed.

(** heights between 95 m and 100 m instead: nine boreholes are not enough and eleven are enough at both heights, but nine is the last field of the first
    domain and eleven the first of the second.  The outer search goes to the second domain, whose search finds no change of sign, and the design fails. *)
Theorem C106_bi_zoned_succeeds_refuted :
  exists (gc : @constraints Q) (sim : list (Q * Q) -> Q -> res (xval Q)) (minH maxH : Q) dd f, design_init gc bi_zoned = Ok (nested_domain dd) /\ (0 < minH)%Q /\ (minH < maxH)%Q /\
  (forall f f' h h', (1 <= zlen f <= zlen f')%Z -> (0 < h)%Q -> (h <= h')%Q -> (zlen f < zlen f')%Z \/ (h < h')%Q ->
     exists q q', sim f h = Ok (Fin q) /\ sim f' h' = Ok (Fin q') /\ (q' < q)%Q) /\
  (forall g h, In g (concat dd) -> zlen g = 1%Z -> (h <= maxH)%Q -> exists q, sim g h = Ok (Fin q) /\ (0 < q)%Q) /\
  In f (concat dd) /\ (forall h, (minH <= h)%Q -> exists q, sim f h = Ok (Fin q) /\ (q < 0)%Q) /\
  design always sim to_60 minH maxH gc bi_zoned maxH = Err ValueError.
Proof.
  exists (constraints_of 12 8 5 3 6 4), (by_count 10), 95%Q, 100%Q, zoned_candidates.
  assert (F : exists f, In f (concat zoned_candidates) /\ zlen f = 11%Z).
  { assert (X : existsb (fun f => zlen f =? 11)%Z (concat zoned_candidates) = true) by (vm_compute; reflexivity).
    apply existsb_exists in X. destruct X as (f & Hf & X). exists f. split; [exact Hf|]. lia. }
  destruct F as (f & Hf & Zf). exists f. split; [vm_compute; reflexivity|]. split; [reflexivity|]. split; [reflexivity|]. split; [|split; [|split; [exact Hf|split]]].
  - intros g g' h h' Hg Hh Hhh Hlt. do 2 eexists. split; [reflexivity|]. split; [reflexivity|]. unfold Qdiv. change (/ 100)%Q with (1 # 100)%Q.
    assert (A : (1 <= inject_Z (zlen g))%Q) by (change 1%Q with (inject_Z 1); rewrite <- Zle_Qle; lia).
    assert (B : (inject_Z (zlen g) <= inject_Z (zlen g'))%Q) by (rewrite <- Zle_Qle; lia).
    assert (D : (zlen g < zlen g')%Z -> (inject_Z (zlen g) < inject_Z (zlen g'))%Q) by (intro; now rewrite <- Zlt_Qlt).
    assert (E : (inject_Z (zlen g) * h < inject_Z (zlen g') * h')%Q).
    { destruct Hlt as [Hlt|Hlt]; [specialize (D Hlt)|clear D]; Lqa.nra. }
    Lqa.lra.
  - intros g h _ Hz Hh. eexists. split; [reflexivity|]. rewrite Hz. unfold Qdiv. change (/ 100)%Q with (1 # 100)%Q. change (inject_Z 1) with 1%Q. Lqa.lra.
  - intros h Hh. eexists. split; [reflexivity|]. rewrite Zf. unfold Qdiv. change (/ 100)%Q with (1 # 100)%Q. change (inject_Z 11) with 11%Q. Lqa.lra.
  - vm_compute. reflexivity.
Qed.

Print Assumptions C106_successive_search_succeeds.
Print Assumptions C106_bi_zoned_succeeds_partial.
Print Assumptions C106_bi_zoned_succeeds_refuted.
