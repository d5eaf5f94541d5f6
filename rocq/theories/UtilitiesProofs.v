(** Proofs about utilities.py and the list helpers of domains.py *)
From Coq Require Import ZArith QArith List Bool Reals Lia Lra Sorted Permutation.
From Verif Require Import Base Num Order BaseLemmas Coordinates Spec CoordinatesProofs Domains DomainsProofs Utilities.
Import ListNotations.
Open Scope R_scope.

(** ** reorder_domain *)
Section Reorder.
Context {A : Type}.
Implicit Types (d : list (list A)).

Lemma insert_nat_perm x l : Permutation (x :: l) (insert_nat x l).
Proof.
  induction l as [|y l IH]; cbn; auto. destruct (Nat.leb x y); auto.
  rewrite perm_swap. now constructor.
Qed.
Lemma sort_nat_perm l : Permutation l (sort_nat l).
Proof. induction l as [|x l IH]; cbn; auto. rewrite <- insert_nat_perm. now constructor. Qed.
Lemma insert_nat_sorted x l : StronglySorted le l -> StronglySorted le (insert_nat x l).
Proof.
  induction 1 as [|y l Hl IH Hy]; cbn; [repeat constructor|]. destruct (Nat.leb_spec x y).
  - constructor; [constructor; auto|]. constructor; auto. eapply Forall_impl; [|exact Hy]. cbn. intros. lia.
  - constructor; auto. apply Forall_forall. intros z Hz. apply (Permutation_in _ (Permutation_sym (insert_nat_perm x l))) in Hz.
    rewrite Forall_forall in Hy. destruct Hz as [<-|Hz]; [lia|auto].
Qed.
Lemma sort_nat_sorted l : StronglySorted le (sort_nat l).
Proof. induction l; cbn; [constructor|]. now apply insert_nat_sorted. Qed.

Lemma find_size d n : In n (map (@length A) d) -> exists f, find (fun f => Nat.eqb (length f) n) d = Some f /\ length f = n /\ In f d.
Proof.
  intros H. destruct (find (fun f => Nat.eqb (length f) n) d) as [f|] eqn:E.
  - apply find_some in E as [H1 H2]. apply Nat.eqb_eq in H2. eauto.
  - apply in_map_iff in H as (f & Hf & Hin). pose proof (find_none _ _ E f Hin) as Hn. cbn in Hn. rewrite Hf, Nat.eqb_refl in Hn. discriminate.
Qed.
Lemma reorder_sizes_gen d l : (forall n, In n l -> In n (map (@length A) d)) ->
  map (@length A) (flat_map (fun n => match find (fun f => Nat.eqb (length f) n) d with Some f => [f] | None => [] end) l) = l
  /\ (forall f, In f (flat_map (fun n => match find (fun f => Nat.eqb (length f) n) d with Some f => [f] | None => [] end) l) -> In f d).
Proof.
  induction l as [|n l IH]; intros H; cbn [flat_map map]; [split; [auto|intros f []]|].
  destruct IH as [IH1 IH2]; [intros; apply H; now right|].
  destruct (find_size d n (H n (or_introl eq_refl))) as (f & -> & Hn & Hin). cbn [app map]. rewrite IH1, Hn. split; auto.
  intros g [<-|Hg]; auto.
Qed.
Lemma reorder_sizes d : map (@length A) (reorder_domain d) = sort_nat (map (@length A) d).
Proof.
  apply reorder_sizes_gen. intros n Hn. eapply Permutation_in; [|exact Hn]. symmetry. apply sort_nat_perm.
Qed.
Lemma reorder_in d f : In f (reorder_domain d) -> In f d.
Proof.
  apply reorder_sizes_gen. intros n Hn. eapply Permutation_in; [|exact Hn]. symmetry. apply sort_nat_perm.
Qed.
Lemma reorder_perm d : NoDup (map (@length A) d) -> Permutation d (reorder_domain d).
Proof.
  intros H. apply NoDup_Permutation_bis.
  - now apply NoDup_map_inv in H.
  - rewrite <- (map_length (@length A) (reorder_domain d)), reorder_sizes, <- (Permutation_length (sort_nat_perm _)), map_length. auto.
  - intros f Hf. assert (Hs : In (length f) (map (@length A) (reorder_domain d))).
    { rewrite reorder_sizes. eapply Permutation_in; [apply sort_nat_perm|]. now apply in_map. }
    apply in_map_iff in Hs as (g & Hg & Hin). enough (g = f) by now subst. apply reorder_in in Hin.
    clear - H Hf Hg Hin. induction d as [|h d IH]; [destruct Hf|]. cbn in H. inversion H as [|? ? Hn Hd]; subst.
    destruct Hf as [->|Hf], Hin as [->|Hin]; auto.
    + exfalso. apply Hn. rewrite <- Hg. now apply in_map.
    + exfalso. apply Hn. rewrite Hg. now apply in_map.
Qed.
Lemma reorder_first d k f : nth_error (reorder_domain d) k = Some f ->
  find (fun g => Nat.eqb (length g) (length f)) d = Some f.
Proof.
  intros H. apply nth_error_In in H. unfold reorder_domain in H. apply in_flat_map in H as (n & Hn & H).
  destruct (find (fun f => Nat.eqb (length f) n) d) as [g|] eqn:E; [|destruct H]. destruct H as [->|[]].
  pose proof (find_some _ _ E) as [_ H]. apply Nat.eqb_eq in H. now rewrite H.
Qed.
End Reorder.

(** ** verify_excess *)
Lemma verify_excess_cons (a b : R) r : verify_excess (a :: b :: r) =
  (b - a :: fst (verify_excess (b :: r)), negb (nlt 0 (b - a)) && snd (verify_excess (b :: r))).
Proof.
  change (verify_excess (a :: b :: r)) with
    (let (ds, u) := verify_excess (b :: r) in (nsub b a :: ds, negb (nlt (nofZ 0) (nsub b a)) && u)).
  destruct (verify_excess (b :: r)). reflexivity.
Qed.
Lemma verify_excess_diffs (l : list R) i : 
  nth_error (fst (verify_excess l)) i =
  match nth_error l i, nth_error l (S i) with Some a, Some b => Some (b - a) | _, _ => None end.
Proof.
  revert i. induction l as [|a l IH]; intros i; [destruct i; reflexivity|].
  destruct l as [|b r].
  - destruct i as [|i]; cbn; [auto|]. destruct i; reflexivity.
  - rewrite verify_excess_cons. cbn [fst]. destruct i as [|i]; [reflexivity|]. cbn [nth_error]. rewrite IH. reflexivity.
Qed.
Lemma verify_excess_bool (l : list R) : snd (verify_excess l) = true <->
  (forall i a b, nth_error l i = Some a -> nth_error l (S i) = Some b -> b <= a).
Proof.
  induction l as [|a l IH]; [split; auto; intros _ [|i]; discriminate|].
  destruct l as [|b r].
  - split; auto. intros _ i x y H1 H2. destruct i as [|i]; [discriminate|destruct i; discriminate].
  - rewrite verify_excess_cons. cbn [snd]. rewrite andb_true_iff, negb_true_iff, nlt_R_false, IH. split.
    + intros [H0 H] i x y. destruct i as [|i]; [intros [= <-] [= <-]; lra|]. apply H.
    + intros H. split; [specialize (H 0%nat a b eq_refl eq_refl); lra|]. intros i x y Hx Hy. apply (H (S i)); auto.
Qed.

(** ** counts, lengths, spacings *)
Lemma number_of_length n b up : 0 < b -> number_of_boreholes (length_of_side n b) b up = Ok n.
Proof.
  intros Hb. unfold number_of_boreholes, length_of_side. rewrite pydiv_R by lra. cbn [bind nmul nofZ NumR].
  replace (IZR (n - 1) * b / b) with (IZR (n - 1)) by (field; lra).
  destruct up; [rewrite nceil_R, Rceil_IZR|rewrite nfloor_R, Rfloor_IZR]; cbn [bind]; f_equal; lia.
Qed.
Lemma number_up l b n : 0 < l -> 0 < b -> number_of_boreholes l b true = Ok n ->
  (2 <= n)%Z /\ l / IZR (n - 1) <= b /\ (forall m, (2 <= m < n)%Z -> b < l / IZR (m - 1)).
Proof.
  intros Hl Hb. unfold number_of_boreholes. rewrite pydiv_R by lra. cbn [bind]. rewrite nceil_R. cbn [bind]. intros [= <-].
  pose proof (div_pos l b Hl Hb) as Hp. pose proof (Rceil_ge (l / b) 1 ltac:(lra)) as Hc.
  replace (Rceil (l / b) + 1 - 1)%Z with (Rceil (l / b)) by lia.
  destruct (Rceil_spec (l / b)) as [H1 H2]. split; [lia|].
  assert (Hpos : 0 < IZR (Rceil (l / b))) by (apply (IZR_lt 0); lia). split.
  - apply div_le; auto. apply div_le in H2; auto. lra.
  - intros m Hm. apply Rnot_le_lt. intros Hle. assert (Hm1 : 0 < IZR (m - 1)) by (apply (IZR_lt 0); lia).
    apply div_le in Hle; auto. assert (l / b <= IZR (m - 1)) by (apply div_le; auto; lra).
    assert (IZR (m - 1) <= IZR (Rceil (l / b)) - 1). { rewrite <- minus_IZR. apply IZR_le. lia. } lra.
Qed.
Lemma number_down l b n : 0 <= l -> 0 < b -> number_of_boreholes l b false = Ok n ->
  (1 <= n)%Z /\ IZR (n - 1) * b <= l < IZR n * b.
Proof.
  intros Hl Hb. unfold number_of_boreholes. rewrite pydiv_R by lra. cbn [bind]. rewrite nfloor_R. cbn [bind]. intros [= <-].
  destruct (Rfloor_spec (l / b)) as [H1 H2]. replace (Rfloor (l / b) + 1 - 1)%Z with (Rfloor (l / b)) by lia.
  assert (0 <= l / b). { apply le_div; auto. lra. } pose proof (Rfloor_ge (l / b) 0 H). split; [lia|]. rewrite plus_IZR. split.
  - now apply le_div.
  - apply Rnot_le_lt. intros Hle. apply le_div in Hle; auto. lra.
Qed.
Lemma spacing_of_length n (b : R) : (n <> 1)%Z -> spacing_along_length (length_of_side n b) n = Ok b.
Proof.
  intros Hn. unfold spacing_along_length, length_of_side. cbn [nmul nofZ NumR].
  assert (IZR (n - 1) <> 0) by (apply not_0_IZR; lia). rewrite pydiv_R by auto. f_equal. field. auto.
Qed.
Lemma spacing_of_one (l : R) : spacing_along_length l 1 = Err ZeroDivisionError.
Proof. unfold spacing_along_length. change (nofZ (1 - 1)) with 0. apply pydiv_R0. Qed.
Lemma number_zero_spacing (l : R) up : number_of_boreholes l 0 up = Err ZeroDivisionError.
Proof. unfold number_of_boreholes. now rewrite pydiv_R0. Qed.

(** ** shoelace formula *)
(** sum of g over the edges of the closed polygon *)
Fixpoint path_sum {P} (g : P -> P -> R) (a : P) (r : list P) (last : P) : R :=
  match r with [] => g a last | b :: r' => g a b + path_sum g b r' last end.
Definition edge_sum {P} (g : P -> P -> R) (l : list P) : R :=
  match l with [] => 0 | a :: r => path_sum g a r a end.
Definition cross (p q : R * R) : R := fst p * snd q - fst q * snd p.

Lemma path_sum_snoc {P} (g : P -> P -> R) a r b e : path_sum g a (r ++ [b]) e = path_sum g a r b + g b e.
Proof. revert a. induction r as [|c r IH]; intros a; cbn; [auto|]. rewrite IH. lra. Qed.
Lemma edge_sum_rotate {P} (g : P -> P -> R) a l : edge_sum g (l ++ [a]) = edge_sum g (a :: l).
Proof.
  destruct l as [|b l]; [reflexivity|]. cbn [app edge_sum]. rewrite path_sum_snoc. cbn [path_sum]. lra.
Qed.
Lemma path_sum_rev {P} (g : P -> P -> R) a r e : path_sum g e (rev r) a = path_sum (fun p q => g q p) a r e.
Proof.
  revert a. induction r as [|b r IH]; intros a; cbn [rev path_sum]; auto. rewrite path_sum_snoc, IH. lra.
Qed.
Lemma edge_sum_rev {P} (g : P -> P -> R) l : edge_sum g (rev l) = edge_sum (fun p q => g q p) l.
Proof.
  destruct l as [|a r]; [reflexivity|]. cbn [rev]. rewrite edge_sum_rotate. cbn [edge_sum]. apply path_sum_rev.
Qed.
Lemma path_sum_ext {P} (g h : P -> P -> R) a r e : (forall p q, g p q = h p q) -> path_sum g a r e = path_sum h a r e.
Proof. intros H. revert a. induction r as [|b r IH]; intros a; cbn; [auto|]. now rewrite H, IH. Qed.
Lemma edge_sum_neg l : edge_sum (fun p q => cross q p) l = - edge_sum cross l.
Proof.
  assert (HH : forall r a e, path_sum (fun p q => cross q p) a r e = - path_sum cross a r e).
  { induction r as [|b r IH]; intros a e; cbn; [|rewrite IH]; unfold cross; lra. }
  destruct l; cbn; [lra|auto].
Qed.
Lemma edge_sum_translate ox oy l :
  edge_sum cross (map (fun p => (fst p + ox, snd p + oy)) l) = edge_sum cross l.
Proof.
  assert (HH : forall r a e, path_sum cross (fst a + ox, snd a + oy) (map (fun p => (fst p + ox, snd p + oy)) r) (fst e + ox, snd e + oy)
     = path_sum cross a r e + ox * (snd e - snd a) - oy * (fst e - fst a)).
  { induction r as [|b r IH]; intros a e; cbn [map path_sum]; [|rewrite IH]; unfold cross; cbn; lra. }
  destruct l as [|a r]; cbn [map edge_sum]; [auto|]. rewrite HH. lra.
Qed.

Lemma path_sum_nth (corners : list (R * R)) :
  forall r pre a e, corners = pre ++ a :: r -> nth_error corners 0 = Some e ->
  forall s, foldM (shoelace_body corners) (zrange (zlen pre) (zlen corners)) s = Ok (s + path_sum cross a r e).
Proof.
  induction r as [|b r IH]; intros pre a e Hc He s.
  - assert (Hz : zlen corners = (zlen pre + 1)%Z) by (rewrite Hc, zlen_app; reflexivity).
    rewrite Hz, zrange_cons, zrange_nil by lia. cbn [foldM]. unfold shoelace_body. rewrite Hz, Z_mod_same_full.
    pose proof (zlen_nonneg pre) as Hp.
    assert (E1 : py_nth corners (zlen pre) = Ok a).
    { apply py_nth_nonneg; auto. unfold zlen. rewrite Nat2Z.id, Hc, nth_error_app2, Nat.sub_diag by lia. reflexivity. }
    assert (E2 : py_nth corners 0 = Ok e) by (apply py_nth_nonneg; [lia|exact He]).
    rewrite E1, E2. cbn [bind path_sum nadd nsub nmul NumR]. f_equal. unfold cross. lra.
  - assert (Hz : (zlen pre + 1 < zlen corners)%Z).
    { rewrite Hc, zlen_app, !zlen_cons. pose proof (zlen_nonneg r). lia. }
    rewrite zrange_cons by lia. cbn [foldM]. unfold shoelace_body at 1. 
    pose proof (zlen_nonneg pre) as Hp. rewrite Z.mod_small by lia.
    assert (E1 : py_nth corners (zlen pre) = Ok a).
    { apply py_nth_nonneg; auto. unfold zlen. rewrite Nat2Z.id, Hc, nth_error_app2, Nat.sub_diag by lia. reflexivity. }
    assert (E2 : py_nth corners (zlen pre + 1) = Ok b).
    { apply py_nth_nonneg; [lia|]. unfold zlen. replace (Z.to_nat (Z.of_nat (length pre) + 1)) with (S (length pre)) by lia.
      rewrite Hc, nth_error_app2 by lia. replace (S (length pre) - length pre)%nat with 1%nat by lia. reflexivity. }
    rewrite E1, E2. cbn [bind path_sum nadd nsub nmul NumR].
    assert (Hz' : zlen (pre ++ [a]) = (zlen pre + 1)%Z) by (rewrite zlen_app; reflexivity).
    rewrite <- Hz'. rewrite (IH (pre ++ [a]) b e); [|rewrite Hc, <- app_assoc; reflexivity|auto].
    f_equal. unfold cross at 2. lra.
Qed.
Lemma polygonal_area_sum l : polygonal_area l = Ok (Rabs (edge_sum cross l) / 2).
Proof.
  unfold polygonal_area. assert (E : foldM (shoelace_body l) (zrange 0 (zlen l)) (nofZ 0) = Ok (edge_sum cross l)).
  { destruct l as [|a r]; [reflexivity|]. change 0%Z with (zlen (@nil (R * R))) at 1.
    rewrite (path_sum_nth (a :: r) r [] a a eq_refl eq_refl). cbn [edge_sum nofZ NumR]. f_equal. lra. }
  rewrite E. cbn [bind nofZ nabs NumR]. apply pydiv_R. lra.
Qed.

Lemma polygonal_area_rectangle lx ly ox oy :
  polygonal_area (make_rectangle_perimeter lx ly (ox, oy)) = Ok (Rabs (lx * ly)).
Proof.
  rewrite polygonal_area_sum. f_equal. cbn [make_rectangle_perimeter edge_sum path_sum nadd NumR]. unfold cross. cbn [fst snd].
  replace (ox * oy - (ox + lx) * oy + ((ox + lx) * (oy + ly) - (ox + lx) * oy + ((ox + lx) * (oy + ly) - ox * (oy + ly) + (ox * oy - ox * (oy + ly)))))
    with (2 * (lx * ly)) by lra.
  rewrite Rabs_mult, (Rabs_right 2) by lra. lra.
Qed.

(** ** borehole_spacing *)
Lemma borehole_spacing_nil r : borehole_spacing r [] = Err IndexError.
Proof. reflexivity. Qed.
Lemma borehole_spacing_one r p : borehole_spacing r [p] = Ok r.
Proof. reflexivity. Qed.
Lemma borehole_spacing_many r p q l :
  borehole_spacing r (p :: q :: l) = Ok (Rmax r (sqrt ((fst q - fst p) ^ 2 + (snd q - snd p) ^ 2))).
Proof.
  unfold borehole_spacing. assert (Hz : zlen (p :: q :: l) = (zlen l + 2)%Z) by (rewrite !zlen_cons; lia).
  pose proof (zlen_nonneg l). rewrite Hz. change (py_nth (p :: q :: l) 0) with (Ok p). cbn [bind].
  rewrite (proj2 (Z.eqb_neq _ _)) by lia. rewrite (proj2 (Z.ltb_lt _ _)) by lia.
  change (py_nth (p :: q :: l) 1) with (Ok q). cbn [bind]. f_equal. unfold nmax.
  destruct (nlt r _) eqn:E; [apply nlt_R in E; rewrite Rmax_right; lra|apply nlt_R_false in E; rewrite Rmax_left; lra].
Qed.

(** ** sign, bracket, mean percent error *)
Lemma sign_spec {F} {N : Num F} {OF : Ordered F} (x : xval F) z :
  sign x = Ok z <-> exists q, x = Fin q /\ ((0 < val q /\ z = 1%Z) \/ (val q < 0 /\ z = (-1)%Z)).
Proof.
  destruct x as [q| |]; cbn [sign]; [|split; [discriminate|intros (q & H & _); discriminate]..].
  destruct (nis0 q) eqn:E0.
  - apply val_is0 in E0. split; [discriminate|]. intros (q' & [= <-] & [[H _]|[H _]]); lra.
  - assert (Hq : val q <> 0) by (intros H; apply val_is0 in H; congruence). destruct (nle (nofZ 0) q) eqn:E1.
    + apply val_0le in E1. split.
      * intros [= <-]. exists q. split; [reflexivity|]. left. split; [lra|reflexivity].
      * intros (q' & [= <-] & [[_ ->]|[H _]]); [reflexivity|lra].
    + apply val_0le_false in E1.
      split; [intros [= <-]; eauto|]. intros (q' & [= <-] & [[H _]|[_ ->]]); [lra|reflexivity].
Qed.
Lemma sign_zero {F} {N : Num F} {OF : Ordered F} (q : F) : val q = 0 -> sign (Fin q) = Err ZeroDivisionError.
Proof. intros H. cbn [sign]. apply val_is0 in H. now rewrite H. Qed.
Lemma check_bracket_spec a b : check_bracket a b = true <-> (a < 0 < b)%Z \/ (b < 0 < a)%Z.
Proof.
  unfold check_bracket. destruct ((a <? 0)%Z && (0 <? b)%Z) eqn:E1.
  - apply andb_true_iff in E1. rewrite !Z.ltb_lt in E1. tauto.
  - destruct ((b <? 0)%Z && (0 <? a)%Z) eqn:E2.
    + apply andb_true_iff in E2. rewrite !Z.ltb_lt in E2. tauto.
    + apply andb_false_iff in E1, E2. rewrite !Z.ltb_ge in *. split; [discriminate|]. lia.
Qed.

Fixpoint percent_errors (actual predicted : list R) : R :=
  match actual, predicted with
  | a :: l, p :: m => (p - a) / a + percent_errors l m
  | _, _ => 0
  end.
Lemma compute_mpe_sum (actual predicted : list R) :
  zlen actual = zlen predicted -> actual <> [] -> (forall a, In a actual -> a <> 0) ->
  compute_mpe actual predicted = Ok (percent_errors actual predicted * 100 / IZR (zlen actual)).
Proof.
  intros Hlen Hne Hnz. unfold compute_mpe. rewrite Hlen, Z.eqb_refl. cbn [assert_ bind]. rewrite <- Hlen.
  assert (HH : forall l m s, (forall a, In a l -> a <> 0) ->
     foldM (fun s ap => let! t := pydiv (nsub (snd ap) (fst ap)) (fst ap) in Ok (nadd s t)) (combine l m) s = Ok (s + percent_errors l m)).
  { induction l as [|a l IH]; intros m s Hl; cbn [combine foldM percent_errors]; [f_equal; lra|].
    destruct m as [|p m]; cbn [combine foldM percent_errors]; [f_equal; lra|]. cbn [fst snd].
    rewrite pydiv_R by (apply Hl; now left). cbn [bind nadd nsub NumR]. rewrite IH by (intros; apply Hl; now right). f_equal. lra. }
  rewrite HH by auto. cbn [bind nmul nofZ NumR].
  assert (Hz : IZR (zlen actual) <> 0). { apply not_0_IZR. destruct actual; [congruence|]. rewrite zlen_cons. pose proof (zlen_nonneg actual). lia. }
  rewrite pydiv_R by auto. f_equal. f_equal. lra.
Qed.
Lemma compute_mpe_lengths (actual predicted : list R) : zlen actual <> zlen predicted -> compute_mpe actual predicted = Err AssertionError.
Proof. intros H. unfold compute_mpe. now rewrite (proj2 (Z.eqb_neq _ _)) by auto. Qed.
Lemma compute_mpe_zero (l : list R) : l <> [] -> (forall a, In a l -> a <> 0) -> compute_mpe l l = Ok 0.
Proof.
  intros Hne Hnz. rewrite compute_mpe_sum by auto. f_equal.
  assert (E : percent_errors l l = 0).
  { clear Hne. induction l as [|a l IH]; cbn; auto. rewrite IH by (intros; apply Hnz; now right). unfold Rdiv. lra. }
  rewrite E. unfold Rdiv. lra.
Qed.
Lemma compute_mpe_errors (actual predicted : list R) : zlen actual = zlen predicted -> (actual = [] \/ In 0 actual) ->
  compute_mpe actual predicted = Err ZeroDivisionError.
Proof.
  intros Hlen H. unfold compute_mpe. rewrite Hlen, Z.eqb_refl. cbn [assert_ bind]. rewrite <- Hlen.
  destruct H as [->|H].
  - cbn [combine foldM bind]. change (nofZ (zlen (@nil R))) with 0. apply pydiv_R0.
  - assert (HH : forall l m s, length l = length m -> In 0 l ->
     foldM (fun s ap => let! t := pydiv (nsub (snd ap) (fst ap)) (fst ap) in Ok (nadd s t)) (combine l m) s = Err ZeroDivisionError).
    { induction l as [|a l IH]; intros m s Hl Hin; [destruct Hin|]. destruct m as [|p m]; [discriminate|].
      cbn [combine foldM fst snd]. destruct (Req_dec a 0) as [->|Ha]; [now rewrite pydiv_R0|].
      rewrite pydiv_R by auto. cbn [bind]. apply IH; [now injection Hl|]. destruct Hin; [congruence|auto]. }
    rewrite HH; auto. unfold zlen in Hlen. lia.
Qed.
