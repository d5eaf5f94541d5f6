(** Lemmas about the model in GFun.v *)
From Coq Require Import ZArith List Bool Reals Lia Lra Permutation Sorting.Sorted.
From Verif Require Import Base Num BaseLemmas Loads LoadsSpec LoadsProofs LoadsSim Ghe GheSpec GheProofs GFun GFunSpec.
Import ListNotations.
Open Scope R_scope.

Section Interpolation.
Variable interp : ikind -> list (R * R) -> R -> R.
Variable s : @gfunction R.

Lemma zrange_seq n : zrange 0 (Z.of_nat n) = map Z.of_nat (seq 0 n).
Proof.
  apply nth_error_ext. intro k. unfold zrange. rewrite nth_error_zseq. replace (Z.to_nat (Z.of_nat n - 0)) with n by lia.
  destruct (Nat.ltb_spec k n).
  - symmetry. rewrite (map_nth_error Z.of_nat k (seq 0 n) (d := k)).
    + f_equal.
    + rewrite (nth_error_nth' _ 0%nat) by (rewrite seq_length; lia). now rewrite seq_nth.
  - symmetry. apply nth_error_None. rewrite map_length, seq_length. lia.
Qed.

Lemma g_points_ok i : full_curves s -> (i < length (gf_log_time s))%nat ->
  g_points (gf_curves s) (Z.of_nat i) = Ok (map (fun c => (fst c, nth i (cv_g (snd c)) 0)) (gf_curves s)).
Proof.
  intros Hf Hi. unfold g_points. apply (mapM_pure _ (fun c => (fst c, nth i (cv_g (snd c)) 0))).
  intros c Hc. rewrite py_nth_nat by (specialize (Hf c Hc); lia). reflexivity.
Qed.

Lemma extremes : gf_curves s <> [] -> exists mx mn, nmaxl (heights s) = Ok mx /\ nminl (heights s) = Ok mn /\ highest s mx /\ lowest s mn.
Proof.
  intro Hn. assert (Hh : heights s <> []) by (unfold heights; destruct (gf_curves s); [congruence|discriminate]).
  destruct (nmaxl_total _ Hh) as (mx & E1 & M1). destruct (nminl_total _ Hh) as (mn & E2 & M2). exists mx, mn. auto.
Qed.
Lemma lowest_unique a b : lowest s a -> lowest s b -> a = b.
Proof. intros (I1 & B1) (I2 & B2). pose proof (B1 b I2). pose proof (B2 a I1). lra. Qed.
Lemma highest_unique a b : highest s a -> highest s b -> a = b.
Proof. intros (I1 & B1) (I2 & B2). pose proof (B1 b I2). pose proof (B2 a I1). lra. Qed.
Lemma between_extremes h mn mx : lowest s mn -> highest s mx -> between s h <-> mn <= h <= mx.
Proof.
  intros (I1 & B1) (I2 & B2). split.
  - intros (a & b & Ha & Hb & X). pose proof (B1 a Ha). pose proof (B2 b Hb). lra.
  - intro X. exists mn, mx. auto.
Qed.

Lemma call_interp_ok (f : R * curve -> R) k e h : between s h ->
  call_interp interp k e (map (fun c => (fst c, f c)) (gf_curves s)) h = Ok (interp k (map (fun c => (fst c, f c)) (gf_curves s)) h).
Proof.
  intro Hb. unfold call_interp.
  assert (EH : map fst (map (fun c => (fst c, f c)) (gf_curves s)) = heights s) by (rewrite map_map; reflexivity). rewrite EH.
  assert (Hn : gf_curves s <> []) by (destruct Hb as (a & b & Ha & _); unfold heights in Ha; destruct (gf_curves s); [destruct Ha|discriminate]).
  destruct (extremes Hn) as (mx & mn & E1 & E2 & M1 & M2). rewrite E1, E2. cbn [bind].
  apply (between_extremes h mn mx M2 M1) in Hb.
  assert (A : nle mn h = true) by (apply nle_R; lra). assert (B : nle h mx = true) by (apply nle_R; lra).
  rewrite A, B. destruct k, e; reflexivity.
Qed.
Lemma call_interp_extrapolate (f : R * curve -> R) k h :
  call_interp interp k true (map (fun c => (fst c, f c)) (gf_curves s)) h = Ok (interp k (map (fun c => (fst c, f c)) (gf_curves s)) h).
Proof. destruct k; reflexivity. Qed.

Lemma read_ok k e h : full_curves s -> between s h \/ e = true ->
  read_table interp s (t_built k e) h = Ok (interpolated interp s k h).
Proof.
  intros Hf Hb. unfold read_table.
  assert (C : forall f : R * curve -> R, call_interp interp k e (map (fun c => (fst c, f c)) (gf_curves s)) h =
    Ok (interp k (map (fun c => (fst c, f c)) (gf_curves s)) h)).
  { intro f. destruct Hb as [Hb| ->]; [now apply call_interp_ok|apply call_interp_extrapolate]. }
  rewrite (C (fun c => cv_rb (snd c))), (C (fun c => cv_D (snd c))). cbn [bind].
  unfold zlen. rewrite zrange_seq, mapM_map.
  rewrite (mapM_pure _ (fun i => interp k (map (fun c => (fst c, nth i (cv_g (snd c)) 0)) (gf_curves s)) h)).
  - reflexivity.
  - intros i Hi. apply in_seq in Hi. rewrite g_points_ok by (try assumption; lia). cbn [bind]. apply C.
Qed.
Lemma build_fresh k e : full_curves s -> gf_table s = t_empty -> build_table s k e = (t_built k e, Ok tt).
Proof.
  intros Hf Ht. unfold build_table. rewrite Ht. unfold zlen. rewrite zrange_seq, mapM_map.
  rewrite (mapM_pure _ (fun i => map (fun c => (fst c, nth i (cv_g (snd c)) 0)) (gf_curves s))); [reflexivity|].
  intros i Hi. apply in_seq in Hi. apply g_points_ok; [assumption|lia].
Qed.

Lemma effective_kind_for a n : (2 <= n)%nat -> a <> k_unknown -> exists k, effective_kind a (Z.of_nat n) = Ok k /\ kind_for a n k.
Proof.
  intros Hn Ha. unfold effective_kind.
  destruct a as [|k|]; [| |congruence].
  - cbn [bind]. destruct (Z.leb_spec 5 (Z.of_nat n)); [|destruct (Z.leb_spec 3 (Z.of_nat n))].
    + exists k_cubic. cbn [interpolation_kinds]. destruct (Z.ltb_spec (Z.of_nat n) 4); [lia|].
      split; [reflexivity|]. repeat split; intro; try reflexivity; lia.
    + exists k_quadratic. cbn [interpolation_kinds]. destruct (Z.ltb_spec (Z.of_nat n) 3); [lia|].
      split; [reflexivity|]. repeat split; intro; try reflexivity; lia.
    + exists k_linear. cbn [interpolation_kinds]. destruct (Z.ltb_spec (Z.of_nat n) 2); [lia|].
      split; [reflexivity|]. repeat split; intro; try reflexivity; lia.
  - destruct (Z.ltb_spec (Z.of_nat n) 2); [lia|]. cbn [bind].
    destruct (Z.ltb_spec (Z.of_nat n) (interpolation_kinds k)) as [L|L].
    + destruct k; cbn [interpolation_kinds] in L; try lia.
      * assert (n = 2%nat) as -> by lia. exists k_linear. split; [reflexivity|]. split; intro; [lia|reflexivity].
      * assert (n = 2 \/ n = 3)%nat as [-> | ->] by lia; [exists k_linear|exists k_quadratic]; (split; [reflexivity|]);
          repeat split; intro; try reflexivity; lia.
    + exists k. split; [reflexivity|]. destruct k; cbn [interpolation_kinds] in L; cbn [kind_for]; repeat split; intro; try reflexivity; lia.
Qed.

(** the equivalent height *)
Lemma equivalent_height_ok bh mn mx : bh <> 0 -> lowest s mn -> highest s mx ->
  let h := gf_B s / bh in
  exists h' e, equivalent_height s bh = Ok (h', e) /\
  (Rabs (h - mn) < / 1000000 -> Rabs (h - mx) < / 1000000 \/ h' = mn) /\
  (Rabs (h - mx) < / 1000000 -> h' = mx \/ Rabs (mx - mn) < / 1000000 /\ h' = mn) /\
  (/ 1000000 <= Rabs (h - mn) -> / 1000000 <= Rabs (h - mx) -> h' = h) /\
  (mn <= h' <= mx -> e = false) /\
  (mx < h' -> / 1000 <= h' - mn -> e = true) /\ (h' < mn -> mn - h' < / 1000 -> e = false) /\ (h' <= mn - / 1000 -> e = true).
Proof.
  intros Hb Hmn Hmx h. unfold equivalent_height. cbn [nofZ NumR]. rewrite pydiv_R by assumption. cbn [bind].
  change (nmul (1 / bh) (gf_B s)) with (1 / bh * gf_B s). replace (1 / bh * gf_B s) with h by (unfold h; field; assumption).
  fold (heights s).
  assert (Hn : gf_curves s <> []) by (destruct Hmn as (Ha & _); unfold heights in Ha; destruct (gf_curves s); [destruct Ha|discriminate]).
  destruct (extremes Hn) as (mx' & mn' & E1 & E2 & M1 & M2).
  assert (mx' = mx) as -> by (eapply highest_unique; eassumption). assert (mn' = mn) as -> by (eapply lowest_unique; eassumption).
  rewrite E1, E2. cbn [bind]. change (nlit 1 1000000) with (1 / 1000000). change (nlit 1 1000) with (1 / 1000).
  cbn [nabs nsub NumR].
  assert (Hmm : mn <= mx) by (apply Hmn, Hmx).
  do 2 eexists. split; [reflexivity|].
  set (h1 := if nlt (Rabs (h - mx)) (1 / 1000000) then mx else h).
  set (h2 := if nlt (Rabs (h1 - mn)) (1 / 1000000) then mn else h1).
  assert (A1 : Rabs (h - mx) < / 1000000 -> h1 = mx).
  { intro X. unfold h1. assert (E : nlt (Rabs (h - mx)) (1 / 1000000) = true) by (apply nlt_R; lra). now rewrite E. }
  assert (A2 : / 1000000 <= Rabs (h - mx) -> h1 = h).
  { intro X. unfold h1. assert (E : nlt (Rabs (h - mx)) (1 / 1000000) = false) by (apply nlt_R_false; lra). now rewrite E. }
  assert (B1 : Rabs (h1 - mn) < / 1000000 -> h2 = mn).
  { intro X. unfold h2. assert (E : nlt (Rabs (h1 - mn)) (1 / 1000000) = true) by (apply nlt_R; lra). now rewrite E. }
  assert (B2 : / 1000000 <= Rabs (h1 - mn) -> h2 = h1).
  { intro X. unfold h2. assert (E : nlt (Rabs (h1 - mn)) (1 / 1000000) = false) by (apply nlt_R_false; lra). now rewrite E. }
  split; [|split; [|split]].
  - intro X. destruct (Rlt_le_dec (Rabs (h - mx)) (/ 1000000)) as [Y|Y]; [now left|right].
    apply B1. rewrite (A2 Y). exact X.
  - intro X. rewrite (A1 X) in *. destruct (Rlt_le_dec (Rabs (mx - mn)) (/ 1000000)) as [Y|Y]; [right|left]; auto.
  - intros X Y. rewrite (A2 Y) in *. auto.
  - destruct (nle mn h2 && nle h2 mx) eqn:E.
    + apply andb_true_iff in E. destruct E as (Ea & Eb). apply nle_R in Ea. apply nle_R in Eb.
      split; [reflexivity|]. split; [intro X; lra|]. split; [reflexivity|]. intro X. lra.
    + assert (E' : h2 < mn \/ mx < h2).
      { apply andb_false_iff in E. destruct E as [E|E]; apply nle_R_false in E; auto. }
      split; [intro X; lra|].
      destruct (nlt (Rabs (mn - h2)) (1 / 1000)) eqn:E3; [apply nlt_R in E3|apply nlt_R_false in E3].
      * split; [intros X Y|split; [reflexivity|intro X]]; exfalso; revert E3; unfold Rabs; destruct (Rcase_abs _); lra.
      * split; [reflexivity|]. split; [|reflexivity]. intros X Y. exfalso. revert E3. unfold Rabs. destruct (Rcase_abs _); lra.
Qed.

Lemma clamped bh mn mx : bh <> 0 -> lowest s mn -> highest s mx -> mn <= gf_B s / bh <= mx ->
  exists h, equivalent_height s bh = Ok (h, false) /\ mn <= h <= mx /\ Rabs (h - gf_B s / bh) < 2 * / 1000000 /\
  (gf_B s / bh = mn -> Rabs (h - mn) < / 1000000) /\ (gf_B s / bh = mx -> h = mx \/ Rabs (mx - mn) < / 1000000 /\ h = mn).
Proof.
  intros Hb Hmn Hmx Hin. destruct (equivalent_height_ok bh mn mx Hb Hmn Hmx) as (h & e & E & P1 & P2 & P3 & P4 & _).
  set (x := gf_B s / bh) in *.
  assert (Hmm : mn <= mx) by (apply Hmn, Hmx).
  assert (C : h = x \/ h = mn /\ Rabs (x - mn) < 2 * / 1000000 \/ h = mx /\ Rabs (x - mx) < / 1000000).
  { destruct (Rlt_le_dec (Rabs (x - mx)) (/ 1000000)) as [Y|Y].
    - destruct (P2 Y) as [-> |(Z & ->)]; [auto|]. right; left. split; [reflexivity|].
      revert Y Z. unfold Rabs. repeat destruct (Rcase_abs _); lra.
    - destruct (Rlt_le_dec (Rabs (x - mn)) (/ 1000000)) as [X|X].
      + destruct (P1 X) as [Z| ->]; [lra|]. right; left. split; [reflexivity|lra].
      + left. auto. }
  assert (Hh : mn <= h <= mx) by (destruct C as [-> |[(-> & _)|(-> & _)]]; lra).
  exists h. rewrite (P4 Hh) in E. split; [exact E|]. split; [exact Hh|]. split; [|split].
  - destruct C as [-> |[(-> & Z)|(-> & Z)]].
    + replace (x - x) with 0 by ring. rewrite Rabs_R0. lra.
    + rewrite Rabs_minus_sym. exact Z.
    + rewrite Rabs_minus_sym. lra.
  - intro X. destruct C as [-> |[(-> & Z)|(-> & Z)]].
    + rewrite X. replace (mn - mn) with 0 by ring. rewrite Rabs_R0. lra.
    + replace (mn - mn) with 0 by ring. rewrite Rabs_R0. lra.
    + rewrite <- X. rewrite Rabs_minus_sym. exact Z.
  - intro X. apply P2. rewrite X. replace (mx - mx) with 0 by ring. rewrite Rabs_R0. lra.
Qed.
End Interpolation.

(** ** dictionaries *)
Lemma neqb_true (x y : R) : neqb x y = true <-> x = y.
Proof. apply neqb_R. Qed.
Lemma neqb_refl (x : R) : neqb x x = true.
Proof. now apply neqb_R. Qed.
Lemma neqb_false (x y : R) : neqb x y = false <-> x <> y.
Proof. rewrite <- not_true_iff_false, neqb_R. tauto. Qed.

Lemma dict_get_set {V} (d : list (R * V)) k v k' : dict_get (dict_set d k v) k' = if Req_EM_T k k' then Ok v else dict_get d k'.
Proof.
  induction d as [|(a, w) d IH]; cbn [dict_set dict_get].
  - destruct (Req_EM_T k k') as [-> |X]; [now rewrite neqb_refl|]. apply neqb_false in X. now rewrite X.
  - destruct (neqb a k) eqn:E; cbn [dict_get].
    + apply neqb_true in E. subst a. destruct (Req_EM_T k k') as [-> |X]; [now rewrite neqb_refl|].
      apply neqb_false in X. now rewrite X.
    + rewrite IH. destruct (neqb a k') eqn:E'; [|reflexivity]. apply neqb_true in E'. subst a. apply neqb_false in E.
      destruct (Req_EM_T k k'); [congruence|reflexivity].
Qed.
Lemma dict_set_keys {V} (d : list (R * V)) k v x : In x (map fst (dict_set d k v)) <-> In x (map fst d) \/ x = k.
Proof.
  induction d as [|(a, w) d IH]; cbn [dict_set map fst In]; [intuition congruence|].
  destruct (neqb a k) eqn:E; cbn [map fst In]; [apply neqb_true in E; subst; intuition congruence|]. rewrite IH. intuition congruence.
Qed.
Lemma dict_set_NoDup {V} (d : list (R * V)) k v : NoDup (map fst d) -> NoDup (map fst (dict_set d k v)).
Proof.
  induction d as [|(a, w) d IH]; cbn [dict_set map fst]; intro Hd; [constructor; [easy|constructor]|].
  apply NoDup_cons_iff in Hd. destruct Hd as (Ha & Hd).
  destruct (neqb a k) eqn:E; cbn [map fst]; constructor; auto.
  rewrite dict_set_keys. intros [X|X]; [auto|]. apply neqb_false in E. auto.
Qed.
Lemma dict_get_in {V} (d : list (R * V)) k : In k (map fst d) <-> exists v, dict_get d k = Ok v.
Proof.
  induction d as [|(a, w) d IH]; cbn [map fst In dict_get].
  - split; [intros []|intros (v & E); discriminate].
  - destruct (neqb a k) eqn:E.
    + apply neqb_true in E. split; eauto.
    + apply neqb_false in E. rewrite <- IH. tauto.
Qed.

(** the temporary dictionaries *)
Lemma last_entry_snoc data kv h : last_entry (data ++ [kv]) h = if Req_EM_T (dk_H (fst kv)) h then Some kv else last_entry data h.
Proof. unfold last_entry. rewrite rev_app_distr. cbn [rev app find]. destruct (Req_EM_T (dk_H (fst kv)) h); reflexivity. Qed.
Lemma last_depth_snoc data kv h : last_depth (data ++ [kv]) h =
  match dk_D (fst kv) with Some d => if Req_EM_T (dk_H (fst kv)) h then Some d else last_depth data h | None => last_depth data h end.
Proof.
  unfold last_depth. rewrite rev_app_distr. cbn [rev app find].
  destruct (dk_D (fst kv)) eqn:E; [|reflexivity]. destruct (Req_EM_T (dk_H (fst kv)) h); [now rewrite E|reflexivity].
Qed.
Lemma configure_fold data :
  let '(g, rbs, ds) := fold_left configure_body data ([], [], []) in
  (forall h, dict_get g h = match last_entry data h with Some kv => Ok (snd kv) | None => Err KeyError end) /\
  (forall h, dict_get rbs h = match last_entry data h with Some kv => Ok (dk_rb (fst kv)) | None => Err KeyError end) /\
  (forall h, dict_get ds h = match last_depth data h with Some d => Ok d | None => Err KeyError end) /\
  NoDup (map fst g) /\ forall h, In h (map fst g) <-> exists kv, In kv data /\ dk_H (fst kv) = h.
Proof.
  induction data as [|kv data IH] using rev_ind.
  - cbn. repeat split; try (intro; reflexivity); try constructor; try contradiction. intros (kv & [] & _).
  - rewrite fold_left_app. destruct (fold_left configure_body data ([], [], [])) as ((g, rbs), ds). cbn [fold_left configure_body].
    destruct IH as (I1 & I2 & I3 & I4 & I5). split; [|split; [|split; [|split]]].
    + intro h. rewrite dict_get_set, last_entry_snoc, I1. destruct (Req_EM_T _ _); reflexivity.
    + intro h. rewrite dict_get_set, last_entry_snoc, I2. destruct (Req_EM_T _ _); reflexivity.
    + intro h. rewrite last_depth_snoc. destruct (dk_D (fst kv)) as [d|]; [|apply I3].
      rewrite dict_get_set, I3. destruct (Req_EM_T _ _); reflexivity.
    + now apply dict_set_NoDup.
    + intro h. rewrite dict_set_keys, I5. split.
      * intros [(x & Hx & E)|E]; [exists x; split; [apply in_or_app; now left|assumption]|].
        exists kv. split; [apply in_or_app; right; now left|auto].
      * intros (x & Hx & E). apply in_app_or in Hx. destruct Hx as [Hx|[<-|[]]]; [left; eauto|right; auto].
Qed.

(** the sorting of the heights *)
Definition trunc (x : R) : Z := if Rle_dec 0 x then Rfloor x else Rceil x.
Lemma nint_trunc (x : R) : nint x = Ok (trunc x).
Proof. unfold nint, trunc. cbn [nofZ nle nfloor nceil NumR]. destruct (Rle_dec 0 x); reflexivity. Qed.
Lemma insert_key_perm p l : Permutation (@insert_key R p l) (p :: l).
Proof.
  induction l as [|q l IH]; cbn [insert_key]; [reflexivity|]. destruct (fst p <=? fst q)%Z; [reflexivity|].
  rewrite IH. constructor.
Qed.
Lemma insert_key_sorted p (l : list (Z * R)) : StronglySorted (fun a b => (fst a <= fst b)%Z) l ->
  StronglySorted (fun a b => (fst a <= fst b)%Z) (insert_key p l).
Proof.
  induction l as [|q l IH]; intro Hs; cbn [insert_key]; [repeat constructor|].
  apply StronglySorted_inv in Hs. destruct Hs as (Hs & Hq). destruct (Z.leb_spec (fst p) (fst q)).
  - constructor; [now constructor|]. constructor; [assumption|]. eapply Forall_impl; [|exact Hq]. cbn. intros. lia.
  - constructor; [auto|]. eapply Permutation_Forall; [symmetry; apply insert_key_perm|]. constructor; [lia|assumption].
Qed.
Lemma sort_perm (l : list (Z * R)) : Permutation (fold_right insert_key [] l) l.
Proof. induction l as [|p l IH]; [constructor|]. cbn [fold_right]. rewrite insert_key_perm. now constructor. Qed.
Lemma sort_sorted_keys (l : list (Z * R)) : StronglySorted (fun a b => (fst a <= fst b)%Z) (fold_right insert_key [] l).
Proof. induction l as [|p l IH]; [constructor|]. cbn [fold_right]. now apply insert_key_sorted. Qed.
Lemma sort_keys_ok (l : list R) : exists r, sort_keys l = Ok r /\ Permutation r l /\ StronglySorted (fun a b => (trunc a <= trunc b)%Z) r.
Proof.
  unfold sort_keys. rewrite (mapM_pure _ (fun k => (trunc k, k))) by (intros k _; now rewrite nint_trunc). cbn [bind].
  eexists. split; [reflexivity|]. set (ps := map (fun k => (trunc k, k)) l).
  assert (P := sort_perm ps). assert (S' := sort_sorted_keys ps).
  split.
  - rewrite P. unfold ps. rewrite map_map. cbn [snd]. now rewrite map_id.
  - assert (All : Forall (fun p => fst p = trunc (snd p)) (fold_right insert_key [] ps)).
    { eapply Permutation_Forall; [symmetry; exact P|]. apply Forall_forall. intros p Hp. unfold ps in Hp. apply in_map_iff in Hp.
      destruct Hp as (k & <- & _). reflexivity. }
    revert S' All. generalize (fold_right insert_key [] ps). clear. induction l as [|p l IH]; intros Hs Ha; [constructor|].
    apply StronglySorted_inv in Hs. destruct Hs as (Hs & Hp). apply Forall_cons_iff in Ha. destruct Ha as (Ep & Ha).
    cbn [map]. constructor; [now apply IH|]. apply Forall_forall. intros x Hx. apply in_map_iff in Hx. destruct Hx as (q & <- & Hq).
    rewrite Forall_forall in Hp, Ha. rewrite <- Ep, <- (Ha q Hq). now apply Hp.
Qed.
Lemma trunc_order a b : 0 <= a -> 0 <= b -> (trunc a <= trunc b)%Z -> ~ exists n : Z, b < IZR n <= a.
Proof.
  intros Ha Hb Hl (n & X & Y). unfold trunc in Hl. destruct (Rle_dec 0 a); [|lra]. destruct (Rle_dec 0 b); [|lra].
  pose proof (Rfloor_ge a n Y). pose proof (Rfloor_spec b).
  assert (IZR n <= IZR (Rfloor b)) by (apply IZR_le; lia). lra.
Qed.

(** ** the configured object *)
Lemma combine_map3 {A B C} (f : A -> B) (h : A -> C) l : combine (map f l) (map h l) = map (fun x => (f x, h x)) l.
Proof. induction l as [|a l IH]; [reflexivity|]. cbn [map combine]. now rewrite IH. Qed.

Definition depth_known (data : list (db_key * list R)) : Prop :=
  forall kv, In kv data -> exists d, last_depth data (dk_H (fst kv)) = Some d.

Lemma configure_ok (data : list (db_key * list R)) lt loc kv0 r : data = kv0 :: r ->
  exists s keys (G : R -> list R) (RB D : R -> R), configure data lt loc = Ok s /\
  gf_B s = dk_B (fst kv0) /\ gf_log_time s = lt /\ gf_locations s = loc /\ gf_table s = t_empty /\
  gf_curves s = map (fun h => (h, {| cv_g := G h; cv_rb := RB h; cv_D := D h |})) keys /\
  NoDup keys /\ (forall h, In h keys <-> exists kv, In kv data /\ dk_H (fst kv) = h) /\
  StronglySorted (fun a b => (trunc a <= trunc b)%Z) keys /\
  (forall h, In h keys -> exists kv, last_entry data h = Some kv /\ G h = snd kv /\ RB h = dk_rb (fst kv)) /\
  (depth_known data -> forall h, In h keys -> last_depth data h = Some (D h)) /\
  (~ depth_known data -> forall h, In h keys -> D h = 2).
Proof.
  intro Ed. unfold configure. pose proof (configure_fold data) as CF.
  destruct (fold_left configure_body data ([], [], [])) as ((g, rbs), ds).
  destruct CF as (I1 & I2 & I3 & I4 & I5). 
  assert (E0 : match data with [] => Err IndexError | kv :: _ => Ok kv end = Ok kv0) by (rewrite Ed; reflexivity). rewrite E0. cbn [bind].
  destruct (sort_keys_ok (map fst g)) as (keys & Ek & Pk & Sk). rewrite Ek. cbn [bind].
  assert (Hk : forall h, In h keys <-> exists kv, In kv data /\ dk_H (fst kv) = h).
  { intro h. rewrite <- I5. split; apply Permutation_in; [exact Pk|now symmetry]. }
  assert (Hl : forall h, In h keys -> exists kv, last_entry data h = Some kv).
  { intros h Hh. assert (X : In h (map fst g)) by (apply I5, Hk, Hh). apply dict_get_in in X. destruct X as (v & Ev).
    rewrite I1 in Ev. destruct (last_entry data h) as [kv|]; [eauto|discriminate]. }
  set (G := fun h => match last_entry data h with Some kv => snd kv | None => [] end).
  set (RB := fun h => match last_entry data h with Some kv => dk_rb (fst kv) | None => 0 end).
  rewrite (mapM_pure _ (fun h => (h, G h))).
  2:{ intros h Hh. rewrite I1. unfold G. destruct (Hl h Hh) as (kv & ->). reflexivity. }
  cbn [bind]. rewrite (mapM_pure (dict_get rbs) RB).
  2:{ intros h Hh. rewrite I2. unfold RB. destruct (Hl h Hh) as (kv & ->). reflexivity. }
  cbn [bind].
  assert (HD : exists D : R -> R, match mapM (dict_get ds) keys with Ok l => l | Err _ => map (fun _ => nofZ 2) keys end = map D keys /\
    (depth_known data -> forall h, In h keys -> last_depth data h = Some (D h)) /\ (~ depth_known data -> forall h, In h keys -> D h = 2)).
  { destruct (mapM (dict_get ds) keys) as [l|e] eqn:E.
    - apply mapM_ok in E.
      assert (DK : forall h, In h keys -> exists d, last_depth data h = Some d).
      { intros h Hh. apply In_nth_error in Hh. destruct Hh as (n & Hn).
        assert (X : exists d, dict_get ds h = Ok d).
        { clear - E Hn. revert n Hn. induction E as [|a b la lb Hab E IH]; intros n Hn; [destruct n; discriminate|].
          destruct n as [|n]; cbn [nth_error] in Hn; [injection Hn as <-; eauto|eauto]. }
        destruct X as (d & Ed'). rewrite I3 in Ed'. destruct (last_depth data h) as [d'|]; [eauto|discriminate]. }
      set (D := fun h => match last_depth data h with Some d => d | None => 0 end). exists D. split; [|split].
      + clear - E I3. unfold D. induction E as [|a b la lb Hab E IH]; [reflexivity|]. cbn [map]. rewrite <- IH. f_equal.
        rewrite I3 in Hab. destruct (last_depth data a); congruence.
      + intros _ h Hh. unfold D. destruct (DK h Hh) as (d & ->). reflexivity.
      + intros N. exfalso. apply N. intros kv Hkv. apply DK, Hk. eauto.
    - exists (fun _ => 2). split; [reflexivity|]. split; [|reflexivity]. intros DK. exfalso.
      assert (X : exists l, mapM (dict_get ds) keys = Ok l).
      { eexists. apply (mapM_pure _ (fun h => match last_depth data h with Some d => d | None => 0 end)).
        intros h Hh. apply Hk in Hh. destruct Hh as (kv & Hkv & <-). rewrite I3. destruct (DK kv Hkv) as (d & ->). reflexivity. }
      destruct X as (l & X). congruence. }
  destruct HD as (D & -> & HD1 & HD2).
  eexists _, keys, G, RB, D. split; [reflexivity|]. cbn [gf_B gf_log_time gf_locations gf_table gf_curves fst].
  repeat (split; [reflexivity|]). split.
  { rewrite combine_map3, combine_map3, map_map. reflexivity. }
  split; [eapply Permutation_NoDup; [symmetry; exact Pk|exact I4]|].
  split; [exact Hk|]. split; [exact Sk|]. split; [|split; assumption].
  intros h Hh. destruct (Hl h Hh) as (kv & E). exists kv. unfold G, RB. rewrite E. auto.
Qed.
