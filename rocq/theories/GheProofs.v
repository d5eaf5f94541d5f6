(** Lemmas about the model in Ghe.v *)
From Coq Require Import ZArith List Bool Reals Lia Lra.
From Verif Require Import Base Num BaseLemmas Loads LoadsSpec LoadsProofs LoadsSim Ghe GheSpec.
Import ListNotations.
Open Scope R_scope.

(** ** the simulation *)
Lemma at_step_nth l k : at_step l k = nth k (0 :: l) 0.
Proof. destruct k; reflexivity. Qed.

Lemma dot_map (f h : nat -> R) n : dot (map f (seq 0 n)) (map h (seq 0 n)) = sumf (fun j => f j * h j) n.
Proof. unfold dot. rewrite combine_map2, map_map, nsum_R, Rsum_seq. reflexivity. Qed.

Lemma list_seq (l : list R) : l = map (fun j => nth j l 0) (seq 0 (length l)).
Proof. induction l as [|a l IH]; [reflexivity|]. cbn [length seq map nth]. rewrite <- seq_shift, map_map. f_equal. exact IH. Qed.

Lemma firstn_as_seq (l : list R) n : (n <= length l)%nat -> firstn n l = map (fun j => nth j l 0) (seq 0 n).
Proof.
  intro Hn. rewrite (list_seq l) at 1. rewrite firstn_map, firstn_seq by assumption. reflexivity.
Qed.

Section Detailed.
Variables (g : R -> res R) (G : R -> R) (nbh H k2 Tg Rb m cp : R) (Q t : list R).
Hypotheses (Hn : nbh <> 0) (HH : H <> 0) (Hk : k2 <> 0) (Hm : m * cp <> 0).
Let q k := at_step Q k / nbh.
Let T k := at_step t k.
Definition wall (i : nat) : R := wall_rise G (fun k => at_step Q k / nbh / H / k2) (at_step t) i.
Definition fluid (i : nat) : R := Tg + wall i + q i / H * Rb - q i / (2 * m * cp).

Lemma mapM_div l d : d <> 0 -> mapM (fun x : R => pydiv x d) l = Ok (map (fun x => x / d) l).
Proof. intro Hd. apply (mapM_pure _ (fun x => x / d)). intros a _. now apply pydiv_R. Qed.

Lemma step_ok i : (1 <= i <= length Q)%nat -> (length Q <= length t)%nat -> covers g G t i ->
  detailed_step g H k2 Tg Rb m cp (0 :: map (fun x => x / nbh) Q) (0 :: t) (diffs (0 :: map (fun x => x / nbh) Q)) (Z.of_nat i)
  = Ok (fluid i, wall i).
Proof.
  intros Hi Ht Hc. unfold detailed_step.
  assert (Hqn : forall k, (k <= length Q)%nat -> nth k (0 :: map (fun x => x / nbh) Q) 0 = q k).
  { intros [|k] Hk'; unfold q; cbn [nth at_step]; [field; assumption|].
    rewrite (nth_indep _ 0 (0 / nbh)) by (rewrite map_length; lia).
    apply (map_nth (fun x : R => x / nbh)). }
  rewrite (py_nth_nat (0 :: t)) by (cbn [length]; lia). cbn [bind].
  rewrite !py_slice_0 by (rewrite ?diffs_map, ?map_length, ?seq_length; cbn [length]; rewrite ?map_length; lia).
  rewrite (firstn_as_seq (0 :: t)) by (cbn [length]; lia).
  rewrite mapM_map.
  rewrite (mapM_pure _ (fun j => G (at_step t i - at_step t j))).
  2:{ intros j Hj. apply in_seq in Hj. rewrite <- !at_step_nth. apply (Hc i j). lia. }
  cbn [bind]. rewrite diffs_map, firstn_map. cbn [length]. rewrite map_length, Nat.sub_succ, Nat.sub_0_r, firstn_seq by lia.
  rewrite mapM_map.
  rewrite (mapM_pure _ (fun j => (q (S j) / H / k2 - q j / H / k2))).
  2:{ intros j Hj. apply in_seq in Hj. rewrite !Hqn by lia. rewrite pydiv_R by assumption. cbn [bind].
      rewrite pydiv_R by assumption. change nsub with Rminus. f_equal. field; split; assumption. }
  cbn [bind]. rewrite dot_map.
  rewrite (py_nth_nat (0 :: map (fun x => x / nbh) Q)) by (cbn [length]; rewrite map_length; lia). cbn [bind].
  rewrite Hqn by lia. rewrite pydiv_R by assumption. cbn [bind].
  rewrite pydiv_R by (cbn; rewrite Rmult_assoc; apply Rmult_integral_contrapositive_currified; [lra|assumption]).
  cbn [bind]. reflexivity.
Qed.

Lemma mapM_from_nat {A} (f : Z -> res A) (h : nat -> A) n : (forall i, (1 <= i <= n)%nat -> f (Z.of_nat i) = Ok (h i)) ->
  mapM f (zrange 1 (Z.of_nat n + 1)) = Ok (map h (seq 1 n)).
Proof.
  intro Hf. replace (zrange 1 (Z.of_nat n + 1)) with (map Z.of_nat (seq 1 n)).
  - rewrite mapM_map. apply (mapM_pure _ h). intros i Hi. apply in_seq in Hi. apply Hf. lia.
  - apply nth_error_ext. intro k. unfold zrange. rewrite nth_error_zseq.
    replace (Z.to_nat (Z.of_nat n + 1 - 1)) with n by lia.
    destruct (k <? n)%nat eqn:E.
    + apply Nat.ltb_lt in E. rewrite (map_nth_error Z.of_nat k (seq 1 n) (d := (1 + k)%nat)).
      * f_equal. lia.
      * rewrite (nth_error_nth' _ 0%nat) by (rewrite seq_length; lia). now rewrite seq_nth.
    + apply Nat.ltb_ge in E. apply nth_error_None. rewrite map_length, seq_length. lia.
Qed.

Lemma detailed_ok : Q <> [] -> (length Q <= length t)%nat -> covers g G t (length Q) ->
  simulate_detailed g nbh H k2 Tg Rb m cp Q t = Ok (map fluid (seq 1 (length Q)), map wall (seq 1 (length Q))).
Proof.
  intros HQ Ht Hc. unfold simulate_detailed.
  destruct (Z.eqb_spec (zlen Q) 0) as [E|E].
  { exfalso. apply HQ, length_zero_iff_nil. unfold zlen in E. lia. }
  cbn [raise_if bind]. rewrite mapM_div by assumption. cbn [bind].
  unfold zlen. rewrite (mapM_from_nat _ (fun i => (fluid i, wall i))).
  - cbn [bind]. rewrite !map_map. reflexivity.
  - intros i Hi. apply step_ok; [assumption..|]. intros a b Hab. apply Hc. lia.
Qed.

(** the times run out *)
Lemma detailed_short : (length t < length Q)%nat -> covers g G t (length t) ->
  simulate_detailed g nbh H k2 Tg Rb m cp Q t = Err IndexError.
Proof.
  intros Ht Hc. unfold simulate_detailed.
  destruct (Z.eqb_spec (zlen Q) 0) as [E|E]; [unfold zlen in E; lia|].
  cbn [raise_if bind]. rewrite mapM_div by assumption. cbn [bind].
  assert (Hstep : forall i, (1 <= i <= length t)%nat -> exists r, detailed_step g H k2 Tg Rb m cp (0 :: map (fun x => x / nbh) Q) (0 :: t)
    (diffs (0 :: map (fun x => x / nbh) Q)) (Z.of_nat i) = Ok r).
  { intros i Hi. unfold detailed_step.
    rewrite (py_nth_nat (0 :: t)) by (cbn [length]; lia). cbn [bind].
    rewrite !py_slice_0 by (rewrite ?diffs_map, ?map_length, ?seq_length; cbn [length]; rewrite ?map_length; lia).
    rewrite (firstn_as_seq (0 :: t)) by (cbn [length]; lia).
    rewrite mapM_map.
    rewrite (mapM_pure _ (fun j => G (at_step t i - at_step t j))).
    2:{ intros j Hj. apply in_seq in Hj. rewrite <- !at_step_nth. apply (Hc i j). lia. }
    cbn [bind]. rewrite (mapM_pure _ (fun d => d / H / k2)).
    2:{ intros d _. rewrite pydiv_R by assumption. cbn [bind]. now apply pydiv_R. }
    cbn [bind]. rewrite (py_nth_nat (0 :: map (fun x => x / nbh) Q)) by (cbn [length]; rewrite map_length; lia). cbn [bind].
    rewrite pydiv_R by assumption. cbn [bind].
    rewrite pydiv_R by (cbn; rewrite Rmult_assoc; apply Rmult_integral_contrapositive_currified; [lra|assumption]).
    eexists; reflexivity. }
  unfold zlen.
  assert (Hsplit : zrange 1 (Z.of_nat (length Q) + 1) =
    zrange 1 (Z.of_nat (length t) + 1) ++ Z.of_nat (length t + 1) :: zrange (Z.of_nat (length t) + 1 + 1) (Z.of_nat (length Q) + 1)).
  { rewrite (zrange_app 1 (Z.of_nat (length t) + 1)) by lia. f_equal. rewrite zrange_cons by lia. f_equal. lia. }
  rewrite Hsplit.
  assert (Happ : forall (f : Z -> res (R * R)) l a r, (forall x, In x l -> exists y, f x = Ok y) -> f a = Err IndexError ->
    mapM f (l ++ a :: r) = Err IndexError).
  { intros f l a r Hl Ha. induction l as [|x l IH]; cbn [app mapM].
    - rewrite Ha. reflexivity.
    - destruct (Hl x (or_introl eq_refl)) as (y & Ey). rewrite Ey. cbn [bind]. rewrite IH; [reflexivity|].
      intros z Hz. apply Hl. now right. }
  rewrite Happ; [reflexivity| |].
  - intros x Hx. apply in_zrange in Hx. destruct (Hstep (Z.to_nat x) ltac:(lia)) as (r & Er). rewrite Z2Nat.id in Er by lia. eauto.
  - assert (P : py_nth (0 :: t) (Z.of_nat (length t + 1)) = Err IndexError).
    { destruct (py_nth (0 :: t) (Z.of_nat (length t + 1))) eqn:P.
      + apply py_nth_nonneg in P; [|lia]. rewrite Nat2Z.id in P.
        assert (nth_error (0 :: t) (length t + 1) = None) by (apply nth_error_None; cbn [length]; lia). congruence.
      + apply py_nth_err in P. now subst. }
    unfold detailed_step. cbn [nofZ NumR]. rewrite P. reflexivity.
Qed.
End Detailed.

Lemma fold_nmin (l : list R) : forall a, is_min (fold_left nmin l a) (a :: l).
Proof.
  induction l as [|b l IH]; intro a; cbn [fold_left].
  - split; [now left|]. intros x [->|[]]. lra.
  - destruct (IH (nmin a b)) as (Hin & Hle).
    assert (Hab : (nmin a b = a \/ nmin a b = b) /\ nmin a b <= a /\ nmin a b <= b).
    { unfold nmin. destruct (nlt b a) eqn:E; [apply nlt_R in E|apply nlt_R_false in E]; repeat split; auto; lra. }
    destruct Hab as (Hor & H1 & H2). split.
    + destruct Hin as [Hin|Hin]; [rewrite <- Hin; destruct Hor as [-> | ->]; [now left|right; now left]|right; now right].
    + intros x [<-|[<-|Hx]]; [| |apply Hle; now right]; pose proof (Hle _ (or_introl eq_refl)); lra.
Qed.
Lemma nminl_total (l : list R) : l <> [] -> exists m, nminl l = Ok m /\ is_min m l.
Proof. destruct l as [|a l]; [congruence|]. intros _. exists (fold_left nmin l a). split; [reflexivity|apply fold_nmin]. Qed.

(** ** hourly loads *)
Lemma nint_IZR z : nint (IZR z) = Ok z.
Proof.
  unfold nint. cbn [nofZ NumR]. destruct (nle 0 (IZR z)); cbn; f_equal; [apply Rfloor_IZR|apply Rceil_IZR].
Qed.
Lemma repeat_concat_length {A} (l : list A) n : length (concat (repeat l n)) = (n * length l)%nat.
Proof. induction n as [|n IH]; [reflexivity|]. cbn [repeat concat Nat.mul]. rewrite app_length, IH. reflexivity. Qed.
Lemma repeat_concat_nth {A} (l : list A) n k : (0 < length l)%nat -> (k < n * length l)%nat ->
  nth_error (concat (repeat l n)) k = nth_error l (k mod length l).
Proof.
  intro Hl. revert k. induction n as [|n IH]; intros k Hk; [lia|]. cbn [repeat concat].
  destruct (Nat.lt_ge_cases k (length l)) as [E|E].
  - rewrite nth_error_app1 by assumption. now rewrite Nat.mod_small.
  - rewrite nth_error_app2 by assumption. rewrite IH by (cbn [Nat.mul] in Hk; lia).
    f_equal. replace k with (k - length l + 1 * length l)%nat at 2 by lia. rewrite Nat.mod_add by lia. reflexivity.
Qed.

Lemma hourly_loads_ok s e (hourly load hour : list R) n_years :
  (1 <= e - s + 1)%Z -> n_years = ((e - s + 12) / 12)%Z ->
  simulated_loads m_hourly s e hourly load hour =
  Ok (map (fun x => -1 * x) (concat (repeat hourly (Z.to_nat n_years))), map IZR (zrange 1 (730 * (e - s + 1) + 1))).
Proof.
  intros Hn ->. unfold simulated_loads. cbn [nofZ NumR]. rewrite pydiv_R by lra. cbn [bind].
  replace (nmul (IZR (e - s + 1) / 12) 8760) with (IZR (730 * (e - s + 1))) by (rewrite mult_IZR; cbn; field).
  rewrite nint_IZR. cbn [bind]. rewrite pydiv_R by lra. cbn [bind].
  cbn [nceil NumR]. rewrite (Rceil_unique _ ((e - s + 12) / 12)).
  - cbn [bind]. unfold list_times, py_repeat. reflexivity.
  - rewrite mult_IZR. set (n := (e - s + 1)%Z) in *. replace (e - s + 12)%Z with (n + 11)%Z by lia.
    pose proof (Z.div_mod (n + 11) 12 ltac:(lia)) as D. pose proof (Z.mod_pos_bound (n + 11) 12 ltac:(lia)) as B.
    assert (D' : (12 * ((n + 11) / 12) - 12 < n <= 12 * ((n + 11) / 12))%Z) by lia. destruct D' as (D1 & D2).
    apply IZR_lt in D1. apply IZR_le in D2. rewrite minus_IZR, mult_IZR in D1. rewrite mult_IZR in D2. lra.
Qed.

(** ** combination of the g-functions *)
Lemma increasing_head a l : increasing (a :: l) -> forall x, In x l -> a < x.
Proof.
  revert a. induction l as [|b l IH]; intros a Hi x Hx; [easy|]. cbn [increasing] in Hi. destruct Hi as (Hab & Hi).
  destruct Hx as [<-|Hx]; [assumption|]. pose proof (IH b Hi x Hx). lra.
Qed.
Lemma increasing_tail a l : increasing (a :: l) -> increasing l.
Proof. destruct l; cbn [increasing]; tauto. Qed.
Lemma increasing_app l r : increasing l -> increasing r -> (forall x y, In x l -> In y r -> x < y) -> increasing (l ++ r).
Proof.
  induction l as [|a l IH]; intros Hl Hr Hx; [assumption|]. cbn [app].
  assert (Hi : increasing (l ++ r)).
  { apply IH; [now apply increasing_tail in Hl|assumption|]. intros x y Hx' Hy. apply Hx; [now right|assumption]. }
  destruct (l ++ r) as [|b m] eqn:E; [exact I|]. split; [|exact Hi].
  destruct l as [|c l]; cbn [app] in E.
  - apply Hx; [now left|]. rewrite E. now left.
  - injection E as E _. subst c. apply (increasing_head a (b :: l) Hl b). now left.
Qed.
Lemma increasing_app_l l r : increasing (l ++ r) -> increasing l.
Proof.
  induction l as [|a l IH]; intro Hi; [exact I|]. cbn [app] in Hi. pose proof (IH (increasing_tail _ _ Hi)) as Hl.
  destruct l as [|b l]; [exact I|]. cbn [app increasing] in Hi |- *. tauto.
Qed.
Lemma split_at (l : list R) b : increasing l -> exists before after, l = before ++ after /\
  (forall x, In x before -> x <= b) /\ (forall x, In x after -> b < x).
Proof.
  induction l as [|a l IH]; intro Hi.
  - exists [], []. repeat split; intros x [].
  - destruct (Rle_lt_dec a b) as [Ha|Ha].
    + destruct (IH (increasing_tail _ _ Hi)) as (be & af & -> & H1 & H2). exists (a :: be), af. split; [reflexivity|].
      split; [|assumption]. intros x [<-|Hx]; [assumption|now apply H1].
    + exists [], (a :: l). split; [reflexivity|]. split; [intros x []|]. intros x [<-|Hx]; [assumption|].
      pose proof (increasing_head _ _ Hi x Hx). lra.
Qed.
Lemma stop_index_at (before : list R) v after b : (forall x, In x before -> x <= b) -> b < v -> forall i,
  stop_index (before ++ v :: after) b i = Ok (i + zlen before)%Z.
Proof.
  intros Hb Hv. induction before as [|a l IH]; intro i; cbn [app stop_index].
  - assert (E : nle v b = false) by (apply nle_R_false; assumption). rewrite E. f_equal. rewrite zlen_nil. lia.
  - assert (E : nle a b = true) by (apply nle_R; apply Hb; now left). rewrite E, IH.
    + f_equal. rewrite zlen_cons. lia.
    + intros x Hx. apply Hb. now right.
Qed.
Lemma min_increasing a l m : increasing (a :: l) -> is_min m (a :: l) -> m = a.
Proof.
  intros Hi (Hin & Hle). destruct Hin as [<-|Hin]; [reflexivity|].
  pose proof (increasing_head _ _ Hi m Hin). pose proof (Hle a (or_introl eq_refl)). lra.
Qed.
Lemma max_increasing l m : increasing l -> is_max m l -> last l 0 = m.
Proof.
  induction l as [|a l IH]; intros Hi (Hin & Hle); [easy|].
  destruct l as [|b l].
  - destruct Hin as [<-|[]]. reflexivity.
  - change (last (b :: l) 0 = m). apply IH; [now apply increasing_tail in Hi|]. split.
    + destruct Hin as [<-|Hin]; [|assumption]. pose proof (Hle b (or_intror (or_introl eq_refl))).
      destruct Hi as (Hab & _). lra.
    + intros x Hx. apply Hle. now right.
Qed.

Lemma combine_ok (lts glts sts gsts : list R) l0 r : lts = l0 :: r -> increasing lts -> increasing sts -> sts <> [] ->
  length glts = length lts -> length gsts = length sts -> last sts 0 <> l0 ->
  exists before after, sts = before ++ after /\ (forall x, In x before -> x <= l0) /\ (forall x, In x after -> l0 < x) /\
  combine_sts_lts lts glts sts gsts = Ok (before ++ lts, firstn (length before) gsts ++ glts).
Proof.
  intros El Hl Hs Hn Hgl Hgs Hlast.
  destruct (split_at sts l0 Hs) as (be & af & Es & H1 & H2). exists be, af. split; [assumption|]. split; [assumption|].
  split; [assumption|]. unfold combine_sts_lts.
  destruct (nmaxl_total sts Hn) as (mx & Emx & Hmx). rewrite Emx. cbn [bind].
  destruct (nminl_total lts ltac:(subst lts; discriminate)) as (mn & Emn & Hmn). rewrite Emn. cbn [bind].
  assert (mn = l0) as -> by (subst lts; now apply (min_increasing l0 r)).
  pose proof (max_increasing sts mx Hs Hmx) as El'. rewrite El' in Hlast.
  destruct (nlt mx l0) eqn:E.
  - apply nlt_R in E. assert (af = []) as ->.
    { destruct af as [|a af]; [reflexivity|]. pose proof (H2 a (or_introl eq_refl)).
      pose proof (proj2 Hmx a ltac:(rewrite Es; apply in_or_app; right; now left)). lra. }
    rewrite app_nil_r in Es. subst be. cbn [bind fst snd]. unfold zlen. rewrite !app_length, Hgl, Hgs, Z.eqb_refl.
    rewrite <- Hgs, firstn_all. reflexivity.
  - apply nlt_R_false in E. destruct af as [|v af].
    { exfalso. rewrite app_nil_r in Es. subst be. pose proof (H1 mx (proj1 Hmx)). lra. }
    rewrite Es at 1. rewrite stop_index_at; [|assumption|apply H2; now left]. cbn [bind].
    rewrite !Z.add_0_l. unfold zlen.
    assert (Hlen : (length be <= length sts)%nat) by (rewrite Es, app_length; lia).
    rewrite !py_slice_0 by lia. cbn [fst snd].
    assert (Ef : firstn (length be) sts = be).
    { rewrite Es, firstn_app, firstn_all, Nat.sub_diag. cbn [firstn]. apply app_nil_r. }
    rewrite Ef. unfold zlen. rewrite !app_length, firstn_length, Hgl, Hgs, Nat.min_l, Z.eqb_refl by assumption. reflexivity.
Qed.

(** ** root finding *)
Lemma sign_of_pos (v : R) : 0 < v -> sign_of v = Ok 1%Z.
Proof.
  intro Hv. unfold sign_of. cbn [nabs NumR]. rewrite Rabs_pos_eq by lra. rewrite pydiv_R by lra. cbn [bind].
  replace (v / v) with 1 by (field; lra). apply (nint_IZR 1).
Qed.
Lemma sign_of_neg (v : R) : v < 0 -> sign_of v = Ok (-1)%Z.
Proof.
  intro Hv. unfold sign_of. cbn [nabs NumR]. rewrite Rabs_left by lra. rewrite pydiv_R by lra. cbn [bind].
  replace (v / - v) with (-1) by (field; lra). apply (nint_IZR (-1)).
Qed.
Lemma sign_of_0 : sign_of 0 = Err ZeroDivisionError.
Proof. unfold sign_of. cbn [nabs NumR]. rewrite Rabs_R0. rewrite pydiv_R0. reflexivity. Qed.

Section Root.
Variable brentq : (R -> res R) -> R -> R -> list R * res R.
Variables (x : R) (f : R -> res R) (lo up : R).

Lemma solve_root_cases a b : f lo = Ok a -> f up = Ok b ->
  solve_root brentq x f (Some lo) (Some up) =
  if Req_EM_T a 0 then ([lo; up], Err ZeroDivisionError) else
  if Req_EM_T b 0 then ([lo; up], Err ZeroDivisionError) else
  if Rlt_dec a 0 then if Rlt_dec b 0 then ([lo; up], Ok up) else (lo :: up :: fst (brentq f lo up), snd (brentq f lo up))
  else if Rlt_dec b 0 then (lo :: up :: fst (brentq f lo up), snd (brentq f lo up)) else ([lo; up], Ok lo).
Proof.
  intros Ea Eb. unfold solve_root. rewrite Ea, Eb.
  destruct (Req_EM_T a 0) as [-> |Ha]; [rewrite sign_of_0; reflexivity|].
  assert (Ea' : sign_of a = Ok (if Rlt_dec a 0 then -1 else 1)%Z).
  { destruct (Rlt_dec a 0); [now apply sign_of_neg|apply sign_of_pos; lra]. }
  rewrite Ea'. cbn [bind].
  destruct (Req_EM_T b 0) as [-> |Hb]; [rewrite sign_of_0; reflexivity|].
  assert (Eb' : sign_of b = Ok (if Rlt_dec b 0 then -1 else 1)%Z).
  { destruct (Rlt_dec b 0); [now apply sign_of_neg|apply sign_of_pos; lra]. }
  rewrite Eb'. cbn [bind].
  destruct (Rlt_dec a 0), (Rlt_dec b 0); cbn [Z.eqb negb andb]; destruct (brentq f lo up); reflexivity.
Qed.

Lemma solve_root_points : (forall p, In p (fst (brentq f lo up)) -> lo <= p <= up) -> lo <= up ->
  forall p, In p (fst (solve_root brentq x f (Some lo) (Some up))) -> lo <= p <= up.
Proof.
  intros Hb Hl p. unfold solve_root.
  destruct (f lo) as [a|]; [|intros [<-|[]]; lra].
  destruct (f up) as [b|]; [|intros [<-|[<-|[]]]; lra].
  destruct (sign_of a) as [sa|]; [|intros [<-|[<-|[]]]; lra].
  destruct (sign_of b) as [sb|]; [|intros [<-|[<-|[]]]; lra]. cbn [bind].
  destruct (sb =? sa)%Z; cbn [negb].
  - destruct (_ && _); [|destruct (_ && _)]; intros [<-|[<-|[]]]; lra.
  - destruct (brentq f lo up) as (pts, r). intros [<-|[<-|Hp]]; [lra..|]. apply Hb. exact Hp.
Qed.

(** the evaluated points begin with the bounds (only the lower one when it fails) *)
Lemma solve_root_nonempty : fst (solve_root brentq x f (Some lo) (Some up)) <> [].
Proof.
  unfold solve_root. destruct (f lo) as [a|]; [|discriminate]. destruct (f up) as [b|]; [|discriminate].
  destruct (sign_of a) as [sa|]; [|discriminate]. destruct (sign_of b) as [sb|]; [|discriminate]. cbn [bind].
  destruct (sb =? sa)%Z; cbn [negb].
  - destruct (_ && _); [|destruct (_ && _)]; discriminate.
  - destruct (brentq f lo up); discriminate.
Qed.
End Root.

(** ** sizing *)
Lemma evaluate_height (sim : R -> res (list R * R)) s h : sz_height (evaluate sim s h) = h.
Proof. unfold evaluate. destruct (sim h); reflexivity. Qed.
Lemma last_indep {A} (l : list A) : l <> [] -> forall a b, last l a = last l b.
Proof.
  induction l as [|c l IH]; intros Hn a b; [congruence|]. destruct l as [|d l]; [reflexivity|].
  apply (IH ltac:(discriminate) a b).
Qed.
Lemma evaluate_all (sim : R -> res (list R * R)) pts : forall s, sz_height (fold_left (evaluate sim) pts s) = last pts (sz_height s).
Proof.
  induction pts as [|p pts IH]; intro s; [reflexivity|]. cbn [fold_left]. rewrite IH, evaluate_height.
  destruct pts as [|q pts]; [reflexivity|]. apply (last_indep (q :: pts)). discriminate.
Qed.
Lemma evaluate_result (sim : R -> res (list R * R)) pts p : forall s, (forall h, In h (pts ++ [p]) -> exists r, sim h = Ok r) ->
  exists T c, sim p = Ok (T, c) /\ sz_result (fold_left (evaluate sim) (pts ++ [p]) s) = Some (p, T).
Proof.
  intros s Hs. rewrite fold_left_app. cbn [fold_left].
  destruct (Hs p ltac:(apply in_or_app; right; now left)) as ((T, c) & E). exists T, c. split; [assumption|].
  unfold evaluate at 1. rewrite E. reflexivity.
Qed.
