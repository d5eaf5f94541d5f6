(** Properties C55-C60 and C76: g-functions (gfunction.py) *)
From Coq Require Import ZArith QArith List Bool Reals Lia Lra Sorting.Sorted.
From Verif Require Import Base Num BaseLemmas Loads LoadsSpec LoadsProofs LoadsSim Ghe GheSpec GheProofs GFun GFunSpec GFunProofs.
Import ListNotations.
Open Scope R_scope.

Lemma many_curves (s : @gfunction R) : (2 <= length (gf_curves s))%nat -> exists a b r, gf_curves s = a :: b :: r.
Proof. destruct (gf_curves s) as [|a [|b r]]; cbn; [lia|lia|]. intros _. exists a, b, r. reflexivity. Qed.

Lemma interpolation_by_table interp (s : @gfunction R) bh req h e k : (2 <= length (gf_curves s))%nat ->
  equivalent_height s bh = Ok (h, e) -> effective_kind req (Z.of_nat (length (gf_curves s))) = Ok k ->
  full_curves s ->
  (gf_table s = t_empty -> g_function_interpolation interp s bh req = (t_built k e, read_table interp s (t_built k e) h)) /\
  (forall k' e', gf_table s = t_built k' e' -> g_function_interpolation interp s bh req = (t_built k' e', read_table interp s (t_built k' e') h)).
Proof.
  intros Hn Eh Ek Hf. destruct (many_curves s Hn) as (a & b & r & Ec).
  unfold g_function_interpolation. rewrite Eh, Ec.
  assert (Ez : effective_kind req (zlen (a :: b :: r)) = Ok k) by (unfold zlen; rewrite <- Ec; exact Ek).
  split.
  - intro Et. pose proof (build_fresh s k e Hf Et) as EB. destruct req; rewrite Ez, EB; cbn [bind]; reflexivity.
  - intros k' e' Et. assert (EB : build_table s k e = (t_built k' e', Ok tt)) by (unfold build_table; rewrite Et; reflexivity).
    destruct req; rewrite Ez, EB; cbn [bind]; reflexivity.
Qed.

(** C55.  On one object, requests of one kind for heights between the stored ones give the same as on a fresh object. *)
Theorem C55_history_independent_partial :
  forall interp (s : @gfunction R) req requests, gf_table s = t_empty -> (2 <= length (gf_curves s))%nat -> full_curves s ->
  req <> k_unknown -> (forall bh, In bh requests -> bh <> 0 /\ between s (gf_B s / bh)) ->
  results interp s req requests = map (fun bh => snd (g_function_interpolation interp s bh req)) requests /\
  forall r, In r (results interp s req requests) -> exists v, r = Ok v.
Proof.
  intros interp s req requests Ht Hn Hf Hr Hb.
  destruct (effective_kind_for req _ Hn Hr) as (k & Ek & _).
  assert (Hne : gf_curves s <> []) by (destruct (gf_curves s); [cbn in Hn; lia|discriminate]).
  destruct (extremes s Hne) as (mx & mn & _ & _ & M1 & M2).
  assert (One : forall bh, In bh requests -> exists h, equivalent_height s bh = Ok (h, false) /\ between s h).
  { intros bh Hin. destruct (Hb bh Hin) as (Hz & Hbt). apply (between_extremes s _ mn mx M2 M1) in Hbt.
    destruct (clamped s bh mn mx Hz M2 M1 Hbt) as (h & E & Hh & _). exists h. split; [assumption|].
    now apply (between_extremes s _ mn mx M2 M1). }
  assert (Gen : forall l t, (forall bh, In bh l -> In bh requests) -> t = t_empty \/ t = t_built k false ->
    results interp (with_table s t) req l = map (fun bh => snd (g_function_interpolation interp s bh req)) l /\
    forall r, In r (results interp (with_table s t) req l) -> exists v, r = Ok v).
  { induction l as [|bh l IH]; intros t Hl Htt; [split; [reflexivity|intros r []]|]. cbn [results map].
    destruct (One bh (Hl bh (or_introl eq_refl))) as (h & Eh & Hbt).
    destruct (interpolation_by_table interp s bh req h false k Hn Eh Ek Hf) as (F1 & _). rewrite (F1 Ht).
    assert (Ec : g_function_interpolation interp (with_table s t) bh req = (t_built k false, read_table interp s (t_built k false) h)).
    { destruct (interpolation_by_table interp (with_table s t) bh req h false k Hn Eh Ek Hf) as (G1 & G2).
      destruct Htt as [-> | ->]; [rewrite G1 by reflexivity|rewrite (G2 k false) by reflexivity]; reflexivity. }
    rewrite Ec. cbn [snd].
    assert (Ew : with_table (with_table s t) (t_built k false) = with_table s (t_built k false)) by reflexivity. rewrite Ew.
    destruct (IH (t_built k false)) as (I1 & I2); [intros x Hx; apply Hl; now right|now right|].
    split; [now rewrite I1|]. intros r [<-|Hr']; [|now apply I2].
    eexists. apply read_ok; [assumption|now left]. }
  assert (Es : s = with_table s t_empty) by (destruct s; cbn in Ht |- *; now rewrite Ht).
  pose proof (Gen requests t_empty (fun _ X => X) (or_introl eq_refl)) as F. rewrite <- Es in F. exact F.
Qed.
(** three curves g = H/10, with one time; the interpolant is a straight line through the first two points *)
Definition line (k : ikind) (pts : list (Q * Q)) (h : Q) : Q :=
  match pts with
  | (a, u) :: (b, v) :: _ => Qred (u + (v - u) / (b - a) * (h - a))
  | (a, u) :: _ => u
  | [] => 0
  end%Q.
Definition three_curves : @gfunction Q :=
  {| gf_B := 5%Q; gf_curves := map (fun h => (h, {| cv_g := [(h / 10)%Q]; cv_rb := 1%Q; cv_D := 2%Q |})) [20; 60; 100]%Q;
     gf_log_time := [0%Q]; gf_locations := []; gf_table := t_empty |}.
Example C55_hypotheses : let s := {| gf_B := 5; gf_curves := map (fun h => (h, {| cv_g := [h / 10]; cv_rb := 1; cv_D := 2 |})) [20; 60; 100];
     gf_log_time := [0]; gf_locations := []; gf_table := t_empty |} in
  full_curves s /\ between s (gf_B s / (/ 10)) /\ gf_table s = t_empty /\ (2 <= length (gf_curves s))%nat.
Proof.
  split; [|split; [|split; [reflexivity|cbn; lia]]].
  - intros c [<-|[<-|[<-|[]]]]; cbn; lia.
  - exists 20, 60. cbn. repeat split; auto; lra.
Qed.
(** a request outside the heights is answered by a fresh object, and not after a request inside *)
Theorem C55_history_refuted :
  exists (s : @gfunction Q) outside inside, gf_table s = t_empty /\
  snd (g_function_interpolation line s outside k_default) = Ok ([15], 1, Some 2, 150)%Q /\
  (exists t v, g_function_interpolation line s inside k_default = (t, Ok v) /\
     snd (g_function_interpolation line (with_table s t) outside k_default) = Err ValueError).
Proof.
  exists three_curves, (1 # 30)%Q, (1 # 10)%Q. split; [reflexivity|]. split; [vm_compute; reflexivity|].
  do 2 eexists. split; vm_compute; reflexivity.
Qed.
(** the kind of the first request is kept *)
Theorem C55_kind_kept_refuted :
  exists (interp : ikind -> list (Q * Q) -> Q -> Q) (s : @gfunction Q) bh t v, 
  g_function_interpolation interp s bh (k_some k_linear) = (t, Ok v) /\
  snd (g_function_interpolation interp (with_table s t) bh (k_some k_quadratic)) <> snd (g_function_interpolation interp s bh (k_some k_quadratic)).
Proof.
  exists (fun k pts h => match k with k_linear => 1%Q | _ => 2%Q end), three_curves, (1 # 10)%Q. do 2 eexists.
  split; [vm_compute; reflexivity|]. vm_compute. discriminate.
Qed.
Example C55_example : results (fun k pts h => h) {| gf_B := 5; gf_curves := []; gf_log_time := []; gf_locations := []; gf_table := t_empty |} k_default [] = [] /\
  snd (g_function_interpolation line three_curves (1 # 10)%Q k_default) = Ok ([5], 1, Some 2, 50)%Q.
Proof. split; vm_compute; reflexivity. Qed.

(** C56 *)
Theorem C56_stored_height_partial :
  forall interp (s : @gfunction R) h c bh, gf_curves s = [(h, c)] -> 0 < h -> bh <> 0 -> gf_B s / bh = h ->
  snd (g_function_interpolation interp s bh k_default) = Ok (cv_g c, cv_rb c, Some (cv_D c), h) /\
  (forall k, snd (g_function_interpolation interp s bh (k_some k)) = Err ValueError).
Proof.
  intros interp s h c bh Ec Hh Hb E.
  assert (M1 : lowest s h) by (split; unfold heights; rewrite Ec; cbn; [auto|intros x [<-|[]]; lra]).
  assert (M2 : highest s h) by (split; unfold heights; rewrite Ec; cbn; [auto|intros x [<-|[]]; lra]).
  destruct (clamped s bh h h Hb M1 M2 ltac:(lra)) as (h' & Eh & X & _). assert (h' = h) as -> by lra.
  unfold g_function_interpolation. rewrite Eh, Ec. split.
  - cbn [snd]. unfold single_curve. cbn [fst snd]. rewrite pydiv_R by lra. cbn [bind].
    assert (A : nlt (nsub h h / h) (nlit 1 1000) = true).
    { apply nlt_R. unfold nlit. cbn. replace ((h - h) / h) with 0 by (field; lra). lra. }
    rewrite A. reflexivity.
  - intro k. reflexivity.
Qed.
(** every other request is answered with the same curve, however far the height is from the stored one *)
Theorem C56_any_height_answered :
  forall interp (s : @gfunction R) h c bh, gf_curves s = [(h, c)] -> 0 < h -> bh <> 0 ->
  exists H_eq, snd (g_function_interpolation interp s bh k_default) = Ok (cv_g c, cv_rb c, Some (cv_D c), H_eq) /\
  (/ 1000000 <= Rabs (gf_B s / bh - h) -> H_eq = gf_B s / bh).
Proof.
  intros interp s h c bh Ec Hh Hb.
  assert (M1 : lowest s h) by (split; unfold heights; rewrite Ec; cbn; [auto|intros x [<-|[]]; lra]).
  assert (M2 : highest s h) by (split; unfold heights; rewrite Ec; cbn; [auto|intros x [<-|[]]; lra]).
  destruct (equivalent_height_ok s bh h h Hb M1 M2) as (h' & e & Eh & _ & _ & P & _).
  exists h'. split; [|intro X; now apply P].
  unfold g_function_interpolation. rewrite Eh, Ec. cbn [snd]. unfold single_curve. cbn [fst snd]. rewrite pydiv_R by lra. cbn [bind].
  unfold nlit. cbn [ndivr nofZ nsub NumR].
  destruct (nlt ((h' - h) / h) (1 / 1000)) eqn:E1; [reflexivity|]. apply nlt_R_false in E1.
  assert (A : nlt (h - h') (1 / 1000) = true); [|rewrite A; reflexivity].
  apply nlt_R. assert (0 < (h' - h) / h) by lra.
  assert (0 < h' - h); [|lra]. replace (h' - h) with ((h' - h) / h * h) by (field; lra). apply Rmult_lt_0_compat; assumption.
Qed.
Theorem C56_rejected_refuted :
  exists (s : @gfunction Q) c bh, gf_curves s = [(100%Q, c)] /\ Qeq_bool (gf_B s / bh) 20 = true /\
  snd (g_function_interpolation line s bh k_default) = Ok (cv_g c, cv_rb c, Some (cv_D c), 20%Q).
Proof.
  exists {| gf_B := 5; gf_curves := [(100, {| cv_g := [7]; cv_rb := 1; cv_D := 2 |})]; gf_log_time := [0]; gf_locations := []; gf_table := t_empty |}%Q.
  eexists _, (1 # 4)%Q. split; [reflexivity|]. split; vm_compute; reflexivity.
Qed.
Example C56_example : g_function_interpolation line
    {| gf_B := 5; gf_curves := [(100, {| cv_g := [7]; cv_rb := 1; cv_D := 2 |})]; gf_log_time := [0]; gf_locations := []; gf_table := t_empty |}%Q
    (1 # 4)%Q k_default = (t_empty, Ok ([7], 1, Some 2, 20)%Q).
Proof. vm_compute. reflexivity. Qed.

(** C57 *)
Theorem C57_interpolation :
  forall interp (s : @gfunction R) bh req mn mx, gf_table s = t_empty -> (2 <= length (gf_curves s))%nat -> full_curves s ->
  req <> k_unknown -> bh <> 0 -> lowest s mn -> highest s mx ->
  exists k, kind_for req (length (gf_curves s)) k /\
  let h := gf_B s / bh in
  let answer := snd (g_function_interpolation interp s bh req) in
  (mn + / 1000000 <= h <= mx - / 1000000 -> answer = Ok (interpolated interp s k h)) /\
  (/ 1000000 <= mx - mn -> Rabs (h - mx) < / 1000000 -> answer = Ok (interpolated interp s k mx)) /\
  (2 * / 1000000 <= mx - mn -> Rabs (h - mn) < / 1000000 -> answer = Ok (interpolated interp s k mn)) /\
  (mx + / 1000000 <= h -> / 1000 <= h - mn -> answer = Ok (interpolated interp s k h)) /\
  (h <= mn - / 1000 -> answer = Ok (interpolated interp s k h)) /\
  (mn - / 1000 < h <= mn - / 1000000 -> k <> k_lagrange -> answer = Err ValueError).
Proof.
  intros interp s bh req mn mx Ht Hn Hf Hr Hb Hmn Hmx.
  destruct (effective_kind_for req _ Hn Hr) as (k & Ek & Kf). exists k. split; [exact Kf|]. cbn zeta.
  destruct (equivalent_height_ok s bh mn mx Hb Hmn Hmx) as (h' & e & Eh & P1 & P2 & P3 & P4 & P5 & P6 & P7).
  destruct (interpolation_by_table interp s bh req h' e k Hn Eh Ek Hf) as (F1 & _). rewrite (F1 Ht). cbn [snd].
  set (h := gf_B s / bh) in *. assert (Hmm : mn <= mx) by (apply Hmn, Hmx).
  split; [|split; [|split; [|split; [|split]]]].
  - intro X. assert (h' = h) as -> by (apply P3; unfold Rabs; destruct (Rcase_abs _); lra).
    apply read_ok; [assumption|left]. apply (between_extremes s h mn mx Hmn Hmx). lra.
  - intros X Y. destruct (P2 Y) as [-> |(Z & _)]; [|revert Z; unfold Rabs; destruct (Rcase_abs _); lra].
    apply read_ok; [assumption|left]. apply (between_extremes s mx mn mx Hmn Hmx). lra.
  - intros X Y. destruct (P1 Y) as [Z| ->]; [revert Y Z; unfold Rabs; repeat destruct (Rcase_abs _); lra|].
    apply read_ok; [assumption|left]. apply (between_extremes s mn mn mx Hmn Hmx). lra.
  - intros X Y. assert (h' = h) as -> by (apply P3; unfold Rabs; destruct (Rcase_abs _); lra).
    apply read_ok; [assumption|right]. apply P5; lra.
  - intros X. assert (h' = h) as -> by (apply P3; unfold Rabs; destruct (Rcase_abs _); lra).
    apply read_ok; [assumption|right]. apply P7; lra.
  - intros X Y. assert (h' = h) as -> by (apply P3; unfold Rabs; destruct (Rcase_abs _); lra).
    assert (e = false) as -> by (apply P6; lra).
    unfold read_table, call_interp.
    assert (EH : map fst (map (fun c => (fst c, cv_rb (snd c))) (gf_curves s)) = heights s) by (rewrite map_map; reflexivity).
    rewrite EH.
    assert (Hne : gf_curves s <> []) by (destruct (gf_curves s); [cbn in Hn; lia|discriminate]).
    destruct (extremes s Hne) as (mx' & mn' & E1 & E2 & M1 & M2). rewrite E1, E2. cbn [bind].
    assert (mn' = mn) as -> by (eapply lowest_unique; eassumption).
    assert (A : nle mn h = false) by (apply nle_R_false; lra). rewrite A. cbn [andb].
    destruct k; try congruence; reflexivity.
Qed.
Theorem C57_unknown_kind :
  forall interp (s : @gfunction R) bh, (2 <= length (gf_curves s))%nat -> bh <> 0 ->
  snd (g_function_interpolation interp s bh k_unknown) = Err KeyError.
Proof.
  intros interp s bh Hn Hb.
  assert (Hne : gf_curves s <> []) by (destruct (gf_curves s); [cbn in Hn; lia|discriminate]).
  destruct (extremes s Hne) as (mx & mn & _ & _ & M1 & M2).
  destruct (equivalent_height_ok s bh mn mx Hb M2 M1) as (h & e & Eh & _).
  unfold g_function_interpolation. rewrite Eh.
  assert (EK : effective_kind k_unknown (zlen (gf_curves s)) = Err KeyError).
  { unfold effective_kind, zlen. destruct (Z.ltb_spec (Z.of_nat (length (gf_curves s))) 2); [lia|]. reflexivity. }
  rewrite EK. reflexivity.
Qed.
(** a height just below the lowest curve fails, although one further below is extrapolated *)
Theorem C57_just_below_refuted :
  exists (s : @gfunction Q) near far, gf_table s = t_empty /\ snd (g_function_interpolation line s near k_default) = Err ValueError /\
  snd (g_function_interpolation line s far k_default) = Ok ([1], 1, Some 2, 10)%Q /\
  Qle_bool (199995 # 10000) (5 / near) = true /\ Qle_bool (5 / near) 20 = true.
Proof. exists three_curves, (5 / (199995 # 10000))%Q, (1 # 2)%Q. repeat split; vm_compute; reflexivity. Qed.
Example C57_example :
  let kinds := fun k (pts : list (Q * Q)) (h : Q) => match k with k_linear => 1 | k_quadratic => 2 | k_cubic => 3 | k_lagrange => 4 end%Q in
  let s := fun n => {| gf_B := 5%Q; gf_curves := map (fun i => (inject_Z (10 * i), {| cv_g := [0%Q]; cv_rb := 1%Q; cv_D := 2%Q |})) (zrange 1 (n + 1));
                       gf_log_time := [0%Q]; gf_locations := []; gf_table := t_empty |} in
  let ask := fun n k => match snd (g_function_interpolation kinds (s n) (1 # 3)%Q k) with Ok ([g], _, _, _) => g | _ => 0%Q end in
  map (fun n => ask n k_default) [2; 3; 4; 5; 6]%Z = [1; 2; 2; 3; 3]%Q /\
  map (fun n => ask n (k_some k_cubic)) [2; 3; 4; 5]%Z = [1; 2; 3; 3]%Q /\
  map (fun n => ask n (k_some k_quadratic)) [2; 3; 4; 5]%Z = [1; 2; 2; 2]%Q /\
  map (fun n => ask n (k_some k_lagrange)) [2; 3]%Z = [4; 4]%Q.
Proof. cbn zeta. repeat split; vm_compute; reflexivity. Qed.

(** C58 *)
Theorem C58_radius_correction :
  forall g r0 r1 r2, 0 < r0 -> 0 < r1 -> 0 < r2 ->
  borehole_radius_correction g r0 r0 = g /\
  borehole_radius_correction (borehole_radius_correction g r0 r1) r1 r2 = borehole_radius_correction g r0 r2 /\
  length (borehole_radius_correction g r0 r1) = length g /\
  (forall i x, nth_error g i = Some x -> nth_error (borehole_radius_correction g r0 r1) i = Some (x - (ln r1 - ln r0))).
Proof.
  intros g r0 r1 r2 H0 H1 H2. unfold borehole_radius_correction.
  assert (L : forall a b, 0 < a -> 0 < b -> ln (b / a) = ln b - ln a).
  { intros a b Ha Hb. unfold Rdiv. rewrite ln_mult by (try assumption; now apply Rinv_0_lt_compat). rewrite ln_Rinv by assumption. ring. }
  split; [|split; [|split]].
  - etransitivity; [|apply map_id]. apply map_ext. intro x. rewrite L by assumption. ring.
  - rewrite map_map. apply map_ext. intro x. rewrite !L by assumption. ring.
  - apply map_length.
  - intros i x Hx. rewrite (map_nth_error _ _ _ Hx). now rewrite L.
Qed.
Example C58_example : borehole_radius_correction [5; 7] 1 (exp 2) = [3; 5].
Proof.
  unfold borehole_radius_correction. cbn [map]. replace (exp 2 / 1) with (exp 2) by field. rewrite ln_exp.
  f_equal; [lra|]. f_equal. lra.
Qed.

(** C59 *)
Theorem C59_coordinates_scaled :
  forall (s : @gfunction R) B, gf_B s <> 0 ->
  exists l, correct_coordinates s B = Ok l /\
  l = map (fun p => (fst p * (B / gf_B s), snd p * (B / gf_B s))) (gf_locations s) /\
  (B <> 0 -> correct_coordinates {| gf_B := B; gf_curves := gf_curves s; gf_log_time := gf_log_time s; gf_locations := l; gf_table := gf_table s |} (gf_B s)
             = Ok (gf_locations s)).
Proof.
  assert (C : forall (s : @gfunction R) B, gf_B s <> 0 -> correct_coordinates s B =
    Ok (map (fun p => (fst p * (B / gf_B s), snd p * (B / gf_B s))) (gf_locations s))).
  { intros s B Hs. unfold correct_coordinates. rewrite pydiv_R by assumption. cbn [bind]. f_equal. apply map_ext. intros (x, y).
    cbn [nis0 nmul NumR fst snd]. destruct (Req_EM_T x 0) as [-> |Hx], (Req_EM_T y 0) as [-> |Hy]; cbn [andb]; try reflexivity;
    f_equal; ring. }
  intros s B Hs. eexists. split; [now apply C|]. split; [reflexivity|]. intro HB. rewrite C by exact HB. cbn [gf_B gf_locations].
  f_equal. rewrite map_map. etransitivity; [|apply map_id]. apply map_ext. intros (x, y). cbn [fst snd]. f_equal; field; split; assumption.
Qed.
Theorem C59_zero_spacing : forall (s : @gfunction R) B, gf_B s = 0 -> correct_coordinates s B = Err ZeroDivisionError.
Proof. intros s B E. unfold correct_coordinates. rewrite E, pydiv_R0. reflexivity. Qed.
Example C59_example : correct_coordinates {| gf_B := 5; gf_curves := []; gf_log_time := []; gf_table := t_empty;
    gf_locations := [(0, 0); (0, 5); (5, 0); (5, 10)] |}%Q 7%Q = Ok [(0, 0); (0, 7); (7, 0); (7, 14)]%Q.
Proof. vm_compute. reflexivity. Qed.

(** C60 *)
Theorem C60_database_partial :
  forall (data : list (db_key * list R)) lt loc kv0 r, data = kv0 :: r ->
  exists s, configure data lt loc = Ok s /\
  gf_B s = dk_B (fst kv0) /\ gf_log_time s = lt /\ gf_locations s = loc /\ gf_table s = t_empty /\
  NoDup (heights s) /\ (forall h, In h (heights s) <-> exists kv, In kv data /\ dk_H (fst kv) = h) /\
  (forall h c, In (h, c) (gf_curves s) -> exists kv, last_entry data h = Some kv /\ cv_g c = snd kv /\ cv_rb c = dk_rb (fst kv) /\
     ((forall kv, In kv data -> exists d, last_depth data (dk_H (fst kv)) = Some d) -> last_depth data h = Some (cv_D c)) /\
     (forall kv, In kv data -> last_depth data (dk_H (fst kv)) = None -> cv_D c = 2)) /\
  ((forall kv, In kv data -> 0 <= dk_H (fst kv)) ->
   forall i j a b, (i < j)%nat -> nth_error (heights s) i = Some a -> nth_error (heights s) j = Some b -> ~ exists n : Z, b < IZR n <= a).
Proof.
  intros data lt loc kv0 r Ed.
  destruct (configure_ok data lt loc kv0 r Ed) as (s & keys & G & RB & D & E & E1 & E2 & E3 & E4 & Ec & Nd & Hk & Sk & Hg & HD1 & HD2).
  exists s. repeat (split; [assumption|]).
  assert (EH : heights s = keys) by (unfold heights; rewrite Ec, map_map; cbn [fst]; apply map_id).
  rewrite EH. split; [exact Nd|]. split; [exact Hk|]. split.
  - intros h c Hc. rewrite Ec in Hc. apply in_map_iff in Hc. destruct Hc as (h' & Eh & Hh). injection Eh as -> <-. cbn [cv_g cv_rb cv_D].
    destruct (Hg h Hh) as (kv & L & A & B). exists kv. repeat (split; [assumption|]). split.
    + intro DK. now apply HD1.
    + intros kv' Hkv' Nn. apply HD2; [|assumption]. intro DK. destruct (DK kv' Hkv') as (d & Ed'). congruence.
  - intros Hp i j a b Hij Na Nb.
    assert (T : (trunc a <= trunc b)%Z).
    { clear - Sk Hij Na Nb. revert i j Hij Na Nb. induction Sk as [|x l Sl IH Hx]; intros i j Hij Na Nb; [destruct i; discriminate|].
      destruct i as [|i], j as [|j]; try lia; cbn [nth_error] in Na, Nb.
      - injection Na as <-. rewrite Forall_forall in Hx. apply Hx. eapply nth_error_In; eassumption.
      - apply (IH i j); [lia|assumption..]. }
    apply trunc_order; [| |exact T].
    + apply nth_error_In in Na. apply Hk in Na. destruct Na as (kv & Hkv & <-). now apply Hp.
    + apply nth_error_In in Nb. apply Hk in Nb. destruct Nb as (kv & Hkv & <-). now apply Hp.
Qed.
Definition entry (h : Q) (d : option Q) (g : Q) : db_key * list Q := ({| dk_B := 5; dk_H := h; dk_rb := 1 # 10; dk_D := d |}%Q, [g]).
(** heights with the same integer part keep the order of the file *)
Theorem C60_order_refuted :
  exists (data : list (db_key * list Q)) s, configure data [] [] = Ok s /\ map fst (gf_curves s) = [487 # 10; 482 # 10]%Q.
Proof. exists [entry (487 # 10) (Some 2%Q) 1; entry (482 # 10) (Some 2%Q) 2]. eexists. split; vm_compute; reflexivity. Qed.
(** one curve without a depth removes the depths of all *)
Theorem C60_depth_refuted :
  exists (data : list (db_key * list Q)) s, configure data [] [] = Ok s /\
  map (fun kv => dk_D (fst kv)) data = [Some 4; None]%Q /\ map (fun c => cv_D (snd c)) (gf_curves s) = [2; 2]%Q.
Proof. exists [entry 20 (Some 4%Q) 1; entry 40 None 2]. eexists. split; [vm_compute; reflexivity|]. split; reflexivity. Qed.
Theorem C60_empty_database : forall lt loc, @configure R _ [] lt loc = Err IndexError.
Proof. reflexivity. Qed.
Example C60_example : match configure [entry 96 (Some 4%Q) 1; entry 24 (Some 3%Q) 2; entry 48 (Some 2%Q) 3; entry 24 None 4] [7%Q] [] with
  | Ok s => (gf_B s, gf_curves s) = (5, [(24, {| cv_g := [4]; cv_rb := 1 # 10; cv_D := 3 |}); (48, {| cv_g := [3]; cv_rb := 1 # 10; cv_D := 2 |});
                                  (96, {| cv_g := [1]; cv_rb := 1 # 10; cv_D := 4 |})])%Q
  | Err _ => False end.
Proof. vm_compute. reflexivity. Qed.

(** C76: the g-functions computed before sizing answer every height that the sizing asks for *)
Lemma key_eqb_height a b : @key_eqb R _ a b = true -> dk_H a = dk_H b.
Proof. unfold key_eqb. rewrite !andb_true_iff. intros (((_ & X) & _) & _). now apply neqb_R. Qed.
Lemma data_set_H (d : list (db_key * list R)) k v h :
  (exists kv, In kv (data_set d k v) /\ dk_H (fst kv) = h) <-> (exists kv, In kv d /\ dk_H (fst kv) = h) \/ dk_H k = h.
Proof.
  induction d as [|(a, w) d IH]; cbn [data_set].
  - split; [intros (kv & [<-|[]] & E); auto|]. intros [(kv & [] & _)|E]. exists (k, v). split; [now left|exact E].
  - destruct (key_eqb a k) eqn:E.
    + apply key_eqb_height in E. split.
      * intros (kv & [<-|Hk] & X); [left; exists (a, w); split; [now left|exact X]|left; exists kv; split; [now right|exact X]].
      * intros [(kv & [<-|Hk] & X)|X]; [exists (a, v); split; [now left|exact X]|exists kv; split; [now right|exact X]|
          exists (a, v); split; [now left|cbn; congruence]].
    + split.
      * intros (kv & [<-|Hk] & X); [left; exists (a, w); split; [now left|exact X]|].
        destruct (proj1 IH (ex_intro _ kv (conj Hk X))) as [(kv' & Hk' & X')|X']; [left; exists kv'; split; [now right|exact X']|now right].
      * intros [(kv & [<-|Hk] & X)|X].
        -- exists (a, w). split; [now left|exact X].
        -- destruct (proj2 IH (or_introl (ex_intro _ kv (conj Hk X)))) as (kv' & Hk' & X'). exists kv'. split; [now right|exact X'].
        -- destruct (proj2 IH (or_intror X)) as (kv' & Hk' & X'). exists kv'. split; [now right|exact X'].
Qed.
Lemma data_set_all (P : db_key * list R -> Prop) d k v : (forall kv, In kv d -> P kv) -> P (k, v) ->
  (forall a w, P (a, w) -> P (a, v)) -> forall kv, In kv (data_set d k v) -> P kv.
Proof.
  intros Hd Hk Hr. induction d as [|(a, w) d IH]; cbn [data_set].
  - intros kv [<-|[]]. exact Hk.
  - destruct (key_eqb a k).
    + intros kv [<-|X]; [apply (Hr a w), Hd; now left|apply Hd; now right].
    + intros kv [<-|X]; [apply Hd; now left|]. apply IH; [|exact X]. intros y Hy. apply Hd. now right.
Qed.
Lemma data_set_nonempty (d : list (db_key * list R)) k v : data_set d k v <> [].
Proof. destruct d as [|(a, w) d]; cbn [data_set]; [discriminate|]. destruct (key_eqb a k); discriminate. Qed.
Lemma sizing_curves :
  forall (field_response : R -> R -> R -> res (list R)) (B r_b D min_h max_h : R) log_time locations hs,
  min_h < max_h -> g_function_heights min_h max_h = Ok hs ->
  (forall H D r, exists g, field_response H D r = Ok g /\ length g = length log_time) ->
  exists s, compute_live_g_function field_response B hs (repeat r_b 3) (repeat D 3) log_time locations = Ok s /\
  gf_B s = B /\ length (gf_curves s) = 3%nat /\ lowest s min_h /\ highest s max_h /\ full_curves s /\
  gf_table s = t_empty /\ gf_log_time s = log_time /\ gf_locations s = locations.
Proof.
  intros fr B r_b D min_h max_h lt loc hs Hmm Ehs Hfr.
  unfold g_function_heights in Ehs. rewrite pydiv_R in Ehs by (cbn; lra). cbn [bind] in Ehs.
  assert (hs = [min_h; (min_h + max_h) / 2; max_h]) as -> by (cbn in Ehs; congruence). clear Ehs.
  set (avg := (min_h + max_h) / 2).
  unfold compute_live_g_function. replace (zlen [min_h; avg; max_h]) with 3%Z by reflexivity.
  change (zrange 0 3) with [0; 1; 2]%Z.
  destruct (Hfr min_h D r_b) as (g1 & E1 & L1). destruct (Hfr avg D r_b) as (g2 & E2 & L2). destruct (Hfr max_h D r_b) as (g3 & E3 & L3).
  cbn [foldM repeat].
  replace (py_nth [min_h; avg; max_h] 0) with (Ok min_h) by reflexivity.
  replace (py_nth [min_h; avg; max_h] 1) with (Ok avg) by reflexivity.
  replace (py_nth [min_h; avg; max_h] 2) with (Ok max_h) by reflexivity.
  replace (py_nth [r_b; r_b; r_b] 0) with (Ok r_b) by reflexivity.
  replace (py_nth [r_b; r_b; r_b] 1) with (Ok r_b) by reflexivity.
  replace (py_nth [r_b; r_b; r_b] 2) with (Ok r_b) by reflexivity.
  replace (py_nth [D; D; D] 0) with (Ok D) by reflexivity.
  replace (py_nth [D; D; D] 1) with (Ok D) by reflexivity.
  replace (py_nth [D; D; D] 2) with (Ok D) by reflexivity.
  cbn [bind]. rewrite E1. cbn [bind]. rewrite E2. cbn [bind]. rewrite E3. cbn [bind].
  set (mk := fun h => {| dk_B := B; dk_H := h; dk_rb := r_b; dk_D := Some D |}).
  change {| dk_B := B; dk_H := min_h; dk_rb := r_b; dk_D := Some D |} with (mk min_h).
  change {| dk_B := B; dk_H := avg; dk_rb := r_b; dk_D := Some D |} with (mk avg).
  change {| dk_B := B; dk_H := max_h; dk_rb := r_b; dk_D := Some D |} with (mk max_h).
  set (data := data_set (data_set (data_set [] (mk min_h) g1) (mk avg) g2) (mk max_h) g3).
  assert (Dall : forall kv, In kv data -> dk_B (fst kv) = B /\ length (snd kv) = length lt /\ dk_D (fst kv) = Some D).
  { unfold data. apply data_set_all; [apply data_set_all; [apply data_set_all|..]|..]; cbn; try (repeat split; assumption); try easy;
      intros; tauto. }
  assert (DH : forall h, (exists kv, In kv data /\ dk_H (fst kv) = h) <-> min_h = h \/ avg = h \/ max_h = h).
  { intro h. unfold data. rewrite !data_set_H. cbn [dk_H mk]. split.
    - intros [[[(kv & [] & _)|X]|X]|X]; auto.
    - intros [X|[X|X]]; auto. }
  destruct data as [|kv0 r] eqn:Ed; [now apply data_set_nonempty in Ed|].
  destruct (configure_ok (kv0 :: r) lt loc kv0 r eq_refl) as (s & keys & G & RB & DD & E & B1 & B2 & B3 & B4 & Ec & Nd & Hk & _ & Hg & _).
  exists s. split; [exact E|].
  assert (EB : gf_B s = B) by (rewrite B1; apply Dall; now left).
  split; [exact EB|].
  assert (EH : heights s = keys) by (unfold heights; rewrite Ec, map_map; cbn [fst]; apply map_id).
  assert (Hkeys : forall h, In h keys <-> min_h = h \/ avg = h \/ max_h = h) by (intro h; rewrite Hk; apply DH).
  assert (Hav : min_h < avg < max_h) by (unfold avg; lra).
  assert (Len : length keys = 3%nat).
  { apply Nat.le_antisymm.
    - apply (NoDup_incl_length (l' := [min_h; avg; max_h])) in Nd; [exact Nd|]. intros h Hh. apply Hkeys in Hh. cbn. tauto.
    - change 3%nat with (length [min_h; avg; max_h]). apply NoDup_incl_length.
      + repeat constructor; cbn; intuition lra.
      + intros h Hh. apply Hkeys. cbn in Hh. tauto. }
  split; [rewrite Ec, map_length; exact Len|].
  assert (M1 : lowest s min_h) by (split; rewrite EH; [apply Hkeys; auto|intros x Hx; apply Hkeys in Hx; lra]).
  assert (M2 : highest s max_h) by (split; rewrite EH; [apply Hkeys; auto|intros x Hx; apply Hkeys in Hx; lra]).
  split; [exact M1|]. split; [exact M2|].
  assert (Hf : full_curves s).
  { intros c Hc. rewrite Ec in Hc. apply in_map_iff in Hc. destruct Hc as (h & <- & Hh). cbn [snd cv_g]. rewrite B2.
    destruct (Hg h Hh) as (kv & L & -> & _). unfold last_entry in L. apply find_some in L. destruct L as (L & _).
    apply in_rev in L. destruct (Dall kv L) as (_ & -> & _). lia. }
  split; [exact Hf|]. repeat split; assumption.
Qed.
Theorem C76_sizing_heights_are_covered :
  forall (field_response : R -> R -> R -> res (list R)) interp (B r_b D min_h max_h : R) log_time locations hs,
  0 < B -> 0 < min_h < max_h -> g_function_heights min_h max_h = Ok hs ->
  (forall H D r, exists g, field_response H D r = Ok g /\ length g = length log_time) ->
  exists s, compute_live_g_function field_response B hs (repeat r_b 3) (repeat D 3) log_time locations = Ok s /\
  gf_B s = B /\ length (gf_curves s) = 3%nat /\ lowest s min_h /\ highest s max_h /\
  forall H, min_h <= H <= max_h -> exists k h, k = k_quadratic /\ Rabs (h - H) < 2 * / 1000000 /\
    snd (g_function_interpolation interp s (B / H) k_default) = Ok (interpolated interp s k h).
Proof.
  intros fr interp B r_b D min_h max_h lt loc hs HB Hmm Ehs Hfr.
  destruct (sizing_curves fr B r_b D min_h max_h lt loc hs ltac:(lra) Ehs Hfr) as (s & E & EB & Len & M1 & M2 & Hf & B4 & _).
  exists s. repeat (split; [assumption|]). intros H HH.
  assert (Hn : (2 <= length (gf_curves s))%nat) by lia.
  assert (Hbh : B / H <> 0) by (apply Rgt_not_eq; apply Rdiv_lt_0_compat; lra).
  assert (EqH : gf_B s / (B / H) = H) by (rewrite EB; field; lra).
  destruct (clamped s (B / H) min_h max_h Hbh M1 M2 ltac:(rewrite EqH; lra)) as (h & Eh & Hh & Cl & _). rewrite EqH in Cl.
  assert (Ek : effective_kind k_default (Z.of_nat (length (gf_curves s))) = Ok k_quadratic) by (rewrite Len; reflexivity).
  destruct (interpolation_by_table interp s (B / H) k_default h false k_quadratic Hn Eh Ek Hf) as (F1 & _).
  exists k_quadratic, h. split; [reflexivity|]. split; [exact Cl|]. rewrite (F1 B4). cbn [snd].
  apply read_ok; [exact Hf|left]. now apply (between_extremes s h min_h max_h M1 M2).
Qed.
Example C76_example : match compute_live_g_function (fun H D r => Ok [(H / 10)%Q]) 5%Q [20; 60; 100]%Q [1; 1; 1]%Q [2; 2; 2]%Q [0%Q] [] with
  | Ok s => snd (g_function_interpolation line s (5 / 32)%Q k_default) = Ok ([16 # 5], 1, Some 2, 32)%Q
  | Err _ => False end.
Proof. vm_compute. reflexivity. Qed.

Print Assumptions C55_history_independent_partial.
Print Assumptions C55_history_refuted.
Print Assumptions C55_kind_kept_refuted.
Print Assumptions C56_stored_height_partial.
Print Assumptions C56_any_height_answered.
Print Assumptions C56_rejected_refuted.
Print Assumptions C57_interpolation.
Print Assumptions C57_unknown_kind.
Print Assumptions C57_just_below_refuted.
Print Assumptions C58_radius_correction.
Print Assumptions C59_coordinates_scaled.
Print Assumptions C59_zero_spacing.
Print Assumptions C60_database_partial.
Print Assumptions C60_order_refuted.
Print Assumptions C60_depth_refuted.
Print Assumptions C60_empty_database.
Print Assumptions C76_sizing_heights_are_covered.
