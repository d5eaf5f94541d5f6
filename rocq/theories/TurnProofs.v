(** Designs for a land turned by a quarter *)
From Coq Require Import ZArith List Bool Reals Lra Lia FunctionalExtensionality.
From Verif Require Import Base Num BaseLemmas Order Utilities Coordinates Domains Loads LoadsSpec LoadsSim Ghe GheSpec GheProofs GFun GFunSpec GFunProofs Radial RadialSpec Bhe Equiv Export
  Search SearchSpec Design System SystemSpec SystemProofs Program ProgramProofs InvarianceProofs PlaceSpec PlaceProofs TurnSpec.
Import ListNotations.
Open Scope Z_scope.

(** ** the candidates *)
Section Candidates.
Context {F : Type} {N : Num F}.
Lemma turned_turned (c : list (F * F)) : quarter_turn (quarter_turn c) = c.
Proof. unfold quarter_turn. rewrite map_map. rewrite <- (map_id c) at 2. apply map_ext. now intros (x, y). Qed.
Lemma maps_turned (d : list (list (F * F))) : map quarter_turn (map quarter_turn d) = d.
Proof. rewrite map_map. rewrite <- (map_id d) at 2. apply map_ext. apply turned_turned. Qed.
Lemma transposed (c : field F) : maybe_transpose true c = quarter_turn (maybe_transpose false c).
Proof. unfold maybe_transpose, transpose_coordinates, quarter_turn. apply map_ext. now intros (x, y). Qed.
Lemma domain_twice (d : res (list (list (F * F)))) : turned_domain (turned_domain d) = d.
Proof. destruct d; [|reflexivity]. cbn. now rewrite maps_turned. Qed.
Lemma nested_twice (d : res (list (list (list (F * F))))) : turned_nested (turned_nested d) = d.
Proof. destruct d as [d|]; [|reflexivity]. cbn. f_equal. rewrite map_map. rewrite <- (map_id d) at 2. apply map_ext. apply maps_turned. Qed.
Lemma mapM_transposed (f : Z -> res (field F)) l :
  mapM (fun i => let! r := f i in Ok (maybe_transpose true r)) l = rmap (map quarter_turn) (mapM (fun i => let! r := f i in Ok (maybe_transpose false r)) l).
Proof. rewrite <- mapM_rmap. apply mapM_ext. intros i _. destruct (f i) as [r|]; [|reflexivity]. cbn [bind rmap]. now rewrite transposed. Qed.
Lemma foldM_rmap {S A} (f g : S -> A -> res S) (h : S -> S) l : (forall s a, g (h s) a = rmap h (f s a)) -> forall s, foldM g l (h s) = rmap h (foldM f l s).
Proof.
  intro E. induction l as [|a l IH]; intro s; [reflexivity|]. cbn [foldM]. rewrite E. destruct (f s a) as [s'|]; [|reflexivity]. cbn [rmap bind]. apply IH.
Qed.

Lemma rectangular_body_turned l1 l2 Nm s n :
  rectangular_body true l1 l2 Nm (fst s, map quarter_turn (snd s)) n = rmap (fun s => (fst s, map quarter_turn (snd s))) (rectangular_body false l1 l2 Nm s n).
Proof.
  destruct s as ((iter, old), dom). cbn [fst snd]. unfold rectangular_body. rewrite ?bind_rmap. f_equal. extensionality B. rewrite ?bind_rmap. f_equal. extensionality q.
  rewrite ?bind_rmap. f_equal. extensionality n2. destruct (iter =? 0).
  - rewrite !mapM_transposed. destruct (mapM (fun i => let! r := rectangle i 1 B B in Ok (maybe_transpose false r)) (zrange 1 Nm)) as [a|]; [|reflexivity].
    cbn [rmap bind]. destruct (mapM (fun j => let! r := rectangle Nm j B B in Ok (maybe_transpose false r)) (zrange 1 n2)) as [b|]; [|reflexivity].
    cbn [rmap bind]. destruct (old =? n2); [cbn [rmap fst snd]; now rewrite !map_app|].
    destruct (rectangle n n2 B B) as [r|]; [|reflexivity]. cbn [rmap bind fst snd]. rewrite !map_app. cbn [map]. now rewrite transposed.
  - cbn [bind]. destruct (old =? n2); [reflexivity|]. destruct (rectangle n n2 B B) as [r|]; [|reflexivity]. cbn [rmap bind fst snd]. rewrite map_app. cbn [map]. now rewrite transposed.
Qed.
Lemma rectangular_turned lx ly bmin bmax : nle lx ly <> nle ly lx -> rectangular ly lx bmin bmax = turned_domain (rectangular lx ly bmin bmax).
Proof.
  intro D. unfold rectangular.
  assert (C : forall l1 l2, (let! n_1_max := n_float l1 bmin in let! n_1_min := n_float l1 bmax in let! N_min := nceil n_1_min in let! N_max := nfloor n_1_max in
                             let! s := foldM (rectangular_body true l1 l2 N_min) (zrange N_min (N_max + 1)) (0, 1, []) in Ok (snd s)) =
                            turned_domain (let! n_1_max := n_float l1 bmin in let! n_1_min := n_float l1 bmax in let! N_min := nceil n_1_min in let! N_max := nfloor n_1_max in
                             let! s := foldM (rectangular_body false l1 l2 N_min) (zrange N_min (N_max + 1)) (0, 1, []) in Ok (snd s))).
  { intros l1 l2. destruct (n_float l1 bmin) as [x|]; [|reflexivity]. cbn [bind]. destruct (n_float l1 bmax) as [y|]; [|reflexivity]. cbn [bind].
    destruct (nceil y) as [a|]; [|reflexivity]. cbn [bind]. destruct (nfloor x) as [b|]; [|reflexivity]. cbn [bind].
    pose proof (foldM_rmap _ _ (fun s => (fst s, map quarter_turn (snd s))) (zrange a (b + 1)) (rectangular_body_turned l1 l2 a) (0, 1, [])) as E.
    cbn [fst snd map] in E. rewrite E. now destruct (foldM (rectangular_body false l1 l2 a) (zrange a (b + 1)) (0, 1, [])). }
  destruct (nle lx ly) eqn:E1, (nle ly lx) eqn:E2; try congruence; [|apply C]. rewrite C. now rewrite domain_twice.
Qed.

Lemma bi_rectangular_body_turned l1 l2 b s n :
  bi_rectangular_body true l1 l2 b (fst s, map quarter_turn (snd s)) n = rmap (fun s => (fst s, map quarter_turn (snd s))) (bi_rectangular_body false l1 l2 b s n).
Proof.
  destruct s as (iter, dom). cbn [fst snd]. unfold bi_rectangular_body. rewrite ?bind_rmap. f_equal. extensionality q. rewrite ?bind_rmap. f_equal. extensionality n2.
  rewrite ?bind_rmap. f_equal. extensionality b2. rewrite ?bind_rmap. f_equal. extensionality b1. destruct (iter =? 0).
  - rewrite !mapM_transposed. destruct (mapM (fun i => let! r := rectangle i 1 b1 b2 in Ok (maybe_transpose false r)) (zrange 1 n)) as [a|]; [|reflexivity].
    cbn [rmap bind]. destruct (mapM (fun j => let! r := rectangle n j b1 b2 in Ok (maybe_transpose false r)) (zrange 1 n2)) as [c|]; [|reflexivity].
    cbn [rmap bind]. destruct (rectangle n n2 b1 b2) as [r|]; [|reflexivity]. cbn [rmap bind fst snd]. rewrite !map_app. cbn [map]. now rewrite transposed.
  - cbn [bind]. destruct (rectangle n n2 b1 b2) as [r|]; [|reflexivity]. cbn [rmap bind fst snd]. rewrite map_app. cbn [map]. now rewrite transposed.
Qed.
Lemma bi_rectangular_turned lx ly bmin bx by_ : bi_rectangular lx ly bmin bx by_ true = turned_domain (bi_rectangular lx ly bmin bx by_ false).
Proof.
  unfold bi_rectangular. destruct (if nle ly lx then (lx, ly, bx, by_) else (ly, lx, by_, bx)) as (((l1, l2), b1), b2).
  destruct (n_float l1 bmin) as [x|]; [|reflexivity]. cbn [bind]. destruct (n_float l1 b1) as [y|]; [|reflexivity]. cbn [bind].
  destruct (nceil y) as [a|]; [|reflexivity]. cbn [bind]. destruct (nfloor x) as [b|]; [|reflexivity]. cbn [bind].
  pose proof (foldM_rmap _ _ (fun s => (fst s, map quarter_turn (snd s))) (zrange a (b + 1)) (bi_rectangular_body_turned l1 l2 b2) (0, [])) as E.
  cbn [fst snd map] in E. rewrite E. now destruct (foldM (bi_rectangular_body false l1 l2 b2) (zrange a (b + 1)) (0, [])).
Qed.
Lemma bi_rectangle_turned lx ly bmin bx by_ : nle lx ly <> nle ly lx ->
  bi_rectangle_nested ly lx bmin by_ bx = turned_nested (bi_rectangle_nested lx ly bmin bx by_).
Proof.
  intro D. unfold bi_rectangle_nested.
  assert (C : forall l1 l2 b1 b2,
    (let! n_2_max := n_float l2 bmin in let! n_2_min := n_float l2 b2 in let! N_min := nceil n_2_min in let! N_max := nfloor n_2_max in
     mapM (fun n_2 => let! b_2 := pydiv l2 (nofZ (n_2 - 1)) in bi_rectangular l1 l2 bmin b1 b_2 true) (zrange N_min (N_max + 1))) =
    turned_nested (let! n_2_max := n_float l2 bmin in let! n_2_min := n_float l2 b2 in let! N_min := nceil n_2_min in let! N_max := nfloor n_2_max in
     mapM (fun n_2 => let! b_2 := pydiv l2 (nofZ (n_2 - 1)) in bi_rectangular l1 l2 bmin b1 b_2 false) (zrange N_min (N_max + 1)))).
  { intros l1 l2 b1 b2. destruct (n_float l2 bmin) as [x|]; [|reflexivity]. cbn [bind]. destruct (n_float l2 b2) as [y|]; [|reflexivity]. cbn [bind].
    destruct (nceil y) as [a|]; [|reflexivity]. cbn [bind]. destruct (nfloor x) as [b|]; [|reflexivity]. cbn [bind].
    transitivity (rmap (map (map quarter_turn)) (mapM (fun n_2 => let! b_2 := pydiv l2 (nofZ (n_2 - 1)) in bi_rectangular l1 l2 bmin b1 b_2 false) (zrange a (b + 1))));
      [|now destruct (mapM _ _)].
    rewrite <- mapM_rmap. apply mapM_ext. intros i _. destruct (pydiv l2 (nofZ (i - 1))) as [q|]; [|reflexivity]. cbn [bind]. rewrite bi_rectangular_turned. reflexivity. }
  destruct (nle lx ly) eqn:E1, (nle ly lx) eqn:E2; try congruence; [|apply C]. rewrite C. now rewrite nested_twice.
Qed.
End Candidates.

(** ** the search *)
Section SearchMap.
Variables (C C' : Type) (f : C -> C').
Context {V : Type} {NV : Num V}.
Variable build : C -> V -> res unit.
Variable sim : C -> V -> res (xval V).
Variable build' : C' -> V -> res unit.
Variable sim' : C' -> V -> res (xval V).
Variable minH maxH : V.
Hypothesis same_build : forall c H, build' (f c) H = build c H.
Hypothesis same_sim : forall c H, sim' (f c) H = sim c H.

Definition gmap (p : C * V) : C' * V := (f (fst p), snd p).
Definition smap (s : sstate C (F := V)) : sstate C' (F := V) :=
  {| dom := map f (dom C s); temps := temps C s; Search.ghe := gmap (Search.ghe C s); trace := map gmap (trace C s);
     temps_nested := temps_nested C s; heights := heights C s |}.
Definition commutes {A A'} (g : A -> A') (m : M C A) (m' : M C' A') : Prop := forall s, m' (smap s) = (rmap g (fst (m s)), smap (snd (m s))).

Lemma commutes_bind {A A' B B'} (g : A -> A') (h : B -> B') (m : M C A) m' (k : A -> M C B) (k' : A' -> M C' B') :
  commutes g m m' -> (forall a, commutes h (k a) (k' (g a))) -> commutes h (mbind C m k) (mbind C' m' k').
Proof. intros E K s. unfold mbind. rewrite E. destruct (m s) as ([a|e], s'); cbn [fst snd rmap]; [apply K|reflexivity]. Qed.
Lemma commutes_ret {A A'} (g : A -> A') a a' : a' = g a -> commutes g (ret C a) (ret C' a').
Proof. now intros -> s. Qed.
Lemma commutes_raise {A A'} (g : A -> A') e : commutes g (raise C e) (raise C' e).
Proof. now intros s. Qed.
Lemma commutes_lift {A A'} (g : A -> A') r r' : r' = rmap g r -> commutes g (lift C r) (lift C' r').
Proof. now intros -> s. Qed.
Lemma commutes_same {A} (r : res A) : commutes (fun a => a) (lift C r) (lift C' r).
Proof. intro s. unfold lift. cbn [fst snd]. now destruct r. Qed.
Lemma py_nth_map {A A'} (g : A -> A') l i : py_nth (map g l) i = rmap g (py_nth l i).
Proof.
  unfold py_nth, zlen. rewrite map_length. set (j := if i <? 0 then _ else _); clearbody j. destruct (j <? 0); [reflexivity|]. rewrite nth_error_map. now destruct (nth_error l _).
Qed.
Lemma commutes_init c H : commutes (fun u => u) (Search.initialize_ghe C build c H) (Search.initialize_ghe C' build' (f c) H).
Proof.
  unfold Search.initialize_ghe. apply (commutes_bind (fun u => u)); [|now intros a s]. rewrite same_build. apply commutes_same.
Qed.
Lemma commutes_excess c H : commutes (fun x => x) (Search.calculate_excess C build sim c H) (Search.calculate_excess C' build' sim' (f c) H).
Proof.
  unfold Search.calculate_excess. apply (commutes_bind (fun u => u)).
  - intros s. unfold modify, add_trace, smap. cbn. now rewrite map_app.
  - intros _. apply (commutes_bind (fun u => u)); [apply commutes_init|]. intros _. rewrite same_sim. apply commutes_same.
Qed.
Lemma commutes_record k v : commutes (fun u => u) (record_temp C k v) (record_temp C' k v).
Proof. now intros s. Qed.
Lemma commutes_dom : commutes (map f) (get C (dom C)) (get C' (dom C')).
Proof. now intros s. Qed.
Lemma commutes_temps : commutes (fun t => t) (get C (temps C)) (get C' (temps C')).
Proof. now intros s. Qed.
Lemma commutes_loop fuel : forall xs a b i, commutes (fun x => x) (bisect_loop C build sim maxH fuel xs a b i) (bisect_loop C' build' sim' maxH fuel xs a b i).
Proof.
  induction fuel as [|fuel IH]; intros xs a b i; cbn [bisect_loop]; [now apply commutes_ret|].
  destruct (_ || _); [now apply commutes_ret|]. apply (commutes_bind (map f)); [apply commutes_dom|]. intro d.
  apply (commutes_bind f); [apply commutes_lift, py_nth_map|]. intro c. apply (commutes_bind (fun x => x)); [apply commutes_excess|]. intro x.
  apply (commutes_bind (fun x => x)); [apply commutes_record|]. intros _. apply (commutes_bind (fun x => x)); [apply commutes_same|]. intro sg.
  destruct (sg =? xs); apply IH.
Qed.
Definition selmap (o : option (Z * C)) : option (Z * C') := match o with Some (k, c) => Some (k, f c) | None => None end.
Lemma zlen_map {A A'} (g : A -> A') l : zlen (map g l) = zlen l. Proof. unfold zlen. now rewrite map_length. Qed.
Lemma commutes_search mi : commutes selmap (search C build sim minH maxH mi) (search C' build' sim' minH maxH mi).
Proof.
  unfold search. apply (commutes_bind (map f)); [apply commutes_dom|]. intro d. cbv zeta. rewrite zlen_map.
  apply (commutes_bind f); [apply commutes_lift, py_nth_map|]. intros _.
  apply (commutes_bind f); [apply commutes_lift, py_nth_map|]. intro c0.
  apply (commutes_bind (fun x => x)); [apply commutes_excess|]. intro x0. apply (commutes_bind (fun x => x)); [apply commutes_excess|]. intro x1.
  apply (commutes_bind f); [apply commutes_lift, py_nth_map|]. intro cR.
  apply (commutes_bind (fun x => x)); [apply commutes_excess|]. intro x2.
  apply (commutes_bind (fun x => x)); [apply commutes_record|]. intros _. apply (commutes_bind (fun x => x)); [apply commutes_record|]. intros _.
  apply (commutes_bind (fun x => x)); [apply commutes_same|]. intro s0. apply (commutes_bind (fun x => x)); [apply commutes_same|]. intro s1.
  destruct (check_bracket s0 s1).
  { apply (commutes_bind (fun x => x)); [apply commutes_init|]. intros _. now apply commutes_ret. }
  apply (commutes_bind (fun x => x)); [apply commutes_same|]. intro s2. apply (commutes_bind (fun x => x)); [apply commutes_same|]. intro s3.
  destruct (check_bracket s2 s3).
  2: { destruct (_ && _); [apply commutes_raise|]. destruct (_ && _); [apply commutes_raise|]. now apply commutes_ret. }
  apply (commutes_bind (fun x => x)); [apply commutes_same|]. intro s4. apply (commutes_bind (fun x => x)); [apply commutes_same|]. intro s5.
  apply (commutes_bind (fun x => x)); [apply commutes_loop|]. intros ((a, b), i).
  apply (commutes_bind f); [apply commutes_lift, py_nth_map|]. intro c.
  apply (commutes_bind (fun x => x)); [apply commutes_excess|]. intros _. apply (commutes_bind (fun x => x)); [apply commutes_temps|]. intro t.
  apply (commutes_bind (fun x => x)); [apply commutes_same|]. intro k.
  apply (commutes_bind f); [apply commutes_lift, py_nth_map|]. intro c1.
  apply (commutes_bind (fun x => x)); [apply commutes_init|]. intros _. now apply commutes_ret.
Qed.
Lemma outer_domain_map nested : outer_domain C' (map (map f) nested) = rmap (map f) (outer_domain C nested).
Proof.
  unfold outer_domain. rewrite py_nth_map, rmap_bind, bind_rmap. f_equal. extensionality d0. rewrite py_nth_map, rmap_bind, bind_rmap. f_equal. extensionality c00.
  rewrite bind_rmap. assert (E : mapM (fun d => py_nth d (-1)) (map (map f) nested) = rmap (map f) (mapM (fun d => py_nth d (-1)) nested)).
  { induction nested as [|d l IH]; [reflexivity|]. cbn [map mapM]. rewrite py_nth_map, IH. destruct (py_nth d (-1)) as [x|]; [|reflexivity]. cbn [rmap bind].
    now destruct (mapM _ l). }
  rewrite E, rmap_bind. f_equal.
Qed.
Lemma commutes_2d nested mi :
  commutes (fun r => (fst r, selmap (snd r))) (search_2d C build sim minH maxH nested mi) (search_2d C' build' sim' minH maxH (map (map f) nested) mi).
Proof.
  unfold search_2d. apply (commutes_bind (map f)); [apply commutes_lift, outer_domain_map|]. intro o.
  apply (commutes_bind (fun x => x)); [now intros s|]. intros _. apply (commutes_bind selmap); [apply commutes_search|]. intro r.
  apply (commutes_bind (fun kc => (fst kc, f (snd kc)))); [destruct r as [(k, c)|]; cbn [need selmap]; [now apply commutes_ret|apply commutes_raise]|]. intro kc. cbv zeta. cbn [fst].
  apply (commutes_bind (map f)); [apply commutes_lift, py_nth_map|]. intro d. apply (commutes_bind (fun x => x)); [now intros s|]. intros _.
  apply (commutes_bind (fun x => x)); [now intros s|]. intros _. apply (commutes_bind selmap); [apply commutes_search|]. intro r2. now apply commutes_ret.
Qed.
End SearchMap.

(** ** designs *)
Open Scope R_scope.
Section Designs.
Variable build : list (R * R) -> R -> res unit.
Variable sim : list (R * R) -> R -> res (xval R).
Variable sized : list (R * R) -> res R.
Variable minH maxH : R.
Hypothesis same_build : forall c H, build (quarter_turn c) H = build c H.
Hypothesis same_sim : forall c H, sim (quarter_turn c) H = sim c H.
Definition found_turned (f : found (F := R) (V := R)) : found (F := R) (V := R) := (selection_turned (fst f), search_turned (snd f)).

Lemma base_init_turned d H : base_init build (map quarter_turn d) H = rmap search_turned (base_init build d H).
Proof.
  unfold base_init. rewrite py_nth_map, rmap_bind, bind_rmap. f_equal. extensionality c. rewrite same_build, bind_rmap. f_equal.
Qed.
Lemma one_turned d H : bisection_1d build sim minH maxH (map quarter_turn d) H = rmap found_turned (bisection_1d build sim minH maxH d H).
Proof.
  unfold bisection_1d. rewrite base_init_turned, rmap_bind, bind_rmap. f_equal. extensionality s.
  rewrite (commutes_search _ _ quarter_turn build sim build sim minH maxH same_build same_sim 15 s : search _ build sim minH maxH 15 (search_turned s) = _).
  destruct (search _ build sim minH maxH 15 s) as ([r|], s'); reflexivity.
Qed.
Lemma two_turned dd H : bisection_2d build sim minH maxH (map (map quarter_turn) dd) H = rmap found_turned (bisection_2d build sim minH maxH dd H).
Proof.
  unfold bisection_2d. rewrite py_nth_map, rmap_bind, bind_rmap. f_equal. extensionality d. rewrite base_init_turned, rmap_bind, bind_rmap. f_equal. extensionality s.
  rewrite (commutes_2d _ _ quarter_turn build sim build sim minH maxH same_build same_sim dd 15 s : search_2d _ build sim minH maxH (map (map quarter_turn) dd) 15 (search_turned s) = _).
  destruct (search_2d _ build sim minH maxH dd 15 s) as ([(k, r)|], s'); reflexivity.
Qed.
Lemma sides (x y : R) : x <> y -> nle x y <> nle y x.
Proof. intro D. cbn. destruct (Rle_dec x y), (Rle_dec y x); try discriminate; lra. Qed.
Lemma rectangle_design_turned gc L W H : gc_length gc = Some L -> gc_width gc = Some W -> L <> W ->
  design build sim sized minH maxH (sides_exchanged gc) rectangle_routine H = rmap found_turned (design build sim sized minH maxH gc rectangle_routine H).
Proof.
  intros EL EW D. unfold design, design_init, check_inputs, sides_exchanged. cbn [gc_length gc_width gc_B_min gc_B_max_x]. rewrite EL, EW. cbn [not_none assert_ bind number].
  destruct (gc_B_min gc) as [bmin|]; [|reflexivity]. cbn [not_none assert_ bind number]. destruct (gc_B_max_x gc) as [bx|]; [|reflexivity]. cbn [not_none assert_ bind number].
  rewrite (rectangular_turned L W) by now apply sides. destruct (rectangular L W bmin bx) as [d|]; [|reflexivity]. cbn [turned_domain bind find_design]. apply one_turned.
Qed.
Lemma bi_rectangle_design_turned gc L W H : gc_length gc = Some L -> gc_width gc = Some W -> L <> W ->
  design build sim sized minH maxH (land_turned gc) bi_rectangle H = rmap found_turned (design build sim sized minH maxH gc bi_rectangle H).
Proof.
  intros EL EW D. unfold design, design_init, check_inputs, land_turned. cbn [gc_length gc_width gc_B_min gc_B_max_x gc_B_max_y]. rewrite EL, EW. cbn [not_none assert_ bind number].
  destruct (gc_B_min gc) as [bmin|]; [|reflexivity]. cbn [not_none assert_ bind number].
  destruct (gc_B_max_x gc) as [bx|], (gc_B_max_y gc) as [by_|]; try reflexivity. cbn [not_none assert_ bind number].
  rewrite (bi_rectangle_turned L W) by now apply sides. destruct (bi_rectangle_nested L W bmin bx by_) as [d|]; [|reflexivity]. cbn [turned_nested bind find_design]. apply two_turned.
Qed.
End Designs.

Section Program.
Variable h_circular : R -> R -> R -> R -> R -> R -> R -> R.
Variable h_annulus : R -> R -> R -> R -> R -> R -> R -> R -> R * R.
Variable r_conduction : R -> R -> R -> R.
Variable eff_u : R -> pg_u -> R -> R -> R.
Variable eff_c : R -> pg_c -> R -> R -> R.
Variable brentq : (R -> res R) -> R -> R -> list R * res R.
Variable solver : list R -> list R -> list R -> list R -> list R.
Variable interp : ikind -> list (R * R) -> R -> R.
Variable field_response : R -> list (R * R) -> R -> R -> R -> res (list R).
Variable dlg : R -> R -> dialogue.
Variable st : settings.
Variable flow : flow_kind.
Variable V_flow : R.
Variable log_time : list R.
Hypothesis turns : forall mf c H D rb, field_response mf (quarter_turn c) H D rb = field_response mf c H D rb.
Hypothesis Hrb : 0 < st_rb st.
Notation rdy := (ready h_circular h_annulus r_conduction eff_u eff_c brentq solver field_response st flow V_flow log_time).
Notation sup := (size_up h_circular h_annulus r_conduction eff_u eff_c brentq solver interp field_response dlg st).
Notation prog := (program h_circular h_annulus r_conduction eff_u eff_c brentq solver interp field_response dlg st).
Notation whl := (whole h_circular h_annulus r_conduction eff_u eff_c brentq solver interp field_response dlg st).

Lemma same_turned c : same_response field_response c (quarter_turn c).
Proof. split; [unfold quarter_turn; now rewrite map_length|]. intros. apply turns. Qed.
Lemma spacing_turned rb c : borehole_spacing rb (quarter_turn c) = borehole_spacing rb c.
Proof.
  destruct c as [|p [|q l]]; [reflexivity|reflexivity|]. cbn [quarter_turn map]. rewrite !(proj2 (proj2 Properties_Utilities.C23_borehole_spacing)). cbn [fst snd].
  do 3 f_equal. lra.
Qed.
Lemma ready_turned c H : rdy (quarter_turn c) H = rmap ghe_turned (rdy c H) /\ (forall s, rdy c H = Ok s -> exists B, B <> 0 /\ of_field c B s).
Proof.
  destruct (ready_moved h_circular h_annulus r_conduction eff_u eff_c brentq solver field_response st flow V_flow log_time c (quarter_turn c) (same_turned c) Hrb H)
    as [[-> _]|(B & B' & EB & EB' & N & N' & E & K)].
  - unfold ready, System.initialize_ghe. cbn [quarter_turn map]. destruct (retrieve_flow _ _ _ _) as [fl|]; (split; [reflexivity|discriminate]).
  - rewrite spacing_turned in EB'. assert (B' = B) by congruence. subst B'. rewrite E. split; [|intros s Es; exists B; split; [exact N|now apply K]].
    destruct (rdy c H) as [s|]; [|reflexivity]. cbn [rmap]. f_equal. destruct (K s eq_refl) as (K1 & K2 & K3).
    unfold moved, ghe_turned. now rewrite K1, K2, K3.
Qed.
Lemma size_up_turned m c B s : B <> 0 -> of_field c B s -> sup m (ghe_turned s) = rmap ghe_turned (sup m s) /\ (forall s', sup m s = Ok s' -> of_field c B s').
Proof.
  intros N K. destruct (size_up_moved h_circular h_annulus r_conduction eff_u eff_c brentq solver interp field_response dlg st c (quarter_turn c) B B (same_turned c) N N m s K) as [E K'].
  split; [|exact K']. assert (T : forall s0, of_field c B s0 -> ghe_turned s0 = moved B (quarter_turn c) s0).
  { intros s0 (K1 & K2 & K3). unfold moved, ghe_turned. now rewrite K1, K2, K3. }
  rewrite (T s K), E. destruct (sup m s) as [s1|]; [|reflexivity]. cbn [rmap]. now rewrite (T s1 (K' s1 eq_refl)).
Qed.
Variable m : method.
Lemma program_rectangle_turned gc L W H : gc_length gc = Some L -> gc_width gc = Some W -> L <> W ->
  prog m flow V_flow log_time (sides_exchanged gc) rectangle_routine H = rmap found_turned (prog m flow V_flow log_time gc rectangle_routine H).
Proof.
  intros EL EW D. unfold program. eapply rectangle_design_turned; eauto; intros; [apply can_build_moved|apply excess_moved]; auto using same_turned.
Qed.
Lemma program_bi_rectangle_turned gc L W H : gc_length gc = Some L -> gc_width gc = Some W -> L <> W ->
  prog m flow V_flow log_time (land_turned gc) bi_rectangle H = rmap found_turned (prog m flow V_flow log_time gc bi_rectangle H).
Proof.
  intros EL EW D. unfold program. eapply bi_rectangle_design_turned; eauto; intros; [apply can_build_moved|apply excess_moved]; auto using same_turned.
Qed.
Lemma whole_turned gc gc' r H sm : r <> bi_zoned -> prog m flow V_flow log_time gc' r H = rmap found_turned (prog m flow V_flow log_time gc r H) ->
  whl m flow V_flow log_time gc' r H sm = rmap (fun p => (selection_turned (fst p), ghe_turned (snd p))) (whl m flow V_flow log_time gc r H sm).
Proof.
  intros Nr E. unfold whole. rewrite E, rmap_bind, bind_rmap. f_equal. extensionality f. unfold left_ghe.
  change (Search.ghe _ (snd (found_turned f))) with (quarter_turn (fst (Search.ghe _ (snd f))), snd (Search.ghe _ (snd f))).
  destruct (Search.ghe _ (snd f)) as (c, h). cbn [fst snd]. destruct (ready_turned c h) as [R1 R2].
  assert (G : (let! s := rdy (quarter_turn c) h in let! s0 := sup sm s in Ok (selection_turned (fst f), s0)) =
              rmap (fun p => (selection_turned (fst p), ghe_turned (snd p))) (let! s := rdy c h in let! s0 := sup sm s in Ok (fst f, s0))).
  { rewrite R1, rmap_bind. destruct (rdy c h) as [s|]; [|reflexivity]. cbn [bind]. destruct (R2 s eq_refl) as (B & N & K).
    rewrite (proj1 (size_up_turned sm c B s N K)), rmap_bind, bind_rmap. reflexivity. }
  destruct r; try exact G. congruence.
Qed.
End Program.
