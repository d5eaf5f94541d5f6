(** Properties C25-C35: the search routines, for every field type, build function, simulation, sizing and height limits *)
From Coq Require Import ZArith QArith Reals List Bool Lia.
From Verif Require Import Base Num Order BaseLemmas Utilities Search SearchSpec SearchProofs SearchTheorems SearchNested.
Import ListNotations.
Open Scope Z_scope.

Section Properties.
Variable C : Type.                      (* borehole fields *)
Context {F : Type} {N : Num F} {OF : Ordered F}.  (* numbers, standing for the reals [val] *)
Variable build : C -> F -> res unit.    (* initialize_ghe: may raise *)
Variable sim : C -> F -> res (xval F).  (* excess temperature of a field at a height *)
Variable sized : C -> res F.            (* height after sizing *)
Variable nbh : C -> Z.                  (* number of boreholes *)
Variable minH maxH : F.
Notation sstate := (sstate C (F := F)).
Notation search := (search C build sim minH maxH).

(** C25: what a returning search guarantees *)
Theorem C25_selected_field_meets_limits :
  forall max_iter (s s' : sstate) r,
  search max_iter s = (Ok r, s') -> temps C s = [] ->
  exists k c, r = Some (k, c) /\ 0 <= k < zlen (dom C s) /\ nth_error (dom C s) (Z.to_nat k) = Some c
    /\ ghe C s' = (c, maxH)
    /\ ((exists q, sim c maxH = Ok (Fin q) /\ (val q < 0)%R)
        \/ (k = 0 /\ exists q q', sim c minH = Ok (Fin q) /\ (val q < 0)%R /\ sim c maxH = Ok (Fin q') /\ (val q' > 0)%R)).
Proof. exact (selected_feasible C build sim minH maxH). Qed.

(** C26: strictly improving domains: the smallest adequate field, found *)
Theorem C26_smallest_adequate_field :
  forall max_iter (s : sstate) f m ql c0,
  temps C s = [] -> zlen (dom C s) - 1 <= 2 ^ Z.max 0 max_iter ->
  (forall c H, In c (dom C s) -> exists u, build c H = Ok u) ->
  excess_is C sim maxH (dom C s) f -> (forall i j, 0 <= i < j -> j < zlen (dom C s) -> (val (f j) < val (f i))%R) ->
  nth_error (dom C s) 0 = Some c0 -> sim c0 minH = Ok (Fin ql) -> (0 < val ql)%R ->
  0 < m < zlen (dom C s) -> (0 < val (f (m - 1)%Z))%R -> (val (f m) < 0)%R ->
  exists c s', search max_iter s = (Ok (Some (m, c)), s') /\ nth_error (dom C s) (Z.to_nat m) = Some c /\ ghe C s' = (c, maxH).
Proof. exact (finds_smallest C build sim minH maxH). Qed.

(** ... and if the search returns at all, it is that field (no assumption on the builds) *)
Theorem C26_returned_field_is_smallest :
  forall max_iter (s s' : sstate) k c f,
  search max_iter s = (Ok (Some (k, c)), s') -> temps C s = [] ->
  zlen (dom C s) - 1 <= 2 ^ Z.max 0 max_iter ->
  excess_is C sim maxH (dom C s) f -> (forall i j, 0 <= i < j -> j < zlen (dom C s) -> (val (f j) < val (f i))%R) ->
  (forall c0, nth_error (dom C s) 0 = Some c0 -> height_helps C sim minH maxH c0) ->
  (val (f k) < 0)%R /\ 0 <= k < zlen (dom C s) /\ nth_error (dom C s) (Z.to_nat k) = Some c
  /\ forall j, 0 <= j < k -> (0 < val (f j))%R.
Proof. exact (selected_smallest C build sim minH maxH). Qed.

(** ... without any monotonicity: best of the evaluated adequate fields, one of which has an inadequate predecessor *)
Theorem C26_best_of_evaluated :
  forall max_iter (s s' : sstate) r,
  search max_iter s = (Ok r, s') -> temps C s = [] ->
  zlen (dom C s) - 1 <= 2 ^ Z.max 0 max_iter ->
  forall c0, nth_error (dom C s) 0 = Some c0 ->
  (exists q q', sim c0 minH = Ok (Fin q) /\ sim c0 maxH = Ok (Fin q') /\ (0 < val q)%R /\ (0 < val q')%R) ->
  exists k c q, r = Some (k, c) /\ sim c maxH = Ok (Fin q) /\ (val q < 0)%R
    /\ recorded C sim maxH (dom C s) (temps C s')
    /\ (forall k' q', In (k', Fin q') (temps C s') -> (val q' < 0)%R -> (val q' <= val q)%R)
    /\ exists m a b, In (m, Fin a) (temps C s') /\ In (m + 1, Fin b) (temps C s') /\ (0 < val a)%R /\ (val b < 0)%R.
Proof. exact (selected_best C build sim minH maxH). Qed.

(** C27 holds up to ties: the selection has the excess of the smallest adequate field *)
Theorem C27_ties_partial :
  forall max_iter (s s' : sstate) k c f,
  search max_iter s = (Ok (Some (k, c)), s') -> temps C s = [] ->
  zlen (dom C s) - 1 <= 2 ^ Z.max 0 max_iter ->
  excess_is C sim maxH (dom C s) f -> (forall i j, 0 <= i <= j -> j < zlen (dom C s) -> (val (f j) <= val (f i))%R) ->
  (forall c0, nth_error (dom C s) 0 = Some c0 -> height_helps C sim minH maxH c0) ->
  (val (f k) < 0)%R /\ 0 <= k < zlen (dom C s) /\
  exists m, 0 <= m <= k /\ (val (f m) < 0)%R /\ (forall j, 0 <= j < m -> (0 < val (f j))%R) /\ (val (f k) = val (f m))%R.
Proof. exact (selected_value_optimal C build sim minH maxH). Qed.

(** C28 *)
Theorem C28_never_none :
  forall max_iter (s s' : sstate), temps C s = [] -> search max_iter s <> (Ok None, s').
Proof. exact (search_never_none C build sim minH maxH). Qed.

Theorem C28_no_index_error :
  forall max_iter (s s' : sstate),
  temps C s = [] -> dom C s <> [] -> search max_iter s = (Err IndexError, s') ->
  exists c H, In c (dom C s) /\ (build c H = Err IndexError \/ sim c H = Err IndexError).
Proof. exact (search_index_error C build sim minH maxH). Qed.

Theorem C28_value_error_iff_not_bracketed :
  forall max_iter (s : sstate),
  dom C s <> [] -> temps C s = [] -> well_behaved C build sim minH maxH (dom C s) ->
  exists c0 cR tl tu tm, reads C sim minH maxH (dom C s) c0 cR tl tu tm /\
  ((exists k c s', search max_iter s = (Ok (Some (k, c)), s')) /\ (opposite tl tu \/ opposite tu tm)
   \/ (exists s', search max_iter s = (Err ValueError, s')) /\ same_side tl tu /\ same_side tu tm).
Proof. exact (search_outcome C build sim minH maxH). Qed.

(** ... and every exception has a cause *)
Theorem C28_every_error_explained :
  forall max_iter (s : sstate) e s',
  search max_iter s = (Err e, s') -> temps C s = [] ->
  (dom C s = [] /\ e = IndexError)
  \/ (exists c H, In c (dom C s) /\ (H = maxH \/ H = minH /\ nth_error (dom C s) 0 = Some c) /\ oracle_err C build sim c H e)
  \/ (e = ValueError /\ exists c0 cR tl tu tm, reads C sim minH maxH (dom C s) c0 cR tl tu tm /\ same_side tl tu /\ same_side tu tm).
Proof. exact (search_err C build sim minH maxH). Qed.

(** C29: what remains true: ZeroDivisionError means that some evaluation was exactly zero (or raised it itself) *)
Theorem C29_zero_excess_partial :
  forall max_iter (s s' : sstate),
  temps C s = [] -> search max_iter s = (Err ZeroDivisionError, s') ->
  exists c H, In c (dom C s) /\ (H = maxH \/ H = minH /\ nth_error (dom C s) 0 = Some c) /\
    (build c H = Err ZeroDivisionError \/ sim c H = Err ZeroDivisionError \/ exists q, sim c H = Ok (Fin q) /\ (val q = 0)%R).
Proof. exact (search_zero_error C build sim minH maxH). Qed.

(** C30 *)
Theorem C30_logarithmic_effort :
  forall max_iter (s s' : sstate) r,
  search max_iter s = (Ok r, s') -> temps C s = [] ->
  NoDup (map fst (temps C s'))
  /\ zlen (temps C s') <= 2 + Z.min (Z.max 0 max_iter) (Z.log2_up (zlen (dom C s) - 1))
  /\ zlen (trace C s') <= zlen (trace C s) + 4 + Z.min (Z.max 0 max_iter) (Z.log2_up (zlen (dom C s) - 1)).
Proof. exact (search_effort C build sim minH maxH). Qed.

(** C31 *)
Theorem C31_nested_search_succeeds :
  forall nested mi (s : sstate) c00 cl dl,
  temps C s = [] -> starts_with C c00 nested ->
  nth_error nested (length nested - 1) = Some dl -> py_nth dl (-1) = Ok cl ->
  (forall d, In d nested -> well_behaved C build sim minH maxH d) ->
  (exists v, sim c00 minH = Ok v /\ pos v) -> (exists v, sim c00 maxH = Ok v /\ pos v) -> (exists v, sim cl maxH = Ok v /\ neg v) ->
  exists s' k inner k2 c2 q, search_2d C build sim minH maxH nested mi s = (Ok (k, Some (k2, c2)), s')
    /\ 1 <= k <= zlen nested /\ nth_error nested (Z.to_nat (k - 1)) = Some inner
    /\ nth_error inner (Z.to_nat k2) = Some c2 /\ sim c2 maxH = Ok (Fin q) /\ (val q < 0)%R /\ ghe C s' = (c2, maxH).
Proof. exact (search_2d_succeeds C build sim minH maxH). Qed.

(** ... and whenever it returns, it is the search of the outer domain followed by the search of the chosen inner one *)
Theorem C31_nested_search_is_two_searches :
  forall nested mi (s s' : sstate) k r2,
  search_2d C build sim minH maxH nested mi s = (Ok (k, r2), s') -> temps C s = [] ->
  exists outer inner co k2 c2,
    outer_domain C nested = Ok outer /\ one_d C build sim minH maxH mi outer (Ok (Some (k, co)))
    /\ py_nth nested (k - 1) = Ok inner /\ one_d C build sim minH maxH mi inner (Ok (Some (k2, c2)))
    /\ r2 = Some (k2, c2) /\ nth_error inner (Z.to_nat k2) = Some c2 /\ ghe C s' = (c2, maxH) /\ dom C s' = inner.
Proof. exact (search_2d_ok C build sim minH maxH). Qed.

(** the outer domain: the first field of the first domain, then the last field of every domain *)
Theorem C31_outer_domain :
  forall nested outer, outer_domain C nested = Ok outer <->
  exists c00 r0 lasts, nth_error nested 0 = Some (c00 :: r0) /\ outer = c00 :: lasts
    /\ Forall2 (fun d l => exists a, d = a ++ [l]) nested lasts.
Proof. exact (outer_domain_ok C). Qed.

(** C32 *)
Theorem C32_single_field_suffices :
  forall nested mi (s : sstate) c00 vl vu,
  temps C s = [] -> starts_with C c00 nested -> nested <> [] ->
  (forall d, In d nested -> well_behaved C build sim minH maxH d) ->
  sim c00 minH = Ok vl -> sim c00 maxH = Ok vu -> opposite vl vu ->
  exists s', search_2d C build sim minH maxH nested mi s = (Ok (0, Some (0, c00)), s') /\ ghe C s' = (c00, maxH).
Proof. exact (search_2d_single C build sim minH maxH). Qed.

(** C33, and what holds of C34 and C35 *)
Theorem C33_least_drilling_visited :
  forall nested mi (s s' : sstate) ko k c,
  search_zd C build sim sized nbh minH maxH nested mi s = (Ok (ko, k, c), s') -> temps C s = [] ->
  exists outer k0 co vs, let i0 := Z.max 0 (k0 - 1) in
    outer_domain C nested = Ok outer /\ one_d C build sim minH maxH mi outer (Ok (Some (k0, co)))
    /\ heights C s' = map (fun v => (v_idx v, v_drill v)) vs
    /\ map v_idx vs = zrange i0 (i0 + zlen vs)
    /\ 1 <= zlen vs <= 7
    /\ Forall (good_visit C build sim sized nbh minH maxH nested mi) vs
    /\ descending (nofZ 99999) (map v_drill vs)
    /\ (zlen vs = 7 \/ zlen nested <= i0 + zlen vs \/ rises_last (nofZ 99999) (map v_drill vs)
        \/ exists d, nth_error nested (Z.to_nat (i0 + zlen vs)) = Some d /\ one_d C build sim minH maxH mi d (Err ValueError))
    /\ exists v d, In v vs /\ v_idx v = ko
      /\ (forall w, In w vs -> (val (v_drill v) <= val (v_drill w))%R)
      /\ (forall w, In w vs -> v_idx w < ko -> (val (v_drill v) < val (v_drill w))%R)
      /\ nth_error nested (Z.to_nat ko) = Some d /\ 0 <= k < zlen d /\ nth_error d (Z.to_nat k) = Some c
      /\ (exists x, sim c maxH = Ok x /\ nonpos x)
      /\ (exists H, sized c = Ok H /\ ghe C s' = (c, H))
      /\ (k = v_key v /\ c = v_field v
          \/ exists c0 cR tl tu tm, reads C sim minH maxH d c0 cR tl tu tm /\ opposite tl tu /\ v_key v = 0 /\ v_field v = c0
                /\ select_key (first_temps (zlen d) tu tm) = Ok k).
Proof. exact (search_zd_ok C build sim sized nbh minH maxH). Qed.

(** C34: if no visited total exceeds 99999 m, the sweep stops early only because drilling went up from one visited domain
    to the next or because the next domain could not be searched *)
Theorem C34_keeps_going_partial :
  forall nested mi (s s' : sstate) ko k c,
  search_zd C build sim sized nbh minH maxH nested mi s = (Ok (ko, k, c), s') -> temps C s = [] ->
  Forall (fun kt => (val (snd kt) <= 99999)%R) (heights C s') ->
  zlen (heights C s') = 7
  \/ (exists j, In j (map fst (heights C s')) /\ j = zlen nested - 1)
  \/ (exists h a b j, heights C s' = h ++ [(j, a); (j + 1, b)] /\ (val a < val b)%R)
  \/ (exists d j, In j (map fst (heights C s')) /\ nth_error nested (Z.to_nat (j + 1)) = Some d
        /\ one_d C build sim minH maxH mi d (Err ValueError)).
Proof. exact (zd_keeps_going C build sim sized nbh minH maxH). Qed.

(** C35: the returned field is the sized one whenever the largest field of its domain is no worse than the smallest *)
Theorem C35_reports_sized_field_partial :
  forall nested mi (s s' : sstate) ko k c,
  search_zd C build sim sized nbh minH maxH nested mi s = (Ok (ko, k, c), s') -> temps C s = [] ->
  (forall d c0 cR tl tu tm, In d nested -> reads C sim minH maxH d c0 cR tl tu tm ->
     (neg tl -> pos tu -> False) /\ (exists a b, tu = Fin a /\ tm = Fin b /\ (val b <= val a)%R)) ->
  exists d total H, nth_error nested (Z.to_nat ko) = Some d
    /\ one_d C build sim minH maxH mi d (Ok (Some (k, c)))
    /\ sized c = Ok H /\ total = nmul (nofZ (nbh c)) H /\ In (ko, total) (heights C s')
    /\ (forall j t, In (j, t) (heights C s') -> (val total <= val t)%R)
    /\ ghe C s' = (c, H) /\ exists x, sim c maxH = Ok x /\ nonpos x.
Proof. exact (zd_reports_sized C build sim sized nbh minH maxH). Qed.

End Properties.

(** comparisons of concrete rationals *)
Ltac qv := first [apply val_lt0; reflexivity|apply val_0lt; reflexivity|apply val_lt; reflexivity|apply val_le; reflexivity].
(** ** concrete cases: fields are numbers, excess temperatures are tables *)
Definition ok_build (c : Z) (H : Q) : res unit := Ok tt.
(** excess [lo] at the minimum height (60 m), the table at the maximum height (135 m) *)
Definition tab (lo : Q) (l : list Q) (c : Z) (H : Q) : res (xval Q) :=
  if Qeq_bool H 135 then match nth_error l (Z.to_nat c) with Some q => Ok (Fin q) | None => Err IndexError end else Ok (Fin lo).
Definition run1 (lo : Q) (l : list Q) (mi : Z) :=
  search Z ok_build (tab lo l) 60%Q 135%Q mi (start Z (zrange 0 (zlen l)) (0, 0%Q)).

(** a strictly improving domain of seven fields: field 3 is the smallest adequate one *)
Example C25_C26_example : fst (run1 9 [8; 5; 1; -(1#2); -2; -3; -7]%Q 15) = Ok (Some (3, 3)).
Proof. reflexivity. Qed.
Example C26_example_hypotheses :
  let s := start Z (zrange 0 7) (0, 0%Q) in
  let f k := nth (Z.to_nat k) [8; 5; 1; -(1#2); -2; -3; -7]%Q 0%Q in
  temps Z s = [] /\ zlen (dom Z s) - 1 <= 2 ^ Z.max 0 15
  /\ excess_is Z (tab 9 [8; 5; 1; -(1#2); -2; -3; -7]%Q) 135%Q (dom Z s) f
  /\ (forall i j, 0 <= i < j -> j < zlen (dom Z s) -> (val (f j) < val (f i))%R)
  /\ (0 < val (f (3 - 1)%Z))%R /\ (val (f 3%Z) < 0)%R.
Proof.
  cbv zeta. split; [vm_compute; reflexivity|]. split; [vm_compute; discriminate|]. split.
  - intros k c Hk Hc. assert (k < 7). { assert (Z.to_nat k < 7)%nat by (change 7%nat with (length (zrange 0 7)); apply nth_error_Some; cbn in Hc |- *; congruence). lia. }
    assert (Hd : k = 0 \/ k = 1 \/ k = 2 \/ k = 3 \/ k = 4 \/ k = 5 \/ k = 6) by lia.
    decompose [or] Hd; subst k; cbn in Hc; injection Hc as <-; reflexivity.
  - split; [|split; cbv zeta; qv]. cbn [dom start]. change (zlen (zrange 0 7)) with 7. intros i j Hi Hj.
    assert (Hd : i = 0 \/ i = 1 \/ i = 2 \/ i = 3 \/ i = 4 \/ i = 5) by lia.
    assert (Hd' : j = 1 \/ j = 2 \/ j = 3 \/ j = 4 \/ j = 5 \/ j = 6) by lia.
    decompose [or] Hd; subst i; decompose [or] Hd'; subst j; try lia; qv.
Qed.
(** not monotone: the search still returns an adequate field *)
Example C26_example_not_monotone : fst (run1 9 [8; 5; -1; 3; -2; -4; -7]%Q 15) = Ok (Some (4, 4)).
Proof. reflexivity. Qed.
(** sizing between the height limits *)
Example C25_example_bracket : fst (run1 9 [-1; -2; -3]%Q 15) = Ok (Some (0, 0)).
Proof. reflexivity. Qed.
Example C28_example_value_error : fst (run1 9 [8; 5; 1]%Q 15) = Err ValueError.
Proof. reflexivity. Qed.
Example C30_example : let s' := snd (run1 9 [8; 5; 1; -(1#2); -2; -3; -7]%Q 15) in
  map fst (temps Z s') = [0; 6; 3; 2] /\ zlen (trace Z s') = 6.
Proof. vm_compute. auto. Qed.

(** C25: when the smallest field is adequate at the minimum height only, the search returns it although it violates the
    limits at the maximum height it is left at *)
Theorem C25_adequate_at_maximum_height_refuted :
  exists lo l k c s', run1 lo l 15 = (Ok (Some (k, c)), s')
    /\ ghe Z s' = (c, 135%Q) /\ exists q, tab lo l c 135 = Ok (Fin q) /\ (0 < q)%Q.
Proof.
  exists (-1)%Q, [1; -2]%Q, 0, 0, (snd (run1 (-1)%Q [1; -2]%Q 15)).
  split; [vm_compute; reflexivity|]. split; [vm_compute; reflexivity|]. exists 1%Q. split; reflexivity.
Qed.

(** C27: with a plateau the selection can be larger than necessary *)
Theorem C27_ties_refuted :
  exists lo l k c s' m, run1 lo l 15 = (Ok (Some (k, c)), s')
    /\ (forall i j, 0 <= i <= j -> j < zlen l -> (nth (Z.to_nat j) l 0 <= nth (Z.to_nat i) l 0)%Q)
    /\ 0 <= m < k /\ (nth (Z.to_nat m) l 0 < 0)%Q.
Proof.
  exists 2%Q, [1; 1#2; -1; -1; -1]%Q, 4, 4, (snd (run1 2%Q [1; 1#2; -1; -1; -1]%Q 15)), 2. split; [vm_compute; reflexivity|]. split; [|split; [lia|reflexivity]].
  intros i j Hi Hj. change (zlen [1; 1#2; -1; -1; -1]%Q) with 5 in Hj.
  assert (Hd : i = 0 \/ i = 1 \/ i = 2 \/ i = 3 \/ i = 4) by lia.
  assert (Hd' : j = 0 \/ j = 1 \/ j = 2 \/ j = 3 \/ j = 4) by lia.
  decompose [or] Hd; subst i; decompose [or] Hd'; subst j; try lia; apply Qle_bool_iff; reflexivity.
Qed.

(** C29: a field exactly at the limit makes the search raise *)
Theorem C29_zero_excess_refuted :
  exists lo l s', run1 lo l 15 = (Err ZeroDivisionError, s')
    /\ (forall c H, exists u, ok_build c H = Ok u)
    /\ (0 < lo)%Q /\ exists k, tab lo l k 135 = Ok (Fin 0%Q) /\ (0 <= k < zlen l).
Proof.
  exists 2%Q, [1; 0; -1]%Q, (snd (run1 2%Q [1; 0; -1]%Q 15)). split; [vm_compute; reflexivity|]. split; [intros; exists tt; reflexivity|].
  split; [vm_compute; reflexivity|]. exists 1. split; [vm_compute; reflexivity|]. cbn. lia.
Qed.

(** nested searches *)
Definition ex_nested : list (list Z) := [[0; 1; 2]; [0; 1; 3; 4]; [0; 5; 6]].
Definition ex_tab := tab 9 [8; 6; 3; -(1#2); -1; -2; -5]%Q.
Example C31_example : fst (search_2d Z ok_build ex_tab 60%Q 135%Q ex_nested 15 (start Z [] (0, 0%Q))) = Ok (2, Some (2, 3)).
Proof. reflexivity. Qed.
Example C31_example_hypotheses :
  starts_with Z 0 ex_nested /\ (forall d, In d ex_nested -> well_behaved Z ok_build ex_tab 60%Q 135%Q d)
  /\ (exists v, ex_tab 0 60 = Ok v /\ pos v) /\ (exists v, ex_tab 0 135 = Ok v /\ pos v) /\ (exists v, ex_tab 6 135 = Ok v /\ neg v).
Proof.
  split; [repeat constructor|]. split.
  - intros d Hd c H Hc HH. split; [exists tt; reflexivity|].
    assert (Hc' : In c [0; 1; 2; 3; 4; 5; 6]).
    { destruct Hd as [<-|[<-|[<-|[]]]]; cbn in Hc |- *; tauto. }
    destruct HH as [->|[-> _]].
    + cbn in Hc'. repeat (destruct Hc' as [<-|Hc']; [eexists; split; [vm_compute; reflexivity|];
        first [left; eexists; split; [reflexivity|qv]|right; eexists; split; [reflexivity|qv]]|]). destruct Hc'.
    + eexists; split; [vm_compute; reflexivity|]. left; eexists; split; [reflexivity|qv].
  - split; [|split]; eexists; (split; [vm_compute; reflexivity|]); eexists; (split; [reflexivity|qv]).
Qed.
Example C32_example : fst (search_2d Z ok_build (tab 9 [-1; -2; -3; -4; -5; -6; -7]%Q) 60%Q 135%Q ex_nested 15 (start Z [] (0, 0%Q))) = Ok (0, Some (0, 0)).
Proof. reflexivity. Qed.

(** successive search: boreholes per field and sized heights as tables *)
Definition zd (lo : Q) (l hs : list Q) (ns : list Z) (nested : list (list Z)) :=
  search_zd Z ok_build (tab lo l) (fun c => match nth_error hs (Z.to_nat c) with Some h => Ok h | None => Err IndexError end)
    (fun c => nth (Z.to_nat c) ns 0) 60%Q 135%Q nested 15 (start Z [] (0, 0%Q)).
(** visits domains 0, 1, 2, stops at the rise and returns domain 1 *)
Example C33_example :
  let r := zd 9 [8; -1; -2; -3; -4]%Q [0; 100; 80; 90; 70]%Q [1; 10; 11; 12; 13] [[0; 1]; [0; 2]; [0; 3]; [0; 4]] in
  fst r = Ok (1, 1, 2) /\ heights Z (snd r) = [(0, 1000%Q); (1, 880%Q); (2, 1080%Q)].
Proof. vm_compute. auto. Qed.

(** C34: above 99999 m the sweep stops at once, although the next domain needs less drilling *)
Theorem C34_keeps_going_refuted :
  exists lo l hs ns nested r s', zd lo l hs ns nested = (Ok r, s')
    /\ heights Z s' = [(0, 100000%Q)] /\ zlen nested = 2
    /\ exists d c, nth_error nested 1 = Some d /\ one_d Z ok_build (tab lo l) 60%Q 135%Q 15 d (Ok (Some (1, c)))
        /\ (inject_Z (nth (Z.to_nat c) ns 0%Z) * nth (Z.to_nat c) hs 0 < 100000)%Q.
Proof.
  exists 9%Q, [8; -1; -2]%Q, [0; 100; 90]%Q, [1; 1000; 1000], [[0; 1]; [0; 2]], (0, 1, 1),
    (snd (zd 9%Q [8; -1; -2]%Q [0; 100; 90]%Q [1; 1000; 1000] [[0; 1]; [0; 2]])).
  split; [vm_compute; reflexivity|]. split; [vm_compute; reflexivity|]. split; [vm_compute; reflexivity|]. exists [0; 2], 2. split; [vm_compute; reflexivity|]. split; [intros g; reflexivity|reflexivity].
Qed.

(** C35: the field returned is not the field whose drilling was compared *)
Theorem C35_reports_sized_field_refuted :
  exists lo l hs ns nested ko k c s', zd lo l hs ns nested = (Ok (ko, k, c), s')
    /\ exists d c', nth_error nested (Z.to_nat ko) = Some d /\ one_d Z ok_build (tab lo l) 60%Q 135%Q 15 d (Ok (Some (0, c')))
       /\ c' <> c /\ exists H, ghe Z s' = (c, H) /\ heights Z s' = [(ko, 700%Q)]
       /\ ~ (inject_Z (nth (Z.to_nat c) ns 0%Z) * H == 700)%Q.
Proof.
  exists 1%Q, [-2; -1]%Q, [70; 60]%Q, [10; 20], [[0; 1]], 0, 1, 1, (snd (zd 1%Q [-2; -1]%Q [70; 60]%Q [10; 20] [[0; 1]])). split; [vm_compute; reflexivity|].
  exists [0; 1], 0. split; [vm_compute; reflexivity|]. split; [intros g; reflexivity|]. split; [discriminate|].
  exists 60%Q. split; [vm_compute; reflexivity|]. split; [vm_compute; reflexivity|]. intros H. discriminate H.
Qed.

Print Assumptions C25_selected_field_meets_limits.
Print Assumptions C26_smallest_adequate_field.
Print Assumptions C26_returned_field_is_smallest.
Print Assumptions C26_best_of_evaluated.
Print Assumptions C27_ties_partial.
Print Assumptions C28_never_none.
Print Assumptions C28_no_index_error.
Print Assumptions C28_value_error_iff_not_bracketed.
Print Assumptions C28_every_error_explained.
Print Assumptions C29_zero_excess_partial.
Print Assumptions C30_logarithmic_effort.
Print Assumptions C31_nested_search_succeeds.
Print Assumptions C31_nested_search_is_two_searches.
Print Assumptions C31_outer_domain.
Print Assumptions C32_single_field_suffices.
Print Assumptions C33_least_drilling_visited.
Print Assumptions C34_keeps_going_partial.
Print Assumptions C35_reports_sized_field_partial.
Print Assumptions C25_adequate_at_maximum_height_refuted.
Print Assumptions C27_ties_refuted.
Print Assumptions C29_zero_excess_refuted.
Print Assumptions C34_keeps_going_refuted.
Print Assumptions C35_reports_sized_field_refuted.
