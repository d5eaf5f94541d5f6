(** Properties C117, C118 and the bi-zoned part of C116: zoned candidates and bi-zoned designs with doubles.
    [bval] is the real number a double stands for (Float64.v); [real_field] a field of doubles read as real numbers (BinaryGrid.v). *)
From Coq Require Import ZArith QArith Reals SpecFloat List Bool Sorted Lia Lra.
From Verif Require Import Base Num Order BaseLemmas Utilities UtilitiesProofs Coordinates Spec Domains DomainsProofs Search SearchSpec SearchProofs SearchTheorems SearchNested SearchZoned Properties_Search
  Float64 Binary64 BinaryGrid BinaryDomains BinaryZoned Properties_Float Design DesignProofs Properties_Zoned Properties_FloatDesign.
Import ListNotations.
Open Scope R_scope.

(** ** C117: zoned rectangles on a fixed perimeter *)
(** sides between 2^-300 and 2^300 *)
Definition ordinary_sides (lx ly : b64) : Prop :=
  finite64 lx = true /\ finite64 ly = true /\ p2 (-300) <= bval lx <= p2 300 /\ p2 (-300) <= bval ly <= p2 300.

Lemma zoned_turned64 lx ly nx ny tr : ordinary_sides lx ly -> bval lx < bval ly -> zoned_rectangle_domain lx ly nx ny tr = zoned_rectangle_domain ly lx ny nx tr.
Proof.
  intros (Fx & Fy & _) H. unfold zoned_rectangle_domain. cbn [nle NumB64]. rewrite (proj2 (SFleb_iff lx ly Fx Fy)) by lra.
  destruct (SFleb ly lx) eqn:E; [apply SFleb_iff in E; auto; lra|reflexivity].
Qed.
(** the domain is always produced; it begins with the perimeter and one borehole inside, grows by every field and ends with the full grid *)
Theorem C117_zoned_domain :
  forall lx ly nx ny tr, ordinary_sides lx ly -> (3 <= nx <= 2 ^ 31)%Z -> (3 <= ny <= 2 ^ 31)%Z ->
  exists d, zoned_rectangle_domain lx ly nx ny tr = Ok d
    /\ zlen d = (1 + (nx - 3) + (ny - 3))%Z
    /\ strictly_increasing (sizes d)
    /\ (exists r, sizes d = (2 * nx + 2 * ny - 3)%Z :: r)
    /\ (exists r, sizes d = r ++ [nx * ny]%Z).
Proof.
  intros lx ly nx ny tr O Hx Hy. pose proof O as (Fx & Fy & Rx & Ry).
  destruct (Rle_or_lt (bval ly) (bval lx)) as [H|H].
  - destruct (zoned_domain64 lx ly nx ny tr) as (? & ? & ? & ? & ? & _ & _ & E & _); auto; try lra. eexists. split; [exact E|].
    destruct (zoned_facts64 lx ly nx ny tr _ Fx Fy ltac:(lra) ltac:(lra) Hx Hy E) as (A & B & C & D & _). auto.
  - rewrite (zoned_turned64 lx ly nx ny tr O H).
    destruct (zoned_domain64 ly lx ny nx tr) as (? & ? & ? & ? & ? & _ & _ & E & _); auto; try lra. eexists. split; [exact E|].
    destruct (zoned_facts64 ly lx ny nx tr _ Fy Fx ltac:(lra) ltac:(lra) Hy Hx E) as (A & B & (r & C) & (r' & D) & _).
    split; [lia|]. split; [exact B|]. split; [exists r; rewrite C; f_equal; lia|]. exists r'. rewrite D. do 2 f_equal. lia.
Qed.
(** the rows and columns inside are added as without rounding, except perhaps at a tie or for more than 2^48 boreholes *)
Theorem C117_zoned_steps :
  forall lx ly nx ny tr, ordinary_sides lx ly -> bval ly <= bval lx -> (3 <= nx <= 2 ^ 31)%Z -> (3 <= ny <= 2 ^ 31)%Z ->
  exists b1 b2 path f0 fs, pydiv lx (nofZ (nx - 1)) = Ok b1 /\ pydiv ly (nofZ (ny - 1)) = Ok b2
    /\ zoned_rectangle_domain lx ly nx ny tr = Ok (f0 :: map (maybe_transpose tr) fs)
    /\ zone_walk nx ny (1, 1)%Z path
    /\ Forall2 (fun ij f => zoned_rectangle nx ny b1 b2 (fst ij) (snd ij) = Ok f) ((1, 1)%Z :: path) (f0 :: fs).
Proof.
  intros lx ly nx ny tr (Fx & Fy & Rx & Ry) H Hx Hy. destruct (zoned_domain64 lx ly nx ny tr) as (b1 & b2 & path & f0 & fs & S1 & S2 & E & W & A); auto; try lra.
  exists b1, b2, path, f0, fs. split; [apply S1|]. split; [apply S2|]. auto.
Qed.
(** no borehole outside, and no two closer than the perimeter's spacing, up to rounding *)
Theorem C117_zoned_land :
  forall lx ly nx ny d f s, ordinary_sides lx ly -> bval ly <= bval lx -> (3 <= nx <= 2 ^ 31)%Z -> (3 <= ny <= 2 ^ 31)%Z ->
  zoned_rectangle_domain lx ly nx ny false = Ok d -> In f d -> 0 <= s -> s <= bval lx / IZR (nx - 1) -> s <= bval ly / IZR (ny - 1) ->
  inside (bval lx * (1 + p2 (-49))) (bval ly * (1 + p2 (-49))) (real_field f) /\ separated (s - p2 (-48) * (bval lx + bval ly)) (real_field f).
Proof.
  intros lx ly nx ny d f s (Fx & Fy & Rx & Ry) H Hx Hy E Hf S0 S1 S2.
  destruct (zoned_facts64 lx ly nx ny false d Fx Fy ltac:(lra) ltac:(lra) Hx Hy E) as (_ & _ & _ & _ & Hg & _).
  destruct (Hg f Hf) as (g & Eg & I & S). cbn [maybe_transpose] in Eg. assert (f = g) by tauto. subst g. split; [exact I|]. now apply S.
Qed.
(** 44.1 m by 20.3 m, spacings from 4.1 m to 5.9 m *)
Lemma zoned_values : let l := b64_lit 441 10 in let w := b64_lit 203 10 in let n := b64_lit 41 10 in let x := b64_lit 59 10 in
  (finite64 l = true /\ finite64 w = true /\ finite64 n = true /\ finite64 x = true) /\
  44 <= bval l <= 45 /\ 202 / 10 <= bval w <= 21 /\ 4 <= bval n <= 42 / 10 /\ 58 / 10 <= bval x <= 6.
Proof.
  cbv zeta. split; [repeat split; vm_compute; reflexivity|].
  set (l := b64_lit 441 10). set (w := b64_lit 203 10). set (n := b64_lit 41 10). set (x := b64_lit 59 10). vm_compute in l, w, n, x. subst l w n x. cbn [bval].
  rewrite !p2_neg by lia. cbn [Z.opp Z.pow Z.pow_pos Pos.iter Z.mul Pos.mul]. lra.
Qed.
Lemma moderate x : / 2 <= x <= 100 -> p2 (-300) <= x <= p2 300.
Proof.
  intros H. pose proof (p2_le (-300) (-1) ltac:(lia)) as A. pose proof (p2_le 7 300 ltac:(lia)) as B.
  rewrite (p2_neg (-1)) in A by lia. rewrite (p2_Z 7) in B by lia. change (2 ^ (- -1))%Z with 2%Z in A. change (2 ^ 7)%Z with 128%Z in B. lra.
Qed.
Example C117_example : ordinary_sides (b64_lit 441 10) (b64_lit 203 10) /\ bval (b64_lit 203 10) <= bval (b64_lit 441 10) /\
  (let! d := zoned_rectangle_domain (b64_lit 441 10) (b64_lit 203 10) 8 5 false in Ok (sizes d)) = Ok [23; 24; 25; 26; 27; 32; 34; 40]%Z.
Proof.
  destruct zoned_values as ((Fl & Fw & _) & Rl & Rw & _). split; [|split; [lra|vm_compute; reflexivity]].
  split; [exact Fl|]. split; [exact Fw|]. split; apply moderate; lra.
Qed.

(** ** C118: the bi-zoned candidates *)
(** candidates exist when one spacing fits into each side and each side leaves room for one count between the spacings *)
Theorem C118_bi_zoned_candidates :
  forall lx ly bmin bmax_x bmax_y : b64, ordinary_lengths lx ly bmin bmax_x -> ordinary_lengths lx ly bmin bmax_y ->
  bval bmax_x * (1 + p2 (-20)) <= bval lx -> bval bmax_y * (1 + p2 (-20)) <= bval ly ->
  bval lx / bval bmax_x + 1 + p2 (-20) <= bval lx / bval bmin -> bval ly / bval bmax_y + 1 + p2 (-20) <= bval ly / bval bmin ->
  exists dd, bi_rectangle_zoned_nested lx ly bmin bmax_x bmax_y = Ok dd /\ (1 <= length dd)%nat.
Proof. exact bi_zoned_total64. Qed.
(** each domain grows with every field *)
Theorem C118_bi_zoned_grows :
  forall lx ly bmin bmax_x bmax_y dd d, ordinary_lengths lx ly bmin bmax_x -> ordinary_lengths lx ly bmin bmax_y ->
  bi_rectangle_zoned_nested lx ly bmin bmax_x bmax_y = Ok dd -> In d dd -> strictly_increasing (sizes d) /\ (1 <= length d)%nat.
Proof. intros lx ly bmin bx by_ dd d H1 H2 E. exact (bi_zoned_grows64 lx ly bmin bx by_ dd H1 H2 E d). Qed.
(** land at least as wide as deep: no borehole outside and none closer than the minimum spacing, up to rounding *)
Theorem C118_bi_zoned_land_partial :
  forall lx ly bmin bmax_x bmax_y dd d f, ordinary_lengths lx ly bmin bmax_x -> ordinary_lengths lx ly bmin bmax_y -> bval ly <= bval lx ->
  bi_rectangle_zoned_nested lx ly bmin bmax_x bmax_y = Ok dd -> In d dd -> In f d -> (1 <= zlen f)%Z /\
  inside (bval lx * (1 + p2 (-49))) (bval ly * (1 + p2 (-49))) (real_field f) /\ separated (bval bmin * (1 - p2 (-16))) (real_field f).
Proof. intros lx ly bmin bx by_ dd d f H1 H2 Hl E. exact (bi_zoned_land64 lx ly bmin bx by_ dd H1 H2 Hl E d f). Qed.
(** deeper than wide: as without rounding, only up to exchanging x and y, except for the later fields of the later domains *)
Theorem C118_bi_zoned_deep_land_partial :
  forall lx ly bmin bmax_x bmax_y dd, ordinary_lengths lx ly bmin bmax_x -> ordinary_lengths lx ly bmin bmax_y -> bval lx < bval ly ->
  bi_rectangle_zoned_nested lx ly bmin bmax_x bmax_y = Ok dd ->
  (forall d f, In d dd -> In f d -> inside (bval lx * (1 + p2 (-49))) (bval ly * (1 + p2 (-49))) (real_field f) \/ inside (bval ly * (1 + p2 (-49))) (bval lx * (1 + p2 (-49))) (real_field f)) /\
  (forall k d i f, (0 < k)%nat -> nth_error dd k = Some d -> (0 < i)%nat -> nth_error d i = Some f ->
     inside (bval lx * (1 + p2 (-49))) (bval ly * (1 + p2 (-49))) (real_field f) /\ separated (bval bmin * (1 - p2 (-16))) (real_field f)).
Proof. intros lx ly bmin bx by_ dd H1 H2 Hl E. exact (bi_zoned_tall64 lx ly bmin bx by_ dd H1 H2 Hl E). Qed.

Lemma zoned_inputs : ordinary_lengths (b64_lit 441 10) (b64_lit 203 10) (b64_lit 41 10) (b64_lit 59 10).
Proof.
  destruct zoned_values as ((Fl & Fw & Fn & Fx) & Rl & Rw & Rn & Rx). split; [auto|]. split; [repeat split; apply moderate; lra|].
  assert (E30 : p2 30 = 1073741824) by (rewrite p2_Z by lia; reflexivity). assert (E50 : p2 50 = 1125899906842624) by (rewrite p2_Z by lia; reflexivity). rewrite E30, E50. lra.
Qed.
Lemma div_above a b c : 0 < b -> c * b <= a -> c <= a / b.
Proof. intros Hb H. apply (Rmult_le_reg_r b); auto. replace (a / b * b) with a by (field; lra). lra. Qed.
Lemma div_below a b c : 0 < b -> a <= c * b -> a / b <= c.
Proof. intros Hb H. apply (Rmult_le_reg_r b); auto. replace (a / b * b) with a by (field; lra). lra. Qed.
Example C118_example : let l := b64_lit 441 10 in let w := b64_lit 203 10 in let n := b64_lit 41 10 in let x := b64_lit 59 10 in
  ordinary_lengths l w n x /\ bval w <= bval l /\ bval x * (1 + p2 (-20)) <= bval l /\ bval x * (1 + p2 (-20)) <= bval w /\
  bval l / bval x + 1 + p2 (-20) <= bval l / bval n /\ bval w / bval x + 1 + p2 (-20) <= bval w / bval n /\
  (let! dd := bi_rectangle_zoned_nested l w n x x in Ok (map zlen dd)) = Ok [33; 10; 11]%Z.
Proof.
  cbv zeta. split; [exact zoned_inputs|]. destruct zoned_values as (_ & Rl & Rw & Rn & Rx). assert (E20 : p2 (-20) = / 1048576) by (rewrite p2_neg by lia; reflexivity). rewrite E20.
  split; [lra|]. split; [lra|]. split; [lra|]. split; [|split; [|vm_compute; reflexivity]].
  - apply Rle_trans with (10 : R); [|apply div_above; lra]. assert (bval (b64_lit 441 10) / bval (b64_lit 59 10) <= 8) by (apply div_below; lra). lra.
  - apply Rle_trans with (48 / 10); [|apply div_above; lra]. assert (bval (b64_lit 203 10) / bval (b64_lit 59 10) <= 37 / 10) by (apply div_below; lra). lra.
Qed.
(** land deeper than wide, 4 m by 8 m with 2 m spacing: a borehole at x = 8 *)
Theorem C118_bi_zoned_land_refuted :
  exists (lx ly bmin : b64) dd d f p, ordinary_lengths lx ly bmin bmin /\ bi_rectangle_zoned_nested lx ly bmin bmin bmin = Ok dd /\ In d dd /\ In f d /\ In p f /\
  bval lx * (1 + p2 (-49)) < bval (fst p).
Proof.
  exists (b64_lit 4 1), (b64_lit 8 1), (b64_lit 2 1). eexists.
  exists (match bi_rectangle_zoned_nested (b64_lit 4 1) (b64_lit 8 1) (b64_lit 2 1) (b64_lit 2 1) (b64_lit 2 1) with Ok (d :: _) => d | _ => [] end).
  exists (match bi_rectangle_zoned_nested (b64_lit 4 1) (b64_lit 8 1) (b64_lit 2 1) (b64_lit 2 1) (b64_lit 2 1) with Ok (d :: _) => nth 12 d [] | _ => [] end).
  exists (b64_lit 8 1, b64_lit 4 1).
  assert (V : bval (b64_lit 4 1) = 4 /\ bval (b64_lit 8 1) = 8 /\ bval (b64_lit 2 1) = 2).
  { set (a := b64_lit 4 1). set (b := b64_lit 8 1). set (c := b64_lit 2 1). vm_compute in a, b, c. subst a b c. cbn [bval].
    rewrite !p2_neg by lia. cbn [Z.opp Z.pow Z.pow_pos Pos.iter Z.mul Pos.mul]. lra. }
  destruct V as (V1 & V2 & V3). split.
  { split; [repeat split; vm_compute; reflexivity|]. rewrite V1, V2, V3. split; [repeat split; apply moderate; lra|].
    assert (E30 : p2 30 = 1073741824) by (rewrite p2_Z by lia; reflexivity). assert (E50 : p2 50 = 1125899906842624) by (rewrite p2_Z by lia; reflexivity). rewrite E30, E50. lra. }
  split; [vm_compute; reflexivity|]. split; [vm_compute; tauto|]. split; [vm_compute; tauto|]. split; [vm_compute; tauto|].
  cbn [fst]. rewrite V1, V2, p2_neg by lia. cbn [Z.opp Z.pow Z.pow_pos Pos.iter Z.mul Pos.mul]. lra.
Qed.

(** ** C116: bi-zoned designs *)
Section Designs64.
Variable build : list (b64 * b64) -> F64 -> res unit.
Variable excess : list (b64 * b64) -> F64 -> res b64.    (* excess temperature of a field at a height: any double, infinities and nan included *)
Variable sized : list (b64 * b64) -> res F64.
Variable minH maxH : F64.
Notation design := (design build (sim64 _ excess) sized minH maxH).

Lemma bi_zoned_eq64 gc lx ly bmin bmax_x bmax_y H : gc_length gc = Some lx -> gc_width gc = Some ly -> gc_B_min gc = Some bmin ->
  gc_B_max_x gc = Some bmax_x -> gc_B_max_y gc = Some bmax_y ->
  design gc bi_zoned H = let! dd := bi_rectangle_zoned_nested lx ly bmin bmax_x bmax_y in bisection_zd build (sim64 _ excess) sized minH maxH dd H.
Proof.
  intros E1 E2 E3 E4 E5. unfold Design.design, design_init, check_inputs, not_none, number. rewrite E1, E2, E3, E4, E5. cbn [assert_ bind].
  destruct (bi_rectangle_zoned_nested lx ly bmin bmax_x bmax_y); reflexivity.
Qed.
(** the selected field: on the land, not closer than the minimum spacing, left at its sized height; its excess at the maximum height is not above zero.
    For land at least as wide as deep. *)
Theorem C116_bi_zoned_design_partial :
  forall gc lx ly bmin bmax_x bmax_y H r s', gc_length gc = Some lx -> gc_width gc = Some ly -> gc_B_min gc = Some bmin ->
  gc_B_max_x gc = Some bmax_x -> gc_B_max_y gc = Some bmax_y ->
  ordinary_lengths lx ly bmin bmax_x -> ordinary_lengths lx ly bmin bmax_y -> bval ly <= bval lx -> design gc bi_zoned H = Ok (r, s') ->
  exists k c h x, r = Some (k, c) /\ sized c = Ok h /\ ghe _ s' = (c, h) /\ (1 <= length c)%nat /\
    inside (bval lx * (1 + p2 (-49))) (bval ly * (1 + p2 (-49))) (real_field c) /\ separated (bval bmin * (1 - p2 (-16))) (real_field c) /\
    excess c maxH = Ok x /\ (x = S754_infinity true \/ finite64 x = true /\ bval x <= 0).
Proof.
  intros gc lx ly bmin bx by_ H r s' E1 E2 E3 E4 E5 HO1 HO2 Hl E. rewrite (bi_zoned_eq64 gc lx ly bmin bx by_ H E1 E2 E3 E4 E5) in E.
  apply bind_ok in E as (dd & Ed & E). apply bisection_zd_ok in E as (ko & k & c & s & -> & Ht & E).
  destruct (C33_least_drilling_visited _ build (sim64 _ excess) sized zlen minH maxH dd 15 s s' ko k c E Ht) as (outer & k0 & co & vs & X). cbv zeta in X.
  destruct X as (_ & _ & _ & _ & _ & _ & _ & _ & v & d & _ & _ & _ & _ & En & _ & Ec & (x & Ex & Hx) & (h & Eh & Eg) & _).
  destruct (C118_bi_zoned_land_partial lx ly bmin bx by_ dd d c HO1 HO2 Hl Ed (nth_error_In _ _ En) (nth_error_In _ _ Ec)) as (Z1 & I1 & I2).
  unfold sim64 in Ex. destruct (excess c maxH) as [y|] eqn:Ey; cbn [bind] in Ex; [|discriminate]. assert (classify y = x) by congruence. subst x.
  exists k, c, h, y. split; [reflexivity|]. split; [exact Eh|]. split; [exact Eg|]. split; [unfold zlen in Z1; lia|]. split; [exact I1|]. split; [exact I2|]. split; [exact Ey|].
  unfold classify in Hx. destruct (bool_dec (finite64 y) true) as [Fy|Fy].
  - right. destruct Hx as [Hx|(q & Eq & Hq)]; [discriminate|]. injection Eq as <-. split; [exact Fy|exact Hq].
  - left. destruct Hx as [Hx|(q & Eq & Hq)]; [|destruct y as [|[]| |]; discriminate]. destruct y as [|[]| |]; try discriminate. reflexivity.
Qed.

(** a design is found if every candidate can be evaluated and sized, the densest grid is enough at the maximum height and no domain begins with a
    field that is enough at the minimum height *)
Theorem C116_bi_zoned_succeeds_partial :
  forall gc lx ly bmin bmax_x bmax_y H dd dd' dl a cl, gc_length gc = Some lx -> gc_width gc = Some ly -> gc_B_min gc = Some bmin ->
  gc_B_max_x gc = Some bmax_x -> gc_B_max_y gc = Some bmax_y ->
  ordinary_lengths lx ly bmin bmax_x -> ordinary_lengths lx ly bmin bmax_y ->
  bi_rectangle_zoned_nested lx ly bmin bmax_x bmax_y = Ok dd -> dd = dd' ++ [dl] -> dl = a ++ [cl] ->
  (forall f h, In f (concat dd) -> build f h = Ok tt) ->
  (forall f, In f (concat dd) -> exists x, excess f maxH = Ok x /\ finite64 x = true /\ bval x <> 0) ->
  (forall d f, In d dd -> nth_error d 0 = Some f -> above excess f minH) ->
  below excess cl maxH ->
  (forall f, In f (concat dd) -> exists h, sized f = Ok h) ->
  exists k c s', design gc bi_zoned H = Ok (Some (k, c), s').
Proof.
  intros gc lx ly bmin bx by_ H dd dd' dl a cl E1 E2 E3 E4 E5 HO1 HO2 Ed Edd Edl Hb Hx Hf Hlast Hsz.
  rewrite (bi_zoned_eq64 gc lx ly bmin bx by_ H E1 E2 E3 E4 E5), Ed. cbn [bind].
  assert (Hne : forall d, In d dd -> d <> []). { intros d Hd ->. destruct (C118_bi_zoned_grows lx ly bmin bx by_ dd [] HO1 HO2 Ed Hd) as [_ X]. cbn in X. lia. }
  assert (Hcc : forall d f, In d dd -> In f d -> In f (concat dd)) by (intros d f A B; apply in_concat; eauto).
  assert (Hd0 : exists d0 c00, nth_error dd 0 = Some d0 /\ nth_error d0 0 = Some c00).
  { destruct dd as [|d0 r]; [destruct dd'; discriminate|]. exists d0. destruct d0 as [|c00 r0]; [exfalso; apply (Hne []); [now left|reflexivity]|]. exists c00. auto. }
  destruct Hd0 as (d0 & c00 & E0 & E00). pose proof (nth_error_In _ _ E0) as I0. pose proof (nth_error_In _ _ E00) as I00.
  assert (El : nth_error dd (length dd - 1) = Some dl). { rewrite Edd, app_length. cbn [length]. replace (length dd' + 1 - 1)%nat with (length dd') by lia. rewrite nth_error_app2, Nat.sub_diag by lia. reflexivity. }
  unfold bisection_zd, base_init. rewrite (proj2 (py_nth_nonneg dd 0 d0 ltac:(lia)) E0). cbn [bind].
  rewrite (proj2 (py_nth_nonneg d0 0 c00 ltac:(lia)) E00). cbn [bind]. rewrite (Hb c00 H) by (eapply Hcc; eauto). cbn [bind].
  match goal with |- context [search_zd _ _ _ _ _ _ _ ?n ?mi ?s] =>
    destruct (C106_successive_search_succeeds _ build (sim64 _ excess) sized zlen minH maxH n mi s c00 d0 dl cl) as (ko & k & c & s' & E) end;
    [reflexivity|exact E0|exact E00|exact El|apply py_nth_last; eauto| | | | |].
  - intros d Hd. split; [now apply Hne|]. intros c h Hc Hh. split; [exists tt; apply Hb; eapply Hcc; eauto|]. destruct Hh as [->|(-> & H0)].
    + destruct (Hx c) as (x & Ex & Fx & Nx); [eapply Hcc; eauto|]. exists (Fin (exist _ x Fx)). split; [now apply sim64_fin|].
      destruct (Rtotal_order (bval x) 0) as [L|[L|L]]; [right|contradiction|left]; exists (exist _ x Fx); (split; [reflexivity|exact L]).
    + destruct (Hf d c Hd H0) as (x & Ex & Fx & Px). exists (Fin (exist _ x Fx)). split; [now apply sim64_fin|]. left. exists (exist _ x Fx). split; [reflexivity|exact Px].
  - intros d f Hd Hf0. destruct (Hf d f Hd Hf0) as (x & Ex & Fx & Px). exists (Fin (exist _ x Fx)). split; [now apply sim64_fin|]. exists (exist _ x Fx). split; [reflexivity|exact Px].
  - right. destruct Hlast as (x & Ex & Fx & Px). exists (Fin (exist _ x Fx)). split; [now apply sim64_fin|]. exists (exist _ x Fx). split; [reflexivity|exact Px].
  - intros d c x Hd Hc _ _. apply Hsz. eapply Hcc; eauto.
  - exists k, c, s'. rewrite E. reflexivity.
Qed.
End Designs64.

(** heights from 20 m to 135 m; a field of n boreholes of height h has the excess (demand / 10 - n h / 135) / 10 *)
Definition by_drilling64 (demand : Z) (c : list (b64 * b64)) (H : F64) : res b64 := Ok (ndivr (nsub (b64_lit demand 10) (ndivr (nmul (nofZ (zlen c)) (proj1_sig H)) (nofZ 135))) (nofZ 10)).
Definition yard64 : @constraints b64 :=
  {| gc_length := Some (b64_lit 441 10); gc_width := Some (b64_lit 203 10); gc_B := None;
     gc_B_min := Some (b64_lit 41 10); gc_B_max_x := Some (b64_lit 59 10); gc_B_max_y := Some (b64_lit 59 10) |}.
Definition chosen_zoned64 (demand : Z) : res (option (Z * Z)) :=
  let! o := design (fun _ _ => Ok tt) (sim64 _ (by_drilling64 demand)) (fun _ => Ok (nofZ 60)) (nofZ 20) (nofZ 135) yard64 bi_zoned (nofZ 100) in
  Ok (match fst o with Some (k, c) => Some (k, zlen c) | None => None end).
Example C116_zoned_example : map chosen_zoned64 [105; 235; 335; 365; 465; 515; 565; 0]%Z =
  [Ok (Some (10, 11)); Ok (Some (23, 24)); Ok (Some (29, 34)); Ok (Some (31, 38)); Ok (Some (9, 50)); Ok (Some (10, 55)); Err ValueError; Err ValueError]%Z.
Proof. vm_compute. reflexivity. Qed.
(** the hypotheses of the last theorem for a demand of 36.5 *)
Example C116_zoned_hypotheses : exists dd dd' dl a cl,
  bi_rectangle_zoned_nested (b64_lit 441 10) (b64_lit 203 10) (b64_lit 41 10) (b64_lit 59 10) (b64_lit 59 10) = Ok dd /\ dd = dd' ++ [dl] /\ dl = a ++ [cl] /\
  (forall f, In f (concat dd) -> exists x, by_drilling64 365 f (nofZ 135) = Ok x /\ finite64 x = true /\ bval x <> 0) /\
  (forall d f, In d dd -> nth_error d 0 = Some f -> above (by_drilling64 365) f (nofZ 20)) /\
  below (by_drilling64 365) cl (nofZ 135).
Proof.
  destruct (bi_rectangle_zoned_nested (b64_lit 441 10) (b64_lit 203 10) (b64_lit 41 10) (b64_lit 59 10) (b64_lit 59 10)) as [dd|] eqn:E; [|vm_compute in E; discriminate].
  assert (X : map sizes dd = [zrange 1 30 ++ [34; 36; 38; 45]; zrange 27 33 ++ [38; 40; 42; 50]; zrange 29 36 ++ [42; 44; 46; 55]]%Z).
  { assert (Y : (let! dd := bi_rectangle_zoned_nested (b64_lit 441 10) (b64_lit 203 10) (b64_lit 41 10) (b64_lit 59 10) (b64_lit 59 10) in Ok (map sizes dd)) =
      Ok [zrange 1 30 ++ [34; 36; 38; 45]; zrange 27 33 ++ [38; 40; 42; 50]; zrange 29 36 ++ [42; 44; 46; 55]]%Z) by (vm_compute; reflexivity).
    rewrite E in Y. cbn [bind] in Y. now injection Y as Y. }
  clear E. destruct dd as [|d0 [|d1 [|d2 [|? ?]]]]; try discriminate X.
  assert (X0 : sizes d0 = zrange 1 30 ++ [34; 36; 38; 45]%Z) by exact (f_equal (fun l => nth 0 l []) X). assert (X1 : sizes d1 = zrange 27 33 ++ [38; 40; 42; 50]%Z) by exact (f_equal (fun l => nth 1 l []) X).
  assert (X2 : sizes d2 = zrange 29 36 ++ [42; 44; 46; 55]%Z) by exact (f_equal (fun l => nth 2 l []) X). clear X.
  assert (L : exists a cl, d2 = a ++ [cl] /\ zlen cl = 55%Z).
  { destruct (rev d2) as [|x xs] eqn:R; apply (f_equal (@rev _)) in R; rewrite rev_involutive in R; cbn in R; subst d2; [destruct (zrange 29 36); discriminate X2|].
    exists (rev xs), x. split; [reflexivity|]. unfold sizes in X2. rewrite map_app in X2. change [42; 44; 46; 55]%Z with ([42; 44; 46] ++ [55])%Z in X2. rewrite app_assoc in X2.
    apply app_inj_tail in X2 as [_ X2]. exact X2. }
  destruct L as (a & cl & -> & Lc). exists [d0; d1; a ++ [cl]], [d0; d1], (a ++ [cl]), a, cl. split; [reflexivity|]. split; [reflexivity|]. split; [reflexivity|].
  set (ex := fun (n : Z) (H : F64) => ndivr (nsub (b64_lit 365 10) (ndivr (nmul (nofZ n) (proj1_sig H)) (nofZ 135))) (nofZ 10) : b64).
  assert (Z0 : finite64 (S754_zero false) = true) by reflexivity.
  assert (T : forall n, (1 <= n <= 55)%Z -> finite64 (ex n (nofZ 135)) = true /\ bval (ex n (nofZ 135)) <> 0).
  { assert (A : forallb (fun n => finite64 (ex n (nofZ 135)) && (SFltb (ex n (nofZ 135)) (S754_zero false) || SFltb (S754_zero false) (ex n (nofZ 135))))%bool (zrange 1 56) = true) by (vm_compute; reflexivity).
    intros n Hn. rewrite forallb_forall in A. specialize (A n ltac:(apply in_zrange; lia)). apply andb_prop in A as (A & B). split; [exact A|].
    apply orb_prop in B as [B|B]; apply SFltb_iff in B; auto; change (bval (S754_zero false)) with 0 in B; lra. }
  split; [|split].
  - intros f Hf. exists (ex (zlen f) (nofZ 135)). split; [reflexivity|]. apply T.
    assert (Hs : forall d, In d [d0; d1; a ++ [cl]] -> forall z, In z (sizes d) -> (1 <= z <= 55)%Z).
    { intros d Hd z Hz. destruct Hd as [<-|[<-|[<-|[]]]]; [rewrite X0 in Hz|rewrite X1 in Hz|rewrite X2 in Hz]; apply in_app_iff in Hz as [Hz|Hz]; try (apply in_zrange in Hz; lia); cbn in Hz; lia. }
    apply in_concat in Hf as (d & Hd & Hf). apply (Hs d Hd). apply (in_map (fun f => Z.of_nat (length f))). exact Hf.
  - intros d f Hd H0. assert (Hz : (zlen f = 1 \/ zlen f = 27 \/ zlen f = 29)%Z).
    { destruct Hd as [<-|[<-|[<-|[]]]]; [left|right; left|right; right]; apply sizes_nth in H0; [rewrite X0 in H0|rewrite X1 in H0|rewrite X2 in H0]; injection H0 as H0; symmetry; exact H0. }
    exists (ex (zlen f) (nofZ 20)). split; [reflexivity|].
    destruct Hz as [->|[->| ->]]; (split; [vm_compute; reflexivity|]); change 0 with (bval (S754_zero false)); apply SFltb_iff; vm_compute; reflexivity.
  - exists (ex (zlen cl) (nofZ 135)). split; [reflexivity|]. rewrite Lc. split; [vm_compute; reflexivity|]. change 0 with (bval (S754_zero false)); apply SFltb_iff; vm_compute; reflexivity.
Qed.

Print Assumptions C117_zoned_domain.
Print Assumptions C117_zoned_steps.
Print Assumptions C117_zoned_land.
Print Assumptions C118_bi_zoned_candidates.
Print Assumptions C118_bi_zoned_grows.
Print Assumptions C118_bi_zoned_land_partial.
Print Assumptions C118_bi_zoned_deep_land_partial.
Print Assumptions C118_bi_zoned_land_refuted.
Print Assumptions C116_bi_zoned_design_partial.
Print Assumptions C116_bi_zoned_succeeds_partial.
