(** Properties C108 (the table of the peak analysis) and C109 (tick marks) *)
From Coq Require Import String ZArith QArith List Bool Sorted Reals Lia Lra.
From Verif Require Import Base Num BaseLemmas Spec Loads LoadsSpec LoadsProofs LoadsSim LoadsHybrid Properties_Loads Report.
Import ListNotations.
Open Scope string_scope.
Open Scope Z_scope.

(** the calendar *)
Definition calendar : list string :=
  ["January"; "February"; "March"; "April"; "May"; "June"; "July"; "August"; "September"; "October"; "November"; "December"].

(** C108: month numbers and names correspond one to one *)
Theorem C108_month_names :
  (forall i name, 1 <= i <= 12 -> nth_error calendar (Z.to_nat (i - 1)) = Some name -> number_to_month i = Ok (Some name)) /\
  (forall i, i < 1 \/ 12 < i -> number_to_month i = Ok None) /\
  forall i name, monthindex name = Some i <-> number_to_month i = Ok (Some name).
Proof.
  assert (A : forall i name, 1 <= i <= 12 -> nth_error calendar (Z.to_nat (i - 1)) = Some name -> number_to_month i = Ok (Some name) /\ monthindex name = Some i).
  { intros i name Hi E. assert (D : i = 1 \/ i = 2 \/ i = 3 \/ i = 4 \/ i = 5 \/ i = 6 \/ i = 7 \/ i = 8 \/ i = 9 \/ i = 10 \/ i = 11 \/ i = 12) by lia.
    repeat (destruct D as [-> |D]; [injection E as <-; split; reflexivity|]). subst i. injection E as <-. split; reflexivity. }
  assert (B : forall i, i < 1 \/ 12 < i -> number_to_month i = Ok None).
  { intros i Hi. unfold number_to_month. replace ((i <=? 12) && (0 <? i)) with false; [reflexivity|]. symmetry. apply andb_false_iff.
    destruct Hi; [right; apply Z.ltb_ge|left; apply Z.leb_gt]; lia. }
  split; [intros i name Hi E; exact (proj1 (A i name Hi E))|]. split; [exact B|]. intros i name. split.
  - unfold monthindex. intro E. destruct (dict_get months name) as [j|] eqn:G; [|discriminate]. injection E as ->. revert G. unfold months. cbn [dict_get].
    repeat match goal with |- context [String.eqb name ?s] => destruct (String.eqb_spec name s) as [-> |_]; [intro G; injection G as <-; reflexivity|] end. discriminate.
  - intro E. assert (Hi : 1 <= i <= 12 \/ (i < 1 \/ 12 < i)) by lia. destruct Hi as [Hi|Hi]; [|rewrite (B i Hi) in E; discriminate].
    destruct (nth_error calendar (Z.to_nat (i - 1))) as [n|] eqn:En.
    + destruct (A i n Hi En) as (E1 & E2). assert (n = name) as -> by congruence. exact E2.
    + apply nth_error_None in En. cbn in En. lia.
Qed.

(** the value of the table in the row and column of the given labels *)
Definition cell {F} (df : table F) (row : string) (column : string * string) (v : F) : Prop :=
  exists i j r, nth_error (df_rows df) i = Some row /\ nth_error (df_columns df) j = Some column /\ nth_error (df_values df) i = Some r /\ nth_error r j = Some v.

(** an entry for every month, and one before January *)
Definition twelve_months {F} (ld : loads F) : Prop :=
  (length (ld_total ld) = 13 /\ length (ld_peak ld) = 13 /\ length (ld_average ld) = 13 /\ length (ld_peak_day ld) = 13 /\ length (ld_duration ld) = 13)%nat.

Section Generic.
Context {F : Type} {N : Num F}.

Lemma thirteen {A} (l : list A) : length l = 13%nat -> exists a b c d e f g h i j k m n, l = [a; b; c; d; e; f; g; h; i; j; k; m; n].
Proof.
  intro L. do 13 (destruct l as [|? l]; [cbn in L; lia|]). destruct l; [|cbn in L; lia].
  repeat eexists.
Qed.

Ltac cellx n j := exists n, j; eexists; split; [reflexivity|split; [reflexivity|split; reflexivity]].
Ltac cells n k := do 5 eexists; split; [reflexivity|split; [cellx n k|split; [reflexivity|split; [cellx n (2 + k)%nat|split; [reflexivity|split; [cellx n (4 + k)%nat|
  split; [reflexivity|split; [cellx n (6 + k)%nat|split; [reflexivity|cellx n (8 + k)%nat]]]]]]]]].

(** C108: the table has a row for every month and a column for every quantity of either kind of load, and its cells are the entries of the
    tables of that kind of load for that month *)
Theorem C108_table :
  forall cl hl : loads F, twelve_months cl -> twelve_months hl ->
  exists df, create_dataframe_of_peak_analysis cl hl = Ok df /\ df_rows df = calendar /\ NoDup (df_columns df) /\ length (df_columns df) = 10%nat /\
  forall i month kind ld, 1 <= i <= 12 -> nth_error calendar (Z.to_nat (i - 1)) = Some month -> (kind = "rejection" /\ ld = cl \/ kind = "extraction" /\ ld = hl) ->
  exists total peak average day duration,
    nth_error (ld_total ld) (Z.to_nat i) = Some total /\ cell df month ("Total", kind) total /\
    nth_error (ld_peak ld) (Z.to_nat i) = Some peak /\ cell df month ("Peak", kind) peak /\
    nth_error (ld_average ld) (Z.to_nat i) = Some average /\ cell df month ("Average", kind) average /\
    nth_error (ld_peak_day ld) (Z.to_nat i) = Some day /\ cell df month ("Peak Day", kind) (nofZ day) /\
    nth_error (ld_duration ld) (Z.to_nat i) = Some duration /\ cell df month ("Peak Duration", kind) duration.
Proof.
  intros [h1 t1 p1 a1 d1 tw1 k1 n1 du1] [h2 t2 p2 a2 d2 tw2 k2 n2 du2] (L1 & L2 & L3 & L4 & L5) (M1 & M2 & M3 & M4 & M5). cbn [ld_total ld_peak ld_average ld_peak_day ld_duration] in *.
  destruct (thirteen _ L1) as (? & ? & ? & ? & ? & ? & ? & ? & ? & ? & ? & ? & ? & ->). destruct (thirteen _ L2) as (? & ? & ? & ? & ? & ? & ? & ? & ? & ? & ? & ? & ? & ->).
  destruct (thirteen _ L3) as (? & ? & ? & ? & ? & ? & ? & ? & ? & ? & ? & ? & ? & ->). destruct (thirteen _ L4) as (? & ? & ? & ? & ? & ? & ? & ? & ? & ? & ? & ? & ? & ->).
  destruct (thirteen _ L5) as (? & ? & ? & ? & ? & ? & ? & ? & ? & ? & ? & ? & ? & ->). destruct (thirteen _ M1) as (? & ? & ? & ? & ? & ? & ? & ? & ? & ? & ? & ? & ? & ->).
  destruct (thirteen _ M2) as (? & ? & ? & ? & ? & ? & ? & ? & ? & ? & ? & ? & ? & ->). destruct (thirteen _ M3) as (? & ? & ? & ? & ? & ? & ? & ? & ? & ? & ? & ? & ? & ->).
  destruct (thirteen _ M4) as (? & ? & ? & ? & ? & ? & ? & ? & ? & ? & ? & ? & ? & ->). destruct (thirteen _ M5) as (? & ? & ? & ? & ? & ? & ? & ? & ? & ? & ? & ? & ? & ->).
  eexists. split; [vm_compute; reflexivity|]. cbn [df_rows df_columns df_values]. split; [reflexivity|]. split.
  { repeat constructor; cbn; intuition discriminate. }
  split; [reflexivity|]. intros i month kind ld Hi En Hk.
  assert (D : i = 1 \/ i = 2 \/ i = 3 \/ i = 4 \/ i = 5 \/ i = 6 \/ i = 7 \/ i = 8 \/ i = 9 \/ i = 10 \/ i = 11 \/ i = 12) by lia.
  destruct Hk as [(-> & ->)|(-> & ->)]; cbn [ld_total ld_peak ld_average ld_peak_day ld_duration].
  all: repeat (destruct D as [-> |D]; [injection En as <-|]); [..|subst i; injection En as <-].
  1: cells 0%nat 0%nat. 1: cells 1%nat 0%nat. 1: cells 2%nat 0%nat. 1: cells 3%nat 0%nat. 1: cells 4%nat 0%nat. 1: cells 5%nat 0%nat.
  1: cells 6%nat 0%nat. 1: cells 7%nat 0%nat. 1: cells 8%nat 0%nat. 1: cells 9%nat 0%nat. 1: cells 10%nat 0%nat. 1: cells 11%nat 0%nat.
  1: cells 0%nat 1%nat. 1: cells 1%nat 1%nat. 1: cells 2%nat 1%nat. 1: cells 3%nat 1%nat. 1: cells 4%nat 1%nat. 1: cells 5%nat 1%nat.
  1: cells 6%nat 1%nat. 1: cells 7%nat 1%nat. 1: cells 8%nat 1%nat. 1: cells 9%nat 1%nat. 1: cells 10%nat 1%nat. cells 11%nat 1%nat.
Qed.
End Generic.

Open Scope R_scope.

(** C108: for the loads of a year the rows hold the sum, the largest and the mean load of the hours of that month, and the totals add up to the year *)
Theorem C108_year :
  forall gt1 k1 Rb1 gt2 k2 Rb2 year rejection extraction cl hl,
  make_loads gt1 k1 Rb1 year rejection = Ok cl -> make_loads gt2 k2 Rb2 year extraction = Ok hl ->
  exists df : table R, create_dataframe_of_peak_analysis cl hl = Ok df /\ df_rows df = calendar /\
  forall kind hourly, (kind = "rejection" /\ hourly = rejection \/ kind = "extraction" /\ hourly = extraction) ->
  (forall i month, (1 <= i <= 12)%Z -> nth_error calendar (Z.to_nat (i - 1)) = Some month -> exists p,
     cell df month ("Total", kind) (Rsum (month_of year hourly i)) /\ cell df month ("Peak", kind) p /\ is_max p (month_of year hourly i) /\
     cell df month ("Average", kind) (Rsum (month_of year hourly i) / IZR (24 * days_of year i))) /\
  concat (map (month_of year hourly) [1; 2; 3; 4; 5; 6; 7; 8; 9; 10; 11; 12]%Z) = hourly.
Proof.
  intros gt1 k1 Rb1 gt2 k2 Rb2 year rj ex cl hl E1 E2.
  assert (T : forall gt k Rb (h : list R) ld, make_loads gt k Rb year h = Ok ld -> twelve_months ld).
  { intros gt k Rb h ld E. destruct (C37_of_loads _ _ _ _ _ _ E) as (_ & L & S). destruct (C37_monthly_analysis year h L) as (ts & ps & avs & ds & S' & A1 & A2 & A3 & A4 & _).
    assert (X : (ts, ps, avs, ds) = (ld_total ld, ld_peak ld, ld_average ld, ld_peak_day ld)) by congruence. injection X as -> -> -> ->.
    destruct (two_day_tables _ _ _ _ _ _ E) as (_ & L5 & _). unfold twelve_months. auto. }
  destruct (C108_table cl hl (T _ _ _ _ _ E1) (T _ _ _ _ _ E2)) as (df & Ed & Er & _ & _ & C). exists df. split; [exact Ed|]. split; [exact Er|].
  assert (K : forall kind (hourly : list R) gt k Rb ld, make_loads gt k Rb year hourly = Ok ld -> (kind = "rejection" /\ ld = cl \/ kind = "extraction" /\ ld = hl) ->
    (forall i month, (1 <= i <= 12)%Z -> nth_error calendar (Z.to_nat (i - 1)) = Some month -> exists p,
     cell df month ("Total", kind) (Rsum (month_of year hourly i)) /\ cell df month ("Peak", kind) p /\ is_max p (month_of year hourly i) /\
     cell df month ("Average", kind) (Rsum (month_of year hourly i) / IZR (24 * days_of year i))) /\
    concat (map (month_of year hourly) [1; 2; 3; 4; 5; 6; 7; 8; 9; 10; 11; 12]%Z) = hourly).
  { intros kind h gt k Rb ld E Hk. destruct (C37_of_loads _ _ _ _ _ _ E) as (_ & L & S). split; [|exact (proj1 (C37_months_partition_the_year year h L))].
    intros i month Hi En. destruct (C37_monthly_analysis year h L) as (ts & ps & avs & ds & S' & _ & _ & _ & _ & M & _).
    assert (X : (ts, ps, avs, ds) = (ld_total ld, ld_peak ld, ld_average ld, ld_peak_day ld)) by congruence. injection X as -> -> -> ->.
    destruct (M i Hi) as (p & N1 & N2 & Mx & N3). destruct (C i month kind ld Hi En Hk) as (t & p' & a & d & du & B1 & D1 & B2 & D2 & B3 & D3 & _).
    exists p. replace (Rsum (month_of year h i)) with t at 1 by congruence. replace p with p' in * by congruence.
    replace (Rsum (month_of year h i) / IZR (24 * days_of year i)) with a by congruence. auto. }
  intros kind hourly [(-> & ->)|(-> & ->)]; eapply K; eauto.
Qed.

(** a year of one kilowatt throughout, both as rejection and as extraction *)
Example C108_example : exists (ld : loads R) (df : table R), create_dataframe_of_peak_analysis ld ld = Ok df /\ cell df "February" ("Average", "extraction") 1.
Proof.
  destruct C40_example as (ld & E & _). destruct (C108_year _ _ _ _ _ _ _ _ _ _ _ E E) as (df & Ed & _ & C). exists ld, df. split; [exact Ed|].
  destruct (C "extraction" _ (or_intror (conj eq_refl eq_refl))) as (D & _). destruct (D 2%Z "February" ltac:(lia) eq_refl) as (p & _ & _ & _ & A).
  assert (L : Z.of_nat (length (repeat 1 (Z.to_nat 8760))) = (24 * days_in_year 2019)%Z) by (rewrite repeat_length; reflexivity).
  assert (S : forall n, Rsum (repeat 1 n) = INR n) by (induction n as [|n IH]; [reflexivity|change (1 + Rsum (repeat 1 n) = INR (S n)); rewrite IH, S_INR; lra]).
  assert (Hr : forall l : list R, (forall x, In x l -> x = 1) -> l = repeat 1 (length l)).
  { induction l as [|x l IH]; intro H; [reflexivity|]. cbn. rewrite (H x (or_introl eq_refl)), <- IH; [reflexivity|]. intros y Hy. apply H. right. exact Hy. }
  destruct (C37_months_partition_the_year 2019 _ L) as (Cc & Ln). specialize (Ln 2%Z ltac:(lia)).
  rewrite (Hr (month_of 2019 (repeat 1 (Z.to_nat 8760)) 2)), S in A.
  - rewrite INR_IZR_INZ, Ln in A. replace (IZR (24 * days_of 2019 2) / IZR (24 * days_of 2019 2)) with 1 in A; [exact A|]. change (24 * days_of 2019 2)%Z with 672%Z. lra.
  - intros x Hx. assert (I : In x (repeat 1 (Z.to_nat 8760))).
    { rewrite <- Cc. apply in_concat. exists (month_of 2019 (repeat 1 (Z.to_nat 8760)) 2). split; [|exact Hx]. apply in_map. cbn. tauto. }
    apply repeat_spec in I. exact I.
Qed.

(** * C109 *)
(** a and b follow each other in the list *)
Definition adjacent (l : list R) (a b : R) : Prop := exists l1 l2, l = (l1 ++ a :: b :: l2)%list.
(** the number of parts of the interval between the ticks a and b: one less outside the linear range *)
Definition parts_of (th : R) (n : Z) (a b : R) (parts : Z) : Prop :=
  Rabs ((a + b) / 2) < th /\ parts = n \/ th <= Rabs ((a + b) / 2) /\ parts = (n - 1)%Z.
(** x is one of the points that divide the interval from a to b into equal parts *)
Definition divides (a b : R) (parts : Z) (x : R) : Prop := exists k, (0 < k < parts)%Z /\ x = a + IZR k * ((b - a) / IZR parts).

Lemma body_ok th n a b : (2 <= n)%Z -> a <> b -> exists parts locs, parts_of th n a b parts /\ (1 <= parts)%Z /\ minor_body th (IZR n) a b = Ok locs /\
  locs = map (fun k => a + IZR k * ((b - a) / IZR parts)) (zrange 1 parts).
Proof.
  intros Hn Hab. unfold minor_body. cbn [nsub nofZ nadd nlt nabs NumR]. rewrite pydiv_R by lra. cbn [bind].
  replace (a + (b - a) / 2) with ((a + b) / 2) by lra.
  assert (X : exists parts, (if Rlt_dec (Rabs ((a + b) / 2)) th then true else false) = (if Rlt_dec (Rabs ((a + b) / 2)) th then true else false) /\
    parts_of th n a b parts /\ (1 <= parts)%Z /\ (if (if Rlt_dec (Rabs ((a + b) / 2)) th then true else false) then IZR n else IZR n - 1) = IZR parts).
  { destruct (Rlt_dec (Rabs ((a + b) / 2)) th) as [L|L].
    - exists n. unfold parts_of. repeat split; auto. lia.
    - exists (n - 1)%Z. unfold parts_of. rewrite minus_IZR. repeat split; auto; [right; split; [lra|reflexivity]|lia]. }
  destruct X as (parts & _ & P1 & P2 & P3). rewrite P3. assert (Pp : 0 < IZR parts) by (apply IZR_lt; lia).
  rewrite pydiv_R by lra. cbn [bind]. unfold arange. cbn [nsub nofZ nadd nmul nceil NumR].
  assert (St : (b - a) / IZR parts <> 0). { intro Z0. apply Hab. apply (Rmult_eq_compat_r (IZR parts)) in Z0. unfold Rdiv in Z0. rewrite Rmult_assoc, Rinv_l in Z0; lra. }
  rewrite pydiv_R by exact St. cbn [bind]. replace ((b - a) / ((b - a) / IZR parts)) with (IZR parts) by (field; lra). rewrite Rceil_IZR. cbn [bind].
  exists parts. eexists. split; [exact P1|]. split; [exact P2|]. split; [reflexivity|].
  unfold zrange. replace (Z.to_nat (parts - 0)) with (S (Z.to_nat (parts - 1))) by lia. reflexivity.
Qed.

Lemma loop_ok th n l : (2 <= n)%Z -> (forall a b, adjacent l a b -> a <> b) ->
  exists ticks, minor_loop th (IZR n) l = Ok ticks /\ forall x, In x ticks <-> exists a b parts, adjacent l a b /\ parts_of th n a b parts /\ divides a b parts x.
Proof.
  intro Hn. induction l as [|a [|b r] IH]; intro H.
  - exists []. split; [reflexivity|]. intro x. split; [intros []|]. intros (a & b & p & (l1 & l2 & E) & _). destruct l1; discriminate.
  - exists []. split; [reflexivity|]. intro x. split; [intros []|]. intros (a' & b & p & (l1 & l2 & E) & _). destruct l1 as [|? [|]]; discriminate.
  - destruct IH as (ts & Et & It). { intros x y (l1 & l2 & E). apply H. exists (a :: l1), l2. rewrite E. reflexivity. }
    destruct (body_ok th n a b Hn) as (parts & locs & P1 & P2 & Eb & El). { apply H. exists [], r. reflexivity. }
    exists (locs ++ ts)%list. split; [cbn [minor_loop] in *; rewrite Eb; cbn [bind]; rewrite Et; reflexivity|].
    intro x. rewrite in_app_iff, It, El, in_map_iff. split.
    + intros [(k & Ek & Ik)|(a' & b' & p & (l1 & l2 & E) & Q1 & Q2)].
      * exists a, b, parts. split; [exists [], r; reflexivity|]. split; [exact P1|]. exists k. apply in_zrange in Ik. split; [lia|auto].
      * exists a', b', p. split; [exists (a :: l1), l2; rewrite E; reflexivity|auto].
    + intros (a' & b' & p & (l1 & l2 & E) & Q1 & k & Hk & Ek). destruct l1 as [|a0 l1].
      * injection E as <- <- _. left. exists k. assert (p = parts) as ->. { destruct Q1 as [(? & ->)|(? & ->)], P1 as [(? & ->)|(? & ->)]; auto; lra. }
        split; [auto|]. apply in_zrange. lia.
      * right. injection E as _ E. exists a', b', p. split; [exists l1, l2; exact E|]. split; [exact Q1|]. exists k. auto.
Qed.

Lemma sorted_adjacent l a b : StronglySorted Rlt l -> adjacent l a b -> a < b.
Proof.
  intros S (l1 & l2 & ->). induction l1 as [|x l1 IH]; cbn in S; inversion_clear S; auto. inversion_clear H0. assumption.
Qed.

Lemma loop_sorted th n l ticks : (2 <= n)%Z -> StronglySorted Rlt l -> minor_loop th (IZR n) l = Ok ticks ->
  StronglySorted Rlt ticks /\ forall a r, l = a :: r -> Forall (Rlt a) ticks.
Proof.
  intro Hn. revert ticks. induction l as [|a [|b r] IH]; intros ticks S E.
  - injection E as <-. split; [constructor|discriminate].
  - injection E as <-. split; [constructor|]. intros; constructor.
  - inversion_clear S as [|? ? S1 F1]. inversion_clear F1 as [|? ? Hab F2].
    destruct (body_ok th n a b Hn) as (parts & locs & P1 & P2 & Eb & El); [lra|]. cbn [minor_loop] in E. rewrite Eb in E. cbn [bind] in E.
    destruct (minor_loop th (IZR n) (b :: r)) as [ts|] eqn:Et; [|cbn [minor_loop] in Et; rewrite Et in E; discriminate].
    cbn [minor_loop] in Et. rewrite Et in E. injection E as <-. destruct (IH ts S1 eq_refl) as (St & Ft). specialize (Ft b r eq_refl).
    assert (Pp : 0 < IZR parts) by (apply IZR_lt; lia). set (step := (b - a) / IZR parts) in *.
    assert (Sp : 0 < step) by (apply Rdiv_lt_0_compat; lra). assert (Sb : a + IZR parts * step = b) by (unfold step; field; lra).
    assert (Fl : Forall (fun x => a < x < b) locs).
    { rewrite El. apply Forall_forall. intros x Hx. apply in_map_iff in Hx. destruct Hx as (k & <- & Ik). apply in_zrange in Ik.
      assert (0 < IZR k < IZR parts) by (split; apply IZR_lt; lia). assert (0 < IZR k * step) by (apply Rmult_lt_0_compat; lra).
      assert (IZR k * step < IZR parts * step) by (apply Rmult_lt_compat_r; lra). lra. }
    assert (Sl : StronglySorted Rlt locs).
    { rewrite El. clear - Sp. unfold zrange. generalize (Z.to_nat (parts - 1)). intro m. generalize 1%Z. induction m as [|m IH]; intro z; cbn [zseq map]; [constructor|].
      constructor; [apply IH|]. apply Forall_forall. intros x Hx. apply in_map_iff in Hx. destruct Hx as (k & <- & Ik).
      assert (z < k)%Z. { clear - Ik. assert (G : forall m' z' k', In k' (zseq z' m') -> (z' <= k')%Z) by (induction m' as [|m' IHm]; intros z' k'; cbn; [tauto|intros [<-|I]; [lia|apply IHm in I; lia]]). apply G in Ik. lia. }
      assert (IZR z < IZR k) by (apply IZR_lt; lia). assert (IZR z * step < IZR k * step) by (apply Rmult_lt_compat_r; lra). lra. }
    split.
    + clear El Eb. induction Sl as [|x l S2 IH2 F3]; cbn; [exact St|]. inversion_clear Fl as [|? ? Hx Fl']. constructor; [apply IH2; exact Fl'|].
      apply Forall_app. split; [exact F3|]. eapply Forall_impl; [|exact Ft]. cbn. intros; lra.
    + intros a0 r0 E0. injection E0 as <- _. apply Forall_app. split; [eapply Forall_impl; [|exact Fl]; cbn; intros; lra|].
      eapply Forall_impl; [|exact Ft]. cbn. intros; lra.
Qed.

Lemma cond_R (x y : R) : neqb x y = (if Req_EM_T x y then true else false).
Proof. unfold neqb. cbn [nle NumR]. destruct (Rle_dec x y), (Rle_dec y x), (Req_EM_T x y); cbn; auto; lra. Qed.

Lemma adjacent_snoc l u a b : adjacent (l ++ [u]) a b -> adjacent l a b \/ exists l', l = (l' ++ [a])%list /\ b = u.
Proof.
  intros (l1 & l2 & E). destruct (@exists_last _ (b :: l2)) as (l3 & y & E3); [discriminate|].
  rewrite E3 in E. replace (l1 ++ a :: l3 ++ [y])%list with ((l1 ++ a :: l3) ++ [y])%list in E by (rewrite <- app_assoc; reflexivity).
  apply app_inj_tail in E. destruct E as (-> & <-). destruct l3 as [|b' l3]; injection E3 as -> E3.
  - right. exists l1. auto.
  - left. exists l1, l3. reflexivity.
Qed.

Lemma sorted_snoc l u : StronglySorted Rlt l -> Forall (fun x => x < u) l -> StronglySorted Rlt (l ++ [u]).
Proof.
  induction 1 as [|x l S IH Fx]; intro H; cbn; [repeat constructor|]. inversion_clear H. constructor; [auto|]. apply Forall_app. split; [exact Fx|]. repeat constructor. assumption.
Qed.

(** the end of the interval added below the first major tick: a decade below if it is not zero or the threshold and the ticks are further apart than the
    threshold (or just that far, among negative ticks), otherwise the threshold further; and above the last *)
Definition added_below (th first second lower : R) : Prop :=
  let decade := first <> 0 /\ (first <> th /\ th < second - first \/ second - first = th /\ first < 0) in decade /\ lower = 10 * first \/ ~ decade /\ lower = first - th.
Definition added_above (th before last upper : R) : Prop :=
  let decade := last <> 0 /\ (Rabs last <> th /\ th < last - before \/ last - before = th /\ 0 < last) in decade /\ upper = 10 * last \/ ~ decade /\ upper = last + th.

Lemma ticks_loop th n majors m0 m1 mb ml : 0 < th -> (2 <= length majors)%nat ->
  nth_error majors 0 = Some m0 -> nth_error majors 1 = Some m1 -> nth_error majors (length majors - 2) = Some mb -> nth_error majors (length majors - 1) = Some ml ->
  exists lower upper, added_below th m0 m1 lower /\ added_above th mb ml upper /\ minor_ticks th n majors = minor_loop th n (lower :: majors ++ [upper])%list.
Proof.
  intros Ht L E0 E1 E2 El. unfold minor_ticks.
  replace (zlen majors =? 1)%Z with false by (symmetry; apply Z.eqb_neq; unfold zlen; lia).
  assert (N0 : py_nth majors 0 = Ok m0) by (apply py_nth_nonneg; [lia|exact E0]).
  assert (N1 : py_nth majors 1 = Ok m1) by (apply py_nth_nonneg; [lia|exact E1]).
  assert (Nl : py_nth majors (-1) = Ok ml).
  { rewrite py_nth_neg by (unfold zlen; lia). apply py_nth_nonneg; [unfold zlen; lia|]. rewrite <- El. f_equal. unfold zlen. lia. }
  assert (Nb : py_nth majors (-2) = Ok mb).
  { rewrite py_nth_neg by (unfold zlen; lia). apply py_nth_nonneg; [unfold zlen; lia|]. rewrite <- E2. f_equal. unfold zlen. lia. }
  rewrite N0, N1, Nl, Nb. cbn [bind].
  match goal with |- context [minor_loop _ _ (?lo :: majors ++ [?hi])] => set (lower := lo); set (upper := hi) end.
  assert (Lo : added_below th m0 m1 lower).
  { unfold added_below, lower. rewrite !cond_R. cbn [nsub nofZ nlt nmul NumR]. destruct (Req_EM_T m0 0), (Req_EM_T m0 th), (Rlt_dec th (m1 - m0)), (Req_EM_T (m1 - m0) th), (Rlt_dec m0 0);
    cbn [negb andb orb]; lra. }
  assert (Up : added_above th mb ml upper).
  { unfold added_above, upper. rewrite !cond_R. cbn [nsub nadd nofZ nlt nmul nabs NumR]. destruct (Req_EM_T ml 0), (Req_EM_T (Rabs ml) th), (Rlt_dec th (ml - mb)), (Req_EM_T (ml - mb) th), (Rlt_dec 0 ml);
    cbn [negb andb orb]; lra. }
  exists lower, upper. auto.
Qed.

(** C109: the minor ticks are exactly the points that divide the intervals between consecutive ticks into equal parts; the intervals are those
    between the major ticks and one on either side, up to ten times the outermost major tick or the threshold further *)
Theorem C109_ticks :
  forall th n majors first second before last, 0 < th -> (2 <= n)%Z -> StronglySorted Rlt majors -> (2 <= length majors)%nat ->
  nth_error majors 0 = Some first -> nth_error majors 1 = Some second ->
  nth_error majors (length majors - 2) = Some before -> nth_error majors (length majors - 1) = Some last ->
  exists lower upper ticks, minor_ticks th (IZR n) majors = Ok ticks /\ added_below th first second lower /\ added_above th before last upper /\
  (forall x, In x ticks <-> exists a b parts, adjacent (lower :: majors ++ [upper]) a b /\ parts_of th n a b parts /\ divides a b parts x) /\
  (first <= 0 <= last -> StronglySorted Rlt ticks).
Proof.
  intros th n majors m0 m1 mb ml Ht Hn S L E0 E1 E2 El. destruct (ticks_loop th (IZR n) majors m0 m1 mb ml Ht L E0 E1 E2 El) as (lower & upper & Lo & Up & ->). exists lower, upper.
  assert (Lo' : m0 <> 0 /\ lower = 10 * m0 \/ lower = m0 - th) by (unfold added_below in Lo; cbn zeta in Lo; tauto).
  assert (Up' : ml <> 0 /\ upper = 10 * ml \/ upper = ml + th) by (unfold added_above in Up; cbn zeta in Up; tauto).
  assert (Eh : exists r, majors = m0 :: r) by (destruct majors as [|x r]; [discriminate|exists r; cbn in E0; congruence]). destruct Eh as (r & Eh).
  assert (Et : exists r', majors = (r' ++ [ml])%list).
  { destruct (@exists_last _ majors) as (r' & y & E); [rewrite Eh; discriminate|]. exists r'. rewrite E in El |- *. rewrite app_length in El. cbn [length] in El.
    rewrite nth_error_app2 in El by lia. replace (length r' + 1 - 1 - length r')%nat with 0%nat in El by lia. cbn in El. congruence. }
  destruct Et as (r' & Et).
  destruct (loop_ok th n (lower :: majors ++ [upper]) Hn) as (ticks & Ek & It).
  { intros a b ([|x l1] & l2 & E).
    - rewrite Eh in E. injection E as -> -> _. lra.
    - injection E as _ E. assert (A : adjacent (majors ++ [upper]) a b) by (exists l1, l2; exact E). apply adjacent_snoc in A. destruct A as [A|(l' & A & ->)].
      + apply sorted_adjacent in A; [lra|exact S].
      + rewrite Et in A. apply app_inj_tail in A. destruct A as (_ & <-). lra. }
  exists ticks. split; [exact Ek|]. split; [exact Lo|]. split; [exact Up|]. split; [exact It|]. intros (H0 & Hl).
  refine (proj1 (loop_sorted th n _ ticks Hn _ Ek)).
  assert (Hlo : lower < m0) by lra. assert (Hup : ml < upper) by lra.
  assert (F1 : Forall (fun x => m0 <= x) majors).
  { rewrite Eh in S |- *. inversion_clear S as [|? ? ? F]. constructor; [lra|]. eapply Forall_impl; [|exact F]. cbn. intros; lra. }
  assert (F2 : Forall (fun x => x <= ml) majors).
  { rewrite Et in S |- *. clear - S. induction r' as [|x r' IH]; cbn in *; [repeat constructor; lra|]. inversion_clear S as [|? ? S1 F]. constructor; [|apply IH; exact S1].
    apply Forall_app in F. destruct F as (_ & F). inversion_clear F. lra. }
  constructor.
  - apply sorted_snoc; [exact S|]. eapply Forall_impl; [|exact F2]. cbn. intros; lra.
  - apply Forall_app. split; [eapply Forall_impl; [|exact F1]; cbn; intros; lra|]. repeat constructor.
    rewrite Forall_forall in F1. assert (In ml majors) by (rewrite Et; apply in_or_app; right; left; reflexivity). specialize (F1 ml H). lra.
Qed.

(** C109: minor ticks of an axis that reaches from negative (or zero) to positive (or zero) major ticks increase.  Partial: an axis of positive or of
    negative ticks only. *)
Theorem C109_increasing_partial :
  forall th n majors first last, 0 < th -> (2 <= n)%Z -> StronglySorted Rlt majors -> (2 <= length majors)%nat ->
  nth_error majors 0 = Some first -> nth_error majors (length majors - 1) = Some last -> first <= 0 <= last ->
  exists ticks, minor_ticks th (IZR n) majors = Ok ticks /\ StronglySorted Rlt ticks.
Proof.
  intros th n majors m0 ml Ht Hn S L E0 El H.
  destruct (nth_error majors 1) as [m1|] eqn:E1; [|apply nth_error_None in E1; lia]. destruct (nth_error majors (length majors - 2)) as [mb|] eqn:E2; [|apply nth_error_None in E2; lia].
  destruct (C109_ticks th n majors m0 m1 mb ml Ht Hn S L E0 E1 E2 El) as (lo & up & ticks & E & _ & _ & _ & Ss). exists ticks. auto.
Qed.

(** C109: with ten intervals a decade of the logarithmic range is marked at 2, 3, ..., 9 times its lower end *)
Theorem C109_decades :
  forall th majors a k, 0 < th -> StronglySorted Rlt majors -> adjacent majors a (10 * a) -> 0 < a -> th <= 11 / 2 * a -> (2 <= k <= 9)%Z ->
  exists ticks, minor_ticks th 10 majors = Ok ticks /\ In (IZR k * a) ticks.
Proof.
  intros th majors a k Ht S A Ha Hth Hk. assert (L : (2 <= length majors)%nat) by (destruct A as (l1 & l2 & ->); rewrite app_length; cbn; lia).
  destruct (nth_error majors 0) as [m0|] eqn:E0; [|apply nth_error_None in E0; lia].
  destruct (nth_error majors (length majors - 1)) as [ml|] eqn:El; [|apply nth_error_None in El; lia].
  destruct (nth_error majors 1) as [m1|] eqn:E1; [|apply nth_error_None in E1; lia].
  destruct (nth_error majors (length majors - 2)) as [mb|] eqn:E2; [|apply nth_error_None in E2; lia].
  destruct (C109_ticks th 10 majors m0 m1 mb ml Ht ltac:(lia) S L E0 E1 E2 El) as (lo & up & ticks & E & _ & _ & It & _). exists ticks. split; [exact E|]. apply It.
  exists a, (10 * a), 9%Z. split; [|split].
  - destruct A as (l1 & l2 & ->). exists (lo :: l1), (l2 ++ [up])%list. cbn. rewrite <- app_assoc. reflexivity.
  - right. split; [|reflexivity]. rewrite Rabs_right; lra.
  - exists (k - 1)%Z. split; [lia|]. rewrite minus_IZR. field.
Qed.

(** with the default intervals, between -1, 0, 1 and 10: tenths up to 1, then 2, 3, ..., 9 *)
Example C109_example : exists ticks, minor_ticks 1 10 [-1; 0; 1; 10] = Ok ticks /\ StronglySorted Rlt ticks /\ In 7 ticks.
Proof.
  assert (S : StronglySorted Rlt [-1; 0; 1; 10]) by (repeat constructor; lra).
  destruct (C109_ticks 1 10 [-1; 0; 1; 10] (-1) 0 1 10 ltac:(lra) ltac:(lia) S ltac:(cbn; lia) eq_refl eq_refl eq_refl eq_refl) as (lo & up & ticks & E & _ & _ & _ & Ss).
  destruct (C109_decades 1 [-1; 0; 1; 10] 1 7 ltac:(lra) S) as (ticks' & E' & I); try lra; try lia.
  { exists [-1; 0], []. cbn. repeat f_equal. lra. }
  exists ticks. split; [exact E|]. split; [apply Ss; lra|]. assert (ticks' = ticks) as <- by congruence. replace 7 with (7 * 1) by lra. exact I.
Qed.

(** that the ticks always increase is false: below the first of positive major ticks 1, 10 the interval added is from 10 back to 1, so the
    ticks from 2 to 9 are issued twice, and those below 1 are missing *)
Theorem C109_increasing_refuted :
  exists th n majors ticks, 0 < th /\ (2 <= n)%Z /\ StronglySorted Rlt majors /\ (2 <= length majors)%nat /\ minor_ticks th (IZR n) majors = Ok ticks /\
  ~ StronglySorted Rlt ticks /\ forall x, In x ticks -> 1 < x.
Proof.
  assert (S : StronglySorted Rlt [1; 10]) by (repeat constructor; lra).
  destruct (C109_ticks (1 / 2) 10 [1; 10] 1 10 1 10 ltac:(lra) ltac:(lia) S ltac:(cbn; lia) eq_refl eq_refl eq_refl eq_refl) as (lo & up & ticks & E & Lo & Up & It & _).
  assert (lo = 10) as -> by (destruct Lo as [(_ & ->)|(X & _)]; [lra|exfalso; apply X; lra]).
  assert (up = 100) as -> by (destruct Up as [(_ & ->)|(X & _)]; [lra|exfalso; apply X; split; [lra|left; split; [rewrite Rabs_right|]; lra]]).
  exists (1 / 2), 10%Z, [1; 10], ticks. split; [lra|]. split; [lia|]. split; [exact S|]. split; [cbn; lia|]. split; [exact E|]. split.
  - destruct (ticks_loop (1 / 2) 10 [1; 10] 1 10 1 10 ltac:(lra) ltac:(cbn; lia) eq_refl eq_refl eq_refl eq_refl) as (lo & up & Lo' & _ & E').
    assert (lo = 10) as -> by (destruct Lo' as [(_ & ->)|(X & _)]; [lra|exfalso; apply X; lra]). rewrite E' in E. cbn [app minor_loop] in E.
    destruct (body_ok (1 / 2) 10 10 1 ltac:(lia) ltac:(lra)) as (p & locs & P & _ & Eb & El). rewrite Eb in E. cbn [bind] in E.
    match type of E with (let! _ := ?m in _) = _ => destruct m as [rest|]; [|discriminate] end. injection E as <-.
    assert (p = 9%Z) as -> by (destruct P as [(A & _)|(_ & ->)]; [rewrite Rabs_right in A; lra|reflexivity]).
    rewrite El. cbn. intro Ss. inversion_clear Ss as [|? ? _ F]. inversion_clear F as [|? ? G _]. lra.
  - intros x Hx. apply It in Hx. destruct Hx as (a & b & p & A & P & k & Hk & ->).
    assert (Q : (a = 10 /\ b = 1 \/ a = 1 /\ b = 10 \/ a = 10 /\ b = 100) /\ p = 9%Z).
    { assert (Q : a = 10 /\ b = 1 \/ a = 1 /\ b = 10 \/ a = 10 /\ b = 100).
      { destruct A as (l1 & l2 & A). destruct l1 as [|? [|? [|? l1]]]; [injection A as -> -> _; tauto|injection A as _ -> -> _; tauto|injection A as _ _ -> -> _; tauto|].
        exfalso. apply (f_equal (@length R)) in A. cbn in A. rewrite app_length in A. cbn in A. lia. }
      split; [exact Q|]. destruct P as [(X & _)|(_ & ->)]; [|reflexivity]. rewrite Rabs_right in X; lra. }
    destruct Q as (Q & ->). assert (1 <= IZR k <= 8) by (split; apply IZR_le; lia). destruct Q as [(-> & ->)|[(-> & ->)|(-> & ->)]]; lra.
Qed.

Print Assumptions C108_month_names.
Print Assumptions C108_table.
Print Assumptions C108_year.
Print Assumptions C109_ticks.
Print Assumptions C109_increasing_partial.
Print Assumptions C109_decades.
Print Assumptions C109_increasing_refuted.
