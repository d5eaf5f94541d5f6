(** Property C132: the printed report of a heat exchanger.  The texts of numbers, classes and of the objects of other packages are section
    variables. *)
From Coq Require Import ZArith List Bool Reals Lra Lia String Ascii DecimalString DecimalZ.
From Verif Require Import LoadsProofs GheProofs GFunProofs RadialProofs RadialGrid Properties_Radial EquivSpec Properties_Equiv.
From Verif Require Import Base Num BaseLemmas Order Spec Utilities Loads LoadsSpec Ghe GheSpec GFun GFunSpec Radial RadialSpec Bhe Equiv Export Report Properties_Report
  Domains Search SearchSpec SearchTheorems Design DesignProofs Properties_Design System SystemSpec SystemProofs Program ProgramProofs Properties_Export Properties_System Properties_Program Printing.
Import ListNotations.
Open Scope string_scope.
Open Scope R_scope.

(** ** what a reader of the report does *)
(** what follows p in s *)
Fixpoint after (p s : string) : option string :=
  match p, s with
  | "", _ => Some s
  | String a p, String b s => if Ascii.eqb a b then after p s else None
  | _, "" => None
  end.
Fixpoint unpad (s : string) : string := match s with String " " r => unpad r | _ => s end.
(** the value of a line "label   = value" *)
Definition value (label line : string) : option string := match after label line with Some r => after "= " (unpad r) | None => None end.
(** the value of the first line with the label *)
Fixpoint lookup (label : string) (ls : list string) : option string :=
  match ls with [] => None | l :: r => match value label l with Some v => Some v | None => lookup label r end end.
(** a line "|   title   |", and any such line *)
Definition titled (title line : string) : bool :=
  match after "|" line with
  | Some r => match after title (unpad r) with Some r => String.eqb (unpad r) "|" | None => false end
  | None => false
  end.
Definition heading (line : string) : bool := match after "|" line with Some _ => true | None => false end.
Fixpoint until_heading (ls : list string) : list string :=
  match ls with [] => [] | l :: r => if heading l then [] else l :: until_heading r end.
(** the lines below a title up to the next title *)
Fixpoint chapter (title : string) (ls : list string) : option (list string) :=
  match ls with [] => None | l :: r => if titled title l then Some (until_heading r) else chapter title r end.

(** all entries with the label, from the top *)
Fixpoint lookups (label : string) (ls : list string) : list string :=
  match ls with [] => [] | l :: r => match value label l with Some v => v :: lookups label r | None => lookups label r end end.
(** the labels of the report *)
Definition labels : list string :=
  ["Number of borheoles"; "Depth of the borehole"; "Bore hole spacing"; "Mass flow borehole"; "Mass flow pipe"; "Thermal conductivity"; "Volumetric heat capacity";
   "Undisturbed ground temperature"; "Pipe Positions (Center of pipes)"; "Pipe inner radius"; "Pipe outer radius"; "Pipe inner radii"; "Pipe outer radii";
   "Shank spacing (pipe to pipe)"; "Pipe roughness"; "Number of pipes"; "Reynolds number"; "Convection coefficient"; "Pipe resistance"; "Fluid resistance";
   "Effective borehole resistance"; "Config"; "Inner pipe resistance"; "Outer pipe resistance"; "Grout resistance"; "Reynolds annulus"; "Inner annulus convection coef";
   "Outer annulus convection coef"; "Inner annulus resistance"; "Outer annulus resistance"; "Reynolds inner"; "Inner Convection coefficient"; "Fluid-to-fluid resistance";
   "Fluid-to-pipe resistance"; "Start month"; "End month"; "Max EFT Allowable"; "Min EFT Allowable"; "Maximum height"; "Minimum height";
   "Max HP entering temp"; "Min HP entering temp"; "Excess fluid temperature"].
(** text that cannot be mistaken for a heading or for an entry of the report *)
Definition plain (line : string) : Prop := heading line = false /\ forall label, In label labels -> value label line = None.

(** ** layout *)
Lemma chars_length c n : String.length (chars c n) = n.
Proof. induction n; cbn; congruence. Qed.
Lemma append_length a b : String.length (a ++ b) = (String.length a + String.length b)%nat.
Proof. induction a as [|c a IH]; cbn; congruence. Qed.
Lemma get_append a b n : String.get (String.length a + n) (a ++ b) = String.get n b.
Proof. induction a as [|c a IH]; cbn; [reflexivity|exact IH]. Qed.
Lemma append_assoc (a b c : string) : (a ++ b) ++ c = a ++ (b ++ c).
Proof. induction a as [|x a IH]; cbn; congruence. Qed.

(** C132: the equals signs of a text of entries are below each other, the frames of titles are 50 characters wide; a longer title makes its
    frame wider *)
Theorem C132_layout :
  (forall label v, (String.length label <= 40)%nat -> String.get 40 (justify label v) = Some "="%char) /\
  (forall title line, (String.length title <= 48)%nat -> In line (header title) -> String.length line = 50%nat) /\
  (forall title, (48 < String.length title)%nat -> exists line, In line (header title) /\ String.length line = (String.length title + 2)%nat).
Proof.
  assert (C : forall t, String.length (center t 48) = Nat.max 48 (String.length t)).
  { intro t. unfold center. rewrite !append_length, !chars_length. set (n := String.length t).
    assert (((48 - n) / 2 + (if Nat.odd (48 - n) && Nat.odd 48 then 1 else 0) <= 48 - n)%nat).
    { rewrite andb_false_r. rewrite Nat.add_0_r. apply Nat.div_le_upper_bound; lia. }
    lia. }
  split; [|split].
  - intros label v Hl. unfold justify, ljust.
    replace 40%nat with (String.length (label ++ chars " " (40 - String.length label)) + 0)%nat at 1 by (rewrite append_length, chars_length; lia).
    rewrite get_append. reflexivity.
  - intros title line Hl [<- |[<- |[<- |[]]]]; try reflexivity. rewrite !append_length, C. cbn [String.length]. lia.
  - intros title Hl. eexists. split; [right; left; reflexivity|]. rewrite !append_length, C. cbn [String.length]. lia.
Qed.
Example C132_layout_example : header "Peak Load Analysis" =
  ["--------------------------------------------------"; "|               Peak Load Analysis               |"; "--------------------------------------------------"] /\
  justify "End month" "240" = "End month                               = 240".
Proof. split; reflexivity. Qed.

(** ** rounding *)
Lemma nearest_close x : Rabs (IZR (nearest x) - x) <= 1 / 2.
Proof.
  unfold nearest. destruct (base_Int_part x) as (A & B).
  destruct (Rlt_dec _ _) as [X|X]; [apply Rabs_le; lra|]. destruct (Rlt_dec _ _) as [Y|Y]; [rewrite plus_IZR; apply Rabs_le; lra|].
  destruct (Z.even _); [|rewrite plus_IZR]; apply Rabs_le; lra.
Qed.
(** C132: a rounded number has four decimals and is at most half of the last decimal away *)
Theorem C132_rounding : forall x, (exists n, round4 x = IZR n / 10000) /\ Rabs (round4 x - x) <= / 20000.
Proof.
  intro x. split; [eexists; reflexivity|]. unfold round4. pose proof (nearest_close (x * 10000)) as H. pose proof (Rle_abs (IZR (nearest (x * 10000)) - x * 10000)) as A.
  pose proof (Rle_abs (- (IZR (nearest (x * 10000)) - x * 10000))) as B. rewrite Rabs_Ropp in B. apply Rabs_le. lra.
Qed.

(** ** entries *)
Lemma after_mismatch l : forall l' x, String.prefix l l' = false -> String.prefix l' l = false -> after l (l' ++ x) = None.
Proof.
  induction l as [|c l IH]; intros l' x; [destruct l'; discriminate|]. destruct l' as [|c' l']; [discriminate|]. cbn [String.prefix after append].
  intros A B. destruct (ascii_dec c c') as [<- |N].
  - destruct (ascii_dec c c) as [_|N]; [|congruence]. rewrite Ascii.eqb_refl. now apply IH.
  - destruct (Ascii.eqb_spec c c') as [E|_]; [contradiction|reflexivity].
Qed.
Lemma after_self l x : after l (l ++ x) = Some x.
Proof. induction l as [|c l IH]; [destruct x; reflexivity|]. cbn. now rewrite Ascii.eqb_refl. Qed.
Lemma unpad_chars n x : unpad (chars " " n ++ x) = unpad x.
Proof. induction n as [|n IH]; [reflexivity|]. exact IH. Qed.
Lemma labels_differ : forallb (fun l => forallb (fun l' => String.eqb l l' || (negb (String.prefix l l') && negb (String.prefix l' l))) labels) labels = true.
Proof. vm_compute. reflexivity. Qed.
Lemma value_justify label l v : In label labels -> In l labels -> value label (justify l v) = if String.eqb label l then Some v else None.
Proof.
  intros H1 H2. pose proof labels_differ as D. rewrite forallb_forall in D. specialize (D _ H1). rewrite forallb_forall in D. specialize (D _ H2).
  unfold value, justify, ljust. rewrite append_assoc. destruct (String.eqb_spec label l) as [<- |N].
  - rewrite after_self, unpad_chars. reflexivity.
  - cbn [orb] in D. apply andb_true_iff in D. destruct D as (A & B). apply negb_true_iff in A, B. now rewrite (after_mismatch label l _ A B).
Qed.

Section Printed.
Variable str : R -> string.
Variable str_pair : R * R -> string.
Variable str_points : list (R * R) -> string.
Variable class_text : string -> string.
Variable borehole_text : R -> R -> R -> list string.
Variable fluid_text : fluid -> list string.
Variable table_text : Report.table R -> list string.
Hypothesis plain_numbers : forall x, heading (str x) = false.
Hypothesis plain_classes : forall c, plain (class_text c).
Hypothesis plain_boreholes : forall H D r, Forall plain (borehole_text H D r).
Hypothesis plain_fluids : forall f, Forall plain (fluid_text f).
Hypothesis plain_tables : forall df, Forall plain (table_text df).

(** the text has an entry with the label, a number at most half of the fourth decimal away from x, with the unit *)
Definition shown (ls : list string) (label : string) (x : R) (unit : string) : Prop :=
  exists n, lookup label ls = Some (str (IZR n / 10000) ++ unit) /\ Rabs (IZR n / 10000 - x) <= / 20000.

(** three entries with the same label *)
Definition shown3 (ls : list string) (label : string) (x y z : R) (unit : string) : Prop :=
  exists a b c, lookups label ls = [str (IZR a / 10000) ++ unit; str (IZR b / 10000) ++ unit; str (IZR c / 10000) ++ unit] /\
  Rabs (IZR a / 10000 - x) <= / 20000 /\ Rabs (IZR b / 10000 - y) <= / 20000 /\ Rabs (IZR c / 10000 - z) <= / 20000.
(** the entry is the number n *)
Definition counted (ls : list string) (label : string) (n : Z) : Prop :=
  exists v, lookup label ls = Some v /\ option_map Z.of_int (NilZero.int_of_string v) = Some n.

Lemma until_app a b : Forall (fun l => heading l = false) a -> until_heading (a ++ b) = (a ++ until_heading b)%list.
Proof. induction 1 as [|l a Hl _ IH]; cbn; [reflexivity|]. rewrite Hl. now rewrite IH. Qed.
Lemma not_titled t l : heading l = false -> titled t l = false.
Proof. unfold heading, titled. destruct (after "|" l); [discriminate|reflexivity]. Qed.
Lemma chapter_app t a b : Forall (fun l => heading l = false) a -> chapter t (a ++ b) = chapter t b.
Proof. induction 1 as [|l a Hl _ IH]; cbn; [reflexivity|]. rewrite (not_titled _ _ Hl). exact IH. Qed.
Lemma lookup_app label a b : lookup label (a ++ b) = match lookup label a with Some v => Some v | None => lookup label b end.
Proof. induction a as [|l a IH]; cbn; [reflexivity|]. destruct (value label l); [reflexivity|exact IH]. Qed.
Lemma lookup_plain label ls : Forall plain ls -> In label labels -> lookup label ls = None.
Proof. intros H Hl. induction H as [|l ls (_ & A) _ IH]; cbn; [reflexivity|]. now rewrite (A label Hl). Qed.
Lemma plain_headings ls : Forall plain ls -> Forall (fun l => heading l = false) ls.
Proof. apply Forall_impl. intros l H. apply H. Qed.

Variable eff_u : R -> pg_u -> R -> R -> R.
Variable eff_c : R -> pg_c -> R -> R -> R.
Variable interp : ikind -> list (R * R) -> R -> R.
Variable st : settings.
Variable coaxial_pos : string.
Variable coaxial_s : R.
Notation bhe_text := (bhe_text str str_pair str_points class_text borehole_text fluid_text eff_u eff_c st coaxial_pos coaxial_s).
Notation single_text := (single_text str str_points class_text borehole_text fluid_text eff_u st).
Notation sim_params_text := (sim_params_text str class_text st).
Notation results_text := (results_text str st).
Notation ghe_report := (ghe_report str str_pair str_points class_text borehole_text fluid_text table_text eff_u eff_c interp st coaxial_pos coaxial_s).

(** the entries on a U-tube heat exchanger; soil, grout and pipe have entries of the same labels *)
Definition u_tube_data (t : list string) (b : ubhe) : Prop :=
  shown t "Mass flow borehole" (ub_m b) " (kg/s)" /\ shown t "Mass flow pipe" (ub_m_pipe b) " (kg/s)" /\
  shown3 t "Thermal conductivity" (ub_soil_k b) (ub_grout_k b) (pp_k (ub_pipe b)) " (W/m.K)" /\
  shown3 t "Volumetric heat capacity" (st_soil_rhoCp st) (st_grout_rhoCp st) (pp_rhoCp (ub_pipe b)) " (J/K.m3)" /\
  shown t "Undisturbed ground temperature" (st_ugt st) " (degrees Celsius)" /\ lookup "Pipe Positions (Center of pipes)" t = Some (str_points (pp_pos (ub_pipe b))) /\
  shown t "Pipe inner radius" (pp_rin (ub_pipe b)) " (m)" /\ shown t "Pipe outer radius" (pp_rout (ub_pipe b)) " (m)" /\
  shown t "Shank spacing (pipe to pipe)" (pp_s (ub_pipe b)) " (m)" /\ lookup "Pipe roughness" t = Some (str (pp_eps (ub_pipe b)) ++ " (m)") /\
  counted t "Number of pipes" (n_pipes (ub_pipe b)) /\ shown t "Reynolds number" (reported_Reynolds b) "" /\ shown t "Convection coefficient" (ub_h b) " (W/m2.K)" /\
  shown t "Pipe resistance" (ub_Rp b) " (m.K/W)" /\ shown t "Fluid resistance" (ub_Rf b) " (m.K/W)".
(** the entries on a coaxial heat exchanger *)
Definition coaxial_data (t : list string) (b : cbhe) : Prop := let q := cb_geo b in
  shown t "Mass flow borehole" (cb_m b) " (kg/s)" /\ shown t "Mass flow pipe" (cb_m_pipe b) " (kg/s)" /\
  (exists x y, lookups "Thermal conductivity" t = [str (IZR x / 10000) ++ " (W/m.K)"; str (IZR y / 10000) ++ " (W/m.K)"; str_pair (cg_k q) ++ " (W/m.K)"] /\
   Rabs (IZR x / 10000 - cg_soil_k q) <= / 20000 /\ Rabs (IZR y / 10000 - cg_grout_k q) <= / 20000) /\
  shown3 t "Volumetric heat capacity" (st_soil_rhoCp st) (st_grout_rhoCp st) (cg_rhoCp q) " (J/K.m3)" /\
  shown t "Undisturbed ground temperature" (st_ugt st) " (degrees Celsius)" /\
  lookup "Pipe inner radii" t = Some (str_pair (cg_inner q) ++ " (m)") /\ lookup "Pipe outer radii" t = Some (str_pair (cg_outer q) ++ " (m)") /\
  lookup "Pipe roughness" t = Some (str (cg_eps q) ++ " (m)") /\ counted t "Number of pipes" 1 /\
  shown t "Inner pipe resistance" (cb_Rp_in b) " (m.K/W)" /\ shown t "Outer pipe resistance" (cb_Rp_out b) " (m.K/W)" /\ shown t "Grout resistance" (cb_Rgrout b) " (m.K/W)" /\
  shown t "Reynolds annulus" (compute_Reynolds_concentric (cb_m_pipe b) (snd (cg_inner q)) (fst (cg_outer q)) (cb_fluid b)) "" /\
  shown t "Inner annulus convection coef" (cb_h_a_in b) " (W/m2.K)" /\ shown t "Outer annulus convection coef" (cb_h_a_out b) " (W/m2.K)" /\
  shown t "Inner annulus resistance" (cb_Rf_a_in b) " (m.K/W)" /\ shown t "Outer annulus resistance" (cb_Rf_a_out b) " (m.K/W)" /\
  shown t "Reynolds inner" (compute_Reynolds (cb_m_pipe b) (fst (cg_inner q)) (cg_eps q) (cb_fluid b)) "" /\ shown t "Inner Convection coefficient" (cb_h_in b) " (W/m2.K)" /\
  shown t "Fluid-to-fluid resistance" (pc_Rff (cb_pg b)) " (m.K/W)" /\ shown t "Fluid-to-pipe resistance" (pc_Rfp (cb_pg b)) " (m.K/W)".
(** the entries on a heat exchanger of any kind *)
Definition exchanger_data (t : list string) (b : bhe) : Prop :=
  match b with
  | Single b => u_tube_data t b
  | Multiple b => u_tube_data t b /\ lookup "Config" t = match pg_config (ub_pg b) with series => Some "series" | parallel => Some "parallel" | _ => None end
  | Coaxial b => coaxial_data t b
  | OtherBhe => False
  end.

Ltac noheading := repeat first [apply Forall_app; split | apply Forall_cons; [first [reflexivity | apply plain_classes]|] | apply Forall_nil
  | apply plain_headings, plain_boreholes | apply plain_headings, plain_fluids | apply plain_headings, plain_tables].
Lemma single_quiet H b : Forall (fun l => heading l = false) (single_text H b).
Proof. unfold Printing.single_text, base_pipe_text, soil_text, thermal_property_text, pipe_text. noheading. Qed.
Lemma coaxial_quiet H b : Forall (fun l => heading l = false) (coaxial_text str str_pair class_text borehole_text fluid_text eff_c st coaxial_pos coaxial_s H b).
Proof. unfold coaxial_text, soil_text, thermal_property_text, coaxial_pipe_text. noheading. Qed.
Lemma bhe_quiet H b t : bhe_text H b = Ok t -> Forall (fun l => heading l = false) t.
Proof.
  destruct b as [b|b|b|]; cbn [Printing.bhe_text]; intro E; [apply Ok_inj in E; subst t; apply single_quiet| |apply Ok_inj in E; subst t; apply coaxial_quiet|discriminate].
  unfold multiple_text in E. apply bind_ok in E. destruct E as (c & _ & E). apply Ok_inj in E. subst t.
  unfold base_pipe_text, soil_text, thermal_property_text, pipe_text. noheading.
Qed.
Lemma str_int_reads z : option_map Z.of_int (NilZero.int_of_string (str_int z)) = Some z.
Proof.
  assert (K : Z.to_int z <> Decimal.Pos Decimal.Nil /\ Z.to_int z <> Decimal.Neg Decimal.Nil).
  { split; intro E; pose proof (DecimalZ.of_to z) as O; rewrite E in O; cbn in O; subst z; discriminate. }
  unfold str_int. rewrite NilZero.isi by apply K. cbn [option_map]. now rewrite DecimalZ.of_to.
Qed.
Lemma chapter_header t t' r : chapter t (header t' ++ r) =
  if titled t ("|" ++ center t' 48 ++ "|") then Some (chars "-" 50 :: until_heading r) else chapter t r.
Proof. cbn [header app]. unfold header. cbn [app chapter]. rewrite (not_titled t (chars "-" 50) eq_refl). reflexivity. Qed.
Lemma until_header t r : until_heading (header t ++ r) = [chars "-" 50].
Proof. reflexivity. Qed.
Lemma results_quiet s r : results_text s = Ok r -> Forall (fun l => heading l = false) r.
Proof.
  unfold Printing.results_text. destruct (fst (gh_results s)) as [|a l]; intro E; [apply Ok_inj in E; subst r; constructor|].
  apply bind_ok in E. destruct E as (mx & _ & E). apply bind_ok in E. destruct E as (mn & _ & E). apply Ok_inj in E. subst r. noheading.
Qed.

(** the rounding of C132_rounding in an entry *)
Lemma shown_of ls label x unit : lookup label ls = Some (str4 str x ++ unit) -> shown ls label x unit.
Proof. intro E. destruct (C132_rounding x) as ((n & N) & C). exists n. rewrite <- N. split; [exact E|exact C]. Qed.

(** a text made of entries and of plain lines *)
Inductive item : Type := Entry (label v : string) | Plain (ls : list string).
Definition render (items : list item) : list string := flat_map (fun i => match i with Entry l v => [justify l v] | Plain ls => ls end) items.
Definition good (i : item) : Prop := match i with Entry l _ => existsb (String.eqb l) labels = true | Plain ls => Forall plain ls end.
Fixpoint found (label : string) (items : list item) : option string :=
  match items with
  | [] => None
  | Entry l v :: r => if String.eqb label l then Some v else found label r
  | Plain _ :: r => found label r
  end.
Lemma lookup_render label items rest : existsb (String.eqb label) labels = true -> Forall good items ->
  lookup label (render items ++ rest) = match found label items with Some v => Some v | None => lookup label rest end.
Proof.
  intros Hl. apply existsb_exists in Hl. destruct Hl as (l0 & Hl & E0). apply String.eqb_eq in E0. subst l0.
  induction 1 as [|[l v|ls] items Hi _ IH]; [reflexivity| |]; cbn [render flat_map found] in *.
  - cbn [app lookup]. apply existsb_exists in Hi. destruct Hi as (l0 & Hi & E0). apply String.eqb_eq in E0. subst l0.
    rewrite (value_justify label l v Hl Hi). destruct (String.eqb label l); [reflexivity|exact IH].
  - rewrite <- app_assoc, lookup_app, (lookup_plain label ls Hi Hl). exact IH.
Qed.
Lemma lookups_app label a b : lookups label (a ++ b) = (lookups label a ++ lookups label b)%list.
Proof. induction a as [|l a IH]; cbn; [reflexivity|]. destruct (value label l); cbn; now rewrite IH. Qed.
Lemma lookups_plain label ls : Forall plain ls -> In label labels -> lookups label ls = [].
Proof. intros H Hl. induction H as [|l ls (_ & A) _ IH]; cbn; [reflexivity|]. now rewrite (A label Hl). Qed.
Fixpoint found_all (label : string) (items : list item) : list string :=
  match items with
  | [] => []
  | Entry l v :: r => if String.eqb label l then v :: found_all label r else found_all label r
  | Plain _ :: r => found_all label r
  end.
Lemma lookups_render label items rest : existsb (String.eqb label) labels = true -> Forall good items ->
  lookups label (render items ++ rest) = (found_all label items ++ lookups label rest)%list.
Proof.
  intros Hl. apply existsb_exists in Hl. destruct Hl as (l0 & Hl & E0). apply String.eqb_eq in E0. subst l0.
  induction 1 as [|[l v|ls] items Hi _ IH]; [reflexivity| |]; cbn [render flat_map found_all] in *.
  - cbn [app lookups]. apply existsb_exists in Hi. destruct Hi as (l0 & Hi & E0). apply String.eqb_eq in E0. subst l0.
    rewrite (value_justify label l v Hl Hi). destruct (String.eqb label l); [cbn [app]; f_equal; exact IH|exact IH].
  - rewrite <- app_assoc, lookups_app, (lookups_plain label ls Hi Hl). exact IH.
Qed.
Lemma append_nil s : s ++ "" = s.
Proof. induction s as [|c s IH]; cbn; congruence. Qed.
Lemma shown3_of ls label x y z unit : lookups label ls = [str4 str x ++ unit; str4 str y ++ unit; str4 str z ++ unit] -> shown3 ls label x y z unit.
Proof.
  intro E. destruct (C132_rounding x) as ((a & A) & A'), (C132_rounding y) as ((b & B) & B'), (C132_rounding z) as ((c & C) & C').
  exists a, b, c. rewrite <- A, <- B, <- C. repeat (split; [assumption|]). assumption.
Qed.
Lemma dashes_plain : plain (chars "-" 50).
Proof.
  split; [reflexivity|]. intros label H. assert (D : forallb (fun l => match value l (chars "-" 50) with None => true | Some _ => false end) labels = true) by (vm_compute; reflexivity).
  rewrite forallb_forall in D. specialize (D _ H). destruct (value label _); [discriminate|reflexivity].
Qed.
Ltac good := repeat first [apply Forall_cons; [first [reflexivity | apply plain_boreholes | apply plain_fluids | apply plain_tables | repeat first [apply Forall_cons; [first [apply plain_classes | apply dashes_plain]|] | apply Forall_nil]]|] | apply Forall_nil].
Definition base_items (cls : string) (H : R) (b : ubhe) (rest : list item) : list item :=
  Plain [class_text cls; chars "-" 50] :: Entry "Mass flow borehole" (str4 str (ub_m b) ++ " (kg/s)") :: Entry "Mass flow pipe" (str4 str (ub_m_pipe b) ++ " (kg/s)") ::
  Plain (borehole_text H (st_D st) (pg_rb (ub_pg b))) :: Plain [class_text "Soil"] :: Entry "Thermal conductivity" (str4 str (ub_soil_k b) ++ " (W/m.K)") ::
  Entry "Volumetric heat capacity" (str4 str (st_soil_rhoCp st) ++ " (J/K.m3)") :: Entry "Undisturbed ground temperature" (str4 str (st_ugt st) ++ " (degrees Celsius)") ::
  Plain [class_text "Grout"] :: Entry "Thermal conductivity" (str4 str (ub_grout_k b) ++ " (W/m.K)") :: Entry "Volumetric heat capacity" (str4 str (st_grout_rhoCp st) ++ " (J/K.m3)") ::
  Plain [class_text "Pipe"] :: Entry "Thermal conductivity" (str4 str (pp_k (ub_pipe b)) ++ " (W/m.K)") :: Entry "Volumetric heat capacity" (str4 str (pp_rhoCp (ub_pipe b)) ++ " (J/K.m3)") ::
  Entry "Pipe Positions (Center of pipes)" (str_points (pp_pos (ub_pipe b))) :: Entry "Pipe inner radius" (str4 str (pp_rin (ub_pipe b)) ++ " (m)") ::
  Entry "Pipe outer radius" (str4 str (pp_rout (ub_pipe b)) ++ " (m)") :: Entry "Shank spacing (pipe to pipe)" (str4 str (pp_s (ub_pipe b)) ++ " (m)") ::
  Entry "Pipe roughness" (str (pp_eps (ub_pipe b)) ++ " (m)") :: Entry "Number of pipes" (str_int (n_pipes (ub_pipe b))) :: Plain (fluid_text (ub_fluid b)) ::
  Entry "Reynolds number" (str4 str (reported_Reynolds b)) :: Entry "Convection coefficient" (str4 str (ub_h b) ++ " (W/m2.K)") ::
  Entry "Pipe resistance" (str4 str (ub_Rp b) ++ " (m.K/W)") :: Entry "Fluid resistance" (str4 str (ub_Rf b) ++ " (m.K/W)") :: rest.
Lemma framed_lookup l items : existsb (String.eqb l) labels = true -> Forall good items -> lookup l (chars "-" 50 :: render items ++ [chars "-" 50]) = found l items.
Proof.
  intros Hl G. pose proof Hl as Hl'. apply existsb_exists in Hl. destruct Hl as (l0 & Hl & E0). apply String.eqb_eq in E0. subst l0. cbn [lookup].
  rewrite (proj2 dashes_plain l Hl), (lookup_render l items [chars "-" 50] Hl' G). destruct (found l items); [reflexivity|]. cbn [lookup]. now rewrite (proj2 dashes_plain l Hl).
Qed.
Lemma framed_lookups l items : existsb (String.eqb l) labels = true -> Forall good items -> lookups l (chars "-" 50 :: render items ++ [chars "-" 50]) = found_all l items.
Proof.
  intros Hl G. pose proof Hl as Hl'. apply existsb_exists in Hl. destruct Hl as (l0 & Hl & E0). apply String.eqb_eq in E0. subst l0. cbn [lookups].
  rewrite (proj2 dashes_plain l Hl), (lookups_render l items [chars "-" 50] Hl' G). cbn [lookups]. rewrite (proj2 dashes_plain l Hl). apply app_nil_r.
Qed.
Ltac one_entry G := first
  [ apply shown3_of; rewrite framed_lookups; [reflexivity|reflexivity|exact G]
  | apply shown_of; rewrite framed_lookup; [rewrite ?append_nil; reflexivity|reflexivity|exact G]
  | eexists; split; [rewrite framed_lookup; [reflexivity|reflexivity|exact G]|apply str_int_reads]
  | rewrite framed_lookup; [reflexivity|reflexivity|exact G] ].
Lemma framed_data H b t : bhe_text H b = Ok t -> exchanger_data (chars "-" 50 :: t ++ [chars "-" 50])%list b.
Proof.
  destruct b as [b|b|b|]; cbn [Printing.bhe_text]; intro E; [apply Ok_inj in E; subst t| |apply Ok_inj in E; subst t|discriminate].
  - set (items := base_items "SingleUTube" H b [Entry "Effective borehole resistance" (str4 str (eff_u H (ub_pg b) (ub_m b) (fl_cp (ub_fluid b))) ++ " (m.K/W)")]).
    assert (G : Forall good items) by (unfold items, base_items; good).
    assert (E : single_text H b = render items).
    { unfold Printing.single_text, base_pipe_text, soil_text, pipe_text, thermal_property_text, items, base_items, render. cbn [flat_map app]. repeat rewrite <- app_assoc. cbn [app]. repeat rewrite <- app_assoc. cbn [app]. reflexivity. }
    rewrite E. cbn [exchanger_data]. unfold u_tube_data. repeat apply conj; one_entry G.
  - unfold multiple_text in E. apply bind_ok in E. destruct E as (c & Ec & E). apply Ok_inj in E.
    set (items := base_items "MultipleUTube" H b [Entry "Effective borehole resistance" (str4 str (eff_u H (ub_pg b) (ub_m b) (fl_cp (ub_fluid b))) ++ " (m.K/W)"); Entry "Config" c]).
    assert (G : Forall good items) by (unfold items, base_items; good).
    assert (Et : t = render items).
    { subst t. unfold base_pipe_text, soil_text, pipe_text, thermal_property_text, items, base_items, render. cbn [flat_map app]. repeat rewrite <- app_assoc. cbn [app]. repeat rewrite <- app_assoc. cbn [app]. reflexivity. }
    rewrite Et. cbn [exchanger_data]. split; [unfold u_tube_data; repeat apply conj; one_entry G|].
    rewrite framed_lookup; [|reflexivity|exact G]. transitivity (Some c); [reflexivity|]. destruct (pg_config (ub_pg b)); try discriminate; congruence.
  - set (q := cb_geo b).
    set (items := [Plain [class_text "CoaxialPipe"; chars "-" 50]; Entry "Mass flow borehole" (str4 str (cb_m b) ++ " (kg/s)"); Entry "Mass flow pipe" (str4 str (cb_m_pipe b) ++ " (kg/s)");
      Plain (borehole_text H (st_D st) (cg_rb q)); Plain [class_text "Soil"]; Entry "Thermal conductivity" (str4 str (cg_soil_k q) ++ " (W/m.K)");
      Entry "Volumetric heat capacity" (str4 str (st_soil_rhoCp st) ++ " (J/K.m3)"); Entry "Undisturbed ground temperature" (str4 str (st_ugt st) ++ " (degrees Celsius)");
      Plain [class_text "Grout"]; Entry "Thermal conductivity" (str4 str (cg_grout_k q) ++ " (W/m.K)"); Entry "Volumetric heat capacity" (str4 str (st_grout_rhoCp st) ++ " (J/K.m3)");
      Plain [class_text "Pipe"]; Entry "Thermal conductivity" (str_pair (cg_k q) ++ " (W/m.K)"); Entry "Volumetric heat capacity" (str4 str (cg_rhoCp q) ++ " (J/K.m3)");
      Entry "Pipe Positions (Center of pipes)" coaxial_pos; Entry "Pipe inner radii" (str_pair (cg_inner q) ++ " (m)"); Entry "Pipe outer radii" (str_pair (cg_outer q) ++ " (m)");
      Entry "Shank spacing (pipe to pipe)" (str4 str coaxial_s ++ " (m)"); Entry "Pipe roughness" (str (cg_eps q) ++ " (m)"); Entry "Number of pipes" (str_int 1);
      Plain (fluid_text (cb_fluid b)); Entry "Inner pipe resistance" (str4 str (cb_Rp_in b) ++ " (m.K/W)"); Entry "Outer pipe resistance" (str4 str (cb_Rp_out b) ++ " (m.K/W)");
      Entry "Grout resistance" (str4 str (cb_Rgrout b) ++ " (m.K/W)");
      Entry "Reynolds annulus" (str4 str (compute_Reynolds_concentric (cb_m_pipe b) (snd (cg_inner q)) (fst (cg_outer q)) (cb_fluid b)));
      Entry "Inner annulus convection coef" (str4 str (cb_h_a_in b) ++ " (W/m2.K)"); Entry "Outer annulus convection coef" (str4 str (cb_h_a_out b) ++ " (W/m2.K)");
      Entry "Inner annulus resistance" (str4 str (cb_Rf_a_in b) ++ " (m.K/W)"); Entry "Outer annulus resistance" (str4 str (cb_Rf_a_out b) ++ " (m.K/W)");
      Entry "Reynolds inner" (str4 str (compute_Reynolds (cb_m_pipe b) (fst (cg_inner q)) (cg_eps q) (cb_fluid b)));
      Entry "Inner Convection coefficient" (str4 str (cb_h_in b) ++ " (W/m2.K)"); Entry "Fluid-to-fluid resistance" (str4 str (pc_Rff (cb_pg b)) ++ " (m.K/W)");
      Entry "Fluid-to-pipe resistance" (str4 str (pc_Rfp (cb_pg b)) ++ " (m.K/W)");
      Entry "Effective borehole resistance" (str4 str (eff_c H (cb_pg b) (cb_m b) (fl_cp (cb_fluid b))) ++ " (m.K/W)")]).
    assert (G : Forall good items) by (unfold items; good).
    assert (Et : coaxial_text str str_pair class_text borehole_text fluid_text eff_c st coaxial_pos coaxial_s H b = render items).
    { unfold coaxial_text, soil_text, coaxial_pipe_text, thermal_property_text, items, render. cbn [flat_map app]. repeat rewrite <- app_assoc. cbn [app]. repeat rewrite <- app_assoc. cbn [app]. reflexivity. }
    rewrite Et. cbn [exchanger_data]. unfold coaxial_data. cbn zeta. fold q. split; [one_entry G|]. split; [one_entry G|]. split.
    { destruct (C132_rounding (cg_soil_k q)) as ((x & X) & X'), (C132_rounding (cg_grout_k q)) as ((y & Y) & Y'). exists x, y. rewrite <- X, <- Y. split; [|split; assumption].
      rewrite framed_lookups; [reflexivity|reflexivity|exact G]. }
    repeat apply conj; one_entry G.
Qed.
Lemma single_entries H b r : let t := (single_text H b ++ r)%list in
  shown t "Mass flow borehole" (ub_m b) " (kg/s)" /\ shown t "Pipe inner radius" (pp_rin (ub_pipe b)) " (m)" /\ shown t "Pipe outer radius" (pp_rout (ub_pipe b)) " (m)" /\
  shown t "Shank spacing (pipe to pipe)" (pp_s (ub_pipe b)) " (m)" /\
  shown t "Pipe resistance" (ub_Rp b) " (m.K/W)" /\ shown t "Fluid resistance" (ub_Rf b) " (m.K/W)" /\
  shown t "Effective borehole resistance" (eff_u H (ub_pg b) (ub_m b) (fl_cp (ub_fluid b))) " (m.K/W)".
Proof.
  set (items := base_items "SingleUTube" H b [Entry "Effective borehole resistance" (str4 str (eff_u H (ub_pg b) (ub_m b) (fl_cp (ub_fluid b))) ++ " (m.K/W)")]).
  assert (G : Forall good items) by (unfold items, base_items; good).
  assert (E : single_text H b = render items).
  { unfold Printing.single_text, base_pipe_text, soil_text, pipe_text, thermal_property_text, items, base_items, render. cbn [flat_map app]. repeat rewrite <- app_assoc. cbn [app]. repeat rewrite <- app_assoc. cbn [app]. reflexivity. }
  intro t. unfold t. rewrite E.
  repeat apply conj; apply shown_of; (rewrite lookup_render; [reflexivity|reflexivity|exact G]).
Qed.
Lemma bhe_entries H b t r : bhe_text H b = Ok t -> let t := (t ++ r)%list in
  shown t "Mass flow borehole" (mass_flow b) " (kg/s)" /\ shown t "Effective borehole resistance" (effective_resistance eff_u eff_c H b) " (m.K/W)".
Proof.
  destruct b as [b|b|b|]; cbn [Printing.bhe_text]; intro E; [apply Ok_inj in E; subst t| |apply Ok_inj in E; subst t|discriminate].
  - destruct (single_entries H b r) as (A & _ & _ & _ & _ & _ & B). split; assumption.
  - unfold multiple_text in E. apply bind_ok in E. destruct E as (c & _ & E). apply Ok_inj in E.
    set (items := base_items "MultipleUTube" H b [Entry "Effective borehole resistance" (str4 str (eff_u H (ub_pg b) (ub_m b) (fl_cp (ub_fluid b))) ++ " (m.K/W)"); Entry "Config" c]).
    assert (G : Forall good items) by (unfold items, base_items; good).
    assert (Et : t = render items).
    { subst t. unfold base_pipe_text, soil_text, pipe_text, thermal_property_text, items, base_items, render. cbn [flat_map app]. repeat rewrite <- app_assoc. cbn [app]. repeat rewrite <- app_assoc. cbn [app]. reflexivity. }
    rewrite Et. split; apply shown_of; (rewrite lookup_render; [reflexivity|reflexivity|exact G]).
  - set (q := cb_geo b).
    set (items := [Plain [class_text "CoaxialPipe"; chars "-" 50]; Entry "Mass flow borehole" (str4 str (cb_m b) ++ " (kg/s)"); Entry "Mass flow pipe" (str4 str (cb_m_pipe b) ++ " (kg/s)");
      Plain (borehole_text H (st_D st) (cg_rb q)); Plain [class_text "Soil"]; Entry "Thermal conductivity" (str4 str (cg_soil_k q) ++ " (W/m.K)");
      Entry "Volumetric heat capacity" (str4 str (st_soil_rhoCp st) ++ " (J/K.m3)"); Entry "Undisturbed ground temperature" (str4 str (st_ugt st) ++ " (degrees Celsius)");
      Plain [class_text "Grout"]; Entry "Thermal conductivity" (str4 str (cg_grout_k q) ++ " (W/m.K)"); Entry "Volumetric heat capacity" (str4 str (st_grout_rhoCp st) ++ " (J/K.m3)");
      Plain [class_text "Pipe"]; Entry "Thermal conductivity" (str_pair (cg_k q) ++ " (W/m.K)"); Entry "Volumetric heat capacity" (str4 str (cg_rhoCp q) ++ " (J/K.m3)");
      Entry "Pipe Positions (Center of pipes)" coaxial_pos; Entry "Pipe inner radii" (str_pair (cg_inner q) ++ " (m)"); Entry "Pipe outer radii" (str_pair (cg_outer q) ++ " (m)");
      Entry "Shank spacing (pipe to pipe)" (str4 str coaxial_s ++ " (m)"); Entry "Pipe roughness" (str (cg_eps q) ++ " (m)"); Entry "Number of pipes" (str_int 1);
      Plain (fluid_text (cb_fluid b)); Entry "Inner pipe resistance" (str4 str (cb_Rp_in b) ++ " (m.K/W)"); Entry "Outer pipe resistance" (str4 str (cb_Rp_out b) ++ " (m.K/W)");
      Entry "Grout resistance" (str4 str (cb_Rgrout b) ++ " (m.K/W)");
      Entry "Reynolds annulus" (str4 str (compute_Reynolds_concentric (cb_m_pipe b) (snd (cg_inner q)) (fst (cg_outer q)) (cb_fluid b)));
      Entry "Inner annulus convection coef" (str4 str (cb_h_a_in b) ++ " (W/m2.K)"); Entry "Outer annulus convection coef" (str4 str (cb_h_a_out b) ++ " (W/m2.K)");
      Entry "Inner annulus resistance" (str4 str (cb_Rf_a_in b) ++ " (m.K/W)"); Entry "Outer annulus resistance" (str4 str (cb_Rf_a_out b) ++ " (m.K/W)");
      Entry "Reynolds inner" (str4 str (compute_Reynolds (cb_m_pipe b) (fst (cg_inner q)) (cg_eps q) (cb_fluid b)));
      Entry "Inner Convection coefficient" (str4 str (cb_h_in b) ++ " (W/m2.K)"); Entry "Fluid-to-fluid resistance" (str4 str (pc_Rff (cb_pg b)) ++ " (m.K/W)");
      Entry "Fluid-to-pipe resistance" (str4 str (pc_Rfp (cb_pg b)) ++ " (m.K/W)");
      Entry "Effective borehole resistance" (str4 str (eff_c H (cb_pg b) (cb_m b) (fl_cp (cb_fluid b))) ++ " (m.K/W)")]).
    assert (G : Forall good items) by (unfold items; good).
    assert (Et : coaxial_text str str_pair class_text borehole_text fluid_text eff_c st coaxial_pos coaxial_s H b = render items).
    { unfold coaxial_text, soil_text, coaxial_pipe_text, thermal_property_text, items, render. cbn [flat_map app]. repeat rewrite <- app_assoc. cbn [app]. repeat rewrite <- app_assoc. cbn [app]. reflexivity. }
    rewrite Et. split; apply shown_of; (rewrite lookup_render; [reflexivity|reflexivity|exact G]).
Qed.

Ltac to_title := repeat first [match goal with Q : Forall _ ?a |- context [chapter ?t (?a ++ ?b)] => rewrite (chapter_app t a b Q) end |
  rewrite chapter_header; match goal with |- context [if titled ?a ?b then _ else _] => let v := eval vm_compute in (titled a b) in change (titled a b) with v end; cbv iota].
Ltac to_chapter := to_title; repeat match goal with Q : Forall _ ?a |- context [until_heading (?a ++ ?b)] => rewrite (until_app a b Q) end; rewrite until_header; rewrite <- ?app_assoc; reflexivity.

(** C132: a report contains, under their headings, the number of boreholes, the height and the spacing of the exchanger (rounded to four decimals), the
    flows, materials, pipes and resistances of the exchanger, of whichever kind, and of its equivalent, the months, the limits and, when it has been
    simulated, the extremes of the temperatures and how far they exceed the limits; the table of the peak analysis; the coordinates of all
    boreholes in their order; and a sample of the g-function of the present height.  There is no heading for the results of the simulation. *)
Theorem C132_report :
  forall cl hl s s' ls, ghe_report cl hl s = (s', Ok ls) ->
  let degrees := " (degrees Celsius)" in
  exists top own eq par df x y ps,
  chapter "GHEDT GHE Output - Version 0.1" ls = Some top /\
  (exists v, lookup "Number of borheoles" top = Some v /\ option_map Z.of_int (NilZero.int_of_string v) = Some (Z.of_nat (List.length (gf_locations (gh_gf s))))) /\
  shown top "Depth of the borehole" (gh_H s) " (m)" /\ shown top "Bore hole spacing" (gh_B s) " (m)" /\
  chapter "Borehole Heat Exchanger" ls = Some own /\
  exchanger_data own (gh_bhe s) /\
  shown own "Mass flow borehole" (mass_flow (gh_bhe s)) " (kg/s)" /\ shown own "Effective borehole resistance" (effective_resistance eff_u eff_c (gh_H s) (gh_bhe s)) " (m.K/W)" /\
  (let e := gh_eq s in chapter "Equivalent Borehole Heat Exchanger" ls = Some eq /\
   u_tube_data eq e /\
   shown eq "Effective borehole resistance" (eff_u (gh_H s) (ub_pg e) (ub_m e) (fl_cp (ub_fluid e))) " (m.K/W)") /\
  chapter "Simulation parameters" ls = Some par /\
  ((exists z, lookup "Start month" par = Some (z ++ " (months)") /\ option_map Z.of_int (NilZero.int_of_string z) = Some (st_start st)) /\
   (exists z, lookup "End month" par = Some (z ++ "(months)") /\ option_map Z.of_int (NilZero.int_of_string z) = Some (st_end st)) /\
   lookup "Max EFT Allowable" par = Some (str (st_max_EFT st) ++ degrees) /\ lookup "Min EFT Allowable" par = Some (str (st_min_EFT st) ++ degrees) /\
   lookup "Maximum height" par = Some (str (st_max_H st) ++ " (m)") /\ lookup "Minimum height" par = Some (str (st_min_H st) ++ " (m)")) /\
  (let T := fst (gh_results s) in
   T = [] /\ lookup "Max HP entering temp" par = None /\ lookup "Min HP entering temp" par = None /\ lookup "Excess fluid temperature" par = None \/
   exists mx mn, is_max mx T /\ is_min mn T /\ shown par "Max HP entering temp" mx degrees /\ shown par "Min HP entering temp" mn degrees /\
   shown par "Excess fluid temperature" (Rmax (mx - st_max_EFT st) (st_min_EFT st - mn)) degrees) /\
  chapter "Simulation Results" ls = None /\
  create_dataframe_of_peak_analysis cl hl = Ok df /\
  chapter "Peak Load Analysis" ls = Some ([chars "-" 50; class_text "HybridLoad"] ++ table_text df ++ [chars "-" 50])%list /\
  snd (grab_g_function interp (gh_gf s) (gh_B s / gh_H s) (st_rb st) (fst (gh_sts s)) (snd (gh_sts s))) = Ok (x, y) /\
  (List.length x = List.length y -> (77 <= List.length x)%nat -> exists idx, strided 0 ((List.length x - 27) / 50) (List.length x - 27) idx /\
   (50 <= List.length idx <= 99)%nat /\ Forall2 (fun i p => nth_error (combine x y) i = Some p) (idx ++ seq (List.length x - 27) 27) ps) /\
  chapter "GFunction Information" ls = Some ([chars "-" 50; "Coordinates"; ("x(m)" ++ String "009" "y(m)")%string] ++
    map (fun p => (str (fst p) ++ String "009" (str (snd p)))%string) (gf_locations (gh_gf s)) ++ ["G-Function"; ("ln(t/ts)" ++ String "009" "g")%string] ++
    map (fun p => (str (round4 (fst p)) ++ String "009" (str (round4 (snd p))))%string) ps)%list.
Proof.
  intros cl hl s s' ls E degrees. unfold Printing.ghe_report in E. unfold base_ghe_text in E.
  destruct (bhe_text (gh_H s) (gh_bhe s)) as [tb|] eqn:Eb; [|discriminate]. cbn [bind] in E.
  destruct (results_text s) as [tr|] eqn:Er; [|discriminate]. cbn [bind] in E.
  destruct (create_dataframe_of_peak_analysis cl hl) as [df|] eqn:Ed; [|discriminate]. cbn [bind] in E.
  destruct (pydiv (gh_B s) (gh_H s)) as [q|] eqn:Eq; [|discriminate]. cbn [bind] in E.
  destruct (grab_g_function _ _ _ _ _ _) as (tt0, g) eqn:Eg. apply (f_equal snd) in E. cbn [snd] in E.
  apply bind_ok in E. destruct E as ((x, y) & -> & E). apply bind_ok in E. destruct E as (ps & Ep & E). apply Ok_inj in E. cbn [fst snd] in Ep.
  assert (Q0 : gh_H s <> 0 /\ q = gh_B s / gh_H s).
  { destruct (Req_dec (gh_H s) 0) as [Z|Z]; [rewrite Z, pydiv_R0 in Eq; discriminate|]. rewrite pydiv_R in Eq by exact Z. split; [exact Z|congruence]. }
  destruct Q0 as (Hz & ->).
  pose proof (bhe_quiet _ _ _ Eb) as Qb. pose proof (single_quiet (gh_H s) (gh_eq s)) as Qe. pose proof (results_quiet _ _ Er) as Qr.
  assert (Qp : Forall (fun l => heading l = false) sim_params_text) by (unfold Printing.sim_params_text; noheading).
  assert (Qt : Forall (fun l => heading l = false) (table_text df)) by (apply plain_headings, plain_tables).
  set (last := (["Coordinates"; ("x(m)" ++ tab ++ "y(m)")%string] ++ map (fun p : R * R => (str (fst p) ++ tab ++ str (snd p))%string) (gf_locations (gh_gf s)) ++
           ["G-Function"; ("ln(t/ts)" ++ tab ++ "g")%string] ++ map (fun p : R * R => (str4 str (fst p) ++ tab ++ str4 str (snd p))%string) ps)%list) in *.
  assert (Ql : Forall (fun l => heading l = false) last).
  { assert (N : forall u r, heading (str u ++ tab ++ r) = false).
    { intros u r. pose proof (plain_numbers u) as P. destruct (str u) as [|c w]; [reflexivity|]. revert P. unfold heading. cbn [after append]. destruct (Ascii.eqb _ _); [cbn [after]; destruct w; discriminate|reflexivity]. }
    unfold last. repeat first [apply Forall_app; split | apply Forall_cons; [reflexivity|] | apply Forall_nil]; apply Forall_map, Forall_forall; intros p _; apply N. }
  set (one := justify "Number of borheoles" _ :: _) in E.
  assert (Qo : Forall (fun l => heading l = false) one) by (unfold one; noheading).
  pose proof (eq_refl : last = last) as Elast. unfold last at 2 in Elast. clearbody last.
  assert (Qd : Forall (fun l => heading l = false) [chars "-" 50]) by noheading.
  assert (Qc : Forall (fun l => heading l = false) [class_text "HybridLoad"]) by noheading.
  repeat rewrite <- app_assoc in E.
  assert (C1 : chapter "GHEDT GHE Output - Version 0.1" ls = Some (chars "-" 50 :: chars "-" 50 :: one ++ [chars "-" 50])%list)
    by (rewrite <- E; to_chapter).
  assert (C2 : chapter "Borehole Heat Exchanger" ls = Some (chars "-" 50 :: tb ++ [chars "-" 50])%list) by (rewrite <- E; to_chapter).
  assert (C3 : chapter "Equivalent Borehole Heat Exchanger" ls = Some (chars "-" 50 :: single_text (gh_H s) (gh_eq s) ++ [chars "-" 50])%list) by (rewrite <- E; to_chapter).
  assert (C4 : chapter "Simulation parameters" ls = Some (chars "-" 50 :: sim_params_text ++ tr ++ [chars "-" 50])%list) by (rewrite <- E; to_chapter).
  assert (C5 : chapter "Simulation Results" ls = None).
  { rewrite <- E. to_title. rewrite <- (app_nil_r last), chapter_app by exact Ql. reflexivity. }
  assert (C6 : chapter "Peak Load Analysis" ls = Some (chars "-" 50 :: [class_text "HybridLoad"] ++ table_text df ++ [chars "-" 50])%list) by (rewrite <- E; to_chapter).
  assert (C7 : chapter "GFunction Information" ls = Some (chars "-" 50 :: last)).
  { rewrite <- E. to_title. rewrite <- (app_nil_r last), until_app by exact Ql. reflexivity. }
  assert (Dash : forall l t, existsb (String.eqb l) labels = true -> lookup l (chars "-" 50 :: t) = lookup l t).
  { intros l t Hl. apply existsb_exists in Hl. destruct Hl as (l0 & Hl & E0). apply String.eqb_eq in E0. subst l0. cbn [lookup]. now rewrite (proj2 dashes_plain l Hl). }
  assert (Sh : forall l t v u, existsb (String.eqb l) labels = true -> shown t l v u -> shown (chars "-" 50 :: t) l v u).
  { intros l t v u Hl (n & A & B). exists n. rewrite (Dash l t Hl). auto. }
  exists (chars "-" 50 :: chars "-" 50 :: one ++ [chars "-" 50])%list, (chars "-" 50 :: tb ++ [chars "-" 50])%list,
    (chars "-" 50 :: single_text (gh_H s) (gh_eq s) ++ [chars "-" 50])%list, (chars "-" 50 :: sim_params_text ++ tr ++ [chars "-" 50])%list, df, x, y, ps.
  split; [exact C1|].
  assert (O : Forall good [Entry "Number of borheoles" (str_int (zlen (gf_locations (gh_gf s)))); Entry "Depth of the borehole" (str4 str (gh_H s) ++ " (m)");
    Entry "Bore hole spacing" (str4 str (gh_B s) ++ " (m)")]) by good.
  split. { eexists. split; [rewrite !Dash by reflexivity; exact (lookup_render "Number of borheoles" _ _ eq_refl O)|apply str_int_reads]. }
  split. { apply shown_of. rewrite !Dash by reflexivity. exact (lookup_render "Depth of the borehole" _ _ eq_refl O). }
  split. { apply shown_of. rewrite !Dash by reflexivity. exact (lookup_render "Bore hole spacing" _ _ eq_refl O). }
  split; [exact C2|]. destruct (bhe_entries (gh_H s) (gh_bhe s) tb [chars "-" 50] Eb) as (B1 & B2).
  split; [exact (framed_data _ _ _ Eb)|]. split; [now apply Sh|]. split; [now apply Sh|].
  split. { cbn zeta. split; [exact C3|]. destruct (single_entries (gh_H s) (gh_eq s) [chars "-" 50]) as (_ & _ & _ & _ & _ & _ & D7).
    split; [exact (framed_data (gh_H s) (Single (gh_eq s)) _ eq_refl)|]. now apply Sh. }
  split; [exact C4|].
  set (par := [Plain [class_text "SimulationParameters"]; Entry "Start month" (str_int (st_start st) ++ " (months)"); Entry "End month" (str_int (st_end st) ++ "(months)");
    Entry "Max EFT Allowable" (str (st_max_EFT st) ++ " (degrees Celsius)"); Entry "Min EFT Allowable" (str (st_min_EFT st) ++ " (degrees Celsius)");
    Entry "Maximum height" (str (st_max_H st) ++ " (m)"); Entry "Minimum height" (str (st_min_H st) ++ " (m)")]).
  assert (P : Forall good par) by (unfold par; good). change sim_params_text with (render par).
  split. { split; [|split]; [eexists; split; [rewrite Dash by reflexivity; (rewrite lookup_render; [reflexivity|reflexivity|exact P])|apply str_int_reads]..|].
    repeat apply conj; rewrite Dash by reflexivity; (rewrite lookup_render; [reflexivity|reflexivity|exact P]). }
  split. { cbn zeta. unfold Printing.results_text in Er. destruct (fst (gh_results s)) as [|T0 T] eqn:ET.
    - left. apply Ok_inj in Er. subst tr. split; [reflexivity|]. repeat apply conj; rewrite Dash by reflexivity; (rewrite lookup_render; [|reflexivity|exact P]).
      all: cbn [app found par String.eqb Ascii.eqb Bool.eqb]; rewrite Dash by reflexivity; reflexivity.
    - right. apply bind_ok in Er. destruct Er as (mx & Emx & Er). apply bind_ok in Er. destruct Er as (mn & Emn & Er). apply Ok_inj in Er.
      exists mx, mn. split; [exact (nmaxl_max _ _ Emx)|]. split.
      { destruct (nminl_total (T0 :: T) ltac:(discriminate)) as (m' & A & B). assert (m' = mn) as -> by congruence. exact B. }
      set (res := [Entry "Max HP entering temp" (str4 str mx ++ " (degrees Celsius)"); Entry "Min HP entering temp" (str4 str mn ++ " (degrees Celsius)");
        Entry "Excess fluid temperature" (str4 str (cost (st_max_EFT st) (st_min_EFT st) mx mn) ++ " (degrees Celsius)")]).
      assert (Gr : Forall good res) by (unfold res; good). assert (Etr : tr = render res) by (subst tr; reflexivity). rewrite Etr.
      assert (Cost : cost (st_max_EFT st) (st_min_EFT st) mx mn = Rmax (mx - st_max_EFT st) (st_min_EFT st - mn)).
      { unfold cost, nmax. cbn [nsub NumR]. destruct (nlt _ _) eqn:X; [apply nlt_R in X; rewrite Rmax_right by lra|apply nlt_R_false in X; rewrite Rmax_left by lra]; reflexivity. }
      rewrite <- Cost. repeat apply conj; apply shown_of; rewrite Dash by reflexivity; (rewrite lookup_render; [|reflexivity|exact P]);
        (rewrite lookup_render; [reflexivity|reflexivity|exact Gr]). }
  split; [exact C5|]. split; [reflexivity|]. split; [exact C6|]. split; [first [reflexivity | rewrite Eg; reflexivity]|]. split; [|rewrite C7, Elast; reflexivity].
  intros L1 L2. destruct (C71_report_partial R x y L1 L2) as (idx & ps' & E1 & E2 & E3 & E4). exists idx. assert (ps' = ps) as -> by congruence. auto.
Qed.
End Printed.

(** ** the report on a delivered heat exchanger *)
Section Delivered.
Variable str : R -> string.
Variable str_pair : R * R -> string.
Variable str_points : list (R * R) -> string.
Variable class_text : string -> string.
Variable borehole_text : R -> R -> R -> list string.
Variable fluid_text : fluid -> list string.
Variable table_text : Report.table R -> list string.
Variable coaxial_pos : string.
Variable coaxial_s : R.
Variable h_circular : R -> R -> R -> R -> R -> R -> R -> R.
Variable h_annulus : R -> R -> R -> R -> R -> R -> R -> R -> R * R.
Variable r_conduction : R -> R -> R -> R.
Variable eff_u : R -> pg_u -> R -> R -> R.
Variable eff_c : R -> pg_c -> R -> R -> R.
Variable brentq : (R -> res R) -> R -> R -> list R * res R.
Variable solver : list R -> list R -> list R -> list R -> list R.
Variable interp : ikind -> list (R * R) -> R -> R.
Variable field_response : R -> list (R * R) -> R -> R -> R -> res (list R).
Variable brentq_dialogue : R -> R -> dialogue.
Variable st : settings.
Variable m : method.
Variable flow : flow_kind.
Variable V_flow : R.
Variable log_time : list R.
Notation simulated := (ghe_simulate h_circular h_annulus r_conduction eff_u eff_c brentq solver interp st).
Notation whole := (whole h_circular h_annulus r_conduction eff_u eff_c brentq solver interp field_response brentq_dialogue st m flow V_flow log_time).
Notation ordinary := (ordinary field_response brentq_dialogue st log_time).
Notation ghe_report := (ghe_report str str_pair str_points class_text borehole_text fluid_text table_text eff_u eff_c interp st coaxial_pos coaxial_s).

Lemma simulated_table mm s s' v : gh_H s <> 0 -> simulated mm s = (s', Ok v) -> exists x y,
  gh_gf s' = with_table (gh_gf s) (fst (grab_g_function interp (gh_gf s) (gh_B s / gh_H s) (st_rb st) x y)).
Proof.
  intros Hz E. unfold ghe_simulate in E. rewrite pydiv_R in E by exact Hz. destruct (compute_equivalent _ _ _ _ _ _) as [e|]; [|discriminate].
  destruct (short_time _ _ _ _ _) as [r|]; [|discriminate]. cbn [with_short_time with_eq with_bhe gh_gf gh_sts] in E. exists (fst (snd r)), (snd (snd r)).
  destruct (grab_g_function _ _ _ _ _ _) as (t, [c|]); [|discriminate]. destruct (simulate _ _ _ _ _ _ _ _ _ _ _ _ _ _) as [[[[T D] mx] mn]|]; [|discriminate].
  assert (Es : s' = with_results (with_gf (with_short_time (with_eq (with_bhe s (update_bhe h_circular h_annulus r_conduction eff_u eff_c (gh_H s) (gh_bhe s))) e) r) (with_table (gh_gf s) t)) (T, D)) by congruence.
  rewrite Es. reflexivity.
Qed.

(** C132: the exchanger that a design delivers can be printed when the long times of the g-function begin after 100 minutes, and printing does not
    change it *)
Theorem C132_report_of_delivered :
  forall gc r H mm sel s1 cl hl, ordinary -> whole gc r H mm = Ok (sel, s1) -> (27 <= List.length log_time)%nat ->
  (forall l, In l log_time -> 6000 <= gh_ts s1 * exp l) -> twelve_months cl -> twelve_months hl ->
  exists k c ls, sel = Some (k, c) /\ gf_locations (gh_gf s1) = c /\ ghe_report cl hl s1 = (s1, Ok ls).
Proof.
  intros gc r H mm sel s1 cl hl O E Hn Hl Hcl Hhl.
  destruct (C97_delivered_exchanger _ _ _ _ _ _ _ _ _ _ st m flow V_flow log_time gc r H mm sel s1 O E) as (k & c & s' & sm & s0 & v & -> & _ & Er & E0 & Es & N1 & L1 & R1).
  destruct (ready_ordinary _ _ _ _ _ _ _ _ _ _ _ _ _ c (st_max_H st) sm O Er) as (P1 & P2 & P3 & P4). pose proof (ordinary_limits _ _ _ _ O) as Lim.
  assert (Hf := ordinary_responses _ _ _ _ _ _ _ _ _ _ _ _ _ c (st_max_H st) sm O Er).
  destruct (ready_inv _ _ _ _ _ _ _ _ _ _ _ _ _ _ _ Er) as (V & mf & B & g & b & _ & _ & _ & A4 & _ & _ & _ & A8 & A9 & _).
  destruct (g_functions_cover field_response st sm s0 Lim Hf E0) as (T0 & N0 & F0 & B0 & B1 & Cv & R0).
  destruct (effective_kind_for k_default (List.length (gf_curves (gh_gf s0))) ltac:(lia) ltac:(discriminate)) as (kk & K0 & _).
  destruct (simulated_parts h_circular h_annulus r_conduction eff_u eff_c brentq solver interp field_response st Lim mm sm s0 (gh_H s1) v P1
    Hf E0 R1 ltac:(rewrite Es; reflexivity)) as (Q1 & Q2 & Q3 & x & y & Q4 & Q5). rewrite Es in Q1, Q2, Q3, Q4, Q5. cbn [fst] in *.
  assert (U : update_bhe h_circular h_annulus r_conduction eff_u eff_c (gh_H s1) (gh_bhe sm) = b) by (rewrite A8; exact (made_updated _ _ _ _ _ _ _ _ _ A4)).
  assert (Lt : gf_log_time (gh_gf s1) = log_time).
  { destruct (simulated_same h_circular h_annulus r_conduction eff_u eff_c brentq solver interp st mm (with_H s0 (gh_H s1))) as (_ & _ & _ & _ & _ & _ & _ & t & Q8).
    rewrite Es in Q8. cbn [fst with_H gh_gf] in Q8. rewrite Q8. cbn [with_table gf_log_time].
    destruct O as (O1 & O2 & O3 & O4 & O5). destruct (g_functions_inv field_response st log_time O2 O3 O4 sm s0 E0 P2) as (_ & _ & G). tauto. }
  (* the interpolation table *)
  assert (HBs : gh_B s1 = gh_B s0).
  { destruct (simulated_same h_circular h_annulus r_conduction eff_u eff_c brentq solver interp st mm (with_H s0 (gh_H s1))) as (Q & _). rewrite Es in Q. exact Q. }
  assert (Tab : forall u w, fst (grab_g_function interp (gh_gf s1) (gh_B s1 / gh_H s1) (st_rb st) u w) = gf_table (gh_gf s1)).
  { destruct (simulated_table mm (with_H s0 (gh_H s1)) s1 v ltac:(cbn; lra) Es) as (u0 & w0 & Q). cbn [with_H gh_gf gh_B gh_H] in Q.
    assert (Zb : gh_B s0 / gh_H s1 <> 0) by (apply Rgt_not_eq, Rdiv_lt_0_compat; lra).
    assert (Eb : gf_B (gh_gf s0) / (gh_B s0 / gh_H s1) = gh_H s1) by (rewrite <- B0; field; split; [lra|rewrite B1; lra]).
    assert (Gr : forall t u w, t = t_empty \/ t = t_built kk false -> fst (grab_g_function interp (with_table (gh_gf s0) t) (gh_B s0 / gh_H s1) (st_rb st) u w) = t_built kk false).
    { intros t u w Ht. rewrite (grab_history interp (gh_gf s0) kk (gh_B s0 / gh_H s1) (st_rb st) u w T0 ltac:(lia) F0 Zb ltac:(rewrite Eb; now apply Cv) K0 t Ht). reflexivity. }
    rewrite (with_table_same (gh_gf s0) T0) in Q at 2. rewrite Gr in Q by now left. intros u w. rewrite HBs, Q, Gr by now right. reflexivity. }
  (* the g-function has enough points *)
  assert (Len : List.length x = List.length y /\ (77 <= List.length x)%nat).
  { unfold short_time in Q3. cbn zeta in Q3. set (u := utube_of eff_u st (gh_H s1) (gh_eq s1)) in *. apply bind_ok in Q3. destruct Q3 as ((sts, gg0) & Ec & Q3). apply Ok_inj in Q3.
    assert (T : gh_ts s1 = t_s u) by congruence. assert (S1 : gh_sts s1 = (sts, gg0)) by congruence. rewrite S1 in Q4. cbn [fst snd] in Q4.
    unfold grab_g_function in Q4. destruct (g_function_interpolation _ _ _ _) as (t, rr). cbn [snd] in Q4. apply bind_ok in Q4. destruct Q4 as ((((gg, rbv), ?), ?) & _ & Q4).
    rewrite Lt in Q4. destruct (calc_ok solver u None) as (m0 & M1 & _ & M3 & M4).
    assert (Hfu : (m0 < short_time_fuel u)%nat) by (apply Nat.nle_gt; intro X; rewrite M3 in Ec by exact X; discriminate). rewrite M4 in Ec by exact Hfu.
    destruct (Ok_pair _ _ _ _ Ec) as (Es' & _). assert (P : 0 < / 1000000000000 < 1) by (split; [apply Rinv_0_lt_compat; lra|lra]).
    assert (Hm : (50 <= S m0)%nat).
    { destruct (le_lt_dec 50 (S m0)) as [X|X]; [exact X|exfalso]. pose proof (calc_time_covers u). cbn [final_of] in M1. unfold entry_time in M1.
      assert (INR m0 <= 48) by (change 48 with (IZR (Z.of_nat 48)); rewrite <- INR_IZR_INZ; apply le_INR; lia). lra. }
    destruct (combined_length _ _ _ _ _ _ 50 Q4) as (C1 & C2); [| |split; [exact C1|lia]].
    - rewrite <- Es', map_length, seq_length. exact Hm.
    - intros k0 v0 l Hk Ev Hin. specialize (Hl l Hin). rewrite T in Hl.
      assert (Hts : 0 < t_s u). { pose proof (exp_pos l). apply Rnot_le_lt. intro X. assert (t_s u * exp l <= 0 * exp l) by (apply Rmult_le_compat_r; lra). lra. }
      rewrite <- Es' in Ev. rewrite nth_error_map in Ev. rewrite (nth_error_nth' _ 0%nat) in Ev by (rewrite seq_length; lia). rewrite seq_nth in Ev by lia. cbn [option_map plus] in Ev. injection Ev as <-.
      pose proof (entry_pos k0) as Hp. rewrite <- (ln_exp l). assert (Q : entry_time k0 / t_s u <= exp l).
      { apply (Rmult_le_reg_r (t_s u)); [exact Hts|]. unfold Rdiv. rewrite Rmult_assoc, Rinv_l, Rmult_1_r by lra. rewrite Rmult_comm.
        assert (entry_time k0 <= 6000); [|lra]. unfold entry_time.
        assert (INR k0 <= 49) by (change 49 with (IZR (Z.of_nat 49)); rewrite <- INR_IZR_INZ; apply le_INR; lia). lra. }
      destruct Q as [Q| ->]; [left; apply ln_increasing; [apply Rdiv_lt_0_compat; assumption|exact Q]|right; reflexivity]. }
  destruct Len as (Lx & Ln). destruct (C71_report_partial R x y Lx ltac:(lia)) as (idx & ps & Ep & _).
  destruct (C108_table cl hl Hcl Hhl) as (df & Ed & _).
  assert (Tb : exists tb, bhe_text str str_pair str_points class_text borehole_text fluid_text eff_u eff_c st coaxial_pos coaxial_s (gh_H s1) (gh_bhe s1) = Ok tb).
  { rewrite Q2, U. clear - A4. unfold make_bhe in A4. destruct (st_class st) as [p|p|i o eps kk rc].
    - apply bind_ok in A4. destruct A4 as (z & _ & A4). apply Ok_inj in A4. subst b. eexists. reflexivity.
    - apply bind_ok in A4. destruct A4 as (z & Ez & A4). apply Ok_inj in A4. subst b. unfold multiple_u_tube, make_u in Ez. apply bind_ok in Ez. destruct Ez as (mp & _ & Ez). apply Ok_inj in Ez. subst z.
      eexists. reflexivity.
    - apply Ok_inj in A4. subst b. eexists. reflexivity. }
  destruct Tb as (tb & Tb).
  assert (Tr : exists tr, results_text str st s1 = Ok tr).
  { unfold results_text. destruct (fst (gh_results s1)) as [|T0' T]; [eexists; reflexivity|].
    destruct (nmaxl_total (T0' :: T) ltac:(discriminate)) as (mx & -> & _). destruct (nminl_total (T0' :: T) ltac:(discriminate)) as (mn & -> & _). eexists. reflexivity. }
  destruct Tr as (tr & Tr).
  exists k, c. eexists. split; [reflexivity|]. split; [exact L1|].
  unfold Printing.ghe_report, base_ghe_text. rewrite Tb. cbn [bind]. rewrite Tr. cbn [bind]. rewrite Ed. cbn [bind]. rewrite pydiv_R by lra. cbn [bind].
  specialize (Tab (fst (gh_sts s1)) (snd (gh_sts s1))). destruct (grab_g_function _ _ _ _ _ _) as (t, gg). cbn [fst snd] in Tab, Q4. subst t gg. cbn [bind fst snd]. rewrite Ep. cbn [bind].
  f_equal. destruct s1 as [? ? ? ? ? ? ? gf ? ? ?]. destruct gf. reflexivity.
Qed.
End Delivered.

(** a case: the plant of Properties_Program.v, with plain texts *)
Definition a_number (x : R) : string := if Req_EM_T x 0 then "0" else if Rlt_dec x 0 then "-1" else "1".
Definition a_class (c : string) : string := "<class '" ++ c ++ "'>".
Definition a_borehole (H D r : R) : list string := ["Borehole(" ++ a_number H ++ ")"].
Definition a_fluid (f : fluid) : list string := ["Fluid(" ++ a_number (fl_rho f) ++ ")"].
Definition a_table (df : Report.table R) : list string := ["                  Total                    Peak"].
Definition some_loads : loads R := {| ld_hourly := []; ld_total := repeat 1 13; ld_peak := repeat 1 13; ld_average := repeat 1 13; ld_peak_day := repeat 1%Z 13;
  ld_two_day := []; ld_temps_pk := []; ld_temps_nm := []; ld_duration := repeat 1 13 |}.
Lemma begins_plain p r : (match p with String c _ => negb (Ascii.eqb "|" c) | EmptyString => false end) &&
  forallb (fun l => negb (String.prefix l p) && negb (String.prefix p l)) labels = true -> plain (p ++ r).
Proof.
  intro E. apply andb_true_iff in E. destruct E as (E1 & E2). split.
  - destruct p as [|c p]; [discriminate|]. unfold heading. cbn [append after]. destruct (Ascii.eqb "|" c); [discriminate|reflexivity].
  - intros l Hin. rewrite forallb_forall in E2. specialize (E2 l Hin). apply andb_true_iff in E2. destruct E2 as (A & B). apply negb_true_iff in A, B.
    unfold value. now rewrite (after_mismatch l p r A B).
Qed.
Lemma texts_plain : (forall x, heading (a_number x) = false) /\ (forall c, plain (a_class c)) /\ (forall H D r, Forall plain (a_borehole H D r)) /\
  (forall f, Forall plain (a_fluid f)) /\ (forall df, Forall plain (a_table df)).
Proof.
  split; [intro x; unfold a_number; destruct (Req_EM_T x 0); [reflexivity|destruct (Rlt_dec x 0); reflexivity]|].
  repeat apply conj; intros; try (apply Forall_cons; [|apply Forall_nil]); try (apply begins_plain; reflexivity).
  apply (begins_plain "                  Total                    Peak" ""); reflexivity.
Qed.
Notation plant_report st := (ghe_report a_number (fun _ => "(1, 1)") (fun _ => "[(1, 1)]") a_class a_borehole a_fluid a_table plant_Rb plant_Rc plant_lookup st "(0, 0)" 0).
(** the two boreholes of C95_C97_example: the delivered exchanger is printed; the report gives the number of boreholes and the temperatures, which are
    not below a heading of their own: GHE.__repr__ makes this heading (ground_heat_exchangers.py:239) and drops it *)
Theorem C132_results_heading_refuted :
  exists V hi lo k c s1 ls top par, let st := plant hi lo high_height low_height in
  plant_whole st V garden rectangle_routine high_height m_hourly = Ok (Some (k, c), s1) /\ fst (gh_results s1) <> [] /\ plant_report st some_loads some_loads s1 = (s1, Ok ls) /\
  chapter "GHEDT GHE Output - Version 0.1" ls = Some top /\ (exists v, lookup "Number of borheoles" top = Some v /\ option_map Z.of_int (NilZero.int_of_string v) = Some 2%Z) /\
  chapter "Simulation parameters" ls = Some par /\ lookup "Max HP entering temp" par <> None /\
  chapter "Simulation Results" ls = None.
Proof.
  destruct plant_limits as (V & hi & lo & L). destruct (plant_designed V hi lo L) as (k & c & s' & s1 & O & Ep & Lc & Ew & Hs1 & _). cbn zeta in *.
  set (st := plant hi lo high_height low_height) in *.
  destruct (delivered_time _ _ _ _ _ _ _ _ _ _ _ _ _ _ _ _ _ _ _ _ _ O Ew) as (mf & b & Eb & Ee & Et). rewrite Hs1 in Ee, Et.
  assert (Ts : gh_ts s1 = 120060 * exp (17 / 2)).
  { destruct (plant_bhe hi lo high_height low_height mf) as (e & Eb' & Hu0). assert (b = Single e) as -> by (apply Ok_inj; rewrite <- Eb; exact Eb').
    destruct (plant_utube 120060) as (u & Hu). destruct (Hu _ _ _ _ _ _ Eb') as (_ & Ee' & _).
    assert (gh_eq s1 = e) as Eq by (apply Ok_inj; rewrite <- Ee; exact Ee'). rewrite Et, Eq. exact (proj2 (Hu0 120060 ltac:(lra))). }
  assert (T12 : twelve_months some_loads) by (repeat split).
  destruct (C132_report_of_delivered a_number (fun _ => "(1, 1)") (fun _ => "[(1, 1)]") a_class a_borehole a_fluid a_table "(0, 0)" 0 _ _ _ _ _ _ _ _ _ _ st _ _ _ eskilson
    garden rectangle_routine high_height m_hourly _ s1 some_loads some_loads O Ew) as (k' & c' & ls & Ek & Lk & Er); [| |exact T12|exact T12|].
  { unfold eskilson. rewrite map_length. vm_compute. lia. }
  { intros l Hin. rewrite Ts, Rmult_assoc, <- exp_plus. assert (1 <= exp (17 / 2 + l)); [|lra]. rewrite <- exp_0.
    assert (Hl : - (17 / 2) <= l). { destruct eskilson_head as (r & Er). rewrite Er in Hin. pose proof eskilson_increasing as Inc. rewrite Er in Inc. destruct Hin as [<- |Hin]; [lra|]. left. now apply (increasing_head _ _ Inc). }
    destruct Hl as [Hl|<-]; [left; apply exp_increasing; lra|right; f_equal; lra]. }
  destruct texts_plain as (X1 & X2 & X3 & X4 & X5). assert (c' = c) as -> by congruence.
  destruct (C132_report a_number (fun _ => "(1, 1)") (fun _ => "[(1, 1)]") a_class a_borehole a_fluid a_table X1 X2 X3 X4 X5 plant_Rb plant_Rc plant_lookup st "(0, 0)" 0 some_loads some_loads s1 s1 ls Er)
    as (top & own & eq & par & df & x & y & ps & Y1 & (w & Y2 & Y2') & _ & _ & _ & _ & _ & _ & _ & Y3 & _ & Y4 & Y5 & _).
  destruct (C97_delivered_exchanger _ _ _ _ _ _ _ _ _ _ st _ _ _ _ garden rectangle_routine high_height m_hourly _ s1 O Ew) as (? & ? & ? & sm & s0 & (mx0, mn0) & _ & _ & _ & _ & Es & _).
  assert (NE : fst (gh_results s1) <> []) by (destruct (sim_extremes _ _ _ _ _ _ _ _ _ _ _ _ _ _ Es) as ((I1 & _) & _); intro Z; rewrite Z in I1; exact I1).
  exists V, hi, lo, k, c, s1, ls, top, par. cbn zeta. fold st. split; [exact Ew|]. split; [exact NE|]. split; [exact Er|]. split; [exact Y1|].
  split. { exists w. split; [exact Y2|]. rewrite Y2', Lk, Lc. reflexivity. }
  split; [exact Y3|]. split; [|exact Y5].
  destruct Y4 as [(Z & _)|(mx & mn & _ & _ & (n & Z & _) & _)]; [contradiction|]. rewrite Z. discriminate.
Qed.

Print Assumptions C132_layout.
Print Assumptions C132_rounding.
Print Assumptions C132_report.
Print Assumptions C132_report_of_delivered.
Print Assumptions C132_results_heading_refuted.
