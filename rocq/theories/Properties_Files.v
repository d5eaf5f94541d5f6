(** Property C129: what is saved to a file, and what is read back *)
From Coq Require Import ZArith Bool String List Lia.
From Verif Require Import Base Files.
Import ListNotations.
Open Scope string_scope.

Lemma append_length a b : String.length (a ++ b) = (String.length a + String.length b)%nat.
Proof. induction a as [|x a IH]; [reflexivity|]. cbn. now rewrite IH. Qed.
Lemma suffix_longer a s : s <> "" -> a ++ s <> a.
Proof. intros Hs E. apply (f_equal String.length) in E. rewrite append_length in E. destruct s; [congruence|]. cbn in E. lia. Qed.
Lemma suffix_injective a b s : a ++ s = b ++ s -> a = b.
Proof.
  revert b. induction a as [|x a IH]; intros [|y b] E; [reflexivity| | |].
  - exfalso. apply (f_equal String.length) in E. cbn in E. rewrite append_length in E. lia.
  - exfalso. apply (f_equal String.length) in E. cbn in E. rewrite append_length in E. lia.
  - cbn in E. injection E as -> E. f_equal. now apply IH.
Qed.

(** a save that succeeds is read back from the name with its suffix; no other file changes, and no directory *)
Theorem C129_round_trip :
  forall (bytes value : Type) (encode : value -> bytes * option exn) (decode : bytes -> res value) t name d,
  (let (b, e) := encode d in decode b = Ok d /\ e = None) ->
  (exists t', js_dump bytes value encode t name d = (t', Ok tt) /\ js_load bytes value decode t' (name ++ ".json") = Ok d /\
     (forall p, p <> name ++ ".json" -> file bytes t' p = file bytes t p) /\ directory bytes t' = directory bytes t) /\
  (exists t', create_input_file bytes value encode t d name = (t', Ok tt) /\ read_input_file bytes value decode t' (name ++ ".obj") = Ok d /\
     (forall p, p <> name ++ ".obj" -> file bytes t' p = file bytes t p) /\ directory bytes t' = directory bytes t).
Proof.
  intros bytes value encode decode t name d H. unfold js_dump, create_input_file, save. destruct (encode d) as (b, e). destruct H as [Hd ->].
  split; (eexists; split; [reflexivity|]); (split; [unfold js_load, read_input_file, contents; cbn; rewrite String.eqb_refl; exact Hd|]);
    (split; [intros p Hp; cbn; apply String.eqb_neq in Hp; now rewrite Hp|reflexivity]).
Qed.

(** read with the name it was saved under, a file is not seen: the answer is that from before the save *)
Theorem C129_bare_name :
  forall (bytes value : Type) (encode : value -> bytes * option exn) (decode : bytes -> res value) t name d,
  js_load bytes value decode (fst (js_dump bytes value encode t name d)) name = js_load bytes value decode t name /\
  read_input_file bytes value decode (fst (create_input_file bytes value encode t d name)) name = read_input_file bytes value decode t name.
Proof.
  intros. unfold js_dump, create_input_file, save, js_load, read_input_file, contents. destruct (encode d) as (b, e). cbn.
  assert (N : forall s, s <> "" -> (name =? name ++ s)%string = false) by (intros s Hs; apply String.eqb_neq; intro X; symmetry in X; revert X; now apply suffix_longer).
  rewrite !N by discriminate. now split.
Qed.
(** so that a saved value could be loaded with the name it was saved under is false *)
Theorem C129_same_name_refuted :
  exists (bytes value : Type) (encode : value -> bytes * option exn) (decode : bytes -> res value) t name d,
  (let (b, e) := encode d in decode b = Ok d /\ e = None) /\
  snd (js_dump bytes value encode t name d) = Ok tt /\ js_load bytes value decode (fst (js_dump bytes value encode t name d)) name = Err OtherError.
Proof.
  exists nat, nat, (fun d => (d, None)), (fun b => Ok b), {| file := fun _ => None; directory := fun _ => false |}, "ghedt_output", 5%nat. repeat split.
Qed.

(** saving several designs: a name holds the design saved under it last; names never disturb each other *)
Fixpoint save_all {bytes value} (encode : value -> bytes * option exn) (t : tree bytes) (l : list (string * value)) : tree bytes :=
  match l with
  | [] => t
  | (name, d) :: l => save_all encode (fst (create_input_file bytes value encode t d name)) l
  end.
Theorem C129_last_save_wins :
  forall (bytes value : Type) (encode : value -> bytes * option exn) (decode : bytes -> res value) t before after name d,
  (let (b, e) := encode d in decode b = Ok d /\ e = None) -> ~ In name (map fst after) ->
  read_input_file bytes value decode (save_all encode t (before ++ (name, d) :: after)%list) (name ++ ".obj") = Ok d.
Proof.
  intros bytes value encode decode t before after name d H Hn.
  assert (A : forall l t', ~ In name (map fst l) -> file bytes (save_all encode t' l) (name ++ ".obj") = file bytes t' (name ++ ".obj")).
  { induction l as [|(n, v) l IH]; intros t' Hl; [reflexivity|]. cbn [save_all]. rewrite IH by (intro X; apply Hl; now right).
    unfold create_input_file, save. destruct (encode v) as (b, e). cbn. replace (name ++ ".obj" =? n ++ ".obj")%string with false; [reflexivity|].
    symmetry. apply String.eqb_neq. intro X. apply suffix_injective in X. apply Hl. now left. }
  revert t. induction before as [|(n, v) l IH]; intro t; [|apply IH]. cbn [app save_all]. unfold read_input_file, contents. rewrite A by exact Hn.
  unfold create_input_file, save. destruct (encode d) as (b, e). cbn. rewrite String.eqb_refl. exact (proj1 H).
Qed.

(** a save that fails leaves neither the old file nor a readable new one *)
Theorem C129_failed_save_refuted :
  exists (bytes value : Type) (encode : value -> bytes * option exn) (decode : bytes -> res value) t name d d',
  js_load bytes value decode t (name ++ ".json") = Ok d /\ snd (js_dump bytes value encode t name d') = Err TypeError /\
  js_load bytes value decode (fst (js_dump bytes value encode t name d')) (name ++ ".json") = Err ValueError.
Proof.
  exists (list nat), (option nat), (fun d => match d with Some n => ([n], None) | None => ([], Some TypeError) end),
    (fun b => match b with [n] => Ok (Some n) | _ => Err ValueError end), {| file := fun _ => Some [5%nat]; directory := fun _ => false |}, "ghedt_output", (Some 5%nat), None.
  repeat split.
Qed.

(** design_from_input.py after a script that saved its design as 'ghedt_input': the exported file is that of the saved design *)
Theorem C129_from_file :
  forall (bytes design exported : Type) (pickled : design -> bytes * option exn) unpickled (written : exported -> bytes * option exn) loaded run t d x,
  (let (b, e) := pickled d in unpickled b = Ok d /\ e = None) -> run d = Ok x -> (let (b, e) := written x in loaded b = Ok x /\ e = None) ->
  exists t', design_from_input bytes design exported unpickled written run (fst (create_input_file bytes design pickled t d "ghedt_input")) = (t', Ok tt) /\
  js_load bytes exported loaded t' "ghedt_output.json" = Ok x /\
  read_input_file bytes design unpickled t' "ghedt_input.obj" = Ok d.
Proof.
  intros bytes design exported pickled unpickled written loaded run t d x Hd Hr Hx.
  destruct (C129_round_trip bytes design pickled unpickled t "ghedt_input" d Hd) as (_ & t1 & E1 & E2 & _). rewrite E1. cbn [fst].
  unfold design_from_input. change ("ghedt_input" ++ ".obj") with "ghedt_input.obj" in E2. rewrite E2. cbn [bind]. rewrite Hr.
  destruct (C129_round_trip bytes exported written loaded t1 "ghedt_output" x Hx) as ((t2 & F1 & F2 & F3 & _) & _). rewrite F1. exists t2.
  split; [reflexivity|]. split; [exact F2|]. unfold read_input_file, contents in *. rewrite F3 by discriminate. exact E2.
Qed.

(** create_if_not: afterwards the directory is there, with everything above it, and no file was touched - unless the path is a file *)
Theorem C129_create_if_not :
  forall bytes up t path, In path (up path) ->
  match create_if_not bytes up t path with
  | (t', Ok _) => exists_at bytes t' path = true /\ file bytes t' = file bytes t /\ (forall p, directory bytes t p = true -> directory bytes t' p = true) /\
                  (file bytes t path = None -> directory bytes t' path = true) /\ create_if_not bytes up t' path = (t', Ok tt)
  | (t', Err _) => t' = t /\ exists p, In p (up path) /\ file bytes t p <> None
  end.
Proof.
  intros bytes up t path Hup. unfold create_if_not. destruct (exists_at bytes t path) eqn:E.
  - rewrite E. split; [reflexivity|]. split; [reflexivity|]. split; [auto|]. split; [|reflexivity].
    intro N. unfold exists_at in E. rewrite N, orb_false_r in E. exact E.
  - destruct (existsb _ (up path)) eqn:X.
    + split; [reflexivity|]. apply existsb_exists in X as (p & Hp & Y). exists p. split; [exact Hp|]. now destruct (file bytes t p).
    + assert (D : existsb (String.eqb path) (up path) = true) by (apply existsb_exists; exists path; split; [exact Hup|apply String.eqb_refl]).
      assert (A : exists_at bytes {| file := file bytes t; directory := fun p => existsb (String.eqb p) (up path) || directory bytes t p |} path = true).
      { unfold exists_at. cbn [directory file]. now rewrite D. }
      split; [exact A|]. split; [reflexivity|]. split; [intros p Hp; cbn [directory]; now rewrite Hp, orb_true_r|]. split; [intros _; cbn [directory]; now rewrite D|].
      now rewrite A.
Qed.

(** three designs saved as find_near_square's input scripts do, the first under the name of another script's design *)
Example C129_example :
  let encode := fun d : Z => ([d], None : option exn) in
  let decode := fun b => match b with [d] => Ok d | _ => Err ValueError end in
  let t := {| file := fun _ => None; directory := fun _ => false |} in
  let t' := save_all encode t [("ghedt_input", 1); ("ghedt_input", 2); ("double_u_tube", 3); ("coaxial_tube", 4)] in
  map (read_input_file _ _ decode t') ["ghedt_input.obj"; "double_u_tube.obj"; "coaxial_tube.obj"; "ghedt_input"] = [Ok 2; Ok 3; Ok 4; Err OtherError].
Proof. reflexivity. Qed.
Example C129_directories : let up := fun _ : string => ["a"; "a/b"] in let t := {| file := fun p => if String.eqb p "a/c" then Some 1 else None; directory := String.eqb "a" |} in
  In "a/b" (up "a/b") /\ map (directory _ (fst (create_if_not _ up t "a/b"))) ["a"; "a/b"; "a/c"] = [true; true; false] /\
  (let t2 := fst (create_if_not _ (fun _ => ["a"; "a/c"]) t "a/c") in directory _ t2 "a/c" = false).
Proof. repeat split. right. now left. Qed.

Print Assumptions C129_round_trip.
Print Assumptions C129_bare_name.
Print Assumptions C129_same_name_refuted.
Print Assumptions C129_last_save_wins.
Print Assumptions C129_failed_save_refuted.
Print Assumptions C129_from_file.
Print Assumptions C129_create_if_not.
