(** Model of a script that works with several designs, as tests/test_design.py:143-170 does: two Design objects are given the same
    Borehole object.  Design keeps the object it is given (design.py:20), find_design hands it to the search (design.py:89-119),
    GHE to the borehole heat exchanger (ground_heat_exchangers.py:31-32), which keeps it as well (pygfunction's pipes:
    self.b = borehole; borehole_heat_exchangers.py:260).  Nothing copies it except the equivalent single U-tube (equivalance.py:70).  The height of an exchanger
    is therefore the height of an object that other exchangers may share; it is assigned in search_routines.py:76 and
    ground_heat_exchangers.py:328 and 334.  The other attributes of the borehole, the fluid, pipe, grout and soil objects are never assigned.
    Not modelled: at which height a search that raises leaves the borehole ([interrupted], any height). *)
From Coq Require Import ZArith List Bool Reals.
From Verif Require Import Base Num Utilities Search Loads Ghe GFun Bhe Equiv Radial Export System Design Program.
Import ListNotations.
Open Scope R_scope.

(** the arguments of Design other than the borehole; the radius and depth of the borehole are in [ds_settings] *)
Record design_args : Type := {
  ds_settings : settings; ds_method : method; ds_flow : flow_kind; ds_V_flow : R;
  ds_constraints : @constraints R; ds_routine : routine }.

(** a GHE object: the number of its borehole object and the rest; gh_H of the rest is not used, see [seen] *)
Record exchanger : Type := { xc_borehole : nat; xc_settings : settings; xc_rest : ghe }.
(** the heights of the borehole objects and the GHE objects created so far *)
Record world : Type := { w_height : nat -> R; w_exchangers : list exchanger }.

(** d[a] = v *)
Definition assign (d : nat -> R) (a : nat) (v : R) : nat -> R := fun b => if Nat.eqb b a then v else d b.
(** l[k] = v for an existing k *)
Fixpoint replace {A} (l : list A) (k : nat) (v : A) : list A :=
  match l, k with
  | [], _ => []
  | _ :: l, O => v :: l
  | x :: l, S k => x :: replace l k v
  end.

(** the GHE object with the height its borehole has now *)
Definition seen (w : world) (e : exchanger) : ghe := with_H (xc_rest e) (w_height w (xc_borehole e)).

(** statements: Design(..., borehole, ...).find_design(), and methods of the GHE object with the given number (counted in order of creation) *)
Inductive statement : Type :=
| FindDesign (borehole : nat) (d : design_args)
| ComputeGFunctions (k : nat)
| SizeGhe (k : nat) (m : method)
| SimulateGhe (k : nat) (m : method).

Section Session.
Variable h_circular : R -> R -> R -> R -> R -> R -> R -> R.
Variable h_annulus : R -> R -> R -> R -> R -> R -> R -> R -> R * R.
Variable r_conduction : R -> R -> R -> R.
Variable eff_u : R -> pg_u -> R -> R -> R.
Variable eff_c : R -> pg_c -> R -> R -> R.
Variable brentq : (R -> res R) -> R -> R -> list R * res R.
Variable solver : list R -> list R -> list R -> list R -> list R.
Variable interp : ikind -> list (R * R) -> R -> R.
Variable field_response : R -> list (R * R) -> R -> R -> R -> res (list R).
Variable brentq_dialogue : R -> R -> dialogue.
Variable log_time : list R.
Variable interrupted : design_args -> R -> R.

(** find_design for a borehole of height H: what the search returns and the GHE object it leaves *)
Definition find (d : design_args) (H : R) : res (found (F := R) (V := R) * ghe) :=
  let! f := program h_circular h_annulus r_conduction eff_u eff_c brentq solver interp field_response brentq_dialogue
              (ds_settings d) (ds_method d) (ds_flow d) (ds_V_flow d) log_time (ds_constraints d) (ds_routine d) H in
  let! s := left_ghe h_circular h_annulus r_conduction eff_u eff_c brentq solver interp field_response brentq_dialogue
              (ds_settings d) (ds_flow d) (ds_V_flow d) log_time (ds_routine d) f in
  Ok (f, s).

(** a method that changes GHE object number k and the height of its borehole *)
Definition on_ghe (k : nat) (f : settings -> ghe -> ghe * res unit) (w : world) : world * res unit :=
  match nth_error (w_exchangers w) k with
  | None => (w, Err IndexError)
  | Some e =>
      let (s, r) := f (xc_settings e) (seen w e) in
      ({| w_height := assign (w_height w) (xc_borehole e) (gh_H s);
          w_exchangers := replace (w_exchangers w) k {| xc_borehole := xc_borehole e; xc_settings := xc_settings e; xc_rest := s |} |}, r)
  end.

Definition execute (c : statement) (w : world) : world * res unit :=
  match c with
  | FindDesign a d =>
      let H := w_height w a in
      match find d H with
      | Err e => ({| w_height := assign (w_height w) a (interrupted d H); w_exchangers := w_exchangers w |}, Err e)
      | Ok (_, s) =>
          ({| w_height := assign (w_height w) a (gh_H s);
              w_exchangers := w_exchangers w ++ [{| xc_borehole := a; xc_settings := ds_settings d; xc_rest := s |}] |}, Ok tt)
      end
  | ComputeGFunctions k =>
      on_ghe k (fun st s => match compute_g_functions field_response st s with Ok s' => (s', Ok tt) | Err e => (s, Err e) end) w
  | SizeGhe k m =>
      on_ghe k (fun st s => ghe_size h_circular h_annulus r_conduction eff_u eff_c brentq solver interp st brentq_dialogue m s) w
  | SimulateGhe k m =>
      on_ghe k (fun st s => let (s', r) := ghe_simulate h_circular h_annulus r_conduction eff_u eff_c brentq solver interp st m s in
                            (s', let! _ := r in Ok tt)) w
  end.

(** a script; exceptions are caught after every statement *)
Fixpoint run (cs : list statement) (w : world) : world :=
  match cs with
  | [] => w
  | c :: cs => run cs (fst (execute c w))
  end.

(** GHE object number k, with its height *)
Definition view (w : world) (k : nat) : option ghe := option_map (seen w) (nth_error (w_exchangers w) k).

End Session.
